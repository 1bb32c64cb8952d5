(** A concurrent run with an output channel: proofs. *)
From Verif Require Import Base Paths Level Kernel Session Defaults Filters Hooks Life Options Build Pool PoolFacts Output.
From Coq Require Import Permutation Lia.
Local Open Scope list_scope.

Section Facts.
Context {job : Type} (answer : job -> option error) (draining timeouts reading : bool) (now size outsize : nat)
  (jobs : list job).
Local Notation run := (run job).
Local Notation ostep := (@ostep job answer draining timeouts reading now size outsize).
Local Notation osteps := (@osteps job answer draining timeouts reading now size outsize).
Local Notation inv := (@inv job draining now size jobs).
Local Notation sent s := (map fst (ru_got s ++ ru_out s)).

Record oinv (s : run) : Prop := {
  oi_pool : inv (ru_pool s);
  oi_on : ru_on s <> None -> ru_pool s = pool_start jobs;
  oi_sending : exists others, Permutation (ru_sending s ++ others) (pl_running (ru_pool s));
  oi_sent : Permutation (pl_done (ru_pool s)) (sent s ++ ru_lost s);
  oi_answer : forall j a, In (j, a) (ru_got s ++ ru_out s) -> a = answer j;
  oi_out : length (ru_out s) <= outsize;
  oi_lost : timeouts = false -> ru_lost s = []
}.
Lemma oinv_start : forall w, oinv (run_start w jobs).
Proof.
  intro w. constructor; cbn; auto; try lia; try contradiction.
  - apply inv_start.
  - exists []. reflexivity.
Qed.

Lemma still_start : forall p', step draining now size (pool_start jobs) p' ->
  pl_todo p' = pl_todo (pool_start jobs) /\ pl_phase p' = pl_phase (pool_start jobs) -> False.
Proof.
  intros p' ST [A B]. inversion ST; subst; cbn in *; try discriminate.
  - apply (f_equal (@length job)) in A. cbn in A. lia.
  - apply (f_equal (@length job)) in A. cbn in A. lia.
  - match goal with X : ?l ++ ?y :: ?z = [] |- _ => destruct l; discriminate X end.
Qed.
Lemma not_ending : forall (p p' : pool job), step draining now size p p' -> pl_done p' = pl_done p ->
  pl_running p' = pl_running p \/ exists j, pl_running p' = pl_running p ++ [j].
Proof.
  intros p p' ST E. inversion ST; subst; cbn in *; eauto.
  exfalso. assert (X : length (dn ++ [j]) = length dn) by congruence. rewrite app_length in X. cbn in X. lia.
Qed.
Lemma ending : forall (p p' : pool job) j, step draining now size p p' -> pl_done p' = pl_done p ++ [j] ->
  exists a b, pl_running p = a ++ j :: b /\ pl_running p' = a ++ b /\ pl_todo p' = pl_todo p /\ pl_phase p' = pl_phase p.
Proof.
  intros p p' j ST E. inversion ST; subst; cbn in *;
    try (exfalso; match type of E with ?d = ?d ++ _ => assert (X : length d = length (d ++ [j])) by congruence end;
         rewrite app_length in X; cbn in X; lia).
  apply app_inv_head in E. injection E as <-. eauto 6.
Qed.
Lemma end_step : forall (p : pool job) a j b, pl_running p = a ++ j :: b ->
  exists p', step draining now size p p' /\ pl_done p' = pl_done p ++ [j].
Proof.
  intros [todo ph ch h ru st dn] a j b E. cbn in E. subst. eexists. split; [apply st_end|]. reflexivity.
Qed.

Lemma oinv_step : forall s s', oinv s -> ostep s s' -> oinv s'.
Proof.
  intros s s' [IP ON SG SE AN OU LO] ST.
  inversion ST; subst; cbn [ru_on ru_pool ru_sending ru_out ru_got ru_lost] in *.
  - constructor; cbn; auto; try (intro X; contradiction).
  - constructor; cbn; auto; rewrite <- ?app_assoc; auto; cbn in *; auto; try lia. intro. apply ON. discriminate.
  - constructor; cbn; auto; rewrite <- ?app_assoc; auto; cbn in *; auto; try lia.
  - constructor; cbn; auto; try (intro X; contradiction).
  - constructor; cbn; auto.
    + eapply inv_step; eassumption.
    + intro X. exfalso. rewrite (ON X) in *. destruct H1 as [Y|Y]; [contradiction|]. eapply still_start; eassumption.
    + destruct SG as [oth SG]. destruct (not_ending _ _ H H0) as [E|(j & E)]; rewrite E; [eauto|].
      exists (oth ++ [j]). rewrite app_assoc. apply Permutation_app_tail. exact SG.
    + rewrite H0. exact SE.
  - constructor; cbn; auto. destruct H as [oth P]. exists oth. rewrite <- P. rewrite <- app_assoc. cbn.
    symmetry. apply Permutation_middle.
  - destruct (ending _ _ _ H0 H1) as (a & b & R & R' & T & PH). constructor; cbn; auto.
    + eapply inv_step; eassumption.
    + intro X. exfalso. rewrite (ON X) in R. destruct a; discriminate R.
    + destruct SG as [oth SG]. exists oth. rewrite R'. rewrite R in SG.
      rewrite <- app_assoc in SG. cbn in SG. rewrite <- app_assoc. eapply Permutation_app_inv. exact SG.
    + rewrite H1. rewrite SE. rewrite !map_app. cbn. rewrite <- !app_assoc.
      repeat apply Permutation_app_head. apply Permutation_app_comm.
    + intros j' a' HI. rewrite app_assoc in HI. apply in_app_or in HI. destruct HI as [HI|[HI|[]]]; [auto|congruence].
    + rewrite app_length. cbn. lia.
  - destruct (ending _ _ _ H0 H1) as (a & b & R & R' & T & PH). constructor; cbn; auto.
    + eapply inv_step; eassumption.
    + intro X. exfalso. rewrite (ON X) in R. destruct a; discriminate R.
    + destruct SG as [oth SG]. exists oth. rewrite R'. rewrite R in SG.
      rewrite <- app_assoc in SG. cbn in SG. rewrite <- app_assoc. eapply Permutation_app_inv. exact SG.
    + rewrite H1. rewrite SE. rewrite <- !app_assoc. reflexivity.
    + congruence.
  - constructor; cbn; auto; rewrite <- ?app_assoc; auto; cbn in *; try lia.
Qed.
Lemma oinv_reach : forall w n s, osteps n (run_start w jobs) s -> oinv s.
Proof.
  intros w n s H. remember (run_start w jobs) as s0 eqn:E. revert E. induction H as [s|n s1 s2 s3 H IH ST]; intro E; subst.
  - apply oinv_start.
  - eapply oinv_step; [apply IH; reflexivity|exact ST].
Qed.
(** The pool of such a run is a state of Pool.v. *)
Lemma pool_reach : forall w n s, osteps n (run_start w jobs) s -> reachable_pool draining now size jobs (ru_pool s).
Proof.
  intros w n s H. remember (run_start w jobs) as s0 eqn:E. revert E. induction H as [s|n s1 s2 s3 H IH ST]; intro E; subst.
  - exists 0. constructor.
  - destruct (IH eq_refl) as [k K]. inversion ST; subst; cbn [ru_pool] in *; try (exists k; exact K); exists (S k); econstructor; eassumption.
Qed.

(** ** Termination *)
Definition oweight (s : run) : nat :=
  3 * weight (ru_pool s) + (length (pl_running (ru_pool s)) - length (ru_sending s)) + length (ru_out s) +
  match ru_on s with Some _ => 1 | None => 0 end.
Lemma oweight_step : forall s s', oinv s -> ostep s s' -> oweight s' < oweight s.
Proof.
  intros s s' [IP ON [oth SG] SE AN OU LO] ST. apply Permutation_length in SG. rewrite app_length in SG.
  inversion ST; subst; unfold oweight; cbn [ru_on ru_pool ru_sending ru_out ru_got ru_lost] in *; rewrite ?app_length in *; cbn [length] in *; try lia.
  - pose proof (weight_step _ _ _ _ _ H). destruct (not_ending _ _ H H0) as [E|(j & E)]; rewrite E; rewrite ?app_length; cbn [length]; lia.
  - destruct H as [o2 P]. apply Permutation_length in P. cbn in P. rewrite app_length in P. lia.
  - pose proof (weight_step _ _ _ _ _ H0). destruct (ending _ _ _ H0 H1) as (a & b & R & R' & T & PH).
    rewrite R in *. rewrite R'. rewrite !app_length in *. cbn [length] in *. lia.
  - pose proof (weight_step _ _ _ _ _ H0). destruct (ending _ _ _ H0 H1) as (a & b & R & R' & T & PH).
    rewrite R in *. rewrite R'. rewrite !app_length in *. cbn [length] in *. lia.
Qed.
Lemma obounded : forall w n s, osteps n (run_start w jobs) s -> n <= 12 * length jobs + 7.
Proof.
  intros w n s H.
  assert (X : n + oweight s <= oweight (run_start w jobs)).
  { remember (run_start w jobs) as s0 eqn:E. revert E. induction H as [s|n s1 s2 s3 H IH ST]; intro E; subst; [lia|].
    pose proof (IH eq_refl). pose proof (oweight_step _ _ (oinv_reach _ _ _ H) ST). lia. }
  assert (Y : oweight (run_start w jobs) = 12 * length jobs + 7) by (unfold oweight, weight, held, run_start, pool_start; cbn; lia). lia.
Qed.

(** ** On has to return before anything happens *)
Lemma on_blocks : forall w n s, w <> Awaits 0 -> osteps n (run_start w jobs) s -> s = run_start w jobs.
Proof.
  intros w n s NE H. remember (run_start w jobs) as s0 eqn:E. revert E. induction H as [s|n s1 s2 s3 H IH ST]; intro E; subst; [reflexivity|].
  pose proof (IH eq_refl) as ->. unfold run_start in *. exfalso.
  inversion ST; subst; try congruence; try discriminate.
  - match goal with X : _ = _ \/ _ |- _ => destruct X as [X|X]; [discriminate X|] end.
    eapply still_start; eassumption.
  - match goal with X : exists _, _ |- _ => destruct X as [o P]; apply Permutation_length in P; discriminate P end.
  - destruct sg1; discriminate.
  - destruct sg1; discriminate.
Qed.

(** ** Progress *)
Definition received_all (s : run) : Prop :=
  finished (ru_pool s) /\ ru_out s = [] /\ ru_sending s = [] /\ ru_on s = None.
Lemma idle_move : forall (p p' : pool job), pl_running p = [] -> step draining now size p p' -> pl_done p' = pl_done p.
Proof. intros p p' R ST. inversion ST; subst; cbn in *; try reflexivity. destruct ru1; discriminate. Qed.
(** room in the channel, or a reader *)
Definition roomy (s : run) : Prop := length (ru_out s) < outsize.
Lemma oprogress : 1 <= now -> forall s, oinv s -> ru_on s = None \/ ru_on s = Some (Awaits 0) ->
  ~ finished (ru_pool s) \/ ru_on s <> None -> (ru_sending s <> [] -> roomy s) -> exists s', ostep s s'.
Proof.
  intros NW [w p sg out got lost] I ON NF RM. destruct I as [IP _ [oth SG] SE AN OU LO].
  cbn [ru_on ru_pool ru_sending ru_out ru_got ru_lost] in *. unfold roomy in RM. cbn in RM.
  destruct ON as [->| ->]; [|eexists; apply os_return].
  destruct NF as [NF|NF]; [|contradiction].
  destruct sg as [|j sg].
  - destruct (pl_running p) as [|j ru] eqn:R.
    + destruct (progress _ _ _ _ NW p IP NF) as [p' ST]. eexists. eapply os_move; [exact ST|eapply idle_move; eassumption|auto].
    + eexists. apply (os_answer _ _ _ _ _ _ _ None p [] j). exists ru. rewrite R. reflexivity.
  - assert (HI : In j (pl_running p)). { eapply Permutation_in; [exact SG|]. left. reflexivity. }
    destruct (in_split _ _ HI) as (a & b & R). destruct (end_step p a j b R) as (p' & ST & D).
    eexists. apply (os_send _ _ _ _ _ _ _ None p p' [] j sg); [apply RM; discriminate|exact ST|exact D].
Qed.
Lemma oprogress_reading : 1 <= now -> 1 <= outsize -> reading = true -> forall s, oinv s ->
  ru_on s = None \/ ru_on s = Some (Awaits 0) -> ~ received_all s -> exists s', ostep s s'.
Proof.
  intros NW OS RD s I ON NF. destruct (ru_out s) as [|x out] eqn:O.
  - destruct (ru_on s) eqn:N.
    + apply (oprogress NW s I); [rewrite N; exact ON|right; rewrite N; discriminate|intros _; unfold roomy; rewrite O; cbn; lia].
    + assert (D : finished (ru_pool s) \/ ~ finished (ru_pool s)).
      { unfold finished. destruct (ru_pool s) as [todo ph ch h ru st dn]. cbn. destruct ph, ch, h, ru;
          try (right; intros (A & B & C & D); discriminate); left; auto. }
      destruct D as [D|D].
      * destruct NF. repeat split; try apply D; try assumption. destruct I as [_ _ [oth SG] _ _ _ _].
        destruct D as (_ & _ & _ & R). rewrite R in SG. symmetry in SG. apply Permutation_nil in SG.
        destruct (ru_sending s); [reflexivity|discriminate].
      * apply (oprogress NW s I); [auto|auto|intros _; unfold roomy; rewrite O; cbn; lia].
  - destruct s as [w p sg o got lost]. cbn in *. subst o. destruct ON as [->| ->].
    + eexists. apply os_receive. exact RD.
    + eexists. apply os_return.
Qed.
Lemma on_none : forall n s, osteps n (run_start (Awaits 0) jobs) s -> ru_on s = None \/ ru_on s = Some (Awaits 0).
Proof.
  intros n s H. remember (run_start (Awaits 0) jobs) as s0 eqn:E. revert E. induction H as [s|n s1 s2 s3 H IH ST]; intro E; subst; [right; reflexivity|].
  specialize (IH eq_refl). inversion ST; subst; cbn in *; auto; destruct IH; congruence.
Qed.
Lemma all_received : draining = true -> timeouts = false -> forall s, oinv s -> received_all s ->
  pl_phase (ru_pool s) = Returned /\ Permutation (ru_got s) (map (fun j => (j, answer j)) jobs).
Proof.
  intros DR TO s [IP ON SG SE AN OU LO] (F & O & S & N). split; [apply F|].
  destruct (finished_all _ _ _ _ DR _ IP F) as [_ D]. rewrite O in *. rewrite (LO TO) in *. rewrite !app_nil_r in *.
  assert (G : ru_got s = map (fun j => (j, answer j)) (map fst (ru_got s))).
  { clear - AN. induction (ru_got s) as [|[j a] l IH]; [reflexivity|]. cbn. rewrite <- IH by (intros; apply AN; right; assumption).
    rewrite (AN j a) by (left; reflexivity). reflexivity. }
  rewrite G. apply Permutation_map. rewrite <- SE. exact D.
Qed.

(** ** Nobody reads *)
Lemma never_closed : reading = false -> timeouts = false -> outsize + now + 1 + size < length jobs ->
  forall n s, osteps n (run_start (Awaits 0) jobs) s -> pl_phase (ru_pool s) = Navigating /\ ru_got s = [].
Proof.
  intros RD0 TO0 LT n s H. assert (RD : reading <> true) by congruence. assert (TO : timeouts <> true) by congruence.
  clear RD0 TO0. remember (run_start (Awaits 0) jobs) as s0 eqn:E. revert E.
  induction H as [s|n s1 s2 s3 H IH ST]; intro E; subst; [split; reflexivity|].
  destruct (IH eq_refl) as [PH GT]. pose proof (oinv_reach _ _ _ H) as I. pose proof (on_none _ _ H) as ON.
  inversion ST; subst; cbn [ru_on ru_pool ru_sending ru_out ru_got ru_lost] in *; try (split; assumption); try (destruct ON; discriminate).
  - split; [|exact GT].
    match goal with X : step _ _ _ p p' |- _ => inversion X; subst; cbn in *; try assumption; try congruence end.
    exfalso. destruct I as [IP _ _ SE _ OU LO]. cbn in *. rewrite (LO (not_true_is_false _ TO)) in SE. rewrite app_nil_r in SE. 
    destruct IP as [A B C D (dr & EQ & F)]. cbn in *. rewrite F in EQ by (right; discriminate). cbn in EQ.
    apply Permutation_length in SE. apply Permutation_length in D. rewrite map_length in SE. rewrite app_length in D.
    rewrite EQ in LT. rewrite !app_length in LT. unfold held in LT. cbn in LT.
    unfold output in *. destruct h; cbn in LT; cbn in *; lia.
  - split; [|exact GT]. destruct (ending _ _ _ H1 H2) as (a & b & R & R' & T & P). congruence.
  - congruence.
  - congruence.
Qed.
Lemma oprogress_small : 1 <= now -> timeouts = false -> length jobs <= outsize -> forall s, oinv s ->
  ru_on s = None \/ ru_on s = Some (Awaits 0) -> ~ finished (ru_pool s) \/ ru_on s <> None -> exists s', ostep s s'.
Proof.
  intros NW TO LE s I ON NF. apply (oprogress NW s I ON NF). intro NS. unfold roomy.
  destruct I as [IP _ [oth SG] SE _ OU LO]. rewrite (LO TO) in SE. rewrite app_nil_r in SE.
  destruct IP as [A B C D (dr & EQ & F)].
  apply Permutation_length in SE. apply Permutation_length in D. apply Permutation_length in SG.
  rewrite map_length in SE. rewrite app_length in *. rewrite EQ in LE. rewrite !app_length in LE.
  destruct (ru_sending s); [contradiction|]. cbn in SG. lia.
Qed.
End Facts.
