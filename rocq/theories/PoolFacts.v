(** The concurrent navigator: proofs. *)
From Verif Require Import Base Paths Level Kernel Session Defaults Filters Hooks Life Options Build Pool.
From Coq Require Import Permutation Lia.

Section Facts.
Context {job : Type} (draining : bool) (now size : nat) (jobs : list job).
Local Notation pool := (pool job).
Local Notation step := (@step job draining now size).
Local Notation steps := (@steps job draining now size).

Definition held (s : pool) : list job := match pl_hand s with Some j => [j] | None => [] end.
Record inv (s : pool) : Prop := {
  in_chan : length (pl_chan s) <= size;
  in_run : length (pl_running s) <= now;
  in_dead : pl_phase s <> Navigating -> pl_todo s = [];
  in_done : Permutation (pl_done s ++ pl_running s) (pl_started s);
  in_order : exists dr, jobs = pl_started s ++ dr ++ held s ++ pl_chan s ++ pl_todo s /\
    (draining = true \/ pl_phase s <> Returned -> dr = [])
}.

Lemma inv_start : inv (pool_start jobs).
Proof.
  constructor; cbn; try lia; auto; try contradiction. exists []. split; [reflexivity|auto].
Qed.

Lemma inv_step : forall s s', inv s -> step s s' -> inv s'.
Proof.
  intros s s' [A B C D (dr & E & F)] ST. inversion ST; subst; unfold held in *; cbn [pl_todo pl_phase pl_chan pl_hand pl_running pl_started pl_done] in *.
  - constructor; cbn; auto; try (rewrite app_length; cbn; lia); try contradiction.
    exists dr. split; [|exact F]. rewrite E. rewrite <- !app_assoc. reflexivity.
  - constructor; cbn; auto; try lia; try contradiction. exists dr. split; [|exact F]. exact E.
  - constructor; cbn in *; auto; try lia. exists dr. split; [exact E|exact F].
  - assert (DR : dr = []). { apply F. destruct ph; [right; discriminate|right; discriminate|left; auto]. }
    subst dr. constructor; cbn; auto; try (rewrite app_length; cbn; lia).
    + rewrite app_assoc. apply Permutation_app_tail. exact D.
    + exists []. split; [|auto]. rewrite E. cbn. rewrite <- !app_assoc. reflexivity.
  - constructor; cbn; auto.
    + rewrite app_length in *. cbn in B. lia.
    + rewrite <- D. rewrite <- !app_assoc. apply Permutation_app_head. cbn. apply Permutation_middle.
    + exists dr. split; assumption.
  - constructor; cbn; auto. exists dr. split; [exact E|]. intros _. apply F. right. discriminate.
  - constructor; cbn; auto. { intros _. apply C. discriminate. }
    exists dr. split; [exact E|]. intros _. apply F. right. discriminate.
  - constructor; cbn; auto. exists (dr ++ [j]). split; [rewrite E; rewrite <- !app_assoc; reflexivity|].
    intros [X|X]; congruence.
Qed.
Lemma inv_reach : forall n s, steps n (pool_start jobs) s -> inv s.
Proof.
  intros n s H. remember (pool_start jobs) as s0 eqn:E. revert E. induction H as [s|n s1 s2 s3 H IH ST]; intro E; subst.
  - apply inv_start.
  - eapply inv_step; [apply IH; reflexivity|exact ST].
Qed.

(** ** Termination *)
Definition weight (s : pool) : nat :=
  4 * length (pl_todo s) + 3 * length (pl_chan s) + 2 * length (held s) + length (pl_running s) +
  match pl_phase s with Navigating => 2 | ChannelClosed => 1 | Returned => 0 end.
Lemma weight_step : forall s s', step s s' -> weight s' < weight s.
Proof.
  intros s s' ST. inversion ST; subst; unfold weight, held; cbn [pl_todo pl_phase pl_chan pl_hand pl_running length]; rewrite ?app_length; cbn [length]; lia.
Qed.
Lemma bounded : forall n s s', steps n s s' -> n + weight s' <= weight s.
Proof.
  intros n s s' H. induction H as [s|n s1 s2 s3 H IH ST]; [lia|]. pose proof (weight_step _ _ ST). lia.
Qed.

(** ** Progress *)
Definition finished (s : pool) : Prop := pl_phase s = Returned /\ pl_chan s = [] /\ pl_hand s = None /\ pl_running s = [].
Lemma progress : 1 <= now -> forall s, inv s -> ~ finished s -> exists s', step s s'.
Proof.
  intros NW s I NF. destruct s as [todo ph ch h ru st dn]. unfold finished in NF. cbn in NF.
  destruct ru as [|j ru]; [|eexists; apply (st_end draining now size todo ph ch h [] j ru)].
  destruct h as [j|].
  { destruct ph.
    - eexists. apply st_begin; [cbn; lia|discriminate].
    - eexists. apply st_begin; [cbn; lia|discriminate].
    - destruct draining eqn:D.
      + eexists. apply st_begin; [cbn; lia|auto].
      + eexists. apply st_discard. reflexivity. }
  destruct ch as [|j ch]; [|eexists; apply st_take].
  destruct ph.
  - destruct todo as [|j todo]; [eexists; apply st_close|eexists; apply st_rendezvous].
  - eexists. apply st_release.
  - destruct NF. auto.
Qed.

Lemma quiet_finished : 1 <= now -> forall s, inv s -> quiet draining now size s -> finished s.
Proof.
  intros NW s I Q.
  assert (D : finished s \/ ~ finished s).
  { unfold finished. destruct s as [todo ph ch h ru st dn]. cbn. destruct ph, ch, h, ru;
      try (right; intros (A & B & C & D); discriminate); left; auto. }
  destruct D as [D|D]; [exact D|]. destruct (progress NW s I D) as [s' ST]. destruct (Q s' ST).
Qed.

Lemma finished_all : draining = true -> forall s, inv s -> finished s -> pl_started s = jobs /\ Permutation (pl_done s) jobs.
Proof.
  intros DR s [A B C D (dr & E & F)] (P & Q & R & S). unfold held in E. rewrite Q, R in E.
  rewrite C in E by (rewrite P; discriminate). rewrite F in E by auto. cbn in E. rewrite app_nil_r in E.
  split; [congruence|]. rewrite S, app_nil_r in D. rewrite D, E. reflexivity.
Qed.

(** ** Every job but the last is done, the last one is with the reader, and Navigate has returned. *)
Lemma steps_trans : forall n m s1 s2 s3, steps n s1 s2 -> steps m s2 s3 -> exists k, steps k s1 s3.
Proof.
  intros n m s1 s2 s3 H1 H2. induction H2 as [s|m s2 s3 s4 H2 IH ST]; [eauto|].
  destruct (IH H1) as [k K]. exists (S k). econstructor; eassumption.
Qed.
Lemma do_all : 1 <= now -> forall pre rest st dn, exists n,
  steps n (mkPool (pre ++ rest) Navigating [] None [] st dn) (mkPool rest Navigating [] None [] (st ++ pre) (dn ++ pre)).
Proof.
  intros NW. induction pre as [|j pre IH]; intros rest st dn.
  - exists 0. rewrite !app_nil_r. constructor.
  - destruct (IH rest (st ++ [j]) (dn ++ [j])) as [n H]. rewrite <- !app_assoc in H. cbn [app] in H.
    eapply (steps_trans 3 n); [|exact H].
    econstructor; [econstructor; [econstructor; [constructor|]|]|].
    + apply st_rendezvous.
    + apply st_begin; [cbn; lia|discriminate].
    + apply (st_end draining now size (pre ++ rest) Navigating [] None [] j []).
Qed.
Lemma returned_early : 1 <= now -> forall pre j, jobs = pre ++ [j] -> exists n,
  steps n (pool_start jobs) (mkPool [] Returned [] (Some j) [] pre pre).
Proof.
  intros NW pre j E. unfold pool_start. rewrite E. destruct (do_all NW pre [j] [] []) as [n H]. cbn [app] in H.
  eapply (steps_trans n 3); [exact H|].
  econstructor; [econstructor; [econstructor; [constructor|]|]|].
  - apply st_rendezvous.
  - apply st_close.
  - apply st_release.
Qed.
Lemma quiet_reached : 1 <= now -> forall pre j, jobs = pre ++ [j] -> draining = true -> exists n,
  steps n (pool_start jobs) (mkPool [] Returned [] None [] jobs jobs) /\
  quiet draining now size (mkPool [] Returned [] None [] jobs jobs).
Proof.
  intros NW pre j E DR. destruct (returned_early NW pre j E) as [n H]. exists (S (S n)). split.
  - rewrite E at 2 3. econstructor; [econstructor; [exact H|]|].
    + apply st_begin; [cbn; lia|auto].
    + apply (st_end draining now size [] Returned [] None [] j []).
  - intros s' ST. inversion ST. destruct ru1; discriminate.
Qed.
End Facts.

(** ** The navigator *)
Lemma build_plugins_client : forall mt o sub tree cl1 cl2,
  swap_built (fst (build_plugins mt o sub tree cl1)) = swap_built (fst (build_plugins mt o sub tree cl2)).
Proof.
  intros. unfold build_plugins.
  repeat match goal with
  | |- context [match ?x with _ => _ end] => destruct x; try reflexivity
  end.
Qed.
Definition with_handler (cl : client) (u : prime_facade) : prime_facade := mkUsing (us_tree u) (us_sub u) (Some cl) (us_options u).

Lemma swap_cfg_of : forall o sub tree cl sc hb, swap_client sending (cfg_of o sub tree cl sc hb) = cfg_of o sub tree sending sc hb.
Proof. reflexivity. Qed.
Lemma swap_sending : forall mt o sub tree,
  swap_built (fst (build_plugins mt o sub tree sending)) = fst (build_plugins mt o sub tree sending).
Proof.
  intros. unfold build_plugins.
  repeat match goal with
  | |- context [match ?x with _ => _ end] => destruct x; try reflexivity
  end.
Qed.
Lemma run_is_walk : forall env mt u settings t, us_handler u <> None ->
  run_prime env mt (FacUsing u) settings t = walk_prime env mt (FacUsing (with_handler sending u)) settings t.
Proof.
  intros env mt u settings t H. unfold run_prime, walk_prime. cbn [facade_tree us_tree with_handler]. f_equal.
  assert (P : prime_options env (with_handler sending u) settings = prime_options env u settings).
  { unfold prime_options, using_validate, with_handler. cbn [us_tree us_sub us_handler us_options].
    destruct (us_handler u); [reflexivity|contradiction]. }
  cbn [build_prime]. rewrite P. cbn [us_sub us_handler us_tree with_handler].
  destruct (prime_options env u settings) as [o [e|]]; [reflexivity|].
  destruct (us_sub u) as [sub|]; [|reflexivity]. destruct (us_handler u) as [cl|]; [|contradiction].
  rewrite (build_plugins_client mt o sub (us_tree u) cl sending). apply swap_sending.
Qed.
