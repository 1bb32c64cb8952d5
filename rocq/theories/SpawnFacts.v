(** Facts about spawn resumes. *)
From Verif Require Import Base Paths Level Lo Kernel Session Spec KernelRel KernelFacts
  KernelInv WalkFacts StandsFacts JournalFacts SessionFacts RescueFacts FilesFacts BracketFacts WalkCor
  PathFacts WalkProps Simulate Feature CollectionsFacts Resume SpecResume.
From Coq Require Import Permutation Sorted.
Local Open Scope string_scope.
Local Open Scope list_scope.

(** ** One traversal from any state *)
Section One.
Variable c : cfg.
Variable sampling : bool.
Hypothesis HK : hooks_ok c.
Hypothesis DS : default_skip c.
Hypothesis PL : plain c.
Hypothesis NC : nil_callback c.

Lemma top_nil : forall path t s o s1 P, quiet_state c sampling s -> c_stat c t = None ->
  preorder (travelled c) [] path t P -> top c path t s = (o, s1) ->
  o = Ret None /\ quiet_state c sampling s1 /\ s_depth s1 = s_depth s /\
  exists tr, s_trace s1 = s_trace s ++ tr /\
    map place_of (map fst (calls tr)) = called_at c (s_depth s) P /\
    Forall (stands c (entries c) path path t (s_depth s)) (map fst (calls tr)).
Proof.
  intros path t s o s1 P QS ST HP H.
  destruct (top_adequate _ _ _ _ _ _ HK ST H) as (ro & HR & CASE).
  destruct (run_journaled c sampling HK (plain_filter_ok _ PL) path _ _ _ _ HR QS eq_refl)
    as (IT & MU & DP & tr & J & T & O & CC & G & JJ & AN).
  destruct (plain_all_called _ PL _ _ _ _ JJ) as [E _].
  assert (CO : calls tr = offers tr) by (rewrite CC, O, E; reflexivity).
  destruct (run_results _ _ (fun r => r = CNil) NC _ _ _ _ HR) as (tr' & T' & FN).
  rewrite T in T'. apply app_inv_head in T'. subst tr'. rewrite CO in FN.
  destruct (top_stands c HK path t s o s1 ST H) as (tr' & T' & SD).
  rewrite T in T'. apply app_inv_head in T'. subst tr'.
  assert (FS : Forall (stands c (entries c) path path t (s_depth s)) (map fst (calls tr))).
  { apply calls_Forall. eapply Forall_impl; [|exact SD]. intros [] X; try exact I. exact X. }
  assert (MAIN : ro = Ret (true, None) \/ (exists b, ro = Ret (b, None)) -> o = Ret None).
  { intros [-> | [b ->]]; destruct CASE as [(b' & e' & X & ->)|(p & X & _)]; inversion X; subst; reflexivity. }
  assert (GD : map (fun x => place_of (fst x)) (offers tr) = called_at c (s_depth s) P /\ exists b, ro = Ret (b, None)).
  { unfold travelled, called_at in *. destruct (c_sub c) eqn:SU.
    - destruct (proj1 (files_main c path (s_depth s) SU DS) _ _ _ _ HR eq_refl) with (P := P) (tr := tr)
        as [[[rest [EE Z]] STP] OUT]; try assumption; [cbn; lia|].
      assert (SF : exists b, ro = Ret (b, None)).
      { destruct ro as [[b [e|]]|p|]; cbn in OUT; try contradiction; eauto; exfalso.
        - destruct OUT as ([(L0 & m & EL)|(_ & L0 & m & p & EL)] & _);
            pose proof (last_not_nil _ _ _ _ EL FN); discriminate.
        - destruct OUT as (_ & m & EL & _). rewrite EL in FN. inversion FN; subst. discriminate. }
      destruct SF as [b ->]. split; [|eauto]. rewrite (Z eq_refl), app_nil_r in EE. rewrite <- EE.
      apply filter_true. intro p. rewrite nil_no_cut by exact FN. reflexivity.
    - assert (NF : c_sub c <> SubFiles) by congruence.
      destruct (proj1 (walk_main c path (s_depth s) NF DS) _ _ _ _ HR eq_refl) with (P := P) (tr := tr)
        as [[[rest [EE Z]] STP] OUT]; try assumption; [cbn; lia|].
      assert (SF : ro = Ret (true, None)).
      { destruct ro as [[[|] [e|]]|p|]; cbn in OUT; try contradiction; try reflexivity; exfalso.
        - destruct OUT as [(_ & _ & m & EL & _)|[(_ & _ & L0 & m & EL)|(_ & L0 & m & p & EL)]].
          + rewrite EL in FN. inversion FN; subst. discriminate.
          + pose proof (last_not_nil _ _ _ _ EL FN). discriminate.
          + pose proof (last_not_nil _ _ _ _ EL FN). discriminate.
        - destruct OUT as [(X & _)|[(X & _)|(_ & L0 & m & p & EL)]]; try discriminate.
          pose proof (last_not_nil _ _ _ _ EL FN). discriminate.
        - destruct OUT as (m & EL & _). rewrite EL in FN. inversion FN; subst. discriminate. }
      subst ro. split; [|eauto]. rewrite (Z eq_refl), app_nil_r in EE. rewrite <- EE.
      rewrite (filter_true _ (fun _ => true)) by reflexivity.
      apply filter_true. intro p. rewrite nil_no_skip by exact FN. reflexivity.
    - assert (NF : c_sub c <> SubFiles) by congruence.
      destruct (proj1 (walk_main c path (s_depth s) NF DS) _ _ _ _ HR eq_refl) with (P := P) (tr := tr)
        as [[[rest [EE Z]] STP] OUT]; try assumption; [cbn; lia|].
      assert (SF : ro = Ret (true, None)).
      { destruct ro as [[[|] [e|]]|p|]; cbn in OUT; try contradiction; try reflexivity; exfalso.
        - destruct OUT as [(_ & _ & m & EL & _)|[(_ & _ & L0 & m & EL)|(_ & L0 & m & p & EL)]].
          + rewrite EL in FN. inversion FN; subst. discriminate.
          + pose proof (last_not_nil _ _ _ _ EL FN). discriminate.
          + pose proof (last_not_nil _ _ _ _ EL FN). discriminate.
        - destruct OUT as [(X & _)|[(X & _)|(_ & L0 & m & p & EL)]]; try discriminate.
          pose proof (last_not_nil _ _ _ _ EL FN). discriminate.
        - destruct OUT as (m & EL & _). rewrite EL in FN. inversion FN; subst. discriminate. }
      subst ro. split; [|eauto]. rewrite (Z eq_refl), app_nil_r in EE. rewrite <- EE.
      rewrite (filter_true _ (fun _ => true)) by reflexivity.
      apply filter_true. intro p. rewrite nil_no_skip by exact FN. reflexivity.
    - assert (NF : c_sub c <> SubFiles) by congruence.
      destruct (proj1 (walk_main c path (s_depth s) NF DS) _ _ _ _ HR eq_refl) with (P := P) (tr := tr)
        as [[[rest [EE Z]] STP] OUT]; try assumption; [cbn; lia|].
      assert (SF : ro = Ret (true, None)).
      { destruct ro as [[[|] [e|]]|p|]; cbn in OUT; try contradiction; try reflexivity; exfalso.
        - destruct OUT as [(_ & _ & m & EL & _)|[(_ & _ & L0 & m & EL)|(_ & L0 & m & p & EL)]].
          + rewrite EL in FN. inversion FN; subst. discriminate.
          + pose proof (last_not_nil _ _ _ _ EL FN). discriminate.
          + pose proof (last_not_nil _ _ _ _ EL FN). discriminate.
        - destruct OUT as [(X & _)|[(X & _)|(_ & L0 & m & p & EL)]]; try discriminate.
          pose proof (last_not_nil _ _ _ _ EL FN). discriminate.
        - destruct OUT as (m & EL & _). rewrite EL in FN. inversion FN; subst. discriminate. }
      subst ro. split; [|eauto]. rewrite (Z eq_refl), app_nil_r in EE. rewrite <- EE.
      rewrite (filter_true _ (fun _ => true)) by reflexivity.
      apply filter_true. intro p. rewrite nil_no_skip by exact FN. reflexivity. }
  destruct GD as [GD SR]. split; [apply MAIN; right; exact SR|].
  split; [destruct QS; split; congruence|]. split; [exact DP|].
  exists tr. split; [exact T|]. rewrite map_map, CO. split; [exact GD|]. rewrite <- CO. exact FS.
Qed.
End One.

(** ** Order of names *)
Lemma leb_split : forall a b, (a <=? b)%string = (a <? b)%string || (a =? b)%string.
Proof.
  intros a b. unfold String.leb, String.ltb.
  destruct (String.compare a b) eqn:E; cbn; try reflexivity.
  - apply String.compare_eq_iff in E. subst b. symmetry. apply String.eqb_refl.
  - destruct (String.eqb a b) eqn:Q; [|reflexivity]. apply String.eqb_eq in Q. subst b.
    pose proof (String.compare_antisym a a) as X. rewrite E in X. discriminate X.
Qed.

Lemma following_followers : forall c dk d b own, snd (c_read c d (dk d)) = None ->
  following c dk d b own = (followers c dk own d b, None).
Proof.
  intros c dk d b own R. unfold following, followers. destruct (c_read c d (dk d)) as [es er]. cbn in R. subst er.
  cbn [fst].
  assert (E : gm_get Bool.eqb (lo_group_by Bool.eqb es (follows own b)) true =
              filter (fun e => String.ltb b (fname e) || (own && String.eqb b (fname e))) es).
  { destruct (@lo_group_by_laws fsnode bool Bool.eqb Bool.eqb_spec (follows own b) es) as (_ & _ & G).
    rewrite G. apply filter_ext. intro e. unfold follows. rewrite leb_split.
    destruct own, (b <? fname e)%string, (b =? fname e)%string; reflexivity. }
  rewrite E. unfold all_of, files_of, dirs_of. destruct (c_files_first c); reflexivity.
Qed.

Lemma followers_in : forall c, hooks_ok c -> forall dk own d b e, In e (followers c dk own d b) ->
  In e (fst (c_read c d (dk d))).
Proof.
  intros c [_ HS] dk own d b e H. unfold followers in H.
  assert (S1 : forall l x, In x (c_sort c l) -> In x l)
    by (intros l x Hx; eapply Permutation_in; [apply HS|exact Hx]).
  destruct (c_files_first c); apply in_app_or in H; destruct H as [H|H]; apply S1 in H;
    apply filter_In in H; destruct H as [H _]; apply filter_In in H; apply H.
Qed.

(** ** Paths on the way up *)
Lemma length_join : forall d b, clean d = d -> proper b -> d <> "." ->
  String.length d < String.length (join d b).
Proof.
  intros d b CD PB ND. rewrite join_below by assumption. unfold below_path.
  apply String.eqb_neq in ND. rewrite ND.
  assert (LB : 1 <= String.length b) by (destruct b; [destruct PB as [X _]; contradiction|cbn; lia]).
  assert (LA : forall x y, String.length (x ++ y) = String.length x + String.length y)
    by (induction x as [|ch x IH]; intro y; cbn; [reflexivity|rewrite IH; reflexivity]).
  destruct (String.eqb d "/") eqn:E.
  - apply String.eqb_eq in E. subst d. cbn [append String.length]. lia.
  - rewrite !LA. cbn [String.length]. lia.
Qed.
Lemma join_not_dot : forall d b, clean d = d -> proper b -> join d b <> ".".
Proof.
  intros d b CD PB E. rewrite join_below in E by assumption. unfold below_path in E.
  destruct (String.eqb d ".") eqn:ED; [destruct PB as (_ & X & _); contradiction|].
  destruct (String.eqb d "/") eqn:ES; [destruct b; discriminate|].
  destruct d as [|ch d]; [discriminate|]. destruct d; [|discriminate]. discriminate.
Qed.
Lemma climb_length : forall tree p l, climb tree p l -> Forall (fun x => clean (fst x) = fst x) l ->
  p <> "" -> length l <= String.length p.
Proof.
  intros tree p l H. induction H as [|d b l PB NE H IH]; intros F NP.
  - cbn. lia.
  - inversion F as [|x y CD F']; subst. cbn in CD. cbn [length].
    destruct (string_dec d ".") as [-> |ND].
    + assert (l = []).
      { inversion H as [|d' b' l' PB' NE' H' E]; subst; [reflexivity|].
        inversion F'; subst. exfalso. eapply join_not_dot; [| |exact E]; assumption. }
      subst l. cbn [length]. destruct (join "." b); [contradiction|cbn; lia].
    + pose proof (length_join d b CD PB ND). destruct l as [|y l]; [cbn [length]; lia|].
      assert (length (y :: l) <= String.length d); [|cbn [length] in *; lia].
      apply IH; [exact F'|]. rewrite <- CD. apply clean_ne.
Qed.
Lemma join_ne : forall d b, clean d = d -> proper b -> join d b <> "".
Proof.
  intros d b CD PB. rewrite join_below by assumption. rewrite <- clean_below by assumption. apply clean_ne.
Qed.

(** ** Seeding and climbing *)
Section Spawn.
Variable c : cfg.
Variable sampling : bool.
Variable pc : pathcalc.
Variable dk : disk.
Hypothesis HK : hooks_ok c.
Hypothesis DS : default_skip c.
Hypothesis PL : plain c.
Hypothesis NC : nil_callback c.

Notation spawned_node := (spawned_node c dk).

Lemma called_app : forall base P Q, called_at c base (P ++ Q) = called_at c base P ++ called_at c base Q.
Proof. intros. unfold called_at. rewrite !filter_app. reflexivity. Qed.

Lemma seed_nil : forall d es s o s1 P, quiet_state c sampling s ->
  (forall e, In e es -> pc_join pc d (fname e) = join d (fname e)) ->
  (forall e, In e es -> c_stat c (dk (join d (fname e))) = None) ->
  listings (travelled c) dk d es P -> seed c pc dk d es s = (o, s1) ->
  o = Ret None /\ quiet_state c sampling s1 /\ s_depth s1 = s_depth s /\
  exists tr, s_trace s1 = s_trace s ++ tr /\
    map place_of (map fst (calls tr)) = called_at c (s_depth s) P /\
    Forall (spawned_node (s_depth s)) (map fst (calls tr)).
Proof.
  induction es as [|e es IH]; cbn [seed]; intros s o s1 P QS HJ HS HL H.
  - inversion HL; subst. inversion H; subst. repeat split; auto; try apply QS.
    exists []. rewrite app_nil_r. repeat split. constructor.
  - inversion HL as [|e' l P1 P2 HP1 HL2]; subst.
    rewrite (HJ e (or_introl eq_refl)) in H.
    destruct (top c (join d (fname e)) (dk (join d (fname e))) s) as [to ts] eqn:T.
    destruct (top_nil c sampling HK DS PL NC _ _ _ _ _ _ QS (HS e (or_introl eq_refl)) HP1 T)
      as (-> & Q1 & D1 & tr1 & T1 & C1 & F1).
    destruct (IH ts o s1 P2 Q1) as (-> & Q2 & D2 & tr2 & T2 & C2 & F2); auto.
    + intros x Hx. apply HJ. right. exact Hx.
    + intros x Hx. apply HS. right. exact Hx.
    + split; [reflexivity|]. split; [exact Q2|]. split; [congruence|].
      exists (tr1 ++ tr2). rewrite D1 in C2, F2. rewrite T2, T1, app_assoc. split; [reflexivity|].
      rewrite calls_app, !map_app, C1, C2, called_app. split; [reflexivity|].
      apply Forall_app. split; [|exact F2]. eapply Forall_impl; [|exact F1]. intros n Hn. exists (join d (fname e)). exact Hn.
Qed.

Lemma crown_nil : forall tree p l, climb tree p l ->
  forall fuel own s o ok s1 P, quiet_state c sampling s -> length l < fuel ->
  way_readable c dk l -> statable c dk l -> way_sound c pc dk l ->
  spawn_listing c (travelled c) dk own l P ->
  crown fuel c pc dk tree p own s = (o, ok, s1) ->
  o = Ret None /\ ok = true /\ quiet_state c sampling s1 /\ s_depth s1 = s_depth s /\
  exists tr, s_trace s1 = s_trace s ++ tr /\
    map place_of (map fst (calls tr)) = called_at c (s_depth s) P /\
    Forall (spawned_node (s_depth s)) (map fst (calls tr)).
Proof.
  intros tree p l HC. induction HC as [|d b l PB NE HC IH];
    intros [|fuel] own s o ok s1 P QS HF WR WS WA HL H; cbn [length] in HF; try lia; cbn [crown] in H.
  - rewrite String.eqb_refl in H. inversion H; subst. inversion HL; subst.
    repeat split; auto; try apply QS. exists []. rewrite app_nil_r. repeat split. constructor.
  - apply String.eqb_neq in NE. rewrite NE in H.
    inversion WR as [|x1 l1 R1 WR']; subst. inversion WS as [|x2 l2 S1 WS']; subst.
    inversion WA as [|x3 l3 [[CD A1] A2] WA']; subst. cbn [fst snd] in *.
    destruct (A1 b PB) as (_ & SP & _). rewrite SP in H.
    inversion HL as [|own' d' b' l' P1 P2 L1 L2]; subst.
    rewrite (following_followers c dk d b own R1) in H.
    destruct (seed c pc dk d (followers c dk own d b) s) as [so ss] eqn:SE.
    destruct (seed_nil d (followers c dk own d b) s so ss P1 QS) as (-> & Q1 & D1 & tr1 & T1 & C1 & F1); try assumption.
    + intros e He. apply (followers_in c HK) in He. apply A1. apply A2. exact He.
    + intros e He. apply (followers_in c HK) in He. apply S1. exact He.
    + destruct (IH fuel false ss o ok s1 P2 Q1) as (-> & -> & Q2 & D2 & tr2 & T2 & C2 & F2); auto; [lia|].
      split; [reflexivity|]. split; [reflexivity|]. split; [exact Q2|]. split; [congruence|].
      exists (tr1 ++ tr2). rewrite D1 in C2, F2. rewrite T2, T1, app_assoc. split; [reflexivity|].
      rewrite calls_app, !map_app, C1, C2, called_app. split; [reflexivity|].
      apply Forall_app. split; assumption.
Qed.

Theorem spawn_nil : forall sv l P,
  climb (sv_tree sv) (sv_path sv) l ->
  way_readable c dk l -> statable c dk l -> way_sound c pc dk l ->
  spawn_listing c (travelled c) dk true l P ->
  exists s, spawn_session c sampling pc dk sv = (Ret None, true, s) /\
    map place_of (visited s) = called_at c (sv_depth sv) P /\
    Forall (spawned_node (sv_depth sv)) (visited s).
Proof.
  intros sv l P HC WR WS WA HL. unfold spawn_session.
  set (s0 := bridge c sv _).
  assert (Q0 : quiet_state c sampling s0) by (split; [apply session_items_chain|reflexivity]).
  assert (D0 : s_depth s0 = sv_depth sv) by reflexivity.
  assert (T0 : s_trace s0 = [EvBegin (c_tree c)]) by reflexivity.
  clearbody s0.
  assert (LE : length l < S (String.length (sv_path sv))).
  { assert (length l <= String.length (sv_path sv)); [|lia].
    assert (FC : Forall (fun x => clean (fst x) = fst x) l).
    { eapply Forall_impl; [|exact WA]. intros x [[X _] _]. exact X. }
    destruct l as [|x l]; [cbn; lia|]. eapply climb_length; [exact HC|exact FC|].
    inversion HC; subst. inversion FC; subst. apply join_ne; assumption. }
  destruct (crown (S (String.length (sv_path sv))) c pc dk (sv_tree sv) (sv_path sv) true s0) as [[o ok] s1] eqn:CR.
  destruct (crown_nil _ _ _ HC _ _ _ _ _ _ _ Q0 LE WR WS WA HL CR) as (-> & -> & Q1 & D1 & tr & T & C1 & F1).
  eexists. split; [reflexivity|]. rewrite (proj2 Q1). cbn [mu_end mutes_none dispatch].
  unfold visited. cbn [emit s_trace]. rewrite T, T0, !calls_app. cbn [calls app]. rewrite app_nil_r.
  rewrite D0 in *. auto.
Qed.

(** a directory on the way which cannot be read *)
Lemma crown_stops : forall tree p lw, climb tree p lw ->
  forall l1 d0 b0 l2 e0, lw = l1 ++ (d0, b0) :: l2 ->
  forall fuel own s o ok s1 P, quiet_state c sampling s -> length l1 < fuel ->
  way_readable c dk l1 -> statable c dk l1 -> way_sound c pc dk l1 -> sound_at pc d0 ->
  snd (c_read c d0 (dk d0)) = Some e0 ->
  spawn_listing c (travelled c) dk own l1 P ->
  crown fuel c pc dk tree p own s = (o, ok, s1) ->
  o = Ret (Some e0) /\ ok = false /\ quiet_state c sampling s1 /\ s_depth s1 = s_depth s /\
  exists tr, s_trace s1 = s_trace s ++ tr /\
    map place_of (map fst (calls tr)) = called_at c (s_depth s) P.
Proof.
  intros tree p lw HC. induction HC as [|d b l PB NE HC IH];
    intros l1 d0 b0 l2 e0 EL [|fuel] own s o ok s1 P QS HF WR WS WA S0 RE HL H; try lia; cbn [crown] in H.
  - destruct l1; discriminate.
  - apply String.eqb_neq in NE. rewrite NE in H. destruct l1 as [|[d1 b1] l1]; cbn [app] in EL; inversion EL; subst.
    + destruct S0 as [CD A1]. destruct (A1 b0 PB) as (_ & SP & _). rewrite SP in H. unfold following in H.
      destruct (c_read c d0 (dk d0)) as [es re]. cbn [snd] in RE. subst re. inversion H; subst. inversion HL; subst.
      split; [reflexivity|]. split; [reflexivity|]. split; [exact QS|]. split; [reflexivity|].
      exists []. rewrite app_nil_r. split; reflexivity.
    + cbn [length] in HF.
      inversion WR as [|x1 l3 R1 WR']; subst. inversion WS as [|x2 l4 S1 WS']; subst.
      inversion WA as [|x3 l5 [[CD A1] A2] WA']; subst. cbn [fst snd] in *.
      destruct (A1 b1 PB) as (_ & SP & _). rewrite SP in H.
      inversion HL as [|own' d' b' l' P1 P2 L1 L2]; subst.
      rewrite (following_followers c dk d1 b1 own R1) in H.
      destruct (seed c pc dk d1 (followers c dk own d1 b1) s) as [so ss] eqn:SE.
      destruct (seed_nil d1 (followers c dk own d1 b1) s so ss P1 QS) as (-> & Q1 & D1 & tr1 & T1 & C1 & F1); try assumption.
      * intros e He. apply (followers_in c HK) in He. apply A1. apply A2. exact He.
      * intros e He. apply (followers_in c HK) in He. apply S1. exact He.
      * destruct (IH l1 d0 b0 l2 e0 eq_refl fuel false ss o ok s1 P2 Q1) as (-> & -> & Q2 & D2 & tr2 & T2 & C2); auto; [lia|].
        split; [reflexivity|]. split; [reflexivity|]. split; [exact Q2|]. split; [congruence|].
        exists (tr1 ++ tr2). rewrite D1 in C2. rewrite T2, T1, app_assoc. split; [reflexivity|].
        rewrite calls_app, !map_app, C1, C2, called_app. reflexivity.
Qed.
Theorem spawn_stops : forall sv l1 d b l2 e P,
  climb (sv_tree sv) (sv_path sv) (l1 ++ (d, b) :: l2) ->
  way_readable c dk l1 -> statable c dk l1 -> way_sound c pc dk (l1 ++ (d, b) :: l2) ->
  snd (c_read c d (dk d)) = Some e ->
  spawn_listing c (travelled c) dk true l1 P ->
  exists s, spawn_session c sampling pc dk sv = (Ret (Some e), false, s) /\
    map place_of (visited s) = called_at c (sv_depth sv) P.
Proof.
  intros sv l1 d b l2 e P HC WR WS WA RE HL. unfold spawn_session.
  set (s0 := bridge c sv _).
  assert (Q0 : quiet_state c sampling s0) by (split; [apply session_items_chain|reflexivity]).
  assert (D0 : s_depth s0 = sv_depth sv) by reflexivity.
  assert (T0 : s_trace s0 = [EvBegin (c_tree c)]) by reflexivity.
  clearbody s0.
  assert (LE : length (l1 ++ (d, b) :: l2) < S (String.length (sv_path sv))).
  { assert (FC : Forall (fun x => clean (fst x) = fst x) (l1 ++ (d, b) :: l2)).
    { eapply Forall_impl; [|exact WA]. intros x [[X _] _]. exact X. }
    assert (length (l1 ++ (d, b) :: l2) <= String.length (sv_path sv)); [|lia]. eapply climb_length; [exact HC|exact FC|].
    inversion HC as [T1 T2|d' b' l' PB NE HC' T1 T2]; [destruct l1; discriminate|]. rewrite <- T2 in FC. inversion FC; subst. apply join_ne; assumption. }
  rewrite app_length in LE.
  assert (LE1 : length l1 < S (String.length (sv_path sv))) by (cbn in LE; lia).
  apply Forall_app in WA. destruct WA as [WA1 WA2]. inversion WA2 as [|x y [SD _] _]; subst. cbn [fst] in SD.
  destruct (crown (S (String.length (sv_path sv))) c pc dk (sv_tree sv) (sv_path sv) true s0) as [[o ok] s1] eqn:CR.
  destruct (crown_stops _ _ _ HC l1 d b l2 e eq_refl _ _ _ _ _ _ _ Q0 LE1 WR WS WA1 SD RE HL CR) as (-> & -> & Q1 & D1 & tr & T & C1).
  eexists. split; [reflexivity|]. rewrite (proj2 Q1). cbn [mu_end mutes_none dispatch].
  unfold visited. cbn [emit s_trace]. rewrite T, T0, !calls_app. cbn [calls app]. rewrite app_nil_r.
  rewrite D0 in *. exact C1.
Qed.
End Spawn.

Lemma listings_exist : forall es, (forall p t e, In e (es p t) -> In e (fkids t)) ->
  forall dk d l, exists P, listings es dk d l P.
Proof.
  intros es HE dk d l. induction l as [|e l [P2 IH]]; [exists []; constructor|].
  destruct (preorder_exists_gen es HE (height (dk (join d (fname e)))) (dk (join d (fname e))) (le_n _) [] (join d (fname e))) as [P1 H1].
  exists (P1 ++ P2). constructor; assumption.
Qed.
Lemma spawn_listing_exists : forall c es, (forall p t e, In e (es p t) -> In e (fkids t)) ->
  forall dk l own, exists P, spawn_listing c es dk own l P.
Proof.
  intros c es HE dk l. induction l as [|[d b] l IH]; intro own; [exists []; constructor|].
  destruct (IH false) as [P2 H2]. destruct (listings_exist es HE dk d (followers c dk own d b)) as [P1 H1].
  exists (P1 ++ P2). constructor; assumption.
Qed.
Lemma travelled_kids : forall c, hooks_ok c -> forall p t e, In e (travelled c p t) -> In e (fkids t).
Proof.
  intros c HK p t e H. unfold travelled in H.
  destruct (c_sub c) eqn:SU; try (apply (entries_in_kids c HK p t); exact H).
  unfold entries_files in H. destruct (snd (c_read c p t)); [contradiction|].
  apply (entries_in_kids c HK p t). unfold entries. rewrite SU. exact H.
Qed.

(** whatever the configuration: no error means every directory on the way was read *)
Lemma crown_read : forall c pc dk tree p l, climb tree p l ->
  forall fuel own s ok s1, Forall (fun x => sound_at pc (fst x)) l ->
  crown fuel c pc dk tree p own s = (Ret None, ok, s1) -> way_readable c dk l.
Proof.
  intros c pc dk tree p l HC. induction HC as [|d b l PB NE HC IH]; intros [|fuel] own s ok s1 WA H; try discriminate.
  - constructor.
  - cbn [crown] in H. apply String.eqb_neq in NE. rewrite NE in H. inversion WA as [|x3 l3 [CD A1] WA']; subst. cbn [fst] in *.
    destruct (A1 b PB) as (_ & SP & _). rewrite SP in H. unfold following in H.
    destruct (c_read c d (dk d)) as [es [e|]] eqn:RE; [discriminate|].
    match type of H with context [seed c pc dk d ?x s] => destruct (seed c pc dk d x s) as [[[|]| |] ss] end; try discriminate.
    constructor; [cbn [fst]; rewrite RE; reflexivity|]. apply (IH fuel false ss ok s1 WA' H).
Qed.
Lemma spawn_read : forall c sampling pc dk sv l ok s, climb (sv_tree sv) (sv_path sv) l ->
  Forall (fun x => sound_at pc (fst x)) l ->
  spawn_session c sampling pc dk sv = (Ret None, ok, s) -> way_readable c dk l.
Proof.
  intros c sampling pc dk sv l ok s HC WA H. unfold spawn_session in H.
  match type of H with match ?X with _ => _ end = _ => destruct X as [[[e| |] k] s1] eqn:CR end; try discriminate.
  inversion H; subst. exact (crown_read _ _ _ _ _ _ HC _ _ _ _ _ WA CR).
Qed.
