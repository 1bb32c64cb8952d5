(** The course of a session. *)
From Verif Require Import Base Paths Level Kernel Session Spec KernelRel KernelFacts KernelInv WalkFacts StandsFacts
  JournalFacts SessionFacts FilesFacts WalkCor WalkProps ReadFacts SpecSkip SkipFacts SpecCourse.
From Coq Require Import Permutation Lia Sorted.
Local Open Scope list_scope.

(** ** Going through a listing, keeping track of what is left out *)
Fixpoint fate (v : place -> verdict) (out : place -> bool) (P : list place) : list place * (place -> bool) * ending :=
  match P with
  | [] => ([], out, Completed)
  | p :: P' =>
      if out p then fate v out P' else
      let goes_on out' := let '(seen, o, e) := fate v out' P' in (p :: seen, o, e) in
      match v p with
      | Onward => goes_on out
      | NotBelow => goes_on (fun q => out q || above (pl_pos p) (pl_pos q))
      | RestOfDirectory => goes_on (fun q => out q || above (pl_pos p) (pl_pos q) || later (pl_pos p) (pl_pos q))
      | Over e => ([p], out, Failed e)
      | Panics x => ([p], out, Panicked p x)
      end
  end.
Lemma course_fate : forall v P out, course v out P = (fst (fst (fate v out P)), snd (fate v out P)).
Proof.
  intros v. induction P as [|p P IH]; intro out; [reflexivity|]. cbn [course fate]. destruct (out p); [apply IH|].
  destruct (v p); try reflexivity; rewrite IH; destruct (fate v _ P) as [[a b] d]; reflexivity.
Qed.
Lemma fate_app : forall v P1 P2 out, fate v out (P1 ++ P2) =
  let '(s1, o1, e1) := fate v out P1 in
  match e1 with
  | Completed => let '(s2, o2, e2) := fate v o1 P2 in (s1 ++ s2, o2, e2)
  | _ => (s1, o1, e1)
  end.
Proof.
  intros v. induction P1 as [|p P1 IH]; intros P2 out; cbn [app fate].
  - destruct (fate v out P2) as [[a b] d]. reflexivity.
  - destruct (out p); [apply IH|].
    destruct (v p); try reflexivity; rewrite IH; destruct (fate v _ P1) as [[s1 o1] e1];
      (destruct e1; [|reflexivity|reflexivity]); destruct (fate v o1 P2) as [[a b] d]; reflexivity.
Qed.
Lemma fate_out : forall v P out, Forall (fun p => out p = true) P -> fate v out P = ([], out, Completed).
Proof.
  intros v P out F. induction F as [|p P H F IH]; [reflexivity|]. cbn. rewrite H. exact IH.
Qed.

(** ** Positions *)
Definition under (pos q : list nat) : Prop := exists x, q = pos ++ x.
Lemma above_under : forall pos q, above pos q = true -> under pos q.
Proof. intros pos q H. apply above_spec in H. destruct H as (x & y & ->). exists (x :: y). reflexivity. Qed.
Lemma later_under_dir : forall pos i q, later (pos ++ [i]) q = true -> under pos q.
Proof.
  intros pos i q H. apply later_spec in H. destruct H as (a & x & y & b & E1 & E2 & LT).
  apply app_inj_tail in E1. destruct E1 as [-> ->]. subst. exists (y :: b). reflexivity.
Qed.
Lemma under_child : forall pos i q, under (pos ++ [i]) q -> under pos q.
Proof. intros pos i q [x ->]. exists (i :: x). rewrite <- app_assoc. reflexivity. Qed.
Lemma not_under_other : forall pos i j x, i <> j -> ~ under (pos ++ [i]) (pos ++ j :: x).
Proof. intros pos i j x NE [y E]. rewrite <- app_assoc in E. apply app_inv_head in E. cbn in E. congruence. Qed.

Section Course.
Variable c : cfg.
Variable tree : string.
Variable h : handler.
Variable ans : place -> cbres.
Variable base : Z.
Hypothesis HB : handled_by c h.

Local Notation V := (verdict_at c h ans).
Local Notation F out P := (fate V out (filter (within (c_depth c) base) P)).
Local Notation es := (entries c).
Definition agrees (L : list (node * cbres)) : Prop := Forall (fun x => snd x = ans (place_of (fst x))) L.
Definition same_outside (pos : list nat) (out out' : place -> bool) : Prop :=
  forall q, ~ under pos (pl_pos q) -> out' q = out q.
Definition rescued (n : node) (er : error) (e : ending) : Prop :=
  exists p x, e = Panicked p x /\ length (n_pos n) < length (pl_pos p) /\ (exists a, er = rescue_error a).

Definition settles (n : node) (o : outcome (bool * option error)) (out out' : place -> bool) (e : ending) : Prop :=
  match o with
  | Ret (_, None) => e = Completed /\ same_outside (n_pos n) out out'
  | Ret (true, Some er) =>
      (e = Failed er /\ (n_pos n = [] \/ is_skip_error er = false)) \/
      (e = Completed /\ n_pos n <> [] /\ is_skip_error er = true /\ same_outside (n_pos n) out out') \/
      rescued n er e
  | Ret (false, Some er) =>
      (e = Failed er /\ (is_skip_all_only er = true -> length (n_pos n) <= 1)) \/
      (e = Completed /\ 2 <= length (n_pos n) /\ is_skip_all_only er = true /\
       forall q, ~ under (n_pos n) (pl_pos q) -> out' q = out q || later (n_pos n) (pl_pos q)) \/
      rescued n er e
  | Pan x => exists p, e = Panicked p x /\ pl_pos p = n_pos n
  | Stuck => False
  end.
Definition loop_settles (n : node) (o : outcome (bool * option error)) (out out' : place -> bool) (e : ending) : Prop :=
  match o with
  | Ret (_, None) => e = Completed /\ same_outside (n_pos n) out out'
  | Ret (true, Some er) => errors_is SkipDir er = false /\
      ((e = Failed er /\ (errors_is SkipAll er = true -> n_pos n = [])) \/
       (e = Completed /\ n_pos n <> [] /\ errors_is SkipAll er = true /\ same_outside (n_pos n) out out') \/
       rescued n er e)
  | Ret (false, Some er) => e = Failed er /\ errors_is SkipDir er = true
  | Pan x => exists p, e = Panicked p x /\ length (pl_pos p) = S (length (n_pos n))
  | Stuck => False
  end.
Definition trav_settles (n : node) (o : outcome (bool * option error)) (out out' : place -> bool) (e : ending) : Prop :=
  match o with
  | Ret (false, Some er) => (e = Failed er /\ errors_is SkipDir er = true) \/ rescued n er e
  | Pan x => False
  | _ => loop_settles n o out out' e
  end.
Lemma trav_run : forall n o out out' e, trav_settles n o out out' e -> settles n o out out' e.
Proof.
  intros n [[[|] [er|]]|x|] out out' e H; cbn in *; try assumption; try contradiction.
  - destruct H as [SD [[-> H]|[(-> & NE & SA & S)|H]]].
    + left. split; [reflexivity|]. unfold is_skip_error. rewrite SD. cbn.
      destruct (errors_is SkipAll er); [left; apply H; reflexivity|right; reflexivity].
    + right. left. unfold is_skip_error. rewrite SA, orb_true_r. auto.
    + right. right. exact H.
  - destruct H as [[-> SD]|H]; [left|right; right; exact H]. split; [reflexivity|].
    unfold is_skip_all_only. rewrite SD. rewrite andb_false_r. discriminate.
Qed.
Lemma settles_pos : forall n m o out out' e, n_pos n = n_pos m -> settles n o out out' e -> settles m o out out' e.
Proof. intros n m o out out' e E. unfold settles, rescued. rewrite E. auto. Qed.
Lemma same_ext : forall pos (a b d : place -> bool), (forall q, ~ under pos (pl_pos q) -> a q = b q) -> same_outside pos b d -> same_outside pos a d.
Proof. intros pos a b d H S q NU. rewrite (S q NU). symmetry. apply H. exact NU. Qed.

Lemma pre_shape : forall pos path t P, preorder es pos path t P ->
  exists l, P = mkPlace pos path t :: l /\ preorders es pos path 0 (entries c path t) l /\
    Forall (fun q => exists j x, pl_pos q = pos ++ j :: x) l.
Proof.
  intros pos path t P HP. inversion HP as [a b d l HL]; subst. exists l. split; [reflexivity|]. split; [exact HL|].
  eapply Forall_impl; [|apply (proj2 (preorder_pos es) _ _ _ _ _ HL)]. intros q (j & x & _ & E). eauto.
Qed.
Lemma all_below : forall out pos l, Forall (fun q => exists j x, pl_pos q = pos ++ j :: x) l ->
  Forall (fun q => out q || above pos (pl_pos q) = true) (filter (within (c_depth c) base) l).
Proof.
  intros out pos l FA. apply Forall_forall. intros q HI. apply filter_In in HI. destruct HI as [HI _].
  rewrite Forall_forall in FA. destruct (FA q HI) as (j & x & E).
  assert (above pos (pl_pos q) = true) as -> by (apply above_spec; eauto). apply orb_true_r.
Qed.

(** A place where the verdict stops the descent. *)
Lemma stopped : forall n out P, (forall q, under (n_pos n) (pl_pos q) -> out q = false) ->
  preorder es (n_pos n) (n_path n) (n_src n) P -> within (c_depth c) base (place_of n) = true ->
  (V (place_of n) = NotBelow -> exists out', F out P = ([place_of n], out', Completed) /\ same_outside (n_pos n) out out') /\
  (V (place_of n) = RestOfDirectory -> exists out', F out P = ([place_of n], out', Completed) /\
     forall q, ~ under (n_pos n) (pl_pos q) -> out' q = out q || later (n_pos n) (pl_pos q)) /\
  (forall e, V (place_of n) = Over e -> F out P = ([place_of n], out, Failed e)) /\
  (forall x, V (place_of n) = Panics x -> F out P = ([place_of n], out, Panicked (place_of n) x)).
Proof.
  intros n out P CL HP W. destruct (pre_shape _ _ _ _ HP) as (l & -> & _ & FA).
  change (mkPlace (n_pos n) (n_path n) (n_src n)) with (place_of n). cbn [filter]. rewrite W. cbn [fate].
  rewrite (CL (place_of n)) by (exists []; rewrite app_nil_r; reflexivity).
  assert (NU : forall q, ~ under (n_pos n) (pl_pos q) -> above (n_pos n) (pl_pos q) = false).
  { intros q NU. destruct (above (n_pos n) (pl_pos q)) eqn:E; [|reflexivity]. destruct NU. apply above_under. exact E. }
  repeat split.
  - intros ->. rewrite (fate_out _ _ _ (all_below out _ _ FA)). eexists. split; [reflexivity|].
    intros q N. cbn. rewrite (NU q N). apply orb_false_r.
  - intros ->.
    assert (FO : Forall (fun q => out q || above (pl_pos (place_of n)) (pl_pos q) || later (pl_pos (place_of n)) (pl_pos q) = true)
      (filter (within (c_depth c) base) l)).
    { eapply Forall_impl; [|exact (all_below out _ _ FA)]. intros q E. cbn in *. rewrite E. reflexivity. }
    rewrite (fate_out _ _ _ FO). eexists. split; [reflexivity|].
    intros q N. cbn. rewrite (NU q N). rewrite orb_false_r. reflexivity.
  - intros e ->. reflexivity.
  - intros x ->. reflexivity.
Qed.
(** A place where the session goes on below. *)
Lemma goes_below : forall n out P, (forall q, under (n_pos n) (pl_pos q) -> out q = false) ->
  preorder es (n_pos n) (n_path n) (n_src n) P -> within (c_depth c) base (place_of n) = true ->
  V (place_of n) = Onward ->
  exists l, preorders es (n_pos n) (n_path n) 0 (entries c (n_path n) (n_src n)) l /\
    F out P = (let '(s, o, e) := F out l in (place_of n :: s, o, e)).
Proof.
  intros n out P CL HP W ON. destruct (pre_shape _ _ _ _ HP) as (l & -> & HL & FA). exists l. split; [exact HL|].
  change (mkPlace (n_pos n) (n_path n) (n_src n)) with (place_of n). cbn [filter]. rewrite W. cbn [fate].
  rewrite (CL (place_of n)) by (exists []; rewrite app_nil_r; reflexivity). rewrite ON. reflexivity.
Qed.

(** The two kinds of answers. *)
Lemma settled_way : forall n e out P, (forall q, under (n_pos n) (pl_pos q) -> out q = false) ->
  preorder es (n_pos n) (n_path n) (n_src n) P -> within (c_depth c) base (place_of n) = true ->
  V (place_of n) = unless_nil (gives_way (place_of n)) e ->
  exists out' r, F out P = ([place_of n], out', r) /\ settles n (Ret (true, e)) out out' r.
Proof.
  intros n e out P CL HP W VE. destruct (stopped n out P CL HP W) as (S1 & _ & S3 & _).
  destruct e as [e|]; cbn [unless_nil] in VE.
  - unfold gives_way in VE. cbn [pl_pos place_of] in VE.
    destruct (is_skip_error e) eqn:SK; cbn [andb] in VE.
    + destruct (n_pos n) as [|i r] eqn:PO.
      * rewrite (S3 _ VE). eexists _, _. split; [reflexivity|]. cbn. left. rewrite PO. auto.
      * destruct (S1 VE) as (out' & -> & SO). eexists _, _. split; [reflexivity|]. cbn. right. left.
        rewrite PO. repeat split; auto; discriminate.
    + rewrite (S3 _ VE). eexists _, _. split; [reflexivity|]. cbn. left. auto.
  - destruct (S1 VE) as (out' & -> & SO). eexists _, _. split; [reflexivity|]. cbn. auto.
Qed.
Lemma settled_break : forall n e out P, (forall q, under (n_pos n) (pl_pos q) -> out q = false) ->
  preorder es (n_pos n) (n_path n) (n_src n) P -> within (c_depth c) base (place_of n) = true ->
  V (place_of n) = unless_nil (breaks_off (place_of n)) e ->
  exists out' r, F out P = ([place_of n], out', r) /\ settles n (Ret (false, e)) out out' r.
Proof.
  intros n e out P CL HP W VE. destruct (stopped n out P CL HP W) as (S1 & S2 & S3 & _).
  destruct e as [e|]; cbn [unless_nil] in VE.
  - unfold breaks_off in VE. cbn [pl_pos place_of] in VE.
    destruct (is_skip_all_only e) eqn:SK; cbn [andb] in VE.
    + destruct (2 <=? length (n_pos n)) eqn:LE.
      * destruct (S2 VE) as (out' & -> & SO). eexists _, _. split; [reflexivity|]. cbn. right. left.
        apply Nat.leb_le in LE. auto.
      * rewrite (S3 _ VE). eexists _, _. split; [reflexivity|]. cbn. left. split; [reflexivity|]. intros _.
        apply Nat.leb_gt in LE. lia.
    + rewrite (S3 _ VE). eexists _, _. split; [reflexivity|]. cbn. left. split; [reflexivity|]. congruence.
  - destruct (S1 VE) as (out' & -> & SO). eexists _, _. split; [reflexivity|]. cbn. auto.
Qed.
Lemma settled_panic : forall n x out P, (forall q, under (n_pos n) (pl_pos q) -> out q = false) ->
  preorder es (n_pos n) (n_path n) (n_src n) P -> within (c_depth c) base (place_of n) = true ->
  V (place_of n) = Panics x ->
  exists out' r, F out P = ([place_of n], out', r) /\ settles n (Pan x) out out' r.
Proof.
  intros n x out P CL HP W VE. destruct (stopped n out P CL HP W) as (_ & _ & _ & S4).
  rewrite (S4 _ VE). eexists _, _. split; [reflexivity|]. cbn. eauto.
Qed.

Lemma shown_all : c_sub c <> SubFiles -> forall l, shown c l = l.
Proof. intros NF l. unfold shown. destruct (c_sub c); congruence. Qed.
Lemma not_rescued_skip : forall n er e, rescued n er e -> is_skip_error er = false.
Proof. intros n er e (p & x & _ & _ & [[d|r] ->]); reflexivity. Qed.

Lemma course_main :
  (forall n s o s1, run c tree n s o s1 ->
     n_isdir n = fisdir (n_src n) ->
     s_depth s = (base + Z.of_nat (length (n_pos n)))%Z ->
     forall P tr out, preorder es (n_pos n) (n_path n) (n_src n) P -> grown s s1 tr -> agrees (offers tr) ->
     (forall q, under (n_pos n) (pl_pos q) -> out q = false) ->
     exists seen out' r, F out P = (seen, out', r) /\ places (offers tr) = shown c seen /\ settles n o out out' r) /\
  (forall n s o n1 s1, body c tree n s o n1 s1 ->
     n_isdir n = fisdir (n_src n) ->
     s_depth s = (base + Z.of_nat (length (n_pos n)) + 1)%Z ->
     within (c_depth c) base (place_of n) = true ->
     forall P tr out, preorder es (n_pos n) (n_path n) (n_src n) P -> grown s s1 tr -> agrees (offers tr) ->
     (forall q, under (n_pos n) (pl_pos q) -> out q = false) ->
     exists seen out' r, F out P = (seen, out', r) /\ places (offers tr) = shown c seen /\ settles n o out out' r) /\
  (forall n ts s o s1, trav c tree n ts s o s1 ->
     s_depth s = (base + Z.of_nat (length (n_pos n)) + 1)%Z ->
     forall P tr out, preorders es (n_pos n) (n_path n) 0 ts P -> grown s s1 tr -> agrees (offers tr) ->
     (forall q, under (n_pos n) (pl_pos q) -> out q = false) ->
     exists seen out' r, F out P = (seen, out', r) /\ places (offers tr) = shown c seen /\ trav_settles n o out out' r) /\
  (forall n i ts s o s1, loop c tree n i ts s o s1 ->
     s_depth s = (base + Z.of_nat (length (n_pos n)) + 1)%Z ->
     forall P tr out, preorders es (n_pos n) (n_path n) i ts P -> grown s s1 tr -> agrees (offers tr) ->
     (forall q j x, pl_pos q = n_pos n ++ j :: x -> i <= j -> out q = false) ->
     exists seen out' r, F out P = (seen, out', r) /\ places (offers tr) = shown c seen /\ loop_settles n o out out' r).
Proof.
  apply kernel_mut.
  - (* denied *)
    intros n s s1 E ID D P tr out HP G AN CL.
    pose proof (descend_within _ _ _ _ _ _ E D) as W.
    apply descend_false in E. subst s1. unfold grown in G.
    assert (tr = []) by (apply (app_inv_head (s_trace s)); rewrite app_nil_r; auto). subst tr.
    assert (EU : filter (within (c_depth c) base) P = []).
    { inversion HP as [pos path t l HL A1 A2 A3 A4]; subst. cbn [filter].
      unfold place_of in W. rewrite W. eapply within_below; [exact W|].
      eapply Forall_impl; [|apply (proj2 (preorder_pos es) _ _ _ _ _ HL)].
      intros p (j & x & _ & E'). eauto. }
    rewrite EU. exists [], out, Completed. split; [reflexivity|]. split; [unfold shown; destruct (c_sub c); reflexivity|].
    split; [reflexivity|]. intros q _. reflexivity.
  - (* ok *)
    intros n s s1 o nn s2 E B IH ID D P tr out HP G AN CL.
    pose proof (descend_within _ _ _ _ _ _ E D) as W.
    destruct (descend_true _ _ _ _ E) as (D1 & T1 & _).
    destruct (ascend_fields nn s2) as (_ & T2 & _).
    destruct (proj1 (proj2 (kernel_grows c tree)) _ _ _ _ _ B) as [_ [t T]].
    assert (E2 : offers tr = offers t).
    { unfold grown in G. rewrite T2, T, T1 in G. rewrite <- !app_assoc in G.
      apply app_inv_head in G. subst tr. rewrite !offers_app.
      rewrite !offers_mute by (intros; discriminate). cbn. rewrite app_nil_r. reflexivity. }
    rewrite E2 in *.
    apply (IH ID ltac:(rewrite D1, D; reflexivity) W P t out HP T AN CL).
  - (* file call *)
    intros n0 s e n1 s1 SU ID0 E ID D W P tr out HP G AN CL.
    destruct (invoke_offer _ _ _ _ _ _ _ _ E G) as (O & PO & PP & SR & PA & IS).
    destruct (extend_fields c tree n0 (cargo_of c n0) s) as (X1 & X2 & X3 & X4 & _).
    fold (ext_of c tree n0 s) in X1, X2, X3, X4.
    assert (EPL : place_of n1 = place_of n0) by (unfold place_of; congruence).
    assert (FD : fisdir (n_src n0) = false) by congruence.
    rewrite O in AN |- *. inversion AN as [|x y AH AT]; subst. cbn in AH. rewrite EPL in AH.
    assert (SH : places [(n1, res_of (Ret e))] = shown c [place_of n0]).
    { unfold shown, places. rewrite SU. cbn. unfold afile. cbn [pl_obj place_of]. rewrite FD. cbn. rewrite EPL. reflexivity. }
    destruct e as [e|]; cbn in AH.
    + destruct (settled_break n0 (Some e) out P CL HP W) as (out' & r & EF & ST).
      { unfold verdict_at. rewrite SU. cbn [pl_obj place_of]. rewrite FD. fold (place_of n0). rewrite <- AH. reflexivity. }
      rewrite EF. eexists _, _, _. split; [reflexivity|]. split; [exact SH|exact ST].
    + destruct (goes_below n0 out P CL HP W) as (l & HL & EF).
      { unfold verdict_at. rewrite SU. cbn [pl_obj place_of]. rewrite FD. fold (place_of n0). rewrite <- AH. reflexivity. }
      assert (EN : entries c (n_path n0) (n_src n0) = []).
      { unfold entries, entries_all. rewrite SU, FD. reflexivity. }
      rewrite EN in HL. inversion HL; subst. cbn in EF. rewrite EF. eexists _, _, _. split; [reflexivity|]. split; [exact SH|].
      cbn. split; [reflexivity|]. intros q _. reflexivity.
  - (* file pan *)
    intros n0 s p n1 s1 SU ID0 E ID D W P tr out HP G AN CL.
    destruct (invoke_offer _ _ _ _ _ _ _ _ E G) as (O & PO & PP & SR & PA & IS).
    destruct (extend_fields c tree n0 (cargo_of c n0) s) as (X1 & X2 & X3 & X4 & _).
    fold (ext_of c tree n0 s) in X1, X2, X3, X4.
    assert (EPL : place_of n1 = place_of n0) by (unfold place_of; congruence).
    assert (FD : fisdir (n_src n0) = false) by congruence.
    rewrite O in AN |- *. inversion AN as [|x y AH AT]; subst. cbn in AH. rewrite EPL in AH.
    destruct (settled_panic n0 p out P CL HP W) as (out' & r & EF & ST).
    { unfold verdict_at. rewrite SU. cbn [pl_obj place_of]. rewrite FD. fold (place_of n0). rewrite <- AH. reflexivity. }
    rewrite EF. eexists _, _, _. split; [reflexivity|]. split; [|exact ST].
    unfold shown, places. rewrite SU. cbn. unfold afile. cbn [pl_obj place_of]. rewrite FD. cbn. rewrite EPL. reflexivity.
  - (* files ask *)
    intros n0 s skip e SU ID0 A CO ID D W P tr out HP G AN CL.
    assert (tr = []) by (apply (app_inv_head (s_trace s)); rewrite app_nil_r; symmetry; exact G). subst tr.
    destruct (extend_fields c tree n0 (cargo_of c n0) s) as (X1 & X2 & X3 & X4 & _).
    fold (ext_of c tree n0 s) in X1, X2, X3, X4.
    rewrite HB, X1, X2, (rerr_read _ _ ID) in A. rewrite (rerr_read _ _ ID) in CO.
    assert (FD : fisdir (n_src n0) = true) by congruence.
    destruct (settled_way n0 e out P CL HP W) as (out' & r & EF & ST).
    { unfold verdict_at, handler_verdict. rewrite SU. cbn [pl_obj place_of pl_path]. rewrite FD, A.
      destruct skip; [|reflexivity|reflexivity]. destruct CO as [CO|CO]; [congruence|].
      destruct (read_error c (n_path n0) (n_src n0)); [reflexivity|congruence]. }
    rewrite EF. eexists _, _, _. split; [reflexivity|]. split; [|exact ST].
    unfold shown. rewrite SU. cbn. unfold afile. cbn [pl_obj place_of]. rewrite FD. reflexivity.
  - (* files travel *)
    intros n0 s e o s1 SU ID0 A RN T IH ID D W P tr out HP G AN CL.
    destruct (extend_fields c tree n0 (cargo_of c n0) s) as (X1 & X2 & X3 & X4 & _).
    fold (ext_of c tree n0 s) in X1, X2, X3, X4.
    rewrite HB, X1, X2, (rerr_read _ _ ID) in A. rewrite (rerr_read _ _ ID) in RN.
    assert (FD : fisdir (n_src n0) = true) by congruence.
    destruct (goes_below n0 out P CL HP W) as (l & HL & EF).
    { unfold verdict_at, handler_verdict. rewrite SU. cbn [pl_obj place_of pl_path]. rewrite FD, A, RN. reflexivity. }
    rewrite (ents_of_entries c n0 ID) in IH.
    rewrite <- X4 in HL. rewrite <- X1 in HL at 1.
    destruct (IH ltac:(rewrite X4; exact D) l tr out HL G AN ltac:(rewrite X4; exact CL)) as (seen & out' & r & EF2 & IP & IE).
    rewrite EF, EF2. eexists _, _, _. split; [reflexivity|]. split.
    + rewrite IP. unfold shown. rewrite SU. cbn [filter]. unfold afile at 2. cbn [pl_obj place_of]. rewrite FD. reflexivity.
    + apply trav_run in IE. eapply settles_pos; [|exact IE]. exact X4.
  - (* call err *)
    intros n0 s e n1 s1 NF E ID D W P tr out HP G AN CL.
    destruct (invoke_offer _ _ _ _ _ _ _ _ E G) as (O & PO & PP & SR & PA & IS).
    destruct (extend_fields c tree n0 (cargo_of c n0) s) as (X1 & X2 & X3 & X4 & _).
    fold (ext_of c tree n0 s) in X1, X2, X3, X4.
    assert (EPL : place_of n1 = place_of n0) by (unfold place_of; congruence).
    rewrite O in AN |- *. inversion AN as [|x y AH AT]; subst. cbn in AH. rewrite EPL in AH.
    destruct (settled_way n0 (Some e) out P CL HP W) as (out' & r & EF & ST).
    { unfold verdict_at. rewrite <- AH. destruct (c_sub c); try reflexivity. congruence. }
    rewrite EF. eexists _, _, _. split; [reflexivity|]. split; [|exact ST].
    rewrite (shown_all NF). cbn. rewrite EPL. reflexivity.
  - (* call pan *)
    intros n0 s p n1 s1 NF E ID D W P tr out HP G AN CL.
    destruct (invoke_offer _ _ _ _ _ _ _ _ E G) as (O & PO & PP & SR & PA & IS).
    destruct (extend_fields c tree n0 (cargo_of c n0) s) as (X1 & X2 & X3 & X4 & _).
    fold (ext_of c tree n0 s) in X1, X2, X3, X4.
    assert (EPL : place_of n1 = place_of n0) by (unfold place_of; congruence).
    rewrite O in AN |- *. inversion AN as [|x y AH AT]; subst. cbn in AH. rewrite EPL in AH.
    destruct (settled_panic n0 p out P CL HP W) as (out' & r & EF & ST).
    { unfold verdict_at. rewrite <- AH. destruct (c_sub c); try reflexivity. congruence. }
    rewrite EF. eexists _, _, _. split; [reflexivity|]. split; [|exact ST].
    rewrite (shown_all NF). cbn. rewrite EPL. reflexivity.
  - (* ask all *)
    intros n0 s e n1 s1 NF E A ID D W P tr out HP G AN CL.
    destruct (invoke_offer _ _ _ _ _ _ _ _ E G) as (O & PO & PP & SR & PA & IS).
    destruct (extend_fields c tree n0 (cargo_of c n0) s) as (X1 & X2 & X3 & X4 & _).
    fold (ext_of c tree n0 s) in X1, X2, X3, X4.
    assert (EPL : place_of n1 = place_of n0) by (unfold place_of; congruence).
    rewrite HB, PA, SR, X1, X2, (rerr_read _ _ ID) in A.
    rewrite O in AN |- *. inversion AN as [|x y AH AT]; subst. cbn in AH. rewrite EPL in AH.
    destruct (settled_way n0 e out P CL HP W) as (out' & r & EF & ST).
    { unfold verdict_at, handler_verdict. rewrite <- AH. cbn [pl_obj place_of pl_path]. rewrite A. destruct (c_sub c); try reflexivity. congruence. }
    rewrite EF. eexists _, _, _. split; [reflexivity|]. split; [|exact ST].
    rewrite (shown_all NF). cbn. rewrite EPL. reflexivity.
  - (* ask dir *)
    intros n0 s e n1 s1 SU E A ID D W P tr out HP G AN CL.
    destruct (invoke_offer _ _ _ _ _ _ _ _ E G) as (O & PO & PP & SR & PA & IS).
    destruct (extend_fields c tree n0 (cargo_of c n0) s) as (X1 & X2 & X3 & X4 & _).
    fold (ext_of c tree n0 s) in X1, X2, X3, X4.
    assert (EPL : place_of n1 = place_of n0) by (unfold place_of; congruence).
    rewrite HB, PA, SR, X1, X2, (rerr_read _ _ ID) in A.
    rewrite O in AN |- *. inversion AN as [|x y AH AT]; subst. cbn in AH. rewrite EPL in AH.
    destruct (settled_break n0 e out P CL HP W) as (out' & r & EF & ST).
    { unfold verdict_at, handler_verdict. rewrite <- AH. cbn [pl_obj place_of pl_path]. rewrite A, SU. reflexivity. }
    rewrite EF. eexists _, _, _. split; [reflexivity|]. split; [|exact ST].
    rewrite shown_all by congruence. cbn. rewrite EPL. reflexivity.
  - (* travel *)
    intros n0 s skip e n1 s1 o s2 NF E A CO T IH ID D W P tr out HP G AN CL.
    pose proof (invoke_grows _ _ _ _ _ _ _ E) as G1.
    pose proof (proj1 (proj2 (proj2 (kernel_grows c tree))) _ _ _ _ _ T) as G2.
    destruct (grown_split _ _ _ _ G1 G2 G) as (t1 & t2 & -> & GT1 & GT2).
    destruct (invoke_offer _ _ _ _ _ _ _ _ E GT1) as (O & PO & PP & SR & PA & IS).
    destruct (extend_fields c tree n0 (cargo_of c n0) s) as (X1 & X2 & X3 & X4 & _).
    fold (ext_of c tree n0 s) in X1, X2, X3, X4.
    assert (EPL : place_of n1 = place_of n0) by (unfold place_of; congruence).
    rewrite HB, PA, SR, X1, X2, (rerr_read _ _ ID) in A.
    rewrite offers_app, O in AN |- *. cbn [app] in AN |- *. inversion AN as [|x y AH AN2]; subst. cbn in AH. rewrite EPL in AH.
    destruct (goes_below n0 out P CL HP W) as (l & HL & EF).
    { unfold verdict_at, handler_verdict. rewrite <- AH. cbn [pl_obj place_of pl_path]. rewrite A.
      destruct (c_sub c); try congruence; destruct CO as [-> |[-> CO]]; try reflexivity; congruence. }
    rewrite (ents_of_entries c n0 ID) in IH.
    assert (D1 : s_depth s1 = (base + Z.of_nat (length (n_pos n1)) + 1)%Z).
    { destruct G1 as [DD _]. rewrite DD, D. rewrite PP, X4. reflexivity. }
    assert (PN : n_pos n1 = n_pos n0) by congruence.
    assert (HL' : preorders es (n_pos n1) (n_path n1) 0 (entries c (n_path n0) (n_src n0)) l).
    { rewrite PN, PA, X1. exact HL. }
    destruct (IH D1 l t2 out HL' GT2 AN2 ltac:(rewrite PN; exact CL)) as (seen & out' & r & EF2 & IP & IE).
    rewrite EF, EF2. eexists _, _, _. split; [reflexivity|]. split.
    + rewrite (shown_all NF) in *. cbn [places map fst]. fold (places (offers t2)). rewrite EPL, IP. reflexivity.
    + apply trav_run in IE. eapply settles_pos; [|exact IE]. exact PN.
  - (* trav ret *)
    intros n ts s r0 s1 L IH D P tr out HP G AN CL.
    destruct (IH D P tr out HP G AN) as (seen & out' & r & EF & IP & IE).
    { intros q j x E _. apply CL. exists (j :: x). exact E. }
    exists seen, out', r. split; [exact EF|]. split; [exact IP|]. destruct r0 as [[|] [er|]]; cbn in *; auto.
  - (* trav rescue *)
    intros n ts s p s1 er L IH ER D P tr out HP G AN CL.
    pose proof (proj2 (proj2 (proj2 (kernel_grows c tree))) _ _ _ _ _ _ L) as [_ [t T]].
    assert (tr = t ++ [EvRescue (saved_of c n s1)]).
    { unfold grown in G. cbn in G. rewrite T, <- app_assoc in G. apply app_inv_head in G. auto. }
    subst tr. rewrite offers_app in AN |- *. cbn [offers] in AN |- *. rewrite app_nil_r in AN |- *.
    destruct (IH D P t out HP T AN) as (seen & out' & r & EF & IP & IE).
    { intros q j x E _. apply CL. exists (j :: x). exact E. }
    exists seen, out', r. split; [exact EF|]. split; [exact IP|]. cbn in IE. destruct IE as (pl & -> & LE).
    cbn. right. exists pl, p. split; [reflexivity|]. split; [lia|]. subst er. eexists. reflexivity.
  - (* loop nil *)
    intros n i s D P tr out HP G AN CL. inversion HP; subst.
    assert (tr = []) by (apply (app_inv_head (s_trace s)); rewrite app_nil_r; auto). subst tr.
    exists [], out, Completed. split; [reflexivity|]. split; [unfold shown; destruct (c_sub c); reflexivity|].
    split; [reflexivity|]. intros q _. reflexivity.
  - (* loop skipped *)
    intros n i e ts s er s1 R IH SK D P tr out HP G AN CL.
    inversion HP as [|pos path i0 e0 rest l1 l2 H1 H2 A1 A2 A3 A4 A5]; subst.
    assert (DC : s_depth s = (base + Z.of_nat (length (n_pos (child_node n i e))))%Z).
    { cbn. rewrite app_length. cbn. lia. }
    destruct (IH eq_refl DC l1 tr out H1 G AN) as (seen & out' & r & EF & IP & IE).
    { intros q [x E]. cbn in E. rewrite <- app_assoc in E. apply (CL q i x E). lia. }
    rewrite filter_app, fate_app, EF. cbn in IE. destruct IE as [[-> IE]|[(_ & _ & X & _)|X]].
    + exists seen, out', (Failed er). split; [reflexivity|]. split; [exact IP|]. cbn. auto.
    + unfold is_skip_all_only in X. rewrite SK, andb_false_r in X. discriminate.
    + apply not_rescued_skip in X. unfold is_skip_error in X. rewrite SK in X. discriminate.
  - (* loop failed *)
    intros n i e ts s b er s1 R IH NSK NSA D P tr out HP G AN CL.
    inversion HP as [|pos path i0 e0 rest l1 l2 H1 H2 A1 A2 A3 A4 A5]; subst.
    assert (DC : s_depth s = (base + Z.of_nat (length (n_pos (child_node n i e))))%Z).
    { cbn. rewrite app_length. cbn. lia. }
    destruct (IH eq_refl DC l1 tr out H1 G AN) as (seen & out' & r & EF & IP & IE).
    { intros q [x E]. cbn in E. rewrite <- app_assoc in E. apply (CL q i x E). lia. }
    assert (LR : forall er' r', rescued (child_node n i e) er' r' -> rescued n er' r').
    { intros er' r' (pl & x & Q1 & Q2 & Q3). cbn in Q2. rewrite app_length in Q2. cbn in Q2. exists pl, x. repeat split; auto. lia. }
    rewrite filter_app, fate_app, EF. destruct b.
    + cbn in IE. destruct IE as [[-> IE]|[(_ & _ & X & _)|X]].
      * exists seen, out', (Failed er). split; [reflexivity|]. split; [exact IP|]. cbn. split; [exact NSK|].
        left. split; [reflexivity|]. rewrite (NSA eq_refl). discriminate.
      * unfold is_skip_error in X. rewrite NSK, (NSA eq_refl) in X. discriminate.
      * pose proof (LR _ _ X) as Y. destruct X as (pl & x & -> & _). exists seen, out', (Panicked pl x).
        split; [reflexivity|]. split; [exact IP|]. cbn. split; [exact NSK|]. right. right. exact Y.
    + cbn in IE. destruct IE as [[-> IE]|[(-> & LE & X & SO)|X]].
      * exists seen, out', (Failed er). split; [reflexivity|]. split; [exact IP|]. cbn. split; [exact NSK|].
        left. split; [reflexivity|]. intro SA. unfold is_skip_all_only in IE. rewrite NSK, SA in IE. specialize (IE eq_refl).
        cbn in IE. rewrite app_length in IE. cbn in IE. destruct (n_pos n); [reflexivity|cbn in IE; lia].
      * cbn in LE, SO. rewrite app_length in LE. cbn in LE.
        assert (SA : errors_is SkipAll er = true) by (unfold is_skip_all_only in X; apply andb_prop in X; apply X).
        assert (FO : Forall (fun q => out' q = true) (filter (within (c_depth c) base) l2)).
        { apply Forall_forall. intros q HI. apply filter_In in HI. destruct HI as [HI _].
          pose proof (proj2 (preorder_pos es) _ _ _ _ _ H2) as FF. rewrite Forall_forall in FF.
          destruct (FF q HI) as (j & x & LJ & E). rewrite SO.
          - rewrite E. rewrite later_under. assert (i <? j = true) as -> by (apply Nat.ltb_lt; lia). apply orb_true_r.
          - rewrite E. apply not_under_other. lia. }
        rewrite (fate_out _ _ _ FO). rewrite app_nil_r.
        exists seen, out', Completed. split; [reflexivity|]. split; [exact IP|]. cbn. split; [exact NSK|].
        right. left. split; [reflexivity|]. split; [destruct (n_pos n); [cbn in LE; lia|discriminate]|]. split; [exact SA|].
        intros q NU. rewrite SO by (intro Q; apply NU; eapply under_child; exact Q).
        destruct (later (n_pos n ++ [i]) (pl_pos q)) eqn:LQ; [|apply orb_false_r].
        destruct NU. eapply later_under_dir. exact LQ.
      * pose proof (LR _ _ X) as Y. destruct X as (pl & x & -> & _). exists seen, out', (Panicked pl x).
        split; [reflexivity|]. split; [exact IP|]. cbn. split; [exact NSK|]. right. right. exact Y.
  - (* loop pan *)
    intros n i e ts s p s1 R IH D P tr out HP G AN CL.
    inversion HP as [|pos path i0 e0 rest l1 l2 H1 H2 A1 A2 A3 A4 A5]; subst.
    assert (DC : s_depth s = (base + Z.of_nat (length (n_pos (child_node n i e))))%Z).
    { cbn. rewrite app_length. cbn. lia. }
    destruct (IH eq_refl DC l1 tr out H1 G AN) as (seen & out' & r & EF & IP & IE).
    { intros q [x E]. cbn in E. rewrite <- app_assoc in E. apply (CL q i x E). lia. }
    rewrite filter_app, fate_app, EF. cbn in IE. destruct IE as (pl & -> & PO).
    exists seen, out', (Panicked pl p). split; [reflexivity|]. split; [exact IP|]. cbn. exists pl. split; [reflexivity|].
    rewrite PO, app_length. cbn. lia.
  - (* loop next *)
    intros n i e ts s b er s1 o s2 R IHR COND L IHL D P tr out HP G AN CL.
    inversion HP as [|pos path i0 e0 rest l1 l2 H1 H2 A1 A2 A3 A4 A5]; subst.
    pose proof (proj1 (kernel_grows c tree) _ _ _ _ R) as G1.
    pose proof (proj2 (proj2 (proj2 (kernel_grows c tree))) _ _ _ _ _ _ L) as G2.
    destruct (grown_split _ _ _ _ G1 G2 G) as (t1 & t2 & -> & GT1 & GT2).
    assert (DC : s_depth s = (base + Z.of_nat (length (n_pos (child_node n i e))))%Z).
    { cbn. rewrite app_length. cbn. lia. }
    rewrite offers_app in AN |- *. apply Forall_app in AN. destruct AN as [AN1 AN2].
    destruct (IHR eq_refl DC l1 t1 out H1 GT1 AN1) as (seen1 & out1 & r1 & EF1 & IP1 & IE1).
    { intros q [x E]. cbn in E. rewrite <- app_assoc in E. apply (CL q i x E). lia. }
    assert (CM : r1 = Completed /\ same_outside (n_pos (child_node n i e)) out out1).
    { destruct er as [er|].
      - destruct COND as [-> SK]. cbn in IE1. destruct IE1 as [[_ [X|X]]|[(-> & _ & _ & SO)|X]].
        + destruct (n_pos n); discriminate.
        + unfold is_skip_error in X. congruence.
        + auto.
        + apply not_rescued_skip in X. unfold is_skip_error in X. congruence.
      - destruct b; exact IE1. }
    destruct CM as [-> SO1].
    assert (D1 : s_depth s1 = (base + Z.of_nat (length (n_pos n)) + 1)%Z)
      by (destruct G1 as [DD _]; rewrite DD; exact D).
    destruct (IHL D1 l2 t2 out1 H2 GT2 AN2) as (seen2 & out2 & r2 & EF2 & IP2 & IE2).
    { intros q j x E LE. rewrite SO1 by (rewrite E; apply not_under_other; lia). apply (CL q j x E). lia. }
    rewrite filter_app, fate_app, EF1, EF2.
    exists (seen1 ++ seen2), out2, r2. split; [reflexivity|]. split.
    + unfold places in *. rewrite map_app, IP1, IP2, shown_app. reflexivity.
    + assert (SB : forall d, same_outside (n_pos n) out1 d -> same_outside (n_pos n) out d).
      { intros d SD q NU. rewrite (SD q NU). apply SO1. intro Q. apply NU. eapply under_child. exact Q. }
      destruct o as [[[|] [er2|]]|x|]; cbn in *; try assumption.
      * destruct IE2 as [N [X|[(X1 & X2 & X3 & X4)|X]]]; split; auto. right. left. auto.
      * destruct IE2 as [X Y]. auto.
      * destruct IE2 as [X Y]. auto.
Qed.
End Course.

(** ** Sessions *)
Lemma course_offers : forall c h ans sampling t P o s,
  hooks_ok c -> root_ok c t -> handled_by c h ->
  preorder (entries c) [] (c_tree c) t P ->
  session c sampling t = (o, s) -> answered (offers (s_trace s)) ans ->
  let '(seen, e) := course (verdict_at c h ans) (fun _ => false) (filter (within (c_depth c) 0) P) in
  map place_of (map fst (offers (s_trace s))) = shown c seen /\ gives o e.
Proof.
  intros c h ans sampling t P o s HK RO HB HP H AN.
  destruct (session_shape _ _ _ _ _ HK RO H) as (ro & s2 & tr & HR & EO & NS & T2 & TS & _).
  assert (E : offers (s_trace s) = offers tr).
  { rewrite TS. cbn [offers]. rewrite offers_app. destruct (calls_ending o (s_metrics s)) as (_ & E & _).
    rewrite E, app_nil_r. reflexivity. }
  assert (AG : agrees ans (offers tr)).
  { rewrite <- E. apply Forall_forall. intros [n r] HI. cbn. symmetry. apply AN. exact HI. }
  destruct (proj1 (course_main c (c_tree c) h ans 0 HB) _ _ _ _ HR eq_refl eq_refl P tr (fun _ => false) HP) as (seen & out' & r & EF & PS & ST).
  { unfold grown. rewrite T2. reflexivity. }
  { exact AG. }
  { reflexivity. }
  rewrite course_fate, EF. cbn [fst snd]. split.
  - rewrite E, map_map. exact PS.
  - rewrite EO. destruct ro as [[[|] [e|]]|x|]; cbn in ST; cbn [of_run].
    + destruct ST as [[-> _]|[(_ & X & _)|(p & x & -> & LT & Q)]]; [reflexivity|congruence|].
      cbn. destruct (pl_pos p); [cbn in LT; lia|]. exists e. split; [reflexivity|]. destruct Q as [[d|r0] ->]; [left|right]; eexists; reflexivity.
    + destruct ST as [-> _]. reflexivity.
    + destruct ST as [[-> _]|[(_ & X & _)|(p & x & -> & LT & Q)]]; [reflexivity|cbn in X; lia|].
      cbn. destruct (pl_pos p); [cbn in LT; lia|]. exists e. split; [reflexivity|]. destruct Q as [[d|r0] ->]; [left|right]; eexists; reflexivity.
    + destruct ST as [-> _]. reflexivity.
    + destruct ST as (p & -> & PO). cbn. rewrite PO. reflexivity.
    + contradiction.
Qed.
Lemma course_session : forall c h ans sampling t P o s,
  hooks_ok c -> root_ok c t -> plain c -> handled_by c h ->
  preorder (entries c) [] (c_tree c) t P ->
  session c sampling t = (o, s) -> answered (calls (s_trace s)) ans ->
  let '(seen, e) := course (verdict_at c h ans) (fun _ => false) (filter (within (c_depth c) 0) P) in
  map place_of (visited s) = shown c seen /\ gives o e.
Proof.
  intros c h ans sampling t P o s HK RO PL HB HP H AN. unfold visited.
  rewrite (plain_calls_offers _ _ _ _ _ HK RO PL H) in AN |- *. exact (course_offers _ _ _ _ _ _ _ _ HK RO HB HP H AN).
Qed.

(** ** The positions of the nodes offered increase strictly *)
Lemma sorted_app : forall (R : list nat -> list nat -> Prop) a b, StronglySorted R a -> StronglySorted R b ->
  (forall x y, In x a -> In y b -> R x y) -> StronglySorted R (a ++ b).
Proof.
  intros R a b A B H. induction A as [|x a A IH F]; [exact B|]. cbn. constructor.
  - apply IH. intros u v I J. apply H; [right; exact I|exact J].
  - apply Forall_app. split; [exact F|]. apply Forall_forall. intros y I. apply H; [left; reflexivity|exact I].
Qed.
Definition poss (L : list (node * cbres)) : list (list nat) := map (fun x => n_pos (fst x)) L.
Definition rising (lo : list nat -> Prop) (L : list (node * cbres)) : Prop :=
  StronglySorted before (poss L) /\ Forall lo (poss L).
Definition kid_from (pos : list nat) (i : nat) (q : list nat) : Prop := exists j x, i <= j /\ q = pos ++ j :: x.
Lemma rising_impl : forall (P Q : list nat -> Prop) L, (forall q, P q -> Q q) -> rising P L -> rising Q L.
Proof. intros P Q L H [A B]. split; [exact A|]. eapply Forall_impl; [|exact B]. exact H. Qed.
Lemma rising_nil : forall P, rising P [].
Proof. intro P. split; constructor. Qed.
Lemma rising_here : forall pos n r, n_pos n = pos -> rising (under pos) [(n, r)].
Proof.
  intros pos n r <-. split; [repeat constructor|]. repeat constructor. exists []. rewrite app_nil_r. reflexivity.
Qed.
Lemma rising_cons : forall pos n r L, n_pos n = pos -> rising (kid_from pos 0) L -> rising (under pos) ((n, r) :: L).
Proof.
  intros pos n r L <- [A B]. split; cbn.
  - constructor; [exact A|]. eapply Forall_impl; [|exact B]. intros q (j & x & _ & ->). left. apply above_spec. eauto.
  - constructor; [exists []; rewrite app_nil_r; reflexivity|]. eapply Forall_impl; [|exact B].
    intros q (j & x & _ & ->). exists (j :: x). reflexivity.
Qed.

Lemma rising_main : forall c tree,
  (forall n s o s1, run c tree n s o s1 -> forall tr, grown s s1 tr -> rising (under (n_pos n)) (offers tr)) /\
  (forall n s o n1 s1, body c tree n s o n1 s1 -> forall tr, grown s s1 tr -> rising (under (n_pos n)) (offers tr)) /\
  (forall n ts s o s1, trav c tree n ts s o s1 -> forall tr, grown s s1 tr -> rising (kid_from (n_pos n) 0) (offers tr)) /\
  (forall n i ts s o s1, loop c tree n i ts s o s1 -> forall tr, grown s s1 tr -> rising (kid_from (n_pos n) i) (offers tr)).
Proof.
  intros c tree.
  assert (IV : forall n0 s o n1 s1 tr, invoke c (ext_of c tree n0 s) (cargo_of c n0) s = (o, n1, s1) -> grown s s1 tr ->
    exists r, offers tr = [(n1, r)] /\ n_pos n1 = n_pos n0).
  { intros n0 s o n1 s1 tr E G. destruct (invoke_offer _ _ _ _ _ _ _ _ E G) as (O & PO & PP & SR & PA & IS).
    destruct (extend_fields c tree n0 (cargo_of c n0) s) as (X1 & X2 & X3 & X4 & _).
    fold (ext_of c tree n0 s) in X1, X2, X3, X4. eexists. split; [exact O|]. congruence. }
  assert (EP : forall n0 s, n_pos (ext_of c tree n0 s) = n_pos n0).
  { intros n0 s. destruct (extend_fields c tree n0 (cargo_of c n0) s) as (_ & _ & _ & X4 & _). exact X4. }
  assert (NG : forall s tr, grown s s tr -> tr = []).
  { intros s tr G. apply (app_inv_head (s_trace s)). rewrite app_nil_r. symmetry. exact G. }
  assert (KU : forall pos i q, under (pos ++ [i]) q -> kid_from pos i q).
  { intros pos i q [x ->]. exists i, x. split; [lia|]. rewrite <- app_assoc. reflexivity. }
  assert (KL : forall pos q, kid_from pos 0 q -> under pos q).
  { intros pos q (j & x & _ & ->). exists (j :: x). reflexivity. }
  apply kernel_mut.
  - intros n s s1 E tr G. apply descend_false in E. subst s1. apply NG in G. subst tr. apply rising_nil.
  - intros n s s1 o nn s2 E B IH tr G.
    destruct (descend_true _ _ _ _ E) as (D1 & T1 & _).
    destruct (ascend_fields nn s2) as (_ & T2 & _).
    destruct (proj1 (proj2 (kernel_grows c tree)) _ _ _ _ _ B) as [_ [t T]].
    assert (E2 : offers tr = offers t).
    { unfold grown in G. rewrite T2, T, T1 in G. rewrite <- !app_assoc in G.
      apply app_inv_head in G. subst tr. rewrite !offers_app.
      rewrite !offers_mute by (intros; discriminate). cbn. rewrite app_nil_r. reflexivity. }
    rewrite E2. apply IH. exact T.
  - intros n0 s e n1 s1 SU ID0 E tr G. destruct (IV _ _ _ _ _ _ E G) as (r & -> & P). apply rising_here. exact P.
  - intros n0 s p n1 s1 SU ID0 E tr G. destruct (IV _ _ _ _ _ _ E G) as (r & -> & P). apply rising_here. exact P.
  - intros n0 s skip e SU ID0 A CO tr G. apply NG in G. subst tr. apply rising_nil.
  - intros n0 s e o s1 SU ID0 A RN T IH tr G. specialize (IH tr G). rewrite EP in IH.
    eapply rising_impl; [|exact IH]. apply KL.
  - intros n0 s e n1 s1 SU E tr G. destruct (IV _ _ _ _ _ _ E G) as (r & -> & P). apply rising_here. exact P.
  - intros n0 s p n1 s1 SU E tr G. destruct (IV _ _ _ _ _ _ E G) as (r & -> & P). apply rising_here. exact P.
  - intros n0 s e n1 s1 SU E A tr G. destruct (IV _ _ _ _ _ _ E G) as (r & -> & P). apply rising_here. exact P.
  - intros n0 s e n1 s1 SU E A tr G. destruct (IV _ _ _ _ _ _ E G) as (r & -> & P). apply rising_here. exact P.
  - intros n0 s skip e n1 s1 o s2 SU E A CO T IH tr G.
    pose proof (proj1 (proj2 (proj2 (kernel_grows c tree))) _ _ _ _ _ T) as G2.
    assert (G1 : exists t1, grown s s1 t1).
    { destruct (invoke_grows _ _ _ _ _ _ _ E) as [_ [t1 Q]]. exists t1. exact Q. }
    destruct G1 as [t1 G1]. destruct G2 as [_ [t2 G2]].
    assert (tr = t1 ++ t2).
    { unfold grown in *. rewrite G2, G1, <- app_assoc in G. apply app_inv_head in G. auto. }
    subst tr. rewrite offers_app. destruct (IV _ _ _ _ _ _ E G1) as (r & -> & P). cbn [app].
    apply rising_cons; [exact P|]. rewrite <- P. apply IH. exact G2.
  - intros n es s r s1 L IH tr G. apply IH. exact G.
  - intros n es s p s1 er L IH ER tr G.
    destruct (proj2 (proj2 (proj2 (kernel_grows c tree))) _ _ _ _ _ _ L) as [_ [t T]].
    assert (offers tr = offers t).
    { unfold grown, emit in *. cbn in G. rewrite T in G. rewrite <- app_assoc in G. apply app_inv_head in G. subst tr.
      rewrite offers_app. cbn. apply app_nil_r. }
    rewrite H. apply IH. exact T.
  - intros n i s tr G. apply NG in G. subst tr. apply rising_nil.
  - intros n i e es s er s1 R IH SK tr G. eapply rising_impl; [|apply IH; exact G]. apply KU.
  - intros n i e es s b er s1 R IH SK SA tr G. eapply rising_impl; [|apply IH; exact G]. apply KU.
  - intros n i e es s p s1 R IH tr G. eapply rising_impl; [|apply IH; exact G]. apply KU.
  - intros n i e es s b er s1 o s2 R IHR CO L IHL tr G.
    pose proof (proj1 (kernel_grows c tree) _ _ _ _ R) as G1.
    pose proof (proj2 (proj2 (proj2 (kernel_grows c tree))) _ _ _ _ _ _ L) as G2.
    destruct (grown_split _ _ _ _ G1 G2 G) as (t1 & t2 & -> & GT1 & GT2).
    rewrite offers_app. destruct (IHR _ GT1) as [A1 B1]. destruct (IHL _ GT2) as [A2 B2]. cbn in B1.
    unfold rising, poss. rewrite map_app. rewrite Forall_forall in B1, B2. split.
    + apply sorted_app; [exact A1|exact A2|]. intros x y I J. destruct (B1 x I) as [u ->]. destruct (B2 y J) as (j & v & LE & ->).
      right. exists (n_pos n), i, j, u, v. rewrite <- app_assoc. repeat split. lia.
    + apply Forall_forall. intros q I. apply in_app_or in I. destruct I as [I|I]; [apply KU; apply B1; exact I|].
      destruct (B2 q I) as (j & v & LE & ->). exists j, v. split; [lia|reflexivity].
Qed.

(** The positions of the nodes visited, whatever the callback, the handlers and
    the features do. *)
Lemma offered_rising : forall c sampling t o s, hooks_ok c -> root_ok c t -> session c sampling t = (o, s) ->
  StronglySorted before (poss (offers (s_trace s))).
Proof.
  intros c sampling t o s HK RO H.
  destruct (session_shape _ _ _ _ _ HK RO H) as (ro & s2 & tr & HR & EO & NS & T2 & TS & _).
  assert (E : offers (s_trace s) = offers tr).
  { rewrite TS. cbn [offers]. rewrite offers_app. destruct (calls_ending o (s_metrics s)) as (_ & E & _).
    rewrite E, app_nil_r. reflexivity. }
  rewrite E. apply (proj1 (rising_main c (c_tree c)) _ _ _ _ HR tr). unfold grown. rewrite T2. reflexivity.
Qed.
Lemma sorted_once : forall l, StronglySorted before l -> NoDup l.
Proof.
  intros l S. induction S as [|x l S IH F]; constructor; [|exact IH].
  intro I. rewrite Forall_forall in F. apply (before_irrefl x). apply F. exact I.
Qed.
Definition pos_eqb (a b : list nat) : bool := if list_eq_dec Nat.eq_dec a b then true else false.
Definition answer_at (L : list (node * cbres)) (p : place) : cbres :=
  match find (fun x => pos_eqb (n_pos (fst x)) (pl_pos p)) L with Some x => snd x | None => CNil end.
Lemma answer_at_ok : forall L, NoDup (poss L) -> answered L (answer_at L).
Proof.
  intros L. induction L as [|[m q] L IH]; intros ND n r HI; [destruct HI|]. unfold answer_at. cbn [find fst].
  inversion ND as [|x l NI ND']; subst. destruct HI as [E|HI].
  - inversion E; subst. unfold pos_eqb. cbn. destruct (list_eq_dec Nat.eq_dec (n_pos n) (n_pos n)); [reflexivity|congruence].
  - unfold pos_eqb. cbn [pl_pos place_of]. destruct (list_eq_dec Nat.eq_dec (n_pos m) (n_pos n)) as [X|X].
    + destruct NI. change (n_pos (fst (m, q))) with (n_pos m). rewrite X. apply in_map_iff. exists (n, r). auto.
    + exact (IH ND' n r HI).
Qed.
Lemma answers_exist : forall c sampling t o s, hooks_ok c -> root_ok c t -> plain c -> session c sampling t = (o, s) ->
  exists ans, answered (calls (s_trace s)) ans.
Proof.
  intros c sampling t o s HK RO PL H. exists (answer_at (calls (s_trace s))). apply answer_at_ok.
  rewrite (plain_calls_offers _ _ _ _ _ HK RO PL H). apply sorted_once. exact (offered_rising _ _ _ _ _ HK RO H).
Qed.
Lemma by_place : forall c f sampling t o s, hooks_ok c -> root_ok c t ->
  (forall tr n, c_client c tr n = f (place_of n)) -> session c sampling t = (o, s) -> answered (calls (s_trace s)) f.
Proof.
  intros c f sampling t o s HK RO FC H n r HI.
  pose proof (session_results_at c sampling t o s (fun x => f (place_of (fst x)) = snd x) HK RO) as F.
  cbn [fst snd] in F. rewrite Forall_forall in F. symmetry. symmetry. apply (F ltac:(intros; symmetry; apply FC) H (n, r) HI).
Qed.

(** ** With hibernation and a filter *)
Definition alert (h : hibstate) : alertness :=
  match h with HibPending => Waiting | HibActive => Awake | HibRetired => AsleepForGood end.
Definition receive (c : cfg) (a : alertness) (n : node) : option cbres * alertness :=
  let '(w, a') := hibernation (c_hib c) a n in
  (match w with
   | Some r => Some r
   | None => match let_through c n with inl true => None | inl false => Some CNil | inr p => Some (CPanic p) end
   end, a').
Fixpoint alert_after (c : cfg) (a : alertness) (l : list node) : alertness :=
  match l with [] => a | n :: l' => alert_after c (snd (receive c a (clear n))) l' end.
Lemma reception_cons : forall c a n l,
  reception c a (n :: l) = fst (receive c a (clear n)) :: reception c (snd (receive c a (clear n))) l.
Proof.
  intros c a n l. cbn [reception]. change (with_children [] n) with (clear n). unfold receive.
  destruct (hibernation (c_hib c) a (clear n)) as [w a']. reflexivity.
Qed.
Lemma reception_app : forall c l1 l2 a, reception c a (l1 ++ l2) = reception c a l1 ++ reception c (alert_after c a l1) l2.
Proof.
  intros c. induction l1 as [|n l1 IH]; intros l2 a; [reflexivity|]. rewrite <- app_comm_cons, !reception_cons, IH. reflexivity.
Qed.
Lemma alert_after_app : forall c l1 l2 a, alert_after c a (l1 ++ l2) = alert_after c (alert_after c a l1) l2.
Proof. intros c. induction l1 as [|n l1 IH]; intros l2 a; [reflexivity|]. cbn. apply IH. Qed.
Lemma reception_length : forall c l a, length (reception c a l) = length l.
Proof. intros c. induction l as [|n l IH]; intro a; [reflexivity|]. rewrite reception_cons. cbn. rewrite IH. reflexivity. Qed.
Lemma received_app : forall D1 W1 D2 W2, length D1 = length W1 -> received (D1 ++ D2) (W1 ++ W2) = received D1 W1 ++ received D2 W2.
Proof.
  induction D1 as [|x D1 IH]; intros [|w W1] D2 W2 E; try discriminate; [reflexivity|]. cbn in E. injection E as E.
  cbn. destruct w; [apply IH; exact E|]. cbn. f_equal. apply IH. exact E.
Qed.
Lemma reception_free : forall c, c_hib c = None -> forall l a b, reception c a l = reception c b l.
Proof.
  intros c N l. induction l as [|n l IH]; intros a b; [reflexivity|]. cbn [reception]. unfold hibernation. rewrite N.
  f_equal. apply IH.
Qed.

Section Reception.
Variable c : cfg.
Variable sampling : bool.
Variable tree : string.

(** The navigators' contents of a node. *)
Definition fits (n : node) (k : contents) : Prop :=
  (scope_is_tree (n_scope n) = true -> k <> None) /\
  match k with
  | Some (fs, _) => files_shown c n = Some (c_sort c fs)
  | None => files_shown c n = None
  end /\ (c_sub c = SubDirectoriesWithFiles -> k <> None).
Lemma fits_ext : forall n s, fits (ext_of c tree n s) (cargo_of c n).
Proof.
  intros n s. destruct (extend_fields c tree n (cargo_of c n) s) as (X1 & X2 & X3 & _).
  fold (ext_of c tree n s) in X1, X2, X3. split; [|split].
  - intros S E. unfold ext_of, extend in S. destruct (split_path (n_path n)). cbn in S.
    destruct (n_isdir n) eqn:D; [|discriminate]. unfold cargo_of, inspect in E. rewrite D in E.
    destruct (read_contents c n) as [[fs ds] er]. destruct (c_sub c); discriminate.
  - unfold cargo_of, inspect, files_shown, read_contents, files_of, dirs_of. rewrite X1, X2, X3.
    destruct (c_read c (n_path n) (n_src n)) as [es er]. cbn [fst]. destruct (c_sub c), (n_isdir n); reflexivity.
  - intros S E. unfold cargo_of, inspect in E. rewrite S in E. destruct (read_contents c n) as [[fs ds] er]. discriminate.
Qed.

(** What an iteration of the chain adds, given what is received. *)
Definition told_as (n : node) (s : st) (o : outcome (option error)) (n1 : node) (s1 : st) (w : option cbres) : Prop :=
  clear n1 = n /\ s_items s1 = s_items s /\
  (exists evs, s_trace s1 = s_trace s ++ evs /\ offers evs = [] /\
     calls evs = match w with None => [(n1, res_of o)] | Some _ => [] end) /\
  match w with None => True | Some r => res_of o = r end.

Lemma told_call : forall n m s s', clear m = n -> s_items s = s_items s' -> s_trace s = s_trace s' ->
  told_as n s' (call_out c m s) m (after_call c m s) None.
Proof.
  intros n m s s' CM IT TR. split; [exact CM|]. split; [exact IT|]. split; [|exact I].
  eexists. split; [unfold after_call; cbn; rewrite TR; reflexivity|]. split; [reflexivity|]. cbn. rewrite call_out_res. 
  cbn [tick_by set_metrics s_trace]. rewrite <- TR. reflexivity.
Qed.
Lemma told_kept : forall n m s s1 o r, clear m = n -> s_items s1 = s_items s -> s_trace s1 = s_trace s -> res_of o = r ->
  told_as n s o m s1 (Some r).
Proof.
  intros n m s s1 o r CM IT TR E. split; [exact CM|]. split; [exact IT|]. split; [|exact E].
  exists []. rewrite app_nil_r. auto.
Qed.

Lemma rest_told : forall n k s o n1 s1, n_children n = [] -> fits n k ->
  iterate c (rest c sampling) n k s = (o, n1, s1) ->
  s_hib s1 = s_hib s /\
  told_as n s o n1 s1 (match let_through c n with inl true => None | inl false => Some CNil | inr p => Some (CPanic p) end).
Proof.
  intros n k s o n1 s1 CH (F1 & F2 & F3) H. unfold rest in H.
  assert (CN : clear n = n) by (apply (clear_clear n [] CH)).
  unfold let_through. destruct (c_scheme c) as [sc|] eqn:SC.
  - assert (NN : has_nanny c = false) by (unfold has_nanny; rewrite SC; apply andb_false_r).
    rewrite NN in H. cbn [role_if app has iterate link_next] in H.
    unfold filter_next in H. rewrite SC in H. unfold node_part, child_part.
    assert (TAIL : forall (b : bool) (m : node) (s' : st), clear m = n -> s_items s' = s_items s -> s_trace s' = s_trace s -> s_hib s' = s_hib s ->
      iterate c (role_if sampling RoleSampler ++ [RoleAnchor]) m k s' = (o, n1, s1) ->
      s_hib s1 = s_hib s /\ told_as n s o n1 s1 None).
    { intros b m s' A1 A2 A3 A4 Q. rewrite iterate_tail in Q. inversion Q; subst o n1 s1.
      split; [exact A4|]. apply told_call; assumption. }
    assert (NAN : forall (x : list fsnode -> asked (list fsnode)) s' (f : linkres -> linkres),
      s_items s' = s_items s -> s_trace s' = s_trace s -> s_hib s' = s_hib s ->
      match nanny_scheme_next c x n k s' with
      | (Ret (b, e), m, s2) => e = None /\ b = true /\ clear m = n /\ s_items s2 = s_items s /\ s_trace s2 = s_trace s /\ s_hib s2 = s_hib s /\
          match files_shown c n with Some l => match x l with inl _ => inl true | inr p => inr p end | None => inr nil_deref end = inl true
      | (Pan p, m, s2) => m = n /\ s2 = s' /\
          match files_shown c n with Some l => match x l with inl _ => inl true | inr p => inr p end | None => inr nil_deref end = inr p
      | (Stuck, _, _) => False
      end).
    { intros x s' f A1 A2 A3. unfold nanny_scheme_next. destruct k as [[fs ds]|]; rewrite F2; [|auto].
      destruct (x (c_sort c fs)) as [l|p]; [|auto]. repeat split; auto. }
    destruct sc as [[p|] [m|]]; cbn [sc_primary sc_child] in *.
    + assert (PR : forall q n' s', primary_next p n k s = (q, n', s') ->
        n' = n /\ s_items s' = s_items s /\ s_trace s' = s_trace s /\ s_hib s' = s_hib s /\
        match match p with PrimaryNode f => f n
              | PrimarySampler m => inl (negb (scope_is_tree (n_scope n)) || match m [n_src n] with [] => false | _ => true end) end with
        | inl b => q = Ret (b, None) | inr x => q = Pan x end).
      { intros q n' s' Q. destruct p as [f|mt]; cbn in Q.
        - unfold match_next in Q. destruct (f n) as [[|]|x]; inversion Q; subst; repeat split; reflexivity.
        - unfold sampler_next in Q. destruct (scope_is_tree (n_scope n)); cbn.
          + destruct k as [[fs ds]|]; [|exfalso; apply F1; reflexivity]. inversion Q; subst. repeat split; reflexivity.
          + inversion Q; subst. repeat split; reflexivity. }
      destruct (primary_next p n k s) as [[q n'] s'] eqn:Q. destruct (PR _ _ _ eq_refl) as (-> & A1 & A2 & A3 & A4).
      destruct (match p with PrimaryNode f => f n | PrimarySampler _ => _ end) as [[|]|x]; subst q.
      * specialize (NAN m s' (fun x => x) A1 A2 A3). destruct (nanny_scheme_next c m n k s') as [[[[b e]|x|] m2] s2]; [| |contradiction].
        -- destruct NAN as (-> & -> & B1 & B2 & B3 & B4 & B5). unfold asked in *; rewrite B5. apply (TAIL true m2 s2); assumption.
        -- destruct NAN as (-> & -> & B). unfold asked in *; rewrite B. inversion H; subst. split; [exact A3|]. apply told_kept; auto.
      * inversion H; subst. split; [exact A3|]. apply told_kept; auto.
      * inversion H; subst. split; [exact A3|]. apply told_kept; auto.
    + assert (PR : forall q n' s', primary_next p n k s = (q, n', s') ->
        n' = n /\ s_items s' = s_items s /\ s_trace s' = s_trace s /\ s_hib s' = s_hib s /\
        match match p with PrimaryNode f => f n
              | PrimarySampler m => inl (negb (scope_is_tree (n_scope n)) || match m [n_src n] with [] => false | _ => true end) end with
        | inl b => q = Ret (b, None) | inr x => q = Pan x end).
      { intros q n' s' Q. destruct p as [f|mt]; cbn in Q.
        - unfold match_next in Q. destruct (f n) as [[|]|x]; inversion Q; subst; repeat split; reflexivity.
        - unfold sampler_next in Q. destruct (scope_is_tree (n_scope n)); cbn.
          + destruct k as [[fs ds]|]; [|exfalso; apply F1; reflexivity]. inversion Q; subst. repeat split; reflexivity.
          + inversion Q; subst. repeat split; reflexivity. }
      destruct (primary_next p n k s) as [[q n'] s'] eqn:Q. destruct (PR _ _ _ eq_refl) as (-> & A1 & A2 & A3 & A4).
      destruct (match p with PrimaryNode f => f n | PrimarySampler _ => _ end) as [[|]|x]; subst q.
      * apply (TAIL true n s'); assumption.
      * inversion H; subst. split; [exact A3|]. apply told_kept; auto.
      * inversion H; subst. split; [exact A3|]. apply told_kept; auto.
    + specialize (NAN m s (fun x => x) eq_refl eq_refl eq_refl). destruct (nanny_scheme_next c m n k s) as [[[[b e]|x|] m2] s2]; [| |contradiction].
      * destruct NAN as (-> & -> & B1 & B2 & B3 & B4 & B5). unfold asked in *; unfold asked in *; rewrite B5. apply (TAIL true m2 s2); assumption.
      * destruct NAN as (-> & -> & B). unfold asked in *; rewrite B. inversion H; subst. split; [reflexivity|]. apply told_kept; auto.
    + inversion H; subst. split; [reflexivity|]. apply told_kept; auto.
  - cbn [has role_if] in H. unfold has_nanny in H. rewrite SC in H. cbn [has negb] in H.
    rewrite andb_true_r in H. destruct (is_dwf (c_sub c)) eqn:DW.
    + destruct k as [[fs ds]|]; [|exfalso; apply F3; [destruct (c_sub c); (discriminate || reflexivity)|reflexivity]].
      cbn [role_if app iterate link_next nanny_next] in H. rewrite iterate_tail in H.
      inversion H; subst o n1 s1. split; [reflexivity|]. apply told_call; try reflexivity. apply clear_clear. exact CH.
    + cbn [role_if app] in H. rewrite iterate_tail in H. inversion H; subst o n1 s1. split; [reflexivity|].
      apply told_call; auto.
Qed.

Lemma chain_told : forall n k s o n1 s1, n_children n = [] -> fits n k ->
  iterate c (chain c sampling false) n k s = (o, n1, s1) ->
  alert (s_hib s1) = snd (receive c (alert (s_hib s)) n) /\
  told_as n s o n1 s1 (fst (receive c (alert (s_hib s)) n)).
Proof.
  intros n k s o n1 s1 CH CK H.
  assert (EQ : chain c sampling false = role_if (has (c_hib c)) RoleHibernate ++ rest c sampling)
    by (unfold chain, rest; reflexivity).
  assert (CN : clear n = n) by (apply (clear_clear n [] CH)).
  rewrite EQ in H. clear EQ. unfold receive, hibernation.
  destruct (c_hib c) as [hb|] eqn:HB.
  - cbn [has role_if app] in H.
    assert (I1 : iterate c (RoleHibernate :: rest c sampling) n k s =
              match hib_next c n s with
              | (Ret (true, None), n1, s1) => iterate c (rest c sampling) n1 k s1
              | (Ret (_, err), n1, s1) => (Ret err, n1, s1)
              | (Pan p, n1, s1) => (Pan p, n1, s1)
              | (Stuck, n1, s1) => (Stuck, n1, s1)
              end).
    { cbn [iterate link_next]. destruct (hib_next c n s) as [[[[[|] [e|]]|p|] n'] s']; reflexivity. }
    rewrite I1 in H. clear I1. unfold hib_next in H. rewrite HB in H.
    assert (DI : forall b e x, e = EvWake \/ e = EvSleep -> exists evs,
      s_trace (set_hib x (dispatch b e s)) = s_trace s ++ evs /\ calls evs = [] /\ offers evs = [] /\
      s_items (set_hib x (dispatch b e s)) = s_items s /\ s_hib (set_hib x (dispatch b e s)) = x).
    { intros b e x E. destruct b; cbn; [exists []; rewrite app_nil_r; auto|exists [e]].
      destruct E as [-> | ->]; auto. }
    assert (GO : forall s' (w : option cbres), (exists evs, s_trace s' = s_trace s ++ evs /\ calls evs = [] /\ offers evs = []) -> s_items s' = s_items s ->
      told_as n s' o n1 s1 w -> told_as n s o n1 s1 w).
    { intros s' w (e1 & T1 & C1 & O1) I1 (A & B & (e2 & T2 & O2 & C2) & D). split; [exact A|]. split; [congruence|]. split; [|exact D].
      exists (e1 ++ e2). rewrite T2, T1, <- app_assoc, offers_app, calls_app, O1, C1. auto. }
    assert (ST : forall s' r, (exists evs, s_trace s' = s_trace s ++ evs /\ calls evs = [] /\ offers evs = []) -> s_items s' = s_items s ->
      (o, n1, s1) = (Ret r, n, s') -> forall w, res_of (Ret r) = w -> told_as n s o n1 s1 (Some w)).
    { intros s' r X Y E w R. inversion E; subst. apply (GO s'); [exact X|exact Y|]. apply told_kept; auto. }
    destruct (s_hib s) eqn:HS; cbn [alert].
    + unfold hb_wake in H. unfold holds.
      destruct (match hb_wake_at hb with Some f => f n | None => inl true end) as [[|]|x].
      * destruct (DI (mu_wake (s_mutes s)) EvWake HibActive (or_introl eq_refl)) as (evs & T & C & O & IT & HH).
        destruct (hb_incl_wake hb).
        -- destruct (rest_told _ _ _ _ _ _ CH CK H) as [E1 TT]. rewrite E1, HH. split; [reflexivity|].
           cbn [fst]. eapply GO; [|exact IT|exact TT]. eauto.
        -- inversion H; subst. rewrite HH. split; [reflexivity|]. cbn [fst]. eapply ST; [|exact IT|reflexivity|reflexivity]. eauto.
      * inversion H; subst. rewrite HS. split; [reflexivity|]. cbn. apply told_kept; auto.
      * inversion H; subst. rewrite HS. split; [reflexivity|]. cbn. apply told_kept; auto.
    + unfold hb_sleep in H. unfold holds.
      destruct (match hb_sleep_at hb with Some f => f n | None => inl false end) as [[|]|x].
      * destruct (DI (mu_sleep (s_mutes s)) EvSleep HibRetired (or_intror eq_refl)) as (evs & T & C & O & IT & HH).
        destruct (hb_incl_sleep hb).
        -- destruct (rest_told _ _ _ _ _ _ CH CK H) as [E1 TT]. rewrite E1, HH. split; [reflexivity|].
           cbn [fst]. eapply GO; [|exact IT|exact TT]. eauto.
        -- inversion H; subst. rewrite HH. split; [reflexivity|]. cbn [fst]. eapply ST; [|exact IT|reflexivity|reflexivity]. eauto.
      * destruct (rest_told _ _ _ _ _ _ CH CK H) as [E1 TT]. rewrite E1, HS. split; [reflexivity|exact TT].
      * inversion H; subst. rewrite HS. split; [reflexivity|]. cbn. apply told_kept; auto.
    + inversion H; subst. rewrite HS. split; [reflexivity|]. cbn. apply told_kept; auto.
  - cbn [has role_if app] in H.
    destruct (rest_told _ _ _ _ _ _ CH CK H) as [E1 TT]. rewrite E1. split; [reflexivity|exact TT].
Qed.

(** A stretch of the traversal. *)
Definition receives (s s1 : st) : Prop :=
  s_items s1 = s_items s /\
  exists tr, s_trace s1 = s_trace s ++ tr /\
    alert (s_hib s1) = alert_after c (alert (s_hib s)) (map fst (offers tr)) /\
    let W := reception c (alert (s_hib s)) (map fst (offers tr)) in
    Forall2 (fun x w => w = None \/ w = Some (snd x)) (offers tr) W /\ calls tr = received (offers tr) W.
Lemma receives_quiet : forall s s1 tr, s_items s1 = s_items s -> s_trace s1 = s_trace s ++ tr -> s_hib s1 = s_hib s ->
  offers tr = [] -> calls tr = [] -> receives s s1.
Proof.
  intros s s1 tr A B D O C. split; [exact A|]. exists tr. rewrite O, C, D. cbn. repeat split; auto.
Qed.
Lemma receives_refl : forall s, receives s s.
Proof. intro s. apply (receives_quiet s s []); rewrite ?app_nil_r; reflexivity. Qed.
Lemma receives_trans : forall a b d, receives a b -> receives b d -> receives a d.
Proof.
  intros a b d (I1 & t1 & T1 & A1 & F1 & C1) (I2 & t2 & T2 & A2 & F2 & C2).
  split; [congruence|]. exists (t1 ++ t2). rewrite T2, T1, app_assoc, offers_app, map_app, reception_app, alert_after_app, <- A1.
  split; [reflexivity|]. split; [exact A2|]. split; [apply Forall2_app; assumption|].
  rewrite calls_app, received_app, C1, C2; [reflexivity|]. rewrite reception_length, map_length. reflexivity.
Qed.
Lemma invoke_receives : forall n s o n1 s1, s_items s = chain c sampling false -> n_children n = [] ->
  invoke c (ext_of c tree n s) (cargo_of c n) s = (o, n1, s1) -> receives s s1.
Proof.
  intros n s o n1 s1 QI CH H. unfold invoke in H. rewrite QI in H.
  destruct (iterate c (chain c sampling false) (ext_of c tree n s) (cargo_of c n) s) as [[io inn] is_] eqn:IT.
  inversion H; subst o n1 s1. clear H.
  assert (CH' : n_children (ext_of c tree n s) = []).
  { destruct (extend_fields c tree n (cargo_of c n) s) as (_ & _ & _ & _ & _ & _ & X7).
    fold (ext_of c tree n s) in X7. congruence. }
  destruct (chain_told _ _ _ _ _ _ CH' (fits_ext n s) IT) as (AL & CL & IE & (evs & T & O & C) & W).
  split; [exact IE|]. exists (evs ++ [EvOffer inn (res_of io)]). cbn [emit s_trace s_hib].
  split; [rewrite T, app_assoc; reflexivity|]. rewrite offers_app, O. cbn [app offers map fst alert_after reception].
  change (with_children [] inn) with (clear inn). rewrite CL. split; [exact AL|].
  fold (receive c (alert (s_hib s)) (ext_of c tree n s)). cbn zeta.
  pose proof (reception_cons c (alert (s_hib s)) inn []) as RC. rewrite CL in RC. cbn [reception] in RC.
  change (with_children [] inn) with (clear inn) in RC. rewrite CL in RC. rewrite RC.
  destruct (fst (receive c (alert (s_hib s)) (ext_of c tree n s))) as [r|].
  - split; [constructor; [right; cbn; rewrite W; reflexivity|constructor]|]. rewrite calls_app, C. reflexivity.
  - split; [constructor; [left; reflexivity|constructor]|]. rewrite calls_app, C. reflexivity.
Qed.
Lemma run_receives : forall n s o s1, run c tree n s o s1 -> s_items s = chain c sampling false -> n_children n = [] -> receives s s1.
Proof.
  assert (Q : forall s s', s_items s = chain c sampling false -> receives s s' -> s_items s' = chain c sampling false).
  { intros s s' A (B & _). congruence. }
  intros n s o s1 HR QS CH.
  refine (proj1 (kernel_inv c tree receives (fun n s => s_items s = chain c sampling false /\ n_children n = [])
            (fun n s => s_items s = chain c sampling false /\ n_children n = []) (fun n es s => s_items s = chain c sampling false)
            receives_refl receives_trans _ _ _ _ _ _ _) n s o s1 HR (conj QS CH)); clear n s o s1 HR QS CH.
  - intros n es s s' A B. eapply Q; eassumption.
  - intros n s s1 [A C] E. destruct (descend_true _ _ _ _ E) as (_ & _ & _ & _ & I & M).
    split; [congruence|exact C].
  - intros n nn s s1 s2 [A C] E _ R2.
    destruct (descend_true _ _ _ _ E) as (D1 & T1 & G1 & H1 & I1 & M1).
    destruct (ascend_fields nn s2) as (D3 & T3 & G3 & H3 & I3 & M3).
    apply (receives_trans s s1); [|apply (receives_trans s1 s2); [exact R2|]].
    + eapply receives_quiet; [exact I1|exact T1|congruence| |]; destruct (mu_descend (s_mutes s)); reflexivity.
    + eapply receives_quiet; [exact I3|exact T3|congruence| |]; destruct (mu_ascend (s_mutes s2)); reflexivity.
  - intros n s o n1 s1 [A B] _ I. pose proof (invoke_receives _ _ _ _ _ A B I) as JJ.
    split; [exact JJ|]. intros _. eapply Q; eassumption.
  - intros n s [A B] _ _. exact A.
  - intros n es s i e A _. split; [exact A|reflexivity].
  - intros n es s A. apply (receives_quiet s _ [EvRescue (saved_of c n s)]); reflexivity.
Qed.
End Reception.

Lemma session_reception : forall c sampling t o s, hooks_ok c -> root_ok c t -> session c sampling t = (o, s) ->
  let W := reception c (at_the_start (c_hib c)) (map fst (offers (s_trace s))) in
  Forall2 (fun x w => w = None \/ w = Some (snd x)) (offers (s_trace s)) W /\ calls (s_trace s) = received (offers (s_trace s)) W.
Proof.
  intros c sampling t o s HK RO H.
  destruct (session_shape _ _ _ _ _ HK RO H) as (ro & s2 & tr & HR & EO & NS & T2 & TS & _).
  assert (E : offers (s_trace s) = offers tr).
  { rewrite TS. cbn [offers]. rewrite offers_app. destruct (calls_ending o (s_metrics s)) as (_ & E & _).
    rewrite E, app_nil_r. reflexivity. }
  assert (EC : calls (s_trace s) = calls tr).
  { rewrite TS. cbn [calls]. rewrite calls_app. destruct (calls_ending o (s_metrics s)) as (E1 & _ & _).
    rewrite E1, app_nil_r. reflexivity. }
  assert (QI : s_items (began c sampling) = chain c sampling false) by (cbn; apply session_items_chain).
  destruct (run_receives c sampling (c_tree c) _ _ _ _ HR QI eq_refl) as (_ & tr' & T & _ & F & C).
  rewrite T2 in T. cbn in T. inversion T; subst tr'.
  rewrite E, EC.
  assert (ST : forall l, reception c (at_the_start (c_hib c)) l = reception c (alert (start_hib c)) l).
  { intro l. unfold at_the_start, start_hib, hb_launch. destruct (c_hib c) as [[[w|] sl iw is_]|] eqn:EH; try reflexivity.
    apply reception_free. exact EH. }
  rewrite ST. exact (conj F C).
Qed.

Lemma full_course : forall c h sampling t P o s,
  hooks_ok c -> root_ok c t -> handled_by c h ->
  preorder (entries c) [] (c_tree c) t P ->
  session c sampling t = (o, s) ->
  exists D ans, answered D ans /\
  (let '(seen, e) := course (verdict_at c h ans) (fun _ => false) (filter (within (c_depth c) 0) P) in
   map place_of (map fst D) = shown c seen /\ gives o e) /\
  Forall (stands c (entries c) (c_tree c) (c_tree c) t 0) (map fst D) /\
  (let W := reception c (at_the_start (c_hib c)) (map fst D) in
   Forall2 (fun x w => w = None \/ w = Some (snd x)) D W /\ calls (s_trace s) = received D W).
Proof.
  intros c h sampling t P o s HK RO HB HP H.
  exists (offers (s_trace s)), (answer_at (offers (s_trace s))).
  assert (AN : answered (offers (s_trace s)) (answer_at (offers (s_trace s)))).
  { apply answer_at_ok. apply sorted_once. exact (offered_rising _ _ _ _ _ HK RO H). }
  split; [exact AN|].
  split; [exact (course_offers _ _ _ _ _ _ _ _ HK RO HB HP H AN)|].
  split; [apply Forall_map; exact (offers_stand _ _ _ _ _ HK RO H)|].
  exact (session_reception _ _ _ _ _ HK RO H).
Qed.
Lemma received_sorted : forall D W, StronglySorted before (poss D) -> StronglySorted before (poss (received D W)) /\
  forall q, In q (poss (received D W)) -> In q (poss D).
Proof.
  induction D as [|x D IH]; intros W S; [split; [constructor|intros q []]|]. cbn in S. inversion S as [|a l S' F]; subst.
  destruct W as [|[r|] W]; cbn; [split; [constructor|intros q []]| |].
  - destruct (IH W S') as [A B]. split; [exact A|]. intros q I. right. apply B. exact I.
  - destruct (IH W S') as [A B]. split.
    + constructor; [exact A|]. rewrite Forall_forall in *. intros q I. apply F. apply B. exact I.
    + intros q [I|I]; [left; exact I|right; apply B; exact I].
Qed.
Lemma visits_rise : forall c sampling t o s, hooks_ok c -> root_ok c t -> session c sampling t = (o, s) ->
  StronglySorted before (map n_pos (visited s)) /\ NoDup (map n_pos (visited s)).
Proof.
  intros c sampling t o s HK RO H. pose proof (offered_rising _ _ _ _ _ HK RO H) as S.
  destruct (session_reception _ _ _ _ _ HK RO H) as [_ C].
  assert (K : StronglySorted before (map n_pos (visited s))).
  { unfold visited. rewrite C, map_map. apply received_sorted. exact S. }
  split; [exact K|]. apply sorted_once. exact K.
Qed.
