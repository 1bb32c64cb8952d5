(** Sessions in which the file system changes while it is traversed and any
    hook, defect handler or life cycle handler may panic: C114, C115, C116. *)
From Verif Require Import Base Paths Level Kernel Session Defaults Spec Cases World SpecWorld WorldFacts WorldBracket.
Local Open Scope string_scope.
Local Open Scope list_scope.

(** *** What a world is: one which does not change and in which nothing panics is
    the traversal the other properties are about. *)
Theorem c114_agrees_with_the_session_without_panics : forall c sampling t f,
  S (height t) <= f -> fst (session c sampling t) <> Stuck ->
  w_session f (steady c) c sampling t = session c sampling t.
Proof.
  intros c sampling t f L N. rewrite <- steady_session in *. apply session_steps; assumption.
Qed.
Print Assumptions c114_agrees_with_the_session_without_panics.

(** ** Worlds for the examples: the default hooks, one of which panics *)
Definition with_read (r : list event -> string -> fsnode -> asked (list fsnode * option error)) (w : world) : world :=
  mkWorld r (w_sort w) (w_subpath w) (w_stat w) (w_fault w) (w_ask w) (w_rescue w) (w_handlers w).
Definition with_handlers (h : list event -> event -> option panicv) (w : world) : world :=
  mkWorld (w_read w) (w_sort w) (w_subpath w) (w_stat w) (w_fault w) (w_ask w) (w_rescue w) h.
Definition with_rescue (r : list event -> panicv -> saved -> asked (string + error)) (w : world) : world :=
  mkWorld (w_read w) (w_sort w) (w_subpath w) (w_stat w) (w_fault w) (w_ask w) r (w_handlers w).
(** the read hook panics on this path *)
Definition broken_at (p : string) : list event -> string -> fsnode -> asked (list fsnode * option error) :=
  fun _ q t => if String.eqb p q then inr (PVal 9) else inl (default_read q t).
Definition u : cfg := base_cfg SubUniversal.
Definition w1 : world := with_read (broken_at "/r/A/B") (steady u).
Definition run1 := w_session (S (height tree1)) w1 u false tree1.
Definition descent (p : string) (_ : list event) (e : event) : option panicv :=
  match e with EvDescend n => if String.eqb (n_path n) p then Some (PVal 5) else None | _ => None end.
Definition ascent (_ : list event) (e : event) : option panicv :=
  match e with EvAscend n => Some (PVal 6) | _ => None end.

(** *** C114: rescued once. The panic handler and the Ascend handlers do not
    panic; anything else may, wherever it likes. When the panic handler was
    called then it was called once, in the course of one node (its Descend
    notification and what belongs to it are the last events before the call),
    with the state of the directory of this node and the counts of the callbacks
    made; after the call there are only Ascend notifications and the End
    notification, and the session returns the error made from what the handler
    answered (unless an End handler panics, which leaves the session). *)
Theorem c114_rescued_once_partial : forall f w c sampling t o s,
  calm_rescue w -> calm_ascend w -> w_session f w c sampling t = (o, s) ->
  rescues (s_trace s) = [] \/
  exists before m mine sv p a rest d,
    s_trace s = before ++ EvDescend m :: mine ++ EvRescue sv :: rest ++ [EvEnd (s_metrics s)] /\
    rescues before = [] /\ Forall (own (n_pos m)) mine /\ Forall is_ascend rest /\
    w_rescue w (before ++ EvDescend m :: mine) p sv = inl a /\
    n_parent m = Some d /\ saves w c (before ++ EvDescend m :: mine) d sv /\
    o = match w_handlers w (before ++ EvDescend m :: mine ++ EvRescue sv :: rest) (EvEnd (s_metrics s)) with
        | Some q => Pan q
        | None => Ret (Some (rescue_error a))
        end.
Proof. exact session_settles. Qed.
Print Assumptions c114_rescued_once_partial.
(** The error is one of the two the callers can ask for, never a skip. *)
Theorem c114_the_error_of_a_rescue : forall a,
  errors_is CorePanic (rescue_error a) = true /\ errors_is SkipDir (rescue_error a) = false /\ errors_is SkipAll (rescue_error a) = false.
Proof. intros [to|e]; repeat split. Qed.
Print Assumptions c114_the_error_of_a_rescue.
Example c114_rescued_once_case :
  calm_rescue w1 /\ calm_ascend w1 /\ fst run1 = Ret (Some (TraversalSaved "saved")) /\ paths run1 = ["/r"; "/r/A"] /\
  rescues (s_trace (snd run1)) = [mkSaved "/r" "/r/A" true 1 SubUniversal (mkMetrics 0 0 2 0 0 0)].
Proof.
  split; [intros tr p sv; exists (inl "saved"); reflexivity|]. split; [intros tr n; reflexivity|].
  split; [vm_compute; reflexivity|]. split; vm_compute; reflexivity.
Qed.

(** *** C114: what leaves the session. With a panic handler which does not panic
    a panic leaves the session only when it happened before any node other than
    the root was met (Begin handlers, the status or fault hook, the root's own
    processing), or in the handlers of the root's Ascend, or of the End
    notification. *)
Theorem c114_what_escapes_partial : forall f w c sampling t p s, calm_rescue w -> w_session f w c sampling t = (Pan p, s) ->
  Forall of_root (s_trace s) \/
  exists before e, s_trace s = before ++ [e] /\ w_handlers w before e = Some p /\
    ((exists n, e = EvAscend n /\ n_pos n = []) \/ e = EvEnd (s_metrics s)).
Proof. exact session_escape. Qed.
Print Assumptions c114_what_escapes_partial.
Example c114_what_escapes_case :
  let w := with_handlers ascent (steady u) in
  calm_rescue w /\ fst (w_session 9 w u false tree1) = Pan (PVal 6).
Proof. split; [intros tr p sv; exists (inl "saved"); reflexivity|vm_compute; reflexivity]. Qed.

(** *** C114: no panic is swallowed. A session which returned without having called
    the panic handler met no panic: in any world which gives the same answers
    where this one gives any, whatever it does where this one panics, the session
    is the same, event by event. *)
Theorem c114_nothing_swallowed : forall f w w' c sampling t e s, completes w w' ->
  w_session f w c sampling t = (Ret e, s) -> rescues (s_trace s) = [] -> w_session f w' c sampling t = (Ret e, s).
Proof. exact session_completes. Qed.
Print Assumptions c114_nothing_swallowed.
(* the read hook panics on a directory which the callback lets skip *)
Example c114_nothing_swallowed_case :
  let c := with_client (answer "/r/A" (CErr (Err SkipDir))) u in
  let w := with_read (broken_at "/r/A/B") (steady c) in
  completes w (steady c) /\ rescues (s_trace (snd (w_session 9 w c false tree1))) = [] /\
  paths (w_session 9 w c false tree1) = ["/r"; "/r/A"; "/r/b"; "/r/c"; "/r/Z"] /\
  fst (w_session 9 w c false tree1) = Ret None.
Proof.
  split.
  - repeat split; try (intros; intro; intros; assumption); try (intros; assumption).
    intros tr p t [l e] E. cbn in *. unfold broken_at in E. destruct (String.eqb "/r/A/B" p); [discriminate|exact E].
  - split; [vm_compute; reflexivity|]. split; vm_compute; reflexivity.
Qed.

(** *** C114: a panic handler which panics. Then no session which called it returns:
    the panic of the handler leaves the session. *)
Theorem c114_panicking_panic_handler : forall f w c sampling t e s, wild_rescue w ->
  w_session f w c sampling t = (Ret e, s) -> rescues (s_trace s) = [].
Proof.
  intros f w c sampling t e s W H. destruct (session_any f w c sampling t (Ret e) s H) as (_ & _ & X). exact (X W e eq_refl).
Qed.
Print Assumptions c114_panicking_panic_handler.
(* and it is called once for each directory on the way up, each time with the
   state of this directory *)
Theorem c114_panicking_panic_handler_refuted : exists w c t p s,
  completes (steady c) (with_rescue (fun tr q sv => inl (c_rescue c tr q sv)) w) /\ wild_rescue w /\
  w_session (S (height t)) w c false t = (Pan p, s) /\ map sv_path (rescues (s_trace s)) = ["/r/A/B"; "/r/A"; "/r"].
Proof.
  pose (c := with_client (answer "/r/A/B/y" (CPanic (PVal 4))) u).
  pose (w := with_rescue (fun _ _ _ => inr (PVal 8)) (steady c)).
  exists w, c, tree1, (PVal 8), (snd (w_session (S (height tree1)) w c false tree1)).
  split; [|split; [|split]].
  - repeat split; try (intros; intro; intros; assumption).
  - intros tr p sv. exists (PVal 8). reflexivity.
  - vm_compute. reflexivity.
  - vm_compute. reflexivity.
Qed.
Print Assumptions c114_panicking_panic_handler_refuted.

(** *** C114, refuted: an Ascend handler which panics. The panic is rescued, the
    Ascend notification of the directory panics again, and so on upwards: the
    panic handler is called once for each directory on the way. *)
Theorem c114_ascend_handler_refuted : exists w c t p s,
  completes (with_handlers (fun _ _ => None) w) (steady c) /\ completes (steady c) (with_handlers (fun _ _ => None) w) /\
  calm_rescue w /\ calm_descend w /\
  w_session (S (height t)) w c false t = (Pan p, s) /\ map sv_path (rescues (s_trace s)) = ["/r/A/B"; "/r/A"; "/r"].
Proof.
  pose (w := with_handlers ascent (steady u)).
  exists w, u, tree1, (PVal 6), (snd (w_session (S (height tree1)) w u false tree1)).
  split; [|split; [|split; [|split; [|split]]]].
  - repeat split; try (intros; intro; intros; assumption).
  - repeat split; try (intros; intro; intros; assumption).
  - intros tr p sv. exists (inl "saved"). reflexivity.
  - intros tr n. reflexivity.
  - vm_compute. reflexivity.
  - vm_compute. reflexivity.
Qed.
Print Assumptions c114_ascend_handler_refuted.

(** *** C114, refuted: a Descend handler which panics. The depth which is saved is
    one more than the depth of the directory which is saved. *)
Theorem c114_saved_depth_refuted : exists w c t e s before m mine sv rest d,
  calm_rescue w /\ calm_ascend w /\ w_session (S (height t)) w c false t = (Ret e, s) /\
  s_trace s = before ++ EvDescend m :: mine ++ EvRescue sv :: rest /\ n_parent m = Some d /\
  sv_path sv = n_path d /\ n_depth d = 1%Z /\ sv_depth sv = 2%Z.
Proof.
  pose (w := with_handlers (descent "/r/A/B") (steady u)).
  pose (r := w_session (S (height tree1)) w u false tree1).
  pose (tr := s_trace (snd r)).
  assert (X : exists pre m mine sv rest d, tr = pre ++ EvDescend m :: mine ++ EvRescue sv :: rest /\ n_parent m = Some d /\
    sv_path sv = n_path d /\ n_depth d = 1%Z /\ sv_depth sv = 2%Z).
  { exists (firstn 7 tr). vm_compute. eexists. exists []. do 3 eexists.
    split; [reflexivity|]. repeat split. }
  destruct X as (pre & m & mine & sv & rest & d & X1 & X2 & X3 & X4 & X5).
  exists w, u, tree1, (Some (TraversalSaved "saved")), (snd r), pre, m, mine, sv, rest, d.
  split; [intros tr0 p sv0; exists (inl "saved"); reflexivity|]. split; [intros tr0 n; reflexivity|].
  split; [vm_compute; reflexivity|]. repeat split; assumption.
Qed.
Print Assumptions c114_saved_depth_refuted.

(** *** C115: a session with a depth limit ends in every file system, however deep it
    is and however it changes, and whatever panics. [f] counts nested Traverse
    calls: the result does not depend on it once it is large enough. *)
Theorem c115_limited_depth_ends : forall w c sampling t, (0 < c_depth c)%N ->
  exists f r, fst r <> Stuck /\ forall g, f <= g -> w_session g w c sampling t = r.
Proof.
  intros w c sampling t C. pose proof (session_limited w c sampling t C) as N.
  exists (S (S (Z.to_nat (int_of_uint (c_depth c))))). eexists. split; [exact N|].
  intros g L. exact (session_steps _ _ _ _ _ _ L N).
Qed.
Print Assumptions c115_limited_depth_ends.
(** and no node which is further from the root than the limit is ever met *)
Theorem c115_nothing_below_the_limit : forall f w c sampling t o s e m, (0 < c_depth c)%N ->
  w_session f w c sampling t = (o, s) -> In e (s_trace s) -> about e = Some m ->
  (Z.of_nat (length (n_pos m)) <= int_of_uint (c_depth c))%Z.
Proof.
  intros f w c sampling t o s e m C H I. pose proof (session_shallow f w c sampling t o s C H) as F.
  rewrite Forall_forall in F. exact (F e I m).
Qed.
Print Assumptions c115_nothing_below_the_limit.
(** Without a limit: it ends when each directory read yields only objects which
    are in the directory (of a tree which is finite to begin with). *)
Theorem c115_finite_tree_ends : forall w c sampling t, honest w ->
  exists f r, fst r <> Stuck /\ forall g, f <= g -> w_session g w c sampling t = r.
Proof.
  intros w c sampling t H. pose proof (session_honest w c sampling t _ H (Nat.lt_succ_diag_r _)) as N. exists (S (height t)). eexists. split; [exact N|].
  intros g L. exact (session_steps _ _ _ _ _ _ L N).
Qed.
Print Assumptions c115_finite_tree_ends.
(** and in a file system in which each directory has a subdirectory (a link to
    an ancestor which is followed, say) a session without a limit does not end. *)
Definition endless : world := with_read (fun _ _ _ => inl ([Dir "d" []], None)) (steady (base_cfg SubFiles)).
Lemma endless_stuck : forall f tree n s, n_isdir n = true -> fst (w_traverse f endless (base_cfg SubFiles) tree n s) = Stuck.
Proof.
  induction f as [|f IH]; intros tree n s D; [reflexivity|]. cbn [w_traverse].
  change (per_descend (c_depth (base_cfg SubFiles)) (s_depth s)) with (true, (s_depth s + 1)%Z). cbv iota beta.
  unfold tell at 1. cbn [w_handlers endless with_read steady].
  assert (B : forall s1, exists n1 s2, w_body endless (base_cfg SubFiles) (w_traverse f endless (base_cfg SubFiles) tree) tree n s1 = (Stuck, n1, s2)).
  { intros s1. unfold w_body, w_inspect. rewrite D. cbn [c_sub base_cfg].
    cbn [w_read w_sort endless with_read steady].
    destruct (w_extend endless (base_cfg SubFiles) tree n _ s1) as [hp n'] eqn:E.
    assert (K : hp = None /\ n_isdir n' = true).
    { unfold w_extend in E. destruct (split_path (n_path n)). cbn [w_subpath endless with_read steady] in E. inversion E; subst. auto. }
    destruct K as [-> K]. rewrite K. unfold w_after. cbn [w_ask endless with_read steady c_ask base_cfg default_ask].
    unfold w_travel. cbn.
    match goal with |- context [w_traverse f endless ?cc tree ?x s1] => pose proof (IH tree x s1 eq_refl) as Q; destruct (w_traverse f endless cc tree x s1) as [o s3] end.
    cbn in Q. subst o. eexists. eexists. reflexivity. }
  match goal with |- context [if ?b then (None, ?a) else (None, ?c)] => destruct (B (if b then a else c)) as (n1 & s2 & Q); destruct b end.
  all: rewrite Q; destruct (tell _ _ _ _) as [[q|] s3]; reflexivity.
Qed.
Theorem c115_endless_without_limit : forall f, fst (w_session f endless (base_cfg SubFiles) false (Dir "r" [])) = Stuck.
Proof.
  intros f. rewrite session_unfold. cbn [w_handlers endless with_read steady]. unfold w_top. cbn [w_stat endless with_read steady c_stat base_cfg no_stat_error].
  set (s1 := emit _ _). pose proof (endless_stuck f (c_tree (base_cfg SubFiles)) (new_node (c_tree (base_cfg SubFiles)) (Dir "r" []) None None []) s1 eq_refl) as Q.
  destruct (w_traverse f endless (base_cfg SubFiles) (c_tree (base_cfg SubFiles)) (new_node (c_tree (base_cfg SubFiles)) (Dir "r" []) None None []) s1) as [o s2].
  cbn in Q. subst o. reflexivity.
Qed.
Print Assumptions c115_endless_without_limit.
Definition limited : cfg :=
  mkCfg SubUniversal 3 false true default_read default_sort default_subpath no_stat_error default_fault
    default_ask (fun _ _ _ => inl "saved") "/r" None None None client_nil.
Example c115_limited_case :
  let w := with_read (fun _ _ _ => inl ([Dir "d" []; File "x"], None)) (steady limited) in
  fst (w_session 5 w limited false (Dir "r" [])) = Ret None /\
  paths (w_session 5 w limited false (Dir "r" [])) =
    ["/r"; "/r/d"; "/r/d/d"; "/r/d/d/d"; "/r/d/d/x"; "/r/d/x"; "/r/x"].
Proof. split; vm_compute; reflexivity. Qed.

(** *** C116: the counts are those of the callbacks, whatever happens: the file
    system changes, panics are rescued once or several times, or leave the
    session. *)
Theorem c116_counts_whatever_happens : forall f w c sampling t o s, w_session f w c sampling t = (o, s) ->
  m_files (s_metrics s) = files_in (calls (s_trace s)) /\ m_dirs (s_metrics s) = dirs_in (calls (s_trace s)).
Proof.
  intros f w c sampling t o s H. destruct (session_any f w c sampling t o s H) as (A & B & _). split; assumption.
Qed.
Print Assumptions c116_counts_whatever_happens.
Example c116_case : m_dirs (s_metrics (snd run1)) = 2 /\ m_files (s_metrics (snd run1)) = 0 /\
  m_files (s_metrics (snd (w_session 9 (with_handlers (descent "/r/Z") (steady u)) u false tree1))) = 3.
Proof. split; [|split]; vm_compute; reflexivity. Qed.

(** *** C11 in a world in which anything but a Descend handler may panic (also the
    panic handler and the Ascend handlers, also several times): the notifications
    are bracketed, the depth is back to where it was. *)
Theorem c11_bracketed_whatever_panics : forall f w c sampling t o s, calm_descend w ->
  w_session f w c sampling t = (o, s) -> o <> Stuck ->
  s_depth s = 0%Z /\
  exists visit fin, s_trace s = EvBegin (c_tree c) :: visit ++ fin /\
    (visit = [] \/ exists n, place_of n = mkPlace [] (c_tree c) t /\ n_parent n = None /\ bracketed n visit) /\
    (fin = [EvEnd (s_metrics s)] \/ fin = [] /\ exists p, o = Pan p).
Proof. exact session_brackets. Qed.
Print Assumptions c11_bracketed_whatever_panics.
Fixpoint descents (tr : list event) : nat := match tr with [] => 0 | EvDescend _ :: l => S (descents l) | _ :: l => descents l end.
Fixpoint ascents (tr : list event) : nat := match tr with [] => 0 | EvAscend _ :: l => S (ascents l) | _ :: l => ascents l end.
Example c11_whatever_case :
  calm_descend w1 /\ fst run1 <> Stuck /\ descents (s_trace (snd run1)) = 3 /\ ascents (s_trace (snd run1)) = 3.
Proof. split; [intros tr n; reflexivity|]. split; [vm_compute; discriminate|]. split; vm_compute; reflexivity. Qed.
(** A node whose Descend handler panicked gets no Ascend notification. *)
Theorem c11_panicking_descend_handler_refuted : exists w c t e s,
  calm_rescue w /\ calm_ascend w /\ w_session (S (height t)) w c false t = (Ret e, s) /\
  descents (s_trace s) = S (ascents (s_trace s)) /\ s_depth s = 1%Z.
Proof.
  pose (w := with_handlers (descent "/r/A/B") (steady u)).
  pose (r := w_session (S (height tree1)) w u false tree1).
  exists w, u, tree1, (Some (TraversalSaved "saved")), (snd r).
  split; [intros tr0 p sv0; exists (inl "saved"); reflexivity|]. split; [intros tr0 n; reflexivity|].
  split; [vm_compute; reflexivity|]. split; vm_compute; reflexivity.
Qed.
Print Assumptions c11_panicking_descend_handler_refuted.
