(** Property C120: what a traversal reads. Vocabulary: SpecLazy.v, Spec.v. *)
From Verif Require Import Base Paths Level Kernel Defaults Session Spec Cases CasesFacts WalkCor RecoverFacts ParentFacts WalkProps
  SpecLazy LazyFacts.
Local Open Scope string_scope.

(** Two file systems which read alike where the traversal goes cannot be told apart by it: the
    same notifications, the same nodes, the same result. *)
Theorem c120_only_entered_directories_are_read : forall c rd sampling t o s,
  session c sampling t = (o, s) -> reads_alike c rd (s_trace s) ->
  session (with_read rd c) sampling t = (o, s).
Proof. exact read_where_entered. Qed.
Print Assumptions c120_only_entered_directories_are_read.

(** What is entered are objects of the tree, none of them deeper than the depth limit. *)
Theorem c120_entered_within_the_limit : forall c sampling t o s p u,
  hooks_ok c -> root_ok c t -> session c sampling t = (o, s) -> entered c (s_trace s) p u ->
  exists q, reachable (entries c) (c_tree c) t q /\ pl_path q = p /\ pl_obj q = u /\ within (c_depth c) 0 q = true.
Proof.
  intros c sampling t o s p u HK RO H (n & I & <- & <- & _). exists (place_of n).
  split; [|split; [reflexivity|split; [reflexivity|exact (session_limited _ _ _ _ _ HK H n I)]]].
  destruct (session_parents c sampling t o s HK RO H) as (_ & _ & D). destruct (D n I) as (_ & m & IM & (E & _)).
  rewrite <- E. eapply stands_reachable.
  pose proof (session_stands _ _ _ _ _ HK RO H) as F. rewrite Forall_forall in F. exact (F _ IM).
Qed.
Print Assumptions c120_entered_within_the_limit.

(** So nothing below the depth limit matters. *)
Theorem c120_nothing_below_the_depth_limit : forall c rd sampling t,
  hooks_ok c -> root_ok c t ->
  (forall q, reachable (entries c) (c_tree c) t q -> within (c_depth c) 0 q = true ->
     rd (pl_path q) (pl_obj q) = c_read c (pl_path q) (pl_obj q)) ->
  session (with_read rd c) sampling t = session c sampling t.
Proof.
  intros c rd sampling t HK RO A. destruct (session c sampling t) as [o s] eqn:H.
  apply read_where_entered; [exact H|]. intros p u E.
  destruct (c120_entered_within_the_limit c sampling t o s p u HK RO H E) as (q & R & <- & <- & W). apply A; assumption.
Qed.
Print Assumptions c120_nothing_below_the_depth_limit.

(** A reader which fails everywhere but in the given directories. *)
Definition failing (ps : list string) (p : string) (t : fsnode) : list fsnode * option error :=
  if existsb (String.eqb p) ps then default_read p t else ([], Some (Err (Plain 9))).
(** The callback skips "/r/A": the directory "/r/A/B" is never read, nor is any file. *)
Definition skipping : cfg := with_client (answer "/r/A" (CErr (Err SkipDir))) (base_cfg SubUniversal).
Lemma failing_alike : forall c ps tr, c_read c = default_read ->
  c_sub c = SubUniversal -> Forall (fun e => match e with EvDescend n => n_isdir n = true -> In (n_path n) ps | _ => True end) tr ->
  reads_alike c (failing ps) tr.
Proof.
  intros c ps tr RD SUB F p t (n & I & <- & <- & D). rewrite Forall_forall in F. specialize (F _ I). cbn in F.
  destruct D as [D|[D|D]]; [|congruence|congruence]. rewrite RD. unfold failing.
  replace (existsb (String.eqb (n_path n)) ps) with true; [reflexivity|].
  symmetry. apply existsb_exists. exists (n_path n). split; [auto|apply String.eqb_refl].
Qed.
Example c120_case :
  let s := snd (session skipping false tree1) in
  map n_path (visited s) = ["/r"; "/r/A"; "/r/b"; "/r/c"; "/r/Z"] /\
  reads_alike skipping (failing ["/r"; "/r/A"; "/r/b"]) (s_trace s) /\
  failing ["/r"; "/r/A"; "/r/b"] "/r/A/B" (Dir "B" [File "y"]) <> c_read skipping "/r/A/B" (Dir "B" [File "y"]).
Proof.
  split; [vm_compute; reflexivity|]. split; [|discriminate].
  apply failing_alike; [reflexivity|reflexivity|]. vm_compute.
  repeat (apply Forall_cons; [first [exact I|intro; try discriminate; auto 9]|]). apply Forall_nil.
Qed.
(** A depth limit of one level. *)
Definition places2 : list place := Eval vm_compute in
  match lister 9 (entries_all (with_depth 1 (base_cfg SubUniversal))) [] "/r" tree1 with Some l => l | None => [] end.
Example c120_limit_case :
  let c := with_depth 1 (base_cfg SubUniversal) in
  (forall q, reachable (entries c) (c_tree c) tree1 q -> within (c_depth c) 0 q = true ->
     failing ["/r"; "/r/A"; "/r/b"; "/r/c"; "/r/Z"] (pl_path q) (pl_obj q) = c_read c (pl_path q) (pl_obj q)) /\
  paths (session c false tree1) = ["/r"; "/r/A"; "/r/b"; "/r/c"; "/r/Z"].
Proof.
  cbv zeta. split; [|vm_compute; reflexivity].
  assert (L : preorder (entries (with_depth 1 (base_cfg SubUniversal))) [] "/r" tree1 places2) by (apply (lister_sound 9); vm_compute; reflexivity).
  destruct (preorder_characterised _ _ _ _ L) as [RP _]. intros q R. apply RP in R.
  repeat (destruct R as [<-|R]; [vm_compute; intro; try discriminate; reflexivity|]). destruct R.
Qed.
