(** Properties C95-C97: the skip handler and the fault handler. Vocabulary:
    Spec.v, SpecSkip.v. *)
From Verif Require Import Base Paths Level Kernel Defaults Session Spec KernelFacts SessionFacts FilesFacts
  Filters Hooks Life Options Build SpecBuild Settle BuildCases Cases CasesFacts SpecSkip SkipFacts.
Local Open Scope string_scope.

(** The configuration of the examples, with the skip handler [h]. *)
Definition skipping (sub : subscription) (h : handler) : cfg :=
  with_ask (fun n _ e => h (n_path n) (n_src n) e) (base_cfg sub).
Definition at_path (p : string) (r : skip_traversal * option error) : handler :=
  fun path _ _ => if String.eqb path p then r else (SkipNoneTraversal, None).

Lemma ordinary_hooks : forall sub, hooks_ok (base_cfg sub) /\ root_ok (base_cfg sub) tree1 /\ plain (base_cfg sub) /\
  nil_callback (base_cfg sub).
Proof. intro sub. split; [apply base_hooks|]. repeat split. Qed.

(** *** C95: what the documentation says (pref/defects.go:91-94): the handler is
    invoked if the client callback returns an error *)

(** REFUTED. With a callback which always returns nil the handler decides what is
    visited, for every subscription. *)
Theorem c95_asked_without_error_refuted : forall sub,
  exists c a b t, c_sub c = sub /\ hooks_ok c /\ root_ok c t /\ plain c /\ nil_callback c /\
    paths (session (with_ask a c) false t) <> paths (session (with_ask b c) false t).
Proof.
  intro sub. exists (base_cfg sub), (fun _ _ _ => (SkipAllTraversal, None)), default_ask, tree1.
  destruct (ordinary_hooks sub) as (H1 & H2 & H3 & H4).
  repeat split; try assumption; try apply H1. destruct sub; vm_compute; discriminate.
Qed.
Print Assumptions c95_asked_without_error_refuted.

(** REFUTED. After an error of the callback the handler is not asked: handlers
    which differ only where the callback returns an error (Files: on files, the
    only nodes it is called for) give the same session. *)
Theorem c95_not_asked_after_error_refuted : forall c a b sampling t, plain c -> agree_where_nil c a b ->
  session (with_ask a c) sampling t = session (with_ask b c) sampling t.
Proof. intros c a b sampling t PL AG. exact (session_agree c sampling a b PL AG t). Qed.
Print Assumptions c95_not_asked_after_error_refuted.

(** Two very different handlers agree in this sense: a callback failing on
    "/r/A", and a handler which would then end the session or not. *)
Definition failing (sub : subscription) : cfg :=
  with_client (answer "/r/A" (CErr (Err (Plain 4)))) (base_cfg sub).
Definition ender : node -> contents -> option error -> skip_traversal * option error :=
  fun n _ _ => if String.eqb (n_path n) "/r/A" then (SkipAllTraversal, None) else (SkipNoneTraversal, None).
Example c95_case : plain (failing SubUniversal) /\ agree_where_nil (failing SubUniversal) ender default_ask /\
  fst (session (with_ask ender (failing SubUniversal)) false tree1) = Ret (Some (Err (Plain 4))) /\
  paths (session (with_ask ender (failing SubUniversal)) false tree1) = ["/r"; "/r/A"].
Proof.
  split; [split; reflexivity|]. split; [|split; vm_compute; reflexivity].
  intros n k e [tr H]. cbn in H. unfold answer in H. unfold ender.
  destruct (String.eqb (n_path n) "/r/A"); [discriminate|reflexivity].
Qed.

(** REFUTED. The handler cannot terminate the session early by the "all" answer
    and fs.SkipAll: the siblings are still visited. *)
Theorem c95_skip_all_refuted : forall sub, exists c t s, c_sub c = sub /\ hooks_ok c /\ root_ok c t /\ plain c /\
  nil_callback c /\
  (forall n k e, c_ask c n k e = (SkipAllTraversal, Some (Err SkipAll)) <-> n_path n = "/r/A") /\
  session c false t = (Ret None, s) /\
  (exists n, In n (visited s) /\ n_path n = match sub with SubDirectories | SubDirectoriesWithFiles => "/r/b" | _ => "/r/Z" end).
Proof.
  intro sub.
  set (h := at_path "/r/A" (SkipAllTraversal, Some (Err SkipAll))).
  destruct (ordinary_hooks sub) as (H1 & H2 & H3 & H4).
  exists (skipping sub h), tree1, (snd (session (skipping sub h) false tree1)).
  repeat split; try assumption; try apply H1; try apply H3.
  - unfold skipping, with_ask, h, at_path. cbn [c_ask].
    destruct (String.eqb (n_path n) "/r/A") eqn:E; [intros _; apply String.eqb_eq; exact E|discriminate].
  - intro E. unfold skipping, with_ask, h, at_path. cbn [c_ask]. rewrite E. reflexivity.
  - destruct sub; vm_compute; reflexivity.
  - assert (F : existsb (fun n => String.eqb (n_path n) (match sub with SubDirectories | SubDirectoriesWithFiles => "/r/b" | _ => "/r/Z" end))
      (visited (snd (session (skipping sub h) false tree1))) = true) by (destruct sub; vm_compute; reflexivity).
    apply existsb_exists in F. destruct F as (n & HI & E). exists n. split; [exact HI|apply String.eqb_eq; exact E].
Qed.
Print Assumptions c95_skip_all_refuted.

(** *** C96: what the handler does *)

(** With a callback which returns nil and a handler answering by path, object and
    read error, the session visits the listing of the tree without what is below
    the places where the answer prunes, up to the first place whose answer ends
    the session, and Navigate returns the error of that answer. *)
Theorem c96_skip_handler : forall c h sampling t P o s,
  hooks_ok c -> root_ok c t -> plain c -> nil_callback c -> handled_by c h -> no_mixed_answer c h ->
  preorder (entries_asked c h) [] (c_tree c) t P ->
  session c sampling t = (o, s) ->
  let '(seen, e) := until (ends_at c h) (filter (within (c_depth c) 0) P) in
  o = Ret e /\
  map place_of (visited s) =
    match c_sub c with SubFiles => filter (fun p => negb (fisdir (pl_obj p))) seen | _ => seen end.
Proof.
  intros c h sampling t P o s HK RO PL NC HB NM HP H.
  destruct (skip_session _ _ _ _ _ _ _ HK RO PL NC HB NM HP H) as [A B].
  destruct (until _ _) as [seen e]. cbn [fst snd] in *. split; [exact B|exact A].
Qed.
Print Assumptions c96_skip_handler.

(** That listing exists. *)
Theorem c96_listing : forall c h, hooks_ok c -> forall t, exists P, preorder (entries_asked c h) [] (c_tree c) t P.
Proof. exact asked_listing. Qed.
Print Assumptions c96_listing.

Lemma skipping_ok : forall sub h, hooks_ok (skipping sub h) /\ root_ok (skipping sub h) tree1 /\ plain (skipping sub h) /\
  nil_callback (skipping sub h) /\ handled_by (skipping sub h) h.
Proof.
  intros sub h. destruct (ordinary_hooks sub) as (H1 & H2 & H3 & H4).
  repeat split; try assumption; try apply H1; try apply H3.
Qed.

(** The answers, at the directory A = "/r/A" of r/ {A/ {B/ {y}, x}, b/, c, Z}. *)
Definition e9 : error := Err (Plain 9).
Example c96_case_universal :
  let run r := session (skipping SubUniversal (at_path "/r/A" r)) false tree1 in
  (fst (run (SkipDirTraversal, None)), paths (run (SkipDirTraversal, None))) =
    (Ret None, ["/r"; "/r/A"; "/r/b"; "/r/c"; "/r/Z"]) /\
  (fst (run (SkipAllTraversal, None)), paths (run (SkipAllTraversal, None))) =
    (Ret None, ["/r"; "/r/A"; "/r/b"; "/r/c"; "/r/Z"]) /\
  (fst (run (SkipAllTraversal, Some e9)), paths (run (SkipAllTraversal, Some e9))) =
    (Ret (Some e9), ["/r"; "/r/A"]) /\
  (fst (run (SkipDirTraversal, Some (Err SkipDir))), paths (run (SkipDirTraversal, Some (Err SkipDir)))) =
    (Ret (Some (Err SkipDir)), ["/r"; "/r/A"]) /\
  (fst (run (SkipNoneTraversal, Some e9)), paths (run (SkipNoneTraversal, Some e9))) =
    (Ret None, ["/r"; "/r/A"; "/r/A/B"; "/r/A/B/y"; "/r/A/x"; "/r/b"; "/r/c"; "/r/Z"]).
Proof. repeat split; vm_compute; reflexivity. Qed.
Example c96_case_directories :
  let run r := session (skipping SubDirectories (at_path "/r/A" r)) false tree1 in
  (fst (run (SkipDirTraversal, Some e9)), paths (run (SkipDirTraversal, Some e9))) =
    (Ret None, ["/r"; "/r/A"; "/r/A/B"; "/r/b"]) /\
  (fst (run (SkipAllTraversal, None)), paths (run (SkipAllTraversal, None))) = (Ret None, ["/r"; "/r/A"; "/r/b"]).
Proof. repeat split; vm_compute; reflexivity. Qed.
Example c96_case_files :
  let run r := session (skipping SubFiles (at_path "/r/A" r)) false tree1 in
  (fst (run (SkipDirTraversal, None)), paths (run (SkipDirTraversal, None))) = (Ret None, ["/r/c"; "/r/Z"]) /\
  (fst (run (SkipAllTraversal, Some e9)), paths (run (SkipAllTraversal, Some e9))) = (Ret (Some e9), []).
Proof. repeat split; vm_compute; reflexivity. Qed.
(** the hypotheses hold of these *)
Example c96_case_met : forall sub r, r <> (SkipDirTraversal, Some (Err SkipAll)) ->
  (forall k l, r <> (SkipDirTraversal, Some (Wrap k l))) ->
  no_mixed_answer (skipping sub (at_path "/r/A" r)) (at_path "/r/A" r).
Proof.
  intros sub r N1 N2 path t err e _ H. unfold at_path in H. destruct (String.eqb path "/r/A"); [|discriminate].
  subst r. destruct e as [[]|k l|d|x]; try reflexivity; [congruence|]. exfalso. apply (N2 k l). reflexivity.
Qed.

(** *** C97: the fault handler *)

(** When the tree cannot be stat-ed, Navigate returns what the fault handler
    returns for that error, whatever it is; nothing is visited, begin and end are
    announced, and all counts are zero. *)
Theorem c97_fault : forall c sampling t e, c_stat c t = Some e ->
  exists s, session c sampling t = (Ret (c_fault c e), s) /\
    s_trace s = [EvBegin (c_tree c); EvEnd metrics0].
Proof.
  intros c sampling t e ST. unfold session, navigate, top. rewrite ST. eexists. split; [reflexivity|]. reflexivity.
Qed.
Print Assumptions c97_fault.

(** From the options to the result; without a fault handler the error of the
    stat hook is returned. *)
Theorem c97_from_the_facade : forall env mt u ws c smp t e, us_options u = None ->
  fst (build_prime env mt (FacUsing u) (options_of env ws)) = BuildReady c smp ->
  latest sets_stat ws (en_stat env) t = Some e ->
  walk_prime env mt (FacUsing u) (options_of env ws) t =
    mkReport (Ret (latest sets_fault ws (fun x => Some x) e)) [EvBegin (us_tree u); EvEnd metrics0] (Some metrics0).
Proof.
  intros env mt u ws c smp t e N B ST.
  destruct (ready_settled _ _ _ _ _ _ N B) as (sub & cl & rd & sc & hb & _ & _ & ->).
  unfold walk_prime. rewrite B. cbn [run_built]. unfold session, navigate, top. cbn [c_stat session_cfg]. rewrite ST. reflexivity.
Qed.
Print Assumptions c97_from_the_facade.
Example c97_default_case :
  let env := mkEnv 8 (fun _ => Some (Err (Plain 8))) (en_save env0) in
  walk_prime env mt0 (FacUsing (using_ SubFiles None)) [] (File "r") =
    mkReport (Ret (Some (Err (Plain 8)))) [EvBegin "/r"; EvEnd metrics0] (Some metrics0).
Proof. vm_compute. reflexivity. Qed.

(** A fault handler which ignores the fault makes Navigate succeed. *)
Example c97_case :
  let c := mkCfg SubFiles 0 false true default_read default_sort default_subpath
    (fun t => if fisdir t then None else Some (Err (Plain 3))) (fun _ => None) default_ask
    (fun _ _ _ => inl "saved") "/r" None None None client_nil in
  c_stat c (File "r") = Some (Err (Plain 3)) /\ fst (session c false (File "r")) = Ret None /\
  fst (session (base_cfg SubFiles) false (File "r")) = Ret None.
Proof. repeat split; vm_compute; reflexivity. Qed.
