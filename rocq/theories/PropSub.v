(** Properties C47 (sub paths) and C48 (scopes). Vocabulary: Spec.v, SpecSub.v. *)
From Verif Require Import Base Paths Level Kernel Defaults Session Spec PathFacts SpecPersist SpecSub SubFacts Cases CasesFacts.
Local Open Scope string_scope.

(** *** C47, for an ASCII tree path other than "/" and ".", and names in UTF-8: the sub path of the root is
    empty, that of any other node is where its parent lies below the tree, with
    a separator at the end if separators are kept. *)
Theorem c47_sub_path_partial : forall c sampling t o s, hooks_ok c -> root_ok c t -> clean (c_tree c) = c_tree c ->
  c_tree c <> "." -> c_tree c <> "/" -> names_are (fun b => proper b /\ utf8 b) t -> c_subpath c = default_subpath ->
  is_ascii (c_tree c) -> session c sampling t = (o, s) ->
  Forall (fun n => n_path n = c_tree c ++ rel_path n /\
    n_subpath n = match n_parent n with None => "" | Some p => rel_path p ++ (if c_keep_sep c then "/" else "") end) (visited s).
Proof. exact session_sub_ascii. Qed.
Print Assumptions c47_sub_path_partial.

(** The rest of the property is refuted: when the tree path has characters
    outside of ASCII the sub path of every node but the root is something else. *)
Theorem c47_non_ascii_tree_refuted : forall c sampling t o s cs, hooks_ok c -> root_ok c t -> clean (c_tree c) = c_tree c ->
  c_tree c <> "." -> c_tree c <> "/" -> names_are (fun b => proper b /\ utf8 b) t -> c_subpath c = default_subpath ->
  c_keep_sep c = true ->
  Forall scalar cs -> c_tree c = text cs -> Exists (fun d => (128 <= d)%N) cs -> session c sampling t = (o, s) ->
  Forall (fun n => forall p, n_parent n = Some p -> n_subpath n <> rel_path p ++ "/") (visited s).
Proof. exact session_sub_non_ascii. Qed.
Print Assumptions c47_non_ascii_tree_refuted.

(** *** C78: what the sub path is for any tree path in UTF-8: as many characters are missing at
    its start as the tree path has more bytes than characters. *)
Theorem c78_sub_path_loses_characters : forall c sampling t o s cs, hooks_ok c -> root_ok c t -> clean (c_tree c) = c_tree c ->
  c_tree c <> "." -> c_tree c <> "/" -> names_are (fun b => proper b /\ utf8 b) t -> c_subpath c = default_subpath ->
  Forall scalar cs -> c_tree c = text cs -> session c sampling t = (o, s) ->
  Forall (fun n => (n_parent n = None -> n_subpath n = "") /\
    forall p, n_parent n = Some p -> exists es, Forall scalar es /\ rel_path p = text es /\
      n_subpath n = text (skipn (String.length (c_tree c) - length cs) (if c_keep_sep c then es ++ [47%N] else es)%list)) (visited s).
Proof. exact session_sub_paths. Qed.
Print Assumptions c78_sub_path_loses_characters.
(** With the other hook of the library (pref.RootItemSubPathHook) it is where the
    node itself lies below the tree, whether or not separators are kept (ASCII tree path). *)
Theorem c78_root_item_hook : forall c sampling t o s, hooks_ok c -> root_ok c t -> clean (c_tree c) = c_tree c ->
  c_tree c <> "." -> c_tree c <> "/" -> names_are (fun b => proper b /\ utf8 b) t -> c_subpath c = root_item_subpath ->
  is_ascii (c_tree c) -> session c sampling t = (o, s) ->
  Forall (fun n => n_subpath n = rel_path n) (visited s).
Proof. exact session_root_item. Qed.
Print Assumptions c78_root_item_hook.
Definition at_tree (tr : string) (keep : bool) (c : cfg) : cfg :=
  mkCfg (c_sub c) (c_depth c) (c_files_first c) keep (c_read c) (c_sort c) (c_subpath c)
    (c_stat c) (c_fault c) (c_ask c) (c_rescue c) tr (c_scheme c) (c_hib c) (c_fast c) (c_client c).
Definition sub_paths (r : outcome (option error) * st) : list (string * string) :=
  map (fun n => (n_name n, n_subpath n)) (visited (snd r)).
Example c47_case :
  let c k := at_tree "/tmp/r" k (base_cfg SubUniversal) in
  hooks_ok (c true) /\ root_ok (c true) tree1 /\ clean "/tmp/r" = "/tmp/r" /\ is_ascii "/tmp/r" /\
  names_are (fun b => proper b /\ utf8 b) tree1 /\ c_subpath (c true) = default_subpath /\
  sub_paths (session (c true) false tree1) =
    [("r", ""); ("A", "/"); ("B", "/A/"); ("y", "/A/B/"); ("x", "/A/"); ("b", "/"); ("c", "/"); ("Z", "/")] /\
  sub_paths (session (c false) false tree1) =
    [("r", ""); ("A", ""); ("B", "/A"); ("y", "/A/B"); ("x", "/A"); ("b", ""); ("c", ""); ("Z", "")].
Proof.
  split; [apply (base_hooks SubUniversal)|]. split; [reflexivity|]. split; [reflexivity|].
  split; [repeat (constructor; [reflexivity|]); constructor|]. split.
  - repeat (constructor; cbn; intros e H; repeat (destruct H as [H|H]; [subst e; split; [split; [repeat split; discriminate|]|]|]); try contradiction);
    match goal with |- utf8 (fname ?e) => exists [byte (match fname e with String ch _ => ch | _ => "000"%char end)] end;
    (split; [constructor; [left; vm_compute; reflexivity|constructor]|reflexivity]).
  - split; [reflexivity|]. split; vm_compute; reflexivity.
Qed.
Definition with_item (c : cfg) : cfg :=
  mkCfg (c_sub c) (c_depth c) (c_files_first c) (c_keep_sep c) (c_read c) (c_sort c) root_item_subpath
    (c_stat c) (c_fault c) (c_ask c) (c_rescue c) (c_tree c) (c_scheme c) (c_hib c) (c_fast c) (c_client c).
Example c78_item_case :
  let c := with_item (at_tree "/tmp/r" true (base_cfg SubUniversal)) in
  c_subpath c = root_item_subpath /\ hooks_ok c /\ root_ok c tree1 /\
  sub_paths (session c false tree1) =
    [("r", ""); ("A", "/A"); ("B", "/A/B"); ("y", "/A/B/y"); ("x", "/A/x"); ("b", "/b"); ("c", "/c"); ("Z", "/Z")].
Proof. split; [reflexivity|]. split; [apply (base_hooks SubUniversal)|]. split; [reflexivity|]. vm_compute. reflexivity. Qed.
(** "/é": three bytes, two characters *)
Definition e_acute : string := String (ascii_of_N 195) (String (ascii_of_N 169) "").
Example c78_case :
  let c := at_tree ("/" ++ e_acute) true (base_cfg SubUniversal) in
  c_tree c = text [47; 233]%N /\ clean (c_tree c) = c_tree c /\
  sub_paths (session c false tree1) =
    [(e_acute, ""); ("A", ""); ("B", "A/"); ("y", "A/B/"); ("x", "A/"); ("b", ""); ("c", ""); ("Z", "")].
Proof. repeat split; vm_compute; reflexivity. Qed.
(** For the tree paths "/" and "." the sub path has no separator at its start, or lacks its first character;
    and bytes of a name which are not UTF-8 are replaced. *)
Example c47_other_trees :
  sub_paths (session (at_tree "/" true (base_cfg SubDirectories)) false tree1) = [("", ""); ("A", ""); ("B", "A/"); ("b", "")] /\
  sub_paths (session (at_tree "." true (base_cfg SubDirectories)) false (Dir "." [Dir "one" [Dir "two" []]])) =
    [(".", ""); ("one", ""); ("two", "ne/")] /\
  sub_paths (session (base_cfg SubDirectories) false (Dir "r" [Dir (String "255"%char "") [Dir "two" []]])) =
    [("r", ""); (String "255"%char "", "/"); ("two", "/" ++ String "239"%char (String "191"%char (String "189"%char "/")))].
Proof. repeat split; vm_compute; reflexivity. Qed.

(** *** C48: a scope is a set of bits. *)
Theorem c48_set_is_union : forall f g i, has (scope_set f g) i <-> has f i \/ has g i.
Proof. intros f g i. unfold has, scope_set. rewrite N.lor_spec. apply orb_true_iff. Qed.
Print Assumptions c48_set_is_union.
Theorem c48_clear_is_difference : forall f g i, has (scope_clear f g) i <-> has f i /\ ~ has g i.
Proof. intros f g i. unfold has, scope_clear. rewrite N.ldiff_spec, andb_true_iff, negb_true_iff, not_true_iff_false. reflexivity. Qed.
Print Assumptions c48_clear_is_difference.
(** Tree is bit 0, file bit 4, directory bit 5. *)
Theorem c48_tests_are_membership : forall f,
  (scope_is_tree f = true <-> has f 0) /\ (scope_is_file f = true <-> has f 4) /\ (scope_is_directory f = true <-> has f 5).
Proof. intro f. rewrite is_tree_bit, is_file_bit, is_directory_bit. unfold has. repeat split; auto. Qed.
Print Assumptions c48_tests_are_membership.
Theorem c48_scrub_is_intersection : forall f i, has (scope_scrub f) i <-> has f i /\ (i = 4 \/ i = 5)%N.
Proof. intros f i. unfold has. rewrite scrub_bits, andb_true_iff, orb_true_iff, !N.eqb_eq. reflexivity. Qed.
Print Assumptions c48_scrub_is_intersection.
(** The results are 32 bit values. *)
Theorem c48_within_range : forall f g, uint32 f -> uint32 g ->
  uint32 (scope_set f g) /\ uint32 (scope_clear f g) /\ uint32 (scope_scrub f).
Proof.
  intros f g F G. rewrite !uint32_bits in *. repeat split; intros i I.
  - unfold scope_set. rewrite N.lor_spec, F, G by exact I. reflexivity.
  - unfold scope_clear. rewrite N.ldiff_spec, F by exact I. reflexivity.
  - rewrite scrub_bits, F by exact I. reflexivity.
Qed.
Print Assumptions c48_within_range.
(** The named scopes are distinct single bits, all of them among [ScopeAll]. *)
Theorem c48_names : 
  [ScopeTree; ScopeTop; ScopeLeaf; ScopeIntermediate; ScopeFile; ScopeDirectory; ScopeCustom] =
    map (fun i => 2 ^ i)%N [0; 1; 2; 3; 4; 5; 6]%N /\ ScopeUndefined = 0%N /\ forall i, has ScopeAll i <-> (i < 32)%N.
Proof.
  split; [reflexivity|]. split; [reflexivity|]. intro i. unfold has. change ScopeAll with (N.ones 32). rewrite N.ones_spec_iff. reflexivity.
Qed.
Print Assumptions c48_names.
Example c48_case : scope_scrub (N.lor ScopeTop (N.lor ScopeLeaf ScopeDirectory)) = ScopeDirectory /\
  scope_clear ScopeAll ScopeFile = 4294967279%N /\ uint32 ScopeAll.
Proof. repeat split; vm_compute; reflexivity. Qed.
