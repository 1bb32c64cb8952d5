(** Concrete filters for the examples and refutations. *)
From Verif Require Import Base Paths Level Kernel Defaults Session Spec Filters SpecFilter FiltersFacts Hooks Life Options Build SpecBuild Cases BuildFacts BuildCases CasesFacts.
From Coq Require Import Permutation.
Local Open Scope string_scope.

Definition def_of (ty : filter_type) (p : string) (sc : N) : filter_def := mkFilterDef ty "" p sc false TriUndefined None.
Definition prime_run (sub : subscription) (ws : list with_option) (t : fsnode) : outcome (option error) * list string :=
  let r := walk_prime env0 mt0 (FacUsing (using_ sub None)) (options_of env0 ws) t in (rp_outcome r, map n_path (nodes_of r)).
Definition accept_all : custom_filter := mkCustom None (fun _ => inl true).
Definition only_custom (cu : custom_filter) : filter_options := mkFilterOptions None None None (Some cu).

Lemma default_hooks_sound : hooks_sound [].
Proof.
  split; [|split].
  - apply default_read_kids.
  - intros p t F. cbn. unfold default_read. destruct (fread t); [reflexivity|]. rewrite F. reflexivity.
  - apply sort_by_perm.
Qed.
Lemma ordinary_using : forall sub ws, no_hibernation ws -> hooks_sound ws -> ordinary (using_ sub None) ws sub.
Proof. intros sub ws NH HS. repeat split; try discriminate; try apply NH; apply HS. Qed.
Lemma ordinary_default : forall sub, ordinary (using_ sub None) [] sub.
Proof. intro sub. apply ordinary_using; [split; reflexivity|apply default_hooks_sound]. Qed.

(** Letter case: the pattern is put into lower case, the name is not. *)
Definition flac : filter_def := def_of FtGlobEx "*|*.flac" 0.
Definition flac_tree : fsnode := Dir "r" [File "x.FLAC"; File "x.flac"].
Lemma case_matters : prime_run SubUniversal [WithFilter (only_node flac)] flac_tree = (Ret None, ["/r"; "/r/x.flac"]).
Proof. vm_compute. reflexivity. Qed.

(** Definitions which are not refused. *)
