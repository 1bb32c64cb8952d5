(** Concrete environments, facades and options for the examples. *)
From Verif Require Import Base Paths Level Kernel Defaults Session Spec Filters Hooks Life Options Build SpecBuild Cases BuildFacts.
Local Open Scope string_scope.

Definition env0 : environment := mkEnv 8 no_stat_error (fun _ _ _ => inl "saved").
(** A pattern is a name, "*" or "*" followed by an ending. *)
Fixpoint ends_with (e s : string) : bool :=
  String.eqb e s || match s with EmptyString => false | String _ r => ends_with e r end.
Definition mt0 : matchers := mkMatchers
  (fun p s => match p with String "*" r => ends_with r s | _ => String.eqb p s end)
  (fun p => if String.eqb p "(" then inr (Err (Plain 99)) else inl (String.eqb p)).
Definition using_ (sub : subscription) (o : option options) : prime_facade :=
  mkUsing "/r" (Some sub) (Some client_nil) o.
Definition prime_paths (sub : subscription) (ws : list with_option) (t : fsnode) : list string :=
  map (fun x => n_path (fst x)) (calls (rp_trace (walk_prime env0 mt0 (FacUsing (using_ sub None)) (options_of env0 ws) t))).
Definition failing (e : error) : setting := fun o => (o, Some e).
Definition bad_wake : with_option :=
  WithHibernationFilterWake (Some (mkFilterDef FtUndefined "" "x" 0 false TriUndefined None)).
Definition bad_filter : filter_options :=
  mkFilterOptions (Some (mkFilterDef FtRegex "" "(" 0 false TriUndefined None)) None None None.

Lemma begin_end_on_failure : exists env mt u ws t e m,
  complete_facade u /\ walk_prime env mt (FacUsing u) (options_of env ws) t =
    mkReport (Ret (Some e)) [EvBegin (us_tree u); EvEnd m] (Some m).
Proof.
  exists env0, mt0, (using_ SubUniversal None), [bad_wake], tree1, err_missing_type, (mkMetrics 0 0 0 0 0 0).
  split; [repeat split; discriminate|vm_compute; reflexivity].
Qed.
Definition case_run : report := Eval vm_compute in
  walk_prime env0 mt0 (FacUsing (using_ SubUniversal None)) (options_of env0 [WithSortBehaviour true false]) (Dir "r" [File "b"; File "Z"]).
(** A session whose options ask for a case sensitive sort. *)
Lemma case_setting_wrong : exists env mt u ws t r root n m,
  us_options u = None /\ ws = [WithSortBehaviour true false] /\
  walk_prime env mt (FacUsing u) (options_of env ws) t = r /\
  map fst (calls (rp_trace r)) = [root; n; m] /\
  n_parent n = n_parent m /\ n_parent n <> None /\ fisdir (n_src n) = false /\ fisdir (n_src m) = false /\
  (fname (n_src m) <? fname (n_src n))%string = true.
Proof.
  exists env0, mt0, (using_ SubUniversal None), [WithSortBehaviour true false], (Dir "r" [File "b"; File "Z"]).
  exists case_run.
  eexists _, _, _. split; [reflexivity|]. split; [reflexivity|]. split; [vm_compute; reflexivity|]. split; [vm_compute; reflexivity|].
  split; [reflexivity|]. split; [discriminate|]. repeat split; reflexivity.
Qed.

(** A client's own sample filter which drops the first entry of a directory; the
    options of its session are used again. *)
Definition drop_first : filter_options :=
  mkFilterOptions None None (Some (mkSampleDef FtCustom "" "" 0 false None (Some (None, @tl fsnode)))) None.
Definition drop_tree : fsnode := Dir "r" [File "a"; File "b"; File "c"].
Definition drop_first_report : report := Eval vm_compute in
  walk_prime env0 mt0 (FacUsing (using_ SubUniversal None)) (options_of env0 [WithFilter drop_first]) drop_tree.
Definition drop_again_report : report := Eval vm_compute in
  walk_prime env0 mt0 (FacUsing (using_ SubUniversal
    (Some (snd (build_prime env0 mt0 (FacUsing (using_ SubUniversal None)) (options_of env0 [WithFilter drop_first])))))) [] drop_tree.
Lemma drop_twice : exists env mt u ws c smp o1 t r r2,
  build_prime env mt (FacUsing u) (options_of env ws) = (BuildReady c smp, o1) /\
  walk_prime env mt (FacUsing u) (options_of env ws) t = r /\
  walk_prime env mt (FacUsing (mkUsing (us_tree u) (us_sub u) (us_handler u) (Some o1))) [] t = r2 /\
  rp_outcome r = Ret None /\ rp_outcome r2 = Ret None /\
  map (fun x => n_path (fst x)) (calls (rp_trace r)) = ["/r/b"; "/r/c"] /\
  map (fun x => n_path (fst x)) (calls (rp_trace r2)) = ["/r/c"].
Proof.
  exists env0, mt0, (using_ SubUniversal None), [WithFilter drop_first]. eexists _, _, _. exists drop_tree, drop_first_report, drop_again_report.
  split; [reflexivity|]. split; [vm_compute; reflexivity|]. split; [vm_compute; reflexivity|]. repeat split; vm_compute; reflexivity.
Qed.
