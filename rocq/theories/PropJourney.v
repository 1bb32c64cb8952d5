(** Property C119, from facade to facade. Vocabulary: SpecJourney.v. *)
From Verif Require Import Base Paths Level Kernel Session Defaults Spec PathFacts WalkProps Cases CasesFacts Filters SpecFilter Hooks Life Options Build SpecBuild
  BuildCases FilterCases Persist SpecPersist PersistFacts Resume SpecResume ResumeCases SpecRelay PropResume PropRelay SpecJourney JourneyFacts.
Local Open Scope string_scope.
Local Open Scope list_scope.

(** *** C119 *)

(** A walk stopped by a panic, resumed (spawn) from the document which was
    written, stopped again, resumed from the document written then, and so on: the
    last resume, when it is not stopped, returns no error, says complete, calls
    for the end of the listing; and all of them together called for every entry of
    the tree (of the sample, when sampling is on: [reads] is what is left of what
    the hook reads, see c119_what_is_read below) and for nothing else. *)
Theorem c119_from_facade_to_facade_partial : forall env mt ws tree pc dk P,
  unfiltered ws -> hooks_sound ws -> undisturbed env ws (dk tree) -> depth_asked ws = 0%N ->
  tree <> "" -> clean tree = tree -> utf8 tree -> proper_names (dk tree) ->
  let c := session_cfg env ws tree SubUniversal client_nil (reads ws) None None in
  stable_sort c -> preorder (entries_all c) [] tree (dk tree) P -> tidy c pc dk P -> Forall (fun q => utf8 (pl_path q)) P ->
  forall V doc, journey env mt ws tree SubUniversal StrategySpawn pc dk V doc ->
  let r := resumed_from env mt ws StrategySpawn pc dk doc client_nil in
  rr_outcome r = Ret None /\ rr_complete r = true /\
  (exists bef, map thing P = bef ++ map thing (places_called (rr_trace r))) /\
  (forall q, In q (map thing (V ++ places_called (rr_trace r))) <-> In q (map thing P)).
Proof. exact spawn_journey_finished. Qed.
Print Assumptions c119_from_facade_to_facade_partial.

(** By fastward resumes: in any order, with any depth limit, with the positions. *)
Theorem c119_fastward_from_facade_to_facade_partial : forall env mt ws tree sub pc dk P,
  unfiltered ws -> hooks_sound ws -> undisturbed env ws (dk tree) -> sub <> SubFiles ->
  tree <> "" -> clean tree = tree -> utf8 tree -> proper_names (dk tree) ->
  let c := session_cfg env ws tree sub client_nil (reads ws) None None in
  distinct_names c tree (dk tree) -> preorder (entries c) [] tree (dk tree) P -> passable c pc P ->
  Forall (fun q => utf8 (pl_path q)) P ->
  forall V doc, journey env mt ws tree sub StrategyFastward pc dk V doc ->
  let r := resumed_from env mt ws StrategyFastward pc dk doc client_nil in
  rr_outcome r = Ret None /\ rr_complete r = true /\
  (exists bef, filter (within (depth_asked ws) 0) P = bef ++ places_called (rr_trace r)) /\
  (forall q, In q (V ++ places_called (rr_trace r)) <-> In q (filter (within (depth_asked ws) 0) P)).
Proof. exact fastward_journey_finished. Qed.
Print Assumptions c119_fastward_from_facade_to_facade_partial.

(** The tree of c33_case: stopped at /r/A/c/y, then at /r/D/w, then (nothing saved
    by spawn) once more from the same document. *)
Definition stopping_at (q : string) : client := fun tr => stop_at q (calls tr).
Local Notation begun := (started env0 mt0 [] "/r" SubUniversal disk4 (stopping_at "/r/A/c/y")).
Local Notation resumption st doc q := (resumed_from env0 mt0 [] st unix_calc disk4 doc (stopping_at q)).
Definition written (o : options) (tr : list event) : jv :=
  match rescues tr with
  | sv :: _ => match fst (marshal o (mkActive sv false false) None) with Some v => v | None => JNull end
  | [] => JNull
  end.
Definition doc1 : jv :=
  written (snd (build_prime env0 mt0 (FacUsing (mkUsing "/r" (Some SubUniversal) (Some (stopping_at "/r/A/c/y")) None)) (options_of env0 [])))
    (rp_trace begun).
Definition loaded1 : option (active * options) :=
  match resume_load env0 doc1 (options_of env0 []) with Ret (inl (Some a, o, None)) => Some (a, o) | _ => None end.
Definition options1 : options := match loaded1 with Some (_, o) => o | None => default_options env0 end.
Definition doc2 (st : resume_strategy) : jv := written (afterwards options1) (rr_trace (resumption st doc1 "/r/D/w")).

Lemma stopped_by : forall tr n p, calls tr = removelast (calls tr) ++ [(n, CPanic p)] ->
  forallb (fun x => match snd x with CNil => true | _ => false end) (removelast (calls tr)) = true -> stopped_at tr n.
Proof.
  intros tr n p E F. exists (removelast (calls tr)), p. split; [exact E|]. apply Forall_forall. intros x Hx.
  rewrite forallb_forall in F. specialize (F x Hx). destruct (snd x); congruence.
Qed.
Lemma loaded1_is : exists a, resume_load env0 doc1 (options_of env0 []) = Ret (inl (Some a, options1, None)).
Proof.
  assert (E : match resume_load env0 doc1 (options_of env0 []) with Ret (inl (Some _, _, None)) => true | _ => false end = true)
    by (vm_compute; reflexivity).
  unfold options1, loaded1. destruct (resume_load env0 doc1 (options_of env0 [])) as [[[[[a|] o] [e|]]|e]|q|]; try discriminate E.
  exists a. reflexivity.
Qed.
Lemma begun_stopped : exists n sv, stopped_at (rp_trace begun) n /\ deep n /\ rescues (rp_trace begun) = [sv] /\
  marshal (snd (build_prime env0 mt0 (FacUsing (mkUsing "/r" (Some SubUniversal) (Some (stopping_at "/r/A/c/y")) None)) (options_of env0 [])))
    (mkActive sv false false) None = (Some doc1, None).
Proof.
  eexists _, _. split; [eapply stopped_by; vm_compute; reflexivity|].
  split; [eexists _, _; split; vm_compute; reflexivity|]. split; [vm_compute; reflexivity|]. vm_compute. reflexivity.
Qed.
Lemma first_leg : forall st, journey env0 mt0 [] "/r" SubUniversal st unix_calc disk4 (places_called (rp_trace begun)) doc1.
Proof.
  intro st. destruct begun_stopped as (n & sv & A & B & C & D).
  exact (journey_starts env0 mt0 [] "/r" SubUniversal st unix_calc disk4 (stopping_at "/r/A/c/y") n sv doc1 A B C D).
Qed.
Lemma second_leg : forall st n sv, stopped_at (rr_trace (resumption st doc1 "/r/D/w")) n -> (st = StrategyFastward -> deep n) ->
  rescues (rr_trace (resumption st doc1 "/r/D/w")) = [sv] ->
  marshal (afterwards options1) (mkActive sv false false) None = (Some (doc2 st), None) ->
  journey env0 mt0 [] "/r" SubUniversal st unix_calc disk4
    (places_called (rp_trace begun) ++ places_called (rr_trace (resumption st doc1 "/r/D/w"))) (doc2 st).
Proof.
  intros st n sv A B C D. destruct loaded1_is as [a L].
  exact (journey_goes_on env0 mt0 [] "/r" SubUniversal st unix_calc disk4 _ doc1 (stopping_at "/r/D/w") n sv a options1 (doc2 st)
    (first_leg st) (ex_intro _ (stop_at "/r/D/w") eq_refl) A B C L D).
Qed.
Lemma third_leg : forall st V q n, journey env0 mt0 [] "/r" SubUniversal st unix_calc disk4 V (doc2 st) ->
  stopped_at (rr_trace (resumption st (doc2 st) q)) n ->
  journey env0 mt0 [] "/r" SubUniversal st unix_calc disk4 (V ++ places_called (rr_trace (resumption st (doc2 st) q))) (doc2 st).
Proof.
  intros st V q n J A.
  exact (journey_once_more env0 mt0 [] "/r" SubUniversal st unix_calc disk4 V (doc2 st) (stopping_at q) n J
    (ex_intro _ (stop_at q) eq_refl) A).
Qed.
Lemma paths_called : forall tr, map pl_path (places_called tr) = map n_path (map fst (calls tr)).
Proof. intro tr. unfold places_called. rewrite map_map. reflexivity. Qed.

Example c119_facade_case : exists V, journey env0 mt0 [] "/r" SubUniversal StrategySpawn unix_calc disk4 V (doc2 StrategySpawn) /\
  map pl_path V = ["/r"; "/r/A"; "/r/A/c"; "/r/A/c/y";
                   "/r/A/c"; "/r/A/c/y"; "/r/A/c/z"; "/r/A/x"; "/r/D"; "/r/D/w"; "/r/D"].
Proof.
  assert (S2 : exists n sv, stopped_at (rr_trace (resumption StrategySpawn doc1 "/r/D/w")) n /\
    rescues (rr_trace (resumption StrategySpawn doc1 "/r/D/w")) = [sv] /\
    marshal (afterwards options1) (mkActive sv false false) None = (Some (doc2 StrategySpawn), None)).
  { eexists _, _. split; [eapply stopped_by; vm_compute; reflexivity|]. split; vm_compute; reflexivity. }
  assert (S3 : exists n, stopped_at (rr_trace (resumption StrategySpawn (doc2 StrategySpawn) "/r/D")) n).
  { eexists. eapply stopped_by; vm_compute; reflexivity. }
  assert (T1 : map n_path (map fst (calls (rp_trace begun))) = ["/r"; "/r/A"; "/r/A/c"; "/r/A/c/y"]) by (vm_compute; reflexivity).
  assert (T2 : map n_path (map fst (calls (rr_trace (resumption StrategySpawn doc1 "/r/D/w")))) =
    ["/r/A/c"; "/r/A/c/y"; "/r/A/c/z"; "/r/A/x"; "/r/D"; "/r/D/w"]) by (vm_compute; reflexivity).
  assert (T3 : map n_path (map fst (calls (rr_trace (resumption StrategySpawn (doc2 StrategySpawn) "/r/D")))) = ["/r/D"]) by (vm_compute; reflexivity).
  destruct S2 as (n & sv & A & B & C), S3 as (n3 & D).
  pose proof (second_leg StrategySpawn n sv A ltac:(discriminate) B C) as J2.
  pose proof (third_leg StrategySpawn _ "/r/D" n3 J2 D) as J3.
  eexists. split; [exact J3|]. rewrite !map_app, !paths_called, T1, T2, T3. reflexivity.
Qed.
Example c119_fastward_facade_case : exists V, journey env0 mt0 [] "/r" SubUniversal StrategyFastward unix_calc disk4 V (doc2 StrategyFastward) /\
  map pl_path V = ["/r"; "/r/A"; "/r/A/c"; "/r/A/c/y";
                   "/r/A/c"; "/r/A/c/y"; "/r/A/c/z"; "/r/A/x"; "/r/D"; "/r/D/w"; "/r/D"; "/r/D/w"; "/r/e"].
Proof.
  assert (S2 : exists n sv, stopped_at (rr_trace (resumption StrategyFastward doc1 "/r/D/w")) n /\ deep n /\
    rescues (rr_trace (resumption StrategyFastward doc1 "/r/D/w")) = [sv] /\
    marshal (afterwards options1) (mkActive sv false false) None = (Some (doc2 StrategyFastward), None)).
  { eexists _, _. split; [eapply stopped_by; vm_compute; reflexivity|]. split; [eexists _, _; split; vm_compute; reflexivity|].
    split; vm_compute; reflexivity. }
  assert (S3 : exists n, stopped_at (rr_trace (resumption StrategyFastward (doc2 StrategyFastward) "/r/e")) n).
  { eexists. eapply stopped_by; vm_compute; reflexivity. }
  assert (T1 : map n_path (map fst (calls (rp_trace begun))) = ["/r"; "/r/A"; "/r/A/c"; "/r/A/c/y"]) by (vm_compute; reflexivity).
  assert (T2 : map n_path (map fst (calls (rr_trace (resumption StrategyFastward doc1 "/r/D/w")))) =
    ["/r/A/c"; "/r/A/c/y"; "/r/A/c/z"; "/r/A/x"; "/r/D"; "/r/D/w"]) by (vm_compute; reflexivity).
  assert (T3 : map n_path (map fst (calls (rr_trace (resumption StrategyFastward (doc2 StrategyFastward) "/r/e")))) =
    ["/r/D"; "/r/D/w"; "/r/e"]) by (vm_compute; reflexivity).
  destruct S2 as (n & sv & A & DP & B & C), S3 as (n3 & D).
  pose proof (second_leg StrategyFastward n sv A (fun _ => DP) B C) as J2.
  pose proof (third_leg StrategyFastward _ "/r/e" n3 J2 D) as J3.
  eexists. split; [exact J3|]. rewrite !map_app, !paths_called, T1, T2, T3. reflexivity.
Qed.
(** The other hypotheses for this tree, and what the last spawn resume calls for. *)
Definition plain4 : cfg := session_cfg env0 [] "/r" SubUniversal client_nil default_read None None.
Example c119_facade_hypotheses_case :
  unfiltered [] /\ hooks_sound [] /\ undisturbed env0 [] (disk4 "/r") /\ depth_asked [] = 0%N /\
  clean "/r" = "/r" /\ utf8 "/r" /\ proper_names (disk4 "/r") /\
  stable_sort plain4 /\ preorder (entries_all plain4) [] "/r" (disk4 "/r") places4 /\ tidy plain4 unix_calc disk4 places4 /\
  Forall (fun q => utf8 (pl_path q)) places4 /\
  distinct_names plain4 "/r" (disk4 "/r") /\ preorder (entries plain4) [] "/r" (disk4 "/r") places4 /\ passable plain4 unix_calc places4 /\
  map n_path (map fst (calls (rr_trace (resumed_from env0 mt0 [] StrategySpawn unix_calc disk4 (doc2 StrategySpawn) client_nil)))) =
    ["/r/D"; "/r/D/w"; "/r/e"].
Proof.
  split; [repeat split|]. split; [exact default_hooks_sound|]. split; [split; reflexivity|]. split; [reflexivity|].
  split; [vm_compute; reflexivity|]. split; [apply utf8_clean_iff; vm_compute; reflexivity|]. split; [exact proper4|].
  split; [exact (base_stable SubUniversal)|]. split; [exact listed4|]. split; [exact tidy4|].
  split; [apply Forall_forall; intros q Hq; repeat (destruct Hq as [<-|Hq]; [apply utf8_clean_iff; vm_compute; reflexivity|]); destruct Hq|].
  split; [exact c36_distinct_case|]. split; [exact listed4|]. split; [exact c119_passable_case|]. vm_compute. reflexivity.
Qed.

(** ** Sampling *)

(** What a session whose settings have no filter reads: with sampling the first
    (last) so many of the files and of the directories which the hook reads. *)
Theorem c119_what_is_read : forall ws p e,
  (sampled ws = true <-> so_type (latest sets_sampling ws no_sampling) <> StUndefined) /\
  (sampled ws = false -> reads ws p e = latest sets_read ws default_read p e) /\
  (sampled ws = true -> let so := latest sets_sampling ws no_sampling in
     snd (reads ws p e) = None /\ exists fs ds, fst (reads ws p e) = fs ++ ds /\
     taken (so_reverse so) (so_files so) (files_read ws p e) fs /\ taken (so_reverse so) (so_dirs so) (dirs_read ws p e) ds).
Proof. exact what_is_read. Qed.
Print Assumptions c119_what_is_read.

(** The same tree with one file and one directory of each directory, stopped at
    /r/A/c/y: /r/A/c/z, /r/D and what is below it are in no session. *)
Local Notation ws1 := [WithSamplingOptions (mkSampling StSlice false 1 1)].
Local Notation begun1 := (started env0 mt0 ws1 "/r" SubUniversal disk4 (stopping_at "/r/A/c/y")).
Definition few4 : cfg := session_cfg env0 ws1 "/r" SubUniversal client_nil (reads ws1) None None.
Definition few_places : list place := Eval vm_compute in
  match lister 9 (entries_all few4) [] "/r" (disk4 "/r") with Some l => l | None => [] end.
Definition few_doc : jv :=
  written (snd (build_prime env0 mt0 (FacUsing (mkUsing "/r" (Some SubUniversal) (Some (stopping_at "/r/A/c/y")) None)) (options_of env0 ws1)))
    (rp_trace begun1).
Lemma few_listed : preorder (entries_all few4) [] "/r" (disk4 "/r") few_places.
Proof. apply (lister_sound 9). vm_compute. reflexivity. Qed.
Example c119_sampled_case : sampled ws1 = true /\
  (exists V, journey env0 mt0 ws1 "/r" SubUniversal StrategySpawn unix_calc disk4 V few_doc /\
     map pl_path V = ["/r"; "/r/A"; "/r/A/c"; "/r/A/c/y"]) /\
  map n_path (map fst (calls (rr_trace (resumed_from env0 mt0 ws1 StrategySpawn unix_calc disk4 few_doc client_nil)))) =
    ["/r/A/c"; "/r/A/c/y"; "/r/A/x"; "/r/e"] /\
  map n_path (map fst (calls (rr_trace (resumed_from env0 mt0 ws1 StrategyFastward unix_calc disk4 few_doc client_nil)))) =
    ["/r/A/c"; "/r/A/c/y"; "/r/A/x"; "/r/e"].
Proof.
  split; [reflexivity|]. split; [|split; vm_compute; reflexivity].
  assert (B : exists n sv, stopped_at (rp_trace begun1) n /\ deep n /\ rescues (rp_trace begun1) = [sv] /\
    marshal (snd (build_prime env0 mt0 (FacUsing (mkUsing "/r" (Some SubUniversal) (Some (stopping_at "/r/A/c/y")) None)) (options_of env0 ws1)))
      (mkActive sv false false) None = (Some few_doc, None)).
  { eexists _, _. split; [eapply stopped_by; vm_compute; reflexivity|].
    split; [eexists _, _; split; vm_compute; reflexivity|]. split; [vm_compute; reflexivity|]. vm_compute. reflexivity. }
  assert (T : map n_path (map fst (calls (rp_trace begun1))) = ["/r"; "/r/A"; "/r/A/c"; "/r/A/c/y"]) by (vm_compute; reflexivity).
  destruct B as (n & sv & B1 & B2 & B3 & B4).
  exists (places_called (rp_trace begun1)). split; [|rewrite paths_called; exact T].
  exact (journey_starts env0 mt0 ws1 "/r" SubUniversal StrategySpawn unix_calc disk4 (stopping_at "/r/A/c/y") n sv few_doc B1 B2 B3 B4).
Qed.
Example c119_sampled_hypotheses_case :
  unfiltered ws1 /\ hooks_sound ws1 /\ undisturbed env0 ws1 (disk4 "/r") /\ depth_asked ws1 = 0%N /\
  stable_sort few4 /\ preorder (entries_all few4) [] "/r" (disk4 "/r") few_places /\ tidy few4 unix_calc disk4 few_places /\
  Forall (fun q => utf8 (pl_path q)) few_places /\
  distinct_names few4 "/r" (disk4 "/r") /\ passable few4 unix_calc few_places.
Proof.
  split; [repeat split|]. split; [exact default_hooks_sound|]. split; [split; reflexivity|]. split; [reflexivity|].
  split; [exact (base_stable SubUniversal)|]. split; [exact few_listed|].
  split; [apply Forall_forall; intros q H; repeat destruct H as [<-|H]; try contradiction; cbn [pl_obj pl_path];
    (split; [vm_compute; reflexivity|]); (split; [reflexivity|]); intro FD; try discriminate;
    (split; [vm_compute; reflexivity|]); (split; [apply unix_sound; vm_compute; reflexivity|]); vm_compute; repeat constructor|].
  split; [apply Forall_forall; intros q Hq; repeat (destruct Hq as [<-|Hq]; [apply utf8_clean_iff; vm_compute; reflexivity|]); destruct Hq|].
  split.
  - apply (listed_distinct few4 "/r" tree4 few_places); [exact few_listed|].
    apply Forall_forall. intros q Hq. repeat (destruct Hq as [<-|Hq]; [vm_compute; repeat constructor; cbn; intuition discriminate|]).
    destruct Hq.
  - split; [discriminate|]. apply Forall_forall. intros q Hq.
    repeat (destruct Hq as [<-|Hq]; [split; [intros _; apply unix_sound; vm_compute; reflexivity|(intros _; vm_compute; discriminate) || (intro NP; exfalso; apply NP; reflexivity)]|]).
    destruct Hq.
Qed.
