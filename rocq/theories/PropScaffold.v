(** File systems of the client which are missing, and handlers of loaded states.
    Properties C107 and C108. Vocabulary: [walk_prime_in gf ..], [walk_resume_in gf addons ..]:
    what Walk().Configure(addons...).Extent(..).Navigate(ctx) does if GetForest is [gf]. *)
From Verif Require Import Base Lo CollectionsFacts Paths Level Kernel Defaults Session Spec Filters Hooks Life Options Build SpecBuild BuildFacts BuildCases
  Cases CasesFacts Persist SpecPersist PersistFacts Resume SpecResume ResumeBuild ResumeCases ResumeProps PropRestore Scaffold.
Local Open Scope string_scope.
Local Open Scope list_scope.

(** ** C107: a forest without file systems *)

(** There is no file system to traverse. *)
Definition nothing_to_traverse (f : forest) : Prop := f = None \/ exists r, f = Some (None, r).
(** A session which is refused: an error is returned and nothing happens. *)
Definition is_refused (r : report) : Prop :=
  exists e, rp_outcome r = Ret (Some e) /\ rp_trace r = [] /\ rp_metrics r = None.

(** The full property: a prime session whose forest function gives no file system
    to traverse is refused. It is false: Begin is notified, then Navigate panics. *)
Theorem c107_missing_forest_refuted :
  ~ (forall gf env mt u ss t, complete_facade u -> nothing_to_traverse (gf (us_tree u)) ->
       is_refused (walk_prime_in (Some gf) env mt (FacUsing u) ss t)).
Proof.
  intro H. specialize (H (fun _ => None) env0 mt0 (using_ SubUniversal None) [] tree1).
  destruct H as (e & A & _); [repeat split; discriminate|left; reflexivity|]. revert A. vm_compute. discriminate.
Qed.
Print Assumptions c107_missing_forest_refuted.
(** What does happen, for every session: if it can be built, Begin is notified and
    the panic leaves Navigate, without a callback and without End; if it cannot be
    built the forest makes no difference. *)
Theorem c107_missing_forest : forall gf env mt u ss t, nothing_to_traverse (gf (us_tree u)) ->
  let r := walk_prime_in (Some gf) env mt (FacUsing u) ss t in
  match fst (build_prime env mt (FacUsing u) ss) with
  | BuildReady _ _ => rp_outcome r = Pan nil_deref /\ rp_trace r = [EvBegin (us_tree u)] /\ rp_metrics r = None
  | _ => r = walk_prime env mt (FacUsing u) ss t
  end.
Proof.
  intros gf env mt u ss t N. cbv zeta. unfold walk_prime_in, walk_prime, made_forest. cbn [facade_tree].
  destruct (fst (build_prime env mt (FacUsing u) ss)); try reflexivity.
  destruct N as [-> | [r ->]]; repeat split.
Qed.
Print Assumptions c107_missing_forest.
(** With a file system to traverse, its kind and the other file system make no
    difference, nor whether a function made it. *)
Theorem c107_forest : forall gf env mt fac ss t,
  (forall fn, gf = Some fn -> exists kind r, fn (facade_tree fac) = Some (Some kind, r)) ->
  walk_prime_in gf env mt fac ss t = walk_prime env mt fac ss t.
Proof.
  intros gf env mt fac ss t F. unfold walk_prime_in, walk_prime, made_forest. destruct gf as [fn|].
  - destruct (F fn eq_refl) as (k & r & ->). destruct (fst (build_prime env mt fac ss)); reflexivity.
  - destruct (fst (build_prime env mt fac ss)); reflexivity.
Qed.
Print Assumptions c107_forest.
(** The function is asked for the tree of the session. *)
Theorem c107_asked_for_the_tree : forall g1 g2 env mt fac ss t, g1 (facade_tree fac) = g2 (facade_tree fac) ->
  walk_prime_in (Some g1) env mt fac ss t = walk_prime_in (Some g2) env mt fac ss t.
Proof. intros g1 g2 env mt fac ss t E. unfold walk_prime_in, made_forest. rewrite E. reflexivity. Qed.
Print Assumptions c107_asked_for_the_tree.
Definition forest_walk (f : forest) : report :=
  walk_prime_in (Some (fun tree => if String.eqb tree "/r" then f else native)) env0 mt0 (FacUsing (using_ SubUniversal None)) [] tree1.
Example c107_case :
  nothing_to_traverse (Some (None, Some true)) /\ rp_trace (forest_walk (Some (None, Some true))) = [EvBegin "/r"] /\
  rp_outcome (forest_walk None) = Pan nil_deref /\ rp_outcome (forest_walk (Some (Some true, None))) = Ret None /\
  length (calls (rp_trace (forest_walk (Some (Some true, None))))) = length (calls (rp_trace (forest_walk native))) /\
  1 < length (calls (rp_trace (forest_walk native))).
Proof. split; [right; eexists; reflexivity|]. vm_compute. repeat split. repeat constructor. Qed.

(** Resuming a stored session (texts in UTF-8; the settings of the resume are
    accepted): nil is refused, a forest in which either file system is missing
    makes the construction panic, before anything is notified; one with both is
    what C90 is about. *)
Theorem c107_resume : forall gf env mt file r o a v ss pc dk,
  Forall utf8 (option_texts o) -> utf8 (sv_tree (ac_saved a)) -> utf8 (sv_path (ac_saved a)) ->
  marshal o a None = (Some v, None) -> file (re_from r) = inl v -> snd (apply ss (carried env o)) = None ->
  let report := walk_resume_in (Some gf) [] env mt file (FacRelic r) ss pc dk in
  match gf (sv_tree (ac_saved a)) with
  | None => nothing_but err_nil_forest report
  | Some (Some t, Some s) =>
      report = walk_resume env mt (mkRestore file (Some (fun _ => Some (t, s)))) (FacRelic r) ss pc dk
  | Some _ => report = mkResumeReport (Pan nil_deref) [] None false
  end.
Proof.
  intros gf env mt file r o a v ss pc dk U1 U2 U3 M F AP. cbv zeta.
  destruct (resume_loads env o a ss U1 U2 U3) as (v' & M' & L). assert (v' = v) by congruence. subst v'.
  unfold walk_resume_in, walk_resume, build_resume_in, build_resume. cbn [rs_file]. rewrite F, L, AP.
  unfold on_load, seek. cbn [lo_find]. unfold made_forest, forest_error. cbn [rs_forest].
  change (sv_tree (ac_saved (kept_state a))) with (sv_tree (ac_saved a)).
  destruct (gf (sv_tree (ac_saved a))) as [[[t|] [s|]]|]; try reflexivity.
  repeat split.
Qed.
Print Assumptions c107_resume.
Example c107_resume_case :
  let walk f := walk_resume_in (Some (fun _ => f)) [] env0 mt0 (fun _ => inl rel_doc)
                  (FacRelic (mkRelic "f" StrategySpawn (Some client_nil))) [] unix_calc (fun _ => tree1) in
  rr_outcome (walk None) = Ret (Some err_nil_forest) /\ rr_outcome (walk (Some (None, Some true))) = Pan nil_deref /\
  rr_outcome (walk native) = Ret None.
Proof. vm_compute. repeat split. Qed.

(** ** C108: handlers of the loaded state *)

Definition not_handlers (addons : list addon) : Prop := Forall (fun a => a = None) addons.

Lemma seek_first : forall before h after, not_handlers before -> seek (before ++ Some h :: after) = Some h.
Proof.
  intros before h after N. unfold seek. induction N as [|x l -> N IH]; [reflexivity|]. exact IH.
Qed.
Lemma seek_none : forall addons, not_handlers addons -> seek addons = None.
Proof. intros addons N. unfold seek. induction N as [|x l -> N IH]; [reflexivity|]. exact IH. Qed.

(** A resume whose first addon with an OnLoad method turns the loaded state into
    [a'] is the resume, without addons, of the session stored with [a'] instead:
    the same visits, notifications, error and metrics. (A file has no counts of
    filtered out nodes, C94: so is [a'] to be without.) *)
Theorem c108_as_if_stored : forall gf env mt file file' r o a a' v v' before h after ss pc dk,
  Forall utf8 (option_texts o) -> utf8 (sv_tree (ac_saved a)) -> utf8 (sv_path (ac_saved a)) ->
  utf8 (sv_tree (ac_saved a')) -> utf8 (sv_path (ac_saved a')) ->
  marshal o a None = (Some v, None) -> file (re_from r) = inl v ->
  marshal o a' None = (Some v', None) -> file' (re_from r) = inl v' ->
  not_handlers before -> h (Some (kept_state a)) = inl (Some a') -> kept_state a' = a' ->
  walk_resume_in gf (before ++ Some h :: after) env mt file (FacRelic r) ss pc dk =
  walk_resume_in gf [] env mt file' (FacRelic r) ss pc dk.
Proof.
  intros gf env mt file file' r o a a' v v' before h after ss pc dk U1 U2 U3 U2' U3' M F M' F' N H K.
  destruct (resume_loads env o a ss U1 U2 U3) as (w & W & L). assert (w = v) by congruence. subst w.
  destruct (resume_loads env o a' ss U1 U2' U3') as (w' & W' & L'). assert (w' = v') by congruence. subst w'.
  unfold walk_resume_in. f_equal. unfold build_resume_in. rewrite F, F', L, L', K.
  unfold on_load. rewrite seek_first by exact N. rewrite H. unfold seek. cbn [lo_find]. reflexivity.
Qed.
Print Assumptions c108_as_if_stored.
(** Other addons do not matter; without a handler, and with file systems for both,
    this is the resume the other properties are about. *)
Theorem c108_other_addons : forall gf env mt file fac addons ss pc dk, not_handlers addons ->
  walk_resume_in gf addons env mt file fac ss pc dk = walk_resume_in gf [] env mt file fac ss pc dk /\
  (forall fn, gf = option_map (fun f tree => Some (Some (fst (f tree)), Some (snd (f tree)))) fn ->
     walk_resume_in gf addons env mt file fac ss pc dk =
     walk_resume env mt (mkRestore file (option_map (fun f tree => Some (f tree)) fn)) fac ss pc dk).
Proof.
  intros gf env mt file fac addons ss pc dk N.
  assert (E : walk_resume_in gf addons env mt file fac ss pc dk = walk_resume_in gf [] env mt file fac ss pc dk).
  { unfold walk_resume_in. f_equal. unfold build_resume_in, on_load. rewrite (seek_none addons N). reflexivity. }
  split; [exact E|]. intros fn G. rewrite E. unfold walk_resume_in, walk_resume. f_equal.
  unfold build_resume_in, build_resume, on_load, seek. cbn [lo_find rs_file]. destruct fac as [u|r]; [reflexivity|].
  destruct (file (re_from r)) as [doc|e]; [|reflexivity].
  destruct (resume_load env doc ss) as [[[[[a|] o] [e|]]|e]|p|]; try reflexivity.
  unfold forest_error, made_forest. cbn [rs_forest]. subst gf. destruct fn as [f|]; cbn [option_map].
  - destruct (f (sv_tree (ac_saved a))) as [t s]. cbn [fst snd forest_verdict].
    destruct (negb (Bool.eqb t (ac_traverse_relative a))); [reflexivity|].
    destruct (negb (Bool.eqb s (ac_resume_relative a))); reflexivity.
  - unfold native. cbn [forest_verdict].
    destruct (negb (Bool.eqb false (ac_traverse_relative a))); [reflexivity|].
    destruct (negb (Bool.eqb false (ac_resume_relative a))); reflexivity.
Qed.
Print Assumptions c108_other_addons.
(** A handler is also called if the file could not be read, or is not a stored
    session: with nil. One which cannot take nil makes the construction panic
    where the resume would have returned the error. *)
Theorem c108_failed_load_refuted : forall gf env mt file r e before h after p ss pc dk,
  file (re_from r) = inr e -> not_handlers before -> h None = inr p ->
  nothing_but e (walk_resume_in gf [] env mt file (FacRelic r) ss pc dk) /\
  walk_resume_in gf (before ++ Some h :: after) env mt file (FacRelic r) ss pc dk = mkResumeReport (Pan p) [] None false.
Proof.
  intros gf env mt file r e before h after p ss pc dk F N H. unfold walk_resume_in, build_resume_in. rewrite F.
  unfold on_load. rewrite seek_first by exact N. rewrite H. split; [repeat split|reflexivity].
Qed.
Print Assumptions c108_failed_load_refuted.
(** One which can take nil does not turn the failure into anything else. *)
Theorem c108_failed_load : forall gf env mt file r e addons ss pc dk,
  file (re_from r) = inr e -> (forall h p, In (Some h) addons -> h None <> inr p) ->
  nothing_but e (walk_resume_in gf addons env mt file (FacRelic r) ss pc dk).
Proof.
  intros gf env mt file r e addons ss pc dk F N. unfold walk_resume_in, build_resume_in. rewrite F.
  assert (X : exists x, on_load addons None = inl x).
  { unfold on_load. destruct (seek addons) as [h|] eqn:S; [|eexists; reflexivity].
    unfold seek in S. rewrite lo_find_eq in S. match type of S with context [find ?q addons] => destruct (find q addons) as [y|] eqn:E end; [|discriminate]. subst y.
    apply find_some in E. destruct E as [I _]. destruct (h None) as [z|p] eqn:H; [destruct z; eexists; reflexivity|].
    exfalso. exact (N h p I H). }
  destruct X as [x ->]. repeat split.
Qed.
Print Assumptions c108_failed_load.

(** A handler which makes the resume start at /r/B instead of /r/A. *)
Definition to_B : loader := fun a =>
  match a with
  | None => inr nil_deref
  | Some (mkActive sv t r) =>
      inl (Some (mkActive (mkSaved (sv_tree sv) "/r/B" (sv_isdir sv) (sv_depth sv) (sv_sub sv) (sv_metrics sv)) t r))
  end.
Definition rel_state_B : active := mkActive (mkSaved "/r" "/r/B" true 1 SubUniversal metrics0) false false.
Definition handled (addons : list addon) : list string :=
  map (fun x => n_path (fst x)) (calls (rr_trace (walk_resume_in None addons env0 mt0 (fun _ => inl rel_doc)
    (FacRelic (mkRelic "f" StrategySpawn (Some client_nil))) [] unix_calc (fun p => disk4 p)))).
Example c108_case :
  not_handlers [None; None] /\ to_B (Some (kept_state rel_state)) = inl (Some rel_state_B) /\ kept_state rel_state_B = rel_state_B /\
  handled [None; Some to_B; Some (fun _ => inr nil_deref)] <> handled [] /\ handled [None; Some to_B] <> [].
Proof.
  split; [repeat constructor|]. split; [reflexivity|]. split; [reflexivity|]. vm_compute. split; discriminate.
Qed.
