(** Saving and loading a session. Properties C38, C39, C66, C67. *)
From Verif Require Import Base Paths Level Kernel Defaults Filters Hooks Life Options BuildCases Persist SpecPersist PersistFacts.
Local Open Scope string_scope.

(** ** A session with filters, sampling and hibernation *)
Definition rich_options : options :=
  let d p := mkFilterDef FtRegex "described" p 3 true TriFalse None in
  mkOptions (mkBehaviours false true true 4 false) (mkSampling StFilter true 2 1)
    (mkFilterOptions (Some (mkFilterDef FtPoly "" "" 0 false TriUndefined (Some (d "f", d "g"))))
       (Some (mkChildDef FtGlob "children" "*.mp3" false))
       (Some (mkSampleDef FtGlob "sample" "A*" 8 true None None)) None)
    (mkHibOptions (Some (d "w")) (Some (d "s")) false true)
    (mkConc 6 0 0 false) new_controls (new_hooks env0) (op_defects (default_options env0)).
Definition rich_state : active :=
  mkActive (mkSaved "/r" "/r/A" true 2 SubUniversal (mkMetrics 3 9 2 9 1 9)) false false.
Example rich_texts : Forall utf8 (option_texts rich_options).
Proof. repeat constructor; apply utf8_clean_iff; vm_compute; reflexivity. Qed.

(** ** C38: saving and loading options *)

(** Saving never fails for the options: only writing the file can. *)
Theorem c38_save_reports_only_the_write : forall o a written,
  exists v, marshal o a written = (Some v, written).
Proof. exact (fun o a w => ex_intro _ _ (marshal_writes o a w)). Qed.
Print Assumptions c38_save_reports_only_the_write.
Example c38_save_case : exists v e, marshal rich_options rich_state (Some e) = (Some v, Some e).
Proof. destruct (c38_save_reports_only_the_write rich_options rich_state (Some err_json)) as (v & E). exists v, err_json. exact E. Qed.

(** What was saved is loaded again, without an error: every setting that has a
    place in the saved form, except the poly of a sample filter, if all the texts
    are UTF-8. Missing for the full claim: that poly, and other texts (both
    refuted below). *)
Theorem c38_round_trip_partial : forall env o a,
  Forall utf8 (option_texts o) -> utf8 (sv_tree (ac_saved a)) -> utf8 (sv_path (ac_saved a)) ->
  exists v, marshal o a None = (Some v, None) /\
            unmarshal env v = Ret (inl (Some (kept_state a), carried env o, None)).
Proof. exact round_trip. Qed.
Print Assumptions c38_round_trip_partial.
Example c38_round_trip_case :
  exists v, marshal rich_options rich_state None = (Some v, None) /\
    unmarshal env0 v = Ret (inl (Some (kept_state rich_state), rich_options, None)) /\
    fo_node (op_filter rich_options) <> None.
Proof.
  destruct (round_trip env0 rich_options rich_state rich_texts) as (v & M & L); try (apply utf8_clean_iff; vm_compute; reflexivity).
  exists v. split; [exact M|]. split; [exact L|discriminate].
Qed.

(** A text comes back as it was exactly if it is UTF-8; nothing reports that
    another one has changed. *)
Lemma texts_back : forall env o a, exists v a' o',
  marshal o a None = (Some v, None) /\ unmarshal env v = Ret (inl (Some a', o', None)) /\
  (sv_path (ac_saved a') = sv_path (ac_saved a) <-> utf8 (sv_path (ac_saved a))) /\
  (sv_tree (ac_saved a') = sv_tree (ac_saved a) <-> utf8 (sv_tree (ac_saved a))) /\
  match fo_node (op_filter o), fo_node (op_filter o') with
  | Some d, Some d' => fd_pattern d' = fd_pattern d <-> utf8 (fd_pattern d)
  | None, None => True
  | _, _ => False
  end.
Proof.
  intros env o a. eexists. eexists. eexists. split; [apply marshal_writes|]. split; [apply unmarshal_marshalled|].
  split; [apply utf8_clean_iff|]. split; [apply utf8_clean_iff|].
  destruct o as [b s [[[ty de pa sc ne na po]|] fc fs fcu] h co ev hk df]; [|exact I]. apply utf8_clean_iff.
Qed.
Theorem c38_texts : forall env o a, exists v a' o',
  marshal o a None = (Some v, None) /\ unmarshal env v = Ret (inl (Some a', o', None)) /\
  (sv_path (ac_saved a') = sv_path (ac_saved a) <-> utf8 (sv_path (ac_saved a))) /\
  (sv_tree (ac_saved a') = sv_tree (ac_saved a) <-> utf8 (sv_tree (ac_saved a))) /\
  match fo_node (op_filter o), fo_node (op_filter o') with
  | Some d, Some d' => fd_pattern d' = fd_pattern d <-> utf8 (fd_pattern d)
  | None, None => True
  | _, _ => False
  end.
Proof. exact texts_back. Qed.
Print Assumptions c38_texts.
Definition latin1 : string := String (ascii_of_N 233) "t" ++ String (ascii_of_N 233) "".
Example latin1_not_utf8 : ~ utf8 latin1.
Proof. intro H. apply utf8_clean_iff in H. discriminate H. Qed.

(** The claim as it stands is false: the path a session stopped at, and a filter
    of a sample. *)
Theorem c38_lossless_refuted :
  (exists o a v a', marshal o a None = (Some v, None) /\
     unmarshal env0 v = Ret (inl (Some a', o, None)) /\ sv_path (ac_saved a') <> sv_path (ac_saved a)) /\
  (exists o a v o', marshal o a None = (Some v, None) /\
     unmarshal env0 v = Ret (inl (Some a, o', None)) /\
     option_map sd_poly (fo_sample (op_filter o')) <> option_map sd_poly (fo_sample (op_filter o))).
Proof.
  split.
  - exists rich_options, (mkActive (mkSaved "/r" ("/r/" ++ latin1) true 1 SubUniversal metrics0) false false).
    eexists. eexists. split; [apply marshal_writes|].
    split; [rewrite unmarshal_marshalled, clean_options_id by exact rich_texts; rewrite from_to_json; reflexivity|].
    vm_compute. discriminate.
  - exists (set_filter (mkFilterOptions None None
        (Some (mkSampleDef FtPoly "" "" 0 false
           (Some (mkFilterDef FtGlob "" "*.mp3" 0 false TriUndefined None,
                  mkFilterDef FtGlob "" "A*" 0 false TriUndefined None)) None)) None) (default_options env0)).
    exists (mkActive (mkSaved "/r" "/r/A" true 1 SubUniversal metrics0) false false).
    eexists. eexists. split; [apply marshal_writes|].
    split; [rewrite unmarshal_marshalled; rewrite clean_active_id by (apply utf8_clean_iff; vm_compute; reflexivity); reflexivity|].
    discriminate.
Qed.
Print Assumptions c38_lossless_refuted.

(** ** C39: the comparison *)

(** It reports nothing exactly if all the fields agree, where two poly filters are
    looked at only if both are there. *)
Theorem c39_comparison_partial : forall o j, equal_options o j = None <-> alike_options o j.
Proof. exact equal_options_iff. Qed.
Print Assumptions c39_comparison_partial.
Example c39_case : alike_options rich_options (to_json rich_options) /\
  equal_options (set_conc (mkConc 7 0 0 false) rich_options) (to_json rich_options) <> None.
Proof. split; [apply equal_options_iff, equal_to_json|vm_compute; discriminate]. Qed.

(** If every field agrees, nothing is reported. *)
Lemma same_options_alike : forall o j, same_options o j -> equal_options o j = None.
Proof.
  intros o j H. apply equal_options_iff. unfold same_options, alike_options, options_agree in *.
  destruct H as (A & B & C & D & E & F & G & H).
  assert (K : forall x y, both filter_same x y -> both filter_alike x y).
  { intros [x|] [y|]; cbn; auto using same_alike. }
  repeat split; try assumption; try (apply K; assumption); try apply H.
  destruct (fo_sample (op_filter o)) as [d|], (jo_sample j) as [c|]; cbn in *; try assumption.
  destruct E as (E1 & E2 & E3 & E4 & E5 & E6). repeat split; try assumption.
  destruct (sd_poly d) as [[? ?]|], (js_poly c) as [[? ?]|]; cbn in *; try exact I.
  destruct E6. split; apply same_alike; assumption.
Qed.
Theorem c39_agreement_accepted : forall o j, same_options o j -> equal_options o j = None.
Proof. exact same_options_alike. Qed.
Print Assumptions c39_agreement_accepted.

(** The converse is false: a poly removed (or added) is not noticed. *)
Theorem c39_tampering_refuted :
  exists o j, equal_options o j = None /\ ~ same_options o j.
Proof.
  exists rich_options.
  exists (mkJOptions (jo_behaviours (to_json rich_options)) (jo_sampling (to_json rich_options))
    (Some (mkJFilter FtPoly "" "" 0 false TriUndefined None)) (jo_child (to_json rich_options))
    (jo_sample (to_json rich_options)) (jo_hib (to_json rich_options)) 6).
  split; [vm_compute; reflexivity|]. intros (_ & _ & H & _). cbn in H. inversion H.
Qed.
Print Assumptions c39_tampering_refuted.

(** And loading never reports a difference at all, whatever the document: the
    options compared have just been made from the document. *)
Theorem c39_load_reports_no_difference : forall env v a o e,
  unmarshal env v = Ret (inl (a, o, e)) -> e = None.
Proof. exact unmarshal_never_unequal. Qed.
Print Assumptions c39_load_reports_no_difference.
Example c39_load_case : exists v a o, unmarshal env0 v = Ret (inl (a, o, None)) /\ a = None /\ bh_depth (op_behaviours o) = 77%N.
Proof.
  exists (JObj [("JO", JObj [("Behaviours", JObj [("Cascade", JObj [("Depth", JNum 77)])])])]).
  eexists. eexists. split; [unfold unmarshal; cbn [dec_result]; reflexivity|]. split; reflexivity.
Qed.

(** ** C66: the options of a resumed session: the persisted ones, the defaults for
    all the others, and then the settings given to the resume. *)
Theorem c66_resume_options : forall env o a settings,
  Forall utf8 (option_texts o) -> utf8 (sv_tree (ac_saved a)) -> utf8 (sv_path (ac_saved a)) ->
  exists v, marshal o a None = (Some v, None) /\
    resume_load env v settings =
    Ret (inl (Some (kept_state a), fst (apply settings (carried env o)), snd (apply settings (carried env o)))).
Proof. exact resume_loads. Qed.
Print Assumptions c66_resume_options.
Example c66_case : exists v,
  marshal rich_options rich_state None = (Some v, None) /\
  resume_load env0 v [Some (fun o => (with_apply env0 (WithDepth 9) o, None))] =
  Ret (inl (Some (kept_state rich_state), with_apply env0 (WithDepth 9) (carried env0 rich_options), None)).
Proof.
  destruct (resume_loads env0 rich_options rich_state [Some (fun o => (with_apply env0 (WithDepth 9) o, None))] rich_texts)
    as (v & M & L); try (apply utf8_clean_iff; vm_compute; reflexivity).
  exists v. split; [exact M|]. rewrite L. reflexivity.
Qed.

(** ** C67: a state file without options makes the load panic. *)
Lemma load_cases : forall env v,
  match dec_result v with
  | inr e => unmarshal env v = Ret (inr e)
  | inl (_, None) => unmarshal env v = Pan nil_deref
  | inl (a, Some jo) => unmarshal env v = Ret (inl (a, from_json env jo, None))
  end.
Proof.
  intros env v. unfold unmarshal. destruct (dec_result v) as [[a [jo|]]|e]; try reflexivity.
  rewrite equal_from_json. reflexivity.
Qed.
Theorem c67_damaged_state_refuted : forall env, unmarshal env (JObj []) = Pan nil_deref.
Proof. exact (fun env => eq_refl). Qed.
Print Assumptions c67_damaged_state_refuted.
Theorem c67_load_outcome_partial : forall env v,
  match dec_result v with
  | inr e => unmarshal env v = Ret (inr e)
  | inl (_, None) => unmarshal env v = Pan nil_deref
  | inl (a, Some jo) => unmarshal env v = Ret (inl (a, from_json env jo, None))
  end.
Proof. exact load_cases. Qed.
Print Assumptions c67_load_outcome_partial.
