(** Where an interrupted session is stored. Properties C82, C83. *)
From Verif Require Import Base Paths Kernel Filters Options Persist PathFacts BuildCases PropPersist Save SpecSave SaveFacts.
Local Open Scope string_scope.

Definition morning : civil := mkCivil 2024 5 17 9 30 7 100.
Definition later : civil := mkCivil 2024 5 17 9 30 8 0.
Definition still : civil := mkCivil 2024 5 17 9 30 7 999.
Definition usable : writer := mkWriter (fun _ => None) (fun _ => None).
Definition full : writer := mkWriter (fun _ => None) (fun _ => Some (err_json, Some Garbage)).
Definition home (p : string) : string := if String.eqb p "~" then "/home/m" else p.
Definition other_state : active :=
  mkActive (mkSaved "/q" "/q/B" true 1 SubFiles (mkMetrics 3 0 2 4 1 5)) false false.
Definition no_files : files := fun _ => None.

(** ** C82: a stored session is kept *)

(** FALSE: of two sessions of the same kind interrupted within the same second
    the second takes the place of the first. *)
Theorem c82_same_second_overwrites_refuted : forall resolve w1 w2 admin resuming t1 t2 o1 o2 a1 a2 fs p1 p2 fs1 fs2,
  default_rescue resolve w1 admin resuming t1 o1 a1 fs = (inl p1, fs1) ->
  default_rescue resolve w2 admin resuming t2 o2 a2 fs1 = (inl p2, fs2) ->
  same_second t1 t2 ->
  p1 = p2 /\ exists doc, document_of o2 a2 doc /\ fs2 p1 = Some (Document doc).
Proof.
  intros resolve w1 w2 admin r t1 t2 o1 o2 a1 a2 fs p1 p2 fs1 fs2 H1 H2 S.
  apply rescue_saved in H1. apply rescue_saved in H2.
  destruct H1 as (d1 & D1 & P1 & F1). destruct H2 as (d2 & D2 & P2 & F2).
  assert (E : p1 = p2). { rewrite P1, P2. unfold file_name. rewrite (same_second_stamp _ _ S). reflexivity. }
  split; [exact E|]. exists d2. split; [exact D2|]. rewrite F2, E. unfold put_file. rewrite String.eqb_refl. reflexivity.
Qed.
Print Assumptions c82_same_second_overwrites_refuted.
Example c82_overwritten_case : exists p fs1 fs2 v1 v2,
  default_rescue home usable "~" false morning rich_options rich_state no_files = (inl p, fs1) /\
  default_rescue home usable "~" false still rich_options other_state fs1 = (inl p, fs2) /\
  fs1 p = Some v1 /\ fs2 p = Some v2 /\ v1 <> v2.
Proof.
  eexists _, _, _, _, _. split; [vm_compute; reflexivity|]. split; [vm_compute; reflexivity|].
  split; [vm_compute; reflexivity|]. split; [vm_compute; reflexivity|]. discriminate.
Qed.

(** It is kept if the later session is of another kind (a resumed one after a
    fresh one, or the reverse) or is interrupted in another second. *)
Theorem c82_kept_partial : forall resolve w1 w2 admin r1 r2 t1 t2 o1 o2 a1 a2 fs p1 p2 fs1 fs2,
  default_rescue resolve w1 admin r1 t1 o1 a1 fs = (inl p1, fs1) ->
  default_rescue resolve w2 admin r2 t2 o2 a2 fs1 = (inl p2, fs2) ->
  calendar t1 -> calendar t2 ->
  r1 <> r2 \/ ~ same_second t1 t2 ->
  p1 <> p2 /\ exists doc, document_of o1 a1 doc /\ fs1 p1 = Some (Document doc) /\ fs2 p1 = Some (Document doc).
Proof.
  intros resolve w1 w2 admin r1 r2 t1 t2 o1 o2 a1 a2 fs p1 p2 fs1 fs2 H1 H2 C1 C2 D.
  apply rescue_saved in H1. apply rescue_saved in H2.
  destruct H1 as (d1 & D1 & P1 & F1). destruct H2 as (d2 & D2 & P2 & F2).
  assert (E : p1 <> p2).
  { intro E. rewrite P1, P2 in E. apply (f_equal (fun p => snd (split_path p))) in E.
    rewrite !join_last in E by apply file_name_proper.
    destruct (file_name_inj _ _ _ _ C1 C2 E) as (X & Y). destruct D as [D | D]; [exact (D X)|exact (D Y)]. }
  split; [exact E|]. exists d1. split; [exact D1|].
  assert (G : fs1 p1 = Some (Document d1)). { rewrite F1. unfold put_file. rewrite String.eqb_refl. reflexivity. }
  split; [exact G|]. rewrite F2. unfold put_file. apply String.eqb_neq in E. rewrite E. exact G.
Qed.
Print Assumptions c82_kept_partial.
Example c82_kept_case : calendar morning /\ calendar later /\ ~ same_second morning later /\
  exists p1 p2 fs1 fs2,
  default_rescue home usable "~" false morning rich_options rich_state no_files = (inl p1, fs1) /\
  default_rescue home usable "~" false later rich_options other_state fs1 = (inl p2, fs2) /\
  p1 = "/home/m/agenor/admin/resume/prime.panic.2024-05-17_09-30-07.json" /\
  p2 = "/home/m/agenor/admin/resume/prime.panic.2024-05-17_09-30-08.json".
Proof.
  split; [unfold calendar; cbn; repeat split; reflexivity|]. split; [unfold calendar; cbn; repeat split; reflexivity|].
  split; [intros (_ & _ & _ & _ & _ & E); discriminate|].
  eexists _, _, _, _. split; [vm_compute; reflexivity|]. split; [vm_compute; reflexivity|]. split; reflexivity.
Qed.

(** ** C83: the place *)

(** A stored session is in the admin path, or in "agenor/admin/resume" below it if
    that does not already end that way, and no other file changes. *)
Theorem c83_place : forall resolve w admin resuming now o a fs p fs1,
  default_rescue resolve w admin resuming now o a fs = (inl p, fs1) ->
  exists directory doc,
    (ends_in (resolve admin) "agenor/admin/resume" /\ directory = resolve admin \/
     ~ ends_in (resolve admin) "agenor/admin/resume" /\ directory = join (resolve admin) "agenor/admin/resume") /\
    ends_in directory "agenor/admin/resume" /\
    p = join directory ((if resuming then "resume" else "prime") ++ ".panic." ++ stamp now ++ ".json") /\
    document_of o a doc /\ fs1 p = Some (Document doc) /\ (forall q, q <> p -> fs1 q = fs q).
Proof.
  intros resolve w admin r t o a fs p fs1 H. apply rescue_saved in H. destruct H as (doc & D & P & F).
  exists (place resolve admin), doc.
  assert (X : ends_in (resolve admin) "agenor/admin/resume" /\ place resolve admin = resolve admin \/
     ~ ends_in (resolve admin) "agenor/admin/resume" /\ place resolve admin = join (resolve admin) "agenor/admin/resume").
  { unfold place. destruct (has_suffix (resolve admin) resume_tail) eqn:E.
    - left. split; [apply has_suffix_iff; exact E|reflexivity].
    - right. split; [|reflexivity]. intro G. apply has_suffix_iff in G. unfold resume_tail in E. congruence. }
  split; [exact X|]. split.
  { destruct X as [[X ->] | [_ ->]]; [exact X|]. destruct (join_tail (resolve admin)) as (pre & J). exists pre. exact J. }
  split; [rewrite P; reflexivity|]. split; [exact D|]. rewrite F. unfold put_file. split; [rewrite String.eqb_refl; reflexivity|].
  intros q Q. apply String.eqb_neq in Q. rewrite Q. reflexivity.
Qed.
Print Assumptions c83_place.
Example c83_place_case : exists fs1,
  default_rescue home usable "/srv/agenor/admin/resume" true morning rich_options rich_state no_files =
  (inl "/srv/agenor/admin/resume/resume.panic.2024-05-17_09-30-07.json", fs1).
Proof. eexists. vm_compute. reflexivity. Qed.

(** If it cannot be stored the error is the file system's, of that directory or of
    that file; no file but that one changes, and none if it was the directory. *)
Theorem c83_failure : forall resolve w admin resuming now o a fs e fs1,
  default_rescue resolve w admin resuming now o a fs = (inr e, fs1) ->
  exists directory, ends_in directory "agenor/admin/resume" /\
    let path := join directory ((if resuming then "resume" else "prime") ++ ".panic." ++ stamp now ++ ".json") in
    (wr_mkdir w directory = Some e /\ (forall q, fs1 q = fs q) \/
     wr_mkdir w directory = None /\ exists rest, wr_write w path = Some (e, rest) /\ fs1 path = rest /\
       (forall q, q <> path -> fs1 q = fs q)).
Proof.
  intros resolve w admin r t o a fs e fs1 H. apply rescue_failed in H.
  exists (place resolve admin). split; [apply place_tail|]. cbv zeta.
  change ((if r then "resume" else "prime") ++ ".panic." ++ stamp t ++ ".json") with (file_name r t).
  destruct H as [[M ->] | (M & l & W & ->)]; [left; auto|]. right. split; [exact M|]. exists l. split; [exact W|].
  unfold put_file. rewrite String.eqb_refl. split; [reflexivity|]. intros q Q. apply String.eqb_neq in Q. rewrite Q. reflexivity.
Qed.
Print Assumptions c83_failure.
Example c83_failure_case : exists fs1,
  default_rescue home full "~" false morning rich_options rich_state no_files = (inr err_json, fs1) /\
  fs1 "/home/m/agenor/admin/resume/prime.panic.2024-05-17_09-30-07.json" = Some Garbage.
Proof. eexists. split; [vm_compute; reflexivity|]. vm_compute. reflexivity. Qed.

(** It is stored whenever the file system permits. *)
Theorem c83_stored : forall resolve w admin resuming now o a fs,
  (forall d, wr_mkdir w d = None) -> (forall p, wr_write w p = None) ->
  exists p fs1, default_rescue resolve w admin resuming now o a fs = (inl p, fs1).
Proof. exact rescue_stored. Qed.
Print Assumptions c83_stored.
Example c83_stored_case : exists p fs1, default_rescue home usable "" true later rich_options other_state no_files = (inl p, fs1) /\
  p = "agenor/admin/resume/resume.panic.2024-05-17_09-30-08.json".
Proof. eexists _, _. split; [vm_compute; reflexivity|reflexivity]. Qed.
