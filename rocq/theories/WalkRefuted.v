(** Witnesses for the refuted traversal properties. *)
From Verif Require Import Base Paths Level Kernel Defaults Session Spec KernelFacts JournalFacts SessionFacts RescueFacts
  FilesFacts WalkCor WalkProps ReadFacts Cases CasesFacts.
Local Open Scope string_scope.

Lemma skip_all_goes_on : forall sub, exists c t o s n1 n2 i j,
  c_sub c = sub /\ hooks_ok c /\ root_ok c t /\ default_skip c /\ plain c /\
  session c false t = (o, s) /\ i < j /\
  nth_error (calls (s_trace s)) i = Some (n1, CErr (Err SkipAll)) /\
  nth_error (calls (s_trace s)) j = Some (n2, CNil).
Proof.
  intro sub.
  set (c := with_client (answer (match sub with SubFiles => "/r/A/x" | _ => "/r/A" end) (CErr (Err SkipAll))) (base_cfg sub)).
  exists c, tree1, (fst (session c false tree1)), (snd (session c false tree1)).
  destruct sub; do 2 eexists; exists 1, 2;
    (split; [reflexivity|]); (split; [exact (base_hooks _)|]); (split; [reflexivity|]);
    (split; [intros ? ? ?; reflexivity|]); (split; [split; reflexivity|]);
    (split; [destruct (session c false tree1); reflexivity|]); (split; [lia|]);
    split; vm_compute; reflexivity.
Qed.

Lemma skip_dir_file_universal : exists c t o s n1 n2 i,
  c_sub c = SubUniversal /\ hooks_ok c /\ root_ok c t /\ default_skip c /\ plain c /\
  session c false t = (o, s) /\
  nth_error (calls (s_trace s)) i = Some (n1, CErr (Err SkipDir)) /\ n_isdir n1 = false /\
  nth_error (calls (s_trace s)) (S i) = Some (n2, CNil) /\ siblings n1 n2.
Proof.
  set (c := with_client (answer "/r/c" (CErr (Err SkipDir))) (base_cfg SubUniversal)).
  exists c, tree1, (fst (session c false tree1)), (snd (session c false tree1)).
  do 2 eexists. exists 6.
  split; [reflexivity|]. split; [exact (base_hooks _)|]. split; [reflexivity|].
  split; [intros ? ? ?; reflexivity|]. split; [split; reflexivity|].
  split; [destruct (session c false tree1); reflexivity|].
  split; [vm_compute; reflexivity|]. split; [reflexivity|]. split; [vm_compute; reflexivity|].
  do 2 eexists. split; [reflexivity|]. split; reflexivity.
Qed.

Lemma skip_dir_file_files : exists c t s n P p,
  c_sub c = SubFiles /\ hooks_ok c /\ root_ok c t /\ default_skip c /\ plain c /\
  session c false t = (Ret (Some (Err SkipDir)), s) /\
  calls (s_trace s) = [(n, CErr (Err SkipDir))] /\
  preorder (entries_files c) [] (c_tree c) t P /\ In p P /\
  fisdir (pl_obj p) = false /\ (forall d, n_parent n = Some d -> above (n_pos d) (pl_pos p) = false).
Proof.
  set (c := with_client (answer "/r/A/B/y" (CErr (Err SkipDir))) (base_cfg SubFiles)).
  destruct (listing_files c (base_hooks SubFiles) tree1) as [P HP].
  exists c, tree1, (snd (session c false tree1)). eexists. exists P, (mkPlace [2] "/r/c" (File "c")).
  split; [reflexivity|]. split; [exact (base_hooks _)|]. split; [reflexivity|].
  split; [intros ? ? ?; reflexivity|]. split; [split; reflexivity|].
  split; [vm_compute; reflexivity|].
  split; [vm_compute; reflexivity|]. split; [exact HP|]. split.
  - apply (proj1 (preorder_characterised _ _ _ _ HP)).
    apply (reach_entry (entries_files c) "/r" tree1 (mkPlace [] "/r" tree1) 2 (File "c")); [constructor|vm_compute; reflexivity].
  - split; [reflexivity|]. intros d E. inversion E; subst d. reflexivity.
Qed.

Lemma files_skip_dir_ends : forall c sampling t o s n e,
  hooks_ok c -> root_ok c t -> default_skip c -> filter_ok c -> c_sub c = SubFiles ->
  session c sampling t = (o, s) ->
  In (n, CErr e) (calls (s_trace s)) -> errors_is SkipDir e = true ->
  (exists pre, calls (s_trace s) = (pre ++ [(n, CErr e)])%list) /\ o = Ret (Some e).
Proof.
  intros c sampling t o s n e HK RO DS FO SUB H I SD.
  assert (IE : is_end_files (CErr e) = true).
  { cbn. unfold is_skip_all_only. rewrite SD. rewrite andb_false_r. reflexivity. }
  pose proof (calls_in_offers _ _ _ _ _ HK RO FO H _ I) as IO.
  destruct (listing_files c HK t) as [P HP].
  destruct (session_files _ _ _ _ _ _ HK RO DS SUB HP H) as (ro & EO & NS & [_ ST] & OUT).
  destruct (stopsf ro) eqn:SR.
  2:{ exfalso. unfold no_endf in ST. rewrite Forall_forall in ST. apply ST in IO. cbn [snd] in IO. congruence. }
  destruct ST as (L0 & y & EL & EY & NE).
  assert ((n, CErr e) = y) by (eapply (in_split_last _ (fun z => is_end_files (snd z))); eassumption). subst y.
  split.
  - destruct (calls_of_last _ _ _ _ _ _ _ _ HK RO FO H EL IE) as (pre & E & _). exists pre. exact E.
  - destruct ro as [[b [e'|]]|p|]; cbn in SR, OUT; try discriminate; try contradiction.
    + destruct OUT as ([(L1 & m & E1)|(A & L1 & m & p & E1)] & _); rewrite E1 in EL; apply app_inj_tail in EL;
        destruct EL as [_ EL]; inversion EL; subst; reflexivity.
    + destruct OUT as (_ & m & E1 & PM). rewrite E1 in EL. destruct L0 as [|z [|? ?]]; inversion EL.
Qed.

Lemma root_panic_escapes : exists c t p s,
  hooks_ok c /\ root_ok c t /\ default_skip c /\ plain c /\ session c false t = (Pan p, s).
Proof.
  set (c := with_client (answer "/r" (CPanic (PVal 1))) (base_cfg SubUniversal)).
  exists c, tree1, (PVal 1), (snd (session c false tree1)).
  split; [exact (base_hooks _)|]. split; [reflexivity|]. split; [intros ? ? ?; reflexivity|].
  split; [split; reflexivity|]. vm_compute. reflexivity.
Qed.

Lemma huge_depth_visits_nothing : exists c t s,
  hooks_ok c /\ root_ok c t /\ default_skip c /\ plain c /\ c_sub c = SubUniversal /\
  session c false t = (Ret None, s) /\ visited s = [].
Proof.
  set (c := with_depth (2 ^ 63) (base_cfg SubUniversal)).
  exists c, tree1, (snd (session c false tree1)).
  split; [exact (base_hooks _)|]. split; [reflexivity|]. split; [intros ? ? ?; reflexivity|].
  split; [split; reflexivity|]. split; [reflexivity|]. split; vm_compute; reflexivity.
Qed.
