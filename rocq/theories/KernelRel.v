(** A big-step relational view of the (fuelled) traversal function of
    [Kernel.v], used by the proofs only, and its adequacy: with enough fuel the
    function computes exactly a derivation, hence never runs out of fuel. *)
From Verif Require Import Base Paths Level Kernel Spec.
From Coq Require Import Permutation.

Section Rel.
Variable c : cfg.
Variable tree : string.

Definition cargo_of (n0 : node) : contents := fst (fst (inspect c n0)).
Definition ents_of (n0 : node) : list fsnode := snd (fst (inspect c n0)).
Definition rerr_of (n0 : node) : option error := snd (inspect c n0).
Definition ext_of (n0 : node) (s : st) : node := extend c tree n0 (cargo_of n0) s.

Inductive run : node -> st -> outcome (bool * option error) -> st -> Prop :=
| run_denied : forall n s s1,
    descend c n s = (false, s1) -> run n s (Ret (true, None)) s1
| run_ok : forall n s s1 o n1 s2,
    descend c n s = (true, s1) -> body n s1 o n1 s2 -> run n s o (ascend n1 s2)

with body : node -> st -> outcome (bool * option error) -> node -> st -> Prop :=
| body_file_call : forall n0 s e n1 s1,
    c_sub c = SubFiles -> n_isdir n0 = false ->
    invoke c (ext_of n0 s) (cargo_of n0) s = (Ret e, n1, s1) ->
    body n0 s (Ret (false, e)) n1 s1
| body_file_pan : forall n0 s p n1 s1,
    c_sub c = SubFiles -> n_isdir n0 = false ->
    invoke c (ext_of n0 s) (cargo_of n0) s = (Pan p, n1, s1) ->
    body n0 s (Pan p) n1 s1
| body_files_ask : forall n0 s skip e,
    c_sub c = SubFiles -> n_isdir n0 = true ->
    c_ask c (ext_of n0 s) (cargo_of n0) (rerr_of n0) = (skip, e) ->
    (skip <> SkipNoneTraversal \/ rerr_of n0 <> None) ->
    body n0 s (Ret (true, e)) (ext_of n0 s) s
| body_files_travel : forall n0 s e o s1,
    c_sub c = SubFiles -> n_isdir n0 = true ->
    c_ask c (ext_of n0 s) (cargo_of n0) (rerr_of n0) = (SkipNoneTraversal, e) ->
    rerr_of n0 = None ->
    trav (ext_of n0 s) (ents_of n0) s o s1 ->
    body n0 s o (ext_of n0 s) s1
| body_call_err : forall n0 s e n1 s1,
    c_sub c <> SubFiles ->
    invoke c (ext_of n0 s) (cargo_of n0) s = (Ret (Some e), n1, s1) ->
    body n0 s (Ret (true, Some e)) n1 s1
| body_call_pan : forall n0 s p n1 s1,
    c_sub c <> SubFiles ->
    invoke c (ext_of n0 s) (cargo_of n0) s = (Pan p, n1, s1) ->
    body n0 s (Pan p) n1 s1
| body_ask_all : forall n0 s e n1 s1,
    c_sub c <> SubFiles ->
    invoke c (ext_of n0 s) (cargo_of n0) s = (Ret None, n1, s1) ->
    c_ask c n1 (cargo_of n0) (rerr_of n0) = (SkipAllTraversal, e) ->
    body n0 s (Ret (true, e)) n1 s1
| body_ask_dir : forall n0 s e n1 s1,
    c_sub c = SubUniversal ->
    invoke c (ext_of n0 s) (cargo_of n0) s = (Ret None, n1, s1) ->
    c_ask c n1 (cargo_of n0) (rerr_of n0) = (SkipDirTraversal, e) ->
    body n0 s (Ret (false, e)) n1 s1
| body_travel : forall n0 s skip e n1 s1 o s2,
    c_sub c <> SubFiles ->
    invoke c (ext_of n0 s) (cargo_of n0) s = (Ret None, n1, s1) ->
    c_ask c n1 (cargo_of n0) (rerr_of n0) = (skip, e) ->
    (skip = SkipNoneTraversal \/ (skip = SkipDirTraversal /\ c_sub c <> SubUniversal)) ->
    trav n1 (ents_of n0) s1 o s2 ->
    body n0 s o n1 s2

with trav : node -> list fsnode -> st -> outcome (bool * option error) -> st -> Prop :=
| trav_ret : forall n es s r s1,
    loop n 0 es s (Ret r) s1 -> trav n es s (Ret r) s1
| trav_rescue : forall n es s p s1 er,
    loop n 0 es s (Pan p) s1 ->
    er = rescue_error (c_rescue c (s_trace s1) p (saved_of c n s1)) ->
    trav n es s (Ret (false, Some er)) (emit (EvRescue (saved_of c n s1)) s1)

with loop : node -> nat -> list fsnode -> st -> outcome (bool * option error) -> st -> Prop :=
| loop_nil : forall n i s, loop n i [] s (Ret (true, None)) s
| loop_skipped : forall n i e es s er s1,
    run (child_node n i e) s (Ret (false, Some er)) s1 ->
    errors_is SkipDir er = true ->
    loop n i (e :: es) s (Ret (false, Some er)) s1
| loop_failed : forall n i e es s b er s1,
    run (child_node n i e) s (Ret (b, Some er)) s1 ->
    errors_is SkipDir er = false ->
    (b = true -> errors_is SkipAll er = false) ->
    loop n i (e :: es) s (Ret (true, Some er)) s1
| loop_pan : forall n i e es s p s1,
    run (child_node n i e) s (Pan p) s1 ->
    loop n i (e :: es) s (Pan p) s1
| loop_next : forall n i e es s b er s1 o s2,
    run (child_node n i e) s (Ret (b, er)) s1 ->
    match er with
    | None => True
    | Some er => b = true /\ (errors_is SkipDir er || errors_is SkipAll er = true)
    end ->
    loop n (S i) es s1 o s2 ->
    loop n i (e :: es) s o s2.

Scheme run_mut := Induction for run Sort Prop
  with body_mut := Induction for body Sort Prop
  with trav_mut := Induction for trav Sort Prop
  with loop_mut := Induction for loop Sort Prop.
Combined Scheme kernel_mut from run_mut, body_mut, trav_mut, loop_mut.

Lemma primary_not_stuck : forall p n k s o n1 s1,
  primary_next p n k s = (o, n1, s1) -> o <> Stuck.
Proof.
  intros p n k s o n1 s1 H.
  destruct p as [f|m]; cbn in H; unfold match_next, sampler_next in H.
  - destruct (f n) as [[|]|]; inversion H; discriminate.
  - destruct (scope_is_tree (n_scope n)); [|inversion H; discriminate].
    destruct k as [[fs ds]|]; inversion H; discriminate.
Qed.

Lemma nanny_scheme_not_stuck : forall m n k s o n1 s1,
  nanny_scheme_next c m n k s = (o, n1, s1) -> o <> Stuck.
Proof.
  unfold nanny_scheme_next; intros m n k s o n1 s1 H.
  destruct k as [[fs ds]|]; [destruct (m (c_sort c fs))|]; inversion H; discriminate.
Qed.

Lemma link_next_not_stuck : forall r n k s o n1 s1,
  link_next c r n k s = (o, n1, s1) -> o <> Stuck.
Proof.
  intros r n k s o n1 s1 H.
  destruct r; cbn [link_next] in H.
  - inversion H; discriminate.
  - unfold anchor_next in H. destruct (c_client c _ n); inversion H; discriminate.
  - unfold filter_next in H. destruct (c_scheme c) as [[[p|] [m|]]|]; cbn in H.
    + destruct (primary_next p n k s) as [[po pn] ps] eqn:P.
      pose proof (primary_not_stuck _ _ _ _ _ _ _ P) as NS.
      destruct po as [[[|] e]|q|]; try (inversion H; discriminate); [|congruence].
      destruct (nanny_scheme_next c m pn k ps) as [[no nn] ns] eqn:N.
      pose proof (nanny_scheme_not_stuck _ _ _ _ _ _ _ N) as NS2.
      destruct no as [[b e2]|q|]; try (inversion H; discriminate). congruence.
    + eapply primary_not_stuck; eassumption.
    + eapply nanny_scheme_not_stuck; eassumption.
    + inversion H; discriminate.
    + inversion H; discriminate.
  - unfold hib_next in H. destruct (c_hib c) as [h|]; [|inversion H; discriminate].
    destruct (s_hib s).
    + destruct (hb_wake h n) as [[|]|]; [destruct (hb_incl_wake h)| |]; inversion H; discriminate.
    + destruct (hb_sleep h n) as [[|]|]; [destruct (hb_incl_sleep h)| |]; inversion H; discriminate.
    + inversion H; discriminate.
  - inversion H; discriminate.
  - unfold nanny_next in H. destruct k as [[fs ds]|]; inversion H; discriminate.
  - unfold fast_next in H. destruct (c_fast c) as [f|]; [|inversion H; discriminate].
    unfold fast_match in H. destruct (String.eqb (n_name n) (fw_name f)).
    + destruct (n_parent n) as [p|]; [|inversion H; discriminate].
      destruct (String.eqb (n_path p) (fw_parent f) || String.eqb (fw_parent f) ".");
        inversion H; discriminate.
    + inversion H; discriminate.
Qed.

Lemma iterate_not_stuck : forall rs n k s o n1 s1,
  iterate c rs n k s = (o, n1, s1) -> o <> Stuck.
Proof.
  induction rs as [|r rs IH]; cbn [iterate]; intros n k s o n1 s1 H.
  - inversion H; subst; discriminate.
  - destruct (link_next c r n k s) as [[lo ln] ls] eqn:L.
    pose proof (link_next_not_stuck _ _ _ _ _ _ _ L) as NS.
    destruct lo as [[[|] [er|]]|p|]; try (inversion H; subst; discriminate);
      try (eapply IH; eassumption); congruence.
Qed.

Lemma invoke_not_stuck : forall n k s o n1 s1,
  invoke c n k s = (o, n1, s1) -> o <> Stuck.
Proof.
  unfold invoke; intros n k s o n1 s1 H.
  destruct (iterate c (s_items s) n k s) as [[io inn] is_] eqn:I.
  inversion H; subst. eapply iterate_not_stuck; eassumption.
Qed.

Lemma ext_of_isdir : forall n s, n_isdir (ext_of n s) = n_isdir n.
Proof.
  intros n s. unfold ext_of, extend.
  destruct (split_path (n_path n)). reflexivity.
Qed.

Definition adequate (tv : node -> st -> tres) (n : node) : Prop :=
  forall s o s1, tv n s = (o, s1) -> o <> Stuck /\ run n s o s1.

Lemma travel_loop_adequate : forall (tv : node -> st -> tres) n es i s o s1,
  (forall j e, In e es -> adequate tv (child_node n j e)) ->
  travel_loop tv n i es s = (o, s1) -> o <> Stuck /\ loop n i es s o s1.
Proof.
  intros tv n es; induction es as [|e es IH]; cbn [travel_loop]; intros i s o s1 Hall H.
  - inversion H; subst; split; [discriminate|constructor].
  - destruct (tv (child_node n i e) s) as [ro s'] eqn:R.
    destruct (Hall i e (or_introl eq_refl) _ _ _ R) as [NS HR].
    assert (Hall' : forall j e0, In e0 es -> adequate tv (child_node n j e0))
      by (intros j e0 Hin; apply Hall; right; exact Hin).
    destruct ro as [[[|] [er|]]|p|].
    + destruct (errors_is SkipDir er) eqn:D.
      * destruct (IH _ _ _ _ Hall' H) as [A B]. split; [exact A|].
        eapply loop_next; [exact HR| |exact B]. cbn. rewrite D. split; reflexivity.
      * destruct (errors_is SkipAll er) eqn:A0.
        -- destruct (IH _ _ _ _ Hall' H) as [A B]. split; [exact A|].
           eapply loop_next; [exact HR| |exact B]. cbn. rewrite A0, orb_true_r.
           split; reflexivity.
        -- inversion H; subst; split; [discriminate|].
           eapply loop_failed; eauto.
    + destruct (IH _ _ _ _ Hall' H) as [A B]. split; [exact A|].
      eapply loop_next; [exact HR|exact I|exact B].
    + destruct (errors_is SkipDir er) eqn:D; inversion H; subst; (split; [discriminate|]).
      * eapply loop_skipped; eauto.
      * eapply loop_failed; eauto. discriminate.
    + destruct (IH _ _ _ _ Hall' H) as [A B]. split; [exact A|].
      eapply loop_next; [exact HR|exact I|exact B].
    + inversion H; subst; split; [discriminate|]. eapply loop_pan; eauto.
    + congruence.
Qed.

Lemma travel_adequate : forall (tv : node -> st -> tres) n es s o s1,
  (forall j e, In e es -> adequate tv (child_node n j e)) ->
  travel c tv n es s = (o, s1) -> o <> Stuck /\ trav n es s o s1.
Proof.
  unfold travel; intros tv n es s o s1 Hall H.
  destruct (travel_loop tv n 0 es s) as [lo ls] eqn:L.
  destruct (travel_loop_adequate _ _ _ _ _ _ _ Hall L) as [NS HL].
  destruct lo as [r|p|].
  - inversion H; subst; split; [discriminate|constructor; exact HL].
  - destruct (c_rescue c (s_trace ls) p (saved_of c n ls)) eqn:RS;
      inversion H; subst; (split; [discriminate|]);
      (eapply trav_rescue; [exact HL|rewrite RS; reflexivity]).
  - congruence.
Qed.

Lemma body_adequate : forall (tv : node -> st -> tres) n0 s o n1 s1,
  (forall n j e, In e (ents_of n0) -> adequate tv (child_node n j e)) ->
  traverse_body c tv tree n0 s = (o, n1, s1) -> o <> Stuck /\ body n0 s o n1 s1.
Proof.
  intros tv n0 s o n1 s1 Hall H. unfold traverse_body in H.
  destruct (inspect c n0) as [[cargo es] err] eqn:INS.
  assert (EC : cargo_of n0 = cargo) by (unfold cargo_of; rewrite INS; reflexivity).
  assert (EE : ents_of n0 = es) by (unfold ents_of; rewrite INS; reflexivity).
  assert (ER : rerr_of n0 = err) by (unfold rerr_of; rewrite INS; reflexivity).
  assert (EX : ext_of n0 s = extend c tree n0 cargo s) by (unfold ext_of; rewrite EC; reflexivity).
  cbn zeta in H. rewrite <- EX in H.
  assert (ID : n_isdir (ext_of n0 s) = n_isdir n0) by apply ext_of_isdir.
  subst cargo es err.
  destruct (c_sub c) eqn:SUB.
  - (* files *)
    rewrite ID in H. destruct (n_isdir n0) eqn:D.
    + destruct (c_ask c (ext_of n0 s) (cargo_of n0) (rerr_of n0)) as [skip e] eqn:ASK.
      destruct skip.
      * destruct (rerr_of n0) as [re|] eqn:RE.
        -- inversion H; subst; split; [discriminate|].
           eapply body_files_ask; [exact SUB|exact D|rewrite RE; exact ASK|].
           right; rewrite RE; discriminate.
        -- apply with_node_inv in H; destruct H as [-> TV]; destruct (travel_adequate _ _ _ _ _ _ (Hall _) TV) as [A B]. split; [exact A|].
           eapply body_files_travel; [exact SUB|exact D|rewrite RE; exact ASK|exact RE|exact B].
      * destruct (rerr_of n0) as [re|] eqn:RE;
          (inversion H; subst; split; [discriminate|];
           eapply body_files_ask; [exact SUB|exact D|rewrite RE; exact ASK|left; discriminate]).
      * destruct (rerr_of n0) as [re|] eqn:RE;
          (inversion H; subst; split; [discriminate|];
           eapply body_files_ask; [exact SUB|exact D|rewrite RE; exact ASK|left; discriminate]).
    + destruct (invoke c (ext_of n0 s) (cargo_of n0) s) as [[io inn] is_] eqn:INV.
      pose proof (invoke_not_stuck _ _ _ _ _ _ INV) as NS.
      destruct io; [| |congruence]; inversion H; subst; (split; [discriminate|]).
      * eapply body_file_call; eauto.
      * eapply body_file_pan; eauto.
  - (* directories *)
    assert (NF : c_sub c <> SubFiles) by (rewrite SUB; discriminate).
    assert (NU : c_sub c <> SubUniversal) by (rewrite SUB; discriminate).
    destruct (invoke c (ext_of n0 s) (cargo_of n0) s) as [[io inn] is_] eqn:INV.
    pose proof (invoke_not_stuck _ _ _ _ _ _ INV) as NS.
    destruct io as [[e|]|p|].
    + inversion H; subst; split; [discriminate|]. eapply body_call_err; eauto.
    + destruct (c_ask c inn (cargo_of n0) (rerr_of n0)) as [skip e] eqn:ASK.
      destruct skip.
      * apply with_node_inv in H; destruct H as [-> TV]; destruct (travel_adequate _ _ _ _ _ _ (Hall _) TV) as [A B]. split; [exact A|].
        eapply body_travel; eauto.
      * apply with_node_inv in H; destruct H as [-> TV]; destruct (travel_adequate _ _ _ _ _ _ (Hall _) TV) as [A B]. split; [exact A|].
        eapply body_travel; eauto.
      * inversion H; subst; split; [discriminate|]. eapply body_ask_all; eauto.
    + inversion H; subst; split; [discriminate|]. eapply body_call_pan; eauto.
    + congruence.
  - assert (NF : c_sub c <> SubFiles) by (rewrite SUB; discriminate).
    assert (NU : c_sub c <> SubUniversal) by (rewrite SUB; discriminate).
    destruct (invoke c (ext_of n0 s) (cargo_of n0) s) as [[io inn] is_] eqn:INV.
    pose proof (invoke_not_stuck _ _ _ _ _ _ INV) as NS.
    destruct io as [[e|]|p|].
    + inversion H; subst; split; [discriminate|]. eapply body_call_err; eauto.
    + destruct (c_ask c inn (cargo_of n0) (rerr_of n0)) as [skip e] eqn:ASK.
      destruct skip.
      * apply with_node_inv in H; destruct H as [-> TV]; destruct (travel_adequate _ _ _ _ _ _ (Hall _) TV) as [A B]. split; [exact A|].
        eapply body_travel; eauto.
      * apply with_node_inv in H; destruct H as [-> TV]; destruct (travel_adequate _ _ _ _ _ _ (Hall _) TV) as [A B]. split; [exact A|].
        eapply body_travel; eauto.
      * inversion H; subst; split; [discriminate|]. eapply body_ask_all; eauto.
    + inversion H; subst; split; [discriminate|]. eapply body_call_pan; eauto.
    + congruence.
  - assert (NF : c_sub c <> SubFiles) by (rewrite SUB; discriminate).
    destruct (invoke c (ext_of n0 s) (cargo_of n0) s) as [[io inn] is_] eqn:INV.
    pose proof (invoke_not_stuck _ _ _ _ _ _ INV) as NS.
    destruct io as [[e|]|p|].
    + inversion H; subst; split; [discriminate|]. eapply body_call_err; eauto.
    + destruct (c_ask c inn (cargo_of n0) (rerr_of n0)) as [skip e] eqn:ASK.
      destruct skip.
      * apply with_node_inv in H; destruct H as [-> TV]; destruct (travel_adequate _ _ _ _ _ _ (Hall _) TV) as [A B]. split; [exact A|].
        eapply body_travel; eauto.
      * inversion H; subst; split; [discriminate|]. eapply body_ask_dir; eauto.
      * inversion H; subst; split; [discriminate|]. eapply body_ask_all; eauto.
    + inversion H; subst; split; [discriminate|]. eapply body_call_pan; eauto.
    + congruence.
Qed.

Lemma ents_in_kids : hooks_ok c -> forall n e, In e (ents_of n) -> In e (fkids (n_src n)).
Proof.
  intros [HR HS] n e H. unfold ents_of, inspect in H.
  assert (S1 : forall l x, In x (c_sort c l) -> In x l)
    by (intros l x Hx; eapply Permutation_in; [apply HS|exact Hx]).
  unfold read_contents in H.
  destruct (c_read c (n_path n) (n_src n)) as [es err] eqn:RD.
  assert (RK : forall x, In x es -> In x (fkids (n_src n))).
  { intros x Hx. apply (HR (n_path n)). rewrite RD. exact Hx. }
  assert (FO : forall x, In x (c_sort c (files_of es)) -> In x (fkids (n_src n))).
  { intros x Hx. apply S1 in Hx. apply filter_In in Hx. apply RK, Hx. }
  assert (DO : forall x, In x (c_sort c (dirs_of es)) -> In x (fkids (n_src n))).
  { intros x Hx. apply S1 in Hx. apply filter_In in Hx. apply RK, Hx. }
  destruct (c_sub c); cbn in H; auto.
  - destruct (n_isdir n); cbn in H; [|contradiction].
    unfold all_of in H; destruct (c_files_first c); apply in_app_or in H; destruct H; auto.
  - destruct (n_isdir n); cbn in H; [|contradiction].
    unfold all_of in H; destruct (c_files_first c); apply in_app_or in H; destruct H; auto.
Qed.

Lemma height_kid : forall t e, In e (fkids t) -> height e < height t.
Proof.
  intros [nm d i r ks] e; cbn [fkids height]. intro H.
  induction ks as [|k ks IH]; cbn in *; [contradiction|].
  destruct H as [->|H]; [lia|]. specialize (IH H). lia.
Qed.

Theorem traverse_adequate : hooks_ok c -> forall fuel n,
  height (n_src n) <= fuel -> adequate (traverse fuel c tree) n.
Proof.
  intro HK. induction fuel as [|f IH]; intros n HH s o s1 H.
  - destruct (n_src n); cbn in HH; lia.
  - cbn [traverse] in H. destruct (descend c n s) as [ok s'] eqn:DSC.
    destruct ok.
    + destruct (traverse_body c (traverse f c tree) tree n s') as [[bo bn] bs] eqn:B.
      inversion H; subst.
      assert (HB : o <> Stuck /\ body n s' o bn bs).
      { eapply body_adequate; [|exact B]. intros m j e Hin. apply IH.
        cbn. apply ents_in_kids in Hin; [|exact HK]. apply height_kid in Hin. lia. }
      destruct HB as [A C]. split; [exact A|]. eapply run_ok; eauto.
    + inversion H; subst. split; [discriminate|]. eapply run_denied; eauto.
Qed.
End Rel.

(** Top of the traversal. *)
Theorem top_adequate : forall c tree t s o s1,
  hooks_ok c -> c_stat c t = None ->
  top c tree t s = (o, s1) ->
  exists ro, run c tree (new_node tree t None None []) s ro s1 /\
    ((exists b e, ro = Ret (b, e) /\ o = Ret e) \/ (exists p, ro = Pan p /\ o = Pan p)).
Proof.
  unfold top; intros c tree t s o s1 HK ST H. rewrite ST in H.
  destruct (traverse (S (height t)) c tree (new_node tree t None None []) s) as [ro rs] eqn:T.
  destruct (traverse_adequate c tree HK (S (height t)) (new_node tree t None None [])
             (Nat.le_succ_diag_r _) _ _ _ T) as [NS R].
  destruct ro as [[b e]|p|]; [| |congruence]; inversion H; subst.
  - exists (Ret (b, e)). split; [exact R|]. left; eauto.
  - exists (Pan p). split; [exact R|]. right; eauto.
Qed.
