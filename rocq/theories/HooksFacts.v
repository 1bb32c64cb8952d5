(** Facts about hooks and notifications. *)
From Verif Require Import Base Kernel Hooks Life SpecHooks.

Section HookFacts.
Variables F C : Type.
Implicit Types (h : hook F C) (ops : list (hook_op F C)).

Lemma run_app : forall ops1 ops2 h, hook_run (ops1 ++ ops2) h = hook_run ops2 (hook_run ops1 h).
Proof. intros. unfold hook_run. apply fold_left_app. Qed.

Lemma run_taps : forall fs h, hook_run (map OpTap fs) h =
  mkHook (match rev fs with f :: _ => Direct f | [] => hk_handler h end) (hk_default h) (hk_listeners h).
Proof.
  intros fs. induction fs as [|f fs IH] using rev_ind; intro h; [destruct h; reflexivity|].
  rewrite map_app, run_app. cbn. rewrite rev_app_distr. cbn. unfold hook_tap. rewrite IH. reflexivity.
Qed.

Lemma run_chains : forall ls h f, hk_handler h = Direct f -> hk_listeners h = [] -> ls <> [] ->
  hook_run (map OpChain ls) h = mkHook (Attached f) (hk_default h) ls.
Proof.
  intros ls. induction ls as [|l ls IH] using rev_ind; intros h f E1 E2 N; [contradiction|].
  rewrite map_app, run_app. cbn. destruct ls as [|l0 ls'].
  - cbn. unfold hook_chain. rewrite E1, E2. reflexivity.
  - rewrite (IH h f) by (assumption || discriminate). unfold hook_chain. cbn. reflexivity.
Qed.

Variable broadcast : F -> list C -> F.

Lemma tap_then_chain : forall def fs ls,
  hook_invoke broadcast (hook_run (map OpTap fs ++ map OpChain ls) (new_hook def)) =
  (match ls with [] => last fs def | _ => broadcast (last fs def) ls end).
Proof.
  intros def fs ls. rewrite run_app, run_taps. cbn [hk_handler new_hook hk_default hk_listeners].
  assert (E : last fs def = match rev fs with f :: _ => f | [] => def end).
  { destruct fs as [|f fs] using rev_ind; [reflexivity|]. rewrite last_last, rev_app_distr. reflexivity. }
  rewrite E. destruct ls as [|l ls].
  - cbn. destruct (rev fs); reflexivity.
  - rewrite (run_chains (l :: ls) _ (match rev fs with f :: _ => f | [] => def end)); try discriminate; try reflexivity.
    cbn. destruct (rev fs); reflexivity.
Qed.

(** after some listener has been chained, the last tap (if any) is all that is run *)
Lemma chained_inv : forall ops h, hk_listeners h <> [] ->
  hk_listeners (hook_run ops h) = hk_listeners h ++ chained_of ops /\
  hk_handler (hook_run ops h) = (match rev (taps_of ops) with f :: _ => Direct f | [] => hk_handler h end).
Proof.
  intros ops. induction ops as [|op ops IH] using rev_ind; intros h N.
  - cbn. rewrite app_nil_r. auto.
  - rewrite run_app. destruct (IH h N) as [E1 E2]. destruct op as [f|l]; cbn.
    + unfold taps_of, chained_of. rewrite !flat_map_app. cbn. rewrite rev_app_distr, app_nil_r. cbn. rewrite E1. auto.
    + unfold hook_chain. destruct (hk_listeners (hook_run ops h)) as [|x r] eqn:E.
      * destruct (hk_listeners h); [contradiction|discriminate].
      * cbn. unfold taps_of, chained_of. rewrite !flat_map_app. cbn. rewrite app_nil_r, app_assoc.
        fold (chained_of ops). fold (taps_of ops). rewrite <- E1. rewrite E2. auto.
Qed.

Lemma hook_meaning : forall def fs l0 ops,
  hook_invoke broadcast (hook_run (map OpTap fs ++ OpChain l0 :: ops) (new_hook def)) =
  (match rev (taps_of ops) with
   | f :: _ => f
   | [] => broadcast (last fs def) (l0 :: chained_of ops)
   end).
Proof.
  intros def fs l0 ops. rewrite run_app, run_taps. cbn [hk_handler new_hook hk_default hk_listeners].
  assert (E : last fs def = match rev fs with f :: _ => f | [] => def end).
  { destruct fs as [|f fs] using rev_ind; [reflexivity|]. rewrite last_last, rev_app_distr. reflexivity. }
  rewrite E. cbn [hook_run fold_left hook_step].
  set (h1 := hook_chain l0 _).
  assert (L1 : hk_listeners h1 = [l0]) by reflexivity.
  assert (H1 : hk_handler h1 = Attached (match rev fs with f :: _ => f | [] => def end))
    by (unfold h1; cbn; destruct (rev fs); reflexivity).
  destruct (chained_inv ops h1) as [A B]; [rewrite L1; discriminate|].
  change (fold_left _ ops h1) with (hook_run ops h1).
  unfold hook_invoke. rewrite B, A, L1. destruct (rev (taps_of ops)); [|reflexivity].
  rewrite H1. reflexivity.
Qed.
End HookFacts.

(** ** Notifications *)
Section CtrlFacts.
Variable H : Type.
Lemma run_snoc : forall ops op (c : ctrl H), ctrl_run (ops ++ [op]) c = ctrl_step op (ctrl_run ops c).
Proof. intros. unfold ctrl_run. rewrite fold_left_app. reflexivity. Qed.

Lemma ctrl_inv : forall ops, let c := ctrl_run ops (@new_ctrl H) in
  run_dispatcher (cx_invoke c) = handlers_of ops /\
  cx_muted c = muted_after ops /\
  (cx_subscribed c = false -> handlers_of ops = [] /\ cx_listeners c = None) /\
  (forall l, cx_listeners c = Some l -> flat_map run_dispatcher l = handlers_of ops).
Proof.
  intros ops. cbn zeta. induction ops as [|op ops (A & M & S & L)] using rev_ind.
  - cbn. repeat split; auto. intros l E. discriminate.
  - rewrite run_snoc. set (c := ctrl_run ops new_ctrl) in *.
    unfold handlers_of, muted_after. rewrite flat_map_app, fold_left_app.
    fold (handlers_of ops). fold (muted_after ops). cbn [flat_map fold_left]. destruct op as [h| |]; cbn [ctrl_step].
    + unfold ctrl_on. destruct (cx_subscribed c) eqn:SU; cbn [cx_invoke cx_muted cx_subscribed cx_listeners].
      * assert (E : flat_map run_dispatcher (match cx_listeners c with None => [cx_invoke c] | Some l => l end) = handlers_of ops).
        { destruct (cx_listeners c) as [l|]; [apply L; reflexivity|]. cbn. rewrite app_nil_r. exact A. }
        split; [|split; [exact M|split; [discriminate|]]].
        -- cbn [run_dispatcher]. rewrite flat_map_app, E. reflexivity.
        -- intros l X. inversion X; subst. rewrite flat_map_app, E. reflexivity.
      * destruct (S eq_refl) as [E LN]. rewrite E. split; [reflexivity|]. split; [exact M|]. split; [discriminate|].
        rewrite LN. discriminate.
    + rewrite app_nil_r. cbn. auto.
    + rewrite app_nil_r. cbn. auto.
Qed.

Lemma ctrl_calls : forall ops,
  run_dispatcher (ctrl_dispatch (ctrl_run ops (@new_ctrl H))) = if muted_after ops then [] else handlers_of ops.
Proof.
  intros ops. destruct (ctrl_inv ops) as (A & M & _). unfold ctrl_dispatch. rewrite M.
  destruct (muted_after ops); [reflexivity|exact A].
Qed.
End CtrlFacts.

Lemma mute_unmute_all : forall H (cs : controls H) k,
  cx_muted (controls_unmute_all (controls_mute_all cs) k) = (match k with NtWake => true | _ => false end).
Proof. intros H cs []; reflexivity. Qed.
Lemma mute_all_silent : forall H (cs : controls H) k, run_dispatcher (ctrl_dispatch (controls_mute_all cs k)) = [].
Proof. intros H cs []; reflexivity. Qed.
Lemma unmuted_others : forall H (cs : controls H) k, k <> NtWake ->
  cx_muted (controls_unmute_all (controls_mute_all cs) k) = false.
Proof. intros H cs [] N; try reflexivity. contradiction. Qed.
Lemma only_taps : forall F C (broadcast : F -> list C -> F) def fs,
  hook_invoke broadcast (hook_run (map OpTap fs) (new_hook def)) = last fs def.
Proof. intros. rewrite <- (app_nil_r (map OpTap fs)). apply (tap_then_chain F C broadcast def fs []). Qed.
