(** Properties C40, C41, C58: hooks and notifications. *)
From Verif Require Import Base Paths Level Kernel Hooks Life SpecHooks HooksFacts.

(** *** C40 *)
(** [broadcast def ls] is what the hook's broadcaster makes of a function and
    listeners (any). All taps before all chains: the last tapped function, or the
    default, followed by the listeners in order of chaining. Missing: taps after
    chains, see below. *)
Theorem c40_tap_then_chain_partial : forall F C (broadcast : F -> list C -> F) def fs ls,
  hook_invoke broadcast (hook_run (map OpTap fs ++ map OpChain ls) (new_hook def)) =
  (match ls with [] => last fs def | _ => broadcast (last fs def) ls end).
Proof. exact tap_then_chain. Qed.
Print Assumptions c40_tap_then_chain_partial.

(** Refuted: a function tapped after a listener was chained is run without the
    listener. *)
Theorem c40_tap_drops_listeners_refuted : exists (tapped : sort_fn) (listener : sort_fn) (def : sort_fn),
  hook_invoke broadcast_sort (hook_run [OpChain listener; OpTap tapped] (new_hook def)) [] <>
  broadcast_sort tapped [listener] [].
Proof. exists (fun l => l), (fun _ => [File "x"]), (fun l => l). discriminate. Qed.
Print Assumptions c40_tap_drops_listeners_refuted.

(** The broadcasters run the function first, then the listeners in order, each on
    the result so far. *)
Theorem c40_broadcast_order : forall (def : read_fn) ls l p t,
  broadcast_read def [] p t = def p t /\
  broadcast_read def (ls ++ [l]) p t =
    (let r := broadcast_read def ls p t in l (fst r) (snd r) p t).
Proof. intros. split; [reflexivity|]. unfold broadcast_read. rewrite fold_left_app. reflexivity. Qed.
Print Assumptions c40_broadcast_order.
Theorem c40_broadcast_subpath_order : forall (def : subpath_fn) ls l tree keep n,
  broadcast_subpath def [] tree keep n = def tree keep n /\
  broadcast_subpath def (ls ++ [l]) tree keep n = l (broadcast_subpath def ls tree keep n) tree keep n.
Proof. intros. split; [reflexivity|]. unfold broadcast_subpath. rewrite fold_left_app. reflexivity. Qed.
Print Assumptions c40_broadcast_subpath_order.
Theorem c40_broadcast_status_order : forall (def : stat_fn) ls l t,
  broadcast_stat def [] t = def t /\ broadcast_stat def (ls ++ [l]) t = l (broadcast_stat def ls t) t.
Proof. intros. split; [reflexivity|]. unfold broadcast_stat. rewrite fold_left_app. reflexivity. Qed.
Print Assumptions c40_broadcast_status_order.
Theorem c40_broadcast_sort_order : forall (def : sort_fn) ls l es,
  broadcast_sort def [] es = def es /\ broadcast_sort def (ls ++ [l]) es = l (broadcast_sort def ls es).
Proof. intros. split; [reflexivity|]. unfold broadcast_sort. rewrite fold_left_app. reflexivity. Qed.
Print Assumptions c40_broadcast_sort_order.

Example c40_case : forall t0,
  hook_invoke broadcast_read (hook_run [OpTap (fun _ t => (fkids t, None)); OpChain (fun r e _ _ => (tl r, e)); OpChain (fun r e _ _ => (rev r, e))]
    (new_hook (fun _ _ => ([], None)))) "p"%string (FNode t0 true None None [File "a"; File "b"; File "c"]) = ([File "c"; File "b"], None).
Proof. reflexivity. Qed.

(** *** C58: what happens for every sequence of operations: with [fs] tapped
    before the first listener [l0] is chained and [ops] afterwards, the last
    function tapped in [ops] alone; if there is none, the last of [fs] followed by
    all the listeners. *)
Theorem c58_hook_meaning : forall F C (broadcast : F -> list C -> F) def fs l0 ops,
  hook_invoke broadcast (hook_run (map OpTap fs ++ OpChain l0 :: ops) (new_hook def)) =
  (match rev (taps_of ops) with
   | f :: _ => f
   | [] => broadcast (last fs def) (l0 :: chained_of ops)
   end).
Proof. exact hook_meaning. Qed.
Print Assumptions c58_hook_meaning.
Theorem c58_only_taps : forall F C (broadcast : F -> list C -> F) def fs,
  hook_invoke broadcast (hook_run (map OpTap fs) (new_hook def)) = last fs def.
Proof. exact only_taps. Qed.
Print Assumptions c58_only_taps.
Example c58_case : taps_of [OpChain 1; OpTap true; OpChain 2] = [true] /\ chained_of [OpChain 1; OpTap true; OpChain 2] = [1; 2].
Proof. split; reflexivity. Qed.

(** *** C41 *)
Theorem c41_dispatch_calls_handlers : forall H (ops : list (ctrl_op H)),
  run_dispatcher (ctrl_dispatch (ctrl_run ops new_ctrl)) = if muted_after ops then [] else handlers_of ops.
Proof. exact ctrl_calls. Qed.
Print Assumptions c41_dispatch_calls_handlers.
Theorem c41_mute_all : forall H (cs : controls H) k, run_dispatcher (ctrl_dispatch (controls_mute_all cs k)) = [].
Proof. exact mute_all_silent. Qed.
Print Assumptions c41_mute_all.

(** Refuted: after MuteAll and UnmuteAll the Wake notification is still muted. *)
Theorem c41_wake_stays_muted_refuted : forall H (cs : controls H),
  run_dispatcher (ctrl_dispatch (controls_unmute_all (controls_mute_all cs) NtWake)) = [].
Proof. reflexivity. Qed.
Print Assumptions c41_wake_stays_muted_refuted.
(** All the others are enabled. Missing: Wake. *)
Theorem c41_unmute_all_partial : forall H (cs : controls H) k, k <> NtWake ->
  cx_muted (controls_unmute_all (controls_mute_all cs) k) = false.
Proof. exact unmuted_others. Qed.
Print Assumptions c41_unmute_all_partial.

Example c41_case : run_dispatcher (ctrl_dispatch (ctrl_run [OpOn 1; OpMute; OpOn 2; OpUnmute; OpOn 3] new_ctrl)) = [1; 2; 3].
Proof. reflexivity. Qed.
