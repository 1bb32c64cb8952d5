(** Life cycle notifications: life/events.go. No proofs here. *)
From Verif Require Import Base.

Section Ctrl.
Variable H : Type.
(** The function held by the dispatcher: the nop, a handler, or the closure made
    by a broadcaster over the listeners given to it (events.go:129-168). *)
Inductive dispatcher := DispNop | DispOne (h : H) | DispAll (l : list dispatcher).
(** events.go:11-17 (NotificationCtrl) *)
Record ctrl := mkCtrl {
  cx_invoke : dispatcher;
  cx_subscribed : bool;
  cx_listeners : option (list dispatcher);
  cx_muted : bool
}.
(** events.go:43-53 *)
Definition new_ctrl : ctrl := mkCtrl DispNop false None false.
(** events.go:94-111 (On) *)
Definition ctrl_on (h : H) (c : ctrl) : ctrl :=
  if cx_subscribed c then
    let ls := match cx_listeners c with None => [cx_invoke c] | Some l => l end ++ [DispOne h] in
    mkCtrl (DispAll ls) true (Some ls) (cx_muted c)
  else mkCtrl (DispOne h) true (cx_listeners c) (cx_muted c).
(** events.go:121-127 *)
Definition ctrl_mute (b : bool) (c : ctrl) : ctrl :=
  mkCtrl (cx_invoke c) (cx_subscribed c) (cx_listeners c) b.
(** events.go:113-119 (Dispatch) *)
Definition ctrl_dispatch (c : ctrl) : dispatcher := if cx_muted c then DispNop else cx_invoke c.
(** Calling the dispatched function: the handlers called, in order. *)
Fixpoint run_dispatcher (d : dispatcher) : list H :=
  match d with
  | DispNop => []
  | DispOne h => [h]
  | DispAll l => flat_map run_dispatcher l
  end.

Inductive ctrl_op := OpOn (h : H) | OpMute | OpUnmute.
Definition ctrl_step (op : ctrl_op) (c : ctrl) : ctrl :=
  match op with OpOn h => ctrl_on h c | OpMute => ctrl_mute true c | OpUnmute => ctrl_mute false c end.
Definition ctrl_run (ops : list ctrl_op) (c : ctrl) : ctrl := fold_left (fun c op => ctrl_step op c) ops c.
End Ctrl.
Arguments DispNop {H}.
Arguments DispOne {H} h.
Arguments DispAll {H} l.
Arguments mkCtrl {H}.
Arguments cx_invoke {H} c.
Arguments cx_subscribed {H} c.
Arguments cx_listeners {H} c.
Arguments cx_muted {H} c.
Arguments new_ctrl {H}.
Arguments ctrl_on {H} h c.
Arguments ctrl_mute {H} b c.
Arguments ctrl_dispatch {H} c.
Arguments run_dispatcher {H} d.
Arguments OpOn {H} h.
Arguments OpMute {H}.
Arguments OpUnmute {H}.
Arguments ctrl_step {H} op c.
Arguments ctrl_run {H} ops c.

(** The six notifications (events.go:33-40). *)
Inductive notice := NtAscend | NtBegin | NtDescend | NtEnd | NtWake | NtSleep.
(** events.go:33-40, 55-64 (Controls). Simplified: handlers of every
    notification have one type (here: a name for the handler). *)
Definition controls (H : Type) : Type := notice -> ctrl H.
Definition new_controls {H} : controls H := fun _ => new_ctrl.
Definition notice_eqb (a b : notice) : bool :=
  match a, b with
  | NtAscend, NtAscend | NtBegin, NtBegin | NtDescend, NtDescend | NtEnd, NtEnd
  | NtWake, NtWake | NtSleep, NtSleep => true
  | _, _ => false
  end.
Definition update {H} (k : notice) (f : ctrl H -> ctrl H) (cs : controls H) : controls H :=
  fun j => if notice_eqb j k then f (cs j) else cs j.
(** events.go:66-73 *)
Definition controls_mute_all {H} (cs : controls H) : controls H :=
  fold_left (fun cs k => update k (ctrl_mute true) cs)
    [NtAscend; NtBegin; NtDescend; NtEnd; NtWake; NtSleep] cs.
(** events.go:75-81 *)
Definition controls_unmute_all {H} (cs : controls H) : controls H :=
  fold_left (fun cs k => update k (ctrl_mute false) cs)
    [NtAscend; NtBegin; NtDescend; NtEnd; NtSleep] cs.
