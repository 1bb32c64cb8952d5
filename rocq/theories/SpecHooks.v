(** Specification vocabulary for hooks and notifications: what the client did. *)
From Verif Require Import Base Hooks Life.

(** The functions tapped, in order; the listeners chained, in order. *)
Definition taps_of {F C} (ops : list (hook_op F C)) : list F :=
  flat_map (fun op => match op with OpTap f => [f] | OpChain _ => [] end) ops.
Definition chained_of {F C} (ops : list (hook_op F C)) : list C :=
  flat_map (fun op => match op with OpTap _ => [] | OpChain l => [l] end) ops.

(** The handlers registered, in order; whether the last of the mute and unmute
    operations was a mute. *)
Definition handlers_of {H} (ops : list (ctrl_op H)) : list H :=
  flat_map (fun op => match op with OpOn h => [h] | _ => [] end) ops.
Definition muted_after {H} (ops : list (ctrl_op H)) : bool :=
  fold_left (fun b op => match op with OpMute => true | OpUnmute => false | OpOn _ => b end) ops false.
