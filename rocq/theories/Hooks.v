(** Tappable hooks: tapable/hooks.go, tapable/broadcasters.go. No proofs here. *)
From Verif Require Import Base Kernel.

Section Hook.
Variables F C : Type.
(** The handler of a hook: a function given by Default or Tap, or the closure
    made by attach (broadcasters.go), which runs the function and then the listeners which the hook
    has when the closure is called. *)
Inductive handler := Direct (f : F) | Attached (f : F).
(** hooks.go:30-36 (HookCtrl); the broadcaster is the argument of [hook_invoke] *)
Record hook := mkHook { hk_handler : handler; hk_default : F; hk_listeners : list C }.

(** hooks.go:83-99 (NewHookCtrl) *)
Definition new_hook (def : F) : hook := mkHook (Direct def) def [].
(** hooks.go:101-103 (Tap) *)
Definition hook_tap (f : F) (h : hook) : hook := mkHook (Direct f) (hk_default h) (hk_listeners h).
(** hooks.go:105-114 (Chain): attaches only when there is no listener yet. The handler attached at
    that time is a direct one: a closure is made by Chain only, after which there
    is a listener for ever. *)
Definition hook_chain (l : C) (h : hook) : hook :=
  match hk_listeners h with
  | [] => mkHook (match hk_handler h with Direct f => Attached f | a => a end) (hk_default h) [l]
  | ls => mkHook (hk_handler h) (hk_default h) (ls ++ [l])
  end.
(** hooks.go:120-122 (Invoke), with the attach functions of broadcasters.go
    (29-37, 58-66, 87-95, 114-121) *)
Definition hook_invoke (broadcast : F -> list C -> F) (h : hook) : F :=
  match hk_handler h with
  | Direct f => f
  | Attached f => broadcast f (hk_listeners h)
  end.

(** Client operations *)
Inductive hook_op := OpTap (f : F) | OpChain (l : C).
Definition hook_step (op : hook_op) (h : hook) : hook :=
  match op with OpTap f => hook_tap f h | OpChain l => hook_chain l h end.
Definition hook_run (ops : list hook_op) (h : hook) : hook := fold_left (fun h op => hook_step op h) ops h.
End Hook.
Arguments Direct {F} f.
Arguments Attached {F} f.
Arguments mkHook {F C}.
Arguments hk_handler {F C} h.
Arguments hk_default {F C} h.
Arguments hk_listeners {F C} h.
Arguments new_hook {F C} def.
Arguments hook_tap {F C} f h.
Arguments hook_chain {F C} l h.
Arguments hook_invoke {F C} broadcast h.
Arguments OpTap {F C} f.
Arguments OpChain {F C} l.
Arguments hook_step {F C} op h.
Arguments hook_run {F C} ops h.

(** The hook functions: core/hooks.go *)
Definition subpath_fn : Type := string -> bool -> node -> string.
Definition subpath_listener : Type := string -> string -> bool -> node -> string.
Definition read_fn : Type := string -> fsnode -> list fsnode * option error.
Definition read_listener : Type := list fsnode -> option error -> string -> fsnode -> list fsnode * option error.
Definition stat_fn : Type := fsnode -> option error.
Definition stat_listener : Type := option error -> fsnode -> option error.
Definition sort_fn : Type := list fsnode -> list fsnode.

(** broadcasters.go:15-27, 44-56, 73-85, 102-112 (GetSubPathBroadcaster, GetReadDirectoryBroadcaster,
    GetQueryStatusBroadcaster, GetSortBroadcaster) *)
Definition broadcast_subpath (def : subpath_fn) (ls : list subpath_listener) : subpath_fn :=
  fun tree keep n => fold_left (fun r l => l r tree keep n) ls (def tree keep n).
Definition broadcast_read (def : read_fn) (ls : list read_listener) : read_fn :=
  fun p t => fold_left (fun r l => l (fst r) (snd r) p t) ls (def p t).
Definition broadcast_stat (def : stat_fn) (ls : list stat_listener) : stat_fn :=
  fun t => fold_left (fun r l => l r t) ls (def t).
Definition broadcast_sort (def : sort_fn) (ls : list sort_fn) : sort_fn :=
  fun es => fold_left (fun r l => l r) ls (def es).
