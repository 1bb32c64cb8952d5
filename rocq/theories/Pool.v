(** The concurrent navigator: synchronise.go:44-119 (Run), as a system of the
    navigator, the input channel, the pool's reader of that channel and its
    workers, moving in any order. No proofs here.

    The pool is github.com/snivilised/pants, not in the repository. Assumed of
    it: Source makes a channel of the given size and a reader which takes one
    input at a time from it and hands it to a worker as soon as one is idle;
    there are at most as many workers as asked for; a worker runs the function
    given to the pool on its input, once. What Release does with inputs no worker has
    begun is not assumed: [draining] says whether they are still worked on.
    The callback always returns; its context is not cancelled. Without outputs
    (Concurrency.Output.On nil); for those see Output.v. *)
From Verif Require Import Base Paths Level Kernel Session Defaults Filters Hooks Life Options Build.

(** synchronise.go:64-76: the client of the anchor is replaced (guardian.go:55-60,
    164-166) by one which sends to the channel and returns nil. The metrics tick
    in the anchor, before (guardian.go:40-49). *)
Definition sending : client := fun _ _ => CNil.
Definition swap_client (cl : client) (c : cfg) : cfg :=
  mkCfg (c_sub c) (c_depth c) (c_files_first c) (c_keep_sep c) (c_read c) (c_sort c) (c_subpath c)
    (c_stat c) (c_fault c) (c_ask c) (c_rescue c) (c_tree c) (c_scheme c) (c_hib c) (c_fast c) cl.
Definition swap_built (b : built) : built :=
  match b with BuildReady c sampling => BuildReady (swap_client sending c) sampling | _ => b end.

(** What the navigator itself does in Run().Configure().Extent(Prime(...)).Navigate(ctx)
    when the pool could be made: an [EvCall] is an input sent to the channel. *)
Definition run_prime (env : environment) (mt : matchers) (fac : facade) (settings : list (option setting))
    (t : fsnode) : report :=
  run_built (swap_built (fst (build_prime env mt fac settings))) (facade_tree fac) t.

(** synchronise.go:78-102: when making the pool fails, Navigate returns the
    error, wrapped; nothing has been navigated. The result is that of the
    controller, without any traversal (metrics of a session which did not start). *)
Definition run_prime_pool (pool_err : option error) (env : environment) (mt : matchers) (fac : facade)
    (settings : list (option setting)) (t : fsnode) : report :=
  match fst (build_prime env mt fac settings), pool_err with
  | BuildReady _ _, Some e =>
      mkReport (Ret (Some e)) [EvBegin (facade_tree fac); EvEnd (mkMetrics 0 0 0 0 0 0)] (Some (mkMetrics 0 0 0 0 0 0))
  | _, _ => run_prime env mt fac settings t
  end.

Section Pool.
(** [job]: an input; [now]: number of workers; [size]: size of the input channel *)
Context {job : Type} (draining : bool) (now size : nat).

Inductive phase := Navigating | ChannelClosed | Returned.
Record pool := mkPool {
  pl_todo : list job;         (* what the navigator has still to send *)
  pl_phase : phase;           (* of the goroutine which called Navigate *)
  pl_chan : list job;         (* the buffer of the input channel, oldest first *)
  pl_hand : option job;       (* what the reader has taken and not yet handed over *)
  pl_running : list job;      (* callbacks which have begun and not returned *)
  pl_started : list job;      (* all callbacks begun, in the order they began *)
  pl_done : list job          (* callbacks which have returned *)
}.
Definition pool_start (jobs : list job) : pool := mkPool jobs Navigating [] None [] [] [].

Inductive step : pool -> pool -> Prop :=
| st_send : forall j r ch h ru st dn, length ch < size ->       (* synchronise.go:72 *)
    step (mkPool (j :: r) Navigating ch h ru st dn) (mkPool r Navigating (ch ++ [j]) h ru st dn)
| st_rendezvous : forall j r ru st dn,                          (* the reader is waiting: no buffer needed *)
    step (mkPool (j :: r) Navigating [] None ru st dn) (mkPool r Navigating [] (Some j) ru st dn)
| st_take : forall todo ph j ch ru st dn,
    step (mkPool todo ph (j :: ch) None ru st dn) (mkPool todo ph ch (Some j) ru st dn)
| st_begin : forall todo ph ch j ru st dn, length ru < now -> (ph = Returned -> draining = true) ->
    step (mkPool todo ph ch (Some j) ru st dn) (mkPool todo ph ch None (ru ++ [j]) (st ++ [j]) dn)
| st_end : forall todo ph ch h ru1 j ru2 st dn,                 (* synchronise.go:79-86 *)
    step (mkPool todo ph ch h (ru1 ++ j :: ru2) st dn) (mkPool todo ph ch h (ru1 ++ ru2) st (dn ++ [j]))
| st_close : forall ch h ru st dn,                              (* kc.Navigate has returned; deferred, :53-54, 115-119 *)
    step (mkPool [] Navigating ch h ru st dn) (mkPool [] ChannelClosed ch h ru st dn)
| st_release : forall todo ch h ru st dn,                       (* :55-58; Navigate returns *)
    step (mkPool todo ChannelClosed ch h ru st dn) (mkPool todo Returned ch h ru st dn)
| st_discard : forall todo ch j ru st dn, draining = false ->   (* a closed pool refuses the input *)
    step (mkPool todo Returned ch (Some j) ru st dn) (mkPool todo Returned ch None ru st dn).

Inductive steps : nat -> pool -> pool -> Prop :=
| ss_nil : forall s, steps 0 s s
| ss_cons : forall n s1 s2 s3, steps n s1 s2 -> step s2 s3 -> steps (S n) s1 s3.
Definition reachable_pool (jobs : list job) (s : pool) : Prop := exists n, steps n (pool_start jobs) s.
Definition quiet (s : pool) : Prop := forall s', ~ step s s'.
End Pool.
Arguments pool : clear implicits.
