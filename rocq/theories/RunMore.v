(** More of the concurrent navigator: resumes, and several navigations. No proofs here. *)
From Verif Require Import Base Paths Level Kernel Session Defaults Filters Hooks Life Options Build Pool Persist Resume Again.
Local Open Scope list_scope.

(** Run().Configure().Extent(Resume(relic, settings...)).Navigate(ctx): what the
    navigator itself does when the pool could be made; as run_prime of Pool.v,
    an [EvCall] is an input sent to the channel. synchronise.go:64-76, 108; the
    controller is that of the resume (extent.go:69-115, builders.go:31-128). *)
Definition swap_resumed (b : resume_built) : resume_built :=
  match b with ResumeReady c sampling sv => ResumeReady (swap_client sending c) sampling sv | _ => b end.
Definition run_resumed (env : environment) (mt : matchers) (rs : restore) (fac : facade)
    (settings : list (option setting)) (pc : pathcalc) (dk : disk) : resume_report :=
  run_resume (swap_resumed (build_resume env mt rs fac settings))
    (match fac with FacRelic r => re_strategy r | FacUsing _ => StrategyUndefined end) pc dk.

(** synchronise.go:44-50: the fields of the navigator which outlive a Navigate:
    the error, the input channel (nil, open or closed) and the state of the
    controller. *)
Inductive channel := ChNil | ChOpen | ChClosed.
Record concurrent := mkConcurrent { cn_err : option error; cn_ch : channel; cn_st : st }.
Definition concurrent_start (c : cfg) (sampling : bool) : concurrent := mkConcurrent None ChNil (start_st c sampling).

(** close of a closed channel: a run time error *)
Definition close_of_closed : panicv := PErr (Err (Plain 1)).
(** synchronise.go:115-119 (close), deferred at :53-54; a panic in it replaces
    what Navigate returned. The release of the pool is in Pool.v. *)
Definition close_channel (r : outcome (option error) * concurrent) : outcome (option error) * concurrent :=
  let '(o, n) := r in
  match cn_ch n with
  | ChNil => (o, n)
  | ChOpen => (o, mkConcurrent (cn_err n) ChClosed (cn_st n))
  | ChClosed => (Pan close_of_closed, n)
  end.
(** synchronise.go:52-109 (Navigate): [pool] is the error of making the pool;
    errors.Wrap keeps its identity for errors.Is (wrapping is not represented).
    The controller navigates with the swapped client. *)
Definition run_kernel (c : cfg) (pool : option error) (t : fsnode) (n : concurrent) : outcome (option error) * concurrent :=
  close_channel
    (match cn_err n with
     | Some e => (Ret (Some e), n)
     | None =>
         match pool with
         | Some e => (Ret (Some e), mkConcurrent (Some e) (cn_ch n) (cn_st n))
         | None =>
             let '(o, s) := navigate (swap_client sending c) t (cn_st n) in
             (o, mkConcurrent None ChOpen s)
         end
     end).
(** driver.go:29-37, session.go:17-27: Begin before, End after unless it panicked. *)
Definition run_drive (c : cfg) (pool : option error) (t : fsnode) (n : concurrent) : outcome (option error) * concurrent :=
  let s1 := dispatch (mu_begin (s_mutes (cn_st n))) (EvBegin (c_tree c)) (cn_st n) in
  match run_kernel c pool t (mkConcurrent (cn_err n) (cn_ch n) s1) with
  | (Ret e, m) =>
      let s2 := cn_st m in
      (Ret e, mkConcurrent (cn_err m) (cn_ch m) (dispatch (mu_end (s_mutes s2)) (EvEnd (s_metrics s2)) s2))
  | x => x
  end.
(** One Navigate for each element: what making the pool answers, and the tree. *)
Fixpoint runs (c : cfg) (ts : list (option error * fsnode)) (n : concurrent) : list (outcome (option error)) * concurrent :=
  match ts with
  | [] => ([], n)
  | (p, t) :: r =>
      let '(o, n1) := run_drive c p t n in
      let '(os, n2) := runs c r n1 in
      (o :: os, n2)
  end.
