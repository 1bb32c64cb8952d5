(** What Navigate returns, as the client may query it. No proofs here. *)
From Verif Require Import Base Paths Level Kernel Session Filters Hooks Life Options Build Persist Resume.
Local Open Scope Z_scope.

(** session.go:10-15: the timing of a session, moments in nanoseconds *)
Record timing := mkTiming { tm_started : Z; tm_duration : Z }.
(** session.go:17-22 *)
Definition tm_start (now : Z) : timing := mkTiming now 0.
(** session.go:24-27 *)
Definition tm_finish (now : Z) (t : timing) : timing := mkTiming (tm_started t) (now - tm_started t).
(** session.go:33-35 *)
Definition tm_started_at (t : timing) : Z := tm_started t.
(** session.go:37-39: the stored duration is not used *)
Definition tm_elapsed (now : Z) (t : timing) : Z := now - tm_started t.

(** internal/enclave/kernel-result.go:8-12: the reporter and the session may be
    nil. The session: its timing and what IsComplete answers
    (synchronise.go:32-34). The field complete is not part of
    core.TraverseResult (core/core-defs.go:34-37). *)
Record result := mkResult {
  re_reporter : option metrics;
  re_session : option (timing * bool)
}.
(** kernel-result.go:25-27 *)
Definition failed_result : result := mkResult None None.

(** result.Metrics().Count(k): kernel-result.go:41-43, supervisor.go:52-58. The
    reporter of a failed result is a nil *Supervisor, whose field is read. *)
Definition result_count (r : result) (k : metric) : outcome nat :=
  match re_reporter r with Some m => Ret (count k m) | None => Pan nil_deref end.
(** result.Session().IsComplete(), .StartedAt(), .Elapsed(): kernel-result.go:37-39,
    session.go:29-39; the session of a failed result is a nil interface. *)
Definition result_complete (r : result) : outcome bool :=
  match re_session r with Some (_, b) => Ret b | None => Pan nil_deref end.
Definition result_started_at (r : result) : outcome Z :=
  match re_session r with Some (t, _) => Ret (tm_started_at t) | None => Pan nil_deref end.
Definition result_elapsed (now : Z) (r : result) : outcome Z :=
  match re_session r with Some (t, _) => Ret (tm_elapsed now t) | None => Pan nil_deref end.

(** The result of a prime session: driver.go:29-37. A build which was refused has
    the navigator of navigator-hades.go, whose result is failed_result
    (navigator-hades.go:33-35; rp_metrics is None). Otherwise navigator-agent.go:82-89;
    complete: extent.go:65-67. *)
Definition prime_result (r : report) (t : timing) : result :=
  match rp_metrics r with None => failed_result | Some m => mkResult (Some m) (Some (t, true)) end.
(** The result of a resume session; complete: extent.go:113-115. *)
Definition resume_result (r : resume_report) (t : timing) : result :=
  match rr_metrics r with None => failed_result | Some m => mkResult (Some m) (Some (t, rr_complete r)) end.

(** A session which starts at [t0] and is finished at [t1]. *)
Definition timed (t0 t1 : Z) : timing := tm_finish t1 (tm_start t0).
