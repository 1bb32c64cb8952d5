(** What a session writes to its logger (Monitor.Log, pref.WithLogger). Build.v and
    Resume.v leave the logger out; here it is added around them. No proofs here. *)
From Verif Require Import Base Paths Level Kernel Session Filters Hooks Life Options Build Persist Resume.

(** A *slog.Logger: nil, or one told apart by a number; [discard] is the default
    (pref/options.go:102, 124-126). *)
Definition logger : Type := option nat.
Definition discard : logger := Some 0.

(** A setting: pref.WithLogger (pref/options-log.go:27-34) or any other *)
Inductive lsetting := WithLogger (l : logger) | Ordinary (s : setting).
(** What it does to the options without their logger *)
Definition plain (x : lsetting) : setting :=
  match x with WithLogger _ => fun o => (o, None) | Ordinary s => s end.
Definition plain_all (ss : list (option lsetting)) : list (option setting) := map (option_map plain) ss.

(** internal/opts/get-push.go:18-30 (apply), as far as the logger is concerned: the
    settings before the first that fails *)
Fixpoint logger_after (ss : list (option lsetting)) (o : options) (l : logger) : logger :=
  match ss with
  | [] => l
  | None :: r => logger_after r o l
  | Some (WithLogger l1) :: r => logger_after r o l1
  | Some (Ordinary f) :: r => match f o with (_, Some _) => l | (o1, None) => logger_after r o1 l end
  end.

(** stock/error.go:16-22 *)
Definition benign (e : option error) : bool :=
  match e with None => true | Some er => errors_is SkipDir er || errors_is SkipAll er end.

(** ** Prime *)

(** The logger of the options: those given as Using.O (with the logger [own]), or
    those made of the settings: scaffold.go:145-162, also if the facade is not for
    a prime session (102-121) *)
Definition prime_logger (own : logger) (env : environment) (fac : facade) (ss : list (option lsetting)) : logger :=
  match fac with
  | FacUsing (mkUsing _ _ _ (Some _)) => own
  | _ => logger_after ss (default_options env) discard
  end.
(** The errors logged: a build which is refused or whose plugins cannot be
    initialised, builders.go:39-47, 79-88, 107-118; the result of Navigate,
    mediator.go:123-125. (builders.go:62-69 logs nothing, but the error there, an
    undefined subscription, is excluded by Using.Validate.) *)
Definition prime_errors (b : built) (r : report) : list error :=
  match b with
  | BuildPanics _ => []
  | BuildRefused e | BuildInitFailed e => [e]
  | BuildReady _ _ =>
      match rp_outcome r with
      | Ret (Some e) => if benign (Some e) then [] else [e]
      | _ => []
      end
  end.
(** Everything before the end of Navigate: as Session.v's [session], without the
    End notification *)
Definition unfinished (c : cfg) (sampling : bool) (t : fsnode) : list event :=
  let s := start_st c sampling in
  s_trace (snd (navigate c t (dispatch (mu_begin (s_mutes s)) (EvBegin (c_tree c)) s))).
(** What the client sees and what is logged, each record with its logger. Calling
    a method of a nil *slog.Logger panics: while the session is built, or in
    mediator.go:124, before driver.go:34 notifies End. *)
Definition walk_prime_log (own : logger) (env : environment) (mt : matchers) (fac : facade)
    (ss : list (option lsetting)) (t : fsnode) : report * list (nat * error) :=
  let b := fst (build_prime env mt fac (plain_all ss)) in
  let r := run_built b (facade_tree fac) t in
  let errors := prime_errors b r in
  match prime_logger own env fac ss, errors with
  | Some n, _ => (r, map (pair n) errors)
  | None, [] => (r, [])
  | None, _ :: _ =>
      (mkReport (Pan nil_deref) (match b with BuildReady c sampling => unfinished c sampling t | _ => [] end) None, [])
  end.

(** ** Resume *)

(** A resume navigates with Spawn or Snooze (mediator.go:90-100, 142-154), which do
    not log. The options of a stored session have the default logger
    (internal/persist/json-options.go:114-115), then the settings
    are applied; if the session could not be loaded, pacify's options are used. In
    both cases the logger is that of the settings. Not represented: the undefined
    subscription of a document, which is refused without logging (builders.go:62-69). *)
Definition resume_errors (b : resume_built) : list error :=
  match b with
  | ResumePanics _ => []
  | ResumeRefused e | ResumeInitFailed e _ => [e]
  | ResumeReady _ _ _ => []
  end.
(** For loggers which are not nil, [n] being the session's *)
Definition resume_log (n : nat) (env : environment) (mt : matchers) (rs : restore) (fac : facade)
    (ss : list (option lsetting)) : list (nat * error) :=
  map (pair n) (resume_errors (build_resume env mt rs fac (plain_all ss))).
