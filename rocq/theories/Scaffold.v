(** The two things a client brings to a session which Build.v and Resume.v leave
    out: a forest function (Head.GetForest) whose forest, or one of its file
    systems, may be nil, and (resume only) the addons given to Configure, of which
    the first that has an OnLoad method is called with the loaded state. No proofs
    here. *)
From Verif Require Import Base Lo Paths Level Kernel Session Filters Hooks Life Options Build Persist Resume.

(** core/core-defs.go:45-53 (Forest): nil, or its T (traversal) and R (resume
    state), each nil or a file system, represented by its IsRelative *)
Definition forest : Type := option (option bool * option bool).
(** pref/facade.go:100, 119-121: GetForest, which is optional *)
Definition forest_fn : Type := option (string -> forest).

(** scaffold.go:137-142 and 179-184: the native file system, which is not relative, for both *)
Definition native : forest := Some (Some false, Some false).
(** scaffold.go:127-143 and 169-186 *)
Definition made_forest (gf : forest_fn) (tree : string) : forest :=
  match gf with Some fn => fn tree | None => native end.

(** ** Prime: scaffold.go:38-44 (nothing is checked), builders.go:55-56 *)

(** mediator.go:114-118: Navigate uses the forest's T before anything else; Begin
    has been notified by then (130-135), and the panic is not recovered by the
    navigator (whose recover is in travel, navigator-agent.go:109-146) nor by the
    driver (driver.go:29-37: Bye, which notifies End, is not reached). A session
    which is refused or whose plugins could not be initialised does not get there.
    Not represented: the R of the forest, which is only used when a panic is
    rescued by the default handler (author.go:21-23). *)
Definition walk_prime_in (gf : forest_fn) (env : environment) (mt : matchers) (fac : facade)
    (settings : list (option setting)) (t : fsnode) : report :=
  let b := fst (build_prime env mt fac settings) in
  match b, made_forest gf (facade_tree fac) with
  | BuildReady _ _, None | BuildReady _ _, Some (None, _) => mkReport (Pan nil_deref) [EvBegin (facade_tree fac)] None
  | _, _ => run_built b (facade_tree fac) t
  end.

(** ** Resume *)

(** internal/enclave/enclave-defs.go:136-138 (StateHandler), 154-158 (Loader): it
    is given a pointer to the loaded state ([None]: nil) and may change what it
    points to, or panic. *)
Definition loader : Type := option active -> option active + panicv.
(** factories.go:74: an addon is any value; [None]: one without an OnLoad method *)
Definition addon : Type := option loader.

(** extent.go:117-127 (with lo.Find, Lo.v) *)
Definition seek (addons : list addon) : addon :=
  match lo_find addons (fun item => match item with Some _ => true | None => false end) with
  | Some h => h
  | None => None
  end.

(** extent.go:102-104; a nil pointer stays nil *)
Definition on_load (addons : list addon) (a : option active) : option active + panicv :=
  match seek addons with
  | None => inl a
  | Some h => match h a, a with
              | inr p, _ => inr p
              | inl _, None => inl None
              | inl (Some a'), Some _ => inl (Some a')
              | inl None, Some x => inl (Some x)
              end
  end.

(** scaffold.go:82-90, 188-206: nil is refused; asking a nil file system whether it
    is relative panics, and both are asked *)
Definition forest_verdict (f : forest) (a : active) : option error + panicv :=
  match f with
  | None => inl (Some err_nil_forest)
  | Some (Some t, Some r) =>
      inl (if negb (Bool.eqb t (ac_traverse_relative a)) then Some err_traverse_fs
           else if negb (Bool.eqb r (ac_resume_relative a)) then Some err_resume_fs
           else None)
  | Some _ => inr nil_deref
  end.

(** scaffold.go:54-97 and extent.go:91-111: the handler is called whether or not
    the state could be loaded (resume-plugin.go:53-66 gives an empty LoadInfo if
    not), before an error of the load is looked at. *)
Definition build_resume_in (gf : forest_fn) (addons : list addon) (env : environment) (mt : matchers)
    (file : string -> jv + error) (fac : facade) (settings : list (option setting)) : resume_built :=
  match fac with
  | FacUsing _ => ResumeRefused err_wrong_resume
  | FacRelic r =>
      match (match file (re_from r) with inr e => Ret (inr e) | inl doc => resume_load env doc settings end) with
      | Pan p => ResumePanics p
      | Stuck => ResumePanics nil_deref          (* not reachable *)
      | Ret (inr e) =>
          match on_load addons None with inr p => ResumePanics p | inl _ => ResumeRefused e end
      | Ret (inl (a, o, err)) =>
          match on_load addons a, err with
          | inr p, _ => ResumePanics p
          | inl _, Some e => ResumeRefused e
          | inl None, None => ResumePanics nil_deref
          | inl (Some a'), None =>
              match forest_verdict (made_forest gf (sv_tree (ac_saved a'))) a' with
              | inr p => ResumePanics p
              | inl (Some e) => ResumeRefused e
              | inl None =>
                  let sv := ac_saved a' in
                  match build_plugins mt (afterwards o) (sv_sub sv) (sv_tree sv) (client_of (re_handler r)) with
                  | (BuildPanics p, _) => ResumePanics p
                  | (BuildRefused e, _) => ResumeRefused e
                  | (BuildInitFailed e, _) => ResumeInitFailed e sv
                  | (BuildReady c sampling, _) => ResumeReady c sampling sv
                  end
              end
          end
      end
  end.
(** Walk().Configure(addons...).Extent(Resume(relic, settings...)).Navigate(ctx) *)
Definition walk_resume_in (gf : forest_fn) (addons : list addon) (env : environment) (mt : matchers)
    (file : string -> jv + error) (fac : facade) (settings : list (option setting)) (pc : pathcalc) (dk : disk)
    : resume_report :=
  run_resume (build_resume_in gf addons env mt file fac settings)
    (match fac with FacRelic r => re_strategy r | FacUsing _ => StrategyUndefined end) pc dk.
