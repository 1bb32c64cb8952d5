(** Resuming an interrupted session: internal/feat/resume, the resume part of
    scaffold.go and extent.go. No proofs here. *)
From Verif Require Import Base Paths Level Lo Kernel Session Defaults Filters Hooks Life Options Build Persist.

(** ** Environment *)

(** nef.PathCalc (nefilim, not in the repository): the path calculator of the
    traversal file system. The theorems say what they assume of it. *)
Record pathcalc := mkCalc {
  pc_split : string -> string * string;
  pc_join : string -> string -> string;
  pc_dir : string -> string;
  pc_base : string -> string
}.

(** The file system found by the resumed session: what is at a path. A path where
    there is nothing is an object on which the stat and read hooks fail. *)
Definition disk : Type := string -> fsnode.

(** ** Spawn: strategy-spawn.go *)

(** strategy-spawn.go:125-131; Go compares strings by bytes *)
Definition follows (inclusive : bool) (anchor : string) (e : fsnode) : bool :=
  if inclusive then (anchor <=? fname e)%string else (anchor <? fname e)%string.

(** strategy-spawn.go:116-140 (following) with mediator.go:86-88 (Read) and
    contents.go:14-26; 82-85: sorted, then All. *)
Definition following (c : cfg) (dk : disk) (parent anchor : string) (inclusive : bool)
    : list fsnode * option error :=
  match c_read c parent (dk parent) with
  | (_, Some e) => ([], Some e)
  | (es, None) =>
      let found := gm_get Bool.eqb (lo_group_by Bool.eqb es (follows inclusive anchor)) true in
      (all_of (c_files_first c) (c_sort c (files_of found)) (c_sort c (dirs_of found)), None)
  end.

(** strategy-spawn.go:98-114 (seed), mediator.go:90-100 (Spawn) *)
Fixpoint seed (c : cfg) (pc : pathcalc) (dk : disk) (parent : string) (es : list fsnode) (s : st)
    : outcome (option error) * st :=
  match es with
  | [] => (Ret None, s)
  | e :: es' =>
      let path := pc_join pc parent (fname e) in
      match top c path (dk path) s with
      | (Ret None, s1) => seed c pc dk parent es' s1
      | x => x
      end
  end.

(** strategy-spawn.go:59-95 (crown). The boolean is the strategy's complete
    flag, which is false before (line 64 is not reachable: the recursion ends
    when the flag is set). [Stuck]: the recursion does not end. *)
Fixpoint crown (fuel : nat) (c : cfg) (pc : pathcalc) (dk : disk) (tree current : string)
    (inclusive : bool) (s : st) : outcome (option error) * bool * st :=
  match fuel with
  | O => (Stuck, false, s)
  | S f =>
      if String.eqb current tree then (Ret None, true, s)
      else
        let '(parent, child) := pc_split pc current in
        match following c dk parent child inclusive with
        | (_, Some e) => (Ret (Some e), false, s)
        | (siblings, None) =>
            match seed c pc dk parent siblings s with
            | (Ret None, s1) => crown f c pc dk tree parent false s1
            | (o, s1) => (o, false, s1)
            end
        end
  end.

(** The metrics which exist when the saved ones are merged: mediator.go:39-43,
    filter-plugin.go:52-57, nanny-plugin.go:46-49. *)
Definition registered (c : cfg) (k : metric) : bool :=
  match k with
  | FilesInvoked | DirectoriesInvoked | ChildFilesFound => true
  | FilesFilteredOut | DirectoriesFilteredOut | ChildFilesFilteredOut =>
      match c_scheme c with Some _ => true | None => false end
  end.
(** core/metrics.go:60-73 (Merge); a metric missing in the saved ones counts as 0 *)
Definition merged (c : cfg) (sv : metrics) (m : metrics) : metrics :=
  let add k m := if registered c k then times k (count k sv) m else m in
  add FilesInvoked (add FilesFilteredOut (add DirectoriesInvoked (add DirectoriesFilteredOut
    (add ChildFilesFound (add ChildFilesFilteredOut m))))).

(** mediator.go:104-108 (Bridge); the tree is [c_tree] already *)
Definition bridge (c : cfg) (sv : saved) (s : st) : st :=
  set_metrics (merged c (sv_metrics sv) (s_metrics s)) (set_depth (per_offset (s_depth s) (sv_depth sv)) s).

(** controller.go:21-24, 40-42, 77-83 and strategy-spawn.go:22-48 within
    driver.go:29-37. The boolean: is the result complete
    (navigator-agent.go:82-89, extent.go:113-115)? *)
Definition spawn_session (c : cfg) (sampling : bool) (pc : pathcalc) (dk : disk) (sv : saved)
    : outcome (option error) * bool * st :=
  let s := init_st (session_items c sampling SpawnPlugin) (start_hib c) in
  let s1 := bridge c sv (dispatch (mu_begin (s_mutes s)) (EvBegin (c_tree c)) s) in
  match crown (S (String.length (sv_path sv))) c pc dk (sv_tree sv) (sv_path sv) true s1 with
  | (Ret e, ok, s2) => (Ret e, ok, dispatch (mu_end (s_mutes s2)) (EvEnd (s_metrics s2)) s2)
  | x => x
  end.

(** ** Fastward: strategy-fastward.go *)

(** The filter made from the saved state: strategy-fastward.go:78-108 *)
Definition fast_of (pc : pathcalc) (sv : saved) : fastcfg :=
  mkFast (pc_dir pc (sv_path sv)) (pc_base pc (sv_path sv)).
Definition set_fast (f : option fastcfg) (c : cfg) : cfg :=
  mkCfg (c_sub c) (c_depth c) (c_files_first c) (c_keep_sep c) (c_read c) (c_sort c) (c_subpath c)
    (c_stat c) (c_fault c) (c_ask c) (c_rescue c) (c_tree c) (c_scheme c) (c_hib c) f (c_client c).

(** Ignite mutes every notification (strategy-fastward.go:110-112,
    controller.go:21-24); then the whole tree is walked (mediator.go:142-154,
    Snooze) with the fastward link before the client. With an undefined strategy
    the plugin's role is not in the arrangement, so that the link is not
    consulted (resume-plugin.go:30-41, controller.go:61-66,
    collections/positional-set.go:42-60). *)
Definition fastward_session (linked : bool) (c0 : cfg) (sampling : bool) (pc : pathcalc) (dk : disk)
    (sv : saved) : outcome (option error) * st :=
  let c := set_fast (Some (fast_of pc sv)) c0 in
  let s := init_st (session_items c sampling (if linked then FastwardPlugin else SpawnPlugin)) (start_hib c) in
  let s0 := set_mutes (mute_all (s_mutes s)) s in
  let s1 := dispatch (mu_begin (s_mutes s0)) (EvBegin (c_tree c)) s0 in
  match top c (sv_tree sv) (dk (sv_tree sv)) s1 with
  | (Ret e, s2) => (Ret e, dispatch (mu_end (s_mutes s2)) (EvEnd (s_metrics s2)) s2)
  | x => x
  end.

(** ** Building a resume session: scaffold.go:54-97, 168-209, extent.go:76-111 *)

(** core/errors.go and locale/messages-errors.go: ErrNilForest and the two file
    system mismatches *)
Definition err_nil_forest : error := Err (Plain 61).
Definition err_traverse_fs : error := Err (Plain 62).
Definition err_resume_fs : error := Err (Plain 63).

(** What the client brings: the contents of the saved file (or the error met when
    it is read; always read with a native file system, scaffold.go:66-71), and
    the forest its GetForest makes for the saved tree, as the two file systems'
    IsRelative answers; [None]: there is no such function. *)
Record restore := mkRestore {
  rs_file : string -> jv + error;
  rs_forest : option (string -> option (bool * bool))
}.

Inductive resume_built :=
| ResumePanics (p : panicv)
| ResumeRefused (e : error)                                            (* a Hades navigator *)
| ResumeInitFailed (e : error) (sv : saved)
| ResumeReady (c : cfg) (sampling : bool) (sv : saved).

(** A client which is nil: invoking it panics. *)
Definition client_of (h : option client) : client :=
  match h with Some f => f | None => fun _ _ => CPanic nil_deref end.

(** scaffold.go:168-209 (buildForest) and 82-90; the default is a native file
    system, which is not relative *)
Definition forest_error (rs : restore) (a : active) : option error :=
  let made := match rs_forest rs with Some fn => fn (sv_tree (ac_saved a)) | None => Some (false, false) end in
  match made with
  | None => Some err_nil_forest
  | Some (t, r) =>
      if negb (Bool.eqb t (ac_traverse_relative a)) then Some err_traverse_fs
      else if negb (Bool.eqb r (ac_resume_relative a)) then Some err_resume_fs
      else None
  end.

Definition build_resume (env : environment) (mt : matchers) (rs : restore) (fac : facade)
    (settings : list (option setting)) : resume_built :=
  match fac with
  | FacUsing _ => ResumeRefused err_wrong_resume
  | FacRelic r =>
      match rs_file rs (re_from r) with
      | inr e => ResumeRefused e
      | inl doc =>
          match resume_load env doc settings with
          | Pan p => ResumePanics p
          | Stuck => ResumePanics nil_deref          (* not reachable *)
          | Ret (inr e) => ResumeRefused e
          | Ret (inl (_, _, Some e)) => ResumeRefused e
          | Ret (inl (None, _, None)) => ResumePanics nil_deref
          | Ret (inl (Some a, o, None)) =>
              match forest_error rs a with
              | Some e => ResumeRefused e
              | None =>
                  let sv := ac_saved a in
                  match build_plugins mt (afterwards o) (sv_sub sv) (sv_tree sv) (client_of (re_handler r)) with
                  | (BuildPanics p, _) => ResumePanics p
                  | (BuildRefused e, _) => ResumeRefused e
                  | (BuildInitFailed e, _) => ResumeInitFailed e sv
                  | (BuildReady c sampling, _) => ResumeReady c sampling sv
                  end
              end
          end
      end
  end.

(** What the client sees; the boolean is the result's IsComplete. *)
Record resume_report := mkResumeReport {
  rr_outcome : outcome (option error);
  rr_trace : list event;
  rr_metrics : option metrics;
  rr_complete : bool
}.
(** driver.go:29-37, synchronise.go:125-131; navigator-hades.go for a refused
    build, whose result is not complete. A session whose plugins could not be
    initialised is not navigated; a fastward session's Begin and End are muted. *)
Definition run_resume (b : resume_built) (strategy : resume_strategy) (pc : pathcalc) (dk : disk) : resume_report :=
  match b with
  | ResumePanics p => mkResumeReport (Pan p) [] None false
  | ResumeRefused e => mkResumeReport (Ret (Some e)) [] None false
  | ResumeInitFailed e sv =>
      match strategy with
      | StrategySpawn => mkResumeReport (Ret (Some e)) [EvBegin (sv_tree sv); EvEnd metrics0] (Some metrics0) false
      | _ => mkResumeReport (Ret (Some e)) [] (Some metrics0) true
      end
  | ResumeReady c sampling sv =>
      match strategy with
      | StrategySpawn =>
          let '(o, ok, s) := spawn_session c sampling pc dk sv in
          mkResumeReport o (s_trace s) (Some (s_metrics s)) ok
      | StrategyFastward =>
          let '(o, s) := fastward_session true c sampling pc dk sv in
          mkResumeReport o (s_trace s) (Some (s_metrics s)) true
      | StrategyUndefined =>
          let '(o, s) := fastward_session false c sampling pc dk sv in
          mkResumeReport o (s_trace s) (Some (s_metrics s)) true
      end
  end.

(** Walk().Configure().Extent(Resume(relic, settings...)).Navigate(ctx) *)
Definition walk_resume (env : environment) (mt : matchers) (rs : restore) (fac : facade)
    (settings : list (option setting)) (pc : pathcalc) (dk : disk) : resume_report :=
  run_resume (build_resume env mt rs fac settings)
    (match fac with FacRelic r => re_strategy r | FacUsing _ => StrategyUndefined end) pc dk.
