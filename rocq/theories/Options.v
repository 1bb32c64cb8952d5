(** Session options: pref/options.go and the With functions of pref, applying
    them (internal/opts), the facades (pref/facade.go) and what is done to the
    options before a session is built. No proofs here.

    Left out: the logger, the admin path, the filtering sink (Sink.v; called with the
    filter made), the sampling Iteration functions (never called), and the
    intervals of the output channel. A nil pointer given to a With function
    (which panics) is not represented. *)
From Verif Require Import Base Paths Level Kernel Defaults Filters Hooks Life.

(** What the options take from the environment: the number of processors, whether
    the tree can be stat-ed, whether saving the resume file succeeds. *)
Record environment := mkEnv {
  en_cpus : N;
  en_stat : fsnode -> option error;
  en_save : list event -> panicv -> saved -> string + error
}.

(** pref/options-navigation-behaviours.go:4-51 *)
Record behaviours := mkBehaviours {
  bh_keep_sep : bool;
  bh_case : bool;
  bh_files_first : bool;
  bh_depth : N;
  bh_no_recurse : bool
}.
(** core/hibernate.go:4-27 *)
Record hib_options := mkHibOptions {
  ho_wake : option filter_def;
  ho_sleep : option filter_def;
  ho_incl_wake : bool;
  ho_incl_sleep : bool
}.
(** pref/options-concurrency.go:11-60; [co_output_on]: whether Output.On is set *)
Record conc_options := mkConc {
  co_now : N;
  co_input : N;
  co_output : N;
  co_output_on : bool
}.
(** tapable/hooks.go:8-28 (Hooks) *)
Record hooks := mkHooks {
  hk_file_sub : hook subpath_fn subpath_listener;
  hk_dir_sub : hook subpath_fn subpath_listener;
  hk_read : hook read_fn read_listener;
  hk_stat : hook stat_fn stat_listener;
  hk_sort : hook sort_fn sort_fn
}.
(** pref/defects.go:49-54 *)
Record defects := mkDefects {
  df_fault : error -> option error;
  df_panic : list event -> panicv -> saved -> string + error;
  df_skip : node -> contents -> option error -> skip_traversal * option error
}.
(** pref/options.go:14-58. A life cycle handler is represented by a number. *)
Record options := mkOptions {
  op_behaviours : behaviours;
  op_sampling : sampling_options;
  op_filter : filter_options;
  op_hib : hib_options;
  op_conc : conc_options;
  op_events : controls nat;
  op_hooks : hooks;
  op_defects : defects
}.

Definition set_behaviours (x : behaviours) (o : options) : options :=
  mkOptions x (op_sampling o) (op_filter o) (op_hib o) (op_conc o) (op_events o) (op_hooks o) (op_defects o).
Definition set_sampling (x : sampling_options) (o : options) : options :=
  mkOptions (op_behaviours o) x (op_filter o) (op_hib o) (op_conc o) (op_events o) (op_hooks o) (op_defects o).
Definition set_filter (x : filter_options) (o : options) : options :=
  mkOptions (op_behaviours o) (op_sampling o) x (op_hib o) (op_conc o) (op_events o) (op_hooks o) (op_defects o).
Definition set_hibernate (x : hib_options) (o : options) : options :=
  mkOptions (op_behaviours o) (op_sampling o) (op_filter o) x (op_conc o) (op_events o) (op_hooks o) (op_defects o).
Definition set_conc (x : conc_options) (o : options) : options :=
  mkOptions (op_behaviours o) (op_sampling o) (op_filter o) (op_hib o) x (op_events o) (op_hooks o) (op_defects o).
Definition set_events (x : controls nat) (o : options) : options :=
  mkOptions (op_behaviours o) (op_sampling o) (op_filter o) (op_hib o) (op_conc o) x (op_hooks o) (op_defects o).
Definition set_hooks (x : hooks) (o : options) : options :=
  mkOptions (op_behaviours o) (op_sampling o) (op_filter o) (op_hib o) (op_conc o) (op_events o) x (op_defects o).
Definition set_defects (x : defects) (o : options) : options :=
  mkOptions (op_behaviours o) (op_sampling o) (op_filter o) (op_hib o) (op_conc o) (op_events o) (op_hooks o) x.

(** pref/options.go:141-184 (newHooks) *)
Definition new_hooks (env : environment) : hooks :=
  mkHooks (new_hook default_subpath) (new_hook default_subpath) (new_hook default_read)
    (new_hook (en_stat env)) (new_hook default_sort).
(** pref/options.go:99-139 (DefaultOptions). The events are not bound yet: they
    are bound before any option is applied (get-push.go:7-16,32-37); modelled as
    bound to new controls. pref/defaults.go:85-97 for the defects. *)
Definition default_options (env : environment) : options :=
  mkOptions (mkBehaviours true false false 0 false)
    (mkSampling StUndefined false 0 0)
    (mkFilterOptions None None None None)
    (mkHibOptions None None true false)
    (mkConc (en_cpus env) 0 0 false)
    new_controls
    (new_hooks env)
    (mkDefects default_fault (en_save env) default_ask).

(** pref/options.go:58 (Option): changes the options, may fail; a client may
    write its own *)
Definition setting : Type := options -> options * option error.

(** The With functions of pref, as data. *)
Inductive with_option :=
| WithFaultHandler (f : error -> option error)
| WithPanicHandler (f : list event -> panicv -> saved -> string + error)
| WithSkipHandler (f : node -> contents -> option error -> skip_traversal * option error)
| WithCPU
| WithNoW (n : N)
| WithOutput (size : N) (on : bool)
| WithFilter (fo : filter_options)
| WithHibernationBehaviourExclusiveWake
| WithHibernationBehaviourInclusiveSleep
| WithHibernationFilterWake (d : option filter_def)
| WithHibernationFilterSleep (d : option filter_def)
| WithHibernationOptions (ho : hib_options)
| WithHookCaseSensitiveSort
| WithHookFileSubPath (f : subpath_fn)
| WithHookDirectorySubPath (f : subpath_fn)
| WithHookQueryStatus (f : stat_fn)
| WithHookReadDirectory (f : read_fn)
| WithHookSort (f : sort_fn)
| WithOn (k : notice) (h : nat)
| WithNavigationBehaviours (b : behaviours)
| WithSubPathBehaviour (keep_sep : bool)
| WithSortBehaviour (case files_first : bool)
| WithDepth (d : N)
| WithNoRecurse
| WithSamplingOptions (so : sampling_options).

(** What each does: pref/defects.go:74-101, options-concurrency.go:67-93,
    options-filter.go:48-54, options-hibernate.go:10-56, options-hooks.go:9-65,
    options-life.go:10-68, options-navigation-behaviours.go:58-101,
    options-sampling.go:95-101. None of them fails. *)
Definition with_apply (env : environment) (w : with_option) (o : options) : options :=
  let d := op_defects o in
  let c := op_conc o in
  let h := op_hib o in
  let k := op_hooks o in
  let b := op_behaviours o in
  match w with
  | WithFaultHandler f => set_defects (mkDefects f (df_panic d) (df_skip d)) o
  | WithPanicHandler f => set_defects (mkDefects (df_fault d) f (df_skip d)) o
  | WithSkipHandler f => set_defects (mkDefects (df_fault d) (df_panic d) f) o
  | WithCPU => set_conc (mkConc (en_cpus env) (co_input c) (co_output c) (co_output_on c)) o
  | WithNoW n => set_conc (mkConc n (co_input c) (co_output c) (co_output_on c)) o
  | WithOutput size on => set_conc (mkConc (co_now c) (co_input c) size on) o
  | WithFilter fo => set_filter fo o
  | WithHibernationBehaviourExclusiveWake =>
      set_hibernate (mkHibOptions (ho_wake h) (ho_sleep h) false (ho_incl_sleep h)) o
  | WithHibernationBehaviourInclusiveSleep =>
      set_hibernate (mkHibOptions (ho_wake h) (ho_sleep h) (ho_incl_wake h) true) o
  | WithHibernationFilterWake x =>
      set_hibernate (mkHibOptions x (ho_sleep h) (ho_incl_wake h) (ho_incl_sleep h)) o
  | WithHibernationFilterSleep x =>
      set_hibernate (mkHibOptions (ho_wake h) x (ho_incl_wake h) (ho_incl_sleep h)) o
  | WithHibernationOptions ho => set_hibernate ho o
  | WithHookCaseSensitiveSort =>
      set_hooks (mkHooks (hk_file_sub k) (hk_dir_sub k) (hk_read k) (hk_stat k) (hook_tap case_sensitive_sort (hk_sort k))) o
  | WithHookFileSubPath f =>
      set_hooks (mkHooks (hook_tap f (hk_file_sub k)) (hk_dir_sub k) (hk_read k) (hk_stat k) (hk_sort k)) o
  | WithHookDirectorySubPath f =>
      set_hooks (mkHooks (hk_file_sub k) (hook_tap f (hk_dir_sub k)) (hk_read k) (hk_stat k) (hk_sort k)) o
  | WithHookQueryStatus f =>
      set_hooks (mkHooks (hk_file_sub k) (hk_dir_sub k) (hk_read k) (hook_tap f (hk_stat k)) (hk_sort k)) o
  | WithHookReadDirectory f =>
      set_hooks (mkHooks (hk_file_sub k) (hk_dir_sub k) (hook_tap f (hk_read k)) (hk_stat k) (hk_sort k)) o
  | WithHookSort f =>
      set_hooks (mkHooks (hk_file_sub k) (hk_dir_sub k) (hk_read k) (hk_stat k) (hook_tap f (hk_sort k))) o
  | WithOn nt x => set_events (update nt (ctrl_on x) (op_events o)) o
  | WithNavigationBehaviours x => set_behaviours x o
  | WithSubPathBehaviour x =>
      set_behaviours (mkBehaviours x (bh_case b) (bh_files_first b) (bh_depth b) (bh_no_recurse b)) o
  | WithSortBehaviour x y =>
      set_behaviours (mkBehaviours (bh_keep_sep b) x y (bh_depth b) (bh_no_recurse b)) o
  | WithDepth x =>
      set_behaviours (mkBehaviours (bh_keep_sep b) (bh_case b) (bh_files_first b) x (bh_no_recurse b)) o
  | WithNoRecurse =>
      set_behaviours (mkBehaviours (bh_keep_sep b) (bh_case b) (bh_files_first b) (bh_depth b) true) o
  | WithSamplingOptions so => set_sampling so o
  end.
Definition with_setting (env : environment) (w : with_option) : setting := fun o => (with_apply env w o, None).

(** pref/options.go:62-96 (IfOption, IfOptionF, IfElseOptionF) *)
Definition if_option (b : bool) (s : option setting) : option setting := if b then s else None.
Definition if_option_f (b : bool) (f : unit -> option setting) : option setting := if b then f tt else None.
Definition if_else_option_f (b : bool) (t f : unit -> option setting) : option setting := if b then t tt else f tt.

(** internal/opts/get-push.go:18-30 (apply): a nil option is skipped, the first
    error stops *)
Fixpoint apply (settings : list (option setting)) (o : options) : options * option error :=
  match settings with
  | [] => (o, None)
  | None :: r => apply r o
  | Some f :: r =>
      match f o with
      | (o1, Some e) => (o1, Some e)
      | (o1, None) => apply r o1
      end
  end.
(** internal/opts/get-push.go:7-16 (Get) *)
Definition get_options (env : environment) (settings : list (option setting)) : options * option error :=
  apply settings (default_options env).
(** internal/opts/get-push.go:32-37 (Push): the events are bound to new controls *)
Definition push_options (o : options) : options := set_events new_controls o.
(** internal/opts/load.go:8-21 (Bind) *)
Definition bind_options (o : options) (settings : list (option setting)) : options * option error :=
  apply settings (push_options o).

(** internal-traverse-defs.go:39-55 (afterwards) *)
Definition afterwards (o : options) : options :=
  let b := op_behaviours o in
  let c := op_conc o in
  let o1 := if bh_no_recurse b
    then set_behaviours (mkBehaviours (bh_keep_sep b) (bh_case b) (bh_files_first b) 1 true) o else o in
  let input := if (co_input c =? 0)%N then co_now c else co_input c in
  let output := if co_output_on c && (co_output c =? 0)%N then co_now c else co_output c in
  set_conc (mkConc (co_now c) input output (co_output_on c)) o1.

(** ** Facades: pref/facade.go:19-69 *)
Definition client : Type := list event -> node -> cbres.
Record prime_facade := mkUsing {
  us_tree : string;
  us_sub : option subscription;      (* None: undefined *)
  us_handler : option client;        (* None: nil *)
  us_options : option options        (* O *)
}.
(** enums/resume-strategy-en.go *)
Inductive resume_strategy := StrategyUndefined | StrategySpawn | StrategyFastward.
Record relic := mkRelic {
  re_from : string;
  re_strategy : resume_strategy;
  re_handler : option client
}.
Inductive facade := FacUsing (u : prime_facade) | FacRelic (r : relic).

(** locale/messages-errors.go:474-560 *)
Definition err_missing_tree : error := Err (Plain 41).
Definition err_missing_restore : error := Err (Plain 42).
Definition err_missing_sub : error := Err (Plain 43).
Definition err_missing_handler : error := Err (Plain 44).
(** core/errors.go:210-225 *)
Definition err_wrong_primary : error := Err (Plain 45).
Definition err_wrong_resume : error := Err (Plain 46).

(** pref/facade.go:107-113 (Head.Validate) *)
Definition head_validate (h : option client) : option error :=
  match h with None => Some err_missing_handler | Some _ => None end.
(** pref/facade.go:123-133 (Using.Validate) *)
Definition using_validate (u : prime_facade) : option error :=
  if String.eqb (us_tree u) EmptyString then Some err_missing_tree
  else match us_sub u with
       | None => Some err_missing_sub
       | Some _ => head_validate (us_handler u)
       end.
(** pref/facade.go:139-149 (Relic.Validate). Nothing in the repository calls it. *)
Definition relic_validate (r : relic) : option error :=
  if String.eqb (re_from r) EmptyString then Some err_missing_restore
  else match re_strategy r with
       | StrategyUndefined => Some err_missing_sub
       | _ => head_validate (re_handler r)
       end.

(** extent.go:56-63 and scaffold.go:145-162 (buildOptions); scaffold.go:26-52
    (newPrimaryPlatform) with builders.go:37-40. The options and the first error. *)
Definition prime_options (env : environment) (u : prime_facade) (settings : list (option setting))
    : options * option error :=
  let ve := using_validate u in
  match us_options u with
  | Some o => (afterwards (push_options o), ve)
  | None =>
      let '(o, err) := get_options env settings in
      (afterwards o, match ve with Some _ => ve | None => err end)
  end.
