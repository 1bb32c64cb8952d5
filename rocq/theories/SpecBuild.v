(** Specification vocabulary for options and building a session. *)
From Verif Require Import Base Paths Level Kernel Session Defaults Spec Filters SpecFilter Hooks Life Options Build.
From Coq Require Import Permutation.

(** The settings succeed one after the other, nil ones doing nothing. *)
Inductive runs : list (option setting) -> options -> options -> Prop :=
| runs_done : forall o, runs [] o o
| runs_nil : forall r o o2, runs r o o2 -> runs (None :: r) o o2
| runs_one : forall f r o o1 o2, f o = (o1, None) -> runs r o1 o2 -> runs (Some f :: r) o o2.

(** The value given by the last one which sets something, or the default. *)
Definition latest {A} (sets : with_option -> option A) (ws : list with_option) (def : A) : A :=
  fold_left (fun acc w => match sets w with Some x => x | None => acc end) ws def.

(** What the With functions set. *)
Definition sets_keep_sep (w : with_option) : option bool :=
  match w with WithSubPathBehaviour x => Some x | WithNavigationBehaviours b => Some (bh_keep_sep b) | _ => None end.
Definition sets_files_first (w : with_option) : option bool :=
  match w with WithSortBehaviour _ x => Some x | WithNavigationBehaviours b => Some (bh_files_first b) | _ => None end.
Definition sets_depth (w : with_option) : option N :=
  match w with WithDepth x => Some x | WithNavigationBehaviours b => Some (bh_depth b) | _ => None end.
Definition sets_no_recurse (w : with_option) : option bool :=
  match w with WithNoRecurse => Some true | WithNavigationBehaviours b => Some (bh_no_recurse b) | _ => None end.
Definition sets_filter (w : with_option) : option filter_options :=
  match w with WithFilter x => Some x | _ => None end.
Definition sets_sampling (w : with_option) : option sampling_options :=
  match w with WithSamplingOptions x => Some x | _ => None end.
Definition sets_wake (w : with_option) : option (option filter_def) :=
  match w with WithHibernationFilterWake x => Some x | WithHibernationOptions h => Some (ho_wake h) | _ => None end.
Definition sets_sleep (w : with_option) : option (option filter_def) :=
  match w with WithHibernationFilterSleep x => Some x | WithHibernationOptions h => Some (ho_sleep h) | _ => None end.
Definition sets_incl_wake (w : with_option) : option bool :=
  match w with WithHibernationBehaviourExclusiveWake => Some false | WithHibernationOptions h => Some (ho_incl_wake h) | _ => None end.
Definition sets_incl_sleep (w : with_option) : option bool :=
  match w with WithHibernationBehaviourInclusiveSleep => Some true | WithHibernationOptions h => Some (ho_incl_sleep h) | _ => None end.
Definition sets_workers (cpus : N) (w : with_option) : option N :=
  match w with WithCPU => Some cpus | WithNoW n => Some n | _ => None end.
Definition sets_output (w : with_option) : option (N * bool) :=
  match w with WithOutput n on => Some (n, on) | _ => None end.
Definition sets_fault (w : with_option) := match w with WithFaultHandler f => Some f | _ => None end.
Definition sets_panic (w : with_option) := match w with WithPanicHandler f => Some f | _ => None end.
Definition sets_skip (w : with_option) := match w with WithSkipHandler f => Some f | _ => None end.
Definition sets_file_sub (w : with_option) : option subpath_fn := match w with WithHookFileSubPath f => Some f | _ => None end.
Definition sets_dir_sub (w : with_option) : option subpath_fn := match w with WithHookDirectorySubPath f => Some f | _ => None end.
Definition sets_read (w : with_option) : option read_fn := match w with WithHookReadDirectory f => Some f | _ => None end.
Definition sets_stat (w : with_option) : option stat_fn := match w with WithHookQueryStatus f => Some f | _ => None end.
Definition sets_sort (w : with_option) : option sort_fn :=
  match w with WithHookSort f => Some f | WithHookCaseSensitiveSort => Some case_sensitive_sort | _ => None end.
(** The handlers registered for a notification, in order: these accumulate. *)
Definition handlers_for (k : notice) (ws : list with_option) : list nat :=
  flat_map (fun w => match w with WithOn j h => if notice_eqb j k then [h] else [] | _ => [] end) ws.

(** Settings as passed by a client using the With functions only. *)
Definition options_of (env : environment) (ws : list with_option) : list (option setting) :=
  map (fun w => Some (with_setting env w)) ws.

(** A prime facade which is complete. *)
Definition complete_facade (u : prime_facade) : Prop :=
  us_tree u <> EmptyString /\ us_sub u <> None /\ us_handler u <> None.

(** The options a prime session is built with, and why one cannot be built. *)
Definition settled (env : environment) (u : prime_facade) (settings : list (option setting)) (o : options) : Prop :=
  match us_options u with Some x => o = push_options x | None => runs settings (default_options env) o end.
Inductive unbuildable (env : environment) (mt : matchers) : facade -> list (option setting) -> error -> Prop :=
| ub_facade : forall r ss, unbuildable env mt (FacRelic r) ss err_wrong_primary
| ub_tree : forall u ss, us_tree u = EmptyString -> unbuildable env mt (FacUsing u) ss err_missing_tree
| ub_subscription : forall u ss, us_tree u <> EmptyString -> us_sub u = None ->
    unbuildable env mt (FacUsing u) ss err_missing_sub
| ub_handler : forall u ss, us_tree u <> EmptyString -> us_sub u <> None -> us_handler u = None ->
    unbuildable env mt (FacUsing u) ss err_missing_handler
| ub_option : forall u pre f post o1 o2 e, complete_facade u -> us_options u = None ->
    runs pre (default_options env) o1 -> f o1 = (o2, Some e) ->
    unbuildable env mt (FacUsing u) (pre ++ Some f :: post) e
| ub_filter : forall u ss o p ch e, complete_facade u -> settled env u ss o ->
    filtering_active (op_filter o) = true ->
    create_scheme mt (op_filter o) (op_sampling o) = Ret (p, ch, Some e) ->
    unbuildable env mt (FacUsing u) ss e.

(** ** The session asked for by With functions, in terms of what they set *)
Definition no_filter : filter_options := mkFilterOptions None None None None.
Definition no_sampling : sampling_options := mkSampling StUndefined false 0 0.
Definition hibernate_when (ws : list with_option) : hib_options :=
  mkHibOptions (latest sets_wake ws None) (latest sets_sleep ws None) (latest sets_incl_wake ws true) (latest sets_incl_sleep ws false).
Definition session_cfg (env : environment) (ws : list with_option) (tree : string) (sub : subscription) (cl : client)
    (read : read_fn) (sc : option scheme) (hb : option hibcfg) : cfg :=
  mkCfg sub (if latest sets_no_recurse ws false then 1%N else latest sets_depth ws 0%N)
    (latest sets_files_first ws false) (latest sets_keep_sep ws true)
    read (latest sets_sort ws default_sort)
    (fun tr keep n => if n_isdir n then latest sets_dir_sub ws default_subpath tr keep n
                      else latest sets_file_sub ws default_subpath tr keep n)
    (latest sets_stat ws (en_stat env)) (latest sets_fault ws default_fault)
    (latest sets_skip ws default_ask) (latest sets_panic ws (en_save env)) tree sc hb None cl.
(** The read hook with listeners. *)
Definition then_all (rd : read_fn) (ls : list read_listener) : read_fn :=
  fun p t => fold_left (fun r l => l (fst r) (snd r) p t) ls (rd p t).
Definition run_report (c : cfg) (sampling : bool) (t : fsnode) (r : report) : Prop :=
  exists o s, session c sampling t = (o, s) /\ r = mkReport o (s_trace s) (Some (s_metrics s)).

(** ** Comparing sessions *)
(** The nodes visited and the outcome of a session. *)
Definition nodes_of (r : report) : list node := map fst (calls (rp_trace r)).

(** Settings without hibernation whose hooks behave. *)
Definition no_hibernation (ws : list with_option) : Prop := latest sets_wake ws None = None /\ latest sets_sleep ws None = None.
Definition hooks_sound (ws : list with_option) : Prop :=
  (forall p t e, In e (fst (latest sets_read ws default_read p t)) -> In e (fkids t)) /\
  (forall p t, fisdir t = false -> fst (latest sets_read ws default_read p t) = []) /\
  (forall l, Permutation (latest sets_sort ws default_sort l) l).

(** An ordinary session: options from With functions, a complete facade, a
    callback which returns nil, no hibernation. *)
Definition ordinary (u : prime_facade) (ws : list with_option) (sub : subscription) : Prop :=
  us_options u = None /\ us_tree u <> EmptyString /\ us_sub u = Some sub /\ us_handler u = Some (fun _ _ => CNil) /\
  no_hibernation ws /\ hooks_sound ws.

(** [selected ans f r1 r2]: the first session visited exactly the nodes of the
    second which are accepted, in order (seen through [f]), and ended the same way; each node of the
    second is counted as invoked or filtered out. *)
Definition selected (ans : node -> bool) (f : node -> node) (r1 r2 : report) : Prop :=
  rp_outcome r1 = rp_outcome r2 /\ nodes_of r1 = filter ans (map f (nodes_of r2)) /\
  exists m1 m2, rp_metrics r1 = Some m1 /\ rp_metrics r2 = Some m2 /\
    m_files m1 + m_files_out m1 = m_files m2 /\ m_dirs m1 + m_dirs_out m1 = m_dirs m2.


(** ** Sampling and sample filters *)
(** The skip handler is the default one and the root can be stat-ed. *)
Definition undisturbed (env : environment) (ws : list with_option) (t : fsnode) : Prop :=
  latest sets_skip ws default_ask = default_ask /\ latest sets_stat ws (en_stat env) t = None.
Definition depth_asked (ws : list with_option) : N :=
  if latest sets_no_recurse ws false then 1%N else latest sets_depth ws 0%N.
(** The kinds of node which a subscription is told about. *)
Definition told (sub : subscription) (l : list place) : list place :=
  match sub with SubFiles => filter is_file_place l | _ => l end.
(** The files and directories travelled, each group sorted by the sort hook; a
    directories subscription does not travel the files. *)
Definition arranged (ws : list with_option) (sub : subscription) (fs ds : list fsnode) : list fsnode :=
  let sort := latest sets_sort ws default_sort in
  match sub with
  | SubFiles | SubUniversal => if latest sets_files_first ws false then sort fs ++ sort ds else sort ds ++ sort fs
  | _ => sort ds
  end.
Definition files_read (ws : list with_option) (path : string) (t : fsnode) : list fsnode :=
  filter (fun e => negb (fisdir e)) (fst (latest sets_read ws default_read path t)).
Definition dirs_read (ws : list with_option) (path : string) (t : fsnode) : list fsnode :=
  filter fisdir (fst (latest sets_read ws default_read path t)).
(** Of [l] the first (last) [n] are taken, if sampling is on. *)
Definition sampled_part (so : sampling_options) (n : nat) (l r : list fsnode) : Prop :=
  match so_type so with
  | StUndefined => r = l
  | _ => taken (so_reverse so) n l r
  end.

(** ** Sample filters *)
Definition only_sample (sd : sample_def) : filter_options := mkFilterOptions None None (Some sd) None.
(** What a glob or regex sample filter says about a name. *)
Definition sample_keeps (mt : matchers) (sd : sample_def) (name : string) : bool :=
  let says := match sd_type sd with
    | FtGlob => mt_glob mt (sd_pattern sd) name
    | FtRegex => match mt_regex mt (sd_pattern sd) with inl rex => rex name | inr _ => false end
    | _ => false
    end in
  if sd_negate sd then negb says else says.
Definition sample_compiles (mt : matchers) (sd : sample_def) : Prop :=
  sd_type sd = FtGlob \/ (sd_type sd = FtRegex /\ exists rex, mt_regex mt (sd_pattern sd) = inl rex).
(** The filter is about files (directories) only, and their number is given. *)
Definition about_files (sd : sample_def) (so : sampling_options) : Prop :=
  N.land (sd_scope sd) ScopeFile <> 0%N /\ N.land (sd_scope sd) ScopeDirectory = 0%N /\ so_files so <> 0.
Definition about_dirs (sd : sample_def) (so : sampling_options) : Prop :=
  N.land (sd_scope sd) ScopeFile = 0%N /\ N.land (sd_scope sd) ScopeDirectory <> 0%N /\ so_dirs so <> 0.
(** Why a sample filter cannot be used, and the error: a number is missing for
    what it is about; its type; its pattern; the client's own filter missing or
    not valid. *)
Definition asks_for (sd : sample_def) (scope : N) : Prop := N.land (sd_scope sd) scope <> 0%N.
Inductive sample_unusable (mt : matchers) (sd : sample_def) (so : sampling_options) : error -> Prop :=
| su_files : asks_for sd ScopeFile -> so_files so = 0 -> sample_unusable mt sd so err_missing_files
| su_dirs : (asks_for sd ScopeFile -> so_files so <> 0) -> asks_for sd ScopeDirectory -> so_dirs so = 0 ->
    sample_unusable mt sd so err_missing_dirs
| su_definition : forall e, (asks_for sd ScopeFile -> so_files so <> 0) -> (asks_for sd ScopeDirectory -> so_dirs so <> 0) ->
    (sd_type sd = FtUndefined /\ e = err_missing_type) \/
    (sd_type sd = FtRegex /\ mt_regex mt (sd_pattern sd) = inr e) \/
    (sd_type sd = FtCustom /\ sd_custom sd = None /\ e = err_filter_nil) \/
    (sd_type sd = FtCustom /\ exists m, sd_custom sd = Some (Some e, m)) ->
    sample_unusable mt sd so e.
(** The reads of a session succeed, or find nothing. *)
Definition clean_reads (ws : list with_option) : Prop :=
  forall p e, snd (latest sets_read ws default_read p e) = None \/ fst (latest sets_read ws default_read p e) = [].
(** Any place, or any but the root. *)
Definition unless_root (root_too : bool) (p : place) : bool :=
  root_too || match pl_pos p with [] => false | _ => true end.

(** ** Hibernation *)
(** The conditions which glob and regex definitions stand for. *)
Definition asked_conditions (mt : matchers) (ho : hib_options) : hibcfg :=
  let cond := option_map (fun d n => inl (accepts mt d n)) in
  mkHib (cond (ho_wake ho)) (cond (ho_sleep ho)) (ho_incl_wake ho) (ho_incl_sleep ho).
Definition conditions_compile (mt : matchers) (ho : hib_options) : Prop :=
  (forall d, ho_wake ho = Some d -> compiles mt d) /\ (forall d, ho_sleep ho = Some d -> compiles mt d).
