(** Building and running a prime session from a facade and options: builders.go,
    director.go, scaffold.go, session.go, driver.go. No proofs here. *)
From Verif Require Import Base Paths Level Kernel Session Defaults Filters Hooks Life Options.

(** The outcome of Configure().Extent(Prime(...)). *)
Inductive built :=
| BuildPanics (p : panicv)
| BuildRefused (e : error)                                (* a Hades navigator *)
| BuildInitFailed (e : error)                             (* the real controller, with an error *)
| BuildReady (c : cfg) (sampling : bool).

(** The hibernation conditions: hibernate-simple-profile.go:21-58. A filter made
    may be nil (type custom without a custom filter), and asking it panics; a nil
    wake filter is replaced by the permissive one if there is a sleep condition
    (lines 53-58). *)
Inductive hib_conditions :=
| HcOk (h : hibcfg)
| HcError (e : error)
| HcPanics (p : panicv).
Definition hib_of (mt : matchers) (ho : hib_options) (fo : filter_options) : hib_conditions :=
  let mk w s := HcOk (mkHib w s (ho_incl_wake ho) (ho_incl_sleep ho)) in
  let sleep_part (w : option (option nfilter)) :=
    match ho_sleep ho with
    | None => mk (option_map (answer_of mt) w) None
    | Some d =>
        match new_filter mt d fo with
        | Ret (_, Some e) => HcError e
        | Ret (g, None) =>
            mk (match w with
                | Some None => Some (fun _ => inl true)
                | _ => option_map (answer_of mt) w
                end) (Some (answer_of mt g))
        | Pan p => HcPanics p
        | Stuck => HcPanics nil_deref       (* not reachable *)
        end
    end in
  match ho_wake ho with
  | None => sleep_part None
  | Some d =>
      match new_filter mt d fo with
      | Ret (_, Some e) => HcError e
      | Ret (f, None) => sleep_part (Some f)
      | Pan p => HcPanics p
      | Stuck => HcPanics nil_deref       (* not reachable *)
      end
  end.
(** core/hibernate.go:29-31 *)
Definition hib_active (ho : hib_options) : bool :=
  match ho_wake ho, ho_sleep ho with None, None => false | _, _ => true end.

(** Chaining a listener to the read hook. *)
Definition chain_read (l : read_listener) (o : options) : options :=
  let k := op_hooks o in
  set_hooks (mkHooks (hk_file_sub k) (hk_dir_sub k) (hook_chain l (hk_read k)) (hk_stat k) (hk_sort k)) o.
(** scheme-sampler.go:29-36 *)
Definition filter_listener (m : list fsnode -> list fsnode) : read_listener :=
  fun es err _ _ => (m es, err).
(** internal/feat/sampling/controller.go:27-36 *)
Definition sample_listener (so : sampling_options) : read_listener :=
  fun es _ _ _ => (union so (files_of es) (dirs_of es), None).

(** The kernel's configuration: the options are read through the hooks when used
    (mediator.go, extend.go:46-49: the directory or the file sub path hook). *)
Definition cfg_of (o : options) (sub : subscription) (tree : string) (cl : client)
    (sc : option scheme) (hb : option hibcfg) : cfg :=
  let b := op_behaviours o in
  let k := op_hooks o in
  mkCfg sub (bh_depth b) (bh_files_first b) (bh_keep_sep b)
    (hook_invoke broadcast_read (hk_read k))
    (hook_invoke broadcast_sort (hk_sort k))
    (fun tr keep n => if n_isdir n then hook_invoke broadcast_subpath (hk_dir_sub k) tr keep n
                      else hook_invoke broadcast_subpath (hk_file_sub k) tr keep n)
    (hook_invoke broadcast_stat (hk_stat k))
    (df_fault (op_defects o)) (df_skip (op_defects o)) (df_panic (op_defects o))
    tree sc hb None cl.

(** builders.go:71-128 and director.go:27-67 for a prime session: the active
    plugins (hibernation, nanny, filter, sampling) are registered, then
    initialised. Only the filter plugin's Register can fail, only the
    hibernation plugin's Init can. The sample filter listens to the read hook
    from Register on, sampling from Init on. *)
Definition build_plugins (mt : matchers) (o : options) (sub : subscription) (tree : string) (cl : client)
    : built * options :=
  let fo := op_filter o in
  let so := op_sampling o in
  let scheme_made :=
    if filtering_active fo then
      match create_scheme mt fo so with
      | Ret (p, ch, e) => Ret (Some (p, ch), e)
      | Pan q => Pan q
      | Stuck => Stuck
      end
    else Ret (None, None) in
  match scheme_made with
  | Pan q => (BuildPanics q, o)
  | Stuck => (BuildPanics nil_deref, o)       (* not reachable *)
  | Ret (made, err) =>
      let o1 := match made with
        | Some (Some (CrSampler m), _) => chain_read (filter_listener m) o
        | _ => o
        end in
      match err with
      | Some e => (BuildRefused e, o1)
      | None =>
          let hib := if hib_active (op_hib o1) then
              match hib_of mt (op_hib o1) fo with HcOk h => inl (Some h) | x => inr x end
            else inl None in
          match hib with
          | inr (HcError e) => (BuildInitFailed e, o1)
          | inr (HcPanics q) => (BuildPanics q, o1)
          | inr (HcOk _) => (BuildPanics nil_deref, o1)       (* not reachable *)
          | inl hb =>
              let o2 := if sampling_active so then chain_read (sample_listener so) o1 else o1 in
              let sc := match made with Some (p, ch) => Some (kernel_scheme mt p ch) | None => None end in
              (BuildReady (cfg_of o2 sub tree cl sc hb) (sampling_active so), o2)
          end
      end
  end.

(** builders.go:31-128 with scaffold.go:26-52 and 102-121 (pacify). The options
    afterwards: those given as Using.O are changed in place. *)
Definition build_prime (env : environment) (mt : matchers) (fac : facade) (settings : list (option setting))
    : built * options :=
  match fac with
  | FacRelic _ => (BuildRefused err_wrong_primary, afterwards (fst (get_options env settings)))
  | FacUsing u =>
      match prime_options env u settings with
      | (o, Some e) => (BuildRefused e, o)
      | (o, None) =>
          match us_sub u, us_handler u with
          | Some sub, Some cl => build_plugins mt o sub (us_tree u) cl
          | _, _ => (BuildRefused err_missing_sub, o)      (* not reachable *)
          end
      end
  end.

(** What the client sees of Navigate: what it returns, everything that happened,
    the metrics of the result ([None]: a failed result, which has none). *)
Record report := mkReport {
  rp_outcome : outcome (option error);
  rp_trace : list event;
  rp_metrics : option metrics
}.
(** driver.go:29-37, session.go:17-27, synchronise.go:125-131 (sequential), navigator-hades.go *)
Definition run_built (b : built) (tree : string) (t : fsnode) : report :=
  match b with
  | BuildPanics p => mkReport (Pan p) [] None
  | BuildRefused e => mkReport (Ret (Some e)) [] None
  | BuildInitFailed e =>
      mkReport (Ret (Some e)) [EvBegin tree; EvEnd (mkMetrics 0 0 0 0 0 0)] (Some (mkMetrics 0 0 0 0 0 0))
  | BuildReady c sampling =>
      let '(o, s) := session c sampling t in
      mkReport o (s_trace s) (Some (s_metrics s))
  end.
Definition facade_tree (f : facade) : string := match f with FacUsing u => us_tree u | FacRelic _ => EmptyString end.

(** Walk().Configure().Extent(Prime(facade, settings...)).Navigate(ctx) *)
Definition walk_prime (env : environment) (mt : matchers) (fac : facade) (settings : list (option setting))
    (t : fsnode) : report :=
  run_built (fst (build_prime env mt fac settings)) (facade_tree fac) t.

(** The life cycle handlers called: those registered for the kind of the event. *)
Definition notice_of (e : event) : option notice :=
  match e with
  | EvBegin _ => Some NtBegin
  | EvDescend _ => Some NtDescend
  | EvAscend _ => Some NtAscend
  | EvWake => Some NtWake
  | EvSleep => Some NtSleep
  | EvEnd _ => Some NtEnd
  | _ => None
  end.
Definition notified (cs : controls nat) (tr : list event) : list (nat * event) :=
  flat_map (fun e => match notice_of e with
                     | Some k => map (fun h => (h, e)) (run_dispatcher (ctrl_dispatch (cs k)))
                     | None => []
                     end) tr.
