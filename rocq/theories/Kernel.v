(** The traversal kernel: navigators, agent, mediator, guardian chain and the
    links (plugins) which decorate the client.  No proofs here. *)
From Verif Require Import Base Paths Level.

(** ** Nodes *)

(** core/node.go:14-36 (Node and its Extension).
    Simplified: [n_src] stands for Entry and Info (for the root, Info only);
    Extension.Custom and filteredOut are not modelled.
    Ghost: [n_pos] is the position of the node below the root (indices of the
    visited entries); the code has no such field and nothing in the model
    depends on it. *)
Inductive node := mkNode {
  n_path : string;
  n_src : fsnode;
  n_isdir : bool;
  n_err : option error;
  n_children : list fsnode;
  n_parent : option node;
  n_depth : Z;
  n_leaf : bool;
  n_name : string;
  n_dirpart : string;
  n_scope : N;
  n_subpath : string;
  n_pos : list nat
}.

(** core/node.go:38-66 (New, Top): the node before it is extended. *)
Definition new_node (path : string) (src : fsnode) (parent : option node)
    (err : option error) (pos : list nat) : node :=
  mkNode path src (fisdir src) err [] parent 0 false "" "" ScopeUndefined "" pos.

(** Assignment to node.Children: internal/feat/nanny/nanny-plugin.go:40,
    internal/kernel/navigation-vapour.go:94-96 *)
Definition with_children (cs : list fsnode) (n : node) : node :=
  mkNode (n_path n) (n_src n) (n_isdir n) (n_err n) cs (n_parent n) (n_depth n)
    (n_leaf n) (n_name n) (n_dirpart n) (n_scope n) (n_subpath n) (n_pos n).

(** Assignment to node.Extension: internal/kernel/extend.go:30-36,65 *)
Definition with_extension (depth : Z) (leaf : bool) (name dirpart : string)
    (scope : N) (subpath : string) (n : node) : node :=
  mkNode (n_path n) (n_src n) (n_isdir n) (n_err n) (n_children n) (n_parent n)
    depth leaf name dirpart scope subpath (n_pos n).

(** ** Metrics: core/metrics.go, internal/enclave/supervisor.go.
    Unbounded counters (the code's are uint). *)
Record metrics := mkMetrics {
  m_files : nat;
  m_files_out : nat;
  m_dirs : nat;
  m_dirs_out : nat;
  m_child : nat;
  m_child_out : nat
}.
Definition metrics0 : metrics := mkMetrics 0 0 0 0 0 0.

(** internal/enclave/supervisor.go:52-58 *)
Definition count (k : metric) (m : metrics) : nat :=
  match k with
  | FilesInvoked => m_files m
  | FilesFilteredOut => m_files_out m
  | DirectoriesInvoked => m_dirs m
  | DirectoriesFilteredOut => m_dirs_out m
  | ChildFilesFound => m_child m
  | ChildFilesFilteredOut => m_child_out m
  end.

(** core/metrics.go:54-58 (Times); Tick is Times(1) *)
Definition times (k : metric) (by_ : nat) (m : metrics) : metrics :=
  match k with
  | FilesInvoked => mkMetrics (m_files m + by_) (m_files_out m) (m_dirs m) (m_dirs_out m) (m_child m) (m_child_out m)
  | FilesFilteredOut => mkMetrics (m_files m) (m_files_out m + by_) (m_dirs m) (m_dirs_out m) (m_child m) (m_child_out m)
  | DirectoriesInvoked => mkMetrics (m_files m) (m_files_out m) (m_dirs m + by_) (m_dirs_out m) (m_child m) (m_child_out m)
  | DirectoriesFilteredOut => mkMetrics (m_files m) (m_files_out m) (m_dirs m) (m_dirs_out m + by_) (m_child m) (m_child_out m)
  | ChildFilesFound => mkMetrics (m_files m) (m_files_out m) (m_dirs m) (m_dirs_out m) (m_child m + by_) (m_child_out m)
  | ChildFilesFilteredOut => mkMetrics (m_files m) (m_files_out m) (m_dirs m) (m_dirs_out m) (m_child m) (m_child_out m + by_)
  end.

(** ** Saved state
    core/core-defs.go:73-87 (ActiveState), as filled in by
    internal/kernel/navigation-vapour.go:45-65. Simplified: the two file system
    descriptions and the constant Hibernation field are left out.
    [sv_metrics]: the mediator's own three metrics (mediator.go:39-43,
    author.go:31); the other three are saved as absent (0). *)
Record saved := mkSaved {
  sv_tree : string;
  sv_path : string;
  sv_isdir : bool;
  sv_depth : Z;
  sv_sub : subscription;
  sv_metrics : metrics
}.

(** ** Observable events, in the order in which they happen *)
Inductive event :=
| EvBegin (tree : string)            (* life Begin notification *)
| EvDescend (n : node)               (* life Descend notification; n as it is before extension *)
| EvAscend (n : node)                (* life Ascend notification; n as extended and as it left the decorator chain *)
| EvCall (n : node) (r : cbres)      (* the client callback ran on n with result r *)
| EvOffer (n : node) (r : cbres)     (* ghost: the decorator chain ran on n with result r *)
| EvWake                             (* life Wake notification *)
| EvSleep                            (* life Sleep notification *)
| EvRescue (sv : saved)              (* the panic handler ran with this state to save *)
| EvEnd (m : metrics).               (* life End notification, with the result's metrics *)

(** life/events.go:33-40: which notifications are muted *)
Record mutes := mkMutes {
  mu_ascend : bool;
  mu_begin : bool;
  mu_descend : bool;
  mu_end : bool;
  mu_wake : bool;
  mu_sleep : bool
}.
Definition mutes_none : mutes := mkMutes false false false false false false.
(** life/events.go:66-73 *)
Definition mute_all (_ : mutes) : mutes := mkMutes true true true true true true.
(** life/events.go:75-81: Wake is not in the list *)
Definition unmute_all (m : mutes) : mutes := mkMutes false false false false (mu_wake m) false.

(** ** Mutable state of a session *)
Record st := mkSt {
  s_depth : Z;              (* periscope.depth *)
  s_metrics : metrics;      (* supervisor *)
  s_hib : hibstate;         (* hiber simple.current *)
  s_items : list role;      (* guardian.container.positions.Items() *)
  s_mutes : mutes;          (* binder controls *)
  s_trace : list event      (* everything observable so far *)
}.

Definition set_depth (d : Z) (s : st) : st :=
  mkSt d (s_metrics s) (s_hib s) (s_items s) (s_mutes s) (s_trace s).
Definition set_metrics (m : metrics) (s : st) : st :=
  mkSt (s_depth s) m (s_hib s) (s_items s) (s_mutes s) (s_trace s).
Definition set_hib (h : hibstate) (s : st) : st :=
  mkSt (s_depth s) (s_metrics s) h (s_items s) (s_mutes s) (s_trace s).
Definition set_items (l : list role) (s : st) : st :=
  mkSt (s_depth s) (s_metrics s) (s_hib s) l (s_mutes s) (s_trace s).
Definition set_mutes (m : mutes) (s : st) : st :=
  mkSt (s_depth s) (s_metrics s) (s_hib s) (s_items s) m (s_trace s).
Definition emit (e : event) (s : st) : st :=
  mkSt (s_depth s) (s_metrics s) (s_hib s) (s_items s) (s_mutes s) (s_trace s ++ [e]).
(** life/events.go:113-119: a muted control dispatches a nop *)
Definition dispatch (muted : bool) (e : event) (s : st) : st :=
  if muted then s else emit e s.
Definition tick_by (k : metric) (n : nat) (s : st) : st :=
  set_metrics (times k n (s_metrics s)) s.

(** ** Configuration of a session *)

(** What the navigator hands to the links besides the node: the directory
    contents (files, directories); [None] is the nil cargo of a file node
    (navigation-vapour.go:37-43 discards the empty contents it makes). *)
Definition contents := option (list fsnode * list fsnode).

(** Asking a filter or a condition: an answer or a panic (a client's filter may
    panic; asking a nil filter does). *)
Definition asked (A : Type) : Type := (A + panicv)%type.

(** internal/feat/filter/schemes.go: primary scheme (custom and native schemes
    ask a predicate of the node; the sampler scheme matches directory entries)
    and the optional nanny scheme (child filter). *)
Inductive primary_scheme :=
| PrimaryNode (is_match : node -> asked bool)
| PrimarySampler (matching : list fsnode -> list fsnode).
Record scheme := mkScheme {
  sc_primary : option primary_scheme;
  sc_child : option (list fsnode -> asked (list fsnode))
}.

(** core/hibernate.go, internal/feat/hiber: the wake and sleep conditions
    (WakeAt, SleepAt; [None] when not given) and the behaviour *)
Record hibcfg := mkHib {
  hb_wake_at : option (node -> asked bool);
  hb_sleep_at : option (node -> asked bool);
  hb_incl_wake : bool;
  hb_incl_sleep : bool
}.
(** internal/feat/hiber/hibernate-simple-profile.go:21-58: the triggers; the
    permissive wake and prohibitive sleep defaults *)
Definition hb_wake (h : hibcfg) (n : node) : asked bool :=
  match hb_wake_at h with Some f => f n | None => inl true end.
Definition hb_sleep (h : hibcfg) (n : node) : asked bool :=
  match hb_sleep_at h with Some f => f n | None => inl false end.
(** internal/feat/hiber/hibernate-defs.go:61-67 (launch) *)
Definition hb_launch (h : hibcfg) : hibstate :=
  match hb_wake_at h with Some _ => HibPending | None => HibActive end.

(** internal/feat/resume/strategy-fastward.go:16-22 *)
Record fastcfg := mkFast { fw_parent : string; fw_name : string }.

Record cfg := mkCfg {
  c_sub : subscription;
  c_depth : N;                                   (* Behaviours.Cascade.Depth *)
  c_files_first : bool;                          (* Behaviours.Sort.SortFilesFirst *)
  c_keep_sep : bool;                             (* Behaviours.SubPath.KeepTrailingSep *)
  c_read : string -> fsnode -> list fsnode * option error; (* Hooks.ReadDirectory *)
  c_sort : list fsnode -> list fsnode;           (* Hooks.Sort (in place) *)
  c_subpath : string -> bool -> node -> string;  (* Hooks.File/DirectorySubPath *)
  c_stat : fsnode -> option error;               (* Hooks.QueryStatus *)
  c_fault : error -> option error;               (* Defects.Fault.Accept *)
  c_ask : node -> contents -> option error -> skip_traversal * option error; (* Defects.Skip.Ask *)
  c_rescue : list event -> panicv -> saved -> string + error; (* Defects.Panic.Rescue *)
  c_tree : string;                               (* mediator.tree *)
  c_scheme : option scheme;                      (* filter plugin *)
  c_hib : option hibcfg;                         (* hibernate plugin *)
  c_fast : option fastcfg;                       (* fastward strategy *)
  c_client : list event -> node -> cbres         (* the client callback; sees all that happened before *)
}.

(** nef.Separate (nefilim, not in the repository; assumed to keep the order),
    called at internal/kernel/contents.go:23 *)
Definition files_of (es : list fsnode) : list fsnode := filter (fun e => negb (fisdir e)) es.
Definition dirs_of (es : list fsnode) : list fsnode := filter fisdir es.

(** internal/kernel/contents.go:49-62 (All) on sorted parts *)
Definition all_of (files_first : bool) (files dirs : list fsnode) : list fsnode :=
  if files_first then files ++ dirs else dirs ++ files.

(** pref/defaults.go:16-27 *)
Definition default_read (_ : string) (t : fsnode) : list fsnode * option error :=
  match fread t with
  | Some e => ([], Some e)
  | None =>
      if fisdir t
      then (filter (fun e => negb (String.eqb (fname e) ".DS_Store")) (fkids t), None)
      else ([], Some (Err (Plain 1)))   (* not a directory *)
  end.

(** pref/defaults.go:93-97 *)
Definition default_ask (_ : node) (_ : contents) (_ : option error) : skip_traversal * option error :=
  (SkipNoneTraversal, None).
(** pref/defaults.go:85-87 *)
Definition default_fault (e : error) : option error := Some e.

(** ** Links of the decorator chain *)

(** The outcome of a link: (continue?, error) or a panic, the node (Children may
    have been assigned), and the state. *)
Definition linkres : Type := outcome (bool * option error) * node * st.

(** internal/kernel/guardian.go:39-49 (anchor.Next) *)
Definition anchor_next (c : cfg) (n : node) (s : st) : linkres :=
  let s1 := tick_by (if n_isdir n then DirectoriesInvoked else FilesInvoked) 1 s in
  let r := c_client c (s_trace s1) n in
  let s2 := emit (EvCall n r) s1 in
  match r with
  | CNil => (Ret (false, None), n, s2)
  | CErr e => (Ret (false, Some e), n, s2)
  | CPanic p => (Pan p, n, s2)
  end.

(** internal/feat/hiber/hibernate-simple-profile.go:72-110 *)
Definition hib_next (c : cfg) (n : node) (s : st) : linkres :=
  match c_hib c with
  | None => (Pan nil_deref, n, s)
  | Some h =>
      match s_hib s with
      | HibPending =>
          match hb_wake h n with
          | inl true =>
            let s1 := dispatch (mu_wake (s_mutes s)) EvWake s in
            let s2 := set_hib HibActive s1 in
            if hb_incl_wake h then (Ret (true, None), n, s2)
            else (Ret (false, None), n, s2)
          | inl false => (Ret (false, None), n, s)
          | inr p => (Pan p, n, s)
          end
      | HibActive =>
          match hb_sleep h n with
          | inl true =>
            let s1 := dispatch (mu_sleep (s_mutes s)) EvSleep s in
            let s2 := set_hib HibRetired s1 in
            if hb_incl_sleep h then (Ret (true, None), n, s2)
            else (Ret (false, None), n, s2)
          | inl false => (Ret (true, None), n, s)
          | inr p => (Pan p, n, s)
          end
      | HibRetired => (Ret (false, Some (Err SkipAll)), n, s)
      end
  end.

(** internal/feat/nanny/nanny-plugin.go:35-44; sorting a nil cargo panics
    (navigation-vapour.go:68, contents.go:77-78) *)
Definition nanny_next (c : cfg) (n : node) (cargo : contents) (s : st) : linkres :=
  match cargo with
  | None => (Pan nil_deref, n, s)
  | Some (files, _) =>
      let sorted := c_sort c files in
      (Ret (true, None), with_children sorted n, tick_by ChildFilesFound (length sorted) s)
  end.

(** internal/feat/filter/scheme-custom.go:27-41 (matchNext) *)
Definition match_next (f : node -> asked bool) (n : node) (s : st) : linkres :=
  match f n with
  | inl true => (Ret (true, None), n, s)
  | inl false => (Ret (false, None), n,
        tick_by (if n_isdir n then DirectoriesFilteredOut else FilesFilteredOut) 1 s)
  | inr p => (Pan p, n, s)
  end.

(** internal/feat/filter/scheme-sampler.go:41-61. The root's own info is turned
    into an entry (nef.FromFileInfo); modelled by the root itself. *)
Definition sampler_next (matching : list fsnode -> list fsnode) (n : node)
    (cargo : contents) (s : st) : linkres :=
  if scope_is_tree (n_scope n) then
    let result := match matching [n_src n] with [] => false | _ => true end in
    match cargo with
    | None => (Pan nil_deref, n, s)
    | Some (files, _) =>
        (Ret (result, None), n,
         tick_by (if result then ChildFilesFound else ChildFilesFilteredOut) (length files) s)
    end
  else (Ret (true, None), n, s).

(** internal/feat/filter/scheme-nanny.go:37-50 *)
Definition nanny_scheme_next (c : cfg) (matching : list fsnode -> asked (list fsnode))
    (n : node) (cargo : contents) (s : st) : linkres :=
  match cargo with
  | None => (Pan nil_deref, n, s)
  | Some (files, _) =>
      let sorted := c_sort c files in
      match matching sorted with
      | inl m =>
          (Ret (true, None), with_children m n,
           tick_by ChildFilesFilteredOut (length sorted - length m)
             (tick_by ChildFilesFound (length m) s))
      | inr p => (Pan p, n, s)
      end
  end.

Definition primary_next (p : primary_scheme) (n : node) (cargo : contents) (s : st) : linkres :=
  match p with
  | PrimaryNode f => match_next f n s
  | PrimarySampler m => sampler_next m n cargo s
  end.

(** internal/feat/filter/schemes.go:27-44 and scheme-hybrid.go:54-72 *)
Definition filter_next (c : cfg) (n : node) (cargo : contents) (s : st) : linkres :=
  match c_scheme c with
  | None => (Pan nil_deref, n, s)
  | Some sc =>
      match sc_primary sc, sc_child sc with
      | Some p, None => primary_next p n cargo s
      | None, Some m => nanny_scheme_next c m n cargo s
      | None, None => (Pan nil_deref, n, s)
      | Some p, Some m =>
          match primary_next p n cargo s with
          | (Ret (true, e), n1, s1) =>
              match nanny_scheme_next c m n1 cargo s1 with
              | (Ret (_, e2), n2, s2) => (Ret (true, e2), n2, s2)
              | x => x
              end
          | x => x
          end
      end
  end.

(** internal/feat/resume/strategy-fastward.go:41-43 (IsMatch): evaluating
    node.Parent.Path of the top node panics *)
Definition fast_match (f : fastcfg) (n : node) : outcome bool :=
  if String.eqb (n_name n) (fw_name f) then
    match n_parent n with
    | None => Pan nil_deref
    | Some p => Ret (String.eqb (n_path p) (fw_parent f) || String.eqb (fw_parent f) ".")
    end
  else Ret false.

(** internal/feat/resume/strategy-fastward.go:117-129 with guardian.go:132-143
    (Unwind) and collections/positional-set.go:80-88 (Delete) *)
Definition fast_next (c : cfg) (n : node) (s : st) : linkres :=
  match c_fast c with
  | None => (Pan nil_deref, n, s)
  | Some f =>
      match fast_match f n with
      | Ret true =>
          (Ret (true, None), n,
           set_mutes (unmute_all (s_mutes s))
             (set_items (filter (fun r => negb (role_eqb r RoleFastward)) (s_items s)) s))
      | Ret false => (Ret (false, None), n, s)
      | Pan p => (Pan p, n, s)
      | Stuck => (Stuck, n, s)
      end
  end.

(** guardian.go:154: the link registered for a role. [RoleSampler]:
    internal/feat/sampling/controller.go:23-25. An unregistered role is a nil
    link. *)
Definition link_next (c : cfg) (r : role) (n : node) (cargo : contents) (s : st) : linkres :=
  match r with
  | RoleAnchor => anchor_next c n s
  | RoleHibernate => hib_next c n s
  | RoleNanny => nanny_next c n cargo s
  | RoleClientFilter => filter_next c n cargo s
  | RoleSampler => (Ret (true, None), n, s)
  | RoleFastward => fast_next c n s
  | RoleUndefined => (Pan nil_deref, n, s)
  end.

(** guardian.go:152-162 (iterate), over the Items taken before the loop *)
Fixpoint iterate (c : cfg) (rs : list role) (n : node) (cargo : contents) (s : st)
    : outcome (option error) * node * st :=
  match rs with
  | [] => (Ret None, n, s)
  | r :: rs' =>
      match link_next c r n cargo s with
      | (Ret (next, err), n1, s1) =>
          match next, err with
          | true, None => iterate c rs' n1 cargo s1
          | _, _ => (Ret err, n1, s1)
          end
      | (Pan p, n1, s1) => (Pan p, n1, s1)
      | (Stuck, n1, s1) => (Stuck, n1, s1)
      end
  end.

Definition res_of (o : outcome (option error)) : cbres :=
  match o with
  | Ret None => CNil
  | Ret (Some e) => CErr e
  | Pan p => CPanic p
  | Stuck => CNil
  end.

(** mediator.go:75-79, guardian.go:92-112,148-150 (Invoke). When no role is
    active the code calls the anchor directly; this is [iterate] over
    [[RoleAnchor]]. The ghost event records the result. *)
Definition invoke (c : cfg) (n : node) (cargo : contents) (s : st)
    : outcome (option error) * node * st :=
  let '(o, n1, s1) := iterate c (s_items s) n cargo s in
  (o, n1, emit (EvOffer n1 (res_of o)) s1).

(** ** Mediator: depth *)

(** mediator.go:160-168 *)
Definition descend (c : cfg) (n : node) (s : st) : bool * st :=
  let '(ok, d) := per_descend (c_depth c) (s_depth s) in
  if ok then (true, dispatch (mu_descend (s_mutes s)) (EvDescend n) (set_depth d s))
  else (false, s).

(** mediator.go:170-175 with permit = true *)
Definition ascend (n : node) (s : st) : st :=
  dispatch (mu_ascend (s_mutes s)) (EvAscend n) (set_depth (per_ascend (s_depth s)) s).

(** ** Inspection *)

(** extend.go:51-63 *)
Definition ends_with_sep (p : string) : bool :=
  match rev (list_ascii_of_string p) with
  | ch :: _ => Ascii.eqb ch sep
  | [] => false
  end.
Definition strip_last_sep (p : string) : string :=
  if ends_with_sep p then substring 0 (String.length p - 1) p else p.

(** extend.go:12-66 *)
Definition extend (c : cfg) (tree : string) (n : node) (cargo : contents) (s : st) : node :=
  let dirs := match cargo with Some (_, ds) => ds | None => [] end in
  let leaf := n_isdir n && match dirs with [] => true | _ => false end in
  let scope :=
    if n_isdir n then N.lor (per_scope (s_depth s) leaf) ScopeDirectory
    else N.lor ScopeLeaf ScopeFile in
  let '(parent, name) := split_path (n_path n) in
  let n1 := with_extension (per_depth (s_depth s)) leaf name parent scope "" n in
  let sub := c_subpath c tree (c_keep_sep c) n1 in
  let sub := if c_keep_sep c then sub else strip_last_sep sub in
  with_extension (per_depth (s_depth s)) leaf name parent scope sub n.

(** navigation-fs.go:7-14 and contents.go:14-26 *)
Definition read_contents (c : cfg) (n : node) : (list fsnode * list fsnode) * option error :=
  let '(es, err) := c_read c (n_path n) (n_src n) in
  ((files_of es, dirs_of es), err).

(** navigator-files.go:61-88, navigator-universal.go:53-80,
    navigator-directories.go:51-79: contents (sorted as the navigator sorts
    them), entries to travel, read error. *)
Definition inspect (c : cfg) (n : node) : contents * list fsnode * option error :=
  match c_sub c with
  | SubFiles | SubUniversal =>
      if n_isdir n then
        let '((fs, ds), err) := read_contents c n in
        let fs' := c_sort c fs in
        let ds' := c_sort c ds in
        (Some (fs', ds'), all_of (c_files_first c) fs' ds', err)
      else (None, [], None)
  | SubDirectories | SubDirectoriesWithFiles =>
      let '((fs, ds), err) := read_contents c n in
      let ds' := c_sort c ds in
      (Some (fs, ds'), ds', err)
  end.

(** ** The agent *)

(** Result of Traverse and travel: (progress, error) *)
Definition tres : Type := outcome (bool * option error) * st.

(** navigator-agent.go:153-168: the node made for the entry [e], the [i]-th
    entry of the travelled directory *)
Definition child_node (parent : node) (i : nat) (e : fsnode) : node :=
  new_node (join (n_path parent) (fname e)) e (Some parent) (finfo e) (n_pos parent ++ [i]).

(** navigator-agent.go:152-201: the loop over the entries. Note that [break] at
    line 194 leaves the switch only, so the loop goes on. *)
Fixpoint travel_loop (trav : node -> st -> tres) (parent : node) (i : nat)
    (es : list fsnode) (s : st) : tres :=
  match es with
  | [] => (Ret (true, None), s)
  | e :: es' =>
      match trav (child_node parent i e) s with
      | (Ret (false, Some er), s1) =>
          if errors_is SkipDir er then (Ret (false, Some er), s1)
          else (Ret (true, Some er), s1)
      | (Ret (false, None), s1) => travel_loop trav parent (S i) es' s1
      | (Ret (true, Some er), s1) =>
          if errors_is SkipDir er then travel_loop trav parent (S i) es' s1
          else if errors_is SkipAll er then travel_loop trav parent (S i) es' s1
          else (Ret (true, Some er), s1)
      | (Ret (true, None), s1) => travel_loop trav parent (S i) es' s1
      | (Pan p, s1) => (Pan p, s1)
      | (Stuck, s1) => (Stuck, s1)
      end
  end.

(** author.go:18-47, navigation-vapour.go:45-65: the state that is saved. *)
Definition saved_of (c : cfg) (parent : node) (s : st) : saved :=
  mkSaved (c_tree c) (n_path parent) (n_isdir parent) (per_depth (s_depth s)) (c_sub c)
    (mkMetrics (m_files (s_metrics s)) 0 (m_dirs (s_metrics s)) 0 (m_child (s_metrics s)) 0).

(** navigator-agent.go:131-142, locale/messages-errors.go:749-757,788-796: the error made from what
    the panic handler returned; the panic itself is not part of it *)
Definition rescue_error (answer : string + error) : error :=
  match answer with inl to => TraversalSaved to | inr reason => TraversalNotSaved reason end.

(** navigator-agent.go:105-202: the loop under the deferred recover *)
Definition travel (c : cfg) (trav : node -> st -> tres) (parent : node)
    (es : list fsnode) (s : st) : tres :=
  match travel_loop trav parent 0 es s with
  | (Pan p, s1) =>
      let sv := saved_of c parent s1 in
      let s2 := emit (EvRescue sv) s1 in
      (Ret (false, Some (rescue_error (c_rescue c (s_trace s1) p sv))), s2)
  | x => x
  end.

Definition with_node (n : node) (r : tres) : linkres := (fst r, n, snd r).
Lemma with_node_inv : forall n r o n1 s1, with_node n r = (o, n1, s1) -> n1 = n /\ r = (o, s1).
Proof. intros n [a b] o n1 s1 H. inversion H; subst. split; reflexivity. Qed.

(** The body of Traverse between descend and ascend:
    navigator-files.go:42-58, navigator-universal.go:36-50,
    navigator-directories.go:36-48; also the node as it then is: the deferred
    ascend has a pointer to it *)
Definition traverse_body (c : cfg) (trav : node -> st -> tres) (tree : string)
    (n0 : node) (s : st) : linkres :=
  let '(cargo, es, err) := inspect c n0 in
  let n := extend c tree n0 cargo s in
  match c_sub c with
  | SubFiles =>
      if n_isdir n then
        let '(skip, e) := c_ask c n cargo err in
        match skip, err with
        | SkipAllTraversal, _ => (Ret (true, e), n, s)
        | _, Some _ => (Ret (true, e), n, s)
        | SkipDirTraversal, None => (Ret (true, e), n, s)
        | SkipNoneTraversal, None => with_node n (travel c trav n es s)
        end
      else
        match invoke c n cargo s with
        | (Ret e, n1, s1) => (Ret (false, e), n1, s1)
        | (Pan p, n1, s1) => (Pan p, n1, s1)
        | (Stuck, n1, s1) => (Stuck, n1, s1)
        end
  | SubUniversal =>
      match invoke c n cargo s with
      | (Ret (Some e), n1, s1) => (Ret (true, Some e), n1, s1)
      | (Ret None, n1, s1) =>
          let '(skip, e) := c_ask c n1 cargo err in
          match skip with
          | SkipAllTraversal => (Ret (true, e), n1, s1)
          | SkipDirTraversal => (Ret (false, e), n1, s1)
          | SkipNoneTraversal => with_node n1 (travel c trav n1 es s1)
          end
      | (Pan p, n1, s1) => (Pan p, n1, s1)
      | (Stuck, n1, s1) => (Stuck, n1, s1)
      end
  | SubDirectories | SubDirectoriesWithFiles =>
      match invoke c n cargo s with
      | (Ret (Some e), n1, s1) => (Ret (true, Some e), n1, s1)
      | (Ret None, n1, s1) =>
          let '(skip, e) := c_ask c n1 cargo err in
          match skip with
          | SkipAllTraversal => (Ret (true, e), n1, s1)
          | _ => with_node n1 (travel c trav n1 es s1)
          end
      | (Pan p, n1, s1) => (Pan p, n1, s1)
      | (Stuck, n1, s1) => (Stuck, n1, s1)
      end
  end.

(** navigator-*.go: Traverse. The deferred ascend runs whether the body returns
    or panics. *)
Fixpoint traverse (fuel : nat) (c : cfg) (tree : string) (n : node) (s : st) : tres :=
  match fuel with
  | O => (Stuck, s)
  | S f =>
      let '(ok, s1) := descend c n s in
      if ok then
        let '(o, n1, s2) := traverse_body c (traverse f c tree) tree n s1 in
        (o, ascend n1 s2)
      else (Ret (true, None), s1)
  end.

(** navigator-agent.go:47-74 (top): the tree path and the file system node found
    there. *)
Definition top (c : cfg) (tree : string) (t : fsnode) (s : st) : outcome (option error) * st :=
  match c_stat c t with
  | Some ie => (Ret (c_fault c ie), s)
  | None =>
      match traverse (S (height t)) c tree (new_node tree t None None []) s with
      | (Ret (_, e), s1) => (Ret e, s1)
      | (Pan p, s1) => (Pan p, s1)
      | (Stuck, s1) => (Stuck, s1)
      end
  end.

(** mediator.go:114-128 (Navigate, without the logging) *)
Definition navigate (c : cfg) (t : fsnode) (s : st) : outcome (option error) * st :=
  top c (c_tree c) t s.

(** The state of a freshly built session: mediator.go:31-61, guardian.go:92-130;
    [items] is the positional set after the plugins have decorated the client
    (see Session.v). The hibernation state is only used when that plugin is
    active. *)
Definition init_st (items : list role) (h : hibstate) : st :=
  mkSt 0 metrics0 h items mutes_none [].
