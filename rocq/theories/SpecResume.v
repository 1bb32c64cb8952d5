(** Specification vocabulary for resumed sessions. Uses the data types of the
    model only, not its functions, except in [reads] (see there). *)
From Verif Require Import Base Paths Level Kernel Spec PathFacts Filters Hooks Options Build SpecBuild Resume.
From Coq Require Import Sorted.
Local Open Scope string_scope.
Local Open Scope list_scope.

(** ** Assumptions *)

(** The path calculator puts paths of entries of the directory [p] together as
    the navigator does, and takes them apart again. *)
Definition sound_at (pc : pathcalc) (p : string) : Prop :=
  clean p = p /\
  forall b, proper b ->
    pc_join pc p b = join p b /\ pc_split pc (join p b) = (p, b) /\
    pc_dir pc (join p b) = p /\ pc_base pc (join p b) = b.

(** ** Spawn *)

(** The way up: [climb tree p l] when [p] is the tree ([l] empty) or the path of
    the entry [b] of the directory [d], which comes next on the way:
    [l] starts with [(d, b)]. *)
Inductive climb (tree : string) : string -> list (string * string) -> Prop :=
| climb_tree : climb tree tree []
| climb_up : forall d b l, proper b -> join d b <> tree -> climb tree d l ->
    climb tree (join d b) ((d, b) :: l).

(** Which entries of the directory at [d] follow the name [b] ([own]: or have
    this name), by the order of the bytes of the names; directories and files
    each sorted, in the order of the options. *)
Definition followers (c : cfg) (dk : disk) (own : bool) (d b : string) : list fsnode :=
  let found := filter (fun e => String.ltb b (fname e) || (own && String.eqb b (fname e)))
                 (fst (c_read c d (dk d))) in
  let ds := c_sort c (filter fisdir found) in
  let fs := c_sort c (filter (fun e => negb (fisdir e)) found) in
  if c_files_first c then fs ++ ds else ds ++ fs.

(** One listing after the other. *)
Inductive listings (es : string -> fsnode -> list fsnode) (dk : disk) (d : string)
  : list fsnode -> list place -> Prop :=
| ls_nil : listings es dk d [] []
| ls_cons : forall e l P1 P2,
    preorder es [] (join d (fname e)) (dk (join d (fname e))) P1 -> listings es dk d l P2 ->
    listings es dk d (e :: l) (P1 ++ P2).

(** What a spawn resume is to visit, level by level upwards. *)
Inductive spawn_listing (c : cfg) (es : string -> fsnode -> list fsnode) (dk : disk)
  : bool -> list (string * string) -> list place -> Prop :=
| sl_nil : forall own, spawn_listing c es dk own [] []
| sl_cons : forall own d b l P1 P2,
    listings es dk d (followers c dk own d b) P1 -> spawn_listing c es dk false l P2 ->
    spawn_listing c es dk own ((d, b) :: l) (P1 ++ P2).

(** The directories on the way can be read. *)
Definition way_readable (c : cfg) (dk : disk) (l : list (string * string)) : Prop :=
  Forall (fun x => snd (c_read c (fst x) (dk (fst x))) = None) l.
(** What is to be spawned can be stat-ed. *)
Definition statable (c : cfg) (dk : disk) (l : list (string * string)) : Prop :=
  Forall (fun x => forall e, In e (fst (c_read c (fst x) (dk (fst x)))) ->
                   c_stat c (dk (join (fst x) (fname e))) = None) l.
(** The calculator is sound for the directories on the way, and their entries
    have proper names. *)
Definition way_sound (c : cfg) (pc : pathcalc) (dk : disk) (l : list (string * string)) : Prop :=
  Forall (fun x => sound_at pc (fst x) /\
                   forall e, In e (fst (c_read c (fst x) (dk (fst x)))) -> proper (fname e)) l.

(** The places without their positions (the nodes of a spawned subtree know
    their position in it only). *)
Definition thing (p : place) : string * fsnode := (pl_path p, pl_obj p).

(** From the first element on which satisfies [f]. *)
Fixpoint from_first {A} (f : A -> bool) (l : list A) : list A :=
  match l with
  | [] => []
  | x :: l' => if f x then l else from_first f l'
  end.

(** Sorting fewer entries does not change the order of these. *)
Definition stable_sort (c : cfg) : Prop := forall f l, c_sort c (filter f l) = filter f (c_sort c l).
(** In the directories on the way the visiting order is the byte order of the
    names, and the entry on the way is there. *)
Definition way_in_byte_order (c : cfg) (dk : disk) (l : list (string * string)) : Prop :=
  Forall (fun x => let es := entries_all c (fst x) (dk (fst x)) in
                   fisdir (dk (fst x)) = true /\ In (snd x) (map fname es) /\
                   StronglySorted (fun a b => String.ltb (fname a) (fname b) = true) es) l.

(** ** Fastward *)

(** The node named [b] of the directory with path [d]. *)
Definition node_is (d b : string) (n : node) : bool :=
  String.eqb (n_name n) b &&
  match n_parent n with Some p => String.eqb (n_path p) d | None => false end.

(** A callback which does nothing until the first node which satisfies [m], and
    from then on does what [g] does. *)
Definition waking (m : node -> bool) (g : list (node * cbres) -> node -> cbres)
    : list event -> node -> cbres :=
  fun tr n =>
    match from_first (fun x => m (fst x)) (calls tr) with
    | [] => if m n then g [] n else CNil
    | l => g l n
    end.

(** Callbacks and life cycle notifications. *)
Definition seen (tr : list event) : list event :=
  filter (fun e => match e with EvOffer _ _ | EvRescue _ => false | _ => true end) tr.
Definition notices (tr : list event) : list event :=
  filter (fun e => match e with EvOffer _ _ | EvRescue _ | EvCall _ _ => false | _ => true end) tr.
Definition calls_node (m : node -> bool) (e : event) : bool :=
  match e with EvCall n _ => m n | _ => false end.
Definition is_end_notice (e : event) : bool := match e with EvEnd _ => true | _ => false end.
Definition without (f : event -> bool) (tr : list event) : list event := filter (fun e => negb (f e)) tr.

(** ** What a plain traversal of a subtree calls *)

(** The entries travelled by the navigator of the subscription. *)
Definition travelled (c : cfg) : string -> fsnode -> list fsnode :=
  match c_sub c with SubFiles => entries_files c | _ => entries c end.
(** The places whose nodes the callback gets: within the depth limit ([base] is
    the depth of the root of the subtree), only files if these are subscribed to. *)
Definition called_at (c : cfg) (base : Z) (P : list place) : list place :=
  filter (fun p => match c_sub c with SubFiles => is_file_place p | _ => true end)
    (filter (within (c_depth c) base) P).

(** No directory of the tree lists two entries of the same name. *)
Definition distinct_names (c : cfg) (root : string) (t : fsnode) : Prop :=
  forall q, reachable (entries c) root t q -> NoDup (map fname (entries c (pl_path q) (pl_obj q))).

(** ** Building *)

(** What of the options comes back from a saved file, as With functions. *)
Definition restored (o : options) : list with_option :=
  [WithNavigationBehaviours (op_behaviours o); WithSamplingOptions (op_sampling o);
   WithFilter (mkFilterOptions (fo_node (op_filter o)) (fo_child (op_filter o))
     (option_map (fun d => mkSampleDef (sd_type d) (sd_desc d) (sd_pattern d) (sd_scope d) (sd_negate d) None None)
        (fo_sample (op_filter o))) None);
   WithHibernationOptions (op_hib o); WithNoW (co_now (op_conc o))].

(** The same outcome of building, for a resumed session. *)
Definition resumed (sv : saved) (b : built) : resume_built :=
  match b with
  | BuildPanics p => ResumePanics p
  | BuildRefused e => ResumeRefused e
  | BuildInitFailed e => ResumeInitFailed e sv
  | BuildReady c sampling => ResumeReady c sampling sv
  end.

(** Settings without filters and hibernation; with sampling or without. *)
Definition unfiltered (ws : list with_option) : Prop :=
  latest sets_filter ws no_filter = no_filter /\
  latest sets_wake ws None = None /\ latest sets_sleep ws None = None.
Definition sampled (ws : list with_option) : bool := sampling_active (latest sets_sampling ws no_sampling).
(** What such a session gets when it reads a directory: what the hook reads, or,
    when sampling is on, the first (last) so many of the files and of the
    directories read, as [c119_what_is_read] of PropJourney.v says. *)
Definition reads (ws : list with_option) : read_fn :=
  if sampled ws
  then fun path t => (union (latest sets_sampling ws no_sampling) (files_read ws path t) (dirs_read ws path t), None)
  else latest sets_read ws default_read.

(** ** Metrics of two sessions *)

(** Each of the counts of [b] is that of [a] and [d] more. *)
Definition plus_metrics (a d : metrics) : metrics :=
  mkMetrics (m_files a + m_files d) (m_files_out a + m_files_out d) (m_dirs a + m_dirs d)
    (m_dirs_out a + m_dirs_out d) (m_child a + m_child d) (m_child_out a + m_child_out d).
(** The saved state with other metrics. *)
Definition with_metrics (m : metrics) (sv : saved) : saved :=
  mkSaved (sv_tree sv) (sv_path sv) (sv_isdir sv) (sv_depth sv) (sv_sub sv) m.
(** The callback depends on the calls so far, not on the metrics. *)
Definition blind_to_metrics (c : cfg) : Prop :=
  forall tr tr' n, calls tr = calls tr' -> c_client c tr n = c_client c tr' n.

(** How many callbacks got a file, and how many a directory. *)
Definition file_calls (tr : list event) : nat := length (filter (fun x => negb (n_isdir (fst x))) (calls tr)).
Definition dir_calls (tr : list event) : nat := length (filter (fun x => n_isdir (fst x)) (calls tr)).

(** The node stands for an entry of the tree found at some path, as in a session
    whose tree is this path and which starts at the depth [base]: the node at the
    path itself has no parent and the depth [base]. *)
Definition spawned_node (c : cfg) (dk : disk) (base : Z) (n : node) : Prop :=
  exists path, stands c (entries c) path path (dk path) base n.

(** Everything in the listing is on the disk, can be read and stat-ed, and is in
    byte order. *)
Definition tidy (c : cfg) (pc : pathcalc) (dk : disk) (P : list place) : Prop :=
  Forall (fun q =>
    dk (pl_path q) = pl_obj q /\ c_stat c (pl_obj q) = None /\
    (fisdir (pl_obj q) = true ->
       snd (c_read c (pl_path q) (pl_obj q)) = None /\ sound_at pc (pl_path q) /\
       StronglySorted (fun a b => String.ltb (fname a) (fname b) = true) (entries_all c (pl_path q) (pl_obj q)))) P.
