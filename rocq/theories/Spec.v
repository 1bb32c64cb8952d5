(** Specification vocabulary for traversal properties.  Independent of the
    traversal functions of [Kernel.v]: only the data types (events, nodes, file
    system trees) are used. *)
From Verif Require Import Base Paths Level Kernel.
From Coq Require Import Permutation.

(** ** Assumptions about a configuration *)

(** The hooks behave: reading a directory yields only entries of this
    directory, sorting permutes. *)
Definition hooks_ok (c : cfg) : Prop :=
  (forall p t e, In e (fst (c_read c p t)) -> In e (fkids t)) /\
  (forall l, Permutation (c_sort c l) l).

(** Neither filter nor hibernation. *)
Definition plain (c : cfg) : Prop := c_scheme c = None /\ c_hib c = None.

(** The default skip handler (pref/defaults.go:93-97). *)
Definition default_skip (c : cfg) : Prop :=
  forall n k e, c_ask c n k e = (SkipNoneTraversal, None).

(** The tree root can be stat-ed. *)
Definition root_ok (c : cfg) (t : fsnode) : Prop := c_stat c t = None.

(** A callback which returns nil whatever happened before. *)
Definition nil_callback (c : cfg) : Prop := forall tr n, c_client c tr n = CNil.

(** ** What the user observes *)

(** The callbacks made, with their results, in order. *)
Fixpoint calls (tr : list event) : list (node * cbres) :=
  match tr with
  | [] => []
  | EvCall n r :: tr' => (n, r) :: calls tr'
  | _ :: tr' => calls tr'
  end.

(** The nodes offered to the decorator chain (ghost), with the chain's result. *)
Fixpoint offers (tr : list event) : list (node * cbres) :=
  match tr with
  | [] => []
  | EvOffer n r :: tr' => (n, r) :: offers tr'
  | _ :: tr' => offers tr'
  end.

Fixpoint rescues (tr : list event) : list saved :=
  match tr with
  | [] => []
  | EvRescue sv :: tr' => sv :: rescues tr'
  | _ :: tr' => rescues tr'
  end.

(** How many callbacks were for files, for directories. *)
Definition files_in (L : list (node * cbres)) : nat := length (filter (fun x => negb (n_isdir (fst x))) L).
Definition dirs_in (L : list (node * cbres)) : nat := length (filter (fun x => n_isdir (fst x)) L).

(** ** Places: where a file system object sits below the root *)
Record place := mkPlace {
  pl_pos : list nat;      (* indices of the entries on the way from the root *)
  pl_path : string;       (* its path *)
  pl_obj : fsnode         (* the object itself *)
}.
Definition place_of (n : node) : place := mkPlace (n_pos n) (n_path n) (n_src n).

(** The depth-first pre-order listing of the tree below an object: the object,
    then the listings of its entries one after the other. [es path obj] gives
    the entries of [obj] in the order in which they are to be visited. *)
Inductive preorder (es : string -> fsnode -> list fsnode)
  : list nat -> string -> fsnode -> list place -> Prop :=
| pre_node : forall pos path t l,
    preorders es pos path 0 (es path t) l ->
    preorder es pos path t (mkPlace pos path t :: l)
with preorders (es : string -> fsnode -> list fsnode)
  : list nat -> string -> nat -> list fsnode -> list place -> Prop :=
| pre_nil : forall pos path i, preorders es pos path i [] []
| pre_cons : forall pos path i e rest l1 l2,
    preorder es (pos ++ [i]) (join path (fname e)) e l1 ->
    preorders es pos path (S i) rest l2 ->
    preorders es pos path i (e :: rest) (l1 ++ l2).

(** The entries of a directory in visiting order: directories first (or files
    first), each group sorted by the sort hook; a file has no entries. *)
Definition entries_all (c : cfg) (path : string) (t : fsnode) : list fsnode :=
  if fisdir t then
    let found := fst (c_read c path t) in
    let ds := c_sort c (filter fisdir found) in
    let fs := c_sort c (filter (fun e => negb (fisdir e)) found) in
    if c_files_first c then fs ++ ds else ds ++ fs
  else [].

(** The sub directories of a directory in visiting order. *)
Definition entries_dirs (c : cfg) (path : string) (t : fsnode) : list fsnode :=
  c_sort c (filter fisdir (fst (c_read c path t))).

(** The entries travelled by the navigator of each subscription. The files
    navigator does not travel a directory whose reading failed. *)
Definition entries_files (c : cfg) (path : string) (t : fsnode) : list fsnode :=
  match snd (c_read c path t) with None => entries_all c path t | Some _ => [] end.
Definition entries (c : cfg) (path : string) (t : fsnode) : list fsnode :=
  match c_sub c with
  | SubFiles | SubUniversal => entries_all c path t
  | SubDirectories | SubDirectoriesWithFiles => entries_dirs c path t
  end.

(** ** Skips and ends *)
Definition is_skip_error (e : error) : bool := errors_is SkipDir e || errors_is SkipAll e.
Definition is_skip (r : cbres) : bool :=
  match r with CErr e => is_skip_error e | _ => false end.
(** A result that ends the traversal: an error that is not a skip, or a panic. *)
Definition is_end (r : cbres) : bool :=
  match r with CNil => false | CErr e => negb (is_skip_error e) | CPanic _ => true end.

(** [a] is a proper ancestor position of [b]. *)
Fixpoint above (a b : list nat) : bool :=
  match a, b with
  | [], _ :: _ => true
  | x :: a', y :: b' => Nat.eqb x y && above a' b'
  | _, _ => false
  end.

(** Is the place below a node whose callback asked to skip? *)
Definition below_skip (done : list (node * cbres)) (p : place) : bool :=
  existsb (fun x => above (n_pos (fst x)) (pl_pos p) && is_skip (snd x)) done.

(** Files subscription: an error which is SkipAll and not SkipDir. *)
Definition is_skip_all_only (e : error) : bool := errors_is SkipAll e && negb (errors_is SkipDir e).
Definition is_cut (r : cbres) : bool :=
  match r with CErr e => is_skip_all_only e | _ => false end.
(** Files subscription: a result that ends the traversal. *)
Definition is_end_files (r : cbres) : bool :=
  match r with CNil => false | CErr e => negb (is_skip_all_only e) | CPanic _ => true end.
(** [later a b]: [b] is a later sibling of [a], or below a later sibling. *)
Fixpoint later (a b : list nat) : bool :=
  match a, b with
  | x :: a', y :: b' =>
      match a' with [] => Nat.ltb x y | _ => Nat.eqb x y && later a' b' end
  | _, _ => false
  end.
(** Is the place cut off by a callback on an earlier file of a directory on the
    way to it? *)
Definition cut_off (done : list (node * cbres)) (p : place) : bool :=
  existsb (fun x => later (n_pos (fst x)) (pl_pos p) && is_cut (snd x)) done.

(** Within the depth limit (0: no limit; the limit read as a signed 64 bit
    integer, as the code does); [base] is the depth of the root. *)
Definition within (limit : N) (base : Z) (p : place) : bool :=
  (limit =? 0)%N || (base + Z.of_nat (length (pl_pos p)) <=? int_of_uint limit)%Z.

(** ** Nodes and their metadata *)

(** The scope bits of a node: tree at depth 0, top at depth 1, leaf for leaf
    directories and for files, intermediate for the other directories; plus the
    file or directory bit. *)
Definition expected_scope (isdir leaf : bool) (depth : Z) : N :=
  if isdir then
    ((if (depth =? 0)%Z then ScopeTree
      else if (depth =? 1)%Z then ScopeTop
      else if leaf then 0 else ScopeIntermediate)
     + (if leaf then ScopeLeaf else 0) + ScopeDirectory)%N
  else (ScopeLeaf + ScopeFile)%N.

(** A path ends in at most one separator to be dropped unless it is to be kept. *)
Definition trimmed (keep : bool) (sub : string) : string :=
  if keep then sub else
  match rev (list_ascii_of_string sub) with
  | ch :: r => if Ascii.eqb ch sep then string_of_list_ascii (rev r) else sub
  | [] => sub
  end.

(** The attributes of a node agree with the file system object it stands for. *)
Record attributes (c : cfg) (tree : string) (n : node) : Prop := {
  at_isdir : n_isdir n = fisdir (n_src n);
  at_leaf : n_leaf n = true <->
    fisdir (n_src n) = true /\ (forall e, In e (fst (c_read c (n_path n) (n_src n))) -> fisdir e = false);
  at_name : (n_dirpart n, n_name n) = split_path (n_path n);
  at_scope : n_scope n = expected_scope (fisdir (n_src n)) (n_leaf n) (n_depth n);
  at_sub : n_subpath n = trimmed (c_keep_sep c)
    (c_subpath c tree (c_keep_sep c)
       (with_children [] (with_extension (n_depth n) (n_leaf n) (n_name n) (n_dirpart n) (n_scope n) "" n)))
}.

(** [stands c entries tree t base n]: the node [n] is the root of the walk over
    the object [t] at path [tree], or the node of an entry of a directory whose
    own node is its parent. *)
Inductive stands (c : cfg) (entries : string -> fsnode -> list fsnode)
    (tree root : string) (t : fsnode) (base : Z) : node -> Prop :=
| stands_root : forall n,
    n_path n = root -> n_src n = t -> n_parent n = None -> n_pos n = [] ->
    n_depth n = base -> n_err n = None -> attributes c tree n ->
    stands c entries tree root t base n
| stands_child : forall p i e n,
    stands c entries tree root t base p ->
    nth_error (entries (n_path p) (n_src p)) i = Some e ->
    n_path n = join (n_path p) (fname e) -> n_src n = e -> n_parent n = Some p ->
    n_pos n = n_pos p ++ [i] ->
    n_depth n = (n_depth p + 1)%Z -> n_err n = finfo e -> attributes c tree n ->
    stands c entries tree root t base n.

(** No node on the way to the root carries children. *)
Inductive bare : node -> Prop :=
| bare_root : forall n, n_children n = [] -> n_parent n = None -> bare n
| bare_child : forall n p, n_children n = [] -> n_parent n = Some p -> bare p -> bare n.

(** ** Bracketing of notifications *)

(** Events of a node's own visit: the callback is given the node itself. *)
Definition own_event (n : node) (e : event) : Prop :=
  match e with
  | EvCall m _ | EvOffer m _ => m = n
  | EvWake | EvSleep => True
  | _ => False
  end.

(** A node which has nothing but path, entry, information and parent yet. *)
Definition unextended (n : node) : Prop :=
  n_depth n = 0%Z /\ n_leaf n = false /\ n_name n = EmptyString /\ n_dirpart n = EmptyString /\
  n_scope n = 0%N /\ n_subpath n = EmptyString /\ n_children n = [].
(** The same node, apart from extension and children. *)
Definition completed (n m : node) : Prop :=
  place_of m = place_of n /\ n_isdir m = n_isdir n /\ n_err m = n_err n /\ n_parent m = n_parent n.

(** [bracketed n tr]: [tr] is the visit of node [n]: a descend notification for
    the node not yet extended, what happens at the node itself, the visits of its entries (in
    increasing order, each within its own bracket, their parent being this node), possibly a
    rescue, and the ascend notification; the node of the callback, of the entries' parent and of
    the ascend notification is the same in all respects. *)
Inductive bracketed : node -> list event -> Prop :=
| br_node : forall n m own kids resc,
    unextended n -> completed n m ->
    Forall (own_event m) own ->
    bracketed_kids m 0 kids ->
    (resc = [] \/ exists sv, resc = [EvRescue sv]) ->
    bracketed n ([EvDescend n] ++ own ++ kids ++ resc ++ [EvAscend m])
with bracketed_kids : node -> nat -> list event -> Prop :=
| brk_nil : forall n i, bracketed_kids n i []
| brk_cons : forall n i j m visit rest,
    i <= j -> n_pos m = n_pos n ++ [j] -> n_parent m = Some n ->
    bracketed m visit -> bracketed_kids n (S j) rest ->
    bracketed_kids n i (visit ++ rest).

(** The node an event hands out to the client, once it has been extended: to the callback, with
    the ascend notification (or, unseen by the client, to the decorator chain). *)
Definition handed (e : event) : option node :=
  match e with EvCall n _ | EvOffer n _ | EvAscend n => Some n | _ => None end.
Definition handed_out (tr : list event) (n : node) : Prop := exists e, In e tr /\ handed e = Some n.

(** ** Characterisation of listings *)

(** The places below the root which are reached through the visited entries. *)
Inductive reachable (es : string -> fsnode -> list fsnode) (path : string) (t : fsnode) : place -> Prop :=
| reach_root : reachable es path t (mkPlace [] path t)
| reach_entry : forall p i e,
    reachable es path t p ->
    nth_error (es (pl_path p) (pl_obj p)) i = Some e ->
    reachable es path t (mkPlace (pl_pos p ++ [i]) (join (pl_path p) (fname e)) e).

(** [a] comes before [b]: it is an ancestor, or at the directory where their
    ways part [a] goes through the earlier entry. *)
Definition before (a b : list nat) : Prop :=
  above a b = true \/ exists q i j x y, a = q ++ i :: x /\ b = q ++ j :: y /\ i < j.

(** A place without its position: depth, path and object. *)
Definition spot (p : place) : nat * string * fsnode := (length (pl_pos p), pl_path p, pl_obj p).

(** ** Variations of a configuration *)
Definition with_sub (x : subscription) (c : cfg) : cfg :=
  mkCfg x (c_depth c) (c_files_first c) (c_keep_sep c) (c_read c) (c_sort c) (c_subpath c)
    (c_stat c) (c_fault c) (c_ask c) (c_rescue c) (c_tree c) (c_scheme c) (c_hib c) (c_fast c) (c_client c).
Definition with_read (x : string -> fsnode -> list fsnode * option error) (c : cfg) : cfg :=
  mkCfg (c_sub c) (c_depth c) (c_files_first c) (c_keep_sep c) x (c_sort c) (c_subpath c)
    (c_stat c) (c_fault c) (c_ask c) (c_rescue c) (c_tree c) (c_scheme c) (c_hib c) (c_fast c) (c_client c).
Definition with_depth (x : N) (c : cfg) : cfg :=
  mkCfg (c_sub c) x (c_files_first c) (c_keep_sep c) (c_read c) (c_sort c) (c_subpath c)
    (c_stat c) (c_fault c) (c_ask c) (c_rescue c) (c_tree c) (c_scheme c) (c_hib c) (c_fast c) (c_client c).
Definition with_scheme (x : option scheme) (c : cfg) : cfg :=
  mkCfg (c_sub c) (c_depth c) (c_files_first c) (c_keep_sep c) (c_read c) (c_sort c) (c_subpath c)
    (c_stat c) (c_fault c) (c_ask c) (c_rescue c) (c_tree c) x (c_hib c) (c_fast c) (c_client c).
Definition with_hib (x : option hibcfg) (c : cfg) : cfg :=
  mkCfg (c_sub c) (c_depth c) (c_files_first c) (c_keep_sep c) (c_read c) (c_sort c) (c_subpath c)
    (c_stat c) (c_fault c) (c_ask c) (c_rescue c) (c_tree c) (c_scheme c) x (c_fast c) (c_client c).

(** Filter scheme, hibernation and callback. *)
Definition with_features (sc : option scheme) (h : option hibcfg)
    (cl : list event -> node -> cbres) (c : cfg) : cfg :=
  mkCfg (c_sub c) (c_depth c) (c_files_first c) (c_keep_sep c) (c_read c) (c_sort c) (c_subpath c)
    (c_stat c) (c_fault c) (c_ask c) (c_rescue c) (c_tree c) sc h (c_fast c) cl.

(** The nodes called, in order. *)
Definition visited (s : st) : list node := map fst (calls (s_trace s)).
Definition is_file_place (p : place) : bool := negb (fisdir (pl_obj p)).
Definition is_dir_place (p : place) : bool := fisdir (pl_obj p).

(** Asking a filter or a condition gives an answer. *)
Definition answers {A} (x : asked A) : Prop := exists a, x = inl a.
Definition yes (x : asked bool) : bool := match x with inl b => b | inr _ => false end.
Definition got (x : asked (list fsnode)) : list fsnode := match x with inl l => l | inr _ => [] end.

Definition conditions_answer (h : hibcfg) : Prop :=
  forall n, answers (hb_wake h n) /\ answers (hb_sleep h n).

(** The filter plugin, if active, has some filter; a child filter goes with a
    directories subscription; the filters and the hibernation conditions do not
    panic. *)
Definition filter_ok (c : cfg) : Prop :=
  (forall sc, c_scheme c = Some sc ->
     (sc_child sc <> None -> c_sub c = SubDirectories \/ c_sub c = SubDirectoriesWithFiles) /\
     (sc_child sc = None -> sc_primary sc <> None) /\
     (forall f, sc_primary sc = Some (PrimaryNode f) -> forall n, answers (f n)) /\
     (forall m, sc_child sc = Some m -> forall l, answers (m l))) /\
  (forall h, c_hib c = Some h -> conditions_answer h).

(** ** Hibernation *)
Section Segment.
Variable hb : hibcfg.
(** Awake: up to the first node matching the sleep condition. *)
Fixpoint until_sleep (l : list node) : list node :=
  match l with
  | [] => []
  | n :: r =>
      if (match hb_sleep_at hb with Some f => yes (f n) | None => false end)
      then (if hb_incl_sleep hb then [n] else [])
      else n :: until_sleep r
  end.
(** Asleep: from the first node matching the wake condition. *)
Fixpoint from_wake (wake : node -> asked bool) (l : list node) : list node :=
  match l with
  | [] => []
  | n :: r =>
      if yes (wake n) then (if hb_incl_wake hb then [n] else []) ++ until_sleep r
      else from_wake wake r
  end.
Definition segment (l : list node) : list node :=
  match hb_wake_at hb with None => until_sleep l | Some w => from_wake w l end.
End Segment.

(** Every wake (sleep) notification is followed by the node being visited, which
    matches the wake (sleep) condition. The conditions are asked before children
    are assigned. *)
Definition announced (hb : option hibcfg) (tr : list event) : Prop :=
  forall a e b, tr = a ++ e :: b -> e = EvWake \/ e = EvSleep ->
  exists h n r l, hb = Some h /\ offers b = (n, r) :: l /\
    (e = EvWake -> hb_wake h (with_children [] n) = inl true) /\
    (e = EvSleep -> hb_sleep h (with_children [] n) = inl true).

(** Notifications *)
Definition is_wake (e : event) : bool := match e with EvWake => true | _ => false end.
Definition is_sleep (e : event) : bool := match e with EvSleep => true | _ => false end.

(** ** Children *)
(** The files listed in the directory of a node. *)
Definition files_listed (c : cfg) (n : node) : list fsnode :=
  filter (fun e => negb (fisdir e)) (fst (c_read c (n_path n) (n_src n))).
Definition total {A} (f : A -> nat) (l : list A) : nat := fold_right (fun x k => f x + k) 0 l.

(** ** The decorator chain *)
(** [consult c rs n k s pre o n1 s1]: starting with node [n], the links [pre] of
    [rs] are asked one after the other, each but the last one agreeing to go on;
    the last one either does not agree, or is the last of [rs]. *)
Inductive consult (c : cfg) (k : contents) : list role -> node -> st -> list role ->
    outcome (option error) -> node -> st -> Prop :=
| consult_end : forall n s, consult c k [] n s [] (Ret None) n s
| consult_go : forall r rs n s n1 s1 pre o n2 s2,
    link_next c r n k s = (Ret (true, None), n1, s1) ->
    consult c k rs n1 s1 pre o n2 s2 -> consult c k (r :: rs) n s (r :: pre) o n2 s2
| consult_stop : forall r rs n s b e n1 s1,
    link_next c r n k s = (Ret (b, e), n1, s1) -> (b = false \/ e <> None) ->
    consult c k (r :: rs) n s [r] (Ret e) n1 s1
| consult_panic : forall r rs n s p n1 s1,
    link_next c r n k s = (Pan p, n1, s1) -> consult c k (r :: rs) n s [r] (Pan p) n1 s1.

(** The declared order (manifest.go:16-23), restricted to the links of the
    session, and the client last. *)
Definition declared_links (c : cfg) (sampling fast : bool) : list role :=
  filter (fun r => match r with
    | RoleFastward => fast
    | RoleHibernate => match c_hib c with Some _ => true | None => false end
    | RoleNanny => match c_sub c, c_scheme c with SubDirectoriesWithFiles, None => true | _, _ => false end
    | RoleClientFilter => match c_scheme c with Some _ => true | None => false end
    | RoleSampler => sampling
    | _ => false
    end) [RoleFastward; RoleHibernate; RoleNanny; RoleClientFilter; RoleSampler] ++ [RoleAnchor].


(** ** Filters *)

(** The node without the children given to it and to the nodes on the way to it. *)
Fixpoint strip (n : node) : node :=
  match n with
  | mkNode a b c d _ p e f g h i j k =>
      mkNode a b c d [] (match p with Some q => Some (strip q) | None => None end) e f g h i j k
  end.

(** The sub path hook does not look at the children. *)
Definition hook_blind (c : cfg) : Prop :=
  forall tree keep n, c_subpath c tree keep (strip n) = c_subpath c tree keep n.

(** The errors of a session ended by a panic. *)
Definition panic_error (e : error) : Prop :=
  (exists destination, e = TraversalSaved destination) \/ (exists reason, e = TraversalNotSaved reason).
(** Two sessions end alike: in the same way, or both with the error of a panic (which says
    where, or why not, the session was saved). *)
Definition alike (o1 o2 : outcome (option error)) : Prop :=
  o1 = o2 \/ exists e1 e2, o1 = Ret (Some e1) /\ o2 = Ret (Some e2) /\ panic_error e1 /\ panic_error e2.

(** The session with another panic handler. *)
Definition with_rescue (rc : list event -> panicv -> saved -> string + error) (c : cfg) : cfg :=
  mkCfg (c_sub c) (c_depth c) (c_files_first c) (c_keep_sep c) (c_read c) (c_sort c) (c_subpath c)
    (c_stat c) (c_fault c) (c_ask c) rc (c_tree c) (c_scheme c) (c_hib c) (c_fast c) (c_client c).

Definition node_filter (f : node -> bool) : option scheme :=
  Some (mkScheme (Some (PrimaryNode (fun n => inl (f n)))) None).

(** Callbacks which look at the calls made so far: one for the filtered session,
    and the one for the unfiltered session which ignores all other nodes. *)
Definition on_calls (g : list (node * cbres) -> node -> cbres) : list event -> node -> cbres :=
  fun tr n => g (calls tr) n.
Definition ignoring (f : node -> bool) (g : list (node * cbres) -> node -> cbres) : list event -> node -> cbres :=
  fun tr n => if f n then g (filter (fun x => f (fst x)) (calls tr)) n else CNil.
Definition stripped (x : node * cbres) : node * cbres := (strip (fst x), snd x).
Definition ignoring_stripped (f : node -> bool) (g : list (node * cbres) -> node -> cbres) : list event -> node -> cbres :=
  fun tr n => if f (strip n) then g (filter (fun x => f (fst x)) (map stripped (calls tr))) (strip n) else CNil.

