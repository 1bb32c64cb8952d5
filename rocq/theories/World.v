(** The traversal in a world which changes and fails: the hooks, the defect
    handlers and the life cycle handlers may answer differently each time (the
    file system changes, a hook remembers) and may panic. The same functions as
    in Kernel.v, in which these are functions which return. No proofs here. *)
From Verif Require Import Base Paths Level Kernel Session.

(** What the client and the file system do; the first argument is everything
    observable which happened before. The other settings, the callback and the
    filters, are those of [cfg]. pref/options-hooks.go:18-66, pref/defects.go:22-69,
    life/events.go:113-119 *)
Record world := mkWorld {
  w_read : list event -> string -> fsnode -> asked (list fsnode * option error);   (* Hooks.ReadDirectory *)
  w_sort : list event -> list fsnode -> asked (list fsnode);                       (* Hooks.Sort *)
  w_subpath : list event -> string -> bool -> node -> asked string;                (* Hooks.File/DirectorySubPath *)
  w_stat : list event -> fsnode -> asked (option error);                           (* Hooks.QueryStatus *)
  w_fault : list event -> error -> asked (option error);                           (* Defects.Fault.Accept *)
  w_ask : list event -> node -> contents -> option error -> asked (skip_traversal * option error); (* Defects.Skip.Ask *)
  w_rescue : list event -> panicv -> saved -> asked (string + error);              (* Defects.Panic.Rescue *)
  w_handlers : list event -> event -> option panicv                                (* life cycle handlers *)
}.
(** The hooks and defect handlers of [c] (Kernel.v); life cycle handlers which return. *)
Definition steady (c : cfg) : world :=
  mkWorld (fun _ p t => inl (c_read c p t)) (fun _ l => inl (c_sort c l)) (fun _ t k n => inl (c_subpath c t k n))
    (fun _ t => inl (c_stat c t)) (fun _ e => inl (c_fault c e)) (fun _ n k e => inl (c_ask c n k e))
    (fun tr p sv => inl (c_rescue c tr p sv)) (fun _ _ => None).

(** life/events.go:113-119 and the call of the dispatched function. The event
    stands for the call of the handlers; when one panics those after it are not called. *)
Definition tell (w : world) (muted : bool) (e : event) (s : st) : option panicv * st :=
  if muted then (None, s) else (w_handlers w (s_trace s) e, emit e s).

(** internal/feat/hiber/hibernate-simple-profile.go:72-110: the state changes
    after the handlers have returned *)
Definition w_hib_next (w : world) (c : cfg) (n : node) (s : st) : linkres :=
  match c_hib c with
  | None => (Pan nil_deref, n, s)
  | Some h =>
      match s_hib s with
      | HibPending =>
          match hb_wake h n with
          | inl true =>
              match tell w (mu_wake (s_mutes s)) EvWake s with
              | (Some p, s1) => (Pan p, n, s1)
              | (None, s1) => (Ret (hb_incl_wake h, None), n, set_hib HibActive s1)
              end
          | inl false => (Ret (false, None), n, s)
          | inr p => (Pan p, n, s)
          end
      | HibActive =>
          match hb_sleep h n with
          | inl true =>
              match tell w (mu_sleep (s_mutes s)) EvSleep s with
              | (Some p, s1) => (Pan p, n, s1)
              | (None, s1) => (Ret (hb_incl_sleep h, None), n, set_hib HibRetired s1)
              end
          | inl false => (Ret (true, None), n, s)
          | inr p => (Pan p, n, s)
          end
      | HibRetired => (Ret (false, Some (Err SkipAll)), n, s)
      end
  end.

(** internal/feat/nanny/nanny-plugin.go:35-44 *)
Definition w_nanny_next (w : world) (n : node) (cargo : contents) (s : st) : linkres :=
  match cargo with
  | None => (Pan nil_deref, n, s)
  | Some (files, _) =>
      match w_sort w (s_trace s) files with
      | inl sorted => (Ret (true, None), with_children sorted n, tick_by ChildFilesFound (length sorted) s)
      | inr p => (Pan p, n, s)
      end
  end.
(** internal/feat/filter/scheme-nanny.go:37-50 *)
Definition w_nanny_scheme_next (w : world) (matching : list fsnode -> asked (list fsnode))
    (n : node) (cargo : contents) (s : st) : linkres :=
  match cargo with
  | None => (Pan nil_deref, n, s)
  | Some (files, _) =>
      match w_sort w (s_trace s) files with
      | inl sorted =>
          match matching sorted with
          | inl m =>
              (Ret (true, None), with_children m n,
               tick_by ChildFilesFilteredOut (length sorted - length m)
                 (tick_by ChildFilesFound (length m) s))
          | inr p => (Pan p, n, s)
          end
      | inr p => (Pan p, n, s)
      end
  end.
(** internal/feat/filter/schemes.go:27-44 and scheme-hybrid.go:54-72 *)
Definition w_filter_next (w : world) (c : cfg) (n : node) (cargo : contents) (s : st) : linkres :=
  match c_scheme c with
  | None => (Pan nil_deref, n, s)
  | Some sc =>
      match sc_primary sc, sc_child sc with
      | Some p, None => primary_next p n cargo s
      | None, Some m => w_nanny_scheme_next w m n cargo s
      | None, None => (Pan nil_deref, n, s)
      | Some p, Some m =>
          match primary_next p n cargo s with
          | (Ret (true, e), n1, s1) =>
              match w_nanny_scheme_next w m n1 cargo s1 with
              | (Ret (_, e2), n2, s2) => (Ret (true, e2), n2, s2)
              | x => x
              end
          | x => x
          end
      end
  end.
(** guardian.go:154 *)
Definition w_link_next (w : world) (c : cfg) (r : role) (n : node) (cargo : contents) (s : st) : linkres :=
  match r with
  | RoleAnchor => anchor_next c n s
  | RoleHibernate => w_hib_next w c n s
  | RoleNanny => w_nanny_next w n cargo s
  | RoleClientFilter => w_filter_next w c n cargo s
  | RoleSampler => (Ret (true, None), n, s)
  | RoleFastward => fast_next c n s
  | RoleUndefined => (Pan nil_deref, n, s)
  end.
(** guardian.go:152-162 (iterate) *)
Fixpoint w_iterate (w : world) (c : cfg) (rs : list role) (n : node) (cargo : contents) (s : st)
    : outcome (option error) * node * st :=
  match rs with
  | [] => (Ret None, n, s)
  | r :: rs' =>
      match w_link_next w c r n cargo s with
      | (Ret (next, err), n1, s1) =>
          match next, err with
          | true, None => w_iterate w c rs' n1 cargo s1
          | _, _ => (Ret err, n1, s1)
          end
      | (Pan p, n1, s1) => (Pan p, n1, s1)
      | (Stuck, n1, s1) => (Stuck, n1, s1)
      end
  end.
(** mediator.go:75-79, guardian.go:92-112,148-150 (Invoke) *)
Definition w_invoke (w : world) (c : cfg) (n : node) (cargo : contents) (s : st)
    : outcome (option error) * node * st :=
  let '(o, n1, s1) := w_iterate w c (s_items s) n cargo s in
  (o, n1, emit (EvOffer n1 (res_of o)) s1).

(** extend.go:12-66: when the sub path hook panics the other fields have been
    written *)
Definition w_extend (w : world) (c : cfg) (tree : string) (n : node) (cargo : contents) (s : st) : option panicv * node :=
  let dirs := match cargo with Some (_, ds) => ds | None => [] end in
  let leaf := n_isdir n && match dirs with [] => true | _ => false end in
  let scope :=
    if n_isdir n then N.lor (per_scope (s_depth s) leaf) ScopeDirectory
    else N.lor ScopeLeaf ScopeFile in
  let '(parent, name) := split_path (n_path n) in
  let n1 := with_extension (per_depth (s_depth s)) leaf name parent scope "" n in
  match w_subpath w (s_trace s) tree (c_keep_sep c) n1 with
  | inl sub =>
      let sub := if c_keep_sep c then sub else strip_last_sep sub in
      (None, with_extension (per_depth (s_depth s)) leaf name parent scope sub n)
  | inr p => (Some p, n1)
  end.

(** navigation-fs.go:7-14, contents.go:14-26, 65-86 (Sort: directories before
    files), navigator-files.go:61-88, navigator-universal.go:53-80,
    navigator-directories.go:51-79 *)
Definition w_inspect (w : world) (c : cfg) (n : node) (tr : list event) : asked (contents * list fsnode * option error) :=
  match c_sub c, n_isdir n with
  | (SubFiles | SubUniversal), false => inl (None, [], None)
  | (SubFiles | SubUniversal), true =>
      match w_read w tr (n_path n) (n_src n) with
      | inr p => inr p
      | inl (es, err) =>
          match w_sort w tr (dirs_of es) with
          | inr p => inr p
          | inl ds =>
              match w_sort w tr (files_of es) with
              | inr p => inr p
              | inl fs => inl (Some (fs, ds), all_of (c_files_first c) fs ds, err)
              end
          end
      end
  | (SubDirectories | SubDirectoriesWithFiles), _ =>
      match w_read w tr (n_path n) (n_src n) with
      | inr p => inr p
      | inl (es, err) =>
          match w_sort w tr (dirs_of es) with
          | inr p => inr p
          | inl ds => inl (Some (files_of es, ds), ds, err)
          end
      end
  end.

(** navigator-agent.go:105-202: a panic of the panic handler leaves the deferred
    function *)
Definition w_travel (w : world) (c : cfg) (trav : node -> st -> tres) (parent : node)
    (es : list fsnode) (s : st) : tres :=
  match travel_loop trav parent 0 es s with
  | (Pan p, s1) =>
      let sv := saved_of c parent s1 in
      let s2 := emit (EvRescue sv) s1 in
      match w_rescue w (s_trace s1) p sv with
      | inl answer => (Ret (false, Some (rescue_error answer)), s2)
      | inr q => (Pan q, s2)
      end
  | x => x
  end.

(** The part of Traverse after Invoke, or instead of it:
    navigator-files.go:50-58, navigator-universal.go:42-50, navigator-directories.go:42-48 *)
Definition w_after (w : world) (c : cfg) (trav : node -> st -> tres) (n : node) (cargo : contents)
    (es : list fsnode) (err : option error) (s : st) : linkres :=
  match w_ask w (s_trace s) n cargo err with
  | inr p => (Pan p, n, s)
  | inl (skip, e) =>
      match c_sub c, skip, err with
      | _, SkipAllTraversal, _ => (Ret (true, e), n, s)
      | SubFiles, _, Some _ => (Ret (true, e), n, s)
      | SubFiles, SkipDirTraversal, None => (Ret (true, e), n, s)
      | SubUniversal, SkipDirTraversal, _ => (Ret (false, e), n, s)
      | _, _, _ => with_node n (w_travel w c trav n es s)
      end
  end.
(** navigator-files.go:42-58, navigator-universal.go:36-50,
    navigator-directories.go:36-48 *)
Definition w_body (w : world) (c : cfg) (trav : node -> st -> tres) (tree : string)
    (n0 : node) (s : st) : linkres :=
  match w_inspect w c n0 (s_trace s) with
  | inr p => (Pan p, n0, s)
  | inl (cargo, es, err) =>
      match w_extend w c tree n0 cargo s with
      | (Some p, n) => (Pan p, n, s)
      | (None, n) =>
          match c_sub c, n_isdir n with
          | SubFiles, true => w_after w c trav n cargo es err s
          | SubFiles, false =>
              match w_invoke w c n cargo s with
              | (Ret e, n1, s1) => (Ret (false, e), n1, s1)
              | (Pan p, n1, s1) => (Pan p, n1, s1)
              | (Stuck, n1, s1) => (Stuck, n1, s1)
              end
          | _, _ =>
              match w_invoke w c n cargo s with
              | (Ret (Some e), n1, s1) => (Ret (true, Some e), n1, s1)
              | (Ret None, n1, s1) => w_after w c trav n1 cargo es err s1
              | (Pan p, n1, s1) => (Pan p, n1, s1)
              | (Stuck, n1, s1) => (Stuck, n1, s1)
              end
          end
      end
  end.

(** navigator-*.go: Traverse; mediator.go:160-175. When a Descend handler panics
    the ascend is not deferred yet; a panic of an Ascend handler replaces what
    Traverse returned. *)
Fixpoint w_traverse (fuel : nat) (w : world) (c : cfg) (tree : string) (n : node) (s : st) : tres :=
  match fuel with
  | O => (Stuck, s)
  | S f =>
      let '(ok, d) := per_descend (c_depth c) (s_depth s) in
      if ok then
        match tell w (mu_descend (s_mutes s)) (EvDescend n) (set_depth d s) with
        | (Some p, s1) => (Pan p, s1)
        | (None, s1) =>
            let '(o, n1, s2) := w_body w c (w_traverse f w c tree) tree n s1 in
            match tell w (mu_ascend (s_mutes s2)) (EvAscend n1) (set_depth (per_ascend (s_depth s2)) s2) with
            | (Some q, s3) => (match o with Stuck => Stuck | _ => Pan q end, s3)
            | (None, s3) => (o, s3)
            end
        end
      else (Ret (true, None), s)
  end.

(** navigator-agent.go:47-74 (top) *)
Definition w_top (fuel : nat) (w : world) (c : cfg) (tree : string) (t : fsnode) (s : st) : outcome (option error) * st :=
  match w_stat w (s_trace s) t with
  | inr p => (Pan p, s)
  | inl (Some ie) => match w_fault w (s_trace s) ie with inl e => (Ret e, s) | inr p => (Pan p, s) end
  | inl None =>
      match w_traverse fuel w c tree (new_node tree t None None []) s with
      | (Ret (_, e), s1) => (Ret e, s1)
      | (Pan p, s1) => (Pan p, s1)
      | (Stuck, s1) => (Stuck, s1)
      end
  end.

(** driver.go:29-37, as [session] *)
Definition w_session (fuel : nat) (w : world) (c : cfg) (sampling : bool) (t : fsnode) : outcome (option error) * st :=
  let s := start_st c sampling in
  match tell w (mu_begin (s_mutes s)) (EvBegin (c_tree c)) s with
  | (Some p, s1) => (Pan p, s1)
  | (None, s1) =>
      match w_top fuel w c (c_tree c) t s1 with
      | (Ret e, s2) =>
          match tell w (mu_end (s_mutes s2)) (EvEnd (s_metrics s2)) s2 with
          | (Some p, s3) => (Pan p, s3)
          | (None, s3) => (Ret e, s3)
          end
      | x => x
      end
  end.
