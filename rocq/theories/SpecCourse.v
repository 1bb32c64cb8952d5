(** Specification of the whole course of a session without filter and
    hibernation, for every callback and skip handler. Independent of the traversal
    functions: the listing of the tree (Spec.v) is gone through once, a verdict at each
    place saying what is left out. *)
From Verif Require Import Base Paths Level Kernel Spec SpecSkip.

(** What happens after a place has been visited. *)
Inductive verdict :=
| Onward                        (* everything else goes on *)
| NotBelow                      (* what is below the place is left out *)
| RestOfDirectory               (* what is below it and the later entries of its directory are left out *)
| Over (e : error)              (* the session ends, Navigate returns the error *)
| Panics (v : panicv).          (* the session ends in a panic *)

(** How the session ended, apart from what was visited. *)
Inductive ending :=
| Completed
| Failed (e : error)
| Panicked (p : place) (v : panicv).

(** Going through a listing: [out] says what has been left out so far. *)
Fixpoint course (v : place -> verdict) (out : place -> bool) (P : list place) : list place * ending :=
  match P with
  | [] => ([], Completed)
  | p :: P' =>
      if out p then course v out P' else
      let goes_on out' := let '(seen, e) := course v out' P' in (p :: seen, e) in
      match v p with
      | Onward => goes_on out
      | NotBelow => goes_on (fun q => out q || above (pl_pos p) (pl_pos q))
      | RestOfDirectory => goes_on (fun q => out q || above (pl_pos p) (pl_pos q) || later (pl_pos p) (pl_pos q))
      | Over e => ([p], Failed e)
      | Panics x => ([p], Panicked p x)
      end
  end.

(** An error given at a place with the traversal allowed to go on: a skip error leaves
    out what is below, except at the root, where it is returned. *)
Definition gives_way (p : place) (e : error) : verdict :=
  if is_skip_error e && match pl_pos p with [] => false | _ => true end then NotBelow else Over e.
(** An error given with the traversal not allowed to go on: fs.SkipAll (and not
    fs.SkipDir) leaves out the rest of the directory, or, in the root directory, ends the session. *)
Definition breaks_off (p : place) (e : error) : verdict :=
  if is_skip_all_only e && (2 <=? length (pl_pos p)) then RestOfDirectory else Over e.
Definition unless_nil (f : error -> verdict) (e : option error) : verdict :=
  match e with Some e => f e | None => NotBelow end.

(** The verdict of the skip handler. It is asked where the callback returned nil,
    and with the Files subscription about directories. *)
Definition handler_verdict (c : cfg) (h : handler) (p : place) : verdict :=
  let err := read_error c (pl_path p) (pl_obj p) in
  match c_sub c, h (pl_path p) (pl_obj p) err with
  | SubUniversal, (SkipNoneTraversal, _) => Onward
  | SubUniversal, (SkipDirTraversal, e) => unless_nil (breaks_off p) e
  | SubUniversal, (SkipAllTraversal, e) => unless_nil (gives_way p) e
  | SubFiles, (SkipNoneTraversal, e) => match err with None => Onward | Some _ => unless_nil (gives_way p) e end
  | SubFiles, (_, e) => unless_nil (gives_way p) e
  | _, (SkipAllTraversal, e) => unless_nil (gives_way p) e
  | _, _ => Onward
  end.

(** The verdict at a place, the callback answering [ans]. *)
Definition verdict_at (c : cfg) (h : handler) (ans : place -> cbres) (p : place) : verdict :=
  match c_sub c with
  | SubFiles =>
      if fisdir (pl_obj p) then handler_verdict c h p else
      match ans p with CNil => Onward | CErr e => breaks_off p e | CPanic x => Panics x end
  | _ =>
      match ans p with CNil => handler_verdict c h p | CErr e => gives_way p e | CPanic x => Panics x end
  end.

(** The answers which the callback of a session gave, seen as a function of the
    place. *)
Definition answered (calls : list (node * cbres)) (ans : place -> cbres) : Prop :=
  forall n r, In (n, r) calls -> ans (place_of n) = r.
(** What Navigate gives for each ending: a panic at the root goes to the caller,
    others are rescued. *)
Definition gives (o : outcome (option error)) (e : ending) : Prop :=
  match e with
  | Completed => o = Ret None
  | Failed e => o = Ret (Some e)
  | Panicked p x =>
      match pl_pos p with
      | [] => o = Pan x
      | _ => exists e, o = Ret (Some e) /\ panic_error e
      end
  end.

(** ** With hibernation and a filter *)
(** Where a session stands with respect to its wake and sleep conditions. *)
Inductive alertness := Waiting | Awake | AsleepForGood.
Definition at_the_start (hb : option hibcfg) : alertness :=
  match hb with Some (mkHib (Some _) _ _ _) => Waiting | _ => Awake end.
Definition holds (missing : bool) (cond : option (node -> asked bool)) (n : node) : asked bool :=
  match cond with Some f => f n | None => inl missing end.
(** What hibernation makes of a node: is it passed on; if not, the answer that
    counts for it; how alert the session is from then on. *)
Definition hibernation (hb : option hibcfg) (a : alertness) (n : node) : option cbres * alertness :=
  match hb with
  | None => (None, a)
  | Some hb =>
      match a with
      | Waiting =>
          match holds true (hb_wake_at hb) n with
          | inl true => (if hb_incl_wake hb then None else Some CNil, Awake)
          | inl false => (Some CNil, Waiting)
          | inr p => (Some (CPanic p), Waiting)
          end
      | Awake =>
          match holds false (hb_sleep_at hb) n with
          | inl true => (if hb_incl_sleep hb then None else Some CNil, AsleepForGood)
          | inl false => (None, Awake)
          | inr p => (Some (CPanic p), Awake)
          end
      | AsleepForGood => (Some (CErr (Err SkipAll)), AsleepForGood)
      end
  end.
(** The files which a child filter is shown at a node; a file has none, and
    asking for them is a panic. The navigators of files sort them once more. *)
Definition files_shown (c : cfg) (n : node) : option (list fsnode) :=
  let files := filter (fun e => negb (fisdir e)) (fst (c_read c (n_path n) (n_src n))) in
  match c_sub c with
  | SubFiles | SubUniversal => if n_isdir n then Some (c_sort c (c_sort c files)) else None
  | _ => Some (c_sort c files)
  end.
(** What the filter makes of a node. A node filter is asked about each node; a
    sampling filter only about the tree itself. If the node gets through, a child filter is
    asked about its files, which never keeps the node back. *)
Definition node_part (sc : scheme) (n : node) : asked bool :=
  match sc_primary sc with
  | Some (PrimaryNode f) => f n
  | Some (PrimarySampler m) => inl (negb (scope_is_tree (n_scope n)) || match m [n_src n] with [] => false | _ => true end)
  | None => match sc_child sc with Some _ => inl true | None => inr nil_deref end
  end.
Definition child_part (c : cfg) (sc : scheme) (n : node) : asked bool :=
  match sc_child sc with
  | None => inl true
  | Some m => match files_shown c n with
              | Some l => match m l with inl _ => inl true | inr p => inr p end
              | None => inr nil_deref
              end
  end.
Definition let_through (c : cfg) (n : node) : asked bool :=
  match c_scheme c with
  | None => inl true
  | Some sc => match node_part sc n with inl true => child_part c sc n | x => x end
  end.
(** Going through the nodes in their order: for each one [None] if the callback
    is called, else the answer that counts for it; a panic of a condition or filter counts
    as one of the callback. Conditions and filter see the
    node without children. *)
Fixpoint reception (c : cfg) (a : alertness) (l : list node) : list (option cbres) :=
  match l with
  | [] => []
  | n :: l' =>
      let bare := with_children [] n in
      let '(w, a') := hibernation (c_hib c) a bare in
      match w with
      | Some r => Some r
      | None => match let_through c bare with
                | inl true => None
                | inl false => Some CNil
                | inr p => Some (CPanic p)
                end
      end :: reception c a' l'
  end.
(** The calls made when the nodes [D] (with the answers that count) are received
    in this way. *)
Fixpoint received (D : list (node * cbres)) (W : list (option cbres)) : list (node * cbres) :=
  match D, W with
  | x :: D', None :: W' => x :: received D' W'
  | _ :: D', Some _ :: W' => received D' W'
  | _, _ => []
  end.
