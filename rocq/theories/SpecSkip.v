(** Specification of sessions with a skip handler (pref.WithSkipHandler), for
    handlers whose answer depends on the path and the file system object of the
    node and on the error of reading its contents. Independent of the traversal
    functions. *)
From Verif Require Import Base Paths Level Kernel Spec.

(** A handler: path, object and read error give the answer and its error. *)
Definition handler : Type := string -> fsnode -> option error -> skip_traversal * option error.

(** The session's skip handler is [h]. *)
Definition handled_by (c : cfg) (h : handler) : Prop :=
  forall n k e, c_ask c n k e = h (n_path n) (n_src n) e.

(** The error of reading the contents of an object, as reported to the handler:
    subscriptions to files do not read a file. *)
Definition read_error (c : cfg) (path : string) (t : fsnode) : option error :=
  match c_sub c with
  | SubFiles | SubUniversal => if fisdir t then snd (c_read c path t) else None
  | _ => snd (c_read c path t)
  end.

(** Does the answer keep the session from going below the object? Universal: any
    skip. Directories: only "all". Files: any skip at a directory; and any
    directory which cannot be read. *)
Definition pruned (c : cfg) (h : handler) (path : string) (t : fsnode) : bool :=
  let err := read_error c path t in
  match c_sub c, fst (h path t err) with
  | SubUniversal, SkipNoneTraversal => false
  | SubUniversal, _ => true
  | SubFiles, SkipNoneTraversal => fisdir t && match err with Some _ => true | None => false end
  | SubFiles, _ => fisdir t
  | _, SkipAllTraversal => true
  | _, _ => false
  end.

(** The entries travelled. *)
Definition entries_asked (c : cfg) (h : handler) (path : string) (t : fsnode) : list fsnode :=
  if pruned c h path t then [] else entries c path t.

(** An "all" answer given by the Universal or a Directories subscription, and
    every answer of the Files subscription: below the root its error is lost when
    it is a skip error. *)
Definition loses_skips (c : cfg) (answer : skip_traversal) : bool :=
  match c_sub c, answer with SubUniversal, SkipDirTraversal => false | _, _ => true end.

(** The error with which the answer at a place ends the session, if it does. *)
Definition ends_at (c : cfg) (h : handler) (p : place) : option error :=
  if pruned c h (pl_path p) (pl_obj p) then
    let '(answer, e) := h (pl_path p) (pl_obj p) (read_error c (pl_path p) (pl_obj p)) in
    match e with
    | Some e =>
        if loses_skips c answer && is_skip_error e && match pl_pos p with [] => false | _ => true end
        then None else Some e
    | None => None
    end
  else None.

(** A list of places up to and including the first one which ends the session,
    and the error it ends with. *)
Fixpoint until (ends : place -> option error) (P : list place) : list place * option error :=
  match P with
  | [] => ([], None)
  | p :: P' =>
      match ends p with
      | Some e => ([p], Some e)
      | None => let '(seen, e) := until ends P' in (p :: seen, e)
      end
  end.

(** Handlers which accompany a "directory" answer by fs.SkipAll are left out
    (Universal subscription). *)
Definition no_mixed_answer (c : cfg) (h : handler) : Prop :=
  forall path t err e, c_sub c = SubUniversal -> h path t err = (SkipDirTraversal, Some e) ->
    is_skip_all_only e = false.

(** The same session with another skip handler. *)
Definition with_ask (x : node -> contents -> option error -> skip_traversal * option error) (c : cfg) : cfg :=
  mkCfg (c_sub c) (c_depth c) (c_files_first c) (c_keep_sep c) (c_read c) (c_sort c) (c_subpath c)
    (c_stat c) (c_fault c) x (c_rescue c) (c_tree c) (c_scheme c) (c_hib c) (c_fast c) (c_client c).

(** Two skip handlers give the same answers where the client callback can return
    nil; for the Files subscription: on the directories. *)
Definition agree_where_nil (c : cfg)
    (a b : node -> contents -> option error -> skip_traversal * option error) : Prop :=
  forall n k e,
    (match c_sub c with SubFiles => n_isdir n = true | _ => exists tr, c_client c tr n = CNil end) ->
    a n k e = b n k e.
