(** What a walk with the default options is to visit: a specification on the file
    system tree alone. *)
From Verif Require Import Base Paths Kernel Defaults Spec.
From Coq Require Import Permutation Sorted.
Local Open Scope string_scope.

(** Everything in the tree, with its path and whether it is a directory; leaving
    out what is named .DS_Store and what is inside a directory which cannot be
    read. *)
Fixpoint everything (path : string) (t : fsnode) : list (string * bool) :=
  match t with
  | FNode _ isdir _ read kids =>
      (path, isdir) ::
      (if isdir then
         match read with
         | Some _ => []
         | None => flat_map (fun e => if String.eqb (fname e) ".DS_Store" then []
                                      else everything (join path (fname e)) e) kids
         end
       else [])
  end.
(** what a subscription is about *)
Definition subscribed (sub : subscription) (x : string * bool) : bool :=
  match sub with
  | SubFiles => negb (snd x)
  | SubDirectories | SubDirectoriesWithFiles => snd x
  | SubUniversal => true
  end.
