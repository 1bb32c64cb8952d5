(** What a traversal has entered, as a client which listens to the Descend
    notification is told. No proofs here. *)
From Verif Require Import Base Paths Level Kernel.

Definition directories_sub (c : cfg) : Prop := c_sub c = SubDirectories \/ c_sub c = SubDirectoriesWithFiles.

(** The object [t] at path [p] was entered: Descend was notified for it. A file
    which is visited is notified as well, and a traversal of directories only
    takes every object it meets for a directory. *)
Definition entered (c : cfg) (tr : list event) (p : string) (t : fsnode) : Prop :=
  exists n, In (EvDescend n) tr /\ n_path n = p /\ n_src n = t /\ (n_isdir n = true \/ directories_sub c).

(** [rd] reads the directories which were entered as the ReadDirectory hook of
    [c] does; about all others nothing is said: [rd] may list other entries
    there, or report errors. *)
Definition reads_alike (c : cfg) (rd : string -> fsnode -> list fsnode * option error) (tr : list event) : Prop :=
  forall p t, entered c tr p t -> rd p t = c_read c p t.
