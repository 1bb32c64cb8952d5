(** Concrete configurations and trees for the non-vacuity examples. *)
From Verif Require Import Base Paths Level Kernel Defaults Session Spec.
Local Open Scope string_scope.

Definition client_nil : list event -> node -> cbres := fun _ _ => CNil.
Definition no_stat_error : fsnode -> option error := fun _ => None.

(** A configuration with the default hooks. *)
Definition base_cfg (sub : subscription) : cfg :=
  mkCfg sub 0 false true default_read default_sort default_subpath no_stat_error default_fault
    default_ask (fun _ _ _ => inl "saved") "/r" None None None client_nil.

Definition with_client (x : list event -> node -> cbres) (c : cfg) : cfg :=
  mkCfg (c_sub c) (c_depth c) (c_files_first c) (c_keep_sep c) (c_read c) (c_sort c) (c_subpath c)
    (c_stat c) (c_fault c) (c_ask c) (c_rescue c) (c_tree c) (c_scheme c) (c_hib c) (c_fast c) x.

(** r/ {A/ {x, B/ {y}}, b/ {} , c, Z} *)
Definition tree1 : fsnode :=
  Dir "r" [File "c"; Dir "b" []; Dir "A" [File "x"; Dir "B" [File "y"]]; File "Z"].

(** with an unreadable directory *)
Definition tree2 : fsnode :=
  Dir "r" [File "c"; BadDir "b" (Err (Plain 7)) []; Dir "A" [File "x"; Dir "B" [File "y"]]; File "Z"].

(** r/ {A/ {x, B/ {y, z, D/ {w}}}, c, Z} *)
Definition tree3 : fsnode :=
  Dir "r" [File "c"; Dir "A" [File "x"; Dir "B" [File "y"; File "z"]]; File "Z"].

(** the callback answers [r] on nodes with this path *)
Definition answer (p : string) (r : cbres) : list event -> node -> cbres :=
  fun _ n => if String.eqb (n_path n) p then r else CNil.

(** the paths called *)
Definition paths (x : outcome (option error) * st) : list string := map n_path (visited (snd x)).
