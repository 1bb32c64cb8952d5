(** Depth and scope management: internal/level/periscope.go and
    enums/filter-scope-en.go. *)
From Verif Require Import Base.

(** enums/filter-scope-en.go:18-53; a FilterScope is a uint32. *)
Definition ScopeUndefined : N := 0.
Definition ScopeTree : N := 1.
Definition ScopeTop : N := 2.
Definition ScopeLeaf : N := 4.
Definition ScopeIntermediate : N := 8.
Definition ScopeFile : N := 16.
Definition ScopeDirectory : N := 32.
Definition ScopeCustom : N := 64.
Definition ScopeAll : N := 4294967295.

(** enums/filter-scope-en.go:56-78 *)
Definition scope_set (f mask : N) : N := N.lor f mask.
Definition scope_clear (f mask : N) : N := N.ldiff f mask.
Definition scope_is_tree (f : N) : bool := (0 <? N.land f ScopeTree)%N.
Definition scope_is_directory (f : N) : bool := (0 <? N.land f ScopeDirectory)%N.
Definition scope_is_file (f : N) : bool := (0 <? N.land f ScopeFile)%N.

(** enums/filter-scope-en.go:81-95 *)
Definition scope_scrub (f : N) : N :=
  let scrub := ScopeUndefined in
  let scrub := if scope_is_file f then scope_set scrub ScopeFile else scrub in
  if scope_is_directory f then scope_set scrub ScopeDirectory else scrub.

(** Go's conversion int(u) of a 64 bit unsigned value: two's complement wrap.
    The value [u] is taken modulo 2^64. *)
Definition int_of_uint (u : N) : Z :=
  let m := (Z.of_N u mod 2 ^ 64)%Z in
  if (m <? 2 ^ 63)%Z then m else (m - 2 ^ 64)%Z.

(** internal/level/periscope.go:55-57; the state of the periscope is its
    [depth] field. *)
Definition per_depth (depth : Z) : Z := (depth - 1)%Z.

(** internal/level/periscope.go:31-53 *)
Definition per_scope (depth : Z) (isleaf : bool) : N :=
  let d := per_depth depth in
  if isleaf && (d =? 0)%Z then N.lor ScopeTree ScopeLeaf
  else if (d =? 0)%Z then ScopeTree
  else if isleaf && (d =? 1)%Z then N.lor ScopeTop ScopeLeaf
  else if (d =? 1)%Z then ScopeTop
  else if isleaf then ScopeLeaf
  else ScopeIntermediate.

(** internal/level/periscope.go:27-29 *)
Definition per_offset (depth by_ : Z) : Z := (depth + by_)%Z.

(** internal/level/periscope.go:70-78 *)
Definition per_descend (maximum : N) (depth : Z) : bool * Z :=
  if ((0 <? maximum)%N && (int_of_uint maximum <? depth)%Z)
  then (false, depth)
  else (true, (depth + 1)%Z).

(** internal/level/periscope.go:80-82 *)
Definition per_ascend (depth : Z) : Z := (depth - 1)%Z.
