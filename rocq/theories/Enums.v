(** The texts of the enumerations: the String methods generated by stringer
    (enums/*-en-auto.go). The documented text of a value is the comment beside its
    declaration (enums/*-en.go). No proofs here. *)
From Verif Require Import Base.
From Coq Require Import ZArith DecimalString.
Local Open Scope string_scope.

(** strconv.FormatInt(x, 10) *)
Definition format_int (z : Z) : string := NilZero.string_of_int (Z.to_int z).
(** The conversion int64(i) *)
Definition to_int64 (i : Z) : Z := if (i <? 2 ^ 63)%Z then i else (i - 2 ^ 64)%Z.
(** The slice s[lo:hi]: out of range panics *)
Definition slice (s : string) (lo hi : nat) : outcome string :=
  if Nat.leb lo hi && Nat.leb hi (String.length s) then Ret (substring lo (hi - lo) s) else Pan nil_deref.

(** An enumeration as generated: its name, the width of its type in bits, its
    first value, the joined names and the index. *)
Record enum := mkEnum { en_type : string; en_bits : Z; en_first : Z; en_name : string; en_index : list nat }.

(** The generated method, e.g. entry-type-en-auto.go:20-25, metric-en-auto.go:23-29:
    arithmetic on the unsigned type wraps around *)
Definition enum_string (e : enum) (i : Z) : outcome string :=
  let j := ((i - en_first e) mod 2 ^ en_bits e)%Z in
  if (j >=? Z.of_nat (length (en_index e) - 1))%Z
  then Ret (en_type e ++ "(" ++ format_int (to_int64 ((j + en_first e) mod 2 ^ en_bits e)) ++ ")")
  else slice (en_name e) (nth (Z.to_nat j) (en_index e) 0) (nth (Z.to_nat j + 1) (en_index e) 0).

(** entry-type-en-auto.go:16-18 *)
Definition entry_type := mkEnum "EntryType" 64 0 "directory-entryfile-entryall-entries" [0; 15; 25; 36].
(** filter-type-en-auto.go:19-21 *)
Definition filter_type_enum := mkEnum "FilterType" 64 0
  "undefined-filterglob-ex-filterregex-filterglob-filtercustom-filterpoly-filter" [0; 16; 30; 42; 53; 66; 77].
(** glob-ex-en-auto.go:18-20 *)
Definition glob_extraction := mkEnum "GlobExtraction" 64 0 "undefinedstar-dotstar-onlyleading-dot-onlybare" [0; 9; 17; 26; 42; 46].
(** hibernation-en-auto.go:17-19 *)
Definition hibernation := mkEnum "Hibernation" 64 0 "undefinedpending-hibernationactive-hibernationretired-hibernation" [0; 9; 28; 46; 65].
(** internal-role-en-auto.go:17-19 *)
Definition internal_role := mkEnum "InternalRole" 64 0 "undefined-rolelogger-rolesampler-roleresume-role" [0; 14; 25; 37; 48].
(** metric-en-auto.go:19-21 *)
Definition metric := mkEnum "Metric" 64 1
  "metric-no-of-filesmetric-no-of-files-filtered-outmetric-no-of-directoriesmetric-no-of-directories-filtered-outmetric-no-of-child-files-foundmetric-no-of-child-files-found"
  [0; 18; 49; 73; 110; 140; 170].
(** notification-en-auto.go:14-16 *)
Definition notification := mkEnum "Notification" 32 0 "undefined-notification" [0; 22].
(** persistence-format-en-auto.go:15-17 *)
Definition persistence_format := mkEnum "PersistenceFormat" 64 0 "persistence-undefinedpersist-json" [0; 21; 33].
(** resume-strategy-en-auto.go:16-18 *)
Definition resume_strategy_enum := mkEnum "ResumeStrategy" 64 0
  "undefined-resume-strategyspawn-resume-strategyfastward-resume-strategy" [0; 25; 46; 70].
(** role-en-auto.go:20-22 *)
Definition role_enum := mkEnum "Role" 32 0
  "undefined-roleanchor-roleclient-filter-rolehibernate-rolesampler-rolenanny-rolefastward-role" [0; 14; 25; 43; 57; 69; 79; 92].
(** sample-type-en-auto.go:17-19 *)
Definition sample_type_enum := mkEnum "SampleType" 64 0 "undefined-sampleslice-samplefilter-samplecustom-sample" [0; 16; 28; 41; 54].
(** skip-traversal-en-auto.go:16-18 *)
Definition skip_traversal_enum := mkEnum "SkipTraversal" 64 0 "skip-noneskip-dirskip-all" [0; 9; 17; 25].
(** subscription-en-auto.go:18-20 *)
Definition subscription_enum := mkEnum "Subscription" 64 0
  "Undefinedsubscribe-filessubscribe-directoriessubscribe-directories-with-filessubscribe-to-everything" [0; 9; 24; 45; 77; 100].
(** tri-state-bool-en-auto.go:16-18 *)
Definition tri_state_bool := mkEnum "TriStateBool" 64 0 "undefined-booltruefalse" [0; 14; 18; 23].
(** way-point-en-auto.go:17-19 *)
Definition way_point := mkEnum "WayPoint" 64 0 "undefined-way-pointwake-from-hibernationsleeptoggle-way-point" [0; 19; 40; 45; 61].

(** filter-scope-en-auto.go:21-51; the type is uint32 *)
Definition filter_scope_string (i : Z) : outcome string :=
  if (i <=? 2)%Z then
    slice "undefined-scopetree-scopetop-scope" (nth (Z.to_nat i) [0; 15; 25; 34] 0) (nth (Z.to_nat i + 1) [0; 15; 25; 34] 0)
  else if (i =? 4)%Z then Ret "leaf-scope"
  else if (i =? 8)%Z then Ret "intermediate-scope"
  else if (i =? 16)%Z then Ret "file-scope"
  else if (i =? 32)%Z then Ret "directory-scope"
  else if (i =? 64)%Z then Ret "custom-scope"
  else Ret ("FilterScope(" ++ format_int (to_int64 i) ++ ")").
