(** Vocabulary of C112: the documented texts of the enumerations (the comments in
    enums/*-en.go). *)
From Verif Require Import Base Enums.
From Coq Require Import ZArith.
Local Open Scope string_scope.

(** The values of the type. *)
Definition value_of (e : enum) (i : Z) : Prop := (0 <= i < 2 ^ en_bits e)%Z.

(** The documented texts, of the first value on. *)
Definition documented_texts : list (enum * list string) :=
  [ (entry_type, ["directory-entry"; "file-entry"; "all-entries"]);
    (filter_type_enum, ["undefined-filter"; "glob-ex-filter"; "regex-filter"; "glob-filter"; "custom-filter"; "poly-filter"]);
    (glob_extraction, ["undefined"; "star-dot"; "star-only"; "leading-dot-only"; "bare"]);
    (hibernation, ["undefined"; "pending-hibernation"; "active-hibernation"; "retired-hibernation"]);
    (internal_role, ["undefined-role"; "logger-role"; "sampler-role"; "resume-role"]);
    (metric, ["metric-no-of-files"; "metric-no-of-files-filtered-out"; "metric-no-of-directories";
              "metric-no-of-directories-filtered-out"; "metric-no-of-child-files-found"; "metric-no-of-child-files-found"]);
    (notification, ["undefined-notification"]);
    (persistence_format, ["persistence-undefined"; "persist-json"]);
    (resume_strategy_enum, ["undefined-resume-strategy"; "spawn-resume-strategy"; "fastward-resume-strategy"]);
    (role_enum, ["undefined-role"; "anchor-role"; "client-filter-role"; "hibernate-role"; "sampler-role"; "nanny-role"; "fastward-role"]);
    (sample_type_enum, ["undefined-sample"; "slice-sample"; "filter-sample"; "custom-sample"]);
    (skip_traversal_enum, ["skip-none"; "skip-dir"; "skip-all"]);
    (subscription_enum, ["Undefined"; "subscribe-files"; "subscribe-directories"; "subscribe-directories-with-files"; "subscribe-to-everything"]);
    (tri_state_bool, ["undefined-bool"; "true"; "false"]);
    (way_point, ["undefined-way-point"; "wake-from-hibernation"; "sleep"; "toggle-way-point"]) ].
(** The documented texts of the scopes. *)
Definition scope_texts : list (Z * string) :=
  [(0, "undefined-scope"); (1, "tree-scope"); (2, "top-scope"); (4, "leaf-scope"); (8, "intermediate-scope");
   (16, "file-scope"); (32, "directory-scope"); (64, "custom-scope")]%Z.
