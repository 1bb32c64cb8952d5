(** Where an interrupted session is stored: internal/kernel/author.go, vex.go,
    core/core-defs.go:115-145, pref/facade.go:135-137, 151-153 (Magnitude). No proofs here.

    The resume file system is native (Forest.R), its calculator filepath's. Not
    represented: permissions. *)
From Verif Require Import Base Paths Kernel Filters Hooks Life Options Persist.
Local Open Scope string_scope.

(** time.Time as far as the layout uses it (local time) *)
Record civil := mkCivil {
  cv_year : N; cv_month : N; cv_day : N; cv_hour : N; cv_minute : N; cv_second : N; cv_nano : N
}.
(** Time.Format with the layout "2006-01-02_15-04-05" (core/core-defs.go:119):
    four digits for the year (of the years 0 to 9999), two for the others *)
Definition digit (n : N) : ascii := ascii_of_N (48 + n mod 10).
Definition two (n : N) : string := String (digit (n / 10)) (String (digit n) "").
Definition four (n : N) : string := two (n / 100) ++ two n.
Definition stamp (t : civil) : string :=
  four (cv_year t) ++ "-" ++ two (cv_month t) ++ "-" ++ two (cv_day t) ++ "_" ++
  two (cv_hour t) ++ "-" ++ two (cv_minute t) ++ "-" ++ two (cv_second t).

(** pref/facade.go:135-137, 151-153 *)
Definition magnitude (resuming : bool) : string := if resuming then "resume" else "prime".
(** strings.HasSuffix *)
Fixpoint has_suffix (s e : string) : bool :=
  String.eqb s e || match s with EmptyString => false | String _ r => has_suffix r e end.
(** core/core-defs.go:144 *)
Definition resume_tail : string := "agenor/admin/resume".
(** author.go:49-64 (destination); [resolve]: nef.ResolvePath; the cause is
    always "panic" (navigator-agent.go:118-124) *)
Definition destination (resolve : string -> string) (admin : string) (resuming : bool) (now : civil) : string * string :=
  let directory := resolve admin in
  let directory := if has_suffix directory resume_tail then directory else join directory resume_tail in
  (directory, magnitude resuming ++ "." ++ "panic" ++ "." ++ stamp now ++ ".json").

(** The files of the resume file system: documents, or something else (a part of
    a document) *)
Inductive content := Document (v : jv) | Garbage.
Definition files : Type := string -> option content.
Definition put_file (path : string) (x : option content) (fs : files) : files :=
  fun p => if String.eqb p path then x else fs p.

(** What the file system reports. A write which fails may leave anything behind
    (os.WriteFile truncates first): the error, and what is there then. *)
Record writer := mkWriter {
  wr_mkdir : string -> option error;
  wr_write : string -> option (error * option content)
}.
(** author.go:18-47 (write), navigator-agent.go:204-210 (Save), marshaler.go:52-76
    (the write is its last step): the destination and the error, and the files
    afterwards *)
Definition author_write (resolve : string -> string) (w : writer) (admin : string) (resuming : bool) (now : civil)
    (o : options) (a : active) (fs : files) : string * option error * files :=
  let '(directory, file) := destination resolve admin resuming now in
  match wr_mkdir w directory with
  | Some e => ("", Some e, fs)
  | None =>
      let path := join directory file in
      match marshal o a None with
      | (Some doc, None) =>
          match wr_write w path with
          | None => (path, None, put_file path (Some (Document doc)) fs)
          | Some (e, rest) => (path, Some e, put_file path rest fs)
          end
      | (_, e) => (path, e, fs)
      end
  end.

(** pref/defaults.go:89-91 (DefaultPanicHandler) with locale/messages-errors.go:734-795
    (the Destination of the error): what the client of a session is told, and the
    files afterwards. *)
Definition default_rescue (resolve : string -> string) (w : writer) (admin : string) (resuming : bool) (now : civil)
    (o : options) (a : active) (fs : files) : (string + error) * files :=
  match author_write resolve w admin resuming now o a fs with
  | (to, None, fs1) => (inl to, fs1)
  | (_, Some e, fs1) => (inr e, fs1)
  end.
