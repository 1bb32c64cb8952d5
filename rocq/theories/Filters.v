(** Filters: internal/filtering, internal/feat/filter (schemes), the filter
    fields of pref/options-filter.go and core/filtering.go. No proofs here.

    [matchers]: filepath.Match (a bad pattern does not match, as the code
    discards the error) and regexp.Compile with MatchString, both from the Go
    standard library: arbitrary here. *)
From Verif Require Import Base Paths Level Lo Kernel Defaults.
Local Open Scope string_scope.

Record matchers := mkMatchers {
  mt_glob : string -> string -> bool;                 (* pattern, name *)
  mt_regex : string -> (string -> bool) + error        (* compiled pattern or error *)
}.

(** enums/filter-type-en.go *)
Inductive filter_type := FtUndefined | FtGlobEx | FtRegex | FtGlob | FtCustom | FtPoly.
(** enums/tri-state-bool-en.go *)
Inductive tristate := TriUndefined | TriTrue | TriFalse.

(** core/filtering.go:33-65 (FilterDef, PolyFilterDef) *)
Inductive filter_def := mkFilterDef {
  fd_type : filter_type;
  fd_desc : string;
  fd_pattern : string;
  fd_scope : N;
  fd_negate : bool;
  fd_ifna : tristate;
  fd_poly : option (filter_def * filter_def)      (* File, Directory *)
}.
Definition with_scope (sc : N) (d : filter_def) : filter_def :=
  mkFilterDef (fd_type d) (fd_desc d) (fd_pattern d) sc (fd_negate d) (fd_ifna d) (fd_poly d).

(** A client defined filter: its Validate and its IsMatch (given a node or a nil
    pointer). *)
Record custom_filter := mkCustom {
  cu_validate : option error;
  cu_match : option node -> asked bool
}.

(** core/filtering.go:86-98 (ChildFilterDef) *)
Record child_def := mkChildDef { cd_type : filter_type; cd_desc : string; cd_pattern : string; cd_negate : bool }.
(** core/filtering.go:100-126 (SampleFilterDef); Custom: Validate and Matching *)
Record sample_def := mkSampleDef {
  sd_type : filter_type; sd_desc : string; sd_pattern : string; sd_scope : N; sd_negate : bool;
  sd_poly : option (filter_def * filter_def);
  sd_custom : option (option error * (list fsnode -> list fsnode))
}.
(** pref/options-filter.go:19-42 (FilterOptions; the sink: Sink.v) *)
Record filter_options := mkFilterOptions {
  fo_node : option filter_def;
  fo_child : option child_def;
  fo_sample : option sample_def;
  fo_custom : option custom_filter
}.
(** pref/options-sampling.go:10-51; Iteration holds functions which nothing in
    the repository calls and is left out. *)
Inductive sample_type := StUndefined | StSlice | StFilter | StCustom.
Record sampling_options := mkSampling {
  so_type : sample_type; so_reverse : bool; so_files : nat; so_dirs : nat
}.

(** locale/messages-errors.go (the errors returned in this file) *)
Definition err_missing_type : error := Err (Plain 21).
Definition err_poly_invalid : error := Err (Plain 22).
Definition err_missing_separator : error := Err (Plain 23).
Definition err_sub_pattern : error := Err (Plain 24).
Definition err_filter_nil : error := Err (Plain 25).
Definition err_missing_files : error := Err (Plain 26).
Definition err_missing_dirs : error := Err (Plain 27).
Definition err_child_globex : error := Err (Plain 28).
Definition err_child_custom : error := Err (Plain 29).
Definition err_undefined : error := Err (Plain 30).

(** ** Base: internal/filtering/base.go *)

(** base.go:12-18 *)
Record fbase := mkBase { fb_name : string; fb_pattern : string; fb_scope : N; fb_negate : bool; fb_ifna : bool }.
(** base.go:30-32 *)
Definition is_applicable (b : fbase) (n : node) : bool := (0 <? N.land (fb_scope b) (n_scope n))%N.
(** base.go:38-40 *)
Definition invert (negate result : bool) : bool := if negate then negb result else result.
(** base.go:42-48 *)
Definition base_validate (b : fbase) : fbase :=
  if (fb_scope b =? ScopeUndefined)%N
  then mkBase (fb_name b) (fb_pattern b) ScopeAll (fb_negate b) (fb_ifna b) else b.

(** builders.go:44-56 *)
Definition applicable (t : tristate) : bool :=
  match t with TriTrue => true | TriFalse => false | TriUndefined => true end.

(** glob.go:11-23, regex.go:11-23 *)
Definition base_of (d : filter_def) : fbase :=
  mkBase (fd_desc d) (fd_pattern d) (fd_scope d) (fd_negate d) (applicable (fd_ifna d)).

(** ** Extended glob: internal/filtering/glob-ex.go, builders.go:135-165 *)

(** strings.Split by a one character separator *)
Fixpoint split_on (ch : ascii) (s : string) : list string :=
  match s with
  | EmptyString => [EmptyString]
  | String a r =>
      if Ascii.eqb a ch then EmptyString :: split_on ch r
      else match split_on ch r with
           | x :: l => String a x :: l
           | [] => [String a EmptyString]
           end
  end.
(** strings.Contains for a one character string *)
Fixpoint contains_char (ch : ascii) (s : string) : bool :=
  match s with EmptyString => false | String a r => Ascii.eqb a ch || contains_char ch r end.
(** strings.TrimSpace; simplified: ASCII white space *)
Definition is_space (a : ascii) : bool :=
  let n := N_of_ascii a in ((9 <=? n) && (n <=? 13))%N || (n =? 32)%N.
Fixpoint drop_space (l : list ascii) : list ascii :=
  match l with a :: r => if is_space a then drop_space r else l | [] => [] end.
Definition trim_space (s : string) : string :=
  string_of_list_ascii (rev (drop_space (rev (drop_space (list_ascii_of_string s))))).

(** glob-ex.go:105-113 (patternSpec): the matcher and excludeExt are what the other
    functions use *)
Record pattern_spec := mkPspec { ps_matcher : string; ps_exclude : bool }.

(** Split at the last dot. *)
Fixpoint last_dot (s : string) : option (string * string) :=
  match s with
  | EmptyString => None
  | String a r =>
      match last_dot r with
      | Some (b, e) => Some (String a b, e)
      | None => if Ascii.eqb a "."%char then Some (EmptyString, r) else None
      end
  end.
(** glob-ex.go:17 (the regular expression: base without line breaks, the last
    dot, an optional exclamation mark, a non empty extension without dots) and
    129-158 (parse) *)
Definition newline : ascii := ascii_of_N 10.
Definition parse_spec (pattern : string) : option pattern_spec :=
  match last_dot pattern with
  | None => None
  | Some (base, rest) =>
      if contains_char newline base then None else
      let mk ext excl :=
        Some (mkPspec ((if String.eqb base "" then "*" else base) ++ "." ++ ext) excl) in
      match rest with
      | EmptyString => None
      | String "!" EmptyString => mk rest false
      | String "!" r => mk r true
      | _ => mk rest false
      end
  end.
(** glob-ex.go:160-178 (newSpec) *)
Definition new_specs (patterns : list string) : list (option pattern_spec) * option error :=
  lo_mape None patterns (fun p _ =>
    match parse_spec (to_lower (trim_space p)) with
    | Some sp => (Some sp, None)
    | None => (None, Some err_sub_pattern)
    end).
(** glob-ex.go:180-192 *)
Definition spec_excluded (mt : matchers) (sp : pattern_spec) (name : string) : bool :=
  ps_exclude sp && mt_glob mt (ps_matcher sp) name.
Definition spec_match (mt : matchers) (sp : pattern_spec) (name : string) : bool :=
  mt_glob mt (ps_matcher sp) name.
(** glob-ex.go:194-206 *)
Fixpoint specs_match (mt : matchers) (specs : list pattern_spec) (name : string) : bool :=
  match specs with
  | [] => false
  | sp :: r =>
      if spec_excluded mt sp name then false
      else if ps_exclude sp || spec_match mt sp name then true
      else specs_match mt r name
  end.
(** builders.go:135-149 (splitGlobExPattern) *)
Definition split_globex (pattern : string) : (string * list string) + error :=
  if contains_char "|"%char pattern then
    match split_on "|"%char pattern with
    | seg :: suf :: _ =>
        inl (seg, lo_reject (split_on ","%char suf)
                    (fun item _ => String.eqb item "" || String.eqb item "!"))
    | _ => inr err_missing_separator (* not reachable *)
    end
  else inr err_missing_separator.
(** builders.go:155-165 (splitGlob) *)
Definition split_glob (base_glob : string) : string * string :=
  let base := to_lower base_glob in
  match split_on "/"%char base with
  | b :: e :: _ => (b, e)
  | _ => (base, "")
  end.

(** ** Node filters *)
Inductive nfilter :=
| NfGlob (b : fbase)
| NfRegex (b : fbase) (rex : string -> bool)
| NfGlobEx (b : fbase) (specs : list pattern_spec) (dir_glob dir_excl : string)
| NfCustom (c : custom_filter)
| NfPoly (file directory : nfilter).

(** glob-ex.go:65-83 (isDirectoryMatch) *)
Definition directory_match (mt : matchers) (dg de : string) (n : node) : bool :=
  match n_parent n with
  | None => true
  | Some p =>
      let name := to_lower (n_name p) in
      mt_glob mt dg name && negb (mt_glob mt de name)
  end.

(** glob.go:31-38, regex.go:48-54, glob-ex.go:57-63,95-101, poly.go:66-72. The
    argument is a pointer: using the fields of a nil node panics. *)
Fixpoint is_match (mt : matchers) (f : nfilter) (on : option node) : outcome bool :=
  match f with
  | NfGlob b =>
      match on with
      | None => Pan nil_deref
      | Some n =>
          Ret (if is_applicable b n then invert (fb_negate b) (mt_glob mt (fb_pattern b) (n_name n)) else fb_ifna b)
      end
  | NfRegex b rex =>
      match on with
      | None => Pan nil_deref
      | Some n => Ret (if is_applicable b n then invert (fb_negate b) (rex (n_name n)) else fb_ifna b)
      end
  | NfGlobEx b specs dg de =>
      match on with
      | None => Pan nil_deref
      | Some n =>
          Ret (if is_applicable b n && directory_match mt dg de n
               then invert (fb_negate b) (specs_match mt specs (n_name n)) else fb_ifna b)
      end
  | NfCustom c => match cu_match c on with inl b => Ret b | inr p => Pan p end
  | NfPoly ff df =>
      match on with
      | None => Pan nil_deref
      | Some n =>
          if n_isdir n then Ret true
          else match is_match mt df (n_parent n) with
               | Ret true => is_match mt ff on
               | x => x
               end
      end
  end.

(** builders.go:13-42 (buildNativeNodeFilter), with the create functions and
    Validate. [Ret (None, None)]: no filter and no error. *)
Definition build_native (mt : matchers) (d : filter_def) : option nfilter * option error :=
  match fd_type d with
  | FtGlobEx =>
      match split_globex (fd_pattern d) with
      | inr e => (None, Some e)
      | inl (seg, patterns) =>
          let '(dg, de) := split_glob seg in
          match new_specs patterns with
          | (_, Some e) => (None, Some e)
          | (specs, None) =>
              (Some (NfGlobEx (base_validate (base_of (with_scope ScopeFile d)))
                 (flat_map (fun o => match o with Some sp => [sp] | None => [] end) specs) dg de), None)
          end
      end
  | FtRegex =>
      match mt_regex mt (fd_pattern d) with
      | inl rex => (Some (NfRegex (base_validate (base_of d)) rex), None)
      | inr e => (Some (NfRegex (base_validate (base_of d)) (fun _ => false)), Some e)
      end
  | FtGlob => (Some (NfGlob (base_validate (base_of d))), None)
  | FtCustom | FtPoly => (None, None)
  | FtUndefined => (None, Some err_missing_type)
  end.

(** filtering-defs.go:24-38 (OrFuncE) over a list of delayed results *)
Fixpoint or_func {A : Type} (fs : list (unit -> outcome (option A * option error)))
    : outcome (option A * option error) :=
  match fs with
  | [] => Ret (None, None)
  | f :: r =>
      match f tt with
      | Ret (_, Some e) => Ret (None, Some e)
      | Ret (Some x, None) => Ret (Some x, None)
      | Ret (None, None) => or_func r
      | x => x
      end
  end.

Definition get_custom (fo : filter_options) : option nfilter * option error :=
  (option_map NfCustom (fo_custom fo), None).

(** Validate of a built filter (base.go:42-48, regex.go:34-45: a second
    validation changes nothing; a custom filter's own) *)
Definition validate_again (f : nfilter) : option error :=
  match f with NfCustom c => cu_validate c | _ => None end.

(** builders.go:104-127 (buildConstituent): a nil filter's Validate panics *)
Definition build_constituent (mt : matchers) (d : filter_def) (fo : filter_options)
    : outcome (option nfilter * option error) :=
  match or_func [(fun _ => Ret (get_custom fo)); (fun _ => Ret (build_native mt d))] with
  | Ret (_, Some e) => Ret (None, Some e)
  | Ret (None, None) => Pan nil_deref
  | Ret (Some f, None) =>
      match validate_again f with
      | Some e => Ret (None, Some e)
      | None => Ret (Some f, None)
      end
  | x => x
  end.

(** builders.go:58-102 (buildPolyNodeFilter): the definition used is that of the
    node filter in the options, whatever the definition given *)
Definition is_poly_type (t : filter_type) : bool := match t with FtPoly => true | _ => false end.
Definition build_poly (mt : matchers) (d : filter_def) (fo : filter_options)
    : outcome (option nfilter * option error) :=
  if is_poly_type (fd_type d) then
    match fo_node fo with
    | None => Pan nil_deref
    | Some nd =>
        match fd_poly nd with
        | None => Pan nil_deref
        | Some (fd, dd) =>
            let fd' := with_scope (scope_clear (scope_set (fd_scope fd) ScopeFile) ScopeDirectory) fd in
            let dd' := with_scope (scope_clear (scope_set (fd_scope dd) ScopeDirectory) ScopeFile) dd in
            if is_poly_type (fd_type fd') then Ret (None, Some err_poly_invalid) else
            match build_constituent mt fd' fo with
            | Ret (Some ff, None) =>
                if is_poly_type (fd_type dd') then Ret (None, Some err_poly_invalid) else
                match build_constituent mt dd' fo with
                | Ret (Some df, None) => Ret (Some (NfPoly ff df), None)
                | x => x
                end
            | x => x
            end
        end
    end
  else Ret (None, None).

(** new-filter.go:8-22 (New) *)
Definition new_filter (mt : matchers) (d : filter_def) (fo : filter_options)
    : outcome (option nfilter * option error) :=
  or_func [(fun _ => build_poly mt d fo); (fun _ => Ret (get_custom fo)); (fun _ => Ret (build_native mt d))].

(** ** Child filters: internal/filtering/child.go, glob.go:48-55, regex.go:63-76.
    [Ret (None, None)]: no filter and no error (type Poly). *)
Definition new_child (mt : matchers) (d : child_def)
    : option (list fsnode -> list fsnode) * option error :=
  match cd_type d with
  | FtRegex =>
      match mt_regex mt (cd_pattern d) with
      | inl rex => (Some (fun l => lo_filter l (fun e _ => invert (cd_negate d) (rex (fname e)))), None)
      | inr e => (None, Some e)
      end
  | FtGlob =>
      (Some (fun l => lo_filter l (fun e _ => invert (cd_negate d) (mt_glob mt (cd_pattern d) (fname e)))), None)
  | FtGlobEx => (None, Some err_child_globex)
  | FtCustom => (None, Some err_child_custom)
  | FtUndefined => (None, Some err_undefined)
  | FtPoly => (None, None)
  end.

(** ** Sample filters: internal/filtering/sample.go *)

(** sample.go:82-110 (fetch): directories if the directory bit is set, otherwise
    files if the file bit is set, otherwise everything; and the others *)
Definition fetch (scope : N) (es : list fsnode) : list fsnode * list fsnode :=
  if scope_is_directory scope then (dirs_of es, files_of es)
  else if scope_is_file scope then (files_of es, dirs_of es)
  else (es, []).
(** glob.go:69-82, regex.go:105-114 *)
Definition sample_matching (scope : N) (keep : fsnode -> bool) (es : list fsnode) : list fsnode :=
  let '(filterable, bypass) := fetch scope es in
  (lo_filter filterable (fun e _ => keep e) ++ bypass)%list.

(** sample.go:24-80 (NewSample); base.go:42-48 is applied to the scrubbed scope *)
Definition new_sample (mt : matchers) (d : sample_def) (so : sampling_options)
    : option (list fsnode -> list fsnode) * option error :=
  let scope := scope_scrub (sd_scope d) in
  let valid := if (scope =? ScopeUndefined)%N then ScopeAll else scope in
  if scope_is_file scope && Nat.eqb (so_files so) 0 then (None, Some err_missing_files)
  else if scope_is_directory scope && Nat.eqb (so_dirs so) 0 then (None, Some err_missing_dirs)
  else match sd_type d with
  | FtRegex =>
      match mt_regex mt (sd_pattern d) with
      | inl rex => (Some (sample_matching valid (fun e => invert (sd_negate d) (rex (fname e)))), None)
      | inr e => (None, Some e)
      end
  | FtGlob =>
      (Some (sample_matching valid (fun e => invert (sd_negate d) (mt_glob mt (sd_pattern d) (fname e)))), None)
  | FtCustom =>
      match sd_custom d with
      | None => (None, Some err_filter_nil)
      | Some (Some e, _) => (None, Some e)
      | Some (None, m) => (Some m, None)
      end
  | FtGlobEx | FtPoly => (None, None)
  | FtUndefined => (None, Some err_missing_type)
  end.

(** ** Schemes: internal/feat/filter *)

(** pref/options-filter.go:56-78 *)
Definition node_active (fo : filter_options) : bool :=
  match fo_node fo with
  | None => false
  | Some d => negb (String.eqb (fd_pattern d) "") || match fd_poly d with Some _ => true | None => false end
  end.
Definition child_active (fo : filter_options) : bool :=
  match fo_child fo with None => false | Some d => negb (String.eqb (cd_pattern d) "") end.
Definition sample_active (fo : filter_options) : bool :=
  match fo_sample fo with None => false | Some _ => true end.
Definition custom_active (fo : filter_options) : bool :=
  match fo_custom fo with None => false | Some _ => true end.
Definition filtering_active (fo : filter_options) : bool :=
  node_active fo || child_active fo || sample_active fo || custom_active fo.

(** What creating a scheme yields: the filter it will ask, which may be nil. *)
Inductive created :=
| CrNode (f : option nfilter)
| CrSampler (m : list fsnode -> list fsnode)
| CrChild (m : option (list fsnode -> list fsnode)).

(** schemes.go:68-88 (unary), scheme-custom.go:15-19, scheme-native.go:15-30,
    scheme-sampler.go:19-39 (create): creating the sampler scheme with a nil
    filter panics at line 38 *)
Definition create_primary (mt : matchers) (fo : filter_options) (so : sampling_options)
    : outcome (option created * option error) :=
  match fo_custom fo with
  | Some cu => Ret (Some (CrNode (Some (NfCustom cu))), cu_validate cu)
  | None =>
      match fo_node fo with
      | Some d =>
          if node_active fo then
            match new_filter mt d fo with
            | Ret (_, Some e) => Ret (None, Some e)
            | Ret (f, None) => Ret (Some (CrNode f), None)
            | Pan p => Pan p
            | Stuck => Stuck
            end
          else match fo_sample fo with
            | Some sd =>
                match new_sample mt sd so with
                | (_, Some e) => Ret (None, Some e)
                | (Some m, None) => Ret (Some (CrSampler m), None)
                | (None, None) => Pan nil_deref
                end
            | None => Ret (None, None)
            end
      | None =>
          match fo_sample fo with
          | Some sd =>
              match new_sample mt sd so with
              | (_, Some e) => Ret (None, Some e)
              | (Some m, None) => Ret (Some (CrSampler m), None)
              | (None, None) => Pan nil_deref
              end
          | None => Ret (None, None)
          end
      end
  end.
(** schemes.go:46-66 (binary), scheme-nanny.go:16-31 (create) *)
Definition create_child (mt : matchers) (fo : filter_options) : option created * option error :=
  match fo_child fo with
  | Some d => if child_active fo then
      match new_child mt d with
      | (_, Some e) => (None, Some e)
      | (m, None) => (Some (CrChild m), None)
      end else (None, None)
  | None => (None, None)
  end.
(** schemes.go:27-44, scheme-hybrid.go:24-40: create of the scheme; primary first *)
Definition create_scheme (mt : matchers) (fo : filter_options) (so : sampling_options)
    : outcome (option created * option created * option error) :=
  match create_primary mt fo so with
  | Ret (p, Some e) => Ret (p, None, Some e)
  | Ret (p, None) => let '(ch, e) := create_child mt fo in Ret (p, ch, e)
  | Pan q => Pan q
  | Stuck => Stuck
  end.

(** Asking a filter about a node; asking a nil filter panics. *)
Definition answer_of (mt : matchers) (f : option nfilter) (n : node) : asked bool :=
  match f with
  | None => inr nil_deref
  | Some g =>
      match is_match mt g (Some n) with
      | Ret b => inl b
      | Pan p => inr p
      | Stuck => inr nil_deref       (* not reachable *)
      end
  end.
(** The scheme asked by the kernel: schemes.go:27-44 *)
Definition kernel_scheme (mt : matchers) (p ch : option created) : scheme :=
  mkScheme
    (match p with
     | Some (CrNode f) => Some (PrimaryNode (answer_of mt f))
     | Some (CrSampler sm) => Some (PrimarySampler sm)
     | _ => None
     end)
    (match ch with
     | Some (CrChild (Some m)) => Some (fun l => inl (m l))
     | Some (CrChild None) => Some (fun _ => inr nil_deref)
     | _ => None
     end).

(** ** Sampling: internal/feat/sampling/controller.go *)

(** controller.go:68-74 (first, last); the counts are unsigned integers *)
Definition first_n (n : nat) (es : list fsnode) : list fsnode := firstn (Nat.min n (length es)) es.
Definition last_n (n : nat) (es : list fsnode) : list fsnode := skipn (length es - Nat.min n (length es)) es.
(** controller.go:49-66 (union) *)
Definition union (so : sampling_options) (files dirs : list fsnode) : list fsnode :=
  let nf := if Nat.eqb (so_files so) 0 then length files else so_files so in
  let nd := if Nat.eqb (so_dirs so) 0 then length dirs else so_dirs so in
  let take := if so_reverse so then last_n else first_n in
  (take nf files ++ take nd dirs)%list.
(** pref/options-sampling.go:79-81 *)
Definition sampling_active (so : sampling_options) : bool :=
  match so_type so with StUndefined => false | _ => true end.
