(** Saving and loading a session: internal/persist, internal/opts/json and the
    state of core/core-defs.go. No proofs here.

    encoding/json is modelled up to the text: a document is a JSON value, and
    writing a value as text and reading the text back is taken to give the same
    value. What the encoder does to strings which are not UTF-8 is modelled.
    Left out: keys of a document which differ from a field's key in upper and
    lower case only (the decoder accepts them), a repeated Poly key (decoded on
    top of the first one), enumeration values without a name. *)
From Verif Require Import Base Paths Level Kernel Defaults Filters Hooks Life Options.
Local Open Scope string_scope.

(** ** JSON values *)
Inductive jv :=
| JNull
| JBool (b : bool)
| JNum (z : Z)
| JStr (s : string)
| JObj (fields : list (string * jv)).

(** encoding/json (appendString) with unicode/utf8 (DecodeRune): every byte which
    is not part of a valid sequence is written as U+FFFD *)
Definition byte (a : ascii) : N := N_of_ascii a.
Definition between (lo hi : N) (a : ascii) : bool := ((lo <=? byte a) && (byte a <=? hi))%N.
Definition ufffd : list ascii := [ascii_of_N 239; ascii_of_N 191; ascii_of_N 189].
Definition tail_byte : ascii -> bool := between 128 191.
(** what may follow the first byte of a sequence: the range of the second byte
    and how many more bytes *)
Definition lead (a : ascii) : option ((ascii -> bool) * nat) :=
  if between 194 223 a then Some (tail_byte, 0)
  else if between 224 224 a then Some (between 160 191, 1)
  else if between 225 236 a then Some (tail_byte, 1)
  else if between 237 237 a then Some (between 128 159, 1)
  else if between 238 239 a then Some (tail_byte, 1)
  else if between 240 240 a then Some (between 144 191, 2)
  else if between 241 243 a then Some (tail_byte, 2)
  else if between 244 244 a then Some (between 128 143, 2)
  else None.
Fixpoint clean_bytes (l : list ascii) : list ascii :=
  match l with
  | [] => []
  | a :: r =>
      if between 0 127 a then a :: clean_bytes r
      else match lead a, r with
      | Some (ok, 0), b :: r1 =>
          if ok b then a :: b :: clean_bytes r1 else ufffd ++ clean_bytes r
      | Some (ok, 1), b :: (c :: r2) as r1 =>
          if ok b && tail_byte c then a :: b :: c :: clean_bytes r2 else ufffd ++ clean_bytes r
      | Some (ok, 2), b :: (c :: (d :: r3)) =>
          if ok b && tail_byte c && tail_byte d then a :: b :: c :: d :: clean_bytes r3 else ufffd ++ clean_bytes r
      | _, _ => ufffd ++ clean_bytes r
      end
  end%list.
Definition utf8_clean (s : string) : string := string_of_list_ascii (clean_bytes (list_ascii_of_string s)).

(** ** The persisted form of the options: internal/opts/json *)

(** filter-options.go:8-40 (FilterDef, PolyFilterDef) *)
Inductive jfilter := mkJFilter {
  jf_type : filter_type;
  jf_desc : string;
  jf_pattern : string;
  jf_scope : N;
  jf_negate : bool;
  jf_ifna : tristate;
  jf_poly : option (jfilter * jfilter)
}.
(** filter-options.go:42-54 (ChildFilterDef) *)
Record jchild := mkJChild {
  jc_type : filter_type; jc_desc : string; jc_pattern : string; jc_negate : bool
}.
(** filter-options.go:56-78 (SampleFilterDef) *)
Record jsample := mkJSample {
  js_type : filter_type; js_desc : string; js_pattern : string; js_scope : N; js_negate : bool;
  js_poly : option (jfilter * jfilter)
}.
(** navigation-behaviours.go:4-46 *)
Record jbehaviours := mkJBehaviours {
  jb_keep_sep : bool; jb_case : bool; jb_files_first : bool; jb_depth : N; jb_no_recurse : bool
}.
(** sampling-options.go:10-27 *)
Record jsampling := mkJSampling {
  jg_type : sample_type; jg_reverse : bool; jg_files : nat; jg_dirs : nat
}.
(** hibernate-options.go:5-25 *)
Record jhib := mkJHib {
  jh_wake : option jfilter; jh_sleep : option jfilter; jh_incl_wake : bool; jh_incl_sleep : bool
}.
(** options.go:5-21, concurrency-options.go:9-14 *)
Record joptions := mkJOptions {
  jo_behaviours : jbehaviours;
  jo_sampling : jsampling;
  jo_node : option jfilter;
  jo_child : option jchild;
  jo_sample : option jsample;
  jo_hib : jhib;
  jo_now : N
}.

(** ** Conversions: internal/persist/json-options.go *)

(** json-options.go:86-112 (NodeFilterDefToJSON, NodePolyDefToJSON) *)
Fixpoint filter_to_json (d : filter_def) : jfilter :=
  mkJFilter (fd_type d) (fd_desc d) (fd_pattern d) (fd_scope d) (fd_negate d) (fd_ifna d)
    (match fd_poly d with
     | None => None
     | Some (f, g) => Some (filter_to_json f, filter_to_json g)
     end).
(** json-options.go:184-212 (NodeFilterDefFromJSON, NodePolyDefFromJSON) *)
Fixpoint filter_from_json (d : jfilter) : filter_def :=
  mkFilterDef (jf_type d) (jf_desc d) (jf_pattern d) (jf_scope d) (jf_negate d) (jf_ifna d)
    (match jf_poly d with
     | None => None
     | Some (f, g) => Some (filter_from_json f, filter_from_json g)
     end).

(** json-options.go:19-84 (ToJSON): the poly of a sample filter is not set *)
Definition to_json (o : options) : joptions :=
  let b := op_behaviours o in
  let s := op_sampling o in
  let f := op_filter o in
  let h := op_hib o in
  mkJOptions
    (mkJBehaviours (bh_keep_sep b) (bh_case b) (bh_files_first b) (bh_depth b) (bh_no_recurse b))
    (mkJSampling (so_type s) (so_reverse s) (so_files s) (so_dirs s))
    (option_map filter_to_json (fo_node f))
    (option_map (fun d => mkJChild (cd_type d) (cd_desc d) (cd_pattern d) (cd_negate d)) (fo_child f))
    (option_map (fun d => mkJSample (sd_type d) (sd_desc d) (sd_pattern d) (sd_scope d) (sd_negate d) None)
       (fo_sample f))
    (mkJHib (option_map filter_to_json (ho_wake h)) (option_map filter_to_json (ho_sleep h))
       (ho_incl_wake h) (ho_incl_sleep h))
    (co_now (op_conc o)).

(** json-options.go:114-182 (FromJSON): a sample filter gets neither poly nor
    custom filter, the filter options no custom filter, the concurrency options
    the number of workers only; everything else is as in the defaults *)
Definition from_json (env : environment) (jo : joptions) : options :=
  let b := jo_behaviours jo in
  let s := jo_sampling jo in
  let h := jo_hib jo in
  let o := default_options env in
  mkOptions
    (mkBehaviours (jb_keep_sep b) (jb_case b) (jb_files_first b) (jb_depth b) (jb_no_recurse b))
    (mkSampling (jg_type s) (jg_reverse s) (jg_files s) (jg_dirs s))
    (mkFilterOptions
       (option_map filter_from_json (jo_node jo))
       (option_map (fun d => mkChildDef (jc_type d) (jc_desc d) (jc_pattern d) (jc_negate d)) (jo_child jo))
       (option_map (fun d => mkSampleDef (js_type d) (js_desc d) (js_pattern d) (js_scope d) (js_negate d) None None)
          (jo_sample jo))
       None)
    (mkHibOptions (option_map filter_from_json (jh_wake h)) (option_map filter_from_json (jh_sleep h))
       (jh_incl_wake h) (jh_incl_sleep h))
    (mkConc (jo_now jo) 0 0 false)
    (op_events o) (op_hooks o) (op_defects o).

(** ** The comparison: internal/persist/comparison.go *)

(** locale (ErrUnEqualConversion), with the name of the field *)
Definition err_unequal : error := Err (Plain 40).
Definition unequal (field : nat) : error := Wrap (100 + field) [err_unequal].

Definition ft_code (t : filter_type) : N :=
  match t with
  | FtUndefined => 0 | FtGlobEx => 1 | FtRegex => 2 | FtGlob => 3 | FtCustom => 4 | FtPoly => 5
  end.
Definition st_code (t : sample_type) : N :=
  match t with StUndefined => 0 | StSlice => 1 | StFilter => 2 | StCustom => 3 end.
Definition tri_code (t : tristate) : N :=
  match t with TriUndefined => 0 | TriTrue => 1 | TriFalse => 2 end.

(** the first error of a sequence of checks *)
Fixpoint checks (l : list (bool * nat)) : option error :=
  match l with
  | [] => None
  | (true, _) :: r => checks r
  | (false, f) :: _ => Some (unequal f)
  end.
Definition also (a b : option error) : option error := match a with Some e => Some e | None => b end.

(** comparison.go:233-331 (equalFilterDef, both present): the two poly filters
    are compared only if both are present *)
Fixpoint equal_filter (d : filter_def) (j : jfilter) : option error :=
  also
    (checks
      [((ft_code (fd_type d) =? ft_code (jf_type j))%N, 10);
       (String.eqb (fd_desc d) (jf_desc j), 11);
       (String.eqb (fd_pattern d) (jf_pattern j), 12);
       ((fd_scope d =? jf_scope j)%N, 13);
       (Bool.eqb (fd_negate d) (jf_negate j), 14);
       ((tri_code (fd_ifna d) =? tri_code (jf_ifna j))%N, 15)])
    (match fd_poly d, jf_poly j with
     | Some (f, g), Some (jf, jg) => also (equal_filter f jf) (equal_filter g jg)
     | _, _ => None
     end).
(** comparison.go:236-258, 336-358, 406-428: the pointers *)
Definition equal_ptr {A B : Type} (eq : A -> B -> option error) (a : option A) (b : option B) : option error :=
  match a, b with
  | None, None => None
  | None, Some _ => Some (unequal 1)
  | Some _, None => Some (unequal 2)
  | Some x, Some y => eq x y
  end.
(** comparison.go:333-401 *)
Definition equal_child (d : child_def) (j : jchild) : option error :=
  checks
    [((ft_code (cd_type d) =? ft_code (jc_type j))%N, 10);
     (String.eqb (cd_desc d) (jc_desc j), 11);
     (String.eqb (cd_pattern d) (jc_pattern j), 12);
     (Bool.eqb (cd_negate d) (jc_negate j), 14)].
(** comparison.go:403-491 *)
Definition equal_sample (d : sample_def) (j : jsample) : option error :=
  also
    (checks
      [((ft_code (sd_type d) =? ft_code (js_type j))%N, 10);
       (String.eqb (sd_desc d) (js_desc j), 11);
       (String.eqb (sd_pattern d) (js_pattern j), 12);
       ((sd_scope d =? js_scope j)%N, 13);
       (Bool.eqb (sd_negate d) (js_negate j), 14)])
    (match sd_poly d, js_poly j with
     | Some (f, g), Some (jf, jg) => also (equal_filter f jf) (equal_filter g jg)
     | _, _ => None
     end).
(** comparison.go:135-179 *)
Definition equal_behaviours (b : behaviours) (j : jbehaviours) : option error :=
  checks
    [(Bool.eqb (bh_keep_sep b) (jb_keep_sep j), 20);
     (Bool.eqb (bh_case b) (jb_case j), 21);
     (Bool.eqb (bh_files_first b) (jb_files_first j), 22);
     ((bh_depth b =? jb_depth j)%N, 23);
     (Bool.eqb (bh_no_recurse b) (jb_no_recurse j), 24)].
(** comparison.go:181-215 *)
Definition equal_sampling (s : sampling_options) (j : jsampling) : option error :=
  checks
    [((st_code (so_type s) =? st_code (jg_type j))%N, 30);
     (Bool.eqb (so_reverse s) (jg_reverse j), 31);
     (Nat.eqb (so_files s) (jg_files j), 32);
     (Nat.eqb (so_dirs s) (jg_dirs j), 33)].
(** comparison.go:63-133, 217-231 (equalOptions, both present) *)
Definition equal_options (o : options) (j : joptions) : option error :=
  also (equal_behaviours (op_behaviours o) (jo_behaviours j))
  (also (equal_sampling (op_sampling o) (jo_sampling j))
  (also (equal_ptr equal_filter (fo_node (op_filter o)) (jo_node j))
  (also (equal_ptr equal_child (fo_child (op_filter o)) (jo_child j))
  (also (equal_ptr equal_sample (fo_sample (op_filter o)) (jo_sample j))
  (also (equal_ptr equal_filter (ho_wake (op_hib o)) (jh_wake (jo_hib j)))
  (also (equal_ptr equal_filter (ho_sleep (op_hib o)) (jh_sleep (jo_hib j)))
  (checks
    [(Bool.eqb (ho_incl_wake (op_hib o)) (jh_incl_wake (jo_hib j)), 40);
     (Bool.eqb (ho_incl_sleep (op_hib o)) (jh_incl_sleep (jo_hib j)), 41);
     ((co_now (op_conc o) =? jo_now j)%N, 42)]))))))).

(** ** The saved state: core/core-defs.go:73-87 (ActiveState). The Hibernation
    field is written as a constant and never read; the metrics are those the
    kernel hands over. *)
Record active := mkActive {
  ac_saved : saved;
  ac_traverse_relative : bool;
  ac_resume_relative : bool
}.

(** ** Encoding: the struct tags of internal/opts/json and core *)
Definition jstr (s : string) : jv := JStr (utf8_clean s).
Definition jnum (n : N) : jv := JNum (Z.of_N n).
Definition jptr {A : Type} (enc : A -> jv) (x : option A) : jv :=
  match x with None => JNull | Some a => enc a end.

(** filter-options.go:8-40 *)
Fixpoint enc_filter (d : jfilter) : jv :=
  JObj [("filter-type", jnum (ft_code (jf_type d)));
        ("filter-description", jstr (jf_desc d));
        ("pattern", jstr (jf_pattern d));
        ("filter-scope", jnum (jf_scope d));
        ("negate", JBool (jf_negate d));
        ("if-not-applicable", jnum (tri_code (jf_ifna d)));
        ("Poly", match jf_poly d with
                 | None => JNull
                 | Some (f, g) => JObj [("File", enc_filter f); ("Directory", enc_filter g)]
                 end)].
(** filter-options.go:42-54 *)
Definition enc_child (d : jchild) : jv :=
  JObj [("child-filter-type", jnum (ft_code (jc_type d)));
        ("child-filter-description", jstr (jc_desc d));
        ("child-pattern", jstr (jc_pattern d));
        ("negate", JBool (jc_negate d))].
(** filter-options.go:56-78 *)
Definition enc_sample (d : jsample) : jv :=
  JObj [("sample-filter-type", jnum (ft_code (js_type d)));
        ("sample-description", jstr (js_desc d));
        ("sample-filter", jstr (js_pattern d));
        ("sample-filter-scope", jnum (js_scope d));
        ("negate", JBool (js_negate d));
        ("Poly", match js_poly d with
                 | None => JNull
                 | Some (f, g) => JObj [("File", enc_filter f); ("Directory", enc_filter g)]
                 end)].
(** options.go:5-21 and the structs it holds *)
Definition enc_options (j : joptions) : jv :=
  let b := jo_behaviours j in
  let s := jo_sampling j in
  let h := jo_hib j in
  JObj [("Behaviours",
          JObj [("SubPath", JObj [("KeepTrailingSep", JBool (jb_keep_sep b))]);
                ("Sort", JObj [("IsCaseSensitive", JBool (jb_case b));
                               ("SortFilesFirst", JBool (jb_files_first b))]);
                ("Cascade", JObj [("Depth", jnum (jb_depth b)); ("NoRecurse", JBool (jb_no_recurse b))])]);
        ("Sampling",
          JObj [("sample-type", jnum (st_code (jg_type s)));
                ("in-reverse", JBool (jg_reverse s));
                ("NoOf", JObj [("no-of-files", JNum (Z.of_nat (jg_files s)));
                               ("no-of-directories", JNum (Z.of_nat (jg_dirs s)))])]);
        ("Filter",
          JObj [("Node", jptr enc_filter (jo_node j));
                ("Child", jptr enc_child (jo_child j));
                ("Sample", jptr enc_sample (jo_sample j))]);
        ("Hibernate",
          JObj [("WakeAt", jptr enc_filter (jh_wake h));
                ("SleepAt", jptr enc_filter (jh_sleep h));
                ("Behaviour", JObj [("hibernate-inclusive-wake", JBool (jh_incl_wake h));
                                    ("hibernate-inclusive-sleep", JBool (jh_incl_sleep h))])]);
        ("Concurrency", JObj [("no-of-workers", jnum (jo_now j))])].

(** enums/subscription-en.go *)
Definition sub_code (s : subscription) : N :=
  match s with SubFiles => 1 | SubDirectories => 2 | SubDirectoriesWithFiles => 3 | SubUniversal => 4 end.
(** core/metrics.go:26-32: one object for each metric, by its number. The three
    metrics of mediator.go:39-43 are written. *)
Definition enc_metric (code : Z) (n : nat) : jv := JObj [("T", JNum code); ("Counter", JNum (Z.of_nat n))].
Definition enc_metrics (m : metrics) : jv :=
  JObj [("1", enc_metric 1 (m_files m)); ("3", enc_metric 3 (m_dirs m)); ("5", enc_metric 5 (m_child m))].
(** core/core-defs.go:76-86; HibernationRetired is 3 *)
Definition enc_active (a : active) : jv :=
  let sv := ac_saved a in
  JObj [("Tree", jstr (sv_tree sv));
        ("TraverseDescription", JObj [("IsRelative", JBool (ac_traverse_relative a))]);
        ("ResumeDescription", JObj [("IsRelative", JBool (ac_resume_relative a))]);
        ("Subscription", jnum (sub_code (sv_sub sv)));
        ("Hibernation", JNum 3);
        ("CurrentPath", jstr (sv_path sv));
        ("IsDir", JBool (sv_isdir sv));
        ("Depth", JNum (sv_depth sv));
        ("Metrics", enc_metrics (sv_metrics sv))].

(** ** Decoding: encoding/json (Unmarshal into a struct): the keys are taken in
    order, unknown keys are ignored, null leaves a field as it is, a value of
    another kind is an error *)
Definition err_json : error := Err (Plain 51).
Definition fold_fields {A : Type} (step : string -> jv -> A -> A + error) : list (string * jv) -> A -> A + error :=
  fix go (fs : list (string * jv)) (acc : A) : A + error :=
    match fs with
    | [] => inl acc
    | (k, x) :: r =>
        match step k x acc with
        | inl acc1 => go r acc1
        | inr e => inr e
        end
    end.
(** a struct: an object, or null (unchanged) *)
Definition as_struct {A : Type} (step : string -> jv -> A -> A + error) (v : jv) (acc : A) : A + error :=
  match v with
  | JObj fs => fold_fields step fs acc
  | JNull => inl acc
  | _ => inr err_json
  end.
Definition as_bool {A : Type} (v : jv) (acc : A) (put : bool -> A) : A + error :=
  match v with JBool b => inl (put b) | JNull => inl acc | _ => inr err_json end.
Definition as_str {A : Type} (v : jv) (acc : A) (put : string -> A) : A + error :=
  match v with JStr s => inl (put s) | JNull => inl acc | _ => inr err_json end.
Definition as_int {A : Type} (v : jv) (acc : A) (put : Z -> A) : A + error :=
  match v with JNum z => inl (put z) | JNull => inl acc | _ => inr err_json end.
Definition as_uint {A : Type} (v : jv) (acc : A) (put : N -> A) : A + error :=
  match v with
  | JNum z => if (z <? 0)%Z then inr err_json else inl (put (Z.to_N z))
  | JNull => inl acc
  | _ => inr err_json
  end.
Definition as_enum {A E : Type} (of_code : N -> option E) (v : jv) (acc : A) (put : E -> A) : A + error :=
  match v with
  | JNum z =>
      if (z <? 0)%Z then inr err_json
      else match of_code (Z.to_N z) with Some e => inl (put e) | None => inr err_json end
  | JNull => inl acc
  | _ => inr err_json
  end.
Definition ft_of (n : N) : option filter_type :=
  match n with
  | 0%N => Some FtUndefined | 1%N => Some FtGlobEx | 2%N => Some FtRegex | 3%N => Some FtGlob
  | 4%N => Some FtCustom | 5%N => Some FtPoly | _ => None
  end.
Definition st_of (n : N) : option sample_type :=
  match n with
  | 0%N => Some StUndefined | 1%N => Some StSlice | 2%N => Some StFilter | 3%N => Some StCustom | _ => None
  end.
Definition tri_of (n : N) : option tristate :=
  match n with 0%N => Some TriUndefined | 1%N => Some TriTrue | 2%N => Some TriFalse | _ => None end.
Definition sub_of (n : N) : option subscription :=
  match n with
  | 1%N => Some SubFiles | 2%N => Some SubDirectories | 3%N => Some SubDirectoriesWithFiles
  | 4%N => Some SubUniversal | _ => None
  end.

(** the fields of a filter other than Poly *)
Definition zero_filter : jfilter := mkJFilter FtUndefined "" "" 0 false TriUndefined None.
Definition with_jpoly (p : option (jfilter * jfilter)) (d : jfilter) : jfilter :=
  mkJFilter (jf_type d) (jf_desc d) (jf_pattern d) (jf_scope d) (jf_negate d) (jf_ifna d) p.
Definition filter_field (k : string) (x : jv) (d : jfilter) : jfilter + error :=
  let '(mkJFilter ty de pa sc ne na po) := d in
  if String.eqb k "filter-type" then as_enum ft_of x d (fun t => mkJFilter t de pa sc ne na po)
  else if String.eqb k "filter-description" then as_str x d (fun s => mkJFilter ty s pa sc ne na po)
  else if String.eqb k "pattern" then as_str x d (fun s => mkJFilter ty de s sc ne na po)
  else if String.eqb k "filter-scope" then as_uint x d (fun n => mkJFilter ty de pa n ne na po)
  else if String.eqb k "negate" then as_bool x d (fun b => mkJFilter ty de pa sc b na po)
  else if String.eqb k "if-not-applicable" then as_enum tri_of x d (fun t => mkJFilter ty de pa sc ne t po)
  else inl d.
Fixpoint dec_filter (v : jv) : jfilter + error :=
  match v with
  | JObj fs =>
      fold_fields (fun k x d =>
        if String.eqb k "Poly" then
          match x with
          | JNull => inl (with_jpoly None d)
          | JObj ps =>
              match fold_fields (fun k y (fg : jfilter * jfilter) =>
                  if String.eqb k "File" then
                    match dec_filter y with inl f => inl (f, snd fg) | inr e => inr e end
                  else if String.eqb k "Directory" then
                    match dec_filter y with inl g => inl (fst fg, g) | inr e => inr e end
                  else inl fg) ps (zero_filter, zero_filter)
              with
              | inl fg => inl (with_jpoly (Some fg) d)
              | inr e => inr e
              end
          | _ => inr err_json
          end
        else filter_field k x d) fs zero_filter
  | JNull => inl zero_filter
  | _ => inr err_json
  end.
(** a pointer: null is nil *)
Definition as_ptr {A B : Type} (dec : jv -> B + error) (v : jv) (put : option B -> A) : A + error :=
  match v with
  | JNull => inl (put None)
  | _ => match dec v with inl b => inl (put (Some b)) | inr e => inr e end
  end.
Definition dec_poly (v : jv) : (jfilter * jfilter) + error :=
  as_struct (fun k y (fg : jfilter * jfilter) =>
      if String.eqb k "File" then
        match dec_filter y with inl f => inl (f, snd fg) | inr e => inr e end
      else if String.eqb k "Directory" then
        match dec_filter y with inl g => inl (fst fg, g) | inr e => inr e end
      else inl fg) v (zero_filter, zero_filter).

Definition dec_child (v : jv) : jchild + error :=
  as_struct (fun k x d =>
    let '(mkJChild ty de pa ne) := d in
    if String.eqb k "child-filter-type" then as_enum ft_of x d (fun t => mkJChild t de pa ne)
    else if String.eqb k "child-filter-description" then as_str x d (fun s => mkJChild ty s pa ne)
    else if String.eqb k "child-pattern" then as_str x d (fun s => mkJChild ty de s ne)
    else if String.eqb k "negate" then as_bool x d (fun b => mkJChild ty de pa b)
    else inl d) v (mkJChild FtUndefined "" "" false).
Definition dec_sample (v : jv) : jsample + error :=
  as_struct (fun k x d =>
    let '(mkJSample ty de pa sc ne po) := d in
    if String.eqb k "sample-filter-type" then as_enum ft_of x d (fun t => mkJSample t de pa sc ne po)
    else if String.eqb k "sample-description" then as_str x d (fun s => mkJSample ty s pa sc ne po)
    else if String.eqb k "sample-filter" then as_str x d (fun s => mkJSample ty de s sc ne po)
    else if String.eqb k "sample-filter-scope" then as_uint x d (fun n => mkJSample ty de pa n ne po)
    else if String.eqb k "negate" then as_bool x d (fun b => mkJSample ty de pa sc b po)
    else if String.eqb k "Poly" then as_ptr dec_poly x (fun p => mkJSample ty de pa sc ne p)
    else inl d) v (mkJSample FtUndefined "" "" 0 false None).

Definition dec_behaviours (v : jv) (b0 : jbehaviours) : jbehaviours + error :=
  as_struct (fun k x b =>
    if String.eqb k "SubPath" then
      as_struct (fun k x b =>
        let '(mkJBehaviours ks ca ff de nr) := b in
        if String.eqb k "KeepTrailingSep" then as_bool x b (fun v => mkJBehaviours v ca ff de nr) else inl b) x b
    else if String.eqb k "Sort" then
      as_struct (fun k x b =>
        let '(mkJBehaviours ks ca ff de nr) := b in
        if String.eqb k "IsCaseSensitive" then as_bool x b (fun v => mkJBehaviours ks v ff de nr)
        else if String.eqb k "SortFilesFirst" then as_bool x b (fun v => mkJBehaviours ks ca v de nr)
        else inl b) x b
    else if String.eqb k "Cascade" then
      as_struct (fun k x b =>
        let '(mkJBehaviours ks ca ff de nr) := b in
        if String.eqb k "Depth" then as_uint x b (fun v => mkJBehaviours ks ca ff v nr)
        else if String.eqb k "NoRecurse" then as_bool x b (fun v => mkJBehaviours ks ca ff de v)
        else inl b) x b
    else inl b) v b0.
Definition dec_sampling (v : jv) (s0 : jsampling) : jsampling + error :=
  as_struct (fun k x s =>
    let '(mkJSampling ty re nf nd) := s in
    if String.eqb k "sample-type" then as_enum st_of x s (fun t => mkJSampling t re nf nd)
    else if String.eqb k "in-reverse" then as_bool x s (fun b => mkJSampling ty b nf nd)
    else if String.eqb k "NoOf" then
      as_struct (fun k x s =>
        let '(mkJSampling ty re nf nd) := s in
        if String.eqb k "no-of-files" then as_uint x s (fun n => mkJSampling ty re (N.to_nat n) nd)
        else if String.eqb k "no-of-directories" then as_uint x s (fun n => mkJSampling ty re nf (N.to_nat n))
        else inl s) x s
    else inl s) v s0.
Definition dec_hib (v : jv) (h0 : jhib) : jhib + error :=
  as_struct (fun k x h =>
    let '(mkJHib wa sl iw is) := h in
    if String.eqb k "WakeAt" then as_ptr dec_filter x (fun p => mkJHib p sl iw is)
    else if String.eqb k "SleepAt" then as_ptr dec_filter x (fun p => mkJHib wa p iw is)
    else if String.eqb k "Behaviour" then
      as_struct (fun k x h =>
        let '(mkJHib wa sl iw is) := h in
        if String.eqb k "hibernate-inclusive-wake" then as_bool x h (fun b => mkJHib wa sl b is)
        else if String.eqb k "hibernate-inclusive-sleep" then as_bool x h (fun b => mkJHib wa sl iw b)
        else inl h) x h
    else inl h) v h0.
Definition zero_options : joptions :=
  mkJOptions (mkJBehaviours false false false 0 false) (mkJSampling StUndefined false 0 0) None None None
    (mkJHib None None false false) 0.
Definition dec_options (v : jv) : joptions + error :=
  as_struct (fun k x j =>
    let '(mkJOptions b s n c sa h w) := j in
    if String.eqb k "Behaviours" then
      match dec_behaviours x b with inl b1 => inl (mkJOptions b1 s n c sa h w) | inr e => inr e end
    else if String.eqb k "Sampling" then
      match dec_sampling x s with inl s1 => inl (mkJOptions b s1 n c sa h w) | inr e => inr e end
    else if String.eqb k "Filter" then
      as_struct (fun k x j =>
        let '(mkJOptions b s n c sa h w) := j in
        if String.eqb k "Node" then as_ptr dec_filter x (fun p => mkJOptions b s p c sa h w)
        else if String.eqb k "Child" then as_ptr dec_child x (fun p => mkJOptions b s n p sa h w)
        else if String.eqb k "Sample" then as_ptr dec_sample x (fun p => mkJOptions b s n c p h w)
        else inl j) x j
    else if String.eqb k "Hibernate" then
      match dec_hib x h with inl h1 => inl (mkJOptions b s n c sa h1 w) | inr e => inr e end
    else if String.eqb k "Concurrency" then
      as_struct (fun k x j =>
        let '(mkJOptions b s n c sa h w) := j in
        if String.eqb k "no-of-workers" then as_uint x j (fun v => mkJOptions b s n c sa h v) else inl j) x j
    else inl j) v zero_options.

(** a metric: its counter; the number inside it is not used *)
Definition dec_counter (v : jv) : nat + error :=
  as_struct (fun k x (n : nat) =>
    if String.eqb k "Counter" then as_uint x n N.to_nat else inl n) v 0.
Definition dec_metrics (v : jv) (m0 : metrics) : metrics + error :=
  as_struct (fun k x m =>
    match dec_counter x with
    | inr e => inr e
    | inl n =>
        let '(mkMetrics a b c d e f) := m in
        inl (if String.eqb k "1" then mkMetrics n b c d e f
             else if String.eqb k "2" then mkMetrics a n c d e f
             else if String.eqb k "3" then mkMetrics a b n d e f
             else if String.eqb k "4" then mkMetrics a b c n e f
             else if String.eqb k "5" then mkMetrics a b c d n f
             else if String.eqb k "6" then mkMetrics a b c d e n
             else m)
    end) v m0.
(** Simplified: a document without a subscription (the undefined one) is not
    represented; the value used here for it is Universal *)
Definition zero_active : active :=
  mkActive (mkSaved "" "" false 0 SubUniversal metrics0) false false.
Definition dec_relative (v : jv) (r0 : bool) : bool + error :=
  as_struct (fun k x r => if String.eqb k "IsRelative" then as_bool x r (fun b => b) else inl r) v r0.
Definition dec_active (v : jv) : active + error :=
  as_struct (fun k x a =>
    let '(mkActive (mkSaved tr pa di de su me) t r) := a in
    if String.eqb k "Tree" then as_str x a (fun s => mkActive (mkSaved s pa di de su me) t r)
    else if String.eqb k "TraverseDescription" then
      match dec_relative x t with inl b => inl (mkActive (mkSaved tr pa di de su me) b r) | inr e => inr e end
    else if String.eqb k "ResumeDescription" then
      match dec_relative x r with inl b => inl (mkActive (mkSaved tr pa di de su me) t b) | inr e => inr e end
    else if String.eqb k "Subscription" then as_enum sub_of x a (fun s => mkActive (mkSaved tr pa di de s me) t r)
    else if String.eqb k "CurrentPath" then as_str x a (fun s => mkActive (mkSaved tr s di de su me) t r)
    else if String.eqb k "IsDir" then as_bool x a (fun b => mkActive (mkSaved tr pa b de su me) t r)
    else if String.eqb k "Depth" then as_int x a (fun z => mkActive (mkSaved tr pa di z su me) t r)
    else if String.eqb k "Metrics" then
      match dec_metrics x me with inl m => inl (mkActive (mkSaved tr pa di de su m) t r) | inr e => inr e end
    else inl a) v zero_active.

(** ** marshaler.go *)

(** marshaler.go:52-76 (Marshal): the document written, if any, and the error;
    [write]: what WriteFile reports *)
Definition marshal (o : options) (a : active) (write : option error) : option jv * option error :=
  let jo := to_json o in
  match equal_options o jo with
  | Some e => (None, Some e)
  | None => (Some (JObj [("Active", enc_active a); ("JO", enc_options jo)]), write)
  end.

Definition dec_result (v : jv) : (option active * option joptions) + error :=
  as_struct (fun k x (r : option active * option joptions) =>
    if String.eqb k "Active" then as_ptr dec_active x (fun p => (p, snd r))
    else if String.eqb k "JO" then as_ptr dec_options x (fun p => (fst r, p))
    else inl r) v (None, None).
(** marshaler.go:78-109 (Unmarshal), of a document which could be read; without
    options in the document FromJSON panics. The state, the options and the
    comparison's error. *)
Definition unmarshal (env : environment) (v : jv) : outcome ((option active * options * option error) + error) :=
  match dec_result v with
  | inr e => Ret (inr e)
  | inl (_, None) => Pan nil_deref
  | inl (a, Some jo) =>
      let o := from_json env jo in
      Ret (inl (a, o, equal_options o jo))
  end.

(** resume-plugin.go:53-66 (Load), internal/opts/load.go:8-20 (Bind) *)
Definition resume_load (env : environment) (v : jv) (settings : list (option setting))
    : outcome ((option active * options * option error) + error) :=
  match unmarshal env v with
  | Ret (inl (a, o, None)) =>
      let '(o1, e) := bind_options o settings in Ret (inl (a, o1, e))
  | Ret (inl (_, _, Some e)) => Ret (inr e)
  | x => x
  end.
