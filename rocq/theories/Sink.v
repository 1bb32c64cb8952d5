(** The filtering sink (pref/options-filter.go:8-36): what the client is given of
    the filters made from its definitions; what these filters say of themselves;
    and what making them does to the client's definitions, which are given as
    pointers. No proofs here. *)
From Verif Require Import Base Paths Level Lo Kernel Filters Options Build.
Local Open Scope string_scope.

(** ** The replies *)

(** pref/options-filter.go:8-12 (FilterReply): a reply holds one of the three
    filters; which may be nil. A reply with a sample filter is never made. *)
Inductive reply :=
| RpNode (f : option nfilter)
| RpChild (m : option (list fsnode -> list fsnode)).

(** [sinking A]: a result and the replies delivered on the way. *)
Definition sinking (A : Type) : Type := (A * list reply)%type.

(** scheme-native.go:15-30 (create), the sink not being nil *)
Definition native_create (mt : matchers) (d : filter_def) (fo : filter_options)
    : sinking (outcome (option created * option error)) :=
  match new_filter mt d fo with
  | Ret (_, Some e) => (Ret (None, Some e), [])
  | Ret (f, None) => (Ret (Some (CrNode f), None), [RpNode f])
  | Pan p => (Pan p, [])
  | Stuck => (Stuck, [])
  end.
(** scheme-custom.go:15-19 (create) *)
Definition custom_create (cu : custom_filter) : sinking (outcome (option created * option error)) :=
  (Ret (Some (CrNode (Some (NfCustom cu))), cu_validate cu), []).
(** scheme-sampler.go:19-39 (create) *)
Definition sampler_create (mt : matchers) (sd : sample_def) (so : sampling_options)
    : sinking (outcome (option created * option error)) :=
  match new_sample mt sd so with
  | (_, Some e) => (Ret (None, Some e), [])
  | (Some m, None) => (Ret (Some (CrSampler m), None), [])
  | (None, None) => (Pan nil_deref, [])
  end.
(** scheme-nanny.go:16-31 (create), the sink not being nil *)
Definition nanny_create (mt : matchers) (d : child_def) : sinking (option created * option error) :=
  match new_child mt d with
  | (_, Some e) => (None, Some e, [])
  | (m, None) => (Some (CrChild m), None, [RpChild m])
  end.
(** schemes.go:68-88 (unary) and the create of the scheme it chooses *)
Definition primary_create (mt : matchers) (fo : filter_options) (so : sampling_options)
    : sinking (outcome (option created * option error)) :=
  match fo_custom fo with
  | Some cu => custom_create cu
  | None =>
      match (if node_active fo then fo_node fo else None), fo_sample fo with
      | Some d, _ => native_create mt d fo
      | None, Some sd => sampler_create mt sd so
      | None, None => (Ret (None, None), [])
      end
  end.
(** schemes.go:27-66 (newScheme, binary), scheme-hybrid.go:24-40 (create): the
    primary scheme first; the nanny only if that succeeded *)
Definition scheme_create (mt : matchers) (fo : filter_options) (so : sampling_options)
    : sinking (outcome (option created * option created * option error)) :=
  match primary_create mt fo so with
  | (Ret (p, Some e), rs) => (Ret (p, None, Some e), rs)
  | (Ret (p, None), rs) =>
      match (if child_active fo then fo_child fo else None) with
      | Some d => let '(ch, e, rs') := nanny_create mt d in (Ret (p, ch, e), (rs ++ rs')%list)
      | None => (Ret (p, None, None), rs)
      end
  | (Pan q, rs) => (Pan q, rs)
  | (Stuck, rs) => (Stuck, rs)
  end.
(** filter-plugin.go:13-43 (IfActive, Register) *)
Definition replies_of (mt : matchers) (o : options) : list reply :=
  if filtering_active (op_filter o) then snd (scheme_create mt (op_filter o) (op_sampling o)) else [].

(** What the sink is called with when a prime session is built
    (builders.go:31-128, as [build_prime]): the plugins are registered only when
    the options were accepted. *)
Definition prime_replies (env : environment) (mt : matchers) (fac : facade) (settings : list (option setting))
    : list reply :=
  match fac with
  | FacRelic _ => []
  | FacUsing u =>
      match prime_options env u settings with
      | (o, None) => match us_sub u, us_handler u with Some _, Some _ => replies_of mt o | _, _ => [] end
      | (_, Some _) => []
      end
  end.

(** ** What a node filter says of itself. [cu]: the client's own filter's answer. *)

(** base.go:21-23, poly.go:40-44 (Description) *)
Fixpoint nf_description (cu : custom_filter -> string) (f : nfilter) : string :=
  match f with
  | NfGlob b | NfRegex b _ | NfGlobEx b _ _ _ => fb_name b
  | NfCustom c => cu c
  | NfPoly ff df =>
      "Poly - FILE: '" ++ nf_description cu ff ++ "', DIRECTORY: '" ++ nf_description cu df ++ "'"
  end.
(** base.go:26-28, poly.go:55-61 (Source) *)
Fixpoint nf_source (cu : custom_filter -> string) (f : nfilter) : string :=
  match f with
  | NfGlob b | NfRegex b _ | NfGlobEx b _ _ _ => fb_pattern b
  | NfCustom c => cu c
  | NfPoly ff df => nf_source cu ff ++ "##" ++ nf_source cu df
  end.
(** base.go:34-36, poly.go:85-88 (Scope) *)
Fixpoint nf_scope (cu : custom_filter -> N) (f : nfilter) : N :=
  match f with
  | NfGlob b | NfRegex b _ | NfGlobEx b _ _ _ => fb_scope b
  | NfCustom c => cu c
  | NfPoly ff df => N.lor (nf_scope cu ff) (nf_scope cu df)
  end.
(** base.go:30-32, glob-ex.go:57-63, poly.go:74-83 (IsApplicable) *)
Fixpoint nf_applicable (mt : matchers) (cu : custom_filter -> node -> bool) (f : nfilter) (n : node) : bool :=
  match f with
  | NfGlob b | NfRegex b _ => is_applicable b n
  | NfGlobEx b _ dg de => is_applicable b n && directory_match mt dg de n
  | NfCustom c => cu c n
  | NfPoly ff _ => if n_isdir n then false else nf_applicable mt cu ff n
  end.

(** ** What becomes of the client's definitions *)

(** glob-ex.go:20-50: the scope is written unless the pattern has no separator *)
Definition native_settles (d : filter_def) : filter_def :=
  match fd_type d with
  | FtGlobEx => match split_globex (fd_pattern d) with inl _ => with_scope ScopeFile d | inr _ => d end
  | _ => d
  end.
(** internal/filtering/builders.go:68-74 *)
Definition enforce_file (d : filter_def) : filter_def :=
  with_scope (scope_clear (scope_set (fd_scope d) ScopeFile) ScopeDirectory) d.
Definition enforce_directory (d : filter_def) : filter_def :=
  with_scope (scope_clear (scope_set (fd_scope d) ScopeDirectory) ScopeFile) d.
(** internal/filtering/builders.go:104-127 (buildConstituent): the native builder runs only without
    a custom filter *)
Definition constituent_settles (fo : filter_options) (d : filter_def) : filter_def :=
  match fo_custom fo with Some _ => d | None => native_settles d end.
(** internal/filtering/builders.go:66-90: the definition in place when buildPolyNodeFilter returns *)
Definition poly_settles (mt : matchers) (fo : filter_options) (p : filter_def * filter_def) : filter_def * filter_def :=
  let fd := enforce_file (fst p) in
  let dd := enforce_directory (snd p) in
  if is_poly_type (fd_type fd) then (fd, dd)
  else match build_constituent mt fd fo with
       | Ret (Some _, None) =>
           (constituent_settles fo fd, if is_poly_type (fd_type dd) then dd else constituent_settles fo dd)
       | _ => (constituent_settles fo fd, dd)
       end.
Definition with_poly (p : option (filter_def * filter_def)) (d : filter_def) : filter_def :=
  mkFilterDef (fd_type d) (fd_desc d) (fd_pattern d) (fd_scope d) (fd_negate d) (fd_ifna d) p.
(** new-filter.go:8-22 (New) given the node definition of the options *)
Definition node_settles (mt : matchers) (fo : filter_options) (d : filter_def) : filter_def :=
  if is_poly_type (fd_type d) then
    match fd_poly d with Some p => with_poly (Some (poly_settles mt fo p)) d | None => d end
  else constituent_settles fo d.
(** What the client's filter options are after the filter plugin was registered. *)
Definition options_settle (mt : matchers) (fo : filter_options) : filter_options :=
  match fo_custom fo, fo_node fo with
  | None, Some d =>
      if node_active fo then mkFilterOptions (Some (node_settles mt fo d)) (fo_child fo) (fo_sample fo) None else fo
  | _, _ => fo
  end.
