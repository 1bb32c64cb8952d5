(** What is said about saving and loading: vocabulary of the statements. *)
From Verif Require Import Base Paths Level Kernel Defaults Filters Hooks Life Options Persist.

(** ** UTF-8 (RFC 3629), by code points *)
Definition scalar (c : N) : Prop := (c < 0xD800 \/ 0xE000 <= c < 0x110000)%N.
Definition rune_bytes (c : N) : list ascii :=
  map ascii_of_N
    (if (c <? 0x80)%N then [c]
     else if (c <? 0x800)%N then [192 + c / 64; 128 + c mod 64]
     else if (c <? 0x10000)%N then [224 + c / 4096; 128 + (c / 64) mod 64; 128 + c mod 64]
     else [240 + c / 262144; 128 + (c / 4096) mod 64; 128 + (c / 64) mod 64; 128 + c mod 64])%N.
Definition utf8 (s : string) : Prop :=
  exists cs, Forall scalar cs /\ list_ascii_of_string s = flat_map rune_bytes cs.

(** ** The texts inside the options *)
Fixpoint filter_texts (d : filter_def) : list string :=
  fd_desc d :: fd_pattern d ::
  match fd_poly d with None => [] | Some (f, g) => filter_texts f ++ filter_texts g end.
Definition option_texts (o : options) : list string :=
  let on {A} (f : A -> list string) x := match x with None => [] | Some a => f a end in
  on filter_texts (fo_node (op_filter o)) ++
  on (fun d => [cd_desc d; cd_pattern d]) (fo_child (op_filter o)) ++
  on (fun d => [sd_desc d; sd_pattern d]) (fo_sample (op_filter o)) ++
  on filter_texts (ho_wake (op_hib o)) ++ on filter_texts (ho_sleep (op_hib o)).

(** ** What of the options survives: everything else is as in the defaults *)
Definition carried (env : environment) (o : options) : options :=
  let dflt := default_options env in
  mkOptions
    (op_behaviours o)
    (op_sampling o)
    (mkFilterOptions (fo_node (op_filter o)) (fo_child (op_filter o))
       (option_map (fun d => mkSampleDef (sd_type d) (sd_desc d) (sd_pattern d) (sd_scope d) (sd_negate d) None None)
          (fo_sample (op_filter o)))
       None)
    (op_hib o)
    (mkConc (co_now (op_conc o)) 0 0 false)
    (op_events dflt) (op_hooks dflt) (op_defects dflt).

(** The state, of whose metrics only three are kept. *)
Definition kept_state (a : active) : active :=
  let sv := ac_saved a in
  let m := sv_metrics sv in
  mkActive (mkSaved (sv_tree sv) (sv_path sv) (sv_isdir sv) (sv_depth sv) (sv_sub sv)
              (mkMetrics (m_files m) 0 (m_dirs m) 0 (m_child m) 0))
    (ac_traverse_relative a) (ac_resume_relative a).

(** ** Agreement of options with a persisted form, field by field *)
Inductive filter_same : filter_def -> jfilter -> Prop :=
| SameSimple ty de pa sc ne na :
    filter_same (mkFilterDef ty de pa sc ne na None) (mkJFilter ty de pa sc ne na None)
| SamePoly ty de pa sc ne na f g f' g' :
    filter_same f f' -> filter_same g g' ->
    filter_same (mkFilterDef ty de pa sc ne na (Some (f, g))) (mkJFilter ty de pa sc ne na (Some (f', g'))).
(** as the code has it: a poly on one side only is not noticed *)
Inductive filter_alike : filter_def -> jfilter -> Prop :=
| AlikeSimple ty de pa sc ne na p q :
    p = None \/ q = None ->
    filter_alike (mkFilterDef ty de pa sc ne na p) (mkJFilter ty de pa sc ne na q)
| AlikePoly ty de pa sc ne na f g f' g' :
    filter_alike f f' -> filter_alike g g' ->
    filter_alike (mkFilterDef ty de pa sc ne na (Some (f, g))) (mkJFilter ty de pa sc ne na (Some (f', g'))).
Definition both {A B : Type} (R : A -> B -> Prop) (a : option A) (b : option B) : Prop :=
  match a, b with Some x, Some y => R x y | None, None => True | _, _ => False end.
Section Agreement.
Variable R : filter_def -> jfilter -> Prop.
Variable P : option (filter_def * filter_def) -> option (jfilter * jfilter) -> Prop.
Definition options_agree (o : options) (j : joptions) : Prop :=
  op_behaviours o = mkBehaviours (jb_keep_sep (jo_behaviours j)) (jb_case (jo_behaviours j))
    (jb_files_first (jo_behaviours j)) (jb_depth (jo_behaviours j)) (jb_no_recurse (jo_behaviours j)) /\
  op_sampling o = mkSampling (jg_type (jo_sampling j)) (jg_reverse (jo_sampling j))
    (jg_files (jo_sampling j)) (jg_dirs (jo_sampling j)) /\
  both R (fo_node (op_filter o)) (jo_node j) /\
  both (fun d c => d = mkChildDef (jc_type c) (jc_desc c) (jc_pattern c) (jc_negate c))
    (fo_child (op_filter o)) (jo_child j) /\
  both (fun d c => sd_type d = js_type c /\ sd_desc d = js_desc c /\ sd_pattern d = js_pattern c /\
                   sd_scope d = js_scope c /\ sd_negate d = js_negate c /\ P (sd_poly d) (js_poly c))
    (fo_sample (op_filter o)) (jo_sample j) /\
  both R (ho_wake (op_hib o)) (jh_wake (jo_hib j)) /\
  both R (ho_sleep (op_hib o)) (jh_sleep (jo_hib j)) /\
  ho_incl_wake (op_hib o) = jh_incl_wake (jo_hib j) /\
  ho_incl_sleep (op_hib o) = jh_incl_sleep (jo_hib j) /\
  co_now (op_conc o) = jo_now j.
End Agreement.
(** every field the persisted form has *)
Definition same_options : options -> joptions -> Prop :=
  options_agree filter_same
    (fun p q => both (fun a b => filter_same (fst a) (fst b) /\ filter_same (snd a) (snd b)) p q).
(** the same, but two polys are looked at only if both are there *)
Definition alike_options : options -> joptions -> Prop :=
  options_agree filter_alike
    (fun p q => match p, q with
                | Some a, Some b => filter_alike (fst a) (fst b) /\ filter_alike (snd a) (snd b)
                | _, _ => True
                end).
