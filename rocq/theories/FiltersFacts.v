(** Facts about filters and sampling. *)
From Verif Require Import Base Paths Level Lo Kernel Defaults Filters SpecFilter.
Local Open Scope string_scope.

Lemma invert_xorb : forall b r, invert b r = xorb b r.
Proof. intros [] []; reflexivity. Qed.

Lemma scope_all_land : forall k, (k < 4294967296)%N -> N.land ScopeAll k = k.
Proof.
  intros k K. replace ScopeAll with (N.ones 32) by reflexivity.
  rewrite N.land_comm, N.land_ones. apply N.mod_small. exact K.
Qed.
Lemma land_positive : forall k, (0 <? k)%N = negb (k =? 0)%N.
Proof. intro k. destruct (N.eqb_spec k 0) as [->|E]; [reflexivity|]. apply N.ltb_lt. lia. Qed.
Lemma applicable_scope : forall d n, scope_ok n -> is_applicable (base_validate (base_of d)) n = in_scope_b (fd_scope d) n.
Proof.
  intros d n [S1 S2]. unfold is_applicable, base_validate, in_scope_b.
  change (fb_scope (base_of d)) with (fd_scope d). change ScopeUndefined with 0%N.
  destruct (N.eqb_spec (fd_scope d) 0) as [E|E]; unfold fb_scope at 1.
  - rewrite scope_all_land by assumption. apply N.ltb_lt in S1. rewrite S1. reflexivity.
  - change (let (_, _, x, _, _) := base_of d in x) with (fd_scope d). apply land_positive.
Qed.
Lemma base_validate_rest : forall b, fb_negate (base_validate b) = fb_negate b /\ fb_ifna (base_validate b) = fb_ifna b
  /\ fb_pattern (base_validate b) = fb_pattern b.
Proof. intro b. unfold base_validate. destruct (_ =? _)%N; auto. Qed.

Lemma build_native_accepts : forall mt d f n, fd_type d = FtGlob \/ fd_type d = FtRegex -> scope_ok n ->
  build_native mt d = (Some f, None) -> is_match mt f (Some n) = Ret (accepts mt d n).
Proof.
  intros mt d f n T S E. unfold build_native in E. unfold accepts, pattern_says, if_not_applicable.
  destruct (base_validate_rest (base_of d)) as [R1 [R2 R3]].
  destruct T as [T|T]; rewrite T in *.
  - inversion E; subst; clear E. cbn [is_match].
    rewrite (applicable_scope d n S), R1, R2, R3, invert_xorb. reflexivity.
  - destruct (mt_regex mt (fd_pattern d)); [|discriminate]. inversion E; subst; clear E. cbn [is_match].
    rewrite (applicable_scope d n S), R1, R2, invert_xorb. reflexivity.
Qed.

Lemma new_filter_native : forall mt d fo, fo_custom fo = None -> fd_type d <> FtPoly ->
  new_filter mt d fo =
    match build_native mt d with (_, Some e) => Ret (None, Some e) | x => Ret x end.
Proof.
  intros mt d fo C T. unfold new_filter, or_func, build_poly, get_custom. rewrite C.
  destruct (fd_type d) eqn:E; try contradiction; cbn [is_poly_type option_map];
    unfold build_native; rewrite E.
  - reflexivity.
  - destruct (split_globex _) as [[seg pats]|]; [|reflexivity].
    destruct (split_glob seg). destruct (new_specs pats) as [l [e|]]; reflexivity.
  - destruct (mt_regex _ _); reflexivity.
  - reflexivity.
  - reflexivity.
Qed.

Lemma new_filter_accepts : forall mt d fo f n, fo_custom fo = None ->
  fd_type d = FtGlob \/ fd_type d = FtRegex -> scope_ok n ->
  new_filter mt d fo = Ret (Some f, None) -> is_match mt f (Some n) = Ret (accepts mt d n).
Proof.
  intros mt d fo f n C T S E. rewrite new_filter_native in E; [|assumption|destruct T as [T|T]; rewrite T; discriminate].
  destruct (build_native mt d) as [g [e|]] eqn:B; [discriminate|]. inversion E; subst.
  eapply build_native_accepts; eassumption.
Qed.

Lemma in_scope_reflect : forall sc n, in_scope_b sc n = true <-> in_scope sc n.
Proof.
  intros sc n. unfold in_scope_b, in_scope. rewrite orb_true_iff, N.eqb_eq, negb_true_iff, N.eqb_neq. tauto.
Qed.

Lemma negation_flips : forall mt d n, 
  (in_scope (fd_scope d) n -> accepts mt (with_negate true d) n = negb (accepts mt (with_negate false d) n)) /\
  (~ in_scope (fd_scope d) n -> forall b, accepts mt (with_negate b d) n = if_not_applicable d).
Proof.
  intros mt d n. split; intro S.
  - apply in_scope_reflect in S. unfold accepts. cbn [fd_scope with_negate]. rewrite S. cbn.
    change (pattern_says mt (with_negate true d)) with (pattern_says mt d).
    change (pattern_says mt (with_negate false d)) with (pattern_says mt d).
    destruct (pattern_says mt d (n_name n)); reflexivity.
  - intro b. unfold accepts. cbn [fd_scope with_negate].
    destruct (in_scope_b (fd_scope d) n) eqn:E; [|reflexivity].
    apply in_scope_reflect in E. contradiction.
Qed.

(** ** Strings *)
Lemma app_nil_s : forall s, s ++ "" = s.
Proof. induction s; cbn; congruence. Qed.
Lemma app_assoc_s : forall a b c, (a ++ b) ++ c = a ++ (b ++ c).
Proof. induction a; intros; cbn; [reflexivity|]. rewrite IHa. reflexivity. Qed.
Lemma all_app : forall p a b, all_chars p (a ++ b) = all_chars p a && all_chars p b.
Proof. induction a; intros; cbn; [reflexivity|]. rewrite IHa, andb_assoc. reflexivity. Qed.
Lemma all_impl : forall (p q : ascii -> bool) s, (forall a, p a = true -> q a = true) -> all_chars p s = true -> all_chars q s = true.
Proof.
  induction s; cbn; intros I H; [reflexivity|]. apply andb_prop in H. destruct H. rewrite I, IHs; auto.
Qed.

Lemma split_on_none : forall ch s, free_of ch s -> split_on ch s = [s].
Proof.
  intros ch s. unfold free_of. induction s as [|a s IH]; cbn; intro H; [reflexivity|].
  apply andb_prop in H. destruct H as [H1 H2]. rewrite negb_true_iff in H1. rewrite H1, IH by assumption. reflexivity.
Qed.
Lemma split_on_sep : forall ch a b, free_of ch a -> split_on ch (a ++ String ch b) = a :: split_on ch b.
Proof.
  intros ch a b. unfold free_of. induction a as [|x a IH]; cbn; intro H.
  - rewrite Ascii.eqb_refl. reflexivity.
  - apply andb_prop in H. destruct H as [H1 H2]. rewrite negb_true_iff in H1. rewrite H1, IH by assumption. reflexivity.
Qed.
Lemma split_on_concat : forall ch l, l <> [] -> Forall (free_of ch) l -> split_on ch (String.concat (String ch "") l) = l.
Proof.
  intros ch l N F. induction F as [|x l F1 F IH]; [contradiction|]. destruct l as [|y l].
  - cbn. apply split_on_none. assumption.
  - change (String.concat (String ch "") (x :: y :: l)) with (x ++ String ch (String.concat (String ch "") (y :: l))).
    rewrite split_on_sep by assumption. rewrite IH by discriminate. reflexivity.
Qed.
Lemma contains_char_free : forall ch s, contains_char ch s = false <-> free_of ch s.
Proof.
  intros ch s. unfold free_of. induction s as [|a s IH]; cbn; [tauto|].
  rewrite orb_false_iff, andb_true_iff, negb_true_iff, IH. tauto.
Qed.
Lemma contains_char_mid : forall ch a b, contains_char ch (a ++ String ch b) = true.
Proof.
  intros ch a b. induction a as [|x a IH]; cbn; [rewrite Ascii.eqb_refl; reflexivity|]. rewrite IH. apply orb_true_r.
Qed.

(** lower case *)
Lemma lower_app : forall a b, to_lower (a ++ b) = to_lower a ++ to_lower b.
Proof. induction a; intros; cbn; congruence. Qed.
Definition class_ok (p : ascii -> bool) : Prop := forall a, p a = true -> p (lower_ascii a) = true.
Lemma lower_all : forall p s, class_ok p -> all_chars p s = true -> all_chars p (to_lower s) = true.
Proof.
  intros p s C. induction s; cbn; intro H; [reflexivity|]. apply andb_prop in H. destruct H. rewrite C, IHs; auto.
Qed.
Ltac all_ascii := intros [b0 b1 b2 b3 b4 b5 b6 b7]; destruct b0, b1, b2, b3, b4, b5, b6, b7; vm_compute.
Lemma lower_plain : class_ok plain_char.
Proof. unfold class_ok. all_ascii; auto. Qed.
Lemma lower_not_dot : class_ok (fun a => negb (Ascii.eqb a ".")).
Proof. unfold class_ok. all_ascii; auto. Qed.
Lemma lower_not_slash : class_ok (fun a => negb (Ascii.eqb a "/")).
Proof. unfold class_ok. all_ascii; auto. Qed.
Lemma lower_bang : forall a, lower_ascii a = "!"%char -> a = "!"%char.
Proof. all_ascii; congruence. Qed.
Lemma plain_not : forall a, plain_char a = true ->
  Ascii.eqb a "," = false /\ Ascii.eqb a "|" = false /\ is_space a = false /\ Ascii.eqb a newline = false.
Proof. all_ascii; intuition congruence. Qed.
Lemma lower_empty : forall s, to_lower s = "" <-> s = "".
Proof. intros [|]; cbn; split; congruence. Qed.
Lemma lower_eqb_empty : forall s, String.eqb (to_lower s) "" = String.eqb s "".
Proof. intros [|]; reflexivity. Qed.

Lemma plain_free : forall ch s, (ch = ","%char \/ ch = "|"%char \/ ch = newline) -> all_chars plain_char s = true -> free_of ch s.
Proof.
  intros ch s C. apply all_impl. intros a H. apply plain_not in H. destruct H as (H1 & H2 & _ & H3).
  destruct C as [E|[E|E]]; subst ch; rewrite ?H1, ?H2, ?H3; reflexivity.
Qed.

(** trimming leaves a string without spaces alone *)
Lemma drop_space_none : forall l, Forall (fun a => is_space a = false) l -> drop_space l = l.
Proof. intros l F. destruct F as [|a l H F]; [reflexivity|]. cbn. rewrite H. reflexivity. Qed.
Lemma all_chars_forall : forall p s, all_chars p s = true -> Forall (fun a => p a = true) (list_ascii_of_string s).
Proof.
  intros p s. induction s; cbn; intro H; constructor.
  - apply andb_prop in H. apply H.
  - apply IHs. apply andb_prop in H. apply H.
Qed.
Lemma trim_plain : forall s, all_chars plain_char s = true -> trim_space s = s.
Proof.
  intros s H. unfold trim_space.
  assert (F : Forall (fun a => is_space a = false) (list_ascii_of_string s)).
  { eapply Forall_impl; [|apply all_chars_forall; exact H]. intros a P. apply plain_not in P. apply P. }
  rewrite (drop_space_none _ F), (drop_space_none _ (Forall_rev F)).
  rewrite rev_involutive. apply string_of_list_ascii_of_string.
Qed.

(** ** Parsing *)
Lemma last_dot_free : forall s, free_of "."%char s -> last_dot s = None.
Proof.
  intros s. unfold free_of. induction s as [|a s IH]; cbn; intro H; [reflexivity|].
  apply andb_prop in H. destruct H as [H1 H2]. rewrite IH by assumption. rewrite negb_true_iff in H1. rewrite H1. reflexivity.
Qed.
Lemma last_dot_app : forall b e, free_of "."%char e -> last_dot (b ++ String "." e) = Some (b, e).
Proof.
  intros b e F. induction b as [|a b IH]; cbn.
  - rewrite last_dot_free by assumption. reflexivity.
  - rewrite IH. reflexivity.
Qed.

Lemma parse_item : forall base (neg : bool) ext,
  free_of newline base -> ext <> "" -> free_of "."%char ext -> (forall r, ext <> String "!" r) ->
  parse_spec (base ++ "." ++ (if neg then "!" else "") ++ ext) =
    Some (mkPspec ((if String.eqb base "" then "*" else base) ++ "." ++ ext) neg).
Proof.
  intros base neg ext B E F N. unfold parse_spec.
  change (base ++ "." ++ (if neg then "!" else "") ++ ext) with (base ++ String "." ((if neg then "!" else "") ++ ext)).
  rewrite last_dot_app.
  - apply contains_char_free in B. rewrite B.
    destruct ext as [|a r]; [contradiction|]. destruct neg; cbn [append].
    + reflexivity.
    + destruct a as [[] [] [] [] [] [] [] []]; try reflexivity. exfalso. eapply N. reflexivity.
  - unfold free_of in *. destruct neg; cbn [append]; cbn [all_chars]; rewrite ?F; reflexivity.
Qed.

Definition lower_item (i : item) : item := mkItem (to_lower (it_base i)) (it_neg i) (to_lower (it_ext i)).
Lemma item_text_lower : forall i, to_lower (item_text i) = item_text (lower_item i).
Proof. intros [b [] e]; unfold item_text; cbn; rewrite !lower_app; reflexivity. Qed.
Lemma item_glob_lower : forall i, to_lower (item_glob i) = item_glob (lower_item i).
Proof.
  intros [b n e]. unfold item_glob. cbn. rewrite lower_app, lower_eqb_empty. destruct (String.eqb b ""); reflexivity.
Qed.
Lemma lower_item_ok : forall i, item_ok i -> item_ok (lower_item i).
Proof.
  intros [b n e] (H1 & H2 & H3 & H4 & H5). unfold item_ok. cbn in *. repeat split.
  - apply lower_all; [apply lower_plain|assumption].
  - apply lower_all; [apply lower_plain|assumption].
  - rewrite lower_empty. assumption.
  - unfold free_of. apply (lower_all (fun a => negb (Ascii.eqb a "."))); [apply lower_not_dot|assumption].
  - intros r E. destruct e as [|a e]; [discriminate|]. cbn in E. inversion E as [[E1 E2]].
    apply lower_bang in E1. subst. eapply H5. reflexivity.
Qed.
Lemma item_text_plain : forall i, item_ok i -> all_chars plain_char (item_text i) = true.
Proof.
  intros [b n e] (H1 & H2 & _). unfold item_text. cbn in *. rewrite all_app, H1.
  destruct n; cbn; rewrite H2; reflexivity.
Qed.
Lemma item_text_keep : forall i, item_ok i -> String.eqb (item_text i) "" || String.eqb (item_text i) "!" = false.
Proof.
  intros [b n e] (_ & _ & H3 & _). unfold item_text. cbn in *. destruct b as [|a b]; [reflexivity|].
  destruct a as [[] [] [] [] [] [] [] []]; try reflexivity. cbn. destruct b; reflexivity.
Qed.

Lemma new_specs_items : forall items, Forall item_ok items ->
  new_specs (map item_text items) =
    (map (fun i => Some (mkPspec (to_lower (item_glob i)) (it_neg i))) items, None).
Proof.
  intros items F. unfold new_specs, lo_mape.
  assert (G : forall i0 acc, lo_mape_from i0 None (fun (p : string) (_ : nat) =>
      match parse_spec (to_lower (trim_space p)) with Some sp => (Some sp, None) | None => (None, Some err_sub_pattern) end)
      (map item_text items) acc =
      ((acc ++ map (fun i => Some (mkPspec (to_lower (item_glob i)) (it_neg i))) items)%list, None)).
  { induction F as [|x l H F IH]; intros i0 acc; cbn; [rewrite app_nil_r; reflexivity|].
    rewrite trim_plain by (apply item_text_plain; assumption).
    rewrite item_text_lower, item_glob_lower. unfold item_text.
    destruct (lower_item_ok x H) as (H1 & H2 & H3 & H4 & H5).
    rewrite parse_item; [|apply plain_free; [tauto|assumption]|assumption..].
    rewrite IH, <- app_assoc. reflexivity. }
  apply G.
Qed.

Lemma lo_reject_none : forall {A} (p : A -> nat -> bool) l, Forall (fun x => forall i, p x i = false) l -> lo_reject l p = l.
Proof.
  intros A p l F. unfold lo_reject.
  assert (G : forall i acc, lo_reject_from i p l acc = (acc ++ l)%list).
  { induction F as [|x l H F IH]; intros i acc; cbn; [rewrite app_nil_r; reflexivity|].
    rewrite H. cbn. rewrite IH, <- app_assoc. reflexivity. }
  apply G.
Qed.

Definition dir_seg (dir excl : string) : string := if String.eqb excl "" then dir else dir ++ "/" ++ excl.

Lemma free_app : forall ch a b, free_of ch a -> free_of ch b -> free_of ch (a ++ b).
Proof. unfold free_of. intros. rewrite all_app. apply andb_true_intro. auto. Qed.
Lemma free_concat : forall ch s l, free_of ch s -> Forall (free_of ch) l -> free_of ch (String.concat s l).
Proof.
  intros ch s l S F. induction F as [|x l H F IH]; [reflexivity|]. destruct l as [|y l]; [exact H|].
  change (String.concat s (x :: y :: l)) with (x ++ s ++ String.concat s (y :: l)).
  apply free_app; [assumption|]. apply free_app; assumption.
Qed.

Lemma split_globex_text : forall dir excl items, dir_part_ok dir -> dir_part_ok excl -> Forall item_ok items ->
  split_globex (globex_text dir excl items) = inl (dir_seg dir excl, map item_text items).
Proof.
  intros dir excl items [D1 D2] [E1 E2] F. unfold split_globex, globex_text. fold (dir_seg dir excl).
  change (dir_seg dir excl ++ "|" ++ String.concat "," (map item_text items)) with
    (dir_seg dir excl ++ String "|" (String.concat "," (map item_text items))).
  rewrite contains_char_mid.
  assert (P : free_of "|"%char (dir_seg dir excl)).
  { unfold dir_seg. destruct (String.eqb excl ""); [apply plain_free; [tauto|assumption]|].
    apply free_app; [apply plain_free; [tauto|assumption]|]. apply (free_app _ "/"); [reflexivity|].
    apply plain_free; [tauto|assumption]. }
  rewrite split_on_sep by exact P.
  assert (Q : free_of "|"%char (String.concat "," (map item_text items))).
  { apply free_concat; [reflexivity|]. apply Forall_map. eapply Forall_impl; [|exact F].
    intros i H. apply plain_free; [tauto|]. apply item_text_plain. exact H. }
  rewrite (split_on_none _ _ Q). destruct items as [|it items]; [reflexivity|].
  rewrite split_on_concat.
  - rewrite lo_reject_none; [reflexivity|]. apply Forall_map. eapply Forall_impl; [|exact F].
    intros i H _. apply item_text_keep. exact H.
  - discriminate.
  - apply Forall_map. eapply Forall_impl; [|exact F].
    intros i H. apply plain_free; [tauto|]. apply item_text_plain. exact H.
Qed.

Lemma split_glob_seg : forall dir excl, dir_part_ok dir -> dir_part_ok excl ->
  split_glob (dir_seg dir excl) = (to_lower dir, to_lower excl).
Proof.
  intros dir excl [_ D] [_ E]. unfold split_glob, dir_seg.
  assert (D' : free_of "/"%char (to_lower dir)) by (apply (lower_all (fun a => negb (Ascii.eqb a "/"))); [apply lower_not_slash|exact D]).
  assert (E' : free_of "/"%char (to_lower excl)) by (apply (lower_all (fun a => negb (Ascii.eqb a "/"))); [apply lower_not_slash|exact E]).
  destruct (String.eqb_spec excl "") as [->|X].
  - rewrite split_on_none by exact D'. reflexivity.
  - rewrite lower_app. change (to_lower ("/" ++ excl)) with (String "/" (to_lower excl)).
    rewrite split_on_sep by exact D'. rewrite split_on_none by exact E'. reflexivity.
Qed.

Lemma specs_match_listed : forall mt items name b,
  listed (fun p n => mt_glob mt (to_lower p) n) name items b ->
  specs_match mt (map (fun i => mkPspec (to_lower (item_glob i)) (it_neg i)) items) name = b.
Proof.
  intros mt items name b L. induction L as [|i l N G|i l N|i l b N G L IH]; [reflexivity|..];
    cbn [map specs_match]; unfold spec_excluded, spec_match; cbn [ps_exclude ps_matcher]; rewrite N; cbn [andb orb].
  - rewrite G. reflexivity.
  - destruct (mt_glob mt (to_lower (item_glob i)) name); reflexivity.
  - rewrite G. exact IH.
Qed.
Lemma listed_total : forall glob name items, exists b, listed glob name items b.
Proof.
  intros glob name items. induction items as [|i l [b IH]]; [eexists; constructor|].
  destruct (it_neg i) eqn:N; [eexists; apply listed_negated; assumption|].
  destruct (glob (item_glob i) name) eqn:G; eexists; [apply listed_match; assumption|].
  apply listed_next; eassumption.
Qed.

Lemma flat_some : forall {A} (l : list A), flat_map (fun o => match o with Some sp => [sp] | None => [] end) (map Some l) = l.
Proof. intros A l. induction l; cbn; congruence. Qed.

Lemma build_globex : forall mt dir excl items sc neg na, dir_part_ok dir -> dir_part_ok excl ->
  Forall item_ok items ->
  build_native mt (globex_def dir excl items sc neg na) =
    (Some (NfGlobEx (mkBase "" (globex_text dir excl items) ScopeFile neg (applicable na))
       (map (fun i => mkPspec (to_lower (item_glob i)) (it_neg i)) items) (to_lower dir) (to_lower excl)), None).
Proof.
  intros mt dir excl items sc neg na D E F. unfold build_native, globex_def. cbn [fd_type fd_pattern].
  rewrite split_globex_text by assumption. rewrite split_glob_seg by assumption.
  rewrite new_specs_items by assumption.
  rewrite <- (map_map (fun i => mkPspec (to_lower (item_glob i)) (it_neg i)) (@Some pattern_spec)), flat_some. reflexivity.
Qed.

Lemma globex_answer : forall mt dir excl items sc neg na fo n b, dir_part_ok dir -> dir_part_ok excl -> Forall item_ok items ->
  fo_custom fo = None -> file_bit n ->
  listed (fun p x => mt_glob mt (to_lower p) x) (n_name n) items b ->
  exists f, new_filter mt (globex_def dir excl items sc neg na) fo = Ret (Some f, None) /\
    is_match mt f (Some n) = Ret (if negb (n_isdir n) && directory_accepted (mt_glob mt) dir excl n
                                  then xorb neg b else if_not_applicable (globex_def dir excl items sc neg na)).
Proof.
  intros mt dir excl items sc neg na fo n b D E F C B L. rewrite new_filter_native by (assumption || discriminate).
  rewrite build_globex by assumption. eexists. split; [reflexivity|].
  cbn [is_match fb_negate fb_ifna]. rewrite (specs_match_listed _ _ _ _ L), invert_xorb.
  assert (X : is_applicable (mkBase "" (globex_text dir excl items) ScopeFile neg (applicable na)) n = negb (n_isdir n)).
  { unfold is_applicable. cbn [fb_scope]. rewrite land_positive. unfold file_bit in B.
    destruct (N.eqb_spec (N.land ScopeFile (n_scope n)) 0) as [Z|Z].
    - destruct (n_isdir n); [reflexivity|]. exfalso. apply (proj2 B); auto.
    - rewrite (proj1 B Z). reflexivity. }
  rewrite X. reflexivity.
Qed.

(** items without a dot are refused *)
Lemma no_dot_refused : forall p, all_chars plain_char p = true -> free_of "."%char p ->
  parse_spec (to_lower (trim_space p)) = None.
Proof.
  intros p P F. rewrite trim_plain by assumption. unfold parse_spec.
  rewrite last_dot_free; [reflexivity|]. apply (lower_all (fun a => negb (Ascii.eqb a "."))); [apply lower_not_dot|exact F].
Qed.

Definition documented : filter_def := mkFilterDef FtGlobEx "" "cover.*|.jpg,jpeg" 0 false TriUndefined None.
Lemma documented_refused : forall mt fo, fo_custom fo = None -> new_filter mt documented fo = Ret (None, Some err_sub_pattern).
Proof. intros mt fo C. rewrite new_filter_native by (assumption || discriminate). reflexivity. Qed.

(** ** Poly *)
Lemma enforced_file : forall d n, scope_ok n -> file_bit n -> n_isdir n = false ->
  in_scope_b (scope_clear (scope_set (fd_scope d) ScopeFile) ScopeDirectory) n = true.
Proof.
  intros d n [S1 S2] B I. unfold in_scope_b, scope_clear, scope_set. apply orb_true_iff. right.
  apply negb_true_iff, N.eqb_neq. intro Z. apply (proj2 B I). apply N.bits_inj_0. intro k.
  assert (Y := f_equal (fun x => N.testbit x k) Z). cbn beta in Y.
  rewrite N.land_spec, N.ldiff_spec, N.lor_spec, N.bits_0 in Y. rewrite N.land_spec.
  destruct (N.testbit ScopeFile k) eqn:T; [|reflexivity].
  assert (K : k = 4%N) by (change ScopeFile with (2 ^ 4)%N in T; rewrite N.pow2_bits_eqb in T; apply N.eqb_eq in T; auto).
  subst k. rewrite orb_true_r in Y. exact Y.
Qed.
Lemma enforced_dir : forall d n, dir_bit n -> n_isdir n = true ->
  in_scope_b (scope_clear (scope_set (fd_scope d) ScopeDirectory) ScopeFile) n = true.
Proof.
  intros d n B I. unfold in_scope_b, scope_clear, scope_set. apply orb_true_iff. right.
  apply negb_true_iff, N.eqb_neq. intro Z. apply (proj2 B I). apply N.bits_inj_0. intro k.
  assert (Y := f_equal (fun x => N.testbit x k) Z). cbn beta in Y.
  rewrite N.land_spec, N.ldiff_spec, N.lor_spec, N.bits_0 in Y. rewrite N.land_spec.
  destruct (N.testbit ScopeDirectory k) eqn:T; [|reflexivity].
  assert (K : k = 5%N) by (change ScopeDirectory with (2 ^ 5)%N in T; rewrite N.pow2_bits_eqb in T; apply N.eqb_eq in T; auto).
  subst k. rewrite orb_true_r in Y. exact Y.
Qed.

Lemma constituent_accepts : forall mt d fo f, fo_custom fo = None -> fd_type d = FtGlob \/ fd_type d = FtRegex ->
  build_constituent mt d fo = Ret (Some f, None) -> build_native mt d = (Some f, None).
Proof.
  intros mt d fo f C T E. unfold build_constituent, or_func, get_custom in E. rewrite C in E. cbn [option_map] in E.
  destruct (build_native mt d) as [[g|] [e|]] eqn:B; try discriminate.
  destruct (validate_again g); [discriminate|]. inversion E; subst. reflexivity.
Qed.

Lemma accepts_with_scope : forall mt d sc n, in_scope_b sc n = true ->
  accepts mt (with_scope sc d) n = xorb (fd_negate d) (pattern_says mt d (n_name n)).
Proof. intros mt d sc n E. unfold accepts. cbn [with_scope fd_scope]. rewrite E. reflexivity. Qed.

Lemma poly_answer : forall mt ffd dfd fo f, fo_custom fo = None -> fo_node fo = Some (poly_def ffd dfd) ->
  (fd_type ffd = FtGlob \/ fd_type ffd = FtRegex) -> (fd_type dfd = FtGlob \/ fd_type dfd = FtRegex) ->
  new_filter mt (poly_def ffd dfd) fo = Ret (Some f, None) ->
  (forall n, n_isdir n = true -> is_match mt f (Some n) = Ret true) /\
  (forall n p, n_isdir n = false -> n_parent n = Some p -> n_isdir p = true ->
     scope_ok n -> file_bit n -> scope_ok p -> dir_bit p ->
     is_match mt f (Some n) = Ret (xorb (fd_negate dfd) (pattern_says mt dfd (n_name p)) &&
                                   xorb (fd_negate ffd) (pattern_says mt ffd (n_name n)))) /\
  (forall n, n_isdir n = false -> n_parent n = None -> is_match mt f (Some n) = Pan nil_deref).
Proof.
  intros mt ffd dfd fo f C N TF TD E.
  unfold new_filter, or_func, build_poly in E. rewrite N in E. cbn [poly_def fd_type is_poly_type fd_poly] in E.
  set (fd' := with_scope (scope_clear (scope_set (fd_scope ffd) ScopeFile) ScopeDirectory) ffd) in E.
  set (dd' := with_scope (scope_clear (scope_set (fd_scope dfd) ScopeDirectory) ScopeFile) dfd) in E.
  assert (TF' : fd_type fd' = FtGlob \/ fd_type fd' = FtRegex) by exact TF.
  assert (TD' : fd_type dd' = FtGlob \/ fd_type dd' = FtRegex) by exact TD.
  assert (PF : is_poly_type (fd_type fd') = false) by (destruct TF' as [->| ->]; reflexivity).
  assert (PD : is_poly_type (fd_type dd') = false) by (destruct TD' as [->| ->]; reflexivity).
  rewrite PF, PD in E.
  destruct (build_constituent mt fd' fo) as [[[ff|] [ef|]]|pf|] eqn:BF; try discriminate.
  2: { unfold get_custom in E. rewrite C in E. cbn in E. discriminate. }
  destruct (build_constituent mt dd' fo) as [[[df|] [ed|]]|pd|] eqn:BD; try discriminate.
  2: { unfold get_custom in E. rewrite C in E. cbn in E. discriminate. }
  inversion E; subst f; clear E.
  apply constituent_accepts in BF; [|assumption..]. apply constituent_accepts in BD; [|assumption..].
  split; [|split].
  - intros n I. cbn [is_match]. rewrite I. reflexivity.
  - intros n p I P IP S1 B1 S2 B2. cbn [is_match]. rewrite I, P.
    rewrite (build_native_accepts mt dd' df p TD' S2 BD). unfold dd'.
    rewrite accepts_with_scope by (apply enforced_dir; assumption).
    destruct (xorb (fd_negate dfd) (pattern_says mt dfd (n_name p))); [|reflexivity].
    rewrite (build_native_accepts mt fd' ff n TF' S1 BF). unfold fd'.
    rewrite accepts_with_scope by (apply enforced_file; assumption). reflexivity.
  - intros n I P. cbn [is_match]. rewrite I, P.
    destruct df as [b|b r|b sp dg de|cu|a b]; try reflexivity.
    + unfold build_native in BD. destruct (fd_type dd') eqn:T; try discriminate.
      * destruct TD'; discriminate.
      * destruct (mt_regex mt (fd_pattern dd')); discriminate.
Qed.

(** ** Sampling *)
Lemma first_taken : forall {A} n (l : list A), taken false n l (firstn (Nat.min (if Nat.eqb n 0 then length l else n) (length l)) l).
Proof.
  intros A n l. split.
  - rewrite firstn_length. destruct (Nat.eqb n 0); lia.
  - eexists. symmetry. apply firstn_skipn.
Qed.
Lemma last_taken : forall {A} n (l : list A), taken true n l (skipn (length l - Nat.min (if Nat.eqb n 0 then length l else n) (length l)) l).
Proof.
  intros A n l. split.
  - rewrite skipn_length. destruct (Nat.eqb n 0); lia.
  - eexists. symmetry. apply firstn_skipn.
Qed.

Lemma files_of_app : forall a b, files_of (a ++ b) = (files_of a ++ files_of b)%list.
Proof. intros. apply filter_app. Qed.
Lemma dirs_of_app : forall a b, dirs_of (a ++ b) = (dirs_of a ++ dirs_of b)%list.
Proof. intros. apply filter_app. Qed.
Lemma filter_all : forall {A} (p : A -> bool) l, Forall (fun x => p x = true) l -> filter p l = l.
Proof. intros A p l F. induction F; cbn; [reflexivity|]. rewrite H, IHF. reflexivity. Qed.
Lemma filter_none : forall {A} (p : A -> bool) l, Forall (fun x => p x = false) l -> filter p l = [].
Proof. intros A p l F. induction F; cbn; [reflexivity|]. rewrite H, IHF. reflexivity. Qed.
Lemma forall_firstn : forall {A} (P : A -> Prop) k l, Forall P l -> Forall P (firstn k l).
Proof. intros A P k l F. rewrite <- (firstn_skipn k l) in F. apply Forall_app in F. apply F. Qed.
Lemma forall_skipn : forall {A} (P : A -> Prop) k l, Forall P l -> Forall P (skipn k l).
Proof. intros A P k l F. rewrite <- (firstn_skipn k l) in F. apply Forall_app in F. apply F. Qed.
Lemma files_are : forall l, Forall (fun e => fisdir e = false) (files_of l).
Proof. intro l. apply Forall_forall. intros e I. apply filter_In in I. destruct I as [_ I]. apply negb_true_iff in I. exact I. Qed.
Lemma dirs_are : forall l, Forall (fun e => fisdir e = true) (dirs_of l).
Proof. intro l. apply Forall_forall. intros e I. apply filter_In in I. apply I. Qed.
Lemma only_files : forall l, Forall (fun e => fisdir e = false) l -> files_of l = l /\ dirs_of l = [].
Proof.
  intros l F. split; [apply filter_all|apply filter_none]; eapply Forall_impl; try exact F; intros a H; cbn; rewrite H; reflexivity.
Qed.
Lemma only_dirs : forall l, Forall (fun e => fisdir e = true) l -> files_of l = [] /\ dirs_of l = l.
Proof.
  intros l F. split; [apply filter_none|apply filter_all]; eapply Forall_impl; try exact F; intros a H; cbn; rewrite H; reflexivity.
Qed.

Lemma union_parts : forall so fs ds, Forall (fun e => fisdir e = false) fs -> Forall (fun e => fisdir e = true) ds ->
  taken (so_reverse so) (so_files so) fs (files_of (union so fs ds)) /\
  taken (so_reverse so) (so_dirs so) ds (dirs_of (union so fs ds)).
Proof.
  intros so fs ds F D. unfold union.
  set (tf := if so_reverse so then last_n else first_n).
  assert (TF : forall k l, Forall (fun e => fisdir e = false) l -> Forall (fun e => fisdir e = false) (tf k l)).
  { intros k l H. unfold tf, last_n, first_n. destruct (so_reverse so); [apply forall_skipn|apply forall_firstn]; exact H. }
  assert (TD : forall k l, Forall (fun e => fisdir e = true) l -> Forall (fun e => fisdir e = true) (tf k l)).
  { intros k l H. unfold tf, last_n, first_n. destruct (so_reverse so); [apply forall_skipn|apply forall_firstn]; exact H. }
  rewrite files_of_app, dirs_of_app.
  destruct (only_files _ (TF (if Nat.eqb (so_files so) 0 then length fs else so_files so) fs F)) as [-> ->].
  destruct (only_dirs _ (TD (if Nat.eqb (so_dirs so) 0 then length ds else so_dirs so) ds D)) as [-> ->].
  rewrite app_nil_r. cbn [app]. unfold tf, last_n, first_n.
  destruct (so_reverse so); split; try apply last_taken; apply first_taken.
Qed.

Lemma union_in : forall so fs ds e, In e (union so fs ds) -> In e fs \/ In e ds.
Proof.
  intros so fs ds e I. unfold union in I. apply in_app_or in I.
  destruct (so_reverse so); unfold last_n, first_n in I; destruct I as [I|I];
    try (apply in_firstn in I; auto).
  - left. rewrite <- (firstn_skipn (length fs - Nat.min (if Nat.eqb (so_files so) 0 then length fs else so_files so) (length fs)) fs).
    apply in_or_app. auto.
  - right. rewrite <- (firstn_skipn (length ds - Nat.min (if Nat.eqb (so_dirs so) 0 then length ds else so_dirs so) (length ds)) ds).
    apply in_or_app. auto.
  - left. rewrite <- (firstn_skipn (Nat.min (if Nat.eqb (so_files so) 0 then length fs else so_files so) (length fs)) fs).
    apply in_or_app. auto.
  - right. rewrite <- (firstn_skipn (Nat.min (if Nat.eqb (so_dirs so) 0 then length ds else so_dirs so) (length ds)) ds).
    apply in_or_app. auto.
Qed.

(** ** Sample filters *)
Lemma lo_filter_filter : forall {A} (p : A -> bool) l, lo_filter l (fun e _ => p e) = filter p l.
Proof.
  intros A p l. unfold lo_filter.
  assert (G : forall i acc, lo_filter_from i (fun e _ => p e) l acc = (acc ++ filter p l)%list).
  { induction l as [|x l IH]; intros i acc; cbn; [rewrite app_nil_r; reflexivity|].
    rewrite IH. destruct (p x); [rewrite <- app_assoc|]; reflexivity. }
  apply G.
Qed.
Lemma forall_filter : forall {A} (P : A -> Prop) p l, Forall P l -> Forall P (filter p l).
Proof. intros A P p l F. apply Forall_forall. intros x I. apply filter_In in I. rewrite Forall_forall in F. apply F, I. Qed.

Lemma sample_files : forall keep es, 
  files_of (sample_matching ScopeFile keep es) = filter keep (files_of es) /\
  dirs_of (sample_matching ScopeFile keep es) = dirs_of es.
Proof.
  intros keep es. unfold sample_matching, fetch. cbn [scope_is_directory scope_is_file].
  change (scope_is_directory ScopeFile) with false. change (scope_is_file ScopeFile) with true. cbn iota.
  rewrite lo_filter_filter, files_of_app, dirs_of_app.
  destruct (only_files _ (forall_filter _ keep _ (files_are es))) as [-> ->].
  destruct (only_dirs _ (dirs_are es)) as [-> ->]. rewrite app_nil_r. auto.
Qed.
Lemma sample_dirs : forall sc keep es, scope_is_directory sc = true ->
  files_of (sample_matching sc keep es) = files_of es /\
  dirs_of (sample_matching sc keep es) = filter keep (dirs_of es).
Proof.
  intros sc keep es D. unfold sample_matching, fetch. rewrite D.
  rewrite lo_filter_filter, files_of_app, dirs_of_app.
  destruct (only_dirs _ (forall_filter _ keep _ (dirs_are es))) as [-> ->].
  destruct (only_files _ (files_are es)) as [-> ->]. rewrite app_nil_r. auto.
Qed.
