(** The spelling of the list of an extended glob: proofs. *)
From Verif Require Import Base Lo Paths Kernel Session Defaults Filters SpecFilter FiltersFacts AskFacts Hooks Life Options
  Build SpecBuild BuildProps FilterProps OwnProps Sink SpecSink SinkFacts SpecSpell.
Local Open Scope string_scope.

Lemma white_space : forall a, white a = true -> is_space a = true.
Proof. all_ascii; congruence. Qed.

Lemma drop_white : forall w s, all_chars white w = true -> drop_space (list_ascii_of_string (w ++ s)) = drop_space (list_ascii_of_string s).
Proof.
  intros w s. induction w as [|a w IH]; cbn; [reflexivity|]. intro H. apply andb_prop in H. destruct H as [A B].
  rewrite (white_space _ A). apply IH, B.
Qed.
Lemma list_app_string : forall a b, list_ascii_of_string (a ++ b) = (list_ascii_of_string a ++ list_ascii_of_string b)%list.
Proof. induction a as [|x a IH]; intro b; cbn; [reflexivity|]. rewrite IH. reflexivity. Qed.
Lemma drop_all : forall l r, Forall (fun a => is_space a = true) l -> drop_space (l ++ r)%list = drop_space r.
Proof. intros l r F. induction F as [|a l H F IH]; cbn; [reflexivity|]. rewrite H. exact IH. Qed.
Lemma drop_none_app : forall l r, l <> [] -> Forall (fun a => is_space a = false) l -> drop_space (l ++ r)%list = (l ++ r)%list.
Proof. intros l r N F. destruct F as [|a l H F]; [contradiction|]. cbn. rewrite H. reflexivity. Qed.
Lemma plain_no_space : forall s, all_chars plain_char s = true -> Forall (fun a => is_space a = false) (list_ascii_of_string s).
Proof. intros s H. eapply Forall_impl; [|apply all_chars_forall; exact H]. intros a P. apply plain_not in P. apply P. Qed.
Lemma white_forall : forall s, all_chars white s = true -> Forall (fun a => is_space a = true) (list_ascii_of_string s).
Proof. intros s H. eapply Forall_impl; [|apply all_chars_forall; exact H]. exact white_space. Qed.

Lemma trim_white : forall before core after, all_chars white before = true -> all_chars white after = true ->
  all_chars plain_char core = true -> core <> "" -> trim_space (before ++ core ++ after) = core.
Proof.
  intros before core after B A C N. unfold trim_space. rewrite (drop_white before _ B), list_app_string.
  assert (NE : list_ascii_of_string core <> []) by (destruct core; [contradiction|discriminate]).
  rewrite (drop_none_app _ _ NE (plain_no_space _ C)), rev_app_distr.
  rewrite (drop_all _ _ (Forall_rev (white_forall _ A))).
  rewrite (drop_space_none _ (Forall_rev (plain_no_space _ C))), rev_involutive. apply string_of_list_ascii_of_string.
Qed.

Lemma respelled_canonical : forall a b, respelled a b -> to_lower (trim_space b) = to_lower (trim_space a).
Proof.
  intros a b [->|(before & core & after & -> & B & A & P & C & L & N & _)]; [reflexivity|].
  assert (NC : core <> "") by (intros ->; symmetry in L; exact (N (proj1 (lower_empty _) L))).
  rewrite (trim_white _ _ _ B A C NC), (trim_plain _ P). exact L.
Qed.
Definition dropped (s : string) : bool := String.eqb s "" || String.eqb s "!".
Lemma respelled_dropped : forall a b, respelled a b -> dropped b = dropped a.
Proof.
  intros a b [->|(before & core & after & -> & B & A & P & C & L & N & X)]; [reflexivity|]. unfold dropped.
  destruct (String.eqb_spec a ""); [contradiction|]. destruct (String.eqb_spec a "!"); [contradiction|]. cbn [orb].
  destruct core as [|k core]; [symmetry in L; exfalso; exact (N (proj1 (lower_empty _) L))|].
  assert (Y : String k core <> "!").
  { intro E. apply X. rewrite E in L. destruct a as [|k' a]; [discriminate|]. cbn in L. inversion L as [[L1 L2]].
    destruct a; [|discriminate]. symmetry in L1. change (lower_ascii "!"%char) with "!"%char in L1. apply lower_bang in L1. subst. reflexivity. }
  destruct before as [|b0 before]; cbn [append].
  - destruct after as [|a0 after].
    + assert (E : (core ++ "")%string = core) by (clear; induction core; cbn; congruence). rewrite E.
      destruct (String.eqb_spec (String k core) "!"); [contradiction|reflexivity].
    + destruct (String.eqb_spec (String k (core ++ String a0 after)) "!") as [E|]; [|reflexivity]. exfalso.
      inversion E as [[E1 E2]]. destruct core; discriminate.
  - destruct (String.eqb_spec (String b0 (before ++ String k (core ++ after))) "!") as [E|]; [|reflexivity]. exfalso.
    inversion E as [[E1 E2]]. destruct before; discriminate.
Qed.

Definition parsed (p : string) (_ : nat) : option pattern_spec * option error :=
  match parse_spec (to_lower (trim_space p)) with Some sp => (Some sp, None) | None => (None, Some err_sub_pattern) end.
Lemma specs_len : forall A B (R : A -> B -> Prop) l l', Forall2 R l l' -> length l' = length l.
Proof. intros A B R l l' F. induction F; cbn; congruence. Qed.
Lemma specs_respelled : forall l l', Forall2 respelled l l' -> new_specs l' = new_specs l.
Proof.
  intros l l' F. unfold new_specs, lo_mape. fold parsed. generalize 0 as i. generalize (@nil (option pattern_spec)) as acc.
  induction F as [|a b l l' R F IH]; intros acc i; [reflexivity|]. cbn [lo_mape_from].
  assert (E : parsed b i = parsed a i) by (unfold parsed; rewrite (respelled_canonical _ _ R); reflexivity).
  rewrite E. destruct (parsed a i) as [r [e|]]; [|apply IH]. rewrite (specs_len _ _ _ _ _ F). reflexivity.
Qed.
Lemma reject_filter : forall (p : string -> bool) l, lo_reject l (fun x _ => p x) = filter (fun x => negb (p x)) l.
Proof.
  intros p l. unfold lo_reject.
  assert (G : forall i acc, lo_reject_from i (fun x _ => p x) l acc = (acc ++ filter (fun x => negb (p x)) l)%list).
  { induction l as [|x l IH]; intros i acc; cbn; [rewrite app_nil_r; reflexivity|]. rewrite IH.
    destruct (p x); cbn; [reflexivity|]. rewrite <- app_assoc. reflexivity. }
  apply G.
Qed.
Lemma kept_respelled : forall l l', Forall2 respelled l l' ->
  Forall2 respelled (filter (fun x => negb (dropped x)) l) (filter (fun x => negb (dropped x)) l').
Proof.
  intros l l' F. induction F as [|a b l l' R F IH]; [constructor|]. cbn. rewrite (respelled_dropped _ _ R).
  destruct (dropped a); cbn; [exact IH|]. constructor; assumption.
Qed.
Lemma split_barred : forall seg l, l <> [] -> free_of "|" seg -> Forall listable l ->
  split_globex (barred seg l) = inl (seg, filter (fun x => negb (dropped x)) l).
Proof.
  intros seg l N S F. unfold split_globex, barred. change (seg ++ "|" ++ String.concat "," l) with (seg ++ String "|" (String.concat "," l)).
  rewrite contains_char_mid, (split_on_sep _ _ _ S).
  assert (F1 : Forall (free_of "|") l) by (eapply Forall_impl; [|exact F]; intros a H; apply H).
  assert (F2 : Forall (free_of ",") l) by (eapply Forall_impl; [|exact F]; intros a H; apply H).
  rewrite (split_on_none "|" (String.concat "," l)) by (apply free_concat; [reflexivity|exact F1]).
  rewrite split_on_concat by assumption. f_equal. f_equal. apply (reject_filter dropped).
Qed.

Lemma respelled_answers : forall mt d d' fo seg l l', fo_custom fo = None ->
  fd_type d = FtGlobEx -> fd_pattern d = barred seg l ->
  d' = mkFilterDef (fd_type d) (fd_desc d) (barred seg l') (fd_scope d) (fd_negate d) (fd_ifna d) (fd_poly d) ->
  l <> [] -> free_of "|" seg -> Forall listable l -> Forall listable l' -> Forall2 respelled l l' ->
  same_answers mt (new_filter mt d fo) (new_filter mt d' fo).
Proof.
  intros mt d d' fo seg l l' C T P E N S F F' R. subst d'.
  rewrite !new_filter_native; cbn [fd_type]; try assumption; try (rewrite T; discriminate).
  unfold build_native. cbn [fd_type fd_pattern]. rewrite T, P.
  assert (N' : l' <> []) by (intros ->; inversion R; subst; contradiction).
  rewrite !split_barred by assumption. destruct (split_glob seg) as [dg de].
  rewrite (specs_respelled _ _ (kept_respelled _ _ R)).
  destruct (new_specs (filter (fun x => negb (dropped x)) l)) as [specs [e|]]; cbn; [reflexivity|].
  intros [n|]; [|reflexivity]. reflexivity.
Qed.

(** End to end. *)
Lemma spelled_session : forall env mt u ws t sub d d' seg l l', ordinary u ws sub -> sub <> SubDirectoriesWithFiles ->
  fd_type d = FtGlobEx -> fd_pattern d = barred seg l ->
  d' = mkFilterDef (fd_type d) (fd_desc d) (barred seg l') (fd_scope d) (fd_negate d) (fd_ifna d) (fd_poly d) ->
  l <> [] -> free_of "|" seg -> Forall listable l -> Forall listable l' -> Forall2 respelled l l' ->
  let R := walk_prime env mt (FacUsing u) (options_of env (ws ++ [WithFilter (only_node d)])) t in
  let R' := walk_prime env mt (FacUsing u) (options_of env (ws ++ [WithFilter (only_node d')])) t in
  rp_outcome R = rp_outcome R' /\ nodes_of R = nodes_of R'.
Proof.
  intros env mt u ws t sub d d' seg l l' OR ND T P E N S F F' RS R R'.
  assert (SP : forall a b, barred a b <> "") by (intros a b; unfold barred; destruct a; discriminate).
  assert (A : node_active (only_node d) = true) by (apply active_pattern; rewrite P; apply SP).
  assert (A' : node_active (only_node d') = true) by (apply active_pattern; subst d'; apply SP).
  assert (SA := respelled_answers mt d d' (only_node d) seg l l' eq_refl T P E N S F F' RS).
  assert (NF : new_filter mt d' (only_node d) = new_filter mt d' (only_node d')).
  { rewrite !new_filter_native; try reflexivity; subst d'; cbn; rewrite T; discriminate. }
  rewrite NF in SA. unfold same_answers in SA.
  destruct (new_filter mt d (only_node d)) as [[[f|] [e|]]|q|] eqn:B; try contradiction;
    destruct (new_filter mt d' (only_node d')) as [[[g|] [e'|]]|q'|] eqn:B'; try contradiction.
  - assert (GX : simple d /\ simple d') by (split; right; right; subst d'; exact T). destruct GX as [GX GX'].
    assert (NB : forall x k, simple x -> new_filter mt x (only_node x) = Ret (Some k, None) -> build_native mt x = (Some k, None)).
    { intros x k X Y. rewrite (simple_native mt x (only_node x) X eq_refl) in Y. destruct (build_native mt x) as [[j|] [e|]]; inversion Y. reflexivity. }
    assert (X1 : forall n, is_match mt f (Some n) = Ret (matches mt f n)) by (intro n; exact (simple_answers mt d f n GX (NB _ _ GX B))).
    destruct (run_selected env mt u ws t sub OR ND d f (matches mt f) A B (fun n _ => X1 n)) as (O1 & N1 & _).
    destruct (run_selected env mt u ws t sub OR ND d' g (matches mt f) A' B') as (O2 & N2 & _).
    { intros n _. rewrite <- SA. apply X1. }
    unfold R, R'. rewrite O1, O2, N1, N2. split; reflexivity.
  - subst e'.
    assert (Q : forall x, node_active (only_node x) = true -> simple x -> new_filter mt x (only_node x) = Ret (None, Some e) ->
      walk_prime env mt (FacUsing u) (options_of env (ws ++ [WithFilter (only_node x)])) t = mkReport (Ret (Some e)) [] None).
    { intros x AX SX BX. assert (FA : filtering_active (only_node x) = true) by (unfold filtering_active; rewrite AX; reflexivity).
      destruct (got env ws (only_node x)) as [o G].
      eapply (refused_filter env mt u ws t sub OR); [exact G|exact FA|]. rewrite <- scheme_create_fst, (scheme_only_node _ _ _ AX).
      unfold native_create. rewrite BX. reflexivity. }
    unfold R, R'. rewrite (Q d A), (Q d' A'); try assumption; try (right; right; subst d'; exact T). split; reflexivity.
Qed.

(** An item of white space alone is no item left out. *)
Lemma blank_parsed : forall w i, all_chars white w = true -> parsed w i = (None, Some err_sub_pattern).
Proof.
  intros w i W. unfold parsed, trim_space. pose proof (drop_white w "" W) as D.
  assert (E : (w ++ "")%string = w) by (clear; induction w; cbn; congruence). rewrite E in D. rewrite D. reflexivity.
Qed.
Lemma specs_refused : forall l, Exists (fun w => all_chars white w = true) l -> snd (new_specs l) = Some err_sub_pattern.
Proof.
  intros l X. unfold new_specs, lo_mape. fold parsed. generalize 0 as i. generalize (@nil (option pattern_spec)) as acc.
  induction X as [a l H|a l X IH]; intros acc i; cbn [lo_mape_from].
  - rewrite (blank_parsed _ _ H). reflexivity.
  - unfold parsed at 1. destruct (parse_spec _); [apply IH|reflexivity].
Qed.
Lemma blank_item_refused : forall mt d fo seg l w, fo_custom fo = None -> fd_type d = FtGlobEx -> fd_pattern d = barred seg l ->
  free_of "|" seg -> Forall listable l -> In w l -> all_chars white w = true -> w <> "" ->
  new_filter mt d fo = Ret (None, Some err_sub_pattern).
Proof.
  intros mt d fo seg l w C T P S F I W N. rewrite new_filter_native; [|exact C|rewrite T; discriminate].
  unfold build_native. rewrite T, P, split_barred; [|intros ->; destruct I|exact S|exact F]. destruct (split_glob seg) as [dg de].
  assert (X : Exists (fun w => all_chars white w = true) (filter (fun x => negb (dropped x)) l)).
  { apply Exists_exists. exists w. split; [|exact W]. apply filter_In. split; [exact I|]. unfold dropped.
    destruct (String.eqb_spec w ""); [contradiction|]. destruct (String.eqb_spec w "!") as [->|]; [discriminate|reflexivity]. }
  apply specs_refused in X. destruct (new_specs _) as [sp e]. cbn in X. subst e. reflexivity.
Qed.
