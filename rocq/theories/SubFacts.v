(** Sub paths and scope bits: proofs. *)
From Verif Require Import Base Paths Level Kernel Defaults Session Spec StandsFacts SessionFacts WalkCor PathFacts WalkProps WalkFacts Persist SpecPersist PersistFacts SpecSub.
From Coq Require Import Lia ZifyN.
Ltac Zify.zify_post_hook ::= Z.to_euclidean_division_equations.
Local Open Scope string_scope.

(** ** Runes of UTF-8 texts *)
Definition rune_text (c : N) : string := string_of_list_ascii (rune_bytes c).
Lemma soa_app : forall a b, string_of_list_ascii (a ++ b) = string_of_list_ascii a ++ string_of_list_ascii b.
Proof. induction a as [|x a IH]; intro b; cbn; [reflexivity|]. rewrite IH. reflexivity. Qed.
Lemma in_range_of : forall lo hi n, (n < 256)%N -> in_range lo hi (ascii_of_N n) = ((lo <=? n) && (n <=? hi))%N.
Proof. intros lo hi n H. unfold in_range. rewrite byte_of by exact H. reflexivity. Qed.
Ltac yes_ := symmetry; apply andb_true_intro; split; apply N.leb_le; lia.
Lemma in_yes : forall lo hi n, (n < 256)%N -> (lo <= n <= hi)%N -> in_range lo hi (ascii_of_N n) = true.
Proof. intros. rewrite in_range_of by assumption. apply andb_true_intro; split; apply N.leb_le; lia. Qed.
Lemma in_no : forall lo hi n, (n < 256)%N -> (n < lo \/ hi < n)%N -> in_range lo hi (ascii_of_N n) = false.
Proof.
  intros lo hi n H C. rewrite in_range_of by assumption.
  destruct (N.leb_spec lo n); destruct (N.leb_spec n hi); try reflexivity; lia.
Qed.

Lemma runes_rune : forall c r, scalar c -> Defaults.runes (rune_text c ++ r) = rune_text c :: Defaults.runes r.
Proof.
  intros c r S. unfold scalar in S. unfold rune_text, rune_bytes.
  destruct (N.ltb_spec c 0x80).
  { cbn [map string_of_list_ascii append Defaults.runes]. rewrite byte_of by lia.
    destruct (N.ltb_spec c 128); [reflexivity|lia]. }
  destruct (N.ltb_spec c 0x800).
  { set (q := (192 + c / 64)%N). set (b := (128 + c mod 64)%N).
    assert (Q : (194 <= q <= 223)%N) by (subst q; lia).
    assert (B : (128 <= b <= 191)%N) by (subst b; lia).
    clearbody q b.
    cbn [map string_of_list_ascii append Defaults.runes]. rewrite byte_of by lia.
    destruct (N.ltb_spec q 128); [lia|]. unfold two, cont. rewrite !in_yes by lia. reflexivity. }
  destruct (N.ltb_spec c 0x10000).
  { set (q := (224 + c / 4096)%N). set (b := (128 + (c / 64) mod 64)%N). set (d := (128 + c mod 64)%N).
    assert (Q : (224 <= q <= 239)%N) by (subst q; lia).
    assert (B : (128 <= b <= 191)%N) by (subst b; lia).
    assert (D : (128 <= d <= 191)%N) by (subst d; lia).
    assert (LO : q = 224%N -> (160 <= b)%N) by (subst q b; lia).
    assert (HI : q = 237%N -> (b <= 159)%N) by (subst q b; lia).
    clearbody q b d. clear H H0 H1 S c.
    cbn [map string_of_list_ascii append Defaults.runes]. rewrite byte_of by lia.
    destruct (N.ltb_spec q 128); [lia|]. unfold two. rewrite (in_no 194 223) by lia. cbn [andb].
    assert (T : three (ascii_of_N q) (ascii_of_N b) = true).
    { unfold three, cont. assert (C : (q = 224 \/ 225 <= q <= 236 \/ q = 237 \/ 238 <= q <= 239)%N) by lia.
      destruct C as [-> | [C | [-> | C]]].
      - rewrite (in_yes 224 224), (in_yes 160 191) by lia. reflexivity.
      - rewrite (in_yes 225 236), (in_yes 128 191) by lia. rewrite orb_true_r. reflexivity.
      - rewrite (in_yes 237 237), (in_yes 128 159) by lia. rewrite orb_true_r. reflexivity.
      - rewrite (in_yes 238 239), (in_yes 128 191) by lia. rewrite orb_true_r. reflexivity. }
    rewrite T. unfold cont. rewrite in_yes by lia. reflexivity. }
  { set (q := (240 + c / 262144)%N). set (b := (128 + (c / 4096) mod 64)%N).
    set (d := (128 + (c / 64) mod 64)%N). set (e := (128 + c mod 64)%N).
    assert (Q : (240 <= q <= 244)%N) by (subst q; lia).
    assert (B : (128 <= b <= 191)%N) by (subst b; lia).
    assert (D : (128 <= d <= 191)%N) by (subst d; lia).
    assert (E : (128 <= e <= 191)%N) by (subst e; lia).
    assert (LO : q = 240%N -> (144 <= b)%N) by (subst q b; lia).
    assert (HI : q = 244%N -> (b <= 143)%N) by (subst q b; lia).
    clearbody q b d e. clear H H0 H1 S c.
    cbn [map string_of_list_ascii append Defaults.runes]. rewrite byte_of by lia.
    destruct (N.ltb_spec q 128); [lia|]. unfold two. rewrite (in_no 194 223) by lia. cbn [andb].
    assert (T : three (ascii_of_N q) (ascii_of_N b) = false).
    { unfold three. rewrite (in_no 224 224), (in_no 225 236), (in_no 237 237), (in_no 238 239) by lia. reflexivity. }
    rewrite T. cbn [andb].
    assert (F : four (ascii_of_N q) (ascii_of_N b) = true).
    { unfold four, cont. assert (C : (q = 240 \/ 241 <= q <= 243 \/ q = 244)%N) by lia.
      destruct C as [-> | [C | ->]].
      - rewrite (in_yes 240 240), (in_yes 144 191) by lia. reflexivity.
      - rewrite (in_yes 241 243), (in_yes 128 191) by lia. rewrite orb_true_r. reflexivity.
      - rewrite (in_yes 244 244), (in_yes 128 143) by lia. rewrite orb_true_r. reflexivity. }
    rewrite F. unfold cont. rewrite !in_yes by lia. reflexivity. }
Qed.

Lemma text_cons : forall c cs, text (c :: cs) = rune_text c ++ text cs.
Proof. intros. unfold text, rune_text. cbn [flat_map]. apply soa_app. Qed.
Lemma text_app : forall a b, text (a ++ b)%list = text a ++ text b.
Proof. intros. unfold text. rewrite flat_map_app. apply soa_app. Qed.
Lemma runes_text : forall cs, Forall scalar cs -> Defaults.runes (text cs) = map rune_text cs.
Proof.
  induction 1 as [|c cs C CS IH]; [reflexivity|]. rewrite text_cons, runes_rune, IH by assumption. reflexivity.
Qed.
Lemma app_nil_s : forall s : string, s ++ "" = s.
Proof. induction s as [|a s IH]; cbn; [reflexivity|]. rewrite IH. reflexivity. Qed.
Lemma of_runes_cons : forall a l, of_runes (a :: l) = a ++ of_runes l.
Proof. intros a [|b l]; [unfold of_runes; cbn; rewrite app_nil_s|]; reflexivity. Qed.
Lemma of_runes_text : forall cs, of_runes (map rune_text cs) = text cs.
Proof.
  induction cs as [|c cs IH]; [reflexivity|]. cbn [map]. rewrite of_runes_cons, text_cons, IH. reflexivity.
Qed.
Lemma tail_text : forall cs k, Forall scalar cs -> tail (text cs) k = text (skipn k cs).
Proof.
  intros cs k F. unfold tail. rewrite runes_text by exact F. rewrite map_length.
  destruct (Nat.leb_spec (length cs) k).
  - rewrite skipn_all2 by assumption. reflexivity.
  - rewrite <- of_runes_text. rewrite skipn_map. reflexivity.
Qed.
Lemma utf8_text : forall s, utf8 s <-> exists cs, Forall scalar cs /\ s = text cs.
Proof.
  intro s. unfold utf8, text. split; intros (cs & F & E); exists cs; (split; [exact F|]).
  - rewrite <- E. symmetry. apply string_of_list_ascii_of_string.
  - rewrite E. apply list_ascii_of_string_of_list_ascii.
Qed.

(** A rune has at least one byte. *)
Lemma slen_app : forall a b, String.length (a ++ b) = String.length a + String.length b.
Proof. induction a as [|x a IH]; intro b; cbn; [reflexivity|]. rewrite IH. reflexivity. Qed.
Lemma rune_len : forall c, 1 <= String.length (rune_text c).
Proof.
  intro c. unfold rune_text, rune_bytes. destruct (c <? 128)%N; [|destruct (c <? 2048)%N; [|destruct (c <? 65536)%N]]; cbn; lia.
Qed.
Lemma rune_len_ascii : forall c, (c < 128)%N -> String.length (rune_text c) = 1.
Proof. intros c H. unfold rune_text, rune_bytes. destruct (N.ltb_spec c 128); [reflexivity|lia]. Qed.
Lemma text_len : forall cs, length cs <= String.length (text cs).
Proof.
  induction cs as [|c cs IH]; [cbn; lia|]. rewrite text_cons, slen_app. cbn [length]. pose proof (rune_len c). lia.
Qed.
Lemma ascii_text : forall s, is_ascii s -> exists cs, Forall scalar cs /\ s = text cs /\ String.length s = length cs.
Proof.
  induction s as [|ch s IH]; intro A.
  - exists []. repeat split; auto.
  - inversion A as [|? ? A1 A2]; subst. destruct (IH A2) as (cs & F & E & L).
    exists (byte ch :: cs). split; [constructor; [left; lia|exact F]|]. split.
    + rewrite text_cons. unfold rune_text, rune_bytes. destruct (N.ltb_spec (byte ch) 128); [|lia].
      cbn [map string_of_list_ascii append]. unfold byte. rewrite ascii_N_embedding, <- E. reflexivity.
    + cbn. rewrite L. reflexivity.
Qed.

(** ** Paths *)
Lemma below_not_special : forall p b, proper b -> p <> "." -> p <> "/" -> p <> "" ->
  p ++ "/" ++ b <> "." /\ p ++ "/" ++ b <> "/".
Proof.
  intros p b PB N1 N2 N3. destruct p as [|ch p]; [contradiction|]. cbn [append].
  split; intro E; inversion E as [[E1 E2]]; destruct p; discriminate.
Qed.

Section Sub.
Variables (c : cfg) (t : fsnode).
Hypotheses (HK : hooks_ok c) (CR : clean (c_tree c) = c_tree c) (PN : names_are (fun b => proper b /\ utf8 b) t)
  (ND : c_tree c <> ".") (NS : c_tree c <> "/").

Lemma names_proper : forall u, names_are (fun b => proper b /\ utf8 b) u -> proper_names u.
Proof.
  fix IH 2. intros u H. destruct H as [u H]. constructor. intros e I. destruct (H e I) as [[A _] B].
  split; [exact A|apply IH; exact B].
Qed.

Lemma stands_rel : forall n, stands c (entries c) (c_tree c) (c_tree c) t 0 n ->
  names_are (fun b => proper b /\ utf8 b) (n_src n) /\ n_path n = c_tree c ++ rel_path n /\
  n_path n <> "." /\ n_path n <> "/" /\ n_path n <> "" /\ utf8 (rel_path n).
Proof.
  assert (NE : c_tree c <> "") by (rewrite <- CR; apply clean_ne).
  intros n H. induction H as [n E1 E2 E3 E4 E5 E6 AT|p i e n HP IH NT E1 E2 E3 E4 E5 E6 AT].
  - split; [congruence|].
    assert (R : rel_path n = "") by (destruct n; cbn in *; subst; reflexivity).
    rewrite R, app_nil_s, E1. repeat split; auto. apply utf8_text. exists []. split; [constructor|reflexivity].
  - destruct IH as (NP & PP & P1 & P2 & P3 & U).
    destruct NP as [u X].
    assert (IK : In e (fkids u)).
    { eapply entries_in_kids; [exact HK|]. eapply nth_error_In. exact NT. }
    destruct (X e IK) as [[PE UE] PNE].
    assert (CP : clean (n_path p) = n_path p).
    { apply (stands_paths c (c_tree c) (c_tree c) t 0 HK CR (names_proper _ PN) p HP). }
    rewrite E2. split; [exact PNE|].
    assert (R : rel_path n = rel_path p ++ "/" ++ fname e) by (destruct n; cbn in *; subst; reflexivity).
    assert (Q : n_path n = n_path p ++ "/" ++ fname e).
    { rewrite E1, join_below by assumption. unfold below_path.
      apply String.eqb_neq in P1, P2. rewrite P1, P2. reflexivity. }
    rewrite R. split; [rewrite Q, PP; rewrite sapp_assoc; reflexivity|].
    rewrite Q. destruct (below_not_special _ _ PE P1 P2 P3) as [S1 S2]. split; [exact S1|]. split; [exact S2|].
    split; [destruct (n_path p); [contradiction|discriminate]|].
    apply utf8_text in U, UE. destruct U as (as_ & F1 & ->), UE as (bs & F2 & ->).
    apply utf8_text. exists (as_ ++ 47%N :: bs)%list. split.
    + apply Forall_app. split; [exact F1|]. constructor; [left; lia|exact F2].
    + rewrite text_app, text_cons. reflexivity.
Qed.

Lemma split_shorter : forall p, String.length (fst (split_path p)) <= String.length p.
Proof.
  induction p as [|ch p IH]; [cbn; lia|]. cbn [split_path]. destruct (split_path p) as [d f]. cbn [fst] in *.
  destruct (Ascii.eqb ch sep); [cbn in *; lia|]. destruct d; cbn in *; lia.
Qed.

Lemma trimmed_snoc : forall s, trimmed false (s ++ "/") = s.
Proof.
  intro s. unfold trimmed. rewrite list_ascii_app, rev_app_distr. cbn.
  rewrite rev_involutive. apply string_of_list_ascii_of_string.
Qed.

Lemma scope_not_top : forall n, attributes c (c_tree c) n -> (n_scope n =? ScopeTop)%N = false.
Proof.
  intros n A. rewrite (at_scope _ _ _ A). unfold expected_scope. destruct (fisdir (n_src n)); [|reflexivity].
  destruct (n_depth n =? 0)%Z, (n_leaf n); try reflexivity; destruct (n_depth n =? 1)%Z; reflexivity.
Qed.

Lemma runes_bytes : forall s, length (Defaults.runes s) <= String.length s.
Proof.
  assert (G : forall k s, String.length s <= k -> length (Defaults.runes s) <= String.length s).
  { induction k as [|k IH]; intros s L.
    - destruct s; cbn in *; lia.
    - destruct s as [|a s]; [cbn; lia|]. cbn [String.length] in *.
      assert (D : length (Defaults.runes s) <= String.length s) by (apply IH; lia).
      remember (Defaults.runes s) as R eqn:ER. cbn [Defaults.runes]. rewrite <- ER.
      destruct (Defaults.byte a <? 128)%N; [cbn [length]; lia|].
      destruct s as [|b s2]; [cbn; lia|]. cbn [String.length] in *.
      destruct (two a b); [cbn [length]; assert (length (Defaults.runes s2) <= String.length s2) by (apply IH; lia); lia|].
      destruct s2 as [|d s3]; [cbn [length String.length] in *; lia|]. cbn [String.length] in *.
      destruct (three a b && cont d).
      { cbn [length]. assert (length (Defaults.runes s3) <= String.length s3) by (apply IH; lia). lia. }
      destruct s3 as [|e s4]; [cbn [length String.length] in *; lia|]. cbn [String.length] in *.
      destruct (four a b && cont d && cont e).
      { cbn [length]. assert (length (Defaults.runes s4) <= String.length s4) by (apply IH; lia). lia. }
      cbn [length] in *. lia. }
  intro s. apply (G (String.length s)). lia.
Qed.
Lemma trimmed_empty : forall k, trimmed k "" = "".
Proof. intros [|]; reflexivity. Qed.

Hypothesis DS : c_subpath c = default_subpath.

Lemma sub_of : forall n, stands c (entries c) (c_tree c) (c_tree c) t 0 n ->
  attributes c (c_tree c) n -> n_subpath n = trimmed (c_keep_sep c) (difference (c_tree c) (n_dirpart n)).
Proof.
  intros n S A. rewrite (at_sub _ _ _ A), DS. unfold default_subpath.
  assert (E : n_scope (with_children [] (with_extension (n_depth n) (n_leaf n) (n_name n) (n_dirpart n) (n_scope n) "" n)) = n_scope n)
    by (destruct n; reflexivity).
  rewrite E, (scope_not_top n A). destruct n; reflexivity.
Qed.

Lemma sub_root : forall n, stands c (entries c) (c_tree c) (c_tree c) t 0 n -> n_parent n = None -> n_subpath n = "".
Proof.
  intros n S PA.
  assert (X : n_path n = c_tree c /\ attributes c (c_tree c) n).
  { inversion S; subst; [auto|congruence]. }
  destruct X as [E A]. rewrite (sub_of n S A).
  pose proof (at_name _ _ _ A) as N. assert (D : n_dirpart n = fst (split_path (c_tree c))) by (rewrite <- E, <- N; reflexivity).
  unfold difference, tail. rewrite D. destruct (Nat.leb_spec (length (Defaults.runes (fst (split_path (c_tree c))))) (String.length (c_tree c))).
  - apply trimmed_empty.
  - pose proof (runes_bytes (fst (split_path (c_tree c)))). pose proof (split_shorter (c_tree c)). lia.
Qed.

Lemma sub_child : forall n p cs es, stands c (entries c) (c_tree c) (c_tree c) t 0 n -> n_parent n = Some p ->
  Forall scalar cs -> c_tree c = text cs -> Forall scalar es -> rel_path p = text es ->
  n_subpath n = text (skipn (String.length (c_tree c) - length cs) (if c_keep_sep c then es ++ [47%N] else es)%list).
Proof.
  intros n p cs es S PA F1 TR F2 RP.
  inversion S as [? ? ? X|p' i e n' HP NT E1 E2 E3 E4 E5 E6 AT]; subst; [congruence|].
  assert (p' = p) by congruence. subst p'.
  destruct (stands_rel p HP) as (NP & PP & P1 & P2 & P3 & U).
  rewrite (sub_of n S AT).
  assert (PE : proper (fname (n_src n))).
  { inversion NP as [u X]; subst u.
    assert (IK : In (n_src n) (fkids (n_src p))).
    { eapply entries_in_kids; [exact HK|]. eapply nth_error_In. exact NT. }
    destruct (X _ IK) as [[PE _] _]. exact PE. }
  assert (CP : clean (n_path p) = n_path p).
  { apply (stands_paths c (c_tree c) (c_tree c) t 0 HK CR (names_proper _ PN) p HP). }
  pose proof (at_name _ _ _ AT) as N. rewrite E1, join_below, split_below in N by assumption.
  apply String.eqb_neq in P1, P2. rewrite P1, P2 in N. inversion N as [[D NN]].
  unfold difference. rewrite D, PP, RP. rewrite TR at 1.
  replace ((text cs ++ text es) ++ "/") with (text (cs ++ es ++ [47%N]))
    by (rewrite !text_app, sapp_assoc; reflexivity).
  rewrite tail_text by (apply Forall_app; split; [exact F1|]; apply Forall_app; split; [exact F2|]; constructor; [left; lia|constructor]).
  rewrite TR. pose proof (text_len cs) as L.
  rewrite skipn_app. rewrite skipn_all2 by exact L. cbn [app].
  set (k := String.length (text cs) - length cs).
  destruct (c_keep_sep c); [reflexivity|].
  rewrite skipn_app, text_app. destruct (Nat.leb_spec k (length es)) as [LE|GT].
  - replace (k - length es) with 0 by lia. change (text (skipn 0 [47%N])) with "/". apply trimmed_snoc.
  - rewrite (skipn_all2 (n := k) es) by lia. destruct (k - length es) as [|j] eqn:J; [lia|].
    cbn [skipn]. destruct j; reflexivity.
Qed.
End Sub.

(** ** The sub path hook which includes the item *)
Lemma trimmed_no_sep : forall s a b, s = a ++ "/" ++ b -> b <> "" -> has_sep b = false -> trimmed false s = s.
Proof.
  intros s a b -> NE HS. unfold trimmed. rewrite !list_ascii_app, !rev_app_distr.
  destruct (rev (list_ascii_of_string b)) as [|ch l] eqn:R.
  - exfalso. apply NE. apply (f_equal (@rev ascii)) in R. rewrite rev_involutive in R.
    rewrite <- (string_of_list_ascii_of_string b), R. reflexivity.
  - cbn [app]. assert (I : In ch (list_ascii_of_string b)).
    { apply in_rev. rewrite R. left. reflexivity. }
    assert (N : Ascii.eqb ch sep = false).
    { destruct (Ascii.eqb ch sep) eqn:Q; [|reflexivity]. apply Ascii.eqb_eq in Q. subst ch.
      assert (X : has_sep b = true) by (apply existsb_exists; exists sep; split; [exact I|apply Ascii.eqb_refl]). congruence. }
    rewrite N. reflexivity.
Qed.

Lemma session_root_item : forall c sampling t o s, hooks_ok c -> root_ok c t -> clean (c_tree c) = c_tree c ->
  c_tree c <> "." -> c_tree c <> "/" -> names_are (fun b => proper b /\ utf8 b) t -> c_subpath c = root_item_subpath ->
  is_ascii (c_tree c) -> session c sampling t = (o, s) ->
  Forall (fun n => n_subpath n = rel_path n) (visited s).
Proof.
  intros c sampling t o s HK RO CR ND NS PN DS A H.
  destruct (ascii_text _ A) as (cs & F & TR & L).
  eapply Forall_impl; [|eapply visited_stands; eassumption]. intros n S. cbn in S.
  destruct (stands_rel c t HK CR PN ND NS n S) as (_ & PP & _ & _ & _ & U).
  apply utf8_text in U. destruct U as (es & F2 & E).
  assert (AT : attributes c (c_tree c) n) by (inversion S; assumption).
  rewrite (at_sub _ _ _ AT), DS. unfold root_item_subpath.
  replace (n_path (with_children [] (with_extension (n_depth n) (n_leaf n) (n_name n) (n_dirpart n) (n_scope n) "" n))) with (n_path n)
    by (destruct n; reflexivity).
  assert (D : difference (c_tree c) (n_path n) = rel_path n).
  { unfold difference. rewrite PP, E, TR, <- text_app, tail_text by (apply Forall_app; split; assumption).
    rewrite <- TR, L, skipn_app, skipn_all, Nat.sub_diag. reflexivity. }
  rewrite D. destruct (c_keep_sep c); [reflexivity|].
  inversion S as [? ? ? PA|p i e n' HP NT E1 E2 E3 E4 E5 E6 AT']; subst.
  - replace (rel_path n) with "" by (destruct n; cbn in *; subst; reflexivity). reflexivity.
  - destruct (stands_rel c t HK CR PN ND NS p HP) as (NP & _). destruct NP as [u X].
    assert (IK : In (n_src n) (fkids u)).
    { eapply entries_in_kids; [exact HK|]. eapply nth_error_In. exact NT. }
    destruct (X _ IK) as [[PE _] _].
    apply (trimmed_no_sep _ (rel_path p) (fname (n_src n))); [|apply PE|apply PE].
    destruct n; cbn in *; subst; reflexivity.
Qed.

(** ** In a session *)
Lemma session_sub_paths : forall c sampling t o s cs, hooks_ok c -> root_ok c t -> clean (c_tree c) = c_tree c ->
  c_tree c <> "." -> c_tree c <> "/" -> names_are (fun b => proper b /\ utf8 b) t -> c_subpath c = default_subpath ->
  Forall scalar cs -> c_tree c = text cs -> session c sampling t = (o, s) ->
  Forall (fun n => (n_parent n = None -> n_subpath n = "") /\
    forall p, n_parent n = Some p -> exists es, Forall scalar es /\ rel_path p = text es /\
      n_subpath n = text (skipn (String.length (c_tree c) - length cs) (if c_keep_sep c then es ++ [47%N] else es)%list)) (visited s).
Proof.
  intros c sampling t o s cs HK RO CR ND NS PN DS F TR H.
  eapply Forall_impl; [|eapply visited_stands; eassumption]. intros n S. cbn in S. split.
  - apply (sub_root c t PN DS n S).
  - intros p PA. assert (HP : stands c (entries c) (c_tree c) (c_tree c) t 0 p).
    { inversion S; subst; congruence. }
    destruct (stands_rel c t HK CR PN ND NS p HP) as (_ & _ & _ & _ & _ & U). apply utf8_text in U. destruct U as (es & F2 & E).
    exists es. split; [exact F2|]. split; [exact E|]. eapply sub_child; eassumption.
Qed.

Lemma session_sub_ascii : forall c sampling t o s, hooks_ok c -> root_ok c t -> clean (c_tree c) = c_tree c ->
  c_tree c <> "." -> c_tree c <> "/" -> names_are (fun b => proper b /\ utf8 b) t -> c_subpath c = default_subpath ->
  is_ascii (c_tree c) -> session c sampling t = (o, s) ->
  Forall (fun n => n_path n = c_tree c ++ rel_path n /\
    n_subpath n = match n_parent n with None => "" | Some p => rel_path p ++ (if c_keep_sep c then "/" else "") end) (visited s).
Proof.
  intros c sampling t o s HK RO CR ND NS PN DS A H.
  destruct (ascii_text _ A) as (cs & F & TR & L).
  pose proof (session_sub_paths c sampling t o s cs HK RO CR ND NS PN DS F TR H) as G.
  pose proof (visited_stands c sampling t o s HK RO H) as V.
  rewrite Forall_forall in G, V |- *. intros n I. specialize (G n I). specialize (V n I). destruct G as [G1 G2]. split.
  - apply (stands_rel c t HK CR PN ND NS n V).
  - destruct (n_parent n) as [p|]; [|apply G1; reflexivity].
    destruct (G2 p eq_refl) as (es & F2 & E & S). rewrite S, L, Nat.sub_diag, E. cbn [skipn].
    destruct (c_keep_sep c); [rewrite text_app|rewrite app_nil_s]; reflexivity.
Qed.

Lemma session_sub_non_ascii : forall c sampling t o s cs, hooks_ok c -> root_ok c t -> clean (c_tree c) = c_tree c ->
  c_tree c <> "." -> c_tree c <> "/" -> names_are (fun b => proper b /\ utf8 b) t -> c_subpath c = default_subpath ->
  c_keep_sep c = true ->
  Forall scalar cs -> c_tree c = text cs -> Exists (fun d => (128 <= d)%N) cs -> session c sampling t = (o, s) ->
  Forall (fun n => forall p, n_parent n = Some p -> n_subpath n <> rel_path p ++ "/") (visited s).
Proof.
  intros c sampling t o s cs HK RO CR ND NS PN DS KS F TR EX H.
  assert (L : length cs < String.length (c_tree c)).
  { rewrite TR. clear - EX. induction EX as [d cs D|d cs EX IH]; rewrite text_cons, slen_app; cbn [length].
    - pose proof (text_len cs). unfold rune_text, rune_bytes. destruct (N.ltb_spec d 128); [lia|].
      destruct (d <? 2048)%N; [|destruct (d <? 65536)%N]; cbn; lia.
    - pose proof (rune_len d). lia. }
  pose proof (session_sub_paths c sampling t o s cs HK RO CR ND NS PN DS F TR H) as G.
  rewrite Forall_forall in G |- *. intros n I p PA E. destruct (G n I) as [_ G2]. destruct (G2 p PA) as (es & F2 & E2 & S).
  rewrite S, KS, E2 in E. set (k := String.length (c_tree c) - length cs) in *. assert (1 <= k) by lia.
  replace (text es ++ "/") with (text (es ++ [47%N])) in E by (rewrite text_app; reflexivity).
  assert (Z : String.length (text (skipn k (es ++ [47%N]))) < String.length (text (es ++ [47%N]))).
  { assert (SP : (es ++ [47%N])%list <> []) by (destruct es; discriminate).
    generalize dependent (es ++ [47%N])%list. intros l _ SP. destruct l as [|x l]; [contradiction|].
    destruct k as [|k]; [lia|]. cbn [skipn]. rewrite text_cons, slen_app. pose proof (rune_len x).
    assert (String.length (text (skipn k l)) <= String.length (text l)).
    { clear. revert k. induction l as [|y l IH]; intro k; destruct k; cbn [skipn]; try lia.
      rewrite text_cons, slen_app. specialize (IH k). lia. }
    lia. }
  rewrite E in Z. lia.
Qed.

(** ** Scopes *)
Lemma positive_bit : forall f k, (0 <? N.land f (2 ^ k))%N = N.testbit f k.
Proof.
  intros f k. destruct (N.testbit f k) eqn:B.
  - apply N.ltb_lt. apply N.neq_0_lt_0. intro E. assert (X : N.testbit (N.land f (2 ^ k)) k = false) by (rewrite E; apply N.bits_0).
    rewrite N.land_spec, B, N.pow2_bits_true in X. discriminate.
  - apply N.ltb_ge. apply N.le_0_r. apply N.bits_inj. intro i. rewrite N.land_spec, N.bits_0.
    destruct (N.eq_dec i k) as [->|NE]; [rewrite B; reflexivity|]. rewrite N.pow2_bits_false by congruence. apply andb_false_r.
Qed.
Lemma is_file_bit : forall f, scope_is_file f = N.testbit f 4.
Proof. intro f. apply (positive_bit f 4). Qed.
Lemma is_directory_bit : forall f, scope_is_directory f = N.testbit f 5.
Proof. intro f. apply (positive_bit f 5). Qed.
Lemma is_tree_bit : forall f, scope_is_tree f = N.testbit f 0.
Proof. intro f. apply (positive_bit f 0). Qed.
Lemma uint32_bits : forall f, uint32 f <-> forall i, (32 <= i)%N -> N.testbit f i = false.
Proof.
  intro f. unfold uint32. split.
  - intros L i I. destruct (N.eq_dec f 0) as [->|NZ]; [apply N.bits_0|].
    apply N.bits_above_log2. apply N.log2_lt_pow2; [lia|]. eapply N.lt_le_trans; [exact L|]. apply N.pow_le_mono_r; lia.
  - intros B. destruct (N.eq_dec f 0) as [->|NZ]; [reflexivity|]. apply N.log2_lt_pow2; [lia|].
    destruct (N.lt_ge_cases (N.log2 f) 32) as [L|G]; [exact L|]. specialize (B _ G). rewrite N.bit_log2 in B by exact NZ. discriminate.
Qed.
Lemma scrub_bits : forall f i, N.testbit (scope_scrub f) i = N.testbit f i && ((i =? 4)%N || (i =? 5)%N).
Proof.
  intros f i. unfold scope_scrub. rewrite is_file_bit, is_directory_bit. unfold scope_set.
  assert (B4 : N.testbit ScopeFile i = (i =? 4)%N).
  { change ScopeFile with (2 ^ 4)%N. rewrite N.pow2_bits_eqb. apply N.eqb_sym. }
  assert (B5 : N.testbit ScopeDirectory i = (i =? 5)%N).
  { change ScopeDirectory with (2 ^ 5)%N. rewrite N.pow2_bits_eqb. apply N.eqb_sym. }
  assert (G : N.testbit (if N.testbit f 5 then N.lor (if N.testbit f 4 then N.lor 0 ScopeFile else 0) ScopeDirectory
                         else if N.testbit f 4 then N.lor 0 ScopeFile else 0) i =
              (N.testbit f 4 && (i =? 4)%N) || (N.testbit f 5 && (i =? 5)%N)).
  { destruct (N.testbit f 4), (N.testbit f 5); rewrite ?N.lor_spec, ?N.bits_0, ?B4, ?B5; cbn [orb andb]; rewrite ?orb_false_r; reflexivity. }
  etransitivity; [exact G|].
  destruct (N.eqb_spec i 4) as [E4|N4]; [rewrite E4; cbn; rewrite andb_false_r; destruct (N.testbit f 4); reflexivity|].
  destruct (N.eqb_spec i 5) as [E5|N5]; [rewrite E5; rewrite andb_false_r; reflexivity|].
  rewrite !andb_false_r. reflexivity.
Qed.
