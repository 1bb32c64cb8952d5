(** Saving and loading: proofs. *)
From Verif Require Import Base Paths Level Kernel Defaults Filters Hooks Life Options Persist SpecPersist.
From Coq Require Import Lia ZifyN.
Ltac Zify.zify_post_hook ::= Z.to_euclidean_division_equations.

(** ** UTF-8 *)
Lemma byte_of : forall n, (n < 256)%N -> byte (ascii_of_N n) = n.
Proof. intros n H. apply N_ascii_embedding, H. Qed.
Lemma between_of : forall lo hi n, (n < 256)%N -> between lo hi (ascii_of_N n) = ((lo <=? n) && (n <=? hi))%N.
Proof. intros lo hi n H. unfold between. rewrite byte_of by exact H. reflexivity. Qed.

Ltac bool_lia :=
  repeat match goal with
  | |- context [(?a <=? ?b)%N] => destruct (N.leb_spec a b)
  end; cbn [andb]; try reflexivity; try lia.

Lemma clean_rune : forall c r, scalar c -> clean_bytes (rune_bytes c ++ r) = (rune_bytes c ++ clean_bytes r)%list.
Proof.
  intros c r S. unfold scalar in S. unfold rune_bytes.
  destruct (N.ltb_spec c 0x80).
  { cbn [map app]. cbn [clean_bytes]. rewrite between_of by lia.
    replace ((0 <=? c) && (c <=? 127))%N with true by (symmetry; apply andb_true_intro; split; apply N.leb_le; lia).
    reflexivity. }
  destruct (N.ltb_spec c 0x800).
  { cbn [map app]. cbn [clean_bytes]. unfold lead. rewrite !between_of by lia.
    set (q := (192 + c / 64)%N). set (b := (128 + c mod 64)%N).
    assert (Q : (194 <= q <= 223)%N) by (subst q; lia).
    assert (B : (128 <= b <= 191)%N) by (subst b; lia).
    replace ((0 <=? q) && (q <=? 127))%N with false by (symmetry; apply andb_false_intro2; apply N.leb_gt; lia).
    replace ((194 <=? q) && (q <=? 223))%N with true by (symmetry; apply andb_true_intro; split; apply N.leb_le; lia).
    unfold tail_byte. rewrite between_of by lia.
    replace ((128 <=? b) && (b <=? 191))%N with true by (symmetry; apply andb_true_intro; split; apply N.leb_le; lia).
    reflexivity. }
  destruct (N.ltb_spec c 0x10000).
  { cbn [map app]. cbn [clean_bytes]. unfold lead. rewrite !between_of by lia.
    set (q := (224 + c / 4096)%N). set (b := (128 + (c / 64) mod 64)%N). set (d := (128 + c mod 64)%N).
    assert (Q : (224 <= q <= 239)%N) by (subst q; lia).
    assert (B : (128 <= b <= 191)%N) by (subst b; lia).
    assert (D : (128 <= d <= 191)%N) by (subst d; lia).
    assert (LO : q = 224%N -> (160 <= b)%N) by (subst q b; lia).
    assert (HI : q = 237%N -> (b <= 159)%N) by (subst q b; lia).
    assert (T : tail_byte (ascii_of_N d) = true).
    { unfold tail_byte. rewrite between_of by lia. apply andb_true_intro; split; apply N.leb_le; lia. }
    assert (T2 : tail_byte (ascii_of_N b) = true).
    { unfold tail_byte. rewrite between_of by lia. apply andb_true_intro; split; apply N.leb_le; lia. }
    clearbody q b d. clear H H0 H1 S c.
    replace ((0 <=? q) && (q <=? 127))%N with false by (symmetry; apply andb_false_intro2; apply N.leb_gt; lia).
    replace ((194 <=? q) && (q <=? 223))%N with false by (symmetry; apply andb_false_intro2; apply N.leb_gt; lia).
    assert (C : (q = 224 \/ 225 <= q <= 236 \/ q = 237 \/ 238 <= q <= 239)%N) by lia.
    destruct C as [C | [C | [C | C]]].
    - subst q. cbn. rewrite between_of by lia. rewrite T.
      replace ((160 <=? b) && (b <=? 191))%N with true by (symmetry; apply andb_true_intro; split; apply N.leb_le; lia).
      reflexivity.
    - replace ((224 <=? q) && (q <=? 224))%N with false by (symmetry; apply andb_false_intro2; apply N.leb_gt; lia).
      replace ((225 <=? q) && (q <=? 236))%N with true by (symmetry; apply andb_true_intro; split; apply N.leb_le; lia).
      rewrite T, T2. reflexivity.
    - subst q. cbn. rewrite between_of by lia. rewrite T.
      replace ((128 <=? b) && (b <=? 159))%N with true by (symmetry; apply andb_true_intro; split; apply N.leb_le; lia).
      reflexivity.
    - replace ((224 <=? q) && (q <=? 224))%N with false by (symmetry; apply andb_false_intro2; apply N.leb_gt; lia).
      replace ((225 <=? q) && (q <=? 236))%N with false by (symmetry; apply andb_false_intro2; apply N.leb_gt; lia).
      replace ((237 <=? q) && (q <=? 237))%N with false by (symmetry; apply andb_false_intro2; apply N.leb_gt; lia).
      replace ((238 <=? q) && (q <=? 239))%N with true by (symmetry; apply andb_true_intro; split; apply N.leb_le; lia).
      rewrite T, T2. reflexivity. }
  { cbn [map app]. cbn [clean_bytes]. unfold lead. rewrite !between_of by lia.
    set (q := (240 + c / 262144)%N). set (b := (128 + (c / 4096) mod 64)%N).
    set (d := (128 + (c / 64) mod 64)%N). set (e := (128 + c mod 64)%N).
    assert (Q : (240 <= q <= 244)%N) by (subst q; lia).
    assert (B : (128 <= b <= 191)%N) by (subst b; lia).
    assert (D : (128 <= d <= 191)%N) by (subst d; lia).
    assert (E : (128 <= e <= 191)%N) by (subst e; lia).
    assert (LO : q = 240%N -> (144 <= b)%N) by (subst q b; lia).
    assert (HI : q = 244%N -> (b <= 143)%N) by (subst q b; lia).
    assert (T : tail_byte (ascii_of_N d) = true).
    { unfold tail_byte. rewrite between_of by lia. apply andb_true_intro; split; apply N.leb_le; lia. }
    assert (T2 : tail_byte (ascii_of_N b) = true).
    { unfold tail_byte. rewrite between_of by lia. apply andb_true_intro; split; apply N.leb_le; lia. }
    assert (T3 : tail_byte (ascii_of_N e) = true).
    { unfold tail_byte. rewrite between_of by lia. apply andb_true_intro; split; apply N.leb_le; lia. }
    clearbody q b d e. clear H H0 H1 S c.
    assert (C : (q = 240 \/ q = 241 \/ q = 242 \/ q = 243 \/ q = 244)%N) by lia.
    destruct C as [C | [C | [C | [C | C]]]]; subst q; cbn -[tail_byte]; rewrite ?T, ?T2, ?T3; try reflexivity;
      rewrite between_of by lia.
    - replace ((144 <=? b) && (b <=? 191))%N with true by (symmetry; apply andb_true_intro; split; apply N.leb_le; lia).
      reflexivity.
    - replace ((128 <=? b) && (b <=? 143))%N with true by (symmetry; apply andb_true_intro; split; apply N.leb_le; lia).
      reflexivity. }
Qed.

Lemma clean_runes : forall cs, Forall scalar cs -> clean_bytes (flat_map rune_bytes cs) = flat_map rune_bytes cs.
Proof.
  induction 1 as [|c cs C CS IH]; [reflexivity|]. cbn [flat_map]. rewrite clean_rune, IH by assumption. reflexivity.
Qed.
Lemma clean_utf8 : forall s, utf8 s -> utf8_clean s = s.
Proof.
  intros s (cs & F & E). unfold utf8_clean. rewrite E, clean_runes by exact F. rewrite <- E.
  apply string_of_list_ascii_of_string.
Qed.

Definition runes (l : list ascii) : Prop := exists cs, Forall scalar cs /\ l = flat_map rune_bytes cs.
Lemma runes_cons : forall c l r, scalar c -> rune_bytes c = l -> runes r -> runes (l ++ r).
Proof. intros c l r S E (cs & F & ->). exists (c :: cs). split; [constructor; assumption|]. cbn [flat_map]. rewrite E. reflexivity. Qed.
Lemma between_le : forall lo hi a, between lo hi a = true -> (lo <= byte a <= hi)%N.
Proof. intros lo hi a H. apply andb_true_iff in H. destruct H. split; apply N.leb_le; assumption. Qed.
Lemma ascii_byte : forall a, ascii_of_N (byte a) = a.
Proof. intro a. apply ascii_N_embedding. Qed.
Lemma ufffd_runes : forall r, runes r -> runes (ufffd ++ r).
Proof. intros r H. apply (runes_cons 65533); [right; lia|reflexivity|exact H]. Qed.

Lemma lead_spec : forall a ok k, lead a = Some (ok, k) ->
  (k = 0 /\ (194 <= byte a <= 223)%N /\ ok = tail_byte) \/
  (k = 1 /\ (224 <= byte a <= 239)%N /\ forall b, ok b = true ->
     ((128 <= byte b <= 191) /\ (byte a = 224 -> 160 <= byte b) /\ (byte a = 237 -> byte b <= 159))%N) \/
  (k = 2 /\ (240 <= byte a <= 244)%N /\ forall b, ok b = true ->
     ((128 <= byte b <= 191) /\ (byte a = 240 -> 144 <= byte b) /\ (byte a = 244 -> byte b <= 143))%N).
Proof.
  intros a ok k H. unfold lead in H.
  repeat match type of H with
  | (if ?x then _ else _) = _ => destruct x eqn:?
  end; inversion H; subst; clear H;
  repeat match goal with X : between _ _ _ = true |- _ => apply between_le in X end.
  - left. auto.
  - right. left. split; [reflexivity|]. split; [lia|]. intros b B. apply between_le in B. lia.
  - right. left. split; [reflexivity|]. split; [lia|]. intros b B. apply between_le in B. lia.
  - right. left. split; [reflexivity|]. split; [lia|]. intros b B. apply between_le in B. lia.
  - right. left. split; [reflexivity|]. split; [lia|]. intros b B. apply between_le in B. lia.
  - right. right. split; [reflexivity|]. split; [lia|]. intros b B. apply between_le in B. lia.
  - right. right. split; [reflexivity|]. split; [lia|]. intros b B. apply between_le in B. lia.
  - right. right. split; [reflexivity|]. split; [lia|]. intros b B. apply between_le in B. lia.
Qed.

Lemma rune2 : forall a b, (194 <= byte a <= 223)%N -> (128 <= byte b <= 191)%N ->
  exists c, scalar c /\ rune_bytes c = [a; b].
Proof.
  intros a b A B. exists ((byte a - 192) * 64 + (byte b - 128))%N. unfold scalar, rune_bytes.
  set (c := ((byte a - 192) * 64 + (byte b - 128))%N).
  assert (c < 0x800)%N by (subst c; lia). assert (0x80 <= c)%N by (subst c; lia).
  split; [left; lia|].
  destruct (N.ltb_spec c 0x80); [lia|]. destruct (N.ltb_spec c 0x800); [|lia].
  cbn [map]. replace (192 + c / 64)%N with (byte a) by (subst c; lia).
  replace (128 + c mod 64)%N with (byte b) by (subst c; lia). rewrite !ascii_byte. reflexivity.
Qed.
Lemma rune3 : forall a b d, (224 <= byte a <= 239)%N -> (128 <= byte b <= 191)%N -> (128 <= byte d <= 191)%N ->
  (byte a = 224 -> 160 <= byte b)%N -> (byte a = 237 -> byte b <= 159)%N ->
  exists c, scalar c /\ rune_bytes c = [a; b; d].
Proof.
  intros a b d A B D LO HI. exists ((byte a - 224) * 4096 + (byte b - 128) * 64 + (byte d - 128))%N.
  unfold scalar, rune_bytes.
  set (c := ((byte a - 224) * 4096 + (byte b - 128) * 64 + (byte d - 128))%N).
  assert (c < 0x10000)%N by (subst c; lia).
  assert (0x800 <= c)%N by (subst c; destruct (N.eq_dec (byte a) 224); [specialize (LO e)|]; lia).
  assert (c < 0xD800 \/ 0xE000 <= c)%N.
  { destruct (N.eq_dec (byte a) 237) as [e|e]; [left; specialize (HI e); subst c; lia|].
    destruct (N.ltb_spec (byte a) 237); [left|right]; subst c; lia. }
  split; [lia|].
  destruct (N.ltb_spec c 0x80); [lia|]. destruct (N.ltb_spec c 0x800); [lia|]. destruct (N.ltb_spec c 0x10000); [|lia].
  cbn [map]. replace (224 + c / 4096)%N with (byte a) by (subst c; clear - A B D; lia).
  replace (128 + (c / 64) mod 64)%N with (byte b) by (subst c; clear - A B D; lia).
  replace (128 + c mod 64)%N with (byte d) by (subst c; clear - A B D; lia). rewrite !ascii_byte. reflexivity.
Qed.
Lemma rune4 : forall a b d e, (240 <= byte a <= 244)%N -> (128 <= byte b <= 191)%N -> (128 <= byte d <= 191)%N ->
  (128 <= byte e <= 191)%N ->
  (byte a = 240 -> 144 <= byte b)%N -> (byte a = 244 -> byte b <= 143)%N ->
  exists c, scalar c /\ rune_bytes c = [a; b; d; e].
Proof.
  intros a b d e A B D E LO HI.
  exists ((byte a - 240) * 262144 + (byte b - 128) * 4096 + (byte d - 128) * 64 + (byte e - 128))%N.
  unfold scalar, rune_bytes.
  set (c := ((byte a - 240) * 262144 + (byte b - 128) * 4096 + (byte d - 128) * 64 + (byte e - 128))%N).
  assert (c < 0x110000)%N by (subst c; destruct (N.eq_dec (byte a) 244); [specialize (HI e0)|]; lia).
  assert (0x10000 <= c)%N by (subst c; destruct (N.eq_dec (byte a) 240); [specialize (LO e0)|]; lia).
  split; [lia|].
  destruct (N.ltb_spec c 0x80); [lia|]. destruct (N.ltb_spec c 0x800); [lia|]. destruct (N.ltb_spec c 0x10000); [lia|].
  cbn [map]. replace (240 + c / 262144)%N with (byte a) by (subst c; clear - A B D E; lia).
  replace (128 + (c / 4096) mod 64)%N with (byte b) by (subst c; clear - A B D E; lia).
  replace (128 + (c / 64) mod 64)%N with (byte d) by (subst c; clear - A B D E; lia).
  replace (128 + c mod 64)%N with (byte e) by (subst c; clear - A B D E; lia). rewrite !ascii_byte. reflexivity.
Qed.

Lemma clean_runes_always : forall n l, length l <= n -> runes (clean_bytes l).
Proof.
  induction n as [|n IH]; intros l L.
  { destruct l; [|cbn in L; lia]. exists []. split; [constructor|reflexivity]. }
  destruct l as [|a r]; [exists []; split; [constructor|reflexivity]|].
  cbn [length] in L. cbn [clean_bytes].
  assert (R : runes (clean_bytes r)) by (apply IH; lia).
  destruct (between 0 127 a) eqn:A.
  { apply between_le in A. apply (runes_cons (byte a) [a]); [left; lia| |exact R].
    unfold rune_bytes. destruct (N.ltb_spec (byte a) 0x80); [|lia]. cbn [map]. rewrite ascii_byte. reflexivity. }
  destruct (lead a) as [[ok k]|] eqn:LD.
  2:{ destruct r; apply ufffd_runes, R. }
  destruct (lead_spec _ _ _ LD) as [(-> & RA & ->) | [(-> & RA & OK) | (-> & RA & OK)]].
  - destruct r as [|b r1]; [apply ufffd_runes, R|].
    destruct (tail_byte b) eqn:B; [|apply ufffd_runes, R].
    apply between_le in B. destruct (rune2 a b RA B) as (c & S & E).
    apply (runes_cons c [a; b]); [exact S|exact E|]. apply IH. cbn [length] in L. lia.
  - destruct r as [|b r1]; [apply ufffd_runes, R|]. destruct r1 as [|d r2]; [apply ufffd_runes, R|].
    destruct (ok b && tail_byte d)%bool eqn:B; [|apply ufffd_runes, R].
    apply andb_true_iff in B. destruct B as [B D]. apply between_le in D. destruct (OK _ B) as (B1 & B2 & B3).
    destruct (rune3 a b d RA B1 D B2 B3) as (c & S & E).
    apply (runes_cons c [a; b; d]); [exact S|exact E|]. apply IH. cbn [length] in L. lia.
  - destruct r as [|b r1]; [apply ufffd_runes, R|]. destruct r1 as [|d r2]; [apply ufffd_runes, R|].
    destruct r2 as [|e r3]; [apply ufffd_runes, R|].
    destruct (ok b && tail_byte d && tail_byte e)%bool eqn:B; [|apply ufffd_runes, R].
    apply andb_true_iff in B. destruct B as [B E]. apply andb_true_iff in B. destruct B as [B D].
    apply between_le in D. apply between_le in E. destruct (OK _ B) as (B1 & B2 & B3).
    destruct (rune4 a b d e RA B1 D E B2 B3) as (c & S & EQ).
    apply (runes_cons c [a; b; d; e]); [exact S|exact EQ|]. apply IH. cbn [length] in L. lia.
Qed.
Lemma utf8_clean_utf8 : forall s, utf8 (utf8_clean s).
Proof.
  intro s. destruct (clean_runes_always _ (list_ascii_of_string s) (Nat.le_refl _)) as (cs & F & E).
  exists cs. split; [exact F|]. unfold utf8_clean. rewrite list_ascii_of_string_of_list_ascii. exact E.
Qed.
Lemma utf8_clean_iff : forall s, utf8_clean s = s <-> utf8 s.
Proof. intro s. split; [intro E; rewrite <- E; apply utf8_clean_utf8|apply clean_utf8]. Qed.

(** ** Induction over filters *)
Section FilterInd.
Variable P : filter_def -> Prop.
Hypothesis H0 : forall ty de pa sc ne na, P (mkFilterDef ty de pa sc ne na None).
Hypothesis H1 : forall ty de pa sc ne na f g, P f -> P g -> P (mkFilterDef ty de pa sc ne na (Some (f, g))).
Fixpoint filter_def_induction (d : filter_def) : P d :=
  match d with
  | mkFilterDef ty de pa sc ne na None => H0 ty de pa sc ne na
  | mkFilterDef ty de pa sc ne na (Some (f, g)) =>
      H1 ty de pa sc ne na f g (filter_def_induction f) (filter_def_induction g)
  end.
End FilterInd.
Section JFilterInd.
Variable P : jfilter -> Prop.
Hypothesis H0 : forall ty de pa sc ne na, P (mkJFilter ty de pa sc ne na None).
Hypothesis H1 : forall ty de pa sc ne na f g, P f -> P g -> P (mkJFilter ty de pa sc ne na (Some (f, g))).
Fixpoint jfilter_induction (d : jfilter) : P d :=
  match d with
  | mkJFilter ty de pa sc ne na None => H0 ty de pa sc ne na
  | mkJFilter ty de pa sc ne na (Some (f, g)) =>
      H1 ty de pa sc ne na f g (jfilter_induction f) (jfilter_induction g)
  end.
End JFilterInd.

(** ** Decoding what was encoded *)
Fixpoint clean_jfilter (j : jfilter) : jfilter :=
  mkJFilter (jf_type j) (utf8_clean (jf_desc j)) (utf8_clean (jf_pattern j)) (jf_scope j) (jf_negate j) (jf_ifna j)
    (match jf_poly j with None => None | Some (f, g) => Some (clean_jfilter f, clean_jfilter g) end).
Definition clean_jchild (c : jchild) : jchild :=
  mkJChild (jc_type c) (utf8_clean (jc_desc c)) (utf8_clean (jc_pattern c)) (jc_negate c).
Definition clean_jsample (c : jsample) : jsample :=
  mkJSample (js_type c) (utf8_clean (js_desc c)) (utf8_clean (js_pattern c)) (js_scope c) (js_negate c)
    (match js_poly c with None => None | Some (f, g) => Some (clean_jfilter f, clean_jfilter g) end).
Definition clean_joptions (j : joptions) : joptions :=
  mkJOptions (jo_behaviours j) (jo_sampling j) (option_map clean_jfilter (jo_node j))
    (option_map clean_jchild (jo_child j)) (option_map clean_jsample (jo_sample j))
    (mkJHib (option_map clean_jfilter (jh_wake (jo_hib j))) (option_map clean_jfilter (jh_sleep (jo_hib j)))
       (jh_incl_wake (jo_hib j)) (jh_incl_sleep (jo_hib j)))
    (jo_now j).

Lemma of_N_nonneg : forall n, (Z.of_N n <? 0)%Z = false.
Proof. intro n. apply Z.ltb_ge. lia. Qed.
Lemma of_nat_nonneg : forall n, (Z.of_nat n <? 0)%Z = false.
Proof. intro n. apply Z.ltb_ge. lia. Qed.
Lemma nat_back : forall n, N.to_nat (Z.to_N (Z.of_nat n)) = n.
Proof. intro n. lia. Qed.
Lemma as_uint_num : forall A n (acc : A) put, as_uint (jnum n) acc put = inl (put n).
Proof. intros. unfold as_uint, jnum. rewrite of_N_nonneg, N2Z.id. reflexivity. Qed.
Lemma as_uint_nat : forall A n (acc : A) put, as_uint (JNum (Z.of_nat n)) acc put = inl (put (N.of_nat n)).
Proof. intros. unfold as_uint. rewrite of_nat_nonneg. f_equal. f_equal. lia. Qed.
Lemma as_enum_ft : forall A t (acc : A) put, as_enum ft_of (jnum (ft_code t)) acc put = inl (put t).
Proof. intros. unfold as_enum, jnum. rewrite of_N_nonneg, N2Z.id. destruct t; reflexivity. Qed.
Lemma as_enum_st : forall A t (acc : A) put, as_enum st_of (jnum (st_code t)) acc put = inl (put t).
Proof. intros. unfold as_enum, jnum. rewrite of_N_nonneg, N2Z.id. destruct t; reflexivity. Qed.
Lemma as_enum_tri : forall A t (acc : A) put, as_enum tri_of (jnum (tri_code t)) acc put = inl (put t).
Proof. intros. unfold as_enum, jnum. rewrite of_N_nonneg, N2Z.id. destruct t; reflexivity. Qed.
Lemma as_enum_sub : forall A t (acc : A) put, as_enum sub_of (jnum (sub_code t)) acc put = inl (put t).
Proof. intros. unfold as_enum, jnum. rewrite of_N_nonneg, N2Z.id. destruct t; reflexivity. Qed.

Lemma as_str_str : forall A s (acc : A) put, as_str (jstr s) acc put = inl (put (utf8_clean s)).
Proof. reflexivity. Qed.

Ltac keys := cbn -[jnum jstr utf8_clean ft_code st_code tri_code sub_code Z.of_nat enc_filter dec_filter as_uint as_enum as_str N.to_nat N.of_nat].
Ltac nums := rewrite ?as_str_str, ?as_uint_num, ?as_uint_nat, ?as_enum_ft, ?as_enum_st, ?as_enum_tri, ?as_enum_sub.
Ltac run := repeat (progress (keys; nums)).

Lemma dec_enc_filter : forall j, dec_filter (enc_filter j) = inl (clean_jfilter j).
Proof.
  induction j as [ty de pa sc ne na | ty de pa sc ne na f g IF IG] using jfilter_induction.
  - cbn [enc_filter dec_filter]. run. reflexivity.
  - cbn [enc_filter dec_filter jf_type jf_desc jf_pattern jf_scope jf_negate jf_ifna jf_poly].
    run. rewrite IF. run. rewrite IG. run. reflexivity.
Qed.
Lemma dec_enc_poly : forall f g,
  dec_poly (JObj [("File", enc_filter f); ("Directory", enc_filter g)]%string) = inl (clean_jfilter f, clean_jfilter g).
Proof. intros. unfold dec_poly. run. rewrite dec_enc_filter. run. rewrite dec_enc_filter. reflexivity. Qed.
Lemma enc_filter_obj : forall j, exists fs, enc_filter j = JObj fs.
Proof. intros [? ? ? ? ? ? ?]. eexists. reflexivity. Qed.
Lemma as_ptr_filter : forall A p (put : option jfilter -> A),
  as_ptr dec_filter (jptr enc_filter p) put = inl (put (option_map clean_jfilter p)).
Proof.
  intros A [j|] put; [|reflexivity]. cbn [jptr]. destruct (enc_filter_obj j) as (fs & E).
  pose proof (dec_enc_filter j) as D. rewrite E in D |- *. cbn [as_ptr]. rewrite D. reflexivity.
Qed.
Lemma dec_enc_child : forall c, dec_child (enc_child c) = inl (clean_jchild c).
Proof. intros [? ? ? ?]. unfold dec_child, enc_child. run. reflexivity. Qed.
Lemma dec_enc_sample : forall c, dec_sample (enc_sample c) = inl (clean_jsample c).
Proof.
  intros [? ? ? ? ? [[f g]|]]; unfold dec_sample, enc_sample; run; [|reflexivity].
  repeat (rewrite ?dec_enc_filter; run). reflexivity.
Qed.

Lemma as_ptr_child : forall A p (put : option jchild -> A),
  as_ptr dec_child (jptr enc_child p) put = inl (put (option_map clean_jchild p)).
Proof.
  intros A [j|] put; [|reflexivity]. cbn [jptr option_map]. unfold as_ptr. unfold enc_child at 1.
  fold (enc_child j). rewrite dec_enc_child. reflexivity.
Qed.
Lemma as_ptr_sample : forall A p (put : option jsample -> A),
  as_ptr dec_sample (jptr enc_sample p) put = inl (put (option_map clean_jsample p)).
Proof.
  intros A [j|] put; [|reflexivity]. cbn [jptr option_map]. unfold as_ptr. unfold enc_sample at 1.
  fold (enc_sample j). rewrite dec_enc_sample. reflexivity.
Qed.

Lemma dec_enc_options : forall j, dec_options (enc_options j) = inl (clean_joptions j).
Proof.
  intros [[ks ca ff de nr] [ty re nf nd] n c sa [wa sl iw is] w].
  unfold dec_options, enc_options, clean_joptions.
  cbn -[jnum jstr utf8_clean ft_code st_code tri_code sub_code Z.of_nat enc_filter dec_filter dec_child dec_sample
        enc_child enc_sample as_uint as_enum as_str as_ptr jptr N.to_nat N.of_nat option_map].
  repeat (progress (nums; rewrite ?as_ptr_filter, ?as_ptr_child, ?as_ptr_sample;
    cbn -[jnum jstr utf8_clean ft_code st_code tri_code sub_code Z.of_nat enc_filter dec_filter dec_child dec_sample
        enc_child enc_sample as_uint as_enum as_str as_ptr jptr N.to_nat N.of_nat option_map])).
  rewrite !Nat2N.id. reflexivity.
Qed.

Definition clean_active (a : active) : active :=
  let sv := ac_saved a in
  mkActive (mkSaved (utf8_clean (sv_tree sv)) (utf8_clean (sv_path sv)) (sv_isdir sv) (sv_depth sv) (sv_sub sv) (sv_metrics sv))
    (ac_traverse_relative a) (ac_resume_relative a).
Lemma dec_enc_active : forall a, dec_active (enc_active a) = inl (clean_active (kept_state a)).
Proof.
  intros [[tr pa di de su [m1 m2 m3 m4 m5 m6]] t r]. unfold dec_active, enc_active, clean_active, kept_state.
  run. rewrite ?Nat2N.id. reflexivity.
Qed.

(** ** Converting there and back *)
Lemma filter_to_from : forall d, filter_from_json (filter_to_json d) = d.
Proof.
  induction d as [ty de pa sc ne na | ty de pa sc ne na f g IF IG] using filter_def_induction; [reflexivity|].
  cbn. rewrite IF, IG. reflexivity.
Qed.
Lemma filter_from_to : forall j, filter_to_json (filter_from_json j) = j.
Proof.
  induction j as [ty de pa sc ne na | ty de pa sc ne na f g IF IG] using jfilter_induction; [reflexivity|].
  cbn. rewrite IF, IG. reflexivity.
Qed.
Lemma map_filter_to_from : forall d, option_map filter_from_json (option_map filter_to_json d) = d.
Proof. intros [d|]; [|reflexivity]. cbn. rewrite filter_to_from. reflexivity. Qed.
Lemma from_to_json : forall env o, from_json env (to_json o) = carried env o.
Proof.
  intros env [[? ? ? ? ?] [? ? ? ?] [fn fc fs fcu] [wa sl iw is] [? ? ? ?] ev hk df].
  unfold from_json, to_json, carried. cbn -[default_options option_map].
  rewrite !map_filter_to_from. f_equal. f_equal.
  - destruct fc as [[? ? ? ?]|]; reflexivity.
  - destruct fs as [[? ? ? ? ? ? ?]|]; reflexivity.
Qed.

(** ** Strings which are UTF-8 are not changed *)
Lemma clean_filter_id : forall d, Forall utf8 (filter_texts d) -> clean_jfilter (filter_to_json d) = filter_to_json d.
Proof.
  induction d as [ty de pa sc ne na | ty de pa sc ne na f g IF IG] using filter_def_induction; intro H;
    cbn [filter_texts fd_desc fd_pattern fd_poly] in H; cbn [filter_to_json clean_jfilter fd_type fd_desc fd_pattern
      fd_scope fd_negate fd_ifna fd_poly jf_type jf_desc jf_pattern jf_scope jf_negate jf_ifna jf_poly];
    inversion H as [|? ? U H1]; subst; inversion H1 as [|? ? V H2]; subst;
    rewrite (clean_utf8 _ U), (clean_utf8 _ V); [reflexivity|].
  apply Forall_app in H2. destruct H2. rewrite IF, IG by assumption. reflexivity.
Qed.
Lemma clean_options_id : forall o, Forall utf8 (option_texts o) -> clean_joptions (to_json o) = to_json o.
Proof.
  intros [b s [fn fc fs fcu] [wa sl iw is] co ev hk df] H.
  unfold option_texts in H. cbn [op_filter op_hib fo_node fo_child fo_sample ho_wake ho_sleep] in H.
  rewrite !Forall_app in H. destruct H as (H1 & H2 & H3 & H4 & H5).
  unfold clean_joptions, to_json.
  cbn [op_behaviours op_sampling op_filter op_hib op_conc fo_node fo_child fo_sample ho_wake ho_sleep ho_incl_wake
       ho_incl_sleep jo_behaviours jo_sampling jo_node jo_child jo_sample jo_hib jo_now jh_wake jh_sleep jh_incl_wake jh_incl_sleep].
  f_equal.
  - destruct fn; [|reflexivity]. cbn. rewrite clean_filter_id by assumption. reflexivity.
  - destruct fc as [[? ? ? ?]|]; [|reflexivity]. unfold clean_jchild. cbn -[utf8_clean] in *.
    inversion H2 as [|? ? U K]; subst. inversion K as [|? ? V ?]; subst. rewrite (clean_utf8 _ U), (clean_utf8 _ V). reflexivity.
  - destruct fs as [[? ? ? ? ? ? ?]|]; [|reflexivity]. unfold clean_jsample. cbn -[utf8_clean] in *.
    inversion H3 as [|? ? U K]; subst. inversion K as [|? ? V ?]; subst. rewrite (clean_utf8 _ U), (clean_utf8 _ V). reflexivity.
  - f_equal.
    + destruct wa; [|reflexivity]. cbn. rewrite clean_filter_id by assumption. reflexivity.
    + destruct sl; [|reflexivity]. cbn. rewrite clean_filter_id by assumption. reflexivity.
Qed.
Lemma clean_active_id : forall a, utf8 (sv_tree (ac_saved a)) -> utf8 (sv_path (ac_saved a)) -> clean_active a = a.
Proof.
  intros [[tr pa di de su me] t r] U V. cbn in U, V. unfold clean_active. cbn -[utf8_clean].
  rewrite (clean_utf8 _ U), (clean_utf8 _ V). reflexivity.
Qed.

(** ** The comparison *)
Lemma checks_none : forall l, checks l = None <-> Forall (fun x => fst x = true) l.
Proof.
  induction l as [|[b f] l IH]; [split; [constructor|reflexivity]|].
  destruct b; cbn [checks].
  - rewrite IH. split; intro H; [constructor; [reflexivity|assumption]|inversion H; assumption].
  - split; intro H; [discriminate H|inversion H as [|? ? K]; discriminate K].
Qed.
Lemma also_none : forall a b, also a b = None <-> a = None /\ b = None.
Proof. intros [e|] b; cbn; split; [intro H; discriminate H|intros [H ?]; discriminate H|auto|intros [_ H]; exact H]. Qed.
Lemma ft_code_eq : forall a b, (ft_code a =? ft_code b)%N = true <-> a = b.
Proof. intros a b. rewrite N.eqb_eq. split; [destruct a, b; cbn; intro H; (reflexivity || discriminate H)|intros ->; reflexivity]. Qed.
Lemma st_code_eq : forall a b, (st_code a =? st_code b)%N = true <-> a = b.
Proof. intros a b. rewrite N.eqb_eq. split; [destruct a, b; cbn; intro H; (reflexivity || discriminate H)|intros ->; reflexivity]. Qed.
Lemma tri_code_eq : forall a b, (tri_code a =? tri_code b)%N = true <-> a = b.
Proof. intros a b. rewrite N.eqb_eq. split; [destruct a, b; cbn; intro H; (reflexivity || discriminate H)|intros ->; reflexivity]. Qed.

Ltac split_checks :=
  rewrite !checks_none, ?Forall_cons_iff; cbn [fst];
  rewrite ?ft_code_eq, ?st_code_eq, ?tri_code_eq, ?String.eqb_eq, ?N.eqb_eq, ?Nat.eqb_eq, ?Bool.eqb_true_iff.

Lemma equal_filter_iff : forall d j, equal_filter d j = None <-> filter_alike d j.
Proof.
  induction d as [ty de pa sc ne na | ty de pa sc ne na f g IF IG] using filter_def_induction;
    intros [ty' de' pa' sc' ne' na' q]; cbn [equal_filter fd_type fd_desc fd_pattern fd_scope fd_negate fd_ifna fd_poly
      jf_type jf_desc jf_pattern jf_scope jf_negate jf_ifna jf_poly]; rewrite also_none; split_checks.
  - split.
    + intros [(-> & -> & -> & -> & -> & -> & _) _]. constructor. left. reflexivity.
    + intro H. inversion H; subst. repeat split; try reflexivity; constructor.
  - destruct q as [[f' g']|].
    + rewrite also_none, IF, IG. split.
      * intros [(-> & -> & -> & -> & -> & -> & _) [A B]]. constructor; assumption.
      * intro H. inversion H as [? ? ? ? ? ? ? ? K|]; subst; [destruct K as [K|K]; discriminate K|].
        repeat split; try reflexivity; try assumption; constructor.
    + split.
      * intros [(-> & -> & -> & -> & -> & -> & _) _]. constructor. right. reflexivity.
      * intro H. inversion H; subst. repeat split; try reflexivity; constructor.
Qed.
Lemma equal_ptr_iff : forall A B (eq : A -> B -> option error) (R : A -> B -> Prop),
  (forall a b, eq a b = None <-> R a b) -> forall a b, equal_ptr eq a b = None <-> both R a b.
Proof.
  intros A B eq R H [x|] [y|]; cbn; [apply H| | |]; split; intro K; (exact I || discriminate K || reflexivity || destruct K).
Qed.
Lemma equal_options_iff : forall o j, equal_options o j = None <-> alike_options o j.
Proof.
  intros o j. unfold equal_options. rewrite !also_none.
  rewrite !(equal_ptr_iff _ _ _ _ equal_filter_iff).
  rewrite (equal_ptr_iff _ _ equal_child (fun d c => d = mkChildDef (jc_type c) (jc_desc c) (jc_pattern c) (jc_negate c))).
  2:{ intros [? ? ? ?] [? ? ? ?]. unfold equal_child. split_checks. cbn. split.
      - intros (-> & -> & -> & -> & _). reflexivity.
      - intro E. inversion E. repeat split; constructor. }
  rewrite (equal_ptr_iff _ _ equal_sample (fun d c =>
      sd_type d = js_type c /\ sd_desc d = js_desc c /\ sd_pattern d = js_pattern c /\
      sd_scope d = js_scope c /\ sd_negate d = js_negate c /\
      match sd_poly d, js_poly c with
      | Some a, Some b => filter_alike (fst a) (fst b) /\ filter_alike (snd a) (snd b)
      | _, _ => True
      end)).
  2:{ intros [? ? ? ? ? p ?] [? ? ? ? ? q]. unfold equal_sample. rewrite also_none. split_checks. cbn.
      assert (K : match p with
                  | Some (f, g) => match q with
                                   | Some (jf, jg) => also (equal_filter f jf) (equal_filter g jg)
                                   | None => None end
                  | None => None end = None <->
                  match p with
                  | Some a => match q with
                              | Some b => filter_alike (fst a) (fst b) /\ filter_alike (snd a) (snd b)
                              | None => True end
                  | None => True end).
      { destruct p as [[f g]|], q as [[f' g']|]; try (split; intro; (exact I || reflexivity)).
        rewrite also_none, !equal_filter_iff. reflexivity. }
      rewrite K. intuition. }
  unfold equal_behaviours, equal_sampling. split_checks.
  destruct o as [[? ? ? ? ?] [? ? ? ?] fo [? ? ? ?] co ev hk df], j as [[? ? ? ? ?] [? ? ? ?] ? ? ? [? ? ? ?] ?].
  unfold alike_options, options_agree. cbn. split.
  - intros (A & B & C & D & E & F & G & H).
    destruct A as (-> & -> & -> & -> & -> & _). destruct B as (-> & -> & -> & -> & _).
    destruct H as (-> & -> & -> & _).
    repeat split; assumption.
  - intros (A & B & C & D & E & F & G & H & I & J). inversion A. inversion B. subst.
    repeat split; try assumption; try constructor.
Qed.

Lemma to_json_alike : forall d, filter_alike d (filter_to_json d).
Proof.
  induction d as [ty de pa sc ne na | ty de pa sc ne na f g IF IG] using filter_def_induction; cbn.
  - constructor. left. reflexivity.
  - constructor; assumption.
Qed.
Lemma both_map : forall A B (R : A -> B -> Prop) f, (forall a, R a (f a)) -> forall x, both R x (option_map f x).
Proof. intros A B R f H [a|]; cbn; [apply H|exact I]. Qed.
Lemma both_map_l : forall A B (R : B -> A -> Prop) f, (forall a, R (f a) a) -> forall x, both R (option_map f x) x.
Proof. intros A B R f H [a|]; cbn; [apply H|exact I]. Qed.
Lemma equal_to_json : forall o, equal_options o (to_json o) = None.
Proof.
  intro o. apply equal_options_iff.
  destruct o as [[? ? ? ? ?] [? ? ? ?] [fn fc fs fcu] [wa sl iw is] [? ? ? ?] ev hk df].
  unfold alike_options, options_agree, to_json. cbn -[option_map]. repeat split;
    try (apply both_map; intros; try apply to_json_alike).
  - destruct a; reflexivity.
  - destruct a as [? ? ? ? ? [[? ?]|] ?]; cbn; repeat split.
Qed.
Lemma equal_from_json : forall env j, equal_options (from_json env j) j = None.
Proof.
  intros env j. apply equal_options_iff.
  destruct j as [[? ? ? ? ?] [? ? ? ?] n c s [? ? ? ?] w].
  unfold alike_options, options_agree, from_json. cbn -[option_map default_options]. repeat split;
    try (apply both_map_l; intros; try (rewrite <- (filter_from_to a) at 2; apply to_json_alike)).
  - destruct a; reflexivity.
  - destruct a as [? ? ? ? ? [[? ?]|]]; cbn; repeat split.
Qed.

(** ** Marshal and Unmarshal *)
Lemma marshal_writes : forall o a w,
  marshal o a w = (Some (JObj [("Active", enc_active a); ("JO", enc_options (to_json o))]%string), w).
Proof. intros. unfold marshal. rewrite equal_to_json. reflexivity. Qed.
Lemma unmarshal_marshalled : forall env o a,
  unmarshal env (JObj [("Active", enc_active a); ("JO", enc_options (to_json o))]%string) =
  Ret (inl (Some (clean_active (kept_state a)), from_json env (clean_joptions (to_json o)), None)).
Proof.
  intros env o a. unfold unmarshal.
  assert (D : dec_result (JObj [("Active", enc_active a); ("JO", enc_options (to_json o))]%string) =
              inl (Some (clean_active (kept_state a)), Some (clean_joptions (to_json o)))).
  { unfold dec_result, as_struct. cbn -[enc_active enc_options dec_active dec_options as_ptr].
    unfold as_ptr at 1. unfold enc_active at 1. fold (enc_active a). rewrite dec_enc_active.
    cbn -[enc_active enc_options dec_active dec_options as_ptr].
    unfold as_ptr at 1. unfold enc_options at 1. fold (enc_options (to_json o)). rewrite dec_enc_options. reflexivity. }
  rewrite D, equal_from_json. reflexivity.
Qed.

Lemma round_trip : forall env o a,
  Forall utf8 (option_texts o) -> utf8 (sv_tree (ac_saved a)) -> utf8 (sv_path (ac_saved a)) ->
  exists v, marshal o a None = (Some v, None) /\
            unmarshal env v = Ret (inl (Some (kept_state a), carried env o, None)).
Proof.
  intros env o a U T P. eexists. split; [apply marshal_writes|].
  rewrite unmarshal_marshalled, clean_options_id, from_to_json by exact U.
  rewrite clean_active_id by assumption. reflexivity.
Qed.
Lemma unmarshal_never_unequal : forall env v a o e, unmarshal env v = Ret (inl (a, o, e)) -> e = None.
Proof.
  intros env v a o e H. unfold unmarshal in H.
  destruct (dec_result v) as [[a1 [jo|]]|e1]; [|discriminate H|discriminate H].
  rewrite equal_from_json in H. inversion H. reflexivity.
Qed.
Lemma resume_loads : forall env o a settings,
  Forall utf8 (option_texts o) -> utf8 (sv_tree (ac_saved a)) -> utf8 (sv_path (ac_saved a)) ->
  exists v, marshal o a None = (Some v, None) /\
    resume_load env v settings =
    Ret (inl (Some (kept_state a), fst (apply settings (carried env o)), snd (apply settings (carried env o)))).
Proof.
  intros env o a settings U T P. destruct (round_trip env o a U T P) as (v & M & L).
  exists v. split; [exact M|]. unfold resume_load. rewrite L. unfold bind_options.
  replace (push_options (carried env o)) with (carried env o) by reflexivity.
  destruct (apply settings (carried env o)) as [o1 e]. reflexivity.
Qed.
Lemma filter_same_iff : forall d j, filter_same d j <-> j = filter_to_json d.
Proof.
  induction d as [ty de pa sc ne na | ty de pa sc ne na f g IF IG] using filter_def_induction; intros j; split; intro H.
  - inversion H; subst. reflexivity.
  - subst j. constructor.
  - inversion H; subst. cbn. f_equal. f_equal. f_equal; [apply IF|apply IG]; assumption.
  - subst j. cbn. constructor; [apply IF|apply IG]; reflexivity.
Qed.
Lemma same_alike : forall d j, filter_same d j -> filter_alike d j.
Proof. intros d j H. apply filter_same_iff in H. subst j. apply to_json_alike. Qed.
