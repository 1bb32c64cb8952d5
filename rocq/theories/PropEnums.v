(** Property C112: the texts of the enumerations. Vocabulary: SpecEnums.v. *)
From Verif Require Import Base Enums SpecEnums.
From Coq Require Import ZArith Lia DecimalString DecimalZ.
Local Open Scope string_scope.

(** ** Lemmas *)
Lemma to_int_nonempty : forall z, Z.to_int z <> Decimal.Pos Decimal.Nil /\ Z.to_int z <> Decimal.Neg Decimal.Nil.
Proof.
  intro z. split; intro E; pose proof (DecimalZ.of_to z) as O; rewrite E in O; cbn in O; subst z; discriminate.
Qed.
Lemma format_int_inj : forall a b, format_int a = format_int b -> a = b.
Proof.
  intros a b E. unfold format_int in E. apply (f_equal NilZero.int_of_string) in E.
  destruct (to_int_nonempty a), (to_int_nonempty b). rewrite !NilZero.isi in E by assumption. injection E as E.
  rewrite <- (DecimalZ.of_to a), <- (DecimalZ.of_to b), E. reflexivity.
Qed.
Lemma append_inj_l : forall p a b, p ++ a = p ++ b -> a = b.
Proof. induction p; cbn; intros a' b E; [exact E|]. injection E. apply IHp. Qed.
Lemma append_inj_r : forall a b c, a ++ c = b ++ c -> a = b.
Proof.
  assert (L : forall a b, String.length (a ++ b) = (String.length a + String.length b)%nat) by (induction a; cbn; intros; [reflexivity|f_equal; auto]).
  induction a as [|x a IH]; intros [|y b] c E; [reflexivity|..].
  - exfalso. apply (f_equal String.length) in E. cbn in E. rewrite L in E. lia.
  - exfalso. apply (f_equal String.length) in E. cbn in E. rewrite L in E. lia.
  - cbn in E. injection E as -> E. f_equal. eapply IH, E.
Qed.
Lemma to_int64_inj : forall a b, (0 <= a < 2 ^ 64)%Z -> (0 <= b < 2 ^ 64)%Z -> to_int64 a = to_int64 b -> a = b.
Proof. intros a b A B. unfold to_int64. destruct (Z.ltb_spec a (2 ^ 63)), (Z.ltb_spec b (2 ^ 63)); lia. Qed.

(** What is computed for each enumeration. *)
Fixpoint paren (s : string) : bool :=
  match s with EmptyString => false | String c r => Ascii.eqb c "("%char || paren r end.
Lemma paren_app : forall a b, paren (a ++ b) = paren a || paren b.
Proof. induction a; cbn; intros; [reflexivity|]. rewrite IHa, orb_assoc. reflexivity. Qed.
Definition texts_ok (p : enum * list string) : bool :=
  let '(e, ds) := p in
  Nat.eqb (length (en_index e) - 1) (length ds) &&
  (Z.eqb (en_bits e) 64 || Z.eqb (en_bits e) 32) && (Z.eqb (en_first e) 0 || Z.eqb (en_first e) 1) &&
  Nat.ltb (length ds) 20 &&
  forallb (fun k => match slice (en_name e) (nth k (en_index e) 0) (nth (k + 1) (en_index e) 0), nth_error ds k with
                    | Ret s, Some s' => String.eqb s s' && negb (paren s)
                    | _, _ => false
                    end) (seq 0 (length ds)).
Lemma texts_all_ok : forallb texts_ok documented_texts = true.
Proof. vm_compute. reflexivity. Qed.

Section One.
Variable e : enum.
Variable ds : list string.
Hypothesis IN : In (e, ds) documented_texts.
Lemma one_ok : length (en_index e) - 1 = length ds /\ (en_bits e = 64%Z \/ en_bits e = 32%Z) /\ (0 <= en_first e <= 1)%Z /\
  length ds < 20 /\
  forall k s, nth_error ds k = Some s ->
    slice (en_name e) (nth k (en_index e) 0) (nth (k + 1) (en_index e) 0) = Ret s /\ paren s = false.
Proof.
  pose proof (proj1 (forallb_forall _ _) texts_all_ok _ IN) as K. unfold texts_ok in K. repeat (apply andb_prop in K; destruct K as [K ?]).
  apply Nat.eqb_eq in K. split; [exact K|].
  split. { apply orb_prop in H2. destruct H2 as [X|X]; apply Z.eqb_eq in X; auto. }
  split. { apply orb_prop in H1. destruct H1 as [X|X]; apply Z.eqb_eq in X; lia. }
  split. { apply Nat.ltb_lt, H0. }
  intros k s E. assert (KL : k < length ds) by (apply nth_error_Some; congruence).
  pose proof (proj1 (forallb_forall _ _) H k) as F. rewrite in_seq in F. specialize (F ltac:(lia)). rewrite E in F.
  destruct (slice _ _ _) as [s'|p|]; try discriminate. apply andb_prop in F. destruct F as [F1 F2].
  apply String.eqb_eq in F1. subst s'. split; [reflexivity|]. destruct (paren s); [discriminate|reflexivity].
Qed.
Lemma bits_pos : (0 < 2 ^ 32 <= 2 ^ en_bits e)%Z /\ (2 ^ en_bits e <= 2 ^ 64)%Z.
Proof. destruct one_ok as (_ & [-> | ->] & _); lia. Qed.
Lemma declared_text : forall k s, nth_error ds k = Some s -> enum_string e (en_first e + Z.of_nat k) = Ret s.
Proof.
  intros k s E. destruct one_ok as (L & _ & F & S & T). destruct bits_pos as [B _].
  assert (KL : k < length ds) by (apply nth_error_Some; congruence).
  assert (SM : (20 < 2 ^ 32)%Z) by reflexivity.
  unfold enum_string. replace (en_first e + Z.of_nat k - en_first e)%Z with (Z.of_nat k) by lia.
  rewrite Z.mod_small by lia. rewrite L. destruct (Z.geb_spec (Z.of_nat k) (Z.of_nat (length ds))); [lia|].
  rewrite Nat2Z.id. apply T, E.
Qed.
Lemma undeclared_text : forall i, value_of e i -> ~ (en_first e <= i < en_first e + Z.of_nat (length ds))%Z ->
  enum_string e i = Ret (en_type e ++ "(" ++ format_int (to_int64 i) ++ ")").
Proof.
  intros i V N. destruct one_ok as (L & _ & F & S & T). destruct bits_pos as [B _]. assert (SM : (20 < 2 ^ 32)%Z) by reflexivity.
  unfold value_of in V. unfold enum_string. rewrite L.
  assert (J : (((i - en_first e) mod 2 ^ en_bits e + en_first e) mod 2 ^ en_bits e = i)%Z).
  { rewrite Zplus_mod_idemp_l. replace (i - en_first e + en_first e)%Z with i by lia. apply Z.mod_small. lia. }
  rewrite J. destruct (Z.geb_spec ((i - en_first e) mod 2 ^ en_bits e) (Z.of_nat (length ds))); [reflexivity|]. exfalso. apply N.
  destruct (Z_lt_le_dec i (en_first e)) as [LT|GE].
  - assert (X : ((i - en_first e) mod 2 ^ en_bits e = i - en_first e + 2 ^ en_bits e)%Z).
    { symmetry. apply Z.mod_unique with (q := (-1)%Z); lia. }
    rewrite X in *. lia.
  - rewrite Z.mod_small in * by lia. lia.
Qed.
Lemma text_cases : forall i, value_of e i ->
  (exists k s, i = (en_first e + Z.of_nat k)%Z /\ nth_error ds k = Some s /\ enum_string e i = Ret s /\ paren s = false) \/
  (~ (en_first e <= i < en_first e + Z.of_nat (length ds))%Z /\
   enum_string e i = Ret (en_type e ++ "(" ++ format_int (to_int64 i) ++ ")")).
Proof.
  intros i V. destruct (Z_le_gt_dec (en_first e) i) as [A|A]; [destruct (Z_lt_le_dec i (en_first e + Z.of_nat (length ds))) as [B|B]|].
  - left. exists (Z.to_nat (i - en_first e)). destruct (nth_error ds (Z.to_nat (i - en_first e))) as [s|] eqn:E.
    + exists s. replace (en_first e + Z.of_nat (Z.to_nat (i - en_first e)))%Z with i by lia. repeat split.
      * rewrite <- (declared_text _ _ E). f_equal. lia.
      * destruct one_ok as (_ & _ & _ & _ & T). apply (T _ _ E).
    + apply nth_error_None in E. lia.
  - right. split; [lia|]. apply undeclared_text; [exact V|lia].
  - right. split; [lia|]. apply undeclared_text; [exact V|lia].
Qed.
Lemma texts_differ : NoDup ds -> forall i j, value_of e i -> value_of e j -> i <> j -> enum_string e i <> enum_string e j.
Proof.
  intros ND i j VI VJ N E. destruct bits_pos as [B1 B2].
  assert (P : forall z, paren (en_type e ++ "(" ++ format_int z ++ ")") = true)
    by (intro z; rewrite !paren_app; cbn; rewrite orb_true_r; reflexivity).
  destruct (text_cases i VI) as [(k & s & -> & E1 & R1 & Q1)|(_ & R1)]; destruct (text_cases j VJ) as [(k' & s' & -> & E2 & R2 & Q2)|(_ & R2)];
    rewrite R1, R2 in E; apply (f_equal (fun o => match o with Ret x => x | _ => "" end)) in E; cbv beta iota in E.
  - subst s'. apply N. f_equal. f_equal. apply (proj1 (NoDup_nth_error ds) ND); [apply nth_error_Some; congruence|congruence].
  - rewrite E, P in Q1. discriminate.
  - rewrite <- E, P in Q2. discriminate.
  - apply append_inj_l in E. injection E as E. apply append_inj_r, format_int_inj, to_int64_inj in E; unfold value_of in *; lia.
Qed.
End One.

(** *** C112 *)
(** Whatever the value, there is a text: a declared value has the documented one,
    another has the type's name and the number. *)
Theorem c112_always_a_text : forall e ds i, In (e, ds) documented_texts -> value_of e i -> exists s, enum_string e i = Ret s.
Proof. intros e ds i IN V. destruct (text_cases e ds IN i V) as [(k & s & _ & _ & E & _)|(_ & E)]; eauto. Qed.
Print Assumptions c112_always_a_text.
Theorem c112_documented_text : forall e ds k s, In (e, ds) documented_texts -> nth_error ds k = Some s ->
  enum_string e (en_first e + Z.of_nat k) = Ret s.
Proof. intros e ds k s IN. apply (declared_text e ds IN). Qed.
Print Assumptions c112_documented_text.
Theorem c112_undeclared_text : forall e ds i, In (e, ds) documented_texts -> value_of e i -> (i < 2 ^ 63)%Z ->
  ~ (en_first e <= i < en_first e + Z.of_nat (length ds))%Z ->
  enum_string e i = Ret (en_type e ++ "(" ++ format_int i ++ ")").
Proof.
  intros e ds i IN V S N. rewrite (undeclared_text e ds IN i V N). unfold to_int64. destruct (Z.ltb_spec i (2 ^ 63)); [reflexivity|lia].
Qed.
Print Assumptions c112_undeclared_text.
(** Different values have different texts, except metrics. *)
Theorem c112_texts_differ : forall e ds i j, In (e, ds) documented_texts -> en_type e <> "Metric" ->
  value_of e i -> value_of e j -> i <> j -> enum_string e i <> enum_string e j.
Proof.
  intros e ds i j IN M VI VJ N. apply (texts_differ e ds IN); [|assumption..].
  cbn in IN. repeat (destruct IN as [IN|IN]; [injection IN as <- <-; try (exfalso; apply M; reflexivity);
    repeat constructor; cbn; intuition discriminate|]). contradiction.
Qed.
Print Assumptions c112_texts_differ.
(** Refuted for metrics: MetricNoChildFilesFound and MetricNoChildFilesFilteredOut
    have the same text; *)
Theorem c112_metrics_share_text_refuted :
  enum_string metric 5 = Ret "metric-no-of-child-files-found" /\ enum_string metric 6 = enum_string metric 5.
Proof. split; vm_compute; reflexivity. Qed.
Print Assumptions c112_metrics_share_text_refuted.
(** and for notifications: those documented as begin-notification, ... are
    printed as numbers. *)
Theorem c112_notifications_are_numbers_refuted : forall i, (0 < i < 2 ^ 32)%Z ->
  enum_string notification i = Ret ("Notification(" ++ format_int i ++ ")").
Proof.
  intros i R. rewrite (c112_undeclared_text notification ["undefined-notification"]).
  - reflexivity.
  - cbn. tauto.
  - unfold value_of. cbn [en_bits notification]. lia.
  - lia.
  - cbn [en_first notification length]. lia.
Qed.
Print Assumptions c112_notifications_are_numbers_refuted.
(** Scopes: the single ones have the documented text, every combination is
    printed as a number; all are different. *)
Theorem c112_scope_text : forall i s, In (i, s) scope_texts -> filter_scope_string i = Ret s.
Proof. intros i s IN. cbn in IN. repeat (destruct IN as [IN|IN]; [injection IN as <- <-; vm_compute; reflexivity|]). contradiction. Qed.
Print Assumptions c112_scope_text.
Theorem c112_scope_number : forall i, (0 <= i < 2 ^ 32)%Z -> ~ In i (map fst scope_texts) ->
  filter_scope_string i = Ret ("FilterScope(" ++ format_int i ++ ")").
Proof.
  intros i R N. cbn [map scope_texts fst In] in N. unfold filter_scope_string.
  destruct (Z.leb_spec i 2); [exfalso; apply N; lia|].
  destruct (Z.eqb_spec i 4); [exfalso; apply N; lia|]. destruct (Z.eqb_spec i 8); [exfalso; apply N; lia|].
  destruct (Z.eqb_spec i 16); [exfalso; apply N; lia|]. destruct (Z.eqb_spec i 32); [exfalso; apply N; lia|].
  destruct (Z.eqb_spec i 64); [exfalso; apply N; lia|].
  unfold to_int64. destruct (Z.ltb_spec i (2 ^ 63)); [reflexivity|lia].
Qed.
Print Assumptions c112_scope_number.
Theorem c112_scopes_differ : forall i j, (0 <= i < 2 ^ 32)%Z -> (0 <= j < 2 ^ 32)%Z -> i <> j ->
  filter_scope_string i <> filter_scope_string j.
Proof.
  assert (D : forall i, In i (map fst scope_texts) \/ ~ In i (map fst scope_texts)) by (intro i; destruct (in_dec Z.eq_dec i (map fst scope_texts)); auto).
  assert (T : forall i, In i (map fst scope_texts) -> exists s, In (i, s) scope_texts /\ filter_scope_string i = Ret s /\ paren s = false).
  { intros i I. cbn in I. repeat (destruct I as [<-|I]; [eexists; split; [cbn; tauto|split; vm_compute; reflexivity]|]). contradiction. }
  assert (P : forall z, paren ("FilterScope(" ++ format_int z ++ ")") = true) by reflexivity.
  intros i j RI RJ N E. destruct (D i) as [I|I], (D j) as [J|J].
  - cbn in I, J. repeat (destruct I as [<-|I]; [repeat (destruct J as [<-|J]; [(apply N; reflexivity) || (vm_compute in E; discriminate E)|]); contradiction|]). contradiction.
  - destruct (T i I) as (s & _ & E1 & Q). rewrite E1, (c112_scope_number j RJ J) in E.
    apply (f_equal (fun o => match o with Ret x => x | _ => "" end)) in E; cbv beta iota in E. rewrite E, P in Q. discriminate.
  - destruct (T j J) as (s & _ & E1 & Q). rewrite E1, (c112_scope_number i RI I) in E.
    apply (f_equal (fun o => match o with Ret x => x | _ => "" end)) in E; cbv beta iota in E. rewrite <- E, P in Q. discriminate.
  - rewrite (c112_scope_number i RI I), (c112_scope_number j RJ J) in E.
    apply (f_equal (fun o => match o with Ret x => x | _ => "" end)) in E; cbv beta iota in E. apply append_inj_l, append_inj_r, format_int_inj in E. exact (N E).
Qed.
Print Assumptions c112_scopes_differ.
Example c112_case :
  In (role_enum, ["undefined-role"; "anchor-role"; "client-filter-role"; "hibernate-role"; "sampler-role"; "nanny-role"; "fastward-role"]) documented_texts /\
  enum_string role_enum 2 = Ret "client-filter-role" /\ enum_string role_enum 7 = Ret "Role(7)" /\
  enum_string metric 0 = Ret "Metric(0)" /\ enum_string metric 1 = Ret "metric-no-of-files" /\
  enum_string entry_type (2 ^ 64 - 1) = Ret "EntryType(-1)" /\ value_of entry_type (2 ^ 64 - 1) /\
  filter_scope_string 48 = Ret "FilterScope(48)".
Proof. split; [cbn; tauto|]. repeat split; try (vm_compute; reflexivity). vm_compute. discriminate. Qed.
