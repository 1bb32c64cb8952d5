(** Proofs about the collections package and the slice helpers. *)
From Verif Require Import Base Lo Collections SpecCollections.
From Coq Require Import Permutation.

(** ** Slice helpers as list functions *)
Section LoFacts.
Context {V R K : Type}.

Definition indexed (l : list V) : list (V * nat) := combine l (seq 0 (length l)).
Definition indexed_from (i : nat) (l : list V) : list (V * nat) := combine l (seq i (length l)).

Lemma lo_filter_from_eq : forall (p : V -> nat -> bool) l i acc,
  lo_filter_from i p l acc =
  acc ++ map fst (filter (fun x => p (fst x) (snd x)) (indexed_from i l)).
Proof.
  induction l as [|x l IH]; intros i acc; cbn.
  - rewrite app_nil_r. reflexivity.
  - rewrite IH. unfold indexed_from. destruct (p x i); cbn; [rewrite <- app_assoc|]; reflexivity.
Qed.

Lemma lo_reject_from_eq : forall (p : V -> nat -> bool) l i acc,
  lo_reject_from i p l acc =
  acc ++ map fst (filter (fun x => negb (p (fst x) (snd x))) (indexed_from i l)).
Proof.
  induction l as [|x l IH]; intros i acc; cbn.
  - rewrite app_nil_r. reflexivity.
  - rewrite IH. unfold indexed_from. destruct (p x i); cbn; [|rewrite <- app_assoc]; reflexivity.
Qed.

Lemma lo_map_from_eq : forall (f : V -> nat -> R) l i acc,
  lo_map_from i f l acc = acc ++ map (fun x => f (fst x) (snd x)) (indexed_from i l).
Proof.
  induction l as [|x l IH]; intros i acc; cbn.
  - rewrite app_nil_r. reflexivity.
  - rewrite IH, <- app_assoc. reflexivity.
Qed.

Lemma lo_reduce_from_eq : forall (f : R -> V -> nat -> R) l i acc,
  lo_reduce_from i f l acc = fold_left (fun a x => f a (fst x) (snd x)) (indexed_from i l) acc.
Proof.
  induction l as [|x l IH]; intros i acc; cbn; [reflexivity|]. apply IH.
Qed.

(** With predicates that ignore the index. *)
Lemma lo_filter_plain : forall (p : V -> bool) l,
  lo_filter l (fun x _ => p x) = filter p l.
Proof.
  intros p l. unfold lo_filter.
  assert (A : forall l i acc, lo_filter_from i (fun x _ => p x) l acc = acc ++ filter p l).
  { clear l. induction l as [|x l IH]; intros i acc; cbn.
    - rewrite app_nil_r. reflexivity.
    - rewrite IH. destruct (p x); cbn; [rewrite <- app_assoc|]; reflexivity. }
  apply A.
Qed.
Lemma lo_reject_plain : forall (p : V -> bool) l,
  lo_reject l (fun x _ => p x) = filter (fun x => negb (p x)) l.
Proof.
  intros p l. unfold lo_reject.
  assert (A : forall l i acc, lo_reject_from i (fun x _ => p x) l acc =
                              acc ++ filter (fun x => negb (p x)) l).
  { clear l. induction l as [|x l IH]; intros i acc; cbn.
    - rewrite app_nil_r. reflexivity.
    - rewrite IH. destruct (p x); cbn; [|rewrite <- app_assoc]; reflexivity. }
  apply A.
Qed.

Lemma lo_map_length : forall (f : V -> nat -> R) l, length (lo_map l f) = length l.
Proof.
  intros f l. unfold lo_map. rewrite lo_map_from_eq. cbn. rewrite map_length.
  unfold indexed_from. rewrite combine_length, seq_length. apply Nat.min_id.
Qed.

Lemma indexed_from_nth : forall l i k,
  nth_error (indexed_from i l) k = option_map (fun x => (x, i + k)) (nth_error l k).
Proof.
  induction l as [|x l IH]; intros i k.
  - destruct k; reflexivity.
  - destruct k as [|k]; cbn.
    + rewrite Nat.add_0_r. reflexivity.
    + unfold indexed_from in IH. rewrite IH. rewrite Nat.add_succ_r. reflexivity.
Qed.

Lemma lo_map_nth : forall (f : V -> nat -> R) l k,
  nth_error (lo_map l f) k = option_map (fun x => f x k) (nth_error l k).
Proof.
  intros f l k. unfold lo_map. rewrite lo_map_from_eq. cbn.
  rewrite nth_error_map, indexed_from_nth. destruct (nth_error l k); reflexivity.
Qed.

Lemma lo_mape_eq : forall zero (f : V -> nat -> R * option error) l i acc rs e,
  lo_mape_from i zero f l acc = (rs, e) ->
  match e with
  | None => rs = acc ++ map (fun x => fst (f (fst x) (snd x))) (indexed_from i l) /\
            forall k x, nth_error l k = Some x -> snd (f x (i + k)) = None
  | Some er =>
      exists k x, nth_error l k = Some x /\ snd (f x (i + k)) = Some er /\
        (forall j y, j < k -> nth_error l j = Some y -> snd (f y (i + j)) = None) /\
        rs = acc ++ map (fun x => fst (f (fst x) (snd x))) (indexed_from i (firstn (S k) l))
             ++ repeat zero (length l - S k)
  end.
Proof.
  intros zero f. induction l as [|x l IH]; cbn; intros i acc rs e H.
  - inversion H; subst. rewrite app_nil_r. split; [reflexivity|]. intros k x E. destruct k; discriminate.
  - destruct (f x i) as [r [er|]] eqn:F.
    + inversion H; subst. exists 0, x. split; [reflexivity|]. rewrite Nat.add_0_r, F.
      split; [reflexivity|]. split; [intros j y LT; lia|].
      unfold indexed_from. cbn. rewrite Nat.sub_0_r. reflexivity.
    + specialize (IH _ _ _ _ H). destruct e as [er|].
      * destruct IH as (k & y & N & S1 & B & E). exists (S k), y.
        rewrite Nat.add_succ_r. split; [exact N|]. split; [exact S1|]. split.
        -- intros [|j] z LT NZ; cbn in NZ.
           ++ inversion NZ; subst. rewrite Nat.add_0_r; try rewrite F; reflexivity.
           ++ rewrite Nat.add_succ_r. apply (B j z); [lia|exact NZ].
        -- rewrite E. unfold indexed_from. cbn [firstn length seq combine map fst snd].
           try rewrite F. cbn [fst]. rewrite <- !app_assoc. reflexivity.
      * destruct IH as (E & N). split.
        -- rewrite E. unfold indexed_from. cbn [length seq combine map fst snd]. try rewrite F.
           cbn [fst]. rewrite <- app_assoc. reflexivity.
        -- intros [|k] y NY; cbn in NY.
           ++ inversion NY; subst. rewrite Nat.add_0_r; try rewrite F; reflexivity.
           ++ rewrite Nat.add_succ_r. apply (N k y NY).
Qed.

Lemma lo_every_by_eq : forall (p : V -> bool) l, lo_every_by l p = forallb p l.
Proof. induction l as [|x l IH]; cbn; [reflexivity|]. destruct (p x); cbn; auto. Qed.

Lemma lo_find_eq : forall (p : V -> bool) l, lo_find l p = find p l.
Proof. induction l as [|x l IH]; cbn; [reflexivity|]. destruct (p x); auto. Qed.

Lemma lo_last_eq : forall l : list V,
  lo_last l = match rev l with [] => None | x :: _ => Some x end.
Proof.
  intro l. unfold lo_last. destruct l as [|x l] using rev_ind; [reflexivity|].
  rewrite rev_app_distr, app_length. cbn [length rev app].
  destruct (Nat.eqb_spec (length l + 1) 0); [lia|].
  replace (length l + 1 - 1) with (length l) by lia.
  rewrite nth_error_app2 by lia. rewrite Nat.sub_diag. reflexivity.
Qed.

Variable veqb : V -> V -> bool.
Hypothesis veqb_spec : forall x y, reflect (x = y) (veqb x y).

Lemma veqb_refl : forall x, veqb x x = true.
Proof. intro x. destruct (veqb_spec x x); congruence. Qed.
Lemma veqb_sym : forall x y, veqb x y = veqb y x.
Proof. intros x y. destruct (veqb_spec x y), (veqb_spec y x); congruence. Qed.

Lemma mem_spec : forall x l, existsb (veqb x) l = true <-> In x l.
Proof.
  intros x l. rewrite existsb_exists. split.
  - intros (y & I & E). destruct (veqb_spec x y); [subst; exact I|discriminate].
  - intro I. exists x. split; [exact I|apply veqb_refl].
Qed.

Lemma lo_contains_eq : forall l x, lo_contains veqb l x = existsb (veqb x) l.
Proof.
  induction l as [|y l IH]; intro x; cbn; [reflexivity|].
  rewrite (veqb_sym y x). destruct (veqb x y); cbn; auto.
Qed.

Lemma filter_filter : forall (f g : V -> bool) l,
  filter f (filter g l) = filter (fun x => g x && f x) l.
Proof.
  induction l as [|x l IH]; cbn; [reflexivity|].
  destruct (g x); cbn; [destruct (f x)|]; rewrite ?IH; reflexivity.
Qed.

Lemma lo_uniq_from_eq : forall l seen acc,
  lo_uniq_from veqb seen l acc =
  acc ++ filter (fun y => negb (existsb (veqb y) seen)) (once veqb l).
Proof.
  induction l as [|x l IH]; intros seen acc; cbn.
  - rewrite app_nil_r. reflexivity.
  - destruct (existsb (veqb x) seen) eqn:E; cbn.
    + rewrite IH. f_equal. rewrite filter_filter. apply filter_ext_in. intros y _.
      destruct (veqb_spec x y) as [<-|N]; cbn; [rewrite E|]; reflexivity.
    + rewrite IH, <- app_assoc. cbn. do 2 f_equal. rewrite filter_filter.
      apply filter_ext_in. intros y _. cbn. rewrite negb_orb, (veqb_sym x y). reflexivity.
Qed.
Lemma lo_uniq_once : forall l, lo_uniq veqb l = once veqb l.
Proof.
  intro l. unfold lo_uniq. rewrite lo_uniq_from_eq. cbn.
  induction (once veqb l) as [|x r IH]; cbn; [reflexivity|]. rewrite IH. reflexivity.
Qed.

Lemma once_In : forall l x, In x (once veqb l) <-> In x l.
Proof.
  induction l as [|y l IH]; intro x; cbn; [reflexivity|].
  rewrite filter_In, IH. split.
  - intros [->|[I _]]; auto.
  - intros [->|I]; [auto|]. destruct (veqb_spec y x); [auto|]. right. auto.
Qed.
Lemma once_NoDup : forall l, NoDup (once veqb l).
Proof.
  induction l as [|y l IH]; cbn; constructor.
  - rewrite filter_In. intros [_ N]. rewrite veqb_refl in N. discriminate.
  - apply NoDup_filter. exact IH.
Qed.

(** GroupBy *)
Variable keqb : K -> K -> bool.
Hypothesis keqb_spec : forall x y, reflect (x = y) (keqb x y).

Lemma gm_get_put : forall (m : list (K * list V)) k v k',
  gm_get keqb (gm_put keqb m k v) k' = if keqb k k' then v else gm_get keqb m k'.
Proof.
  induction m as [|[k1 v1] m IH]; intros k v k'; cbn; [reflexivity|].
  destruct (keqb_spec k1 k) as [->|N]; cbn.
  - destruct (keqb_spec k k'); reflexivity.
  - rewrite IH. destruct (keqb_spec k1 k') as [->|N'].
    + destruct (keqb_spec k k'); [congruence|reflexivity].
    + reflexivity.
Qed.

Lemma lo_group_from_get : forall (f : V -> K) l m k,
  gm_get keqb (lo_group_from keqb f l m) k =
  gm_get keqb m k ++ filter (fun x => keqb (f x) k) l.
Proof.
  intros f. induction l as [|x l IH]; intros m k; cbn; [rewrite app_nil_r; reflexivity|].
  rewrite IH, gm_get_put. destruct (keqb_spec (f x) k) as [<-|N]; cbn.
  - rewrite <- app_assoc. reflexivity.
  - reflexivity.
Qed.

Lemma gm_put_keys : forall (m : list (K * list V)) k v,
  map fst (gm_put keqb m k v) =
  if existsb (keqb k) (map fst m) then map fst m else map fst m ++ [k].
Proof.
  induction m as [|[k1 v1] m IH]; intros k v; cbn; [reflexivity|].
  destruct (keqb_spec k1 k) as [->|N]; cbn.
  - destruct (keqb_spec k k); [reflexivity|congruence].
  - destruct (keqb_spec k k1) as [->|_]; [congruence|]. cbn. rewrite IH.
    destruct (existsb (keqb k) (map fst m)); reflexivity.
Qed.
Lemma existsb_keqb_In : forall k l, existsb (keqb k) l = true <-> In k l.
Proof.
  intros k l. rewrite existsb_exists. split.
  - intros (y & I & E). destruct (keqb_spec k y); [subst; exact I|discriminate].
  - intro I. exists k. split; [exact I|]. destruct (keqb_spec k k); congruence.
Qed.
Lemma lo_group_keys : forall (f : V -> K) l m,
  NoDup (map fst m) ->
  NoDup (map fst (lo_group_from keqb f l m)) /\
  (forall k, In k (map fst (lo_group_from keqb f l m)) <->
             In k (map fst m) \/ exists x, In x l /\ f x = k).
Proof.
  intros f. induction l as [|x l IH]; intros m ND; cbn.
  - split; [exact ND|]. intro k. split; [auto|]. intros [H|(x & [] & _)]; exact H.
  - set (m1 := gm_put keqb m (f x) (gm_get keqb m (f x) ++ [x])).
    assert (KM : map fst m1 = if existsb (keqb (f x)) (map fst m) then map fst m else map fst m ++ [f x])
      by apply gm_put_keys.
    assert (ND1 : NoDup (map fst m1)).
    { rewrite KM. destruct (existsb (keqb (f x)) (map fst m)) eqn:E; [exact ND|].
      apply (Permutation_NoDup (Permutation_cons_append (map fst m) (f x))).
      constructor; [|exact ND]. intro I. apply existsb_keqb_In in I. congruence. }
    assert (IN1 : forall k, In k (map fst m1) <-> In k (map fst m) \/ f x = k).
    { intro k. rewrite KM. destruct (existsb (keqb (f x)) (map fst m)) eqn:E.
      - apply existsb_keqb_In in E. split; [auto|]. intros [H|<-]; assumption.
      - rewrite in_app_iff. cbn. tauto. }
    destruct (IH m1 ND1) as [A B]. split; [exact A|].
    intro k. rewrite B, IN1. split.
    + intros [[H|H]|(y & I & E)]; [auto|right; exists x; auto|right; exists y; auto].
    + intros [H|(y & [->|I] & E)]; [auto|auto|right; exists y; auto].
Qed.

Lemma lo_group_by_laws : forall (f : V -> K) l,
  NoDup (map fst (lo_group_by keqb l f)) /\
  (forall k, In k (map fst (lo_group_by keqb l f)) <-> exists x, In x l /\ f x = k) /\
  (forall k, gm_get keqb (lo_group_by keqb l f) k = filter (fun x => keqb (f x) k) l).
Proof.
  intros f l. destruct (lo_group_keys f l [] (NoDup_nil _)) as [A B].
  split; [exact A|]. split.
  - intro k. rewrite (B k). cbn. tauto.
  - intro k. apply (lo_group_from_get f l [] k).
Qed.
End LoFacts.

Lemma lo_sum_eq : forall l acc, lo_sum_from l acc = acc + fold_right Nat.add 0 l.
Proof. induction l as [|x l IH]; intro acc; cbn; [lia|]. rewrite IH. lia. Qed.

(** ** Positional set *)
Section PsFacts.
Context {A : Type}.
Variable eqb : A -> A -> bool.
Hypothesis eqb_spec : forall x y, reflect (x = y) (eqb x y).
Variable order : list A.
Variable pin : A.

Notation rk := (ranking eqb order pin).
Notation lst := (listing eqb order pin).

Lemma rk_NoDup : NoDup rk.
Proof.
  unfold ranking. apply (Permutation_NoDup (Permutation_cons_append _ pin)).
  constructor.
  - rewrite filter_In. intros [_ E]. rewrite (veqb_refl eqb eqb_spec) in E. discriminate.
  - apply NoDup_filter, (once_NoDup eqb eqb_spec).
Qed.
Lemma rk_In : forall x, In x rk <-> x = pin \/ (In x order /\ x <> pin).
Proof.
  intro x. unfold ranking. rewrite in_app_iff, filter_In, (once_In eqb eqb_spec). cbn.
  destruct (eqb_spec x pin) as [E|N]; cbn.
  - split; [auto|]. intros _. right. left. congruence.
  - split.
    + intros [[I _]|[E|[]]]; [right; auto|left; congruence].
    + intros [E|[I _]]; [congruence|left; auto].
Qed.

Lemma put_get : forall m k v k', get_pos eqb (put_pos eqb m k v) k' =
  if eqb k k' then Some v else get_pos eqb m k'.
Proof.
  induction m as [|[k1 v1] m IH]; intros k v k'; cbn; [reflexivity|].
  destruct (eqb_spec k1 k) as [->|N]; cbn.
  - destruct (eqb_spec k k'); reflexivity.
  - rewrite IH. destruct (eqb_spec k1 k') as [->|N'].
    + destruct (eqb_spec k k'); [congruence|reflexivity].
    + reflexivity.
Qed.

Lemma index_get : forall o i m x, NoDup o ->
  get_pos eqb (index_from eqb i o m) x =
  match rank_of eqb x o with Some r => Some (i + r) | None => get_pos eqb m x end.
Proof.
  induction o as [|y o IH]; intros i m x ND; cbn; [reflexivity|].
  inversion ND; subst. rewrite IH by assumption. rewrite put_get.
  destruct (eqb_spec y x) as [->|N].
  - assert (R : rank_of eqb x o = None).
    { clear - H1 eqb_spec. induction o as [|z o IH]; cbn; [reflexivity|].
      destruct (eqb_spec z x) as [->|_]; [exfalso; apply H1; left; reflexivity|].
      rewrite IH; [reflexivity|]. intro I. apply H1. right. exact I. }
    rewrite R, Nat.add_0_r. reflexivity.
  - destruct (rank_of eqb x o) as [r|]; cbn; [rewrite Nat.add_succ_r|]; reflexivity.
Qed.

Lemma rank_of_None : forall x l, rank_of eqb x l = None <-> ~ In x l.
Proof.
  induction l as [|y l IH]; cbn; [tauto|].
  destruct (eqb_spec y x) as [->|N].
  - split; [discriminate|]. intro H. exfalso. apply H. auto.
  - destruct (rank_of eqb x l); cbn; split; intro H; try discriminate.
    + exfalso. assert (H' : ~ In x l) by tauto. apply IH in H'. discriminate.
    + intros [E|I]; [congruence|]. apply IH in I; auto.
    + reflexivity.
Qed.

Definition rep (ps : pset) (s : aset) : Prop :=
  ps_order ps = rk /\ ps_anchor ps = pin /\
  (forall x, get_pos eqb (ps_positions ps) x = rank_of eqb x rk) /\
  (forall x, mem eqb x (ps_items ps) = s x || eqb x pin) /\
  NoDup (ps_items ps) /\
  (forall x, s x = true -> insertable eqb order pin x = true) /\
  (ps_invalid ps = false -> ps_cache ps = lst s).

Lemma listing_ext : forall s s', (forall x, s x = s' x) -> lst s = lst s'.
Proof. intros s s' H. apply filter_ext. intro x. rewrite H. reflexivity. Qed.

Lemma rep_new : rep (ps_new eqb order pin) (fun _ => false).
Proof.
  assert (E : lo_reject (lo_uniq eqb order) (fun item _ => eqb item pin) ++ [pin] = rk).
  { unfold ranking. rewrite (lo_reject_plain (fun x => eqb x pin)), (lo_uniq_once eqb eqb_spec).
    reflexivity. }
  unfold ps_new. rewrite E. repeat split; cbn.
  - intro x. rewrite index_get by apply rk_NoDup. cbn. destruct (rank_of eqb x rk); reflexivity.
  - intro x. unfold mem; cbn. apply orb_false_r.
  - constructor; [intros []|constructor].
  - discriminate.
  - discriminate.
Qed.

Lemma insertable_spec : forall x, insertable eqb order pin x = true <-> In x order /\ x <> pin.
Proof.
  intro x. unfold insertable. rewrite andb_true_iff, (mem_spec eqb eqb_spec), negb_true_iff.
  destruct (eqb_spec x pin); split; intros [H1 H2]; split; congruence.
Qed.

Lemma rep_insert : forall x ps s b ps1, rep ps s -> ps_insert eqb x ps = (b, ps1) ->
  exists s1, a_insert eqb order pin x s = (b, s1) /\ rep ps1 s1.
Proof.
  intros x ps s b ps1 (RO & RA & RP & RM & RN & RI & RC) H.
  unfold ps_insert in H. rewrite RA, RP in H. unfold a_insert.
  destruct (eqb_spec x pin) as [E|N].
  - inversion H; subst. unfold insertable. rewrite (veqb_refl eqb eqb_spec), andb_false_r. cbn.
    eexists; split; [reflexivity|]. repeat (split; [assumption|]). assumption.
  - destruct (rank_of eqb x rk) as [r|] eqn:R.
    + assert (I : insertable eqb order pin x = true).
      { apply insertable_spec.
        assert (IR : In x rk).
        { destruct (mem_spec eqb eqb_spec x rk) as [M _]. destruct (existsb (eqb x) rk) eqn:EX; [apply M; reflexivity|].
          exfalso. assert (NI : ~ In x rk).
          { intro I'. apply (mem_spec eqb eqb_spec) in I'. congruence. }
          apply rank_of_None in NI. congruence. }
        apply rk_In in IR. destruct IR; [congruence|assumption]. }
      rewrite RM in H. destruct (eqb_spec x pin) as [?|_]; [congruence|]. rewrite orb_false_r in H.
      rewrite I. cbn [andb].
      destruct (s x) eqn:SX; inversion H; subst; cbn [negb].
      * eexists; split; [reflexivity|]. repeat (split; [assumption|]). assumption.
      * eexists; split; [reflexivity|]. repeat split; cbn; auto.
        -- intro y. cbn. fold (mem eqb y (ps_items ps)). rewrite RM.
           rewrite (veqb_sym eqb eqb_spec y x). rewrite orb_assoc. reflexivity.
        -- constructor; [|assumption]. intro I2. apply (mem_spec eqb eqb_spec) in I2.
           fold (mem eqb x (ps_items ps)) in I2. rewrite RM, SX in I2. cbn in I2.
           destruct (eqb_spec x pin); [congruence|discriminate].
        -- intros y SY. apply orb_true_iff in SY. destruct SY as [E|SY]; [|auto].
           destruct (eqb_spec x y); [subst; exact I|discriminate].
        -- discriminate.
    + assert (I : insertable eqb order pin x = false).
      { destruct (insertable eqb order pin x) eqn:I; [|reflexivity].
        apply insertable_spec in I. apply rank_of_None in R. exfalso. apply R.
        apply rk_In. right. exact I. }
      inversion H; subst. rewrite I. cbn. eexists; split; [reflexivity|].
      repeat (split; [assumption|]). assumption.
Qed.

Lemma rep_all_from : forall xs r ps s b ps1, rep ps s -> ps_all_from eqb xs r ps = (b, ps1) ->
  exists b1 s1, a_all eqb order pin xs s = (b1, s1) /\ b = r && b1 /\ rep ps1 s1.
Proof.
  induction xs as [|x xs IH]; cbn; intros r ps s b ps1 RP H.
  - inversion H; subst. exists true, s. rewrite andb_true_r. auto.
  - destruct (ps_insert eqb x ps) as [ins ps'] eqn:I.
    destruct (rep_insert _ _ _ _ _ RP I) as (s' & AI & RP').
    destruct (IH _ _ _ _ _ RP' H) as (b1 & s1 & AA & B & RP1).
    rewrite AI, AA. exists (ins && b1), s1. split; [reflexivity|]. split; [|exact RP1].
    subst b. destruct r, ins, b1; reflexivity.
Qed.

Lemma rep_delete : forall x ps s, rep ps s ->
  rep (ps_delete eqb x ps) (fun y => s y && negb (eqb x y)).
Proof.
  intros x ps s (RO & RA & RP & RM & RN & RI & RC). unfold ps_delete. rewrite RA.
  destruct (eqb_spec x pin) as [E|N].
  - assert (SX : forall y, s y && negb (eqb x y) = s y).
    { intro y. destruct (eqb_spec x y) as [<-|_]; [|apply andb_true_r]. cbn. rewrite andb_false_r.
      destruct (s x) eqn:SX; [|reflexivity]. apply RI, insertable_spec in SX. destruct SX. congruence. }
    repeat split; auto.
    + intro y. rewrite SX. apply RM.
    + intros y. rewrite SX. apply RI.
    + intro C. rewrite RC by exact C. apply listing_ext. intro y. symmetry. apply SX.
  - repeat split; cbn; auto.
    + intro y. destruct (eqb_spec x y) as [<-|NXY]; cbn.
      * rewrite andb_false_r. cbn. destruct (eqb_spec x pin); [congruence|].
        destruct (mem eqb x (filter (fun y0 => negb (eqb x y0)) (ps_items ps))) eqn:M; [|exact M].
        apply (mem_spec eqb eqb_spec), filter_In in M. destruct M as [_ M].
        rewrite (veqb_refl eqb eqb_spec) in M. discriminate.
      * rewrite andb_true_r, <- RM.
        destruct (mem eqb y (ps_items ps)) eqn:M.
        -- apply (mem_spec eqb eqb_spec) in M. apply (mem_spec eqb eqb_spec).
           apply filter_In. split; [exact M|]. destruct (eqb_spec x y); [congruence|reflexivity].
        -- destruct (mem eqb y (filter (fun y0 => negb (eqb x y0)) (ps_items ps))) eqn:M2; [|exact M2].
           apply (mem_spec eqb eqb_spec), filter_In in M2. destruct M2 as [M2 _].
           apply (mem_spec eqb eqb_spec) in M2. fold (mem eqb y (ps_items ps)) in M2. congruence.
    + apply NoDup_filter. exact RN.
    + intros y H. apply andb_true_iff in H. apply RI, H.
    + discriminate.
Qed.

Lemma rep_list : forall ps s l ps1, rep ps s -> ps_list eqb ps = (l, ps1) ->
  l = lst s /\ rep ps1 s.
Proof.
  intros ps s l ps1 (RO & RA & RP & RM & RN & RI & RC) H. unfold ps_list in H.
  destruct (ps_invalid ps) eqn:INV.
  - assert (E : filter (fun x => mem eqb x (ps_items ps)) (ps_order ps) = lst s).
    { rewrite RO. apply filter_ext. exact RM. }
    inversion H; subst. split; [exact E|]. repeat split; cbn; auto.
  - inversion H; subst. split; [apply RC; reflexivity|]. repeat split; auto.
Qed.

Lemma rep_count : forall ps s, rep ps s -> ps_count ps = length (lst s).
Proof.
  intros ps s (RO & RA & RP & RM & RN & RI & RC). unfold ps_count.
  apply Permutation_length. apply NoDup_Permutation; [exact RN|apply NoDup_filter, rk_NoDup|].
  intro x. unfold listing. rewrite filter_In, rk_In.
  rewrite <- RM. unfold mem. rewrite (mem_spec eqb eqb_spec).
  split; [|tauto]. intro I. split; [|exact I].
  apply (mem_spec eqb eqb_spec) in I. fold (mem eqb x (ps_items ps)) in I. rewrite RM in I.
  apply orb_true_iff in I. destruct I as [SX|E].
  - right. apply insertable_spec. apply RI, SX.
  - left. destruct (eqb_spec x pin); [assumption|discriminate].
Qed.

Lemma hd_nth : forall l : list A, nth_error l 0 = hd_error l.
Proof. destruct l; reflexivity. Qed.

Lemma rep_step : forall op ps s o ps1, rep ps s -> ps_step eqb op ps = (o, ps1) ->
  exists s1, a_step eqb order pin op s = (o, s1) /\ rep ps1 s1.
Proof.
  intros op ps s o ps1 RP H. destruct op; cbn [ps_step a_step] in *.
  - destruct (ps_insert eqb x ps) as [b ps'] eqn:I. inversion H; subst.
    destruct (rep_insert _ _ _ _ _ RP I) as (s1 & -> & R1). eauto.
  - destruct (ps_all eqb xs ps) as [b ps'] eqn:I. inversion H; subst.
    destruct (rep_all_from _ _ _ _ _ _ RP I) as (b1 & s1 & -> & -> & R1). eauto.
  - inversion H; subst. eexists; split; [reflexivity|]. apply rep_delete. exact RP.
  - inversion H; subst. exists s. split; [|exact RP]. do 2 f_equal. symmetry. apply RP.
  - destruct (ps_list eqb ps) as [l ps'] eqn:I. inversion H; subst.
    destruct (rep_list _ _ _ _ RP I) as [-> R1]. eauto.
  - unfold ps_top in H. destruct (ps_list eqb ps) as [l ps'] eqn:I. inversion H; subst.
    destruct (rep_list _ _ _ _ RP I) as [-> R1]. exists s. split; [|exact R1]. destruct (lst s); reflexivity.
  - inversion H; subst. exists s. split; [|exact RP]. unfold ps_position. do 2 f_equal.
    symmetry. apply RP.
  - inversion H; subst. exists s. split; [|exact RP]. do 2 f_equal. symmetry. apply rep_count. exact RP.
Qed.

Theorem ps_refines_gen : forall ops ps s, rep ps s ->
  fst (ps_run eqb ops ps) = a_run eqb order pin ops s.
Proof.
  induction ops as [|op ops IH]; intros ps s RP; cbn; [reflexivity|].
  destruct (ps_step eqb op ps) as [o ps1] eqn:S.
  destruct (rep_step _ _ _ _ _ RP S) as (s1 & -> & R1).
  specialize (IH _ _ R1). destruct (ps_run eqb ops ps1) as [os ps2]. cbn in *. rewrite IH. reflexivity.
Qed.

Theorem ps_refines : forall ops,
  fst (ps_run eqb ops (ps_new eqb order pin)) = a_run eqb order pin ops (fun _ => false).
Proof. intro ops. apply ps_refines_gen, rep_new. Qed.
End PsFacts.

(** ** Stack *)
Section StackFacts.
Context {A : Type}.

Lemma snoc_last : forall (l : list A) x, nth_error (l ++ [x]) (length (l ++ [x]) - 1) = Some x.
Proof.
  intros. rewrite app_length. cbn. replace (length l + 1 - 1) with (length l) by lia.
  rewrite nth_error_app2 by lia. rewrite Nat.sub_diag. reflexivity.
Qed.
Lemma snoc_init : forall (l : list A) x, firstn (length (l ++ [x]) - 1) (l ++ [x]) = l.
Proof.
  intros. rewrite app_length. cbn. replace (length l + 1 - 1) with (length l) by lia.
  rewrite firstn_app, Nat.sub_diag, firstn_all. cbn. apply app_nil_r.
Qed.
Lemma snoc_nonempty : forall (l : list A) x, stk_is_empty (l ++ [x]) = false.
Proof. intros. unfold stk_is_empty. rewrite app_length. cbn. destruct (length l + 1) eqn:E; [lia|reflexivity]. Qed.

Lemma stk_step_refines : forall (op : skop A) s o s1,
  stk_step op (rev s) = (o, s1) -> exists s2, l_step op s = (o, s2) /\ s1 = rev s2.
Proof.
  intros op s o s1 H. destruct op; cbn [stk_step l_step] in *.
  - inversion H; subst. eexists; split; [reflexivity|]. reflexivity.
  - destruct s as [|x s]; cbn [rev] in H.
    + cbn in H. inversion H; subst. exists []. auto.
    + unfold stk_pop, stk_pop_raw in H. rewrite snoc_nonempty, snoc_last, snoc_init in H.
      inversion H; subst. eauto.
  - destruct s as [|x s]; cbn [rev] in H.
    + cbn in H. inversion H; subst. exists []. auto.
    + unfold stk_must_pop, stk_pop_raw in H. rewrite snoc_nonempty, snoc_last, snoc_init in H.
      inversion H; subst. eauto.
  - inversion H; subst. exists s. split; [|reflexivity]. do 2 f_equal.
    destruct s as [|x s]; [reflexivity|]. cbn [rev]. unfold stk_current.
    rewrite snoc_nonempty, snoc_last. reflexivity.
  - inversion H; subst. exists s. split; [|reflexivity]. unfold stk_size. rewrite rev_length. reflexivity.
  - inversion H; subst. exists s. split; [|reflexivity]. do 2 f_equal.
    destruct s as [|x s]; [reflexivity|]. cbn [rev]. rewrite snoc_nonempty. reflexivity.
  - inversion H; subst. exists s. auto.
Qed.

Theorem stk_refines : forall (ops : list (skop A)) s,
  fst (stk_run ops (rev s)) = l_run ops s.
Proof.
  induction ops as [|op ops IH]; intro s; cbn; [reflexivity|].
  destruct (stk_step op (rev s)) as [o s1] eqn:S.
  destruct (stk_step_refines _ _ _ _ S) as (s2 & -> & ->).
  specialize (IH s2). destruct (stk_run ops (rev s2)) as [os s3]. cbn in *. rewrite IH. reflexivity.
Qed.
End StackFacts.

(** ** Iterators *)
Section IterFacts.
Context {A : Type}.

(** The iterator [i] is at the first element of [rest], the not yet seen part of
    the sequence in its direction. *)
Definition at_rest (i : iter A) (rest : list A) : Prop :=
  if it_rev i
  then exists tl, it_elems i = rev rest ++ tl /\ it_cur i = (Z.of_nat (length rest) - 1)%Z
  else exists hd, it_elems i = hd ++ rest /\ it_cur i = Z.of_nat (length hd).

Lemma at_rest_valid : forall i rest, at_rest i rest ->
  it_valid i = match rest with [] => false | _ => true end.
Proof.
  intros i rest H. unfold at_rest in H. unfold it_valid. destruct (it_rev i).
  - destruct H as (tl & -> & ->). rewrite app_length, rev_length. destruct rest as [|x rest]; cbn [length].
    + destruct (Z.leb_spec 0 (Z.of_nat 0 - 1)); [lia|reflexivity].
    + destruct (Z.leb_spec 0 (Z.of_nat (S (length rest)) - 1)); [|lia].
      destruct (Z.ltb_spec (Z.of_nat (S (length rest)) - 1) (Z.of_nat (S (length rest) + length tl)));
        [reflexivity|lia].
  - destruct H as (hd & -> & ->). rewrite app_length. destruct rest as [|x rest]; cbn [length].
    + rewrite Nat.add_0_r. destruct (Z.leb_spec 0 (Z.of_nat (length hd))); [|lia].
      destruct (Z.ltb_spec (Z.of_nat (length hd)) (Z.of_nat (length hd))); [lia|reflexivity].
    + destruct (Z.leb_spec 0 (Z.of_nat (length hd))); [|lia].
      destruct (Z.ltb_spec (Z.of_nat (length hd)) (Z.of_nat (length hd + S (length rest)))); [reflexivity|lia].
Qed.

Lemma at_rest_at : forall i x rest, at_rest i (x :: rest) -> it_at i = x.
Proof.
  intros i x rest H. unfold at_rest in H. unfold it_at. destruct (it_rev i).
  - destruct H as (tl & -> & ->).
    replace (Z.to_nat (Z.of_nat (length (x :: rest)) - 1)) with (length rest) by (cbn [length]; lia).
    rewrite app_nth1 by (rewrite rev_length; cbn; lia). cbn [rev].
    rewrite app_nth2 by (rewrite rev_length; lia). rewrite rev_length, Nat.sub_diag. reflexivity.
  - destruct H as (hd & -> & ->). rewrite Nat2Z.id, app_nth2 by lia. rewrite Nat.sub_diag. reflexivity.
Qed.

Definition same_iter (i j : iter A) : Prop :=
  it_rev i = it_rev j /\ it_zero i = it_zero j /\ it_elems i = it_elems j.

Lemma at_rest_next : forall i x rest, at_rest i (x :: rest) ->
  exists i1, it_next i = (match rest with [] => it_zero i | y :: _ => y end, i1) /\
             at_rest i1 rest /\ same_iter i i1.
Proof.
  intros i x rest H. unfold it_next.
  set (i1 := it_move (if it_rev i then (it_cur i - 1)%Z else (it_cur i + 1)%Z) i).
  assert (R1 : at_rest i1 rest).
  { unfold at_rest in *. cbn. destruct (it_rev i).
    - destruct H as (tl & E & C). exists (x :: tl). split.
      + rewrite E. cbn. rewrite <- app_assoc. reflexivity.
      + rewrite C. cbn [length]. lia.
    - destruct H as (hd & E & C). exists (hd ++ [x]). split.
      + rewrite E, <- app_assoc. reflexivity.
      + rewrite C, app_length. cbn. lia. }
  exists i1. rewrite (at_rest_valid _ _ R1). destruct rest as [|y rest].
  - split; [reflexivity|]. split; [exact R1|]. repeat split.
  - rewrite (at_rest_at _ _ _ R1). split; [reflexivity|]. split; [exact R1|]. repeat split.
Qed.

Definition in_direction (i : iter A) : list A :=
  if it_rev i then rev (it_elems i) else it_elems i.

Lemma start_rest : forall i, it_elems i <> [] -> exists i1 x rest,
  it_start i = (x, i1) /\ in_direction i = x :: rest /\ at_rest i1 (x :: rest) /\ same_iter i i1.
Proof.
  intros i NE. unfold it_start.
  set (i1 := it_move _ i).
  assert (R1 : at_rest i1 (in_direction i)).
  { unfold at_rest, in_direction. cbn. destruct (it_rev i).
    - exists []. rewrite rev_involutive, app_nil_r, rev_length. split; reflexivity.
    - exists []. split; reflexivity. }
  destruct (in_direction i) as [|x rest] eqn:D.
  - exfalso. apply NE. unfold in_direction in D. destruct (it_rev i); [|exact D].
    apply (f_equal (@rev A)) in D. rewrite rev_involutive in D. exact D.
  - exists i1, x, rest. rewrite <- (at_rest_at _ _ _ R1).
    split; [destruct (it_elems i); [congruence|reflexivity]|].
    split; [rewrite (at_rest_at _ _ _ R1); reflexivity|].
    split; [rewrite (at_rest_at _ _ _ R1); exact R1|repeat split].
Qed.

Lemma loop_rest : forall rest e i, at_rest i rest ->
  (rest <> [] -> Some e = hd_error rest) ->
  forall fuel, length rest <= fuel ->
  exists i1, it_loop fuel e i = Some (rest, i1) /\ at_rest i1 [] /\ same_iter i i1.
Proof.
  induction rest as [|x rest IH]; intros e i R HE fuel F.
  - exists i. split; [|split; [exact R|repeat split]].
    destruct fuel; cbn; rewrite (at_rest_valid _ _ R); reflexivity.
  - destruct fuel as [|fuel]; [cbn in F; lia|]. cbn [it_loop]. rewrite (at_rest_valid _ _ R).
    destruct (at_rest_next _ _ _ R) as (i1 & N & R1 & S1). rewrite N.
    assert (HE1 : rest <> [] -> Some (match rest with [] => it_zero i | y :: _ => y end) = hd_error rest)
      by (intro NE; destruct rest; [congruence|reflexivity]).
    destruct (IH _ _ R1 HE1 fuel ltac:(cbn in F; lia)) as (i2 & L & R2 & S2).
    rewrite L. exists i2. assert (e = x) by (assert (H : Some e = Some x) by (apply HE; discriminate); congruence).
    subst e. split; [reflexivity|]. split; [exact R2|].
    destruct S1 as (? & ? & ?), S2 as (? & ? & ?). repeat split; congruence.
Qed.

(** Beyond the end *)
Definition past (i : iter A) : Prop :=
  if it_rev i then (it_cur i < 0)%Z else (Z.of_nat (length (it_elems i)) <= it_cur i)%Z.
Lemma past_next : forall i, past i -> exists i1, it_next i = (it_zero i, i1) /\ past i1 /\ same_iter i i1.
Proof.
  intros i P. unfold it_next. set (i1 := it_move _ i).
  assert (P1 : past i1) by (unfold past in *; cbn; destruct (it_rev i); lia).
  assert (V : it_valid i1 = false).
  { unfold it_valid, past in *. cbn in *. destruct (it_rev i).
    - destruct (Z.leb_spec 0 (it_cur i - 1)); [lia|reflexivity].
    - apply andb_false_iff. right. apply Z.ltb_ge. lia. }
  rewrite V. exists i1. split; [reflexivity|]. split; [exact P1|repeat split].
Qed.
Lemma past_invalid : forall i, past i -> it_valid i = false.
Proof.
  intros i P. unfold it_valid, past in *. destruct (it_rev i).
  - destruct (Z.leb_spec 0 (it_cur i)); [lia|reflexivity].
  - apply andb_false_iff. right. apply Z.ltb_ge. lia.
Qed.
Lemma at_rest_nil_past : forall i, at_rest i [] -> past i.
Proof.
  intros i H. unfold at_rest, past in *. destruct (it_rev i).
  - destruct H as (tl & _ & ->). cbn. lia.
  - destruct H as (hd & -> & ->). rewrite app_nil_r. lia.
Qed.

Lemma past_nexts : forall n i, past i ->
  exists i1, nexts n i = (repeat (it_zero i) n, i1) /\ past i1.
Proof.
  induction n as [|n IH]; intros i P; cbn; [eauto|].
  destruct (past_next i P) as (i1 & -> & P1 & (_ & Z1 & _)).
  destruct (IH i1 P1) as (i2 & -> & P2). rewrite <- Z1. eauto.
Qed.

Lemma empty_nexts : forall n (i : iter A), it_elems i = [] ->
  exists i1, nexts n i = (repeat (it_zero i) n, i1) /\ it_elems i1 = [].
Proof.
  induction n as [|n IH]; intros i E; cbn; [eauto|].
  unfold it_next. set (i1 := it_move _ i).
  assert (V : it_valid i1 = false).
  { unfold it_valid. cbn. rewrite E. cbn.
    match goal with |- (0 <=? ?z)%Z && (?z <? 0)%Z = false =>
      destruct (Z.leb_spec 0 z); [|reflexivity]; apply Z.ltb_ge; lia end. }
  rewrite V. destruct (IH i1 E) as (i2 & -> & E2). eauto.
Qed.

Theorem drive_all : forall rv (l : list A) zero fuel, length l <= fuel ->
  exists i1, it_drive fuel (it_new rv l zero) = Some (if rv then rev l else l, i1) /\
    forall n, exists i2, nexts n i1 = (repeat zero n, i2) /\ it_valid i2 = false.
Proof.
  intros rv l zero fuel F. destruct l as [|a l0].
  - exists (it_new rv [] zero). split.
    + destruct rv; destruct fuel; reflexivity.
    + intro n. destruct (empty_nexts n (it_new rv [] zero) eq_refl) as (i2 & N & E2).
      exists i2. split; [exact N|]. unfold it_valid. rewrite E2. cbn.
      destruct (Z.leb_spec 0 (it_cur i2)); [|reflexivity]. apply Z.ltb_ge. lia.
  - set (l := a :: l0) in *. set (i := it_new rv l zero).
    destruct (start_rest i) as (i1 & x & rest & S & D & R & (S1 & S2 & S3)); [discriminate|].
    unfold it_drive. rewrite S.
    assert (DL : in_direction i = if rv then rev l else l) by reflexivity.
    destruct (loop_rest (x :: rest) x i1 R ltac:(reflexivity) fuel) as (i2 & L & R2 & (T1 & T2 & T3)).
    { rewrite <- D, DL. destruct rv; [rewrite rev_length|]; exact F. }
    rewrite L. exists i2. split; [rewrite <- D, DL; reflexivity|].
    intro n. destruct (past_nexts n i2 (at_rest_nil_past _ R2)) as (i3 & N & P3).
    exists i3. rewrite N. split; [|apply past_invalid; exact P3].
    rewrite <- T2, <- S2. reflexivity.
Qed.

(** RunAll *)
Lemma run_loop_rest : forall (R : Type) (each : list A -> A -> R) while_ rest e i, at_rest i rest ->
  (rest <> [] -> Some e = hd_error rest) ->
  forall done fuel, length rest <= fuel ->
  exists seen i1, run_loop fuel each while_ done e i = Some (done ++ seen, i1) /\
    runs_through (fun d x => each (done ++ d) x) while_ rest seen.
Proof.
  induction rest as [|x rest IH]; intros e i RS HE done fuel F.
  - exists [], i. split.
    + rewrite app_nil_r. destruct fuel; cbn; rewrite (at_rest_valid _ _ RS); reflexivity.
    + exists []. split; [reflexivity|]. split.
      * intros pre x post E. destruct pre; discriminate.
      * congruence.
  - assert (e = x) by (assert (H : Some e = Some x) by (apply HE; discriminate); congruence). subst e.
    destruct fuel as [|fuel]; [cbn in F; lia|]. cbn [run_loop]. rewrite (at_rest_valid _ _ RS).
    destruct (while_ x (each done x)) eqn:W.
    + destruct (at_rest_next _ _ _ RS) as (i1 & N & R1 & S1). rewrite N.
      assert (HE1 : rest <> [] -> Some (match rest with [] => it_zero i | y :: _ => y end) = hd_error rest)
        by (intro NE; destruct rest; [congruence|reflexivity]).
      destruct (IH _ _ R1 HE1 (done ++ [x]) fuel ltac:(cbn in F; lia)) as (seen & i2 & L & (r & E & A1 & A2)).
      exists (x :: seen), i2. split; [rewrite L, <- app_assoc; reflexivity|].
      exists r. split; [cbn; rewrite <- E; reflexivity|]. split.
      * intros [|y pre] z post EQ NE; cbn in EQ; inversion EQ; subst.
        -- rewrite app_nil_r. exact W.
        -- specialize (A1 pre z post eq_refl NE). rewrite <- app_assoc in A1. exact A1.
      * intro NE. destruct (A2 NE) as (pre & z & -> & WZ). exists (x :: pre), z.
        split; [reflexivity|]. rewrite <- app_assoc in WZ. exact WZ.
    + exists [x], i. split; [reflexivity|]. exists rest. split; [reflexivity|]. split.
      * intros [|y pre] z post EQ NE; inversion EQ; subst; [congruence|].
        destruct pre; discriminate.
      * intros _. exists [], x. split; [reflexivity|]. rewrite app_nil_r. exact W.
Qed.

Theorem run_all_spec : forall (R : Type) (each : list A -> A -> R) while_ rv l zero fuel,
  length l <= fuel ->
  exists seen i1, it_run_all fuel each while_ (it_new rv l zero) = Some (seen, i1) /\
    runs_through each while_ (if rv then rev l else l) seen.
Proof.
  intros R each while_ rv l zero fuel F. destruct l as [|a l0].
  - exists [], (it_new rv [] zero). split; [destruct rv; destruct fuel; reflexivity|].
    exists []. split; [destruct rv; reflexivity|]. split; [|congruence].
    intros pre x post E. destruct pre; discriminate.
  - set (l := a :: l0) in *. set (i := it_new rv l zero).
    destruct (start_rest i) as (i1 & x & rest & S & D & RS & _); [discriminate|].
    unfold it_run_all. rewrite S.
    assert (DL : in_direction i = if rv then rev l else l) by reflexivity.
    destruct (run_loop_rest R each while_ (x :: rest) x i1 RS ltac:(reflexivity) [] fuel)
      as (seen & i2 & L & RT).
    { rewrite <- D, DL. destruct rv; [rewrite rev_length|]; exact F. }
    exists seen, i2. split; [exact L|]. rewrite <- DL, D. exact RT.
Qed.

Lemma reset_new : forall (i : iter A) l, it_reset l i = it_new (it_rev i) l (it_zero i).
Proof. reflexivity. Qed.
End IterFacts.
