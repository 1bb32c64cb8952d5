(** The bus: proofs. *)
From Verif Require Import Base Bus SpecBus.
From Coq Require Import Permutation Lia.

(** ** Maps *)
Section Maps.
Context {V : Type}.
Implicit Types m : list (string * V).
Definition keys m : list string := map fst m.
Lemma lookup_in : forall m k v, NoDup (keys m) -> (lookup k m = Some v <-> In (k, v) m).
Proof.
  induction m as [|[k' v'] m IH]; intros k v ND; cbn; [split; [discriminate|contradiction]|].
  inversion ND as [|? ? NI ND']; subst. destruct (String.eqb_spec k' k) as [->|NE].
  - split; [intro E; inversion E; auto|]. intros [E|I]; [inversion E; reflexivity|].
    destruct NI. apply in_map_iff. exists (k, v). auto.
  - rewrite IH by exact ND'. split; [auto|]. intros [E|I]; [inversion E; congruence|exact I].
Qed.
Lemma lookup_none : forall m k, lookup k m = None <-> ~ In k (keys m).
Proof.
  induction m as [|[k' v'] m IH]; intro k; cbn; [split; auto|]. destruct (String.eqb_spec k' k) as [->|NE].
  - split; [discriminate|]. intro H. destruct H. auto.
  - rewrite IH. split; [intros H [E|I]; [congruence|auto]|intros H I; apply H; auto].
Qed.
Lemma lookup_store : forall m k v k', lookup k' (store k v m) = if String.eqb k k' then Some v else lookup k' m.
Proof.
  induction m as [|[a b] m IH]; intros k v k'; cbn; [destruct (String.eqb k k'); reflexivity|].
  destruct (String.eqb_spec a k) as [->|NE]; cbn.
  - destruct (String.eqb k k'); reflexivity.
  - rewrite IH. destruct (String.eqb_spec a k') as [->|N2]; [|reflexivity].
    destruct (String.eqb_spec k k') as [->|]; [congruence|reflexivity].
Qed.
Lemma lookup_delete : forall m k k', lookup k' (delete k m) = if String.eqb k k' then None else lookup k' m.
Proof.
  unfold delete. induction m as [|[a b] m IH]; intros k k'; cbn; [destruct (String.eqb k k'); reflexivity|].
  destruct (String.eqb_spec a k) as [->|NE]; cbn.
  - rewrite IH. destruct (String.eqb k k'); reflexivity.
  - rewrite IH. destruct (String.eqb_spec a k') as [->|N2]; [|reflexivity].
    destruct (String.eqb_spec k k') as [->|]; [congruence|reflexivity].
Qed.
Lemma keys_store : forall m k v, keys (store k v m) = if existsb (String.eqb k) (keys m) then keys m else keys m ++ [k].
Proof.
  unfold keys. induction m as [|[a b] m IH]; intros k v; cbn; [reflexivity|].
  rewrite (String.eqb_sym k a). destruct (String.eqb_spec a k) as [->|NE]; cbn; [reflexivity|].
  rewrite IH. destruct (existsb (String.eqb k) (map fst m)); reflexivity.
Qed.
Lemma nodup_store : forall m k v, NoDup (keys m) -> NoDup (keys (store k v m)).
Proof.
  intros m k v ND. rewrite keys_store. destruct (existsb (String.eqb k) (keys m)) eqn:E; [exact ND|].
  apply (Permutation_NoDup (Permutation_cons_append (keys m) k)). constructor; [|exact ND].
  intro I. assert (X : existsb (String.eqb k) (keys m) = true) by (apply existsb_exists; exists k; split; [exact I|apply String.eqb_refl]).
  congruence.
Qed.
Lemma nodup_delete : forall m k, NoDup (keys m) -> NoDup (keys (delete k m)).
Proof.
  unfold delete. induction m as [|[a b] m IH]; intros k ND; cbn; [constructor|]. inversion ND as [|? ? NI ND']; subst.
  destruct (String.eqb a k); cbn; [apply IH; exact ND'|]. constructor; [|apply IH; exact ND'].
  intro I. apply NI. apply in_map_iff in I. destruct I as (p & E & I). apply filter_In in I. apply in_map_iff. exists p. tauto.
Qed.
End Maps.

(** ** Removing from a topic *)
Lemma swap_remove_from_perm : forall key l final r, swap_remove_from key final l = Some r ->
  (forall d, l <> [] -> last l d = final) ->
  exists h, hd_key h = key /\ Permutation (h :: r) l /\ exists l1 l2, l = l1 ++ h :: l2 /\ Forall (fun x => hd_key x <> key) l1.
Proof.
  intros key. induction l as [|h l IH]; intros final r E L; [discriminate|]. cbn in E.
  destruct (String.eqb_spec (hd_key h) key) as [K|K].
  - inversion E; subst. exists h. split; [reflexivity|]. split.
    + apply perm_skip. destruct l as [|x l]; [reflexivity|].
      assert (F : last (x :: l) x = final) by (specialize (L x); cbn in *; apply L; discriminate).
      rewrite <- F. rewrite (app_removelast_last x (l := x :: l)) at 3 by discriminate.
      apply Permutation_cons_append.
    + exists [], l. split; [reflexivity|constructor].
  - destruct (swap_remove_from key final l) as [r'|] eqn:R; [|discriminate]. inversion E; subst.
    destruct (IH final r' R) as (h' & K' & P & l1 & l2 & EQ & F).
    { intros d NE. specialize (L d). destruct l; [contradiction|]. cbn in *. apply L. discriminate. }
    exists h'. split; [exact K'|]. split; [rewrite perm_swap; apply perm_skip; exact P|].
    exists (h :: l1), l2. subst l. split; [reflexivity|]. constructor; assumption.
Qed.
Lemma swap_remove_none : forall key l final, swap_remove_from key final l = None -> Forall (fun h => hd_key h <> key) l.
Proof.
  intros key. induction l as [|h l IH]; intros final E; [constructor|]. cbn in E.
  destruct (String.eqb_spec (hd_key h) key) as [K|K]; [discriminate|].
  destruct (swap_remove_from key final l) eqn:R; [discriminate|]. constructor; [exact K|]. eapply IH. exact R.
Qed.
(** With distinct keys exactly the handler of this key is removed. *)
Lemma swap_remove_filter : forall key l, NoDup (map hd_key l) ->
  Permutation (swap_remove key l) (filter (fun h => negb (String.eqb (hd_key h) key)) l).
Proof.
  intros key l ND. unfold swap_remove. destruct l as [|h0 l]; [reflexivity|].
  set (L := h0 :: l) in *. destruct (swap_remove_from key (last L h0) L) as [r|] eqn:E.
  - destruct (swap_remove_from_perm key L (last L h0) r E) as (h & K & P & l1 & l2 & EQ & F).
    { intros d NE. unfold L. clear. revert h0 d. induction l as [|x l IH]; intros h0 d; [reflexivity|].
      cbn in *. destruct l; [reflexivity|]. apply (IH h0 d). }
    assert (F2 : Forall (fun x => hd_key x <> key) l2).
    { rewrite EQ, map_app in ND. cbn in ND. apply NoDup_remove_2 in ND. apply Forall_forall. intros x I X.
      apply ND. apply in_or_app. right. rewrite K, <- X. apply in_map. exact I. }
    rewrite EQ in P. assert (P2 : Permutation r (l1 ++ l2)).
    { apply (Permutation_cons_inv (a := h)). rewrite P. symmetry. apply Permutation_middle. }
    rewrite P2, EQ, filter_app. cbn. rewrite K, String.eqb_refl. cbn.
    assert (ID : forall l, Forall (fun x => hd_key x <> key) l -> filter (fun h => negb (String.eqb (hd_key h) key)) l = l).
    { induction 1 as [|x q X Q IH]; [reflexivity|]. cbn. apply String.eqb_neq in X. rewrite X. cbn. rewrite IH. reflexivity. }
    rewrite !ID by assumption. reflexivity.
  - apply swap_remove_none in E.
    assert (ID : forall l, Forall (fun x => hd_key x <> key) l -> filter (fun h => negb (String.eqb (hd_key h) key)) l = l).
    { induction 1 as [|x q X Q IH]; [reflexivity|]. cbn. apply String.eqb_neq in X. rewrite X. cbn. rewrite IH. reflexivity. }
    rewrite ID by exact E. reflexivity.
Qed.

(** ** Loops over topics *)
Definition on_topic (ts : list string) (f : list handler -> list handler) (t : string) (o : option (list handler)) : option (list handler) :=
  if existsb (String.eqb t) ts then option_map f o else o.
Lemma dereg_loop : forall key ts b, NoDup ts ->
  let b' := fold_left (fun b t => deregister_topic_handler t key b) ts b in
  br_handlers b' = br_handlers b /\ br_next b' = br_next b /\
  (NoDup (keys (br_topics b)) -> NoDup (keys (br_topics b'))) /\
  forall t, lookup t (br_topics b') = on_topic ts (swap_remove key) t (lookup t (br_topics b)).
Proof.
  intros key. induction ts as [|t0 ts IH]; intros b ND; cbn [fold_left]; [repeat split; auto|].
  inversion ND as [|? ? NI ND']; subst. specialize (IH (deregister_topic_handler t0 key b) ND'). cbn zeta in IH.
  destruct IH as (A & N & B & C).
  assert (H0 : br_handlers (deregister_topic_handler t0 key b) = br_handlers b)
    by (unfold deregister_topic_handler; destruct (lookup t0 (br_topics b)); reflexivity).
  assert (N0 : br_next (deregister_topic_handler t0 key b) = br_next b)
    by (unfold deregister_topic_handler; destruct (lookup t0 (br_topics b)); reflexivity).
  split; [congruence|]. split; [congruence|]. split.
  - intro K. apply B. unfold deregister_topic_handler. destruct (lookup t0 (br_topics b)); [|exact K]. cbn. apply nodup_store. exact K.
  - intro t. rewrite C. unfold on_topic. cbn [existsb]. rewrite (String.eqb_sym t t0).
    assert (L : lookup t (br_topics (deregister_topic_handler t0 key b)) =
      if String.eqb t0 t then option_map (swap_remove key) (lookup t (br_topics b)) else lookup t (br_topics b)).
    { unfold deregister_topic_handler. destruct (lookup t0 (br_topics b)) as [l|] eqn:E; cbn.
      - rewrite lookup_store. destruct (String.eqb_spec t0 t) as [->|]; [rewrite E|]; reflexivity.
      - destruct (String.eqb_spec t0 t) as [->|]; [rewrite E|]; reflexivity. }
    rewrite L. destruct (String.eqb_spec t0 t) as [->|NE]; cbn [orb]; [|reflexivity].
    assert (X : existsb (String.eqb t) ts = false).
    { destruct (existsb (String.eqb t) ts) eqn:X; [|reflexivity]. apply existsb_exists in X. destruct X as (y & I & E).
      apply String.eqb_eq in E. subst y. contradiction. }
    rewrite X. reflexivity.
Qed.
Lemma reg_loop : forall h ts b, NoDup ts -> (forall t, In t ts -> lookup t (br_topics b) <> None) ->
  let b' := fold_left (fun b t => register_topic_handler t h b) ts b in
  br_handlers b' = br_handlers b /\ br_next b' = br_next b /\
  (NoDup (keys (br_topics b)) -> NoDup (keys (br_topics b'))) /\
  forall t, lookup t (br_topics b') = on_topic ts (fun l => l ++ [h]) t (lookup t (br_topics b)).
Proof.
  intros h. induction ts as [|t0 ts IH]; intros b ND EX; cbn [fold_left]; [repeat split; auto|].
  inversion ND as [|? ? NI ND']; subst.
  assert (L : forall t, lookup t (br_topics (register_topic_handler t0 h b)) =
      if String.eqb t0 t then option_map (fun l => l ++ [h]) (lookup t (br_topics b)) else lookup t (br_topics b)).
  { intro t. unfold register_topic_handler. cbn. rewrite lookup_store.
    destruct (String.eqb_spec t0 t) as [->|]; [|reflexivity]. destruct (lookup t (br_topics b)) eqn:E; [reflexivity|].
    destruct (EX t); [left; reflexivity|exact E]. }
  destruct (IH (register_topic_handler t0 h b) ND') as (A & N & B & C).
  { intros t I. rewrite L. destruct (String.eqb_spec t0 t) as [->|]; [contradiction|]. apply EX. right. exact I. }
  split; [exact A|]. split; [exact N|]. split.
  - intro K. apply B. apply nodup_store. exact K.
  - intro t. rewrite C. unfold on_topic. cbn [existsb]. rewrite (String.eqb_sym t t0), L.
    destruct (String.eqb_spec t0 t) as [->|NE]; cbn [orb]; [|reflexivity].
    assert (X : existsb (String.eqb t) ts = false).
    { destruct (existsb (String.eqb t) ts) eqn:X; [|reflexivity]. apply existsb_exists in X. destruct X as (y & I & E).
      apply String.eqb_eq in E. subst y. contradiction. }
    rewrite X. reflexivity.
Qed.

(** ** The state after a history *)
Section Run.
Context (matches : string -> string -> bool) (shuffle : nat -> forall (V : Type), list (string * V) -> list (string * V)).
Hypothesis SH : shuffles shuffle.

Lemma nodup_filter_keys : forall (V : Type) (f : string * V -> bool) m, NoDup (keys m) -> NoDup (map fst (filter f m)).
Proof.
  intros V f m. induction m as [|[a b] m IH]; intro ND; cbn; [constructor|]. inversion ND as [|? ? NI ND']; subst.
  destruct (f (a, b)); cbn; [|apply IH; exact ND']. constructor; [|apply IH; exact ND'].
  intro I. apply NI. apply in_map_iff in I. destruct I as (p & E & I). apply filter_In in I. apply in_map_iff. exists p. tauto.
Qed.
Lemma subs_spec : forall i key b h, NoDup (keys (br_topics b)) -> lookup key (br_handlers b) = Some h ->
  NoDup (topic_subscriptions matches shuffle i key b) /\
  forall t, existsb (String.eqb t) (topic_subscriptions matches shuffle i key b) =
    matches (hd_matcher h) t && match lookup t (br_topics b) with Some _ => true | None => false end.
Proof.
  intros i key b h ND E. unfold topic_subscriptions. rewrite E.
  assert (P : Permutation (map fst (filter (fun p => matches (hd_matcher h) (fst p)) (shuffle i (list handler) (br_topics b))))
                (map fst (filter (fun p => matches (hd_matcher h) (fst p)) (br_topics b)))).
  { apply Permutation_map. pose proof (SH i (list handler) (br_topics b)) as Q. revert Q.
    generalize (shuffle i (list handler) (br_topics b)), (br_topics b). intros l1 l2 Q. induction Q; cbn.
    - reflexivity.
    - destruct (matches (hd_matcher h) (fst x)); [apply perm_skip|]; assumption.
    - destruct (matches (hd_matcher h) (fst x)), (matches (hd_matcher h) (fst y)); try reflexivity. apply perm_swap.
    - etransitivity; eassumption. }
  split.
  - eapply Permutation_NoDup; [symmetry; exact P|]. apply nodup_filter_keys. exact ND.
  - intro t. apply eq_true_iff_eq. rewrite existsb_exists, andb_true_iff. split.
    + intros (x & I & X). apply String.eqb_eq in X. subst x. apply (Permutation_in _ P) in I.
      apply in_map_iff in I. destruct I as ([t' l] & X & I). cbn in X. subst t'. apply filter_In in I. destruct I as [I M].
      apply (lookup_in _ _ _ ND) in I. rewrite I. auto.
    + intros [M L]. destruct (lookup t (br_topics b)) as [l|] eqn:LE; [|discriminate]. exists t. split; [|apply String.eqb_refl].
      apply (Permutation_in _ (Permutation_sym P)). apply in_map_iff. exists (t, l). split; [reflexivity|].
      apply filter_In. split; [apply (lookup_in _ _ _ ND); exact LE|exact M].
Qed.

Record binv (hist : list bus_op) (b : broker) : Prop := {
  bi_nt : NoDup (keys (br_topics b));
  bi_nh : NoDup (keys (br_handlers b));
  bi_h : forall k, lookup k (br_handlers b) = option_map (fun x => mkHandler k (fst x) (snd x)) (handler_known hist k);
  bi_t : forall t, topic_known hist t = match lookup t (br_topics b) with Some _ => true | None => false end;
  bi_l : forall t l, lookup t (br_topics b) = Some l -> NoDup (map hd_key l) /\
    forall h, In h l <-> lookup (hd_key h) (br_handlers b) = Some h /\ matches (hd_matcher h) t = true
}.

Lemma key_of : forall hist b k h, binv hist b -> lookup k (br_handlers b) = Some h -> hd_key h = k.
Proof.
  intros hist b k h I E. rewrite (bi_h _ _ I) in E. destruct (handler_known hist k) as [[m f]|]; [|discriminate].
  inversion E. reflexivity.
Qed.

Lemma swap_remove_spec : forall key l, NoDup (map hd_key l) ->
  NoDup (map hd_key (swap_remove key l)) /\ forall h, In h (swap_remove key l) <-> In h l /\ hd_key h <> key.
Proof.
  intros key l ND. pose proof (swap_remove_filter key l ND) as P. split.
  - eapply Permutation_NoDup; [apply Permutation_map; symmetry; exact P|].
    clear P. induction l as [|x l IH]; cbn; [constructor|]. inversion ND as [|? ? NI ND']; subst.
    destruct (String.eqb (hd_key x) key); cbn; [auto|]. constructor; [|auto].
    intro I. apply NI. apply in_map_iff in I. destruct I as (p & E & I). apply filter_In in I. apply in_map_iff. exists p. tauto.
  - intro h. split.
    + intro I. apply (Permutation_in _ P) in I. apply filter_In in I. destruct I as [I E]. split; [exact I|].
      apply negb_true_iff in E. apply String.eqb_neq in E. exact E.
    + intros [I E]. apply (Permutation_in _ (Permutation_sym P)). apply filter_In. split; [exact I|].
      apply String.eqb_neq in E. rewrite E. reflexivity.
Qed.

(** Removing a handler: also the first part of registering one. *)
Lemma dereg_inv : forall i hist b key, binv hist b ->
  binv (OpDeregisterHandler key :: hist) (deregister_handler matches shuffle i key b) /\
  br_next (deregister_handler matches shuffle i key b) = br_next b.
Proof.
  intros i hist b key I. unfold deregister_handler.
  destruct (lookup key (br_handlers b)) as [h0|] eqn:E.
  - destruct (subs_spec i key b h0 (bi_nt _ _ I) E) as [ND SB].
    pose proof (dereg_loop key (topic_subscriptions matches shuffle i key b) b ND) as (A & N & B & C). cbn zeta in *.
    set (b1 := fold_left (fun b t => deregister_topic_handler t key b) (topic_subscriptions matches shuffle i key b) b) in *.
    split; [|exact N]. constructor; cbn [br_topics br_handlers].
    + apply B. apply I.
    + apply nodup_delete. rewrite A. apply I.
    + intro k. rewrite lookup_delete, A. cbn [handler_known]. destruct (String.eqb key k); [reflexivity|]. apply I.
    + intro t. cbn [topic_known]. rewrite (bi_t _ _ I), C. unfold on_topic.
      destruct (existsb (String.eqb t) _), (lookup t (br_topics b)); reflexivity.
    + intros t l L. rewrite C in L. unfold on_topic in L. rewrite SB in L.
      destruct (lookup t (br_topics b)) as [l0|] eqn:L0; [|destruct (matches (hd_matcher h0) t && false); discriminate].
      rewrite andb_true_r in L. destruct (bi_l _ _ I t l0 L0) as [NK IF].
      assert (G : NoDup (map hd_key l) /\ forall h, In h l <-> In h l0 /\ hd_key h <> key).
      { destruct (matches (hd_matcher h0) t) eqn:M; inversion L; subst.
        - apply swap_remove_spec. exact NK.
        - split; [exact NK|]. intro h. split; [|tauto]. intro H. split; [exact H|]. intro K.
          apply IF in H. destruct H as [H M2]. rewrite K, E in H. inversion H; subst. congruence. }
      destruct G as [G1 G2]. split; [exact G1|]. intro h. rewrite G2, IF, lookup_delete, A.
      destruct (String.eqb_spec key (hd_key h)) as [K|K]; split.
      * intros [_ X]. congruence.
      * intros [X _]. discriminate.
      * tauto.
      * intros [X Y]. split; [tauto|congruence].
  - split; [|reflexivity]. constructor; try apply I.
    intro k. cbn [handler_known]. destruct (String.eqb_spec key k) as [->|]; [|apply I]. exact E.
Qed.

Lemma reg_inv : forall i hist b key m f, binv hist b ->
  binv (OpRegisterHandler key m f :: hist) (register_handler matches shuffle i key (mkHandler "" m f) b) /\
  br_next (register_handler matches shuffle i key (mkHandler "" m f) b) = br_next b.
Proof.
  intros i hist b key m f I. unfold register_handler.
  destruct (dereg_inv (2 * i) hist b key I) as [J NX]. set (b1 := deregister_handler matches shuffle (2 * i) key b) in *.
  cbn [hd_matcher hd_fn]. set (h := mkHandler key m f). set (b2 := mkBroker (br_next b1) (br_topics b1) (store key h (br_handlers b1))).
  assert (E : lookup key (br_handlers b2) = Some h) by (cbn; rewrite lookup_store, String.eqb_refl; reflexivity).
  destruct (subs_spec (2 * i + 1) key b2 h (bi_nt _ _ J) E) as [ND SB].
  pose proof (reg_loop h (topic_subscriptions matches shuffle (2 * i + 1) key b2) b2 ND) as G.
  assert (EX : forall t, In t (topic_subscriptions matches shuffle (2 * i + 1) key b2) -> lookup t (br_topics b2) <> None).
  { intros t IT NN. assert (X : existsb (String.eqb t) (topic_subscriptions matches shuffle (2 * i + 1) key b2) = true).
    { apply existsb_exists. exists t. split; [exact IT|apply String.eqb_refl]. }
    rewrite SB, NN, andb_false_r in X. discriminate. }
  destruct (G EX) as (A & N & B & C). clear G. cbn zeta in *.
  set (b3 := fold_left (fun b t => register_topic_handler t h b) (topic_subscriptions matches shuffle (2 * i + 1) key b2) b2) in *.
  split; [|rewrite N; exact NX].
  assert (LH : forall k, lookup k (br_handlers b3) = if String.eqb key k then Some h else lookup k (br_handlers b1)).
  { intro k. rewrite A. cbn. apply lookup_store. }
  assert (NOK : lookup key (br_handlers b1) = None).
  { rewrite (bi_h _ _ J). cbn [handler_known]. rewrite String.eqb_refl. reflexivity. }
  constructor.
  - apply B. apply J.
  - rewrite A. apply nodup_store. apply J.
  - intro k. rewrite LH. cbn [handler_known]. destruct (String.eqb_spec key k) as [->|NE]; [reflexivity|].
    rewrite (bi_h _ _ J). cbn [handler_known]. apply String.eqb_neq in NE. rewrite NE. reflexivity.
  - intro t. pose proof (bi_t _ _ J t) as X. cbn [topic_known] in *. rewrite X, C. unfold on_topic. cbn [br_topics b2].
    destruct (existsb (String.eqb t) _), (lookup t (br_topics b1)); reflexivity.
  - intros t l L. rewrite C in L. unfold on_topic in L. rewrite SB in L. cbn [br_topics b2] in L.
    destruct (lookup t (br_topics b1)) as [l0|] eqn:L0; [|destruct (matches (hd_matcher h) t && false); discriminate].
    rewrite andb_true_r in L. destruct (bi_l _ _ J t l0 L0) as [NK IF].
    assert (NK0 : ~ In key (map hd_key l0)).
    { intro X. apply in_map_iff in X. destruct X as (x & X & Y). apply IF in Y. destruct Y as [Y _]. rewrite X, NOK in Y. discriminate. }
    destruct (matches (hd_matcher h) t) eqn:M; inversion L; subst.
    + split.
      * rewrite map_app. cbn. apply (Permutation_NoDup (Permutation_cons_append _ _)). constructor; assumption.
      * intro x. rewrite in_app_iff, IF, LH. cbn. destruct (String.eqb_spec key (hd_key x)) as [K|K]; split.
        -- intros [[X _]|[X|[]]]; [rewrite <- K, NOK in X; discriminate|]. subst x. auto.
        -- intros [X Y]. inversion X. auto.
        -- intros [X|[X|[]]]; [exact X|]. subst x. destruct K. reflexivity.
        -- tauto.
    + split; [exact NK|]. intro x. rewrite IF, LH. destruct (String.eqb_spec key (hd_key x)) as [K|K]; [|tauto].
      split; [intros [X _]; rewrite <- K, NOK in X; discriminate|]. intros [X Y]. inversion X; subst x. congruence.
Qed.

Lemma topic_inv : forall i hist b t, binv hist b -> binv (OpRegisterTopic t :: hist) (register_topic matches shuffle i t b) /\
  br_next (register_topic matches shuffle i t b) = br_next b.
Proof.
  intros i hist b t I. unfold register_topic. destruct (lookup t (br_topics b)) as [l|] eqn:E; (split; [|reflexivity]).
  - constructor; try apply I. intro t'. cbn [topic_known]. destruct (String.eqb_spec t t') as [->|]; [rewrite E; reflexivity|apply I].
  - constructor; cbn [br_topics br_handlers]; try apply I.
    + apply nodup_store. apply I.
    + intro t'. cbn [topic_known]. rewrite lookup_store. destruct (String.eqb t t'); [reflexivity|apply I].
    + intros t' l L. rewrite lookup_store in L. destruct (String.eqb_spec t t') as [->|NE]; [|apply (bi_l _ _ I); exact L].
      inversion L; subst l. unfold build_handlers.
      pose proof (SH i handler (br_handlers b)) as P. set (m := shuffle i handler (br_handlers b)) in *.
      assert (NM : NoDup (keys m)).
      { eapply Permutation_NoDup; [apply Permutation_map; symmetry; exact P|apply I]. }
      assert (KE : forall p, In p m -> hd_key (snd p) = fst p).
      { intros [k h] IP. apply (Permutation_in _ P) in IP. apply (lookup_in _ _ _ (bi_nh _ _ I)) in IP. cbn. eapply key_of; eassumption. }
      split.
      * rewrite map_map. rewrite (map_ext_in _ fst) by (intros p IP; apply filter_In in IP; apply KE; apply IP).
        apply nodup_filter_keys. exact NM.
      * intro h. rewrite in_map_iff. split.
        -- intros ([k h'] & X & IP). cbn in X. subst h'. apply filter_In in IP. destruct IP as [IP M]. cbn in M.
           assert (K : hd_key h = k) by (apply (KE _ IP)). rewrite K. split; [|exact M].
           apply (lookup_in _ _ _ (bi_nh _ _ I)). apply (Permutation_in _ P). exact IP.
        -- intros [X M]. exists (hd_key h, h). split; [reflexivity|]. apply filter_In. split; [|exact M].
           apply (Permutation_in _ (Permutation_sym P)). apply (lookup_in _ _ _ (bi_nh _ _ I)). exact X.
Qed.
Lemma untopic_inv : forall hist b t, binv hist b -> binv (OpDeregisterTopic t :: hist) (deregister_topic t b).
Proof.
  intros hist b t I. constructor; cbn [br_topics br_handlers deregister_topic]; try apply I.
  - apply nodup_delete. apply I.
  - intro t'. cbn [topic_known]. rewrite lookup_delete. destruct (String.eqb t t'); [reflexivity|apply I].
  - intros t' l L. rewrite lookup_delete in L. destruct (String.eqb t t'); [discriminate|]. apply (bi_l _ _ I). exact L.
Qed.

Definition emitted (o : option (list delivery)) : list nat := match o with Some (d :: _) => [dl_id d] | _ => [] end.
Lemma emit_inv : forall hist b t tx, binv hist b ->
  binv (OpEmit t tx :: hist) (snd (emit t tx b)) /\
  match fst (emit t tx b) with
  | None => topic_known hist t = false
  | Some ds => topic_known hist t = true /\ NoDup (map dl_key ds) /\
      (forall k m f, (exists d, In d ds /\ dl_key d = k /\ dl_fn d = f /\ handler_known hist k = Some (m, f)) <->
                     (handler_known hist k = Some (m, f) /\ matches m t = true)) /\
      (forall d, In d ds -> exists m, handler_known hist (dl_key d) = Some (m, dl_fn d) /\ matches m t = true) /\
      exists id x, Forall (fun d => dl_id d = id /\ dl_tx d = x) ds /\ br_next b < id <= br_next (snd (emit t tx b)) /\
        match tx with Some s => x = Given s | None => exists n, x = Generated n /\ br_next b < n < id end
  end.
Proof.
  intros hist b t tx I. unfold emit. destruct (lookup t (br_topics b)) as [l|] eqn:E.
  - set (tn := match tx with Some s => (Given s, br_next b) | None => (Generated (br_next b + 1), br_next b + 1) end).
    destruct tn as [x n] eqn:TN. cbn [fst snd]. split.
    { constructor; cbn [br_topics br_handlers]; try apply I. }
    destruct (bi_l _ _ I t l E) as [NK IF].
    assert (KN : forall h, In h l -> handler_known hist (hd_key h) = Some (hd_matcher h, hd_fn h) /\ matches (hd_matcher h) t = true).
    { intros h H. apply IF in H. destruct H as [H M]. split; [|exact M]. rewrite (bi_h _ _ I) in H.
      destruct (handler_known hist (hd_key h)) as [[m f]|]; [|discriminate]. cbn in H. inversion H as [H1]. rewrite <- H1. reflexivity. }
    split; [rewrite (bi_t _ _ I), E; reflexivity|]. split; [rewrite map_map; exact NK|]. split; [|split].
    + intros k m f. split.
      * intros (d & D & K & F & HK). split; [exact HK|]. apply in_map_iff in D. destruct D as (h & D & H). subst d. cbn in *.
        destruct (KN h H) as [A B]. rewrite K, HK in A. inversion A; subst. exact B.
      * intros [HK M]. exists (mkDelivery f k (n + 1) x). split; [|auto]. apply in_map_iff. exists (mkHandler k m f).
        split; [reflexivity|]. apply IF. cbn. split; [|exact M]. rewrite (bi_h _ _ I), HK. reflexivity.
    + intros d D. apply in_map_iff in D. destruct D as (h & D & H). subst d. cbn. exists (hd_matcher h). apply KN. exact H.
    + exists (n + 1), x. split; [apply Forall_forall; intros d D; apply in_map_iff in D; destruct D as (h & D & _); subst d; auto|].
      cbn. subst tn. destruct tx; inversion TN; subst; [split; [lia|reflexivity]|]. split; [lia|].
      eexists. split; [reflexivity|lia].
  - cbn [fst snd]. split; [constructor; try apply I|]. rewrite (bi_t _ _ I), E. reflexivity.
Qed.

Lemma start_inv : binv [] new_broker.
Proof. constructor; cbn; try constructor; auto; discriminate. Qed.

Lemma op_inv : forall i op hist b, binv hist b ->
  binv (op :: hist) (fst (apply_op matches shuffle i op b)) /\ br_next b <= br_next (fst (apply_op matches shuffle i op b)).
Proof.
  intros i op hist b I. destruct op as [t|t|k m f|k|t tx]; cbn [apply_op fst].
  - destruct (topic_inv i hist b t I) as [A ->]. auto.
  - split; [apply untopic_inv; exact I|reflexivity].
  - destruct (reg_inv i hist b k m f I) as [A ->]. auto.
  - destruct (dereg_inv i hist b k I) as [A ->]. auto.
  - pose proof (emit_inv hist b t tx I) as [A _]. unfold emit in *.
    destruct (lookup t (br_topics b)); [|cbn in *; auto]. destruct tx; cbn in *; split; auto; lia.
Qed.
Lemma ops_inv : forall ops i hist b, binv hist b ->
  binv (rev ops ++ hist) (fst (apply_ops matches shuffle i ops b)) /\ br_next b <= br_next (fst (apply_ops matches shuffle i ops b)).
Proof.
  induction ops as [|op ops IH]; intros i hist b I; [cbn; auto|]. cbn [apply_ops].
  pose proof (op_inv i op hist b I) as [J L]. destruct (apply_op matches shuffle i op b) as [b1 o1]. cbn [fst] in *.
  specialize (IH (S i) _ b1 J). destruct (apply_ops matches shuffle (S i) ops b1) as [b2 o2]. cbn [fst] in *.
  destruct IH as [A B]. split; [|lia]. cbn [rev]. rewrite <- app_assoc. exact A.
Qed.
End Run.
