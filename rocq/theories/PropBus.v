(** Properties C51, C80, C81: the message bus. Vocabulary: SpecBus.v: what is
    registered after a history of operations (latest first). *)
From Verif Require Import Base Bus SpecBus BusFacts Race RaceFacts.
From Coq Require Import Permutation Lia.
Local Open Scope string_scope.

Lemma rev_repeat : forall (A : Type) (x : A) n, rev (repeat x n) = repeat x n.
Proof.
  intros A x n. induction n as [|n IH]; [reflexivity|]. cbn [repeat rev]. rewrite IH. clear IH.
  induction n as [|n IH]; [reflexivity|]. cbn [repeat app]. rewrite IH. reflexivity.
Qed.

(** The broker after these operations on a new one. *)
Definition after (matches : string -> string -> bool) (shuffle : nat -> forall V : Type, list (string * V) -> list (string * V))
    (ops : list bus_op) : broker := fst (apply_ops matches shuffle 0 ops new_broker).

(** *** C51 *)
(** Whatever happened before, and in whatever order Go goes through maps: Emit is
    an error just when the topic is not registered; otherwise it calls, once each,
    the handlers registered now whose matcher accepts the topic, and no other; all of them get
    the same message. *)
Theorem c51_emit_delivers : forall matches shuffle ops t tx, shuffles shuffle ->
  match fst (emit t tx (after matches shuffle ops)) with
  | None => topic_known (rev ops) t = false
  | Some ds =>
      topic_known (rev ops) t = true /\ NoDup (map dl_key ds) /\
      (forall k f, (exists d, In d ds /\ dl_key d = k /\ dl_fn d = f) <->
                   (exists m, handler_known (rev ops) k = Some (m, f) /\ matches m t = true)) /\
      exists id x, Forall (fun d => dl_id d = id /\ dl_tx d = x) ds /\
        match tx with Some s => x = Given s | None => exists n, x = Generated n end
  end.
Proof.
  intros matches shuffle ops t tx SH. unfold after.
  destruct (ops_inv matches shuffle SH ops 0 [] new_broker (start_inv matches)) as [I _]. rewrite app_nil_r in I.
  pose proof (emit_inv matches (rev ops) _ t tx I) as [_ H].
  destruct (fst (emit t tx (fst (apply_ops matches shuffle 0 ops new_broker)))) as [ds|]; [|exact H].
  destruct H as (A & B & C & D & id & x & F & _ & X). split; [exact A|]. split; [exact B|]. split.
  - intros k f. split.
    + intros (d & ID & K & FN). subst k f. exact (D d ID).
    + intros (m & HK & M). destruct (proj2 (C k m f) (conj HK M)) as (d & ID & K & FN & _). exists d. auto.
  - exists id, x. split; [exact F|]. destruct tx; [exact X|]. destruct X as (n & X & _). exists n. exact X.
Qed.
Print Assumptions c51_emit_delivers.

(** Deregistering removes exactly the handler with that key: every other delivery stays. *)
Theorem c51_deregister_removes_one : forall matches shuffle ops k t tx, shuffles shuffle ->
  match fst (emit t tx (after matches shuffle ops)), fst (emit t tx (after matches shuffle (ops ++ [OpDeregisterHandler k]))) with
  | Some d1, Some d2 => forall k' f, (exists d, In d d2 /\ dl_key d = k' /\ dl_fn d = f) <->
                          (k' <> k /\ exists d, In d d1 /\ dl_key d = k' /\ dl_fn d = f)
  | None, None => True
  | _, _ => False
  end.
Proof.
  intros matches shuffle ops k t tx SH.
  pose proof (c51_emit_delivers matches shuffle ops t tx SH) as A.
  pose proof (c51_emit_delivers matches shuffle (ops ++ [OpDeregisterHandler k]) t tx SH) as B.
  rewrite rev_app_distr in B. cbn [rev app topic_known handler_known] in B.
  destruct (fst (emit t tx (after matches shuffle ops))) as [d1|], (fst (emit t tx (after matches shuffle (ops ++ [OpDeregisterHandler k])))) as [d2|].
  - destruct A as (_ & _ & A & _), B as (_ & _ & B & _). intros k' f. rewrite A, B.
    destruct (String.eqb_spec k k') as [->|NE].
    + split; [intros (m & X & _); discriminate|intros [X _]; congruence].
    + split; [intro X; split; [congruence|exact X]|tauto].
  - destruct A as [A _]. congruence.
  - destruct B as [B _]. congruence.
  - exact Logic.I.
Qed.
Print Assumptions c51_deregister_removes_one.

(** Every message has an id of its own. *)
Theorem c51_ids_grow : forall matches shuffle ops1 t1 tx1 ops2 t2 tx2 ds1 ds2 d1 d2, shuffles shuffle ->
  fst (emit t1 tx1 (after matches shuffle ops1)) = Some ds1 ->
  fst (emit t2 tx2 (after matches shuffle (ops1 ++ OpEmit t1 tx1 :: ops2))) = Some ds2 ->
  In d1 ds1 -> In d2 ds2 -> dl_id d1 < dl_id d2.
Proof.
  intros matches shuffle ops1 t1 tx1 ops2 t2 tx2 ds1 ds2 d1 d2 SH E1 E2 I1 I2. unfold after in *.
  destruct (ops_inv matches shuffle SH ops1 0 [] new_broker (start_inv matches)) as [A _].
  assert (SPLIT : forall l1 l2 i b, fst (apply_ops matches shuffle i (l1 ++ l2) b) =
     fst (apply_ops matches shuffle (i + length l1) l2 (fst (apply_ops matches shuffle i l1 b)))).
  { induction l1 as [|op l1 IH]; intros l2 i b; cbn [app length]; [rewrite Nat.add_0_r; reflexivity|].
    cbn [apply_ops]. destruct (apply_op matches shuffle i op b) as [b1 o1]. specialize (IH l2 (S i) b1).
    destruct (apply_ops matches shuffle (S i) (l1 ++ l2) b1), (apply_ops matches shuffle (S i) l1 b1). cbn [fst] in *.
    rewrite IH. f_equal. f_equal. lia. }
  rewrite SPLIT in E2. set (b1 := fst (apply_ops matches shuffle 0 ops1 new_broker)) in *. cbn [Nat.add] in E2.
  cbn [apply_ops] in E2. pose proof (emit_inv matches _ b1 t1 tx1 A) as [J H1]. rewrite E1 in H1.
  destruct H1 as (_ & _ & _ & _ & id1 & x1 & F1 & L1 & _).
  assert (B : apply_op matches shuffle (length ops1) (OpEmit t1 tx1) b1 = (snd (emit t1 tx1 b1), [fst (emit t1 tx1 b1)])).
  { cbn [apply_op]. destruct (emit t1 tx1 b1). reflexivity. }
  rewrite B in E2. destruct (ops_inv matches shuffle SH ops2 (S (length ops1)) _ _ J) as [K L].
  destruct (apply_ops matches shuffle (S (length ops1)) ops2 (snd (emit t1 tx1 b1))) as [b2 o2]. cbn [fst] in *.
  pose proof (emit_inv matches _ b2 t2 tx2 K) as [_ H2]. rewrite E2 in H2. destruct H2 as (_ & _ & _ & _ & id2 & x2 & F2 & L2 & _).
  rewrite Forall_forall in F1, F2. destruct (F1 d1 I1) as [-> _], (F2 d2 I2) as [-> _]. lia.
Qed.
Print Assumptions c51_ids_grow.

Definition plain_match : string -> string -> bool := String.eqb.
Definition in_order : nat -> forall V : Type, list (string * V) -> list (string * V) := fun _ _ m => m.
Definition backwards : nat -> forall V : Type, list (string * V) -> list (string * V) := fun _ V m => rev m.
Example c51_case :
  shuffles in_order /\ shuffles backwards /\
  let ops := [OpRegisterHandler "a" "x" 1; OpRegisterTopic "x"; OpRegisterHandler "b" "x" 2; OpRegisterHandler "c" "x" 3;
              OpRegisterHandler "d" "y" 4; OpDeregisterHandler "a"; OpRegisterHandler "b" "y" 5; OpRegisterTopic "y"] in
  fst (emit "x" None (after plain_match in_order ops)) = Some [mkDelivery 3 "c" 2 (Generated 1)] /\
  option_map (map dl_fn) (fst (emit "y" (Some "q") (after plain_match in_order ops))) = Some [4; 5] /\
  option_map (map dl_fn) (fst (emit "y" (Some "q") (after plain_match backwards ops))) = Some [5; 4] /\
  fst (emit "z" None (after plain_match in_order ops)) = None.
Proof.
  split; [intros i V m; reflexivity|]. split; [intros i V m; symmetry; apply Permutation_rev|]. cbv zeta. repeat split; vm_compute; reflexivity.
Qed.

(** *** C80: sessions do not accumulate handlers on the bus of the process: after
    any number of sessions there is one for the end of navigation, and nothing for any other topic. *)
Theorem c80_sessions_leave_one_handler : forall matches shuffle n t tx, shuffles shuffle ->
  matches "topic:navigation.complete" "topic:navigation.complete" = true ->
  In t service_topics -> 
  exists ds, fst (emit t tx (after matches shuffle (map OpRegisterTopic service_topics ++ repeat driver_init (S n)))) = Some ds /\
    map dl_key ds = (if matches "topic:navigation.complete" t then ["badge: navigation-driver"] else []).
Proof.
  intros matches shuffle n t tx SH MM IT. set (ops := (map OpRegisterTopic service_topics ++ repeat driver_init (S n))%list).
  pose proof (c51_emit_delivers matches shuffle ops t tx SH) as H.
  assert (TK : topic_known (rev ops) t = true).
  { unfold ops. rewrite rev_app_distr.
    assert (G : forall l, Forall (fun op => op = driver_init) l -> forall r, topic_known (l ++ r) t = topic_known r t).
    { induction 1 as [|x l X L IH]; intro r; [reflexivity|]. subst x. cbn [app topic_known driver_init]. apply IH. }
    rewrite G.
    - cbn [map service_topics rev app topic_known]. cbn in IT.
      repeat match goal with |- (if String.eqb ?a t then true else _) = true => destruct (String.eqb_spec a t); [reflexivity|] end.
      exfalso. intuition congruence.
    - apply Forall_rev. apply Forall_forall. intros x X. apply repeat_spec in X. exact X. }
  assert (HK : forall k, handler_known (rev ops) k = if String.eqb "badge: navigation-driver" k then Some ("topic:navigation.complete", 0) else None).
  { intro k. unfold ops. rewrite rev_app_distr, rev_repeat.
    assert (G : forall j, handler_known (repeat driver_init j ++ rev (map OpRegisterTopic service_topics)) k =
      match j with 0 => None | S _ => if String.eqb "badge: navigation-driver" k then Some ("topic:navigation.complete", 0) else None end).
    { induction j as [|j IH]; [reflexivity|]. cbn [repeat app handler_known driver_init]. rewrite IH.
      destruct (String.eqb "badge: navigation-driver" k); [reflexivity|]. destruct j; reflexivity. }
    apply (G (S n)). }
  destruct (fst (emit t tx (after matches shuffle ops))) as [ds|]; [|congruence].
  exists ds. split; [reflexivity|]. destruct H as (_ & ND & IF & _).
  assert (KS : forall k, In k (map dl_key ds) <-> k = "badge: navigation-driver" /\ matches "topic:navigation.complete" t = true).
  { intro k. rewrite in_map_iff. split.
    - intros (d & K & ID). destruct (proj1 (IF k (dl_fn d)) (ex_intro _ d (conj ID (conj K eq_refl)))) as (m & X & M).
      rewrite HK in X. destruct (String.eqb_spec "badge: navigation-driver" k) as [<-|]; [|discriminate]. inversion X; subst. auto.
    - intros [-> M]. destruct (proj2 (IF "badge: navigation-driver" 0)) as (d & ID & K & _).
      + eexists. rewrite HK, String.eqb_refl. split; [reflexivity|exact M].
      + exists d. auto. }
  destruct (matches "topic:navigation.complete" t).
  - destruct (map dl_key ds) as [|a [|b l]].
    + exfalso. apply (proj2 (KS "badge: navigation-driver")). auto.
    + f_equal. apply (KS a). left. reflexivity.
    + exfalso. inversion ND as [|? ? NI _]; subst. apply NI. left.
      rewrite (proj1 (proj1 (KS a) (or_introl eq_refl))). apply (KS b). right. left. reflexivity.
  - destruct (map dl_key ds) as [|a l]; [reflexivity|]. exfalso. destruct (proj1 (KS a) (or_introl eq_refl)). discriminate.
Qed.
Print Assumptions c80_sessions_leave_one_handler.
Example c80_case :
  option_map (map dl_key) (fst (emit "topic:navigation.complete" None
    (after plain_match in_order (map OpRegisterTopic service_topics ++ repeat driver_init 3)))) = Some ["badge: navigation-driver"].
Proof. vm_compute. reflexivity. Qed.

(** *** C81: sessions may be started in several goroutines. Refuted: whatever has
    happened before, any two of them have a schedule in which they access a map of the
    bus at the same time, one of them writing. *)
Theorem c81_sessions_race_refuted : forall matches shuffle b l1 l2 l3, exists s,
  go_steps (l1 ++ goes (navigate_accesses matches shuffle b) :: l2 ++ goes (navigate_accesses matches shuffle b) :: l3) s /\ racing s.
Proof. exact two_sessions_race. Qed.
Print Assumptions c81_sessions_race_refuted.
(** Without another session they do not. *)
Theorem c81_one_session_partial : forall l i s, (forall j g, j <> i -> nth_error l j = Some g -> g = mkGo None []) ->
  go_steps l s -> ~ racing s.
Proof. exact one_session_no_race. Qed.
Print Assumptions c81_one_session_partial.
Example c81_case : forall acts j g, j <> 0 -> nth_error [goes acts; mkGo None []] j = Some g -> g = mkGo None [].
Proof. intros acts [|[|[|j]]] g NE E; cbn in E; congruence. Qed.
