(** Filters are only asked about nodes which are named by their paths: a session,
    and its spawn resume, with filters which agree on those. *)
From Verif Require Import Base Paths Level Kernel Session Spec KernelRel KernelFacts WalkFacts AskFacts Filters SpecFilter Resume.

Definition named (n : node) : Prop := own n /\ n_name n = snd (split_path (n_path n)) /\ n_isdir n = fisdir (n_src n).
Lemma named_extend : forall c tree n k s, n_isdir n = fisdir (n_src n) -> named (extend c tree n k s).
Proof.
  intros c tree n k s D. split; [apply own_extend|]. split; [|unfold extend; destruct (split_path (n_path n)); exact D]. unfold extend. destruct (split_path (n_path n)) as [a b] eqn:E.
  cbn [with_extension n_name n_path]. rewrite E. reflexivity.
Qed.
Lemma named_same : forall n m, same_node n m -> named n -> named m.
Proof. intros n m [cs ->] H. exact H. Qed.

Section Ask.
Variable c : cfg.
Variables q1 q2 : node -> asked bool.
Variable ch : option (list fsnode -> asked (list fsnode)).
Variable cl : list event -> node -> cbres.
Hypothesis AG : forall n, named n -> q1 n = q2 n.
Notation c1 := (with_features (Some (mkScheme (Some (PrimaryNode q1)) ch)) None cl c).
Notation c2 := (with_features (Some (mkScheme (Some (PrimaryNode q2)) ch)) None cl c).

Lemma named_iterate : forall rs n k s, named n -> iterate c1 rs n k s = iterate c2 rs n k s.
Proof.
  induction rs as [|r rs IH]; intros n k s P; [reflexivity|]. cbn [iterate].
  assert (L : link_next c1 r n k s = link_next c2 r n k s).
  { destruct r; try reflexivity. cbn [link_next]. unfold filter_next. cbn [c_scheme with_features sc_primary sc_child primary_next].
    unfold match_next. rewrite AG by exact P. reflexivity. }
  rewrite L. destruct (link_next c2 r n k s) as [[lo n1] s1] eqn:N.
  destruct (link_step _ _ _ _ _ _ _ _ N) as (_ & S & _).
  destruct lo as [[[|] [e|]]|p|]; try reflexivity. apply IH. eapply named_same; eassumption.
Qed.
Lemma named_traverse : forall f tree n s, n_isdir n = fisdir (n_src n) -> traverse f c1 tree n s = traverse f c2 tree n s.
Proof.
  induction f as [|f IH]; intros tree n s D; [reflexivity|]. cbn [traverse].
  change (descend c1 n s) with (descend c2 n s). destruct (descend c2 n s) as [ok s1]. destruct ok; [|reflexivity].
  assert (E : traverse_body c1 (traverse f c1 tree) tree n s1 = traverse_body c2 (traverse f c2 tree) tree n s1);
    [|rewrite E; reflexivity].
  unfold traverse_body.
  change (inspect c1 n) with (inspect c n). change (inspect c2 n) with (inspect c n).
  destruct (inspect c n) as [[k es] err] eqn:I.
  change (extend c1 tree n k s1) with (extend c tree n k s1). change (extend c2 tree n k s1) with (extend c tree n k s1).
  pose proof (named_extend c tree n k s1 D) as PN. set (n1 := extend c tree n k s1) in *.
  assert (TE : forall m s, travel c1 (traverse f c1 tree) m es s = travel c2 (traverse f c2 tree) m es s).
  { intros m s0. unfold travel.
    assert (X : travel_loop (traverse f c1 tree) m 0 es s0 = travel_loop (traverse f c2 tree) m 0 es s0).
    { clear I. generalize 0. revert s0. induction es as [|e es0 IHe]; intros s0 i; [reflexivity|]. cbn [travel_loop].
      rewrite IH by reflexivity. destruct (traverse f c2 tree (child_node m i e) s0) as [[[[|] [er|]]|p|] s2]; try reflexivity; rewrite ?IHe; reflexivity. }
    rewrite X. destruct (travel_loop (traverse f c2 tree) m 0 es s0) as [[r|pv|] s2]; reflexivity. }
  change (c_sub c1) with (c_sub c2). change (c_ask c1) with (c_ask c2).
  assert (IN : invoke c1 n1 k s1 = invoke c2 n1 k s1) by (unfold invoke; rewrite named_iterate by exact PN; reflexivity).
  rewrite IN. destruct (invoke c2 n1 k s1) as [[io n2] s2].
  destruct (c_sub c2).
  - destruct (n_isdir n1); [|reflexivity].
    destruct err as [e|]; (destruct (c_ask c2 n1 k _) as [[] [?|]]; try reflexivity; try (rewrite TE; reflexivity)).
  - destruct io as [[e|]|p|]; try reflexivity.
    destruct (c_ask c2 n2 k err) as [[] [?|]]; try reflexivity; rewrite TE; reflexivity.
  - destruct io as [[e|]|p|]; try reflexivity.
    destruct (c_ask c2 n2 k err) as [[] [?|]]; try reflexivity; rewrite TE; reflexivity.
  - destruct io as [[e|]|p|]; try reflexivity.
    destruct (c_ask c2 n2 k err) as [[] [?|]]; try reflexivity; rewrite TE; reflexivity.
Qed.
Lemma named_top : forall root t s, top c1 root t s = top c2 root t s.
Proof.
  intros root t s. unfold top. change (c_stat c1) with (c_stat c2). change (c_fault c1) with (c_fault c2).
  destruct (c_stat c2 t); [reflexivity|]. rewrite named_traverse by reflexivity. reflexivity.
Qed.
Lemma named_session : forall sampling t, session c1 sampling t = session c2 sampling t.
Proof.
  intros sampling t. unfold session, navigate. change (c_tree c1) with (c_tree c2).
  change (start_st c1 sampling) with (start_st c2 sampling). rewrite named_top. reflexivity.
Qed.
Lemma named_seed : forall pc dk parent es s, seed c1 pc dk parent es s = seed c2 pc dk parent es s.
Proof.
  intros pc dk parent es. induction es as [|e es IH]; intro s; [reflexivity|]. cbn [seed]. rewrite named_top.
  destruct (top c2 _ _ s) as [[[er|]|p|] s1]; try reflexivity. apply IH.
Qed.
Lemma named_crown : forall pc dk tree fuel current incl s,
  crown fuel c1 pc dk tree current incl s = crown fuel c2 pc dk tree current incl s.
Proof.
  intros pc dk tree fuel. induction fuel as [|k IH]; intros current incl s; [reflexivity|]. cbn [crown].
  destruct (String.eqb current tree); [reflexivity|]. destruct (pc_split pc current) as [parent child].
  change (following c1 dk parent child incl) with (following c2 dk parent child incl).
  destruct (following c2 dk parent child incl) as [sib [er|]]; [reflexivity|]. rewrite named_seed.
  destruct (seed c2 pc dk parent sib s) as [[[er|]|p|] s1]; try reflexivity. apply IH.
Qed.
Lemma named_spawn : forall sampling pc dk sv, spawn_session c1 sampling pc dk sv = spawn_session c2 sampling pc dk sv.
Proof.
  intros sampling pc dk sv. unfold spawn_session.
  change (init_st (session_items c1 sampling SpawnPlugin) (start_hib c1)) with (init_st (session_items c2 sampling SpawnPlugin) (start_hib c2)).
  cbv zeta.
  change (bridge c1 sv) with (bridge c2 sv). change (c_tree c1) with (c_tree c2). rewrite named_crown. reflexivity.
Qed.
End Ask.

Lemma named_fastward : forall c q1 q2 ch cl, (forall n, named n -> q1 n = q2 n) -> forall linked sampling pc dk sv,
  fastward_session linked (with_features (Some (mkScheme (Some (PrimaryNode q1)) ch)) None cl c) sampling pc dk sv =
  fastward_session linked (with_features (Some (mkScheme (Some (PrimaryNode q2)) ch)) None cl c) sampling pc dk sv.
Proof.
  intros c q1 q2 ch cl AG linked sampling pc dk sv. unfold fastward_session.
  pose proof (named_top (set_fast (Some (fast_of pc sv)) c) q1 q2 ch cl AG (sv_tree sv) (dk (sv_tree sv))) as T.
  cbv zeta.
  set (k1 := set_fast (Some (fast_of pc sv)) (with_features (Some (mkScheme (Some (PrimaryNode q1)) ch)) None cl c)).
  set (k2 := set_fast (Some (fast_of pc sv)) (with_features (Some (mkScheme (Some (PrimaryNode q2)) ch)) None cl c)).
  change (forall s, top k1 (sv_tree sv) (dk (sv_tree sv)) s = top k2 (sv_tree sv) (dk (sv_tree sv)) s) in T.
  change (init_st (session_items k1 sampling (if linked then FastwardPlugin else SpawnPlugin)) (start_hib k1))
    with (init_st (session_items k2 sampling (if linked then FastwardPlugin else SpawnPlugin)) (start_hib k2)).
  change (c_tree k1) with (c_tree k2). rewrite T. reflexivity.
Qed.
