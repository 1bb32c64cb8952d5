(** Filters and conditions are only asked about nodes as the traversal makes
    them: two sessions whose filters agree on those are the same. *)
From Verif Require Import Base Paths Level Kernel Session Spec KernelRel KernelFacts WalkFacts Filters SpecFilter FiltersFacts.

Definition own (n : node) : Prop := scope_ok n /\ file_bit n /\ dir_bit n.
(** The parent is a directory; the node without a parent is the root [t]. *)
Definition below (t : fsnode) (n : node) : Prop :=
  n_isdir n = fisdir (n_src n) /\
  match n_parent n with Some p => own p /\ n_isdir p = true | None => n_src n = t end.
Definition proper (t : fsnode) (n : node) : Prop := own n /\ below t n.

Lemma own_extend : forall c tree n k s, own (extend c tree n k s).
Proof.
  intros c tree n k s. unfold extend.
  set (leaf := n_isdir n && _). destruct (split_path (n_path n)) as [pa nm].
  unfold own, scope_ok, file_bit, dir_bit. cbn [with_extension n_scope n_isdir].
  destruct (n_isdir n).
  - unfold per_scope. destruct leaf; cbn [andb]; destruct (per_depth (s_depth s) =? 0)%Z, (per_depth (s_depth s) =? 1)%Z;
      vm_compute; intuition (discriminate || congruence).
  - vm_compute; intuition (discriminate || congruence).
Qed.
Lemma own_same : forall n m, same_node n m -> own n -> own m.
Proof. intros n m [cs ->] H. exact H. Qed.
Lemma proper_same : forall t n m, same_node n m -> proper t n -> proper t m.
Proof. intros t n m [cs ->] H. exact H. Qed.

(** The same answers about proper nodes. *)
Inductive agree_cond (t : fsnode) : option (node -> asked bool) -> option (node -> asked bool) -> Prop :=
| agc_none : agree_cond t None None
| agc_some : forall f g, (forall n, proper t n -> f n = g n) -> agree_cond t (Some f) (Some g).
Inductive agree_scheme (t : fsnode) : option scheme -> option scheme -> Prop :=
| ags_same : forall sc, agree_scheme t sc sc
| ags_node : forall f g ch, (forall n, proper t n -> f n = g n) ->
    agree_scheme t (Some (mkScheme (Some (PrimaryNode f)) ch)) (Some (mkScheme (Some (PrimaryNode g)) ch)).
Inductive agree_hib (t : fsnode) : option hibcfg -> option hibcfg -> Prop :=
| agh_none : agree_hib t None None
| agh_some : forall w w' s s' iw is, agree_cond t w w' -> agree_cond t s s' ->
    agree_hib t (Some (mkHib w s iw is)) (Some (mkHib w' s' iw is)).

Section Ask.
Variable t : fsnode.
Variable c : cfg.
Variables sc1 sc2 : option scheme.
Variables h1 h2 : option hibcfg.
Variable cl : list event -> node -> cbres.
Hypothesis AS : agree_scheme t sc1 sc2.
Hypothesis AH : agree_hib t h1 h2.
(** Only directories have entries. *)
Hypothesis RD : forall p e, fisdir e = false -> fst (c_read c p e) = [].
Hypothesis SO : forall l, l = [] -> c_sort c l = [].
Notation c1 := (with_features sc1 h1 cl c).
Notation c2 := (with_features sc2 h2 cl c).

Lemma filter_next_ask : forall n k s, proper t n -> filter_next c1 n k s = filter_next c2 n k s.
Proof.
  intros n k s P. unfold filter_next. cbn [c_scheme with_features].
  destruct AS as [sc|f g ch E]; [reflexivity|]. cbn [sc_primary sc_child primary_next]. unfold match_next.
  rewrite E by exact P. reflexivity.
Qed.
Lemma hib_next_ask : forall n s, proper t n -> hib_next c1 n s = hib_next c2 n s.
Proof.
  intros n s P. unfold hib_next. cbn [c_hib with_features].
  destruct AH as [|w w' sl sl' iw is W S]; [reflexivity|]. unfold hb_wake, hb_sleep. cbn [hb_wake_at hb_sleep_at hb_incl_wake hb_incl_sleep].
  assert (EW : (match w with Some f => f n | None => inl true end) = match w' with Some f => f n | None => inl true end).
  { destruct W as [|f g E]; [reflexivity|apply E, P]. }
  assert (ES : (match sl with Some f => f n | None => inl false end) = match sl' with Some f => f n | None => inl false end).
  { destruct S as [|f g E]; [reflexivity|apply E, P]. }
  rewrite EW, ES. reflexivity.
Qed.
Lemma iterate_ask : forall rs n k s, proper t n -> iterate c1 rs n k s = iterate c2 rs n k s.
Proof.
  induction rs as [|r rs IH]; intros n k s P; [reflexivity|]. cbn [iterate].
  assert (L : link_next c1 r n k s = link_next c2 r n k s).
  { destruct r; try reflexivity; [apply filter_next_ask; exact P|apply hib_next_ask; exact P]. }
  rewrite L. destruct (link_next c2 r n k s) as [[lo n1] s1] eqn:N.
  destruct (link_step _ _ _ _ _ _ _ _ N) as (_ & S & _).
  destruct lo as [[[|] [e|]]|p|]; try reflexivity. apply IH. eapply proper_same; eassumption.
Qed.

Lemma inspect_dir : forall n k es err, inspect c n = (k, es, err) -> fisdir (n_src n) = n_isdir n -> n_isdir n = true \/ es = [].
Proof.
  intros n k es err I F. destruct (n_isdir n) eqn:D; [left; reflexivity|right]. unfold inspect in I. rewrite D in I.
  assert (R : forall x, read_contents c n = x -> fst x = ([], [])).
  { intros x <-. unfold read_contents. pose proof (RD (n_path n) (n_src n) F) as R. destruct (c_read c (n_path n) (n_src n)). cbn in R.
    subst. reflexivity. }
  destruct (c_sub c); try (inversion I; reflexivity);
    (destruct (read_contents c n) as [[fs ds] er] eqn:X; pose proof (R _ eq_refl) as Y; cbn in Y; inversion Y; subst;
     inversion I; subst; apply SO; reflexivity).
Qed.

Lemma traverse_ask : forall f tree n s, below t n ->
  traverse f c1 tree n s = traverse f c2 tree n s.
Proof.
  induction f as [|f IH]; intros tree n s B; [reflexivity|]. cbn [traverse].
  change (descend c1 n s) with (descend c2 n s). destruct (descend c2 n s) as [ok s1]. destruct ok; [|reflexivity].
  assert (E : traverse_body c1 (traverse f c1 tree) tree n s1 = traverse_body c2 (traverse f c2 tree) tree n s1);
    [|rewrite E; reflexivity].
  unfold traverse_body.
  change (inspect c1 n) with (inspect c n). change (inspect c2 n) with (inspect c n).
  destruct (inspect c n) as [[k es] err] eqn:I.
  change (extend c1 tree n k s1) with (extend c tree n k s1). change (extend c2 tree n k s1) with (extend c tree n k s1).
  pose proof (own_extend c tree n k s1) as O.
  destruct (extend_fields c tree n k s1) as (_ & EF & ED & _ & EP & _ & _).
  set (n1 := extend c tree n k s1) in *.
  assert (PN : proper t n1) by (split; [exact O|]; unfold below; rewrite EF, ED, EP; exact B).
  assert (TE : forall m s, same_node n1 m -> travel c1 (traverse f c1 tree) m es s = travel c2 (traverse f c2 tree) m es s).
  { intros m s0 SN. unfold travel. destruct (inspect_dir _ _ _ _ I (eq_sym (proj1 B))) as [D|D].
    - assert (X : travel_loop (traverse f c1 tree) m 0 es s0 = travel_loop (traverse f c2 tree) m 0 es s0).
      { clear I. generalize 0. revert s0. induction es as [|e es0 IHe]; intros s0 i; [reflexivity|]. cbn [travel_loop].
        rewrite IH; [|split; [reflexivity|]; cbn; split; [eapply own_same; eassumption|]].
        - destruct (traverse f c2 tree (child_node m i e) s0) as [[[[|] [er|]]|p|] s2]; try reflexivity; rewrite ?IHe; reflexivity.
        - destruct (same_fields _ _ SN) as (_ & _ & SD & _). rewrite SD, ED. exact D. }
      rewrite X. destruct (travel_loop (traverse f c2 tree) m 0 es s0) as [[r|pv|] s2]; reflexivity.
    - rewrite D. reflexivity. }
  change (c_sub c1) with (c_sub c2). change (c_ask c1) with (c_ask c2).
  assert (IN : invoke c1 n1 k s1 = invoke c2 n1 k s1) by (unfold invoke; rewrite iterate_ask by exact PN; reflexivity).
  rewrite IN. destruct (invoke c2 n1 k s1) as [[io n2] s2] eqn:IV.
  destruct (invoke_step _ _ _ _ _ _ _ IV) as (_ & SN & _).
  destruct (c_sub c2).
  - destruct (n_isdir n1); [|reflexivity].
    destruct err as [e|]; (destruct (c_ask c2 n1 k _) as [[] [?|]]; try reflexivity; try (rewrite TE by apply same_refl; reflexivity)).
  - destruct io as [[e|]|p|]; try reflexivity.
    destruct (c_ask c2 n2 k err) as [[] [?|]]; try reflexivity; rewrite TE by assumption; reflexivity.
  - destruct io as [[e|]|p|]; try reflexivity.
    destruct (c_ask c2 n2 k err) as [[] [?|]]; try reflexivity; rewrite TE by assumption; reflexivity.
  - destruct io as [[e|]|p|]; try reflexivity.
    destruct (c_ask c2 n2 k err) as [[] [?|]]; try reflexivity; rewrite TE by assumption; reflexivity.
Qed.

Lemma session_ask : forall sampling, session c1 sampling t = session c2 sampling t.
Proof.
  intros sampling. unfold session, navigate, top.
  assert (ST : start_st c1 sampling = start_st c2 sampling).
  { unfold start_st. f_equal.
    - unfold session_items, active_roles. cbn [c_hib c_scheme c_sub with_features].
      destruct AH, AS; reflexivity.
    - unfold start_hib. cbn [c_hib with_features]. destruct AH as [|w w' sl sl' iw is W S]; [reflexivity|]. destruct W; reflexivity. }
  rewrite ST. change (c_stat c1) with (c_stat c2). change (c_fault c1) with (c_fault c2). change (c_tree c1) with (c_tree c2).
  destruct (c_stat c2 t); [reflexivity|]. rewrite traverse_ask; [reflexivity|]. split; reflexivity.
Qed.
End Ask.
