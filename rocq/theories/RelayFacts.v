(** Facts about traversals finished by several sessions. *)
From Verif Require Import Base Paths Level Lo Kernel Session Spec KernelRel KernelFacts
  KernelInv WalkFacts StandsFacts JournalFacts SessionFacts RescueFacts FilesFacts BracketFacts WalkCor
  PathFacts WalkProps Simulate Feature CollectionsFacts Cases Resume SpecResume SpawnFacts RecoverFacts SpawnOrder
  ReadFacts FastFacts SpecInterrupt InterruptFacts SpecRelay.
From Coq Require Import Permutation Sorted.
Local Open Scope string_scope.
Local Open Scope list_scope.

Definition nils (cs : list (node * cbres)) : Prop := Forall (fun x => snd x = CNil) cs.
Definition at_places (cs : list (node * cbres)) : list place := map place_of (map fst cs).

Lemma nils_split : forall x y pre n p, x ++ y = pre ++ [(n, CPanic p)] -> nils pre ->
  (nils x /\ exists pre', y = pre' ++ [(n, CPanic p)] /\ pre = x ++ pre' /\ nils pre') \/ (x = pre ++ [(n, CPanic p)] /\ y = []).
Proof.
  intros x y pre n p E N. destruct y as [|z y0].
  - right. rewrite app_nil_r in E. split; [exact E|reflexivity].
  - left. destruct (exists_last (l := z :: y0) ltac:(discriminate)) as (y & w & EY). rewrite EY in *. clear z y0 EY.
    rewrite app_assoc in E. apply app_inj_tail in E. destruct E as [E ->]. rewrite <- E in *. unfold nils in *.
    apply Forall_app in N. destruct N as [N1 N2]. split; [exact N1|]. exists y. split; [reflexivity|]. split; [reflexivity|exact N2].
Qed.

Section Stretch.
Variable c : cfg.
Variable sampling : bool.
Variable pc : pathcalc.
Variable dk : disk.
Hypothesis HK : hooks_ok c.
Hypothesis DS : default_skip c.
Hypothesis PL : plain c.
Hypothesis SU : c_sub c = SubUniversal.
Hypothesis DZ : c_depth c = 0%N.

(** From a quiet state to another one, calling a stretch of [P]: all of it if
    every answer was nil. *)
Definition stretch (P : list place) (done : Prop) (s s1 : st) : Prop :=
  quiet_state c sampling s1 /\
  exists tr, s_trace s1 = s_trace s ++ tr /\
    (nils (calls tr) -> done /\ at_places (calls tr) = P) /\
    (forall pre n p, calls tr = pre ++ [(n, CPanic p)] -> nils pre ->
       (exists rest, P = at_places (calls tr) ++ rest) /\
       (forall d, n_parent n = Some d -> In (place_of d) (at_places pre))).

Lemma at_places_app : forall x y, at_places (x ++ y) = at_places x ++ at_places y.
Proof. intros. unfold at_places. rewrite !map_app. reflexivity. Qed.

Lemma top_stretch : forall path t s o s1 P, quiet_state c sampling s -> c_stat c t = None ->
  preorder (entries_all c) [] path t P -> top c path t s = (o, s1) -> stretch P (o = Ret None) s s1.
Proof.
  intros path t s o s1 P QS ST HP H.
  assert (EU : forall q u, entries_all c q u = entries c q u) by (intros; unfold entries; rewrite SU; reflexivity).
  assert (HP' : preorder (entries c) [] path t P) by (eapply (proj1 (preorder_ext (entries_all c) (entries c) EU)); exact HP).
  destruct (top_adequate _ _ _ _ _ _ HK ST H) as (ro & HR & CASE).
  destruct (run_journaled c sampling HK (plain_filter_ok _ PL) path _ _ _ _ HR QS eq_refl)
    as (IT & MU & DP & tr & J & T & O & CC & G & JJ & AN).
  destruct (plain_all_called _ PL _ _ _ _ JJ) as [E _].
  assert (CO : calls tr = offers tr) by (rewrite CC, O, E; reflexivity).
  destruct (top_stands c HK path t s o s1 ST H) as (tr' & T' & SD).
  rewrite T in T'. apply app_inv_head in T'. subst tr'.
  assert (FS : Forall (stands c (entries c) path path t (s_depth s)) (map fst (calls tr))).
  { apply calls_Forall. eapply Forall_impl; [|exact SD]. intros [] X; try exact I. exact X. }
  assert (NF : c_sub c <> SubFiles) by congruence.
  destruct (proj1 (walk_main c path (s_depth s) NF DS) _ _ _ _ HR eq_refl) with (P := P) (tr := tr)
    as [[[rest [EE Z]] STP] OUT]; try assumption; [cbn; lia|].
  assert (WT : filter (within (c_depth c) (s_depth s)) P = P) by (apply filter_true; intro q; rewrite DZ; apply within_0).
  rewrite WT in EE. rewrite <- CO in *.
  split; [destruct QS; split; congruence|].
  exists tr. split; [exact T|]. split.
  - intro FN.
    assert (SF : ro = Ret (true, None)).
    { unfold nils in FN. destruct ro as [[[|] [e|]]|p|]; cbn in OUT; try contradiction; try reflexivity; exfalso.
      - destruct OUT as [(_ & _ & m & EL & _)|[(_ & _ & L0 & m & EL)|(_ & L0 & m & p & EL)]].
        + rewrite EL in FN. inversion FN; subst. discriminate.
        + pose proof (last_not_nil _ _ _ _ EL FN). discriminate.
        + pose proof (last_not_nil _ _ _ _ EL FN). discriminate.
      - destruct OUT as [(X & _)|[(X & _)|(_ & L0 & m & p & EL)]]; try discriminate.
        pose proof (last_not_nil _ _ _ _ EL FN). discriminate.
      - destruct OUT as (m & EL & _). rewrite EL in FN. inversion FN; subst. discriminate. }
    subst ro. split.
    + destruct CASE as [(b' & e' & X & ->)|(p & X & _)]; inversion X; subst; reflexivity.
    + unfold at_places. rewrite map_map. rewrite (Z eq_refl), app_nil_r in EE. rewrite <- EE.
      apply filter_true. intro p. rewrite nil_no_skip by exact FN. reflexivity.
  - intros pre n p EC FN.
    assert (EF : P = at_places (calls tr) ++ rest).
    { unfold at_places. rewrite map_map. rewrite <- EE. symmetry. apply filter_true. intro x.
      rewrite EC. rewrite below_skip_app, nil_no_skip by exact FN. cbn. rewrite andb_false_r. reflexivity. }
    split; [exists rest; exact EF|].
    intros d ED. rewrite Forall_forall in FS.
    assert (SN : stands c (entries c) path path t (s_depth s) n).
    { apply FS. rewrite EC, map_app. apply in_or_app. right. left. reflexivity. }
    assert (SDN : stands c (entries c) path path t (s_depth s) d /\ exists i, n_pos n = n_pos d ++ [i]).
    { inversion SN as [n' E1 E2 E3 E4|q i e n' HPq NT E1 E2 E3 E4]; subst n'; [congruence|].
      assert (q = d) by congruence. subst q. eauto. }
    destruct SDN as [SDN [i EP]].
    destruct (preorder_characterised _ _ _ _ HP') as [RP SO].
    assert (IDN : In (place_of d) P) by (apply RP; eapply stands_reachable; exact SDN).
    assert (BD : before (n_pos d) (n_pos n)) by (left; apply above_spec; exists i, []; exact EP).
    rewrite EF, EC, at_places_app in IDN, SO. apply in_app_or in IDN. destruct IDN as [IDN|IDN].
    + apply in_app_or in IDN. destruct IDN as [IDN|[IDN|[]]]; [exact IDN|]. exfalso. cbn in IDN.
      pose proof (f_equal pl_pos IDN) as XX. cbn [place_of pl_pos] in XX. rewrite XX in BD. exact (before_irrefl _ BD).
    + exfalso. apply in_split in IDN. destruct IDN as (r1 & r2 & ->).
      rewrite !map_app in SO. cbn [at_places map fst] in SO. rewrite <- !app_assoc in SO. cbn [app] in SO.
      apply sorted_pairs in SO. exact (before_asym _ _ SO BD).
Qed.

Lemma stretch_refl : forall s (done : Prop), quiet_state c sampling s -> done -> stretch [] done s s.
Proof.
  intros s done QS D. split; [exact QS|]. exists []. rewrite app_nil_r. split; [reflexivity|]. split; [intros _; split; [exact D|reflexivity]|].
  intros pre n p E. destruct pre; discriminate.
Qed.
(** the second part follows *)
Lemma stretch_then : forall P1 P2 (d1 d2 : Prop) a b d, stretch P1 d1 a b -> stretch P2 d2 b d -> stretch (P1 ++ P2) d2 a d.
Proof.
  intros P1 P2 d1 d2 a b d (Q1 & tr1 & T1 & N1 & E1) (Q2 & tr2 & T2 & N2 & E2).
  split; [exact Q2|]. exists (tr1 ++ tr2). rewrite T2, T1, app_assoc. split; [reflexivity|].
  rewrite calls_app. split.
  - intro FN. unfold nils in FN. apply Forall_app in FN. destruct FN as [F1 F2].
    destruct (N1 F1) as [_ A1]. destruct (N2 F2) as [D2 A2]. split; [exact D2|]. rewrite at_places_app, A1, A2. reflexivity.
  - intros pre n p E FN. destruct (nils_split _ _ _ _ _ E FN) as [(F1 & pre' & E' & -> & F2)|[E' Z]].
    + destruct (N1 F1) as [_ A1]. destruct (E2 _ _ _ E' F2) as [[rest X] Y]. split.
      * exists rest. rewrite at_places_app, A1, <- app_assoc, <- X. reflexivity.
      * intros q Hq. rewrite at_places_app. apply in_or_app. right. apply Y. exact Hq.
    + rewrite Z, app_nil_r. destruct (E1 _ _ _ E' FN) as [[rest X] Y]. split; [|exact Y].
      exists (rest ++ P2). rewrite X at 1. rewrite <- app_assoc. reflexivity.
Qed.
(** there is no second part *)
Lemma stretch_only : forall P1 P2 (d1 d2 : Prop) a b, stretch P1 d1 a b -> ~ d1 -> stretch (P1 ++ P2) d2 a b.
Proof.
  intros P1 P2 d1 d2 a b (Q1 & tr1 & T1 & N1 & E1) ND.
  split; [exact Q1|]. exists tr1. split; [exact T1|]. split; [intro F; destruct (N1 F); contradiction|].
  intros pre n p E FN. destruct (E1 _ _ _ E FN) as [[rest X] Y]. split; [|exact Y].
  exists (rest ++ P2). rewrite X at 1. rewrite <- app_assoc. reflexivity.
Qed.

Lemma seed_stretch : forall d es s o s1 P, quiet_state c sampling s ->
  (forall e, In e es -> pc_join pc d (fname e) = join d (fname e)) ->
  (forall e, In e es -> c_stat c (dk (join d (fname e))) = None) ->
  listings (entries_all c) dk d es P -> seed c pc dk d es s = (o, s1) -> stretch P (o = Ret None) s s1.
Proof.
  induction es as [|e es IH]; cbn [seed]; intros s o s1 P QS HJ HS HL H.
  - inversion HL; subst. inversion H; subst. apply stretch_refl; [exact QS|reflexivity].
  - inversion HL as [|e' l P1 P2 HP1 HL2]; subst.
    rewrite (HJ e (or_introl eq_refl)) in H.
    destruct (top c (join d (fname e)) (dk (join d (fname e))) s) as [to ts] eqn:T.
    pose proof (top_stretch _ _ _ _ _ _ QS (HS e (or_introl eq_refl)) HP1 T) as X.
    destruct to as [[er|]|p|].
    + inversion H; subst. eapply stretch_only; [exact X|discriminate].
    + eapply stretch_then; [exact X|]. apply IH; auto; [apply X|intros x Hx; apply HJ; right; exact Hx|intros x Hx; apply HS; right; exact Hx].
    + inversion H; subst. eapply stretch_only; [exact X|discriminate].
    + inversion H; subst. eapply stretch_only; [exact X|discriminate].
Qed.

Lemma crown_stretch : forall tree p l, climb tree p l ->
  forall fuel own s o ok s1 P, quiet_state c sampling s -> length l < fuel ->
  way_readable c dk l -> statable c dk l -> way_sound c pc dk l ->
  spawn_listing c (entries_all c) dk own l P ->
  crown fuel c pc dk tree p own s = (o, ok, s1) -> stretch P (o = Ret None /\ ok = true) s s1.
Proof.
  intros tree p l HC. induction HC as [|d b l PB NE HC IH];
    intros [|fuel] own s o ok s1 P QS HF WR WS WA HL H; cbn [length] in HF; try lia; cbn [crown] in H.
  - rewrite String.eqb_refl in H. inversion H; subst. inversion HL; subst. apply stretch_refl; [exact QS|split; reflexivity].
  - apply String.eqb_neq in NE. rewrite NE in H.
    inversion WR as [|x1 l1 R1 WR']; subst. inversion WS as [|x2 l2 S1 WS']; subst.
    inversion WA as [|x3 l3 [[CD A1] A2] WA']; subst. cbn [fst snd] in *.
    destruct (A1 b PB) as (_ & SP & _). rewrite SP in H.
    inversion HL as [|own' d' b' l' P1 P2 L1 L2]; subst.
    rewrite (following_followers c dk d b own R1) in H.
    destruct (seed c pc dk d (followers c dk own d b) s) as [so ss] eqn:SE.
    assert (X : stretch P1 (so = Ret None) s ss).
    { eapply seed_stretch; [exact QS| | |exact L1|exact SE].
      + intros e He. apply (followers_in c HK) in He. apply A1. apply A2. exact He.
      + intros e He. apply (followers_in c HK) in He. apply S1. exact He. }
    destruct so as [[er|]|q|].
    + inversion H; subst. eapply stretch_only; [exact X|discriminate].
    + eapply stretch_then; [exact X|]. eapply IH; try eassumption; [apply X|lia].
    + inversion H; subst. eapply stretch_only; [exact X|discriminate].
    + inversion H; subst. eapply stretch_only; [exact X|discriminate].
Qed.

Lemma spawn_stretch : forall sv l P o ok s,
  climb (sv_tree sv) (sv_path sv) l ->
  way_readable c dk l -> statable c dk l -> way_sound c pc dk l ->
  spawn_listing c (entries_all c) dk true l P ->
  spawn_session c sampling pc dk sv = (o, ok, s) ->
  (nils (calls (s_trace s)) -> (o = Ret None /\ ok = true) /\ map place_of (visited s) = P) /\
  (forall pre n p, calls (s_trace s) = pre ++ [(n, CPanic p)] -> nils pre ->
     (exists rest, P = map place_of (visited s) ++ rest) /\
     (forall d, n_parent n = Some d -> In (place_of d) (at_places pre))).
Proof.
  intros sv l P o ok s HC WR WS WA HL. unfold spawn_session.
  set (s0 := bridge c sv _).
  assert (Q0 : quiet_state c sampling s0) by (split; [apply session_items_chain|reflexivity]).
  assert (T0 : s_trace s0 = [EvBegin (c_tree c)]) by reflexivity.
  clearbody s0.
  assert (LE : length l < S (String.length (sv_path sv))).
  { assert (length l <= String.length (sv_path sv)); [|lia].
    assert (FC : Forall (fun x => clean (fst x) = fst x) l).
    { eapply Forall_impl; [|exact WA]. intros x [[X _] _]. exact X. }
    destruct l as [|x l]; [cbn; lia|]. eapply climb_length; [exact HC|exact FC|].
    inversion HC; subst. inversion FC; subst. apply join_ne; assumption. }
  destruct (crown (S (String.length (sv_path sv))) c pc dk (sv_tree sv) (sv_path sv) true s0) as [[o' ok'] s1] eqn:CR.
  destruct (crown_stretch _ _ _ HC _ _ _ _ _ _ _ Q0 LE WR WS WA HL CR) as (Q1 & tr & T & N & E).
  intro H.
  assert (X : calls (s_trace s) = calls tr /\ o = o' /\ ok = ok').
  { assert (CT : calls (s_trace s1) = calls tr) by (rewrite T, T0, calls_app; reflexivity).
    destruct o' as [e|q|]; inversion H; subst; (split; [|split; reflexivity]); try exact CT.
    rewrite <- CT. destruct (mu_end (s_mutes s1)); cbn [dispatch emit s_trace]; rewrite ?calls_app; cbn [calls]; rewrite ?app_nil_r; reflexivity. }
  destruct X as (X & -> & ->). unfold visited. rewrite X. split; [exact N|exact E].
Qed.
End Stretch.

Lemma spawn_listing_for : forall c c' es es' dk, (forall p u, es p u = es' p u) ->
  (forall own d b, followers c dk own d b = followers c' dk own d b) ->
  forall own l X, spawn_listing c es dk own l X -> spawn_listing c' es' dk own l X.
Proof.
  intros c c' es es' dk EE EF own l X HX. induction HX as [|own d b ls P1 P2 H1 H2 IH]; [constructor|]. constructor; [|exact IH].
  rewrite <- EF. induction H1 as [|e0 ls0 Q1 Q2 HQ1 HQ2 IHQ]; [constructor|]. constructor; [|exact IHQ].
  exact (proj1 (preorder_ext es es' EE) _ _ _ _ HQ1).
Qed.

Section Relay.
Variable c : cfg.
Variable pc : pathcalc.
Variable dk : disk.
Variable P : list place.
Hypothesis HK : hooks_ok c.
Hypothesis RO : root_ok c (dk (c_tree c)).
Hypothesis DS : default_skip c.
Hypothesis PL : plain c.
Hypothesis SU : c_sub c = SubUniversal.
Hypothesis DZ : c_depth c = 0%N.
Hypothesis SS : stable_sort c.
Hypothesis CL : clean (c_tree c) = c_tree c.
Hypothesis PN : proper_names (dk (c_tree c)).
Hypothesis HP : preorder (entries_all c) [] (c_tree c) (dk (c_tree c)) P.
Hypothesis TD : tidy c pc dk P.

Lemma rest_at : forall bef x tl, P = bef ++ x :: tl -> pl_pos x <> [] ->
  exists l PS, climb (c_tree c) (pl_path x) l /\ way_readable c dk l /\ statable c dk l /\ way_sound c pc dk l /\
    spawn_listing c (entries_all c) dk true l PS /\ map thing PS = map thing (x :: tl).
Proof.
  intros bef x tl EP NP. set (c0 := with_client client_nil c).
  destruct (universal_all c0 false (dk (c_tree c)) P HK RO DS PL ltac:(intros tr m; reflexivity) SU DZ HP) as (s & HS & EV).
  pose proof (visited_stands c0 false _ _ _ HK RO HS) as VS. rewrite Forall_forall in VS.
  assert (IX : In x (map place_of (visited s))) by (rewrite EV, EP; apply in_or_app; right; left; reflexivity).
  apply in_map_iff in IX. destruct IX as (m & EM & IM). specialize (VS m IM).
  assert (GM : exists g, n_parent m = Some g).
  { inversion VS as [n' E1 E2 E3 E4|q i e n' HPq NT E1 E2 E3 E4]; subst n'; [|eauto].
    exfalso. apply NP. rewrite <- EM. exact E4. }
  destruct GM as [g EG].
  destruct (stands_around c0 pc dk (dk (c_tree c)) P HK SS SU CL PN HP TD m VS)
    as (l & bef' & Q & R' & R & CB & EP' & HQ & ET & HSL & W1 & W2 & W3 & W4 & W5 & W6).
  destruct (W6 g EG) as (b & l' & PB & EJ & ->). clear W6.
  assert (KI : forall p t y, In y (entries_all c p t) -> In y (fkids t)).
  { intros q u y Hy. apply (entries_in_kids c HK q u). unfold entries. rewrite SU. exact Hy. }
  destruct (spawn_listing_exists c (entries_all c) KI dk ((n_path g, b) :: l') true) as [PS HPS].
  assert (XP : pl_path x = n_path m) by (rewrite <- EM; reflexivity).
  exists ((n_path g, b) :: l'), PS. rewrite XP.
  split; [exact CB|]. split; [exact W2|]. split; [exact W3|]. split; [exact W4|]. split; [exact HPS|].
  assert (DDN : dk (n_path m) = n_src m).
  { pose proof TD as TD0. rewrite EP' in TD0. apply Forall_app in TD0. destruct TD0 as [_ TD'].
    inversion HQ as [z0 z1 z2 z3 HZ]; subst z0 z1 z2 Q. inversion TD' as [|y z Wa Wb]; subst y z. apply Wa. }
  assert (E2 : map thing PS = map thing Q ++ map thing R).
  { eapply (own_listing c dk SS); [exact W1|exact (W5 (n_path g, b) (or_introl eq_refl))|exact HPS| |].
    { apply (spawn_listing_for c0 c (entries_all c0) (entries_all c) dk); [reflexivity|reflexivity|exact HSL]. }
    rewrite <- EJ, DDN. exact HQ. }
  rewrite E2, <- ET, <- map_app. f_equal.
  inversion HQ as [a a1 a2 L HL]; subst a a1 a2 Q.
  destruct (preorder_characterised _ _ _ _ HP) as [_ SO]. assert (ND := sorted_nodup _ SO).
  change (mkPlace (n_pos m) (n_path m) (n_src m)) with (place_of m) in *. rewrite EM in *.
  assert (Z : bef = bef' /\ tl = L ++ R').
  { apply (split_unique _ x); [rewrite <- EP; exact ND|]. rewrite <- EP. exact EP'. }
  destruct Z as [_ ->]. reflexivity.
Qed.

(** [sv] points at an entry of the listing, and everything before it was called. *)
Definition due (V : list (string * fsnode)) (sv : saved) : Prop :=
  sv_tree sv = c_tree c /\ exists bef x tl, P = bef ++ x :: tl /\ pl_pos x <> [] /\ sv_path sv = pl_path x /\
    incl (map thing bef) V /\ incl V (map thing P).

Lemma map_split : forall A B (f : A -> B) l u v w, map f l = u ++ v :: w ->
  exists l1 x l2, l = l1 ++ x :: l2 /\ map f l1 = u /\ f x = v /\ map f l2 = w.
Proof.
  intros A B f. induction l as [|a l IH]; intros u v w E; [destruct u; discriminate|].
  destruct u as [|b u]; cbn in E; inversion E; subst.
  - exists [], a, l. repeat split.
  - destruct (IH u v w H1) as (l1 & x & l2 & -> & E1 & E2 & E3). exists (a :: l1), x, l2. cbn. rewrite E1. auto.
Qed.

Lemma pos_in_order : forall bef x tl y, P = bef ++ x :: tl -> pl_pos x <> [] -> In y (x :: tl) -> pl_pos y <> [].
Proof.
  intros bef x tl y EP NX [<-|IY]; [exact NX|]. intro Z.
  destruct (preorder_characterised _ _ _ _ HP) as [_ SO]. rewrite EP in SO.
  apply in_split in IY. destruct IY as (a & b & ->). rewrite !map_app in SO. cbn [map] in SO. rewrite map_app in SO. cbn [map] in SO.
  apply sorted_pairs in SO. rewrite Z in SO. destruct SO as [A|(q & i & j & u & v & _ & E & _)].
  - apply above_spec in A. destruct A as (i & u & E). destruct (pl_pos x); discriminate.
  - destruct q; discriminate.
Qed.

Lemma spawn_due : forall cl sampling V sv o ok s, due V sv ->
  spawn_session (with_client cl c) sampling pc dk sv = (o, ok, s) ->
  exists bef x tl, P = bef ++ x :: tl /\ pl_pos x <> [] /\ sv_path sv = pl_path x /\
  (nils (calls (s_trace s)) -> (o = Ret None /\ ok = true) /\ things s = map thing (x :: tl)) /\
  (forall pre n p, calls (s_trace s) = pre ++ [(n, CPanic p)] -> nils pre ->
     (exists rest, map thing (x :: tl) = things s ++ rest) /\
     (forall d, n_parent n = Some d -> exists mid y after, map thing (x :: tl) = mid ++ thing (place_of d) :: after /\
        incl (mid ++ [y]) (things s) /\ y = thing (place_of d))) /\
  incl (map thing bef) V /\ incl V (map thing P).
Proof.
  intros cl sampling V sv o ok s (ST & bef & x & tl & EP & NX & SP & I1 & I2) H.
  exists bef, x, tl. do 3 (split; [assumption|]).
  destruct (rest_at _ _ _ EP NX) as (l & PS & CB & W1 & W2 & W3 & HL & ET).
  destruct (spawn_stretch (with_client cl c) sampling pc dk HK DS PL SU DZ sv l PS o ok s) as [N E]; try assumption.
  { rewrite ST, SP. exact CB. }
  { apply (spawn_listing_for c (with_client cl c) (entries_all c) (entries_all (with_client cl c)) dk); [reflexivity|reflexivity|exact HL]. }
  split; [|split; [|split; assumption]].
  - intro FN. destruct (N FN) as [A B]. split; [exact A|]. unfold things. rewrite B. exact ET.
  - intros pre n p EC FN. destruct (E _ _ _ EC FN) as [[rest X] Y]. split.
    + exists (map thing rest). rewrite <- ET, X, map_app. reflexivity.
    + intros d ED. specialize (Y d ED). apply in_split in Y. destruct Y as (a & b & Y).
      exists (map thing a), (thing (place_of d)), (map thing (b ++ at_places [(n, CPanic p)] ++ rest)).
      assert (VX : map place_of (visited s) = a ++ place_of d :: b ++ at_places [(n, CPanic p)]).
      { unfold visited. rewrite EC. fold (at_places (pre ++ [(n, CPanic p)])). rewrite at_places_app, Y, <- app_assoc. reflexivity. }
      split; [rewrite <- ET, X, VX, <- app_assoc; cbn [app]; rewrite <- app_assoc, map_app; reflexivity|]. split; [|reflexivity].
      unfold things. rewrite VX, map_app. cbn [map]. intros z Hz. apply in_app_or in Hz.
      apply in_or_app. destruct Hz as [Hz|[<-|[]]]; [left; exact Hz|right; left; reflexivity].
Qed.

Lemma due_prime : forall cl sampling o s n dn g sv,
  session (with_client cl c) sampling (dk (c_tree c)) = (o, s) -> panicked_at s n ->
  n_parent n = Some dn -> n_parent dn = Some g -> rescues (s_trace s) = [sv] -> due (things s) sv.
Proof.
  intros cl sampling o s n dn g sv H (pre & p & EC & FN) EN ED RS.
  pose proof (visited_stands (with_client cl c) sampling _ _ _ HK RO H) as VS. rewrite Forall_forall in VS.
    assert (SN : stands (with_client cl c) (entries c) (c_tree c) (c_tree c) (dk (c_tree c)) 0 n).
    { apply VS. unfold visited. rewrite EC, map_app. apply in_or_app. right. left. reflexivity. }
    assert (NP : n_pos n <> []).
    { inversion SN as [n' E1 E2 E3 E4|q i e n' HPq NT E1 E2 E3 E4]; subst n'; [congruence|].
      rewrite E4. intro X. apply app_eq_nil in X. destruct X. discriminate. }
    assert (ND : n_pos dn <> []).
    { inversion SN as [n' E1 E2 E3 E4|q i e n' HPq NT E1 E2 E3 E4]; subst n'; [congruence|].
      assert (q = dn) by congruence. subst q.
      inversion HPq as [n' X1 X2 X3 X4|q j e' n' HPq' NT' X1 X2 X3 X4]; subst n'; [congruence|].
      rewrite X4. intro X. apply app_eq_nil in X. destruct X. discriminate. }
    assert (EU : forall q u, entries_all c q u = entries c q u) by (intros; unfold entries; rewrite SU; reflexivity).
    assert (HP' : preorder (entries c) [] (c_tree c) (dk (c_tree c)) P) by (eapply (proj1 (preorder_ext (entries_all c) (entries c) EU)); exact HP).
    destruct (crash_prefix (with_client cl c) sampling _ o s pre n p P HK RO DS PL ltac:(cbn; congruence) HP' H EC FN NP)
      as (sv1 & dn' & old & m & mid & af & RS' & EN' & ST & _ & SP & _ & _ & EV & EM & EF & _).
    assert (dn' = dn) by congruence. subst dn'. assert (sv1 = sv) by congruence. subst sv1.
    assert (WT : filter (within (c_depth c) 0) P = P) by (apply filter_true; intro q; rewrite DZ; apply within_0).
    change (c_depth (with_client cl c)) with (c_depth c) in EF. rewrite WT in EF.
    split; [exact ST|]. exists (map place_of old), (place_of m), (map place_of mid ++ af).
    split; [rewrite EF, EV, map_app, <- app_assoc; reflexivity|].
    rewrite EM. split; [exact ND|]. split; [exact SP|]. unfold things. split.
    + rewrite EV, !map_app. apply incl_appl. apply incl_refl.
    + rewrite EF, map_app. apply incl_appl. apply incl_refl.
Qed.
Lemma due_again : forall V sv cl sampling o ok s n sv', due V sv ->
  spawn_session (with_client cl c) sampling pc dk sv = (o, ok, s) -> panicked_at s n -> rescues (s_trace s) = [sv'] -> due (V ++ things s) sv'.
Proof.
  intros V sv cl sampling o ok s n sv' IH H (pre & p & EC & FN) RS.
  destruct (spawn_due cl sampling V sv o ok s IH H) as (bef & x & tl & EP & NX & _ & _ & Y & I1 & I2).
    assert (EN : exists dn, n_parent n = Some dn).
    { destruct (n_parent n) as [dn|] eqn:EN; [eauto|]. exfalso.
      destruct (spawned_entry_escapes (with_client cl c) sampling pc dk sv o ok s n p HK H) as (_ & _ & Z & _);
        [rewrite EC; apply in_or_app; right; left; reflexivity|exact EN|]. congruence. }
    destruct EN as [dn EN].
    destruct (Y _ _ _ EC FN) as [[rest X] Z]. destruct (Z dn EN) as (mid & y & after & E1 & E2 & ->). clear Y Z.
    destruct (spawn_interrupted (with_client cl c) sampling pc dk sv o ok s n p dn HK H) as (pre1 & sv1 & b1 & a1 & _ & _ & _ & RS1 & _ & _ & RC);
      [rewrite EC; apply in_or_app; right; left; reflexivity|exact EN|].
    assert (sv1 = sv') by congruence. subst sv1. destruct RC as (ST & _ & SP & _).
    split; [exact ST|].
    destruct (map_split _ _ thing _ _ _ _ E1) as (l1 & x' & l2 & EL & M1 & M2 & M3).
    exists (bef ++ l1), x', l2. split; [rewrite EP, EL, <- app_assoc; reflexivity|].
    split; [apply (pos_in_order bef x tl); [exact EP|exact NX|rewrite EL; apply in_or_app; right; left; reflexivity]|].
    split; [rewrite SP; pose proof (f_equal fst M2) as Q; cbn in Q; symmetry; exact Q|]. split.
    + rewrite map_app, M1. apply incl_app; [apply incl_appl; exact I1|].
      apply incl_appr. intros z Hz. apply E2. apply in_or_app. left. exact Hz.
    + apply incl_app; [exact I2|]. rewrite EP, map_app. apply incl_appr. rewrite X. apply incl_appl. apply incl_refl.
Qed.
Lemma due_retry : forall V sv cl sampling o ok s n, due V sv ->
  spawn_session (with_client cl c) sampling pc dk sv = (o, ok, s) -> panicked_at s n -> due (V ++ things s) sv.
Proof.
  intros V sv cl sampling o ok s n IH H (pre & p & EC & FN).
  destruct (spawn_due cl sampling V sv o ok s IH H) as (bef & x & tl & EP & NX & SP & _ & Y & I1 & I2).
    destruct (Y _ _ _ EC FN) as [[rest X] _]. destruct IH as [ST _].
    split; [exact ST|]. exists bef, x, tl. do 3 (split; [assumption|]). split; [apply incl_appl; exact I1|].
    apply incl_app; [exact I2|]. rewrite EP, map_app. apply incl_appr. rewrite X. apply incl_appl. apply incl_refl.
Qed.
Lemma due_stored : forall V sv sv', due V sv -> same_point sv sv' -> due V sv'.
Proof. intros V sv sv' (ST & bef & x & tl & EP & NX & SP & I1 & I2) (E1 & E2 & _). split; [congruence|]. exists bef, x, tl. rewrite E2. auto 6. Qed.
Lemma relay_due : forall V sv, relay c pc dk V sv -> due V sv.
Proof.
  intros V sv H. induction H; [eapply due_prime|eapply due_again|eapply due_retry|eapply due_stored]; eassumption.
Qed.

Theorem relay_stretch : forall V sv cl sampling o ok s n p pre, relay c pc dk V sv ->
  spawn_session (with_client cl c) sampling pc dk sv = (o, ok, s) ->
  calls (s_trace s) = pre ++ [(n, CPanic p)] -> Forall (fun x => snd x = CNil) pre ->
  exists bef x rest, map thing P = bef ++ things s ++ rest /\ hd_error (things s) = Some x /\ fst x = sv_path sv.
Proof.
  intros V sv cl sampling o ok s n p pre HR H EC FN. apply relay_due in HR.
  destruct (spawn_due cl sampling V sv o ok s HR H) as (bef & x & tl & EP & NX & SP & _ & Y & _).
  destruct (Y _ _ _ EC FN) as [[rest X] _].
  exists (map thing bef), (thing x), rest. rewrite <- X, EP, map_app. split; [reflexivity|].
  assert (NE : things s <> []).
  { unfold things, visited. rewrite EC, !map_app. cbn. intro Z. apply app_eq_nil in Z. destruct Z. discriminate. }
  destruct (things s) as [|z zs]; [contradiction|]. cbn in X. inversion X; subst. split; [reflexivity|]. symmetry. exact SP.
Qed.

Lemma due_finished : forall V sv sampling, due V sv ->
  exists s bef, spawn_session (with_client client_nil c) sampling pc dk sv = (Ret None, true, s) /\
    map thing P = bef ++ things s /\ (forall q, In q (V ++ things s) <-> In q (map thing P)).
Proof.
  intros V sv sampling HR.
  destruct HR as (ST & bef & x & tl & EP & NX & SP & I1 & I2).
  destruct (rest_at _ _ _ EP NX) as (l & PS & CB & W1 & W2 & W3 & HL & ET).
  destruct (spawn_nil (with_client client_nil c) sampling pc dk HK DS PL ltac:(intros tr mm; reflexivity) sv l PS) as (s & F2 & V2 & _);
    try assumption.
  { rewrite ST, SP. exact CB. }
  { apply (spawn_listing_for c (with_client client_nil c) (entries_all c) (travelled (with_client client_nil c)) dk); [|reflexivity|exact HL].
    intros p u. unfold travelled, entries. change (c_sub (with_client client_nil c)) with (c_sub c). rewrite SU. reflexivity. }
  assert (CA : called_at (with_client client_nil c) (sv_depth sv) PS = PS).
  { unfold called_at. change (c_sub (with_client client_nil c)) with (c_sub c). change (c_depth (with_client client_nil c)) with (c_depth c). rewrite SU, DZ.
    rewrite !filter_true; [reflexivity|intro; apply within_0|reflexivity]. }
  rewrite CA in V2.
  assert (ES : things s = map thing (x :: tl)) by (unfold things; rewrite V2; exact ET).
  exists s, (map thing bef). split; [exact F2|].
  assert (EM : map thing P = map thing bef ++ things s) by (rewrite EP, map_app, <- ES; reflexivity).
  split; [exact EM|].
  intro q. split; intro I; apply in_app_or in I || (rewrite EM in I; apply in_app_or in I).
  - destruct I as [I|I]; [apply I2; exact I|]. rewrite EM. apply in_or_app. right. exact I.
  - destruct I as [I|I]; apply in_or_app; [left; apply I1; exact I|right; exact I].
Qed.
Theorem relay_finished : forall V sv sampling, relay c pc dk V sv ->
  exists s bef, spawn_session (with_client client_nil c) sampling pc dk sv = (Ret None, true, s) /\
    map thing P = bef ++ things s /\ (forall q, In q (V ++ things s) <-> In q (map thing P)).
Proof. intros V sv sampling HR. exact (due_finished V sv sampling (relay_due V sv HR)). Qed.
End Relay.
