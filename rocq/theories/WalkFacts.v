(** The nodes which the Universal and Directories navigators offer, for every
    callback behaviour, against the pre-order specification. *)
From Verif Require Import Base Paths Level Kernel KernelRel Spec KernelFacts.
From Coq Require Import Permutation.

Scheme preorder_mut := Induction for preorder Sort Prop
  with preorders_mut := Induction for preorders Sort Prop.
Combined Scheme preorder_both from preorder_mut, preorders_mut.

Lemma ents_of_entries : forall c n, n_isdir n = fisdir (n_src n) ->
  ents_of c n = entries c (n_path n) (n_src n).
Proof.
  intros c n H. unfold ents_of, inspect, entries, entries_all, entries_dirs, read_contents,
    all_of, files_of, dirs_of.
  destruct (c_read c (n_path n) (n_src n)) as [es err]. cbn [fst snd].
  destruct (c_sub c); rewrite ?H; destruct (fisdir (n_src n)); destruct (c_files_first c); reflexivity.
Qed.

Lemma entries_in_kids : forall c, hooks_ok c -> forall p t e, In e (entries c p t) -> In e (fkids t).
Proof.
  intros c HK p t e H.
  set (n := new_node p t None None []).
  apply (ents_in_kids c HK n). rewrite ents_of_entries by reflexivity. exact H.
Qed.

Lemma preorder_exists_gen : forall (es : string -> fsnode -> list fsnode),
  (forall p t e, In e (es p t) -> In e (fkids t)) ->
  forall k t, height t <= k -> forall pos path, exists l, preorder es pos path t l.
Proof.
  intros es HE k. induction k as [|k IH]; intros t HT pos path.
  - destruct t; cbn in HT; lia.
  - assert (A : forall l i, (forall e, In e l -> In e (fkids t)) ->
              exists r, preorders es pos path i l r).
    { induction l as [|e l IHl]; intros i HI.
      - exists []; constructor.
      - destruct (IH e) with (pos := pos ++ [i]) (path := join path (fname e)) as [l1 P1].
        { pose proof (height_kid t e (HI e (or_introl eq_refl))). lia. }
        destruct (IHl (S i)) as [l2 P2]. { intros x Hx; apply HI; right; exact Hx. }
        exists (l1 ++ l2). constructor; assumption. }
    destruct (A (es path t) 0) as [r R]. { intros e He; eapply HE; exact He. }
    eexists; constructor; exact R.
Qed.

Lemma preorder_exists : forall c, hooks_ok c -> forall pos path t,
  exists l, preorder (entries c) pos path t l.
Proof.
  intros c HK pos path t. eapply preorder_exists_gen; [|apply le_n].
  apply entries_in_kids; exact HK.
Qed.

Lemma preorder_fun_both : forall es,
  (forall pos path t l, preorder es pos path t l -> forall l', preorder es pos path t l' -> l = l') /\
  (forall pos path i ts l, preorders es pos path i ts l ->
     forall l', preorders es pos path i ts l' -> l = l').
Proof.
  intro es. apply preorder_both.
  - intros pos path t l H IH l' H'. inversion H'; subst. f_equal. apply IH; assumption.
  - intros pos path i l' H'. inversion H'; reflexivity.
  - intros pos path i e rest l1 l2 H1 IH1 H2 IH2 l' H'. inversion H'; subst.
    f_equal; [apply IH1|apply IH2]; assumption.
Qed.
Lemma preorder_fun : forall es pos path t l l',
  preorder es pos path t l -> preorder es pos path t l' -> l = l'.
Proof. intros; eapply (proj1 (preorder_fun_both es)); eassumption. Qed.

(** Positions in a listing. *)
Lemma preorder_pos : forall es,
  (forall pos path t l, preorder es pos path t l ->
     Forall (fun p => exists x, pl_pos p = pos ++ x) l) /\
  (forall pos path i ts l, preorders es pos path i ts l ->
     Forall (fun p => exists j x, i <= j /\ pl_pos p = pos ++ j :: x) l).
Proof.
  intro es. apply preorder_both.
  - intros pos path t l H IH. constructor.
    + exists []. rewrite app_nil_r. reflexivity.
    + eapply Forall_impl; [|exact IH]. intros p (j & x & _ & E). eauto.
  - intros; constructor.
  - intros pos path i e rest l1 l2 H1 IH1 H2 IH2. apply Forall_app; split.
    + eapply Forall_impl; [|exact IH1]. intros p (x & E). exists i, x. split; [lia|].
      rewrite E, <- app_assoc. reflexivity.
    + eapply Forall_impl; [|exact IH2]. intros p (j & x & L & E). exists j, x. split; [lia|exact E].
Qed.

(** ** [above] *)
Lemma above_spec : forall a b, above a b = true <-> exists x y, b = a ++ x :: y.
Proof.
  induction a as [|u a IH]; intros b; cbn.
  - destruct b as [|x y]; split; intro H; try discriminate; eauto.
    destruct H as (x & y & H); discriminate.
  - destruct b as [|v b]; [split; [discriminate|intros (x & y & H); discriminate]|].
    rewrite andb_true_iff, Nat.eqb_eq, IH. split.
    + intros [-> (x & y & ->)]. eauto.
    + intros (x & y & H). inversion H; subst. eauto.
Qed.

Lemma above_below_same : forall q x y, above (q ++ x) (q ++ y) = above x y.
Proof.
  induction q as [|u q IH]; intros; cbn; [reflexivity|]. rewrite Nat.eqb_refl. apply IH.
Qed.

Lemma above_self_prefix : forall q x, above (q ++ x) q = false.
Proof.
  intros. rewrite <- (app_nil_r q) at 2. rewrite above_below_same. destruct x; reflexivity.
Qed.

Lemma above_diverge : forall q i j x y, i <> j -> above (q ++ i :: x) (q ++ j :: y) = false.
Proof.
  intros. rewrite above_below_same. cbn. destruct (Nat.eqb_spec i j); [contradiction|reflexivity].
Qed.

(** ** Good runs *)
Section Walk.
Variable limit : N.
Variable base : Z.

Notation kept L P := (filter (fun p => negb (below_skip L p)) (filter (within limit base) P)).

Definition no_end (L : list (node * cbres)) : Prop := Forall (fun x => is_end (snd x) = false) L.
Definition ended (L : list (node * cbres)) : Prop :=
  exists L0 x, L = L0 ++ [x] /\ is_end (snd x) = true /\ no_end L0.

Definition good (P : list place) (L : list (node * cbres)) (stop : bool) : Prop :=
  (exists rest, kept L P = map (fun x => place_of (fst x)) L ++ rest /\ (stop = false -> rest = [])) /\
  (if stop then ended L else no_end L).

Definition under (q : list nat) (lo hi : nat) (pos : list nat) : Prop :=
  exists j x, lo <= j < hi /\ pos = q ++ j :: x.

Lemma good_pos : forall (Q : list nat -> Prop) P L b,
  good P L b -> Forall (fun p => Q (pl_pos p)) P -> Forall (fun x => Q (n_pos (fst x))) L.
Proof.
  intros Q P L b [[rest [E _]] _] F.
  assert (A : Forall (fun p => Q (pl_pos p)) (map (fun x => place_of (fst x)) L)).
  { apply Forall_forall. intros p Hp.
    assert (In p (kept L P)) by (rewrite E; apply in_or_app; left; exact Hp).
    apply filter_In in H. destruct H as [H _]. apply filter_In in H. destruct H as [H _].
    rewrite Forall_forall in F. auto. }
  rewrite Forall_map in A. exact A.
Qed.

Lemma below_skip_app : forall L1 L2 p, below_skip (L1 ++ L2) p = below_skip L1 p || below_skip L2 p.
Proof. intros; unfold below_skip; apply existsb_app. Qed.

Lemma below_skip_none : forall L p,
  Forall (fun x => above (n_pos (fst x)) (pl_pos p) = false) L -> below_skip L p = false.
Proof.
  intros L p F; induction F as [|x L H F IH]; [reflexivity|]. cbn. rewrite H. exact IH.
Qed.

Lemma filter_ext_Forall : forall (A : Type) (f g : A -> bool) l,
  Forall (fun x => f x = g x) l -> filter f l = filter g l.
Proof.
  intros A f g l F; induction F as [|x l H F IH]; [reflexivity|]. cbn. rewrite H, IH. reflexivity.
Qed.

Lemma Forall_filter : forall (A : Type) (Q : A -> Prop) f l, Forall Q l -> Forall Q (filter f l).
Proof.
  intros A Q f l F. apply Forall_forall. intros x Hx. apply filter_In in Hx.
  rewrite Forall_forall in F. apply F, Hx.
Qed.

Lemma kept_other : forall L L' P,
  Forall (fun p => below_skip L' p = false) P -> kept (L ++ L') P = kept L P.
Proof.
  intros L L' P F. apply filter_ext_Forall. apply Forall_filter.
  eapply Forall_impl; [|exact F]. intros p Hp. cbn. rewrite below_skip_app, Hp, orb_false_r. reflexivity.
Qed.
Lemma kept_other_l : forall L L' P,
  Forall (fun p => below_skip L p = false) P -> kept (L ++ L') P = kept L' P.
Proof.
  intros L L' P F. apply filter_ext_Forall. apply Forall_filter.
  eapply Forall_impl; [|exact F]. intros p Hp. cbn. rewrite below_skip_app, Hp. reflexivity.
Qed.

Lemma no_below : forall q a b d e (L : list (node * cbres)) P,
  b <= d ->
  Forall (fun x => under q a b (n_pos (fst x))) L ->
  Forall (fun p => under q d e (pl_pos p)) P ->
  Forall (fun p => below_skip L p = false) P.
Proof.
  intros q a b d e L P HB FL FP. eapply Forall_impl; [|exact FP].
  intros p (j & x & Hj & E). apply below_skip_none.
  eapply Forall_impl; [|exact FL]. intros y (j' & x' & Hj' & E'). cbn in *.
  rewrite E, E'. apply above_diverge. lia.
Qed.
Lemma no_below' : forall q a b d e (L : list (node * cbres)) P,
  b <= d ->
  Forall (fun x => under q d e (n_pos (fst x))) L ->
  Forall (fun p => under q a b (pl_pos p)) P ->
  Forall (fun p => below_skip L p = false) P.
Proof.
  intros q a b d e L P HB FL FP. eapply Forall_impl; [|exact FP].
  intros p (j & x & Hj & E). apply below_skip_none.
  eapply Forall_impl; [|exact FL]. intros y (j' & x' & Hj' & E'). cbn in *.
  rewrite E, E'. apply above_diverge. lia.
Qed.

Lemma good_nil : good [] [] false.
Proof. split; [exists []; split; [reflexivity|auto]|constructor]. Qed.

Lemma good_app : forall q a b e P1 P2 L1 L2 stop,
  Forall (fun p => under q a b (pl_pos p)) P1 ->
  Forall (fun p => under q b e (pl_pos p)) P2 ->
  good P1 L1 false -> good P2 L2 stop -> good (P1 ++ P2) (L1 ++ L2) stop.
Proof.
  intros q a b e P1 P2 L1 L2 stop F1 F2 G1 G2.
  pose proof (good_pos (under q a b) _ _ _ G1 F1) as FL1.
  pose proof (good_pos (under q b e) _ _ _ G2 F2) as FL2.
  destruct G1 as [[r1 [E1 Z1]] N1]. destruct G2 as [[r2 [E2 Z2]] N2].
  specialize (Z1 eq_refl). subst r1. rewrite app_nil_r in E1.
  split.
  - exists r2. split; [|exact Z2].
    rewrite filter_app, filter_app.
    rewrite (kept_other L1 L2 P1) by (eapply no_below'; [apply le_n|exact FL2|exact F1]).
    rewrite (kept_other_l L1 L2 P2) by (eapply no_below; [apply le_n|exact FL1|exact F2]).
    rewrite E1, E2, map_app, app_assoc. reflexivity.
  - destruct stop.
    + destruct N2 as (L0 & x & -> & Ex & N0). exists (L1 ++ L0), x.
      split; [apply app_assoc|]. split; [exact Ex|]. apply Forall_app; split; assumption.
    + apply Forall_app; split; assumption.
Qed.

Lemma good_more : forall P1 P2 L1, good P1 L1 true -> good (P1 ++ P2) L1 true.
Proof.
  intros P1 P2 L1 [[r [E _]] N]. split; [|exact N].
  exists (r ++ kept L1 P2). split; [|discriminate].
  rewrite filter_app, filter_app, E, app_assoc. reflexivity.
Qed.

Lemma good_denied : forall pos path t P',
  within limit base (mkPlace pos path t) = false ->
  Forall (fun p => exists x, pl_pos p = pos ++ x) P' -> good (mkPlace pos path t :: P') [] false.
Proof.
  intros pos path t P' W F. split; [|constructor].
  exists []. split; [|auto].
  cbn [filter map app]. rewrite W.
  assert (E : filter (within limit base) P' = []).
  { induction F as [|p P' (x & Hx) F IH]; [reflexivity|]. cbn.
    assert (Wp : within limit base p = false).
    { unfold within in *. cbn [pl_pos] in W. apply orb_false_iff in W. destruct W as [A B].
      rewrite A. cbn. apply Z.leb_gt. apply Z.leb_gt in B. rewrite Hx, app_length. lia. }
    rewrite Wp. exact IH. }
  rewrite E. reflexivity.
Qed.

Lemma root_unskipped : forall L p,
  Forall (fun x => exists y, n_pos (fst x) = pl_pos p ++ y) L ->
  below_skip L p = false.
Proof.
  intros L p F. apply below_skip_none. eapply Forall_impl; [|exact F].
  intros x (y & E). cbn in *. rewrite E. apply above_self_prefix.
Qed.

Lemma good_root : forall n P' L' stop,
  within limit base (place_of n) = true ->
  Forall (fun p => exists j x, pl_pos p = n_pos n ++ j :: x) P' ->
  good P' L' stop -> good (place_of n :: P') ((n, CNil) :: L') stop.
Proof.
  intros n P' L' stop W F G.
  pose proof (good_pos (fun q => exists j x, q = n_pos n ++ j :: x) _ _ _ G F) as FL.
  destruct G as [[r [E Z]] N]. split.
  - exists r. split; [|exact Z]. cbn [filter]. rewrite W. cbn [filter].
    rewrite root_unskipped.
    2:{ constructor; [exists []; rewrite app_nil_r; reflexivity|].
        eapply Forall_impl; [|exact FL]. intros x (j & y & Ex). eauto. }
    cbn [negb map fst app]. f_equal.
    rewrite <- E. apply filter_ext_Forall. apply Forall_filter.
    apply Forall_forall. intros p _. cbn. rewrite andb_false_r. reflexivity.
  - destruct stop.
    + destruct N as (L0 & x & -> & Ex & N0). exists ((n, CNil) :: L0), x.
      split; [reflexivity|]. split; [exact Ex|]. constructor; [reflexivity|exact N0].
    + constructor; [reflexivity|exact N].
Qed.

Lemma good_root_skip : forall n r P',
  within limit base (place_of n) = true -> is_skip r = true ->
  Forall (fun p => exists j x, pl_pos p = n_pos n ++ j :: x) P' ->
  good (place_of n :: P') [(n, r)] false.
Proof.
  intros n r P' W S F. split.
  - exists []. split; [|auto]. cbn [filter]. rewrite W. cbn [filter].
    rewrite root_unskipped by (constructor; [exists []; rewrite app_nil_r; reflexivity|constructor]).
    cbn [negb map fst app]. f_equal.
    assert (A : forall l, Forall (fun p => exists j x, pl_pos p = n_pos n ++ j :: x) l ->
              filter (fun p => negb (below_skip [(n, r)] p)) l = []).
    { intros l Fl. induction Fl as [|p l (j & x & Hx) Fl IH]; [reflexivity|]. cbn [filter].
      assert (B : below_skip [(n, r)] p = true).
      { cbn. rewrite S. rewrite Hx.
        assert (AB : above (n_pos n) (n_pos n ++ j :: x) = true) by (apply above_spec; eauto).
        rewrite AB. reflexivity. }
      rewrite B. exact IH. }
    apply A. apply Forall_filter. exact F.
  - constructor; [|constructor]. cbn.
    destruct r as [|e|p]; cbn in *; try discriminate. rewrite S. reflexivity.
Qed.

Lemma good_root_end : forall n r P',
  within limit base (place_of n) = true -> is_end r = true ->
  good (place_of n :: P') [(n, r)] true.
Proof.
  intros n r P' W E. split.
  - cbn [filter]. rewrite W. cbn [filter].
    rewrite root_unskipped by (constructor; [exists []; rewrite app_nil_r; reflexivity|constructor]).
    cbn [negb map fst app]. eexists. split; [reflexivity|discriminate].
  - exists [], (n, r). split; [reflexivity|]. split; [exact E|constructor].
Qed.
End Walk.

(** ** The walk *)

Definition stops (o : outcome (bool * option error)) : bool :=
  match o with
  | Ret (_, Some e) => negb (is_skip_error e)
  | Ret (_, None) => false
  | _ => true
  end.

(** Why a traversal part gave the outcome it gave, in terms of the offers. *)
Definition failed (b : bool) (e : error) (L : list (node * cbres)) : Prop :=
  (b = true /\ is_skip_error e = false /\ exists L0 m, L = L0 ++ [(m, CErr e)]) \/
  ((exists a, e = rescue_error a) /\ exists L0 m p, L = L0 ++ [(m, CPanic p)]).

Definition run_out (pos : list nat) (o : outcome (bool * option error)) (L : list (node * cbres)) : Prop :=
  match o with
  | Ret (true, None) => True
  | Ret (false, None) => False
  | Ret (b, Some e) =>
      (b = true /\ is_skip_error e = true /\ exists m, L = [(m, CErr e)] /\ n_pos m = pos) \/
      failed b e L
  | Pan p => exists m, L = [(m, CPanic p)] /\ n_pos m = pos
  | Stuck => False
  end.
Definition loop_out (o : outcome (bool * option error)) (L : list (node * cbres)) : Prop :=
  match o with
  | Ret (true, None) => True
  | Ret (false, None) => False
  | Ret (b, Some e) => failed b e L
  | Pan p => exists L0 m, L = L0 ++ [(m, CPanic p)]
  | Stuck => False
  end.
Definition trav_out (o : outcome (bool * option error)) (L : list (node * cbres)) : Prop :=
  match o with
  | Ret (true, None) => True
  | Ret (b, Some e) => failed b e L
  | _ => False
  end.

Lemma failed_not_skip : forall b e L, failed b e L -> is_skip_error e = false.
Proof. intros b e L [(_ & H & _)|([[d|r] ->] & _)]; [exact H|reflexivity|reflexivity]. Qed.

Lemma failed_app : forall b e L L', failed b e L -> failed b e (L' ++ L).
Proof.
  intros b e L L' [(A & B & L0 & m & ->)|(A & L0 & m & p & ->)].
  - left. split; [exact A|]. split; [exact B|]. exists (L' ++ L0), m. apply app_assoc.
  - right. split; [exact A|]. exists (L' ++ L0), m, p. apply app_assoc.
Qed.

Lemma extend_fields : forall c tree n k s,
  let m := extend c tree n k s in
  n_path m = n_path n /\ n_src m = n_src n /\ n_isdir m = n_isdir n /\ n_pos m = n_pos n /\
  n_parent m = n_parent n /\ n_err m = n_err n /\ n_children m = n_children n.
Proof. intros; unfold m, extend. destruct (split_path (n_path n)). repeat split. Qed.

Lemma same_fields : forall n m, same_node n m ->
  n_path m = n_path n /\ n_src m = n_src n /\ n_isdir m = n_isdir n /\ n_pos m = n_pos n /\
  n_parent m = n_parent n /\ n_err m = n_err n /\ n_depth m = n_depth n /\ n_leaf m = n_leaf n /\
  n_name m = n_name n /\ n_dirpart m = n_dirpart n /\ n_scope m = n_scope n /\
  n_subpath m = n_subpath n.
Proof. intros n m [cs ->]. repeat split. Qed.

Lemma descend_within : forall c n s b s1 base,
  descend c n s = (b, s1) -> s_depth s = (base + Z.of_nat (length (n_pos n)))%Z ->
  within (c_depth c) base (place_of n) = b.
Proof.
  unfold descend, per_descend, within; intros c n s b s1 base H D. cbn.
  rewrite <- D.
  destruct ((0 <? c_depth c)%N && (int_of_uint (c_depth c) <? s_depth s)%Z) eqn:E;
    inversion H; subst.
  - apply andb_true_iff in E. destruct E as [A B]. apply N.ltb_lt in A. apply Z.ltb_lt in B.
    apply orb_false_iff. split; [apply N.eqb_neq; lia|apply Z.leb_gt; lia].
  - apply andb_false_iff in E. apply orb_true_iff. destruct E as [A|B].
    + left. apply N.ltb_ge in A. apply N.eqb_eq. lia.
    + right. apply Z.ltb_ge in B. apply Z.leb_le. lia.
Qed.

Section WalkC.
Variable c : cfg.
Variable tree : string.
Variable base : Z.
Hypothesis Hsub : c_sub c <> SubFiles.
Hypothesis Hask : forall n k e, c_ask c n k e = (SkipNoneTraversal, None).

Notation es := (entries c).
Notation gd := (good (c_depth c) base).

Definition grown (s s1 : st) (tr : list event) : Prop := s_trace s1 = s_trace s ++ tr.

Lemma grown_split : forall s s1 s2 tr,
  grows s s1 -> grows s1 s2 -> grown s s2 tr ->
  exists t1 t2, tr = t1 ++ t2 /\ grown s s1 t1 /\ grown s1 s2 t2.
Proof.
  unfold grown; intros s s1 s2 tr [_ [t1 T1]] [_ [t2 T2]] T.
  exists t1, t2. split; [|split; assumption].
  rewrite T2, T1, <- app_assoc in T. apply app_inv_head in T. symmetry. exact T.
Qed.

Lemma offers_mute : forall (b : bool) e, (forall n r, e <> EvOffer n r) ->
  offers (if b then [] else [e]) = [].
Proof. intros [|] e H; [reflexivity|]. destruct e; try reflexivity. exfalso; eapply H; reflexivity. Qed.

Lemma invoke_offer : forall n k s o n1 s1 tr,
  invoke c n k s = (o, n1, s1) -> grown s s1 tr ->
  offers tr = [(n1, res_of o)] /\ place_of n1 = place_of n /\ n_pos n1 = n_pos n /\
  n_src n1 = n_src n /\ n_path n1 = n_path n /\ n_isdir n1 = n_isdir n.
Proof.
  intros n k s o n1 s1 tr H G.
  destruct (invoke_step _ _ _ _ _ _ _ H) as (_ & S & t & T & F).
  unfold grown in G. rewrite T in G. apply app_inv_head in G. subst tr.
  rewrite offers_app, (chain_offers _ _ F). cbn.
  destruct (same_fields _ _ S) as (A & B & D & E & _).
  repeat split; auto. unfold place_of. rewrite A, B, E. reflexivity.
Qed.

Lemma walk_main :
  (forall n s o s1, run c tree n s o s1 ->
     n_isdir n = fisdir (n_src n) ->
     s_depth s = (base + Z.of_nat (length (n_pos n)))%Z ->
     forall P tr, preorder es (n_pos n) (n_path n) (n_src n) P -> grown s s1 tr ->
     gd P (offers tr) (stops o) /\ run_out (n_pos n) o (offers tr)) /\
  (forall n s o n1 s1, body c tree n s o n1 s1 ->
     n_isdir n = fisdir (n_src n) ->
     s_depth s = (base + Z.of_nat (length (n_pos n)) + 1)%Z ->
     within (c_depth c) base (place_of n) = true ->
     forall P tr, preorder es (n_pos n) (n_path n) (n_src n) P -> grown s s1 tr ->
     gd P (offers tr) (stops o) /\ run_out (n_pos n) o (offers tr)) /\
  (forall n ts s o s1, trav c tree n ts s o s1 ->
     s_depth s = (base + Z.of_nat (length (n_pos n)) + 1)%Z ->
     forall P tr, preorders es (n_pos n) (n_path n) 0 ts P -> grown s s1 tr ->
     gd P (offers tr) (stops o) /\ trav_out o (offers tr)) /\
  (forall n i ts s o s1, loop c tree n i ts s o s1 ->
     s_depth s = (base + Z.of_nat (length (n_pos n)) + 1)%Z ->
     forall P tr, preorders es (n_pos n) (n_path n) i ts P -> grown s s1 tr ->
     gd P (offers tr) (stops o) /\ loop_out o (offers tr)).
Proof.
  apply kernel_mut.
  - (* denied *)
    intros n s s1 E ID D P tr HP G.
    pose proof (descend_within _ _ _ _ _ _ E D) as W.
    apply descend_false in E. subst s1. unfold grown in G.
    assert (tr = []) by (apply (app_inv_head (s_trace s)); rewrite app_nil_r; auto). subst tr.
    split; [|exact I]. inversion HP; subst. apply good_denied; [exact W|].
    eapply Forall_impl; [|apply (proj2 (preorder_pos es) _ _ _ _ _ H)].
    intros p (j & x & _ & E'). eauto.
  - (* ok *)
    intros n s s1 o nn s2 E B IH ID D P tr HP G.
    pose proof (descend_within _ _ _ _ _ _ E D) as W.
    destruct (descend_true _ _ _ _ E) as (D1 & T1 & _).
    destruct (ascend_fields nn s2) as (_ & T2 & _).
    destruct (proj1 (proj2 (kernel_grows c tree)) _ _ _ _ _ B) as [_ [t T]].
    destruct (IH ID ltac:(rewrite D1, D; reflexivity) W P t HP T) as [IG IO].
    assert (E2 : offers tr = offers t).
    { unfold grown in G. rewrite T2, T, T1 in G. rewrite <- !app_assoc in G.
      apply app_inv_head in G. subst tr. rewrite !offers_app.
      rewrite !offers_mute by (intros; discriminate). cbn. rewrite app_nil_r. reflexivity. }
    rewrite E2. split; assumption.
  - (* file call *) intros; contradiction.
  - intros; contradiction.
  - intros; contradiction.
  - intros; contradiction.
  - (* call err *)
    intros n0 s e n1 s1 _ E ID D W P tr HP G.
    destruct (invoke_offer _ _ _ _ _ _ _ E G) as (O & PO & PP & SR & PA & IS).
    destruct (extend_fields c tree n0 (cargo_of c n0) s) as (X1 & X2 & X3 & X4 & _).
    fold (ext_of c tree n0 s) in X1, X2, X3, X4.
    rewrite O. inversion HP as [pos path t l HL A1 A2 A3 A4]; subst.
    assert (EPL : mkPlace (n_pos n0) (n_path n0) (n_src n0) = place_of n1)
      by (unfold place_of; congruence).
    rewrite EPL.
    assert (W1 : within (c_depth c) base (place_of n1) = true) by (rewrite <- EPL; exact W).
    assert (FP : Forall (fun p => exists j x, pl_pos p = n_pos n1 ++ j :: x) l).
    { eapply Forall_impl; [|apply (proj2 (preorder_pos es) _ _ _ _ _ HL)].
      intros p (j & x & _ & Ep). exists j, x. congruence. }
    cbn [res_of stops run_out]. destruct (is_skip_error e) eqn:SK; cbn [negb].
    + split; [apply good_root_skip; [exact W1|exact SK|exact FP]|].
      left. split; [reflexivity|]. split; [reflexivity|]. exists n1. split; [reflexivity|congruence].
    + split; [apply good_root_end; [exact W1|cbn; rewrite SK; reflexivity]|].
      right. left. split; [reflexivity|]. split; [exact SK|]. exists [], n1. reflexivity.
  - (* call pan *)
    intros n0 s p n1 s1 _ E ID D W P tr HP G.
    destruct (invoke_offer _ _ _ _ _ _ _ E G) as (O & PO & PP & SR & PA & IS).
    destruct (extend_fields c tree n0 (cargo_of c n0) s) as (X1 & X2 & X3 & X4 & _).
    fold (ext_of c tree n0 s) in X1, X2, X3, X4.
    rewrite O. inversion HP as [pos path t l HL A1 A2 A3 A4]; subst.
    assert (EPL : mkPlace (n_pos n0) (n_path n0) (n_src n0) = place_of n1)
      by (unfold place_of; congruence).
    rewrite EPL.
    assert (W1 : within (c_depth c) base (place_of n1) = true) by (rewrite <- EPL; exact W).
    split; [apply good_root_end; [exact W1|reflexivity]|].
    exists n1. split; [reflexivity|congruence].
  - (* ask all *)
    intros n0 s e n1 s1 _ E A. rewrite Hask in A. discriminate.
  - intros n0 s e n1 s1 _ E A. rewrite Hask in A. discriminate.
  - (* travel *)
    intros n0 s skip e n1 s1 o s2 _ E A _ T IH ID D W P tr HP G.
    pose proof (invoke_grows _ _ _ _ _ _ _ E) as G1.
    pose proof (proj1 (proj2 (proj2 (kernel_grows c tree))) _ _ _ _ _ T) as G2.
    destruct (grown_split _ _ _ _ G1 G2 G) as (t1 & t2 & -> & GT1 & GT2).
    destruct (invoke_offer _ _ _ _ _ _ _ E GT1) as (O & PO & PP & SR & PA & IS).
    destruct (extend_fields c tree n0 (cargo_of c n0) s) as (X1 & X2 & X3 & X4 & _).
    fold (ext_of c tree n0 s) in X1, X2, X3, X4.
    inversion HP as [pos path t l HL A1 A2 A3 A4]; subst.
    assert (EPL : mkPlace (n_pos n0) (n_path n0) (n_src n0) = place_of n1)
      by (unfold place_of; congruence).
    assert (W1 : within (c_depth c) base (place_of n1) = true) by (rewrite <- EPL; exact W).
    assert (FP : Forall (fun p => exists j x, pl_pos p = n_pos n1 ++ j :: x) l).
    { eapply Forall_impl; [|apply (proj2 (preorder_pos es) _ _ _ _ _ HL)].
      intros p (j & x & _ & Ep). exists j, x. congruence. }
    rewrite offers_app, O.
    rewrite (ents_of_entries c n0 ID) in IH.
    assert (D1 : s_depth s1 = (base + Z.of_nat (length (n_pos n1)) + 1)%Z).
    { destruct G1 as [DD _]. rewrite DD, D. rewrite PP, X4. reflexivity. }
    assert (HL' : preorders es (n_pos n1) (n_path n1) 0 (es (n_path n0) (n_src n0)) l).
    { rewrite PP, X4, PA, X1. exact HL. }
    destruct (IH D1 l t2 HL' GT2) as [IG IO].
    rewrite EPL. cbn [res_of app]. split.
    + apply good_root; assumption.
    + destruct o as [[[|] [er|]]|p|]; cbn in IO |- *; try contradiction; try exact I.
      * right. apply (failed_app _ _ _ [(n1, CNil)]) in IO. exact IO.
      * right. apply (failed_app _ _ _ [(n1, CNil)]) in IO. exact IO.
  - (* trav ret *)
    intros n ts s r s1 L IH D P tr HP G.
    destruct (IH D P tr HP G) as [IG IO]. split; [exact IG|].
    destruct r as [[|] [er|]]; cbn in *; auto.
  - (* trav rescue *)
    intros n ts s p s1 er L IH ER D P tr HP G.
    pose proof (proj2 (proj2 (proj2 (kernel_grows c tree))) _ _ _ _ _ _ L) as [_ [t T]].
    assert (tr = t ++ [EvRescue (saved_of c n s1)]).
    { unfold grown in G. cbn in G. rewrite T, <- app_assoc in G. apply app_inv_head in G. auto. }
    subst tr. rewrite offers_app. cbn [offers]. rewrite app_nil_r.
    destruct (IH D P t HP T) as [IG (L0 & m & IO)].
    assert (ER2 : exists a, er = rescue_error a).
    { subst er. eexists. reflexivity. }
    split.
    + assert (ST : stops (Ret (false, Some er)) = stops (Pan p)) by (destruct ER2 as [[d|r] H]; rewrite H; reflexivity).
      rewrite ST. exact IG.
    + cbn. right. split; [exact ER2|]. exists L0, m, p. exact IO.
  - (* loop nil *)
    intros n i s D P tr HP G. inversion HP; subst.
    assert (tr = []) by (apply (app_inv_head (s_trace s)); rewrite app_nil_r; auto). subst tr.
    split; [apply good_nil|exact I].
  - (* loop skipped: impossible here *)
    intros n i e ts s er s1 R IH SK D P tr HP G.
    inversion HP as [|pos path i0 e0 rest l1 l2 H1 H2 A1 A2 A3 A4 A5]; subst.
    assert (DC : s_depth s = (base + Z.of_nat (length (n_pos (child_node n i e))))%Z).
    { cbn. rewrite app_length. cbn. lia. }
    destruct (IH eq_refl DC l1 tr H1 G) as [IG IO].
    cbn in IO. destruct IO as [(X & _)|F]; [discriminate|].
    apply failed_not_skip in F. unfold is_skip_error in F. rewrite SK in F. discriminate.
  - (* loop failed *)
    intros n i e ts s b er s1 R IH NSK NSA D P tr HP G.
    inversion HP as [|pos path i0 e0 rest l1 l2 H1 H2 A1 A2 A3 A4 A5]; subst.
    assert (DC : s_depth s = (base + Z.of_nat (length (n_pos (child_node n i e))))%Z).
    { cbn. rewrite app_length. cbn. lia. }
    destruct (IH eq_refl DC l1 tr H1 G) as [IG IO].
    assert (NF : is_skip_error er = false /\ failed b er (offers tr)).
    { assert (IO' : (b = true /\ is_skip_error er = true /\
                     exists m, offers tr = [(m, CErr er)] /\ n_pos m = n_pos (child_node n i e))
                    \/ failed b er (offers tr)) by (destruct b; exact IO).
      destruct IO' as [(X & Y & _)|F].
      - exfalso. unfold is_skip_error in Y. rewrite NSK, (NSA X) in Y. discriminate.
      - split; [eapply failed_not_skip; exact F|exact F]. }
    destruct NF as [NS F]. cbn [stops] in *. rewrite NS in *. cbn [negb] in *.
    split; [apply good_more; exact IG|].
    cbn. destruct F as [F|F]; [left; destruct F as (_ & F); split; auto|right; exact F].
  - (* loop pan *)
    intros n i e ts s p s1 R IH D P tr HP G.
    inversion HP as [|pos path i0 e0 rest l1 l2 H1 H2 A1 A2 A3 A4 A5]; subst.
    assert (DC : s_depth s = (base + Z.of_nat (length (n_pos (child_node n i e))))%Z).
    { cbn. rewrite app_length. cbn. lia. }
    destruct (IH eq_refl DC l1 tr H1 G) as [IG (m & IO & _)].
    split; [apply good_more; exact IG|]. exists [], m. exact IO.
  - (* loop next *)
    intros n i e ts s b er s1 o s2 R IHR COND L IHL D P tr HP G.
    inversion HP as [|pos path i0 e0 rest l1 l2 H1 H2 A1 A2 A3 A4 A5]; subst.
    pose proof (proj1 (kernel_grows c tree) _ _ _ _ R) as G1.
    pose proof (proj2 (proj2 (proj2 (kernel_grows c tree))) _ _ _ _ _ _ L) as G2.
    destruct (grown_split _ _ _ _ G1 G2 G) as (t1 & t2 & -> & GT1 & GT2).
    assert (DC : s_depth s = (base + Z.of_nat (length (n_pos (child_node n i e))))%Z).
    { cbn. rewrite app_length. cbn. lia. }
    destruct (IHR eq_refl DC l1 t1 H1 GT1) as [IG1 IO1].
    assert (D1 : s_depth s1 = (base + Z.of_nat (length (n_pos n)) + 1)%Z)
      by (destruct G1 as [DD _]; rewrite DD; exact D).
    destruct (IHL D1 l2 t2 H2 GT2) as [IG2 IO2].
    assert (NST : stops (Ret (b, er)) = false).
    { destruct er as [er|]; [|reflexivity]. cbn. destruct COND as [_ X].
      unfold is_skip_error. rewrite X. reflexivity. }
    rewrite NST in IG1. rewrite offers_app. split.
    + set (K := S (list_max (map (fun p => list_max (pl_pos p)) l2)) + S i).
      apply (good_app (c_depth c) base (n_pos n) i (S i) K); [| |exact IG1|exact IG2].
      * eapply Forall_impl; [|apply (proj1 (preorder_pos es) _ _ _ _ H1)].
        intros p (x & E'). exists i, x. split; [lia|]. rewrite E', <- app_assoc. reflexivity.
      * apply Forall_forall. intros p Hp.
        pose proof (proj2 (preorder_pos es) _ _ _ _ _ H2) as FF.
        rewrite Forall_forall in FF. destruct (FF p Hp) as (j & x & LE & E').
        exists j, x. split; [|exact E']. split; [exact LE|].
        assert (j <= list_max (pl_pos p)).
        { assert (FM : Forall (fun k => k <= list_max (pl_pos p)) (pl_pos p))
            by (apply list_max_le; apply le_n).
          rewrite Forall_forall in FM. apply FM. rewrite E'. apply in_or_app. right. left. reflexivity. }
        assert (list_max (pl_pos p) <= list_max (map (fun p => list_max (pl_pos p)) l2)).
        { assert (FM : Forall (fun k => k <= list_max (map (fun p => list_max (pl_pos p)) l2))
                         (map (fun p => list_max (pl_pos p)) l2))
            by (apply list_max_le; apply le_n).
          rewrite Forall_forall in FM. apply FM.
          apply (in_map (fun p => list_max (pl_pos p))). exact Hp. }
        unfold K. lia.
    + destruct o as [[[|] [er2|]]|p|]; cbn in IO2 |- *; auto.
      * apply failed_app; exact IO2.
      * apply failed_app; exact IO2.
      * destruct IO2 as (L0 & m & ->). exists (offers t1 ++ L0), m. apply app_assoc.
Qed.
End WalkC.
