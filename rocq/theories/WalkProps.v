(** The lemmas behind the property theorems about traversals (PropWalk.v). *)
From Verif Require Import Base Paths Level Lo Collections Kernel Session Spec KernelRel KernelFacts
  KernelInv WalkFacts StandsFacts JournalFacts SessionFacts RescueFacts FilesFacts BracketFacts WalkCor PathFacts.
From Coq Require Import Permutation Sorted.

(** ** C01 *)
Lemma within_0 : forall base p, within 0 base p = true.
Proof. reflexivity. Qed.

Lemma universal_all : forall c sampling t P,
  hooks_ok c -> root_ok c t -> default_skip c -> plain c -> nil_callback c ->
  c_sub c = SubUniversal -> c_depth c = 0%N ->
  preorder (entries_all c) [] (c_tree c) t P ->
  exists s, session c sampling t = (Ret None, s) /\ map place_of (visited s) = P.
Proof.
  intros c sampling t P HK RO DS PL NC SU D0 HP.
  destruct (universal_nil c sampling t P HK RO DS PL NC SU HP) as (s & E & M).
  exists s. split; [exact E|]. rewrite M, D0. apply filter_true. apply within_0.
Qed.

Lemma entries_perm : forall c, hooks_ok c -> forall p t, fisdir t = true ->
  Permutation (entries_all c p t) (fst (c_read c p t)).
Proof.
  intros c [_ HS] p t D. unfold entries_all. rewrite D.
  set (found := fst (c_read c p t)).
  assert (E : Permutation (filter fisdir found ++ filter (fun e => negb (fisdir e)) found) found).
  { clearbody found. induction found as [|x l IH]; [reflexivity|]. cbn.
    destruct (fisdir x); cbn.
    - constructor. exact IH.
    - etransitivity; [symmetry; apply Permutation_middle|]. constructor. exact IH. }
  etransitivity; [|exact E]. destruct (c_files_first c).
  - etransitivity; [apply Permutation_app_comm|]. apply Permutation_app; apply HS.
  - apply Permutation_app; apply HS.
Qed.

Lemma before_irrefl : forall a, ~ before a a.
Proof.
  intros a [H|(q & i & j & x & y & E1 & E2 & L)].
  - apply above_spec in H. destruct H as (x & y & E). apply (f_equal (@length nat)) in E.
    rewrite app_length in E. cbn in E. lia.
  - rewrite E1 in E2. apply app_inv_head in E2. inversion E2. lia.
Qed.

Lemma listing_exact : forall c, hooks_ok c -> forall t,
  exists P, preorder (entries_all c) [] (c_tree c) t P /\
    (forall p, In p P <-> reachable (entries_all c) (c_tree c) t p) /\
    StronglySorted before (map pl_pos P) /\ NoDup (map pl_pos P).
Proof.
  intros c HK t.
  destruct (preorder_exists (with_sub SubUniversal c) HK [] (c_tree c) t) as [P HP].
  change (preorder (entries_all c) [] (c_tree c) t P) in HP.
  exists P. destruct (preorder_characterised _ _ _ _ HP) as [A B].
  repeat split; try apply A; try assumption.
  clear -B. induction B as [|x l HS IH F]; constructor; [|exact IH].
  intro I. rewrite Forall_forall in F. apply (before_irrefl x). apply F. exact I.
Qed.

(** ** C03 *)
Lemma session_stands : forall c sampling t o s, hooks_ok c -> root_ok c t -> session c sampling t = (o, s) ->
  Forall (ev_stands c (c_tree c) (c_tree c) t 0) (s_trace s).
Proof.
  intros c sampling t o s HK RO H. unfold session in H.
  change (dispatch (mu_begin (s_mutes (start_st c sampling))) (EvBegin (c_tree c)) (start_st c sampling))
    with (began c sampling) in H.
  destruct (navigate c t (began c sampling)) as [no ns] eqn:N. unfold navigate in N.
  destruct (top_stands c HK (c_tree c) t _ _ _ RO N) as (tr & T & F). cbn in T, F.
  assert (FF : Forall (ev_stands c (c_tree c) (c_tree c) t 0) (s_trace ns)).
  { rewrite T. constructor; [exact I|exact F]. }
  destruct no; inversion H; subst; try exact FF.
  unfold dispatch. destruct (mu_end _); [exact FF|]. cbn. apply Forall_app. split; [exact FF|repeat constructor].
Qed.
Lemma calls_Forall : forall (Q : node -> Prop) tr,
  Forall (fun e => match e with EvCall n _ => Q n | _ => True end) tr -> Forall Q (map fst (calls tr)).
Proof.
  intros Q tr F. induction F as [|e tr HE F IH]; [constructor|]. destruct e; cbn; try exact IH.
  constructor; [exact HE|exact IH].
Qed.
Lemma visited_stands : forall c sampling t o s, hooks_ok c -> root_ok c t -> session c sampling t = (o, s) ->
  Forall (stands c (entries c) (c_tree c) (c_tree c) t 0) (visited s).
Proof.
  intros c sampling t o s HK RO H. apply calls_Forall.
  eapply Forall_impl; [|eapply session_stands; eassumption]. intros [] X; try exact I. exact X.
Qed.
Lemma offers_stand : forall c sampling t o s, hooks_ok c -> root_ok c t -> session c sampling t = (o, s) ->
  Forall (fun x => stands c (entries c) (c_tree c) (c_tree c) t 0 (fst x)) (offers (s_trace s)).
Proof.
  intros c sampling t o s HK RO H. pose proof (session_stands _ _ _ _ _ HK RO H) as F.
  induction F as [|e tr HE F IH]; [constructor|]. destruct e; cbn; try exact IH. constructor; [exact HE|exact IH].
Qed.

(** All names below are proper, and every entry travelled is among them. *)
Inductive proper_names : fsnode -> Prop :=
| pn : forall t, (forall e, In e (fkids t) -> proper (fname e) /\ proper_names e) -> proper_names t.

Lemma stands_paths : forall c tree root t base, hooks_ok c -> clean root = root -> proper_names t ->
  forall n, stands c (entries c) tree root t base n ->
    clean (n_path n) = n_path n /\ proper_names (n_src n) /\
    (forall p, n_parent n = Some p ->
       n_path n = below_path (n_path p) (fname (n_src n)) /\ n_name n = fname (n_src n)).
Proof.
  intros c tree root t base HK CR PN n H.
  induction H as [n E1 E2 E3 E4 E5 E6 AT|p i e n HP IH NT E1 E2 E3 E4 E5 E6 AT].
  - split; [congruence|]. split; [congruence|]. intros p X. congruence.
  - destruct IH as (CP & PP & _). inversion PP as [u X]; subst u.
    assert (IK : In e (fkids (n_src p))).
    { eapply entries_in_kids; [exact HK|]. eapply nth_error_In. exact NT. }
    destruct (X e IK) as [PE PNE].
    rewrite E1, E2. rewrite (join_below _ _ CP PE).
    split; [apply clean_below; assumption|]. split; [exact PNE|].
    intros q Q. rewrite E3 in Q. inversion Q; subst q. split; [reflexivity|].
    pose proof (at_name _ _ _ AT) as N. rewrite E1, (join_below _ _ CP PE), split_below in N by exact PE.
    inversion N. reflexivity.
Qed.

Lemma visited_paths : forall c sampling t o s, hooks_ok c -> root_ok c t ->
  clean (c_tree c) = c_tree c -> proper_names t -> session c sampling t = (o, s) ->
  Forall (fun n => forall p, n_parent n = Some p ->
     n_path n = below_path (n_path p) (fname (n_src n)) /\ n_name n = fname (n_src n)) (visited s).
Proof.
  intros c sampling t o s HK RO CR PN H. eapply Forall_impl; [|eapply visited_stands; eassumption].
  intros n S. cbn in S. apply (stands_paths c (c_tree c) (c_tree c) t 0 HK CR PN n S).
Qed.

Lemma stands_depth : forall c es tree root t base n, stands c es tree root t base n ->
  n_depth n = (base + Z.of_nat (length (n_pos n)))%Z.
Proof.
  intros c es tree root t base n H. induction H as [n ? ? ? E4 E5|p i e n HP IH NT E1 E2 E3 E4 E5].
  - rewrite E5, E4. cbn. lia.
  - rewrite E5, E4, IH, app_length. cbn. lia.
Qed.

(** ** C04 *)
Lemma plain_results : forall c sampling t o s (Pr : cbres -> Prop), hooks_ok c -> root_ok c t -> plain c ->
  (forall tr n, Pr (c_client c tr n)) -> session c sampling t = (o, s) ->
  calls (s_trace s) = offers (s_trace s) /\ Forall (fun x => Pr (snd x)) (calls (s_trace s)).
Proof.
  intros c sampling t o s Pr HK RO PL NC H. split.
  - eapply plain_calls_offers; eassumption.
  - eapply session_results; eassumption.
Qed.

Lemma last_Forall : forall (A : Type) (Q : A -> Prop) L L0 x, L = L0 ++ [x] -> Forall Q L -> Q x.
Proof.
  intros A Q L L0 x E F. rewrite E in F. apply Forall_app in F. destruct F as [_ F]. inversion F; assumption.
Qed.

Lemma skips_prune : forall c sampling t P,
  hooks_ok c -> root_ok c t -> default_skip c -> plain c -> c_sub c <> SubFiles ->
  (forall tr n, is_end (c_client c tr n) = false) ->
  preorder (entries c) [] (c_tree c) t P ->
  exists o s, session c sampling t = (o, s) /\
    map place_of (visited s) =
      filter (fun p => negb (below_skip (calls (s_trace s)) p)) (filter (within (c_depth c) 0) P) /\
    (o = Ret None \/
     exists n e, calls (s_trace s) = [(n, CErr e)] /\ n_pos n = [] /\ is_skip_error e = true /\ o = Ret (Some e)).
Proof.
  intros c sampling t P HK RO DS PL NF NE HP.
  destruct (session_total c sampling t) as (o & s & H). exists o, s. split; [exact H|].
  destruct (plain_results _ _ _ _ _ (fun r => is_end r = false) HK RO PL NE H) as [E F].
  destruct (session_walk _ _ _ _ _ _ HK RO DS NF HP H) as (ro & EO & NS & [[rest [K Z]] ST] & OUT).
  assert (SF : stops ro = false).
  { destruct (stops ro) eqn:SR; [|reflexivity]. exfalso. destruct ST as (L0 & x & EL & EE & _).
    rewrite <- E in EL. pose proof (last_Forall _ _ _ _ _ EL F) as X. cbn in X. congruence. }
  rewrite (Z SF), app_nil_r in K. unfold visited. rewrite map_map, E. split; [symmetry; exact K|].
  destruct ro as [[b [e|]]|p|]; cbn in SF; try discriminate.
  - right. cbn in OUT.
    assert (OUT' : (b = true /\ is_skip_error e = true /\
             (exists m : node, offers (s_trace s) = [(m, CErr e)] /\ n_pos m = [])) \/
             failed b e (offers (s_trace s))) by (destruct b; exact OUT).
    destruct OUT' as [(_ & IS & m & EL & PM)|FL].
    + exists m, e. repeat split; try assumption.
    + exfalso. rewrite (failed_not_skip _ _ _ FL) in SF. discriminate.
  - left. exact EO.
Qed.

(** results of callbacks on files do not matter to the Universal walk *)
Lemma skip_of_file_none : forall c sampling t o s, hooks_ok c -> root_ok c t -> c_sub c = SubUniversal ->
  session c sampling t = (o, s) ->
  forall P, preorder (entries c) [] (c_tree c) t P ->
  forall x p, In x (calls (s_trace s)) -> fisdir (n_src (fst x)) = false -> In p P ->
    above (n_pos (fst x)) (pl_pos p) = false.
Proof.
  intros c sampling t o s HK RO SU H P HP x p IX FD IP.
  destruct (above (n_pos (fst x)) (pl_pos p)) eqn:A; [exfalso|reflexivity].
  destruct (preorder_characterised _ _ _ _ HP) as [CH _]. apply CH in IP.
  assert (SX : stands c (entries c) (c_tree c) (c_tree c) t 0 (fst x)).
  { pose proof (visited_stands _ _ _ _ _ HK RO H) as F. rewrite Forall_forall in F. apply F.
    unfold visited. apply in_map. exact IX. }
  (* the ancestor of p at x's position is x's own place *)
  assert (RX : reachable (entries c) (c_tree c) t (place_of (fst x))).
  { clear -SX. induction SX as [n E1 E2 E3 E4|q i e n HP IH NT E1 E2 E3 E4].
    - unfold place_of. rewrite E1, E2, E4. constructor.
    - unfold place_of. rewrite E1, E2, E4. apply (reach_entry _ _ _ (place_of q) i e IH NT). }
  assert (U : forall p q, reachable (entries c) (c_tree c) t p -> reachable (entries c) (c_tree c) t q ->
            pl_pos p = pl_pos q -> p = q).
  { clear. intros p q R. revert q. induction R as [|p i e R IH NT]; intros q RQ EQ.
    - inversion RQ as [|q' i' e' RQ' NT']; subst; [reflexivity|]. cbn in EQ. destruct (pl_pos q'); discriminate.
    - inversion RQ as [|q' i' e' RQ' NT']; subst.
      + cbn in EQ. destruct (pl_pos p); discriminate.
      + cbn in EQ. apply app_inj_tail in EQ. destruct EQ as [EP EI]. subst i'.
        assert (p = q') by (apply IH; assumption). subst q'. rewrite NT in NT'. inversion NT'. reflexivity. }
  apply above_spec in A. destruct A as (k & y & EP).
  (* walk up from p *)
  assert (W : forall y k p, reachable (entries c) (c_tree c) t p -> pl_pos p = n_pos (fst x) ++ k :: y -> False).
  { clear -U RX FD SU. induction y as [|z y IH] using rev_ind; intros k p R EP.
    - inversion R as [|q i e RQ NT]; subst; cbn in EP.
      + destruct (n_pos (fst x)); discriminate.
      + apply app_inj_tail in EP. destruct EP as [EP _].
        pose proof (U q (place_of (fst x)) RQ RX EP) as EQ. subst q. cbn in NT.
        unfold entries in NT. rewrite SU in NT. rewrite entries_all_file in NT by exact FD.
        destruct i; discriminate.
    - inversion R as [|q i e RQ NT]; subst; cbn in EP.
      + destruct (n_pos (fst x)); discriminate.
      + change (n_pos (fst x) ++ k :: y ++ [z]) with (n_pos (fst x) ++ (k :: y) ++ [z]) in EP.
        rewrite app_assoc in EP. apply app_inj_tail in EP. destruct EP as [EP _]. eapply IH; eassumption. }
  exact (W y k p IP EP).
Qed.

Lemma file_skip_no_effect : forall c sampling t P,
  hooks_ok c -> root_ok c t -> default_skip c -> plain c -> c_sub c = SubUniversal ->
  (forall tr n, is_end (c_client c tr n) = false) ->
  preorder (entries_all c) [] (c_tree c) t P ->
  exists o s, session c sampling t = (o, s) /\
    map place_of (visited s) =
      filter (fun p => negb (below_skip (filter (fun x => fisdir (n_src (fst x))) (calls (s_trace s))) p))
        (filter (within (c_depth c) 0) P).
Proof.
  intros c sampling t P HK RO DS PL SU NE HP0.
  assert (HP : preorder (entries c) [] (c_tree c) t P).
  { eapply (proj1 (preorder_ext (entries_all c) (entries c) (entries_universal c SU))). exact HP0. }
  destruct (skips_prune c sampling t P HK RO DS PL ltac:(congruence) NE HP) as (o & s & H & E & _).
  exists o, s. split; [exact H|]. rewrite E. apply filter_ext_in. intros p IP. f_equal.
  apply filter_In in IP. destruct IP as [IP _].
  unfold below_skip.
  assert (G : forall l, (forall x, In x l -> In x (calls (s_trace s))) ->
    existsb (fun x => above (n_pos (fst x)) (pl_pos p) && is_skip (snd x)) l =
    existsb (fun x => above (n_pos (fst x)) (pl_pos p) && is_skip (snd x)) (filter (fun x => fisdir (n_src (fst x))) l)).
  { induction l as [|x l IH]; intro HL; [reflexivity|]. cbn [existsb filter].
    rewrite IH by (intros; apply HL; right; assumption).
    destruct (fisdir (n_src (fst x))) eqn:D; [reflexivity|].
    rewrite (skip_of_file_none _ _ _ _ _ HK RO SU H P HP x p (HL x (or_introl eq_refl)) D IP). reflexivity. }
  apply G. auto.
Qed.

(** ** C05/C06: what skips do in the Files walk *)
Lemma files_cut : forall c sampling t P,
  hooks_ok c -> root_ok c t -> default_skip c -> plain c -> c_sub c = SubFiles ->
  (forall tr n, is_end_files (c_client c tr n) = false) ->
  preorder (entries_files c) [] (c_tree c) t P ->
  exists o s, session c sampling t = (o, s) /\
    map place_of (visited s) =
      filter (fun p => negb (cut_off (calls (s_trace s)) p)) (filter is_file_place (filter (within (c_depth c) 0) P)) /\
    (o = Ret None \/ exists n e, o = Ret (Some e) /\ last (calls (s_trace s)) (n, CNil) = (n, CErr e)).
Proof.
  intros c sampling t P HK RO DS PL SU NE HP.
  destruct (session_total c sampling t) as (o & s & H). exists o, s. split; [exact H|].
  destruct (plain_results _ _ _ _ _ (fun r => is_end_files r = false) HK RO PL NE H) as [E F].
  destruct (session_files _ _ _ _ _ _ HK RO DS SU HP H) as (ro & EO & NS & [[rest [K Z]] ST] & OUT).
  assert (SF : stopsf ro = false).
  { destruct (stopsf ro) eqn:SR; [|reflexivity]. exfalso. destruct ST as (L0 & x & EL & EE & _).
    rewrite <- E in EL. pose proof (last_Forall _ _ _ _ _ EL F) as X. cbn in X. congruence. }
  rewrite (Z SF), app_nil_r in K. unfold visited. rewrite map_map, E. split; [symmetry; exact K|].
  destruct ro as [[b [e|]]|p|]; cbn in SF; try discriminate; [|left; exact EO].
  right. cbn in OUT. destruct OUT as ([(L0 & m & EL)|(A & _)] & _).
  - exists m, e. split; [exact EO|]. rewrite EL. apply last_last.
  - exfalso. destruct A as [[d|r] ->]; discriminate.
Qed.

(** ** Ends *)
Lemma in_split_last : forall (A : Type) (f : A -> bool) L L0 x y, L = L0 ++ [x] -> Forall (fun z => f z = false) L0 ->
  In y L -> f y = true -> y = x.
Proof.
  intros A f L L0 x y E F I T. rewrite E in I. apply in_app_or in I. destruct I as [I|[I|[]]]; [|auto].
  rewrite Forall_forall in F. rewrite (F y I) in T. discriminate.
Qed.

(** offers and calls: a call is an offer; the last offer, if made by the callback, is the last call *)
Lemma journal_last_called : forall c h J h' evs L0 n r, journal c h J h' evs -> map fst J = L0 ++ [(n, r)] ->
  is_end_files r = true ->
  exists J0, J = J0 ++ [((n, r), Called)] /\ map fst J0 = L0.
Proof.
  intros c h J h' evs L0 n r HJ E IE.
  assert (X : exists J0 x, J = J0 ++ [x]).
  { destruct J as [|a J] using rev_ind; [destruct L0; discriminate|eauto]. }
  destruct X as (J0 & x & ->). rewrite map_app in E. apply app_inj_tail in E. destruct E as [E1 E2].
  exists J0. split; [|exact E1]. f_equal. f_equal. destruct x as [nr sg]. cbn in E2. subst nr. f_equal.
  destruct sg; [exfalso|exfalso|reflexivity].
  - revert h evs HJ. clear E1. induction J0 as [|a J0 IH]; intros h evs HJ.
    + cbn in HJ. inversion HJ; subst. match goal with V : verdict _ _ _ = _, R : Slept <> Called -> _ |- _ => rename V into V0; rename R into R0 end.
      unfold verdict in V0. destruct (hib_verdict c h (clear n)) as [[b r'] h''] eqn:HV. destruct b.
      * destruct (primary_match c (clear n)); discriminate.
      * inversion V0; subst. rewrite R0 in IE by discriminate. unfold hib_verdict in HV.
        destruct (c_hib c) as [hb|]; [|discriminate]. destruct h.
        -- destruct (yes (hb_wake hb (clear n))); inversion HV; subst; discriminate.
        -- destruct (yes (hb_sleep hb (clear n))); inversion HV; subst; discriminate.
        -- inversion HV; subst; discriminate.
    + cbn in HJ. inversion HJ; subst. eapply IH; eassumption.
  - revert h evs HJ. clear E1. induction J0 as [|a J0 IH]; intros h evs HJ.
    + cbn in HJ. inversion HJ; subst. match goal with V : verdict _ _ _ = _, R : Rejected <> Called -> _ |- _ => rename V into V0; rename R into R0 end.
      unfold verdict in V0. destruct (hib_verdict c h (clear n)) as [[b r'] h''] eqn:HV. destruct b.
      * inversion V0; subst. rewrite R0 in IE by discriminate. discriminate.
      * discriminate.
    + cbn in HJ. inversion HJ; subst. eapply IH; eassumption.
Qed.

Lemma rescues_app' : forall a b, rescues (a ++ b) = rescues a ++ rescues b.
Proof. induction a as [|e a IH]; intro b; [reflexivity|]. destruct e; cbn; rewrite ?IH; reflexivity. Qed.

(** ** C07 *)
Lemma calls_of_last : forall c sampling t o s L0 n r,
  hooks_ok c -> root_ok c t -> filter_ok c -> session c sampling t = (o, s) ->
  offers (s_trace s) = L0 ++ [(n, r)] -> is_end_files r = true ->
  exists pre, calls (s_trace s) = pre ++ [(n, r)] /\ incl pre L0.
Proof.
  intros c sampling t o s L0 n r HK RO FO H EL IE.
  destruct (session_journal _ _ _ _ _ HK RO FO H) as (J & O & C & _ & JJ & _).
  rewrite O in EL. destruct (journal_last_called _ _ _ _ _ _ _ _ JJ EL IE) as (J0 & -> & EJ).
  exists (map fst (filter e_called J0)). rewrite C, filter_app, map_app. split; [reflexivity|].
  intros x I. rewrite <- EJ. apply in_map_iff in I. destruct I as (y & <- & I).
  apply filter_In in I. apply in_map. apply I.
Qed.
Lemma calls_in_offers : forall c sampling t o s,
  hooks_ok c -> root_ok c t -> filter_ok c -> session c sampling t = (o, s) ->
  incl (calls (s_trace s)) (offers (s_trace s)).
Proof.
  intros c sampling t o s HK RO FO H x I.
  destruct (session_journal _ _ _ _ _ HK RO FO H) as (J & O & C & _ & _).
  rewrite C in I. rewrite O. apply in_map_iff in I. destruct I as (y & <- & I). apply filter_In in I.
  apply in_map. apply I.
Qed.

Lemma not_skip_end : forall e, is_skip_error e = false -> is_end_files (CErr e) = true /\ is_end (CErr e) = true.
Proof.
  intros e H. cbn. rewrite H. split; [|reflexivity]. unfold is_skip_error in H. apply orb_false_iff in H.
  destruct H as [_ B]. unfold is_skip_all_only. rewrite B. reflexivity.
Qed.

Lemma listing_files : forall c, hooks_ok c -> forall t, exists P, preorder (entries_files c) [] (c_tree c) t P.
Proof.
  intros c HK t. eapply preorder_exists_gen; [|apply le_n]. intros p u e I.
  unfold entries_files in I. destruct (snd (c_read c p u)); [contradiction|].
  apply (entries_in_kids (with_sub SubUniversal c) HK p u e I).
Qed.

(** Why a session ended early: the last offer. *)
Lemma session_end : forall c sampling t o s,
  hooks_ok c -> root_ok c t -> default_skip c -> session c sampling t = (o, s) ->
  (forall x, In x (offers (s_trace s)) ->
     (match snd x with CErr e => is_skip_error e = false | CPanic _ => True | CNil => False end) ->
     (exists L0, offers (s_trace s) = L0 ++ [x]) /\
     match snd x with
     | CErr e => o = Ret (Some e)
     | CPanic p => (exists a, o = Ret (Some (rescue_error a))) \/ (o = Pan p /\ n_pos (fst x) = [])
     | CNil => False
     end) /\
  (forall e, o = Ret (Some e) -> is_skip_error e = false ->
     exists L0 m, offers (s_trace s) = L0 ++ [(m, CErr e)] \/ exists p, offers (s_trace s) = L0 ++ [(m, CPanic p)]).
Proof.
  intros c sampling t o s HK RO DS H.
  destruct (c_sub c) eqn:SUB.
  1:{ destruct (listing_files c HK t) as [P HP].
    destruct (session_files _ _ _ _ _ _ HK RO DS SUB HP H) as (ro & EO & NS & [_ ST] & OUT). split.
    - intros x I E.
      assert (IE : is_end_files (snd x) = true).
      { destruct (snd x) as [|e|p]; [contradiction|apply not_skip_end; exact E|reflexivity]. }
      destruct (stopsf ro) eqn:SR.
      2:{ exfalso. unfold no_endf in ST. rewrite Forall_forall in ST. rewrite (ST x I) in IE. discriminate. }
      destruct ST as (L0 & y & EL & EY & NE).
      assert (x = y) by (eapply (in_split_last _ (fun z => is_end_files (snd z))); eassumption). subst y.
      split; [exists L0; exact EL|]. destruct x as [n r]. cbn [snd fst] in *.
      destruct ro as [[b [e|]]|p|]; cbn in SR, OUT; try discriminate; try contradiction.
      + destruct OUT as ([(L1 & m & E1)|(A & L1 & m & p & E1)] & _).
        * rewrite E1 in EL. apply app_inj_tail in EL. destruct EL as [_ EL]. inversion EL; subst. reflexivity.
        * rewrite E1 in EL. apply app_inj_tail in EL. destruct EL as [_ EL]. inversion EL; subst.
          left; destruct A as [a ->]; exists a; reflexivity.
      + destruct OUT as (_ & m & E1 & PM). rewrite E1 in EL. destruct L0 as [|z [|? ?]]; inversion EL; subst.
        right. auto.
    - intros e Ee NSk. destruct ro as [[b [e'|]]|p|]; cbn in EO; rewrite Ee in EO; try discriminate.
      inversion EO; subst e'. cbn in OUT. destruct OUT as ([(L1 & m & E1)|(A & L1 & m & p & E1)] & _).
      + exists L1, m. left. exact E1.
      + exists L1, m. right. exists p. exact E1. }
  all: assert (NF : c_sub c <> SubFiles) by congruence; clear SUB;
    destruct (preorder_exists c HK [] (c_tree c) t) as [P HP];
    destruct (session_walk _ _ _ _ _ _ HK RO DS NF HP H) as (ro & EO & NS & [_ ST] & OUT); split;
    [ intros x I E;
      assert (IE : is_end (snd x) = true) by
        (destruct (snd x) as [|e|p]; [contradiction|apply not_skip_end; exact E|reflexivity]);
      destruct (stops ro) eqn:SR;
      [|exfalso; unfold no_end in ST; rewrite Forall_forall in ST; rewrite (ST x I) in IE; discriminate];
      destruct ST as (L0 & y & EL & EY & NE);
      assert (x = y) by (eapply (in_split_last _ (fun z => is_end (snd z))); eassumption); subst y;
      split; [exists L0; exact EL|]; destruct x as [n r]; cbn [snd fst] in *;
      destruct ro as [[b [e|]]|p|]; cbn in SR; try discriminate; try contradiction;
      [ assert (FL : failed b e (offers (s_trace s))) by
          (destruct b; cbn in OUT; destruct OUT as [(_ & X & _)|X]; try exact X; rewrite X in SR; discriminate);
        destruct FL as [(_ & _ & L1 & m & E1)|(A & L1 & m & p & E1)];
        rewrite E1 in EL; apply app_inj_tail in EL; destruct EL as [_ EL]; inversion EL; subst;
        [reflexivity|left; destruct A as [a ->]; exists a; reflexivity]
      | destruct OUT as (m & E1 & PM); rewrite E1 in EL; destruct L0 as [|z [|? ?]]; inversion EL; subst; right; auto ]
    | intros e Ee NSk; destruct ro as [[b [e'|]]|p|]; cbn in EO; rewrite Ee in EO; try discriminate;
      inversion EO; subst e';
      assert (FL : failed b e (offers (s_trace s))) by
          (destruct b; cbn in OUT; destruct OUT as [(_ & X & _)|X]; try exact X; rewrite X in NSk; discriminate);
      destruct FL as [(_ & _ & L1 & m & E1)|(A & L1 & m & p & E1)]; exists L1, m; [left; exact E1|right; exists p; exact E1] ].
Qed.

Lemma error_aborts : forall c sampling t o s n e,
  hooks_ok c -> root_ok c t -> default_skip c -> filter_ok c -> session c sampling t = (o, s) ->
  In (n, CErr e) (calls (s_trace s)) -> is_skip_error e = false ->
  (exists pre, calls (s_trace s) = pre ++ [(n, CErr e)]) /\ o = Ret (Some e).
Proof.
  intros c sampling t o s n e HK RO DS FO H I NSk.
  destruct (session_end _ _ _ _ _ HK RO DS H) as [A _].
  destruct (A (n, CErr e) (calls_in_offers _ _ _ _ _ HK RO FO H _ I) NSk) as [[L0 EL] EO].
  split; [|exact EO]. destruct (calls_of_last _ _ _ _ _ _ _ _ HK RO FO H EL) as (pre & E & _); [apply not_skip_end; exact NSk|].
  exists pre. exact E.
Qed.

Lemma session_rescue : forall c sampling t o s,
  hooks_ok c -> root_ok c t -> session c sampling t = (o, s) ->
  exists ro, o = of_run ro /\
  (peaceful ro (offers (s_trace s)) (rescues (s_trace s)) \/
   rescued c ro (offers (s_trace s)) (rescues (s_trace s)) s \/
   run_pan (new_node (c_tree c) t None None []) ro (offers (s_trace s)) (rescues (s_trace s))).
Proof.
  intros c sampling t o s HK RO H.
  destruct (session_shape _ _ _ _ _ HK RO H) as (ro & s2 & tr & HR & EO & NS & T2 & TS & M & _).
  exists ro. split; [exact EO|].
  assert (EOF : offers (s_trace s) = offers tr /\ rescues (s_trace s) = rescues tr).
  { rewrite TS. cbn [offers rescues]. rewrite offers_app, rescues_app'.
    destruct (calls_ending o (s_metrics s)) as (_ & E & E' & _). rewrite E, E', !app_nil_r. auto. }
  destruct EOF as [-> ->].
  assert (G : grown (began c sampling) s2 tr) by (unfold grown; rewrite T2; reflexivity).
  destruct (proj1 (rescue_main c (c_tree c)) _ _ _ _ HR tr G) as [A|[A|A]]; auto.
  right. left. destruct A as (L0 & m & p & sv & b & er & X1 & X2 & X3 & X4 & X5).
  exists L0, m, p, sv, b, er. split; [exact X1|]. split; [exact X2|]. split; [exact X3|]. split; [|split; [apply X5|]].
  - eapply saved_right_metrics; [|exact X4]. symmetry. exact M.
  - eapply answered_grows; [|apply X5]. rewrite TS, T2. reflexivity.
Qed.

Lemma error_origin : forall c sampling t o s e,
  hooks_ok c -> root_ok c t -> default_skip c -> filter_ok c -> session c sampling t = (o, s) ->
  o = Ret (Some e) -> is_skip_error e = false -> rescues (s_trace s) = [] ->
  exists pre n, calls (s_trace s) = pre ++ [(n, CErr e)].
Proof.
  intros c sampling t o s e HK RO DS FO H EO NSk NR.
  destruct (session_end _ _ _ _ _ HK RO DS H) as [_ B].
  destruct (B e EO NSk) as (L0 & m & [EL|(p & EL)]).
  - destruct (calls_of_last _ _ _ _ _ _ _ _ HK RO FO H EL) as (pre & E & _); [apply not_skip_end; exact NSk|].
    exists pre, m. exact E.
  - exfalso. destruct (session_rescue _ _ _ _ _ HK RO H) as (ro & EO' & [(C & _)|[(L1 & m1 & p1 & sv & b & er & _ & _ & X & _)|(m1 & p1 & X & _)]]).
    + pose proof (last_Forall _ _ _ _ _ EL C) as X. discriminate.
    + congruence.
    + rewrite X in EO'. cbn in EO'. congruence.
Qed.

(** ** C08-C10 *)
Lemma panic_rescued : forall c sampling t o s n p,
  hooks_ok c -> root_ok c t -> filter_ok c -> session c sampling t = (o, s) ->
  In (n, CPanic p) (calls (s_trace s)) -> n_pos n <> [] ->
  exists pre sv er, calls (s_trace s) = pre ++ [(n, CPanic p)] /\ calm pre /\
    rescues (s_trace s) = [sv] /\ o = Ret (Some er) /\ errors_is CorePanic er = true /\
    saved_right c n s sv.
Proof.
  intros c sampling t o s n p HK RO FO H I NP.
  pose proof (calls_in_offers _ _ _ _ _ HK RO FO H _ I) as IO.
  destruct (session_rescue _ _ _ _ _ HK RO H) as (ro & EO & [(C & _)|[(L1 & m1 & p1 & sv & b & er & EL & CL & ER & SR & ERO & EE)|(m1 & p1 & X & EL & _ & _ & PM)]]).
  - exfalso. unfold calm in C. rewrite Forall_forall in C. apply C in IO. discriminate.
  - assert (X : (n, CPanic p) = (m1, CPanic p1)).
    { eapply (in_split_last _ (fun z => is_panic (snd z))); [exact EL|exact CL|exact IO|reflexivity]. }
    inversion X; subst m1 p1.
    destruct (calls_of_last _ _ _ _ _ _ _ _ HK RO FO H EL eq_refl) as (pre & E & IN).
    exists pre, sv, er. split; [exact E|]. split.
    { apply Forall_forall. intros x Hx. unfold calm in CL. rewrite Forall_forall in CL. apply CL. apply IN. exact Hx. }
    split; [exact ER|]. subst ro. split; [exact EO|]. split; [destruct (answered_either _ _ _ _ _ EE) as [[d|r] ->]; reflexivity|exact SR].
  - exfalso. rewrite EL in IO. destruct IO as [IO|[]]. inversion IO; subst. apply NP. exact PM.
Qed.

(** the error returned *)
Lemma panic_answered : forall c sampling t o s n p,
  hooks_ok c -> root_ok c t -> filter_ok c -> session c sampling t = (o, s) ->
  In (n, CPanic p) (calls (s_trace s)) -> n_pos n <> [] ->
  exists before sv after, s_trace s = before ++ EvRescue sv :: after /\
    o = Ret (Some (rescue_error (c_rescue c before p sv))).
Proof.
  intros c sampling t o s n p HK RO FO H I NP.
  pose proof (calls_in_offers _ _ _ _ _ HK RO FO H _ I) as IO.
  destruct (session_rescue _ _ _ _ _ HK RO H) as (ro & EO & [(C & _)|[(L1 & m1 & p1 & sv & b & er & EL & CL & ER & SR & ERO & EE)|(m1 & p1 & X & EL & _ & _ & PM)]]).
  - exfalso. unfold calm in C. rewrite Forall_forall in C. apply C in IO. discriminate.
  - assert (X : (n, CPanic p) = (m1, CPanic p1)).
    { eapply (in_split_last _ (fun z => is_panic (snd z))); [exact EL|exact CL|exact IO|reflexivity]. }
    inversion X; subst m1 p1. destruct EE as (tr0 & rest & T & E). exists tr0, sv, rest. split; [exact T|].
    rewrite EO, ERO. cbn [of_run]. rewrite E. reflexivity.
  - exfalso. rewrite EL in IO. destruct IO as [IO|[]]. inversion IO; subst. apply NP. exact PM.
Qed.

Lemma no_panic_no_rescue : forall c sampling t o s,
  hooks_ok c -> root_ok c t -> filter_ok c -> session c sampling t = (o, s) ->
  calm (calls (s_trace s)) -> rescues (s_trace s) = [] /\ exists e, o = Ret e.
Proof.
  intros c sampling t o s HK RO FO H C.
  destruct (session_rescue _ _ _ _ _ HK RO H) as (ro & EO & [(_ & R & r & E)|[(L1 & m1 & p1 & sv & b & er & EL & _)|(m1 & p1 & X & EL & _)]]).
  - split; [exact R|]. subst ro. destruct r as [b e]. exists e. exact EO.
  - exfalso. destruct (calls_of_last _ _ _ _ _ _ _ _ HK RO FO H EL eq_refl) as (pre & E & _).
    pose proof (last_Forall _ _ _ _ _ E C) as Y. discriminate.
  - exfalso. destruct (calls_of_last _ _ _ _ _ [] _ _ HK RO FO H EL eq_refl) as (pre & E & _).
    pose proof (last_Forall _ _ _ _ _ E C) as Y. discriminate.
Qed.

Lemma escape_only_root : forall c sampling t o s p,
  hooks_ok c -> root_ok c t -> filter_ok c -> session c sampling t = (o, s) ->
  (o = Pan p <-> exists n, calls (s_trace s) = [(n, CPanic p)] /\ n_pos n = []).
Proof.
  intros c sampling t o s p HK RO FO H.
  destruct (session_rescue _ _ _ _ _ HK RO H) as (ro & EO & CASE). split.
  - intro E. destruct CASE as [(_ & _ & [b r] & X)|[(L1 & m1 & p1 & sv & b & er & _ & _ & _ & _ & X & _)|(m1 & p1 & X & EL & _ & _ & PM)]].
    + rewrite X in EO. cbn in EO. congruence.
    + rewrite X in EO. cbn in EO. congruence.
    + rewrite X in EO. cbn in EO. rewrite E in EO. inversion EO; subst p1.
      destruct (calls_of_last _ _ _ _ _ [] _ _ HK RO FO H EL eq_refl) as (pre & EC & IN).
      destruct pre as [|x pre]; [|exfalso; apply (IN x); left; reflexivity].
      exists m1. split; [exact EC|exact PM].
  - intros (n & EC & PN).
    assert (IO : In (n, CPanic p) (offers (s_trace s))).
    { apply (calls_in_offers _ _ _ _ _ HK RO FO H). rewrite EC. left. reflexivity. }
    destruct CASE as [(C & _)|[(L1 & m1 & p1 & sv & b & er & EL & CL & _ & (d & PD & _) & _)|(m1 & p1 & X & EL & _)]].
    + exfalso. unfold calm in C. rewrite Forall_forall in C. apply C in IO. discriminate.
    + exfalso. assert (X : (n, CPanic p) = (m1, CPanic p1)).
      { eapply (in_split_last _ (fun z => is_panic (snd z))); [exact EL|exact CL|exact IO|reflexivity]. }
      inversion X; subst m1 p1.
      pose proof (offers_stand _ _ _ _ _ HK RO H) as F. rewrite Forall_forall in F. apply F in IO. cbn in IO.
      inversion IO; subst; try congruence.
      match goal with E : n_pos n = n_pos _ ++ _ |- _ => rewrite PN in E; destruct (n_pos p0); discriminate end.
    + rewrite EL in IO. destruct IO as [IO|[]]. inversion IO; subst. reflexivity.
Qed.

(** ** C15 *)
Lemma session_counted : forall c sampling t o s, session c sampling t = (o, s) -> hooks_ok c -> root_ok c t ->
  m_files (s_metrics s) = files_in (calls (s_trace s)) /\ m_dirs (s_metrics s) = dirs_in (calls (s_trace s)).
Proof.
  intros c sampling t o s H HK RO.
  destruct (session_shape _ _ _ _ _ HK RO H) as (ro & s2 & tr & HR & EO & NS & T2 & TS & M & _).
  destruct (run_counted _ _ _ _ _ _ HR) as (tr' & T & F & D). rewrite T2 in T. cbn in T. inversion T; subst tr'.
  rewrite TS, M. cbn [calls]. rewrite calls_app. destruct (calls_ending o (s_metrics s2)) as (-> & _).
  rewrite app_nil_r. rewrite F, D. split; reflexivity.
Qed.
Lemma saved_counted : forall c sampling t o s sv,
  hooks_ok c -> root_ok c t -> filter_ok c -> session c sampling t = (o, s) -> In sv (rescues (s_trace s)) ->
  exists n p d, last (calls (s_trace s)) (n, CNil) = (n, CPanic p) /\ n_parent n = Some d /\
    sv_tree sv = c_tree c /\ sv_sub sv = c_sub c /\
    sv_path sv = n_path d /\ sv_isdir sv = n_isdir d /\ sv_depth sv = n_depth d /\
    m_files (sv_metrics sv) = files_in (calls (s_trace s)) /\
    m_dirs (sv_metrics sv) = dirs_in (calls (s_trace s)) /\
    m_child (sv_metrics sv) = m_child (s_metrics s) /\
    m_files_out (sv_metrics sv) = 0 /\ m_dirs_out (sv_metrics sv) = 0 /\ m_child_out (sv_metrics sv) = 0.
Proof.
  intros c sampling t o s sv HK RO FO H I.
  destruct (session_counted _ _ _ _ _ H HK RO) as [MF MD].
  destruct (session_rescue _ _ _ _ _ HK RO H) as (ro & EO & [(_ & R & _)|[(L1 & m1 & p1 & sv' & b & er & EL & CL & ER & (d & SR) & ERO & EE)|(m1 & p1 & X & EL & R & _)]]).
  - rewrite R in I. contradiction.
  - rewrite ER in I. destruct I as [<-|[]].
    destruct (calls_of_last _ _ _ _ _ _ _ _ HK RO FO H EL eq_refl) as (pre & E & _).
    exists m1, p1, d. destruct SR as (S1 & S2 & S3 & S4 & S5 & S6 & S7 & S8 & S9 & T1 & T2 & T3).
    rewrite <- MF, <- MD. repeat split; try assumption. rewrite E; apply last_last.
  - rewrite R in I. contradiction.
Qed.

(** ** C12-C14 *)
Lemma depth_within : forall c sampling t o s N, hooks_ok c -> root_ok c t -> session c sampling t = (o, s) ->
  (0 < N < 2 ^ 63)%N ->
  filter (within N 0) (map place_of (visited s)) =
  map place_of (filter (fun n => (n_depth n <=? Z.of_N N)%Z) (visited s)).
Proof.
  intros c sampling t o s N HK RO H HN.
  pose proof (visited_stands _ _ _ _ _ HK RO H) as F.
  assert (IU : int_of_uint N = Z.of_N N).
  { assert (ZN : (0 <= Z.of_N N < 2 ^ 63)%Z) by (split; [lia|]; change (2^63)%Z with (Z.of_N (2^63)); lia).
    unfold int_of_uint. rewrite Z.mod_small by lia. destruct (Z.ltb_spec (Z.of_N N) (2^63)); lia. }
  induction F as [|n l HS F IH]; [reflexivity|]. cbn [map filter].
  assert (E : within N 0 (place_of n) = (n_depth n <=? Z.of_N N)%Z).
  { unfold within. rewrite IU. rewrite (stands_depth _ _ _ _ _ _ _ HS). cbn [place_of pl_pos].
    destruct (N.eqb_spec N 0); [lia|]. reflexivity. }
  rewrite E. destruct (n_depth n <=? Z.of_N N)%Z; cbn [map]; rewrite IH; reflexivity.
Qed.

Lemma depth_limit : forall c sampling t N,
  hooks_ok c -> root_ok c t -> default_skip c -> plain c -> nil_callback c -> (0 < N < 2 ^ 63)%N ->
  exists s0 sN,
    session (with_depth 0 c) sampling t = (Ret None, s0) /\
    session (with_depth N c) sampling t = (Ret None, sN) /\
    map place_of (visited sN) = map place_of (filter (fun n => (n_depth n <=? Z.of_N N)%Z) (visited s0)).
Proof.
  intros c sampling t N HK RO DS PL NC HN.
  destruct (c_sub c) eqn:SUB.
  - destruct (listing_files c HK t) as [P HP].
    destruct (files_nil (with_depth 0 c) sampling t P HK RO DS PL NC SUB HP) as (s0 & E0 & M0).
    destruct (files_nil (with_depth N c) sampling t P HK RO DS PL NC SUB HP) as (sN & EN & MN).
    exists s0, sN. repeat (split; [assumption|]).
    rewrite <- (depth_within _ _ _ _ _ N (HK : hooks_ok (with_depth 0 c)) (RO : root_ok (with_depth 0 c) t) E0 HN), MN, M0.
    cbn [c_depth with_depth]. rewrite (filter_true _ (within 0 0)) by apply within_0. apply filter_comm.
  - destruct (preorder_exists c HK [] (c_tree c) t) as [P HP]. assert (HP' : preorder (entries_dirs c) [] (c_tree c) t P).
    { eapply (proj1 (preorder_ext (entries c) (entries_dirs c) (fun p u => eq_sym (entries_directories c (or_introl SUB) p u)))). exact HP. }
    destruct (directories_nil (with_depth 0 c) sampling t P HK RO DS PL NC (or_introl SUB) HP') as (s0 & E0 & M0).
    destruct (directories_nil (with_depth N c) sampling t P HK RO DS PL NC (or_introl SUB) HP') as (sN & EN & MN).
    exists s0, sN. repeat (split; [assumption|]).
    rewrite <- (depth_within _ _ _ _ _ N (HK : hooks_ok (with_depth 0 c)) (RO : root_ok (with_depth 0 c) t) E0 HN), MN, M0.
    cbn [c_depth with_depth]. rewrite (filter_true _ (within 0 0)) by apply within_0. reflexivity.
  - destruct (preorder_exists c HK [] (c_tree c) t) as [P HP]. assert (HP' : preorder (entries_dirs c) [] (c_tree c) t P).
    { eapply (proj1 (preorder_ext (entries c) (entries_dirs c) (fun p u => eq_sym (entries_directories c (or_intror SUB) p u)))). exact HP. }
    destruct (directories_nil (with_depth 0 c) sampling t P HK RO DS PL NC (or_intror SUB) HP') as (s0 & E0 & M0).
    destruct (directories_nil (with_depth N c) sampling t P HK RO DS PL NC (or_intror SUB) HP') as (sN & EN & MN).
    exists s0, sN. repeat (split; [assumption|]).
    rewrite <- (depth_within _ _ _ _ _ N (HK : hooks_ok (with_depth 0 c)) (RO : root_ok (with_depth 0 c) t) E0 HN), MN, M0.
    cbn [c_depth with_depth]. rewrite (filter_true _ (within 0 0)) by apply within_0. reflexivity.
  - destruct (preorder_exists c HK [] (c_tree c) t) as [P HP]. assert (HP' : preorder (entries_all c) [] (c_tree c) t P).
    { eapply (proj1 (preorder_ext (entries c) (entries_all c) (fun p u => eq_sym (entries_universal c SUB p u)))). exact HP. }
    destruct (universal_nil (with_depth 0 c) sampling t P HK RO DS PL NC SUB HP') as (s0 & E0 & M0).
    destruct (universal_nil (with_depth N c) sampling t P HK RO DS PL NC SUB HP') as (sN & EN & MN).
    exists s0, sN. repeat (split; [assumption|]).
    rewrite <- (depth_within _ _ _ _ _ N (HK : hooks_ok (with_depth 0 c)) (RO : root_ok (with_depth 0 c) t) E0 HN), MN, M0.
    cbn [c_depth with_depth]. rewrite (filter_true _ (within 0 0)) by apply within_0. reflexivity.
Qed.

(** The root is visited first unless the limit is negative as a signed integer. *)
Lemma root_first : forall c sampling t o s,
  hooks_ok c -> root_ok c t -> default_skip c -> plain c -> c_sub c <> SubFiles ->
  session c sampling t = (o, s) ->
  if (c_depth c =? 0)%N || (0 <=? int_of_uint (c_depth c))%Z
  then exists n rest, visited s = n :: rest /\ place_of n = mkPlace [] (c_tree c) t
  else visited s = [] /\ o = Ret None.
Proof.
  intros c sampling t o s HK RO DS PL NF H.
  pose proof (plain_calls_offers _ _ _ _ _ HK RO PL H) as EC.
  destruct (preorder_exists c HK [] (c_tree c) t) as [P HP].
  destruct (session_walk _ _ _ _ _ _ HK RO DS NF HP H) as (ro & EO & NS & [[rest [K Z]] ST] & OUT).
  inversion HP as [pos path u l HL]; subst pos path u P.
  unfold visited. rewrite EC.
  destruct ((c_depth c =? 0)%N || (0 <=? int_of_uint (c_depth c))%Z) eqn:W.
  - cbn [filter] in K. assert (W0 : within (c_depth c) 0 (mkPlace [] (c_tree c) t) = true).
    { unfold within. cbn. exact W. }
    rewrite W0 in K. cbn [filter] in K.
    assert (B0 : below_skip (offers (s_trace s)) (mkPlace [] (c_tree c) t) = false).
    { unfold below_skip. cbn. clear. induction (offers (s_trace s)) as [|[n r] L IH]; [reflexivity|].
      cbn. rewrite IH. destruct (n_pos n); reflexivity. }
    rewrite B0 in K. cbn [negb] in K.
    destruct (offers (s_trace s)) as [|[n r] L] eqn:EL.
    + exfalso. destruct (stops ro).
      * destruct ST as (L0 & x & X & _). destruct L0; discriminate.
      * rewrite (Z eq_refl) in K. discriminate.
    + cbn in K. inversion K as [[K1 K2 K3]]. exists n, (map fst L). split; [reflexivity|].
      unfold place_of. congruence.
  - (* nothing is within the limit *)
    assert (FN : filter (within (c_depth c) 0) (mkPlace [] (c_tree c) t :: l) = []).
    { apply filter_nil. intros p _. unfold within. apply orb_false_iff in W. destruct W as [W1 W2]. rewrite W1. cbn.
      apply Z.leb_gt in W2. apply Z.leb_gt. lia. }
    rewrite FN in K. cbn in K. destruct (offers (s_trace s)) as [|x L] eqn:EL; [|discriminate].
    split; [reflexivity|].
    destruct ro as [[b [e|]]|p|]; cbn in OUT.
    + exfalso. assert (X : exists L0 y, @nil (node * cbres) = L0 ++ [y]).
      { destruct b; cbn in OUT; destruct OUT as [(_ & _ & m & X & _)|[(_ & _ & L0 & m & X)|(_ & L0 & m & p & X)]]; try discriminate; eauto. }
      destruct X as ([|? ?] & y & X); discriminate.
    + exact EO.
    + destruct OUT as (m & X & _). discriminate.
    + contradiction.
Qed.

(** ** C16 *)
Scheme bracketed_mut := Minimality for bracketed Sort Prop
with bracketed_kids_mut := Minimality for bracketed_kids Sort Prop.
Definition edge_event (e : event) : bool := match e with EvBegin _ | EvEnd _ => true | _ => false end.
Lemma bracketed_no_edge : forall n tr, bracketed n tr -> filter edge_event tr = [].
Proof.
  apply (bracketed_mut (fun _ tr => filter edge_event tr = []) (fun _ _ tr => filter edge_event tr = [])).
  - intros n m own kids resc _ _ FO _ IH HR. rewrite !filter_app, IH.
    assert (E : filter edge_event own = []).
    { apply filter_nil. intros e I. rewrite Forall_forall in FO. apply FO in I. destruct e; cbn in I; try contradiction; reflexivity. }
    rewrite E. destruct HR as [->|(sv & ->)]; reflexivity.
  - reflexivity.
  - intros n i j m visit rest _ _ _ _ IHv _ IHr. rewrite filter_app, IHv, IHr. reflexivity.
Qed.

Lemma begin_end : forall c sampling t o s, hooks_ok c -> root_ok c t -> session c sampling t = (o, s) ->
  exists visit, filter edge_event visit = [] /\
    s_trace s = EvBegin (c_tree c) :: visit ++ (match o with Ret _ => [EvEnd (s_metrics s)] | _ => [] end).
Proof.
  intros c sampling t o s HK RO H. destruct (session_bracketed _ _ _ _ _ HK RO H) as (_ & visit & E & B).
  exists visit. split; [|exact E]. destruct B as [->|(n & _ & _ & B)]; [reflexivity|].
  eapply bracketed_no_edge. exact B.
Qed.
