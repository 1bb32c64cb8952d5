(** Resumed sessions which are interrupted in turn: what is saved. *)
From Verif Require Import Base Paths Level Lo Kernel Session Spec KernelRel KernelFacts
  KernelInv WalkFacts StandsFacts JournalFacts SessionFacts RescueFacts FilesFacts BracketFacts WalkCor
  PathFacts WalkProps Resume SpecResume ResumeMetrics SpecInterrupt.
Local Open Scope list_scope.

(** ** A callback which panics is the last event of the chain *)
Definition told (tr : list event) : Prop := forall a n p b, tr = a ++ EvCall n (CPanic p) :: b ->
  exists b1 b2, b = b1 ++ EvOffer n (CPanic p) :: b2 /\ calls b1 = [].
Definition closed (tr : list event) : Prop := forall a n r b, tr = a ++ EvCall n r :: b -> offers b <> [].

Lemma cut_app : forall A (x y a b : list A) e, x ++ y = a ++ e :: b ->
  (exists b', x = a ++ e :: b' /\ b = b' ++ y) \/ (exists a', y = a' ++ e :: b /\ a = x ++ a').
Proof.
  induction x as [|z x IH]; intros y a b e H.
  - right. exists a. auto.
  - destruct a as [|z' a]; cbn in H; inversion H; subst.
    + left. exists x. auto.
    + match goal with E : x ++ y = _ |- _ => destruct (IH _ _ _ _ E) as [(b' & -> & ->)|(a' & -> & ->)] end.
      * left. exists b'. auto.
      * right. exists a'. auto.
Qed.
Lemma told_app : forall x y, told x -> told y -> told (x ++ y).
Proof.
  intros x y X Y a n p b H. destruct (cut_app _ _ _ _ _ _ H) as [(b' & E & ->)|(a' & E & ->)].
  - destruct (X _ _ _ _ E) as (b1 & b2 & -> & C). exists b1, (b2 ++ y). split; [rewrite <- app_assoc; reflexivity|exact C].
  - eapply Y. exact E.
Qed.
Lemma closed_app : forall x y, closed x -> closed y -> closed (x ++ y).
Proof.
  intros x y X Y a n r b H. destruct (cut_app _ _ _ _ _ _ H) as [(b' & E & ->)|(a' & E & ->)].
  - rewrite offers_app. intro Z. apply app_eq_nil in Z. apply (X _ _ _ _ E), Z.
  - eapply Y. exact E.
Qed.
Lemma no_call_in : forall tr a n r b, calls tr = [] -> tr <> a ++ EvCall n r :: b.
Proof. intros tr a n r b C ->. rewrite calls_app in C. cbn in C. destruct (calls a); discriminate. Qed.
Lemma silent_told : forall tr, calls tr = [] -> told tr /\ closed tr.
Proof. intros tr C. split; intros a n p b E; exfalso; eapply no_call_in; eassumption. Qed.

(** A link: a call which panics is its last event, and it panics with the same. *)
Definition linked (o : option panicv) (n1 : node) (s s1 : st) : Prop :=
  exists tr, s_trace s1 = s_trace s ++ tr /\
    (forall a m p b, tr = a ++ EvCall m (CPanic p) :: b -> o = Some p /\ n1 = m /\ calls b = []).
Definition pan_of {A} (o : outcome A) : option panicv := match o with Pan p => Some p | _ => None end.

Lemma linked_silent : forall o n1 s s1 tr, s_trace s1 = s_trace s ++ tr -> calls tr = [] -> linked o n1 s s1.
Proof. intros o n1 s s1 tr T C. exists tr. split; [exact T|]. intros a m p b E. exfalso. eapply no_call_in; eassumption. Qed.
Lemma linked_same : forall o n1 s s1, s_trace s1 = s_trace s -> linked o n1 s s1.
Proof. intros. apply (linked_silent _ _ _ _ []); [rewrite app_nil_r; assumption|reflexivity]. Qed.
Lemma linked_after : forall o n1 a b d, s_trace b = s_trace a -> linked o n1 b d -> linked o n1 a d.
Proof. intros o n1 a b d E (tr & T & H). exists tr. rewrite <- E. auto. Qed.
Lemma linked_disp : forall o n1 b e s, calls [e] = [] -> linked o n1 s (dispatch b e s).
Proof. intros o n1 [|] e s H; [apply linked_same; reflexivity|]. apply (linked_silent _ _ _ _ [e]); auto. Qed.

Section Link.
Variable c : cfg.

(** Links other than the anchor do not call. *)
Definition mute_link (s s1 : st) : Prop := exists tr, s_trace s1 = s_trace s ++ tr /\ calls tr = [].
Lemma mute_same : forall s s1, s_trace s1 = s_trace s -> mute_link s s1.
Proof. intros s s1 E. exists []. rewrite app_nil_r. auto. Qed.
Lemma mute_trans : forall a b d, mute_link a b -> mute_link b d -> mute_link a d.
Proof.
  intros a b d (t1 & T1 & C1) (t2 & T2 & C2). exists (t1 ++ t2). rewrite T2, T1, app_assoc, calls_app, C1, C2. auto.
Qed.
Lemma mute_disp : forall b e s, calls [e] = [] -> mute_link s (dispatch b e s).
Proof. intros [|] e s H; [apply mute_same; reflexivity|]. exists [e]. auto. Qed.
Lemma link_mute : forall r n k s o n1 s1, link_next c r n k s = (o, n1, s1) -> r <> RoleAnchor -> mute_link s s1.
Proof.
  intros r n k s o n1 s1 H NA. destruct r; cbn [link_next] in H; try contradiction.
  - inversion H; subst; apply mute_same; reflexivity.
  - assert (PR : forall p n' s' o' n2 s2, primary_next p n' k s' = (o', n2, s2) -> mute_link s' s2).
    { intros p n' s' o' n2 s2 P. destruct p as [f|m]; cbn in P.
      - unfold match_next in P. destruct (f n') as [[|]|]; inversion P; subst; apply mute_same; reflexivity.
      - unfold sampler_next in P. destruct (scope_is_tree _); [destruct k as [[fs ds]|]|];
          inversion P; subst; apply mute_same; reflexivity. }
    assert (NN : forall m n' s' o' n2 s2, nanny_scheme_next c m n' k s' = (o', n2, s2) -> mute_link s' s2).
    { intros m n' s' o' n2 s2 P. unfold nanny_scheme_next in P.
      destruct k as [[fs ds]|]; [destruct (m (c_sort c fs))|]; inversion P; subst; apply mute_same; reflexivity. }
    unfold filter_next in H. destruct (c_scheme c) as [[[p|] [m|]]|]; cbn in H.
    + destruct (primary_next p n k s) as [[po pn] ps] eqn:P. apply PR in P.
      destruct po as [[[|] e]|q|]; try (inversion H; subst; exact P).
      destruct (nanny_scheme_next c m pn k ps) as [[no nn] ns] eqn:N. apply NN in N.
      destruct no as [[b e2]|q|]; inversion H; subst; eapply mute_trans; eassumption.
    + eapply PR; eassumption.
    + eapply NN; eassumption.
    + inversion H; subst; apply mute_same; reflexivity.
    + inversion H; subst; apply mute_same; reflexivity.
  - unfold hib_next in H. destruct (c_hib c) as [h|]; [|inversion H; subst; apply mute_same; reflexivity].
    assert (SD : forall b e x, calls [e] = [] -> mute_link s (set_hib x (dispatch b e s))).
    { intros b e x E. eapply mute_trans; [apply (mute_disp b e s E)|]. apply mute_same; reflexivity. }
    destruct (s_hib s).
    + destruct (hb_wake h n) as [[|]|]; [destruct (hb_incl_wake h)| |]; inversion H; subst; auto; apply mute_same; reflexivity.
    + destruct (hb_sleep h n) as [[|]|]; [destruct (hb_incl_sleep h)| |]; inversion H; subst; auto; apply mute_same; reflexivity.
    + inversion H; subst; apply mute_same; reflexivity.
  - inversion H; subst; apply mute_same; reflexivity.
  - unfold nanny_next in H. destruct k as [[fs ds]|]; inversion H; subst; apply mute_same; reflexivity.
  - unfold fast_next in H. destruct (c_fast c) as [f|]; [|inversion H; subst; apply mute_same; reflexivity].
    destruct (fast_match f n) as [[|]|p|]; inversion H; subst; apply mute_same; reflexivity.
Qed.
Lemma link_linked : forall r n k s o n1 s1, link_next c r n k s = (o, n1, s1) -> linked (pan_of o) n1 s s1.
Proof.
  intros r n k s o n1 s1 H. assert (D : r = RoleAnchor \/ r <> RoleAnchor) by (destruct r; auto; right; discriminate).
  destruct D as [-> | D].
  - cbn [link_next] in H. unfold anchor_next in H.
    destruct (c_client c _ n) as [|e|p] eqn:E; inversion H; subst.
    + exists [EvCall n1 CNil]. split; [reflexivity|]. intros [|? [|]] m p b X; inversion X.
    + exists [EvCall n1 (CErr e)]. split; [reflexivity|]. intros [|? [|]] m p b X; inversion X.
    + exists [EvCall n1 (CPanic p)]. split; [reflexivity|]. intros [|? [|]] m q b X; inversion X; subst. auto.
  - destruct (link_mute _ _ _ _ _ _ _ H D) as (tr & T & C). eapply linked_silent; eassumption.
Qed.
Lemma linked_trans : forall n0 n1 o s s1 s2, linked None n0 s s1 -> linked o n1 s1 s2 -> linked o n1 s s2.
Proof.
  intros n0 n1 o s s1 s2 (t1 & T1 & H1) (t2 & T2 & H2). exists (t1 ++ t2).
  split; [rewrite T2, T1, app_assoc; reflexivity|]. intros a m p b E.
  destruct (cut_app _ _ _ _ _ _ E) as [(b' & X & ->)|(a' & X & ->)].
  - destruct (H1 _ _ _ _ X) as (Y & _). discriminate.
  - eapply H2. exact X.
Qed.
Lemma iterate_linked : forall rs n k s o n1 s1, iterate c rs n k s = (o, n1, s1) -> linked (pan_of o) n1 s s1.
Proof.
  induction rs as [|r rs IH]; cbn [iterate]; intros n k s o n1 s1 H.
  - inversion H; subst. apply linked_same. reflexivity.
  - destruct (link_next c r n k s) as [[lo ln] ls] eqn:L. apply link_linked in L.
    destruct lo as [[[|] [er|]]|p|]; try (inversion H; subst; exact L).
    eapply linked_trans; [exact L|eapply IH; eassumption].
Qed.
Definition tells (s s1 : st) : Prop := exists tr, s_trace s1 = s_trace s ++ tr /\ told tr /\ closed tr.
Lemma invoke_tells : forall n k s o n1 s1, invoke c n k s = (o, n1, s1) -> tells s s1.
Proof.
  intros n k s o n1 s1 H. unfold invoke in H.
  destruct (iterate c (s_items s) n k s) as [[io inn] is_] eqn:II. apply iterate_linked in II.
  inversion H; subst. destruct II as (tr & T & L). exists (tr ++ [EvOffer n1 (res_of o)]).
  split; [cbn [emit s_trace]; rewrite T, app_assoc; reflexivity|]. split; intros a m p b E.
  - destruct (cut_app _ _ _ _ _ _ E) as [(b' & X & ->)|(a' & X & ->)].
    + destruct (L _ _ _ _ X) as (Y & -> & C). exists b', []. destruct o; inversion Y; subst. auto.
    + destruct a' as [|? [|]]; inversion X.
  - destruct (cut_app _ _ _ _ _ _ E) as [(b' & X & ->)|(a' & X & ->)].
    + rewrite offers_app. cbn [offers]. intro Z. apply app_eq_nil in Z. destruct Z; discriminate.
    + destruct a' as [|? [|]]; inversion X.
Qed.
Lemma tells_refl : forall s, tells s s.
Proof. intro s. exists []. rewrite app_nil_r. split; [reflexivity|]. apply silent_told. reflexivity. Qed.
Lemma tells_trans : forall a b d, tells a b -> tells b d -> tells a d.
Proof.
  intros a b d (t1 & T1 & A1 & B1) (t2 & T2 & A2 & B2). exists (t1 ++ t2). rewrite T2, T1, app_assoc.
  split; [reflexivity|]. split; [apply told_app|apply closed_app]; assumption.
Qed.
Lemma tells_silent : forall s s1 tr, s_trace s1 = s_trace s ++ tr -> calls tr = [] -> tells s s1.
Proof. intros s s1 tr T C. exists tr. split; [exact T|]. apply silent_told. exact C. Qed.
Lemma run_tells : forall tree n s o s1, run c tree n s o s1 -> tells s s1.
Proof.
  intros tree n s o s1 HR.
  refine (proj1 (kernel_inv c tree tells (fun _ _ => True) (fun _ _ => True) (fun _ _ _ => True)
            tells_refl tells_trans _ _ _ _ _ _ _) n s o s1 HR I); clear n s o s1 HR; auto.
  - intros n nn s s1 s2 _ E _ H.
    destruct (descend_true _ _ _ _ E) as (_ & T1 & _). destruct (ascend_fields nn s2) as (_ & T2 & _).
    eapply tells_trans; [eapply tells_silent; [exact T1|destruct (mu_descend _); reflexivity]|].
    eapply tells_trans; [exact H|]. eapply tells_silent; [exact T2|destruct (mu_ascend _); reflexivity].
  - intros n s o n1 s1 _ _ H. split; [eapply invoke_tells; exact H|auto].
  - intros n es s _. apply (tells_silent _ _ [EvRescue (saved_of c n s)]); reflexivity.
Qed.
End Link.

Lemma calls_split : forall tr n r, In (n, r) (calls tr) -> exists a b, tr = a ++ EvCall n r :: b.
Proof.
  induction tr as [|e tr IH]; intros n r H; [contradiction|].
  assert (REC : In (n, r) (calls tr) -> exists a b, e :: tr = a ++ EvCall n r :: b).
  { intro X. destruct (IH _ _ X) as (a & b & ->). exists (e :: a), b. reflexivity. }
  destruct e; cbn [calls] in H; auto. destruct H as [H|H]; auto. inversion H; subst. exists [], tr. reflexivity.
Qed.
Lemma calls_none : forall tr, (forall a n r b, tr <> a ++ EvCall n r :: b) -> calls tr = [].
Proof.
  intros tr H. destruct (calls tr) as [|[n r] l] eqn:E; [reflexivity|].
  destruct (calls_split tr n r) as (a & b & X); [rewrite E; left; reflexivity|]. exfalso. eapply H; exact X.
Qed.
Lemma calls_offers_calm : forall tr, told tr -> calm (offers tr) -> calm (calls tr).
Proof.
  intros tr T C. apply Forall_forall. intros [n r] I. destruct r as [|e|p]; try reflexivity. exfalso.
  destruct (calls_split _ _ _ I) as (a & b & ->). destruct (T _ _ _ _ eq_refl) as (b1 & b2 & -> & _).
  rewrite offers_app in C. cbn [offers] in C. rewrite offers_app in C. cbn [offers] in C.
  unfold calm in C. rewrite !Forall_app in C. destruct C as (_ & _ & C). inversion C; subst. discriminate.
Qed.
(** The callback which panicked is the last one, when the last offer is the only one which panicked. *)
Lemma panic_last : forall tr L0 m p' n p, told tr -> closed tr -> offers tr = L0 ++ [(m, CPanic p')] -> calm L0 ->
  In (n, CPanic p) (calls tr) ->
  n = m /\ p = p' /\ exists pre, calls tr = pre ++ [(n, CPanic p)] /\ calm pre.
Proof.
  intros tr L0 m p' n p T CL EO CM I.
  destruct (calls_split _ _ _ I) as (a & b & E).
  destruct (T _ _ _ _ E) as (b1 & b2 & EB & C1). subst b.
  assert (F : offers (a ++ b1) ++ (n, CPanic p) :: offers b2 = L0 ++ [(m, CPanic p')]).
  { rewrite <- EO, E, !offers_app. cbn [offers]. rewrite offers_app. cbn [offers]. rewrite <- app_assoc. reflexivity. }
  assert (B2 : offers b2 = []).
  { destruct (offers b2) as [|x l] eqn:OB using rev_ind; [reflexivity|]. exfalso.
    rewrite app_comm_cons, app_assoc in F. apply app_inj_tail in F. destruct F as [F _].
    unfold calm in CM. rewrite <- F in CM. apply Forall_app in CM. destruct CM as [_ CM]. inversion CM; subst. discriminate. }
  rewrite B2 in F. apply app_inj_tail in F. destruct F as [F1 F2]. inversion F2; subst m p'.
  split; [reflexivity|]. split; [reflexivity|].
  assert (CB : calls b2 = []).
  { apply calls_none. intros a' n' r' b' X. subst b2.
    apply (CL ((a ++ EvCall n (CPanic p) :: b1 ++ EvOffer n (CPanic p) :: a')) n' r' b').
    - rewrite E. repeat (rewrite <- app_assoc; cbn [app]). reflexivity.
    - rewrite offers_app in B2. cbn [offers] in B2. apply app_eq_nil in B2. apply B2. }
  exists (calls a). rewrite E, !calls_app. cbn [calls]. rewrite calls_app. cbn [calls]. rewrite C1, CB.
  split; [reflexivity|]. apply Forall_forall. intros [n' r'] I'. destruct r' as [|e|q]; try reflexivity. exfalso.
  destruct (calls_split _ _ _ I') as (a1 & a2 & ->).
  destruct (T a1 n' q (a2 ++ EvCall n (CPanic p) :: b1 ++ EvOffer n (CPanic p) :: b2)) as (d1 & d2 & X & CD).
  { rewrite E, <- app_assoc. reflexivity. }
  destruct (cut_app _ _ _ _ _ _ X) as [(d' & -> & ->)|(d' & Y & ->)].
  - unfold calm in CM. rewrite <- F1 in CM. rewrite !offers_app in CM. cbn [offers] in CM. rewrite offers_app in CM.
    cbn [offers] in CM. rewrite !Forall_app in CM. destruct CM as ((_ & _ & CM) & _). inversion CM; subst. discriminate.
  - destruct d' as [|z d']; cbn in Y; inversion Y; subst. rewrite calls_app in CD. apply app_eq_nil in CD.
    destruct CD as [_ CD]. discriminate.
Qed.

(** ** One traversal from any state, and several in turn *)
Section Seq.
Variable c : cfg.
Hypothesis HK : hooks_ok c.

Definition quietly (o : outcome (option error)) (L : list (node * cbres)) (RS : list saved) : Prop :=
  calm L /\ RS = [] /\ forall p, o <> Pan p.
Definition saving (o : outcome (option error)) (L : list (node * cbres)) (RS : list saved) (s1 : st) : Prop :=
  exists L0 m p sv er, L = L0 ++ [(m, CPanic p)] /\ calm L0 /\ RS = [sv] /\ saved_right c m s1 sv /\
    o = Ret (Some er) /\ answered c p sv er s1.
Definition escaping (o : outcome (option error)) (L : list (node * cbres)) (RS : list saved) : Prop :=
  exists L0 m p, L = L0 ++ [(m, CPanic p)] /\ calm L0 /\ RS = [] /\ o = Pan p /\ n_parent m = None.
Definition ends (o : outcome (option error)) (s s1 : st) : Prop :=
  exists tr, s_trace s1 = s_trace s ++ tr /\ told tr /\ closed tr /\
    (quietly o (offers tr) (rescues tr) \/ saving o (offers tr) (rescues tr) s1 \/ escaping o (offers tr) (rescues tr)).

Lemma ends_silent : forall o s, (forall p, o <> Pan p) -> ends o s s.
Proof.
  intros o s H. exists []. rewrite app_nil_r. split; [reflexivity|].
  destruct (silent_told [] eq_refl) as [A B]. split; [exact A|]. split; [exact B|].
  left. split; [constructor|]. split; [reflexivity|exact H].
Qed.
Lemma top_ends : forall path t s o s1, top c path t s = (o, s1) -> ends o s s1.
Proof.
  intros path t s o s1 H. destruct (c_stat c t) as [e|] eqn:ST.
  { unfold top in H. rewrite ST in H. inversion H; subst. apply ends_silent. discriminate. }
  destruct (top_adequate _ _ _ _ _ _ HK ST H) as (ro & HR & CASE).
  destruct (run_tells _ _ _ _ _ _ HR) as (tr & T & A & B). exists tr. repeat (split; [assumption|]).
  destruct (proj1 (rescue_main c path) _ _ _ _ HR tr T) as [P|[P|P]].
  - left. destruct P as (C & R & r & E). split; [exact C|]. split; [exact R|].
    destruct CASE as [(b & e & X & ->)|(p & X & ->)]; [discriminate|congruence].
  - right; left. destruct P as (L0 & m & p & sv & b & er & EL & C & R & SV & E & AN).
    exists L0, m, p, sv, er. destruct CASE as [(b' & e & X & ->)|(q & X & ->)]; [|congruence].
    rewrite E in X. inversion X; subst. auto 10.
  - right; right. destruct P as (m & p & E & EL & R & PM & _). exists [], m, p.
    destruct CASE as [(b' & e & X & ->)|(q & X & ->)]; [congruence|]. rewrite E in X. inversion X; subst.
    split; [exact EL|]. split; [constructor|]. auto.
Qed.
Lemma ends_then : forall e0 o a b d, ends (Ret e0) a b -> e0 = None -> ends o b d -> ends o a d.
Proof.
  intros e0 o a b d (t1 & T1 & A1 & B1 & C1) -> (t2 & T2 & A2 & B2 & C2). exists (t1 ++ t2).
  split; [rewrite T2, T1, app_assoc; reflexivity|]. split; [apply told_app; assumption|].
  split; [apply closed_app; assumption|]. rewrite offers_app, rescues_app.
  destruct C1 as [(Q1 & Q2 & _)|[(L0 & m & p & sv & er & _ & _ & _ & _ & X & _)|(L0 & m & p & _ & _ & _ & X & _)]]; try discriminate.
  rewrite Q2. cbn [app]. destruct C2 as [(R1 & R2 & R3)|[(L0 & m & p & sv & er & EL & C & X)|(L0 & m & p & EL & C & X)]].
  - left. split; [apply calm_app; assumption|]. auto.
  - right; left. exists (offers t1 ++ L0), m, p, sv, er. rewrite EL, app_assoc. split; [reflexivity|].
    split; [apply calm_app; assumption|exact X].
  - right; right. exists (offers t1 ++ L0), m, p. rewrite EL, app_assoc. split; [reflexivity|].
    split; [apply calm_app; assumption|exact X].
Qed.
Lemma seed_ends : forall pc dk d es s o s1, seed c pc dk d es s = (o, s1) -> ends o s s1.
Proof.
  induction es as [|e es IH]; cbn [seed]; intros s o s1 H.
  - inversion H; subst. apply ends_silent. discriminate.
  - destruct (top c (pc_join pc d (fname e)) (dk (pc_join pc d (fname e))) s) as [to ts] eqn:T.
    apply top_ends in T. destruct to as [[er|]|p|]; try (inversion H; subst; exact T).
    eapply ends_then; [exact T|reflexivity|eapply IH; eassumption].
Qed.
Lemma crown_ends : forall pc dk tree fuel p own s o ok s1,
  crown fuel c pc dk tree p own s = (o, ok, s1) -> ends o s s1 /\ (ok = true <-> o = Ret None).
Proof.
  induction fuel as [|fuel IH]; cbn [crown]; intros p own s o ok s1 H.
  - inversion H; subst. split; [apply ends_silent; discriminate|]. split; discriminate.
  - destruct (String.eqb p tree); [inversion H; subst; split; [apply ends_silent; discriminate|split; reflexivity]|].
    destruct (pc_split pc p) as [d b]. destruct (following c dk d b own) as [es [er|]].
    { inversion H; subst. split; [apply ends_silent; discriminate|split; discriminate]. }
    destruct (seed c pc dk d es s) as [so ss] eqn:SE. apply seed_ends in SE.
    destruct so as [[er|]|q|]; try (inversion H; subst; split; [exact SE|split; discriminate]).
    apply IH in H. destruct H as [X OK]. split; [eapply ends_then; [exact SE|reflexivity|exact X]|exact OK].
Qed.

(** From the state after Begin to the end of Navigate. *)
Lemma ends_dispatch : forall e s s1 b m, ends (Ret e) s s1 -> ends (Ret e) s (dispatch b (EvEnd m) s1).
Proof.
  intros e s s1 b m (tr & T & A & B & C). destruct b; [exists tr; auto|]. exists (tr ++ [EvEnd m]).
  split; [cbn [dispatch emit s_trace]; rewrite T, app_assoc; reflexivity|].
  destruct (silent_told [EvEnd m] eq_refl) as [A' B'].
  split; [apply told_app; assumption|]. split; [apply closed_app; assumption|].
  rewrite offers_app, rescues_app. cbn [offers rescues]. rewrite !app_nil_r.
  destruct C as [C|[(L0 & mm & p & sv & er & EL & C & X & SV & Y & AN)|C]]; auto.
  right; left. exists L0, mm, p, sv, er. split; [exact EL|]. split; [exact C|]. split; [exact X|]. split; [exact SV|]. split; [exact Y|].
  eapply answered_grows; [|exact AN]. reflexivity.
Qed.
Lemma spawn_ends : forall sampling pc dk sv o ok s, spawn_session c sampling pc dk sv = (o, ok, s) ->
  exists s0, s_trace s0 = [EvBegin (c_tree c)] /\ ends o s0 s.
Proof.
  intros sampling pc dk sv o ok s H. unfold spawn_session in H.
  set (s0 := bridge c sv _) in H. exists s0. split; [reflexivity|]. clearbody s0.
  destruct (crown _ c pc dk (sv_tree sv) (sv_path sv) true s0) as [[co ck] s1] eqn:CR.
  apply crown_ends in CR. destruct CR as [E _].
  destruct co as [e|q|]; inversion H; subst; [apply ends_dispatch|..]; exact E.
Qed.
End Seq.

Lemma fastward_ends : forall linked c sampling pc dk sv o s, hooks_ok c ->
  fastward_session linked c sampling pc dk sv = (o, s) ->
  exists s0, s_trace s0 = [] /\ ends (set_fast (Some (fast_of pc sv)) c) o s0 s.
Proof.
  intros linked c sampling pc dk sv o s HK H. unfold fastward_session in H.
  set (c1 := set_fast _ c) in *. assert (HK1 : hooks_ok c1) by exact HK.
  set (s0 := dispatch _ _ (set_mutes _ _)) in H. exists s0. split; [reflexivity|]. clearbody s0.
  destruct (top c1 (sv_tree sv) (dk (sv_tree sv)) s0) as [to ts] eqn:T. apply (top_ends c1 HK1) in T.
  destruct to as [e|p|]; inversion H; subst; [apply ends_dispatch|..]; exact T.
Qed.

Lemma session_ends : forall c sampling t o s, hooks_ok c -> session c sampling t = (o, s) ->
  exists s0, s_trace s0 = [EvBegin (c_tree c)] /\ ends c o s0 s.
Proof.
  intros c sampling t o s HK H. unfold session in H.
  set (s0 := dispatch _ _ (start_st c sampling)) in H. exists s0. split; [reflexivity|]. clearbody s0.
  unfold navigate in H.
  destruct (top c (c_tree c) t s0) as [to ts] eqn:T. apply (top_ends c HK) in T.
  destruct to as [e|p|]; inversion H; subst; [apply ends_dispatch|..]; exact T.
Qed.

(** ** What is seen of a session which ends so *)
Lemma ends_rescued : forall c o s0 s n p d, ends c o s0 s -> calls (s_trace s0) = [] -> rescues (s_trace s0) = [] ->
  In (n, CPanic p) (calls (s_trace s)) -> n_parent n = Some d ->
  exists pre sv er, calls (s_trace s) = pre ++ [(n, CPanic p)] /\ calm pre /\ rescues (s_trace s) = [sv] /\
    o = Ret (Some er) /\ saved_right c n s sv /\ answered c p sv er s.
Proof.
  intros c o s0 s n p d (tr & T & TT & CL & C) C0 R0 I PN. rewrite T, calls_app, C0 in *. rewrite rescues_app, R0. cbn [app] in *.
  destruct C as [(Q & _)|[(L0 & m & p' & sv & er & EL & CM & ER & SV & EO & AN)|(L0 & m & p' & EL & CM & _ & _ & X)]].
  - exfalso. pose proof (calls_offers_calm _ TT Q) as Y. unfold calm in Y. rewrite Forall_forall in Y. apply Y in I. discriminate.
  - destruct (panic_last _ _ _ _ _ _ TT CL EL CM I) as (-> & -> & pre & EC & CP). exists pre, sv, er. auto 10.
  - destruct (panic_last _ _ _ _ _ _ TT CL EL CM I) as (-> & _). congruence.
Qed.
Lemma ends_escaped : forall c o s0 s n p, ends c o s0 s -> calls (s_trace s0) = [] -> rescues (s_trace s0) = [] ->
  In (n, CPanic p) (calls (s_trace s)) -> n_parent n = None ->
  o = Pan p /\ rescues (s_trace s) = [] /\ exists pre, calls (s_trace s) = pre ++ [(n, CPanic p)] /\ calm pre.
Proof.
  intros c o s0 s n p (tr & T & TT & CL & C) C0 R0 I PN. rewrite T, calls_app, C0 in *. rewrite rescues_app, R0. cbn [app] in *.
  destruct C as [(Q & _)|[(L0 & m & p' & sv & er & EL & CM & ER & (d & PD & _) & EO & AN)|(L0 & m & p' & EL & CM & ER & EO & X)]].
  - exfalso. pose proof (calls_offers_calm _ TT Q) as Y. unfold calm in Y. rewrite Forall_forall in Y. apply Y in I. discriminate.
  - destruct (panic_last _ _ _ _ _ _ TT CL EL CM I) as (-> & _). congruence.
  - destruct (panic_last _ _ _ _ _ _ TT CL EL CM I) as (-> & -> & pre & EC & CP). eauto 10.
Qed.
Lemma ends_saved : forall c o s0 s sv, ends c o s0 s -> rescues (s_trace s0) = [] -> In sv (rescues (s_trace s)) ->
  sv_tree sv = c_tree c /\ sv_sub sv = c_sub c /\
  m_files (sv_metrics sv) = m_files (s_metrics s) /\ m_dirs (sv_metrics sv) = m_dirs (s_metrics s) /\
  rescues (s_trace s) = [sv] /\ exists er, o = Ret (Some er) /\ errors_is CorePanic er = true.
Proof.
  intros c o s0 s sv (tr & T & _ & _ & C) R0 I. rewrite T, rescues_app, R0 in *. cbn [app] in *.
  destruct C as [(_ & R & _)|[(L0 & m & p' & sv' & er & EL & CM & ER & (d & PD & S1 & S2 & _ & _ & _ & S6 & S7 & _) & EO & AN)|(L0 & m & p' & _ & _ & R & _)]].
  - rewrite R in I. contradiction.
  - rewrite ER in *. destruct I as [<-|[]]. repeat (split; [assumption || reflexivity|]). exists er. split; [exact EO|].
    destruct (answered_either _ _ _ _ _ AN) as [[x|x] ->]; reflexivity.
  - rewrite R in I. contradiction.
Qed.

Lemma filter_calls : forall tr, file_calls tr = files_in (calls tr) /\ dir_calls tr = dirs_in (calls tr).
Proof. intro tr. split; reflexivity. Qed.

Lemma spawn_interrupted : forall c sampling pc dk sv o ok s n p d, hooks_ok c ->
  spawn_session c sampling pc dk sv = (o, ok, s) ->
  In (n, CPanic p) (calls (s_trace s)) -> n_parent n = Some d ->
  exists pre sv' before after, calls (s_trace s) = pre ++ [(n, CPanic p)] /\ calm pre /\
    s_trace s = before ++ EvRescue sv' :: after /\ rescues (s_trace s) = [sv'] /\
    o = Ret (Some (rescue_error (c_rescue c before p sv'))) /\ ok = false /\
    records c (sv_metrics sv) (calls (s_trace s)) d sv'.
Proof.
  intros c sampling pc dk sv o ok s n p d HK H I PN.
  destruct (spawn_ends c HK _ _ _ _ _ _ _ H) as (s0 & T0 & E).
  destruct (spawn_counts _ _ _ _ _ _ _ _ H) as (MF & MD & OK).
  destruct (ends_rescued _ _ _ _ n p d E)
    as (pre & sv' & er & EC & CP & ER & EO & (d' & PD & S1 & S2 & S3 & S4 & S5 & S6 & S7 & _) & (b & a & T & X)); try (rewrite T0; reflexivity); try assumption.
  subst er. exists pre, sv', b, a. repeat (split; [assumption|]). split.
  { destruct ok; [|reflexivity]. pose proof (proj1 OK eq_refl). congruence. }
  rewrite PN in PD. inversion PD; subst d'. destruct (filter_calls (s_trace s)) as [F1 F2]. unfold records.
  rewrite <- F1, <- F2, S6, S7. repeat split; assumption.
Qed.
Lemma fastward_interrupted : forall linked c sampling pc dk sv o s n p d, hooks_ok c ->
  fastward_session linked c sampling pc dk sv = (o, s) ->
  In (n, CPanic p) (calls (s_trace s)) -> n_parent n = Some d ->
  exists pre sv' before after, calls (s_trace s) = pre ++ [(n, CPanic p)] /\ calm pre /\
    s_trace s = before ++ EvRescue sv' :: after /\ rescues (s_trace s) = [sv'] /\
    o = Ret (Some (rescue_error (c_rescue c before p sv'))) /\
    records c metrics0 (calls (s_trace s)) d sv'.
Proof.
  intros linked c sampling pc dk sv o s n p d HK H I PN.
  destruct (fastward_ends _ _ _ _ _ _ _ _ HK H) as (s0 & T0 & E).
  destruct (fastward_counts _ _ _ _ _ _ _ _ H) as (MF & MD).
  destruct (ends_rescued _ _ _ _ n p d E)
    as (pre & sv' & er & EC & CP & ER & EO & (d' & PD & S1 & S2 & S3 & S4 & S5 & S6 & S7 & _) & (b & a & T & X)); try (rewrite T0; reflexivity); try assumption.
  subst er. exists pre, sv', b, a. repeat (split; [assumption|]).
  rewrite PN in PD. inversion PD; subst d'. destruct (filter_calls (s_trace s)) as [F1 F2]. unfold records.
  rewrite <- F1, <- F2, S6, S7. repeat split; assumption.
Qed.
Lemma spawned_entry_escapes : forall c sampling pc dk sv o ok s n p, hooks_ok c ->
  spawn_session c sampling pc dk sv = (o, ok, s) ->
  In (n, CPanic p) (calls (s_trace s)) -> n_parent n = None ->
  o = Pan p /\ ok = false /\ rescues (s_trace s) = [] /\
  exists pre, calls (s_trace s) = pre ++ [(n, CPanic p)] /\ calm pre.
Proof.
  intros c sampling pc dk sv o ok s n p HK H I PN.
  destruct (spawn_ends c HK _ _ _ _ _ _ _ H) as (s0 & T0 & E).
  destruct (spawn_counts _ _ _ _ _ _ _ _ H) as (_ & _ & OK).
  destruct (ends_escaped _ _ _ _ n p E) as (-> & R & X); try (rewrite T0; reflexivity); try assumption.
  split; [reflexivity|]. split; [|auto]. destruct ok; [|reflexivity]. pose proof (proj1 OK eq_refl). discriminate.
Qed.

(** ** Interrupted any number of times *)
Lemma interrupted_counts : forall tree cs sv, interrupted tree cs sv ->
  sv_tree sv = tree /\ m_files (sv_metrics sv) = files_in cs /\ m_dirs (sv_metrics sv) = dirs_in cs.
Proof.
  induction 1 as [c sampling t o s sv HK TR H I|cs sv c sampling pc dk o ok s sv' _ (TR & IF & ID) HK TC H I].
  - destruct (session_ends _ _ _ _ _ HK H) as (s0 & T0 & E).
    destruct (ends_saved _ _ _ _ sv E) as (S1 & _ & S3 & S4 & _); [rewrite T0; reflexivity|exact I|].
    assert (M : m_files (s_metrics s) = files_in (calls (s_trace s)) /\ m_dirs (s_metrics s) = dirs_in (calls (s_trace s))).
    { clear - H. unfold session in H. set (s0 := dispatch _ _ (start_st c sampling)) in H.
      assert (T0 : calls (s_trace s0) = []) by reflexivity. assert (M0 : s_metrics s0 = metrics0) by reflexivity. clearbody s0.
      unfold navigate in H. destruct (top c (c_tree c) t s0) as [to ts] eqn:T. apply top_counted in T.
      assert (X : counted s0 s).
      { destruct to as [e|p|]; inversion H; subst; try exact T.
        eapply counted_trans; [exact T|]. apply counted_dispatch. reflexivity. }
      destruct X as (tr & E & F & D). rewrite M0 in F, D. rewrite E, calls_app, T0. exact (conj F D). }
    rewrite S1, S3, S4, TR. split; [reflexivity|]. exact M.
  - destruct (spawn_ends c HK _ _ _ _ _ _ _ H) as (s0 & T0 & E).
    destruct (spawn_counts _ _ _ _ _ _ _ _ H) as (MF & MD & _).
    destruct (ends_saved _ _ _ _ sv' E) as (S1 & _ & S3 & S4 & _); [rewrite T0; reflexivity|exact I|].
    destruct (filter_calls (s_trace s)) as [F1 F2].
    rewrite S1, S3, S4, MF, MD, F1, F2, IF, ID, TC, TR. unfold files_in, dirs_in. rewrite !filter_app, !app_length. auto.
Qed.
Lemma interrupted_finished : forall tree cs sv c sampling pc dk o ok s, interrupted tree cs sv ->
  spawn_session c sampling pc dk sv = (o, ok, s) ->
  m_files (s_metrics s) = files_in (cs ++ calls (s_trace s)) /\
  m_dirs (s_metrics s) = dirs_in (cs ++ calls (s_trace s)).
Proof.
  intros tree cs sv c sampling pc dk o ok s IN H.
  destruct (interrupted_counts _ _ _ IN) as (_ & IF & ID).
  destruct (spawn_counts _ _ _ _ _ _ _ _ H) as (MF & MD & _). destruct (filter_calls (s_trace s)) as [F1 F2].
  rewrite MF, MD, F1, F2, IF, ID. unfold files_in, dirs_in. rewrite !filter_app, !app_length. auto.
Qed.

(** ** Nothing panics: nothing is saved *)
Definition ended_by_call (tr : list event) : Prop := forall L0 n r, offers tr = L0 ++ [(n, r)] -> is_end_files r = true ->
  In (n, r) (calls tr).
Section Peace.
Variable c : cfg.
Variable sampling : bool.
Hypothesis HK : hooks_ok c.
Hypothesis FO : filter_ok c.
Definition peace (s s1 : st) : Prop := quiet_state c sampling s1 /\ exists tr, s_trace s1 = s_trace s ++ tr /\ ended_by_call tr.
Lemma peace_refl : forall s, quiet_state c sampling s -> peace s s.
Proof. intros s Q. split; [exact Q|]. exists []. rewrite app_nil_r. split; [reflexivity|]. intros [|] n r X; discriminate. Qed.
Lemma peace_trans : forall a b d, peace a b -> peace b d -> peace a d.
Proof.
  intros a b d (_ & t1 & T1 & E1) (Q & t2 & T2 & E2). split; [exact Q|]. exists (t1 ++ t2).
  split; [rewrite T2, T1, app_assoc; reflexivity|]. intros L0 n r X IE. rewrite calls_app. apply in_or_app.
  rewrite offers_app in X. destruct (offers t2) as [|x l] eqn:O2 using rev_ind.
  - rewrite app_nil_r in X. left. eapply E1; eassumption.
  - right. rewrite app_assoc in X. apply app_inj_tail in X. destruct X as [_ ->]. eapply E2; eassumption.
Qed.
Lemma top_peace : forall path t s o s1, quiet_state c sampling s -> top c path t s = (o, s1) -> peace s s1.
Proof.
  intros path t s o s1 Q H. destruct (c_stat c t) as [e|] eqn:ST.
  { unfold top in H. rewrite ST in H. inversion H; subst. apply peace_refl. exact Q. }
  destruct (top_adequate _ _ _ _ _ _ HK ST H) as (ro & HR & _).
  destruct (run_journaled c sampling HK FO path _ _ _ _ HR Q eq_refl) as (IT & MU & DP & tr & J & T & O & CC & G & JJ & AN).
  destruct Q as [Q1 Q2]. split; [split; congruence|]. exists tr. split; [exact T|]. intros L0 n r X IE.
  rewrite O in X. destruct (journal_last_called _ _ _ _ _ _ _ _ JJ X IE) as (J0 & -> & _).
  rewrite CC, filter_app, map_app. apply in_or_app. right. left. reflexivity.
Qed.
Lemma seed_peace : forall pc dk d es s o s1, quiet_state c sampling s -> seed c pc dk d es s = (o, s1) -> peace s s1.
Proof.
  induction es as [|e es IH]; cbn [seed]; intros s o s1 Q H.
  - inversion H; subst. apply peace_refl. exact Q.
  - destruct (top c (pc_join pc d (fname e)) (dk (pc_join pc d (fname e))) s) as [to ts] eqn:T.
    apply top_peace in T; [|exact Q]. destruct to as [[er|]|p|]; try (inversion H; subst; exact T).
    eapply peace_trans; [exact T|eapply IH; [apply T|eassumption]].
Qed.
Lemma crown_peace : forall pc dk tree fuel p own s o ok s1, quiet_state c sampling s ->
  crown fuel c pc dk tree p own s = (o, ok, s1) -> peace s s1.
Proof.
  induction fuel as [|fuel IH]; cbn [crown]; intros p own s o ok s1 Q H.
  - inversion H; subst. apply peace_refl. exact Q.
  - destruct (String.eqb p tree); [inversion H; subst; apply peace_refl; exact Q|].
    destruct (pc_split pc p) as [d b]. destruct (following c dk d b own) as [es [er|]].
    { inversion H; subst. apply peace_refl. exact Q. }
    destruct (seed c pc dk d es s) as [so ss] eqn:SE. apply seed_peace in SE; [|exact Q].
    destruct so as [[er|]|q|]; try (inversion H; subst; exact SE).
    eapply peace_trans; [exact SE|eapply IH; [apply SE|exact H]].
Qed.
Lemma spawn_peace : forall pc dk sv o ok s, spawn_session c sampling pc dk sv = (o, ok, s) ->
  calm (calls (s_trace s)) -> rescues (s_trace s) = [] /\ forall p, o <> Pan p.
Proof.
  intros pc dk sv o ok s H C.
  destruct (spawn_ends c HK _ _ _ _ _ _ _ H) as (s0' & T0' & (tr' & T' & _ & _ & CASE)).
  unfold spawn_session in H. set (s0 := bridge c sv _) in H.
  assert (Q0 : quiet_state c sampling s0) by (split; [apply session_items_chain|reflexivity]).
  assert (T0 : s_trace s0 = [EvBegin (c_tree c)]) by reflexivity. clearbody s0.
  destruct (crown _ c pc dk (sv_tree sv) (sv_path sv) true s0) as [[co ck] s1] eqn:CR.
  apply crown_peace in CR; [|exact Q0].
  assert (P : peace s0 s).
  { destruct co as [e|q|]; inversion H; subst; try exact CR. eapply peace_trans; [exact CR|].
    destruct CR as (Q1 & _). split; [destruct Q1 as [A B]; unfold dispatch; destruct (mu_end _); split; assumption|].
    unfold dispatch. destruct (mu_end _); [exists []; rewrite app_nil_r|exists [EvEnd (s_metrics s1)]];
      (split; [reflexivity|intros [|] n r X; discriminate]). }
  destruct P as (_ & tr & T & E). rewrite T0 in T. rewrite T0' in T'. rewrite T in T'. apply app_inv_head in T'. subst tr'.
  rewrite T in *. cbn [app calls rescues] in *.
  destruct CASE as [(_ & R & NP)|[(L0 & m & p' & sv' & er & EL & _)|(L0 & m & p' & EL & _)]].
  - auto.
  - exfalso. pose proof (E _ _ _ EL eq_refl) as X. unfold calm in C. rewrite Forall_forall in C. apply C in X. discriminate.
  - exfalso. pose proof (E _ _ _ EL eq_refl) as X. unfold calm in C. rewrite Forall_forall in C. apply C in X. discriminate.
Qed.
End Peace.
