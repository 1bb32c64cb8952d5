(** General facts about the kernel model. *)
From Verif Require Import Base Paths Level Kernel KernelRel Spec.
From Coq Require Import Permutation.

(** ** Projections of traces *)
Lemma calls_app : forall a b, calls (a ++ b) = calls a ++ calls b.
Proof. induction a as [|e a IH]; intro b; [reflexivity|]; destruct e; cbn; rewrite ?IH; reflexivity. Qed.
Lemma offers_app : forall a b, offers (a ++ b) = offers a ++ offers b.
Proof. induction a as [|e a IH]; intro b; [reflexivity|]; destruct e; cbn; rewrite ?IH; reflexivity. Qed.
Lemma rescues_app : forall a b, rescues (a ++ b) = rescues a ++ rescues b.
Proof. induction a as [|e a IH]; intro b; [reflexivity|]; destruct e; cbn; rewrite ?IH; reflexivity. Qed.

(** ** Links and the chain *)
Definition same_node (n m : node) : Prop := exists cs, m = with_children cs n.

Lemma same_refl : forall n, same_node n n.
Proof. intros n; exists (n_children n); destruct n; reflexivity. Qed.
Lemma same_trans : forall a b d, same_node a b -> same_node b d -> same_node a d.
Proof. intros a b d [x ->] [y ->]. exists y. reflexivity. Qed.
Lemma same_with : forall n cs, same_node n (with_children cs n).
Proof. intros; eexists; reflexivity. Qed.

(** Events which a run of the chain on node [n] can produce. *)
Definition chain_event (n : node) (e : event) : Prop :=
  match e with
  | EvCall m _ => same_node n m
  | EvWake | EvSleep => True
  | _ => False
  end.

Lemma chain_event_same : forall n m e, same_node n m -> chain_event m e -> chain_event n e.
Proof. intros n m [] S H; cbn in *; auto. eapply same_trans; eassumption. Qed.

Definition chain_step (n : node) (s : st) (n1 : node) (s1 : st) : Prop :=
  s_depth s1 = s_depth s /\ same_node n n1 /\
  exists tr, s_trace s1 = s_trace s ++ tr /\ Forall (chain_event n) tr.

Lemma chain_refl : forall n s, chain_step n s n s.
Proof.
  intros; repeat split; [apply same_refl|]. exists []. rewrite app_nil_r. auto.
Qed.
Lemma chain_trans : forall n s n1 s1 n2 s2,
  chain_step n s n1 s1 -> chain_step n1 s1 n2 s2 -> chain_step n s n2 s2.
Proof.
  intros n s n1 s1 n2 s2 (D1 & S1 & t1 & T1 & F1) (D2 & S2 & t2 & T2 & F2).
  split; [congruence|]. split; [eapply same_trans; eassumption|].
  exists (t1 ++ t2). split.
  - rewrite T2, T1, app_assoc. reflexivity.
  - apply Forall_app; split; [exact F1|].
    eapply Forall_impl; [|exact F2]. intros e He. eapply chain_event_same; eassumption.
Qed.

(** Steps that leave depth and trace alone *)
Lemma chain_quiet : forall n s n1 s1,
  s_depth s1 = s_depth s -> s_trace s1 = s_trace s -> same_node n n1 -> chain_step n s n1 s1.
Proof.
  intros n s n1 s1 D T S. split; [exact D|]. split; [exact S|]. exists [].
  rewrite app_nil_r. auto.
Qed.

Lemma dispatch_chain : forall n s b e,
  chain_event n e -> chain_step n s n (dispatch b e s).
Proof.
  intros n s b e H. destruct b; cbn; [apply chain_refl|].
  split; [reflexivity|]. split; [apply same_refl|]. exists [e]. split; [reflexivity|auto].
Qed.

Section C.
Variable c : cfg.

Lemma anchor_step : forall n s o n1 s1,
  anchor_next c n s = (o, n1, s1) -> chain_step n s n1 s1.
Proof.
  unfold anchor_next; intros n s o n1 s1 H.
  destruct (c_client c _ n) eqn:R; inversion H; subst;
    (split; [reflexivity|]; split; [apply same_refl|];
     eexists [_]; split; [reflexivity|]; constructor; [apply same_refl|constructor]).
Qed.

Lemma hib_step : forall n s o n1 s1,
  hib_next c n s = (o, n1, s1) -> chain_step n s n1 s1.
Proof.
  unfold hib_next; intros n s o n1 s1 H.
  destruct (c_hib c) as [h|]; [|inversion H; subst; apply chain_refl].
  assert (A : forall (b : bool) e x, chain_event n e ->
              chain_step n s n (set_hib x (dispatch b e s))).
  { intros b e x He. eapply chain_trans; [apply (dispatch_chain n s b e He)|].
    apply chain_quiet; [reflexivity|reflexivity|apply same_refl]. }
  destruct (s_hib s).
  - destruct (hb_wake h n) as [[|]|]; [destruct (hb_incl_wake h)| |]; inversion H; subst;
      try apply chain_refl; apply A; exact I.
  - destruct (hb_sleep h n) as [[|]|]; [destruct (hb_incl_sleep h)| |]; inversion H; subst;
      try apply chain_refl; apply A; exact I.
  - inversion H; subst; apply chain_refl.
Qed.

Lemma primary_step : forall p n k s o n1 s1,
  primary_next p n k s = (o, n1, s1) -> chain_step n s n1 s1.
Proof.
  intros p n k s o n1 s1 H. destruct p as [f|m]; cbn in H.
  - unfold match_next in H. destruct (f n) as [[|]|]; inversion H; subst;
      (apply chain_quiet; [reflexivity|reflexivity|apply same_refl]).
  - unfold sampler_next in H. destruct (scope_is_tree (n_scope n)).
    + destruct k as [[fs ds]|]; inversion H; subst;
        (apply chain_quiet; [reflexivity|reflexivity|apply same_refl]).
    + inversion H; subst; apply chain_refl.
Qed.

Lemma nanny_scheme_step : forall m n k s o n1 s1,
  nanny_scheme_next c m n k s = (o, n1, s1) -> chain_step n s n1 s1.
Proof.
  unfold nanny_scheme_next; intros m n k s o n1 s1 H.
  destruct k as [[fs ds]|]; [destruct (m (c_sort c fs)) as [x|p]|]; inversion H; subst.
  - apply chain_quiet; [reflexivity|reflexivity|apply same_with].
  - apply chain_refl.
  - apply chain_refl.
Qed.

Lemma link_step : forall r n k s o n1 s1,
  link_next c r n k s = (o, n1, s1) -> chain_step n s n1 s1.
Proof.
  intros r n k s o n1 s1 H. destruct r; cbn [link_next] in H.
  - inversion H; subst; apply chain_refl.
  - eapply anchor_step; eassumption.
  - unfold filter_next in H. destruct (c_scheme c) as [[[p|] [m|]]|]; cbn in H.
    + destruct (primary_next p n k s) as [[po pn] ps] eqn:P.
      pose proof (primary_step _ _ _ _ _ _ _ P) as PS.
      destruct po as [[[|] e]|q|]; try (inversion H; subst; exact PS).
      destruct (nanny_scheme_next c m pn k ps) as [[no nn] ns] eqn:N.
      pose proof (nanny_scheme_step _ _ _ _ _ _ _ N) as NS.
      destruct no as [[b e2]|q|]; inversion H; subst; eapply chain_trans; eassumption.
    + eapply primary_step; eassumption.
    + eapply nanny_scheme_step; eassumption.
    + inversion H; subst; apply chain_refl.
    + inversion H; subst; apply chain_refl.
  - eapply hib_step; eassumption.
  - inversion H; subst; apply chain_refl.
  - unfold nanny_next in H. destruct k as [[fs ds]|]; inversion H; subst.
    + apply chain_quiet; [reflexivity|reflexivity|apply same_with].
    + apply chain_refl.
  - unfold fast_next in H. destruct (c_fast c) as [f|]; [|inversion H; subst; apply chain_refl].
    destruct (fast_match f n) as [[|]|p|]; inversion H; subst;
      (apply chain_quiet; [reflexivity|reflexivity|apply same_refl]).
Qed.

Lemma iterate_step : forall rs n k s o n1 s1,
  iterate c rs n k s = (o, n1, s1) -> chain_step n s n1 s1.
Proof.
  induction rs as [|r rs IH]; cbn [iterate]; intros n k s o n1 s1 H.
  - inversion H; subst; apply chain_refl.
  - destruct (link_next c r n k s) as [[lo ln] ls] eqn:L.
    pose proof (link_step _ _ _ _ _ _ _ L) as LS.
    destruct lo as [[[|] [er|]]|p|]; try (inversion H; subst; exact LS).
    eapply chain_trans; [exact LS|eapply IH; eassumption].
Qed.

(** What a run of the decorator chain on [n] does to the state. *)
Lemma invoke_step : forall n k s o n1 s1,
  invoke c n k s = (o, n1, s1) ->
  s_depth s1 = s_depth s /\ same_node n n1 /\
  exists tr, s_trace s1 = s_trace s ++ tr ++ [EvOffer n1 (res_of o)] /\
             Forall (chain_event n) tr.
Proof.
  unfold invoke; intros n k s o n1 s1 H.
  destruct (iterate c (s_items s) n k s) as [[io inn] is_] eqn:I.
  inversion H; subst.
  destruct (iterate_step _ _ _ _ _ _ _ I) as (D & S & tr & T & F).
  split; [exact D|]. split; [exact S|]. exists tr. split; [|exact F].
  cbn. rewrite T, <- app_assoc. reflexivity.
Qed.
End C.

Lemma chain_offers : forall n tr, Forall (chain_event n) tr -> offers tr = [].
Proof.
  intros n tr F; induction F as [|e tr He F IH]; [reflexivity|].
  destruct e; cbn in *; auto; contradiction.
Qed.
Lemma chain_rescues : forall n tr, Forall (chain_event n) tr -> rescues tr = [].
Proof.
  intros n tr F; induction F as [|e tr He F IH]; [reflexivity|].
  destruct e; cbn in *; auto; contradiction.
Qed.

(** ** Trace extension and depth restoration of every part of a traversal *)
Definition grows (s s1 : st) : Prop :=
  s_depth s1 = s_depth s /\ exists tr, s_trace s1 = s_trace s ++ tr.

Lemma grows_refl : forall s, grows s s.
Proof. intro s; split; [reflexivity|]. exists []. rewrite app_nil_r; reflexivity. Qed.
Lemma grows_trans : forall a b d, grows a b -> grows b d -> grows a d.
Proof.
  intros a b d [D1 [t1 T1]] [D2 [t2 T2]]. split; [congruence|].
  exists (t1 ++ t2). rewrite T2, T1, app_assoc. reflexivity.
Qed.

Lemma dispatch_grows : forall b e s, grows s (dispatch b e s).
Proof.
  intros [|] e s; cbn; [apply grows_refl|]. split; [reflexivity|]. exists [e]; reflexivity.
Qed.

Lemma descend_true : forall c n s s1, descend c n s = (true, s1) ->
  s_depth s1 = (s_depth s + 1)%Z /\
  s_trace s1 = s_trace s ++ (if mu_descend (s_mutes s) then [] else [EvDescend n]) /\
  s_metrics s1 = s_metrics s /\ s_hib s1 = s_hib s /\ s_items s1 = s_items s /\
  s_mutes s1 = s_mutes s.
Proof.
  unfold descend, per_descend; intros c n s s1 H.
  destruct ((0 <? c_depth c)%N && (int_of_uint (c_depth c) <? s_depth s)%Z); [discriminate|].
  inversion H; subst. destruct (mu_descend (s_mutes s)); cbn; rewrite ?app_nil_r; repeat split; reflexivity.
Qed.
Lemma descend_false : forall c n s s1, descend c n s = (false, s1) -> s1 = s.
Proof.
  unfold descend, per_descend; intros c n s s1 H.
  destruct ((0 <? c_depth c)%N && (int_of_uint (c_depth c) <? s_depth s)%Z); inversion H; reflexivity.
Qed.

Lemma ascend_fields : forall n s,
  s_depth (ascend n s) = (s_depth s - 1)%Z /\
  s_trace (ascend n s) = s_trace s ++ (if mu_ascend (s_mutes s) then [] else [EvAscend n]) /\
  s_metrics (ascend n s) = s_metrics s /\ s_hib (ascend n s) = s_hib s /\
  s_items (ascend n s) = s_items s /\ s_mutes (ascend n s) = s_mutes s.
Proof.
  intros n s; unfold ascend, per_ascend; destruct (mu_ascend (s_mutes s)); cbn;
    rewrite ?app_nil_r; repeat split; reflexivity.
Qed.

Section G.
Variable c : cfg.
Variable tree : string.

Lemma invoke_grows : forall n k s o n1 s1, invoke c n k s = (o, n1, s1) -> grows s s1.
Proof.
  intros n k s o n1 s1 H. destruct (invoke_step _ _ _ _ _ _ _ H) as (D & _ & tr & T & _).
  split; [exact D|]. exists (tr ++ [EvOffer n1 (res_of o)]). exact T.
Qed.

Lemma kernel_grows :
  (forall n s o s1, run c tree n s o s1 -> grows s s1) /\
  (forall n s o n1 s1, body c tree n s o n1 s1 -> grows s s1) /\
  (forall n es s o s1, trav c tree n es s o s1 -> grows s s1) /\
  (forall n i es s o s1, loop c tree n i es s o s1 -> grows s s1).
Proof.
  apply kernel_mut; intros; eauto using grows_refl, grows_trans, invoke_grows.
  - apply descend_false in e. subst. apply grows_refl.
  - destruct (descend_true _ _ _ _ e) as (D & T & _).
    destruct (ascend_fields n1 s2) as (D2 & T2 & _). destruct H as [D3 [t3 T3]].
    split; [lia|]. rewrite T2, T3, T. rewrite <- !app_assoc. eexists; reflexivity.
  - destruct H as [D [t T]]. split; [exact D|].
    exists (t ++ [EvRescue (saved_of c n s1)]). cbn. rewrite T, app_assoc. reflexivity.
Qed.
End G.
