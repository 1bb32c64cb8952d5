(** Hibernating sessions, from the options to the callbacks. *)
From Verif Require Import Base Paths Level Lo Kernel Session Defaults Spec Filters SpecFilter FiltersFacts AskFacts Hooks Life SpecHooks HooksFacts
  Options Build SpecBuild ReadFacts Feature HibFacts WalkCor WalkProps BuildFacts BuildProps ReuseFacts Settle FilterProps.
From Coq Require Import Permutation.

Lemma cfg_snoc_hib : forall env ws ho tree sub cl rd sc hb,
  session_cfg env (ws ++ [WithHibernationOptions ho]) tree sub cl rd sc hb = session_cfg env ws tree sub cl rd sc hb.
Proof. intros. unfold session_cfg. rewrite !latest_snoc. reflexivity. Qed.
Lemma hib_snoc : forall ws ho, hibernate_when (ws ++ [WithHibernationOptions ho]) = ho.
Proof. intros ws [a b c d]. unfold hibernate_when. rewrite !latest_snoc. reflexivity. Qed.
Lemma compiled_filter : forall mt d fo, compiles mt d -> fo_custom fo = None ->
  exists f, new_filter mt d fo = Ret (Some f, None) /\ forall n, scope_ok n -> is_match mt f (Some n) = Ret (accepts mt d n).
Proof.
  intros mt d fo C N. destruct (compiles_builds _ _ C) as [f B]. exists f.
  assert (NF : new_filter mt d fo = Ret (Some f, None)).
  { rewrite new_filter_native; [rewrite B; reflexivity|exact N|]. destruct (compiles_type _ _ C) as [E|E]; rewrite E; discriminate. }
  split; [exact NF|]. intros n S. exact (new_filter_accepts mt d fo f n N (compiles_type mt d C) S NF).
Qed.
Lemma hib_agrees : forall mt ho fo t, conditions_compile mt ho -> fo_custom fo = None ->
  exists h, hib_of mt ho fo = HcOk h /\ agree_hib t (Some h) (Some (asked_conditions mt ho)).
Proof.
  intros mt [w s iw is] fo t [CW CS] N. unfold hib_of, asked_conditions. cbn [ho_wake ho_sleep ho_incl_wake ho_incl_sleep] in *.
  assert (A : forall d f, new_filter mt d fo = Ret (Some f, None) -> (forall n, scope_ok n -> is_match mt f (Some n) = Ret (accepts mt d n)) ->
    forall n, proper t n -> answer_of mt (Some f) n = inl (accepts mt d n)).
  { intros d f _ M n [[S _] _]. unfold answer_of. rewrite (M n S). reflexivity. }
  destruct w as [dw|]; [destruct (compiled_filter mt dw fo (CW _ eq_refl) N) as (fw & W1 & W2); rewrite W1|];
    (destruct s as [ds|]; [destruct (compiled_filter mt ds fo (CS _ eq_refl) N) as (fs & S1 & S2); rewrite S1|]);
    eexists; (split; [reflexivity|]); constructor; cbn [option_map]; constructor; intros; eapply A; eassumption.
Qed.

Section Hibernating.
Variable env : environment.
Variable mt : matchers.
Variable u : prime_facade.
Variable ws : list with_option.
Variable t : fsnode.
Variable sub : subscription.
Hypothesis OR : ordinary u ws sub.
Hypothesis ND : sub <> SubDirectoriesWithFiles.
Hypothesis NF : latest sets_filter ws no_filter = no_filter.

Lemma hibernation_session : forall ho, conditions_compile mt ho ->
  nodes_of (walk_prime env mt (FacUsing u) (options_of env (ws ++ [WithHibernationOptions ho])) t) =
  segment (asked_conditions mt ho) (nodes_of (walk_prime env mt (FacUsing u) (options_of env ws) t)).
Proof.
  intros ho CC. pose proof (ordinary_facade _ _ _ OR) as CF. destruct OR as (NO & _ & SU & HA & NH & HS).
  set (so := latest sets_sampling ws no_sampling). set (l2 := if sampling_active so then [sample_listener so] else []).
  pose proof (walk_settled env mt u ws sub cnil None None l2 t NO CF SU HA) as W2. rewrite NF in W2. fold so in W2.
  specialize (W2 (plan_off _ _ _ (no_hib_inactive _ NH))). destruct W2 as (o2 & s2 & S2 & E2).
  destruct (hib_agrees mt ho no_filter t CC eq_refl) as (h & HO & AG).
  set (hb := if hib_active ho then Some h else None).
  pose proof (walk_settled env mt u (ws ++ [WithHibernationOptions ho]) sub cnil None hb l2 t NO CF SU HA) as W1.
  rewrite hib_snoc, cfg_snoc_hib in W1. rewrite !latest_snoc in W1. cbn [sets_filter sets_sampling sets_read] in W1.
  rewrite NF in W1. fold so in W1.
  assert (PL : plan mt no_filter so ho = Some (None, hb, l2)).
  { unfold plan, hb, no_filter in *. cbn. destruct (hib_active ho); [|reflexivity]. rewrite HO. reflexivity. }
  destruct (W1 PL) as (o1 & s1 & S1 & E1). rewrite E1, E2. unfold nodes_of. cbn [rp_trace].
  unfold hb in S1. destruct (hib_active ho) eqn:HA'.
  - set (c := session_cfg env ws (us_tree u) sub cnil (then_all (latest sets_read ws default_read) l2) None None) in *.
    change (session_cfg env ws (us_tree u) sub cnil (then_all (latest sets_read ws default_read) l2) None (Some h)) with
      (with_features None (Some h) cnil c) in S1.
    rewrite (session_ask t c None None (Some h) (Some (asked_conditions mt ho)) cnil (ags_same _ _) AG
      (then_empty ws so HS) (sort_empty ws HS)) in S1.
    apply (hib_segment c (asked_conditions mt ho) (sampling_active so) t o1 s1 o2 s2); [|exact ND|exact S1|exact S2].
    unfold conditions_answer, asked_conditions. cbn. destruct (ho_wake ho), (ho_sleep ho); cbn; repeat split; intros; eexists; reflexivity.
  - rewrite S1 in S2. inversion S2; subst. destruct ho as [[w|] [sl|] iw is]; try discriminate.
    unfold segment, asked_conditions. cbn. induction (map fst (calls (s_trace s2))) as [|n l IH]; [reflexivity|]. cbn. rewrite <- IH. reflexivity.
Qed.
End Hibernating.
