(** Specification vocabulary for a traversal finished by several sessions, some
    resumed by spawn and some by fastward. *)
From Verif Require Import Base Paths Level Kernel Session Defaults Spec Cases Filters Hooks Life Options Build SpecBuild
  Persist SpecPersist Resume SpecResume SpecRelay SpecJourney.
Local Open Scope list_scope.

(** As [relay] and [fast_relay] of SpecRelay.v, but each resume may use either
    strategy. A prime or fastward session is not stopped at the tree or at one of its own
    entries, unless it is a resume which is started once more from what was saved before. *)
Inductive mixed_relay (c : cfg) (pc : pathcalc) (dk : disk) : list (string * fsnode) -> saved -> Prop :=
| mixed_prime : forall cl sampling o s n dn g sv,
    session (with_client cl c) sampling (dk (c_tree c)) = (o, s) -> panicked_at s n ->
    n_parent n = Some dn -> n_parent dn = Some g -> rescues (s_trace s) = [sv] -> mixed_relay c pc dk (things s) sv
| mixed_spawn : forall V sv cl sampling o ok s n sv',
    mixed_relay c pc dk V sv ->
    spawn_session (with_client cl c) sampling pc dk sv = (o, ok, s) -> panicked_at s n ->
    rescues (s_trace s) = [sv'] -> mixed_relay c pc dk (V ++ things s) sv'
| mixed_fastward : forall V sv f sampling o s n dn g sv',
    mixed_relay c pc dk V sv ->
    fastward_session true (with_client (fun tr => f (calls tr)) c) sampling pc dk sv = (o, s) -> panicked_at s n ->
    n_parent n = Some dn -> n_parent dn = Some g -> rescues (s_trace s) = [sv'] ->
    mixed_relay c pc dk (V ++ things s) sv'
| mixed_spawn_retry : forall V sv cl sampling o ok s n,
    mixed_relay c pc dk V sv ->
    spawn_session (with_client cl c) sampling pc dk sv = (o, ok, s) -> panicked_at s n ->
    mixed_relay c pc dk (V ++ things s) sv
| mixed_fastward_retry : forall V sv f sampling o s n,
    mixed_relay c pc dk V sv ->
    fastward_session true (with_client (fun tr => f (calls tr)) c) sampling pc dk sv = (o, s) -> panicked_at s n ->
    mixed_relay c pc dk (V ++ things s) sv
| mixed_stored : forall V sv sv', mixed_relay c pc dk V sv -> same_point sv sv' -> mixed_relay c pc dk V sv'.

(** As [journey] of SpecJourney.v, but each resume may use either strategy. *)
Section MixedJourney.
Variable env : environment.
Variable mt : matchers.
Variable ws : list with_option.
Variable tree : string.
Variable pc : pathcalc.
Variable dk : disk.
Notation started := (started env mt ws tree SubUniversal dk).
Notation resumed_from st := (resumed_from env mt ws st pc dk).

Inductive mixed_journey : list place -> jv -> Prop :=
| mixed_starts : forall cl n sv doc,
    stopped_at (rp_trace (started cl)) n -> deep n -> rescues (rp_trace (started cl)) = [sv] ->
    marshal (snd (build_prime env mt (FacUsing (mkUsing tree (Some SubUniversal) (Some cl) None)) (options_of env ws)))
      (mkActive sv false false) None = (Some doc, None) ->
    mixed_journey (places_called (rp_trace (started cl))) doc
| mixed_goes_on : forall V doc st cl n sv a o doc',
    mixed_journey V doc -> st = StrategySpawn \/ st = StrategyFastward -> by_calls cl ->
    stopped_at (rr_trace (resumed_from st doc cl)) n -> (st = StrategyFastward -> deep n) ->
    rescues (rr_trace (resumed_from st doc cl)) = [sv] ->
    resume_load env doc (options_of env ws) = Ret (inl (Some a, o, None)) ->
    marshal (afterwards o) (mkActive sv false false) None = (Some doc', None) ->
    mixed_journey (V ++ places_called (rr_trace (resumed_from st doc cl))) doc'
| mixed_once_more : forall V doc st cl n,
    mixed_journey V doc -> st = StrategySpawn \/ st = StrategyFastward -> by_calls cl ->
    stopped_at (rr_trace (resumed_from st doc cl)) n ->
    mixed_journey (V ++ places_called (rr_trace (resumed_from st doc cl))) doc.
End MixedJourney.
