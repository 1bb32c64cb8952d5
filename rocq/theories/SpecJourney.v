(** Specification vocabulary for a traversal finished by several sessions, from
    facade to facade and from document to document. *)
From Verif Require Import Base Paths Level Kernel Session Defaults Spec Cases Filters Hooks Life Options Build SpecBuild
  Persist SpecPersist Resume SpecResume SpecRelay.
Local Open Scope list_scope.

(** The callback answered nil until it panicked at [n]. *)
Definition stopped_at (tr : list event) (n : node) : Prop :=
  exists pre p, calls tr = pre ++ [(n, CPanic p)] /\ Forall (fun x => snd x = CNil) pre.
(** [n] is neither the tree nor one of its own entries. *)
Definition deep (n : node) : Prop := exists d g, n_parent n = Some d /\ n_parent d = Some g.
(** The callback answers by what it was called with before. *)
Definition by_calls (cl : client) : Prop := exists f, cl = fun tr => f (calls tr).
(** What was called. *)
Definition places_called (tr : list event) : list place := map place_of (map fst (calls tr)).

(** [journey ... V doc]: Walk().Configure().Extent(Prime(...)).Navigate over [tree]
    with the With functions [ws] was stopped by a panic of the callback; the
    document written was given to Walk().Configure().Extent(Resume(...)).Navigate,
    with the same With functions and another callback, which was stopped by a
    panic again, and so on, any number of times; [V] is what all of them called,
    [doc] the last document written. *)
Section Journey.
Variable env : environment.
Variable mt : matchers.
Variable ws : list with_option.
Variable tree : string.
Variable sub : subscription.
Variable strategy : resume_strategy.
Variable pc : pathcalc.
Variable dk : disk.

Definition started (cl : client) : report :=
  walk_prime env mt (FacUsing (mkUsing tree (Some sub) (Some cl) None)) (options_of env ws) (dk tree).
Definition resumed_from (doc : jv) (cl : client) : resume_report :=
  walk_resume env mt (mkRestore (fun _ => inl doc) None) (FacRelic (mkRelic "resume.json" strategy (Some cl))) (options_of env ws) pc dk.

Inductive journey : list place -> jv -> Prop :=
| journey_starts : forall cl n sv doc,
    stopped_at (rp_trace (started cl)) n -> deep n -> rescues (rp_trace (started cl)) = [sv] ->
    marshal (snd (build_prime env mt (FacUsing (mkUsing tree (Some sub) (Some cl) None)) (options_of env ws)))
      (mkActive sv false false) None = (Some doc, None) ->
    journey (places_called (rp_trace (started cl))) doc
| journey_goes_on : forall V doc cl n sv a o doc',
    journey V doc -> by_calls cl ->
    stopped_at (rr_trace (resumed_from doc cl)) n -> (strategy = StrategyFastward -> deep n) ->
    rescues (rr_trace (resumed_from doc cl)) = [sv] ->
    resume_load env doc (options_of env ws) = Ret (inl (Some a, o, None)) ->
    marshal (afterwards o) (mkActive sv false false) None = (Some doc', None) ->
    journey (V ++ places_called (rr_trace (resumed_from doc cl))) doc'
| journey_once_more : forall V doc cl n,
    journey V doc -> by_calls cl -> stopped_at (rr_trace (resumed_from doc cl)) n ->
    journey (V ++ places_called (rr_trace (resumed_from doc cl))) doc.
End Journey.
