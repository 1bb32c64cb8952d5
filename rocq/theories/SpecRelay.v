(** Specification vocabulary for a traversal which is finished by several sessions. *)
From Verif Require Import Base Paths Level Kernel Session Spec Cases Resume SpecResume.
Local Open Scope list_scope.

(** What a session called, without positions. *)
Definition things (s : st) : list (string * fsnode) := map thing (map place_of (visited s)).

(** The callback answered nil until it panicked at [n]. *)
Definition panicked_at (s : st) (n : node) : Prop :=
  exists pre p, calls (s_trace s) = pre ++ [(n, CPanic p)] /\ Forall (fun x => snd x = CNil) pre.

(** The same point of the same tree; only the counts may differ. *)
Definition same_point (sv sv' : saved) : Prop :=
  sv_tree sv' = sv_tree sv /\ sv_path sv' = sv_path sv /\ sv_isdir sv' = sv_isdir sv /\ sv_depth sv' = sv_depth sv /\
  sv_sub sv' = sv_sub sv.

(** [relay c pc dk V sv]: a session over the tree [c_tree c] was stopped by a
    panic of its callback, resumed (spawn) from what had been saved, stopped by a
    panic again, and so on, any number of times, each time with another callback;
    [V] is what all of them called, [sv] what was saved last.
    The first panic is not at the tree or at one of its own entries. When a
    resumed session is stopped the next one starts from what it saved, or (as when
     it saved nothing) from what was saved before once more. A document may keep
    other counts than those saved (it does not keep those of the filter). *)
Inductive relay (c : cfg) (pc : pathcalc) (dk : disk) : list (string * fsnode) -> saved -> Prop :=
| relay_prime : forall cl sampling o s n dn g sv,
    session (with_client cl c) sampling (dk (c_tree c)) = (o, s) -> panicked_at s n ->
    n_parent n = Some dn -> n_parent dn = Some g -> rescues (s_trace s) = [sv] -> relay c pc dk (things s) sv
| relay_again : forall V sv cl sampling o ok s n sv',
    relay c pc dk V sv ->
    spawn_session (with_client cl c) sampling pc dk sv = (o, ok, s) -> panicked_at s n ->
    rescues (s_trace s) = [sv'] -> relay c pc dk (V ++ things s) sv'
| relay_retry : forall V sv cl sampling o ok s n,
    relay c pc dk V sv ->
    spawn_session (with_client cl c) sampling pc dk sv = (o, ok, s) -> panicked_at s n ->
    relay c pc dk (V ++ things s) sv
| relay_stored : forall V sv sv', relay c pc dk V sv -> same_point sv sv' -> relay c pc dk V sv'.

(** The same with fastward resumes: what was called, with the positions. The
    callbacks of the resumed sessions answer by what they were called with before.
    No session is stopped at the tree or at one of its own entries, except when it
    is started once more from what was saved before. *)
Inductive fast_relay (c : cfg) (pc : pathcalc) (dk : disk) : list place -> saved -> Prop :=
| fast_relay_prime : forall cl sampling o s n dn g sv,
    session (with_client cl c) sampling (dk (c_tree c)) = (o, s) -> panicked_at s n ->
    n_parent n = Some dn -> n_parent dn = Some g -> rescues (s_trace s) = [sv] ->
    fast_relay c pc dk (map place_of (visited s)) sv
| fast_relay_again : forall V sv f sampling o s n dn g sv',
    fast_relay c pc dk V sv ->
    fastward_session true (with_client (fun tr => f (calls tr)) c) sampling pc dk sv = (o, s) -> panicked_at s n ->
    n_parent n = Some dn -> n_parent dn = Some g -> rescues (s_trace s) = [sv'] ->
    fast_relay c pc dk (V ++ map place_of (visited s)) sv'
| fast_relay_retry : forall V sv f sampling o s n,
    fast_relay c pc dk V sv ->
    fastward_session true (with_client (fun tr => f (calls tr)) c) sampling pc dk sv = (o, s) -> panicked_at s n ->
    fast_relay c pc dk (V ++ map place_of (visited s)) sv
| fast_relay_stored : forall V sv sv', fast_relay c pc dk V sv -> same_point sv sv' -> fast_relay c pc dk V sv'.

(** The path calculator is sound for the directories of the listing; no entry
    below the tree has the name of the tree. *)
Definition passable (c : cfg) (pc : pathcalc) (P : list place) : Prop :=
  c_tree c <> "."%string /\
  Forall (fun q => (fkids (pl_obj q) <> [] -> sound_at pc (pl_path q)) /\
                   (pl_pos q <> [] -> fname (pl_obj q) <> snd (split_path (c_tree c)))) P.
