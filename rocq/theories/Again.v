(** One navigator navigated several times. No proofs here. *)
From Verif Require Import Base Paths Level Kernel Session.
Local Open Scope list_scope.

(** driver.go:29-37, session.go:17-27, synchronise.go:125-131,
    mediator.go:114-135, 156-158: Navigate on a navigator which is in the state
    [s]. The navigator is built once (factories.go:26-45), so the supervisor
    (builders.go:55-60), the periscope (mediator.go:57), the decorators
    (guardian.go:92-130) and the hibernation profile (hibernate-plugin.go:11-28)
    are those of the navigations before. The timing (session.go:13-15) is in
    Result.v. *)
Definition drive (c : cfg) (t : fsnode) (s : st) : outcome (option error) * st :=
  let s1 := dispatch (mu_begin (s_mutes s)) (EvBegin (c_tree c)) s in
  match navigate c t s1 with
  | (Ret e, s2) => (Ret e, dispatch (mu_end (s_mutes s2)) (EvEnd (s_metrics s2)) s2)
  | x => x
  end.

(** Navigate called once for each element of [ts], which is what is found in the
    file system at that time; a panic which leaves Navigate is recovered by the
    caller. The results, in order. *)
Fixpoint navigations (c : cfg) (ts : list fsnode) (s : st) : list (outcome (option error)) * st :=
  match ts with
  | [] => ([], s)
  | t :: r =>
      let '(o, s1) := drive c t s in
      let '(os, s2) := navigations c r s1 in
      (o :: os, s2)
  end.
