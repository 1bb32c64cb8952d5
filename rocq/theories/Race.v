(** Sessions in several goroutines and the bus they share: driver.go:19-37,
    internal/services/broker.go:11-62 (one broker for the whole process, "un-synchronised"),
    internal/third/bus/broker.go:262-330. No proofs here.

    Every access to a map takes some time; two accesses to the same map, one of
    them writing, which overlap are a data race: the Go memory model gives it no
    meaning and the runtime ends the process when it notices ("fatal error:
    concurrent map read and map write"). *)
From Verif Require Import Base Bus.

Inductive the_map := TopicsMap | HandlersMap.
Record access := mkAccess { ac_map : the_map; ac_write : bool }.
Definition R (m : the_map) : access := mkAccess m false.
Definition W (m : the_map) : access := mkAccess m true.

Section Accesses.
Context (matches : string -> string -> bool) (shuffle : nat -> forall (V : Type), list (string * V) -> list (string * V)).
(** broker.go:317-330 *)
Definition subscriptions_accesses : list access := [R HandlersMap; R TopicsMap].
(** broker.go:283-292: for each topic: the length, the range, two writes through
    the slice found in the map and the store *)
Definition dereg_topic_accesses : list access := [R TopicsMap; R TopicsMap; R TopicsMap; R TopicsMap; R TopicsMap; W TopicsMap].
(** broker.go:279-281 *)
Definition reg_topic_accesses : list access := [R TopicsMap; W TopicsMap].
(** broker.go:270-277 *)
Definition dereg_accesses (i : nat) (key : string) (b : broker) : list access :=
  R HandlersMap ::
  match lookup key (br_handlers b) with
  | None => []
  | Some _ => subscriptions_accesses ++ flat_map (fun _ => dereg_topic_accesses) (topic_subscriptions matches shuffle i key b) ++ [W HandlersMap]
  end.
(** broker.go:262-268; [b]: the broker when the session starts *)
Definition register_accesses (i : nat) (key : string) (h : handler) (b : broker) : list access :=
  let b1 := deregister_handler matches shuffle (2 * i) key b in
  let b2 := mkBroker (br_next b1) (br_topics b1) (store key h (br_handlers b1)) in
  dereg_accesses (2 * i) key b ++ [W HandlersMap] ++ subscriptions_accesses ++
  flat_map (fun _ => reg_topic_accesses) (topic_subscriptions matches shuffle (2 * i + 1) key b2).
(** driver.go:19-27, 30: the first thing Navigate does *)
Definition navigate_accesses (b : broker) : list access :=
  register_accesses 0 "badge: navigation-driver" (mkHandler "" "topic:navigation.complete" 0) b.
End Accesses.

(** Goroutines: what each is doing to a map just now, and what it still has to do. *)
Record goroutine := mkGo { go_now : option access; go_next : list access }.
Definition goes (l : list access) : goroutine := mkGo None l.
(** One goroutine begins or ends an access. *)
Inductive go_step : list goroutine -> list goroutine -> Prop :=
| gs_begin : forall l1 l2 a r, go_step (l1 ++ mkGo None (a :: r) :: l2) (l1 ++ mkGo (Some a) r :: l2)
| gs_end : forall l1 l2 a r, go_step (l1 ++ mkGo (Some a) r :: l2) (l1 ++ mkGo None r :: l2).
Inductive go_steps : list goroutine -> list goroutine -> Prop :=
| gss_nil : forall l, go_steps l l
| gss_cons : forall l1 l2 l3, go_steps l1 l2 -> go_step l2 l3 -> go_steps l1 l3.
Definition racing (l : list goroutine) : Prop :=
  exists i j g h a b, i <> j /\ nth_error l i = Some g /\ nth_error l j = Some h /\
    go_now g = Some a /\ go_now h = Some b /\ ac_map a = ac_map b /\ (ac_write a = true \/ ac_write b = true).
