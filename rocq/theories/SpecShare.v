(** The nodes shared between the navigator and the callbacks of a concurrent run.
    A callback has the node it was given and, through Parent, the nodes above it;
    it has them from the moment the node is sent, for as long as it likes. *)
From Verif Require Import Base Paths Level Kernel.

Inductive has : node -> node -> Prop :=
| has_itself : forall n, has n n
| has_above : forall n p q, n_parent n = Some p -> has p q -> has n q.

(** The node which the navigator may be writing to after these events: the node
    it has descended to, until it calls the callback, descends to an entry or ascends.
    All that is written to a node is written in that time: Extension
    (extend.go:30-36, 65, called from inspect, navigator-universal.go:36, 77,
    navigator-directories.go:36, 76, navigator-files.go:42, 85) and Children
    (nanny-plugin.go:40, navigation-vapour.go:95, by links of the decorator chain,
    the callback being the last one, guardian.go:152-162). New nodes
    are not reachable for anyone else before they are descended to
    (navigator-agent.go:159-170). *)
Fixpoint writing (now : option node) (events : list event) : option node :=
  match events with
  | [] => now
  | EvDescend n :: r => writing (Some n) r
  | EvCall _ _ :: r | EvAscend _ :: r => writing None r
  | _ :: r => writing now r
  end.
(** Nodes are the same object when they have the same place in the tree. *)
Definition same_object (n m : node) : Prop := n_pos n = n_pos m.
