(** Specification vocabulary for sessions whose hooks and handlers may panic. *)
From Verif Require Import Base Kernel Spec World.

(** Events which belong to the processing of one node, itself not an entry of a
    directory being travelled: [pos] is the node's position. *)
Definition own (pos : list nat) (e : event) : Prop :=
  match e with
  | EvDescend m | EvAscend m | EvCall m _ | EvOffer m _ => n_pos m = pos
  | EvWake | EvSleep => True
  | _ => False
  end.
Definition is_ascend (e : event) : Prop := match e with EvAscend _ => True | _ => False end.
(** Begin, and what belongs to the root. *)
Definition of_root (e : event) : Prop := match e with EvBegin _ => True | _ => own [] e end.

(** The panic handler does not panic; nor the Ascend, Descend handlers. *)
Definition calm_rescue (w : world) : Prop := forall tr p sv, exists a, w_rescue w tr p sv = inl a.
Definition calm_ascend (w : world) : Prop := forall tr n, w_handlers w tr (EvAscend n) = None.
Definition calm_descend (w : world) : Prop := forall tr n, w_handlers w tr (EvDescend n) = None.
(** The panic handler always panics. *)
Definition wild_rescue (w : world) : Prop := forall tr p sv, exists q, w_rescue w tr p sv = inr q.

(** [w2] answers whatever [w1] answers; where [w1] panics it may do anything. *)
Definition follows {A : Type} (a b : asked A) : Prop := forall x, a = inl x -> b = inl x.
Definition completes (w1 w2 : world) : Prop :=
  (forall tr p t, follows (w_read w1 tr p t) (w_read w2 tr p t)) /\
  (forall tr l, follows (w_sort w1 tr l) (w_sort w2 tr l)) /\
  (forall tr t k n, follows (w_subpath w1 tr t k n) (w_subpath w2 tr t k n)) /\
  (forall tr t, follows (w_stat w1 tr t) (w_stat w2 tr t)) /\
  (forall tr e, follows (w_fault w1 tr e) (w_fault w2 tr e)) /\
  (forall tr n k e, follows (w_ask w1 tr n k e) (w_ask w2 tr n k e)) /\
  (forall tr p sv, follows (w_rescue w1 tr p sv) (w_rescue w2 tr p sv)) /\
  (forall tr e, w_handlers w1 tr e = None -> w_handlers w2 tr e = None).

(** Reading a directory yields only objects which are in it; sorting adds
    nothing. What is in it, and in which order, may differ each time. *)
Definition honest (w : world) : Prop :=
  (forall tr p t es err e, w_read w tr p t = inl (es, err) -> In e es -> In e (fkids t)) /\
  (forall tr l l1 e, w_sort w tr l = inl l1 -> In e l1 -> In e l).

(** The state which is to be saved when a panic happens after the events
    [before] while the entries of the directory [d] are travelled: the counts
    are those of the callbacks made. The depth is right when no Descend handler
    panics. *)
Definition saves (w : world) (c : cfg) (before : list event) (d : node) (sv : saved) : Prop :=
  sv_tree sv = c_tree c /\ sv_sub sv = c_sub c /\ sv_path sv = n_path d /\ sv_isdir sv = n_isdir d /\
  (calm_descend w -> sv_depth sv = n_depth d) /\
  m_files (sv_metrics sv) = files_in (calls before) /\
  m_dirs (sv_metrics sv) = dirs_in (calls before).

(** The node an event is about. *)
Definition about (e : event) : option node :=
  match e with EvDescend m | EvAscend m | EvCall m _ | EvOffer m _ => Some m | _ => None end.
