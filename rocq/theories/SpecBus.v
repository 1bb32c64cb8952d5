(** What is said about the bus: by the history of the operations alone. *)
From Verif Require Import Base Bus.
From Coq Require Import Permutation.

(** After this history (latest operation first) the topic is registered. *)
Fixpoint topic_known (hist : list bus_op) (t : string) : bool :=
  match hist with
  | [] => false
  | OpRegisterTopic t' :: r => if String.eqb t' t then true else topic_known r t
  | OpDeregisterTopic t' :: r => if String.eqb t' t then false else topic_known r t
  | _ :: r => topic_known r t
  end.
(** The matcher and function last registered under the key, unless deregistered since. *)
Fixpoint handler_known (hist : list bus_op) (k : string) : option (string * nat) :=
  match hist with
  | [] => None
  | OpRegisterHandler k' m f :: r => if String.eqb k' k then Some (m, f) else handler_known r k
  | OpDeregisterHandler k' :: r => if String.eqb k' k then None else handler_known r k
  | _ :: r => handler_known r k
  end.

(** The iterations over maps go through all of the map once. *)
Definition shuffles (shuffle : nat -> forall (V : Type), list (string * V) -> list (string * V)) : Prop :=
  forall i V (m : list (string * V)), Permutation (shuffle i V m) m.
