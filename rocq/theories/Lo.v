(** The slice helpers of internal/third/lo.  Go loops are written as
    left-to-right recursions with the loop's index and accumulator.  A Go map is
    an association list (its iteration order is not used).  No proofs here. *)
From Verif Require Import Base.

Section Lo.
Context {V R K : Type}.

(** internal/third/lo/slice.go:9-19 *)
Fixpoint lo_filter_from (i : nat) (p : V -> nat -> bool) (l acc : list V) : list V :=
  match l with
  | [] => acc
  | x :: l' => lo_filter_from (S i) p l' (if p x i then acc ++ [x] else acc)
  end.
Definition lo_filter (l : list V) (p : V -> nat -> bool) : list V := lo_filter_from 0 p l [].

(** internal/third/lo/slice.go:433-443 *)
Fixpoint lo_reject_from (i : nat) (p : V -> nat -> bool) (l acc : list V) : list V :=
  match l with
  | [] => acc
  | x :: l' => lo_reject_from (S i) p l' (if negb (p x i) then acc ++ [x] else acc)
  end.
Definition lo_reject (l : list V) (p : V -> nat -> bool) : list V := lo_reject_from 0 p l [].

(** internal/third/lo/slice.go:39-47 *)
Fixpoint lo_map_from (i : nat) (f : V -> nat -> R) (l : list V) (acc : list R) : list R :=
  match l with
  | [] => acc
  | x :: l' => lo_map_from (S i) f l' (acc ++ [f x i])
  end.
Definition lo_map (l : list V) (f : V -> nat -> R) : list R := lo_map_from 0 f l [].

(** internal/third/lo/slice.go:22-35: stops at the first error. The slots not
    reached hold the zero value [zero]; the slot of the failing item holds what
    the function returned. *)
Fixpoint lo_mape_from (i : nat) (zero : R) (f : V -> nat -> R * option error)
    (l : list V) (acc : list R) : list R * option error :=
  match l with
  | [] => (acc, None)
  | x :: l' =>
      let '(r, e) := f x i in
      match e with
      | Some er => (acc ++ r :: repeat zero (length l'), Some er)
      | None => lo_mape_from (S i) zero f l' (acc ++ [r])
      end
  end.
Definition lo_mape (zero : R) (l : list V) (f : V -> nat -> R * option error)
    : list R * option error := lo_mape_from 0 zero f l [].

(** internal/third/lo/slice.go:84-90 *)
Fixpoint lo_reduce_from (i : nat) (f : R -> V -> nat -> R) (l : list V) (acc : R) : R :=
  match l with
  | [] => acc
  | x :: l' => lo_reduce_from (S i) f l' (f acc x i)
  end.
Definition lo_reduce (l : list V) (f : R -> V -> nat -> R) (init : R) : R :=
  lo_reduce_from 0 f l init.

(** internal/third/lo/intersect.go:4-12 *)
Variable veqb : V -> V -> bool.
Fixpoint lo_contains (l : list V) (x : V) : bool :=
  match l with
  | [] => false
  | y :: l' => if veqb y x then true else lo_contains l' x
  end.

(** internal/third/lo/slice.go:126-140; [seen] is the map of seen keys *)
Fixpoint lo_uniq_from (seen : list V) (l acc : list V) : list V :=
  match l with
  | [] => acc
  | x :: l' =>
      if existsb (veqb x) seen then lo_uniq_from seen l' acc
      else lo_uniq_from (x :: seen) l' (acc ++ [x])
  end.
Definition lo_uniq (l : list V) : list V := lo_uniq_from [] l [].

(** internal/third/lo/slice.go:166-176: the value stored under a key *)
Variable keqb : K -> K -> bool.
Fixpoint gm_get (m : list (K * list V)) (k : K) : list V :=
  match m with
  | [] => []
  | (k', v) :: m' => if keqb k' k then v else gm_get m' k
  end.
Fixpoint gm_put (m : list (K * list V)) (k : K) (v : list V) : list (K * list V) :=
  match m with
  | [] => [(k, v)]
  | (k', v') :: m' => if keqb k' k then (k', v) :: m' else (k', v') :: gm_put m' k v
  end.
Fixpoint lo_group_from (f : V -> K) (l : list V) (m : list (K * list V)) : list (K * list V) :=
  match l with
  | [] => m
  | x :: l' => lo_group_from f l' (gm_put m (f x) (gm_get m (f x) ++ [x]))
  end.
Definition lo_group_by (l : list V) (f : V -> K) : list (K * list V) := lo_group_from f l [].

(** internal/third/lo/intersect.go:37-45 *)
Fixpoint lo_every_by (l : list V) (p : V -> bool) : bool :=
  match l with
  | [] => true
  | x :: l' => if negb (p x) then false else lo_every_by l' p
  end.

(** internal/third/lo/find.go:36-46 *)
Fixpoint lo_find (l : list V) (p : V -> bool) : option V :=
  match l with
  | [] => None
  | x :: l' => if p x then Some x else lo_find l' p
  end.

(** internal/third/lo/find.go:311-320 *)
Definition lo_last (l : list V) : option V :=
  let n := length l in
  if Nat.eqb n 0 then None else nth_error l (n - 1).

(** internal/third/lo/condition.go:7-13,15-21 *)
Definition lo_ternary (b : bool) (x y : V) : V := if b then x else y.
End Lo.

(** internal/third/lo/math.go:70-77 *)
Fixpoint lo_sum_from (l : list nat) (acc : nat) : nat :=
  match l with [] => acc | x :: l' => lo_sum_from l' (acc + x) end.
Definition lo_sum (l : list nat) : nat := lo_sum_from l 0.
