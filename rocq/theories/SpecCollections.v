(** Specifications of the collections, independent of the code. *)
From Verif Require Import Base Collections.

(** ** An ordered set with a pinned last element: the abstract state is just the
    set of members (without the pinned one). *)
Section OrderedSet.
Context {A : Type}.
Variable eqb : A -> A -> bool.

(** The declared order, every element once, without the pinned one. *)
Fixpoint once (l : list A) : list A :=
  match l with
  | [] => []
  | x :: l' => x :: filter (fun y => negb (eqb x y)) (once l')
  end.
Definition ranking (order : list A) (pin : A) : list A :=
  filter (fun x => negb (eqb x pin)) (once order) ++ [pin].

Definition aset := A -> bool.
Definition listing (order : list A) (pin : A) (s : aset) : list A :=
  filter (fun x => s x || eqb x pin) (ranking order pin).

Fixpoint rank_of (x : A) (l : list A) : option nat :=
  match l with
  | [] => None
  | y :: l' => if eqb y x then Some 0 else option_map S (rank_of x l')
  end.

(** Can [x] be a member besides the pinned element? *)
Definition insertable (order : list A) (pin x : A) : bool :=
  existsb (eqb x) order && negb (eqb x pin).

Definition a_insert (order : list A) (pin x : A) (s : aset) : bool * aset :=
  if insertable order pin x && negb (s x)
  then (true, fun y => eqb x y || s y) else (false, s).

Fixpoint a_all (order : list A) (pin : A) (xs : list A) (s : aset) : bool * aset :=
  match xs with
  | [] => (true, s)
  | x :: xs' =>
      let '(b, s1) := a_insert order pin x s in
      let '(b', s2) := a_all order pin xs' s1 in (b && b', s2)
  end.

Definition a_step (order : list A) (pin : A) (op : psop A) (s : aset) : psout A * aset :=
  match op with
  | PInsert x => let '(b, s1) := a_insert order pin x s in (OBool b, s1)
  | PAll xs => let '(b, s1) := a_all order pin xs s in (OBool b, s1)
  | PDelete x => (OUnit, fun y => s y && negb (eqb x y))
  | PContains x => (OBool (s x || eqb x pin), s)
  | PItems => (OList (listing order pin s), s)
  | PTop => (OElem (hd_error (listing order pin s)), s)
  | PPosition x => (OPos (rank_of x (ranking order pin)), s)
  | PCount => (ONat (length (listing order pin s)), s)
  end.
Fixpoint a_run (order : list A) (pin : A) (ops : list (psop A)) (s : aset) : list (psout A) :=
  match ops with
  | [] => []
  | op :: ops' => let '(o, s1) := a_step order pin op s in o :: a_run order pin ops' s1
  end.
End OrderedSet.

(** ** A last-in first-out list: the abstract state lists the elements with the
    latest first. *)
Section Lifo.
Context {A : Type}.
Definition l_step (op : skop A) (s : list A) : skout A * list A :=
  match op with
  | KPush x => (KUnit, x :: s)
  | KPop => match s with [] => (KElem None, []) | x :: s' => (KElem (Some x), s') end
  | KMustPop => match s with [] => (KPanic, []) | x :: s' => (KElem (Some x), s') end
  | KCurrent => (KElem (hd_error s), s)
  | KSize => (KNat (length s), s)
  | KIsEmpty => (KBool (match s with [] => true | _ => false end), s)
  | KContent => (KList (rev s), s)
  end.
Fixpoint l_run (ops : list (skop A)) (s : list A) : list (skout A) :=
  match ops with
  | [] => []
  | op :: ops' => let '(o, s1) := l_step op s in o :: l_run ops' s1
  end.

(** [done] is what RunAll applies to when it goes through [l]: every element
    but possibly the last one lets the loop go on; the loop stops early only at
    an element that does not. *)
Definition runs_through {R : Type} (each : list A -> A -> R) (while_ : A -> R -> bool)
    (l done : list A) : Prop :=
  exists rest, l = done ++ rest /\
    (forall pre x post, done = pre ++ x :: post -> post <> [] -> while_ x (each pre x) = true) /\
    (rest <> [] -> exists pre x, done = pre ++ [x] /\ while_ x (each pre x) = false).
End Lifo.
