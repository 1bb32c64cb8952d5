(** The collections package: positional set, stack, iterators. No proofs here. *)
From Verif Require Import Base Lo.

Section PositionalSet.
Context {A : Type}.
Variable eqb : A -> A -> bool.

(** collections/positional-set.go:12-19. A Go map with boolean values that are
    only ever set to true before deletion is the list of its keys; the
    positions map is an association list. *)
Record pset := mkPset {
  ps_order : list A;
  ps_items : list A;
  ps_positions : list (A * nat);
  ps_anchor : A;
  ps_invalid : bool;
  ps_cache : list A
}.

Definition mem (x : A) (l : list A) : bool := existsb (eqb x) l.

(** Writing key [k] of a map. *)
Fixpoint put_pos (m : list (A * nat)) (k : A) (v : nat) : list (A * nat) :=
  match m with
  | [] => [(k, v)]
  | (k', v') :: m' => if eqb k' k then (k', v) :: m' else (k', v') :: put_pos m' k v
  end.
Fixpoint get_pos (m : list (A * nat)) (k : A) : option nat :=
  match m with
  | [] => None
  | (k', v') :: m' => if eqb k' k then Some v' else get_pos m' k
  end.

(** positional-set.go:37-39 *)
Fixpoint index_from (i : nat) (o : list A) (m : list (A * nat)) : list (A * nat) :=
  match o with
  | [] => m
  | x :: o' => index_from (S i) o' (put_pos m x i)
  end.

(** positional-set.go:21-43 *)
Definition ps_new (order : list A) (anchor : A) : pset :=
  let o := lo_reject (lo_uniq eqb order) (fun item _ => eqb item anchor) ++ [anchor] in
  mkPset o [anchor] (index_from 0 o []) anchor true [].

(** positional-set.go:46-61 *)
Definition ps_insert (x : A) (ps : pset) : bool * pset :=
  if eqb x (ps_anchor ps) then (false, ps)
  else match get_pos (ps_positions ps) x with
       | Some _ =>
           if mem x (ps_items ps) then (false, ps)
           else (true, mkPset (ps_order ps) (x :: ps_items ps) (ps_positions ps)
                         (ps_anchor ps) true (ps_cache ps))
       | None => (false, ps)
       end.

(** positional-set.go:65-77 *)
Fixpoint ps_all_from (xs : list A) (result : bool) (ps : pset) : bool * pset :=
  match xs with
  | [] => (result, ps)
  | x :: xs' =>
      let '(inserted, ps1) := ps_insert x ps in
      ps_all_from xs' (if result then inserted else result) ps1
  end.
Definition ps_all (xs : list A) (ps : pset) : bool * pset := ps_all_from xs true ps.

(** positional-set.go:80-88 *)
Definition ps_delete (x : A) (ps : pset) : pset :=
  if eqb x (ps_anchor ps) then ps
  else mkPset (ps_order ps) (filter (fun y => negb (eqb x y)) (ps_items ps))
         (ps_positions ps) (ps_anchor ps) true (ps_cache ps).

(** positional-set.go:91-93 *)
Definition ps_contains (x : A) (ps : pset) : bool := mem x (ps_items ps).

(** positional-set.go:100-115 *)
Definition ps_list (ps : pset) : list A * pset :=
  if ps_invalid ps then
    let cache := filter (fun x => mem x (ps_items ps)) (ps_order ps) in
    (cache, mkPset (ps_order ps) (ps_items ps) (ps_positions ps) (ps_anchor ps) false cache)
  else (ps_cache ps, ps).

(** positional-set.go:95-97; [None]: index out of range *)
Definition ps_top (ps : pset) : option A * pset :=
  let '(l, ps1) := ps_list ps in (nth_error l 0, ps1).

(** positional-set.go:118-121 *)
Definition ps_position (x : A) (ps : pset) : option nat := get_pos (ps_positions ps) x.

(** positional-set.go:124-126 *)
Definition ps_count (ps : pset) : nat := length (ps_items ps).

(** The operations a client can perform, and what they return. *)
Inductive psop :=
| PInsert (x : A) | PAll (xs : list A) | PDelete (x : A) | PContains (x : A)
| PItems | PTop | PPosition (x : A) | PCount.
Inductive psout :=
| OBool (b : bool) | OUnit | OList (l : list A) | OElem (x : option A)
| OPos (p : option nat) | ONat (n : nat).

Definition ps_step (op : psop) (ps : pset) : psout * pset :=
  match op with
  | PInsert x => let '(b, ps1) := ps_insert x ps in (OBool b, ps1)
  | PAll xs => let '(b, ps1) := ps_all xs ps in (OBool b, ps1)
  | PDelete x => (OUnit, ps_delete x ps)
  | PContains x => (OBool (ps_contains x ps), ps)
  | PItems => let '(l, ps1) := ps_list ps in (OList l, ps1)
  | PTop => let '(x, ps1) := ps_top ps in (OElem x, ps1)
  | PPosition x => (OPos (ps_position x ps), ps)
  | PCount => (ONat (ps_count ps), ps)
  end.
Fixpoint ps_run (ops : list psop) (ps : pset) : list psout * pset :=
  match ops with
  | [] => ([], ps)
  | op :: ops' =>
      let '(o, ps1) := ps_step op ps in
      let '(os, ps2) := ps_run ops' ps1 in (o :: os, ps2)
  end.
End PositionalSet.
Arguments psop A : clear implicits.
Arguments psout A : clear implicits.

Section Stack.
Context {A : Type}.

(** collections/stack.go:4-20. The content slice; its last element is the top.
    Simplified: the slice given to NewStackWith is not shared with its creator. *)
Definition stk := list A.
Definition stk_new : stk := [].
Definition stk_with (l : list A) : stk := l.

(** stack.go:22-24 *)
Definition stk_push (x : A) (s : stk) : stk := s ++ [x].
(** stack.go:63-65 *)
Definition stk_is_empty (s : stk) : bool := Nat.eqb (length s) 0.
(** stack.go:72-82 (top, pop) *)
Definition stk_pop_raw (s : stk) : option A * stk :=
  let t := length s - 1 in (nth_error s t, firstn t s).
(** stack.go:27-36; [None] is ErrStackIsEmpty *)
Definition stk_pop (s : stk) : option A * stk :=
  if stk_is_empty s then (None, s) else stk_pop_raw s.
(** stack.go:39-45; [Pan] is the panic with ErrStackIsEmpty *)
Definition stk_must_pop (s : stk) : outcome (option A) * stk :=
  if stk_is_empty s then (Pan (PErr (Err (Plain 0))), s)
  else let '(x, s1) := stk_pop_raw s in (Ret x, s1).
(** stack.go:48-55 *)
Definition stk_current (s : stk) : option A :=
  if stk_is_empty s then None else nth_error s (length s - 1).
(** stack.go:58-60 *)
Definition stk_size (s : stk) : nat := length s.

Inductive skop := KPush (x : A) | KPop | KMustPop | KCurrent | KSize | KIsEmpty | KContent.
Inductive skout :=
| KUnit | KElem (x : option A) | KPanic | KNat (n : nat) | KBool (b : bool) | KList (l : list A).

Definition stk_step (op : skop) (s : stk) : skout * stk :=
  match op with
  | KPush x => (KUnit, stk_push x s)
  | KPop => let '(x, s1) := stk_pop s in (KElem x, s1)
  | KMustPop => match stk_must_pop s with
                | (Ret x, s1) => (KElem x, s1)
                | (_, s1) => (KPanic, s1)
                end
  | KCurrent => (KElem (stk_current s), s)
  | KSize => (KNat (stk_size s), s)
  | KIsEmpty => (KBool (stk_is_empty s), s)
  | KContent => (KList s, s)
  end.
Fixpoint stk_run (ops : list skop) (s : stk) : list skout * stk :=
  match ops with
  | [] => ([], s)
  | op :: ops' =>
      let '(o, s1) := stk_step op s in
      let '(os, s2) := stk_run ops' s1 in (o :: os, s2)
  end.
End Stack.
Arguments stk A : clear implicits.
Arguments skop A : clear implicits.
Arguments skout A : clear implicits.

Section Iterators.
Context {A : Type}.

(** collections/iterators.go:101-105; [it_rev] tells the reverse iterator.
    Integers are unbounded here. *)
Record iter := mkIter { it_rev : bool; it_zero : A; it_elems : list A; it_cur : Z }.

(** iterators.go:51-64, 84-92 *)
Definition it_new (rev : bool) (l : list A) (zero : A) : iter :=
  mkIter rev zero l (if rev then Z.of_nat (length l) else (-1)%Z).
(** iterators.go:110-112 *)
Definition it_valid (i : iter) : bool :=
  (0 <=? it_cur i)%Z && (it_cur i <? Z.of_nat (length (it_elems i)))%Z.
(** container[current]; [zero] when out of range (the code never gets there) *)
Definition it_at (i : iter) : A := nth (Z.to_nat (it_cur i)) (it_elems i) (it_zero i).
Definition it_move (c : Z) (i : iter) : iter := mkIter (it_rev i) (it_zero i) (it_elems i) c.
(** iterators.go:122-131, 162-171 *)
Definition it_start (i : iter) : A * iter :=
  match it_elems i with
  | [] => (it_zero i, i)
  | _ =>
      let i1 := it_move (if it_rev i then Z.of_nat (length (it_elems i)) - 1 else 0)%Z i in
      (it_at i1, i1)
  end.
(** iterators.go:138-145, 178-185 *)
Definition it_next (i : iter) : A * iter :=
  let i1 := it_move (if it_rev i then it_cur i - 1 else it_cur i + 1)%Z i in
  if it_valid i1 then (it_at i1, i1) else (it_zero i, i1).
(** iterators.go:151-154, 191-194 *)
Definition it_reset (l : list A) (i : iter) : iter :=
  mkIter (it_rev i) (it_zero i) l (if it_rev i then Z.of_nat (length l) else (-1)%Z).

(** The documented client loop: for e := it.Start(); it.Valid(); e = it.Next().
    Returns the entries seen and the final iterator. *)
Fixpoint it_loop (fuel : nat) (e : A) (i : iter) : option (list A * iter) :=
  if it_valid i then
    match fuel with
    | O => None
    | S f =>
        let '(e1, i1) := it_next i in
        match it_loop f e1 i1 with
        | Some (l, i2) => Some (e :: l, i2)
        | None => None
        end
    end
  else Some ([], i).
Definition it_drive (fuel : nat) (i : iter) : option (list A * iter) :=
  let '(e, i1) := it_start i in it_loop fuel e i1.

(** Calling Next [n] times: what it returns and the final iterator. *)
Fixpoint nexts (n : nat) (i : iter) : list A * iter :=
  match n with
  | O => ([], i)
  | S n' => let '(x, i1) := it_next i in let '(xs, i2) := nexts n' i1 in (x :: xs, i2)
  end.

(** iterators.go:257-263 (runAll). [each] may depend on what it was applied to
    before. Returns the entries [each] was applied to. *)
Fixpoint run_loop {R : Type} (fuel : nat) (each : list A -> A -> R) (while_ : A -> R -> bool)
    (done : list A) (e : A) (i : iter) : option (list A * iter) :=
  if it_valid i then
    match fuel with
    | O => None
    | S f =>
        if while_ e (each done e) then
          let '(e1, i1) := it_next i in run_loop f each while_ (done ++ [e]) e1 i1
        else Some (done ++ [e], i)
    end
  else Some (done, i).
Definition it_run_all {R : Type} (fuel : nat) (each : list A -> A -> R) (while_ : A -> R -> bool)
    (i : iter) : option (list A * iter) :=
  let '(e, i1) := it_start i in run_loop fuel each while_ [] e i1.
End Iterators.
Arguments iter A : clear implicits.
