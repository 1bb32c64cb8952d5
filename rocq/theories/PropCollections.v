(** Properties C42, C43, C44, C52: collections and slice helpers. *)
From Verif Require Import Base Lo Collections SpecCollections CollectionsFacts.

(** C42. Whatever sequence of operations is performed on a new positional set
    (over any element type with decidable equality, any declared order with or
    without duplicates, any anchor), everything the set returns is what the
    abstract ordered set with pinned last element returns: Items lists exactly
    the members in declared order with the anchor last, Contains, Count, Top and
    Position agree with it, Insert and All tell whether they inserted. *)
Theorem c42_positional_set_refines_ordered_set :
  forall (A : Type) (eqb : A -> A -> bool), (forall x y, reflect (x = y) (eqb x y)) ->
  forall (order : list A) (anchor : A) (ops : list (psop A)),
    fst (ps_run eqb ops (ps_new eqb order anchor)) =
    a_run eqb order anchor ops (fun _ => false).
Proof. exact @ps_refines. Qed.
Print Assumptions c42_positional_set_refines_ordered_set.

Example c42_case :
  fst (ps_run Nat.eqb [PInsert 3; PInsert 9; PItems; PInsert 1; PItems; PDelete 3; PItems;
                       PInsert 7; PAll [2; 1]; PItems; PCount; PTop; PPosition 2; PDelete 7; PContains 7]
         (ps_new Nat.eqb [1; 2; 3; 2; 7] 7))
  = [OBool true; OBool false; OList [3; 7]; OBool true; OList [1; 3; 7]; OUnit; OList [1; 7];
     OBool false; OBool false; OList [1; 2; 7]; ONat 3; OElem (Some 1); OPos (Some 1); OUnit; OBool true].
Proof. vm_compute. reflexivity. Qed.

(** C43. Every sequence of stack operations, on a stack which holds any content
    (the last element of the content slice being the top), returns what a
    last-in first-out list returns. *)
Theorem c43_stack_is_lifo :
  forall (A : Type) (ops : list (skop A)) (s : list A),
    fst (stk_run ops (rev s)) = l_run ops s.
Proof. exact @stk_refines. Qed.
Print Assumptions c43_stack_is_lifo.
(** A new stack is empty; one made with a slice has the last element of the slice
    on top. *)
Theorem c43_stack_made :
  forall (A : Type) (ops : list (skop A)) (l : list A),
    fst (stk_run ops stk_new) = l_run ops [] /\ fst (stk_run ops (stk_with l)) = l_run ops (rev l).
Proof.
  intros A ops l. split; [exact (stk_refines ops [])|].
  unfold stk_with. rewrite <- (rev_involutive l) at 1. apply stk_refines.
Qed.
Print Assumptions c43_stack_made.

Example c43_case :
  fst (stk_run [KPush 1; KPush 2; KPop; KPush 3; KContent; KPop; KPop; KPop; KMustPop; KSize] [])
  = [KUnit; KUnit; KElem (Some 2); KUnit; KList [1; 3]; KElem (Some 3); KElem (Some 1);
     KElem None; KPanic; KNat 0].
Proof. vm_compute. reflexivity. Qed.

Example c43_made_case : fst (stk_run [KPop; KContent] (stk_with [1; 2; 3])) = [KElem (Some 3); KList [1; 2]].
Proof. reflexivity. Qed.

(** C44. The documented loop over an iterator of any sequence sees each element
    exactly once, in (reverse) order, and terminates; afterwards, however often
    Next is called, it returns the zero value and the iterator is invalid. *)
Theorem c44_iterator_enumerates :
  forall (A : Type) (reverse : bool) (l : list A) (zero : A) (fuel : nat),
    length l <= fuel ->
    exists it, it_drive fuel (it_new reverse l zero) = Some (if reverse then rev l else l, it) /\
      forall n, exists it', nexts n it = (repeat zero n, it') /\ it_valid it' = false.
Proof. exact @drive_all. Qed.
Print Assumptions c44_iterator_enumerates.

(** C44. RunAll applies the function to the longest prefix on which the condition
    holds plus the element that broke it. *)
Theorem c44_run_all :
  forall (A R : Type) (each : list A -> A -> R) (while_ : A -> R -> bool)
         (reverse : bool) (l : list A) (zero : A) (fuel : nat),
    length l <= fuel ->
    exists seen it, it_run_all fuel each while_ (it_new reverse l zero) = Some (seen, it) /\
      runs_through each while_ (if reverse then rev l else l) seen.
Proof. exact @run_all_spec. Qed.
Print Assumptions c44_run_all.

(** C44. Reset makes the iterator as good as new. *)
Theorem c44_reset : forall (A : Type) (it : iter A) (l : list A),
  it_reset l it = it_new (it_rev it) l (it_zero it).
Proof. exact @reset_new. Qed.
Print Assumptions c44_reset.

Example c44_case :
  it_run_all 9 (fun d x => length d + x) (fun x r => Nat.ltb r 9) (it_new true [1; 8; 5; 4] 0)
  = Some ([4; 5; 8], mkIter true 0 [1; 8; 5; 4] 1%Z).
Proof. vm_compute. reflexivity. Qed.

(** C52. Laws of the slice helpers. *)
Theorem c52_filter_reject_partition :
  forall (V : Type) (p : V -> bool) (l : list V),
    lo_filter l (fun x _ => p x) = filter p l /\
    lo_reject l (fun x _ => p x) = filter (fun x => negb (p x)) l.
Proof. exact (fun V p l => conj (lo_filter_plain p l) (lo_reject_plain p l)). Qed.
Print Assumptions c52_filter_reject_partition.

Theorem c52_map : forall (V R : Type) (f : V -> nat -> R) (l : list V),
  length (lo_map l f) = length l /\
  forall k, nth_error (lo_map l f) k = option_map (fun x => f x k) (nth_error l k).
Proof. exact (fun V R f l => conj (lo_map_length f l) (lo_map_nth f l)). Qed.
Print Assumptions c52_map.

Theorem c52_uniq :
  forall (V : Type) (eqb : V -> V -> bool), (forall x y, reflect (x = y) (eqb x y)) ->
  forall l : list V,
    NoDup (lo_uniq eqb l) /\ (forall x, In x (lo_uniq eqb l) <-> In x l) /\ lo_uniq eqb l = once eqb l.
Proof.
  exact (fun V eqb H l =>
    conj (eq_ind_r (fun r => NoDup r) (once_NoDup eqb H l) (lo_uniq_once eqb H l))
      (conj (fun x => eq_ind_r (fun r => In x r <-> In x l) (once_In eqb H l x) (lo_uniq_once eqb H l))
         (lo_uniq_once eqb H l))).
Qed.
Print Assumptions c52_uniq.

Theorem c52_group_by :
  forall (V K : Type) (keqb : K -> K -> bool), (forall x y, reflect (x = y) (keqb x y)) ->
  forall (f : V -> K) (l : list V),
    NoDup (map fst (lo_group_by keqb l f)) /\
    (forall k, In k (map fst (lo_group_by keqb l f)) <-> exists x, In x l /\ f x = k) /\
    (forall k, gm_get keqb (lo_group_by keqb l f) k = filter (fun x => keqb (f x) k) l).
Proof. exact @lo_group_by_laws. Qed.
Print Assumptions c52_group_by.

Theorem c52_others :
  forall (V : Type) (l : list V) (p : V -> bool),
    lo_every_by l p = forallb p l /\ lo_find l p = find p l /\
    lo_last l = match rev l with [] => None | x :: _ => Some x end.
Proof. exact (fun V l p => conj (lo_every_by_eq p l) (conj (lo_find_eq p l) (lo_last_eq l))). Qed.
Print Assumptions c52_others.

Theorem c52_ternary : forall (V : Type) (x y : V), lo_ternary true x y = x /\ lo_ternary false x y = y.
Proof. intros. split; reflexivity. Qed.
Print Assumptions c52_ternary.

Example c52_case :
  lo_uniq Nat.eqb [3; 1; 3; 2; 1] = [3; 1; 2] /\
  lo_group_by Bool.eqb [1; 2; 3; 4; 5] Nat.even = [(false, [1; 3; 5]); (true, [2; 4])] /\
  lo_last [1; 2; 3] = Some 3.
Proof. vm_compute. auto. Qed.
