(** Concrete disks and path calculators for the resume examples, and that these
    meet the hypotheses of the theorems. *)
From Verif Require Import Base Paths PathFacts Level Kernel Defaults Session Spec Cases CasesFacts ReadFacts Resume SpecResume WalkProps SpawnOrder.
From Coq Require Import Permutation Sorted.
Local Open Scope string_scope.
Local Open Scope list_scope.

(** A Unix path calculator made of filepath's Split, Clean and Join. *)
Definition unix_calc : pathcalc :=
  mkCalc (fun p => (clean (fst (split_path p)), snd (split_path p))) join
    (fun p => clean (fst (split_path p))) (fun p => snd (split_path p)).

Lemma clean_slash : forall p, p <> "" -> clean (p ++ "/") = clean p.
Proof.
  intros p NE. rewrite !clean_render. rewrite starts_app by exact NE. f_equal. unfold segments.
  rewrite starts_app by exact NE. change "/" with ("/" ++ "")%string. rewrite split_sep_app.
  rewrite fold_left_app. reflexivity.
Qed.

Lemma unix_sound : forall p, clean p = p -> sound_at unix_calc p.
Proof.
  intros p CP. split; [exact CP|]. intros b PB. cbn [unix_calc pc_join pc_split pc_dir pc_base].
  split; [reflexivity|]. rewrite (join_below p b CP PB), (split_below p b PB). cbn [fst snd].
  assert (E : clean (if String.eqb p "." then "" else if String.eqb p "/" then "/" else (p ++ "/")%string) = p).
  { destruct (String.eqb p ".") eqn:E1; [apply String.eqb_eq in E1; subst; reflexivity|].
    destruct (String.eqb p "/") eqn:E2; [apply String.eqb_eq in E2; subst; reflexivity|].
    rewrite clean_slash; [exact CP|]. rewrite <- CP. apply clean_ne. }
  rewrite E. auto.
Qed.

(** The disk which holds the tree [t] at [root] (and nothing else). *)
Fixpoint find_at (fuel : nat) (path : string) (t : fsnode) (q : string) : option fsnode :=
  if String.eqb path q then Some t else
  match fuel with
  | O => None
  | S f =>
      fold_right (fun e r => match find_at f (join path (fname e)) e q with Some u => Some u | None => r end) None (fkids t)
  end.
Definition disk_of (root : string) (t : fsnode) : disk :=
  fun q => match find_at 9 root t q with Some u => u | None => File "" end.

(** Sorting by a key keeps the order of any selection. *)
Lemma insert_filter : forall key f e l, StronglySorted (key_le key) l ->
  filter f (insert_by key e l) = if f e then insert_by key e (filter f l) else filter f l.
Proof.
  intros key f e l S. induction S as [|x l S IH F]; cbn [insert_by].
  - cbn [filter]. destruct (f e); reflexivity.
  - destruct (key (fname e) <=? key (fname x))%string eqn:L.
    + cbn [filter]. destruct (f e); [|reflexivity]. destruct (f x) eqn:FX; cbn [insert_by].
      * rewrite L. reflexivity.
      * destruct (filter f l) as [|y r] eqn:FL; [reflexivity|]. cbn [insert_by].
        assert (Y : (key (fname e) <=? key (fname y))%string = true).
        { eapply leb_trans; [exact L|]. rewrite Forall_forall in F. apply F.
          assert (I : In y (filter f l)) by (rewrite FL; left; reflexivity). apply filter_In in I. apply I. }
        rewrite Y. reflexivity.
    + cbn [filter]. rewrite IH. destruct (f e); [|reflexivity]. destruct (f x); [|reflexivity].
      cbn [insert_by]. rewrite L. reflexivity.
Qed.
Lemma sort_by_stable : forall key f l, sort_by key (filter f l) = filter f (sort_by key l).
Proof.
  intros key f l. induction l as [|x l IH]; [reflexivity|]. cbn [filter sort_by fold_right].
  rewrite insert_filter by apply sort_by_sorted. fold (sort_by key l). destruct (f x); [cbn; f_equal|]; exact IH.
Qed.
Lemma base_stable : forall sub, stable_sort (base_cfg sub).
Proof. intros sub f l. apply sort_by_stable. Qed.

(** ** A session stopped by a panic, on a tree in byte order *)

(** r/ {A/ {c/ {y, z}, x}, D/ {w}, e} *)
Definition tree4 : fsnode :=
  Dir "r" [Dir "A" [Dir "c" [File "y"; File "z"]; File "x"]; Dir "D" [File "w"]; File "e"].
Definition disk4 : disk := disk_of "/r" tree4.
Definition cfg4 : cfg := with_client (answer "/r/A/c/y" (CPanic (PVal 1))) (base_cfg SubUniversal).

Definition places4 : list place := Eval vm_compute in
  match lister 9 (entries_all cfg4) [] "/r" (disk4 "/r") with Some l => l | None => [] end.
Lemma listed4 : preorder (entries_all cfg4) [] (c_tree cfg4) (disk4 (c_tree cfg4)) places4.
Proof. apply (lister_sound 9). vm_compute. reflexivity. Qed.
Lemma default_proper : forall b, proper b <-> (if string_dec b "" then false else if string_dec b "." then false else
  if string_dec b ".." then false else negb (has_sep b)) = true.
Proof.
  intro b. unfold proper. destruct (string_dec b ""), (string_dec b "."), (string_dec b ".."), (has_sep b); cbn; split;
    intro H; try discriminate; try (repeat split; assumption); try reflexivity; destruct H as (A & B & C & D); try congruence.
Qed.
Lemma proper4 : proper_names (disk4 "/r").
Proof.
  vm_compute. repeat (constructor; cbn [fkids]; intros ? H; repeat destruct H as [<-|H]; try contradiction;
    (split; [apply default_proper; vm_compute; reflexivity|])).
Qed.
Lemma tidy4 : tidy cfg4 unix_calc disk4 places4.
Proof.
  apply Forall_forall. intros q H. repeat destruct H as [<-|H]; try contradiction; cbn [pl_obj pl_path];
    (split; [vm_compute; reflexivity|]); (split; [reflexivity|]); intro FD; try discriminate;
    (split; [vm_compute; reflexivity|]); (split; [apply unix_sound; vm_compute; reflexivity|]); vm_compute; repeat constructor.
Qed.
