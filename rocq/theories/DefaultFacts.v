(** The walk with the default options. *)
From Verif Require Import Base Paths Level Lo Kernel Session Defaults Spec SpecDefault KernelFacts WalkFacts SessionFacts Filters SpecFilter Hooks Life Options Build SpecBuild
  Feature WalkCor WalkProps BuildFacts BuildProps Settle FilterProps SampleProps CasesFacts Cases BuildCases FilterCases.
From Coq Require Import Permutation Sorted.
Local Open Scope string_scope.

Definition shown (t : fsnode) : list fsnode := fst (default_read "" t).
Definition seen (p : place) : string * bool := (pl_path p, fisdir (pl_obj p)).

Lemma everything_shown : forall path t,
  everything path t = (path, fisdir t) :: flat_map (fun e => everything (join path (fname e)) e) (shown t).
Proof.
  intros path [nm d inf rd ks]. cbn [everything fisdir]. f_equal. unfold shown, default_read. cbn [fread fisdir fkids].
  destruct rd; [destruct d; reflexivity|]. destruct d; [|reflexivity]. cbn [fst].
  induction ks as [|e ks IH]; [reflexivity|]. cbn [flat_map filter]. destruct (String.eqb (fname e) ".DS_Store"); cbn [negb flat_map app].
  - exact IH.
  - f_equal. exact IH.
Qed.
Lemma read_shown : forall p t, fst (default_read p t) = shown t.
Proof. reflexivity. Qed.

(** A listing of some kinds of entries. *)
Definition kept_kinds (keep : fsnode -> bool) (es : string -> fsnode -> list fsnode) : Prop :=
  forall p t, Permutation (es p t) (filter keep (shown t)).

Lemma flat_map_perm : forall A B (f : A -> list B) l l', Permutation l l' -> Permutation (flat_map f l) (flat_map f l').
Proof.
  intros A B f l l' P. induction P; cbn; [constructor|apply Permutation_app_head; assumption| |eapply perm_trans; eassumption].
  rewrite !app_assoc. apply Permutation_app_tail, Permutation_app_comm.
Qed.
Lemma flat_map_ext_perm : forall A B (f g : A -> list B) l, (forall x, In x l -> Permutation (f x) (g x)) ->
  Permutation (flat_map f l) (flat_map g l).
Proof.
  intros A B f g l H. induction l as [|x l IH]; [constructor|]. cbn. apply Permutation_app; [apply H; left; reflexivity|].
  apply IH. intros y Y. apply H. right. exact Y.
Qed.

Lemma listing_all : forall es, kept_kinds (fun _ => true) es ->
  (forall pos path t P, preorder es pos path t P -> Permutation (map seen P) (everything path t)) /\
  (forall pos path i l P, preorders es pos path i l P ->
     Permutation (map seen P) (flat_map (fun e => everything (join path (fname e)) e) l)).
Proof.
  intros es K. apply preorder_both.
  - intros pos path t l H IH. cbn [map]. rewrite everything_shown. unfold seen at 1. cbn [pl_path pl_obj].
    apply perm_skip. eapply perm_trans; [exact IH|]. apply flat_map_perm.
    eapply perm_trans; [apply K|]. replace (filter (fun _ => true) (shown t)) with (shown t); [reflexivity|].
    induction (shown t) as [|x l0 IHl]; [reflexivity|]. cbn. f_equal. exact IHl.
  - intros. constructor.
  - intros pos path i e rest l1 l2 H1 IH1 H2 IH2. rewrite map_app. cbn [flat_map]. apply Permutation_app; assumption.
Qed.

Lemma filter_flat_map : forall A B (p : B -> bool) (f : A -> list B) l,
  filter p (flat_map f l) = flat_map (fun x => filter p (f x)) l.
Proof. intros A B p f l. induction l as [|x l IH]; [reflexivity|]. cbn. rewrite filter_app, IH. reflexivity. Qed.
Lemma flat_map_filter : forall A B (keep : A -> bool) (f : A -> list B) l,
  (forall x, keep x = false -> f x = []) -> flat_map f (filter keep l) = flat_map f l.
Proof.
  intros A B keep f l H. induction l as [|x l IH]; [reflexivity|]. cbn. destruct (keep x) eqn:E; cbn; rewrite IH; [reflexivity|].
  rewrite (H x E). reflexivity.
Qed.
Lemma file_shows_nothing : forall t, fisdir t = false -> shown t = [].
Proof. intros t F. unfold shown, default_read. destruct (fread t); [reflexivity|]. rewrite F. reflexivity. Qed.

Lemma listing_dirs : forall es, kept_kinds fisdir es ->
  (forall pos path t P, preorder es pos path t P -> fisdir t = true -> Permutation (map seen P) (filter snd (everything path t))) /\
  (forall pos path i l P, preorders es pos path i l P -> (forall e, In e l -> fisdir e = true) ->
     Permutation (map seen P) (flat_map (fun e => filter snd (everything (join path (fname e)) e)) l)).
Proof.
  intros es K. apply preorder_both.
  - intros pos path t l H IH D. cbn [map]. rewrite everything_shown. unfold seen at 1. cbn [pl_path pl_obj filter snd].
    rewrite D. apply perm_skip.
    assert (DS : forall e, In e (es path t) -> fisdir e = true).
    { intros e I. apply (Permutation_in _ (K path t)) in I. apply filter_In in I. apply I. }
    eapply perm_trans; [exact (IH DS)|]. rewrite filter_flat_map.
    eapply perm_trans; [apply flat_map_perm, K|]. rewrite flat_map_filter; [reflexivity|].
    intros x F. rewrite everything_shown, (file_shows_nothing _ F). cbn. rewrite F. reflexivity.
  - intros. constructor.
  - intros pos path i e rest l1 l2 H1 IH1 H2 IH2 D. rewrite map_app. cbn [flat_map].
    apply Permutation_app; [apply IH1, D; left; reflexivity|apply IH2; intros; apply D; right; assumption].
Qed.

Lemma split_kinds : forall l : list fsnode, Permutation (filter fisdir l ++ filter (fun e => negb (fisdir e)) l) l.
Proof.
  induction l as [|e l IH]; [constructor|]. cbn. destruct (fisdir e); cbn.
  - apply perm_skip, IH.
  - eapply perm_trans; [|apply perm_skip, IH]. symmetry. apply Permutation_middle.
Qed.
Lemma filter_true : forall A (l : list A), filter (fun _ => true) l = l.
Proof. induction l as [|x l IH]; [reflexivity|]. cbn. rewrite IH. reflexivity. Qed.

(** The entries of a directory as the default walk visits them. *)
Definition default_entries (sub : subscription) (t : fsnode) : list fsnode :=
  match sub with
  | SubFiles | SubUniversal => default_sort (filter fisdir (shown t)) ++ default_sort (filter (fun e => negb (fisdir e)) (shown t))
  | _ => default_sort (filter fisdir (shown t))
  end.

Section Default.
Variable env : environment.
Variable mt : matchers.
Variable u : prime_facade.
Variable t : fsnode.
Variable sub : subscription.
Hypothesis NO : us_options u = None.
Hypothesis CF : complete_facade u.
Hypothesis SU : us_sub u = Some sub.
Hypothesis HA : us_handler u = Some (fun _ _ => CNil).
Hypothesis ST : en_stat env t = None.

Lemma default_walk_listing : exists tr m P,
  walk_prime env mt (FacUsing u) [] t = mkReport (Ret None) tr (Some m) /\
  preorder (fun _ => default_entries sub) [] (us_tree u) t P /\
  map place_of (map fst (calls tr)) = told sub P.
Proof.
  pose proof (walk_settled env mt u [] sub cnil None None [] t NO CF SU HA) as W.
  cbn [latest fold_left sets_filter sets_sampling] in W.
  specialize (W (plan_off mt no_sampling (hibernate_when []) eq_refl)). destruct W as (o & s & S & E).
  change (options_of env []) with (@nil (option setting)) in E.
  destruct (plain_walk env [] (us_tree u) sub t (then_all default_read []) (sampling_active no_sampling)) as (P & s' & HP & S' & V).
  - split; [reflexivity|exact ST].
  - apply default_hooks_sound.
  - apply default_hooks_sound.
  - apply default_hooks_sound.
  - intros _ p e. unfold then_all. cbn. unfold default_read. destruct (fread e); [right; reflexivity|].
    destruct (fisdir e); [left; reflexivity|right; reflexivity].
  - unfold latest in S, S'. cbn [fold_left] in S, S'. rewrite S in S'. inversion S'; subst o s'.
    exists (s_trace s), (s_metrics s), P. split; [exact E|]. split.
    + eapply (proj1 (preorder_ext _ _ _)); exact HP.
    + unfold visited in V. rewrite V. f_equal. rewrite <- (filter_true _ P) at 2. reflexivity.
  Unshelve.
  intros p e. destruct sub; reflexivity.
Qed.

Lemma default_walk_visits : fisdir t = true -> exists tr m,
  walk_prime env mt (FacUsing u) [] t = mkReport (Ret None) tr (Some m) /\
  Permutation (map (fun x => (n_path (fst x), fisdir (n_src (fst x)))) (calls tr))
    (filter (subscribed sub) (everything (us_tree u) t)).
Proof.
  intro D. destruct default_walk_listing as (tr & m & P & E & HP & V).
  exists tr, m. split; [exact E|].
  assert (Q : map (fun x => (n_path (fst x), fisdir (n_src (fst x)))) (calls tr) = map seen (told sub P)).
  { rewrite <- V, !map_map. reflexivity. }
  rewrite Q. clear Q V E tr m.
  assert (KA : sub = SubUniversal \/ sub = SubFiles -> kept_kinds (fun _ => true) (fun _ : string => default_entries sub)).
  { intros C p e. rewrite filter_true. unfold default_entries.
    assert (X : Permutation (default_sort (filter fisdir (shown e)) ++ default_sort (filter (fun x => negb (fisdir x)) (shown e))) (shown e)).
    { eapply perm_trans; [|apply split_kinds]. apply Permutation_app; apply sort_by_perm. }
    destruct C as [-> | ->]; exact X. }
  assert (KD : sub = SubDirectories \/ sub = SubDirectoriesWithFiles -> kept_kinds fisdir (fun _ : string => default_entries sub)).
  { intros C p e. unfold default_entries. destruct C as [-> | ->]; apply sort_by_perm. }
  destruct sub; cbn [told].
  - assert (X : map seen (filter is_file_place P) = filter (subscribed SubFiles) (map seen P)).
    { clear. induction P as [|p P IH]; [reflexivity|]. cbn [filter map]. unfold is_file_place at 1, subscribed at 1, seen at 2. cbn [snd].
      destruct (fisdir (pl_obj p)); cbn [negb map]; rewrite IH; reflexivity. }
    rewrite X. pose proof (proj1 (listing_all _ (KA (or_intror eq_refl))) _ _ _ _ HP) as Y.
    clear - Y. induction Y; cbn; [constructor| | |eapply perm_trans; eassumption].
    + destruct (negb (snd x)); [apply perm_skip|]; assumption.
    + destruct (negb (snd x)), (negb (snd y)); (apply Permutation_refl || apply perm_swap).
  - exact (proj1 (listing_dirs _ (KD (or_introl eq_refl))) _ _ _ _ HP D).
  - exact (proj1 (listing_dirs _ (KD (or_intror eq_refl))) _ _ _ _ HP D).
  - cbn [subscribed]. rewrite filter_true. exact (proj1 (listing_all _ (KA (or_introl eq_refl))) _ _ _ _ HP).
Qed.
End Default.

Definition lower_le (a b : fsnode) : Prop := (to_lower (fname a) <=? to_lower (fname b))%string = true.
Lemma default_entries_order : forall sub t, exists ds fs,
  default_entries sub t = (ds ++ match sub with SubFiles | SubUniversal => fs | _ => [] end)%list /\
  StronglySorted lower_le ds /\ StronglySorted lower_le fs /\
  Permutation (ds ++ fs) (filter (fun e => negb (String.eqb (fname e) ".DS_Store"))
    (if fisdir t then match fread t with None => fkids t | Some _ => [] end else [])) /\
  (forall e, In e ds -> fisdir e = true) /\ (forall e, In e fs -> fisdir e = false).
Proof.
  intros sub t.
  exists (default_sort (filter fisdir (shown t))), (default_sort (filter (fun e => negb (fisdir e)) (shown t))).
  split; [destruct sub; cbn; rewrite ?app_nil_r; reflexivity|].
  split; [apply sort_by_sorted|]. split; [apply sort_by_sorted|]. split.
  { eapply perm_trans; [apply Permutation_app; apply sort_by_perm|]. eapply perm_trans; [apply split_kinds|].
    unfold shown, default_read. destruct (fread t); destruct (fisdir t); reflexivity. }
  split; intros e I; apply (Permutation_in _ (sort_by_perm _ _)) in I; apply filter_In in I; destruct I as [_ I]; [exact I|].
  apply negb_true_iff. exact I.
Qed.
