(** Proofs about the filtering sink and the client's definitions. *)
From Verif Require Import Base Paths Level Lo Kernel Session Defaults Spec Filters SpecFilter FiltersFacts Hooks Life Options Build SpecBuild
  BuildFacts BuildProps ReuseFacts Settle FilterProps SampleProps SpecChild ChildProps OwnProps Sink SpecSink.
From Coq Require Import Lia.

(** ** The replies do not change what is created *)
Lemma primary_create_fst : forall mt fo so, fst (primary_create mt fo so) = create_primary mt fo so.
Proof.
  intros mt fo so. unfold primary_create, create_primary.
  destruct (fo_custom fo) as [cu|]; [reflexivity|]. unfold node_active.
  destruct (fo_node fo) as [d|]; [destruct (_ || _)|]; cbn [fst].
  - unfold native_create. destruct (new_filter mt d fo) as [[f [e|]]|p|]; reflexivity.
  - destruct (fo_sample fo) as [sd|]; [|reflexivity]. unfold sampler_create. destruct (new_sample mt sd so) as [[m|] [e|]]; reflexivity.
  - destruct (fo_sample fo) as [sd|]; [|reflexivity]. unfold sampler_create. destruct (new_sample mt sd so) as [[m|] [e|]]; reflexivity.
Qed.
Lemma scheme_create_fst : forall mt fo so, fst (scheme_create mt fo so) = create_scheme mt fo so.
Proof.
  intros mt fo so. unfold scheme_create, create_scheme. rewrite <- primary_create_fst.
  destruct (primary_create mt fo so) as [[[p [e|]]|q|] rs]; cbn [fst]; try reflexivity.
  unfold create_child, child_active. destruct (fo_child fo) as [d|]; [|reflexivity].
  destruct (negb _); [|reflexivity]. unfold nanny_create. destruct (new_child mt d) as [m [e|]]; reflexivity.
Qed.

(** ** What is delivered *)
Lemma primary_replies : forall mt fo so,
  snd (primary_create mt fo so) = [] \/
  exists d f, fo_custom fo = None /\ fo_node fo = Some d /\ node_active fo = true /\ new_filter mt d fo = Ret (f, None) /\
    primary_create mt fo so = (Ret (Some (CrNode f), None), [RpNode f]).
Proof.
  intros mt fo so. unfold primary_create.
  destruct (fo_custom fo) as [cu|]; [left; reflexivity|]. destruct (node_active fo) eqn:A.
  - destruct (fo_node fo) as [d|] eqn:N; [|unfold node_active in A; rewrite N in A; discriminate].
    unfold native_create. destruct (new_filter mt d fo) as [[f [e|]]|p|] eqn:F; [left; reflexivity| |left; reflexivity..].
    right. exists d, f. auto.
  - left. destruct (fo_sample fo) as [sd|]; [|reflexivity]. unfold sampler_create. destruct (new_sample mt sd so) as [[m|] [e|]]; reflexivity.
Qed.

(** ** Scopes *)
Lemma set_clear_again : forall s a b,
  scope_clear (scope_set (scope_clear (scope_set s a) b) a) b = scope_clear (scope_set s a) b.
Proof.
  intros. unfold scope_clear, scope_set. apply N.bits_inj. intro i. rewrite !N.ldiff_spec, !N.lor_spec, !N.ldiff_spec, !N.lor_spec.
  destruct (N.testbit s i), (N.testbit a i), (N.testbit b i); reflexivity.
Qed.
Lemma with_scope_again : forall a b d, with_scope a (with_scope b d) = with_scope a d.
Proof. reflexivity. Qed.
Lemma with_scope_own : forall d, with_scope (fd_scope d) d = d.
Proof. intros []. reflexivity. Qed.
Lemma native_settles_scope : forall d, but_scope d (native_settles d).
Proof.
  intros d. unfold native_settles. destruct (fd_type d); try (exists (fd_scope d); symmetry; apply with_scope_own).
  destruct (split_globex (fd_pattern d)); [exists ScopeFile; reflexivity|exists (fd_scope d); symmetry; apply with_scope_own].
Qed.
Lemma but_scope_refl : forall d, but_scope d d.
Proof. intro d. exists (fd_scope d). symmetry. apply with_scope_own. Qed.
Lemma but_scope_trans : forall a b c, but_scope a b -> but_scope b c -> but_scope a c.
Proof. intros a b c [x ->] [y ->]. exists y. reflexivity. Qed.
Lemma constituent_settles_scope : forall fo d, but_scope d (constituent_settles fo d).
Proof. intros fo d. unfold constituent_settles. destruct (fo_custom fo); [apply but_scope_refl|apply native_settles_scope]. Qed.

(** ** Building again *)
Lemma native_any_scope : forall mt d sc, fd_type d = FtGlobEx -> build_native mt (with_scope sc d) = build_native mt d.
Proof. intros mt d sc T. unfold build_native. cbn [fd_type with_scope]. rewrite T. reflexivity. Qed.
Lemma native_again : forall mt d, build_native mt (native_settles d) = build_native mt d.
Proof.
  intros mt d. unfold native_settles. destruct (fd_type d) eqn:T; try reflexivity.
  destruct (split_globex (fd_pattern d)); [apply native_any_scope, T|reflexivity].
Qed.
(** [like]: the same, unless an extended glob, whose scope does not matter *)
Definition like (a b : filter_def) : Prop := but_scope a b /\ (fd_type a = FtGlobEx \/ a = b).
Lemma like_native : forall mt a b, like a b -> build_native mt a = build_native mt b.
Proof. intros mt a b [[sc E] [T|H]]; [|congruence]. rewrite E. symmetry. apply native_any_scope, T. Qed.
Lemma like_settles : forall fo d, like d (constituent_settles fo d).
Proof.
  intros fo d. split; [apply constituent_settles_scope|]. unfold constituent_settles, native_settles.
  destruct (fo_custom fo); [right; reflexivity|]. destruct (fd_type d); auto.
Qed.
Lemma constituent_again : forall mt a b fo fo', like a b -> fo_custom fo = fo_custom fo' ->
  build_constituent mt a fo = build_constituent mt b fo'.
Proof. intros mt a b fo fo' L C. unfold build_constituent, get_custom. rewrite C, (like_native mt a b L). reflexivity. Qed.
Lemma like_refl : forall d, like d d.
Proof. intro d. split; [apply but_scope_refl|right; reflexivity]. Qed.
(** Enforcing the scopes again, after the native builder had its way *)
Lemma enforce_file_again : forall fo d, like (enforce_file d) (enforce_file (constituent_settles fo (enforce_file d))).
Proof.
  intros fo d. destruct (like_settles fo (enforce_file d)) as [[sc E] K]. split.
  - rewrite E. unfold enforce_file. eexists. reflexivity.
  - destruct K as [T|E2]; [left; exact T|right]. rewrite <- E2. unfold enforce_file. cbn [fd_scope with_scope]. rewrite set_clear_again. reflexivity.
Qed.
Lemma enforce_directory_again : forall fo d, like (enforce_directory d) (enforce_directory (constituent_settles fo (enforce_directory d))).
Proof.
  intros fo d. destruct (like_settles fo (enforce_directory d)) as [[sc E] K]. split.
  - rewrite E. unfold enforce_directory. eexists. reflexivity.
  - destruct K as [T|E2]; [left; exact T|right]. rewrite <- E2. unfold enforce_directory. cbn [fd_scope with_scope]. rewrite set_clear_again. reflexivity.
Qed.
Lemma enforce_directory_twice : forall d, enforce_directory (enforce_directory d) = enforce_directory d.
Proof. intros. unfold enforce_directory. cbn [fd_scope with_scope]. rewrite set_clear_again. reflexivity. Qed.
Lemma enforce_file_twice : forall d, enforce_file (enforce_file d) = enforce_file d.
Proof. intros. unfold enforce_file. cbn [fd_scope with_scope]. rewrite set_clear_again. reflexivity. Qed.
Lemma settles_type : forall fo d, fd_type (constituent_settles fo d) = fd_type d.
Proof. intros fo d. destruct (constituent_settles_scope fo d) as [sc ->]. reflexivity. Qed.

(** buildPolyNodeFilter, by the pair of definitions it finds *)
Definition poly_from (mt : matchers) (fo : filter_options) (p : filter_def * filter_def) : outcome (option nfilter * option error) :=
  let fd' := enforce_file (fst p) in
  let dd' := enforce_directory (snd p) in
  if is_poly_type (fd_type fd') then Ret (None, Some err_poly_invalid) else
  match build_constituent mt fd' fo with
  | Ret (Some ff, None) =>
      if is_poly_type (fd_type dd') then Ret (None, Some err_poly_invalid) else
      match build_constituent mt dd' fo with
      | Ret (Some df, None) => Ret (Some (NfPoly ff df), None)
      | x => x
      end
  | x => x
  end.
Lemma build_poly_from : forall mt d fo, build_poly mt d fo =
  if is_poly_type (fd_type d) then
    match fo_node fo with
    | None => Pan nil_deref
    | Some nd => match fd_poly nd with None => Pan nil_deref | Some p => poly_from mt fo p end
    end
  else Ret (None, None).
Proof. intros. unfold build_poly. destruct (is_poly_type (fd_type d)); [|reflexivity]. destruct (fo_node fo) as [nd|]; [|reflexivity].
  destruct (fd_poly nd) as [[a b]|]; reflexivity. Qed.
Lemma poly_from_again : forall mt fo fo' p, fo_custom fo = fo_custom fo' ->
  poly_from mt fo' (poly_settles mt fo p) = poly_from mt fo p.
Proof.
  intros mt fo fo' [a b] C. unfold poly_settles. cbn [fst snd].
  destruct (is_poly_type (fd_type (enforce_file a))) eqn:PF.
  - unfold poly_from. cbn [fst snd]. rewrite enforce_file_twice, PF. reflexivity.
  - destruct (build_constituent mt (enforce_file a) fo) as [[[ff|] [e|]]|q|] eqn:BF;
      unfold poly_from; cbn [fst snd];
      replace (is_poly_type (fd_type (enforce_file (constituent_settles fo (enforce_file a))))) with false
        by (change (fd_type (enforce_file (constituent_settles fo (enforce_file a)))) with (fd_type (constituent_settles fo (enforce_file a)));
            rewrite settles_type, PF; reflexivity);
      rewrite <- (constituent_again mt _ _ fo fo' (enforce_file_again fo a) C), PF, BF; try reflexivity.
    destruct (is_poly_type (fd_type (enforce_directory b))) eqn:PD.
    + rewrite enforce_directory_twice, PD. reflexivity.
    + replace (is_poly_type (fd_type (enforce_directory (constituent_settles fo (enforce_directory b))))) with false
        by (change (fd_type (enforce_directory (constituent_settles fo (enforce_directory b)))) with (fd_type (constituent_settles fo (enforce_directory b)));
            rewrite settles_type, PD; reflexivity).
      rewrite <- (constituent_again mt _ _ fo fo' (enforce_directory_again fo b) C). reflexivity.
Qed.
Lemma node_settles_fields : forall mt fo d, fd_type (node_settles mt fo d) = fd_type d /\ fd_pattern (node_settles mt fo d) = fd_pattern d.
Proof.
  intros mt fo d. unfold node_settles. destruct (is_poly_type (fd_type d)).
  - destruct (fd_poly d); split; reflexivity.
  - destruct (constituent_settles_scope fo d) as [sc ->]. split; reflexivity.
Qed.
(** [x]: any definition, also one for hibernation *)
Lemma new_filter_again : forall mt fo d x, fo_node fo = Some d ->
  new_filter mt x (with_node (node_settles mt fo d) fo) = new_filter mt x fo.
Proof.
  intros mt fo d x N. unfold new_filter. set (fo' := with_node (node_settles mt fo d) fo).
  assert (BP : build_poly mt x fo' = build_poly mt x fo).
  { rewrite !build_poly_from. destruct (is_poly_type (fd_type x)); [|reflexivity]. cbn [fo_node fo' with_node]. rewrite N.
    unfold node_settles. destruct (is_poly_type (fd_type d)) eqn:P.
    - destruct (fd_poly d) as [p|] eqn:FP; [|rewrite FP; reflexivity].
      cbn [fd_poly with_poly]. apply poly_from_again. reflexivity.
    - destruct (constituent_settles_scope fo d) as [sc ->]. cbn [fd_poly with_scope].
      destruct (fd_poly d) as [[a b]|]; [|reflexivity]. unfold poly_from. cbn [fst snd].
      rewrite !(constituent_again mt _ _ fo' fo (like_refl _) eq_refl). reflexivity. }
  unfold or_func. rewrite BP. reflexivity.
Qed.
Lemma new_filter_self : forall mt fo d, fo_node fo = Some d -> fo_custom fo = None ->
  new_filter mt (node_settles mt fo d) fo = new_filter mt d fo.
Proof.
  intros mt fo d N C. unfold new_filter. cbn [or_func]. rewrite !build_poly_from.
  rewrite (proj1 (node_settles_fields mt fo d)). unfold node_settles. destruct (is_poly_type (fd_type d)) eqn:P.
  - rewrite N. destruct (fd_poly d) as [p|] eqn:FP; [|reflexivity].
    destruct (poly_from mt fo p) as [[[f|] [e|]]|q|]; try reflexivity.
  - unfold constituent_settles. rewrite C. rewrite native_again. reflexivity.
Qed.

(** ** The options as a whole *)
Lemma settle_cases : forall mt fo, options_settle mt fo = fo \/
  exists d, fo_custom fo = None /\ fo_node fo = Some d /\ node_active fo = true /\
    options_settle mt fo = with_node (node_settles mt fo d) fo.
Proof.
  intros mt fo. unfold options_settle. destruct (fo_custom fo) eqn:C; [left; reflexivity|].
  destruct (fo_node fo) as [d|] eqn:N; [|left; reflexivity].
  destruct (node_active fo) eqn:A; [|left; reflexivity]. right. exists d. unfold with_node. rewrite C. auto.
Qed.
Lemma settle_new_filter : forall mt fo x, new_filter mt x (options_settle mt fo) = new_filter mt x fo.
Proof.
  intros mt fo x. destruct (settle_cases mt fo) as [->|(d & C & N & A & ->)]; [reflexivity|]. apply new_filter_again, N.
Qed.
Lemma settle_node_active : forall mt fo, node_active (options_settle mt fo) = node_active fo.
Proof.
  intros mt fo. destruct (settle_cases mt fo) as [->|(d & C & N & A & ->)]; [reflexivity|]. unfold node_active, with_node. cbn [fo_node]. rewrite N.
  unfold node_settles. destruct (is_poly_type (fd_type d)).
  - destruct (fd_poly d) as [p|] eqn:E; [|rewrite E; reflexivity]. cbn [fd_pattern fd_poly with_poly]. rewrite !orb_true_r. reflexivity.
  - destruct (constituent_settles_scope fo d) as [sc ->]. reflexivity.
Qed.
Lemma settle_others : forall mt fo, fo_custom (options_settle mt fo) = fo_custom fo /\
  fo_child (options_settle mt fo) = fo_child fo /\ fo_sample (options_settle mt fo) = fo_sample fo.
Proof.
  intros mt fo. destruct (settle_cases mt fo) as [->|(d & C & N & A & ->)]; repeat split.
Qed.
Lemma settle_active : forall mt fo, filtering_active (options_settle mt fo) = filtering_active fo.
Proof.
  intros mt fo. destruct (settle_others mt fo) as (C & H & S). unfold filtering_active, child_active, sample_active, custom_active.
  rewrite settle_node_active, C, H, S. reflexivity.
Qed.
Lemma settle_primary : forall mt fo so, primary_create mt (options_settle mt fo) so = primary_create mt fo so.
Proof.
  intros mt fo so. unfold primary_create. destruct (settle_others mt fo) as (C & _ & S). rewrite C, S, settle_node_active.
  destruct (fo_custom fo) eqn:CU; [reflexivity|]. destruct (node_active fo) eqn:A; [|reflexivity].
  destruct (settle_cases mt fo) as [->|(d & _ & N & _ & E)]; [reflexivity|]. rewrite E, N. cbn [fo_node with_node].
  unfold native_create. rewrite new_filter_again by exact N. rewrite new_filter_self by assumption. reflexivity.
Qed.
Lemma settle_scheme : forall mt fo so, scheme_create mt (options_settle mt fo) so = scheme_create mt fo so.
Proof.
  intros mt fo so. unfold scheme_create. rewrite settle_primary. unfold child_active. destruct (settle_others mt fo) as (_ & H & _).
  rewrite H. reflexivity.
Qed.
Lemma settle_hib : forall mt ho fo, hib_of mt ho (options_settle mt fo) = hib_of mt ho fo.
Proof.
  intros mt ho fo. unfold hib_of. destruct (ho_wake ho) as [w|], (ho_sleep ho) as [s|]; rewrite ?settle_new_filter; reflexivity.
Qed.
Lemma settle_plan : forall mt fo so ho, plan mt (options_settle mt fo) so ho = plan mt fo so ho.
Proof.
  intros mt fo so ho. unfold plan. rewrite settle_active, settle_hib, <- !scheme_create_fst, settle_scheme. reflexivity.
Qed.
(** [settled_in mt o]: the options, the client's definition being settled *)
Definition settled_in (mt : matchers) (o : options) : options := set_filter (options_settle mt (op_filter o)) o.
Lemma settle_plugins : forall mt o sub tree cl,
  fst (build_plugins mt (settled_in mt o) sub tree cl) = fst (build_plugins mt o sub tree cl).
Proof.
  intros mt [b so fo ho co ev hk df] sub tree cl. unfold settled_in, set_filter, build_plugins.
  cbn [op_behaviours op_sampling op_filter op_hib op_conc op_events op_hooks op_defects].
  rewrite settle_active, <- !scheme_create_fst, settle_scheme.
  match goal with |- fst (match ?x with _ => _ end) = _ => generalize x end.
  intros [[made err]|q|]; try reflexivity.
  destruct made as [[[[f|m|m]|] ch]|]; destruct err; try reflexivity; unfold chain_read; cbn [op_behaviours op_sampling op_filter op_hib op_conc op_events op_hooks op_defects set_hooks];
    rewrite ?settle_hib; (destruct (hib_active ho); [destruct (hib_of mt ho fo)|]); try reflexivity; destruct (sampling_active so); reflexivity.
Qed.

Definition settles_to (mt : matchers) (o o' : options) : Prop := o' = o \/ o' = settled_in mt o.
Lemma settles_apply : forall env mt w o o', settles_to mt o o' -> settles_to mt (with_apply env w o) (with_apply env w o').
Proof.
  intros env mt w o o' [->| ->]; [left; reflexivity|]. destruct w; try (right; reflexivity). left. reflexivity.
Qed.
Lemma settles_applies : forall env mt ws o o', settles_to mt o o' ->
  exists p p', apply (options_of env ws) o = (p, None) /\ apply (options_of env ws) o' = (p', None) /\ settles_to mt p p'.
Proof.
  intros env mt ws. induction ws as [|w ws IH]; intros o o' H; [eexists _, _; cbn; auto|].
  cbn. apply IH, settles_apply, H.
Qed.
Lemma settles_afterwards : forall mt o o', settles_to mt o o' -> settles_to mt (afterwards o) (afterwards o').
Proof.
  intros mt o o' [->| ->]; [left; reflexivity|right]. unfold afterwards, settled_in. cbn [op_behaviours op_conc set_filter].
  destruct (bh_no_recurse (op_behaviours o)); reflexivity.
Qed.
Lemma settles_built : forall mt o o' sub tree cl, settles_to mt o o' ->
  fst (build_plugins mt o' sub tree cl) = fst (build_plugins mt o sub tree cl).
Proof. intros mt o o' sub tree cl [->| ->]; [reflexivity|apply settle_plugins]. Qed.
Lemma applies_app : forall env a b o p, apply (options_of env a) o = (p, None) ->
  apply (options_of env (a ++ b)) o = apply (options_of env b) p.
Proof.
  intros env a. induction a as [|w a IH]; intros b o p H; [injection H as <-; reflexivity|]. cbn in *. apply IH, H.
Qed.
Lemma walk_again : forall env mt u pre fo post t,
  walk_prime env mt (FacUsing u) (options_of env (pre ++ WithFilter (options_settle mt fo) :: post)) t =
  walk_prime env mt (FacUsing u) (options_of env (pre ++ WithFilter fo :: post)) t.
Proof.
  intros env mt u pre fo post t. unfold walk_prime, build_prime, prime_options. destruct (us_options u); [reflexivity|].
  unfold get_options.
  destruct (settles_applies env mt pre _ _ (or_introl eq_refl : settles_to mt (default_options env) (default_options env))) as (p & _ & A & _).
  rewrite !(applies_app env pre _ _ p A). cbn [options_of map apply with_setting with_apply].
  change (map (fun w => Some (with_setting env w)) post) with (options_of env post).
  destruct (settles_applies env mt post (set_filter fo p) (set_filter (options_settle mt fo) p)) as (q & q' & -> & -> & S); [right; reflexivity|].
  destruct (using_validate u); [reflexivity|]. destruct (us_sub u) as [sub|], (us_handler u) as [cl|]; try reflexivity.
  rewrite (settles_built mt _ _ sub (us_tree u) cl (settles_afterwards mt _ _ S)). reflexivity.
Qed.
Lemma walk_again_given : forall env mt u o ss t, us_options u = Some o ->
  walk_prime env mt (FacUsing (mkUsing (us_tree u) (us_sub u) (us_handler u) (Some (settled_in mt o)))) ss t =
  walk_prime env mt (FacUsing u) ss t.
Proof.
  intros env mt u o ss t E. unfold walk_prime, build_prime, prime_options, using_validate. cbn [us_options us_tree us_sub us_handler facade_tree]. rewrite E.
  destruct (if String.eqb (us_tree u) EmptyString then _ else _); [reflexivity|]. destruct (us_sub u) as [sub|], (us_handler u) as [cl|]; try reflexivity.
  assert (S : settles_to mt (push_options o) (push_options (settled_in mt o))) by (right; reflexivity).
  rewrite (settles_built mt _ _ sub (us_tree u) cl (settles_afterwards mt _ _ S)). reflexivity.
Qed.

(** Only scopes change. *)
Lemma node_settles_scopes : forall mt fo d, but_scopes d (node_settles mt fo d).
Proof.
  intros mt fo d. unfold node_settles. destruct (is_poly_type (fd_type d)).
  - destruct (fd_poly d) as [[a b]|] eqn:P; unfold but_scopes.
    + rewrite P. cbn [fd_poly with_poly].
      assert (X : but_scope a (fst (poly_settles mt fo (a, b))) /\ but_scope b (snd (poly_settles mt fo (a, b)))).
      { assert (EA : but_scope a (enforce_file a)) by (eexists; reflexivity).
        assert (EB : but_scope b (enforce_directory b)) by (eexists; reflexivity).
        pose proof (but_scope_trans _ _ _ EA (constituent_settles_scope fo _)) as CA.
        pose proof (but_scope_trans _ _ _ EB (constituent_settles_scope fo _)) as CB.
        unfold poly_settles. cbn [fst snd]. destruct (is_poly_type _); [split; assumption|].
        destruct (build_constituent mt (enforce_file a) fo) as [[[f|] [e|]]|q|]; cbn [fst snd]; split; try assumption.
        destruct (is_poly_type _); assumption. }
      destruct (poly_settles mt fo (a, b)) as [a' b']. cbn [fst snd] in X. destruct X as [XA XB].
      split; [exact XA|]. split; [exact XB|]. exists (fd_scope d). reflexivity.
    + rewrite P. apply but_scope_refl.
  - destruct (constituent_settles_scope fo d) as [sc ->]. unfold but_scopes. cbn [fd_poly with_scope].
    destruct (fd_poly d) as [[a b]|]; [|exists sc; reflexivity].
    split; [apply but_scope_refl|]. split; [apply but_scope_refl|]. exists sc. reflexivity.
Qed.

(** ** Replies of a session *)
Lemma replies_settled : forall env mt u ws, us_options u = None -> complete_facade u ->
  prime_replies env mt (FacUsing u) (options_of env ws) =
  if filtering_active (latest sets_filter ws no_filter)
  then snd (scheme_create mt (latest sets_filter ws no_filter) (latest sets_sampling ws no_sampling)) else [].
Proof.
  intros env mt u ws NO CF. destruct (get_options env (options_of env ws)) as [o e] eqn:G.
  destruct (with_effective _ _ _ _ G) as [-> EF]. unfold prime_replies, prime_options. apply using_valid in CF as V. rewrite NO, G, V.
  destruct CF as (_ & S & H). destruct (us_sub u); [|contradiction]. destruct (us_handler u); [|contradiction].
  unfold effective in EF. destruct EF as (_ & _ & _ & _ & E5 & E6 & _).
  destruct (afterwards_fields o) as (A1 & A2 & _). unfold replies_of. rewrite A1, A2, E5, E6. reflexivity.
Qed.
Lemma replies_snoc : forall env mt u ws sub fo, ordinary u ws sub ->
  prime_replies env mt (FacUsing u) (options_of env (ws ++ [WithFilter fo])) =
  if filtering_active fo then snd (scheme_create mt fo (latest sets_sampling ws no_sampling)) else [].
Proof.
  intros env mt u ws sub fo O. rewrite replies_settled; [|apply O|exact (ordinary_facade _ _ _ O)].
  rewrite !latest_snoc. reflexivity.
Qed.
Lemma simple_native : forall mt d fo, simple d -> fo_custom fo = None ->
  new_filter mt d fo = match build_native mt d with (Some f, None) => Ret (Some f, None) | (_, Some e) => Ret (None, Some e) | _ => Ret (None, None) end.
Proof.
  intros mt d fo S C. rewrite new_filter_native; [|exact C|destruct S as [E|[E|E]]; rewrite E; discriminate]. destruct (build_native mt d) as [[f|] [e|]]; reflexivity.
Qed.
Lemma simple_answers : forall mt d f n, simple d -> build_native mt d = (Some f, None) -> is_match mt f (Some n) = Ret (matches mt f n).
Proof.
  intros mt d f n S B. unfold build_native in B. destruct S as [T|[T|T]]; rewrite T in B.
  - injection B as <-. reflexivity.
  - destruct (mt_regex mt (fd_pattern d)); [injection B as <-; reflexivity|discriminate].
  - destruct (split_globex _) as [[seg pats]|]; [|discriminate]. destruct (split_glob seg). destruct (new_specs pats) as [sp [e|]]; [discriminate|].
    injection B as <-. reflexivity.
Qed.

Lemma simple_says : forall mt d f cd cs cn, simple d -> build_native mt d = (Some f, None) ->
  nf_description cd f = fd_desc d /\ nf_source cs f = fd_pattern d /\ nf_scope cn f = scope_used d.
Proof.
  intros mt d f cd cs cn S B. unfold build_native in B. unfold scope_used. destruct S as [T|[T|T]]; rewrite T in *.
  - injection B as <-. unfold nf_description, nf_source, nf_scope, base_validate, base_of. cbn [fb_scope].
    unfold ScopeUndefined. destruct (fd_scope d =? 0)%N; repeat split.
  - destruct (mt_regex mt (fd_pattern d)); [|discriminate]. injection B as <-. unfold nf_description, nf_source, nf_scope, base_validate, base_of. cbn [fb_scope].
    unfold ScopeUndefined. destruct (fd_scope d =? 0)%N; repeat split.
  - destruct (split_globex _) as [[seg pats]|]; [|discriminate]. destruct (split_glob seg). destruct (new_specs pats) as [sp [e|]]; [discriminate|].
    injection B as <-. repeat split.
Qed.
Lemma scheme_only_node : forall mt d so, node_active (only_node d) = true ->
  scheme_create mt (only_node d) so =
    match native_create mt d (only_node d) with
    | (Ret (p, e), rs) => (Ret (p, None, e), rs) | (Pan q, rs) => (Pan q, rs) | (Stuck, rs) => (Stuck, rs) end.
Proof.
  intros mt d so A. unfold scheme_create, primary_create. rewrite A. cbn [fo_custom only_node fo_node].
  destruct (native_create mt d (mkFilterOptions (Some d) None None None)) as [[[p [e|]]|q|] rs] eqn:N;
    change (only_node d) with (mkFilterOptions (Some d) None None None); rewrite N; reflexivity.
Qed.
Lemma node_reported : forall env mt u ws t sub d, ordinary u ws sub -> sub <> SubDirectoriesWithFiles ->
  simple d -> fd_pattern d <> EmptyString ->
  let ss := options_of env (ws ++ [WithFilter (only_node d)]) in
  (exists e, prime_replies env mt (FacUsing u) ss = [] /\
     walk_prime env mt (FacUsing u) ss t = mkReport (Ret (Some e)) [] None) \/
  (exists f, prime_replies env mt (FacUsing u) ss = [RpNode (Some f)] /\
     (forall cd cs cn, nf_description cd f = fd_desc d /\ nf_source cs f = fd_pattern d /\ nf_scope cn f = scope_used d) /\
     selected (matches mt f) (fun n => n) (walk_prime env mt (FacUsing u) ss t)
       (walk_prime env mt (FacUsing u) (options_of env (ws ++ [WithFilter no_filter])) t)).
Proof.
  intros env mt u ws t sub d OR ND S P ss. pose proof (active_pattern d P) as A. unfold ss.
  rewrite (replies_snoc env mt u ws sub _ OR). assert (FA : filtering_active (only_node d) = true) by (unfold filtering_active; rewrite A; reflexivity).
  rewrite FA, (scheme_only_node _ _ _ A). unfold native_create.
  pose proof (simple_native mt d (only_node d) S eq_refl) as NF.
  destruct (build_native mt d) as [of [e|]] eqn:B.
  - left. exists e. assert (NF' : new_filter mt d (only_node d) = Ret (None, Some e)) by (rewrite NF; destruct of; reflexivity).
    rewrite NF'. split; [reflexivity|]. destruct (got env ws (only_node d)) as [o G].
    eapply (refused_filter env mt u ws t sub OR); [exact G|exact FA|]. rewrite <- scheme_create_fst, (scheme_only_node _ _ _ A).
    unfold native_create. rewrite NF'. reflexivity.
  - destruct of as [f|].
    + right. exists f. rewrite NF. split; [reflexivity|]. split; [intros; exact (simple_says mt d f cd cs cn S B)|].
      apply (run_selected env mt u ws t sub OR ND d f (matches mt f) A NF). intros n _. exact (simple_answers mt d f n S B).
    + exfalso. unfold build_native in B. destruct S as [T|[T|T]]; rewrite T in B; [discriminate|destruct (mt_regex mt (fd_pattern d)); discriminate|].
      destruct (split_globex _) as [[seg pats]|]; [|discriminate]. destruct (split_glob seg). destruct (new_specs pats) as [sp [x|]]; discriminate.
Qed.

(** At most one reply of each kind, the node filter's first. *)
Lemma replies_shape : forall mt fo so, exists a b, snd (scheme_create mt fo so) = (a ++ b)%list /\
  (a = [] \/ exists f, a = [RpNode f]) /\ (b = [] \/ exists m, b = [RpChild m]).
Proof.
  intros mt fo so. unfold scheme_create.
  assert (PA : snd (primary_create mt fo so) = [] \/ exists f, snd (primary_create mt fo so) = [RpNode f]).
  { destruct (primary_replies mt fo so) as [E|(d & f & _ & _ & _ & _ & E)]; [left; exact E|right; exists f; rewrite E; reflexivity]. }
  destruct (primary_create mt fo so) as [[[p [e|]]|q|] rs]; cbn [snd] in PA;
    [exists rs, []; rewrite app_nil_r; auto| |exists rs, []; rewrite app_nil_r; auto|exists rs, []; rewrite app_nil_r; auto].
  destruct (if child_active fo then fo_child fo else None) as [d|].
  - unfold nanny_create. destruct (new_child mt d) as [m [e|]]; cbn [snd].
    + exists rs, []. auto.
    + exists rs, [RpChild m]. eauto 6.
  - exists rs, []. rewrite app_nil_r. auto.
Qed.
(** What is reported is what the kernel asks. *)
Lemma reported_asked : forall mt fo so p ch, fst (scheme_create mt fo so) = Ret (p, ch, None) ->
  (forall f, In (RpNode f) (snd (scheme_create mt fo so)) -> p = Some (CrNode f)) /\
  (forall m, In (RpChild m) (snd (scheme_create mt fo so)) -> ch = Some (CrChild m)).
Proof.
  intros mt fo so p ch E. unfold scheme_create in *.
  destruct (primary_create mt fo so) as [[[p' [e|]]|q|] rs] eqn:PC; cbn [fst snd] in *; try discriminate.
  assert (R : rs = [] \/ exists f, p' = Some (CrNode f) /\ rs = [RpNode f]).
  { destruct (primary_replies mt fo so) as [N|(d & f & _ & _ & _ & _ & N)]; rewrite PC in N; [left; exact N|].
    injection N as N1 N2. right. exists f. auto. }
  destruct (if child_active fo then fo_child fo else None) as [d|]; cbn [fst snd] in *.
  - unfold nanny_create in *. destruct (new_child mt d) as [m [e|]]; cbn [fst snd] in *; [discriminate|]. injection E as <- <-.
    destruct R as [->|(f & -> & ->)]; cbn; split; intros x H; repeat destruct H as [H|H]; try discriminate; try contradiction; congruence.
  - injection E as <- <-. destruct R as [->|(f & -> & ->)]; cbn; split; intros x H; repeat destruct H as [H|H]; try discriminate; try contradiction; congruence.
Qed.

(** The child filter. *)
Lemma child_reported : forall env mt u ws t sub, ordinary u ws sub -> undisturbed env ws t ->
  sub = SubDirectories \/ sub = SubDirectoriesWithFiles -> subpath_blind ws ->
  forall od cd, node_part_ok mt od -> child_compiles mt cd -> cd_pattern cd <> EmptyString ->
  exists rs m, prime_replies env mt (FacUsing u) (options_of env (ws ++ [WithFilter (with_child od cd)])) = (rs ++ [RpChild (Some m)])%list /\
    (forall l, m l = filter (fun e => child_keeps mt cd (fname e)) l) /\
    match od with
    | None => rs = []
    | Some d => exists f, rs = [RpNode (Some f)] /\ forall n, scope_ok n -> matches mt f n = accepts mt d n
    end.
Proof.
  intros env mt u ws t sub OR UD SB HB od cd NP CC PA. rewrite (replies_snoc env mt u ws sub _ OR).
  destruct (child_builds mt cd CC) as (m & NC & M).
  assert (FA : filtering_active (with_child od cd) = true) by (unfold filtering_active; rewrite (child_active_pattern od cd PA), orb_true_r; reflexivity).
  rewrite FA. unfold scheme_create, primary_create. rewrite (child_active_pattern od cd PA). cbn [fo_custom fo_node fo_sample fo_child with_child].
  unfold nanny_create. rewrite NC. destruct od as [d|].
  - destruct NP as [C P]. assert (NA : node_active (with_child (Some d) cd) = true).
    { unfold node_active. cbn. destruct (String.eqb_spec (fd_pattern d) ""); [contradiction|reflexivity]. }
    rewrite NA. unfold native_create.
    assert (NF : exists f, new_filter mt d (mkFilterOptions (Some d) (Some cd) None None) = Ret (Some f, None)).
    { destruct (compiles_builds _ _ C) as [f B]. exists f. rewrite new_filter_native; [rewrite B; reflexivity|reflexivity|].
      destruct (compiles_type _ _ C) as [E|E]; rewrite E; discriminate. }
    destruct NF as [f NF]. change (with_child (Some d) cd) with (mkFilterOptions (Some d) (Some cd) None None). rewrite NF. cbn [snd].
    exists [RpNode (Some f)], m. split; [reflexivity|]. split; [exact M|]. exists f. split; [reflexivity|]. intros n SO.
    unfold matches. rewrite (new_filter_accepts mt d (mkFilterOptions (Some d) (Some cd) None None) f n eq_refl (compiles_type mt d C) SO NF). reflexivity.
  - unfold node_active. cbn [fo_node with_child snd]. exists [], m. repeat split. exact M.
Qed.

(** ** For the statements *)
Lemma delivered_is_asked : forall mt o sub tree cl c smp, fst (build_plugins mt o sub tree cl) = BuildReady c smp ->
  (forall f, In (RpNode f) (replies_of mt o) -> exists sc, c_scheme c = Some sc /\ sc_primary sc = Some (PrimaryNode (answer_of mt f))) /\
  (forall m, In (RpChild (Some m)) (replies_of mt o) -> exists sc, c_scheme c = Some sc /\ exists g, sc_child sc = Some g /\ forall l, g l = inl (m l)).
Proof.
  intros mt o sub tree cl c smp B. unfold replies_of. pose proof (plugins_plan mt o sub tree cl) as P. unfold plan in P.
  destruct (filtering_active (op_filter o)); [|split; intros x []].
  destruct (create_scheme mt (op_filter o) (op_sampling o)) as [[[p ch] [e|]]|q|] eqn:CS; try (exfalso; exact (P c smp B)).
  rewrite <- scheme_create_fst in CS. destruct (reported_asked mt _ _ p ch CS) as [RN RC].
  destruct (if hib_active (op_hib o) then _ else _) as [hb|]; [|exfalso; exact (P c smp B)].
  rewrite P in B. cbn [fst] in B. injection B as <- _. unfold cfg_of. cbn [c_scheme].
  split.
  - intros f I. rewrite (RN f I). eexists. split; reflexivity.
  - intros m I. rewrite (RC _ I). eexists. split; [reflexivity|]. eexists. split; [reflexivity|]. reflexivity.
Qed.
Lemma not_delivered : forall env mt u ws sub, ordinary u ws sub ->
  (forall cu, prime_replies env mt (FacUsing u) (options_of env (ws ++ [WithFilter (own_filter cu)])) = []) /\
  (forall sd, prime_replies env mt (FacUsing u) (options_of env (ws ++ [WithFilter (only_sample sd)])) = []).
Proof.
  intros env mt u ws sub OR. split; intro x; rewrite (replies_snoc env mt u ws sub _ OR); cbn [filtering_active];
    unfold scheme_create, primary_create; cbn.
  - destruct (cu_validate x); reflexivity.
  - unfold sampler_create. destruct (new_sample mt x _) as [[m|] [e|]]; reflexivity.
Qed.
Lemma delivered_although_refused : forall env mt u ws t sub, ordinary u ws sub ->
  forall d cd, compiles mt d -> fd_pattern d <> EmptyString -> cd_type cd = FtGlobEx -> cd_pattern cd <> EmptyString ->
  let ss := options_of env (ws ++ [WithFilter (with_child (Some d) cd)]) in
  (exists f, prime_replies env mt (FacUsing u) ss = [RpNode (Some f)]) /\
  walk_prime env mt (FacUsing u) ss t = mkReport (Ret (Some err_child_globex)) [] None.
Proof.
  intros env mt u ws t sub OR d cd C P T PA ss. unfold ss. rewrite (replies_snoc env mt u ws sub _ OR).
  assert (FA : filtering_active (with_child (Some d) cd) = true) by (unfold filtering_active; rewrite (child_active_pattern (Some d) cd PA), orb_true_r; reflexivity).
  assert (NF : exists f, new_filter mt d (with_child (Some d) cd) = Ret (Some f, None)).
  { destruct (compiles_builds _ _ C) as [f B]. exists f. rewrite new_filter_native; [rewrite B; reflexivity|reflexivity|].
    destruct (compiles_type _ _ C) as [E|E]; rewrite E; discriminate. }
  destruct NF as [f NF].
  assert (NA : node_active (with_child (Some d) cd) = true).
  { unfold node_active. cbn. destruct (String.eqb_spec (fd_pattern d) ""); [contradiction|reflexivity]. }
  assert (SC : forall so, scheme_create mt (with_child (Some d) cd) so =
    (Ret (Some (CrNode (Some f)), None, Some err_child_globex), [RpNode (Some f)])).
  { intro so. unfold scheme_create, primary_create. rewrite NA, (child_active_pattern (Some d) cd PA).
    cbn [fo_custom fo_node fo_child with_child]. unfold native_create. change (mkFilterOptions (Some d) (Some cd) None None) with (with_child (Some d) cd).
    rewrite NF. unfold nanny_create, new_child. rewrite T. reflexivity. }
  rewrite FA, SC. split; [exists f; reflexivity|]. destruct (got env ws (with_child (Some d) cd)) as [o G].
  eapply (refused_filter env mt u ws t sub OR); [exact G|exact FA|]. rewrite <- scheme_create_fst, SC. reflexivity.
Qed.
Lemma nil_delivered : forall env mt u ws sub, ordinary u ws sub ->
  forall d, fd_type d = FtCustom -> fd_pattern d <> EmptyString ->
  prime_replies env mt (FacUsing u) (options_of env (ws ++ [WithFilter (only_node d)])) = [RpNode None].
Proof.
  intros env mt u ws sub OR d T P. rewrite (replies_snoc env mt u ws sub _ OR). pose proof (active_pattern d P) as A.
  unfold filtering_active. rewrite A. cbn [orb]. rewrite (scheme_only_node _ _ _ A). unfold native_create.
  rewrite new_filter_native; [|reflexivity|rewrite T; discriminate]. unfold build_native. rewrite T. reflexivity.
Qed.
Lemma constituent_compiles : forall mt d sc fo, compiles mt d -> fo_custom fo = None ->
  exists f, build_constituent mt (with_scope sc d) fo = Ret (Some f, None) /\
    build_native mt (with_scope sc d) = (Some f, None).
Proof.
  intros mt d sc fo C N. unfold build_constituent, get_custom. rewrite N. cbn [or_func option_map].
  destruct C as [T|[T [rex R]]]; unfold build_native; cbn [fd_type fd_pattern with_scope]; rewrite T, ?R; eexists; split; reflexivity.
Qed.
Lemma poly_says : forall mt fd dd f cd cs cn, compiles mt fd -> compiles mt dd ->
  new_filter mt (poly_def fd dd) (only_node (poly_def fd dd)) = Ret (Some f, None) ->
  (nf_description cd f = "Poly - FILE: '" ++ fd_desc fd ++ "', DIRECTORY: '" ++ fd_desc dd ++ "'" /\
  nf_source cs f = fd_pattern fd ++ "##" ++ fd_pattern dd)%string /\
  N.testbit (nf_scope cn f) 4 = true /\ N.testbit (nf_scope cn f) 5 = true /\
  forall cu n, n_isdir n = true -> nf_applicable mt cu f n = false.
Proof.
  intros mt fd dd f cd cs cn CF CD NF. set (fo := only_node (poly_def fd dd)) in *.
  destruct (constituent_compiles mt fd (scope_clear (scope_set (fd_scope fd) ScopeFile) ScopeDirectory) fo CF eq_refl) as (ff & F1 & F2).
  destruct (constituent_compiles mt dd (scope_clear (scope_set (fd_scope dd) ScopeDirectory) ScopeFile) fo CD eq_refl) as (df & D1 & D2).
  assert (SF : forall d, compiles mt d -> forall sc, simple (with_scope sc d)).
  { intros d C sc. destruct (compiles_type _ _ C) as [E|E]; [left|right; left]; exact E. }
  destruct (simple_says mt _ ff cd cs cn (SF _ CF _) F2) as (A1 & A2 & A3).
  destruct (simple_says mt _ df cd cs cn (SF _ CD _) D2) as (B1 & B2 & B3).
  assert (E : f = NfPoly ff df).
  { unfold new_filter, or_func in NF. rewrite build_poly_from in NF. unfold fo in NF at 1. cbn [fd_type poly_def is_poly_type fo_node only_node fd_poly] in NF.
    unfold poly_from in NF. cbn [fst snd] in NF. unfold enforce_file, enforce_directory in NF. cbn [fd_type with_scope] in NF.
    rewrite F1, D1 in NF. destruct (compiles_type _ _ CF) as [E|E], (compiles_type _ _ CD) as [E'|E']; rewrite E, E' in NF; cbn [is_poly_type] in NF; congruence. }
  subst f. cbn [nf_description nf_source nf_scope nf_applicable].
  rewrite A1, A2, A3, B1, B2, B3. split; [split; reflexivity|]. rewrite !N.lor_spec.
  assert (UF : N.testbit (scope_used (with_scope (scope_clear (scope_set (fd_scope fd) ScopeFile) ScopeDirectory) fd)) 4 = true).
  { unfold scope_used, scope_clear, scope_set. cbn [fd_type fd_scope with_scope].
    destruct (compiles_type _ _ CF) as [E|E]; rewrite E; (destruct (_ =? 0)%N; [reflexivity|]); rewrite N.ldiff_spec, N.lor_spec; cbn; apply orb_true_r || rewrite orb_true_r; reflexivity. }
  assert (UD : N.testbit (scope_used (with_scope (scope_clear (scope_set (fd_scope dd) ScopeDirectory) ScopeFile) dd)) 5 = true).
  { unfold scope_used, scope_clear, scope_set. cbn [fd_type fd_scope with_scope].
    destruct (compiles_type _ _ CD) as [E|E]; rewrite E; (destruct (_ =? 0)%N; [reflexivity|]); rewrite N.ldiff_spec, N.lor_spec; cbn; apply orb_true_r || rewrite orb_true_r; reflexivity. }
  rewrite UF, UD. split; [reflexivity|]. split; [apply orb_true_r|]. intros cu n I. rewrite I. reflexivity.
Qed.
Lemma applicable_in_scope : forall mt d f cu n, compiles mt d -> scope_ok n ->
  new_filter mt d (only_node d) = Ret (Some f, None) -> nf_applicable mt cu f n = true <-> in_scope (fd_scope d) n.
Proof.
  intros mt d f cu n C SO NF. rewrite new_filter_native in NF; [|reflexivity|destruct (compiles_type _ _ C) as [E|E]; rewrite E; discriminate].
  rewrite <- in_scope_reflect, <- (applicable_scope d n SO).
  destruct C as [T|[T [rex R]]]; unfold build_native in NF; rewrite T, ?R in NF; injection NF as <-; reflexivity.
Qed.
Lemma only_scopes_change : forall mt fo,
  fo_child (options_settle mt fo) = fo_child fo /\ fo_sample (options_settle mt fo) = fo_sample fo /\
  fo_custom (options_settle mt fo) = fo_custom fo /\
  match fo_node fo, fo_node (options_settle mt fo) with
  | Some d, Some d' => but_scopes d d'
  | None, None => True
  | _, _ => False
  end.
Proof.
  intros mt fo. destruct (settle_others mt fo) as (A & B & C). split; [exact B|]. split; [exact C|]. split; [exact A|].
  destruct (settle_cases mt fo) as [->|(d & _ & N & _ & ->)].
  - destruct (fo_node fo) as [d|]; [|exact I]. unfold but_scopes. destruct (fd_poly d) as [[x y]|]; repeat split; apply but_scope_refl.
  - rewrite N. cbn [fo_node with_node]. apply node_settles_scopes.
Qed.
Lemma others_unchanged : forall mt fo d, fo_node fo = Some d ->
  fd_type d <> FtGlobEx -> fd_type d <> FtPoly -> options_settle mt fo = fo.
Proof.
  intros mt fo d N G P. destruct (settle_cases mt fo) as [->|(d' & C & N' & _ & ->)]; [reflexivity|].
  rewrite N in N'. injection N' as <-. unfold node_settles, constituent_settles, native_settles. rewrite C.
  destruct fo as [fn fc fs fu]. cbn in *. subst. unfold with_node. cbn. destruct (fd_type d); try reflexivity; contradiction.
Qed.
Lemma settles_file_once : forall fo a, constituent_settles fo (enforce_file (constituent_settles fo (enforce_file a))) = constituent_settles fo (enforce_file a).
Proof.
  intros fo a. unfold constituent_settles. destruct (fo_custom fo); [apply enforce_file_twice|].
  unfold native_settles. change (fd_type (enforce_file a)) with (fd_type a). change (fd_pattern (enforce_file a)) with (fd_pattern a).
  destruct (fd_type a) eqn:T; try (change (fd_type (enforce_file (enforce_file a))) with (fd_type a); rewrite T; apply enforce_file_twice).
  destruct (split_globex (fd_pattern a)) eqn:S.
  - change (fd_type (enforce_file (with_scope ScopeFile (enforce_file a)))) with (fd_type a).
    change (fd_pattern (enforce_file (with_scope ScopeFile (enforce_file a)))) with (fd_pattern a). rewrite T, S. reflexivity.
  - change (fd_type (enforce_file (enforce_file a))) with (fd_type a). change (fd_pattern (enforce_file (enforce_file a))) with (fd_pattern a).
    rewrite T, S. apply enforce_file_twice.
Qed.
Lemma settles_directory_once : forall fo a, constituent_settles fo (enforce_directory (constituent_settles fo (enforce_directory a))) = constituent_settles fo (enforce_directory a).
Proof.
  intros fo a. unfold constituent_settles. destruct (fo_custom fo); [apply enforce_directory_twice|].
  unfold native_settles. change (fd_type (enforce_directory a)) with (fd_type a). change (fd_pattern (enforce_directory a)) with (fd_pattern a).
  destruct (fd_type a) eqn:T; try (change (fd_type (enforce_directory (enforce_directory a))) with (fd_type a); rewrite T; apply enforce_directory_twice).
  destruct (split_globex (fd_pattern a)) eqn:S.
  - change (fd_type (enforce_directory (with_scope ScopeFile (enforce_directory a)))) with (fd_type a).
    change (fd_pattern (enforce_directory (with_scope ScopeFile (enforce_directory a)))) with (fd_pattern a). rewrite T, S. reflexivity.
  - change (fd_type (enforce_directory (enforce_directory a))) with (fd_type a). change (fd_pattern (enforce_directory (enforce_directory a))) with (fd_pattern a).
    rewrite T, S. apply enforce_directory_twice.
Qed.
Lemma poly_settles_once : forall mt fo fo' p, fo_custom fo = fo_custom fo' -> poly_settles mt fo' (poly_settles mt fo p) = poly_settles mt fo p.
Proof.
  intros mt fo fo' [a b] C. assert (CS : forall d, constituent_settles fo' d = constituent_settles fo d) by (intro d; unfold constituent_settles; rewrite C; reflexivity).
  unfold poly_settles at 2 3. cbn [fst snd].
  destruct (is_poly_type (fd_type (enforce_file a))) eqn:PF.
  - unfold poly_settles. cbn [fst snd]. rewrite enforce_file_twice, enforce_directory_twice, PF. reflexivity.
  - destruct (build_constituent mt (enforce_file a) fo) as [[[ff|] [e|]]|q|] eqn:BF;
      unfold poly_settles; cbn [fst snd];
      replace (is_poly_type (fd_type (enforce_file (constituent_settles fo (enforce_file a))))) with false
        by (change (fd_type (enforce_file (constituent_settles fo (enforce_file a)))) with (fd_type (constituent_settles fo (enforce_file a)));
            rewrite settles_type, PF; reflexivity);
      rewrite <- (constituent_again mt _ _ fo fo' (enforce_file_again fo a) C), BF, !CS, settles_file_once, ?enforce_directory_twice; try reflexivity.
    destruct (is_poly_type (fd_type (enforce_directory b))) eqn:PD.
    + rewrite enforce_directory_twice, PD. reflexivity.
    + replace (is_poly_type (fd_type (enforce_directory (constituent_settles fo (enforce_directory b))))) with false
        by (change (fd_type (enforce_directory (constituent_settles fo (enforce_directory b)))) with (fd_type (constituent_settles fo (enforce_directory b)));
            rewrite settles_type, PD; reflexivity).
      rewrite settles_directory_once. reflexivity.
Qed.
Lemma native_settles_once : forall d, native_settles (native_settles d) = native_settles d.
Proof.
  intro d. unfold native_settles at 2 3. destruct (fd_type d) eqn:T; try (unfold native_settles; rewrite T; reflexivity).
  destruct (split_globex (fd_pattern d)) eqn:S; unfold native_settles; cbn [fd_type fd_pattern with_scope]; rewrite T, S; reflexivity.
Qed.
Lemma settled_once : forall mt fo, options_settle mt (options_settle mt fo) = options_settle mt fo.
Proof.
  intros mt fo. destruct (settle_cases mt fo) as [E|(d & C & N & A & E)]; [rewrite E; exact E|].
  pose proof (settle_node_active mt fo) as A'. rewrite A in A'. rewrite E in A' |- *. set (fo' := with_node (node_settles mt fo d) fo) in *.
  unfold options_settle. rewrite A'. cbn [fo_custom fo_node fo_child fo_sample fo' with_node]. rewrite C. unfold fo', with_node. rewrite C. f_equal. f_equal.
  fold (with_node (node_settles mt fo d) fo). unfold node_settles at 1. rewrite (proj1 (node_settles_fields mt fo d)).
  unfold node_settles. destruct (is_poly_type (fd_type d)).
  - destruct (fd_poly d) as [p|] eqn:P.
    + cbn [fd_poly with_poly]. unfold with_poly. cbn [fd_type fd_desc fd_pattern fd_scope fd_negate fd_ifna]. f_equal. f_equal.
      apply poly_settles_once. exact C.
    + rewrite P. reflexivity.
  - unfold constituent_settles. cbn [fo_custom]. rewrite C. apply native_settles_once.
Qed.
