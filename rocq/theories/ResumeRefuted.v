(** Witnesses for the refuted resume properties. *)
From Verif Require Import Base Paths PathFacts Level Kernel Defaults Session Spec WalkProps Cases CasesFacts Resume SpecResume ResumeCases.
Local Open Scope string_scope.
Local Open Scope list_scope.

Definition crash (p : string) : cfg := with_client (answer p (CPanic (PVal 1))) (base_cfg SubUniversal).
Definition calm_cfg : cfg := with_client client_nil (base_cfg SubUniversal).
Ltac names := repeat (constructor; cbn [fkids]; intros ? HH; repeat destruct HH as [<-|HH]; try contradiction;
    (split; [apply default_proper; vm_compute; reflexivity|])).

(** r/ {b/ {x}, a}: the directory b is travelled before the file a *)
Definition tree5 : fsnode := Dir "r" [Dir "b" [File "x"]; File "a"].
Definition saved5 : saved := Eval vm_compute in
  match rescues (s_trace (snd (session (crash "/r/b/x") false tree5))) with sv :: _ => sv | [] => mkSaved "" "" true 0 SubFiles metrics0 end.
Example runs5 : paths (session (crash "/r/b/x") false tree5) = ["/r"; "/r/b"; "/r/b/x"] /\
  map n_path (visited (snd (spawn_session calm_cfg false unix_calc (disk_of "/r" tree5) saved5))) = ["/r/b"; "/r/b/x"].
Proof. vm_compute. split; reflexivity. Qed.

Lemma is_in : forall q l, existsb (String.eqb q) l = true -> In q l.
Proof. intros q l H. apply existsb_exists in H. destruct H as (x & I & E). apply String.eqb_eq in E. subst. exact I. Qed.
Lemma not_in : forall q l, existsb (String.eqb q) l = false -> ~ In q l.
Proof.
  intros q l H I. assert (X : existsb (String.eqb q) l = true) by (apply existsb_exists; exists q; split; [exact I|apply String.eqb_refl]).
  congruence.
Qed.

(** A session with default hooks on a well formed tree, whose callback panicked once. *)
Definition interrupted (c : cfg) (pc : pathcalc) (dk : disk) (s : st) (sv : saved) : Prop :=
  hooks_ok c /\ root_ok c (dk (c_tree c)) /\ default_skip c /\ plain c /\ c_sub c = SubUniversal /\ c_depth c = 0%N /\
  stable_sort c /\ (forall q, clean q = q -> sound_at pc q) /\ clean (c_tree c) = c_tree c /\ proper_names (dk (c_tree c)) /\
  snd (session c false (dk (c_tree c))) = s /\ rescues (s_trace s) = [sv] /\
  exists n p pre, calls (s_trace s) = pre ++ [(n, CPanic p)] /\ Forall (fun x => snd x = CNil) pre.
Definition well_formed (p : string) (t : fsnode) : Prop :=
  proper_names (disk_of "/r" t "/r") /\
  (exists sv, rescues (s_trace (snd (session (crash p) false (disk_of "/r" t "/r")))) = [sv]) /\
  exists k, map snd (calls (s_trace (snd (session (crash p) false (disk_of "/r" t "/r"))))) = repeat CNil k ++ [CPanic (PVal 1)].
Lemma crash_interrupted : forall p t, well_formed p t ->
  exists sv, rescues (s_trace (snd (session (crash p) false (disk_of "/r" t "/r")))) = [sv] /\
    interrupted (crash p) unix_calc (disk_of "/r" t) (snd (session (crash p) false (disk_of "/r" t "/r"))) sv.
Proof.
  intros p t (PN & (sv & RS) & k & E). exists sv. split; [exact RS|].
  split; [exact (base_hooks _)|]. split; [reflexivity|]. split; [intros ? ? ?; reflexivity|]. split; [split; reflexivity|].
  split; [reflexivity|]. split; [reflexivity|]. split; [exact (base_stable _)|]. split; [exact unix_sound|].
  split; [vm_compute; reflexivity|]. split; [exact PN|]. split; [reflexivity|]. split; [exact RS|].
  remember (calls (s_trace (snd (session (crash p) false (disk_of "/r" t "/r"))))) as l eqn:EL. clear EL RS PN.
  destruct (@exists_last _ l) as (pre & [n r] & ->).
  { intro X. subst l. destruct k; discriminate. }
  rewrite map_app in E. cbn [map snd] in E. apply app_inj_tail in E. destruct E as [E1 E2]. subst r.
  exists n, (PVal 1), pre. split; [reflexivity|]. clear - E1. revert k E1. induction pre as [|x pre IH]; intros [|k] E1; cbn in *; try discriminate; [constructor|].
  injection E1 as E1 E2. constructor; [exact E1|]. exact (IH k E2).
Qed.

Lemma spawn_misses : exists c pc dk s sv s2 q,
  interrupted c pc dk s sv /\
  spawn_session (with_client client_nil c) false pc dk sv = (Ret None, true, s2) /\
  In q (map n_path (visited (snd (session (with_client client_nil c) false (dk (c_tree c)))))) /\
  ~ In q (map n_path (visited s)) /\ ~ In q (map n_path (visited s2)).
Proof.
  destruct (crash_interrupted "/r/b/x" tree5) as (sv & RS & I).
  { split; [vm_compute; names|]. split; [eexists; vm_compute; reflexivity|]. exists 2. vm_compute. reflexivity. }
  assert (ES : sv = saved5) by (assert (X : [sv] = [saved5]) by (rewrite <- RS; vm_compute; reflexivity); inversion X; reflexivity). subst sv.
  assert (R2 : fst (spawn_session calm_cfg false unix_calc (disk_of "/r" tree5) saved5) = (Ret None, true)) by (vm_compute; reflexivity).
  destruct (spawn_session calm_cfg false unix_calc (disk_of "/r" tree5) saved5) as [x s2] eqn:E2. cbn [fst] in R2. subst x.
  eexists _, _, _, _, _, s2, "/r/a". split; [exact I|]. split; [exact E2|].
  assert (V2 : map n_path (visited s2) = ["/r/b"; "/r/b/x"]).
  { change s2 with (snd (Ret (A := option error) None, true, s2)). rewrite <- E2. vm_compute. reflexivity. }
  split; [apply is_in; vm_compute; reflexivity|]. split; [|rewrite V2]; apply not_in; vm_compute; reflexivity.
Qed.

(** r/ {B/ {x}, a/ {y}}: the default order is a, B, the byte order is B, a *)
Definition tree6 : fsnode := Dir "r" [Dir "B" [File "x"]; Dir "a" [File "y"]].
Definition saved6 : saved := Eval vm_compute in
  match rescues (s_trace (snd (session (crash "/r/B/x") false tree6))) with sv :: _ => sv | [] => mkSaved "" "" true 0 SubFiles metrics0 end.
Example runs6 : paths (session (crash "/r/B/x") false tree6) = ["/r"; "/r/a"; "/r/a/y"; "/r/B"; "/r/B/x"] /\
  map n_path (visited (snd (spawn_session calm_cfg false unix_calc (disk_of "/r" tree6) saved6))) = ["/r/a"; "/r/a/y"; "/r/B"; "/r/B/x"].
Proof. vm_compute. split; reflexivity. Qed.

Lemma spawn_repeats : exists c pc dk s sv s2 q,
  interrupted c pc dk s sv /\
  spawn_session (with_client client_nil c) false pc dk sv = (Ret None, true, s2) /\
  In q (map n_path (visited s)) /\ In q (map n_path (visited s2)) /\ String.prefix (sv_path sv) q = false.
Proof.
  destruct (crash_interrupted "/r/B/x" tree6) as (sv & RS & I).
  { split; [vm_compute; names|]. split; [eexists; vm_compute; reflexivity|]. exists 4. vm_compute. reflexivity. }
  assert (ES : sv = saved6) by (assert (X : [sv] = [saved6]) by (rewrite <- RS; vm_compute; reflexivity); inversion X; reflexivity). subst sv.
  assert (R2 : fst (spawn_session calm_cfg false unix_calc (disk_of "/r" tree6) saved6) = (Ret None, true)) by (vm_compute; reflexivity).
  destruct (spawn_session calm_cfg false unix_calc (disk_of "/r" tree6) saved6) as [x s2] eqn:E2. cbn [fst] in R2. subst x.
  eexists _, _, _, _, _, s2, "/r/a/y". split; [exact I|]. split; [exact E2|].
  assert (V2 : map n_path (visited s2) = ["/r/a"; "/r/a/y"; "/r/B"; "/r/B/x"]).
  { change s2 with (snd (Ret (A := option error) None, true, s2)). rewrite <- E2. vm_compute. reflexivity. }
  split; [apply is_in; vm_compute; reflexivity|]. split; [rewrite V2; apply is_in|]; vm_compute; reflexivity.
Qed.

(** ** Skip requests, and what the nodes of a spawn resume say about themselves *)
Definition saved4 : saved := Eval vm_compute in
  match rescues (s_trace (snd (session cfg4 false tree4))) with sv :: _ => sv | [] => mkSaved "" "" true 0 SubFiles metrics0 end.
Definition disk4_root : fsnode := disk4 "/r".
Definition skipping (p : string) : cfg := with_client (answer p (CErr (Err SkipDir))) (base_cfg SubUniversal).

Definition skip_cfg : cfg := skipping "/r/D".
Lemma skip_walk : map n_path (visited (snd (session skip_cfg false disk4_root))) = ["/r"; "/r/A"; "/r/A/c"; "/r/A/c/y"; "/r/A/c/z"; "/r/A/x"; "/r/D"; "/r/e"] /\
  fst (session skip_cfg false disk4_root) = Ret None.
Proof. vm_compute. split; reflexivity. Qed.
Lemma skip_spawn : fst (spawn_session skip_cfg false unix_calc disk4 saved4) = (Ret (Some (Err SkipDir)), false) /\
  map n_path (visited (snd (spawn_session skip_cfg false unix_calc disk4 saved4))) = ["/r/A/c"; "/r/A/c/y"; "/r/A/c/z"; "/r/A/x"; "/r/D"].
Proof. vm_compute. split; reflexivity. Qed.
Lemma skip_crash : exists s0, interrupted (crash "/r/A/c/y") unix_calc disk4 s0 saved4 /\ existsb (String.eqb "/r/e") (map n_path (visited s0)) = false.
Proof.
  destruct (crash_interrupted "/r/A/c/y" tree4) as (sv & RS & I).
  { split; [vm_compute; names|]. split; [eexists; vm_compute; reflexivity|]. exists 3. vm_compute. reflexivity. }
  assert (ES : sv = saved4) by (assert (X : [sv] = [saved4]) by (rewrite <- RS; vm_compute; reflexivity); inversion X; reflexivity). subst sv.
  eexists. split; [exact I|]. vm_compute. reflexivity.
Qed.
Lemma skip_client : forall tr n, In (c_client skip_cfg tr n) [CNil; CErr (Err SkipDir)].
Proof.
  intros tr n. unfold skip_cfg, skipping, with_client, answer. cbn [c_client].
  destruct (String.eqb (n_path n) "/r/D"); [right; left|left]; reflexivity.
Qed.
Lemma root_skip : disk4 (c_tree skip_cfg) = disk4_root.
Proof. reflexivity. Qed.

Lemma spawn_skip_aborts : exists c c0 pc dk sv s0 s1 s2 q,
  interrupted c0 pc dk s0 sv /\ (forall tr n, In (c_client c tr n) [CNil; CErr (Err SkipDir)]) /\
  session c false (dk (c_tree c)) = (Ret None, s1) /\ In q (map n_path (visited s1)) /\ ~ In q (map n_path (visited s0)) /\
  spawn_session c false pc dk sv = (Ret (Some (Err SkipDir)), false, s2) /\ ~ In q (map n_path (visited s2)).
Proof.
  destruct skip_crash as (s0 & I & N0). destruct skip_walk as [V1 R1]. destruct skip_spawn as [R2 V2].
  exists skip_cfg, (crash "/r/A/c/y"), unix_calc, disk4, saved4, s0. rewrite root_skip.
  destruct (spawn_session skip_cfg false unix_calc disk4 saved4) as [x s2]. cbn [fst snd] in R2, V2. subst x.
  destruct (session skip_cfg false disk4_root) as [x s1]. cbn [fst snd] in R1, V1. subst x.
  exists s1, s2, "/r/e". split; [exact I|]. split; [exact skip_client|].
  split; [reflexivity|]. split; [rewrite V1; apply is_in; reflexivity|].
  split; [apply not_in; exact N0|]. split; [reflexivity|]. rewrite V2. apply not_in. reflexivity.
Qed.

(** the depth, parent and path of the nodes called *)
Definition standing (s : st) : list (string * Z * option string) :=
  map (fun n => (n_path n, n_depth n, option_map n_path (n_parent n))) (visited s).
Example spawned_standing :
  standing (snd (session (base_cfg SubUniversal) false tree4)) =
    [("/r", 0%Z, None); ("/r/A", 1%Z, Some "/r"); ("/r/A/c", 2%Z, Some "/r/A"); ("/r/A/c/y", 3%Z, Some "/r/A/c");
     ("/r/A/c/z", 3%Z, Some "/r/A/c"); ("/r/A/x", 2%Z, Some "/r/A"); ("/r/D", 1%Z, Some "/r"); ("/r/D/w", 2%Z, Some "/r/D");
     ("/r/e", 1%Z, Some "/r")] /\
  standing (snd (spawn_session calm_cfg false unix_calc disk4 saved4)) =
    [("/r/A/c", 2%Z, None); ("/r/A/c/y", 3%Z, Some "/r/A/c");
     ("/r/A/c/z", 3%Z, Some "/r/A/c"); ("/r/A/x", 2%Z, None); ("/r/D", 2%Z, None); ("/r/D/w", 3%Z, Some "/r/D");
     ("/r/e", 2%Z, None)].
Proof. vm_compute. split; reflexivity. Qed.

(** ** Fastward below a relative root *)
(** ./ {b/ {c}, c/ {x}} *)
Definition rel_cfg (cl : list event -> node -> cbres) : cfg :=
  mkCfg SubUniversal 0 false true default_read default_sort default_subpath no_stat_error default_fault
    default_ask (fun _ _ _ => inl "saved") "." None None None cl.
Definition tree7 : fsnode := Dir "." [Dir "b" [File "c"]; Dir "c" [File "x"]].
Definition saved7 : saved := Eval vm_compute in
  match rescues (s_trace (snd (session (rel_cfg (answer "c/x" (CPanic (PVal 1)))) false tree7))) with
  | sv :: _ => sv | [] => mkSaved "" "" true 0 SubFiles metrics0 end.
Lemma dot_early :
  rescues (s_trace (snd (session (rel_cfg (answer "c/x" (CPanic (PVal 1)))) false tree7))) = [saved7] /\
  map n_path (visited (snd (session (rel_cfg (answer "c/x" (CPanic (PVal 1)))) false tree7))) = ["."; "b"; "b/c"; "c"; "c/x"] /\
  sv_path saved7 = "c" /\
  map n_path (visited (snd (fastward_session true (rel_cfg client_nil) false unix_calc (disk_of "." tree7) saved7))) = ["b/c"; "c"; "c/x"].
Proof. vm_compute. repeat split. Qed.

(** ** Notifications of a fastward resume: hibernating until D is met *)
Definition wake_cfg (cl : list event -> node -> cbres) : cfg :=
  let c := with_client cl (base_cfg SubUniversal) in
  mkCfg (c_sub c) (c_depth c) (c_files_first c) (c_keep_sep c) (c_read c) (c_sort c) (c_subpath c)
    (c_stat c) (c_fault c) (c_ask c) (c_rescue c) (c_tree c) None
    (Some (mkHib (Some (fun n => inl (String.eqb (n_name n) "A"))) None true false)) None cl.
Definition kinds (tr : list event) : list (string * string) :=
  flat_map (fun e => match e with
    | EvBegin p => [("begin", p)] | EvDescend n => [("descend", n_path n)] | EvAscend n => [("ascend", n_path n)]
    | EvWake => [("wake", "")] | EvSleep => [("sleep", "")] | EvEnd _ => [("end", "")] | EvCall n _ => [("call", n_path n)]
    | _ => [] end) tr.
Definition tree8 : fsnode := Dir "r" [Dir "A" [Dir "c" [File "y"]]].
Definition saved8 (p : string) : saved := mkSaved "/r" p true 1 SubUniversal metrics0.
Lemma wake_lost :
  kinds (s_trace (snd (session (wake_cfg client_nil) false tree8))) =
    [("begin", "/r"); ("descend", "/r"); ("descend", "/r/A"); ("wake", ""); ("call", "/r/A"); ("descend", "/r/A/c");
     ("call", "/r/A/c"); ("descend", "/r/A/c/y"); ("call", "/r/A/c/y"); ("ascend", "/r/A/c/y"); ("ascend", "/r/A/c");
     ("ascend", "/r/A"); ("ascend", "/r"); ("end", "")] /\
  kinds (s_trace (snd (fastward_session true (wake_cfg client_nil) false unix_calc (disk_of "/r" tree8) (saved8 "/r/A")))) =
    [("call", "/r/A"); ("descend", "/r/A/c");
     ("call", "/r/A/c"); ("descend", "/r/A/c/y"); ("call", "/r/A/c/y"); ("ascend", "/r/A/c/y"); ("ascend", "/r/A/c");
     ("ascend", "/r/A"); ("ascend", "/r"); ("end", "")].
Proof. vm_compute. split; reflexivity. Qed.
