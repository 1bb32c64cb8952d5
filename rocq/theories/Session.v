(** Building and driving a session: plugins, manifest, guardian, driver. No
    proofs here. *)
From Verif Require Import Base Paths Level Lo Collections Kernel.

(** ** Build: director.go:22-67 (features), builders.go:73-85, manifest.go *)

(** Which resume strategy plugin is added, if any (extent.go:52-54, 80-89) *)
Inductive resume_plugin := NoResume | SpawnPlugin | FastwardPlugin.

(** director.go:27-57 and the IfActive functions of the feature packages; the
    roles in the order of the plugins: builders.go:92-96.
    hiber/hibernate-plugin.go:11-28, nanny/nanny-plugin.go:13-28,
    filter/filter-plugin.go:13-27, sampling/sampling-plugin.go:10-25. The role of
    the spawn strategy's plugin is undefined (internal/feat/resume). *)
Definition active_roles (c : cfg) (sampling : bool) (rp : resume_plugin) : list role :=
  (match c_hib c with Some _ => [RoleHibernate] | None => [] end) ++
  (match c_sub c, c_scheme c with SubDirectoriesWithFiles, None => [RoleNanny] | _, _ => [] end) ++
  (match c_scheme c with Some _ => [RoleClientFilter] | None => [] end) ++
  (if sampling then [RoleSampler] else []) ++
  (match rp with NoResume => [] | SpawnPlugin => [RoleUndefined] | FastwardPlugin => [RoleFastward] end).

(** manifest.go:16-23 *)
Definition manifest_order : list role :=
  [RoleFastward; RoleHibernate; RoleNanny; RoleClientFilter; RoleSampler].

(** manifest.go:31-49: the three rules, over the roles accepted so far *)
Definition rule_contained (current : role) : bool := lo_contains role_eqb manifest_order current.
Definition rule_filter_sampler (current : role) (acc : list role) : bool :=
  if role_eqb current RoleClientFilter && lo_contains role_eqb acc RoleSampler then false else true.
Definition rule_nanny_filter (current : role) (acc : list role) : bool :=
  if role_eqb current RoleNanny && lo_contains role_eqb acc RoleClientFilter then false else true.

(** manifest.go:29-67 *)
Definition manifest (active : list role) : list role :=
  lo_reduce active
    (fun acc r _ =>
       if rule_contained r && rule_filter_sampler r acc && rule_nanny_filter r acc
       then acc ++ [r] else acc) [].

(** The links decorated at plugin Init, in plugin order: each plugin decorates
    under its own role (hibernate-plugin.go:41-47, nanny-plugin.go:46-52,
    filter-plugin.go:51-62, sampling-plugin.go:36-42,
    resume/strategy-fastward.go), the spawn strategy decorates nothing. *)
Definition decorated (active : list role) : list role :=
  filter (fun r => negb (role_eqb r RoleUndefined)) active.

(** guardian.go:92-112 (arrange) and 118-130 (Decorate): the roles consulted for
    every node, as returned by positions.Items(). With no active plugin there is
    just the anchor. *)
Definition session_items (c : cfg) (sampling : bool) (rp : resume_plugin) : list role :=
  let active := active_roles c sampling rp in
  match active with
  | [] => [RoleAnchor]
  | _ =>
      let ps := ps_new role_eqb (manifest active) RoleAnchor in
      let '(_, ps1) := ps_all role_eqb (decorated active) ps in
      fst (ps_list role_eqb ps1)
  end.

Definition start_hib (c : cfg) : hibstate :=
  match c_hib c with Some h => hb_launch h | None => HibPending end.

Definition start_st (c : cfg) (sampling : bool) : st :=
  init_st (session_items c sampling NoResume) (start_hib c).

(** ** Drive: driver.go:29-37, session.go:17-27,41-43, synchronise.go:121-131,
    mediator.go:130-135 (Ignite), 114-128 (Navigate), 156-158 (Bye). A panic which
    leaves Navigate leaves the driver too: Bye is not called. *)
Definition session (c : cfg) (sampling : bool) (t : fsnode) : outcome (option error) * st :=
  let s := start_st c sampling in
  let s1 := dispatch (mu_begin (s_mutes s)) (EvBegin (c_tree c)) s in
  match navigate c t s1 with
  | (Ret e, s2) => (Ret e, dispatch (mu_end (s_mutes s2)) (EvEnd (s_metrics s2)) s2)
  | x => x
  end.
