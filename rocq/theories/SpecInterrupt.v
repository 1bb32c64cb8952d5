(** Specification vocabulary for sessions which are interrupted, resumed and
    interrupted again. *)
From Verif Require Import Base Paths Level Kernel Session Spec Resume.
Local Open Scope list_scope.

(** [sv] records where a session over [c_tree c], which made the callbacks [cs]
    and started from the counts [before], stopped: at the directory [d]. *)
Definition records (c : cfg) (before : metrics) (cs : list (node * cbres)) (d : node) (sv : saved) : Prop :=
  sv_tree sv = c_tree c /\ sv_sub sv = c_sub c /\
  sv_path sv = n_path d /\ sv_isdir sv = n_isdir d /\ sv_depth sv = n_depth d /\
  m_files (sv_metrics sv) = m_files before + files_in cs /\
  m_dirs (sv_metrics sv) = m_dirs before + dirs_in cs.

(** [interrupted tree cs sv]: a session over [tree] was interrupted, and resumed
    (spawn) and interrupted any number of times, each time from what had been
    saved before; [cs] are all the callbacks made by all of them, [sv] is what
    was saved last. Every time the file system, the settings and the callback
    may be other ones. *)
Inductive interrupted (tree : string) : list (node * cbres) -> saved -> Prop :=
| interrupted_prime : forall c sampling t o s sv,
    hooks_ok c -> c_tree c = tree -> session c sampling t = (o, s) -> In sv (rescues (s_trace s)) ->
    interrupted tree (calls (s_trace s)) sv
| interrupted_again : forall cs sv c sampling pc dk o ok s sv',
    interrupted tree cs sv ->
    hooks_ok c -> c_tree c = sv_tree sv -> spawn_session c sampling pc dk sv = (o, ok, s) ->
    In sv' (rescues (s_trace s)) ->
    interrupted tree (cs ++ calls (s_trace s)) sv'.
