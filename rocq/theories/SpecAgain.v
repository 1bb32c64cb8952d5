(** What is said of repeated navigations. *)
From Verif Require Import Base Paths Level Kernel SpecResume.
Local Open Scope list_scope.

(** An event of a first navigation as it is when the counters start from [d]
    instead of 0: only the metrics reported at the end and those saved when
    panicking differ (the three which are saved). *)
Definition raised (d : metrics) (e : event) : event :=
  match e with
  | EvRescue sv => EvRescue (with_metrics (plus_metrics (sv_metrics sv) (mkMetrics (m_files d) 0 (m_dirs d) 0 (m_child d) 0)) sv)
  | EvEnd m => EvEnd (plus_metrics m d)
  | e => e
  end.

(** The client after the history [h] with counters [d]: its callback and its
    panic handler know what happened before. Everything else is the same. *)
Definition later (h : list event) (d : metrics) (c : cfg) : cfg :=
  mkCfg (c_sub c) (c_depth c) (c_files_first c) (c_keep_sep c) (c_read c) (c_sort c) (c_subpath c)
    (c_stat c) (c_fault c) (c_ask c)
    (fun tr p sv => c_rescue c (h ++ map (raised d) tr) p
       (with_metrics (plus_metrics (sv_metrics sv) (mkMetrics (m_files d) 0 (m_dirs d) 0 (m_child d) 0)) sv))
    (c_tree c) (c_scheme c) (c_hib c) (c_fast c)
    (fun tr n => c_client c (h ++ map (raised d) tr) n).

(** The callback and the panic handler do not depend on what happened before. *)
Definition forgetful (c : cfg) : Prop :=
  (forall tr tr' n, c_client c tr n = c_client c tr' n) /\
  (forall tr tr' p sv sv', c_rescue c tr p sv = c_rescue c tr' p sv').
