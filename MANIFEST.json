{
 "claims": [
  {
   "property": "C01",
   "status": "proved",
   "theorems": [
    "c01_universal_walk_is_preorder",
    "c01_listing_is_exact",
    "c01_entries_are_those_read"
   ],
   "note": ""
  },
  {
   "property": "C02",
   "status": "proved",
   "theorems": [
    "c02_subscriptions_are_projections"
   ],
   "note": ""
  },
  {
   "property": "C03",
   "status": "proved",
   "theorems": [
    "c03_node_metadata",
    "c03_paths",
    "c03_depth"
   ],
   "note": ""
  },
  {
   "property": "C04",
   "status": "proved",
   "theorems": [
    "c04_skip_prunes_exactly_the_subtree"
   ],
   "note": ""
  },
  {
   "property": "C05",
   "status": "partial",
   "theorems": [
    "c05_skip_all_does_not_stop_refuted"
   ],
   "note": "REFUTED: the property is false of the code; a concrete traversal is the counterexample. What SkipAll really does is C54."
  },
  {
   "property": "C06",
   "status": "partial",
   "theorems": [
    "c06_skip_dir_from_a_file_universal_refuted",
    "c06_skip_dir_from_a_file_files_refuted"
   ],
   "note": "REFUTED: the property is false of the code, for Universal and for Files. What SkipDir from a file really does is C55."
  },
  {
   "property": "C07",
   "status": "proved",
   "theorems": [
    "c07_error_aborts_and_is_returned",
    "c07_returned_error_came_from_last_callback"
   ],
   "note": ""
  },
  {
   "property": "C08",
   "status": "proved",
   "theorems": [
    "c08_panic_below_the_root_is_rescued_once",
    "c08_no_panic_no_rescue"
   ],
   "note": ""
  },
  {
   "property": "C09",
   "status": "partial",
   "theorems": [
    "c09_root_panic_escapes_refuted",
    "c09_only_a_root_panic_escapes_partial"
   ],
   "note": "REFUTED: a panic on the root node escapes from Navigate; the partial theorem proves that this is the only case."
  },
  {
   "property": "C10",
   "status": "proved",
   "theorems": [
    "c10_saved_state"
   ],
   "note": ""
  },
  {
   "property": "C11",
   "status": "proved",
   "theorems": [
    "c11_notifications_are_bracketed",
    "c11_bracketed_whatever_panics",
    "c11_panicking_descend_handler_refuted"
   ],
   "note": "also proved when hooks and handlers panic, other than Descend handlers: a node whose Descend handler panics gets no Ascend (outside the quantifier of the property)"
  },
  {
   "property": "C12",
   "status": "proved",
   "theorems": [
    "c12_depth_limit"
   ],
   "note": ""
  },
  {
   "property": "C14",
   "status": "partial",
   "theorems": [
    "c14_huge_depth_visits_nothing_refuted",
    "c14_root_visited_iff_depth_not_negative_partial"
   ],
   "note": "REFUTED: a depth of 2^63 or more wraps to a negative bound and nothing is visited; the partial theorem gives the exact condition."
  },
  {
   "property": "C15",
   "status": "proved",
   "theorems": [
    "c15_invocation_metrics"
   ],
   "note": ""
  },
  {
   "property": "C16",
   "status": "proved",
   "theorems": [
    "c16_begin_first_end_last"
   ],
   "note": ""
  },
  {
   "property": "C18",
   "status": "proved",
   "theorems": [
    "c18_unreadable_is_empty"
   ],
   "note": ""
  },
  {
   "property": "C19",
   "status": "proved",
   "theorems": [
    "c19_directories_and_files_in_groups",
    "c19_groups_in_hook_order",
    "c19_listing_order_does_not_matter"
   ],
   "note": ""
  },
  {
   "property": "C42",
   "status": "proved",
   "theorems": [
    "c42_positional_set_refines_ordered_set"
   ],
   "note": "refinement of an abstract ordered set for every operation sequence"
  },
  {
   "property": "C43",
   "status": "proved",
   "theorems": [
    "c43_stack_is_lifo",
    "c43_stack_made"
   ],
   "note": "refinement of a LIFO list for every operation sequence; slice aliasing of NewStackWith not modelled"
  },
  {
   "property": "C44",
   "status": "proved",
   "theorems": [
    "c44_iterator_enumerates",
    "c44_run_all",
    "c44_reset"
   ],
   "note": "all sequences; integers unbounded"
  },
  {
   "property": "C52",
   "status": "proved",
   "theorems": [
    "c52_filter_reject_partition",
    "c52_map",
    "c52_uniq",
    "c52_group_by",
    "c52_others",
    "c52_ternary"
   ],
   "note": ""
  },
  {
   "property": "C54",
   "status": "proved",
   "theorems": [
    "c54_skip_all_from_a_file_cuts_its_directory",
    "c04_skip_prunes_exactly_the_subtree"
   ],
   "note": "c04 quantifies over every skip value, SkipAll included"
  },
  {
   "property": "C55",
   "status": "proved",
   "theorems": [
    "c55_universal_skip_from_a_file_has_no_effect",
    "c55_files_skip_dir_ends_the_traversal"
   ],
   "note": ""
  },
  {
   "property": "C20",
   "status": "proved",
   "theorems": [
    "c20_c21_filter_selects",
    "c20_c21_filter_selects_children",
    "c20_c21_filter_ignores",
    "c20_c21_filter_ignores_children"
   ],
   "note": "for an arbitrary node predicate; DirectoriesWithFiles compared without Children (which a filtered session does not assign)"
  },
  {
   "property": "C21",
   "status": "proved",
   "theorems": [
    "c20_c21_filter_selects",
    "c20_c21_filter_selects_children",
    "c20_c21_filter_ignores",
    "c20_c21_filter_ignores_children"
   ],
   "note": ""
  },
  {
   "property": "C25",
   "status": "proved",
   "theorems": [
    "c25_children_are_the_files",
    "c25_child_metric",
    "c25_visits_the_directories"
   ],
   "note": ""
  },
  {
   "property": "C26",
   "status": "proved",
   "theorems": [
    "c26_children_are_the_matching_files",
    "c26_child_metrics",
    "c26_configured_session"
   ],
   "note": ""
  },
  {
   "property": "C27",
   "status": "partial",
   "theorems": [
    "c27_child_filter_panics_refuted",
    "c27_no_panic_partial"
   ],
   "note": "REFUTED: a child filter with the Universal or Files subscription panics on the first file node; the partial theorem shows that every other combination is safe"
  },
  {
   "property": "C30",
   "status": "proved",
   "theorems": [
    "c30_hibernating_session",
    "c30_hibernation_segment",
    "c30_hibernation_segment_children",
    "c30_segment_is_contiguous",
    "c30_segment_start",
    "c30_segment_end"
   ],
   "note": ""
  },
  {
   "property": "C31",
   "status": "proved",
   "theorems": [
    "c31_wake_and_sleep"
   ],
   "note": ""
  },
  {
   "property": "C32",
   "status": "partial",
   "theorems": [
    "c32_declared_order",
    "c32_fastward_out_of_order_refuted",
    "c32_fastward_is_last_partial",
    "c32_invocation",
    "c32_unwind_removes_one"
   ],
   "note": "REFUTED for fastward resume only: its link is declared first but is consulted last before the client; everything else is proved"
  },
  {
   "property": "C57",
   "status": "partial",
   "theorems": [
    "c57_sleep_returns_skip_all_refuted",
    "c57_sleep_returns_nil_partial"
   ],
   "note": "REFUTED: with the Files subscription Navigate returns fs.SkipAll; the partial theorem proves it for every other subscription"
  },
  {
   "property": "C40",
   "status": "partial",
   "theorems": [
    "c40_tap_then_chain_partial",
    "c40_tap_drops_listeners_refuted",
    "c40_broadcast_order",
    "c40_broadcast_subpath_order",
    "c40_broadcast_status_order",
    "c40_broadcast_sort_order"
   ],
   "note": "REFUTED when a Tap follows a Chain: the listeners are not run; the partial theorem proves it for all taps before all chains. What happens in general is C58."
  },
  {
   "property": "C41",
   "status": "partial",
   "theorems": [
    "c41_dispatch_calls_handlers",
    "c41_mute_all",
    "c41_wake_stays_muted_refuted",
    "c41_unmute_all_partial",
    "c41_session_handlers"
   ],
   "note": "REFUTED: UnmuteAll leaves Wake muted; everything else is proved"
  },
  {
   "property": "C58",
   "status": "proved",
   "theorems": [
    "c58_hook_meaning",
    "c58_only_taps"
   ],
   "note": ""
  },
  {
   "property": "C13",
   "status": "proved",
   "theorems": [
    "c13_no_recurse_is_depth_one",
    "c13_no_recurse_visits_immediate_entries"
   ],
   "note": ""
  },
  {
   "property": "C17",
   "status": "partial",
   "theorems": [
    "c17_failed_build_is_quiet_partial",
    "c17_begin_and_end_notified_refuted",
    "c17_hibernation_no_callback_partial"
   ],
   "note": "REFUTED for a hibernation condition which cannot be made: Begin and End are notified (the callback is not called, the error is returned); proved for every other build failure of a prime session"
  },
  {
   "property": "C49",
   "status": "proved",
   "theorems": [
    "c49_applied_in_order",
    "c49_last_one_decides"
   ],
   "note": ""
  },
  {
   "property": "C50",
   "status": "partial",
   "theorems": [
    "c50_complete_iff_accepted",
    "c50_first_violation_decides",
    "c50_resume_refusals",
    "c50_incomplete_relic_refuted",
    "c50_missing_handler_panics_refuted"
   ],
   "note": "prime facade proved. REFUTED for the resume facade: it is not validated at all, one without path, strategy and handler is accepted, and its first visit panics"
  },
  {
   "property": "C53",
   "status": "proved",
   "theorems": [
    "c53_hydra",
    "c53_others"
   ],
   "note": ""
  },
  {
   "property": "C56",
   "status": "partial",
   "theorems": [
    "c56_case_setting_not_honoured_refuted",
    "c56_case_setting_is_ignored"
   ],
   "note": "REFUTED: the setting is never consulted; what works is C59"
  },
  {
   "property": "C59",
   "status": "proved",
   "theorems": [
    "c59_case_sensitive_hook"
   ],
   "note": ""
  },
  {
   "property": "C60",
   "status": "partial",
   "theorems": [
    "c60_options_can_be_reused_partial",
    "c60_own_sample_filter_twice_refuted"
   ],
   "note": "REFUTED for a client's own custom sample filter, whose listener is chained twice; proved for every other session"
  },
  {
   "property": "C61",
   "status": "partial",
   "theorems": [
    "c61_handlers_lost_refuted"
   ],
   "note": "REFUTED: the events of the given options are replaced; no handler is ever called"
  },
  {
   "property": "C22",
   "status": "proved",
   "theorems": [
    "c22_answer",
    "c22_negation_and_scope",
    "c22_undefined_scope_is_every_node",
    "c22_filtered_session"
   ],
   "note": ""
  },
  {
   "property": "C23",
   "status": "partial",
   "theorems": [
    "c23_documented_pattern_refused_refuted",
    "c23_case_matters_refuted"
   ],
   "note": "REFUTED: the pattern in the documentation is refused (a suffix needs a dot) and the name is compared as it is with the lower case pattern; what it does is C63"
  },
  {
   "property": "C24",
   "status": "partial",
   "theorems": [
    "c24_poly_session_partial",
    "c24_poly_parts_partial",
    "c24_root_file_panics_refuted",
    "c24_directory_extended_glob_refuted"
   ],
   "note": "REFUTED when the root is a file (panic leaves Navigate), and for an extended glob as the directory part (its scope is overwritten to files, so it never applies to a directory and is ignored); proved when the root is a directory, for glob, regex and extended glob parts in any combination"
  },
  {
   "property": "C28",
   "status": "proved",
   "theorems": [
    "c28_sampled_session"
   ],
   "note": ""
  },
  {
   "property": "C29",
   "status": "partial",
   "theorems": [
    "c29_sample_filter_session",
    "c29_own_sample_filter_session",
    "c29_files_left_refuted"
   ],
   "note": "REFUTED for a scope of both kinds or undefined (files are not filtered), and in that a filter about directories also decides on the root itself. What a sample filter of any scope and a client's own does is proved, end to end"
  },
  {
   "property": "C62",
   "status": "proved",
   "theorems": [
    "c62_blank_definition_ignored",
    "c62_blank_child_ignored"
   ],
   "note": ""
  },
  {
   "property": "C63",
   "status": "proved",
   "theorems": [
    "c63_answer",
    "c63_list_always_answers",
    "c63_filtered_session"
   ],
   "note": ""
  },
  {
   "property": "C64",
   "status": "partial",
   "theorems": [
    "c64_custom_filter_replaces_conditions_refuted",
    "c64_custom_filter_replaces_parts_refuted",
    "c64_invalid_own_filter_refuses_parts",
    "c64_wakes_at_once_refuted"
   ],
   "note": "REFUTED: a client's own node filter replaces both conditions; without filter options see C30"
  },
  {
   "property": "C65",
   "status": "partial",
   "theorems": [
    "c65_unusable_definitions_panic_refuted",
    "c65_refused_partial",
    "c65_child_refused_partial",
    "c65_sample_refused_partial",
    "c65_nil_wake_is_true_refuted"
   ],
   "note": "REFUTED for five kinds of definitions; proved for undefined type, regex which does not compile, extended glob without bar, unusable child and sample filters"
  },
  {
   "property": "C38",
   "status": "partial",
   "theorems": [
    "c38_save_reports_only_the_write",
    "c38_round_trip_partial",
    "c38_texts",
    "c38_lossless_refuted"
   ],
   "note": "REFUTED: a text which is not UTF-8 (a path on Linux, a pattern) comes back changed without an error, and the poly of a sample filter is dropped; proved for everything else"
  },
  {
   "property": "C39",
   "status": "partial",
   "theorems": [
    "c39_comparison_partial",
    "c39_agreement_accepted",
    "c39_tampering_refuted",
    "c39_load_reports_no_difference"
   ],
   "note": "REFUTED: a poly filter on one side only is not noticed, and when loading the options are compared with the document they were just made from, so nothing is ever reported"
  },
  {
   "property": "C66",
   "status": "proved",
   "theorems": [
    "c66_resume_options"
   ],
   "note": ""
  },
  {
   "property": "C67",
   "status": "partial",
   "theorems": [
    "c67_damaged_state_refuted",
    "c67_load_outcome_partial",
    "c67_resume_refused_partial",
    "c67_resume_panics_refuted"
   ],
   "note": "REFUTED: a document without options makes the load panic, one without state the construction of the navigator; a file which cannot be read or decoded is refused with that error and nothing else happens"
  },
  {
   "property": "C68",
   "status": "proved",
   "theorems": [
    "c68_visits_everything",
    "c68_in_order",
    "c68_entries_of_a_directory"
   ],
   "note": ""
  },
  {
   "property": "C33",
   "status": "partial",
   "theorems": [
    "c33_spawn_visits_the_rest_partial",
    "c33_from_facade_to_facade_partial",
    "c33_misses_refuted",
    "c33_repeats_refuted",
    "c33_child_of_the_tree_refuted"
   ],
   "note": "REFUTED: where the visiting order is not the byte order of the names nodes are missed or repeated, and after a panic on an entry of the tree's own directory nothing is visited; the result says complete. Proved, up to the saved file and the facade and with sampling, for trees in byte order"
  },
  {
   "property": "C34",
   "status": "proved",
   "theorems": [
    "c34_spawn_listing",
    "c34_such_a_listing_exists"
   ],
   "note": ""
  },
  {
   "property": "C35",
   "status": "proved",
   "theorems": [
    "c35_saved_metrics_are_added",
    "c35_callbacks_are_counted"
   ],
   "note": ""
  },
  {
   "property": "C36",
   "status": "partial",
   "theorems": [
    "c36_fastward_is_the_rest_partial",
    "c36_fastward_listing_partial",
    "c36_fastward_visits_the_rest_partial",
    "c36_from_facade_to_facade_partial",
    "c36_relative_tree_refuted",
    "c36_name_of_the_tree_refuted"
   ],
   "note": "REFUTED for a relative tree \".\" and for a saved path whose last element is that of the tree; proved for all others, any callback and features"
  },
  {
   "property": "C37",
   "status": "proved",
   "theorems": [
    "c37_notifications_from_the_resume_point"
   ],
   "note": "for the resume points C36 holds of"
  },
  {
   "property": "C69",
   "status": "partial",
   "theorems": [
    "c69_skip_ends_a_spawn_resume_refuted",
    "c36_fastward_is_the_rest_partial"
   ],
   "note": "REFUTED for spawn: SkipDir on a spawned entry ends the resume; holds for fastward"
  },
  {
   "property": "C70",
   "status": "proved",
   "theorems": [
    "c70_undefined_strategy"
   ],
   "note": ""
  },
  {
   "property": "C71",
   "status": "proved",
   "theorems": [
    "c71_files_fastward_is_silent"
   ],
   "note": ""
  },
  {
   "property": "C72",
   "status": "partial",
   "theorems": [
    "c72_nodes_differ_refuted",
    "c34_spawn_listing"
   ],
   "note": "REFUTED: spawned entries have no parent and the saved depth, whatever their level; proved what they do have"
  },
  {
   "property": "C73",
   "status": "proved",
   "theorems": [
    "c73_fastward_counts_its_own"
   ],
   "note": ""
  },
  {
   "property": "C74",
   "status": "proved",
   "theorems": [
    "c74_resumed_as_prime"
   ],
   "note": ""
  },
  {
   "property": "C75",
   "status": "partial",
   "theorems": [
    "c75_node_filter_takes_children_refuted"
   ],
   "note": "REFUTED: with a directories-with-files subscription and a node filter alone, the nodes come without their files; the theorem states what happens for every such session"
  },
  {
   "property": "C76",
   "status": "proved",
   "theorems": [
    "c76_own_filter_session",
    "c76_own_filter_refused"
   ],
   "note": ""
  },
  {
   "property": "C77",
   "status": "proved",
   "theorems": [
    "c77_concurrency_settings"
   ],
   "note": ""
  },
  {
   "property": "C45",
   "status": "partial",
   "theorems": [
    "c45_exactly_once_partial",
    "c45_at_all_times",
    "c45_returns_before_callbacks_refuted",
    "c45_depends_on_release"
   ],
   "note": "REFUTED in part: Navigate may return before the callbacks have been executed (every run has such a schedule). Exactly once each, in the order of the walk, at most NoW at a time, channel within its size: proved for every schedule, given that Release of the pool library (not in the repository) lets accepted inputs be worked on; c45_depends_on_release shows this assumption is needed"
  },
  {
   "property": "C46",
   "status": "proved",
   "theorems": [
    "c46_no_deadlock",
    "c46_terminates"
   ],
   "note": "callbacks return; no output stream; contract of the pool library in Pool.v"
  },
  {
   "property": "C47",
   "status": "partial",
   "theorems": [
    "c47_sub_path_partial",
    "c47_non_ascii_tree_refuted"
   ],
   "note": "REFUTED for tree paths with characters outside ASCII (every node but the root); proved for ASCII tree paths other than / and ., names in UTF-8"
  },
  {
   "property": "C48",
   "status": "proved",
   "theorems": [
    "c48_set_is_union",
    "c48_clear_is_difference",
    "c48_tests_are_membership",
    "c48_scrub_is_intersection",
    "c48_within_range",
    "c48_names"
   ],
   "note": ""
  },
  {
   "property": "C51",
   "status": "proved",
   "theorems": [
    "c51_emit_delivers",
    "c51_deregister_removes_one",
    "c51_ids_grow"
   ],
   "note": "handlers which call the broker while a message is delivered are not modelled"
  },
  {
   "property": "C78",
   "status": "proved",
   "theorems": [
    "c78_sub_path_loses_characters",
    "c78_root_item_hook"
   ],
   "note": ""
  },
  {
   "property": "C79",
   "status": "proved",
   "theorems": [
    "c79_answers_do_not_matter",
    "c79_pool_error"
   ],
   "note": ""
  },
  {
   "property": "C80",
   "status": "proved",
   "theorems": [
    "c80_sessions_leave_one_handler"
   ],
   "note": ""
  },
  {
   "property": "C81",
   "status": "partial",
   "theorems": [
    "c81_sessions_race_refuted",
    "c81_one_session_partial"
   ],
   "note": "REFUTED: Navigate writes the maps of the process-wide broker without synchronisation; proved when only one session is starting"
  },
  {
   "property": "C82",
   "status": "partial",
   "theorems": [
    "c82_same_second_overwrites_refuted",
    "c82_kept_partial"
   ],
   "note": "REFUTED: the file name has seconds only; proved for sessions of different kinds or different seconds"
  },
  {
   "property": "C83",
   "status": "proved",
   "theorems": [
    "c83_place",
    "c83_failure",
    "c83_stored"
   ],
   "note": "nef.ResolvePath is a parameter"
  },
  {
   "property": "C84",
   "status": "proved",
   "theorems": [
    "c84_unreadable_on_the_way",
    "c84_no_error_means_all_read"
   ],
   "note": ""
  },
  {
   "property": "C85",
   "status": "partial",
   "theorems": [
    "c85_again_partial",
    "c85_prime_sessions",
    "c85_counters_accumulate",
    "c85_result_counts_refuted",
    "c85_asleep_for_good"
   ],
   "note": "REFUTED: the counters of earlier navigations are included, and a navigator which fell asleep never wakes again; everything else proved to be as for a new navigator"
  },
  {
   "property": "C86",
   "status": "partial",
   "theorems": [
    "c86_saved_or_not_partial",
    "c86_cause_lost_refuted"
   ],
   "note": "REFUTED: the panic value is not part of the error; whether it was stored is"
  },
  {
   "property": "C87",
   "status": "partial",
   "theorems": [
    "c87_queries_partial",
    "c87_refused_refuted"
   ],
   "note": "REFUTED: the result of a session which could not be built panics on every query; proved for the others"
  },
  {
   "property": "C88",
   "status": "partial",
   "theorems": [
    "c88_elapsed_partial",
    "c88_elapsed_grows_refuted"
   ],
   "note": "REFUTED: Elapsed is the time since the start, also after the end"
  },
  {
   "property": "C89",
   "status": "partial",
   "theorems": [
    "c89_spawn_partial",
    "c89_always_complete_refuted"
   ],
   "note": "REFUTED: prime and fastward sessions are always complete; proved for spawn"
  },
  {
   "property": "C90",
   "status": "proved",
   "theorems": [
    "c90_kinds_must_agree",
    "c90_agreeing_kinds"
   ],
   "note": ""
  },
  {
   "property": "C91",
   "status": "proved",
   "theorems": [
    "c91_failed_resume"
   ],
   "note": ""
  },
  {
   "property": "C92",
   "status": "proved",
   "theorems": [
    "c92_run_is_walk",
    "c92_exactly_once",
    "c92_no_deadlock"
   ],
   "note": "given, as in C45, that Release of the pool library lets accepted inputs be worked on"
  },
  {
   "property": "C93",
   "status": "partial",
   "theorems": [
    "c93_again_partial",
    "c93_error_sticks_refuted",
    "c93_close_panics_refuted"
   ],
   "note": "REFUTED: a first error is returned for ever, a later one is a panic (the closed channel is closed again); proved when the pool can be made each time"
  },
  {
   "property": "C94",
   "status": "partial",
   "theorems": [
    "c94_filtered_counts_lost_refuted",
    "c35_saved_metrics_are_added"
   ],
   "note": "REFUTED: the counts of the filter are never saved; the other counts are (C35)"
  },
  {
   "property": "C95",
   "status": "partial",
   "theorems": [
    "c95_asked_without_error_refuted",
    "c95_not_asked_after_error_refuted",
    "c95_skip_all_refuted"
   ],
   "note": "REFUTED: the handler is asked where the callback returned nil, never after an error of the callback, and fs.SkipAll does not end the traversal; see C96 for what it does"
  },
  {
   "property": "C96",
   "status": "proved",
   "theorems": [
    "c96_skip_handler",
    "c96_listing"
   ],
   "note": "for callbacks which return nil, without filter and hibernation, and handlers which do not give fs.SkipAll with the answer dir; C100 has neither restriction on answers"
  },
  {
   "property": "C97",
   "status": "proved",
   "theorems": [
    "c97_fault",
    "c97_from_the_facade"
   ],
   "note": ""
  },
  {
   "property": "C98",
   "status": "proved",
   "theorems": [
    "c98_at_all_times",
    "c98_all_outputs"
   ],
   "note": "callbacks return; contract of the pool library in Pool.v and Output.v"
  },
  {
   "property": "C99",
   "status": "partial",
   "theorems": [
    "c99_no_deadlock_partial",
    "c99_terminates",
    "c99_on_receiving_refuted",
    "c99_nobody_receiving_refuted",
    "c99_fitting"
   ],
   "note": "REFUTED when On itself receives outputs (nothing ever happens), and when nobody receives more outputs than fit and no send times out; proved for a client receiving in a goroutine of its own"
  },
  {
   "property": "C100",
   "status": "proved",
   "theorems": [
    "c100_course",
    "c100_answers_and_listing",
    "c100_predictable",
    "c100_walk"
   ],
   "note": "without filter and hibernation; the handler answers by path, object and read error"
  },
  {
   "property": "C101",
   "status": "proved",
   "theorems": [
    "c101_visits_rise"
   ],
   "note": ""
  },
  {
   "property": "C102",
   "status": "proved",
   "theorems": [
    "c102_course_with_features",
    "c102_walk"
   ],
   "note": "panics of filters and conditions included; the handler answers by path, object and read error"
  },
  {
   "property": "C103",
   "status": "proved",
   "theorems": [
    "c103_one_node_per_place",
    "c103_parent_is_the_node_handed_out",
    "c103_descend_before_extension",
    "c103_ascend_metadata"
   ],
   "note": ""
  },
  {
   "property": "C104",
   "status": "proved",
   "theorems": [
    "c104_handler_reaches_only_the_error",
    "c104_spawn_handler",
    "c104_fastward_handler"
   ],
   "note": ""
  },
  {
   "property": "C105",
   "status": "partial",
   "theorems": [
    "c105_is",
    "c105_recognised",
    "c105_nothing_else",
    "c105_pool_failure_refuted"
   ],
   "note": "REFUTED for the failure to make a worker pool, which does not match ErrWorkerPoolCreationFailed; everything else is proved"
  },
  {
   "property": "C106",
   "status": "partial",
   "theorems": [
    "c106_texts_partial",
    "c106_variables_partial",
    "c106_poly_text_refuted",
    "c106_panic_text_refuted"
   ],
   "note": "REFUTED: the text of ErrPolyFilterIsInvalid is that of ErrFilterIsNil, and the text of the error after a panic cannot be rendered (its message names a field which does not exist); proved for all others, given that li18ngo renders the default message with the fields of the data"
  },
  {
   "property": "C107",
   "status": "partial",
   "theorems": [
    "c107_missing_forest_refuted",
    "c107_missing_forest",
    "c107_forest",
    "c107_asked_for_the_tree",
    "c107_resume"
   ],
   "note": "REFUTED: a prime session notifies Begin and then panics; a resume is refused for a nil forest but panics for a forest in which a file system is missing; everything else is proved"
  },
  {
   "property": "C108",
   "status": "partial",
   "theorems": [
    "c108_as_if_stored",
    "c108_other_addons",
    "c108_failed_load",
    "c108_failed_load_refuted"
   ],
   "note": "REFUTED for a failed load: the handler is then called with nil, and one which cannot take nil makes the construction panic instead of returning the error; everything else is proved"
  },
  {
   "property": "C109",
   "status": "partial",
   "theorems": [
    "c109_prime",
    "c109_skips_not_logged",
    "c109_which_logger",
    "c109_resume_refused",
    "c109_resume_not_logged_refuted",
    "c109_nil_logger_refuted"
   ],
   "note": "REFUTED for resumes, which do not log the error they end with, and for a nil logger, with which every error becomes a panic; proved for prime sessions"
  },
  {
   "property": "C110",
   "status": "partial",
   "theorems": [
    "c110_node_filter",
    "c110_child_filter",
    "c110_at_most_one_each",
    "c110_delivered_is_asked",
    "c110_nothing_without_filter",
    "c110_own_and_sample_not_delivered_refuted",
    "c110_delivered_although_refused_refuted",
    "c110_nil_delivered_refuted",
    "c110_poly_says",
    "c110_applicable"
   ],
   "note": "REFUTED for a client's own filter and for sample filters, which are never delivered (FilterReply.Sampler is never set), and for refused sessions: a node filter is delivered although the child filter is then refused; a definition of type custom without a custom filter delivers nil. Proved for node filters (glob, regex, extended glob) and child filters end to end, and for all settings that what is delivered is what the traversal asks."
  },
  {
   "property": "C111",
   "status": "partial",
   "theorems": [
    "c111_definition_changed_refuted",
    "c111_only_scopes_change",
    "c111_others_unchanged",
    "c111_settled_once",
    "c111_used_again",
    "c111_used_again_as_options",
    "c111_same_replies"
   ],
   "note": "REFUTED in its first half: the scope in the client's definition is overwritten (extended glob; the parts of a poly filter). The second half is proved: only scopes change, a second time nothing changes, and sessions with the changed definitions are the same."
  },
  {
   "property": "C112",
   "status": "partial",
   "theorems": [
    "c112_always_a_text",
    "c112_documented_text",
    "c112_undeclared_text",
    "c112_texts_differ",
    "c112_metrics_share_text_refuted",
    "c112_notifications_are_numbers_refuted",
    "c112_scope_text",
    "c112_scope_number",
    "c112_scopes_differ"
   ],
   "note": "REFUTED: the metrics for child files found and filtered out have the same text, and notifications are printed as numbers, not with the documented texts; everything else is proved"
  },
  {
   "property": "C113",
   "status": "proved",
   "theorems": [
    "c113_given_away",
    "c113_no_race"
   ],
   "note": "prime sessions, sequential and concurrent; the windows in which the library writes to a node are in SpecShare.v with citations"
  },
  {
   "property": "C114",
   "status": "partial",
   "theorems": [
    "c114_agrees_with_the_session_without_panics",
    "c114_rescued_once_partial",
    "c114_the_error_of_a_rescue",
    "c114_what_escapes_partial",
    "c114_nothing_swallowed",
    "c114_panicking_panic_handler",
    "c114_panicking_panic_handler_refuted",
    "c114_ascend_handler_refuted",
    "c114_saved_depth_refuted"
   ],
   "note": "REFUTED: an Ascend handler which panics, or a panic handler which panics, makes the panic handler be called once per directory on the way up and the panic leaves the session; a Descend handler which panics makes the saved depth one too large. Proved: once and right when the panic and Ascend handlers do not panic (the saved depth when no Descend handler panics)"
  },
  {
   "property": "C115",
   "status": "proved",
   "theorems": [
    "c115_limited_depth_ends",
    "c115_nothing_below_the_limit",
    "c115_finite_tree_ends",
    "c115_endless_without_limit"
   ],
   "note": "one directory read yields a finite list of entries"
  },
  {
   "property": "C116",
   "status": "proved",
   "theorems": [
    "c116_counts_whatever_happens"
   ],
   "note": ""
  },
  {
   "property": "C117",
   "status": "partial",
   "theorems": [
    "c117_spawn_saves_again",
    "c117_fastward_saves_again",
    "c117_no_panic_nothing_saved",
    "c117_spawned_entry_escapes",
    "c117_lost_refuted",
    "c117_saved_depth_refuted"
   ],
   "note": "REFUTED in two parts: a panic on an entry the spawn resume starts from (each following sibling on every level) escapes from Navigate and nothing is saved (c117_spawned_entry_escapes, c117_lost_refuted); the depth saved by a spawn resume which had climbed is not that of the directory (c117_saved_depth_refuted). Everywhere else proved."
  },
  {
   "property": "C118",
   "status": "proved",
   "theorems": [
    "c118_saved_counts_accumulate",
    "c118_final_counts"
   ],
   "note": ""
  },
  {
   "property": "C119",
   "status": "partial",
   "theorems": [
    "c119_nothing_lost_partial",
    "c119_each_goes_on_where_saved_partial",
    "c119_fastward_nothing_lost_partial",
    "c119_fastward_goes_on_where_saved_partial",
    "c119_from_facade_to_facade_partial",
    "c119_fastward_from_facade_to_facade_partial",
    "c119_what_is_read",
    "c119_mixed_nothing_lost_partial",
    "c119_mixed_from_facade_to_facade_partial"
   ],
   "note": "Proved, also from facade to facade and document to document, by induction over the history for spawn resumes of trees in byte order (Universal subscription, no depth limit) and for fastward resumes of any order, depth limit and subscription but Files, and for histories which mix the two strategies (conditions of both), with sampling or without, without filters and hibernation (for which see C124-C126). Missing because false of the code: other orders with spawn, panics at entries of the tree itself (C33 refutations), trees with an entry of the same name as the tree and relative trees with fastward (C36 refutations), Files subscription with fastward (C71)."
  },
  {
   "property": "C120",
   "status": "proved",
   "theorems": [
    "c120_only_entered_directories_are_read",
    "c120_entered_within_the_limit",
    "c120_nothing_below_the_depth_limit"
   ],
   "note": "For prime sessions, whose Descend is never muted. Sessions which panic out of Navigate included."
  },
  {
   "property": "C121",
   "status": "proved",
   "theorems": [
    "c121_own_filter_decides_alone",
    "c121_invalid_own_filter_refused"
   ],
   "note": "For a callback which returns nil and without hibernation (for which see C64); the filter is not one which keeps state between calls."
  },
  {
   "property": "C122",
   "status": "proved",
   "theorems": [
    "c122_spelling_of_the_list",
    "c122_same_session",
    "c122_blank_item_refused"
   ],
   "note": "Respelled items consist of printable ASCII without comma and bar; end to end for a callback which returns nil, without hibernation."
  },
  {
   "property": "C123",
   "status": "proved",
   "theorems": [
    "c123_prime",
    "c123_resume"
   ],
   "note": ""
  },
  {
   "property": "C124",
   "status": "partial",
   "theorems": [
    "c124_spawn_selects",
    "c124_spawn_visits_the_accepted",
    "c124_spawn_nothing_lost_partial",
    "c124_fastward_partial",
    "c124_fastward_nothing_lost_partial",
    "c124_from_facade_to_facade_partial",
    "c124_pattern_from_facade_to_facade_partial",
    "c124_fastward_from_facade_to_facade_partial",
    "c124_fastward_pattern_from_facade_to_facade_partial",
    "c124_fastward_loses_refuted"
   ],
   "note": "REFUTED for fastward: the link which waits for the saved directory comes after the filter, so if the filter rejects this directory nothing at all is visited, no error is returned and the result is complete. Proved for fastward when it is accepted (callback which returns nil) and for spawn (any callback); with C33 and C36: the filtered walk which was stopped and its filtered resume together visit every accepted entry; with a glob or regex filter (scope not set, files or directories) or a filter of the client also from the facade, through the saved document, to the report of the resume (with or without sampling). Subscriptions other than DirectoriesWithFiles."
  },
  {
   "property": "C125",
   "status": "partial",
   "theorems": [
    "c125_spawn_waits_again",
    "c125_spawn_partial",
    "c125_fastward_is_the_rest",
    "c125_fastward_partial",
    "c125_spawn_loses_refuted",
    "c125_fastward_loses_refuted"
   ],
   "note": "REFUTED: the saved state does not say whether the session had woken (it always says retired, and nobody reads it), so a resume waits for the wake condition again. Spawn: when the node which woke the session lies before the point of resumption nothing is visited, no error is returned and the result is complete. Fastward: so too when the saved directory lies before that node, as its link only sees what hibernation lets through. Proved: what a resume visits for all conditions (spawn: the segment of the remaining walk; fastward: the rest of the segment from the saved node on), and that nothing is lost if there is no wake condition (spawn) or if the saved node is in the segment (fastward). Callback which returns nil; subscriptions other than DirectoriesWithFiles."
  },
  {
   "property": "C126",
   "status": "partial",
   "theorems": [
    "c126_spawn_returns_skip_all_refuted",
    "c126_spawn_awake_partial",
    "c126_fastward_partial"
   ],
   "note": "REFUTED for spawn: each entry is spawned as a root of its own, so the fs.SkipAll with which hibernation ends the walk is returned as the session's error and the result is incomplete, although the uninterrupted session returns nil. Proved: for spawn until the sleep notification; for fastward with a nil callback and subscriptions other than Files (see C57)."
  },
  {
   "property": "C127",
   "status": "proved",
   "theorems": [
    "c127_set_up_as_before",
    "c127_saved_settings_not_repeated",
    "c127_same_resume"
   ],
   "note": ""
  }
 ]
}