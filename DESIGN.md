# Formal model of snivilised/traverse (module `github.com/snivilised/agenor`) in Coq 8.16

## Layout

* `rocq/theories/*.v` (order in `rocq/_CoqProject`)
  * model files: `Base Lo Collections Paths Level Kernel Session Defaults Filters Hooks Life Options Build
    Composites Persist Resume Pool Output Bus Race Again Result RunMore Save`: total computable Gallina functions (transition
    relations in `Pool`, `Output` and `Race`), no proofs; each definition cites the `/repo` file and lines it models;
  * `Spec*.v`: the vocabulary of the theorems, written without the model's recursions;
  * `*Facts.v`, `*Props.v`, `*Cor.v`, `Simulate`, `Feature`, `Hybrid`, `Settle`, ...: proofs;
  * `*Cases.v`, `*Refuted.v`: concrete trees, sessions and counterexamples;
  * `Prop*.v`: only the property theorems (each closed by `exact` or a few lines), their `Print Assumptions`, and next to
    each an `Example` showing a concrete case which meets its hypotheses.
* `properties.jsonl`, `MANIFEST.json`, `seeded/LOG.jsonl`.

Theorem names: `cNN_...` belongs to property CNN. `_partial`: part of the property, the missing part is said in the comment
and in the manifest. `_refuted`: the property is false of the code; the theorem is the counterexample (or the proof
that it always fails). A property refuted somewhere has status "partial" with a note starting with REFUTED and, where it
is useful, a companion property saying what the code does instead, which is proved.

## How the code is modelled

* A Go `error` is a finite tree (sentinel leaf or a wrapper of errors); `errors.Is` is membership of the sentinel.
* A function that may panic returns `Ret a | Pan v | Stuck`; state is passed explicitly, so deferred functions
  (`ascend`, `recover`) are modelled on both outcomes. A nil dereference is a panic.
* The file system is a finite rose tree of named entries, each directory readable or not, each entry with an optional stat
  error. It does not change during a session (World.v, C114-C116: it may). For resumed sessions it is a function from paths to such trees.
* Hooks (read, sort, sub path, query status), handlers (fault, skip, panic) and the callback are arbitrary functions; the
  callback also sees the whole history of the session, so stateful callbacks are covered. In World.v (C114-C116) the hooks
  and handlers see the history too and may panic; it is proved equal to the first model where they do not.
* Observable effects: the trace of events (begin, descend, callback with its node, ascend, wake, sleep, rescue, end), the
  metrics, and the returned result, error or panic. Theorems about sessions start from `walk_prime` (or `walk_resume`,
  `run_prime`): what `Walk().Configure().Extent(Prime(facade, settings...)).Navigate(ctx)` does, for any settings.
* Recursion over the tree uses fuel; running out of fuel is the outcome `Stuck`, distinct from every Go outcome,
  and the session theorems show that it does not happen.

## Per property plan

| properties | model files | how |
|---|---|---|
| C01-C03 | Kernel, Session | traversal equals an independent pre-order listing of the tree (Spec.v); induction on the tree with the callback, hooks and history arbitrary |
| C04-C07 | Kernel | pruned listings in Spec.v; one induction over the traversal gives the calls for every answer of the callback; refutations are concrete trees evaluated by the kernel |
| C08-C11 | Kernel | invariants over the event trace; the traversal is turned into a step relation (KernelRel) and each invariant proved once for all steps |
| C12-C14 | Level, Kernel | limited listing; the 64 bit conversion of the unsigned limit is modelled, hence C14 refuted |
| C15-C17 | Session, Build | invariant metrics = number of calls in the trace; driver and builder as functions to a report (outcome, trace, metrics) |
| C18-C19 | Kernel, Defaults | read and sort hooks arbitrary, defaults modelled |
| C20-C21 | Kernel (links) | simulation between the filtered and the unfiltered session (Simulate.v) |
| C22-C24, C62-C65 | Filters, Build | filters as data with a total evaluation; glob and regexp are parameters (matchers) since path/filepath.Match and regexp are library code |
| C25-C27, C75 | Kernel, Filters | directories-with-files link and child filter; refutations are concrete sessions |
| C28-C29 | Filters, Build, Hooks | sampling and sample filters are listeners of the read hook; composed with the session theorems |
| C30-C31, C57 | Kernel (hib_next) | state machine over the visit sequence; contiguous segment by induction over the calls |
| C32 | Session, Kernel | list of roles of every combination of features |
| C33-C37, C69-C74 | Resume | spawn: recursion up the saved path, listing of the rest in SpecResume.v; fastward: simulation with the full walk; PathCalc and the disk enter as hypotheses |
| C38-C39, C66-C67 | Persist | documents are JSON values; encoder and decoder as functions; round trip and comparison for all options |
| C40-C41, C58 | Hooks, Life | induction over operation sequences |
| C42-C44 | Collections | refinement of an abstract set / stack / sequence for every operation sequence |
| C45-C46, C79 | Pool | transition system of navigator, channel, reader and workers; invariants and a decreasing measure over all schedules |
| C47, C78 | Defaults, Paths | strings are byte lists, runes as in Go; sub paths of every node of a walk |
| C48 | Level | bit operations on N |
| C49-C50, C53, C56, C59-C61, C77 | Options, Build, Composites | options as a record, settings as functions |
| C51, C80 | Bus | operation sequences; the order of map iterations is an arbitrary permutation |
| C52 | Lo | lists |
| C54-C55 | Kernel | what the code does where C05 and C06 fail |
| C68 | Defaults, Build | a walk with default options, end to end |
| C76 | Filters, Build | a client's own filter, end to end |
| C81 | Bus, Race | accesses to the shared maps of goroutines in any interleaving; overlap is a race |
| C82-C83 | Save | the destination and the write of author.go over a map of files, the default panic handler; the file name determines the kind and the second (digits are injective), Join keeps the last element |
| C84 | Resume | crown and spawn: a read error of an ancestor ends the resume, by induction on the ancestors |
| C85 | Again | several navigations threaded through one state; simulation: a navigation from a later state equals one from the first, up to the counters; asleep is an absorbing state |
| C86-C89 | Result | the result object (reporter, session, completeness) and its queries on top of prime and resume reports |
| C90-C91 | Resume | the forest checks of the restore, and every failing branch of build_resume |
| C92-C93 | RunMore | swapping the client of a resumed session, the pool system of Pool.v over its visits; the fields of the concurrent navigator over a sequence of navigations, by induction on the sequence |
| C94 | Resume | what is saved (C10) and what is added (C35) |
| C95-C97 | SpecSkip | the listing of the tree pruned by the handler, cut at the first answer which ends the session; mutual induction over the traversal relation; two sessions whose handlers agree where the callback returns nil are equal, by induction on the fuel |
| C98-C99 | Output | the system of Pool.v extended by the workers' sends, the output channel and the client's On; projection to Pool.v, invariant, a decreasing weight, progress |
| C100-C101 | SpecCourse | one pass over the listing with a verdict at each place; mutual induction over the traversal relation keeping the set of places left out; positions offered increase |
| C102 | SpecCourse | C100 for the nodes offered, joined with the journal of the decorator chain (JournalFacts) |
| C103 | Kernel | the bracket of C11 carries the node through callback, entries and ascend; mutual induction over it |
| C104 | HandlerFacts | lockstep of the two sessions (Simulate.v) with equal states |
| C105-C106 | Errors | error values with their unwrap trees; errors.Is and the predicates, by induction on the tree; the messages as templates over the fields of their data, rendered |
| C107-C108 | Scaffold | the scaffold with forests which may be nil and with addons, an extension of Build.v and Resume.v; case analysis, and the persistence round trip for C108 |
| C109 | Log | the logger added around the sessions of Build.v and Resume.v; case analysis |
| C110 | Sink, SinkFacts | the replies computed along with the creation of the schemes (which is proved to be the one of Filters.v); the filter's answers tied to the callbacks through C22 and C26 |
| C111 | Sink, SinkFacts | the writes to the definitions modelled; building is proved to be idempotent under them, up to walk_prime |
| C112 | Enums, SpecEnums | one function for all generated methods, the tables as data; the documented texts as a separate list; finite tables by computation, all other values by arithmetic |
| C113 | SpecShare, ShareFacts | the trace of events determines in which windows the navigator may write to a node; from the nesting of notifications (C11): no window after the call is for the node or one above it; with the pool's invariant for every schedule |
| C114 | World, SpecWorld, WorldFacts | a second model of the kernel in which the hooks, defect handlers and life cycle handlers are functions of the history which may panic, shown equal to the first one where they do not; induction over the nesting of Traverse calls; examples for the refuted parts |
| C115 | World, SpecWorld, WorldFacts | the depth at entry never falls along nested calls, so the nesting is bounded by the limit; the result does not depend on the bound of the nesting once it is reached |
| C116 | World, WorldFacts | induction over the nesting of Traverse calls: each part of the trace is counted |
| C117 | SpecInterrupt, InterruptFacts | every panicking callback is the last event of its chain; the rescue theorem for one traversal from any state, composed over the spawned entries and over the levels climbed |
| C118 | SpecInterrupt, InterruptFacts | an inductive relation for histories of interruptions; induction over it with the theorems of C117 and C35 |
| C119 | SpecRelay, RelayFacts, FastRelayFacts, SpecJourney, JourneyFacts, SpecMixed, MixedFacts | invariant over the history: everything before the saved directory in the listing of the tree was called; each traversal from any state calls a prefix of its listing, composed over spawned entries and levels; the recorded results are what the callback answered, so a fastward resume is the end of an ordinary session; the facades: each document holds options which say what the With functions say, so every resume is built like the first session |
| C120 | SpecLazy, LazyFacts | simulation: the same state, step by step, under two readers; the trace only grows, so agreement on the final trace is agreement at each step |
| C121 | OwnFilter | the scheme planned for such settings asks only the own filter; then the simulation of filtered sessions |
| C122 | SpecSpell, SpellFacts | trimming and lower case give the same item; the two filters differ in their pattern only; then the filtered session |
| C123 | PropIf | a nil option is skipped by apply; the sessions depend on the options through apply only |
| C124 | ResumeFilter, SiftFacts, NamedAsk, SiftWalk | simulation of the filtered by the unfiltered session (that of C20), carried through the spawned entries and levels; for fastward composed with C36: the calls from the saved node on of the accepted nodes; the walk which was stopped is the walk without filter whose callback ignores what is not accepted, stopped at the same node (what is recorded is what the callback answered) |
| C125 | ResumeHib | simulation of the hibernating by the plain session (that of C30) carried through the spawned entries and levels, where after going to sleep each side is followed alone; for fastward C36 composed with C30 |
| C126 | ResumeHib | the simulation of C125 gives the same result while awake; an invariant of the spawned walk says that it is retired only after the sleep notification; fastward by C36 and C57 |
| C127 | PropSame | the plugins of the resumed session are planned from the restored settings followed by those given; each is the latest of its kind, so what is given again and what is not both amount to the settings of the first session |

No property of the list was found inexpressible. Status and theorems of each (from MANIFEST.json):

| id | title | status | theorems | note |
|---|---|---|---|---|
| C01 | Universal walk visits every node exactly once, in depth-first pre-order | proved | `c01_universal_walk_is_preorder`, `c01_listing_is_exact`, `c01_entries_are_those_read` |  |
| C02 | Files and Directories subscriptions are exact projections of the universal walk | proved | `c02_subscriptions_are_projections` |  |
| C03 | Node metadata given to the callback is right | proved | `c03_node_metadata`, `c03_paths`, `c03_depth` |  |
| C04 | SkipDir from a directory callback prunes exactly that directory's subtree | proved | `c04_skip_prunes_exactly_the_subtree` |  |
| C05 | SkipAll stops the whole traversal | partial | `c05_skip_all_does_not_stop_refuted` | REFUTED: the property is false of the code; a concrete traversal is the counterexample. What SkipAll really does is C54. |
| C06 | SkipDir from a file callback skips the rest of the containing directory only | partial | `c06_skip_dir_from_a_file_universal_refuted`, `c06_skip_dir_from_a_file_files_refuted` | REFUTED: the property is false of the code, for Universal and for Files. What SkipDir from a file really does is C55. |
| C07 | A callback error aborts the traversal and is returned | proved | `c07_error_aborts_and_is_returned`, `c07_returned_error_came_from_last_callback` |  |
| C08 | A panic below the root is rescued exactly once and ends the traversal | proved | `c08_panic_below_the_root_is_rescued_once`, `c08_no_panic_no_rescue` |  |
| C09 | A panic is never propagated to the caller of Navigate | partial | `c09_root_panic_escapes_refuted`, `c09_only_a_root_panic_escapes_partial` | REFUTED: a panic on the root node escapes from Navigate; the partial theorem proves that this is the only case. |
| C10 | The saved resume state identifies where the session stopped | proved | `c10_saved_state` |  |
| C11 | Descend and ascend notifications are balanced and properly nested | proved | `c11_notifications_are_bracketed`, `c11_bracketed_whatever_panics`, `c11_panicking_descend_handler_refuted` | also proved when hooks and handlers panic, other than Descend handlers: a node whose Descend handler panics gets no Ascend (outside the quantifier of the property) |
| C12 | Depth limit | proved | `c12_depth_limit` |  |
| C13 | NoRecurse is depth limit one | proved | `c13_no_recurse_is_depth_one`, `c13_no_recurse_visits_immediate_entries` |  |
| C14 | Every depth setting visits at least the root | partial | `c14_huge_depth_visits_nothing_refuted`, `c14_root_visited_iff_depth_not_negative_partial` | REFUTED: a depth of 2^63 or more wraps to a negative bound and nothing is visited; the partial theorem gives the exact condition. |
| C15 | Invocation metrics equal the callbacks made | proved | `c15_invocation_metrics` |  |
| C16 | Begin is first, End is last, each exactly once | proved | `c16_begin_first_end_last` |  |
| C17 | A failed build never touches the client | partial | `c17_failed_build_is_quiet_partial`, `c17_begin_and_end_notified_refuted`, `c17_hibernation_no_callback_partial` | REFUTED for a hibernation condition which cannot be made: Begin and End are notified (the callback is not called, the error is returned); proved for every other build failure of a prime session |
| C18 | An unreadable directory does not abort the traversal | proved | `c18_unreadable_is_empty` |  |
| C19 | The order of visiting siblings | proved | `c19_directories_and_files_in_groups`, `c19_groups_in_hook_order`, `c19_listing_order_does_not_matter` |  |
| C20 | A node filter selects callbacks and nothing else | proved | `c20_c21_filter_selects`, `c20_c21_filter_selects_children`, `c20_c21_filter_ignores`, `c20_c21_filter_ignores_children` | for an arbitrary node predicate; DirectoriesWithFiles compared without Children (which a filtered session does not assign) |
| C21 | Filter metrics account for every visited node | proved | `c20_c21_filter_selects`, `c20_c21_filter_selects_children`, `c20_c21_filter_ignores`, `c20_c21_filter_ignores_children` |  |
| C22 | Negation and scope of a filter | proved | `c22_answer`, `c22_negation_and_scope`, `c22_undefined_scope_is_every_node`, `c22_filtered_session` |  |
| C23 | The extended glob filter | partial | `c23_documented_pattern_refused_refuted`, `c23_case_matters_refuted` | REFUTED: the pattern in the documentation is refused (a suffix needs a dot) and the name is compared as it is with the lower case pattern; what it does is C63 |
| C24 | The poly filter | partial | `c24_poly_session_partial`, `c24_poly_parts_partial`, `c24_root_file_panics_refuted`, `c24_directory_extended_glob_refuted` | REFUTED when the root is a file (panic leaves Navigate), and for an extended glob as the directory part (its scope is overwritten to files, so it never applies to a directory and is ignored); proved when the root is a directory, for glob, regex and extended glob parts in any combination |
| C25 | Directories with files: children | proved | `c25_children_are_the_files`, `c25_child_metric`, `c25_visits_the_directories` |  |
| C26 | Child filter | proved | `c26_children_are_the_matching_files`, `c26_child_metrics`, `c26_configured_session` |  |
| C27 | A configured filter never makes the traversal panic | partial | `c27_child_filter_panics_refuted`, `c27_no_panic_partial` | REFUTED: a child filter with the Universal or Files subscription panics on the first file node; the partial theorem shows that every other combination is safe |
| C28 | Sampling bounds the entries taken from each directory | proved | `c28_sampled_session` |  |
| C29 | Sample filter | partial | `c29_sample_filter_session`, `c29_own_sample_filter_session`, `c29_files_left_refuted` | REFUTED for a scope of both kinds or undefined (files are not filtered), and in that a filter about directories also decides on the root itself. What a sample filter of any scope and a client's own does is proved, end to end |
| C30 | Hibernation delivers one contiguous segment | proved | `c30_hibernating_session`, `c30_hibernation_segment`, `c30_hibernation_segment_children`, `c30_segment_is_contiguous`, `c30_segment_start`, `c30_segment_end` |  |
| C31 | Wake and Sleep notifications | proved | `c31_wake_and_sleep` |  |
| C32 | The decorator chain order | partial | `c32_declared_order`, `c32_fastward_out_of_order_refuted`, `c32_fastward_is_last_partial`, `c32_invocation`, `c32_unwind_removes_one` | REFUTED for fastward resume only: its link is declared first but is consulted last before the client; everything else is proved |
| C33 | Spawn resume visits exactly what had not been visited | partial | `c33_spawn_visits_the_rest_partial`, `c33_from_facade_to_facade_partial`, `c33_misses_refuted`, `c33_repeats_refuted`, `c33_child_of_the_tree_refuted` | REFUTED: where the visiting order is not the byte order of the names nodes are missed or repeated, and after a panic on an entry of the tree's own directory nothing is visited; the result says complete. Proved, up to the saved file and the facade and with sampling, for trees in byte order |
| C34 | What a spawn resume visits | proved | `c34_spawn_listing`, `c34_such_a_listing_exists` |  |
| C35 | A resumed result accumulates the metrics of the interrupted session | proved | `c35_saved_metrics_are_added`, `c35_callbacks_are_counted` |  |
| C36 | Fastward resume delivers the suffix from the resume point | partial | `c36_fastward_is_the_rest_partial`, `c36_fastward_listing_partial`, `c36_fastward_visits_the_rest_partial`, `c36_from_facade_to_facade_partial`, `c36_relative_tree_refuted`, `c36_name_of_the_tree_refuted` | REFUTED for a relative tree "." and for a saved path whose last element is that of the tree; proved for all others, any callback and features |
| C37 | Fastward resume mutes notifications before the resume point and restores all of them after | proved | `c37_notifications_from_the_resume_point` | for the resume points C36 holds of |
| C38 | Saving and loading options is lossless on the persisted fields | partial | `c38_save_reports_only_the_write`, `c38_round_trip_partial`, `c38_texts`, `c38_lossless_refuted` | REFUTED: a text which is not UTF-8 (a path on Linux, a pattern) comes back changed without an error, and the poly of a sample filter is dropped; proved for everything else |
| C39 | The options comparison detects tampering | partial | `c39_comparison_partial`, `c39_agreement_accepted`, `c39_tampering_refuted`, `c39_load_reports_no_difference` | REFUTED: a poly filter on one side only is not noticed, and when loading the options are compared with the document they were just made from, so nothing is ever reported |
| C40 | Hook tapping and chaining | partial | `c40_tap_then_chain_partial`, `c40_tap_drops_listeners_refuted`, `c40_broadcast_order`, `c40_broadcast_subpath_order`, `c40_broadcast_status_order`, `c40_broadcast_sort_order` | REFUTED when a Tap follows a Chain: the listeners are not run; the partial theorem proves it for all taps before all chains. What happens in general is C58. |
| C41 | Notification control | partial | `c41_dispatch_calls_handlers`, `c41_mute_all`, `c41_wake_stays_muted_refuted`, `c41_unmute_all_partial`, `c41_session_handlers` | REFUTED: UnmuteAll leaves Wake muted; everything else is proved |
| C42 | Positional set refines an ordered set with a pinned last element | proved | `c42_positional_set_refines_ordered_set` | refinement of an abstract ordered set for every operation sequence |
| C43 | Stack is last-in first-out | proved | `c43_stack_is_lifo`, `c43_stack_made` | refinement of a LIFO list for every operation sequence; slice aliasing of NewStackWith not modelled |
| C44 | Iterators enumerate exactly once, in order | proved | `c44_iterator_enumerates`, `c44_run_all`, `c44_reset` | all sequences; integers unbounded |
| C45 | Concurrent run executes the callback once per visited node | partial | `c45_exactly_once_partial`, `c45_at_all_times`, `c45_returns_before_callbacks_refuted`, `c45_depends_on_release` | REFUTED in part: Navigate may return before the callbacks have been executed (every run has such a schedule). Exactly once each, in the order of the walk, at most NoW at a time, channel within its size: proved for every schedule, given that Release of the pool library (not in the repository) lets accepted inputs be worked on; c45_depends_on_release shows this assumption is needed |
| C46 | Concurrent run cannot deadlock | proved | `c46_no_deadlock`, `c46_terminates` | callbacks return; no output stream; contract of the pool library in Pool.v |
| C47 | Sub paths | partial | `c47_sub_path_partial`, `c47_non_ascii_tree_refuted` | REFUTED for tree paths with characters outside ASCII (every node but the root); proved for ASCII tree paths other than / and ., names in UTF-8 |
| C48 | Filter scope bit operations | proved | `c48_set_is_union`, `c48_clear_is_difference`, `c48_tests_are_membership`, `c48_scrub_is_intersection`, `c48_within_range`, `c48_names` |  |
| C49 | Options are applied in order and stop at the first error | proved | `c49_applied_in_order`, `c49_last_one_decides` |  |
| C50 | Facade validation | partial | `c50_complete_iff_accepted`, `c50_first_violation_decides`, `c50_resume_refusals`, `c50_incomplete_relic_refuted`, `c50_missing_handler_panics_refuted` | prime facade proved. REFUTED for the resume facade: it is not validated at all, one without path, strategy and handler is accepted, and its first visit panics |
| C51 | Event bus delivery | proved | `c51_emit_delivers`, `c51_deregister_removes_one`, `c51_ids_grow` | handlers which call the broker while a message is delivered are not modelled |
| C52 | Slice helper laws | proved | `c52_filter_reject_partition`, `c52_map`, `c52_uniq`, `c52_group_by`, `c52_others`, `c52_ternary` |  |
| C53 | Composite entry points choose by their flags | proved | `c53_hydra`, `c53_others` |  |
| C54 | What SkipAll does | proved | `c54_skip_all_from_a_file_cuts_its_directory`, `c04_skip_prunes_exactly_the_subtree` | c04 quantifies over every skip value, SkipAll included |
| C55 | What SkipDir from a file does | proved | `c55_universal_skip_from_a_file_has_no_effect`, `c55_files_skip_dir_ends_the_traversal` |  |
| C56 | The case sensitivity setting decides the sort | partial | `c56_case_setting_not_honoured_refuted`, `c56_case_setting_is_ignored` | REFUTED: the setting is never consulted; what works is C59 |
| C57 | Going to sleep is not an error | partial | `c57_sleep_returns_skip_all_refuted`, `c57_sleep_returns_nil_partial` | REFUTED: with the Files subscription Navigate returns fs.SkipAll; the partial theorem proves it for every other subscription |
| C58 | What tapping after chaining does | proved | `c58_hook_meaning`, `c58_only_taps` |  |
| C59 | The case sensitive sort hook gives byte order | proved | `c59_case_sensitive_hook` |  |
| C60 | The options of one session can be reused for another | partial | `c60_options_can_be_reused_partial`, `c60_own_sample_filter_twice_refuted` | REFUTED for a client's own custom sample filter, whose listener is chained twice; proved for every other session |
| C61 | Reused options keep their life cycle handlers | partial | `c61_handlers_lost_refuted` | REFUTED: the events of the given options are replaced; no handler is ever called |
| C62 | A blank filter definition is ignored | proved | `c62_blank_definition_ignored`, `c62_blank_child_ignored` |  |
| C63 | What an extended glob filter does | proved | `c63_answer`, `c63_list_always_answers`, `c63_filtered_session` |  |
| C64 | Hibernation conditions do not depend on the filter options | partial | `c64_custom_filter_replaces_conditions_refuted`, `c64_custom_filter_replaces_parts_refuted`, `c64_invalid_own_filter_refuses_parts`, `c64_wakes_at_once_refuted` | REFUTED: a client's own node filter replaces both conditions; without filter options see C30 |
| C65 | An unusable filter definition is reported as an error | partial | `c65_unusable_definitions_panic_refuted`, `c65_refused_partial`, `c65_child_refused_partial`, `c65_sample_refused_partial`, `c65_nil_wake_is_true_refuted` | REFUTED for five kinds of definitions; proved for undefined type, regex which does not compile, extended glob without bar, unusable child and sample filters |
| C66 | The options of a resumed session | proved | `c66_resume_options` |  |
| C67 | A damaged state file is reported as an error | partial | `c67_damaged_state_refuted`, `c67_load_outcome_partial`, `c67_resume_refused_partial`, `c67_resume_panics_refuted` | REFUTED: a document without options makes the load panic, one without state the construction of the navigator; a file which cannot be read or decoded is refused with that error and nothing else happens |
| C68 | A walk with the default options | proved | `c68_visits_everything`, `c68_in_order`, `c68_entries_of_a_directory` |  |
| C69 | Skip requests in a resumed session | partial | `c69_skip_ends_a_spawn_resume_refuted`, `c36_fastward_is_the_rest_partial` | REFUTED for spawn: SkipDir on a spawned entry ends the resume; holds for fastward |
| C70 | A resume with an undefined strategy | proved | `c70_undefined_strategy` |  |
| C71 | A fastward resume of a files subscription never starts | proved | `c71_files_fastward_is_silent` |  |
| C72 | Nodes of a resumed session | partial | `c72_nodes_differ_refuted`, `c34_spawn_listing` | REFUTED: spawned entries have no parent and the saved depth, whatever their level; proved what they do have |
| C73 | The metrics of a fastward resume | proved | `c73_fastward_counts_its_own` |  |
| C74 | How a resumed session is configured | proved | `c74_resumed_as_prime` |  |
| C75 | A node filter leaves the children of the nodes alone | partial | `c75_node_filter_takes_children_refuted` | REFUTED: with a directories-with-files subscription and a node filter alone, the nodes come without their files; the theorem states what happens for every such session |
| C76 | A client's own filter | proved | `c76_own_filter_session`, `c76_own_filter_refused` |  |
| C77 | Concurrency settings | proved | `c77_concurrency_settings` |  |
| C78 | What sub paths are with any tree path | proved | `c78_sub_path_loses_characters`, `c78_root_item_hook` |  |
| C79 | The callback's answers in a concurrent run | proved | `c79_answers_do_not_matter`, `c79_pool_error` |  |
| C80 | Sessions do not accumulate handlers | proved | `c80_sessions_leave_one_handler` |  |
| C81 | Sessions in several goroutines | partial | `c81_sessions_race_refuted`, `c81_one_session_partial` | REFUTED: Navigate writes the maps of the process-wide broker without synchronisation; proved when only one session is starting |
| C82 | A stored session is not overwritten | partial | `c82_same_second_overwrites_refuted`, `c82_kept_partial` | REFUTED: the file name has seconds only; proved for sessions of different kinds or different seconds |
| C83 | Where an interrupted session is stored | proved | `c83_place`, `c83_failure`, `c83_stored` | nef.ResolvePath is a parameter |
| C84 | Directories a spawn resume cannot read | proved | `c84_unreadable_on_the_way`, `c84_no_error_means_all_read` |  |
| C85 | Navigating again with the same navigator | partial | `c85_again_partial`, `c85_prime_sessions`, `c85_counters_accumulate`, `c85_result_counts_refuted`, `c85_asleep_for_good` | REFUTED: the counters of earlier navigations are included, and a navigator which fell asleep never wakes again; everything else proved to be as for a new navigator |
| C86 | The error returned after a panic | partial | `c86_saved_or_not_partial`, `c86_cause_lost_refuted` | REFUTED: the panic value is not part of the error; whether it was stored is |
| C87 | Querying the result | partial | `c87_queries_partial`, `c87_refused_refuted` | REFUTED: the result of a session which could not be built panics on every query; proved for the others |
| C88 | The time a session took | partial | `c88_elapsed_partial`, `c88_elapsed_grows_refuted` | REFUTED: Elapsed is the time since the start, also after the end |
| C89 | A session is complete only if it was not interrupted | partial | `c89_spawn_partial`, `c89_always_complete_refuted` | REFUTED: prime and fastward sessions are always complete; proved for spawn |
| C90 | The file systems of a resumed session | proved | `c90_kinds_must_agree`, `c90_agreeing_kinds` |  |
| C91 | A resume which cannot be built | proved | `c91_failed_resume` |  |
| C92 | A concurrent resume | proved | `c92_run_is_walk`, `c92_exactly_once`, `c92_no_deadlock` | given, as in C45, that Release of the pool library lets accepted inputs be worked on |
| C93 | A worker pool which cannot be made | partial | `c93_again_partial`, `c93_error_sticks_refuted`, `c93_close_panics_refuted` | REFUTED: a first error is returned for ever, a later one is a panic (the closed channel is closed again); proved when the pool can be made each time |
| C94 | The filter counts of an interrupted session | partial | `c94_filtered_counts_lost_refuted`, `c35_saved_metrics_are_added` | REFUTED: the counts of the filter are never saved; the other counts are (C35) |
| C95 | The skip handler is asked about errors of the callback | partial | `c95_asked_without_error_refuted`, `c95_not_asked_after_error_refuted`, `c95_skip_all_refuted` | REFUTED: the handler is asked where the callback returned nil, never after an error of the callback, and fs.SkipAll does not end the traversal; see C96 for what it does |
| C96 | What the skip handler does | proved | `c96_skip_handler`, `c96_listing` | for callbacks which return nil, without filter and hibernation, and handlers which do not give fs.SkipAll with the answer dir; C100 has neither restriction on answers |
| C97 | The fault handler decides what a failing root gives | proved | `c97_fault`, `c97_from_the_facade` |  |
| C98 | Outputs of a concurrent run | proved | `c98_at_all_times`, `c98_all_outputs` | callbacks return; contract of the pool library in Pool.v and Output.v |
| C99 | Navigate returns whatever the client does with the outputs | partial | `c99_no_deadlock_partial`, `c99_terminates`, `c99_on_receiving_refuted`, `c99_nobody_receiving_refuted`, `c99_fitting` | REFUTED when On itself receives outputs (nothing ever happens), and when nobody receives more outputs than fit and no send times out; proved for a client receiving in a goroutine of its own |
| C100 | The complete course of a session | proved | `c100_course`, `c100_answers_and_listing`, `c100_predictable`, `c100_walk` | without filter and hibernation; the handler answers by path, object and read error |
| C101 | Visits follow the order of the listing | proved | `c101_visits_rise` |  |
| C102 | The course of a session with features | proved | `c102_course_with_features`, `c102_walk` | panics of filters and conditions included; the handler answers by path, object and read error |
| C103 | Node.Parent is the node the callback was given | proved | `c103_one_node_per_place`, `c103_parent_is_the_node_handed_out`, `c103_descend_before_extension`, `c103_ascend_metadata` |  |
| C104 | The panic handler influences only the error returned | proved | `c104_handler_reaches_only_the_error`, `c104_spawn_handler`, `c104_fastward_handler` |  |
| C105 | Error predicates recognise exactly their errors | partial | `c105_is`, `c105_recognised`, `c105_nothing_else`, `c105_pool_failure_refuted` | REFUTED for the failure to make a worker pool, which does not match ErrWorkerPoolCreationFailed; everything else is proved |
| C106 | Error texts say what happened | partial | `c106_texts_partial`, `c106_variables_partial`, `c106_poly_text_refuted`, `c106_panic_text_refuted` | REFUTED: the text of ErrPolyFilterIsInvalid is that of ErrFilterIsNil, and the text of the error after a panic cannot be rendered (its message names a field which does not exist); proved for all others, given that li18ngo renders the default message with the fields of the data |
| C107 | A forest function must give file systems | partial | `c107_missing_forest_refuted`, `c107_missing_forest`, `c107_forest`, `c107_asked_for_the_tree`, `c107_resume` | REFUTED: a prime session notifies Begin and then panics; a resume is refused for a nil forest but panics for a forest in which a file system is missing; everything else is proved |
| C108 | A handler of the loaded state stands for an edited file | partial | `c108_as_if_stored`, `c108_other_addons`, `c108_failed_load`, `c108_failed_load_refuted` | REFUTED for a failed load: the handler is then called with nil, and one which cannot take nil makes the construction panic instead of returning the error; everything else is proved |
| C109 | The error returned is logged | partial | `c109_prime`, `c109_skips_not_logged`, `c109_which_logger`, `c109_resume_refused`, `c109_resume_not_logged_refuted`, `c109_nil_logger_refuted` | REFUTED for resumes, which do not log the error they end with, and for a nil logger, with which every error becomes a panic; proved for prime sessions |
| C110 | The filtering sink receives the filters the traversal uses | partial | `c110_node_filter`, `c110_child_filter`, `c110_at_most_one_each`, `c110_delivered_is_asked`, `c110_nothing_without_filter`, `c110_own_and_sample_not_delivered_refuted`, `c110_delivered_although_refused_refuted`, `c110_nil_delivered_refuted`, `c110_poly_says`, `c110_applicable` | REFUTED for a client's own filter and for sample filters, which are never delivered (FilterReply.Sampler is never set), and for refused sessions: a node filter is delivered although the child filter is then refused; a definition of type custom without a custom filter delivers nil. Proved for node filters (glob, regex, extended glob) and child filters end to end, and for all settings that what is delivered is what the traversal asks. |
| C111 | Filter definitions are not consumed | partial | `c111_definition_changed_refuted`, `c111_only_scopes_change`, `c111_others_unchanged`, `c111_settled_once`, `c111_used_again`, `c111_used_again_as_options`, `c111_same_replies` | REFUTED in its first half: the scope in the client's definition is overwritten (extended glob; the parts of a poly filter). The second half is proved: only scopes change, a second time nothing changes, and sessions with the changed definitions are the same. |
| C112 | Enumeration values have telling texts | partial | `c112_always_a_text`, `c112_documented_text`, `c112_undeclared_text`, `c112_texts_differ`, `c112_metrics_share_text_refuted`, `c112_notifications_are_numbers_refuted`, `c112_scope_text`, `c112_scope_number`, `c112_scopes_differ` | REFUTED: the metrics for child files found and filtered out have the same text, and notifications are printed as numbers, not with the documented texts; everything else is proved |
| C113 | Nodes handed to the callback are not written any more | proved | `c113_given_away`, `c113_no_race` | prime sessions, sequential and concurrent; the windows in which the library writes to a node are in SpecShare.v with citations |
| C114 | A panic of any hook or handler below the root is rescued exactly once | partial | `c114_agrees_with_the_session_without_panics`, `c114_rescued_once_partial`, `c114_the_error_of_a_rescue`, `c114_what_escapes_partial`, `c114_nothing_swallowed`, `c114_panicking_panic_handler`, `c114_panicking_panic_handler_refuted`, `c114_ascend_handler_refuted`, `c114_saved_depth_refuted` | REFUTED: an Ascend handler which panics, or a panic handler which panics, makes the panic handler be called once per directory on the way up and the panic leaves the session; a Descend handler which panics makes the saved depth one too large. Proved: once and right when the panic and Ascend handlers do not panic (the saved depth when no Descend handler panics) |
| C115 | A session with a depth limit ends in every file system | proved | `c115_limited_depth_ends`, `c115_nothing_below_the_limit`, `c115_finite_tree_ends`, `c115_endless_without_limit` | one directory read yields a finite list of entries |
| C116 | The counts are those of the callbacks whatever fails | proved | `c116_counts_whatever_happens` |  |
| C117 | A resumed session which is interrupted again saves where it stopped | partial | `c117_spawn_saves_again`, `c117_fastward_saves_again`, `c117_no_panic_nothing_saved`, `c117_spawned_entry_escapes`, `c117_lost_refuted`, `c117_saved_depth_refuted` | REFUTED in two parts: a panic on an entry the spawn resume starts from (each following sibling on every level) escapes from Navigate and nothing is saved (c117_spawned_entry_escapes, c117_lost_refuted); the depth saved by a spawn resume which had climbed is not that of the directory (c117_saved_depth_refuted). Everywhere else proved. |
| C118 | Counts accumulate over any number of interruptions | proved | `c118_saved_counts_accumulate`, `c118_final_counts` |  |
| C119 | Nothing is lost over any number of interruptions | partial | `c119_nothing_lost_partial`, `c119_each_goes_on_where_saved_partial`, `c119_fastward_nothing_lost_partial`, `c119_fastward_goes_on_where_saved_partial`, `c119_from_facade_to_facade_partial`, `c119_fastward_from_facade_to_facade_partial`, `c119_what_is_read`, `c119_mixed_nothing_lost_partial`, `c119_mixed_from_facade_to_facade_partial` | Proved, also from facade to facade and document to document, by induction over the history for spawn resumes of trees in byte order (Universal subscription, no depth limit) and for fastward resumes of any order, depth limit and subscription but Files, and for histories which mix the two strategies (conditions of both), with sampling or without, without filters and hibernation (for which see C124-C126). Missing because false of the code: other orders with spawn, panics at entries of the tree itself (C33 refutations), trees with an entry of the same name as the tree and relative trees with fastward (C36 refutations), Files subscription with fastward (C71). |
| C120 | Only entered directories are read | proved | `c120_only_entered_directories_are_read`, `c120_entered_within_the_limit`, `c120_nothing_below_the_depth_limit` | For prime sessions, whose Descend is never muted. Sessions which panic out of Navigate included. |
| C121 | A client's own filter decides alone | proved | `c121_own_filter_decides_alone`, `c121_invalid_own_filter_refused` | For a callback which returns nil and without hibernation (for which see C64); the filter is not one which keeps state between calls. |
| C122 | Spelling of the list of an extended glob | proved | `c122_spelling_of_the_list`, `c122_same_session`, `c122_blank_item_refused` | Respelled items consist of printable ASCII without comma and bar; end to end for a callback which returns nil, without hibernation. |
| C123 | Conditional options | proved | `c123_prime`, `c123_resume` |  |
| C124 | A filter in a resumed session only selects | partial | `c124_spawn_selects`, `c124_spawn_visits_the_accepted`, `c124_spawn_nothing_lost_partial`, `c124_fastward_partial`, `c124_fastward_nothing_lost_partial`, `c124_from_facade_to_facade_partial`, `c124_pattern_from_facade_to_facade_partial`, `c124_fastward_from_facade_to_facade_partial`, `c124_fastward_pattern_from_facade_to_facade_partial`, `c124_fastward_loses_refuted` | REFUTED for fastward: the link which waits for the saved directory comes after the filter, so if the filter rejects this directory nothing at all is visited, no error is returned and the result is complete. Proved for fastward when it is accepted (callback which returns nil) and for spawn (any callback); with C33 and C36: the filtered walk which was stopped and its filtered resume together visit every accepted entry; with a glob or regex filter (scope not set, files or directories) or a filter of the client also from the facade, through the saved document, to the report of the resume (with or without sampling). Subscriptions other than DirectoriesWithFiles. |
| C125 | Hibernation in a resumed session | partial | `c125_spawn_waits_again`, `c125_spawn_partial`, `c125_fastward_is_the_rest`, `c125_fastward_partial`, `c125_spawn_loses_refuted`, `c125_fastward_loses_refuted` | REFUTED: the saved state does not say whether the session had woken (it always says retired, and nobody reads it), so a resume waits for the wake condition again. Spawn: when the node which woke the session lies before the point of resumption nothing is visited, no error is returned and the result is complete. Fastward: so too when the saved directory lies before that node, as its link only sees what hibernation lets through. Proved: what a resume visits for all conditions (spawn: the segment of the remaining walk; fastward: the rest of the segment from the saved node on), and that nothing is lost if there is no wake condition (spawn) or if the saved node is in the segment (fastward). Callback which returns nil; subscriptions other than DirectoriesWithFiles. |
| C126 | Going to sleep in a resumed session is not an error | partial | `c126_spawn_returns_skip_all_refuted`, `c126_spawn_awake_partial`, `c126_fastward_partial` | REFUTED for spawn: each entry is spawned as a root of its own, so the fs.SkipAll with which hibernation ends the walk is returned as the session's error and the result is incomplete, although the uninterrupted session returns nil. Proved: for spawn until the sleep notification; for fastward with a nil callback and subscriptions other than Files (see C57). |
| C127 | A resumed session is set up as the one which was saved | proved | `c127_set_up_as_before`, `c127_saved_settings_not_repeated`, `c127_same_resume` |  |

## Trusted base

* Coq's kernel (8.16.1, including its virtual machine, used by `vm_compute` in examples and counterexamples).
* `Print Assumptions` says "Closed under the global context" for every theorem of the manifest: no axiom is used. (The
  seven `Coq.ssr.ssrunder` constants which a scan of the loaded libraries lists come with loading ssreflect;
  no theorem depends on them.)
* My reading of the Go code. Every model definition cites its lines, and says where it simplifies.
* Go's semantics: evaluation order, defer/recover, map and slice behaviour as described in the comments. `int` and `uint`
  are unbounded except where a conversion or a bit operation is modelled (`int_of_uint`, scopes, JSON numbers).
* Library code, which enters as parameters or with a stated contract:
  * `path/filepath.Match` and `regexp` (record `matchers`): arbitrary functions;
  * `nefilim` (file systems, `PathCalc`): the prime sessions use the model's `clean`/`join`/`split_path` (Paths.v, checked
    against the documentation of path/filepath); resumed sessions take an arbitrary `PathCalc`, and each theorem says what
    it assumes of it;
  * `encoding/json` up to the text: documents are values; writing a value and reading it gives the same value. The
    treatment of strings which are not UTF-8 is modelled. Keys differing in case only, a key occurring twice, and
    enumeration numbers without a name are not represented;
  * `pants` (worker pool): contract at the head of Pool.v and Output.v; whether Release lets waiting inputs be worked on is a
    parameter (`draining`), the theorems say what holds in either case;
  * `sort.Slice` stability is not assumed where entries of a directory have distinct names; `strings.ToLower` is modelled
    for ASCII (other bytes unchanged);
  * `li18ngo.Text` renders the default message with the fields of its data (Errors.v); other languages are not represented; the `context` is passed along but consulted nowhere in the modelled code, so its cancellation has no effect on a session; clock values appear only as opaque arguments (Result.v, Save.v).

## What is modelled

`builders.go composites.go core/{core-defs,errors,filtering,hibernate,hooks,metrics,node}.go director.go driver.go extent.go
factories.go manifest.go scaffold.go session.go synchronise.go`, `collections/*`, `enums/*` (as data types),
`internal/enclave/supervisor.go`, `internal/feat/{filter,hiber,nanny,resume,sampling}`, `internal/filtering`,
`internal/kernel`, `internal/level`, `internal/opts`, `internal/opts/json`, `internal/persist`, `internal/services`,
`internal/third/bus`, the parts of `internal/third/lo` which the code uses, `life`, `locale/messages-errors.go`, `pref`, `tapable`.

## What is not modelled

* `examples`, `test`, `internal/laboratory`, `tfs` (interfaces), the rest of `locale`.
* The clock itself (instants are arguments of the model).
* The `FileInfo` the query status hook returns (only its error matters to the traversal).
* Bus handlers which call the broker while a message is being delivered: see C51's note.
* Sharing of slices: `Contents.All()` may share its array with the files or directories list. A hook which sorts in place and is
  not idempotent, called a second time for the children (`inspection.Sort(EntryTypeFile)` in the nanny and the child
  filter), could reorder what is still to be visited; the model keeps values. For idempotent sort hooks (the default ones)
  there is no difference.
* What a callback itself writes into a node it was given, other than by its answers.
* Files changing during a session other than in World.v (C114-C116; each directory is read once per session); symbolic links are entries which are not directories.
