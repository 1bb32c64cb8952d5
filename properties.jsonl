{"id": "C01", "title": "Universal walk visits every node exactly once, in depth-first pre-order", "statement": "Navigating with SubscribeUniversal, no features enabled and a callback that returns nil for every node, invokes the callback once for the tree root and once for every file and directory below it, in depth-first pre-order with the siblings in the order produced by the read and sort hooks and the directories-first/files-first setting; Navigate then returns a nil error.", "quantifier": "every finite directory tree, every sort hook that permutes its input, both entry orders, every read hook that returns a sub-list of the directory's entries", "why_tests_cant": "The claim ranges over all trees of any depth and width; a test walks a handful of fixtures.", "anchors": ["internal/kernel/navigator-agent.go:travel", "internal/kernel/navigator-universal.go:Traverse", "internal/kernel/contents.go:All"]}
{"id": "C02", "title": "Files and Directories subscriptions are exact projections of the universal walk", "statement": "With a nil-returning callback, SubscribeFiles invokes the callback on exactly the files of the universal walk in the same relative order and never on a directory; SubscribeDirectories invokes it on exactly the directories of the universal walk in the same relative order and never on a file.", "quantifier": "every finite tree whose root is a directory and whose directories are readable, every hook setting as in C01", "why_tests_cant": "Equality of three traversals over all trees cannot be sampled.", "anchors": ["internal/kernel/navigator-files.go:Traverse", "internal/kernel/navigator-directories.go:Traverse", "internal/kernel/navigator-universal.go:Traverse"]}
{"id": "C03", "title": "Node metadata given to the callback is right", "statement": "The node passed to the callback carries the path obtained by joining the tree path with the entry names on the way to it, a parent that is the containing directory (nil for the root), Extension.Depth equal to the number of edges from the root, IsLeaf exactly when it is a directory with no sub directories, and a scope that is tree at depth 0, top at depth 1, leaf for leaf directories and files, intermediate otherwise, plus the file or directory bit.", "quantifier": "every tree and every node in it at any depth, all three subscriptions, any callback behaviour", "why_tests_cant": "The metadata is maintained by a mutable depth counter that is incremented and decremented on every path including error and panic paths.", "anchors": ["internal/kernel/extend.go:extend", "internal/level/periscope.go:Scope", "core/node.go:New"]}
{"id": "C04", "title": "SkipDir from a directory callback prunes exactly that directory's subtree", "statement": "With the Universal or Directories subscription, when the callback returns fs.SkipDir (or an error wrapping it) for a directory, no descendant of this directory is visited and every other node is visited exactly as if that directory were empty; Navigate returns nil unless the root itself was skipped.", "quantifier": "every tree, every assignment of nil/SkipDir results to nodes, including history dependent callbacks", "why_tests_cant": "Every subset of nodes at which SkipDir is returned has to be covered.", "anchors": ["internal/kernel/navigator-agent.go:travel", "internal/kernel/navigator-universal.go:Traverse", "internal/kernel/navigator-directories.go:Traverse"]}
{"id": "C05", "title": "SkipAll stops the whole traversal", "statement": "When the callback returns fs.SkipAll, no further callback is invoked in the whole session (the documented meaning of fs.SkipAll).", "quantifier": "every tree, every node at which SkipAll is returned, every subscription", "why_tests_cant": "A break inside a switch inside a for loop behaves differently according to how many siblings follow and how deep the node is.", "anchors": ["internal/kernel/navigator-agent.go:travel"]}
{"id": "C06", "title": "SkipDir from a file callback skips the rest of the containing directory only", "statement": "When the callback returns fs.SkipDir for a file, the remaining entries of the containing directory are skipped and the traversal continues with the rest of the tree (the documented meaning for a file in fs.WalkDir and in the comment of travel).", "quantifier": "every tree, every file, Files and Universal subscriptions", "why_tests_cant": "The behaviour depends on the (progress, err) pair being propagated through an unbounded number of levels.", "anchors": ["internal/kernel/navigator-agent.go:travel", "internal/kernel/navigator-files.go:Traverse", "internal/kernel/navigator-universal.go:Traverse"]}
{"id": "C07", "title": "A callback error aborts the traversal and is returned", "statement": "When the callback returns an error that is neither SkipDir nor SkipAll, no further callback is invoked and Navigate returns that very error; conversely, if Navigate returns such an error without a panic then some callback returned it and that was the last callback.", "quantifier": "every tree, every node, every subscription, every history-dependent callback", "why_tests_cant": "The error must travel unchanged through any depth of recursion.", "anchors": ["internal/kernel/navigator-agent.go:travel", "internal/kernel/mediator.go:Navigate"]}
{"id": "C08", "title": "A panic below the root is rescued exactly once and ends the traversal", "statement": "If the callback panics on a node other than the tree root, Navigate does not panic: the rescue handler is called exactly once, no callback is invoked afterwards, and the returned error satisfies errors.Is(err, ErrCorePanicOccurred) whether or not saving succeeded.", "quantifier": "every tree, every non-root node at which a panic happens, every panic value, both outcomes of the rescue handler, every subscription", "why_tests_cant": "Crash points are unbounded: every node of every tree.", "anchors": ["internal/kernel/navigator-agent.go:travel", "locale/messages-errors.go", "pref/defects.go"]}
{"id": "C09", "title": "A panic is never propagated to the caller of Navigate", "statement": "A panic in the callback never escapes from Navigate, whatever the node.", "quantifier": "every tree, every node including the root", "why_tests_cant": "One needs the absence of an uncovered crash point.", "anchors": ["internal/kernel/navigator-agent.go:top", "internal/kernel/navigator-agent.go:travel"]}
{"id": "C10", "title": "The saved resume state identifies where the session stopped", "statement": "The state handed to the rescue handler records the original tree, the subscription, the depth and path of the directory being read when the panic happened, and the metrics accumulated at that point (callbacks invoked so far, including the panicking one).", "quantifier": "every tree and every crash point below the root", "why_tests_cant": "It relates an unbounded execution prefix to the data saved at the crash point.", "anchors": ["internal/kernel/navigator-agent.go:Save", "internal/kernel/author.go:write", "internal/kernel/navigation-vapour.go:active"]}
{"id": "C11", "title": "Descend and ascend notifications are balanced and properly nested", "statement": "In a session without resume, the descend and ascend notifications form a well bracketed sequence: every descend(n) is followed by a matching ascend(n), brackets nest exactly as the directories do, every callback on node n happens inside n's own bracket, and the depth counter is back to its initial value when Navigate ends or panics - for normal ends, skips, errors and panics alike.", "quantifier": "every tree, every callback behaviour (nil, skip, error, panic), every subscription and depth limit", "why_tests_cant": "Bracketing over error and panic paths at any nesting depth.", "anchors": ["internal/kernel/mediator.go:descend", "internal/kernel/mediator.go:ascend", "internal/level/periscope.go"]}
{"id": "C12", "title": "Depth limit", "statement": "With a cascade depth N>0 (below 2^63) and a nil-returning callback the callback is invoked on exactly the nodes the unlimited traversal would invoke it on whose depth is at most N, in the same order; with N=0 there is no limit.", "quantifier": "every tree, every N, every subscription", "why_tests_cant": "All N against all tree depths.", "anchors": ["internal/level/periscope.go:Descend", "internal/kernel/mediator.go:descend", "pref/options.go"]}
{"id": "C13", "title": "NoRecurse is depth limit one", "statement": "NoRecurse, whatever depth was configured, visits exactly the root and its immediate entries.", "quantifier": "every tree, every configured depth", "why_tests_cant": "Ranges over trees and configurations.", "anchors": ["internal-traverse-defs.go", "pref/options.go"]}
{"id": "C14", "title": "Every depth setting visits at least the root", "statement": "For every value of the unsigned cascade depth, the callback is invoked at least for the tree root (universal subscription).", "quantifier": "every uint value of the depth option", "why_tests_cant": "2^64 values; the conversion uint to int is only wrong for half of them.", "anchors": ["internal/level/periscope.go:Descend"]}
{"id": "C15", "title": "Invocation metrics equal the callbacks made", "statement": "When Navigate ends (normally, with an error, or after a rescued panic), MetricNoFilesInvoked and MetricNoDirectoriesInvoked of the result equal the number of callback invocations made for files and for directories.", "quantifier": "every tree, callback behaviour, filter, hibernation and depth configuration of a prime sequential session", "why_tests_cant": "Counting over all executions.", "anchors": ["internal/kernel/guardian.go:anchor.Next", "internal/enclave/supervisor.go", "core/metrics.go"]}
{"id": "C16", "title": "Begin is first, End is last, each exactly once", "statement": "In a successfully built prime session that does not panic at the root, the Begin notification precedes, and the End notification follows, every descend, callback and ascend, and each occurs exactly once, with Begin carrying the tree and End the result.", "quantifier": "every tree, callback behaviour and configuration", "why_tests_cant": "Order over all executions.", "anchors": ["driver.go", "internal/kernel/mediator.go:Ignite", "internal/kernel/mediator.go:Bye"]}
{"id": "C17", "title": "A failed build never touches the client", "statement": "If the session cannot be built (invalid facade, option error, plugin error), Navigate returns that error, the callback is never invoked and Begin/End are not notified.", "quantifier": "every combination of build errors and trees", "why_tests_cant": "Combination of failure points.", "anchors": ["builders.go", "internal/kernel/navigator-hades.go", "driver.go"]}
{"id": "C18", "title": "An unreadable directory does not abort the traversal", "statement": "With the default skip handler, when reading a directory fails, the traversal continues with the remaining siblings; nodes not below an unreadable directory are visited exactly as before and Navigate does not report the read error.", "quantifier": "every tree and every set of unreadable directories, all subscriptions", "why_tests_cant": "Every subset of failing directories.", "anchors": ["internal/kernel/navigator-agent.go:travel", "internal/kernel/navigator-files.go:Traverse", "pref/defects.go", "internal/kernel/navigation-fs.go"]}
{"id": "C19", "title": "The order of visiting siblings", "statement": "Within each directory, with default options all sub directories are visited before all files (files before directories with SortFilesFirst), each group being in the order of the sort hook; with a case-insensitive sort whose keys are distinct the visiting order does not depend on the order in which the file system lists entries.", "quantifier": "every directory content in every listing order", "why_tests_cant": "All permutations.", "anchors": ["internal/kernel/contents.go", "pref/defaults.go"]}
{"id": "C20", "title": "A node filter selects callbacks and nothing else", "statement": "With a node filter configured (glob, regex, glob-ex, poly or custom) the callback is invoked on exactly those nodes of the unfiltered traversal that the filter matches, in the same order: in particular descendants of a rejected directory are still visited.", "quantifier": "every tree, every filter predicate, every subscription", "why_tests_cant": "Universally quantified filter predicates and trees.", "anchors": ["internal/feat/filter/scheme-native.go", "internal/feat/filter/schemes.go", "internal/kernel/guardian.go:iterate"]}
{"id": "C21", "title": "Filter metrics account for every visited node", "statement": "With a node filter, files invoked + files filtered out and directories invoked + directories filtered out equal the numbers of files and directories visited by the traversal.", "quantifier": "every tree, filter and nil-returning callback", "why_tests_cant": "Counting over all trees.", "anchors": ["internal/feat/filter/schemes.go", "internal/kernel/guardian.go:anchor.Next"]}
{"id": "C22", "title": "Negation and scope of a filter", "statement": "A glob or regex filter answers, for every node within its scope, exactly the negation of what it answers without Negate; for every node outside its scope the answer is IfNotApplicable (true unless set to false) irrespective of Negate and the pattern; an undefined scope means every node.", "quantifier": "every pattern, node, scope, negation and tri-state value", "why_tests_cant": "All combinations of scopes and nodes.", "anchors": ["internal/filtering/base.go", "internal/filtering/glob.go", "internal/filtering/regex.go"]}
{"id": "C23", "title": "The extended glob filter", "statement": "A glob-ex filter matches a file in a directory accepted by its directory glob iff its base name is not excluded and its extension is one of the listed suffixes (or the list says any), without regard to letter case.", "quantifier": "every pattern string and node name", "why_tests_cant": "Unbounded strings.", "anchors": ["internal/filtering/glob-ex.go"]}
{"id": "C24", "title": "The poly filter", "statement": "A poly filter matches every directory, and matches a file iff the file filter matches the file and the directory filter matches its parent directory.", "quantifier": "every pair of filters and every node", "why_tests_cant": "Universally quantified filters.", "anchors": ["internal/filtering/poly.go", "internal/filtering/new-filter.go"]}
{"id": "C25", "title": "Directories with files: children", "statement": "With SubscribeDirectoriesWithFiles the callback is invoked on exactly the directories, each carrying as Children exactly the files of this directory, sorted; the MetricNoChildFilesFound total equals the number of files in visited directories.", "quantifier": "every tree, sort hook and depth limit", "why_tests_cant": "All trees.", "anchors": ["internal/feat/nanny/nanny-plugin.go", "internal/kernel/navigator-directories.go"]}
{"id": "C26", "title": "Child filter", "statement": "With a child filter, the Children given to a directory callback are exactly the directory's files which match, in sorted order; found + filtered out child counts equal the number of files.", "quantifier": "every tree and child predicate", "why_tests_cant": "All trees and predicates.", "anchors": ["internal/feat/filter/scheme-nanny.go", "internal/filtering/child.go"]}
{"id": "C27", "title": "A configured filter never makes the traversal panic", "statement": "Whatever combination of subscription and filters is accepted by the build, navigating a readable tree with a callback that does not panic does not fail with a panic error.", "quantifier": "every accepted configuration", "why_tests_cant": "Combination of configuration and node kinds.", "anchors": ["internal/feat/filter/scheme-nanny.go", "internal/kernel/navigation-vapour.go:clear"]}
{"id": "C28", "title": "Sampling bounds the entries taken from each directory", "statement": "With sampling of n files and m directories, in each directory exactly min(n, #files) files and min(m, #directories) directories are taken, namely the first ones (the last ones in reverse) in listing order, where 0 means all; nothing else of this directory is visited and the traversal descends only into the sampled directories.", "quantifier": "every tree, every n, m, direction", "why_tests_cant": "All quantities against all directory sizes.", "anchors": ["internal/feat/sampling/controller.go"]}
{"id": "C29", "title": "Sample filter", "statement": "A sample filter keeps exactly the matching entries of the kinds in its scope and all the entries of the other kinds.", "quantifier": "every list of entries, predicate and scope", "why_tests_cant": "All scopes and entry lists.", "anchors": ["internal/filtering/sample.go", "internal/feat/filter/scheme-sampler.go"]}
{"id": "C30", "title": "Hibernation delivers one contiguous segment", "statement": "With hibernation, the callback is invoked exactly on the contiguous segment of the plain traversal which starts at the first node matching the wake condition (after it when not inclusive; at the root when there is no wake condition) and ends at the first later node matching the sleep condition (before it unless inclusive); no callback after this.", "quantifier": "every tree, wake and sleep predicate, all four inclusive settings", "why_tests_cant": "All positions of wake/sleep nodes in all trees.", "anchors": ["internal/feat/hiber/hibernate-simple-profile.go"]}
{"id": "C31", "title": "Wake and Sleep notifications", "statement": "Wake and Sleep notifications are each sent at most once per session, Wake only before Sleep, at the node where the state changes.", "quantifier": "every tree, predicate and callback behaviour", "why_tests_cant": "History property.", "anchors": ["internal/feat/hiber/hibernate-simple-profile.go", "life/events.go"]}
{"id": "C32", "title": "The decorator chain order", "statement": "The links decorating the client are consulted in the declared role order with the client last, every invocation consults a prefix of that order, and the client is invoked iff every preceding link agrees; unwinding a link removes just this one.", "quantifier": "every sequence of decorate/unwind operations and every link behaviour", "why_tests_cant": "All operation sequences.", "anchors": ["internal/kernel/guardian.go", "collections/positional-set.go"]}
{"id": "C33", "title": "Spawn resume visits exactly what had not been visited", "statement": "Resuming an interrupted universal traversal with the spawn strategy visits every node not yet visited and no node visited before, except the interrupted directory's own level.", "quantifier": "every tree and every crash point", "why_tests_cant": "Two executions related across all crash points.", "anchors": ["internal/feat/resume/strategy-spawn.go"]}
{"id": "C34", "title": "What a spawn resume visits", "statement": "A spawn resume from path p below the tree visits, in this order, for each ancestor level from p upwards, the full subtrees of those entries of the parent directory which follow (by byte order of the name; including p itself at the first level), in sorted order, and never any other node.", "quantifier": "every tree and resume point, nil-returning callback", "why_tests_cant": "All trees and resume points.", "anchors": ["internal/feat/resume/strategy-spawn.go"]}
{"id": "C35", "title": "A resumed result accumulates the metrics of the interrupted session", "statement": "After a spawn resume, each metric of the result equals the saved count plus what the resumed session adds; the result is complete iff the resume climbed to the original tree.", "quantifier": "every saved state, tree and callback behaviour", "why_tests_cant": "All histories of two sessions.", "anchors": ["core/metrics.go:Merge", "internal/kernel/mediator.go:Bridge", "internal/feat/resume/strategy-spawn.go"]}
{"id": "C36", "title": "Fastward resume delivers the suffix from the resume point", "statement": "A fastward resume makes no callback before the first node which matches the saved path, and from this node on makes exactly the callbacks the original traversal would.", "quantifier": "every tree and resume point other than the root", "why_tests_cant": "All resume points.", "anchors": ["internal/feat/resume/strategy-fastward.go", "internal/kernel/guardian.go:Unwind"]}
{"id": "C37", "title": "Fastward resume mutes notifications before the resume point and restores all of them after", "statement": "During a fastward resume no descend/ascend/wake/sleep notification is sent before the resume point, and from there on all notifications are sent as in the original session.", "quantifier": "every tree and resume point", "why_tests_cant": "History property.", "anchors": ["life/events.go:MuteAll", "life/events.go:UnmuteAll", "internal/feat/resume/strategy-fastward.go"]}
{"id": "C38", "title": "Saving and loading options is lossless on the persisted fields", "statement": "Converting options to the persisted form and back yields options equal to the original on every persisted field, and marshalling then unmarshalling reports no inequality.", "quantifier": "every option record", "why_tests_cant": "Records with many optional parts.", "anchors": ["internal/persist/json-options.go", "internal/persist/marshaler.go"]}
{"id": "C39", "title": "The options comparison detects tampering", "statement": "The comparison done when a saved session is loaded reports an error iff some persisted field differs.", "quantifier": "every pair of option records", "why_tests_cant": "All pairs.", "anchors": ["internal/persist/comparison.go"]}
{"id": "C40", "title": "Hook tapping and chaining", "statement": "After any sequence of Tap, Chain and Default operations the handler invoked is determined by the documented rule: the last tapped handler, followed by all the chained listeners in order of chaining.", "quantifier": "every sequence of operations on every hook", "why_tests_cant": "All operation sequences.", "anchors": ["tapable/hooks.go", "tapable/broadcasters.go"]}
{"id": "C41", "title": "Notification control", "statement": "A dispatched notification calls every registered handler once, in registration order, unless muted, in which case it calls none; MuteAll followed by UnmuteAll leaves every notification enabled.", "quantifier": "every sequence of On/Mute/Unmute/Dispatch operations", "why_tests_cant": "All operation sequences.", "anchors": ["life/events.go"]}
{"id": "C42", "title": "Positional set refines an ordered set with a pinned last element", "statement": "After any sequence of operations, Items lists exactly the inserted and not deleted valid elements in the declared order with the anchor last, Contains and Count agree with Items, and Items never returns a stale value.", "quantifier": "every order, anchor and operation sequence", "why_tests_cant": "All operation sequences.", "anchors": ["collections/positional-set.go"]}
{"id": "C43", "title": "Stack is last-in first-out", "statement": "After any sequence of pushes and pops, pops return the elements in reverse order of the pushes, size and content agree, popping an empty stack gives the documented error and leaves it unchanged.", "quantifier": "every operation sequence", "why_tests_cant": "All operation sequences.", "anchors": ["collections/stack.go"]}
{"id": "C44", "title": "Iterators enumerate exactly once, in order", "statement": "A forward (reverse) iterator driven by Start/Valid/Next yields every element exactly once, in (reverse) order, then is invalid forever; RunAll applies each to the longest prefix on which while holds plus the element that broke it.", "quantifier": "every slice, function and predicate", "why_tests_cant": "All slices.", "anchors": ["collections/iterators.go"]}
{"id": "C45", "title": "Concurrent run executes the callback once per visited node", "statement": "Run executes the callback exactly once for each node the sequential Walk would visit (callback returning nil), under every schedule of the workers, and only then returns; at most NoW callbacks run at the same time and the input channel never exceeds its size.", "quantifier": "every schedule, number of workers, channel size and tree", "why_tests_cant": "Schedules are unbounded.", "anchors": ["concurrent-defs.go", "synchronise.go"]}
{"id": "C46", "title": "Concurrent run cannot deadlock", "statement": "Under every schedule some step is possible until all the jobs have been executed and the session has ended.", "quantifier": "every schedule, number of workers at least 1, channel size", "why_tests_cant": "Schedules are unbounded.", "anchors": ["synchronise.go", "concurrent-defs.go"]}
{"id": "C47", "title": "Sub paths", "statement": "The sub path of a node (default hook) is the path of its parent directory relative to the tree.", "quantifier": "every tree path and node path, of any characters", "why_tests_cant": "Unbounded strings.", "anchors": ["pref/defaults.go:DefaultSubPathHook", "internal/kernel/extend.go"]}
{"id": "C48", "title": "Filter scope bit operations", "statement": "Setting, clearing, testing and scrubbing scopes behave as set union, difference, membership and intersection with the file/directory bits.", "quantifier": "every 32 bit scope value", "why_tests_cant": "2^32 values pairwise.", "anchors": ["enums/filter-scope-en.go"]}
{"id": "C49", "title": "Options are applied in order and stop at the first error", "statement": "Options are applied left to right, nil options are skipped, the first error stops the application and is reported; later options override earlier ones for the same setting.", "quantifier": "every list of options", "why_tests_cant": "All lists.", "anchors": ["internal/opts/get-push.go", "pref/options.go"]}
{"id": "C50", "title": "Facade validation", "statement": "A prime facade is accepted iff it has a tree, a subscription and a handler; a resume facade iff it has a path, a strategy and a handler; the first violated requirement determines the error.", "quantifier": "every facade", "why_tests_cant": "All combinations.", "anchors": ["pref/facade.go", "scaffold.go"]}
{"id": "C51", "title": "Event bus delivery", "statement": "Emitting a topic calls exactly the currently registered handlers whose matcher accepts the topic; emitting an unregistered topic is an error; deregistering removes exactly that handler.", "quantifier": "every sequence of broker operations", "why_tests_cant": "All operation sequences.", "anchors": ["internal/third/bus/broker.go"]}
{"id": "C52", "title": "Slice helper laws", "statement": "The slice helpers used by the traversal keep their algebraic laws: Filter/Reject partition in order, Map preserves length and order, Uniq keeps first occurrences, GroupBy partitions.", "quantifier": "every slice and predicate", "why_tests_cant": "All slices.", "anchors": ["internal/third/lo"]}
{"id": "C53", "title": "Composite entry points choose by their flags", "statement": "Hydra, Hare, Tortoise and Goldfish select prime or resume and sequential or concurrent exactly by their two flags / one flag.", "quantifier": "every flag combination and facade", "why_tests_cant": "Finite but relational.", "anchors": ["composites.go"]}
{"id": "C54", "title": "What SkipAll does", "statement": "When the callback answers fs.SkipAll for a directory (Universal, Directories), exactly the subtree of this directory is left out; when it does so for a file (Files subscription), exactly the later entries of the file's directory, and what is below them, are left out; the rest of the tree is visited.", "quantifier": "every tree, every callback that answers nil or a skip", "why_tests_cant": "Depends on every combination of tree and answers.", "anchors": ["internal/kernel/navigator-agent.go:travel"]}
{"id": "C55", "title": "What SkipDir from a file does", "statement": "SkipDir answered for a file has no effect with the Universal subscription; with the Files subscription it ends the traversal and Navigate returns it.", "quantifier": "every tree, every callback", "why_tests_cant": "Depends on every combination of tree and answers.", "anchors": ["internal/kernel/navigator-agent.go:travel", "internal/kernel/navigator-files.go", "internal/kernel/navigator-universal.go"]}
{"id": "C56", "title": "The case sensitivity setting decides the sort", "statement": "Setting Sort.IsCaseSensitive makes siblings be visited in case sensitive order (the hook's comment says the sort behaviour is so determined).", "quantifier": "every tree, every options value", "why_tests_cant": "Must hold for all names.", "anchors": ["core/hooks.go", "pref/defaults.go", "pref/options.go"]}
{"id": "C57", "title": "Going to sleep is not an error", "statement": "When hibernation goes to sleep and the callback never fails, Navigate returns nil, for every subscription.", "quantifier": "every tree, subscription and sleep condition", "why_tests_cant": "Depends on where in the tree the sleep condition matches.", "anchors": ["internal/feat/hiber/hibernate-simple-profile.go", "internal/kernel/navigator-files.go"]}
{"id": "C58", "title": "What tapping after chaining does", "statement": "For every sequence of Tap and Chain on a hook, the function invoked is: the last function tapped after the first Chain, alone, if there is one; otherwise the last one tapped before (or the default) followed by all the chained listeners in order; without any Chain, the last function tapped.", "quantifier": "every sequence of Tap and Chain operations", "why_tests_cant": "Sequences are unbounded.", "anchors": ["tapable/hooks.go", "tapable/broadcasters.go"]}
{"id": "C59", "title": "The case sensitive sort hook gives byte order", "statement": "With WithHookCaseSensitiveSort (and no later sort hook), two entries of one directory which are both files or both directories are visited in byte order of their names.", "quantifier": "every tree, every list of options whose last sort hook is the case sensitive one", "why_tests_cant": "Must hold for all names and trees.", "anchors": ["pref/options-hooks.go:WithHookCaseSensitiveSort", "pref/defaults.go:CaseSensitiveSortHook"]}
{"id": "C60", "title": "The options of one session can be reused for another", "statement": "After a session was built, building another one with the same tree, subscription and handler and the first one's options (Using.O) gives a session with the same callbacks in the same order, the same returned error and the same metrics, whatever option functions are also given.", "quantifier": "every facade, every list of option functions, every tree and callback", "why_tests_cant": "The options are mutated by the plugins when a session is built; only a general argument shows that it does not matter the second time.", "anchors": ["pref/facade.go:Using", "scaffold.go", "pref/options.go"]}
{"id": "C61", "title": "Reused options keep their life cycle handlers", "statement": "The Begin, End, Ascend, Descend, Wake and Sleep handlers which were set on options still get called in a session which is given these options through Using.O.", "quantifier": "every options value and tree", "why_tests_cant": "Must hold for all histories.", "anchors": ["pref/facade.go:Using", "pref/options.go", "internal/opts/get-push.go"]}
{"id": "C62", "title": "A blank filter definition is ignored", "statement": "Giving a node filter definition without a pattern and without a poly definition is the same as giving no filter: same callbacks, same result, same metrics.", "quantifier": "every tree, every other setting without hibernation and every such definition (any type, scope, negation)", "why_tests_cant": "All settings and trees.", "anchors": ["pref/options-filter.go:IsNodeFilteringActive", "internal/feat/filter/schemes.go"]}
{"id": "C63", "title": "What an extended glob filter does", "statement": "With a well formed extended glob pattern a file is visited iff the name of its parent directory, disregarding case, matches the directory glob and not the exclusion, and going through the items in order the first one which is negated or matches the file's name (case sensitively against the lower case item) decides: a negated item accepts the names it does not match; the result is flipped by Negate. Directories and files in other directories get IfNotApplicable.", "quantifier": "every well formed pattern, every tree, every glob matching function", "why_tests_cant": "Unbounded patterns and names.", "anchors": ["internal/filtering/glob-ex.go", "internal/filtering/builders.go"]}
{"id": "C64", "title": "Hibernation conditions do not depend on the filter options", "statement": "The wake and sleep definitions decide when a session wakes and sleeps, whatever filter options are given.", "quantifier": "every wake and sleep definition and all filter options", "why_tests_cant": "Combination of settings.", "anchors": ["internal/feat/hiber/hibernate-plugin.go", "internal/filtering/new-filter.go"]}
{"id": "C65", "title": "An unusable filter definition is reported as an error", "statement": "A filter definition which cannot be used (wrong type for its role, missing parts, pattern which does not compile) makes Navigate return an error without invoking the callback; it does not panic.", "quantifier": "every filter definition: node, child, sample", "why_tests_cant": "All combinations of type and role.", "anchors": ["internal/filtering/builders.go", "internal/filtering/sample.go", "internal/filtering/child.go", "internal/feat/filter/schemes.go"]}
{"id": "C66", "title": "The options of a resumed session", "statement": "A session resumed from a saved file has the behaviours, sampling settings, filter definitions, hibernation settings and number of workers of the interrupted session; hooks, handlers, custom filters and channel sizes are the defaults; then the options given to the resume are applied on top, in order. The saved path, tree, depth, subscription and the invoked and child counts are as saved.", "quantifier": "every options value and saved state whose texts are UTF-8, every list of options given to the resume", "why_tests_cant": "Ranges over all option records.", "anchors": ["internal/persist/json-options.go:FromJSON", "internal/feat/resume/resume-plugin.go:Load", "internal/opts/load.go:Bind"]}
{"id": "C67", "title": "A damaged state file is reported as an error", "statement": "Loading a state file which is not a complete saved session gives an error; it never panics.", "quantifier": "every JSON document", "why_tests_cant": "All documents.", "anchors": ["internal/persist/marshaler.go:Unmarshal", "internal/feat/resume/resume-plugin.go:Load"]}
{"id": "C68", "title": "A walk with the default options", "statement": "Navigate without options, on a directory and with a callback returning nil, calls the callback once for each object of the tree the subscription is about, except objects named .DS_Store (and what is inside them) and the content of unreadable directories; in pre-order, sub directories before files, each group ordered by name disregarding case.", "quantifier": "every tree, every subscription", "why_tests_cant": "All trees; end to end from the facade.", "anchors": ["pref/defaults.go:DefaultReadEntriesHook", "pref/defaults.go:DefaultCaseInSensitiveSortHook", "pref/options.go:DefaultOptions", "internal/kernel/navigator-agent.go"]}
{"id": "C69", "title": "Skip requests in a resumed session", "statement": "SkipDir and SkipAll returned by the callback of a resumed session mean the same as in an ordinary session.", "quantifier": "every tree, resume point and callback, both strategies", "why_tests_cant": "All trees and callbacks.", "anchors": ["internal/feat/resume/strategy-spawn.go:seed", "internal/kernel/navigator-agent.go"]}
{"id": "C70", "title": "A resume with an undefined strategy", "statement": "A resume whose facade names no strategy walks the whole tree from its root again, calling the callback for every node exactly as an ordinary session would, with the same error and metrics, but sends no notifications.", "quantifier": "every tree, saved state, callback and features", "why_tests_cant": "All trees and callbacks.", "anchors": ["internal/feat/resume/resume-plugin.go", "internal/feat/resume/controller.go"]}
{"id": "C71", "title": "A fastward resume of a files subscription never starts", "statement": "With a files subscription a fastward resume from a saved directory below the tree makes no callback and sends no notification at all.", "quantifier": "every tree, saved directory and callback", "why_tests_cant": "All trees.", "anchors": ["internal/feat/resume/strategy-fastward.go", "internal/kernel/navigator-files.go"]}
{"id": "C72", "title": "Nodes of a resumed session", "statement": "The nodes given to the callback of a spawn resume have the same depth and parent as those of an ordinary session.", "quantifier": "every tree and resume point", "why_tests_cant": "All trees.", "anchors": ["internal/feat/resume/strategy-spawn.go:seed", "internal/kernel/mediator.go:Spawn"]}
{"id": "C73", "title": "The metrics of a fastward resume", "statement": "The result of a fastward resume counts the callbacks this session made, and not those of the interrupted session.", "quantifier": "every tree, saved state, callback and features", "why_tests_cant": "All trees and histories.", "anchors": ["internal/feat/resume/strategy-fastward.go"]}
{"id": "C74", "title": "How a resumed session is configured", "statement": "A resumed session is built exactly like an ordinary session whose tree, subscription and handler are those of the saved state and the facade, and whose settings are the saved options followed by the settings given to the resume.", "quantifier": "every saved session (UTF-8 texts), list of settings and environment", "why_tests_cant": "All option records and settings.", "anchors": ["scaffold.go", "extent.go", "internal/feat/resume/resume-plugin.go:Load"]}
{"id": "C75", "title": "A node filter leaves the children of the nodes alone", "statement": "With a directories-with-files subscription, the nodes which a node filter accepts reach the callback with the files of the directory as their children, as without the filter.", "quantifier": "every tree and node filter", "why_tests_cant": "All trees and filters.", "anchors": ["internal/feat/filter/filter-plugin.go", "internal/feat/filter/schemes.go", "internal/kernel/navigator-directories.go"]}
{"id": "C76", "title": "A client's own filter", "statement": "A custom filter given in the filter options selects the nodes the callback is invoked for; if its Validate returns an error, Navigate returns that error and invokes nothing.", "quantifier": "every tree, custom filter and options", "why_tests_cant": "All filters.", "anchors": ["internal/feat/filter/schemes.go", "pref/options-filter.go"]}
{"id": "C77", "title": "Concurrency settings", "statement": "A session uses the number of workers asked for last (the number of CPUs if not asked for), an input channel as large as that number, and, if output is on, an output channel of the size asked for or else the number of workers.", "quantifier": "every list of settings", "why_tests_cant": "All option lists.", "anchors": ["pref/options-concurrency.go", "pref/options.go"]}
{"id": "C78", "title": "What sub paths are with any tree path", "statement": "With the default hooks and a tree path in UTF-8, the sub path of a node is where its parent lies below the tree, without as many characters at its start as the tree path has more bytes than characters; the root has an empty one.", "quantifier": "every tree path and names in UTF-8", "why_tests_cant": "Unbounded strings.", "anchors": ["pref/defaults.go:DefaultSubPathHook", "internal/kernel/extend.go"]}
{"id": "C79", "title": "The callback's answers in a concurrent run", "statement": "In a concurrent run what the callback answers (errors, skips) has no effect on what is visited, on the notifications, the result or its metrics: they are those of a sequential walk with a callback returning nil. If the worker pool cannot be made its error is returned and no callback made.", "quantifier": "every tree, options and callback", "why_tests_cant": "All trees and callbacks.", "anchors": ["synchronise.go", "internal/kernel/guardian.go"]}
{"id": "C80", "title": "Sessions do not accumulate handlers", "statement": "After any number of sessions there is exactly one handler on the bus for the end of navigation, and none for the other topics.", "quantifier": "every number of sessions", "why_tests_cant": "Unbounded histories.", "anchors": ["driver.go", "internal/services/broker.go"]}
{"id": "C81", "title": "Sessions in several goroutines", "statement": "Several sessions may be navigated at the same time in different goroutines.", "quantifier": "every schedule", "why_tests_cant": "Schedules are unbounded.", "anchors": ["driver.go", "internal/services/broker.go", "internal/third/bus/broker.go"]}
{"id": "C82", "title": "A stored session is not overwritten", "statement": "The state stored for an interrupted session stays readable when later sessions are interrupted and stored in the same place.", "quantifier": "every pair of sessions, states and moments", "why_tests_cant": "Depends on the clock and on histories of sessions.", "anchors": ["internal/kernel/author.go", "core/core-defs.go"]}
{"id": "C83", "title": "Where an interrupted session is stored", "statement": "The state of a session interrupted by a panic is stored in the file <prime or resume>.panic.<second>.json, in the resolved admin path, or in agenor/admin/resume below it if it does not already end that way; no other file changes. It is stored unless the directory cannot be made or the file not written: then the error is that of the file system and no other file changes.", "quantifier": "every admin path, moment, options, state and file system", "why_tests_cant": "All paths, states and failures.", "anchors": ["internal/kernel/author.go", "internal/persist/marshaler.go", "core/core-defs.go"]}
{"id": "C84", "title": "Directories a spawn resume cannot read", "statement": "A spawn resume which meets a directory it cannot read on the way from the tree to the resume point ends with that error; if it ends without an error every such directory was read.", "quantifier": "every tree, resume point, options and callback", "why_tests_cant": "Trees and resume points are unbounded.", "anchors": ["internal/feat/resume/strategy-spawn.go"]}
{"id": "C85", "title": "Navigating again with the same navigator", "statement": "A navigator may be navigated several times; each navigation behaves like the first navigation of a new navigator built in the same way, and its result describes that navigation only.", "quantifier": "every navigator, sequence of trees and client", "why_tests_cant": "Histories of navigations are unbounded.", "anchors": ["driver.go", "factories.go", "internal/kernel/mediator.go", "internal/feat/hiber/hibernate-simple-profile.go"]}
{"id": "C86", "title": "The error returned after a panic", "statement": "After a callback panics below the root, the error returned tells whether the session was stored and carries what the callback panicked with.", "quantifier": "every tree, options, callback and panic value", "why_tests_cant": "All panics at all moments.", "anchors": ["internal/kernel/navigator-agent.go", "locale/messages-errors.go"]}
{"id": "C87", "title": "Querying the result", "statement": "Whatever Navigate returns, the result it returns may be queried (metrics, session) without a panic.", "quantifier": "every facade, settings, tree and outcome", "why_tests_cant": "All ways a session can fail.", "anchors": ["internal/enclave/kernel-result.go", "internal/enclave/supervisor.go", "internal/kernel/navigator-hades.go"]}
{"id": "C88", "title": "The time a session took", "statement": "After the session ended, the Elapsed of its result is the time it took.", "quantifier": "every start, end and moment of the query", "why_tests_cant": "All moments.", "anchors": ["session.go"]}
{"id": "C89", "title": "A session is complete only if it was not interrupted", "statement": "The IsComplete of the result is true exactly if the session ended without an error.", "quantifier": "every prime and resume session", "why_tests_cant": "All sessions.", "anchors": ["extent.go", "session.go", "synchronise.go"]}
{"id": "C90", "title": "The file systems of a resumed session", "statement": "A stored session is resumed only with file systems of the same kind (relative or absolute) as it was stored with, for the traversal and for the resume state; otherwise Navigate returns an error naming the wrong one and nothing is visited. With matching file systems it is built like the prime session with the same tree, subscription, handler and options.", "quantifier": "every stored session, file systems, settings and strategy", "why_tests_cant": "All states and file systems.", "anchors": ["scaffold.go"]}
{"id": "C91", "title": "A resume which cannot be built", "statement": "A resume which cannot be built, for whatever reason, makes no callback and enters no directory and returns an error; the client is notified of nothing, or of a begin and an end with nothing counted.", "quantifier": "every restore file, facade, settings, strategy and tree", "why_tests_cant": "All ways to fail.", "anchors": ["builders.go", "scaffold.go", "internal/kernel/navigator-hades.go"]}
{"id": "C92", "title": "A concurrent resume", "statement": "A resumed session run concurrently executes the callback exactly once for each node the sequential resume visits with a callback returning nil, begun in that order; its result, notifications and metrics do not depend on what the callback answers; it cannot deadlock.", "quantifier": "every stored session, settings, strategy, number of workers, channel size and schedule", "why_tests_cant": "Schedules are unbounded.", "anchors": ["synchronise.go", "builders.go", "extent.go"]}
{"id": "C93", "title": "A worker pool which cannot be made", "statement": "When the worker pool of a concurrent run cannot be made, Navigate returns that error; navigating again succeeds if the pool can then be made.", "quantifier": "every sequence of navigations of one navigator, trees and answers of the pool library", "why_tests_cant": "Histories are unbounded.", "anchors": ["synchronise.go"]}
{"id": "C94", "title": "The filter counts of an interrupted session", "statement": "After a spawn resume the counts of filtered out nodes in the result include those of the interrupted session.", "quantifier": "every interrupted session and every resume of it", "why_tests_cant": "All sessions and moments of interruption.", "anchors": ["internal/kernel/author.go", "internal/kernel/navigation-vapour.go", "internal/enclave/supervisor.go"]}
{"id": "C95", "title": "The skip handler is asked about errors of the callback", "statement": "The handler given with WithSkipHandler is invoked if the client callback returns an error during traversal; with it the client can terminate the traversal early or skip the remaining items of a directory.", "quantifier": "every tree, callback, handler and subscription", "why_tests_cant": "All trees, callbacks and handlers.", "anchors": ["pref/defects.go:WithSkipHandler", "internal/kernel/navigator-universal.go", "internal/kernel/navigator-files.go", "internal/kernel/navigator-directories.go"]}
{"id": "C96", "title": "What the skip handler does", "statement": "With a callback which returns nil, the handler is asked about each node (Files: about each directory), with the error of reading it. A skip answer keeps the session from going below that node (Directories: only the answer all does); its error, if any, ends the session and is returned by Navigate, except that below the root a skip error is dropped (but not with the answer dir of the Universal subscription). Everything else is visited as without the handler.", "quantifier": "every tree, hooks, depth limit, subscription and handler whose answer depends on the path, the object and the read error (and does not give fs.SkipAll with the answer dir)", "why_tests_cant": "All trees and handlers.", "anchors": ["internal/kernel/navigator-universal.go", "internal/kernel/navigator-files.go", "internal/kernel/navigator-directories.go", "internal/kernel/navigator-agent.go:travel"]}
{"id": "C97", "title": "The fault handler decides what a failing root gives", "statement": "When the tree path cannot be stat-ed, Navigate returns exactly what the fault handler returns for that error, nil included; no callback is made, the begin and end notifications are sent and all counts are zero.", "quantifier": "every configuration, tree path and error", "why_tests_cant": "All configurations.", "anchors": ["internal/kernel/navigator-agent.go:top", "pref/defects.go:WithFaultHandler"]}
{"id": "C98", "title": "Outputs of a concurrent run", "statement": "In a concurrent run with WithOutput the client receives exactly one output for each node of the walk, holding that node and the error the callback returned for it, if it receives them in a goroutine of its own and no send times out. At every moment, whatever the client does and whether sends time out or not, what has been received is at most one output for each execution of the callback, with its node and its error.", "quantifier": "every session, number of workers, channel sizes, answers of the callback, consumer and schedule", "why_tests_cant": "Schedules are unbounded.", "anchors": ["synchronise.go:Navigate", "core/async.go:TraverseOutput", "pref/options-concurrency.go:WithOutput"]}
{"id": "C99", "title": "Navigate returns whatever the client does with the outputs", "statement": "A concurrent run with WithOutput cannot deadlock, whatever the On function does with the channel it is given and whether the outputs are received or not.", "quantifier": "every session, number of workers, channel sizes, consumer and schedule", "why_tests_cant": "Schedules are unbounded.", "anchors": ["synchronise.go:Navigate", "pref/options-concurrency.go:OutputOptions", "internal-traverse-defs.go:afterwards"]}
{"id": "C100", "title": "The complete course of a session", "statement": "Which nodes are visited and what Navigate returns is fixed by one pass over the listing of the tree: after nil the skip handler decides; an error of the callback ends the session and is returned, except that fs.SkipDir and fs.SkipAll below the root leave out what is below the node (Universal, Directories), and that fs.SkipAll on a file below the top level leaves out the rest of its directory (Files); the answer dir of the handler with fs.SkipAll leaves out the rest of the directory (Universal, below the top level); a panic ends the session, with a rescue error below the root. Everything not left out is visited, once, in the order of the listing.", "quantifier": "every tree, hooks, depth limit, subscription, callback (also one which remembers its calls), skip handler answering by path, object and read error, and every mixture of their answers; without filter and hibernation", "why_tests_cant": "All trees, callbacks, handlers and mixtures of answers.", "anchors": ["internal/kernel/navigator-agent.go:travel", "internal/kernel/navigator-universal.go", "internal/kernel/navigator-files.go", "internal/kernel/navigator-directories.go"]}
{"id": "C101", "title": "Visits follow the order of the listing", "statement": "Nodes are visited in the order of the listing (a directory before what is below it, an entry with all below it before the next entry), and none is visited twice.", "quantifier": "every tree, hooks, callback, skip handler, filter, sampling and hibernation", "why_tests_cant": "All trees, callbacks and combinations of features.", "anchors": ["internal/kernel/navigator-agent.go:travel", "internal/kernel/mediator.go"]}
{"id": "C102", "title": "The course of a session with features", "statement": "With hibernation, a filter, a callback and a skip handler at once, what is visited and what Navigate returns follows from one pass over the listing: each node met is given to the wake or sleep condition, then to the filter, and only if both let it through to the callback; nodes kept back count as answered with nil, those met after the sleep condition held as answered with fs.SkipAll; what is left out and how the session ends follows from the answers as without features.", "quantifier": "every tree, hooks, depth limit, subscription, callback, skip handler, filter, sampling, wake and sleep conditions, panicking or not, and every mixture of their answers", "why_tests_cant": "All trees and combinations of features.", "anchors": ["internal/kernel/guardian.go", "internal/feat/hiber/hibernate-simple-profile.go", "internal/feat/filter/scheme-custom.go", "internal/kernel/navigator-agent.go:travel"]}
{"id": "C103", "title": "Node.Parent is the node the callback was given", "statement": "Within a session every place has one node: the callback, the ascend notification and the Parent of the entries below it all show the same node, with the same extension and children, and the library changes nothing in it after handing it to the callback. The node of a descend notification has no extension and no children yet, but its Parent is complete.", "quantifier": "every tree, hooks, callback (nil, skip, error, panic), skip handler, subscription, filter, sampling and hibernation", "why_tests_cant": "All trees, callbacks and combinations of features.", "anchors": ["internal/kernel/mediator.go:descend", "internal/kernel/mediator.go:ascend", "internal/kernel/extend.go:extend", "core/node.go:Node"]}
{"id": "C104", "title": "The panic handler influences only the error returned", "statement": "Two sessions which differ only in their panic handler (what it answers: a destination or a reason) make the same visits with the same nodes, send the same notifications and end with the same metrics; they return the same outcome unless a panic was handled, and then both return an error which matches the core panic error. The same for spawn and fastward resumes, whose results are also equally complete.", "quantifier": "All trees, callbacks, features and pairs of panic handlers (functions of the history, the panic and the saved state).", "why_tests_cant": "All pairs of handlers and all points of panic.", "anchors": ["internal/kernel/navigator-agent.go:travel", "locale/messages-errors.go:NewTraversalSavedError", "locale/messages-errors.go:NewTraversalNotSavedError"]}
{"id": "C105", "title": "Error predicates recognise exactly their errors", "statement": "Each Is... function answers true for what the New... function of the same kind returns, whatever the particulars and however that error is wrapped or joined with others, and for nothing else a client can meet or make (but the exported variable it looks for); errors.Is finds an exported error variable exactly where it lies in the unwrap tree. The failure to make a worker pool matches ErrWorkerPoolCreationFailed.", "quantifier": "every error tree made of the library's errors, other errors, wrapping and joining, and all particulars", "why_tests_cant": "All error trees and particulars.", "anchors": ["core/errors.go:NewBrokerTopicNotFoundError", "core/errors.go:IsBrokerTopicNotFoundError", "locale/messages-errors.go:IsCorePanicOccurredError", "locale/messages-errors.go:ErrWorkerPoolCreationFailed", "synchronise.go:Navigate"]}
{"id": "C106", "title": "Error texts say what happened", "statement": "The Error method of every error of the library returns a text which says what happened and contains the particulars given (pattern, topic, tree, destination of the saved session, reason for not saving); different error variables have different texts.", "quantifier": "every constructor, all particulars, every session which ends in a panic", "why_tests_cant": "All particulars and all points of panic.", "anchors": ["locale/messages-errors.go:ErrPolyFilterIsInvalid", "locale/messages-errors.go:TraversalSavedTemplData", "locale/messages-errors.go:TraversalNotSavedTemplData", "core/errors.go:NewInvalidPeriscopeRootPathError"]}
{"id": "C107", "title": "A forest function must give file systems", "statement": "A session whose GetForest function returns nil, or a forest without a file system to traverse, is refused with an error and nothing is notified, for prime and for resume. The function is asked for the tree of the session (of the saved one when resuming); any other forest makes a prime session behave as with the native file system over the same entries.", "quantifier": "all forest functions, facades, settings, trees and stored sessions", "why_tests_cant": "All functions and configurations.", "anchors": ["scaffold.go:buildForest", "scaffold.go:newResumePlatform", "internal/kernel/mediator.go:Navigate", "core/core-defs.go:Forest"]}
{"id": "C108", "title": "A handler of the loaded state stands for an edited file", "statement": "The first addon given to Configure which has an OnLoad method is given the loaded state; the resume is then the one of a session stored with the state as the handler left it (visits, notifications, error, metrics, completeness). Other addons have no effect. If the state cannot be loaded, the error of that is returned whatever the addons.", "quantifier": "all lists of addons, handlers, stored sessions, strategies, settings and trees", "why_tests_cant": "All handlers and stored sessions.", "anchors": ["extent.go:options", "extent.go:seek", "internal/enclave/enclave-defs.go:StateHandler"]}
{"id": "C109", "title": "The error returned is logged", "statement": "The error which Navigate returns, unless it is (or wraps) fs.SkipDir or fs.SkipAll, has been written to the session's logger exactly once, and nothing else has been; the logger is the last one given with WithLogger (or that of the options given), and does not influence the session otherwise.", "quantifier": "all sessions, prime and resumed, built or refused, and all lists of settings", "why_tests_cant": "All sessions and outcomes.", "anchors": ["internal/kernel/mediator.go:Navigate", "stock/error.go:IsBenignError", "builders.go:buildAll", "pref/options-log.go:WithLogger"]}
{"id": "C110", "title": "The filtering sink receives the filters the traversal uses", "statement": "A client which gives a Sink in its FilterOptions receives, before any node is visited, each filter created for the session exactly once: the node filter first, then the child filter; the filter received has the description, pattern and scope of the definition and is the one consulted, so that the callback is invoked for exactly the nodes (and given exactly the children) which the received filter accepts. A session which is refused delivers nothing.", "quantifier": "every tree, subscription, choice of other options and filter definition", "why_tests_cant": "tests look at a few definitions and do not compare the received filter's answers with the callbacks", "anchors": ["pref/options-filter.go:FilterReply", "pref/options-filter.go:FilteringSink", "internal/feat/filter/scheme-native.go:create", "internal/feat/filter/scheme-nanny.go:create", "internal/feat/filter/scheme-custom.go:create", "internal/feat/filter/scheme-sampler.go:create", "internal/feat/filter/scheme-hybrid.go:create", "internal/filtering/base.go:Description", "internal/filtering/poly.go:Description"]}
{"id": "C111", "title": "Filter definitions are not consumed", "statement": "The filter definitions a client passes are the client's: building a session does not change them, and passing the same definitions to a further session yields the same filters and the same traversal.", "quantifier": "every filter definition, every tree and choice of other options", "why_tests_cant": "tests make a new definition for each session, so that a change to a definition goes unnoticed", "anchors": ["internal/filtering/builders.go:buildPolyNodeFilter", "internal/filtering/glob-ex.go:createGlobExFilter", "internal/filtering/new-filter.go:New", "pref/options-filter.go:WithFilter"]}
{"id": "C112", "title": "Enumeration values have telling texts", "statement": "The String method of every enumeration answers for every value of its type without a panic: a declared value with the text documented beside its declaration, any other with the name of the type and the number; different values have different texts.", "quantifier": "every enumeration of the package enums and every value its type can hold", "why_tests_cant": "the types are unsigned integers of 32 and 64 bits; tests print a few declared values", "anchors": ["enums/entry-type-en-auto.go:String", "enums/metric-en-auto.go:String", "enums/notification-en-auto.go:String", "enums/filter-scope-en-auto.go:String", "enums/role-en-auto.go:String", "enums/subscription-en-auto.go:String"]}
{"id": "C113", "title": "Nodes handed to the callback are not written any more", "statement": "Once the callback has been called with a node (in a concurrent run: once the node has been sent to the workers), the library never writes again to that node or to any node reachable from it through Parent, so that callbacks running concurrently with the traversal, and clients which keep nodes, read them without a data race.", "quantifier": "every tree, configuration of a prime session, number of workers, channel size and schedule", "why_tests_cant": "a race shows only under particular schedules; tests run a few with small trees", "anchors": ["internal/kernel/extend.go:extend", "internal/kernel/navigation-vapour.go:AssignChildren", "internal/feat/nanny/nanny-plugin.go:Next", "internal/kernel/guardian.go:iterate", "internal/kernel/navigator-agent.go:travel", "synchronise.go:Navigate"]}
{"id": "C114", "title": "A panic of any hook or handler below the root is rescued exactly once", "statement": "Whatever panics while the entries of a directory are processed (the callback, a filter, the read, sort or sub path hook, the skip handler, a life cycle handler), and however the file system changes meanwhile: the panic handler is called once, with the state of the directory whose entries were being processed and the counts of the callbacks made so far; after it only the pending Ascend notifications and End follow; the session returns the error made from the handler's answer. No panic is swallowed. Only what happens before the first entry of the root, in the root's Ascend or in End can leave the session as a panic.", "quantifier": "every tree, configuration, and behaviour of the hooks, defect handlers and life cycle handlers, which may depend on everything that happened before, change their answers and panic at any point", "why_tests_cant": "the panicking hook, the moment and the depth range over all histories; tests panic in a callback only", "anchors": ["internal/kernel/navigator-agent.go:travel", "internal/kernel/navigator-agent.go:top", "internal/kernel/navigator-universal.go:Traverse", "internal/kernel/navigator-files.go:Traverse", "internal/kernel/navigator-directories.go:Traverse", "internal/kernel/mediator.go:descend", "internal/kernel/mediator.go:ascend", "life/events.go:Dispatch"]}
{"id": "C115", "title": "A session with a depth limit ends in every file system", "statement": "With a depth limit (WithDepth) a session ends, whatever the file system looks like and however it changes while it is traversed (links to ancestors which are followed, directories being created without end): the nesting is bounded by the limit. Without a limit it ends when every directory read yields only what is in a finite tree; otherwise it need not end.", "quantifier": "every limit, tree, file system behaviour, configuration and callback, and any panics", "why_tests_cant": "no finite test shows termination, and tests use finite unchanging trees", "anchors": ["internal/level/periscope.go:Descend", "internal/kernel/mediator.go:descend", "internal/kernel/navigator-agent.go:travel", "pref/options-navigation-behaviours.go:WithDepth"]}
{"id": "C116", "title": "The counts are those of the callbacks whatever fails", "statement": "At the end of any session, also one which panicked, was rescued several times, or whose file system changed under it, the invoked files and directories metrics equal the numbers of callbacks made for files and directories.", "quantifier": "every tree, configuration and behaviour of hooks and handlers, including panics at any point", "why_tests_cant": "ranges over all histories and all points at which something may panic", "anchors": ["internal/kernel/navigator-agent.go:travel", "internal/kernel/guardian.go:iterate", "internal/kernel/mediator.go:Navigate", "core/metrics.go:Metrics"]}
{"id": "C117", "title": "A resumed session which is interrupted again saves where it stopped", "statement": "When the callback of a resumed session panics, the rescue handler is called exactly once with a state which records the original tree, the subscription, the directory being traversed (path, depth), and the counts: those saved before plus the callbacks made (spawn), or the callbacks of this session (fastward). The result is not complete, and Navigate returns the handler's answer.", "quantifier": "every saved state, file system, path calculator, configuration and callback, both strategies", "why_tests_cant": "All histories of an interrupted and a resumed session.", "anchors": ["internal/feat/resume/strategy-spawn.go:seed", "internal/feat/resume/strategy-fastward.go", "internal/kernel/navigator-agent.go", "internal/kernel/mediator.go:Bridge"]}
{"id": "C118", "title": "Counts accumulate over any number of interruptions", "statement": "When a session is interrupted and resumed (spawn) and interrupted again any number of times, the counts saved last, and those of the final result, are the numbers of callbacks for files and directories made by all these sessions together, and the tree is the original one.", "quantifier": "every number of interruptions; every file system, configuration and callback, which may be different each time", "why_tests_cant": "Histories of unbounded length.", "anchors": ["core/metrics.go:Merge", "internal/kernel/mediator.go:Bridge", "internal/kernel/navigator-agent.go", "internal/feat/resume/strategy-spawn.go"]}
{"id": "C119", "title": "Nothing is lost over any number of interruptions", "statement": "A traversal is interrupted by a panic of the callback, resumed from what was saved, interrupted again, and so on any number of times, each time with another callback, until a resumed session finishes. Then the sessions together called the callback for every entry of the tree and for nothing else; every resumed session calls for a stretch of the listing which starts at the directory saved before, and the last one to the end of it. This holds for spawn and for fastward resumes, and when a resumed session which saved nothing is started once more from the older state.", "quantifier": "every number of interruptions, every callback in every session, every tree, path calculator and saved state of such a history", "why_tests_cant": "All histories of interruptions.", "anchors": ["internal/feat/resume/strategy-spawn.go:seed", "internal/feat/resume/strategy-spawn.go:crown", "internal/feat/resume/strategy-fastward.go", "internal/kernel/navigator-agent.go"]}
{"id": "C120", "title": "Only entered directories are read", "statement": "The file system is read only in directories for which Descend was notified: if another file system lists the same entries (and reports the same errors) there, whatever it does elsewhere - other entries, errors, files added or removed below - the session is the same one: the same notifications, nodes and result. What is entered is part of the tree and not deeper than the depth limit, so nothing below the limit matters; a file is never read as a directory.", "quantifier": "every tree, every pair of ReadDirectory hooks agreeing on the entered directories, every subscription, callback, handler, filter, sampling, hibernation and depth limit", "why_tests_cant": "Compares a session with all file systems which differ anywhere it did not go.", "anchors": ["internal/kernel/navigation-fs.go", "internal/kernel/navigator-universal.go", "internal/kernel/navigator-directories.go", "internal/kernel/navigator-files.go", "internal/kernel/mediator.go"]}
{"id": "C121", "title": "A client's own filter decides alone", "statement": "With a filter of the client's own in the filter options (and no child filter), the callback is called for exactly the nodes it accepts, in the order and with the outcome of the session without filter, each node counted as invoked or filtered out; node and sample definitions given beside it, usable or not, do not matter. A filter which says that it is not valid makes Navigate return its error, and nothing is called.", "quantifier": "every filter of the client answering by the node alone, every other definitions, every tree, subscription other than directories-with-files, depth, sampling and hooks", "why_tests_cant": "Ranges over all filters and all trees, and over every definition which is to have no effect.", "anchors": ["internal/feat/filter/scheme-custom.go", "internal/feat/filter/schemes.go", "pref/options-filter.go"]}
{"id": "C122", "title": "Spelling of the list of an extended glob", "statement": "Two extended glob definitions which differ only in the letter case of the items of their list and in the white space (space, tab, line ends) around the items are the same: both are refused with the same error, or both sessions visit the same nodes in the same order and return the same. An item which is only white space is not left out as an empty item is: the definition is refused.", "quantifier": "every list of items, every spelling of it, every directory part, tree, glob matcher and other settings", "why_tests_cant": "Ranges over all lists and all spellings of them, and over every matcher.", "anchors": ["internal/filtering/glob-ex.go", "internal/filtering/builders.go"]}
{"id": "C123", "title": "Conditional options", "statement": "A conditional option (IfOption, IfOptionF, IfElseOptionF) has in its place among the options exactly the effect of the chosen option, or none at all when nothing is chosen; an option which was not chosen can do nothing, not even fail.", "quantifier": "every list of options before and after, every condition and option, prime and resume sessions, every tree and store", "why_tests_cant": "Ranges over all lists of options and sessions.", "anchors": ["pref/options.go:IfOption", "pref/options.go:IfOptionF", "pref/options.go:IfElseOptionF", "internal/opts/get-push.go"]}
{"id": "C124", "title": "A filter in a resumed session only selects", "statement": "A resume of a session with a node filter calls the callback for exactly those nodes which the filter accepts among the nodes for which a resume from the same state without a filter calls it, in the same order; so no accepted entry which was still due is lost.", "quantifier": "every tree, filter, saved state and both strategies", "why_tests_cant": "Every filter at every point of every tree.", "anchors": ["internal/feat/resume/strategy-fastward.go:Next", "internal/feat/resume/strategy-spawn.go:seed", "internal/kernel/guardian.go:arrange", "internal/feat/filter/scheme-native.go:next"]}
{"id": "C125", "title": "Hibernation in a resumed session", "statement": "Resuming an interrupted session which has a wake and a sleep condition visits the nodes of the uninterrupted session's segment which had not been visited: an already woken session does not have to wake again, and nothing which was due is lost.", "quantifier": "every tree, wake and sleep condition, point of interruption and both strategies", "why_tests_cant": "Every pair of conditions at every point of every tree.", "anchors": ["internal/kernel/navigation-vapour.go:active", "internal/feat/resume/strategy-fastward.go:Next", "internal/feat/resume/strategy-spawn.go:seed", "internal/feat/hiber/hibernate-simple-profile.go:next"]}
{"id": "C126", "title": "Going to sleep in a resumed session is not an error", "statement": "A resumed session which goes to sleep returns what it would have returned without hibernation: no error, and a complete result.", "quantifier": "every tree, wake and sleep condition, saved state and both strategies", "why_tests_cant": "Sleep may come at any point of any tree.", "anchors": ["internal/feat/resume/strategy-spawn.go:seed", "internal/feat/hiber/hibernate-simple-profile.go:next", "internal/kernel/mediator.go:Spawn"]}
{"id": "C127", "title": "A resumed session is set up as the one which was saved", "statement": "A session resumed with the settings with which it was begun is the session which was begun, with the handler and position given by the resume: the same depth limit, order, hooks, filter, sampling and hibernation. The settings which the saved document holds (navigation behaviours, filters, sampling, hibernation) need not be given again, unless a filter is custom.", "quantifier": "every combination of With functions, facade, tree and subscription, saved state of valid UTF-8, resume strategy and handler", "why_tests_cant": "The settings combine in any number and order; a test can compare only a few combinations and only by what they do on a few trees.", "anchors": ["builders.go:buildAll", "internal/persist/marshaler.go:Unmarshal", "internal/opts/load.go:Bind"]}
