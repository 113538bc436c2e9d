{"id": "C01", "title": "execute returns the values the functions define", "statement": "If Driver.execute / FunctionGraph.execute with the default executor returns, then every requested variable is mapped to the value obtained by evaluating the dataflow from scratch: an overridden variable has its override, an external input its supplied value, and any other variable the value of its function applied to the values of its available dependencies. Memoisation and the in-flight discarding of intermediate results never change a returned value.", "quantifier": "every finite acyclic dataflow, every assignment of functions to nodes, every inputs/overrides dictionary, every list of requested variables", "why_tests_cant": "Discarding of intermediate results depends on the shape of the whole graph, on the traversal order and on which nodes were requested; tests only see a handful of shapes, while an unsound discard would need a particular diamond/request combination to show.", "anchors": ["hamilton/execution/graph_functions.py: execute_subdag, dfs_traverse", "hamilton/graph.py: FunctionGraph.execute", "hamilton/driver.py: DefaultGraphExecutor.execute"]}
{"id": "C02", "title": "each function runs at most once per execute", "statement": "During one execute call with the default executor no node's function is invoked twice, even though results are discarded from memory while the traversal is running.", "quantifier": "every finite acyclic dataflow, inputs, overrides, request list, and every behaviour (success or exception) of the functions", "why_tests_cant": "A discarded value that is needed again would be silently recomputed: correct answers, double side effects. Requires the right combination of graph shape and request order.", "anchors": ["hamilton/execution/graph_functions.py: execute_subdag (memo check 181, pruning 232-243)"]}
{"id": "C03", "title": "execute runs only what the request needs", "statement": "A function is invoked during execute only if its node lies upstream of (or is) a requested variable along a path on which no node, including itself, is overridden.", "quantifier": "every dataflow, inputs, overrides, request list, function behaviour", "why_tests_cant": "A statement about absence of effects for all graphs; tests check specific counters on specific graphs.", "anchors": ["hamilton/execution/graph_functions.py: execute_subdag", "hamilton/driver.py: Driver.execute, __raw_execute"]}
{"id": "C04", "title": "overrides cut the graph", "statement": "If a variable is overridden its function is not invoked, the value seen by every consumer (and returned when requested) is the override, and changing the functions or inputs that are only reachable through overridden variables cannot change any returned value.", "quantifier": "every dataflow, override set, request list and every pair of function/input assignments that agree off the cut", "why_tests_cant": "A non-interference (2-run) property; unit tests compare single runs.", "anchors": ["hamilton/execution/graph_functions.py: execute_subdag 183-185"]}
{"id": "C05", "title": "validated inputs never turn into a missing-input failure", "statement": "If the driver's input validation for a request (inputs plus config, overrides) accepts, the execution that follows never fails with the 'was expected to be passed in but was not' error; and if validation rejects, some external variable upstream of the request really is required, unsupplied and not overridden.", "quantifier": "every dataflow with required and optional parameters, every inputs/config/overrides dictionary and request list", "why_tests_cant": "Validation and execution are two different graph walks with two different notions of 'required'; agreement must hold for all graphs.", "anchors": ["hamilton/driver.py: Driver.validate_inputs", "hamilton/execution/graph_functions.py: node_is_required_by_anything, execute_subdag", "hamilton/graph.py: get_upstream_nodes"]}
{"id": "C06", "title": "execute succeeds whenever the functions do", "statement": "On an acyclic dataflow, if every external variable that some upstream node requires is supplied or overridden and no invoked function raises, then execute terminates without error and the answer has an entry for every requested variable that is not a missing optional input.", "quantifier": "every finite acyclic dataflow, inputs, overrides, request list, total functions", "why_tests_cant": "Totality/termination over all graphs and depths.", "anchors": ["hamilton/execution/graph_functions.py: execute_subdag"]}
{"id": "C07", "title": "dependencies run first and are handed over completely", "statement": "Whenever a function is invoked, every one of its parameters whose variable has a value (input, override or computed) is passed with exactly that value, and only parameters naming absent optional inputs are left to their defaults; the functions of the dependencies were invoked earlier in the run.", "quantifier": "every dataflow, inputs, overrides, request list; every invocation in the run", "why_tests_cant": "A value discarded too early would silently make a parameter fall back to its default instead of failing; only visible for optional parameters on specific shapes.", "anchors": ["hamilton/execution/graph_functions.py: execute_subdag 201-204, 232-243"]}
{"id": "C08", "title": "the order in which variables are requested is irrelevant", "statement": "Two execute calls that differ only in the order (or repetition) of the requested variables return the same value for every variable and invoke the same set of functions.", "quantifier": "every dataflow, inputs, overrides and every permutation/duplication of the request list", "why_tests_cant": "n! orders for every graph.", "anchors": ["hamilton/execution/graph_functions.py: execute_subdag 245-251", "hamilton/driver.py: DefaultGraphExecutor.execute"]}
{"id": "C09", "title": "an exception stops the run at the failing function", "statement": "If some invoked function raises, execute raises that same exception, no further function is invoked after the failing one, and every function invoked earlier had returned normally.", "quantifier": "every dataflow, inputs, overrides, request list and every set of failing functions", "why_tests_cant": "All fault positions in all graphs.", "anchors": ["hamilton/execution/graph_functions.py: execute_subdag, execute_lifecycle_for_node", "hamilton/driver.py: Driver.execute"]}
{"id": "C10", "title": "requested results are never discarded", "statement": "At every moment of an execute call, the result of a requested variable that has been computed stays available until execute returns; an intermediate result is discarded only after every consumer of it has been computed.", "quantifier": "every dataflow, request list, and every intermediate moment of the traversal", "why_tests_cant": "An invariant of every intermediate state, not of the final answer.", "anchors": ["hamilton/execution/graph_functions.py: execute_subdag 225-243"]}
{"id": "C11", "title": "node hooks are paired around every node execution", "statement": "For each node execution, all pre_node_execute hooks run first, then the function (or the replacing do_node_execute method), then post_node_execute hooks; the post hooks run exactly when all pre hooks completed normally, they receive success=True with the result or success=False with the exception, and the exception of a pre hook, of the function or of a post hook is what the caller sees.", "quantifier": "every list of adapters, every combination of which hook or function raises an exception deriving from Exception (other BaseExceptions, and arguments whose repr raises: see C53), every node", "why_tests_cant": "Fault injection at every position of every adapter list.", "anchors": ["hamilton/execution/graph_functions.py: execute_lifecycle_for_node", "hamilton/lifecycle/base.py: LifecycleAdapterSet.call_all_lifecycle_hooks_sync"]}
{"id": "C12", "title": "adapters run in registration order, each once", "statement": "A LifecycleAdapterSet built from any list of adapters (with repetitions) calls every hook of every distinct adapter exactly once per event, in the order of first registration, stopping at the first hook that raises; a replacing method (do_*) implemented by more than one distinct adapter is rejected at construction.", "quantifier": "every list of adapters with repetitions, compared by identity (adapters defining __eq__: see C54), every event, every failing position", "why_tests_cant": "Arbitrary adapter lists and failure positions.", "anchors": ["hamilton/lifecycle/base.py: LifecycleAdapterSet.__init__, _uniqify_adapters, _get_lifecycle_hooks, _get_lifecycle_methods"]}
{"id": "C13", "title": "graph hooks bracket every execute call", "statement": "In Driver.execute, if pre_graph_execute completes then post_graph_execute is called exactly once, after all node events of the run, with success=True and the results when execution returned and success=False with the exception otherwise; if pre_graph_execute raises, nothing is executed and post_graph_execute is not called.", "quantifier": "every outcome of the validation, execution and result-building steps with exceptions deriving from Exception (others: see C53)", "why_tests_cant": "All fault positions in the call.", "anchors": ["hamilton/driver.py: Driver.execute 584-652"]}
{"id": "C14", "title": "the built graph has exactly the declared edges", "statement": "In a graph built from functions, variable A is a dependency of B iff A is a parameter name of B's (undecorated) function; 'A is a dependency of B' iff 'B is a dependent of A', each edge is stored once, and each parameter name that is no function becomes exactly one external input.", "quantifier": "every list of functions with any parameter lists and every configuration", "why_tests_cant": "The mutable two-sided adjacency is built incrementally; consistency must hold for all module lists and orders.", "anchors": ["hamilton/graph.py: create_function_graph, update_dependencies, add_dependency"]}
{"id": "C15", "title": "duplicate definitions are rejected or the last module wins", "statement": "If two modules define the same variable, building the driver fails with ValueError unless module overrides are allowed, in which case the definition from the module listed last is the one executed; a config key equal to a function name replaces that function by the config value in both cases.", "quantifier": "every sequence of definitions with arbitrary name clashes and every config", "why_tests_cant": "All sequences of modules and clash patterns.", "anchors": ["hamilton/graph.py: create_function_graph 145-187"]}
{"id": "C16", "title": "upstream and downstream queries are exactly reachability", "statement": "what_is_upstream_of(xs) returns exactly the nodes from which some x is reachable (including xs), what_is_downstream_of(xs) exactly those reachable from some x (including xs); each node is reported once; hence A is upstream of B iff B is downstream of A. The traversal terminates on every graph, also cyclic ones.", "quantifier": "every finite graph (cyclic or not) and every set of start nodes", "why_tests_cant": "Reachability for every graph; worklist algorithms fail on specific sharing/cycle shapes.", "anchors": ["hamilton/graph.py: directional_dfs_traverse, get_downstream_nodes, get_upstream_nodes", "hamilton/driver.py: what_is_upstream_of, what_is_downstream_of"]}
{"id": "C17", "title": "path queries return the nodes on some path", "statement": "what_is_the_path_between(A, B) returns exactly the variables lying on at least one dependency path from A to B (both ends included), and reports no path iff B is not reachable from A.", "quantifier": "every finite acyclic graph and pair of variables", "why_tests_cant": "All graphs; path-set computation is a non-trivial search with sharing.", "anchors": ["hamilton/graph.py: FunctionGraph.nodes_between", "hamilton/execution/graph_functions.py: nodes_between", "hamilton/driver.py: what_is_the_path_between"]}
{"id": "C18", "title": "topological sort is complete and ordered", "statement": "The topological sort of a node list without cycles is a permutation of the list in which each node comes after all of its dependencies from the list; with cycles, exactly the nodes that do not lie on or below a cycle are returned.", "quantifier": "every finite node list with unique names, cyclic or not", "why_tests_cant": "All graphs.", "anchors": ["hamilton/execution/graph_functions.py: topologically_sort_nodes"]}
{"id": "C19", "title": "levels are longest dependency chains", "statement": "Grouping by level puts a node in level 0 iff none of its dependencies is in the list and otherwise one above its highest dependency; so a node's level is the length of the longest dependency chain ending in it and no two nodes of a level depend on one another.", "quantifier": "every acyclic node list", "why_tests_cant": "All graphs, all depths.", "anchors": ["hamilton/execution/graph_functions.py: get_node_levels", "hamilton/execution/grouping.py: GroupNodesByLevel"]}
{"id": "C20", "title": "runtime inputs and config must be disjoint", "statement": "Combining config and inputs fails exactly when some key occurs in both; otherwise the combined dictionary contains precisely the entries of the two.", "quantifier": "every pair of dictionaries", "why_tests_cant": "All pairs of dictionaries.", "anchors": ["hamilton/execution/graph_functions.py: combine_config_and_inputs"]}
{"id": "C21", "title": "a parallel task starts only after its dependencies succeeded", "statement": "In task-based execution, whenever a task is handed to an executor, every task it (as realized) depends on has already completed successfully and its results are available.", "quantifier": "every task plan, every expansion size, every completion order and timing of the executors, every number of rejected submissions", "why_tests_cant": "Schedules: completion order and executor capacity are nondeterministic.", "anchors": ["hamilton/execution/state.py: ExecutionState.update_task_state, release_next_task, reject_task", "hamilton/execution/executors.py: run_graph_to_completion"]}
{"id": "C22", "title": "no task is executed twice", "statement": "In task-based execution each realized task is submitted to an executor at most once, however often it was rejected because the executor was full, and the queue never contains a task twice.", "quantifier": "every plan, expansion size, schedule and rejection pattern", "why_tests_cant": "Schedules.", "anchors": ["hamilton/execution/state.py: ExecutionState", "hamilton/execution/executors.py: run_graph_to_completion"]}
{"id": "C23", "title": "collected results follow the expansion order", "statement": "The list given to a Collect parameter has one element per item produced by the Parallelizable node, and its i-th element is the block's result on the i-th item, whatever the order in which the parallel branches complete; an empty expansion yields the empty list.", "quantifier": "every expansion length, item values, block function, and every completion order", "why_tests_cant": "Completion orders: n! per expansion.", "anchors": ["hamilton/execution/state.py: realize_parameterized_group, bind_task, write_task_results", "hamilton/execution/grouping.py: GroupByRepeatableBlocks"]}
{"id": "C24", "title": "task-based execution computes the same values as sequential execution", "statement": "If a task-based run over a dataflow without failing functions ends successfully, the value recorded for each requested variable outside parallel blocks equals its sequential meaning, where a Collect parameter denotes the list of block results over the expanded items; the outcome is the same for every schedule.", "quantifier": "every dataflow of the supported Parallelizable/Collect shape, all function assignments, all schedules", "why_tests_cant": "Schedules and graph shapes.", "anchors": ["hamilton/execution/state.py", "hamilton/execution/grouping.py: create_task_plan", "hamilton/execution/executors.py"]}
{"id": "C25", "title": "task-based execution does not get stuck", "statement": "In a task-based run over a well-formed plan, as long as the graph is not in a terminal state, either a task is in flight or one can be released; with executors that eventually finish every task the run terminates.", "quantifier": "every well-formed plan, expansion size and schedule", "why_tests_cant": "Deadlock/livelock freedom under all schedules.", "anchors": ["hamilton/execution/state.py: get_graph_state, update_task_state", "hamilton/execution/executors.py: run_graph_to_completion"]}
{"id": "C26", "title": "the number of in-flight pool tasks is bounded", "statement": "A pool executor driven by the execution loop never has more than max_tasks unfinished submitted tasks.", "quantifier": "every max_tasks, every sequence of submissions and completions", "why_tests_cant": "Interleavings.", "anchors": ["hamilton/execution/executors.py: PoolExecutor.can_submit_task, submit_task, run_graph_to_completion"]}
{"id": "C27", "title": "executors are finalized on every exit", "statement": "Every executor initialised by a task-based run has been finalized when the run ends, whether it ends normally, by an exception in a task, or by an exception while submitting.", "quantifier": "every list of executors and every fault position (including faults in init and finalize)", "why_tests_cant": "All fault positions.", "anchors": ["hamilton/execution/executors.py: run_graph_to_completion, ExecutionManager.init, ExecutionManager.finalize"]}
{"id": "C28", "title": "the task plan preserves the dataflow", "statement": "For a grouping of the nodes, the plan makes task T depend on task U iff some non-overridden node of T has a non-overridden dependency that lies outside T and in U, and every value that another task consumes or the user requested is among the outputs its task reports.", "quantifier": "every grouping of every dataflow, every override set and request", "why_tests_cant": "All groupings/graphs.", "anchors": ["hamilton/execution/grouping.py: create_task_plan"]}
{"id": "C29", "title": "results of different parallel branches never mix", "statement": "A value written by one parallel branch is never returned when reading the value of the same variable in another branch, nor when reading an un-namespaced variable.", "quantifier": "all variable names, group ids and spawning task ids", "why_tests_cant": "All strings; keys are built by joining strings with a separator.", "anchors": ["hamilton/execution/state.py: DictBasedResultCache._format_key, write, read"]}
{"id": "C30", "title": "cache keys round-trip", "statement": "Decoding a cache key created from a node name, code version and dependency data versions gives back exactly these, including the empty dependency dictionary.", "quantifier": "all node names, code versions, dependency dictionaries", "why_tests_cant": "All strings; separators inside fields.", "anchors": ["hamilton/caching/cache_key.py: create_cache_key, decode_key"]}
{"id": "C31", "title": "cache keys identify node, code and dependency versions", "statement": "Two cache keys are equal only if node name, code version and dependency data versions are all equal; the order in which dependencies are listed does not matter.", "quantifier": "all pairs of triples (node name, code version, dependency dictionary)", "why_tests_cant": "Collision freedom over all strings.", "anchors": ["hamilton/caching/cache_key.py: create_cache_key, _encode_str_dict"]}
{"id": "C32", "title": "cached execution is transparent", "statement": "With deterministic functions and collision-free data/code versions, any sequence of executions sharing a cache (different inputs, requests and code versions) returns for every execution the same values as without cache.", "quantifier": "every history of executions over a shared metadata/result store", "why_tests_cant": "Histories: stale entries only show after specific sequences.", "anchors": ["hamilton/caching/adapter.py: pre_node_execute, do_node_execute, post_node_execute", "hamilton/caching/stores/"]}
{"id": "C33", "title": "a repeated execution hits the cache", "statement": "After a successful execution with default caching behaviour, an immediately repeated execution with the same code and inputs invokes none of the functions.", "quantifier": "every dataflow, inputs, request", "why_tests_cant": "All dataflows; needs every data version be recoverable.", "anchors": ["hamilton/caching/adapter.py"]}
{"id": "C34", "title": "caching behaviour resolution precedence", "statement": "The behaviour of a node is, in order: DISABLE/RECOMPUTE/IGNORE/DEFAULT as forced by with_cache(name), by @cache decorator, then the default behaviours; nodes listed in two categories are rejected.", "quantifier": "every node, decorator setting and with_cache configuration", "why_tests_cant": "All configuration combinations.", "anchors": ["hamilton/caching/adapter.py: _resolve_node_behavior, resolve_behaviors"]}
{"id": "C35", "title": "metadata stores agree", "statement": "The in-memory and SQLite metadata stores answer every sequence of set/get/exists/delete operations identically, namely like a map from cache key to data version.", "quantifier": "every operation sequence", "why_tests_cant": "Operation histories.", "anchors": ["hamilton/caching/stores/memory.py: InMemoryMetadataStore", "hamilton/caching/stores/sqlite.py: SQLiteMetadataStore"]}
{"id": "C36", "title": "persisting or loading a store loses nothing", "statement": "After persist_to / load_from the target store answers every query as the source did.", "quantifier": "every store content reachable by any operation sequence", "why_tests_cant": "Histories (including deletions before persisting).", "anchors": ["hamilton/caching/stores/memory.py: persist_to, load_from"]}
{"id": "C37", "title": "fingerprints do not depend on iteration order", "statement": "The data version of a dictionary or set does not depend on the order in which its entries are enumerated, at any nesting level, and the version of a sequence determines the versions of its elements in order.", "quantifier": "every nested value and every permutation of the entries of every nested dict/set", "why_tests_cant": "All permutations of all nested values.", "anchors": ["hamilton/caching/fingerprinting.py: hash_sequence, hash_unordered_mapping, hash_set"]}
{"id": "C38", "title": "different values get different fingerprints", "statement": "Up to collisions of the underlying hash function, two values get the same data version only if they are equal.", "quantifier": "every pair of values", "why_tests_cant": "All pairs of values.", "anchors": ["hamilton/caching/fingerprinting.py: hash_value, hash_primitive, hash_sequence, hash_unordered_mapping"]}
{"id": "C39", "title": "config variants: when and when_not are complementary", "statement": "For every configuration, a function decorated config.when(k=v) is part of the graph iff the same function decorated config.when_not(k=v) is not; likewise when_in/when_not_in; so exactly one of two complementary variants named x__a and x__b provides x.", "quantifier": "every configuration, key, values", "why_tests_cant": "All configurations.", "anchors": ["hamilton/function_modifiers/configuration.py: ConfigResolver, config"]}
{"id": "C40", "title": "building a driver is repeatable", "statement": "Building a second driver from the same modules and configuration gives nodes with the same names as the first.", "quantifier": "every set of function names and decorators", "why_tests_cant": "Requires a history of two builds and arbitrary names.", "anchors": ["hamilton/function_modifiers/configuration.py: config.resolve", "hamilton/function_modifiers/base.py: sanitize_function_name"]}
{"id": "C41", "title": "parameterize substitutes arguments", "statement": "For each output declared in @parameterize, running the generated node is running the decorated function with each literal parameter bound to its literal, each source parameter to the value of the named upstream variable, grouped parameters to the list/dict of their values, and untouched parameters to the variable of their own name; the node's dependencies are exactly the variables so referenced.", "quantifier": "every function signature, every parameterization (including sources equal to other parameter names), all upstream values", "why_tests_cant": "Arbitrary name permutations/aliasing.", "anchors": ["hamilton/function_modifiers/expanders.py: parameterize.expand_node"]}
{"id": "C42", "title": "a subdag computes what its dataflow computes standalone", "statement": "The value of subdag variable n inside the enclosing graph equals the value of n when the subdag's functions are run as a stand-alone dataflow whose inputs are bound as declared.", "quantifier": "every subdag, namespace, input/config binding, enclosing graph", "why_tests_cant": "Renaming correctness for all graphs.", "anchors": ["hamilton/function_modifiers/recursive.py: subdag.add_namespace, generate_nodes"]}
{"id": "C43", "title": "subdag pruning keeps exactly what is needed", "statement": "prune_nodes(nodes, select) returns exactly the nodes from which a selected node is reachable, each once, and raises iff a selected name does not exist.", "quantifier": "every node collection (cyclic or not) and selection", "why_tests_cant": "Reachability on every graph.", "anchors": ["hamilton/function_modifiers/recursive.py: prune_nodes"]}
{"id": "C44", "title": "check_output returns the unmodified value iff no failing check", "statement": "A node decorated with check_output(_custom) has exactly the value of the undecorated function if every validator with importance 'fail' passes, and raises DataValidationError otherwise, regardless of 'warn' validators.", "quantifier": "every function, list of validators (including equal names) and value", "why_tests_cant": "All validator lists and outcomes.", "anchors": ["hamilton/function_modifiers/validation.py: transform_node", "hamilton/data_quality/base.py: act_fail_bulk"]}
{"id": "C45", "title": "tag queries are conjunctions of disjunctions", "statement": "list_available_variables(tag_filter=q) returns exactly the variables that for each queried tag carry it and, unless None is queried, share a value with the queried value(s).", "quantifier": "every set of tags and query", "why_tests_cant": "All queries/tag maps.", "anchors": ["hamilton/node.py: matches_query", "hamilton/driver.py: list_available_variables"]}
{"id": "C46", "title": "Builder.copy preserves the configuration", "statement": "A copied Builder builds the same driver as the original would, and later changes to one do not affect the other.", "quantifier": "every sequence of builder calls before and after copying", "why_tests_cant": "Histories of calls.", "anchors": ["hamilton/driver.py: Builder"]}
{"id": "C47", "title": "input renaming preserves meaning", "statement": "A node with re-assigned input names/values, executed with the renamed variables bound to values, computes the original function on those values.", "quantifier": "every node, renaming and value binding", "why_tests_cant": "All renamings, including swaps and overlaps.", "anchors": ["hamilton/node.py: Node.reassign_inputs"]}
{"id": "C48", "title": "adding materializers/data loaders leaves other variables alone", "statement": "Driver.materialize adds nodes but the value of each additional variable requested that does not depend on a data-loader target is the same as with execute.", "quantifier": "every graph and list of materializers/extractors", "why_tests_cant": "All graphs.", "anchors": ["hamilton/io/materialization.py: modify_graph", "hamilton/driver.py: Driver.materialize"]}
{"id": "C49", "title": "A built graph is type-checked on every edge", "statement": "If building a driver succeeds, then for every parameter that names another function the annotated types match (directly or by the adapter); a build that fails with a type error names a parameter for which some pair of annotations really mismatches.", "quantifier": "every list of functions with any annotations, every type-matching relation, every config", "why_tests_cant": "tests exercise particular annotations; the claim ranges over every graph and every order in which edges are added", "anchors": ["hamilton/graph.py: add_dependency, update_dependencies, create_function_graph", "hamilton/htypes.py: types_match"]}
{"id": "C50", "title": "Acceptance of a program does not depend on the order of its functions", "statement": "Whether a set of functions forms a valid dataflow does not depend on the order in which modules (hence functions) are listed.", "quantifier": "every permutation of every list of functions", "why_tests_cant": "the number of orders and annotation combinations is unbounded; the failing combination needs three functions sharing one input", "anchors": ["hamilton/graph.py: add_dependency", "hamilton/htypes.py: types_match, custom_subclass_check"]}
{"id": "C51", "title": "A module contributes exactly its own functions", "statement": "Building from a module turns into variables exactly the public functions defined in that module (or its submodules); functions merely imported from unrelated modules are not picked up.", "quantifier": "every module name, every list of members and their defining modules", "why_tests_cant": "depends on arbitrary module names; tests use a handful of names", "anchors": ["hamilton/graph_utils.py: is_submodule, find_functions"]}
{"id": "C52", "title": "a refused request runs nothing and names the real culprits", "statement": "An execute request is refused before any function runs exactly when a requested name is unknown (all and only the unknown names are listed), a config key is passed again as input, a required external variable is unsupplied or a supplied one fails its type check; on acceptance every external value handed to a function has passed the type check.", "quantifier": "every dataflow, config, inputs/overrides (including None) and request list", "why_tests_cant": "Ranges over all graphs and dictionaries; the check walks a different node set than the executor.", "anchors": ["hamilton/driver.py: Driver.__raw_execute, validate_inputs", "hamilton/graph.py: directional_dfs_traverse"]}
{"id": "C53", "title": "interruptions are never reported as successes", "statement": "When a node function or a run ends with any exception at all (including KeyboardInterrupt/SystemExit), post_node_execute and post_graph_execute are told success=False with that exception, post hooks do not run after a failed pre hook, and the caller sees the original exception.", "quantifier": "every exception, including those outside the Exception hierarchy", "why_tests_cant": "Interrupts cannot be injected at every point by tests.", "anchors": ["hamilton/execution/graph_functions.py: execute_lifecycle_for_node 311-331", "hamilton/driver.py: Driver.execute 634-652"]}
{"id": "C54", "title": "every registered adapter object is called", "statement": "Every distinct adapter object that is registered has its hooks called, also when two adapter objects compare equal.", "quantifier": "every list of adapter objects with arbitrary __eq__", "why_tests_cant": "Needs adapters whose equality is not identity.", "anchors": ["hamilton/lifecycle/base.py: _get_lifecycle_hooks 802-825"]}
{"id": "C55", "title": "piped functions compose", "statement": "With @pipe_input(step_1, ..., step_n) the decorated function receives, for its target parameter, step_n(...step_1(x)...) where each step's other arguments are the given literals or the values of the given sources, steps whose when-conditions reject the configuration are skipped, and all other parameters are unchanged; with @pipe_output the node's value is the steps applied to the function's own result.", "quantifier": "every function, every list of steps with positional/keyword sources and literals, every namespace choice, every configuration and input", "why_tests_cant": "Compositions of arbitrary length with arbitrary naming of parameters and sources; collisions between names only show for particular combinations.", "anchors": ["hamilton/function_modifiers/macros.py:320-635", "hamilton/function_modifiers/macros.py:868-1044", "hamilton/function_modifiers/macros.py:1208-1409", "hamilton/node.py:347-380"]}
{"id": "C56", "title": "Extracted fields and columns are those of the function's value", "statement": "With @extract_fields / @extract_columns on f, requesting an extracted name c yields exactly the entry c of the value f returned, or fill_with when the entry is missing and fill_with is given; requesting f yields f's value with exactly the missing entries added. With @parameterize_extract_columns, column c of a parameterization is that column of f applied to the arguments of the parameterization, with its columns renamed to the given outputs.", "quantifier": "for every function, every declared field/column list, every fill_with, every returned dict/dataframe, every graph containing the generated nodes", "why_tests_cant": "tests extract a few columns from a few literals; the property relates the graph's value to an arbitrary user function and container, and rules out clashes between several extractors", "anchors": ["hamilton/function_modifiers/expanders.py:567-693", "hamilton/function_modifiers/expanders.py:733-850", "hamilton/function_modifiers/expanders.py:867-951"]}
{"id": "C57", "title": "Loaded and saved data are those of the adapter with the declared arguments", "statement": "With @load_from.x(..., inject_=p) on f, f is called with p = the data that the most recently registered loader class x applicable to p's type loads with the declared arguments (literals as given, sources as the values of these variables, optional fields keep their defaults when the source is not given), and with all other parameters unchanged; with @save_to.x the node named output_name_ returns the metadata of saving f's value with the declared arguments while f keeps its value; @dataloader makes f the data and f.loader the pair. Unknown or missing arguments, no class, or an ambiguous parameter are rejected.", "quantifier": "for every function, loader/saver class, registration order, set of declared arguments, enclosing graph and inputs", "why_tests_cant": "tests decorate a few functions with a few adapters; sources shared between arguments, sources named like literals and savers on savers never occur in them", "anchors": ["hamilton/function_modifiers/adapters.py:27-129", "hamilton/function_modifiers/adapters.py:132-337", "hamilton/function_modifiers/adapters.py:492-600", "hamilton/function_modifiers/adapters.py:692-799"]}
{"id": "C58", "title": "A transformer's target selects exactly the named nodes", "statement": "A transforming decorator (pipe_output/save_to/extract etc.) with target_=None, ..., a name or a list of names transforms exactly the final nodes, all nodes, or the named nodes, passes every other node on unchanged, and rejects names that are not there.", "quantifier": "for every collection of nodes a function produces, every target and every transformation of single nodes", "why_tests_cant": "tests use a few targets on a few extracted columns", "anchors": ["hamilton/function_modifiers/base.py:360-566"]}
{"id": "C59", "title": "Executing decorated functions returns the values their nodes define", "statement": "Driver.execute over the functions that the modules' decorated functions resolve to answers each requested variable with its value: an override if given, else the config entry or input of that name, else what the last function of that name (config keys hide functions) returns when called with its parameters bound to their values in declaration order, optional parameters without a value left out. It succeeds exactly when inputs repeat no config key and every requested function has such a value.", "quantifier": "for every list of functions with any callables and parameters, config, inputs, overrides and requested names over an acyclic dataflow", "why_tests_cant": "a test runs a handful of decorated functions with particular values; it cannot show that the values the decorators define are the ones any execution returns", "anchors": ["hamilton/graph.py:145-187", "hamilton/execution/graph_functions.py:130-250", "hamilton/driver.py:163-183", "hamilton/node.py:44-125"]}
{"id": "C60", "title": "GracefulErrorAdapter prunes exactly what fails", "statement": "With GracefulErrorAdapter and a sentinel equal to itself, no exception of the kind to catch leaves execute, in the default and in the task-based executor; if the functions raise no other, every request whose required inputs are given is answered. A returned variable is the sentinel exactly when it fails: its function raises a caught exception on its arguments, or returns the sentinel, or a variable it depends on fails (and is not asked for by accept_error_sentinels); all other variables have the values they have without the adapter. The function of a variable with a failed dependency is not invoked. In a Parallelizable block failures stay with their item, and items yielded before an exception are kept with one sentinel after them.", "quantifier": "for every graph, functions, exception set, sentinel, flags, marked functions, inputs, overrides, requests, and for the task-based executor every schedule", "why_tests_cant": "tests fix one failing node in a small graph; which nodes fail, what is downstream and how failures combine over items and schedules is unbounded", "anchors": ["hamilton/lifecycle/default.py:535-760", "hamilton/lifecycle/api.py:501-552", "hamilton/execution/executors.py:63-151"]}
{"id": "C61", "title": "The asynchronous driver computes what the driver computes", "statement": "Whatever the order in which the event loop runs the tasks, what AsyncDriver.execute returns holds exactly the requested variables with their meanings, i.e. what Driver.execute returns for the same request. A function is invoked at most once, only if it is needed, and not before each of its arguments is an override, an input or the result of a function that has returned; when execute returns, exactly the needed functions have been invoked and all have returned. An exception raised is one that some invoked function raised, or says that the request cannot be met. Every request finishes if the event loop neglects no task for ever, and succeeds if no needed function raises, no required input is missing and every requested variable has a value.", "quantifier": "for every acyclic graph, functions, config, inputs, overrides and requests, every iteration order over node sets and every interleaving of the event loop", "why_tests_cant": "tests run one interleaving of a few awaits on the asyncio loop; the property quantifies over all interleavings and graphs", "anchors": ["hamilton/async_driver.py:19-157", "hamilton/async_driver.py:261-391", "hamilton/graph.py:971-1106", "hamilton/execution/graph_functions.py:130-250"]}
{"id": "C62", "title": "Grouping strategies do not change results", "statement": "Without Parallelizable and Collect, a task-based run returns the same values under every grouping strategy of the library (individually, all as one, by level, by blocks) and under every custom strategy that puts each node in exactly one group, names groups differently and creates no cyclic dependencies between groups: the requested variables with their meanings, the answer of the default executor. The run always ends, and nothing but an exception of a user function makes it fail when the needed inputs are supplied.", "quantifier": "for every acyclic graph, functions, config, inputs, overrides, request, strategy, executor limits and schedule", "why_tests_cant": "tests compare a few strategies on a few fixed graphs; the property quantifies over all graphs, partitions into groups and completion orders", "anchors": ["hamilton/execution/grouping.py:191-317", "hamilton/execution/grouping.py:319-405", "hamilton/driver.py:186-252", "hamilton/execution/state.py:120-500"]}
{"id": "C63", "title": "The caching graph adapter invokes exactly what it has to, and its results are current when it is told of changes", "statement": "With CachingGraphAdapter a function whose variable is tagged with cache is invoked exactly when the variable is named in force_compute, has no file, or depends on a cached variable that is named or has no file; functions of other variables are always invoked; nothing is invoked twice in an execution. Executing again loads everything cached. While functions, configuration and inputs stay the same and nothing is overridden, any sequence of executions (also failing ones), new adapters, force_compute sets and removals of cache files returns what executions without the adapter return. After a change of functions of cached variables, naming them in force_compute returns the new values.", "quantifier": "for every acyclic graph, choice of cached variables, functions, cache directory, force_compute and sequence of executions, adapters and file removals", "why_tests_cant": "tests run one small module twice with a few forced nodes; the property quantifies over all graphs, mixtures of cached and uncached variables, states of the cache directory and histories", "anchors": ["hamilton/experimental/h_cache.py:199-395", "hamilton/lifecycle/api.py:137-153", "hamilton/execution/graph_functions.py:130-250"]}
{"id": "C64", "title": "CacheAdapter returns current values and loads what it has computed, when sources identify functions", "statement": "With CacheAdapter, any sequence of adapter objects sharing a cache file, each serving any executions (of changed code in another object), returns in every execution that returns what the execution returns without the adapter, and fails exactly as without it when everything can be pickled. After an execution has returned, executing it again, whatever was executed since, invokes no function of a cached variable unless it returns None. This needs that functions with equal source give equal results for equal sequences of argument values.", "quantifier": "for every acyclic graph, functions, cache_vars, content of the cache file and sequence of adapter objects and executions", "why_tests_cant": "tests run one module twice with one adapter; the property quantifies over all graphs, versions of functions, cache files and histories, and over which functions share their source", "anchors": ["hamilton/lifecycle/default.py:326-438", "hamilton/graph_types.py:65-86", "hamilton/execution/graph_functions.py:130-331", "hamilton/function_modifiers/expanders.py:174-282"]}
{"id": "C65", "title": "adding nodes to a built graph leaves the old variables alone", "statement": "FunctionGraph.with_nodes refuses exactly the names the graph already has; otherwise the new graph has the old nodes, the added nodes and inputs for the parameters that are neither, with edges exactly as the parameters say, and every old variable has the value it had and every execute of old variables returns what it returned. Nodes can be added to every graph that was built without an adapter that loosens types, as long as the types of what they take are accepted. Loaders that replace nodes act like overrides with what they load.", "quantifier": "for every graph that was built, every dictionary of added nodes, functions, inputs and overrides", "why_tests_cant": "tests add one saver to one graph; the property quantifies over all graphs, added nodes, narrowings of input types and executions", "anchors": ["hamilton/graph.py:40-142", "hamilton/graph.py:742-755", "hamilton/io/materialization.py:439-483"]}
{"id": "C66", "title": "checks of values against annotations decide what the annotations mean", "statement": "check_instance answers True exactly for the values of the annotated type and never raises; check_input_type, which validates the inputs of a driver, accepts every value of the annotated type and, for annotations without generics, nothing else but None. With FunctionInputOutputTypeChecker installed a function is invoked exactly when all its arguments are of the declared types, its value is passed on exactly when it is of the declared type, and an exception of the function is raised as it is.", "quantifier": "for every annotation built of classes, Any, Union, Optional, Literal and generics nested to any depth, every value, class hierarchy and function", "why_tests_cant": "tests check a table of annotation and value pairs; the property quantifies over all nested annotations and values", "anchors": ["hamilton/htypes.py:314-434", "hamilton/driver.py:555-590", "hamilton/lifecycle/default.py:471-530", "hamilton/execution/graph_functions.py:255-331"]}
{"id": "C67", "title": "in a graph that was built, functions get values of the types they ask for", "statement": "When a graph is built, the values of the type of every node are values of the type of every parameter that takes it, also for inputs whose type was narrowed by several consumers. So if functions return what they declare and inputs and overrides are of the types of their nodes, every function is invoked with values of the types of its parameters and every value of an execution is of the type of its node; then a type checking adapter changes nothing.", "quantifier": "for every list of functions and annotations, every order of them, every class hierarchy, inputs, overrides and requests", "why_tests_cant": "tests check single pairs of types and single graphs; the property quantifies over all graphs, narrowings and executions", "anchors": ["hamilton/htypes.py:17-91", "hamilton/htypes.py:115-135", "hamilton/graph.py:40-142", "hamilton/lifecycle/default.py:471-530"]}
{"id": "C68", "title": "mutate passes outputs of functions through the mutators in module order", "statement": "After a module is imported, every output of a function that @mutate names is the value the function gives, passed first through the steps of its own pipe_output and then through every mutator that names it, once each, in the order of the module and with the arguments given to apply_to or else to mutate. The mutators themselves are not part of the graph, functions that are not named are unchanged, and a mutator for a function of another module is refused.", "quantifier": "for every module of decorated functions, apply_to objects and mutators, every function, argument and environment", "why_tests_cant": "tests import a few modules with one or two mutators; the property quantifies over all sequences of definitions and mutators, whose effect is through shared mutable objects", "anchors": ["hamilton/function_modifiers/macros.py:1411-1619", "hamilton/function_modifiers/macros.py:1200-1345", "hamilton/function_modifiers/base.py:96-119"]}
{"id": "C69", "title": "Ray and Dask adapters compute what the default executor computes", "statement": "With RayGraphAdapter, RayWorkflowGraphAdapter or DaskGraphAdapter (delayed, computed at the end), whatever the order in which the cluster runs tasks: execute returns what the result builder makes of the values that the default executor computes, and it does so whenever the default executor has an answer; every function runs at most once, only when needed and after its arguments; exceptions are those of functions, of the result builder or of the request; every request ends on a fair cluster.", "quantifier": "for every acyclic graph, all functions, configurations, inputs, overrides and requests, and every interleaving of the driver with the cluster", "why_tests_cant": "tests start a local cluster and run one small graph once; interleavings of submissions and tasks cannot be enumerated, and parameter names that collide with those of the adapter are not tried", "anchors": ["hamilton/plugins/h_ray.py:54-268", "hamilton/plugins/h_dask.py:19-173", "hamilton/execution/graph_functions.py:120-260"]}
{"id": "C70", "title": "@with_columns gives the function the dataframe with the selected columns appended", "statement": "A function under @with_columns (pandas, polars) is called with its dataframe parameter replaced by the dataframe to which exactly the selected columns are appended, in the order of the selection, each computed by the given functions from the columns passed, the dataframe and the variables of the graph; other parameters are as without the decorator, nothing that the selection does not read is added to the graph, and a second driver is built like the first.", "quantifier": "for all functions, selections, columns passed, dataframes, enclosing graphs and inputs", "why_tests_cant": "tests run a handful of two-column dataframes; the interplay of pruning, renaming, selection and name capture ranges over all sets of functions and histories of builds", "anchors": ["hamilton/function_modifiers/recursive.py:605-851", "hamilton/plugins/h_pandas.py:106-239", "hamilton/plugins/h_polars.py:190-288", "hamilton/function_modifiers/base.py:224-280"]}
{"id": "C71", "title": "Spark's @with_columns and @select compute each column of the group once, in dependency order, on one dataframe", "statement": "A function under Spark's @with_columns (@select) is called with its dataframe parameter replaced by the dataframe to which the columns of the selected functions are added (of which only these are kept), whatever order the group was linearised in; each column is what its function computes from the columns of the group it names, else the columns of the original dataframe, and from variables of the graph; no original column is lost, every function of the group that is selected or needed is run, and a selection of something else is refused.", "quantifier": "for all groups of functions (UDFs, pandas UDFs, column and dataframe functions), selections, dataframes and enclosing graphs", "why_tests_cant": "tests run three or four fixed groups on a local Spark session; that the chain of dataframes is equivalent to the dataflow ranges over all groups, orders and name coincidences", "anchors": ["hamilton/plugins/h_spark.py:234-422", "hamilton/plugins/h_spark.py:514-1219", "hamilton/function_modifiers/recursive.py:656-851"]}
{"id": "C72", "title": "@check_output's arguments are checked as documented", "statement": "A function under @check_output(key=argument, ..., importance=...) returns the function's own value when that satisfies what each argument asks of it (range, values_in, max_fraction_nans, allow_nans, mean_in_range, max_standard_dev, allow_none, contains, does_not_contain, data_type); with importance fail it raises a DataValidationError naming exactly the arguments that are not satisfied, with importance warn it only warns. Documented arguments are accepted for the types they support, all others refused with a ValueError when the driver is built.", "quantifier": "for all combinations of arguments, return types, numbers (with infinities and NaN), strings and series of any length with any missing cells", "why_tests_cant": "tests check a handful of literal series per validator; boundary cases (empty series, one number, missing values of different kinds) and combinations are unbounded", "anchors": ["hamilton/data_quality/default_validators.py:13-539", "hamilton/data_quality/base.py:13-35", "hamilton/function_modifiers/validation.py:144-252"]}
{"id": "C73", "title": "PySparkUDFGraphAdapter appends the requested columns to the one dataframe", "statement": "With PySparkUDFGraphAdapter and one dataframe given for the columns the functions need, execute returns that dataframe with its columns unchanged and first, followed by the requested variables in the order of the request, once each; the column for a variable is the column its function is of the columns it takes (the other arguments being bound as values), or the value of the driver's side in every row. Intermediate variables leave no column. It fails exactly when executing the functions on the columns fails, or there is no literal for a requested value, or no function of columns had to run; and the adapter can then be used again.", "quantifier": "for all graphs, functions, dataframes with any columns, configs, inputs, overrides, requests and orders of execution", "why_tests_cant": "tests run one small graph on one local Spark session; which columns remain, which value each is computed from and what state a call leaves depends on unbounded graphs and sequences of calls", "anchors": ["hamilton/plugins/h_spark.py:293-309", "hamilton/plugins/h_spark.py:425-523", "examples/spark/pyspark_udfs/README.md:36-85"]}
{"id": "C74", "title": "Decorators act in the order of their classes, whatever the order they are written in; @resolve stands for the decorator it returns", "statement": "The nodes of a decorated function are obtained by letting its decorators act class by class (resolvers, creator, injectors, expander, transformers, node decorators), within a class from the function outwards; decorators of different classes can be written in any order. A decorator is given the configuration it declares (its defaults included) and nothing else, so configuration that no decorator declares has no influence; a missing required item is an error. A function under @resolve has, in power user mode, the nodes it has with the decorator that decorate_with returns for the configuration's values (or the defaults) of its parameters. A stack of decorators is accepted when each accepts the function and none that must be the only one of its class has another.", "quantifier": "for all stacks of decorators of any classes with any behaviour, functions, configurations, signatures of decorate_with", "why_tests_cant": "tests try single decorators and a few pairs; the number of orders and combinations of decorators and configurations is unbounded", "anchors": ["hamilton/function_modifiers/base.py:62-140", "hamilton/function_modifiers/base.py:649-843", "hamilton/function_modifiers/delayed.py:15-152", "hamilton/function_modifiers/metadata.py:239-242"]}
{"id": "C75", "title": "The result builders lose and invent nothing: every output is a column, rows are joined by label", "statement": "PandasDataFrameResult returns a single DataFrame as it is, and for outputs that are not list-like one row. Otherwise the result is an outer join: a column for each output, and for each column of an output that is a DataFrame (named \"output.column\"), in the order requested; a row for each label that a Series or DataFrame has; in each row the cells with that label, nothing where there is none; lists and arrays in position; scalars everywhere. It is built exactly if lists and arrays have as many cells as there are rows (Series with repeated labels must have the same labels). An output whose name is already that of a column of a DataFrame is refused. The strict builder returns the same exactly if the outputs with an index have one and the same index type. NumpyMatrixResult makes a matrix with a column for each output in order, numbers repeated, exactly if all vectors have one length.", "quantifier": "for all outputs (Series, DataFrames, pd.Index, list-likes, scalars) of any number, lengths, labels and names; any union of indexes that pandas could compute", "why_tests_cant": "tests use two or three aligned columns; which labels, lengths, repetitions and names occur together is unbounded", "anchors": ["hamilton/base.py:73-285", "hamilton/base.py:288-325", "hamilton/base.py:328-384"]}
{"id": "C76", "title": "Schema validation stops or warns exactly when the schema of a dataframe differs, and says what differs", "statement": "diff_schemas returns nothing exactly if both schemas have the same columns in the same order with the same types and nullability (and the same metadata, when those are to be compared); otherwise it marks each column as added, removed, equal or unequal, and of unequal columns the attributes that differ. human_readable_diff shows exactly those: \"+\" and \"-\" for columns added and removed, and current and reference value of each attribute and metadata entry that differs. SchemaValidator saves the schema of a node that has no reference (or stops, with must_exist), never changes references while checking, does nothing if the schema is the same, and otherwise warns or stops the run with that report; every node has its own reference.", "quantifier": "for all schemas (any columns, types, metadata), all settings of the validator, all sequences of nodes and any earlier content of the directory", "why_tests_cant": "tests compare a few schemas by hand; which attributes and metadata change together, and what earlier runs have saved, is unbounded", "anchors": ["hamilton/plugins/h_schema.py:19-72", "hamilton/plugins/h_schema.py:74-200", "hamilton/plugins/h_schema.py:203-228", "hamilton/plugins/h_schema.py:366-477"]}
{"id": "C77", "title": "Caching on disk is not seen in the results, computes each thing once, and evicts all but what is kept", "statement": "With DiskCacheAdapter a run gives the results (or the exception) that it gives without, whatever was run, failed or was evicted before. What a node computed is not computed again for the same source and the same argument values, in this or a later session, until it is evicted; nodes not among cache_vars are computed every time and leave no entries. evict_all_except removes every entry except those of the current versions of the nodes passed, and keeps all of these.", "quantifier": "for all nodes, values, settings of cache_vars, and all histories of sessions, runs (also failing ones) and evictions", "why_tests_cant": "tests run one dataflow twice; which earlier sessions, versions, inputs and evictions have left what in the directory is unbounded", "anchors": ["hamilton/plugins/h_diskcache.py:15-38", "hamilton/plugins/h_diskcache.py:79-146", "hamilton/graph_types.py:65-86", "hamilton/execution/graph_functions.py:275-331"]}
{"id": "C78", "title": "A function decorated with @does computes the other function, of its own arguments under the names they are mapped to", "statement": "A node of a function decorated with @does(f, **mapping) computes f of the function's own arguments (given or by default), each passed under the name it is mapped to and else under its own; when f raises, so does the node. A function is accepted exactly if it is empty, its parameters can be passed by name and f can be called like this, whatever values come; everything else is refused with InvalidDecoratorException when the driver is built, not when it runs.", "quantifier": "for all signatures (with defaults, keyword-only, *args and **kwargs), all mappings, functions and calls", "why_tests_cant": "tests try a few signatures and mappings; which names collide with which in a mapping, and which optional arguments are left out of a call, is unbounded", "anchors": ["hamilton/function_modifiers/macros.py:39-54", "hamilton/function_modifiers/macros.py:83-146", "hamilton/function_modifiers/macros.py:148-223"]}
{"id": "C79", "title": "Versions tell code apart whatever its documentation, and a diff says which variables are new, gone and changed", "statement": "The version of a node changes exactly when the code of its function does: comments, layout and docstrings (also of inner functions) do not matter, everything else does. `hamilton diff` lists as current_only (reference_only) exactly the variables that only the current (the reference) dataflow has, as edit exactly those whose code differs, each with its function; two states that differ in documentation only have an empty diff and the same dataflow version. `hamilton version` gives every dataflow a version, and dataflows of one version have the same variables and code. diff_nodes_against_functions reports what is added, changed and removed with respect to a module.", "quantifier": "for all programs of functions, sources, configs, and pairs of states", "why_tests_cant": "tests compare two fixed modules; which edits, orders of modules and shared inputs meet in a diff is unbounded", "anchors": ["hamilton/graph_types.py:25-86", "hamilton/graph_types.py:158-183", "hamilton/graph_types.py:226-234", "hamilton/cli/logic.py:58-195", "hamilton/cli/commands.py:27-65", "hamilton/graph.py:102-110"]}
{"id": "C80", "title": "Tags are what the decorators say, the outermost first; bad tags are refused; ray options and schemas survive being tags", "statement": "A node's tag is what the outermost decorator (@tag, @tag_outputs, @cache, @schema.output, @ray_remote_options) that selects the node and speaks of the tag says, and the default otherwise; nothing else of the node and no other node changes; a target that is not there, or a schema on something that is not a dataframe, is an InvalidDecoratorException. @tag accepts exactly dotted identifiers outside the reserved namespaces as keys and strings or non-empty lists of distinct strings as values, so reserved tags are not changed by users. The executor of ray reads back from the tags exactly the options given to @ray_remote_options, the outermost first. The tag of a schema determines its fields.", "quantifier": "for all stacks of decorators, targets, keys, values, nodes of a function with any dependencies, options and fields", "why_tests_cant": "tests apply one decorator with a few keys; which decorators, targets and keys meet on one function is unbounded", "anchors": ["hamilton/function_modifiers/metadata.py:12-160", "hamilton/function_modifiers/metadata.py:163-189", "hamilton/function_modifiers/metadata.py:210-283", "hamilton/function_modifiers/metadata.py:338-416", "hamilton/function_modifiers/base.py:93-114", "hamilton/function_modifiers/base.py:419-516", "hamilton/plugins/h_ray.py:36-52"]}
{"id": "C81", "title": "The spans that tracers report are those of the runs, tasks and nodes, in the right place and ended once as they ended", "statement": "With the OpenTelemetry tracer, whatever nests in the hooks and however concurrent runs are scheduled, no hook fails and at the end there is one span for each run, task and node, under the spans around it, ended once, with the exception if it failed. With the Datadog tracer, however hooks of several runs are interleaved over threads, each run, task and node that started has one span under its task or run, linked to the inputs computed in its task, finished as it ended; and nothing is kept of runs that are over.", "quantifier": "for all programs of nested and concurrent spans and all schedules; for all streams of hooks in which each run, task and node starts once and ends while its run is on", "why_tests_cant": "tests trace one synchronous run with mocks; schedules, nestings and failures are unbounded", "anchors": ["hamilton/plugins/h_opentelemetry.py:25-58", "hamilton/plugins/h_opentelemetry.py:84-149", "hamilton/plugins/h_ddog.py:112-258", "hamilton/execution/graph_functions.py:252-330"]}
{"id": "C82", "title": "A picture of a dataflow shows its functions, inputs and dependencies, marked as they are, and nothing else", "statement": "Pictures show each function once, labelled with its name and type (or the class that loads or saves it), outputs and overrides marked as such whatever the user's own styles; one arrow for each dependency that is to be shown, red along a path; the inputs of each node as the rows of one table, shared by the nodes with the same inputs if that was asked for; a legend of just what occurs; and nothing else. visualize_execution shows just what the execution comes by.", "quantifier": "for all graphs, sets of nodes, tags, roles, custom style functions and options, in whatever order the set of nodes is drawn", "why_tests_cant": "tests compare the dot files of a few small graphs; graphs, names and options are unbounded", "anchors": ["hamilton/graph.py:202-664", "hamilton/driver.py:977-1027", "hamilton/driver.py:1360-1440"]}
{"id": "C83", "title": "Telemetry can be switched off, stops by itself, tells nothing of the user's code and changes nothing", "statement": "Whether telemetry is on is decided by the environment variable if it says yes or no, else by the file, else it is on. From disable_telemetry() on no event is sent, whatever other threads are doing; at most ten events are sent per process, and only events of calls that were made. Events of two programs that differ only in names, values and code that are the user's are equal. Functions return and raise what they would without telemetry.", "quantifier": "for all values of variable and file, programs, numbers of threads and schedules; for all configurations, adapters, decorators, inputs and tracebacks", "why_tests_cant": "tests switch telemetry off or mock the sending; they cannot cover the schedules of threads nor all that could leak", "anchors": ["hamilton/telemetry.py:85-147", "hamilton/telemetry.py:162-249", "hamilton/telemetry.py:397-502", "hamilton/driver.py:61-88", "hamilton/driver.py:481-520", "hamilton/driver.py:664-701", "hamilton/async_driver.py:339-432", "hamilton/function_modifiers/base.py:43-62", "hamilton/dataflows/__init__.py:46-77", "hamilton/contrib/__init__.py:14-32"]}
{"id": "C84", "title": "Downloaded dataflows are those of the hub, nothing is overwritten unasked, and what is there is listed", "statement": "After pull_module succeeds the files of the dataflow are those of the hub, of the version asked for or the latest commit that the hub names; no other file is changed, and none that existed unless overwrite was passed. import_module returns the local module if there is one and that of the hub otherwise. list and find return the dataflows that are there, each once; a pull that failed can be repeated; requirements are met iff the packages are installed; the commit returned for a branch is that branch's, at most a minute old; copy and clear_storage touch nothing else.", "quantifier": "for all contents of hub and file system, names, versions, failures of requests and sequences of calls", "why_tests_cant": "tests mock one dataflow in a fresh folder; what a hub answers and what is already on disk is unbounded", "anchors": ["hamilton/dataflows/__init__.py:39-43", "hamilton/dataflows/__init__.py:96-160", "hamilton/dataflows/__init__.py:164-281", "hamilton/dataflows/__init__.py:456-664"]}
{"id": "C85", "title": "What is asked for as a function or a variable is what it computes", "statement": "Outputs of execute and dependencies of materializers may be given as names, functions or variables. Each stands for what it is called, in order and as often as given; everything that stands for nothing is reported at once, with the reason, and nothing is executed. Asking a driver for a function of its modules gives what this very function computes, whatever other drivers were built since; asking for a function that is not part of its dataflow (a variant that its configuration does not choose) is refused.", "quantifier": "for all lists of objects, modules, configurations and sequences of drivers built in the process", "why_tests_cant": "tests build one driver in a fresh process; @config renames the function objects, which all drivers share, so what a request means depends on all builds before it", "anchors": ["hamilton/common/__init__.py:5-58", "hamilton/driver.py:654-662", "hamilton/io/materialization.py:186-203", "hamilton/function_modifiers/configuration.py:170-184", "hamilton/graph_utils.py:6-24"]}
{"id": "C86", "title": "Extensions are loaded where they can be, and switched off where they were", "statement": "Importing Hamilton loads every extension whose packages are installed, whatever others are missing, once per process; the types an extension registers are then known, and the column type of a dataframe type is that of the extension with it, or NotImplementedError. With HAMILTON_AUTOLOAD_EXTENSIONS=0, after disable_autoload, or in any process after hamilton-disable-autoload-extensions, nothing is loaded; the counterparts undo it, and other options in the file stay.", "quantifier": "for all sets of installed extensions and what they register, environments, configuration files and states of the process", "why_tests_cant": "tests run in one process with the packages that are installed there; which packages are missing, in which order types are registered and what earlier processes wrote cannot be varied", "anchors": ["hamilton/registry.py:14-151", "hamilton/registry.py:154-244", "hamilton/function_modifiers/base.py:19-23"]}
{"id": "C87", "title": "Deprecation warns, then fails, and otherwise changes nothing", "statement": "What is deprecated works as before, with one warning per call from the version warn_starting on, and raises without being called from the version fail_starting on; later versions take nothing back. The message names what is deprecated, since when, why, the replacement and the migration guide. Deprecations without replacement and guide, that fail in a minor release, or that fail before they warn are refused. This holds for functions with any number of such decorators and for classes, for every deprecated class from the instance's own to the one that defines __call__.", "quantifier": "for all versions, messages, actions, functions, states, numbers of decorators and chains of classes", "why_tests_cant": "tests can fix a few versions only; that nothing is lost for all orders of versions and along all chains of classes is a statement about all of them", "anchors": ["hamilton/dev_utils/deprecation.py:12-37", "hamilton/dev_utils/deprecation.py:46-117", "hamilton/dev_utils/deprecation.py:119-199"]}
{"id": "C88", "title": "Printing and progress bars show what a run does, and do not disturb it", "statement": "With PrintLn there is one line when a function begins and one when it ends, with its status and the time since it began, for each function the filter means (a name, a list, a function, none: all) and no other; nothing fails. With the progress bar the total is the number of functions the run executes, the count those that have ended, so that it is full after a successful run, and closed after any; names take the same room and are shown in full where they fit under the cap.", "quantifier": "for all filters, verbosities, sequences of hooks in which functions end after they began, graphs, inputs, overrides and requests", "why_tests_cant": "tests look at the output of a few runs with one executor; which functions a run executes and which are announced depends on graph, inputs and overrides", "anchors": ["hamilton/lifecycle/default.py:25-157", "hamilton/plugins/h_tqdm.py:35-108", "hamilton/lifecycle/api.py:294-317", "hamilton/graph.py:971-1012"]}
{"id": "C89", "title": "OpenLineage events tell of each run, and of what its nodes save and load", "statement": "With the OpenLineage adapter each run sends one START naming what was asked for and given, one RUNNING event for each node that saved or loaded something with metadata, in the order of execution, and one end: COMPLETE if the run returned, FAIL with the error if it raised. All carry the run's identifier, the namespace and the job. A file or table is the same dataset whoever writes or reads it, with its format, its query and the columns and types of its frame. The adapter does not change what a run comes to.", "quantifier": "for all graphs, requests, sequences of nodes with any tags, results, metadata and exceptions, clients, earlier events, by execute and by materialize", "why_tests_cant": "tests run one pipeline with one client and look at the events; what is sent depends on every result and exception of every node and on metadata made by users", "anchors": ["hamilton/plugins/h_openlineage.py:36-367", "hamilton/io/utils.py:16-138", "hamilton/driver.py:584-652", "hamilton/driver.py:1635-1720", "hamilton/execution/graph_functions.py:255-331", "hamilton/graph_types.py:104-128"]}
{"id": "C90", "title": "The experiment tracker records each run as it was, and savers write into the run's directory", "statement": "With the experiment tracker, savers are executed in the directory of the run and everything else where the tracker was made, which is the working directory again after the run. For each run there is one record: success, version, modules, configuration, inputs as given with their defaults, overrides, and what savers of this run saved and where. Records stay until they are deleted. The tracker does not change what a run comes to; names of experiments are letters, digits, underscores and dashes.", "quantifier": "for all graphs, requests, sequences of nodes and savers with any results and exceptions, earlier runs and records, base directories", "why_tests_cant": "tests make one run with one tracker; what is recorded and where the process stands depends on every saver's result and on earlier runs", "anchors": ["hamilton/plugins/h_experiments/hook.py:18-202", "hamilton/plugins/h_experiments/cache.py:4-23", "hamilton/execution/graph_functions.py:255-331", "hamilton/driver.py:584-652"]}
{"id": "C91", "title": "The MLflow tracker adds one run per execution, with parameters, results and how it ended, and leaves executions as they are", "statement": "With the MLflow tracker each execution, with or without inputs, adds one run to the experiment, or logs to the run given, and leaves other runs as they are. The run has the execution's identifier and the version of the code, configuration and inputs as parameters, what the nodes asked for returned (numbers as metrics, strings as text, dictionaries as JSON, figures as figures, others as they are) and what savers saved, and a status that tells whether the execution succeeded. No run stays active. The tracker does not change what an execution comes to.", "quantifier": "for all servers with any runs, configurations, inputs, sequences of nodes and savers with any results and exceptions, orders of sets", "why_tests_cant": "tests log one successful run with inputs; what is logged and what stays active depends on results, failures and earlier executions", "anchors": ["hamilton/plugins/h_mlflow.py:37-318", "hamilton/execution/graph_functions.py:255-331", "hamilton/driver.py:584-652"]}
{"id": "C92", "title": "A driver made of Kedro pipelines computes each dataset as Kedro does", "statement": "kedro_pipeline_to_driver turns any pipelines that Kedro accepts into a driver that has a node for each dataset that is computed, and executing it gives each dataset the value that Kedro's runner gives it, for all inputs and parameters, parameters being named without the prefix params:. Inputs go to the parameters they are bound to, by position or by name, parameters without input have their defaults, and outputs are unpacked as they are declared. The pipelines and their functions are left as they were, so that they can be converted again.", "quantifier": "for all lists of Kedro nodes, functions, parameters with and without defaults, inputs by position and by name, outputs of all kinds, datasets and parameters given", "why_tests_cant": "tests convert one pipeline once; which values arrive where depends on all names, bindings and kinds of outputs together", "anchors": ["hamilton/plugins/h_kedro.py:13-130", "hamilton/node.py:347-397", "hamilton/function_modifiers/expanders.py:733-850"]}
{"id": "C93", "title": "Modules made of functions or of source code are those functions and that source, and disturb nothing", "statement": "create_temporary_module makes a module exactly if its name is not taken, the functions' names differ and none begins with an underscore; otherwise nothing is registered. The module has each function under its name, a driver built of it has all of them, and they do what the functions do for all arguments; the functions given stay apart from it. module_from_source and create_module register a module with what the source defines; if the source fails nothing is registered, no module is replaced, and temporary files are gone when the interpreter ends.", "quantifier": "for all functions with parameters and defaults of all kinds, names, modules registered, sources, arguments", "why_tests_cant": "tests make a module of two functions and call them with all arguments; which names and defaults survive depends on every kind of parameter and on what is registered", "anchors": ["hamilton/ad_hoc_utils.py:14-122", "hamilton/graph_utils.py:6-24"]}
{"id": "C94", "title": "What the default savers write, the default loaders read as it was", "statement": "A value saved with the json, file or pickle saver is what the loader of the same name loads from that path; other files stay. A value is saved exactly if the format has it, otherwise there is an error and the file stays as it was. What was loaded once is saved and loaded as it is from then on. The environment loader returns exactly the variables named, or raises KeyError.", "quantifier": "for all values of any depth, texts, paths, files there before, variables of the environment", "why_tests_cant": "tests save one dictionary with strings for keys and one line of text; which values come back depends on all nested values, keys and characters", "anchors": ["hamilton/io/default_data_loaders.py:14-152"]}
{"id": "C95", "title": "Commands of the command line answer for their modules and context, or fail with code 1", "statement": "hamilton build, version, diff, validate and view load the context file (its four names, {} or [] where it has none or null), build a driver of the modules with its configuration, and show the command's answer, after those of the commands that come first if --verbose, as JSON if --json-out. A command leaves with code 0 exactly if it and the commands before it succeed; otherwise with code 1, and nothing more is shown. The context validated is the one the driver was built with.", "quantifier": "for all modules, context files, options, answers and failures of all commands", "why_tests_cant": "tests run each command on one module that builds; which answers are shown and when depends on every combination of options and on which command fails", "anchors": ["hamilton/cli/__main__.py:30-44", "hamilton/cli/__main__.py:119-284", "hamilton/cli/commands.py:8-110", "hamilton/cli/logic.py:254-322"]}
{"id": "C96", "title": "The file store gives back what was stored last, with or without savers", "statement": "FileResultStore.get gives, for each data version, the value stored last under it, as the saver's format has it if one was given, and None after it was deleted; exists tells whether it can be retrieved; other data versions do not matter. A store that fails changes nothing; deleting a result leaves nothing of it; delete_expired removes what has expired and nothing else. A saver without loader, or adapters that take neither file nor path, are refused.", "quantifier": "for all sequences of stores, deletions and expirations, data versions, values, formats", "why_tests_cant": "tests store one value with one saver and get it; whether results disturb each other or stay retrievable depends on the sequence, the names and failures", "anchors": ["hamilton/caching/stores/file.py:17-123", "hamilton/caching/stores/base.py:154-224"]}
{"id": "C97", "title": "A table of parameterizations is read row by row and column by column", "statement": "parameterize_frame accepts exactly the tables whose columns have two levels, the second being out, source or value, with at least one out, and otherwise raises InvalidDecoratorException. Each row becomes one parameterization: its outputs are the cells below out from left to right, and every other column binds its parameter to the cell, as a source or as a value.", "quantifier": "for all headers with any number of columns and levels, rows, cells", "why_tests_cant": "tests decorate one function with one table; which tables are accepted and what each column does depends on the whole header", "anchors": ["hamilton/experimental/decorators/parameterize_frame.py:15-60"]}
