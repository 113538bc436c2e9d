# Formal model of Hamilton: design

Everything below concerns the Python package in `/repo/hamilton` (text only; it is never run here).
The model is a set of total, computable Gallina functions in `rocq/theories/*Model.v`, written branch
by branch after the Python functions they cite, with exceptions as values. Specifications (`*Spec.v`)
are separate: inductive relations or set-theoretic descriptions that do not mention the model's helper
functions. Proofs live in `*Proofs.v`; `*Props.v` files contain only the property theorems, closed by
`exact`, each with `Print Assumptions` and an `Example` showing that its hypotheses are satisfiable.

## Plan per property

| id | what is modelled | how it is stated / proved |
|----|------------------|---------------------------|
| C01 | `execute_subdag` (DFS, memo, pruning), `FunctionGraph.execute`, `DefaultGraphExecutor.execute` | big-step relation `eval` (the meaning of a dataflow, no memo, no pruning); invariant over the DFS: everything stored evaluates to its stored value |
| C02 | same, with an event trace (Call/Store/Drop) and arbitrary history-dependent functions | invariant: a dropped node has all its consumers already stored, so it is never visited again |
| C03, C08 | same | executed set = functions on override-free paths from the request (both directions); corollary for permutations |
| C04 | same | corollary of C01/C03 for two runs that agree off the cut |
| C05 | `get_upstream_nodes`, `validate_inputs`, `node_is_required_by_anything` | soundness proved; completeness is false with overrides (witness) |
| C06 | same as C01 | DFS on an acyclic graph never runs out of fuel, fails only for the two listed reasons |
| C07, C09, C10 | same as C02 | invariants over every prefix of the trace |
| C11–C13 | `execute_lifecycle_for_node`, `LifecycleAdapterSet`, `Driver.execute` skeleton | event traces with fault oracles |
| C14, C15 | `create_function_graph`, `update_dependencies`, `add_dependency` | fold invariants over definition lists |
| C16, C17 | `directional_dfs_traverse`, `nodes_between` | DFS = reflexive-transitive closure |
| C18, C19 | `topologically_sort_nodes`, `get_node_levels` | Kahn invariant; longest chains |
| C20 | `combine_config_and_inputs` | map algebra |
| C21–C29 | `ExecutionState`, `DictBasedResultCache`, `run_graph_to_completion`, `PoolExecutor`, `create_task_plan` | labelled transition system with nondeterministic completion; invariants over all executions |
| C30, C31 | `cache_key.py` on strings; the compressor is a Section variable with a left inverse | round trip/injectivity on separator-free fields; refuted in general with witnesses |
| C32–C36 | caching adapter and stores | history invariants; store refinement to a finite map |
| C37, C38 | `fingerprinting.py` on an inductive value type, digest = injective oracle | structural induction, permutations; refuted parts with witnesses |
| C39, C40 | `configuration.py`, `sanitize_function_name` | decision logic; history of two builds |
| C41–C44, C47 | `parameterize`, `subdag`, `prune_nodes`, `check_output`, `reassign_inputs` | denotational equality of generated nodes |
| C45 | `matches_query` | decision logic |
| C46 | `Builder` state machine | history simulation |
| C48 | `modify_graph`, `Driver.materialize` | conservative extension of the graph; values of savers and loaders |
| C49–C51 | `types_match`, `update_dependencies`, `find_functions` | decision logic; refuted parts with witnesses |
| C52–C54 | lifecycle sets and exceptions outside `Exception` | event traces; refuted parts with witnesses |
| C55 | `pipe_input`, `pipe_output`, `chain_transforms` | `value` (meaning of nodes with callables) of the decorated function = steps composed with it |
| C56 | `extract_fields`, `extract_columns`, `parameterize_extract_columns` | `value` of each extracted name |
| C57 | `load_from`, `save_to`, `dataloader`, adapter classes | `value` of the injected parameter / saver node |
| C58 | `NodeTransformer.transform_dag`, `select_nodes` | partition of the nodes |
| C59 | graph building, callables, the executor | `eval` of the built graph is `value` of the functions in effect; C01, C06 |
| C60 | the adapter as the function the executors call | induction over `peval` with and without the adapter; C01, C06, C09, C23, C24 for the runs |
| C61 | the walk that creates the tasks (C01's executor over task slots) and an event loop that continues any task | invariant of the loop; induction over the order of task creation; a measure for termination under fair schedules |
| C62 | the four grouping strategies of the library, any other as a function from nodes to groups | a partition without cycles meets the conditions of C21-C25; the values of C24 without Parallelizable are those of C01 |
| C63 | `CachingGraphAdapter.execute_node`, `build_result`; files, `computed_nodes`, a log of invocations; sessions of executions, new adapters and file removals | invariant over the trace of a run: computed is exactly what had to be; files hold meanings; comparison with the plain run by congruence |
| C64 | `CacheAdapter`: the hooks around a node, `create_key`, `used_nodes_hash`, adapter objects one after the other on a file | invariant: what is filed under a key is None or the value of every function with that source on those arguments; entries persist; comparison with the plain run by congruence |
| C65 | `with_nodes` and the replacement of nodes by loaders: linking again with the edges reset | invariant of the linking loop on reset nodes gives the shape; values by induction on the meaning in both directions; success by an invariant that types are kept; acceptance of built graphs by an invariant over narrowing |
| C66 | `check_instance`, `check_input_type`, the checking adapter, over annotations as a nested inductive and values with an abstract class hierarchy | a meaning of annotations stated by itself; induction over nested annotations that each check decides it |
| C67 | `types_match` and `custom_subclass_check` inside the linking of C50; then executions of C01 | inclusion of meanings by induction on the match; invariant of linking that every consumer's type is above the current type of the node; induction over the trace |
| C68 | the statements of a module as a state machine over function objects and a heap of step objects, which `mutate` changes in place; then pipe_output of C55 | invariant relating the heap view of a function to the steps written in the module (refinement), then the value theorem of C55 |
| C69 | The cluster adapters: the walk of the default executor over references (`RemoteModel.do_remote_execute`), then a small-step machine in which the driver submits, tasks start when their arguments are there, and the result builder is a task | a task step is a step of the event loop of C61 (`task_step`), so its invariant is reused. progress by a measure, for schedules that repeat every choice |
| C70 | `with_columns` of pandas and polars: constructor, target parameter, extraction of columns, duplicates, pruning, the node that appends, the namespace and the rewiring of the function's nodes (`ColumnsModel.transform_dag`) | specification: the functions as a dataflow of their own whose inputs are the columns passed, the dataframe and variables of the graph (`ColumnsSpec`); both directions by induction on values, on top of the lemmas on renaming (C42) and pruning (C43); what is added and what is accepted exactly; refutations by witnesses |
| C71 | Spark's `with_columns`/`select`: UDFs, pandas UDFs, `require_columns`, the linear chain of dataframes, dropping and selecting, namespaces (`SparkModel.spark_transform`) | specification: a column is computed by its function from columns of the group or of the dataframe (`SparkSpec.colval`), the final dataframe by its columns (`final`), what runs by reachability (`run_order`); the chain by induction on the sorted prefix with an invariant on the dataframe so far; refutations by witnesses |
| C72 | the thirteen default validators with their constructors, `applies_to`, `resolve_default_validators` and the decorator (`ValidatorModel.check_output_default`, on top of `CheckModel`) | specification: a table of what each documented argument asks of a value (`ValidatorSpec.asks`), with means and variances as rational equations; each validator decides its entry (`decides`), then C44 lifts it to the decorated node; refutations by evaluation |
| C73 | `execute_node`, `build_result`, `_inspect_kwargs` of PySparkUDFGraphAdapter with its two attributes, under the default executor (`UdfModel.udf_execute`, on top of `SparkModel.lambda_udf`) | specification: the same graph executed by functions of columns and values (`UdfSpec.column_fn`); a general simulation between two executions (`ExecMap.default_map`) relates the run on the growing dataframe to it, with an invariant on what the dataframe holds (`UdfProofs.uinv`); refutations by evaluation |
| C74 | `NodeTransformLifecycle.__call__`, `resolve_config`, `get_node_decorators`, `resolve_nodes`, and `resolve` with the signature of its function (`DecorModel.decorate`, `resolve_nodes`); what the decorators of each class do is any function | specification: a relation that chains the decorators of each class (`DecorSpec.made`), what a decorator sees (`sees`) and what @resolve stands for (`stands_for`); the attributes of the function are the subsequences of the stack (`decorate_attr`), the grouping gives them back, each loop is a chain; refutations by evaluation |
| C75 | `pandas_index_types`, `check_pandas_index_types_match`, `build_result`, `build_dataframe_with_dataframes`, the strict builder, NumpyMatrixResult (`ResultModel`); of pandas: the construction of a DataFrame from a dictionary, reindexing, `to_dict`; the union of indexes is any function with the properties `ResultSpec.joins` | specification by labels and positions (`ResultSpec.column`, `joined`, `rows`); invariants of the loops over the outputs; refutations by evaluation |
| C76 | `_diff_mappings`, `diff_schemas`, `human_readable_diff`, `pyarrow_schema_to_json`, SchemaValidator (`ArrowModel`); of pyarrow: a schema is its columns and metadata, and its `equals` | lookups in the diff of two mappings; the loop of the report as a collection of outcomes per entry; the report against a specification by keys (`shows`); induction over nodes for runs. Reports are refuted where the code takes a value for a diff or the other way around |
| C77 | `DiskCacheAdapter` (its hooks and what it stores), `evict_all_except` (`DiskModel`); of diskcache: `get`, `add`, `set`, `evict` by tag; sessions, runs and evictions as events | invariants over all events: entries are right for every node of that source; the tag of every entry is in the history stored and in that of the adapter. Results refuted where sources do not tell nodes apart |
| C78 | `does.map_kwargs`, `test_function_signatures_compatible`, `validate` and the wrapper (`DoesModel`); calls by keyword and `Signature.bind` as python defines them; the replacing function by its signature and what it does with its arguments | mapping and binding look at names only, so the trial with dummies tells of all calls; an invariant of the loop for renamings and exchanges. Refuted for chains |
| C79 | `_remove_docs_and_comments` on syntax trees, `HamiltonNode.version`, `HamiltonGraph.version`, the functions of cli/logic.py that compare versions, `commands.diff` and how inputs get their originating functions (`VersionModel`); sha256 as a function that tells the codes at hand apart | induction on trees; the four kinds of variables of a graph by what `graph_of` holds of them; diffs by membership. Refuted for inputs, orders of modules, nodes sharing a function |
| C80 | the decorators of metadata.py with their validation, how they are attached (base.py `__call__`) and applied (`select_nodes`, `transform_dag`), reading ray options from tags (`TaggingModel`); `isidentifier`, json and which types are dataframes as parameters | a specification of who has the last word on a tag; invariant over the stack of decorators from the function outwards relating each node to its original; splitting and joining of strings. Refuted for @tag_outputs, unhashable values, order of @schema.output, ambiguous schemas |
| C81 | `_enter_span`/`_exit_span` with context variables, the caches of the Datadog tracer (`SpanModel`); the libraries' spans reduced to name, parent, links and how they were ended | small-step interleaving of threads with nested spans against the spans that a reader of the program expects (paths of names); invariant tying each thread's open spans to the stack of its context, as an equation of multisets. Datadog: invariant over streams of hooks. Refuted for tasks in threads, failing hooks of other adapters and falsy exceptions (OpenTelemetry) |
| C82 | `create_graphviz_graph` as the list of node and edge statements it makes, and what the driver passes to it (`DrawModel`); markup and schemas as functions | a reading of dot files (later attributes win, one node per name) against what there is to show; names of all things present, disjointness as a hypothesis (`clean`); invariant over the tables that can be shared. Refuted: functions named like entries of the legend, requested inputs, legend for hidden inputs, arrows into overridden nodes |
| C83 | flag, counter and sending as steps of threads that interleave, events as functions of what the driver knows (`TelemModel`) | invariants over all schedules (events sent, past the check and at the comparison are at most the count); sameness of events of programs alike but for what is the user's (noninterference). Refuted: calls of dataflows and imports of contributed ones raise once telemetry is disabled, and send without limit; counters that race; user code below a directory called hamilton, names of custom executors; failures of constructors are never told; inputs counted by whether there are overrides; unreadable values leave it on |
| C84 | the functions of `hamilton.dataflows` on a file system (map from paths to files and directories) and a hub that answers each request with a status and a text (`HubModel`) | what is written against what was there, invariant that every entry is in a directory, listing as a set without duplicates, and its step when something is pulled; invariant over the cache of the branch. Refuted: retries after failures, listing once an official dataflow is there, the default version of `list`, requirements with versions, other branches within a minute, names of loaded modules, answers that are cut short |
| C85 | `convert_output_values` on names, variables, functions and other things (`RequestModel`), with the `__name__` of functions as builds leave it (`ConfigModel`) | fold over the list against a relation of what objects stand for; names after a build and invariance under later builds by induction over them. Refuted: empty names are dropped silently; a driver asked for the variant of another driver computes its own; so does a driver asked for a function of which only the first decorator accepts; functions of modules whose names contain the driver's are nodes but cannot be asked for |
| C86 | `registry.py` with extensions as records of what they register, how they fail and what they define (`RegistryModel`); environment, configuration file and module state in one record, new processes by `start` | induction over the list of extensions against a relation of the last registration; processes after changes of the file. Refuted: dataframe types without columns give KeyError for their own and for all column types; one package that fails otherwise prevents importing Hamilton; `enable_autoload` fails if not disabled; the process that enables it in the file stays disabled; the environment cannot override the file; nothing but 0 disables |
| C87 | versions, `deprecated` with its checks, messages and actions, wrapped functions and classes with own and inherited `__call__` and `__old_call__` (`DeprecateModel`); Python's recursion limit is a parameter | order of versions against an inductive relation; calls against the actions in order and then the body, by induction over decorators and over class statements, for any limit above the number of deprecated classes. Refuted: at the very version nothing starts yet; both versions may be equal, so that no version warns; a class deprecated twice recurses whatever the limit |
| C88 | filters, `PrintLn` and the progress bar as handlers of sequences of hooks; what is announced as `get_upstream_nodes` gives it (`WatchModel`, `TraverseModel`) | induction over hooks, with the timers kept equal to what has begun; announced nodes against those a run executes (`ExecModel`, C02 and C03). Refuted: PrintLn makes every task-based run fail with a KeyError, since it deletes the timer under another name; bars are not full where functions are overridden; requests with nothing to execute fail; failed runs are said to be complete; widths below three; second runs |
| C89 | the adapter's hooks as functions on the list of events sent, with a client that may refuse any; metadata of files, tables and frames; execute and materialize as far as they call hooks (`LineageModel`) | induction over the executed nodes against a relation of events to what nodes saved and loaded; strings split at the first ".loader" and the last dot. Refuted: a file written and read is two datasets, since the one is named by path and the other by node; formats of loaded files, since the dot is looked for in the node's name; queries in small letters are tables; interrupted runs are COMPLETE; metadata of series, unreadable sources and failing clients make runs fail; materialize reports failures of runs that never started, and raises UnboundLocalError in place of what is wrong |
| C90 | the tracker's hooks as functions on its fields, the working directory and the cache; runs as sequences of nodes with any outcome (`TrackModel`) | induction over nodes for directories and for what is recorded; all 256 characters by computation. Refuted: after a saver failed the process stays in the run's directory, another error is raised and the cache is not found; second runs are recorded with the inputs, overrides and files of the first and replace its record; runs without inputs, and savers that do not say where they saved, make runs fail; records cannot be deleted |
| C91 | the tracker's hooks as functions on the server's runs and the active run; executions as sequences of nodes with any outcome (`MlflowModel`) | only the current run changes (induction over parameters and nodes), what is logged by induction over nodes against a relation, stuck sequences by induction over executions. Refuted: failed executions end as FINISHED; executions without inputs fail and all later ones with them; a run_id given is not used; strings and dictionaries are not logged as text and JSON; what cannot be pickled fails executions; exceptions of numbers and savers are replaced; None is logged for failed nodes; inputs named like the configuration's keys fail; a saver's path may be logged in place of its figure |
| C92 | conversion of Kedro's nodes with the annotations it changes, renamed calls with keywords, the driver's values by depth (`KedroModel`); Kedro's runner in the specification | induction over the pipeline for names and annotations, over depth for values, bijection of parameters and inputs. Refuted: converting twice; functions with several outputs used twice; outputs by keys that are not the datasets' names, one output by key, lists of one; one dataset for two parameters; defaults where a dataset has the parameter's name; inputs by name behind a default; parameters named like datasets; Tuple[...] and missing annotations |
| C93 | function objects with their attributes, copies, modules registered and temporary files (`AdhocModel`); `find_functions` of C51 | induction over functions for modules, over parameters for calls. Refuted: defaults of keyword-only parameters are lost; annotations are shared; failing source stays registered; modules are replaced; files of failing source stay |
| C94 | values, JSON as trees, text with its ends of lines, files by path (`FileIOModel`); values JSON has as they are, values it has a form of, texts without carriage returns (`FileIOSpec`) | induction over the size of values. Refuted: tuples become lists; keys become strings and may hide each other; `\r\n` in texts becomes `\n`; a save that fails destroys what was in the file |
| C95 | commands that invoke each other with the program's state, lines shown, context files that may differ each time they are read (`CommandModel`); answers of commands as a relation, lines of lists of commands (`CommandSpec`) | each command appends to the outcome of the one it invokes. Refuted: the context is read twice; `--json-out` fails for contexts without JSON; a second command in a process answers for the first one's modules |
| C96 | files of a result store, savers' files among them, `with_suffix` on strings, expiry (`MaterializedModel`); what the last operations leave (`MaterializedSpec`) | invariant over all sequences of operations. Refuted: results without their saver's file exist; deleted results leave files; failing savers destroy results; loaders as values; data versions with dots; expiry fails with savers' files, and otherwise removes nothing |
| C97 | header of a table as tuples of keys, its levels, rows of cells, bindings (`TableModel`); what the columns say (`TableSpec`) | induction over columns. Refuted: of two columns that bind a parameter the first is ignored; unknown kinds and tables without columns or levels raise other errors |

## Trusted base

1. **Coq 8.16.1's kernel** (`coqc`; `coqchk -o` is run over the whole development as a second check).
2. **Axioms: none.** Every property theorem (`Theorem Cnn_...`) is followed by `Print Assumptions`; each
   one prints "Closed under the global context". Loading std++ / ssreflect brings the module-type
   parameters `Coq.ssr.ssrunder.Under_rel.*` into the environment (they belong to Coq's own `ssrunder`
   library, where they are instantiated by the opaque module `Under_rel`); no theorem depends on them.
   No `Axiom`, `Parameter`, `Admitted`, section-less `Variable`/`Hypothesis`, functor, module type or
   `Declare Module`, and no kernel check is switched off.
3. **The reading of the Python source.** Each definition of a `*Model.v` file cites the file and lines it
   transcribes, and says in the same comment what it leaves out. Nothing is extracted or run against the code.
4. **What the oracles may do.** User functions, adapters, result builders, savers/loaders, the digest and the
   compressor are universally quantified functions (Section variables that become arguments of the theorems).
   Where a theorem needs something of them it is a visible hypothesis (e.g. an injective digest).

### What is modelled, and what is not

| file(s) | code | left out |
|---|---|---|
| `ExecModel` | `execution/graph_functions.py` `execute_subdag`, `FunctionGraph.execute`, `DefaultGraphExecutor` | `DataLoader`/`ResultBuilder` telemetry; the recursion limit of CPython |
| `LifecycleModel` | `lifecycle/base.py` `LifecycleAdapterSet`, `graph_functions.execute_lifecycle_for_node`, `Driver.execute` | async hooks, validators' messages, the SDK's tracking adapter |
| `GraphModel`, `TraverseModel`, `TopoModel` | `graph.py` `create_function_graph`, `add_dependency`, `update_dependencies`, `get_upstream_nodes`, `nodes_between`, `Driver` queries; topological helpers | visualisation, docstrings; types are an abstract set with a matching oracle |
| `StateModel`, `PoolModel`, `GroupModel`, `TaskModel` | `execution/state.py`, `executors.py`, `grouping.py`, `driver.TaskBasedGraphExecutor` | real threads/processes, pickling; completion order is nondeterministic and arbitrary |
| `CacheKeyModel`, `FingerprintModel`, `StoreModel`, `BehaviorModel`, `CacheModel` | `caching/cache_key.py`, `fingerprinting.py`, `stores/*`, `adapter.py` | base64/zlib (an oracle with a left inverse), sha224 (injective oracle), files of the result store (a finite map), concurrent runs, materializers of results, logging |
| `ConfigModel` | `function_modifiers/configuration.py`, `base.py` resolution order, `graph_utils.find_functions`, `graph.py` collection | `ResolveAt` / `resolve_from_config` (the delayed resolver is modelled as the decorator it returns) |
| `GracefulModel` | `lifecycle/default.py` `GracefulErrorAdapter`, `accept_error_sentinels` | a sentinel whose comparison raises or gives no truth value |
| `AsyncModel` | `async_driver.py` `await_dict_of_tasks`, `process_value`, `AsyncGraphAdapter.do_node_execute`, `AsyncDriver.raw_execute` | lifecycle hooks, cancellation, inputs that are awaitable themselves, the order of keys in the result, display_graph, telemetry |
| `StrategyModel` | `execution/grouping.py` `GroupNodesByLevel` (the other strategies are in `GroupModel`) | |
| `HCacheModel` | `experimental/h_cache.py` `CachingGraphAdapter` | the readers and writers of the formats (oracles), the directory itself, other processes writing to it |
| `ShelfModel` | `lifecycle/default.py` `CacheAdapter` | `pickle` (an oracle whose bytes depend on the value only), SHA-256 (a function without collisions), `nodes_history`, the shelve file itself |
| `RelinkModel` | `graph.py` `FunctionGraph.with_nodes`, `update_dependencies` of a linked graph; `io/materialization.py` replacement by loaders in `modify_graph` | which nodes factories generate, `originating_functions`, tags and docs of nodes |
| `NodeModel`, `PipeModel`, `ParamModel`, `CheckModel`, `ExtractModel`, `SubdagModel`, `AdapterModel`, `LinkModel` | `node.py` `reassign_inputs`; `pipe_input`, `pipe_output`, `step`; `parameterize*`, `inject`; `check_output`; `extract_fields/columns`; `subdag`; `load_from`, `save_to`, `dataloader`, transformer targets; how the callables reach the executor | documentation, tags of generated nodes, async variants, pandas/polars/spark specifics (abstract containers) |
| `MutateModel` | `macros.py` `mutate`, `apply_to`, `_filter_individual_target`, validation of steps and targets of `pipe_output` | the `when`/config conditions of steps are a boolean; decorators of a mutator other than @mutate; decorators applied twice to a module that is imported again |
| `RemoteModel` | `h_ray.py` `RayGraphAdapter`, `RayWorkflowGraphAdapter`; `h_dask.py` `DaskGraphAdapter` with use_delayed and compute_at_end; graph_functions.py 205-220 | serialization, options from tags, hooks, retries after crashes, `use_delayed=False` (then it is the default executor), `compute_at_end=False` |
| `ColumnsModel` | recursive.py 639-851 `with_columns_base`; h_pandas.py 106-239 `with_columns`; base.py 224-280 `NodeInjector` | the dataframe library (`assign`, column lookup: oracles), `config_required`, tuples of column and documentation in columns_to_pass, tags, the async variants; `pass_dataframe_as` and spark |
| `SparkModel` | h_spark.py 234-422 (UDFs), 514-606 `sparkify_node_with_udf`, 609-634, 652-678, 712-876 `require_columns`, 880-1219 `with_columns`, 1298-1306 `select`; recursive.py 656-851 | Spark itself (`spark_apply`, types, laziness, rows: a column is an abstract value), async functions, `config_required`, tags other than those of require_columns, `PySparkUDFGraphAdapter`, case-insensitive column names |
| `ValidatorModel` | default_validators.py; data_quality/base.py 13-35, 107-146; validation.py 184-252 | pandera and pydantic validators, custom candidates, dask objects, messages and diagnostics; floating point (numbers are rationals with infinities and NaN; the one division may round, C72_rounding); comparisons of pandas cells are by Python's rules |
| `UdfModel` | h_spark.py 293-309, 425-523 | type checks of the adapter (`check_input_type`), names with dots or backticks, laziness of Spark (a column is its content), logging |
| `DecorModel` | function_modifiers/base.py 62-140, 617-843; delayed.py | @mutate (its own `__call__`, C68), validation that looks at other decorators, counting of usage, logging, the text of errors; the methods of the decorators themselves (modelled elsewhere for those of the project) |
| `ResultModel` | base.py 73-384 | names of indexes, dtypes of columns, MultiIndexes, dictionaries, sets and arrays of several dimensions as outputs; the warnings; DictResult (the identity). pandas' construction of DataFrames is modelled from its documentation and known code, the union of indexes is specified; numpy's conversion of cells to one dtype is left out |
| `ArrowModel` | plugins/h_schema.py 19-228, 366-477 | how a dataframe's schema is found (dispatch over libraries, 231-353); bytes; the order of the keys of diffs; IPC files are schemas kept by path; inputs and overrides (420-428) are nodes that come first; attributes after an exception |
| `DiskModel` | plugins/h_diskcache.py 15-146; the calls of its hooks in execution/graph_functions.py 275-331 and driver.py 616-652 | pickling (two values are one key exactly if they are the same value), the size limit and expiry of diskcache, the sizes and the counter returned (41-66), logging; a callable without source (inspect raises); nodes executed in parallel |
| `DoesModel` | function_modifiers/macros.py 39-54, 83-223 | the comparison of bytecodes (whether the body is empty is given), types and return types (not looked at by the code either), calls with positional arguments (nodes are called by keyword) |
| `VersionModel` | graph_types.py 25-86, 158-183, 226-234; cli/logic.py 58-195; cli/commands.py 27-65, 97-106; graph.py 102-110, 168-187 | `ast.parse`/`unparse` (sources are trees), sources that cannot be parsed, git, the drawing of a diff, decorated functions when the graph is built (given as graphs), contexts of the command line |
| `TaggingModel` | metadata.py 12-160, 163-189, 210-283, 338-416; base.py 93-114, 419-516, 570-613, 829-831; h_ray.py 36-52 | texts of error messages, `track_decorator_usage`, `isidentifier` and `json` (parameters), the registry of dataframe types (a parameter), nodes compared by name |
| `SpanModel` | h_opentelemetry.py 25-58, 84-149; h_ddog.py 36-38, 112-258 | attributes and tags of spans (so also `self.graph`, which is that of the last run started), pickling of the Datadog tracer, which span is active for other libraries |
| `DrawModel` | graph.py 202-664; driver.py 992-1005, 1409-1413 | attributes of the graph and of clusters, HTML of the table of inputs (names in it and keys of the config are not escaped), rendering, ports (graphviz splits names of edges at colons) |
| `TelemModel` | telemetry.py 85-147, 162-249, 292-322, 397-502; driver.py 61-88, 481-520, 664-701; async_driver.py 376-432; function_modifiers/base.py 43-62; dataflows/__init__.py 46-59; contrib/__init__.py 14-32 | the request itself (in a thread whose failures are caught), fixed properties, runtimes, interpolation in values of the file, parsing of names of contributed modules, logging |
| `HubModel` | dataflows/__init__.py 96-281, 456-664 | names with separators, links, permissions, execution of the modules imported, `inspect*`, `install_dependencies_string` (formatting of the same paths), JSON of the answer for a branch, stripping of lines |
| `RequestModel` | common/__init__.py 5-58, driver.py 654-662, io/materialization.py 186-203 | attributes `name` that are neither strings nor None, how sets are printed, order of non-ASCII strings |
| `RegistryModel` | registry.py 14-244, function_modifiers/base.py 19-23 | the singledispatch functions `get_column` and `fill_with_scalar`, registering of adapters, sections and interpolation of the configuration file, logging |
| `DeprecateModel` | dev_utils/deprecation.py 1-199 | parts of versions that are strings, classes without `__call__`, several bases, calls of `super`, attributes other than `__qualname__` |
| `WatchModel` | lifecycle/default.py 25-157, plugins/h_tqdm.py 35-108, lifecycle/api.py 294-317 | formatting of times (any function), pprint, tqdm itself, characters of several bytes, hooks of nodes outside of runs, the PDB debugger |
| `LineageModel` | plugins/h_openlineage.py 36-367, io/utils.py 16-138, the calls of hooks in driver.py 584-652 and 1635-1720 and graph_functions.py 255-331, graph_types.py 104-128 | times, sizes, stack traces, the OpenLineage client (any function that takes or refuses events), the order of nodes (any), task-based and remote execution, other adapters, names of columns that are not strings, paths that are not strings |
| `TrackModel` | plugins/h_experiments/hook.py 18-202 and cache.py | times, JSON (records are kept as values), dbm beyond opening for reading and writing, links and dots in paths, making the result, materialize, the experiment server, interrupts |
| `MlflowModel` | plugins/h_mlflow.py 37-318: the hooks of MLFlowTracker. MLflow itself is assumed to act as its documentation says: `start_run` raises while a run is active, `log_param` stores strings and refuses other values, `end_run` terminates the active run with FINISHED | experiments and their tags, names and descriptions of runs, local copies of files written, tags and descriptions of registered models (only model, version and node are kept), failing servers, interrupts, materialize |
| `KedroModel` | plugins/h_kedro.py; node.py 347-397 and expanders.py 733-850 as used there. Kedro is not in the repository: that `node.inputs` and `node.outputs` are lists, how inputs are bound and outputs unpacked is taken from its documentation | types of edges (C49), functions with starred parameters, asynchronous functions, adapters and hooks, order of execution (the driver's values are those of C01), annotations that are strings, fill_with (not used) |
| `AdhocModel` | ad_hoc_utils.py 14-122 | globals and closures (part of what code does), documentation and qualified names, starred parameters, linecache, uuid (names are given to the model), printing |
| `FileIOModel` | io/default_data_loaders.py 14-83, 111-152 | the syntax of JSON and of pickles (both are trees or values in files), floats, encodings, bytes, metadata, literals and memory, systems whose lines end otherwise; `json` and `open` are modelled as documented by Python |
| `CommandModel` | cli/__main__.py 36-44, 119-284; cli/commands.py 8-110; cli/logic.py 256-322 | what commands call of Hamilton (oracles; comparing versions is C79's `VersionModel`), typer's parsing and checks of paths, names and paths of pictures, logging, telemetry, `ui` |
| `MaterializedModel` | caching/stores/file.py 30-123; caching/stores/base.py 154-224 | savers' and loaders' formats (an oracle; C94 has three of them), pickling, directories, processes that share a store |
| `TableModel` | experimental/decorators/parameterize_frame.py 15-60 | pandas' own reading of tables (`iterrows` gives the cells unchanged as rows contain names), what parameterize_extract_columns makes of the parameterizations |
| `TypesModel` | `htypes.py` `_safe_subclass`, `custom_subclass_check`, `types_match`, `check_input_type`, `check_instance`; `Driver.validate_inputs` on types; `FunctionInputOutputTypeChecker` | `Annotated`, `column`, TypeVar, pandas special cases, the registry of type adapters; iterators are values with a flag |
| `MaterializeModel` | `io/materialization.py`, `Driver.materialize` | telemetry; validation and execution are an oracle here (they are the subject of C01–C06) |
| `TagModel`, `BuilderModel` | tag queries; `driver.Builder` | objects are identities |

Not modelled at all: plugins (`hamilton/plugins`), the CLI, `hamilton/dev_utils`, the rest of `experimental`,
visualisation, telemetry, the Spark/Dask/Ray adapters, the UI and SDK.

Hypotheses that recur: node names of a graph are distinct keys of a dict; `acyclic g` for termination
statements; functions receive keyword arguments and do not depend on their order (`keyword_fn`, true of
Python functions). Every `Props` file has `Example`s that instantiate the hypotheses of its theorems.

## Results per property

| id | property | status | theorems (positive) | scope, and what is missing |
|---|---|---|---|---|
| C01 | execute returns the values the functions define | proved | `C01_execute_returns_meaning`, `C01_meaning_unique` | meaning given by an inductive big-step relation; default executor |
| C02 | each function runs at most once per execute | proved | `C02_at_most_once` | for arbitrary stateful functions and every outcome |
| C03 | execute runs only what the request needs | proved | `C03_only_needed_functions_run`, `C03_all_needed_functions_run` | both directions |
| C04 | overrides cut the graph | proved | `C04_overrides_cut_the_graph`, `C04_override_not_called` | non-interference between two graphs/functions/inputs that agree on needed nodes |
| C05 | validated inputs never turn into a missing-input failure | partial | `C05_accepted_never_missing`, `C05_accepted_succeeds`, `C05_rejection_justified_partial`, `C05_rejection_visible` | acceptance direction proved in full; rejection direction holds without overrides and is refuted with them (an overridden external input is still demanded) |
| C06 | execute succeeds whenever the functions do | proved | `C06_success_characterisation`, `C06_total` | success iff, plus totality |
| C07 | dependencies run first and are handed over completely | proved | `C07_arguments` |  |
| C08 | the order in which variables are requested is irrelevant | proved | `C08_request_order_irrelevant` |  |
| C09 | an exception stops the run at the failing function | proved | `C09_exception_stops_the_run`, `C09_failures` |  |
| C10 | requested results are never discarded | proved | `C10_requested_results_stay`, `C10_discarded_only_when_finished` |  |
| C11 | node hooks are paired around every node execution | proved | `C11_node_bracket`, `C11_run_brackets` | per node and composed over a whole run of the default executor; exceptions deriving from Exception, repr of arguments not raising (see C53) |
| C12 | adapters run in registration order, each once | proved | `C12_hook_adapters`, `C12_one_method_implementation`, `C12_calls_in_order` | adapters compared by identity (see C54) |
| C13 | graph hooks bracket every execute call | proved | `C13_run_bracket` |  |
| C14 | the built graph has exactly the declared edges | proved | `C14_graph_is_exactly_the_declared_one`, `C14_built_graphs_are_well_formed` |  |
| C15 | duplicate definitions are rejected or the last module wins | proved | `C15_duplicates_are_rejected`, `C15_only_duplicates_are_rejected_as_such`, `C15_last_definition_or_config_wins` |  |
| C16 | upstream and downstream queries are exactly reachability | proved | `C16_upstream_is_reachability`, `C16_downstream_is_reachability`, `C16_upstream_downstream_dual` | also on cyclic graphs |
| C17 | path queries return the nodes on some path | proved | `C17_path_between`, `C17_nodes_between` | driver query exact on all graphs; FunctionGraph.nodes_between exact except that it reports no path from a variable to itself (refutation recorded) |
| C18 | topological sort is complete and ordered | proved | `C18_sort_is_ordered_permutation`, `C18_sort_with_cycles` | also the cyclic case |
| C19 | levels are longest dependency chains | proved | `C19_levels`, `C19_groups`, `C19_no_dependency_inside_a_level` |  |
| C20 | runtime inputs and config must be disjoint | proved | `C20_config_and_inputs` |  |
| C21 | a parallel task starts only after its dependencies succeeded | proved | `C21_start_after_dependencies` | for every well-formed plan (wf_plan; distinct ids, expanders spawn what they should; checked by a verified decision procedure on concrete plans) |
| C22 | no task is executed twice | proved | `C22_each_task_once` | submissions, completions and the queue, for every schedule of the executors |
| C23 | collected results follow the expansion order | proved | `C23_collect_order` | Every call of a collector, under every schedule, pool size and grouping order, on dataflows of the supported shape; overriding a variable of a block is refuted. |
| C24 | task-based execution computes the same values as sequential execution | proved | `C24_values`, `C24_schedule_independent`, `C24_terminates`, `C24_only_user_exceptions`, `C24_succeeds`, `C24_sequential_meaning` | Values, schedule independence, termination; a run raises nothing but the exception of a user function and succeeds when no function fails. Assumes no supplied input is overridden and no per-item variable is requested: both are refuted outside that (C24_override_of_input_refuted, C24_requested_block_variable_refuted). |
| C25 | task-based execution does not get stuck | proved | `C25_progress`, `C25_terminates`, `C25_complete` | for well-formed plans whose dependencies are realizable (live_plan); the C25_*_refuted theorems show plans produced by the code outside that class which hang or silently skip a variable |
| C26 | the number of in-flight pool tasks is bounded | proved | `C26_pool_bound` |  |
| C27 | executors are finalized on every exit | partial | `C27_finalized_partial`, `C27_leaks_exactly` | holds when no executor fails to initialise or shut down; the full claim is false: C27_*_refuted, and C27_leaks_exactly says what stays open |
| C28 | the task plan preserves the dataflow | proved | `C28_plan_dataflow`, `C28_plan_rejected` |  |
| C29 | results of different parallel branches never mix | proved | `C29_branches_separate` | for spawning ids and plain variable names without a colon (Python identifiers, dotted); false for arbitrary strings: C29_arbitrary_names_refuted |
| C30 | cache keys round-trip | partial | `C30_roundtrip_partial`, `C30_empty` | round trip for safe node names and comma-free texts; false for namespaced nodes, dashes in code versions and commas: C30_*_refuted |
| C31 | cache keys identify node, code and dependency versions | partial | `C31_injective_partial`, `C31_injective_safe`, `C31_order_irrelevant` | injective up to the safe form of the node name for comma-free texts; false for namespaced nodes that share a safe form and for commas: C31_*_refuted |
| C32 | cached execution is transparent | partial | `C32_transparent_partial` | every history of executions and deletions, both metadata stores; excluded and refuted: inputs naming a function, data savers, loaders of tuples, dependents of IGNOREd nodes, values with equal fingerprints |
| C33 | a repeated execution hits the cache | proved | `C33_repeated_execution`, `C33_never_again` | after any history, when every value has a fingerprint; unhashable inputs, and unhashable results after deletion with SQLite, are refuted |
| C34 | caching behaviour resolution precedence | partial | `C34_precedence_partial`, `C34_loader_follows`, `C34_load_from`, `C34_rejected`, `C34_two_true_rejected`, `C34_accepted` | all nodes, decorators and configurations; for the nodes of @load_from the documented precedence is refuted (True, own name and default behaviours are ignored) and the actual one proved; EXPAND nodes listed twice are not rejected (refuted) |
| C35 | metadata stores agree | partial | `C35_memory`, `C35_memory_runs_partial`, `C35_sqlite_partial`, `C35_agree_partial` | each store characterised for every sequence; equal answers for consistent sequences; re-setting a key, deleting a missing one, get_run after deletions and delete_all are refuted |
| C36 | persisting or loading a store loses nothing | partial | `C36_persist_metadata_partial`, `C36_load_metadata_partial`, `C36_persist_results`, `C36_load_results_partial` | orderly histories; keys deleted before persisting, runs never started and missing results are refuted |
| C37 | fingerprints do not depend on iteration order | proved | `C37_order_invariant`, `C37_order_invariant_string_keys`, `C37_sequence_elements` | order invariance for reorderings whose keys have different texts; keys with equal texts are refuted |
| C38 | different values get different fingerprints | partial | `C38_same_type_partial` | holds for values of the same type with an ideal digest; false across types, containers, classes, nested unhashables and beyond the maximal depth: C38_*_refuted |
| C39 | config variants: when and when_not are complementary | proved | `C39_complementary`, `C39_filtered_config`, `C39_one_variant`, `C39_build_exact` | for single-key when/when_not and when_in/when_not_in, all configurations; several keys in one decorator are not complementary (refuted) |
| C40 | building a driver is repeatable | partial | `C40_repeatable_partial` | any number of earlier builds with any configurations, for functions whose name without its suffix has no further double underscore or whose decorators agree on a name; false otherwise: C40_*_refuted |
| C41 | parameterize substitutes arguments | partial | `C41_outputs`, `C41_dependencies`, `C41_value_partial`, `C41_inject`, `C41_parameterize_values`, `C41_parameterize_sources` | proved for the values, dependencies and outputs of parameterized nodes; missing: parameters with the reserved names of the wrapper, and literals whose parameter name is itself an undefined dependency, for which the claim is refuted (3 refutations) |
| C42 | a subdag computes what its dataflow computes standalone | partial | `C42_validated`, `C42_subdag_partial`, `C42_parameterized_partial` | all subdags, bindings and enclosing graphs; undeclared parameters must not be captured by the wrapper or coincide with a namespaced name, and inputs with a source that only the decorated function uses are excluded: refuted |
| C43 | subdag pruning keeps exactly what is needed | proved | `C43_prune`, `C43_no_selection` | any collection of distinctly named nodes, cyclic or not, any selection, any order of the set of selected nodes |
| C44 | check_output returns the unmodified value iff no failing check | proved | `C44_value`, `C44_error`, `C44_names` | validators and final node: value, error and names; refutations for stacked decorators and clashing names |
| C45 | tag queries are conjunctions of disjunctions | proved | `C45_matches`, `C45_filter`, `C45_no_filter` | any tags and queries |
| C46 | Builder.copy preserves the configuration | partial | `C46_build`, `C46_rejects`, `C46_independent`, `C46_copy_partial`, `C46_driver_partial` | all histories of builder calls; copies after allow_module_overrides, drivers after with_config on their builder, and the order of adapters after an earlier build are refuted |
| C47 | input renaming preserves meaning | partial | `C47_dependencies`, `C47_reassign_partial` | any node, renames and literals whose names do not clash; with a clash the claim is false: C47_*_refuted |
| C48 | adding materializers/data loaders leaves other variables alone | partial | `C48_unaffected`, `C48_savers_only`, `C48_saved`, `C48_loaded`, `C48_rejected`, `C48_results`, `C48_hook_partial` | all graphs, materializers and loaders: unaffected variables, saved and loaded values, results; the hook is only proved to be called when the graph could be modified (UnboundLocalError otherwise: refuted), two materializers with one id are refuted |
| C49 | A built graph is type-checked on every edge | proved | `C49_edges_are_type_checked` | types and matching relation abstract |
| C50 | Acceptance of a program does not depend on the order of its functions | partial | `C50_every_order`, `C50_order_irrelevant_partial`, `C50_same_graph` | the claim is false (Union narrowing depends on order: C50_order_independence_refuted); proved: exactly which programs are accepted in every order, that the order is irrelevant when functions sharing an input have comparable annotations, and that accepted orders give the same graph |
| C51 | A module contributes exactly its own functions | partial | `C51_own_functions_partial` | own public functions are collected; the only-if direction is refuted (substring test) |
| C52 | a refused request runs nothing and names the real culprits | proved | `C52_refusals_are_exact`, `C52_inputs_type_checked` |  |
| C53 | interruptions are never reported as successes | partial | `C53_node_partial`, `C53_run_partial` | proved for exceptions deriving from Exception when repr of the arguments does not raise; otherwise false: three refutations (except Exception does not see BaseException; a failing repr replaces the exception) |
| C54 | every registered adapter object is called | partial | `C54_first_of_equals_partial` | false with a custom == (membership test by ==: refuted); proved: of equal adapters exactly the first with the hook is called, so all are called that equal no earlier one |
| C55 | piped functions compose | partial | `C55_step_names`, `C55_step_names_distinct`, `C55_pipe_input_partial`, `C55_pipe_target`, `C55_pipe_output_partial`, `C55_no_steps` | any steps, namespaces and graph containing the generated nodes, when the parameters of each step stand for distinct names and step nodes are not named like other parameters; false otherwise: C55_*_refuted (which also show that a mistyped on_input pipes the first parameter instead). The async variant is not modelled |
| C56 | Extracted fields and columns are those of the function's value | partial | `C56_fields`, `C56_columns_partial`, `C56_param_extract_partial` | proved for extract_fields; for extract_columns with plain names or without fill_with; for parameterize_extract_columns outside reserved names; refutations: (name, doc) columns with fill_with, a function called field_to_extract, reassign_columns=False |
| C57 | Loaded and saved data are those of the adapter with the declared arguments | partial | `C57_class`, `C57_load_from_partial`, `C57_save_to_partial`, `C57_dataloader` | all functions, classes, arguments and enclosing graphs; arguments sharing a source, sources named like literal arguments, saver fields or sources named like the saved node, and the documented layering are refuted |
| C58 | A transformer's target selects exactly the named nodes | partial | `C58_transform_partial` | all nodes and targets; a target list naming a node twice is refuted |
| C59 | Executing decorated functions returns the values their nodes define | proved | `C59_execute_returns_values`, `C59_execute_succeeds`, `C59_values_unique` | all functions, callables, configs, inputs and overrides over acyclic graphs; connects the decorator properties (stated over values) with the executor |
| C60 | GracefulErrorAdapter prunes exactly what fails | proved | `C60_caught_exceptions_do_not_escape`, `C60_always_answers`, `C60_values`, `C60_skips_downstream_functions`, `C60_marked_functions_run`, `C60_items`, `C60_task_exceptions`, `C60_items_isolated` | all graphs, functions and inputs, both executors; values and pruning for variables that depend on no marked function. Outside the hypotheses: a result equal to the sentinel is taken for a failure (documented), a sentinel not equal to itself never prunes (C60_unequal_sentinel_refuted). |
| C61 | The asynchronous driver computes what the driver computes | proved | `C61_returns_meaning`, `C61_same_as_driver`, `C61_driver_answers`, `C61_at_most_once`, `C61_arguments`, `C61_runs_what_is_needed`, `C61_exceptions`, `C61_finishes`, `C61_succeeds` | all acyclic graphs, functions, requests and interleavings; without lifecycle hooks and cancellation. Outside the claim: functions go on being invoked after execute has raised, and a request refused for a missing input still has functions invoked (C61_functions_start_after_failure_refuted, C61_refused_requests_run_functions_refuted); requests of inputs may end in a KeyError (C61_requests_of_inputs_refuted). |
| C62 | Grouping strategies do not change results | proved | `C62_library_strategies_partition`, `C62_values`, `C62_same_as_default_executor`, `C62_strategies_agree`, `C62_terminates`, `C62_only_user_exceptions`, `C62_succeeds` | all acyclic graphs without Parallelizable and Collect, all partitioning strategies, executors and schedules; no override of a supplied input, no name with a colon. With Parallelizable only grouping by blocks is right and the other strategies give other values without an error (C62_parallelizable_refuted); groups that use each other never finish (C62_cyclic_groups_refuted). |
| C63 | The caching graph adapter invokes exactly what it has to, and its results are current when it is told of changes | proved | `C63_invokes_exactly`, `C63_invokes_exactly_needed`, `C63_second_execution_loads`, `C63_transparent`, `C63_refresh`, `C63_forcing_the_changed` | all acyclic graphs, functions, formats without dots, cache states and sessions; writes that raise must leave the file alone or complete, what is written can be read back. Not promised and false: forcing a variable that is not cached refreshes nothing downstream, overrides and other inputs do not reach cached variables and values computed from overrides stay in the cache, a refresh must request the dependents, a failed execution makes the next one recompute (six C63_..._refuted). |
| C64 | CacheAdapter returns current values and loads what it has computed, when sources identify functions | partial | `C64_transparent_partial`, `C64_second_execution_loads_partial` | all acyclic graphs, functions, files, adapter objects and executions, when functions with equal source agree on equal argument sequences and an object serves one version. Without that it is false: columns of extract_columns, nodes of parameterize, optional arguments, two versions in one object (four C64_..._refuted); unpicklable values and graphs after the first are refuted too. |
| C65 | adding nodes to a built graph leaves the old variables alone | proved | `C65_new_graph`, `C65_duplicates`, `C65_old_variables`, `C65_can_be_added`, `C65_built_graphs_qualify`, `C65_classes_and_unions_qualify`, `C65_loaded_values` | all graphs and added nodes without cycles among themselves, all functions and requests. That built graphs are accepted again needs a match that survives narrowing (shown for classes, Any and unions of classes) and no adapter that loosens it; the originating functions of nodes are not modelled. |
| C66 | checks of values against annotations decide what the annotations mean | partial | `C66_check_instance_partial`, `C66_inputs_accepted_partial`, `C66_inputs_exact`, `C66_adapter_partial`, `C66_adapter_unsupported` | check_instance: all annotations of checkable form (classes, Any, Union, Literal, list/set/dict generics and so on); inputs: generics over classes without instances of subclasses. Fixed length tuples, other generics, exceptions under the adapter, inputs of subclasses of generic origins, loose acceptance by generics and consumed generators are refuted (six C66_..._refuted). |
| C67 | in a graph that was built, functions get values of the types they ask for | partial | `C67_match_partial`, `C67_edges_partial`, `C67_calls`, `C67_checker_silent` | all graphs whose consumers ask for nothing that the type of the producer leaves open (tells), without type adapters. Any, classes without arguments given for generics, and overrides and None, which are not checked, are refuted (C67_any_refuted, C67_bare_classes_refuted, C67_unchecked_values_refuted). |
| C68 | mutate passes outputs of functions through the mutators in module order | partial | `C68_pipeline`, `C68_value_partial`, `C68_inner_nodes`, `C68_mutators_hidden`, `C68_other_module` | all modules whose apply_to objects are not shared between mutators, functions with at most one pipe_output and without target there. Shared objects, several pipe_outputs, a pipe_output with a target and mutators of mutators are refuted (four C68_..._refuted). |
| C69 | Ray and Dask adapters compute what the default executor computes | partial | `C69_same_as_driver`, `C69_driver_answers`, `C69_at_most_once`, `C69_arguments`, `C69_runs_what_is_needed`, `C69_exceptions`, `C69_finishes`, `C69_lazy` | proved for all graphs and interleavings, except that a needed function whose parameter has a name that the adapter itself passes (node for ray, dask_key_name for dask) makes execute raise a TypeError (C69_parameter_names_refuted); which of several exceptions is raised and what runs after a failure depend on the cluster (two more refutations). |
| C70 | @with_columns gives the function the dataframe with the selected columns appended | partial | `C70_value`, `C70_missing_column`, `C70_selection`, `C70_nodes`, `C70_accepts`, `C70_constructor` | proved for all functions, selections and graphs whose names fit together (no function or column named like the dataframe parameter or _append). Refuted: the selection is stored in the decorator, so a second build may fail or append other columns (C70_rebuild_refuted, C70_configuration_refuted); the type of the parameter is not checked (C70_type_refuted); a column named like the parameter (C70_parameter_name_refuted); two decorators on one function (C70_stacked_refuted). |
| C71 | Spark's @with_columns and @select compute each column of the group once, in dependency order, on one dataframe | partial | `C71_value`, `C71_append`, `C71_nodes`, `C71_select_unknown`, `C71_frames`, `C71_require_columns`, `C71_constructor` | proved for all acyclic groups whose names fit together (spark_placed). Refuted: a function that reads the column it replaces is silently not run (C71_all_run_refuted), and a group of only these leaves a dangling dependency (C71_dangling_refuted); a parameter not among columns_to_pass is read from the dataframe (C71_columns_to_pass_refuted); an original column is dropped (C71_originals_refuted); @select of an original column is refused (C71_select_column_refuted); a function named like the dataframe parameter depends on itself (C71_parameter_name_refuted). |
| C72 | @check_output's arguments are checked as documented | partial | `C72_value`, `C72_error`, `C72_accepts`, `C72_rounding` | proved for the documented forms of the arguments and values they apply to. Refuted: the argument data_in_range of the docstring (C72_docstring_refuted); missing cells of nullable series pass every range (C72_nullable_refuted); one number never has a small standard deviation (C72_single_refuted); TypeError for return types that are no classes (C72_generic_refuted); a check of importance warn may fail the function (C72_warn_refuted); values_in of a string (C72_values_string_refuted). |
| C73 | PySparkUDFGraphAdapter appends the requested columns to the one dataframe | partial | `C73_value`, `C73_error`, `C73_succeeds` | proved for requests as documented (one dataframe, other names for functions than for columns) when the call before did not fail. Refuted: the call after a failed one works on the old dataframe (C73_stale_dataframe_refuted) or fails (C73_stale_schema_refuted); of two dataframes one is ignored (C73_two_dataframes_refuted); a value is replaced by the column of its name (C73_value_replaced_refuted); a function named like a column is refused or replaces it depending on the order of the request (C73_existing_column_refuted); requests without functions of columns fail (C73_no_column_refuted). |
| C74 | Decorators act in the order of their classes, whatever the order they are written in; @resolve stands for the decorator it returns | partial | `C74_accepts`, `C74_value`, `C74_resolve`, `C74_as_written`, `C74_order`, `C74_config`, `C74_signature` | proved: what a stack makes, the order of classes, what each decorator sees, @resolve as the decorator written outermost. Refuted: @resolve in the place where it is written (C74_in_place_refuted), with validation (C74_not_validated_refuted), nested (C74_nested_refuted: silently ignored), for functions that are left out (C74_left_out_refuted); the explanation of power user mode (C74_power_mode_refuted: KeyError); @schema.output above other node decorators (C74_schema_order_refuted). |
| C75 | The result builders lose and invent nothing: every output is a column, rows are joined by label | partial | `C75_single`, `C75_scalars`, `C75_value`, `C75_built`, `C75_built_arrays`, `C75_refused`, `C75_strict`, `C75_matrix` | proved for outputs whose columns have different names and a pandas that has NDArrayBackedExtensionIndex; pandas is specified (its union of indexes by what it contains). Refuted: an output is silently overwritten by the column of a DataFrame after it (C75_overwritten_refuted), a column of a DataFrame by its namesake (C75_same_column_refuted); rows of DataFrames without columns are lost (C75_no_columns_refuted); the strict builder refuses a pd.Index beside a Series with the usual index (C75_pd_index_refuted); without that class of pandas every index breaks (C75_no_class_refuted); a matrix of numbers only has no rows, a number beside a vector of length 1 is an error (C75_matrix_refuted) |
| C76 | Schema validation stops or warns exactly when the schema of a dataframe differs, and says what differs | partial | `C76_diff`, `C76_columns`, `C76_readable_partial`, `C76_accepts`, `C76_fail`, `C76_told_partial`, `C76_saves`, `C76_runs`, `C76_kept`, `C76_paths_partial` | proved: equality, marks of columns, saving, accepting and failing, runs; the report under [tame]. Refuted: by default, a changed column with unchanged metadata is an AttributeError instead of a warning (C76_same_version_refuted); with check_field_metadata a changed version is a KeyError (C76_field_metadata_refuted); a column that is no longer nullable an AttributeError (C76_not_null_refuted); columns in another order give an empty report (C76_order_refuted); nodes of one namespace share one file (C76_namespaced_refuted); a column "__metadata" is taken for metadata (C76_metadata_column_refuted); metadata with the key "cur" are not JSON (C76_cur_refuted); a reference without metadata (C76_foreign_reference_refuted). |
| C77 | Caching on disk is not seen in the results, computes each thing once, and evicts all but what is kept | partial | `C77_transparent_partial`, `C77_once`, `C77_only_vars`, `C77_all_vars`, `C77_evicts`, `C77_keeps_partial`, `C77_evict_succeeds` | proved: same results for nodes whose sources determine what they compute; computed once; eviction of all else, and success of it exactly when the versions to keep were run. Refuted: the columns of @extract_columns share one source, so the second column is the value of the first (C77_same_source_refuted); a node computed for two inputs loses the entries to keep (C77_kept_refuted); a node edited and not yet run is a ValueError with half evicted (C77_edited_refuted); nothing run yet is an AttributeError (C77_evict_first_refuted); after a failure or None nothing is ever cached (C77_failed_refuted, C77_none_refuted); two adapters overwrite the history (C77_two_adapters_refuted). |
| C78 | A function decorated with @does computes the other function, of its own arguments under the names they are mapped to | partial | `C78_exact`, `C78_computes_partial`, `C78_refused_partial` | proved: accepted exactly if every call gets through to the function; the right arguments and the right exception for renamings and exchanges. Refuted: a chain a="b", c="a" deletes the new a and leaves b over, silently wrong with defaults or **kwargs (C78_chain_refuted); one parameter for two arguments is a KeyError (C78_twice_refuted); a list, as the type allows, is a TypeError (C78_list_refuted); a misspelt parameter is a KeyError (C78_typo_refuted); a parameter whose name is taken by another is silently ignored (C78_dropped_refuted). |
| C79 | Versions tell code apart whatever its documentation, and a diff says which variables are new, gone and changed | partial | `C79_code`, `C79_added`, `C79_removed`, `C79_edited_partial`, `C79_functions`, `C79_documentation`, `C79_dataflow_partial`, `C79_graph_version`, `C79_against_partial` | proved: versions of functions, what is new and gone, what is edited among functions, documentation, same functions for one dataflow version, the diff against a module when all of the config is used. Refuted: an input has the version of the first function asking for it, so it is reported as edited with that function or when another comes first (C79_input_refuted), and the dataflow version depends on the order of modules (C79_order_refuted); nodes of one function share its version, so other columns are the same dataflow version (C79_columns_refuted); a function without readable source is both new and gone and there is no dataflow version (C79_unreadable_refuted); the diff against a module is a KeyError for unused config and reports edited functions as removed (C79_against_refuted). |
| C80 | Tags are what the decorators say, the outermost first; bad tags are refused; ray options and schemas survive being tags | partial | `C80_tags_partial`, `C80_accepted`, `C80_refused_partial`, `C80_reserved_partial`, `C80_ray`, `C80_schema_partial` | proved: the last word on every tag for stacks that leave the mark of non-final nodes alone and whose @tag_outputs avoid three names; exactly what is accepted; reserved namespaces without @tag_outputs; ray options; schemas without separators in names. Refuted: @tag_outputs is not validated and overwrites reserved tags (C80_outputs_refuted), loses tags named like arguments of @tag or fails on self (C80_swallowed_refuted), can hide a final node from outer decorators (C80_mark_refuted); unhashable values are a TypeError (C80_unhashable_refuted); @schema.output only works innermost (C80_schema_order_refuted); two schemas with one tag (C80_schema_refuted); any cache behaviour is accepted (C80_behavior_refuted). |
| C81 | The spans that tracers report are those of the runs, tasks and nodes, in the right place and ended once as they ended | partial | `C81_otel_safe`, `C81_otel_partial`, `C81_runs_partial`, `C81_ddog`, `C81_ddog_empty` | proved: all programs and schedules for OpenTelemetry when tasks stay in the context of their run; all streams of hooks for Datadog. Refuted for OpenTelemetry: tasks in threads are not under their run (C81_threads_refuted); if another adapter fails before a node the run's span is never ended and later runs appear under it (C81_hook_refuted); an exception that counts as false is reported as success (C81_falsy_refuted). |
| C82 | A picture of a dataflow shows its functions, inputs and dependencies, marked as they are, and nothing else | partial | `C82_labels_partial`, `C82_marks_partial`, `C82_arrows`, `C82_no_other_arrows`, `C82_inputs_partial`, `C82_sharing_partial`, `C82_nothing_else`, `C82_legend_partial`, `C82_execution_partial`, `C82_path_partial` | Labels, marks, tables and their sharing are proved when no two things in the picture have the same name (C82_names_refuted shows why that is needed); arrows and that nothing else is shown without it. visualize_execution does not show requested inputs, and shows arrows into overridden nodes (refuted). |
| C83 | Telemetry can be switched off, stops by itself, tells nothing of the user's code and changes nothing | partial | `C83_flag`, `C83_disabled`, `C83_off`, `C83_at_most_ten_partial`, `C83_only`, `C83_first_calls`, `C83_start_partial`, `C83_end_partial`, `C83_own_frames`, `C83_last_five`, `C83_decorators`, `C83_start_counts`, `C83_start_names`, `C83_download`, `C83_end_counts`, `C83_same_result`, `C83_tracked_partial`, `C83_imports_partial`, `C83_captures` | Proved for all schedules: nothing after disabling, at most ten events from what asks first, only events that were asked for, the first calls of a lone thread; the flag; sameness of events of programs alike but for what is the user's. Missing because false: dataflows and contributed imports (raise when disabled, send without limit), counters that race when the increment is not atomic, user code near a directory called hamilton, names of custom executors, unreadable values of the flag. |
| C84 | Downloaded dataflows are those of the hub, nothing is overwritten unasked, and what is there is listed | partial | `C84_latest`, `C84_no_commit`, `C84_latest_failed`, `C84_pulled`, `C84_elsewhere`, `C84_no_overwrite`, `C84_closed`, `C84_imported`, `C84_list_partial`, `C84_list_pulled`, `C84_find`, `C84_requirements_partial`, `C84_copied`, `C84_copy_keeps`, `C84_cleared`, `C84_branch_partial` | Proved: versions, contents after a pull, what stays as it was, imports, copies, clearing, listing and finding of users' dataflows and how pulls change it, requirements without versions, one branch. Missing because false: retries after a failed pull, listing when official dataflows are there or by default, requirements with versions, several branches, dataflows called like loaded modules. |
| C85 | What is asked for as a function or a variable is what it computes | partial | `C85_converted_partial`, `C85_refused`, `C85_order`, `C85_together`, `C85_function_partial`, `C85_other_variant_partial`, `C85_own_functions` | Proved: names in order, all refusals reported sorted, independence of order, functions of the driver's modules under any later builds, variants that were not chosen when no other driver was built. Missing because false: empty names, variants after other drivers were built or with several decorators, functions of modules whose names contain the driver's, callables without names. |
| C86 | Extensions are loaded where they can be, and switched off where they were | partial | `C86_disabled`, `C86_enabled_partial`, `C86_again`, `C86_kept_off`, `C86_back_on`, `C86_switch`, `C86_reenabled`, `C86_column_type_partial`, `C86_dataframe_types`, `C86_column_types_partial` | Proved: loading when disabled and when enabled with any packages missing, idempotence, switching off and on per process and in the file, types registered, column types where there are columns. Missing because false: dataframe types without columns, packages that fail otherwise, enable_autoload when not disabled, enabling in the file for the same process, overriding the file by the environment. |
| C87 | Deprecation warns, then fails, and otherwise changes nothing | partial | `C87_accepted`, `C87_parts`, `C87_when_partial`, `C87_later`, `C87_warns_first`, `C87_message`, `C87_function`, `C87_default`, `C87_class_partial`, `C87_defined` | Proved: which deprecations are accepted, order of versions, monotonicity, warnings before failures, messages, calls of functions with any decorators and of classes each decorated at most once. Missing because false: that it starts at the version given rather than after it, that some version warns, classes decorated twice. |
| C88 | Printing and progress bars show what a run does, and do not disturb it | partial | `C88_filter`, `C88_constructor`, `C88_println_partial`, `C88_lines`, `C88_display_partial`, `C88_first_run`, `C88_bar`, `C88_full_partial`, `C88_announced` | Proved: filters, lines of PrintLn outside of tasks, what the bar counts, widths from three on, what is announced and executed, full bars without overrides. Missing because false: PrintLn in task-based runs (KeyError), full bars with overridden functions, runs with nothing to execute, failed runs, narrow widths, names in second runs. |
| C89 | OpenLineage events tell of each run, and of what its nodes save and load | partial | `C89_order`, `C89_execute`, `C89_start`, `C89_verdict_partial`, `C89_materialize`, `C89_quiet`, `C89_failed`, `C89_saved_file`, `C89_loaded_file_partial`, `C89_table`, `C89_query`, `C89_metadata`, `C89_schema` | Proved: order and identity of events whatever client and nodes do, events of nodes, start, end for exceptions Python takes for true, saved files, tables, queries in capitals, schemas, that runs come to the same where metadata is complete. Missing because false: files as one dataset, formats of loaded files, queries in small letters, interrupted runs, metadata of series, unreadable sources, failing clients, starts and errors of materialize. |
| C90 | The experiment tracker records each run as it was, and savers write into the run's directory | partial | `C90_name`, `C90_where`, `C90_first_run_partial`, `C90_others`, `C90_no_inputs` | Proved: names, where nodes are executed whatever happens, the record, result and directory of first runs with inputs and savers that say where they saved, other trackers' records. Missing because false: second runs, records of earlier runs, directories and errors after savers failed, savers that do not say where, runs without inputs, deletion. |
| C91 | The MLflow tracker adds one run per execution, with parameters, results and how it ended, and leaves executions as they are | partial | `C91_run_partial`, `C91_others`, `C91_no_inputs`, `C91_active`, `C91_stuck` | Proved: one run is added and others are unchanged whatever happens; identifier, version, parameters, what is logged in order, the outcome and that no run stays active, where inputs agree with the configuration and what is asked for can be logged; that executions without inputs and all after them fail. Missing because false: the status, executions without inputs, run_id, strings and dictionaries, failed nodes asked for, values that cannot be pickled, equal names, figures of savers with several dependencies. |
| C92 | A driver made of Kedro pipelines computes each dataset as Kedro does | partial | `C92_nodes_partial`, `C92_missing`, `C92_values_partial`, `C92_prefix`, `C92_depth` | Proved: for pipelines of any size where every parameter has an input of its own, several outputs come from functions annotated as Tuple or as Dict with the datasets' names, and names do not clash: they are converted, the nodes are those of the datasets, and each dataset has Kedro's value. Missing because false: converting twice, functions used twice, keys, lists of one, shared inputs, defaults, inputs by name behind defaults, parameters named like datasets, other annotations. |
| C93 | Modules made of functions or of source code are those functions and that source, and disturb nothing | partial | `C93_temporary`, `C93_refused`, `C93_found`, `C93_call_partial`, `C93_given`, `C93_source`, `C93_syntax`, `C93_file` | Proved: exactly when temporary modules are made, what they contain, that all functions are found, that copies do what functions do without defaults of keyword-only parameters or with all arguments given, modules of source that runs or does not compile, files. Missing because false: defaults of keyword-only parameters, annotations apart, failing source, modules of the same name, files of failing source. |
| C94 | What the default savers write, the default loaders read as it was | partial | `C94_json`, `C94_stable`, `C94_saved`, `C94_text`, `C94_text_again`, `C94_pickle`, `C94_others`, `C94_env`, `C94_env_missing` | Proved: a value comes back from JSON exactly if it has no tuples and only strings as keys; values are saved exactly if JSON has a form of all in them; what was loaded is stable; a text comes back exactly if it has no carriage returns; pickled values come back; other files stay; exactly the variables named are loaded. Missing because false: tuples, other keys, carriage returns, files after failed saves. Pickling itself is trusted. |
| C95 | Commands of the command line answer for their modules and context, or fail with code 1 | partial | `C95_context`, `C95_run_partial`, `C95_quiet_partial`, `C95_unreadable` | Proved: what a context is for all files; for a context file that is the same each time it is read and a process that runs one command: which answers are shown, in order, up to the first failure, and that the code is 0 exactly if none fails; that quiet commands show one answer or nothing; unreadable context files. Missing because false: context files that differ between reads, --json-out with values without JSON, several commands in one process. |
| C96 | The file store gives back what was stored last, with or without savers | partial | `C96_store_partial`, `C96_answer`, `C96_refused`, `C96_expired` | Proved: after any sequence of operations with data versions without dots, savers that succeed with loaders of the same name, and values that are no loaders, get and exists answer as the last operations say, and there is always one such answer; pairs that are refused; that nothing is ever removed as expired. Missing because false: savers' files that are gone, files left after deleting, failing savers, loaders as values, dots, expiry. |
| C97 | A table of parameterizations is read row by row and column by column | partial | `C97_accepted`, `C97_rows` | Proved: for headers whose columns have the same number of levels, exactly which tables are accepted and which error the others raise; for all accepted tables, outputs and bindings of every row, the last column of a parameter counting. Missing because false: that every column is used when two bind the same parameter, and that all errors are InvalidDecoratorException. |

A status "partial" always means: the proved theorem has the hypotheses named in the last column, and the
statement of `properties.jsonl` without them is either refuted below or said to be missing.

## Findings: where the code disagrees with the property

Each is a theorem `..._refuted` about the model with a concrete witness.

- `C05_rejection_refuted` (TraverseProps.v): With overrides it is false: overriding an external variable does not satisfy the validation although the execution would succeed.
- `C17_nodes_between_self_refuted` (TraverseProps.v): FunctionGraph.nodes_between reports no path from a variable to itself, the driver query does.
- `C23_overridden_block_variable_refuted` (TaskProps.v): with an override for the collected variable the collector is called with the empty list, although the value of [work] is the override for each of the three items.
- `C24_override_of_input_refuted` (TaskProps.v): where an input is overridden too, the task-based executor lets the input win (driver.py 237, [{**overrides, **inputs}]) and the default executor the override.
- `C24_requested_block_variable_refuted` (TaskProps.v): a variable of a block cannot be requested: after the whole run, a KeyError.
- `C25_block_variable_used_outside_refuted` (StateProps.v): a variable outside the block that uses a variable of the block. [peek] depends on [block-items], an id no realized task ever has, and the loop never ends.
- `C25_empty_plan_refuted` (StateProps.v): with no task at all (no variable requested, or only runtime inputs in a plan without tasks) the loop never ends: the state of an empty graph is INITIALIZED, which is not terminal.
- `C25_expander_consumer_refuted` (StateProps.v): a variable outside the block that uses only the Parallelizable variable is never computed, although the run ends normally.
- `C27_finalize_fault_refuted` (StateProps.v): an executor initialised by the run is left open when a later one cannot be initialised, when an earlier one cannot be shut down, and when the same pool serves as local and remote executor.
- `C27_init_fault_refuted` (StateProps.v): an executor initialised by the run is left open when a later one cannot be initialised, when an earlier one cannot be shut down, and when the same pool serves as local and remote executor.
- `C27_shared_pool_refuted` (StateProps.v): an executor initialised by the run is left open when a later one cannot be initialised, when an earlier one cannot be shut down, and when the same pool serves as local and remote executor.
- `C29_arbitrary_names_refuted` (StateProps.v): the keys are plain joins with ':', so for arbitrary names two different places share a key.
- `C30_comma_refuted` (CacheKeyProps.v): A data version with a comma: the decoded dictionary is another one, or decoding raises.
- `C30_dash_refuted` (CacheKeyProps.v): A code version with a dash is cut at the dash (and what follows does not decompress).
- `C30_namespaced_node_refuted` (CacheKeyProps.v): Whatever the compression: the name of a namespaced node does not survive.
- `C31_comma_refuted` (CacheKeyProps.v): Data versions with commas: different dependency versions, same key.
- `C31_namespaced_nodes_refuted` (CacheKeyProps.v): Nodes "a.b" (x in a namespace) and "ab" with the same code and arguments share a key.
- `C32_fingerprint_collisions_refuted` (CacheProps.v): With the fingerprints of fingerprinting.py: a function that returns its argument, called with two values of the same fingerprint, returns the first one twice.
- `C32_ignored_dependency_refuted` (CacheProps.v): A dependency that is IGNOREd (as documented): the result for another value comes out.
- `C32_input_names_function_refuted` (CacheProps.v): An input with the name of a function. Without cache it is ignored; with a cache its data version is taken for the one of the function's result, and any stored value with that version is returned.
- `C32_loader_tuple_refuted` (CacheProps.v): A data loader whose data is a tuple: the node with the data is itself listed among the data loaders, and only the first component of the tuple comes out.
- `C32_nested_unhashable_refuted` (CacheProps.v): the same with lists of different unhashable objects.
- `C32_saver_refuted` (CacheProps.v): Data savers: all metadata of a saver is stored under one data version, so that a cache hit returns the metadata of the first save.
- `C33_unhashable_input_refuted` (CacheProps.v): An input without fingerprint gets a new data version every time: functions that take it as an argument are invoked again.
- `C33_unhashable_result_refuted` (CacheProps.v): A result without fingerprint, after its deletion from the result store, with the metadata store that ignores a second write (SQLite): the stale data version stays under the cache key, and the function is invoked in every later execution.
- `C34_expand_refuted` (BehaviorProps.v): An EXPAND node listed for two other behaviours is accepted, and gets neither.
- `C34_load_from_default_refuted` (BehaviorProps.v): [default_loader_behavior] and [default_behavior] are not applied to the nodes of a [@load_from].
- `C34_load_from_listed_refuted` (BehaviorProps.v): Listing such a node by its own name has no effect.
- `C34_load_from_true_refuted` (BehaviorProps.v): [recompute=True], "apply to all nodes": the nodes of a [@load_from] stay DEFAULT.
- `C35_delete_all_refuted` (StoreProps.v): After delete_all the in-memory store is an empty map; with SQLite every later operation raises, as the tables are not created again.
- `C35_delete_missing_refuted` (StoreProps.v): Deleting a missing key: KeyError in memory, nothing in SQLite.
- `C35_overwrite_refuted` (StoreProps.v): Setting a key again (a RECOMPUTE node whose result changed): the in-memory store keeps the new data version, SQLite the old one.
- `C35_run_after_delete_refuted` (StoreProps.v): Asking for a run after one of its keys was deleted: KeyError in memory; SQLite leaves the key out.
- `C36_load_missing_result_refuted` (StoreProps.v): A data version without a result is loaded as the result None, which then exists.
- `C36_load_unstarted_refuted` (StoreProps.v): Data versions set for a run that was never started are lost by loading.
- `C36_persist_deleted_refuted` (StoreProps.v): Persisting after a key of some run was deleted raises KeyError; the remaining keys are not persisted.
- `C37_equal_key_texts_refuted` (FingerprintProps.v): Keys with the same version (the int 1 and the string "1"): the order matters.
- `C38_class_refuted` (FingerprintProps.v): instances of different classes with the same attributes, and arrays of different shape, have the same fingerprint.
- `C38_container_refuted` (FingerprintProps.v): a list, a tuple, a dictionary and a set with the same content have the same fingerprint.
- `C38_depth_refuted` (FingerprintProps.v): objects that differ only below the maximal depth have the same fingerprint.
- `C38_nested_unhashable_refuted` (FingerprintProps.v): containers of different unhashable objects have the same fingerprint (and are cached).
- `C38_text_refuted` (FingerprintProps.v): values of different primitive types with the same text have the same fingerprint.
- `C39_several_keys_refuted` (ConfigProps.v): With several keys, when and when_not are not complementary: neither accepts.
- `C40_hidden_target_refuted` (ConfigProps.v): A function renamed with [name=] to a name with a leading underscore is missing from the second build.
- `C40_suffix_refuted` (ConfigProps.v): A decorated function whose name keeps a double underscore after dropping its suffix is a different node in the second build.
- `C41_literal_name_refuted` (ParamProps.v): @parameterize(g={"c": source("b"), "b": value(1)}) with optional c and no variable b: c is not left to its default, it gets b's literal.
- `C41_optional_source_refuted` (ParamProps.v): An optional parameter with a source that is not provided: the dependency is optional, so the build and the inputs are accepted, but the node raises KeyError instead of using the default.
- `C41_required_refuted` (ParamProps.v): A required and an optional parameter with the same source: the dependency is optional.
- `C42_unused_source_refuted` (SubdagProps.v): @subdag(a, inputs={"x": source("u"), "p": source("u")}) def g(a, p): no node of the subdag uses p, so no node is created for it, and g cannot be computed although u is given; with the literal value(3) instead of source("u") it can.
- `C44_numbered_name_refuted` (CheckProps.v): Validators a, a and a_1: two nodes are called f_a_1, so the dataflow is refused.
- `C44_raw_name_refuted` (CheckProps.v): A validator called "raw".
- `C44_stacked_refuted` (CheckProps.v): Two check decorators on one function (base.py 500-520: the second one transforms the final node): two nodes are called f_raw.
- `C46_build_order_refuted` (BuilderProps.v): Building a driver changes the order of the adapters of later drivers.
- `C46_built_driver_refuted` (BuilderProps.v): with_config on a builder changes the configuration with which a driver that it has already built executes, though its graph was built with the former one.
- `C46_disjoint_refuted` (BuilderProps.v): A local executor and an execution manager: rejected in one order ("these are disjoint"), and silently ignored in the other.
- `C46_overrides_refuted` (BuilderProps.v): A copy loses allow_module_overrides().
- `C47_literal_name_refuted` (NodeProps.v): A literal for a parameter whose name is also the variable another parameter is renamed to: the other parameter receives the literal and the literal's parameter its default.
- `C47_other_parameter_refuted` (NodeProps.v): A parameter renamed to the name of another, unchanged, one.
- `C47_same_source_refuted` (NodeProps.v): Two parameters renamed to the same variable: one of them is not passed.
- `C48_error_masked_refuted` (MaterializeProps.v): With a hook, an invalid request is reported as UnboundLocalError instead of the error that describes it, and the hook is not called.
- `C48_same_id_refuted` (MaterializeProps.v): Two materializers with the same id are accepted; only the last is in the graph, so the first saves nothing.
- `C50_order_independence_refuted` (GraphProps.v): the type recorded for an external input with several consumers depends on the order in which functions are listed (Union narrowing).
- `C51_only_own_functions_refuted` (GraphProps.v): Full statement (false): only functions of the module or of a submodule are collected. Witness: module [data] importing [connect] from the unrelated module [my_database].
- `C53_masked_exception_refuted` (LifecycleProps.v): if describing the arguments (repr) raises, the caller does not see the function's exception.
- `C53_node_interrupt_refuted` (LifecycleProps.v): a BaseException (KeyboardInterrupt, SystemExit) from a function is reported to the post hooks as a success with result None; and one raised by a pre hook does not keep the post hooks from running.
- `C53_run_interrupt_refuted` (LifecycleProps.v): a BaseException is reported to post_graph_execute as success with no results.
- `C54_equal_adapters_refuted` (LifecycleProps.v): two distinct adapters that compare equal (for instance two equal dataclass instances): the second one's hooks are never called.
- `C55_both_pipes_refuted` (PipeProps.v): The same step before and after a function: two nodes have the same name (base.py 817-826: injectors first, then transformers on the final node).
- `C55_literal_name_refuted` (PipeProps.v): [@pipe_input(step(_plus, n=value(5))) def f(n)]: with n = 2 the step should give 2 + 5, but [v] gets the literal and [n] its default, so f is 5 + 1.
- `C55_on_input_refuted` (PipeProps.v): [on_input] naming no parameter: the steps are applied to the first parameter instead of the decorator being refused.
- `C55_same_source_refuted` (PipeProps.v): [step(_times, k=source("x"))] on parameter [x] (squaring): the node raises TypeError.
- `C55_step_names_refuted` (PipeNames.v): Two functions that differ in a leading underscore only, and a function whose name ends like the number of a repeated one: two steps of one pipe have the same name.
- `C55_unknown_on_input_refuted` (PipeProps.v): An [on_input] that names no parameter is not refused: the steps go to the first parameter.
- `C56_documented_fill_refuted` (ExtractProps.v): @extract_columns(("b", "documentation"), fill_with=7): the fill adds a column whose name is the tuple, and extracting "b" raises "No such column".
- `C56_reassign_columns_refuted` (ExtractProps.v): [reassign_columns=False] has no effect: the columns are renamed all the same.
- `C56_reserved_name_refuted` (ExtractProps.v): A function named field_to_extract: every extracted field raises KeyError.
- `C57_documented_layering_refuted` (AdapterProps.v): The documented way to stack two savers names a parameter of the function as target (adapters.py 660-668); no node of the function has that name, so making the nodes fails.
- `C57_field_named_node_refuted` (AdapterProps.v): A saver field called like the saved node is lost: saving the node [sep] with [sep=value(3)] saves with the default [sep].
- `C57_literal_name_refuted` (AdapterProps.v): An argument from a variable that is called like an argument given as a literal is not passed: [enc=source("sep"), sep=value(3)] loads with the default [enc].
- `C57_saved_source_refuted` (AdapterProps.v): A saver argument from the saved node itself makes the saver node raise KeyError.
- `C57_shared_source_refuted` (AdapterProps.v): Two arguments from the same variable: the loader node does not pass the first one. Here [sep] and [enc] both come from [q], but the data is loaded with the default [sep].
- `C58_repeated_refuted` (TargetProps.v): A target that lists a node twice is rejected as missing (only the number of matches is compared).
- `C60_result_taken_for_failure_refuted` (GracefulProps.v): A function whose own result equals the sentinel prunes what depends on it, although nothing has failed and every function would succeed.
- `C60_unequal_sentinel_refuted` (GracefulProps.v): A sentinel that is not equal to itself (a NaN) is never recognised: the functions downstream of a failure are invoked with it.
- `C61_functions_start_after_failure_refuted` (AsyncProps.v): After [execute] has raised the exception of one function, functions go on being called (the default executor stops, C09).
- `C61_refused_requests_run_functions_refuted` (AsyncProps.v): A request that is refused because a required input is missing still has functions called ([Driver.execute] checks the inputs first, C52).
- `C61_requests_of_inputs_refuted` (AsyncProps.v): Requesting an optional input that is not given, or a runtime input that is no node, is a KeyError; [Driver.execute] answers.
- `C62_cyclic_groups_refuted` (StrategyProps.v): a custom strategy whose groups use each other (two groups, [a, c] and [b], where [b] uses [a] and [c] uses [b]) is accepted; the groups wait for each other and the run never ends.
- `C62_parallelizable_refuted` (StrategyProps.v): with Parallelizable and Collect the strategies disagree without any error. Only grouping by blocks computes the three items; with the others [work] runs once on the whole list, or [total] is computed from nothing.
- `C63_failure_remembered_refuted` (HCacheProps.v): Without the hypothesis that no computed variable is remembered C63_invokes_exactly fails: after an execution in which [d] failed the same adapter invokes [c] again, although every file is there and nothing is forced.
- `C63_forcing_uncached_refuted` (HCacheProps.v): Forcing a variable that is not cached computes it (it always is) but not the cached variables that depend on it: after a change of [b], forcing [b] does not refresh [c].
- `C63_inputs_ignored_refuted` (HCacheProps.v): Other inputs give the old values.
- `C63_override_ignored_refuted` (HCacheProps.v): Overriding a variable has no effect on the cached variables that depend on it.
- `C63_override_stays_refuted` (HCacheProps.v): A value computed from an override is returned by later executions without it.
- `C63_refresh_forgotten_refuted` (HCacheProps.v): Forcing a changed variable once refreshes only what is requested with it: [c] stays old for good.
- `C64_extracted_columns_refuted` (ShelfProps.v): Nodes made by decorators share their source: [extract_columns] (function_modifiers/expanders.py 672-681) gives all columns the same function up to a default value, and all get the value of the first.
- `C64_first_graph_decides_refuted` (ShelfProps.v): Without [cache_vars] all nodes of the first graph that is executed are cached, but not those of other graphs.
- `C64_optional_arguments_refuted` (ShelfProps.v): The key does not say which arguments were given: with optional arguments [p] and [q], executing with [p] and then with [q] gives the value for [p].
- `C64_parameterized_refuted` (ShelfProps.v): [parameterize] (expanders.py 174, 272) makes partials of one function; neither the literals nor the decorated function are part of the key.
- `C64_two_versions_refuted` (ShelfProps.v): An adapter object that serves two versions of a function (without [one_source]) files a value it has loaded for one version under the other: [used_nodes_hash] is never cleared.
- `C64_unpicklable_refuted` (ShelfProps.v): With arguments or results that cannot be pickled executions fail that succeed without the adapter.
- `C66_exception_replaced_refuted` (TypesProps.v): When a function raises, the check of the result None raises as well, and the user sees that exception.
- `C66_fixed_tuples_refuted` (TypesProps.v): Fixed tuples: a pair of the right types is refused, and triples of the first type are let through.
- `C66_generator_drained_refuted` (TypesProps.v): A generator loses its first element to the check, one for each member of a union.
- `C66_inputs_loose_refuted` (TypesProps.v): Elements are hardly looked at: [["a"]] is accepted for [List[int]], a string for [List[str]].
- `C66_inputs_rejected_refuted` (TypesProps.v): Inputs annotated with tuples, with [Mapping[...]], or with [Dict[...]] when given a subclass of dict, are rejected.
- `C66_other_generics_raise_refuted` (TypesProps.v): Values that are neither list, set, tuple nor dict make the check raise, though they are of the annotated type; so do dictionaries for [Iterable[str]].
- `C67_any_refuted` (TypesProps.v): A producer annotated with Any is accepted by everybody; a bare class is accepted for a generic; an input annotated with Any by one consumer is not narrowed by the others, nor is one that went through a bare class.
- `C67_bare_classes_refuted` (TypesProps.v): A producer annotated with Any is accepted by everybody; a bare class is accepted for a generic; an input annotated with Any by one consumer is not narrowed by the others, nor is one that went through a bare class.
- `C67_unchecked_values_refuted` (TypesProps.v): Values that are passed as overrides, and None passed as input, are not checked: functions get them as they are.
- `C68_mutated_mutator_refuted` (MutateProps.v): Mutating a mutator is accepted and changes nothing.
- `C68_restricted_refuted` (MutateProps.v): [@mutate(f)] is for all outputs, but a pipe_output of the function with [on_output="a"] keeps it from the output [b].
- `C68_shared_object_refuted` (MutateProps.v): One apply_to object given to two mutators: the second is applied twice, the first never.
- `C68_two_pipes_refuted` (MutateProps.v): One pipe_output per output is accepted; with a mutator, which both of them get, there are two nodes of the same name, which the graph rejects (graph.py 174-177).
- `C69_functions_start_after_failure_refuted` (RemoteProps.v): After [execute] has raised the exception of one function, other functions go on being called (the default executor stops, C09).
- `C69_parameter_names_refuted` (RemoteProps.v): A function with a parameter named [node] runs locally but not with ray; one with a parameter named [dask_key_name] not with dask.
- `C69_which_exception_refuted` (RemoteProps.v): Of several functions that raise, which exception [execute] raises depends on the cluster.
- `C70_configuration_refuted` (ColumnsProps.v): A driver for a second configuration, under which there is one more function, does not append that function's column, which it does when it is the first to be built.
- `C70_parameter_name_refuted` (ColumnsProps.v): A column passed under the name of the dataframe parameter is accepted, and its node depends on itself.
- `C70_rebuild_refuted` (ColumnsProps.v): The selection is stored in the decorator. Building a second driver from the same module and configuration fails, when no function returns a column.
- `C70_stacked_refuted` (ColumnsProps.v): Two @with_columns on one function, without namespaces, are both accepted and define the same name twice.
- `C70_type_refuted` (ColumnsProps.v): The type of the dataframe parameter is not checked when it is named by [on_input]: a parameter of type int is accepted.
- `C71_all_run_refuted` (SparkProps.v): A function that reads the column that it replaces is not run.
- `C71_columns_to_pass_refuted` (SparkProps.v): A parameter that is not among the columns passed is read from the dataframe all the same if that has such a column: what the graph provides is ignored.
- `C71_dangling_refuted` (SparkProps.v): When there are no others, the decorated function depends on a variable that nothing provides.
- `C71_originals_refuted` (SparkProps.v): A column of the dataframe is dropped when a function of that name is run that is not selected.
- `C71_parameter_name_refuted` (SparkProps.v): A function with the name of the dataframe parameter is accepted, and its node depends on itself.
- `C71_select_column_refuted` (SparkProps.v): @select of a column of the dataframe is refused.
- `C72_docstring_refuted` (ValidatorProps.v): The example in the docstring of @check_output and in decorators.md, [data_in_range=(0, 100)], is not accepted.
- `C72_generic_refuted` (ValidatorProps.v): For a return type that is no class, such as List[int], TypeError is raised instead of the error that explains what is wrong.
- `C72_nullable_refuted` (ValidatorProps.v): Missing cells of a nullable type are within every range, those of others within none.
- `C72_single_refuted` (ValidatorProps.v): A series of one number has a standard deviation that is not below any limit.
- `C72_values_string_refuted` (ValidatorProps.v): A string given for [values_in] stands for its characters.
- `C72_warn_refuted` (ValidatorProps.v): A check of importance "warn" makes the function fail when the validator raises: here the function returns None.
- `C73_existing_column_refuted` (UdfProps.v): A function with the name of a column is refused, or it replaces the column: it depends on what is requested before it.
- `C73_no_column_refuted` (UdfProps.v): Values of the driver's side alone, or given columns alone, cannot be requested.
- `C73_stale_dataframe_refuted` (UdfProps.v): After a call that failed in a function, the next one, given another dataframe, computes from the dataframe of the failed one.
- `C73_stale_schema_refuted` (UdfProps.v): After a call that failed in building the result, a call that would have succeeded fails.
- `C73_two_dataframes_refuted` (UdfProps.v): Of two dataframes the second is ignored.
- `C73_value_replaced_refuted` (UdfProps.v): A value given as an input is replaced by the column of its name.
- `C74_in_place_refuted` (DecorProps.v): A decorator given by @resolve does not act where it is written: here "y" is written beneath "x".
- `C74_left_out_refuted` (DecorProps.v): A function that @config leaves out of the graph needs the configuration of its @resolve nevertheless.
- `C74_nested_refuted` (DecorProps.v): A @resolve that returns a @resolve is silently ignored.
- `C74_not_validated_refuted` (DecorProps.v): It is not validated: a decorator that refuses the function acts on it.
- `C74_power_mode_refuted` (DecorProps.v): Without the setting of power user mode, its explanation is not given, but KeyError.
- `C74_schema_order_refuted` (DecorProps.v): @schema.output is accepted beneath @tag, but not above it.
- `C75_matrix_refuted` (ResultProps.v): A matrix of numbers only has no rows; a number beside a vector of length 1 is an error.
- `C75_no_class_refuted` (ResultProps.v): With a pandas that lacks the class, "not worth breaking for", every output with an index breaks.
- `C75_no_columns_refuted` (ResultProps.v): The rows of a DataFrame without columns are not in the result, and with scalars there is none.
- `C75_overwritten_refuted` (ResultProps.v): A column is lost, without a word: that of an output named like a column of a DataFrame after it.
- `C75_pd_index_refuted` (ResultProps.v): A [pd.Index], which has no index, counts as one of an integer index that is not the usual one: the strict builder refuses it beside a Series with the usual index, but accepts the same as a list.
- `C75_same_column_refuted` (ResultProps.v): So is a column of a DataFrame that has two of the name, beside another output.
- `C76_cur_refuted` (ArrowProps.v): A key "cur" of the metadata of a column: the report has values that are not JSON.
- `C76_field_metadata_refuted` (ArrowProps.v): When the metadata of columns are compared and the version changed, a KeyError.
- `C76_foreign_reference_refuted` (ArrowProps.v): A reference without metadata (not saved by the validator), by default: an AttributeError.
- `C76_metadata_column_refuted` (ArrowProps.v): A column "__metadata" that changes cannot be told from metadata.
- `C76_namespaced_refuted` (ArrowProps.v): Nodes of one namespace share a file: a first run of two nodes already compares one with the other.
- `C76_not_null_refuted` (ArrowProps.v): A column that is no longer nullable: an AttributeError.
- `C76_order_refuted` (ArrowProps.v): The columns in another order: schemas that differ and a report that is empty.
- `C76_same_version_refuted` (ArrowProps.v): By default the metadata of the schema are not compared; but when they did not change (the same version of the function) and a column did, there is no warning but an AttributeError.
- `C77_edited_refuted` (DiskProps.v): A node to keep that was edited and not yet run: a ValueError, when some was already evicted.
- `C77_evict_first_refuted` (DiskProps.v): Before anything was run: an AttributeError.
- `C77_failed_refuted` (DiskProps.v): A function that failed once (it has the source it will have when it does not fail) is never cached for these arguments.
- `C77_kept_refuted` (DiskProps.v): A node computed for two inputs: of its two entries to keep none stays.
- `C77_none_refuted` (DiskProps.v): Nor is None.
- `C77_same_source_refuted` (DiskProps.v): Nodes whose callables have one source, as those @extract_columns makes (expanders.py 672-681): the second column is the first.
- `C77_two_adapters_refuted` (DiskProps.v): Two adapters of one directory: what the first computed is not evicted, the second's history being the last written.
- `C78_chain_refuted` (DoesProps.v): [@does(pair, a="b", c="a")]: the new value of [a] is deleted and [b] is left over. Accepted, [a] gets its default; with [**kwargs] the value of [b] is passed under the wrong name.
- `C78_dropped_refuted` (DoesProps.v): [@does(minus, a="x")] on a function of [a] and [x]: accepted, and [a] does not matter.
- `C78_list_refuted` (DoesProps.v): A list of parameters, as its type allows, is a TypeError.
- `C78_twice_refuted` (DoesProps.v): One parameter for two arguments is a KeyError in the decorator.
- `C78_typo_refuted` (DoesProps.v): A misspelt parameter is a KeyError.
- `C79_against_refuted` (VersionProps.v): The diff against functions: a KeyError for a config that no function uses; functions that are edited are also removed.
- `C79_columns_refuted` (VersionProps.v): Nodes of one function share its version: [@extract_columns( *COLUMNS)] with other [COLUMNS] is another dataflow of the same version, whatever the hash.
- `C79_input_refuted` (VersionProps.v): An input has the version of the first function that asks for it: it is reported as edited when that function is, and also when another function is added before it and nothing else is changed.
- `C79_order_refuted` (VersionProps.v): So the version of a dataflow depends on the order of the modules.
- `C79_unreadable_refuted` (VersionProps.v): COLUMNS) def columns()" [ret "load()"]). set (n := HNode false (Some [f])). exists [("price", n); ("size", n)], [("age", n); ("city", n)]. split; [|split; [done|]]. - intros x [[-> |[-> |H]%elem_of_cons]%elem_of_cons Hx]; [| |by apply elem_of_nil in H]; revert Hx; apply (bool_decide_unpack _); vm_compute; exact I. - intros hash sha. split; reflexivity. Qed. (** A function whose source cannot be read is both new and gone, and there is no version of the dataflow (TypeError), while [HamiltonGraph.version] leaves it out.
- `C80_behavior_refuted` (TaggingProps.v): Neither @cache nor @tag look at the behaviour that they are given for the cache.
- `C80_mark_refuted` (TaggingProps.v): A tag can mark a final node as not final, so that the decorators outside of it pass it by.
- `C80_outputs_refuted` (TaggingProps.v): @tag_outputs does not validate: it overwrites the tag [module] that hamilton manages, with something that is not a string. The same by @tag is refused.
- `C80_schema_order_refuted` (TaggingProps.v): @schema.output is refused outside of @tag, though the same two are accepted the other way round.
- `C80_schema_refuted` (TaggingProps.v): Different schemas with the same tag.
- `C80_swallowed_refuted` (TaggingProps.v): @tag_outputs loses the tags that have the names of arguments of @tag, and fails late on [self].
- `C80_unhashable_refuted` (TaggingProps.v): A bad value that cannot be hashed is a TypeError and not an InvalidDecoratorException.
- `C81_falsy_refuted` (SpanProps.v): An exception that counts as false is reported as success.
- `C81_hook_refuted` (SpanProps.v): If the hook of another adapter before a node fails, the hook after the node is not called (graph_functions.py 252-330): the exception then ends the span of the node, and the run's span is never ended; a later run in the same context is reported under it.
- `C81_threads_refuted` (SpanProps.v): With tasks in threads (MultiThreadingExecutor), a task is not under its run.
- `C82_hidden_refuted` (DrawProps.v): Inputs that are hidden are in the legend.
- `C82_names_refuted` (DrawProps.v): A function called like an entry of the legend is drawn like that entry: here, as if it were not requested.
- `C82_overridden_refuted` (DrawProps.v): An overridden node has arrows from what it does not use.
- `C82_requested_refuted` (DrawProps.v): An input that is requested is not shown, unless as an input of something else.
- `C83_dataflows_refuted` (TelemProps.v): Functions of [hamilton.dataflows] do not ask: any number of events.
- `C83_executor_refuted` (TelemProps.v): The name of the class of an executor is sent, whoever's it is.
- `C83_failures_refuted` (TelemProps.v): The constructor's failures are never told, though there is a place for the error: [graph_executor] is the last to be set.
- `C83_imports_refuted` (TelemProps.v): Once it is disabled none of them works.
- `C83_inputs_refuted` (TelemProps.v): The inputs are counted only if there are overrides, which then need inputs.
- `C83_races_refuted` (TelemProps.v): If the counter is read and written in two steps, a thread that is held up in between takes all counting back: eleven and more.
- `C83_traceback_refuted` (TelemProps.v): A user's directory called hamilton: names of their files and functions are sent.
- `C83_tracked_refuted` (TelemProps.v): Once it is disabled none of them works.
- `C83_unreadable_refuted` (TelemProps.v): A value that cannot be read leaves it enabled.
- `C84_branch_refuted` (HubProps.v): The branch is not looked at.
- `C84_cut_refuted` (HubProps.v): An answer that is cut short loses a character.
- `C84_default_refuted` (HubProps.v): By default what is listed are the dataflows of a version called main, where nothing is pulled to.
- `C84_name_refuted` (HubProps.v): A dataflow called like a module that has no version cannot be imported.
- `C84_official_refuted` (HubProps.v): Once an official dataflow of a version was pulled, nothing can be listed or found.
- `C84_requirements_refuted` (HubProps.v): A requirement with a version is never met.
- `C84_retry_refuted` (HubProps.v): A download that was interrupted cannot be repeated; what is there of it is imported as if it were complete, or stands in the way.
- `C85_callable_refuted` (RequestProps.v): With a callable that has no name what else is wrong is not reported.
- `C85_empty_refuted` (RequestProps.v): Empty names, and things whose [name] is None, are dropped without a word: fewer things are computed than were asked for.
- `C85_half_refuted` (RequestProps.v): A single driver: a function with two decorators of which only the first accepts is not part of the dataflow; asking for it computes the other variant.
- `C85_stale_refuted` (RequestProps.v): Two drivers of the same functions, with different configurations: once the second is built, the first, asked for the variant of the second, computes its own variant instead of refusing.
- `C85_submodule_refuted` (RequestProps.v): A function of another module whose name contains that of the driver's is part of the dataflow, but cannot be asked for.
- `C86_broken_refuted` (RegistryProps.v): One package that fails in another way when imported: Hamilton cannot be imported at all, and what comes later is not loaded.
- `C86_enable_refuted` (RegistryProps.v): [enable_autoload] fails if it was not disabled.
- `C86_environment_refuted` (RegistryProps.v): Where the file disables it the environment of a process cannot enable it.
- `C86_late_refuted` (RegistryProps.v): Disabling it once the decorators were imported is too late, and enabling it then does nothing until [initialize] is called.
- `C86_no_columns_refuted` (RegistryProps.v): A dataframe type without columns: asking for its column type does not say that there is none, as documented, but fails with a KeyError; asking for all column types fails, although there are.
- `C86_same_process_refuted` (RegistryProps.v): The process that enables it in the file, and its children, stay disabled.
- `C86_words_refuted` (RegistryProps.v): Nothing but 0 disables it.
- `C87_starting_refuted` (DeprecateProps.v): In the very version from which on it warns, or fails, nothing is said, or no more than a warning.
- `C87_twice_refuted` (DeprecateProps.v): A class deprecated twice cannot be called: it recurses until Python stops it, with a warning each time.
- `C87_unwarned_refuted` (DeprecateProps.v): Users need not be warned by any version: both may be the same although one "must come before".
- `C88_failed_refuted` (WatchProps.v): A run that failed is said to be complete as well.
- `C88_narrow_refuted` (WatchProps.v): A width below three makes names longer.
- `C88_nothing_refuted` (WatchProps.v): A run that has nothing to execute fails for the progress bar, although it would succeed without.
- `C88_overridden_refuted` (WatchProps.v): Where a function is overridden the bar never gets full.
- `C88_second_run_refuted` (WatchProps.v): In a second run, of another dataflow, names are cut to the width of the first, whatever the cap.
- `C88_tasks_refuted` (WatchProps.v): In a task-based run the hook after the first node fails: it deletes the timer under the name of the node, but keeps it under the name of the task and the node. So PrintLn makes such runs fail.
- `C89_client_refuted` (LineageProps.v): ... nor where the client fails.
- `C89_falsy_refuted` (LineageProps.v): ... nor if the exception is one Python takes for false.
- `C89_file_refuted` (LineageProps.v): That a file one node wrote and another read is one dataset: the first is named by its path, the second by the node that read it.
- `C89_format_refuted` (LineageProps.v): That the format of a file that was loaded is its ending: whether there is a dot is looked for in the name of the node, so it is unknown, or is the whole path of a file without ending.
- `C89_interrupt_refuted` (LineageProps.v): That the end is COMPLETE only if the run returned: not if it was interrupted, .
- `C89_select_refuted` (LineageProps.v): That a query is told as a query, whatever its letters, and its dataset has a name.
- `C89_series_refuted` (LineageProps.v): That the adapter does not change what runs come to: not where metadata is of something without columns, as a series, .
- `C89_source_refuted` (LineageProps.v): ... nor where the source of a function cannot be read: nothing is executed nor sent, .
- `C89_started_refuted` (LineageProps.v): That what materialize sends begins with a start: a graph that is not valid is told of as a failed run that never started, .
- `C89_unbound_refuted` (LineageProps.v): ... and that it raises what is wrong: if nothing is asked for it is an UnboundLocalError.
- `C90_delete_refuted` (TrackProps.v): That a record can be deleted.
- `C90_directory_refuted` (TrackProps.v): That the working directory is as before after each run, and that the run raises what was raised: not where a saver failed, after which the process stays in the run's directory; nor is that run recorded under a relative directory, since the cache is looked for there.
- `C90_inputs_refuted` (TrackProps.v): That runs without inputs, which all have defaults, come to the same: they fail.
- `C90_kept_refuted` (TrackProps.v): That records of earlier runs stay: all runs of a tracker have one identifier, so that the record of a successful run is replaced by that of a failed one.
- `C90_second_run_refuted` (TrackProps.v): That the second run with a tracker is recorded as it was: its inputs come after those of the first, with their values, and what the first overrode and saved is said of it.
- `C90_unsaid_refuted` (TrackProps.v): That runs in which a saver does not say where it saved come to the same: they fail.
- `C91_exception_refuted` (MlflowProps.v): ... and the exceptions of numbers asked for and of savers are replaced by TypeErrors.
- `C91_existing_refuted` (MlflowProps.v): That "every execution logs to the same run" if a run_id is given.
- `C91_figure_refuted` (MlflowProps.v): That the figure that is saved is the one logged: if the saver also takes its path from a node, it depends on the order of a set which of the two is logged.
- `C91_inputs_refuted` (MlflowProps.v): That the execution needs no inputs if the functions need none.
- `C91_none_refuted` (MlflowProps.v): That only values that were computed are logged: None is logged for a node that failed.
- `C91_param_refuted` (MlflowProps.v): That an input may have the name of a key of the configuration.
- `C91_pickle_refuted` (MlflowProps.v): That executions come to what they come to without the tracker: what cannot be pickled fails them, .
- `C91_status_refuted` (MlflowProps.v): That the status of the run tells whether the execution succeeded: the status FAILED is overwritten by [mlflow.end_run].
- `C91_text_refuted` (MlflowProps.v): That strings and dictionaries are logged as text and as JSON.
- `C92_annotation_refuted` (KedroProps.v): That functions annotated as Tuple[...], and functions without annotations, can be used.
- `C92_clash_refuted` (KedroProps.v): That parameters and datasets are told apart.
- `C92_default_refuted` (KedroProps.v): That parameters without input have their default: there may be a dataset of that name.
- `C92_function_refuted` (KedroProps.v): That a function may be used for several nodes: if it has several outputs, all have those of the last one.
- `C92_key_refuted` (KedroProps.v): ... and one output is not looked up at all.
- `C92_keys_refuted` (KedroProps.v): That outputs by keys are looked up by keys: they are looked up by the names of the datasets, .
- `C92_named_refuted` (KedroProps.v): That inputs by name go to the parameters named: if a parameter with a default has none, they go to the one before.
- `C92_same_input_refuted` (KedroProps.v): That one dataset may be the input of two parameters.
- `C92_single_refuted` (KedroProps.v): That a list of one output is unpacked.
- `C92_twice_refuted` (KedroProps.v): That pipelines can be converted twice: the conversion changes the annotations of functions, and the next one takes tuples for dictionaries.
- `C93_annotations_refuted` (AdhocProps.v): That the functions given are not tied to the module: annotations are one dictionary.
- `C93_failed_refuted` (AdhocProps.v): That source which fails leaves no module: half of it stays registered.
- `C93_keyword_refuted` (AdhocProps.v): That copies do what functions do: defaults of keyword-only parameters are lost.
- `C93_left_refuted` (AdhocProps.v): That temporary files are removed when the interpreter ends: not if the source fails.
- `C93_replaced_refuted` (AdhocProps.v): That modules are not replaced.
- `C94_failed_refuted` (FileIOProps.v): That a file stays as it was if saving fails.
- `C94_keys_refuted` (FileIOProps.v): That no values disappear in JSON: keys become strings, and equal strings hide each other.
- `C94_text_refuted` (FileIOProps.v): That texts are loaded as they were: "\r\n" becomes "\n".
- `C94_tuple_refuted` (FileIOProps.v): That all that can be saved as JSON is loaded as it was: tuples become lists.
- `C95_again_refuted` (CommandProps.v): That a command answers about its modules: a second one in the same process answers about those of the first.
- `C95_compared_refuted` (CommandProps.v): That versions compared have the same configuration, for the same reason.
- `C95_json_refuted` (CommandProps.v): That a context that is valid is answered with code 0: with --json-out it fails, and nothing is shown, if the context has values without JSON.
- `C95_once_refuted` (CommandProps.v): That the context validated is the one the driver was built with: the file is read twice, and a Python file may define something else the second time.
- `C96_deleted_refuted` (MaterializedProps.v): That a result deleted is gone: the saver's file stays.
- `C96_dots_refuted` (MaterializedProps.v): That data versions do not disturb each other: those that differ after a dot share their saver's file.
- `C96_exists_refuted` (MaterializedProps.v): That a result that exists can be retrieved: if a saver's file is gone, it exists and None is retrieved.
- `C96_expire_refuted` (MaterializedProps.v): That expired results can be removed from every store: with a saver's file there is an exception.
- `C96_failed_refuted` (MaterializedProps.v): That a failing save leaves the result that was there: it can no longer be retrieved.
- `C96_loader_refuted` (MaterializedProps.v): That a value stored without saver comes back: of a loader, the data it loads come back.
- `C97_errors_refuted` (TableProps.v): That tables which are not accepted are invalid decorators: there are ValueErrors for unknown kinds, and IndexErrors without columns and for columns without levels whose first name is shorter.
- `C97_twice_refuted` (TableProps.v): That every column is used: of two that bind the same parameter the first is ignored.

## Seeded faults

`seeded/LOG.jsonl` has one line for each of 1248 edits of the model as a realistic bug would make them: the
definition, the edit, the claim it breaks, the first lemma or theorem that no longer compiles in each file, the
property theorems that could not be rebuilt, and theorems added or tightened because an edit had survived.
