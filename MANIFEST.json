{
 "claims": [
  {
   "property": "C01",
   "status": "proved",
   "theorems": [
    "C01_execute_returns_meaning",
    "C01_meaning_unique"
   ],
   "note": "meaning given by an inductive big-step relation; default executor"
  },
  {
   "property": "C02",
   "status": "proved",
   "theorems": [
    "C02_at_most_once"
   ],
   "note": "for arbitrary stateful functions and every outcome"
  },
  {
   "property": "C03",
   "status": "proved",
   "theorems": [
    "C03_only_needed_functions_run",
    "C03_all_needed_functions_run"
   ],
   "note": "both directions"
  },
  {
   "property": "C04",
   "status": "proved",
   "theorems": [
    "C04_overrides_cut_the_graph",
    "C04_override_not_called"
   ],
   "note": "non-interference between two graphs/functions/inputs that agree on needed nodes"
  },
  {
   "property": "C05",
   "status": "partial",
   "theorems": [
    "C05_accepted_never_missing",
    "C05_accepted_succeeds",
    "C05_rejection_justified_partial",
    "C05_rejection_visible",
    "C05_rejection_refuted"
   ],
   "note": "acceptance direction proved in full; rejection direction holds without overrides and is refuted with them (an overridden external input is still demanded)"
  },
  {
   "property": "C06",
   "status": "proved",
   "theorems": [
    "C06_success_characterisation",
    "C06_total"
   ],
   "note": "success iff, plus totality"
  },
  {
   "property": "C07",
   "status": "proved",
   "theorems": [
    "C07_arguments"
   ],
   "note": ""
  },
  {
   "property": "C08",
   "status": "proved",
   "theorems": [
    "C08_request_order_irrelevant"
   ],
   "note": ""
  },
  {
   "property": "C09",
   "status": "proved",
   "theorems": [
    "C09_exception_stops_the_run",
    "C09_failures"
   ],
   "note": ""
  },
  {
   "property": "C10",
   "status": "proved",
   "theorems": [
    "C10_requested_results_stay",
    "C10_discarded_only_when_finished"
   ],
   "note": ""
  },
  {
   "property": "C11",
   "status": "proved",
   "theorems": [
    "C11_node_bracket",
    "C11_run_brackets"
   ],
   "note": "per node and composed over a whole run of the default executor; exceptions deriving from Exception, repr of arguments not raising (see C53)"
  },
  {
   "property": "C12",
   "status": "proved",
   "theorems": [
    "C12_hook_adapters",
    "C12_one_method_implementation",
    "C12_calls_in_order"
   ],
   "note": "adapters compared by identity (see C54)"
  },
  {
   "property": "C13",
   "status": "proved",
   "theorems": [
    "C13_run_bracket"
   ],
   "note": ""
  },
  {
   "property": "C14",
   "status": "proved",
   "theorems": [
    "C14_graph_is_exactly_the_declared_one",
    "C14_built_graphs_are_well_formed"
   ],
   "note": ""
  },
  {
   "property": "C15",
   "status": "proved",
   "theorems": [
    "C15_duplicates_are_rejected",
    "C15_only_duplicates_are_rejected_as_such",
    "C15_last_definition_or_config_wins"
   ],
   "note": ""
  },
  {
   "property": "C16",
   "status": "proved",
   "theorems": [
    "C16_upstream_is_reachability",
    "C16_downstream_is_reachability",
    "C16_upstream_downstream_dual"
   ],
   "note": "also on cyclic graphs"
  },
  {
   "property": "C17",
   "status": "proved",
   "theorems": [
    "C17_path_between",
    "C17_nodes_between",
    "C17_nodes_between_self_refuted"
   ],
   "note": "driver query exact on all graphs; FunctionGraph.nodes_between exact except that it reports no path from a variable to itself (refutation recorded)"
  },
  {
   "property": "C18",
   "status": "proved",
   "theorems": [
    "C18_sort_is_ordered_permutation",
    "C18_sort_with_cycles"
   ],
   "note": "also the cyclic case"
  },
  {
   "property": "C19",
   "status": "proved",
   "theorems": [
    "C19_levels",
    "C19_groups",
    "C19_no_dependency_inside_a_level"
   ],
   "note": ""
  },
  {
   "property": "C20",
   "status": "proved",
   "theorems": [
    "C20_config_and_inputs"
   ],
   "note": ""
  },
  {
   "property": "C21",
   "status": "proved",
   "theorems": [
    "C21_start_after_dependencies"
   ],
   "note": "for every well-formed plan (wf_plan; distinct ids, expanders spawn what they should; checked by a verified decision procedure on concrete plans)"
  },
  {
   "property": "C22",
   "status": "proved",
   "theorems": [
    "C22_each_task_once"
   ],
   "note": "submissions, completions and the queue, for every schedule of the executors"
  },
  {
   "property": "C23",
   "status": "proved",
   "theorems": [
    "C23_collect_order",
    "C23_overridden_block_variable_refuted"
   ],
   "note": "Every call of a collector, under every schedule, pool size and grouping order, on dataflows of the supported shape; overriding a variable of a block is refuted."
  },
  {
   "property": "C24",
   "status": "proved",
   "theorems": [
    "C24_values",
    "C24_schedule_independent",
    "C24_terminates",
    "C24_only_user_exceptions",
    "C24_succeeds",
    "C24_override_of_input_refuted",
    "C24_requested_block_variable_refuted",
    "C24_sequential_meaning"
   ],
   "note": "Values, schedule independence, termination; a run raises nothing but the exception of a user function and succeeds when no function fails. Assumes no supplied input is overridden and no per-item variable is requested: both are refuted outside that (C24_override_of_input_refuted, C24_requested_block_variable_refuted)."
  },
  {
   "property": "C25",
   "status": "proved",
   "theorems": [
    "C25_progress",
    "C25_terminates",
    "C25_complete",
    "C25_empty_plan_refuted",
    "C25_block_variable_used_outside_refuted",
    "C25_expander_consumer_refuted"
   ],
   "note": "for well-formed plans whose dependencies are realizable (live_plan); the C25_*_refuted theorems show plans produced by the code outside that class which hang or silently skip a variable"
  },
  {
   "property": "C26",
   "status": "proved",
   "theorems": [
    "C26_pool_bound"
   ],
   "note": ""
  },
  {
   "property": "C27",
   "status": "partial",
   "theorems": [
    "C27_finalized_partial",
    "C27_leaks_exactly",
    "C27_init_fault_refuted",
    "C27_finalize_fault_refuted",
    "C27_shared_pool_refuted"
   ],
   "note": "holds when no executor fails to initialise or shut down; the full claim is false: C27_*_refuted, and C27_leaks_exactly says what stays open"
  },
  {
   "property": "C28",
   "status": "proved",
   "theorems": [
    "C28_plan_dataflow",
    "C28_plan_rejected"
   ],
   "note": ""
  },
  {
   "property": "C29",
   "status": "proved",
   "theorems": [
    "C29_branches_separate",
    "C29_arbitrary_names_refuted"
   ],
   "note": "for spawning ids and plain variable names without a colon (Python identifiers, dotted); false for arbitrary strings: C29_arbitrary_names_refuted"
  },
  {
   "property": "C30",
   "status": "partial",
   "theorems": [
    "C30_roundtrip_partial",
    "C30_empty",
    "C30_namespaced_node_refuted",
    "C30_dash_refuted",
    "C30_comma_refuted"
   ],
   "note": "round trip for safe node names and comma-free texts; false for namespaced nodes, dashes in code versions and commas: C30_*_refuted"
  },
  {
   "property": "C31",
   "status": "partial",
   "theorems": [
    "C31_injective_partial",
    "C31_injective_safe",
    "C31_order_irrelevant",
    "C31_namespaced_nodes_refuted",
    "C31_comma_refuted"
   ],
   "note": "injective up to the safe form of the node name for comma-free texts; false for namespaced nodes that share a safe form and for commas: C31_*_refuted"
  },
  {
   "property": "C32",
   "status": "partial",
   "theorems": [
    "C32_transparent_partial",
    "C32_input_names_function_refuted",
    "C32_loader_tuple_refuted",
    "C32_saver_refuted",
    "C32_ignored_dependency_refuted",
    "C32_fingerprint_collisions_refuted",
    "C32_nested_unhashable_refuted"
   ],
   "note": "every history of executions and deletions, both metadata stores; excluded and refuted: inputs naming a function, data savers, loaders of tuples, dependents of IGNOREd nodes, values with equal fingerprints"
  },
  {
   "property": "C33",
   "status": "proved",
   "theorems": [
    "C33_repeated_execution",
    "C33_never_again",
    "C33_unhashable_input_refuted",
    "C33_unhashable_result_refuted"
   ],
   "note": "after any history, when every value has a fingerprint; unhashable inputs, and unhashable results after deletion with SQLite, are refuted"
  },
  {
   "property": "C34",
   "status": "partial",
   "theorems": [
    "C34_precedence_partial",
    "C34_loader_follows",
    "C34_load_from",
    "C34_rejected",
    "C34_two_true_rejected",
    "C34_accepted",
    "C34_load_from_true_refuted",
    "C34_load_from_listed_refuted",
    "C34_load_from_default_refuted",
    "C34_expand_refuted"
   ],
   "note": "all nodes, decorators and configurations; for the nodes of @load_from the documented precedence is refuted (True, own name and default behaviours are ignored) and the actual one proved; EXPAND nodes listed twice are not rejected (refuted)"
  },
  {
   "property": "C35",
   "status": "partial",
   "theorems": [
    "C35_memory",
    "C35_memory_runs_partial",
    "C35_sqlite_partial",
    "C35_agree_partial",
    "C35_overwrite_refuted",
    "C35_delete_missing_refuted",
    "C35_run_after_delete_refuted",
    "C35_delete_all_refuted"
   ],
   "note": "each store characterised for every sequence; equal answers for consistent sequences; re-setting a key, deleting a missing one, get_run after deletions and delete_all are refuted"
  },
  {
   "property": "C36",
   "status": "partial",
   "theorems": [
    "C36_persist_metadata_partial",
    "C36_load_metadata_partial",
    "C36_persist_results",
    "C36_load_results_partial",
    "C36_persist_deleted_refuted",
    "C36_load_unstarted_refuted",
    "C36_load_missing_result_refuted"
   ],
   "note": "orderly histories; keys deleted before persisting, runs never started and missing results are refuted"
  },
  {
   "property": "C37",
   "status": "proved",
   "theorems": [
    "C37_order_invariant",
    "C37_order_invariant_string_keys",
    "C37_equal_key_texts_refuted",
    "C37_sequence_elements"
   ],
   "note": "order invariance for reorderings whose keys have different texts; keys with equal texts are refuted"
  },
  {
   "property": "C38",
   "status": "partial",
   "theorems": [
    "C38_same_type_partial",
    "C38_text_refuted",
    "C38_container_refuted",
    "C38_nested_unhashable_refuted",
    "C38_class_refuted",
    "C38_depth_refuted"
   ],
   "note": "holds for values of the same type with an ideal digest; false across types, containers, classes, nested unhashables and beyond the maximal depth: C38_*_refuted"
  },
  {
   "property": "C39",
   "status": "proved",
   "theorems": [
    "C39_complementary",
    "C39_filtered_config",
    "C39_one_variant",
    "C39_build_exact",
    "C39_several_keys_refuted"
   ],
   "note": "for single-key when/when_not and when_in/when_not_in, all configurations; several keys in one decorator are not complementary (refuted)"
  },
  {
   "property": "C40",
   "status": "partial",
   "theorems": [
    "C40_repeatable_partial",
    "C40_suffix_refuted",
    "C40_hidden_target_refuted"
   ],
   "note": "any number of earlier builds with any configurations, for functions whose name without its suffix has no further double underscore or whose decorators agree on a name; false otherwise: C40_*_refuted"
  },
  {
   "property": "C41",
   "status": "partial",
   "theorems": [
    "C41_outputs",
    "C41_dependencies",
    "C41_value_partial",
    "C41_inject",
    "C41_parameterize_values",
    "C41_parameterize_sources",
    "C41_literal_name_refuted",
    "C41_optional_source_refuted",
    "C41_required_refuted"
   ],
   "note": "proved for the values, dependencies and outputs of parameterized nodes; missing: parameters with the reserved names of the wrapper, and literals whose parameter name is itself an undefined dependency, for which the claim is refuted (3 refutations)"
  },
  {
   "property": "C42",
   "status": "partial",
   "theorems": [
    "C42_validated",
    "C42_subdag_partial",
    "C42_parameterized_partial",
    "C42_unused_source_refuted"
   ],
   "note": "all subdags, bindings and enclosing graphs; undeclared parameters must not be captured by the wrapper or coincide with a namespaced name, and inputs with a source that only the decorated function uses are excluded: refuted"
  },
  {
   "property": "C43",
   "status": "proved",
   "theorems": [
    "C43_prune",
    "C43_no_selection"
   ],
   "note": "any collection of distinctly named nodes, cyclic or not, any selection, any order of the set of selected nodes"
  },
  {
   "property": "C44",
   "status": "proved",
   "theorems": [
    "C44_value",
    "C44_error",
    "C44_names",
    "C44_numbered_name_refuted",
    "C44_raw_name_refuted",
    "C44_stacked_refuted"
   ],
   "note": "validators and final node: value, error and names; refutations for stacked decorators and clashing names"
  },
  {
   "property": "C45",
   "status": "proved",
   "theorems": [
    "C45_matches",
    "C45_filter",
    "C45_no_filter"
   ],
   "note": "any tags and queries"
  },
  {
   "property": "C46",
   "status": "partial",
   "theorems": [
    "C46_build",
    "C46_rejects",
    "C46_independent",
    "C46_copy_partial",
    "C46_driver_partial",
    "C46_overrides_refuted",
    "C46_built_driver_refuted",
    "C46_build_order_refuted",
    "C46_disjoint_refuted"
   ],
   "note": "all histories of builder calls; copies after allow_module_overrides, drivers after with_config on their builder, and the order of adapters after an earlier build are refuted"
  },
  {
   "property": "C47",
   "status": "partial",
   "theorems": [
    "C47_dependencies",
    "C47_reassign_partial",
    "C47_literal_name_refuted",
    "C47_same_source_refuted",
    "C47_other_parameter_refuted"
   ],
   "note": "any node, renames and literals whose names do not clash; with a clash the claim is false: C47_*_refuted"
  },
  {
   "property": "C48",
   "status": "partial",
   "theorems": [
    "C48_unaffected",
    "C48_savers_only",
    "C48_saved",
    "C48_loaded",
    "C48_rejected",
    "C48_results",
    "C48_hook_partial",
    "C48_error_masked_refuted",
    "C48_same_id_refuted"
   ],
   "note": "all graphs, materializers and loaders: unaffected variables, saved and loaded values, results; the hook is only proved to be called when the graph could be modified (UnboundLocalError otherwise: refuted), two materializers with one id are refuted"
  },
  {
   "property": "C49",
   "status": "proved",
   "theorems": [
    "C49_edges_are_type_checked"
   ],
   "note": "types and matching relation abstract"
  },
  {
   "property": "C50",
   "status": "partial",
   "theorems": [
    "C50_order_independence_refuted",
    "C50_every_order",
    "C50_order_irrelevant_partial",
    "C50_same_graph"
   ],
   "note": "the claim is false (Union narrowing depends on order: C50_order_independence_refuted); proved: exactly which programs are accepted in every order, that the order is irrelevant when functions sharing an input have comparable annotations, and that accepted orders give the same graph"
  },
  {
   "property": "C51",
   "status": "partial",
   "theorems": [
    "C51_own_functions_partial",
    "C51_only_own_functions_refuted"
   ],
   "note": "own public functions are collected; the only-if direction is refuted (substring test)"
  },
  {
   "property": "C52",
   "status": "proved",
   "theorems": [
    "C52_refusals_are_exact",
    "C52_inputs_type_checked"
   ],
   "note": ""
  },
  {
   "property": "C53",
   "status": "partial",
   "theorems": [
    "C53_node_partial",
    "C53_run_partial",
    "C53_node_interrupt_refuted",
    "C53_masked_exception_refuted",
    "C53_run_interrupt_refuted"
   ],
   "note": "proved for exceptions deriving from Exception when repr of the arguments does not raise; otherwise false: three refutations (except Exception does not see BaseException; a failing repr replaces the exception)"
  },
  {
   "property": "C54",
   "status": "partial",
   "theorems": [
    "C54_first_of_equals_partial",
    "C54_equal_adapters_refuted"
   ],
   "note": "false with a custom == (membership test by ==: refuted); proved: of equal adapters exactly the first with the hook is called, so all are called that equal no earlier one"
  },
  {
   "property": "C55",
   "status": "partial",
   "theorems": [
    "C55_step_names",
    "C55_step_names_distinct",
    "C55_step_names_refuted",
    "C55_pipe_input_partial",
    "C55_pipe_target",
    "C55_pipe_output_partial",
    "C55_no_steps",
    "C55_unknown_on_input_refuted",
    "C55_literal_name_refuted",
    "C55_same_source_refuted",
    "C55_on_input_refuted",
    "C55_both_pipes_refuted"
   ],
   "note": "any steps, namespaces and graph containing the generated nodes, when the parameters of each step stand for distinct names and step nodes are not named like other parameters; false otherwise: C55_*_refuted (which also show that a mistyped on_input pipes the first parameter instead). The async variant is not modelled"
  },
  {
   "property": "C56",
   "status": "partial",
   "theorems": [
    "C56_fields",
    "C56_columns_partial",
    "C56_param_extract_partial",
    "C56_documented_fill_refuted",
    "C56_reserved_name_refuted",
    "C56_reassign_columns_refuted"
   ],
   "note": "proved for extract_fields; for extract_columns with plain names or without fill_with; for parameterize_extract_columns outside reserved names; refutations: (name, doc) columns with fill_with, a function called field_to_extract, reassign_columns=False"
  },
  {
   "property": "C57",
   "status": "partial",
   "theorems": [
    "C57_class",
    "C57_load_from_partial",
    "C57_save_to_partial",
    "C57_dataloader",
    "C57_shared_source_refuted",
    "C57_literal_name_refuted",
    "C57_field_named_node_refuted",
    "C57_saved_source_refuted",
    "C57_documented_layering_refuted"
   ],
   "note": "all functions, classes, arguments and enclosing graphs; arguments sharing a source, sources named like literal arguments, saver fields or sources named like the saved node, and the documented layering are refuted"
  },
  {
   "property": "C58",
   "status": "partial",
   "theorems": [
    "C58_transform_partial",
    "C58_repeated_refuted"
   ],
   "note": "all nodes and targets; a target list naming a node twice is refuted"
  },
  {
   "property": "C59",
   "status": "proved",
   "theorems": [
    "C59_execute_returns_values",
    "C59_execute_succeeds",
    "C59_values_unique"
   ],
   "note": "all functions, callables, configs, inputs and overrides over acyclic graphs; connects the decorator properties (stated over values) with the executor"
  },
  {
   "property": "C60",
   "status": "proved",
   "theorems": [
    "C60_caught_exceptions_do_not_escape",
    "C60_always_answers",
    "C60_values",
    "C60_skips_downstream_functions",
    "C60_marked_functions_run",
    "C60_items",
    "C60_task_exceptions",
    "C60_items_isolated",
    "C60_result_taken_for_failure_refuted",
    "C60_unequal_sentinel_refuted"
   ],
   "note": "all graphs, functions and inputs, both executors; values and pruning for variables that depend on no marked function. Outside the hypotheses: a result equal to the sentinel is taken for a failure (documented), a sentinel not equal to itself never prunes (C60_unequal_sentinel_refuted)."
  },
  {
   "property": "C61",
   "status": "proved",
   "theorems": [
    "C61_returns_meaning",
    "C61_same_as_driver",
    "C61_driver_answers",
    "C61_at_most_once",
    "C61_arguments",
    "C61_runs_what_is_needed",
    "C61_exceptions",
    "C61_finishes",
    "C61_succeeds",
    "C61_functions_start_after_failure_refuted",
    "C61_refused_requests_run_functions_refuted",
    "C61_requests_of_inputs_refuted"
   ],
   "note": "all acyclic graphs, functions, requests and interleavings; without lifecycle hooks and cancellation. Outside the claim: functions go on being invoked after execute has raised, and a request refused for a missing input still has functions invoked (C61_functions_start_after_failure_refuted, C61_refused_requests_run_functions_refuted); requests of inputs may end in a KeyError (C61_requests_of_inputs_refuted)."
  },
  {
   "property": "C62",
   "status": "proved",
   "theorems": [
    "C62_library_strategies_partition",
    "C62_values",
    "C62_same_as_default_executor",
    "C62_strategies_agree",
    "C62_terminates",
    "C62_only_user_exceptions",
    "C62_succeeds",
    "C62_parallelizable_refuted",
    "C62_cyclic_groups_refuted"
   ],
   "note": "all acyclic graphs without Parallelizable and Collect, all partitioning strategies, executors and schedules; no override of a supplied input, no name with a colon. With Parallelizable only grouping by blocks is right and the other strategies give other values without an error (C62_parallelizable_refuted); groups that use each other never finish (C62_cyclic_groups_refuted)."
  },
  {
   "property": "C63",
   "status": "proved",
   "theorems": [
    "C63_invokes_exactly",
    "C63_invokes_exactly_needed",
    "C63_second_execution_loads",
    "C63_transparent",
    "C63_refresh",
    "C63_forcing_the_changed",
    "C63_forcing_uncached_refuted",
    "C63_override_ignored_refuted",
    "C63_override_stays_refuted",
    "C63_inputs_ignored_refuted",
    "C63_refresh_forgotten_refuted",
    "C63_failure_remembered_refuted"
   ],
   "note": "all acyclic graphs, functions, formats without dots, cache states and sessions; writes that raise must leave the file alone or complete, what is written can be read back. Not promised and false: forcing a variable that is not cached refreshes nothing downstream, overrides and other inputs do not reach cached variables and values computed from overrides stay in the cache, a refresh must request the dependents, a failed execution makes the next one recompute (six C63_..._refuted)."
  },
  {
   "property": "C64",
   "status": "partial",
   "theorems": [
    "C64_transparent_partial",
    "C64_second_execution_loads_partial",
    "C64_extracted_columns_refuted",
    "C64_parameterized_refuted",
    "C64_optional_arguments_refuted",
    "C64_two_versions_refuted",
    "C64_unpicklable_refuted",
    "C64_first_graph_decides_refuted"
   ],
   "note": "all acyclic graphs, functions, files, adapter objects and executions, when functions with equal source agree on equal argument sequences and an object serves one version. Without that it is false: columns of extract_columns, nodes of parameterize, optional arguments, two versions in one object (four C64_..._refuted); unpicklable values and graphs after the first are refuted too."
  },
  {
   "property": "C65",
   "status": "proved",
   "theorems": [
    "C65_new_graph",
    "C65_duplicates",
    "C65_old_variables",
    "C65_can_be_added",
    "C65_built_graphs_qualify",
    "C65_classes_and_unions_qualify",
    "C65_loaded_values"
   ],
   "note": "all graphs and added nodes without cycles among themselves, all functions and requests. That built graphs are accepted again needs a match that survives narrowing (shown for classes, Any and unions of classes) and no adapter that loosens it; the originating functions of nodes are not modelled."
  },
  {
   "property": "C66",
   "status": "partial",
   "theorems": [
    "C66_check_instance_partial",
    "C66_inputs_accepted_partial",
    "C66_inputs_exact",
    "C66_adapter_partial",
    "C66_adapter_unsupported",
    "C66_fixed_tuples_refuted",
    "C66_other_generics_raise_refuted",
    "C66_exception_replaced_refuted",
    "C66_inputs_rejected_refuted",
    "C66_inputs_loose_refuted",
    "C66_generator_drained_refuted"
   ],
   "note": "check_instance: all annotations of checkable form (classes, Any, Union, Literal, list/set/dict generics and so on); inputs: generics over classes without instances of subclasses. Fixed length tuples, other generics, exceptions under the adapter, inputs of subclasses of generic origins, loose acceptance by generics and consumed generators are refuted (six C66_..._refuted)."
  },
  {
   "property": "C67",
   "status": "partial",
   "theorems": [
    "C67_match_partial",
    "C67_edges_partial",
    "C67_calls",
    "C67_checker_silent",
    "C67_any_refuted",
    "C67_bare_classes_refuted",
    "C67_unchecked_values_refuted"
   ],
   "note": "all graphs whose consumers ask for nothing that the type of the producer leaves open (tells), without type adapters. Any, classes without arguments given for generics, and overrides and None, which are not checked, are refuted (C67_any_refuted, C67_bare_classes_refuted, C67_unchecked_values_refuted)."
  },
  {
   "property": "C68",
   "status": "partial",
   "theorems": [
    "C68_pipeline",
    "C68_value_partial",
    "C68_inner_nodes",
    "C68_mutators_hidden",
    "C68_other_module",
    "C68_two_pipes_refuted",
    "C68_restricted_refuted",
    "C68_shared_object_refuted",
    "C68_mutated_mutator_refuted"
   ],
   "note": "all modules whose apply_to objects are not shared between mutators, functions with at most one pipe_output and without target there. Shared objects, several pipe_outputs, a pipe_output with a target and mutators of mutators are refuted (four C68_..._refuted)."
  },
  {
   "property": "C69",
   "status": "partial",
   "theorems": [
    "C69_same_as_driver",
    "C69_driver_answers",
    "C69_at_most_once",
    "C69_arguments",
    "C69_runs_what_is_needed",
    "C69_exceptions",
    "C69_finishes",
    "C69_lazy",
    "C69_parameter_names_refuted",
    "C69_functions_start_after_failure_refuted",
    "C69_which_exception_refuted"
   ],
   "note": "proved for all graphs and interleavings, except that a needed function whose parameter has a name that the adapter itself passes (node for ray, dask_key_name for dask) makes execute raise a TypeError (C69_parameter_names_refuted); which of several exceptions is raised and what runs after a failure depend on the cluster (two more refutations)."
  },
  {
   "property": "C70",
   "status": "partial",
   "theorems": [
    "C70_value",
    "C70_missing_column",
    "C70_selection",
    "C70_nodes",
    "C70_accepts",
    "C70_constructor",
    "C70_rebuild_refuted",
    "C70_configuration_refuted",
    "C70_type_refuted",
    "C70_parameter_name_refuted",
    "C70_stacked_refuted"
   ],
   "note": "proved for all functions, selections and graphs whose names fit together (no function or column named like the dataframe parameter or _append). Refuted: the selection is stored in the decorator, so a second build may fail or append other columns (C70_rebuild_refuted, C70_configuration_refuted); the type of the parameter is not checked (C70_type_refuted); a column named like the parameter (C70_parameter_name_refuted); two decorators on one function (C70_stacked_refuted)."
  },
  {
   "property": "C71",
   "status": "partial",
   "theorems": [
    "C71_value",
    "C71_append",
    "C71_nodes",
    "C71_select_unknown",
    "C71_frames",
    "C71_require_columns",
    "C71_constructor",
    "C71_all_run_refuted",
    "C71_dangling_refuted",
    "C71_columns_to_pass_refuted",
    "C71_originals_refuted",
    "C71_select_column_refuted",
    "C71_parameter_name_refuted"
   ],
   "note": "proved for all acyclic groups whose names fit together (spark_placed). Refuted: a function that reads the column it replaces is silently not run (C71_all_run_refuted), and a group of only these leaves a dangling dependency (C71_dangling_refuted); a parameter not among columns_to_pass is read from the dataframe (C71_columns_to_pass_refuted); an original column is dropped (C71_originals_refuted); @select of an original column is refused (C71_select_column_refuted); a function named like the dataframe parameter depends on itself (C71_parameter_name_refuted)."
  },
  {
   "property": "C72",
   "status": "partial",
   "theorems": [
    "C72_value",
    "C72_error",
    "C72_accepts",
    "C72_rounding",
    "C72_docstring_refuted",
    "C72_nullable_refuted",
    "C72_single_refuted",
    "C72_generic_refuted",
    "C72_warn_refuted",
    "C72_values_string_refuted"
   ],
   "note": "proved for the documented forms of the arguments and values they apply to. Refuted: the argument data_in_range of the docstring (C72_docstring_refuted); missing cells of nullable series pass every range (C72_nullable_refuted); one number never has a small standard deviation (C72_single_refuted); TypeError for return types that are no classes (C72_generic_refuted); a check of importance warn may fail the function (C72_warn_refuted); values_in of a string (C72_values_string_refuted)."
  },
  {
   "property": "C73",
   "status": "partial",
   "theorems": [
    "C73_value",
    "C73_error",
    "C73_succeeds",
    "C73_stale_dataframe_refuted",
    "C73_stale_schema_refuted",
    "C73_two_dataframes_refuted",
    "C73_value_replaced_refuted",
    "C73_existing_column_refuted",
    "C73_no_column_refuted"
   ],
   "note": "proved for requests as documented (one dataframe, other names for functions than for columns) when the call before did not fail. Refuted: the call after a failed one works on the old dataframe (C73_stale_dataframe_refuted) or fails (C73_stale_schema_refuted); of two dataframes one is ignored (C73_two_dataframes_refuted); a value is replaced by the column of its name (C73_value_replaced_refuted); a function named like a column is refused or replaces it depending on the order of the request (C73_existing_column_refuted); requests without functions of columns fail (C73_no_column_refuted)."
  },
  {
   "property": "C74",
   "status": "partial",
   "theorems": [
    "C74_accepts",
    "C74_value",
    "C74_resolve",
    "C74_as_written",
    "C74_order",
    "C74_config",
    "C74_signature",
    "C74_in_place_refuted",
    "C74_not_validated_refuted",
    "C74_nested_refuted",
    "C74_power_mode_refuted",
    "C74_left_out_refuted",
    "C74_schema_order_refuted"
   ],
   "note": "proved: what a stack makes, the order of classes, what each decorator sees, @resolve as the decorator written outermost. Refuted: @resolve in the place where it is written (C74_in_place_refuted), with validation (C74_not_validated_refuted), nested (C74_nested_refuted: silently ignored), for functions that are left out (C74_left_out_refuted); the explanation of power user mode (C74_power_mode_refuted: KeyError); @schema.output above other node decorators (C74_schema_order_refuted)."
  },
  {
   "property": "C75",
   "status": "partial",
   "theorems": [
    "C75_single",
    "C75_scalars",
    "C75_value",
    "C75_built",
    "C75_built_arrays",
    "C75_refused",
    "C75_strict",
    "C75_matrix",
    "C75_overwritten_refuted",
    "C75_same_column_refuted",
    "C75_no_columns_refuted",
    "C75_pd_index_refuted",
    "C75_no_class_refuted",
    "C75_matrix_refuted"
   ],
   "note": "proved for outputs whose columns have different names and a pandas that has NDArrayBackedExtensionIndex; pandas is specified (its union of indexes by what it contains). Refuted: an output is silently overwritten by the column of a DataFrame after it (C75_overwritten_refuted), a column of a DataFrame by its namesake (C75_same_column_refuted); rows of DataFrames without columns are lost (C75_no_columns_refuted); the strict builder refuses a pd.Index beside a Series with the usual index (C75_pd_index_refuted); without that class of pandas every index breaks (C75_no_class_refuted); a matrix of numbers only has no rows, a number beside a vector of length 1 is an error (C75_matrix_refuted)"
  },
  {
   "property": "C76",
   "status": "partial",
   "theorems": [
    "C76_diff",
    "C76_columns",
    "C76_readable_partial",
    "C76_accepts",
    "C76_fail",
    "C76_told_partial",
    "C76_saves",
    "C76_runs",
    "C76_kept",
    "C76_paths_partial",
    "C76_same_version_refuted",
    "C76_field_metadata_refuted",
    "C76_not_null_refuted",
    "C76_order_refuted",
    "C76_namespaced_refuted",
    "C76_metadata_column_refuted",
    "C76_cur_refuted",
    "C76_foreign_reference_refuted"
   ],
   "note": "proved: equality, marks of columns, saving, accepting and failing, runs; the report under [tame]. Refuted: by default, a changed column with unchanged metadata is an AttributeError instead of a warning (C76_same_version_refuted); with check_field_metadata a changed version is a KeyError (C76_field_metadata_refuted); a column that is no longer nullable an AttributeError (C76_not_null_refuted); columns in another order give an empty report (C76_order_refuted); nodes of one namespace share one file (C76_namespaced_refuted); a column \"__metadata\" is taken for metadata (C76_metadata_column_refuted); metadata with the key \"cur\" are not JSON (C76_cur_refuted); a reference without metadata (C76_foreign_reference_refuted)."
  },
  {
   "property": "C77",
   "status": "partial",
   "theorems": [
    "C77_transparent_partial",
    "C77_once",
    "C77_only_vars",
    "C77_all_vars",
    "C77_evicts",
    "C77_keeps_partial",
    "C77_evict_succeeds",
    "C77_same_source_refuted",
    "C77_kept_refuted",
    "C77_edited_refuted",
    "C77_evict_first_refuted",
    "C77_failed_refuted",
    "C77_none_refuted",
    "C77_two_adapters_refuted"
   ],
   "note": "proved: same results for nodes whose sources determine what they compute; computed once; eviction of all else, and success of it exactly when the versions to keep were run. Refuted: the columns of @extract_columns share one source, so the second column is the value of the first (C77_same_source_refuted); a node computed for two inputs loses the entries to keep (C77_kept_refuted); a node edited and not yet run is a ValueError with half evicted (C77_edited_refuted); nothing run yet is an AttributeError (C77_evict_first_refuted); after a failure or None nothing is ever cached (C77_failed_refuted, C77_none_refuted); two adapters overwrite the history (C77_two_adapters_refuted)."
  },
  {
   "property": "C78",
   "status": "partial",
   "theorems": [
    "C78_exact",
    "C78_computes_partial",
    "C78_refused_partial",
    "C78_chain_refuted",
    "C78_twice_refuted",
    "C78_list_refuted",
    "C78_typo_refuted",
    "C78_dropped_refuted"
   ],
   "note": "proved: accepted exactly if every call gets through to the function; the right arguments and the right exception for renamings and exchanges. Refuted: a chain a=\"b\", c=\"a\" deletes the new a and leaves b over, silently wrong with defaults or **kwargs (C78_chain_refuted); one parameter for two arguments is a KeyError (C78_twice_refuted); a list, as the type allows, is a TypeError (C78_list_refuted); a misspelt parameter is a KeyError (C78_typo_refuted); a parameter whose name is taken by another is silently ignored (C78_dropped_refuted)."
  },
  {
   "property": "C79",
   "status": "partial",
   "theorems": [
    "C79_code",
    "C79_added",
    "C79_removed",
    "C79_edited_partial",
    "C79_functions",
    "C79_documentation",
    "C79_dataflow_partial",
    "C79_graph_version",
    "C79_against_partial",
    "C79_input_refuted",
    "C79_order_refuted",
    "C79_columns_refuted",
    "C79_unreadable_refuted",
    "C79_against_refuted"
   ],
   "note": "proved: versions of functions, what is new and gone, what is edited among functions, documentation, same functions for one dataflow version, the diff against a module when all of the config is used. Refuted: an input has the version of the first function asking for it, so it is reported as edited with that function or when another comes first (C79_input_refuted), and the dataflow version depends on the order of modules (C79_order_refuted); nodes of one function share its version, so other columns are the same dataflow version (C79_columns_refuted); a function without readable source is both new and gone and there is no dataflow version (C79_unreadable_refuted); the diff against a module is a KeyError for unused config and reports edited functions as removed (C79_against_refuted)."
  },
  {
   "property": "C80",
   "status": "partial",
   "theorems": [
    "C80_tags_partial",
    "C80_accepted",
    "C80_refused_partial",
    "C80_reserved_partial",
    "C80_ray",
    "C80_schema_partial",
    "C80_outputs_refuted",
    "C80_swallowed_refuted",
    "C80_mark_refuted",
    "C80_unhashable_refuted",
    "C80_schema_order_refuted",
    "C80_schema_refuted",
    "C80_behavior_refuted"
   ],
   "note": "proved: the last word on every tag for stacks that leave the mark of non-final nodes alone and whose @tag_outputs avoid three names; exactly what is accepted; reserved namespaces without @tag_outputs; ray options; schemas without separators in names. Refuted: @tag_outputs is not validated and overwrites reserved tags (C80_outputs_refuted), loses tags named like arguments of @tag or fails on self (C80_swallowed_refuted), can hide a final node from outer decorators (C80_mark_refuted); unhashable values are a TypeError (C80_unhashable_refuted); @schema.output only works innermost (C80_schema_order_refuted); two schemas with one tag (C80_schema_refuted); any cache behaviour is accepted (C80_behavior_refuted)."
  },
  {
   "property": "C81",
   "status": "partial",
   "theorems": [
    "C81_otel_safe",
    "C81_otel_partial",
    "C81_runs_partial",
    "C81_ddog",
    "C81_ddog_empty",
    "C81_threads_refuted",
    "C81_hook_refuted",
    "C81_falsy_refuted"
   ],
   "note": "proved: all programs and schedules for OpenTelemetry when tasks stay in the context of their run; all streams of hooks for Datadog. Refuted for OpenTelemetry: tasks in threads are not under their run (C81_threads_refuted); if another adapter fails before a node the run's span is never ended and later runs appear under it (C81_hook_refuted); an exception that counts as false is reported as success (C81_falsy_refuted)."
  },
  {
   "property": "C82",
   "status": "partial",
   "theorems": [
    "C82_labels_partial",
    "C82_marks_partial",
    "C82_arrows",
    "C82_no_other_arrows",
    "C82_inputs_partial",
    "C82_sharing_partial",
    "C82_nothing_else",
    "C82_legend_partial",
    "C82_execution_partial",
    "C82_path_partial",
    "C82_names_refuted",
    "C82_requested_refuted",
    "C82_hidden_refuted",
    "C82_overridden_refuted"
   ],
   "note": "Labels, marks, tables and their sharing are proved when no two things in the picture have the same name (C82_names_refuted shows why that is needed); arrows and that nothing else is shown without it. visualize_execution does not show requested inputs, and shows arrows into overridden nodes (refuted)."
  },
  {
   "property": "C83",
   "status": "partial",
   "theorems": [
    "C83_flag",
    "C83_unreadable_refuted",
    "C83_disabled",
    "C83_off",
    "C83_at_most_ten_partial",
    "C83_only",
    "C83_first_calls",
    "C83_dataflows_refuted",
    "C83_races_refuted",
    "C83_start_partial",
    "C83_end_partial",
    "C83_traceback_refuted",
    "C83_executor_refuted",
    "C83_own_frames",
    "C83_last_five",
    "C83_decorators",
    "C83_start_counts",
    "C83_start_names",
    "C83_download",
    "C83_failures_refuted",
    "C83_inputs_refuted",
    "C83_end_counts",
    "C83_same_result",
    "C83_tracked_partial",
    "C83_imports_partial",
    "C83_tracked_refuted",
    "C83_imports_refuted",
    "C83_captures"
   ],
   "note": "Proved for all schedules: nothing after disabling, at most ten events from what asks first, only events that were asked for, the first calls of a lone thread; the flag; sameness of events of programs alike but for what is the user's. Missing because false: dataflows and contributed imports (raise when disabled, send without limit), counters that race when the increment is not atomic, user code near a directory called hamilton, names of custom executors, unreadable values of the flag."
  },
  {
   "property": "C84",
   "status": "partial",
   "theorems": [
    "C84_latest",
    "C84_no_commit",
    "C84_latest_failed",
    "C84_cut_refuted",
    "C84_pulled",
    "C84_elsewhere",
    "C84_no_overwrite",
    "C84_closed",
    "C84_imported",
    "C84_name_refuted",
    "C84_list_partial",
    "C84_list_pulled",
    "C84_find",
    "C84_requirements_partial",
    "C84_copied",
    "C84_copy_keeps",
    "C84_cleared",
    "C84_branch_partial",
    "C84_branch_refuted",
    "C84_requirements_refuted",
    "C84_retry_refuted",
    "C84_official_refuted",
    "C84_default_refuted"
   ],
   "note": "Proved: versions, contents after a pull, what stays as it was, imports, copies, clearing, listing and finding of users' dataflows and how pulls change it, requirements without versions, one branch. Missing because false: retries after a failed pull, listing when official dataflows are there or by default, requirements with versions, several branches, dataflows called like loaded modules."
  },
  {
   "property": "C85",
   "status": "partial",
   "theorems": [
    "C85_converted_partial",
    "C85_refused",
    "C85_order",
    "C85_together",
    "C85_function_partial",
    "C85_other_variant_partial",
    "C85_own_functions",
    "C85_empty_refuted",
    "C85_stale_refuted",
    "C85_half_refuted",
    "C85_submodule_refuted",
    "C85_callable_refuted"
   ],
   "note": "Proved: names in order, all refusals reported sorted, independence of order, functions of the driver's modules under any later builds, variants that were not chosen when no other driver was built. Missing because false: empty names, variants after other drivers were built or with several decorators, functions of modules whose names contain the driver's, callables without names."
  },
  {
   "property": "C86",
   "status": "partial",
   "theorems": [
    "C86_disabled",
    "C86_enabled_partial",
    "C86_again",
    "C86_kept_off",
    "C86_back_on",
    "C86_switch",
    "C86_reenabled",
    "C86_column_type_partial",
    "C86_dataframe_types",
    "C86_column_types_partial",
    "C86_no_columns_refuted",
    "C86_broken_refuted",
    "C86_enable_refuted",
    "C86_same_process_refuted",
    "C86_environment_refuted",
    "C86_words_refuted",
    "C86_late_refuted"
   ],
   "note": "Proved: loading when disabled and when enabled with any packages missing, idempotence, switching off and on per process and in the file, types registered, column types where there are columns. Missing because false: dataframe types without columns, packages that fail otherwise, enable_autoload when not disabled, enabling in the file for the same process, overriding the file by the environment."
  },
  {
   "property": "C87",
   "status": "partial",
   "theorems": [
    "C87_accepted",
    "C87_parts",
    "C87_when_partial",
    "C87_later",
    "C87_warns_first",
    "C87_message",
    "C87_function",
    "C87_default",
    "C87_class_partial",
    "C87_defined",
    "C87_starting_refuted",
    "C87_unwarned_refuted",
    "C87_twice_refuted"
   ],
   "note": "Proved: which deprecations are accepted, order of versions, monotonicity, warnings before failures, messages, calls of functions with any decorators and of classes each decorated at most once. Missing because false: that it starts at the version given rather than after it, that some version warns, classes decorated twice."
  },
  {
   "property": "C88",
   "status": "partial",
   "theorems": [
    "C88_filter",
    "C88_constructor",
    "C88_println_partial",
    "C88_lines",
    "C88_display_partial",
    "C88_first_run",
    "C88_bar",
    "C88_full_partial",
    "C88_announced",
    "C88_tasks_refuted",
    "C88_narrow_refuted",
    "C88_second_run_refuted",
    "C88_failed_refuted",
    "C88_overridden_refuted",
    "C88_nothing_refuted"
   ],
   "note": "Proved: filters, lines of PrintLn outside of tasks, what the bar counts, widths from three on, what is announced and executed, full bars without overrides. Missing because false: PrintLn in task-based runs (KeyError), full bars with overridden functions, runs with nothing to execute, failed runs, narrow widths, names in second runs."
  },
  {
   "property": "C89",
   "status": "partial",
   "theorems": [
    "C89_order",
    "C89_execute",
    "C89_start",
    "C89_verdict_partial",
    "C89_materialize",
    "C89_quiet",
    "C89_failed",
    "C89_saved_file",
    "C89_loaded_file_partial",
    "C89_table",
    "C89_query",
    "C89_metadata",
    "C89_schema",
    "C89_file_refuted",
    "C89_format_refuted",
    "C89_select_refuted",
    "C89_series_refuted",
    "C89_source_refuted",
    "C89_client_refuted",
    "C89_interrupt_refuted",
    "C89_falsy_refuted",
    "C89_started_refuted",
    "C89_unbound_refuted"
   ],
   "note": "Proved: order and identity of events whatever client and nodes do, events of nodes, start, end for exceptions Python takes for true, saved files, tables, queries in capitals, schemas, that runs come to the same where metadata is complete. Missing because false: files as one dataset, formats of loaded files, queries in small letters, interrupted runs, metadata of series, unreadable sources, failing clients, starts and errors of materialize."
  },
  {
   "property": "C90",
   "status": "partial",
   "theorems": [
    "C90_name",
    "C90_where",
    "C90_first_run_partial",
    "C90_others",
    "C90_no_inputs",
    "C90_second_run_refuted",
    "C90_kept_refuted",
    "C90_directory_refuted",
    "C90_unsaid_refuted",
    "C90_inputs_refuted",
    "C90_delete_refuted"
   ],
   "note": "Proved: names, where nodes are executed whatever happens, the record, result and directory of first runs with inputs and savers that say where they saved, other trackers' records. Missing because false: second runs, records of earlier runs, directories and errors after savers failed, savers that do not say where, runs without inputs, deletion."
  },
  {
   "property": "C91",
   "status": "partial",
   "theorems": [
    "C91_run_partial",
    "C91_others",
    "C91_no_inputs",
    "C91_active",
    "C91_stuck",
    "C91_status_refuted",
    "C91_inputs_refuted",
    "C91_existing_refuted",
    "C91_text_refuted",
    "C91_pickle_refuted",
    "C91_exception_refuted",
    "C91_none_refuted",
    "C91_param_refuted",
    "C91_figure_refuted"
   ],
   "note": "Proved: one run is added and others are unchanged whatever happens; identifier, version, parameters, what is logged in order, the outcome and that no run stays active, where inputs agree with the configuration and what is asked for can be logged; that executions without inputs and all after them fail. Missing because false: the status, executions without inputs, run_id, strings and dictionaries, failed nodes asked for, values that cannot be pickled, equal names, figures of savers with several dependencies."
  },
  {
   "property": "C92",
   "status": "partial",
   "theorems": [
    "C92_nodes_partial",
    "C92_missing",
    "C92_values_partial",
    "C92_prefix",
    "C92_depth",
    "C92_twice_refuted",
    "C92_function_refuted",
    "C92_keys_refuted",
    "C92_key_refuted",
    "C92_single_refuted",
    "C92_same_input_refuted",
    "C92_default_refuted",
    "C92_named_refuted",
    "C92_clash_refuted",
    "C92_annotation_refuted"
   ],
   "note": "Proved: for pipelines of any size where every parameter has an input of its own, several outputs come from functions annotated as Tuple or as Dict with the datasets' names, and names do not clash: they are converted, the nodes are those of the datasets, and each dataset has Kedro's value. Missing because false: converting twice, functions used twice, keys, lists of one, shared inputs, defaults, inputs by name behind defaults, parameters named like datasets, other annotations."
  },
  {
   "property": "C93",
   "status": "partial",
   "theorems": [
    "C93_temporary",
    "C93_refused",
    "C93_found",
    "C93_call_partial",
    "C93_given",
    "C93_source",
    "C93_syntax",
    "C93_file",
    "C93_keyword_refuted",
    "C93_annotations_refuted",
    "C93_failed_refuted",
    "C93_replaced_refuted",
    "C93_left_refuted"
   ],
   "note": "Proved: exactly when temporary modules are made, what they contain, that all functions are found, that copies do what functions do without defaults of keyword-only parameters or with all arguments given, modules of source that runs or does not compile, files. Missing because false: defaults of keyword-only parameters, annotations apart, failing source, modules of the same name, files of failing source."
  },
  {
   "property": "C94",
   "status": "partial",
   "theorems": [
    "C94_json",
    "C94_stable",
    "C94_saved",
    "C94_text",
    "C94_text_again",
    "C94_pickle",
    "C94_others",
    "C94_env",
    "C94_env_missing",
    "C94_tuple_refuted",
    "C94_keys_refuted",
    "C94_text_refuted",
    "C94_failed_refuted"
   ],
   "note": "Proved: a value comes back from JSON exactly if it has no tuples and only strings as keys; values are saved exactly if JSON has a form of all in them; what was loaded is stable; a text comes back exactly if it has no carriage returns; pickled values come back; other files stay; exactly the variables named are loaded. Missing because false: tuples, other keys, carriage returns, files after failed saves. Pickling itself is trusted."
  },
  {
   "property": "C95",
   "status": "partial",
   "theorems": [
    "C95_context",
    "C95_run_partial",
    "C95_quiet_partial",
    "C95_unreadable",
    "C95_once_refuted",
    "C95_compared_refuted",
    "C95_json_refuted",
    "C95_again_refuted"
   ],
   "note": "Proved: what a context is for all files; for a context file that is the same each time it is read and a process that runs one command: which answers are shown, in order, up to the first failure, and that the code is 0 exactly if none fails; that quiet commands show one answer or nothing; unreadable context files. Missing because false: context files that differ between reads, --json-out with values without JSON, several commands in one process."
  },
  {
   "property": "C96",
   "status": "partial",
   "theorems": [
    "C96_store_partial",
    "C96_answer",
    "C96_refused",
    "C96_expired",
    "C96_exists_refuted",
    "C96_deleted_refuted",
    "C96_failed_refuted",
    "C96_loader_refuted",
    "C96_dots_refuted",
    "C96_expire_refuted"
   ],
   "note": "Proved: after any sequence of operations with data versions without dots, savers that succeed with loaders of the same name, and values that are no loaders, get and exists answer as the last operations say, and there is always one such answer; pairs that are refused; that nothing is ever removed as expired. Missing because false: savers' files that are gone, files left after deleting, failing savers, loaders as values, dots, expiry."
  },
  {
   "property": "C97",
   "status": "partial",
   "theorems": [
    "C97_accepted",
    "C97_rows",
    "C97_twice_refuted",
    "C97_errors_refuted"
   ],
   "note": "Proved: for headers whose columns have the same number of levels, exactly which tables are accepted and which error the others raise; for all accepted tables, outputs and bindings of every row, the last column of a parameter counting. Missing because false: that every column is used when two bind the same parameter, and that all errors are InvalidDecoratorException."
  }
 ]
}