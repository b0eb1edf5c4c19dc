{
 "claims": [
  {
   "property": "C01",
   "status": "partial",
   "theorems": [
    "C01_operators_evaluate_as_arithmetic",
    "C01_operators_on_finite_values",
    "C01_operators_with_a_number",
    "C01_number_minus_expression_refuted",
    "C01_number_minus_expression_adds",
    "C01_empty_sum_refuted",
    "C01_evaluation_is_mathematical_value"
   ],
   "note": "Proved for all operators except number-on-the-left subtraction: `v - e` builds `v + e` in the code, refuted by C01_number_minus_expression_refuted and characterised exactly by C01_number_minus_expression_adds. Additions over zero operands (not constructible with operators) fail, C01_empty_sum_refuted."
  },
  {
   "property": "C02",
   "status": "proved",
   "theorems": [
    "C02_copy_evaluates_the_same",
    "C02_copy_of_evaluable_succeeds",
    "C02_copy_succeeds_iff_no_empty_sum",
    "C02_copy_preserves_meaning",
    "C02_copy_idempotent",
    "C02_copy_of_flat_is_identical",
    "C02_copy_of_built_is_identical",
    "C02_copy_equal_to_original_refuted"
   ],
   "note": "Value preservation, idempotence and success are proved. The copy is the same tree exactly on flat expressions; C02_copy_equal_to_original_refuted shows that nested additions are flattened by copying (value preserved). The property only claims identity without nested additions, so it is proved."
  },
  {
   "property": "C03",
   "status": "proved",
   "theorems": [
    "C03_resolved_has_no_parameter",
    "C03_resolution_commutes_with_evaluation",
    "C03_resolution_succeeds_when_evaluable"
   ],
   "note": ""
  },
  {
   "property": "C04",
   "status": "proved",
   "theorems": [
    "C04_equality_is_structural",
    "C04_equality_reflexive",
    "C04_equality_symmetric",
    "C04_equality_total_or_bad_tolerance",
    "C04_reflexivity_with_nan_refuted"
   ],
   "note": "NaN literals are excluded by the statement; C04_reflexivity_with_nan_refuted shows the exclusion is needed."
  },
  {
   "property": "C05",
   "status": "partial",
   "theorems": [
    "C05_constant_is_independent_of_variables",
    "C05_constant_evaluates_independently_of_variables",
    "C05_linear_is_affine",
    "C05_comparison_sides",
    "C05_variable_shift_refuted"
   ],
   "note": "Proved when shifts, timesteps and window bounds contain no decision variable; the degree visitor ignores those positions, C05_variable_shift_refuted."
  },
  {
   "property": "C06",
   "status": "partial",
   "theorems": [
    "C06_indexing_sound",
    "C06_time_dependent_argument_refuted"
   ],
   "note": "Proved when shifts, timesteps and bounds do not depend on time or scenario; otherwise refuted by C06_time_dependent_argument_refuted."
  },
  {
   "property": "C07",
   "status": "proved",
   "theorems": [
    "C07_indexing_is_union_of_operands",
    "C07_indexing_independent_of_operand_order"
   ],
   "note": ""
  },
  {
   "property": "C08",
   "status": "proved",
   "theorems": [
    "C08_context_meaning",
    "C08_context_evaluates_on_own_names",
    "C08_context_binds_only_that_component",
    "C08_context_rejects_bound_names"
   ],
   "note": ""
  },
  {
   "property": "C09",
   "status": "proved",
   "theorems": [
    "C09_port_resolution_meaning",
    "C09_no_port_remains",
    "C09_accepted_iff_unique_definitions",
    "C09_sum_connections_value"
   ],
   "note": ""
  },
  {
   "property": "C10",
   "status": "proved",
   "theorems": [
    "C10_expansion_preserves_meaning",
    "C10_expansion_succeeds",
    "C10_shift_reads_later",
    "C10_window_is_inclusive_sum",
    "C10_whole_horizon_sum",
    "C10_written_operators"
   ],
   "note": "For the fragment named in the statement (arithmetic, shifts, windows, sums), plus evaluations and expectations that are well nested. Whole-horizon sums below shifts need cyclic data (the CYCLE border of C17)."
  },
  {
   "property": "C11",
   "status": "partial",
   "theorems": [
    "C11_eval_reads_fixed_step_partial",
    "C11_shift_of_eval_refuted",
    "C11_shift_moves_eval",
    "C11_nested_eval_rejected"
   ],
   "note": "Proved when x[N] is not below a shift or window. Refuted there: C11_shift_of_eval_refuted; C11_shift_moves_eval shows it always moves; nested evaluations are rejected."
  },
  {
   "property": "C12",
   "status": "partial",
   "theorems": [
    "C12_expectation_is_mean_partial",
    "C12_zero_scenarios_no_value",
    "C12_nested_expectation_refuted",
    "C12_variance_rejected"
   ],
   "note": "Proved for operands without another scenario operator; refuted for nested expectations (C12_nested_expectation_refuted)."
  },
  {
   "property": "C13",
   "status": "proved",
   "theorems": [
    "C13_expanded_has_no_operator",
    "C13_no_operator_whatever_input"
   ],
   "note": ""
  },
  {
   "property": "C14",
   "status": "proved",
   "theorems": [
    "C14_linear_form_has_value_of_expression"
   ],
   "note": "Exact equality on rationals after adding back the dropped terms, which are the same for all assignments."
  },
  {
   "property": "C15",
   "status": "proved",
   "theorems": [
    "C15_normal_form"
   ],
   "note": ""
  },
  {
   "property": "C16",
   "status": "proved",
   "theorems": [
    "C16_product_of_variables_rejected",
    "C16_division_by_variables_rejected",
    "C16_linear_accepted",
    "C16_accepted_is_linear",
    "C16_constant_has_no_terms"
   ],
   "note": "Equivalence between degree <= 1 and success, up to ZeroDivisionError and missing data."
  },
  {
   "property": "C17",
   "status": "proved",
   "theorems": [
    "C17_variable_cyclic",
    "C17_parameter_cyclic",
    "C17_parameter_in_block",
    "C17_variable_in_block"
   ],
   "note": ""
  },
  {
   "property": "C18",
   "status": "proved",
   "theorems": [
    "C18_comparison_constraint",
    "C18_comparison_accepted",
    "C18_bounds_constraint"
   ],
   "note": ""
  },
  {
   "property": "C19",
   "status": "proved",
   "theorems": [
    "C19_row_means_bounds",
    "C19_row_made"
   ],
   "note": "Constant of the form finite; infinite or NaN constants are not claimed."
  },
  {
   "property": "C20",
   "status": "partial",
   "theorems": [
    "C20_rows_of_expressions",
    "C20_rows_partial",
    "C20_refuted"
   ],
   "note": "One row per timestep and scenario on which the expression depends, without condition (C20_rows_of_expressions); so one per timestep and scenario on which the constraint depends when its bounds depend on nothing on which the expression does not. C20_refuted shows that a bound that varies in time with a constant expression gets one row (`_compute_indexing` only looks at the expression)."
  },
  {
   "property": "C21",
   "status": "proved",
   "theorems": [
    "C21_objective_adds_forms",
    "C21_objective_is_sum"
   ],
   "note": "C21_objective_adds_forms for every network; C21_objective_is_sum against the denotational meaning, up to the coefficients below 1e-16 that the code drops, no more of them than the objectives mention decisions."
  },
  {
   "property": "C22",
   "status": "partial",
   "theorems": [
    "C22_variable_reads_partial",
    "C22_refuted"
   ],
   "note": "Proved when no node and component share an id; C22_refuted otherwise."
  },
  {
   "property": "C23",
   "status": "partial",
   "theorems": [
    "C23_columns_partial",
    "C23_refuted"
   ],
   "note": "Proved for full names when no id (or name) is another one followed by an underscore and more; C23_refuted shows a collision with wrong columns."
  },
  {
   "property": "C24",
   "status": "partial",
   "theorems": [
    "C24_bounds_partial",
    "C24_refuted"
   ],
   "note": "Proved for finite data and literals other than NaN; C24_refuted: a NaN bound passes the check."
  },
  {
   "property": "C25",
   "status": "proved",
   "theorems": [
    "C25_merged_selects_everything",
    "C25_every_variable_selected",
    "C25_every_constraint_selected",
    "C25_only_items_of_the_model",
    "C25_objectives_are_shared_out",
    "C25_risk_scales_the_objective"
   ],
   "note": ""
  },
  {
   "property": "C26",
   "status": "proved",
   "theorems": [
    "C26_models_are_well_named",
    "C26_accepted_exactly_when_compatible",
    "C26_master_is_the_definer",
    "C26_swapping_ports"
   ],
   "note": "For models made by model(...), shown to satisfy the naming hypothesis."
  },
  {
   "property": "C27",
   "status": "proved",
   "theorems": [
    "C27_fields_registered",
    "C27_registration_succeeds"
   ],
   "note": ""
  },
  {
   "property": "C28",
   "status": "partial",
   "theorems": [
    "C28_constant",
    "C28_time_series",
    "C28_scenario_series",
    "C28_series_lookup",
    "C28_scenarization",
    "C28_time_scenario_partial",
    "C28_time_scenario_any",
    "C28_missing_index",
    "C28_negative_index_refuted",
    "C28_tree"
   ],
   "note": "Proved for constant, time, scenario and tree data, and for time-scenario data with non-negative indices; time-scenario data wraps negative indices (C28_negative_index_refuted, C28_time_scenario_any says exactly which cell any index reads)."
  },
  {
   "property": "C29",
   "status": "partial",
   "theorems": [
    "C29_consistency_guarantees_data_partial",
    "C29_nodes_not_checked_refuted",
    "C29_check_exact"
   ],
   "note": "The check accepts exactly when every parameter of every entry of network.components has data that suits its declared dependence (C29_check_exact); nodes are not visited by the check (C29_nodes_not_checked_refuted)."
  },
  {
   "property": "C30",
   "status": "partial",
   "theorems": [
    "C30_builder_map",
    "C30_builder_accepted_iff",
    "C30_reads_mapped_column_partial",
    "C30_unmapped_is_error_partial",
    "C30_group_leak_refuted",
    "C30_nodes_ignored_refuted"
   ],
   "note": "Builder rows: proved. Reading: proved for a parameter with its own group, or when no earlier parameter of the component has one. C30_group_leak_refuted: the group of a parameter stays in force for the parameters after it; C30_nodes_ignored_refuted: nodes get no data."
  },
  {
   "property": "C31",
   "status": "proved",
   "theorems": [
    "C31_database_is_a_map",
    "C31_values_are_read_from_the_data"
   ],
   "note": ""
  },
  {
   "property": "C32",
   "status": "partial",
   "theorems": [
    "C32_terminates",
    "C32_one_library_per_input",
    "C32_dependencies_first",
    "C32_cycle_refused",
    "C32_missing_refused",
    "C32_failures",
    "C32_acyclic_loads",
    "C32_order_irrelevant",
    "C32_order_matters_refuted",
    "C32_preloaded_dependency_refuted",
    "C32_duplicate_id_refuted"
   ],
   "note": "Termination, one library per file, dependencies first, refusal of cycles and missing libraries and the exact list of failures, for every order in which python may go through its sets. C32_order_matters_refuted: two dependencies declaring the same port type clash silently and the order of a set decides; C32_preloaded_dependency_refuted; C32_duplicate_id_refuted."
  },
  {
   "property": "C33",
   "status": "proved",
   "theorems": [
    "C33_ports_have_known_types",
    "C33_names_are_declared",
    "C33_unknown_type_refused",
    "C33_undeclared_name_refused"
   ],
   "note": "Files with distinct library ids. Port types, names in every text, and both refusals."
  },
  {
   "property": "C34",
   "status": "partial",
   "theorems": [
    "C34_network_is_the_file",
    "C34_accepted_iff",
    "C34_unknown_refused",
    "C34_network_is_built",
    "C34_consistency_check",
    "C34_duplicate_id_refuted",
    "C34_shared_id_refuted"
   ],
   "note": "Proved for files with distinct ids (unknown ids and models are refused in every file). C34_duplicate_id_refuted and C34_shared_id_refuted: ids given twice are accepted and lose or confuse components."
  },
  {
   "property": "C35",
   "status": "proved",
   "theorems": [
    "C35_replica_is_equal",
    "C35_edits_do_not_leak",
    "C35_edits_act"
   ],
   "note": "Networks as mutable objects with separate containers; all sequences of calls."
  },
  {
   "property": "C36",
   "status": "partial",
   "theorems": [
    "C36_read_back_partial",
    "C36_single_step",
    "C36_frame",
    "C36_one_value",
    "C36_list_of_one_refuted",
    "C36_ragged_refuted",
    "C36_history_refuted",
    "C36_reading_refuted"
   ],
   "note": "Proved for numbers, lists of numbers of length other than one and tables of equal rows of length other than one. Lists of one number, ragged tables and what the variable held before: four _refuted theorems."
  },
  {
   "property": "C37",
   "status": "partial",
   "theorems": [
    "C37_equal_means",
    "C37_close_means",
    "C37_symmetric",
    "C37_reflexive",
    "C37_ignored_component",
    "C37_ignored_variable",
    "C37_transitive_refuted",
    "C37_nan_refuted"
   ],
   "note": "Symmetry, the exact meaning of both comparisons and ignored parts are proved for all outputs. Reflexivity for values other than NaN (C37_nan_refuted). Not claimed but refuted: transitivity."
  },
  {
   "property": "C38",
   "status": "proved",
   "theorems": [
    "C38_product",
    "C38_refused",
    "C38_set",
    "C38_check_exact",
    "C38_leaves_sum",
    "C38_exact",
    "C38_refused_node_stays_refuted",
    "C38_nan_refuted",
    "C38_children_argument_refuted"
   ],
   "note": "Products of probabilities, refusal of probabilities outside [0,1], what the check answers (exactly, within the tolerance of math.isclose at each node) and the resulting sum of the leaves. C38_leaves_sum and C38_product hold for every sequence of constructor calls. Outside the statement: a refused node stays attached and makes the check raise (C38_refused_node_stays_refuted), NaN is accepted (C38_nan_refuted), nodes passed through `children=` are not rescaled (C38_children_argument_refuted)."
  },
  {
   "property": "C39",
   "status": "partial",
   "theorems": [
    "C39_structure",
    "C39_any",
    "C39_without_subproblems",
    "C39_time_dependent_refuted",
    "C39_long_names_refuted",
    "C39_same_names_refuted"
   ],
   "note": "Proved for every decomposition built from a tree whose nodes, components and blocks have distinct names that can be told apart: read line by line, the file has exactly the variables of the master and the variables of each subproblem that are in the master, with their columns. Refuted: names of fifty characters or more run together, two subproblems can get the same name and only one is then in the file, and a candidate that depends on time has another name in its subproblem so that nothing links it to the master."
  },
  {
   "property": "C40",
   "status": "partial",
   "theorems": [
    "C40_accepts",
    "C40_sound",
    "C40_variables",
    "C40_feasible_partial",
    "C40_feasible",
    "C40_cost_partial",
    "C40_offset",
    "C40_single",
    "C40_integer_refuted",
    "C40_offset_refuted",
    "C40_empty_row_refuted",
    "C40_shared_name_refuted",
    "C40_two_variables_refuted",
    "C40_single_master_refuted"
   ],
   "note": "For several masters with variables and rows of distinct names: variables, feasible values and costs of the merged problem are those of the coupler and all masters. Lost, and refuted: integrality of variables only in masters, constants of the objectives, rows without terms, bounds when masters share a name, the coupling rows when there is one master."
  },
  {
   "property": "C41",
   "status": "proved",
   "theorems": [
    "C41_sum_pointwise",
    "C41_difference_pointwise",
    "C41_opposite_pointwise",
    "C41_product_pointwise",
    "C41_quotient_pointwise",
    "C41_errors",
    "C41_equality"
   ],
   "note": "For products and quotients the constant factor itself may be rounded to 0 or 1 when within 1e-16."
  },
  {
   "property": "C42",
   "status": "partial",
   "theorems": [
    "C42_operands_unchanged_partial",
    "C42_history_keeps_values_partial",
    "C42_operators_compute_values",
    "C42_constant_times_expression_refuted",
    "C42_one_times_expression_shares_refuted"
   ],
   "note": "Proved for all histories in which no multiplication has a non-zero constant on the left; for those the code mutates or shares the right operand (two _refuted theorems). C42_operators_compute_values gives the value of every operator's result, products included, and what changes in the right operand."
  },
  {
   "property": "C43",
   "status": "partial",
   "theorems": [
    "C43_least_power",
    "C43_units_max",
    "C43_units_min",
    "C43_units_unique",
    "C43_min_below_max",
    "C43_variations_partial",
    "C43_previous_hour",
    "C43_first_hour_refuted",
    "C43_default_period",
    "C43_default_period_refuted",
    "C43_no_capacity_refuted",
    "C43_one_column_refuted",
    "C43_parameter",
    "C43_files",
    "C43_unknown"
   ],
   "note": "Proved for every cluster with finite data and positive capacity: least power, least covering numbers of units, minimum below maximum, variations, previous hours, files and references. Refuted: the first hour is compared with itself instead of the last hour of its period; without a period every hour is compared with the first; capacity 0 gives NaN; the files of the least power and minimum number of units have one column although declared to depend on the scenario."
  },
  {
   "property": "C44",
   "status": "partial",
   "theorems": [
    "C44_text_means_what_is_written_partial",
    "C44_comparison_partial",
    "C44_now",
    "C44_one_reading",
    "C44_division_refuted",
    "C44_parenthesis_refuted"
   ],
   "note": "Proved for every text except brackets after a parenthesis and shifts whose first term divides and goes on. C44_division_refuted: x[t+8/2/2] is read as x[t+8]; C44_parenthesis_refuted: (x)[t+1] is accepted and gives None. Decimal numbers are exact."
  },
  {
   "property": "C45",
   "status": "partial",
   "theorems": [
    "C45_constraints",
    "C45_each_row",
    "C45_rows_cover_partial",
    "C45_constraints_partial",
    "C45_instances_cover",
    "C45_decisions_represented",
    "C45_objective",
    "C45_refuted"
   ],
   "note": "Constraints: each row is its constraint at the timesteps and scenarios for which it stands (C45_each_row, C45_constraints), and these are all of them when its bounds depend on nothing on which the expression does not (otherwise C45_refuted), up to coefficients below 1e-16 dropped by the code, no more of them than the expression mentions decisions. Objective, representation of decisions and coverage of timesteps and scenarios are proved. `good_problem` lists the conditions on expressions (finite numbers, no comparison left, well nested operators)."
  },
  {
   "property": "C46",
   "status": "proved",
   "theorems": [
    "C46_reads_the_file",
    "C46_accepted_iff",
    "C46_absent_is_error"
   ],
   "note": "For files where no parameter of a component is given twice, non-negative timesteps and scenarios. Reading the text file into rows is not modelled."
  },
  {
   "property": "C47",
   "status": "proved",
   "theorems": [
    "C47_tokens",
    "C47_accepted",
    "C47_undeclared_refused",
    "C47_variable_first",
    "C47_failures"
   ],
   "note": "Texts with a character that starts no token are outside the model (the ANTLR runtime drops the character; the model refuses)."
  },
  {
   "property": "C48",
   "status": "partial",
   "theorems": [
    "C48_model_means_its_file_partial",
    "C48_duplicate_entries_refuted"
   ],
   "note": "Proved for entries with distinct ids and texts that C44 covers. C48_duplicate_entries_refuted: of two constraints with the same id one is dropped silently."
  },
  {
   "property": "C49",
   "status": "partial",
   "theorems": [
    "C49_definitions_on_ports_partial",
    "C49_unknown_port_refuted"
   ],
   "note": "Proved for definitions. C49_unknown_port_refuted: a constraint may use a port the model does not have and loads."
  },
  {
   "property": "C50",
   "status": "partial",
   "theorems": [
    "C50_built_from_terms_partial",
    "C50_built_exactly",
    "C50_same_key_refuted"
   ],
   "note": "The value is proved for terms with distinct keys; in general the coefficients are stated exactly (C50_built_exactly): of several terms of a list with the same key only the last that is not below 1e-16 counts, so the value is not the sum (C50_same_key_refuted)."
  },
  {
   "property": "C51",
   "status": "proved",
   "theorems": [
    "C51_values_of_solution",
    "C51_nothing_else"
   ],
   "note": "Networks with distinct ids. The solution is an arbitrary function of the solver variables: solving is not modelled."
  },
  {
   "property": "C52",
   "status": "proved",
   "theorems": [
    "C52_equal_means",
    "C52_close_means",
    "C52_symmetric"
   ],
   "note": ""
  },
  {
   "property": "C53",
   "status": "proved",
   "theorems": [
    "C53_levels",
    "C53_once",
    "C53_visited"
   ],
   "note": "anytree's LevelOrderIter is modelled from its documented behaviour."
  },
  {
   "property": "C54",
   "status": "partial",
   "theorems": [
    "C54_equal_partial",
    "C54_made_is_proper",
    "C54_symmetric",
    "C54_reflexive",
    "C54_contents_refuted",
    "C54_context_refuted",
    "C54_raises_refuted"
   ],
   "note": "Equality holds exactly when everything agrees except contexts and the contents of objectives and port definitions; symmetric, and reflexive without literal NaN. The full claim is false: contents and contexts are not compared, and comparing present with absent objectives raises (three refutations)."
  },
  {
   "property": "C55",
   "status": "partial",
   "theorems": [
    "C55_objectives_affine",
    "C55_objectives_real_partial",
    "C55_accepted",
    "C55_same_port_refused",
    "C55_definitions",
    "C55_variable_bounds",
    "C55_variable_accepted",
    "C55_port_definition_partial",
    "C55_port_definition_refused",
    "C55_port_in_shift_refuted"
   ],
   "note": "Objectives, bounds, ports and definitions checked as claimed, and valid models accepted as given. Arguments of time operators are not checked: objectives_real and the port definition theorem exclude them, and a definition with a port in a shift is accepted (refuted)."
  },
  {
   "property": "C56",
   "status": "partial",
   "theorems": [
    "C56_accepted_calls",
    "C56_enforced",
    "C56_master",
    "C56_single",
    "C56_subproblems",
    "C56_builds",
    "C56_shared_info_refuted",
    "C56_single_node_refuted",
    "C56_unnamed_node_refuted",
    "C56_scenario_variable_refuted"
   ],
   "note": "For trees of several nodes whose names can be told apart: acceptance, meaning of the master (constraints asked for, bounds, rows, costs, variables), meaning of the subproblems. Rows without terms of the investment problems and integrality are lost (C40). Refuted: constraints of one tree leak into another through the default CouplingInfo; a tree of one node ignores its constraint; a node without an id is constrained on variables that are not its own; variables that depend on the scenario are accepted but lose their bounds."
  },
  {
   "property": "C57",
   "status": "partial",
   "theorems": [
    "C57_read_back_partial",
    "C57_inequality_partial",
    "C57_distinct_partial",
    "C57_integers",
    "C57_equation_refuted",
    "C57_expectation_refuted",
    "C57_time_refuted",
    "C57_empty_sum_refuted"
   ],
   "note": "Proved for arithmetic on numbers, names and port fields, with literals shown as decimal numerals (integers are; the text of floats is a parameter of the theorem). Refuted: equations are printed with a sign the parser does not know, an expectation is printed and read back as a port field, time operators and sums over connections are not printed in the language of the parser, an empty sum prints nothing."
  },
  {
   "property": "C58",
   "status": "partial",
   "theorems": [
    "C58_rows_partial",
    "C58_objective_partial",
    "C58_decisions_partial",
    "C58_variables_partial",
    "C58_library_ids",
    "C58_check_is_idle",
    "C58_needs_models",
    "C58_needs_files",
    "C58_needs_parameters_partial"
   ],
   "note": "From parsed library, system and data files to the built problem, for good_study: plain texts (C44), distinct ids and names, finite data. Rows, objective, variables and decisions are stated on the texts and the files only. Partial because of terms below 1e-16 that the code drops (no more than the text mentions decisions), bounds that depend on more than their expression (whose row is then that of the first timestep or scenario), and the texts outside the plain part; each of these has a _refuted theorem under C20, C44, C45. C58_needs_* give what a run needs of its files."
  },
  {
   "property": "C59",
   "status": "partial",
   "theorems": [
    "C59_rows_partial",
    "C59_cost_partial",
    "C59_decisions_partial",
    "C59_dispatch_refuted",
    "C59_collision_refuted",
    "C59_variables_partial"
   ],
   "note": "Rows, cost, variables and decisions of the study built from the converter's output, stated on the network's tables and series only (SpecPypsa.v), for all good_network. Refuted: dispatch of a storage unit of chosen capacity is not limited by that capacity (the row named after dispatch limits storing, which uses p_max_pu instead of p_min_pu); a link that bears the name of a bus gives a study that cannot be run. Partial also because of dropped terms below 1e-16, at most constraint_size or cost_size of them."
  },
  {
   "property": "C60",
   "status": "partial",
   "theorems": [
    "C60_unsupported_refused",
    "C60_supported_accepted",
    "C60_inactive_refuted"
   ],
   "note": "Both directions proved; refuted for inactive storage units and stores, because the checks named after them look at the links."
  },
  {
   "property": "C61",
   "status": "partial",
   "theorems": [
    "C61_kept_partial",
    "C61_refuted"
   ],
   "note": "Refuted: the conversion renames components and overwrites costs in the caller's object. Proved: what is kept, under the new names."
  },
  {
   "property": "C62",
   "status": "partial",
   "theorems": [
    "C62_study",
    "C62_clusters",
    "C62_links",
    "C62_cluster_files",
    "C62_other_files",
    "C62_accepted",
    "C62_connections_refuted",
    "C62_distinct_refuted",
    "C62_production_refuted"
   ],
   "note": "The converted study is stated object by object on the Antares study (SpecAntares.v) for all well-named studies; acceptance proved. Refuted: what the reserve holds besides batteries is connected to a missing component; wind and solar production is connected under a name that no component has; the loads of all areas share one id."
  },
  {
   "property": "C63",
   "status": "partial",
   "theorems": [
    "C63_history",
    "C63_every_battery_partial",
    "C63_first_batteries",
    "C63_every_battery_refuted",
    "C63_injection"
   ],
   "note": "Independence of earlier conversions and all values proved. Refuted: the first area without battery ends the loop, so that later areas lose theirs although the objects that stood for it have been removed. C63_first_batteries says exactly which areas get one."
  },
  {
   "property": "C64",
   "status": "partial",
   "theorems": [
    "C64_productions",
    "C64_renewables",
    "C64_scenarios",
    "C64_loads_refuted"
   ],
   "note": "Refuted for two loads: both components are called load, the run is accepted and one area is balanced against the load of the other. Proved, against the claim: wind, solar (unknown model) and, with distinct ids, renewable clusters (parameter nominal_capacity not given) are always refused, and a study with a thermal cluster runs in one scenario only (the series of the least power has one column)."
  },
  {
   "property": "C65",
   "status": "partial",
   "theorems": [
    "C65_rows_partial",
    "C65_cost_partial",
    "C65_decisions_partial",
    "C65_variables_partial"
   ],
   "note": "Rows, cost, variables and decisions of the study built from the converter's output, stated on the Antares study and the data directory only (SpecAntares.v), for all good_antares. Partial because of dropped terms below 1e-16 (at most row_size or study_cost_size of them) and of distinct ids, which exclude several loads (C64_loads_refuted)."
  },
  {
   "property": "C66",
   "status": "partial",
   "theorems": [
    "C66_ready_problems_built",
    "C66_ready_problems_faithful"
   ],
   "note": "C66_ready_problems_built is proved for every good_problem (C45) that is ready_problem (SpecReady.v); partial: nested fixed timesteps, ports under a fixed timestep, and decisions in the arguments of operators are outside ready_problem, and the faithful part leaves out terms below 1e-16 as C45."
  },
  {
   "property": "C67",
   "status": "proved",
   "theorems": [
    "C67_runs",
    "C67_connections_needed"
   ],
   "note": "C67_runs: the conditions (SpecRun.ready_study with SpecMain.good_study) are read from the files alone; they are sufficient, not necessary. The solver itself is not modelled. C67_connections_needed: the condition on connections is also necessary, whatever the files."
  },
  {
   "property": "C68",
   "status": "proved",
   "theorems": [
    "C68_network_exactly",
    "C68_network_commands",
    "C68_study_exactly"
   ],
   "note": "Equivalences between running and conditions on the tables of the network (SpecConvert.consistent_network, SpecPypsa.supported) or on the study and its files (SpecAntaresRun.consistent_study), for networks and studies meeting good_network and good_antares. The solver itself is not modelled."
  },
  {
   "property": "C69",
   "status": "partial",
   "theorems": [
    "C69_run_partial",
    "C69_solution_partial",
    "C69_not_run_refuted",
    "C69_merged_refuted",
    "C69_directory_refuted"
   ],
   "note": "Proved for every run that returns: the files given to the command and the entries of the options, the command, its directory and its return code, the directory given back, and the solution read. Refuted: without the command the run returns True and may read the solution of an earlier run; after a merge every solution is read as that of a merge; a command that cannot be started leaves the working directory changed. The commands, json and the writers of OR-tools are parameters of the model."
  },
  {
   "property": "C70",
   "status": "partial",
   "theorems": [
    "C70_parts",
    "C70_builds",
    "C70_wholes",
    "C70_feasible",
    "C70_cost",
    "C70_blocks",
    "C70_optimum",
    "C70_files",
    "C70_single",
    "C70_scenario_constraint_refuted",
    "C70_time_constraint_refuted"
   ],
   "note": "Proved for one problem (C70_parts, C70_builds), for trees of several nodes (C70_feasible, C70_cost, C70_optimum, C70_blocks, and C70_files in terms of the columns and the structure file) and of one node (C70_single), when the variables, constraints and costs of investment contain only numbers, variables and parameters that depend neither on time nor on the scenario, and arithmetic. With several blocks the sum of the whole problems counts investments once per block (C70_blocks). Rows without variables are left out by the merge (C40), hence rows_with_terms; integrality of variables and constants of the objective of a master are left out. Refuted otherwise: an investment constraint that depends on the scenario is in no problem, one that depends on time is enforced at timestep 0 only."
  },
  {
   "property": "C71",
   "status": "proved",
   "theorems": [
    "C71_order",
    "C71_builds",
    "C71_meaning",
    "C71_files",
    "C71_duplicate_refuted"
   ],
   "note": "Blocks are not empty and wrap around (usable_block), models were made by model() and port_field_def() (sound_network, which every run from files meets: run_sound). Entries stay nodes or components. C71_duplicate_refuted: with repeated ids the order does matter, the last entry counts."
  },
  {
   "property": "C72",
   "status": "proved",
   "theorems": [
    "C72_library",
    "C72_system",
    "C72_everything_can_be_written",
    "C72_key_order",
    "C72_refusals",
    "C72_number_bound",
    "C72_constraint_number_refuted",
    "C72_ignored_refuted"
   ],
   "note": "The model starts from what yaml.safe_load returns and models the validation of pydantic for the types of these classes; dates and keys that are not text are left out. The code refuses more than a user may expect, and says less: C72_constraint_number_refuted (a number is accepted as bound of a variable but not of a constraint; a key of a model with nothing behind it is refused, though the one of a component is accepted), C72_ignored_refuted (keys beside library/system are ignored without a word)."
  },
  {
   "property": "C73",
   "status": "proved",
   "theorems": [
    "C73_read_back",
    "C73_antares",
    "C73_pypsa"
   ],
   "note": "From objects to the content given to yaml.dump and from what yaml.safe_load returns to objects: that the two YAML functions are inverse to each other is trusted. convert_antares and convert_pypsa are those of C59-C62."
  },
  {
   "property": "C74",
   "status": "partial",
   "theorems": [
    "C74_run",
    "C74_series",
    "C74_study",
    "C74_listing",
    "C74_misuse",
    "C74_no_series",
    "C74_duration_refuted",
    "C74_hint_refuted"
   ],
   "note": "argparse is modelled from the namespace it makes; the disk does not change during a run; C74_listing has the hypotheses of C71. The last sentence fails: C74_duration_refuted (durations below 1 and negative numbers of scenarios are accepted and give a problem without rows), C74_hint_refuted (only series that depend on the scenario give the message; a too long duration ends in a KeyError, no scenarios in a ZeroDivisionError)."
  },
  {
   "property": "C75",
   "status": "partial",
   "theorems": [
    "C75_input",
    "C75_accepted",
    "C75_configured",
    "C75_output_refuted",
    "C75_percent_refuted",
    "C75_configuration_refuted",
    "C75_log_refuted"
   ],
   "note": "C75_input and C75_accepted hold for paths without percent signs; C75_configured is exact for every configuration, with its references to other options and doubled percent signs. The code does not do the rest: C75_output_refuted (-o is checked and never used), C75_percent_refuted (configparser refuses a path with a percent sign and takes %% for %), C75_configuration_refuted (without -c, data/config.ini must be there even with -i; an empty study_path is the current directory), C75_log_refuted (the file of -l is made, the log goes to another)."
  },
  {
   "property": "C76",
   "status": "partial",
   "theorems": [
    "C76_unchanged",
    "C76_variable",
    "C76_constraint",
    "C76_constraint_renamed",
    "C76_comparison_refuted",
    "C76_definition",
    "C76_parameter",
    "C76_port",
    "C76_model",
    "C76_shared_refuted",
    "C76_names_refuted"
   ],
   "note": "Proved for all changes, except as the code violates it: a constraint made from a comparison cannot be given another one (C76_comparison_refuted), a copied model shares its dictionaries (C76_shared_refuted) and its dictionaries need not be by name (C76_names_refuted). The constraints and variables inside dictionaries are taken by value."
  },
  {
   "property": "C77",
   "status": "proved",
   "theorems": [
    "C77_model",
    "C77_library",
    "C77_distinct"
   ],
   "note": "For all lists."
  },
  {
   "property": "C78",
   "status": "proved",
   "theorems": [
    "C78_builds",
    "C78_side_by_side",
    "C78_meaning",
    "C78_cheapest",
    "C78_files",
    "C78_files_back",
    "C78_duplicate_refuted"
   ],
   "note": "Networks: C78_builds, C78_side_by_side (usable_block as for C71; parts are built, named and self-contained). Runs from files: C78_files, C78_files_back, with no condition but distinct ids and, for the converse, connections inside each file. Variable names must differ between the parts for C78_cheapest (values are given by name). C78_duplicate_refuted: an id in both files stands for one component only."
  },
  {
   "property": "C79",
   "status": "proved",
   "theorems": [
    "C79_data",
    "C79_added"
   ],
   "note": "Equality of results, errors included. Connections must be between nodes and components of the network, which every network made from files meets (contained_network)."
  },
  {
   "property": "C80",
   "status": "partial",
   "theorems": [
    "C80_together_partial",
    "C80_solutions",
    "C80_costs",
    "C80_settings",
    "C80_bounds_refuted",
    "C80_scenarios_built",
    "C80_complete_partial"
   ],
   "note": "Partial only for constraints whose bounds depend on the scenario while their expression does not: the code makes their row for the first scenario alone (C80_bounds_refuted). Costs are equal up to the coefficients below 1e-16 that the code drops (C45). The settings of each scenario exist for every problem (C80_settings); their problems are built whenever the whole problem is complete in the sense of C66 (C80_scenarios_built, C80_complete_partial), otherwise this is a hypothesis."
  },
  {
   "property": "C81",
   "status": "proved",
   "theorems": [
    "C81_rows",
    "C81_objective",
    "C81_feasible",
    "C81_optimum",
    "C81_refuted"
   ],
   "note": "For constraints and objectives whose divisors are written numbers or data. Outside the limit of precision a row can be lost (C81_refuted), which is the behaviour stated in C45."
  },
  {
   "property": "C82",
   "status": "proved",
   "theorems": [
    "C82_feasible",
    "C82_cost",
    "C82_optimum"
   ],
   "note": "For studies in the fragment of C58 (good_study) whose constraint bounds vary no more than the expressions they bound. Divisors are written numbers."
  },
  {
   "property": "C83",
   "status": "proved",
   "theorems": [
    "C83_feasible",
    "C83_cost",
    "C83_optimum"
   ],
   "note": "For studies as in C65 (good_antares) that run. Limits of quantities may have any precision."
  },
  {
   "property": "C84",
   "status": "proved",
   "theorems": [
    "C84_balance",
    "C84_shortage",
    "C84_stored",
    "C84_overflow",
    "C84_units"
   ],
   "note": "Consequences of C83 for every solution. The balance of the system supposes that every element belongs to areas that are kept, which the reserve of the batteries is not."
  },
  {
   "property": "C85",
   "status": "proved",
   "theorems": [
    "C85_feasible",
    "C85_cost",
    "C85_optimum"
   ],
   "note": "For networks as in C59 (good_network) whose study runs. What is solved is the network as the shipped library has it, which does not limit the dispatch of storage units by their chosen capacity (C59_dispatch_refuted): the example finds an optimal plan that chooses none."
  },
  {
   "property": "C86",
   "status": "proved",
   "theorems": [
    "C86_balance",
    "C86_stored",
    "C86_emissions",
    "C86_shortage"
   ],
   "note": "Consequences of C85 for every solution."
  },
  {
   "property": "C87",
   "status": "proved",
   "theorems": [
    "C87_complete",
    "C87_average",
    "C87_least",
    "C87_parts",
    "C87_separate"
   ],
   "note": "C87_complete supposes only that the problem is complete in the sense of C66; the other theorems suppose that the problems of the scenarios are built."
  },
  {
   "property": "C88",
   "status": "proved",
   "theorems": [
    "C88_kept",
    "C88_same",
    "C88_moved"
   ],
   "note": "Timesteps of the block are supposed not negative in C88_moved only: pandas reads negative rows from the end of a matrix."
  },
  {
   "property": "C89",
   "status": "proved",
   "theorems": [
    "C89_looser",
    "C89_solutions",
    "C89_cost"
   ],
   "note": "Limits are parameters that stand alone as a bound; bounds that are formulas of limits are not claimed."
  },
  {
   "property": "C90",
   "status": "proved",
   "theorems": [
    "C90_least_cost",
    "C90_solutions",
    "C90_one_problem"
   ],
   "note": "As for C87, the problem is complete in the sense of C66 and of limited precision in the sense of C81."
  },
  {
   "property": "C91",
   "status": "proved",
   "theorems": [
    "C91_decisions",
    "C91_least_cost"
   ],
   "note": "As for C87, both problems are complete in the sense of C66 and of limited precision in the sense of C81."
  },
  {
   "property": "C92",
   "status": "proved",
   "theorems": [
    "C92_chosen",
    "C92_even"
   ],
   "note": "As for C87, both problems are complete in the sense of C66 and of limited precision in the sense of C81."
  },
  {
   "property": "C93",
   "status": "proved",
   "theorems": [
    "C93_solutions",
    "C93_cost",
    "C93_optimum"
   ],
   "note": "The problem is complete in the sense of C66 and of limited precision in the sense of C81; the one without the constraints is then proved to be so."
  },
  {
   "property": "C94",
   "status": "proved",
   "theorems": [
    "C94_weights"
   ],
   "note": "The problem is complete in the sense of C66 and of limited precision in the sense of C81; of the reweighted one only the precision of the objective is supposed."
  },
  {
   "property": "C95",
   "status": "proved",
   "theorems": [
    "C95_solutions",
    "C95_bound",
    "C95_optimum"
   ],
   "note": "The problem is complete in the sense of C66 and of limited precision in the sense of C81, the relaxed one is then proved to be so; BOOLEAN variables are not relaxed, for their bounds are not those written."
  },
  {
   "property": "C96",
   "status": "proved",
   "theorems": [
    "C96_decisions",
    "C96_least_cost"
   ],
   "note": "The problem is complete in the sense of C66 and of limited precision in the sense of C81; that the rotated one is too is proved (RotateReady.v). Expressions such as x[0], which name a position of the block, are excluded: for them the claim is false by design."
  },
  {
   "property": "C97",
   "status": "proved",
   "theorems": [
    "C97_costs",
    "C97_bound",
    "C97_optimum"
   ],
   "note": "The problem is complete in the sense of C66 and of limited precision in the sense of C81; the problems with some of the objectives are then proved to be so."
  }
 ]
}