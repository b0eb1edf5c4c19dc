{
 "C01": {
  "note": "Proved for all operators except number-on-the-left subtraction: `v - e` builds `v + e` in the code, refuted by C01_number_minus_expression_refuted and characterised exactly by C01_number_minus_expression_adds. Additions over zero operands (not constructible with operators) fail, C01_empty_sum_refuted.",
  "status": "partial"
 },
 "C02": {
  "note": "Value preservation, idempotence and success are proved. The copy is the same tree exactly on flat expressions; C02_copy_equal_to_original_refuted shows that nested additions are flattened by copying (value preserved). The property only claims identity without nested additions, so it is proved.",
  "status": "proved"
 },
 "C03": {
  "note": ""
 },
 "C04": {
  "note": "NaN literals are excluded by the statement; C04_reflexivity_with_nan_refuted shows the exclusion is needed.",
  "status": "proved"
 },
 "C05": {
  "note": "Proved when shifts, timesteps and window bounds contain no decision variable; the degree visitor ignores those positions, C05_variable_shift_refuted.",
  "status": "partial"
 },
 "C06": {
  "note": "Proved when shifts, timesteps and bounds do not depend on time or scenario; otherwise refuted by C06_time_dependent_argument_refuted.",
  "status": "partial"
 },
 "C07": {
  "note": ""
 },
 "C08": {
  "note": ""
 },
 "C09": {
  "note": ""
 },
 "C10": {
  "note": "For the fragment named in the statement (arithmetic, shifts, windows, sums), plus evaluations and expectations that are well nested. Whole-horizon sums below shifts need cyclic data (the CYCLE border of C17).",
  "status": "proved"
 },
 "C11": {
  "note": "Proved when x[N] is not below a shift or window. Refuted there: C11_shift_of_eval_refuted; C11_shift_moves_eval shows it always moves; nested evaluations are rejected.",
  "status": "partial"
 },
 "C12": {
  "note": "Proved for operands without another scenario operator; refuted for nested expectations (C12_nested_expectation_refuted).",
  "status": "partial"
 },
 "C13": {
  "note": ""
 },
 "C14": {
  "note": "Exact equality on rationals after adding back the dropped terms, which are the same for all assignments.",
  "status": "proved"
 },
 "C15": {
  "note": "",
  "status": "proved"
 },
 "C16": {
  "note": "Equivalence between degree <= 1 and success, up to ZeroDivisionError and missing data.",
  "status": "proved"
 },
 "C17": {
  "note": "",
  "status": "proved"
 },
 "C18": {
  "note": "",
  "status": "proved"
 },
 "C19": {
  "note": "Constant of the form finite; infinite or NaN constants are not claimed.",
  "status": "proved"
 },
 "C20": {
  "note": "One row per timestep and scenario on which the expression depends, without condition (C20_rows_of_expressions); so one per timestep and scenario on which the constraint depends when its bounds depend on nothing on which the expression does not. C20_refuted shows that a bound that varies in time with a constant expression gets one row (`_compute_indexing` only looks at the expression).",
  "status": "partial"
 },
 "C21": {
  "note": "C21_objective_adds_forms for every network; C21_objective_is_sum against the denotational meaning, up to the coefficients below 1e-16 that the code drops, no more of them than the objectives mention decisions.",
  "status": "proved"
 },
 "C22": {
  "note": "Proved when no node and component share an id; C22_refuted otherwise.",
  "status": "partial"
 },
 "C23": {
  "note": "Proved for full names when no id (or name) is another one followed by an underscore and more; C23_refuted shows a collision with wrong columns.",
  "status": "partial"
 },
 "C24": {
  "note": "Proved for finite data and literals other than NaN; C24_refuted: a NaN bound passes the check.",
  "status": "partial"
 },
 "C25": {
  "note": "",
  "status": "proved"
 },
 "C26": {
  "note": "For models made by model(...), shown to satisfy the naming hypothesis.",
  "status": "proved"
 },
 "C27": {
  "note": "",
  "status": "proved"
 },
 "C28": {
  "note": "Proved for constant, time, scenario and tree data, and for time-scenario data with non-negative indices; time-scenario data wraps negative indices (C28_negative_index_refuted, C28_time_scenario_any says exactly which cell any index reads).",
  "status": "partial"
 },
 "C29": {
  "note": "The check accepts exactly when every parameter of every entry of network.components has data that suits its declared dependence (C29_check_exact); nodes are not visited by the check (C29_nodes_not_checked_refuted).",
  "status": "partial"
 },
 "C30": {
  "note": "Builder rows: proved. Reading: proved for a parameter with its own group, or when no earlier parameter of the component has one. C30_group_leak_refuted: the group of a parameter stays in force for the parameters after it; C30_nodes_ignored_refuted: nodes get no data.",
  "status": "partial"
 },
 "C31": {
  "note": "",
  "status": "proved"
 },
 "C32": {
  "note": "Termination, one library per file, dependencies first, refusal of cycles and missing libraries and the exact list of failures, for every order in which python may go through its sets. C32_order_matters_refuted: two dependencies declaring the same port type clash silently and the order of a set decides; C32_preloaded_dependency_refuted; C32_duplicate_id_refuted.",
  "status": "partial"
 },
 "C33": {
  "note": "Files with distinct library ids. Port types, names in every text, and both refusals.",
  "status": "proved"
 },
 "C34": {
  "note": "Proved for files with distinct ids (unknown ids and models are refused in every file). C34_duplicate_id_refuted and C34_shared_id_refuted: ids given twice are accepted and lose or confuse components.",
  "status": "partial"
 },
 "C35": {
  "note": "Networks as mutable objects with separate containers; all sequences of calls.",
  "status": "proved"
 },
 "C36": {
  "note": "Proved for numbers, lists of numbers of length other than one and tables of equal rows of length other than one. Lists of one number, ragged tables and what the variable held before: four _refuted theorems.",
  "status": "partial"
 },
 "C37": {
  "note": "Symmetry, the exact meaning of both comparisons and ignored parts are proved for all outputs. Reflexivity for values other than NaN (C37_nan_refuted). Not claimed but refuted: transitivity.",
  "status": "partial"
 },
 "C38": {
  "note": "Products of probabilities, refusal of probabilities outside [0,1], what the check answers (exactly, within the tolerance of math.isclose at each node) and the resulting sum of the leaves. C38_leaves_sum and C38_product hold for every sequence of constructor calls. Outside the statement: a refused node stays attached and makes the check raise (C38_refused_node_stays_refuted), NaN is accepted (C38_nan_refuted), nodes passed through `children=` are not rescaled (C38_children_argument_refuted).",
  "status": "proved"
 },
 "C41": {
  "note": "For products and quotients the constant factor itself may be rounded to 0 or 1 when within 1e-16.",
  "status": "proved"
 },
 "C42": {
  "note": "Proved for all histories in which no multiplication has a non-zero constant on the left; for those the code mutates or shares the right operand (two _refuted theorems). C42_operators_compute_values gives the value of every operator's result, products included, and what changes in the right operand.",
  "status": "partial"
 },
 "C44": {
  "note": "Proved for every text except brackets after a parenthesis and shifts whose first term divides and goes on. C44_division_refuted: x[t+8/2/2] is read as x[t+8]; C44_parenthesis_refuted: (x)[t+1] is accepted and gives None. Decimal numbers are exact.",
  "status": "partial"
 },
 "C45": {
  "note": "Constraints: each row is its constraint at the timesteps and scenarios for which it stands (C45_each_row, C45_constraints), and these are all of them when its bounds depend on nothing on which the expression does not (otherwise C45_refuted), up to coefficients below 1e-16 dropped by the code, no more of them than the expression mentions decisions. Objective, representation of decisions and coverage of timesteps and scenarios are proved. `good_problem` lists the conditions on expressions (finite numbers, no comparison left, well nested operators).",
  "status": "partial"
 },
 "C46": {
  "note": "For files where no parameter of a component is given twice, non-negative timesteps and scenarios. Reading the text file into rows is not modelled.",
  "status": "proved"
 },
 "C47": {
  "note": "Texts with a character that starts no token are outside the model (the ANTLR runtime drops the character; the model refuses).",
  "status": "proved"
 },
 "C48": {
  "note": "Proved for entries with distinct ids and texts that C44 covers. C48_duplicate_entries_refuted: of two constraints with the same id one is dropped silently.",
  "status": "partial"
 },
 "C49": {
  "note": "Proved for definitions. C49_unknown_port_refuted: a constraint may use a port the model does not have and loads.",
  "status": "partial"
 },
 "C50": {
  "note": "The value is proved for terms with distinct keys; in general the coefficients are stated exactly (C50_built_exactly): of several terms of a list with the same key only the last that is not below 1e-16 counts, so the value is not the sum (C50_same_key_refuted).",
  "status": "partial"
 },
 "C51": {
  "note": "Networks with distinct ids. The solution is an arbitrary function of the solver variables: solving is not modelled.",
  "status": "proved"
 },
 "C52": {
  "note": "",
  "status": "proved"
 },
 "C53": {
  "note": "anytree's LevelOrderIter is modelled from its documented behaviour.",
  "status": "proved"
 },
 "C54": {
  "status": "partial",
  "note": "Equality holds exactly when everything agrees except contexts and the contents of objectives and port definitions; symmetric, and reflexive without literal NaN. The full claim is false: contents and contexts are not compared, and comparing present with absent objectives raises (three refutations)."
 },
 "C55": {
  "status": "partial",
  "note": "Objectives, bounds, ports and definitions checked as claimed, and valid models accepted as given. Arguments of time operators are not checked: objectives_real and the port definition theorem exclude them, and a definition with a port in a shift is accepted (refuted)."
 },
 "C40": {
  "status": "partial",
  "note": "For several masters with variables and rows of distinct names: variables, feasible values and costs of the merged problem are those of the coupler and all masters. Lost, and refuted: integrality of variables only in masters, constants of the objectives, rows without terms, bounds when masters share a name, the coupling rows when there is one master."
 },
 "C39": {
  "status": "partial",
  "note": "Proved for every decomposition built from a tree whose nodes, components and blocks have distinct names that can be told apart: read line by line, the file has exactly the variables of the master and the variables of each subproblem that are in the master, with their columns. Refuted: names of fifty characters or more run together, two subproblems can get the same name and only one is then in the file, and a candidate that depends on time has another name in its subproblem so that nothing links it to the master."
 },
 "C56": {
  "status": "partial",
  "note": "For trees of several nodes whose names can be told apart: acceptance, meaning of the master (constraints asked for, bounds, rows, costs, variables), meaning of the subproblems. Rows without terms of the investment problems and integrality are lost (C40). Refuted: constraints of one tree leak into another through the default CouplingInfo; a tree of one node ignores its constraint; a node without an id is constrained on variables that are not its own; variables that depend on the scenario are accepted but lose their bounds."
 },
 "C43": {
  "status": "partial",
  "note": "Proved for every cluster with finite data and positive capacity: least power, least covering numbers of units, minimum below maximum, variations, previous hours, files and references. Refuted: the first hour is compared with itself instead of the last hour of its period; without a period every hour is compared with the first; capacity 0 gives NaN; the files of the least power and minimum number of units have one column although declared to depend on the scenario."
 },
 "C57": {
  "status": "partial",
  "note": "Proved for arithmetic on numbers, names and port fields, with literals shown as decimal numerals (integers are; the text of floats is a parameter of the theorem). Refuted: equations are printed with a sign the parser does not know, an expectation is printed and read back as a port field, time operators and sums over connections are not printed in the language of the parser, an empty sum prints nothing."
 },
 "C58": {
  "status": "partial",
  "note": "From parsed library, system and data files to the built problem, for good_study: plain texts (C44), distinct ids and names, finite data. Rows, objective, variables and decisions are stated on the texts and the files only. Partial because of terms below 1e-16 that the code drops (no more than the text mentions decisions), bounds that depend on more than their expression (whose row is then that of the first timestep or scenario), and the texts outside the plain part; each of these has a _refuted theorem under C20, C44, C45. C58_needs_* give what a run needs of its files."
 },
 "C59": {
  "status": "partial",
  "note": "Rows, cost, variables and decisions of the study built from the converter's output, stated on the network's tables and series only (SpecPypsa.v), for all good_network. Refuted: dispatch of a storage unit of chosen capacity is not limited by that capacity (the row named after dispatch limits storing, which uses p_max_pu instead of p_min_pu); a link that bears the name of a bus gives a study that cannot be run. Partial also because of dropped terms below 1e-16, at most constraint_size or cost_size of them."
 },
 "C60": {
  "status": "partial",
  "note": "Both directions proved; refuted for inactive storage units and stores, because the checks named after them look at the links."
 },
 "C61": {
  "status": "partial",
  "note": "Refuted: the conversion renames components and overwrites costs in the caller's object. Proved: what is kept, under the new names."
 },
 "C62": {
  "status": "partial",
  "note": "The converted study is stated object by object on the Antares study (SpecAntares.v) for all well-named studies; acceptance proved. Refuted: what the reserve holds besides batteries is connected to a missing component; wind and solar production is connected under a name that no component has; the loads of all areas share one id."
 },
 "C63": {
  "status": "partial",
  "note": "Independence of earlier conversions and all values proved. Refuted: the first area without battery ends the loop, so that later areas lose theirs although the objects that stood for it have been removed. C63_first_batteries says exactly which areas get one."
 },
 "C64": {
  "status": "partial",
  "note": "Refuted for two loads: both components are called load, the run is accepted and one area is balanced against the load of the other. Proved, against the claim: wind, solar (unknown model) and, with distinct ids, renewable clusters (parameter nominal_capacity not given) are always refused, and a study with a thermal cluster runs in one scenario only (the series of the least power has one column)."
 },
 "C65": {
  "status": "partial",
  "note": "Rows, cost, variables and decisions of the study built from the converter's output, stated on the Antares study and the data directory only (SpecAntares.v), for all good_antares. Partial because of dropped terms below 1e-16 (at most row_size or study_cost_size of them) and of distinct ids, which exclude several loads (C64_loads_refuted)."
 },
 "C66": {
  "status": "partial",
  "note": "C66_ready_problems_built is proved for every good_problem (C45) that is ready_problem (SpecReady.v); partial: nested fixed timesteps, ports under a fixed timestep, and decisions in the arguments of operators are outside ready_problem, and the faithful part leaves out terms below 1e-16 as C45."
 },
 "C67": {
  "status": "proved",
  "note": "C67_runs: the conditions (SpecRun.ready_study with SpecMain.good_study) are read from the files alone; they are sufficient, not necessary. The solver itself is not modelled. C67_connections_needed: the condition on connections is also necessary, whatever the files."
 },
 "C68": {
  "status": "proved",
  "note": "Equivalences between running and conditions on the tables of the network (SpecConvert.consistent_network, SpecPypsa.supported) or on the study and its files (SpecAntaresRun.consistent_study), for networks and studies meeting good_network and good_antares. The solver itself is not modelled."
 },
 "C69": {
  "status": "partial",
  "note": "Proved for every run that returns: the files given to the command and the entries of the options, the command, its directory and its return code, the directory given back, and the solution read. Refuted: without the command the run returns True and may read the solution of an earlier run; after a merge every solution is read as that of a merge; a command that cannot be started leaves the working directory changed. The commands, json and the writers of OR-tools are parameters of the model."
 },
 "C70": {
  "status": "partial",
  "note": "Proved for one problem (C70_parts, C70_builds), for trees of several nodes (C70_feasible, C70_cost, C70_optimum, C70_blocks, and C70_files in terms of the columns and the structure file) and of one node (C70_single), when the variables, constraints and costs of investment contain only numbers, variables and parameters that depend neither on time nor on the scenario, and arithmetic. With several blocks the sum of the whole problems counts investments once per block (C70_blocks). Rows without variables are left out by the merge (C40), hence rows_with_terms; integrality of variables and constants of the objective of a master are left out. Refuted otherwise: an investment constraint that depends on the scenario is in no problem, one that depends on time is enforced at timestep 0 only."
 },
 "C71": {
  "status": "proved",
  "note": "Blocks are not empty and wrap around (usable_block), models were made by model() and port_field_def() (sound_network, which every run from files meets: run_sound). Entries stay nodes or components. C71_duplicate_refuted: with repeated ids the order does matter, the last entry counts."
 },
 "C72": {
  "status": "proved",
  "note": "The model starts from what yaml.safe_load returns and models the validation of pydantic for the types of these classes; dates and keys that are not text are left out. The code refuses more than a user may expect, and says less: C72_constraint_number_refuted (a number is accepted as bound of a variable but not of a constraint; a key of a model with nothing behind it is refused, though the one of a component is accepted), C72_ignored_refuted (keys beside library/system are ignored without a word)."
 },
 "C73": {
  "status": "proved",
  "note": "From objects to the content given to yaml.dump and from what yaml.safe_load returns to objects: that the two YAML functions are inverse to each other is trusted. convert_antares and convert_pypsa are those of C59-C62."
 },
 "C74": {
  "status": "partial",
  "note": "argparse is modelled from the namespace it makes; the disk does not change during a run; C74_listing has the hypotheses of C71. The last sentence fails: C74_duration_refuted (durations below 1 and negative numbers of scenarios are accepted and give a problem without rows), C74_hint_refuted (only series that depend on the scenario give the message; a too long duration ends in a KeyError, no scenarios in a ZeroDivisionError)."
 },
 "C75": {
  "status": "partial",
  "note": "C75_input and C75_accepted hold for paths without percent signs; C75_configured is exact for every configuration, with its references to other options and doubled percent signs. The code does not do the rest: C75_output_refuted (-o is checked and never used), C75_percent_refuted (configparser refuses a path with a percent sign and takes %% for %), C75_configuration_refuted (without -c, data/config.ini must be there even with -i; an empty study_path is the current directory), C75_log_refuted (the file of -l is made, the log goes to another)."
 },
 "C76": {
  "status": "partial",
  "note": "Proved for all changes, except as the code violates it: a constraint made from a comparison cannot be given another one (C76_comparison_refuted), a copied model shares its dictionaries (C76_shared_refuted) and its dictionaries need not be by name (C76_names_refuted). The constraints and variables inside dictionaries are taken by value."
 },
 "C77": {
  "status": "proved",
  "note": "For all lists."
 },
 "C78": {
  "status": "proved",
  "note": "Networks: C78_builds, C78_side_by_side (usable_block as for C71; parts are built, named and self-contained). Runs from files: C78_files, C78_files_back, with no condition but distinct ids and, for the converse, connections inside each file. Variable names must differ between the parts for C78_cheapest (values are given by name). C78_duplicate_refuted: an id in both files stands for one component only."
 },
 "C79": {
  "status": "proved",
  "note": "Equality of results, errors included. Connections must be between nodes and components of the network, which every network made from files meets (contained_network)."
 },
 "C80": {
  "status": "partial",
  "note": "Partial only for constraints whose bounds depend on the scenario while their expression does not: the code makes their row for the first scenario alone (C80_bounds_refuted). Costs are equal up to the coefficients below 1e-16 that the code drops (C45). The settings of each scenario exist for every problem (C80_settings); their problems are built whenever the whole problem is complete in the sense of C66 (C80_scenarios_built, C80_complete_partial), otherwise this is a hypothesis."
 },
 "C81": {
  "status": "proved",
  "note": "For constraints and objectives whose divisors are written numbers or data. Outside the limit of precision a row can be lost (C81_refuted), which is the behaviour stated in C45."
 },
 "C82": {
  "status": "proved",
  "note": "For studies in the fragment of C58 (good_study) whose constraint bounds vary no more than the expressions they bound. Divisors are written numbers."
 },
 "C83": {
  "status": "proved",
  "note": "For studies as in C65 (good_antares) that run. Limits of quantities may have any precision."
 },
 "C84": {
  "status": "proved",
  "note": "Consequences of C83 for every solution. The balance of the system supposes that every element belongs to areas that are kept, which the reserve of the batteries is not."
 },
 "C85": {
  "status": "proved",
  "note": "For networks as in C59 (good_network) whose study runs. What is solved is the network as the shipped library has it, which does not limit the dispatch of storage units by their chosen capacity (C59_dispatch_refuted): the example finds an optimal plan that chooses none."
 },
 "C86": {
  "status": "proved",
  "note": "Consequences of C85 for every solution."
 },
 "C87": {
  "status": "proved",
  "note": "C87_complete supposes only that the problem is complete in the sense of C66; the other theorems suppose that the problems of the scenarios are built."
 },
 "C88": {
  "status": "proved",
  "note": "Timesteps of the block are supposed not negative in C88_moved only: pandas reads negative rows from the end of a matrix."
 },
 "C89": {
  "status": "proved",
  "note": "Limits are parameters that stand alone as a bound; bounds that are formulas of limits are not claimed."
 },
 "C90": {
  "status": "proved",
  "note": "As for C87, the problem is complete in the sense of C66 and of limited precision in the sense of C81."
 },
 "C91": {
  "status": "proved",
  "note": "As for C87, both problems are complete in the sense of C66 and of limited precision in the sense of C81."
 },
 "C92": {
  "status": "proved",
  "note": "As for C87, both problems are complete in the sense of C66 and of limited precision in the sense of C81."
 },
 "C93": {
  "status": "proved",
  "note": "The problem is complete in the sense of C66 and of limited precision in the sense of C81; the one without the constraints is then proved to be so."
 },
 "C94": {
  "status": "proved",
  "note": "The problem is complete in the sense of C66 and of limited precision in the sense of C81; of the reweighted one only the precision of the objective is supposed."
 },
 "C95": {
  "status": "proved",
  "note": "The problem is complete in the sense of C66 and of limited precision in the sense of C81, the relaxed one is then proved to be so; BOOLEAN variables are not relaxed, for their bounds are not those written."
 },
 "C96": {
  "status": "proved",
  "note": "The problem is complete in the sense of C66 and of limited precision in the sense of C81; that the rotated one is too is proved (RotateReady.v). Expressions such as x[0], which name a position of the block, are excluded: for them the claim is false by design."
 },
 "C97": {
  "status": "proved",
  "note": "The problem is complete in the sense of C66 and of limited precision in the sense of C81; the problems with some of the objectives are then proved to be so."
 }
}