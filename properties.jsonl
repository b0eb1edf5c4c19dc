{"id": "C01", "title": "Python operators on expressions denote arithmetic", "statement": "Combining expressions (or an expression and a number, on either side) with unary -, +, -, *, / builds an expression whose evaluation equals the same arithmetic applied to the operands' values, and evaluation of the result fails exactly when evaluating an operand fails or a division by zero occurs; in particular `5 - x` evaluates to 5 minus the value of x.", "quantifier": "all pairs of expressions, all numbers on either side, all evaluation contexts", "why_tests_cant": "The operators rewrite the tree (additions are flattened, subtractions of sums are distributed); tests only try a few fixed shapes while nesting and operand order are unbounded.", "anchors": ["src/andromede/expression/expression.py:ExpressionNode.__add__,__radd__,__sub__,__rsub__,__mul__,__truediv__,__neg__", "src/andromede/expression/evaluate.py:EvaluationVisitor"]}
{"id": "C02", "title": "Copying an expression preserves its meaning", "statement": "copy_expression(e) evaluates to the same value as e (or fails in the same cases) in every context, copying again changes nothing, and any expression built without nested additions is copied to a structurally equal expression.", "quantifier": "all expressions, all evaluation contexts", "why_tests_cant": "Copy rebuilds additions with `+`, so the result can be a different tree; the claim is about every tree shape.", "anchors": ["src/andromede/expression/copy.py:CopyVisitor,copy_expression", "src/andromede/expression/evaluate.py:evaluate", "src/andromede/expression/equality.py:expressions_equal"]}
{"id": "C03", "title": "Substituting parameter values commutes with evaluation", "statement": "resolve_parameters(e, provider) contains no parameter any more, and evaluating it in a context that only knows the variables gives the value of e in the context that knows the variables and these parameters.", "quantifier": "all expressions, all parameter providers, all variable values", "why_tests_cant": "Substitution recurses through every node kind; only induction on expressions covers all trees.", "anchors": ["src/andromede/expression/evaluate_parameters.py:ParameterResolver,resolve_parameters", "src/andromede/expression/evaluate.py:EvaluationVisitor"]}
{"id": "C04", "title": "Expression equality is structural identity at zero tolerance", "statement": "expressions_equal(a, b) with both tolerances at 0 holds exactly when a and b are the same tree; with any non-negative tolerances it is reflexive (absent NaN literals) and symmetric; negative tolerances are rejected.", "quantifier": "all pairs of expressions, all tolerances", "why_tests_cant": "The comparison has one case per node kind and falls back to False on mismatches; missing a field in one case shows only for specific pairs.", "anchors": ["src/andromede/expression/equality.py:EqualityVisitor,expressions_equal"]}
{"id": "C05", "title": "Degree 0 means independent of decision variables, degree at most 1 means affine", "statement": "If is_constant(e) then the value of e is the same for all values of the decision variables; if is_linear(e) then along every segment between two variable assignments the value of e is the affine interpolation of its end values (parameters fixed).", "quantifier": "all expressions evaluable in a context, all pairs of assignments, all interpolation weights", "why_tests_cant": "Semantic claim over all assignments; tests compare degrees of a few expressions to expected integers.", "anchors": ["src/andromede/expression/degree.py:ExpressionDegreeVisitor,compute_degree,is_constant,is_linear"]}
{"id": "C06", "title": "Computed indexing is sound", "statement": "If compute_indexation(e) reports e as not time-dependent then e has the same value at every timestep; if it reports e as not scenario-dependent then it has the same value in every scenario, provided each variable and parameter declared constant in a dimension is constant in it.", "quantifier": "all expressions, structures, valuations, timesteps and scenarios", "why_tests_cant": "Wrong indexing silently drops constraints; the claim ranges over all valuations.", "anchors": ["src/andromede/expression/indexing.py:TimeScenarioIndexingVisitor,compute_indexation", "src/andromede/expression/indexing_structure.py:IndexingStructure"]}
{"id": "C07", "title": "Computed indexing of a sum or product is the union of its operands' indexing", "statement": "For every operator combining several operands the reported indexing is time- (scenario-) dependent exactly if some operand is, independently of operand order and of the early exit; time evaluation and whole-horizon sums clear time dependence and scenario operators clear scenario dependence only.", "quantifier": "all expressions and structure providers", "why_tests_cant": "The visitor stops early once both dimensions are set; only a proof shows that skipping operands never changes the answer.", "anchors": ["src/andromede/expression/indexing.py:TimeScenarioIndexingVisitor._combine", "src/andromede/expression/indexing_structure.py:IndexingStructure.__or__,__and__"]}
{"id": "C08", "title": "Giving an expression a component context binds every name to that component and to nothing else", "statement": "add_component_context(id, e) evaluated over a whole system equals e evaluated on the component id's own variables and parameters; literals, operators and ports are untouched; an expression already bound to a component is rejected rather than rebound.", "quantifier": "all expressions, component ids, system-wide valuations", "why_tests_cant": "One missed node kind would leave a dangling name for some shapes only.", "anchors": ["src/andromede/expression/context_adder.py:ContextAdder,add_component_context"]}
{"id": "C09", "title": "Port resolution computes the sum over connections", "statement": "resolve_port of an expression replaces a port field by the unique expression connected to it and sum_connections by the sum of the expressions of all connected ports (0 if none), so its value is that sum; no port node remains; anything else (no or several definitions for a plain port field) is an error, never a silently chosen value.", "quantifier": "all expressions, all connection registries, all valuations", "why_tests_cant": "Number of connections is unbounded and definitions are arbitrary expressions.", "anchors": ["src/andromede/expression/port_resolver.py:PortResolver,resolve_port"]}
{"id": "C10", "title": "Time shift, time sum and whole-horizon sum expand to their mathematical definition", "statement": "After operator expansion, x[t+k] denotes x at t+k, sum(t+a..t+b, e) denotes the sum of e at t+a, ..., t+b inclusive (0 if a > b), and sum(e) the sum of e over all timesteps of the block, for arbitrary nested operands e made of arithmetic, shifts, windows and sums.", "quantifier": "all expressions of the fragment, all integer shifts and bounds, all block lengths, all timesteps, all valuations", "why_tests_cant": "Shifts compose through nested operators, windows are unbounded; tests compare a handful of expanded trees.", "anchors": ["src/andromede/expression/operators_expansion.py:OperatorsExpansion,ApplyTimeShift,ApplyTimeStep,expand_operators"]}
{"id": "C11", "title": "Evaluating an expression at a fixed timestep is stable under later shifts", "statement": "e[N] denotes the value of e at timestep N whatever operator it is nested in; in particular shifting e[N] in time leaves it unchanged.", "quantifier": "all expressions, timesteps and shifts", "why_tests_cant": "Needs nesting of evaluation below shift; existing tests only nest evaluation below a whole-horizon sum.", "anchors": ["src/andromede/expression/operators_expansion.py:ApplyTimeShift,ApplyTimeStep"]}
{"id": "C12", "title": "Expectation expands to the scenario average", "statement": "After operator expansion expec(e) denotes the arithmetic mean of e over all scenarios of the problem, at the current timestep; with zero scenarios no value is produced silently.", "quantifier": "all expressions, numbers of scenarios, valuations", "why_tests_cant": "Unbounded number of scenarios and nesting depth.", "anchors": ["src/andromede/expression/operators_expansion.py:OperatorsExpansion.scenario_operator,ApplyScenario"]}
{"id": "C13", "title": "Expansion removes every time and scenario operator", "statement": "If expand_operators returns an expression, it contains no time shift, evaluation, sum or scenario operator and no un-indexed variable or parameter, and every index of an entity declared time- (scenario-) independent is the no-index marker.", "quantifier": "all expressions accepted by the expansion", "why_tests_cant": "A leftover operator surfaces later as an internal error for particular shapes.", "anchors": ["src/andromede/expression/operators_expansion.py:expand_operators"]}
{"id": "C14", "title": "Linearisation preserves the value of the expression", "statement": "linearize_expression(e) yields coefficients and a constant such that for every assignment of the decision variables the linear form equals the value of e, except that coefficients smaller than 1e-16 in absolute value are left out.", "quantifier": "all expanded expressions, timesteps, scenarios, parameter values and assignments", "why_tests_cant": "Equality of functions over all assignments and all trees.", "anchors": ["src/andromede/simulation/linearize.py:LinearExpressionBuilder,linearize_expression", "src/andromede/simulation/linear_expression.py:LinearExpression"]}
{"id": "C15", "title": "Linearised expressions are in normal form", "statement": "The result of linearisation has at most one term per (component, variable, timestep, scenario) and no term whose coefficient is below 1e-16 in absolute value.", "quantifier": "all expanded expressions", "why_tests_cant": "Terms may be repeated arbitrarily deep in the tree.", "anchors": ["src/andromede/simulation/linearize.py:LinearExpressionData.build", "src/andromede/simulation/linear_expression.py:LinearExpression.__init__"]}
{"id": "C16", "title": "Non-linear expressions are rejected, expressions of degree at most one are accepted", "statement": "A product of two operands that both contain variables and a division by an operand containing variables raise an error instead of producing a linear form; conversely an expanded expression classified as linear (degree at most 1) never triggers a non-linearity error, and one classified as constant gives no terms.", "quantifier": "all expanded expressions", "why_tests_cant": "Relates two independent recursive traversals on all trees.", "anchors": ["src/andromede/simulation/linearize.py:LinearExpressionBuilder.multiplication,division", "src/andromede/expression/degree.py:ExpressionDegreeVisitor"]}
{"id": "C17", "title": "Timesteps wrap around cyclically inside a block", "statement": "With the cyclic border, a variable or parameter read at relative step t and at t + k*N (N the block length, k any integer, t possibly negative) gives the same solver variable or data value, and inside the block it is the t-th timestep of the block.", "quantifier": "all blocks, all integer timesteps and multiples", "why_tests_cant": "Holds for all integers incl. negative ones; relies on the sign convention of the modulo.", "anchors": ["src/andromede/simulation/optimization.py:OptimizationContext.block_timestep_to_absolute_timestep,get_component_variable,get_time_indices"]}
{"id": "C18", "title": "Constraint objects are equivalent to the comparison they were built from", "statement": "Constraint(name, lhs op rhs) is satisfied by a valuation exactly when the comparison holds; for bounds given separately it is satisfied exactly when lower <= expression <= upper; a constraint built from a comparison together with explicit bounds, or with variable or infinite-of-wrong-sign bounds, is rejected.", "quantifier": "all comparison expressions and all valuations", "why_tests_cant": "Merging the right side into the left flips or drops a sign only visible for some comparators/values.", "anchors": ["src/andromede/model/constraint.py:Constraint.__post_init__"]}
{"id": "C19", "title": "The solver rows of a constraint mean the constraint at each timestep and scenario", "statement": "A solver row made for a linear form and bounds is satisfied by an assignment exactly when lower <= value of the form <= upper: repeated variables are accumulated, the constant is moved to the bounds, infinite bounds stay infinite.", "quantifier": "all linear forms, bounds and assignments", "why_tests_cant": "Accumulation order and shared variables give unboundedly many cases.", "anchors": ["src/andromede/simulation/optimization.py:make_constraint,_create_constraint"]}
{"id": "C20", "title": "One solver row per constraint instance", "statement": "Every constraint of every component contributes exactly one solver row for each (timestep, scenario) it depends on, where dependence is taken over its expression and its bounds.", "quantifier": "all networks, constraints, block lengths, scenario counts", "why_tests_cant": "Missing rows are invisible unless the missing row is binding.", "anchors": ["src/andromede/simulation/optimization.py:_compute_indexing,_create_constraint,OptimizationContext.get_time_indices,get_scenario_indices"]}
{"id": "C21", "title": "The objective is the sum of all components' contributions", "statement": "The solver objective's value at any assignment equals the sum over components of their objective expressions' values; no contribution overwrites another, also when they share variables or constants.", "quantifier": "all networks, assignments", "why_tests_cant": "Ranges over any number of components sharing variables through ports.", "anchors": ["src/andromede/simulation/optimization.py:_create_objective,OptimizationProblem._create_objectives"]}
{"id": "C22", "title": "Reads of a decision variable return the solver variable that was created for it", "statement": "After variable creation, asking for a component's variable at any timestep and scenario returns exactly the solver variable created for that component, name and wrapped timestep/scenario (a single one if the variable does not depend on the dimension); two different instances never share a solver variable.", "quantifier": "all networks, blocks, scenario counts, lookups", "why_tests_cant": "Key construction depends on the declared structure; lookups range over all integers.", "anchors": ["src/andromede/simulation/optimization.py:OptimizationContext.register_component_variable,get_component_variable,OptimizationProblem._create_variables"]}
{"id": "C23", "title": "Column ids handed to the decomposition identify the right variable", "statement": "Solver variable names are unique, and the column id recorded for a variable equals its position in the solver problem.", "quantifier": "all component ids, variable names, block lengths, scenario counts", "why_tests_cant": "Names are formed by joining ids with separators, collisions need adversarial ids.", "anchors": ["src/andromede/simulation/optimization.py:OptimizationProblem._solver_variable_name,OptimizationContext.register_component_variable"]}
{"id": "C24", "title": "Inverted variable bounds are never sent to the solver", "statement": "Every created continuous or integer solver variable has lower bound <= upper bound, where the bounds are the model's bound expressions evaluated at the variable's own timestep and scenario; otherwise building fails.", "quantifier": "all models, data, timesteps and scenarios", "why_tests_cant": "Bounds depend on data at each timestep and scenario.", "anchors": ["src/andromede/simulation/optimization.py:OptimizationProblem._create_variables"]}
{"id": "C25", "title": "Problem strategies cover the whole model", "statement": "Every variable/constraint of a model is selected by the merged strategy; every one is selected by the investment or the operational strategy, and only coupling items are selected by both; the expected-value risk strategy scales each objective by its probability and the uniform one leaves it unchanged.", "quantifier": "all models and problem contexts", "why_tests_cant": "Exhaustive over contexts combined with arbitrary model content.", "anchors": ["src/andromede/simulation/strategy.py:ModelSelectionStrategy,RiskManagementStrategy"]}
{"id": "C26", "title": "A port connection has exactly one definer per field", "statement": "A PortsConnection is accepted exactly when both ports have the same type and each field is defined by exactly one of the two models; then the master port is the definer, and swapping the two ports changes neither acceptance nor the definer.", "quantifier": "all pairs of components, models and port types", "why_tests_cant": "Quantifies over arbitrary port types and definitions.", "anchors": ["src/andromede/study/network.py:PortsConnection.__post_init__,_validate_ports,master_port"]}
{"id": "C27", "title": "Both ends of a connection see the same field expression", "statement": "After registering connections, each port's list of expressions for a field contains, with multiplicity and in connection order, exactly the defining expressions of the connections that involve it, each in the context of the component that defines it.", "quantifier": "all networks", "why_tests_cant": "Number of connections per port is unbounded.", "anchors": ["src/andromede/simulation/optimization.py:OptimizationProblem._register_connection_fields_definitions,OptimizationContext.register_connection_fields_expressions"]}
{"id": "C28", "title": "Data lookups return the declared cell", "statement": "get_value(t, s) of constant, time, scenario and time-scenario data returns the value given for that (t, s) — ignoring dimensions the data does not depend on — and an error (never another cell) when the needed index is absent or out of range.", "quantifier": "all series, indices (including negative and beyond the end)", "why_tests_cant": "Indexing conventions differ per class (dict vs positional).", "anchors": ["src/andromede/study/data.py:ConstantData,TimeSeriesData,ScenarioSeriesData,TimeScenarioSeriesData"]}
{"id": "C29", "title": "The consistency check guarantees parameter data for every component", "statement": "If requirements_consistency(network) passes then for every component and every parameter of its model the database has data, and that data depends on no dimension on which the parameter is declared constant.", "quantifier": "all networks and databases", "why_tests_cant": "Universally quantified over networks; nodes are kept apart from components.", "anchors": ["src/andromede/study/data.py:DataBase.requirements_consistency", "src/andromede/study/network.py:Network.all_components"]}
{"id": "C30", "title": "Scenarisation maps every simulated scenario to its data column", "statement": "With a scenarisation, reading the data for scenario y returns the column mapped to y by the scenario builder for the group of that parameter, and years given twice in a group are rejected.", "quantifier": "all scenario builders, groups, years", "why_tests_cant": "Mapping tables are arbitrary.", "anchors": ["src/andromede/study/data.py:Scenarization,DataBase.get_value", "src/andromede/study/resolve_components.py:build_scenarized_data_base,build_scenarization"]}
{"id": "C31", "title": "The database behaves as a map", "statement": "get_data after any sequence of add_data calls returns the last data added for that (component, parameter), and raises for pairs never added.", "quantifier": "all sequences of add_data/get_data calls", "why_tests_cant": "Ranges over all histories.", "anchors": ["src/andromede/study/data.py:DataBase.add_data,get_data,get_value"]}
{"id": "C32", "title": "Library resolution terminates, rejects cycles and loads dependencies first", "statement": "For every finite set of libraries resolve_library terminates; it returns exactly one library per input when the dependency graph is acyclic and complete, each resolved after its dependencies; it raises when a cycle is reachable.", "quantifier": "all dependency graphs", "why_tests_cant": "Graphs of any size and shape, incl. cyclic ones.", "anchors": ["src/andromede/model/resolve_library.py:resolve_library,_resolve_library"]}
{"id": "C33", "title": "Models only reference known port types", "statement": "When library resolution succeeds each port of each model has a type defined in its library or its dependencies, parameters and variables referenced by an expression are declared by the model, otherwise it fails.", "quantifier": "all library files", "why_tests_cant": "Arbitrary libraries.", "anchors": ["src/andromede/model/resolve_library.py:_resolve_model,_resolve_model_port", "src/andromede/expression/parsing/parse_expression.py:ExpressionNodeBuilderVisitor.visitIdentifier"]}
{"id": "C34", "title": "System resolution keeps every component and connection", "statement": "When system resolution and network building succeed, each input component/node appears exactly once with its model, each connection appears once between the components it names, and unknown component ids and models are errors.", "quantifier": "all system files and libraries", "why_tests_cant": "Arbitrary sizes.", "anchors": ["src/andromede/study/resolve_components.py:resolve_system,build_network,_resolve_component,_resolve_connections"]}
{"id": "C35", "title": "Replicated networks are independent", "statement": "Network.replicate yields an equal network under the new id; adding components or connections to one never changes the other.", "quantifier": "all networks and subsequent edits", "why_tests_cant": "Histories of edits.", "anchors": ["src/andromede/study/network.py:Network.replicate,add_component,connect,get_component"]}
{"id": "C36", "title": "Output values read back what was written", "statement": "After assigning a value (a number, a list over time, or a list over scenarios of lists over time) to an output variable, reading it gives the same value back, and values written at one (timestep, scenario) leave the others unchanged.", "quantifier": "all values and shapes, all previous contents", "why_tests_cant": "Shape conventions interact: lists of length one are unwrapped.", "anchors": ["src/andromede/simulation/output_values.py:OutputValues.Variable.value,_set"]}
{"id": "C37", "title": "Output comparison is reflexive and symmetric", "statement": "Comparing output values (== or is_close) is reflexive and symmetric; an ignored component or variable never makes two outputs differ.", "quantifier": "all pairs of outputs with ignore flags", "why_tests_cant": "Asymmetric loops over the two mappings; tests compare a few pairs in one direction.", "anchors": ["src/andromede/simulation/output_values.py:OutputValues.__eq__,is_close,_are_mappings_close"]}
{"id": "C38", "title": "Leaf probabilities of a decision tree sum to the root's probability", "statement": "If is_leaves_prob_sum_one() holds at the root then the probabilities of the leaves under the root sum to the root's probability (up to the tolerance), each node's probability being the product of the conditional probabilities on its path.", "quantifier": "all trees built top-down through the API", "why_tests_cant": "Trees of any shape and depth.", "anchors": ["src/andromede/simulation/decision_tree.py:DecisionTreeNode.__init__,is_leaves_prob_sum_one"]}
{"id": "C39", "title": "The decomposition structure file lists exactly the shared candidates", "statement": "export_structure lists for the master every candidate variable with its column, and for each subproblem exactly its coupling variables that exist in the master under the same candidate name, with the column ids of both problems.", "quantifier": "all master and subproblems", "why_tests_cant": "Any number of trees, blocks and scenarios.", "anchors": ["src/andromede/simulation/benders_decomposed.py:BendersDecomposedProblem.export_structure"]}
{"id": "C40", "title": "Merging problems preserves feasible set and objective", "statement": "fusion_problems of several problems yields a problem whose variables, bounds, rows and objective are the union/sum of those of the inputs plus the coupling constraints.", "quantifier": "all lists of problems", "why_tests_cant": "Arbitrary numbers of problems, variables, rows.", "anchors": ["src/andromede/simulation/optimization.py:fusion_problems"]}
{"id": "C41", "title": "Linear expression arithmetic is pointwise", "statement": "For linear expressions a, b: the value of a+b, a-b, -a, a*b (one constant), a/b (b a non-zero constant) at every assignment is the same arithmetic on values, up to dropped coefficients below 1e-16; multiplying two non-constant expressions or dividing by a non-constant or zero raises.", "quantifier": "all linear expressions and assignments", "why_tests_cant": "Equality of functions; tests check few literals.", "anchors": ["src/andromede/simulation/linear_expression.py:LinearExpression.__iadd__,__isub__,__imul__,__itruediv__,__neg__"]}
{"id": "C42", "title": "Linear expression arithmetic leaves its operands unchanged", "statement": "Computing a+b, a-b, a*b, a/b leaves a and b as they were, and later in-place changes of the result do not change a or b.", "quantifier": "all linear expressions, all histories of operations", "why_tests_cant": "Aliasing bug visible only when an operand is used again.", "anchors": ["src/andromede/simulation/linear_expression.py:LinearExpression.__imul__,__mul__,_copy_expression"]}
{"id": "C43", "title": "Thermal unit preprocessing is consistent", "statement": "For a thermal cluster the minimum number of units never exceeds the maximum, unit counts are the smallest integers covering the powers, variations forward/backward are non-negative, never both positive, their difference is the difference of unit counts, and the previous index used is in range, in the same period, and cyclic within the period.", "quantifier": "all modulation/availability series, periods and hours", "why_tests_cant": "Series of thousands of hours; boundary hours matter.", "anchors": ["src/andromede/input_converter/src/data_preprocessing/thermal.py:ThermalDataPreprocessing"]}
{"id": "C44", "title": "Parsed time shifts mean what is written", "statement": "For every text x[t (+|-) ...] the shift of the parsed expression equals the arithmetic value of what follows t, x[t] is x itself, and sum(t..t+k, x) starts at 0; operators associate to the left with usual precedence.", "quantifier": "all parse trees of the grammar", "why_tests_cant": "Unbounded expression grammar.", "anchors": ["src/andromede/expression/parsing/parse_expression.py:ExpressionNodeBuilderVisitor", "grammar/Expr.g4"]}
{"id": "C45", "title": "The built problem is the mathematical problem (end to end)", "statement": "For a network, data, block and scenario count, an assignment satisfies all solver rows created by build_problem exactly when it satisfies every constraint of every component at every timestep and scenario, with ports, shifts, sums and expectations given their mathematical meaning; the objective equals the mathematical one.", "quantifier": "all networks, data, blocks, scenario counts, assignments", "why_tests_cant": "Composition of all passes; no test can range over all models.", "anchors": ["src/andromede/simulation/optimization.py:build_problem,OptimizationProblem", "src/andromede/simulation/linearize.py", "src/andromede/expression/operators_expansion.py", "src/andromede/expression/port_resolver.py"]}
{"id": "C46", "title": "The data base holds what the system file gives", "statement": "Without a scenario builder, after the data base is built from a system file every parameter of every component and node reads, at each timestep and scenario, as the number or the cell of the file given for it; a value that does not fit the declared indexing is refused; parameters not given have no data.", "quantifier": "all system files, data files, timesteps and scenarios", "why_tests_cant": "Arbitrary files, indexings and sizes.", "anchors": ["src/andromede/study/resolve_components.py:build_data_base,_build_data", "src/andromede/study/data.py:load_ts_from_txt,dataframe_to_time_series,dataframe_to_scenario_series,DataBase"]}
{"id": "C47", "title": "Only texts of the grammar with declared names are accepted", "statement": "A text is cut into the longest possible tokens; parse_expression returns only for texts that follow the grammar with its precedences and whose every name is a declared variable or parameter and every function known; a name that is both is the variable; every failure is the one parse exception of the module.", "quantifier": "all texts and all declarations of names", "why_tests_cant": "Unbounded set of texts.", "anchors": ["src/andromede/expression/parsing/parse_expression.py:parse_expression,_convert_identifier", "grammar/Expr.g4"]}
{"id": "C48", "title": "A model loaded from a file means what the file says", "statement": "Each model of a library file becomes a model with exactly the parameters, variables, constraints, binding constraints, port field definitions and objective of the file: same names, types and time/scenario dependence, and expressions, bounds and comparisons with the mathematical meaning of their texts.", "quantifier": "all library files and all values of variables and parameters", "why_tests_cant": "Unbounded set of files and texts; meaning is about all values.", "anchors": ["src/andromede/model/resolve_library.py:_resolve_model,_to_variable,_to_constraint,_resolve_field_definition,_to_expression_if_present", "src/andromede/model/parsing.py"]}
{"id": "C49", "title": "A model loaded from a file only refers to port fields it has", "statement": "When a library loads, each port field defined or used in a model is a field of the type of one of its ports; otherwise loading fails.", "quantifier": "all library files", "why_tests_cant": "Arbitrary libraries.", "anchors": ["src/andromede/model/model.py:Model.__post_init__", "src/andromede/model/resolve_library.py:_resolve_model"]}
{"id": "C50", "title": "A linear expression built from terms is the sum of its terms", "statement": "LinearExpression(terms, constant), with terms a list or a dictionary, has as value the constant plus the sum of coefficient times value over the given terms.", "quantifier": "all lists and dictionaries of terms, constants and values", "why_tests_cant": "Unbounded lists; terms may share keys or be negligible.", "anchors": ["src/andromede/simulation/linear_expression.py:LinearExpression.__init__"]}
{"id": "C51", "title": "Outputs report the value of each variable where it belongs", "statement": "After solving, reading component c and variable v gives a table with one entry for each timestep (if v varies in time) and each scenario (if it varies by scenario), each entry being the value that the solver found for that instance of the variable; no other component or variable appears.", "quantifier": "all networks with distinct ids, blocks, scenarios and solver solutions", "why_tests_cant": "Order of indices, shape and naming interact; tests look at a few symmetric cases.", "anchors": ["src/andromede/simulation/output_values.py:OutputValues._build_components,Variable._set,Variable.value", "src/andromede/simulation/optimization.py:OptimizationContext.get_all_component_variables"]}
{"id": "C52", "title": "Solutions of the decomposed problem are compared by cost and candidates", "statement": "Two Benders solutions are equal (close) exactly when the overall costs and the values of the same candidates are equal (close within tolerances); comparison is symmetric.", "quantifier": "all pairs of solutions and tolerances", "why_tests_cant": "Key sets and tolerances are unbounded.", "anchors": ["src/andromede/simulation/output_values.py:BendersSolution.__eq__,is_close"]}
{"id": "C53", "title": "Traversing a decision tree visits every node below once, level by level", "statement": "traverse(depth) called on a node yields that node first, then all its children, then all nodes two levels below, and so on; every node below it appears exactly once, nodes of other subtrees never appear, and with a depth d exactly the nodes fewer than d levels below appear.", "quantifier": "all trees built top-down through the API, all starting nodes and depths", "why_tests_cant": "Trees of any shape and depth.", "anchors": ["src/andromede/simulation/decision_tree.py:DecisionTreeNode.traverse"]}
{"id": "C54", "title": "Comparing models tells whether they are the same model", "statement": "Two models compare equal exactly when they have the same id, constraints, binding constraints, parameters, variables, objectives, ports and port definitions, in any order; the comparison is reflexive and symmetric and always answers. This matters because membership of a component in a network, which coupling constraints of a decision tree rely on, goes through it.", "quantifier": "all pairs of models that model() can build", "why_tests_cant": "Models with any number of entries and expressions of any shape; a test only sees the differences its author thought of.", "anchors": ["src/andromede/model/model.py:Model", "src/andromede/model/constraint.py:Constraint.__eq__", "src/andromede/model/variable.py:Variable.__eq__"]}
{"id": "C55", "title": "Only valid models can be built", "statement": "model() accepts a model exactly when its ports have distinct names, every port definition is about a field of one of its ports, and its objectives are linear and have one value for all timesteps and scenarios; a variable is accepted only if its bounds do not depend on decision variables; a port field definition is accepted only if it contains no comparison, no port and no name of a component. What is accepted is kept as given.", "quantifier": "all arguments of model(), of the variable functions and of port_field_def()", "why_tests_cant": "Expressions of any shape and depth, and any combination of model entries.", "anchors": ["src/andromede/model/model.py:model", "src/andromede/model/model.py:_is_objective_contribution_valid", "src/andromede/model/variable.py:Variable.__post_init__", "src/andromede/model/port.py:_PortFieldExpressionChecker"]}
{"id": "C56", "title": "A decision tree is decomposed into a master that enforces the coupling constraints and one subproblem per node and block", "statement": "A coupling constraint defined on a node is accepted only between variables of the networks of the node and of its parent. The problem built from the tree then has a master whose feasible values are exactly those that are feasible for the investment problem of every node and satisfy, for every constraint defined, cumulative at the node = cumulative at the parent + increment (0 for a root); the cost of the master is the sum of the investment costs of the nodes weighted by their probabilities; and there is one subproblem for each node and block, which is the operational problem of that node over that block.", "quantifier": "all sequences of node creations, coupling constraints and builds; all trees, networks, databases and blocks", "why_tests_cant": "Trees of any shape and any number of coupling constraints, built in any order; python sets are traversed in an arbitrary order.", "anchors": ["src/andromede/simulation/decision_tree.py:DecisionTreeNode.define_coupling_constraint", "src/andromede/simulation/decision_tree.py:DecisionTreeNode._add_coupling_constraints", "src/andromede/simulation/benders_decomposed.py:build_benders_decomposed_problem"]}
{"id": "C57", "title": "A printed expression says what the expression means", "statement": "The text printed for an expression made of numbers, names, port fields and arithmetic is accepted by the expression parser (with the same declared names) and read back to an expression with the same value in every world; in particular two such expressions printed alike have the same value. Comparisons print both sides and their sign.", "quantifier": "all expressions, declared names, worlds, timesteps and scenarios", "why_tests_cant": "Nested signs, sums, quotients and negative literals combine in unboundedly many ways; tests compare a few printed texts.", "anchors": ["src/andromede/expression/print.py:PrinterVisitor", "src/andromede/expression/parsing/parse_expression.py:parse_expression"]}
{"id": "C58", "title": "A study run from its files is the problem its files describe", "statement": "Running the command line on library files, a system file and data files builds a problem that says exactly what the texts say: for every entry of the system, every constraint written in its model holds at every timestep and in every scenario if and only if the corresponding row of the solver's problem is satisfied; the objective is the sum of the objectives written; every variable has the type and the bounds written; decisions of the study and values of the solver's variables correspond. Ports stand for the definitions of the connected entries, parameters for the data given in the file. Library files with a repeated id are refused.", "quantifier": "all library files with texts in the plain part of the grammar, all system files and data files with distinct ids and finite data, all durations and numbers of scenarios, all orders in which sets are walked, all values of the decisions", "why_tests_cant": "It composes reading of texts, library resolution, network building, data lookup, port resolution, operator expansion, linearisation and row creation over arbitrary files and decisions; end-to-end tests only compare one optimal cost per study.", "anchors": ["src/andromede/main/main.py:main_cli", "src/andromede/main/main.py:input_libs", "src/andromede/model/resolve_library.py:resolve_library", "src/andromede/study/resolve_components.py:resolve_system", "src/andromede/study/resolve_components.py:build_data_base", "src/andromede/simulation/optimization.py:build_problem"]}
{"id": "C59", "title": "A converted PyPSA network is the linear problem of that network", "statement": "Converting a PyPSA network and running the study with the library of PyPSA models builds the linear problem that the tables and time series of the network describe: power balance at each bus; dispatch of generators between p_min_pu and p_max_pu times the capacity and total production within e_sum limits; flow of links within their limits; storing, dispatch and state of charge of storage units within their capacity with the cyclic energy balance; energy of stores likewise; CO2 limits and targets summed over the generators by efficiency and carrier; capacities fixed unless extendable, else between their limits; the objective is investment in extendable capacities plus expected marginal costs. Each quantity has its own variable, named after its component.", "quantifier": "all networks with full tables, ids that are distinct in the study and finite data, with any mix of static attributes and time series, all numbers of snapshots and scenarios, all orders in which sets are walked, all values of the decisions", "why_tests_cant": "Tests compare one optimal cost per network with PyPSA's; a constraint that is wrong, missing or attached to the wrong quantity shows only when it is binding.", "anchors": ["src/andromede/pypsa_converter/pypsa_converter.py:PyPSAStudyConverter", "src/andromede/libs/pypsa_models/pypsa_models.yml", "src/andromede/main/main.py:main_cli"]}
{"id": "C60", "title": "Networks with features that a study cannot express are refused, others are converted", "statement": "Conversion of a PyPSA network succeeds only if it has a single investment period, snapshots of weight one, linear costs, no unit commitment, only active components, cyclic storages of sign one and no global constraint other than limits or targets of CO2 emissions; and it does succeed for every such network with complete tables.", "quantifier": "all networks", "why_tests_cant": "Tests convert supported networks; that every unsupported one is refused, whatever else it contains, ranges over all tables.", "anchors": ["src/andromede/pypsa_converter/pypsa_converter.py:_pypsa_network_assertion", "src/andromede/pypsa_converter/pypsa_converter.py:_register_pypsa_globalconstraints", "src/andromede/pypsa_converter/pypsa_converter.py:check_params_consistency"]}
{"id": "C61", "title": "Converting a PyPSA network leaves it as it was", "statement": "After a network has been converted, the object that the caller holds has the same components with the same names, attributes and time series.", "quantifier": "all networks", "why_tests_cant": "Tests build one network per conversion and never look at it afterwards.", "anchors": ["src/andromede/pypsa_converter/pypsa_converter.py:_pypsa_network_preprocessing", "src/andromede/pypsa_converter/pypsa_converter.py:_preprocess_pypsa_components"]}
{"id": "C62", "title": "A converted Antares study has the areas, clusters, storages, loads and links of the study", "statement": "Converting an Antares study gives one component per area, renewable cluster, thermal cluster, short-term storage, non-empty load, wind or solar matrix, link and recognised battery, each with the parameters of that object and the paths of its time series, connected to its area and with nothing else, except that the reserve area and the clusters and links that stand for batteries are left out. The files written are the five series computed for each kept cluster and those of batteries. Ids are distinct and connections name existing components. Studies with regular matrices are converted.", "quantifier": "all studies whose objects are stored under their ids, any number of areas, clusters, links and storages, any previous conversions, any period", "why_tests_cant": "Tests convert a study with one area and a few objects; that no object of a large study is lost, mixed up or exchanged with another's files ranges over all studies.", "anchors": ["src/andromede/input_converter/src/converter.py:AntaresStudyConverter", "src/andromede/input_converter/data/model_configuration/battery.yaml"]}
{"id": "C63", "title": "Batteries modelled by a reserve area become battery components with the capacities of the objects they replace", "statement": "Every area with the link to the reserve, the withdrawal cluster, the stock cluster and the binding constraint of a battery gets a battery component whose capacities, rule curve, modulations and cost are those of these objects: the reservoir and withdrawal capacities are those of the clusters, the injection capacity is the greatest capacity of the link, and the files written hold the series divided by these capacities. This does not depend on earlier conversions in the same process, although the values read are kept in the class.", "quantifier": "all studies, all areas, all series, all values kept from earlier conversions", "why_tests_cant": "Tests convert one area with a battery; areas without battery before it, several batteries and several conversions in one process are never tried.", "anchors": ["src/andromede/input_converter/src/converter.py:_convert_cc_to_component_list", "src/andromede/input_converter/src/data_preprocessing/binding_constraints.py", "src/andromede/input_converter/data/model_configuration/battery.yaml"]}
{"id": "C64", "title": "A converted Antares study can be run, with every production, load and scenario of the study", "statement": "The study that the converter of Antares studies writes can be run with the libraries it refers to: whatever the areas hold (renewable clusters, wind, solar, loads, thermal clusters), in any number of scenarios, the run is accepted, and every area is balanced against its own load.", "quantifier": "all studies, all data directories, any number of timesteps and scenarios", "why_tests_cant": "Tests compare the files written with expected ones and run a few hand-written studies; the converter's output for wind, solar, renewables, several loads or several scenarios is never given to the solver.", "anchors": ["src/andromede/input_converter/src/converter.py", "src/andromede/input_converter/src/data_preprocessing/thermal.py", "src/andromede/libs/antares_historic/antares_historic.yml", "src/andromede/study/resolve_components.py", "src/andromede/study/data.py"]}
{"id": "C65", "title": "The problem built for a converted Antares study is the problem of the study", "statement": "Running the converted study solves the Antares problem: balance of each area with unsupplied energy and spillage at their costs, flows of the links within both capacities, commitment of the thermal clusters (units on, starts, stops, failures, least durations) within the units that the series and the modulation leave available, levels and rule curves of storages, batteries with the capacities of the objects they replace, and a cost that is the sum of the costs of the study in expectation over the scenarios.", "quantifier": "all studies with data for the timesteps asked for, all timesteps, scenarios and decisions", "why_tests_cant": "Tests compare one optimum or compare files; that each constraint, bound and cost is the intended function of the Antares data for all data cannot be observed on examples.", "anchors": ["src/andromede/input_converter/src/converter.py", "src/andromede/input_converter/src/data_preprocessing", "src/andromede/libs/antares_historic/antares_historic.yml", "src/andromede/input_converter/data/model_configuration/battery.yaml", "src/andromede/main/main.py", "src/andromede/simulation/optimization.py"]}
{"id": "C66", "title": "A well-formed problem is built", "statement": "When every parameter of the components has data of a fitting kind covering the block and the scenarios, the expressions of the models use only declared names and connected ports, are affine in the decision variables and can be evaluated, time shifts are integers known in advance, variable bounds depend on parameters only and lower bounds do not exceed upper bounds, and each contribution to the objective is one number, then building the problem ends without an exception, and what is built is the problem of the models.", "quantifier": "all networks, models, databases, blocks, numbers of scenarios, risk strategies and selections of constraints meeting the conditions", "why_tests_cant": "Tests run a few hand-written systems; that no combination of operators, port definitions, data kinds and bounds meeting the documented conditions is refused cannot be established on examples.", "anchors": ["src/andromede/simulation/optimization.py", "src/andromede/expression/operators_expansion.py", "src/andromede/simulation/linearize.py", "src/andromede/expression/port_resolver.py", "src/andromede/study/data.py"]}
{"id": "C67", "title": "A well-written study runs", "statement": "When the libraries depend on each other without a cycle and declare distinct names, the texts of their models can be read in one way only, are affine in the decision variables and bound variables and constraints by formulas on parameters, port definitions contain neither ports, fixed timesteps nor expectations, no expectation is inside another and no fixed timestep inside a sum over a window, the entries of the system name models of the libraries, its connections join ports of the same type with one definition per field, every parameter is given along dimensions that it has, with finite data that covers the timesteps and the scenarios, what stands in brackets is a whole number, and lower bounds do not exceed upper bounds, then running the study from its files ends without an exception up to the call of the solver.", "quantifier": "all library files, system files, data files, durations and numbers of scenarios meeting the conditions, whatever the order in which sets are traversed", "why_tests_cant": "Tests run a few studies; that no combination of well-written files is refused by one of the readers, checks and constructions in between cannot be established on examples.", "anchors": ["src/andromede/main/main.py", "src/andromede/model/resolve_library.py", "src/andromede/study/resolve_components.py", "src/andromede/model/parsing.py", "src/andromede/expression/parsing/parse_expression.py", "src/andromede/simulation/optimization.py"]}
{"id": "C68", "title": "The converted studies that run", "statement": "A PyPSA network whose tables are full, whose ids are distinct and whose data is finite can be converted and the study written can be run up to the call of the solver exactly when its features are those the converter supports, every bus named by a component exists, time series are given only to attributes that may depend on the time, and no lower limit of a quantity exceeds its upper limit. An Antares study with full data and distinct ids, once converted, runs up to the call of the solver exactly when the areas its elements are in are areas of the study, no lower limit exceeds its upper limit, and it has one scenario if it has thermal clusters.", "quantifier": "all PyPSA networks, all Antares studies with their directories of files, durations and numbers of scenarios, whatever the order in which sets are traversed", "why_tests_cant": "The tests convert a few networks and studies; that nothing else makes the run of a converted study fail, and that each listed defect does, is about all tables and files.", "anchors": ["src/andromede/input_converter/data/model_configuration/battery.yaml", "src/andromede/input_converter/src/converter.py", "src/andromede/input_converter/src/data_preprocessing", "src/andromede/libs/antares_historic/antares_historic.yml", "src/andromede/libs/pypsa_models/pypsa_models.yml", "src/andromede/main/main.py", "src/andromede/main/main.py:main_cli", "src/andromede/pypsa_converter/pypsa_converter.py:PyPSAStudyConverter", "src/andromede/simulation/optimization.py"]}
{"id": "C69", "title": "What a run of a decomposed problem gives its command and reads back", "statement": "Running a decomposed problem writes each problem, the structure and the options, whose entries name these files, in a file of its own below the directory of the decomposition, then calls the command there; it returns True exactly if the command ran and returned 0, the solution of the object is then the one this run wrote, of the class of the run asked for, and the working directory is afterwards what it was before, whatever happens.", "quantifier": "all decompositions, names of directories and files, contents of the file system, behaviours of the commands, sequences of runs", "why_tests_cant": "The tests run a few decompositions from a fresh directory with the command installed; what is left by earlier runs, missing commands and commands that cannot be started are about all states of the file system and of the object.", "anchors": ["src/andromede/simulation/benders_decomposed.py:BendersDecomposedProblem.run", "src/andromede/simulation/output_values.py:BendersSolution", "src/andromede/simulation/runner.py:CommandRunner", "src/andromede/utils.py"]}
{"id": "C70", "title": "A decomposed problem means the same as the whole problem", "statement": "When investments depend neither on time nor on the scenario, the master and the subproblems of a tree decompose the whole: values of the candidates and of the subproblems that agree on the candidates are feasible for the master and all subproblems exactly when they satisfy the coupling equations asked for and are feasible for the problem with investments and operation (merged strategy) of every node over every block; when each node has one block the costs are equal too, so both have the same optima. If the parts can be built so can the whole.", "quantifier": "all networks, models, data, trees, coupling equations, values of the variables", "why_tests_cant": "The tests compare the optimum of a few studies with a value computed by hand; that no constraint and no cost is lost, added or counted twice between the two strategies is about all models and all values of the variables.", "anchors": ["src/andromede/simulation/benders_decomposed.py:build_benders_decomposed_problem", "src/andromede/simulation/strategy.py:ModelSelectionStrategy", "src/andromede/simulation/optimization.py:build_problem", "src/andromede/simulation/optimization.py:fusion_problems"]}
{"id": "C71", "title": "The order in which libraries, nodes, components and connections are given does not matter", "statement": "When ids of nodes and components are distinct and no name of a port type has two meanings, giving the libraries, nodes, components and connections of a study in another order changes nothing but the order of the problem: the study runs if and only if it did, and gives the same linear program up to the order of its columns, rows and terms; hence the same values of the named variables are feasible, at the same cost.", "quantifier": "all libraries, system files, data, orders, durations, numbers of scenarios; all networks and settings of build_problem", "why_tests_cant": "The tests give each study in one order; the sums over ports, the dictionaries of models and the merging of terms each depend on the order, and that none of it is visible in the program is about all permutations of all studies.", "anchors": ["src/andromede/simulation/optimization.py:build_problem", "src/andromede/simulation/optimization.py:OptimizationContext.connection_fields_expressions", "src/andromede/study/resolve_components.py:resolve_system", "src/andromede/study/resolve_components.py:build_data_base", "src/andromede/main/main.py:main_cli"]}
{"id": "C72", "title": "A library or system file is read as it says", "statement": "Loading a library or a system succeeds exactly when the content of the file has an entry library (system) that holds only known keys, none twice in its two spellings (with _ or -), the required ones, and values of the right kind; the result holds those values, booleans written as words or 0/1 included, and the documented default for each key left out. The order of keys does not matter. Everything else is refused: TypeError when the file holds no mapping, KeyError when the entry is missing, a validation error otherwise. Every library and every system can be written. An integer as bound of a variable is read as that number.", "quantifier": "all contents of library and system files", "why_tests_cant": "The tests load a dozen files that are right; which mis-typed or mis-spelled content is refused, and that no key is silently dropped, is about all contents.", "anchors": ["src/andromede/model/parsing.py:parse_yaml_library", "src/andromede/study/parsing.py:parse_yaml_components", "src/andromede/utils.py:ModifiedBaseModel"]}
{"id": "C73", "title": "The system file that a converter writes is read back as the system it converted", "statement": "The content written for a system made by the converters, for Antares studies and for PyPSA networks, is accepted by the reader of system files and gives back the same system; so does the content written for any system made with its constructors, whichever optional arguments were left out.", "quantifier": "all Antares studies and PyPSA networks whose conversion succeeds; all systems, all subsets of optional arguments", "why_tests_cant": "The tests compare objects in memory; that the dump (aliases with hyphens, fields left out when not given, numbers and texts kept apart) is inverse to the validation is about all systems.", "anchors": ["src/andromede/input_converter/src/utils.py:transform_to_yaml", "src/andromede/pypsa_converter/utils.py:transform_to_yaml", "src/andromede/study/parsing.py:parse_yaml_components"]}
{"id": "C74", "title": "The simulator's command runs the study that its options speak of", "statement": "The command builds a problem exactly when its options go together (a study directory, or model files and a component file), the files they speak of are libraries and a system, and the study of these files, with the series of the directory given and the duration and number of scenarios given (1 by default), builds that problem. --study D is the same as naming the files of D one by one, in whatever order the disk lists them. Options that do not go together end the program. Without a directory of series, a study naming none runs the same, and one naming some is refused with the time-series import error. A duration or number of scenarios that the study cannot have is refused with a message saying so.", "quantifier": "all command lines, all contents of the disk, all orders of directory listings", "why_tests_cant": "The tests run the command on one or two directories; the equivalence of the two forms, all misuses, and the independence of the order of os.listdir are about all command lines and disks.", "anchors": ["src/andromede/study/parsing.py:parse_cli", "src/andromede/main/main.py:main_cli", "src/andromede/main/main.py:input_libs", "src/andromede/study/data.py:load_ts_from_txt"]}
{"id": "C75", "title": "The converter's command converts the directory it is given into the output it is given", "statement": "The command of the Antares converter converts the study of the directory given with -i, or else of the one its configuration file names, writes in the output directory given with -o, or else in the directory of the study, a system file that reads back as the converted system, and logs in the file given with -l.", "quantifier": "all command lines, configuration files and contents of the disk", "why_tests_cant": "No test runs this command: path checks, the default configuration file, the percent signs that configparser interprets and the options that are read and not used only show for particular combinations.", "anchors": ["src/andromede/input_converter/src/main.py:parse_commandline", "src/andromede/input_converter/src/converter.py:AntaresStudyConverter", "src/andromede/input_converter/src/utils.py:transform_to_yaml", "src/andromede/input_converter/src/logger.py:Logger"]}
{"id": "C76", "title": "A copy with changes differs from the original in the given fields only, and is as valid as a new object", "statement": "x.replicate(**changes), for a parameter, variable, constraint, port, port field definition or model x, is an object of the same class with the fields given and otherwise those of x. It is refused exactly when the constructor would refuse those fields; without changes it equals x. A constraint can be given another comparison, and changing the copy leaves the original alone.", "quantifier": "all objects made by the constructors and all sets of changed fields", "why_tests_cant": "Combinations of changed fields with stored bounds are unbounded; a constraint rewritten from a comparison meets its own validation again.", "anchors": ["src/andromede/model/constraint.py:Constraint.replicate", "src/andromede/model/variable.py:Variable.replicate", "src/andromede/model/parameter.py:Parameter.replicate", "src/andromede/model/port.py:PortFieldDefinition.replicate", "src/andromede/model/model.py:Model.replicate", "src/andromede/model/model.py:ModelPort.replicate"]}
{"id": "C77", "title": "Models and libraries built from objects keep under each name the last object given", "statement": "model(...) holds, under each name, exactly the last constraint, binding constraint, parameter, variable and port field definition given with that name, and all the ports; library(...) holds, under each id, exactly the last port type and model given with it. Objects with distinct names are all kept.", "quantifier": "all lists of objects", "why_tests_cant": "Unbounded lists with arbitrary repetitions.", "anchors": ["src/andromede/model/model.py:model", "src/andromede/model/library.py:library", "src/andromede/model/parameter.py:int_parameter", "src/andromede/model/parameter.py:float_parameter"]}
{"id": "C78", "title": "A system made of two unconnected parts gives the two problems side by side", "statement": "Two systems with different ids, put in one system file, can be simulated if and only if each of them can. The problem then has exactly the variables, rows and objective of the two problems; values are allowed if and only if both parts allow them, they cost the sum of the costs, and when variable names differ the cheapest values of the whole are the cheapest values of each part.", "quantifier": "all libraries, pairs of systems (with any nodes, components, connections), series, durations and numbers of scenarios; all networks and settings", "why_tests_cant": "Interference between components of unrelated parts (port expressions, numbering of columns, names, data) only shows for particular pairs of systems.", "anchors": ["src/andromede/simulation/optimization.py:build_problem", "src/andromede/study/resolve_components.py:resolve_system", "src/andromede/study/resolve_components.py:build_data_base", "src/andromede/main/main.py:main_cli"]}
{"id": "C79", "title": "Data given for something that is not in the network change nothing", "statement": "build_problem with two data bases that hold the same data for the nodes and components of the network gives the same problem or raises the same exception; in particular data can be added for anything else.", "quantifier": "all networks whose connections are between their nodes and components, all settings, all pairs of data bases", "why_tests_cant": "No finite set of data bases covers the lookups of unbounded networks.", "anchors": ["src/andromede/study/data.py:DataBase", "src/andromede/simulation/optimization.py:build_problem"]}
{"id": "C80", "title": "The scenarios of a problem are independent: the problem is the problems of its scenarios put together, at the average cost", "statement": "Take a problem whose constraints use no scenario operator, and for each of its scenarios the same problem with this scenario alone. Every variable and every row of the whole problem is one of the problem of a scenario, with the same bounds, type and coefficients, and all of these are in it. Two scenarios have a variable in common exactly when it does not depend on the scenario. Hence values are allowed in the whole problem if and only if what each scenario sees of them is allowed in its problem; when the objectives are expectations or do not depend on the scenario, their cost is the average of the costs in the scenarios.", "quantifier": "all networks, data, blocks and numbers of scenarios that can be built; all values of the variables", "why_tests_cant": "A row that reads the wrong scenario, or is missing for one of them, only shows for particular models, numbers of scenarios and data.", "anchors": ["src/andromede/simulation/optimization.py:build_problem", "src/andromede/simulation/optimization.py:_create_constraint", "src/andromede/simulation/optimization.py:_create_objective", "src/andromede/simulation/linearize.py:linearize_expression", "src/andromede/study/data.py:get_value"]}
{"id": "C81", "title": "With data of limited precision the problem solved is exactly the one written", "statement": "The code drops coefficients below 1e-16. When every coefficient that the expressions and the data of a problem give is a whole number of 1/D, for some D up to 1e16 which may differ from one expression to the next, nothing is lost: values of the solver's variables are accepted if and only if the decisions they represent are within their bounds and satisfy every constraint of every component at every timestep and in every scenario; the solver's objective is the sum of the objectives of the components; and optimal values are the cheapest plans of the model.", "quantifier": "all networks, data, blocks and numbers of scenarios that can be built with bounds that vary no more than what they bound; all values of the variables", "why_tests_cant": "A term that is wrongly dropped only shows for particular products of data and numbers of scenarios.", "anchors": ["src/andromede/simulation/linear_expression.py:LinearExpression", "src/andromede/simulation/linearize.py:linearize_expression", "src/andromede/simulation/optimization.py:build_problem"]}
{"id": "C82", "title": "An optimal solution of a study given by its files is a cheapest plan of what the files say", "statement": "Run main on libraries, a system and data whose numbers have limited precision (whole numbers of 1/D, D up to 1e16, as products of data and numbers in each text). Values of the solver's variables are accepted if and only if the decisions they stand for are within the bounds written in the libraries, whole where the libraries say integer, and satisfy every constraint written for every entry of the system at every timestep and in every scenario; the cost is the sum of the objectives written; hence a solution is optimal if and only if its decisions are a cheapest plan of the study as it is written.", "quantifier": "all libraries, systems, data, numbers of timesteps and scenarios that main accepts, whose texts are in the fragment of C58; all values of the variables", "why_tests_cant": "The equivalence is about all values of all variables; a run shows one of them.", "anchors": ["src/andromede/main/main.py:main_cli", "src/andromede/simulation/optimization.py:build_problem", "src/andromede/model/resolve_library.py:resolve_library", "src/andromede/study/resolve_components.py:resolve_system"]}
{"id": "C83", "title": "Running a converted Antares study solves exactly the study", "statement": "Convert an Antares study and run the result with the libraries shipped for it. When the numbers of the study by which quantities are multiplied, or that stand alone in a constraint (unit sizes, least powers, costs, efficiencies, loads, inflows), are whole numbers of 1/D, with D*D and D times the number of scenarios at most 1e16, values of the solver's variables are accepted if and only if the decisions they stand for keep every quantity of every area, cluster, storage, link and battery within the limits of the study, numbers of units whole, and satisfy every constraint of the study at every hour and in every scenario. The solver minimises the cost of the study, so that a solution is optimal if and only if its decisions are a cheapest plan of the study.", "quantifier": "all Antares studies of the fragment of C65, periods, numbers of hours and scenarios; all values of the variables", "why_tests_cant": "The equivalence is about all plans of all studies; a run of a converted study shows one of them, and needs another solver to compare with.", "anchors": ["src/andromede/input_converter/src/converter.py:AntaresStudyConverter.process_all", "src/andromede/libs/antares_historic/antares_historic.yml", "src/andromede/main/main.py:main_cli", "src/andromede/simulation/optimization.py:build_problem"]}
{"id": "C84", "title": "Solutions of a converted Antares study conserve energy and units", "statement": "In every solution of the problem of a converted Antares study (as in C83): at every hour, what all areas spill less what they miss is what clusters, storages and batteries produce less the demand, since flows over links cancel; so what is missing is at least the demand less all that can be produced and released; over the horizon, what a storage releases is its inflows and its injections times its efficiency, and what a battery releases times its discharging factor is what it takes times its charging factor; units are started as often as they are stopped, stay on for their least time on if none is lost, and off for their least time off if none is regained. A storage whose inflows are more than it can release makes the problem impossible.", "quantifier": "all Antares studies as in C83, all solutions, hours and scenarios", "why_tests_cant": "Conservation is a property of all solutions, whichever the solver returns; tests look at one.", "anchors": ["src/andromede/input_converter/src/converter.py:AntaresStudyConverter.process_all", "src/andromede/libs/antares_historic/antares_historic.yml", "src/andromede/main/main.py:main_cli", "src/andromede/simulation/optimization.py:build_problem"]}
{"id": "C85", "title": "Running a converted PyPSA network solves exactly the network", "statement": "Convert a PyPSA network and run the result with the library shipped for it. When the numbers of the network, and the inverses of the efficiencies by which powers are divided, are whole numbers of 1/D, with D*D and D times the number of scenarios at most 1e16, values of the solver's variables are accepted if and only if the quantities they stand for are within the limits of the network's tables and satisfy, at every snapshot and in every scenario, the balance of every bus, the limits of dispatch, flow, charge and energy, the balance of every storage unit and store, and every global constraint on emissions. The solver minimises the cost of the network, so that a solution is optimal if and only if its quantities are a cheapest plan of the network.", "quantifier": "all PyPSA networks of the fragment of C59, numbers of snapshots and scenarios; all values of the variables", "why_tests_cant": "The equivalence is about all plans of all networks; comparing the optimal cost of a few networks with that of PyPSA says nothing about which plans are allowed.", "anchors": ["src/andromede/pypsa_converter/pypsa_converter.py:PyPSAStudyConverter", "src/andromede/libs/pypsa_models/pypsa_models.yml", "src/andromede/main/main.py:main_cli", "src/andromede/main/main.py:main_cli"]}
{"id": "C86", "title": "Solutions of a converted PyPSA network conserve energy and keep to the emission limits", "statement": "In every solution of the problem of a converted PyPSA network (as in C85) whose components name buses of the network: at every snapshot, the power that generators, loads, storage units and stores give to the network less what links lose is zero; over the horizon, a store gives nothing but loses its standing losses, and a storage unit dispatches, spills and loses what it stores and receives, each with its efficiency; in every scenario all emissions together are at most the limit, or exactly the target, of every global constraint. If at some snapshot the loads are more than the greatest capacities can give and the stores can hold, the problem has no solution: loads are never shed.", "quantifier": "all PyPSA networks as in C85, all solutions, snapshots and scenarios", "why_tests_cant": "Conservation is a property of all solutions, whichever the solver returns; tests look at one.", "anchors": ["src/andromede/pypsa_converter/pypsa_converter.py:PyPSAStudyConverter", "src/andromede/libs/pypsa_models/pypsa_models.yml", "src/andromede/main/main.py:main_cli", "src/andromede/main/main.py:main_cli"]}
{"id": "C87", "title": "Scenarios can be solved one by one when nothing is shared", "statement": "Take a problem with several scenarios whose costs are averages over the scenarios and have limited precision (C81). What a solution costs is exactly the average, over the scenarios, of what it costs in the problem of each scenario alone. So no solution costs less than the average of the least costs of the scenarios; and solutions that are optimal in every scenario and agree on the variables that do not depend on the scenario make an optimal solution. When every variable depends on the scenario, a solution is optimal if and only if its part in every scenario is optimal for the problem of that scenario.", "quantifier": "all problems as in C80 with costs of limited precision, all solutions", "why_tests_cant": "It compares the optimal solutions of a problem with those of other problems, for every problem; a test compares two numbers returned by the solver.", "anchors": ["src/andromede/simulation/optimization.py:build_problem", "src/andromede/simulation/optimization.py:_create_constraint", "src/andromede/simulation/optimization.py:_create_objective", "src/andromede/simulation/linearize.py:linearize_expression", "src/andromede/study/data.py:get_value"]}
{"id": "C88", "title": "A problem depends only on what its block reads of the data", "statement": "Build a problem for a block of timesteps and a number of scenarios. Replace the block by another one of the same length, and the data base by another one that passes the consistency check and gives, at each step of the new block and for each simulated scenario, the value which the first one gave at the same step of the first block (and the same value where no timestep is read). The problem is then the very same: same variables with the same names and bounds, same rows, same objective. Data at other timesteps and for further scenarios, the place of the block in the year, and whether values are held as constants, series or matrices do not matter. In particular a block with data k timesteps later makes the same problem.", "quantifier": "all problems, blocks, data bases, shifts", "why_tests_cant": "It compares a problem with the problems of all other data that agree where the block reads; a test that finds two equal problems does not rule out a read outside the block, or at a position in the year instead of a step of the block.", "anchors": ["src/andromede/simulation/optimization.py:build_problem", "src/andromede/simulation/optimization.py:block_timestep_to_absolute_timestep", "src/andromede/simulation/optimization.py:_get_parameter_value", "src/andromede/study/data.py:get_value"]}
{"id": "C89", "title": "Loosening limits never hurts", "statement": "Take parameters that the models use only as upper bounds of variables and constraints (capacities, ramps), and others used only as lower bounds. Replace their data by data that are as high or higher for the former, as low or lower for the latter, at every timestep and in every scenario. The problem is still built, with the same variables, rows, coefficients and objective, and bounds that allow at least as much. So every solution is still a solution at the same cost, and the optimal cost does not rise.", "quantifier": "all problems, sets of limits, data bases with looser limits, solutions", "why_tests_cant": "It compares the solutions of a problem with those of every problem with looser limits; a test that raises one capacity looks at one pair of costs.", "anchors": ["src/andromede/simulation/optimization.py:build_problem", "src/andromede/simulation/optimization.py:_create_variables", "src/andromede/simulation/optimization.py:make_constraint", "src/andromede/study/data.py:get_value"]}
{"id": "C90", "title": "Scenarios with the same data change nothing", "statement": "Take a problem whose constraints are about one scenario at a time, whose costs are averages over the scenarios, and whose data are complete and of limited precision. If the data have the same values in all its scenarios, then the problems of its scenarios taken alone are one and the same, and the optimal cost of the whole problem is that of the problem of one scenario, whether or not decisions are shared between scenarios: one is attained just when the other is. Every solution for one scenario serves in all scenarios at the same cost, and every solution for all scenarios gives one for a single scenario that costs no more.", "quantifier": "all problems with any number of scenarios with the same data, all solutions", "why_tests_cant": "It compares the least costs, over all solutions, of problems with any number of scenarios; a test with two equal scenarios looks at one solution of one model.", "anchors": ["src/andromede/simulation/optimization.py:build_problem", "src/andromede/simulation/linearize.py", "src/andromede/study/data.py:get_value", "src/andromede/expression/scenario_operator.py"]}
{"id": "C91", "title": "The order of the scenarios does not matter", "statement": "Take a problem whose constraints are about one scenario at a time, whose costs are averages over the scenarios, and whose data are complete and of limited precision. Give it data that hold the same scenarios in another order. Then decisions are a solution for the first data just when the same decisions, with the scenarios in the new order, are a solution for the other data, and they cost the same. So the optimal cost does not depend on the order of the scenarios, whether or not decisions are shared between them.", "quantifier": "all problems, all numbers and orders of scenarios, all decisions", "why_tests_cant": "It is about every order of any number of scenarios and every solution; a test exchanges two scenarios of one study and compares two costs.", "anchors": ["src/andromede/simulation/optimization.py:build_problem", "src/andromede/simulation/optimization.py:get_scenario_indices", "src/andromede/study/data.py:get_value", "src/andromede/expression/scenario_operator.py"]}
{"id": "C92", "title": "A scenario counts as often as it is repeated", "statement": "Take a problem whose constraints are about one scenario at a time, whose costs are averages over the scenarios, and whose data are complete and of limited precision. Give it other data in which each scenario repeats one of its scenarios, some of them possibly several times and others not at all. Then every solution of the problem, taken in each scenario as in the one that it repeats, is a solution for these data, and conversely if no scenario is left out; its cost is the average of the costs in the repeated scenarios, each counted as often as it occurs. If all scenarios are repeated equally often, in the same order, the optimal cost is the same, whether or not decisions are shared between scenarios.", "quantifier": "all problems, all numbers of scenarios and ways of repeating them, all decisions", "why_tests_cant": "It is about every way of repeating any number of scenarios and every solution; a test doubles the scenarios of one study and compares two costs.", "anchors": ["src/andromede/simulation/optimization.py:build_problem", "src/andromede/simulation/optimization.py:get_scenario_indices", "src/andromede/study/data.py:get_value", "src/andromede/study/data.py:Scenarization"]}
{"id": "C93", "title": "A constraint more never helps", "statement": "Take a problem that is complete and whose data are of limited precision, and leave some constraints out of its models, wherever the models are used. What remains is such a problem too. Decisions are a solution of the whole problem just when they are one of the problem without these constraints and satisfy these constraints at every timestep and in every scenario; they cost the same in both. So the optimal cost without the constraints is at most that with them, and an optimal solution found without them that satisfies them is optimal with them.", "quantifier": "all problems, all choices of constraints left out, all decisions", "why_tests_cant": "It compares the solutions and least costs of a problem with those of every problem with fewer constraints; a test removes one constraint of one model.", "anchors": ["src/andromede/simulation/optimization.py:build_problem", "src/andromede/simulation/optimization.py:_create_constraints", "src/andromede/simulation/strategy.py:get_constraints", "src/andromede/model/model.py:get_all_constraints"]}
{"id": "C94", "title": "The probability of a node scales the cost and leaves the optimal decisions as they are", "statement": "Take a problem that is complete and whose data are of limited precision, and weight it by another positive probability (the risk strategy of a node of a decision tree), the coefficients of the objective still being of limited precision. Decisions are a solution with one weight just when they are one with the other, their costs are in the proportion of the weights, and they are optimal with one just when they are optimal with the other.", "quantifier": "all problems, all positive probabilities, all decisions", "why_tests_cant": "It compares all solutions and the optima of a problem for every pair of weights; a test looks at the coefficients of one objective.", "anchors": ["src/andromede/simulation/strategy.py:ExpectedValue", "src/andromede/simulation/strategy.py:UniformRisk", "src/andromede/simulation/optimization.py:_create_objectives"]}
{"id": "C95", "title": "Letting whole-number variables take any value gives a lower bound of the optimal cost", "statement": "Take a problem that is complete and of limited precision, and the one whose models differ only in that some INTEGER variables are CONTINUOUS; it is complete and of limited precision too. Decisions are a solution of the first just when they are one of the second and give these variables whole values, and cost the same in both. So the optimal cost of the second is at most that of the first, and an optimal solution of the second with whole values is optimal in the first.", "quantifier": "all problems, all choices of variables to relax, all decisions", "why_tests_cant": "It compares all solutions and the optima of two problems for every choice of variables; a test compares two solver runs.", "anchors": ["src/andromede/simulation/optimization.py:_create_variables", "src/andromede/model/variable.py:int_variable", "src/andromede/model/common.py:ValueType"]}
{"id": "C96", "title": "Where the cycle of a block starts does not matter", "statement": "Timesteps wrap around in a block. Take a problem that is complete and of limited precision, and the one whose block has the same timesteps, starting some timesteps later with the first ones put last; let no constraint, objective or port definition name a timestep by its position in the block (shifts and sums are free). Decisions are a solution of the first just when the same decisions, counted from the new start, are one of the second, at the same cost; the optimal costs are the same.", "quantifier": "all problems, all starts, all decisions", "why_tests_cant": "It compares all solutions of two problems for every start of the cycle, and rests on every shift, sum, datum and bound wrapping around in the same way; a test looks at one shift in one block.", "anchors": ["src/andromede/simulation/time_block.py:TimeBlock", "src/andromede/simulation/optimization.py:OptimizationContext", "src/andromede/simulation/optimization.py:build_problem"]}
{"id": "C97", "title": "The objectives of models add up", "statement": "Take a problem that is complete and whose data are of limited precision, the problem whose models keep only some of their objectives (operational or of investments), and the problem whose models keep only the others. All three are built and have the same solutions: objectives do not affect what is feasible. Decisions cost in the first what they cost in the second and in the third together. So the optimal costs of the second and the third together are at most that of the first, and decisions that are optimal in both are optimal in the first.", "quantifier": "all problems, all choices of objectives, all decisions", "why_tests_cant": "It compares the solutions, costs and optima of three problems for every choice of objectives; a test compares a few solver runs.", "anchors": ["src/andromede/simulation/optimization.py:_create_objectives", "src/andromede/simulation/strategy.py:get_objectives", "src/andromede/model/model.py:Model"]}
