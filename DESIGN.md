# Formal model of andromede (GemsPy) — design

Target: `/repo/src/andromede` (python, read as text only). Prover: Coq 8.16.1, standard library only.
The English properties are in `properties.jsonl` (C01...). `MANIFEST.json` maps each one to theorem names.

## 1. How the code is modelled

* **Shallow, function by function.** Every python function or method that matters for a property becomes a total Gallina
  function with the same branches; each definition carries a comment with the file and lines it models.
* **Exceptions are values.** `result A := Ok a | Err kind`; evaluation order follows python where the *kind* of
  exception depends on it.
* **Numbers.** Python floats are modelled by `num := Fin q | PInf | NInf | NaN` with `q : Qc` an exact rational.
  IEEE special-value rules are kept (`inf - inf = nan`, `0 * inf = nan`, comparisons with nan false, division by
  zero raises `ZeroDivisionError` as python does). *Rounding, overflow and signed zero are not modelled.*
  The `EPS = 1e-16` chop of small coefficients is modelled exactly; theorems about whole rows and objectives allow terms
  below it to be missing, at most as many as the expression mentions decisions (`few`, SpecLinear.v).
* **Integers** (time steps, scenarios, shifts) are `Z`; python's `%` and `//` are `Z.modulo`/`Z.div` (both floor).
* **Dicts** are insertion-ordered association lists with python's update semantics (an existing key keeps its place).
* **Mutable objects** become functions returning the new value. Where aliasing itself is the subject (C42), a small
  explicit heap is modelled.
* Loops are folds/structural recursion; fuel is used by the lexer, the parser (C44, C47) and library resolution
  (C32), where running out of fuel is proved impossible.

## 2. What is not modelled (trusted / out of scope)

* OR-tools solver: only the part of its API used to build a problem (NumVar/IntVar/BoolVar, Constraint, SetCoefficient,
  GetCoefficient, Objective, offset), as plain records. Solving is not modelled.
* The ANTLR runtime: `Parse.v` follows the generated rules (precedence climbing) and looks at the next tokens where the
  runtime predicts; ambiguity is resolved for going on with a loop, as ANTLR does (lowest alternative). A character that
  starts no token is an error in the model, whereas the runtime reports and drops it: such texts are outside the model.
* The library anytree (parent/children setters, LevelOrderIter): `Tree.v` models the behaviour the decision tree relies on
  (loop check, detach, attach, roll-back of `children=` after an error); the library itself is not in /repo.
* Reading the text of YAML files (safe_load, dump) and of data files (pandas): the model starts from trees and tables. The validation that pydantic
  does is modelled in `Yaml.v` for the types of the classes of libraries and systems, from the behaviour of pydantic 2.10, whose source is not in /repo.
* The commands of a Benders run (bin/benders, bin/merge_mps), json and the MPS/LP writers: `BendersRun.v` takes them as
  arbitrary functions; directories, and failures to write, are not modelled.
* Float rounding; recursion limits; performance; logging; printing except where listed.
* Parts of the converters other than those listed for C43, C59 and later. PyPSA itself, and pandas except where Pypsa.v says so. `argparse` and `configparser` are modelled in
  `Cli.v` from their documented behaviour (namespaces, defaults, interpolation), not from their source; of main.py, what is done with the solved problem is not.

## 3. Trusted base

1. Coq 8.16.1's kernel (and `coqchk`).
2. The faithful reading of the code: nothing ties the Gallina definitions to the python text except the cited lines.
3. `Print Assumptions` is run beneath every property theorem. Section 6 lists its output.

## 4. File layout (`rocq/theories`)

* `Base.v` numbers, results, dicts. `Expr.v` expression nodes and python operators. `Visitors.v`, `Expansion.v`,
  `LinearExpr.v`, `Linearize.v`, `Study.v`, `Optim.v`, ... the model, one file per area, no proofs.
* `Spec*.v`: small specifications that do not use the model's helpers (denotational semantics of expressions, meaning of
  linear forms, sums over ranges, ...).
* `*Facts.v`: lemmas and proofs.
* `Prop*.v`: only the property theorems (`exact lemma`), non-vacuity `Example`s and `Print Assumptions`.

## 5. Plan per property

| id | modelled | how proved |
|----|----------|------------|
| C01 | node operators, EvaluationVisitor | case analysis on flattening + associativity of `num` addition; `__rsub__` expected to be refuted |
| C02 | CopyVisitor | induction on expressions |
| C03 | ParameterResolver | induction |
| C04 | EqualityVisitor, math.isclose | induction; boolean reflection of structural equality |
| C05 | ExpressionDegreeVisitor | induction against the evaluation semantics; affine along segments |
| C06 | TimeScenarioIndexingVisitor | induction against the denotational time/scenario semantics of `SpecExpr` |
| C07 | `_combine`, IndexingStructure | lattice laws, induction on operand list |
| C08 | ContextAdder | induction; evaluation in component environment |
| C09 | PortResolver | induction; sums over the registry |
| C10 | OperatorsExpansion and Apply* visitors | logical relation between indexed expression at (t,s) and denotational semantics |
| C11 | same | expected refuted for shift above eval; proved for fragment |
| C12 | scenario_operator, ApplyScenario | as C10; nested expectation expected refuted |
| C13 | expand_operators | induction (syntactic invariant) |
| C14 | LinearExpressionBuilder, build | induction; finite sums over keyed terms |
| C15 | build | induction over term list |
| C16 | builder + degree | induction |
| C17 | OptimizationContext lookups | modular arithmetic |
| C18 | Constraint.__post_init__ | case analysis |
| C19 | make_constraint | fold invariant |
| C20 | _compute_indexing, _create_constraint | counting, over the timesteps and scenarios on which the expression depends; the `or` on always-truthy objects expected to refute the bounds part |
| C21 | _create_objective(s) | fold invariant over components |
| C22 | register/get variable | invariant over creation loop |
| C23 | _solver_variable_name, register | refuted in general (name collisions); proved for ids without separators |
| C24 | _create_variables | invariant over creation loop |
| C25 | strategy.py | case analysis |
| C26 | PortsConnection | case analysis over field lists |
| C27 | _register_connection_fields_definitions | fold invariant |
| C28 | data classes | case analysis |
| C29 | requirements_consistency | induction over network; nodes expected to refute |
| C30 | Scenarization, build_scenarization, build_scenarized_data_base | induction over rows |
| C31 | DataBase | induction over histories |
| C32 | resolve_library (`Library.v`); the iteration order of python sets is an arbitrary function | invariant of the import stack, fuel bound; three refutations |
| C33 | _resolve_model | induction |
| C34 | resolve_system, build_network | induction |
| C35 | Network.replicate | heap-free value semantics plus identity of shared containers |
| C36 | OutputValues.Variable | case analysis; shape round trip partly refuted |
| C37 | _are_mappings_close | case analysis over keys |
| C38 | DecisionTreeNode constructor, is_leaves_prob_sum_one | invariants over sequences of constructor calls; induction on depth |
| C39 | export_structure (`Benders.v`) | the text is read back by a small reader in `SpecBenders.v`; the list of entries is a permutation of the columns shared with the master; refuted for long names, equal names of subproblems and candidates that depend on time |
| C40 | fusion_problems (`Fusion.v`) | fold invariants over variables of masters, values of variables by name; refuted for integrality, offsets, rows without terms, shared names, one master |
| C41 | LinearExpression operators | coefficient-level algebra |
| C42 | same with explicit heap | expected refuted for `*` |
| C43 | ThermalDataPreprocessing on tables of numbers (Thermal.v): series, file contents and paths; the text of files and failures of the file system are not modelled | least powers and unit counts by arithmetic on Z and Q; previous hours by division; first hour, default period, zero capacity and single column refuted (PropThermal.v) |
| C44 | ExprLexer, ExprParser, ExpressionNodeBuilderVisitor, parse_expression | parser complete and sound for the written form; induction over written forms; two refutations |
| C45 | build_problem | composition of the above |
| C46 | build_data_base, _build_data | reduction to the scenarised data base without groups |
| C47 | the same as C44 | lexer equals longest-match relation; parser soundness |
| C48 | resolve_library, _resolve_model, _to_variable, _to_constraint | composition of C18, C44 and C32 |
| C49 | the same, Model.__post_init__ | definitions checked; use of unknown ports refuted |
| C50 | LinearExpression.__init__ | induction over terms; coefficients stated exactly for repeated keys, for which the sum is refuted |
| C51 | OutputValues._build_components, Variable._set, value (`Output.v`) | fold of writes to distinct slots, sizes by maximum |
| C52 | BendersSolution | case analysis over keys |
| C53 | traverse | levels as lists; induction on the number of levels |
| C54 | `==` of models | each comparison against a relation on contents; dicts by their lookups; refuted for contents and contexts |
| C55 | model(), variables, port_field_def | acceptance both ways; degree and indexing theorems give the meaning; refuted for ports inside shifts |
| C56 | define_coupling_constraint, _add_coupling_constraints, build_benders_decomposed_problem (`Benders.v`) | histories of events over shared objects; the order of the python set is an arbitrary permutation; the coupling network is built and linearized symbolically, then merged (C40); four refutations |
| C57 | PrinterVisitor (Print.v); the text of a literal (`str`) is a parameter | induction on expressions: the printed text spells the tokens of an unambiguous text (C44), whose meaning is the expression's; other operators refuted (PropPrint.v) |
| C58 | main.py up to the call of the solver (Main.v) | composition of C44, C32, C49, C34, C35, C45 through the objects built from the files: the problem is stated in terms of the texts, entries, connections and data of the files (SpecMain.v) |
| C59 | pypsa_converter.py and pypsa_models.yml (Pypsa.v): tables of components and time series as far as used; writing and reading of files of series as identity on numbers | the converted study is a good study of C58, whose texts are given their readings; each row, cost and bound is then computed from the tables (SpecPypsa.v) |
| C60 | `_pypsa_network_assertion` and all other refusals of the converter | each check decides one clause; each later step is shown to succeed on complete tables |
| C61 | preprocessing of the caller's object | kept attributes by the lemmas of C59; changed names and costs by a witness |
| C62 | converter.py of input_converter and battery.yaml (Antares.v); the antares library's study object as records, reading of matrices as a function, yaml templates as trees | the conversion is computed object by object, through the instantiation of the template for each area; three refutations |
| C63 | the battery loop, DataPreprocessing with its class-level values | cases over the objects present in the study; the values kept are shown to be overwritten before they are read; loop stopped by a missing battery refuted |
| C64 | convert_antares followed by main_cli with the libraries antares_historic and andromede_v1, files written over the directory of the study | what a run needs (C58_needs) against what C62 says is written; two loads by a witness |
| C65 | as C64 | the converted study is a good study of C58; the texts of the models are given their meaning, and parameters their values, read back from the files written (C43, C63) |
| C66 | Optim.build_problem on settings meeting SpecReady.ready_problem | expansion, port resolution, linearisation and bounds each shown to return Ok on ready expressions (ReadyFacts, OptimReady), then along the loops of the construction; faithfulness from C45 |
| C67 | Main.main_cli on studies meeting SpecRun.ready_study, a condition on the texts of the files | texts to expressions (ReadyText), each model and library shown to load (MainLoad), components ready (MainReady), then C66 |
| C68 | both converters followed by Main.main_cli | one way: the converted files meet the conditions of C67 (PypsaReady, AntaresReady); other way: connections of a run are between fitting ports (RunNeeds), variables of a run have bounds in order (C59, C65), series of a run are for parameters that depend on the time (MainNeeds) |
| C69 | BendersDecomposedProblem.initialise/run/read_solution, runner.py, utils.serialize (`BendersRun.v`) | the files and the working directory are a state that is threaded, the commands and the writers arbitrary functions; files of distinct names are found after a fold of writes; refuted for a missing command, a merge followed by a decomposition, a command that raises |
| C70 | no new code: build_problem (`Optim.v`) with the merged, investment and operational strategies (`Strategy.v`), build_benders (`Benders.v`) | expressions of investment do not change between [0] without scenarios and any block with scenarios (`DecomposeFacts.v`), so rows, variables and contributions of the whole are those of the two parts; trees by C56 (`DecomposeTree.v`); columns linked by the structure file by C39 (`DecomposeColumns.v`); refuted for investment constraints that depend on the scenario or on time |
| C71 | no new code: build_problem (`Optim.v`), resolve_system, build_data_base (`System.v`), resolve_library (`Library.v`), main_cli (`Main.v`) | linear forms of the two problems are the same up to the order of sums: expressions that differ by the order of the terms of sums over connections are expanded and linearised to forms with the same terms (`OrderFacts.v`); columns renumbered by a permutation (`OrderProblem.v`); files to networks and data (`OrderFiles.v`); refuted for repeated ids |
| C72 | parsing.py of model and study, utils.py: classes of files, their aliases, forbidden keys, defaults, kinds of values (`Yaml.v`) | what a file says is a relation on trees (`SpecYaml.v`), without order or lookup; the readers reflect it (`YamlFacts.v`), respect the order of keys, and fail only in three ways; a tree for each library and system; refuted: numbers as bounds of constraints, keys without content, ignored keys at the top |
| C73 | transform_to_yaml of both converters, model_dump by alias without unset fields (`Yaml.v`) | reading inverts dumping for all arguments of the constructors; the converters give no groups of scenarios (`YamlConvert.v`), hence their own dumps come back equal |
| C74 | parse_cli, main_cli with its handlers, input_libs, input_study, input_database on files, load_ts_from_txt (`Cli.v`) | the files told by the options, and what they say, are relations (`SpecCli.v`); the command is main_cli (`Main.v`) on them (`CliFacts.v`), with the tables of the files of the series (`CliSays.v`); order of listings from C71 (`CliOrder.v`); refuted for durations below 1 and for the hint |
| C75 | main.py, logger.py of input_converter, the constructor of the converter, configparser's interpolation (`Cli.v`) | texts without percent signs pass configparser unchanged, hence the directory converted (`CliFacts.v`); what a value of a configuration says (doubled percent signs, references to other options at most ten deep) is a relation that interpolation computes exactly (`CliSays.v`); written content read back by C73; refuted for -o, percent signs, the default configuration, the log |
| C76 | replicate of Parameter, Variable, Constraint, PortFieldId, PortFieldDefinition, ModelPort and Model (`Replicate.v`); dataclasses.replace as a function of typed keywords; dictionaries of models by reference | the constructors' theorems (C18, C55) on the fields taken; sharing over the store of dictionaries; three refutations |
| C77 | model(), library(), int_parameter, float_parameter (`Replicate.v`) | induction on lists from the end |
| C78 | build_problem, resolve_system, build_data_base, main_cli; nothing new is modelled | the positions of the instances of each part in the whole, then every step related by the injections; expressions of a part only name its own components; locality of data (C79) for the files |
| C79 | DataBase, build_problem; nothing new is modelled | each step only evaluates expressions that name components of the network |
| C80 | build_problem for the settings of one scenario; nothing new is modelled | the terms of a linear form carry scenario 0 or none, so that reading them in another scenario renames keys; rows at a scenario against rows of its own problem; averages by induction on the objectives; constraints with bounds that alone vary are refuted; the problems of the scenarios are complete when the whole one is (ScenarioReady.v) |
| C81 | nothing new is modelled; what it means that coefficients are whole numbers of 1/D is in SpecPrecise.v | coefficients of linear forms stay whole numbers of 1/D through copies, expansion and linearisation, so that a coefficient below 1e-16 is zero; a coefficient of 1e-17 is lost (refuted outside the limit) |
| C82 | nothing new is modelled; the same condition on texts and files is in SpecPreciseFiles.v | texts of limited precision give expressions of limited precision, then C81 and C58 |
| C83 | nothing new is modelled; the data of an Antares study that have to be of limited precision, and plans, are in SpecAntaresExact.v | such a study is converted into one of limited precision, then C82 and the meaning of rows and limits of C65 (AntaresExact.v) |
| C84 | nothing new is modelled | sums over the cycle of the hours, and over areas and elements, of the constraints of C83 (AntaresLaws.v, AntaresRuns.v) |
| C85 | nothing new is modelled; the data of a network that have to be of limited precision, and plans, are in SpecPypsaExact.v | such a network is converted into a study of limited precision, then C82 and the meaning of rows and limits of C59 and C60 (PypsaExact.v) |
| C86 | nothing new is modelled | sums over the cycle of the snapshots, and over buses and components, of the constraints of C85 (PypsaLaws.v) |
| C87 | nothing new is modelled | costs are exact by C81, averages by C80; a plan of one scenario is put in the place of that scenario in a plan of all (ScenarioExact.v); precision carries over to the scenarios (ScenarioReady.v) |
| C88 | nothing new is modelled; what another block and data base have to give is in SpecBlock.v | every step of the construction reads data only through values at steps of the block and simulated scenarios, because expanded expressions only name those, so a step that succeeds still succeeds with the same outcome (BlockFacts.v) |
| C89 | nothing new is modelled; which parameters are only limits, and what looser data and problems are, is in SpecLoose.v | expressions where no limit occurs have the same values, expansion and linear form; bounds that are limits are compared; the two states stay related through the construction (LooseFacts.v) |
| C90 | nothing new is modelled; what scenarios with the same data are is in SpecSame.v | the problems of the scenarios are equal by C88; a plan of one scenario is copied to all, its cost is the average of equal costs (C80, C81); some scenario costs at most the average (ScenarioSame.v) |
| C91 | nothing new is modelled; orders of scenarios are in SpecReorder.v | the problem of each scenario is the same wherever the scenario stands (C88); decisions are carried over scenario by scenario, and the average does not depend on the order (ScenarioReorder.v) |
| C92 | nothing new is modelled; chosen scenarios are in SpecRepeat.v | as C91, with any choice of scenarios in place of an order; for equal repetition some of the series costs at most the average of all (ScenarioRepeat.v) |
| C93 | nothing new is modelled; models without some constraints are in SpecDrop.v | what is connected to a port, and so the value of every expression, does not depend on constraints; solutions and costs are those of plans by C81 (DropFacts.v); the problem without the constraints is complete because the other one is (ModelChange.v, DropReady.v) |
| C94 | nothing new is modelled; the weight is in SpecRisk.v | plans do not depend on the weight, their cost is a sum that it multiplies; solutions and costs are those of plans by C81 (RiskFacts.v) |
| C95 | nothing new is modelled; relaxing variables is in SpecRelax.v | a plan of the problem is a plan of the relaxed one in which the relaxed variables have whole values, and costs the same; solutions and costs are those of plans by C81 (RelaxFacts.v); the relaxed problem is complete because the other one is (ModelChange.v, RelaxReady.v) |
| C96 | nothing new is modelled; the rotated block is in SpecRotate.v | an expression without fixed positions has in the rotated block at t the value it had at t + r, a sum over the block being the same from any start; solutions and costs are those of plans by C81 (RotateFacts.v); the rotated problem is complete if the first is (RotateReady.v) |
| C97 | nothing new is modelled; keeping some objectives is in SpecShare.v | plans are the same whatever the objectives, and the cost of a plan is a sum over the objectives kept and the others; the problems with fewer objectives are complete because the whole one is (ModelChange.v); solutions and costs are those of plans by C81 (ShareFacts.v) |

## 6. Assumptions

`Print Assumptions` answers "Closed under the global context" for every property theorem. `vcheck` also reports axioms of
Coq.ssr.ssrunder, which come with loading a library file and are used by no theorem.
