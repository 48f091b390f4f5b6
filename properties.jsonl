{"id": "C01", "title": "Bit vectors behave as arrays of booleans", "statement": "After constructing a bit vector of n elements and applying any sequence of set(i), unset(i), invert(i), ones() and zeros(), get(i) returns exactly what an array of n booleans updated the same way holds at i: every operation changes the element it names and no other element.", "quantifier": "every size n, every sequence of operations with in-range indices, every index read", "why_tests_cant": "the number of operation sequences and sizes (crossing 64-bit block borders) is unbounded", "anchors": ["lib/src/bit-array.hpp: bit_array_impl::set(int), unset, invert, get, ones, zeros", "lib/src/bit-array.hpp: bit_array, value_bit_array"]}
{"id": "C02", "title": "Bit vector equality and hash agree with the contents", "statement": "Two bit vectors of the same size compare equal exactly when they hold the same value at each index, and equal vectors have the same hash.", "quantifier": "every pair of bit vectors of the same size reached by any operation sequences", "why_tests_cant": "equality is decided on padded 64-bit blocks, so it depends on the whole history of both vectors", "anchors": ["lib/src/bit-array.hpp: operator==, operator!=, bit_array_hash, ones"]}
{"id": "C03", "title": "set(i, v) stores v", "statement": "set(i, v) makes get(i) return v and leaves every other element unchanged.", "quantifier": "every size, contents, in-range index and both values", "why_tests_cant": "the outcome depends on the bit offset inside the block and the previous contents", "anchors": ["lib/src/bit-array.hpp: bit_array_impl::set(int,bool)", "lib/src/itm-optimizer-common.hpp: best_solution_recorder::mutation"]}
{"id": "C04", "title": "Range assignment copies exactly the requested range", "statement": "assign(other, from, to) makes elements from..to-1 equal to those of other and leaves the rest unchanged.", "quantifier": "all equal-sized pairs of vectors and all ranges from <= to <= size", "why_tests_cant": "the result depends on the block positions of both ends of the range", "anchors": ["lib/src/bit-array.hpp: bit_array_impl::assign"]}
{"id": "C05", "title": "Crossover mixes only the two parents", "statement": "A solution bred from two stored solutions gives each variable the value it has in one of the two parents; in particular, it keeps every value on which the parents agree.", "quantifier": "every pair of parents of any size and every sequence of random 64-bit words", "why_tests_cant": "the random words and the sizes are unbounded", "anchors": ["lib/src/itm-optimizer-common.hpp: storage::crossover"]}
{"id": "C06", "title": "Merging constraints preserves the meaning of the problem", "statement": "Whatever pre-ordering option is selected, a 0/1 assignment satisfies all merged (min <= sum <= max) constraints handed to the solver exactly when it satisfies all the =, >= and <= constraints of the problem.", "quantifier": "every list of constraints, every pre-ordering option, every 0/1 assignment", "why_tests_cant": "the sets of constraints (with repeated left-hand sides of different kinds) and assignments are unbounded", "anchors": ["lib/src/merged-constraint.cpp: make_merged_constraints, fill_merged_constraints, make_ordered_merged_constraints, make_special_merged_constraints"]}
{"id": "C07", "title": "Merging fails only on contradictory problems", "statement": "If constraint merging reports a problem definition failure, no 0/1 assignment satisfies all the constraints.", "quantifier": "every list of constraints and pre-ordering option", "why_tests_cant": "must hold for each of the unboundedly many constraint sets", "anchors": ["lib/src/merged-constraint.cpp: fill_merged_constraints"]}
{"id": "C08", "title": "The selected solver's coefficient assumptions hold", "statement": "The problem class computed for a problem is correct: an '01' class is chosen only if each constraint coefficient is 1, a '101' class only if each is -1 or 1, an 'equalities' class only if there is no inequality; and the smallest such class is chosen. Hence the checks in solver constructors on coefficients never fire.", "quantifier": "every problem", "why_tests_cant": "a statement about every list of constraints", "anchors": ["lib/src/problem.hpp: coefficient_type, which_problem_type", "lib/src/itm-solver-equalities-01.cpp: constructor", "lib/src/itm-solver-inequalities-101.cpp: constructor"]}
{"id": "C09", "title": "Preprocessing is sound", "statement": "For a problem that has at least one 0/1 solution, each 0/1 assignment that satisfies the preprocessed problem, completed with the values fixed by preprocessing, satisfies every constraint of the original problem.", "quantifier": "every satisfiable 0/1 problem whose constraints mention each variable at most once, every assignment of the remaining variables", "why_tests_cant": "the propagation order and the number of fixings depend on the whole problem", "anchors": ["lib/src/preprocessor.cpp: preprocess, preprocessor::affects, try_affect_variable, reduce_*_constraint, constraints_exclude_copy"]}
{"id": "C10", "title": "Preprocessing only fixes forced or objective-safe values", "statement": "Every value fixed by preprocessing because of a constraint is the value the variable has in every 0/1 solution of the original problem.", "quantifier": "every satisfiable 0/1 problem, each of its solutions", "why_tests_cant": "ranges over all problems and all of their solutions", "anchors": ["lib/src/preprocessor.cpp: preprocessor::try_affect_variable, affects"]}
{"id": "C11", "title": "Preprocessing preserves objective values (linear)", "statement": "For a linear objective, the objective value of the preprocessed problem at an assignment equals the value of the original objective at the completed assignment.", "quantifier": "every problem with linear objective, every set of fixed values, every assignment", "why_tests_cant": "a law over all problems and assignments", "anchors": ["lib/src/preprocessor.cpp: objective_function_exclude_copy, make_problem"]}
{"id": "C12", "title": "Preprocessing partitions the variables", "statement": "Each variable of the original problem is, after preprocessing, either fixed (exactly once) or still a variable (exactly once), with its name attached to it, and remaining variables keep their relative order.", "quantifier": "every problem", "why_tests_cant": "ranges over all problems", "anchors": ["lib/src/preprocessor.cpp: variables_exclude_copy, preprocessor::make_problem, pp_lifo"]}
{"id": "C13", "title": "Preprocessing terminates without aborting on satisfiable problems", "statement": "On each satisfiable 0/1 problem preprocessing finishes: the propagation loop stops after at most one step per variable and none of its internal failure exits is reached.", "quantifier": "every satisfiable 0/1 problem", "why_tests_cant": "termination for all inputs is not testable", "anchors": ["lib/src/preprocessor.cpp: preprocessor::affects, operator(), reduce_equal_constraint, reduce_greater_constraint, reduce_less_constraint"]}
{"id": "C14", "title": "Preprocessing keeps an optimal solution (linear)", "statement": "For a satisfiable 0/1 problem with a linear objective the optimal objective values of the original and the preprocessed problems are the same.", "quantifier": "every satisfiable 0/1 problem with linear objective, minimise or maximise", "why_tests_cant": "involves quantification over all assignments of all problems", "anchors": ["lib/src/preprocessor.cpp: try_remove_unused_variable, objective_function_exclude_copy, affects"]}
{"id": "C15", "title": "Preprocessing preserves quadratic objectives", "statement": "For a quadratic objective the value of the preprocessed objective at an assignment equals the original objective at the completed assignment.", "quantifier": "every problem with a quadratic objective, every set of fixed values and assignments", "why_tests_cant": "a law over all problems and assignments", "anchors": ["lib/src/preprocessor.cpp: objective_function_exclude_copy, try_remove_unused_variable"]}
{"id": "C16", "title": "Preprocessing never makes an unsatisfiable problem satisfiable", "statement": "If the original problem has no 0/1 solution then the preprocessed problem has none, or preprocessing reports it.", "quantifier": "every unsatisfiable 0/1 problem", "why_tests_cant": "ranges over all problems", "anchors": ["lib/src/preprocessor.cpp: pp_lifo::emplace, constraints_exclude_copy, is_constraint"]}
{"id": "C17", "title": "is_valid_solution is exact", "statement": "is_valid_solution(problem, result) returns true exactly when the result's last solution, completed with its fixed variables, satisfies every constraint of the problem; it returns false for a result without solution or without success.", "quantifier": "every well-formed problem with at least one variable and whose sums of absolute coefficients fit in an int, every result that gives a value to each problem variable (in any order)", "why_tests_cant": "depends on name lookup and evaluation over unbounded problems", "anchors": ["lib/src/lpcore.cpp: is_valid_solution, is_valid_solution_impl, make_variable_value, compute_function"]}
{"id": "C18", "title": "compute_solution returns the objective value", "statement": "compute_solution(problem, result) returns the constant plus the linear plus the quadratic part of the objective at the result's last solution.", "quantifier": "every problem and every result that gives a value to each problem variable", "why_tests_cant": "unbounded problems", "anchors": ["lib/src/lpcore.cpp: compute_solution, compute_solution_impl, make_variable_value"]}
{"id": "C19", "title": "Result files read back as they were written", "statement": "Reading the text written for a successful result gives back each variable name with its 0/1 value, in order; the result read back is judged valid, and evaluated, as the one written.", "quantifier": "every result whose names contain no newline and no '=' and do not start (after blanks) with a backslash; every header made of comment lines", "why_tests_cant": "a codec law over unbounded inputs", "anchors": ["lib/src/result.hpp: formatter<result>", "lib/src/result.cpp: operator>>(istream&, result&), make_result"]}
{"id": "C20", "title": "The parser sees the exact token sequence of the file", "statement": "Whatever the sequence of token requests, the parser's look-ahead window always shows the next tokens of the input, in order: no token is lost, duplicated or reordered, and looking ahead does not change what is read.", "quantifier": "every input text, every sequence of pop requests", "why_tests_cant": "refill of the window depends on the history of requests and word lengths", "anchors": ["lib/src/parser.cpp: stream_buffer::pop_front, next_token"]}
{"id": "C21", "title": "A malformed LP file yields an error status, not a crash", "statement": "Reading any text as an LP file terminates and produces either a problem or an error status; it never aborts and never loops forever.", "quantifier": "every input text", "why_tests_cant": "all inputs", "anchors": ["lib/src/parser.cpp: parse, stream_buffer::pop_front, read_real"]}
{"id": "C22", "title": "Variables are numbered consistently", "statement": "While a file is parsed, each distinct name gets exactly one number, numbers are 0,1,2,... in order of first occurrence, every use of a name refers to its number, and a repeated term adds its coefficient to the existing one.", "quantifier": "every sequence of terms", "why_tests_cant": "histories of unbounded length", "anchors": ["lib/src/parser.cpp: problem_parser::get_or_assign_variable, append_to_objective, append_to_constraint"]}
{"id": "C23", "title": "Bounds sections are honoured", "statement": "A bound line `x >= a` sets the lower bound of x to a, `x <= b` sets its upper bound to b, and the other bound does not change.", "quantifier": "every variable, operator and value", "why_tests_cant": "covers every line form and previous state", "anchors": ["lib/src/parser.cpp: read_bound, problem_parser::set_bound"]}
{"id": "C24", "title": "LP files round-trip", "statement": "Writing a problem in LP format and reading it back gives a problem with the same objective direction, objective, constraints and variable types.", "quantifier": "every problem with printable names, binary variables and integer coefficients", "why_tests_cant": "a codec law over unbounded inputs", "anchors": ["lib/src/problem.hpp: writer", "lib/src/parser.cpp: parse"]}
{"id": "C25", "title": "Interned names never move or change", "statement": "A string stored in a string_buffer is returned as a view whose contents stay equal to the original string, whatever strings are stored later.", "quantifier": "every sequence of stored strings of length at most 1 MiB", "why_tests_cant": "history property over unbounded sequences", "anchors": ["lib/include/baryonyx/core: string_buffer::append"]}
{"id": "C26", "title": "Accepted solver parameters are always in range", "statement": "After any sequence of context_set_solver_parameters calls, the stored parameters are within the documented ranges; values out of range leave the previous parameter in force.", "quantifier": "every sequence of calls with any finite values", "why_tests_cant": "history property", "anchors": ["lib/src/private.cpp: context_set_solver_parameters"]}
{"id": "C27", "title": "Numeric casts are exact or rejected", "statement": "numeric_cast<T>(v) returns the same mathematical value when it fits in T and throws otherwise.", "quantifier": "every pair of integer types (signed/unsigned, any width), every value", "why_tests_cant": "the pairs of types and values are too many to enumerate", "anchors": ["lib/src/utils.hpp: is_numeric_castable, numeric_cast"]}
{"id": "C28", "title": "Reported objective range is a true range", "statement": "compute_min_max_objective_function returns bounds: every 0/1 assignment has an objective value within them.", "quantifier": "every objective function, each assignment", "why_tests_cant": "all assignments", "anchors": ["lib/include/baryonyx/core-utils: compute_min_max_objective_function"]}
{"id": "C29", "title": "The constraint matrix shows each coefficient once per row and per column", "statement": "In the solver's sparse matrix, row k lists the variables of constraint k in order with distinct consecutive coefficient slots, and column v lists, for exactly the same (row, slot) pairs, all occurrences of v, once each and in row order; indices out of range are contract failures.", "quantifier": "every list of constraints with at least one element, whose variable indices are below the number of columns", "why_tests_cant": "unbounded matrices", "anchors": ["lib/src/sparse-matrix.hpp: sparse_matrix constructor, row, column"]}
{"id": "C30", "title": "Updating a row satisfies that row", "statement": "When the solver processes a constraint that some assignment satisfies, after the update the current assignment satisfies that constraint, and only variables of the constraint have changed.", "quantifier": "each constraint with coefficients in {-1,1}, each satisfiable bound pair, any costs, preferences, multipliers, random ties and any previous assignment", "why_tests_cant": "floating-point values, tie-breaking and history are unbounded", "anchors": ["lib/src/itm-common.hpp: affect, calculator_sort, stop_iterating", "lib/src/itm-solver-equalities-01.cpp, itm-solver-equalities-101.cpp, itm-solver-inequalities-01.cpp, itm-solver-inequalities-101.cpp: select_variables, compute_update_row"]}
{"id": "C31", "title": "The reported number of remaining constraints is exact", "statement": "The number returned after each sweep of the solver over the constraints is the number of constraints the current assignment violates.", "quantifier": "every problem, constraint order option, assignment and sweep history", "why_tests_cant": "histories", "anchors": ["lib/src/itm-common.hpp: compute_order::run, push_and_run, compute_violated_constraints"]}
{"id": "C32", "title": "A solution reported by solve() satisfies the constraints", "statement": "When solve() reports success its solution satisfies all constraints of the (preprocessed) problem and its value is the objective at that solution.", "quantifier": "every problem and run of the solver loop (any random choices, time limits)", "why_tests_cant": "any schedule of time-outs, random draws and sweeps", "anchors": ["lib/src/itm-solver-common.hpp: solver_functor::operator(), store_if_better"]}
{"id": "C33", "title": "The best solution never gets worse during a run", "statement": "During a run, the number of remaining constraints of the recorded best never increases and, once it is zero, its objective value never gets worse; the solution returned is at least as good as every assignment reached at the end of a sweep.", "quantifier": "every run", "why_tests_cant": "history property", "anchors": ["lib/src/itm-solver-common.hpp: solver_functor::store_if_better", "lib/src/itm-common.hpp: is_better_solution"]}
{"id": "C34", "title": "The failure status tells why the solver stopped", "statement": "When no solution was found the status says which limit stopped the run: loop limit, time limit or kappa limit.", "quantifier": "every run", "why_tests_cant": "any schedule", "anchors": ["lib/src/itm-solver-common.hpp: solver_functor::operator()"]}
{"id": "C35", "title": "The exhaustive sub-solver knows every feasible assignment", "statement": "For a constraint with arbitrary integer coefficients the exhaustive sub-solver's table contains an assignment exactly when it satisfies the constraint.", "quantifier": "every constraint with at least two variables", "why_tests_cant": "2^n assignments for every n", "anchors": ["lib/src/exhaustive-solver.hpp: build_constraints"]}
{"id": "C36", "title": "The branch-and-bound sub-solver returns a feasible assignment", "statement": "For a constraint with integer coefficients, if some assignment satisfies it, branch-and-bound returns an assignment that satisfies it.", "quantifier": "every constraint, bounds and costs", "why_tests_cant": "the explored tree depends on all values", "anchors": ["lib/src/branch-and-bound-solver.hpp: solve, make_next_equality, make_next_inequality"]}
{"id": "C37", "title": "The sub-vector pool never hands out overlapping storage", "statement": "In every history of allocations and releases the live sub-vectors have distinct indices, and releasing then allocating reuses storage without aliasing a live one.", "quantifier": "every sequence of emplace/remove", "why_tests_cant": "history property", "anchors": ["lib/src/branch-and-bound-solver.hpp: shared_subvector"]}
{"id": "C38", "title": "The optimizer pool never loses its best solution", "statement": "Under any interleaving of insertions by worker threads, the pool keeps its size and its best member never gets worse.", "quantifier": "every pool size >= 5, every interleaving and insertion sequence, any random victim choice", "why_tests_cant": "schedules", "anchors": ["lib/src/itm-optimizer-common.hpp: storage::insert, choose_a_bad_solution, sort, get_worst"]}
{"id": "C39", "title": "A solution reported by optimize() satisfies the constraints", "statement": "When optimize() reports success, its reported solution satisfies all the constraints.", "quantifier": "every run and interleaving of the workers", "why_tests_cant": "schedules and random draws", "anchors": ["lib/src/itm-optimizer-common.hpp: storage::crossover, replace_result, best_solution_recorder::try_advance, try_update"]}
{"id": "C40", "title": "Worker seeds are distinct", "statement": "The seeds generated for the workers are pairwise distinct, so no two workers replay the same random sequence.", "quantifier": "every random stream and number of workers", "why_tests_cant": "probabilistic collisions practically never show in tests", "anchors": ["lib/src/itm-common.hpp: generate_seed"]}
{"id": "C41", "title": "Cost normalisation preserves the ordering of costs", "statement": "Normalising the costs with any norm option keeps the sign of each cost and the order between costs.", "quantifier": "every cost vector and norm option", "why_tests_cant": "all vectors", "anchors": ["lib/src/itm-common.hpp: default_cost_type::make_l1_norm, make_l2_norm, make_loo_norm"]}
{"id": "C42", "title": "Each sweep visits every constraint it should, once", "statement": "In each sweep, for each order option, the solver visits exactly the constraints violated at its start (or all of them), each once, with valid constraint numbers.", "quantifier": "every problem, order option and assignment", "why_tests_cant": "histories", "anchors": ["lib/src/itm-common.hpp: compute_order::init, run, next_state"]}
{"id": "C43", "title": "The n-queens generator encodes n-queens", "statement": "The 0/1 solutions of the generated n-queens model are exactly the placements of n non-attacking queens.", "quantifier": "every n, every placement", "why_tests_cant": "2^(n*n) assignments for each n", "anchors": ["lib/include/baryonyx/core-test: generate_n_queens"]}
{"id": "C44", "title": "Quadratic marginal costs are the effect of flipping a variable", "statement": "For a quadratic objective, the cost the solver attributes to a variable under an assignment is the change of the objective when the variable goes from 0 to 1.", "quantifier": "every objective, assignment and variable", "why_tests_cant": "all objectives", "anchors": ["lib/src/itm-common.hpp: quadratic_cost_type"]}
{"id": "C45", "title": "Command-line parameters are range checked and never partially applied", "statement": "Each -p name=value option either sets exactly the named parameter to an in-range value or is rejected leaving all parameters unchanged.", "quantifier": "every name and value, every previous parameters", "why_tests_cant": "all strings", "anchors": ["app/src/main.cpp: assign_parameter, split_argument, get_param, parse"]}
{"id": "C46", "title": "Branch optimisation terminates", "statement": "optimize() in branch mode terminates on every problem.", "quantifier": "every problem and every behaviour of the inner optimizer", "why_tests_cant": "non-termination cannot be observed by a test", "anchors": ["lib/src/branch-optimizer.cpp: optimize"]}
{"id": "C47", "title": "Manual tuning tries each parameter combination once and keeps the best", "statement": "optimize() in manual mode runs the optimizer with each combination of tabulated parameters exactly once and returns a result produced with the best combination found.", "quantifier": "every table length and every behaviour of the inner optimizer", "why_tests_cant": "covers every outcome sequence", "anchors": ["lib/src/manual-optimizer.cpp: manual_course::next, optimize"]}
{"id": "C48", "title": "End to end: solve() results are valid for the user's problem", "statement": "When solve() reports success with preprocessing enabled, completing the solution with the fixed variables satisfies all the constraints of the user's (satisfiable) problem and the value reported is the user's objective at that point.", "quantifier": "every satisfiable 0/1 problem, every run", "why_tests_cant": "composition over unbounded inputs and runs", "anchors": ["lib/src/lpcore.cpp: solve", "lib/src/preprocessor.cpp", "lib/src/merged-constraint.cpp", "lib/src/itm-solver-common.hpp"]}
{"id": "C49", "title": "Merging leaves no duplicate left-hand side", "statement": "After constraint merging with the default order, no two merged constraints have the same left-hand side: constraints over the same terms are always combined into one.", "quantifier": "every problem on which merging succeeds", "why_tests_cant": "every list of constraints", "anchors": ["lib/src/merged-constraint.cpp: make_merged_constraints"]}
{"id": "C50", "title": "Constraint order options order as documented", "statement": "With pre-constraint-order 'none' the merged constraints come in file order; with each of the six type orders they come type by type in the requested order, each left-hand side at its first occurrence, its variables sorted by index.", "quantifier": "every problem, each order option, every behaviour of std::sort", "why_tests_cant": "every problem and every tie resolution", "anchors": ["lib/src/merged-constraint.cpp: make_merged_constraints", "lib/include/baryonyx/core: pre_constraint_order"]}
{"id": "C51", "title": "Solver construction accepts satisfiable problems and keeps their meaning", "statement": "For each satisfiable problem without zero coefficient, the solver selected for its class accepts the merged constraints without aborting, and the bounds it keeps for each row (tightened to the reachable range) accept exactly the same 0/1 assignments.", "quantifier": "every satisfiable problem, each merging order", "why_tests_cant": "all coefficients, bounds and assignments", "anchors": ["lib/src/itm.hpp: solve, optimize", "lib/src/itm-solver-*.cpp: constructors"]}
{"id": "C52", "title": "Unsatisfiable problems are reported, not fatal", "statement": "solve() on a problem without solution ends normally with a failure status: constructing the solver never aborts the process.", "quantifier": "every problem", "why_tests_cant": "every combination of coefficients and bounds", "anchors": ["lib/src/itm-solver-inequalities-01.cpp: constructor", "lib/src/itm-solver-inequalities-101.cpp: constructor", "lib/src/itm-solver-inequalities-Z.cpp: constructor"]}
{"id": "C53", "title": "Values fixed by preprocessing respect the bounds", "statement": "If a solution of the preprocessed problem respects the variable bounds, so does its completion for the original problem.", "quantifier": "every satisfiable problem, any bounds, every solution of the preprocessed problem", "why_tests_cant": "The unused-variable rule only looks at the objective; whether it meets bounds depends on all bounds and constraint combinations.", "anchors": ["lib/src/preprocessor.cpp: try_remove_unused_variable", "lib/src/preprocessor.cpp: try_affect_bounded_variable"]}
{"id": "C54", "title": "Splitting a problem on a variable covers exactly its two halves", "statement": "affect(pb, v, b) and split(pb, v) give problems whose solutions, completed, are exactly the solutions of the original with v = b; the objective is preserved.", "quantifier": "every problem, variable and value", "why_tests_cant": "Equality of two solution sets, for every problem.", "anchors": ["lib/src/preprocessor.cpp: affect", "lib/src/preprocessor.cpp: split"]}
{"id": "C55", "title": "Preprocessing gives a well-formed problem that can be preprocessed or split again", "statement": "The result of preprocess (and of a split) has distinct variable names, constraints that mention existing variables at most once and at least two of them, no variable both fixed and remaining, and the same objective direction.", "quantifier": "every satisfiable problem with linear objective", "why_tests_cant": "A closure property over arbitrary chains of preprocess/split.", "anchors": ["lib/src/preprocessor.cpp: preprocess, affect, make_problem"]}
{"id": "C56", "title": "A malformed or missing solution file is reported", "statement": "Reading a solution file that is missing, or has a line that is neither a comment nor name=value, is reported as an error, not as a successful result.", "quantifier": "every file content", "why_tests_cant": "the set of texts is unbounded; tests use well-formed files", "anchors": ["lib/src/result.cpp: make_result, operator>>(istream&, result&), to_int"]}
{"id": "C57", "title": "trim removes exactly the surrounding blanks", "statement": "trim(s) is s without its leading and trailing white space: what is removed is white space only and the result neither starts nor ends with white space.", "quantifier": "every string", "why_tests_cant": "unbounded strings", "anchors": ["lib/src/utils.hpp: left_trim, right_trim, trim"]}
{"id": "C58", "title": "solve() reports the number of violated constraints", "statement": "When solve() reports no success, the number of remaining constraints in its result is the number of constraints the returned assignment violates.", "quantifier": "every problem and run of the solver loop", "why_tests_cant": "any schedule of time-outs, random draws and sweeps", "anchors": ["lib/src/itm-solver-common.hpp: solver_functor::operator(), solve_problem", "lib/include/baryonyx/core: result::remaining_constraints"]}
{"id": "C59", "title": "A push amplifies each variable by its own cost", "statement": "When a row is pushed, the reduced cost of each of its variables is increased by the amplifier times the cost of that same variable.", "quantifier": "every row, assignment, amplifier and cost vector", "why_tests_cant": "the positions of the variables in the rows are unbounded", "anchors": ["lib/src/itm-solver-equalities-01.cpp, itm-solver-equalities-101.cpp, itm-solver-inequalities-01.cpp, itm-solver-inequalities-101.cpp: push_and_compute_update_row"]}
{"id": "C60", "title": "A row update prefers the variables with the best reduced costs", "statement": "Among the variables of an updated row, no variable left aside has a strictly better reduced cost than a variable that was chosen; beyond the number the row requires, no chosen variable has a strictly bad reduced cost, and below the number it allows no variable left aside has a strictly good one.", "quantifier": "every row with coefficients in {-1,1}, costs, preferences, multipliers and tie-breaking", "why_tests_cant": "floating-point values, tie-breaking and history are unbounded", "anchors": ["lib/src/itm-common.hpp: calculator_sort, stop_iterating, affect", "lib/src/itm-solver-inequalities-101.cpp: select_variables, compute_reduced_costs"]}
{"id": "C61", "title": "A run ends", "statement": "With a non-negative loop limit, satisfiable constraints and defined costs, a run of solve() ends without crashing, after at most limit + pushes x (1 + iterations per push) sweeps.", "quantifier": "every problem with coefficients in {-1,1}, parameters, random draws, clock readings and floating-point operations", "why_tests_cant": "unbounded numbers of sweeps, histories and random draws", "anchors": ["lib/src/itm-solver-common.hpp: solver_functor::operator()", "lib/src/itm-common.hpp: compute_order::run, push_and_run"]}
{"id": "C62", "title": "Updating a row with arbitrary integer coefficients satisfies it", "statement": "For every list of constraints with non-zero integer coefficients and bounds and every state of the solver, one update (or push) of a satisfiable constraint leaves an assignment that satisfies the constraint, does not touch the variables outside it and reads or writes nothing out of its arrays.", "quantifier": "all constraints, bounds, costs, states of the solver, random draws and orders of equal reduced costs", "why_tests_cant": "depends on the order given by arbitrary floating point reduced costs and on which of five sub-solvers is picked; a test sees a few orders", "anchors": ["lib/src/itm-solver-inequalities-Z.cpp solver_inequalities_Zcoeff::compute_update_row, push_and_compute_update_row, local_affect, select_variables", "lib/src/exhaustive-solver.hpp", "lib/src/branch-and-bound-solver.hpp"]}
{"id": "C63", "title": "The branch-and-bound sub-solver returns the best fitting assignment", "statement": "Among the assignments of the variables of a constraint that satisfy it, branch-and-bound returns one whose sum of reduced costs is the best in the direction of the objective.", "quantifier": "every constraint, bounds, reduced costs and both directions", "why_tests_cant": "the explored tree depends on all values", "anchors": ["lib/src/branch-and-bound-solver.hpp: solve, solve_equality, solve_inequality, make_next_equality_node, make_next_inequality_node"]}
{"id": "C64", "title": "optimize() never forgets a solution", "statement": "The value optimize() returns is at least as good as that of every assignment satisfying the constraints that a worker reached at the end of a sweep.", "quantifier": "every problem, interleaving of the workers, random draws and parameters", "why_tests_cant": "depends on schedules and on which pool entry each insertion replaces", "anchors": ["lib/src/itm-optimizer-common.hpp: storage::insert, replace_result, sort, choose_a_bad_solution", "optimize_functor::operator()"]}
{"id": "C65", "title": "remaining_constraints of optimize() describes the assignment returned", "statement": "When optimize() finds no solution, the number of remaining constraints it reports is the number of constraints the assignment it returns violates.", "quantifier": "every problem, interleaving, number of sweeps and random draws", "why_tests_cant": "the number and the assignment come from different sweeps only on some runs", "anchors": ["lib/src/itm-optimizer-common.hpp: best_solution_recorder::try_advance, optimize_functor::operator(), optimize_problem"]}
{"id": "C66", "title": "The solutions optimize() returns are ranked", "statement": "Whatever the interleaving of the workers: no entry of the final pool is better than the first solution returned, the option five gives the five best in order, and no solution of the pool is worse than the second of the option bound.", "quantifier": "every pool, interleaving, storage option and initial population", "why_tests_cant": "the ranking is recomputed concurrently with the writes", "anchors": ["lib/src/itm-optimizer-common.hpp: storage::sort, get_best, get_worst, optimize_problem"]}
{"id": "C67", "title": "Quadratic terms name the variables written", "statement": "The quadratic terms read from an LP file are products of the variables that are written in it, each pair once with the sum of its coefficients.", "quantifier": "every input text", "why_tests_cant": "the name is a view whose word may have been overwritten, depending on the words that follow", "anchors": ["lib/src/parser.cpp: read_quadratic_element, stream_buffer"]}
{"id": "C68", "title": "Comments do not change what is read", "statement": "A text from a backslash at the start of a word to the end of the line does not change the tokens that are read.", "quantifier": "every text and comment", "why_tests_cant": "depends on the position of the comment among all words of the file", "anchors": ["lib/src/parser.cpp: stream_buffer::next_token"]}
{"id": "C69", "title": "Legal variable names are accepted", "statement": "A name made of the characters of names that does not start like a number and is not a keyword is read as the name of a variable.", "quantifier": "every name", "why_tests_cant": "all names", "anchors": ["lib/src/parser.cpp: read_real, read_name"]}
{"id": "C70", "title": "A command line is read as documented", "statement": "A command line made of documented options and file names sets exactly what its options ask for, in order, and its files are exactly the arguments that are neither options nor values of options; the first rejected parameter ends the reading and leaves the parameters of the options before it.", "quantifier": "every sequence of documented options in every accepted spelling, every file name not starting with '-'", "why_tests_cant": "the set of command lines is unbounded", "anchors": ["app/src/main.cpp: parse, get_param, split_argument"]}
{"id": "C71", "title": "The error message names the rejected parameter", "statement": "When a parameter of the command line is rejected the message quotes the argument and the name of the rejected parameter.", "quantifier": "every command line with a rejected parameter", "why_tests_cant": "every parameter and every position", "anchors": ["app/src/main.cpp: command_line_status, command_line_status_string, to_string, main"]}
{"id": "C72", "title": "--check checks the solution", "statement": "A command line with --check f makes the program check the solution of the file f.", "quantifier": "every command line", "why_tests_cant": "all command lines", "anchors": ["app/src/main.cpp: parse, main"]}
{"id": "C73", "title": "The values of the help message are accepted", "statement": "Every value that the help message allows for a parameter is accepted.", "quantifier": "every parameter and every text of a documented value", "why_tests_cant": "unbounded values", "anchors": ["app/src/main.cpp: help, assign_parameter"]}
{"id": "C74", "title": "Preprocessing leaves no unconstrained variable", "statement": "In the preprocessed problem each remaining variable is mentioned by a remaining constraint (a variable that no constraint mentions is always fixed).", "quantifier": "every satisfiable well-formed problem", "why_tests_cant": "unbounded problems; depends on propagation order", "anchors": ["lib/src/preprocessor.cpp: try_remove_unused_variable", "lib/src/preprocessor.cpp: make_problem"]}
{"id": "C75", "title": "Row update of the random solver satisfies the row", "statement": "With the random solver, updating a row of a problem whose coefficients are in {-1,1} returns and makes the current assignment satisfy that row, whenever the row is satisfiable, leaving all variables outside the row unchanged.", "quantifier": "every list of rows, every state, every float arithmetic, random sequence, sort and parameter value", "why_tests_cant": "the reduced costs order the variables arbitrarily and the random generator decides where the selection stops: no set of runs covers the orders", "anchors": ["lib/src/random-solver.cpp: solver_random_inequalities_101coeff::compute_update_row", "lib/src/itm-common.hpp: calculator_sort, stop_iterating, is_valid_constraint"]}
{"id": "C76", "title": "A row update that returns has satisfied its row", "statement": "Whatever the solver class selected for the problem, when the update (or push) of a row returns, the assignment has kept its size, satisfies the row as given by the user, and differs from the previous one only on variables of that row.", "quantifier": "all six solver classes, every list of rows, every state, float arithmetic, random sequence, sort and parameter value", "why_tests_cant": "quantifies over all states reachable or not and all float behaviours (including NaN), for six implementations", "anchors": ["lib/src/itm-common.hpp: affect, is_valid_constraint", "lib/src/itm-solver-*.cpp, lib/src/random-solver.cpp: compute_update_row, push_and_compute_update_row"]}
{"id": "C77", "title": "The solution file reads back as a valid solution", "statement": "When a solve with preprocessing reports success for a problem that has solutions, the solution file written by the tool can be read back as a result; that result is judged a valid solution of the problem; for a linear objective, the value recomputed from it is the value printed in the file. (Default solver, or random solver when only equalities remain.)", "quantifier": "every well-formed satisfiable problem with at least one variable, writable names and small coefficients; every float arithmetic, shuffle, parameter, and whatever is printed for times, methods and numbers", "why_tests_cant": "composes preprocessing, search, writing and reading over all problems and random sequences", "anchors": ["app/src/main.cpp: main, resume, solve_or_optimize", "lib/src/result.cpp: operator>>", "lib/src/lpcore.cpp: is_valid_solution, compute_solution, solve"]}
{"id": "C78", "title": "From the LP file to the solution file", "statement": "Called with one LP file whose constraints can be satisfied, if the tool writes a solution file that says a solution was found, then the file gives exactly one value to each variable name of the LP file and contains nothing else but comments; with these values every constraint of the LP file holds as it is written, the bounds hold when they are those of 0/1 variables, and the value printed is that of the objective. (Linear objective; default solver, or random solver when only equalities remain.)", "quantifier": "every text that is a well-formed LP document with a satisfiable set of constraints and small coefficients; every float arithmetic, shuffle, sort, clock and parameter", "why_tests_cant": "the composition of lexer, parser, preprocessing, search and writing over all files cannot be enumerated", "anchors": ["app/src/main.cpp: main, resume", "lib/src/lpcore.cpp: make_problem, solve", "lib/src/parser.cpp", "lib/src/preprocessor.cpp"]}
{"id": "C79", "title": "The exit status tells failures", "statement": "The tool ends with a non-zero status exactly when something failed: a bad command line, a file that cannot be read, or an exception while solving; and it prints a message for each failure.", "quantifier": "every command line, list of files, file system content and solver behaviour", "why_tests_cant": "failures depend on file contents and on the behaviour of the solver on them", "anchors": ["app/src/main.cpp: main"]}
{"id": "C80", "title": "One line per file in the results file", "statement": "Called with several files, the tool writes a results file that has one line for each file, in order, which starts with the name of the file and gives the value of its solution or says that there is none.", "quantifier": "every list of files, file system content and solver behaviour", "why_tests_cant": "ranges over lists of any length and all mixtures of readable, unreadable and failing files", "anchors": ["app/src/main.cpp: main"]}
{"id": "C81", "title": "The summary of a solution file is exact", "statement": "Every solution file starts with the direction of the objective, whether it is linear or quadratic, the numbers of real, general and binary variables and the numbers of constraints of each kind, and these are those of the problem.", "quantifier": "every problem and every result", "why_tests_cant": "ranges over all problems", "anchors": ["app/src/main.cpp: resume", "lib/src/resume.hpp"]}
{"id": "C82", "title": "Without preprocessing, success is always right", "statement": "With preprocessing disabled, when solve() reports success for a problem with at least one constraint, it gives exactly one solution with one value for each variable of the problem in order; it satisfies every constraint and the value reported is the objective there, quadratic terms included; in particular a problem without solution is never reported solved. The same holds for the solution file of the tool, line by line. (Default solver, or random solver on equality problems.)", "quantifier": "every well-formed problem, satisfiable or not, with at least one constraint; every float arithmetic, shuffle, sort and parameter", "why_tests_cant": "quantifies over all problems, random sequences and float behaviours", "anchors": ["lib/src/lpcore.cpp: solve", "lib/src/preprocessor.cpp: unpreprocess", "lib/src/itm.hpp: solve", "app/src/main.cpp: main"]}
{"id": "C83", "title": "The growing table keeps what is written in it", "statement": "After init, any sequence of adding lines, removing the last line and writing existing cells stays inside the storage, the number of lines is the one expected, and reading an existing cell gives the value written last (a default value if none).", "quantifier": "every element type, every initial size, every legal sequence of calls", "why_tests_cant": "sequences are unbounded and the storage grows at sizes a test rarely reaches", "anchors": ["lib/src/dynarray.hpp: dynamic_array"]}
{"id": "C84", "title": "A benchmark table is loaded as it is written", "statement": "Loading any text is defined; a comma separated table with a header of solver names and one row per model is loaded with exactly its names and values, a cell that is not a number counting as no solution.", "quantifier": "every text; every table of any size", "why_tests_cant": "ranges over all texts and tables", "anchors": ["app/src/benchmark.cpp: bench::load"]}
{"id": "C85", "title": "A benchmark adds one column and keeps the table", "statement": "When the benchmark can write the table, the file written is the former table with one more column named as asked, holding for each model the value of the last solution of its run (infinity without a solution), and loading it again gives that table.", "quantifier": "every table, every run of the optimizer, every printing and reading of numbers", "why_tests_cant": "ranges over all tables and results", "anchors": ["app/src/benchmark.cpp: try_benchmark, bench::save"]}
{"id": "C86", "title": "The statistics rank the solvers", "statement": "In the statistics file each row gives the solvers dense ranks: a strictly better value (any solution before none, smaller for minimization, greater for maximization) has a strictly smaller rank, equal values the same rank, ranks have no gap; then come the means of the ranks of each column and the dense ranks of these means.", "quantifier": "every table, every result of the optimizer, every sort algorithm", "why_tests_cant": "ranges over all tables, ties and sort orders", "anchors": ["app/src/benchmark.cpp: bench::save_stats, sort_on_value"]}
{"id": "C87", "title": "The benchmark ends normally", "statement": "A benchmark on a readable table, with readable models and writable files, ends normally and reports success.", "quantifier": "every table and every result of the optimizer", "why_tests_cant": "ranges over all tables", "anchors": ["app/src/benchmark.cpp: benchmark, show_to_console, get_digits_number"]}
{"id": "C88", "title": "The announced number of solutions is exact", "statement": "The benchmark announces the number of models for which a feasible solution was found, and the number of models.", "quantifier": "every table and every result of the optimizer", "why_tests_cant": "ranges over all results", "anchors": ["app/src/benchmark.cpp: try_benchmark"]}
{"id": "C89", "title": "The file of a model", "statement": "For the table base.csv the model m is read from base/m.lp, and a name that already ends in .lp is used as it is.", "quantifier": "every table name and every model name", "why_tests_cant": "ranges over all names", "anchors": ["app/src/benchmark.cpp: have_lp_extension, model::filename, try_benchmark"]}
{"id": "C90", "title": "optimize() answers the user's problem", "statement": "When optimize() with preprocessing reports success, its solutions together with the fixed variables give one value to each variable of the user's problem, each reported value is the user's objective there, and the first solution satisfies every constraint (and the bounds) of the user's problem.", "quantifier": "every well-formed satisfiable problem, every number of threads and interleaving, every tuning mode, solver, storage, parameters, float arithmetic, random draws", "why_tests_cant": "quantifies over all problems and all thread interleavings through preprocessing, tuning, solving and the shared pool", "anchors": ["lib/src/lpcore.cpp optimize", "lib/src/itm.hpp optimize", "lib/src/itm-optimizer-common.hpp optimize_problem", "lib/src/preprocessor.cpp preprocess", "lib/src/manual-optimizer.cpp manual_optimize"]}
{"id": "C91", "title": "optimize() respects the time limit", "statement": "optimize() stops waiting at the first reading of the clock that exceeds a finite limit greater than 0, which takes at most floor(limit) + 1 turns of one second; with a limit of 0, negative, infinite or NaN it never stops.", "quantifier": "every limit (any double) and every behaviour of the clock", "why_tests_cant": "the never-ending case cannot be observed by a test and the clock is arbitrary", "anchors": ["lib/src/utils.hpp is_time_limit", "lib/src/itm-optimizer-common.hpp optimize_problem", "lib/include/baryonyx/core solver_parameters::time_limit"]}
{"id": "C92", "title": "nlopt tuning returns the answer of a run", "statement": "Tuning with nlopt returns the result of an optimization with the parameters the library found, or falls back to manual tuning.", "quantifier": "every behaviour of the nlopt library, every problem and parameters", "why_tests_cant": "the behaviour of the external library is unbounded and adaptive", "anchors": ["lib/src/nlopt-optimizer.cpp nlopt_optimize, nlopt_optimize_fun, param"]}
{"id": "C93", "title": "optimize() with one thread and no preprocessing is right", "statement": "With one thread, without preprocessing and without crossover insertion, whatever the tuning mode and storage: every value optimize() reports on success is the objective (quadratic terms included) at its solution and the first solution satisfies every constraint.", "quantifier": "every problem with distinct names and in-range rows, every schedule, parameters, float arithmetic, random draws", "why_tests_cant": "all runs of a randomised search of unbounded length", "anchors": ["lib/src/lpcore.cpp optimize, unpreprocess", "lib/src/itm.hpp optimize", "lib/src/itm-optimizer-common.hpp optimize_problem, get_thread_number"]}
{"id": "C94", "title": "The initial pool of optimize() is valid", "statement": "Before the threads start, the pool has exactly the requested number of entries; each has one value for each variable, the objective value of that assignment and the exact number of constraints it violates; the entry ranked first is not beaten by any other; with at least two entries one of them is the assignment given by the costs alone. No access is out of bounds.", "quantifier": "every linear or quadratic objective, every set of rows, every population size, every random draw and float arithmetic", "why_tests_cant": "population, problem and draws are unbounded; only a few seeds can be run", "anchors": ["lib/src/itm-optimizer-common.hpp storage::storage", "lib/src/itm-common.hpp init_with_bastert, init_with_random, init_with_pre_solve"]}
{"id": "C95", "title": "The image of the multipliers is a complete file", "statement": "With the pnm observer, a limit of at least 1 and at least one constraint, img-pi.pnm is at the end of the run a PNM file whose header gives one column for each constraint and one line for each allowed sweep, followed by exactly three bytes for each pixel, whatever the number of sweeps made before a solution was found.", "quantifier": "every number of constraints, every limit, every number of sweeps, every value of the multipliers that is a number", "why_tests_cant": "the number of sweeps depends on the run; only a few lengths can be tried", "anchors": ["lib/src/observer.hpp pi_pnm_observer", "lib/src/pnm.hpp pnm_vector"]}
{"id": "C96", "title": "The image of the multipliers shows the multipliers", "statement": "Line k of img-pi.pnm shows the multipliers after sweep k, one pixel for each constraint.", "quantifier": "every number of constraints, every limit, every run", "why_tests_cant": "needs all runs and all values", "anchors": ["lib/src/observer.hpp pi_pnm_observer::make_observation", "lib/src/pnm.hpp pnm_iterator"]}
{"id": "C97", "title": "Observing a run does not make it fail", "statement": "Selecting an observer changes only the files written: it never makes a run fail, whatever the limit, the values observed and whether the files can be created.", "quantifier": "every limit, every observed value, every outcome of opening the file", "why_tests_cant": "failures of the file system and unlimited runs are not reproducible in tests", "anchors": ["lib/src/observer.hpp pi_pnm_observer", "lib/src/pnm.hpp pnm_vector, pnm_iterator, colormap"]}
{"id": "C98", "title": "The images of the preferences show the preferences", "statement": "With the pnm observer each sweep k writes the file img-P-k.pnm, of one line for each constraint and one column for each variable; the pixel of a constraint and a variable it mentions has the colour of the preference of that element, and the other pixels are black.", "quantifier": "every matrix, every run, every value that is a number", "why_tests_cant": "size and content of the matrix are unbounded; large sizes wrap around", "anchors": ["lib/src/observer.hpp ap_pnm_observer", "lib/src/pnm.hpp pnm_array", "lib/src/sparse-matrix.hpp row"]}
{"id": "C99", "title": "The text files of the preferences hold the matrix of preferences", "statement": "With the file observer each sweep k writes the file img-P-k.txt, of one line for each constraint with one number for each variable: the preference of the element when the constraint mentions the variable, 0 otherwise.", "quantifier": "every matrix, every run, every floating-point type", "why_tests_cant": "size and content of the matrix are unbounded", "anchors": ["lib/src/observer.hpp ap_file_observer", "lib/src/sparse-matrix.hpp row"]}
{"id": "C100", "title": "Colours of the images", "statement": "Every number has a colour. It is blue up to the lower bound, green in the middle, red from the upper bound on, linear by quarters in between; red never decreases and blue never increases with the value.", "quantifier": "every pair of bounds, every value", "why_tests_cant": "uncountably many values; rounding and boundary cases", "anchors": ["lib/src/pnm.hpp colormap"]}
{"id": "C101", "title": "The text file of the multipliers has one number for each constraint", "statement": "With the file observer, img-pi.txt has one line for each sweep with one number for each constraint.", "quantifier": "every number of constraints, every run, every content of the uninitialised memory", "why_tests_cant": "depends on uninitialised memory", "anchors": ["lib/src/observer.hpp pi_file_observer"]}
{"id": "C102", "title": "A limit of 0 or less means no limit", "statement": "With a loop limit of 0 or less (documented: infinite loop), no time limit and no bound on kappa, solve() returns only with a solution.", "quantifier": "every problem, solver, order, random draw and float arithmetic", "why_tests_cant": "an infinite run cannot be tested", "anchors": ["lib/include/baryonyx/core solver_parameters::limit", "lib/src/itm-solver-common.hpp solver_functor::operator()"]}
{"id": "C103", "title": "R codes select the documented options", "statement": "In the R functions solve_01lp_problem and optimize_01lp_problem, each numeric code listed by the documentation of the arguments pre_constraint_order, constraint_order, norm, init_policy, float_type and storage_type selects the option documented for it, and every option of the solver has exactly one documented code.", "quantifier": "every documented code of the six arguments and every option of the solver", "why_tests_cant": "a test checks a few codes and sees only the effect of an option on one run, not which option was selected", "anchors": ["rbaryonyx/src/rbaryonyx.cpp: get_pre_constraint_order", "rbaryonyx/src/rbaryonyx.cpp: get_constrait_order", "rbaryonyx/src/rbaryonyx.cpp: get_cost_norm", "rbaryonyx/src/rbaryonyx.cpp: get_init_policy", "rbaryonyx/src/rbaryonyx.cpp: get_floating_point_type", "rbaryonyx/src/rbaryonyx.cpp: get_storage_type"]}
{"id": "C104", "title": "R arguments reach the solver", "statement": "Arguments given to the R functions inside their ranges are the ones the solver uses, each for the parameter of its name, and arguments left out have the documented defaults.", "quantifier": "all values of all arguments in their ranges, both functions", "why_tests_cant": "the arguments are more than twenty numbers; a swapped or dropped one only changes how the search behaves", "anchors": ["rbaryonyx/src/rbaryonyx.cpp: solve_01lp_problem", "rbaryonyx/src/rbaryonyx.cpp: optimize_01lp_problem", "lib/src/private.cpp: context_set_solver_parameters"]}
{"id": "C105", "title": "R value is the value of a solution", "statement": "When an R function reports solution_found, value is the value of the objective of the problem of the file for an assignment that satisfies all its constraints.", "quantifier": "all files, arguments, random numbers and schedules", "why_tests_cant": "which solutions are stored and in which order depends on the random numbers and the schedule of the threads", "anchors": ["rbaryonyx/src/rbaryonyx.cpp: convert_result", "rbaryonyx/src/rbaryonyx.cpp: solve_01lp_problem", "rbaryonyx/src/rbaryonyx.cpp: optimize_01lp_problem"]}
{"id": "C106", "title": "R reports errors", "statement": "An R function reports error_found, and no solution, when the file cannot be read, has errors, or when an exception or internal error stops the run.", "quantifier": "all files, including missing and malformed ones, and all runs", "why_tests_cant": "needs every file and every way a run can fail", "anchors": ["rbaryonyx/src/rbaryonyx.cpp: convert_result", "rbaryonyx/src/rbaryonyx.cpp: solve_01lp_problem", "rbaryonyx/src/rbaryonyx.cpp: optimize_01lp_problem", "lib/src/lpcore.cpp: make_problem"]}
{"id": "C107", "title": "R fields describe the problem and the run", "statement": "In the list returned by the R functions minimize tells the sense of the objective, variables and constraints count those of the problem, and remaining_constraints is 0 when a solution is found and between 1 and constraints otherwise.", "quantifier": "all files, arguments, random numbers and schedules", "why_tests_cant": "the counts depend on what the preprocessing removes and on the whole run", "anchors": ["rbaryonyx/src/rbaryonyx.cpp: convert_result", "lib/src/itm-solver-common.hpp: solve_problem", "lib/src/itm-optimizer-common.hpp: optimize_problem"]}
{"id": "C108", "title": "The quadratic part of a written problem", "statement": "Every problem that has been read can be written, and its quadratic part is written in the LP convention: one bracket divided by two that holds one term per quadratic term of the problem, in order, each with twice its coefficient and the names of its variables (a square for twice the same variable). No bracket is written elsewhere, and none when the objective is linear.", "quantifier": "every well formed problem and every representation of doubles in which halving undoes doubling on its coefficients", "why_tests_cant": "unbounded lists of terms and names", "anchors": ["lib/src/problem.hpp: write_quadratic_element, operator<<(ostream, raw_problem)"]}
{"id": "C109", "title": "The tool with --optimize answers the file", "statement": "When baryonyx, called with --optimize and one LP file whose constraints can be satisfied, writes a solution file that says that a solution is found, that file gives one value, 0 or 1, to each name of the LP file and to no other; with these values every constraint holds as it is written and the value printed is that of the objective.", "quantifier": "every LP file, command line, random engine, floating point arithmetic, number of threads and schedule", "why_tests_cant": "The schedules of the threads and the draws of the engine cannot be enumerated, and the file written depends on the parser, the preprocessor, the optimizer and the printing code together.", "anchors": ["app/src/main.cpp:main,solve_or_optimize,result output", "lib/src/itm-optimizer-common.hpp", "lib/src/private.cpp:context_set_solver_parameters"]}
{"id": "C110", "title": "What the tool prints about its parameters can be given back", "statement": "Each line '- name: value' that baryonyx prints about its parameters when a solver starts, whose name is one of a parameter of -p, can be given back as -p name=value: the option is accepted, gives the parameter the value in force and changes no other parameter. Every parameter in force has such a line.", "quantifier": "every command line, every parameter, every way to print and read numbers that agree on the value printed", "why_tests_cant": "The values printed are the ones of any command line after the corrections of the library, and each must pass the range check of its option.", "anchors": ["app/src/main.cpp:solver_started_cb", "lib/include/baryonyx/core-out", "app/src/main.cpp:assign_parameter", "lib/src/private.cpp:context_set_solver_parameters"]}
{"id": "C111", "title": "No command line puts a parameter out of its range", "statement": "Whatever the arguments, malformed or not, accepted or refused, the parameters with which baryonyx goes on are each in the range that the help message gives for it, and so are the ones the library keeps.", "quantifier": "every list of arguments, every one of the 35 parameters", "why_tests_cant": "Command lines are arbitrary lists of texts; a test covers one of them.", "anchors": ["app/src/main.cpp:parse,assign_parameter,assign_01,assign_0oo", "lib/src/private.cpp:context_set_solver_parameters"]}
{"id": "C112", "title": "The words printed for the choices are the ones of the command line", "statement": "The word that baryonyx prints for a choice (preprocessing, order of the constraints, type of numbers, norm, initialisation, observer, storage, tuning mode) is the one that the command line takes for that choice, and two choices never have the same word.", "quantifier": "every value of every enumeration", "why_tests_cant": "The tables of words are in two files and must agree value by value, for all of them.", "anchors": ["lib/include/baryonyx/core-out", "app/src/main.cpp:assign_parameter,parse"]}
{"id": "C113", "title": "Problems that compare equal can be exchanged", "statement": "== on problems is an equivalence and != its negation; two problems that compare equal have the same variables, the same feasible assignments, the same objective, the same class of solver, and is_valid_solution and compute_solution answer the same for every result.", "quantifier": "every two problems, every result, every assignment", "why_tests_cant": "Equality is between arbitrary problems and must imply the same behaviour on every result.", "anchors": ["lib/include/baryonyx/core-compare", "lib/src/problem.hpp:operator==,operator!="]}
{"id": "C114", "title": "clear() leaves nothing of a problem", "statement": "After clear() a problem has no variable, no constraint and no cost, and compares equal to a new problem.", "quantifier": "every problem", "why_tests_cant": "The contents of the problem before clear() are arbitrary.", "anchors": ["lib/src/problem.cpp:clear"]}
{"id": "C115", "title": "The order of the solutions can be used to sort them", "statement": "operator< on solutions is a strict weak order that puts the larger value first, and solutions that compare equal are not before one another.", "quantifier": "every three solutions", "why_tests_cant": "std::sort is undefined for an order that is not strict and weak; that is a law over all triples of values.", "anchors": ["lib/include/baryonyx/core-compare:operator<(solution),operator==(solution)"]}
{"id": "C116", "title": "Fixed arrays are values", "statement": "A program that constructs, copies, moves, assigns, swaps, writes and destroys arrays of fixed size sees independent values: writing one array never changes another, a copy has the elements of its source, every block of memory belongs to exactly one array and is freed once.", "quantifier": "every sequence of operations on any number of arrays, of any sizes and element type", "why_tests_cant": "aliasing and ownership errors depend on the history of copies, moves and swaps; tests run a few histories", "anchors": ["lib/src/fixed-array.hpp: fixed_array"]}
{"id": "C117", "title": "Cells of a two-dimensional array are independent", "statement": "After any writes, each cell of a two-dimensional array holds the value written there last, accesses outside the array stop the program, assign() fills the cells row after row and a copy has the cells of its source.", "quantifier": "every number of rows and columns, every sequence of writes, every range and every cell", "why_tests_cant": "wrap-around of sizes and wrong strides show only for some shapes", "anchors": ["lib/src/fixed-2darray.hpp: fixed_2darray"]}
{"id": "C118", "title": "Callbacks of a run", "statement": "A user who registers functions for the start, the updates and the end sees, for each call of solve() or optimize() that returns: the start once and first, then updates (only from optimize()), then the end once, last, and with exactly the result that is returned; registering functions does not change the result, and the end is not announced when an exception leaves the call.", "quantifier": "every problem, set of registered functions, set of parameters, number of threads, interleaving and outcome", "why_tests_cant": "the order and number of calls depend on the outcome of the run and on the branch taken in the dispatch; tests register at most one function", "anchors": ["lib/src/itm-solver-common.hpp: solve_problem", "lib/src/itm-optimizer-common.hpp: optimize_problem", "lib/src/private.hpp: context", "lib/include/baryonyx/core: context_register"]}
{"id": "C119", "title": "Updates improve", "statement": "The function registered for the updates is called for improvements: no update reports more remaining constraints than an earlier one nor, with as many, a worse value, and the result returned is not worse than any update reported.", "quantifier": "every problem, parameters, number of threads, interleaving, moments of the updates", "why_tests_cant": "depends on the interleaving of threads with the thread that reports", "anchors": ["lib/src/itm-optimizer-common.hpp: optimize_problem, best_solution_recorder", "lib/include/baryonyx/core: solver_updated_cb"]}
{"id": "C120", "title": "The value printed as best", "statement": "When a run succeeds, the tool prints as \"Best solution found\" the value of the best solution of the result, and no value printed before during the run was better; when a run fails, it prints how many constraints remain.", "quantifier": "every problem, solver, storage of solutions, set of parameters, interleaving", "why_tests_cant": "which of several stored solutions is printed shows only for storages other than the default and for runs with different solutions", "anchors": ["app/src/main.cpp: solver_updated_cb, solver_finished_cb", "lib/src/itm-optimizer-common.hpp: optimize_problem", "lib/src/itm-solver-common.hpp: solve_problem"]}
{"id": "C121", "title": "The generated n-queens file", "statement": "For every size from 3 that an int can hold, the text that the n-queens generator writes is read by make_problem without error, as the problem: minimize the sum of n*n binary variables x_i_j numbered row by row, with constraints whose 0/1 solutions are exactly the placements of n queens no two of which attack each other. Such placements exist for every n from 4, and none for 3; smaller sizes are refused.", "quantifier": "every size n, every board, every behaviour of floating-point reading that reads 1 as 1", "why_tests_cant": "the tests generate one or two sizes; names, separators and numbering must be right for every number of digits and every diagonal", "anchors": ["lib/include/baryonyx/core-test: n_queens, operator<<", "lib/src/problem.cpp: make_problem", "lib/src/parser.cpp: make_problem"]}
{"id": "C122", "title": "The tool on a generated n-queens file", "statement": "When the command line tool is called with a generated n-queens file and the file it writes says that a solution was found, the file gives each cell one value, the cells at 1 are n queens no two of which attack each other, and the objective value printed is n. Without preprocessing, it never says so for n = 3.", "quantifier": "every size, parameters, random choices, floating-point arithmetic, result of the solver, number of steps", "why_tests_cant": "each run shows one trajectory of a randomised solver for one size", "anchors": ["app/src/main.cpp: main", "lib/include/baryonyx/core-test: n_queens", "lib/src/lpcore.cpp: solve"]}
{"id": "C123", "title": "A row update with arbitrary integer coefficients makes the best choice", "statement": "When the solver updates a constraint whose coefficients are not all 1 or -1, the values it gives to the variables of the constraint satisfy the constraint, and no other values that satisfy it have a better total of the reduced costs at the variables set to 1 (smaller for a minimization, larger for a maximization; during a push, the reduced costs plus the amplified costs).", "quantifier": "every constraint of 2 to 9 variables solved through its table, coefficients, bounds, costs, preferences, state of the solver, direction", "why_tests_cant": "each run updates a row in one state; the claim compares the choice with all the other assignments", "anchors": ["lib/src/itm-solver-inequalities-Z.cpp: push_and_compute_update_row, compute_update_row, compute_reduced_costs", "lib/src/exhaustive-solver.hpp: solve"]}
{"id": "C124", "title": "The line of a fault in a benchmark table", "statement": "When a benchmark table cannot be read because of a row (a name with no visible character, or too few values), the error gives the line of that row, whatever precedes it.", "quantifier": "every table, number of solvers and models, text of the faulty row", "why_tests_cant": "the line is computed from all the rows that precede the fault", "anchors": ["app/src/benchmark.cpp: bench::load, read_data_error, model_name_error"]}
{"id": "C125", "title": "The random solver refuses other coefficients", "statement": "When the random solver is selected and the problem handed to it (preprocessed or not) has a coefficient other than -1, 0 and 1, solve and optimize return an internal error and no solution. optimize returns an internal error in no other case, and the other solver never does.", "quantifier": "every problem, parameters, tuning mode, number of threads, schedule and random choices", "why_tests_cant": "a test shows one problem and one run; the claim is about all the ends of a run", "anchors": ["lib/src/itm.hpp: solve, optimize", "lib/src/problem.hpp: which_problem_type", "lib/src/lpcore.cpp: solve, optimize"]}
{"id": "C126", "title": "How a thread of the optimizer starts a new run", "statement": "Between two runs, a thread of optimize goes on from its own assignment with a larger kappa, or takes kappa-min and an assignment in which each variable has its value in one of two different members of the pool (with the insertion, in a member and in the assignment of the costs or a random one). Then each mutated variable takes the value drawn for it and the others keep their values.", "quantifier": "every reachable state of the pool, schedule, parameters, random draws", "why_tests_cant": "the draws and the schedule decide the parents and the mutated variables; the wrong values appear only at some indices", "anchors": ["lib/src/itm-optimizer-common.hpp: reinit, crossover, mutation", "lib/src/bit-array.hpp: set"]}
{"id": "C127", "title": "Objective values computed in double are exact", "statement": "When the coefficients and the constant of the objective function are multiples of one power of two (all integers, for example) and the sum of their absolute values is at most 2^53 times that power, the value of a solution computed in double is the exact one, whatever the order of the terms: by the solver, by compute_solution, and after the preprocessor has moved fixed terms to the constant. Outside of this range it is false: 0.1, 0.2, 0.3 in two orders give two values, and integers above 2^53 are rounded.", "quantifier": "every objective function, linear or quadratic, in that range, every solution, every order of the terms", "why_tests_cant": "Rounding depends on the values and on the order of all the terms; a test on some coefficients says nothing of others.", "anchors": ["lib/src/itm-common.hpp: default_cost_type::results, quadratic_cost_type::results", "lib/src/lpcore.cpp: compute_solution_impl", "lib/src/preprocessor.cpp: objective_function_exclude_copy"]}
{"id": "C128", "title": "Comparisons of values in double are those of the exact values", "statement": "In the range of C127, a solution replaces the best one exactly when its value is strictly better, any solution is better than none, and the minimum and the maximum printed for the objective function are the exact sums and bound the value of every solution.", "quantifier": "every objective function in the range, every two solutions, both modes", "why_tests_cant": "An error of rounding in one of the sums of one objective function is enough to keep the wrong solution.", "anchors": ["lib/src/itm-common.hpp: is_better_solution, bad_value", "lib/include/baryonyx/core-utils: compute_min_max_objective_function"]}
{"id": "C129", "title": "The value in the solution file is that of the written objective function", "statement": "When the numbers of the objective function in an LP file are multiples of one power of two and their absolute values sum to at most 2^53 of these steps, the value printed in the solution file is exactly the sum of the constants and of the terms of the variables that are set, as they are written, including terms of the same variable written several times; and the objective function that the reader returns gives this value in double, to the last bit, for every assignment.", "quantifier": "every LP file in the format, every such objective function, every parameter, random choice and time, every assignment of the variables", "why_tests_cant": "A sum rounded while reading, reducing or evaluating shows only for some coefficients and some solutions.", "anchors": ["lib/src/parser.cpp: append_to_objective", "lib/src/itm-common.hpp: results", "app/src/main.cpp: main", "lib/src/preprocessor.cpp: objective_function_exclude_copy"]}
{"id": "C130", "title": "The pushes revisit only violated constraints", "statement": "After solve() has found a solution, the parameters of the pushes (pushes-limit, pushing-iteration-limit, pushing-k-factor, pushing-objective-amplifier) do not change what it returns, with every order of the constraints but pi-sign-change and cycle; a round of optimize() reports one assignment only. A user who raises them to get a better solution gets the same one.", "quantifier": "every problem, order of the constraints but two, random engine, floating-point arithmetic, clock, and pair of parameters that differ in the pushes", "why_tests_cant": "The number of pushes and of iterations, the random numbers and the problems are unbounded; a test sees an equal value on one problem and cannot tell a local optimum from pushes that do nothing.", "anchors": ["lib/src/itm-common.hpp: compute_order", "lib/src/itm-solver-common.hpp: solver_functor", "lib/src/itm-optimizer-common.hpp: optimize_functor"]}
{"id": "C131", "title": "Problems that split into independent constraints are solved to the optimum", "statement": "When no two constraints share a variable (except bounds on one left-hand side), the coefficients are 1 or -1, the objective function is linear and the problem has a solution, solve() with init-policy bastert, init-policy-random 0, any order of the constraints but pi-sign-change and cycle and at least one iteration returns status success with an optimal solution, with and without preprocessing. With a shared variable this can be false.", "quantifier": "every such problem, pre-ordering of the constraints, kappa, delta, theta, alpha, w, pushes, random engine, and arithmetic whose comparisons order the costs as the coefficients", "why_tests_cant": "The problems are unbounded in number of variables and constraints; a test compares the answer with a known optimum on a few of them.", "anchors": ["lib/src/itm-solver-common.hpp: solver_functor", "lib/src/itm-common.hpp: init_with_bastert, affect, calculator_sort, random_shuffle_unique", "lib/src/itm-solver-inequalities-101.cpp: solver_inequalities_101coeff", "lib/src/itm-solver-equalities-01.cpp: solver_equalities_01coeff"]}
{"id": "C132", "title": "The average distances of a benchmark", "statement": "The benchmark prints, for every other solver of the table, the mean of the relative distances between its values and the new ones over the models that both have solved, and the average distance of the new solutions from the optimum.", "quantifier": "every table and every outcome of the new solver on its models", "why_tests_cant": "The number of models and which of them each solver has solved are unbounded; a test with complete tables sees the right mean.", "anchors": ["app/src/benchmark.cpp: try_benchmark, is_valid"]}
{"id": "C133", "title": "The colours of a benchmark table", "statement": "In the table that the benchmark shows at its end, green marks exactly the best values of each model and blue exactly the worst; every model has one line with the values of the table in order and the new one.", "quantifier": "every table, every outcome of the new solver, every number of models and solvers", "why_tests_cant": "The values, their ties and the models without solution are unbounded; a test fixes a few of them.", "anchors": ["app/src/benchmark.cpp: bench::show_to_console"]}
{"id": "C134", "title": "solve() returns", "statement": "On a problem that has a solution, with coefficients 1 and -1 (and a linear objective function if there is preprocessing), and a non-negative limit of iterations, solve() returns a result whose status is success or limit-reached: it does not abort, throw or loop forever. On independent constraints (C131) the result returned is an optimal solution.", "quantifier": "every such problem, pre-ordering, order of the constraints but pi-sign-change, initial policy, number of pushes, kappa, theta, delta, w, floating-point arithmetic, random draws and clock readings", "why_tests_cant": "no finite set of runs covers every problem, parameter and random history", "anchors": ["lib/src/lpcore.cpp: solve", "lib/src/itm.hpp: solve", "lib/src/itm-solver-common.hpp: solver_functor, solve_problem", "lib/src/preprocessor.cpp: preprocess", "lib/src/merged-constraint.cpp: make_merged_constraints"]}
{"id": "C135", "title": "The tool answers a satisfiable file, optimally when its constraints are independent", "statement": "For every LP file whose constraints have the coefficients 1 and -1 (each variable once in a constraint), with 0/1 bounds and at least one assignment that satisfies them, the command line tool called with this file (default solver, preprocessing, any order of the constraints but pi-sign-change, a limit of iterations that is not negative) ends with the exit status 0, prints no error and writes exactly one solution file. The file either says that a solution is found and gives each variable one value, so that every constraint and bound of the LP file holds and the value printed is the objective; or says that none is found. When two constraints that share a variable always have the same left-hand side, and the parameters are those of C131, the file holds an optimal solution of the LP file. Nothing is assumed of the run.", "quantifier": "all LP files as described, all float arithmetics, random draws, sorting functions and parameters, all texts printed for times and numbers", "why_tests_cant": "total correctness of the whole chain (lexer, parser, preprocessing, solver, writer) over all files and all draws cannot be sampled", "anchors": ["app/src/main.cpp: main, solve_or_optimize, resume", "lib/src/parser.cpp: make_problem", "lib/src/preprocessor.cpp: preprocess", "lib/src/itm-solver-common.hpp: solver_functor", "lib/src/itm-common.hpp: compute_order, init_solver"]}
{"id": "C136", "title": "A larger limit never loses a solution", "statement": "If solve() finds a solution with some limit on the number of iterations, then with a larger limit, or none, and otherwise the same parameters, it returns the same solution.", "quantifier": "all problems, solver classes, orders, floats, random generators and clocks, all limits of the iterations and all larger ones", "why_tests_cant": "A test compares two limits on one problem; the claim is about every pair of limits and every run.", "anchors": ["lib/src/itm-solver-common.hpp: solver_functor::operator()", "lib/src/private.cpp: context_set_solver_parameters", "lib/include/baryonyx/core: solver_parameters::limit, w"]}
{"id": "C137", "title": "More pushes never give a worse solution", "statement": "With a larger number of pushes and otherwise the same parameters, solve() still succeeds when it did, its solution has an objective value that is at least as good, and when it found no solution the result is the same.", "quantifier": "all problems, solver classes, orders, floats, random generators and clocks, all numbers of pushes", "why_tests_cant": "The pushes move the current assignment in ways that depend on the whole history; a test observes a few numbers of pushes on a few problems.", "anchors": ["lib/src/itm-solver-common.hpp: solver_functor::operator(), store_if_better", "lib/include/baryonyx/core: solver_parameters::pushes_limit"]}
{"id": "C138", "title": "A restart of the optimizer gets through its random draws", "statement": "Between two runs a thread of optimize() always finishes drawing: the two solutions that it combines are different members of the pool, and the probabilities of a mutation are in their ranges. It never draws for ever and never reads past the end of the pool.", "quantifier": "all parameters that the context stores, all sizes of the pool, all sequences of random numbers (that enter every interval)", "why_tests_cant": "A loop that draws until a condition holds ends in every test run or in none; which parameters make it endless is a statement about all sequences of numbers.", "anchors": ["lib/src/itm-optimizer-common.hpp: storage::choose_a_solution, storage::crossover, best_solution_recorder::mutation", "lib/src/private.cpp: context_set_solver_parameters"]}
{"id": "C139", "title": "The restarts of the optimizer", "statement": "Whatever the parameters, each new run of a thread of optimize() starts with a kappa between kappa-min and kappa-max, and after a bounded number of restarts the thread combines solutions of the pool.", "quantifier": "all parameters that the context stores, all restarts", "why_tests_cant": "The sequence of restarts is unbounded and depends on three parameters of the user.", "anchors": ["lib/src/itm-optimizer-common.hpp: best_solution_recorder::reinit"]}
{"id": "C140", "title": "A constant in the objective only shifts the values", "statement": "Adding a constant to the objective function changes nothing in the answer of solve() except the values, which are all shifted by that constant: same status, same solutions, same number of loops.", "quantifier": "all problems, all constants, all parameters, all random numbers and clocks", "why_tests_cant": "The whole search would have to be compared on every problem and every constant.", "anchors": ["lib/src/itm.cpp: solver_select", "lib/src/itm-common.hpp: best_solution_recorder", "lib/src/preprocessor.cpp: preprocess"]}
{"id": "C141", "title": "Names do not matter", "statement": "Renaming the variables (with different names) and the labels of the constraints changes nothing in the answer of solve() except the names of the variables.", "quantifier": "all problems, all renamings that keep the names different, all parameters, all random numbers and clocks", "why_tests_cant": "Every problem has infinitely many renamings, and preprocessing, merging and search all carry the problem.", "anchors": ["lib/src/preprocessor.cpp: preprocess", "lib/src/merged-constraints.cpp", "lib/src/itm.cpp"]}
{"id": "C142", "title": "Maximizing is minimizing the opposite", "statement": "solve() on a problem whose objective function and direction are both reversed gives the same status and the same solution, with the opposite value.", "quantifier": "all problems, parameters, random numbers, clocks and floating-point formats", "why_tests_cant": "It relates two complete runs of the search, of arbitrary length, on every problem.", "anchors": ["lib/src/itm-common.hpp: affect, compute_infeasibility, minimize_tag, maximize_tag", "lib/src/itm-solver-common.hpp: solver_functor"]}
{"id": "C143", "title": "Solution files are stored without loss", "statement": "Reading any solution file gives a result whose names are the ones of the file, without writing outside the storage of the names; this storage loses at most half of its memory, its last block apart.", "quantifier": "all solution files, all sequences of names", "why_tests_cant": "The overflow needs a name longer than a block of 1 MiB; the bound on the memory ranges over all sequences of names.", "anchors": ["lib/src/result.cpp: operator>>", "lib/include/baryonyx/core: string_buffer"]}
{"id": "C144", "title": "The size of the problem in the log", "statement": "The size shown when preprocessing starts and ends is the memory of the problem, in a unit that keeps the number readable, for every problem given to solve().", "quantifier": "all problems, read from a file or built in memory", "why_tests_cant": "Ranges over all sizes and all capacities of the vectors.", "anchors": ["lib/src/memory.cpp: memory_consumed, to_string", "lib/src/memory.hpp: memory_consumed_size", "lib/src/preprocessor.cpp: preprocess, unpreprocess"]}
{"id": "C145", "title": "The default of delta", "statement": "When delta is left to its default, solve() uses a value that fits the costs: not negative, not larger than the smallest cost that is not 0, and following the unit of the costs; so the default parameters search as well as explicit ones, also when there is nothing to optimize.", "quantifier": "all costs, all theta between 0 and 1, all problems", "why_tests_cant": "The value depends on all the costs; what it does to the search shows only after many updates.", "anchors": ["lib/src/itm-common.hpp: compute_delta, default_cost_type::min, quadratic_cost_type::min", "lib/src/itm-solver-common.hpp: solver_functor::operator()", "lib/include/baryonyx/core: solver_parameters::delta"]}
{"id": "C146", "title": "A row update makes its own choice the cheap one", "statement": "After the update of a row, the reduced costs recomputed from the new multipliers and preferences agree with the values it gave: when minimising, the variables of the row set to 1 have a reduced cost that is not positive and those set to 0 one that is not negative (and conversely when maximising).", "quantifier": "every problem with coefficients -1 and 1, linear costs, multipliers, preferences, tie-breaking, theta, delta >= 0 and kappa in [0,1[", "why_tests_cant": "the numbers and the history that leads to them are unbounded", "anchors": ["lib/src/itm-common.hpp: affect", "lib/src/itm-solver-equalities-101.cpp: compute_reduced_costs"]}
{"id": "C147", "title": "Updating a row again at once changes nothing", "statement": "If a row is updated twice in a row without fading the preferences, the second update keeps the assignment.", "quantifier": "every row with coefficients -1 and 1, costs, multipliers, preferences, tie-breaking, kappa and positive delta", "why_tests_cant": "the numbers, the tie-breaking and the number of updates are unbounded", "anchors": ["lib/src/itm-common.hpp: affect, calculator_sort", "lib/src/itm-solver-inequalities-101.cpp: compute_update_row"]}
{"id": "C148", "title": "The verbosity decides which messages are printed", "statement": "For every integer given as the verbosity of a context and every run, the messages of the library that are printed are exactly those whose severity is within that level (brought back to 0..7), in order, the serious ones (levels 0 to 4) on the standard error and the others on the standard output; a larger verbosity only adds messages; the option --verbose=n of the tool sets the level n; the tool never prints messages of the level 7; what the automatic tuning says about the parameters it tries (notices) is printed at no verbosity.", "quantifier": "every verbosity, every build, every sequence of messages, every command line", "why_tests_cant": "the level filters every message of every run and the command line is any list of arguments: tests only look at a few levels", "anchors": ["lib/src/private.hpp: message_type, convert_verbose_level, is_loggable, emerg..debug", "app/src/main.cpp: parse, main", "lib/src/manual-optimizer.cpp", "lib/src/branch-optimizer.cpp", "lib/src/nlopt-optimizer.cpp: log_priority"]}
{"id": "C149", "title": "--quiet removes the messages", "statement": "With --quiet on the command line, no message is printed that would not be printed without it, and the only messages left are the ones of failures; the option changes nothing else of the run. In R, verbose = FALSE keeps the messages of the library off the standard output.", "quantifier": "every command line, every build, every sequence of messages", "why_tests_cant": "the option must act whatever other options and messages the run has", "anchors": ["app/src/main.cpp: help, parse, main (params.quiet ? 3 : params.verbose)", "lib/src/private.hpp", "rbaryonyx/src/rbaryonyx.cpp: make_context"]}
{"id": "C150", "title": "Scaling the objective", "statement": "Multiplying the whole objective by a positive constant does not change what solve() answers: the same status and the same solution, with its value multiplied by the constant.", "quantifier": "every problem, positive constant, norm of the costs, set of parameters, sequence of random numbers and clock", "why_tests_cant": "the answer is the end of a long sequence of comparisons of reduced costs; a test compares a few runs and cannot show that no comparison of any run changes", "anchors": ["lib/src/itm-common.hpp: normalize_costs, make_l1_norm, make_l2_norm, make_loo_norm, compute_delta", "lib/src/itm-solver-common.hpp: solver_functor", "lib/src/lpcore.cpp: solve"]}
{"id": "C151", "title": "An interrupted run leaves no wrong solution file", "statement": "Whatever the moment at which the command line tool (one file) is stopped, while it solves or while it writes, if the solution file that is left is read and judged to be a valid solution of the problem, then it is the solution that the run has found.", "quantifier": "all LP files read as problems with a solution, solver settings, seeds; all crash points: every request to the file system and every first part of what is still in the buffer of the stream", "why_tests_cant": "The crash can happen between any two characters of any solution file, and buffering decides how much reaches the file.", "anchors": ["app/src/main.cpp: main", "lib/src/result.cpp: operator>>", "lib/src/lpcore.cpp: is_valid_solution"]}
{"id": "C152", "title": "Results already obtained survive an interruption", "statement": "When the tool called with several files is stopped, what is left in the results file starts with all that has been written up to the last file that was answered, and is a first part of what the whole run would have written.", "quantifier": "all lists of files, solvers, and moments of the interruption", "why_tests_cant": "Depends on where the run stops and on what the stream keeps in its buffer at that moment.", "anchors": ["app/src/main.cpp: main"]}
{"id": "C153", "title": "An interrupted benchmark keeps the table", "statement": "Whatever the moment at which a benchmark is stopped, the file of the table holds the former table or the new one.", "quantifier": "all tables, models, results of the optimizer, and moments of the interruption", "why_tests_cant": "The moment of the crash ranges over all the writes, and no test stops the program inside them.", "anchors": ["app/src/benchmark.cpp: try_benchmark, bench::save"]}
{"id": "C154", "title": "A problem file that is cut is not read as another problem", "statement": "Whatever the place at which an LP file is cut, because its writing or its copy was interrupted, reading what is left is refused, or gives the problem of the whole file.", "quantifier": "all LP documents and problems, all places of the cut, all numbers", "why_tests_cant": "The cut may be at any character of any file, and what is left may happen to be a legal file.", "anchors": ["lib/src/parser.cpp: parse, make_problem, read_end", "lib/src/problem.hpp: write_problem"]}
{"id": "C155", "title": "A constraint that says nothing new changes nothing", "statement": "Adding to a problem a constraint that repeats an earlier one, or that has its terms and a looser bound, does not change what solve() and optimize() do: the same status, solutions, values and number of constraints, for the same random numbers and clock.", "quantifier": "all problems, all constraints added, all parameters, numbers, random numbers, clocks and schedules", "why_tests_cant": "The number and the places of the constraints added are not bounded, and the same run has to be compared for every problem and every sequence of random numbers.", "anchors": ["lib/src/merged-constraint.cpp: fill_merged_constraints, make_merged_constraints", "lib/src/preprocessor.cpp: preprocessor", "lib/src/problem.hpp: which_problem_type", "lib/src/lpcore.cpp: solve, optimize"]}
{"id": "C156", "title": "Where the lines of the constraints stand in the file", "statement": "solve() gives the same result (same end, same status, same solutions, same counts) for two files that state the same constraints, those of each operator in the same order, but mix the lines with =, >= and <= in another way or number them with gaps.", "quantifier": "every problem, every other placement of its lines, every preprocessing option, pre-order, parameter, random sequence and clock", "why_tests_cant": "There are infinitely many problems and placements; a test compares two files under one seed, and the effect depends on the pre-order and on every later random draw.", "anchors": ["lib/src/merged-constraint.cpp: make_unsorted_merged_constraints, make_ordered_merged_constraints, make_special_merged_constraints", "lib/src/preprocessor.cpp: preprocess", "lib/src/itm-common.hpp: solver_functor"]}
{"id": "C157", "title": "The order of the terms inside a constraint", "statement": "solve() gives the same result when the terms of the constraints are written in another order (x + y = 1 or y + x = 1).", "quantifier": "every problem whose constraints name each variable once, every reordering of terms, every parameter, random sequence and clock", "why_tests_cant": "A test compares one reordering under one seed; the merged rows, the class of solver and all sums of the run must agree for every reordering.", "anchors": ["lib/src/merged-constraint.cpp: improve_memory_usage, make_merged_constraints", "lib/src/problem.hpp: coefficient_type"]}
{"id": "C158", "title": "Integer sums do not overflow", "statement": "If in every constraint the absolute values of the coefficients and of the right-hand side sum to at most 2147483647, then no int operation of the preprocessor, of the assignment of a variable, of the tests and distances of rows, of the constructor for arbitrary coefficients, of the exhaustive tables or of the branch-and-bound overflows: each computes what it would with unbounded integers, and the preprocessed problem meets the same condition.", "quantifier": "all problems, pre-orders, solver classes, assignments, rows, orders of the coefficients in the buffer and floating-point behaviours", "why_tests_cant": "tests use small coefficients; an overflow is undefined behaviour that may not show, and the space of coefficients, assignments and orders is unbounded", "anchors": ["lib/src/preprocessor.cpp sum_factor reduce constraints_exclude_copy", "lib/src/itm-common.hpp is_valid_constraint infeasibility_local_compute_violated_constraints", "lib/src/itm-solver-inequalities-Z.cpp solver_inequalities_Zcoeff", "lib/src/exhaustive-solver.hpp build_constraints", "lib/src/branch-and-bound-solver.hpp solve"]}
{"id": "C159", "title": "The accepted LP files are exactly the readable ones", "statement": "make_problem accepts an LP text without square brackets if and only if its words form a direction, an optional label, a sum, and in this order the optional constraints, bounds, binary and general parts and the word end; the problem it returns is then the one these words describe (names numbered in order of first use, coefficients summed, the last bounds line of a variable counts). Two ways to cut a text into such parts describe the same problem.", "quantifier": "every text whose words fit the buffer (no word of exactly 320 characters), every number scanner, every problem", "why_tests_cant": "the set of accepted texts is infinite; a test shows that some texts are accepted or refused, not that nothing else is accepted nor that no accepted text gets another meaning", "anchors": ["lib/src/parser.cpp: make_problem, parse", "lib/src/parser.cpp: read_function_element, read_bound, read_subject_to"]}
{"id": "C160", "title": "Every word of an accepted file counts", "statement": "When make_problem accepts an LP text, each of its words has a part in the problem: no word can be replaced by an arbitrary one without effect.", "quantifier": "every accepted text", "why_tests_cant": "tests compare a few texts; that no word is passed over must hold for all", "anchors": ["lib/src/parser.cpp: read_bound, parse"]}
{"id": "C161", "title": "The error of a refused LP file names the first section that cannot be read", "statement": "When make_problem refuses a file without square brackets with an error, the error names the first section of the file that cannot be read (direction, objective, constraints, bounds, binary, general, end, or what follows the end): every section before it can be read by the grammar of C159 and this one cannot. A file that stops after its last constraint is reported as a bad end. An error about the binary or general variables means that a word of this section is not a variable of the problem, or that no keyword follows.", "quantifier": "every LP text, every conversion of numbers for which an empty text is not a number", "why_tests_cant": "The fault may be anywhere in a file of any length; a test checks a few wrong files.", "anchors": ["lib/src/parser.cpp: make_problem, parse, read_objective_type, read_function_element, read_operator, read_bound, set_boolean_variable, set_integer_variable, read_end"]}
{"id": "C162", "title": "Where reading an LP file gets no answer", "statement": "Reading an LP file without square brackets and without a word of exactly 320 characters gives a problem or an error, except in the following cases. The program is stopped by an assertion or undefined behaviour: in the objective, after complete elements, at a word that starts no element and is no keyword, or at the end of the file; in a constraint, after its label and complete elements, at a word that starts no element and is no operator after at least one element, at an element whose coefficient is not an int, or after the operator when there is no value or the value is not an int; in the bounds, at a line for a known variable with a limit that is neither infinite nor an int. The program reads for ever only when the file ends inside the names of the binary or general variables, and an element of a constraint is a constant without a variable. When moreover no word that the conversion of numbers accepts is a keyword or unlike a number or a name, these descriptions are exact: at such a place the program always stops, whatever follows in the file, and it reads such a file for ever.", "quantifier": "every text without square brackets and without a word of 320 characters, every conversion of numbers that refuses the empty word, every number of reading steps above the number of words", "why_tests_cant": "the texts are unbounded, and a test that crashes or hangs shows one of them; only a proof shows that no other text stops the program", "anchors": ["lib/src/parser.cpp: parse, read_function_element, read_bounds, read_binary, read_general, make_problem, stream_buffer::pop_front"]}
{"id": "C163", "title": "The words of an LP file decide the outcome of reading it", "statement": "An LP file without square brackets and without unusual words is in exactly one of four classes, described only by its words: a sequence of readable sections that reaches the end, which is accepted; a file with a first section that cannot be read, which is refused with the error of that section; a file with a place where the program stops; a file that is read for ever. make_problem gives the error e exactly when e is the error of the first section that cannot be read and the file is in neither of the last two classes, and no file has two different first faults. A section counts as missing only if its keyword is not there, and a label or a colon that is there belongs to its section.", "quantifier": "every LP text without square brackets whose numbers look like numbers or names and are no keywords, every conversion of numbers that refuses the empty word and knows its infinities", "why_tests_cant": "A test looks at one file; that the classes cover all files and do not overlap is a statement about all of them.", "anchors": ["lib/src/parser.cpp: parse, make_problem, read_subject_to, read_bounds, read_binary, read_general, read_end, try_read_objective_label"]}
{"id": "C164", "title": "The start of a run is the one the option init-policy asks for", "statement": "Every run of solve() starts from an assignment that the option init-policy describes. With bastert a variable is set exactly when its cost makes the objective better. With pessimistic-solve and optimistic-solve all the constraints are solved one after the other: the variables of the constraint are put in order, best for the objective first, the first t of them are set, the others are cleared, and no other variable changes. pessimistic-solve takes the smallest t that satisfies the constraint; optimistic-solve takes the largest t that satisfies it such that no variable after the smallest t makes the objective worse; both take 0 if no t does. Then variables are inverted with probability init-policy-random. When none is inverted, a constraint whose coefficients are all 1, that can be satisfied and that shares no variable with later constraints is satisfied by the start; pessimistic-solve sets as few of its variables as the bounds allow, optimistic-solve all those that do not make the objective worse, as far as the bounds allow; with integer costs no assignment that satisfies the constraint has a better value on its variables than the start of optimistic-solve. The pairs in the second half of the pool of optimize() are made in the same way, for the same constraints drawn.", "quantifier": "every list of merged constraints with distinct variables, every cost, objective sense, sorting algorithm, shuffle and sequence of draws", "why_tests_cant": "The start depends on the draws and on the order std::sort gives to equal costs; a test sees one engine and one library.", "anchors": ["lib/src/itm-common.hpp: init_with_pre_solve, init_with_bastert, stop_iterating, init_x", "lib/src/itm-solver-common.hpp: solver_functor::operator() (initial assignment)", "lib/src/itm-optimizer-common.hpp: storage (constructor)"]}
{"id": "C165", "title": "Starting from solved constraints is enough when the constraints are independent", "statement": "When the constraints share no variable (or bound the same left-hand side), all their coefficients are 1 and they can be satisfied, solve() with the start pessimistic-solve or optimistic-solve (init-policy-random 0) reports success and one assignment that satisfies every constraint, with its value. With optimistic-solve and a linear objective function whose costs keep the order and the signs of the coefficients, that assignment is optimal; with pessimistic-solve it may not be.", "quantifier": "every such problem (any number of variables and constraints, any bounds), any kappa, delta, theta, alpha, w, pushes, pre-ordering, constraint order other than pi-sign-change and cycle, random numbers, sort, float arithmetic that compares as a weak order, with and without preprocessing", "why_tests_cant": "the claim is about every independent problem and every setting of the solver; a test covers one problem with one seed", "anchors": ["lib/src/itm-solver-common.hpp: solver_functor::operator()", "lib/src/itm-common.hpp: init_with_pre_solve", "lib/include/baryonyx/core: solver_parameters::init_policy_type, solve"]}
{"id": "C166", "title": "The seed decides the random numbers of a run", "statement": "With a positive seed parameter the random numbers of a run do not depend on the clock. Two seeds give the same numbers, and so the same result of solve(), when they are equal modulo 2^31 - 1 (0 counting as 1); otherwise the two runs never draw the same number at the same place. On the command line, the seeds 1 to 2147483647 are all different but for 2147483647, which is 1 again. Every number is between 1 and 2^31 - 2. With the seed 0 the clock decides. The threads of optimize() draw different numbers at every place when the first values drawn for their seeds are of different classes; different seeds alone do not ensure it. With the engines of libstdc++ and libc++ a run draws 2147483646 numbers before one comes again. From R, the default seed -1 gives the run of the seed 1, not an automatic seed.", "quantifier": "every pair of seeds, every two moments, any number of draws, any multiplier prime to the modulus, any width of the result type of at least 32 bits", "why_tests_cant": "there are 2^64 pairs of seeds and no bound on the number of draws; a test compares a few runs", "anchors": ["lib/src/itm-common.hpp: random_engine, init_random_generator_seed", "lib/src/itm-solver-common.hpp: solve_problem", "lib/include/baryonyx/core: solver_parameters::seed", "lib/src/itm-common.hpp: generate_seed", "rbaryonyx/src/rbaryonyx.cpp: solve_01lp_problem, optimize_01lp_problem"]}
