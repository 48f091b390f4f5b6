{
 "claims": [
  {
   "property": "C01",
   "status": "proved",
   "theorems": [
    "C01_bit_vector_is_bool_array",
    "C01_value_get"
   ],
   "note": "Refinement of 64-bit blocks to list bool for every size, operation sequence and index; same contract failures."
  },
  {
   "property": "C02",
   "status": "partial",
   "theorems": [
    "C02_equality_partial",
    "C02_equality_refuted"
   ],
   "note": "Exact for vectors built without ones(); with ones() two vectors with equal elements compare different because the padding bits are set."
  },
  {
   "property": "C03",
   "status": "partial",
   "theorems": [
    "C03_set_value_partial",
    "C03_set_value_refuted"
   ],
   "note": "set(i,v) is characterised exactly; it stores false instead of true unless i is a multiple of 64."
  },
  {
   "property": "C04",
   "status": "partial",
   "theorems": [
    "C04_assign_partial",
    "C04_assign_refuted",
    "C04_assign_missing_refuted"
   ],
   "note": "Holds when both ends are multiples of 64; otherwise assign changes elements outside the range and misses elements inside."
  },
  {
   "property": "C05",
   "status": "proved",
   "theorems": [
    "C05_crossover"
   ],
   "note": "Word formula of storage::crossover."
  },
  {
   "property": "C06",
   "status": "proved",
   "theorems": [
    "C06_merge_preserves_meaning",
    "C06_merge_no_crash"
   ],
   "note": "All 12 pre-constraint orders, any std::sort and any double division; int overflow of left-hand sides excluded by fits_int."
  },
  {
   "property": "C07",
   "status": "proved",
   "theorems": [
    "C07_merge_failure_means_infeasible"
   ],
   "note": "Any order option."
  },
  {
   "property": "C08",
   "status": "partial",
   "theorems": [
    "C08_class_is_correct_partial",
    "C08_class_is_minimal",
    "C08_refuted"
   ],
   "note": "True without zero coefficients; with a 0 coefficient the class is 01 and the solver constructor aborts on a satisfiable problem (C08_refuted)."
  },
  {
   "property": "C09",
   "status": "proved",
   "theorems": [
    "C09_preprocess_sound",
    "C09_completion_exists"
   ],
   "note": "Well-formed problem with at least one 0/1 solution; completion is by variable name."
  },
  {
   "property": "C10",
   "status": "proved",
   "theorems": [
    "C10_fixed_values_are_forced_or_free",
    "C10_no_solution_is_lost"
   ],
   "note": "Second theorem: every solution survives up to variables no remaining constraint mentions."
  },
  {
   "property": "C11",
   "status": "proved",
   "theorems": [
    "C11_linear_objective_preserved"
   ],
   "note": "Costs are integers in the model."
  },
  {
   "property": "C12",
   "status": "proved",
   "theorems": [
    "C12_variables_partitioned"
   ],
   "note": "No satisfiability hypothesis."
  },
  {
   "property": "C13",
   "status": "partial",
   "theorems": [
    "C13_preprocess_terminates_partial",
    "C13_refuted"
   ],
   "note": "Proved for linear objectives. False for quadratic objectives: maximize 2xy dereferences an end iterator."
  },
  {
   "property": "C14",
   "status": "proved",
   "theorems": [
    "C14_optimum_kept"
   ],
   "note": "Binary bounds, linear objective."
  },
  {
   "property": "C15",
   "status": "partial",
   "theorems": [
    "C15_quadratic_preserved_partial",
    "C15_refuted"
   ],
   "note": "Proved when no variable of a quadratic term is fixed. False otherwise: a term with a variable fixed to 0 becomes a linear term."
  },
  {
   "property": "C16",
   "status": "partial",
   "theorems": [
    "C16_partial",
    "C16_refuted"
   ],
   "note": "Proved for every well-formed problem, satisfiable or not: the only constraints a completed solution can violate are those all of whose variables were fixed by the preprocessor. Refuted in full: x = 1 and x = 0 together are dropped silently."
  },
  {
   "property": "C17",
   "status": "proved",
   "theorems": [
    "C17_is_valid_solution_exact",
    "C17_failures_are_not_valid"
   ],
   "note": "int overflow of a sum is a crash in the model; the theorem assumes sums of absolute coefficients fit in int. A problem without variable ends the program by contract, hence the hypothesis."
  },
  {
   "property": "C18",
   "status": "proved",
   "theorems": [
    "C18_compute_solution_exact"
   ],
   "note": "Costs are integers in the model (no floating point rounding)."
  },
  {
   "property": "C19",
   "status": "proved",
   "theorems": [
    "C19_solution_file_round_trip",
    "C19_read_back_same_verdict"
   ],
   "note": "The header lines are arbitrary comment lines."
  },
  {
   "property": "C20",
   "status": "proved",
   "theorems": [
    "C20_window_shows_the_tokens",
    "C20_long_word_overflows"
   ],
   "note": "For every text without character 0 and without word of more than 511 characters whose last non-blank line has no comment (C68), and every sequence of pop requests of 1 to 9 tokens."
  },
  {
   "property": "C21",
   "status": "partial",
   "theorems": [
    "C21_reading_ends_partial",
    "C21_reading_is_safe_refuted",
    "C21_reading_terminates_refuted"
   ],
   "note": "Refuted: a file with only 'min' aborts; a constant in a constraint and a binary section at the end of the file loop forever. Proved: a file whose last token is end is read in bounded time (result, error or abort)."
  },
  {
   "property": "C22",
   "status": "proved",
   "theorems": [
    "C22_documents_are_read",
    "C22_every_problem_is_well_formed"
   ],
   "note": "Every well-formed document with a linear objective is read as the problem it describes; every problem returned, for any text, has distinct names, valid indices and no repeated term. Quadratic terms: C67."
  },
  {
   "property": "C23",
   "status": "partial",
   "theorems": [
    "C23_bounds_are_set_partial",
    "C23_lower_bounds_refuted"
   ],
   "note": "Refuted: the operator of a bound line is ignored, 'x >= 5' sets the upper bound. Proved: 'x <= b', 'a <= x <= b' and variables without a line."
  },
  {
   "property": "C24",
   "status": "partial",
   "theorems": [
    "C24_round_trip_partial",
    "C24_round_trip_integers_partial",
    "C24_round_trip_refuted"
   ],
   "note": "Round trip proved up to the renumbering of variables for linear objectives, lower bounds 0, nonzero coefficients, all variables used. Refuted: lower bounds, bounded variable named e1, unused variables, quadratic terms."
  },
  {
   "property": "C25",
   "status": "proved",
   "theorems": [
    "C25_views_are_stable",
    "C25_length_limit_needed"
   ],
   "note": "Any node size; a string longer than a node is undefined behaviour, as shown by the second theorem."
  },
  {
   "property": "C26",
   "status": "partial",
   "theorems": [
    "C26_parameters_in_range_partial",
    "C26_out_of_range_ignored",
    "C26_refuted",
    "C26_refuted_nan"
   ],
   "note": "Proved for all finite and infinite values; w above LONG_MAX without a loop limit is stored unchecked, and NaN passes some checks. Rounding of doubles is not modelled."
  },
  {
   "property": "C27",
   "status": "proved",
   "theorems": [
    "C27_numeric_cast_exact"
   ],
   "note": "Any signedness and number of digits; static_cast is reduction modulo 2^width."
  },
  {
   "property": "C28",
   "status": "proved",
   "theorems": [
    "C28_objective_in_range",
    "C28_range_reached"
   ],
   "note": "Costs are integers in the model. The second theorem shows the bounds are tight for linear objectives with distinct variables."
  },
  {
   "property": "C29",
   "status": "proved",
   "theorems": [
    "C29_matrix_rows_and_columns",
    "C29_no_element_undefined"
   ],
   "note": "std::stable_sort is modelled by a stable insertion sort."
  },
  {
   "property": "C30",
   "status": "partial",
   "theorems": [
    "C30_row_update_satisfies_row_partial",
    "C30_row_check_exact",
    "C30_refuted"
   ],
   "note": "Proved for every row, state, float arithmetic, shuffle and sort when the one-past-the-end read of the selection loop either does not happen or yields any value; refuted for the code as it is, where that read is undefined (x0 + x1 >= 1 alone)."
  },
  {
   "property": "C31",
   "status": "proved",
   "theorems": [
    "C31_remaining_is_exact"
   ],
   "note": "For every solver class (Z included); any order, parameters, floats, random draws."
  },
  {
   "property": "C32",
   "status": "partial",
   "theorems": [
    "C32_success_is_feasible_partial",
    "C32_success_has_solution",
    "C32_refuted"
   ],
   "note": "Proved for problems with at least one constraint, for every solver class; a problem without constraint is reported solved with an empty solution."
  },
  {
   "property": "C33",
   "status": "proved",
   "theorems": [
    "C33_best_of_all_sweeps",
    "C33_best_never_worse"
   ],
   "note": "The assignments reached are recorded by a ghost field of the model."
  },
  {
   "property": "C34",
   "status": "partial",
   "theorems": [
    "C34_status_partial",
    "C34_refuted"
   ],
   "note": "success iff a sweep reached a solution, otherwise limit_reached; the time and kappa limits are overwritten (refuted)."
  },
  {
   "property": "C35",
   "status": "proved",
   "theorems": [
    "C35_table_exact",
    "C35_solve_best",
    "C35_refuted_single",
    "C35_refuted_position"
   ],
   "note": "Exact table for every registered row of at least two variables, over every registration history; the answer satisfies the row and is the best of the table. Outside the property: a one-variable row is rejected although satisfiable (C35_refuted_single), and the position answered is one past the end when every variable is selected (C35_refuted_position)."
  },
  {
   "property": "C36",
   "status": "proved",
   "theorems": [
    "C36_feasible"
   ],
   "note": "For every row of at least four non-zero coefficients (asserted by the code) and reduced costs with finite sums."
  },
  {
   "property": "C37",
   "status": "proved",
   "theorems": [
    "C37_no_aliasing",
    "C37_operations_defined",
    "C37_reuse"
   ],
   "note": "for every history of a client that only uses elements it holds, while the storage stays below 4 GiB (beyond, the 32-bit positions wrap around)"
  },
  {
   "property": "C38",
   "status": "partial",
   "theorems": [
    "C38_pool_keeps_size",
    "C38_best_never_worse_partial",
    "C38_refuted"
   ],
   "note": "The size part holds for every interleaving. The best entry never gets worse when insertions do not overlap; with two overlapping insertions the code loses its best (C38_refuted): the victim is chosen before the lock is taken."
  },
  {
   "property": "C39",
   "status": "partial",
   "theorems": [
    "C39_success_is_feasible_partial",
    "C39_refuted",
    "C39_refuted_torn"
   ],
   "note": "Proved for every interleaving when crossover never writes in the pool and no two workers replace the same entry at once. False otherwise: crossover overwrites assignments in place, and replace_result writes field by field under a shared lock."
  },
  {
   "property": "C40",
   "status": "partial",
   "theorems": [
    "C40_seeds_partial",
    "C40_refuted"
   ],
   "note": "Distinct first draws give distinct seeds; but the first seed is never compared and a redrawn seed is not rechecked."
  },
  {
   "property": "C41",
   "status": "partial",
   "theorems": [
    "C41_order_and_sign_partial",
    "C41_random_order_partial",
    "C41_refuted",
    "C41_refuted_random_sign"
   ],
   "note": "proved without norm, for l1 and l2, for the infinity norm when one coefficient is not negative, and (order between different costs) for the random norm on linear objectives; refuted for the infinity norm when every cost is negative, and for signs under the random norm"
  },
  {
   "property": "C42",
   "status": "partial",
   "theorems": [
    "C42_sweep_visits_partial",
    "C42_pi_sign_change_partial",
    "C42_refuted_bad_row",
    "C42_refuted_not_visited",
    "C42_refuted_cycle"
   ],
   "note": "Proved for the seven orders other than pi_sign_change and cycle, and for pi_sign_change with as many rows as variables; false otherwise."
  },
  {
   "property": "C43",
   "status": "proved",
   "theorems": [
    "C43_n_queens_exact",
    "C43_all_cells_once",
    "C43_sizes"
   ],
   "note": "the model built for n queens is satisfied exactly by the placements of n non-attacking queens, has one variable per cell and n+n+ the diagonals as constraints"
  },
  {
   "property": "C44",
   "status": "partial",
   "theorems": [
    "C44_marginal_partial",
    "C44_cost_of_partial",
    "C44_costs_defined",
    "C44_refuted"
   ],
   "note": "proved except for a variable at 0 with a square term, where it is refuted; exact arithmetic (no rounding)"
  },
  {
   "property": "C45",
   "status": "partial",
   "theorems": [
    "C45_one_parameter_partial",
    "C45_names_are_distinct",
    "C45_unknown_names_are_rejected_refuted"
   ],
   "note": "Every name except two-character names ending in l: those are accepted as the loop limit (refuted part)."
  },
  {
   "property": "C46",
   "status": "partial",
   "theorems": [
    "C46_ends_partial",
    "C46_returns_a_result_refuted",
    "C46_turn_keeps_the_best",
    "C46_closest_failure_refuted"
   ],
   "note": "Proved for every solver: branch optimisation stops after at most 3^n+1 turns; each turn keeps the better of the old and the new results and keeps the jobs ordered by promise. Refuted, for every problem and solver: it never stops with a result, because each turn adds two jobs and removes one until the split variable no longer exists. Refuted: among failures it does not keep the one with the fewest remaining constraints (it compares the number of constraints of the problems)."
  },
  {
   "property": "C47",
   "status": "partial",
   "theorems": [
    "C47_every_combination_partial",
    "C47_runs_partial",
    "C47_terminates",
    "C47_best_combination_refuted"
   ],
   "note": "Proved: each of the 5^5 combinations is run exactly once, the first values of the tables are the user's, and the loop ends. Refuted: the answer comes from the last combination, not from the best."
  },
  {
   "property": "C48",
   "status": "partial",
   "theorems": [
    "C48_solve_answers_the_users_problem_partial",
    "C48_random_solver_on_inequalities_partial",
    "C48_refuted"
   ],
   "note": "Feasibility for every objective, bounds for 0/1 bounds, reported value for linear objectives; default solver and random solver. With the random solver on inequality problems, which runs the concurrent optimizer, under the conditions of C90. Refuted for the value of quadratic objectives (C15)."
  },
  {
   "property": "C49",
   "status": "proved",
   "theorems": [
    "C49_no_duplicate_lhs",
    "C49_rows_are_the_constraints"
   ],
   "note": "No two rows with the same left-hand side (default option); every constraint has a row and every row comes from a constraint (all options)."
  },
  {
   "property": "C50",
   "status": "proved",
   "theorems": [
    "C50_none_keeps_file_order",
    "C50_type_orders"
   ],
   "note": ""
  },
  {
   "property": "C51",
   "status": "proved",
   "theorems": [
    "C51_constructor_accepts_and_keeps_meaning"
   ],
   "note": "Bastert solver, method other than buffered; sums of coefficients in unbounded integers."
  },
  {
   "property": "C52",
   "status": "partial",
   "theorems": [
    "C52_constructor_accepts_partial",
    "C52_unsatisfiable_is_reported_refuted"
   ],
   "note": "Proved when each merged constraint alone can be satisfied (contradictory constraints included). Refuted: x + y >= 3 makes the constructor contract fail (std::terminate)."
  },
  {
   "property": "C53",
   "status": "partial",
   "theorems": [
    "C53_bounds_respected_partial",
    "C53_refuted"
   ],
   "note": "Proved for 0/1 bounds; an unused variable with bounds 1..5 is fixed to 0."
  },
  {
   "property": "C54",
   "status": "partial",
   "theorems": [
    "C54_affect_half_exact_partial",
    "C54_split_exact_partial",
    "C54_affect_terminates_partial",
    "C54_refuted"
   ],
   "note": "Proved when every constraint has two variables and the half is satisfiable (preprocess establishes the former, C55); false with one-variable constraints."
  },
  {
   "property": "C55",
   "status": "proved",
   "theorems": [
    "C55_result_is_reduced",
    "C55_half_is_reduced"
   ],
   "note": "Satisfiable problems; any objective."
  },
  {
   "property": "C56",
   "status": "partial",
   "theorems": [
    "C56_malformed_file_rejected_partial",
    "C56_refuted"
   ],
   "note": "Lines without '=' are rejected at any position. Refuted otherwise: a missing file gives a successful empty result (and the check then aborts), and a line 'a=' is read as a=0."
  },
  {
   "property": "C57",
   "status": "proved",
   "theorems": [
    "C57_trim_exact"
   ],
   "note": ""
  },
  {
   "property": "C58",
   "status": "partial",
   "theorems": [
    "C58_recorded_partial",
    "C58_refuted"
   ],
   "note": "The loop's record is exact but the result always says INT_MAX."
  },
  {
   "property": "C59",
   "status": "partial",
   "theorems": [
    "C59_push_uses_own_cost_partial",
    "C59_01_refuted",
    "C59_101_refuted"
   ],
   "note": "True for the 101 solvers on rows with coefficients 1. False of the code for the 01 solvers (cost of the variable whose index is the position in the row) and for coefficients -1 (amplified cost added to the negated reduced cost)."
  },
  {
   "property": "C60",
   "status": "proved",
   "theorems": [
    "C60_row_update_is_greedy"
   ],
   "note": "Every row update that returns, for the four solver classes with coefficients in {-1,1}; reduced costs are specified from the constraint list (occurrences of a variable), not from the matrix. Floats: any type with a strict weak order and 1*q=q."
  },
  {
   "property": "C61",
   "status": "partial",
   "theorems": [
    "C61_run_ends_partial",
    "C61_run_ends_Z_partial",
    "C61_pi_sign_change_refuted"
   ],
   "note": "Classes with coefficients in {-1,1}, and the class for arbitrary coefficients on the supported rows of C62 (rows of 10+ variables with other coefficients excluded). Refuted for pi-sign-change: solve() aborts on every problem with more variables than constraints. Excludes the read past the reduced-cost buffer (C30_refuted)."
  },
  {
   "property": "C62",
   "status": "partial",
   "theorems": [
    "C62_row_update_satisfies_row_partial",
    "C62_refuted_order",
    "C62_refuted_table",
    "C62_refuted_buffer"
   ],
   "note": "Proved for the supported rows (defined in ZRow_spec: all-0 or all-1 fits, or coefficients in {-1,1} with an allowed value between 0 and their sum, or branch-and-bound/exhaustive rows). False otherwise: x0 - x1 = 1 fails when x1 sorts first; 3x0 - 2x1 >= 3 reads the table in the wrong order; a row as long as the buffer reads R[r_size]."
  },
  {
   "property": "C63",
   "status": "partial",
   "theorems": [
    "C63_best_partial",
    "C63_refuted",
    "C63_refuted_negative"
   ],
   "note": "False of the code: the solutions found before the exploration (no variable, first variable only) are overwritten by worse ones, and with negative coefficients the cost of the variables at 0 is optimised. Proved: with positive coefficients, best among the choices that select something besides the first explored element."
  },
  {
   "property": "C64",
   "status": "partial",
   "theorems": [
    "C64_one_worker_keeps_best_partial",
    "C64_refuted"
   ],
   "note": "Proved with one worker; false with two (C64_refuted)."
  },
  {
   "property": "C65",
   "status": "partial",
   "theorems": [
    "C65_remaining_partial",
    "C65_refuted"
   ],
   "note": "The code keeps the minimum over the sweeps with the last assignment: a lower bound, not the number."
  },
  {
   "property": "C66",
   "status": "proved",
   "theorems": [
    "C66_solutions_are_ranked"
   ],
   "note": "All interleavings; all solver classes."
  },
  {
   "property": "C67",
   "status": "partial",
   "theorems": [
    "C67_quadratic_terms_partial",
    "C67_quadratic_terms_refuted"
   ],
   "note": "Refuted: the name of the first variable of a product is read after its word was overwritten. Proved for every text: indices are valid and pairs distinct."
  },
  {
   "property": "C68",
   "status": "partial",
   "theorems": [
    "C68_comments_are_ignored_partial",
    "C68_comments_are_ignored_refuted"
   ],
   "note": "Refuted for a comment on the last non-blank line; proved otherwise."
  },
  {
   "property": "C69",
   "status": "partial",
   "theorems": [
    "C69_names_are_accepted_partial",
    "C69_names_are_accepted_refuted"
   ],
   "note": "Refuted: names that start with inf or nan are read as numbers. Proved for the others."
  },
  {
   "property": "C70",
   "status": "partial",
   "theorems": [
    "C70_command_line_partial",
    "C70_rejected_parameter_partial",
    "C70_command_line_refuted"
   ],
   "note": "All options but --verbose, which is also read as a file together with its value (refuted part)."
  },
  {
   "property": "C71",
   "status": "partial",
   "theorems": [
    "C71_message_position_partial",
    "C71_message_name_refuted"
   ],
   "note": "The argument quoted is the right one; the name is the one of the next parameter because of a missing comma in the table of names (refuted part)."
  },
  {
   "property": "C72",
   "status": "partial",
   "theorems": [
    "C72_check_name_partial",
    "C72_check_is_made_refuted"
   ],
   "note": "The file name is recorded but no command line enables the check."
  },
  {
   "property": "C73",
   "status": "partial",
   "theorems": [
    "C73_documented_values_partial",
    "C73_documented_values_refuted"
   ],
   "note": "All parameters but limit, delta, pushing-objective-amplifier, pushing-k-factor and init-policy."
  },
  {
   "property": "C74",
   "status": "proved",
   "theorems": [
    "C74_no_free_variable_left"
   ],
   "note": "Holds for linear and quadratic objectives."
  },
  {
   "property": "C75",
   "status": "partial",
   "theorems": [
    "C75_random_row_update_partial",
    "C75_positive_rows",
    "C75_negative_row_aborts",
    "C75_refuted"
   ],
   "note": "Proved for rows with 0 <= max and min <= max(0, sum of coefficients), hence for every satisfiable row with coefficients 1; every row with a negative upper bound aborts (proved for all states), and x0 - x1 = 1 may abort (refuted)."
  },
  {
   "property": "C76",
   "status": "proved",
   "theorems": [
    "C76_returned_update_satisfies_row"
   ],
   "note": "Safety form of C30, C62 and C75 for the six solver classes. An out of bounds read or failed contract is the outcome None, excluded by the hypothesis that the update returns."
  },
  {
   "property": "C77",
   "status": "proved",
   "theorems": [
    "C77_solution_file_is_valid"
   ],
   "note": "Composition of C48, the writer of main() and C19/C17/C18."
  },
  {
   "property": "C78",
   "status": "proved",
   "theorems": [
    "C78_tool_answers_the_file"
   ],
   "note": "Stated on the LP document and the text of the solution file. C78_refuted_unsatisfiable shows why the constraints must be satisfiable (C16)."
  },
  {
   "property": "C79",
   "status": "partial",
   "theorems": [
    "C79_failures_have_messages_partial",
    "C79_refuted"
   ],
   "note": "Proved: status for command lines, messages for exactly the failing files. False: an unreadable file or an exception ends with status 0."
  },
  {
   "property": "C80",
   "status": "partial",
   "theorems": [
    "C80_one_line_per_file_partial",
    "C80_refuted"
   ],
   "note": "Proved when every file is read and solved without exception. False otherwise: unreadable files leave no line, an exception leaves an unfinished one."
  },
  {
   "property": "C81",
   "status": "proved",
   "theorems": [
    "C81_summary_counts",
    "C81_types_partition"
   ],
   "note": ""
  },
  {
   "property": "C82",
   "status": "proved",
   "theorems": [
    "C82_success_without_preprocessing",
    "C82_tool_without_preprocessing"
   ],
   "note": ""
  },
  {
   "property": "C83",
   "status": "proved",
   "theorems": [
    "C83_dynamic_array",
    "C83_refuted_without_init"
   ],
   "note": "Proved after init; C83_refuted_without_init records that a line added without init has no cell."
  },
  {
   "property": "C84",
   "status": "partial",
   "theorems": [
    "C84_table_is_loaded_partial",
    "C84_any_text",
    "C84_refuted"
   ],
   "note": "Proved for every text and every table whose solver names, except the last, have at least two characters. False otherwise: a one-character name is refused."
  },
  {
   "property": "C85",
   "status": "partial",
   "theorems": [
    "C85_column_is_added_partial",
    "C85_refuted"
   ],
   "note": "The file written is proved for every table; reloading needs solver names of two characters and values that survive printing with 10 digits. False otherwise: the table written with a one-character solver name cannot be loaded again."
  },
  {
   "property": "C86",
   "status": "partial",
   "theorems": [
    "C86_solvers_are_ranked_partial",
    "C86_refuted"
   ],
   "note": "Proved with at least one solver, fewer than 512 models, no NaN and a single mark for missing values. False for a row with inf and -inf."
  },
  {
   "property": "C87",
   "status": "partial",
   "theorems": [
    "C87_benchmark_ends_partial",
    "C87_refuted"
   ],
   "note": "Proved with at least one solver and one model, fewer than 512 models, no zero and no NaN. Undefined behaviour in each of these cases."
  },
  {
   "property": "C88",
   "status": "partial",
   "theorems": [
    "C88_found_partial",
    "C88_refuted"
   ],
   "note": "Proved: the number announced is that of the models whose run ended without an exception. False: a run without solution counts as found."
  },
  {
   "property": "C89",
   "status": "partial",
   "theorems": [
    "C89_model_files_partial",
    "C89_refuted"
   ],
   "note": "Proved for names whose last extension is not lp followed by something. False for m.lpz."
  },
  {
   "property": "C90",
   "status": "partial",
   "theorems": [
    "C90_optimize_answers_the_users_problem_partial",
    "C90_refuted"
   ],
   "note": "Proved for all modes, storages and numbers of threads when the crossover never inserts in the pool and no two threads replace the same entry at once; linear objectives for the value, 0/1 bounds. Refuted with the insertion (default 0.01): success for an infeasible assignment."
  },
  {
   "property": "C91",
   "status": "proved",
   "theorems": [
    "C91_time_limit"
   ],
   "note": "Any double, any clock."
  },
  {
   "property": "C92",
   "status": "partial",
   "theorems": [
    "C92_nlopt_is_manual_partial",
    "C92_refuted"
   ],
   "note": "Without the library, or when it fails at once, it is manual tuning. Refuted for every library that evaluates the function once: index 5 of five numbers."
  },
  {
   "property": "C93",
   "status": "proved",
   "theorems": [
    "C93_one_thread_without_preprocessing"
   ],
   "note": "Branch mode never returns (C46); manual and nlopt modes are covered."
  },
  {
   "property": "C94",
   "status": "proved",
   "theorems": [
    "C94_initial_pool"
   ],
   "note": "For all sizes, rows, objectives and draws. An odd second half leaves an entry with all its variables false (stated in the theorem)."
  },
  {
   "property": "C95",
   "status": "proved",
   "theorems": [
    "C95_multiplier_image_complete"
   ],
   "note": "For all sizes and numbers of sweeps."
  },
  {
   "property": "C96",
   "status": "partial",
   "theorems": [
    "C96_multiplier_image_partial",
    "C96_multiplier_image_one_partial",
    "C96_multiplier_image_refuted"
   ],
   "note": "False of the code for two constraints or more: the iterator is never advanced, so a line shows only the last multiplier, in its first pixel. Proved: the exact content of every line; the property for one constraint."
  },
  {
   "property": "C97",
   "status": "partial",
   "theorems": [
    "C97_observers_harmless_partial",
    "C97_observers_harmless_refuted"
   ],
   "note": "False of the code: with a negative limit, or when img-pi.pnm cannot be created, the first observation fails; the colour of NaN is undefined. Proved: no failure with a limit of at least 1, an open file and numbers."
  },
  {
   "property": "C98",
   "status": "partial",
   "theorems": [
    "C98_preference_images_partial",
    "C98_preference_images_refuted"
   ],
   "note": "Proved below 2^32 bytes. False of the code from there on: the size is computed with 32 bits, the last pixel is outside the buffer, and with 2^32 pixels there is no image."
  },
  {
   "property": "C99",
   "status": "proved",
   "theorems": [
    "C99_preference_texts"
   ],
   "note": "For all matrices, runs and numbers."
  },
  {
   "property": "C100",
   "status": "proved",
   "theorems": [
    "C100_colours"
   ],
   "note": "For all bounds and values, in exact arithmetic."
  },
  {
   "property": "C101",
   "status": "partial",
   "theorems": [
    "C101_multiplier_text_partial",
    "C101_multiplier_text_refuted"
   ],
   "note": "False of the code: m_len is never initialised; when it is at most 1 only the first multiplier is written. Proved when it exceeds 1 or with one constraint."
  },
  {
   "property": "C102",
   "status": "partial",
   "theorems": [
    "C102_unlimited_loops_partial",
    "C102_unlimited_loops_refuted"
   ],
   "note": "Proved for negative limits. False of the code for 0: no sweep is made and solve() returns at once."
  },
  {
   "property": "C103",
   "status": "proved",
   "theorems": [
    "C103_codes"
   ],
   "note": "Tables of the documentation against the six functions; every option, every code."
  },
  {
   "property": "C104",
   "status": "partial",
   "theorems": [
    "C104_arguments_partial",
    "C104_refuted"
   ],
   "note": "True for every argument in range, and for the documented defaults of the order, norm and float type; false for the default storage (bound although documented as the best solution only)."
  },
  {
   "property": "C105",
   "status": "partial",
   "theorems": [
    "C105_value_of_a_solution_partial",
    "C105_refuted"
   ],
   "note": "True for solve_01lp_problem, from the text of the file; false for optimize_01lp_problem with its default arguments: value is that of the worst member of the pool."
  },
  {
   "property": "C106",
   "status": "partial",
   "theorems": [
    "C106_errors_partial",
    "C106_refuted"
   ],
   "note": "True for exceptions and internal errors; for every file that cannot be read or has errors both functions report a solution of value 0 (C106_refuted is universally quantified)."
  },
  {
   "property": "C107",
   "status": "partial",
   "theorems": [
    "C107_fields_partial",
    "C107_refuted"
   ],
   "note": "True for minimize, and for remaining_constraints of optimize when the preprocessing leaves constraints and variables; false for solve (remaining_constraints is always 2147483647) and for the counts when the preprocessing removes something."
  },
  {
   "property": "C108",
   "status": "proved",
   "theorems": [
    "C108_quadratic_part_written"
   ],
   "note": "Text level: the text is split at the only bracket; the names and the printed numbers are assumed free of brackets for the last two clauses (names read from a file are, brackets separate words)."
  },
  {
   "property": "C109",
   "status": "partial",
   "theorems": [
    "C109_optimize_answers_the_file_partial",
    "C109_refuted"
   ],
   "note": "Proved for the default storage-type=one with preprocessing, without insertion in the crossover, for threads that do not replace the same entry of the pool together. False for storage-type=bound: the tool writes the worst member of the pool, which may violate the constraints, and says that a solution is found."
  },
  {
   "property": "C110",
   "status": "partial",
   "theorems": [
    "C110_announced_can_be_given_partial",
    "C110_refuted",
    "C110_kappa_line"
   ],
   "note": "Proved for every line whose name is one of a parameter, but delta when it is -1. False for the others: the default delta is printed as -1 and delta=-1 is refused; the observer is printed under a name that is no option, the three kappa on one line, the modes with branch by words that --auto does not know. storage-type, thread and seed are not printed."
  },
  {
   "property": "C111",
   "status": "partial",
   "theorems": [
    "C111_ranges_partial",
    "C111_refuted"
   ],
   "note": "Proved for every parameter and every command line, except that the time limit may be NaN: time-limit=nan is accepted and kept (C111_refuted)."
  },
  {
   "property": "C112",
   "status": "partial",
   "theorems": [
    "C112_words_partial",
    "C112_refuted"
   ],
   "note": "Proved for all the enumerations and for the tuning modes of a single method. False for the two modes with branch: manual-and-branch and nlopt-and-branch are printed, --auto takes branch-manual and branch-nlopt and reads the words printed as no tuning."
  },
  {
   "property": "C113",
   "status": "partial",
   "theorems": [
    "C113_equal_problems_partial",
    "C113_refuted"
   ],
   "note": "Proved but for the objective when the quadratic costs differ: they are not compared, so that equal problems can have another value at the same point. The numbers of the constraints and the status of the reading are not compared either."
  },
  {
   "property": "C114",
   "status": "partial",
   "theorems": [
    "C114_clear_partial",
    "C114_refuted"
   ],
   "note": "Proved when the constant of the objective is 0. clear() does not reset the constant."
  },
  {
   "property": "C115",
   "status": "partial",
   "theorems": [
    "C115_order_partial",
    "C115_refuted"
   ],
   "note": "Proved for values that are numbers. With a value that is not a number, not being comparable is not transitive."
  },
  {
   "property": "C116",
   "status": "partial",
   "theorems": [
    "C116_arrays_are_values_partial",
    "C116_refuted"
   ],
   "note": "Refinement proved for every program. Refuted for arrays moved from: they report their old length while they have no elements, and copying them is undefined."
  },
  {
   "property": "C117",
   "status": "partial",
   "theorems": [
    "C117_cells_partial",
    "C117_refuted"
   ],
   "note": "Proved for arrays of fewer than 2^32 cells, copies when rows <= columns. Refuted: copy assignment with more rows than columns overflows its memory, 65536 x 65536 has size 0, assign of an empty range reads past its end."
  },
  {
   "property": "C118",
   "status": "partial",
   "theorems": [
    "C118_calls_partial",
    "C118_random_solver_partial",
    "C118_refuted"
   ],
   "note": "Proved: the calls and their order for solve() (random solver excluded) and for optimize() without tuning on problems that keep constraints and variables, for every registration; an exception is never followed by the end. Refuted: no end for a problem left without constraints, no call for the random solver on general coefficients, 3126 starts with the manual tuning, a start without an end before an exception."
  },
  {
   "property": "C119",
   "status": "partial",
   "theorems": [
    "C119_updates_never_get_worse_partial",
    "C119_refuted"
   ],
   "note": "Proved for populations of at least five when the threads insert one after the other (always with one thread). Refuted for two threads that replace the same entry."
  },
  {
   "property": "C120",
   "status": "partial",
   "theorems": [
    "C120_best_solution_printed_partial",
    "C120_refuted",
    "C120_lines_of_the_updates_partial",
    "C120_last_line_without_success"
   ],
   "note": "Proved for solve() and for optimize() with one stored solution. Refuted for two or five stored solutions, where the last one is printed, possibly not a solution; and solve() prints 2147483647 remaining constraints."
  },
  {
   "property": "C121",
   "status": "proved",
   "theorems": [
    "C121_generated_file_is_n_queens",
    "C121_sizes"
   ],
   "note": "The text is modelled character by character, lexed, parsed; the existence of placements from 4 on is proved by construction."
  },
  {
   "property": "C122",
   "status": "proved",
   "theorems": [
    "C122_tool_places_the_queens",
    "C122_without_preprocessing"
   ],
   "note": "Composition of the generator, the lexer, the parser, solve() and the writer of the solution file. The random solver is excluded (it is not used for these problems)."
  },
  {
   "property": "C123",
   "status": "proved",
   "theorems": [
    "C123_tabled_row_update_is_best"
   ],
   "note": "About the update of a row by the solver for arbitrary coefficients with its table of solutions. Rows with more variables are solved by branch and bound (C62). Arithmetic is exact."
  },
  {
   "property": "C124",
   "status": "partial",
   "theorems": [
    "C124_line_of_the_fault_partial",
    "C124_refuted"
   ],
   "note": "Proved for a bad name anywhere and for a short last row. False of the code for a short row that is not the last one: it takes the words of the next rows as its values, so the table can load without error."
  },
  {
   "property": "C125",
   "status": "proved",
   "theorems": [
    "C125_random_solver_refuses"
   ],
   "note": "For solve with the random solver on inequalities, whose result is an arbitrary function in the model, only the refusal is stated."
  },
  {
   "property": "C126",
   "status": "partial",
   "theorems": [
    "C126_restart_partial",
    "C126_refuted"
   ],
   "note": "Proved for every reachable state and schedule, except the values of the mutated variables: only the variables 0, 64, 128, ... take the value drawn, the others become 0 (C03)."
  },
  {
   "property": "C127",
   "status": "proved",
   "theorems": [
    "C127_value_exact",
    "C127_order_of_the_terms",
    "C127_integers_for_doubles",
    "C127_reduced_objective",
    "C127_any_coefficients_refuted",
    "C127_large_integers_refuted"
   ],
   "note": "Binary64 of the standard library (SpecFloat). The two theorems refuted show that the range is needed: other coefficients give a value that depends on the order of the terms, integers above 2^53 are rounded."
  },
  {
   "property": "C128",
   "status": "proved",
   "theorems": [
    "C128_better_is_better",
    "C128_bounds",
    "C128_bounds_exact"
   ],
   "note": "Same range as C127."
  },
  {
   "property": "C129",
   "status": "proved",
   "theorems": [
    "C129_value_in_the_solution_file",
    "C129_objective_read"
   ],
   "note": "Linear objective functions (the documents of Parser_spec.v). The number written is handed to the printer as a count of steps; how fmt prints a double is not modelled."
  },
  {
   "property": "C130",
   "status": "proved",
   "theorems": [
    "C130_pushes_change_nothing",
    "C130_a_round_reports_one_assignment",
    "C130_better_by_pushing_refuted"
   ],
   "note": "Proved for all the orders but pi-sign-change and cycle, where the pushes do change the answer (example C130_pi_sign_change). C130_better_by_pushing_refuted: a problem whose solution of value 3 no parameter of the pushes lets solve() find (it returns 6)."
  },
  {
   "property": "C131",
   "status": "proved",
   "theorems": [
    "C131_separate_optimum",
    "C131_separate_optimum_plain",
    "C131_separate_needed"
   ],
   "note": "Proved under: the numbers compare as a strict weak order, multiplying or subtracting zeros changes no comparison (zeros), and the normalised and the raw costs order the variables as the linear coefficients (scaled_costs: no collapse by rounding). C131_separate_needed: a problem with shared variables that meets every other hypothesis, answered 6 where the optimum is 3."
  },
  {
   "property": "C132",
   "status": "partial",
   "theorems": [
    "C132_average_distance_partial",
    "C132_average_is_diluted",
    "C132_refuted",
    "C132_optimum_is_the_first_model",
    "C132_optimum_refuted",
    "C132_zero_reference"
   ],
   "note": "True when both solvers have solved every model. Otherwise the sum is divided by the number of models, not by the number of models that were compared (C132_average_is_diluted, C132_refuted). The distance from the optimum is the distance of the other models from the first model (C132_optimum_is_the_first_model, C132_optimum_refuted). Exact arithmetic; the reference 0 and NaN are excluded."
  },
  {
   "property": "C133",
   "status": "partial",
   "theorems": [
    "C133_colours_partial",
    "C133_table_partial",
    "C133_refuted"
   ],
   "note": "True for models to minimize, without NaN. For a model to maximize green marks the worst values: the type of the model is not looked at (C133_refuted). The widths and the digits are not modelled."
  },
  {
   "property": "C134",
   "status": "proved",
   "theorems": [
    "C134_solve_returns",
    "C134_solve_returns_plain",
    "C134_separate_optimum_returned",
    "C134_separate_optimum_returned_plain"
   ],
   "note": "Assumes that the costs are defined and that the memory after the buffer of reduced costs can be read (C30_refuted). pi-sign-change is excluded: it aborts for every problem with more variables than constraints (C61_pi_sign_change_refuted)."
  },
  {
   "property": "C135",
   "status": "proved",
   "theorems": [
    "C135_tool_answers",
    "C135_tool_optimum"
   ],
   "note": "Total correctness of the tool from the text of the LP file to the text of the solution file, on satisfiable files with unit coefficients; C78 and C134 assumed that the tool ended, resp. spoke of solve() only."
  },
  {
   "property": "C136",
   "status": "partial",
   "theorems": [
    "C136_larger_limit_keeps_the_solution_partial",
    "C136_limits_of_the_user",
    "C136_larger_limit_refuted"
   ],
   "note": "Proved when w, the number of iterations before kappa grows, has the same whole part: w <= 0 or 1 <= w <= limit. False when w is a part of the limit (as by default): in binary64, four equalities on five variables are solved with limit 8 and not with limit 10 for w = 5/16."
  },
  {
   "property": "C137",
   "status": "proved",
   "theorems": [
    "C137_more_pushes_no_worse"
   ],
   "note": "Both runs must return (C134 gives that); any order of the constraints, including pi-sign-change and cycle when they return."
  },
  {
   "property": "C138",
   "status": "partial",
   "theorems": [
    "C138_draws_end_partial",
    "C138_crossover_refuted",
    "C138_index_refuted",
    "C138_mutation_refuted"
   ],
   "note": "Proved when the standard deviations are not 0 and no draw is exactly 1. With a deviation of 0 (accepted) no crossover ends, or it reads past the end of the pool when the mean is 1; a mutation with mean 0 and deviation 0 never ends; a draw of exactly 1 is past the end."
  },
  {
   "property": "C139",
   "status": "partial",
   "theorems": [
    "C139_restarts_partial",
    "C139_no_crossover_refuted",
    "C139_kappa_refuted"
   ],
   "note": "Proved: kappa is at least kappa-min; at most kappa-max when stop + increase <= 1; a crossover within ceil(stop / increase) + 1 restarts when the increase is not 0. Refuted otherwise, for parameters that are accepted."
  },
  {
   "property": "C140",
   "status": "partial",
   "theorems": [
    "C140_constant_of_the_objective_partial",
    "C140_constant_refuted"
   ],
   "note": "Proved when values are exact (the constant and the costs of a solution add without rounding). Refuted in binary64: a constant of 2^60 hides the costs, so the best solution is no longer told from the others."
  },
  {
   "property": "C141",
   "status": "proved",
   "theorems": [
    "C141_names"
   ],
   "note": "For all renamings that keep different names different."
  },
  {
   "property": "C142",
   "status": "partial",
   "theorems": [
    "C142_maximize_mirrors_minimize_partial",
    "C142_delta_has_the_other_sign",
    "C142_floats",
    "C142_mirror_refuted"
   ],
   "note": "Proved with delta 0, for coefficients 1 and -1, for orders of the constraints that do not read the costs, for every symmetric arithmetic (all IEEE formats are). Refuted with delta 1/4: delta is added to the preferences whatever the direction, so a maximization with delta is the minimization with minus delta."
  },
  {
   "property": "C143",
   "status": "partial",
   "theorems": [
    "C143_memory",
    "C143_solution_file_partial",
    "C143_solution_file_refuted"
   ],
   "note": "Proved for names of at most 1 MiB. A longer name in a solution file is written past the end of a block (C25_length_limit_needed at the level of the files)."
  },
  {
   "property": "C144",
   "status": "partial",
   "theorems": [
    "C144_readable_unit",
    "C144_decimals",
    "C144_counted_partial",
    "C144_counted_refuted",
    "C144_built_in_memory_refuted"
   ],
   "note": "The unit and the decimals are right. The arrays of names are never counted. A problem built in memory without a string buffer makes the message follow a null pointer, even when the message is not printed."
  },
  {
   "property": "C145",
   "status": "partial",
   "theorems": [
    "C145_default_delta_partial",
    "C145_follows_the_unit",
    "C145_nan_stays",
    "C145_no_costs_refuted",
    "C145_solution_not_found_refuted"
   ],
   "note": "Proved when a cost is not 0. With no costs (a satisfaction problem) the default delta is half of the largest double: sums of preferences are infinite, then NaN, and NaN stays for ever; a problem of four variables that delta = 1/100 solves is not solved in the default limit."
  },
  {
   "property": "C146",
   "status": "partial",
   "theorems": [
    "C146_update_settles_row_partial",
    "C146_values_agree_partial",
    "C146_maximise_up_to_delta",
    "C146_negative_coefficients_refuted",
    "C146_maximise_refuted",
    "C146_all_chosen_refuted"
   ],
   "note": "Proved in exact arithmetic when minimising, for rows with coefficients 1 of which some variable is left at 0; false of the code for coefficients -1, when maximising and when every variable is chosen."
  },
  {
   "property": "C147",
   "status": "partial",
   "theorems": [
    "C147_second_update_keeps_partial",
    "C147_negative_coefficients_refuted",
    "C147_maximise_refuted",
    "C147_all_chosen_refuted"
   ],
   "note": "Proved under the same hypotheses as C146; false of the code for coefficients -1, when maximising (the variables are exchanged at every update) and when every variable is chosen."
  },
  {
   "property": "C148",
   "status": "proved",
   "theorems": [
    "C148_messages_of_the_level",
    "C148_more_verbose_adds",
    "C148_tool_never_debugs",
    "C148_level_of_the_tool",
    "C148_tuning_is_silent"
   ],
   "note": "every verbosity, build, run and command line; the formatting and the colours are left out"
  },
  {
   "property": "C149",
   "status": "partial",
   "theorems": [
    "C149_quiet_partial",
    "C149_refuted",
    "C149_r_quiet",
    "C149_r_verbose"
   ],
   "note": "with --quiet first nothing of the library is on the standard output and nothing else changes; refuted: what the tool prints itself (callbacks, summaries) is the same with --quiet for every command line, and after --verbose=0 --quiet makes the errors appear (quiet means level 3)"
  },
  {
   "property": "C150",
   "status": "partial",
   "theorems": [
    "C150_scaling_partial",
    "C150_l1_partial",
    "C150_loo_partial",
    "C150_none_partial",
    "C150_l2_partial",
    "C150_default_delta",
    "C150_refuted"
   ],
   "note": "Proved in exact arithmetic for the l1 norm (any problem with coefficients 1 and -1, any delta), for the infinity norm with linear objectives without negative costs, and for no norm (l2) when delta is multiplied (divided) too; generic version for any arithmetic that respects the factor. False for no norm and l2 with a fixed delta and for the infinity norm when the largest cost is 0: concrete runs whose answer changes. Not covered: the random norm, pre-orders that look at the costs, other coefficients."
  },
  {
   "property": "C151",
   "status": "partial",
   "theorems": [
    "C151_cut_file_partial",
    "C151_interrupted_run_partial",
    "C151_no_answer_no_solution",
    "C151_not_interrupted",
    "C151_refuted"
   ],
   "note": "Proved for every crash point up to one exception: when the file stops right after the last equal sign, the last variable is read as 0 (sscanf returns EOF, taken for a success). C151_refuted: this gives another solution, judged valid, with another value. Missing: the property without this exception, which is false of the code. An interruption of the program is modelled, not a loss of power."
  },
  {
   "property": "C152",
   "status": "proved",
   "theorems": [
    "C152_results_are_kept",
    "C152_never_wrong",
    "C152_not_interrupted",
    "C152_dies_there"
   ],
   "note": "Interruption of the program (signal, abort); what has been flushed is kept by the system."
  },
  {
   "property": "C153",
   "status": "partial",
   "theorems": [
    "C153_table_partial",
    "C153_refuted"
   ],
   "note": "The table is untouched until all the models have been run, and complete after the stream is closed. C153_refuted: the file is emptied before the new table is written, so that a benchmark stopped there loses the former table, or leaves a shorter one that is loaded without error."
  },
  {
   "property": "C154",
   "status": "partial",
   "theorems": [
    "C154_accepted_files_end",
    "C154_cut_documents_partial",
    "C154_cut_written_files_partial",
    "C154_refuted"
   ],
   "note": "Every text that is accepted ends with the word end. For documents without comments and with a linear objective whose names and labels do not start with the letters end, and for what write_problem prints, a cut text is refused or gives the problem of the whole text. C154_refuted: a file cut inside a label such as end_date is accepted, without the constraints and the bounds that follow."
  },
  {
   "property": "C155",
   "status": "partial",
   "theorems": [
    "C155_repeated_constraints_partial",
    "C155_repeated_in_optimize_partial",
    "C155_refuted"
   ],
   "note": "Proved for constraints repeated with the same terms in the same order (and for looser ones without preprocessing), for solve() and for every mode of optimize() but branch. Refuted: with preprocessing x + y >= -1 remains where x + y >= 0 is dropped; a constraint with its terms in another order is a second row."
  },
  {
   "property": "C156",
   "status": "partial",
   "theorems": [
    "C156_mixed_lines_partial",
    "C156_numbers_partial",
    "C156_refuted"
   ],
   "note": "True for the six pre-orders by type (any mixing) and, for every pre-order, of the numbers of the lines as long as their order is kept. False with the default pre-order none: exchanging a line with = and one with >= gives another answer (C156_refuted: value 2 instead of 1)."
  },
  {
   "property": "C157",
   "status": "partial",
   "theorems": [
    "C157_order_of_the_terms_partial",
    "C157_refuted"
   ],
   "note": "True without preprocessing for the pre-orders that sort the terms by variable (memory and the six orders by type). False with the default pre-order none (C157_refuted: value 2 instead of 1). With the preprocessor: not proved."
  },
  {
   "property": "C158",
   "status": "partial",
   "theorems": [
    "C158_preprocessing_partial",
    "C158_solver_partial",
    "C158_refuted"
   ],
   "note": "Proved for problems whose constraints fit; refuted (C158_refuted) one above the bound: all numbers are ints but the sum of the coefficients overflows in the preprocessor. The sums of select_variables for arbitrary coefficients are not covered because their last turn adds a value left by another row (never read)."
  },
  {
   "property": "C159",
   "status": "proved",
   "theorems": [
    "C159_accepted_files",
    "C159_one_meaning"
   ],
   "note": "Both directions, for texts without square brackets. The looser grammar is in Accept_spec.v: a lone sign counts for a constant 1, a number after a number is a name, a constant in a constraint is a variable without name."
  },
  {
   "property": "C160",
   "status": "partial",
   "theorems": [
    "C160_every_word_partial",
    "C160_skipped_word",
    "C160_no_word_is_skipped_refuted"
   ],
   "note": "Holds without a bounds part. False after a one-sided lower bound: the word that follows is never looked at, so a list of binary variables can be lost."
  },
  {
   "property": "C161",
   "status": "proved",
   "theorems": [
    "C161_error_names_the_section",
    "C161_unknown_name"
   ],
   "note": "Files without square brackets; tokens other than an unusual word (a token of exactly 320 characters, or a word that the number conversion reads although it does not look like a name). A fault can also abort the program instead of giving an error (C21), the theorem speaks of the errors that are returned."
  },
  {
   "property": "C162",
   "status": "proved",
   "theorems": [
    "C162_where_it_stops",
    "C162_when_it_loops",
    "C162_exactly"
   ],
   "note": "Necessary conditions for the two ways of getting no answer, which C162_exactly shows to be sufficient for files of usual words; with C159 and C161 they describe all four outcomes. Square brackets and words of exactly 320 characters are excluded in the statement."
  },
  {
   "property": "C163",
   "status": "proved",
   "theorems": [
    "C163_errors_exactly",
    "C163_four_outcomes"
   ],
   "note": "Joins C159, C161 and C162. Square brackets and unusual words are excluded in the statement; see C67 and C160 for these."
  },
  {
   "property": "C164",
   "status": "proved",
   "theorems": [
    "C164_start",
    "C164_satisfied",
    "C164_other_coefficients",
    "C164_pool",
    "C164_how_many",
    "C164_optimistic_is_best"
   ],
   "note": "The order of the costs is a strict weak order (no NaN); the conversion of the costs to float in init_with_pre_solve is not modelled. C164_other_coefficients shows that the hypothesis on the coefficients of C164_satisfied is needed."
  },
  {
   "property": "C165",
   "status": "proved",
   "theorems": [
    "C165_start_answers",
    "C165_optimistic_optimum_plain",
    "C165_start_answers_preprocessed",
    "C165_optimistic_optimum",
    "C165_pessimistic_may_miss",
    "C165_optimum_returned",
    "C165_answer_returned_plain"
   ],
   "note": "C165_optimum_returned and C165_answer_returned_plain show that the run finishes; the others start from a run that finishes. The optimum needs costs with the order and signs of the coefficients and, without preprocessing, every variable in a constraint. C165_pessimistic_may_miss is the counterexample that shows optimistic-solve is needed for the optimum."
  },
  {
   "property": "C166",
   "status": "proved",
   "theorems": [
    "C166_seeds",
    "C166_same_run",
    "C166_command_line",
    "C166_range",
    "C166_threads",
    "C166_seed_0",
    "C166_numbers",
    "C166_threads_same_numbers",
    "C166_threads_apart",
    "C166_period",
    "C166_no_repeat",
    "C166_from_R"
   ],
   "note": "The engine is std::default_random_engine, taken as a linear congruential engine modulo 2^31 - 1 without increment, as in libstdc++ and libc++; the distributions are not modelled."
  }
 ]
}