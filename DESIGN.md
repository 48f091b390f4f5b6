# Formal model of baryonyx in Rocq (Coq 8.16.1)

The source is read at the pinned commit in /repo; nothing there is built or run.
Everything below `rocq/theories/` is mapped to the logical name `Verif`.

## Conventions

* Each component `X` has up to four files:
  `X_model.v` (executable Gallina transcription of the C++, each definition cites
  file and lines), `X_spec.v` (the small independent vocabulary used in the
  statements), `X_proofs.v` (lemmas) and `X_props.v` (only the property theorems,
  each closed by `exact`, with `Print Assumptions`, and the non-vacuity examples).
* Names: `Cnn_...` are the property theorems. `_partial`: only part of the English
  property is proved, the rest is named beside it. `_refuted`: the property is false of the
  faithful model, a concrete witness is given; the trace of the witness through the C++
  is recorded below under "Findings".
* Contract macros (`bx_expects`, `bx_ensures`, `bx_assert`, `bx_reach`), out-of-bounds
  accesses and other undefined behaviour are separate outcomes of the model functions
  (`option`/`outcome` results), never silently totalised.
* `int` values are unbounded `Z` unless the property is about overflow.
* `double` costs: every finite double is an integer multiple of 2^-1074, so *exact* sums,
  differences, comparisons and multiplications by 0/1 of finite doubles are integer
  operations at that scale. Objective values are therefore modelled in `Z`. Double_model.v has the same functions in
  binary64 with rounding (SpecFloat of the standard library), and C127/C128 give the range
  where the integers are what the doubles compute; outside of it rounding is not modelled. Where only comparisons of costs matter (sorting reduced costs, selecting
  variables) the model does not interpret costs at all: the result of the sort is
  an arbitrary permutation and the result of the comparison an arbitrary boolean, so
  those theorems cover rounding, NaN and random tie-breaking.
* Random engine, clock, thread schedule: arbitrary streams / relations universally
  quantified in the theorem.

## Plan, property by property

| id | what is modelled | how it is proved |
|----|------------------|------------------|
| C01 | 64-bit blocks of `bit_array_impl`, block index/offset arithmetic | refinement to `list bool`, induction over operation list |
| C02 | `operator==`, hash on blocks | invariant "padding bits are zero"; `ones()` breaks it (expected refutation) |
| C03 | `set(i,bool)` with its xor/mask formula | expected refutation; partial theorem for `false` and offset 0 |
| C04 | `assign` | expected refutation; partial for what holds |
| C05 | crossover word formula | bitwise reasoning on words, lifted to vectors |
| C06, C07 | `fill_merged_constraints` with a hash map as an association on left-hand sides, all orders | induction over the constraint list with an invariant relating the merged list and the prefix processed |
| C08 | `coefficient_type`, `which_problem_type` | direct, induction over lists |
| C09-C16 | the whole preprocessor: cache, lifo, propagation loop, rebuild | invariant of the propagation state, measure for termination |
| C17, C18 | name lookup, evaluation | induction |
| C19 | result writer and line reader on character lists | round-trip lemma |
| C20 | token window over a token stream (lexer on characters) | invariant: window ++ rest = suffix of tokens |
| C21 | parser outcome including contract failures | expected refutation + partial |
| C22 | `problem_parser` maps | invariant by induction over appended terms |
| C23 | `read_bound`, `set_bound` | expected refutation |
| C24 | LP writer and parser | round-trip |
| C25 | `string_buffer` as list of fixed-size nodes | invariant over appends |
| C26 | `context_set_solver_parameters` | invariant over call sequence |
| C27 | `is_numeric_castable` | case analysis over signedness, any width |
| C28 | `compute_min_max_objective_function` | induction |
| C29 | `sparse_matrix` constructor | induction, characterisation of rows and columns |
| C30 | `select_variables`, `affect`, row update | counting argument for any permutation |
| C31, C42 | `compute_order` | induction |
| C32-C34 | solver loop as a step function over an oracle of events | invariant over runs |
| C35 | `build_constraints` odometer | induction over the enumeration |
| C36, C37 | branch-and-bound tree exploration, pool | invariant |
| C38, C39 | optimizer pool as a shared object; threads as arbitrary interleaving of atomic steps | invariant over interleavings; expected refutation of C39 |
| C40 | `generate_seed` | expected refutation |
| C41 | norms | sign/monotonicity lemmas; expected refutation for `loo` |
| C43 | generator loops | combinatorial equivalence |
| C44 | CSR tables | expected refutation on squares, positive for the rest |
| C45 | option parsing on strings | case analysis |
| C46 | jobs loop | size of the job set strictly grows: never empty |
| C47 | odometer `next` | enumeration order = base-`length` counting |
| C48 | composition | corollary of C06, C09, C11, C32 |
| C49, C50 | rows kept by the merge, order options | corollaries of the merge invariant |
| C51, C52 | constructors of the solvers row by row | case analysis; C52 expected refutation (contract in the constructor), partial: satisfiable rows |
| C53, C54, C55, C74 | `affect`, `split`, bounds of fixed variables, size of remaining rows | invariants of the propagation state |
| C56, C57 | line reader, `left_trim`/`right_trim` | induction over lines and characters |
| C58, C61 | result fields; number of loops | invariant of the loop, fuel bound |
| C59, C60 | reduced costs, push, selection | specification of reduced costs from the constraint list; exchange argument on the sorted buffer |
| C62, C63 | row update for arbitrary coefficients, branch and bound | case analysis on the three sub-solvers; invariant of the exploration |
| C64-C66 | the pool under interleavings | invariant over the transition relation |
| C67-C69 | quadratic section, comments, names | simulation of the token stream; expected refutations |
| C70-C73 | command line and help text | induction over argv; refutations by witness |
| C77-C82 | `main` with its reports; `solve` without preprocessing | composition of C22, C48, C19, C17, C18, C32, stated on documents and lines of text |
| C83 | `dynamic_array` as a state with calls | invariant over the sequence of calls: each cell holds the last write |
| C84-C89 | the benchmark: loading, running, saving, statistics | induction over the words of the file; ranks from the sorted row; expected refutations for undefined behaviours |
| C94 | the constructor of the pool: the assignment from the costs, its variations, the random entries completed row by row | totality by induction on the rows and entries; the entries by the lemmas of C39; the ranking by the specification of std::sort |
| C90, C93 | optimize() as a relation: dispatch of lpcore.cpp and itm.hpp, the tuning modes, optimize_problem over the pool of C38-C39 | every entry of the final pool is truthful (C39), then C09-C12 and C53 carry it to the user's problem; expected refutation with the crossover insertion |
| C91 | is_time_limit and the loop of the main thread on any clock | induction over the turns |
| C92 | nlopt-optimizer.cpp, the library as any interactive behaviour | case analysis; expected refutation: x[5] of five numbers |
| C75, C76 | row update of the random solver; every update that returns | prefix sums move by 1; the final contract test decides satisfaction |
| C95-C101 | the observers: the image of the multipliers as a file written line by line, the image of the preferences as a byte array, the text files | invariant of the file over the observations; each pixel by induction on the cells drawn; expected refutations (iterator not advanced, 32-bit size, uninitialised length) |
| C102 | the solving loop with limits 0 and below | induction over the sweeps |
| C103 | R: the six functions from codes to options | cases against tables transcribed from the documentation |
| C104 | R: arguments, then `context_set_solver_parameters` | each field, for all arguments in range |
| C105 | R: from the text of the file through the parser, preprocessor and solver to the list returned | composition of C48 and the parser theorems; a run of the optimizer with the default arguments for the refutation |
| C106 | R: files that cannot be read, exceptions, internal errors | cases; the problem that replaces an unreadable file is solved symbolically |
| C107 | R: the other fields of the list | cases on the runs |
| C108 | the quadratic part of a written problem; a well formed problem can be written | induction over the terms; every other piece of the text is free of brackets |
| C109 | the tool with --optimize, from the command line and the text of the LP file to the solution file | one solution is kept with storage-type=one; composition of C90 with the parser and printing theorems; a run with storage-type=bound for the refutation |
| C110 | the lines of solver_started_cb, the words of core-out, the options of -p | ranges of all the parameters as an invariant of the reading of the command line and of the library's corrections; every value printed is accepted; refutation by the default delta and the modes |
| C111 | parse, assign_parameter, context_set_solver_parameters | invariant by induction over the arguments; refutation by time-limit=nan |
| C112 | the words of core-out against the tables of the command line | case analysis over the enumerations; refutation by the two modes with branch |
| C113 | the operators == and != of core-compare and problem.hpp | equality characterised field by field; feasibility, checks, evaluation and class of solver are invariant; refutation by a quadratic term |
| C114 | clear() | computation; refutation by a constant |
| C115 | operators < and == on solutions, values as doubles with infinities and NaN | order laws over the rationals; refutation by NaN |
| C116 | fixed_array with an explicit memory of blocks and pointers; all its constructors, assignments, swap, destructor | refinement to arrays as values, by induction over the operations of a program; ownership invariant |
| C117 | fixed_2darray with 32-bit sizes | injectivity of the address of a cell, induction over the writes; refutations |
| C118 | the calls of the registered functions, as traces of solve() and of the runs of optimize(), with and without manual tuning | case analysis over the traces, erasure to the models without calls; refutations by concrete runs |
| C119 | the updates between the steps of the threads | the invariant of the pool (C55) along the trace; refutation by the race of two threads |
| C120 | the two functions of the tool that print updates and the end | from the shape of the results of C118; refutation by a run with one thread |
| C121 | the text of operator<< for n_queens, then the lexer and the parser | the text lexes as the tokens of a document; the document is well formed; its meaning has the lines of C43; placements by the classical construction (three cases modulo 6) |
| C122 | C121 composed with the tool (C78, C82) | the hypotheses of C78 and C82 hold of every generated file |
| C123 | the update of a row by the solver for arbitrary coefficients | the selected entry of the sorted table is the best one (C64); the table has every satisfying assignment; the reduced costs are those of the state |
| C124 | load of a benchmark table | the line counter is 2 + the number of complete rows when the faulty row is reached |
| C125 | solve() and optimize() with the random solver | the class of a problem is Z iff some coefficient is not -1, 0, 1; no run of a solver ends with an internal error |
| C126 | reinit, crossover, mutation of the pool | invariant of the sizes over all schedules; bitwise specification of the crossover and of the mutation |
| C127 | results, compute_solution_impl, objective_function_exclude_copy in binary64 | a finite double is a whole number of 2^-1074; a rounding of a multiple of 2^k up to 2^(53+k) drops only zeros; induction over the terms; refutations with 0.1, 0.2, 0.3 and with 2^53 + 1 + 1 |
| C128 | is_better_solution, bad_value, compute_min_max_objective_function in binary64 | comparison of canonical doubles is the comparison of the numbers |
| C129 | C78 and C22 with binary64 for the numbers of the file | sums of exact doubles are exact (induction); regrouping of the terms by variable; C127 applies to the objective that is read |
| C130 | two runs of the model of solve() that differ in the parameters of the pushes; a round of a thread of optimize() | after a solution the list of violated rows is empty and stays empty, so that a push updates nothing: invariant by induction over pushes and iterations |
| C131 | solve() with and without preprocessing on problems whose constraints share no variable | a violated row that is updated with zero multipliers takes the cheapest assignment of its variables: each row has a multiplier that certifies its values; the sum of the certificates is weak duality; the certificate survives the updates of the other rows; the preprocessor keeps the constraints apart |
| C132 | the averages printed by try_benchmark, over exact numbers | the loop computes the number and the sum of the pairs (induction); the quotient is the mean times the part of the models compared |
| C133 | lowest, highest and colours of show_to_console | the folds give the least and the greatest number of the line (induction); a run leaves infinity where it had no success |
| C134 | solve() with and without preprocessing, from the problem to the result | total correctness: the preprocessor ends (C13), merging cannot fail on a satisfiable problem (C07), the constructor accepts it (C51), every sweep succeeds (C30) and the loops are bounded (C61); with C131, an optimum is returned without any assumption on the run |
| C135 | the tool called with one LP file with unit coefficients, from its text to the text of the solution file | C22 (the document is read), C134 (solve() returns) and C78 (what the file says) composed; with C131, the file holds an optimum of the document; the two classes of documents are in Answer_spec |
| C136 | solve() with two limits, and what set_params stores of the limit and w | simulation: a main loop that finds a solution before the limit takes the same steps under a longer one; the stored w compared for both limits; refuted by a run in binary64 when w is a part of the limit (`Budget_*.v`) |
| C137 | solve() with two numbers of pushes | a longer push loop continues the shorter one, and the best stored never gets worse (`Budget_*.v`) |
| C138 | the loops of a restart that draw numbers again until they fit (`Draws_*.v`) | the first good number ends a loop; a source that enters every interval gives one; with a deviation of 0 all numbers are the mean: refuted for all sources |
| C139 | m_kappa_append and kappa of the restarts of a thread, in rationals (`Draws_*.v`) | induction on the restarts |
| C140 | solve() on two problems that differ by the constant of the objective (`Rewrite_*.v`) | the run of one is the run of the other with shifted values; refuted with the rounding of binary64 |
| C141 | solve() on two problems that differ by the names (`Rewrite_*.v`) | every function of preprocessing, merging and search commutes with the renaming |
| C142 | solve() on a problem and on its mirror (`Mirror_*.v`) | relational: every value of the state is related to its opposite, every choice is the same; IEEE operations are symmetric; refuted with a delta that is not 0 |
| C143 | reader of solution files with the string_buffer behind its names (`StringBuffer_*.v`) | refinement to the reader on texts (ResultIO); potential argument for the memory; refuted for every name longer than a block |
| C144 | memory_consumed, memory_consumed_size, to_string (`Memory_*.v`) | case analysis on rationals; refuted: names not counted, null pointer of problems built in memory |
| C145 | min() of the costs and compute_delta, for any arithmetic (`Delta_*.v`) | induction on the costs in rationals; NaN is absorbing in the row update: case analysis; refuted when all costs are 0, by a run in binary64 with the default parameters |
| C146 | the row update in exact (rational) arithmetic: multipliers and preferences after `affect` (`Settle_*.v`) | the change of each reduced cost is computed from the three branches of `affect`; the order of the sorted terms gives the signs; refuted for coefficients -1, for maximisation and when every variable is chosen |
| C147 | two updates of one row in a row (`Settle_*.v`) | C146 gives the signs before the second update, C60 (greedy choice) then forces the same choice; refuted in binary64 by two runs that exchange their variables for ever (induction on the number of updates) |
| C148 | the eight log functions, the level of a context, of the tool and of the tuning (`Log_*.v`); events of a run are any list | induction on the list of events against the relation `shown`; the command line by an invariant of all turns of `parse` and by the items of C70 |
| C149 | the same model with --quiet | two readings of the command line that differ by quiet, by induction on the arguments; refuted by the tool's own messages (all command lines) and by --verbose=0 |
| C150 | the whole of solve() (presolve, dispatch, main loop, pushes) twice, on a problem and on the same with the objective times a constant (`Scale_*.v`); costs in exact arithmetic (`Cost_model.v`) | relational proof: every state of the second run is the state of the first with P and pi times a factor; the four norms by induction on the costs; refuted for a delta that does not follow the costs |
| C151 | the requests that the tool makes to the file system, in order, with the buffer of the stream (`Crash_model.v`); a crash leaves what is flushed and any first part of the rest; reader and validity check of `ResultIO_model.v`, `Validate_model.v` | induction on the value lines for every cut of the file; the requests refine the files of `Main_model.v`; refuted by a cut after the last equal sign |
| C152 | the requests of the loop over several files, flush included (`Crash_model.v`) | induction on the files: after a flush all that was printed is safe |
| C153 | the requests of a benchmark (`Crash_model.v`, on top of `Bench_model.v`) | cases on the requests made before the crash; refuted by the truncation of the table |
| C154 | cut texts, `parse` (`Parser_model.v`) | reading only goes forward in the tokens, an accepted text ends with `end`; the tokens of a cut text; refuted by a label that starts with end |
| C155 | constraints added (`Repeat_spec.v`), `preprocess`, `make_merged`, `user_solve`, `user_optimize` | simulation of the two preprocessings (same stack, equal counters), then the same merged rows; refuted by a looser constraint with preprocessing and by another order of the terms |
| C156 | other places (`Layout_spec.v`: ids and labels), `preprocess`, `make_merged`, the whole run | preprocessing and merging keep the relation line by line; the sort by id of distinct ids is unique; no function of the solver reads an id (`Layout_proofs.v`) |
| C157 | other orders of terms, `make_merged`, the whole run | the sort by variable of terms with distinct variables is unique; the class does not depend on the order; then as C156 |
| C158 | every addition, subtraction and product of coefficients in the preprocessor and the solvers, checked against the range of `int` (`Int_model`) | equality with the unbounded model for every problem whose constraints fit, by induction with the remaining absolute weight as a budget; the nodes of the branch-and-bound carry a sum at most the weight of the items seen; refuted one above the bound |
| C159 | the texts without square brackets that `make_problem` accepts, as a grammar with a meaning (`Accept_spec`: a `reading` gives a part to each word) | both directions against the same parser model: each loop of the parser consumes the words of one part of the reading (induction on the fuel), and conversely runs through the words of a reading (induction on the parts); the accumulated problem is then put in closed form |
| C160 | the same readings; the word after a one-sided lower bound has a place in the reading and none in its problem | proved for texts without bounds; replacing the skipped word never changes the result; refuted on a text that loses its list of binary variables |
| C161 | `Refused_spec.v`: the readable parts of a file, section by section, and the first section without one | from the soundness and the completeness of each loop of the parser (C159): a loop that gives an error has no readable part, and everything before was read |
| C162 | `Stops_spec.v`: the places of a file where the program stops, and the files it reads for ever | each loop of the parser is followed until its first step that gives no answer; the steps before it read the parts of C159 and C161, and the failing step is a pop of no word or a conversion to int. The loop over names goes on for ever only if the empty name is a variable, that is, a constraint has a constant. `Stops_proofs2.v` gives the converse: each loop reads the parts before such a place, then fails there; so the description is exact for files of usual words |
| C163 | `Refused_spec.v`, `Stops_spec.v` and `Accept_spec.v` together | the runs of `Stops_proofs2.v` take the parser to the section of the first fault; there the loop cannot succeed, because its soundness would give a readable section, and its only error is the one of the section. With C159 and C162 each outcome excludes the three others |
| C164 | `initial_x`, `pre_solve`, `pessimistic`, `optimistic`, `init_bastert` of `Solver_model.v`, `pre_solve_both` of `Pool_model.v`; what solving a constraint means is in `Initial_spec.v` | the two loops over the sorted variables by induction, with the first number that is enough as the invariant; then induction on the constraints; a constraint that shares no variable with later ones keeps its value. With coefficients 1 the number of variables set has a closed form, and a prefix of the sorted variables of that length is the cheapest choice (exchange argument by induction on the sorted list) |
| C165 | `user_solve`, `solve_problem`, `functor` and `initial_x` on problems whose constraints share no variable and have coefficients 1; `sums_of_variables`, `all_constrained` in `Initial_spec.v`, `separate` in `Separable_spec.v` | the start satisfies every row (C164), so the first test of the run accepts it; the objective function is the sum of the parts of the disjoint rows, each of them best by C164; the preprocessing keeps the coefficients, the separation and the optimum |
| C166 | `Seed_model.v`: init_random_generator_seed (itm-common.hpp:1442-1452), the start of the engine and its draws; `std::default_random_engine` is taken as the linear congruential engine of libstdc++ and libc++ (modulus 2^31 - 1, no increment), the multiplier is any that is prime to the modulus | multiplication by the multiplier is injective modulo 2^31 - 1 and never gives 0 (Gauss); then induction on the number of draws; `C166_same_run` puts it in `user_solve`. The period: 2^31 - 1 is prime (trial division), and the order of the multiplier is 2^31 - 2, because its power by 2^31 - 2 is 1 and its powers by (2^31 - 2) / q are not, for the prime factors q |

## Trusted base

* Coq 8.16.1: its kernel and `vm_compute` (used for the concrete examples and the refutations, and in C166 for the trial division and the powers modulo 2^31 - 1).
* No axiom. Every theorem of the `*_props.v` files is followed by `Print Assumptions` and each
  of them answers "Closed under the global context". No library other than Coq's standard library
  is required (ZArith, NArith, Arith, Bool, List, Lia, Ascii, String, Permutation, Sorting, QArith, Qabs, Qround, Qcanon, Qminmax, Setoid, Morphisms, Lqa, Znumtheory, Zpow_facts). The seven constants `Coq.ssr.ssrunder.Under_rel.*` that a whole-environment
  listing shows are parameters of a module type of the standard library's ssreflect support, loaded by
  its tactics files; no theorem depends on them.
* No functor, module type, `Declare Module`, section-less `Variable` or `Hypothesis`, no plugin, no flag
  that weakens the kernel.
* The reading of the C++: the model is a transcription by hand. Every definition cites the
  lines it transcribes, and says what it simplifies. Seeded wrong programs (seeded/LOG.jsonl) test that
  the theorems notice changes.
* Assumptions on the outside, all visible as quantified variables or hypotheses of the theorems:
  `std::sort` returns a permutation (and, where order matters, one sorted by the comparison when
  the comparison is a strict weak order); `std::shuffle` returns a permutation; random engines, clocks and
  `stop` flags return anything; `sscanf` on numbers is an arbitrary function in the parser (with
  the syntactic facts stated in Lexer_spec/Parser_spec); floats are an arbitrary type with arbitrary
  operations in the solvers.

## What is modelled

| component (theories) | code |
|---|---|
| BitArray | bit-array.hpp: all of `bit_array_impl`; storage crossover of itm-optimizer-common.hpp |
| Merged, Classify | merged-constraint.cpp, `which_problem_type`, `is_01`/`is_101`/`is_Z`, the constructors of all solvers |
| Preprocess | preprocessor.cpp: `preprocess`, `affect`, `split`, `unpreprocess` |
| Validate | lpcore.cpp `is_valid_solution`, `compute_solution`; objective range of utils |
| ResultIO, Utils | result.cpp/result.hpp reading and writing, trim, `string_buffer`, `numeric_cast` |
| Matrix, Rows, Greedy | sparse-matrix.hpp; reduced costs, sort, selection, `affect` for the four solvers with coefficients in {-1,1} |
| Subvector, Subsolver, BranchBound, ZRow | `shared_subvector`, exhaustive-solver.hpp, branch-and-bound-solver.hpp, itm-solver-inequalities-Z.cpp |
| RandomRow | random-solver.cpp |
| Solver | `compute_order`, the solver functor and `solve_problem` (itm-common.hpp, itm-solver-common.hpp) |
| Pool, Population | itm-optimizer-common.hpp: constructor of the pool, workers as an interleaving transition system, final result, seeds |
| Cost | `default_cost_type`, `quadratic_cost_type`, the norms, `normalize_costs` |
| Params, Cli | private.cpp, lpcore.cpp parameters, app/src/main.cpp: `assign_parameter` and `parse` |
| Lexer, Parser, Writer | parser.cpp; the LP writer `write_problem` of problem.hpp. Chars_spec.v defines blanks, names, numbers and keywords for the three specifications, independently of the model |
| Queens, QueensFile, QueensExist | the n-queens generator (core-test): its lines, and its text character by character; existence of placements |
| Tuning | branch-optimizer.cpp, manual-optimizer.cpp |
| Initial, Start | no new code: the starts of a run (itm-common.hpp:255-374) in `Solver_model.v` and `Pool_model.v` |
| Seed | `init_random_generator_seed`, the start and the draws of `random_engine` (itm-common.hpp:45, 1442-1452) |
| EndToEnd | itm.hpp dispatch, `solve` of lpcore.cpp |
| Optimize | lpcore.cpp `optimize`, itm.hpp `optimize`, `optimize_problem`, nlopt-optimizer.cpp, `is_time_limit` and the waiting loop |
| Main | app/src/main.cpp: `main`, `resume`, the solution and results files (not `--bench`) |
| Observer | observer.hpp, pnm.hpp: the pnm and file observers (the colours in exact arithmetic) |
| RInterface | rbaryonyx/src/rbaryonyx.cpp: the two functions and the list they return |
| OptTool | app/src/main.cpp:1161-1269 with --optimize: the parameters of the command line in the context of optimize(), the file written |
| Announce | app/src/main.cpp:64-147 (solver_started_cb), lib/include/baryonyx/core-out:158-480: the lines printed, with arbitrary texts for doubles. The colours and the output stream are not modelled |
| Compare | lib/include/baryonyx/core-compare, lib/src/problem.hpp:151-166, lib/src/problem.cpp:59-73. Costs of problems are integers; values of solutions are doubles without rounding |
| Fixed | lib/src/fixed-array.hpp (all), lib/src/fixed-2darray.hpp (constructors except the copy constructor, copy assignment, assign, set(const T&), operator(), sizes). bad_alloc, moves and swaps of fixed_2darray are not modelled |
| Callback | lib/src/private.hpp (start, update, finish), where lib/src/itm-solver-common.hpp, itm-optimizer-common.hpp, manual-optimizer.cpp and lpcore.cpp call them, app/src/main.cpp:149-235. The durations and the count of calls (given as texts), fmt on doubles, r.loop of solve() (given) and functions that throw are not modelled |
| Double | lib/src/itm-common.hpp:165-200, 1140-1147, 1427-1439; lib/src/lpcore.cpp:185-201; lib/include/baryonyx/core-utils:41-60; lib/src/preprocessor.cpp:718-735: in IEEE 754 binary64, round to nearest even. Not: x87 extended precision, contraction into fused multiply-add (both give the same result in the range of C127), the merge of quadratic terms |
| Dynarray, Bench, BenchShow | dynarray.hpp; app/src/benchmark.cpp: the whole benchmark; on the terminal the number of solutions, the averages (without rounding) and the colours of the table, not the widths of its columns nor the messages |
| Draws | the draws of normal distributions of a restart and its kappa: itm-optimizer-common.hpp 151-160, 402-405, 499-512, 526-555; the numbers of the engine are any sequence, std::normal_distribution is that of libstdc++ (number * stddev + mean; a stddev of 0 is outside the standard) |
| Rewrite | the same model as EndToEnd and Preprocess, run on two problems: constant of the objective, names of variables and labels |
| Mirror | the same model as EndToEnd (linear classes of solvers, the Z class excluded), run on a problem and its opposite; std::sort and std::shuffle are any functions that only look at comparisons and draws |
| StringBuffer | the names of a solution file in a string_buffer: result.cpp 77-123, core 80-87 |
| Memory | the size of the problem in the messages: memory.cpp, memory.hpp; sizes of the types and capacities of the vectors are any numbers, quotients by 1024 are exact |
| Delta | default of delta: itm-common.hpp 917-935, 1084-1093, 1329-1342, itm-solver-common.hpp 83-86 |
| Settle | no new code: consequences of Rows_model (itm-common.hpp 376-467) in rational arithmetic |
| Log | private.hpp 52-116, 150-528 (levels, streams; not the colours nor the formatting), main.cpp 1191-1192, the log_priority of the tuning contexts, rbaryonyx.cpp 399 and 557 |
| Push, Separable, Returns, Answer, Budget | no model of their own: theorems about Solver, Pool and EndToEnd |

Not modelled: rounding of doubles in objective values outside of Double; memory limits; the text of the log messages of the library; the search made by the nlopt library (any behaviour);
the messages that the R package prints; sub-second timing; debug.hpp (a failed contract is an outcome of the model);
itm-solver-inequalities-101-buffered.cpp and resume.hpp, which nothing reachable from the API uses (the method `buffered` runs equalities_01 code).
The differences `long double`/`double`/`float` disappear because the solver model holds for any float type.

## Findings

Each refuted theorem is a concrete run of the model that corresponds to the following behaviour of the code.

Containers
* `bit_array_impl::set(i, v)` (C03) stores false unless the offset of i in its word is 0; used by the mutation of the pool.
* `assign` (C04) writes outside the range and misses elements when the ends are not multiples of 64.
* `ones()` sets padding bits, so equality and hash distinguish equal vectors (C02).

Reading problems
* The first variable of a quadratic product is named after its word was popped: `[ 6 x * y ] /2 + z + t + u + v` is read as 3 u y (C67).
* A comment on the last non-blank line becomes a token (C68). `inf`/`nan` prefixes are numbers (C69). `1e-5` is three tokens.
* A truncated file aborts (`pop_front(0)`), and two shapes of file loop forever (C21): a constant in a constraint followed by a `binary` section at the end of the file, because the empty name is a variable.
* `read_bound` ignores the operator: `x >= 5` sets the upper bound (C23); a bounded variable whose name starts with e or E is rejected.
* Words of more than 511 characters overflow the buffer (C20). Coefficients in constraints are truncated to int.
* The writer loses lower bounds and writes files that cannot be read back when a variable is unused (C24).

Preprocessing
* `x = 1` with `x = 0` is dropped silently (C16). `max 2xy` dereferences an end iterator (C13).
* A product with a variable fixed to 0 stays as a linear cost (C15, C48).
* A variable fixed because nothing mentions it gets 0 or 1 whatever its bounds (C53).

Solvers
* The selection loop reads `R[bkmax]`, one past the buffer when the upper bound is the number of variables (C30).
* The 01 solvers push with the cost of the variable whose index is the position in the row; the 101 solvers add the amplified cost to a negated reduced cost (C59).
* Z solver: mixed signs may leave no fitting prefix (abort), the exhaustive table is read with the sorted order, `R[r_size]` is read (C62); branch and bound overwrites its initial solutions with worse ones (C63); exhaustive search rejects one-variable rows (C35).
* Random solver: every row with a negative upper bound aborts, `x0 - x1 = 1` aborts for some orders; every variable gets the cost of the first variable of its row (C75).
* `x + y >= 3` ends the process in the constructor (C52). A problem without constraint is "solved" by an empty solution (C32).
* `pi_sign_change` uses the number of variables as number of rows; `cycle` sorts an empty order (C42).
* Time and kappa limits are reported as `limit_reached` (C34); `remaining_constraints` of the result is never set (C58).
* The infinity norm divides by the maximum, not the maximum absolute value, and turns signs when all costs are negative; the random norm changes signs (C41). Square terms are ignored in the marginal cost of a variable at 0 (C44).
* A limit of 0, documented as unlimited, makes no sweep (C102).

Observers
* The image of the multipliers shows one multiplier per line: the iterator is never advanced (C96). A negative limit or a file that cannot be created ends the run (C97). Image sizes are computed with 32 bits (C98). `m_len` of the text observer is never initialised (C101).

Optimizer
* pessimistic-solve and optimistic-solve only try the prefixes of the variables sorted by cost. With a negative coefficient the start may leave a lone constraint violated although it can be satisfied: x0 - x1 = 1 with the costs 5 and 3 starts from 0, 0 (`C164_other_coefficients`). The model of `initial_x` used to skip constraints at random; the code passes the probability 1 (itm-solver-common.hpp:107, 112), and so does the model now.
* On independent constraints with coefficients 1 the run stops with the start of pessimistic-solve, which satisfies them with as few variables as possible and may not be optimal; that of optimistic-solve is (`C165_pessimistic_may_miss`, `C165_optimistic_optimum`).
* The seed 2147483647, accepted by the command line, gives the run of the seed 1 (`C166_command_line`). From R the default seed is -1, which becomes 4294967295 and gives the run of the seed 1 at any time (`C166_from_R`). The seeds of the threads are compared as 64-bit numbers, but different ones may start the same engine in every thread (`C166_threads_same_numbers`).
* The constructor of the pool fills its second half two by two: when that half has an odd number of entries the last one keeps all variables at 0 (C94). The refutations of C38, C39, C64, C65 and C90 start from a pool that constructor makes and from threads with the costs of the problem.
* The victim is chosen before the lock, fields are written one by one under a shared lock, and crossover overwrites assignments of the pool: the best can be lost and an infeasible assignment reported as a success (C38, C39, C64). The remaining count is the minimum over sweeps, stored with the last assignment (C65).
* `generate_seed` never compares the first seed and does not check a redrawn one again (C40).
* Branch optimisation never returns a result (C46); among failed runs it keeps the one whose problem has the fewest constraints, not the fewest remaining constraints (C46); manual tuning runs the last combination at the end, minimises even when maximising, and builds two tables from theta (C47).

* With nlopt, the index of `init_policy_random` is 5 in vectors of five numbers: undefined behaviour at the first evaluation (C92).

R package
* `value` is that of the last solution listed: with `optimize_01lp_problem` and its default storage, the worst member of the pool, possibly infeasible (C105). The default storage is not the documented one (C104).
* With `--optimize` and `storage-type=bound` (or `five`) the tool writes the last solution listed, the worst of the pool, under the line "status: solution found" (C109): x=0, y=0, z=0 for x + y + z = 1.
* The tool prints `delta: -1` for the default, which `-p delta=-1` refuses; `observation` for `observer-type`; `manual-and-branch` for the mode that `--auto` calls `branch-manual`, and reads the printed word as no tuning (C110, C112). storage-type, thread and seed are not printed.
* `-p time-limit=nan` is accepted (NaN <= 0 is false) and kept by the library: no comparison with the time ever stops the loops (C111).
* == on problems does not compare the quadratic costs: problems with different optima compare equal (C113). The status of the reading is not compared either: a problem whose file could not be read equals an empty problem.
* clear() keeps the constant of the objective (C114). problem::swap does not swap the strings that the names point to.
* operator< on solutions is not a strict weak order if one value is NaN (C115).
* An array (fixed_array) that was moved from still reports its old size, while empty() is true; iterating over it or copying it is undefined (C116).
* fixed_2darray: the copy assignment allocates columns * columns elements and copies columns * rows: it overflows its memory for any array with more rows than columns; sizes wrap at 2^32; assign() of an empty range reads its end (C117). The copy constructor, set(value_type&&) and emplace do not compile if instantiated (unique_ptr has neither data() nor emplace()), and the copy constructor uses its members before their initialisation: not modelled.
* The function for the end is not called when the problem prepared has no constraint or no variable (optimize), nor when the random solver refuses a problem, nor when an exception leaves the call after the start; with the manual tuning the start is announced 3126 times (C118).
* The value of a solution depends on the order of the terms of the objective function when the coefficients are not multiples of one power of two (0.1, 0.2, 0.3), so that of two solutions with the same value one can be taken for strictly better (C127).
* The mutation sets only the variables whose index is a multiple of 64; any other variable that is mutated becomes 0, whatever the probability of init-mutation-value-mean (C126, by C03).
* With two threads that replace the same entry of the pool, the final result can be worse than an update already reported (C119).
* The tool prints solutions.back() as "Best solution found": with the storages bound and five it is the worst or the fifth entry of the pool, possibly an assignment that violates constraints (C120). solve() never sets the number of remaining constraints, so the tool prints 2147483647 (C120).
* A file that is missing or has errors gives `solution_found` = TRUE, value 0, for a maximization (C106). `remaining_constraints` is 2147483647 after every `solve_01lp_problem` (C107).

Command line
* Two-character names ending in `l` set the limit (C45); `--verbose` and its value are files too (C70); a missing comma shifts the names of the error messages (C71); `--check` checks nothing (C72); several documented values are rejected (C73); a NaN or a huge `w` is accepted (C26).
* Pushes do nothing with the orders none, reversing, random-sorting, infeasibility-*, lagrangian-*: they update the violated constraints only, and there are none after a solution (C130). Only pi-sign-change and cycle sweep all the constraints again. Raising pushes-limit with the default order costs time and cannot improve the solution.
* The benchmark divides the sum of the distances from a solver by the number of models, also those that were not compared, and its distance from the optimum compares the models with the first model (C132). Green is the lowest value also for models to maximize (C133).
* The order pi-sign-change numbers the rows to visit by the variables: solve() reads a row that does not exist at its first sweep, for every problem with more variables than constraints (C61_pi_sign_change_refuted, universally quantified).
* The tool exits with status 0 when a file cannot be read or solving throws (C79); with several files an exception leaves an unfinished line and an unreadable file none (C80); `x = 1` with `x = 0` is reported solved (C78_refuted_unsatisfiable).
* A missing solution file is an empty valid result; `a=` reads as 0 (C56).
* Benchmark: a row with too few values takes the words of the next row as its values, so the table loads with wrong cells or the error names a later line (C124).
* Benchmark: a solver name of one character is refused unless it is the last one, so a table can become unreadable after its next benchmark (C84, C85). Values are printed with 10 digits: a longer value already in the table is rounded each time. The statistics read one cell past the end of each row, out of the storage when the number of models equals the capacity (512, 768, ...) or when there is no solver (C87). A value 0, NaN, or an empty table is undefined behaviour (C87). A run without solution is announced as a feasible solution (C88). `m.lpz` is taken for an LP file (C89). The average distances divide by all the models and compare unrelated ones (not modelled); the statistics file name cuts at the last point of the whole path.
* A larger limit can lose a solution when w is a part of the limit, as it is by default: kappa starts to grow later (C136).
* With init-crossover-solution-selection-stddev=0 a crossover never ends, and the thread holds the lock of the pool: optimize() never returns, whatever the time limit (it joins its threads). With init-mutation-variable-mean=0 and stddev 0 a mutation never ends (C138). choose_a_solution gives m_size for a draw of 1: it reads past the end of the pool (C138).
* With init-kappa-improve-increase=0 no crossover ever happens; with a large increase kappa starts above kappa-max (C139).
* A large constant in the objective hides the costs: with 2^60 the solver keeps a solution that is not the best one it met (C140).
* delta is added to the preferences of the selected variables in the same direction for minimization and maximization (affect, itm-common.hpp:382-467), while all the differences it is added to change sign: a maximization with delta behaves as a minimization with a negative delta. With delta = 1/4 a problem of five variables is solved as a minimization and its opposite stops at the limit (C142). The Lagrangian orders of the constraints and the pre-orders p1 to p4 do not look at the direction either.
* A name of more than 1 MiB in a solution file is copied past the end of a block of the string_buffer (C143).
* With the default parameters and no costs (a problem where only the constraints count), min() of the costs returns the largest number of the type and delta is half of it. After two sweeps the reduced costs are NaN, std::sort is called with a comparison that is not an order, preferences stay NaN for ever and the search no longer moves: a + b + d = 2, a + b = 1, b + c + d = 1 is not solved in 1000 loops, and is solved with delta = 0.01 (C145).
* The update of a row is meant to make its own choice cheaper. For a coefficient -1 it makes it dearer: reduced costs subtract coefficient * preference, and `affect` adds d to the preference of a variable set to 1 whatever its coefficient, so the sign is lost for -1. On - x0 - x1 = -1 with costs 1, 2, delta 1 and kappa 0, every update exchanges x0 and x1 for ever, while x0 + x1 = 1 is settled after one update (C146, C147). The same happens when maximising (delta keeps its sign) and, when every variable of a row is chosen, the term `R[selected] * 1.5` has the wrong sign.
* memory_consumed follows pb.strings without a check: solve() on a raw_problem that was filled by hand, without a string buffer, dereferences a null pointer to build a log message, whatever the log level (C144). It counts neither the arrays of names nor (for the affected variables) more than one byte per variable.
* `--quiet` ("Remove any verbose message") only sets the level of the library to 3: everything that the tool prints itself (parameters, progress, summaries) is printed all the same, and `--verbose=0 --quiet` prints more than `--verbose=0` (C149). The progress messages of the automatic tuning (parameters tried, values found) are sent as notices to a context whose level is warning, so no verbosity shows them (C148).
* The answer of solve() depends on the unit of the costs (C150): without a norm, and with the l2 norm, which divides by the sum of the squares and not by its square root (`itm-common.hpp:1107-1117`, `1363-1380`), a given delta weighs differently when the objective is multiplied by 10; the run can then end without a solution, or find a better one. The l1 norm removes the unit. The infinity norm (the default) divides by the largest cost and not by the largest absolute value: it removes the unit when no cost is negative, and leaves the costs as they are when the largest is 0.
* Interruptions (C151, C153): a solution file cut right after the last `=` is read with 0 for the last variable, because `to_int` takes the EOF (-1) of sscanf for a success (`result.cpp:69-74`), and may be judged a valid solution with another value than the one found. Cut anywhere else, a solution file is refused, or has too few variables (which ends the check by a contract failure), or is complete. A benchmark opens its table for writing, which empties it, before it prints the new one (`benchmark.cpp:755-759`): stopped there, the results of all the former runs are lost, and stopped later, what is left may be loaded as a table with fewer models. With several files the results are flushed after each answer, so that none is lost (C152).
* Cut LP files (C154): the word `end` is the only mark of a complete file and the parser takes it wherever a section may start. A file cut after the first three letters of a label or of a name that starts with end (`end_date: x = 1`) is read without error as a smaller problem.
* Redundant constraints (C155): the preprocessor drops `x + y >= 0` (sum 0 equals the bound) but keeps `x + y >= -1`, and merging compares the terms in the order of the file: `x + y = 1` and `y + x = 1` are two rows of the solver.
* Layout (C156, C157): with the default pre-order (none) the answer depends on the order of the lines and of the terms: minimize x + y + z, x + y = 1, y + z >= 1 is answered with value 1, and with value 2 if the two lines are exchanged or if `y + x = 1` is written.
* Overflow (C158): the coefficients and the right-hand sides are `int`s and their sums are not checked. When the absolute values of a constraint sum to at most 2147483647 nothing overflows; one more is enough for undefined behaviour in `sum_factor` (`preprocessor.cpp:64-72`). With coefficients 2000000000, 2000000000 and 294967297 the wrapped sum is 1, and the preprocessor would set all three variables to 1 for a constraint `= 1`. Not covered: `itm-solver-inequalities-Z.cpp:321,340` add `R[r_size].f`, a value left by another row, in their last turn; the sum is not read after that.
* Skipped word (C160): for `a <= x` without an upper bound `read_bound` (`parser.cpp:907-965`) takes one word more than the line has. In `bounds 0 <= x binary x end` the word `binary` is skipped, `x` is read as a line without limits, and the file is accepted with `x` a free real variable. C159 gives the exact set of accepted texts: a lone sign counts for a constant 1 (`x + + y`), a number after a number is the name of a variable (`- 3 4`), a constant in a constraint is a variable without name, `max:` with a colon is refused by an abort.
