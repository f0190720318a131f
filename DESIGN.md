# Formal model of PyVRP in Rocq: design

The plan in section 2 was written before the proofs; the other sections describe the model as it is.

## 1. Approach

The model is a shallow embedding: each modelled C++/Python function becomes a total, computable
Gallina function over `Z`, `nat`, `list`, `option` and records that follows the source branch by branch.
Exceptions are values of a `res` type (`Ok x` / `Err e`); mutation through pointers becomes a returned value, and where
the pointers themselves matter (nodes and routes of the search) the store of nodes is modelled explicitly and shown to
refine plain lists; loops become structural recursion, folds, or recursion on a fuel argument together with a proof that
enough fuel exists.  Each definition cites the source file and lines it follows.

* Measures (`int64_t` cost, distance, duration, load) are unbounded `Z`.  Overflow.v, OverflowCost.v and OverflowSearch.v have a second version of segments, route
  construction, solution sums, costs, search routes and proposals that fails where a value leaves int64; C55 and C67 show when the two agree.  In both, the code's own overflow guards (comparisons with `numeric_limits::max()`, `MAXV` in the model) are kept as written.
  Theorems about durations therefore state when the figures stay clear of `MAXV` (`fits`, with the closed-form
  sufficient condition `modest` in Fits.v).
* Penalties, proximities and `rand()` (`double`) are IEEE binary64 (Flocq's `binary_float 53 1024`, round to nearest
  even).  Cost theorems are proved for any penalty functions that are zero at zero, non-negative and monotone
  (`ev_ok`), and the binary64 functions are shown to be of that kind (C13).
* Calls to pluggable components (search method, penalty manager, clock, solver, callbacks, the csv module's number
  formatting) are function arguments: theorems quantify over every behaviour of them.  C48 puts the concrete components
  together.
* Files `P*.v` with property theorems contain the statements (each closed by a lemma), `Print Assumptions`, and `Example`s that
  exhibit a concrete non-trivial case meeting the hypotheses.  Theorems ending in `_refuted` prove that the code
  violates a plausible stronger statement, by a concrete counterexample.

| File | Models |
|------|--------|
| Base | constants, arithmetic tactics |
| Data, Valid, DataCtor | Client, Depot, Location, Shipment, ClientGroup, VehicleType, ProblemData: fields, constructors' checks, `replace`, `validate` |
| LoadSegment, DurationSegment | the two segment classes |
| Route, RouteSpec | solution routes; the independent simulator they are compared with |
| Solution, Cost, Penalty | solutions, CostEvaluator, binary64 penalties |
| Equal, Pickle | `operator==`; pickling |
| SearchRoute | search routes' caches, segments, proposals, `deltaCost` |
| SearchNodes, SearchSeq | search routes' node lists with pointers; edits |
| SearchLoad | search `Solution::load`/`unload` |
| SearchSpace, Neighbourhood | search space; `compute_neighbours` |
| Ops | all search operators: `evaluate` and `apply` |
| LocalSearch, LocalRun | `LocalSearch::search`, `ensureStructuralFeasibility`, `insert`, the call, and pyvrp/search/LocalSearch.py |
| Perturb | PerturbationManager |
| Rng, RngFloat, MakeRandom | random numbers, random solutions |
| RingBuffer, Stop, Ils, Pm and PmWarn, Fleet, ResultPy, StatsCsv, ModelPy | the Python modules of these names |
| Callbacks, CallbacksSolve | callbacks of IteratedLocalSearch.py and the lines of ProgressPrinter.py |
| Solve, Ordinary | pyvrp/solve.py with operators' `supports`; Model.solve, and bounds on the calls that build a model |
| FileSize | bounds on the numbers of an instance file |
| Overflow, OverflowCost, OverflowSearch | segments, route construction, solution sums, penalised costs, delta costs, caches of search routes and figures of proposals with checked 64-bit arithmetic |
| Pwl, Bitset, MatrixFacts, ActivityText | PiecewiseLinearFunction.h, DynamicBitset, Matrix.h and array conversion, Activity's text form |
| Read, Rounding | pyvrp/read.py and the solution files of pyvrp/cli.py; the named rounding functions |
| Config, Cli, Table, Bench | SolveParams.from_file; `_solve`, `tabulate` and `benchmark` of pyvrp/cli.py |
| Plot | `plot_route_schedule` and the edges of `plot_solution` in pyvrp/plotting |
| PlotStats, ScaleWarn | the other plots, and the warnings about large values |
| LogText, ResultText, SolutionText | the text of the lines of ProgressPrinter.py, of results, solutions and routes |
| Counted | the statistics of LocalSearch.cpp and of the operators |
| Sample, Sample2 | the instances used in examples |
| Test* | the model evaluated on the inputs of the repository's own unit tests, compared with the values those tests expect |

The Test*.v files prove nothing general: they are a check that the model computes what the code computes.  The code
cannot be run here, but its unit tests record what it returned, so each `Example` there carries the name of a unit test
and states the model's value beside the expected one.  Doing this found one place where the model differed from the
code (what `evaluate` of RelocateDelivery, RelocatePickup and RelocateWithDepot returns if no move improves), which was corrected.
The largest case is `test_debug_operator_logs`: a search of an instance with 50 clients from a random solution, in which
model and code agree on the number of moves evaluated (5671) and applied (71).

The remaining files (`*Facts*`, `RouteDur`, `Proposal*`, `Ops*` other than Ops, `Local*`, `Fits`, `Finite`, …) are proofs.

## 2. Per-property plan

| Id | Modelled | Proof |
|----|----------|-------|
| C01 | `LoadSegment` merge/load/excess | algebra; induction over merge trees to a stop-by-stop load simulation |
| C02 | `Route::setLoad` | induction over the visit list against an independent load simulator |
| C03 | `DurationSegment::merge` incl. the guard near the maximum | invariant of reachable segments, then linear arithmetic |
| C04 | `Route::setSchedule` backward pass | denote a segment by the functions start time -> (elapsed, time warp); merge is composition; induction |
| C05 | `slack` | same denotation |
| C06 | `setDistance`, `setSchedule` sums | induction |
| C07 | forward schedule pass | induction; counterexample for the sum of time warps |
| C08 | `Route::validate` | equivalence with a declarative well-formedness predicate |
| C09 | `Solution` constructor | equivalence with a declarative predicate |
| C10 | `evaluate`, `unplanned` | counting/permutation argument |
| C11 | `isFeasible` and parts | equivalence |
| C12 | `penalisedCost`, `cost` | algebra |
| C13 | penalty functions in binary64 | SpecFloat / Flocq monotonicity of rounding |
| C14, C15 | search route `update`, segments, `Proposal` | merge algebra incl. finalise in both directions |
| C16 | `deltaCost` | C15 + non-negativity of skipped terms |
| C17 | `update` vs `setSchedule`/`setLoad` | both equal a common recursive evaluation |
| C18 | `insert`/`remove`/`swap`/`clear` on a node store | invariant over operation sequences; refinement to list edits |
| C19 | `Solution::load`/`unload` | equality of visit lists |
| C20, C21 | operators' evaluate/apply | generic list-surgery lemmas + C16 |
| C22, C23 | `LocalSearch::search` | per-step decrease; well-founded lexicographic measure |
| C24 | `ensureStructuralFeasibility` | invariant over the loops |
| C25 | `computeNeighbours` | stable sort prefix |
| C26 | `SearchSpace` | invariant over histories |
| C27 | `PerturbationManager` | counting invariant |
| C28, C29 | `IteratedLocalSearch.run` | invariant over loop iterations with arbitrary oracles |
| C30 | `RingBuffer` | refinement to "last n values" |
| C31 | stop criteria | refinement over call histories |
| C32 | `PenaltyManager` | invariant over registrations |
| C33 | `minimise_fleet` | loop invariant with arbitrary solver; the lower bound in binary64; composed with solve() |
| C34 | `ProblemData::validate` | equivalence with index-safety predicate |
| C35 | `replace` | equational |
| C36 | pickle tuples | equational, plus refutations for Route and Solution |
| C37 | xorshift generator | invertibility of the linear step; bounds |
| C38 | `PiecewiseLinearFunction` | induction over pieces |
| C39 | `DynamicBitset` | bit-level lemmas lifted to index sets |
| C40 | `Matrix` | index arithmetic |
| C41 | `Activity` text form | decimal round trip |
| C42 | `Statistics` CSV | list round trip |
| C43 | `make_random` | invariant for every random stream |
| C44 | `Model.data` | last-write-wins |
| C45 | `Result` | equational |
| C46 | `operator==` | hashes of aggregate figures do not matter; permutation argument |
| C47 | `Solution::insert` | minimum over the considered places |
| C48 | `solve` | composition of C24, C28, C31, C32, C43 with a world invariant |
| C49 | operators' `evaluate` | sign of the cost delta for every move of the kind, by the pieces of C21 |
| C50 | `LocalSearch.__call__` (exhaustive) | time stamps: whatever was tested and not changed since is still refused; C49 |
| C51 | `read` | entry by entry specification of the file; inversion of the monadic program; induction over the grouping of vehicles |
| C52 | `read`, `Route` | arcs of a path that leave the allowed set; path sums |
| C53 | `write_solution`, `read_solution` | names of vehicle types partition the vehicles; locations determine activities |
| C54 | `step`, `model_data` of ModelPy.v, against the list of calls (ModelSpec.v) | induction over the calls; references never change |
| C55 | checked arithmetic (Overflow.v, OverflowCost.v) for segments, `make_route`, solution sums, costs and delta costs | invariant bounding each field of a segment by its number of parts; weights bounded through rounding; figures of proposals from C15 and C17 |
| C56 | `supports` (Solve.v), operators' evaluate, `ls_call` | each unsupported operator's evaluate refuses on plans that meet the search invariant; simulation between the two searches |
| C57 | `with_depot`, `relocated`, `swapped`, `tails_swapped` (effects of moves), `py_call`, `solve` | the property of plans is kept by each kind of move, by making a plan complete and by perturbing; induction over the search, then over the iterations |
| C58 | `search_loop` (the rounds of the local search), `busy`, `later`, `begins` (what solve() starts its first search with), the instances of Hang.v | rounds depend on the counters only through their order, so a state that recurs with renumbered counters recurs forever; the recurrence itself is computed |
| C59 | `fl` (rounding to binary64), `round_trunc`, `round_nearest`, `round_dimacs`, `round_exact`, `decimal`, `euclid` | error bounds of one and two roundings against the distance of the exact value to the next integer or half; a tenth times ten is exact (Kahan), by parity of the mantissa |
| C60 | `model_solve`, `modest_calls`, `model_data`, `solve` | matrix entries are edge values, the missing value or zero; constructors give valid data; `modest_fits`, `modest_objective`; then C48 |
| C61 | `cb_init`, `cb_body`, `cb_returns`, `events` | the body with callbacks projects to `ils_body`; fold over the trace; with C48's invariant for solve() |
| C62 | `print_iteration`, `log`, `cb_returns` | invariant of printer, log and trace along the loop |
| C63 | `from_file`, `describes` | inversion of each section's reader; a relation that does not mention the order of reading |
| C64 | `cli_solve`, `modest_file`, `due` | C48, C49, C51, C53 composed; the answers of the combined criteria as a closed condition on the question |
| C65 | `tabulate`, `cell_at` | induction on rows and columns |
| C66 | `counted_call`, `owed` | the counts projected away give the search; a tally of counts, updates and plan along the search; a potential that each repair step lowers by one |
| C67 | `kupdate`, `kprop_distance`, `kprop_duration`, `kprop_excessLoad`, `fdeltaCost` | every cell and every proposal is the value of a segment expression of C55 whose size is linear in the number of nodes; trips' loads add up to at most the stops' |
| C68 | `PenaltyManager` with the averages for warnings | what is remembered is the average of the last complete window; rounded means of integer totals below 2^52 compare like the totals |
| C69 | `benchmark`: sorted paths, `_solve` for each, rows, files written in any order | insertion sort; writes with distinct names commute; C64 for each instance |
| C70 | `plot_route_schedule`, the edges of `plot_solution` | accumulators as sums over prefixes of the schedule; C02, C06, C07 for the figures |
| C71 | the warnings about large values of `Edge`, `Model.from_data` and `read` | entries of data() are edges of calls (C44, C54) or the fill value; entries of read() as in C51 |
| C72 | `plot_objectives`, `plot_runtimes`, `plot_demands`, `plot_time_windows` | C29 for the statistics; rounding of 0.05 n in binary64; sorting |
| C73 | text of `ProgressPrinter.iteration`, `restart` and `start` | splitting at spaces distributes over the template; decimal texts contain no space |
| C74 | `Result.summary`, text of `ProgressPrinter.end` | C45 for the cost; words as in C73 |
| C75 | operator<< of routes and solutions, `Result.__str__` | words as in C73; C41 for the text of an activity |

## 3. Trusted base

* Coq 8.16.1's kernel (including `vm_compute`).
* The reading of the source: no code was run; the correspondence between the Gallina definitions and the cited lines is
  by inspection.
* The axioms that `Print Assumptions` lists for each theorem.  No axioms are added by this development.  The theorems of
  the manifest fall into two classes:
  * closed under the global context (no axioms): 232 theorems, all not listed below;
  * `ClassicalDedekindReals.sig_forall_dec`, `ClassicalDedekindReals.sig_not_dec`, `Classical_Prop.classic`, `FunctionalExtensionality.functional_extensionality_dep` (standard library; through the real numbers that Flocq uses): C13_penalty_monotone, C13_evaluator, C24_computed_usable, C25_well_formed, C25_accepted, C25_order, C32_parameters, C32_bounds, C32_independent, C32_direction, C33_lower_bound, C33_minimised, C33_with_solve, C33_rejects, C33_no_demand_refuted, C37_rand, C43_random_solution, C45_result, C48_returns, C48_result, C48_asked, C48_max_iterations, C48_trace, C55_weights, C55_default_penalties, C55_max_value_cost_refuted, C57_solve, C57_given_refuted, C58_solve_release_refuted, C58_solve_duration_refuted, C58_call_release_refuted, C58_call_duration_refuted, C48_returns, C59_trunc, C59_round, C59_dimacs, C59_exact, C59_euclid, C59_euclid_refuted, C59_distances, C60_returns, C60_incomplete, C61_solve, C63_file, C63_values, C63_default, C63_usable, C63_ignored, C63_finite_refuted, C64_solves, C64_negative, C64_per_client_refuted, C68_same_penalties, C68_warns_iff, C68_silent, C68_stays, C68_struggles_refuted, C68_all_feasible_refuted, C69_rows, C69_files, C69_solves, C69_raises, C69_same_name_refuted, C69_long_name_refuted, C72_objectives, C72_not_collected, C72_default_raises, C74_summary, C74_end, C74_aligned, C75_result.

  The whole-library list of the checker additionally shows the primitives of `Coq.Reals.Rdefinitions` (`RbaseSymbolsImpl.*`, `RinvImpl.*`)
  and `Coq.ssr.ssrunder.Under_rel.*`: opaque module components of the standard library loaded by Flocq, not used as axioms.
  Libraries used: Coq's standard library and Flocq (definitions and lemmas of binary64; it has no axioms of its own).

## 4. What is not modelled, and simplifications

Not modelled at all: the text formats of instance and solution files (the vrplib package), `cli.py` other than `_solve`, `tabulate`, `write_solution` and `benchmark` (argument parsing, creating directories, the process pool other than the order in which files are written, averages), `plotting/` other than the traces of `plot_route_schedule`, the edges of `plot_solution`, the lines of `plot_objectives` and `plot_runtimes` and the bars of `plot_demands` and `plot_time_windows`, the formatting of run times, `show_versions.py`,
the text of TOML files, logging, docstrings and the type casters of pybind11 other than the array conversion and index
checks that C40 and C34 speak about; threads, signals, memory management, exceptions thrown by the allocator.

Simplifications, by area:

* **Arithmetic.** No int64 wrap-around outside Overflow.v, OverflowCost.v and OverflowSearch.v: sums of delta costs in operators beyond CostEvaluator's own and the Python code
  use exact arithmetic.  `numVehicles_`, lengths and indices are `nat`.  Counters of
  the search (`lastTest_`, statistics) do not overflow.  An operator object is added to a search once (C66).
* **Time.** The clock is an oracle returning integers.  The measured run time in `Result` and `Statistics` is an
  arbitrary input.
* **PenaltyManager.** That a warning is given is modelled (PmWarn.v), its text and Python's warning filters (which may drop it, or make it an exception) are not.
* **make_random.** Assumes 0 <= max_reloads <= SIZE_MAX (what the constructor can produce).  `std::shuffle` ignores the wrap-around of `range + 1`.
* **Containers.** `unordered_map` is an association list (with last-write-wins), `std::stable_sort` insertion sort, the
  perturbation's bitset a list of seen activities.
* **Operators.** The operators are modelled on their positions in the plan.  `U + 1` pointer arithmetic in the sources
  relies on the layout of `std::pair` and is modelled as "the delivery".  Adding the same operator object twice gives two entries with separate
  caches in the model.  Shipment insertion's initial `max()` cost is `None`.
* **read.py.** The dictionary of vrplib is a record of optional sections.  Numbers are of an arbitrary type with an arbitrary elementwise rounding function to integers (Rounding.v has the named ones on binary64 numbers);
  numpy's dtypes and overflow are not modelled; whether there is a warning about large values is (ScaleWarn.v).
* **cli.py.** Limits are integers, infinite or NaN; the product of a run time with the number of clients is exact. `from_file` starts from the dictionary that tomllib
  returns, and values of a wrong type are rejected.
* **ILS.** Callbacks act on a state of their own: callbacks that raise or change the search are not modelled. Log lines are modelled without their text and elapsed times.
* **Conditions of the search theorems.** `setting d h ev` (OpsBase.v): data passes the constructors' checks
  (`valid_data`, `data_ok`), every time window opens by `h`, travel durations are not negative (the C++ does
  not check that), the figures of every well-formed route fit (`fits`; for routes with
  reloads: no maximum duration is exceeded and reload depots stay open until all clients of later trips are released),
  and the penalties are `ev_ok`.  The counterexamples C15_max_duration_refuted and C21_max_duration_refuted show why the condition on reloads is needed.

## 5. Results

| Id | Property | Status | Theorems | Remarks |
|----|----|----|----|----|
| C01 | Load of a visit sequence does not depend on how it is split | proved | C01_load_split_independent C01_load_is_simulated_peak |  |
| C02 | Route.excess_load is what simulating the vehicle's load gives | proved | C02_excess_load_is_simulated |  |
| C03 | Duration of a visit sequence does not depend on how it is split | proved | C03_duration_split_independent C03_duration_is_simulated |  |
| C04 | Route duration and time warp are the best any departure time can achieve | proved | C04_route_timing_optimal |  |
| C05 | Route slack is exactly how long departure can be postponed | proved | C05_slack_exact C05_segment_slack C05_segment_slack_refuted | Route.slack is exact. DurationSegment.slack is exact when the start is bound by a release time or the previous trip; otherwise it can be too large (C05_segment_slack_refuted). |
| C06 | Route distance, travel, service and wait figures add up | proved | C06_figures_add_up |  |
| C07 | Route schedule is a consistent timetable | proved | C07_schedule_consistent C07_schedule_sums C07_schedule_sums_refuted | The sums of the schedule's time warps equal the route's under the conditions stated in C07_schedule_sums; C07_schedule_sums_refuted shows the conditions are needed. |
| C08 | Route construction accepts exactly the well-formed visit lists | proved | C08_route_accepts_well_formed |  |
| C09 | Solution construction accepts exactly the consistent route sets | proved | C09_solution_accepts_consistent |  |
| C10 | Planned and unplanned activities partition the instance | proved | C10_plan_partition |  |
| C11 | Feasibility means every constraint holds | proved | C11_feasible_iff |  |
| C12 | cost() is the objective for feasible solutions and penalties only add | proved | C12_cost_is_objective |  |
| C13 | Penalty terms are non-negative, zero without violation, and monotone | proved | C13_penalty_monotone C13_evaluator | Uses the standard library axioms behind the real numbers (through Flocq's binary64). |
| C14 | Cached route segments of the search agree with each other | proved | C14_cuts_agree |  |
| C15 | Evaluating a proposed route equals rebuilding it | proved | C15_proposal_distance C15_proposal_load C15_proposal_duration C15_max_duration_refuted | The time warp clause needs the side condition stated in C15_proposal_duration; C15_max_duration_refuted shows the code deviates without it. |
| C16 | Delta cost evaluation: exact when it says so, and never rejects an improving move | proved | C16_delta_cost C16_delta_cost_two_routes |  |
| C17 | The search and the solution agree on the cost of a route | proved | C17_search_agrees_with_solution |  |
| C18 | Route editing keeps node bookkeeping right | proved | C18_edits C18_unique C18_failed_insert | Node pointers, the depot vector and its reallocation are modelled. C18_failed_insert: a refused reload depot leaves the route refusing every further insertion. |
| C19 | Loading a solution into the search and unloading returns it | proved | C19_states C19_load_unload C19_load_plan C19_unload_plan | From any state with up-to-date statistics. |
| C20 | Search operators change the plan exactly as advertised | proved | C20_unary C20_binary C20_unary_structure C20_binary_structure | All 18 operators; effects per operator in OpsAll.v. V is not U (guaranteed by neighbourhoods); groups have at most one planned member. |
| C21 | Search operators evaluate the cost change they cause | proved | C21_unary C21_binary C21_remembered_start C21_remembered_evaluate C21_remembered_update C21_max_duration_refuted | Under [setting] (data in range, figures within int64, no multi-trip route over a maximum duration). C21_max_duration_refuted: without the last assumption an operator applies a worsening move. |
| C22 | Local search never returns a worse solution than it was given | proved | C22_no_worse | Under [setting] (as C21). Exhaustive calls, or calls for which zero perturbations are drawn. |
| C23 | Local search terminates | proved | C23_terminates | Under [setting] (as C21); the bound on the number of rounds exists for every call but is not given in closed form. |
| C24 | Local search plans everything that is required | proved | C24_complete C24_computed_usable C24_operators_usable | Under [setting] (as C21). |
| C25 | Neighbourhoods are well formed | proved | C25_well_formed C25_accepted C25_order C25_parameters | proximity computed in IEEE doubles; well-formedness for any finite wait weight and int64 data, cost order for data and weight up to 2^20 (window ends up to int64) |
| C26 | The search space only accepts valid neighbourhoods and tracks promising activities exactly | proved | C26_construction C26_set_neighbours C26_invariant C26_promising C26_offsets C26_unknown_refuted | acceptance is characterised exactly; that keys exist is not checked by the code (C26_unknown_refuted) |
| C27 | Perturbation makes a bounded number of changes | proved | C27_range C27_changes | Under [setting] (as C21). |
| C28 | Iterated local search returns the best feasible solution it has seen | proved | C28_best_was_seen C28_best_is_minimal C28_worse_exhaustive_refuted | The search method, penalty manager and stopping criterion are arbitrary. Minimality needs the proviso on the exhaustive search, the refutation shows why. |
| C29 | Iterated local search bookkeeping | proved | C29_bookkeeping |  |
| C30 | Ring buffer returns the last values written | proved | C30_ring_peek C30_ring_content C30_ring_len C30_appends C30_clear |  |
| C31 | Stopping criteria stop exactly when they should | proved | C31_max_iterations C31_max_runtime C31_no_improvement C31_first_feasible C31_multiple C31_multiple_calls C31_stop_lasts | Times are integers here; the code uses floats. |
| C32 | Penalties stay within their bounds and move in the right direction | proved | C32_parameters C32_bounds C32_independent C32_direction | In binary64 (Flocq). Registered violations are arbitrary integers; NaN parameters are excluded. The warning about high penalties is C68. |
| C33 | Fleet minimisation returns a feasible, smallest fleet seen | proved | C33_lower_bound C33_minimised C33_with_solve C33_rejects C33_no_demand_refuted | The solver is arbitrary but must return solutions of the data it is given; C33_with_solve is about solve() itself, with any stopping criterion. The lower bound is computed in binary64, and the fleet has at most 2^53 vehicles. The bound must be positive: otherwise the call may raise, see the refutation. |
| C34 | Problem data validation guarantees safe indexing | proved | C34_client C34_depot C34_shipment C34_group C34_vehicle_type C34_padding C34_data_accepts C34_data_valid |  |
| C35 | replace changes only what it is told to | proved | C35_data C35_data_identity C35_vehicle_type C35_vehicle_type_identity C35_shrink_window_refuted | C35_shrink_window_refuted: replacing only the latest time keeps the old latest start and can therefore raise. |
| C36 | Pickling round trips | proved | C36_values C36_data_objects C36_problem_data C36_route C36_solution C36_solution_cost C36_route_refuted C36_solution_cost_refuted | The theorems say exactly what is lost: routes lose their fixed vehicle cost, solutions their unplanned list and fixed costs in the penalised cost. |
| C37 | Random numbers are reproducible and in range | proved | C37_state_valid C37_no_state_lost C37_from_seed C37_resume C37_randint C37_rand C37_shuffle |  |
| C38 | Piecewise linear functions evaluate the right piece | proved | C38_of_breaks C38_eval_piece C38_of_points_accepts C38_interpolates C38_of_points_ok C38_monotone C38_monotone_integers C38_monotone_integers_converse_refuted |  |
| C39 | Bitsets behave as sets of indices | proved | C39_make C39_set_get C39_bounds C39_queries C39_and_or_xor C39_not C39_set_reset C39_equal |  |
| C40 | Matrix indexing is row major and independent | proved | C40_set_get C40_fill C40_of_array C40_empty_array C40_max |  |
| C41 | Activity text form round trips | proved | C41_round_trip C41_accepts C41_rejects_malformed_refuted C41_hash | C41_rejects_malformed_refuted: text with trailing characters, blanks or a sign is accepted. |
| C42 | Statistics survive a CSV round trip and report feasibility as collected | proved | C42_csv_roundtrip C42_not_collecting_refuted | Python's float to text conversion is a parameter that must round trip. |
| C43 | Random solutions are complete and valid | proved | C43_random_solution C43_complete |  |
| C44 | Model edges: the last edge added for a pair wins, profile edges override | proved | C44_edges C44_unknown_location C44_succeeds_iff_complete C44_from_data_roundtrip C44_from_data_negative |  |
| C45 | Solver result cost is consistent | proved | C45_result C45_rejects |  |
| C46 | Equality of routes and solutions is equality of plans | proved | C46_route_equality C46_solution_equality C46_hash C46_hash_refuted | Hash values of equal solutions can differ when the solutions are of different instances (C46_hash_refuted). |
| C47 | Insertion uses the cheapest considered place | proved | C47_insert_client C47_insert_shipment C47_incremental | Under [setting] (as C21). |
| C48 | solve() returns a good solution | proved | C48_returns C48_result C48_asked C48_max_iterations C48_trace C48_finite | Under [solvable] (the conditions of C21, values within int64, distinct group members, objective values below the int64 limit, for which C48_finite gives a closed-form condition) and [params_ok]. MaxRuntime needs a clock that advances. Reading parameters from files, display, callbacks and the measured run time are not modelled. |
| C49 | Operators overlook no improving move | proved | C49_unary C49_binary C49_depot | Under [setting] (as C21). The moves are those of [unary_effect] and [binary_move]: segments with no shipment on board at either end, Swap<N,N> from the smaller index, tails after the last reload. |
| C50 | An exhaustive local search call returns a local optimum | proved | C50_exhaustive C50_insertion_refuted | Under [setting] (as C21), distinct group members. InsertOptional* and ReplaceOptional* next to neighbours are excluded: C50_insertion_refuted shows a missed insertion. |
| C51 | read() gives the data that the file describes | proved | C51_clients C51_vehicles C51_groups C51_shipments C51_no_shipments C51_matrices C51_accepts C51_shipments_refuted | Starts from the dictionary that the vrplib package parses. Shipments with several depots: C51_shipments_refuted. Matrices need [allowed_proper]: lists of allowed clients without duplicates or depots, no shipments in the same file. |
| C52 | Restrictions of instance files are respected by routes | proved | C52_not_allowed C52_distance C52_backhauls_last C52_backhaul_depots_refuted C52_duplicates_refuted | Under [file_sized], [allowed_proper] and non-negative edge weights. The two refutations show why one depot and lists without duplicates are needed. |
| C53 | Solution files can be read back | proved | C53_round_trip | The text format (vrplib) is not modelled; a file is the list of its lines of visits. Shipments: under [pairs_proper]. |
| C54 | Model.data() holds what was added to the model | proved | C54_described C54_unknown | From an empty model; [after] lists the calls, with a fresh identity for every new object. Models from from_data are covered by C44_from_data_roundtrip. |
| C55 | No overflow on data of bounded size | proved | C55_route C55_max_value C55_solution C55_segments C55_loads C55_late_refuted C55_negative_refuted C55_route_cost C55_solution_cost C55_delta C55_delta_two_routes C55_weights C55_default_penalties C55_max_value_cost_refuted | The checked functions of Overflow.v and OverflowCost.v return None where an intermediate value leaves int64. In the delta costs, the figures of the proposal are taken as they are: their arithmetic is that of the segments (C55_segments, C55_loads). Both the old and the new route have to be acceptable to the Route constructor. |
| C56 | Operators left out by solve() have nothing to do | proved | C56_unary C56_binary C56_same_result C56_tails_refuted | Stated for the C++ LocalSearch call with a given operator order: the Python wrapper shuffles the operators, which draws more random numbers when there are more of them. |
| C57 | Vehicles reload only where they may | proved | C57_search C57_solve C57_given_refuted | A given initial solution with other reload depots is not rejected (C57_given_refuted). |
| C58 | When solve() and the local search return, and when they do not | proved | C58_with_fits C58_solve_release_refuted C58_solve_duration_refuted C58_call_release_refuted C58_call_duration_refuted C58_cycle C23_terminates C48_returns | The positive part is C23_terminates and C48_returns. Hang.v has the two instances; the second one has no feasible solution. C58_cycle is the general argument. |
| C59 | The rounding functions of read() round exactly | proved | C59_trunc C59_round C59_dimacs C59_exact C59_euclid C59_euclid_refuted C59_distances | Values of the file are binary64 numbers nearest to the decimal text; distances of the vrplib package are taken as correctly rounded square roots of integers. Arrays of integers, and the function none, are not part of it. |
| C60 | A model built with moderate numbers can be solved | proved | C60_solvable C60_returns C60_incomplete | The bounds are in modest_calls (Ordinary.v). Vehicles with reload depots and the default, unlimited, number of reloads are not covered; vehicles without reload depots are. |
| C61 | Callbacks see the run and do not change it | proved | C61_observers C61_calls C61_solve | Callbacks act on a state of their own: ones that raise, or that change the search method, the penalty manager or a solution through the objects they get, are not covered. |
| C62 | The progress log tells what happened | proved | C62_lines C62_every_iteration | Lines are modelled by their content; the text templates and the elapsed times in them are not. Clock readings are arbitrary (non-decreasing for C62_every_iteration). |
| C63 | Parameter files mean what they say | proved | C63_file C63_values C63_default C63_usable C63_ignored C63_finite_refuted | The dictionary that tomllib returns is the input. Values of a wrong type are rejected, which is stricter than Python in a few places (truth values for numbers, floats for integers). The display interval is left out. |
| C64 | The command line solves instance files | proved | C64_solves C64_solvable C64_stops C64_negative C64_no_clients C64_iterations C64_per_client_refuted | The bounds on the numbers are in modest_file (FileSize.v): with reload depots the number of reloads has to be limited and durations not. The clock is arbitrary; the product of a run time, a float, with the number of clients is taken as exact. Argument parsing, directories and the process pool are not modelled. |
| C65 | The table of results is aligned | proved | C65_table C65_rejects | The cells are text already; the rows of benchmark() are C69. |
| C66 | The statistics of the local search are right | proved | C66_statistics C66_rounds | Each operator object is taken to be added to one local search, once. Statistics before the first call are not modelled. |
| C67 | The figures the local search keeps and evaluates do not overflow | proved | C67_route_figures C67_proposal_figures C67_delta C67_delta_two_routes C67_unbounded_refuted | The checked functions of OverflowSearch.v repeat update() and the evaluation of proposals operation by operation and return None on overflow; they return what SearchRoute.v computes. The proposals are those of C15. Counters of visits (size_t) are not checked. |
| C68 | The penalty manager warns exactly when it should by its documentation | proved | C68_same_penalties C68_warns_iff C68_silent C68_stays C68_struggles_refuted C68_all_feasible_refuted | fmean is modelled as the correctly rounded sum (math.fsum) of the converted integers divided by their number. The exact comparison of windows needs totals below 2^52. Calls of warnings.warn are modelled, not the filters that decide what is printed or raised. |
| C69 | Solving several instances reports and stores each of them | proved | C69_rows C69_files C69_stem C69_solves C69_raises C69_same_name_refuted C69_long_name_refuted | Each instance is solved as in C64, with its own clock. Paths are lists of components; the directories exist or can be made, and writing a file is one step. What is left in the directories when an instance raises, the printed averages and the run times of the table are not modelled. |
| C70 | The plots of a route show its schedule, load and edges | proved | C70_stops C70_arrivals C70_totals C70_capacity C70_edges C70_reload_refuted C70_initial_load_refuted C70_empty_trip_refuted | What is handed to matplotlib: traces, lines and edges. Slack shading, axis limits, colours, legends, markers and unvisited locations are not modelled, nor are the other plots. |
| C71 | Large distances and durations are warned about | proved | C71_silent C71_cause C71_calls C71_stored C71_replaced_refuted C71_from_data C71_read C71_read_needs C71_read_suffices | Whether warn() is called; its text and Python's warning filters are not modelled. |
| C72 | The plots of a run and of the data show the statistics and the clients | proved | C72_objectives C72_not_collected C72_default_raises C72_runtimes C72_demands C72_windows C72_no_clients_refuted | What is handed to matplotlib. Axis limits, the trendline, titles and legends are not modelled, nor is plot_coordinates. |
| C73 | The lines of the progress log state the figures of the iteration and line up | proved | C73_words C73_faithful C73_numbers C73_columns C73_restart C73_start | The text of the lines of iterations, restarts and the start. Which lines are logged and when the H is shown is in the model of the callbacks. The elapsed time is any integer; for the closing lines see C74. |
| C74 | The summary of a result and the closing lines of the log state its figures | proved | C74_summary C74_end C74_aligned | The text of the run time with two decimals is a parameter: any text without spaces. |
| C75 | The text of a route, solution or result shows the visits in order | proved | C75_route C75_determines C75_depots_refuted C75_vehicle_hidden C75_solution C75_result | Texts that end lines with newlines are lists of lines. C75_depots_refuted shows that reload depots cannot be told from the text, as the statement says. |

Mutation tests: seeded/LOG.jsonl has 481 wrong programs, each a small edit of a model definition compiled in a scratch copy; outcomes: 472 caught, 2 survived, then caught after tightening, 1 equivalent: the vehicle type of a search route at position r is always that of the fleet at r, so the dropped test cannot fail, 1 survived; C48_trace was added to state how penalties are threaded through the iterations, 1 caught only at zero clients; caught in general after tightening, 1 would have survived but for the example; caught after tightening, 1 survived, 2 survived, then caught.  `theorems_failed` lists the property theorems of
the claim that depend on a proof that broke.  Survivors are explained in their entries.

## 6. Findings in the code

Proved by counterexample (theorem names end in `_refuted` unless given):

* A route with reloads whose maximum duration is exceeded and that has time warp: the search's proposal evaluation
  (`durBefore`, `finaliseBack`) differs from the rebuilt route (C15_max_duration_refuted), and operators then report wrong cost
  changes and apply worsening moves (C21_max_duration_refuted).  Cause: the closing time of the reload depot is dropped, and the excess
  over the maximum duration is counted in the time warp.
* `DurationSegment.slack` is too large when a trip's earliest start is after the previous trip's latest end (C05_segment_slack_refuted); `Route.slack` is fine.
* Pickling a `Route` drops the fixed vehicle cost; pickling a `Solution` drops the unplanned activities (C36_*_refuted).
* `VehicleType.replace(tw_late=…)` keeps the old latest start and so rejects valid windows (C35_shrink_window_refuted).
* The time warps in `Route.schedule` do not always sum to the route's time warp (C07_schedule_sums_refuted).
* `minimise_fleet` fails on instances without demand and with one vehicle (C33_no_demand_refuted).  It also ignores shipments in the lower bound (sound, only weak).
* Iterated local search with `exhaustive_on_best`: the exhaustive call's result replaces the candidate even if it is worse, which
  needs a search method that worsens (C28_worse_exhaustive_refuted).
* `Model.from_data` adds an edge for each matrix entry and rejects negative entries that ProblemData accepts (C44_from_data_negative).
* `Statistics.to_csv`/`from_csv` does not preserve `collect_stats=False` (C42_not_collecting_refuted).
* `SearchSpace` accepts neighbourhoods with unknown keys (C26_unknown_refuted), and any size when its current structure is empty.
* `search::Route.insert` of a depot past the maximum number of trips throws after having stored the depot (C18_failed_insert).
* An exhaustive local search call is not a local optimum for optional clients: `LocalSearch::search` takes 0 as the last update of an unplanned client, so a client
  removed in a later round is not tried next to neighbours in routes that have not changed since its previous visit (C50_insertion_refuted: cost 73 where one
  insertion gives 66).
* `read()`: with several depots, the delivery of a shipment is taken from the row `deliv_idx - num_depots` instead of `deliv_idx - 1` (C51_shipments_refuted); backhauls are only
  kept from the start of routes of the first depot (C52_backhaul_depots_refuted); a list of allowed clients with duplicates and as many entries as there are clients does not restrict the
  vehicle (C52_duplicates_refuted).
* Data that the constructors accept can overflow int64 in `Route::Route` (undefined behaviour): a client that opens at the largest time (C55_late_refuted), or negative
  distances with the default maximum distance (C55_negative_refuted).  Penalised costs can overflow with numbers up to MAX_VALUE and the default largest penalty (C55_max_value_cost_refuted).
* `SwapTails.supports` is false for instances with only shipments (its comment: such moves likely break pickup and delivery pairs), but there are plans of such instances where
  SwapTails reports an improving move (C56_tails_refuted).  For every other operator, `supports` leaves out only operators without moves (C56).
* `Route` accepts reload depots that its vehicle type does not have, and the solution can be feasible; solve() returns such a solution if it is given as the initial one
  and nothing better is found (C57_given_refuted).  The search itself never adds one (C57).
* solve() can run forever, with the default parameters and whatever the stopping criterion (C58_*_refuted).  (a) A reload depot that closes before a client is released:
  `Route::update` computes the segments before a visit with `finaliseBack`, which forgets when the reload depot closes, and the cost of the whole route from the segments after it, which do
  not.  A move is then evaluated as an improvement of 2 although it adds 2 units of time warp, is undone in the same round, and so on.  (b) A vehicle with reloads and a maximum duration
  that its routes exceed: again the reported change and the change of the plan's cost differ.  The loop in `LocalSearch::search` has no limit on its rounds.
* `Activity`'s text parser accepts malformed suffixes (C41_*_refuted); `PiecewiseLinearFunction::isMonotonicallyIncreasing` (C38_*_refuted).
* Equal solutions of different instances can have different hash values: `==` does not compare uncollected prizes, `hash` uses them (C46_hash_refuted).
* `round_func='trunc'` gives a distance that is one too large for some points more than 94 million apart (C59_euclid_refuted); up to 33 million it is exact.
* `--per_client` multiplies the limits by the number of clients, which is zero for files with only shipments: no iteration is made, and infinite limits become NaN (C64_per_client_refuted, C64_no_clients).
* `SolveParams.from_file` ignores sections with unknown (say, misspelt) names (C63_ignored) and accepts infinite and NaN penalty bounds (C63_finite_refuted).
* The warning that PyVRP "struggles to find a feasible solution" is also given when 60% of the registered solutions satisfy all constraints, with the default parameters (C68_struggles_refuted), and for other parameters when all of them do (C68_all_feasible_refuted).

Noticed while modelling, not stated as theorems: `ProblemData` does not check that matrices are non-negative, nor `VehicleType` that the fixed cost is;
`CostEvaluator` accepts NaN and infinite penalties, `PenaltyParams` NaN bounds; a `PenaltyManager` with tolerance 0 decreases penalties at exactly the target;
`Route::validate` does not check for duplicate clients; `ProblemData` accessors for groups, vehicle types and matrices
have no index checks in the bindings; `hasTimeWindows` ignores release times; `RingBuffer(0)` divides by zero; an infinite waiting weight gives NaN proximities;
perturbing with zero perturbations leaves the marks of the previous call; the local search's "last tested" filter can skip insertions that become possible when a
group member leaves another route; names are truncated at NUL characters when unpickled; `Relocate` and `Swap` refuse a
segment whenever any shipment is on board where it begins, and `Swap<N, N>` skips pairs with equal index (client i and pickup i); `RemoveAdjacentDepot` applies moves of delta zero.
* The command line stores solutions and statistics under the file name without directory and extension: instances with the same name in different directories overwrite each other's files, although both are reported (C69_same_name_refuted). The table cuts names after 37 characters (C69_long_name_refuted).
* `num_improving` also counts moves of RemoveAdjacentDepot that leave the cost as it is (C66_statistics); an operator object added twice would be counted twice.
* `plot_route_schedule` draws the load of a route with reloads as if all deliveries were on board at the start (C70_reload_refuted), and leaves out initial loads (C70_initial_load_refuted).
* `plot_objectives`, `plot_runtimes` and so `plot_result` raise ValueError for a result without statistics (C72_default_raises), and `plot_time_windows` and so `plot_instance` raise IndexError for data without clients (C72_no_clients_refuted).
* The text of a route shows a bar for any reload depot, so routes that reload at different depots can have the same text (C75_depots_refuted).
