{
 "claims": [
  {
   "property": "C01",
   "status": "proved",
   "theorems": [
    "C01_load_split_independent",
    "C01_load_is_simulated_peak"
   ],
   "note": ""
  },
  {
   "property": "C02",
   "status": "proved",
   "theorems": [
    "C02_excess_load_is_simulated"
   ],
   "note": ""
  },
  {
   "property": "C03",
   "status": "proved",
   "theorems": [
    "C03_duration_split_independent",
    "C03_duration_is_simulated"
   ],
   "note": ""
  },
  {
   "property": "C04",
   "status": "proved",
   "theorems": [
    "C04_route_timing_optimal"
   ],
   "note": ""
  },
  {
   "property": "C05",
   "status": "proved",
   "theorems": [
    "C05_slack_exact",
    "C05_segment_slack",
    "C05_segment_slack_refuted"
   ],
   "note": "Route.slack is exact. DurationSegment.slack is exact when the start is bound by a release time or the previous trip; otherwise it can be too large (C05_segment_slack_refuted)."
  },
  {
   "property": "C06",
   "status": "proved",
   "theorems": [
    "C06_figures_add_up"
   ],
   "note": ""
  },
  {
   "property": "C07",
   "status": "proved",
   "theorems": [
    "C07_schedule_consistent",
    "C07_schedule_sums",
    "C07_schedule_sums_refuted"
   ],
   "note": "The sums of the schedule's time warps equal the route's under the conditions stated in C07_schedule_sums; C07_schedule_sums_refuted shows the conditions are needed."
  },
  {
   "property": "C08",
   "status": "proved",
   "theorems": [
    "C08_route_accepts_well_formed"
   ],
   "note": ""
  },
  {
   "property": "C09",
   "status": "proved",
   "theorems": [
    "C09_solution_accepts_consistent"
   ],
   "note": ""
  },
  {
   "property": "C10",
   "status": "proved",
   "theorems": [
    "C10_plan_partition"
   ],
   "note": ""
  },
  {
   "property": "C11",
   "status": "proved",
   "theorems": [
    "C11_feasible_iff"
   ],
   "note": ""
  },
  {
   "property": "C12",
   "status": "proved",
   "theorems": [
    "C12_cost_is_objective"
   ],
   "note": ""
  },
  {
   "property": "C13",
   "status": "proved",
   "theorems": [
    "C13_penalty_monotone",
    "C13_evaluator"
   ],
   "note": "Uses the standard library axioms behind the real numbers (through Flocq's binary64)."
  },
  {
   "property": "C14",
   "status": "proved",
   "theorems": [
    "C14_cuts_agree"
   ],
   "note": ""
  },
  {
   "property": "C15",
   "status": "proved",
   "theorems": [
    "C15_proposal_distance",
    "C15_proposal_load",
    "C15_proposal_duration",
    "C15_max_duration_refuted"
   ],
   "note": "The time warp clause needs the side condition stated in C15_proposal_duration; C15_max_duration_refuted shows the code deviates without it."
  },
  {
   "property": "C16",
   "status": "proved",
   "theorems": [
    "C16_delta_cost",
    "C16_delta_cost_two_routes"
   ],
   "note": ""
  },
  {
   "property": "C17",
   "status": "proved",
   "theorems": [
    "C17_search_agrees_with_solution"
   ],
   "note": ""
  },
  {
   "property": "C18",
   "status": "proved",
   "theorems": [
    "C18_edits",
    "C18_unique",
    "C18_failed_insert"
   ],
   "note": "Node pointers, the depot vector and its reallocation are modelled. C18_failed_insert: a refused reload depot leaves the route refusing every further insertion."
  },
  {
   "property": "C19",
   "status": "proved",
   "theorems": [
    "C19_states",
    "C19_load_unload",
    "C19_load_plan",
    "C19_unload_plan"
   ],
   "note": "From any state with up-to-date statistics."
  },
  {
   "property": "C20",
   "status": "proved",
   "theorems": [
    "C20_unary",
    "C20_binary",
    "C20_unary_structure",
    "C20_binary_structure"
   ],
   "note": "All 18 operators; effects per operator in OpsAll.v. V is not U (guaranteed by neighbourhoods); groups have at most one planned member."
  },
  {
   "property": "C21",
   "status": "proved",
   "theorems": [
    "C21_unary",
    "C21_binary",
    "C21_remembered_start",
    "C21_remembered_evaluate",
    "C21_remembered_update",
    "C21_max_duration_refuted"
   ],
   "note": "Under [setting] (data in range, figures within int64, no multi-trip route over a maximum duration). C21_max_duration_refuted: without the last assumption an operator applies a worsening move."
  },
  {
   "property": "C22",
   "status": "proved",
   "theorems": [
    "C22_no_worse"
   ],
   "note": "Under [setting] (as C21). Exhaustive calls, or calls for which zero perturbations are drawn."
  },
  {
   "property": "C23",
   "status": "proved",
   "theorems": [
    "C23_terminates"
   ],
   "note": "Under [setting] (as C21); the bound on the number of rounds exists for every call but is not given in closed form."
  },
  {
   "property": "C24",
   "status": "proved",
   "theorems": [
    "C24_complete",
    "C24_computed_usable",
    "C24_operators_usable"
   ],
   "note": "Under [setting] (as C21)."
  },
  {
   "property": "C25",
   "status": "proved",
   "theorems": [
    "C25_well_formed",
    "C25_accepted",
    "C25_order",
    "C25_parameters"
   ],
   "note": "proximity computed in IEEE doubles; well-formedness for any finite wait weight and int64 data, cost order for data and weight up to 2^20 (window ends up to int64)"
  },
  {
   "property": "C26",
   "status": "proved",
   "theorems": [
    "C26_construction",
    "C26_set_neighbours",
    "C26_invariant",
    "C26_promising",
    "C26_offsets",
    "C26_unknown_refuted"
   ],
   "note": "acceptance is characterised exactly; that keys exist is not checked by the code (C26_unknown_refuted)"
  },
  {
   "property": "C27",
   "status": "proved",
   "theorems": [
    "C27_range",
    "C27_changes"
   ],
   "note": "Under [setting] (as C21)."
  },
  {
   "property": "C28",
   "status": "proved",
   "theorems": [
    "C28_best_was_seen",
    "C28_best_is_minimal",
    "C28_worse_exhaustive_refuted"
   ],
   "note": "The search method, penalty manager and stopping criterion are arbitrary. Minimality needs the proviso on the exhaustive search, the refutation shows why."
  },
  {
   "property": "C29",
   "status": "proved",
   "theorems": [
    "C29_bookkeeping"
   ],
   "note": ""
  },
  {
   "property": "C30",
   "status": "proved",
   "theorems": [
    "C30_ring_peek",
    "C30_ring_content",
    "C30_ring_len",
    "C30_appends",
    "C30_clear"
   ],
   "note": ""
  },
  {
   "property": "C31",
   "status": "proved",
   "theorems": [
    "C31_max_iterations",
    "C31_max_runtime",
    "C31_no_improvement",
    "C31_first_feasible",
    "C31_multiple",
    "C31_multiple_calls",
    "C31_stop_lasts"
   ],
   "note": "Times are integers here; the code uses floats."
  },
  {
   "property": "C32",
   "status": "proved",
   "theorems": [
    "C32_parameters",
    "C32_bounds",
    "C32_independent",
    "C32_direction"
   ],
   "note": "In binary64 (Flocq). Registered violations are arbitrary integers; NaN parameters are excluded. The warning about high penalties is C68."
  },
  {
   "property": "C33",
   "status": "proved",
   "theorems": [
    "C33_lower_bound",
    "C33_minimised",
    "C33_with_solve",
    "C33_rejects",
    "C33_no_demand_refuted"
   ],
   "note": "The solver is arbitrary but must return solutions of the data it is given; C33_with_solve is about solve() itself, with any stopping criterion. The lower bound is computed in binary64, and the fleet has at most 2^53 vehicles. The bound must be positive: otherwise the call may raise, see the refutation."
  },
  {
   "property": "C34",
   "status": "proved",
   "theorems": [
    "C34_client",
    "C34_depot",
    "C34_shipment",
    "C34_group",
    "C34_vehicle_type",
    "C34_padding",
    "C34_data_accepts",
    "C34_data_valid"
   ],
   "note": ""
  },
  {
   "property": "C35",
   "status": "proved",
   "theorems": [
    "C35_data",
    "C35_data_identity",
    "C35_vehicle_type",
    "C35_vehicle_type_identity",
    "C35_shrink_window_refuted"
   ],
   "note": "C35_shrink_window_refuted: replacing only the latest time keeps the old latest start and can therefore raise."
  },
  {
   "property": "C36",
   "status": "proved",
   "theorems": [
    "C36_values",
    "C36_data_objects",
    "C36_problem_data",
    "C36_route",
    "C36_solution",
    "C36_solution_cost",
    "C36_route_refuted",
    "C36_solution_cost_refuted"
   ],
   "note": "The theorems say exactly what is lost: routes lose their fixed vehicle cost, solutions their unplanned list and fixed costs in the penalised cost."
  },
  {
   "property": "C37",
   "status": "proved",
   "theorems": [
    "C37_state_valid",
    "C37_no_state_lost",
    "C37_from_seed",
    "C37_resume",
    "C37_randint",
    "C37_rand",
    "C37_shuffle"
   ],
   "note": ""
  },
  {
   "property": "C38",
   "status": "proved",
   "theorems": [
    "C38_of_breaks",
    "C38_eval_piece",
    "C38_of_points_accepts",
    "C38_interpolates",
    "C38_of_points_ok",
    "C38_monotone",
    "C38_monotone_integers",
    "C38_monotone_integers_converse_refuted"
   ],
   "note": ""
  },
  {
   "property": "C39",
   "status": "proved",
   "theorems": [
    "C39_make",
    "C39_set_get",
    "C39_bounds",
    "C39_queries",
    "C39_and_or_xor",
    "C39_not",
    "C39_set_reset",
    "C39_equal"
   ],
   "note": ""
  },
  {
   "property": "C40",
   "status": "proved",
   "theorems": [
    "C40_set_get",
    "C40_fill",
    "C40_of_array",
    "C40_empty_array",
    "C40_max"
   ],
   "note": ""
  },
  {
   "property": "C41",
   "status": "proved",
   "theorems": [
    "C41_round_trip",
    "C41_accepts",
    "C41_rejects_malformed_refuted",
    "C41_hash"
   ],
   "note": "C41_rejects_malformed_refuted: text with trailing characters, blanks or a sign is accepted."
  },
  {
   "property": "C42",
   "status": "proved",
   "theorems": [
    "C42_csv_roundtrip",
    "C42_not_collecting_refuted"
   ],
   "note": "Python's float to text conversion is a parameter that must round trip."
  },
  {
   "property": "C43",
   "status": "proved",
   "theorems": [
    "C43_random_solution",
    "C43_complete"
   ],
   "note": ""
  },
  {
   "property": "C44",
   "status": "proved",
   "theorems": [
    "C44_edges",
    "C44_unknown_location",
    "C44_succeeds_iff_complete",
    "C44_from_data_roundtrip",
    "C44_from_data_negative"
   ],
   "note": ""
  },
  {
   "property": "C45",
   "status": "proved",
   "theorems": [
    "C45_result",
    "C45_rejects"
   ],
   "note": ""
  },
  {
   "property": "C46",
   "status": "proved",
   "theorems": [
    "C46_route_equality",
    "C46_solution_equality",
    "C46_hash",
    "C46_hash_refuted"
   ],
   "note": "Hash values of equal solutions can differ when the solutions are of different instances (C46_hash_refuted)."
  },
  {
   "property": "C47",
   "status": "proved",
   "theorems": [
    "C47_insert_client",
    "C47_insert_shipment",
    "C47_incremental"
   ],
   "note": "Under [setting] (as C21)."
  },
  {
   "property": "C48",
   "status": "proved",
   "theorems": [
    "C48_returns",
    "C48_result",
    "C48_asked",
    "C48_max_iterations",
    "C48_trace",
    "C48_finite"
   ],
   "note": "Under [solvable] (the conditions of C21, values within int64, distinct group members, objective values below the int64 limit, for which C48_finite gives a closed-form condition) and [params_ok]. MaxRuntime needs a clock that advances. Reading parameters from files, display, callbacks and the measured run time are not modelled."
  },
  {
   "property": "C49",
   "status": "proved",
   "theorems": [
    "C49_unary",
    "C49_binary",
    "C49_depot"
   ],
   "note": "Under [setting] (as C21). The moves are those of [unary_effect] and [binary_move]: segments with no shipment on board at either end, Swap<N,N> from the smaller index, tails after the last reload."
  },
  {
   "property": "C50",
   "status": "proved",
   "theorems": [
    "C50_exhaustive",
    "C50_insertion_refuted"
   ],
   "note": "Under [setting] (as C21), distinct group members. InsertOptional* and ReplaceOptional* next to neighbours are excluded: C50_insertion_refuted shows a missed insertion."
  },
  {
   "property": "C51",
   "status": "proved",
   "theorems": [
    "C51_clients",
    "C51_vehicles",
    "C51_groups",
    "C51_shipments",
    "C51_no_shipments",
    "C51_matrices",
    "C51_accepts",
    "C51_shipments_refuted"
   ],
   "note": "Starts from the dictionary that the vrplib package parses. Shipments with several depots: C51_shipments_refuted. Matrices need [allowed_proper]: lists of allowed clients without duplicates or depots, no shipments in the same file."
  },
  {
   "property": "C52",
   "status": "proved",
   "theorems": [
    "C52_not_allowed",
    "C52_distance",
    "C52_backhauls_last",
    "C52_backhaul_depots_refuted",
    "C52_duplicates_refuted"
   ],
   "note": "Under [file_sized], [allowed_proper] and non-negative edge weights. The two refutations show why one depot and lists without duplicates are needed."
  },
  {
   "property": "C53",
   "status": "proved",
   "theorems": [
    "C53_round_trip"
   ],
   "note": "The text format (vrplib) is not modelled; a file is the list of its lines of visits. Shipments: under [pairs_proper]."
  },
  {
   "property": "C54",
   "status": "proved",
   "theorems": [
    "C54_described",
    "C54_unknown"
   ],
   "note": "From an empty model; [after] lists the calls, with a fresh identity for every new object. Models from from_data are covered by C44_from_data_roundtrip."
  },
  {
   "property": "C55",
   "status": "proved",
   "theorems": [
    "C55_route",
    "C55_max_value",
    "C55_solution",
    "C55_segments",
    "C55_loads",
    "C55_late_refuted",
    "C55_negative_refuted",
    "C55_route_cost",
    "C55_solution_cost",
    "C55_delta",
    "C55_delta_two_routes",
    "C55_weights",
    "C55_default_penalties",
    "C55_max_value_cost_refuted"
   ],
   "note": "The checked functions of Overflow.v and OverflowCost.v return None where an intermediate value leaves int64. In the delta costs, the figures of the proposal are taken as they are: their arithmetic is that of the segments (C55_segments, C55_loads). Both the old and the new route have to be acceptable to the Route constructor."
  },
  {
   "property": "C56",
   "status": "proved",
   "theorems": [
    "C56_unary",
    "C56_binary",
    "C56_same_result",
    "C56_tails_refuted"
   ],
   "note": "Stated for the C++ LocalSearch call with a given operator order: the Python wrapper shuffles the operators, which draws more random numbers when there are more of them."
  },
  {
   "property": "C57",
   "status": "proved",
   "theorems": [
    "C57_search",
    "C57_solve",
    "C57_given_refuted"
   ],
   "note": "A given initial solution with other reload depots is not rejected (C57_given_refuted)."
  },
  {
   "property": "C58",
   "status": "proved",
   "theorems": [
    "C58_with_fits",
    "C58_solve_release_refuted",
    "C58_solve_duration_refuted",
    "C58_call_release_refuted",
    "C58_call_duration_refuted",
    "C58_cycle",
    "C23_terminates",
    "C48_returns"
   ],
   "note": "The positive part is C23_terminates and C48_returns. Hang.v has the two instances; the second one has no feasible solution. C58_cycle is the general argument."
  },
  {
   "property": "C59",
   "status": "proved",
   "theorems": [
    "C59_trunc",
    "C59_round",
    "C59_dimacs",
    "C59_exact",
    "C59_euclid",
    "C59_euclid_refuted",
    "C59_distances"
   ],
   "note": "Values of the file are binary64 numbers nearest to the decimal text; distances of the vrplib package are taken as correctly rounded square roots of integers. Arrays of integers, and the function none, are not part of it."
  },
  {
   "property": "C60",
   "status": "proved",
   "theorems": [
    "C60_solvable",
    "C60_returns",
    "C60_incomplete"
   ],
   "note": "The bounds are in modest_calls (Ordinary.v). Vehicles with reload depots and the default, unlimited, number of reloads are not covered; vehicles without reload depots are."
  },
  {
   "property": "C61",
   "status": "proved",
   "theorems": [
    "C61_observers",
    "C61_calls",
    "C61_solve"
   ],
   "note": "Callbacks act on a state of their own: ones that raise, or that change the search method, the penalty manager or a solution through the objects they get, are not covered."
  },
  {
   "property": "C62",
   "status": "proved",
   "theorems": [
    "C62_lines",
    "C62_every_iteration"
   ],
   "note": "Lines are modelled by their content; the text templates and the elapsed times in them are not. Clock readings are arbitrary (non-decreasing for C62_every_iteration)."
  },
  {
   "property": "C63",
   "status": "proved",
   "theorems": [
    "C63_file",
    "C63_values",
    "C63_default",
    "C63_usable",
    "C63_ignored",
    "C63_finite_refuted"
   ],
   "note": "The dictionary that tomllib returns is the input. Values of a wrong type are rejected, which is stricter than Python in a few places (truth values for numbers, floats for integers). The display interval is left out."
  },
  {
   "property": "C64",
   "status": "proved",
   "theorems": [
    "C64_solves",
    "C64_solvable",
    "C64_stops",
    "C64_negative",
    "C64_no_clients",
    "C64_iterations",
    "C64_per_client_refuted"
   ],
   "note": "The bounds on the numbers are in modest_file (FileSize.v): with reload depots the number of reloads has to be limited and durations not. The clock is arbitrary; the product of a run time, a float, with the number of clients is taken as exact. Argument parsing, directories and the process pool are not modelled."
  },
  {
   "property": "C65",
   "status": "proved",
   "theorems": [
    "C65_table",
    "C65_rejects"
   ],
   "note": "The cells are text already; the rows of benchmark() are C69."
  },
  {
   "property": "C66",
   "status": "proved",
   "theorems": [
    "C66_statistics",
    "C66_rounds"
   ],
   "note": "Each operator object is taken to be added to one local search, once. Statistics before the first call are not modelled."
  },
  {
   "property": "C67",
   "status": "proved",
   "theorems": [
    "C67_route_figures",
    "C67_proposal_figures",
    "C67_delta",
    "C67_delta_two_routes",
    "C67_unbounded_refuted"
   ],
   "note": "The checked functions of OverflowSearch.v repeat update() and the evaluation of proposals operation by operation and return None on overflow; they return what SearchRoute.v computes. The proposals are those of C15. Counters of visits (size_t) are not checked."
  },
  {
   "property": "C68",
   "status": "proved",
   "theorems": [
    "C68_same_penalties",
    "C68_warns_iff",
    "C68_silent",
    "C68_stays",
    "C68_struggles_refuted",
    "C68_all_feasible_refuted"
   ],
   "note": "fmean is modelled as the correctly rounded sum (math.fsum) of the converted integers divided by their number. The exact comparison of windows needs totals below 2^52. Calls of warnings.warn are modelled, not the filters that decide what is printed or raised."
  },
  {
   "property": "C69",
   "status": "proved",
   "theorems": [
    "C69_rows",
    "C69_files",
    "C69_stem",
    "C69_solves",
    "C69_raises",
    "C69_same_name_refuted",
    "C69_long_name_refuted"
   ],
   "note": "Each instance is solved as in C64, with its own clock. Paths are lists of components; the directories exist or can be made, and writing a file is one step. What is left in the directories when an instance raises, the printed averages and the run times of the table are not modelled."
  },
  {
   "property": "C70",
   "status": "proved",
   "theorems": [
    "C70_stops",
    "C70_arrivals",
    "C70_totals",
    "C70_capacity",
    "C70_edges",
    "C70_reload_refuted",
    "C70_initial_load_refuted",
    "C70_empty_trip_refuted"
   ],
   "note": "What is handed to matplotlib: traces, lines and edges. Slack shading, axis limits, colours, legends, markers and unvisited locations are not modelled, nor are the other plots."
  },
  {
   "property": "C71",
   "status": "proved",
   "theorems": [
    "C71_silent",
    "C71_cause",
    "C71_calls",
    "C71_stored",
    "C71_replaced_refuted",
    "C71_from_data",
    "C71_read",
    "C71_read_needs",
    "C71_read_suffices"
   ],
   "note": "Whether warn() is called; its text and Python's warning filters are not modelled."
  },
  {
   "property": "C72",
   "status": "proved",
   "theorems": [
    "C72_objectives",
    "C72_not_collected",
    "C72_default_raises",
    "C72_runtimes",
    "C72_demands",
    "C72_windows",
    "C72_no_clients_refuted"
   ],
   "note": "What is handed to matplotlib. Axis limits, the trendline, titles and legends are not modelled, nor is plot_coordinates."
  },
  {
   "property": "C73",
   "status": "proved",
   "theorems": [
    "C73_words",
    "C73_faithful",
    "C73_numbers",
    "C73_columns",
    "C73_restart",
    "C73_start"
   ],
   "note": "The text of the lines of iterations, restarts and the start. Which lines are logged and when the H is shown is in the model of the callbacks. The elapsed time is any integer; for the closing lines see C74."
  },
  {
   "property": "C74",
   "status": "proved",
   "theorems": [
    "C74_summary",
    "C74_end",
    "C74_aligned"
   ],
   "note": "The text of the run time with two decimals is a parameter: any text without spaces."
  },
  {
   "property": "C75",
   "status": "proved",
   "theorems": [
    "C75_route",
    "C75_determines",
    "C75_depots_refuted",
    "C75_vehicle_hidden",
    "C75_solution",
    "C75_result"
   ],
   "note": "Texts that end lines with newlines are lists of lines. C75_depots_refuted shows that reload depots cannot be told from the text, as the statement says."
  }
 ]
}