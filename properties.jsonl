{"id": "C01", "title": "Load of a visit sequence does not depend on how it is split", "statement": "Concatenating load segments is associative and an empty segment changes nothing, so the peak load and excess load reported for any visit sequence are the same however the sequence is cut into pieces and in whatever order the pieces are joined.", "quantifier": "all sequences of clients, pickups, deliveries (any demands, any length), every way of cutting them", "why_tests_cant": "there are exponentially many split points and unbounded demand values", "anchors": ["pyvrp/cpp/LoadSegment.h: LoadSegment::merge, load, excessLoad", "pyvrp/cpp/LoadSegment.cpp: constructors"]}
{"id": "C02", "title": "Route.excess_load is what simulating the vehicle's load gives", "statement": "For each load dimension, Route.excess_load() equals the sum over the trips of the route of max(0, peak on-board load - capacity), where the on-board load is simulated stop by stop (deliveries of the trip and the vehicle's initial load on board at the start, deliveries dropped, pickups and shipments added or removed). Route.delivery()/pickup() are the plain sums over the clients (plus the vehicle's initial load).", "quantifier": "all problem instances, all valid visit sequences with any number of trips, all dimensions", "why_tests_cant": "unbounded route length, trips and demands", "anchors": ["pyvrp/cpp/Route.cpp: Route::setLoad", "pyvrp/cpp/LoadSegment.h"]}
{"id": "C03", "title": "Duration of a visit sequence does not depend on how it is split", "statement": "Merging duration segments is associative for data with non-negative durations and time windows that open before half the maximum value, so duration and time warp of a visit sequence do not depend on how it was cut into pieces.", "quantifier": "all segments built from valid stops by any tree of merges", "why_tests_cant": "unbounded sequences, and the code contains a special case near the int64 limit that sampled tests do not reach", "anchors": ["pyvrp/cpp/DurationSegment.h: DurationSegment::merge"]}
{"id": "C04", "title": "Route duration and time warp are the best any departure time can achieve", "statement": "Simulating the route (travel, wait until a window opens, go back in time when late, wait at the depot until a trip's release time) from any departure time gives at least the reported duration and at least the reported time warp (before the max-duration surcharge), and departing at Route.start_time() attains both at once.", "quantifier": "all instances, all valid routes with any number of trips and release times, all departure times", "why_tests_cant": "quantifies over every departure time and every route", "anchors": ["pyvrp/cpp/Route.cpp: Route::setSchedule", "pyvrp/cpp/DurationSegment.h: merge, finaliseFront, duration, timeWarp"]}
{"id": "C05", "title": "Route slack is exactly how long departure can be postponed", "statement": "Departing any amount up to Route.slack() after Route.start_time() changes neither duration nor time warp; departing later than that strictly increases the time warp.", "quantifier": "all instances, all valid routes, all postponements", "why_tests_cant": "quantifies over every departure time and every route", "anchors": ["pyvrp/cpp/DurationSegment.cpp: slack", "pyvrp/cpp/Route.cpp: setSchedule, Route::slack"]}
{"id": "C06", "title": "Route distance, travel, service and wait figures add up", "statement": "Route.distance() is the sum of the distance matrix entries along the visited locations, travel_duration and service_duration are the corresponding sums, duration = travel + service + wait with wait >= 0, excess_distance = max(0, distance - max_distance), and the cost fields are the unit costs times these figures.", "quantifier": "all instances, all valid routes", "why_tests_cant": "unbounded route length", "anchors": ["pyvrp/cpp/Route.cpp: setSchedule, setDistance", "pyvrp/cpp/Route.h"]}
{"id": "C07", "title": "Route schedule is a consistent timetable", "statement": "Route.schedule() lists start depot, the activities in order, end depot; trip indices count the depots passed; times never overlap a stop's closing time; consecutive entries are linked by travel plus wait minus time warp. Its time warps add up to Route.time_warp() unless a max-duration surcharge, a vehicle shift end or a release time after depot closing is involved (then they need not, which is shown by a counterexample).", "quantifier": "all instances, all valid routes", "why_tests_cant": "unbounded route length and rare corner cases", "anchors": ["pyvrp/cpp/Route.cpp: setSchedule", "pyvrp/cpp/Route.h: ScheduledActivity"]}
{"id": "C08", "title": "Route construction accepts exactly the well-formed visit lists", "statement": "Route(data, activities, vehicle_type) raises ValueError unless every index is known, each pickup and delivery occurs at most once, each delivery follows its pickup in the same trip, every pickup is paired, and the number of trips does not exceed the vehicle type's maximum; otherwise it succeeds.", "quantifier": "all activity lists", "why_tests_cant": "the space of activity lists is unbounded", "anchors": ["pyvrp/cpp/Route.cpp: Route::validate"]}
{"id": "C09", "title": "Solution construction accepts exactly the consistent route sets", "statement": "Solution(data, routes) raises RuntimeError exactly when a client or shipment is visited more than once over all routes, a mutually exclusive group is visited more than once, a route is empty, or more routes (in total or of a vehicle type) are given than vehicles are available.", "quantifier": "all lists of valid routes", "why_tests_cant": "unbounded combinations of routes", "anchors": ["pyvrp/cpp/Solution.cpp: Solution constructor"]}
{"id": "C10", "title": "Planned and unplanned activities partition the instance", "statement": "Every client and shipment of the instance is either on exactly one route or listed exactly once as unplanned; num_clients and num_shipments count the former; uncollected_prizes is the sum of the prizes of the latter; prizes + uncollected prizes is the instance total.", "quantifier": "all valid solutions", "why_tests_cant": "unbounded solutions", "anchors": ["pyvrp/cpp/Solution.cpp: evaluate, constructor", "pyvrp/cpp/Solution.h: unplanned"]}
{"id": "C11", "title": "Feasibility means every constraint holds", "statement": "Solution.is_feasible() is true exactly when no route has excess load, excess distance or time warp, all required clients and shipments are planned, each required group has a planned member and no mutually exclusive group has two.", "quantifier": "all valid solutions", "why_tests_cant": "unbounded solutions", "anchors": ["pyvrp/cpp/Solution.cpp: evaluate, isFeasible, isComplete, isGroupFeasible"]}
{"id": "C12", "title": "cost() is the objective for feasible solutions and penalties only add", "statement": "CostEvaluator.cost(solution) is the documented objective (fixed + distance + duration + overtime cost + uncollected prizes) when the solution is feasible, whatever the penalties, and the maximum value otherwise; penalised_cost is never below the objective and equals cost for feasible solutions.", "quantifier": "all solutions, all penalty vectors", "why_tests_cant": "unbounded solutions and all binary64 penalty values", "anchors": ["pyvrp/cpp/CostEvaluator.h: penalisedCost, cost, loadPenalty, twPenalty, distPenalty", "pyvrp/cpp/Solution.cpp", "pyvrp/cpp/Route.cpp"]}
{"id": "C13", "title": "Penalty terms are non-negative, zero without violation, and monotone", "statement": "load_penalty, tw_penalty and dist_penalty are 0 when there is no violation, never negative, and do not decrease when the violation grows, in the code's binary64 arithmetic.", "quantifier": "all non-negative finite binary64 penalties and all violations up to the int64 range", "why_tests_cant": "rounding behaviour over 2^63 integers and all doubles", "anchors": ["pyvrp/cpp/CostEvaluator.h: loadPenalty, twPenalty, distPenalty, excessDistPenalty", "pyvrp/cpp/CostEvaluator.cpp"]}
{"id": "C14", "title": "Cached route segments of the search agree with each other", "statement": "In the search's route, for every cut position the cached data before the cut joined with the cached data after it gives the route's own distance, excess load, duration and time warp.", "quantifier": "all routes (any number of reload depots) and all cut positions", "why_tests_cant": "unbounded routes and cut positions", "anchors": ["pyvrp/cpp/search/Route.cpp: Route::update", "pyvrp/cpp/search/Route.h: SegmentBefore, SegmentAfter, SegmentBetween"]}
{"id": "C15", "title": "Evaluating a proposed route equals rebuilding it", "statement": "For a proposed route assembled from pieces of existing routes and newly inserted stops, the evaluated distance, excess load, duration and time warp equal those of the route actually built from that visit sequence, as long as the maximum duration is not exceeded together with time warp on a multi-trip route (there the time warp deviates).", "quantifier": "all instances, all proposals (any number of pieces, any cut positions, reload depots included)", "why_tests_cant": "delta evaluation has to be right for every combination of pieces", "anchors": ["pyvrp/cpp/search/Route.h: Route::Proposal::distance, duration, excessLoad"]}
{"id": "C16", "title": "Delta cost evaluation: exact when it says so, and never rejects an improving move", "statement": "When the delta cost evaluation reports an exact result, adding it to the old penalised cost gives the penalised cost of the rebuilt route(s); when it stops early, the true change is non-negative, so no improving move is lost.", "quantifier": "all routes, proposals, penalties and starting values", "why_tests_cant": "the early exit depends on the order in which cost terms are added, for every possible magnitude", "anchors": ["pyvrp/cpp/CostEvaluator.h: deltaCost (both overloads)", "pyvrp/cpp/search/Route.h: hasDistanceCost, hasDurationCost"]}
{"id": "C17", "title": "The search and the solution agree on the cost of a route", "statement": "A route held by the local search and the Route object built from the same activities have the same distance, duration, time warp, excess load and penalised cost.", "quantifier": "all instances and valid visit lists", "why_tests_cant": "two independent implementations must agree on every input", "anchors": ["pyvrp/cpp/search/Route.cpp: update", "pyvrp/cpp/Route.cpp: setSchedule, setDistance, setLoad", "pyvrp/cpp/search/Solution.cpp: penalisedCost"]}
{"id": "C18", "title": "Route editing keeps node bookkeeping right", "statement": "After any sequence of insert, remove, swap and clear operations on the search's routes, every node knows its route, its position and its trip, each node is in at most one route, and the visit order is that of plain list edits.", "quantifier": "all operation sequences on any number of routes", "why_tests_cant": "histories of unbounded length", "anchors": ["pyvrp/cpp/search/Route.cpp: insert, remove, swap, clear"]}
{"id": "C19", "title": "Loading a solution into the search and unloading returns it", "statement": "Whatever the search held before, loading a solution and unloading it again gives a solution with the same routes (same visits, same vehicle types) in vehicle-type order and hence the same penalised cost.", "quantifier": "all valid solutions, all previous search states", "why_tests_cant": "depends on arbitrary previous states because unchanged routes are reused", "anchors": ["pyvrp/cpp/search/Solution.cpp: load, unload, operator=="]}
{"id": "C20", "title": "Search operators change the plan exactly as advertised", "statement": "Each search operator, when it evaluates a move as one to apply, changes the plan in exactly the way it is about: the routes involved before and after are related as written out per operator, all other routes are untouched, no activity is duplicated or lost, pickups stay before deliveries in the same trip, trips stay within the vehicle's number, and required clients, shipments and groups stay planned.", "quantifier": "all operators (Relocate and Swap of any size, SwapTails, and the insert, remove, replace and relocate operators), all instances, all plans, all positions and neighbours passing the operator's own checks", "why_tests_cant": "unbounded solutions and positions", "anchors": ["pyvrp/cpp/search/Relocate.h", "pyvrp/cpp/search/Swap.h", "pyvrp/cpp/search/SwapTails.cpp", "pyvrp/cpp/search/*.cpp: apply"]}
{"id": "C21", "title": "Search operators evaluate the cost change they cause", "statement": "For each search operator, when evaluate says a move should be applied, applying it changes the search solution's penalised cost by exactly the evaluated delta, and that delta is negative (or zero, for removing a superfluous reload depot); this also holds with the remove costs that operators remember between evaluations. Assumes times stay within int64 and that no multi-trip route exceeds a maximum duration; without the latter it fails.", "quantifier": "all operators, all instances, plans and positions, all penalties, all remembered costs reachable by evaluations and updates", "why_tests_cant": "every operator has its own case analysis of positions, routes and depots", "anchors": ["pyvrp/cpp/search/*: evaluate, apply"]}
{"id": "C22", "title": "Local search never returns a worse solution than it was given", "statement": "Started from a structurally complete solution, the local search (an exhaustive call, or one for which no perturbations are drawn) returns a solution whose penalised cost is not larger than that of its input. Same assumptions as C21.", "quantifier": "all instances, solutions, neighbourhoods, operator orders and penalty values", "why_tests_cant": "search trajectories are unbounded", "anchors": ["pyvrp/cpp/search/LocalSearch.cpp: search, applyUnaryOps, applyBinaryOps, applyEmptyRouteMoves"]}
{"id": "C23", "title": "Local search terminates", "statement": "Every call of the local search returns, with or without perturbation: the search loop stops after finitely many rounds, no exception escapes and no missing node is touched. Same assumptions as C21.", "quantifier": "all instances, solutions, neighbourhoods and operator orders", "why_tests_cant": "termination cannot be observed by running", "anchors": ["pyvrp/cpp/search/LocalSearch.cpp: search"]}
{"id": "C24", "title": "Local search plans everything that is required", "statement": "Every solution the local search returns passes all checks of the constructor and is complete: all required clients and shipments are planned, every required group has a planned member and no group has two, whether or not the given solution was complete, and the search object can be called again. Same assumptions as C21.", "quantifier": "all instances and input solutions", "why_tests_cant": "unbounded instances and inputs", "anchors": ["pyvrp/cpp/search/LocalSearch.cpp: ensureStructuralFeasibility"]}
{"id": "C25", "title": "Neighbourhoods are well formed", "statement": "compute_neighbours returns for each client and pickup a list of the requested size (or as many as exist) without duplicates, without the activity itself and without a pickup's own delivery, ordered by the cheapest direct trip (distance, duration and weighted waiting cost over the vehicle types), members of the same group last; nothing left out is closer; the search space accepts the result.", "quantifier": "all instances and parameters", "why_tests_cant": "unbounded instances, ties", "anchors": ["pyvrp/cpp/search/neighbourhood.cpp: computeProximity, computeNeighbours"]}
{"id": "C26", "title": "The search space only accepts valid neighbourhoods and tracks promising activities exactly", "statement": "A neighbourhood structure is accepted exactly when its number of entries fits the instance, its keys are clients or pickups and nobody neighbours itself (that keys and neighbours exist is not checked); an activity is promising exactly when it was marked after the last unmark, and the traversal orders remain permutations of all activities and vehicle types.", "quantifier": "all operation histories", "why_tests_cant": "histories of unbounded length", "anchors": ["pyvrp/cpp/search/SearchSpace.cpp"]}
{"id": "C27", "title": "Perturbation makes a bounded number of changes", "statement": "The number of perturbations lies between the configured minimum and maximum. A perturbation round with number n toggles exactly n clients and shipments (all, if there are fewer), each once: planned ones are removed and unplanned ones inserted; everything else keeps its route and order.", "quantifier": "all instances, solutions, random draws", "why_tests_cant": "random draws and unbounded instances", "anchors": ["pyvrp/cpp/search/PerturbationManager.cpp"]}
{"id": "C28", "title": "Iterated local search returns the best feasible solution it has seen", "statement": "The result's best solution is feasible whenever any candidate or the initial solution was accepted as best, its cost never increases over the iterations, and no feasible candidate produced by the search is better than it at the end - provided the exhaustive search does not worsen its argument.", "quantifier": "all search methods (arbitrary answers), penalty managers, stopping criteria, histories", "why_tests_cant": "arbitrary oracle answers over unbounded histories", "anchors": ["pyvrp/IteratedLocalSearch.py: run"]}
{"id": "C29", "title": "Iterated local search bookkeeping", "statement": "num_iterations equals the number of completed loop iterations, one statistics record is kept per iteration, restarts happen exactly after the configured number of non-improving iterations, and the acceptance rule is late acceptance on the ring buffer history.", "quantifier": "all oracle behaviours and histories", "why_tests_cant": "arbitrary histories", "anchors": ["pyvrp/IteratedLocalSearch.py: run", "pyvrp/RingBuffer.py", "pyvrp/Statistics.py: collect"]}
{"id": "C30", "title": "Ring buffer returns the last values written", "statement": "RingBuffer holds exactly the last maxlen appended values; peek returns the value that will be overwritten next (or None), skip advances without writing, clear empties it.", "quantifier": "all operation sequences", "why_tests_cant": "histories of unbounded length", "anchors": ["pyvrp/RingBuffer.py"]}
{"id": "C31", "title": "Stopping criteria stop exactly when they should", "statement": "MaxIterations(n) allows exactly n calls; NoImprovement(n) stops at the first call for which the best cost has not improved during n calls; FirstFeasible stops exactly at a finite best cost; MultipleCriteria stops as soon as one of its criteria stops, and stops are permanent for counting criteria with non-increasing best costs.", "quantifier": "all sequences of best costs", "why_tests_cant": "histories of unbounded length", "anchors": ["pyvrp/stop/*.py"]}
{"id": "C32", "title": "Penalties stay within their bounds and move in the right direction", "statement": "Whatever is registered, every penalty stays within [min_penalty, max_penalty]; a penalty is only revised once every solutions_between_updates registrations; it does not increase when too many recent solutions were feasible and does not decrease when too few were.", "quantifier": "all registration histories and valid parameters", "why_tests_cant": "histories of unbounded length, binary64 arithmetic", "anchors": ["pyvrp/PenaltyManager.py: register, _register, _compute, PenaltyParams"]}
{"id": "C33", "title": "Fleet minimisation returns a feasible, smallest fleet seen", "statement": "minimise_fleet returns the vehicle type with num_available not above the original and not below the lower bound, and every returned reduction is witnessed by a feasible solution using that many vehicles.", "quantifier": "all instances and solver answers", "why_tests_cant": "arbitrary oracle answers", "anchors": ["pyvrp/minimise_fleet.py"]}
{"id": "C34", "title": "Problem data validation guarantees safe indexing", "statement": "If ProblemData construction succeeds, every location, depot, group, profile index stored anywhere in it is in range, all load vectors have the same length, matrices are square of the right size with zero diagonal, and group membership is mutual.", "quantifier": "all argument combinations", "why_tests_cant": "unbounded instances", "anchors": ["pyvrp/cpp/ProblemData.cpp: validate"]}
{"id": "C35", "title": "replace changes only what it is told to", "statement": "ProblemData.replace and VehicleType.replace without arguments return an equal object, and replacing one field leaves the others as they were.", "quantifier": "all objects and fields", "why_tests_cant": "unbounded data", "anchors": ["pyvrp/cpp/ProblemData.cpp: replace", "pyvrp/cpp/VehicleType.cpp: replace"]}
{"id": "C36", "title": "Pickling round trips", "statement": "Unpickling a pickled object gives back an object with the same observable attributes. (True for clients, depots, shipments, vehicle types, matrices, piecewise linear functions and bitsets; false for Route, whose fixed vehicle cost is lost, and for Solution, whose unplanned list and cost are lost.)", "quantifier": "all objects", "why_tests_cant": "unbounded objects; attributes not covered by equality", "anchors": ["pyvrp/cpp/bindings.cpp: py::pickle definitions", "pyvrp/cpp/Route.cpp: unserialising constructor", "pyvrp/cpp/Solution.cpp: unserialising constructor"]}
{"id": "C37", "title": "Random numbers are reproducible and in range", "statement": "The generator's output sequence is a function of its state; saving and restoring the state resumes the sequence; the state never becomes all zero from a valid seed; randint(high) < high; rand() lies in [0, 1]; shuffling permutes.", "quantifier": "all seeds and numbers of draws", "why_tests_cant": "2^128 states", "anchors": ["pyvrp/cpp/RandomNumberGenerator.h", "pyvrp/cpp/RandomNumberGenerator.cpp"]}
{"id": "C38", "title": "Piecewise linear functions evaluate the right piece", "statement": "Construction succeeds exactly for valid breakpoints and segments, or valid point lists; evaluation uses the piece containing the argument, interpolates the given points, and extends the first and last piece; the monotonicity test is exact over the rationals (and sufficient, but not necessary, over the integers).", "quantifier": "all breakpoints, slopes and arguments", "why_tests_cant": "unbounded integers", "anchors": ["pyvrp/cpp/PiecewiseLinearFunction.h"]}
{"id": "C39", "title": "Bitsets behave as sets of indices", "statement": "DynamicBitset operations (get, set, and, or, xor, not, all, any, none, count) agree with set operations on indices below its size, which is the requested size rounded up to whole blocks.", "quantifier": "all sizes and operations", "why_tests_cant": "unbounded sizes", "anchors": ["pyvrp/cpp/DynamicBitset.h", "pyvrp/cpp/DynamicBitset.cpp"]}
{"id": "C40", "title": "Matrix indexing is row major and independent", "statement": "Reading entry (i, j) after writing (i, j) gives the written value and leaves every other in-range entry unchanged; conversion from and to two-dimensional arrays keeps every entry in place; max() is the largest entry.", "quantifier": "all sizes and indices", "why_tests_cant": "unbounded sizes", "anchors": ["pyvrp/cpp/Matrix.h", "pyvrp/cpp/bindings.h"]}
{"id": "C41", "title": "Activity text form round trips", "statement": "Parsing the printed form of an activity gives it back; text is accepted exactly when it is a type letter followed by what std::stoul reads as a number (so trailing characters are ignored); hashes of activities with indices below 2^20 are distinct.", "quantifier": "all activities", "why_tests_cant": "unbounded indices", "anchors": ["pyvrp/cpp/Activity.cpp", "pyvrp/cpp/Activity.h"]}
{"id": "C42", "title": "Statistics survive a CSV round trip and report feasibility as collected", "statement": "Statistics.from_csv(to_csv(stats)) equals stats for collected data.", "quantifier": "all collected histories", "why_tests_cant": "unbounded histories", "anchors": ["pyvrp/Statistics.py"]}
{"id": "C43", "title": "Random solutions are complete and valid", "statement": "Solution.make_random yields a valid solution visiting every client and shipment that must be visited, one member per group, at most the available vehicles, for every random number stream.", "quantifier": "all instances and random streams", "why_tests_cant": "random draws and unbounded instances", "anchors": ["pyvrp/cpp/Solution.cpp: make_random"]}
{"id": "C44", "title": "Model edges: the last edge added for a pair wins, profile edges override", "statement": "Model.data() fills each matrix with the missing value, zero on the diagonal, base edges in order, then the profile's own edges in order; so the value used for a pair is that of the last applicable edge.", "quantifier": "all models", "why_tests_cant": "unbounded edge lists", "anchors": ["pyvrp/Model.py: data, add_edge"]}
{"id": "C45", "title": "Solver result cost is consistent", "statement": "Result.cost() is the best solution's cost when feasible and infinity otherwise; is_feasible() is equivalent to a finite cost.", "quantifier": "all results", "why_tests_cant": "unbounded solutions", "anchors": ["pyvrp/Result.py"]}
{"id": "C46", "title": "Equality of routes and solutions is equality of plans", "statement": "Two routes of the same problem data compare equal exactly when they visit the same activities in the same order with the same vehicle type, and two solutions compare equal exactly when their routes are the same up to order. Equal solutions of one instance have equal hash values.", "quantifier": "all problem data, and all pairs of constructible routes and solutions", "why_tests_cant": "unbounded plans; equality compares aggregate statistics and a permutation, so a wrong comparison shows only on rare coincidences", "anchors": ["pyvrp/cpp/Route.cpp: operator==", "pyvrp/cpp/Solution.cpp: operator==", "pyvrp/cpp/Solution.h: std::hash<Solution>"]}
{"id": "C47", "title": "Insertion uses the cheapest considered place", "statement": "When the search puts an unplanned client or shipment into the plan, the penalised cost afterwards is at most that of putting it after any planned neighbour (for shipments: pickup directly before or after the neighbour, delivery anywhere later in that trip) or, for clients, at the start of the first route or into an empty route; a client or shipment that is not required is inserted only if that lowers the cost.", "quantifier": "all instances, plans, neighbourhoods, vehicle type orders, penalties", "why_tests_cant": "unbounded plans and neighbourhoods", "anchors": ["pyvrp/cpp/search/Solution.cpp: insert, IncrementalSegmentBetween"]}
{"id": "C48", "title": "solve() returns a good solution", "statement": "On every well-formed instance, solve() with the default or any other operators raises no exception and returns as soon as its stopping criterion says so, which happens for every criterion that limits iterations, run time or iterations without improvement, or combines one that does. With MaxIterations(n) it runs exactly n iterations. The returned solution is a valid solution of the instance; it is complete unless it is the given, incomplete initial solution; it is feasible and no more costly than the given initial solution if that is feasible, and likewise for every solution the search produced on the way.", "quantifier": "all instances within the int64 range conditions, all seeds, all operator lists, parameters, optional initial solutions and stopping criteria", "why_tests_cant": "unbounded instances and run lengths; random search", "anchors": ["pyvrp/solve.py: solve", "pyvrp/IteratedLocalSearch.py: IteratedLocalSearch.run", "pyvrp/PenaltyManager.py: init_from", "pyvrp/cpp/search/*.cpp: supports"]}
{"id": "C49", "title": "Operators overlook no improving move", "statement": "If evaluate() of a search operator reports no move to apply for a visit (and a place), then no move of that operator's kind there lowers the penalised cost: relocating or swapping visits, swapping tails, inserting, removing or replacing optional clients and shipments, exchanging group members, moving a pickup, delivery or whole shipment, and removing or adding a reload depot.", "quantifier": "all instances within the range conditions, plans, penalties, operators, visits and places; all moves of the operator's kind", "why_tests_cant": "the space of plans and moves is unbounded", "anchors": ["pyvrp/cpp/search/*.cpp: evaluate", "pyvrp/cpp/search/*.h: evaluate"]}
{"id": "C50", "title": "An exhaustive local search call returns a local optimum", "statement": "After a call of the local search with exhaustive=True, no solution that one of its operators could reach in one move is cheaper, for planned clients and shipments moved next to a neighbour or into an unused vehicle, for removals and replacements, and for unplanned ones put into an unused vehicle. (For unplanned clients next to neighbours this fails, see C50_insertion_refuted.)", "quantifier": "all instances within the range conditions, initial solutions, neighbourhoods, operator lists, penalties and random seeds", "why_tests_cant": "quantifies over all neighbouring solutions of all results", "anchors": ["pyvrp/cpp/search/LocalSearch.cpp: operator(), search, applyUnaryOps, applyBinaryOps, applyEmptyRouteMoves", "pyvrp/search/LocalSearch.py: LocalSearch.__call__"]}
{"id": "C51", "title": "read() gives the data that the file describes", "statement": "Reading an instance whose sections are complete and consistent raises no exception. The resulting data has the clients of the file in order, each with its location, demand, backhaul, service duration, time window, release time and prize, required unless it has a prize or belongs to a group; every vehicle of the file belongs to exactly one vehicle type, which has its attributes, is available as often as it has vehicles and whose name lists them; vehicles that agree share a type; groups and shipments are those of the file; distances and durations are the rounded edge weights. (With several depots, deliveries of shipments are read from the wrong row, see C51_shipments_refuted.)", "quantifier": "all parsed instance files (any sections present or absent, any sizes and values) and all rounding functions", "why_tests_cant": "the tests read a few dozen files; combinations of optional sections are unbounded", "anchors": ["pyvrp/read.py: read, _InstanceParser, _ProblemDataBuilder"]}
{"id": "C52", "title": "Restrictions of instance files are respected by routes", "statement": "In data that was read from a file: a route whose vehicle is not allowed to visit one of the route's clients has at least the prohibitive distance MAX_VALUE, and other routes have as distance the sum of the file's edge weights. In a VRP with backhauls and a single depot, a route shorter than MAX_VALUE serves no backhaul client first and no linehaul client after a backhaul client.", "quantifier": "all parsed instance files with non-negative edge weights, all routes of all vehicles", "why_tests_cant": "quantifies over all routes of all instances; the encoding through matrices is checked in tests only for single entries", "anchors": ["pyvrp/read.py: _distance_matrices, _allowed2profile, allowed_clients", "pyvrp/cpp/Route.cpp: Route::Route"]}
{"id": "C53", "title": "Solution files can be read back", "statement": "For data read from an instance file, writing a solution to a solution file and reading that file gives an equal solution: the same routes with the same vehicle types, possibly in another order, with the same cost.", "quantifier": "all instances read from a file, all solutions of them", "why_tests_cant": "quantifies over all solutions and fleets; vehicle types are recovered from their names and the position of a route in the file", "anchors": ["pyvrp/read.py: read_solution", "pyvrp/cli.py: write_solution"]}
{"id": "C54", "title": "Model.data() holds what was added to the model", "statement": "After any sequence of successful calls that add locations, depots, clients, groups, shipments, profiles, edges and vehicle types to a Model, data() gives those objects, each list in the order of the calls and with the given attributes; the indices stored for locations, groups, depots and profiles are those of the objects that were passed, groups list exactly the clients that were added with them, and every matrix entry is that of the last applicable edge. A call with an object of another model raises ValueError.", "quantifier": "all sequences of calls on a model, including objects that compare equal", "why_tests_cant": "quantifies over all call sequences; references by identity among equal objects and the bookkeeping of groups depend on the whole history", "anchors": ["pyvrp/Model.py: Model.add_client, add_client_group, add_depot, add_location, add_shipment, add_edge, add_vehicle_type, add_profile, data, _idx_by_id"]}
{"id": "C55", "title": "No overflow on data of bounded size", "statement": "If the opening and release times, service durations, loads, prizes, fixed costs and the non-negative matrix entries of the data are at most B and unit costs at most U, then constructing a route of n visits (with 6(n+3)B <= 2^60 and 6(n+3)BU < 2^63), evaluating a solution, and joining and finalising the search's duration and load segments never leave the range of 64-bit integers, so that the results are those of exact arithmetic; closing times, capacities, shift durations and maximum distances may be anything up to the largest integer. The same holds for the penalised costs of routes and solutions and for delta costs of changes to one or two routes when penalties are at most P per unit, with the bounds multiplied by 3 + P(D+2) for D load dimensions; with binary64 weights up to 2^k, P is 2^(k+1). With numbers up to MAX_VALUE = 2^44 and unit costs up to 10 this covers all routes of up to 8189 visits. Data accepted by the constructors without these bounds can overflow, and so can costs with numbers up to MAX_VALUE and the default largest penalty.", "quantifier": "all data, bounds, weights, routes, solutions, proposals and segment expressions of any size", "why_tests_cant": "overflow is undefined behaviour and happens on extreme inputs only; every intermediate value of every sequence of additions has to be bounded", "anchors": ["pyvrp/cpp/Measure.h: Measure::operator+ - *", "pyvrp/cpp/DurationSegment.h: DurationSegment::merge, finaliseFront, finaliseBack, duration, timeWarp, endLate", "pyvrp/cpp/LoadSegment.h: LoadSegment::merge, finalise, excessLoad", "pyvrp/cpp/Route.cpp: Route::Route, makeSchedule", "pyvrp/cpp/Solution.cpp: Solution::evaluate", "pyvrp/constants.py: MAX_VALUE", "pyvrp/cpp/CostEvaluator.h: CostEvaluator::penalisedCost, deltaCost, excessLoadPenalties, twPenalty, distPenalty"]}
{"id": "C56", "title": "Operators left out by solve() have nothing to do", "statement": "solve() adds only the operators whose supports(data) holds. For an operator that does not support the data, evaluate() reports no applicable move for any visit and any state of the local search, so the local search returns exactly the same solution with only the supported operators as with all of them, given the same operator order. The exception is SwapTails on instances with only shipments: it is left out there although it can find improving moves.", "quantifier": "all instances, operators, plans with checked routes in which everything required is planned, visits, starting solutions, neighbourhoods, operator orders and numbers of rounds", "why_tests_cant": "a test compares the two on some instances; that no state of the search on any unsupported instance has a move of the operator needs an argument about all reachable plans", "anchors": ["pyvrp/solve.py: solve", "pyvrp/cpp/search/*.cpp: supports, evaluate of each operator", "pyvrp/cpp/search/Relocate.h: supports", "pyvrp/cpp/search/Swap.h: supports", "pyvrp/cpp/search/LocalSearch.cpp: LocalSearch::operator(), search"]}
{"id": "C57", "title": "Vehicles reload only where they may", "statement": "If every reload depot in the routes of a solution is one of the reload_depots of the route's vehicle type, then the same holds for the solution the local search returns. solve() returns such a solution whenever no initial solution is given, or the given one is like that. The Route constructor does not check this, so solve() can return a given initial solution with other reload depots.", "quantifier": "all instances, solutions, operators, neighbourhoods, penalties, seeds, perturbations, parameters and stopping criteria", "why_tests_cant": "nothing in the library rejects a route with a reload depot that its vehicle type does not have, so a move that created one would not show up as an error; tests look at a few moves and instances", "anchors": ["pyvrp/cpp/search/RelocateWithDepot.cpp: evaluate, apply", "pyvrp/cpp/search/LocalSearch.cpp: LocalSearch::operator()", "pyvrp/cpp/search/Relocate.h: evaluate", "pyvrp/cpp/search/Swap.h: evaluate", "pyvrp/cpp/search/SwapTails.cpp: evaluate", "pyvrp/cpp/Route.cpp: Route::validate", "pyvrp/solve.py: solve"]}
{"id": "C58", "title": "When solve() and the local search return, and when they do not", "statement": "A call of the local search, and so solve(), returns on every instance whose routes satisfy four conditions: times and distances stay small enough for the arithmetic, every reload depot stays open until the clients of the next trip are released, and a vehicle that reloads either stays within its maximum duration or has no time warp. The last two conditions cannot be dropped: for each of the two there is a small accepted instance (for the first one with a feasible solution) on which solve() with its default parameters never returns, whatever the stopping criterion, because the local search comes back to the same plan forever and asks no stopping criterion meanwhile.", "quantifier": "the positive part: all instances, solutions, operators, neighbourhoods, penalties, seeds and parameters; the negative part: existence of instances, for all stopping criteria and all numbers of rounds", "why_tests_cant": "a test that runs for a long time does not show that a call never returns, and no finite number of tests shows that all calls do", "anchors": ["pyvrp/cpp/search/LocalSearch.cpp: LocalSearch::search", "pyvrp/cpp/search/Route.cpp: Route::update", "pyvrp/cpp/DurationSegment.h: finaliseBack, finaliseFront", "pyvrp/cpp/CostEvaluator.h: deltaCost", "pyvrp/solve.py: solve", "pyvrp/IteratedLocalSearch.py: IteratedLocalSearch.run"]}
{"id": "C59", "title": "The rounding functions of read() round exactly", "statement": "read() with round_func 'trunc', 'round', 'dimacs' or 'exact' gives the integers that exact arithmetic gives, although the values are scaled and rounded in binary64: a number written with decimals becomes the number itself, ten times it, or a thousand times it, truncated or rounded to the nearest integer (so nothing is lost with one decimal for 'dimacs' and with three for 'exact'), and Euclidean distances between points with integer coordinates become the exact square root, scaled and truncated or rounded. Both hold up to stated sizes; beyond them truncated distances can be too large by one.", "quantifier": "all decimal numbers of at most 12 (or more) digits and 200 decimals, all integer squared distances up to a bound, all instances with such distances", "why_tests_cant": "binary64 products like 10 * 0.7 are right or wrong case by case; tests cover a few of them", "anchors": ["pyvrp/read.py: ROUND_FUNCS, read, _InstanceParser.edge_weight"]}
{"id": "C60", "title": "A model built with moderate numbers can be solved", "statement": "If a Model was built with its add methods, is complete (data() accepts it), and the numbers passed are of a moderate size (opening, release and service times, edge values, costs and prizes so small that no sum over a route or over the fleet comes near 64 bits; vehicles with reload depots have a bounded number of reloads and no maximum duration, and no client is released after a depot closes), then Model.solve() with valid parameters and a criterion that stops in the end returns: no exception, no endless loop, and its result is a solution of what the calls described, complete unless nothing better than an incomplete initial solution was found. A model that is not complete makes solve() raise before it searches.", "quantifier": "all sequences of add calls, all such numbers, all seeds, all parameters, all such stopping criteria, all initial solutions", "why_tests_cant": "ranges over all models and all runs of a randomised search; conditions on the search's internal arithmetic have to follow from the arguments of the calls alone", "anchors": ["pyvrp/Model.py: Model.solve, Model.data, Model.add_client, Model.add_vehicle_type, Model.add_edge", "pyvrp/solve.py: solve"]}
{"id": "C61", "title": "Callbacks see the run and do not change it", "statement": "Running the iterated local search with callbacks returns exactly what it returns without them, and the callbacks are called in a fixed order: on_start once before the first iteration; in each iteration on_restart exactly when num_iters_no_improvement iterations in a row brought no improvement, with the best solution so far, then on_best exactly when a new best solution is found, with that solution (after the exhaustive search), then on_iteration with the solutions and the evaluator of that iteration; on_end once, with the result. In solve() the solutions given to on_best are feasible, each has a strictly lower objective than all feasible ones before, and the last one is the result's best.", "quantifier": "all search methods, penalty managers, stopping criteria, parameters, initial solutions and callbacks with their own state; for solve(), all solvable instances and seeds", "why_tests_cant": "ranges over all runs and all callbacks; a test sees the calls of a few runs", "anchors": ["pyvrp/IteratedLocalSearch.py: IteratedLocalSearchCallbacks, IteratedLocalSearch.run"]}
{"id": "C62", "title": "The progress log tells what happened", "statement": "With display off nothing is logged. With display on there is one start line first and one end line last, with the result's number of iterations and best solution, and one restart line for each restart in between. An iteration line for iteration n has the statistics collected in iteration n, lines are in order of iterations, each is logged at least display_interval after the line before it, and it is marked as a new best exactly when the best solution is feasible and cheaper than in all lines marked before. Every iteration without a line came less than display_interval after the last line before it; with interval zero every iteration has a line. Without statistics there are no iteration lines.", "quantifier": "all runs of the iterated local search, all intervals, all clock readings", "why_tests_cant": "ranges over all runs and all timings", "anchors": ["pyvrp/ProgressPrinter.py: ProgressPrinter", "pyvrp/IteratedLocalSearch.py: IteratedLocalSearch.run"]}
{"id": "C63", "title": "Parameter files mean what they say", "statement": "SolveParams.from_file accepts a TOML file exactly if each of the sections ils, penalty, neighbourhood and perturbation that it has contains only entries with the names of the parameters, with values in their allowed ranges, and the operators, if listed, are names of operator classes; the parameters returned have the values of the file, the operators in the order of the file, and the documented default for everything the file does not set. An empty file gives the defaults. If all numbers are finite, the parameters are such that solve() works with them. Unknown sections are ignored; an infinite or NaN penalty bound is accepted.", "quantifier": "all contents of TOML files", "why_tests_cant": "ranges over all files; tests check a few entries of a few files, and not what is rejected", "anchors": ["pyvrp/solve.py: SolveParams.from_file", "pyvrp/IteratedLocalSearch.py: IteratedLocalSearchParams", "pyvrp/PenaltyManager.py: PenaltyParams", "pyvrp/cpp/search/bindings.cpp: NeighbourhoodParams, PerturbationParams"]}
{"id": "C64", "title": "The command line solves instance files", "statement": "Solving a complete and consistent instance file with numbers of a moderate size from the command line, with the default parameters or those of a parameter file with finite numbers, returns: the feasibility, cost and number of iterations are those of the best solution of solve() on the data of the file; the run stops at the first iteration at which one of the limits on run time, iterations, or iterations without improvement is reached, each multiplied by the number of clients when asked for; the statistics file reads back with one row for each iteration, and the solution file reads back as the best solution. A negative limit raises. Not so for files without clients (only shipments): with limits per client no iteration is made.", "quantifier": "all instance files, rounding functions, parameter files, seeds, limits and clocks", "why_tests_cant": "ranges over all files and all runs; the claim joins reading, searching, stopping and writing", "anchors": ["pyvrp/cli.py: _solve, write_solution", "pyvrp/read.py: read, read_solution", "pyvrp/stop/MultipleCriteria.py: MultipleCriteria", "pyvrp/Statistics.py: Statistics.to_csv"]}
{"id": "C65", "title": "The table of results is aligned", "statement": "The table printed after a benchmark has one line of headers, one of dashes, and one line for each row, all of the same length; the width of each column is that of its widest cell or header, headers are aligned to the left and cells to the right of their column. Rows with more cells than headers raise.", "quantifier": "all headers and rows of text", "why_tests_cant": "ranges over all texts; tests compare a few tables", "anchors": ["pyvrp/cli.py: tabulate"]}
{"id": "C66", "title": "The statistics of the local search are right", "statement": "After a call of the local search its statistics, and those of each operator, are available. No operator has applied more moves than it evaluated, and the totals are the sums over the operators; in the order of the operators after the call, each was evaluated as often as the one before it was evaluated without being applied. An exhaustive call evaluates the first unary operator once for each client and shipment in every round, and makes at most one round more than moves. The number of updates is the number of applied moves plus the number of required clients, groups and shipments that the given solution misses, plus at most the number of perturbations; in particular it is never smaller than the number of applied moves. When a complete solution is searched without perturbation the updates are the applied moves: if there are none, the result has the same routes as the given solution, and if there are some, it has a smaller penalised cost, or the same cost and fewer visits to reload depots.", "quantifier": "all instances with bounded figures, cost evaluators, local search objects with any operators and neighbourhoods, solutions and random numbers", "why_tests_cant": "relates counters to the whole run of a search over all solutions and operators; tests look at the counters of a few calls", "anchors": ["pyvrp/cpp/search/LocalSearch.cpp: LocalSearch::statistics, search, ensureStructuralFeasibility, update", "pyvrp/cpp/search/LocalSearchOperator.h: OperatorStatistics", "pyvrp/search/LocalSearch.py: statistics"]}
{"id": "C67", "title": "The figures the local search keeps and evaluates do not overflow", "statement": "If the numbers of the data are bounded as in C55 (by B, unit costs by U) and 192(n+3)B(U+1) <= 2^60, then updating a search route with up to n visits leaves the 64-bit range nowhere (cumulative distances, duration and load segments before and after each position, loads per trip, costs, excess and time warp), evaluating the distance, duration and excess load of a proposal for a route of up to n visits made of pieces of such routes leaves it nowhere, and neither does the delta cost of a change to one or two routes, from the pieces to the total, when also the penalties are moderate as in C55; the results are those of exact arithmetic. Without bounds, updating a route of data that the constructor accepts can overflow.", "quantifier": "all data, bounds, vehicle types, routes of any number of visits and trips, proposals of any number of pieces, evaluators, exact or early-stopping evaluation", "why_tests_cant": "signed overflow is undefined behaviour that only shows on extreme data; bounding it takes an argument about every intermediate value of every combination of segments", "anchors": ["pyvrp/cpp/search/Route.cpp: Route::update", "pyvrp/cpp/search/Route.h: SegmentBefore, SegmentAfter, SegmentBetween, Proposal::distance, Proposal::duration, Proposal::excessLoad", "pyvrp/cpp/CostEvaluator.h: CostEvaluator::deltaCost", "pyvrp/cpp/DurationSegment.h: DurationSegment::merge, finaliseFront, finaliseBack"]}
{"id": "C68", "title": "The penalty manager warns exactly when it should by its documentation", "statement": "Registering a solution warns about a constraint exactly if it completes a group of solutions_between_updates registrations that is not the first, the penalty of that constraint was max_penalty, the feasible share of the group fell short of target_feasible by at least feas_tolerance, and the violations of the group add up to no less than those of the group before. So there is no warning while violations keep decreasing, nor for a group that meets the target. Warning changes no penalty, and after a warning the penalty stays at max_penalty. The message does not mean what it says: it is also given when most registered solutions satisfy all constraints (default parameters), and with some accepted parameters when all of them do.", "quantifier": "all accepted parameters (finite numbers), initial penalties, numbers of load dimensions and histories of registered violations of any length", "why_tests_cant": "the tests register two or three solutions with groups of one; whether rounded averages compare like the totals, and what is remembered across groups and dimensions, concerns all histories", "anchors": ["pyvrp/PenaltyManager.py: PenaltyManager._register, PenaltyManager.register, PenaltyManager.__init__"]}
{"id": "C69", "title": "Solving several instances reports and stores each of them", "statement": "Given several instance files, the command prints a row for each of them, in the order of their paths, with its name (the file name without directory and extension, cut to 37 characters), whether its solution is feasible, its cost and its number of iterations, and it counts the instances without a feasible solution. If no two instances have the same name, then whatever the order in which the parallel processes write, the directories asked for hold afterwards the statistics and the solution of every instance under its name, and no other file changes. If all files have moderate numbers and some limit is reached, all are solved; if one raises, the command raises. Instances with the same name in different directories or with different extensions overwrite each other's files, although both are reported; and names that agree in their first 37 characters are the same in the table.", "quantifier": "all lists of paths, contents of the files, arguments, orders in which files are written, and earlier contents of the directories", "why_tests_cant": "tests can run the command on a few files in one order; that no result is lost or swapped concerns all lists of names and all interleavings of the processes", "anchors": ["pyvrp/cli.py: benchmark, _solve, write_solution"]}
{"id": "C70", "title": "The plots of a route show its schedule, load and edges", "statement": "Plotting the schedule of a route draws each of its activities at the distance travelled so far, with the arrival, start and end times of the schedule, the time driven and the time driven and served so far; arrivals after closing are drawn at closing time, with a line up to the arrival, and no such line is drawn otherwise; at the end the traces reach the route's distance, travel duration and service duration. Without reloads and initial load, the load is drawn within the vehicle's capacity exactly if the route has no excess load. Plotting a solution draws every edge of a route except those from a depot to a depot. With reloads, the load of all trips is drawn from the start, above the capacity even if there is no excess load, and an initial load is not drawn, so that excess load can be invisible.", "quantifier": "all accepted data (opening and travel times as in C04 for statements about times), vehicle types, well-formed routes and load dimensions", "why_tests_cant": "the tests compare images of a few plots with stored ones; that the accumulated traces agree with the figures of the route concerns all routes", "anchors": ["pyvrp/plotting/plot_route_schedule.py: plot_route_schedule", "pyvrp/plotting/plot_solution.py: plot_solution", "pyvrp/cpp/Route.cpp: Route::ScheduledActivity"]}
{"id": "C71", "title": "Large distances and durations are warned about", "statement": "Of the methods of Model that add something, only add_edge warns, exactly if the distance or duration is above MAX_VALUE. If no call warned, no distance or duration in data() is above MAX_VALUE, whatever the value for missing edges; an entry that is above it comes from a warned call about the same two locations, and the values of the only edge between two locations reach the data. A warned edge that is later replaced leaves no large value. from_data() warns exactly if an entry of the data is above MAX_VALUE. read() warns exactly if a distance in its result is; a warning needs an edge weight of the file above MAX_VALUE, so forbidden edges alone never cause one, and such a weight causes one if some vehicle may use the edge.", "quantifier": "all sequences of successful calls on a model, all data, and all files (as in C51, with any rounding function) whose edge weights form an array", "why_tests_cant": "the tests check a few edge values and one file; that silence bounds every entry of the data concerns all models, profiles and restrictions of files", "anchors": ["pyvrp/Model.py: Edge.__init__, Model.add_edge, Model.from_data, Model.data", "pyvrp/read.py: _ProblemDataBuilder._distance_matrices", "pyvrp/constants.py: MAX_VALUE"]}
{"id": "C72", "title": "The plots of a run and of the data show the statistics and the clients", "statement": "For a run that collected statistics, plotting its objectives draws three lines with one point for every iteration that is not left out, at the iteration's number from 1: the penalised cost at that time of the current, the candidate and the best solution. By default one in twenty iterations is left out, rounded down; a negative number keeps that many from the end. Plotting run times draws one point per iteration. For a run without statistics both plots raise ValueError, unless all iterations are left out. Plotting demands draws the delivered amounts of all clients in increasing order, or raises ValueError for an unknown load dimension; plotting time windows draws a bar from opening to closing for every client, by opening then closing time, but raises IndexError for accepted data without clients.", "quantifier": "all runs of iterated local search (any search, penalties and stopping criterion) with at most 2^50 iterations, all numbers of iterations to leave out, all data and load dimensions", "why_tests_cant": "the tests compare images of a few plots with stored ones; the number of points of each line and the rounding of 0.05 * n concern every number of iterations", "anchors": ["pyvrp/plotting/plot_objectives.py: plot_objectives", "pyvrp/plotting/plot_runtimes.py: plot_runtimes", "pyvrp/plotting/plot_demands.py: plot_demands", "pyvrp/plotting/plot_time_windows.py: plot_time_windows", "pyvrp/Statistics.py: Statistics.__iter__"]}
{"id": "C73", "title": "The lines of the progress log state the figures of the iteration and line up", "statement": "Split at spaces, the line that is logged for an iteration consists of an H if a new best solution was found since the last H, the number of iterations, the elapsed seconds, a bar, and the cost and feasibility (Y or N) of the current, candidate and best solution. All of these can be read back from the line, whatever the sizes of the numbers: no two different sets of figures give the same line. With less than ten million iterations, less than a million seconds and costs of at most twelve characters, the line is as long as the header and each figure ends below the end of its title. The opening lines state the numbers of depots, clients, shipments, vehicles and vehicle types, in the singular just for one.", "quantifier": "all iteration counts, elapsed times, costs and feasibilities; all data", "why_tests_cant": "the tests look for a few numbers in the log of one iteration; that columns cannot run into each other and that lines align concern all numbers", "anchors": ["pyvrp/ProgressPrinter.py: _ITERATION", "pyvrp/ProgressPrinter.py: _START", "pyvrp/ProgressPrinter.py: ProgressPrinter.iteration", "pyvrp/ProgressPrinter.py: ProgressPrinter.start"]}
{"id": "C74", "title": "The summary of a result and the closing lines of the log state its figures", "statement": "The summary of a result states, one per line and labelled, the number of routes, trips, clients and shipments and the distance and duration summed over the routes of the best solution, the number of iterations and the run time. The objective line states the objective value if the best solution is feasible, and INFEASIBLE otherwise. The colons of the figures are below each other whatever the figures. The closing lines of the progress log state the run time, the number of iterations, the cost (inf if the solution is not feasible) and then the summary.", "quantifier": "all data and solutions, feasible or not, all iteration counts and run times", "why_tests_cant": "the tests look for some of the numbers anywhere in two summaries, so a number beside another label passes; the property is about all solutions", "anchors": ["pyvrp/Result.py: Result.summary", "pyvrp/ProgressPrinter.py: _END", "pyvrp/ProgressPrinter.py: ProgressPrinter.end"]}
{"id": "C75", "title": "The text of a route, solution or result shows the visits in order", "statement": "Converting a route to text gives, separated by single spaces and in order, the text of each visit between the start and end depot, with a bar for a stop at a reload depot. Two routes with the same text have the same visits in the same order, except that which depots are visited for reloading cannot be told apart, nor can vehicle types. The text of a solution has one line for each route in order, with the route's number from 1. The text of a result is its summary, a title and the text of the best solution.", "quantifier": "all data, all routes and solutions that can be constructed, indices up to 2^64 - 1", "why_tests_cant": "the tests compare the texts of a few routes; that texts never coincide for different visits is about all pairs of routes", "anchors": ["pyvrp/cpp/Route.cpp: operator<<", "pyvrp/cpp/Solution.cpp: operator<<", "pyvrp/Result.py: Result.__str__"]}
