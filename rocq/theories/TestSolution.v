(** The model on the inputs of tests/test_CostEvaluator.py and tests/test_Solution.py; see TestData.v.
    Each example has the name of the test, and the values on the right are those that the test expects. *)
From Coq Require Import ZArith List String Bool.
From Verif Require Import Base DurationSegment Data DataCtor LoadSegment Route SearchRoute Cost Penalty Solution Equal Rng MakeRandom TestData TestRoute.
Import ListNotations.
Local Open Scope Z_scope.

Definition no_solution : solution := mk_solution [] [] 0 0 0 0 0 0 0 0 0 0 0 [] 0 0 0 0.
(** Solution(data, [[..], [..]]) and Solution(data, [Route(data, .., v), ..]) *)
Definition sc (d : pdata) (visits : list (list nat)) : solution := ok no_solution (make_solution_clients d visits).
Definition sr (d : pdata) (rs : list (list nat * nat)) : res solution := make_solution d (map (fun x => rc d (fst x) (snd x)) rs).
Definition INT_MAX : Z := 9223372036854775807.

(** ** tests/test_CostEvaluator.py *)
Example test_raises_negative_penalties :
  map (fun x => let '(l, t, e) := x in fails (make_evaluator (map b64_of_Z l) (b64_of_Z t) (b64_of_Z e)))
    [([], -1, 0); ([], 0, -1); ([-1], 0, 0); ([0; -1], 0, 0); ([0; 1], 0, 0)] = [true; true; true; true; false].
Proof. run. Qed.
Example test_load_penalty :
  map (fun pen => map (fun x => loadPenalty (evaluator_of [pen] 1 0) x 1 0) [0; 1; 2; 3]) [2; 4] = [[0; 0; 2; 4]; [0; 0; 4; 8]].
Proof. run. Qed.
Example test_load_penalty_multiple_dimensions :
  map (fun dim => map (fun x => loadPenalty (evaluator_of [1; 2] 0 0) x 1 dim) [0; 1; 2; 3]) [0; 1]%nat = [[0; 0; 1; 2]; [0; 0; 2; 4]].
Proof. run. Qed.
Example test_load_penalty_always_zero_when_below_capacity :
  map (fun cap => map (fun x => loadPenalty (evaluator_of [2] 1 0) x cap 0) [0; cap - 1; cap; cap + 1; cap + 2]) [5; 15; 29; 51; 103] =
  repeat [0; 0; 0; 2; 4] 5.
Proof. run. Qed.
Example test_tw_penalty :
  (map (twPenalty (evaluator_of [1] 2 0)) [0; 1; 2], map (twPenalty (evaluator_of [1] 4 0)) [0; 1; 2]) = ([0; 2; 4], [0; 4; 8]).
Proof. run. Qed.
Example test_dist_penalty :
  map (fun pen => map (fun x => distPenalty (evaluator_of [1] 1 pen) x 0) [-1; 0; 1; 2]) [2; 4] = [[0; 0; 2; 4]; [0; 0; 4; 8]].
Proof. run. Qed.
Example test_cost :
  let feas := sc okSmall [[0; 1]; [2]; [3]]%nat in let infeas := sc okSmall [[0; 1; 2; 3]]%nat in
  (so_isFeasible infeas, map (fun e => (solution_cost e feas =? so_distance feas, solution_cost e infeas)) [evaluator_of [20] 6 0; evaluator_of [0] 0 0]) =
  (false, [(true, INT_MAX); (true, INT_MAX)]).
Proof. run. Qed.
Example test_penalised_cost :
  let feas := sc okSmall [[0; 1]; [2]; [3]]%nat in let infeas := sc okSmall [[0; 1; 2; 3]]%nat in
  let e := evaluator_of [20] 6 0 in let e0 := evaluator_of [0] 0 0 in
  (so_isFeasible feas, solution_penalised e feas, solution_penalised e0 feas) = (true, so_distance feas, so_distance feas) /\
  (solution_penalised e infeas, solution_penalised e0 infeas) =
  (so_distance infeas + 20 * hd 0 (so_excessLoad infeas) + 6 * so_timeWarp infeas, so_distance infeas).
Proof. run. Qed.
Example test_excess_distance_penalised_cost :
  let s := sc (with_vehicles okSmall [v_maxd 5000 (veh 3 [10])]) [[0; 1]; [2; 3]]%nat in
  (so_isFeasible s, so_distance s, map r_distance (so_routes s), so_excessDistance s, map r_excessDistance (so_routes s),
   solution_penalised (evaluator_of [0] 0 10) s) = (false, 5501 + 4224, [5501; 4224], 501, [501; 0], 5501 + 4224 + 10 * 501).
Proof. run. Qed.
Example test_excess_load_penalised_cost :
  let d := data 3 [c_dem [2; 1] [0; 0] (cli 1); c_dem [3; 2] [0; 0] (cli 2)] [dep 0] [veh 2 [1; 1]] [zeros 3] [zeros 3] in
  let s := sc d [[0]; [1]]%nat in
  (p_numLoadDimensions d, so_isFeasible s, so_hasExcessLoad s) = (2%nat, false, true) /\
  (map r_excessLoad (so_routes s), so_excessLoad s, solution_penalised (evaluator_of [10; 10] 0 0) s) = ([[1; 0]; [2; 1]], [3; 1], 10 * (1 + 2) + 10 * (0 + 1)).
Proof. run. Qed.
Definition fixedTypes := with_vehicles okSmall [veh 2 [10]; v_costs 10 1 0 0 (veh 2 [10])].
Example test_cost_with_fixed_vehicle_cost :
  map (fun x => let s := ok no_solution (sr fixedTypes [([0; 1], fst x); ([2; 3], snd x)]%nat) in let e := evaluator_of [1] 1 0 in
    (so_isFeasible s, solution_cost e s - so_distance s, solution_penalised e s - so_distance s, so_fixedCost s)) [(0, 0); (0, 1); (1, 1)]%nat =
  [(true, 0, 0, 0); (true, 10, 10, 10); (true, 20, 20, 20)].
Proof. run. Qed.
Definition unitTypes := with_vehicles okSmall [v_costs 0 5 1 0 (veh 1 [10]); v_costs 0 1 5 0 (veh 1 [10])].
Example test_unit_distance_duration_cost :
  let s := ok no_solution (sr unitTypes [([0; 1], 0); ([2; 3], 1)]%nat) in
  (so_isFeasible s, so_distance s, so_duration s, so_distanceCost s, so_durationCost s, solution_penalised (evaluator_of [1] 1 0) s) =
  (true, 5501 + 4224, 6221 + 5004, 31729, 31241, 31729 + 31241).
Proof. run. Qed.

(** ** tests/test_Solution.py *)
Example test_route_constructor_raises_for_empty_routes :
  map (fun x => fails (make_solution_clients okSmall x)) [[[2; 3]; [0; 1]; []]; [[2; 3]; []; [0; 1]]]%nat = [true; true].
Proof. run. Qed.
Example test_route_constructor_with_different_vehicle_types :
  let d := with_vehicles okSmall [veh 1 [10]; veh 2 [20]] in let s := ok no_solution (sr d [([2; 3], 0); ([0; 1], 1)]%nat) in
  map (fun r => (r_acts r, r_vehicleType r)) (so_routes s) = [([C 2; C 3], 0%nat); ([C 0; C 1], 1%nat)].
Proof. run. Qed.
Definition rnd (d : pdata) (seed : Z) : solution := ok no_solution (snd (make_random d (rng_seed seed))).
Example test_random_constructor_cycles_over_routes : map r_numClients (so_routes (rnd okSmall 42)) = [2; 2]%nat.
Proof. run. Qed.
Example test_random_constructor_uses_all_routes :
  map (fun n => map r_numClients (so_routes (rnd (with_vehicles okSmall [veh n [10]]) 42))) [4; 5; 1000]%nat = repeat [1; 1; 1; 1]%nat 3.
Proof. run. Qed.
Example test_random_constructor_uses_all_vehicle_types :
  let s := rnd (with_vehicles okSmall [veh 4 [10]; veh 4 [10]]) 42 in
  forallb (fun t => existsb (fun r => Nat.eqb t (r_vehicleType r)) (so_routes s)) [0; 1]%nat = true.
Proof. run. Qed.
(** The average over 100 random solutions is within 0.1 of 2.5. *)
Fixpoint rnds (d : pdata) (r : rng) (n : nat) : list solution :=
  match n with O => [] | S n => let '(r, s) := make_random d r in ok no_solution s :: rnds d r n end.
Example test_random_constructor_randomly_selects_optional_clients :
  let total := zsum (map (fun s => Z.of_nat (so_numClients s)) (rnds okPrizes (rng_seed 42) 100)) in
  (240 <=? total, total <=? 260) = (true, true).
Proof. run. Qed.
Example test_route_constructor_raises_too_many_vehicles :
  let n := fun x => match x with Ok s => Some (so_numRoutes s) | Err _ => None end in
  let d := with_vehicles okSmall [veh 2 [10]; veh 1 [20]] in
  map (fun x => n (make_solution_clients okSmall x)) [[[0; 1]; [3; 2]]; [[0; 1]; [3]; [2]]; [[0]; [1]; [2]; [3]]]%nat = [Some 2; Some 3; None]%nat /\
  map (fun x => n (make_solution_clients d x)) [[[0; 1]; [3; 2]]; [[0; 1]; [3]; [2]]]%nat = [Some 2%nat; None] /\
  map (fun x => n (sr d x)) [[([0; 1], 0); ([3; 2], 1)]; [([0], 0); ([1], 0); ([3; 2], 1)]; [([0; 1], 1); ([3; 2], 1)]]%nat = [Some 2; Some 3; None]%nat.
Proof. run. Qed.
Example test_route_constructor_raises_for_multiple_visits :
  map (fun x => fails (make_solution_clients okSmall x)) [[[0; 1]; [0; 2; 3]]; [[0; 1]; [0; 2; 3]; [0]]]%nat = [true; true].
Proof. run. Qed.
Example test_route_constructor_allows_incomplete_solutions :
  map (fun x => let s := sc okPrizes x in (so_isComplete s, so_isFeasible s)) [[[1]; [2; 3]]; [[0]; [1; 2; 3]]; [[0]]]%nat =
  [(false, false); (true, false); (true, true)].
Proof. run. Qed.
Example test_feasibility :
  map (fun x => let s := sc okSmall x in (so_isFeasible s, so_hasExcessLoad s, so_hasTimeWarp s)) [[[0; 1; 2; 3]]; [[0; 1]; [2]; [3]]]%nat =
  [(false, true, true); (true, false, false)].
Proof. run. Qed.
Example test_feasibility_release_times :
  (let s := sc okRelease [[0; 1]; [2]; [3]]%nat in (so_isFeasible s, so_timeWarp s)) = (false, 4396) /\ so_isFeasible (sc okRelease [[0]; [1; 2]; [3]]%nat) = true.
Proof. run. Qed.
Example test_feasibility_shift_duration :
  let v := [[0; 1]; [2; 3]]%nat in let s := sc (with_vehicles okSmall [v_shifts 3000 0 (veh 4 [10])]) v in
  (so_isFeasible (sc okSmall v), map r_duration (so_routes s), so_timeWarp s, map r_isFeasible (so_routes s), so_isFeasible s) =
  (true, [6221; 5004], 5225, [false; false], false).
Proof. run. Qed.
Example test_feasibility_max_distance :
  let s := sc (with_vehicles okSmall [v_maxd 5000 (veh 4 [10])]) [[0; 1]; [2; 3]]%nat in
  map (fun r => (r_distance r, r_excessDistance r, r_hasTimeWarp r, r_isFeasible r)) (so_routes s) = [(5501, 501, false, false); (4224, 0, false, true)] /\
  (so_excessDistance s, so_hasExcessDistance s, so_isFeasible s) = (501, true, false).
Proof. run. Qed.
Example test_distance_calculation :
  let s := sc okSmall [[0; 1]; [2]; [3]]%nat in let m i j := p_dist okSmall 0 (Z.to_nat i) (Z.to_nat j) in
  (so_isFeasible s, map r_isFeasible (so_routes s), so_distance s) = (true, [true; true; true], zsum (map r_distance (so_routes s))) /\
  map r_distance (so_routes s) = [m 0 1 + m 1 2 + m 2 0; m 0 3 + m 3 0; m 0 4 + m 4 0].
Proof. run. Qed.
Example test_excess_load_calculation :
  let s := sc okSmall [[3; 2; 0; 1]]%nat in (so_hasExcessLoad s, so_hasTimeWarp s, so_excessLoad s) = (true, false, [18 - 10]).
Proof. run. Qed.
Example test_excess_load_calculation_with_multiple_load_dimensions :
  map (fun x => let '(d1, d2, cap) := x in let m := mat [[0; 1; 2]; [1; 0; 1]; [2; 1; 0]] in
    let s := sc (data 3 [c_dem d1 [0; 0] (cli 1); c_dem d2 [0; 0] (cli 2)] [dep 0] [veh 1 cap] [m] [m]) [[0; 1]]%nat in (so_hasExcessLoad s, so_excessLoad s))
    [([10; 1], [1; 10], [5; 5]); ([1; 10], [10; 1], [5; 5]); ([10; 10], [1; 1], [5; 5]); ([10; 1], [1; 10], [11; 5]); ([10; 1], [1; 10], [5; 11])] =
  [(true, [6; 6]); (true, [6; 6]); (true, [6; 6]); (true, [0; 6]); (true, [6; 0])].
Proof. run. Qed.
Example test_time_warp_for_a_very_constrained_problem :
  map (fun k => let d := data 3 [c_tw 0 5 0 0 (cli 1); c_tw 0 5 0 0 (cli 2)] [dep 0] [v_tw 0 10 10 (veh 2 [])]
      [mat [[0; k; k]; [k; 0; k]; [k; k; 0]]] [mat [[0; 1; 10]; [1; 0; 1]; [1; 1; 0]]] in
    map (fun v => let s := sc d v in (so_hasTimeWarp s, so_hasExcessLoad s, so_isFeasible s)) [[[0]; [1]]; [[0; 1]]]%nat) [100; 1; 1000] =
  repeat [(true, false, false); (false, false, true)] 3.
Proof. run. Qed.
Example test_time_warp_return_to_depot :
  let s := sc (data 2 [cli 1] [dep 0] [v_tw 0 1 1 (veh 1 [])] [zeros 2] [mat [[0; 1]; [1; 0]]]) [[0]]%nat in
  (map r_duration (so_routes s), so_timeWarp s) = ([2], 1).
Proof. run. Qed.
Example tests_that_not_specifying_the_vehicle_type_assumes_a_default :
  let n := fun x => match x with Ok s => Some (so_numRoutes s) | Err _ => None end in
  let d := with_vehicles okSmall [veh 2 [10]; veh 1 [20]] in
  map (fun x => n (make_solution_clients d x)) [[[0; 1; 2; 3]]; [[0; 1]; [2; 3]]; [[0]; [1]; [2; 3]]]%nat = [Some 1; Some 2; None]%nat /\
  map (fun x => n (sr d x)) [[([0; 1; 2; 3], 0)]; [([0], 0); ([1], 0); ([2; 3], 1)]; [([0], 0); ([1], 1); ([2; 3], 1)]]%nat = [Some 1; Some 3; None]%nat.
Proof. run. Qed.
Example test_eq :
  let s := sc okSmall in
  map (fun x => solution_eqb (s (fst x)) (s (snd x)))
    [([[0; 1; 2; 3]], [[0; 1; 2; 3]]); ([[0; 1; 2; 3]], [[0; 1]; [2]; [3]]); ([[0; 1; 2]; [3]], [[3]; [0; 1; 2]])]%nat = [true; false; true].
Proof. run. Qed.
Example test_eq_with_multiple_vehicle_types :
  let d := with_vehicles okSmall [veh 2 [20]; veh 1 [30]] in let s x := ok no_solution (sr d x) in
  (solution_eqb (sc d [[0; 1; 2; 3]]) (s [([0; 1; 2; 3], 0)]), solution_eqb (s [([0; 1; 2; 3], 0)]) (s [([0; 1; 2; 3], 1)]))%nat = (true, false) /\
  (solution_eqb (s [([0; 1], 0); ([2; 3], 1)]) (s [([2; 3], 1); ([0; 1], 0)]), solution_eqb (s [([0; 1], 0); ([2; 3], 1)]) (s [([0; 1], 1); ([2; 3], 0)]))%nat = (true, false).
Proof. run. Qed.
Example test_eq_unassigned :
  let m := mat [[0; 1; 1]; [1; 0; 1]; [1; 1; 0]] in
  let d := data 3 [c_opt 0 false None (cli 1); c_opt 0 false None (cli 2)] [dep 0] [veh 2 []] [m] [m] in
  (solution_eqb (sc d [[0]]) (sc d [[0]]), solution_eqb (sc d [[0]]) (sc d [[1]]))%nat = (true, false).
Proof. run. Qed.
Example test_duplicate_vehicle_types :
  let d := with_vehicles okSmall [veh 1 [10]; veh 1 [10]] in
  solution_eqb (ok no_solution (sr d [([0; 1; 2; 3], 0)]%nat)) (ok no_solution (sr d [([0; 1; 2; 3], 1)]%nat)) = false.
Proof. run. Qed.
Example test_hash : match rnds okSmall (rng_seed 2) 2 with [a; b] => (solution_eqb a b, solution_eqb b b) | _ => (true, true) end = (false, true).
Proof. run. Qed.
Definition grouped01 (required : bool) : pdata :=
  with_groups (with_clients okSmall (c_opt 0 false (Some 0%nat) (c_dem [0] [0] (cli 1)) :: c_opt 0 false (Some 0%nat) (c_dem [0] [0] (cli 2)) :: skipn 2 (p_clients okSmall)))
    [mk_cgroup [0; 1]%nat required EmptyString].
Example test_solution_feasibility_with_mutually_exclusive_groups :
  map (fun x => let s := sc (grouped01 true) x in (so_isFeasible s, so_missingGroups s)) [[[0]; [2; 3]]; [[1]; [2; 3]]; [[2; 3]]]%nat =
  [(true, 0); (true, 0); (false, 1)]%nat.
Proof. run. Qed.
Example test_optional_mutually_exclusive_group :
  let s := sc (grouped01 false) [[2; 3]]%nat in (so_isFeasible s, so_missingGroups s) = (true, 0%nat).
Proof. run. Qed.
Example test_distance_duration_cost_calculations_sol :
  let s := ok no_solution (sr unitTypes [([0; 1], 0); ([2; 3], 1)]%nat) in let sum f := zsum (map f (so_routes s)) in
  (so_distance s, so_distanceCost s, so_duration s, so_durationCost s) = (sum r_distance, sum r_distanceCost, sum r_duration, sum r_durationCost).
Proof. run. Qed.
Example test_overtime :
  let r := rc okOvertime [1; 3]%nat 0 in let s := ok no_solution (make_solution okOvertime [r]) in
  (r_hasTimeWarp r, r_duration r, r_overtime r, r_durationCost r) = (false, 5229, 229, 1 * 5229 + 10 * 229) /\
  (so_hasTimeWarp s, so_overtime s, so_duration s, so_durationCost s) = (false, r_overtime r, r_duration r, r_durationCost r).
Proof. run. Qed.
Example test_raises_duplicate_group :
  map (fun x => fails (make_solution_clients okGroups x)) [[[1; 2]]; [[1]]; [[2]]]%nat = [true; false; false].
Proof. run. Qed.
Example test_is_complete : map (fun v => so_isComplete (sc okGroups [v])) [[0; 3]; [0]; [3]]%nat = [true; false; false].
Proof. run. Qed.
Example test_make_random : forallb (fun seed => so_isComplete (rnd okGroups seed)) [0; 1; 2; 3; 4; 5; 6; 7; 8; 9] = true.
Proof. run. Qed.
Example test_unplanned :
  map (fun v => let s := sc okSmall [v] in (so_missingClients s, so_unplanned s)) [[0; 1]; [1; 2]; [0; 1; 2; 3]]%nat =
  [(2, [C 2; C 3]); (2, [C 0; C 3]); (0, [])]%nat.
Proof. run. Qed.
Definition ship (i : nat) : route := rt smallShipments [L i; U i] 0.
Example test_shipments :
  let s := ok no_solution (make_solution smallShipments [ship 1; ship 2]) in
  (so_numClients s, so_numShipments s, so_missingShipments s, so_isComplete s, so_isFeasible s, so_unplanned s) =
  (0%nat, 2%nat, 2%nat, false, false, [L 0; U 0; L 3; U 3]).
Proof. run. Qed.
Example test_shipment_prizes :
  map (fun rs => let s := ok no_solution (make_solution smallOptional rs) in (so_prizes s, so_uncollected s)) [[]; [rt smallOptional [L 0; U 0] 0]] =
  [(0, 23000); (10000, 13000)].
Proof. run. Qed.
Example test_raises_multiple_shipment_visits : (r_isFeasible (ship 0), fails (make_solution smallShipments [ship 0; ship 0])) = (true, true).
Proof. run. Qed.
Example test_random_sol_with_shipments :
  map (fun seed => let s := rnd smallShipments seed in (so_numShipments s, so_missingShipments s, so_isComplete s)) [0; 1; 2; 3; 4; 5; 6; 7; 8; 9] =
  repeat (4, 0, true)%nat 10.
Proof. run. Qed.
