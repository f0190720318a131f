(** The model on the inputs of the operators' tests (tests/search/test_Relocate.py and the others); see TestData.v.
    Each example has the name of the test, and the values on the right are those that the test expects.
    Where a test makes loose routes, the model has them as the first routes of a search solution. *)
From Coq Require Import ZArith List String Bool.
From Verif Require Import Base DurationSegment Data DataCtor LoadSegment Route SearchRoute Cost TestData TestRoute Ops Solve.
Import ListNotations.
Local Open Scope Z_scope.

(** op.evaluate(U, V, cost_evaluator), and the routes after op.apply(U, V). *)
Definition b_eval (d : pdata) (ev : evaluator) (o : binary) (p : plan) (u : activity) (v : vref) : Z * bool :=
  fst (fst (eval_binary d ev o (sync d p) rc_none u v)).
Definition b_apply (d : pdata) (ev : evaluator) (o : binary) (p : plan) (u : activity) (v : vref) : plan :=
  apply_binary o (snd (fst (eval_binary d ev o (sync d p) rc_none u v))) p u v.
Definition u_eval (d : pdata) (ev : evaluator) (o : unary) (p : plan) (u : activity) : Z * bool := fst (eval_unary d ev o (sync d p) u).
Definition u_apply (d : pdata) (ev : evaluator) (o : unary) (p : plan) (u : activity) : plan :=
  apply_unary o (snd (eval_unary d ev o (sync d p) u)) p u.
Definition dist (d : pdata) (p : plan) (r : nat) : Z := ca_distance (cache_at (sync d p) r).
Definition excd (d : pdata) (p : plan) (r : nat) : Z := ca_excessDistance (cache_at (sync d p) r).
Definition ev0 := evaluator_of [0] 0 0.
Definition evn := evaluator_of [] 0 0.
Definition at_v (a : activity) : vref := VAct a.
Definition INT_MAX : Z := 9223372036854775807.

(** ** tests/search/test_Relocate.py *)
Example test_relocate_after_depot_should_work :
  let e := evaluator_of [20] 6 0 in let p := [[C 0; C 1; C 2]; []] in
  (fst (b_eval okSmall e (BRelocate 1) p (C 2) (VStart 1)) <? 0, snd (b_eval okSmall e (BRelocate 1) p (C 2) (VStart 1)),
   b_apply okSmall e (BRelocate 1) p (C 2) (VStart 1)) = (true, true, [[C 0; C 1]; [C 2]]).
Proof. run. Qed.
Example test_relocate_fixed_vehicle_cost :
  map (fun x => let '(n, fixed) := x in
    b_eval (with_vehicles okSmall [v_costs fixed 1 0 0 (veh 2 [10])]) (evaluator_of [1] 1 0) (BRelocate n) [[C 1; C 3; C 0; C 2]; []] (C 1) (VStart 1))
    [(1%nat, 0); (1%nat, 100); (2%nat, 0); (2%nat, 9); (3%nat, 53); (3%nat, 997)] =
  [(2346, false); (2446, false); (1417, false); (1426, false); (188, false); (1132, false)].
Proof. run. Qed.
Example test_relocate_with_duration_constraint :
  map (fun x => let d := with_vehicles okSmall [v_shifts x 0 (veh 2 [10])] in let p := [[C 1; C 3]; [C 0; C 2]] in
    (ca_duration (cache_at (sync d p) 0), ca_duration (cache_at (sync d p) 1), b_eval d (evaluator_of [1] 1 0) (BRelocate 2) p (C 1) (VAct (C 0))))
    [0; 5000] = [(5229, 5814, (-4044, true)); (5229, 5814, (956, false))].
Proof. run. Qed.
(** One unit of distance between any two places. *)
Definition ones (n : nat) : matrix := mat (map (fun i => map (fun j => if Nat.eqb i j then 0 else 1) (seq 0 n)) (seq 0 n)).
Definition spd : pdata := data 4 [c_dem [0] [5] (cli 1); c_dem [0] [0] (cli 2); c_dem [5] [0] (cli 3)] [dep 0] [veh 1 [5]] [ones 4] [zeros 4].
Example test_within_route_simultaneous_pickup_and_delivery :
  let p := [[C 0; C 1; C 2]] in
  (ca_excessLoad (cache_at (sync spd p) 0), b_eval spd (evaluator_of [1] 1 0) (BRelocate 1) p (C 0) (VAct (C 2))) = ([5], (-5, true)).
Proof. run. Qed.
Example test_relocate_max_distance :
  map (fun x => let d := with_vehicles okSmall [v_maxd x (veh 2 [10])] in let e := evaluator_of [0] 0 10 in let p := [[C 0; C 1]; []] in
    let q := b_apply d e (BRelocate 1) p (C 1) (VStart 1) in
    (b_eval d e (BRelocate 1) p (C 1) (VStart 1), (dist d p 0, excd d p 0 =? Z.max (5501 - x) 0),
     (dist d q 0, excd d q 0 =? Z.max (3270 - x) 0), (dist d q 1, excd d q 1 =? Z.max (3909 - x) 0))) [5000; 2500; 0] =
  map (fun x => ((x, x <? 0), (5501, true), (3270, true), (3909, true))) [-3332; -6542; 18458].
Proof. run. Qed.
Example test_supports_relocate :
  (supports okSmall (OBinary (BRelocate 1)), supports smallShipments (OBinary (BRelocate 2)), supports smallShipments (OBinary (BRelocate 1))) =
  (true, true, false).
Proof. run. Qed.
Example test_bug_release_time_shift_time_windows :
  let c := c_tw 2 MAXV 0 2 (cli 0) in let d := data 1 [c; c] [dep 0] [veh 1 []; v_tw 0 1 1 (veh 1 [])] [zeros 1] [zeros 1] in let p := [[C 0]; [C 1]] in
  (ca_timeWarp (cache_at (sync d p) 0), ca_timeWarp (cache_at (sync d p) 1), b_eval d (evaluator_of [] 1 0) (BRelocate 1) p (C 0) (VStart 1)) =
  (0, 2, (0, false)).
Proof. run. Qed.
Example test_empty_route_delta_cost_bug :
  let m := mat [[0; 5; 0]; [5; 0; 0]; [0; 0; 0]] in
  let d := data 3 [cli 2] [dep 0; dep 1] [veh 1 []; v_ends 0 1 (v_shifts 0 0 (veh 1 []))] [m] [m] in
  b_eval d (evaluator_of [] 1 1) (BRelocate 1) [[C 0]; []] (C 0) (VStart 1) = (0, false).
Proof. run. Qed.
Example test_relocate_overtime :
  let p := [[C 0; C 2]; []] in
  (ca_duration (cache_at (sync okOvertime p) 0), Z.max (ca_duration (cache_at (sync okOvertime p) 0) - v_shift (veh0 okOvertime)) 0, b_eval okOvertime ev0 (BRelocate 1) p (C 2) (VStart 1)) =
  (5814, 814, (3630 + 4414 - (5814 + 10 * 814), true)).
Proof. run. Qed.
Example test_skip_unassigned_clients : b_eval okSmall ev0 (BRelocate 1) [[C 0; C 1]] (C 2) (VStart 0) = (0, false).
Proof. run. Qed.
Definition ships (l : list nat) : list activity := flat_map (fun i => [L i; U i]) l.
Example test_relocate_shipment :
  let p := [ships [1; 0; 2; 3]]%nat in let e u := b_eval smallShipments ev0 (BRelocate 2) p u (VStart 0) in
  let q := b_apply smallShipments ev0 (BRelocate 2) p (L 3) (VStart 0) in
  (dist smallShipments p 0, e (U 1), e (U 0), e (U 2), e (L 3), dist smallShipments q 0, q) =
  (64267, (0, false), (0, false), (0, false), (-13838, true), 50429, [ships [3; 1; 0; 2]%nat]).
Proof. run. Qed.
Definition fixedSh (z : Z) (d : pdata) : pdata := with_vehicles d [v_costs z 1 0 0 (veh0 d)].
Example test_relocate_shipment_fixed_cost :
  let d := fixedSh 10000 smallShipments in let p := [ships [0]; ships [3]]%nat in let q := b_apply d ev0 (BRelocate 2) p (L 0) (VAct (U 3)) in
  (dist d p 0 + dist d p 1, b_eval d ev0 (BRelocate 2) p (L 0) (VAct (U 3)), dist d q 0, dist d q 1, q) =
  (29265, (-11902, true), 0, 29265 - 1902, [[]; ships [3; 0]%nat]).
Proof. run. Qed.

(** ** tests/search/test_Swap.py *)
Example test_swap_with_duration_constraint :
  map (fun x => b_eval (with_vehicles okSmall [v_shifts x 0 (veh 2 [10])]) (evaluator_of [1] 1 0) (BSwap 2 1) [[C 1; C 3]; [C 0; C 2]] (C 1) (VAct (C 0)))
    [0; 5000] = [(-693, true); (-596, true)].
Proof. run. Qed.
Example test_swap_within_route_simultaneous_pickup_and_delivery :
  b_eval spd (evaluator_of [1] 1 0) (BSwap 1 1) [[C 0; C 1; C 2]] (C 0) (VAct (C 2)) = (-5, true).
Proof. run. Qed.
Example test_swap_max_distance :
  map (fun x => let d := with_vehicles okSmall [v_maxd x (veh 2 [10])] in let e := evaluator_of [0] 0 10 in let p := [[C 0; C 1]; [C 2]] in
    let q := b_apply d e (BSwap 1 1) p (C 1) (VAct (C 2)) in
    (b_eval d e (BSwap 1 1) p (C 1) (VAct (C 2)), (dist d p 0, dist d p 1, dist d q 0, dist d q 1),
     excd d q 0 =? Z.max (5034 - x) 0, excd d q 1 =? Z.max (3909 - x) 0)) [5000; 2500; 0] =
  map (fun x => ((x, true), (5501, 3994, 5034, 3909), true, true)) [-5222; -6072; -6072].
Proof. run. Qed.
Example test_swap_with_different_profiles :
  let d1 i j := p_dist okTwoProfiles 0 i j in let d2 i j := p_dist okTwoProfiles 1 i j in
  let p := [[C 2]; []; []; [C 3]] in
  b_eval okTwoProfiles ev0 (BSwap 1 1) p (C 2) (VAct (C 3)) =
  (d1 0%nat 4%nat + d1 4%nat 0%nat + d2 0%nat 3%nat + d2 3%nat 0%nat - (dist okTwoProfiles p 0 + dist okTwoProfiles p 3), false).
Proof. run. Qed.
Example test_swap_does_not_swap_depots : b_eval okTrips ev0 (BSwap 2 1) [[C 0; C 1; D 0; C 2; C 3]] (C 1) (VAct (C 2)) = (0, false).
Proof. run. Qed.
Example test_bug_evaluating_move_with_initial_load :
  let d := data 4 [c_dem [1] [0] (cli 1); c_dem [1] [0] (cli 2); c_dem [0] [0] (cli 3)] [dep 0] [v_init [5] (veh 2 [5])] [zeros 4] [zeros 4] in
  (p_numClients d, b_eval d (evaluator_of [1] 0 0) (BSwap 2 1) [[C 1; C 2]; [C 0]] (C 1) (VAct (C 0))) = (3%nat, (0, false)).
Proof. run. Qed.
Example test_supports_swap :
  map (fun o => supports okSmall (OBinary o)) [BSwap 2 1; BSwap 3 3] = [true; true] /\
  map (fun o => supports smallShipments (OBinary o)) [BSwap 2 2; BSwap 1 1; BSwap 2 1] = [true; false; false].
Proof. run. Qed.
Example test_swap_shipment :
  let p := [ships [1; 0; 2; 3]]%nat in let e u v := b_eval smallShipments ev0 (BSwap 2 2) p u v in
  let q := b_apply smallShipments ev0 (BSwap 2 2) p (L 0) (VAct (L 3)) in
  (e (U 1) (VStart 0), e (U 0) (VStart 0), e (U 2) (VStart 0), e (L 0) (VAct (L 3)), dist smallShipments q 0, q) =
  ((0, false), (0, false), (0, false), (-5622, true), 58645, [ships [1; 3; 2; 0]%nat]).
Proof. run. Qed.

(** ** tests/search/test_SwapTails.py *)
Definition tails_fixed : pdata := data 3 [cli 1; cli 2] [dep 0] [v_costs 10 1 0 0 (veh 1 []); v_costs 100 1 0 0 (veh 1 [])] [zeros 3] [zeros 3].
Example test_move_involving_empty_routes :
  let e p u v := b_eval tails_fixed evn BSwapTails p u v in
  (e [[C 0; C 1]; []] (C 1) (VStart 1), e [[C 0; C 1]; []] (C 0) (VStart 1), e [[]; [C 0; C 1]] (C 1) (VStart 0), e [[]; [C 0; C 1]] (C 0) (VStart 0)) =
  ((0, false), (100, false), (0, false), (10, false)).
Proof. run. Qed.
Example test_move_involving_multiple_depots :
  let d := data 4 [cli 2; cli 3] [dep 0; dep 1] [veh 1 []; v_ends 1 1 (veh 1 [])]
    [mat [[0; 10; 2; 8]; [10; 0; 8; 2]; [2; 8; 0; 6]; [8; 2; 6; 0]]] [zeros 4] in
  let p := [[C 1]; [C 0]] in let e := evaluator_of [] 1 0 in
  (dist d p 0, dist d p 1, b_eval d e BSwapTails p (C 1) (VAct (C 0)), b_eval d e BSwapTails p (C 1) (VStart 1)) = (16, 16, (0, false), (-16, true)).
Proof. run. Qed.
Example test_move_with_different_profiles :
  let d1 i j := p_dist okTwoProfiles 0 i j in let d2 i j := p_dist okTwoProfiles 1 i j in
  let p := [[C 2]; []; []; [C 1]] in
  (dist okTwoProfiles p 0, dist okTwoProfiles p 3, b_eval okTwoProfiles ev0 BSwapTails p (C 2) (VStart 3)) =
  (d1 0%nat 3%nat + d1 3%nat 0%nat, d2 0%nat 2%nat + d2 2%nat 0%nat,
   (d1 3%nat 2%nat + d1 2%nat 0%nat - d1 3%nat 0%nat - (d2 0%nat 2%nat + d2 2%nat 0%nat), true)).
Proof. run. Qed.
Example test_supports_tails :
  (supports okSmall (OBinary BSwapTails), supports (with_vehicles okSmall [veh 1 [10]]) (OBinary BSwapTails), supports smallShipments (OBinary BSwapTails)) =
  (true, false, false).
Proof. run. Qed.
(** small_shipments with clients at the given locations. *)
Definition mixedSh (l : list nat) : pdata := with_clients smallShipments (map (fun i => c_dem [0] [0] (cli i)) l).
Example test_skips_move_if_shipment_is_split_between_routes :
  let d := mixedSh [0%nat] in
  (supports d (OBinary BSwapTails), b_eval d ev0 BSwapTails [ships [0]; ships [1]]%nat (L 0) (VAct (U 1))) = (true, (0, false)).
Proof. run. Qed.

(** ** tests/search/test_InsertOptionalClient.py *)
Example test_skips_assigned_or_missing :
  let p := [[C 0; C 1]] in
  (b_eval okPrizes ev0 BInsertOptionalClient p (C 0) (VAct (C 1)), b_eval okPrizes ev0 BInsertOptionalClient p (C 2) (VAct (C 3))) = ((0, false), (0, false)).
Proof. run. Qed.
Definition optGroup : pdata :=
  ok no_data (make_pdata (locs 1) [c_opt 0 false (Some 0%nat) (cli 0)] [dep 0] [veh 1 []] [zeros 1] [zeros 1] [mk_cgroup [0%nat] false EmptyString] []).
Example test_supports_insert_client :
  map (fun d => supports d (OBinary BInsertOptionalClient)) [okSmall; okPrizes; okGroups; optGroup] = [false; true; false; true].
Proof. run. Qed.
Example test_group_skip_required : b_eval okGroups ev0 BInsertOptionalClient [[]; []; []] (C 0) (VStart 0) = (0, false).
Proof. run. Qed.
Example test_group_skip_duplicates :
  let c := c_opt 1 false (Some 0%nat) (cli 0) in
  let d := ok no_data (make_pdata (locs 1) [c; c] [dep 0] [veh 1 []] [zeros 1] [zeros 1] [mk_cgroup [0; 1]%nat false EmptyString] []) in
  let q := b_apply d evn BInsertOptionalClient [[]] (C 0) (VStart 0) in
  (b_eval d evn BInsertOptionalClient [[]] (C 0) (VStart 0), q, b_eval d evn BInsertOptionalClient q (C 1) (VStart 0)) = ((-1, true), [[C 0]], (0, false)).
Proof. run. Qed.
Definition twoFixed : pdata :=
  data 3 [c_opt 0 false None (cli 1); c_opt 0 false None (cli 2)] [dep 0] [v_costs 7 1 0 0 (veh 1 []); v_costs 13 1 0 0 (veh 1 [])] [zeros 3] [zeros 3].
Example test_insert_in_empty_routes_considers_fixed_vehicle_cost :
  map (fun r => b_eval twoFixed evn BInsertOptionalClient [[]; []] (C 0) (VStart r)) [0; 1]%nat = [(7, false); (13, false)].
Proof. run. Qed.

(** ** tests/search/test_InsertOptionalShipment.py *)
Example test_insert_delivery_not_adjacent :
  let p := [ships [0; 1]]%nat in let q := b_apply smallOptional ev0 BInsertOptionalShipment p (L 2) (VAct (L 1)) in
  (dist smallOptional p 0, b_eval smallOptional ev0 BInsertOptionalShipment p (L 2) (VAct (L 1)), dist smallOptional q 0, q) =
  (30857, (-3514, true), 37343, [[L 0; U 0; L 1; L 2; U 1; U 2]]).
Proof. run. Qed.
Example test_insert_into_empty_route : b_eval smallOptional ev0 BInsertOptionalShipment [[]] (L 0) (VStart 0) = (-429, true).
Proof. run. Qed.
Example test_fixed_cost_empty_routes : b_eval (fixedSh 250 smallOptional) ev0 BInsertOptionalShipment [[]] (L 0) (VStart 0) = (-179, true).
Proof. run. Qed.
Example test_insert_delivery_in_first_improving_place :
  let p := [ships [1]]%nat in let q := b_apply smallOptional ev0 BInsertOptionalShipment p (L 0) (VStart 0) in
  (dist smallOptional p 0, b_eval smallOptional ev0 BInsertOptionalShipment p (L 0) (VStart 0), dist smallOptional q 0, q) =
  (27732, (-6875, true), 30857, [ships [0; 1]%nat]).
Proof. run. Qed.
Example test_skip_if_shipment_already_in_route :
  b_eval smallShipments (evaluator_of [10] 0 0) BInsertOptionalShipment [ships [0; 1]]%nat (L 0) (VAct (L 1)) = (0, false).
Proof. run. Qed.
Example test_does_not_insert_across_depots :
  let d := with_vehicles smallOptional [v_rel [0%nat] SIZE_MAX (veh0 smallOptional)] in let p := [[L 1; U 1; D 0; L 2; U 2]] in
  (b_eval d ev0 BInsertOptionalShipment p (L 0) (VAct (U 1)), b_apply d ev0 BInsertOptionalShipment p (L 0) (VAct (U 1))) =
  ((-4361, true), [[L 1; U 1; L 0; U 0; D 0; L 2; U 2]]).
Proof. run. Qed.
Example test_skips_deliveries :
  (b_eval smallOptional ev0 BInsertOptionalShipment [ships [1]]%nat (U 0) (VAct (L 1)), b_eval smallOptional ev0 BInsertOptionalShipment [ships [1]]%nat (L 0) (VAct (L 1))) =
  ((0, false), (-1648, true)).
Proof. run. Qed.
Example test_supports_insert_shipment :
  map (fun d => supports d (OBinary BInsertOptionalShipment)) [smallOptional; smallShipments] = [true; false].
Proof. run. Qed.

(** ** tests/search/test_RelocateAlternative.py *)
Example test_relocate_alternative_within_route :
  let p := [[C 0; C 3]; []; []] in
  (b_eval okGroups ev0 BRelocateAlternative p (C 0) (VAct (C 3)), b_apply okGroups ev0 BRelocateAlternative p (C 0) (VAct (C 3))) =
  ((-81, true), [[C 3; C 1]; []; []]).
Proof. run. Qed.
Example test_relocate_alternative_between_routes :
  let p := [[C 0]; [C 3]; []] in
  (b_eval okGroups ev0 BRelocateAlternative p (C 0) (VAct (C 3)), b_apply okGroups ev0 BRelocateAlternative p (C 0) (VAct (C 3))) =
  ((-1690, true), [[]; [C 3; C 1]; []]).
Proof. run. Qed.
Example test_accounts_for_prizes_and_fixed_vehicle_costs :
  let d := ok no_data (make_pdata (locs 1) [c_opt 100 false (Some 0%nat) (cli 0); c_opt 250 false (Some 0%nat) (cli 0); cli 0] [dep 0]
    [v_costs 100 1 0 0 (veh 2 [])] [zeros 1] [zeros 1] [mk_cgroup [0; 1]%nat true EmptyString] []) in
  (b_eval d evn BRelocateAlternative [[C 0]; [C 2]] (C 0) (VAct (C 2)), b_eval d evn BRelocateAlternative [[C 0; C 2]; []] (C 0) (VStart 1)) =
  ((-250, true), (-50, true)).
Proof. run. Qed.
Example test_skips_client_not_in_group : b_eval okGroups ev0 BRelocateAlternative [[C 3; C 0]; []; []] (C 3) (VAct (C 0)) = (0, false).
Proof. run. Qed.
Example test_supports_alternative : map (fun d => supports d (OBinary BRelocateAlternative)) [okGroups; okSmall; okPrizes] = [true; false; false].
Proof. run. Qed.

(** ** tests/search/test_RelocateDelivery.py *)
Example test_relocate_just_after_pickup :
  let p := [[L 0; U 0; L 1; L 2; U 2; U 1]] in let q := u_apply smallShipments ev0 URelocateDelivery p (L 1) in
  (dist smallShipments p 0, u_eval smallShipments ev0 URelocateDelivery p (L 1), dist smallShipments q 0, q) =
  (45588, (-10580, true), 45588 - 10580, [ships [0; 1; 2]%nat]).
Proof. run. Qed.
Example test_relocate_just_before_depot :
  let d := mixedSh [2%nat] in let p := [[L 0; U 0; C 0]] in let q := u_apply d ev0 URelocateDelivery p (L 0) in
  (dist d p 0, u_eval d ev0 URelocateDelivery p (L 0), dist d q 0, q) = (11572, (-2001, true), 11572 - 2001, [[L 0; C 0; U 0]]).
Proof. run. Qed.
Definition reloadSh : pdata := with_vehicles (mixedSh [2; 1]%nat) [v_rel [0%nat] SIZE_MAX (veh0 smallShipments)].
Example test_reload_depot : u_eval reloadSh ev0 URelocateDelivery [[L 0; U 0; D 0; C 0; C 1]] (L 0) = (INT_MAX, false).
Proof. run. Qed.
Example test_relocate_skips_unassigned_nodes : u_eval smallShipments ev0 URelocateDelivery [[]] (L 0) = (0, false).
Proof. run. Qed.
Example test_relocate_skips_non_pickup_nodes :
  map (u_eval (mixedSh [0%nat]) ev0 URelocateDelivery [[C 0; L 0; U 0]]) [C 0; U 0] = [(0, false); (0, false)].
Proof. run. Qed.
Example test_supports_delivery : map (fun d => supports d (OUnary URelocateDelivery)) [smallShipments; smallOptional; okSmall] = [true; true; false].
Proof. run. Qed.
Example test_cannot_improve_singleton_route : u_eval smallShipments ev0 URelocateDelivery [ships [0]]%nat (L 0) = (INT_MAX, false).
Proof. run. Qed.

(** ** tests/search/test_RelocatePickup.py *)
Example test_relocate_just_before_delivery :
  let p := [[L 2; L 0; U 0; L 1; U 1; U 2]] in let q := u_apply smallShipments ev0 URelocatePickup p (L 2) in
  (dist smallShipments p 0, u_eval smallShipments ev0 URelocatePickup p (L 2), dist smallShipments q 0, q) =
  (43414, (-8406, true), 43414 - 8406, [ships [0; 1; 2]%nat]).
Proof. run. Qed.
Example test_relocate_just_after_depot :
  let d := mixedSh [1%nat] in let p := [[C 0; L 0; U 0]] in let q := u_apply d ev0 URelocatePickup p (L 0) in
  (dist d p 0, u_eval d ev0 URelocatePickup p (L 0), dist d q 0, q) = (14924, (-5353, true), 14924 - 5353, [[L 0; C 0; U 0]]).
Proof. run. Qed.
Example test_reload_depot_pickup : u_eval reloadSh ev0 URelocatePickup [[C 0; C 1; D 0; L 0; U 0]] (L 0) = (INT_MAX, false).
Proof. run. Qed.
Example test_relocate_skips_unassigned_pickups : u_eval smallShipments ev0 URelocatePickup [[]] (L 0) = (0, false).
Proof. run. Qed.
Example test_relocate_pickup_skips_others : map (u_eval (mixedSh [0%nat]) ev0 URelocatePickup [[C 0; L 0; U 0]]) [C 0; U 0] = [(0, false); (0, false)].
Proof. run. Qed.
Example test_supports_pickup : map (fun d => supports d (OUnary URelocatePickup)) [smallShipments; smallOptional; okSmall] = [true; true; false].
Proof. run. Qed.
Example test_cannot_improve_singleton_pickup : u_eval smallShipments ev0 URelocatePickup [ships [0]]%nat (L 0) = (INT_MAX, false).
Proof. run. Qed.

(** ** tests/search/test_RelocateShipment.py *)
Example test_skip_same_route : b_eval smallShipments ev0 BRelocateShipment [ships [0; 1]]%nat (L 0) (VAct (L 1)) = (0, false).
Proof. run. Qed.
Example test_skip_unassigned : b_eval smallShipments ev0 BRelocateShipment [[]] (L 0) (VStart 0) = (0, false).
Proof. run. Qed.
Example test_skip_non_pickup : b_eval (mixedSh [2%nat]) ev0 BRelocateShipment [[C 0]; ships [0%nat]] (C 0) (VAct (L 0)) = (0, false).
Proof. run. Qed.
Example test_fixed_cost_when_emptying_a_route :
  let d := fixedSh 10000 (mixedSh [2%nat]) in let p := [[C 0]; ships [0%nat]] in let q := b_apply d ev0 BRelocateShipment p (L 0) (VAct (C 0)) in
  (dist d p 0 + dist d p 1, b_eval d ev0 BRelocateShipment p (L 0) (VAct (C 0)), dist d q 0 + dist d q 1, q) =
  (13789, (-14218, true), 13789 - 4218, [[C 0; L 0; U 0]; []]).
Proof. run. Qed.
Example test_fixed_cost_relocating_into_empty_route :
  let d := fixedSh 1000 smallShipments in let p := [ships [1; 0; 2]%nat; []] in let q := b_apply d ev0 BRelocateShipment p (L 0) (VStart 1) in
  (dist d p 0 + dist d p 1, b_eval d ev0 BRelocateShipment p (L 0) (VStart 1), dist d q 0 + dist d q 1, q) =
  (44712, (-2258, true), 44712 - 3258, [ships [1; 2]; ships [0]]%nat).
Proof. run. Qed.
Example test_relocate_non_adjacent_to_direct_sequence :
  let d := smallShipments in let p := [ships [1%nat]; [L 0; L 2; U 2; U 0]] in let q := b_apply d ev0 BRelocateShipment p (L 0) (VAct (U 1)) in
  (dist d p 0 + dist d p 1, b_eval d ev0 BRelocateShipment p (L 0) (VAct (U 1)), dist d q 0 + dist d q 1, q) =
  (50804, (-1275, true), 50804 - 1275, [ships [1; 0]; ships [2]]%nat).
Proof. run. Qed.
Example test_relocate_non_adjacent_delivery :
  let d := smallShipments in let p := [ships [2]; ships [0; 1]]%nat in let q := b_apply d ev0 BRelocateShipment p (L 2) (VAct (U 0)) in
  (dist d p 0 + dist d p 1, b_eval d ev0 BRelocateShipment p (L 2) (VAct (U 0)), dist d q 0 + dist d q 1, q) =
  (47015, (-1936, true), 47015 - 1936, [[]; [L 0; U 0; L 2; L 1; U 1; U 2]]).
Proof. run. Qed.
Example test_supports_relocate_shipment :
  map (fun d => supports d (OBinary BRelocateShipment)) [okSmall; smallShipments; smallOptional; with_vehicles smallShipments [veh 1 [0]]] =
  [false; true; true; false].
Proof. run. Qed.

(** ** tests/search/test_RelocateWithDepot.py *)
Example test_inserts_depot_single_route :
  let e := evaluator_of [500] 0 0 in let p := [[C 0; C 1; C 2; C 3]] in let q := b_apply okTrips e BRelocateWithDepot p (C 1) (VAct (C 2)) in
  (ca_excessLoad (cache_at (sync okTrips p) 0), b_eval okTrips e BRelocateWithDepot p (C 1) (VAct (C 2)), ca_excessLoad (cache_at (sync okTrips q) 0), q) =
  ([8], (-907, true), [0], [[C 0; C 2; D 0; C 1; C 3]]).
Proof. run. Qed.
(** The routes of this test are of the first vehicle type, which has one vehicle. *)
Definition okTrips2 : pdata := with_vehicles okTrips [v_num 3 (veh0 okTrips)].
Example test_inserts_depot_across_routes :
  let e := evaluator_of [500] 0 0 in let p := [[C 2]; [C 0; C 1; C 3]] in
  (b_eval okTrips2 e BRelocateWithDepot p (C 2) (VAct (C 0)), b_apply okTrips2 e BRelocateWithDepot p (C 2) (VAct (C 0))) =
  ((-3052, true), [[]; [C 0; C 2; D 0; C 1; C 3]]).
Proof. run. Qed.
Example test_reload_depot_before_or_after_relocate :
  map (fun x => let e := evaluator_of [x] 1 0 in let p := [[C 0; C 1; C 2; C 3]] in
    (fst (b_eval okTrips e BRelocateWithDepot p (C 0) (VAct (C 1))), b_apply okTrips e BRelocateWithDepot p (C 0) (VAct (C 1)))) [1000; 300] =
  [(-3897, [[C 1; C 0; D 0; C 2; C 3]]); (-54, [[C 1; D 0; C 0; C 2; C 3]])].
Proof. run. Qed.
Example test_inserts_best_reload_depot :
  let m := mat [[0; 0; 100; 100]; [0; 0; 0; 0]; [100; 0; 0; 0]; [100; 0; 0; 0]] in
  let d := data 4 [c_dem [5] [0] (cli 2); c_dem [5] [0] (cli 3)] [dep 0; dep 1] [v_init [0] (v_rel [0; 1]%nat SIZE_MAX (veh 1 [5]))] [m] [m] in
  let e := evaluator_of [500] 0 0 in
  (ca_excessLoad (cache_at (sync d [[C 0; C 1]]) 0), b_eval d e BRelocateWithDepot [[C 0; C 1]] (C 0) (VAct (C 1)),
   b_apply d e BRelocateWithDepot [[C 0; C 1]] (C 0) (VAct (C 1))) = ([5], (-2500, true), [[C 1; D 1; C 0]]).
Proof. run. Qed.
Example test_fixed_vehicle_cost :
  let d := data 1 [c_dem [5] [0] (cli 0); c_dem [4] [0] (cli 0)] [dep 0] [v_init [0] (v_costs 2000 1 0 0 (v_rel [0%nat] 1 (veh 2 [4])))] [zeros 1] [zeros 1] in
  b_eval d ev0 BRelocateWithDepot [[C 0]; [C 1]] (C 0) (VAct (C 1)) = (-2000, true).
Proof. run. Qed.
Example test_does_not_evaluate_if_already_max_trips :
  let p := [[C 2; D 0; C 0; C 1; C 3]] in
  (ca_excessLoad (cache_at (sync okTrips p) 0), b_eval okTrips (evaluator_of [10000] 0 0) BRelocateWithDepot p (C 0) (VAct (C 1))) = ([5], (0, false)).
Proof. run. Qed.
Example test_can_insert_reload_after_start_depot :
  let d := data 1 [c_dem [1] [0] (cli 0); c_dem [1] [0] (cli 0)] [dep 0] [v_init [5] (v_rel [0%nat] SIZE_MAX (veh 1 [5]))] [zeros 1] [zeros 1] in
  let e := evaluator_of [1] 0 0 in
  (b_eval d e BRelocateWithDepot [[C 0; C 1]] (C 1) (VStart 0), b_apply d e BRelocateWithDepot [[C 0; C 1]] (C 1) (VStart 0)) =
  ((-2, true), [[D 0; C 1; C 0]]).
Proof. run. Qed.
Example test_can_insert_reload_before_end_depot :
  let m := mat [[0; 0; 0; 0]; [0; 0; 0; 0]; [10; 0; 0; 0]; [10; 0; 0; 0]] in
  let d := data 4 [cli 2; cli 3] [dep 0; dep 1] [v_rel [0; 1]%nat SIZE_MAX (veh 1 [])] [m] [zeros 4] in
  (b_eval d evn BRelocateWithDepot [[C 0; C 1]] (C 0) (VAct (C 1)), b_apply d evn BRelocateWithDepot [[C 0; C 1]] (C 0) (VAct (C 1))) =
  ((-10, true), [[C 1; C 0; D 1]]).
Proof. run. Qed.
Example test_supports_with_depot : map (fun d => supports d (OBinary BRelocateWithDepot)) [okSmall; okTrips] = [false; true].
Proof. run. Qed.
Example test_depot_service_duration :
  let d := with_matrices (with_vehicles (with_depots okTrips [mk_depot 0 0 MAXV 200 EmptyString]) [v_costs 0 1 1 0 (veh0 okTrips)]) [zeros 5] [zeros 5] in
  let e := evaluator_of [1000] 0 0 in let p := [[C 2; C 1; C 3; C 0]] in let q := b_apply d e BRelocateWithDepot p (C 2) (VAct (C 3)) in
  let f p := let c := cache_at (sync d p) 0 in (ca_excessLoad c, ca_duration c, ca_timeWarp c) in
  (f p, b_eval d e BRelocateWithDepot p (C 2) (VAct (C 3)), q, f q) =
  (([8], 200 + 360 + 360 + 360 + 420, 0), (-7800, true), [[C 1; C 3; D 0; C 2; C 0]], ([0], 2 * 200 + 360 + 360 + 360 + 420, 0)).
Proof. run. Qed.
Example test_does_not_insert_depot_in_between_shipments :
  let d := with_shipments okTrips2 [mk_shipment (mk_step 0 0 0 MAXV) (mk_step 2 0 0 MAXV) [0] 0 true EmptyString] in
  let e v p := b_eval d (evaluator_of [500] 0 0) BRelocateWithDepot [[C 2]; p] (C 2) v in
  (e (VAct (U 0)) [L 0; U 0; C 0; C 1; C 3], e (VAct (C 0)) [L 0; U 0; C 0; C 1; C 3], e (VAct (C 0)) [L 0; C 0; U 0; C 1; C 3]) =
  ((-1741, true), (-3052, true), (0, false)).
Proof. run. Qed.

(** ** tests/search/test_RemoveAdjacentDepot.py *)
Example test_cannot_remove_unassigned : u_eval okTrips (evaluator_of [1] 1 1) URemoveAdjacentDepot [[]] (C 0) = (0, false).
Proof. run. Qed.
Definition okTripsMax2 : pdata := with_vehicles okTrips [v_rel [0%nat] 2 (veh0 okTrips)].
Example test_removes_best_adjacent_depot :
  let p := [[C 0; D 0; C 1; D 0; C 2]] in
  (map (u_eval okTripsMax2 ev0 URemoveAdjacentDepot p) [C 0; C 1; C 2], u_apply okTripsMax2 ev0 URemoveAdjacentDepot p (C 2)) =
  ([(-1678, true); (-3275, true); (-3275, true)], [[C 0; D 0; C 1; C 2]]).
Proof. run. Qed.
Example test_removes_consecutive_depots : u_eval okTripsMax2 ev0 URemoveAdjacentDepot [[C 0; D 0; D 0; C 1]] (C 0) = (0, true).
Proof. run. Qed.
Example test_supports_adjacent : map (fun d => supports d (OUnary URemoveAdjacentDepot)) [okSmall; okTrips] = [false; true].
Proof. run. Qed.
Example test_remove_reload_depot :
  u_eval okTrips (evaluator_of [1000] 0 0) URemoveAdjacentDepot [[C 0; C 1; D 0; C 2; C 3]] (C 1) = (8000 - 3275, false).
Proof. run. Qed.
Example test_remove_reload_depots_service_duration :
  let d := with_vehicles (with_depots okTrips [mk_depot 0 0 MAXV 90 EmptyString]) [v_costs 0 1 1 0 (v_rel [0%nat] 2 (veh0 okTrips))] in
  map (u_eval d ev0 URemoveAdjacentDepot [[C 0; C 1; D 0; D 0; C 2; C 3]]) [C 1; C 2] = [(-90, true); (-90, true)].
Proof. run. Qed.

(** ** tests/search/test_RemoveOptionalClient.py *)
Example test_does_not_remove_required_clients :
  let d := data 3 [c_dem [100] [0] (cli 1); c_opt 0 false None (c_dem [0] [0] (cli 2))] [dep 0] [v_init [0] (veh 1 [50])]
    [twice (mk_matrix 3 3 (map (Z.mul 5) (m_data (ones 3))))] [zeros 3] in
  let e := evaluator_of [100] 100 0 in let p := [[C 0; C 1]] in
  (map (u_eval d e URemoveOptionalClient p) [C 0; C 1], u_apply d e URemoveOptionalClient p (C 1)) = ([(0, false); (-10, true)], [[C 0]]).
Proof. run. Qed.
Example test_supports_remove_client :
  map (fun d => supports d (OUnary URemoveOptionalClient)) [okSmall; okPrizes; optGroup; okGroups] = [false; true; true; false].
Proof. run. Qed.
Example test_fixed_vehicle_cost_remove :
  (u_eval twoFixed evn URemoveOptionalClient [[C 0]; []] (C 0), u_eval twoFixed evn URemoveOptionalClient [[]; [C 0]] (C 0)) = ((-7, true), (-13, true)).
Proof. run. Qed.
Example test_remove : u_eval okPrizes (evaluator_of [1] 1 0) URemoveOptionalClient [[C 0; C 1]] (C 1) = (-2216, true).
Proof. run. Qed.
Example test_empty_route_delta_cost_bug_remove :
  let m := mat [[0; 5; 1]; [5; 0; 1]; [1; 1; 0]] in
  let d := data 3 [c_opt 0 false None (cli 2)] [dep 0; dep 1] [v_ends 0 1 (v_shifts 0 0 (veh 1 []))] [m] [m] in
  u_eval d (evaluator_of [] 1 1) URemoveOptionalClient [[C 0]] (C 0) = (-4, true).
Proof. run. Qed.
Example test_cannot_remove_required_group :
  let d := ok no_data (make_pdata (locs 3) [c_opt 0 false (Some 0%nat) (cli 1); c_opt 0 false (Some 1%nat) (cli 2)] [dep 0] [veh 1 []] [ones 3] [ones 3]
    [mk_cgroup [0%nat] false EmptyString; mk_cgroup [1%nat] true EmptyString] []) in
  (supports d (OUnary URemoveOptionalClient), map (u_eval d (evaluator_of [] 1 1) URemoveOptionalClient [[C 0; C 1]]) [C 0; C 1]) =
  (true, [(-1, true); (0, false)]).
Proof. run. Qed.
Example test_removing_last_client_in_route_with_reload_depots_and_service :
  let d := data 1 [c_opt 0 false None (cli 0)] [mk_depot 0 0 MAXV 50 EmptyString] [v_costs 0 1 1 0 (v_rel [0%nat] SIZE_MAX (veh 1 []))] [zeros 1] [zeros 1] in
  (ca_durationCost (cache_at (sync d [[C 0; D 0]]) 0), u_eval d evn URemoveOptionalClient [[C 0; D 0]] (C 0)) = (100, (-100, true)).
Proof. run. Qed.

(** ** tests/search/test_RemoveOptionalShipment.py *)
Example test_remove_optional_shipment :
  let p := [ships [1%nat]] in let q := u_apply smallOptional ev0 URemoveOptionalShipment p (L 1) in
  (dist smallOptional p 0, u_eval smallOptional ev0 URemoveOptionalShipment p (L 1), dist smallOptional q 0, q) = (27732, (-25732, true), 0, [[]]).
Proof. run. Qed.
Example test_fixed_cost_empty_routes_remove : u_eval (fixedSh 10000 smallOptional) ev0 URemoveOptionalShipment [ships [1%nat]] (L 1) = (-35732, true).
Proof. run. Qed.
Example test_cannot_remove_required_shipment : u_eval smallShipments ev0 URemoveOptionalShipment [ships [1%nat]] (L 1) = (0, false).
Proof. run. Qed.
Example test_skips_deliveries_remove : u_eval smallOptional ev0 URemoveOptionalShipment [ships [1%nat]] (U 1) = (0, false).
Proof. run. Qed.
Example test_supports_remove_shipment :
  map (fun d => supports d (OUnary URemoveOptionalShipment)) [okSmall; smallShipments; smallOptional] = [false; false; true].
Proof. run. Qed.
Example test_remove_non_adjacent :
  let p := [[L 1; L 2; U 2; U 1]] in let q := u_apply smallOptional ev0 URemoveOptionalShipment p (L 1) in
  (dist smallOptional p 0, u_eval smallOptional ev0 URemoveOptionalShipment p (L 1), dist smallOptional q 0, q) =
  (42463, (-24305, true), 42463 - 24305 - 2000, [ships [2%nat]]).
Proof. run. Qed.

(** ** tests/search/test_ReplaceGroup.py *)
Example test_replace :
  let p := [[C 0; C 3]; []; []] in
  (u_eval okGroups ev0 UReplaceGroup p (C 1), u_apply okGroups ev0 UReplaceGroup p (C 1)) = ((-103, true), [[C 1; C 3]; []; []]).
Proof. run. Qed.
Example test_replace_accounts_for_prizes :
  let d := ok no_data (make_pdata (locs 1) [c_opt 1 false (Some 0%nat) (cli 0); c_opt 5 false (Some 0%nat) (cli 0)] [dep 0] [veh 1 []] [zeros 1] [zeros 1]
    [mk_cgroup [0; 1]%nat true EmptyString] []) in
  u_eval d evn UReplaceGroup [[C 0]] (C 1) = (-4, true).
Proof. run. Qed.
Example test_supports_replace_group : map (fun d => supports d (OUnary UReplaceGroup)) [okGroups; okSmall; okPrizes] = [true; false; false].
Proof. run. Qed.

(** ** tests/search/test_ReplaceOptionalClient.py *)
Example test_replacing_optional_client :
  let d b := data 1 [c_opt 1 b None (c_tw 0 1 0 0 (cli 0)); c_opt 5 false None (c_tw 0 1 0 0 (cli 0))] [dep 0] [veh 1 []] [zeros 1] [zeros 1] in
  (b_eval (d false) evn BReplaceOptionalClient [[C 0]] (C 1) (VAct (C 0)), b_apply (d false) evn BReplaceOptionalClient [[C 0]] (C 1) (VAct (C 0)),
   b_eval (d true) evn BReplaceOptionalClient [[C 0]] (C 1) (VAct (C 0))) = ((-4, true), [[C 1]], (0, false)).
Proof. run. Qed.
Example test_skips_assigned_depot_or_missing_other :
  let e u v := b_eval okPrizes ev0 BReplaceOptionalClient [[C 0; C 1]] u v in
  (e (C 0) (VAct (C 1)), e (C 2) (VAct (C 3)), e (C 0) (VStart 0)) = ((0, false), (0, false), (0, false)).
Proof. run. Qed.
Example test_supports_replace_client : map (fun d => supports d (OBinary BReplaceOptionalClient)) [okSmall; okGroups; okPrizes] = [false; false; true].
Proof. run. Qed.

(** ** tests/search/test_ReplaceOptionalShipment.py *)
Example test_replace_optional_shipment :
  let p := [ships [1%nat]] in let e v := b_eval smallOptional ev0 BReplaceOptionalShipment p (L 0) v in
  let q := b_apply smallOptional ev0 BReplaceOptionalShipment p (L 0) (VAct (U 1)) in
  (dist smallOptional p 0, e (VAct (L 1)), e (VAct (U 1)), dist smallOptional q 0, q) = (27732, (-26161, true), (-26161, true), 9571, [ships [0%nat]]).
Proof. run. Qed.
Example test_cannot_replace_required_shipment : b_eval smallShipments ev0 BReplaceOptionalShipment [ships [1%nat]] (L 0) (VAct (L 1)) = (0, false).
Proof. run. Qed.
Example test_skips_deliveries_replace : b_eval smallOptional ev0 BReplaceOptionalShipment [ships [1%nat]] (U 0) (VAct (L 1)) = (0, false).
Proof. run. Qed.
Example test_supports_replace_shipment :
  map (fun d => supports d (OBinary BReplaceOptionalShipment)) [okSmall; smallShipments; smallOptional] = [false; false; true].
Proof. run. Qed.
Example test_replace_non_adjacent :
  let p := [[L 1; L 2; U 2; U 1]] in let q := b_apply smallOptional ev0 BReplaceOptionalShipment p (L 0) (VAct (L 1)) in
  (dist smallOptional p 0, b_eval smallOptional ev0 BReplaceOptionalShipment p (L 0) (VAct (L 1)), dist smallOptional q 0, q) =
  (42463, (-27391, true), 42463 - 27391 + 8000, [[L 0; L 2; U 2; U 0]]).
Proof. run. Qed.
