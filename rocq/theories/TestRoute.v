(** The model on the inputs of tests/test_DurationSegment.py, tests/test_LoadSegment.py and tests/test_Route.py; see TestData.v.
    Each example has the name of the test, and the values on the right are those that the test expects. *)
From Coq Require Import ZArith List String Bool.
From Verif Require Import Base DurationSegment Data DataCtor LoadSegment Route TestData.
Import ListNotations.
Local Open Scope Z_scope.

Ltac run := vm_compute; repeat split; reflexivity.

(** ** tests/test_DurationSegment.py *)
Definition tw (s : dseg) : Z := ds_timeWarp MAXV s.
Definition seg5 (d w e l r : Z) : dseg := mk_dseg d w e l r 0 0 MAXV.
Example test_time_warp_when_there_is_existing_time_warp : map (fun x => tw (seg5 0 x 0 0 0)) [2; 5; 10] = [2; 5; 10].
Proof. run. Qed.
Example test_merge_two : tw (ds_merge 4 (seg5 5 0 0 5 0) (seg5 0 5 3 6 0)) = 8 /\ tw (ds_merge 4 (seg5 5 0 0 5 0) (seg5 0 5 3 6 3)) = 11.
Proof. run. Qed.
Example test_merging_two_previously_merged_duration_segments :
  let ds1 := seg5 5 1 0 5 0 in let ds2 := seg5 1 1 3 6 0 in
  let m12 := ds_merge 4 ds1 ds2 in let m21 := ds_merge 3 ds2 ds1 in
  (tw ds1, tw ds2, tw m12, tw m21, tw (ds_merge 0 m12 m21)) = (1, 1, 4, 3, 10).
Proof. run. Qed.
Example test_max_duration_argument : let ds := seg5 5 0 0 0 0 in (tw ds, ds_timeWarp 2 ds, ds_timeWarp 0 ds) = (0, 3, 5).
Proof. run. Qed.
Example test_OkSmall_with_time_warp :
  let segs := ds_vehicle (veh0 okSmall) (v_late (veh0 okSmall)) :: map ds_client (p_clients okSmall) in
  let s i := nth i segs (seg5 0 0 0 0 0) in
  let ds := fold_left (fun a e => ds_merge (p_dur okSmall 0 (fst e) (snd e)) a (s (snd e))) [(0, 1); (1, 3); (3, 0)]%nat (s 0%nat) in
  (ds_duration ds, tw ds) = (1544 + 1427 + 2063 + 360 + 420, 2087).
Proof. run. Qed.
Example test_bug_fix_overflow_more_timewarp_than_duration : tw (ds_merge 0 (seg5 9 18 0 18 0) (seg5 0 0 0 MAXV 0)) = 18.
Proof. run. Qed.
Example test_str_ds : let s := mk_dseg 2 3 5 7 6 0 0 3 in (ds_duration s, tw s, ds_startEarly s, ds_startLate s, ds_rel s) = (5, 3, 6, 7, 6).
Proof. run. Qed.
Example test_finalise_back_with_time_warp_from_release_time :
  let s := seg5 5 0 50 70 75 in let f := ds_finaliseBack s in
  (ds_startEarly s, ds_startLate s, ds_rel s, ds_duration s, tw s) = (75, 75, 75, 5, 5) /\
  (ds_duration f, tw f, ds_startEarly f, ds_startLate f, ds_rel f, ds_pel f) = (5, 5, 75, MAXV, 75, 75).
Proof. run. Qed.
Example test_duration_and_time_warp_from_prev_end_times :
  map (fun x => let s := mk_dseg 0 0 100 110 (fst x) 0 0 (snd x) in (ds_duration s, tw s)) [(95, 95); (95, 100); (120, 120); (110, 120); (95, 120)] =
  [(5, 0); (0, 0); (0, 10); (0, 0); (0, 0)].
Proof. run. Qed.
Example test_time_warp_from_release_time :
  map (fun r => let s := seg5 0 0 0 100 r in (ds_startLate s, tw s)) [100; 110] = [(100, 0); (110, 10)].
Proof. run. Qed.
Example test_finalise_front :
  let s := seg5 5 5 40 50 50 in let f := ds_finaliseFront s in
  (ds_duration s, tw s, ds_startEarly s, ds_startLate s, ds_rel s) = (5, 5, 50, 50, 50) /\
  (ds_duration f, tw f, ds_startEarly f, ds_startLate f, ds_rel f) = (5, 5, 50, 50, 0).
Proof. run. Qed.
Example test_repeated_merge_and_finalise_back :
  let f1 := ds_finaliseBack (seg5 45 0 30 50 50) in let m := ds_merge 0 f1 (seg5 50 0 70 110 100) in let f2 := ds_finaliseBack m in
  (ds_startEarly f1, ds_startLate f1, ds_rel f1, ds_pel f1) = (95, MAXV, 95, 95) /\
  (ds_duration m, ds_startEarly m, ds_startLate m, ds_rel m, ds_slack m) = (100, 100, 110, 100, 0) /\
  (ds_duration f2, ds_startEarly f2, ds_startLate f2, ds_rel f2, ds_pel f2) = (100, 150, MAXV, 150, 150).
Proof. run. Qed.
Example test_finalise_nonzero_route_slack :
  let f1 := ds_finaliseBack (seg5 0 0 0 100 0) in let f2 := ds_finaliseBack (ds_merge 0 f1 (seg5 0 0 50 75 0)) in
  (ds_rel f1, ds_pel f1, ds_slack f1) = (0, 100, 100) /\ (ds_rel f2, ds_pel f2, ds_slack f2) = (50, 75, 25).
Proof. run. Qed.
Example test_end_early_and_late :
  let s := mk_dseg 40 30 10 20 0 15 5 MAXV in
  (ds_startEarly s, ds_startLate s, ds_duration s, tw s, ds_endEarly s, ds_endLate s) = (10, 20, 55, 35, 20, 30).
Proof. run. Qed.
Example test_finalise_back_front_merge_same_thing :
  let ds1 := seg5 50 0 70 110 100 in let ds2 := seg5 45 0 30 50 50 in
  let b := ds_merge 0 (ds_finaliseBack ds1) ds2 in let f := ds_merge 0 ds1 (ds_finaliseFront ds2) in (tw b, ds_duration b) = (tw f, ds_duration f).
Proof. run. Qed.

(** ** tests/test_LoadSegment.py *)
Example test_merge_two_loads :
  let m1 := ls_merge (mk_lseg 5 0 3 0) (mk_lseg 3 0 8 0) in let m2 := ls_merge (mk_lseg 3 4 11 0) (mk_lseg 5 0 8 0) in
  (ls_initial m1, ls_increase m1, ls_load m1, ls_excessLoad 0 m1, ls_excessLoad 16 m1) = (8, 8, 16, 16, 0) /\
  (ls_initial m2, ls_increase m2, ls_load m2, ls_excessLoad 0 m2, ls_excessLoad 20 m2) = (8, 12, 20, 20, 0).
Proof. run. Qed.
Example test_excess_load_capacity :
  let m := ls_merge (mk_lseg 5 0 0 30) (mk_lseg 2 0 0 5) in (ls_load m, ls_excessLoad 7 m, ls_excessLoad 0 m) = (7, 35, 42).
Proof. run. Qed.
Example test_finalise :
  map (fun cap => let f := ls_finalise cap (mk_lseg 5 0 0 20) in (ls_initial f, ls_delta f, ls_increase f, ls_load f, ls_excessLoad cap f)) [10; 5; 0] =
  [(0, 0, 0, 0, 20); (0, 0, 0, 0, 20); (0, 0, 0, 0, 25)].
Proof. run. Qed.
Example test_mixed_clients_and_shipments :
  let m := ls_merge (mk_lseg 0 5 5 0) (mk_lseg 0 3 3 0) in let m1 := ls_merge m (mk_lseg 5 0 0 0) in
  let m2 := ls_merge m1 (mk_lseg 0 0 (-5) 0) in let m3 := ls_merge m2 (mk_lseg 0 0 (-5) 0) in let f := ls_finalise 11 m3 in
  (ls_load m, ls_load m1, ls_load m2, ls_load m3, ls_load f, ls_excessLoad 11 f) = (8, 13, 13, 13, 0, 2).
Proof. run. Qed.

(** ** tests/test_Route.py *)
Definition no_route : route := mk_route [] 0 0 0 [] [] [] 0 0 0 0 0 0 0 0 0 0 0 0 0.
Definition C := AClient. Definition L := APickup. Definition U := ADelivery. Definition D := ADepot.
Definition rt (d : pdata) (acts : list activity) (v : nat) : route := ok no_route (make_route d acts v).
(** A list of clients. *)
Definition rc (d : pdata) (cs : list nat) (v : nat) : route := ok no_route (make_route_clients d cs v).
Definition acts (r : route) : list activity := map sa_act (r_schedule r).
Definition at_ (r : route) (i : nat) : sched := nth i (r_schedule r) dummy_sched.

Example test_route_depot_accessors :
  (acts (rc okMultiDepot [0] 0), acts (rc okMultiDepot [1; 2] 1))%nat = ([D 0; C 0; D 0], [D 1; C 1; C 2; D 1])%nat.
Proof. run. Qed.
Example test_route_eq :
  let d := with_vehicles okSmall [veh 1 [10]; veh 2 [20]] in let r1 := rc d [1; 2]%nat 0 in
  (route_eqb r1 r1, route_eqb r1 (rc d [1; 2]%nat 0), route_eqb r1 (rc d [1; 2]%nat 1), route_eqb r1 (rc d [2; 1]%nat 0)) = (true, true, false, false).
Proof. run. Qed.
Example test_route_access_methods :
  let r0 := rc okSmall [0; 2]%nat 0 in let r1 := rc okSmall [1; 3]%nat 0 in
  (r_excessLoad r0, r_delivery r0, r_pickup r0, r_isFeasible r0, r_service r0) = ([0], [5 + 3], [0], false, 360 + 420) /\
  (r_excessLoad r1, r_delivery r1, r_pickup r1, r_isFeasible r1, r_service r1) = ([0], [5 + 5], [0], true, 360 + 360).
Proof. run. Qed.
Example test_access_multiple_trips : acts (rt okTrips [C 0; C 1; D 0; C 2] 0) = [D 0; C 0; C 1; D 0; C 2; D 0].
Proof. run. Qed.
Example test_route_time_warp_calculations :
  (r_timeWarp (rc okSmall [0; 2]%nat 0), r_timeWarp (rc okSmall [1; 3]%nat 0)) = (15600 + 360 + 1427 - 15300, 0).
Proof. run. Qed.
Example test_route_wait_time_calculations :
  let r1 := rc okWait [1; 3]%nat 0 in let r := rc okWait [0; 1; 3]%nat 0 in
  (r_waitDuration r1, r_slack r1, r_startTime r1) = (1550, 0, 13056) /\ (r_timeWarp r, r_waitDuration r, r_slack r) = (2952, 1550, 0).
Proof. run. Qed.
Example test_route_start_and_end_time_calculations :
  let r0 := rc okSmall [0; 2]%nat 0 in let r1 := rc okSmall [1; 3]%nat 0 in
  (r_slack r0, r_startTime r0, r_endTime r0) = (0, 15600 - 1544, 15600 - 1544 + r_duration r0 - r_timeWarp r0) /\
  (r_timeWarp r1, r_waitDuration r1, r_startTime r1, r_slack r1, r_duration r1, r_endTime r1) = (0, 0, 10056, 16106 - 10056, 5229, 10056 + 5229).
Proof. run. Qed.
Example test_route_release_time :
  let r0 := rc okRelease [0; 2]%nat 0 in let r1 := rc okRelease [1; 3]%nat 0 in
  (r_releaseTime r0, r_releaseTime r1, r_hasTimeWarp r1, r_releaseTime r1 <? r_startTime r1) = (20000, 5000, false, true).
Proof. run. Qed.
Example test_release_time_and_shift_duration :
  let r := rc (with_vehicles okRelease [v_shifts 5000 0 (veh 3 [10])]) [1; 2; 3]%nat 0 in
  (r_releaseTime r, r_startTime r, r_endTime r, r_duration r, r_service r, r_timeWarp r) = (5000, 10056, 15056, 5998, 1140, 998).
Proof. run. Qed.
Example test_release_time_and_service_duration :
  let r := rc (with_depots okRelease [mk_depot 0 0 MAXV 6000 EmptyString]) [1; 2; 3]%nat 0 in
  (r_releaseTime r, r_startTime r, r_duration r, r_service r, r_timeWarp r) = (5000, 5000, 6000 + 5998, 6000 + 1140, 0).
Proof. run. Qed.
Example test_route_shift_duration :
  map (fun x => let '(early, startLate, late) := x in r_timeWarp (rc (with_vehicles okSmall [v_tw early late startLate (veh 2 [10])]) [0; 1]%nat 0))
    [(0, 0, 0); (0, 10000, 20000); (0, 20000, 20000); (0, 20277, 20277); (15000, 15000, 20000); (10000, 20000, 20000)] =
  [20277; 277; 277; 0; 1221; 277].
Proof. run. Qed.
Example test_distance_duration_cost_calculations :
  let d := with_vehicles okSmall [v_costs 0 5 1 0 (veh 1 [10]); v_costs 0 1 5 0 (veh 1 [10])] in
  let r0 := rc d [0; 1]%nat 0 in let r1 := rc d [2; 3]%nat 1 in
  (r_distanceCost r0, r_durationCost r0, r_distanceCost r1, r_durationCost r1) = (5 * r_distance r0, r_duration r0, r_distance r1, 5 * r_duration r1).
Proof. run. Qed.
Example test_start_end_depot_not_same_on_empty_route :
  let r := rc (with_vehicles okMultiDepot [v_ends 0 1 (veh 3 [10])]) [] 0 in (acts r, r_distance r, r_duration r) = ([D 0; D 1], 1544, 1544).
Proof. run. Qed.
Example test_bug_start_time_before_release_time :
  let m := mat [[0; 10]; [10; 0]] in let r := rc (data 2 [c_tw 0 MAXV 0 5 (cli 1)] [dep 0] [veh 1 []] [m] [m]) [0]%nat 0 in
  (r_isFeasible r, r_startTime r, r_endTime r) = (true, 5, 25).
Proof. run. Qed.
Example test_route_schedule :
  map (fun visits => let r := rc okSmall visits 0 in
    (List.length (r_schedule r), map (fun x => sa_end x - sa_start x) (r_schedule r),
     (zsum (map sa_wait (r_schedule r)) =? r_waitDuration r, zsum (map sa_tw (r_schedule r)) =? r_timeWarp r)))
    [[0; 1; 2; 3]; [1; 0; 2; 3]]%nat = [(6%nat, [0; 360; 360; 420; 360; 0], (true, true)); (6%nat, [0; 360; 360; 420; 360; 0], (true, true))].
Proof. run. Qed.
Example test_route_schedule_wait_duration :
  let r := rc okWait [1; 3]%nat 0 in (sa_wait (at_ r 2), r_waitDuration r, zsum (map sa_wait (r_schedule r))) = (1550, 1550, 1550).
Proof. run. Qed.
Example test_initial_load_calculation :
  (r_excessLoad (rc okSmall [0; 1]%nat 0), r_excessLoad (rc (with_vehicles okSmall [v_init [5] (veh0 okSmall)]) [0; 1]%nat 0)) = ([0], [5]).
Proof. run. Qed.
Example test_raises_multiple_trips_without_reload_depots : fails (make_route okSmall [C 1; C 2; D 0; C 3] 0) = true.
Proof. run. Qed.
Example test_raises_vehicle_max_reloads : (v_maxReloads (veh0 okTrips), fails (make_route okTrips [C 1; D 0; D 0; C 3] 0)) = (1, true).
Proof. run. Qed.
Example test_statistics_with_small_multi_trip_example :
  let r1 := rc okTrips [0; 1; 2; 3]%nat 0 in let r2 := rt okTrips [C 0; C 1; D 0; C 2; C 3] 0 in
  (r_numTrips r1, r_numTrips r2, r_excessLoad r1, r_excessLoad r2, r_duration r1, r_duration r2) = (1%nat, 2%nat, [8], [0], 7950, 7950 + 1965 + 1931 - 621) /\
  (r_prizes r2, r_waitDuration r2, r_service r2) = (r_prizes r1, r_waitDuration r1, r_service r1).
Proof. run. Qed.
Example test_iter_empty_trips :
  r_numTrips (rt (with_vehicles okTrips [v_rel [0%nat] 2 (veh0 okTrips)]) [C 0; C 1; D 0; D 0; C 2; C 3] 0) = 3%nat.
Proof. run. Qed.
Definition cattaruzza : matrix := mat
  [[0; 5; 15; 20; 10; 15]; [5; 0; 20; 20; 15; 15]; [15; 20; 0; 40; 20; 30]; [20; 20; 40; 0; 30; 10]; [10; 15; 20; 30; 0; 20]; [15; 15; 30; 10; 20; 0]].
Example test_small_example_from_cattaruzza_paper :
  let d := data 6 [c_tw 100 120 5 0 (cli 1); c_tw 50 75 5 0 (cli 2); c_tw 50 75 5 0 (cli 3); c_tw 50 100 5 0 (cli 4); c_tw 50 100 5 0 (cli 5)]
    [mk_depot 0 0 200 20 EmptyString] [v_rel [0%nat] SIZE_MAX (veh 1 [])] [cattaruzza] [cattaruzza] in
  let r := rt d [C 4; C 2; D 0; C 0; D 0; C 3; D 0; C 1] 0 in
  (r_startTime r, r_endTime r, r_timeWarp r, r_slack r, r_service r, r_travel r) = (15, 95, 75 + 55, 0, 25 + 80, 105) /\
  map (fun i => (sa_start (at_ r i), sa_end (at_ r i) - sa_start (at_ r i))) [5; 7; 9]%nat = [(125, 20); (115, 20); (95, 0)].
Proof. run. Qed.
Definition releases : pdata := Eval vm_compute in let m := mat [[0; 30; 20; 40]; [0; 0; 10; 0]; [5; 0; 0; 0]; [10; 0; 0; 0]] in
  data 4 [c_tw 60 100 0 40 (cli 1); c_tw 70 90 0 50 (cli 2); c_tw 80 150 0 100 (cli 3)] [dep 0] [v_rel [0%nat] SIZE_MAX (veh 1 [])] [m] [m].
Example test_multi_trip_with_release_times :
  let r := rt releases [C 0; C 1; D 0; C 2] 0 in
  (r_releaseTime r, r_travel r, r_service r, r_startTime r, r_duration r, r_endTime r, r_waitDuration r, r_timeWarp r, r_slack r) = (50, 95, 0, 50, 100, 150, 5, 0, 0) /\
  map (fun i => (sa_start (at_ r i), sa_end (at_ r i))) [0; 3; 5]%nat = [(50, 50); (100, 100); (150, 150)] /\ sa_wait (at_ r 3) = 5.
Proof. run. Qed.
Example test_multi_trip_initial_load : r_excessLoad (rt (with_vehicles okTrips [v_init [5] (veh0 okTrips)]) [C 0; C 1; D 0; C 2; C 3] 0) = [5].
Proof. run. Qed.
Example test_bug_iterating_with_empty_last_trip : acts (rt okTrips [C 0; C 1; D 0] 0) = [D 0; C 0; C 1; D 0; D 0].
Proof. run. Qed.
Example test_route_release_time_after_vehicle_start_late :
  let v := veh0 okRelease in let r := rc (with_vehicles okRelease [v_tw (v_early v) (v_late v) 10000 v]) [2; 0]%nat 0 in
  (r_startTime r, r_releaseTime r, r_timeWarp r, r_duration r, zsum (map sa_tw (r_schedule r))) = (20000, 20000, 10000, 7686, 10000).
Proof. run. Qed.
Example test_fixed_vehicle_cost : map (fun f => r_fixedCost (rc (with_vehicles okSmall [v_costs f 1 0 0 (veh0 okSmall)]) [] 0)) [0; 10] = [0; 10].
Proof. run. Qed.
Example test_raises_invalid_depot_or_client :
  map (fun l => fails (make_route okTrips l 0)) [[D 1]; [C 4]; [C 3; D 0]] = [true; true; false].
Proof. run. Qed.
Example test_raises_invalid_shipment : fails (make_route smallShipments [L 4; U 4] 0) = true.
Proof. run. Qed.
Example test_len : let r := rt okTrips [C 0; D 0; C 1] 0 in (r_size r, r_numClients r, r_numDepots r, r_numTrips r) = (5, 2, 3, 2)%nat.
Proof. run. Qed.
Example test_schedule_trip_count : map sa_trip (r_schedule (rt okTrips [C 0; D 0] 0)) = [0; 0; 1; 2]%nat.
Proof. run. Qed.
Example test_raises_unpaired_shipment :
  map (fun l => fails (make_route smallShipments l 0)) [[L 1]; [U 1]; [L 1; U 1; U 1]; [L 1; L 1]; [U 1; L 1]] = [true; true; true; true; true].
Proof. run. Qed.
Example test_route_with_shipments :
  let r := rt smallShipments [L 0; L 1; L 2; U 2; U 1; U 0] 0 in
  (r_numClients r, r_numShipments r, r_distance r, r_timeWarp r, r_duration r, r_excessLoad r) =
  (0%nat, 3%nat, 47132, 1611, 47132 + 6 * 900 + 13800 + 402, [20]).
Proof. run. Qed.
Definition mixed : pdata := with_vehicles (with_clients smallShipments [c_dem [60] [0] (cli 0); c_dem [0] [0] (cli 1)])
  [v_rel [0%nat] SIZE_MAX (veh0 smallShipments)].
Example test_mixed_clients_and_shipments_with_reloading :
  let r := rt mixed [L 0; C 0; L 1; L 2; U 0; U 1; U 2; D 0; C 1] 0 in
  (r_distance r, r_timeWarp r, r_duration r, r_excessLoad r) = (54938, 2902 + 10549, 54938 + 6 * 900 + 13800 + 959, [30]).
Proof. run. Qed.
Example test_raises_shipment_crossing_reload_depot :
  fails (make_route (with_vehicles smallShipments [v_rel [0%nat] SIZE_MAX (veh0 smallShipments)]) [L 0; D 0; U 0] 0) = true.
Proof. run. Qed.
