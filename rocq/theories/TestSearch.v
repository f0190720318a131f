(** The model on the inputs of tests/search/test_Route.py; see TestData.v.
    Each example has the name of the test, and the values on the right are those that the test expects. *)
From Coq Require Import ZArith List String Bool.
From Verif Require Import Base DurationSegment Data DataCtor LoadSegment Read Route SearchRoute Cost SearchNodes.
From Verif Require Import Route SearchRoute TestData TestRoute.
Import ListNotations.
Local Open Scope Z_scope.

(** make_search_route(data, activities) *)
Definition searchRoute (d : pdata) (mid : list activity) : cache := update d (veh0 d) mid.
Definition c_hasTimeWarp (c : cache) := ca_timeWarp c >? 0.
Definition c_hasExcessLoad (c : cache) := existsb (fun x => x >? 0) (ca_excessLoad c).
Definition durAt (c : cache) (i : nat) := it_dur (ca_item c i).
Definition durBetween (d : pdata) (c : cache) (i j : nat) := sg_duration d 0 (SBetween c i j).
Definition twb (d : pdata) (c : cache) (i j : nat) : Z := ds_timeWarp MAXV (durBetween d c i j).
Definition ldb (d : pdata) (c : cache) (dim i j : nat) := sg_load d dim (SBetween c i j).
Definition all4 := [C 0; C 1; C 2; C 3].

(** The node bookkeeping: route insert, remove and clear on the routes of [new_heap]. *)
Definition hget (r : option (heap * bool)) (s : heap) : heap := match r with Some (s', _) => s' | None => s end.
Definition happend (s : heap) (r : nat) (a : activity) : heap := hget (route_insert s r (List.length (SearchNodes.acts s r) - 1) a) s.
Definition hremove (s : heap) (r i : nat) : heap := match route_remove s r i with Some s' => s' | None => s end.
Definition hnode (s : heap) (r i : nat) : option (nat * nat) :=
  option_map (fun n => (n_pos n, n_trip n)) (SearchNodes.get s r (nth i (sr_nodes (SearchNodes.sroute_at s r)) (PD 0 0))).
Definition hhome (s : heap) (a : activity) : option (option nat * nat) := option_map (fun n => (n_route n, n_pos n)) (SearchNodes.get s 0 (PV a)).
Definition hacts := SearchNodes.acts.
Definition h0 : heap := new_heap [veh0 okSmall; veh0 okSmall].

Example test_insert_and_remove_update_node_pos_and_route_properties :
  let s1 := happend h0 0 (C 0) in (hhome h0 (C 0), hhome s1 (C 0), hhome (hremove s1 0 1) (C 0)) =
  (Some (None, 0%nat), Some (Some 0%nat, 1%nat), Some (None, 0%nat)).
Proof. run. Qed.
Example test_route_append_increases_route_len :
  (let s := happend h0 0 (C 0) in (hacts s 0, hacts (happend s 0 (C 1)) 0)) = ([D 0; C 0; D 0], [D 0; C 0; C 1; D 0]).
Proof. run. Qed.
Example test_route_insert :
  (let s := happend (happend h0 0 (C 0)) 0 (C 1) in hacts (hget (route_insert s 0 1 (C 2)) s) 0) = [D 0; C 2; C 0; C 1; D 0].
Proof. run. Qed.
Example test_route_delete_reduces_size_by_one : hacts (hremove (happend (happend h0 0 (C 0)) 0 (C 1)) 0 1) 0 = [D 0; C 1; D 0].
Proof. run. Qed.
Example test_route_clear_empties_entire_route :
  map (fun n => match route_clear (fold_left (fun s i => happend s 0 (C i)) (seq 0 n) h0) 0 with Some s => hacts s 0 | None => [] end) [0; 1; 2; 3]%nat =
  repeat [D 0; D 0] 4.
Proof. run. Qed.
Example test_route_swap :
  map (fun x => let '(a, b, ina, inb) := x in
    let s := if (ina : bool) then happend h0 0 a else h0 in let s := if (inb : bool) then happend s 1 b else s in let t := route_swap s a b in
    (option_map fst (hhome t a), option_map fst (hhome t b), hhome t a, hhome t b))
    [(C 1, C 2, false, false); (C 1, C 2, true, false); (C 2, C 3, false, true); (C 3, C 4, true, true)] =
  [(Some None, Some None, Some (None, 0%nat), Some (None, 0%nat)); (Some None, Some (Some 0%nat), Some (None, 0%nat), Some (Some 0%nat, 1%nat));
   (Some (Some 1%nat), Some None, Some (Some 1%nat, 1%nat), Some (None, 0%nat)); (Some (Some 1%nat), Some (Some 0%nat), Some (Some 1%nat, 1%nat), Some (Some 0%nat, 1%nat))].
Proof. run. Qed.
Definition hT (reloads : Z) : heap := new_heap [v_rel [0%nat] reloads (veh0 okTrips)].
Example test_multi_trip_depots :
  let s := fold_left (fun s a => happend s 0 a) [C 0; D 0; C 3] (hT 1) in
  map (hnode s 0) [0; 2; 4]%nat = [Some (0, 0); Some (2, 1); Some (4, 2)]%nat.
Proof. run. Qed.
Example test_route_remove_reload_depot :
  let s := happend (hT 1) 0 (D 0) in let t := hremove s 0 1 in
  (map (hnode s 0) [0; 1; 2]%nat, hacts t 0, map (hnode t 0) [0; 1]%nat) =
  ([Some (0, 0); Some (1, 1); Some (2, 2)]%nat, [D 0; D 0], [Some (0, 0); Some (1, 1)]%nat).
Proof. run. Qed.
Example test_remove_multiple_reload_depots :
  let s := fold_left (fun s a => happend s 0 a) [D 0; D 0] (hT 2) in let t := hremove s 0 1 in
  (map (hnode s 0) [1; 2; 3]%nat, map (hnode t 0) [1; 2]%nat) = ([Some (1, 1); Some (2, 2); Some (3, 3)]%nat, [Some (1, 1); Some (2, 2)]%nat).
Proof. run. Qed.
Example test_route_raises_too_many_trips :
  let s := happend (hT 1) 0 (D 0) in (option_map snd (route_insert (hT 1) 0 1 (D 0)), option_map snd (route_insert s 0 2 (D 0))) = (Some false, Some true).
Proof. run. Qed.

(** ** The figures *)
Example test_excess_load : let c := searchRoute okSmall all4 in (c_hasExcessLoad c, ca_excessLoad c, ca_load c) = (true, [8], [18]).
Proof. run. Qed.
Example test_dist_and_load_for_single_client_routes :
  map (fun i => let c := searchRoute okSmall [C i] in
    (ca_load c, map (fun x => ls_load (ldb okSmall c 0 (fst x) (snd x))) [(0, 2); (0, 0); (1, 1)]%nat,
     sg_distance okSmall 0 (SBetween c 0 1), sg_distance okSmall 0 (SBetween c 1 2), sg_distance okSmall 0 (SBetween c 1 1))) [0; 1; 2; 3]%nat =
  map (fun i => let q := hd 0 (c_delivery (p_client okSmall i)) in ([q], [q; 0; q], p_dist okSmall 0 0 (S i), p_dist okSmall 0 (S i) 0, 0)) [0; 1; 2; 3]%nat.
Proof. run. Qed.
Example test_route_duration_access :
  let c := searchRoute okSmall all4 in let get i := let s := durAt c i in (tw s, ds_startEarly s, ds_startLate s, ds_duration s) in
  map get [0; 1; 2; 3; 4; 5]%nat =
  let v := veh0 okSmall in [(0, 0, 45000, 0)] ++ map (fun x => (0, c_early x, c_late x, c_service x)) (p_clients okSmall) ++ [(0, 0, 45000, 0)].
Proof. run. Qed.
Example test_route_duration_access_with_latest_start :
  let v := v_tw 0 45000 10000 (veh0 okSmall) in let c := update (with_vehicles okSmall [v]) v [] in
  map (fun i => let s := durAt c i in (ds_startEarly s, ds_startLate s, ds_duration s)) [0; 1]%nat = [(0, 10000, 0); (0, 45000, 0)].
Proof. run. Qed.
Example test_latest_start :
  map (fun x => let c := searchRoute (with_vehicles okSmall [v_tw 0 MAXV x (veh 1 [10])]) [C 0] in (ca_duration c, ds_startEarly (nth 0 (ca_durAfter c) dnone)))
    [100000; 14056; 14000; 10000; 0] = [(3630, 14056); (3630, 14056); (3686, 14000); (7686, 10000); (17686, 0)].
Proof. run. Qed.
Example test_duration_between_client_returns_node_duration :
  map (fun i => let c := searchRoute okSmall [C i] in (map (fun k => ds_duration (durBetween okSmall c k k)) [0; 1; 2]%nat, ca_timeWarp c)) [0; 1; 2; 3]%nat =
  map (fun x => ([0; c_service x; 0], 0)) (p_clients okSmall).
Proof. run. Qed.
Example test_duration_between_equal_to_before_after_when_one_is_depot :
  let c := searchRoute okSmall all4 in let f s := (ds_duration s, tw s) in
  map (fun i => (f (nth i (ca_durBefore c) dnone), f (nth i (ca_durAfter c) dnone))) [1; 2; 3; 4]%nat =
  map (fun i => (f (durBetween okSmall c 0 i), f (durBetween okSmall c i 5))) [1; 2; 3; 4]%nat.
Proof. run. Qed.
Example test_duration_between_single_route_has_correct_time_warp :
  let c := searchRoute okSmall all4 in let f x := twb okSmall c (fst x) (snd x) in
  (ca_timeWarp c, map f [(0, 5); (1, 4); (0, 4); (1, 5); (1, 3)]%nat, map f [(2, 4); (3, 5); (2, 3); (4, 5); (5, 5); (0, 1); (0, 2)]%nat) =
  (3633, repeat 3633 5, repeat 0 7).
Proof. run. Qed.
Example test_distance_is_equal_to_dist_between_over_whole_route :
  let c := searchRoute okSmall all4 in ca_distance c = sg_distance okSmall 0 (SBetween c 0 5).
Proof. run. Qed.
Example test_shift_duration_depot_time_window_interaction :
  map (fun x => let d := data 1 [] [mk_depot 0 0 1000 0 EmptyString] [v_tw (fst x) (snd x) (snd x) (veh 1 [])] [zeros 1] [zeros 1] in
    let c := searchRoute d [] in map (fun i => let s := durAt c i in (ds_startEarly s, ds_startLate s)) [0; 1]%nat)
    [(0, MAXV); (0, 1000); (0, 500); (250, 1000); (300, 600)] =
  map (fun x => [x; x]) [(0, 1000); (0, 1000); (0, 500); (250, 1000); (300, 600)].
Proof. run. Qed.
Example test_shift_duration :
  map (fun x => let c := searchRoute (with_vehicles okSmall [v_shifts x 0 (veh 3 [10])]) all4 in (ca_duration c, c_hasTimeWarp c, ca_timeWarp c))
    [100000; 5000; 4000; 3000; 0] = map (fun w => (7950, true, w)) [3633; 3633; 3950; 4950; 7950].
Proof. run. Qed.
Example test_max_distance :
  map (fun x => let c := searchRoute (with_vehicles okSmall [v_maxd x (veh 3 [10])]) all4 in (ca_distance c, ca_excessDistance c)) [100000; 5000; 0] =
  [(6450, 0); (6450, 1450); (6450, 6450)].
Proof. run. Qed.
Example test_is_feasible :
  map (fun m => let c := searchRoute (with_vehicles okSmall [v_maxd 6000 (veh 3 [10])]) m in (c_hasExcessLoad c, c_hasTimeWarp c, ca_excessDistance c >? 0))
    [[C 0; C 1; C 2]; [C 0; C 2]; [C 0; C 1]] = [(true, true, true); (false, true, false); (false, false, false)].
Proof. run. Qed.
Example test_dist_between_equal_to_before_after_when_one_is_depot :
  let c := searchRoute okSmall all4 in let f := sg_distance okSmall 0 in
  map (fun i => (f (SBefore c i), f (SAfter c i))) [1; 2; 3; 4]%nat = map (fun i => (f (SBetween c 0 i), f (SBetween c i 5))) [1; 2; 3; 4]%nat.
Proof. run. Qed.
(** tests/data/SmallVRPSPD.vrp, with the distances rounded. *)
Definition smallSpd : pdata := Eval vm_compute in
  load (mk_instance "VRPSPD" 5 None None (5%nat, 5%nat, [0; 38; 31; 39; 36; 38; 0; 10; 3; 7; 31; 10; 0; 10; 5; 39; 3; 10; 0; 5; 36; 7; 5; 5; 0])
    (Some [[0]; [0]; [3]; [10]; [40]]) None (Some [[0]; [1]; [0]; [16]; [18]]) None None None None None (Some (Uniform [200]))
    None None None None None None None None None None).
Example test_load_between_equal_to_before_after_when_one_is_depot :
  let c := searchRoute smallSpd all4 in let f s := let l := sg_load smallSpd 0 s in (ls_load l, ls_delta l, ls_increase l, ls_initial l) in
  List.length (p_clients smallSpd) = 4%nat /\
  map (fun i => (f (SBefore c i), f (SAfter c i))) [1; 2; 3; 4]%nat = map (fun i => (f (SBetween c 0 i), f (SBetween c i 5))) [1; 2; 3; 4]%nat.
Proof. run. Qed.
Example test_load_between_multiple_dimensions :
  let d := data 3 [c_dem [1; 2] [0; 0] (cli 1); c_dem [4; 5] [0; 0] (cli 2)] [dep 0] [veh 1 [10; 10]] [zeros 3] [zeros 3] in let c := searchRoute d [C 0; C 1] in
  map (fun dim => map (fun x => ls_load (ldb d c dim (fst x) (snd x))) [(0, 0); (0, 1); (0, 2); (0, 3); (1, 2); (2, 3)]%nat) [0; 1]%nat =
  [[0; 1; 5; 5; 5; 4]; [0; 2; 7; 7; 7; 5]].
Proof. run. Qed.
Example test_load_between_equal_to_before_after_when_one_is_depot_different_dims :
  let d := okMultiLoad in let c := searchRoute d all4 in let f dim s := let l := sg_load d dim s in (ls_load l, ls_delta l, ls_increase l, ls_initial l) in
  map (fun dim => map (fun i => (f dim (SBefore c i), f dim (SAfter c i))) [1; 2; 3]%nat) [0; 1]%nat =
  map (fun dim => map (fun i => (f dim (SBetween c 0 i), f dim (SBetween c i 5))) [1; 2; 3]%nat) [0; 1]%nat.
Proof. run. Qed.
Example test_distance_different_profiles :
  let c := searchRoute okTwoProfiles all4 in (ca_distance c, sg_distance okTwoProfiles 1 (SBetween c 0 5)) = (6450, 2 * 6450).
Proof. run. Qed.
Example test_duration_different_profiles :
  let c := searchRoute okTwoProfiles all4 in
  (ca_duration c, ds_duration (sg_duration okTwoProfiles 1 (SBetween c 0 5))) = (7950, 2 * 7950 - zsum (map c_service (p_clients okTwoProfiles))).
Proof. run. Qed.
Example test_start_end_depot_not_same_on_empty_route_search :
  let d := with_vehicles okMultiDepot [v_ends 0 1 (veh 3 [10])] in let c := searchRoute d [] in
  (ca_distance c, ca_duration c) = (p_dist d 0 0 1, p_dur d 0 0 1).
Proof. run. Qed.
Example test_initial_load_calculation_search :
  (ca_load (searchRoute okSmall []), ca_load (searchRoute (with_vehicles okSmall [v_init [5] (veh0 okSmall)]) [])) = ([0], [5]).
Proof. run. Qed.
Definition twoTrips := [C 0; C 1; D 0; C 2; C 3].
Example test_multi_trip_load_evaluation :
  let c := searchRoute okTrips twoTrips in let b i := ls_load (sg_load okTrips 0 (SBefore c i)) in let a i := ls_load (sg_load okTrips 0 (SAfter c i)) in
  (ca_load c, ca_excessLoad c, (b 3%nat, a 0%nat), (b 6%nat, a 3%nat)) = ([18], [0], (10, 10), (8, 8)).
Proof. run. Qed.
Example test_bug_reload_swaps_load_arguments :
  let d := with_vehicles smallSpd [v_rel [0%nat] 2 (veh0 smallSpd)] in let c := searchRoute d [C 0; D 0; C 2; C 3] in
  map (fun s => let l := sg_load d 0 s in (ls_initial l, ls_delta l, ls_load l)) [SBefore c 5; SAfter c 2] = [(34, 16, 50); (34, 16, 50)].
Proof. run. Qed.
Example test_multi_trip_initial_load_search :
  let d := with_vehicles okTrips [v_init [5] (veh0 okTrips)] in let c := searchRoute d twoTrips in
  (ca_excessLoad c, ls_load (it_load (ca_item c 0) 0), ls_load (sg_load d 0 (SBefore c 3)), ls_load (sg_load d 0 (SAfter c 3))) = ([5], 5, 15, 8).
Proof. run. Qed.
Example test_multi_trip_with_release_times_search :
  let c := searchRoute releases [C 0; C 1; D 0; C 2] in let f s := (ds_startEarly s, ds_startLate s, ds_duration s) in
  let b i := nth i (ca_durBefore c) dnone in let a i := nth i (ca_durAfter c) dnone in
  (ca_duration c, ca_timeWarp c) = (100, 0) /\ (f (b 3%nat), f (a 3%nat)) = ((50, 50, 45), (100, 110, 50)) /\
  (f (b 5%nat), tw (b 5%nat), f (a 0%nat), tw (a 0%nat)) = ((100, 110, 100), 0, (50, 50, 100), 0).
Proof. run. Qed.
Definition caches (d : pdata) :=
  let c := searchRoute d [C 2; C 3; D 0; C 0; C 1] in let f s := ds_duration s in
  let b i := f (nth i (ca_durBefore c) dnone) in let a i := f (nth i (ca_durAfter c) dnone) in
  let first := ca_duration (searchRoute d [C 2; C 3]) in let second := ca_duration (searchRoute d [C 0; C 1]) in
  (b 3%nat =? first, f (durBetween d c 0 3) =? first, a 3%nat =? second, f (durBetween d c 3 6) =? second, ca_duration c =? first + second).
Example test_multi_trip_duration_caches : caches okTrips = (true, true, true, true, true).
Proof. run. Qed.
Example test_has_distance_cost :
  map hasDistanceCost [veh 1 []; v_costs 0 0 0 0 (veh 1 []); v_maxd MAXV (v_costs 0 0 0 0 (veh 1 [])); v_maxd 0 (v_costs 0 0 0 0 (veh 1 [])); v_maxd 0 (veh 1 [])] =
  [true; false; false; true; true].
Proof. run. Qed.
Example test_has_duration_cost :
  let v := veh 1 [] in
  map (fun x => let d := data 1 [] [snd x] [fst x] [zeros 1] [zeros 1] in hasDurationCost d (veh0 d))
    [(v, dep 0); (v, mk_depot 0 1 MAXV 0 EmptyString); (v, mk_depot 0 0 1 0 EmptyString); (v_tw 0 MAXV 5 v, dep 0); (v_tw 5 MAXV MAXV v, dep 0); (v_tw 0 5 5 v, dep 0);
     (v_shifts 0 0 v, dep 0); (v_costs 0 1 1 0 v, dep 0); (v_costs 0 1 0 1 v, dep 0); (v_shifts MAXV 1 (v_costs 0 1 0 1 v), dep 0); (v_shifts MAXV 5 v, dep 0)] =
  [false; true; true; true; true; true; true; true; false; true; false].
Proof. run. Qed.
Example test_overtime_search :
  let c := searchRoute okOvertime [C 1; C 3] in (v_maxDuration (ca_veh c), ca_timeWarp c, ca_duration c, ca_durationCost c) = (6000, 0, 5229, 1 * 5229 + 10 * 229).
Proof. run. Qed.
Example test_multi_trip_with_depot_service_duration :
  let d := with_depots okTrips [mk_depot 0 0 MAXV 200 EmptyString] in let c := searchRoute d [C 2; C 3; D 0; C 0; C 1] in let f s := ds_duration s in
  caches d = (true, true, true, true, true) /\
  (f (durAt c 0), f (durAt c 3), f (durAt c 6)) = (200, 0, 0) /\
  (f (nth 0 (ca_durBefore c) dnone), f (nth 6 (ca_durBefore c) dnone), f (nth 0 (ca_durAfter c) dnone), f (nth 6 (ca_durAfter c) dnone)) =
  (200, ca_duration c, ca_duration c, 0).
Proof. run. Qed.
Example test_route_statistics_with_shipments :
  let c := searchRoute smallShipments [L 0; L 1; L 2; U 2; U 1; U 0] in
  (ca_numShipments c, ca_numClients c, ca_distance c, ca_duration c, ca_timeWarp c, ca_excessLoad c) =
  (3%nat, 0%nat, 47132, 47132 + 6 * 900 + 13800 + 402, 1611, [20]).
Proof. run. Qed.
