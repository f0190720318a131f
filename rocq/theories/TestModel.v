(** The model on the inputs of tests/test_Model.py; see TestData.v.  Each example has the name of the test, and the
    values on the right are those that the test expects.  Where a test does 100 iterations, the example does fewer. *)
From Coq Require Import ZArith List Bool String.
From Verif Require Import Base DurationSegment Data LoadSegment Route SearchRoute Cost Penalty Solution Equal DataCtor MatrixFacts Stop Pm ModelPy
  Neighbourhood Ops Ils Solve Hang TestData TestRoute TestSolution TestRest TestCtor.
Import ListNotations.
Local Open Scope Z_scope.

(** The methods with their default arguments; locations are numbered from 0, depots from 100, groups from 200 and
    profiles from 300. *)
Definition loc_ (id : nat) (x y : Z) : op := AddLocation id (mk_location x y noname).
Definition dep_ (id loc : nat) : op := AddDepot id loc 0 MAXV 0 noname.
Definition cli_ (loc : nat) (delivery pickup : list Z) (service early late prize : Z) (required : bool) (group : option nat) : op :=
  AddClient loc delivery pickup service early late 0 prize required group noname.
Definition cli0 (loc : nat) : op := cli_ loc [] [] 0 0 MAXV 0 true None.
Definition edge_ (frm to : nat) (dist dur : Z) : op := AddEdge frm to dist dur None.
Definition edge_p (frm to : nat) (dist dur : Z) (profile : nat) : op := AddEdge frm to dist dur (Some profile).
Definition veh_ (num : nat) (cap : list Z) (start endd : option nat) (fixed early late : Z) (profile : option nat) (reload : list nat) : op :=
  AddVehicle num cap start endd fixed early late MAXV MAXV 1 0 profile None [] reload SIZE_MAX 0 0 noname.
Definition veh1 : op := veh_ 1 [] None None 0 0 MAXV None [].
Definition ship_ (p dl : nat) (amount : list Z) : op := AddShipment p dl 0 MAXV 0 0 MAXV 0 amount 0 true noname.

Definition build (ops : list op) : res pymodel := fold_left (fun m o => bind m (fun m => ModelPy.step m o)) ops (Ok empty_model).
Definition built (ops : list op) (missing : Z) : res pdata := bind (build ops) (fun m => model_data m missing).
Definition dataOf (ops : list op) : pdata := ok no_data (built ops MAX_VALUE).
(** All edges between the locations of a list. *)
Definition all_edges_by (ls : list nat) (f : nat -> nat -> Z * Z) : list op := flat_map (fun a => map (fun b => edge_ a b (fst (f a b)) (snd (f a b))) ls) ls.

Definition solved_with (d : pdata) (iterations : Z) (seed : Z) : solution :=
  match solve d (criterion * nat) (py_stop (fun _ => 0)) defaults true 100 (Z.to_nat (iterations + 2)) seed None (MaxIterations iterations 0, 0%nat) with
  | Some (Ok o) => o_best o
  | _ => no_solution
  end.
Definition price (d : pdata) (s : solution) : Z := solution_cost (evaluator_of (repeat 0 (p_numLoadDimensions d)) 0 0) s.

Example test_model_data :
  (fun d => (p_numClients d, p_numVehicleTypes d))
    (dataOf [veh_ 1 [1] None None 0 0 MAXV None []; loc_ 0 0 0; dep_ 100 0; loc_ 1 0 1; cli_ 1 [1] [] 0 0 MAXV 0 true None; edge_ 0 1 1 1; edge_ 1 0 1 1]) = (1, 1)%nat.
Proof. run. Qed.
Example test_add_edge_raises_negative_distance_or_duration :
  map (fun o => outcome (build [loc_ 0 0 0; loc_ 1 0 1; o])) [edge_ 0 1 0 0; edge_ 1 0 (-1) 0; edge_ 1 0 0 (-1)] = [None; value_error; value_error].
Proof. run. Qed.
Example test_add_edge_raises_self_connection_nonzero_distance_or_duration :
  map (fun o => outcome (build [loc_ 0 0 0; loc_ 1 0 1; o]))
    [edge_ 0 1 1 1; edge_ 0 0 0 0; edge_ 1 1 0 0; edge_ 0 0 1 0; edge_ 0 0 0 1; edge_ 1 1 1 0; edge_ 1 1 0 1] = repeat None 3 ++ repeat value_error 4.
Proof. run. Qed.
Example test_add_vehicle_type_default_depots :
  map (fun se => match build [loc_ 0 0 0; dep_ 100 0; loc_ 1 1 1; dep_ 101 1; veh_ 1 [] (fst se) (snd se) 0 0 MAXV None []] with
                 | Ok m => map (fun v => (v_start v, v_end v)) (mo_vehicles m) | Err _ => [] end)
    [(None, None); (Some 100, Some 100); (Some 101, Some 101); (Some 100, Some 101)]%nat = [[(0, 0)]; [(0, 0)]; [(1, 1)]; [(0, 1)]]%nat.
Proof. run. Qed.
Example test_add_vehicle_type_raises_for_unknown_depot :
  map (fun se => outcome (build [veh_ 1 [] (fst se) (snd se) 0 0 MAXV None []])) [(Some 100, None); (None, Some 100)]%nat = [value_error; value_error].
Proof. run. Qed.
Example test_from_data_and_solve :
  (fun r => bind r (fun m => bind (model_data m MAX_VALUE) (fun d => Ok (let s := solved_with d 10 0 in (price d s, so_isFeasible s))))) (from_data okSmall) = Ok (9155, true).
Proof. run. Qed.
Definition partial := [veh1; loc_ 0 0 0; loc_ 1 0 1; loc_ 2 1 0; dep_ 100 0; cli0 1; cli0 2; edge_ 0 1 1 0; edge_ 1 2 2 0; edge_ 2 0 1 0].
Example test_partial_distance_duration_matrix :
  map (fun missing => match built partial missing with
         | Ok d => let s := solved_with d 10 4 in (p_dist d 0 0 2, p_dist d 0 1 0, so_numRoutes s, price d s, so_isFeasible s)
         | Err _ => (0, 0, 0%nat, 0, false) end) [5; 100; MAX_VALUE; MAX_VALUE + 1] =
  map (fun m => (m, m, 1%nat, 4, true)) [5; 100; MAX_VALUE; MAX_VALUE].
Proof. run. Qed.
Example test_model_solves_instance_with_zero_or_one_clients :
  map (fun ops => so_numClients (solved_with (dataOf ops) 1 0))
    [[veh1; loc_ 0 0 0; dep_ 100 0]; [veh1; loc_ 0 0 0; dep_ 100 0; loc_ 1 0 0; cli0 1; edge_ 0 1 0 0; edge_ 1 0 0 0]] = [0; 1]%nat.
Proof. run. Qed.
Definition five : list op := dep_ 100 0 :: flat_map (fun i => [loc_ (S i) (Z.of_nat i) (Z.of_nat i); cli_ (S i) [] [] 1 0 20 0 true None]) (seq 0 5) ++
  all_edges_by (seq 0 6) (fun a b => (0, if (a =? b)%nat then 0 else 5)).
Example test_model_solves_small_instance_with_fixed_costs :
  so_isFeasible (solved_with (dataOf (loc_ 0 0 0 :: repeat (veh_ 5 [] None None 10 0 40 None []) 2 ++ five)) 10 0) = true.
Proof. run. Qed.
Example test_model_solves_small_instance_with_shift_durations :
  (fun s => (so_isFeasible s, (2 <? so_numRoutes s)%nat))
    (solved_with (dataOf (loc_ 0 0 0 :: [veh_ 2 [] None None 0 0 15 None []; veh_ 2 [] None None 0 5 25 None []] ++ five)) 10 0) = (true, true).
Proof. run. Qed.
Definition clients_of (r : route) : list nat := filter (fun i => existsb (a_eqb (AClient i)) (r_acts r)) (seq 0 10).
Definition no_route : route := mk_route [] 0 0 0 [] [] [] 0 0 0 0 0 0 0 0 0 0 0 0 0.
Definition route1 (s : solution) : route := nth 0 (so_routes s) no_route.
Definition on_line (xs : list Z) (ls : list nat) : list op := all_edges_by ls (fun a b => (Z.abs (nth a xs 0 - nth b xs 0), 0)).
Definition manhattan (xs : list (Z * Z)) : list op :=
  all_edges_by (seq 0 (List.length xs)) (fun a b => let p := nth a xs (0, 0) in let q := nth b xs (0, 0) in (Z.abs (fst p - fst q) + Z.abs (snd p - snd q), 0)).
Example test_model_solves_line_instance_with_multiple_depots :
  let d := dataOf ([loc_ 0 0 0; dep_ 100 0; loc_ 1 5 0; dep_ 101 1; veh_ 1 [2] (Some 100%nat) (Some 100%nat) 0 0 MAXV None []; veh_ 1 [2] (Some 101%nat) (Some 101%nat) 0 0 MAXV None []]
    ++ flat_map (fun i => [loc_ (S i) (Z.of_nat i) 0; cli_ (S i) [1] [] 0 0 MAXV 0 true None]) (seq 1 4) ++ on_line [0; 5; 1; 2; 3; 4] (seq 0 6)) in
  let s := solved_with d 20 3 in (price d s, so_isFeasible s, map clients_of (so_routes s)) = (8, true, [[0; 1]; [2; 3]]%nat).
Proof. run. Qed.
Definition pickupsAndDeliveries (x : list Z * list Z) : pdata :=
  dataOf ([veh_ 1 [10] None None 0 0 MAXV None []; loc_ 0 0 0; dep_ 100 0] ++
    map (fun i => loc_ i (Z.of_nat i) (Z.of_nat i)) (seq 1 4) ++
    map (fun i => cli_ (S i) [nth i (snd x) 0] [nth i (fst x) 0] 0 0 MAXV 0 true None) (seq 0 4) ++ manhattan [(0, 0); (1, 1); (2, 2); (3, 3); (4, 4)]).
Example test_model_solves_instances_with_pickups_and_deliveries :
  map (fun x => r_excessLoad (route1 (solved_with (pickupsAndDeliveries x) 5 0)))
    [([1; 2; 3; 5], [0; 0; 0; 0]); ([0; 0; 0; 0], [1; 2; 3; 5]); ([1; 2; 3; 5], [1; 2; 3; 5]); ([1; 2; 3; 4], [4; 3; 2; 1]); ([0; 0; 0; 0], [0; 0; 0; 0])] =
  [[1]; [1]; [1]; [0]; [0]].
Proof. run. Qed.
Example test_add_client_raises_unknown_group : outcome (build [loc_ 0 1 1; cli_ 0 [] [] 0 0 MAXV 0 true (Some 200%nat)]) = value_error.
Proof. run. Qed.
Example test_to_data_client_group :
  map g_clients (p_groups (dataOf [veh1; loc_ 0 1 1; dep_ 100 0; AddGroup 200 true noname; loc_ 1 1 1; cli_ 1 [] [] 0 0 MAXV 0 false (Some 200%nat);
    loc_ 2 2 2; cli_ 2 [] [] 0 0 MAXV 0 false (Some 200%nat)])) = [[0; 1]%nat].
Proof. run. Qed.
Example test_raises_mutually_exclusive_client_group_required_client :
  outcome (build [loc_ 0 1 1; AddGroup 200 true noname; cli_ 0 [] [] 0 0 MAXV 0 true (Some 200%nat)]) = value_error.
Proof. run. Qed.
Example test_minimise_distance_or_duration :
  let d := with_vehicles okSmall [v_costs 0 1 0 0 (veh 1 [10]); v_costs 0 0 1 0 (veh 1 [10])] in
  (price okSmall (solved_with okSmall 20 82), price d (solved_with d 20 82)) = (9155, 9875).
Proof. run. Qed.
Example test_adding_vehicle_type_with_unknown_profile_raises : outcome (build [veh_ 1 [] None None 0 0 MAXV (Some 300%nat) []]) = value_error.
Proof. run. Qed.
Example test_adding_multiple_routing_profiles :
  let d := dataOf ([AddProfile 300; AddProfile 301; veh_ 1 [] None None 0 0 MAXV (Some 300%nat) []; veh_ 1 [] None None 0 0 MAXV (Some 301%nat) [];
                    loc_ 0 1 1; dep_ 100 0; loc_ 1 2 2; cli0 1] ++ flat_map (fun ab => [edge_p (fst ab) (snd ab) 10 5 300; edge_p (fst ab) (snd ab) 5 10 301]) [(0, 1); (1, 0)]%nat) in
  let s := solved_with d 10 0 in
  (map v_profile (p_vehicles d), map m_data (p_dists d), map m_data (p_durs d), so_isFeasible s, price d s) =
  ([0; 1]%nat, [[0; 10; 10; 0]; [0; 5; 5; 0]], [[0; 5; 5; 0]; [0; 10; 10; 0]], true, 10).
Proof. run. Qed.
Example test_profiles_build_on_base_edges :
  let base := [veh1; loc_ 0 1 1; dep_ 100 0; loc_ 1 2 2; cli0 1] ++ manhattan [(1, 1); (2, 2)] ++ [AddProfile 300; AddProfile 301] in
  map (fun d => (map m_data (p_dists d), map m_data (p_durs d))) [dataOf base; dataOf (base ++ [edge_p 0 1 5 10 300; edge_p 0 1 10 5 301])] =
  [([[0; 2; 2; 0]; [0; 2; 2; 0]], [[0; 0; 0; 0]; [0; 0; 0; 0]]); ([[0; 5; 2; 0]; [0; 10; 2; 0]], [[0; 10; 0; 0]; [0; 5; 0; 0]])].
Proof. run. Qed.
Example test_model_solves_instances_with_multiple_profiles :
  let xy := [(1, 1); (1, 2); (2, 1)] in let at_ f i := f (nth i xy (0, 0)) in
  let d := dataOf ([loc_ 0 1 1; dep_ 100 0; loc_ 1 1 2; cli0 1; loc_ 2 2 1; cli0 2; AddProfile 300; AddProfile 301]
    ++ flat_map (fun a => flat_map (fun b => [edge_p a b (Z.abs (at_ fst a - at_ fst b)) 0 300; edge_p a b (Z.abs (at_ snd a - at_ snd b)) 0 301]) (seq 0 3)) (seq 0 3)
    ++ [veh_ 1 [] None None 0 0 MAXV (Some 300%nat) []; veh_ 1 [] None None 0 0 MAXV (Some 301%nat) []]) in
  let s := solved_with d 10 1 in (price d s, map r_acts (so_routes s)) = (0, [[AClient 0]; [AClient 1]]).
Proof. run. Qed.
Example test_model_solves_instance_with_zero_load_dimensions :
  let d := dataOf ([loc_ 0 1 1; dep_ 100 0; loc_ 1 1 2; cli0 1; loc_ 2 2 1; cli0 2; loc_ 3 2 2; cli0 3] ++ manhattan [(1, 1); (1, 2); (2, 1); (2, 2)] ++ [veh1]) in
  let s := solved_with d 10 0 in (p_numLoadDimensions d, so_isFeasible s, so_numRoutes s, r_distance (route1 s)) = (0%nat, true, 1%nat, 4).
Proof. run. Qed.
Example test_bug_client_group_indices :
  match build [loc_ 0 0 0; dep_ 100 0; AddGroup 200 true noname; AddGroup 201 true noname; cli_ 0 [] [] 0 0 MAXV 0 false (Some 201%nat); cli_ 0 [] [] 0 0 MAXV 0 false (Some 200%nat)] with
  | Ok m => (map c_group (mo_clients m), map (fun g => List.length (g_clients (snd g))) (mo_groups m)) | Err _ => ([], []) end = ([Some 1; Some 0], [1; 1])%nat.
Proof. run. Qed.
Example test_adding_vehicle_reload_depots :
  map (fun r => match build [loc_ 0 0 0; dep_ 100 0; loc_ 1 1 1; dep_ 101 1; veh_ 1 [] None None 0 0 MAXV None r] with Ok m => map v_reload (mo_vehicles m) | Err _ => [] end)
    [[100]; [100; 101]]%nat = [[[0]]; [[0; 1]]]%nat.
Proof. run. Qed.
Example test_adding_unknown_reload_depots_raises : outcome (build [veh_ 1 [] None None 0 0 MAXV None [100%nat]]) = value_error.
Proof. run. Qed.
Example test_model_solves_multi_trip_instance :
  let d := dataOf ([loc_ 0 0 0; dep_ 100 0; loc_ 1 0 0; dep_ 101 1; veh_ 1 [5] None None 0 0 MAXV None [100; 101]%nat]
    ++ flat_map (fun i => [loc_ (S (S i)) (Z.of_nat i) 0; cli_ (S (S i)) [5] [] 0 0 MAXV 0 true None]) (seq 0 3) ++ on_line [0; 0; 0; 1; 2] (seq 0 5)) in
  let s := solved_with d 10 0 in let r := route1 s in
  (so_isFeasible s, price d s, so_numRoutes s, r_excessLoad r, r_delivery r, r_numTrips r) = (true, 6, 1%nat, [0], [15], 3%nat).
Proof. run. Qed.
Example test_model_raises_unknown_location :
  (map (fun o => outcome (build [o])) [dep_ 100 0; cli0 0], outcome (build [loc_ 0 0 0; dep_ 100 0; cli0 0])) = ([value_error; value_error], None).
Proof. run. Qed.
Example test_solve_clients_in_same_location :
  let d := dataOf ([veh1; loc_ 0 10 10; cli0 0; cli0 0; loc_ 1 5 5; dep_ 100 1] ++ manhattan [(10, 10); (5, 5)]) in
  let s := solved_with d 10 0 in (so_isFeasible s, so_numClients s, so_distance s) = (true, 2%nat, 20).
Proof. run. Qed.
Example test_model_raises_unknown_location_when_adding_shipments :
  map (fun o => outcome (build [loc_ 0 0 0; o])) [ship_ 0 1 []; ship_ 1 0 []; ship_ 0 0 []] = [value_error; value_error; None].
Proof. run. Qed.
Example test_model_shipment_data :
  p_numShipments (dataOf [veh1; loc_ 0 0 0; dep_ 100 0; loc_ 1 0 1; ship_ 1 1 []]) = 1%nat.
Proof. run. Qed.
