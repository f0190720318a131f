(** The model on the inputs of tests/test_Client.py, test_ClientGroup.py, test_Depot.py, test_Shipment.py,
    test_VehicleType.py, test_ProblemData.py and of the parameter files of test_solve.py; see TestData.v.  Each
    example has the name of the test, and the values on the right are those that the test expects.  A ValueError is
    InvalidArgument, and an IndexError is OutOfRange. *)
From Coq Require Import ZArith List Bool String.
From Flocq Require Import IEEE754.BinarySingleNaN.
From Verif Require Import Base DurationSegment Data Valid DataCtor MatrixFacts Penalty RngFloat Pm Neighbourhood Ops OpsAll Perturb ModelPy Solve Hang Config TestData TestRoute.
Import ListNotations.
Local Open Scope Z_scope.

Definition outcome {A} (x : res A) : option exn := match x with Ok _ => None | Err e => Some e end.
Definition value_error := Some InvalidArgument.
Definition index_error := Some OutOfRange.
Definition noname : string := EmptyString.

(** ** tests/test_Client.py *)
Example test_client_raises_for_invalid_data :
  map (fun x => let '(delivery, pickup, service, early, late, release, prize) := x in
         outcome (make_client 0 [delivery] [pickup] service early late release prize true None noname))
    [(1, 0, 0, 1, 0, 0, 0); (1, 0, 0, -1, 0, 0, 0); (0, 0, -1, 0, 1, 0, 1); (-1, 0, 1, 0, 1, 0, 0); (0, -1, 1, 0, 1, 0, 0); (0, 0, 0, 0, 1, -1, 0);
     (0, 0, 0, 0, 1, 2, 0); (1, 0, 1, 0, 1, 0, -1)] = repeat value_error 8.
Proof. run. Qed.
Example test_constructor_initialises_data_fields_correctly :
  map (fun x => let '(loc, delivery, pickup, service, early, late, release, prize, required, group) := x in
         match make_client loc [delivery] [pickup] service early late release prize required group noname with
         | Ok c => Some (c_loc c, c_delivery c, c_pickup c, c_service c, c_early c, c_late c, c_release c, c_prize c, c_required c, c_group c)
         | Err _ => None end)
    [(1%nat, 1, 1, 1, 0, 1, 0, 0, true, None); (1%nat, 1, 0, 0, 0, 1, 0, 0, true, None); (1%nat, 0, 0, 1, 0, 1, 0, 0, true, None);
     (1%nat, 1, 0, 1, 0, 0, 0, 0, true, None); (1%nat, 1, 0, 1, 0, 1, 1, 0, true, None); (0%nat, 1, 0, 1, 0, 1, 0, 1, true, None);
     (0%nat, 1, 0, 1, 0, 1, 0, 1, false, None); (0%nat, 1, 0, 1, 0, 1, 0, 1, false, Some 0%nat)] =
    [Some (1%nat, [1], [1], 1, 0, 1, 0, 0, true, None); Some (1%nat, [1], [0], 0, 0, 1, 0, 0, true, None); Some (1%nat, [0], [0], 1, 0, 1, 0, 0, true, None);
     Some (1%nat, [1], [0], 1, 0, 0, 0, 0, true, None); Some (1%nat, [1], [0], 1, 0, 1, 1, 0, true, None); Some (0%nat, [1], [0], 1, 0, 1, 0, 1, true, None);
     Some (0%nat, [1], [0], 1, 0, 1, 0, 1, false, None); Some (0%nat, [1], [0], 1, 0, 1, 0, 1, false, Some 0%nat)].
Proof. run. Qed.
Example test_client_load_dimensions_are_padded_with_zeroes :
  map (fun x => match make_client 0 (fst x) (snd x) 0 0 MAXV 0 0 true None noname with Ok c => (c_delivery c, c_pickup c) | Err _ => ([-1], [-1]) end)
    [([0], [0]); ([0], [0; 1; 2]); ([0; 1; 2], [0]); ([0; 2], [1]); ([], [])] =
    [([0], [0]); ([0; 0; 0], [0; 1; 2]); ([0; 1; 2], [0; 0; 0]); ([0; 2], [1; 0]); ([], [])].
Proof. run. Qed.

(** ** tests/test_ClientGroup.py *)
Example test_client_group_raises_duplicate_clients :
  (outcome (make_group [1; 1]%nat true noname), outcome (make_group [1]%nat true noname),
   outcome (bind (make_group [] true noname) (fun g => bind (add_client g 1) (fun g => add_client g 1)))) = (value_error, None, value_error).
Proof. run. Qed.
Example test_client_group_attribute_access :
  match make_group [1; 2; 3]%nat false noname with Ok g => (g_clients g, g_required g, g_mutuallyExclusive g) | Err _ => ([], true, false) end =
  ([1; 2; 3]%nat, false, true).
Proof. run. Qed.

(** ** tests/test_Depot.py and tests/test_Shipment.py *)
Example test_depot_raises_for_invalid_data :
  map (fun x => let '(early, late, service) := x in outcome (make_depot 0 early late service noname)) [(1, 0, 0); (-1, 0, 0); (0, -1, 0); (0, 0, -1)] = repeat value_error 4.
Proof. run. Qed.
Example test_raises_invalid_shipment_step :
  map (fun x => let '(early, late, service) := x in outcome (make_step 0 early late service)) [(1, 0, 0); (-1, 0, 0); (0, 1, -1)] = repeat value_error 3.
Proof. run. Qed.
Example test_raises_invalid_shipment :
  map (fun x => let '(pe, pl, ps, de, dl, ds, amount, prize) := x in outcome (make_shipment 0 0 pe pl ps de dl ds amount prize true noname))
    [(1, 0, 0, 0, 0, 0, [], 0); (-1, 0, 0, 0, 0, 0, [], 0); (0, 0, -1, 0, 0, 0, [], 0); (0, 0, 0, 1, 0, 0, [], 0); (0, 0, 0, -1, 0, 0, [], 0);
     (0, 0, 0, 0, 0, -1, [], 0); (10, 15, 0, 0, 5, 0, [], 0); (0, 0, 0, 0, 0, 0, [-1], 0); (0, 0, 0, 0, 0, 0, [], -1)] = repeat value_error 9.
Proof. run. Qed.
Example test_custom_attributes :
  match make_shipment 1 2 3 5 7 11 13 17 [19] 23 false noname with
  | Ok s => ((st_loc (s_pickup s), st_loc (s_delivery s)), [st_early (s_pickup s); st_late (s_pickup s); st_service (s_pickup s)],
             [st_early (s_delivery s); st_late (s_delivery s); st_service (s_delivery s)], s_amount s, s_prize s, s_required s)
  | Err _ => ((0, 0)%nat, [], [], [], 0, true)
  end = ((1, 2)%nat, [3; 5; 7], [11; 13; 17], [19], 23, false).
Proof. run. Qed.

(** ** tests/test_VehicleType.py *)
(** The constructor with keyword arguments. *)
Definition vt (num : nat) (cap : list Z) (early late shift maxd fixed dist dur : Z) (startLate : option Z) (init : list Z) (over unitOver : Z) : res vehicle :=
  make_vehicle num cap 0 0 fixed early late shift maxd dist dur 0 startLate init [] SIZE_MAX over unitOver noname.
Example test_raises_invalid_data :
  map (fun x => let '(cap, num, early, late, shift, maxd, fixed, dist, dur, startLate, init) := x in
         outcome (vt num [cap] early late shift maxd fixed dist dur (Some startLate) [init] 0 0))
    [(0, 0%nat, 0, 0, 0, 0, 0, 0, 0, 0, 0); (-1, 1%nat, 0, 0, 0, 0, 1, 0, 0, 0, 0); (-100, 1%nat, 0, 0, 0, 0, 0, 0, 0, 0, 0); (0, 1%nat, 1, 1, 0, 0, 0, 0, 0, 0, 0);
     (0, 1%nat, 1, 1, 0, 0, 0, 0, 0, 2, 0); (0, 1%nat, -1, 0, 0, 0, 0, 0, 0, 0, 0); (0, 1%nat, 0, -1, 0, 0, 0, 0, 0, 0, 0); (0, 1%nat, 0, 0, -1, 0, 0, 0, 0, 0, 0);
     (0, 1%nat, 0, 0, 0, -1, 0, 0, 0, 0, 0); (0, 1%nat, 0, 0, 0, 0, 0, -1, 0, 0, 0); (0, 1%nat, 0, 0, 0, 0, 0, 0, -1, 0, 0); (0, 1%nat, 0, 0, 0, 0, 0, 0, 0, -1, 0);
     (0, 1%nat, 0, 0, 0, 0, 0, 0, 0, 0, -1); (0, 1%nat, 0, 0, 0, 0, 0, 0, 0, 0, 2)] = repeat value_error 14.
Proof. run. Qed.
Example test_raises_negative_overtime_data :
  map (fun x => outcome (vt 1 [] 0 MAXV MAXV MAXV 0 1 0 None [] (fst x) (snd x))) [(-1, 0); (0, -1)] = repeat value_error 2.
Proof. run. Qed.
Example test_does_not_raise_for_all_zero_edge_case :
  match vt 1 [] 0 0 0 0 0 0 0 (Some 0) [] 0 0 with
  | Ok v => (v_numAvailable v, v_capacity v, [v_fixedCost v; v_early v; v_late v; v_shift v; v_maxDistance v; v_unitDistance v; v_unitDuration v; v_startLate v])
  | Err _ => (0%nat, [], [])
  end = (1%nat, [], [0; 0; 0; 0; 0; 0; 0; 0]).
Proof. run. Qed.
Example test_vehicle_default_values :
  match vt 1 [] 0 MAXV MAXV MAXV 0 1 0 None [] 0 0 with Ok v => (v_late v, v_shift v, v_maxDuration v, v_maxDistance v, v_startLate v) | Err _ => (0, 0, 0, 0, 0) end =
  (MAXV, MAXV, MAXV, MAXV, MAXV).
Proof. run. Qed.
Example test_max_duration :
  map (fun x => match vt 1 [] 0 MAXV (fst x) MAXV 0 1 0 None [] (snd x) 0 with Ok v => v_maxDuration v | Err _ => -1 end)
    [(MAXV, MAXV); (MAXV, 0); (0, MAXV); (MAXV - 1, 1); (1, MAXV - 1); (10, 10)] = [MAXV; MAXV; MAXV; MAXV; MAXV; 20].
Proof. run. Qed.
Example test_load_dimensions_are_padded_with_zeroes :
  map (fun x => match vt 1 (fst x) 0 MAXV MAXV MAXV 0 1 0 None (snd x) 0 0 with Ok v => (v_capacity v, v_initialLoad v) | Err _ => ([-1], [-1]) end)
    [([0], [0]); ([0], [0; 0; 0]); ([0; 1; 2], [0]); ([1; 2], [1]); ([], [])] =
    [([0], [0]); ([0; 0; 0], [0; 0; 0]); ([0; 1; 2], [0; 0; 0]); ([1; 2], [1; 0]); ([], [])].
Proof. run. Qed.
Definition replaced (v : vehicle) (num : option nat) (start endd : option nat) (profile : option nat) (reload : option (list nat)) (maxReloads : option Z) : vehicle :=
  ok v (replace_vehicle v num None start endd None None None None None None None profile None None reload maxReloads None None None).
Example test_replace :
  (fun v => (v_numAvailable v, v_capacity v)) (replaced (veh 7 [10]) (Some 5%nat) None None None None None) = (5%nat, [10]).
Proof. run. Qed.
Example test_max_trips :
  (fun v w => ([v_maxReloads v; v_maxTrips v; v_maxReloads w; v_maxTrips w])) (veh0 okTrips) (replaced (veh0 okTrips) None None None None None (Some SIZE_MAX)) =
  [1; 2; SIZE_MAX; SIZE_MAX].
Proof. run. Qed.
Example test_max_trips_is_one_if_no_reload_depots :
  (fun v => (v_reload v, v_maxReloads v, v_maxTrips v)) (veh0 okSmall) = ([], SIZE_MAX, 1).
Proof. run. Qed.
Example test_allows_negative_fixed_cost :
  match vt 1 [] 0 MAXV MAXV MAXV (-100) 1 0 None [] 0 0 with Ok v => v_fixedCost v | Err _ => 0 end = -100.
Proof. run. Qed.

(** ** tests/test_ProblemData.py *)
Definition one := veh 1 [].
Definition problem (n : nat) (cs : list client) (ds : list depot) (vs : list vehicle) (dist dur : matrix) (gs : list cgroup) (ss : list shipment) : option exn :=
  outcome (make_pdata (locs n) cs ds vs [dist] [dur] gs ss).
Definition ship (p dl : nat) (amount : list Z) : shipment := ok dummy_shipment (make_shipment p dl 0 MAXV 0 0 MAXV 0 amount 0 true noname).
Definition grp (cs : list nat) : cgroup := ok dummy_group (make_group cs true noname).
Example test_problem_data_raises_when_no_depot_is_provided :
  (problem 0 [] [] [one] (m_of_array 0 [[]]) (m_of_array 0 [[]]) [] [], problem 1 [] [dep 0] [one] (zeros 1) (zeros 1) [] []) = (value_error, None).
Proof. run. Qed.
Example test_problem_data_raises_when_no_vehicle_type_is_provided : problem 1 [] [dep 0] [] (zeros 1) (zeros 1) [] [] = value_error.
Proof. run. Qed.
Example test_problem_data_raises_when_incorrect_matrix_dimensions :
  flat_map (fun m => [problem 2 [cli 1] [dep 0] [one] m (zeros 2) [] []; problem 2 [cli 1] [dep 0] [one] (zeros 2) m [] []])
    [m_of_array 2 [[0; 0]]; m_of_array 0 [[]; []]; m_of_array 2 [[0; 0]; [0; 0]; [0; 0]]; m_of_array 3 [[0; 0; 0]; [0; 0; 0]]] = repeat value_error 8.
Proof. run. Qed.
Example test_problem_data_raises_matrix_diagonal_nonzero :
  let eye := mat [[1; 0]; [0; 1]] in
  map (fun x => problem 2 [cli 1] [dep 0] [one] (fst x) (snd x) [] []) [(eye, zeros 2); (zeros 2, eye); (eye, eye)] = repeat value_error 3.
Proof. run. Qed.
Example test_problem_data_replace_raises_mismatched_argument_shapes :
  let d := data 2 [cli 1] [dep 0] [veh 2 []] [zeros 2] [zeros 2] in let three := mat [[0; 1; 1]; [1; 0; 1]; [1; 1; 0]] in
  (outcome (replace_pdata d (Some []) None None None None None None None), outcome (replace_pdata d None None None None (Some [three]) None None None),
   outcome (replace_pdata d None None None None None (Some [three]) None None)) = (index_error, value_error, value_error).
Proof. run. Qed.
Example test_raises_invalid_vehicle_depot_indices :
  map (fun x => outcome (replace_pdata okSmall None None None (Some [replaced (veh0 okSmall) None (Some (fst x)) (Some (snd x)) None None None]) None None None None))
    [(0, 0); (1, 0); (0, 1); (2, 0); (0, 2)]%nat = None :: repeat index_error 4.
Proof. run. Qed.
Example test_raises_invalid_vehicle_profile_index :
  outcome (replace_pdata okSmall None None None (Some [v_prof 1 (veh 1 [10])]) None None None None) = index_error.
Proof. run. Qed.
Example test_raises_no_profiles :
  map (fun x => fails (replace_pdata okSmall None None None None (fst x) (snd x) None None)) [(Some [], Some []); (Some [], None); (None, Some [])] = repeat true 3.
Proof. run. Qed.
Example test_raises_inconsistent_profiles :
  outcome (replace_pdata okSmall None None None None (Some (p_dists okSmall ++ p_dists okSmall)) None None None) = value_error.
Proof. run. Qed.
Example test_raises_empty_group : problem 1 [] [dep 0] [one] (zeros 1) (zeros 1) [grp []] [] = value_error.
Proof. run. Qed.
Example test_raises_invalid_client_group_indices :
  map (fun x => problem 2 [c_opt 0 false (Some (snd x)) (cli 1)] [dep 0] [one] (zeros 2) (zeros 2) (fst x) []) [([], 0%nat); ([grp [0%nat]], 1%nat)] = repeat index_error 2.
Proof. run. Qed.
Example test_raises_invalid_group_client_indices :
  problem 2 [c_opt 0 false (Some 0%nat) (cli 1)] [dep 0] [one] (zeros 2) (zeros 2) [grp [0; 1]%nat] [] = index_error.
Proof. run. Qed.
Example test_raises_wrong_mutual_group_referencing :
  (problem 3 [c_opt 0 false (Some 0%nat) (cli 1); c_opt 0 false (Some 0%nat) (cli 2)] [dep 0] [one] (zeros 3) (zeros 3) [grp [2%nat]] [],
   problem 3 [cli 1; cli 2] [dep 0] [one] (zeros 3) (zeros 3) [grp [1%nat]] []) = (value_error, value_error).
Proof. run. Qed.
Example test_raises_for_required_mutually_exclusive_group_membership :
  problem 2 [c_opt 0 true (Some 0%nat) (cli 1)] [dep 0] [one] (zeros 2) (zeros 2) [grp [0%nat]] [] = value_error.
Proof. run. Qed.
Example test_replacing_client_groups :
  match replace_pdata okSmall None (Some (c_dem [1] [0] (c_opt 0 false (Some 0%nat) (cli 1)) :: List.tl (p_clients okSmall))) None None None None (Some [grp [0%nat]]) None with
  | Ok d => (p_numGroups okSmall, p_numGroups d, g_clients (p_group d 0)) | Err _ => (1, 0, [])%nat end = (0, 1, [0])%nat.
Proof. run. Qed.
Example test_problem_data_raises_when_pickup_and_delivery_dimensions_differ :
  problem 3 [c_dem [1; 2] [1; 2] (cli 1); c_dem [1; 2; 3] [1; 2; 3] (cli 2)] [dep 0] [] (zeros 3) (zeros 3) [] [] = value_error.
Proof. run. Qed.
Example test_problem_data_raises_when_capacity_dimensions_differ :
  problem 1 [] [dep 0] [veh 2 [1; 2]; veh 2 [1; 2; 3]] (zeros 1) (zeros 1) [] [] = value_error.
Proof. run. Qed.
Example test_problem_data_raises_when_pickup_delivery_capacity_dimensions_differ :
  problem 3 [c_dem [1; 2] [1; 2] (cli 1); c_dem [1; 2] [1; 2] (cli 2)] [dep 0] [veh 2 [1; 2; 3]] (zeros 3) (zeros 3) [] [] = value_error.
Proof. run. Qed.
Example test_problem_data_constructor_valid_load_dimensions :
  match make_pdata (locs 3) [c_dem [1; 2] [1; 2] (cli 1); c_dem [1; 2] [1; 2] (cli 2)] [dep 0] [v_init [0; 0] (veh 2 [1; 2]); v_init [0; 0] (veh 2 [1; 2])] [zeros 3] [zeros 3] [] [] with
  | Ok d => p_numLoadDimensions d | Err _ => 0%nat end = 2%nat.
Proof. run. Qed.
Example test_raises_if_vehicle_and_depot_time_windows_do_not_overlap :
  map (fun x => problem 2 [] [mk_depot 0 0 10 0 noname; mk_depot 1 15 25 0 noname] [v_ends (fst x) (snd x) (v_tw 5 10 10 one)] (zeros 2) (zeros 2) [] [])
    [(0, 0); (0, 1); (1, 0); (1, 1)]%nat = None :: repeat value_error 3.
Proof. run. Qed.
Example test_validate_raises_for_invalid_reload_depot :
  let v := replaced (veh0 okSmall) None None None None (Some [1%nat]) None in
  (v_reload v, problem 1 [] [dep 0] [v] (zeros 1) (zeros 1) [] [], outcome (replace_pdata okSmall None None None (Some [v]) None None None None)) =
  ([1%nat], index_error, index_error).
Proof. run. Qed.
Example test_has_time_windows : p_hasTimeWindows okSmall = true.
Proof. run. Qed.
Example test_raises_unknown_location :
  (problem 1 [] [dep 1] [one] (zeros 1) (zeros 1) [] [], problem 2 [cli 2] [dep 0] [one] (zeros 2) (zeros 2) [] [],
   problem 2 [cli 1] [dep 0] [one] (zeros 2) (zeros 2) [] []) = (index_error, index_error, None).
Proof. run. Qed.
Example test_raises_invalid_shipments :
  map (fun x => let '(p, dl, amount) := x in problem 1 [] [dep 0] [one] (zeros 2) (zeros 2) [] [ship p dl amount]) [(1%nat, 0%nat, []); (0%nat, 1%nat, []); (0%nat, 0%nat, [1])] =
  [index_error; index_error; value_error].
Proof. run. Qed.
Example test_replace_shipments :
  match replace_pdata okSmall None None None None None None None (Some [ship 0 1 [1]; ship 1 0 [0]]) with
  | Ok d => (p_numShipments okSmall, p_numShipments d, p_shipments d) | Err _ => (0%nat, 0%nat, []) end = (0%nat, 2%nat, [ship 0 1 [1]; ship 1 0 [0]]).
Proof. run. Qed.

(** ** tests/test_solve.py: tests/data/test_config.toml and empty_config.toml *)
Definition test_config : table := [
  ("display_interval", TFloat (b64_of_Z 10)); ("operators", TArray [TText "Relocate1"; TText "SwapTails"]);
  ("ils", TTable [("num_iters_no_improvement", TInt 10); ("history_length", TInt 1)]);
  ("neighbourhood", TTable [("weight_wait_time", TInt 0); ("num_neighbours", TInt 20); ("symmetric_proximity", TBool true)]);
  ("perturbation", TTable [("min_perturbations", TInt 1); ("max_perturbations", TInt 10)]);
  ("penalty", TTable [("solutions_between_updates", TInt 100); ("penalty_increase", TFloat (dec 125 100)); ("penalty_decrease", TFloat (dec 85 100));
                      ("target_feasible", TFloat (dec 43 100))])]%string.
Definition same (x y : b64) : bool := match Bcompare x y with Some Eq => true | _ => false end.
Example test_solve_params_from_file :
  match from_file test_config with
  | Ok p =>
      (sv_ils p, map (fun x => same (fst x) (snd x))
         (let q := sv_penalty p in [(Pm.pp_increase q, dec 125 100); (Pm.pp_decrease q, dec 85 100); (Pm.pp_target q, dec 43 100); (Pm.pp_tolerance q, dec 5 100);
                                    (Pm.pp_min q, dec 1 10); (Pm.pp_max q, b64_of_Z 100000); (np_wait (sv_neighbourhood p), b64_of_Z 0)]),
       (Pm.pp_between (sv_penalty p), np_num (sv_neighbourhood p), np_symmetric (sv_neighbourhood p)), sv_operators p, sv_perturbation p)
  | Err _ => (mk_ils_params 0 0 false, [], (0, 0%nat, false), [], Perturb.mk_pparams 0 0)
  end =
  (mk_ils_params 10 1 true, repeat true 7, (100, 20%nat, true), [OBinary (BRelocate 1); OBinary BSwapTails], Perturb.mk_pparams 1 10).
Proof. run. Qed.
Example test_solve_params_from_file_defaults : fails (from_file []) = false.
Proof. run. Qed.
