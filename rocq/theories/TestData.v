(** Instances of the repository's own unit tests (tests/data, tests/conftest.py), for the Test*.v files.

    The code cannot be run here, but its tests record what it returns.  The Test*.v files evaluate the model on the
    inputs of those tests and compare with the values that the tests expect.  This is evidence that the
    model follows the code; it proves no property. *)
From Coq Require Import ZArith List String Bool.
From Verif Require Import Base DurationSegment Data DataCtor LoadSegment Read SearchRoute Route Solution Cost Penalty.
Import ListNotations.
Local Open Scope Z_scope.

Definition ok {A} (dflt : A) (x : res A) : A := match x with Ok a => a | Err _ => dflt end.
Definition fails {A} (x : res A) : bool := match x with Ok _ => false | Err _ => true end.
Definition no_data := mk_pdata [] [] [] [] [] [] [] [].
Definition load (f : instance Z) : pdata := ok no_data (read Z 0 (fun x => x) f).

Definition matOk : list Z :=
  [0; 1544; 1944; 1931; 1476; 1726; 0; 1992; 1427; 1593; 1965; 1975; 0; 621; 1090; 2063; 1433; 647; 0; 818; 1475; 1594; 1090; 828; 0].
Definition coordOk : list (Z * Z) := [(2334, 726); (226, 1297); (590, 530); (435, 718); (1191, 639)].
Definition winOk : list (Z * Z) := [(0, 45000); (15600, 22500); (12000, 19500); (8400, 15300); (12000, 19500)].
Definition servOk : list Z := [0; 360; 360; 420; 360].
Definition demOk : list (list Z) := [[0]; [5]; [5]; [3]; [5]].
(** The sections that differ between the variants of OkSmall.txt. *)
Definition okFile (depots : list Z) (dem : list (list Z)) (serv : list Z) (win : list (Z * Z)) (rel prize : option (list Z)) (cap : spec (list Z))
    (reload : option (list (list Z))) (vdepot : option (list Z)) (maxReloads : option (spec Z)) (groups : option (list (list Z))) : instance Z :=
  mk_instance "" 5 (Some depots) (Some 3%nat) (5%nat, 5%nat, matOk) None (Some dem) None (Some coordOk) (Some (Each serv)) (Some win)
    (option_map Each rel) prize (Some cap) None reload vdepot None None maxReloads None None groups None.
Definition cap10 : spec (list Z) := Uniform [10].
(** tests/data/OkSmall.txt, and the others in the order of tests/conftest.py *)
Definition okSmall : pdata := Eval vm_compute in load (okFile [0] demOk servOk winOk None None cap10 None None None None).
Definition okPrizes : pdata := Eval vm_compute in load (okFile [0] demOk servOk winOk None (Some [0; 0; 15; 10; 10]) cap10 None None None None).
Definition okMultiDepot : pdata := Eval vm_compute in
  load (okFile [0; 1] [[0]; [0]; [5]; [3]; [5]] [0; 0; 360; 420; 360] [(0, 45000); (5000, 20000); (12000, 19500); (8400, 15300); (12000, 19500)]
    None None cap10 None (Some [1; 1; 2]) None None).
Definition okMultiLoad : pdata := Eval vm_compute in
  load (okFile [0] [[0; 0]; [5; 1]; [5; 1]; [3; 1]; [5; 2]] servOk winOk None None (Each [[10; 2]; [10; 2]; [10; 2]]) None None None None).
Definition okTrips : pdata := Eval vm_compute in
  load (okFile [0] demOk servOk winOk None None cap10 (Some [[1]; []; [1]]) None (Some (Uniform 1)) None).
Definition okGroups : pdata := Eval vm_compute in load (okFile [0] demOk servOk winOk None None cap10 None None None (Some [[2; 3; 4]; [5]])).
Definition okRelease : pdata := Eval vm_compute in
  load (okFile [0] demOk servOk winOk (Some [0; 20000; 5000; 5000; 1000]) None cap10 None None None None).
Definition okWait : pdata := Eval vm_compute in
  load (okFile [0] demOk servOk [(0, 45000); (15600, 22500); (12000, 15000); (8400, 15300); (18000, 19500)] None None cap10 None None None None).

(** tests/data/SmallShipments.txt *)
Definition matSh : list Z :=
  [0; 3785; 2109; 8993; 7823; 6293; 3667; 7925; 9122;
   3785; 0; 3677; 6332; 5780; 5261; 6700; 4455; 6307;
   2109; 3677; 0; 9811; 6000; 4280; 3088; 8132; 9847;
   8993; 6332; 9811; 0; 10916; 11200; 12560; 2941; 447;
   7823; 5780; 6000; 10916; 0; 2109; 8249; 8105; 10701;
   6293; 5261; 4280; 11200; 2109; 0; 6198; 8640; 11064;
   3667; 6700; 3088; 12560; 8249; 6198; 0; 11139; 12650;
   7925; 4455; 8132; 2941; 8105; 8640; 11139; 0; 2647;
   9122; 6307; 9847; 447; 10701; 11064; 12650; 2647; 0].
Definition smallShipments : pdata := Eval vm_compute in
  load (mk_instance "PDPTW" 9 (Some [0]) (Some 2%nat) (9%nat, 9%nat, matSh) None None None
    (Some [(70, 70); (33, 78); (59, 52); (10, 137); (4, 28); (25, 26); (86, 37); (1, 109); (6, 135)]) None None None None (Some (Uniform [50]))
    None None None None None None None None None
    (Some [mk_pd_row 0 0 135100 0 0 0; mk_pd_row (-20) 7500 80900 900 3 0; mk_pd_row 20 12800 17900 900 0 2; mk_pd_row 30 14700 21900 900 0 5;
           mk_pd_row (-30) 61600 66100 900 4 0; mk_pd_row 20 47800 53100 900 0 7; mk_pd_row (-20) 55300 60200 900 6 0;
           mk_pd_row (-20) 61600 68000 900 9 0; mk_pd_row 20 35100 38600 900 0 8])).

(** ** ProblemData.replace and VehicleType.replace *)
Definition with_vehicles (d : pdata) (vs : list vehicle) : pdata :=
  mk_pdata (p_locations d) (p_clients d) (p_depots d) vs (p_dists d) (p_durs d) (p_groups d) (p_shipments d).
Definition with_clients (d : pdata) (cs : list client) : pdata :=
  mk_pdata (p_locations d) cs (p_depots d) (p_vehicles d) (p_dists d) (p_durs d) (p_groups d) (p_shipments d).
Definition with_depots (d : pdata) (ds : list depot) : pdata :=
  mk_pdata (p_locations d) (p_clients d) ds (p_vehicles d) (p_dists d) (p_durs d) (p_groups d) (p_shipments d).
Definition with_groups (d : pdata) (gs : list cgroup) : pdata :=
  mk_pdata (p_locations d) (p_clients d) (p_depots d) (p_vehicles d) (p_dists d) (p_durs d) gs (p_shipments d).
Definition with_shipments (d : pdata) (ss : list shipment) : pdata :=
  mk_pdata (p_locations d) (p_clients d) (p_depots d) (p_vehicles d) (p_dists d) (p_durs d) (p_groups d) ss.
Definition with_matrices (d : pdata) (dists durs : list matrix) : pdata :=
  mk_pdata (p_locations d) (p_clients d) (p_depots d) (p_vehicles d) dists durs (p_groups d) (p_shipments d).
(** VehicleType(n, capacity=cap): the other arguments have their defaults. *)
Definition veh (n : nat) (cap : list Z) : vehicle := mk_vehicle n 0 0 cap 0 MAXV MAXV MAXV 0 1 0 0 MAXV [] [] SIZE_MAX 0 0 MAXV EmptyString.
Definition v_num (n : nat) (v : vehicle) := mk_vehicle n (v_start v) (v_end v) (v_capacity v) (v_early v) (v_late v) (v_shift v) (v_maxDistance v)
  (v_fixedCost v) (v_unitDistance v) (v_unitDuration v) (v_profile v) (v_startLate v) (v_initialLoad v) (v_reload v) (v_maxReloads v) (v_maxOvertime v)
  (v_unitOvertime v) (v_maxDuration v) (v_name v).
Definition v_ends (s e : nat) (v : vehicle) := mk_vehicle (v_numAvailable v) s e (v_capacity v) (v_early v) (v_late v) (v_shift v) (v_maxDistance v)
  (v_fixedCost v) (v_unitDistance v) (v_unitDuration v) (v_profile v) (v_startLate v) (v_initialLoad v) (v_reload v) (v_maxReloads v) (v_maxOvertime v)
  (v_unitOvertime v) (v_maxDuration v) (v_name v).
Definition v_cap (cap : list Z) (v : vehicle) := mk_vehicle (v_numAvailable v) (v_start v) (v_end v) cap (v_early v) (v_late v) (v_shift v) (v_maxDistance v)
  (v_fixedCost v) (v_unitDistance v) (v_unitDuration v) (v_profile v) (v_startLate v) (v_initialLoad v) (v_reload v) (v_maxReloads v) (v_maxOvertime v)
  (v_unitOvertime v) (v_maxDuration v) (v_name v).
(** Time window and latest start. *)
Definition v_tw (early late startLate : Z) (v : vehicle) := mk_vehicle (v_numAvailable v) (v_start v) (v_end v) (v_capacity v) early late (v_shift v)
  (v_maxDistance v) (v_fixedCost v) (v_unitDistance v) (v_unitDuration v) (v_profile v) startLate (v_initialLoad v) (v_reload v) (v_maxReloads v)
  (v_maxOvertime v) (v_unitOvertime v) (v_maxDuration v) (v_name v).
(** Shift duration and overtime; VehicleType.cpp:71-75 for the maximum duration. *)
Definition v_shifts (shift overtime : Z) (v : vehicle) := mk_vehicle (v_numAvailable v) (v_start v) (v_end v) (v_capacity v) (v_early v) (v_late v) shift
  (v_maxDistance v) (v_fixedCost v) (v_unitDistance v) (v_unitDuration v) (v_profile v) (v_startLate v) (v_initialLoad v) (v_reload v) (v_maxReloads v)
  overtime (v_unitOvertime v) (if overtime <? MAXV - shift then shift + overtime else MAXV) (v_name v).
Definition v_maxd (maxDistance : Z) (v : vehicle) := mk_vehicle (v_numAvailable v) (v_start v) (v_end v) (v_capacity v) (v_early v) (v_late v) (v_shift v)
  maxDistance (v_fixedCost v) (v_unitDistance v) (v_unitDuration v) (v_profile v) (v_startLate v) (v_initialLoad v) (v_reload v) (v_maxReloads v)
  (v_maxOvertime v) (v_unitOvertime v) (v_maxDuration v) (v_name v).
(** Fixed cost, and costs per unit of distance, duration and overtime. *)
Definition v_costs (fixed dist dur over : Z) (v : vehicle) := mk_vehicle (v_numAvailable v) (v_start v) (v_end v) (v_capacity v) (v_early v) (v_late v)
  (v_shift v) (v_maxDistance v) fixed dist dur (v_profile v) (v_startLate v) (v_initialLoad v) (v_reload v) (v_maxReloads v)
  (v_maxOvertime v) over (v_maxDuration v) (v_name v).
Definition v_prof (profile : nat) (v : vehicle) := mk_vehicle (v_numAvailable v) (v_start v) (v_end v) (v_capacity v) (v_early v) (v_late v) (v_shift v)
  (v_maxDistance v) (v_fixedCost v) (v_unitDistance v) (v_unitDuration v) profile (v_startLate v) (v_initialLoad v) (v_reload v) (v_maxReloads v)
  (v_maxOvertime v) (v_unitOvertime v) (v_maxDuration v) (v_name v).
Definition v_init (load : list Z) (v : vehicle) := mk_vehicle (v_numAvailable v) (v_start v) (v_end v) (v_capacity v) (v_early v) (v_late v) (v_shift v)
  (v_maxDistance v) (v_fixedCost v) (v_unitDistance v) (v_unitDuration v) (v_profile v) (v_startLate v) load (v_reload v) (v_maxReloads v)
  (v_maxOvertime v) (v_unitOvertime v) (v_maxDuration v) (v_name v).
Definition v_rel (reload : list nat) (maxReloads : Z) (v : vehicle) := mk_vehicle (v_numAvailable v) (v_start v) (v_end v) (v_capacity v) (v_early v) (v_late v)
  (v_shift v) (v_maxDistance v) (v_fixedCost v) (v_unitDistance v) (v_unitDuration v) (v_profile v) (v_startLate v) (v_initialLoad v) reload maxReloads
  (v_maxOvertime v) (v_unitOvertime v) (v_maxDuration v) (v_name v).
Definition veh0 (d : pdata) : vehicle := p_vehicle d 0.

(** Client and Depot with defaults. *)
Definition cli (loc : nat) : client := mk_client loc 0 0 MAXV [] [] 0 0 true None EmptyString.
Definition c_tw (early late service release : Z) (c : client) := mk_client (c_loc c) service early late (c_delivery c) (c_pickup c) release (c_prize c)
  (c_required c) (c_group c) (c_name c).
Definition c_dem (delivery pickup : list Z) (c : client) := mk_client (c_loc c) (c_service c) (c_early c) (c_late c) delivery pickup (c_release c) (c_prize c)
  (c_required c) (c_group c) (c_name c).
Definition c_opt (prize : Z) (required : bool) (group : option nat) (c : client) := mk_client (c_loc c) (c_service c) (c_early c) (c_late c) (c_delivery c)
  (c_pickup c) (c_release c) prize required group (c_name c).
Definition dep (loc : nat) : depot := mk_depot loc 0 MAXV 0 EmptyString.
Definition locs (n : nat) : list location := repeat (mk_location 0 0 EmptyString) n.
Definition mat (rows : list (list Z)) : matrix := mk_matrix (List.length rows) (List.length rows) (concat rows).
Definition zeros (n : nat) : matrix := mk_matrix n n (repeat 0 (n * n)).
(** ProblemData(locations, clients, depots, vehicle_types, distances, durations) passes the constructor's checks. *)
Definition data (n : nat) (cs : list client) (ds : list depot) (vs : list vehicle) (dists durs : list matrix) : pdata :=
  ok no_data (make_pdata (locs n) cs ds vs dists durs [] []).

(** CostEvaluator with integral penalties. *)
Definition evaluator_of (loads : list Z) (tw dist : Z) : evaluator :=
  ok (mk_evaluator [] (fun _ => 0) (fun _ => 0)) (make_evaluator (map b64_of_Z loads) (b64_of_Z tw) (b64_of_Z dist)).

(** tests/conftest.py: ok_small_two_profiles, ok_small_overtime *)
Definition twice (m : matrix) : matrix := mk_matrix (m_rows m) (m_cols m) (map (Z.mul 2) (m_data m)).
Definition okTwoProfiles : pdata := Eval vm_compute in
  with_vehicles (with_matrices okSmall (p_dists okSmall ++ map twice (p_dists okSmall)) (p_durs okSmall ++ map twice (p_durs okSmall)))
    [veh 3 [10]; v_prof 1 (veh 3 [10])].
Definition okOvertime : pdata := Eval vm_compute in with_vehicles okSmall [v_costs 0 0 1 10 (v_shifts 5000 1000 (veh0 okSmall))].
(** tests/conftest.py: small_optional_shipments *)
Definition s_opt (prize : Z) (required : bool) (s : shipment) := mk_shipment (s_pickup s) (s_delivery s) (s_amount s) prize required (s_name s).
Definition smallOptional : pdata := Eval vm_compute in
  with_shipments smallShipments (map (fun sp => s_opt (snd sp) false (fst sp)) (combine (p_shipments smallShipments) [10000; 2000; 10000; 1000])).

Example data_read : map p_numClients [okSmall; okPrizes; okMultiDepot; okMultiLoad; okTrips; okGroups; okRelease; okWait] = [4; 4; 3; 4; 4; 4; 4; 4]%nat /\
  List.length (p_shipments smallShipments) = 4%nat /\ List.length (p_shipments smallOptional) = 4%nat.
Proof. vm_compute. repeat split. Qed.
