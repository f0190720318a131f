(** Property theorems C34-C36 and C46: problem data, replacement, pickling, equality. *)
From Coq Require Import Permutation.
From Verif Require Import Base DurationSegment Data LoadSegment Valid Route RouteSpec Cost CostFacts Penalty Solution
  SolutionFacts SolutionFacts2 Sample Bitset Pwl MatrixFacts DataCtor Pickle Equal.
Notation EmptyString := String.EmptyString.

(** C34: what each constructor accepts, and what follows for accepted data. *)
Theorem C34_client : forall location delivery pickup service early late release prize required group name c,
  make_client location delivery pickup service early late release prize required group name = Ok c <->
  (Forall (fun x => 0 <= x) delivery /\ Forall (fun x => 0 <= x) pickup /\ 0 <= service /\
   0 <= early <= late /\ 0 <= release <= late /\ 0 <= prize) /\
  c = mk_client location service early late (pad delivery pickup) (pad pickup delivery) release prize required group name.
Proof. exact make_client_spec. Qed.
Print Assumptions C34_client.

Theorem C34_depot : forall location early late service name x,
  make_depot location early late service name = Ok x <->
  (0 <= service /\ 0 <= early <= late) /\ x = mk_depot location early late service name.
Proof. exact make_depot_spec. Qed.
Print Assumptions C34_depot.

Theorem C34_shipment : forall ploc dloc pearly plate pservice dearly dlate dservice amount prize required name s,
  make_shipment ploc dloc pearly plate pservice dearly dlate dservice amount prize required name = Ok s <->
  (0 <= pservice /\ 0 <= pearly <= plate /\ 0 <= dservice /\ 0 <= dearly <= dlate /\ pearly <= dlate /\
   Forall (fun x => 0 <= x) amount /\ 0 <= prize) /\
  s = mk_shipment (mk_step ploc pearly plate pservice) (mk_step dloc dearly dlate dservice) amount prize required name.
Proof. exact make_shipment_spec. Qed.
Print Assumptions C34_shipment.

Theorem C34_group : forall clients required name g,
  make_group clients required name = Ok g <-> NoDup clients /\ g = mk_cgroup clients required name.
Proof. exact make_group_spec. Qed.
Print Assumptions C34_group.

Theorem C34_vehicle_type : forall numAvailable capacity start endd fixedCost early late shift maxDistance unitDistance
    unitDuration profile startLate initial reload maxReloads maxOvertime unitOvertime name v,
  make_vehicle numAvailable capacity start endd fixedCost early late shift maxDistance unitDistance
    unitDuration profile startLate initial reload maxReloads maxOvertime unitOvertime name = Ok v <->
  ((0 < numAvailable)%nat /\ Forall (fun x => 0 <= x) capacity /\ Forall (fun x => 0 <= x) initial /\
   (forall dim, dimv initial dim <= dimv capacity dim) /\
   0 <= early <= or_else startLate late /\ or_else startLate late <= late /\
   0 <= shift /\ 0 <= maxDistance /\ 0 <= unitDistance /\ 0 <= unitDuration /\ 0 <= maxOvertime /\ 0 <= unitOvertime) /\
  v = mk_vehicle numAvailable start endd (pad capacity initial) early late shift maxDistance fixedCost
        unitDistance unitDuration profile (or_else startLate late) (pad initial capacity) reload maxReloads
        maxOvertime unitOvertime (if maxOvertime <? MAXV - shift then shift + maxOvertime else MAXV) name.
Proof. exact make_vehicle_spec. Qed.
Print Assumptions C34_vehicle_type.

Theorem C34_padding : forall a b,
  length (pad a b) = Nat.max (length a) (length b) /\ forall dim, dimv (pad a b) dim = dimv a dim.
Proof. intros a b. split; [apply pad_length|intros dim; apply pad_nth]. Qed.
Print Assumptions C34_padding.

Theorem C34_data_accepts : forall locations clients depots vehicles dists durs groups shipments,
  let d := mk_pdata locations clients depots vehicles dists durs groups shipments in windows_ok d ->
  (data_ok d -> make_pdata locations clients depots vehicles dists durs groups shipments = Ok d) /\
  (~ data_ok d -> exists e, make_pdata locations clients depots vehicles dists durs groups shipments = Err e).
Proof. exact make_pdata_spec. Qed.
Print Assumptions C34_data_accepts.

Theorem C34_data_valid : forall d,
  Forall client_made (p_clients d) -> Forall depot_made (p_depots d) -> Forall shipment_made (p_shipments d) ->
  Forall vehicle_made (p_vehicles d) -> Forall group_made (p_groups d) ->
  make_pdata (p_locations d) (p_clients d) (p_depots d) (p_vehicles d) (p_dists d) (p_durs d) (p_groups d) (p_shipments d) = Ok d ->
  valid_data d /\ data_ok d /\ groups_nodup d /\ groups_known d /\
  Forall (fun v => length (v_initialLoad v) = p_numLoadDimensions d) (p_vehicles d).
Proof. exact made_data_valid. Qed.
Print Assumptions C34_data_valid.

(** C35: replacing. *)
Theorem C35_data : forall d l c x v di du g s d',
  replace_pdata d l c x v di du g s = Ok d' ->
  p_locations d' = or_else l (p_locations d) /\ p_clients d' = or_else c (p_clients d) /\
  p_depots d' = or_else x (p_depots d) /\ p_vehicles d' = or_else v (p_vehicles d) /\
  p_dists d' = or_else di (p_dists d) /\ p_durs d' = or_else du (p_durs d) /\
  p_groups d' = or_else g (p_groups d) /\ p_shipments d' = or_else s (p_shipments d).
Proof. exact replace_pdata_spec. Qed.
Print Assumptions C35_data.

Theorem C35_data_identity : forall locations clients depots vehicles dists durs groups shipments d,
  make_pdata locations clients depots vehicles dists durs groups shipments = Ok d ->
  replace_pdata d None None None None None None None None = Ok d.
Proof. exact replace_pdata_id. Qed.
Print Assumptions C35_data_identity.

Theorem C35_vehicle_type : forall v n cap s e f te tl sh md ud ut p sl il r mr mo uo nm v',
  replace_vehicle v n cap s e f te tl sh md ud ut p sl il r mr mo uo nm = Ok v' ->
  v_numAvailable v' = or_else n (v_numAvailable v) /\
  v_start v' = or_else s (v_start v) /\ v_end v' = or_else e (v_end v) /\
  v_fixedCost v' = or_else f (v_fixedCost v) /\ v_early v' = or_else te (v_early v) /\
  v_late v' = or_else tl (v_late v) /\ v_shift v' = or_else sh (v_shift v) /\
  v_maxDistance v' = or_else md (v_maxDistance v) /\ v_unitDistance v' = or_else ud (v_unitDistance v) /\
  v_unitDuration v' = or_else ut (v_unitDuration v) /\ v_profile v' = or_else p (v_profile v) /\
  v_startLate v' = or_else sl (v_startLate v) /\ v_reload v' = or_else r (v_reload v) /\
  v_maxReloads v' = or_else mr (v_maxReloads v) /\ v_maxOvertime v' = or_else mo (v_maxOvertime v) /\
  v_unitOvertime v' = or_else uo (v_unitOvertime v) /\ v_name v' = or_else nm (v_name v) /\
  (forall dim, dimv (v_capacity v') dim = dimv (or_else cap (v_capacity v)) dim) /\
  (forall dim, dimv (v_initialLoad v') dim = dimv (or_else il (v_initialLoad v)) dim).
Proof. exact replace_vehicle_spec. Qed.
Print Assumptions C35_vehicle_type.

Theorem C35_vehicle_type_identity : forall v, vehicle_made v ->
  replace_vehicle v None None None None None None None None None None None None None None None None None None None = Ok v.
Proof. exact replace_vehicle_id. Qed.
Print Assumptions C35_vehicle_type_identity.

(** Replacing the latest time of a vehicle type made without a latest start fails although the same
    vehicle type can be made afresh: the old latest start is kept. *)
Theorem C35_shrink_window_refuted : exists v v' : vehicle,
  make_vehicle 1 [] 0 0 0 0 100 10 10 1 0 0 None [] [] 0 0 0 EmptyString = Ok v /\
  make_vehicle 1 [] 0 0 0 0 50 10 10 1 0 0 None [] [] 0 0 0 EmptyString = Ok v' /\
  replace_vehicle v None None None None None None (Some 50) None None None None None None None None None None None None
    = Err InvalidArgument.
Proof. eexists. eexists. split; [vm_compute; reflexivity|]. split; [vm_compute; reflexivity|]. vm_compute. reflexivity. Qed.
Print Assumptions C35_shrink_window_refuted.

(** C36: pickling. *)
Theorem C36_values :
  (forall a, unpickle_activity (pickle_activity a) = a) /\
  (forall b, bs_ok b -> unpickle_bitset (pickle_bitset b) = b) /\
  (forall f, pwl_ok f -> unpickle_pwl (pickle_pwl f) = Ok f) /\
  (forall m, m_ok m -> (0 < m_rows m)%nat -> (0 < m_cols m)%nat -> unpickle_matrix (pickle_matrix m) = m) /\
  (forall s, unpickle_sched (pickle_sched s) = s).
Proof. split; [exact activity_rt|]. split; [exact bitset_rt|]. split; [exact pwl_rt|]. split; [exact matrix_rt|exact sched_rt]. Qed.
Print Assumptions C36_values.

Theorem C36_data_objects :
  (forall c, client_made c -> unpickle_client (pickle_client c) = Ok c) /\
  (forall x, depot_made x -> unpickle_depot (pickle_depot x) = Ok x) /\
  (forall s, shipment_made s -> unpickle_shipment (pickle_shipment s) = Ok s) /\
  (forall g, group_made g -> unpickle_group (pickle_group g) = Ok g) /\
  (forall v, vehicle_made v -> unpickle_vehicle (pickle_vehicle v) = Ok v).
Proof. split; [exact client_rt|]. split; [exact depot_rt|]. split; [exact shipment_rt|]. split; [exact group_rt|exact vehicle_rt]. Qed.
Print Assumptions C36_data_objects.

Theorem C36_problem_data : forall d,
  Forall client_made (p_clients d) -> Forall depot_made (p_depots d) -> Forall shipment_made (p_shipments d) ->
  Forall vehicle_made (p_vehicles d) -> Forall group_made (p_groups d) ->
  Forall m_ok (p_dists d ++ p_durs d) ->
  make_pdata (p_locations d) (p_clients d) (p_depots d) (p_vehicles d) (p_dists d) (p_durs d) (p_groups d) (p_shipments d) = Ok d ->
  unpickle_pdata (pickle_pdata d) = Ok d.
Proof. exact pdata_rt. Qed.
Print Assumptions C36_problem_data.

(** Everything of a route but its fixed vehicle cost survives; everything of a solution but the
    list of unplanned activities and the routes' fixed costs. *)
Theorem C36_route : forall r,
  unpickle_route (pickle_route r) =
  mk_route (r_schedule r) (r_distance r) (r_distanceCost r) (r_excessDistance r) (r_delivery r) (r_pickup r)
    (r_excessLoad r) (r_duration r) (r_overtime r) (r_durationCost r) (r_timeWarp r) (r_travel r) (r_service r)
    (r_startTime r) (r_releaseTime r) (r_slack r) 0 (r_prizes r) (r_vehicleType r) (r_numShipments r).
Proof. exact route_rt. Qed.
Print Assumptions C36_route.

Theorem C36_solution : forall s,
  unpickle_solution (pickle_solution s) =
  mk_solution (map no_fixed (so_routes s)) [] (so_numClients s) (so_numShipments s) (so_missingClients s)
    (so_missingGroups s) (so_missingShipments s) (so_distance s) (so_distanceCost s) (so_duration s)
    (so_overtime s) (so_durationCost s) (so_excessDistance s) (so_excessLoad s) (so_fixedCost s) (so_prizes s)
    (so_uncollected s) (so_timeWarp s).
Proof. exact solution_rt. Qed.
Print Assumptions C36_solution.

Theorem C36_solution_cost : forall ev s, solution_penalised ev (unpickle_solution (pickle_solution s)) =
  solution_penalised ev s - zsum (map (fun r => if r_empty r then 0 else r_fixedCost r) (so_routes s)).
Proof. exact solution_rt_cost. Qed.
Print Assumptions C36_solution_cost.

Theorem C36_route_refuted : exists r,
  make_route sample [AClient 3] 1 = Ok r /\
  r_fixedCost (unpickle_route (pickle_route r)) <> r_fixedCost r /\
  route_eqb (unpickle_route (pickle_route r)) r = true.
Proof. eexists. split; [vm_compute; reflexivity|]. split; [vm_compute; discriminate|vm_compute; reflexivity]. Qed.
Print Assumptions C36_route_refuted.

Theorem C36_solution_cost_refuted : exists r s,
  make_route sample [AClient 3] 1 = Ok r /\ make_solution sample [r] = Ok s /\
  so_unplanned (unpickle_solution (pickle_solution s)) <> so_unplanned s /\
  forall ev, solution_penalised ev (unpickle_solution (pickle_solution s)) = solution_penalised ev s - 4.
Proof.
  eexists. eexists. split; [vm_compute; reflexivity|]. split; [vm_compute; reflexivity|].
  split; [vm_compute; discriminate|]. intros ev. rewrite solution_rt_cost. f_equal.
Qed.
Print Assumptions C36_solution_cost_refuted.

(** C46: equality. *)
Theorem C46_route_equality : forall d r r', built d r -> built d r' ->
  route_eqb r r' = true <-> r_acts r = r_acts r' /\ r_vehicleType r = r_vehicleType r'.
Proof. exact route_eqb_spec. Qed.
Print Assumptions C46_route_equality.

Theorem C46_solution_equality : forall d a b s t, groups_nodup d -> groups_known d ->
  Forall (built d) a -> Forall (built d) b -> make_solution d a = Ok s -> make_solution d b = Ok t ->
  solution_eqb s t = true <->
  Permutation (map (fun r => (r_acts r, r_vehicleType r)) a) (map (fun r => (r_acts r, r_vehicleType r)) b).
Proof. exact solution_eqb_spec. Qed.
Print Assumptions C46_solution_equality.

(** ** Cases *)
Example C34_case : data_ok sample /\ windows_ok sample /\
  Forall client_made (p_clients sample) /\ Forall depot_made (p_depots sample) /\
  Forall shipment_made (p_shipments sample) /\ Forall vehicle_made (p_vehicles sample) /\
  Forall group_made (p_groups sample) /\ Forall m_ok (p_dists sample ++ p_durs sample) /\
  make_pdata (p_locations sample) (p_clients sample) (p_depots sample) (p_vehicles sample) (p_dists sample)
    (p_durs sample) (p_groups sample) (p_shipments sample) = Ok sample.
Proof.
  assert (W : windows_ok sample) by (split; repeat constructor; cbn; lia).
  assert (M : make_pdata (p_locations sample) (p_clients sample) (p_depots sample) (p_vehicles sample) (p_dists sample)
    (p_durs sample) (p_groups sample) (p_shipments sample) = Ok sample) by (vm_compute; reflexivity).
  split; [|split; [exact W|]].
  - apply (data_checks_spec sample W). apply checked_ok in M. apply M.
  - split; [|split; [|split; [|split; [|split; [|split; [|exact M]]]]]].
    + repeat constructor; try (vm_compute; discriminate).
      all: match goal with |- exists _ _ _ _ _ _ _ _ _ _ _, _ = Ok ?c =>
             exists (c_loc c), (c_delivery c), (c_pickup c), (c_service c), (c_early c), (c_late c), (c_release c),
               (c_prize c), (c_required c), (c_group c), (c_name c) end; vm_compute; reflexivity.
    + repeat constructor; try (vm_compute; discriminate).
      all: do 5 eexists; apply make_depot_spec; split; [|reflexivity]; cbn; lia.
    + repeat constructor; try (vm_compute; discriminate).
      all: do 12 eexists; apply make_shipment_spec; split; [|reflexivity];
           repeat split; try (vm_compute; discriminate); repeat (constructor; [lia|]); constructor.
    + constructor; [|constructor; [|constructor]].
      * split; [vm_compute; discriminate|].
        exists 2%nat, [6; 4], 0%nat, 0%nat, 10, 0, 100, 50, 60, 2, 1, 0%nat, (Some 40), [1; 0], [1%nat], 2, 20, 3, EmptyString.
        vm_compute. reflexivity.
      * split; [vm_compute; discriminate|].
        exists 1%nat, [8; 3], 0%nat, 1%nat, 4, 0, 95, MAXV, 80, 1, 0, 1%nat, None, [0; 0], [], 0, 0, 0, EmptyString.
        vm_compute. reflexivity.
    + constructor; [|constructor]. exists [1%nat; 2%nat], true, EmptyString. vm_compute. reflexivity.
    + repeat constructor.
Qed.

Example C35_case : exists v',
  replace_vehicle (p_vehicle sample 0) (Some 5%nat) None None None None None None None None None None None None
    (Some [2]) None None None None None = Ok v' /\ v_numAvailable v' = 5%nat /\ v_initialLoad v' = [2; 0] /\
  exists d', replace_pdata sample None None None (Some [v']) None None None None = Ok d' /\ p_vehicles d' = [v'].
Proof.
  eexists. split; [vm_compute; reflexivity|]. split; [reflexivity|]. split; [reflexivity|].
  eexists. split; [vm_compute; reflexivity|reflexivity].
Qed.

Example C46_case : exists r1 r2 s t,
  make_route sample [AClient 0; APickup 0; ADelivery 0; ADepot 1; AClient 1] 0 = Ok r1 /\
  make_route sample [AClient 3] 1 = Ok r2 /\
  make_solution sample [r1; r2] = Ok s /\ make_solution sample [r2; r1] = Ok t /\
  solution_eqb s t = true /\ route_eqb r1 r2 = false.
Proof.
  do 4 eexists. split; [vm_compute; reflexivity|]. split; [vm_compute; reflexivity|].
  split; [vm_compute; reflexivity|]. split; [vm_compute; reflexivity|]. split; vm_compute; reflexivity.
Qed.
