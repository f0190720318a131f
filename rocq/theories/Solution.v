(** Model of pyvrp/cpp/Solution.{h,cpp}. *)
From Verif Require Import Base DurationSegment Data LoadSegment SearchRoute Route Cost.

(** Solution.h:46-64 *)
Record solution := mk_solution {
  so_routes : list route;
  so_unplanned : list activity;
  so_numClients : nat;
  so_numShipments : nat;
  so_missingClients : nat;
  so_missingGroups : nat;
  so_missingShipments : nat;
  so_distance : Z;
  so_distanceCost : Z;
  so_duration : Z;
  so_overtime : Z;
  so_durationCost : Z;
  so_excessDistance : Z;
  so_excessLoad : list Z;
  so_fixedCost : Z;
  so_prizes : Z;
  so_uncollected : Z;
  so_timeWarp : Z }.

(** Solution.cpp:266-312: the loop over the activities of one route.  The model only tracks
    clients and pickups, as the code does. *)
Fixpoint visit_acts (cv sv : list bool) (acts : list activity) : res (list bool * list bool) :=
  match acts with
  | [] => Ok (cv, sv)
  | AClient i :: more =>
      if bit cv i then Err RuntimeErr else visit_acts (upd cv i true) sv more
  | APickup i :: more =>
      if bit sv i then Err RuntimeErr else visit_acts cv (upd sv i true) more
  | _ :: more => visit_acts cv sv more
  end.

(** Solution.cpp:266-312: the loop over the routes. *)
Fixpoint visit_routes (cv sv : list bool) (used : list nat) (routes : list route)
  : res (list bool * list bool * list nat) :=
  match routes with
  | [] => Ok (cv, sv, used)
  | r :: more =>
      if r_empty r then Err RuntimeErr
      else
        let used := upd used (r_vehicleType r) (S (nth (r_vehicleType r) used 0%nat)) in
        match visit_acts cv sv (map sa_act (r_schedule r)) with
        | Err e => Err e
        | Ok (cv, sv) => visit_routes cv sv used more
        end
  end.

(** Solution.cpp:314-334: required but missing clients and shipments, unplanned activities. *)
Definition missing_clients (d : pdata) (cv : list bool) : nat :=
  length (filter (fun i => negb (bit cv i) && c_required (p_client d i)) (seq 0 (p_numClients d))).
Definition missing_shipments (d : pdata) (sv : list bool) : nat :=
  length (filter (fun i => negb (bit sv i) && s_required (p_shipment d i)) (seq 0 (p_numShipments d))).
Definition unplanned_of (d : pdata) (cv sv : list bool) : list activity :=
  flat_map (fun i => if bit cv i then [] else [AClient i]) (seq 0 (p_numClients d))
  ++ flat_map (fun i => if bit sv i then [] else [APickup i; ADelivery i]) (seq 0 (p_numShipments d)).

(** Solution.cpp:336-354: the loop over the groups; the number of missing groups. *)
Definition group_count (cv : list bool) (g : cgroup) : nat := length (filter (bit cv) (g_clients g)).
Fixpoint check_groups (cv : list bool) (groups : list cgroup) (missing : nat) : res nat :=
  match groups with
  | [] => Ok missing
  | g :: more =>
      let count := group_count cv g in
      if (1 <? count)%nat then Err RuntimeErr
      else check_groups cv more (if g_required g && (count =? 0)%nat then S missing else missing)
  end.

(** Solution.cpp:19-50: evaluate(). *)
Definition all_prizes (d : pdata) : Z :=
  zsum (map c_prize (p_clients d)) + zsum (map s_prize (p_shipments d)).
Definition sum_of (f : route -> Z) (routes : list route) : Z := zsum (map f routes).
Definition count_of (f : route -> nat) (routes : list route) : nat :=
  fold_right (fun r n => (f r + n)%nat) 0%nat routes.

(** Solution.cpp:257-366: the constructor. *)
Definition make_solution (d : pdata) (routes : list route) : res solution :=
  if (p_numVehicles d <? length routes)%nat then Err RuntimeErr
  else
    match visit_routes (repeat false (p_numClients d)) (repeat false (p_numShipments d))
            (repeat 0%nat (p_numVehicleTypes d)) routes with
    | Err e => Err e
    | Ok (cv, sv, used) =>
        match check_groups cv (p_groups d) 0 with
        | Err e => Err e
        | Ok missingGroups =>
            if existsb (fun vt => (v_numAvailable (p_vehicle d vt) <? nth vt used 0)%nat)
                       (seq 0 (p_numVehicleTypes d))
            then Err RuntimeErr
            else
              let prizes := sum_of r_prizes routes in
              Ok (mk_solution routes (unplanned_of d cv sv)
                    (count_of r_numClients routes) (count_of r_numShipments routes)
                    (missing_clients d cv) missingGroups (missing_shipments d sv)
                    (sum_of r_distance routes) (sum_of r_distanceCost routes)
                    (sum_of r_duration routes) (sum_of r_overtime routes)
                    (sum_of r_durationCost routes) (sum_of r_excessDistance routes)
                    (map (fun dim => sum_of (fun r => nth dim (r_excessLoad r) 0) routes)
                         (seq 0 (p_numLoadDimensions d)))
                    (sum_of r_fixedCost routes) prizes (all_prizes d - prizes)
                    (sum_of r_timeWarp routes))
        end
    end.

(** Solution.cpp:246-255: from lists of client indices, all with the first vehicle type. *)
Fixpoint make_routes (d : pdata) (visits : list (list nat)) : res (list route) :=
  match visits with
  | [] => Ok []
  | x :: more =>
      match make_route_clients d x 0 with
      | Err e => Err e
      | Ok r => match make_routes d more with Err e => Err e | Ok rs => Ok (r :: rs) end
      end
  end.
Definition make_solution_clients (d : pdata) (visits : list (list nat)) : res solution :=
  match make_routes d visits with Err e => Err e | Ok rs => make_solution d rs end.

(** Solution.cpp:52-110 *)
Definition so_numRoutes (s : solution) : nat := length (so_routes s).
Definition so_numTrips (s : solution) : nat := count_of r_numTrips (so_routes s).
Definition so_empty (s : solution) : bool :=
  (so_numClients s =? 0)%nat && (so_numShipments s =? 0)%nat && (so_numRoutes s =? 0)%nat.
Definition so_hasExcessLoad (s : solution) : bool := existsb (fun x => x >? 0) (so_excessLoad s).
Definition so_hasExcessDistance (s : solution) : bool := so_excessDistance s >? 0.
Definition so_hasTimeWarp (s : solution) : bool := so_timeWarp s >? 0.
Definition so_isComplete (s : solution) : bool :=
  (so_missingClients s =? 0)%nat && (so_missingGroups s =? 0)%nat && (so_missingShipments s =? 0)%nat.
Definition so_isFeasible (s : solution) : bool :=
  negb (so_hasExcessLoad s) && negb (so_hasTimeWarp s) && negb (so_hasExcessDistance s)
  && so_isComplete s.

(** Solution.cpp:405-413 and CostEvaluator.h:212-218 *)
Definition solution_penalised (ev : evaluator) (s : solution) : Z :=
  so_uncollected s + zsum (map (route_penalised ev) (so_routes s)).
Definition solution_cost (ev : evaluator) (s : solution) : Z :=
  if so_isFeasible s then solution_penalised ev s else MAXV.
