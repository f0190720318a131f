(** Model of pyvrp/cpp/Route.{h,cpp}: the route object of a solution. *)
From Verif Require Import Base DurationSegment Data LoadSegment.

(** Route.h:56-80: an activity with its place in the timetable. *)
Record sched := mk_sched {
  sa_act : activity;
  sa_trip : nat;
  sa_start : Z;
  sa_end : Z;
  sa_wait : Z;
  sa_tw : Z }.

(** Route.h:82-105 *)
Record route := mk_route {
  r_schedule : list sched;
  r_distance : Z;
  r_distanceCost : Z;
  r_excessDistance : Z;
  r_delivery : list Z;
  r_pickup : list Z;
  r_excessLoad : list Z;
  r_duration : Z;
  r_overtime : Z;
  r_durationCost : Z;
  r_timeWarp : Z;
  r_travel : Z;
  r_service : Z;
  r_startTime : Z;
  r_releaseTime : Z;
  r_slack : Z;
  r_fixedCost : Z;
  r_prizes : Z;
  r_vehicleType : nat;
  r_numShipments : nat }.

(** Bit sets used by [validate] as lists of booleans of the right length; DynamicBitset itself is
    modelled in Bitset.v. *)
Definition bit (l : list bool) (i : nat) : bool := nth i l false.
Fixpoint bits_eqb (a b : list bool) : bool :=
  match a, b with
  | [], [] => true
  | x :: a', y :: b' => Bool.eqb x y && bits_eqb a' b'
  | _, _ => false
  end.

(** Route.cpp:52-137, the loop.  Every failure is std::invalid_argument.  The result is the
    number of trips and the two bit sets. *)
Fixpoint validate_loop (d : pdata) (numTrips : nat) (pv dv : list bool) (acts : list activity)
  : res (nat * list bool * list bool) :=
  match acts with
  | [] => Ok (numTrips, pv, dv)
  | a :: more =>
      match a with
      | ADepot i =>
          if (p_numDepots d <=? i)%nat then Err InvalidArgument
          else if negb (bits_eqb pv dv) then Err InvalidArgument
          else validate_loop d (S numTrips) pv dv more
      | AClient i =>
          if (p_numClients d <=? i)%nat then Err InvalidArgument
          else validate_loop d numTrips pv dv more
      | APickup i =>
          if (p_numShipments d <=? i)%nat then Err InvalidArgument
          else if bit pv i then Err InvalidArgument
          else validate_loop d numTrips (upd pv i true) dv more
      | ADelivery i =>
          if (p_numShipments d <=? i)%nat then Err InvalidArgument
          else if negb (bit pv i) then Err InvalidArgument
          else if bit dv i then Err InvalidArgument
          else validate_loop d numTrips pv (upd dv i true) more
      end
  end.

(** Route.cpp:52-137 *)
Definition validate (d : pdata) (acts : list activity) (vehicleType : nat) : res unit :=
  let none := repeat false (p_numShipments d) in
  match validate_loop d 1 none none acts with
  | Err e => Err e
  | Ok (numTrips, pv, dv) =>
      if negb (forallb (fun i => Bool.eqb (bit pv i) (bit dv i)) (seq 0 (p_numShipments d)))
      then Err InvalidArgument
      else if Z.of_nat numTrips >? v_maxTrips (p_vehicle d vehicleType)
      then Err InvalidArgument
      else Ok tt
  end.

(** State of the backward pass: segment, next location, release times, service and travel. *)
Record bpass := mk_bpass {
  bp_ds : dseg; bp_loc : nat; bp_rels : list Z; bp_service : Z; bp_travel : Z }.

(** Route.cpp:148-150 *)
Definition bpass_init (d : pdata) (v : vehicle) : bpass :=
  let e := p_depot d (v_end v) in
  mk_bpass (ds_merge0 (ds_depot e 0) (ds_vehicle v (v_late v))) (d_loc e) [] 0 0.

(** Route.cpp:151-209, one iteration of the loop. *)
Definition bpass_step (d : pdata) (v : vehicle) (a : activity) (b : bpass) : bpass :=
  let durations := p_dur d (v_profile v) in
  match a with
  | ADepot i =>
      let dep := p_depot d i in
      let edge := durations (d_loc dep) (bp_loc b) in
      let ds := ds_merge edge (ds_depot dep (d_service dep)) (bp_ds b) in
      mk_bpass (ds_finaliseFront ds) (d_loc dep) (ds_rel ds :: bp_rels b)
               (bp_service b + d_service dep) (bp_travel b + edge)
  | AClient i =>
      let c := p_client d i in
      let edge := durations (c_loc c) (bp_loc b) in
      mk_bpass (ds_merge edge (ds_client c) (bp_ds b)) (c_loc c) (bp_rels b)
               (bp_service b + c_service c) (bp_travel b + edge)
  | APickup i =>
      let s := s_pickup (p_shipment d i) in
      let edge := durations (st_loc s) (bp_loc b) in
      mk_bpass (ds_merge edge (ds_step s) (bp_ds b)) (st_loc s) (bp_rels b)
               (bp_service b + st_service s) (bp_travel b + edge)
  | ADelivery i =>
      let s := s_delivery (p_shipment d i) in
      let edge := durations (st_loc s) (bp_loc b) in
      mk_bpass (ds_merge edge (ds_step s) (bp_ds b)) (st_loc s) (bp_rels b)
               (bp_service b + st_service s) (bp_travel b + edge)
  end.

Fixpoint bpass_loop (d : pdata) (v : vehicle) (acts : list activity) : bpass :=
  match acts with
  | [] => bpass_init d v
  | a :: more => bpass_step d v a (bpass_loop d v more)
  end.

(** Route.cpp:211-220: the start depot and the vehicle. *)
Definition bpass_final (d : pdata) (v : vehicle) (acts : list activity) : bpass :=
  let b := bpass_loop d v acts in
  let start := p_depot d (v_start v) in
  let edge := p_dur d (v_profile v) (d_loc start) (bp_loc b) in
  let ds := ds_merge edge (ds_depot start (d_service start)) (bp_ds b) in
  let ds := ds_merge0 (ds_vehicle v (v_startLate v)) ds in
  mk_bpass ds (d_loc start) (ds_rel ds :: bp_rels b)
           (bp_service b + d_service start) (bp_travel b + edge).

(** Route.cpp:231-247: [handle].  Returns the new time and the timetable entry. *)
Definition handle (now : Z) (a : activity) (trip : nat) (early late service : Z) : Z * sched :=
  let wait := Z.max (early - now) 0 in
  let w := Z.max (now - late) 0 in
  let now := now + wait - w in
  (now + service, mk_sched a trip now (now + service) wait w).

(** Route.cpp:255-320: the forward loop; [rels] are the release times of the trips after the
    current one, [releaseTimes[tripIdx + 1 ..]]. *)
Fixpoint fpass (d : pdata) (v : vehicle) (now : Z) (prevLoc : nat) (tripIdx : nat) (rels : list Z)
    (numTrips : nat) (acts : list activity) : list sched :=
  let durations := p_dur d (v_profile v) in
  match acts with
  | [] =>
      let e := p_depot d (v_end v) in
      let now := now + durations prevLoc (d_loc e) in
      let '(_, en) := handle now (ADepot (v_end v)) numTrips (d_early e) (d_late e) 0 in
      [en]
  | a :: more =>
      match a with
      | ADepot i =>
          let release := hd 0 rels in
          let dep := p_depot d i in
          let now := now + durations prevLoc (d_loc dep) in
          let '(now, en) := handle now a (S tripIdx)
                              (Z.max (d_early dep) (Z.min release (d_late dep)))
                              (d_late dep) (d_service dep) in
          en :: fpass d v now (d_loc dep) (S tripIdx) (List.tl rels) numTrips more
      | AClient i =>
          let c := p_client d i in
          let now := now + durations prevLoc (c_loc c) in
          let '(now, en) := handle now a tripIdx (c_early c) (c_late c) (c_service c) in
          en :: fpass d v now (c_loc c) tripIdx rels numTrips more
      | APickup i =>
          let s := s_pickup (p_shipment d i) in
          let now := now + durations prevLoc (st_loc s) in
          let '(now, en) := handle now a tripIdx (st_early s) (st_late s) (st_service s) in
          en :: fpass d v now (st_loc s) tripIdx rels numTrips more
      | ADelivery i =>
          let s := s_delivery (p_shipment d i) in
          let now := now + durations prevLoc (st_loc s) in
          let '(now, en) := handle now a tripIdx (st_early s) (st_late s) (st_service s) in
          en :: fpass d v now (st_loc s) tripIdx rels numTrips more
      end
  end.

(** Route.cpp:222-329 *)
Definition set_schedule (d : pdata) (v : vehicle) (acts : list activity) : list sched :=
  let b := bpass_final d v acts in
  let start := p_depot d (v_start v) in
  let release := ds_rel (bp_ds b) in
  let '(now, en) := handle (ds_startEarly (bp_ds b)) (ADepot (v_start v)) 0
                      (Z.max (d_early start) (Z.min release (d_late start)))
                      (Z.min (d_late start) (v_startLate v)) (d_service start) in
  en :: fpass d v now (d_loc start) 0 (List.tl (bp_rels b)) (length (bp_rels b)) acts.

(** Route.cpp:331-367, the loop over the schedule. *)
Fixpoint distance_loop (d : pdata) (profile : nat) (frm : nat) (acts : list activity) : Z :=
  match acts with
  | [] => 0
  | a :: more => p_dist d profile frm (a_loc d a) + distance_loop d profile (a_loc d a) more
  end.

(** Route.cpp:369-414, for one dimension: the load segment, then delivery_ and pickup_. *)
Definition load_step (d : pdata) (v : vehicle) (dim : nat) (st : lseg * Z * Z) (a : activity) :=
  let '(ls, del, pick) := st in
  match a with
  | ADepot _ => (ls_finalise (dimv (v_capacity v) dim) ls, del, pick)
  | AClient i => (ls_merge ls (ls_client (p_client d i) dim),
                  del + dimv (c_delivery (p_client d i)) dim,
                  pick + dimv (c_pickup (p_client d i)) dim)
  | APickup i => (ls_merge ls (ls_shipment (p_shipment d i) true dim), del, pick)
  | ADelivery i => (ls_merge ls (ls_shipment (p_shipment d i) false dim), del, pick)
  end.
Definition set_load (d : pdata) (v : vehicle) (dim : nat) (acts : list activity) : lseg * Z * Z :=
  let init := if dimv (v_initialLoad v) dim >? 0
              then (ls_vehicle v dim, 0, dimv (v_initialLoad v) dim)
              else (ls_zero, 0, 0) in
  fold_left (load_step d v dim) acts init.

(** Route.cpp:416-432: prizes_ and numShipments_ *)
Definition act_prize (d : pdata) (a : activity) : Z :=
  match a with
  | AClient i => c_prize (p_client d i)
  | APickup i => s_prize (p_shipment d i)
  | _ => 0
  end.
Definition count_pickups (acts : list activity) : nat := length (filter a_isPickup acts).

(** Route.cpp:447-460, the constructor. *)
Definition make_route (d : pdata) (acts : list activity) (vehicleType : nat) : res route :=
  match validate d acts vehicleType with
  | Err e => Err e
  | Ok _ =>
      let v := p_vehicle d vehicleType in
      let b := bpass_final d v acts in
      let schedule := set_schedule d v acts in
      let sacts := map sa_act schedule in
      let distance := distance_loop d (v_profile v) (d_loc (p_depot d (v_start v))) (List.tl sacts) in
      let duration := ds_duration (bp_ds b) in
      let overtime := Z.max (duration - v_shift v) 0 in
      let dims := seq 0 (p_numLoadDimensions d) in
      let load dim := set_load d v dim (List.tl sacts) in
      Ok (mk_route schedule
            distance (v_unitDistance v * distance) (Z.max (distance - v_maxDistance v) 0)
            (map (fun dim => snd (fst (load dim))) dims)
            (map (fun dim => snd (load dim)) dims)
            (map (fun dim => ls_excessLoad (dimv (v_capacity v) dim) (fst (fst (load dim)))) dims)
            duration overtime
            (v_unitDuration v * duration + v_unitOvertime v * overtime)
            (ds_timeWarp (v_maxDuration v) (bp_ds b))
            (bp_travel b) (bp_service b)
            (ds_startEarly (bp_ds b)) (ds_rel (bp_ds b)) (ds_slack (bp_ds b))
            (v_fixedCost v)
            (zsum (map (act_prize d) sacts))
            vehicleType
            (count_pickups sacts))
  end.

(** Route.cpp:434-445: construction from client indices. *)
Definition make_route_clients (d : pdata) (visits : list nat) (vehicleType : nat) : res route :=
  make_route d (map AClient visits) vehicleType.

(** Route.cpp:503-607, accessors. *)
Definition r_size (r : route) : nat := length (r_schedule r).
Definition dummy_sched := mk_sched (ADepot 0) 0 0 0 0 0.
Definition r_numTrips (r : route) : nat := sa_trip (last (r_schedule r) dummy_sched).
Definition r_numDepots (r : route) : nat := (r_numTrips r + 1)%nat.
Definition r_numClients (r : route) : nat :=
  (r_size r - 2 * r_numShipments r - r_numDepots r)%nat.
Definition r_empty (r : route) : bool :=
  (r_numClients r =? 0)%nat && (r_numShipments r =? 0)%nat.
Definition r_waitDuration (r : route) : Z := r_duration r - r_travel r - r_service r.
Definition r_endTime (r : route) : Z := r_startTime r + r_duration r - r_timeWarp r.
Definition r_hasExcessLoad (r : route) : bool := existsb (fun x => x >? 0) (r_excessLoad r).
Definition r_hasExcessDistance (r : route) : bool := r_excessDistance r >? 0.
Definition r_hasTimeWarp (r : route) : bool := r_timeWarp r >? 0.
Definition r_isFeasible (r : route) : bool :=
  negb (r_hasExcessLoad r) && negb (r_hasTimeWarp r) && negb (r_hasExcessDistance r).

(** Route.cpp:609-620 *)
Definition sched_eqb (a b : sched) : bool :=
  a_eqb (sa_act a) (sa_act b) && (sa_trip a =? sa_trip b)%nat && (sa_start a =? sa_start b)
  && (sa_end a =? sa_end b) && (sa_wait a =? sa_wait b) && (sa_tw a =? sa_tw b).
Fixpoint list_eqb {A} (eqb : A -> A -> bool) (a b : list A) : bool :=
  match a, b with
  | [], [] => true
  | x :: a', y :: b' => eqb x y && list_eqb eqb a' b'
  | _, _ => false
  end.
Definition route_eqb (a b : route) : bool :=
  (r_distance a =? r_distance b) && (r_duration a =? r_duration b)
  && (r_timeWarp a =? r_timeWarp b) && (r_vehicleType a =? r_vehicleType b)%nat
  && list_eqb sched_eqb (r_schedule a) (r_schedule b).

(** The activities between start and end depot. *)
Definition r_acts (r : route) : list activity := removelast (List.tl (map sa_act (r_schedule r))).
