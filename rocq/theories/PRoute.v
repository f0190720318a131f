(** Property theorems C01-C08: segments and routes.  Each is closed by a lemma of the development;
    the examples show a concrete case meeting the hypotheses. *)
From Verif Require Import Base DurationSegment Data LoadSegment Valid Route RouteSpec SegTrees
  RouteFacts4 Sample.
Notation EmptyString := String.EmptyString.

(** C01: joining the stops of a trip in any order and grouping gives the same load segment, and its
    load and excess are those of simulating the stops one by one. *)
Theorem C01_load_split_independent : forall d dim t t',
  stops t = stops t' -> join_load d dim t = join_load d dim t'.
Proof. exact load_tree_unique. Qed.
Print Assumptions C01_load_split_independent.

Theorem C01_load_is_simulated_peak : forall d dim cap t,
  (forall a, In a (stops t) -> a_isDepot a = false) ->
  let s := join_load d dim t in
  ls_load s = peak d dim (trip_delivery d dim (stops t)) (stops t) /\
  ls_excessLoad cap s = Z.max 0 (peak d dim (trip_delivery d dim (stops t)) (stops t) - cap).
Proof. exact load_tree. Qed.
Print Assumptions C01_load_is_simulated_peak.

Definition ex_tree1 : mtree :=
  MJoin (MStop (AClient 0)) (MJoin (MStop (APickup 0)) (MJoin (MStop (AClient 3)) (MStop (ADelivery 0)))).
Definition ex_tree2 : mtree :=
  MJoin (MJoin (MJoin (MStop (AClient 0)) MEmpty) (MStop (APickup 0)))
        (MJoin (MStop (AClient 3)) (MStop (ADelivery 0))).
Example C01_case : stops ex_tree1 = stops ex_tree2 /\
  (forall a, In a (stops ex_tree1) -> a_isDepot a = false) /\
  ls_load (join_load sample 0 ex_tree1) = 9.
Proof. repeat split; try reflexivity. intros a [<-|[<-|[<-|[<-|[]]]]]; reflexivity. Qed.

(** C02: excess load of a route. *)
Theorem C02_excess_load_is_simulated : forall d mid vt r dim,
  valid_data d -> (vt < p_numVehicleTypes d)%nat ->
  make_route d mid vt = Ok r -> (dim < p_numLoadDimensions d)%nat ->
  let v := p_vehicle d vt in
  length (r_excessLoad r) = p_numLoadDimensions d /\
  nth dim (r_excessLoad r) 0 = route_excess d v dim mid /\
  nth dim (r_delivery r) 0 = trip_delivery d dim mid /\
  nth dim (r_pickup r) 0 = dimv (v_initialLoad v) dim
    + zsum (map (fun a => match a with AClient i => dimv (c_pickup (p_client d i)) dim | _ => 0 end) mid).
Proof. exact route_load. Qed.
Print Assumptions C02_excess_load_is_simulated.

Definition ex_route : route := match make_route sample sMid 0 with Ok r => r | Err _ =>
  mk_route [] 0 0 0 [] [] [] 0 0 0 0 0 0 0 0 0 0 0 0 0 end.
Example C02_case : valid_data sample /\ make_route sample sMid 0 = Ok ex_route /\
  (0 < p_numVehicleTypes sample)%nat /\ (0 < p_numLoadDimensions sample)%nat /\
  nth 0 (r_excessLoad ex_route) 0 = 4.
Proof. split; [apply sample_valid|]. repeat split; vm_compute; try reflexivity; lia. Qed.

(** C03: duration segments. *)
Theorem C03_duration_split_independent : forall d h, valid_data d -> opens_by d h -> nonneg_durs d ->
  2 * h <= MAXV -> forall profile t t',
  dstops t = dstops t' -> join_dur d profile t = join_dur d profile t'.
Proof. exact dur_tree_unique. Qed.
Print Assumptions C03_duration_split_independent.

(** ... and says what carrying out the stops one after the other takes. *)
Theorem C03_duration_is_simulated : forall d h, valid_data d -> opens_by d h -> nonneg_durs d ->
  2 * h <= MAXV -> forall profile t, let s := join_dur d profile t in
  exists w w0,
    let evs0 := visit_events d profile (dstops t) in
    let evs := WaitUntil (max_release d (dstops t)) :: evs0 in
    (forall x, simulate x evs = (ds_duration s + Z.max 0 (ds_startEarly s - x),
                                 w + Z.max 0 (x - ds_startLate s))) /\
    (forall x, w0 <= snd (simulate x evs0)) /\ (exists x, snd (simulate x evs0) = w0) /\
    ds_startEarly s <= ds_startLate s /\ 0 <= w0 <= w /\
    forall m, ds_timeWarp m s = w + Z.max 0 (ds_duration s - w0 - m).
Proof. exact dur_tree. Qed.
Print Assumptions C03_duration_is_simulated.

Definition ex_dtree1 : dtree := DJoin (DStop (AClient 0)) (DJoin (DStop (AClient 3)) (DStop (AClient 1))).
Definition ex_dtree2 : dtree := DJoin (DJoin (DStop (AClient 0)) (DStop (AClient 3))) (DStop (AClient 1)).
Example C03_case : valid_data sample /\ opens_by sample 20 /\ nonneg_durs sample /\ 2 * 20 <= MAXV /\
  dstops ex_dtree1 = dstops ex_dtree2 /\ ds_duration (join_dur sample 0 ex_dtree1) = 14.
Proof.
  split; [apply sample_valid|]. split; [apply sample_opens|]. split; [apply sample_durs|].
  repeat split; vm_compute; congruence.
Qed.

(** C04: duration and time warp are the least that any departure time achieves, and departing at
    the start time achieves both.  [w] is the time warp without the surcharge for exceeding the
    maximum duration, which is given exactly ([w0] is the time warp that is unavoidable even
    without waiting for the first trip's release). *)
Theorem C04_route_timing_optimal : forall d h, valid_data d -> opens_by d h -> nonneg_durs d ->
  2 * h <= MAXV -> forall vt, (vt < p_numVehicleTypes d)%nat -> forall mid r,
  make_route d mid vt = Ok r ->
  let evs := route_events d (p_vehicle d vt) mid in
  exists w w0,
  (forall t, r_duration r <= fst (simulate t evs) /\ w <= snd (simulate t evs)) /\
  simulate (r_startTime r) evs = (r_duration r, w) /\
  (forall t, w0 <= snd (simulate t (List.tl evs))) /\ (exists t, snd (simulate t (List.tl evs)) = w0) /\
  0 <= w0 <= w /\
  r_timeWarp r = w + Z.max 0 (r_duration r - w0 - v_maxDuration (p_vehicle d vt)).
Proof. exact route_optimal. Qed.
Print Assumptions C04_route_timing_optimal.

(** C05: slack. *)
Theorem C05_slack_exact : forall d h, valid_data d -> opens_by d h -> nonneg_durs d ->
  2 * h <= MAXV -> forall vt, (vt < p_numVehicleTypes d)%nat -> forall mid r,
  make_route d mid vt = Ok r ->
  let evs := route_events d (p_vehicle d vt) mid in
  0 <= r_slack r /\
  (forall x, 0 <= x <= r_slack r -> simulate (r_startTime r + x) evs = simulate (r_startTime r) evs) /\
  (forall x, r_slack r < x -> snd (simulate (r_startTime r) evs) < snd (simulate (r_startTime r + x) evs)).
Proof. exact route_slack. Qed.
Print Assumptions C05_slack_exact.

(** The slack of a single duration segment (DurationSegment.slack): how much later its current trip
    can start.  [with_release s r]: the trip may not start before [r].  When the earliest start is
    determined by the release time or the end of the previous trip, starting later by up to the
    slack changes nothing, and starting later by more than that costs. *)
Definition with_release (s : dseg) (r : Z) : dseg :=
  mk_dseg (ds_dur s) (ds_tw s) (ds_early s) (ds_late s) r (ds_cdur s) (ds_ctw s) (ds_pel s).
Theorem C05_segment_slack : forall s, ds_early s <= ds_rel s ->
  (forall x, 0 <= x <= ds_slack s ->
     ds_duration (with_release s (ds_startEarly s + x)) = ds_duration s /\
     forall m, ds_timeWarp m (with_release s (ds_startEarly s + x)) = ds_timeWarp m s) /\
  (forall x, 0 <= ds_slack s < x ->
     ds_duration s < ds_duration (with_release s (ds_startEarly s + x)) \/
     forall m, ds_timeWarp m s < ds_timeWarp m (with_release s (ds_startEarly s + x))).
Proof.
  intros [du tw e l r cd ct pel]. unfold with_release, ds_duration, ds_timeWarp, ds_slack, ds_duration, ds_startEarly, ds_startLate.
  cbn [ds_dur ds_tw ds_early ds_late ds_rel ds_cdur ds_ctw ds_pel]. intros H. rewrite (Z.max_r e r) by lia. split.
  - intros x Hx. assert (E : Z.max (Z.max e (r + x) - pel) 0 = Z.max (r - pel) 0) by lia. rewrite E. split; [reflexivity|].
    intros m. replace (Z.max (r + x - l) 0) with (Z.max (r - l) 0) by lia. reflexivity.
  - intros x Hx. destruct (Z_lt_le_dec (Z.max l r - r) x) as [Hl|Hl].
    + right. intros m.
      assert (E : cd + du + Z.max (r - pel) 0 - (ct + tw) <= cd + du + Z.max (Z.max e (r + x) - pel) 0 - (ct + tw)) by lia.
      assert (F : Z.max (r - l) 0 < Z.max (r + x - l) 0) by lia. revert E. generalize (cd + du + Z.max (r - pel) 0 - (ct + tw)) as n, (cd + du + Z.max (Z.max e (r + x) - pel) 0 - (ct + tw)) as n'.
      intros n n' E. destruct (n >? m) eqn:E1, (n' >? m) eqn:E2; lia.
    + left. lia.
Qed.
Print Assumptions C05_segment_slack.
(** Otherwise the slack can be too large: here the next trip cannot start before 40, when the previous
    one has to be back by 15, so that the vehicle waits; starting later by less than the slack of 10
    makes the route longer. *)
Theorem C05_segment_slack_refuted : exists first second x,
  let s := ds_merge 0 (ds_finaliseBack first) second in
  0 < x <= ds_slack s /\ ds_duration s < ds_duration (with_release s (ds_startEarly s + x)).
Proof.
  exists (ds_raw 5 0 0 10), (ds_raw 5 0 40 60), 1. vm_compute. repeat split; discriminate.
Qed.
Print Assumptions C05_segment_slack_refuted.
Example C05_segment_case : let s := ds_merge 0 (ds_finaliseBack (ds_raw 5 0 0 10)) (ds_raw 5 0 0 60) in
  ds_early s <= ds_rel s /\ ds_slack s = 10 /\ ds_startEarly s = 5.
Proof. vm_compute. repeat split. discriminate. Qed.

(** C06: the figures of a route. *)
Theorem C06_figures_add_up : forall d h, valid_data d -> opens_by d h -> nonneg_durs d ->
  2 * h <= MAXV -> forall vt, (vt < p_numVehicleTypes d)%nat -> forall mid r,
  make_route d mid vt = Ok r ->
  let v := p_vehicle d vt in
  r_distance r = path_sum (p_dist d (v_profile v)) (route_locs d v mid) /\
  r_travel r = path_sum (p_dur d (v_profile v)) (route_locs d v mid) /\
  r_service r = d_service (p_depot d (v_start v)) + zsum (map (a_service d) mid) /\
  r_duration r = r_travel r + r_service r + r_waitDuration r /\ 0 <= r_waitDuration r /\
  r_excessDistance r = Z.max 0 (r_distance r - v_maxDistance v) /\
  r_overtime r = Z.max 0 (r_duration r - v_shift v) /\
  r_distanceCost r = v_unitDistance v * r_distance r /\
  r_durationCost r = v_unitDuration v * r_duration r + v_unitOvertime v * r_overtime r /\
  r_fixedCost r = v_fixedCost v /\ r_releaseTime r = trip_release d mid /\
  r_endTime r = r_startTime r + r_duration r - r_timeWarp r /\
  r_prizes r = zsum (map (act_prize d) mid) /\
  r_numTrips r = (num_reloads mid + 1)%nat /\
  r_numClients r = length (filter a_isClient mid) /\
  r_numShipments r = length (filter a_isPickup mid).
Proof. exact route_figures. Qed.
Print Assumptions C06_figures_add_up.

(** C07: the schedule. *)
Theorem C07_schedule_consistent : forall d h, valid_data d -> opens_by d h -> nonneg_durs d ->
  2 * h <= MAXV -> forall vt, (vt < p_numVehicleTypes d)%nat -> forall mid r,
  make_route d mid vt = Ok r ->
  let v := p_vehicle d vt in
  map sa_act (r_schedule r) = ADepot (v_start v) :: mid ++ [ADepot (v_end v)] /\
  (exists e0 rest, r_schedule r = e0 :: rest /\
     sa_trip e0 = 0%nat /\
     sa_wait e0 = Z.max 0 (opening d (ADepot (v_start v)) mid - r_startTime r) /\
     sa_tw e0 = Z.max 0 (r_startTime r - Z.min (closing d (ADepot (v_start v))) (v_startLate v)) /\
     sa_start e0 = r_startTime r + sa_wait e0 - sa_tw e0 /\
     sa_end e0 = sa_start e0 + a_service d (ADepot (v_start v))) /\
  (forall before a b post, r_schedule r = before ++ a :: b :: post ->
     let arrive := sa_end a + p_dur d (v_profile v) (a_loc d (sa_act a)) (a_loc d (sa_act b)) in
     S (sa_trip b) = length (filter a_isDepot (map sa_act (before ++ [a; b]))) /\
     sa_wait b = Z.max 0 (opening d (sa_act b) (map sa_act post) - arrive) /\
     sa_tw b = Z.max 0 (arrive - closing d (sa_act b)) /\
     sa_start b = arrive + sa_wait b - sa_tw b /\
     sa_end b = sa_start b + (match post with [] => 0 | _ => a_service d (sa_act b) end) /\
     opening d (sa_act b) (map sa_act post) <= sa_start b <= closing d (sa_act b)).
Proof. exact route_schedule. Qed.
Print Assumptions C07_schedule_consistent.

Theorem C07_schedule_sums : forall d h, valid_data d -> opens_by d h -> nonneg_durs d ->
  2 * h <= MAXV -> forall vt, (vt < p_numVehicleTypes d)%nat -> forall mid r,
  make_route d mid vt = Ok r ->
  let v := p_vehicle d vt in
  reload_releases_ok d mid ->
  trip_release d mid <= v_startLate v \/ d_early (p_depot d (v_start v)) <= v_startLate v ->
  v_early v <= sa_start (last (r_schedule r) dummy_sched) <= v_late v ->
  r_duration r <= v_maxDuration v ->
  r_timeWarp r = zsum (map sa_tw (r_schedule r)) /\
  r_waitDuration r = zsum (map sa_wait (r_schedule r)).
Proof. exact route_schedule_warp. Qed.
Print Assumptions C07_schedule_sums.

Example C04_C07_case : valid_data sample /\ opens_by sample 20 /\ nonneg_durs sample /\ 2 * 20 <= MAXV /\
  (0 < p_numVehicleTypes sample)%nat /\ make_route sample sMid 0 = Ok ex_route /\
  let v := p_vehicle sample 0 in
  reload_releases_ok sample sMid /\
  (trip_release sample sMid <= v_startLate v \/ d_early (p_depot sample (v_start v)) <= v_startLate v) /\
  v_early v <= sa_start (last (r_schedule ex_route) dummy_sched) <= v_late v /\
  r_duration ex_route <= v_maxDuration v /\ r_slack ex_route = 13.
Proof.
  split; [apply sample_valid|]. split; [apply sample_opens|]. split; [apply sample_durs|].
  cbv zeta. repeat split; try (vm_compute; congruence); try (left; vm_compute; congruence).
  vm_compute. lia.
Qed.

(** Without these side conditions the timetable's time warps do not add up to the route's: a
    vehicle whose shift ends before it is back at the depot. *)
Definition ex_late : pdata := mk_pdata (p_locations sample) (p_clients sample) (p_depots sample)
  [ mk_vehicle 2 0 0 [6; 4] 0 20 MAXV MAXV 10 2 1 0 20 [1; 0] [] 0 0 3 MAXV EmptyString ]
  (p_dists sample) (p_durs sample) [] (p_shipments sample).
Theorem C07_schedule_sums_refuted : exists d mid r, valid_data d /\ make_route d mid 0 = Ok r /\
  r_timeWarp r <> zsum (map sa_tw (r_schedule r)).
Proof.
  exists ex_late, [AClient 3].
  destruct (make_route ex_late [AClient 3] 0) as [r|] eqn:E; [|vm_compute in E; discriminate].
  exists r. split; [|split; [reflexivity|]].
  - destruct sample_valid as [V1 V2 V3 V4]. constructor; [exact V1|exact V2|exact V3|].
    constructor; [|constructor]. constructor; cbn; unfold MAXV; try lia.
    + repeat constructor; lia.
    + repeat constructor; lia.
    + intros [|[|dim]]; unfold dimv; cbn; try lia; destruct dim; cbn; lia.
  - vm_compute in E. injection E as <-. vm_compute. discriminate.
Qed.
Print Assumptions C07_schedule_sums_refuted.

(** C08: what the constructor accepts. *)
Theorem C08_route_accepts_well_formed : forall d vt mid,
  (well_formed d (p_vehicle d vt) mid ->
     exists r, make_route d mid vt = Ok r /\ r_acts r = mid /\ r_vehicleType r = vt) /\
  (~ well_formed d (p_vehicle d vt) mid -> make_route d mid vt = Err InvalidArgument).
Proof. exact route_accepts. Qed.
Print Assumptions C08_route_accepts_well_formed.

Example C08_case :
  (exists r, make_route sample sMid 0 = Ok r) /\
  make_route sample [ADelivery 0; APickup 0] 0 = Err InvalidArgument /\
  make_route sample [APickup 0; ADepot 1; ADelivery 0] 0 = Err InvalidArgument.
Proof. split; [eexists|split]; vm_compute; reflexivity. Qed.
