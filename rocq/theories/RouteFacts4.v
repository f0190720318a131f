(** What a successfully constructed route reports, in terms of the visit list it was given. *)
From Verif Require Import Base DurationSegment Beh Tws DurationFacts Data LoadSegment SearchRoute
  RouteDur Valid ProposalDur ProposalRest Route RouteSpec RouteFacts RouteFacts2 RouteFacts3
  Cost CostFacts DeltaFacts SegTrees.

Lemma nth_map_seq {A} (f : nat -> A) n i dft : (i < n)%nat -> nth i (map f (seq 0 n)) dft = f i.
Proof.
  intros H. rewrite (nth_indep _ dft (f 0%nat)) by (rewrite map_length, seq_length; exact H).
  rewrite map_nth, seq_nth by exact H. reflexivity.
Qed.

Lemma route_load d mid vt r dim : valid_data d -> (vt < p_numVehicleTypes d)%nat ->
  make_route d mid vt = Ok r -> (dim < p_numLoadDimensions d)%nat ->
  let v := p_vehicle d vt in
  length (r_excessLoad r) = p_numLoadDimensions d /\
  nth dim (r_excessLoad r) 0 = route_excess d v dim mid /\
  nth dim (r_delivery r) 0 = trip_delivery d dim mid /\
  nth dim (r_pickup r) 0 = dimv (v_initialLoad v) dim
    + zsum (map (fun a => match a with AClient i => dimv (c_pickup (p_client d i)) dim | _ => 0 end) mid).
Proof.
  intros Hv Hvt Hr Hd. pose proof (nth_In (p_vehicles d) dummy_vehicle Hvt) as Hin.
  pose proof (set_load_spec d (p_vehicle d vt) dim mid (v_end (p_vehicle d vt)) Hin Hv) as Hs.
  cbv zeta. apply route_fields in Hr. cbv zeta in Hr. rewrite Hr.
  cbn [r_excessLoad r_delivery r_pickup]. rewrite map_length, seq_length, !nth_map_seq by exact Hd.
  destruct (set_load _ _ _ _) as [[ls del] pick]. cbn [fst snd]. intuition.
Qed.

Section Timing.
Variable d : pdata.
Variable h : Z.
Hypothesis Hv : valid_data d.
Hypothesis Ho : opens_by d h.
Hypothesis Hn : nonneg_durs d.
Hypothesis Hh : 2 * h <= MAXV.
Variable vt : nat.
Hypothesis Hvt : (vt < p_numVehicleTypes d)%nat.
Let v := p_vehicle d vt.
Let Hin : In v (p_vehicles d) := nth_In (p_vehicles d) dummy_vehicle Hvt.

Lemma route_timing_of mid r : make_route d mid vt = Ok r ->
  timing_of (route_events d v mid) (List.tl (route_events d v mid))
    (r_duration r) (fun m => ds_timeWarp m (bp_ds (bpass_final d v mid)))
    (r_startTime r) (r_startTime r + r_slack r) /\
  r_timeWarp r = ds_timeWarp (v_maxDuration v) (bp_ds (bpass_final d v mid)) /\
  0 <= r_slack r /\ r_releaseTime r = trip_release d mid.
Proof.
  intros Hr. apply route_fields in Hr. cbv zeta in Hr. fold v in Hr. rewrite Hr.
  cbn [r_duration r_startTime r_slack r_timeWarp r_releaseTime].
  destruct (route_timing d h Hv Ho Hn Hh v Hin mid) as (T & (T1 & T2 & T3 & T4) & TS & TT).
  cbv zeta in TT. destruct TT as (D1 & D2 & D3 & D4 & D5 & D6 & D7).
  split; [|split; [reflexivity|split; [rewrite D4; lia|exact D5]]].
  destruct (bpass_final_good d h Hv Ho Hn Hh v Hin mid) as [n G].
  set (s := bp_ds (bpass_final d v mid)) in *.
  assert (Hlate : ds_startEarly s + ds_slack s = ds_startLate s).
  { destruct G as [[_ _ P1 P2 P3 P4 P5 P6 _ _] G2 G3 G4 G5 G6 G7].
    destruct s as [sd sw se sl sr sc1 sc2 sp].
    unfold ds_slack, ds_startEarly, ds_startLate, plain in *; dcbn. pose proof MAXV_pos. subst. zcases. }
  rewrite Hlate. pose proof MAXV_pos.
  apply (good_timing h n _ _ _ _ _ ltac:(lia) G).
  - exact (route_events_beh0 d h Hv Ho Hn Hh v Hin mid).
  - exact (route_events_beh d h Hv Ho Hn Hh v Hin mid).
Qed.

(** Duration and time warp are the least any departure time gives; the start time attains both. *)
Theorem route_optimal mid r : make_route d mid vt = Ok r ->
  let evs := route_events d v mid in
  exists w w0,
  (forall t, r_duration r <= fst (simulate t evs) /\ w <= snd (simulate t evs)) /\
  simulate (r_startTime r) evs = (r_duration r, w) /\
  (forall t, w0 <= snd (simulate t (List.tl evs))) /\ (exists t, snd (simulate t (List.tl evs)) = w0) /\
  0 <= w0 <= w /\
  r_timeWarp r = w + Z.max 0 (r_duration r - w0 - v_maxDuration v).
Proof.
  intros Hr. destruct (route_timing_of mid r Hr) as ((w & w0 & T1 & T2 & T3 & T4 & T5 & T6) & W & S & R).
  exists w, w0. split; [|split; [|split; [exact T2|split; [exact T3|split; [exact T5|]]]]].
  - intros t. rewrite T1. cbn [fst snd]. lia.
  - rewrite T1. f_equal; lia.
  - rewrite W. exact (T6 _).
Qed.

Theorem route_slack mid r : make_route d mid vt = Ok r ->
  let evs := route_events d v mid in
  0 <= r_slack r /\
  (forall x, 0 <= x <= r_slack r -> simulate (r_startTime r + x) evs = simulate (r_startTime r) evs) /\
  (forall x, r_slack r < x -> snd (simulate (r_startTime r) evs) < snd (simulate (r_startTime r + x) evs)).
Proof.
  intros Hr. destruct (route_timing_of mid r Hr) as ((w & w0 & T1 & T2 & T3 & T4 & T5 & T6) & W & S & R).
  split; [exact S|split].
  - intros x Hx. rewrite !T1. f_equal; lia.
  - intros x Hx. rewrite !T1. cbn [snd]. lia.
Qed.

Theorem route_figures mid r : make_route d mid vt = Ok r ->
  r_distance r = path_sum (p_dist d (v_profile v)) (route_locs d v mid) /\
  r_travel r = path_sum (p_dur d (v_profile v)) (route_locs d v mid) /\
  r_service r = d_service (p_depot d (v_start v)) + zsum (map (a_service d) mid) /\
  r_duration r = r_travel r + r_service r + r_waitDuration r /\ 0 <= r_waitDuration r /\
  r_excessDistance r = Z.max 0 (r_distance r - v_maxDistance v) /\
  r_overtime r = Z.max 0 (r_duration r - v_shift v) /\
  r_distanceCost r = v_unitDistance v * r_distance r /\
  r_durationCost r = v_unitDuration v * r_duration r + v_unitOvertime v * r_overtime r /\
  r_fixedCost r = v_fixedCost v /\ r_releaseTime r = trip_release d mid /\
  r_endTime r = r_startTime r + r_duration r - r_timeWarp r /\
  r_prizes r = zsum (map (act_prize d) mid) /\
  r_numTrips r = (num_reloads mid + 1)%nat /\
  r_numClients r = length (filter a_isClient mid) /\
  r_numShipments r = length (filter a_isPickup mid).
Proof.
  intros Hr. destruct (route_timing_of mid r Hr) as (_ & _ & _ & R).
  destruct (route_counts d mid vt r Hr) as (N1 & N2 & N3).
  pose proof (search_core_agree d h Hv Ho Hn Hh mid vt r Hin Hr) as (_ & _ & _ & A4 & _).
  destruct (update_timing_nonneg d h Hv Ho Hn Hh v Hin mid) as (U1 & _).
  destruct (bpass_final_sums d v mid) as [B1 B2].
  rewrite N1, N2, N3. unfold r_waitDuration, r_endTime. revert R A4. fold v.
  apply route_fields in Hr. cbv zeta in Hr. fold v in Hr. rewrite Hr.
  cbn [r_distance r_travel r_service r_duration r_excessDistance r_overtime r_distanceCost r_durationCost
       r_fixedCost r_releaseTime r_startTime r_timeWarp r_prizes]. intros R A4.
  rewrite B1, B2. unfold route_service in *. 
  repeat split; try reflexivity; try lia; try exact R.
  - cbn [map zsum act_prize]. rewrite map_app, zsum_app. cbn. lia.
Qed.

Theorem route_accepts mid :
  (well_formed d v mid -> exists r, make_route d mid vt = Ok r /\ r_acts r = mid /\ r_vehicleType r = vt) /\
  (~ well_formed d v mid -> make_route d mid vt = Err InvalidArgument).
Proof.
  destruct (validate_spec d mid vt) as [V1 V2]. fold v in V1. split.
  - intros Hw. apply V1 in Hw. 
    assert (H : exists r, make_route d mid vt = Ok r) by (unfold make_route; rewrite Hw; eexists; reflexivity).
    destruct H as [r Hr]. exists r. split; [exact Hr|].
    apply route_fields in Hr. cbv zeta in Hr. rewrite Hr. unfold r_acts. cbn [r_schedule r_vehicleType].
    rewrite schedule_acts. cbn [List.tl]. rewrite removelast_last. split; reflexivity.
  - intros Hw. unfold make_route. rewrite V2; [reflexivity|]. intros H. apply Hw, V1. exact H.
Qed.

(** The timetable.  Entry [b] comes right after [a]. *)
Definition follows (a b : sched) (before : list sched) (post : list sched) : Prop :=
  let arrive := sa_end a + p_dur d (v_profile v) (a_loc d (sa_act a)) (a_loc d (sa_act b)) in
  S (sa_trip b) = length (filter a_isDepot (map sa_act (before ++ [a; b]))) /\
  sa_wait b = Z.max 0 (opening d (sa_act b) (map sa_act post) - arrive) /\
  sa_tw b = Z.max 0 (arrive - closing d (sa_act b)) /\
  sa_start b = arrive + sa_wait b - sa_tw b /\
  sa_end b = sa_start b + (match post with [] => 0 | _ => a_service d (sa_act b) end) /\
  opening d (sa_act b) (map sa_act post) <= sa_start b <= closing d (sa_act b).

Theorem route_schedule mid r : make_route d mid vt = Ok r ->
  map sa_act (r_schedule r) = ADepot (v_start v) :: mid ++ [ADepot (v_end v)] /\
  (exists e0 rest, r_schedule r = e0 :: rest /\
     sa_trip e0 = 0%nat /\
     sa_wait e0 = Z.max 0 (opening d (ADepot (v_start v)) mid - r_startTime r) /\
     sa_tw e0 = Z.max 0 (r_startTime r - Z.min (closing d (ADepot (v_start v))) (v_startLate v)) /\
     sa_start e0 = r_startTime r + sa_wait e0 - sa_tw e0 /\
     sa_end e0 = sa_start e0 + a_service d (ADepot (v_start v))) /\
  (forall pre a b post, r_schedule r = pre ++ a :: b :: post -> follows a b pre post).
Proof.
  intros Hr. apply route_fields in Hr. cbv zeta in Hr. fold v in Hr. rewrite Hr.
  cbn [r_schedule r_startTime].
  split; [apply schedule_acts|].
  destruct (schedule_tt d h Hv Ho Hn Hh v Hin mid) as (e0 & rest & E & T & A0 & R0 & A1 & Q). cbv zeta in Q.
  split.
  - exists e0, rest. split; [exact E|]. split; [exact R0|]. exact Q.
  - intros pre a b post Hs. rewrite E in Hs.
    assert (Hent : entry_ok d v (sa_end a) (a_loc d (sa_act a))
                     (length (filter a_isDepot (map sa_act (pre ++ [a]))) - 1) b post /\
                   (1 <= length (filter a_isDepot (map sa_act (pre ++ [a]))))%nat).
    { destruct pre as [|e pre].
      - cbn [app] in Hs. injection Hs as H1 H2. subst a rest.
        cbn [tt_ok] in T. rewrite A0. cbn [app map filter]. rewrite A0. cbn [a_isDepot length].
        split; [|lia]. exact (proj1 T).
      - cbn [app] in Hs. injection Hs as H1 H2. subst e rest.
        change (pre ++ a :: b :: post) with (pre ++ [a] ++ b :: post) in T. rewrite app_assoc in T.
        pose proof (tt_split d v (pre ++ [a]) _ _ _ _ _ T) as X. cbv zeta in X.
        rewrite rev_app_distr in X. cbn [rev app] in X. cbn [app map filter]. rewrite A0. cbn [a_isDepot length].
        split; [|lia]. unfold num_reloads in X.
        replace (S (length (filter a_isDepot (map sa_act (pre ++ [a])))) - 1)%nat with
          (0 + length (filter a_isDepot (map sa_act (pre ++ [a]))))%nat by lia. exact X. }
    destruct Hent as [(X1 & X2 & X3 & X4 & X5) Hge]. unfold follows.
    split; [|split; [exact X2|split; [exact X3|split; [exact X4|split; [exact X5|]]]]].
    + change (pre ++ [a; b]) with (pre ++ [a] ++ [b]). rewrite app_assoc, map_app, filter_app, app_length.
      rewrite X1. cbn [map filter]. destruct (a_isDepot (sa_act b)); cbn [length]; lia.
    + pose proof (opening_closing d Hv (sa_act b) (map sa_act post)). rewrite X4, X2, X3. lia.
Qed.

(** When the timetable's time warps add up to the route's. *)
Theorem route_schedule_warp mid r : make_route d mid vt = Ok r ->
  reload_releases_ok d mid ->
  trip_release d mid <= v_startLate v \/ d_early (p_depot d (v_start v)) <= v_startLate v ->
  v_early v <= sa_start (last (r_schedule r) dummy_sched) <= v_late v ->
  r_duration r <= v_maxDuration v ->
  r_timeWarp r = zsum (map sa_tw (r_schedule r)) /\
  r_waitDuration r = zsum (map sa_wait (r_schedule r)).
Proof.
  intros Hr Hrel Hst Hend Hmax.
  destruct (route_timing_of mid r Hr) as ((w & w0 & T1 & T2 & T3 & T4 & T5 & T6) & W & _ & _).
  destruct (route_figures mid r Hr) as (_ & F2 & F3 & F4 & F5 & _).
  pose proof Hr as Hr'. apply route_fields in Hr'. cbv zeta in Hr'. fold v in Hr'.
  destruct (schedule_tt d h Hv Ho Hn Hh v Hin mid) as (e0 & rest & E & T & A0 & R0 & A1 & Q).
  assert (Es : r_schedule r = e0 :: rest) by (rewrite Hr'; exact E).
  assert (Ed : r_duration r = ds_duration (bp_ds (bpass_final d v mid))) by (rewrite Hr'; reflexivity).
  rewrite Es in *.
  assert (Hne : rest <> []) by (intros ->; destruct mid; discriminate).
  assert (Hl : last (e0 :: rest) dummy_sched = last rest dummy_sched) by (destruct rest; [congruence|reflexivity]).
  rewrite Hl in Hend.
  destruct (schedule_warp d h Hv Ho Hn Hh v Hin mid e0 rest E Hrel Hst Hend) as [W1 W2].
  split.
  - destruct (route_timing d h Hv Ho Hn Hh v Hin mid) as (TT & _ & _ & D).
    cbv zeta in D. destruct D as (_ & _ & _ & _ & _ & D6 & D7).
    rewrite <- W2, W. clear - D6 D7 Hmax Ed.
    unfold ds_timeWarp, ds_warp0 in *. rewrite <- Ed in *.
    set (a := ds_ctw (bp_ds (bpass_final d v mid)) + ds_tw (bp_ds (bpass_final d v mid))) in *.
    set (b := Z.max (ds_rel (bp_ds (bpass_final d v mid)) - ds_late (bp_ds (bpass_final d v mid))) 0) in *.
    destruct (Z.gtb_spec (r_duration r - a) (v_maxDuration v)); lia.
  - unfold r_waitDuration. rewrite Ed, W1, F2, F3. unfold route_travel, route_service. lia.
Qed.
End Timing.
