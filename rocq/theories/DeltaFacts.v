(** Delta cost evaluation: exact when complete, and safe when it stops early. *)
From Verif Require Import Base DurationSegment Beh Tws DurationFacts Data LoadSegment SearchRoute
  RouteDur Valid ProposalDur ProposalRest Route RouteSpec RouteFacts RouteFacts2 RouteFacts3 Cost CostFacts.

Lemma hasTw_false a b : hasTw a b = false -> a = 0 /\ b = MAXV.
Proof. unfold hasTw. rewrite orb_false_iff, !negb_false_iff, !Z.eqb_eq. auto. Qed.

Lemma existsb_nth {A} (f : A -> bool) l i dft : existsb f l = false -> f dft = false -> f (nth i l dft) = false.
Proof.
  revert i. induction l as [|x l IH]; intros [|i] H Hd; cbn in *; auto;
  apply orb_false_iff in H; destruct H; auto.
Qed.

Section Timing.
Variable d : pdata.
Variable h : Z.
Hypothesis Hv : valid_data d.
Hypothesis Ho : opens_by d h.
Hypothesis Hn : nonneg_durs d.
Hypothesis Hh : 2 * h <= MAXV.
Variable v : vehicle.
Hypothesis Hin : In v (p_vehicles d).

(** Duration at least travel and service; it and the time warp are not negative. *)
Lemma update_timing_nonneg mid :
  route_travel d v mid + route_service d v mid <= ca_duration (update d v mid) /\
  0 <= ca_duration (update d v mid) /\ 0 <= ca_timeWarp (update d v mid).
Proof.
  change (ca_duration (update d v mid)) with (ds_duration (hd dnone (ca_durAfter (update d v mid)))).
  change (ca_timeWarp (update d v mid)) with
    (ds_timeWarp (v_maxDuration v) (hd dnone (ca_durAfter (update d v mid)))).
  rewrite <- (bpass_is_durAfter d h Hv Ho Hn Hh v Hin mid).
  destruct (route_timing d h Hv Ho Hn Hh v Hin mid) as (T & (T1 & T2 & T3 & T4) & Hsim & Hdur & Hwarp & Hse & Hsl & Hrel & Htw & Hc).
  pose proof (simulate_spent (route_events d v mid) (te T)) as Hs.
  rewrite route_events_spend, Hsim in Hs. cbn [fst] in Hs.
  pose proof (route_sums_nonneg d Hv Hn v mid) as [N1 N2].
  unfold ds_timeWarp. unfold ds_warp0 in Hwarp.
  rewrite Hdur. split; [lia|]. split; [lia|].
  destruct (Z.gtb_spec (td T - (ds_ctw (bp_ds (bpass_final d v mid)) + ds_tw (bp_ds (bpass_final d v mid)))) (v_maxDuration v)); lia.
Qed.

(** Without time windows there is no time warp, and waiting is bounded by the release times. *)
Lemma update_no_windows mid : p_hasTimeWindows d = false -> v_maxDuration v = MAXV ->
  time_fits d h v mid ->
  ca_timeWarp (update d v mid) = 0 /\ ca_duration (update d v mid) <= MAXV.
Proof.
  intros Hno Hmax Hfit.
  change (ca_duration (update d v mid)) with (ds_duration (hd dnone (ca_durAfter (update d v mid)))).
  change (ca_timeWarp (update d v mid)) with
    (ds_timeWarp (v_maxDuration v) (hd dnone (ca_durAfter (update d v mid)))).
  rewrite <- (bpass_is_durAfter d h Hv Ho Hn Hh v Hin mid).
  destruct (route_timing d h Hv Ho Hn Hh v Hin mid) as (T & (T1 & T2 & T3 & T4) & Hsim & Hdur & Hwarp & Hse & Hsl & Hrel & Htw & Hc).
  unfold p_hasTimeWindows in Hno. rewrite !orb_false_iff in Hno. destruct Hno as [[[W1 W2] W3] W4].
  assert (Hvw : v_early v = 0 /\ v_late v = MAXV /\ v_startLate v = MAXV).
  { assert (G : hasTw (v_early v) (v_late v) || negb (v_startLate v =? MAXV) = false).
    { destruct (hasTw (v_early v) (v_late v) || negb (v_startLate v =? MAXV)) eqn:E; [|reflexivity].
      assert (existsb (fun v => hasTw (v_early v) (v_late v) || negb (v_startLate v =? MAXV)) (p_vehicles d) = true)
        by (apply existsb_exists; exists v; auto). congruence. }
    rewrite orb_false_iff, negb_false_iff, Z.eqb_eq in G. destruct G as [G1 G2].
    apply hasTw_false in G1. tauto. }
  assert (Hc1 : forall i, c_early (p_client d i) = 0 /\ c_late (p_client d i) = MAXV).
  { intros i. apply hasTw_false. apply (existsb_nth (fun c => hasTw (c_early c) (c_late c))); [exact W1|reflexivity]. }
  assert (Hd1 : forall i, d_early (p_depot d i) = 0 /\ d_late (p_depot d i) = MAXV).
  { intros i. apply hasTw_false. apply (existsb_nth (fun c => hasTw (d_early c) (d_late c))); [exact W2|reflexivity]. }
  assert (Hs1 : forall i, (st_early (s_pickup (p_shipment d i)) = 0 /\ st_late (s_pickup (p_shipment d i)) = MAXV) /\
                          (st_early (s_delivery (p_shipment d i)) = 0 /\ st_late (s_delivery (p_shipment d i)) = MAXV)).
  { intros i.
    pose proof (existsb_nth _ _ i dummy_shipment W4 eq_refl) as G. cbn beta in G.
    rewrite orb_false_iff in G. destruct G as [G1 G2]. split; apply hasTw_false; assumption. }
  pose proof (ob_nonneg _ _ Ho) as Hh0.
  assert (Hev : Forall (open_event h) (route_events d v mid)).
  { unfold route_events. repeat (apply Forall_cons); cbn [open_event].
    - apply (trip_release_bound d h Hv Ho Hh v Hin mid).
    - lia.
    - destruct (Hd1 (v_start v)). lia.
    - apply (vd_service _ (valid_p_depot d (v_start v) Hv)).
    - generalize (d_loc (p_depot d (v_start v))). clear Hsim Hdur Hwarp Hse Hsl Hrel Htw Hc Hfit.
      induction mid as [|a mid' IH]; intros frm.
      + cbn [events_from]. repeat constructor; cbn; try apply Hn; try lia; destruct (Hd1 (v_end v)); lia.
      + cbn [events_from app]. apply Forall_app. split; [|apply IH].
        destruct a as [i|i|i|i].
        * repeat constructor; cbn; try apply Hn; try (destruct (Hd1 i); lia).
          -- apply (trip_release_bound d h Hv Ho Hh v Hin mid').
          -- apply (vd_service _ (valid_p_depot d i Hv)).
        * repeat constructor; cbn; try apply Hn; try (destruct (Hc1 i); lia).
          apply (vc_service _ (valid_p_client d i Hv)).
        * repeat constructor; cbn; try apply Hn; try (destruct (Hs1 i); lia).
          apply (vs_service _ (vs_pickup _ (valid_p_shipment d i Hv))).
        * repeat constructor; cbn; try apply Hn; try (destruct (Hs1 i); lia).
          apply (vs_service _ (vs_delivery _ (valid_p_shipment d i Hv))). }
  pose proof (route_sums_nonneg d Hv Hn v mid) as [N1 N2]. unfold time_fits in Hfit.
  destruct (simulate_open h _ Hev 0) as [S1 S2]; [rewrite route_events_spend; lia|].
  rewrite route_events_spend in S2. rewrite Hsim in S1, S2. cbn [fst snd] in S1, S2.
  unfold ds_warp0 in Hwarp. unfold ds_timeWarp. rewrite Hdur, Hmax.
  assert (tw T = 0) by lia. assert (td T <= MAXV) by lia.
  split; [|assumption].
  destruct (Z.gtb_spec (td T - (ds_ctw (bp_ds (bpass_final d v mid)) + ds_tw (bp_ds (bpass_final d v mid)))) MAXV); lia.
Qed.

(** Where duration does not matter for the cost, its contribution is nothing. *)
Lemma no_duration_cost ev mid : ev_ok ev -> hasDurationCost d v = false -> time_fits d h v mid ->
  ca_durationCost (update d v mid) + twPenalty ev (ca_timeWarp (update d v mid)) = 0.
Proof.
  intros [_ [Ez _] _] Hno Hfit. unfold hasDurationCost in Hno. rewrite !orb_false_iff in Hno.
  destruct Hno as [[[W1 W2] W3] W4].
  rewrite negb_false_iff, Z.eqb_eq in W2, W4.
  destruct (update_no_windows mid W1 W4 Hfit) as [E1 E2].
  unfold twPenalty. rewrite E1, Ez.
  change (ca_durationCost (update d v mid)) with
    (v_unitDuration v * ca_duration (update d v mid)
     + v_unitOvertime v * Z.max (ca_duration (update d v mid) - v_shift v) 0).
  rewrite W2. apply andb_false_iff in W3. rewrite !negb_false_iff, !Z.eqb_eq in W3.
  destruct W3 as [W3|W3]; [rewrite W3; lia|].
  destruct (vehicle_valid d h Hv Ho v Hin) as [[] _]. rewrite W3 in *.
  destruct (Z.ltb_spec 0 (MAXV - v_shift v)); [lia|].
  replace (Z.max (ca_duration (update d v mid) - v_shift v) 0) with 0 by lia. lia.
Qed.
End Timing.

Lemma no_distance_cost ev d v mid : ev_ok ev -> hasDistanceCost v = false -> route_dist d v mid <= MAXV ->
  ca_distanceCost (update d v mid) + distPenalty ev (ca_excessDistance (update d v mid)) 0 = 0.
Proof.
  intros [_ _ [Ez _]] Hno Hfit. unfold hasDistanceCost in Hno. rewrite orb_false_iff, !negb_false_iff, !Z.eqb_eq in Hno.
  destruct Hno as [W1 W2].
  change (ca_distanceCost (update d v mid)) with (v_unitDistance v * ca_distance (update d v mid)).
  change (ca_excessDistance (update d v mid)) with (Z.max (ca_distance (update d v mid) - v_maxDistance v) 0).
  rewrite update_distance, W1, W2. unfold distPenalty, excessDistPenalty.
  replace (Z.max (Z.max (route_dist d v mid - MAXV) 0 - 0) 0) with 0 by lia. rewrite Ez. lia.
Qed.

(** ** The loop over the load dimensions *)
Lemma add_loads_spec ex ev d v p dims : forall out,
  (forall dim, In dim dims -> 0 <= loadPenalty ev (prop_excessLoad d v dim p) 0 dim) ->
  let total := zsum (map (fun dim => loadPenalty ev (prop_excessLoad d v dim p) 0 dim) dims) in
  match add_loads ex ev d v p dims out with
  | inr o => o = out + total
  | inl o => ex = false /\ 0 <= o /\ o <= out + total
  end.
Proof.
  induction dims as [|dim dims IH]; intros out Hp; cbn [add_loads map zsum]; cbv zeta; [lia|].
  assert (Hs : 0 <= zsum (map (fun dim => loadPenalty ev (prop_excessLoad d v dim p) 0 dim) dims)).
  { apply zsum_nonneg. intros x Hx. apply in_map_iff in Hx. destruct Hx as (k & <- & Hk).
    apply Hp. right. exact Hk. }
  pose proof (Hp dim (or_introl eq_refl)).
  destruct (negb ex && (0 <=? out)) eqn:E.
  - apply andb_true_iff in E. destruct E as [E1 E2]. rewrite negb_true_iff in E1. rewrite Z.leb_le in E2. lia.
  - specialize (IH (out + loadPenalty ev (prop_excessLoad d v dim p) 0 dim)
                 (fun k Hk => Hp k (or_intror Hk))). cbv zeta in IH.
    destruct (add_loads ex ev d v p dims _); lia.
Qed.

Lemma load_penalties_sum fs : forall loads, length fs = length loads -> (forall x, In x loads -> 0 <= x) ->
  excessLoadPenalties fs loads =
  zsum (map (fun dim => nth dim fs (fun _ => 0) (Z.max (nth dim loads 0 - 0) 0)) (seq 0 (length loads))).
Proof.
  induction fs as [|f fs IH]; intros [|x loads] Hl Hx; try discriminate; [reflexivity|].
  cbn [excessLoadPenalties length seq map zsum nth]. rewrite <- seq_shift, map_map. cbn [nth].
  rewrite <- IH; [|auto|intros y Hy; apply Hx; right; exact Hy].
  replace (Z.max (x - 0) 0) with x by (specialize (Hx x (or_introl eq_refl)); lia). reflexivity.
Qed.

Lemma route_excess_nonneg d v dim mid : 0 <= route_excess d v dim mid.
Proof.
  unfold route_excess. destruct (trips mid) as [|t ts]; [lia|].
  assert (0 <= zsum (map (trip_excess d dim (dimv (v_capacity v) dim) 0) ts)).
  { apply zsum_nonneg. intros x Hx. apply in_map_iff in Hx. destruct Hx as (? & <- & _).
    unfold trip_excess. lia. }
  unfold trip_excess at 1. lia.
Qed.

(** ** What evaluating proposal [p] against the rebuilt route [mid'] takes. *)
Record applicable (d : pdata) (h : Z) (ev : evaluator) (v : vehicle) (p : proposal)
    (mid' : list activity) : Prop := mk_applicable {
  ap_veh : In v (p_vehicles d);
  ap_dims : length (v_capacity v) = p_numLoadDimensions d;
  ap_pens : length (ev_load ev) = p_numLoadDimensions d;
  ap_wf : wf_prop d v p;
  ap_items : prop_items d p = route_items d v mid';
  ap_visit : has_visit mid' = true;
  ap_release : reload_releases_ok d mid';
  ap_time : time_fits d h v mid';
  ap_dist : route_dist d v mid' <= MAXV;
  ap_max : inner (List.tl (seg_items d (pr_first p)))
           \/ ca_duration (update d v mid') <= v_maxDuration v
           \/ ca_timeWarp (update d v mid') = 0 }.

Section Delta.
Variable d : pdata.
Variable h : Z.
Hypothesis Hv : valid_data d.
Hypothesis Ho : opens_by d h.
Hypothesis Hn : nonneg_durs d.
Variable ev : evaluator.
Hypothesis Hev : ev_ok ev.

Lemma applicable_h v p mid' : applicable d h ev v p mid' -> 2 * h <= MAXV.
Proof.
  intros H. pose proof (ap_time _ _ _ _ _ _ H) as Ht. unfold time_fits in Ht.
  pose proof (route_sums_nonneg d Hv Hn v mid'). pose proof (ob_nonneg _ _ Ho). lia.
Qed.

Lemma prop_cache_veh v p : wf_prop d v p -> ca_veh (prop_cache d p) = v.
Proof. intros [mid e mids l He Hm Hl]. reflexivity. Qed.

Lemma add_dist_exact v p mid' out : applicable d h ev v p mid' ->
  add_dist ev d v p out = out + (ca_distanceCost (update d v mid')
                                 + distPenalty ev (ca_excessDistance (update d v mid')) 0).
Proof.
  intros H. unfold add_dist. destruct (hasDistanceCost v) eqn:E.
  - rewrite (prop_distance_exact d v p mid' (ap_wf _ _ _ _ _ _ H) (ap_items _ _ _ _ _ _ H)).
    unfold distPenalty, excessDistPenalty.
    change (ca_excessDistance (update d v mid')) with (Z.max (ca_distance (update d v mid') - v_maxDistance v) 0).
    replace (Z.max (Z.max (ca_distance (update d v mid') - v_maxDistance v) 0 - 0) 0) with
      (Z.max (ca_distance (update d v mid') - v_maxDistance v) 0) by lia. lia.
  - rewrite no_distance_cost; [lia|assumption|exact E|exact (ap_dist _ _ _ _ _ _ H)].
Qed.

Lemma add_dur_exact v p mid' out : applicable d h ev v p mid' ->
  add_dur ev d v p out = out + (ca_durationCost (update d v mid')
                                + twPenalty ev (ca_timeWarp (update d v mid'))).
Proof.
  intros H. pose proof (applicable_h _ _ _ H) as Hh.
  unfold add_dur. destruct (hasDurationCost d v) eqn:E.
  - destruct (prop_duration_exact d h Hv Ho Hn v (ap_veh _ _ _ _ _ _ H) p mid' (ap_wf _ _ _ _ _ _ H)
                (ap_items _ _ _ _ _ _ H) (ap_release _ _ _ _ _ _ H) (ap_time _ _ _ _ _ _ H)) as [E1 E2].
    specialize (E2 (ap_max _ _ _ _ _ _ H)).
    destruct (prop_duration d v p) as [cost tw]. cbn [fst snd] in *. subst. lia.
  - rewrite (no_duration_cost d h); try assumption; [lia| |exact (ap_time _ _ _ _ _ _ H)].
    exact (ap_veh _ _ _ _ _ _ H).
Qed.

Lemma dur_nonneg v p mid' : applicable d h ev v p mid' ->
  0 <= ca_durationCost (update d v mid') + twPenalty ev (ca_timeWarp (update d v mid')).
Proof.
  intros H. pose proof (applicable_h _ _ _ H) as Hh.
  destruct (update_timing_nonneg d h Hv Ho Hn Hh v (ap_veh _ _ _ _ _ _ H) mid') as (_ & E1 & E2).
  pose proof (pen_nonneg _ _ (eo_tw _ Hev) E2) as E3. unfold twPenalty.
  change (ca_durationCost (update d v mid')) with
    (v_unitDuration v * ca_duration (update d v mid')
     + v_unitOvertime v * Z.max (ca_duration (update d v mid') - v_shift v) 0).
  destruct (vehicle_valid d h Hv Ho v (ap_veh _ _ _ _ _ _ H)) as [[] _].
  assert (0 <= v_unitDuration v * ca_duration (update d v mid')) by nia.
  assert (0 <= v_unitOvertime v * Z.max (ca_duration (update d v mid') - v_shift v) 0)
    by (apply Z.mul_nonneg_nonneg; lia). lia.
Qed.

Lemma add_loads_exact ex v p mid' out : applicable d h ev v p mid' ->
  let total := excessLoadPenalties (ev_load ev) (ca_excessLoad (update d v mid')) in
  match add_loads ex ev d v p (cap_dims v) out with
  | inr o => o = out + total
  | inl o => ex = false /\ 0 <= o /\ o <= out + total
  end.
Proof.
  intros H total.
  assert (Hlen : length (ca_excessLoad (update d v mid')) = p_numLoadDimensions d).
  { cbn [ca_excessLoad update]. rewrite map_length, seq_length. reflexivity. }
  assert (Hx : forall dim, (dim < p_numLoadDimensions d)%nat ->
             0 <= nth dim (ca_excessLoad (update d v mid')) 0).
  { intros dim Hd. rewrite update_excess_spec; [apply route_excess_nonneg|exact (ap_veh _ _ _ _ _ _ H)|assumption|assumption]. }
  assert (Hall : forall x, In x (ca_excessLoad (update d v mid')) -> 0 <= x).
  { intros x Hxx. apply (In_nth _ _ 0) in Hxx. destruct Hxx as (k & Hk & <-). apply Hx. rewrite <- Hlen. exact Hk. }
  assert (Et : total = zsum (map (fun dim => loadPenalty ev (prop_excessLoad d v dim p) 0 dim) (cap_dims v))).
  { unfold total. rewrite load_penalties_sum; [|rewrite Hlen; exact (ap_pens _ _ _ _ _ _ H)|exact Hall].
    unfold cap_dims. rewrite Hlen, (ap_dims _ _ _ _ _ _ H). f_equal. apply map_ext_in. intros dim Hd.
    apply in_seq in Hd. unfold loadPenalty.
    rewrite (prop_excessLoad_exact d v p mid' dim (ap_wf _ _ _ _ _ _ H) (ap_items _ _ _ _ _ _ H)) by lia.
    reflexivity. }
  rewrite Et. apply add_loads_spec. intros dim Hd.
  unfold cap_dims in Hd. rewrite (ap_dims _ _ _ _ _ _ H) in Hd. apply in_seq in Hd.
  unfold loadPenalty.
  assert (Hp : pen_ok (nth dim (ev_load ev) (fun _ => 0))).
  { apply Forall_nth_default; [exact (eo_load _ Hev)|]. split; [reflexivity|intros; lia]. }
  apply pen_nonneg; [exact Hp|lia].
Qed.

(** Penalised cost of the rebuilt route. *)
Lemma rebuilt_cost v p mid' : applicable d h ev v p mid' ->
  search_penalised ev (update d v mid') =
  v_fixedCost v
  + (ca_distanceCost (update d v mid') + distPenalty ev (ca_excessDistance (update d v mid')) 0)
  + excessLoadPenalties (ev_load ev) (ca_excessLoad (update d v mid'))
  + (ca_durationCost (update d v mid') + twPenalty ev (ca_timeWarp (update d v mid'))).
Proof.
  intros H. unfold search_penalised. rewrite ca_empty_spec, (ap_visit _ _ _ _ _ _ H). cbn [negb].
  change (ca_veh (update d v mid')) with v. lia.
Qed.

Theorem deltaCost_spec ex v p mid' out : applicable d h ev v p mid' ->
  let true_delta := out - search_penalised ev (prop_cache d p) + search_penalised ev (update d v mid') in
  match deltaCost ex ev d out p with
  | (o, true) => o = true_delta
  | (o, false) => ex = false /\ 0 <= o /\ o <= true_delta
  end.
Proof.
  intros H true_delta. subst true_delta. rewrite (rebuilt_cost _ _ _ H).
  unfold deltaCost. rewrite (prop_cache_veh v p (ap_wf _ _ _ _ _ _ H)).
  rewrite (add_dist_exact v p mid' _ H).
  pose proof (dur_nonneg v p mid' H).
  match goal with |- context [add_loads _ _ _ _ _ _ ?o] => 
    pose proof (add_loads_exact ex v p mid' o H) as HL; cbv zeta in HL;
    destruct (add_loads ex ev d v p (cap_dims v) o) as [o1|o1] end.
  - lia.
  - rewrite (add_dur_exact v p mid' _ H). lia.
Qed.

Theorem deltaCost2_spec ex vu vv pu pv midu midv out :
  applicable d h ev vu pu midu -> applicable d h ev vv pv midv ->
  let true_delta := out - search_penalised ev (prop_cache d pu) - search_penalised ev (prop_cache d pv)
                    + search_penalised ev (update d vu midu) + search_penalised ev (update d vv midv) in
  match deltaCost2 ex ev d out pu pv with
  | (o, true) => o = true_delta
  | (o, false) => ex = false /\ 0 <= o /\ o <= true_delta
  end.
Proof.
  intros Hu Hw true_delta. subst true_delta. rewrite (rebuilt_cost _ _ _ Hu), (rebuilt_cost _ _ _ Hw).
  unfold deltaCost2.
  rewrite (prop_cache_veh vu pu (ap_wf _ _ _ _ _ _ Hu)), (prop_cache_veh vv pv (ap_wf _ _ _ _ _ _ Hw)).
  rewrite (add_dist_exact vu pu midu _ Hu), (add_dist_exact vv pv midv _ Hw).
  pose proof (dur_nonneg _ _ _ Hu). pose proof (dur_nonneg _ _ _ Hw).
  assert (HLv : 0 <= excessLoadPenalties (ev_load ev) (ca_excessLoad (update d vv midv))).
  { pose proof (add_loads_exact true vv pv midv 0 Hw) as HL. cbv zeta in HL.
    pose proof (add_loads_spec true ev d vv pv (cap_dims vv) 0) as HS. cbv zeta in HS.
    assert (Hp : forall dim, In dim (cap_dims vv) -> 0 <= loadPenalty ev (prop_excessLoad d vv dim pv) 0 dim).
    { intros dim _. unfold loadPenalty. apply pen_nonneg; [|lia].
      apply Forall_nth_default; [exact (eo_load _ Hev)|]. split; [reflexivity|intros; lia]. }
    specialize (HS Hp).
    assert (0 <= zsum (map (fun dim => loadPenalty ev (prop_excessLoad d vv dim pv) 0 dim) (cap_dims vv))).
    { apply zsum_nonneg. intros x Hx. apply in_map_iff in Hx. destruct Hx as (k & <- & Hk). auto. }
    destruct (add_loads true ev d vv pv (cap_dims vv) 0); [destruct HS; discriminate|lia]. }
  match goal with |- context [add_loads ex ev d vu pu _ ?o] => 
    pose proof (add_loads_exact ex vu pu midu o Hu) as HL; cbv zeta in HL;
    destruct (add_loads ex ev d vu pu (cap_dims vu) o) as [o1|o1]; [lia|] end.
  pose proof (add_loads_exact ex vv pv midv o1 Hw) as HL2; cbv zeta in HL2;
  destruct (add_loads ex ev d vv pv (cap_dims vv) o1) as [o2|o2]; [lia|].
  destruct (negb ex && (0 <=? o2)) eqn:E.
  - apply andb_true_iff in E. destruct E as [E1 E2]. rewrite negb_true_iff in E1. rewrite Z.leb_le in E2. lia.
  - rewrite (add_dur_exact vv pv midv _ Hw), (add_dur_exact vu pu midu _ Hu). lia.
Qed.
End Delta.
