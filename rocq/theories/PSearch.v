(** Property theorems C14-C17: the search's evaluation of routes and proposals. *)
From Verif Require Import Base DurationSegment Data LoadSegment SearchRoute RouteDur Valid ProposalDur
  ProposalRest Route RouteSpec RouteFacts2 Cost CostFacts DeltaFacts SearchFacts Sample.
Notation EmptyString := String.EmptyString.

(** C14: joining what is cached before a cut with what is cached after it. *)
Theorem C14_cuts_agree : forall d h, valid_data d -> opens_by d h -> nonneg_durs d ->
  forall v, In v (p_vehicles d) -> forall mid e, (e < length mid + 1)%nat ->
  let c := update d v mid in
  let p := mk_proposal (SBefore c e) [SAfter c (e + 1)] in
  prop_distance d v p = (ca_distanceCost c, ca_excessDistance c) /\
  (forall dim, (dim < p_numLoadDimensions d)%nat -> prop_excessLoad d v dim p = nth dim (ca_excessLoad c) 0) /\
  (reload_releases_ok d mid -> time_fits d h v mid ->
   fst (prop_duration d v p) = ca_durationCost c /\
   ((forall a, In a mid -> a_isDepot a = false) \/ ca_duration c <= v_maxDuration v \/ ca_timeWarp c = 0 ->
    snd (prop_duration d v p) = ca_timeWarp c)).
Proof. exact cut_agrees. Qed.
Print Assumptions C14_cuts_agree.

(** C15: evaluating a proposal gives the figures of the route built from the same visits. *)
Theorem C15_proposal_distance : forall d v p mid,
  wf_prop d v p -> prop_items d p = route_items d v mid ->
  let c := update d v mid in
  prop_distance d v p = (ca_distanceCost c, ca_excessDistance c).
Proof. exact prop_distance_exact. Qed.
Print Assumptions C15_proposal_distance.

Theorem C15_proposal_load : forall d v p mid dim,
  wf_prop d v p -> prop_items d p = route_items d v mid -> (dim < p_numLoadDimensions d)%nat ->
  prop_excessLoad d v dim p = nth dim (ca_excessLoad (update d v mid)) 0.
Proof. exact prop_excessLoad_exact. Qed.
Print Assumptions C15_proposal_load.

Theorem C15_proposal_duration : forall d h, valid_data d -> opens_by d h -> nonneg_durs d ->
  forall v, In v (p_vehicles d) -> forall p mid,
  wf_prop d v p -> prop_items d p = route_items d v mid ->
  reload_releases_ok d mid -> time_fits d h v mid ->
  let c := update d v mid in
  fst (prop_duration d v p) = ca_durationCost c /\
  (inner (List.tl (seg_items d (pr_first p))) \/ ca_duration c <= v_maxDuration v \/ ca_timeWarp c = 0 ->
   snd (prop_duration d v p) = ca_timeWarp c).
Proof. exact prop_duration_exact. Qed.
Print Assumptions C15_proposal_duration.

(** Without the last condition the evaluated time warp can differ from that of the rebuilt route:
    a route with a reload depot that exceeds its maximum duration and has time warp. *)
Definition ex_tight : pdata := mk_pdata (p_locations sample) (p_clients sample) (p_depots sample)
  [ mk_vehicle 2 0 0 [6; 4] 0 100 20 60 10 2 1 0 40 [1; 0] [1%nat] 2 0 3 20 EmptyString ]
  (p_dists sample) (p_durs sample) [] (p_shipments sample).
Theorem C15_max_duration_refuted : exists d h v mid e,
  valid_data d /\ opens_by d h /\ nonneg_durs d /\ In v (p_vehicles d) /\
  reload_releases_ok d mid /\ time_fits d h v mid /\ (e < length mid + 1)%nat /\
  (exists r, make_route d mid 0 = Ok r) /\
  let c := update d v mid in
  snd (prop_duration d v (mk_proposal (SBefore c e) [SAfter c (e + 1)])) < ca_timeWarp c.
Proof.
  exists ex_tight, 20, (p_vehicle ex_tight 0), [AClient 1; ADepot 1; AClient 0], 3%nat.
  split; [|split; [|split; [|split; [|split; [|split; [|split; [|split]]]]]]].
  - destruct sample_valid as [V1 V2 V3 V4]. constructor; [exact V1|exact V2|exact V3|].
    constructor; [|constructor]. constructor; cbn; unfold MAXV; try lia.
    + repeat constructor; lia.
    + repeat constructor; lia.
    + intros [|[|dim]]; unfold dimv; cbn; try lia; destruct dim; cbn; lia.
  - constructor; cbn; repeat constructor; cbn; lia.
  - exact sample_durs.
  - left. reflexivity.
  - vm_compute. intuition congruence.
  - vm_compute. congruence.
  - cbn. lia.
  - eexists. vm_compute. reflexivity.
  - vm_compute. reflexivity.
Qed.
Print Assumptions C15_max_duration_refuted.

(** C16: delta costs.  The second component tells whether the evaluation was complete. *)
Theorem C16_delta_cost : forall d h, valid_data d -> opens_by d h -> nonneg_durs d ->
  forall ev, ev_ok ev -> forall exact v p mid out,
  applicable d h ev v p mid ->
  let true_delta := out - search_penalised ev (prop_cache d p) + search_penalised ev (update d v mid) in
  match deltaCost exact ev d out p with
  | (o, true) => o = true_delta
  | (o, false) => exact = false /\ 0 <= o /\ o <= true_delta
  end.
Proof. exact deltaCost_spec. Qed.
Print Assumptions C16_delta_cost.

Theorem C16_delta_cost_two_routes : forall d h, valid_data d -> opens_by d h -> nonneg_durs d ->
  forall ev, ev_ok ev -> forall exact vu vv pu pv midu midv out,
  applicable d h ev vu pu midu -> applicable d h ev vv pv midv ->
  let true_delta := out - search_penalised ev (prop_cache d pu) - search_penalised ev (prop_cache d pv)
                    + search_penalised ev (update d vu midu) + search_penalised ev (update d vv midv) in
  match deltaCost2 exact ev d out pu pv with
  | (o, true) => o = true_delta
  | (o, false) => exact = false /\ 0 <= o /\ o <= true_delta
  end.
Proof. exact deltaCost2_spec. Qed.
Print Assumptions C16_delta_cost_two_routes.

(** C17: a search route and a solution route with the same activities. *)
Theorem C17_search_agrees_with_solution : forall d h, valid_data d -> opens_by d h -> nonneg_durs d ->
  2 * h <= MAXV -> forall mid vt r, In (p_vehicle d vt) (p_vehicles d) ->
  make_route d mid vt = Ok r ->
  let c := update d (p_vehicle d vt) mid in
  r_distance r = ca_distance c /\ r_distanceCost r = ca_distanceCost c /\
  r_excessDistance r = ca_excessDistance c /\ r_duration r = ca_duration c /\
  r_durationCost r = ca_durationCost c /\ r_timeWarp r = ca_timeWarp c /\
  r_excessLoad r = ca_excessLoad c /\
  r_numClients r = ca_numClients c /\ r_numShipments r = ca_numShipments c /\
  forall ev, route_penalised ev r = search_penalised ev c.
Proof. exact search_core_agree. Qed.
Print Assumptions C17_search_agrees_with_solution.

(** The hypotheses are met by moving a client of the second trip of [sMid] elsewhere: keep the
    first three activities, insert client 2, and continue with the shipment's delivery. *)
Definition ex_v : vehicle := p_vehicle sample 0.
Definition ex_c : cache := update sample ex_v sMid.
Definition ex_p : proposal := mk_proposal (SBefore ex_c 3) [SClient 2; SBetween ex_c 4 5; SAfter ex_c 7].
Definition ex_mid' : list activity := [AClient 0; APickup 0; AClient 3; AClient 2; ADelivery 0; ADepot 1].
Definition ex_ev : evaluator := mk_evaluator [Z.mul 5; Z.mul 6] (Z.mul 7) (Z.mul 8).
Example C16_case : valid_data sample /\ opens_by sample 20 /\ nonneg_durs sample /\ ev_ok ex_ev /\
  applicable sample 20 ex_ev ex_v ex_p ex_mid' /\ snd (deltaCost true ex_ev sample 0 ex_p) = true.
Proof.
  split; [apply sample_valid|]. split; [apply sample_opens|]. split; [apply sample_durs|].
  split. { assert (G : forall k, 0 <= k -> pen_ok (Z.mul k)) by (intros k Hk; split; intros; nia).
    constructor; [apply Forall_cons; [|apply Forall_cons; [|apply Forall_nil]]| |]; apply G; lia. }
  split; [|vm_compute; reflexivity].
  constructor.
  - left. reflexivity.
  - reflexivity.
  - reflexivity.
  - apply (wf_prop_intro sample ex_v sMid 3 [SClient 2; SBetween ex_c 4 5]).
    + cbn. lia.
    + constructor; [constructor|]. constructor; [|constructor].
      apply wf_between; [exists ex_v, sMid; split; [left; reflexivity|reflexivity]|lia|vm_compute; lia|].
      cbn. exact I.
    + apply (wf_after sample ex_v sMid 7). cbn. lia.
  - reflexivity.
  - reflexivity.
  - vm_compute. intuition congruence.
  - vm_compute. congruence.
  - vm_compute. congruence.
  - left. cbn. auto.
Qed.
