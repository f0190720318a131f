(** Property theorem C55: 64-bit arithmetic. *)
From Coq Require Import String.
From Verif Require Import Base DurationSegment Data DataCtor LoadSegment Route Solution Valid Sample
  Overflow OverflowSeg OverflowRoute OverflowMore.
Local Open Scope Z_scope.

(** C55: constructing a route of [n] visits does not overflow, as long as 6 (n + 3) times the largest number of the
    data fits in 2^60, and 6 (n + 3) times that number and the largest unit cost fits in an int64.  The results are
    then those of exact arithmetic. *)
Theorem C55_route : forall d B U vt acts r, valid_data d -> sized d B U -> (vt < p_numVehicleTypes d)%nat ->
  6 * (Z.of_nat (List.length acts) + 3) * B <= 2 ^ 60 -> 6 * (Z.of_nat (List.length acts) + 3) * B * U <= MAXV ->
  make_route d acts vt = Ok r ->
  kmake_route d acts vt = Some r /\ kwaitDuration r = Some (r_waitDuration r) /\ kendTime r = Some (r_endTime r).
Proof.
  intros d B U vt acts r Hv Hs Hvt H1 H2 Hr. destruct (route_ok d B U Hv Hs vt Hvt acts r H1 H2 Hr) as (R1 & R2 & R3 & _).
  exact (conj R1 (conj R2 R3)).
Qed.
Print Assumptions C55_route.

(** With all numbers up to MAX_VALUE = 2^44 (pyvrp/constants.py:3) and unit costs up to 10, that is any route of up
    to 8189 visits. *)
Theorem C55_max_value : forall d vt acts r, valid_data d -> sized d (2 ^ 44) 10 -> (vt < p_numVehicleTypes d)%nat ->
  (Z.of_nat (List.length acts) <= 8189) -> make_route d acts vt = Ok r -> kmake_route d acts vt = Some r.
Proof.
  intros d vt acts r Hv Hs Hvt H Hr. apply (C55_route d (2 ^ 44) 10 vt acts r Hv Hs Hvt); [| |exact Hr]; unfold MAXV; lia.
Qed.
Print Assumptions C55_max_value.

(** The sums of a solution do not overflow when the numbers of visits of its routes, plus three for each, add up to
    few enough. *)
Theorem C55_solution : forall d B U plans routes s, valid_data d -> sized d B U ->
  Forall2 (fun p r => (snd p < p_numVehicleTypes d)%nat /\ make_route d (fst p) (snd p) = Ok r) plans routes ->
  make_solution d routes = Ok s ->
  8 * zsum (map (fun p => Z.of_nat (List.length (fst p)) + 3) plans) * B * (U + 1) <= 2 ^ 60 ->
  Z.of_nat (p_numClients d + p_numShipments d) * B <= 2 ^ 60 ->
  kevaluate d routes = Some (mk_sums (so_prizes s) (so_distance s) (so_distanceCost s) (so_duration s) (so_overtime s)
    (so_durationCost s) (so_excessDistance s) (so_timeWarp s) (so_fixedCost s) (so_excessLoad s) (so_uncollected s)).
Proof. intros d B U plans routes s Hv Hs. exact (solution_ok d B U Hv Hs plans routes s). Qed.
Print Assumptions C55_solution.

(** Neither do the duration segments of the search, however they are joined and finalised, nor their figures. *)
Theorem C55_segments : forall d B U e, valid_data d -> sized d B U -> joined d e -> 8 * xsize e * B <= 2 ^ 59 ->
  kseval d e = Some (seval d e) /\ kds_duration (seval d e) = Some (ds_duration (seval d e)) /\
  (forall m, 0 <= m -> kds_timeWarp m (seval d e) = Some (ds_timeWarp m (seval d e))) /\
  kds_endEarly (seval d e) = Some (ds_endEarly (seval d e)) /\ kds_endLate (seval d e) = Some (ds_endLate (seval d e)) /\
  kds_slack (seval d e) = Some (ds_slack (seval d e)).
Proof. intros d B U e Hv Hs. exact (segments_ok d B U Hv Hs e). Qed.
Print Assumptions C55_segments.

Theorem C55_loads : forall d B U cap dim e, valid_data d -> sized d B U -> 0 <= cap <= MAXV -> lgood d e -> 12 * lsize e * B <= 2 ^ 60 ->
  kleval d cap dim e = Some (leval d cap dim e) /\ kls_excessLoad cap (leval d cap dim e) = Some (ls_excessLoad cap (leval d cap dim e)).
Proof. intros d B U cap dim e Hv Hs. exact (load_values_ok d B U Hv Hs cap dim e). Qed.
Print Assumptions C55_loads.

(** Without the bound on opening times, construction of a route overflows on data that the constructors accept: one
    client that opens at the largest time. *)
Definition late_data : pdata := mk_pdata [sLoc 0 0; sLoc 1 0] [sClient 1 0 MAXV MAXV [] [] 0 0 true None]
  [mk_depot 0 0 MAXV 0 EmptyString] [mk_vehicle 1 0 0 [] 0 MAXV MAXV MAXV 0 1 0 0 MAXV [] [] SIZE_MAX 0 0 MAXV EmptyString]
  [mk_matrix 2 2 [0; 1; 1; 0]] [mk_matrix 2 2 [0; 1; 1; 0]] [] [].
Theorem C55_late_refuted : exists d acts r,
  valid_data d /\ make_pdata (p_locations d) (p_clients d) (p_depots d) (p_vehicles d) (p_dists d) (p_durs d) (p_groups d) (p_shipments d) = Ok d /\
  make_route d acts 0 = Ok r /\ kmake_route d acts 0 = None.
Proof.
  exists late_data, [AClient 0]. eexists. split; [|split; [|split]]; [|vm_compute; reflexivity..].
  constructor; cbn [late_data p_clients p_depots p_shipments p_vehicles]; repeat constructor; cbn; try (unfold MAXV; lia).
Qed.
Print Assumptions C55_late_refuted.

(** Without the sign condition on distances neither: two edges of length -1, and the default maximum distance. *)
Definition negative_data : pdata := mk_pdata [sLoc 0 0; sLoc 1 0] [sClient 1 0 0 MAXV [] [] 0 0 true None]
  [mk_depot 0 0 MAXV 0 EmptyString] [mk_vehicle 1 0 0 [] 0 MAXV MAXV MAXV 0 1 0 0 MAXV [] [] SIZE_MAX 0 0 MAXV EmptyString]
  [mk_matrix 2 2 [0; -1; -1; 0]] [mk_matrix 2 2 [0; 1; 1; 0]] [] [].
Theorem C55_negative_refuted : exists d acts r,
  valid_data d /\ make_pdata (p_locations d) (p_clients d) (p_depots d) (p_vehicles d) (p_dists d) (p_durs d) (p_groups d) (p_shipments d) = Ok d /\
  make_route d acts 0 = Ok r /\ kmake_route d acts 0 = None.
Proof.
  exists negative_data, [AClient 0]. eexists. split; [|split; [|split]]; [|vm_compute; reflexivity..].
  constructor; cbn [negative_data p_clients p_depots p_shipments p_vehicles]; repeat constructor; cbn; try (unfold MAXV; lia).
Qed.
Print Assumptions C55_negative_refuted.

(** The sample instance: a route of two trips, a solution, and a search segment finalised on both sides. *)
Definition ov_expr : sexpr :=
  XEdge 0 1 5 (XHere (XBack (XEdge 0 0 1 (XHere (XStop (PStart 0)) (XStop (PDepot 0 true))) (XStop (PDepot 1 false)))) (XStop (PService 1)))
    (XFront (XEdge 0 5 0 (XStop (PClient 3)) (XHere (XStop (PDepot 0 false)) (XStop (PEnd 0))))).
Definition ov_loads : lexpr := YJoin (YFinal (YJoin (YStop (LStart 0)) (YStop (LClient 0)))) (YJoin (YStop (LPickup 0)) (YStop (LDelivery 0))).
Example C55_case : valid_data sample /\ sized sample 30 10 /\
  (exists r, make_route sample sMid 0 = Ok r /\ kmake_route sample sMid 0 = Some r /\ r_duration r = 53) /\
  (exists r1 r2 s, make_route sample [AClient 0; APickup 0; AClient 3; ADelivery 0] 0 = Ok r1 /\ make_route sample sMid2 1 = Ok r2 /\ make_solution sample [r1; r2] = Ok s /\ so_distance s = 44) /\
  joined sample ov_expr /\ xsize ov_expr <= 20 /\ lgood sample ov_loads.
Proof.
  split; [apply sample_valid|]. split.
  { constructor.
    - constructor; cbn; repeat constructor; cbn; lia.
    - lia.
    - cbn; repeat constructor; cbn; lia.
    - cbn; repeat constructor; cbn; lia.
    - cbn; repeat constructor; cbn; lia.
    - cbn; repeat constructor; cbn; unfold MAXV; lia.
    - cbn; repeat constructor; cbn; lia.
    - cbn; repeat constructor; cbn; lia. }
  split; [eexists; split; [vm_compute; reflexivity|split; vm_compute; reflexivity]|].
  split; [do 3 eexists; split; [vm_compute; reflexivity|]; split; [vm_compute; reflexivity|]; split; vm_compute; reflexivity|].
  split; [cbn; repeat split; lia|]. split; [cbn; lia|cbn; repeat split; lia].
Qed.
