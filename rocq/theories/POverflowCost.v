(** Property theorems C55, continued: the costs of routes, solutions and changes in 64-bit arithmetic. *)
From Coq Require Import Reals String.
From Flocq Require Import Core.Core IEEE754.BinarySingleNaN.
From Verif Require Import Base DurationSegment Data DataCtor LoadSegment SearchRoute Route Solution Cost CostFacts DeltaFacts ProposalRest Penalty Valid Sample PSearch RngFloat POverflow
  Overflow OverflowSeg OverflowRoute OverflowMore OverflowCost.
Local Open Scope Z_scope.

(** C55: with penalties of at most [P] per unit, the penalised cost of a route of [n] visits does not overflow, as long as
    its figures fit in 2^60 and what they may cost in an int64. *)
Theorem C55_route_cost : forall d B U ev P vt acts r, valid_data d -> sized d B U -> ev_within P ev -> (vt < p_numVehicleTypes d)%nat ->
  make_route d acts vt = Ok r ->
  8 * (Z.of_nat (List.length acts) + 3) * B * (U + 1) <= 2 ^ 60 ->
  8 * (Z.of_nat (List.length acts) + 3) * B * (U + 1) * (3 + P * (Z.of_nat (List.length (ev_load ev)) + 2)) <= MAXV ->
  kroute_penalised ev r = Some (route_penalised ev r).
Proof. intros d B U ev P vt acts r Hv Hs Hw. exact (route_cost_ok d B U Hv Hs ev P Hw vt acts r). Qed.
Print Assumptions C55_route_cost.

Theorem C55_solution_cost : forall d B U ev P plans routes s, valid_data d -> sized d B U -> ev_within P ev ->
  Forall2 (fun p r => (snd p < p_numVehicleTypes d)%nat /\ make_route d (fst p) (snd p) = Ok r) plans routes ->
  make_solution d routes = Ok s ->
  let figures := 8 * zsum (map (fun p => Z.of_nat (List.length (fst p)) + 3) plans) * B * (U + 1) in
  figures <= 2 ^ 60 -> Z.of_nat (p_numClients d + p_numShipments d) * B <= 2 ^ 60 ->
  figures * (3 + P * (Z.of_nat (List.length (ev_load ev)) + 2)) <= 2 ^ 62 ->
  ksolution_penalised ev s = Some (solution_penalised ev s).
Proof. intros d B U ev P plans routes s Hv Hs Hw. exact (solution_cost_ok d B U Hv Hs ev P Hw plans routes s). Qed.
Print Assumptions C55_solution_cost.

(** Nor do the delta costs of a change to one route, or to two, whether evaluation stops early or not. *)
Theorem C55_delta : forall d B U ev P vt old new p n O exact out, valid_data d -> sized d B U -> ev_within P ev ->
  (vt < p_numVehicleTypes d)%nat -> (exists r, make_route d old vt = Ok r) -> (exists r, make_route d new vt = Ok r) ->
  prop_cache d p = update d (p_vehicle d vt) old -> applicable d B ev (p_vehicle d vt) p new ->
  Z.of_nat (List.length old) <= n -> Z.of_nat (List.length new) <= n ->
  let figures := 8 * (n + 3) * B * (U + 1) in
  figures <= 2 ^ 60 -> - O <= out <= O -> O + 2 * (figures * (3 + P * (Z.of_nat (List.length (ev_load ev)) + 2))) <= MAXV ->
  kdeltaCost exact ev d out p = Some (deltaCost exact ev d out p).
Proof.
  intros d B U ev P vt old new p n O exact out Hv Hs Hw H1 H2 H3 H4 H5 H6 H7 F.
  exact (delta_cost_ok d B U Hv Hs ev P Hw vt old new p n O exact out (conj H1 (conj H2 (conj H3 (conj H4 H5)))) H6 H7).
Qed.
Print Assumptions C55_delta.

Theorem C55_delta_two_routes : forall d B U ev P vu oldu newu u vv oldv newv v n O exact out, valid_data d -> sized d B U -> ev_within P ev ->
  (vu < p_numVehicleTypes d)%nat -> (exists r, make_route d oldu vu = Ok r) -> (exists r, make_route d newu vu = Ok r) ->
  prop_cache d u = update d (p_vehicle d vu) oldu -> applicable d B ev (p_vehicle d vu) u newu ->
  (vv < p_numVehicleTypes d)%nat -> (exists r, make_route d oldv vv = Ok r) -> (exists r, make_route d newv vv = Ok r) ->
  prop_cache d v = update d (p_vehicle d vv) oldv -> applicable d B ev (p_vehicle d vv) v newv ->
  Z.of_nat (List.length oldu) <= n -> Z.of_nat (List.length newu) <= n -> Z.of_nat (List.length oldv) <= n -> Z.of_nat (List.length newv) <= n ->
  let figures := 8 * (n + 3) * B * (U + 1) in
  figures <= 2 ^ 60 -> - O <= out <= O -> O + 4 * (figures * (3 + P * (Z.of_nat (List.length (ev_load ev)) + 2))) <= MAXV ->
  kdeltaCost2 exact ev d out u v = Some (deltaCost2 exact ev d out u v).
Proof.
  intros d B U ev P vu oldu newu u vv oldv newv v n O exact out Hv Hs Hw H1 H2 H3 H4 H5 I1 I2 I3 I4 I5 H6 H7 H8 H9 F.
  exact (delta2_cost_ok d B U Hv Hs ev P Hw vu oldu newu u vv oldv newv v n O exact out (conj H1 (conj H2 (conj H3 (conj H4 H5)))) (conj I1 (conj I2 (conj I3 (conj I4 I5)))) H6 H7 H8 H9).
Qed.
Print Assumptions C55_delta_two_routes.

(** The penalties of an evaluator made of binary64 weights up to [2^k] are at most [2^(k+1)] per unit, rounding included. *)
Theorem C55_weights : forall loads tw dist ev k, 0 <= k <= 900 -> make_evaluator loads tw dist = Ok ev ->
  Forall (fun w => is_finite w = true /\ (B2R w <= bpow radix2 k)%R) (tw :: dist :: loads) ->
  forall f, In f (ev_tw ev :: ev_dist ev :: ev_load ev) -> forall x, 0 <= x <= MAXV -> 0 <= f x <= 2 ^ (k + 1) * x.
Proof.
  intros loads tw dist ev k Hk He HF f Hf. destruct (weights_within loads tw dist ev k Hk He HF) as [_ W1 W2 W3].
  destruct Hf as [<- |[<- |Hf]]; [exact W2|exact W3|]. rewrite Forall_forall in W1. exact (W1 f Hf).
Qed.
Print Assumptions C55_weights.

(** With the default limit of 100000 on penalties (PenaltyManager.py:89), one load dimension, numbers up to a million and
    unit costs up to one, that is any solution of up to 300000 visits and routes, each route counting for three. *)
Theorem C55_default_penalties : forall d loads tw dist ev plans routes s, valid_data d -> sized d 1000000 1 ->
  make_evaluator loads tw dist = Ok ev -> (List.length loads <= 1)%nat ->
  Forall (fun w => is_finite w = true /\ (B2R w <= IZR 100000)%R) (tw :: dist :: loads) ->
  Forall2 (fun p r => (snd p < p_numVehicleTypes d)%nat /\ make_route d (fst p) (snd p) = Ok r) plans routes ->
  make_solution d routes = Ok s ->
  zsum (map (fun p => Z.of_nat (List.length (fst p)) + 3) plans) <= 300000 -> Z.of_nat (p_numClients d + p_numShipments d) <= 2 ^ 40 ->
  ksolution_penalised ev s = Some (solution_penalised ev s).
Proof.
  intros d loads tw dist ev plans routes s Hv Hs He Hl HF F Es Hn Hc.
  assert (HF' : Forall (fun w => is_finite w = true /\ (B2R w <= bpow radix2 17)%R) (tw :: dist :: loads)).
  { eapply Forall_impl; [|exact HF]. intros w [A1 A2]. split; [exact A1|]. eapply Rle_trans; [exact A2|]. rewrite <- (IZR_Zpower radix2) by lia. apply IZR_le. cbn. lia. }
  pose proof (weights_within loads tw dist ev 17 ltac:(lia) He HF') as Hw.
  assert (El : List.length (ev_load ev) = List.length loads).
  { clear - He. unfold make_evaluator in He. destruct (existsb b64_neg loads); [discriminate|]. destruct (b64_neg tw); [discriminate|]. destruct (b64_neg dist); [discriminate|].
    apply okinj in He. rewrite <- He. apply map_length. }
  set (m := zsum (map (fun p => Z.of_nat (List.length (fst p)) + 3) plans)) in *.
  assert (Hm : 0 <= m) by apply (plan_size_nonneg plans).
  apply (C55_solution_cost d 1000000 1 ev (2 ^ (17 + 1)) plans routes s Hv Hs Hw F Es); rewrite ?El; fold m; clearbody m; change (2 ^ (17 + 1)) with 262144 in *; lia || nia.
Qed.
Print Assumptions C55_default_penalties.

(** With numbers up to MAX_VALUE = 2^44 (pyvrp/constants.py:3), for which routes themselves are fine (C55_max_value), costs
    can overflow: seven clients of load 2^44 in a vehicle without capacity, at the penalty of 100000. *)
Definition heavy : client := sClient 1 0 0 MAXV [2 ^ 44] [] 0 0 true None.
Definition heavy_data : pdata := mk_pdata [sLoc 0 0; sLoc 1 0] (repeat heavy 7)
  [mk_depot 0 0 MAXV 0 EmptyString] [mk_vehicle 1 0 0 [0] 0 MAXV MAXV MAXV 0 1 0 0 MAXV [0] [] SIZE_MAX 0 0 MAXV EmptyString]
  [mk_matrix 2 2 [0; 1; 1; 0]] [mk_matrix 2 2 [0; 1; 1; 0]] [] [].
Theorem C55_max_value_cost_refuted : exists d acts r w ev, valid_data d /\ sized d (2 ^ 44) 1 /\ make_route d acts 0 = Ok r /\ kmake_route d acts 0 = Some r /\
  B2R w = IZR 100000 /\ make_evaluator [w] w w = Ok ev /\ kroute_penalised ev r = None.
Proof.
  exists heavy_data, (map AClient (seq 0 7)). eexists. exists (b64_of_Z 100000). eexists.
  split. { constructor; cbn [heavy_data p_clients p_depots p_shipments p_vehicles]; repeat constructor; cbn; try (unfold MAXV; lia). }
  split. { constructor; cbn; repeat constructor; cbn; try (unfold MAXV; lia). }
  split; [vm_compute; reflexivity|]. split; [vm_compute; reflexivity|].
  split; [apply word_exact; split; [lia|reflexivity]|].
  split; [reflexivity|]. vm_compute. reflexivity.
Qed.
Print Assumptions C55_max_value_cost_refuted.

(** The sample: the change of [C16_case], with penalties of up to eight per unit. *)
Example C55_cost_case : valid_data sample /\ sized sample 30 10 /\ ev_within 8 ex_ev /\
  (exists r, make_route sample sMid 0 = Ok r) /\ (exists r, make_route sample ex_mid' 0 = Ok r) /\
  prop_cache sample ex_p = update sample (p_vehicle sample 0) sMid /\ applicable sample 30 ex_ev (p_vehicle sample 0) ex_p ex_mid' /\
  8 * (10 + 3) * 30 * (10 + 1) <= 2 ^ 60 /\ 100 + 4 * (8 * (10 + 3) * 30 * (10 + 1) * (3 + 8 * (2 + 2))) <= MAXV /\
  kdeltaCost true ex_ev sample 0 ex_p = Some (deltaCost true ex_ev sample 0 ex_p).
Proof.
  split; [apply sample_valid|]. split; [apply C55_case|].
  split. { assert (G : forall k, 0 <= k <= 8 -> within 8 (Z.mul k)) by (intros k Hk x Hx; nia).
    constructor; [lia|apply Forall_cons; [|apply Forall_cons; [|apply Forall_nil]]| |]; apply G; lia. }
  split; [eexists; vm_compute; reflexivity|]. split; [eexists; vm_compute; reflexivity|]. split; [reflexivity|].
  split. { destruct C16_case as (_ & _ & _ & _ & A & _). destruct A. constructor; assumption. }
  split; [lia|]. split; [unfold MAXV; lia|]. vm_compute. reflexivity.
Qed.
