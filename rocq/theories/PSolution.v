(** Property theorems C09-C13: solutions and costs. *)
From Verif Require Import Base DurationSegment Data LoadSegment Valid Route RouteSpec Cost CostFacts
  Penalty Solution SolutionFacts SolutionFacts2 SolutionFacts3 Sample.
From Flocq Require Import IEEE754.BinarySingleNaN.
Notation EmptyString := String.EmptyString.

(** C09: what the constructor accepts. *)
Theorem C09_solution_accepts_consistent : forall d routes,
  Forall (built d) routes -> groups_nodup d -> groups_known d ->
  (consistent d routes <-> exists s, make_solution d routes = Ok s) /\
  (~ consistent d routes -> make_solution d routes = Err RuntimeErr).
Proof. exact make_solution_iff. Qed.
Print Assumptions C09_solution_accepts_consistent.

(** C10: planned and unplanned activities. *)
Theorem C10_plan_partition : forall d routes,
  Forall (built d) routes -> groups_nodup d -> groups_known d -> forall s,
  make_solution d routes = Ok s ->
  so_routes s = routes /\
  (forall i, In (AClient i) (so_unplanned s) <-> (i < p_numClients d)%nat /\ ~ In (AClient i) (plan routes)) /\
  (forall i, In (APickup i) (so_unplanned s) <-> (i < p_numShipments d)%nat /\ ~ In (APickup i) (plan routes)) /\
  (forall i, In (ADelivery i) (so_unplanned s) <-> (i < p_numShipments d)%nat /\ ~ In (ADelivery i) (plan routes)) /\
  (forall i, ~ In (ADepot i) (so_unplanned s)) /\
  NoDup (so_unplanned s) /\
  NoDup (client_ids (plan routes)) /\ NoDup (pickup_ids (plan routes)) /\
  so_numClients s = length (client_ids (plan routes)) /\
  so_numShipments s = length (pickup_ids (plan routes)) /\
  so_prizes s = zsum (map (act_prize d) (plan routes)) /\
  so_uncollected s = zsum (map (act_prize d) (so_unplanned s)) /\
  so_prizes s + so_uncollected s = all_prizes d.
Proof. exact partition. Qed.
Print Assumptions C10_plan_partition.

(** C11: feasibility. *)
Theorem C11_feasible_iff : forall d h, valid_data d -> opens_by d h -> nonneg_durs d -> 2 * h <= MAXV ->
  forall routes, Forall (built d) routes -> groups_nodup d -> groups_known d -> forall s,
  make_solution d routes = Ok s ->
  so_isFeasible s = true <->
  (forall r, In r routes -> (forall x, In x (r_excessLoad r) -> x = 0) /\ r_excessDistance r = 0 /\ r_timeWarp r = 0) /\
  (forall i, (i < p_numClients d)%nat -> c_required (p_client d i) = true -> In (AClient i) (plan routes)) /\
  (forall i, (i < p_numShipments d)%nat -> s_required (p_shipment d i) = true ->
     In (APickup i) (plan routes) /\ In (ADelivery i) (plan routes)) /\
  (forall g, In g (p_groups d) -> g_required g = true ->
     exists i, In i (g_clients g) /\ In (AClient i) (plan routes)) /\
  (forall g i j, In g (p_groups d) -> In i (g_clients g) -> In j (g_clients g) ->
     In (AClient i) (plan routes) -> In (AClient j) (plan routes) -> i = j).
Proof. exact feasible_spec. Qed.
Print Assumptions C11_feasible_iff.

(** C12: cost.  [objective] is the documented objective: fixed, distance, duration and overtime
    cost of the routes, and the prizes of what is not planned. *)
Theorem C12_cost_is_objective : forall d h, valid_data d -> opens_by d h -> nonneg_durs d -> 2 * h <= MAXV ->
  forall routes, Forall (built d) routes -> groups_nodup d -> groups_known d -> forall s,
  make_solution d routes = Ok s -> forall ev, ev_ok ev ->
  (so_isFeasible s = true -> solution_cost ev s = objective d s /\ solution_penalised ev s = objective d s) /\
  (so_isFeasible s = false -> solution_cost ev s = MAXV) /\
  objective d s <= solution_penalised ev s.
Proof. exact cost_spec. Qed.
Print Assumptions C12_cost_is_objective.

(** C13: the penalty functions of an evaluator built from finite binary64 weights are zero without
    violation and monotone, hence never negative; negative weights are rejected. *)
Theorem C13_penalty_monotone : forall w, is_finite w = true -> b64_neg w = false ->
  penalty w 0 = 0 /\ (forall x y, 0 <= x <= y -> penalty w x <= penalty w y) /\
  (forall x, 0 <= x -> 0 <= penalty w x).
Proof.
  exact (fun w Hf Hn => conj (proj1 (penalty_ok w Hf Hn)) (conj (proj2 (penalty_ok w Hf Hn))
           (fun x Hx => pen_nonneg _ x (penalty_ok w Hf Hn) Hx))).
Qed.
Print Assumptions C13_penalty_monotone.

Theorem C13_evaluator : forall loads tw dist ev,
  make_evaluator loads tw dist = Ok ev ->
  Forall (fun w => is_finite w = true) loads -> is_finite tw = true -> is_finite dist = true ->
  ev_ok ev /\ length (ev_load ev) = length loads.
Proof. exact make_evaluator_ok. Qed.
Print Assumptions C13_evaluator.

(** A feasible solution of the sample instance with two routes and three trips, and an infeasible
    one (too much load), for the hypotheses above. *)
Definition ex_get (x : res route) : route :=
  match x with Ok r => r | Err _ => mk_route [] 0 0 0 [] [] [] 0 0 0 0 0 0 0 0 0 0 0 0 0 end.
Definition ex_r1 : route := ex_get (make_route sample [AClient 0; APickup 0; ADelivery 0; ADepot 1; AClient 1] 0).
Definition ex_r2 : route := ex_get (make_route sample [AClient 3] 1).
Definition ex_r3 : route := ex_get (make_route sample sMid 0).
Lemma ex_built : Forall (built sample) [ex_r1; ex_r2; ex_r3].
Proof.
  repeat constructor.
  - exists [AClient 0; APickup 0; ADelivery 0; ADepot 1; AClient 1], 0%nat. split; [vm_compute; lia|vm_compute; reflexivity].
  - exists [AClient 3], 1%nat. split; [vm_compute; lia|vm_compute; reflexivity].
  - exists sMid, 0%nat. split; [vm_compute; lia|vm_compute; reflexivity].
Qed.
Lemma ex_groups : groups_nodup sample /\ groups_known sample.
Proof.
  split; repeat constructor; cbn; try lia; intros H; repeat destruct H as [H|H]; try discriminate; tauto.
Qed.
Example C09_C12_case :
  Forall (built sample) [ex_r1; ex_r2] /\ groups_nodup sample /\ groups_known sample /\
  (exists s, make_solution sample [ex_r1; ex_r2] = Ok s /\ so_isFeasible s = true /\ so_unplanned s = [AClient 2]) /\
  (exists s, make_solution sample [ex_r3] = Ok s /\ so_isFeasible s = false /\ so_excessLoad s = [4; 0]) /\
  make_solution sample [ex_r1; ex_r3] = Err RuntimeErr.
Proof.
  pose proof ex_built as H. inversion H as [|x l H1 H2]; subst. inversion H2 as [|y l H3 H4]; subst.
  split; [repeat constructor; assumption|]. split; [apply ex_groups|]. split; [apply ex_groups|].
  split; [|split].
  - eexists. split; [vm_compute; reflexivity|]. split; vm_compute; reflexivity.
  - eexists. split; [vm_compute; reflexivity|]. split; vm_compute; reflexivity.
  - vm_compute. reflexivity.
Qed.
Definition ex_w : b64 := b64_of_Z 20.
Example C13_case : (exists ev, make_evaluator [ex_w; ex_w] ex_w b64_zero = Ok ev) /\
  is_finite ex_w = true /\ b64_neg ex_w = false /\ penalty ex_w 7 = 140 /\
  make_evaluator [b64_of_Z (-1)] ex_w ex_w = Err InvalidArgument.
Proof.
  split; [|repeat split; vm_compute; reflexivity].
  eexists. unfold make_evaluator.
  replace (existsb b64_neg [ex_w; ex_w]) with false by (vm_compute; reflexivity).
  replace (b64_neg ex_w) with false by (vm_compute; reflexivity).
  replace (b64_neg b64_zero) with false by (vm_compute; reflexivity). reflexivity.
Qed.
