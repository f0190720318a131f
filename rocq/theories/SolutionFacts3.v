(** Feasibility and cost of solutions. *)
From Coq Require Import Permutation.
From Verif Require Import Base DurationSegment Beh Tws DurationFacts Data LoadSegment SearchRoute
  RouteDur Valid ProposalDur ProposalRest Route RouteSpec RouteFacts RouteFacts2 RouteFacts3
  Cost CostFacts DeltaFacts Solution SolutionFacts SolutionFacts2.

Lemma sum_of_zero {A} (f : A -> Z) l : (forall r, In r l -> 0 <= f r) ->
  (zsum (map f l) <= 0 <-> forall r, In r l -> f r = 0) /\ 0 <= zsum (map f l).
Proof.
  induction l as [|r l IH]; intros H; [cbn; intuition; lia|].
  destruct IH as [IH1 IH2]; [intros; apply H; right; assumption|].
  pose proof (H r (or_introl eq_refl)). cbn [map zsum]. split; [|lia]. split.
  - intros Hle r' [<-|Hr']; [lia|]. apply IH1; [lia|exact Hr'].
  - intros Hz. rewrite (Hz r (or_introl eq_refl)).
    assert (zsum (map f l) <= 0); [|lia]. apply IH1. intros; apply Hz; right; assumption.
Qed.

(** A route without constraint violations. *)
Definition route_clean (r : route) : Prop :=
  (forall x, In x (r_excessLoad r) -> x = 0) /\ r_excessDistance r = 0 /\ r_timeWarp r = 0.

(** Objective value of a route: fixed, distance, duration and overtime cost. *)
Definition route_objective (d : pdata) (r : route) : Z :=
  let v := p_vehicle d (r_vehicleType r) in
  v_fixedCost v + v_unitDistance v * r_distance r + v_unitDuration v * r_duration r
  + v_unitOvertime v * r_overtime r.
Definition objective (d : pdata) (s : solution) : Z :=
  zsum (map (route_objective d) (so_routes s)) + zsum (map (act_prize d) (so_unplanned s)).

Section Routes.
Variable d : pdata.
Variable h : Z.
Hypothesis Hv : valid_data d.
Hypothesis Ho : opens_by d h.
Hypothesis Hn : nonneg_durs d.
Hypothesis Hh : 2 * h <= MAXV.

Lemma veh_in vt : (vt < p_numVehicleTypes d)%nat -> In (p_vehicle d vt) (p_vehicles d).
Proof. intros H. apply nth_In. exact H. Qed.

Lemma built_nonneg r : built d r ->
  (forall x, In x (r_excessLoad r) -> 0 <= x) /\ 0 <= r_excessDistance r /\ 0 <= r_timeWarp r /\
  length (r_excessLoad r) = p_numLoadDimensions d.
Proof.
  intros (mid & vt & Hvt & Hm).
  destruct (search_core_agree d h Hv Ho Hn Hh mid vt r (veh_in vt Hvt) Hm)
    as (_ & _ & E3 & _ & _ & E6 & E7 & _).
  destruct (update_timing_nonneg d h Hv Ho Hn Hh _ (veh_in vt Hvt) mid) as (_ & _ & Ht).
  rewrite E3, E6, E7.
  assert (Hl : length (ca_excessLoad (update d (p_vehicle d vt) mid)) = p_numLoadDimensions d)
    by (cbn [ca_excessLoad update]; rewrite map_length, seq_length; reflexivity).
  repeat split; [|cbn [ca_excessDistance update]; lia|exact Ht|exact Hl].
  intros x Hx. apply (In_nth _ _ 0) in Hx. destruct Hx as (k & Hkk & <-). rewrite Hl in Hkk.
  rewrite update_excess_spec; [apply route_excess_nonneg|apply veh_in; exact Hvt|exact Hv|exact Hkk].
Qed.

Lemma built_objective ev r : built d r -> r_empty r = false ->
  route_penalised ev r = route_objective d r
    + (excessLoadPenalties (ev_load ev) (r_excessLoad r) + twPenalty ev (r_timeWarp r)
       + distPenalty ev (r_excessDistance r) 0).
Proof.
  intros (mid & vt & Hvt & Hm) He. unfold route_penalised. rewrite He.
  apply route_fields in Hm. cbv zeta in Hm. unfold route_objective. rewrite Hm.
  cbn [r_distanceCost r_durationCost r_fixedCost r_excessLoad r_timeWarp r_excessDistance r_vehicleType
       r_distance r_duration r_overtime]. lia.
Qed.

Lemma pens_nonneg ev r : ev_ok ev -> built d r ->
  0 <= excessLoadPenalties (ev_load ev) (r_excessLoad r) /\ 0 <= twPenalty ev (r_timeWarp r) /\
  0 <= distPenalty ev (r_excessDistance r) 0.
Proof.
  intros [E1 E2 E3] Hr. destruct (built_nonneg r Hr) as (N1 & N2 & N3 & _).
  repeat split.
  - clear N2 N3. revert N1. generalize (r_excessLoad r). induction E1 as [|f fs Hf Hfs IH]; intros [|x l] Hl; cbn; try lia.
    pose proof (pen_nonneg f x Hf (Hl x (or_introl eq_refl))).
    specialize (IH l (fun y Hy => Hl y (or_intror Hy))). lia.
  - exact (pen_nonneg _ _ E2 N3).
  - apply (pen_nonneg _ _ E3). lia.
Qed.

Lemma pens_zero ev r : ev_ok ev -> route_clean r ->
  excessLoadPenalties (ev_load ev) (r_excessLoad r) + twPenalty ev (r_timeWarp r)
  + distPenalty ev (r_excessDistance r) 0 = 0.
Proof.
  intros [E1 E2 E3] (C1 & C2 & C3). rewrite C2, C3. unfold twPenalty, distPenalty, excessDistPenalty.
  rewrite (proj1 E2). cbn [Z.sub Z.max]. replace (Z.max (0 - 0) 0) with 0 by lia. rewrite (proj1 E3).
  assert (G : excessLoadPenalties (ev_load ev) (r_excessLoad r) = 0); [|lia].
  clear C2 C3. revert C1. generalize (r_excessLoad r).
  induction E1 as [|f fs Hf Hfs IH]; intros [|x l] Hl; cbn; try lia.
  rewrite (Hl x (or_introl eq_refl)), (proj1 Hf), IH; [lia|].
  intros y Hy. apply Hl. right. exact Hy.
Qed.

Variable routes : list route.
Hypothesis HB : Forall (built d) routes.
Hypothesis Hg : groups_nodup d.
Hypothesis Hk : groups_known d.
Variable s : solution.
Hypothesis Hs : make_solution d routes = Ok s.

(** What [is_complete] says. *)
Theorem complete_spec : so_isComplete s = true <->
  (forall i, (i < p_numClients d)%nat -> c_required (p_client d i) = true -> In (AClient i) (plan routes)) /\
  (forall i, (i < p_numShipments d)%nat -> s_required (p_shipment d i) = true ->
     In (APickup i) (plan routes) /\ In (ADelivery i) (plan routes)) /\
  (forall g, In g (p_groups d) -> g_required g = true ->
     exists i, In i (g_clients g) /\ In (AClient i) (plan routes)).
Proof.
  destruct (sol_inv d routes HB Hg Hk s Hs) as [Hcon (cv & sv & E & Hc & Hsv)].
  rewrite E. unfold so_isComplete.
  cbn [so_missingClients so_missingGroups so_missingShipments the_solution].
  rewrite !andb_true_iff, !Nat.eqb_eq.
  assert (F0 : forall (f : nat -> bool) n, length (filter f (seq 0 n)) = 0%nat <-> forall i, (i < n)%nat -> f i = false).
  { intros f n. split.
    - intros Hl i Hi. destruct (f i) eqn:Ef; [|reflexivity]. exfalso.
      assert (Hin : In i (filter f (seq 0 n))) by (apply filter_In; split; [apply in_seq; lia|exact Ef]).
      destruct (filter f (seq 0 n)); [destruct Hin|discriminate].
    - intros H. assert (Hf : filter f (seq 0 n) = []); [|rewrite Hf; reflexivity].
      destruct (filter f (seq 0 n)) as [|x l] eqn:Ef; [reflexivity|]. exfalso.
      assert (Hin : In x (filter f (seq 0 n))) by (rewrite Ef; left; reflexivity).
      apply filter_In in Hin. destruct Hin as [H1 H2]. apply in_seq in H1. rewrite H in H2; [discriminate|lia]. }
  assert (X4 : missing_clients d cv = 0%nat <-> forall i, (i < p_numClients d)%nat ->
     c_required (p_client d i) = true -> In (AClient i) (plan routes)).
  { unfold missing_clients. rewrite F0. split; intros H i Hi.
    - intros Hr. specialize (H i Hi). rewrite Hr, andb_true_r, negb_false_iff in H.
      apply in_client_ids. apply (proj2 Hc i Hi). exact H.
    - destruct (c_required (p_client d i)) eqn:Hr; [|apply andb_false_r]. rewrite andb_true_r, negb_false_iff.
      apply (proj2 Hc i Hi). apply in_client_ids. auto. }
  assert (X5 : missing_shipments d sv = 0%nat <-> forall i, (i < p_numShipments d)%nat ->
     s_required (p_shipment d i) = true -> In (APickup i) (plan routes) /\ In (ADelivery i) (plan routes)).
  { unfold missing_shipments. rewrite F0. split; intros H i Hi.
    - intros Hr. rewrite (plan_delivery d routes i HB). specialize (H i Hi). rewrite Hr, andb_true_r, negb_false_iff in H.
      rewrite <- in_pickup_ids. pose proof (proj1 (proj2 Hsv i Hi) H). auto.
    - destruct (s_required (p_shipment d i)) eqn:Hr; [|apply andb_false_r]. rewrite andb_true_r, negb_false_iff.
      apply (proj2 Hsv i Hi). apply in_pickup_ids. apply H; auto. }
  assert (X6 : length (filter (fun g => g_required g && (group_count cv g =? 0)%nat) (p_groups d)) = 0%nat <->
     forall g, In g (p_groups d) -> g_required g = true -> exists i, In i (g_clients g) /\ In (AClient i) (plan routes)).
  { unfold groups_known in Hk. rewrite Forall_forall in Hk. split.
    - intros Hl g Hgi Hr. destruct (group_count cv g =? 0)%nat eqn:Eg.
      + exfalso. assert (Hin : In g (filter (fun g => g_required g && (group_count cv g =? 0)%nat) (p_groups d)))
          by (apply filter_In; split; [exact Hgi|rewrite Hr, Eg; reflexivity]).
        destruct (filter _ (p_groups d)); [destruct Hin|discriminate].
      + apply Nat.eqb_neq in Eg. unfold group_count in Eg.
        destruct (filter (bit cv) (g_clients g)) as [|i l] eqn:Ef; [cbn in Eg; lia|].
        assert (Hin : In i (filter (bit cv) (g_clients g))) by (rewrite Ef; left; reflexivity).
        apply filter_In in Hin. destruct Hin as [H1 H2]. exists i. split; [exact H1|].
        specialize (Hk g Hgi). rewrite Forall_forall in Hk. apply in_client_ids. apply (proj2 Hc i (Hk i H1)). exact H2.
    - intros H. assert (Hf : filter (fun g => g_required g && (group_count cv g =? 0)%nat) (p_groups d) = []); [|rewrite Hf; reflexivity].
      destruct (filter _ (p_groups d)) as [|g l] eqn:Ef; [reflexivity|]. exfalso.
      assert (Hin : In g (filter (fun g => g_required g && (group_count cv g =? 0)%nat) (p_groups d)))
        by (rewrite Ef; left; reflexivity).
      apply filter_In in Hin. destruct Hin as [Hgi Hb]. apply andb_true_iff in Hb. destruct Hb as [Hr Hz].
      apply Nat.eqb_eq in Hz. destruct (H g Hgi Hr) as (i & Hi & Hp).
      specialize (Hk g Hgi). rewrite Forall_forall in Hk.
      assert (Hin : In i (filter (bit cv) (g_clients g))).
      { apply filter_In. split; [exact Hi|]. apply (proj2 Hc i (Hk i Hi)). apply in_client_ids. exact Hp. }
      unfold group_count in Hz. destruct (filter (bit cv) (g_clients g)); [destruct Hin|discriminate]. }
  rewrite X4, X5, X6. tauto.
Qed.

Theorem feasible_spec : so_isFeasible s = true <->
  (forall r, In r routes -> route_clean r) /\
  (forall i, (i < p_numClients d)%nat -> c_required (p_client d i) = true -> In (AClient i) (plan routes)) /\
  (forall i, (i < p_numShipments d)%nat -> s_required (p_shipment d i) = true ->
     In (APickup i) (plan routes) /\ In (ADelivery i) (plan routes)) /\
  (forall g, In g (p_groups d) -> g_required g = true ->
     exists i, In i (g_clients g) /\ In (AClient i) (plan routes)) /\
  (forall g i j, In g (p_groups d) -> In i (g_clients g) -> In j (g_clients g) ->
     In (AClient i) (plan routes) -> In (AClient j) (plan routes) -> i = j).
Proof.
  destruct (sol_inv d routes HB Hg Hk s Hs) as [Hcon (cv & sv & E & Hc & Hsv)].
  pose proof complete_spec as XC.
  rewrite E in *. unfold so_isFeasible, so_hasExcessLoad, so_hasTimeWarp, so_hasExcessDistance.
  cbn [so_excessLoad so_timeWarp so_excessDistance the_solution].
  pose proof HB as HB'. rewrite Forall_forall in HB'.
  rewrite !andb_true_iff, !negb_true_iff.
  assert (X1 : (sum_of r_timeWarp routes >? 0) = false <-> forall r, In r routes -> r_timeWarp r = 0).
  { rewrite Z.gtb_ltb, Z.ltb_ge. apply sum_of_zero. intros r Hr. apply (built_nonneg r (HB' r Hr)). }
  assert (X2 : (sum_of r_excessDistance routes >? 0) = false <-> forall r, In r routes -> r_excessDistance r = 0).
  { rewrite Z.gtb_ltb, Z.ltb_ge. apply sum_of_zero. intros r Hr. apply (built_nonneg r (HB' r Hr)). }
  assert (X3 : existsb (fun x => x >? 0)
      (map (fun dim => sum_of (fun r => nth dim (r_excessLoad r) 0) routes) (seq 0 (p_numLoadDimensions d))) = false <->
      forall r, In r routes -> forall x, In x (r_excessLoad r) -> x = 0).
  { assert (Hnn : forall dim r, In r routes -> 0 <= nth dim (r_excessLoad r) 0).
    { intros dim r Hr. destruct (built_nonneg r (HB' r Hr)) as (N1 & _).
      destruct (nth_in_or_default dim (r_excessLoad r) 0) as [Hi| ->]; [auto|lia]. }
    split.
    - intros Hf r Hr x Hx. apply (In_nth _ _ 0) in Hx. destruct Hx as (k & Hkk & <-).
      destruct (built_nonneg r (HB' r Hr)) as (_ & _ & _ & Hl). rewrite Hl in Hkk.
      apply (proj1 (sum_of_zero (fun r => nth k (r_excessLoad r) 0) routes (Hnn k))); [|exact Hr].
      destruct (Z.gtb_spec (sum_of (fun r => nth k (r_excessLoad r) 0) routes) 0) as [Hgt|Hle]; [|exact Hle].
      assert (existsb (fun x => x >? 0)
        (map (fun dim => sum_of (fun r => nth dim (r_excessLoad r) 0) routes) (seq 0 (p_numLoadDimensions d))) = true); [|congruence].
      apply existsb_exists. exists (sum_of (fun r => nth k (r_excessLoad r) 0) routes). split.
      + apply in_map_iff. exists k. split; [reflexivity|apply in_seq; lia].
      + apply Z.gtb_lt. lia.
    - intros H. destruct (existsb _ _) eqn:Ex; [|reflexivity]. exfalso.
      apply existsb_exists in Ex. destruct Ex as (x & Hx & Hgt). apply in_map_iff in Hx.
      destruct Hx as (k & <- & Hkk). apply Z.gtb_lt in Hgt.
      assert (sum_of (fun r => nth k (r_excessLoad r) 0) routes <= 0); [|lia].
      apply (sum_of_zero (fun r => nth k (r_excessLoad r) 0) routes (Hnn k)).
      intros r Hr. destruct (nth_in_or_default k (r_excessLoad r) 0) as [Hi|Hi]; [|exact Hi].
      exact (H r Hr _ Hi). }
  rewrite X1, X2, X3, XC. unfold route_clean. split.
  - intros (((A1 & A2) & A3) & A4 & A5 & A6).
    split; [intros r Hr; split; [intros x Hx; eapply A1; eauto|split; auto]|].
    split; [assumption|]. split; [assumption|]. split; [assumption|].
    intros g i j; exact (cs_groups _ _ Hcon g i j).
  - intros (B1 & B2 & B3 & B4 & _).
    assert (C1 : forall r, In r routes -> forall x, In x (r_excessLoad r) -> x = 0) by (intros r Hr; apply (B1 r Hr)).
    assert (C2 : forall r, In r routes -> r_timeWarp r = 0) by (intros r Hr; apply (B1 r Hr)).
    assert (C3 : forall r, In r routes -> r_excessDistance r = 0) by (intros r Hr; apply (B1 r Hr)).
    tauto.
Qed.

Theorem cost_spec ev : ev_ok ev ->
  (so_isFeasible s = true -> solution_cost ev s = objective d s /\ solution_penalised ev s = objective d s) /\
  (so_isFeasible s = false -> solution_cost ev s = MAXV) /\
  objective d s <= solution_penalised ev s.
Proof.
  intros Hev. destruct (sol_inv d routes HB Hg Hk s Hs) as [Hcon _].
  destruct (partition d routes HB Hg Hk s Hs) as (P1 & _ & _ & _ & _ & _ & _ & _ & _ & _ & _ & P2 & _).
  pose proof HB as HB'. rewrite Forall_forall in HB'.
  assert (Hne : forall r, In r routes -> r_empty r = false).
  { intros r Hr. apply (built_empty d r (HB' r Hr)). exact (cs_nonempty _ _ Hcon r Hr). }
  unfold solution_cost, solution_penalised, objective. rewrite P1, P2.
  assert (Hge : forall l, (forall r, In r l -> In r routes) ->
     zsum (map (route_objective d) l) <= zsum (map (route_penalised ev) l)).
  { induction l as [|r l IH]; intros Hl; [cbn; lia|]. cbn [map zsum].
    pose proof (IH (fun r' Hr' => Hl r' (or_intror Hr'))).
    pose proof (Hl r (or_introl eq_refl)) as Hr.
    rewrite (built_objective ev r (HB' r Hr) (Hne r Hr)).
    pose proof (pens_nonneg ev r Hev (HB' r Hr)). lia. }
  specialize (Hge routes (fun r Hr => Hr)).
  split; [|split; [intros ->; reflexivity|lia]].
  intros Hf. rewrite Hf. apply feasible_spec in Hf. destruct Hf as [Hcl _].
  assert (Heq : zsum (map (route_penalised ev) routes) = zsum (map (route_objective d) routes)); [|lia].
  clear Hge P1 P2 Hcon HB Hs. induction routes as [|r l IH]; [reflexivity|]. cbn [map zsum].
  rewrite IH.
  - rewrite (built_objective ev r (HB' r (or_introl eq_refl)) (Hne r (or_introl eq_refl))).
    pose proof (pens_zero ev r Hev (Hcl r (or_introl eq_refl))). lia.
  - intros x Hx. apply HB'. right. exact Hx.
  - intros x Hx. apply Hne. right. exact Hx.
  - intros x Hx. apply Hcl. right. exact Hx.
Qed.
End Routes.

Theorem make_solution_iff d routes :
  Forall (built d) routes -> groups_nodup d -> groups_known d ->
  (consistent d routes <-> exists s, make_solution d routes = Ok s) /\
  (~ consistent d routes -> make_solution d routes = Err RuntimeErr).
Proof.
  intros HB Hg Hk. destruct (make_solution_spec d routes HB Hg Hk) as [(H & cv & sv & E & _)|[H E]]; rewrite E.
  - split; [|tauto]. split; [eauto|auto].
  - split; [|auto]. split; [tauto|]. intros [s Hs]. discriminate.
Qed.
