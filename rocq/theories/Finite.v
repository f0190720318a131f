(** A closed-form condition under which the objective value of every solution is below the int64
    limit. *)
From Coq Require Import Permutation.
From Verif Require Import Base DurationSegment Beh Tws DurationFacts Data LoadSegment SearchRoute RouteDur Valid ProposalDur ProposalRest Route RouteSpec
  RouteFacts RouteFacts2 RouteFacts3 Cost CostFacts DeltaFacts Solution SolutionFacts SolutionFacts2 SolutionFacts3 SearchFacts DataCtor SearchSpace SearchNodes
  SearchSeq SearchLoad SearchLoad2 Ops PlanFacts ShipState OpsBase Fits.
Local Open Scope Z_scope.

(** Fixed costs at most [F], unit costs at most [U]. *)
Record modest_costs (d : pdata) (h : Z) (T : nat) (M S F U : Z) : Prop := mk_modest_costs {
  mc_fixed : forall v, In v (p_vehicles d) -> v_fixedCost v <= F;
  mc_units : forall v, In v (p_vehicles d) -> v_unitDistance v <= U /\ v_unitDuration v <= U /\ v_unitOvertime v <= U;
  mc_pos : 0 <= F /\ 0 <= U;
  mc_fit : Z.of_nat (p_numVehicles d) * (F + 3 * (U * (Z.of_nat (p_numClients d + 2 * p_numShipments d + T + 2) * (4 * h + M + S)))) + all_prizes d < MAXV }.

Section Finite.
Variable d : pdata.
Variable h : Z.
Hypothesis Hv : valid_data d.
Hypothesis Ho : opens_by d h.
Hypothesis Hn : nonneg_durs d.
Variables (T : nat) (M S F U : Z).
Hypothesis Hm : modest_size d h T M S.
Hypothesis Hc : modest_costs d h T M S F U.

Lemma once_in_plan routes r a : Forall (built d) routes -> consistent d routes -> In r routes -> a_isDepot a = false -> (cnt (r_acts r) a <= 1)%nat.
Proof.
  intros HB C Hr Ha. pose proof (plan_nodup d routes HB C) as N. apply in_split in Hr as (l1 & l2 & ->).
  pose proof (proj1 (Forall_forall _ _) HB r ltac:(apply in_or_app; right; left; reflexivity)) as Br.
  destruct (built_mid d r Br) as (mid & _ & _ & _ & -> & Es). unfold sched_acts in Es.
  unfold SolutionFacts.plan in N. rewrite flat_map_app in N. cbn [flat_map] in N. rewrite Es in N. unfold visits in N. rewrite !filter_app in N.
  set (f := fun a => negb (a_isDepot a)) in *.
  assert (N' : NoDup (filter f mid)).
  { clear - N. induction (filter f (flat_map (fun r => map sa_act (r_schedule r)) l1)) as [|x l IH]; cbn [app] in N; [|apply IH; inversion N; assumption].
    cbn [filter] in N. change (f (ADepot _)) with false in N. cbn iota in N.
    induction (filter f mid) as [|x l IH]; [constructor|]. cbn [app] in N. inversion N as [|? ? N1 N2]. subst. constructor; [|apply IH; exact N2].
    intros Hx. apply N1. rewrite !in_app_iff. auto. }
  clear - N' Ha. induction mid as [|x mid IH]; [cbn; lia|]. rewrite cnt_cons. cbn [filter] in N'. unfold f in N' at 1.
  destruct (a_eqb a x) eqn:E.
  - apply a_eqb_eq in E. subst x. rewrite Ha in N'. cbn [negb] in N'. inversion N' as [|? ? N1 N2]. subst.
    enough (cnt mid a = 0%nat) by lia. apply cnt_notIn. intros Hin. apply N1, filter_In. unfold f. rewrite Ha. auto.
  - destruct (negb (a_isDepot x)); [inversion N'; subst|]; specialize (IH ltac:(assumption)); lia.
Qed.

Lemma route_bound routes r : Forall (built d) routes -> consistent d routes -> In r routes ->
  route_objective d r <= F + 3 * (U * (Z.of_nat (p_numClients d + 2 * p_numShipments d + T + 2) * (4 * h + M + S))).
Proof.
  intros HB C Hr. pose proof (proj1 (Forall_forall _ _) HB r Hr) as Br.
  destruct (built_mid d r Br) as (mid & Em & Lt & W & Ea & _). set (v := p_vehicle d (r_vehicleType r)) in *.
  assert (Hin : In v (p_vehicles d)) by (apply nth_In; exact Lt).
  assert (Once : forall a, a_isDepot a = false -> (cnt mid a <= 1)%nat) by (intros a Ha; rewrite <- Ea; apply (once_in_plan routes); assumption).
  destruct (modest_pos d h Hv Ho Hn T M S Hm) as (M0 & S0 & H0).
  destruct (modest_figures d h Hv Ho Hn T M S Hm v mid Hin W Once) as (Hh & _ & Td & _ & Tu).
  destruct (search_core_agree d h Hv Ho Hn Hh mid (r_vehicleType r) r Hin Em) as (E1 & _ & _ & E4 & _). fold v in E1, E4. rewrite update_distance in E1.
  destruct (update_timing_nonneg d h Hv Ho Hn Hh v Hin mid) as (_ & Du & _). rewrite <- E4 in Du, Tu.
  pose proof (proj1 (Forall_forall _ _) (va_vehicles d Hv) v Hin) as Vv.
  assert (Eo : r_overtime r = Z.max (r_duration r - v_shift v) 0).
  { pose proof (route_fields d mid _ r Em) as Hf. cbv zeta in Hf. rewrite Hf. reflexivity. }
  pose proof (vv_shift v Vv). pose proof (vv_unitDistance v Vv). pose proof (vv_unitDuration v Vv). pose proof (vv_unitOvertime v Vv).
  destruct (mc_units _ _ _ _ _ _ _ Hc v Hin) as (U1 & U2 & U3). pose proof (mc_fixed _ _ _ _ _ _ _ Hc v Hin) as F1.
  unfold route_objective. fold v. set (n := Z.of_nat _) in *. assert (Hn0 : 0 <= n) by (subst n; lia). rewrite E1.
  assert (B1 : n * M <= n * (4 * h + M + S)) by nia. set (B := n * (4 * h + M + S)) in *.
  assert (X : forall u x, 0 <= u <= U -> x <= B -> u * x <= U * B) by (intros; nia).
  pose proof (X (v_unitDistance v) (route_dist d v mid) ltac:(lia) ltac:(lia)). pose proof (X (v_unitDuration v) (r_duration r) ltac:(lia) ltac:(lia)).
  pose proof (X (v_unitOvertime v) (r_overtime r) ltac:(lia) ltac:(lia)). lia.
Qed.

Theorem modest_objective routes s : groups_nodup d -> groups_known d -> Forall (built d) routes -> make_solution d routes = Ok s -> objective d s < MAXV.
Proof.
  intros Hg Hk HB Es. destruct (sol_inv d routes HB Hg Hk s Es) as [C _].
  destruct (partition d routes HB Hg Hk s Es) as (P1 & _ & _ & _ & _ & _ & _ & _ & _ & _ & P2 & P3 & P4).
  unfold objective. rewrite P1, <- P3. pose proof (mc_fit _ _ _ _ _ _ _ Hc) as Fit. pose proof (mc_pos _ _ _ _ _ _ _ Hc).
  set (R := F + _) in Fit.
  assert (A : zsum (map (route_objective d) routes) <= Z.of_nat (length (map (route_objective d) routes)) * R).
  { apply zsum_le. intros x Hx. apply in_map_iff in Hx as (r & <- & Hr). apply (route_bound routes); assumption. }
  rewrite map_length in A. pose proof (cs_vehicles _ _ C).
  assert (B : 0 <= so_prizes s).
  { rewrite P2. clear - Hv. induction (SolutionFacts.plan routes) as [|a l IH]; [cbn; lia|]. cbn [map zsum]. enough (0 <= act_prize d a) by lia.
    destruct a as [i|i|i|i]; cbn [act_prize]; try lia; [apply (vc_prize _ (valid_p_client d i Hv))|apply (vs_prize _ (valid_p_shipment d i Hv))]. }
  destruct (modest_pos d h Hv Ho Hn T M S Hm) as (M0 & S0 & Hh0).
  assert (R0 : 0 <= R).
  { subst R. destruct (mc_pos _ _ _ _ _ _ _ Hc). assert (0 <= Z.of_nat (p_numClients d + 2 * p_numShipments d + T + 2) * (4 * h + M + S)) by (apply Z.mul_nonneg_nonneg; lia).
    set (B' := Z.of_nat _ * _) in *. nia. }
  assert (Z.of_nat (length routes) * R <= Z.of_nat (p_numVehicles d) * R) by (apply Z.mul_le_mono_nonneg_r; lia). lia.
Qed.
End Finite.
