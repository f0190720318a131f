(** Instances that differ only in the number of vehicles (of their one type) have the same routes, and
    the same solutions as far as the vehicles suffice. *)
From Coq Require Import Permutation.
From Verif Require Import Base DurationSegment Data LoadSegment SearchRoute Valid Route RouteSpec RouteFacts2 Cost CostFacts Penalty Solution
  SolutionFacts SolutionFacts2 SolutionFacts3 DataCtor Fleet.

Section Same.
Variable d : pdata.
Variable n : nat.
Hypothesis One : p_numVehicleTypes d = 1%nat.
Notation d' := (with_fleet d n).
Notation v := (p_vehicle d 0).
Notation v' := (with_available v n).

Lemma same_validate_loop acts : forall t pv dv, validate_loop d' t pv dv acts = validate_loop d t pv dv acts.
Proof.
  induction acts as [|a acts IH]; intros t pv dv; [reflexivity|]. destruct a as [i|i|i|i]; cbn [validate_loop]; rewrite !IH; reflexivity.
Qed.
Lemma same_validate acts : validate d' acts 0 = validate d acts 0.
Proof. unfold validate. rewrite same_validate_loop. reflexivity. Qed.
Lemma same_bpass acts : bpass_loop d' v' acts = bpass_loop d v acts.
Proof. induction acts as [|a acts IH]; [reflexivity|]. cbn [bpass_loop]. rewrite IH. reflexivity. Qed.
Lemma same_final acts : bpass_final d' v' acts = bpass_final d v acts.
Proof. unfold bpass_final. rewrite same_bpass. reflexivity. Qed.
Lemma same_fpass acts : forall now loc trip rels num, fpass d' v' now loc trip rels num acts = fpass d v now loc trip rels num acts.
Proof.
  induction acts as [|a acts IH]; intros now loc trip rels num; [reflexivity|]. destruct a as [i|i|i|i]; cbn [fpass].
  - change (p_depot d' i) with (p_depot d i). change (p_dur d' (v_profile v')) with (p_dur d (v_profile v)).
    destruct (handle _ _ _ _ _ _) as [now' en]. rewrite IH. reflexivity.
  - change (p_client d' i) with (p_client d i). change (p_dur d' (v_profile v')) with (p_dur d (v_profile v)).
    destruct (handle _ _ _ _ _ _) as [now' en]. rewrite IH. reflexivity.
  - change (p_shipment d' i) with (p_shipment d i). change (p_dur d' (v_profile v')) with (p_dur d (v_profile v)).
    destruct (handle _ _ _ _ _ _) as [now' en]. rewrite IH. reflexivity.
  - change (p_shipment d' i) with (p_shipment d i). change (p_dur d' (v_profile v')) with (p_dur d (v_profile v)).
    destruct (handle _ _ _ _ _ _) as [now' en]. rewrite IH. reflexivity.
Qed.
Lemma same_schedule acts : set_schedule d' v' acts = set_schedule d v acts.
Proof.
  unfold set_schedule. rewrite same_final. change (p_depot d' (v_start v')) with (p_depot d (v_start v)). change (v_start v') with (v_start v). change (v_startLate v') with (v_startLate v).
  destruct (handle _ _ _ _ _ _) as [now en]. rewrite same_fpass. reflexivity.
Qed.
Lemma same_distance acts : forall frm, distance_loop d' (v_profile v) frm acts = distance_loop d (v_profile v) frm acts.
Proof. induction acts as [|a acts IH]; intros frm; [reflexivity|]. cbn [distance_loop]. rewrite IH. reflexivity. Qed.
Lemma same_dims : p_numLoadDimensions d' = p_numLoadDimensions d.
Proof. unfold p_numLoadDimensions at 2. rewrite (one_vehicle d One). reflexivity. Qed.
Lemma same_route acts : make_route d' acts 0 = make_route d acts 0.
Proof.
  unfold make_route. rewrite same_validate. destruct (validate d acts 0) as [[]|e]; [|reflexivity].
  change (p_vehicle d' 0) with v'. rewrite same_dims, same_final, same_schedule. change (v_profile v') with (v_profile v). rewrite same_distance. reflexivity.
Qed.
Lemma same_built r : built d' r <-> built d r.
Proof.
  split; intros (mid & vt & Hvt & E); exists mid, vt; (assert (vt = 0%nat) as -> by (change (p_numVehicleTypes d') with 1%nat in *; lia)).
  - split; [lia|]. rewrite <- same_route. exact E.
  - split; [change (p_numVehicleTypes d') with 1%nat; lia|]. rewrite same_route. exact E.
Qed.
Lemma sum_available : p_numVehicles d = v_numAvailable v /\ p_numVehicles d' = n.
Proof. unfold p_numVehicles. rewrite (one_vehicle d One) at 1. cbn. split; lia. Qed.

(** ** What the search uses *)
Lemma same_known a : known d' a <-> known d a.
Proof. destruct a; reflexivity. Qed.
Lemma same_well_formed mid : well_formed d' v' mid <-> well_formed d v mid.
Proof. split; intros [A B C D E F]; constructor; try assumption; intros a Ha; apply same_known, A, Ha. Qed.
Lemma same_trip_release mid : trip_release d' mid = trip_release d mid.
Proof. induction mid as [|[i|i|i|i] mid IH]; cbn [trip_release]; rewrite ?IH; reflexivity. Qed.
Lemma same_releases mid : reload_releases_ok d' mid <-> reload_releases_ok d mid.
Proof.
  induction mid as [|[i|i|i|i] mid IH]; cbn [reload_releases_ok]; [reflexivity| |exact IH|exact IH|exact IH]. rewrite same_trip_release, IH. reflexivity.
Qed.
Lemma same_after dur its : after_array d' dur its = after_array d dur its.
Proof. induction its as [|x its IH]; [reflexivity|]. cbn [after_array]. rewrite IH. reflexivity. Qed.
Lemma same_before dur its : before_array d' dur its = before_array d dur its.
Proof.
  destruct its as [|x its]; [reflexivity|]. cbn [before_array]. f_equal.
  enough (H : forall its prev acc, before_loop d' dur prev acc its = before_loop d dur prev acc its) by apply H.
  clear. induction its as [|x its IH]; intros prev acc; [reflexivity|]. cbn [before_loop]. rewrite IH. reflexivity.
Qed.
Lemma same_items mid : route_items d' v' mid = route_items d v mid.
Proof. reflexivity. Qed.
Lemma same_duration mid : ca_duration (update d' v' mid) = ca_duration (update d v mid) /\ ca_timeWarp (update d' v' mid) = ca_timeWarp (update d v mid).
Proof. unfold update. cbn zeta. cbn [ca_duration ca_timeWarp]. rewrite same_after. split; reflexivity. Qed.
End Same.

Lemma used_routes routes : forall cv sv k cv' sv' used, Forall (fun r => r_vehicleType r = 0%nat) routes ->
  visit_routes cv sv [k] routes = Ok (cv', sv', used) -> used = [(k + length routes)%nat].
Proof.
  induction routes as [|r routes IH]; intros cv sv k cv' sv' used H E; cbn [visit_routes length] in *.
  - injection E as _ _ <-. f_equal. lia.
  - inversion H as [|? ? H1 H2]; subst. rewrite H1 in E. cbn [nth upd] in E. destruct (r_empty r); [discriminate E|].
    destruct (visit_acts cv sv _) as [[cv1 sv1]|]; [|discriminate E]. apply IH in E; [|exact H2]. rewrite E. f_equal. lia.
Qed.
Lemma fleet_itself d : p_numVehicleTypes d = 1%nat -> with_fleet d (v_numAvailable (p_vehicle d 0)) = d.
Proof.
  intros One. unfold with_fleet. replace (with_available (p_vehicle d 0) (v_numAvailable (p_vehicle d 0))) with (p_vehicle d 0) by (destruct (p_vehicle d 0); reflexivity).
  rewrite <- (one_vehicle d One). destruct d; reflexivity.
Qed.
(** The same solution with any number of vehicles that suffices. *)
Lemma same_solution d n m routes : Forall (fun r => r_vehicleType r = 0%nat) routes -> (length routes <= n)%nat -> (length routes <= m)%nat ->
  make_solution (with_fleet d n) routes = make_solution (with_fleet d m) routes.
Proof.
  intros HB Hn Hm. unfold make_solution.
  replace (p_numVehicles (with_fleet d n)) with n by reflexivity. replace (p_numVehicles (with_fleet d m)) with m by reflexivity.
  destruct (Nat.ltb_spec n (length routes)) as [C|_]; [lia|]. destruct (Nat.ltb_spec m (length routes)) as [C|_]; [lia|].
  change (p_numVehicleTypes (with_fleet d n)) with 1%nat. change (p_numVehicleTypes (with_fleet d m)) with 1%nat.
  change (p_numClients (with_fleet d n)) with (p_numClients d). change (p_numClients (with_fleet d m)) with (p_numClients d).
  change (p_numShipments (with_fleet d n)) with (p_numShipments d). change (p_numShipments (with_fleet d m)) with (p_numShipments d).
  change (p_groups (with_fleet d n)) with (p_groups d). change (p_groups (with_fleet d m)) with (p_groups d).
  destruct (visit_routes _ _ _ routes) as [[[cv sv] used]|] eqn:Ev; [|reflexivity]. apply used_routes in Ev; [|exact HB]. subst used.
  destruct (check_groups cv (p_groups d) 0) as [g|]; [|reflexivity]. cbn [seq existsb nth].
  change (v_numAvailable (p_vehicle (with_fleet d n) 0)) with n. change (v_numAvailable (p_vehicle (with_fleet d m) 0)) with m.
  destruct (Nat.ltb_spec n (0 + length routes)) as [C|_]; [lia|]. destruct (Nat.ltb_spec m (0 + length routes)) as [C|_]; [lia|]. reflexivity.
Qed.
Lemma solution_few d routes s : make_solution d routes = Ok s -> (length routes <= p_numVehicles d)%nat.
Proof. unfold make_solution. destruct (Nat.ltb_spec (p_numVehicles d) (length routes)); [discriminate|lia]. Qed.
Lemma built_type d r : p_numVehicleTypes d = 1%nat -> built d r -> r_vehicleType r = 0%nat.
Proof.
  intros One (mid & vt & Hvt & E). unfold make_route in E. destruct (validate d mid vt); [|discriminate E]. injection E as <-. cbn. lia.
Qed.
(** A solution with [n'] vehicles and at most [n] routes is one with [n] vehicles. *)
Lemma fewer_vehicles d n n' routes s : p_numVehicleTypes d = 1%nat -> Forall (built (with_fleet d n')) routes -> make_solution (with_fleet d n') routes = Ok s ->
  (length routes <= n)%nat -> Forall (built (with_fleet d n)) routes /\ make_solution (with_fleet d n) routes = Ok s.
Proof.
  intros One HB Es Hn. split.
  - revert HB. apply Forall_impl. intros r Hr. apply (same_built d n One). apply (same_built d n' One). exact Hr.
  - rewrite <- Es. apply same_solution; [|exact Hn|exact (solution_few _ _ _ Es)].
    revert HB. apply Forall_impl. intros r Hr. exact (built_type (with_fleet d n') r eq_refl Hr).
Qed.
