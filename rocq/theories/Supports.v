(** Operators that do not support the data find nothing to do. *)
From Coq Require Import Arith.
From Verif Require Import Base DurationSegment Data LoadSegment SearchRoute Valid Route RouteSpec Cost DataCtor SearchSpace SearchNodes SearchSeq
  SearchLoad Ops PlanFacts ShipState OpsBase OpsGen OpsAll LocalSearch LocalFacts Solve.
From Verif Require MakeRandom.
Local Open Scope nat_scope.

Lemma existsb_none {A} (f : A -> bool) l x : existsb f l = false -> In x l -> f x = false.
Proof. intros H I. destruct (f x) eqn:E; [|reflexivity]. assert (X : existsb f l = true) by (apply existsb_exists; eauto). congruence. Qed.

(** SwapTails is also switched off for instances with only shipments, where it could find moves. *)
Definition idle (d : pdata) (o : operator) : Prop :=
  supports d o = false /\ (o = OBinary BSwapTails -> p_numVehicles d <= 1).

Section Idle.
Variable d : pdata.
Variable ev : evaluator.
Hypothesis Dok : data_ok d.
Variable p : plan.
Hypothesis P : plan_ok d p.
Hypothesis Sp : structured d p.

Lemma client_in i : i < p_numClients d -> In (p_client d i) (p_clients d).
Proof. intros H. apply nth_In. exact H. Qed.
Lemma shipment_in i : i < p_numShipments d -> In (p_shipment d i) (p_shipments d).
Proof. intros H. apply nth_In. exact H. Qed.
Lemma one_route r r' : p_numVehicles d <= 1 -> r < length p -> r' < length p -> r = r'.
Proof.
  intros H H1 H2. rewrite (pk_len d p P) in H1, H2. unfold fleet_vehicles in *. rewrite map_length in *.
  replace (fleet d) with (MakeRandom.fleet d) in * by reflexivity. rewrite MakeRandom.fleet_length in *. lia.
Qed.
Lemma found a r pos : find_act a p = Some (r, pos) -> r < length p.
Proof. intros H. destruct (find_act_spec _ _ _ _ H) as (A & B & _ & _ & X). exact X. Qed.
Lemma located v r pos : vref_ok p v -> locate p v = Some (r, pos) -> r < length p.
Proof.
  intros Hv H. destruct v as [a|s]; cbn in *; [exact (found a r pos H)|]. injection H as <- _. exact Hv.
Qed.
Lemma no_group : some_exclusive d = false -> forall i, i < p_numClients d -> c_group (p_client d i) = None.
Proof.
  intros H i Hi. destruct (c_group (p_client d i)) as [g|] eqn:E; [exfalso|reflexivity].
  destruct (do_clients d Dok i Hi) as (_ & _ & _ & G). destruct (G g E) as (Hg & _).
  pose proof (existsb_none _ _ (p_group d g) H) as X. unfold g_mutuallyExclusive in X. assert (HI : In (p_group d g) (p_groups d)) by (apply nth_In; exact Hg).
  specialize (X HI). discriminate.
Qed.
Lemma optional_client : some_optional d = false -> forall i, i < p_numClients d ->
  c_required (p_client d i) = true \/ exists g, c_group (p_client d i) = Some g /\ g_required (p_group d g) = true.
Proof.
  intros H i Hi. apply orb_false_iff in H as [H1 H2]. destruct (c_required (p_client d i)) eqn:E; [left; reflexivity|right].
  pose proof (existsb_none _ _ _ H2 (client_in i Hi)) as X. cbn beta in X. rewrite E in X. destruct (c_group (p_client d i)) as [g|] eqn:Eg; [|discriminate].
  exists g. split; [reflexivity|]. destruct (do_clients d Dok i Hi) as (_ & _ & _ & G). destruct (G g Eg) as (Hg & _).
  pose proof (existsb_none _ _ (p_group d g) H1) as Y. assert (HI : In (p_group d g) (p_groups d)) by (apply nth_In; exact Hg).
  specialize (Y HI). cbn beta in Y. destruct (g_required (p_group d g)); [reflexivity|discriminate].
Qed.
Lemma optional_shipment : some_optional_shipment d = false -> forall i, i < p_numShipments d -> s_required (p_shipment d i) = true.
Proof.
  intros H i Hi. pose proof (existsb_none _ _ _ H (shipment_in i Hi)) as X. cbn beta in X. destruct (s_required _); [reflexivity|discriminate].
Qed.
Lemma planned_client i : i < p_numClients d -> c_required (p_client d i) = true -> find_act (AClient i) p <> None.
Proof. intros Hi R E. apply find_act_none in E. pose proof (sr_clients d p Sp i Hi R). lia. Qed.
Lemma planned_shipment i : i < p_numShipments d -> s_required (p_shipment d i) = true -> find_act (APickup i) p <> None.
Proof. intros Hi R E. apply find_act_none in E. pose proof (sr_ships d p Sp i Hi R). lia. Qed.

(** The visits of a segment come in pairs if there are no clients. *)
Lemma even_segment l : p_numClients d = 0 -> (forall a, In a l -> known d a) -> num_reloads l = 0 -> ships_ok l -> Nat.odd (length l) = false.
Proof.
  intros Z K R S. assert (C : ncli l = 0).
  { unfold ncli. destruct (filter a_isClient l) as [|a m] eqn:E; [reflexivity|].
    assert (X : In a (filter a_isClient l)) by (rewrite E; left; reflexivity). apply filter_In in X as [X1 X2]. specialize (K a X1).
    destruct a; try discriminate. cbn in K. lia. }
  rewrite length_counts, C, R, (ships_counts l S). replace (0 + ndeliv l + ndeliv l + 0) with (2 * ndeliv l) by lia.
  rewrite <- Nat.negb_even, Nat.even_mul. reflexivity.
Qed.
Lemma known_mid r a : r < length p -> In a (mid_at p r) -> known d a.
Proof. intros Hr Ha. exact (wf_known d _ _ (pk_wf d p P r Hr) a Ha). Qed.
Lemma odd_segment u r pos n : only_shipments d = true -> a_isDepot u = false -> 0 < n -> Nat.odd n = true -> find_act u p = Some (r, pos) ->
  hasDepot (sync d p) r pos n || splitsShipment (sync d p) u r pos n = true.
Proof.
  intros O Hu Hn Od F. destruct (_ || _) eqn:E; [reflexivity|exfalso]. apply orb_false_iff in E as [E1 E2].
  destruct (seg_of d p P u r pos n Hu Hn F E1 E2) as (A & S & B & Hm & Hr & _ & Hl & R & _ & Sh & _).
  apply andb_true_iff in O as [O _]. apply Nat.eqb_eq in O.
  pose proof (even_segment (u :: S) O (fun a Ha => known_mid r a Hr ltac:(rewrite Hm; apply in_or_app; right; apply in_or_app; left; exact Ha)) R Sh) as X.
  cbn [length] in X. replace (Datatypes.S (length S)) with n in X by lia. congruence.
Qed.

Lemma reload_vehicle r : some_reload d = false -> r < length p -> v_reload (rveh d r) = [] \/ v_maxTrips (rveh d r) = 1%Z.
Proof.
  intros H Hr. rewrite (pk_len d p P) in Hr. pose proof (existsb_none _ _ _ H (fleet_in d r Hr)) as X. cbn beta in X.
  unfold v_maxTrips. destruct (v_reload (rveh d r)); [left; reflexivity|right]. cbn [negb andb] in X.
  destruct (Z.eqb_spec (v_maxReloads (rveh d r)) 0) as [->|]; [reflexivity|discriminate].
Qed.
Lemma no_reload r pos : some_reload d = false -> k_isReload (kind_at (mid_at p r) pos) = false.
Proof.
  intros H. destruct (k_isReload _) eqn:E; [exfalso|reflexivity].
  unfold kind_at in E. destruct pos as [|pos]; [discriminate|]. destruct (nth_error (mid_at p r) pos) as [a|] eqn:N; [|discriminate]. cbn in E.
  apply nth_error_In in N. destruct (Nat.lt_ge_cases r (length p)) as [L|L]; [|unfold mid_at in N; rewrite nth_overflow in N by exact L; destruct N].
  pose proof (wf_trips d _ _ (pk_wf d p P r L)) as W.
  assert (T : v_maxTrips (rveh d r) = 1%Z) by (destruct (reload_vehicle r H L) as [T|T]; [unfold v_maxTrips; rewrite T; reflexivity|exact T]).
  rewrite T in W. apply in_split in N as (A & B & N). rewrite N in W. autorewrite with rels in W. rewrite E in W. lia.
Qed.

Theorem unary_idle o u : idle d (OUnary o) -> known d u -> a_isDepot u = false ->
  exists delta m, eval_unary d ev o (sync d p) u = (delta, false, m).
Proof.
  intros [I _] K Hu. destruct o; cbn [supports eval_unary] in *.
  - apply Nat.ltb_ge in I. unfold eval_delivery. destruct u; cbn in K; try (eexists; eexists; reflexivity). lia.
  - apply Nat.ltb_ge in I. unfold eval_pickup. destruct u; cbn in K; try (eexists; eexists; reflexivity). lia.
  - unfold eval_adjacent. cbn [sp_mids sync]. destruct (find_act u p) as [[r pos]|]; [|eexists; eexists; reflexivity].
    rewrite !no_reload by exact I. cbn [fst snd]. eexists; eexists; reflexivity.
  - unfold eval_remove_client. destruct u as [|i| |]; try (eexists; eexists; reflexivity). cbn in K.
    destruct (find_act _ _) as [[r pos]|]; [|eexists; eexists; reflexivity].
    destruct (optional_client I i K) as [->|(g & -> & ->)]; [|rewrite orb_true_r]; eexists; eexists; reflexivity.
  - unfold eval_remove_shipment. destruct u as [| |i|]; try (eexists; eexists; reflexivity). cbn in K.
    destruct (find_act _ _) as [[r pos]|]; [|eexists; eexists; reflexivity]. destruct (find_act _ _) as [[r' pos']|]; [|eexists; eexists; reflexivity].
    rewrite (optional_shipment I i K). eexists; eexists; reflexivity.
  - unfold eval_replace_group. destruct u as [|i| |]; try (eexists; eexists; reflexivity). cbn in K.
    destruct (find_act _ _) as [[r pos]|]; [eexists; eexists; reflexivity|]. rewrite (no_group I i K). eexists; eexists; reflexivity.
Qed.

Theorem binary_idle o rc u v : idle d (OBinary o) -> op_ok o -> known d u -> a_isDepot u = false -> vref_ok p v ->
  exists delta m rc', eval_binary d ev o (sync d p) rc u v = ((delta, false, m), rc').
Proof.
  intros [I T] Ho K Hu Hv. destruct o; cbn [supports eval_binary op_ok] in *.
  - apply negb_false_iff, andb_true_iff in I as [I1 I2]. unfold eval_relocate. cbn [sp_mids sync].
    destruct (find_act u p) as [[r pos]|] eqn:F; [|do 3 eexists; reflexivity]. destruct (locate p v) as [[rv pv]|]; [|do 3 eexists; reflexivity].
    fold (sync d p). rewrite (odd_segment u r pos n I1 Hu Ho I2 F). do 3 eexists; reflexivity.
  - apply negb_false_iff, andb_true_iff in I as [I1 I2]. unfold eval_swap. cbn [sp_mids sync].
    destruct (find_act u p) as [[r pos]|] eqn:F; [|do 3 eexists; reflexivity]. destruct (locate p v) as [[rv pv]|] eqn:L; [|do 3 eexists; reflexivity].
    destruct v as [va|]; [|do 3 eexists; reflexivity]. fold (sync d p). cbn in L.
    assert (X : hasDepot (sync d p) r pos n || splitsShipment (sync d p) u r pos n || hasDepot (sync d p) rv pv m || splitsShipment (sync d p) va rv pv m = true).
    { apply orb_true_iff in I2 as [I2|I2].
      - rewrite (odd_segment u r pos n I1 Hu ltac:(lia) I2 F). reflexivity.
      - rewrite <- orb_assoc. rewrite (odd_segment va rv pv m I1 Hv ltac:(lia) I2 L). apply orb_true_r. }
    rewrite X. do 3 eexists; reflexivity.
  - unfold eval_tails. cbn [sp_mids sync]. destruct (find_act u p) as [[r pos]|] eqn:F; [|do 3 eexists; reflexivity].
    destruct (locate p v) as [[rv pv]|] eqn:L; [|do 3 eexists; reflexivity].
    rewrite (one_route r rv (T eq_refl) (found _ _ _ F) (located _ _ _ Hv L)), Nat.eqb_refl. do 3 eexists; reflexivity.
  - unfold eval_insert_client. cbn [sp_mids sync]. destruct u as [|i| |]; try (do 3 eexists; reflexivity). cbn in K.
    destruct (find_act _ _) as [[r pos]|] eqn:F; [do 3 eexists; reflexivity|]. destruct (locate p v) as [[rv pv]|] eqn:L; [|do 3 eexists; reflexivity].
    destruct (optional_client I i K) as [R|(g & -> & ->)]; [destruct (planned_client i K R F)|]. do 3 eexists; reflexivity.
  - unfold eval_insert_shipment. cbn [sp_mids sync]. destruct u as [| |i|]; try (do 3 eexists; reflexivity). cbn in K.
    destruct (find_act _ _) as [[r pos]|] eqn:F; [do 3 eexists; reflexivity|]. destruct (planned_shipment i K (optional_shipment I i K) F).
  - unfold eval_alternative. cbn [sp_mids sync]. destruct u as [|i| |]; try (do 3 eexists; reflexivity). cbn in K.
    destruct (find_act _ _) as [[r pos]|] eqn:F; [|do 3 eexists; reflexivity]. destruct (locate p v) as [[rv pv]|] eqn:L; [|do 3 eexists; reflexivity].
    destruct (_ && _); [do 3 eexists; reflexivity|]. rewrite (no_group I i K). do 3 eexists; reflexivity.
  - unfold eval_shipment. cbn [sp_mids sync]. destruct u as [| |i|]; try (do 3 eexists; reflexivity). cbn in K.
    destruct (find_act (APickup i) p) as [[r pos]|] eqn:F; [|do 3 eexists; reflexivity].
    destruct (find_act (ADelivery i) p) as [[r' pos']|] eqn:F'; [|do 3 eexists; reflexivity]. destruct (locate p v) as [[rv pv]|] eqn:L; [|do 3 eexists; reflexivity].
    apply andb_false_iff in I as [I|I]; [apply Nat.ltb_ge in I; lia|]. apply Nat.ltb_ge in I.
    rewrite (one_route r rv I (found _ _ _ F) (located _ _ _ Hv L)), Nat.eqb_refl. do 3 eexists; reflexivity.
  - unfold eval_with_depot. cbn [sp_mids sync]. destruct u as [|i| |]; try (do 3 eexists; reflexivity). cbn in K.
    destruct (find_act _ _) as [[r pos]|] eqn:F; [|do 3 eexists; reflexivity]. destruct (locate p v) as [[rv pv]|] eqn:L; [|do 3 eexists; reflexivity].
    cbv zeta. destruct (_ || _); [do 3 eexists; reflexivity|]. destruct (Z.eqb_spec (Z.of_nat (numTrips (mid_at p rv))) (v_maxTrips (rveh d rv))) as [|N]; [do 3 eexists; reflexivity|].
    destruct (_ && _); [do 3 eexists; reflexivity|]. destruct (negb _); [do 3 eexists; reflexivity|].
    destruct (reload_vehicle rv I (located _ _ _ Hv L)) as [E|E].
    + rewrite E. cbn [best_depot]. destruct (k_isReload (kind_at (mid_at p rv) pv)), (k_isReload (kind_at (mid_at p rv) (pv + 1))), (r =? rv);
        try (destruct (remove_cost _ _ _)); do 3 eexists; reflexivity.
    + exfalso. apply N. pose proof (wf_trips d _ _ (pk_wf d p P rv (located _ _ _ Hv L))) as W. unfold numTrips. rewrite E in *. lia.
  - unfold eval_replace_client. cbn [sp_mids sync]. destruct u as [|i| |]; try (do 3 eexists; reflexivity). cbn in K.
    destruct v as [[|j| |]|]; try (do 3 eexists; reflexivity).
    destruct (find_act (AClient i) p) as [[r pos]|] eqn:F; [do 3 eexists; reflexivity|]. destruct (find_act (AClient j) p) as [[r' pos']|]; [|do 3 eexists; reflexivity].
    pose proof (existsb_none _ _ _ I (client_in i K)) as X. cbn beta in X. destruct (c_required (p_client d i)) eqn:R; [destruct (planned_client i K R F)|].
    destruct (c_group (p_client d i)) as [g|]; [|discriminate]. rewrite orb_true_r. do 3 eexists; reflexivity.
  - unfold eval_replace_shipment. cbn [sp_mids sync]. destruct u as [| |i|]; try (do 3 eexists; reflexivity). cbn in K.
    pose proof (planned_shipment i K (optional_shipment I i K)) as X. destruct (find_act (APickup i) p) as [[r pos]|] eqn:F; [|contradiction].
    destruct v as [[|j|j|j]|]; do 3 eexists; reflexivity.
Qed.
End Idle.
