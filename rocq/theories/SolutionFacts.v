(** Facts about solutions. *)
From Coq Require Import Permutation.
From Verif Require Import Base DurationSegment Beh Tws DurationFacts Data LoadSegment SearchRoute
  RouteDur Valid ProposalDur ProposalRest Route RouteSpec RouteFacts RouteFacts2 RouteFacts3
  Cost CostFacts DeltaFacts Solution.

(** ** Specification *)
Definition client_ids (acts : list activity) : list nat :=
  flat_map (fun a => match a with AClient i => [i] | _ => [] end) acts.
Definition pickup_ids (acts : list activity) : list nat :=
  flat_map (fun a => match a with APickup i => [i] | _ => [] end) acts.

(** All stops of all routes. *)
Definition plan (routes : list route) : list activity :=
  flat_map (fun r => map sa_act (r_schedule r)) routes.

(** [r] was returned by the route constructor for these data. *)
Definition built (d : pdata) (r : route) : Prop :=
  exists mid vt, (vt < p_numVehicleTypes d)%nat /\ make_route d mid vt = Ok r.

Definition groups_nodup (d : pdata) : Prop := Forall (fun g => NoDup (g_clients g)) (p_groups d).

Definition used_vehicles (routes : list route) (vt : nat) : nat :=
  length (filter (fun r => Nat.eqb (r_vehicleType r) vt) routes).

Record consistent (d : pdata) (routes : list route) : Prop := mk_consistent {
  cs_vehicles : (length routes <= p_numVehicles d)%nat;
  cs_nonempty : forall r, In r routes ->
    exists a, In a (map sa_act (r_schedule r)) /\ a_isDepot a = false;
  cs_clients : NoDup (client_ids (plan routes));
  cs_shipments : NoDup (pickup_ids (plan routes));
  cs_groups : forall g i j, In g (p_groups d) -> In i (g_clients g) -> In j (g_clients g) ->
    In (AClient i) (plan routes) -> In (AClient j) (plan routes) -> i = j;
  cs_types : forall vt, (vt < p_numVehicleTypes d)%nat ->
    (used_vehicles routes vt <= v_numAvailable (p_vehicle d vt))%nat }.

(** ** Bits *)
Lemma in_client_ids acts i : In i (client_ids acts) <-> In (AClient i) acts.
Proof.
  unfold client_ids. rewrite in_flat_map. split.
  - intros (a & Ha & Hi). destruct a; cbn in Hi; try tauto. destruct Hi as [->|[]]. exact Ha.
  - intros H. exists (AClient i). split; [exact H|left; reflexivity].
Qed.
Lemma in_pickup_ids acts i : In i (pickup_ids acts) <-> In (APickup i) acts.
Proof.
  unfold pickup_ids. rewrite in_flat_map. split.
  - intros (a & Ha & Hi). destruct a; cbn in Hi; try tauto. destruct Hi as [->|[]]. exact Ha.
  - intros H. exists (APickup i). split; [exact H|left; reflexivity].
Qed.

Lemma NoDup_app_l {A} (a b : list A) : NoDup (a ++ b) -> NoDup a.
Proof.
  induction a as [|x a IH]; intros H; [constructor|]. inversion H; subst.
  constructor; [|auto]. intros Hx. apply H2. apply in_or_app. left. exact Hx.
Qed.

Definition bits_are (n : nat) (l : list bool) (ids : list nat) : Prop :=
  length l = n /\ forall i, (i < n)%nat -> bit l i = true <-> In i ids.

Lemma bits_upd n l ids i : bits_are n l ids -> (i < n)%nat -> bits_are n (upd l i true) (ids ++ [i]).
Proof.
  intros [H1 H2] Hi. split; [rewrite upd_length; exact H1|].
  intros j Hj. rewrite bit_upd by lia. rewrite in_app_iff. destruct (Nat.eqb_spec i j) as [->|Hne].
  - cbn. tauto.
  - rewrite (H2 j Hj). cbn. split; [tauto|]. intros [H|[H|[]]]; [exact H|congruence].
Qed.

Lemma visit_acts_spec nc ns acts : forall cv sv cids pids,
  bits_are nc cv cids -> bits_are ns sv pids -> NoDup cids -> NoDup pids ->
  (forall i, In i (client_ids acts) -> (i < nc)%nat) ->
  (forall i, In i (pickup_ids acts) -> (i < ns)%nat) ->
  (NoDup (cids ++ client_ids acts) /\ NoDup (pids ++ pickup_ids acts) /\
   exists cv' sv', visit_acts cv sv acts = Ok (cv', sv') /\
     bits_are nc cv' (cids ++ client_ids acts) /\ bits_are ns sv' (pids ++ pickup_ids acts)) \/
  (~ (NoDup (cids ++ client_ids acts) /\ NoDup (pids ++ pickup_ids acts)) /\
   visit_acts cv sv acts = Err RuntimeErr).
Proof.
  induction acts as [|a acts IH]; intros cv sv cids pids Hc Hs Nc Ns Bc Bs.
  - left. cbn [client_ids pickup_ids flat_map]. rewrite !app_nil_r. repeat split; try assumption.
    exists cv, sv. auto.
  - assert (Bc' : forall i, In i (client_ids acts) -> (i < nc)%nat)
      by (intros i Hi; apply Bc; cbn; apply in_or_app; right; exact Hi).
    assert (Bs' : forall i, In i (pickup_ids acts) -> (i < ns)%nat)
      by (intros i Hi; apply Bs; cbn; apply in_or_app; right; exact Hi).
    destruct a as [i|i|i|i]; cbn [visit_acts client_ids pickup_ids flat_map app].
    + apply (IH cv sv cids pids); assumption.
    + specialize (Bc i (or_introl eq_refl)). destruct (bit cv i) eqn:E.
      * right. split; [|reflexivity]. intros [H _]. apply (proj2 Hc i Bc) in E.
        apply NoDup_remove_2 in H. apply H. apply in_or_app. left. exact E.
      * assert (Hni : ~ In i cids) by (intros Hi; apply (proj2 Hc i Bc) in Hi; congruence).
        assert (Nc' : NoDup (cids ++ [i])).
        { apply (Permutation_NoDup (l := i :: cids)); [apply Permutation_cons_append|].
          constructor; assumption. }
        pose proof (IH (upd cv i true) sv (cids ++ [i]) pids (bits_upd _ _ _ _ Hc Bc) Hs Nc' Ns Bc' Bs') as H.
        rewrite <- app_assoc in H. cbn [app] in H. exact H.
    + specialize (Bs i (or_introl eq_refl)). destruct (bit sv i) eqn:E.
      * right. split; [|reflexivity]. intros [_ H]. apply (proj2 Hs i Bs) in E.
        apply NoDup_remove_2 in H. apply H. apply in_or_app. left. exact E.
      * assert (Hni : ~ In i pids) by (intros Hi; apply (proj2 Hs i Bs) in Hi; congruence).
        assert (Ns' : NoDup (pids ++ [i])).
        { apply (Permutation_NoDup (l := i :: pids)); [apply Permutation_cons_append|].
          constructor; assumption. }
        pose proof (IH cv (upd sv i true) cids (pids ++ [i]) Hc (bits_upd _ _ _ _ Hs Bs) Nc Ns' Bc' Bs') as H.
        rewrite <- app_assoc in H. cbn [app] in H. exact H.
    + apply (IH cv sv cids pids); assumption.
Qed.

Definition used_are (n : nat) (used : list nat) (routes : list route) : Prop :=
  length used = n /\ forall vt, (vt < n)%nat -> nth vt used 0%nat = used_vehicles routes vt.

Lemma nth_upd (l : list nat) i j x : (i < length l)%nat ->
  nth j (upd l i x) 0%nat = if Nat.eqb i j then x else nth j l 0%nat.
Proof.
  revert i j. induction l as [|y l IH]; intros i j Hi; [cbn in Hi; lia|].
  destruct i, j; cbn [upd nth Nat.eqb]; try reflexivity. apply IH. cbn in Hi. lia.
Qed.

Lemma used_step n used routes r : used_are n used routes -> (r_vehicleType r < n)%nat ->
  used_are n (upd used (r_vehicleType r) (S (nth (r_vehicleType r) used 0%nat))) (routes ++ [r]).
Proof.
  intros [H1 H2] Hr. split; [rewrite upd_length; exact H1|].
  intros vt Hvt. rewrite nth_upd by lia. unfold used_vehicles. rewrite filter_app, app_length. cbn [filter].
  destruct (Nat.eqb_spec (r_vehicleType r) vt) as [->|Hne]; cbn [length].
  - rewrite H2 by assumption. unfold used_vehicles. lia.
  - rewrite H2 by assumption. unfold used_vehicles. lia.
Qed.

Definition route_ids_ok (d : pdata) (r : route) : Prop :=
  (forall i, In i (client_ids (map sa_act (r_schedule r))) -> (i < p_numClients d)%nat) /\
  (forall i, In i (pickup_ids (map sa_act (r_schedule r))) -> (i < p_numShipments d)%nat) /\
  (r_vehicleType r < p_numVehicleTypes d)%nat.

Lemma client_ids_app a b : client_ids (a ++ b) = client_ids a ++ client_ids b.
Proof. apply flat_map_app. Qed.
Lemma pickup_ids_app a b : pickup_ids (a ++ b) = pickup_ids a ++ pickup_ids b.
Proof. apply flat_map_app. Qed.

Lemma visit_routes_spec d routes : forall cv sv used cids pids done,
  bits_are (p_numClients d) cv cids -> bits_are (p_numShipments d) sv pids ->
  used_are (p_numVehicleTypes d) used done ->
  NoDup cids -> NoDup pids -> Forall (route_ids_ok d) routes ->
  let ok := (forall r, In r routes -> r_empty r = false) /\
            NoDup (cids ++ client_ids (plan routes)) /\ NoDup (pids ++ pickup_ids (plan routes)) in
  (ok /\ exists cv' sv' used', visit_routes cv sv used routes = Ok (cv', sv', used') /\
     bits_are (p_numClients d) cv' (cids ++ client_ids (plan routes)) /\
     bits_are (p_numShipments d) sv' (pids ++ pickup_ids (plan routes)) /\
     used_are (p_numVehicleTypes d) used' (done ++ routes)) \/
  (~ ok /\ visit_routes cv sv used routes = Err RuntimeErr).
Proof.
  induction routes as [|r routes IH]; intros cv sv used cids pids done Hc Hs Hu Nc Ns HB ok.
  - left. subst ok. cbn. rewrite !app_nil_r. split; [split; [tauto|auto]|].
    exists cv, sv, used. auto.
  - inversion HB as [|? ? (B1 & B2 & B3) HB']; subst. cbn [visit_routes].
    destruct (r_empty r) eqn:Ee.
    { right. split; [|reflexivity]. intros [H _]. specialize (H r (or_introl eq_refl)). congruence. }
    destruct (visit_acts_spec (p_numClients d) (p_numShipments d) (map sa_act (r_schedule r)) cv sv cids pids
                Hc Hs Nc Ns B1 B2) as [(N1 & N2 & cv' & sv' & E & Hc' & Hs')|[N E]].
    + rewrite E.
      pose proof (IH cv' sv' _ _ _ _ Hc' Hs' (used_step _ _ _ _ Hu B3) N1 N2 HB') as H. cbv zeta in H.
      assert (EC : client_ids (plan (r :: routes)) = client_ids (map sa_act (r_schedule r)) ++ client_ids (plan routes))
        by apply client_ids_app.
      assert (EP : pickup_ids (plan (r :: routes)) = pickup_ids (map sa_act (r_schedule r)) ++ pickup_ids (plan routes))
        by apply pickup_ids_app.
      rewrite <- !app_assoc in H. rewrite <- EC, <- EP in H. cbn [app] in H.
      destruct H as [[(O1 & O2 & O3) H]|[H1 H2]].
      * left. split; [|exact H]. split; [|auto]. intros r' [<-|Hr']; [exact Ee|auto].
      * right. split; [|exact H2]. intros (O1 & O2 & O3). apply H1. repeat split; try assumption.
        intros r' Hr'. apply O1. right. exact Hr'.
    + right. rewrite E. split; [|reflexivity]. intros (O1 & O2 & O3). apply N.
      change (plan (r :: routes)) with (map sa_act (r_schedule r) ++ plan routes) in O2, O3.
      rewrite client_ids_app, app_assoc in O2. rewrite pickup_ids_app, app_assoc in O3.
      split; [exact (NoDup_app_l _ _ O2)|exact (NoDup_app_l _ _ O3)].
Qed.

Lemma built_fields d r : built d r -> exists mid vt,
  (vt < p_numVehicleTypes d)%nat /\ make_route d mid vt = Ok r /\
  well_formed d (p_vehicle d vt) mid /\ r_vehicleType r = vt /\
  map sa_act (r_schedule r) = ADepot (v_start (p_vehicle d vt)) :: mid ++ [ADepot (v_end (p_vehicle d vt))].
Proof.
  intros (mid & vt & Hvt & H). exists mid, vt. split; [exact Hvt|]. split; [exact H|].
  split; [exact (make_route_ok _ _ _ _ H)|].
  apply route_fields in H. cbv zeta in H. rewrite H. cbn [r_vehicleType r_schedule].
  split; [reflexivity|]. apply schedule_acts.
Qed.

Lemma built_ids d r : built d r -> route_ids_ok d r.
Proof.
  intros H. destruct (built_fields d r H) as (mid & vt & Hvt & _ & Hwf & E1 & E2).
  unfold route_ids_ok. rewrite E1, E2. split; [|split; [|exact Hvt]].
  - intros i Hi. apply in_client_ids in Hi. destruct Hi as [Hi|Hi]; [discriminate|].
    apply in_app_or in Hi. destruct Hi as [Hi|[Hi|[]]]; [|discriminate].
    exact (wf_known _ _ _ Hwf _ Hi).
  - intros i Hi. apply in_pickup_ids in Hi. destruct Hi as [Hi|Hi]; [discriminate|].
    apply in_app_or in Hi. destruct Hi as [Hi|[Hi|[]]]; [|discriminate].
    exact (wf_known _ _ _ Hwf _ Hi).
Qed.

Lemma built_empty d r : built d r ->
  (r_empty r = false <-> exists a, In a (map sa_act (r_schedule r)) /\ a_isDepot a = false).
Proof.
  intros H. destruct (built_fields d r H) as (mid & vt & Hvt & Hm & Hwf & E1 & E2).
  rewrite (r_empty_spec d _ _ _ Hm), E2. unfold has_visit. split.
  - intros Hx. apply negb_false_iff in Hx. apply existsb_exists in Hx. destruct Hx as (a & Ha & Hk).
    exists a. split; [right; apply in_or_app; left; exact Ha|]. destruct a; cbn in *; congruence.
  - intros (a & Ha & Hk). apply negb_false_iff. apply existsb_exists.
    destruct Ha as [<-|Ha]; [discriminate|]. apply in_app_or in Ha. destruct Ha as [Ha|[<-|[]]]; [|discriminate].
    destruct a as [i|i|i|i]; [discriminate| | |].
    + exists (AClient i). auto.
    + exists (APickup i). auto.
    + apply in_split in Ha. destruct Ha as (pre & post & E).
      destruct (wf_delivery_after _ _ _ Hwf i pre post E) as (p1 & p2 & -> & _).
      exists (APickup i). split; [|reflexivity]. rewrite E. apply in_or_app. left.
      apply in_or_app. right. left. reflexivity.
Qed.

(** ** Groups *)
Lemma check_groups_spec cv groups : forall n,
  ((forall g, In g groups -> (group_count cv g <= 1)%nat) /\
   check_groups cv groups n =
     Ok (n + length (filter (fun g => g_required g && (group_count cv g =? 0)%nat) groups))%nat) \/
  (~ (forall g, In g groups -> (group_count cv g <= 1)%nat) /\ check_groups cv groups n = Err RuntimeErr).
Proof.
  induction groups as [|g groups IH]; intros n.
  - left. split; [intros g []|]. cbn. f_equal. lia.
  - cbn [check_groups]. destruct (Nat.ltb_spec 1 (group_count cv g)) as [Hlt|Hle].
    + right. split; [|reflexivity]. intros H. specialize (H g (or_introl eq_refl)). lia.
    + destruct (IH (if g_required g && (group_count cv g =? 0)%nat then S n else n)) as [[H1 H2]|[H1 H2]].
      * left. split; [intros g' [<-|Hg']; auto; lia|]. rewrite H2. f_equal. cbn [filter].
        destruct (g_required g && (group_count cv g =? 0)%nat); cbn [length]; lia.
      * right. split; [|exact H2]. intros H. apply H1. intros g' Hg'. apply H. right. exact Hg'.
Qed.

(** At most one element of a duplicate free list satisfies [f]. *)
Lemma at_most_one {A} (f : A -> bool) l : NoDup l ->
  ((length (filter f l) <= 1)%nat <-> forall i j, In i l -> In j l -> f i = true -> f j = true -> i = j).
Proof.
  intros Hnd. split.
  - intros Hl i j Hi Hj Fi Fj.
    assert (Hi' : In i (filter f l)) by (apply filter_In; auto).
    assert (Hj' : In j (filter f l)) by (apply filter_In; auto).
    destruct (filter f l) as [|x [|y r]]; [destruct Hi'| |cbn in Hl; lia].
    destruct Hi' as [<-|[]]. destruct Hj' as [<-|[]]. reflexivity.
  - intros H. pose proof (NoDup_filter f Hnd) as Hn.
    destruct (filter f l) as [|x [|y r]] eqn:E; cbn [length]; try lia. exfalso.
    assert (Hx : In x (filter f l)) by (rewrite E; left; reflexivity).
    assert (Hy : In y (filter f l)) by (rewrite E; right; left; reflexivity).
    apply filter_In in Hx. apply filter_In in Hy.
    assert (x = y) by (apply H; tauto). subst y. inversion Hn as [|? ? H1 _]; subst. apply H1. left. reflexivity.
Qed.

(** Groups refer to known clients (ProblemData.cpp:112-268, see DataCtor.v). *)
Definition groups_known (d : pdata) : Prop :=
  Forall (fun g => Forall (fun i => (i < p_numClients d)%nat) (g_clients g)) (p_groups d).

Lemma bits_init n : bits_are n (repeat false n) [].
Proof.
  split; [apply repeat_length|]. intros i Hi. rewrite bit_repeat. split; [discriminate|intros []].
Qed.
Lemma used_init n : used_are n (repeat 0%nat n) [].
Proof.
  split; [apply repeat_length|]. intros i Hi. cbn. clear. revert i. induction n; intros [|i]; cbn; auto.
Qed.

(** ** The constructor *)
Definition the_solution (d : pdata) (routes : list route) (cv sv : list bool) : solution :=
  mk_solution routes (unplanned_of d cv sv)
    (count_of r_numClients routes) (count_of r_numShipments routes)
    (missing_clients d cv)
    (length (filter (fun g => g_required g && (group_count cv g =? 0)%nat) (p_groups d)))
    (missing_shipments d sv)
    (sum_of r_distance routes) (sum_of r_distanceCost routes)
    (sum_of r_duration routes) (sum_of r_overtime routes)
    (sum_of r_durationCost routes) (sum_of r_excessDistance routes)
    (map (fun dim => sum_of (fun r => nth dim (r_excessLoad r) 0) routes)
         (seq 0 (p_numLoadDimensions d)))
    (sum_of r_fixedCost routes) (sum_of r_prizes routes) (all_prizes d - sum_of r_prizes routes)
    (sum_of r_timeWarp routes).

Theorem make_solution_spec d routes :
  Forall (built d) routes -> groups_nodup d -> groups_known d ->
  (consistent d routes /\ exists cv sv,
     make_solution d routes = Ok (the_solution d routes cv sv) /\
     bits_are (p_numClients d) cv (client_ids (plan routes)) /\
     bits_are (p_numShipments d) sv (pickup_ids (plan routes))) \/
  (~ consistent d routes /\ make_solution d routes = Err RuntimeErr).
Proof.
  intros HB Hg Hk. unfold make_solution.
  destruct (Nat.ltb_spec (p_numVehicles d) (length routes)) as [Hlt|Hle].
  { right. split; [|reflexivity]. intros [H _ _ _ _ _]. lia. }
  assert (HB' : Forall (route_ids_ok d) routes) by (eapply Forall_impl; [|exact HB]; intros r; apply built_ids).
  assert (Hne : (forall r, In r routes -> r_empty r = false) <->
                (forall r, In r routes -> exists a, In a (map sa_act (r_schedule r)) /\ a_isDepot a = false)).
  { rewrite Forall_forall in HB. split; intros H r Hr; apply (built_empty d r (HB r Hr)); auto. }
  destruct (visit_routes_spec d routes _ _ _ [] [] [] (bits_init _) (bits_init _) (used_init _)
              (NoDup_nil _) (NoDup_nil _) HB') as [[(O1 & O2 & O3) (cv & sv & used & E & Hc & Hs & Hu)]|[N E]];
    cbn [app] in *; rewrite E.
  2:{ right. split; [|reflexivity]. intros [_ H2 H3 H4 _ _]. apply N.
      split; [|auto]. apply Hne. exact H2. }
  assert (Hgr : (forall g, In g (p_groups d) -> (group_count cv g <= 1)%nat) <->
    (forall g i j, In g (p_groups d) -> In i (g_clients g) -> In j (g_clients g) ->
      In (AClient i) (plan routes) -> In (AClient j) (plan routes) -> i = j)).
  { unfold groups_nodup, groups_known in Hg, Hk. rewrite Forall_forall in Hg, Hk. unfold group_count.
    assert (Hb : forall g i, In g (p_groups d) -> In i (g_clients g) ->
              (bit cv i = true <-> In (AClient i) (plan routes))).
    { intros g i H1 H2. specialize (Hk g H1). rewrite Forall_forall in Hk.
      rewrite (proj2 Hc i (Hk i H2)). apply in_client_ids. }
    split.
    - intros H g i j G1 G2 G3 P1 P2. specialize (H g G1).
      apply (proj1 (at_most_one (bit cv) (g_clients g) (Hg g G1)) H i j G2 G3); apply (Hb g); assumption.
    - intros H g G1. apply at_most_one; [apply Hg; exact G1|]. intros i j G2 G3 P1 P2.
      apply (H g i j G1 G2 G3); apply (Hb g); assumption. }
  destruct (check_groups_spec cv (p_groups d) 0) as [[G1 G2]|[G1 G2]]; rewrite G2.
  2:{ right. split; [|reflexivity]. intros [_ _ _ _ H5 _]. apply G1. apply Hgr. exact H5. }
  destruct (existsb (fun vt => (v_numAvailable (p_vehicle d vt) <? nth vt used 0)%nat)
              (seq 0 (p_numVehicleTypes d))) eqn:Ev.
  - right. split; [|reflexivity]. intros [_ _ _ _ _ H6].
    apply existsb_exists in Ev. destruct Ev as (vt & Hvt & Hlt). apply in_seq in Hvt.
    apply Nat.ltb_lt in Hlt. rewrite (proj2 Hu vt) in Hlt by lia. specialize (H6 vt ltac:(lia)). lia.
  - left. split.
    + constructor; try assumption; [apply Hne; exact O1|apply Hgr; exact G1|].
      intros vt Hvt. rewrite <- (proj2 Hu vt Hvt).
      destruct (Nat.ltb_spec (v_numAvailable (p_vehicle d vt)) (nth vt used 0%nat)) as [Hx|Hx]; [|exact Hx].
      assert (existsb (fun vt => (v_numAvailable (p_vehicle d vt) <? nth vt used 0)%nat)
              (seq 0 (p_numVehicleTypes d)) = true); [|congruence].
      apply existsb_exists. exists vt. split; [apply in_seq; lia|]. apply Nat.ltb_lt. exact Hx.
    + exists cv, sv. auto.
Qed.
