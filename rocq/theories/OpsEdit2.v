(** The operators RelocatePickup, RelocateShipment, RelocateAlternative and RelocateWithDepot. *)
From Verif Require Import Base DurationSegment Data LoadSegment SearchRoute RouteDur Valid ProposalDur ProposalRest Route RouteSpec
  RouteFacts2 RouteFacts3 Cost CostFacts DeltaFacts SearchFacts DataCtor SearchSpace SearchNodes SearchSeq SearchLoad Ops PlanFacts ShipState OpsBase OpsGen OpsMove OpsRelocate OpsOne OpsEdit.
Local Open Scope nat_scope.

(** A client [u] is inserted after [v] together with a reload depot, one of those of the vehicle type of the route, directly before or after it. *)
Inductive with_depot (d : pdata) (p : plan) (u : activity) (v : vref) : plan -> Prop :=
| Dep_before r C D x : r < length p -> mid_at p r = C ++ D -> ends v r C -> In x (v_reload (rveh d r)) ->
    with_depot d p u v (upd p r (C ++ ADepot x :: u :: D))
| Dep_after r C D x : r < length p -> mid_at p r = C ++ D -> ends v r C -> In x (v_reload (rveh d r)) ->
    with_depot d p u v (upd p r (C ++ u :: ADepot x :: D)).

(** At most one member of a client group is planned. *)
Definition group_once (d : pdata) (p : plan) : Prop :=
  forall g i j, g < p_numGroups d -> In i (g_clients (p_group d g)) -> In j (g_clients (p_group d g)) ->
    1 <= tot p (AClient i) -> 1 <= tot p (AClient j) -> i = j.

Section Edit2.
Variable d : pdata.
Variable h : Z.
Variable ev : evaluator.
Hypothesis St : setting d h ev.

(** ** RelocatePickup *)
Theorem pickup_ok p u delta mv : plan_ok d p -> eval_pickup d ev (sync d p) u = (delta, true, mv) ->
  exists i, u = APickup i /\ pickup_moved p i (apply_pickup mv p u) /\ done d ev p (apply_pickup mv p u) delta.
Proof.
  intros P. unfold eval_pickup. cbn [sp_mids sync]. destruct u as [| |i|]; try discriminate.
  destruct (find_act (APickup i) p) as [[r pu]|] eqn:Fu; [|discriminate].
  destruct (ship_at d p i r pu P Fu) as (A & M & B & Hm & RM & Hr & Hpu & Fd). rewrite Fd. set (pd := length A + length M + 2) in *.
  intros H. apply first_improving_inv in H as (pn & Hin & -> & Hneg & ->). apply filter_In in Hin as [Hin Hne].
  apply andb_true_iff in Hne as [N1 N2]. apply negb_true_iff, Nat.eqb_neq in N1, N2.
  destruct (trip_back_split _ _ _ Hin) as (A0 & M0 & B0 & Hm0 & Hpn & Hpd & HM0 & R0).
  { rewrite Hm. unfold pd. lens. }
  assert (E0 : (A0 ++ M0) ++ B0 = (A ++ APickup i :: M ++ [ADelivery i]) ++ B) by (transitivity (mid_at p r); [rewrite Hm0|rewrite Hm]; assoc; reflexivity).
  destruct (app_split _ _ _ _ E0 ltac:(unfold pd in *; lens)) as (Z & E1 & E2).
  assert (Z = []) as -> by (apply (f_equal (@length _)) in E1; destruct Z; [reflexivity|unfold pd in *; lens]).
  cbn [app] in E2. subst B0. rewrite app_nil_r in E1. clear E0.
  destruct (last_split M0 HM0) as (Y & y & ->).
  assert (Ey : A ++ APickup i :: M = A0 ++ Y /\ ADelivery i = y).
  { apply app_inj_tail. revert E1. assoc. auto. }
  destruct Ey as [Ey <-]. clear E1.
  assert (RY : num_reloads Y = 0) by reloads.
  assert (Hx : exists a Y', Y ++ ADelivery i :: B = a :: Y' /\ a_isDepot a = false).
  { destruct Y as [|a Y]; [exists (ADelivery i), B; auto|]. exists a, (Y ++ ADelivery i :: B). split; [reflexivity|]. apply (num_reloads_In (a :: Y)); [exact RY|left; reflexivity]. }
  destruct Hx as (a & Y' & EY' & Ha).
  assert (Kb : kind_at (mid_at p r) pn = KAct a).
  { rewrite Hm0. replace (A0 ++ (Y ++ [ADelivery i]) ++ B) with (A0 ++ a :: Y') by (rewrite <- EY'; assoc; reflexivity). apply kind_at_app. lia. }
  rewrite Kb. exists i. split; [reflexivity|]. cbn [apply_pickup].
  rewrite (remove_act_ok d p (APickup i) r A (M ++ ADelivery i :: B)) by first [left; exact P | reflexivity | exact Hr | exact Hm].
  set (p1 := upd p r (A ++ M ++ ADelivery i :: B)).
  assert (M1 : mid_at p1 r = A ++ M ++ ADelivery i :: B) by (unfold p1; apply mid_at_same; exact Hr).
  assert (L1 : r < length p1) by (unfold p1; rewrite upd_length; exact Hr).
  assert (T1 : forall a, a_isDepot a = false -> tot p1 a <= 1).
  { intros b Hb. pose proof (tot_upd p r (A ++ M ++ ADelivery i :: B) b Hr) as E. pose proof (pk_once d p P b Hb). rewrite Hm in E. unfold p1. counts. }
  destruct (Nat.ltb_spec pu pn) as [Hlt|Hge].
  - (* later *)
    assert (Ey2 : (A ++ [APickup i]) ++ M = A0 ++ Y) by (rewrite <- Ey; assoc; reflexivity).
    destruct (app_split _ _ _ _ Ey2 ltac:(lens)) as (X & -> & ->).
    destruct X as [|z X]; [exfalso; lens|].
    assert (Hf : find_act a p1 = Some (r, length (A ++ z :: X) + 1)).
    { apply (find_act_at a p1 r (A ++ z :: X) Y'); auto. rewrite M1. assoc. rewrite EY'. reflexivity. }
    rewrite Hf. rewrite (ins_eq p1 r _ (APickup i) (A ++ z :: X) (Y ++ ADelivery i :: B)) by first [solve [lens] | rewrite M1; assoc; reflexivity].
    unfold p1. rewrite upd_upd.
    destruct (rejoin d p r A ((z :: X) ++ Y) B (A ++ z :: X) Y B i P Hr Hm RM ltac:(assoc; reflexivity) RY) as (Q1 & Q2 & Q3 & Q4).
    split; [apply (PMov p i r A ((z :: X) ++ Y) B); auto; assoc; reflexivity|]. constructor; [exact Q1|].
    assert (Ev := one_eval d h ev St false 0 p r A (APickup i :: ((z :: X) ++ Y) ++ ADelivery i :: B) [btw (sync d p) r (pu + 1) (pn - 1); SPickup i] [z :: X; [APickup i]]
       (aft (sync d p) r pn) (Y ++ ADelivery i :: B) ((A ++ z :: X) ++ APickup i :: Y ++ ADelivery i :: B) (pu - 1) P Hr Hm ltac:(lia)).
    cbn [app] in Ev. rewrite Ev; auto.
    + rewrite cost_one_move by (auto; intros; apply Q3). lia.
    + apply Forall2_cons; [|apply Forall2_cons; [apply piece_pickup|apply Forall2_nil]].
      apply (piece_btw d p r (A ++ [APickup i]) z X (Y ++ ADelivery i :: B)); side Hm.
    + apply (piece_aft d p r (A ++ APickup i :: z :: X) (Y ++ ADelivery i :: B)); side Hm.
    + cbn [concat]. assoc. reflexivity.
  - (* earlier *)
    destruct (app_split A0 Y A (APickup i :: M) (eq_sym Ey) ltac:(lens)) as (X & -> & ->).
    destruct X as [|z X]; [exfalso; lens|].
    assert (EY2 : exists Y2, a = z /\ X ++ M ++ ADelivery i :: B = Y2).
    { eexists. split; [|reflexivity]. cbn [app] in EY'. injection EY' as -> _. reflexivity. }
    destruct EY2 as (Y2 & -> & EY2).
    assert (Hf : find_act z p1 = Some (r, length A0 + 1)).
    { apply (find_act_at z p1 r A0 Y2); auto. rewrite M1. assoc. rewrite EY2. reflexivity. }
    rewrite Hf. rewrite (ins_eq p1 r _ (APickup i) A0 ((z :: X) ++ M ++ ADelivery i :: B)) by first [reflexivity | rewrite M1; assoc; reflexivity].
    unfold p1. rewrite upd_upd.
    replace (A0 ++ APickup i :: (z :: X) ++ M ++ ADelivery i :: B) with (A0 ++ APickup i :: ((z :: X) ++ M) ++ ADelivery i :: B) by (assoc; reflexivity).
    assert (RX : num_reloads (z :: X) = 0) by reloads.
    destruct (rejoin d p r (A0 ++ z :: X) M B A0 ((z :: X) ++ M) B i P Hr Hm RM ltac:(assoc; reflexivity) ltac:(reloads)) as (Q1 & Q2 & Q3 & Q4).
    split; [apply (PMov p i r (A0 ++ z :: X) M B); auto; [assoc; reflexivity|reloads]|]. constructor; [exact Q1|].
    assert (Ev := one_eval d h ev St false 0 p r A0 ((z :: X) ++ APickup i :: M ++ ADelivery i :: B) [SPickup i; btw (sync d p) r pn (pu - 1)] [[APickup i]; z :: X]
       (aft (sync d p) r (pu + 1)) (M ++ ADelivery i :: B) (A0 ++ APickup i :: ((z :: X) ++ M) ++ ADelivery i :: B) (pn - 1) P Hr ltac:(rewrite Hm; assoc; reflexivity) ltac:(lia)).
    cbn [app] in Ev, Q1, Q2, Q3, Q4 |- *. rewrite Ev; auto.
    + rewrite cost_one_move by (auto; intros; apply Q3). lia.
    + apply Forall2_cons; [apply piece_pickup|]. apply Forall2_cons; [|apply Forall2_nil].
      apply (piece_btw d p r A0 z X (APickup i :: M ++ ADelivery i :: B)); side Hm.
    + apply (piece_aft d p r (A0 ++ (z :: X) ++ [APickup i]) (M ++ ADelivery i :: B)); side Hm.
    + cbn [concat]. assoc. reflexivity.
Qed.

(** ** RelocateShipment *)
(** The cost of taking the shipment picked up at position [pos] of route [r] out. *)
Definition ship_fresh (p : plan) (r pos : nat) : Z :=
  match kind_at (mid_at p r) pos with
  | KAct (APickup i) =>
      match find_act (ADelivery i) p with
      | Some (_, pd) =>
          let s := sync d p in
          if (nClients s r =? 0) && (nShipments s r =? 1) then (0 - pcost ev s r)%Z
          else if negb (pos + 1 =? pd)
          then dcost d ev true 0 (bef s r (pos - 1)) [btw s r (pos + 1) (pd - 1); aft s r (pd + 1)]
          else dcost d ev true 0 (bef s r (pos - 1)) [aft s r (pd + 1)]
      | None => 0%Z
      end
  | _ => 0%Z
  end.
Lemma ship_fresh_ok p r A M B i pos : plan_ok d p -> r < length p -> mid_at p r = A ++ APickup i :: M ++ ADelivery i :: B -> num_reloads M = 0 ->
  pos = length A + 1 -> ship_fresh p r pos = (rcost d ev (rveh d r) (A ++ M ++ B) - rcost d ev (rveh d r) (mid_at p r))%Z.
Proof.
  intros P Hr Hm RM ->. unfold ship_fresh. rewrite Hm at 1. rewrite kind_at_app by reflexivity.
  rewrite (find_act_at (ADelivery i) p r (A ++ APickup i :: M) B (length A + length M + 2)) by first [exact Hr | apply (pk_once d p P); reflexivity | solve [lens] | rewrite Hm; assoc; reflexivity].
  cbv zeta. destruct (pair_out d p r A M B i P Hr Hm RM) as (_ & Q2 & _ & _).
  destruct (ship_out d ev p r A M B i P Hr Hm RM) as (_ & _ & Q6). rewrite andb_comm in Q6.
  destruct ((nClients (sync d p) r =? 0) && (nShipments (sync d p) r =? 1)).
  - rewrite (rcost_empty d ev (rveh d r) (A ++ M ++ B)) by exact Q6. unfold pcost. rewrite cache_sync by exact Hr. unfold rcost. lia.
  - assert (E := ship_gap_eval d h ev St true 0 p r A M B (APickup i) (ADelivery i) (length A + 1 - 1) (length A + 1 + 1) (length A + length M + 2 - 1) (length A + length M + 2 + 1) P Hr Hm RM Q2 Q6
      ltac:(lia) ltac:(lia) ltac:(lia) ltac:(lia)). cbv zeta in E.
    destruct (length A + 1 + 1 =? length A + length M + 2); cbn [negb]; rewrite E by (left; reflexivity); lia.
Qed.
Theorem shipment_ok p rc u v delta mv rc' : plan_ok d p -> vref_ok p v -> rc_valid (ship_fresh p) p rc ->
  eval_shipment d ev (sync d p) rc u v = ((delta, true, mv), rc') ->
  exists i p1, u = APickup i /\ ship_removed p i p1 /\ ship_inserted p1 i v (apply_shipment mv p u v) /\ done d ev p (apply_shipment mv p u v) delta.
Proof.
  intros P Hv Hrc. unfold eval_shipment. cbn [sp_mids sync]. destruct u as [| |i|]; try discriminate.
  destruct (find_act (APickup i) p) as [[ru pp]|] eqn:Fu; [|discriminate].
  destruct (ship_at d p i ru pp P Fu) as (A & M & B & Hm & RM & Hr & Hpp & Fd). rewrite Fd.
  destruct (locate p v) as [[rv pv]|] eqn:Fv; [|discriminate].
  destruct (locate_split p v rv pv Hv Fv) as (C & D & Mv & Hpv & He & Hrv).
  destruct (Nat.eqb_spec ru rv) as [|Hne]; [discriminate|].
  set (pd := length A + length M + 2) in *.
  match goal with |- context [remove_cost rc ?u ?f] => destruct (remove_cost rc u f) as [cost rc2] eqn:ER; assert (EF : f = ship_fresh p ru pp) end.
  { unfold ship_fresh. rewrite Hm, kind_at_app by exact Hpp. rewrite Fd. reflexivity. }
  rewrite EF in ER. destruct (remove_cost_valid _ p rc (APickup i) ru pp cost rc2 Hrc Fu ER) as [-> _]. clear ER EF.
  rewrite (ship_fresh_ok p ru A M B i pp P Hr Hm RM Hpp). set (cost := (rcost _ _ _ _ - _)%Z).
  destruct (pair_out d p ru A M B i P Hr Hm RM) as (P1 & _ & T1 & T2). set (p1 := upd p ru (A ++ M ++ B)) in *.
  destruct (ship_out d ev p ru A M B i P Hr Hm RM) as (_ & C1 & _). fold p1 in C1.
  assert (Mv1 : mid_at p1 rv = C ++ D) by (unfold p1; rewrite mid_at_other by exact Hne; exact Mv).
  assert (L1 : rv < length p1) by (unfold p1; rewrite upd_length; exact Hrv).
  assert (Ki : i < p_numShipments d) by (apply (known_at d p ru A (APickup i) (M ++ ADelivery i :: B) P Hm)).
  intros H. apply (f_equal fst) in H. cbn [fst] in H.
  assert (X : exists N R, D = N ++ R /\ num_reloads N = 0 /\ mv = MPos (length C + length N + 1) /\ (delta < 0)%Z /\
     (N = [] /\ delta = dcost d ev false cost (bef (sync d p) rv pv) [at_ (sync d p) ru pp; at_ (sync d p) ru pd; aft (sync d p) rv (length C + length N + 1)] \/
      N <> [] /\ delta = dcost d ev false cost (bef (sync d p) rv pv) [at_ (sync d p) ru pp; btw (sync d p) rv (pv + 1) (length C + length N); at_ (sync d p) ru pd; aft (sync d p) rv (length C + length N + 1)])).
  { destruct (Z.ltb_spec (dcost d ev false cost (bef (sync d p) rv pv) [at_ (sync d p) ru pp; at_ (sync d p) ru pd; aft (sync d p) rv (pv + 1)]) 0).
    - cbn [fst] in H. injection H as <- <-. exists [], D. rewrite Hpv. cbn [length]. rewrite Nat.add_0_r. rewrite <- Hpv. repeat split; auto.
    - cbn [fst] in H. apply first_improving_inv in H as (pos & Hin & -> & Hneg & ->). rewrite Mv in Hin. apply trip_rest_split in Hin as (N & R & -> & HN & RN & ->); [|exact Hpv].
      exists N, R. repeat split; auto. }
  clear H. destruct X as (N & R & -> & RN & -> & Hneg & Hd).
  destruct (pair_in d p1 rv C N R i P1 L1 Mv1 RN Ki T1 T2) as (Q1 & Q2).
  assert (Hv1 : vref_ok p1 v) by (unfold p1; destruct v; cbn [vref_ok] in *; rewrite ?upd_length; exact Hv).
  assert (Ea : apply_shipment (MPos (length C + length N + 1)) p (APickup i) v = upd p1 rv (C ++ APickup i :: N ++ ADelivery i :: R)).
  { unfold apply_shipment. rewrite (remove_pair_apply d p i ru A M B P Hr Hm). fold p1.
    pose proof (insert_shipment_apply d p1 i v rv C N R (MPos (length C + length N + 1)) P1 Hv1 L1 Mv1 He T2 eq_refl) as X.
    unfold apply_insert_shipment in X. rewrite (locate_at p1 v rv C (N ++ R) (length C)) in * by first [assumption | reflexivity | apply (ref_once d p1 v P1 Hv1)].
    exact X. }
  rewrite Ea. exists i, p1. split; [reflexivity|]. split; [apply SRem; assumption|]. split; [constructor; auto|]. constructor; [exact Q1|].
  pose proof (pk_veh d p ru P Hr) as Vu.
  pose proof (pair_eval d h ev St p rv C N R (APickup i) (ADelivery i) cost pv (pv + 1) (length C + length N) (length C + length N + 1)
    (at_ (sync d p) ru pp) (at_ (sync d p) ru pd) delta P Hrv Mv
    (piece_at d p ru A (APickup i) (M ++ ADelivery i :: B) pp Hr Vu Hm Hpp)
    (piece_at d p ru (A ++ APickup i :: M) (ADelivery i) B pd Hr Vu ltac:(rewrite Hm; assoc; reflexivity) ltac:(unfold pd; lens)) RN Q2 eq_refl Hpv eq_refl ltac:(lia) eq_refl Hd Hneg) as E.
  rewrite (ship_in_cost d ev p1 rv C N R i 0 (- s_prize (p_shipment d i) - rcost d ev (rveh d rv) (mid_at p1 rv) + rcost d ev (rveh d rv) (C ++ APickup i :: N ++ ADelivery i :: R))%Z P1 L1 Mv1 Ki T1) by lia.
  rewrite C1, E, Mv1, <- Mv. unfold cost. lia.
Qed.

(** ** A client moves next to [v] *)
Lemma client_in p r C D j : plan_ok d p -> r < length p -> mid_at p r = C ++ D -> known d (AClient j) -> tot p (AClient j) = 0 ->
  plan_ok d (upd p r (C ++ AClient j :: D)) /\ fine_mid d (rveh d r) (C ++ AClient j :: D)
  /\ plan_cost d ev (upd p r (C ++ AClient j :: D)) = (plan_cost d ev p - c_prize (p_client d j) - rcost d ev (rveh d r) (C ++ D) + rcost d ev (rveh d r) (C ++ AClient j :: D))%Z
  /\ has_visit (C ++ AClient j :: D) = true.
Proof.
  intros P Hr Hm K T0. destruct (ins_plan d p r C [AClient j] D P Hr Hm) as (Q1 & Q2); auto.
  { apply ships_client. }
  { intros a Ha. pose proof (pk_once d p P a Ha). counts. destruct (a_eqb a (AClient j)) eqn:E; [apply a_eqb_eq in E; subst; lia|lia]. }
  cbn [app] in Q1, Q2. split; [exact Q1|]. split; [exact Q2|]. split.
  - rewrite cost_one by exact Hr. rewrite (unc_insert d p _ (AClient j)); auto.
    + cbn [prize_of]. rewrite Hm. lia.
    + rewrite (tot_in p r C D) by auto. rewrite eqb_refl. lia.
    + intros a _ Ha. rewrite (tot_in p r C D) by auto. rewrite eqb_false by exact Ha. lia.
  - apply (has_visit_in _ (AClient j)); [apply in_elt|reflexivity|apply (fine_ships d _ _ Q2)].
Qed.
(** [u] and the position after [v] in the same route. *)
Lemma two_spots p r A u B C D v : vref_ok p v -> mid_at p r = A ++ u :: B -> mid_at p r = C ++ D -> ends v r C ->
  length A + 1 <> length C -> length A <> length C ->
  (length A + 1 < length C -> exists z M, B = (z :: M) ++ D /\ C = A ++ u :: z :: M /\ ends v r (A ++ z :: M)) /\
  (length C < length A + 1 -> exists z M, A = C ++ z :: M /\ D = (z :: M) ++ u :: B).
Proof.
  intros Hv Mu Mv He N1 N2. rewrite Mu in Mv. split; intros Hl.
  - replace (A ++ u :: B) with ((A ++ [u]) ++ B) in Mv by (assoc; reflexivity).
    destruct (app_split _ _ _ _ Mv ltac:(lens)) as (M & -> & ->). destruct M as [|z M]; [lens|].
    exists z, M. split; [reflexivity|]. split; [assoc; reflexivity|]. destruct v as [a|k]; cbn [ends] in *.
    + destruct He as (C' & E). destruct (last_split (z :: M) ltac:(discriminate)) as (M' & b & Eb). rewrite Eb in *.
      rewrite app_assoc in E. apply app_inj_tail in E as [_ ->]. exists (A ++ M'). assoc. reflexivity.
    + destruct He as [_ E]. apply (f_equal (@length _)) in E. lens.
  - destruct (app_split C D A (u :: B) (eq_sym Mv) ltac:(lens)) as (M & -> & ->). destruct M as [|z M]; [lens|]. exists z, M. auto.
Qed.
Lemma later_trip A u M D k k' : trip_of (A ++ u :: M ++ D) k = trip_of (A ++ u :: M ++ D) k' -> k = length A + 1 -> k' = length A + 1 + length M -> num_reloads M = 0.
Proof.
  intros H -> ->. replace (A ++ u :: M ++ D) with ((A ++ [u]) ++ M ++ D) in H at 1 by (assoc; reflexivity).
  replace (length A + 1) with (length (A ++ [u])) in H at 1 by lens. rewrite trip_at in H.
  replace (A ++ u :: M ++ D) with ((A ++ u :: M) ++ D) in H by (assoc; reflexivity).
  replace (length A + 1 + length M) with (length (A ++ u :: M)) in H by lens. rewrite trip_at in H. reloads.
Qed.
Lemma earlier_trip C M u B k k' : trip_of (C ++ M ++ u :: B) k = trip_of (C ++ M ++ u :: B) k' -> k = length C + length M + 1 -> k' = length C -> num_reloads M = 0.
Proof.
  intros H -> ->. rewrite trip_at in H. replace (C ++ M ++ u :: B) with ((C ++ M ++ [u]) ++ B) in H by (assoc; reflexivity).
  replace (length C + length M + 1) with (length (C ++ M ++ [u])) in H by lens. rewrite trip_at in H. reloads.
Qed.

(** ** RelocateAlternative *)
Definition alt_fresh (p : plan) (r pos : nat) : Z :=
  match kind_at (mid_at p r) pos with
  | KAct (AClient i) =>
      let s := sync d p in
      if (nClients s r =? 1) && (nShipments s r =? 0) then (c_prize (p_client d i) - pcost ev s r)%Z
      else dcost d ev true (c_prize (p_client d i)) (bef s r (pos - 1)) [aft s r (pos + 1)]
  | _ => 0%Z
  end.
Lemma client_fresh p r A B i pos out : plan_ok d p -> r < length p -> mid_at p r = A ++ AClient i :: B -> pos = length A + 1 ->
  (if (nClients (sync d p) r =? 1) && (nShipments (sync d p) r =? 0) then (out - pcost ev (sync d p) r)%Z
   else dcost d ev true out (bef (sync d p) r (pos - 1)) [aft (sync d p) r (pos + 1)])
  = (out - rcost d ev (rveh d r) (mid_at p r) + rcost d ev (rveh d r) (A ++ B))%Z.
Proof.
  intros P Hr Hm ->. destruct (client_out d ev p r A B i P Hr Hm) as (_ & Q2 & _ & _ & _ & Q6). rewrite andb_comm in Q6.
  apply (removal_cost d h ev St p r A [AClient i] B out); auto; lens.
Qed.
Lemma alt_fresh_ok p r A B i pos : plan_ok d p -> r < length p -> mid_at p r = A ++ AClient i :: B -> pos = length A + 1 ->
  alt_fresh p r pos = (c_prize (p_client d i) - rcost d ev (rveh d r) (mid_at p r) + rcost d ev (rveh d r) (A ++ B))%Z.
Proof. intros P Hr Hm Hp. unfold alt_fresh. rewrite Hm at 1. rewrite kind_at_app by exact Hp. cbv zeta. apply (client_fresh p r A B i); assumption. Qed.

Theorem alternative_ok p rc u v delta mv rc' : plan_ok d p -> group_once d p -> vref_ok p v -> rc_valid (alt_fresh p) p rc ->
  eval_alternative d ev (sync d p) rc u v = ((delta, true, mv), rc') ->
  exists i j g p1, u = AClient i /\ c_group (p_client d i) = Some g /\ In j (g_clients (p_group d g)) /\ j <> i /\ tot p (AClient j) = 0 /\
    removed p u p1 /\ inserted p1 (AClient j) v (apply_alternative mv p u v) /\ done d ev p (apply_alternative mv p u v) delta.
Proof.
  intros P G Hv Hrc. unfold eval_alternative. cbn [sp_mids sync]. destruct u as [|i| |]; try discriminate.
  destruct (find_act (AClient i) p) as [[ru pu]|] eqn:Fu; [|discriminate].
  destruct (find_act_spec _ _ _ _ Fu) as (A & B & Mu & Hpu & Hru).
  destruct (locate p v) as [[rv pv]|] eqn:Fv; [|discriminate].
  destruct (locate_split p v rv pv Hv Fv) as (C & D & Mv & Hpv & He & Hrv).
  destruct ((ru =? rv) && ((pu =? pv) || (pu =? pv + 1))) eqn:Hno; [discriminate|].
  destruct (c_group (p_client d i)) as [g|] eqn:Eg; [|discriminate]. cbv zeta.
  set (others := filter _ _).
  assert (Ki : i < p_numClients d) by (apply (known_at d p ru A (AClient i) B P Mu)).
  destruct (do_clients d (st_data d h ev St) i Ki) as (_ & _ & _ & Gi). destruct (Gi g Eg) as (Hg & Hig & _). clear Gi.
  assert (Oth : forall j, In j others -> In j (g_clients (p_group d g)) /\ j <> i /\ tot p (AClient j) = 0 /\ known d (AClient j)).
  { intros j Hj. apply filter_In in Hj as [Hj Hji]. apply negb_true_iff, Nat.eqb_neq in Hji. repeat split; auto.
    - destruct (Nat.eq_dec (tot p (AClient j)) 0) as [|Z]; [assumption|exfalso]. apply Hji. apply (G g j i Hg Hj Hig); [lia|].
      apply (tot_In p ru). rewrite Mu. apply in_elt.
    - cbn [known]. destruct (do_groups d (st_data d h ev St) g Hg) as (_ & GG). apply (GG j Hj). }
  clearbody others.
  destruct (client_out d ev p ru A B i P Hru Mu) as (P1 & _ & T0 & T1 & C1 & _). set (p1 := upd p ru (A ++ B)) in *.
  assert (Fin : forall j C1 D1 e, In j others -> mid_at p1 rv = C1 ++ D1 -> ends v rv C1 ->
     (fine_mid d (rveh d rv) (C1 ++ AClient j :: D1) -> has_visit (C1 ++ AClient j :: D1) = true ->
       e = (c_prize (p_client d i) - c_prize (p_client d j) - rcost d ev (rveh d ru) (mid_at p ru) + rcost d ev (rveh d ru) (A ++ B)
         - rcost d ev (rveh d rv) (C1 ++ D1) + rcost d ev (rveh d rv) (C1 ++ AClient j :: D1))%Z) ->
     exists i0 j0 g0 p2, AClient i = AClient i0 /\ c_group (p_client d i0) = Some g0 /\ In j0 (g_clients (p_group d g0)) /\ j0 <> i0 /\ tot p (AClient j0) = 0 /\
       removed p (AClient i) p2 /\ inserted p2 (AClient j0) v (apply_alternative (MAlt j) p (AClient i) v) /\ done d ev p (apply_alternative (MAlt j) p (AClient i) v) e).
  { intros j C' D' e Hj Hm1 He1 Ee. destruct (Oth j Hj) as (O1 & O2 & O3 & O4). exists i, j, g, p1.
    assert (L1 : rv < length p1) by (unfold p1; rewrite upd_length; exact Hrv).
    assert (Tj : tot p1 (AClient j) = 0) by (rewrite T1 by congruence; exact O3).
    destruct (client_in p1 rv C' D' j P1 L1 Hm1 O4 Tj) as (Q1 & Q2 & Q3 & Q4).
    unfold apply_alternative. rewrite (remove_act_ok d p (AClient i) ru A B) by first [left; exact P | reflexivity | assumption]. fold p1.
    rewrite (insert_after_ok d p1 v (AClient j) rv C' D') by first [left; exact P1 | assumption | unfold p1; destruct v; cbn [vref_ok] in *; rewrite ?upd_length; exact Hv].
    split; [reflexivity|]. split; [exact Eg|]. split; [exact O1|]. split; [exact O2|]. split; [exact O3|].
    split; [apply Rem; assumption|]. split; [constructor; assumption|]. constructor; [exact Q1|].
    rewrite Q3, C1, Ee by assumption. lia. }
  destruct (Nat.eqb_spec ru rv) as [->|Hne]; cbn [andb] in Hno.
  - apply orb_false_iff in Hno as [N1 N2]. apply Nat.eqb_neq in N1, N2.
    destruct (trip_of _ _ =? trip_of _ _) eqn:HT; cbn [negb]; [|discriminate]. apply Nat.eqb_eq in HT.
    intros H. apply (f_equal fst) in H. cbn [fst] in H. apply first_improving_inv in H as (j & Hj & -> & Hneg & ->).
    destruct (two_spots p rv A (AClient i) B C D v Hv Mu Mv He ltac:(lia) ltac:(lia)) as [Late Early].
    destruct (Nat.ltb_spec pu pv) as [Hlt|Hge].
    + destruct (Late ltac:(lia)) as (z & M & -> & -> & He'). rewrite Mu in HT.
      assert (RM : num_reloads (z :: M) = 0) by (apply (later_trip A (AClient i) (z :: M) D pu pv HT Hpu); lens).
      apply (Fin j (A ++ z :: M) D); auto; [unfold p1; rewrite mid_at_same by exact Hru; assoc; reflexivity|]. intros Q2 Q4.
      assert (Ev := one_eval d h ev St false (c_prize (p_client d i) - c_prize (p_client d j)) p rv A (AClient i :: (z :: M) ++ D) [btw (sync d p) rv (pu + 1) pv; SClient j] [z :: M; [AClient j]]
        (aft (sync d p) rv (pv + 1)) D ((A ++ z :: M) ++ AClient j :: D) (pu - 1) P Hru Mu ltac:(lia)).
      cbn [app] in Ev. rewrite Ev; auto.
      * replace ((A ++ z :: M) ++ D) with (A ++ (z :: M) ++ D) by (assoc; reflexivity). cbn [app]. lia.
      * apply Forall2_cons; [|apply Forall2_cons; [apply piece_client|apply Forall2_nil]].
        apply (piece_btw d p rv (A ++ [AClient i]) z M D); side Mu.
      * apply (piece_aft d p rv (A ++ AClient i :: z :: M) D); side Mu.
      * cbn [concat]. assoc. reflexivity.
    + destruct (Early ltac:(lia)) as (z & M & -> & ->).
      assert (Mu' : mid_at p rv = C ++ (z :: M) ++ AClient i :: B) by (rewrite Mu; assoc; reflexivity). rewrite Mu' in HT.
      assert (RM : num_reloads (z :: M) = 0) by (apply (earlier_trip C (z :: M) (AClient i) B pu pv HT); lens).
      apply (Fin j C ((z :: M) ++ B)); auto; [unfold p1; rewrite mid_at_same by exact Hru; assoc; reflexivity|]. intros Q2 Q4.
      assert (Ev := one_eval d h ev St false (c_prize (p_client d i) - c_prize (p_client d j)) p rv C ((z :: M) ++ AClient i :: B) [SClient j; btw (sync d p) rv (pv + 1) (pu - 1)] [[AClient j]; z :: M]
        (aft (sync d p) rv (pu + 1)) B (C ++ AClient j :: (z :: M) ++ B) pv P Hru Mu' Hpv).
      cbn [app] in Ev, Q2, Q4 |- *. rewrite Ev; auto.
      * rewrite Mu'. replace ((C ++ z :: M) ++ B) with (C ++ (z :: M) ++ B) by (assoc; reflexivity). cbn [app]. lia.
      * apply Forall2_cons; [apply piece_client|]. apply Forall2_cons; [|apply Forall2_nil].
        apply (piece_btw d p rv C z M (AClient i :: B)); side Mu.
      * apply (piece_aft d p rv (C ++ (z :: M) ++ [AClient i]) B); side Mu.
      * cbn [concat]. assoc. reflexivity.
  - match goal with |- context [remove_cost rc ?u ?f] => destruct (remove_cost rc u f) as [cost rc2] eqn:ER; assert (EF : f = alt_fresh p ru pu) end.
    { unfold alt_fresh. rewrite Mu, kind_at_app by exact Hpu. reflexivity. }
    rewrite EF in ER. destruct (remove_cost_valid _ p rc (AClient i) ru pu cost rc2 Hrc Fu ER) as [-> _]. clear ER EF.
    rewrite (alt_fresh_ok p ru A B i pu P Hru Mu Hpu).
    intros H. apply (f_equal fst) in H. cbn [fst] in H. apply first_improving_inv in H as (j & Hj & -> & Hneg & ->).
    assert (Mv1 : mid_at p1 rv = C ++ D) by (unfold p1; rewrite mid_at_other by exact Hne; exact Mv).
    apply (Fin j C D); auto. intros Q2 Q4.
    match goal with |- context [dcost d ev false ?o _ _] => assert (Ev := one_eval d h ev St false o p rv C D [SClient j] [[AClient j]] (aft (sync d p) rv (pv + 1)) D (C ++ AClient j :: D) pv P Hrv Mv Hpv) end.
    cbn [app concat] in Ev. rewrite Ev; auto.
    + rewrite <- Mv. lia.
    + apply Forall2_cons; [apply piece_client|apply Forall2_nil].
    + apply (piece_aft d p rv C D); side Mv.
Qed.

(** ** RelocateWithDepot *)
Definition dep_fresh (p : plan) (r pos : nat) : Z :=
  let s := sync d p in
  if (nClients s r =? 1) && (nShipments s r =? 0) then (0 - pcost ev s r)%Z
  else dcost d ev true 0 (bef s r (pos - 1)) [aft s r (pos + 1)].
Lemma best_depot_inv f first l : forall b z m, best_depot f first l b = (z, m) ->
  (z, m) = b \/ exists x, In x l /\ z = f x /\ m = MDepot first x.
Proof.
  induction l as [|x l IH]; intros b z m; cbn [best_depot]; [intros <-; left; reflexivity|]. cbv zeta.
  intros H. apply IH in H as [H|(y & Hy & R)].
  - destruct (f x <? fst b)%Z; [|left; exact H]. injection H as -> ->. right. exists x. split; [left; reflexivity|auto].
  - right. exists y. split; [right; exact Hy|exact R].
Qed.
Theorem with_depot_ok p rc u v delta mv rc' : plan_ok d p -> vref_ok p v -> v <> VAct u -> rc_valid (dep_fresh p) p rc ->
  eval_with_depot d ev (sync d p) rc u v = ((delta, true, mv), rc') ->
  exists i p1, u = AClient i /\ removed p u p1 /\ with_depot d p1 u v (apply_with_depot mv p u v) /\ done d ev p (apply_with_depot mv p u v) delta.
Proof.
  intros P Hv Hvu Hrc. unfold eval_with_depot. cbn [sp_mids sync]. destruct u as [|i| |]; try discriminate.
  destruct (find_act (AClient i) p) as [[ru pu]|] eqn:Fu; [|discriminate].
  destruct (find_act_spec _ _ _ _ Fu) as (A & B & Mu & Hpu & Hru).
  destruct (locate p v) as [[rv pv]|] eqn:Fv; [|discriminate].
  destruct (locate_split p v rv pv Hv Fv) as (C & D & Mv & Hpv & He & Hrv).
  destruct (((ru =? rv) && (pu =? pv + 1)) || isEmpty (sync d p) rv) eqn:Hno; [discriminate|]. apply orb_false_iff in Hno as [Hno _].
  destruct (Z.eqb_spec (Z.of_nat (numTrips (mid_at p rv))) (v_maxTrips (rveh d rv))) as [|Htr]; [discriminate|].
  destruct ((ru =? rv) && negb _) eqn:HT; [discriminate|].
  destruct (nPickups (sync d p) rv pv =? nDeliveries (sync d p) rv pv) eqn:Hcl; cbn [negb]; [|discriminate].
  apply Nat.eqb_eq in Hcl. rewrite Hpv in Hcl. pose proof (closed_at d p P rv C D Hrv Mv Hcl) as SC. clear Hcl.
  assert (Trips : (Z.of_nat (num_reloads (mid_at p rv) + 2) <= v_maxTrips (rveh d rv))%Z).
  { pose proof (wf_trips' d p rv P Hrv) as T. unfold trips_fit in T. unfold numTrips in Htr. lia. }
  assert (Ki : known d (AClient i)) by (apply (known_at d p ru A (AClient i) B P Mu)).
  destruct (client_out d ev p ru A B i P Hru Mu) as (P1 & _ & T0 & T1 & C1 & _). set (p1 := upd p ru (A ++ B)) in *.
  assert (Reld : forall x, In x (v_reload (rveh d rv)) -> x < p_numDepots d).
  { intros x Hx. pose proof (pk_veh d p rv P Hrv) as V. apply (do_vehicles d (st_data d h ev St) (rveh d rv) V). exact Hx. }
  assert (Fin : forall first x C1 D1 e, In x (v_reload (rveh d rv)) -> mid_at p1 rv = C1 ++ D1 -> ends v rv C1 -> ships_ok C1 ->
     num_reloads (C1 ++ D1) = num_reloads (mid_at p rv) ->
     let w := if (first : bool) then [ADepot x; AClient i] else [AClient i; ADepot x] in
     (fine_mid d (rveh d rv) (C1 ++ w ++ D1) -> has_visit (C1 ++ w ++ D1) = true ->
       e = (- rcost d ev (rveh d ru) (mid_at p ru) + rcost d ev (rveh d ru) (A ++ B)
         - rcost d ev (rveh d rv) (C1 ++ D1) + rcost d ev (rveh d rv) (C1 ++ w ++ D1))%Z) ->
     exists i0 p2, AClient i = AClient i0 /\ removed p (AClient i) p2 /\ with_depot d p2 (AClient i) v (apply_with_depot (MDepot first x) p (AClient i) v) /\
       done d ev p (apply_with_depot (MDepot first x) p (AClient i) v) e).
  { intros first x C' D' e Hx Hm1 He1 SC1 HR w Ee. exists i, p1.
    assert (L1 : rv < length p1) by (unfold p1; rewrite upd_length; exact Hrv).
    destruct (client_in p1 rv C' D' i P1 L1 Hm1 Ki T0) as (Q1 & Q2 & Q3 & Q4). set (p2 := upd p1 rv (C' ++ AClient i :: D')) in *.
    assert (L2 : rv < length p2) by (unfold p2; rewrite upd_length; exact L1).
    assert (M2 : mid_at p2 rv = C' ++ AClient i :: D') by (unfold p2; apply mid_at_same; exact L1).
    assert (Ea : apply_with_depot (MDepot first x) p (AClient i) v = upd p1 rv (C' ++ w ++ D')).
    { unfold apply_with_depot. rewrite (remove_act_ok d p (AClient i) ru A B) by first [left; exact P | reflexivity | assumption]. fold p1.
      assert (Hv1 : vref_ok p1 v) by (unfold p1; destruct v; cbn [vref_ok] in *; rewrite ?upd_length; exact Hv).
      rewrite (locate_at p1 v rv C' D' (length C')) by first [assumption | reflexivity | apply (ref_once d p1 v P1 Hv1)].
      rewrite (ins_eq p1 rv _ (AClient i) C' D') by auto. fold p2. unfold w. destruct first.
      - rewrite (ins_eq p2 rv _ (ADepot x) C' (AClient i :: D')) by auto. unfold p2. apply upd_upd.
      - rewrite (ins_eq p2 rv _ (ADepot x) (C' ++ [AClient i]) D') by first [solve [lens] | rewrite M2; assoc; reflexivity]. unfold p2. rewrite upd_upd. assoc. reflexivity. }
    assert (Rn : num_reloads (C' ++ AClient i :: D') = num_reloads (mid_at p rv)) by (rewrite <- HR, !num_reloads_app, num_reloads_cons; cbn [a_isDepot]; lia).
    assert (X : plan_ok d (upd p2 rv (C' ++ w ++ D')) /\ fine_mid d (rveh d rv) (C' ++ w ++ D')).
    { unfold w. destruct first.
      - apply (add_depot d p2 rv C' x (AClient i :: D')); auto. rewrite Rn. exact Trips.
      - pose proof (add_depot d p2 rv (C' ++ [AClient i]) x D' Q1 L2) as X. revert X. assoc. intros X. apply X; auto.
        + apply ships_app; [exact SC1|apply ships_client].
        + rewrite Rn. exact Trips. }
    destruct X as [X1 X2].
    assert (Hvis : has_visit (C' ++ w ++ D') = true).
    { apply (has_visit_in _ (AClient i)); [|reflexivity|apply (fine_ships d _ _ X2)]. unfold w. apply in_or_app. right. destruct first; cbn; auto. }
    assert (Eu : upd p2 rv (C' ++ w ++ D') = upd p1 rv (C' ++ w ++ D')) by (unfold p2; apply upd_upd).
    rewrite Ea, <- Eu. split; [reflexivity|]. split; [apply Rem; assumption|]. split.
    { rewrite Eu. unfold w. destruct first; [apply Dep_before|apply Dep_after]; assumption. }
    constructor; [exact X1|].
    rewrite cost_one_move; [|exact L2|].
    - rewrite Q3, C1, (Ee X2 Hvis), M2. lia.
    - intros a Ha. rewrite M2. unfold w. destruct first; counts; destruct a; try discriminate; cbn [a_eqb]; lia. }
  set (veh := rveh d rv) in *. cbv zeta.
  (* the chosen depot *)
  assert (Pick : forall f1 f2 : nat -> Z, forall b1 b2 : bool,
     improving (fst (if b2 then (if b1 then (MAXV, MNone) else best_depot f1 true (v_reload veh) (MAXV, MNone)) else best_depot f2 false (v_reload veh) (if b1 then (MAXV, MNone) else best_depot f1 true (v_reload veh) (MAXV, MNone))))
               (snd (if b2 then (if b1 then (MAXV, MNone) else best_depot f1 true (v_reload veh) (MAXV, MNone)) else best_depot f2 false (v_reload veh) (if b1 then (MAXV, MNone) else best_depot f1 true (v_reload veh) (MAXV, MNone))))
       = (delta, true, mv) ->
     exists first x, In x (v_reload veh) /\ delta = (if (first : bool) then f1 x else f2 x) /\ (delta < 0)%Z /\ mv = MDepot first x).
  { clear. intros f1 f2 b1 b2 H. apply improving_inv in H as (Hneg & -> & ->).
    assert (X1 : forall z m, (if b1 then (MAXV, MNone) else best_depot f1 true (v_reload veh) (MAXV, MNone)) = (z, m) ->
       (z, m) = (MAXV, MNone) \/ exists x, In x (v_reload veh) /\ z = f1 x /\ m = MDepot true x).
    { intros z m. destruct b1; [intros <-; auto|]. apply best_depot_inv. }
    destruct (if b1 then (MAXV, MNone) else best_depot f1 true (v_reload veh) (MAXV, MNone)) as [z1 m1]. specialize (X1 z1 m1 eq_refl).
    assert (X2 : forall z m, (if b2 then (z1, m1) else best_depot f2 false (v_reload veh) (z1, m1)) = (z, m) ->
       (z, m) = (z1, m1) \/ exists x, In x (v_reload veh) /\ z = f2 x /\ m = MDepot false x).
    { intros z m. destruct b2; [intros <-; auto|]. apply best_depot_inv. }
    destruct (if b2 then (z1, m1) else best_depot f2 false (v_reload veh) (z1, m1)) as [z2 m2]. specialize (X2 z2 m2 eq_refl). cbn [fst snd] in *.
    destruct X2 as [X2|(x & Hx & -> & ->)]; [|exists false, x; auto]. injection X2 as -> ->.
    destruct X1 as [X1|(x & Hx & -> & ->)]; [|exists true, x; auto]. injection X1 as -> ->. exfalso. revert Hneg. apply Zle_not_lt. discriminate. }
  destruct (Nat.eqb_spec ru rv) as [->|Hne]; cbn [andb] in Hno, HT.
  - apply Nat.eqb_neq in Hno. apply negb_false_iff, Nat.eqb_eq in HT.
    assert (Hpuv : pu <> pv).
    { intros Z. destruct v as [a|k]; cbn [ends] in He; [|destruct He as [_ ->]; cbn [length] in *; lia]. destruct He as (C' & ->).
      apply Hvu. f_equal. rewrite Mu, <- app_assoc in Mv. cbn [app] in Mv. apply (f_equal (fun l => nth (length A) l a)) in Mv.
      rewrite nth_middle in Mv. replace (length A) with (length C') in Mv by lens. rewrite nth_middle in Mv. congruence. }
    intros H. apply (f_equal fst) in H. cbn [fst] in H. apply Pick in H as (first & x & Hx & -> & Hneg & ->). clear Pick.
    destruct (two_spots p rv A (AClient i) B C D v Hv Mu Mv He ltac:(lia) ltac:(lia)) as [Late Early].
    destruct (Nat.ltb_spec pu pv) as [Hlt|Hge].
    + destruct (Late ltac:(lia)) as (z & M & -> & -> & He'). rewrite Mu in HT.
      assert (RM : num_reloads (z :: M) = 0) by (apply (later_trip A (AClient i) (z :: M) D pu pv HT Hpu); lens).
      assert (SC1 : ships_ok (A ++ z :: M)) by (apply (ships_delete A [AClient i] (z :: M)); [exact SC|apply ships_client|reflexivity|];
         intros k; pose proof (mid_once d p rv P (APickup k) eq_refl) as O; rewrite Mu in O; counts).
      apply (Fin first x (A ++ z :: M) D); auto; [unfold p1; rewrite mid_at_same by exact Hru; assoc; reflexivity|rewrite Mu; clear; rewrite ?num_reloads_app, ?num_reloads_cons, ?num_reloads_app, ?num_reloads_cons; cbn [a_isDepot]; lia|]. cbv zeta. intros Q2 Q4.
      destruct first.
      * assert (Ev := one_eval d h ev St false 0 p rv A (AClient i :: (z :: M) ++ D) [btw (sync d p) rv (pu + 1) pv; SDepot x; at_ (sync d p) rv pu] [z :: M; [ADepot x]; [AClient i]]
          (aft (sync d p) rv (pv + 1)) D ((A ++ z :: M) ++ [ADepot x; AClient i] ++ D) (pu - 1) P Hru Mu ltac:(lia)).
        cbn [app] in Ev, Q2, Q4 |- *. rewrite Ev; auto.
        -- replace ((A ++ z :: M) ++ D) with (A ++ (z :: M) ++ D) by (assoc; reflexivity). cbn [app]. fold veh. lia.
        -- apply Forall2_cons; [|apply Forall2_cons; [apply piece_depot|apply Forall2_cons; [|apply Forall2_nil]]].
           ++ apply (piece_btw d p rv (A ++ [AClient i]) z M D); side Mu.
           ++ apply (piece_at d p rv A (AClient i) ((z :: M) ++ D)); side Mu.
        -- apply (piece_aft d p rv (A ++ AClient i :: z :: M) D); side Mu.
        -- cbn [concat]. assoc. reflexivity.
      * assert (Ev := one_eval d h ev St false 0 p rv A (AClient i :: (z :: M) ++ D) [btw (sync d p) rv (pu + 1) pv; at_ (sync d p) rv pu; SDepot x] [z :: M; [AClient i]; [ADepot x]]
          (aft (sync d p) rv (pv + 1)) D ((A ++ z :: M) ++ [AClient i; ADepot x] ++ D) (pu - 1) P Hru Mu ltac:(lia)).
        cbn [app] in Ev, Q2, Q4 |- *. rewrite Ev; auto.
        -- replace ((A ++ z :: M) ++ D) with (A ++ (z :: M) ++ D) by (assoc; reflexivity). cbn [app]. fold veh. lia.
        -- apply Forall2_cons; [|apply Forall2_cons; [|apply Forall2_cons; [apply piece_depot|apply Forall2_nil]]].
           ++ apply (piece_btw d p rv (A ++ [AClient i]) z M D); side Mu.
           ++ apply (piece_at d p rv A (AClient i) ((z :: M) ++ D)); side Mu.
        -- apply (piece_aft d p rv (A ++ AClient i :: z :: M) D); side Mu.
        -- cbn [concat]. assoc. reflexivity.
    + destruct (Early ltac:(lia)) as (z & M & -> & ->).
      assert (Mu' : mid_at p rv = C ++ (z :: M) ++ AClient i :: B) by (rewrite Mu; assoc; reflexivity). rewrite Mu' in HT.
      assert (RM : num_reloads (z :: M) = 0) by (apply (earlier_trip C (z :: M) (AClient i) B pu pv HT); lens).
      apply (Fin first x C ((z :: M) ++ B)); auto; [unfold p1; rewrite mid_at_same by exact Hru; assoc; reflexivity|rewrite Mu'; clear; repeat rewrite ?num_reloads_app, ?num_reloads_cons; cbn [a_isDepot]; lia|]. cbv zeta. intros Q2 Q4.
      destruct first.
      * assert (Ev := one_eval d h ev St false 0 p rv C ((z :: M) ++ AClient i :: B) [SDepot x; at_ (sync d p) rv pu; btw (sync d p) rv (pv + 1) (pu - 1)] [[ADepot x]; [AClient i]; z :: M]
          (aft (sync d p) rv (pu + 1)) B (C ++ [ADepot x; AClient i] ++ (z :: M) ++ B) pv P Hru Mu' Hpv).
        cbn [app] in Ev, Q2, Q4 |- *. rewrite Ev; auto.
        -- rewrite Mu'. replace ((C ++ z :: M) ++ B) with (C ++ (z :: M) ++ B) by (assoc; reflexivity). cbn [app]. fold veh. lia.
        -- apply Forall2_cons; [apply piece_depot|]. apply Forall2_cons; [|apply Forall2_cons; [|apply Forall2_nil]].
           ++ apply (piece_at d p rv (C ++ z :: M) (AClient i) B); side Mu.
           ++ apply (piece_btw d p rv C z M (AClient i :: B)); side Mu.
        -- apply (piece_aft d p rv (C ++ (z :: M) ++ [AClient i]) B); side Mu.
        -- cbn [concat]. assoc. reflexivity.
      * assert (Ev := one_eval d h ev St false 0 p rv C ((z :: M) ++ AClient i :: B) [at_ (sync d p) rv pu; SDepot x; btw (sync d p) rv (pv + 1) (pu - 1)] [[AClient i]; [ADepot x]; z :: M]
          (aft (sync d p) rv (pu + 1)) B (C ++ [AClient i; ADepot x] ++ (z :: M) ++ B) pv P Hru Mu' Hpv).
        cbn [app] in Ev, Q2, Q4 |- *. rewrite Ev; auto.
        -- rewrite Mu'. replace ((C ++ z :: M) ++ B) with (C ++ (z :: M) ++ B) by (assoc; reflexivity). cbn [app]. fold veh. lia.
        -- apply Forall2_cons; [|apply Forall2_cons; [apply piece_depot|apply Forall2_cons; [|apply Forall2_nil]]].
           ++ apply (piece_at d p rv (C ++ z :: M) (AClient i) B); side Mu.
           ++ apply (piece_btw d p rv C z M (AClient i :: B)); side Mu.
        -- apply (piece_aft d p rv (C ++ (z :: M) ++ [AClient i]) B); side Mu.
        -- cbn [concat]. assoc. reflexivity.
  - match goal with |- context [remove_cost rc ?u ?f] => destruct (remove_cost rc u f) as [cost rc2] eqn:ER; change f with (dep_fresh p ru pu) in ER end.
    destruct (remove_cost_valid _ p rc (AClient i) ru pu cost rc2 Hrc Fu ER) as [-> _]. clear ER.
    assert (EF : dep_fresh p ru pu = (0 - rcost d ev (rveh d ru) (mid_at p ru) + rcost d ev (rveh d ru) (A ++ B))%Z) by (apply (client_fresh p ru A B i pu 0 P Hru Mu Hpu)).
    rewrite EF. clear EF. set (cost := (0 - _ + _)%Z).
    intros H. apply (f_equal fst) in H. cbn [fst] in H. apply Pick in H as (first & x & Hx & -> & Hneg & ->). clear Pick.
    assert (Mv1 : mid_at p1 rv = C ++ D) by (unfold p1; rewrite mid_at_other by exact Hne; exact Mv).
    apply (Fin first x C D); auto; [rewrite Mv; reflexivity|]. cbv zeta. intros Q2 Q4.
    pose proof (pk_veh d p ru P Hru) as Vu.
    pose proof (piece_at d p ru A (AClient i) B pu Hru Vu Mu Hpu) as Pu.
    destruct first.
    + assert (Ev := one_eval d h ev St false cost p rv C D [SDepot x; at_ (sync d p) ru pu] [[ADepot x]; [AClient i]] (aft (sync d p) rv (pv + 1)) D (C ++ [ADepot x; AClient i] ++ D) pv P Hrv Mv Hpv).
      cbn [app concat] in Ev, Q2, Q4 |- *. rewrite Ev; auto.
      * rewrite <- Mv. unfold cost. fold veh. lia.
      * apply Forall2_cons; [apply piece_depot|]. apply Forall2_cons; [exact Pu|apply Forall2_nil].
      * apply (piece_aft d p rv C D); side Mv.
    + assert (Ev := one_eval d h ev St false cost p rv C D [at_ (sync d p) ru pu; SDepot x] [[AClient i]; [ADepot x]] (aft (sync d p) rv (pv + 1)) D (C ++ [AClient i; ADepot x] ++ D) pv P Hrv Mv Hpv).
      cbn [app concat] in Ev, Q2, Q4 |- *. rewrite Ev; auto.
      * rewrite <- Mv. unfold cost. fold veh. lia.
      * apply Forall2_cons; [exact Pu|]. apply Forall2_cons; [apply piece_depot|apply Forall2_nil].
      * apply (piece_aft d p rv C D); side Mv.
Qed.
End Edit2.
