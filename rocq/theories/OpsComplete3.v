(** No operator overlooks an improving move of its own kind: RelocateDelivery, RelocatePickup, ReplaceOptionalShipment,
    RelocateAlternative and RelocateWithDepot. *)
From Verif Require Import Base DurationSegment Data LoadSegment SearchRoute RouteDur Valid ProposalDur ProposalRest Route RouteSpec
  RouteFacts2 RouteFacts3 Cost CostFacts DeltaFacts SearchFacts DataCtor SearchSpace SearchNodes SearchSeq SearchLoad Ops PlanFacts ShipState
  OpsBase OpsGen OpsMove OpsRelocate OpsSwap OpsOne OpsEdit OpsEdit2 LocalOpt OpsComplete OpsComplete2.
Local Open Scope nat_scope.

(** The moves that RelocateAlternative considers: another member [j] of the group of [i] takes its place, after [v] in another
    route or elsewhere in the trip. *)
Inductive can_alternate (d : pdata) (p : plan) (i : nat) (v : vref) : plan -> Prop :=
| CA_across g j ru rv A B C D : c_group (p_client d i) = Some g -> In j (g_clients (p_group d g)) -> j <> i ->
    ru <> rv -> ru < length p -> rv < length p -> mid_at p ru = A ++ AClient i :: B -> mid_at p rv = C ++ D -> ends v rv C ->
    can_alternate d p i v (upd (upd p ru (A ++ B)) rv (C ++ AClient j :: D))
| CA_later g j r A M D : c_group (p_client d i) = Some g -> In j (g_clients (p_group d g)) -> j <> i ->
    r < length p -> mid_at p r = A ++ AClient i :: M ++ D -> M <> [] -> num_reloads M = 0 -> ends v r (A ++ AClient i :: M) ->
    can_alternate d p i v (upd (upd p r (A ++ M ++ D)) r ((A ++ M) ++ AClient j :: D))
| CA_earlier g j r C M B : c_group (p_client d i) = Some g -> In j (g_clients (p_group d g)) -> j <> i ->
    r < length p -> mid_at p r = C ++ M ++ AClient i :: B -> M <> [] -> num_reloads M = 0 -> ends v r C ->
    can_alternate d p i v (upd (upd p r ((C ++ M) ++ B)) r (C ++ AClient j :: M ++ B)).

(** The client together with a reload depot, before or after it. *)
Definition reloading (first : bool) (x i : nat) : list activity := if first then [ADepot x; AClient i] else [AClient i; ADepot x].
(** The vehicle of the route may reload at [x], has a trip to spare, and there is no depot next to the new one. *)
Definition reload_fits (d : pdata) (p : plan) (r : nat) (first : bool) (x : nat) (D : list activity) : Prop :=
  In x (v_reload (rveh d r)) /\ (Z.of_nat (num_reloads (mid_at p r) + 1) < v_maxTrips (rveh d r))%Z /\
  has_visit (mid_at p r) = true /\ (first = false -> forall y D', D <> ADepot y :: D').
(** The moves that RelocateWithDepot considers. *)
Inductive can_reload (d : pdata) (p : plan) (i : nat) (v : vref) : plan -> Prop :=
| CD_across first x ru rv A B C D : ru <> rv -> ru < length p -> rv < length p -> mid_at p ru = A ++ AClient i :: B -> mid_at p rv = C ++ D ->
    ends v rv C -> ships_ok C -> reload_fits d p rv first x D ->
    can_reload d p i v (upd (upd p ru (A ++ B)) rv (C ++ reloading first x i ++ D))
| CD_later first x r A M D : r < length p -> mid_at p r = A ++ AClient i :: M ++ D -> M <> [] -> num_reloads M = 0 -> ends v r (A ++ AClient i :: M) ->
    ships_ok (A ++ AClient i :: M) -> reload_fits d p r first x D ->
    can_reload d p i v (upd (upd p r (A ++ M ++ D)) r ((A ++ M) ++ reloading first x i ++ D))
| CD_earlier first x r C M B : r < length p -> mid_at p r = C ++ M ++ AClient i :: B -> M <> [] -> num_reloads M = 0 -> ends v r C ->
    ships_ok C -> reload_fits d p r first x M ->
    can_reload d p i v (upd (upd p r ((C ++ M) ++ B)) r (C ++ reloading first x i ++ M ++ B)).

Lemma best_depot_le f first l : forall b, (fst (best_depot f first l b) <= fst b)%Z /\ forall x, In x l -> (fst (best_depot f first l b) <= f x)%Z.
Proof.
  induction l as [|x l IH]; intros b; cbn [best_depot]; [split; [lia|intros ? []]|]. cbv zeta.
  destruct (IH (if (f x <? fst b)%Z then (f x, MDepot first x) else b)) as [H1 H2].
  destruct (Z.ltb_spec (f x) (fst b)); cbn [fst] in *; split; try lia; intros y [<-|Hy]; auto; lia.
Qed.
Lemma best_depot_refuses f1 f2 l (b2 : bool) :
  let b := best_depot f1 true l (MAXV, MNone) in
  let b' := if b2 then b else best_depot f2 false l b in
  yes (improving (fst b') (snd b')) = false ->
  forall first x, In x l -> (first = false -> b2 = false) -> (0 <= if (first : bool) then f1 x else f2 x)%Z.
Proof.
  intros b b' H first x Hx Hf. unfold yes, improving in H. cbn [fst snd] in H. apply Z.ltb_ge in H.
  destruct (best_depot_le f1 true l (MAXV, MNone)) as [_ H1]. specialize (H1 x Hx). fold b in H1.
  destruct (best_depot_le f2 false l b) as [H2 H3]. specialize (H3 x Hx). unfold b' in H.
  destruct first.
  - destruct b2; lia.
  - rewrite Hf in H by reflexivity. lia.
Qed.
Lemma same_trip_later A u M D : a_isDepot u = false -> num_reloads M = 0 ->
  trip_of (A ++ u :: M ++ D) (length A + 1) = trip_of (A ++ u :: M ++ D) (length A + 1 + length M).
Proof.
  intros Hu RM. transitivity (num_reloads A).
  - replace (A ++ u :: M ++ D) with ((A ++ [u]) ++ M ++ D) by (assoc; reflexivity).
    replace (length A + 1) with (length (A ++ [u])) by lens. rewrite trip_at. autorewrite with rels. rewrite Hu. lia.
  - replace (A ++ u :: M ++ D) with ((A ++ u :: M) ++ D) by (assoc; reflexivity).
    replace (length A + 1 + length M) with (length (A ++ u :: M)) by lens. rewrite trip_at. autorewrite with rels. rewrite Hu. lia.
Qed.
Lemma same_trip_earlier C M u B : a_isDepot u = false -> num_reloads M = 0 ->
  trip_of (C ++ M ++ u :: B) (length C + length M + 1) = trip_of (C ++ M ++ u :: B) (length C).
Proof.
  intros Hu RM. rewrite trip_at. replace (C ++ M ++ u :: B) with ((C ++ M ++ [u]) ++ B) by (assoc; reflexivity).
  replace (length C + length M + 1) with (length (C ++ M ++ [u])) by lens. rewrite trip_at. autorewrite with rels. rewrite Hu. lia.
Qed.

Ltac rel0 := autorewrite with rels in *; cbn [a_isDepot] in *; lia.
Section Complete3.
Variable d : pdata.
Variable h : Z.
Variable ev : evaluator.
Hypothesis St : setting d h ev.

(** ** RelocateDelivery *)
Theorem delivery_complete p i p' : plan_ok d p -> delivery_moved p i p' ->
  yes (eval_delivery d ev (sync d p) (APickup i)) = false -> (plan_cost d ev p <= plan_cost d ev p')%Z.
Proof.
  intros P Mv. destruct Mv as [r A M B M' B' Hr Hm E RM']. unfold eval_delivery. cbn [sp_mids sync].
  destruct (pair_known d p r A M B i P Hr Hm) as (RM & F1 & F2). rewrite F1, F2.
  destruct (rejoin d p r A M B A M' B' i P Hr Hm RM ltac:(rewrite E; reflexivity) RM') as (Q1 & Q2 & Q3 & Q4).
  intros H. pose proof (first_improving_none _ _ _ _ H) as H1. clear H. cbn beta in H1.
  assert (Cost : plan_cost d ev (upd p r (A ++ APickup i :: M' ++ ADelivery i :: B')) =
     (plan_cost d ev p + (0 - rcost d ev (rveh d r) (mid_at p r) + rcost d ev (rveh d r) (A ++ APickup i :: M' ++ ADelivery i :: B')))%Z).
  { rewrite cost_one_move by (auto; intros; apply Q3). lia. }
  rewrite Cost. clear Cost.
  destruct (Nat.le_gt_cases (length M) (length M')) as [L|L].
  - (* later *)
    destruct (app_split M B M' B' (eq_sym E) L) as (M2 & -> & ->).
    destruct M2 as [|z M2].
    { rewrite app_nil_r. cbn [app] in Hm. rewrite <- Hm. lia. }
    assert (RM2 : num_reloads (z :: M2) = 0) by reloads.
    set (pa := length (A ++ [APickup i]) + length (M ++ ADelivery i :: z :: M2)).
    assert (Hpa : pa = length A + length M + length M2 + 3) by (unfold pa; lens).
    specialize (H1 pa). assert (Hin : In pa (trip_rest (mid_at p r) (length A + 1))).
    { rewrite Hm. replace (A ++ APickup i :: M ++ ADelivery i :: (z :: M2) ++ B') with ((A ++ [APickup i]) ++ (M ++ ADelivery i :: z :: M2) ++ B') by (assoc; reflexivity).
      replace (length A + 1) with (length (A ++ [APickup i])) by lens. apply trip_rest_in; [rel0|destruct M; discriminate]. }
    assert (Hle : (0 <= dcost d ev false 0 (bef (sync d p) r (length A + length M + 2 - 1)) [btw (sync d p) r (length A + length M + 2 + 1) pa; SDelivery i; aft (sync d p) r (pa + 1)])%Z).
    { destruct (Nat.ltb_spec (length A + length M + 2) pa); [|lia]. apply H1. apply filter_In. split; [right; exact Hin|].
      apply andb_true_iff. split; apply negb_true_iff, Nat.eqb_neq; lia. }
    clearbody pa. eapply refuse_le'; [exact Hle| |reflexivity].
    apply (one_sign d h ev St false 0 p r (A ++ APickup i :: M) (ADelivery i :: (z :: M2) ++ B') [btw (sync d p) r (length A + length M + 2 + 1) pa; SDelivery i] [z :: M2; [ADelivery i]]
       (aft (sync d p) r (pa + 1)) B' (A ++ APickup i :: (M ++ z :: M2) ++ ADelivery i :: B')); auto.
    + rewrite Hm. assoc. reflexivity.
    + lens.
    + apply Forall2_cons; [|apply Forall2_cons; [apply piece_delivery|apply Forall2_nil]].
      apply (piece_btw d p r (A ++ APickup i :: M ++ [ADelivery i]) z M2 B'); side Hm.
    + apply (piece_aft d p r (A ++ APickup i :: M ++ ADelivery i :: z :: M2) B'); side Hm.
    + flat.
  - (* earlier *)
    destruct (app_split M' B' M B E ltac:(lia)) as (M2 & -> & ->).
    destruct M2 as [|z M2]; [rewrite app_nil_r in L; lia|].
    set (pa := length A + 1 + length M').
    specialize (H1 pa). assert (Hin : In pa (length A + 1 :: trip_rest (mid_at p r) (length A + 1))).
    { destruct M' as [|y M']; [left; unfold pa; cbn [length]; lia|right]. rewrite Hm.
      replace (A ++ APickup i :: ((y :: M') ++ z :: M2) ++ ADelivery i :: B) with ((A ++ [APickup i]) ++ (y :: M') ++ (z :: M2) ++ ADelivery i :: B) by (assoc; reflexivity).
      unfold pa. replace (length A + 1) with (length (A ++ [APickup i])) by lens. apply trip_rest_in; [rel0|discriminate]. }
    set (pd := length A + length (M' ++ z :: M2) + 2) in *.
    assert (Hpd : pd = pa + length M2 + 2) by (unfold pa, pd; lens).
    assert (Hle : (0 <= dcost d ev false 0 (bef (sync d p) r pa) [SDelivery i; btw (sync d p) r (pa + 1) (pd - 1); aft (sync d p) r (pd + 1)])%Z).
    { destruct (Nat.ltb_spec pd pa); [lia|]. apply H1. apply filter_In. split; [exact Hin|].
      apply andb_true_iff. split; apply negb_true_iff, Nat.eqb_neq; lia. }
    eapply refuse_le'; [exact Hle| |reflexivity].
    apply (one_sign d h ev St false 0 p r (A ++ APickup i :: M') ((z :: M2) ++ ADelivery i :: B) [SDelivery i; btw (sync d p) r (pa + 1) (pd - 1)] [[ADelivery i]; z :: M2]
       (aft (sync d p) r (pd + 1)) B (A ++ APickup i :: M' ++ ADelivery i :: (z :: M2) ++ B)); auto.
    + rewrite Hm. assoc. reflexivity.
    + unfold pa. lens.
    + apply Forall2_cons; [apply piece_delivery|]. apply Forall2_cons; [|apply Forall2_nil].
      apply (piece_btw d p r (A ++ APickup i :: M') z M2 (ADelivery i :: B)); first [solve [rewrite Hm; assoc; reflexivity] | unfold pa, pd in *; side Hm].
    + apply (piece_aft d p r (A ++ APickup i :: M' ++ (z :: M2) ++ [ADelivery i]) B); first [solve [rewrite Hm; assoc; reflexivity] | unfold pa, pd in *; side Hm].
    + flat.
Qed.

(** ** RelocatePickup *)
Theorem pickup_complete p i p' : plan_ok d p -> pickup_moved p i p' ->
  yes (eval_pickup d ev (sync d p) (APickup i)) = false -> (plan_cost d ev p <= plan_cost d ev p')%Z.
Proof.
  intros P Mv. destruct Mv as [r A M B A' M' Hr Hm E RM']. unfold eval_pickup. cbn [sp_mids sync].
  destruct (pair_known d p r A M B i P Hr Hm) as (RM & F1 & F2). rewrite F1, F2.
  destruct (rejoin d p r A M B A' M' B i P Hr Hm RM ltac:(rewrite !app_assoc, E; reflexivity) RM') as (Q1 & Q2 & Q3 & Q4).
  intros H. pose proof (first_improving_none _ _ _ _ H) as H1. clear H. cbn beta in H1.
  assert (Cost : plan_cost d ev (upd p r (A' ++ APickup i :: M' ++ ADelivery i :: B)) =
     (plan_cost d ev p + (0 - rcost d ev (rveh d r) (mid_at p r) + rcost d ev (rveh d r) (A' ++ APickup i :: M' ++ ADelivery i :: B)))%Z).
  { rewrite cost_one_move by (auto; intros; apply Q3). lia. }
  rewrite Cost. clear Cost.
  destruct (Nat.le_gt_cases (length A) (length A')) as [L|L].
  - (* later *)
    destruct (app_split A M A' M' (eq_sym E) L) as (X & -> & ->).
    destruct X as [|z X].
    { rewrite app_nil_r. cbn [app] in Hm. rewrite <- Hm. lia. }
    set (pn := length (A ++ APickup i :: z :: X) + 1).
    assert (Hpn : pn = length A + length X + 3) by (unfold pn; lens).
    specialize (H1 pn). assert (Hin : In pn (trip_back (mid_at p r) (length A + length ((z :: X) ++ M') + 2))).
    { rewrite Hm. replace (A ++ APickup i :: ((z :: X) ++ M') ++ ADelivery i :: B) with ((A ++ APickup i :: z :: X) ++ (M' ++ [ADelivery i]) ++ B) by (assoc; reflexivity).
      replace (length A + length ((z :: X) ++ M') + 2) with (length (A ++ APickup i :: z :: X) + length (M' ++ [ADelivery i])) by lens.
      apply trip_back_in; [rel0|destruct M'; discriminate]. }
    assert (Hle : (0 <= dcost d ev false 0 (bef (sync d p) r (length A + 1 - 1)) [btw (sync d p) r (length A + 1 + 1) (pn - 1); SPickup i; aft (sync d p) r pn])%Z).
    { destruct (Nat.ltb_spec (length A + 1) pn); [|lia]. apply H1. apply filter_In. split; [exact Hin|].
      apply andb_true_iff. split; apply negb_true_iff, Nat.eqb_neq; lia. }
    eapply refuse_le'; [exact Hle| |reflexivity]. clear H1 Hin Hle.
    apply (one_sign d h ev St false 0 p r A (APickup i :: ((z :: X) ++ M') ++ ADelivery i :: B) [btw (sync d p) r (length A + 1 + 1) (pn - 1); SPickup i] [z :: X; [APickup i]]
       (aft (sync d p) r pn) (M' ++ ADelivery i :: B) ((A ++ z :: X) ++ APickup i :: M' ++ ADelivery i :: B)); auto.
    + lia.
    + apply Forall2_cons; [|apply Forall2_cons; [apply piece_pickup|apply Forall2_nil]].
      apply (piece_btw d p r (A ++ [APickup i]) z X (M' ++ ADelivery i :: B)); first [solve [rewrite Hm; assoc; reflexivity] | unfold pn in *; side Hm].
    + apply (piece_aft d p r (A ++ APickup i :: z :: X) (M' ++ ADelivery i :: B)); first [solve [rewrite Hm; assoc; reflexivity] | unfold pn in *; side Hm].
    + flat.
  - (* earlier *)
    destruct (app_split A' M' A M E ltac:(lia)) as (X & -> & ->).
    destruct X as [|z X]; [rewrite app_nil_r in L; lia|].
    set (pn := length A' + 1).
    specialize (H1 pn). assert (Hin : In pn (trip_back (mid_at p r) (length (A' ++ z :: X) + length M + 2))).
    { rewrite Hm. replace ((A' ++ z :: X) ++ APickup i :: M ++ ADelivery i :: B) with (A' ++ ((z :: X) ++ APickup i :: M ++ [ADelivery i]) ++ B) by (assoc; reflexivity).
      replace (length (A' ++ z :: X) + length M + 2) with (length A' + length ((z :: X) ++ APickup i :: M ++ [ADelivery i])) by lens.
      apply trip_back_in; [rel0|discriminate]. }
    set (pu := length (A' ++ z :: X) + 1) in *.
    assert (Hpu : pu = pn + length X + 1) by (unfold pu, pn; lens).
    assert (Hle : (0 <= dcost d ev false 0 (bef (sync d p) r (pn - 1)) [SPickup i; btw (sync d p) r pn (pu - 1); aft (sync d p) r (pu + 1)])%Z).
    { destruct (Nat.ltb_spec pu pn); [lia|]. apply H1. apply filter_In. split; [exact Hin|].
      apply andb_true_iff. split; apply negb_true_iff, Nat.eqb_neq; lia. }
    eapply refuse_le'; [exact Hle| |reflexivity]. clear H1 Hin Hle.
    apply (one_sign d h ev St false 0 p r A' ((z :: X) ++ APickup i :: M ++ ADelivery i :: B) [SPickup i; btw (sync d p) r pn (pu - 1)] [[APickup i]; z :: X]
       (aft (sync d p) r (pu + 1)) (M ++ ADelivery i :: B) (A' ++ APickup i :: ((z :: X) ++ M) ++ ADelivery i :: B)); auto.
    + rewrite Hm. assoc. reflexivity.
    + unfold pn. lia.
    + apply Forall2_cons; [apply piece_pickup|]. apply Forall2_cons; [|apply Forall2_nil].
      apply (piece_btw d p r A' z X (APickup i :: M ++ ADelivery i :: B)); first [solve [rewrite Hm; assoc; reflexivity] | unfold pn, pu in *; side Hm].
    + apply (piece_aft d p r (A' ++ (z :: X) ++ [APickup i]) (M ++ ADelivery i :: B)); first [solve [rewrite Hm; assoc; reflexivity] | unfold pn, pu in *; side Hm].
    + flat.
Qed.

(** ** ReplaceOptionalShipment *)
Theorem replace_shipment_complete p i j v p' : plan_ok d p -> i < p_numShipments d -> tot p (APickup i) = 0 -> s_required (p_shipment d j) = false ->
  v = VAct (APickup j) \/ v = VAct (ADelivery j) -> ship_replaced p j i p' ->
  yes (eval_replace_shipment d ev (sync d p) (APickup i) v) = false -> (plan_cost d ev p <= plan_cost d ev p')%Z.
Proof.
  intros P K T0 Hq Hv Rp. destruct Rp as [r A M B Hr Hm].
  destruct (pair_known d p r A M B j P Hr Hm) as (RM & F1 & F2).
  set (out := (s_prize (p_shipment d j) - s_prize (p_shipment d i))%Z).
  set (e := if length A + 1 + 1 =? length A + length M + 2
               then dcost d ev false out (bef (sync d p) r (length A + 1 - 1)) [SPickup i; SDelivery i; aft (sync d p) r (length A + length M + 2 + 1)]
               else dcost d ev false out (bef (sync d p) r (length A + 1 - 1)) [SPickup i; btw (sync d p) r (length A + 1 + 1) (length A + length M + 2 - 1); SDelivery i; aft (sync d p) r (length A + length M + 2 + 1)]).
  assert (Ee : eval_replace_shipment d ev (sync d p) (APickup i) v = improving e MNone).
  { unfold eval_replace_shipment. cbn [sp_mids sync]. rewrite (proj2 (tot_find (APickup i) p) T0).
    destruct Hv as [->| ->]; rewrite F1, F2, Hq; reflexivity. }
  rewrite Ee. clear Ee Hv.
  assert (Hij : j <> i) by (intros ->; pose proof (tot_In p r (APickup i)) as T; rewrite Hm in T; specialize (T ltac:(apply in_elt)); lia).
  pose proof (ship_tot d p i P) as T0'. rewrite T0 in T0'.
  destruct (pair_out d p r A M B j P Hr Hm RM) as (P1 & _ & _ & _).
  destruct (ship_out d ev p r A M B j P Hr Hm RM) as (T1 & C1 & _). set (p1 := upd p r (A ++ M ++ B)) in *.
  assert (M1 : mid_at p1 r = A ++ M ++ B) by (unfold p1; apply mid_at_same; exact Hr).
  assert (L1 : r < length p1) by (unfold p1; rewrite upd_length; exact Hr).
  assert (U0 : tot p1 (APickup i) = 0) by (rewrite T1; auto; congruence).
  assert (U0' : tot p1 (ADelivery i) = 0) by (rewrite T1; auto; congruence).
  destruct (pair_in d p1 r A M B i P1 L1 M1 RM K U0 U0') as (Q1 & Q2).
  assert (Eupd : upd p1 r (A ++ APickup i :: M ++ ADelivery i :: B) = upd p r (A ++ APickup i :: M ++ ADelivery i :: B)) by (unfold p1; apply upd_upd).
  assert (Hvis : has_visit (A ++ APickup i :: M ++ ADelivery i :: B) = true) by (apply (has_visit_in _ (APickup i)); [apply in_elt|reflexivity|apply (fine_ships d _ _ Q2)]).
  intros H. eapply refuse_le; [exact H| |].
  - instantiate (1 := (out - rcost d ev (rveh d r) (mid_at p r) + rcost d ev (rveh d r) (A ++ APickup i :: M ++ ADelivery i :: B))%Z).
    unfold e. clear H e. destruct (Nat.eqb_spec (length A + 1 + 1) (length A + length M + 2)) as [Z|Z].
    + assert (M = []) as -> by (destruct M; [reflexivity|cbn [length] in Z; lia]). cbn [app length] in *.
      apply (one_sign d h ev St false out p r A (APickup j :: ADelivery j :: B) [SPickup i; SDelivery i] [[APickup i]; [ADelivery i]] (aft (sync d p) r (length A + 0 + 2 + 1)) B (A ++ APickup i :: ADelivery i :: B)); auto; [lia| |].
      * apply Forall2_cons; [apply piece_pickup|]. apply Forall2_cons; [apply piece_delivery|apply Forall2_nil].
      * apply (piece_aft d p r (A ++ [APickup j; ADelivery j]) B); side Hm.
    + destruct M as [|z M]; [cbn [length] in Z; lia|].
      apply (one_sign d h ev St false out p r A (APickup j :: (z :: M) ++ ADelivery j :: B) [SPickup i; btw (sync d p) r (length A + 1 + 1) (length A + length (z :: M) + 2 - 1); SDelivery i] [[APickup i]; z :: M; [ADelivery i]]
        (aft (sync d p) r (length A + length (z :: M) + 2 + 1)) B (A ++ APickup i :: (z :: M) ++ ADelivery i :: B)); auto; [lia| | |].
      * apply Forall2_cons; [apply piece_pickup|]. apply Forall2_cons; [|apply Forall2_cons; [apply piece_delivery|apply Forall2_nil]].
        apply (piece_btw d p r (A ++ [APickup j]) z M (ADelivery j :: B)); side Hm.
      * apply (piece_aft d p r (A ++ APickup j :: (z :: M) ++ [ADelivery j]) B); side Hm.
      * flat.
  - rewrite <- Eupd. rewrite (ship_in_cost d ev p1 r A M B i 0 (- s_prize (p_shipment d i) - rcost d ev (rveh d r) (mid_at p1 r) + rcost d ev (rveh d r) (A ++ APickup i :: M ++ ADelivery i :: B))%Z P1 L1 M1 K U0) by lia.
    rewrite C1, M1. unfold out. lia.
Qed.

(** ** RelocateAlternative *)
Theorem alternative_complete p i v p' : plan_ok d p -> group_once d p -> vref_ok p v -> can_alternate d p i v p' ->
  yes (fst (eval_alternative d ev (sync d p) rc_none (AClient i) v)) = false -> (plan_cost d ev p <= plan_cost d ev p')%Z.
Proof.
  intros P G Hv Mv.
  assert (Oth : forall g j r, c_group (p_client d i) = Some g -> In j (g_clients (p_group d g)) -> j <> i -> In (AClient i) (mid_at p r) ->
     In j (filter (fun j => negb (j =? i)) (g_clients (p_group d g))) /\ tot p (AClient j) = 0 /\ known d (AClient j)).
  { intros g j r Eg Hj Hji Hin. apply in_split in Hin as (A & B & Mu).
    assert (Ki : i < p_numClients d) by (apply (known_at d p r A (AClient i) B P Mu)).
    destruct (do_clients d (st_data d h ev St) i Ki) as (_ & _ & _ & Gi). destruct (Gi g Eg) as (Hg & Hig & _). clear Gi.
    split; [|split].
    - apply filter_In. split; [exact Hj|]. apply negb_true_iff, Nat.eqb_neq. exact Hji.
    - destruct (Nat.eq_dec (tot p (AClient j)) 0) as [|Z]; [assumption|exfalso]. apply Hji. apply (G g j i Hg Hj Hig); [lia|].
      apply (tot_In p r). rewrite Mu. apply in_elt.
    - cbn [known]. destruct (do_groups d (st_data d h ev St) g Hg) as (_ & GG). apply (GG j Hj). }
  assert (Fin : forall ru rv A B C' D' j, ru < length p -> rv < length p -> mid_at p ru = A ++ AClient i :: B -> tot p (AClient j) = 0 -> known d (AClient j) -> j <> i ->
     mid_at (upd p ru (A ++ B)) rv = C' ++ D' ->
     fine_mid d (rveh d rv) (C' ++ AClient j :: D') /\ has_visit (C' ++ AClient j :: D') = true /\
     plan_cost d ev (upd (upd p ru (A ++ B)) rv (C' ++ AClient j :: D')) = (plan_cost d ev p +
       (c_prize (p_client d i) - c_prize (p_client d j) - rcost d ev (rveh d ru) (mid_at p ru) + rcost d ev (rveh d ru) (A ++ B)
         - rcost d ev (rveh d rv) (C' ++ D') + rcost d ev (rveh d rv) (C' ++ AClient j :: D')))%Z).
  { intros ru rv A B C' D' j Hru Hrv Mu T0 Kj Hji Hm1. destruct (client_out d ev p ru A B i P Hru Mu) as (P1 & _ & _ & T1 & C1 & _). set (p1 := upd p ru (A ++ B)) in *.
    assert (L1 : rv < length p1) by (unfold p1; rewrite upd_length; exact Hrv).
    assert (Tj : tot p1 (AClient j) = 0) by (rewrite T1 by congruence; exact T0).
    destruct (client_in d ev p1 rv C' D' j P1 L1 Hm1 Kj Tj) as (Q1 & Q2 & Q3 & Q4). split; [exact Q2|]. split; [exact Q4|]. rewrite Q3, C1. lia. }
  unfold eval_alternative. cbn [sp_mids sync].
  destruct Mv as [g j ru rv A B C D Eg Hj Hji Hne Hru Hrv Mu Mv He|g j r A M D Eg Hj Hji Hr Hm HM RM He|g j r C M B Eg Hj Hji Hr Hm HM RM He].
  - destruct (Oth g j ru Eg Hj Hji ltac:(rewrite Mu; apply in_elt)) as (O1 & O2 & O3).
    destruct (Fin ru rv A B C D j Hru Hrv Mu O2 O3 Hji ltac:(rewrite mid_at_other by exact Hne; exact Mv)) as (Q2 & Q4 & Q3). clear Oth Fin.
    rewrite (find_act_at (AClient i) p ru A B (length A + 1)) by first [assumption | reflexivity | apply (pk_once d p P); reflexivity].
    rewrite (locate_at p v rv C D (length C)) by first [assumption | reflexivity | apply (ref_once d p v P Hv)].
    rewrite Eg, (proj2 (Nat.eqb_neq ru rv) Hne). cbn [andb]. unfold remove_cost, rc_none. cbn [fst]. cbv zeta.
    pose proof (client_fresh d h ev St p ru A B i (length A + 1) (c_prize (p_client d i)) P Hru Mu eq_refl) as EF. rewrite EF. clear EF.
    intros H. pose proof (first_improving_none _ _ _ _ H j O1) as Hle. cbn beta in Hle. rewrite Q3. eapply refuse_le'; [exact Hle| |reflexivity].
    match type of Hle with context [dcost d ev false ?o _ _] => rewrite (one_sign d h ev St false o p rv C D [SClient j] [[AClient j]] (aft (sync d p) rv (length C + 1)) D (C ++ AClient j :: D)) end; auto.
    + rewrite Mv. f_equal. lia.
    + apply Forall2_cons; [apply piece_client|apply Forall2_nil].
    + apply (piece_aft d p rv C D); side Mv.
  - destruct M as [|z M]; [congruence|].
    destruct (Oth g j r Eg Hj Hji ltac:(rewrite Hm; apply in_elt)) as (O1 & O2 & O3).
    destruct (Fin r r A ((z :: M) ++ D) (A ++ z :: M) D j Hr Hr Hm O2 O3 Hji ltac:(rewrite mid_at_same by exact Hr; assoc; reflexivity)) as (Q2 & Q4 & Q3). clear Oth Fin.
    rewrite (find_act_at (AClient i) p r A ((z :: M) ++ D) (length A + 1)) by first [assumption | reflexivity | apply (pk_once d p P); reflexivity].
    set (pv := length A + 1 + length (z :: M)).
    rewrite (locate_at p v r (A ++ AClient i :: z :: M) D pv) by first [assumption | solve [unfold pv; lens] | rewrite Hm; assoc; reflexivity | apply (ref_once d p v P Hv)].
    assert (Hpv : pv = length A + length M + 2) by (unfold pv; lens).
    rewrite Eg, Nat.eqb_refl. cbn [andb]. destruct (Nat.eqb_spec (length A + 1) pv); [lia|]. destruct (Nat.eqb_spec (length A + 1) (pv + 1)); [lia|]. cbn [orb].
    assert (HT : trip_of (mid_at p r) (length A + 1) = trip_of (mid_at p r) pv) by (rewrite Hm; apply same_trip_later; [reflexivity|exact RM]).
    rewrite HT, Nat.eqb_refl. clear HT. cbn [negb fst]. cbv zeta. destruct (Nat.ltb_spec (length A + 1) pv); [|lia].
    intros H'. pose proof (first_improving_none _ _ _ _ H' j O1) as Hle. cbn beta in Hle. rewrite Q3. eapply refuse_le'; [exact Hle| |reflexivity].
    match type of Hle with context [dcost d ev false ?o _ _] =>
    rewrite (one_sign d h ev St false o p r A (AClient i :: (z :: M) ++ D) [btw (sync d p) r (length A + 1 + 1) pv; SClient j] [z :: M; [AClient j]]
        (aft (sync d p) r (pv + 1)) D ((A ++ z :: M) ++ AClient j :: D)) end; auto.
    + f_equal. replace ((A ++ z :: M) ++ D) with (A ++ (z :: M) ++ D) by (assoc; reflexivity). lia.
    + lia.
    + apply Forall2_cons; [|apply Forall2_cons; [apply piece_client|apply Forall2_nil]].
      apply (piece_btw d p r (A ++ [AClient i]) z M D); side Hm.
    + apply (piece_aft d p r (A ++ AClient i :: z :: M) D); side Hm.
    + flat.
  - destruct M as [|z M]; [congruence|].
    assert (Hm' : mid_at p r = (C ++ z :: M) ++ AClient i :: B) by (rewrite Hm; assoc; reflexivity).
    destruct (Oth g j r Eg Hj Hji ltac:(rewrite Hm'; apply in_elt)) as (O1 & O2 & O3).
    destruct (Fin r r (C ++ z :: M) B C ((z :: M) ++ B) j Hr Hr Hm' O2 O3 Hji ltac:(rewrite mid_at_same by exact Hr; assoc; reflexivity)) as (Q2 & Q4 & Q3). clear Oth Fin.
    set (pu := length C + length (z :: M) + 1).
    rewrite (find_act_at (AClient i) p r (C ++ z :: M) B pu) by first [assumption | solve [unfold pu; lens] | apply (pk_once d p P); reflexivity].
    rewrite (locate_at p v r C ((z :: M) ++ AClient i :: B) (length C)) by first [assumption | reflexivity | apply (ref_once d p v P Hv)].
    assert (Hpu : pu = length C + length M + 2) by (unfold pu; lens).
    rewrite Eg, Nat.eqb_refl. cbn [andb]. destruct (Nat.eqb_spec pu (length C)); [lia|]. destruct (Nat.eqb_spec pu (length C + 1)); [lia|]. cbn [orb].
    assert (HT : trip_of (mid_at p r) pu = trip_of (mid_at p r) (length C)) by (rewrite Hm; apply same_trip_earlier; [reflexivity|exact RM]).
    rewrite HT, Nat.eqb_refl. clear HT. cbn [negb fst]. cbv zeta. destruct (Nat.ltb_spec pu (length C)); [lia|].
    intros H'. pose proof (first_improving_none _ _ _ _ H' j O1) as Hle. cbn beta in Hle. rewrite Q3. eapply refuse_le'; [exact Hle| |reflexivity].
    match type of Hle with context [dcost d ev false ?o _ _] =>
    rewrite (one_sign d h ev St false o p r C ((z :: M) ++ AClient i :: B) [SClient j; btw (sync d p) r (length C + 1) (pu - 1)] [[AClient j]; z :: M]
        (aft (sync d p) r (pu + 1)) B (C ++ AClient j :: (z :: M) ++ B)) end; auto.
    + f_equal. replace ((C ++ z :: M) ++ B) with (C ++ (z :: M) ++ B) by (assoc; reflexivity). lia.
    + apply Forall2_cons; [apply piece_client|]. apply Forall2_cons; [|apply Forall2_nil].
      apply (piece_btw d p r C z M (AClient i :: B)); side Hm.
    + apply (piece_aft d p r (C ++ (z :: M) ++ [AClient i]) B); side Hm.
    + flat.
Qed.

(** ** RelocateWithDepot *)
Theorem with_depot_complete p i v p' : plan_ok d p -> vref_ok p v -> can_reload d p i v p' ->
  yes (fst (eval_with_depot d ev (sync d p) rc_none (AClient i) v)) = false -> (plan_cost d ev p <= plan_cost d ev p')%Z.
Proof.
  intros P Hv Mv.
  assert (Fin : forall (first : bool) x ru rv A B C' D', ru < length p -> rv < length p -> mid_at p ru = A ++ AClient i :: B -> In x (v_reload (rveh d rv)) ->
     (Z.of_nat (num_reloads (mid_at p rv) + 1) < v_maxTrips (rveh d rv))%Z -> num_reloads (C' ++ D') = num_reloads (mid_at p rv) ->
     mid_at (upd p ru (A ++ B)) rv = C' ++ D' -> ships_ok C' ->
     let w := reloading first x i in
     fine_mid d (rveh d rv) (C' ++ w ++ D') /\ has_visit (C' ++ w ++ D') = true /\
     plan_cost d ev (upd (upd p ru (A ++ B)) rv (C' ++ w ++ D')) = (plan_cost d ev p +
       (- rcost d ev (rveh d ru) (mid_at p ru) + rcost d ev (rveh d ru) (A ++ B)
         - rcost d ev (rveh d rv) (C' ++ D') + rcost d ev (rveh d rv) (C' ++ w ++ D')))%Z).
  { intros first x ru rv A B C' D' Hru Hrv Mu Hx Trips HR Hm1 SC1 w.
    destruct (client_out d ev p ru A B i P Hru Mu) as (P1 & _ & T0 & T1 & C1 & _). set (p1 := upd p ru (A ++ B)) in *.
    assert (Ki : known d (AClient i)) by (apply (known_at d p ru A (AClient i) B P Mu)).
    assert (Kx : x < p_numDepots d).
    { pose proof (pk_veh d p rv P Hrv) as V. apply (do_vehicles d (st_data d h ev St) (rveh d rv) V). exact Hx. }
    assert (L1 : rv < length p1) by (unfold p1; rewrite upd_length; exact Hrv).
    destruct (client_in d ev p1 rv C' D' i P1 L1 Hm1 Ki T0) as (Q1 & Q2 & Q3 & Q4). set (p2 := upd p1 rv (C' ++ AClient i :: D')) in *.
    assert (L2 : rv < length p2) by (unfold p2; rewrite upd_length; exact L1).
    assert (M2 : mid_at p2 rv = C' ++ AClient i :: D') by (unfold p2; apply mid_at_same; exact L1).
    assert (Rn : num_reloads (C' ++ AClient i :: D') = num_reloads (mid_at p rv)) by (rewrite <- HR, !num_reloads_app, num_reloads_cons; cbn [a_isDepot]; lia).
    assert (X : plan_ok d (upd p2 rv (C' ++ w ++ D')) /\ fine_mid d (rveh d rv) (C' ++ w ++ D')).
    { unfold w, reloading. destruct first.
      - apply (add_depot d p2 rv C' x (AClient i :: D')); auto. rewrite Rn. lia.
      - pose proof (add_depot d p2 rv (C' ++ [AClient i]) x D' Q1 L2) as X. revert X. assoc. intros X. apply X; auto.
        + apply ships_app; [exact SC1|apply ships_client].
        + rewrite Rn. lia. }
    destruct X as [X1 X2].
    assert (Hvis : has_visit (C' ++ w ++ D') = true).
    { apply (has_visit_in _ (AClient i)); [|reflexivity|apply (fine_ships d _ _ X2)]. unfold w, reloading. apply in_or_app. right. destruct first; cbn; auto. }
    split; [exact X2|]. split; [exact Hvis|].
    assert (Eu : upd p2 rv (C' ++ w ++ D') = upd p1 rv (C' ++ w ++ D')) by (unfold p2; apply upd_upd).
    rewrite <- Eu. rewrite cost_one_move; [|exact L2|].
    - rewrite Q3, C1, M2. lia.
    - intros a Ha. rewrite M2. unfold w, reloading. destruct first; counts; destruct a; try discriminate; cbn [a_eqb]; lia. }
  assert (NR : forall r C D, mid_at p r = C ++ D -> ends v r C -> k_isReload (kind_at (mid_at p r) (length C)) = false).
  { intros r C D Hm He. destruct v as [a|k]; cbn [ends vref_ok] in *.
    - destruct He as (C' & ->). rewrite Hm, <- app_assoc. cbn [app]. rewrite (kind_at_app C' a D) by lens. destruct a; [discriminate|reflexivity..].
    - destruct He as [_ ->]. reflexivity. }
  assert (NN : forall r C D (first : bool), mid_at p r = C ++ D -> (first = false -> forall y D', D <> ADepot y :: D') ->
     first = false -> k_isReload (kind_at (mid_at p r) (length C + 1)) = false).
  { intros r C D first Hm Hd Hf. specialize (Hd Hf). rewrite Hm. destruct D as [|a D].
    - rewrite app_nil_r. unfold kind_at. destruct (length C + 1) as [|k] eqn:Ek; [lia|]. assert (k = length C) as -> by lia.
      rewrite (proj2 (nth_error_None C (length C)) ltac:(lia)). reflexivity.
    - rewrite (kind_at_app C a D) by reflexivity. destruct a as [y| | |]; [exfalso; apply (Hd y D); reflexivity|reflexivity..]. }
  assert (Bal : forall r C D, r < length p -> mid_at p r = C ++ D -> ships_ok C -> nPickups (sync d p) r (length C) = nDeliveries (sync d p) r (length C)).
  { intros r C D Hr Hm SC. rewrite nPickups_at, nDeliveries_at by first [exact Hr | rewrite Hm; lens]. rewrite Hm, firstn_len_app by reflexivity. apply ships_counts. exact SC. }
  unfold eval_with_depot. cbn [sp_mids sync].
  destruct Mv as [first x ru rv A B C D Hne Hru Hrv Mu Mv He SC (Hx & Tr & Vis & ND)|first x r A M D Hr Hm HM RM He SC (Hx & Tr & Vis & ND)|first x r C M B Hr Hm HM RM He SC (Hx & Tr & Vis & ND)].
  - destruct (Fin first x ru rv A B C D Hru Hrv Mu Hx Tr ltac:(rewrite Mv; reflexivity) ltac:(rewrite mid_at_other by exact Hne; exact Mv) SC) as (Q2 & Q4 & Q3). clear Fin.
    rewrite (find_act_at (AClient i) p ru A B (length A + 1)) by first [assumption | reflexivity | apply (pk_once d p P); reflexivity].
    rewrite (locate_at p v rv C D (length C)) by first [assumption | reflexivity | apply (ref_once d p v P Hv)].
    rewrite (proj2 (Nat.eqb_neq ru rv) Hne), isEmpty_at, Vis by exact Hrv. cbn [andb orb negb]. cbv zeta. unfold numTrips.
    destruct (Z.eqb_spec (Z.of_nat (num_reloads (mid_at p rv) + 1)) (v_maxTrips (rveh d rv))); [lia|].
    rewrite (Bal rv C D Hrv Mv SC), Nat.eqb_refl. cbn [negb]. rewrite (NR rv C D Mv He). unfold remove_cost, rc_none. cbn [fst].
    pose proof (client_fresh d h ev St p ru A B i (length A + 1) 0 P Hru Mu eq_refl) as EF. rewrite EF. clear EF. set (cost := (0 - _ + _)%Z).
    intros H. pose proof (best_depot_refuses _ _ _ _ H first x Hx (NN rv C D first Mv ND)) as Hle. cbn beta in Hle. clear H.
    rewrite Q3. eapply refuse_le'; [exact Hle| |reflexivity].
    pose proof (piece_at d p ru A (AClient i) B (length A + 1) Hru (pk_veh d p ru P Hru) Mu eq_refl) as Pu.
    unfold reloading in *. destruct first.
    + rewrite (one_sign d h ev St false cost p rv C D [SDepot x; at_ (sync d p) ru (length A + 1)] [[ADepot x]; [AClient i]] (aft (sync d p) rv (length C + 1)) D (C ++ [ADepot x; AClient i] ++ D)); auto.
      * f_equal. rewrite <- Mv. unfold cost. lia.
      * apply Forall2_cons; [apply piece_depot|]. apply Forall2_cons; [exact Pu|apply Forall2_nil].
      * apply (piece_aft d p rv C D); side Mv.
    + rewrite (one_sign d h ev St false cost p rv C D [at_ (sync d p) ru (length A + 1); SDepot x] [[AClient i]; [ADepot x]] (aft (sync d p) rv (length C + 1)) D (C ++ [AClient i; ADepot x] ++ D)); auto.
      * f_equal. rewrite <- Mv. unfold cost. lia.
      * apply Forall2_cons; [exact Pu|]. apply Forall2_cons; [apply piece_depot|apply Forall2_nil].
      * apply (piece_aft d p rv C D); side Mv.
  - destruct M as [|z M]; [congruence|].
    assert (Hm' : mid_at p r = (A ++ AClient i :: z :: M) ++ D) by (rewrite Hm; assoc; reflexivity).
    assert (SC1 : ships_ok (A ++ z :: M)) by (apply (ships_delete A [AClient i] (z :: M)); [exact SC|apply ships_client|reflexivity|];
         intros k; pose proof (mid_once d p r P (APickup k) eq_refl) as O; rewrite Hm in O; counts).
    destruct (Fin first x r r A ((z :: M) ++ D) (A ++ z :: M) D Hr Hr Hm Hx Tr ltac:(rewrite Hm; clear; rewrite ?num_reloads_app, ?num_reloads_cons, ?num_reloads_app, ?num_reloads_cons; cbn [a_isDepot]; lia)
      ltac:(rewrite mid_at_same by exact Hr; assoc; reflexivity) SC1) as (Q2 & Q4 & Q3). clear Fin.
    rewrite (find_act_at (AClient i) p r A ((z :: M) ++ D) (length A + 1)) by first [assumption | reflexivity | apply (pk_once d p P); reflexivity].
    set (pv := length A + 1 + length (z :: M)).
    assert (Epv : pv = length (A ++ AClient i :: z :: M)) by (unfold pv; lens).
    rewrite (locate_at p v r (A ++ AClient i :: z :: M) D pv) by first [assumption | apply (ref_once d p v P Hv)].
    assert (Hpv : pv = length A + length M + 2) by (unfold pv; lens).
    assert (HT : trip_of (mid_at p r) (length A + 1) = trip_of (mid_at p r) pv) by (rewrite Hm; apply same_trip_later; [reflexivity|exact RM]).
    rewrite Nat.eqb_refl, isEmpty_at, Vis, HT, Nat.eqb_refl by exact Hr. clear HT. cbn [andb orb negb]. cbv zeta. unfold numTrips.
    destruct (Nat.eqb_spec (length A + 1) (pv + 1)); [lia|]. cbn [orb].
    destruct (Z.eqb_spec (Z.of_nat (num_reloads (mid_at p r) + 1)) (v_maxTrips (rveh d r))); [lia|].
    pose proof (Bal r _ D Hr Hm' SC) as Eb. pose proof (NR r _ D Hm' He) as En. rewrite <- Epv in Eb, En. rewrite Eb, Nat.eqb_refl, En. clear Eb En. cbn [negb fst].
    pose proof (NN r _ D first Hm' ND) as En. rewrite <- Epv in En.
    destruct (Nat.ltb_spec (length A + 1) pv); [|lia].
    intros K. pose proof (best_depot_refuses _ _ _ _ K first x Hx En) as Hle. cbn beta in Hle. clear K En.
    rewrite Q3. eapply refuse_le'; [exact Hle| |reflexivity].
    unfold reloading in *. destruct first.
    + rewrite (one_sign d h ev St false 0 p r A (AClient i :: (z :: M) ++ D) [btw (sync d p) r (length A + 1 + 1) pv; SDepot x; at_ (sync d p) r (length A + 1)] [z :: M; [ADepot x]; [AClient i]]
          (aft (sync d p) r (pv + 1)) D ((A ++ z :: M) ++ [ADepot x; AClient i] ++ D)); auto.
      * f_equal. replace ((A ++ z :: M) ++ D) with (A ++ (z :: M) ++ D) by (assoc; reflexivity). lia.
      * lia.
      * apply Forall2_cons; [|apply Forall2_cons; [apply piece_depot|apply Forall2_cons; [|apply Forall2_nil]]].
        -- apply (piece_btw d p r (A ++ [AClient i]) z M D); side Hm.
        -- apply (piece_at d p r A (AClient i) ((z :: M) ++ D)); side Hm.
      * apply (piece_aft d p r (A ++ AClient i :: z :: M) D); side Hm.
      * flat.
    + rewrite (one_sign d h ev St false 0 p r A (AClient i :: (z :: M) ++ D) [btw (sync d p) r (length A + 1 + 1) pv; at_ (sync d p) r (length A + 1); SDepot x] [z :: M; [AClient i]; [ADepot x]]
          (aft (sync d p) r (pv + 1)) D ((A ++ z :: M) ++ [AClient i; ADepot x] ++ D)); auto.
      * f_equal. replace ((A ++ z :: M) ++ D) with (A ++ (z :: M) ++ D) by (assoc; reflexivity). lia.
      * lia.
      * apply Forall2_cons; [|apply Forall2_cons; [|apply Forall2_cons; [apply piece_depot|apply Forall2_nil]]].
        -- apply (piece_btw d p r (A ++ [AClient i]) z M D); side Hm.
        -- apply (piece_at d p r A (AClient i) ((z :: M) ++ D)); side Hm.
      * apply (piece_aft d p r (A ++ AClient i :: z :: M) D); side Hm.
      * flat.
  - destruct M as [|z M]; [congruence|].
    assert (Hm' : mid_at p r = (C ++ z :: M) ++ AClient i :: B) by (rewrite Hm; assoc; reflexivity).
    destruct (Fin first x r r (C ++ z :: M) B C ((z :: M) ++ B) Hr Hr Hm' Hx Tr ltac:(rewrite Hm; clear; repeat rewrite ?num_reloads_app, ?num_reloads_cons; cbn [a_isDepot]; lia)
      ltac:(rewrite mid_at_same by exact Hr; assoc; reflexivity) SC) as (Q2 & Q4 & Q3). clear Fin.
    set (pu := length C + length (z :: M) + 1).
    rewrite (find_act_at (AClient i) p r (C ++ z :: M) B pu) by first [assumption | solve [unfold pu; lens] | apply (pk_once d p P); reflexivity].
    rewrite (locate_at p v r C ((z :: M) ++ AClient i :: B) (length C)) by first [assumption | reflexivity | apply (ref_once d p v P Hv)].
    assert (Hpu : pu = length C + length M + 2) by (unfold pu; lens).
    assert (HT : trip_of (mid_at p r) pu = trip_of (mid_at p r) (length C)) by (rewrite Hm; apply same_trip_earlier; [reflexivity|exact RM]).
    rewrite Nat.eqb_refl, isEmpty_at, Vis, HT, Nat.eqb_refl by exact Hr. clear HT. cbn [andb orb negb]. cbv zeta. unfold numTrips.
    destruct (Nat.eqb_spec pu (length C + 1)); [lia|]. cbn [orb].
    destruct (Z.eqb_spec (Z.of_nat (num_reloads (mid_at p r) + 1)) (v_maxTrips (rveh d r))); [lia|].
    rewrite (Bal r C _ Hr Hm SC), Nat.eqb_refl, (NR r C _ Hm He). cbn [negb fst].
    assert (ND' : first = false -> forall y D', (z :: M) ++ AClient i :: B <> ADepot y :: D').
    { intros Hf y D' Z. cbn [app] in Z. injection Z as -> _. apply (ND Hf y M). reflexivity. }
    pose proof (NN r C _ first Hm ND') as En.
    destruct (Nat.ltb_spec pu (length C)); [lia|].
    intros K. pose proof (best_depot_refuses _ _ _ _ K first x Hx En) as Hle. cbn beta in Hle. clear K En.
    rewrite Q3. eapply refuse_le'; [exact Hle| |reflexivity].
    unfold reloading in *. destruct first.
    + rewrite (one_sign d h ev St false 0 p r C ((z :: M) ++ AClient i :: B) [SDepot x; at_ (sync d p) r pu; btw (sync d p) r (length C + 1) (pu - 1)] [[ADepot x]; [AClient i]; z :: M]
          (aft (sync d p) r (pu + 1)) B (C ++ [ADepot x; AClient i] ++ (z :: M) ++ B)); auto.
      * f_equal. replace ((C ++ z :: M) ++ B) with (C ++ (z :: M) ++ B) by (assoc; reflexivity). lia.
      * apply Forall2_cons; [apply piece_depot|]. apply Forall2_cons; [|apply Forall2_cons; [|apply Forall2_nil]].
        -- apply (piece_at d p r (C ++ z :: M) (AClient i) B); side Hm.
        -- apply (piece_btw d p r C z M (AClient i :: B)); side Hm.
      * apply (piece_aft d p r (C ++ (z :: M) ++ [AClient i]) B); side Hm.
      * flat.
    + rewrite (one_sign d h ev St false 0 p r C ((z :: M) ++ AClient i :: B) [at_ (sync d p) r pu; SDepot x; btw (sync d p) r (length C + 1) (pu - 1)] [[AClient i]; [ADepot x]; z :: M]
          (aft (sync d p) r (pu + 1)) B (C ++ [AClient i; ADepot x] ++ (z :: M) ++ B)); auto.
      * f_equal. replace ((C ++ z :: M) ++ B) with (C ++ (z :: M) ++ B) by (assoc; reflexivity). lia.
      * apply Forall2_cons; [|apply Forall2_cons; [apply piece_depot|apply Forall2_cons; [|apply Forall2_nil]]].
        -- apply (piece_at d p r (C ++ z :: M) (AClient i) B); side Hm.
        -- apply (piece_btw d p r C z M (AClient i :: B)); side Hm.
      * apply (piece_aft d p r (C ++ (z :: M) ++ [AClient i]) B); side Hm.
      * flat.
Qed.
End Complete3.
