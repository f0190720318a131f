(** Facts about penalised costs and delta cost evaluation. *)
From Coq Require Import Permutation.
From Verif Require Import Base DurationSegment Beh Tws DurationFacts Data LoadSegment SearchRoute
  RouteDur Valid ProposalDur ProposalRest Route RouteSpec RouteFacts RouteFacts2 RouteFacts3 Cost.

(** A penalty function: nothing for no violation, and more for more. *)
Definition pen_ok (f : Z -> Z) : Prop := f 0 = 0 /\ forall x y, 0 <= x <= y -> f x <= f y.
Record ev_ok (ev : evaluator) : Prop := mk_ev_ok {
  eo_load : Forall pen_ok (ev_load ev);
  eo_tw : pen_ok (ev_tw ev);
  eo_dist : pen_ok (ev_dist ev) }.

Lemma pen_nonneg f x : pen_ok f -> 0 <= x -> 0 <= f x.
Proof. intros [H0 H1] Hx. rewrite <- H0. apply H1. lia. Qed.

(** ** Bounds from the simulation *)
Definition ev_spend (e : event) : Z := match e with Spend z => z | _ => 0 end.
Definition ev_nonneg (e : event) : Prop := 0 <= ev_spend e.

Lemma simulate_spent evs : forall t, zsum (map ev_spend evs) <= fst (simulate t evs).
Proof.
  induction evs as [|e evs IH]; intros t; [cbn; lia|].
  destruct e as [z|r|a b]; cbn [simulate map zsum ev_spend].
  - specialize (IH (t + z)). destruct (simulate (t + z) evs); cbn [fst] in *. lia.
  - specialize (IH (t + Z.max 0 (r - t))). destruct (simulate _ evs); cbn [fst] in *. lia.
  - specialize (IH (t + Z.max 0 (a - t) - Z.max 0 (t - b))). destruct (simulate _ evs); cbn [fst] in *. lia.
Qed.

Definition open_event (h : Z) (e : event) : Prop :=
  match e with
  | Spend z => 0 <= z
  | WaitUntil r => r <= h
  | Window a b => a <= h /\ MAXV <= b
  end.

Lemma simulate_open h evs : Forall (open_event h) evs -> forall t,
  Z.max t h + zsum (map ev_spend evs) <= MAXV ->
  snd (simulate t evs) = 0 /\
  t + fst (simulate t evs) <= Z.max t h + zsum (map ev_spend evs).
Proof.
  induction 1 as [|e evs He Hevs IH]; intros t Ht; [cbn in *; lia|].
  assert (Hs : 0 <= zsum (map ev_spend evs)).
  { apply zsum_nonneg. intros x Hx. apply in_map_iff in Hx. destruct Hx as (e' & <- & He').
    rewrite Forall_forall in Hevs. specialize (Hevs e' He'). destruct e'; cbn in *; lia. }
  destruct e as [z|r|a b]; cbn [simulate map zsum ev_spend open_event] in *.
  - specialize (IH (t + z) ltac:(lia)). destruct (simulate (t + z) evs); cbn [fst snd] in *. lia.
  - specialize (IH (t + Z.max 0 (r - t)) ltac:(lia)). destruct (simulate _ evs); cbn [fst snd] in *. lia.
  - replace (Z.max 0 (t - b)) with 0 in * by lia.
    specialize (IH (t + Z.max 0 (a - t) - 0) ltac:(lia)). destruct (simulate _ evs); cbn [fst snd] in *. lia.
Qed.

Lemma events_spend d v mid : forall frm,
  zsum (map ev_spend (events_from d v frm mid)) =
  path_sum (p_dur d (v_profile v)) (frm :: map (a_loc d) mid ++ [d_loc (p_depot d (v_end v))])
  + zsum (map (a_service d) mid).
Proof.
  induction mid as [|a mid IH]; intros frm.
  - cbn. lia.
  - cbn [map app]. rewrite path_sum_cons2. cbn [events_from]. rewrite map_app, zsum_app, IH.
    destruct a; cbn [map zsum ev_spend a_loc a_service]; lia.
Qed.

Lemma route_events_spend d v mid :
  zsum (map ev_spend (route_events d v mid)) = route_travel d v mid + route_service d v mid.
Proof.
  unfold route_events. rewrite map_app, zsum_app, events_spend.
  unfold route_travel, route_service, route_locs. cbn [map zsum ev_spend]. lia.
Qed.

(** ** Counts *)
Lemma count_loop_last f l : forall acc,
  last (acc :: count_loop f acc l) 0%nat = (acc + length (filter (fun x => f (it_act x)) l))%nat.
Proof.
  induction l as [|x l IH]; intros acc; [cbn; lia|].
  cbn [count_loop filter]. 
  change (last (acc :: ?c :: ?r) 0%nat) with (last (c :: r) 0%nat).
  cbv zeta. rewrite IH. destruct (f (it_act x)); cbn [length]; lia.
Qed.

Lemma filter_items f d v mid : (forall i, f (ADepot i) = false) ->
  length (filter (fun x => f (it_act x)) (map (item_act d) mid ++ [item_end d v])) =
  length (filter f mid).
Proof.
  intros Hf. rewrite filter_app, app_length. cbn [filter item_end it_act]. rewrite Hf. cbn [length].
  rewrite Nat.add_0_r. induction mid as [|a mid IH]; [reflexivity|].
  cbn [map filter]. replace (it_act (item_act d a)) with a by (destruct a; reflexivity).
  destruct (f a); cbn [length]; lia.
Qed.

Lemma ca_counts d v mid :
  ca_numClients (update d v mid) = length (filter a_isClient mid) /\
  ca_numShipments (update d v mid) = length (filter a_isPickup mid).
Proof.
  unfold ca_numClients, ca_numShipments. cbn [ca_nClients ca_nPickups update].
  unfold route_items, count_array. rewrite !count_loop_last, !filter_items by reflexivity. auto.
Qed.

Definition has_visit (mid : list activity) : bool :=
  existsb (fun a => a_isClient a || a_isPickup a) mid.

Lemma filter_len0 {A} (f : A -> bool) l : (length (filter f l) =? 0)%nat = negb (existsb f l).
Proof. induction l as [|x l IH]; [reflexivity|]. cbn. destruct (f x); cbn; auto. Qed.

Lemma existsb_orb {A} (f g : A -> bool) l : existsb (fun x => f x || g x) l = existsb f l || existsb g l.
Proof. induction l as [|x l IH]; [reflexivity|]. cbn. rewrite IH. destruct (f x), (g x), (existsb f l); auto. Qed.

Lemma ca_empty_spec d v mid : ca_empty (update d v mid) = negb (has_visit mid).
Proof.
  unfold ca_empty. destruct (ca_counts d v mid) as [-> ->].
  rewrite !filter_len0. unfold has_visit. rewrite existsb_orb, negb_orb. reflexivity.
Qed.

Lemma count_kinds (mid : list activity) : length mid =
  (length (filter a_isClient mid) + length (filter a_isPickup mid)
   + length (filter a_isDelivery mid) + length (filter a_isDepot mid))%nat.
Proof. induction mid as [|a mid IH]; [reflexivity|]. destruct a; cbn in *; lia. Qed.

Lemma pickup_delivery_counts d v mid : well_formed d v mid ->
  length (filter a_isPickup mid) = length (filter a_isDelivery mid).
Proof.
  intros [_ H1 H2 H3 H4 _].
  assert (G : forall (f : activity -> bool) (c : nat -> activity),
    (forall a, f a = true <-> exists i, a = c i) -> (forall i, a_idx (c i) = i) ->
    (forall i pre post, mid = pre ++ c i :: post -> ~ In (c i) post) ->
    NoDup (map a_idx (filter f mid)) /\
    forall i, In i (map a_idx (filter f mid)) <-> In (c i) mid).
  { intros f c Hf Hc Hu. split.
    - clear - Hf Hc Hu. induction mid as [|a mid IH]; [constructor|].
      assert (IH' : NoDup (map a_idx (filter f mid))).
      { apply IH. intros i pre post E. apply (Hu i (a :: pre) post). rewrite E. reflexivity. }
      cbn [filter]. destruct (f a) eqn:Ea; [|exact IH'].
      apply Hf in Ea. destruct Ea as [i ->]. cbn [map]. constructor; [|exact IH'].
      rewrite Hc. intros Hin. apply in_map_iff in Hin. destruct Hin as (b & Eb & Hb).
      apply filter_In in Hb. destruct Hb as [Hb1 Hb2]. apply Hf in Hb2. destruct Hb2 as [j ->].
      rewrite Hc in Eb. subst j. exact (Hu i [] mid eq_refl Hb1).
    - intros i. rewrite in_map_iff. split.
      + intros (b & Eb & Hb). apply filter_In in Hb. destruct Hb as [Hb1 Hb2].
        apply Hf in Hb2. destruct Hb2 as [j ->]. rewrite Hc in Eb. subst j. exact Hb1.
      + intros Hi. exists (c i). split; [apply Hc|]. apply filter_In. split; [exact Hi|].
        apply Hf. eauto. }
  destruct (G a_isPickup APickup) as [P1 P2]; auto.
  { intros []; cbn; split; try discriminate; eauto; intros [j Ej]; discriminate Ej. }
  destruct (G a_isDelivery ADelivery) as [D1 D2]; auto.
  { intros []; cbn; split; try discriminate; eauto; intros [j Ej]; discriminate Ej. }
  rewrite <- (map_length a_idx (filter a_isPickup mid)), <- (map_length a_idx (filter a_isDelivery mid)).
  apply Permutation_length. apply NoDup_Permutation; auto.
  intros i. rewrite P2, D2. split; [apply H4|].
  intros Hi. apply in_split in Hi. destruct Hi as (pre & post & E).
  destruct (H3 i pre post E) as (p1 & p2 & -> & _). rewrite E.
  apply in_or_app. left. apply in_or_app. right. left. reflexivity.
Qed.

(** ** The core route *)
Lemma make_route_ok d mid vt r : make_route d mid vt = Ok r -> well_formed d (p_vehicle d vt) mid.
Proof.
  intros H. unfold make_route in H. destruct (validate d mid vt) eqn:E; [|discriminate].
  destruct a. apply validate_spec. exact E.
Qed.

Lemma route_fields d mid vt r : make_route d mid vt = Ok r ->
  let v := p_vehicle d vt in
  let b := bpass_final d v mid in
  let sacts := ADepot (v_start v) :: mid ++ [ADepot (v_end v)] in
  let dims := seq 0 (p_numLoadDimensions d) in
  let load dim := set_load d v dim (mid ++ [ADepot (v_end v)]) in
  r = mk_route (set_schedule d v mid) (route_dist d v mid) (v_unitDistance v * route_dist d v mid)
        (Z.max (route_dist d v mid - v_maxDistance v) 0)
        (map (fun dim => snd (fst (load dim))) dims)
        (map (fun dim => snd (load dim)) dims)
        (map (fun dim => ls_excessLoad (dimv (v_capacity v) dim) (fst (fst (load dim)))) dims)
        (ds_duration (bp_ds b)) (Z.max (ds_duration (bp_ds b) - v_shift v) 0)
        (v_unitDuration v * ds_duration (bp_ds b)
         + v_unitOvertime v * Z.max (ds_duration (bp_ds b) - v_shift v) 0)
        (ds_timeWarp (v_maxDuration v) (bp_ds b))
        (bp_travel b) (bp_service b)
        (ds_startEarly (bp_ds b)) (ds_rel (bp_ds b)) (ds_slack (bp_ds b))
        (v_fixedCost v) (zsum (map (act_prize d) sacts)) vt (count_pickups sacts).
Proof.
  intros H. cbv zeta. unfold make_route in H. destruct (validate d mid vt) as [[]|]; [|discriminate].
  cbv zeta in H. rewrite schedule_acts in H. cbn [List.tl] in H.
  rewrite distance_loop_path, map_app in H.
  apply (f_equal (fun x => match x with Ok r => r | Err _ => r end)) in H. symmetry. exact H.
Qed.

Lemma fpass_last_trip d v acts : forall now loc trip rels n,
  sa_trip (last (fpass d v now loc trip rels n acts) dummy_sched) = n.
Proof.
  induction acts as [|a acts IH]; intros; [reflexivity|].
  assert (Hne : forall now loc trip rels n, fpass d v now loc trip rels n acts <> []).
  { intros now' loc' trip' rels' n' E. pose proof (f_equal (fun l => length (map sa_act l)) E) as E'.
    cbn beta in E'. rewrite fpass_acts, app_length in E'. cbn in E'. lia. }
  assert (L : forall (x : sched) l, l <> [] -> last (x :: l) dummy_sched = last l dummy_sched).
  { intros x [|y l] Hl; [congruence|reflexivity]. }
  destruct a; cbn [fpass handle]; rewrite L by apply Hne; apply IH.
Qed.

Section Core.
Variable d : pdata.
Variable h : Z.
Hypothesis Hv : valid_data d.
Hypothesis Ho : opens_by d h.
Hypothesis Hn : nonneg_durs d.
Hypothesis Hh : 2 * h <= MAXV.

Lemma bp_rels_length v mid : length (bp_rels (bpass_final d v mid)) = (num_reloads mid + 1)%nat.
Proof.
  unfold bpass_final; cbn [bp_rels length]. rewrite Nat.add_comm. cbn. f_equal.
  induction mid as [|a mid IH]; [reflexivity|].
  destruct a; cbn [bpass_loop bpass_step bp_rels length]; unfold num_reloads in *; cbn; auto.
Qed.

(** Number of visits of a route. *)
Lemma route_counts mid vt r : make_route d mid vt = Ok r ->
  r_numTrips r = (num_reloads mid + 1)%nat /\
  r_numClients r = length (filter a_isClient mid) /\
  r_numShipments r = length (filter a_isPickup mid).
Proof.
  intros H. pose proof (make_route_ok _ _ _ _ H) as Hwf.
  apply route_fields in H. cbv zeta in H. subst r. set (v := p_vehicle d vt) in *.
  unfold r_numClients, r_numDepots, r_numTrips, r_size. cbn [r_schedule r_numShipments].
  assert (Hl : length (set_schedule d v mid) = (length mid + 2)%nat).
  { rewrite <- (map_length sa_act), schedule_acts. cbn. rewrite app_length. cbn. lia. }
  rewrite Hl.
  assert (Ht : sa_trip (last (set_schedule d v mid) dummy_sched) = (num_reloads mid + 1)%nat).
  { unfold set_schedule, handle. rewrite <- bp_rels_length with (v := v).
    match goal with |- context [last (?x :: ?l) _] => 
      assert (Hne : l <> []) end.
    { intros E. pose proof (f_equal (fun l => length (map sa_act l)) E) as E'.
      cbn beta in E'. rewrite fpass_acts, app_length in E'. cbn in E'. lia. }
    match goal with |- context [last (?x :: ?l) _] => 
      replace (last (x :: l) dummy_sched) with (last l dummy_sched) by (destruct l; [congruence|reflexivity]) end.
    apply fpass_last_trip. }
  rewrite Ht.
  assert (Hp : count_pickups (ADepot (v_start v) :: mid ++ [ADepot (v_end v)]) = length (filter a_isPickup mid)).
  { unfold count_pickups. cbn. rewrite filter_app, app_length. cbn. lia. }
  rewrite Hp. split; [reflexivity|split;[|reflexivity]].
  pose proof (pickup_delivery_counts _ _ _ Hwf). pose proof (count_kinds mid).
  unfold num_reloads. lia.
Qed.

Lemma r_empty_spec mid vt r : make_route d mid vt = Ok r -> r_empty r = negb (has_visit mid).
Proof.
  intros H. destruct (route_counts _ _ _ H) as (_ & E1 & E2).
  unfold r_empty. rewrite E1, E2, !filter_len0. unfold has_visit. rewrite existsb_orb, negb_orb. reflexivity.
Qed.

Lemma update_distance v mid : ca_distance (update d v mid) = route_dist d v mid.
Proof.
  cbn [ca_distance update]. unfold route_items. rewrite dist_array_last, dist_walk_path.
  unfold route_dist, route_locs. f_equal. f_equal. rewrite map_app, map_map. cbn [map].
  f_equal. apply map_ext. intros a; destruct a; reflexivity.
Qed.

Lemma core_distance v mid :
  distance_loop d (v_profile v) (d_loc (p_depot d (v_start v))) (List.tl (map sa_act (set_schedule d v mid)))
  = route_dist d v mid.
Proof.
  rewrite schedule_acts. cbn [List.tl]. rewrite distance_loop_path.
  unfold route_dist, route_locs. rewrite map_app. reflexivity.
Qed.

(** The search's route and the solution's route agree. *)
Theorem search_core_agree mid vt r : In (p_vehicle d vt) (p_vehicles d) ->
  make_route d mid vt = Ok r ->
  let c := update d (p_vehicle d vt) mid in
  r_distance r = ca_distance c /\ r_distanceCost r = ca_distanceCost c /\
  r_excessDistance r = ca_excessDistance c /\ r_duration r = ca_duration c /\
  r_durationCost r = ca_durationCost c /\ r_timeWarp r = ca_timeWarp c /\
  r_excessLoad r = ca_excessLoad c /\
  r_numClients r = ca_numClients c /\ r_numShipments r = ca_numShipments c /\
  forall ev, route_penalised ev r = search_penalised ev c.
Proof.
  intros Hin H c. pose proof (r_empty_spec _ _ _ H) as Hem.
  destruct (route_counts _ _ _ H) as (_ & Hc1 & Hc2).
  destruct (ca_counts d (p_vehicle d vt) mid) as [Hd1 Hd2].
  pose proof (update_distance (p_vehicle d vt) mid) as Hdist.
  pose proof (bpass_is_durAfter d h Hv Ho Hn Hh (p_vehicle d vt) Hin mid) as Hdur.
  apply route_fields in H. cbv zeta in H.
  set (v := p_vehicle d vt) in *.
  assert (HL : map (fun dim => ls_excessLoad (dimv (v_capacity v) dim)
                      (fst (fst (set_load d v dim (mid ++ [ADepot (v_end v)])))))
                 (seq 0 (p_numLoadDimensions d)) = ca_excessLoad c).
  { subst c. apply nth_ext with (d := 0) (d' := 0).
    { cbn [ca_excessLoad update]. rewrite !map_length. reflexivity. }
    rewrite map_length, seq_length. intros dim Hdim.
    rewrite update_excess_spec by assumption. rewrite map_nth_seq by exact Hdim.
    pose proof (set_load_spec d v dim mid (v_end v) Hin Hv) as HS.
    destruct (set_load d v dim (mid ++ [ADepot (v_end v)])) as [[ls del] pick]. cbn [fst]. tauto. }
  rewrite HL, Hdur in H. fold c in Hdur, Hdist, Hd1, Hd2. 
  assert (C1 : ca_distanceCost c = v_unitDistance v * ca_distance c) by reflexivity.
  assert (C2 : ca_excessDistance c = Z.max (ca_distance c - v_maxDistance v) 0) by reflexivity.
  assert (C3 : ca_duration c = ds_duration (hd dnone (ca_durAfter (update d v mid)))) by reflexivity.
  assert (C4 : ca_durationCost c = v_unitDuration v * ca_duration c
         + v_unitOvertime v * Z.max (ca_duration c - v_shift v) 0) by reflexivity.
  assert (C5 : ca_timeWarp c = ds_timeWarp (v_maxDuration v) (hd dnone (ca_durAfter (update d v mid)))) by reflexivity.
  rewrite <- C5, <- C3, <- C4, <- Hdist, <- C1, <- C2 in H.
  assert (F : r_distance r = ca_distance c /\ r_distanceCost r = ca_distanceCost c /\
    r_excessDistance r = ca_excessDistance c /\ r_duration r = ca_duration c /\
    r_durationCost r = ca_durationCost c /\ r_timeWarp r = ca_timeWarp c /\
    r_excessLoad r = ca_excessLoad c /\ r_fixedCost r = v_fixedCost v)
    by (rewrite H; repeat split).
  destruct F as (F1 & F2 & F3 & F4 & F5 & F6 & F7 & F8).
  do 7 (split; [assumption|]). split; [congruence|]. split; [congruence|].
  intros ev. unfold route_penalised, search_penalised. rewrite Hem. unfold c at 1. rewrite ca_empty_spec.
  rewrite F2, F3, F5, F6, F7, F8. reflexivity.
Qed.
End Core.
