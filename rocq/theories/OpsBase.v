(** What the operators rely on: plans, pieces of routes, and the cost of a changed plan. *)
From Coq Require Import Permutation.
From Verif Require Import Base DurationSegment Data LoadSegment SearchRoute RouteDur Valid ProposalDur ProposalRest Route RouteSpec
  RouteFacts2 RouteFacts3 Cost CostFacts DeltaFacts SearchFacts DataCtor SearchSpace SearchNodes SearchSeq SearchLoad Ops PlanFacts ShipState.
Local Open Scope nat_scope.

(** A plan: one well-formed route per vehicle, no visit twice. *)
Record plan_ok (d : pdata) (p : plan) : Prop := mk_plan_ok {
  pk_len : length p = length (fleet_vehicles d);
  pk_wf : forall r, r < length p -> well_formed d (rveh d r) (mid_at p r);
  pk_once : forall a, a_isDepot a = false -> tot p a <= 1 }.

(** The figures of all routes one can make stay clear of the int64 limit, reload depots do not
    close before the clients of the next trip are released, and routes with reloads either keep
    within the maximum duration or are without time warp. *)
Definition fits (d : pdata) (h : Z) : Prop :=
  forall v mid, In v (p_vehicles d) -> well_formed d v mid -> (forall a, a_isDepot a = false -> cnt mid a <= 1) ->
  (reload_releases_ok d mid /\ time_fits d h v mid /\ route_dist d v mid <= MAXV)%Z /\
  (num_reloads mid = 0 \/ (ca_duration (update d v mid) <= v_maxDuration v)%Z \/ ca_timeWarp (update d v mid) = 0%Z).

Record setting (d : pdata) (h : Z) (ev : evaluator) : Prop := mk_setting {
  st_valid : valid_data d;
  st_data : data_ok d;
  st_opens : opens_by d h;
  st_durs : nonneg_durs d;
  st_fits : fits d h;
  st_ev : ev_ok ev;
  st_pens : length (ev_load ev) = p_numLoadDimensions d }.

Lemma fleet_in d r : r < length (fleet_vehicles d) -> In (rveh d r) (p_vehicles d).
Proof.
  intros H. unfold rveh, fleet_vehicles in *. rewrite map_length in H.
  assert (Hin : In (nth r (map (p_vehicle d) (fleet d)) dummy_vehicle) (map (p_vehicle d) (fleet d))).
  { apply nth_In. rewrite map_length. exact H. }
  apply in_map_iff in Hin as (t & <- & Ht). unfold fleet in Ht. apply in_flat_map in Ht as (t' & Ht' & Hr).
  apply repeat_spec in Hr. subst t. apply in_seq in Ht'. unfold p_vehicle. apply nth_In. unfold p_numVehicleTypes in Ht'. lia.
Qed.

Lemma mid_once d p r : plan_ok d p -> forall a, a_isDepot a = false -> cnt (mid_at p r) a <= 1.
Proof. intros H a Ha. pose proof (cnt_le_tot p r a). pose proof (pk_once d p H a Ha). lia. Qed.
Lemma plan_ships d p r : plan_ok d p -> ships_ok (mid_at p r).
Proof.
  intros H. destruct (Nat.lt_ge_cases r (length p)) as [Hr|Hr].
  - apply (wf_ships d (rveh d r)). apply (pk_wf d p H r Hr).
  - unfold mid_at. rewrite nth_overflow by exact Hr. apply ships_nil.
Qed.

Lemma cache_sync d p r : r < length p -> cache_at (sync d p) r = update d (rveh d r) (mid_at p r).
Proof.
  intros H. unfold cache_at, sync. cbn [sp_caches].
  set (f := fun r0 => update d (rveh d r0) (mid_at p r0)).
  rewrite (nth_indep _ _ (f 0)) by (rewrite map_length, seq_length; exact H). rewrite map_nth. unfold f. rewrite seq_nth by exact H. reflexivity.
Qed.

(** ** Counters *)
Lemma count_loop_nth f d xs e : forall acc i, i < length xs ->
  nth i (count_loop f acc (map (item_act d) xs ++ [e])) 0 = acc + length (filter f (firstn (S i) xs)).
Proof.
  induction xs as [|x xs IH]; intros acc i H; [cbn in H; lia|]. cbn [map app count_loop].
  assert (Hact : it_act (item_act d x) = x) by (destruct x; reflexivity). rewrite Hact.
  destruct i as [|i]; cbn [nth firstn filter].
  - destruct (f x); cbn; lia.
  - cbn [length] in H. rewrite IH by lia. cbn [firstn]. destruct (f x); cbn; lia.
Qed.
Lemma nPickups_at d p r pos : r < length p -> pos <= length (mid_at p r) ->
  nPickups (sync d p) r pos = npick (firstn pos (mid_at p r)).
Proof.
  intros Hr Hp. unfold nPickups. rewrite cache_sync by exact Hr. cbn [ca_nPickups update].
  unfold route_items, count_array. destruct pos as [|i]; [reflexivity|]. cbn [nth]. rewrite count_loop_nth by lia. reflexivity.
Qed.
Lemma nDeliveries_at d p r pos : r < length p -> pos <= length (mid_at p r) ->
  nDeliveries (sync d p) r pos = ndeliv (firstn pos (mid_at p r)).
Proof.
  intros Hr Hp. unfold nDeliveries. rewrite cache_sync by exact Hr. cbn [ca_nDeliveries update].
  unfold route_items, count_array. destruct pos as [|i]; [reflexivity|]. cbn [nth]. rewrite count_loop_nth by lia. reflexivity.
Qed.
Lemma nClients_at d p r : r < length p -> nClients (sync d p) r = ncli (mid_at p r).
Proof. intros Hr. unfold nClients. rewrite cache_sync by exact Hr. apply ca_counts. Qed.
Lemma nShipments_at d p r : r < length p -> nShipments (sync d p) r = npick (mid_at p r).
Proof. intros Hr. unfold nShipments. rewrite cache_sync by exact Hr. apply ca_counts. Qed.
Lemma isEmpty_at d p r : r < length p -> isEmpty (sync d p) r = negb (has_visit (mid_at p r)).
Proof. intros Hr. unfold isEmpty. rewrite cache_sync by exact Hr. apply ca_empty_spec. Qed.

(** ** Pieces *)
Lemma items_app d v A B : route_items d v (A ++ B) = (item_start d v :: map (item_act d) A) ++ (map (item_act d) B ++ [item_end d v]).
Proof. unfold route_items. rewrite map_app, <- app_assoc. reflexivity. Qed.
Lemma firstn_len_app {A} (l l' : list A) n : n = length l -> firstn n (l ++ l') = l.
Proof. intros ->. rewrite firstn_app, firstn_all, Nat.sub_diag. cbn. apply app_nil_r. Qed.
Lemma skipn_len_app {A} (l l' : list A) n : n = length l -> skipn n (l ++ l') = l'.
Proof. intros ->. rewrite skipn_app, skipn_all, Nat.sub_diag. reflexivity. Qed.

Definition first_piece (d : pdata) (v : vehicle) (s : seg) (A : list activity) : Prop :=
  exists mid e, s = SBefore (update d v mid) e /\ e < length mid + 2 /\ seg_items d s = item_start d v :: map (item_act d) A.
Definition mid_piece (d : pdata) (s : seg) (l : list activity) : Prop :=
  wf_mid d s /\ seg_items d s = map (item_act d) l.
Definition last_piece (d : pdata) (v : vehicle) (s : seg) (B : list activity) : Prop :=
  wf_last d v s /\ seg_items d s = map (item_act d) B ++ [item_end d v].

Lemma piece_bef d p r A B e : r < length p -> mid_at p r = A ++ B -> e = length A ->
  first_piece d (rveh d r) (bef (sync d p) r e) A.
Proof.
  intros Hr Hm ->. exists (A ++ B), (length A). unfold bef. rewrite cache_sync, Hm by exact Hr.
  split; [reflexivity|]. split; [rewrite app_length; lia|]. cbn [seg_items ca_items update].
  rewrite items_app. rewrite firstn_len_app; [reflexivity|]. cbn [length]. rewrite map_length. lia.
Qed.
Lemma piece_aft d p r A B s : r < length p -> mid_at p r = A ++ B -> s = length A + 1 ->
  last_piece d (rveh d r) (aft (sync d p) r s) B.
Proof.
  intros Hr Hm ->. unfold aft. rewrite cache_sync, Hm by exact Hr. split.
  - apply wf_after. rewrite app_length. lia.
  - cbn [seg_items ca_items update]. rewrite items_app. rewrite skipn_len_app; [reflexivity|]. cbn [length]. rewrite map_length. lia.
Qed.
Lemma inner_acts d l : num_reloads l = 0 -> inner (map (item_act d) l).
Proof.
  intros H. apply inner_no_reload. intros x Hx. apply in_map_iff in Hx as (a & <- & Ha).
  rewrite it_reload_act. apply (num_reloads_In l); assumption.
Qed.
Lemma piece_btw d p r A x S B s e : r < length p -> In (rveh d r) (p_vehicles d) -> mid_at p r = A ++ (x :: S) ++ B ->
  num_reloads S = 0 -> s = length A + 1 -> e = length A + 1 + length S -> mid_piece d (btw (sync d p) r s e) (x :: S).
Proof.
  intros Hr Hin Hm Hn -> ->. unfold btw. rewrite cache_sync, Hm by exact Hr.
  set (c := update d (rveh d r) (A ++ (x :: S) ++ B)).
  assert (Hits : ca_items c = (item_start d (rveh d r) :: map (item_act d) A) ++ (item_act d x :: map (item_act d) S) ++ (map (item_act d) B ++ [item_end d (rveh d r)])).
  { unfold c. cbn [ca_items update]. rewrite items_app, map_app, <- app_assoc. reflexivity. }
  assert (Hlen : length (item_start d (rveh d r) :: map (item_act d) A) = length A + 1) by (cbn [length]; rewrite map_length; lia).
  assert (Hsl : slice (ca_items c) (length A + 1) (length A + 1 + length S) = map (item_act d) S).
  { unfold slice. rewrite Hits.
    replace (length A + 1 + 1) with (length ((item_start d (rveh d r) :: map (item_act d) A) ++ [item_act d x]))
      by (rewrite app_length, Hlen; cbn; lia).
    change ((item_act d x :: map (item_act d) S) ++ map (item_act d) B ++ [item_end d (rveh d r)])
      with ([item_act d x] ++ (map (item_act d) S ++ map (item_act d) B ++ [item_end d (rveh d r)])).
    rewrite app_assoc, skipn_len_app by reflexivity. rewrite firstn_len_app; [reflexivity|]. rewrite map_length. lia. }
  split.
  - constructor.
    + exists (rveh d r), (A ++ (x :: S) ++ B). split; [exact Hin|reflexivity].
    + lia.
    + unfold ca_size. rewrite Hits, !app_length. rewrite ?app_length; cbn [length]; rewrite ?app_length, ?map_length; cbn [length]; lia.
    + rewrite Hsl. apply inner_acts. exact Hn.
  - cbn [seg_items]. rewrite Hsl. unfold ca_item. rewrite Hits, app_nth2 by lia. rewrite Hlen, Nat.sub_diag. reflexivity.
Qed.
(** The last node of a route, as in SwapTails.cpp. *)
Lemma piece_end d p r s : r < length p -> In (rveh d r) (p_vehicles d) -> s = length (mid_at p r) + 1 ->
  last_piece d (rveh d r) (at_ (sync d p) r s) [].
Proof.
  intros Hr Hin ->. unfold at_. rewrite cache_sync by exact Hr. set (c := update d (rveh d r) (mid_at p r)).
  assert (Hits : ca_items c = (item_start d (rveh d r) :: map (item_act d) (mid_at p r)) ++ [item_end d (rveh d r)]).
  { unfold c. cbn [ca_items update route_items]. reflexivity. }
  assert (Hlen : length (item_start d (rveh d r) :: map (item_act d) (mid_at p r)) = length (mid_at p r) + 1) by (cbn [length]; rewrite map_length; lia).
  split.
  - apply wf_last_mid. constructor.
    + exists (rveh d r), (mid_at p r). split; [exact Hin|reflexivity].
    + lia.
    + unfold ca_size. rewrite Hits, app_length, Hlen. cbn. lia.
    + unfold slice. rewrite Nat.sub_diag. exact I.
  - cbn [seg_items]. unfold slice. rewrite Nat.sub_diag. cbn [firstn map app]. unfold ca_item. rewrite Hits, app_nth2 by lia.
    rewrite Hlen, Nat.sub_diag. reflexivity.
Qed.
Lemma piece_client d i : mid_piece d (SClient i) [AClient i].
Proof. split; [constructor|reflexivity]. Qed.
Lemma piece_pickup d i : mid_piece d (SPickup i) [APickup i].
Proof. split; [constructor|reflexivity]. Qed.
Lemma piece_delivery d i : mid_piece d (SDelivery i) [ADelivery i].
Proof. split; [constructor|reflexivity]. Qed.
Lemma piece_depot d i : mid_piece d (SDepot i) [ADepot i].
Proof. split; [constructor|reflexivity]. Qed.
Lemma piece_at d p r A x B s : r < length p -> In (rveh d r) (p_vehicles d) -> mid_at p r = A ++ x :: B ->
  s = length A + 1 -> mid_piece d (at_ (sync d p) r s) [x].
Proof. intros Hr Hin Hm ->. apply (piece_btw d p r A x [] B); auto. Qed.

(** ** Evaluation of a proposal *)
Section Eval.
Variable d : pdata.
Variable h : Z.
Variable ev : evaluator.
Hypothesis St : setting d h ev.

Definition rcost (v : vehicle) (mid : list activity) : Z := search_penalised ev (update d v mid).

Record fine_mid (v : vehicle) (mid : list activity) : Prop := mk_fine_mid {
  fm_wf : well_formed d v mid;
  fm_once : forall a, a_isDepot a = false -> cnt mid a <= 1 }.

Lemma make_applicable v f ms l A Ms B mid' : In v (p_vehicles d) -> first_piece d v f A ->
  Forall2 (mid_piece d) ms Ms -> last_piece d v l B -> mid' = A ++ concat Ms ++ B ->
  fine_mid v mid' -> has_visit mid' = true -> applicable d h ev v (mk_proposal f (ms ++ [l])) mid'.
Proof.
  intros Hin (m0 & e0 & -> & He & Hf) Hms (Hl & Hli) Hmid [Hwf Hone] Hvis.
  destruct (st_fits d h ev St v mid' Hin Hwf Hone) as ((F1 & F2 & F3) & F4).
  assert (Hms1 : Forall (wf_mid d) ms).
  { clear - Hms. induction Hms as [|s l ms Ms [H _] _ IH]; constructor; auto. }
  assert (Hms2 : concat (map (seg_items d) ms) = map (item_act d) (concat Ms)).
  { clear - Hms. induction Hms as [|s l ms Ms [_ H] _ IH]; [reflexivity|]. cbn [map concat]. rewrite H, IH, map_app. reflexivity. }
  constructor; auto.
  - apply (do_vehicles d (st_data d h ev St) v Hin).
  - apply (st_pens d h ev St).
  - constructor; auto.
  - unfold prop_items. cbn [pr_first pr_rest]. rewrite map_cons, map_app. cbn [concat map]. rewrite concat_app. cbn [concat].
    rewrite app_nil_r, Hf, Hms2, Hli, Hmid. unfold route_items. rewrite !map_app, <- !app_assoc. reflexivity.
  - destruct F4 as [F4|F4]; [left|right; exact F4]. cbn [pr_first]. rewrite Hf. cbn [List.tl]. apply inner_acts.
    rewrite Hmid, !num_reloads_app in F4. lia.
Qed.

(** The evaluated delta is the real one whenever it is exact or improving, and its sign is right. *)
Lemma dcost_ok ex out r p f ms l A Ms B mid' :
  r < length p -> In (rveh d r) (p_vehicles d) -> f = bef (sync d p) r (length A) ->
  first_piece d (rveh d r) f A ->
  Forall2 (mid_piece d) ms Ms -> last_piece d (rveh d r) l B -> mid' = A ++ concat Ms ++ B ->
  fine_mid (rveh d r) mid' -> has_visit mid' = true ->
  let true_delta := (out - rcost (rveh d r) (mid_at p r) + rcost (rveh d r) mid')%Z in
  (ex = true \/ dcost d ev ex out f (ms ++ [l]) < 0 -> dcost d ev ex out f (ms ++ [l]) = true_delta)%Z /\
  (dcost d ev ex out f (ms ++ [l]) <? 0)%Z = (true_delta <? 0)%Z.
Proof.
  intros Hr Hin Hf0 Hf Hms Hl Hm Hfm Hvis. cbv zeta.
  pose proof (make_applicable _ _ _ _ _ _ _ _ Hin Hf Hms Hl Hm Hfm Hvis) as Ap.
  pose proof (deltaCost_spec d h (st_valid _ _ _ St) (st_opens _ _ _ St) (st_durs _ _ _ St) ev (st_ev _ _ _ St) ex _ _ _ out Ap) as Sp.
  cbv zeta in Sp. unfold dcost, rcost. subst f. unfold bef in *. unfold prop_cache in Sp. cbn [pr_first seg_cache] in Sp.
  rewrite cache_sync in * by exact Hr.
  destruct (deltaCost _ _ _ _ _) as [o []]; cbn [fst].
  - subst o. split; [reflexivity|reflexivity].
  - destruct Sp as (-> & S1 & S2). split; [intros [|]; [discriminate|lia]|]. 
    destruct (Z.ltb_spec o 0); [lia|]. symmetry. apply Z.ltb_ge. lia.
Qed.

Lemma dcost2_ok out ru rv p fu msu lu fv msv lv Au Msu Bu Av Msv Bv mu mv :
  ru < length p -> In (rveh d ru) (p_vehicles d) -> fu = bef (sync d p) ru (length Au) -> first_piece d (rveh d ru) fu Au ->
  Forall2 (mid_piece d) msu Msu -> last_piece d (rveh d ru) lu Bu -> mu = Au ++ concat Msu ++ Bu ->
  fine_mid (rveh d ru) mu -> has_visit mu = true ->
  rv < length p -> In (rveh d rv) (p_vehicles d) -> fv = bef (sync d p) rv (length Av) -> first_piece d (rveh d rv) fv Av ->
  Forall2 (mid_piece d) msv Msv -> last_piece d (rveh d rv) lv Bv -> mv = Av ++ concat Msv ++ Bv ->
  fine_mid (rveh d rv) mv -> has_visit mv = true ->
  let true_delta := (out - rcost (rveh d ru) (mid_at p ru) - rcost (rveh d rv) (mid_at p rv) + rcost (rveh d ru) mu + rcost (rveh d rv) mv)%Z in
  (dcost2 d ev out fu (msu ++ [lu]) fv (msv ++ [lv]) < 0 -> dcost2 d ev out fu (msu ++ [lu]) fv (msv ++ [lv]) = true_delta)%Z /\
  (dcost2 d ev out fu (msu ++ [lu]) fv (msv ++ [lv]) <? 0)%Z = (true_delta <? 0)%Z.
Proof.
  intros Hru Hinu Hfu0 Hfu Hmsu Hlu Hmu Hfmu Hvisu Hrv Hinv Hfv0 Hfv Hmsv Hlv Hmv Hfmv Hvisv. cbv zeta.
  pose proof (make_applicable _ _ _ _ _ _ _ _ Hinu Hfu Hmsu Hlu Hmu Hfmu Hvisu) as Apu.
  pose proof (make_applicable _ _ _ _ _ _ _ _ Hinv Hfv Hmsv Hlv Hmv Hfmv Hvisv) as Apv.
  pose proof (deltaCost2_spec d h (st_valid _ _ _ St) (st_opens _ _ _ St) (st_durs _ _ _ St) ev (st_ev _ _ _ St) false _ _ _ _ _ _ out Apu Apv) as Sp.
  cbv zeta in Sp. unfold dcost2, rcost. subst fu fv. unfold bef in *. unfold prop_cache in Sp. cbn [pr_first seg_cache] in Sp.
  rewrite !cache_sync in * by assumption.
  destruct (deltaCost2 _ _ _ _ _ _) as [o []]; cbn [fst].
  - subst o. split; reflexivity.
  - destruct Sp as (_ & S1 & S2). split; [lia|]. destruct (Z.ltb_spec o 0); [lia|]. symmetry. apply Z.ltb_ge. lia.
Qed.

(** ** The cost of a plan *)
Definition plan_cost (p : plan) : Z := state_cost ev d (sync d p).
Definition routes_cost (p : plan) : Z := zsum (map (fun r => rcost (rveh d r) (mid_at p r)) (seq 0 (length p))).

Lemma plan_cost_eq p : plan_cost p = (uncollected d p + routes_cost p)%Z.
Proof. unfold plan_cost, state_cost, routes_cost, sync. cbn [sp_mids sp_caches]. rewrite map_map. reflexivity. Qed.

Lemma zsum_one (f g : nat -> Z) n r : r < n -> (forall i, i <> r -> f i = g i) ->
  zsum (map g (seq 0 n)) = (zsum (map f (seq 0 n)) - f r + g r)%Z.
Proof.
  intros Hr He. assert (X : forall a n, a <= r < a + n -> zsum (map g (seq a n)) = (zsum (map f (seq a n)) - f r + g r)%Z).
  { clear Hr n. intros a n; revert a; induction n as [|n IH]; intros a Ha; [lia|]. cbn [seq map zsum].
    destruct (Nat.eq_dec a r) as [->|Hne].
    - assert (E : zsum (map g (seq (S r) n)) = zsum (map f (seq (S r) n))).
      { f_equal. apply map_ext_in. intros i Hi. apply in_seq in Hi. symmetry. apply He. lia. }
      rewrite E. lia.
    - rewrite IH by lia. rewrite (He a Hne). lia. }
  apply X. lia.
Qed.
Lemma routes_upd p r m : r < length p ->
  routes_cost (upd p r m) = (routes_cost p - rcost (rveh d r) (mid_at p r) + rcost (rveh d r) m)%Z.
Proof.
  intros H. unfold routes_cost. rewrite upd_length.
  rewrite (zsum_one (fun r => rcost (rveh d r) (mid_at p r)) (fun r0 => rcost (rveh d r0) (mid_at (upd p r m) r0)) (length p) r H).
  - rewrite mid_at_same by exact H. reflexivity.
  - intros i Hi. rewrite mid_at_other by congruence. reflexivity.
Qed.

(** Prizes *)
Definition unit_act (a : activity) : Prop :=
  match a with AClient i => i < p_numClients d | APickup i => i < p_numShipments d | _ => False end.
Definition prize_of (a : activity) : Z :=
  match a with AClient i => c_prize (p_client d i) | APickup i => s_prize (p_shipment d i) | _ => 0%Z end.
Definition unc (f : activity -> bool) : Z :=
  (zsum (map (fun i => if f (AClient i) then 0 else c_prize (p_client d i)) (seq 0 (p_numClients d)))
   + zsum (map (fun i => if f (APickup i) then 0 else s_prize (p_shipment d i)) (seq 0 (p_numShipments d))))%Z.
Lemma uncollected_unc p : uncollected d p = unc (isPlanned p).
Proof. reflexivity. Qed.
Lemma unc_ext f g : (forall a, unit_act a -> f a = g a) -> unc f = unc g.
Proof.
  intros H. unfold unc. f_equal; f_equal; apply map_ext_in; intros i Hi; apply in_seq in Hi; rewrite H; try reflexivity; cbn; lia.
Qed.
Lemma unc_add f g a : unit_act a -> f a = false -> g a = true -> (forall b, b <> a -> f b = g b) ->
  unc g = (unc f - prize_of a)%Z.
Proof.
  intros Hu Hf Hg He. unfold unc. destruct a as [i|i|i|i]; cbn [unit_act] in Hu; try contradiction; cbn [prize_of].
  - rewrite (zsum_one (fun i => if f (AClient i) then 0%Z else c_prize (p_client d i)) (fun i => if g (AClient i) then 0%Z else c_prize (p_client d i)) (p_numClients d) i Hu).
    + rewrite Hf, Hg. rewrite (map_ext (fun i0 => if g (APickup i0) then 0%Z else s_prize (p_shipment d i0)) (fun i0 => if f (APickup i0) then 0%Z else s_prize (p_shipment d i0))); [lia|].
      intros j. rewrite He by congruence. reflexivity.
    + intros j Hj. rewrite He by congruence. reflexivity.
  - rewrite (zsum_one (fun i => if f (APickup i) then 0%Z else s_prize (p_shipment d i)) (fun i => if g (APickup i) then 0%Z else s_prize (p_shipment d i)) (p_numShipments d) i Hu).
    + rewrite Hf, Hg. rewrite (map_ext (fun i0 => if g (AClient i0) then 0%Z else c_prize (p_client d i0)) (fun i0 => if f (AClient i0) then 0%Z else c_prize (p_client d i0))); [lia|].
      intros j. rewrite He by congruence. reflexivity.
    + intros j Hj. rewrite He by congruence. reflexivity.
Qed.
(** Replacing [a] by [b]. *)
Lemma unc_swap f g a b : unit_act a -> unit_act b -> a <> b -> f a = true -> f b = false -> g a = false -> g b = true ->
  (forall c, c <> a -> c <> b -> f c = g c) -> unc g = (unc f + prize_of a - prize_of b)%Z.
Proof.
  intros Ha Hb Hab F1 F2 G1 G2 He.
  set (k := fun c => if a_eqb c a then false else f c).
  assert (K1 : unc f = (unc k - prize_of a)%Z).
  { apply unc_add; auto; unfold k; [rewrite eqb_refl; reflexivity|]. intros c Hc. rewrite eqb_false by exact Hc. reflexivity. }
  assert (K2 : unc g = (unc k - prize_of b)%Z).
  { apply unc_add; auto; unfold k.
    - rewrite eqb_false by congruence. exact F2.
    - intros c Hc. destruct (a_eqb c a) eqn:E; [apply a_eqb_eq in E; subst; congruence|]. apply He; [|exact Hc].
      intros ->. rewrite eqb_refl in E. discriminate. }
  lia.
Qed.

(** Empty routes cost nothing. *)
Lemma rcost_empty v mid : has_visit mid = false -> rcost v mid = 0%Z.
Proof. intros H. unfold rcost, search_penalised. rewrite ca_empty_spec, H. reflexivity. Qed.
Lemma has_visit_app A B : has_visit (A ++ B) = has_visit A || has_visit B.
Proof. unfold has_visit. apply existsb_app. Qed.
Lemma has_visit_counts mid : has_visit mid = false <-> ncli mid = 0 /\ npick mid = 0.
Proof.
  unfold has_visit, ncli, npick. induction mid as [|a mid IH]; [cbn; tauto|]. cbn [existsb filter].
  destruct a; cbn [a_isClient a_isPickup orb]; cbn [length]; rewrite ?IH; split; try discriminate; try tauto; intros []; discriminate.
Qed.
End Eval.
