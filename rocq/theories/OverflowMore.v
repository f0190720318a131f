(** Solutions and the segments of the search stay in the int64 range. *)
From Verif Require Import Base DurationSegment Data LoadSegment Route Solution Valid Overflow OverflowSeg OverflowRoute.

Section Data.
Variable d : pdata.
Variables B U : Z.
Hypothesis Hv : valid_data d.
Hypothesis Hs : sized d B U.

(** ** Sums over routes *)
Definition plan_size (plans : list (list activity * nat)) : Z := zsum (map (fun p => Z.of_nat (length (fst p)) + 3) plans).

Lemma plan_size_nonneg : forall plans, 0 <= plan_size plans.
Proof. intros plans. apply zsum_nonneg. intros x Hx. apply in_map_iff in Hx as (p & <- & _). lia. Qed.

Definition built (p : list activity * nat) (r : route) : Prop := (snd p < p_numVehicleTypes d)%nat /\ make_route d (fst p) (snd p) = Ok r.

Lemma ksum_routes : forall (f : route -> Z) plans routes s,
  Forall2 (fun p r => - (8 * (Z.of_nat (length (fst p)) + 3) * B * (U + 1)) <= f r <= 8 * (Z.of_nat (length (fst p)) + 3) * B * (U + 1)) plans routes ->
  - Q <= s - 8 * plan_size plans * B * (U + 1) -> s + 8 * plan_size plans * B * (U + 1) <= Q ->
  ksum s (map f routes) = Some (s + sum_of f routes).
Proof.
  intros f plans routes s F. pose proof (B0 d B U Hs) as HB. pose proof (sz_U _ _ _ Hs) as HU. revert s.
  induction F as [|p r plans routes Hpr F IH]; intros s H1 H2.
  - cbn. f_equal. lia.
  - cbn [map ksum]. unfold sum_of in *. cbn [map zsum]. unfold plan_size in *. cbn [map zsum] in H1, H2. fold (plan_size plans) in *.
    pose proof (plan_size_nonneg plans) as Hp. set (n := Z.of_nat (length (fst p)) + 3) in *. assert (Hn : 0 <= n) by (unfold n; lia). clearbody n.
    set (m := plan_size plans) in *. clearbody m. set (x := f r) in *. clearbody x. assert (HBU : 0 <= B * (U + 1)) by nia.
    assert (Hm : 0 <= m * (B * (U + 1))) by nia.
    kk. rewrite IH; [f_equal; lia|lia|lia].
Qed.

Lemma ksum_range : forall l s, 0 <= s -> Forall (fun x => 0 <= x <= B) l -> s + Z.of_nat (length l) * B <= Q ->
  ksum s l = Some (s + zsum l) /\ 0 <= zsum l <= Z.of_nat (length l) * B.
Proof.
  intros l s H1 H2 H3. split; [apply (ksum_ok d B U Hs); assumption|]. clear H3.
  induction H2 as [|x l Hx _ IH]; [cbn; lia|]. cbn [zsum length]. rewrite Nat2Z.inj_succ. lia.
Qed.

Lemma prizes_range : Forall (fun x => 0 <= x <= B) (map c_prize (p_clients d) ++ map s_prize (p_shipments d)).
Proof.
  apply Forall_app. split; apply Forall_forall; intros x Hx; apply in_map_iff in Hx as (y & <- & Hy).
  - apply (In_nth _ _ dummy_client) in Hy as (i & _ & <-). destruct (client_ok d B U Hv Hs i) as (_ & _ & _ & _ & C & _). exact C.
  - apply (In_nth _ _ dummy_shipment) in Hy as (i & _ & <-). destruct (shipment_ok d B U Hv Hs i) as (_ & _ & C & _). exact C.
Qed.

Lemma ranges : forall plans routes, Forall2 built plans routes -> 8 * plan_size plans * B * (U + 1) <= Q ->
  Forall2 (fun p r => in_range (8 * (Z.of_nat (length (fst p)) + 3) * B * (U + 1)) r) plans routes.
Proof.
  pose proof (B0 d B U Hs) as HB. pose proof (sz_U _ _ _ Hs) as HU.
  induction 1 as [|p r plans routes [Hp Hr] F IH]; intros HQ; [constructor|].
  unfold plan_size in *. cbn [map zsum] in HQ. fold (plan_size plans) in *. pose proof (plan_size_nonneg plans) as Hn.
  set (m := plan_size plans) in *. clearbody m.
  assert (Hl : 0 <= Z.of_nat (length (fst p))) by lia.
  constructor; [|apply IH; clear - Hl HQ HB HU; nia].
  assert (HBU : 0 <= B * U) by nia. set (n := Z.of_nat (length (fst p))) in *.
  assert (HnB : 0 <= n * B) by nia. assert (HnU : 0 <= n * (B * U)) by nia. assert (HmU : 0 <= m * (B * (U + 1))) by nia.
  destruct (route_ok d B U Hv Hs (snd p) Hp (fst p) r) as (_ & _ & _ & R); [| |exact Hr|exact R]; fold n; unfold Q, MAXV in *; lia.
Qed.

Lemma solution_ok : forall plans routes s, Forall2 built plans routes -> make_solution d routes = Ok s ->
  8 * plan_size plans * B * (U + 1) <= Q -> Z.of_nat (p_numClients d + p_numShipments d) * B <= Q ->
  kevaluate d routes = Some (mk_sums (so_prizes s) (so_distance s) (so_distanceCost s) (so_duration s) (so_overtime s)
    (so_durationCost s) (so_excessDistance s) (so_timeWarp s) (so_fixedCost s) (so_excessLoad s) (so_uncollected s)).
Proof.
  intros plans routes s F Es HQ HP. pose proof (ranges _ _ F HQ) as R. clear F.
  pose proof (plan_size_nonneg plans) as Hn. pose proof (B0 d B U Hs) as HB. pose proof (sz_U _ _ _ Hs) as HU.
  assert (HM : 0 <= 8 * plan_size plans * B * (U + 1)) by nia.
  assert (K : forall f : route -> Z, (forall M r, in_range M r -> - M <= f r <= M) -> ksum 0 (map f routes) = Some (sum_of f routes)).
  { intros f Hf. rewrite (ksum_routes f plans routes 0); [reflexivity| |lia|lia].
    clear - R Hf. induction R as [|p r plans routes Hr R IH]; constructor; [apply Hf, Hr|exact IH]. }
  destruct (ksum_range _ 0 ltac:(lia) prizes_range) as [K0 K1].
  { rewrite app_length, !map_length. unfold p_numClients, p_numShipments in HP. lia. }
  assert (Kp : 0 <= sum_of r_prizes routes <= 8 * plan_size plans * B * (U + 1)).
  { clear - R HB HU. unfold sum_of, plan_size. induction R as [|p r plans routes Hr R IH]; cbn [map zsum]; [lia|]. destruct Hr. lia. }
  unfold kevaluate. rewrite K0, ob_some, Z.add_0_l. rewrite app_length, !map_length in K1. unfold p_numClients, p_numShipments in HP.
  rewrite !K by (intros M r []; lia). rewrite !ob_some.
  rewrite (omap_some _ (fun dim => sum_of (fun r => nth dim (r_excessLoad r) 0) routes)).
  2:{ intros dim. apply K. intros M r G. pose proof (ir_excessLoad _ _ G dim). lia. }
  rewrite ob_some. kk.
  assert (Ez : zsum (map c_prize (p_clients d) ++ map s_prize (p_shipments d)) = all_prizes d) by (unfold all_prizes; apply zsum_app).
  unfold make_solution in Es. destruct (_ <? _)%nat; [discriminate|].
  destruct (visit_routes _ _ _ _) as [[[cv sv] used]|]; [|discriminate]. destruct (check_groups _ _ _); [|discriminate].
  destruct (existsb _ _); [discriminate|]. apply okinj in Es. rewrite <- Es, Ez. reflexivity.
Qed.

(** ** Duration segments of the search *)
Lemma stop_inv : forall s, plain d (XStop s) ->
  exists Sc, inv B Sc 0 0 (stop_seg d s) /\ Sc <= B /\ ds_cdur (stop_seg d s) = 0 /\ ds_ctw (stop_seg d s) = 0.
Proof.
  pose proof (B0 d B U Hs) as HB. intros s P.
  destruct s as [i|i|i|i sv|vt|vt|i]; cbn [stop_seg]; cbn [plain] in P.
  - pose proof (client_ok d B U Hv Hs i) as (D1 & D2 & D3 & D4 & _). exists (c_service (p_client d i)).
    split; [apply leaf_inv; lia|]. split; [lia|split; reflexivity].
  - pose proof (shipment_ok d B U Hv Hs i) as ((D1 & D2 & D3) & _ & _). exists (st_service (s_pickup (p_shipment d i))).
    split; [apply leaf_inv; lia|]. split; [lia|split; reflexivity].
  - pose proof (shipment_ok d B U Hv Hs i) as (_ & (D1 & D2 & D3) & _). exists (st_service (s_delivery (p_shipment d i))).
    split; [apply leaf_inv; lia|]. split; [lia|split; reflexivity].
  - pose proof (depot_ok d B U Hv Hs i) as (D1 & D2 & D3). exists (if sv then d_service (p_depot d i) else 0).
    split; [apply leaf_inv; destruct sv; lia|]. split; [destruct sv; lia|split; reflexivity].
  - pose proof (vehicle_ok d B U Hv Hs vt P) as (V1 & V2 & V3 & V4 & _). exists 0.
    split; [apply leaf_inv; lia|]. split; [lia|split; reflexivity].
  - pose proof (vehicle_ok d B U Hv Hs vt P) as (V1 & V2 & V3 & V4 & _). exists 0.
    split; [apply leaf_inv; lia|]. split; [lia|split; reflexivity].
  - pose proof (depot_ok d B U Hv Hs i) as (D1 & D2 & D3). exists (d_service (p_depot d i)).
    split; [apply leaf_inv; try lia; unfold MAXV; lia|]. split; [lia|split; reflexivity].
Qed.

Lemma xsize_pos : forall e, 1 <= xsize e.
Proof. induction e; cbn [xsize]; lia. Qed.

Lemma plain_ok : forall e, plain d e -> 8 * xsize e * B <= HQ ->
  kseval d e = Some (seval d e) /\
  exists Sc W, inv B Sc 0 W (seval d e) /\ Sc <= 2 * xsize e * B - B /\ W <= xsize e * B - B /\ ds_cdur (seval d e) = 0 /\ ds_ctw (seval d e) = 0.
Proof.
  pose proof (B0 d B U Hs) as HB. unfold HQ.
  assert (Mg : forall edge a b Sa Wa Sb Wb n m, 1 <= n -> 1 <= m -> 8 * (n + m + 1) * B <= HQ -> 0 <= edge <= B ->
    inv B Sa 0 Wa a -> Sa <= 2 * n * B - B -> Wa <= n * B - B -> ds_cdur a = 0 -> ds_ctw a = 0 ->
    inv B Sb 0 Wb b -> Sb <= 2 * m * B - B -> Wb <= m * B - B -> ds_cdur b = 0 -> ds_ctw b = 0 ->
    kds_merge edge a b = Some (ds_merge edge a b) /\
    exists Sc W, inv B Sc 0 W (ds_merge edge a b) /\ Sc <= 2 * (n + m + 1) * B - B /\ W <= (n + m + 1) * B - B /\
      ds_cdur (ds_merge edge a b) = 0 /\ ds_ctw (ds_merge edge a b) = 0).
  { intros edge a b Sa Wa Sb Wb n m Hn Hm Hq He Ia A1 A2 A3 A4 Ib B1 B2 B3 B4. unfold HQ in Hq.
    assert (HnB : B <= n * B /\ B <= m * B) by nia.
    assert (Ba : bnd Q a) by (apply (inv_bnd _ _ _ _ _ _ Ia); unfold Q; lia).
    assert (Bb : bnd Q b) by (apply (inv_bnd _ _ _ _ _ _ Ib); unfold Q; lia).
    split; [apply kmerge_ok; try assumption; unfold Q; lia|].
    exists (Sa + Sb + edge), (Wa + Wb + B). split; [apply merge_inv; try assumption; unfold Q; lia|].
    split; [lia|]. split; [lia|]. unfold ds_merge; dsc. lia. }
  induction e as [s|p i j a IHa b IHb|a IHa b IHb|a IHa|a IHa]; intros P Hq; cbn [xsize] in Hq; cbn [kseval seval xsize].
  - split; [reflexivity|]. destruct (stop_inv s P) as (Sc & I & H1 & H2 & H3). exists Sc, 0. split; [exact I|]. lia.
  - destruct P as [Pa Pb]. pose proof (xsize_pos a) as Na. pose proof (xsize_pos b) as Nb.
    destruct (IHa Pa) as (Ea & Sa & Wa & Ia & A1 & A2 & A3 & A4); [clear - Hq HB Na Nb; nia|].
    destruct (IHb Pb) as (Eb & Sb & Wb & Ib & B1 & B2 & B3 & B4); [clear - Hq HB Na Nb; nia|].
    rewrite Ea, Eb, !ob_some. eapply Mg; try eassumption. apply (dur_ok d B U Hs).
  - destruct P as [Pa Pb]. pose proof (xsize_pos a) as Na. pose proof (xsize_pos b) as Nb.
    destruct (IHa Pa) as (Ea & Sa & Wa & Ia & A1 & A2 & A3 & A4); [clear - Hq HB Na Nb; nia|].
    destruct (IHb Pb) as (Eb & Sb & Wb & Ib & B1 & B2 & B3 & B4); [clear - Hq HB Na Nb; nia|].
    rewrite Ea, Eb, !ob_some. unfold ds_merge0. eapply Mg; try eassumption. lia.
  - pose proof (xsize_pos a) as Na. assert (HnB : B <= xsize a * B) by nia.
    destruct (IHa P) as (Ea & Sa & Wa & Ia & A1 & A2 & A3 & A4); [clear - Hq HB Na; nia|].
    rewrite Ea, ob_some.
    split; [apply kfront_ok, (inv_bnd _ _ _ _ _ _ Ia); unfold Q; lia|].
    exists Sa, Wa. split; [apply front_inv; [exact Ia|unfold Q; lia]|]. split; [lia|]. split; [lia|split; reflexivity].
  - destruct P.
Qed.

Lemma joined_ok : forall e, joined d e -> 8 * xsize e * B <= HQ ->
  kseval d e = Some (seval d e) /\
  exists Sc Sp W, inv B Sc Sp W (seval d e) /\ Sc + Sp <= 2 * xsize e * B - B /\ W <= xsize e * B - B.
Proof.
  pose proof (B0 d B U Hs) as HB.
  assert (Pl : forall e, plain d e -> 8 * xsize e * B <= HQ -> kseval d e = Some (seval d e) /\
    exists Sc Sp W, inv B Sc Sp W (seval d e) /\ Sc + Sp <= 2 * xsize e * B - B /\ W <= xsize e * B - B).
  { intros e P Hq. destruct (plain_ok e P Hq) as (E & Sc & W & I & H1 & H2 & _). split; [exact E|]. exists Sc, 0, W. split; [exact I|lia]. }
  assert (Mg : forall edge a b Sa Sp Wa Sb Wb n m, 1 <= n -> 1 <= m -> 8 * (n + m + 1) * B <= HQ -> 0 <= edge <= B ->
    inv B Sa Sp Wa a -> Sa + Sp <= 2 * n * B - B -> Wa <= n * B - B ->
    inv B Sb 0 Wb b -> Sb <= 2 * m * B - B -> Wb <= m * B - B -> ds_cdur b = 0 -> ds_ctw b = 0 ->
    kds_merge edge a b = Some (ds_merge edge a b) /\
    exists Sc Sp W, inv B Sc Sp W (ds_merge edge a b) /\ Sc + Sp <= 2 * (n + m + 1) * B - B /\ W <= (n + m + 1) * B - B).
  { intros edge a b Sa Sp Wa Sb Wb n m Hn Hm Hq He Ia A1 A2 Ib B1 B2 B3 B4. unfold HQ in Hq.
    assert (HnB : B <= n * B /\ B <= m * B) by nia. pose proof (i_Sc _ _ _ _ _ Ia) as S0. pose proof (i_Sp _ _ _ _ _ Ia) as S1.
    assert (Ba : bnd Q a) by (apply (inv_bnd _ _ _ _ _ _ Ia); unfold Q; lia).
    assert (Bb : bnd Q b) by (apply (inv_bnd _ _ _ _ _ _ Ib); unfold Q; lia).
    split; [apply kmerge_ok; try assumption; unfold Q; lia|].
    exists (Sa + Sb + edge), Sp, (Wa + Wb + B). split; [apply merge_inv; try assumption; unfold Q; lia|]. lia. }
  induction e as [s|p i j a IHa b IHb|a IHa b IHb|a IHa|a IHa]; intros P Hq; [apply Pl; assumption| | |apply Pl; assumption|];
    cbn [xsize] in Hq; cbn [kseval seval xsize]; cbn [joined] in P.
  - destruct P as [Pa Pb]. pose proof (xsize_pos a) as Na. pose proof (xsize_pos b) as Nb.
    destruct (IHa Pa) as (Ea & Sa & Sp & Wa & Ia & A1 & A2); [clear - Hq HB Na Nb; nia|].
    destruct (plain_ok b Pb) as (Eb & Sb & Wb & Ib & B1 & B2 & B3 & B4); [clear - Hq HB Na Nb; nia|].
    rewrite Ea, Eb, !ob_some. eapply Mg; try eassumption. apply (dur_ok d B U Hs).
  - destruct P as [Pa Pb]. pose proof (xsize_pos a) as Na. pose proof (xsize_pos b) as Nb.
    destruct (IHa Pa) as (Ea & Sa & Sp & Wa & Ia & A1 & A2); [clear - Hq HB Na Nb; nia|].
    destruct (plain_ok b Pb) as (Eb & Sb & Wb & Ib & B1 & B2 & B3 & B4); [clear - Hq HB Na Nb; nia|].
    rewrite Ea, Eb, !ob_some. unfold ds_merge0. eapply Mg; try eassumption. lia.
  - pose proof (xsize_pos a) as Na. assert (HnB : B <= xsize a * B) by nia.
    destruct (IHa P) as (Ea & Sa & Sp & Wa & Ia & A1 & A2); [clear - Hq HB Na; nia|].
    rewrite Ea, ob_some. pose proof (i_l _ _ _ _ _ Ia) as L. unfold HQ in Hq. pose proof (i_Sc _ _ _ _ _ Ia) as S0. pose proof (i_Sp _ _ _ _ _ Ia) as S1.
    split; [apply kback_ok; [apply (inv_bnd _ _ _ _ _ _ Ia); unfold HQ; lia|lia]|].
    exists 0, (Sp + Sa), (Wa + B). split; [apply back_inv; [exact Ia|unfold Q; lia]|]. lia.
Qed.

Lemma segments_ok : forall e, joined d e -> 8 * xsize e * B <= HQ ->
  kseval d e = Some (seval d e) /\ kds_duration (seval d e) = Some (ds_duration (seval d e)) /\
  (forall m, 0 <= m -> kds_timeWarp m (seval d e) = Some (ds_timeWarp m (seval d e))) /\
  kds_endEarly (seval d e) = Some (ds_endEarly (seval d e)) /\ kds_endLate (seval d e) = Some (ds_endLate (seval d e)) /\
  kds_slack (seval d e) = Some (ds_slack (seval d e)).
Proof.
  intros e J Hq. destruct (joined_ok e J Hq) as (E & Sc & Sp & W & I & H1 & H2). pose proof (B0 d B U Hs) as HB.
  assert (Bd : bnd Q (seval d e)) by (apply (inv_bnd _ _ _ _ _ _ I); unfold Q, HQ in *; lia).
  split; [exact E|]. split; [apply kduration_ok, Bd|]. split; [intros m Hm; apply ktimeWarp_ok; assumption|].
  split; [apply kendEarly_ok, Bd|]. split; [apply kendLate_ok, Bd|apply kslack_ok, Bd].
Qed.

(** ** Load segments of the search *)
Lemma lsize_pos : forall e, 1 <= lsize e.
Proof. induction e; cbn [lsize]; lia. Qed.

Lemma loads_ok : forall cap dim e, 0 <= cap <= MAXV -> lgood d e -> 12 * lsize e * B <= Q ->
  kleval d cap dim e = Some (leval d cap dim e) /\
  let s := leval d cap dim e in
  0 <= ls_initial s /\ 0 <= ls_increase s /\ 0 <= ls_excess s /\ - (lsize e * B) <= ls_delta s <= ls_increase s
  /\ ls_initial s + ls_increase s + ls_excess s <= 2 * lsize e * B.
Proof.
  intros cap dim e Hc. pose proof (B0 d B U Hs) as HB.
  induction e as [s|a IHa b IHb|a IHa]; intros G Hq; cbn [kleval leval lsize lgood] in *.
  - destruct s as [i|i|i|vt|]; cbn [klstop_seg lstop_seg].
    + destruct (client_ok d B U Hv Hs i) as (_ & _ & _ & _ & _ & C). destruct (C dim) as [C1 C2]. unfold kls_client, ls_client.
      kk. split; [reflexivity|]. cbn [ls_initial ls_delta ls_increase ls_excess]. lia.
    + destruct (shipment_ok d B U Hv Hs i) as (_ & _ & _ & C). specialize (C dim). unfold kls_shipment, ls_shipment.
      rewrite ob_some. split; [reflexivity|]. cbn [ls_initial ls_delta ls_increase ls_excess]. lia.
    + destruct (shipment_ok d B U Hv Hs i) as (_ & _ & _ & C). specialize (C dim). unfold kls_shipment, ls_shipment.
      kk. split; [reflexivity|]. cbn [ls_initial ls_delta ls_increase ls_excess]. lia.
    + destruct (vehicle_ok d B U Hv Hs vt G) as (_ & _ & _ & _ & _ & _ & _ & _ & _ & _ & V & _). destruct (V dim) as [V1 _].
      split; [reflexivity|]. unfold ls_vehicle; cbn [ls_initial ls_delta ls_increase ls_excess]. lia.
    + split; [reflexivity|]. unfold ls_zero; cbn [ls_initial ls_delta ls_increase ls_excess]. lia.
  - destruct G as [Ga Gb]. pose proof (lsize_pos a) as Na. pose proof (lsize_pos b) as Nb.
    destruct (IHa Ga) as (Ea & A1 & A2 & A3 & A4 & A5); [clear - Hq HB Na Nb; nia|].
    destruct (IHb Gb) as (Eb & B1 & B2 & B3 & B4 & B5); [clear - Hq HB Na Nb; nia|].
    rewrite Ea, Eb, !ob_some. set (x := leval d cap dim a) in *. set (y := leval d cap dim b) in *. clearbody x y.
    assert (HnB : 0 <= lsize a * B /\ 0 <= lsize b * B) by nia.
    unfold kls_merge. kk. kk. kk. kk. split; [reflexivity|]. unfold ls_merge; cbn [ls_initial ls_delta ls_increase ls_excess]. lia.
  - pose proof (lsize_pos a) as Na. destruct (IHa G Hq) as (Ea & A1 & A2 & A3 & A4 & A5).
    rewrite Ea, ob_some. set (x := leval d cap dim a) in *. clearbody x. assert (HnB : B <= lsize a * B) by nia.
    destruct (excess_ok d B U Hs (lsize a) cap x) as [E F]; try assumption; try lia.
    unfold kls_finalise, ls_finalise. rewrite E, ob_some. split; [reflexivity|]. cbn [ls_initial ls_delta ls_increase ls_excess]. lia.
Qed.

Lemma load_values_ok : forall cap dim e, 0 <= cap <= MAXV -> lgood d e -> 12 * lsize e * B <= Q ->
  kleval d cap dim e = Some (leval d cap dim e) /\ kls_excessLoad cap (leval d cap dim e) = Some (ls_excessLoad cap (leval d cap dim e)).
Proof.
  intros cap dim e Hc G Hq. destruct (loads_ok cap dim e Hc G Hq) as (E & A1 & A2 & A3 & A4 & A5). split; [exact E|].
  pose proof (B0 d B U Hs) as HB. pose proof (lsize_pos e) as Na. assert (HnB : B <= lsize e * B) by nia.
  destruct (excess_ok d B U Hs (lsize e) cap (leval d cap dim e)) as [F _]; try assumption; try lia.
Qed.
End Data.
