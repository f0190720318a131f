(** Route construction stays in the int64 range. *)
From Verif Require Import Base DurationSegment Data LoadSegment Route Valid RouteFacts2 Overflow OverflowSeg.

(** No number of the data that is added up or multiplied is above [B]; no unit cost is above [U].  Closing times,
    capacities and the limits of a vehicle may be as large as the type allows. *)
Record sized (d : pdata) (B U : Z) : Prop := {
  sz_opens : opens_by d B;
  sz_U : 0 <= U;
  sz_clients : Forall (fun c => c_service c <= B /\ c_prize c <= B /\ Forall (fun x => x <= B) (c_delivery c)
                                /\ Forall (fun x => x <= B) (c_pickup c)) (p_clients d);
  sz_depots : Forall (fun x => d_service x <= B) (p_depots d);
  sz_shipments : Forall (fun s => st_service (s_pickup s) <= B /\ st_service (s_delivery s) <= B /\ s_prize s <= B
                                  /\ Forall (fun x => x <= B) (s_amount s)) (p_shipments d);
  sz_vehicles : Forall (fun v => Forall (fun x => x <= B) (v_initialLoad v) /\ Forall (fun x => x <= MAXV) (v_capacity v)
                                 /\ v_unitDistance v <= U /\ v_unitDuration v <= U /\ v_unitOvertime v <= U
                                 /\ v_shift v <= MAXV /\ v_maxDistance v <= MAXV /\ - B <= v_fixedCost v <= B) (p_vehicles d);
  sz_durs : Forall (fun m => Forall (fun x => 0 <= x <= B) (m_data m)) (p_durs d);
  sz_dists : Forall (fun m => Forall (fun x => 0 <= x <= B) (m_data m)) (p_dists d) }.

Lemma nth_range : forall B l i, 0 <= B -> Forall (fun x => 0 <= x <= B) l -> 0 <= nth i l 0 <= B.
Proof. intros B l i HB H. apply (Forall_nth_default (fun x => 0 <= x <= B)); [exact H|lia]. Qed.
Lemma dimv_range : forall B l i, 0 <= B -> Forall (fun x => 0 <= x) l -> Forall (fun x => x <= B) l -> 0 <= dimv l i <= B.
Proof.
  intros B l i HB H1 H2. unfold dimv. split.
  - apply (Forall_nth_default (fun x => 0 <= x)); [exact H1|lia].
  - apply (Forall_nth_default (fun x => x <= B)); [exact H2|lia].
Qed.

Section Data.
Variable d : pdata.
Variables B U : Z.
Hypothesis Hv : valid_data d.
Hypothesis Hs : sized d B U.

Lemma B0 : 0 <= B.
Proof. exact (ob_nonneg _ _ (sz_opens _ _ _ Hs)). Qed.
Lemma dur_ok : forall p i j, 0 <= p_dur d p i j <= B.
Proof.
  intros p i j. unfold p_dur, m_at. apply nth_range; [apply B0|].
  apply (Forall_nth_default (fun m => Forall (fun x => 0 <= x <= B) (m_data m))); [apply (sz_durs _ _ _ Hs)|constructor].
Qed.
Lemma dist_ok : forall p i j, 0 <= p_dist d p i j <= B.
Proof.
  intros p i j. unfold p_dist, m_at. apply nth_range; [apply B0|].
  apply (Forall_nth_default (fun m => Forall (fun x => 0 <= x <= B) (m_data m))); [apply (sz_dists _ _ _ Hs)|constructor].
Qed.
Lemma client_ok : forall i, let c := p_client d i in
  0 <= c_service c <= B /\ 0 <= c_early c <= B /\ c_early c <= c_late c <= MAXV /\ 0 <= c_release c <= B /\ 0 <= c_prize c <= B
  /\ forall dim, 0 <= dimv (c_delivery c) dim <= B /\ 0 <= dimv (c_pickup c) dim <= B.
Proof.
  intros i c. pose proof (valid_p_client d i Hv) as V. pose proof (opens_p_client d B i (sz_opens _ _ _ Hs)) as O.
  assert (S : c_service c <= B /\ c_prize c <= B /\ Forall (fun x => x <= B) (c_delivery c) /\ Forall (fun x => x <= B) (c_pickup c)).
  { apply (Forall_nth_default (fun c => c_service c <= B /\ c_prize c <= B /\ Forall (fun x => x <= B) (c_delivery c)
                                /\ Forall (fun x => x <= B) (c_pickup c))); [apply (sz_clients _ _ _ Hs)|].
    pose proof B0. cbn; repeat split; try lia; constructor. }
  fold c in V, O. clearbody c. destruct V. destruct S as (S1 & S2 & S3 & S4). pose proof B0 as HB.
  do 5 (split; [lia|]). intros dim. split; apply dimv_range; assumption.
Qed.
Lemma depot_ok : forall i, let x := p_depot d i in
  0 <= d_service x <= B /\ 0 <= d_early x <= B /\ d_early x <= d_late x <= MAXV.
Proof.
  intros i x. pose proof (valid_p_depot d i Hv) as V. pose proof (opens_p_depot d B i (sz_opens _ _ _ Hs)) as O.
  assert (S : d_service x <= B).
  { apply (Forall_nth_default (fun x => d_service x <= B)); [apply (sz_depots _ _ _ Hs)|]. pose proof B0. cbn; lia. }
  fold x in V, O. clearbody x. destruct V. lia.
Qed.
Definition step_ok (s : step) : Prop := 0 <= st_service s <= B /\ 0 <= st_early s <= B /\ st_early s <= st_late s <= MAXV.
Lemma shipment_ok : forall i, let s := p_shipment d i in
  step_ok (s_pickup s) /\ step_ok (s_delivery s) /\ 0 <= s_prize s <= B /\ forall dim, 0 <= dimv (s_amount s) dim <= B.
Proof.
  intros i s. pose proof (valid_p_shipment d i Hv) as V. pose proof (opens_p_shipment d B i (sz_opens _ _ _ Hs)) as O.
  assert (S : st_service (s_pickup s) <= B /\ st_service (s_delivery s) <= B /\ s_prize s <= B /\ Forall (fun x => x <= B) (s_amount s)).
  { apply (Forall_nth_default (fun s => st_service (s_pickup s) <= B /\ st_service (s_delivery s) <= B /\ s_prize s <= B
                                  /\ Forall (fun x => x <= B) (s_amount s))); [apply (sz_shipments _ _ _ Hs)|].
    pose proof B0. cbn; repeat split; try lia; constructor. }
  fold s in V, O. clearbody s. destruct V as [[] [] ? ?]. destruct S as (S1 & S2 & S3 & S4). unfold step_ok.
  split; [lia|]. split; [lia|]. split; [lia|]. intros dim. apply dimv_range; try assumption. apply B0.
Qed.

(** *** Segments *)
Lemma leaf_inv : forall service e l r, 0 <= service <= B -> 0 <= e <= B -> e <= l <= MAXV -> 0 <= r <= B ->
  inv B service 0 0 (mk_dseg service 0 e l r 0 0 MAXV).
Proof. intros service e l r H1 H2 H3 H4. unfold MAXV in *. constructor; dsc; unfold MAXV; lia. Qed.

Lemma ksum_ok : forall l s, 0 <= s -> Forall (fun x => 0 <= x <= B) l -> s + Z.of_nat (length l) * B <= Q -> ksum s l = Some (s + zsum l).
Proof.
  pose proof B0 as HB. induction l as [|x l IH]; intros s Hs0 F HQ.
  - cbn. f_equal. lia.
  - cbn [ksum zsum length] in *. rewrite Nat2Z.inj_succ in *. inversion F as [|? ? Fx Fl]; subst.
    assert (Hn : 0 <= Z.of_nat (length l) * B) by nia. kk. rewrite IH; try assumption; try lia. f_equal. lia.
Qed.

Lemma excess_ok : forall n cap ls, 6 * (n + 1) * B <= Q -> 0 <= n -> 0 <= cap <= MAXV ->
  0 <= ls_initial ls -> 0 <= ls_increase ls -> 0 <= ls_excess ls -> ls_initial ls + ls_increase ls + ls_excess ls <= 2 * n * B ->
  kls_excessLoad cap ls = Some (ls_excessLoad cap ls) /\ 0 <= ls_excessLoad cap ls <= 2 * n * B.
Proof.
  intros n cap ls HQ Hn Hc H1 H2 H3 H5. pose proof B0 as HB. assert (HnB : 0 <= n * B) by nia.
  unfold kls_excessLoad, ls_excessLoad, ls_load. kk. kk. rewrite ck_ok by (unfold MAXV, Q in *; lia). split; [reflexivity|lia].
Qed.

Variable vt : nat.
Hypothesis Hvt : (vt < p_numVehicleTypes d)%nat.
Let v := p_vehicle d vt.

Lemma vehicle_ok :
  0 <= v_early v <= B /\ v_early v <= v_startLate v /\ v_startLate v <= v_late v /\ v_late v <= MAXV
  /\ 0 <= v_maxDuration v /\ 0 <= v_shift v <= MAXV /\ 0 <= v_maxDistance v <= MAXV
  /\ 0 <= v_unitDistance v <= U /\ 0 <= v_unitDuration v <= U /\ 0 <= v_unitOvertime v <= U
  /\ (forall dim, 0 <= dimv (v_initialLoad v) dim <= B /\ 0 <= dimv (v_capacity v) dim <= MAXV) /\ - B <= v_fixedCost v <= B.
Proof.
  assert (I : In v (p_vehicles d)) by (apply nth_In, Hvt).
  pose proof (proj1 (Forall_forall _ _) (va_vehicles _ Hv) v I) as V.
  pose proof (proj1 (Forall_forall _ _) (ob_vehicles _ _ (sz_opens _ _ _ Hs)) v I) as O. cbv beta in O.
  pose proof (proj1 (Forall_forall _ _) (sz_vehicles _ _ _ Hs) v I) as (S1 & S2 & S3 & S4 & S5 & S6 & S7 & S8).
  clearbody v. destruct V. pose proof B0 as HB.
  do 10 (split; [lia|]). split; [|exact S8]. intros dim. split; apply dimv_range; try assumption. discriminate.
Qed.

(** What the backward pass has after [k] merges, and what holds of its sums. *)
Record binv (n : Z) (b : bpass) : Prop := {
  bi_seg : exists Sc W, inv B Sc 0 W (bp_ds b) /\ Sc <= 2 * n * B /\ W <= (n + 1) * B;
  bi_cd : ds_cdur (bp_ds b) = 0; bi_ct : ds_ctw (bp_ds b) = 0; bi_pel : ds_pel (bp_ds b) = MAXV;
  bi_rels : Forall (fun x => 0 <= x <= B) (bp_rels b);
  bi_srv : 0 <= bp_service b <= n * B; bi_trv : 0 <= bp_travel b <= n * B }.

Lemma seg_bnd : forall n Sc W s, inv B Sc 0 W s -> 0 <= n -> Sc <= 2 * n * B -> W <= (n + 1) * B -> 6 * (n + 1) * B <= Q -> bnd Q s.
Proof. intros n Sc W s I Hn H1 H2 H3. pose proof B0. apply (inv_bnd _ _ _ _ _ _ I). nia. Qed.

Lemma leaf_bnd : forall service e l r, B <= Q -> 0 <= service <= B -> 0 <= e <= B -> e <= l <= MAXV -> 0 <= r <= B ->
  bnd Q (mk_dseg service 0 e l r 0 0 MAXV).
Proof. intros. pose proof B0. constructor; dsc; unfold Q, MAXV in *; lia. Qed.

Lemma init_ok : B <= Q -> kbpass_init d v = Some (bpass_init d v) /\ binv 0 (bpass_init d v).
Proof.
  intros HB. pose proof vehicle_ok as (V1 & V2 & V3 & V4 & _). pose proof (depot_ok (v_end v)) as (D1 & D2 & D3). pose proof B0 as H0.
  unfold kbpass_init, bpass_init. unfold ds_depot, ds_vehicle.
  rewrite kmerge_ok; [|apply leaf_bnd; lia..|unfold Q; lia]. split; [reflexivity|].
  constructor; cbn [bp_ds bp_service bp_travel bp_rels]; try lia; try reflexivity; [|constructor].
  exists 0, B. split; [|lia].
  apply (merge_inv B 0 0 0 0 0 0); try reflexivity; try lia; apply leaf_inv; lia.
Qed.

Lemma visit_ok : forall n loc seg b, 0 <= n -> binv n b -> 6 * (n + 2) * B <= Q ->
  inv B (ds_dur seg) 0 0 seg -> 0 <= ds_dur seg <= B -> ds_cdur seg = 0 -> ds_ctw seg = 0 -> ds_pel seg = MAXV ->
  let edge := p_dur d (v_profile v) loc (bp_loc b) in
  let b' := mk_bpass (ds_merge edge seg (bp_ds b)) loc (bp_rels b) (bp_service b + ds_dur seg) (bp_travel b + edge) in
  kbpass_visit d v loc seg b = Some b' /\ binv (n + 1) b' /\ bnd Q (bp_ds b') /\ 0 <= ds_rel (bp_ds b') <= B.
Proof.
  intros n loc seg b Hn [(Sc & W & I & H1 & H2) H3 H4 H5 H6 H7 H8] HQ Is Hd Hc1 Hc2 Hp edge b'.
  pose proof (dur_ok (v_profile v) loc (bp_loc b)) as He. fold edge in He. pose proof B0 as HB.
  assert (HnB : 0 <= n * B /\ 6 * B <= Q) by nia.
  assert (M : inv B (ds_dur seg + Sc + edge) 0 (0 + W + B) (ds_merge edge seg (bp_ds b)))
    by (apply merge_inv; try assumption; unfold Q in *; lia).
  assert (Bm : bnd Q (ds_merge edge seg (bp_ds b))) by (apply (inv_bnd _ _ _ _ _ _ M); lia).
  unfold kbpass_visit. fold edge.
  kk. kk.
  rewrite kmerge_ok; [rewrite ob_some| | |lia].
  2:{ apply (inv_bnd _ _ _ _ _ _ Is). lia. }
  2:{ apply (inv_bnd _ _ _ _ _ _ I). lia. }
  split; [reflexivity|]. split; [|split; [exact Bm|pose proof (i_rel _ _ _ _ _ M) as R; rewrite Z.add_0_r in R; exact R]]. unfold b'. constructor; cbn [bp_ds bp_service bp_travel bp_rels]; try lia; try assumption.
  - exists (ds_dur seg + Sc + edge), (0 + W + B). split; [exact M|]. lia.
  - unfold ds_merge; dsc. lia.
  - unfold ds_merge; dsc. lia.
Qed.

Lemma loop_ok : forall acts, 6 * (Z.of_nat (length acts) + 1) * B <= Q ->
  kbpass_loop d v acts = Some (bpass_loop d v acts) /\ binv (Z.of_nat (length acts)) (bpass_loop d v acts).
Proof.
  pose proof B0 as HB.
  induction acts as [|a acts IH]; intros HQ; [apply init_ok; cbn [length] in HQ; lia|].
  cbn [length] in *. rewrite Nat2Z.inj_succ in *. destruct IH as [IH1 IH2]; [nia|].
  cbn [kbpass_loop bpass_loop]. rewrite IH1, ob_some. set (b := bpass_loop d v acts) in *. clearbody b. clear IH1.
  set (n := Z.of_nat (length acts)) in *. assert (Hn : 0 <= n) by (unfold n; lia). clearbody n.
  replace (Z.succ n) with (n + 1) in * by lia.
  assert (HQ' : 6 * (n + 2) * B <= Q) by (replace (n + 2) with (n + 1 + 1) by lia; exact HQ).
  destruct a as [i|i|i|i]; cbn [kbpass_step bpass_step].
  - pose proof (depot_ok i) as (D1 & D2 & D3).
    destruct (visit_ok n (d_loc (p_depot d i)) (ds_depot (p_depot d i) (d_service (p_depot d i))) b) as (E1 & E2 & E3 & E4);
      try assumption; try reflexivity; [apply leaf_inv; lia|].
    rewrite E1, ob_some. cbn [bp_ds bp_loc bp_rels bp_service bp_travel] in *. rewrite kfront_ok by exact E3. rewrite ob_some.
    split; [reflexivity|]. destruct E2 as [(Sc & W & I & F1 & F2) G1 G2 G3 G4 G5 G6]. cbn [bp_ds bp_loc bp_rels bp_service bp_travel] in *.
    constructor; cbn [bp_ds bp_loc bp_rels bp_service bp_travel]; try assumption; try reflexivity.
    + exists Sc, W. split; [apply front_inv; [exact I|nia]|lia].
    + constructor; assumption.
  - pose proof (client_ok i) as (D1 & D2 & D3 & D4 & _).
    destruct (visit_ok n (c_loc (p_client d i)) (ds_client (p_client d i)) b) as (E1 & E2 & E3 & E4);
      try assumption; try reflexivity; [apply leaf_inv; lia|]. split; assumption.
  - pose proof (shipment_ok i) as ((D1 & D2 & D3) & _ & _).
    destruct (visit_ok n (st_loc (s_pickup (p_shipment d i))) (ds_step (s_pickup (p_shipment d i))) b) as (E1 & E2 & E3 & E4);
      try assumption; try reflexivity; [apply leaf_inv; lia|]. split; assumption.
  - pose proof (shipment_ok i) as (_ & (D1 & D2 & D3) & _).
    destruct (visit_ok n (st_loc (s_delivery (p_shipment d i))) (ds_step (s_delivery (p_shipment d i))) b) as (E1 & E2 & E3 & E4);
      try assumption; try reflexivity; [apply leaf_inv; lia|]. split; assumption.
Qed.

Lemma final_ok : forall acts, let n := Z.of_nat (length acts) in 6 * (n + 2) * B <= Q ->
  kbpass_final d v acts = Some (bpass_final d v acts) /\
  let b := bpass_final d v acts in
  bnd Q (bp_ds b) /\ ds_early (bp_ds b) <= B /\ ds_rel (bp_ds b) <= B /\ ds_cdur (bp_ds b) = 0 /\ ds_pel (bp_ds b) = MAXV /\ 0 <= ds_dur (bp_ds b) <= 3 * (n + 2) * B
  /\ (ds_ctw (bp_ds b) = 0 /\ ds_tw (bp_ds b) <= 3 * (n + 3) * B /\ ds_early (bp_ds b) <= ds_late (bp_ds b))
  /\ Forall (fun x => 0 <= x <= B) (bp_rels b) /\ 0 <= bp_service b <= (n + 1) * B /\ 0 <= bp_travel b <= (n + 1) * B.
Proof.
  intros acts n HQ. pose proof B0 as HB. assert (Hn : 0 <= n) by (unfold n; lia).
  destruct (loop_ok acts) as [E I]; [fold n; nia|]. fold n in I. unfold kbpass_final, bpass_final. rewrite E, ob_some.
  set (b := bpass_loop d v acts) in *. clearbody b. clear E.
  pose proof (depot_ok (v_start v)) as (D1 & D2 & D3). pose proof vehicle_ok as (V1 & V2 & V3 & V4 & _).
  destruct (visit_ok n (d_loc (p_depot d (v_start v))) (ds_depot (p_depot d (v_start v)) (d_service (p_depot d (v_start v)))) b) as (E1 & E2 & E3 & E4);
      try assumption; try reflexivity; [apply leaf_inv; lia|].
  rewrite E1, ob_some. destruct E2 as [(Sc & W & J & F1 & F2) G1 G2 G3 G4 G5 G6]. cbn [bp_ds bp_loc bp_rels bp_service bp_travel] in *.
  set (m := ds_merge _ _ _) in *. unfold ds_merge0.
  assert (HB6 : 12 * B <= Q) by nia.
  assert (Bv : bnd Q (ds_vehicle v (v_startLate v))) by (apply leaf_bnd; lia).
  rewrite kmerge_ok by (try assumption; unfold Q; lia). rewrite ob_some. split; [reflexivity|]. cbv zeta. cbn [bp_ds bp_loc bp_rels bp_service bp_travel].
  assert (K : inv B (0 + Sc + 0) 0 (0 + W + B) (ds_merge 0 (ds_vehicle v (v_startLate v)) m)).
  { apply merge_inv; try assumption; try lia. apply leaf_inv; lia. }
  clearbody m. set (f := ds_merge 0 _ m) in *. pose proof (i_rel _ _ _ _ _ K). pose proof (i_e _ _ _ _ _ K). pose proof (i_tot _ _ _ _ _ K).
  pose proof (i_cdur _ _ _ _ _ K). pose proof (i_dur _ _ _ _ _ K).
  split; [apply (inv_bnd _ _ _ _ _ _ K); lia|]. split; [lia|]. split; [lia|].
  split; [unfold f, ds_merge; dsc; unfold ds_vehicle; dsc; lia|].
  split; [reflexivity|]. split; [nia|].
  pose proof (i_end _ _ _ _ _ K) as Ke. pose proof (i_l _ _ _ _ _ K) as Kl.
  split; [split; [unfold f, ds_merge; dsc; unfold ds_vehicle; dsc; lia|nia]|].
  split; [constructor; [lia|assumption]|]. split; [exact G5|exact G6].
Qed.

(** *** The timetable *)
Lemma handle_ok : forall now a trip early late service T, 0 <= now <= T -> 0 <= early <= T -> 0 <= late <= MAXV -> 0 <= service <= B -> T + B <= Q ->
  khandle now a trip early late service = Some (handle now a trip early late service) /\
  0 <= fst (handle now a trip early late service) <= T + B.
Proof.
  intros now a trip early late service T H1 H2 H3 H4 H5. pose proof B0 as HB. unfold khandle, handle.
  set (w := Z.max (early - now) 0). set (x := Z.max (now - late) 0).
  assert (Hw : 0 <= w /\ early - now <= w /\ (w = 0 \/ w = early - now)) by (unfold w; clear; lia).
  assert (Hx : 0 <= x /\ now - late <= x /\ (x = 0 \/ x = now - late)) by (unfold x; clear; lia).
  kk. fold w. kk. fold x. clearbody w x. kk. kk. kk. split; [reflexivity|]. cbn [fst]. lia.
Qed.

Lemma fpass_unfold : forall now loc trip rels k a more,
  fpass d v now loc trip rels k (a :: more) =
  (let '(l, early, late, service) := visit_at d (hd 0 rels) a in
   let t := match a with ADepot _ => S trip | _ => trip end in
   let rs := match a with ADepot _ => List.tl rels | _ => rels end in
   let r := handle (now + p_dur d (v_profile v) loc l) a t early late service in
   snd r :: fpass d v (fst r) l t rs k more).
Proof. intros. destruct a; cbn [fpass visit_at]; cbv zeta; destruct (handle _ _ _ _ _ _); reflexivity. Qed.

Lemma visit_at_ok : forall r a l early late service, 0 <= r <= B -> visit_at d r a = (l, early, late, service) ->
  0 <= early <= B /\ 0 <= late <= MAXV /\ 0 <= service <= B.
Proof.
  intros r a l early late service Hr. destruct a as [i|i|i|i]; cbn [visit_at]; intros [= <- <- <- <-].
  - pose proof (depot_ok i) as (D1 & D2 & D3). lia.
  - pose proof (client_ok i) as (D1 & D2 & D3 & D4 & _). lia.
  - pose proof (shipment_ok i) as ((D1 & D2 & D3) & _ & _). lia.
  - pose proof (shipment_ok i) as (_ & (D1 & D2 & D3) & _). lia.
Qed.

Lemma fpass_ok : forall acts now loc trip rels k T, 0 <= now <= T -> B <= T -> Forall (fun x => 0 <= x <= B) rels ->
  T + 2 * (Z.of_nat (length acts) + 1) * B <= Q ->
  kfpass d v now loc trip rels k acts = Some (fpass d v now loc trip rels k acts).
Proof.
  pose proof B0 as HB.
  induction acts as [|a acts IH]; intros now loc trip rels k T H1 H2 H3 H4.
  - cbn [kfpass fpass]. pose proof (dur_ok (v_profile v) loc (d_loc (p_depot d (v_end v)))) as He. cbn [length] in H4.
    pose proof (depot_ok (v_end v)) as (D1 & D2 & D3).
    kk. set (now' := now + _) in *.
    destruct (handle_ok now' (ADepot (v_end v)) k (d_early (p_depot d (v_end v))) (d_late (p_depot d (v_end v))) 0 (T + B)) as [E _]; try (unfold now'; lia).
    rewrite E, ob_some. destruct (handle _ _ _ _ _ _). reflexivity.
  - rewrite fpass_unfold. cbn [kfpass]. cbn [length] in H4. rewrite Nat2Z.inj_succ in H4.
    destruct (visit_at d (hd 0 rels) a) as [[[l early] late] service] eqn:Ev.
    assert (Hr : 0 <= hd 0 rels <= B) by (destruct H3; cbn; [lia|assumption]).
    destruct (visit_at_ok _ _ _ _ _ _ Hr Ev) as (F1 & F2 & F3).
    pose proof (dur_ok (v_profile v) loc l) as He. set (n := Z.of_nat (length acts)) in *.
    assert (Hn : 0 <= n) by (unfold n; lia). assert (HnB : 0 <= n * B) by nia.
    kk. set (now' := now + _) in *. set (t := match a with ADepot _ => _ | _ => _ end). set (rs := match a with ADepot _ => List.tl rels | _ => _ end).
    destruct (handle_ok now' a t early late service (T + B)) as [E G]; try (unfold now'; lia).
    rewrite E, ob_some. destruct (handle now' a t early late service) as [later en]. cbn [fst snd] in *.
    rewrite (IH later l t rs k (T + 2 * B)); [reflexivity| | | |]; try lia.
    unfold rs. destruct a; try assumption. destruct H3; cbn; [constructor|assumption].
Qed.

Lemma schedule_ok : forall acts, 6 * (Z.of_nat (length acts) + 2) * B <= Q ->
  kset_schedule d v (bpass_final d v acts) acts = Some (set_schedule d v acts).
Proof.
  intros acts HQ. pose proof B0 as HB. destruct (final_ok acts HQ) as (_ & F1 & F2 & F3 & F4 & F5 & F6 & _ & F7 & F8).
  unfold kset_schedule, set_schedule. set (b := bpass_final d v acts) in *. clearbody b.
  pose proof (depot_ok (v_start v)) as (D1 & D2 & D3). pose proof vehicle_ok as (V1 & V2 & V3 & V4 & _).
  destruct F1. set (n := Z.of_nat (length acts)) in *. assert (Hn : 0 <= n * B) by (unfold n; nia).
  set (x := p_depot d (v_start v)) in *.
  destruct (handle_ok (ds_startEarly (bp_ds b)) (ADepot (v_start v)) 0 (Z.max (d_early x) (Z.min (ds_rel (bp_ds b)) (d_late x)))
              (Z.min (d_late x) (v_startLate v)) (d_service x) (2 * B)) as [E G];
    try (unfold ds_startEarly; unfold Q, MAXV in *; lia).
  rewrite E, ob_some. destruct (handle _ _ _ _ _ _) as [now en]. cbn [fst snd] in *.
  rewrite (fpass_ok acts now (d_loc x) 0 (List.tl (bp_rels b)) (length (bp_rels b)) (3 * B)); [reflexivity|lia|lia| |].
  - destruct (bp_rels b); [constructor|]. inversion F7; assumption.
  - fold n. lia.
Qed.

(** *** Distance, load, prizes *)
Lemma distance_ok : forall p acts sum frm, 0 <= sum -> sum + Z.of_nat (length acts) * B <= Q ->
  kdistance_loop d p sum frm acts = Some (sum + distance_loop d p frm acts)
  /\ 0 <= distance_loop d p frm acts <= Z.of_nat (length acts) * B.
Proof.
  intros p. pose proof B0 as HB. induction acts as [|a acts IH]; intros sum frm H1 H2.
  - cbn. rewrite Z.add_0_r. split; [reflexivity|lia].
  - cbn [kdistance_loop distance_loop length]. cbn [length] in H2. rewrite Nat2Z.inj_succ in *.
    pose proof (dist_ok p frm (a_loc d a)) as Hd. set (n := Z.of_nat (length acts)) in *. assert (Hn : 0 <= n * B) by (unfold n; nia).
    kk. destruct (IH (sum + p_dist d p frm (a_loc d a)) (a_loc d a)) as [E1 E2]; try lia.
    rewrite E1. split; [f_equal; lia|lia].
Qed.

Record linv (n : Z) (st : lseg * Z * Z) : Prop := {
  li_0 : 0 <= ls_initial (fst (fst st)); li_1 : 0 <= ls_increase (fst (fst st)); li_2 : 0 <= ls_excess (fst (fst st));
  li_3 : - (n * B) <= ls_delta (fst (fst st)) <= ls_increase (fst (fst st));
  li_4 : ls_initial (fst (fst st)) + ls_increase (fst (fst st)) + ls_excess (fst (fst st)) <= 2 * n * B;
  li_5 : 0 <= snd (fst st) <= n * B; li_6 : 0 <= snd st <= n * B }.

Lemma lmerge_ok : forall n ls initial delta inc, 6 * (n + 1) * B <= Q -> 0 <= n ->
  0 <= ls_initial ls -> 0 <= ls_increase ls -> 0 <= ls_excess ls -> - (n * B) <= ls_delta ls <= ls_increase ls ->
  ls_initial ls + ls_increase ls + ls_excess ls <= 2 * n * B ->
  0 <= initial <= B -> - B <= delta <= B -> inc = Z.max 0 delta ->
  let m := ls_merge ls (mk_lseg initial delta inc 0) in
  kls_merge ls (mk_lseg initial delta inc 0) = Some m /\
  0 <= ls_initial m /\ 0 <= ls_increase m /\ 0 <= ls_excess m /\ - ((n + 1) * B) <= ls_delta m <= ls_increase m /\
  ls_initial m + ls_increase m + ls_excess m <= 2 * (n + 1) * B.
Proof.
  intros n ls initial delta inc HQ Hn H1 H2 H3 H4 H5 H6 H7 Hi m. pose proof B0 as HB. assert (HnB : 0 <= n * B) by nia.
  assert (Hinc : 0 <= inc <= B /\ delta <= inc) by lia. clear Hi.
  unfold kls_merge; cbn [ls_initial ls_delta ls_increase ls_excess].
  kk. kk. kk. kk. split; [reflexivity|]. unfold m, ls_merge; cbn [ls_initial ls_delta ls_increase ls_excess]. lia.
Qed.


Lemma load_step_ok : forall dim n st a, linv n st -> 0 <= n -> 6 * (n + 1) * B <= Q ->
  kload_step d v dim st a = Some (load_step d v dim st a) /\ linv (n + 1) (load_step d v dim st a).
Proof.
  intros dim n [[ls del] pick] a [] Hn HQ. pose proof B0 as HB. assert (HnB : 0 <= n * B) by nia. cbn [fst snd] in *.
  pose proof vehicle_ok as (_ & _ & _ & _ & _ & _ & _ & _ & _ & _ & V & _). destruct (V dim) as [V1 V2].
  destruct a as [i|i|i|i]; cbn [kload_step load_step].
  - destruct (excess_ok n (dimv (v_capacity v) dim) ls) as [E G]; try assumption.
    unfold kls_finalise, ls_finalise. rewrite E, !ob_some. split; [reflexivity|]. constructor; cbn [fst snd ls_initial ls_delta ls_increase ls_excess]; lia.
  - destruct (client_ok i) as (_ & _ & _ & _ & _ & C). destruct (C dim) as [C1 C2]. unfold kls_client, ls_client.
    kk. rewrite ob_some. destruct (lmerge_ok n ls (dimv (c_delivery (p_client d i)) dim) (dimv (c_pickup (p_client d i)) dim - dimv (c_delivery (p_client d i)) dim) _ HQ Hn li_7 li_8 li_9 li_10 li_11 C1 ltac:(lia) eq_refl)
      as (E & E1 & E2 & E3 & E4 & E5).
    rewrite E, ob_some. kk. kk. split; [reflexivity|]. constructor; cbn [fst snd]; try assumption; lia.
  - destruct (shipment_ok i) as (_ & _ & _ & C). specialize (C dim). unfold kls_shipment, ls_shipment. rewrite !ob_some.
    destruct (lmerge_ok n ls 0 (dimv (s_amount (p_shipment d i)) dim) _ HQ Hn li_7 li_8 li_9 li_10 li_11 ltac:(lia) ltac:(lia) eq_refl)
      as (E & E1 & E2 & E3 & E4 & E5).
    rewrite E, ob_some. split; [reflexivity|]. constructor; cbn [fst snd]; try assumption; lia.
  - destruct (shipment_ok i) as (_ & _ & _ & C). specialize (C dim). unfold kls_shipment, ls_shipment.
    kk. rewrite ob_some. destruct (lmerge_ok n ls 0 (- dimv (s_amount (p_shipment d i)) dim) _ HQ Hn li_7 li_8 li_9 li_10 li_11 ltac:(lia) ltac:(lia) eq_refl)
      as (E & E1 & E2 & E3 & E4 & E5).
    rewrite E, ob_some. split; [reflexivity|]. constructor; cbn [fst snd]; try assumption; lia.
Qed.

Lemma load_loop_ok : forall dim acts n st, linv n st -> 0 <= n -> 6 * (n + Z.of_nat (length acts)) * B <= Q ->
  kload_loop d v dim acts st = Some (fold_left (load_step d v dim) acts st)
  /\ linv (n + Z.of_nat (length acts)) (fold_left (load_step d v dim) acts st).
Proof.
  intros dim. pose proof B0 as HB. induction acts as [|a acts IH]; intros n st I Hn HQ.
  - cbn [kload_loop fold_left length]. rewrite Z.add_0_r. split; [reflexivity|exact I].
  - cbn [kload_loop fold_left length] in *. rewrite Nat2Z.inj_succ in *.
    destruct (load_step_ok dim n st a I Hn) as [E I']; [nia|]. rewrite E, ob_some.
    destruct (IH (n + 1) _ I') as [E1 E2]; [lia|nia|]. rewrite E1. split; [reflexivity|].
    replace (n + Z.succ (Z.of_nat (length acts))) with (n + 1 + Z.of_nat (length acts)) by lia. exact E2.
Qed.

Lemma set_load_ok : forall dim acts, 6 * (Z.of_nat (length acts) + 2) * B <= Q ->
  let '(ls, del, pick) := set_load d v dim acts in
  kset_load d v dim acts = Some (del, pick, ls_excessLoad (dimv (v_capacity v) dim) ls)
  /\ 0 <= ls_excessLoad (dimv (v_capacity v) dim) ls <= 2 * (Z.of_nat (length acts) + 1) * B.
Proof.
  intros dim acts HQ. pose proof B0 as HB. pose proof vehicle_ok as (_ & _ & _ & _ & _ & _ & _ & _ & _ & _ & V & _). destruct (V dim) as [V1 V2].
  unfold set_load, kset_load. set (init := if dimv (v_initialLoad v) dim >? 0 then _ else _).
  assert (I : linv 1 init).
  { unfold init. destruct (Z.gtb_spec (dimv (v_initialLoad v) dim) 0); constructor; unfold ls_vehicle, ls_zero; cbn [fst snd ls_initial ls_delta ls_increase ls_excess]; lia. }
  destruct (load_loop_ok dim acts 1 init I) as [E J]; [lia|nia|]. rewrite E, ob_some.
  destruct (fold_left (load_step d v dim) acts init) as [[ls del] pick]. destruct J. cbn [fst snd] in *.
  destruct (excess_ok (1 + Z.of_nat (length acts)) (dimv (v_capacity v) dim) ls) as [G G']; try assumption; try lia.
  rewrite G, ob_some. split; [reflexivity|lia].
Qed.

Lemma omap_some : forall {A C} (f : A -> option C) (g : A -> C) l, (forall x, f x = Some (g x)) -> omap f l = Some (map g l).
Proof. intros A C f g l H. induction l as [|x l IH]; [reflexivity|]. cbn [omap map]. rewrite H, ob_some, IH, ob_some. reflexivity. Qed.


Record in_range (M : Z) (r : route) : Prop := {
  ir_prizes : 0 <= r_prizes r <= M; ir_distance : 0 <= r_distance r <= M; ir_distanceCost : 0 <= r_distanceCost r <= M;
  ir_duration : 0 <= r_duration r <= M; ir_overtime : 0 <= r_overtime r <= M; ir_durationCost : 0 <= r_durationCost r <= M;
  ir_excessDistance : 0 <= r_excessDistance r <= M; ir_timeWarp : 0 <= r_timeWarp r <= M; ir_fixedCost : - M <= r_fixedCost r <= M;
  ir_excessLoad : forall dim, 0 <= nth dim (r_excessLoad r) 0 <= M }.

Lemma okinj : forall {A} (a b : A), Ok a = Ok b -> a = b.
Proof. intros A a b [=]. assumption. Qed.

Lemma route_ok : forall acts r, 6 * (Z.of_nat (length acts) + 3) * B <= Q -> 6 * (Z.of_nat (length acts) + 3) * B * U <= MAXV ->
  make_route d acts vt = Ok r ->
  kmake_route d acts vt = Some r /\ kwaitDuration r = Some (r_waitDuration r) /\ kendTime r = Some (r_endTime r)
  /\ in_range (8 * (Z.of_nat (length acts) + 3) * B * (U + 1)) r.
Proof.
  intros acts r HQ HU Hr. pose proof B0 as HB. pose proof (sz_U _ _ _ Hs) as HU0.
  unfold make_route in Hr. destruct (validate d acts vt); [|discriminate]. apply okinj in Hr.
  cbv zeta in Hr. fold v in Hr. set (n := Z.of_nat (length acts)) in *. assert (Hn : 0 <= n) by (unfold n; lia). assert (HnB : 0 <= n * B) by nia.
  unfold kmake_route. fold v.
  assert (HQ2 : 6 * (n + 2) * B <= Q) by nia.
  destruct (final_ok acts HQ2) as (E & F1 & F2 & F3 & F4 & F5 & F6 & F10 & F7 & F8 & F9). fold n in F6, F7, F8, F9, F10.
  rewrite E, ob_some. pose proof (schedule_ok acts HQ2) as Es.
  pose proof vehicle_ok as (V1 & V2 & V3 & V4 & V5 & V6 & V7 & V8 & V9 & V10 & _ & V11).
  set (b := bpass_final d v acts) in *.
  assert (Hdur : 0 <= ds_duration (bp_ds b) <= 3 * (n + 2) * B).
  { unfold ds_duration, ds_startEarly. rewrite F4, F5. destruct F1. unfold MAXV, Q in *. lia. }
  rewrite kduration_ok, ob_some by exact F1. set (dur := ds_duration (bp_ds b)) in *.
  assert (HD1 : 0 <= v_unitDuration v * dur <= 3 * (n + 2) * B * U) by (clear - Hdur V9 HU0 HB Hn; nia).
  assert (Hot : 0 <= Z.max (dur - v_shift v) 0 <= 3 * (n + 2) * B) by lia.
  assert (HD2 : 0 <= v_unitOvertime v * Z.max (dur - v_shift v) 0 <= 3 * (n + 2) * B * U) by (clear - Hot V10 HU0 HB Hn; nia).
  assert (HnU : 0 <= B * U) by nia.
  kk. set (ot := Z.max (dur - v_shift v) 0) in *. 
  kk. kk. kk. rewrite kslack_ok, ob_some by exact F1.
  rewrite ktimeWarp_ok, ob_some by assumption. rewrite Es, ob_some. rewrite schedule_acts. cbn [List.tl].
  rewrite schedule_acts in Hr. cbn [List.tl] in Hr.
  assert (Hlen : Z.of_nat (length (acts ++ [ADepot (v_end v)])) = n + 1) by (rewrite app_length; cbn; unfold n; lia).
  destruct (distance_ok (v_profile v) (acts ++ [ADepot (v_end v)]) 0 (d_loc (p_depot d (v_start v)))) as [Ed Gd]; [lia|rewrite Hlen; lia|].
  rewrite Hlen in Gd. rewrite Z.add_0_l in Ed. rewrite Ed, ob_some. set (dist := distance_loop _ _ _ _) in *.
  assert (HD3 : 0 <= v_unitDistance v * dist <= (n + 1) * B * U) by (clear - Gd V8 HU0 HB Hn; nia).
  kk. kk.
  erewrite (omap_some _ (fun dim => let '(ls, del, pick) := set_load d v dim (acts ++ [ADepot (v_end v)]) in (del, pick, ls_excessLoad (dimv (v_capacity v) dim) ls))).
  2:{ intros dim. pose proof (set_load_ok dim (acts ++ [ADepot (v_end v)])) as G. destruct (set_load d v dim (acts ++ [ADepot (v_end v)])) as [[ls del] pick].
      apply G. rewrite Hlen. nia. }
  rewrite ob_some.
  assert (HM : 8 * (n + 3) * B <= 8 * (n + 3) * B * (U + 1) /\ 6 * (n + 2) * B * U <= 8 * (n + 3) * B * (U + 1)) by (clear - HB HU0 Hn HnB HnU; nia).
  set (M := 8 * (n + 3) * B * (U + 1)) in *.
  assert (HP : Forall (fun x => 0 <= x <= B) (map (act_prize d) (ADepot (v_start v) :: acts ++ [ADepot (v_end v)]))).
  { apply Forall_forall. intros x Hx. apply in_map_iff in Hx as (aa & <- & _). destruct aa as [i|i|i|i]; cbn [act_prize]; try lia.
      - destruct (client_ok i) as (_ & _ & _ & _ & C & _). exact C.
      - destruct (shipment_ok i) as (_ & _ & C & _). exact C. }
  assert (HPn : Z.of_nat (length (map (act_prize d) (ADepot (v_start v) :: acts ++ [ADepot (v_end v)]))) = n + 2).
  { rewrite map_length. cbn [length]. rewrite Nat2Z.inj_succ, Hlen. lia. }
  rewrite ksum_ok; [rewrite ob_some|lia|exact HP|rewrite HPn; lia].
  split; [|split; [|split]].
  - rewrite <- Hr. f_equal. rewrite !map_map.
    assert (M1 : forall f g : nat -> Z, (forall x, f x = g x) -> forall l, map f l = map g l) by (intros f g Hfg l; apply map_ext; exact Hfg).
    f_equal; try apply M1; try (intros x; destruct (set_load d v x (acts ++ [ADepot (v_end v)])) as [[? ?] ?]; reflexivity); reflexivity.
  - pose proof (tw_range (v_maxDuration v) (bp_ds b) F1 V5) as Ht. rewrite <- Hr. unfold kwaitDuration, r_waitDuration.
    cbn [r_duration r_travel r_service r_startTime r_timeWarp].
    fold dur. clear - Ht Hdur F8 F9 HQ HnB HB. kk. apply ck_ok. unfold MAXV, Q in *. lia.
  - pose proof (tw_range (v_maxDuration v) (bp_ds b) F1 V5) as Ht. rewrite <- Hr. unfold kendTime, r_endTime.
    cbn [r_duration r_travel r_service r_startTime r_timeWarp].
    assert (Hst : 0 <= ds_startEarly (bp_ds b) <= B) by (unfold ds_startEarly; destruct F1; lia).
    fold dur. clear - Ht Hst Hdur F8 F9 HQ HnB HB. kk. apply ck_ok. unfold MAXV, Q in *. lia.
  - rewrite <- Hr. constructor; cbn [r_duration r_travel r_service r_startTime r_timeWarp r_prizes r_distance r_distanceCost r_overtime r_durationCost r_excessDistance r_fixedCost r_excessLoad].
    + assert (G : forall l, Forall (fun x => 0 <= x <= B) l -> 0 <= zsum l <= Z.of_nat (length l) * B).
      { clear. induction 1 as [|x l Hx _ IH]; [cbn; lia|]. cbn [zsum length]. rewrite Nat2Z.inj_succ. lia. }
      specialize (G _ HP). rewrite HPn in G. clear - G HM HB Hn HnB. nia.
    + fold dist. clear - Gd HM HnB HB. lia.
    + fold dist. clear - HD3 HM HnB HB HnU Hn HU0. nia.
    + fold dur. clear - Hdur HM HnB HB. lia.
    + fold dur. fold ot. clear - Hot HM HnB HB. lia.
    + fold dur. fold ot. clear - HD1 HD2 HM HnB HB. lia.
    + fold dist. clear - Gd HM HnB HB V7. lia.
    + unfold ds_timeWarp. fold dur. destruct F10 as (T1 & T2 & T3). destruct F1 as [b_dur9 b_tw9 b_e9 b_l9 b_rel9 b_cdur9 b_ctw9 b_pel9]. clear - T1 T2 T3 Hdur HM HnB HB b_tw9 b_e9 F3 b_rel9 V5.
      destruct (Z.gtb_spec (dur - (ds_ctw (bp_ds b) + ds_tw (bp_ds b))) (v_maxDuration v)); lia.
    + clear - V11 HM HnB HB. lia.
    + intros dim.
      assert (G : forall l, 0 <= nth dim (map (fun dim0 => ls_excessLoad (dimv (v_capacity v) dim0) (fst (fst (set_load d v dim0 (acts ++ [ADepot (v_end v)]))))) l) 0 <= M).
      { intros l. apply (Forall_nth_default (fun x => 0 <= x <= M)); [|clear - HM HnB HB; lia].
        apply Forall_forall. intros x Hx. apply in_map_iff in Hx as (k & <- & _).
        pose proof (set_load_ok k (acts ++ [ADepot (v_end v)])) as G. destruct (set_load d v k (acts ++ [ADepot (v_end v)])) as [[ls del] pick]. cbn [fst].
        destruct G as [_ G]; [rewrite Hlen; nia|]. rewrite Hlen in G. clear - G HM HnB HB. nia. }
      apply G.
Qed.
End Data.
