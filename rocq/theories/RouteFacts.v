(** The solution route: durations, load and validation against the specification. *)
From Verif Require Import Base DurationSegment Beh Tws DurationFacts Data LoadSegment SearchRoute
  RouteDur Valid ProposalDur Route RouteSpec.

(** ** Simulation as a behaviour. *)
Definition ebeh (e : event) : beh :=
  match e with
  | Spend z => bspend z
  | WaitUntil r => bwait r
  | Window e l => bwindow e l
  end.
Fixpoint evbeh (evs : list event) : beh :=
  match evs with
  | [] => bskip
  | e :: more => ebeh e ;; evbeh more
  end.

Lemma simulate_beh evs : forall t, simulate t evs = evbeh evs t.
Proof.
  induction evs as [|e evs IH]; intros t; [reflexivity|].
  destruct e as [z|r|e l]; cbn [simulate evbeh ebeh]; rewrite IH;
    unfold bseq, bspend, bwait, bwindow, bend; cbn [fst snd].
  - replace (t + z - 0) with (t + z) by lia. destruct (evbeh evs (t + z)); cbn [fst snd]. f_equal; lia.
  - replace (t + Z.max 0 (r - t) - 0) with (t + Z.max 0 (r - t)) by lia.
    destruct (evbeh evs _); cbn [fst snd]. f_equal; lia.
  - destruct (evbeh evs _); cbn [fst snd]. f_equal; lia.
Qed.

Lemma evbeh_app a b : evbeh (a ++ b) == evbeh a ;; evbeh b.
Proof.
  induction a as [|x a IH]; cbn [app evbeh]; [rewrite bskip_l; reflexivity|].
  rewrite IH, bseq_assoc. reflexivity.
Qed.

Section CoreRoute.
Variable d : pdata.
Variable h : Z.
Hypothesis Hv : valid_data d.
Hypothesis Ho : opens_by d h.
Hypothesis Hn : nonneg_durs d.
Hypothesis Hh : 2 * h <= MAXV.
Variable v : vehicle.
Hypothesis Hin : In v (p_vehicles d).

Let Dm := p_dur d (v_profile v).
Let D_ok : forall a b, 0 <= Dm a b := Hn (v_profile v).
Let Hh0 : 0 <= h := ob_nonneg _ _ Ho.

Let items (mid : list activity) := map (item_act d) mid ++ [item_end d v].

Lemma bpass_loc mid : bp_loc (bpass_loop d v mid) = it_loc (hd dummy_item (items mid)).
Proof. destruct mid as [|a mid]; [reflexivity|]. destruct a; reflexivity. Qed.

Lemma items_cons mid : exists x xs, items mid = x :: xs.
Proof. unfold items. destruct mid; cbn; eauto. Qed.

Lemma bpass_good mid : exists n,
  good h n (bp_ds (bpass_loop d v mid)) (enter d Dm (items mid)) (trel (items mid)).
Proof.
  induction mid as [|a mid [n IH]].
  - cbn [bpass_loop]. unfold bpass_init; cbn [bp_ds].
    destruct (item_end_ok d h Hv Ho Hh v Hin) as ([Hg _] & Hr & _).
    unfold items. cbn [map app enter trel]. unfold waitb, srvb.
    replace (it_reload (item_end d v)) with false by reflexivity.
    eexists. cbn [go].
    replace (Z.max (ds_rel (it_dur (item_end d v))) 0) with (ds_rel (it_dur (item_end d v))) by lia.
    eapply good_eq; [|exact Hg]. rewrite bskip_l, !bskip_r. reflexivity.
  - pose proof (item_act_ok d h Hv Ho a) as Ha.
    pose proof (bpass_loc mid) as Hl.
    destruct (items_cons mid) as (y & ys & Ey).
    assert (Hgo : go d Dm (item_act d a) (items mid) ==
                  bspend (Dm (a_loc d a) (bp_loc (bpass_loop d v mid))) ;; enter d Dm (items mid)).
    { rewrite Hl, Ey. cbn [hd go enter].
      replace (it_loc (item_act d a)) with (a_loc d a) by (destruct a; reflexivity). reflexivity. }
    change (items (a :: mid)) with (item_act d a :: items mid).
    cbn [bpass_loop enter trel].
    set (b := bpass_loop d v mid) in *.
    assert (Ht : 0 <= trel (items mid) <= h).
    { apply (trel_bound d h Hh0). unfold items. apply Forall_app; split.
      - apply mid_items_ok; assumption.
      - constructor; [apply item_end_ok; assumption | constructor]. }
    destruct a as [i|i|i|i]; unfold bpass_step; cbn [bp_ds].
    + (* reload depot *)
      destruct (valid_p_depot d i Hv). pose proof (opens_p_depot d h i Ho).
      pose proof (good_raw h (d_service (p_depot d i)) (d_early (p_depot d i)) (d_late (p_depot d i)) 0
                   Hh0 vd_service vd_early vd_tw vd_late ltac:(lia) ltac:(lia)) as G1.
      pose proof (good_merge h Hh _ _ (Dm (d_loc (p_depot d i)) (bp_loc b)) _ _ _ _ _ _
                    (D_ok _ _) G1 IH) as G2.
      apply (good_front h Hh Hh0) in G2.
      eexists. replace (it_reload (item_act d (ADepot i))) with true by reflexivity.
      eapply good_eq; [|exact G2].
      unfold waitb, srvb. replace (it_reload (item_act d (ADepot i))) with true by reflexivity.
      rewrite Z.max_r by lia. rewrite Hgo.
      unfold it_win. cbn [item_act it_dur]. unfold ds_depot, plain; dcbn.
      rewrite !tbeh_raw by lia. rewrite bspend_0, bskip_r.
      unfold it_srv. cbn [it_act a_idx]. rewrite !bseq_assoc. reflexivity.
    + destruct Ha as [Hg _].
      pose proof (good_merge h Hh _ _ (Dm (c_loc (p_client d i)) (bp_loc b)) _ _ _ _ _ _
                    (D_ok _ _) Hg IH) as G2.
      eexists. eapply good_eq; [|exact G2].
      unfold waitb, srvb. replace (it_reload (item_act d (AClient i))) with false by reflexivity.
      rewrite Hgo, !bskip_l. reflexivity.
    + destruct Ha as [Hg _].
      pose proof (good_merge h Hh _ _ (Dm (st_loc (s_pickup (p_shipment d i))) (bp_loc b)) _ _ _ _ _ _
                    (D_ok _ _) Hg IH) as G2.
      eexists. eapply good_eq; [|exact G2].
      unfold waitb, srvb. replace (it_reload (item_act d (APickup i))) with false by reflexivity.
      rewrite Hgo, !bskip_l. reflexivity.
    + destruct Ha as [Hg _].
      pose proof (good_merge h Hh _ _ (Dm (st_loc (s_delivery (p_shipment d i))) (bp_loc b)) _ _ _ _ _ _
                    (D_ok _ _) Hg IH) as G2.
      eexists. eapply good_eq; [|exact G2].
      unfold waitb, srvb. replace (it_reload (item_act d (ADelivery i))) with false by reflexivity.
      rewrite Hgo, !bskip_l. reflexivity.
Qed.

Lemma trel_items mid : trel (items mid) = trip_release d mid.
Proof. apply (trel_mid d h Hv Ho Hh); assumption. Qed.

Lemma trip_release_bound mid : 0 <= trip_release d mid <= h.
Proof.
  rewrite <- trel_items. apply (trel_bound d h Hh0). unfold items. apply Forall_app; split.
  - apply mid_items_ok; assumption.
  - constructor; [apply item_end_ok; assumption | constructor].
Qed.

(** The rest of the route as the simulator sees it. *)
Lemma events_from_beh mid : forall frm,
  evbeh (events_from d v frm mid) ==
  bspend (Dm frm (it_loc (hd dummy_item (items mid)))) ;; enter d Dm (items mid).
Proof.
  induction mid as [|a mid IH]; intros frm.
  - cbn [events_from evbeh ebeh]. unfold items; cbn [map app hd enter]. unfold waitb, srvb.
    replace (it_reload (item_end d v)) with false by reflexivity.
    cbn [go]. rewrite bskip_l, !bskip_r.
    apply bseq_proper; [reflexivity|].
    unfold it_win. cbn [item_end it_dur].
    destruct (vehicle_valid d h Hv Ho v Hin) as [[] Hve].
    destruct (valid_p_depot d (v_end v) Hv). pose proof (opens_p_depot d h (v_end v) Ho).
    pose proof (good_raw h 0 (d_early (p_depot d (v_end v))) (d_late (p_depot d (v_end v))) 0
                 Hh0 ltac:(lia) ltac:(lia) ltac:(lia) ltac:(lia) ltac:(lia) ltac:(lia)) as G1.
    pose proof (good_raw h 0 (v_early v) (v_late v) 0
                 Hh0 ltac:(lia) ltac:(lia) ltac:(lia) ltac:(lia) ltac:(lia) ltac:(lia)) as G2.
    pose proof (good_merge h Hh _ _ 0 _ _ _ _ _ _ ltac:(lia) G1 G2) as G.
    unfold ds_merge0, ds_depot, ds_vehicle. rewrite (gd_beh _ _ _ _ _ G).
    rewrite !tbeh_raw by lia. rewrite !bspend_0, bskip_l, !bskip_r. reflexivity.
  - cbn [events_from]. rewrite evbeh_app, IH.
    change (items (a :: mid)) with (item_act d a :: items mid). cbn [hd enter].
    assert (Hgo : go d Dm (item_act d a) (items mid) ==
                  bspend (Dm (a_loc d a) (it_loc (hd dummy_item (items mid)))) ;; enter d Dm (items mid)).
    { destruct (items_cons mid) as (y & ys & Ey). rewrite Ey. cbn [hd go enter].
      replace (it_loc (item_act d a)) with (a_loc d a) by (destruct a; reflexivity). reflexivity. }
    rewrite Hgo. unfold waitb, srvb, it_win.
    destruct a as [i|i|i|i]; cbn [item_act it_reload it_loc it_dur a_loc evbeh ebeh];
      unfold ds_depot, ds_client, ds_step, plain; dcbn;
      (rewrite tbeh_raw;
       [| first [apply (valid_p_depot d i Hv) | apply (valid_p_client d i Hv)
                | apply (valid_p_shipment d i Hv)]]).
    + rewrite trel_items, bspend_0, !bskip_r. unfold it_srv. cbn [it_act a_idx].
      rewrite !bseq_assoc. reflexivity.
    + rewrite !bskip_l, !bskip_r, !bseq_assoc. reflexivity.
    + rewrite !bskip_l, !bskip_r, !bseq_assoc. reflexivity.
    + rewrite !bskip_l, !bskip_r, !bseq_assoc. reflexivity.
Qed.

(** The segment the constructor ends up with. *)
Lemma bpass_final_good mid : exists n,
  good h n (bp_ds (bpass_final d v mid))
       (it_win (item_start d v) ;; go d Dm (item_start d v) (items mid)) (trip_release d mid).
Proof.
  destruct (bpass_good mid) as [n Hb].
  destruct (vehicle_valid d h Hv Ho v Hin) as [[] Hve].
  destruct (valid_p_depot d (v_start v) Hv). pose proof (opens_p_depot d h (v_start v) Ho).
  unfold bpass_final; cbn [bp_ds].
  set (start := p_depot d (v_start v)) in *.
  pose proof (good_raw h (d_service start) (d_early start) (d_late start) 0
               Hh0 ltac:(lia) ltac:(lia) ltac:(lia) ltac:(lia) ltac:(lia) ltac:(lia)) as G1.
  pose proof (good_raw h 0 (v_early v) (v_startLate v) 0
               Hh0 ltac:(lia) ltac:(lia) ltac:(lia) ltac:(lia) ltac:(lia) ltac:(lia)) as G2.
  pose proof (good_merge h Hh _ _ (Dm (d_loc start) (bp_loc (bpass_loop d v mid))) _ _ _ _ _ _
                (D_ok _ _) G1 Hb) as G3.
  pose proof (good_merge h Hh _ _ 0 _ _ _ _ _ _ ltac:(lia) G2 G3) as G4.
  pose proof (good_merge h Hh _ _ 0 _ _ _ _ _ _ ltac:(lia) G2 G1) as G5.
  rewrite trel_items in G4. pose proof (trip_release_bound mid).
  replace (Z.max 0 (Z.max 0 (trip_release d mid))) with (trip_release d mid) in G4 by lia.
  eexists. eapply good_eq; [|exact G4].
  unfold it_win. cbn [item_start it_dur]. fold start. unfold ds_merge0, ds_vehicle, ds_depot.
  rewrite (gd_beh _ _ _ _ _ G5).
  rewrite !bseq_assoc. do 3 (apply bseq_proper; [reflexivity|]).
  rewrite bpass_loc. destruct (items_cons mid) as (y & ys & Ey). rewrite Ey. cbn [hd go enter].
  reflexivity.
Qed.

Lemma route_events_beh0 mid :
  evbeh (List.tl (route_events d v mid)) ==
  it_win (item_start d v) ;; go d Dm (item_start d v) (items mid).
Proof.
  unfold route_events. cbn [app List.tl evbeh ebeh]. rewrite events_from_beh.
  destruct (vehicle_valid d h Hv Ho v Hin) as [[] Hve].
  destruct (valid_p_depot d (v_start v) Hv). pose proof (opens_p_depot d h (v_start v) Ho).
  set (start := p_depot d (v_start v)) in *.
  pose proof (good_raw h (d_service start) (d_early start) (d_late start) 0
               Hh0 ltac:(lia) ltac:(lia) ltac:(lia) ltac:(lia) ltac:(lia) ltac:(lia)) as G1.
  pose proof (good_raw h 0 (v_early v) (v_startLate v) 0
               Hh0 ltac:(lia) ltac:(lia) ltac:(lia) ltac:(lia) ltac:(lia) ltac:(lia)) as G2.
  pose proof (good_merge h Hh _ _ 0 _ _ _ _ _ _ ltac:(lia) G2 G1) as G5.
  unfold it_win. cbn [item_start it_dur]. fold start. unfold ds_merge0, ds_vehicle, ds_depot.
  rewrite (gd_beh _ _ _ _ _ G5). rewrite !tbeh_raw by lia.
  rewrite !bspend_0, !bskip_r, !bseq_assoc, !bskip_l.
  do 3 (apply bseq_proper; [reflexivity|]).
  destruct (items_cons mid) as (y & ys & Ey). rewrite Ey. cbn [hd go enter]. reflexivity.
Qed.
Lemma route_events_beh mid :
  evbeh (route_events d v mid) ==
  bwait (trip_release d mid) ;; it_win (item_start d v) ;; go d Dm (item_start d v) (items mid).
Proof.
  change (evbeh (route_events d v mid)) with
    (bwait (trip_release d mid) ;; evbeh (List.tl (route_events d v mid))).
  rewrite route_events_beh0. reflexivity.
Qed.

(** The route's own segment is the one the search computes for the whole route. *)
Theorem bpass_is_durAfter mid :
  bp_ds (bpass_final d v mid) = hd dnone (ca_durAfter (update d v mid)).
Proof.
  destruct (bpass_final_good mid) as [n G1].
  destruct (item_start_ok d h Hv Ho Hh v Hin) as (Hs & Hr & _).
  pose proof (after_good d Dm D_ok h Hh Hh0 (items mid) (item_start d v) Hs) as G2.
  assert (Hi : Forall (item_ok d h) (items mid)).
  { unfold items. apply Forall_app; split; [apply mid_items_ok; assumption|].
    constructor; [apply item_end_ok; assumption | constructor]. }
  specialize (G2 Hi). unfold items in G2 at 1. rewrite lastof_last in G2. specialize (G2 eq_refl).
  rewrite Hr, trel_items in G2. pose proof (trip_release_bound mid).
  rewrite Z.max_r in G2 by lia.
  eapply good_unique; [exact G1|]. eapply good_eq; [|exact G2].
  unfold srvb. replace (it_reload (item_start d v)) with false by reflexivity.
  rewrite bskip_l. reflexivity.
Qed.

(** Everything about the timing of the route in one normal form. *)
Lemma route_timing mid : exists T : tws,
  (te T <= tl T /\ 0 <= te T /\ tl T <= MAXV /\ (tw T = 0 \/ te T = tl T)) /\
  (forall t, simulate t (route_events d v mid) =
             (td T + Z.max 0 (te T - t), tw T + Z.max 0 (t - tl T))) /\
  let s := bp_ds (bpass_final d v mid) in
  ds_duration s = td T /\ ds_warp0 s = tw T /\ ds_startEarly s = te T /\
  ds_slack s = tl T - te T /\ ds_rel s = trip_release d mid /\
  0 <= ds_tw s <= tw T /\ ds_ctw s = 0.
Proof.
  destruct (bpass_final_good mid) as [n [G1 G2 G3 G4 G5 G6 G7]].
  set (s := bp_ds (bpass_final d v mid)) in *.
  exists (twait (trip_release d mid) (plain s)).
  pose proof (okt_wait h n _ _ G4 ltac:(lia) G1) as Hok.
  destruct Hok as [_ _ _ O2 O3 O4 O5 O6 _ _]. destruct G1 as [_ _ P1 P2 P3 P4 P5 P6 _ _].
  pose proof MAXV_pos.
  split; [repeat split; assumption|]. split.
  - intros t. rewrite simulate_beh, (route_events_beh mid t).
    transitivity ((bwait (trip_release d mid) ;; tbeh (plain s)) t).
    + apply bseq_proper; [reflexivity|]. symmetry. exact G2.
    + rewrite <- (twait_beh _ _ P3 t). reflexivity.
  - cbv zeta. destruct s as [sd sw se sl sr sc1 sc2 sp].
    unfold ds_duration, ds_warp0, ds_startEarly, ds_startLate, ds_slack, ds_startLate, ds_startEarly,
      twait, plain in *; dcbn. subst. repeat split; zcases.
Qed.
End CoreRoute.
