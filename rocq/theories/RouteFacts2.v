(** The solution route: timetable, sums, load and validation. *)
From Verif Require Import Base DurationSegment Beh Tws DurationFacts Data LoadSegment SearchRoute
  RouteDur Valid ProposalDur Route RouteSpec RouteFacts.

(** ** Activities of the timetable. *)
Lemma fpass_acts d v acts : forall now loc trip rels n,
  map sa_act (fpass d v now loc trip rels n acts) = acts ++ [ADepot (v_end v)].
Proof.
  induction acts as [|a acts IH]; intros; [reflexivity|].
  destruct a; cbn [fpass handle map app sa_act]; f_equal; apply IH.
Qed.

Lemma schedule_acts d v acts :
  map sa_act (set_schedule d v acts) = ADepot (v_start v) :: acts ++ [ADepot (v_end v)].
Proof. unfold set_schedule, handle. cbn [map sa_act]. f_equal. apply fpass_acts. Qed.

(** ** Distances *)
Lemma path_sum_cons2 f a b l : path_sum f (a :: b :: l) = f a b + path_sum f (b :: l).
Proof. reflexivity. Qed.

Lemma distance_loop_path d profile acts : forall frm,
  distance_loop d profile frm acts = path_sum (p_dist d profile) (frm :: map (a_loc d) acts).
Proof.
  induction acts as [|a acts IH]; intros frm; [reflexivity|].
  cbn [distance_loop map]. rewrite IH. reflexivity.
Qed.

Definition route_dist (d : pdata) (v : vehicle) (mid : list activity) : Z :=
  path_sum (p_dist d (v_profile v)) (route_locs d v mid).

Lemma bpass_sums d v mid :
  bp_service (bpass_loop d v mid) = zsum (map (a_service d) mid) /\
  bp_travel (bpass_loop d v mid) =
    path_sum (p_dur d (v_profile v)) (map (a_loc d) mid ++ [d_loc (p_depot d (v_end v))]) /\
  bp_loc (bpass_loop d v mid) = hd 0%nat (map (a_loc d) mid ++ [d_loc (p_depot d (v_end v))]).
Proof.
  induction mid as [|a mid (IH1 & IH2 & IH3)]; [repeat split|].
  cbn [bpass_loop map app zsum].
  set (b := bpass_loop d v mid) in *.
  assert (Hp : path_sum (p_dur d (v_profile v))
                 (a_loc d a :: map (a_loc d) mid ++ [d_loc (p_depot d (v_end v))]) =
               p_dur d (v_profile v) (a_loc d a) (bp_loc b) + bp_travel b).
  { rewrite IH2, IH3. destruct mid; reflexivity. }
  rewrite Hp.
  destruct a; unfold bpass_step; cbn [bp_service bp_travel bp_loc hd a_loc a_service]; lia.
Qed.

Lemma bpass_final_sums d v mid :
  bp_service (bpass_final d v mid) = route_service d v mid /\
  bp_travel (bpass_final d v mid) = route_travel d v mid.
Proof.
  destruct (bpass_sums d v mid) as (H1 & H2 & H3).
  unfold bpass_final, route_service, route_travel, route_locs; cbn [bp_service bp_travel].
  rewrite H1, H2, H3. split; [lia|]. destruct mid; cbn [map app hd path_sum]; lia.
Qed.

(** ** Release times per trip. *)
Fixpoint releases (d : pdata) (mid : list activity) : list Z :=
  match mid with
  | [] => []
  | ADepot _ :: more => trip_release d more :: releases d more
  | _ :: more => releases d more
  end.

Lemma releases_length d mid : length (releases d mid) = num_reloads mid.
Proof.
  induction mid as [|a mid IH]; [reflexivity|].
  destruct a; cbn; rewrite ?IH; reflexivity.
Qed.

Section Timetable.
Variable d : pdata.
Variable h : Z.
Hypothesis Hv : valid_data d.
Hypothesis Ho : opens_by d h.
Hypothesis Hn : nonneg_durs d.
Hypothesis Hh : 2 * h <= MAXV.
Variable v : vehicle.
Hypothesis Hin : In v (p_vehicles d).

Lemma bpass_rels mid : bp_rels (bpass_loop d v mid) = releases d mid.
Proof.
  induction mid as [|a mid IH]; [reflexivity|].
  destruct a; unfold bpass_loop; fold bpass_loop; unfold bpass_step; cbn [bp_rels releases];
    rewrite IH; try reflexivity.
  f_equal. destruct (bpass_good d h Hv Ho Hn Hh v Hin mid) as [n [_ _ G _ _ _ _]].
  unfold ds_merge, ds_depot; cbn [ds_rel]. rewrite G.
  rewrite (trel_items d h Hv Ho Hh v Hin).
  pose proof (trip_release_bound d h Hv Ho Hh v Hin mid). lia.
Qed.

Lemma bpass_final_rels mid : bp_rels (bpass_final d v mid) = trip_release d mid :: releases d mid.
Proof.
  destruct (bpass_final_good d h Hv Ho Hn Hh v Hin mid) as [n [_ _ G _ _ _ _]].
  unfold bpass_final in *; cbn [bp_rels bp_ds] in *. rewrite G, bpass_rels. reflexivity.
Qed.

(** An entry of the timetable, given where the previous one left off. *)
Definition entry_ok (prevEnd : Z) (prevLoc : nat) (trip : nat) (b : sched) (rest : list sched) : Prop :=
  let arrive := prevEnd + p_dur d (v_profile v) prevLoc (a_loc d (sa_act b)) in
  sa_trip b = (if a_isDepot (sa_act b) then S trip else trip) /\
  sa_wait b = Z.max 0 (opening d (sa_act b) (map sa_act rest) - arrive) /\
  sa_tw b = Z.max 0 (arrive - closing d (sa_act b)) /\
  sa_start b = arrive + sa_wait b - sa_tw b /\
  sa_end b = sa_start b + (match rest with [] => 0 | _ => a_service d (sa_act b) end).

Fixpoint tt_ok (prevEnd : Z) (prevLoc : nat) (trip : nat) (es : list sched) : Prop :=
  match es with
  | [] => True
  | b :: post => entry_ok prevEnd prevLoc trip b post
                 /\ tt_ok (sa_end b) (a_loc d (sa_act b)) (sa_trip b) post
  end.

Lemma trip_release_end mid : trip_release d (mid ++ [ADepot (v_end v)]) = trip_release d mid.
Proof.
  induction mid as [|a mid IH]; [reflexivity|].
  destruct a; cbn [app trip_release]; rewrite ?IH; reflexivity.
Qed.

Lemma fpass_ok acts : forall now loc trip n, n = (trip + num_reloads acts + 1)%nat ->
  tt_ok now loc trip (fpass d v now loc trip (releases d acts) n acts).
Proof.
  induction acts as [|a acts IH]; intros now loc trip n Hnn.
  - cbn [fpass]. unfold handle. cbn [tt_ok]. split; [|exact I].
    unfold entry_ok. cbn [sa_act sa_trip sa_wait sa_tw sa_start sa_end a_isDepot a_loc opening closing map trip_release].
    destruct (valid_p_depot d (v_end v) Hv). unfold num_reloads in Hnn; cbn in Hnn.
    repeat split; try lia.
  - assert (Hne : forall now loc trip rels, exists x l, fpass d v now loc trip rels n acts = x :: l).
    { intros. destruct acts as [|[]]; cbn [fpass handle]; eexists; eexists; reflexivity. }
    pose proof (fun now loc trip rels => fpass_acts d v acts now loc trip rels n) as Hacts.
    destruct a as [i|i|i|i]; cbn [fpass releases hd List.tl]; unfold handle; cbn [tt_ok];
      (split; [unfold entry_ok; cbn [sa_act sa_trip sa_wait sa_tw sa_start sa_end a_isDepot a_loc];
               rewrite ?Hacts;
               match goal with |- context [fpass d v ?a ?b ?c ?e n acts] =>
                 destruct (Hne a b c e) as (x0 & l0 & E0) end;
               rewrite ?E0; cbn [opening closing a_service];
               rewrite ?trip_release_end; repeat split; lia
              | cbn [sa_act sa_trip sa_end a_loc]; apply IH;
                unfold num_reloads in *; cbn [filter a_isDepot length] in *; lia]).
Qed.

Lemma schedule_tt mid : exists e0 rest,
  set_schedule d v mid = e0 :: rest /\
  tt_ok (sa_end e0) (d_loc (p_depot d (v_start v))) 0 rest /\
  sa_act e0 = ADepot (v_start v) /\ sa_trip e0 = 0%nat /\
  map sa_act rest = mid ++ [ADepot (v_end v)] /\
  let depart := ds_startEarly (bp_ds (bpass_final d v mid)) in
  sa_wait e0 = Z.max 0 (opening d (ADepot (v_start v)) mid - depart) /\
  sa_tw e0 = Z.max 0 (depart - Z.min (closing d (ADepot (v_start v))) (v_startLate v)) /\
  sa_start e0 = depart + sa_wait e0 - sa_tw e0 /\
  sa_end e0 = sa_start e0 + a_service d (ADepot (v_start v)).
Proof.
  unfold set_schedule. rewrite bpass_final_rels. cbn [List.tl length]. rewrite releases_length.
  unfold handle. eexists _, _. split; [reflexivity|].
  split; [cbn [sa_end]; apply fpass_ok; lia|].
  cbn [sa_act sa_trip sa_wait sa_tw sa_start sa_end]. rewrite fpass_acts.
  destruct (bpass_final_good d h Hv Ho Hn Hh v Hin mid) as [n [_ _ G _ _ _ _]].
  rewrite G. cbn [opening closing a_service].
  repeat split; lia.
Qed.

(** Timetables by position. *)
Lemma tt_split pre : forall prevEnd prevLoc trip b post,
  tt_ok prevEnd prevLoc trip (pre ++ b :: post) ->
  let trip' := (trip + num_reloads (map sa_act pre))%nat in
  match rev pre with
  | [] => entry_ok prevEnd prevLoc trip' b post
  | a :: _ => entry_ok (sa_end a) (a_loc d (sa_act a)) trip' b post
  end.
Proof.
  induction pre as [|x pre IH] using rev_ind; intros prevEnd prevLoc trip b post H.
  - cbn in *. rewrite Nat.add_0_r. tauto.
  - rewrite rev_app_distr. cbn [rev app].
    clear IH. revert prevEnd prevLoc trip H.
    induction pre as [|y pre IH]; intros prevEnd prevLoc trip H.
    + cbn [app tt_ok map] in *. destruct H as [H1 [H2 _]].
      destruct H1 as (Ht & _). unfold num_reloads. cbn [map filter length].
      rewrite Ht in H2. destruct (a_isDepot (sa_act x)); cbn [length];
        [replace (trip + 1)%nat with (S trip) by lia | rewrite Nat.add_0_r]; exact H2.
    + cbn [app tt_ok] in H. destruct H as [H1 H2]. specialize (IH _ _ _ H2).
      destruct H1 as (Ht & _). rewrite Ht in IH.
      cbn [map app]. cbv zeta in *. unfold num_reloads in *. cbn [filter].
      destruct (a_isDepot (sa_act y)); cbn [length];
        [replace (trip + S _)%nat with (S trip + length (filter a_isDepot (map sa_act (pre ++ [x]))))%nat
          by lia|]; exact IH.
Qed.

(** ** The timetable and the simulation. *)
Lemma bounds_of a : 0 <= a_service d a /\ opening d a [] <= closing d a.
Proof.
  destruct a as [i|i|i|i]; cbn [a_service opening closing trip_release].
  - destruct (valid_p_depot d i Hv). lia.
  - destruct (valid_p_client d i Hv). lia.
  - destruct (valid_p_shipment d i Hv) as [[] _ _ _]. lia.
  - destruct (valid_p_shipment d i Hv) as [_ [] _ _]. lia.
Qed.

Lemma opening_closing a rest : opening d a rest <= closing d a.
Proof.
  destruct a as [i|i|i|i]; cbn [opening closing].
  - destruct (valid_p_depot d i Hv). lia.
  - destruct (valid_p_client d i Hv). lia.
  - destruct (valid_p_shipment d i Hv) as [[] _ _ _]. lia.
  - destruct (valid_p_shipment d i Hv) as [_ [] _ _]. lia.
Qed.

Lemma tt_simulate mid : forall now loc trip es,
  tt_ok now loc trip es -> map sa_act es = mid ++ [ADepot (v_end v)] ->
  reload_releases_ok d mid ->
  v_early v <= sa_start (last es dummy_sched) <= v_late v ->
  simulate now (events_from d v loc mid) =
  (zsum (map sa_wait es)
   + path_sum (p_dur d (v_profile v)) (loc :: map (a_loc d) mid ++ [d_loc (p_depot d (v_end v))])
   + zsum (map (a_service d) mid),
   zsum (map sa_tw es)).
Proof.
  induction mid as [|a mid IH]; intros now loc trip es Htt Hacts HR Hlast.
  - destruct es as [|b [|? ?]]; try discriminate. cbn [map app] in Hacts.
    injection Hacts as Hb. cbn [last] in Hlast. destruct Htt as [(H1 & H2 & H3 & H4 & H5) _].
    rewrite Hb in *. cbn [a_loc opening closing map trip_release] in *.
    destruct (valid_p_depot d (v_end v) Hv).
    cbn [events_from simulate map app zsum path_sum]. f_equal; lia.
  - destruct es as [|b es]; [destruct mid; discriminate|].
    cbn [map app] in Hacts. injection Hacts as Hb Hes.
    destruct Htt as [(H1 & H2 & H3 & H4 & H5) Htt]. rewrite Hb in *.
    assert (Hne : es <> []) by (intros ->; destruct mid; discriminate).
    assert (HR' : reload_releases_ok d mid) by (destruct a; [apply HR | exact HR | exact HR | exact HR]).
    assert (Hl' : last (b :: es) dummy_sched = last es dummy_sched) by (destruct es; [congruence | reflexivity]).
    rewrite Hl' in Hlast.
    specialize (IH _ _ _ _ Htt Hes HR' Hlast).
    rewrite Hes, ?trip_release_end in *.
    assert (H5' : sa_end b = sa_start b + a_service d a) by (destruct es; [congruence | exact H5]).
    clear H5 H1.
    cbn [map app zsum]. rewrite path_sum_cons2.
    set (P := path_sum (p_dur d (v_profile v)) (a_loc d a :: map (a_loc d) mid ++ [d_loc (p_depot d (v_end v))])) in *.
    destruct a as [i|i|i|i]; cbn [events_from app simulate a_loc opening closing a_service] in *.
    + rewrite trip_release_end in H2. cbn [reload_releases_ok] in HR. destruct HR as [HRi _].
      destruct (valid_p_depot d i Hv).
      set (L := p_dur d (v_profile v) loc (d_loc (p_depot d i))) in *.
      match goal with |- context [simulate ?x (events_from d v _ mid)] => replace x with (sa_end b) by lia end.
      rewrite IH. f_equal; lia.
    + destruct (valid_p_client d i Hv).
      match goal with |- context [simulate ?x (events_from d v _ mid)] => replace x with (sa_end b) by lia end.
      rewrite IH. f_equal; lia.
    + destruct (valid_p_shipment d i Hv) as [[] _ _ _].
      match goal with |- context [simulate ?x (events_from d v _ mid)] => replace x with (sa_end b) by lia end.
      rewrite IH. f_equal; lia.
    + destruct (valid_p_shipment d i Hv) as [_ [] _ _].
      match goal with |- context [simulate ?x (events_from d v _ mid)] => replace x with (sa_end b) by lia end.
      rewrite IH. f_equal; lia.
Qed.

(** The departure time is within the vehicle's window once released. *)
Lemma start_window mid : let s := bp_ds (bpass_final d v mid) in
  v_early v <= ds_early s <= v_startLate v.
Proof.
  cbv zeta. destruct (bpass_good d h Hv Ho Hn Hh v Hin mid) as [n Hb].
  destruct (vehicle_valid d h Hv Ho v Hin) as [[] Hve].
  destruct (valid_p_depot d (v_start v) Hv). pose proof (opens_p_depot d h (v_start v) Ho).
  unfold bpass_final; cbn [bp_ds].
  set (start := p_depot d (v_start v)) in *.
  pose proof (ob_nonneg _ _ Ho) as Hh0.
  pose proof (good_raw h (d_service start) (d_early start) (d_late start) 0
               Hh0 ltac:(lia) ltac:(lia) ltac:(lia) ltac:(lia) ltac:(lia) ltac:(lia)) as G1.
  pose proof (good_merge h Hh _ _ (p_dur d (v_profile v) (d_loc start) (bp_loc (bpass_loop d v mid))) _ _ _ _ _ _
                (Hn _ _ _) G1 Hb) as G3.
  change (mk_dseg (d_service start) 0 (d_early start) (d_late start) 0 0 0 MAXV)
    with (ds_depot start (d_service start)) in G3.
  set (s2 := ds_merge _ (ds_depot start (d_service start)) _) in *.
  destruct G3 as [[] _ _ _ _ _ _]. destruct s2 as [a1 a2 a3 a4 a5 a6 a7 a8].
  unfold plain in *; dcbn.
  unfold ds_merge0, ds_merge, ds_vehicle; dcbn. zcases.
Qed.

Theorem schedule_warp mid e0 rest : set_schedule d v mid = e0 :: rest ->
  reload_releases_ok d mid ->
  trip_release d mid <= v_startLate v \/ d_early (p_depot d (v_start v)) <= v_startLate v ->
  v_early v <= sa_start (last rest dummy_sched) <= v_late v ->
  ds_duration (bp_ds (bpass_final d v mid)) =
    zsum (map sa_wait (e0 :: rest)) + route_travel d v mid + route_service d v mid /\
  ds_warp0 (bp_ds (bpass_final d v mid)) = zsum (map sa_tw (e0 :: rest)).
Proof.
  intros Hs HR Hst Hlast.
  destruct (schedule_tt mid) as (e0' & rest' & E & Htt & Ha & _ & Hacts & Hw & Ht & Hs0 & He).
  rewrite Hs in E. injection E as <- <-.
  destruct (route_timing d h Hv Ho Hn Hh v Hin mid) as (T & (T1 & T2 & T3 & T4) & Hsim & Hdur & Hwarp & Hse & Hsl & Hrel & _).
  specialize (Hsim (te T)).
  rewrite Z.sub_diag, !Z.max_id in Hsim. rewrite Z.max_l in Hsim by lia. rewrite !Z.add_0_r in Hsim.
  rewrite Hdur, Hwarp.
  unfold route_events in Hsim. cbn [app simulate] in Hsim.
  pose proof (start_window mid) as Hsw. cbv zeta in Hsw.
  assert (Hte : te T = Z.max (ds_early (bp_ds (bpass_final d v mid))) (trip_release d mid))
    by (rewrite <- Hse; unfold ds_startEarly; rewrite Hrel; reflexivity).
  cbv zeta in Hw, Ht, Hs0. rewrite Hse in Hw, Ht, Hs0.
  cbn [opening closing a_service] in *.
  destruct (valid_p_depot d (v_start v) Hv).
  destruct (vehicle_valid d h Hv Ho v Hin) as [[] Hve].
  pose proof (trip_release_bound d h Hv Ho Hh v Hin mid) as Htr.
  set (t0 := te T) in *. set (R := trip_release d mid) in *.
  set (de := d_early (p_depot d (v_start v))) in *. set (dl := d_late (p_depot d (v_start v))) in *.
  set (ve := v_early v) in *. set (SL := v_startLate v) in *.
  assert (E1 : Z.max 0 (R - t0) = 0) by lia.
  assert (E2 : Z.max 0 (ve - t0) = 0) by lia.
  rewrite E1, Z.add_0_r, E2 in Hsim.
  assert (E3 : Z.max 0 (de - (t0 + 0 - Z.max 0 (t0 - SL))) = sa_wait e0 /\
               Z.max 0 (t0 - SL) + Z.max 0 (t0 + 0 - Z.max 0 (t0 - SL) - dl) = sa_tw e0).
  { destruct (Z_le_gt_dec t0 SL) as [H1|H1].
    - rewrite (Z.max_l 0 (t0 - SL)) by lia. rewrite Hw, Ht. split; lia.
    - rewrite (Z.max_r 0 (t0 - SL)) by lia. rewrite Hw, Ht. split; lia. }
  destruct E3 as [E3 E4].
  rewrite E3 in Hsim.
  match type of Hsim with context [simulate ?x (events_from d v _ mid)] =>
    replace x with (sa_end e0) in Hsim by (clear - E3 E4 Hs0 He; lia) end.
  rewrite (tt_simulate mid _ _ _ _ Htt Hacts HR Hlast) in Hsim.
  pose proof (f_equal fst Hsim) as Hd. pose proof (f_equal snd Hsim) as Hwp.
  cbn [fst snd] in Hd, Hwp. clear Hsim.
  fold (route_locs d v mid) in Hd. fold (route_travel d v mid) in Hd.
  unfold route_service. cbn [map zsum].
  split; [clear - Hd; lia | clear - Hwp E4; lia].
Qed.
End Timetable.
