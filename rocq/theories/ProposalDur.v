(** Evaluating the duration and time warp of a proposal is the same as rebuilding the route. *)
From Verif Require Import Base DurationSegment Beh Tws DurationFacts Data LoadSegment SearchRoute
  RouteDur Valid.

(** ** Items of valid data. *)
Lemma good_raw h v e l r : 0 <= h -> 0 <= v -> 0 <= e -> e <= l -> l <= MAXV -> e <= h -> 0 <= r <= h ->
  good h v (mk_dseg v 0 e l r 0 0 MAXV) (tbeh (mk_tws v 0 e l)) r.
Proof.
  intros. constructor; try reflexivity; try lia.
  constructor; unfold plain; dcbn; lia.
Qed.

Section Items.
Variable d : pdata.
Variable h : Z.
Hypothesis Hv : valid_data d.
Hypothesis Ho : opens_by d h.
Hypothesis Hh : 2 * h <= MAXV.

Lemma item_act_ok a : item_ok d h (item_act d a).
Proof.
  pose proof (ob_nonneg _ _ Ho).
  destruct a as [i|i|i|i]; constructor; cbn [item_act it_dur it_reload it_act a_idx]; try discriminate;
    unfold it_win, item_act, plain, ds_depot, ds_client, ds_step; cbn [it_dur]; dcbn.
  - destruct (valid_p_depot d i Hv). pose proof (opens_p_depot d h i Ho).
    apply good_raw; lia.
  - intros _. split; [reflexivity|]. destruct (valid_p_depot d i Hv). cbn. assumption.
  - destruct (valid_p_client d i Hv). pose proof (opens_p_client d h i Ho).
    apply good_raw; lia.
  - destruct (valid_p_shipment d i Hv) as [[] _ _ _]. pose proof (opens_p_shipment d h i Ho).
    apply good_raw; lia.
  - destruct (valid_p_shipment d i Hv) as [_ [] _ _]. pose proof (opens_p_shipment d h i Ho).
    apply good_raw; lia.
Qed.

Lemma merge0_good v1 e1 l1 v2 e2 l2 :
  0 <= h -> 0 <= v1 -> 0 <= e1 -> e1 <= l1 -> l1 <= MAXV -> e1 <= h ->
  0 <= v2 -> 0 <= e2 -> e2 <= l2 -> l2 <= MAXV -> e2 <= h ->
  let s := ds_merge0 (mk_dseg v1 0 e1 l1 0 0 0 MAXV) (mk_dseg v2 0 e2 l2 0 0 0 MAXV) in
  good h (ds_dur s) s (tbeh (plain s)) (ds_rel s) /\ ds_rel s = 0 /\
  v1 + v2 <= ds_dur s <= v1 + v2 + h.
Proof.
  intros H0 Hv1 He1 Hl1 Hm1 Hh1 Hv2 He2 Hl2 Hm2 Hh2 s.
  pose proof (good_raw h v1 e1 l1 0 H0 Hv1 He1 Hl1 Hm1 Hh1 ltac:(lia)) as G1.
  pose proof (good_raw h v2 e2 l2 0 H0 Hv2 He2 Hl2 Hm2 Hh2 ltac:(lia)) as G2.
  pose proof (good_merge h Hh _ _ 0 _ _ _ _ _ _ ltac:(lia) G1 G2) as G.
  assert (Hd : v1 + v2 <= ds_dur s <= v1 + v2 + h).
  { subst s. unfold ds_merge0, ds_merge; dcbn. zcases. }
  assert (Hr : ds_rel s = 0) by reflexivity.
  split; [|split; [exact Hr | exact Hd]].
  rewrite Hr. eapply good_n; [|eapply good_eq; [|exact G]].
  - lia.
  - symmetry. apply (gd_beh _ _ _ _ _ G).
Qed.

Lemma vehicle_valid v : In v (p_vehicles d) -> valid_vehicle v /\ v_early v <= h.
Proof.
  intros Hin. split.
  - exact (proj1 (Forall_forall _ _) (va_vehicles _ Hv) v Hin).
  - exact (proj1 (Forall_forall _ _) (ob_vehicles _ _ Ho) v Hin).
Qed.

Lemma item_start_ok v : In v (p_vehicles d) -> item_ok d h (item_start d v) /\
  ds_rel (it_dur (item_start d v)) = 0 /\
  ds_dur (it_dur (item_start d v)) <= d_service (p_depot d (v_start v)) + h.
Proof.
  intros Hin. destruct (vehicle_valid v Hin) as [[] Hve].
  destruct (valid_p_depot d (v_start v) Hv). pose proof (opens_p_depot d h (v_start v) Ho).
  pose proof (ob_nonneg _ _ Ho).
  destruct (merge0_good 0 (v_early v) (v_startLate v) (d_service (p_depot d (v_start v)))
             (d_early (p_depot d (v_start v))) (d_late (p_depot d (v_start v)))) as (G & Hr & Hd);
    try lia.
  split; [constructor; [exact G | discriminate] | split; [exact Hr|]].
  cbn [item_start it_dur]. unfold ds_vehicle, ds_depot. lia.
Qed.

Lemma item_end_ok v : In v (p_vehicles d) -> item_ok d h (item_end d v) /\
  ds_rel (it_dur (item_end d v)) = 0 /\ ds_dur (it_dur (item_end d v)) <= h.
Proof.
  intros Hin. destruct (vehicle_valid v Hin) as [[] Hve].
  destruct (valid_p_depot d (v_end v) Hv). pose proof (opens_p_depot d h (v_end v) Ho).
  pose proof (ob_nonneg _ _ Ho).
  destruct (merge0_good 0 (d_early (p_depot d (v_end v))) (d_late (p_depot d (v_end v)))
             0 (v_early v) (v_late v)) as (G & Hr & Hd); try lia.
  split; [constructor; [exact G | discriminate] | split; [exact Hr|]].
  cbn [item_end it_dur]. unfold ds_vehicle, ds_depot. lia.
Qed.

Lemma mid_items_ok mid : Forall (item_ok d h) (map (item_act d) mid).
Proof. apply Forall_map. apply Forall_forall. intros a _. apply item_act_ok. Qed.

Lemma route_items_ok v mid : In v (p_vehicles d) -> Forall (item_ok d h) (route_items d v mid).
Proof.
  intros Hin. unfold route_items. constructor; [apply item_start_ok; exact Hin|].
  apply Forall_app. split; [apply mid_items_ok|].
  constructor; [apply item_end_ok; exact Hin | constructor].
Qed.

Lemma it_reload_act a : it_reload (item_act d a) = a_isDepot a.
Proof. destruct a; reflexivity. Qed.

Lemma trel_mid v mid : In v (p_vehicles d) ->
  trel (map (item_act d) mid ++ [item_end d v]) = trip_release d mid.
Proof.
  intros Hin. destruct (item_end_ok v Hin) as (_ & Hr & _).
  induction mid as [|a mid IH]; cbn [map app trel trip_release].
  - rewrite Hr. reflexivity.
  - destruct a as [i|i|i|i]; cbn [item_act it_reload it_dur]; rewrite ?IH; try reflexivity.
    + assert (H0 : 0 <= trip_release d mid).
      { rewrite <- IH. apply (trel_bound d h (ob_nonneg _ _ Ho)).
        apply Forall_app; split; [apply mid_items_ok|].
        constructor; [apply item_end_ok; exact Hin | constructor]. }
      cbn [ds_step ds_rel]. lia.
    + assert (H0 : 0 <= trip_release d mid).
      { rewrite <- IH. apply (trel_bound d h (ob_nonneg _ _ Ho)).
        apply Forall_app; split; [apply mid_items_ok|].
        constructor; [apply item_end_ok; exact Hin | constructor]. }
      cbn [ds_step ds_rel]. lia.
Qed.

Lemma R1_route v mid : In v (p_vehicles d) -> reload_releases_ok d mid -> R1 (route_items d v mid).
Proof.
  intros Hin HR. unfold route_items. split; [discriminate|].
  induction mid as [|a mid IH]; cbn [map app R1].
  - split; [discriminate | exact I].
  - rewrite it_reload_act. split.
    + destruct a; try discriminate. intros _. rewrite trel_mid by exact Hin. apply HR.
    + apply IH. destruct a; [apply HR | exact HR | exact HR | exact HR].
Qed.

Lemma lastof_last x l y : lastof x (l ++ [y]) = y.
Proof. revert x; induction l as [|z l IH]; intros x; [reflexivity|]. apply IH. Qed.

Lemma iw_act a : iw d (item_act d a) = a_service d a.
Proof.
  destruct a; unfold iw, it_srv, a_service;
    cbn [item_act it_dur it_reload it_act a_idx ds_dur ds_depot ds_client ds_step]; lia.
Qed.

Lemma wrk_route v mid : In v (p_vehicles d) ->
  iw d (item_start d v) + wrk d (p_dur d (v_profile v)) (item_start d v)
     (map (item_act d) mid ++ [item_end d v])
  <= 2 * h + route_travel d v mid + route_service d v mid.
Proof.
  intros Hin. unfold route_travel, route_service, route_locs.
  destruct (item_start_ok v Hin) as (_ & _ & Hs). destruct (item_end_ok v Hin) as (_ & _ & He).
  assert (H1 : iw d (item_start d v) <= d_service (p_depot d (v_start v)) + h).
  { unfold iw. replace (it_reload (item_start d v)) with false by reflexivity. lia. }
  assert (H2 : forall x, wrk d (p_dur d (v_profile v)) x (map (item_act d) mid ++ [item_end d v]) <=
     path_sum (p_dur d (v_profile v)) (it_loc x :: map (a_loc d) mid ++ [d_loc (p_depot d (v_end v))])
     + zsum (map (a_service d) mid) + h).
  { induction mid as [|a mid IH]; intros x.
    - cbn [map app wrk path_sum zsum]. unfold iw.
      replace (it_reload (item_end d v)) with false by reflexivity.
      replace (it_loc (item_end d v)) with (d_loc (p_depot d (v_end v))) by reflexivity. lia.
    - cbn [map app wrk zsum]. rewrite iw_act. specialize (IH (item_act d a)).
      replace (it_loc (item_act d a)) with (a_loc d a) in * by (destruct a; reflexivity).
      cbn [path_sum] in *. lia. }
  specialize (H2 (item_start d v)). change (it_loc (item_start d v)) with (d_loc (p_depot d (v_start v))) in H2. lia.
Qed.
End Items.

(** ** What a piece of a proposal stands for. *)
Definition seg_items (d : pdata) (s : seg) : list item :=
  match s with
  | SBefore c e => firstn (e + 1) (ca_items c)
  | SAfter c s => skipn s (ca_items c)
  | SBetween c s e => ca_item c s :: slice (ca_items c) s e
  | _ => match single d s with Some x => [x] | None => [] end
  end.

Definition prop_items (d : pdata) (p : proposal) : list item :=
  concat (map (seg_items d) (pr_first p :: pr_rest p)).

(** The cached data belongs to a route. *)
Definition coherent (d : pdata) (c : cache) : Prop :=
  exists v mid, In v (p_vehicles d) /\ c = update d v mid.

(** Pieces other than the first and last one. *)
Inductive wf_mid (d : pdata) : seg -> Prop :=
| wf_between c s e : coherent d c -> (s <= e)%nat -> (e < ca_size c)%nat ->
    inner (slice (ca_items c) s e) -> wf_mid d (SBetween c s e)
| wf_client i : wf_mid d (SClient i)
| wf_pickup i : wf_mid d (SPickup i)
| wf_delivery i : wf_mid d (SDelivery i)
| wf_depot i : wf_mid d (SDepot i).

(** The last piece: a suffix of a route of the same vehicle type, or again any other piece. *)
Inductive wf_last (d : pdata) (v : vehicle) : seg -> Prop :=
| wf_after mid s : (s < length mid + 2)%nat -> wf_last d v (SAfter (update d v mid) s)
| wf_last_mid o : wf_mid d o -> wf_last d v o.

Inductive wf_prop (d : pdata) (v : vehicle) : proposal -> Prop :=
| wf_prop_intro mid e mids l :
    (e < length mid + 2)%nat -> Forall (wf_mid d) mids -> wf_last d v l ->
    wf_prop d v (mk_proposal (SBefore (update d v mid) e) (mids ++ [l])).

Lemma nth_lastof (l : list item) s e dft : (s <= e)%nat -> (e < length l)%nat ->
  lastof (nth s l dft) (slice l s e) = nth e l dft.
Proof.
  intros Hse He. unfold slice.
  replace e with (s + (e - s))%nat at 2 by lia.
  assert (Hk : (s + (e - s) < length l)%nat) by lia.
  generalize dependent (e - s)%nat. clear He Hse. intros k Hk.
  revert l k Hk. induction s as [|s IH]; intros l k Hk.
  - destruct l as [|x l]; [cbn in Hk; lia|]. cbn [nth skipn plus].
    revert x l Hk. induction k as [|k IHk]; intros x l Hk; [reflexivity|].
    destruct l as [|y l]; [cbn in Hk; lia|]. cbn [firstn lastof].
    rewrite IHk by (cbn in *; lia). reflexivity.
  - destruct l as [|x l]; [cbn in Hk; lia|]. cbn [nth skipn plus].
    apply (IH l k). cbn in Hk. lia.
Qed.

Lemma slice_length {A} (l : list A) s e : (s <= e)%nat -> (e < length l)%nat ->
  length (slice l s e) = (e - s)%nat.
Proof. intros H1 H2. unfold slice. rewrite firstn_length, skipn_length. lia. Qed.

Lemma slice_Forall {A} (P : A -> Prop) l s e : Forall P l -> Forall P (slice l s e).
Proof.
  intros H. unfold slice. apply Forall_forall. intros x Hx.
  apply (proj1 (Forall_forall _ _) H).
  assert (Hx' : In x (skipn (s + 1) l)).
  { rewrite <- (firstn_skipn (e - s) (skipn (s + 1) l)). apply in_or_app. left. exact Hx. }
  rewrite <- (firstn_skipn (s + 1) l). apply in_or_app. right. exact Hx'.
Qed.

Section Exact.
Variable d : pdata.
Variable h : Z.
Hypothesis Hv : valid_data d.
Hypothesis Ho : opens_by d h.
Hypothesis Hh : 2 * h <= MAXV.
Hypothesis Hd : nonneg_durs d.
Variable profile : nat.
Notation D := (p_dur d profile).

Lemma D_ok a b : 0 <= D a b.
Proof. apply Hd. Qed.

Lemma coherent_items c : coherent d c -> Forall (item_ok d h) (ca_items c).
Proof. intros (v & mid & Hin & ->). cbn. apply route_items_ok; assumption. Qed.

Lemma single_mid o x : single d o = Some x -> item_ok d h x -> mid_ok d D h profile o x [].
Proof.
  intros Hs Hx.
  assert (Hd0 : sg_duration d profile o = it_dur x)
    by (destruct o; try discriminate; injection Hs as <-; reflexivity).
  constructor; try (destruct o; try discriminate; injection Hs as <-; reflexivity);
    try exact I; try exact Hx; try constructor.
  all: rewrite ?Hd0; destruct (io_good _ _ _ Hx).
  - cbn [wrk lastof]. eapply okt_mono; [| |exact gd_ok]; [lia|]. unfold iw, pend. lia.
  - unfold mid_beh. cbn [walk]. rewrite !bskip_r. exact gd_beh.
  - cbn [mxrel]. lia.
  - cbn [mxrel]. lia.
  - assumption.
  - assumption.
  - assumption.
Qed.

Lemma between_mid c s e : coherent d c -> (s <= e)%nat -> (e < ca_size c)%nat ->
  inner (slice (ca_items c) s e) ->
  mid_ok d D h profile (SBetween c s e) (ca_item c s) (slice (ca_items c) s e).
Proof.
  intros Hc Hse He Hin. pose proof (coherent_items c Hc) as Hall.
  pose proof (ob_nonneg _ _ Ho) as Hh0.
  unfold ca_size in He.
  assert (Hys := slice_Forall _ _ s e Hall).
  assert (Hlen := slice_length (ca_items c) s e Hse He).
  assert (Hy : item_ok d h (ca_item c s)).
  { unfold ca_item. apply (proj1 (Forall_forall _ _) Hall). apply nth_In. lia. }
  assert (Hlast : lastof (ca_item c s) (slice (ca_items c) s e) = ca_item c e)
    by (apply nth_lastof; lia).
  set (y := ca_item c s) in *. set (ys := slice (ca_items c) s e) in *.
  constructor; try assumption.
  - reflexivity.
  - rewrite Hlast. reflexivity.
  - cbn [sg_size]. lia.
  - reflexivity.
  - rewrite Hlast. reflexivity.
  - cbn [sg_duration sg_size]. fold y ys.
    replace (e - s + 1 =? 1)%nat with (match ys with [] => true | _ => false end).
    2:{ destruct ys; cbn [length] in Hlen; symmetry; [apply Nat.eqb_eq | apply Nat.eqb_neq]; lia. }
    destruct (io_good _ _ _ Hy) as [G1 G2 G3 G4 G5 G6 G7].
    pose proof (io_good _ _ _ Hy) as Gy.
    destruct ys as [|x xs].
    + cbn [negb andb dur_walk wrk lastof mxrel].
      replace (Z.max (ds_rel (it_dur y)) 0) with (ds_rel (it_dur y)) by lia.
      eapply good_n; [|eapply good_eq; [|exact Gy]].
      * unfold iw, pend. lia.
      * unfold mid_beh. cbn [walk]. rewrite !bskip_r. reflexivity.
    + cbn [negb andb]. inversion Hys as [|? ? Hx Hxs]; subst.
      pose proof (dwrk_wrk d D (x :: xs) y ltac:(discriminate) Hin) as Hw.
      unfold mid_beh. unfold srvb. unfold iw. destruct (it_reload y) eqn:Ey.
      * destruct (item_reload_win d h y Hy Ey) as (_ & _ & Hr0 & Hd0).
        destruct (io_reload _ _ _ Hy Ey) as [_ Hsrv].
        pose proof (good_merge h Hh _ _ 0 _ _ _ _ _ _ ltac:(lia) Gy (good_service h Hh0 _ Hsrv)) as H1.
        pose proof (D_ok (it_loc y) (it_loc x)) as HD.
        pose proof (good_merge h Hh _ _ _ _ _ _ _ _ _ HD H1 (io_good _ _ _ Hx)) as H2.
        assert (H3 := good_walk d D D_ok h Hh xs x _ _ _ _ H2 Hxs).
        cbn [dur_walk]. cbn [mxrel dwrk] in *.
        replace (Z.max (ds_rel (it_dur y)) (Z.max (ds_rel (it_dur x)) (mxrel xs)))
          with (Z.max (Z.max (Z.max (ds_rel (it_dur y)) 0) (ds_rel (it_dur x))) (mxrel xs)) by lia.
        eapply good_n; [|eapply good_eq; [|exact H3]]; [lia|].
        cbn [walk]. rewrite !bseq_assoc, bspend_0, bskip_l.
        pose proof (gd_ok _ _ _ _ _ (io_good _ _ _ Hx)) as Hxok. pose proof MAXV_pos.
        assert (Hc' := clamp_noop MAXV (it_srv d y + D (it_loc y) (it_loc x)) (plain (it_dur x))
                 ltac:(lia) (ok_l _ _ _ Hxok) (ok_el _ _ _ Hxok) ltac:(lia)).
        rewrite <- bspend_add in Hc'. rewrite !bseq_assoc in Hc'.
        fold (it_win x) in Hc'.
        transitivity (it_win y ;; (bwindow 0 MAXV ;; bspend (it_srv d y) ;;
           bspend (D (it_loc y) (it_loc x)) ;; it_win x) ;; walk D x xs).
        { rewrite !bseq_assoc. reflexivity. }
        rewrite Hc'. rewrite !bseq_assoc.
        assert (E0 := end_wait0 h Hh0 (ds_dur (it_dur y)) (plain (it_dur y)) 0 G1 ltac:(lia)).
        rewrite bspend_0, bskip_l, bskip_r in E0. fold (it_win y) in E0.
        transitivity ((it_win y ;; bwait 0) ;; bspend (it_srv d y) ;;
           bspend (D (it_loc y) (it_loc x)) ;; it_win x ;; walk D x xs).
        { rewrite !bseq_assoc. reflexivity. }
        rewrite E0. reflexivity.
      * assert (H3 := good_walk d D D_ok h Hh (x :: xs) y _ _ _ _ Gy Hys).
        eapply good_n; [|eapply good_eq; [|exact H3]]; [lia|].
        rewrite bskip_l. reflexivity.
Qed.

Lemma wf_mid_ok o : wf_mid d o ->
  exists y ys, mid_ok d D h profile o y ys /\ seg_items d o = y :: ys.
Proof.
  intros H; destruct H as [c s e Hc Hse He Hin|i|i|i|i].
  - eexists _, _. split; [apply between_mid; assumption | reflexivity].
  - eexists _, []. split; [apply single_mid; [reflexivity | apply item_act_ok; assumption] | reflexivity].
  - eexists _, []. split; [apply single_mid; [reflexivity | apply item_act_ok; assumption] | reflexivity].
  - eexists _, []. split; [apply single_mid; [reflexivity | apply item_act_ok; assumption] | reflexivity].
  - eexists _, []. split; [apply single_mid; [reflexivity | apply item_act_ok; assumption] | reflexivity].
Qed.

Lemma enter_cons y ys : enter d D (y :: ys) = waitb y ys ;; it_win y ;; srvb d y ;; go d D y ys.
Proof. reflexivity. Qed.

(** Any piece that does not end at a reload depot, as the last one. *)
Lemma last_mid o y ys : mid_ok d D h profile o y ys -> it_reload (lastof y ys) = false ->
  R1 (y :: ys) ->
  good h (iw d y + wrk d D y ys)
       (let s := sg_duration d profile o in
        if sg_startsReload o then ds_finaliseFront s else s)
       (enter d D (y :: ys)) (trel (y :: ys)).
Proof.
  intros [Hfr Hbk Hsz Hst Hen Hin Hy Hys Hdur] HL HR. cbv zeta. rewrite Hst.
  assert (Hp : pend d (lastof y ys) = 0) by (unfold pend; rewrite HL; reflexivity).
  rewrite Hp in Hdur. pose proof (ob_nonneg _ _ Ho) as Hh0.
  pose proof (mxrel_nonneg d h Hh0 _ Hys) as Hmx.
  pose proof (gd_r _ _ _ _ _ (io_good _ _ _ Hy)) as Hry.
  rewrite enter_cons. unfold waitb.
  change (trel (y :: ys)) with (if it_reload y then 0 else Z.max (ds_rel (it_dur y)) (trel ys)).
  destruct ys as [|x xs].
  - cbn [lastof] in HL. rewrite HL. eapply good_n; [|eapply good_eq; [|exact Hdur]]; [lia|].
    unfold mid_beh, srvb. rewrite HL. cbn [walk go]. rewrite !bskip_r, bskip_l. reflexivity.
  - pose proof (go_walk d D h (x :: xs) y [] ltac:(discriminate) Hin Hys) as HG.
    rewrite app_nil_r in HG. specialize (HG (proj2 HR)).
    assert (HT : trel (x :: xs) = mxrel (x :: xs)).
    { inversion Hys; subst. pose proof (trel_app d h Hh0 x xs [] Hin) as Ht.
      rewrite app_nil_r in Ht. cbn [lastof] in HL. rewrite HL in Ht.
      rewrite Ht by auto. change (trel []) with 0. lia. }
    assert (HB : mid_beh d D y (x :: xs) == it_win y ;; srvb d y ;; go d D y (x :: xs)).
    { rewrite HG. unfold mid_beh, waitb, srvb. rewrite HL. cbn [go]. rewrite !bskip_r. reflexivity. }
    apply (good_eq _ _ _ _ _ _ HB) in Hdur.
    destruct (it_reload y) eqn:Ey.
    + destruct (item_reload_win d h y Hy Ey) as (_ & _ & Hr0 & _).
      rewrite Hr0, Z.max_r, <- HT in Hdur by lia.
      apply (good_front h Hh Hh0) in Hdur.
      eapply good_n; [|exact Hdur]; lia.
    + rewrite HT. eapply good_n; [|eapply good_eq; [|exact Hdur]]; [lia|].
      rewrite bskip_l. reflexivity.
Qed.

(** From right to left over the middle pieces. *)
Lemma loop_mids first : forall mids ds z zs,
  Forall (wf_mid d) mids ->
  good h (iw d z + wrk d D z zs) ds (enter d D (z :: zs)) (trel (z :: zs)) ->
  Forall (item_ok d h) (z :: zs) ->
  R1 (concat (map (seg_items d) (rev mids)) ++ z :: zs) ->
  exists ds' z' zs',
    prop_dur_loop d profile ds (it_loc z) (mids ++ [first]) =
      prop_dur_merge d profile ds' (it_loc z') first /\
    z' :: zs' = concat (map (seg_items d) (rev mids)) ++ z :: zs /\
    Forall (item_ok d h) (z' :: zs') /\
    good h (iw d z' + wrk d D z' zs') ds' (enter d D (z' :: zs')) (trel (z' :: zs')).
Proof.
  pose proof (ob_nonneg _ _ Ho) as Hh0.
  induction mids as [|o mids IH]; intros ds z zs Hm Hg Hz HR.
  - exists ds, z, zs. cbn [app rev map concat prop_dur_loop].
    split; [reflexivity|]. split; [reflexivity|]. split; assumption.
  - inversion Hm as [|? ? Ho1 Hm']; subst.
    destruct (wf_mid_ok o Ho1) as (y & ys & Hmo & Hit).
    cbn [rev] in HR. rewrite map_app, concat_app in HR. cbn [map concat] in HR.
    rewrite Hit, app_nil_r, <- app_assoc in HR.
    assert (HR' : R1 ((y :: ys) ++ z :: zs)) by (eapply R1_app; exact HR).
    pose proof (mid_merge d D D_ok h Hh Hh0 profile o y ys _ ds z zs (fun a b => eq_refl) Hmo Hg Hz HR') as Hg2.
    cbv zeta in Hg2.
    set (ds2 := if sg_startsReload o && (1 <? sg_size o)%nat
                then ds_finaliseFront (prop_dur_merge d profile ds (it_loc z) o)
                else prop_dur_merge d profile ds (it_loc z) o) in *.
    assert (Hloop : prop_dur_loop d profile ds (it_loc z) ((o :: mids) ++ [first]) =
                    prop_dur_loop d profile ds2 (it_loc y) (mids ++ [first])).
    { cbn [app prop_dur_loop]. rewrite (mo_front _ _ _ _ _ _ _ Hmo).
      destruct (mids ++ [first]) eqn:E; [destruct mids; discriminate|]. reflexivity. }
    rewrite Hloop.
    destruct (IH ds2 y (ys ++ z :: zs) Hm') as (ds' & z' & zs' & E1 & E2 & E3 & E4).
    + cbn [app] in Hg2. eapply good_n; [|exact Hg2]. rewrite wrk_app. cbn [wrk]. lia.
    + change (y :: ys ++ z :: zs) with ((y :: ys) ++ z :: zs). apply Forall_app. split; [|exact Hz].
      constructor; [exact (mo_y _ _ _ _ _ _ _ Hmo) | exact (mo_ys _ _ _ _ _ _ _ Hmo)].
    + exact HR.
    + exists ds', z', zs'. split; [exact E1|]. split; [|split; assumption].
      rewrite E2. cbn [rev]. rewrite map_app, concat_app. cbn [map concat].
      rewrite Hit, app_nil_r, <- app_assoc. reflexivity.
Qed.

(** The piece before a cut that is in the first trip. *)
Lemma bfold_walk l : forall x acc, it_reload x = false -> inner l ->
  bfold d D x acc l = dur_walk D x acc l.
Proof.
  induction l as [|y l IH]; intros x acc Hx Hin; [reflexivity|].
  cbn [bfold dur_walk]. unfold before_step. rewrite Hx.
  destruct l as [|z l]; [reflexivity|].
  destruct (inner_cons _ _ Hin ltac:(discriminate)) as [Hy Hin']. apply IH; assumption.
Qed.

Lemma good_unique n n' s s' f r : good h n s f r -> good h n' s' f r -> s = s'.
Proof.
  intros [A1 A2 A3 A4 A5 A6 A7] [B1 B2 B3 B4 B5 B6 B7].
  assert (E : plain s = plain s').
  { apply tws_ext; [exact (ok_el _ _ _ A1) | exact (ok_el _ _ _ B1) |]. rewrite A2, B2. reflexivity. }
  destruct s, s'. unfold plain in E; dcbn. injection E as -> -> -> ->.
  congruence.
Qed.
End Exact.

Section Main.
Variable d : pdata.
Variable h : Z.
Hypothesis Hv : valid_data d.
Hypothesis Ho : opens_by d h.
Hypothesis Hd : nonneg_durs d.
Variable v : vehicle.
Hypothesis Hin : In v (p_vehicles d).
Notation profile := (v_profile v).
Notation D := (p_dur d (v_profile v)).

Lemma path_sum_nonneg f l : (forall a b, 0 <= f a b) -> 0 <= path_sum f l.
Proof.
  intros Hf. induction l as [|a l IH]; [cbn; lia|].
  destruct l as [|b l]; [cbn; lia|].
  change (path_sum f (a :: b :: l)) with (f a b + path_sum f (b :: l)).
  specialize (Hf a b). lia.
Qed.

Lemma a_service_nonneg a : 0 <= a_service d a.
Proof.
  destruct a as [i|i|i|i]; cbn.
  - apply (vd_service _ (valid_p_depot d i Hv)).
  - apply (vc_service _ (valid_p_client d i Hv)).
  - apply (vs_service _ (vs_pickup _ (valid_p_shipment d i Hv))).
  - apply (vs_service _ (vs_delivery _ (valid_p_shipment d i Hv))).
Qed.

Lemma route_sums_nonneg mid : 0 <= route_travel d v mid /\ 0 <= route_service d v mid.
Proof.
  unfold route_travel, route_service. split; [apply path_sum_nonneg; intros; apply Hd|].
  pose proof (vd_service _ (valid_p_depot d (v_start v) Hv)).
  assert (0 <= zsum (map (a_service d) mid)); [|lia].
  apply zsum_nonneg. intros x Hx. apply in_map_iff in Hx. destruct Hx as (a & <- & _).
  apply a_service_nonneg.
Qed.

Definition route_work (mid : list activity) : Z :=
  2 * h + route_travel d v mid + route_service d v mid.

Lemma fits_bounds mid : time_fits d h v mid ->
  4 * (h + route_work mid) <= MAXV /\ 2 * h <= MAXV /\ 0 <= h.
Proof.
  unfold time_fits, route_work. intros H. pose proof (route_sums_nonneg mid).
  pose proof (ob_nonneg _ _ Ho). lia.
Qed.

Lemma nth_skipn_hd {A} (l : list A) i dft : nth i l dft = hd dft (skipn i l).
Proof. revert i; induction l as [|x l IH]; intros i; destruct i; cbn; auto. Qed.

Lemma and_assoc_l (A B C : Prop) : (A /\ B /\ C) <-> ((A /\ B) /\ C).
Proof. tauto. Qed.

Theorem prop_dseg_exact p mid' :
  wf_prop d v p -> prop_items d p = route_items d v mid' ->
  reload_releases_ok d mid' -> time_fits d h v mid' ->
  let s := prop_dseg d profile (pr_first p :: pr_rest p) in
  let s' := hd dnone (ca_durAfter (update d v mid')) in
  (ds_duration s = ds_duration s' /\ ds_warp0 s = ds_warp0 s') /\
  (0 <= ds_ctw s + ds_tw s <= ds_warp0 s /\ 0 <= ds_ctw s' + ds_tw s' <= ds_warp0 s') /\
  (inner (List.tl (seg_items d (pr_first p))) -> s = s').
Proof.
  intros Hwf Hitems HRR Hfit.
  destruct (fits_bounds mid' Hfit) as (HN & Hh & Hh0).
  destruct Hwf as [mid e mids l He Hmids Hl]. cbv zeta. cbn [pr_first pr_rest].
  set (s := prop_dseg d profile _). set (s' := hd dnone _).
  pose proof (route_items_ok d h Hv Ho Hh v mid' Hin) as Hall.
  pose proof (R1_route d h Hv Ho Hh v mid' Hin HRR) as HR.
  pose proof (wrk_route d h Hv Ho Hh v mid' Hin) as HW.
  fold (route_work mid') in HW.
  (* the first piece *)
  set (x0 := item_start d v) in *.
  set (pre := firstn e (map (item_act d) mid ++ [item_end d v])).
  assert (Hfirst : seg_items d (SBefore (update d v mid) e) = x0 :: pre).
  { cbn [seg_items ca_items update]. unfold route_items. rewrite Nat.add_1_r. reflexivity. }
  (* the last piece *)
  set (rest := concat (map (seg_items d) mids) ++ seg_items d l).
  assert (Hits : x0 :: pre ++ rest = route_items d v mid').
  { rewrite <- Hitems. unfold prop_items. cbn [pr_first pr_rest map concat].
    rewrite Hfirst, map_app, concat_app. cbn [map concat]. rewrite app_nil_r. reflexivity. }
  assert (Hrest : pre ++ rest = map (item_act d) mid' ++ [item_end d v]).
  { injection Hits. auto. }
  assert (Hall' : Forall (item_ok d h) (pre ++ rest)).
  { rewrite Hrest. inversion Hall; assumption. }
  apply Forall_app in Hall'. destruct Hall' as [Hpre Hrst].
  assert (Hx0 : item_ok d h x0) by (inversion Hall; assumption).
  rewrite <- Hits in HR.
  assert (HRrest : R1 rest).
  { apply (R1_app (x0 :: pre)). exact HR. }
  (* ds for the last piece *)
  assert (Hlast : exists z zs, seg_items d l = z :: zs /\ it_loc (sg_front d l) = it_loc z /\
     good h (iw d z + wrk d D z zs)
       (let s := sg_duration d profile l in if sg_startsReload l then ds_finaliseFront s else s)
       (enter d D (z :: zs)) (trel (z :: zs))).
  { assert (Hlast_end : forall z zs, seg_items d l = z :: zs -> lastof z zs = item_end d v).
    { intros z zs Hz. unfold rest in Hrest. rewrite Hz in Hrest.
      assert (E : lastof x0 ((pre ++ concat (map (seg_items d) mids)) ++ z :: zs) =
                  lastof x0 (map (item_act d) mid' ++ [item_end d v])).
      { rewrite <- Hrest, app_assoc. reflexivity. }
      rewrite lastof_last in E. rewrite (lastof_app x0 _ (z :: zs)) in E. exact E. }
    destruct Hl as [midl sl Hsl | o Ho1].
    - cbn [seg_items ca_items update] in *.
      destruct (skipn sl (route_items d v midl)) as [|z zs] eqn:Ez.
      { exfalso. assert (length (skipn sl (route_items d v midl)) = 0%nat) by (rewrite Ez; reflexivity).
        rewrite skipn_length in H. unfold route_items in H. cbn [length] in H.
        rewrite app_length, map_length in H. cbn [length] in H. lia. }
      exists z, zs. split; [reflexivity|].
      assert (Hz : nth sl (route_items d v midl) dummy_item = z).
      { rewrite nth_skipn_hd, Ez. reflexivity. }
      split; [cbn [sg_front]; unfold ca_item; cbn [ca_items update]; rewrite Hz; reflexivity|].
      cbn [sg_duration sg_startsReload]. unfold ca_item. cbn [ca_items ca_durAfter update].
      rewrite Hz, nth_skipn_hd, <- after_array_skipn, Ez.
      assert (HF : Forall (item_ok d h) (z :: zs)).
      { unfold rest in Hrst. cbn [seg_items ca_items update] in Hrst. rewrite ?Ez in Hrst.
        apply Forall_app in Hrst. apply Hrst. }
      pose proof (Forall_inv HF). pose proof (Forall_inv_tail HF).
      apply enter_good; try assumption; [intros; apply Hd|].
      rewrite (Hlast_end _ _ eq_refl). reflexivity.
    - destruct (wf_mid_ok d h Hv Ho Hh Hd profile o Ho1) as (y & ys & Hmo & Hit).
      exists y, ys. split; [exact Hit|].
      split; [rewrite (mo_front _ _ _ _ _ _ _ Hmo); reflexivity|].
      apply last_mid; try assumption.
      + rewrite (Hlast_end _ _ Hit). reflexivity.
      + unfold rest in HRrest. rewrite Hit in HRrest. eapply R1_app. exact HRrest. }
  destruct Hlast as (z & zs & Hlz & Hlf & Hlg).
  set (dsl := let s := sg_duration d profile l in if sg_startsReload l then ds_finaliseFront s else s) in *.
  assert (Hs : s = prop_dur_loop d profile dsl (it_loc z) (rev mids ++ [SBefore (update d v mid) e])).
  { unfold s, prop_dseg. cbn [rev]. rewrite rev_app_distr. cbn [rev app].
    rewrite Hlf. reflexivity. }
  assert (Hzs : Forall (item_ok d h) (z :: zs)).
  { unfold rest in Hrst. rewrite Hlz in Hrst. apply Forall_app in Hrst. apply Hrst. }
  destruct (loop_mids d h Hv Ho Hh Hd profile (SBefore (update d v mid) e) (rev mids) dsl z zs)
    as (ds' & z' & zs' & E1 & E2 & E3 & E4); try assumption.
  { apply Forall_rev. exact Hmids. }
  { rewrite rev_involutive. unfold rest in HRrest. rewrite Hlz in HRrest. exact HRrest. }
  rewrite rev_involutive in E2.
  assert (E2' : z' :: zs' = rest) by (unfold rest; rewrite Hlz; exact E2).
  rewrite Hs, E1.
  (* the cached prefix *)
  assert (Hdur : sg_duration d profile (SBefore (update d v mid) e) = bfold d D x0 (it_dur x0) pre).
  { cbn [sg_duration ca_durBefore update]. unfold route_items. fold x0.
    rewrite (before_array_nth d D (fun a b => Hd _ a b)); [reflexivity|].
    rewrite app_length, map_length; cbn [length]; lia. }
  assert (Hprelen : length pre = e).
  { unfold pre. rewrite firstn_length, app_length, map_length. cbn [length]. lia. }
  assert (Hback : sg_back d (SBefore (update d v mid) e) = lastof x0 pre).
  { cbn [sg_back]. unfold ca_item. cbn [ca_items update].
    assert (E : lastof (nth 0 (route_items d v mid) dummy_item) (slice (route_items d v mid) 0 e) =
                nth e (route_items d v mid) dummy_item).
    { apply nth_lastof; [lia|]. unfold route_items. cbn [length]. rewrite app_length, map_length. cbn [length]. lia. }
    rewrite <- E. unfold slice. rewrite Nat.sub_0_r. reflexivity. }
  assert (Hends : sg_endsReload (SBefore (update d v mid) e) = it_reload (lastof x0 pre)).
  { rewrite <- Hback. reflexivity. }
  rewrite <- E2' in *.
  rewrite <- Hrest in HW. rewrite wrk_app in HW.
  assert (HW2 : wrk d D (lastof x0 pre) (z' :: zs') =
    D (it_loc (lastof x0 pre)) (it_loc z') + iw d z' + wrk d D z' zs') by reflexivity.
  assert (Hpw : 0 <= wrk d D x0 pre) by (apply (wrk_nonneg d D (fun a b => Hd _ a b) h); assumption).
  assert (Hzw : 0 <= wrk d D z' zs').
  { apply (wrk_nonneg d D (fun a b => Hd _ a b) h). inversion E3; assumption. }
  assert (Hiz : 0 <= iw d z') by (apply (iw_nonneg d h); inversion E3; assumption).
  assert (HDz : 0 <= D (it_loc (lastof x0 pre)) (it_loc z')) by apply Hd.
  (* reference *)
  assert (Hs' : s' = hd dnone (after_array d D (x0 :: pre ++ z' :: zs'))).
  { unfold s'. cbn [ca_durAfter update]. unfold route_items. rewrite <- Hrest. reflexivity. }
  assert (HL : lastof x0 (pre ++ z' :: zs') = item_end d v) by (rewrite Hrest; apply lastof_last).
  assert (Hallr : Forall (item_ok d h) (pre ++ z' :: zs')) by (apply Forall_app; split; assumption).
  rewrite and_assoc_l. split.
  - pose proof (prefix_start d D h Hh Hh0 (route_work mid') HN x0 Hx0 eq_refl ltac:(lia)) as P0.
    destruct (prefix_gen d D (fun a b => Hd _ a b) h Hh0 (route_work mid') HN pre _ _ _ _ _ _ _ _ _ P0 Hx0 Hpre ltac:(lia))
      as (nA & nB & A & B & r & P1).
    rewrite <- Hdur in P1.
    destruct (join d D (fun a b => Hd _ a b) h Hh Hh0 (route_work mid') HN profile
      (SBefore (update d v mid) e) _ _ _ _ _ _ _ _ _ _ ds' z' zs' (fun a b => eq_refl)
      Hback Hends eq_refl P1 (lastof_ok d h _ _ Hx0 Hpre) E4 E3 HR ltac:(lia)) as (nB' & B' & r' & R2 & R3).
    destruct (whole d D (fun a b => Hd _ a b) h Hh Hh0 (route_work mid') HN x0 (pre ++ z' :: zs') Hx0
                Hallr eq_refl) as (nB2 & B2 & r2 & R4 & R5).
    { rewrite HL. reflexivity. }
    { rewrite wrk_app. lia. }
    rewrite <- Hs' in R4.
    split; [exact (RepN_ref d D h (route_work mid') HN _ _ _ _ _ _ _ R2 R3 _ _ _ _ _ _ R4 R5)|].
    split; [exact (RepN_warp h _ _ _ _ _ _ _ R2) | exact (RepN_warp h _ _ _ _ _ _ _ R4)].
  - intros Hinner. rewrite Hfirst in Hinner. cbn [List.tl] in Hinner.
    assert (Hmo : mid_ok d D h profile (SBefore (update d v mid) e) x0 pre).
    { constructor; try assumption.
      - reflexivity.
      - cbn [sg_size]. lia.
      - reflexivity.
      - rewrite Hdur, (bfold_walk d profile pre x0 (it_dur x0) eq_refl Hinner).
        pose proof (good_walk d D (fun a b => Hd _ a b) h Hh pre x0 _ _ _ _ (io_good _ _ _ Hx0) Hpre) as G.
        eapply good_n; [|eapply good_eq; [|exact G]].
        + unfold iw. change (it_reload x0) with false.
          destruct pre as [|p0 ps] eqn:Epre; [cbn; lia|].
          pose proof (dwrk_wrk d D (p0 :: ps) x0 ltac:(discriminate) Hinner). lia.
        + unfold mid_beh. destruct pre; [cbn [walk]; rewrite !bskip_r; reflexivity|].
          unfold srvb. change (it_reload x0) with false. cbv iota. rewrite bskip_l. reflexivity. }
    pose proof (mid_merge d D (fun a b => Hd _ a b) h Hh Hh0 profile _ _ _ _ ds' z' zs' (fun a b => eq_refl) Hmo E4 E3 HR) as G.
    cbv zeta in G. change (sg_startsReload (SBefore (update d v mid) e)) with false in G.
    cbn [andb] in G.
    pose proof (after_good d D (fun a b => Hd _ a b) h Hh Hh0 (pre ++ z' :: zs') x0 Hx0 Hallr) as G2.
    rewrite HL in G2. specialize (G2 eq_refl). rewrite <- Hs' in G2.
    assert (HB : enter d D ((x0 :: pre) ++ z' :: zs') == it_win x0 ;; srvb d x0 ;; go d D x0 (pre ++ z' :: zs')).
    { cbn [app]. rewrite enter_cons. unfold waitb. change (it_reload x0) with false. cbv iota.
      rewrite bskip_l. reflexivity. }
    apply (good_eq _ _ _ _ _ _ HB) in G.
    exact (good_unique h _ _ _ _ _ _ G G2).
Qed.

(** Cost and time warp of a proposal.  The surcharge for exceeding the maximum duration agrees
    too when the route stays within it, when it has no time warp, or when the first piece
    ends in the first trip. *)
Theorem prop_duration_exact p mid' :
  wf_prop d v p -> prop_items d p = route_items d v mid' ->
  reload_releases_ok d mid' -> time_fits d h v mid' ->
  let c := update d v mid' in
  fst (prop_duration d v p) = ca_durationCost c /\
  (inner (List.tl (seg_items d (pr_first p))) \/ ca_duration c <= v_maxDuration v \/ ca_timeWarp c = 0 ->
   snd (prop_duration d v p) = ca_timeWarp c).
Proof.
  intros Hwf Hit HRR Hfit c.
  destruct (prop_dseg_exact p mid' Hwf Hit HRR Hfit) as ((E1 & E2) & (E3 & E4) & E5).
  unfold prop_duration. cbn [fst snd].
  set (s := prop_dseg d profile (pr_first p :: pr_rest p)) in *.
  subst c.
  change (ca_duration (update d v mid')) with (ds_duration (hd dnone (ca_durAfter (update d v mid')))).
  change (ca_timeWarp (update d v mid')) with
    (ds_timeWarp (v_maxDuration v) (hd dnone (ca_durAfter (update d v mid')))).
  change (ca_durationCost (update d v mid')) with
    (v_unitDuration v * ds_duration (hd dnone (ca_durAfter (update d v mid')))
     + v_unitOvertime v * Z.max (ds_duration (hd dnone (ca_durAfter (update d v mid'))) - v_shift v) 0).
  set (s' := hd dnone (ca_durAfter (update d v mid'))) in *.
  split; [rewrite E1; reflexivity|].
  intros [Hi | Hi]; [rewrite (E5 Hi); reflexivity|].
  clear E5. unfold ds_timeWarp, ds_warp0 in *.
  generalize dependent (Z.max (ds_rel s - ds_late s) 0). intros a.
  generalize dependent (Z.max (ds_rel s' - ds_late s') 0). intros b. rewrite E1. intros.
  destruct (Z.gtb_spec (ds_duration s' - (ds_ctw s + ds_tw s)) (v_maxDuration v));
  destruct (Z.gtb_spec (ds_duration s' - (ds_ctw s' + ds_tw s')) (v_maxDuration v)); lia.
Qed.
End Main.
