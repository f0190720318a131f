(** A closed-form condition on an instance under which the figures of every route one can make
    stay clear of the int64 limit ([fits], OpsBase.v). *)
From Coq Require Import Permutation.
From Verif Require Import Base DurationSegment Beh Tws DurationFacts Data LoadSegment SearchRoute RouteDur Valid ProposalDur ProposalRest Route RouteSpec
  RouteFacts RouteFacts2 RouteFacts3 Cost CostFacts DeltaFacts SearchFacts DataCtor SearchSpace SearchNodes SearchSeq SearchLoad Ops PlanFacts ShipState OpsBase.
Local Open Scope Z_scope.

(** At most [T] trips, travel at most [M] between any two locations, service at most [S]. *)
Record modest_size (d : pdata) (h : Z) (T : nat) (M S : Z) : Prop := mk_modest_size {
  ms_trips : forall v, In v (p_vehicles d) -> v_maxTrips v <= Z.of_nat T;
  ms_dur : forall k a b, p_dur d k a b <= M;
  ms_dist : forall k a b, p_dist d k a b <= M;
  ms_service : forall a, a_service d a <= S;
  ms_depot : forall i, d_service (p_depot d i) <= S;
  ms_fit : 4 * (Z.of_nat (p_numClients d + 2 * p_numShipments d + T + 2) * (4 * h + M + S)) <= MAXV }.
(** Moreover, no reload depot closes before all clients are released. *)
Record modest_time (d : pdata) (h : Z) (T : nat) (M S : Z) : Prop := mk_modest_time {
  mo_trips : forall v, In v (p_vehicles d) -> v_maxTrips v <= Z.of_nat T;
  mo_dur : forall k a b, p_dur d k a b <= M;
  mo_dist : forall k a b, p_dist d k a b <= M;
  mo_service : forall a, a_service d a <= S;
  mo_depot : forall i, d_service (p_depot d i) <= S;
  mo_release : forall v x i, In v (p_vehicles d) -> 1 < v_maxTrips v -> c_release (p_client d i) <= d_late (p_depot d x);
  mo_fit : 4 * (Z.of_nat (p_numClients d + 2 * p_numShipments d + T + 2) * (4 * h + M + S)) <= MAXV }.
Lemma modest_time_size d h T M S : modest_time d h T M S -> modest_size d h T M S.
Proof. intros [A B C D E _ F]. constructor; assumption. Qed.
(** Moreover, vehicles with reloads have no maximum duration. *)
Definition modest (d : pdata) (h : Z) (T : nat) (M S : Z) : Prop :=
  modest_time d h T M S /\ forall v, In v (p_vehicles d) -> 1 < v_maxTrips v -> v_maxDuration v = MAXV.

Inductive ev_by (h : Z) : event -> Prop :=
| By_spend z : 0 <= z -> ev_by h (Spend z)
| By_wait z : z <= h -> ev_by h (WaitUntil z)
| By_window a b : a <= h -> 0 <= b -> ev_by h (Window a b).

Lemma simulate_upper h evs : 0 <= h -> Forall (ev_by h) evs -> forall t, 0 <= t ->
  fst (simulate t evs) <= zsum (map ev_spend evs) + Z.of_nat (length evs) * h.
Proof.
  intros Hh. induction 1 as [|e evs He Hevs IH]; intros t Ht; [cbn; lia|].
  cbn [length]. rewrite Nat2Z.inj_succ. destruct He as [z Hz|z Hz|a b Ha Hb]; cbn [simulate map zsum ev_spend].
  - specialize (IH (t + z) ltac:(lia)). destruct (simulate (t + z) evs); cbn [fst snd] in *. lia.
  - specialize (IH (t + Z.max 0 (z - t)) ltac:(lia)). destruct (simulate _ evs); cbn [fst snd] in *. lia.
  - specialize (IH (t + Z.max 0 (a - t) - Z.max 0 (t - b)) ltac:(lia)). destruct (simulate _ evs); cbn [fst snd] in *. lia.
Qed.

Lemma path_sum_le f M : (forall a b, f a b <= M) -> 0 <= M -> forall l, path_sum f l <= Z.of_nat (length l - 1) * M.
Proof.
  intros H HM l. induction l as [|a [|b l] IH]; [cbn; lia|cbn; lia|].
  rewrite path_sum_cons2. specialize (H a b). cbn [length] in *. replace (S (S (length l)) - 1)%nat with (S (S (length l) - 1)) by lia. rewrite Nat2Z.inj_succ. lia.
Qed.
Lemma zsum_le l S : (forall x, In x l -> x <= S) -> zsum l <= Z.of_nat (length l) * S.
Proof.
  induction l as [|x l IH]; intros H; [cbn; lia|]. cbn [zsum length]. rewrite Nat2Z.inj_succ. specialize (IH (fun y Hy => H y (or_intror Hy))). specialize (H x (or_introl eq_refl)). lia.
Qed.

Section Fits.
Variable d : pdata.
Variable h : Z.
Hypothesis Hv : valid_data d.
Hypothesis Ho : opens_by d h.
Hypothesis Hn : nonneg_durs d.
Variables (T : nat) (M S : Z).
Hypothesis Hm : modest_size d h T M S.

Lemma once_nodup mid : (forall a, a_isDepot a = false -> (cnt mid a <= 1)%nat) -> NoDup (filter (fun a => negb (a_isDepot a)) mid).
Proof.
  induction mid as [|a mid IH]; intros H; cbn [filter]; [constructor|].
  assert (H' : forall a0, a_isDepot a0 = false -> (cnt mid a0 <= 1)%nat). { intros b Hb. specialize (H b Hb). rewrite cnt_cons in H. lia. }
  destruct (a_isDepot a) eqn:E; cbn [negb]; [auto|]. constructor; [|auto].
  intros Hin. apply filter_In in Hin as [Hin _]. apply cnt_In in Hin. specialize (H a E). rewrite cnt_self in H. lia.
Qed.
Lemma length_split mid : length mid = (length (filter (fun a => negb (a_isDepot a)) mid) + num_reloads mid)%nat.
Proof.
  induction mid as [|a mid IH]; [reflexivity|]. rewrite num_reloads_cons. cbn [filter length]. destruct (a_isDepot a); cbn [negb length]; lia.
Qed.
Lemma mid_length v mid : well_formed d v mid -> (forall a, a_isDepot a = false -> (cnt mid a <= 1)%nat) ->
  (length mid <= p_numClients d + 2 * p_numShipments d + num_reloads mid)%nat.
Proof.
  intros W H. rewrite length_split. apply Nat.add_le_mono_r. apply once_nodup in H.
  set (all := map AClient (seq 0 (p_numClients d)) ++ map APickup (seq 0 (p_numShipments d)) ++ map ADelivery (seq 0 (p_numShipments d))).
  replace (p_numClients d + 2 * p_numShipments d)%nat with (length all) by (unfold all; rewrite !app_length, !map_length, !seq_length; lia).
  apply NoDup_incl_length; [exact H|]. intros a Ha. apply filter_In in Ha as [Ha Hd]. apply (wf_known d v mid W) in Ha. unfold all.
  rewrite !in_app_iff, !in_map_iff. destruct a as [i|i|i|i]; cbn in Hd, Ha; [discriminate|left|right; left|right; right]; exists i; (split; [reflexivity|apply in_seq; lia]).
Qed.

Lemma modest_pos : 0 <= M /\ 0 <= S /\ 0 <= h.
Proof.
  pose proof (ms_dur d h T M S Hm 0 0 0). pose proof (Hn 0 0 0)%nat. pose proof (ms_depot d h T M S Hm 0).
  pose proof (vd_service _ (valid_p_depot d 0 Hv)). pose proof (ob_nonneg _ _ Ho). lia.
Qed.

Lemma late_nonneg_client i : 0 <= c_late (p_client d i).
Proof. pose proof (valid_p_client d i Hv) as []. lia. Qed.
Lemma late_nonneg_depot i : 0 <= d_late (p_depot d i).
Proof. pose proof (valid_p_depot d i Hv) as []. lia. Qed.
Lemma late_nonneg_ship i : 0 <= st_late (s_pickup (p_shipment d i)) /\ 0 <= st_late (s_delivery (p_shipment d i)).
Proof. pose proof (valid_p_shipment d i Hv) as [[] [] _ _]. lia. Qed.

Lemma events_by v mid : In v (p_vehicles d) -> 2 * h <= MAXV -> Forall (ev_by h) (route_events d v mid) /\ (length (route_events d v mid) <= 4 * (length mid + 2))%nat.
Proof.
  intros Hin Hh. unfold route_events.
  pose proof (proj1 (Forall_forall _ _) (va_vehicles d Hv) v Hin) as Vv. pose proof (proj1 (Forall_forall _ _) (ob_vehicles d h Ho) v Hin) as Ov. cbn beta in Ov.
  assert (G : forall mid frm, Forall (ev_by h) (events_from d v frm mid) /\ (length (events_from d v frm mid) <= 4 * (length mid + 1))%nat).
  { clear mid. induction mid as [|a mid IH]; intros frm.
    - cbn [events_from length]. split; [|lia]. repeat apply Forall_cons; try apply Forall_nil; constructor; try apply Hn.
      + apply (opens_p_depot d h (v_end v) Ho).
      + apply late_nonneg_depot.
      + exact Ov.
      + destruct Vv; lia.
    - cbn [events_from]. rewrite Forall_app, app_length. destruct (IH (a_loc d a)) as [I1 I2]. destruct a as [i|i|i|i]; cbn [a_loc] in I1, I2; cbn [length app a_loc].
      + split; [split; [|exact I1]|cbn [length a_loc app] in *; lia]. repeat apply Forall_cons; try apply Forall_nil; constructor; try apply Hn.
        * apply (trip_release_bound d h Hv Ho Hh v Hin mid).
        * apply (opens_p_depot d h i Ho).
        * apply late_nonneg_depot.
        * apply (vd_service _ (valid_p_depot d i Hv)).
      + split; [split; [|exact I1]|cbn [length a_loc app] in *; lia]. repeat apply Forall_cons; try apply Forall_nil; constructor; try apply Hn.
        * apply (opens_p_client d h i Ho).
        * apply late_nonneg_client.
        * apply (vc_service _ (valid_p_client d i Hv)).
      + split; [split; [|exact I1]|cbn [length a_loc app] in *; lia]. repeat apply Forall_cons; try apply Forall_nil; constructor; try apply Hn.
        * apply (opens_p_shipment d h i Ho).
        * apply late_nonneg_ship.
        * apply (vs_service _ (vs_pickup _ (valid_p_shipment d i Hv))).
      + split; [split; [|exact I1]|cbn [length a_loc app] in *; lia]. repeat apply Forall_cons; try apply Forall_nil; constructor; try apply Hn.
        * apply (opens_p_shipment d h i Ho).
        * apply late_nonneg_ship.
        * apply (vs_service _ (vs_delivery _ (valid_p_shipment d i Hv))). }
  destruct (G mid (d_loc (p_depot d (v_start v)))) as [G1 G2]. rewrite Forall_app, app_length. cbn [length]. split; [|lia]. split; [|exact G1].
  repeat apply Forall_cons; try apply Forall_nil; constructor.
  - apply (trip_release_bound d h Hv Ho Hh v Hin mid).
  - exact Ov.
  - destruct Vv; lia.
  - apply (opens_p_depot d h (v_start v) Ho).
  - apply late_nonneg_depot.
  - apply (vd_service _ (valid_p_depot d (v_start v) Hv)).
Qed.

Lemma trip_release_le mid z : (forall i, c_release (p_client d i) <= z) -> 0 <= z -> trip_release d mid <= z.
Proof. intros H Hz. induction mid as [|[|i| |] mid IH]; cbn [trip_release]; try assumption. specialize (H i). lia. Qed.
Lemma releases_ok mid : (forall x i, c_release (p_client d i) <= d_late (p_depot d x)) -> reload_releases_ok d mid.
Proof.
  intros H. induction mid as [|[x| | |] mid IH]; cbn [reload_releases_ok]; try assumption; [exact I|]. split; [|exact IH]. apply trip_release_le; [auto|apply late_nonneg_depot].
Qed.
Lemma releases_none mid : num_reloads mid = 0%nat -> reload_releases_ok d mid.
Proof. induction mid as [|a mid IH]; intros H; [exact I|]. rewrite num_reloads_cons in H. destruct a; cbn in *; try lia; apply IH; lia. Qed.

(** The figures of a route. *)
Theorem modest_figures v mid : In v (p_vehicles d) -> well_formed d v mid -> (forall a, a_isDepot a = false -> (cnt mid a <= 1)%nat) ->
  let n := Z.of_nat (p_numClients d + 2 * p_numShipments d + T + 2) in
  2 * h <= MAXV /\ route_travel d v mid <= n * M /\ route_dist d v mid <= n * M /\ route_service d v mid <= n * S /\
  ca_duration (update d v mid) <= n * (4 * h + M + S).
Proof.
  intros Hin W Once. pose proof modest_pos as (M0 & S0 & H0).
  pose proof (mid_length v mid W Once) as L. pose proof (wf_trips d v mid W) as Wt. pose proof (ms_trips d h T M S Hm v Hin) as HT.
  assert (L' : (length mid + 1 <= p_numClients d + 2 * p_numShipments d + T)%nat) by lia.
  pose proof (ms_fit d h T M S Hm) as F. cbv zeta. set (n := (p_numClients d + 2 * p_numShipments d + T)%nat) in *.
  assert (Tr : route_travel d v mid <= Z.of_nat (n + 2) * M).
  { unfold route_travel. pose proof (path_sum_le (p_dur d (v_profile v)) M (ms_dur d h T M S Hm (v_profile v)) M0 (route_locs d v mid)) as X.
    apply (Z.le_trans _ _ _ X). apply Z.mul_le_mono_nonneg_r; [exact M0|]. unfold route_locs. cbn [length]. rewrite app_length, map_length. cbn [length]. lia. }
  assert (Td : route_dist d v mid <= Z.of_nat (n + 2) * M).
  { unfold route_dist. pose proof (path_sum_le (p_dist d (v_profile v)) M (ms_dist d h T M S Hm (v_profile v)) M0 (route_locs d v mid)) as X.
    apply (Z.le_trans _ _ _ X). apply Z.mul_le_mono_nonneg_r; [exact M0|]. unfold route_locs. cbn [length]. rewrite app_length, map_length. cbn [length]. lia. }
  assert (Ts : route_service d v mid <= Z.of_nat (n + 2) * S).
  { unfold route_service. assert (X : zsum (map (a_service d) mid) <= Z.of_nat (length (map (a_service d) mid)) * S).
    { apply zsum_le. intros x Hx. apply in_map_iff in Hx as (a & <- & _). apply (ms_service d h T M S Hm). }
    rewrite map_length in X. pose proof (ms_depot d h T M S Hm (v_start v)). nia. }
  assert (Fh : 2 * h <= Z.of_nat (n + 2) * (4 * h)) by nia.
  assert (N1 : 0 <= Z.of_nat (n + 2) * M) by nia. assert (N2 : 0 <= Z.of_nat (n + 2) * S) by nia.
  assert (Hh : 2 * h <= MAXV) by nia.
  split; [exact Hh|]. split; [exact Tr|]. split; [exact Td|]. split; [exact Ts|].
  change (ca_duration (update d v mid)) with (ds_duration (hd dnone (ca_durAfter (update d v mid)))).
  rewrite <- (bpass_is_durAfter d h Hv Ho Hn Hh v Hin mid).
  destruct (route_timing d h Hv Ho Hn Hh v Hin mid) as (X & (X1 & X2 & X3 & X4) & Hsim & Hdur & _). rewrite Hdur.
  destruct (events_by v mid Hin Hh) as [E1 E2]. pose proof (simulate_upper h _ H0 E1 0 ltac:(lia)) as U. rewrite Hsim, route_events_spend in U. cbn [fst] in U.
  assert (Z.of_nat (length (route_events d v mid)) * h <= Z.of_nat (n + 2) * (4 * h)).
  { replace (Z.of_nat (n + 2) * (4 * h)) with (4 * Z.of_nat (n + 2) * h) by ring. apply Z.mul_le_mono_nonneg_r; [exact H0|lia]. }
  rewrite !Z.mul_add_distr_l. lia.
Qed.
Theorem size_bounds v mid : In v (p_vehicles d) -> well_formed d v mid -> (forall a, a_isDepot a = false -> (cnt mid a <= 1)%nat) ->
  (time_fits d h v mid /\ route_dist d v mid <= MAXV) /\ ca_duration (update d v mid) <= MAXV.
Proof.
  intros Hin W Once. pose proof modest_pos as (M0 & S0 & H0). destruct (modest_figures v mid Hin W Once) as (Hh & Tr & Td & Ts & Tu).
  pose proof (ms_fit d h T M S Hm) as F. pose proof (ms_trips d h T M S Hm v Hin) as HT. pose proof (wf_trips d v mid W) as Wt.
  set (n := Z.of_nat _) in *.
  assert (Hn1 : 1 <= n) by (subst n; lia).
  assert (F1 : 4 * (n * (4 * h)) + 4 * (n * M) + 4 * (n * S) <= MAXV) by nia.
  assert (Fh : 2 * h <= n * (4 * h)) by nia.
  assert (N1 : 0 <= n * M) by nia. assert (N2 : 0 <= n * S) by nia.
  split; [split|].
  - unfold time_fits. lia.
  - lia.
  - rewrite !Z.mul_add_distr_l in Tu. lia.
Qed.
End Fits.
Section Modest.
Variable d : pdata.
Variable h : Z.
Hypothesis Hv : valid_data d.
Hypothesis Ho : opens_by d h.
Hypothesis Hn : nonneg_durs d.
Variables (T : nat) (M S : Z).
Hypothesis Hm : modest_time d h T M S.
Theorem modest_bounds v mid : In v (p_vehicles d) -> well_formed d v mid -> (forall a, a_isDepot a = false -> (cnt mid a <= 1)%nat) ->
  (reload_releases_ok d mid /\ time_fits d h v mid /\ route_dist d v mid <= MAXV) /\ ca_duration (update d v mid) <= MAXV.
Proof.
  intros Hin W Once. destruct (size_bounds d h Hv Ho Hn T M S (modest_time_size d h T M S Hm) v mid Hin W Once) as [B1 B2]. split; [|exact B2]. split; [|exact B1].
  pose proof (wf_trips d v mid W) as Wt.
  destruct (Nat.eq_dec (num_reloads mid) 0) as [Z0|Nz]; [apply releases_none, Z0|]. apply (releases_ok d Hv). intros x i. apply (mo_release d h T M S Hm v x i Hin). lia.
Qed.
Theorem modest_times v mid : In v (p_vehicles d) -> well_formed d v mid -> (forall a, a_isDepot a = false -> (cnt mid a <= 1)%nat) ->
  reload_releases_ok d mid /\ time_fits d h v mid /\ route_dist d v mid <= MAXV.
Proof. intros Hin W Once. apply (modest_bounds v mid Hin W Once). Qed.
End Modest.

Theorem modest_fits d h T M S : valid_data d -> opens_by d h -> nonneg_durs d -> modest d h T M S -> fits d h.
Proof.
  intros Hv Ho Hn [Hm Hmax] v mid Hin W Once. destruct (modest_bounds d h Hv Ho Hn T M S Hm v mid Hin W Once) as [B1 B2]. split; [exact B1|].
  destruct (Nat.eq_dec (num_reloads mid) 0) as [Z0|Nz]; [left; exact Z0|right; left].
  pose proof (wf_trips d v mid W). rewrite (Hmax v Hin) by lia. exact B2.
Qed.
