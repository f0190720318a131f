(** Joining the stops of a visit sequence in any order gives the same load and duration segments. *)
From Verif Require Import Base DurationSegment Beh Tws DurationFacts Data LoadSegment SearchRoute
  RouteDur Valid ProposalDur ProposalRest RouteSpec RouteFacts RouteFacts3.

(** A way of joining stops: a tree of merges.  [MEmpty] is the empty segment (loads only). *)
Inductive mtree :=
| MEmpty
| MStop (a : activity)
| MJoin (l r : mtree).

Fixpoint stops (t : mtree) : list activity :=
  match t with
  | MEmpty => []
  | MStop a => [a]
  | MJoin l r => stops l ++ stops r
  end.

(** LoadSegment.h:111-121 applied along the tree; the segments of the stops are those of
    LoadSegment.cpp:16-33. *)
Definition stop_load (d : pdata) (dim : nat) (a : activity) : lseg :=
  match a with
  | ADepot _ => ls_zero
  | AClient i => ls_client (p_client d i) dim
  | APickup i => ls_shipment (p_shipment d i) true dim
  | ADelivery i => ls_shipment (p_shipment d i) false dim
  end.
Fixpoint join_load (d : pdata) (dim : nat) (t : mtree) : lseg :=
  match t with
  | MEmpty => ls_zero
  | MStop a => stop_load d dim a
  | MJoin l r => ls_merge (join_load d dim l) (join_load d dim r)
  end.

Fixpoint flat_load (d : pdata) (dim : nat) (l : list activity) : lseg :=
  match l with
  | [] => ls_zero
  | a :: more => ls_merge (stop_load d dim a) (flat_load d dim more)
  end.

Lemma stop_lok d dim a : lok (stop_load d dim a).
Proof. destruct a; constructor; cbn; lia. Qed.
Lemma flat_lok d dim l : lok (flat_load d dim l).
Proof. induction l; cbn; [apply lok_zero|apply lok_merge; [apply stop_lok|assumption]]. Qed.
Lemma flat_app d dim a b : flat_load d dim (a ++ b) = ls_merge (flat_load d dim a) (flat_load d dim b).
Proof.
  induction a as [|x a IH]; cbn [app flat_load].
  - rewrite ls_zero_l; [reflexivity|apply flat_lok].
  - rewrite IH, ls_merge_assoc. reflexivity.
Qed.
Lemma join_flat d dim t : join_load d dim t = flat_load d dim (stops t).
Proof.
  induction t as [|a|l IHl r IHr]; cbn [join_load stops flat_load]; [reflexivity| |].
  - rewrite ls_zero_r; [reflexivity|apply stop_lok].
  - rewrite IHl, IHr, flat_app. reflexivity.
Qed.

Lemma flat_spec d dim l : (forall a, In a l -> a_isDepot a = false) ->
  ls_initial (flat_load d dim l) = trip_delivery d dim l /\
  ls_increase (flat_load d dim l) = peak d dim 0 l /\ ls_excess (flat_load d dim l) = 0.
Proof.
  induction l as [|a l IH]; intros H; [cbn; auto|].
  destruct IH as (I1 & I2 & I3); [intros x Hx; apply H; right; exact Hx|].
  pose proof (H a (or_introl eq_refl)) as Ha.
  pose proof (peak_nonneg d dim l) as Hp. cbn [flat_load ls_merge ls_initial ls_increase ls_excess peak].
  rewrite I1, I2, I3, (peak_shift d dim l (0 + _)).
  unfold trip_delivery. cbn [map zsum].
  destruct a; cbn in Ha; try discriminate;
    cbn [stop_load ls_client ls_shipment ls_initial ls_increase ls_excess ls_delta load_change]; repeat split; lia.
Qed.

Theorem load_tree d dim cap t : (forall a, In a (stops t) -> a_isDepot a = false) ->
  let s := join_load d dim t in
  ls_load s = peak d dim (trip_delivery d dim (stops t)) (stops t) /\
  ls_excessLoad cap s = Z.max 0 (peak d dim (trip_delivery d dim (stops t)) (stops t) - cap).
Proof.
  intros H. cbv zeta. rewrite join_flat. destruct (flat_spec d dim (stops t) H) as (I1 & I2 & I3).
  unfold ls_excessLoad, ls_load. rewrite I1, I2, I3, (peak_shift d dim _ (trip_delivery _ _ _)). lia.
Qed.

Theorem load_tree_unique d dim t t' : stops t = stops t' -> join_load d dim t = join_load d dim t'.
Proof. intros H. rewrite !join_flat, H. reflexivity. Qed.

(** ** Durations *)
(** A tree of merges over stops; joining uses the travel duration between the last location of the
    left part and the first of the right part (DurationSegment.h:190-226). *)
Inductive dtree := DStop (a : activity) | DJoin (l r : dtree).
Fixpoint dstops (t : dtree) : list activity :=
  match t with DStop a => [a] | DJoin l r => dstops l ++ dstops r end.
Fixpoint first_stop (t : dtree) : activity :=
  match t with DStop a => a | DJoin l r => first_stop l end.
Fixpoint last_stop (t : dtree) : activity :=
  match t with DStop a => a | DJoin l r => last_stop r end.

Definition stop_dur (d : pdata) (a : activity) : dseg :=
  match a with
  | ADepot i => ds_depot (p_depot d i) (d_service (p_depot d i))
  | AClient i => ds_client (p_client d i)
  | APickup i => ds_step (s_pickup (p_shipment d i))
  | ADelivery i => ds_step (s_delivery (p_shipment d i))
  end.
Fixpoint join_dur (d : pdata) (profile : nat) (t : dtree) : dseg :=
  match t with
  | DStop a => stop_dur d a
  | DJoin l r => ds_merge (p_dur d profile (a_loc d (last_stop l)) (a_loc d (first_stop r)))
                   (join_dur d profile l) (join_dur d profile r)
  end.

(** The stops one after the other: wait for the window, be sent back in time when late, serve,
    travel on. *)
Definition stop_events (d : pdata) (a : activity) : list event :=
  let '(early, late) := match a with
    | ADepot i => (d_early (p_depot d i), d_late (p_depot d i))
    | AClient i => (c_early (p_client d i), c_late (p_client d i))
    | APickup i => (st_early (s_pickup (p_shipment d i)), st_late (s_pickup (p_shipment d i)))
    | ADelivery i => (st_early (s_delivery (p_shipment d i)), st_late (s_delivery (p_shipment d i)))
    end in [Window early late; Spend (a_service d a)].
Fixpoint visit_events (d : pdata) (profile : nat) (l : list activity) : list event :=
  match l with
  | [] => []
  | a :: more =>
      stop_events d a
      ++ (match more with [] => [] | b :: _ => [Spend (p_dur d profile (a_loc d a) (a_loc d b))] end)
      ++ visit_events d profile more
  end.
(** Latest release time among the stops. *)
Fixpoint max_release (d : pdata) (l : list activity) : Z :=
  match l with
  | [] => 0
  | AClient i :: more => Z.max (c_release (p_client d i)) (max_release d more)
  | _ :: more => max_release d more
  end.

(** [dur], [warp], [early] and [late] are right for the events [evs], of which [evs0] are those
    after the wait for the release: starting at [x] takes [dur] plus the time before [early], with the
    time warp growing once [x] passes [late]; the warp reported for a maximum duration [m] is this
    plus what the duration, less the warp [w0] unavoidable in [evs0], exceeds [m] by. *)
Definition timing_of (evs evs0 : list event) (dur : Z) (warp : Z -> Z) (early late : Z) : Prop :=
  exists w w0,
    (forall x, simulate x evs = (dur + Z.max 0 (early - x), w + Z.max 0 (x - late))) /\
    (forall x, w0 <= snd (simulate x evs0)) /\ (exists x, snd (simulate x evs0) = w0) /\
    early <= late /\ 0 <= w0 <= w /\
    forall m, warp m = w + Z.max 0 (dur - w0 - m).

Lemma good_timing h n s f r evs evs0 : h <= MAXV -> good h n s f r ->
  evbeh evs0 == f -> evbeh evs == bwait r ;; f ->
  timing_of evs evs0 (ds_duration s) (fun m => ds_timeWarp m s) (ds_startEarly s) (ds_startLate s).
Proof.
  intros Hh [G1 G2 G3 G4 G5 G6 G7] E0 E1.
  destruct G1 as [_ _ P1 P2 P3 P4 P5 P6 _ _]. pose proof MAXV_pos.
  exists (ds_warp0 s), (ds_tw s).
  assert (S0 : forall x, simulate x evs0 = tbeh (plain s) x) by (intros x; rewrite simulate_beh, (E0 x), <- (G2 x); reflexivity).
  assert (S1 : forall x, simulate x evs = tbeh (twait r (plain s)) x).
  { intros x. rewrite simulate_beh, (E1 x), (twait_beh _ _ P3 x).
    apply bseq_proper; [reflexivity|]. symmetry. exact G2. }
  destruct s as [sd sw se sl sr sc1 sc2 sp].
  unfold ds_duration, ds_warp0, ds_timeWarp, ds_duration, ds_startEarly, ds_startLate, tbeh,
      twait, plain in *; dcbn. subst.
  repeat split.
  - intros x. rewrite S1. f_equal; zcases.
  - intros x. rewrite S0. cbn [snd]. lia.
  - exists sl. rewrite S0. cbn [snd]. lia.
  - lia.
  - lia.
  - lia.
  - intros m. zcases.
Qed.

Section DurTree.
Variable d : pdata.
Variable h : Z.
Hypothesis Hv : valid_data d.
Hypothesis Ho : opens_by d h.
Hypothesis Hn : nonneg_durs d.
Hypothesis Hh : 2 * h <= MAXV.
Variable profile : nat.
Notation E := (visit_events d profile).

Lemma dstops_ends t : exists pre post, dstops t = first_stop t :: post /\ dstops t = pre ++ [last_stop t].
Proof.
  induction t as [a|l (p1 & q1 & A1 & B1) r (p2 & q2 & A2 & B2)]; cbn [dstops first_stop last_stop].
  - exists [], []. split; reflexivity.
  - exists (dstops l ++ p2), (q1 ++ dstops r). split.
    + rewrite A1. reflexivity.
    + rewrite B2, app_assoc. reflexivity.
Qed.

Lemma visit_app l1 b l2 : l1 <> [] ->
  E (l1 ++ b :: l2) = E l1 ++ Spend (p_dur d profile (a_loc d (last l1 b)) (a_loc d b)) :: E (b :: l2).
Proof.
  induction l1 as [|a l1 IH]; [intros H; congruence|]. intros _.
  destruct l1 as [|a2 l1].
  - cbn [app last visit_events]. rewrite <- !app_assoc. reflexivity.
  - specialize (IH ltac:(discriminate)).
    assert (X : E ((a :: a2 :: l1) ++ b :: l2) =
      stop_events d a ++ [Spend (p_dur d profile (a_loc d a) (a_loc d a2))] ++ E ((a2 :: l1) ++ b :: l2)) by reflexivity.
    rewrite X, IH. change (last (a :: a2 :: l1) b) with (last (a2 :: l1) b).
    change (E (a :: a2 :: l1)) with
      (stop_events d a ++ [Spend (p_dur d profile (a_loc d a) (a_loc d a2))] ++ E (a2 :: l1)).
    rewrite <- !app_assoc. reflexivity.
Qed.

Lemma max_release_app l1 l2 : 0 <= max_release d l2 ->
  max_release d (l1 ++ l2) = Z.max (max_release d l1) (max_release d l2).
Proof.
  intros H. induction l1 as [|a l1 IH]; [cbn [app max_release]; lia|].
  destruct a; cbn [app max_release]; lia.
Qed.
Lemma max_release_nonneg l : 0 <= max_release d l.
Proof.
  induction l as [|a l IH]; [cbn; lia|]. destruct a; cbn [max_release]; try assumption.
  pose proof (vc_release _ (valid_p_client d i Hv)). lia.
Qed.

Let Hh0 : 0 <= h := ob_nonneg _ _ Ho.

Lemma stop_good a : good h (a_service d a) (stop_dur d a) (evbeh (stop_events d a)) (max_release d [a]).
Proof.
  assert (X : forall v e l r, 0 <= v -> 0 <= e -> e <= l -> l <= MAXV -> e <= h -> 0 <= r <= h ->
    good h v (mk_dseg v 0 e l r 0 0 MAXV) (evbeh [Window e l; Spend v]) r).
  { intros v e l r H1 H2 H3 H4 H5 H6.
    eapply (good_eq h).
    2:{ apply good_raw; assumption. }
    rewrite tbeh_raw by assumption. cbn [evbeh ebeh]. rewrite bskip_r. reflexivity. }
  destruct a as [i|i|i|i]; cbn [stop_dur stop_events a_service max_release].
  - pose proof (valid_p_depot d i Hv) as []. pose proof (opens_p_depot d h i Ho). apply X; try assumption; lia.
  - pose proof (valid_p_client d i Hv) as []. pose proof (opens_p_client d h i Ho).
    replace (Z.max (c_release (p_client d i)) 0) with (c_release (p_client d i)) by lia.
    apply X; try assumption; lia.
  - pose proof (valid_p_shipment d i Hv) as [[] _ _ _]. pose proof (opens_p_shipment d h i Ho). apply X; try assumption; lia.
  - pose proof (valid_p_shipment d i Hv) as [_ [] _ _]. pose proof (opens_p_shipment d h i Ho). apply X; try assumption; lia.
Qed.

Lemma join_good t : exists n, good h n (join_dur d profile t) (evbeh (E (dstops t))) (max_release d (dstops t)).
Proof.
  induction t as [a|l [n1 IH1] r [n2 IH2]].
  - exists (a_service d a). cbn [join_dur dstops visit_events app]. rewrite app_nil_r. apply stop_good.
  - destruct (dstops_ends l) as (p1 & q1 & A1 & B1). destruct (dstops_ends r) as (p2 & q2 & A2 & B2).
    eexists. cbn [join_dur dstops].
    rewrite max_release_app by apply max_release_nonneg.
    eapply (good_eq h).
    2:{ apply (good_merge h Hh); [apply Hn|exact IH1|exact IH2]. }
    assert (L : last (dstops l) (first_stop r) = last_stop l) by (rewrite B1; apply last_last).
    rewrite A2 at 2. rewrite visit_app by (rewrite A1; discriminate). rewrite L.
    rewrite evbeh_app. cbn [evbeh ebeh]. rewrite <- A2. reflexivity.
Qed.

Theorem dur_tree_unique t t' : dstops t = dstops t' -> join_dur d profile t = join_dur d profile t'.
Proof.
  intros H. destruct (join_good t) as [n G]. destruct (join_good t') as [n' G']. rewrite H in G.
  exact (good_unique h _ _ _ _ _ _ G G').
Qed.

(** What the joined segment says about carrying out the stops one after the other, once all of
    them are released: duration, time warp and the window of best start times. *)
Theorem dur_tree t : let s := join_dur d profile t in
  timing_of (WaitUntil (max_release d (dstops t)) :: E (dstops t)) (E (dstops t))
    (ds_duration s) (fun m => ds_timeWarp m s) (ds_startEarly s) (ds_startLate s).
Proof.
  cbv zeta. destruct (join_good t) as [n G]. pose proof MAXV_pos.
  apply (good_timing h n _ _ _ _ _ ltac:(lia) G); [reflexivity|].
  intros x. cbn [evbeh ebeh]. reflexivity.
Qed.
End DurTree.
