(** What problem data satisfies once it has passed the checks of the constructors
    (Client.cpp:32-80, Depot.cpp:22-41, Shipment.cpp:26-92, VehicleType.cpp:31-117), stated on the
    records.  Values are int64, hence at most [MAXV].  DataCtor.v proves that the modelled
    constructors establish these. *)
From Verif Require Import Base DurationSegment Data.

Record valid_client (c : client) : Prop := mk_valid_client {
  vc_service : 0 <= c_service c;
  vc_early : 0 <= c_early c;
  vc_tw : c_early c <= c_late c;
  vc_late : c_late c <= MAXV;
  vc_release : 0 <= c_release c;
  vc_release_late : c_release c <= c_late c;
  vc_delivery : Forall (fun x => 0 <= x) (c_delivery c);
  vc_pickup : Forall (fun x => 0 <= x) (c_pickup c);
  vc_prize : 0 <= c_prize c }.

Record valid_depot (x : depot) : Prop := mk_valid_depot {
  vd_service : 0 <= d_service x;
  vd_early : 0 <= d_early x;
  vd_tw : d_early x <= d_late x;
  vd_late : d_late x <= MAXV }.

Record valid_step (s : step) : Prop := mk_valid_step {
  vs_service : 0 <= st_service s;
  vs_early : 0 <= st_early s;
  vs_tw : st_early s <= st_late s;
  vs_late : st_late s <= MAXV }.

Record valid_shipment (s : shipment) : Prop := mk_valid_shipment {
  vs_pickup : valid_step (s_pickup s);
  vs_delivery : valid_step (s_delivery s);
  vs_amount : Forall (fun x => 0 <= x) (s_amount s);
  vs_prize : 0 <= s_prize s }.

Record valid_vehicle (v : vehicle) : Prop := mk_valid_vehicle {
  vv_early : 0 <= v_early v;
  vv_startLate_lo : v_early v <= v_startLate v;
  vv_startLate_hi : v_startLate v <= v_late v;
  vv_late : v_late v <= MAXV;
  vv_capacity : Forall (fun x => 0 <= x) (v_capacity v);
  vv_initial : Forall (fun x => 0 <= x) (v_initialLoad v);
  vv_shift : 0 <= v_shift v;
  vv_maxDistance : 0 <= v_maxDistance v;
  vv_maxDuration : 0 <= v_maxDuration v;
  vv_unitDistance : 0 <= v_unitDistance v;
  vv_unitDuration : 0 <= v_unitDuration v;
  vv_unitOvertime : 0 <= v_unitOvertime v;
  vv_maxOvertime : 0 <= v_maxOvertime v;
  vv_numAvailable : (0 < v_numAvailable v)%nat;
  vv_maxDuration_def : v_maxDuration v =
    if v_maxOvertime v <? MAXV - v_shift v then v_shift v + v_maxOvertime v else MAXV;
  vv_initial_capacity : forall dim, dimv (v_initialLoad v) dim <= dimv (v_capacity v) dim }.

Record valid_data (d : pdata) : Prop := mk_valid_data {
  va_clients : Forall valid_client (p_clients d);
  va_depots : Forall valid_depot (p_depots d);
  va_shipments : Forall valid_shipment (p_shipments d);
  va_vehicles : Forall valid_vehicle (p_vehicles d) }.

(** No opening or release time is after [h].  (The code's constructors do not enforce this;
    it keeps the arithmetic away from the end of the int64 range.) *)
Record opens_by (d : pdata) (h : Z) : Prop := mk_opens_by {
  ob_nonneg : 0 <= h;
  ob_clients : Forall (fun c => c_early c <= h /\ c_release c <= h) (p_clients d);
  ob_depots : Forall (fun x => d_early x <= h) (p_depots d);
  ob_shipments : Forall (fun s => st_early (s_pickup s) <= h /\ st_early (s_delivery s) <= h)
                        (p_shipments d);
  ob_vehicles : Forall (fun v => v_early v <= h) (p_vehicles d) }.

(** Travel durations / distances are not negative.  (ProblemData does not check this.) *)
Definition nonneg_durs (d : pdata) : Prop := forall profile a b, 0 <= p_dur d profile a b.
Definition nonneg_dists (d : pdata) : Prop := forall profile a b, 0 <= p_dist d profile a b.

Lemma Forall_nth_default {A} (P : A -> Prop) l dft i : Forall P l -> P dft -> P (nth i l dft).
Proof.
  intros Hl Hd. revert i; induction Hl as [|x l Hx Hl IH]; intros i; destruct i; cbn; auto.
Qed.

Lemma valid_p_client d i : valid_data d -> valid_client (p_client d i).
Proof.
  intros []. unfold p_client. apply Forall_nth_default; [assumption|].
  pose proof MAXV_pos. constructor; cbn; try lia; constructor.
Qed.
Lemma valid_p_depot d i : valid_data d -> valid_depot (p_depot d i).
Proof.
  intros []. unfold p_depot. apply Forall_nth_default; [assumption|].
  pose proof MAXV_pos. constructor; cbn; lia.
Qed.
Lemma valid_p_shipment d i : valid_data d -> valid_shipment (p_shipment d i).
Proof.
  intros []. unfold p_shipment. apply Forall_nth_default; [assumption|].
  pose proof MAXV_pos. constructor; cbn; try lia; constructor; cbn; lia.
Qed.
Lemma opens_p_client d h i : opens_by d h -> c_early (p_client d i) <= h /\ c_release (p_client d i) <= h.
Proof. intros []. unfold p_client. apply (Forall_nth_default (fun c => c_early c <= h /\ c_release c <= h)); [assumption|]. cbn; lia. Qed.
Lemma opens_p_depot d h i : opens_by d h -> d_early (p_depot d i) <= h.
Proof. intros []. unfold p_depot. apply (Forall_nth_default (fun x => d_early x <= h)); [assumption|]. cbn; lia. Qed.
Lemma opens_p_shipment d h i : opens_by d h ->
  st_early (s_pickup (p_shipment d i)) <= h /\ st_early (s_delivery (p_shipment d i)) <= h.
Proof. intros []. unfold p_shipment. apply (Forall_nth_default (fun s => st_early (s_pickup s) <= h /\ st_early (s_delivery s) <= h)); [assumption|]. cbn; lia. Qed.

(** Sums over the visits of a route: locations, travel and service. *)
Definition a_service (d : pdata) (a : activity) : Z :=
  match a with
  | ADepot i => d_service (p_depot d i)
  | AClient i => c_service (p_client d i)
  | APickup i => st_service (s_pickup (p_shipment d i))
  | ADelivery i => st_service (s_delivery (p_shipment d i))
  end.

Fixpoint path_sum (f : nat -> nat -> Z) (l : list nat) : Z :=
  match l with
  | a :: ((b :: _) as l') => f a b + path_sum f l'
  | _ => 0
  end.

(** All locations visited by vehicle [v] with activities [mid] between its depots. *)
Definition route_locs (d : pdata) (v : vehicle) (mid : list activity) : list nat :=
  d_loc (p_depot d (v_start v)) :: map (a_loc d) mid ++ [d_loc (p_depot d (v_end v))].

Definition route_travel (d : pdata) (v : vehicle) (mid : list activity) : Z :=
  path_sum (p_dur d (v_profile v)) (route_locs d v mid).
Definition route_service (d : pdata) (v : vehicle) (mid : list activity) : Z :=
  d_service (p_depot d (v_start v)) + zsum (map (a_service d) mid).

(** The figures of the route stay clear of the int64 limit. *)
Definition time_fits (d : pdata) (h : Z) (v : vehicle) (mid : list activity) : Prop :=
  4 * (3 * h + route_travel d v mid + route_service d v mid) <= MAXV.

(** Largest release time in the current trip, that is, up to the next reload depot. *)
Fixpoint trip_release (d : pdata) (mid : list activity) : Z :=
  match mid with
  | [] => 0
  | ADepot _ :: _ => 0
  | AClient i :: more => Z.max (c_release (p_client d i)) (trip_release d more)
  | _ :: more => trip_release d more
  end.

(** Every trip after the first can be released before its reload depot closes. *)
Fixpoint reload_releases_ok (d : pdata) (mid : list activity) : Prop :=
  match mid with
  | [] => True
  | ADepot i :: more => trip_release d more <= d_late (p_depot d i) /\ reload_releases_ok d more
  | _ :: more => reload_releases_ok d more
  end.
