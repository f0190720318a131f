(** Specification of routes, written without reference to segments: simulating the vehicle's
    clock and load stop by stop, and what a well-formed list of activities is. *)
From Verif Require Import Base DurationSegment Data Valid.

(** ** Time *)
Inductive event :=
| Spend (z : Z)            (* travel or service *)
| WaitUntil (z : Z)        (* not before [z] *)
| Window (early late : Z). (* wait until it opens; go back in time when it has closed *)

(** Starting at time [now]: time spent (travel, service, waiting) and time warp. *)
Fixpoint simulate (now : Z) (evs : list event) : Z * Z :=
  match evs with
  | [] => (0, 0)
  | Spend z :: more =>
      let '(spent, warp) := simulate (now + z) more in (z + spent, warp)
  | WaitUntil r :: more =>
      let wait := Z.max 0 (r - now) in
      let '(spent, warp) := simulate (now + wait) more in (wait + spent, warp)
  | Window early late :: more =>
      let wait := Z.max 0 (early - now) in
      let back := Z.max 0 (now - late) in
      let '(spent, warp) := simulate (now + wait - back) more in (wait + spent, back + warp)
  end.

(** What happens from location [frm] on, visiting [mid] and then the end depot.  A reload depot
    is left only once every client of the trip that starts there has been released. *)
Fixpoint events_from (d : pdata) (v : vehicle) (frm : nat) (mid : list activity) : list event :=
  let travel a b := p_dur d (v_profile v) a b in
  match mid with
  | [] =>
      let e := p_depot d (v_end v) in
      [Spend (travel frm (d_loc e)); Window (d_early e) (d_late e); Window (v_early v) (v_late v)]
  | a :: more =>
      (match a with
       | ADepot i => let x := p_depot d i in
           [Spend (travel frm (d_loc x)); WaitUntil (trip_release d more);
            Window (d_early x) (d_late x); Spend (d_service x)]
       | AClient i => let x := p_client d i in
           [Spend (travel frm (c_loc x)); Window (c_early x) (c_late x); Spend (c_service x)]
       | APickup i => let x := s_pickup (p_shipment d i) in
           [Spend (travel frm (st_loc x)); Window (st_early x) (st_late x); Spend (st_service x)]
       | ADelivery i => let x := s_delivery (p_shipment d i) in
           [Spend (travel frm (st_loc x)); Window (st_early x) (st_late x); Spend (st_service x)]
       end) ++ events_from d v (a_loc d a) more
  end.

Definition route_events (d : pdata) (v : vehicle) (mid : list activity) : list event :=
  let start := p_depot d (v_start v) in
  [WaitUntil (trip_release d mid); Window (v_early v) (v_startLate v);
   Window (d_early start) (d_late start); Spend (d_service start)]
  ++ events_from d v (d_loc start) mid.

(** ** Load *)
(** The trips of a route: its activities cut at the reload depots. *)
Fixpoint trips (mid : list activity) : list (list activity) :=
  match mid with
  | [] => [[]]
  | ADepot _ :: more => [] :: trips more
  | a :: more => match trips more with
                 | t :: ts => (a :: t) :: ts
                 | [] => [[a]]
                 end
  end.

(** Change of the load on board caused by one activity. *)
Definition load_change (d : pdata) (dim : nat) (a : activity) : Z :=
  match a with
  | ADepot _ => 0
  | AClient i => dimv (c_pickup (p_client d i)) dim - dimv (c_delivery (p_client d i)) dim
  | APickup i => dimv (s_amount (p_shipment d i)) dim
  | ADelivery i => - dimv (s_amount (p_shipment d i)) dim
  end.
Definition trip_delivery (d : pdata) (dim : nat) (t : list activity) : Z :=
  zsum (map (fun a => match a with
                      | AClient i => dimv (c_delivery (p_client d i)) dim
                      | _ => 0 end) t).

(** Largest load on board from now on, starting with [onboard]. *)
Fixpoint peak (d : pdata) (dim : nat) (onboard : Z) (t : list activity) : Z :=
  match t with
  | [] => onboard
  | a :: more => Z.max onboard (peak d dim (onboard + load_change d dim a) more)
  end.

(** A trip starts with all its deliveries on board, and [extra]. *)
Definition trip_excess (d : pdata) (dim : nat) (cap extra : Z) (t : list activity) : Z :=
  Z.max 0 (peak d dim (trip_delivery d dim t + extra) t - cap).

Definition route_excess (d : pdata) (v : vehicle) (dim : nat) (mid : list activity) : Z :=
  let cap := dimv (v_capacity v) dim in
  match trips mid with
  | [] => 0
  | t :: ts => trip_excess d dim cap (dimv (v_initialLoad v) dim) t
               + zsum (map (trip_excess d dim cap 0) ts)
  end.

(** ** Well-formed activity lists *)
Definition known (d : pdata) (a : activity) : Prop :=
  match a with
  | ADepot i => (i < p_numDepots d)%nat
  | AClient i => (i < p_numClients d)%nat
  | APickup i | ADelivery i => (i < p_numShipments d)%nat
  end.

Definition num_reloads (mid : list activity) : nat := length (filter a_isDepot mid).

Record well_formed (d : pdata) (v : vehicle) (mid : list activity) : Prop := mk_well_formed {
  wf_known : forall a, In a mid -> known d a;
  wf_pickup_once : forall i pre post, mid = pre ++ APickup i :: post -> ~ In (APickup i) post;
  wf_delivery_once : forall i pre post, mid = pre ++ ADelivery i :: post -> ~ In (ADelivery i) post;
  wf_delivery_after : forall i pre post, mid = pre ++ ADelivery i :: post ->
    exists p1 p2, pre = p1 ++ APickup i :: p2 /\ forall a, In a p2 -> a_isDepot a = false;
  wf_pickup_paired : forall i, In (APickup i) mid -> In (ADelivery i) mid;
  wf_trips : Z.of_nat (num_reloads mid + 1) <= v_maxTrips v }.

(** ** Timetables *)
(** When a stop opens and closes in the timetable; [rest] is what comes after the stop.  A depot
    does not open before the trip that starts there is released (unless it closes before). *)
Definition opening (d : pdata) (a : activity) (rest : list activity) : Z :=
  match a with
  | ADepot i => Z.max (d_early (p_depot d i)) (Z.min (trip_release d rest) (d_late (p_depot d i)))
  | AClient i => c_early (p_client d i)
  | APickup i => st_early (s_pickup (p_shipment d i))
  | ADelivery i => st_early (s_delivery (p_shipment d i))
  end.
Definition closing (d : pdata) (a : activity) : Z :=
  match a with
  | ADepot i => d_late (p_depot d i)
  | AClient i => c_late (p_client d i)
  | APickup i => st_late (s_pickup (p_shipment d i))
  | ADelivery i => st_late (s_delivery (p_shipment d i))
  end.
