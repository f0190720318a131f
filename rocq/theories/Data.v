(** Model of the problem data: Activity.h, Client.h, Depot.h, Shipment.h, VehicleType.h,
    ClientGroup.h, Location.h, Matrix.h, ProblemData.h.  Indices are [nat]; measures are [Z];
    the free-form [name] fields are strings. *)
From Coq Require String.
From Verif Require Import Base DurationSegment.
Notation string := String.string.

(** Outcome of an operation that may throw: std::invalid_argument (ValueError in Python),
    std::out_of_range (IndexError), std::runtime_error (RuntimeError). *)
Inductive exn := InvalidArgument | OutOfRange | RuntimeErr.
Inductive res (A : Type) := Ok (a : A) | Err (e : exn).
Arguments Ok {A}. Arguments Err {A}.

(** Activity.h:41-51: type and index of an activity. *)
Inductive activity :=
| ADepot (i : nat)
| AClient (i : nat)
| APickup (i : nat)
| ADelivery (i : nat).

(** Activity.h:96-108 *)
Definition a_idx (a : activity) : nat :=
  match a with ADepot i | AClient i | APickup i | ADelivery i => i end.
Definition a_isDepot (a : activity) := match a with ADepot _ => true | _ => false end.
Definition a_isClient (a : activity) := match a with AClient _ => true | _ => false end.
Definition a_isPickup (a : activity) := match a with APickup _ => true | _ => false end.
Definition a_isDelivery (a : activity) := match a with ADelivery _ => true | _ => false end.
Definition a_isShipment (a : activity) := a_isPickup a || a_isDelivery a.

(** Activity.h:58, defaulted equality. *)
Definition a_eqb (a b : activity) : bool :=
  match a, b with
  | ADepot i, ADepot j | AClient i, AClient j
  | APickup i, APickup j | ADelivery i, ADelivery j => Nat.eqb i j
  | _, _ => false
  end.

(** Client.h:95-107 *)
Record client := mk_client {
  c_loc : nat;
  c_service : Z;
  c_early : Z;
  c_late : Z;
  c_delivery : list Z;
  c_pickup : list Z;
  c_release : Z;
  c_prize : Z;
  c_required : bool;
  c_group : option nat;
  c_name : string }.

(** Depot.h: location, service duration and time window. *)
Record depot := mk_depot {
  d_loc : nat;
  d_early : Z;
  d_late : Z;
  d_service : Z;
  d_name : string }.

(** Shipment.h:113-132, ShipmentStep. *)
Record step := mk_step { st_loc : nat; st_early : Z; st_late : Z; st_service : Z }.

(** Shipment.h:134-139 *)
Record shipment := mk_shipment {
  s_pickup : step;
  s_delivery : step;
  s_amount : list Z;
  s_prize : Z;
  s_required : bool;
  s_name : string }.

(** VehicleType.h:150-171 *)
Record vehicle := mk_vehicle {
  v_numAvailable : nat;
  v_start : nat;
  v_end : nat;
  v_capacity : list Z;
  v_early : Z;
  v_late : Z;
  v_shift : Z;
  v_maxDistance : Z;
  v_fixedCost : Z;
  v_unitDistance : Z;
  v_unitDuration : Z;
  v_profile : nat;
  v_startLate : Z;
  v_initialLoad : list Z;
  v_reload : list nat;
  v_maxReloads : Z;
  v_maxOvertime : Z;
  v_unitOvertime : Z;
  v_maxDuration : Z;
  v_name : string }.

(** [std::numeric_limits<size_t>::max()]; the default of max_reloads, VehicleType.h:188. *)
Definition SIZE_MAX : Z := 18446744073709551615.

(** VehicleType.cpp:212-217; the addition wraps around at 2^64. *)
Definition v_maxTrips (v : vehicle) : Z :=
  match v_reload v with
  | [] => 1
  | _ => Z.max (v_maxReloads v) ((v_maxReloads v + 1) mod (SIZE_MAX + 1))
  end.

(** ClientGroup.h:54-61; [mutuallyExclusive] is a constant [true] member. *)
Record cgroup := mk_cgroup {
  g_clients : list nat;
  g_required : bool;
  g_name : string }.
Definition g_mutuallyExclusive (g : cgroup) : bool := true.

(** Location.h:40-44 (coordinates are doubles in the code and play no role here). *)
Record location := mk_location { l_x : Z; l_y : Z; l_name : string }.

(** Matrix.h:12-16, 75-85: row-major storage. *)
Record matrix := mk_matrix { m_rows : nat; m_cols : nat; m_data : list Z }.
Definition m_at (m : matrix) (row col : nat) : Z :=
  nth (m_cols m * row + col)%nat (m_data m) 0.

(** ProblemData.h: the constructor's fields.  Derived fields (number of vehicles, number of load
    dimensions, has time windows) are functions below. *)
Record pdata := mk_pdata {
  p_locations : list location;
  p_clients : list client;
  p_depots : list depot;
  p_vehicles : list vehicle;
  p_dists : list matrix;
  p_durs : list matrix;
  p_groups : list cgroup;
  p_shipments : list shipment }.

(** ProblemData.h:340-368, element access.  The code indexes vectors without bounds check (only
    assertions); out of range the model returns a dummy, and the theorems assume
    indices in range. *)
Definition dummy_client := mk_client 0 0 0 MAXV [] [] 0 0 true None String.EmptyString.
Definition dummy_depot := mk_depot 0 0 MAXV 0 String.EmptyString.
Definition dummy_step := mk_step 0 0 MAXV 0.
Definition dummy_shipment := mk_shipment dummy_step dummy_step [] 0 true String.EmptyString.
Definition dummy_vehicle :=
  mk_vehicle 1 0 0 [] 0 MAXV MAXV MAXV 0 1 0 0 MAXV [] [] SIZE_MAX 0 0 MAXV String.EmptyString.
Definition dummy_matrix := mk_matrix 0 0 [].
Definition dummy_group := mk_cgroup [] true String.EmptyString.

Definition p_client (d : pdata) (i : nat) := nth i (p_clients d) dummy_client.
Definition p_depot (d : pdata) (i : nat) := nth i (p_depots d) dummy_depot.
Definition p_shipment (d : pdata) (i : nat) := nth i (p_shipments d) dummy_shipment.
Definition p_vehicle (d : pdata) (i : nat) := nth i (p_vehicles d) dummy_vehicle.
Definition p_group (d : pdata) (i : nat) := nth i (p_groups d) dummy_group.
Definition p_dist (d : pdata) (profile : nat) (frm to : nat) : Z :=
  m_at (nth profile (p_dists d) dummy_matrix) frm to.
Definition p_dur (d : pdata) (profile : nat) (frm to : nat) : Z :=
  m_at (nth profile (p_durs d) dummy_matrix) frm to.

(** ProblemData.cpp:90-110 *)
Definition p_numClients (d : pdata) := length (p_clients d).
Definition p_numDepots (d : pdata) := length (p_depots d).
Definition p_numGroups (d : pdata) := length (p_groups d).
Definition p_numLocations (d : pdata) := length (p_locations d).
Definition p_numShipments (d : pdata) := length (p_shipments d).
Definition p_numVehicleTypes (d : pdata) := length (p_vehicles d).

(** ProblemData.cpp:306-310; the code accumulates in a 32-bit [int], the model in [nat]. *)
Definition p_numVehicles (d : pdata) : nat :=
  fold_left (fun sum v => (sum + v_numAvailable v)%nat) (p_vehicles d) 0%nat.

(** ProblemData.cpp:311-319 *)
Definition p_numLoadDimensions (d : pdata) : nat :=
  match p_vehicles d with
  | v :: _ => length (v_capacity v)
  | [] => match p_clients d with
          | c :: _ => length (c_delivery c)
          | [] => match p_shipments d with
                  | s :: _ => length (s_amount s)
                  | [] => 0%nat
                  end
          end
  end.

(** ProblemData.cpp:29-38 *)
Definition hasTw (early late : Z) : bool := negb (early =? 0) || negb (late =? MAXV).

(** ProblemData.cpp:320-331 *)
Definition p_hasTimeWindows (d : pdata) : bool :=
  existsb (fun c => hasTw (c_early c) (c_late c)) (p_clients d)
  || existsb (fun x => hasTw (d_early x) (d_late x)) (p_depots d)
  || existsb (fun v => hasTw (v_early v) (v_late v) || negb (v_startLate v =? MAXV)) (p_vehicles d)
  || existsb (fun s => hasTw (st_early (s_pickup s)) (st_late (s_pickup s))
                       || hasTw (st_early (s_delivery s)) (st_late (s_delivery s)))
             (p_shipments d).

(** DurationSegment.cpp:21-48: duration segments of the various stops. *)
Definition ds_client (c : client) : dseg :=
  mk_dseg (c_service c) 0 (c_early c) (c_late c) (c_release c) 0 0 MAXV.
Definition ds_depot (x : depot) (service : Z) : dseg :=
  mk_dseg service 0 (d_early x) (d_late x) 0 0 0 MAXV.
Definition ds_step (s : step) : dseg :=
  mk_dseg (st_service s) 0 (st_early s) (st_late s) 0 0 0 MAXV.
Definition ds_vehicle (v : vehicle) (twLate : Z) : dseg :=
  mk_dseg 0 0 (v_early v) twLate 0 0 0 MAXV.

(** search/Route.cpp:191-216 and Route.cpp:342-359: location of an activity. *)
Definition a_loc (d : pdata) (a : activity) : nat :=
  match a with
  | ADepot i => d_loc (p_depot d i)
  | AClient i => c_loc (p_client d i)
  | APickup i => st_loc (s_pickup (p_shipment d i))
  | ADelivery i => st_loc (s_delivery (p_shipment d i))
  end.

(** Vector element access in load dimension [dim]. *)
Definition dimv (l : list Z) (dim : nat) : Z := nth dim l 0.
