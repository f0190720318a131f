(** What an instance file says, entry by entry.  Locations are counted from zero; the file counts from one. *)
From Coq Require Import Ascii.
From Coq Require Import String List.
From Verif Require Import Base DurationSegment Data ModelPy Read.
Import ListNotations.
Local Open Scope Z_scope.
Notation length := List.length.

(** A value that is given once, in a section with a single row, or one by one. *)
Definition value_at {A} (s : spec A) (v : nat) (dft : A) : A :=
  match s with Uniform x => x | Each [x] => x | Each l => nth v l dft end.

Section File.
Variable Num : Type.
Variable zero : Num.
Variable rf : Num -> Z.
Variable inst : instance Num.

Definition file_depots : nat := match in_depot inst with Some l => length l | None => 1%nat end.
(** Locations of shipments are not clients. *)
Definition file_clients : nat :=
  match in_pd inst with None => (in_dimension inst - file_depots)%nat | Some rows => (in_dimension inst - length rows)%nat end.
Definition file_vehicles : nat := match in_vehicles inst with Some n => n | None => file_clients end.
Definition dummy_row : pd_row Num := mk_pd_row zero zero zero zero 0 0.
Definition file_window (loc : nat) : Z * Z :=
  match in_pd inst with
  | Some rows => (rf (pd_early (nth loc rows dummy_row)), rf (pd_late (nth loc rows dummy_row)))
  | None => match in_window inst with
            | Some l => (rf (fst (nth loc l (zero, zero))), rf (snd (nth loc l (zero, zero))))
            | None => (0, MAXV)
            end
  end.
Definition file_linehaul : option (list (list Num)) :=
  match in_demand inst with Some rows => Some rows | None => in_linehaul inst end.
Definition file_amount (rows : option (list (list Num))) (loc dim : nat) : Z :=
  match rows with Some rows => dimv (map rf (nth loc rows [])) dim | None => 0 end.
Definition file_prize (loc : nat) : Z := match in_prize inst with Some l => rf (nth loc l zero) | None => 0 end.

(** Client [i] of the data is the location [loc] of the file. *)
Record client_is (loc : nat) (c : client) : Prop := mk_client_is {
  ci_loc : c_loc c = loc;
  ci_delivery : forall dim, dimv (c_delivery c) dim = file_amount file_linehaul loc dim;
  ci_pickup : forall dim, dimv (c_pickup c) dim = file_amount (in_backhaul inst) loc dim;
  ci_service : c_service c = match in_service inst with None => rf zero | Some (Uniform x) => rf x | Some (Each l) => rf (nth loc l zero) end;
  ci_window : (c_early c, c_late c) = file_window loc;
  ci_release : c_release c = match in_release inst with None => rf zero | Some s => rf (value_at s loc zero) end;
  ci_prize : c_prize c = file_prize loc;
  ci_required : c_required c = true <-> file_prize loc = 0 /\ c_group c = None }.

(** The vehicle type [x] has the attributes of vehicle [v] of the file. *)
Record vehicle_is (v : nat) (x : vehicle) : Prop := mk_vehicle_is {
  vi_capacity : v_capacity x = match in_capacity inst with
                               | None => [MAXV] | Some (Uniform c) => map rf c | Some (Each rows) => map rf (nth v rows []) end;
  vi_start : Z.of_nat (v_start x) = match in_vdepot inst with None => 0 | Some l => nth v l 0 - 1 end;
  vi_end : v_end x = v_start x;
  vi_fixed : v_fixedCost x = match in_fixed inst with None => rf zero | Some s => rf (value_at s v zero) end;
  vi_window : (v_early x, v_late x) = file_window (v_start x);
  vi_startLate : v_startLate x = v_late x;
  vi_shift : v_shift x = match in_maxDuration inst with None => MAXV | Some s => rf (value_at s v zero) end;
  vi_overtime : v_maxOvertime x = 0 /\ v_unitOvertime x = 0;
  vi_distance : v_maxDistance x = match in_maxDistance inst with None => MAXV | Some s => rf (value_at s v zero) end;
  vi_unitDistance : v_unitDistance x = match in_unit inst with None => 1 | Some s => value_at s v 0 end;
  vi_unitDuration : v_unitDuration x = 0;
  vi_initial : forall dim, dimv (v_initialLoad x) dim = 0;
  vi_reload : map Z.of_nat (v_reload x) = match in_reload inst with None => [] | Some rows => map (fun i => i - 1) (nth v rows []) end;
  vi_maxReloads : v_maxReloads x = match in_maxReloads inst with None => SIZE_MAX | Some s => value_at s v 0 end }.

(** The edge weights; vehicles may only visit depots and the clients allowed to them. *)
Definition file_edge (i j : nat) : Z := let '(_, cols, l) := in_edge inst in nth (cols * i + j) (map rf l) 0.
Definition may_visit (v loc : nat) : Prop :=
  (loc < file_depots)%nat \/ match in_allowed inst with None => True | Some rows => In (Z.of_nat loc + 1) (nth v rows []) end.
(** In a VRP with backhauls, the arcs from the first depot to a backhaul client, and from a backhaul to a linehaul client. *)
Definition backward (i j : nat) : Prop :=
  in_type inst = "VRPB"%string /\
  ((i = 0%nat /\ 0 < file_amount (in_backhaul inst) j 0) \/ (0 < file_amount (in_backhaul inst) i 0 /\ 0 < file_amount file_linehaul j 0)).
(** Lists of allowed clients have no duplicates and list clients only. *)
Definition allowed_proper : Prop :=
  match in_allowed inst with
  | None => True
  | Some rows => in_pd inst = None /\
      Forall (fun row => NoDup row /\ Forall (fun i => Z.of_nat file_depots < i <= Z.of_nat (in_dimension inst)) row) rows
  end.
End File.

Section Shipments.
Variable Num : Type.
Variable zero : Num.
Variable rf : Num -> Z.
(** The coordinates are those of all locations. *)
Definition file_sized (inst : instance Num) : Prop := match in_coord inst with None => True | Some l => length l = in_dimension inst end.
(** The rows of the section on pickups and deliveries that are pickups. *)
Definition is_pickup (r : pd_row Num) : bool := (pd_pick r =? 0) && (0 <? pd_deliv r).
Definition pickup_rows (rows : list (pd_row Num)) : list nat :=
  filter (fun i => is_pickup (nth i rows (dummy_row Num zero))) (seq 0 (length rows)).
(** The shipment [s] that row [i] describes; its delivery is at location [q], counted from zero. *)
Record shipment_is (rows : list (pd_row Num)) (i : nat) (q : Z) (s : shipment) : Prop := mk_shipment_is {
  si_pickup : s_pickup s = let r := nth i rows (dummy_row Num zero) in
                           mk_step i (rf (pd_early r)) (rf (pd_late r)) (rf (pd_service r));
  si_range : 0 <= q < Z.of_nat (length rows);
  si_delivery : s_delivery s = let r := nth (Z.to_nat q) rows (dummy_row Num zero) in
                               mk_step (Z.to_nat q) (rf (pd_early r)) (rf (pd_late r)) (rf (pd_service r));
  si_amount : s_amount s = [rf (pd_demand (nth i rows (dummy_row Num zero)))];
  si_required : s_required s = true;
  si_prize : s_prize s = 0 }.
(** Pickups and deliveries refer to each other, and there is a single depot in the first row. *)
Record pairs_proper (inst : instance Num) (rows : list (pd_row Num)) : Prop := mk_pairs_proper {
  pp_depot : file_depots Num inst = 1%nat;
  pp_rows : length rows = in_dimension inst;
  pp_pairs : forall i, (i < length rows)%nat -> let r := nth i rows (dummy_row Num zero) in is_pickup r = true ->
    (1 <= i)%nat /\ 2 <= pd_deliv r <= Z.of_nat (length rows) /\
    pd_pick (nth (Z.to_nat (pd_deliv r - 1)) rows (dummy_row Num zero)) = Z.of_nat i + 1 }.
End Shipments.
