(** pyvrp/read.py and the solution file of pyvrp/cli.py.

    The vrplib package reads the text of a file into a dictionary; [instance] is that dictionary, with one optional
    entry for each key that read.py looks at.  A section with one value per row is a list of
    one-element rows, which is how read.py uses it (np.atleast_1d).  Numbers of the file are of an arbitrary type
    [Num]; the rounding function works elementwise and gives integers.  Indices, unit costs and
    numbers of reloads are not rounded and are integers.  TypeError, raised when a negative number is passed for a
    size, is [InvalidArgument] here, and IndexError and KeyError are [OutOfRange].  Not modelled: numpy's
    integer overflow and the warning about large distances, which is in ScaleWarn.v. *)
From Coq Require Import Ascii.
From Coq Require Import String List.
From Verif Require Import Base DurationSegment Data DataCtor MatrixFacts ModelPy ActivityText StatsCsv Route Solution.
Import ListNotations.
Local Open Scope Z_scope.

(** An entry that is given once for all, or one by one. *)
Inductive spec (A : Type) := Uniform (x : A) | Each (l : list A).
Arguments Uniform {A}. Arguments Each {A}.

(** A row of the section on pickups and deliveries: demand, time window, service, indices of the pair. *)
Record pd_row (Num : Type) := mk_pd_row {
  pd_demand : Num; pd_early : Num; pd_late : Num; pd_service : Num; pd_pick : Z; pd_deliv : Z }.
Arguments mk_pd_row {Num}. Arguments pd_demand {Num}. Arguments pd_early {Num}. Arguments pd_late {Num}.
Arguments pd_service {Num}. Arguments pd_pick {Num}. Arguments pd_deliv {Num}.

Record instance (Num : Type) := mk_instance {
  in_type : string;
  in_dimension : nat;
  in_depot : option (list Z);                 (* counted from zero *)
  in_vehicles : option nat;
  in_edge : nat * nat * list Num;             (* rows, columns, entries row by row *)
  in_backhaul : option (list (list Num));
  in_demand : option (list (list Num));
  in_linehaul : option (list (list Num));
  in_coord : option (list (Num * Num));
  in_service : option (spec Num);
  in_window : option (list (Num * Num));
  in_release : option (spec Num);
  in_prize : option (list Num);
  in_capacity : option (spec (list Num));
  in_allowed : option (list (list Z));        (* counted from one *)
  in_reload : option (list (list Z));         (* counted from one *)
  in_vdepot : option (list Z);                (* counted from one *)
  in_maxDistance : option (spec Num);
  in_maxDuration : option (spec Num);
  in_maxReloads : option (spec Z);
  in_fixed : option (spec Num);
  in_unit : option (spec Z);
  in_groups : option (list (list Z));         (* counted from one *)
  in_pd : option (list (pd_row Num)) }.
Arguments mk_instance {Num}. Arguments in_type {Num}. Arguments in_dimension {Num}. Arguments in_depot {Num}.
Arguments in_vehicles {Num}. Arguments in_edge {Num}. Arguments in_backhaul {Num}. Arguments in_demand {Num}.
Arguments in_linehaul {Num}. Arguments in_coord {Num}. Arguments in_service {Num}. Arguments in_window {Num}.
Arguments in_release {Num}. Arguments in_prize {Num}. Arguments in_capacity {Num}. Arguments in_allowed {Num}.
Arguments in_reload {Num}. Arguments in_vdepot {Num}. Arguments in_maxDistance {Num}. Arguments in_maxDuration {Num}.
Arguments in_maxReloads {Num}. Arguments in_fixed {Num}. Arguments in_unit {Num}. Arguments in_groups {Num}.
Arguments in_pd {Num}.

(** ** Python and numpy *)
Fixpoint mapM {A B} (f : A -> res B) (l : list A) : res (list B) :=
  match l with
  | [] => Ok []
  | x :: more => bind (f x) (fun y => bind (mapM f more) (fun ys => Ok (y :: ys)))
  end.
Definition get {A} (l : list A) (i : nat) : res A :=
  match nth_error l i with Some x => Ok x | None => Err OutOfRange end.
(** A position in a sequence of length [n]; negative ones count from the end. *)
Definition py_index (n : nat) (i : Z) : res nat :=
  if (0 <=? i) && (i <? Z.of_nat n) then Ok (Z.to_nat i)
  else if (- Z.of_nat n <=? i) && (i <? 0) then Ok (Z.to_nat (i + Z.of_nat n))
  else Err OutOfRange.
(** Conversion to size_t. *)
Definition to_size (i : Z) : res nat := if i <? 0 then Err InvalidArgument else Ok (Z.to_nat i).
Definition is_size (i : Z) : res unit := if i <? 0 then Err InvalidArgument else Ok tt.
(** np.broadcast_to *)
Definition broadcast {A} (s : spec A) (n : nat) : res (list A) :=
  match s with
  | Uniform x => Ok (repeat x n)
  | Each l =>
      if (List.length l =? n)%nat then Ok l
      else match l with [x] => Ok (repeat x n) | _ => Err InvalidArgument end
  end.
(** A matrix given by a function. *)
Definition m_tab (rows cols : nat) (f : nat -> nat -> Z) : matrix :=
  mk_matrix rows cols (flat_map (fun i => map (f i) (seq 0 cols)) (seq 0 rows)).
Definition zlist_eqb : list Z -> list Z -> bool := list_eqb Z.eqb.
Definition to_string (t : text) : string := string_of_list_ascii t.

Section Read.
Variable Num : Type.
Variable zero : Num.
(** round_func, on each element. *)
Variable rf : Num -> Z.
Variable inst : instance Num.

(** ** _InstanceParser *)
(** read.py:162-164 *)
Definition num_locations : nat := in_dimension inst.
(** read.py:191-192 and 166-168 *)
Definition depot_idcs : list Z := match in_depot inst with Some l => l | None => [0] end.
Definition num_depots : nat := List.length depot_idcs.
(** read.py:174-179; this counts the locations of shipments. *)
Definition num_shipments : Z :=
  match in_pd inst with None => 0 | Some rows => Z.of_nat (List.length rows) - Z.of_nat num_depots end.
(** read.py:170-172 *)
Definition num_clients : Z := Z.of_nat num_locations - Z.of_nat num_depots - num_shipments.
(** read.py:181-183; numpy rejects negative dimensions. *)
Definition num_vehicles : nat := match in_vehicles inst with Some n => n | None => Z.to_nat num_clients end.

(** read.py:188-189 *)
Definition edge_weight : matrix := let '(rows, cols, l) := in_edge inst in mk_matrix rows cols (map rf l).
(** read.py:194-198 *)
Definition backhauls : list (list Z) :=
  match in_backhaul inst with Some rows => map (map rf) rows | None => repeat [0] num_locations end.
(** read.py:200-206 *)
Definition demand_rows : option (list (list Num)) :=
  match in_demand inst with Some rows => Some rows | None => in_linehaul inst end.
Definition demands : list (list Z) :=
  match demand_rows with Some rows => map (map rf) rows | None => repeat [0] num_locations end.
(** read.py:208-212 *)
Definition coords : list (Z * Z) :=
  match in_coord inst with
  | Some l => map (fun c => (rf (fst c), rf (snd c))) l
  | None => repeat (0, 0) num_locations
  end.
(** read.py:214-223 *)
Definition service_times : list Z :=
  match match in_service inst with Some s => s | None => Uniform zero end with
  | Uniform x => map rf (repeat zero (Nat.min num_depots num_locations) ++ repeat x (num_locations - num_depots))
  | Each l => map rf l
  end.
(** read.py:225-239 *)
Definition time_windows : list (Z * Z) :=
  match in_pd inst with
  | Some rows => map (fun r => (rf (pd_early r), rf (pd_late r))) rows
  | None =>
      match in_window inst with
      | Some l => map (fun w => (rf (fst w), rf (snd w))) l
      | None => repeat (0, MAXV) num_locations
      end
  end.
Definition rounded (x : res (list Num)) : res (list Z) := bind x (fun l => Ok (map rf l)).
(** read.py:241-244 *)
Definition release_times : res (list Z) :=
  rounded (broadcast (match in_release inst with Some s => s | None => Uniform zero end) num_locations).
(** read.py:246-257 *)
Definition reload_depots : list (list Z) :=
  match in_reload inst with Some rows => map (map (fun i => i - 1)) rows | None => repeat [] num_vehicles end.
(** read.py:259-263 *)
Definition prizes : list Z := match in_prize inst with Some l => map rf l | None => repeat 0 num_locations end.
(** read.py:265-276 *)
Definition capacities : list (list Z) :=
  match in_capacity inst with
  | None => repeat [MAXV] num_vehicles
  | Some (Uniform c) => repeat (map rf c) num_vehicles
  | Some (Each rows) => map (map rf) rows
  end.
(** read.py:278-292 *)
Definition allowed_clients : list (list Z) :=
  match in_allowed inst with
  | None => repeat (map Z.of_nat (seq num_depots (num_locations - num_depots))) num_vehicles
  | Some rows => map (map (fun i => i - 1)) rows
  end.
(** read.py:294-299 *)
Definition vehicles_depots : res (list Z) :=
  match in_vdepot inst with
  | None => bind (get depot_idcs 0) (fun x => Ok (repeat x num_vehicles))
  | Some l => Ok (map (fun i => i - 1) l)
  end.
(** read.py:301-307 *)
Definition max_distances : res (list Z) :=
  match in_maxDistance inst with
  | None => Ok (repeat MAXV num_vehicles)
  | Some s => rounded (broadcast s num_vehicles)
  end.
(** read.py:309-316 *)
Definition shift_durations : res (list Z) :=
  match in_maxDuration inst with
  | None => Ok (repeat MAXV num_vehicles)
  | Some s => rounded (broadcast s num_vehicles)
  end.
(** read.py:318-320 *)
Definition max_reloads : res (list Z) :=
  broadcast (match in_maxReloads inst with Some s => s | None => Uniform SIZE_MAX end) num_vehicles.
(** read.py:322-324 *)
Definition fixed_costs : res (list Z) :=
  rounded (broadcast (match in_fixed inst with Some s => s | None => Uniform zero end) num_vehicles).
(** read.py:326-330 *)
Definition unit_distance_costs : res (list Z) :=
  broadcast (match in_unit inst with Some s => s | None => Uniform 1 end) num_vehicles.
(** read.py:332-350 *)
Definition exclusive_groups : list (list Z) :=
  match in_groups inst with
  | None => []
  | Some rows =>
      filter (fun g => (1 <? List.length g)%nat) (map (map (fun i => i - Z.of_nat num_depots - 1)) rows)
  end.

(** ** _ProblemDataBuilder *)
(** read.py:395-400 *)
Definition read_locations : list location := map (fun c => mk_location (fst c) (snd c) EmptyString) coords.
(** read.py:402-414; the other arguments have their defaults, Depot.h and bindings.cpp. *)
Definition read_depots : res (list depot) :=
  if (num_depots =? 0)%nat || negb (zlist_eqb depot_idcs (map Z.of_nat (seq 0 num_depots))) then Err InvalidArgument
  else mapM (fun i => make_depot i 0 MAXV 0 EmptyString) (seq 0 num_depots).

(** read.py:420-424: the group of each client. *)
Fixpoint assign_group (g : nat) (members : list Z) (l : list (option nat)) : res (list (option nat)) :=
  match members with
  | [] => Ok l
  | c :: more => bind (py_index (List.length l) c) (fun i => assign_group g more (upd l i (Some g)))
  end.
Fixpoint assign_groups (g : nat) (groups : list (list Z)) (l : list (option nat)) : res (list (option nat)) :=
  match groups with
  | [] => Ok l
  | members :: more => bind (assign_group g members l) (assign_groups (S g) more)
  end.
(** read.py:435-446: one client. *)
Definition read_client (idx2group : list (option nat)) (release : list Z) (idx : nat) : res client :=
  bind (get demands idx) (fun delivery =>
  bind (get backhauls idx) (fun pickup =>
  bind (get service_times idx) (fun service =>
  bind (get time_windows idx) (fun w =>
  bind (get release idx) (fun rel =>
  bind (get prizes idx) (fun prize =>
  bind (get idx2group (idx - num_depots)) (fun group =>
  make_client idx delivery pickup service (fst w) (snd w) rel prize
    ((prize =? 0) && match group with None => true | Some _ => false end) group EmptyString))))))).
(** read.py:416-448 *)
Definition read_clients : res (list client) :=
  let n := Z.to_nat num_clients in
  bind (assign_groups 0 exclusive_groups (repeat None n)) (fun idx2group =>
  bind release_times (fun release => mapM (read_client idx2group release) (seq num_depots n))).

(** The attributes of a vehicle, read.py:452-462. *)
Record vkey := mk_vkey {
  vk_capacity : list Z; vk_allowed : list Z; vk_reload : list Z; vk_depot : Z; vk_maxDistance : Z; vk_shift : Z;
  vk_maxReloads : Z; vk_fixed : Z; vk_unit : Z }.
Definition vkey_eqb (a b : vkey) : bool :=
  zlist_eqb (vk_capacity a) (vk_capacity b) && zlist_eqb (vk_allowed a) (vk_allowed b) && zlist_eqb (vk_reload a) (vk_reload b)
  && (vk_depot a =? vk_depot b) && (vk_maxDistance a =? vk_maxDistance b) && (vk_shift a =? vk_shift b)
  && (vk_maxReloads a =? vk_maxReloads b) && (vk_fixed a =? vk_fixed b) && (vk_unit a =? vk_unit b).
(** read.py:464-469 and zip: all lists have one entry for each vehicle. *)
Definition vehicles_data : res (list vkey) :=
  bind vehicles_depots (fun depots =>
  bind max_distances (fun dists =>
  bind shift_durations (fun shifts =>
  bind max_reloads (fun reloads =>
  bind fixed_costs (fun fixed =>
  bind unit_distance_costs (fun unit =>
  let n := num_vehicles in
  if forallb (Nat.eqb n)
       [List.length capacities; List.length allowed_clients; List.length reload_depots; List.length depots; List.length dists;
        List.length shifts; List.length reloads; List.length fixed; List.length unit]
  then Ok (map (fun v => mk_vkey (nth v capacities []) (nth v allowed_clients []) (nth v reload_depots []) (nth v depots 0)
                           (nth v dists 0) (nth v shifts 0) (nth v reloads 0) (nth v fixed 0) (nth v unit 0)) (seq 0 n))
  else Err InvalidArgument)))))).
(** read.py:471-476: a dictionary keeps the order in which its keys were first used. *)
Fixpoint add_vehicle (v : nat) (k : vkey) (types : list (vkey * list nat)) : list (vkey * list nat) :=
  match types with
  | [] => [(k, [v])]
  | (k', vs) :: more => if vkey_eqb k k' then (k', vs ++ [v]) :: more else (k', vs) :: add_vehicle v k more
  end.
Fixpoint group_vehicles (v : nat) (keys : list vkey) (types : list (vkey * list nat)) : list (vkey * list nat) :=
  match keys with
  | [] => types
  | k :: more => group_vehicles (S v) more (add_vehicle v k types)
  end.
(** read.py:603-610: profiles are numbered in the order in which their clients first appear. *)
Fixpoint profiles_of (seen rows : list (list Z)) : list (list Z) :=
  match rows with
  | [] => seen
  | r :: more => if existsb (zlist_eqb r) seen then profiles_of seen more else profiles_of (seen ++ [r]) more
  end.
Definition profiles : list (list Z) := profiles_of [] allowed_clients.
Fixpoint profile_idx (r : list Z) (l : list (list Z)) : res nat :=
  match l with
  | [] => Err OutOfRange
  | x :: more => if zlist_eqb r x then Ok 0%nat else bind (profile_idx r more) (fun i => Ok (S i))
  end.
(** The name of a type lists its vehicles. *)
Fixpoint join_names (vs : list nat) : text :=
  match vs with
  | [] => []
  | [v] => print_int (Z.of_nat v)
  | v :: more => print_int (Z.of_nat v) ++ ","%char :: join_names more
  end.
(** read.py:478-517; the defaults of unit_duration_cost, start_late, initial_load, max_overtime and
    unit_overtime_cost are those of VehicleType. *)
Definition read_vehicle (kv : vkey * list nat) : res vehicle :=
  let '(k, vs) := kv in
  bind (py_index (List.length time_windows) (vk_depot k)) (fun i =>
  bind (get time_windows i) (fun w =>
  bind (profile_idx (vk_allowed k) profiles) (fun profile =>
  bind (to_size (vk_depot k)) (fun depot =>
  bind (mapM to_size (vk_reload k)) (fun reload =>
  bind (is_size (vk_maxReloads k)) (fun _ =>
  make_vehicle (List.length vs) (vk_capacity k) depot depot (vk_fixed k) (fst w) (snd w) (vk_shift k) (vk_maxDistance k)
    (vk_unit k) 0 profile None [] reload (vk_maxReloads k) 0 0 (to_string (join_names vs)))))))).
Definition read_vehicles : res (list vehicle) :=
  bind vehicles_data (fun keys => mapM read_vehicle (group_vehicles 0 keys [])).

(** A one-dimensional mask of the positive entries, of length [n]. *)
Definition mask (n : nat) (rows : option (list (list Num))) (e : exn) : res (list bool) :=
  match rows with
  | None => Err e
  | Some rows =>
      if forallb (fun r => (List.length r =? 1)%nat) rows && (List.length rows =? n)%nat
      then Ok (map (fun r => match r with x :: _ => 0 <? rf x | [] => false end) rows)
      else Err e
  end.
Definition is_true (l : list bool) (i : nat) : bool := nth i l false.
(** read.py:520-531 *)
Definition vrpb_distances : res matrix :=
  let m := edge_weight in
  if String.eqb (in_type inst) "VRPB" then
    bind (mask (m_cols m) (in_backhaul inst) OutOfRange) (fun back =>
    bind (mask (m_cols m) demand_rows InvalidArgument) (fun line =>
    Ok (m_tab (m_rows m) (m_cols m) (fun i j =>
          if ((i =? 0)%nat && is_true back j) || (is_true back i && is_true line j) then MAX_VALUE else m_at m i j))))
  else Ok m.
Fixpoint set_true (l : list bool) (is : list Z) : res (list bool) :=
  match is with
  | [] => Ok l
  | i :: more => bind (py_index (List.length l) i) (fun i => set_true (upd l i true) more)
  end.
(** read.py:537-561: the matrix of one profile. *)
Definition profile_matrix (m : matrix) (clients : list Z) : res matrix :=
  if Z.of_nat (List.length clients) =? num_clients then Ok m
  else
    let depots := Nat.min num_depots num_locations in
    bind (set_true (repeat true depots ++ repeat false (num_locations - depots)) clients) (fun allowed =>
    if (m_rows m =? num_locations)%nat && (m_cols m =? num_locations)%nat then
      Ok (m_tab (m_rows m) (m_cols m) (fun i j =>
            if (i =? j)%nat then 0
            else if is_true allowed i && is_true allowed j then m_at m i j else MAX_VALUE))
    else Err OutOfRange).
(** read.py:519-570 *)
Definition read_matrices : res (list matrix) := bind vrpb_distances (fun m => mapM (profile_matrix m) profiles).

(** read.py:572-574 *)
Definition read_groups : res (list cgroup) :=
  mapM (fun g => bind (mapM to_size g) (fun cs => make_group cs true EmptyString)) exclusive_groups.

(** read.py:581-599: the row [idx] of the section. *)
Definition read_shipment (rows : list (pd_row Num)) (idx : nat) (r : pd_row Num) : res (list shipment) :=
  if (pd_pick r =? 0) && (0 <? pd_deliv r) then
    let dloc := pd_deliv r - Z.of_nat num_depots in
    bind (py_index (List.length rows) dloc) (fun i =>
    bind (get rows i) (fun q =>
    bind (to_size dloc) (fun dloc =>
    bind (make_shipment idx dloc (rf (pd_early r)) (rf (pd_late r)) (rf (pd_service r))
            (rf (pd_early q)) (rf (pd_late q)) (rf (pd_service q)) [rf (pd_demand r)] 0 true
            (to_string (print_int (pd_pick q) ++ list_ascii_of_string " -> " ++ print_int (pd_deliv r)))) (fun s => Ok [s]))))
  else Ok [].
(** read.py:576-601 *)
Definition read_shipments : res (list shipment) :=
  match in_pd inst with
  | None => Ok []
  | Some rows =>
      bind (mapM (fun ir => read_shipment rows (fst ir) (snd ir)) (combine (seq 0 (List.length rows)) rows))
           (fun ls => Ok (concat ls))
  end.

(** read.py:373-393, and read() itself, read.py:40-92 *)
Definition read : res pdata :=
  bind read_clients (fun clients =>
  bind read_depots (fun depots =>
  bind read_vehicles (fun vehicles =>
  bind read_matrices (fun dists =>
  bind read_groups (fun groups =>
  bind read_shipments (fun shipments =>
  make_pdata read_locations clients depots vehicles dists dists groups shipments)))))).
End Read.

(** ** Solution files *)
(** str.split with a comma *)
Fixpoint split_commas (cur s : text) : list text :=
  match s with
  | [] => [cur]
  | c :: more => if Ascii.eqb c "," then cur :: split_commas [] more else split_commas (cur ++ [c]) more
  end.
(** read.py:121 and cli.py:82: the vehicles of a type. *)
Definition vehicles_of (v : vehicle) : res (list Z) := mapM read_int (split_commas [] (list_ascii_of_string (v_name v))).
(** read.py:119-122 *)
Fixpoint put_types (l : list nat) (is : list Z) (t : nat) : res (list nat) :=
  match is with
  | [] => Ok l
  | i :: more => bind (py_index (List.length l) i) (fun i => put_types (upd l i t) more t)
  end.
Fixpoint veh2type (t : nat) (vs : list vehicle) (l : list nat) : res (list nat) :=
  match vs with
  | [] => Ok l
  | v :: more => bind (vehicles_of v) (fun is => bind (put_types l is t) (veh2type (S t) more))
  end.
(** read.py:124-139: later entries replace earlier ones. *)
Definition loc_entries (d : pdata) : list (nat * activity) :=
  map (fun i => (d_loc (p_depot d i), ADepot i)) (seq 0 (p_numDepots d))
  ++ map (fun i => (c_loc (p_client d i), AClient i)) (seq 0 (p_numClients d))
  ++ flat_map (fun i => [(st_loc (s_pickup (p_shipment d i)), APickup i); (st_loc (s_delivery (p_shipment d i)), ADelivery i)])
       (seq 0 (p_numShipments d)).
Definition loc2activity (d : pdata) : list (option activity) :=
  fold_left (fun l e => upd l (fst e) (Some (snd e))) (loc_entries d) (repeat None (p_numLocations d)).
(** read.py:146; a location without an activity makes Route's constructor raise TypeError. *)
Definition visit_activity (l : list (option activity)) (visit : nat) : res activity :=
  bind (get l visit) (fun a => match a with Some a => Ok a | None => Err InvalidArgument end).
(** read.py:141-147 *)
Fixpoint read_routes (d : pdata) (l : list (option activity)) (types : list nat) (idx : nat) (routes : list (list nat)) : res (list route) :=
  match routes with
  | [] => Ok []
  | [] :: more => read_routes d l types (S idx) more
  | route :: more =>
      bind (mapM (visit_activity l) route) (fun acts =>
      bind (get types idx) (fun t =>
      bind (make_route d acts t) (fun r =>
      bind (read_routes d l types (S idx) more) (fun rs => Ok (r :: rs)))))
  end.
(** read.py:95-149; the file's routes as vrplib returns them. *)
Definition read_solution (d : pdata) (routes : list (list nat)) : res solution :=
  bind (veh2type 0 (p_vehicles d) (repeat 0%nat (p_numVehicles d))) (fun types =>
  bind (read_routes d (loc2activity d) types 0 routes) (make_solution d)).

(** cli.py:42-67; the slice [1:-1] leaves out the depots at both ends. *)
Definition route2vrplib (d : pdata) (r : route) : list nat := removelast (List.tl (map (fun x => a_loc d (sa_act x)) (r_schedule r))).
(** cli.py:86-90: [queues] are the vehicles of each type that were not used yet; running out raises StopIteration. *)
Fixpoint write_routes (d : pdata) (rs : list route) (queues : list (list Z)) (lines : list (list nat)) : res (list (list nat)) :=
  match rs with
  | [] => Ok lines
  | r :: more =>
      bind (get queues (r_vehicleType r)) (fun q =>
      match q with
      | [] => Err RuntimeErr
      | v :: q =>
          bind (py_index (List.length lines) v) (fun i =>
          write_routes d more (upd queues (r_vehicleType r) q) (upd lines i (nth i lines [] ++ route2vrplib d r)))
      end)
  end.
(** cli.py:41-93: the visits of each line that starts with "Route". *)
Definition write_solution (d : pdata) (s : solution) : res (list (list nat)) :=
  if (p_numVehicleTypes d =? 1)%nat then Ok (map (route2vrplib d) (so_routes s))
  else
    bind (mapM vehicles_of (p_vehicles d)) (fun queues => write_routes d (so_routes s) queues (repeat [] (p_numVehicles d))).
