(** What a sequence of calls on a pyvrp.Model describes: each object added, with its references. *)
From Verif Require Import Base Data ModelPy.

Section Calls.
Variable ops : list op.
(** Identities of the objects added, in order. *)
Definition location_ids : list nat := flat_map (fun o => match o with AddLocation id _ => [id] | _ => [] end) ops.
Definition group_ids : list nat := flat_map (fun o => match o with AddGroup id _ _ => [id] | _ => [] end) ops.
Definition depot_ids : list nat := flat_map (fun o => match o with AddDepot id _ _ _ _ _ => [id] | _ => [] end) ops.
Definition profile_ids : list nat := flat_map (fun o => match o with AddProfile id => [id] | _ => [] end) ops.
(** The calls that add an object of a kind, in order. *)
Definition location_calls := filter (fun o => match o with AddLocation _ _ => true | _ => false end) ops.
Definition client_calls := filter (fun o => match o with AddClient _ _ _ _ _ _ _ _ _ _ _ => true | _ => false end) ops.
Definition shipment_calls := filter (fun o => match o with AddShipment _ _ _ _ _ _ _ _ _ _ _ _ => true | _ => false end) ops.
Definition depot_calls := filter (fun o => match o with AddDepot _ _ _ _ _ _ => true | _ => false end) ops.
Definition group_calls := filter (fun o => match o with AddGroup _ _ _ => true | _ => false end) ops.
Definition vehicle_calls :=
  filter (fun o => match o with AddVehicle _ _ _ _ _ _ _ _ _ _ _ _ _ _ _ _ _ _ _ => true | _ => false end) ops.

(** Index [i] in the data stands for the object [id]. *)
Definition refers (ids : list nat) (i id : nat) : Prop := nth_error ids i = Some id.
Definition refers_or_first (ids : list nat) (i : nat) (id : option nat) : Prop :=
  match id with None => i = 0%nat | Some id => refers ids i id end.
Definition same_load (a b : list Z) : Prop := forall dim, dimv a dim = dimv b dim.

Definition location_added (o : op) (x : location) : Prop := match o with AddLocation _ l => x = l | _ => False end.
Definition client_added (o : op) (c : client) : Prop :=
  match o with
  | AddClient location delivery pickup service early late release prize required group name =>
      refers location_ids (c_loc c) location /\ same_load (c_delivery c) delivery /\ same_load (c_pickup c) pickup /\
      c_service c = service /\ c_early c = early /\ c_late c = late /\ c_release c = release /\ c_prize c = prize /\
      c_required c = required /\ c_name c = name /\
      match group with None => c_group c = None | Some g => exists i, c_group c = Some i /\ refers group_ids i g end
  | _ => False
  end.
Definition shipment_added (o : op) (s : shipment) : Prop :=
  match o with
  | AddShipment ploc dloc pearly plate pservice dearly dlate dservice amount prize required name =>
      refers location_ids (st_loc (s_pickup s)) ploc /\ refers location_ids (st_loc (s_delivery s)) dloc /\
      st_early (s_pickup s) = pearly /\ st_late (s_pickup s) = plate /\ st_service (s_pickup s) = pservice /\
      st_early (s_delivery s) = dearly /\ st_late (s_delivery s) = dlate /\ st_service (s_delivery s) = dservice /\
      s_amount s = amount /\ s_prize s = prize /\ s_required s = required /\ s_name s = name
  | _ => False
  end.
Definition depot_added (o : op) (x : depot) : Prop :=
  match o with
  | AddDepot _ location early late service name =>
      refers location_ids (d_loc x) location /\ d_early x = early /\ d_late x = late /\ d_service x = service /\ d_name x = name
  | _ => False
  end.
(** The members of a group are the clients that were added with it. *)
Definition in_group (id i : nat) : bool :=
  match nth_error client_calls i with
  | Some (AddClient _ _ _ _ _ _ _ _ _ (Some g) _) => (g =? id)%nat
  | _ => false
  end.
Definition group_added (o : op) (g : cgroup) : Prop :=
  match o with
  | AddGroup id required name =>
      g_required g = required /\ g_name g = name /\ g_clients g = filter (in_group id) (seq 0 (length client_calls))
  | _ => False
  end.
Definition vehicle_added (o : op) (v : vehicle) : Prop :=
  match o with
  | AddVehicle numAvailable capacity start endd fixedCost early late shift maxDistance unitDistance unitDuration
      profile startLate initial reload maxReloads maxOvertime unitOvertime name =>
      v_numAvailable v = numAvailable /\ same_load (v_capacity v) capacity /\
      refers_or_first depot_ids (v_start v) start /\ refers_or_first depot_ids (v_end v) endd /\
      v_fixedCost v = fixedCost /\ v_early v = early /\ v_late v = late /\ v_shift v = shift /\
      v_maxDistance v = maxDistance /\ v_unitDistance v = unitDistance /\ v_unitDuration v = unitDuration /\
      refers_or_first profile_ids (v_profile v) profile /\
      v_startLate v = match startLate with Some x => x | None => late end /\
      same_load (v_initialLoad v) initial /\ Forall2 (refers depot_ids) (v_reload v) reload /\
      v_maxReloads v = maxReloads /\ v_maxOvertime v = maxOvertime /\ v_unitOvertime v = unitOvertime /\ v_name v = name
  | _ => False
  end.
(** Edges added for all profiles, and those of one profile. *)
Definition shared_edges : list edge :=
  flat_map (fun o => match o with AddEdge a b x y None => [mk_edge a b x y] | _ => [] end) ops.
End Calls.
Definition own_edges (id : nat) (ops : list op) : list edge :=
  flat_map (fun o => match o with AddEdge a b x y (Some p) => if (p =? id)%nat then [mk_edge a b x y] else [] | _ => [] end) ops.
(** The edges added to profile [id] once it was part of the model. *)
Fixpoint profile_edges (id : nat) (ops : list op) : list edge :=
  match ops with
  | [] => []
  | AddProfile p :: more => if (p =? id)%nat then own_edges id more else profile_edges id more
  | _ :: more => profile_edges id more
  end.

Record described (ops : list op) (missing : Z) (d : pdata) : Prop := mk_described {
  ds_locations : Forall2 location_added (location_calls ops) (p_locations d);
  ds_clients : Forall2 (client_added ops) (client_calls ops) (p_clients d);
  ds_shipments : Forall2 (shipment_added ops) (shipment_calls ops) (p_shipments d);
  ds_depots : Forall2 (depot_added ops) (depot_calls ops) (p_depots d);
  ds_groups : Forall2 (group_added ops) (group_calls ops) (p_groups d);
  ds_vehicles : Forall2 (vehicle_added ops) (vehicle_calls ops) (p_vehicles d);
  ds_profiles : length (p_dists d) = Nat.max 1 (length (profile_ids ops)) /\ length (p_durs d) = Nat.max 1 (length (profile_ids ops));
  ds_edges : forall p i j a b, (p < Nat.max 1 (length (profile_ids ops)))%nat ->
    refers (location_ids ops) i a -> refers (location_ids ops) j b ->
    let edges := shared_edges ops ++ match nth_error (profile_ids ops) p with Some id => profile_edges id ops | None => [] end in
    let between := filter (fun e => (e_frm e =? a)%nat && (e_to e =? b)%nat) edges in
    let fill := if (i =? j)%nat then 0 else Z.min missing MAX_VALUE in
    p_dist d p i j = last (map e_dist between) fill /\ p_dur d p i j = last (map e_dur between) fill }.

(** The model after a sequence of successful calls; new objects have identities of their own. *)
Inductive after : list op -> pymodel -> Prop :=
| af_empty : after [] empty_model
| af_call ops m o m' : after ops m -> fresh m o -> int64_late o -> step m o = Ok m' -> after (ops ++ [o]) m'.

(** The call refers to a location, group, depot or profile that was not added. *)
Definition missing_ref (ids : list nat) (id : option nat) : Prop := match id with Some id => ~ In id ids | None => False end.
Definition unknown_reference (ops : list op) (o : op) : Prop :=
  match o with
  | AddClient location _ _ _ _ _ _ _ _ group _ => missing_ref (group_ids ops) group \/ ~ In location (location_ids ops)
  | AddShipment ploc dloc _ _ _ _ _ _ _ _ _ _ => ~ In ploc (location_ids ops) \/ ~ In dloc (location_ids ops)
  | AddDepot _ location _ _ _ _ => ~ In location (location_ids ops)
  | AddVehicle _ _ start endd _ _ _ _ _ _ _ profile _ _ reload _ _ _ _ =>
      missing_ref (depot_ids ops) start \/ missing_ref (depot_ids ops) endd \/ missing_ref (profile_ids ops) profile \/
      exists r, In r reload /\ ~ In r (depot_ids ops)
  | _ => False
  end.
