(** C51-C53: reading instances, what restrictions in the file mean for routes, and solution files.  The numbers of
    the file are of any type [Num], with any rounding function [rf] to integers; ReadSpec.v says what the entries of
    a file mean. *)
From Coq Require Import Ascii.
From Coq Require Import String List Permutation.
From Verif Require Import Base DurationSegment Data DataCtor ModelPy Valid Route RouteSpec Cost Solution SolutionFacts Equal
  Read ReadFacts ReadSpec ReadSol ReadData ReadVeh ReadMat ReadRoute ReadOk.
Import ListNotations.
Local Open Scope Z_scope.
Notation length := List.length.

(** ** C51: the data are those of the file *)
Theorem C51_clients : forall Num zero rf (inst : instance Num) d, read Num zero rf inst = Ok d ->
  p_numClients d = file_clients Num inst /\
  forall i, (i < p_numClients d)%nat -> client_is Num zero rf inst (file_depots Num inst + i) (p_client d i).
Proof. exact clients_read. Qed.
Print Assumptions C51_clients.

(** [belongs d v t]: the name of type [t] lists vehicle [v]. *)
Theorem C51_vehicles : forall Num zero rf (inst : instance Num) d, read Num zero rf inst = Ok d ->
  p_numVehicles d = file_vehicles Num inst /\
  (forall v, (v < file_vehicles Num inst)%nat -> exists t, belongs d v t /\ (forall t', belongs d v t' -> t' = t) /\ vehicle_is Num zero rf inst v (p_vehicle d t)) /\
  (forall t, (t < p_numVehicleTypes d)%nat -> exists vs, vs <> [] /\ NoDup vs /\ (forall v, In v vs <-> belongs d v t) /\ v_numAvailable (p_vehicle d t) = length vs) /\
  (forall v t, belongs d v t -> (v < file_vehicles Num inst)%nat) /\
  (forall v w t u, belongs d v t -> belongs d w u -> vehicle_is Num zero rf inst v (p_vehicle d u) ->
     match in_allowed inst with None => True | Some rows => nth v rows [] = nth w rows [] end -> t = u).
Proof. exact vehicles_read. Qed.
Print Assumptions C51_vehicles.

Theorem C51_groups : forall Num zero rf (inst : instance Num) d, read Num zero rf inst = Ok d ->
  p_numGroups d = length (file_groups Num inst) /\
  (forall g, (g < p_numGroups d)%nat -> g_required (p_group d g) = true /\
     map (fun i => Z.of_nat (file_depots Num inst + i) + 1) (g_clients (p_group d g)) = nth g (file_groups Num inst) []) /\
  (forall i g, (i < p_numClients d)%nat -> c_group (p_client d i) = Some g <-> (g < p_numGroups d)%nat /\ In i (g_clients (p_group d g))) /\
  groups_nodup d /\ groups_known d.
Proof. exact groups_read. Qed.
Print Assumptions C51_groups.

(** With a single depot, shipments go from the location of their row to the location that the row names. *)
Theorem C51_shipments : forall Num zero rf (inst : instance Num) d rows, read Num zero rf inst = Ok d -> in_pd inst = Some rows ->
  file_depots Num inst = 1%nat ->
  p_numShipments d = length (pickup_rows Num zero rows) /\
  forall s, (s < p_numShipments d)%nat -> let i := nth s (pickup_rows Num zero rows) 0%nat in
    shipment_is Num zero rf rows i (pd_deliv (nth i rows (dummy_row Num zero)) - 1) (p_shipment d s).
Proof.
  intros Num zero rf inst d rows H E E1. destruct (shipments_read Num zero rf inst d rows H E) as [H1 H2]. rewrite E1 in H2. exact (conj H1 H2).
Qed.
Print Assumptions C51_shipments.
Theorem C51_no_shipments : forall Num zero rf (inst : instance Num) d, read Num zero rf inst = Ok d -> in_pd inst = None -> p_numShipments d = 0%nat.
Proof. exact no_shipments. Qed.
Print Assumptions C51_no_shipments.

(** Edge weights are distances and durations, other than where the vehicle is not allowed. *)
Theorem C51_matrices : forall Num zero rf (inst : instance Num) d v t, read Num zero rf inst = Ok d ->
  file_sized Num inst -> allowed_proper Num inst -> belongs d v t ->
  p_numLocations d = in_dimension inst /\
  forall i j, (i < in_dimension inst)%nat -> (j < in_dimension inst)%nat -> let x := p_vehicle d t in
    p_dur d (v_profile x) i j = p_dist d (v_profile x) i j /\
    (i = j -> p_dist d (v_profile x) i j = 0) /\
    (i <> j -> may_visit Num inst v i -> may_visit Num inst v j -> ~ backward Num rf inst i j -> p_dist d (v_profile x) i j = file_edge Num rf inst i j) /\
    (i <> j -> ~ may_visit Num inst v i \/ ~ may_visit Num inst v j \/ backward Num rf inst i j -> p_dist d (v_profile x) i j = MAX_VALUE).
Proof.
  intros Num zero rf inst d v t H Hs Ha Hb. pose proof (locations_num Num zero rf inst d H Hs) as El. split; [exact El|].
  intros i j Hi Hj. apply (matrices_read Num zero rf inst d v t H Ha Hb); lia.
Qed.
Print Assumptions C51_matrices.

(** A file whose sections are complete and consistent ([file_ok], ReadOk.v) is accepted. *)
Theorem C51_accepts : forall Num zero rf (inst : instance Num), file_ok Num zero rf inst -> exists d, read Num zero rf inst = Ok d.
Proof. exact read_ok. Qed.
Print Assumptions C51_accepts.

(** ** C52: restrictions of the file act through the distance of routes *)
Theorem C52_not_allowed : forall Num zero rf (inst : instance Num) d, read Num zero rf inst = Ok d ->
  file_sized Num inst -> allowed_proper Num inst -> (forall i j, 0 <= file_edge Num rf inst i j) ->
  forall v t mid r, belongs d v t -> make_route d mid t = Ok r ->
  (exists a, In a mid /\ ~ may_visit Num inst v (a_loc d a)) -> MAX_VALUE <= r_distance r.
Proof. intros Num zero rf inst d H Hs Ha Hp v t mid r Hb Hr. exact (allowed_route Num zero rf inst d H Hs Ha v t Hb mid r Hr Hp). Qed.
Print Assumptions C52_not_allowed.

(** Otherwise the distance is the sum of the file's edge weights. *)
Theorem C52_distance : forall Num zero rf (inst : instance Num) d, read Num zero rf inst = Ok d ->
  file_sized Num inst -> allowed_proper Num inst ->
  forall v t mid r, belongs d v t -> make_route d mid t = Ok r -> let locs := route_locs d (p_vehicle d t) mid in
  (forall a, In a mid -> may_visit Num inst v (a_loc d a)) ->
  (forall l1 a b l2, locs = l1 ++ a :: b :: l2 -> a <> b -> ~ backward Num rf inst a b) ->
  r_distance r = path_sum (fun i j => if (i =? j)%nat then 0 else file_edge Num rf inst i j) locs.
Proof.
  intros Num zero rf inst d H Hs Ha v t mid r Hb Hr locs Hv Hn. apply (plain_route Num zero rf inst d H Hs Ha v t Hb mid r Hr Hv).
  intros a b (l1 & l2 & E). exact (Hn l1 a b l2 E).
Qed.
Print Assumptions C52_distance.

(** With backhauls and a single depot, routes serve all linehaul clients first, if there are any. *)
Theorem C52_backhauls_last : forall Num zero rf (inst : instance Num) d, read Num zero rf inst = Ok d ->
  file_sized Num inst -> allowed_proper Num inst -> (forall i j, 0 <= file_edge Num rf inst i j) ->
  in_type inst = "VRPB"%string -> file_depots Num inst = 1%nat ->
  let line a := 0 < file_amount Num rf (file_linehaul Num inst) (a_loc d a) 0 in
  let back a := 0 < file_amount Num rf (in_backhaul inst) (a_loc d a) 0 in
  forall v t mid r, belongs d v t -> make_route d mid t = Ok r ->
  (forall a, In a mid -> back a -> ~ line a) -> (forall a, In a mid -> back a \/ line a) -> r_distance r < MAX_VALUE ->
  (forall a l, mid = a :: l -> a_loc d a <> 0%nat -> ~ back a) /\
  (forall l1 a l2 b l3, mid = l1 ++ a :: l2 ++ b :: l3 -> back a -> ~ line b).
Proof.
  intros Num zero rf inst d H Hs Ha Hp Ht Hd line back v t mid r Hb Hr. exact (backhaul_first Num zero rf inst d H Hs Ha v t Hb mid r Hr Hp Ht Hd).
Qed.
Print Assumptions C52_backhauls_last.

(** ** C53: solution files *)
(** A solution that is written to a file and read again is the same up to the order of its routes. *)
Theorem C53_round_trip : forall Num zero rf (inst : instance Num) d, read Num zero rf inst = Ok d ->
  match in_pd inst with None => True | Some rows => pairs_proper Num zero inst rows end ->
  forall routes s, Forall (built d) routes -> make_solution d routes = Ok s ->
  exists lines s', write_solution d s = Ok lines /\ read_solution d lines = Ok s' /\
    solution_eqb s' s = true /\ Permutation (so_routes s') (so_routes s) /\ forall ev, solution_penalised ev s' = solution_penalised ev s.
Proof.
  intros Num zero rf inst d H Hp routes s Hr Hs. destruct (groups_read Num zero rf inst d H) as (_ & _ & _ & G1 & G2).
  destruct (read_fleet_named Num zero rf inst d H) as [ms Hf]. apply (solution_file d ms routes s G1 G2 Hf); [|exact Hr|exact Hs].
  apply (read_places Num zero rf inst d H). intros rows E. rewrite E in Hp. exact Hp.
Qed.
Print Assumptions C53_round_trip.

(** ** Examples *)
Definition ident (x : Z) : Z := x.
(** Files with few sections. *)
Definition small (type : string) (dim depots vehicles : nat) (edge backhaul demand : option (list (list Z))) (allowed groups : option (list (list Z)))
    (pd : option (list (pd_row Z))) : instance Z :=
  mk_instance type dim (Some (map Z.of_nat (seq 0 depots))) (Some vehicles)
    (dim, dim, match edge with Some rows => concat rows | None => flat_map (fun i => map (fun j => if (i =? j)%nat then 0 else 7) (seq 0 dim)) (seq 0 dim) end)
    backhaul demand None None (Some (Uniform 2)) None None None (Some (Uniform [10])) allowed None None None None None None None groups pd.

(** Two of the three vehicles may not visit the last client; the last two clients form a group. *)
Definition ex_file : instance Z :=
  small "CVRP" 4 1 3 None None (Some [[0]; [3]; [4]; [5]]) (Some [[2; 3; 4]; [2; 3]; [2; 3]]) (Some [[1]; [2]; [3; 4]]) None.
Definition ex_data : pdata := match read Z 0 ident ex_file with Ok d => d | Err _ => mk_pdata [] [] [] [] [] [] [] [] end.
Example ex_read : read Z 0 ident ex_file = Ok ex_data.
Proof. vm_compute. reflexivity. Qed.
Example ex_numbers : (p_numClients ex_data, p_numVehicleTypes ex_data, p_numVehicles ex_data, p_numGroups ex_data) = (3, 2, 3, 1)%nat /\
  map v_numAvailable (p_vehicles ex_data) = [1; 2]%nat /\ map v_name (p_vehicles ex_data) = ["0"; "1,2"]%string /\
  map c_required (p_clients ex_data) = [true; false; false].
Proof. vm_compute. repeat split; reflexivity. Qed.
Example ex_sized : file_sized Z ex_file /\ allowed_proper Z ex_file.
Proof.
  split; [exact I|]. split; [reflexivity|]. repeat constructor; try (vm_compute; reflexivity || discriminate).
  all: intros Hx; repeat (destruct Hx as [Hx|Hx]; [discriminate|]); destruct Hx.
Qed.
Example ex_edges : forall i j, 0 <= file_edge Z ident ex_file i j.
Proof.
  intros i j. unfold file_edge. change (in_edge ex_file) with (4%nat, 4%nat, [0; 7; 7; 7; 7; 0; 7; 7; 7; 7; 0; 7; 7; 7; 7; 0]). cbv iota beta.
  generalize (4 * i + j)%nat. intros n. do 16 (destruct n as [|n]; [discriminate|]). destruct n; discriminate.
Qed.
Example ex_belongs : belongs ex_data 0 0 /\ belongs ex_data 2 1.
Proof.
  split; (split; [vm_compute; lia|]); [exists [0]|exists [1; 2]]; (split; [vm_compute; reflexivity|cbn; auto]).
Qed.
Example ex_ok : file_ok Z 0 ident ex_file.
Proof.
  assert (Fin : forall P : nat -> Prop, P 0%nat -> P 1%nat -> P 2%nat -> P 3%nat -> forall i, (i < 4)%nat -> P i).
  { intros P P0 P1 P2 P3 i Hi. destruct i as [|[|[|[|i]]]]; [exact P0|exact P1|exact P2|exact P3|lia]. }
  assert (Fin3 : forall P : nat -> Prop, P 0%nat -> P 1%nat -> P 2%nat -> forall i, (i < 3)%nat -> P i).
  { intros P P0 P1 P2 i Hi. destruct i as [|[|[|i]]]; [exact P0|exact P1|exact P2|lia]. }
  constructor.
  - split; [discriminate|reflexivity].
  - vm_compute. lia.
  - exact I.
  - split; reflexivity.
  - apply Fin; reflexivity.
  - split; [reflexivity|exact I].
  - exact I.
  - exact I.
  - exact I.
  - exact I.
  - intros loc k [_ Hl]. change (loc < 4)%nat in Hl. revert loc Hl. apply Fin; (split; [destruct k as [|[|k]]; vm_compute; discriminate|vm_compute; discriminate]).
  - intros loc [_ Hl]. change (loc < 4)%nat in Hl. revert loc Hl. apply Fin; vm_compute; repeat split; discriminate.
  - apply Fin; vm_compute; repeat split; discriminate.
  - vm_compute. lia.
  - vm_compute. repeat split; exact I.
  - apply Fin3; (split; [vm_compute; constructor; [discriminate|constructor]|vm_compute; repeat split; discriminate]).
  - exact I.
  - exact I.
  - vm_compute. repeat constructor; discriminate.
  - intros loc v [_ Hl]. change (loc < 4)%nat in Hl. intros Hv. change (v < 3)%nat in Hv. revert loc Hl. apply Fin; revert v Hv; apply Fin3; reflexivity.
  - intros v w _ _. reflexivity.
  - discriminate.
  - vm_compute. constructor; [|constructor]. split; [repeat constructor; cbn; intros H; repeat destruct H as [H|H]; discriminate || contradiction|repeat constructor; discriminate].
  - intros g h i Hg Hh. change (g < 1)%nat in Hg. change (h < 1)%nat in Hh. lia.
  - discriminate.
Qed.
(** A route of either type, one of which is prohibited. *)
Example ex_routes : match make_route ex_data [AClient 0; AClient 2] 0, make_route ex_data [AClient 0; AClient 2] 1 with
  | Ok r, Ok r' => r_distance r = 21 /\ MAX_VALUE <= r_distance r' | _, _ => False end.
Proof. vm_compute. split; [reflexivity|discriminate]. Qed.
Example ex_visits : ~ may_visit Z ex_file 2 (a_loc ex_data (AClient 2)) /\ forall i, (i < 3)%nat -> may_visit Z ex_file 0 (a_loc ex_data (AClient i)).
Proof.
  split.
  - intros [H|H]; vm_compute in H; [lia|]. repeat destruct H as [H|H]; lia || discriminate.
  - intros i Hi. right. destruct i as [|[|[|i]]]; [vm_compute; auto|vm_compute; auto|vm_compute; auto|lia].
Qed.
(** The solution file of a solution with routes of both types. *)
Example ex_solution : exists r1 r2 s s', make_route ex_data [AClient 1] 1 = Ok r1 /\ make_route ex_data [AClient 0] 0 = Ok r2 /\
  make_solution ex_data [r1; r2] = Ok s /\ write_solution ex_data s = Ok [[1]; [2]; []]%nat /\
  read_solution ex_data [[1]; [2]; []]%nat = Ok s' /\ so_routes s = [r1; r2] /\ so_routes s' = [r2; r1].
Proof. vm_compute. do 4 eexists. repeat (split; [reflexivity|]). reflexivity. Qed.

(** Backhauls: the last client is a backhaul. *)
Definition ex_back : instance Z := small "VRPB" 4 1 1 None (Some [[0]; [0]; [0]; [5]]) (Some [[0]; [3]; [4]; [0]]) None None None.
Definition ex_back_data : pdata := match read Z 0 ident ex_back with Ok d => d | Err _ => mk_pdata [] [] [] [] [] [] [] [] end.
Example ex_back_read : read Z 0 ident ex_back = Ok ex_back_data /\ belongs ex_back_data 0 0.
Proof. split; [vm_compute; reflexivity|]. split; [vm_compute; lia|]. exists [0]. split; [vm_compute; reflexivity|left; reflexivity]. Qed.
Example ex_back_routes :
  match make_route ex_back_data [AClient 0; AClient 1; AClient 2] 0, make_route ex_back_data [AClient 0; AClient 2; AClient 1] 0 with
  | Ok r, Ok r' => r_distance r = 28 /\ MAX_VALUE <= r_distance r' | _, _ => False end.
Proof. vm_compute. split; [reflexivity|discriminate]. Qed.

(** Shipments: from the second location to the third. *)
Definition ex_rows : list (pd_row Z) := [mk_pd_row 0 0 100 0 0 0; mk_pd_row 4 0 50 1 0 3; mk_pd_row (-4) 10 60 2 2 0].
Definition ex_pd : instance Z := small "PDP" 3 1 1 None None None None None (Some ex_rows).
Definition ex_pd_data : pdata := match read Z 0 ident ex_pd with Ok d => d | Err _ => mk_pdata [] [] [] [] [] [] [] [] end.
Example ex_pd_read : read Z 0 ident ex_pd = Ok ex_pd_data /\ pairs_proper Z 0 ex_pd ex_rows /\
  map (fun s => (st_loc (s_pickup s), st_loc (s_delivery s))) (p_shipments ex_pd_data) = [(1, 2)]%nat.
Proof.
  split; [vm_compute; reflexivity|]. split; [|vm_compute; reflexivity]. constructor; [reflexivity|reflexivity|].
  intros i Hi r Hp. destruct i as [|[|[|i]]]; [discriminate Hp| |discriminate Hp|cbn in Hi; lia].
  split; [lia|]. split; [vm_compute; split; discriminate|vm_compute; reflexivity].
Qed.

(** ** Where the claims fail *)
(** With two depots, the delivery of a shipment is read from the row before the one that the file names. *)
Definition bad_rows : list (pd_row Z) :=
  [mk_pd_row 0 0 100 0 0 0; mk_pd_row 0 0 100 0 0 0; mk_pd_row 4 0 50 1 0 4; mk_pd_row (-4) 10 60 2 3 0].
Theorem C51_shipments_refuted : exists (inst : instance Z) d rows, read Z 0 ident inst = Ok d /\ in_pd inst = Some rows /\
  file_depots Z inst = 2%nat /\ nth 0 (pickup_rows Z 0 rows) 0%nat = 2%nat /\ pd_deliv (nth 2 rows (dummy_row Z 0)) = 4 /\
  st_loc (s_pickup (p_shipment d 0)) = 2%nat /\ st_loc (s_delivery (p_shipment d 0)) = 2%nat.
Proof.
  exists (small "PDP" 4 2 1 None None None None None (Some bad_rows)). eexists. exists bad_rows. split; [vm_compute; reflexivity|]. vm_compute. repeat split; reflexivity.
Qed.
Print Assumptions C51_shipments_refuted.

(** With two depots, routes from the second may start with a backhaul client, without a prohibitive distance. *)
Theorem C52_backhaul_depots_refuted : exists (inst : instance Z) d r v, read Z 0 ident inst = Ok d /\ in_type inst = "VRPB"%string /\
  make_route d [AClient 0] v = Ok r /\ 0 < file_amount Z ident (in_backhaul inst) (a_loc d (AClient 0)) 0 /\ r_distance r < MAX_VALUE.
Proof.
  exists (mk_instance "VRPB" 4 (Some [0; 1]) (Some 2%nat) (4%nat, 4%nat, [0; 7; 7; 7; 7; 0; 7; 7; 7; 7; 0; 7; 7; 7; 7; 0])
    (Some [[0]; [0]; [5]; [0]]) (Some [[0]; [0]; [0]; [3]]) None None None None None None (Some (Uniform [10])) None None (Some [1; 2]) None None None None None None None).
  eexists. eexists. exists 1%nat. split; [vm_compute; reflexivity|]. split; [reflexivity|]. split; [vm_compute; reflexivity|]. vm_compute. split; reflexivity.
Qed.
Print Assumptions C52_backhaul_depots_refuted.

(** A list of allowed clients with a duplicate and as many entries as there are clients does not restrict the vehicle. *)
Theorem C52_duplicates_refuted : exists (inst : instance Z) d r, read Z 0 ident inst = Ok d /\ belongs d 0 0 /\ file_sized Z inst /\
  make_route d [AClient 1] 0 = Ok r /\ ~ may_visit Z inst 0 (a_loc d (AClient 1)) /\ r_distance r < MAX_VALUE.
Proof.
  exists (small "CVRP" 3 1 1 None None (Some [[0]; [3]; [4]]) (Some [[2; 2]]) None None). eexists. eexists. split; [vm_compute; reflexivity|].
  split; [split; [vm_compute; lia|exists [0]; split; [vm_compute; reflexivity|left; reflexivity]]|]. split; [exact I|]. split; [vm_compute; reflexivity|].
  split; [|vm_compute; reflexivity]. intros [H|H]; vm_compute in H; [lia|]. repeat destruct H as [H|H]; lia || discriminate.
Qed.
Print Assumptions C52_duplicates_refuted.
