(** Pickling, bindings.cpp: [__getstate__] makes a tuple, [__setstate__] calls a constructor. *)
From Verif Require Import Base DurationSegment Data LoadSegment Valid Route Cost Solution SolutionFacts
  DataCtor Pwl Bitset MatrixFacts.

(** bindings.cpp:91-99 *)
Definition pickle_activity (a : activity) : Z * nat :=
  (match a with ADepot _ => 0 | AClient _ => 1 | APickup _ => 2 | ADelivery _ => 3 end, a_idx a).
Definition unpickle_activity (t : Z * nat) : activity :=
  match fst t with 0 => ADepot (snd t) | 1 => AClient (snd t) | 2 => APickup (snd t) | _ => ADelivery (snd t) end.

(** bindings.cpp:144-157, with std::bitset's conversions to and from unsigned long long. *)
Fixpoint to_ullong (b : block) : Z :=
  match b with [] => 0 | x :: more => (if x : bool then 1 else 0) + 2 * to_ullong more end.
Definition of_ullong (z : Z) : block := map (fun i => Z.testbit z (Z.of_nat i)) (seq 0 BLOCK).
Definition pickle_bitset (b : bitset) : list Z := map to_ullong b.
Definition unpickle_bitset (t : list Z) : bitset := map of_ullong t.

(** bindings.cpp:183-196 *)
Definition pickle_pwl (f : pwl) : list Z * list (Z * Z) := (pw_breaks f, pw_segs f).
Definition unpickle_pwl (t : list Z * list (Z * Z)) : res pwl := pwl_of_breaks (fst t) (snd t).

(** bindings.cpp:268-299 *)
Definition pickle_client (c : client) :=
  (c_loc c, c_delivery c, c_pickup c, c_service c, c_early c, c_late c, c_release c, c_prize c,
   c_required c, c_group c, c_name c).
Definition unpickle_client t : res client :=
  let '(l, de, pi, se, ea, la, re, pr, rq, gr, nm) := t in make_client l de pi se ea la re pr rq gr nm.

(** bindings.cpp:323-339 *)
Definition pickle_depot (x : depot) := (d_loc x, d_early x, d_late x, d_service x, d_name x).
Definition unpickle_depot t : res depot := let '(l, e, la, s, n) := t in make_depot l e la s n.

(** bindings.cpp:359-375 *)
Definition pickle_step (s : step) := (st_loc s, st_early s, st_late s, st_service s).
Definition unpickle_step t : res step := let '(l, e, la, s) := t in make_step l e la s.

(** bindings.cpp:420-442: the steps are pickled on their own. *)
Definition pickle_shipment (s : shipment) :=
  (pickle_step (s_pickup s), pickle_step (s_delivery s), s_amount s, s_prize s, s_required s, s_name s).
Definition unpickle_shipment t : res shipment :=
  let '(p, dl, am, pr, rq, nm) := t in
  match unpickle_step p with
  | Err e => Err e
  | Ok p => match unpickle_step dl with
            | Err e => Err e
            | Ok dl => Ok (make_shipment_steps p dl am pr rq nm)
            end
  end.

(** bindings.cpp:463-475 *)
Definition pickle_group (g : cgroup) := (g_clients g, g_required g, g_name g).
Definition unpickle_group t : res cgroup := let '(c, r, n) := t in make_group c r n.

(** bindings.cpp:581-632 *)
Definition pickle_vehicle (v : vehicle) :=
  (v_numAvailable v, v_capacity v, v_start v, v_end v, v_fixedCost v, v_early v, v_late v, v_shift v,
   v_maxDistance v, v_unitDistance v, v_unitDuration v, v_profile v, v_startLate v, v_initialLoad v,
   v_reload v, v_maxReloads v, v_maxOvertime v, v_unitOvertime v, v_name v).
Definition unpickle_vehicle t : res vehicle :=
  let '(n, cap, s, e, f, te, tl, sh, md, ud, ut, p, sl, il, r, mr, mo, uo, nm) := t in
  make_vehicle n cap s e f te tl sh md ud ut p (Some sl) il r mr mo uo nm.

(** bindings.cpp:791-823; the matrices travel as two-dimensional arrays (bindings.h:29-73). *)
Fixpoint all_ok {A B} (f : A -> res B) (l : list A) : res (list B) :=
  match l with
  | [] => Ok []
  | x :: more => match f x with
                 | Err e => Err e
                 | Ok y => match all_ok f more with Err e => Err e | Ok ys => Ok (y :: ys) end
                 end
  end.
Definition pickle_matrix (m : matrix) : nat * list (list Z) := (m_cols m, m_to_array m).
Definition unpickle_matrix (t : nat * list (list Z)) : matrix := m_of_array (fst t) (snd t).
Definition pickle_location (l : location) := (l_x l, l_y l, l_name l).
Definition unpickle_location t : location := let '(x, y, n) := t in mk_location x y n.
Definition pickle_pdata (d : pdata) :=
  (map pickle_location (p_locations d), map pickle_client (p_clients d), map pickle_depot (p_depots d),
   map pickle_vehicle (p_vehicles d), map pickle_matrix (p_dists d), map pickle_matrix (p_durs d),
   map pickle_group (p_groups d), map pickle_shipment (p_shipments d)).
Definition unpickle_pdata t : res pdata :=
  let '(ls, cs, xs, vs, di, du, gs, ss) := t in
  match all_ok unpickle_client cs, all_ok unpickle_depot xs, all_ok unpickle_vehicle vs,
        all_ok unpickle_group gs, all_ok unpickle_shipment ss with
  | Ok cs, Ok xs, Ok vs, Ok gs, Ok ss =>
      make_pdata (map unpickle_location ls) cs xs vs (map unpickle_matrix di) (map unpickle_matrix du) gs ss
  | Err e, _, _, _, _ | _, Err e, _, _, _ | _, _, Err e, _, _ | _, _, _, Err e, _ | _, _, _, _, Err e => Err e
  end.

(** bindings.cpp:834-857 *)
Definition pickle_sched (s : sched) :=
  (pickle_activity (sa_act s), sa_trip s, sa_start s, sa_end s, sa_wait s, sa_tw s).
Definition unpickle_sched t : sched :=
  let '(a, tr, st, en, wa, tw) := t in mk_sched (unpickle_activity a) tr st en wa tw.

(** bindings.cpp:958-1010 and Route.cpp:462-501: [fixedVehicleCost_] is not part of the state; it
    is initialised to zero (Route.h:101). *)
Definition pickle_route (r : route) :=
  (map pickle_sched (r_schedule r), r_distance r, r_distanceCost r, r_excessDistance r, r_delivery r,
   r_pickup r, r_excessLoad r, r_duration r, r_overtime r, r_durationCost r, r_timeWarp r, r_travel r,
   r_service r, r_startTime r, r_releaseTime r, r_slack r, r_prizes r, r_vehicleType r, r_numShipments r).
Definition unpickle_route t : route :=
  let '(sc, di, dc, xd, de, pi, xl, du, ov, tc, tw, tr, se, st, re, sl, pr, vt, ns) := t in
  mk_route (map unpickle_sched sc) di dc xd de pi xl du ov tc tw tr se st re sl 0 pr vt ns.

(** bindings.cpp:1115-1160 and Solution.cpp:368-403: [unplanned_] is not part of the state. *)
Definition pickle_solution (s : solution) :=
  (so_numClients s, so_numShipments s, so_missingClients s, so_missingGroups s, so_missingShipments s,
   so_distance s, so_distanceCost s, so_duration s, so_overtime s, so_durationCost s, so_excessDistance s,
   so_excessLoad s, so_fixedCost s, so_prizes s, so_uncollected s, so_timeWarp s,
   map pickle_route (so_routes s)).
Definition unpickle_solution t : solution :=
  let '(nc, ns, mc, mg, ms, di, dc, du, ov, tc, xd, xl, fc, pr, un, tw, rs) := t in
  mk_solution (map unpickle_route rs) [] nc ns mc mg ms di dc du ov tc xd xl fc pr un tw.

(** ** Round trips *)
Theorem activity_rt a : unpickle_activity (pickle_activity a) = a.
Proof. destruct a; reflexivity. Qed.

Lemma to_ullong_bit b : forall i, (i < length b)%nat -> Z.testbit (to_ullong b) (Z.of_nat i) = nth i b false.
Proof.
  induction b as [|x b IH]; intros i Hi; [cbn in Hi; lia|]. cbn [to_ullong].
  destruct i as [|i].
  - cbn [nth]. rewrite Z.add_comm. destruct x; [apply Z.testbit_odd_0|]. rewrite Z.add_0_r. apply Z.testbit_even_0.
  - cbn [nth]. rewrite Nat2Z.inj_succ, Z.add_comm. cbn in Hi. rewrite <- IH by lia. destruct x.
    + apply Z.testbit_odd_succ. lia.
    + rewrite Z.add_0_r. apply Z.testbit_even_succ. lia.
Qed.
Theorem bitset_rt b : bs_ok b -> unpickle_bitset (pickle_bitset b) = b.
Proof.
  intros H. unfold unpickle_bitset, pickle_bitset. rewrite map_map. unfold bs_ok in H.
  induction H as [|k b Hk H IH]; [reflexivity|]. cbn [map]. f_equal; [|exact IH].
  apply (nth_ext _ _ false false).
  - unfold of_ullong. rewrite map_length, seq_length. auto.
  - unfold of_ullong. rewrite map_length, seq_length. intros i Hi.
    rewrite (nth_indep _ false (Z.testbit (to_ullong k) (Z.of_nat 0))) by (rewrite map_length, seq_length; exact Hi).
    rewrite (map_nth (fun i => Z.testbit (to_ullong k) (Z.of_nat i))). rewrite seq_nth by exact Hi.
    apply to_ullong_bit. rewrite Hk. exact Hi.
Qed.

Theorem pwl_rt f : pwl_ok f -> unpickle_pwl (pickle_pwl f) = Ok f.
Proof. intros H. apply of_breaks_spec. cbn. destruct f. split; [reflexivity|exact H]. Qed.

Theorem client_rt c : client_made c -> unpickle_client (pickle_client c) = Ok c.
Proof.
  intros H. destruct (client_valid c H) as [[] Hl]. unfold unpickle_client, pickle_client.
  apply make_client_spec. split; [repeat split; assumption|]. rewrite !pad_id by lia. destruct c; reflexivity.
Qed.
Theorem depot_rt x : depot_made x -> unpickle_depot (pickle_depot x) = Ok x.
Proof.
  intros H. destruct (depot_valid x H) as []. apply make_depot_spec. split; [auto|]. destruct x; reflexivity.
Qed.
Lemma step_rt s : valid_step s -> unpickle_step (pickle_step s) = Ok s.
Proof. intros []. apply make_step_spec. split; [auto|]. destruct s; reflexivity. Qed.
Theorem shipment_rt s : shipment_made s -> unpickle_shipment (pickle_shipment s) = Ok s.
Proof.
  intros H. destruct (shipment_valid s H) as [[] _]. unfold unpickle_shipment, pickle_shipment.
  rewrite !step_rt by assumption. destruct s; reflexivity.
Qed.
Theorem group_rt g : group_made g -> unpickle_group (pickle_group g) = Ok g.
Proof.
  intros (cs & rq & nm & H). apply make_group_spec in H. destruct H as [H ->]. apply make_group_spec. auto.
Qed.
Theorem vehicle_rt v : vehicle_made v -> unpickle_vehicle (pickle_vehicle v) = Ok v.
Proof. exact (vehicle_remake v). Qed.

Lemma all_ok_map {A B C} (f : A -> B) (g : B -> res C) (h : A -> C) (P : A -> Prop) l :
  (forall x, P x -> g (f x) = Ok (h x)) -> Forall P l -> all_ok g (map f l) = Ok (map h l).
Proof.
  intros Hg H. induction H as [|x l Hx H IH]; [reflexivity|]. cbn [map all_ok]. rewrite (Hg x Hx), IH. reflexivity.
Qed.

Lemma skipn_skipn' {A} b : forall a (l : list A), skipn a (skipn b l) = skipn (b + a) l.
Proof. induction b as [|b IH]; intros a l; [reflexivity|]. destruct l; [rewrite !skipn_nil; reflexivity|]. cbn. apply IH. Qed.

Lemma matrix_rt m : m_ok m -> (0 < m_rows m)%nat -> (0 < m_cols m)%nat -> unpickle_matrix (pickle_matrix m) = m.
Proof.
  intros Hm Hr Hc. unfold unpickle_matrix, pickle_matrix. cbn [fst snd]. unfold m_of_array, m_to_array.
  assert (E : forall n (data : list Z), (m_cols m * n = length data)%nat ->
    concat (map (fun i => firstn (m_cols m) (skipn (m_cols m * i) data)) (seq 0 n)) = data).
  { induction n as [|n IH]; intros data Hd; [destruct data; [reflexivity|cbn in Hd; lia]|].
    cbn [seq map concat]. rewrite Nat.mul_0_r. cbn [skipn].
    rewrite <- seq_shift, map_map.
    rewrite (map_ext _ (fun i => firstn (m_cols m) (skipn (m_cols m * i) (skipn (m_cols m) data)))).
    - rewrite IH by (rewrite skipn_length; lia). apply firstn_skipn.
    - intros i. rewrite skipn_skipn'. do 2 f_equal. lia. }
  rewrite E by (rewrite Hm; reflexivity). rewrite map_length, seq_length.
  destruct (m_data m) as [|x l] eqn:Ed.
  - unfold m_ok in Hm. rewrite Ed in Hm. cbn in Hm. lia.
  - destruct m; cbn in *; subst; reflexivity.
Qed.

(** Problem data with at least one location; without, all matrices are empty. *)
Theorem pdata_rt d :
  Forall client_made (p_clients d) -> Forall depot_made (p_depots d) -> Forall shipment_made (p_shipments d) ->
  Forall vehicle_made (p_vehicles d) -> Forall group_made (p_groups d) ->
  Forall m_ok (p_dists d ++ p_durs d) ->
  make_pdata (p_locations d) (p_clients d) (p_depots d) (p_vehicles d) (p_dists d) (p_durs d) (p_groups d) (p_shipments d) = Ok d ->
  unpickle_pdata (pickle_pdata d) = Ok d.
Proof.
  intros Hc Hd Hs Hv Hg Hmo Hm.
  destruct (made_data_valid d Hc Hd Hs Hv Hg Hm) as (_ & Hok & _).
  unfold unpickle_pdata, pickle_pdata.
  rewrite (all_ok_map pickle_client unpickle_client (fun c => c) client_made) by (assumption || exact client_rt).
  rewrite (all_ok_map pickle_depot unpickle_depot (fun c => c) depot_made) by (assumption || exact depot_rt).
  rewrite (all_ok_map pickle_vehicle unpickle_vehicle (fun c => c) vehicle_made) by (assumption || exact vehicle_rt).
  rewrite (all_ok_map pickle_group unpickle_group (fun c => c) group_made) by (assumption || exact group_rt).
  rewrite (all_ok_map pickle_shipment unpickle_shipment (fun c => c) shipment_made) by (assumption || exact shipment_rt).
  rewrite !map_id, !map_map.
  assert (El : map (fun x => unpickle_location (pickle_location x)) (p_locations d) = p_locations d).
  { rewrite <- (map_id (p_locations d)) at 2. apply map_ext. intros []; reflexivity. }
  rewrite El.
  assert (Hpos : (0 < p_numLocations d)%nat).
  { pose proof (do_some_depot d Hok) as H0. unfold p_numDepots in H0.
    destruct (p_depots d) as [|x l] eqn:Ex; [cbn in H0; lia|].
    pose proof (do_depots d Hok x) as H1. rewrite Ex in H1. specialize (H1 (or_introl eq_refl)). lia. }
  assert (Em : forall l, (forall m, In m l -> In m (p_dists d ++ p_durs d)) ->
     map (fun x => unpickle_matrix (pickle_matrix x)) l = l).
  { intros l Hl. rewrite <- (map_id l) at 2. apply map_ext_in. intros m Hin. specialize (Hl m Hin).
    rewrite Forall_forall in Hmo. destruct (do_matrices d Hok m Hl) as (H1 & H2 & _).
    apply matrix_rt; [apply Hmo; exact Hl|lia|lia]. }
  rewrite !Em by (intros m Hin; apply in_or_app; auto). exact Hm.
Qed.

Lemma sched_rt s : unpickle_sched (pickle_sched s) = s.
Proof. destruct s as [a t1 t2 t3 t4 t5]. unfold unpickle_sched, pickle_sched. cbn [sa_act sa_trip sa_start sa_end sa_wait sa_tw]. rewrite activity_rt. reflexivity. Qed.

(** A route without its fixed cost. *)
Definition no_fixed (r : route) : route :=
  mk_route (r_schedule r) (r_distance r) (r_distanceCost r) (r_excessDistance r) (r_delivery r) (r_pickup r)
    (r_excessLoad r) (r_duration r) (r_overtime r) (r_durationCost r) (r_timeWarp r) (r_travel r) (r_service r)
    (r_startTime r) (r_releaseTime r) (r_slack r) 0 (r_prizes r) (r_vehicleType r) (r_numShipments r).
Theorem route_rt r : unpickle_route (pickle_route r) = no_fixed r.
Proof.
  unfold unpickle_route, pickle_route, no_fixed. rewrite map_map.
  rewrite (map_ext _ (fun s => s) sched_rt), map_id. reflexivity.
Qed.
Theorem solution_rt s : unpickle_solution (pickle_solution s) =
  mk_solution (map no_fixed (so_routes s)) [] (so_numClients s) (so_numShipments s) (so_missingClients s)
    (so_missingGroups s) (so_missingShipments s) (so_distance s) (so_distanceCost s) (so_duration s)
    (so_overtime s) (so_durationCost s) (so_excessDistance s) (so_excessLoad s) (so_fixedCost s) (so_prizes s)
    (so_uncollected s) (so_timeWarp s).
Proof.
  unfold unpickle_solution, pickle_solution. rewrite map_map. rewrite (map_ext _ no_fixed route_rt). reflexivity.
Qed.

(** The penalised cost after unpickling: the fixed vehicle costs are gone. *)
Theorem solution_rt_cost ev s : solution_penalised ev (unpickle_solution (pickle_solution s)) =
  solution_penalised ev s - zsum (map (fun r => if r_empty r then 0 else r_fixedCost r) (so_routes s)).
Proof.
  rewrite solution_rt. unfold solution_penalised. cbn [so_uncollected so_routes].
  assert (E : forall l, zsum (map (route_penalised ev) (map no_fixed l)) =
     zsum (map (route_penalised ev) l) - zsum (map (fun r => if r_empty r then 0 else r_fixedCost r) l)).
  { induction l as [|r l IH]; [reflexivity|]. cbn [map zsum]. rewrite IH. unfold route_penalised.
    change (r_empty (no_fixed r)) with (r_empty r). destruct (r_empty r); [lia|]. unfold no_fixed. cbn -[zsum excessLoadPenalties twPenalty distPenalty]. lia. }
  rewrite E. lia.
Qed.
