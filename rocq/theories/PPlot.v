(** C70: the plots of routes. *)
From Coq Require Import Permutation.
From Verif Require Import Base DurationSegment Data LoadSegment Valid Route RouteSpec RouteFacts2 RouteFacts4 DataCtor Sample Plot.
From Verif Require PData.

(** Each activity of the schedule is drawn at the distance travelled so far, with the times of the schedule, the time driven and served so far,
    and the load that its predecessors leave on board, if all deliveries of the route are on board at the start. *)
Theorem C70_stops : forall d vt mid r dim, data_ok d -> (vt < p_numVehicleTypes d)%nat -> make_route d mid vt = Ok r -> (dim < p_numLoadDimensions d)%nat ->
  length (plot_route_schedule d r dim) = length (r_schedule r) /\
  forall before x after, r_schedule r = before ++ x :: after ->
  let v := p_vehicle d vt in
  let locs := map (a_loc d) (map sa_act (before ++ [x])) in
  let travelled := path_sum (p_dist d (v_profile v)) locs in
  let driven := path_sum (p_dur d (v_profile v)) locs in
  let served := zsum (map (fun y => sa_end y - sa_start y) before) in
  let load acts := nth dim (r_delivery r) 0 + zsum (map (load_change d dim) acts) in
  nth_error (plot_route_schedule d r dim) (length before) = Some (mk_stop_plot
    (mk_point travelled (sa_start x - sa_wait x) driven (driven + served) (load (map sa_act before)))
    (mk_point travelled (sa_start x) driven (driven + served) (load (map sa_act (before ++ [x]))))
    (mk_point travelled (sa_end x) driven (driven + (served + (sa_end x - sa_start x))) (load (map sa_act (before ++ [x]))))
    (if 0 <? sa_tw x then Some (travelled, sa_start x + sa_tw x, closing d (sa_act x)) else None)
    (travelled, tw_early d (sa_act x), closing d (sa_act x))).
Proof. exact plot_stops. Qed.
Print Assumptions C70_stops.
(** Driving from one activity to the next, the vehicle is drawn to arrive when it does, or when the next one closes if that is before; a line
    of time warp connects the two times in the latter case, and only then. *)
Theorem C70_arrivals : forall d h, valid_data d -> opens_by d h -> nonneg_durs d -> 2 * h <= MAXV -> data_ok d ->
  forall vt, (vt < p_numVehicleTypes d)%nat -> forall mid r dim, make_route d mid vt = Ok r -> (dim < p_numLoadDimensions d)%nat ->
  forall before a b post, r_schedule r = before ++ a :: b :: post ->
  let arrive := sa_end a + p_dur d (v_profile (p_vehicle d vt)) (a_loc d (sa_act a)) (a_loc d (sa_act b)) in
  exists s, nth_error (plot_route_schedule d r dim) (S (length before)) = Some s /\ pt_time (sp_arrive s) = Z.min arrive (closing d (sa_act b)) /\
    (closing d (sa_act b) < arrive -> sp_warp s = Some (pt_dist (sp_arrive s), arrive, closing d (sa_act b))) /\
    (arrive <= closing d (sa_act b) -> sp_warp s = None).
Proof.
  intros d h V O N Hh K vt Hv mid r dim H Hd before a b post E arrive. destruct (plot_stops d vt mid r dim K Hv H Hd) as [_ G].
  specialize (G (before ++ [a]) b post). rewrite <- app_assoc in G. specialize (G E). cbv zeta in G. rewrite app_length, Nat.add_comm in G. cbn [length Nat.add] in G.
  destruct (route_schedule d h V O N Hh vt Hv mid r H) as (_ & _ & C). destruct (C before a b post E) as (_ & C1 & C2 & C3 & _ & C4). fold arrive in C1, C2, C3.
  eexists. split; [exact G|]. cbn [sp_arrive sp_warp pt_time pt_dist]. split; [lia|]. split; intros Q.
  - destruct (Z.ltb_spec 0 (sa_tw b)); [|lia]. repeat f_equal. lia.
  - destruct (Z.ltb_spec 0 (sa_tw b)); [lia|reflexivity].
Qed.
Print Assumptions C70_arrivals.
(** The traces end at the figures of the route. *)
Theorem C70_totals : forall d h, valid_data d -> opens_by d h -> nonneg_durs d -> 2 * h <= MAXV -> data_ok d ->
  forall vt, (vt < p_numVehicleTypes d)%nat -> forall mid r dim, make_route d mid vt = Ok r -> (dim < p_numLoadDimensions d)%nat ->
  exists pts p, trace (plot_route_schedule d r dim) = pts ++ [p] /\
    pt_dist p = r_distance r /\ pt_drive p = r_travel r /\ pt_work p = r_travel r + r_service r /\ pt_time p = sa_end (last (r_schedule r) dummy_sched).
Proof. exact plot_totals. Qed.
Print Assumptions C70_totals.
(** Without reloads and initial load, the load is drawn within the capacity exactly if the route has no excess load. *)
Theorem C70_capacity : forall d vt mid r dim, valid_data d -> data_ok d -> (vt < p_numVehicleTypes d)%nat -> make_route d mid vt = Ok r ->
  (dim < p_numLoadDimensions d)%nat -> (forall a, In a mid -> a_isDepot a = false) -> dimv (v_initialLoad (p_vehicle d vt)) dim = 0 ->
  (nth dim (r_excessLoad r) 0 = 0 <-> forall p, In p (trace (plot_route_schedule d r dim)) -> pt_load p <= dimv (v_capacity (p_vehicle d vt)) dim).
Proof. exact plot_capacity. Qed.
Print Assumptions C70_capacity.
(** The map shows every edge of a route but those from a depot to a depot. *)
Theorem C70_edges : forall d vt mid r, make_route d mid vt = Ok r -> let v := p_vehicle d vt in
  Permutation (plot_route_edges d r)
    (map (fun e => (a_loc d (fst e), a_loc d (snd e)))
      (filter (fun e => negb (a_isDepot (fst e) && a_isDepot (snd e))) (pairwise (ADepot (v_start v) :: mid ++ [ADepot (v_end v)])))).
Proof. exact route_edges. Qed.
Print Assumptions C70_edges.

(** *** Cases *)
Lemma sample_ok : data_ok sample.
Proof. exact (proj1 PData.C34_case). Qed.
(** A vehicle without initial load on a route that reaches a client three units after it closes. *)
Definition ex_mid : list activity := [AClient 2; AClient 0; AClient 3].
Definition ex_route : route := match make_route sample ex_mid 1 with Ok r => r | Err _ => mk_route [] 0 0 0 [] [] [] 0 0 0 0 0 0 0 0 0 0 0 0 0 end.
Example C70_case : data_ok sample /\ valid_data sample /\ opens_by sample 20 /\ nonneg_durs sample /\ 2 * 20 <= MAXV /\ (1 < p_numVehicleTypes sample)%nat /\
  make_route sample ex_mid 1 = Ok ex_route /\ (0 < p_numLoadDimensions sample)%nat /\ (forall a, In a ex_mid -> a_isDepot a = false) /\
  dimv (v_initialLoad (p_vehicle sample 1)) 0 = 0 /\
  map (fun p => (pt_dist p, pt_time p, pt_drive p, pt_work p, pt_load p)) (trace (plot_route_schedule sample ex_route 0)) =
    [(0, 3, 0, 0, 8); (0, 3, 0, 0, 8); (0, 4, 0, 1, 8); (14, 18, 14, 15, 8); (14, 18, 14, 15, 4); (14, 21, 14, 18, 4);
     (26, 30, 26, 30, 4); (26, 30, 26, 30, 2); (26, 32, 26, 32, 2); (38, 44, 38, 44, 2); (38, 44, 38, 44, 6); (38, 46, 38, 46, 6);
     (56, 64, 56, 64, 6); (56, 64, 56, 64, 6); (56, 64, 56, 64, 6)] /\
  map sp_warp (plot_route_schedule sample ex_route 0) = [None; None; Some (26, 33, 30); None; None] /\
  plot_route_edges sample ex_route = [(4, 2); (2, 5); (5, 1); (0, 4)]%nat.
Proof.
  split; [exact sample_ok|]. split; [apply sample_valid|]. split; [apply sample_opens|]. split; [apply sample_durs|]. split; [unfold MAXV; lia|].
  split; [vm_compute; lia|]. split; [vm_compute; reflexivity|]. split; [vm_compute; lia|]. split; [intros a [<-|[<-|[<-|[]]]]; reflexivity|]. repeat split; vm_compute; reflexivity.
Qed.
(** With a reload, the load of all trips is drawn as if it were on board at the start: above the capacity, although the load never exceeds it. *)
Theorem C70_reload_refuted : exists mid r p, make_route sample mid 0 = Ok r /\ nth 0 (r_excessLoad r) 0 = 0 /\
  In p (trace (plot_route_schedule sample r 0)) /\ dimv (v_capacity (p_vehicle sample 0)) 0 < pt_load p.
Proof. exists [AClient 2; ADepot 1; AClient 0]. eexists _, _. split; [vm_compute; reflexivity|]. split; [reflexivity|]. split; [left; reflexivity|]. vm_compute. reflexivity. Qed.
Print Assumptions C70_reload_refuted.
(** An initial load is not drawn: the load stays within the capacity in the plot, although there is excess load. *)
Theorem C70_initial_load_refuted : exists mid r, make_route sample mid 0 = Ok r /\ (forall a, In a mid -> a_isDepot a = false) /\ 0 < nth 0 (r_excessLoad r) 0 /\
  forall p, In p (trace (plot_route_schedule sample r 0)) -> pt_load p <= dimv (v_capacity (p_vehicle sample 0)) 0.
Proof.
  exists [AClient 0; AClient 1; AClient 3]. eexists. split; [vm_compute; reflexivity|]. split; [intros a [<-|[<-|[<-|[]]]]; reflexivity|]. split; [reflexivity|].
  apply Forall_forall. vm_compute. repeat constructor; discriminate.
Qed.
Print Assumptions C70_initial_load_refuted.
(** A trip without stops is not on the map. *)
Theorem C70_empty_trip_refuted : exists mid r, make_route sample mid 0 = Ok r /\ route_locs sample (p_vehicle sample 0) mid = [0; 1; 4; 0]%nat /\
  ~ In (0%nat, 1%nat) (plot_route_edges sample r).
Proof.
  exists [ADepot 1; AClient 2]. eexists. split; [vm_compute; reflexivity|]. split; [reflexivity|]. vm_compute. intros [H|[H|[]]]; discriminate.
Qed.
Print Assumptions C70_empty_trip_refuted.
