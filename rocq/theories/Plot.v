(** Model of pyvrp/plotting: what plot_route_schedule.py and plot_solution.py hand to matplotlib. *)
From Coq Require Import Permutation.
From Verif Require Import Base DurationSegment Data LoadSegment Valid Route RouteSpec RouteFacts2 RouteFacts4 DataCtor.

(** ** The schedule of a route *)
(** plot_route_schedule.py:70-74: a point of each of the four traces, at a travelled distance. *)
Record point := mk_point { pt_dist : Z; pt_time : Z; pt_drive : Z; pt_work : Z; pt_load : Z }.
(** plot_route_schedule.py:106-123: what is drawn for one activity: three points of the traces, the line of its time warp, if any, and
    the line of its time window, as the distance and two times. *)
Record stop_plot := mk_stop_plot { sp_arrive : point; sp_start : point; sp_end : point; sp_warp : option (Z * Z * Z); sp_window : Z * Z * Z }.

(** plot_route_schedule.py:78-104; None is a dimension that does not exist. *)
Definition load_diff (d : pdata) (dim : option nat) (a : activity) : Z :=
  match dim with
  | None => 0
  | Some k => match a with
              | ADepot _ => 0
              | AClient i => 0 - dimv (c_delivery (p_client d i)) k + dimv (c_pickup (p_client d i)) k
              | APickup i => 0 + dimv (s_amount (p_shipment d i)) k
              | ADelivery i => 0 - dimv (s_amount (p_shipment d i)) k
              end
  end.
Definition tw_early (d : pdata) (a : activity) : Z :=
  match a with
  | ADepot i => d_early (p_depot d i) | AClient i => c_early (p_client d i)
  | APickup i => st_early (s_pickup (p_shipment d i)) | ADelivery i => st_early (s_delivery (p_shipment d i))
  end.
Definition tw_late (d : pdata) (a : activity) : Z :=
  match a with
  | ADepot i => d_late (p_depot d i) | AClient i => c_late (p_client d i)
  | APickup i => st_late (s_pickup (p_shipment d i)) | ADelivery i => st_late (s_delivery (p_shipment d i))
  end.
(** plot_route_schedule.py:77-125, the loop *)
Fixpoint plot_loop (d : pdata) (profile : nat) (dim : option nat) (prev : nat) (dist drive serv load : Z) (l : list sched) : list stop_plot :=
  match l with
  | [] => []
  | x :: more =>
    let loc := a_loc d (sa_act x) in
    let drive := drive + p_dur d profile prev loc in
    let dist := dist + p_dist d profile prev loc in
    let arrive := mk_point dist (sa_start x - sa_wait x) drive (drive + serv) load in
    let warp := if 0 <? sa_tw x then Some (dist, sa_start x + sa_tw x, tw_late d (sa_act x)) else None in
    let load := load + load_diff d dim (sa_act x) in
    let start := mk_point dist (sa_start x) drive (drive + serv) load in
    let serv := serv + (sa_end x - sa_start x) in
    mk_stop_plot arrive start (mk_point dist (sa_end x) drive (drive + serv) load) warp (dist, tw_early d (sa_act x), tw_late d (sa_act x))
      :: plot_loop d profile dim loc dist drive serv load more
  end.
(** plot_route_schedule.py:47-60 and 76 *)
Definition plot_route_schedule (d : pdata) (r : route) (dim : nat) : list stop_plot :=
  let v := p_vehicle d (r_vehicleType r) in
  let track := if (dim <? p_numLoadDimensions d)%nat then Some dim else None in
  let load := match track with Some k => nth k (r_delivery r) 0 | None => 0 end in
  plot_loop d (v_profile v) track (d_loc (p_depot d (v_start v))) 0 0 0 load (r_schedule r).
Definition trace (l : list stop_plot) : list point := flat_map (fun s => [sp_arrive s; sp_start s; sp_end s]) l.

(** ** The edges of a route on the map *)
(** plot_solution.py:46-68: the locations of each trip *)
Definition add_stop (d : pdata) (ts : list (list nat)) (a : activity) : list (list nat) :=
  match a with
  | ADepot _ => ts ++ [[]]
  | _ => removelast ts ++ [last ts [] ++ [a_loc d a]]
  end.
Definition plot_trips (d : pdata) (acts : list activity) : list (list nat) := fold_left (add_stop d) acts [].
Definition depots_of (acts : list activity) : list nat := flat_map (fun a => match a with ADepot i => [i] | _ => [] end) acts.
Fixpoint pairwise {A} (l : list A) : list (A * A) :=
  match l with a :: ((b :: _) as l') => (a, b) :: pairwise l' | _ => [] end.
(** plot_solution.py:70-106: the line along the stops of a trip, the edge back to the depot and the edge from the depot; nothing for a
    trip without stops. *)
Definition draw_trip (d : pdata) (locs : list nat) (start end_ : nat) : list (nat * nat) :=
  match locs with
  | [] => []
  | x :: _ => pairwise locs ++ [(last locs 0%nat, d_loc (p_depot d end_))] ++ [(d_loc (p_depot d start), x)]
  end.
Definition plot_route_edges (d : pdata) (r : route) : list (nat * nat) :=
  let acts := map sa_act (r_schedule r) in
  flat_map (fun x => draw_trip d (fst x) (fst (snd x)) (snd (snd x))) (combine (plot_trips d (removelast acts)) (pairwise (depots_of acts))).

(** ** Facts *)
Lemma load_diff_spec d k a : load_diff d (Some k) a = load_change d k a.
Proof. destruct a; cbn; lia. Qed.
Lemma tw_late_spec d a : tw_late d a = closing d a.
Proof. destruct a; reflexivity. Qed.
Lemma path_sum_snoc f l a b : path_sum f (l ++ [a; b]) = path_sum f (l ++ [a]) + f a b.
Proof.
  induction l as [|x l IH]; cbn [app path_sum]; [lia|]. destruct l as [|y l]; cbn [app path_sum] in *; [lia|]. lia.
Qed.
Lemma plot_loop_length d profile dim l : forall prev dist drive serv load, length (plot_loop d profile dim prev dist drive serv load l) = length l.
Proof. induction l as [|x l IH]; intros; cbn; [reflexivity|]. rewrite IH. reflexivity. Qed.
(** What is drawn for each activity. *)
Lemma plot_loop_nth d profile dim l : forall prev dist drive serv load before x after, l = before ++ x :: after ->
  let locs := prev :: map (a_loc d) (map sa_act (before ++ [x])) in
  let D := dist + path_sum (p_dist d profile) locs in
  let V := drive + path_sum (p_dur d profile) locs in
  let S := serv + zsum (map (fun y => sa_end y - sa_start y) before) in
  let L := load + zsum (map (load_diff d dim) (map sa_act before)) in
  let L' := load + zsum (map (load_diff d dim) (map sa_act (before ++ [x]))) in
  nth_error (plot_loop d profile dim prev dist drive serv load l) (length before) = Some (mk_stop_plot
    (mk_point D (sa_start x - sa_wait x) V (V + S) L)
    (mk_point D (sa_start x) V (V + S) L')
    (mk_point D (sa_end x) V (V + (S + (sa_end x - sa_start x))) L')
    (if 0 <? sa_tw x then Some (D, sa_start x + sa_tw x, tw_late d (sa_act x)) else None)
    (D, tw_early d (sa_act x), tw_late d (sa_act x))).
Proof.
  induction l as [|y l IH]; intros prev dist drive serv load before x after E; [destruct before; discriminate|].
  destruct before as [|z before]; cbn [app] in E.
  - injection E as -> ->. cbn [length nth_error plot_loop app map path_sum zsum]. cbv zeta. rewrite !Z.add_0_r. reflexivity.
  - injection E as <- E. cbn [length nth_error plot_loop]. cbv zeta. specialize (IH (a_loc d (sa_act y)) (dist + p_dist d profile prev (a_loc d (sa_act y)))
      (drive + p_dur d profile prev (a_loc d (sa_act y))) (serv + (sa_end y - sa_start y)) (load + load_diff d dim (sa_act y)) before x after E).
    cbv zeta in IH. rewrite IH. clear IH. cbn [app map path_sum zsum].
    assert (P : forall f, path_sum f (prev :: a_loc d (sa_act y) :: map (a_loc d) (map sa_act (before ++ [x]))) = f prev (a_loc d (sa_act y)) + path_sum f (a_loc d (sa_act y) :: map (a_loc d) (map sa_act (before ++ [x])))) by reflexivity.
    rewrite !Z.add_assoc. reflexivity.
Qed.

(** *** Edges *)
Fixpoint group (d : pdata) (cur : list nat) (mid : list activity) : list (list nat) :=
  match mid with
  | [] => [cur]
  | ADepot _ :: more => cur :: group d [] more
  | a :: more => group d (cur ++ [a_loc d a]) more
  end.
Lemma fold_group d mid : forall done cur, fold_left (add_stop d) mid (done ++ [cur]) = done ++ group d cur mid.
Proof.
  induction mid as [|a mid IH]; intros done cur; [reflexivity|]. cbn [fold_left].
  destruct a; cbn [add_stop group]; rewrite ?removelast_last, ?last_last; rewrite IH; try reflexivity. rewrite <- app_assoc. reflexivity.
Qed.
(** Edges between consecutive activities that are not both depots. *)
Definition shown (d : pdata) (acts : list activity) : list (nat * nat) :=
  map (fun e => (a_loc d (fst e), a_loc d (snd e))) (filter (fun e => negb (a_isDepot (fst e) && a_isDepot (snd e))) (pairwise acts)).
Lemma shown_cons2 d a b l : shown d (a :: b :: l) = (if a_isDepot a && a_isDepot b then [] else [(a_loc d a, a_loc d b)]) ++ shown d (b :: l).
Proof. unfold shown. cbn [pairwise filter fst snd]. destruct (a_isDepot a && a_isDepot b); reflexivity. Qed.
Lemma pairwise_snoc {A} (l : list A) a b : pairwise (l ++ [a; b]) = pairwise (l ++ [a]) ++ [(a, b)].
Proof. induction l as [|x l IH]; [reflexivity|]. cbn [app]. destruct l as [|y l]; [reflexivity|]. cbn [app] in *. cbn [pairwise] in *. rewrite IH. reflexivity. Qed.
Lemma edges_from d e mid : forall i cur prev, (cur = [] -> prev = ADepot i) -> (cur <> [] -> a_isDepot prev = false /\ last cur 0%nat = a_loc d prev) ->
  Permutation (flat_map (fun x => draw_trip d (fst x) (fst (snd x)) (snd (snd x))) (combine (group d cur mid) (pairwise (i :: depots_of mid ++ [e]))))
    (match cur with [] => [] | x :: _ => (d_loc (p_depot d i), x) :: pairwise cur end ++ shown d (prev :: mid ++ [ADepot e])).
Proof.
  assert (Dr : forall i j cur prev, (cur = [] -> prev = ADepot i) -> (cur <> [] -> a_isDepot prev = false /\ last cur 0%nat = a_loc d prev) ->
    Permutation (draw_trip d cur i j) (match cur with [] => [] | x :: _ => (d_loc (p_depot d i), x) :: pairwise cur end ++ (if a_isDepot prev then [] else [(a_loc d prev, d_loc (p_depot d j))]))).
  { intros i j cur prev H1 H2. destruct cur as [|x cur]; [rewrite (H1 eq_refl); reflexivity|]. destruct (H2 ltac:(discriminate)) as [-> E].
    cbn [draw_trip]. rewrite E. rewrite app_assoc. rewrite Permutation_app_comm. reflexivity. }
  induction mid as [|a mid IH]; intros i cur prev H1 H2.
  - cbn [group depots_of flat_map app pairwise combine fst snd]. rewrite app_nil_r, shown_cons2. cbn [a_isDepot]. rewrite Bool.andb_true_r. cbn [a_loc].
    rewrite (Dr i e cur prev H1 H2). unfold shown. cbn [pairwise filter map]. rewrite app_nil_r. reflexivity.
  - assert (Step : a_isDepot a = false -> Permutation
      (flat_map (fun x => draw_trip d (fst x) (fst (snd x)) (snd (snd x))) (combine (group d (cur ++ [a_loc d a]) mid) (pairwise (i :: depots_of mid ++ [e]))))
      (match cur with [] => [] | x :: _ => (d_loc (p_depot d i), x) :: pairwise cur end ++ shown d (prev :: (a :: mid) ++ [ADepot e]))).
    { intros Ha. rewrite (IH i (cur ++ [a_loc d a]) a).
      2:{ intros H. destruct cur; discriminate. }
      2:{ intros _. split; [exact Ha|]. apply last_last. }
      cbn [app]. rewrite shown_cons2, Ha, Bool.andb_false_r. rewrite app_assoc. apply Permutation_app_tail. destruct cur as [|x cur].
      - rewrite (H1 eq_refl). reflexivity.
      - destruct (H2 ltac:(discriminate)) as [_ E]. cbn [app]. apply perm_skip.
        destruct (@exists_last _ (x :: cur) ltac:(discriminate)) as (l & y & El). rewrite El in E. rewrite last_last in E. subst y.
        change (x :: cur ++ [a_loc d a]) with ((x :: cur) ++ [a_loc d a]). rewrite El, <- app_assoc. cbn [app]. rewrite pairwise_snoc. reflexivity. }
    destruct a as [j|j|j|j]; try (cbn [group depots_of flat_map app]; apply Step; reflexivity). clear Step.
    cbn [group depots_of flat_map app]. cbn [pairwise]. cbn [combine flat_map fst snd].
    change (flat_map (fun a : activity => match a with ADepot i0 => [i0] | _ => [] end) mid) with (depots_of mid).
    change (match depots_of mid ++ [e] with [] => [] | b :: _ => (j, b) :: pairwise (depots_of mid ++ [e]) end) with (pairwise (j :: depots_of mid ++ [e])).
    rewrite (IH j [] (ADepot j)); [|reflexivity|intros H; congruence]. cbn [app]. rewrite shown_cons2. cbn [a_isDepot]. rewrite Bool.andb_true_r. cbn [a_loc].
    rewrite (Dr i j cur prev H1 H2). rewrite <- app_assoc. reflexivity.
Qed.
Lemma route_acts d mid vt r : make_route d mid vt = Ok r ->
  map sa_act (r_schedule r) = ADepot (v_start (p_vehicle d vt)) :: mid ++ [ADepot (v_end (p_vehicle d vt))] /\ r_vehicleType r = vt.
Proof. unfold make_route. destruct (validate d mid vt); [|discriminate]. intros H. injection H as <-. cbn [r_schedule r_vehicleType]. split; [apply schedule_acts|reflexivity]. Qed.
(** The edges of a route are drawn, except those from a depot to a depot. *)
Theorem route_edges d vt mid r : make_route d mid vt = Ok r -> let v := p_vehicle d vt in
  Permutation (plot_route_edges d r) (shown d (ADepot (v_start v) :: mid ++ [ADepot (v_end v)])).
Proof.
  intros H v. destruct (route_acts d mid vt r H) as [E _]. unfold plot_route_edges, plot_trips. rewrite E. fold v.
  change (ADepot (v_start v) :: mid ++ [ADepot (v_end v)]) with ((ADepot (v_start v) :: mid) ++ [ADepot (v_end v)]) at 1.
  rewrite removelast_last. cbn [fold_left add_stop]. change ([] ++ [[]]) with ([] ++ [@nil nat]). rewrite fold_group. cbn [app].
  replace (depots_of (ADepot (v_start v) :: mid ++ [ADepot (v_end v)])) with (v_start v :: depots_of mid ++ [v_end v]).
  2:{ unfold depots_of. cbn [flat_map app]. rewrite flat_map_app. reflexivity. }
  apply (edges_from d (v_end v) mid (v_start v) [] (ADepot (v_start v))); [reflexivity|intros G; congruence].
Qed.

Lemma start_loop d vt : data_ok d -> (vt < p_numVehicleTypes d)%nat -> let v := p_vehicle d vt in let loc := d_loc (p_depot d (v_start v)) in
  p_dist d (v_profile v) loc loc = 0 /\ p_dur d (v_profile v) loc loc = 0.
Proof.
  intros K Hv v loc. assert (Iv : In v (p_vehicles d)) by (apply nth_In; exact Hv). destruct (do_vehicles d K v Iv) as (_ & Hs & _ & Hp & _).
  assert (Hl : (loc < p_numLocations d)%nat) by (apply (do_depots d K); apply nth_In; exact Hs). unfold p_dist, p_dur. split.
  - apply (do_matrices d K); [|exact Hl]. apply in_or_app. left. apply nth_In. exact Hp.
  - apply (do_matrices d K); [|exact Hl]. apply in_or_app. right. apply nth_In. rewrite <- (do_matrix_number d K). exact Hp.
Qed.
(** What is drawn for each activity of a route. *)
Theorem plot_stops d vt mid r dim : data_ok d -> (vt < p_numVehicleTypes d)%nat -> make_route d mid vt = Ok r -> (dim < p_numLoadDimensions d)%nat ->
  length (plot_route_schedule d r dim) = length (r_schedule r) /\
  forall before x after, r_schedule r = before ++ x :: after ->
  let v := p_vehicle d vt in
  let locs := map (a_loc d) (map sa_act (before ++ [x])) in
  let travelled := path_sum (p_dist d (v_profile v)) locs in
  let driven := path_sum (p_dur d (v_profile v)) locs in
  let served := zsum (map (fun y => sa_end y - sa_start y) before) in
  let load acts := nth dim (r_delivery r) 0 + zsum (map (load_change d dim) acts) in
  nth_error (plot_route_schedule d r dim) (length before) = Some (mk_stop_plot
    (mk_point travelled (sa_start x - sa_wait x) driven (driven + served) (load (map sa_act before)))
    (mk_point travelled (sa_start x) driven (driven + served) (load (map sa_act (before ++ [x]))))
    (mk_point travelled (sa_end x) driven (driven + (served + (sa_end x - sa_start x))) (load (map sa_act (before ++ [x]))))
    (if 0 <? sa_tw x then Some (travelled, sa_start x + sa_tw x, closing d (sa_act x)) else None)
    (travelled, tw_early d (sa_act x), closing d (sa_act x))).
Proof.
  intros K Hv H Hd. destruct (route_acts d mid vt r H) as [E1 E2]. unfold plot_route_schedule. rewrite E2. destruct (Nat.ltb_spec dim (p_numLoadDimensions d)) as [_|]; [|lia].
  split; [apply plot_loop_length|]. intros before x after E. cbv zeta. rewrite (plot_loop_nth _ _ _ _ _ _ _ _ _ before x after E).
  destruct (start_loop d vt K Hv) as [D1 D2]. rewrite !Z.add_0_l, tw_late_spec.
  assert (L : forall l, map (load_diff d (Some dim)) l = map (load_change d dim) l) by (intros l; apply map_ext; intros a; apply load_diff_spec). rewrite !L.
  assert (P : forall f : nat -> nat -> Z, let loc := d_loc (p_depot d (v_start (p_vehicle d vt))) in f loc loc = 0 ->
    path_sum f (loc :: map (a_loc d) (map sa_act (before ++ [x]))) = path_sum f (map (a_loc d) (map sa_act (before ++ [x])))).
  { intros f loc Hf. assert (Hh : exists more, map (a_loc d) (map sa_act (before ++ [x])) = loc :: more).
    { rewrite E in E1. replace (before ++ x :: after) with ((before ++ [x]) ++ after) in E1 by (rewrite <- app_assoc; reflexivity). rewrite map_app in E1.
      destruct (map sa_act (before ++ [x])) as [|a0 l0] eqn:El; [destruct before; discriminate|]. cbn [app] in E1. injection E1 as -> _. exists (map (a_loc d) l0). reflexivity. }
    destruct Hh as [more ->]. cbn [path_sum]. rewrite Hf. lia. }
  rewrite (P _ D1), (P _ D2). reflexivity.
Qed.

Lemma served_rest d l : forall pre e0, (forall before a b post, pre ++ e0 :: l = before ++ a :: b :: post -> sa_end b = sa_start b + match post with [] => 0 | _ => a_service d (sa_act b) end) ->
  zsum (map (fun y => sa_end y - sa_start y) l) = zsum (map (a_service d) (removelast (map sa_act l))).
Proof.
  induction l as [|x l IH]; intros pre e0 H; [reflexivity|]. pose proof (H pre e0 x l eq_refl) as Hx. specialize (IH (pre ++ [e0]) x).
  rewrite <- app_assoc in IH. cbn [app] in IH. specialize (IH H). cbn [map zsum]. rewrite IH. destruct l as [|y l]; [cbn; lia|]. cbn [map removelast zsum]. cbn [map] in Hx. lia.
Qed.
(** At the end of the route, the traces have reached its distance, its travel duration and its travel and service durations. *)
Theorem plot_totals d h : valid_data d -> opens_by d h -> nonneg_durs d -> 2 * h <= MAXV -> data_ok d -> forall vt, (vt < p_numVehicleTypes d)%nat -> forall mid r dim,
  make_route d mid vt = Ok r -> (dim < p_numLoadDimensions d)%nat ->
  exists pts p, trace (plot_route_schedule d r dim) = pts ++ [p] /\
    pt_dist p = r_distance r /\ pt_drive p = r_travel r /\ pt_work p = r_travel r + r_service r /\ pt_time p = sa_end (last (r_schedule r) dummy_sched).
Proof.
  intros V O N Hh K vt Hv mid r dim H Hd. destruct (plot_stops d vt mid r dim K Hv H Hd) as [L G].
  destruct (route_figures d h V O N Hh vt Hv mid r H) as (F1 & F2 & F3 & _). destruct (route_schedule d h V O N Hh vt Hv mid r H) as (E & (e0 & rest & E0 & _ & _ & _ & _ & S0) & C).
  assert (Hn : r_schedule r <> []) by (rewrite E0; discriminate). destruct (exists_last Hn) as (before & x & Eb). specialize (G before x [] Eb). cbv zeta in G.
  rewrite <- Eb in G. rewrite E in G. set (v := p_vehicle d vt) in *.
  assert (R : map (a_loc d) (ADepot (v_start v) :: mid ++ [ADepot (v_end v)]) = route_locs d v mid) by (cbn [map a_loc]; rewrite map_app; reflexivity).
  rewrite R, <- F1, <- F2 in G.
  assert (W : zsum (map (fun y => sa_end y - sa_start y) (r_schedule r)) = r_service r).
  { rewrite F3, E0. cbn [map zsum]. rewrite (served_rest d rest [] e0).
    2:{ intros before' a b post Eq. cbn [app] in Eq. rewrite <- E0 in Eq. destruct (C before' a b post Eq) as (_ & _ & _ & _ & Q & _). exact Q. }
    rewrite E0 in E. cbn [map] in E. injection E as E3 E4. rewrite E4, removelast_last. cbn [a_service] in S0. lia. }
  rewrite Eb, map_app, zsum_app in W. cbn [map zsum] in W.
  assert (T : exists q s, plot_route_schedule d r dim = q ++ [s] /\ nth_error (plot_route_schedule d r dim) (length before) = Some s).
  { rewrite Eb, app_length in L. cbn [length] in L. assert (Hp : plot_route_schedule d r dim <> []) by (intros Q; rewrite Q in L; cbn in L; lia). destruct (exists_last Hp) as (q & s & Eq).
    exists q, s. split; [exact Eq|]. rewrite Eq in *. rewrite app_length in L. cbn [length] in L. rewrite nth_error_app2 by lia. replace (length before - length q)%nat with 0%nat by lia. reflexivity. }
  destruct T as (q & s & Eq & Es). rewrite Es in G. injection G as G. exists (trace q ++ [sp_arrive s; sp_start s]), (sp_end s). split.
  - rewrite Eq. unfold trace. rewrite flat_map_app. cbn [flat_map app]. rewrite <- app_assoc. reflexivity.
  - rewrite G. cbn [sp_end pt_dist pt_drive pt_work pt_time]. rewrite Eb, last_last. repeat split; lia.
Qed.

(** The largest load is within a bound exactly if the loads at all times are. *)
Lemma peak_le d dim cap t : forall on, peak d dim on t <= cap <-> forall pre post, t = pre ++ post -> on + zsum (map (load_change d dim) pre) <= cap.
Proof.
  induction t as [|a t IH]; intros on; cbn [peak].
  - split; [intros H pre post E; destruct pre; [cbn; lia|discriminate]|]. intros H. specialize (H [] [] eq_refl). cbn in H. lia.
  - rewrite Z.max_lub_iff, IH. split.
    + intros [H1 H2] [|b pre] post E; [cbn; lia|]. injection E as <- E. specialize (H2 pre post E). cbn [map zsum]. lia.
    + intros H. split; [specialize (H [] _ eq_refl); cbn in H; lia|]. intros pre post E. specialize (H (a :: pre) post ltac:(rewrite E; reflexivity)). cbn [map zsum] in H. lia.
Qed.
Lemma trips_single mid : (forall a, In a mid -> a_isDepot a = false) -> trips mid = [mid].
Proof.
  induction mid as [|a mid IH]; intros H; [reflexivity|]. pose proof (H a (or_introl eq_refl)) as Ha. cbn [trips]. rewrite IH by (intros b Hb; apply H; right; exact Hb).
  destruct a; [discriminate|reflexivity|reflexivity|reflexivity].
Qed.
(** Without reloads and initial load, the load that is drawn stays within the capacity exactly if there is no excess load. *)
Theorem plot_capacity d vt mid r dim : valid_data d -> data_ok d -> (vt < p_numVehicleTypes d)%nat -> make_route d mid vt = Ok r -> (dim < p_numLoadDimensions d)%nat ->
  (forall a, In a mid -> a_isDepot a = false) -> dimv (v_initialLoad (p_vehicle d vt)) dim = 0 ->
  (nth dim (r_excessLoad r) 0 = 0 <-> forall p, In p (trace (plot_route_schedule d r dim)) -> pt_load p <= dimv (v_capacity (p_vehicle d vt)) dim).
Proof.
  intros V K Hv H Hd Hm Hi. destruct (plot_stops d vt mid r dim K Hv H Hd) as [L G]. destruct (route_acts d mid vt r H) as [E _].
  destruct (route_load d mid vt r dim V Hv H Hd) as (_ & F1 & F2 & _). set (v := p_vehicle d vt) in *. set (cap := dimv (v_capacity v) dim) in *.
  rewrite F1. unfold route_excess. rewrite (trips_single mid Hm). cbn [map zsum]. rewrite Z.add_0_r. unfold trip_excess. fold cap. rewrite Hi, Z.add_0_r, <- F2.
  set (on := nth dim (r_delivery r) 0) in *. assert (X : forall a, Z.max 0 (a - cap) = 0 <-> a <= cap) by (intros; lia). rewrite X, peak_le. clear X.
  assert (Ld : forall pre post, map sa_act (r_schedule r) = pre ++ post -> (forall p q, mid = p ++ q -> on + zsum (map (load_change d dim) p) <= cap) -> on + zsum (map (load_change d dim) pre) <= cap).
  { intros pre post Ep Q. rewrite E in Ep. destruct pre as [|a pre]; [exact (Q [] mid eq_refl)|]. cbn [app] in Ep. injection Ep as <- Ep. cbn [map zsum load_change].
    destruct post as [|b post] using rev_ind.
    - rewrite app_nil_r in Ep. rewrite <- Ep, map_app, zsum_app. cbn [map zsum load_change]. specialize (Q mid [] (eq_sym (app_nil_r mid))). lia.
    - rewrite app_assoc in Ep. apply app_inj_tail in Ep as [Ep _]. specialize (Q pre post Ep). lia. }
  split.
  - intros Q p Hp. unfold trace in Hp. apply in_flat_map in Hp as (s & Hs & Hp). apply In_nth_error in Hs as [j Hj].
    assert (Lj : (j < length (r_schedule r))%nat) by (rewrite <- L; apply nth_error_Some; congruence).
    destruct (nth_split (r_schedule r) dummy_sched Lj) as (before & after & Es & El). specialize (G before _ after Es). cbv zeta in G. rewrite El, Hj in G. injection G as G.
    set (x := nth j (r_schedule r) dummy_sched) in *.
    assert (A1 : on + zsum (map (load_change d dim) (map sa_act before)) <= cap) by (apply (Ld _ (map sa_act (x :: after))); [rewrite Es, map_app; reflexivity|exact Q]).
    assert (A2 : on + zsum (map (load_change d dim) (map sa_act (before ++ [x]))) <= cap) by (apply (Ld _ (map sa_act after)); [rewrite Es, <- map_app, <- app_assoc; reflexivity|exact Q]).
    rewrite G in Hp. cbn [sp_arrive sp_start sp_end] in Hp. destruct Hp as [<-|[<-|[<-|[]]]]; assumption.
  - intros Q pre post Ep.
    assert (Sp : exists before x after, r_schedule r = before ++ x :: after /\ map sa_act (before ++ [x]) = ADepot (v_start v) :: pre).
    { assert (Ea : map sa_act (r_schedule r) = (ADepot (v_start v) :: pre) ++ (post ++ [ADepot (v_end v)])) by (rewrite E, Ep; cbn [app]; rewrite <- app_assoc; reflexivity).
      apply map_eq_app in Ea as (l1 & l2 & Es & E1 & E2). assert (Hn : l1 <> []) by (intros ->; discriminate). destruct (exists_last Hn) as (before & x & Eb).
      exists before, x, l2. rewrite <- Eb. split; [rewrite Es, Eb, <- app_assoc; reflexivity|exact E1]. }
    destruct Sp as (before & x & after & Es & Ea). specialize (G before x after Es). cbv zeta in G. apply nth_error_In in G.
    rewrite Ea in G. set (s := mk_stop_plot _ _ _ _ _) in G. specialize (Q (sp_end s)). cbn [s sp_end pt_load map zsum load_change] in Q.
    apply Q. unfold trace. apply in_flat_map. exists s. split; [exact G|]. right. right. left. reflexivity.
Qed.
