(** 64-bit arithmetic: the computations of DurationSegment, LoadSegment and Route with the overflow checks of
    Measure.h.  [None] is a failed assertion of Measure.h:100-232, that is, an overflow; in a build without
    assertions it is undefined behaviour.  Each definition repeats the one of the same name without [k] in
    DurationSegment.v, LoadSegment.v, Route.v and Cost.v, operation by operation. *)
From Verif Require Import Base DurationSegment Data LoadSegment Route.

Definition int64b (x : Z) : bool := (- MAXV - 1 <=? x) && (x <=? MAXV).
Definition ck (x : Z) : option Z := if int64b x then Some x else None.
Definition obind {A B} (x : option A) (f : A -> option B) : option B := match x with Some a => f a | None => None end.
Notation "x <-- e ; f" := (obind e (fun x => f)) (at level 61, e at next level, right associativity).

(** ** DurationSegment *)
(** DurationSegment.h:190-226 *)
Definition kds_merge (edge : Z) (first second : dseg) : option dseg :=
  net <-- ck (ds_dur first - ds_tw first);
  atSecond <-- ck (net + edge);
  arrive <-- ck (ds_early first + atSecond);
  diffTw <-- (if arrive >? ds_late second then ck (arrive - ds_late second) else Some 0);
  latest <-- ck (ds_early second - atSecond);
  diffWait <-- (if latest >? ds_late first then ck (latest - ds_late first) else Some 0);
  room <-- ck (ds_late second - MAXV);
  secondLate <-- (if atSecond >? room then ck (ds_late second - atSecond) else Some (ds_late second));
  dur <-- ck (ds_dur first + ds_dur second);
  dur <-- ck (dur + edge);
  dur <-- ck (dur + diffWait);
  tw <-- ck (ds_tw first + ds_tw second);
  tw <-- ck (tw + diffTw);
  early <-- ck (Z.max (ds_early first) latest - diffWait);
  late <-- ck (Z.min (ds_late first) secondLate + diffTw);
  cdur <-- ck (ds_cdur first + ds_cdur second);
  ctw <-- ck (ds_ctw first + ds_ctw second);
  Some (mk_dseg dur tw early late (Z.max (ds_rel first) (ds_rel second)) cdur ctw (ds_pel first)).
(** DurationSegment.h:266-270 *)
Definition kds_duration (s : dseg) : option Z :=
  duration <-- ck (ds_cdur s + ds_dur s);
  wait <-- ck (ds_startEarly s - ds_pel s);
  ck (duration + Z.max wait 0).
(** DurationSegment.h:272-283 *)
Definition kds_timeWarp (maxDuration : Z) (s : dseg) : option Z :=
  timeWarp <-- ck (ds_ctw s + ds_tw s);
  duration <-- kds_duration s;
  netDuration <-- ck (duration - timeWarp);
  wait <-- ck (ds_rel s - ds_late s);
  res <-- ck (timeWarp + Z.max wait 0);
  over <-- (if netDuration >? maxDuration then ck (netDuration - maxDuration) else Some 0);
  ck (res + over).
(** DurationSegment.h:299-304 *)
Definition kds_endEarly (s : dseg) : option Z :=
  duration <-- kds_duration s;
  tripDuration <-- ck (duration - ds_cdur s);
  timeWarp <-- kds_timeWarp MAXV s;
  tripTimeWarp <-- ck (timeWarp - ds_ctw s);
  time <-- ck (ds_startEarly s + tripDuration);
  ck (time - tripTimeWarp).
(** DurationSegment.h:306-314 *)
Definition kds_endLate (s : dseg) : option Z :=
  duration <-- kds_duration s;
  tripDuration <-- ck (duration - ds_cdur s);
  timeWarp <-- kds_timeWarp MAXV s;
  tripTimeWarp <-- ck (timeWarp - ds_ctw s);
  netDuration <-- ck (tripDuration - tripTimeWarp);
  room <-- ck (MAXV - ds_startLate s);
  if netDuration >? room then Some MAXV else ck (ds_startLate s + netDuration).
(** DurationSegment.h:258-264 *)
Definition kds_finaliseFront (s : dseg) : option dseg :=
  kds_merge 0 (ds_raw 0 0 (ds_startEarly s) (ds_startLate s)) (ds_raw (ds_dur s) (ds_tw s) (ds_early s) (ds_late s)).
(** DurationSegment.h:234-256 *)
Definition kds_finaliseBack (s : dseg) : option dseg :=
  front <-- kds_finaliseFront s;
  finalised <-- kds_merge 0 (ds_raw 0 0 0 (ds_pel s)) front;
  endEarly <-- kds_endEarly finalised;
  duration <-- kds_duration finalised;
  cdur <-- ck (ds_cdur s + duration);
  timeWarp <-- kds_timeWarp MAXV finalised;
  ctw <-- ck (ds_ctw s + timeWarp);
  endLate <-- kds_endLate finalised;
  Some (mk_dseg 0 0 endEarly MAXV endEarly cdur ctw endLate).
(** DurationSegment.cpp:12-19 *)
Definition kds_slack (s : dseg) : option Z :=
  prev <-- ck (ds_pel s - ds_rel s);
  own <-- ck (ds_startLate s - ds_startEarly s);
  Some (Z.min own (Z.max prev 0)).

(** ** LoadSegment *)
(** LoadSegment.h:111-121 *)
Definition kls_merge (first second : lseg) : option lseg :=
  initial <-- ck (ls_initial first + ls_initial second);
  delta <-- ck (ls_delta first + ls_delta second);
  increase <-- ck (ls_delta first + ls_increase second);
  excess <-- ck (ls_excess first + ls_excess second);
  Some (mk_lseg initial delta (Z.max (ls_increase first) increase) excess).
(** LoadSegment.h:123-133 *)
Definition kls_excessLoad (capacity : Z) (s : lseg) : option Z :=
  load <-- ck (ls_initial s + ls_increase s);
  over <-- ck (load - capacity);
  ck (ls_excess s + Z.max over 0).
Definition kls_finalise (capacity : Z) (s : lseg) : option lseg :=
  excess <-- kls_excessLoad capacity s; Some (mk_lseg 0 0 0 excess).
(** LoadSegment.cpp:16-33 *)
Definition kls_client (c : client) (dim : nat) : option lseg :=
  delta <-- ck (dimv (c_pickup c) dim - dimv (c_delivery c) dim);
  Some (mk_lseg (dimv (c_delivery c) dim) delta (Z.max 0 delta) 0).
Definition kls_shipment (s : shipment) (pickup : bool) (dim : nat) : option lseg :=
  delta <-- (if pickup then Some (dimv (s_amount s) dim) else ck (- dimv (s_amount s) dim));
  Some (mk_lseg 0 delta (Z.max 0 delta) 0).

(** ** Route *)
(** Route.cpp:148-150 *)
Definition kbpass_init (d : pdata) (v : vehicle) : option bpass :=
  let e := p_depot d (v_end v) in
  ds <-- kds_merge 0 (ds_depot e 0) (ds_vehicle v (v_late v));
  Some (mk_bpass ds (d_loc e) [] 0 0).
(** Route.cpp:151-209, without the finalisation at depots *)
Definition kbpass_visit (d : pdata) (v : vehicle) (loc : nat) (seg : dseg) (b : bpass) : option bpass :=
  let edge := p_dur d (v_profile v) loc (bp_loc b) in
  service <-- ck (bp_service b + ds_dur seg);
  travel <-- ck (bp_travel b + edge);
  ds <-- kds_merge edge seg (bp_ds b);
  Some (mk_bpass ds loc (bp_rels b) service travel).
Definition kbpass_step (d : pdata) (v : vehicle) (a : activity) (b : bpass) : option bpass :=
  match a with
  | ADepot i =>
      b <-- kbpass_visit d v (d_loc (p_depot d i)) (ds_depot (p_depot d i) (d_service (p_depot d i))) b;
      ds <-- kds_finaliseFront (bp_ds b);
      Some (mk_bpass ds (bp_loc b) (ds_rel (bp_ds b) :: bp_rels b) (bp_service b) (bp_travel b))
  | AClient i => kbpass_visit d v (c_loc (p_client d i)) (ds_client (p_client d i)) b
  | APickup i => kbpass_visit d v (st_loc (s_pickup (p_shipment d i))) (ds_step (s_pickup (p_shipment d i))) b
  | ADelivery i => kbpass_visit d v (st_loc (s_delivery (p_shipment d i))) (ds_step (s_delivery (p_shipment d i))) b
  end.
Fixpoint kbpass_loop (d : pdata) (v : vehicle) (acts : list activity) : option bpass :=
  match acts with
  | [] => kbpass_init d v
  | a :: more => b <-- kbpass_loop d v more; kbpass_step d v a b
  end.
(** Route.cpp:211-220 *)
Definition kbpass_final (d : pdata) (v : vehicle) (acts : list activity) : option bpass :=
  b <-- kbpass_loop d v acts;
  let start := p_depot d (v_start v) in
  b <-- kbpass_visit d v (d_loc start) (ds_depot start (d_service start)) b;
  ds <-- kds_merge 0 (ds_vehicle v (v_startLate v)) (bp_ds b);
  Some (mk_bpass ds (bp_loc b) (ds_rel ds :: bp_rels b) (bp_service b) (bp_travel b)).
(** Route.cpp:231-247 *)
Definition khandle (now : Z) (a : activity) (trip : nat) (early late service : Z) : option (Z * sched) :=
  wait <-- ck (early - now);
  w <-- ck (now - late);
  now <-- ck (now + Z.max wait 0);
  now <-- ck (now - Z.max w 0);
  later <-- ck (now + service);
  Some (later, mk_sched a trip now later (Z.max wait 0) (Z.max w 0)).
(** Route.cpp:255-320; the window, service and location of a visit. *)
Definition visit_at (d : pdata) (release : Z) (a : activity) : nat * Z * Z * Z :=
  match a with
  | ADepot i => let x := p_depot d i in (d_loc x, Z.max (d_early x) (Z.min release (d_late x)), d_late x, d_service x)
  | AClient i => let c := p_client d i in (c_loc c, c_early c, c_late c, c_service c)
  | APickup i => let s := s_pickup (p_shipment d i) in (st_loc s, st_early s, st_late s, st_service s)
  | ADelivery i => let s := s_delivery (p_shipment d i) in (st_loc s, st_early s, st_late s, st_service s)
  end.
Fixpoint kfpass (d : pdata) (v : vehicle) (now : Z) (prevLoc : nat) (tripIdx : nat) (rels : list Z)
    (numTrips : nat) (acts : list activity) : option (list sched) :=
  match acts with
  | [] =>
      let e := p_depot d (v_end v) in
      now <-- ck (now + p_dur d (v_profile v) prevLoc (d_loc e));
      r <-- khandle now (ADepot (v_end v)) numTrips (d_early e) (d_late e) 0;
      Some [snd r]
  | a :: more =>
      let '(loc, early, late, service) := visit_at d (hd 0 rels) a in
      let trip := match a with ADepot _ => S tripIdx | _ => tripIdx end in
      let rels := match a with ADepot _ => List.tl rels | _ => rels end in
      now <-- ck (now + p_dur d (v_profile v) prevLoc loc);
      r <-- khandle now a trip early late service;
      rest <-- kfpass d v (fst r) loc trip rels numTrips more;
      Some (snd r :: rest)
  end.
(** Route.cpp:222-329 *)
Definition kset_schedule (d : pdata) (v : vehicle) (b : bpass) (acts : list activity) : option (list sched) :=
  let start := p_depot d (v_start v) in
  r <-- khandle (ds_startEarly (bp_ds b)) (ADepot (v_start v)) 0
          (Z.max (d_early start) (Z.min (ds_rel (bp_ds b)) (d_late start)))
          (Z.min (d_late start) (v_startLate v)) (d_service start);
  rest <-- kfpass d v (fst r) (d_loc start) 0 (List.tl (bp_rels b)) (length (bp_rels b)) acts;
  Some (snd r :: rest).
(** Route.cpp:331-367; the sum is built from the front. *)
Fixpoint kdistance_loop (d : pdata) (profile : nat) (sum : Z) (frm : nat) (acts : list activity) : option Z :=
  match acts with
  | [] => Some sum
  | a :: more => sum <-- ck (sum + p_dist d profile frm (a_loc d a)); kdistance_loop d profile sum (a_loc d a) more
  end.
(** Route.cpp:369-414 *)
Definition kload_step (d : pdata) (v : vehicle) (dim : nat) (st : lseg * Z * Z) (a : activity) : option (lseg * Z * Z) :=
  let '(ls, del, pick) := st in
  match a with
  | ADepot _ => ls <-- kls_finalise (dimv (v_capacity v) dim) ls; Some (ls, del, pick)
  | AClient i =>
      seg <-- kls_client (p_client d i) dim;
      ls <-- kls_merge ls seg;
      del <-- ck (del + dimv (c_delivery (p_client d i)) dim);
      pick <-- ck (pick + dimv (c_pickup (p_client d i)) dim);
      Some (ls, del, pick)
  | APickup i => seg <-- kls_shipment (p_shipment d i) true dim; ls <-- kls_merge ls seg; Some (ls, del, pick)
  | ADelivery i => seg <-- kls_shipment (p_shipment d i) false dim; ls <-- kls_merge ls seg; Some (ls, del, pick)
  end.
Fixpoint kload_loop (d : pdata) (v : vehicle) (dim : nat) (acts : list activity) (st : lseg * Z * Z) : option (lseg * Z * Z) :=
  match acts with
  | [] => Some st
  | a :: more => st <-- kload_step d v dim st a; kload_loop d v dim more st
  end.
Definition kset_load (d : pdata) (v : vehicle) (dim : nat) (acts : list activity) : option (Z * Z * Z) :=
  let init := if dimv (v_initialLoad v) dim >? 0 then (ls_vehicle v dim, 0, dimv (v_initialLoad v) dim) else (ls_zero, 0, 0) in
  st <-- kload_loop d v dim acts init;
  let '(ls, del, pick) := st in
  excess <-- kls_excessLoad (dimv (v_capacity v) dim) ls;
  Some (del, pick, excess).
Fixpoint omap {A B} (f : A -> option B) (l : list A) : option (list B) :=
  match l with
  | [] => Some []
  | x :: more => y <-- f x; ys <-- omap f more; Some (y :: ys)
  end.
(** Route.cpp:416-432 *)
Fixpoint ksum (sum : Z) (l : list Z) : option Z :=
  match l with [] => Some sum | x :: more => sum <-- ck (sum + x); ksum sum more end.

(** Route.cpp:447-460, after validation. *)
Definition kmake_route (d : pdata) (acts : list activity) (vehicleType : nat) : option route :=
  let v := p_vehicle d vehicleType in
  b <-- kbpass_final d v acts;
  duration <-- kds_duration (bp_ds b);
  over <-- ck (duration - v_shift v);
  let overtime := Z.max over 0 in
  durCost <-- ck (v_unitDuration v * duration);
  overCost <-- ck (v_unitOvertime v * overtime);
  durationCost <-- ck (durCost + overCost);
  slack <-- kds_slack (bp_ds b);
  timeWarp <-- kds_timeWarp (v_maxDuration v) (bp_ds b);
  schedule <-- kset_schedule d v b acts;
  let sacts := map sa_act schedule in
  distance <-- kdistance_loop d (v_profile v) 0 (d_loc (p_depot d (v_start v))) (List.tl sacts);
  distanceCost <-- ck (v_unitDistance v * distance);
  excessDistance <-- ck (distance - v_maxDistance v);
  loads <-- omap (fun dim => kset_load d v dim (List.tl sacts)) (seq 0 (p_numLoadDimensions d));
  prizes <-- ksum 0 (map (act_prize d) sacts);
  Some (mk_route schedule distance distanceCost (Z.max excessDistance 0)
          (map (fun x => fst (fst x)) loads) (map (fun x => snd (fst x)) loads) (map snd loads)
          duration overtime durationCost timeWarp (bp_travel b) (bp_service b)
          (ds_startEarly (bp_ds b)) (ds_rel (bp_ds b)) slack (v_fixedCost v) prizes vehicleType (count_pickups sacts)).
(** Route.cpp:561 and 567: accessors that compute. *)
Definition kwaitDuration (r : route) : option Z := x <-- ck (r_duration r - r_travel r); ck (x - r_service r).
Definition kendTime (r : route) : option Z := x <-- ck (r_startTime r + r_duration r); ck (x - r_timeWarp r).

(** ** Solution *)
(** Solution.cpp:19-50: the sums over the routes. *)
Record sums := mk_sums {
  su_prizes : Z; su_distance : Z; su_distanceCost : Z; su_duration : Z; su_overtime : Z; su_durationCost : Z;
  su_excessDistance : Z; su_timeWarp : Z; su_fixedCost : Z; su_excessLoad : list Z; su_uncollected : Z }.
Definition kevaluate (d : pdata) (routes : list route) : option sums :=
  all <-- ksum 0 (map c_prize (p_clients d) ++ map s_prize (p_shipments d));
  prizes <-- ksum 0 (map r_prizes routes);
  distance <-- ksum 0 (map r_distance routes);
  distanceCost <-- ksum 0 (map r_distanceCost routes);
  duration <-- ksum 0 (map r_duration routes);
  overtime <-- ksum 0 (map r_overtime routes);
  durationCost <-- ksum 0 (map r_durationCost routes);
  excessDistance <-- ksum 0 (map r_excessDistance routes);
  timeWarp <-- ksum 0 (map r_timeWarp routes);
  fixedCost <-- ksum 0 (map r_fixedCost routes);
  excessLoad <-- omap (fun dim => ksum 0 (map (fun r => nth dim (r_excessLoad r) 0) routes)) (seq 0 (p_numLoadDimensions d));
  uncollected <-- ck (all - prizes);
  Some (mk_sums prizes distance distanceCost duration overtime durationCost excessDistance timeWarp fixedCost excessLoad uncollected).

(** ** Segments of the search *)
(** The duration segments that search/Route.cpp:238-303 and search/Route.h:1224-1328 start from: a stop, an end of a
    vehicle's shift, or the service at a depot. *)
Inductive stop :=
| PClient (i : nat) | PPickup (i : nat) | PDelivery (i : nat) | PDepot (i : nat) (service : bool)
| PStart (vt : nat) | PEnd (vt : nat) | PService (depot : nat).
Definition stop_seg (d : pdata) (s : stop) : dseg :=
  match s with
  | PClient i => ds_client (p_client d i)
  | PPickup i => ds_step (s_pickup (p_shipment d i))
  | PDelivery i => ds_step (s_delivery (p_shipment d i))
  | PDepot i service => ds_depot (p_depot d i) (if service then d_service (p_depot d i) else 0)
  | PStart vt => ds_vehicle (p_vehicle d vt) (v_startLate (p_vehicle d vt))
  | PEnd vt => ds_vehicle (p_vehicle d vt) (v_late (p_vehicle d vt))
  | PService i => DurationSegment.ds_service (d_service (p_depot d i))
  end.
(** How segments are combined: joined over an edge of the matrix, or at the same place, and finalised on either side. *)
Inductive sexpr :=
| XStop (s : stop)
| XEdge (profile frm to : nat) (a b : sexpr)
| XHere (a b : sexpr)
| XFront (a : sexpr)
| XBack (a : sexpr).
Fixpoint seval (d : pdata) (e : sexpr) : dseg :=
  match e with
  | XStop s => stop_seg d s
  | XEdge p i j a b => ds_merge (p_dur d p i j) (seval d a) (seval d b)
  | XHere a b => ds_merge0 (seval d a) (seval d b)
  | XFront a => ds_finaliseFront (seval d a)
  | XBack a => ds_finaliseBack (seval d a)
  end.
Fixpoint kseval (d : pdata) (e : sexpr) : option dseg :=
  match e with
  | XStop s => Some (stop_seg d s)
  | XEdge p i j a b => x <-- kseval d a; y <-- kseval d b; kds_merge (p_dur d p i j) x y
  | XHere a b => x <-- kseval d a; y <-- kseval d b; kds_merge 0 x y
  | XFront a => x <-- kseval d a; kds_finaliseFront x
  | XBack a => x <-- kseval d a; kds_finaliseBack x
  end.
(** Segments finalised at the back (search/Route.cpp:284-303) have the start of the route on their left: they are
    only ever the first of two joined segments, and not finalised at the front. *)
Fixpoint plain (d : pdata) (e : sexpr) : Prop :=
  match e with
  | XStop (PStart vt) | XStop (PEnd vt) => (vt < p_numVehicleTypes d)%nat
  | XStop _ => True
  | XEdge _ _ _ a b | XHere a b => plain d a /\ plain d b
  | XFront a => plain d a
  | XBack _ => False
  end.
Fixpoint joined (d : pdata) (e : sexpr) : Prop :=
  match e with
  | XEdge _ _ _ a b | XHere a b => joined d a /\ plain d b
  | XBack a => joined d a
  | _ => plain d e
  end.
Fixpoint xsize (e : sexpr) : Z :=
  match e with
  | XStop _ => 1
  | XEdge _ _ _ a b | XHere a b => xsize a + xsize b + 1
  | XFront a | XBack a => xsize a + 1
  end.

(** The same for load segments (search/Route.cpp:330-388, search/Route.h:1295-1331). *)
Inductive lstop := LClient (i : nat) | LPickup (i : nat) | LDelivery (i : nat) | LStart (vt : nat) | LNone.
Definition lstop_seg (d : pdata) (dim : nat) (s : lstop) : lseg :=
  match s with
  | LClient i => ls_client (p_client d i) dim
  | LPickup i => ls_shipment (p_shipment d i) true dim
  | LDelivery i => ls_shipment (p_shipment d i) false dim
  | LStart vt => ls_vehicle (p_vehicle d vt) dim
  | LNone => ls_zero
  end.
Definition klstop_seg (d : pdata) (dim : nat) (s : lstop) : option lseg :=
  match s with
  | LClient i => kls_client (p_client d i) dim
  | LPickup i => kls_shipment (p_shipment d i) true dim
  | LDelivery i => kls_shipment (p_shipment d i) false dim
  | _ => Some (lstop_seg d dim s)
  end.
Inductive lexpr := YStop (s : lstop) | YJoin (a b : lexpr) | YFinal (a : lexpr).
Fixpoint leval (d : pdata) (capacity : Z) (dim : nat) (e : lexpr) : lseg :=
  match e with
  | YStop s => lstop_seg d dim s
  | YJoin a b => ls_merge (leval d capacity dim a) (leval d capacity dim b)
  | YFinal a => ls_finalise capacity (leval d capacity dim a)
  end.
Fixpoint kleval (d : pdata) (capacity : Z) (dim : nat) (e : lexpr) : option lseg :=
  match e with
  | YStop s => klstop_seg d dim s
  | YJoin a b => x <-- kleval d capacity dim a; y <-- kleval d capacity dim b; kls_merge x y
  | YFinal a => x <-- kleval d capacity dim a; kls_finalise capacity x
  end.
Fixpoint lgood (d : pdata) (e : lexpr) : Prop :=
  match e with
  | YStop (LStart vt) => (vt < p_numVehicleTypes d)%nat
  | YStop _ => True
  | YJoin a b => lgood d a /\ lgood d b
  | YFinal a => lgood d a
  end.
(** The number of stops. *)
Fixpoint lsize (e : lexpr) : Z :=
  match e with YStop _ => 1 | YJoin a b => lsize a + lsize b | YFinal a => lsize a end.
