(** 64-bit arithmetic of the routes of the local search, as Overflow.v does for routes of a solution: [None] is an overflow.
    Each definition repeats the one of the same name without [k] in SearchRoute.v and Cost.v, operation by operation. *)
From Coq Require Import ZArith Lia List.
From Verif Require Import Base DurationSegment Data LoadSegment SearchRoute Valid ProposalDur Cost Overflow OverflowSeg OverflowRoute OverflowMore OverflowCost.
Import ListNotations.
Local Open Scope Z_scope.

(** ** The caches: search/Route.cpp:189-407 *)
(** search/Route.cpp:237-244 *)
Fixpoint kdist_loop (dist : nat -> nat -> Z) (prev : item) (acc : Z) (rest : list item) : option (list Z) :=
  match rest with
  | [] => Some []
  | x :: xs => c <-- ck (acc + dist (it_loc prev) (it_loc x)); cs <-- kdist_loop dist x c xs; Some (c :: cs)
  end.
Definition kdist_array (dist : nat -> nat -> Z) (its : list item) : option (list Z) :=
  match its with
  | [] => Some []
  | x :: xs => cs <-- kdist_loop dist x 0 xs; Some (0 :: cs)
  end.
(** search/Route.cpp:284-303 *)
Definition kbefore_step (d : pdata) (dur : nat -> nat -> Z) (prev : item) (acc : dseg) (x : item) : option dseg :=
  before <-- (if it_reload prev
              then b <-- kds_finaliseBack acc; kds_merge 0 b (ds_service (it_srv d prev))
              else Some acc);
  kds_merge (dur (it_loc prev) (it_loc x)) before (it_dur x).
Fixpoint kbefore_loop (d : pdata) (dur : nat -> nat -> Z) (prev : item) (acc : dseg) (rest : list item) : option (list dseg) :=
  match rest with
  | [] => Some []
  | x :: xs => c <-- kbefore_step d dur prev acc x; cs <-- kbefore_loop d dur x c xs; Some (c :: cs)
  end.
Definition kbefore_array (d : pdata) (dur : nat -> nat -> Z) (its : list item) : option (list dseg) :=
  match its with
  | [] => Some []
  | x :: xs => cs <-- kbefore_loop d dur x (it_dur x) xs; Some (it_dur x :: cs)
  end.
(** search/Route.cpp:305-326 *)
Definition kafter_step (d : pdata) (dur : nat -> nat -> Z) (x next : item) (nextDur : dseg) : option dseg :=
  after <-- (if it_reload next then kds_finaliseFront nextDur else Some nextDur);
  after <-- (if it_reload x then kds_merge 0 (ds_service (it_srv d x)) after else Some after);
  kds_merge (dur (it_loc x) (it_loc next)) (it_dur x) after.
Fixpoint kafter_array (d : pdata) (dur : nat -> nat -> Z) (its : list item) : option (list dseg) :=
  match its with
  | [] => Some []
  | x :: xs =>
      rest <-- kafter_array d dur xs;
      match xs, rest with
      | next :: _, nextDur :: _ => c <-- kafter_step d dur x next nextDur; Some (c :: rest)
      | _, _ => Some [it_dur x]
      end
  end.
(** search/Route.cpp:330-356: the load segment of a node, made once in the code and here at each use. *)
Definition kit_load (d : pdata) (dim : nat) (x : item) : option lseg :=
  match it_act x with
  | AClient i => kls_client (p_client d i) dim
  | APickup i => kls_shipment (p_shipment d i) true dim
  | ADelivery i => kls_shipment (p_shipment d i) false dim
  | ADepot _ => Some (it_load x dim)
  end.
(** search/Route.cpp:358-369 *)
Definition klbefore_step (cap : Z) (prev : item) (acc : lseg) (x : lseg) : option lseg :=
  before <-- (if it_reload prev then kls_finalise cap acc else Some acc); kls_merge before x.
Fixpoint klbefore_loop (d : pdata) (cap : Z) (dim : nat) (prev : item) (acc : lseg) (rest : list item) : option (list lseg) :=
  match rest with
  | [] => Some []
  | x :: xs => l <-- kit_load d dim x; c <-- klbefore_step cap prev acc l; cs <-- klbefore_loop d cap dim x c xs; Some (c :: cs)
  end.
Definition klbefore_array (d : pdata) (cap : Z) (dim : nat) (its : list item) : option (list lseg) :=
  match its with
  | [] => Some []
  | x :: xs => l <-- kit_load d dim x; cs <-- klbefore_loop d cap dim x l xs; Some (l :: cs)
  end.
(** search/Route.cpp:377-389 *)
Fixpoint klafter_array (d : pdata) (cap : Z) (dim : nat) (its : list item) : option (list lseg) :=
  match its with
  | [] => Some []
  | x :: xs =>
      rest <-- klafter_array d cap dim xs;
      l <-- kit_load d dim x;
      match xs, rest with
      | next :: _, nextLoad :: _ =>
          after <-- (if it_reload next then kls_finalise cap nextLoad else Some nextLoad);
          c <-- kls_merge l after; Some (c :: rest)
      | _, _ => Some [l]
      end
  end.
(** search/Route.cpp:371-375, LoadSegment.h:123 *)
Fixpoint kload_sum (sum : Z) (its : list item) (before : list lseg) : option Z :=
  match its, before with
  | x :: xs, b :: bs =>
      if a_isDepot (it_act x) then l <-- ck (ls_initial b + ls_increase b); sum <-- ck (sum + l); kload_sum sum xs bs
      else kload_sum sum xs bs
  | _, _ => Some sum
  end.
(** search/Route.cpp:246-257: the first and last node. *)
Definition kroute_items (d : pdata) (v : vehicle) (mid : list activity) : option (list item) :=
  let start := p_depot d (v_start v) in
  let e := p_depot d (v_end v) in
  s <-- kds_merge 0 (ds_vehicle v (v_startLate v)) (ds_depot start (d_service start));
  t <-- kds_merge 0 (ds_depot e 0) (ds_vehicle v (v_late v));
  Some (mk_item (ADepot (v_start v)) (d_loc start) s (fun dim => ls_vehicle v dim) false
        :: map (item_act d) mid ++ [mk_item (ADepot (v_end v)) (d_loc e) t (fun _ => ls_zero) false]).
(** search/Route.cpp:330-389, one load dimension: the two arrays, the load and the excess load. *)
Definition kload_dim (d : pdata) (v : vehicle) (its : list item) (dim : nat) : option (list lseg * list lseg * Z * Z) :=
  let cap := dimv (v_capacity v) dim in
  lb <-- klbefore_array d cap dim its;
  la <-- klafter_array d cap dim its;
  load <-- kload_sum 0 (List.tl its) (List.tl lb);
  excess <-- kls_excessLoad cap (last lb ls_zero);
  Some (lb, la, load, excess).
Definition kupdate (d : pdata) (v : vehicle) (mid : list activity) : option cache :=
  its <-- kroute_items d v mid;
  cumDist <-- kdist_array (p_dist d (v_profile v)) its;
  durBefore <-- kbefore_array d (p_dur d (v_profile v)) its;
  durAfter <-- kafter_array d (p_dur d (v_profile v)) its;
  loads <-- omap (kload_dim d v its) (seq 0 (p_numLoadDimensions d));
  let distance := last cumDist 0 in
  overDistance <-- ck (distance - v_maxDistance v);
  distanceCost <-- ck (v_unitDistance v * distance);
  duration <-- kds_duration (hd dnone durAfter);
  timeWarp <-- kds_timeWarp (v_maxDuration v) (hd dnone durAfter);
  over <-- ck (duration - v_shift v);
  durCost <-- ck (v_unitDuration v * duration);
  overCost <-- ck (v_unitOvertime v * Z.max over 0);
  durationCost <-- ck (durCost + overCost);
  Some (mk_cache v its
    (count_array a_isClient its) (count_array a_isPickup its) (count_array a_isDelivery its)
    cumDist durBefore durAfter
    (map (fun l => fst (fst (fst l))) loads) (map (fun l => snd (fst (fst l))) loads)
    (map (fun l => snd (fst l)) loads) (map snd loads)
    distance (Z.max overDistance 0) distanceCost duration timeWarp durationCost).

(** ** Segments and proposals *)
(** search/Route.h:898-920 *)
Fixpoint kdist_walk (dist : nat -> nat -> Z) (prev : item) (acc : Z) (rest : list item) : option Z :=
  match rest with
  | [] => Some acc
  | x :: xs => acc <-- ck (acc + dist (it_loc prev) (it_loc x)); kdist_walk dist x acc xs
  end.
(** search/Route.h:730-920 *)
Definition ksg_distance (d : pdata) (profile : nat) (s : seg) : option Z :=
  match s with
  | SBefore c e => Some (nth e (ca_cumDist c) 0)
  | SAfter c s => ck (last (ca_cumDist c) 0 - nth s (ca_cumDist c) 0)
  | SBetween c s e =>
      if Nat.eqb profile (v_profile (ca_veh c))
      then ck (nth e (ca_cumDist c) 0 - nth s (ca_cumDist c) 0)
      else kdist_walk (p_dist d profile) (ca_item c s) 0 (slice (ca_items c) s e)
  | _ => Some 0
  end.
(** search/Route.h:922-942 *)
Fixpoint kdur_walk (dur : nat -> nat -> Z) (prev : item) (acc : dseg) (rest : list item) : option dseg :=
  match rest with
  | [] => Some acc
  | x :: xs => acc <-- kds_merge (dur (it_loc prev) (it_loc x)) acc (it_dur x); kdur_walk dur x acc xs
  end.
Definition ksg_duration (d : pdata) (profile : nat) (s : seg) : option dseg :=
  match s with
  | SBetween c s e =>
      let x := ca_item c s in
      segment <-- (if negb (sg_size (SBetween c s e) =? 1)%nat && it_reload x
                   then kds_merge 0 (it_dur x) (ds_service (it_srv d x)) else Some (it_dur x));
      kdur_walk (p_dur d profile) x segment (slice (ca_items c) s e)
  | _ => Some (sg_duration d profile s)
  end.
(** search/Route.h:944-953, ClientSegment.h, PickupSegment.h, DeliverySegment.h: load *)
Fixpoint kload_walk (dim : nat) (acc : lseg) (rest : list item) : option lseg :=
  match rest with
  | [] => Some acc
  | x :: xs => acc <-- kls_merge acc (it_load x dim); kload_walk dim acc xs
  end.
Definition ksg_load (d : pdata) (dim : nat) (s : seg) : option lseg :=
  match s with
  | SBetween c s e => kload_walk dim (it_load (ca_item c s) dim) (slice (ca_items c) s e)
  | SClient i => kls_client (p_client d i) dim
  | SPickup i => kls_shipment (p_shipment d i) true dim
  | SDelivery i => kls_shipment (p_shipment d i) false dim
  | _ => Some (sg_load d dim s)
  end.
(** search/Route.h:1190-1222 *)
Fixpoint kprop_dist_loop (d : pdata) (profile : nat) (acc : Z) (lastLoc : nat) (rest : list seg) : option Z :=
  match rest with
  | [] => Some acc
  | o :: more =>
      acc <-- ck (acc + p_dist d profile lastLoc (it_loc (sg_front d o)));
      own <-- ksg_distance d profile o;
      acc <-- ck (acc + own);
      kprop_dist_loop d profile acc (it_loc (sg_back d o)) more
  end.
Definition kprop_distance (d : pdata) (v : vehicle) (p : proposal) : option (Z * Z) :=
  first <-- ksg_distance d (v_profile v) (pr_first p);
  distance <-- kprop_dist_loop d (v_profile v) first (it_loc (sg_back d (pr_first p))) (pr_rest p);
  over <-- ck (distance - v_maxDistance v);
  cost <-- ck (v_unitDistance v * distance);
  Some (cost, Z.max over 0).
(** search/Route.h:1224-1293 *)
Definition kprop_dur_merge (d : pdata) (profile : nat) (ds : dseg) (firstLoc : nat) (o : seg) : option dseg :=
  let edgeDur := p_dur d profile (it_loc (sg_back d o)) firstLoc in
  own <-- ksg_duration d profile o;
  if sg_endsReload o then
    let depot := p_depot d (a_idx (it_act (sg_back d o))) in
    ds <-- kds_merge edgeDur (ds_depot depot (d_service depot)) ds;
    ds <-- kds_finaliseFront ds;
    kds_merge 0 own ds
  else kds_merge edgeDur own ds.
Fixpoint kprop_dur_loop (d : pdata) (profile : nat) (ds : dseg) (firstLoc : nat) (rest : list seg) : option dseg :=
  match rest with
  | [] => Some ds
  | o :: more =>
      ds <-- kprop_dur_merge d profile ds firstLoc o;
      ds <-- match more with
             | [] => Some ds
             | _ => if sg_startsReload o && (1 <? sg_size o)%nat then kds_finaliseFront ds else Some ds
             end;
      kprop_dur_loop d profile ds (it_loc (sg_front d o)) more
  end.
Definition kprop_dseg (d : pdata) (profile : nat) (segs : list seg) : option dseg :=
  match rev segs with
  | [] => Some dnone
  | l :: others =>
      ds <-- ksg_duration d profile l;
      ds <-- (if sg_startsReload l then kds_finaliseFront ds else Some ds);
      kprop_dur_loop d profile ds (it_loc (sg_front d l)) others
  end.
Definition kprop_duration (d : pdata) (v : vehicle) (p : proposal) : option (Z * Z) :=
  ds <-- kprop_dseg d (v_profile v) (pr_first p :: pr_rest p);
  duration <-- kds_duration ds;
  over <-- ck (duration - v_shift v);
  durCost <-- ck (v_unitDuration v * duration);
  overCost <-- ck (v_unitOvertime v * Z.max over 0);
  cost <-- ck (durCost + overCost);
  timeWarp <-- kds_timeWarp (v_maxDuration v) ds;
  Some (cost, timeWarp).
(** search/Route.h:1295-1331 *)
Fixpoint kprop_load_loop (d : pdata) (cap : Z) (dim : nat) (ls : lseg) (rest : list seg) : option lseg :=
  match rest with
  | [] => Some ls
  | o :: more =>
      ls <-- (if sg_startsReload o then kls_finalise cap ls else Some ls);
      own <-- ksg_load d dim o;
      ls <-- kls_merge ls own;
      ls <-- match more with
             | [] => Some ls
             | _ => if sg_endsReload o && (1 <? sg_size o)%nat then kls_finalise cap ls else Some ls
             end;
      kprop_load_loop d cap dim ls more
  end.
Definition kprop_excessLoad (d : pdata) (v : vehicle) (dim : nat) (p : proposal) : option Z :=
  let cap := dimv (v_capacity v) dim in
  ls <-- ksg_load d dim (pr_first p);
  ls <-- (if sg_endsReload (pr_first p) then kls_finalise cap ls else Some ls);
  ls <-- kprop_load_loop d cap dim ls (pr_rest p);
  kls_excessLoad cap ls.

(** ** Delta costs, with the figures of the proposals checked as well: CostEvaluator.h:212-329 *)
Definition fadd_dist (ev : evaluator) (d : pdata) (v : vehicle) (p : proposal) (out : Z) : option Z :=
  if hasDistanceCost v then
    f <-- kprop_distance d v p;
    out <-- ck (out + fst f); x <-- ck (excessDistPenalty ev (snd f)); ck (out + x)
  else Some out.
Definition fadd_dur (ev : evaluator) (d : pdata) (v : vehicle) (p : proposal) (out : Z) : option Z :=
  if hasDurationCost d v then
    f <-- kprop_duration d v p;
    out <-- ck (out + fst f); x <-- ck (twPenalty ev (snd f)); ck (out + x)
  else Some out.
Fixpoint fadd_loads (exact : bool) (ev : evaluator) (d : pdata) (v : vehicle) (p : proposal) (dims : list nat) (out : Z) : option (Z + Z) :=
  match dims with
  | [] => Some (inr out)
  | dim :: more =>
      if negb exact && (0 <=? out) then Some (inl out)
      else l <-- kprop_excessLoad d v dim p; x <-- kloadPenalty ev l 0 dim; out <-- ck (out + x); fadd_loads exact ev d v p more out
  end.
Definition fdeltaCost (exact : bool) (ev : evaluator) (d : pdata) (out : Z) (p : proposal) : option (Z * bool) :=
  let c := prop_cache d p in
  let v := ca_veh c in
  pc <-- ksearch_penalised ev c;
  out <-- ck (out - pc);
  out <-- ck (out + v_fixedCost v);
  out <-- fadd_dist ev d v p out;
  l <-- fadd_loads exact ev d v p (cap_dims v) out;
  match l with
  | inl out => Some (out, false)
  | inr out => out <-- fadd_dur ev d v p out; Some (out, true)
  end.
Definition fdeltaCost2 (exact : bool) (ev : evaluator) (d : pdata) (out : Z) (u v : proposal) : option (Z * bool) :=
  let cu := prop_cache d u in
  let cv := prop_cache d v in
  let uv := ca_veh cu in
  let vv := ca_veh cv in
  pu <-- ksearch_penalised ev cu;
  out <-- ck (out - pu);
  pv <-- ksearch_penalised ev cv;
  out <-- ck (out - pv);
  out <-- ck (out + v_fixedCost uv);
  out <-- ck (out + v_fixedCost vv);
  out <-- fadd_dist ev d uv u out;
  out <-- fadd_dist ev d vv v out;
  l <-- fadd_loads exact ev d uv u (cap_dims uv) out;
  match l with
  | inl out => Some (out, false)
  | inr out =>
      l <-- fadd_loads exact ev d vv v (cap_dims vv) out;
      match l with
      | inl out => Some (out, false)
      | inr out =>
          if negb exact && (0 <=? out) then Some (out, false)
          else out <-- fadd_dur ev d uv u out; out <-- fadd_dur ev d vv v out; Some (out, true)
      end
  end.
