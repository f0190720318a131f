(** Model of pyvrp/cpp/search/Route.{h,cpp}: the caches of a search route, the segments one can
    take from it and the evaluation of proposals.  The node bookkeeping (positions, trips,
    insert, remove, swap) is in SearchNodes.v. *)
From Verif Require Import Base DurationSegment Data LoadSegment.

(** What [Route::update] knows about one node of a route: its activity, [locations[idx]],
    [durAt[idx]], [loadAt[.][idx]] and whether the node is a reload depot
    (search/Route.h:709-722). *)
Record item := mk_item {
  it_act : activity;
  it_loc : nat;
  it_dur : dseg;
  it_load : nat -> lseg;
  it_reload : bool }.

(** search/Route.cpp:249-252 and 334: the start depot. *)
Definition item_start (d : pdata) (v : vehicle) : item :=
  let start := p_depot d (v_start v) in
  mk_item (ADepot (v_start v)) (d_loc start)
    (ds_merge0 (ds_vehicle v (v_startLate v)) (ds_depot start (d_service start)))
    (fun dim => ls_vehicle v dim) false.

(** search/Route.cpp:254-257 and 335: the end depot. *)
Definition item_end (d : pdata) (v : vehicle) : item :=
  let e := p_depot d (v_end v) in
  mk_item (ADepot (v_end v)) (d_loc e)
    (ds_merge0 (ds_depot e 0) (ds_vehicle v (v_late v)))
    (fun _ => ls_zero) false.

(** search/Route.cpp:259-280 and 337-356: any node in between. *)
Definition item_act (d : pdata) (a : activity) : item :=
  match a with
  | ADepot i => mk_item a (a_loc d a) (ds_depot (p_depot d i) 0) (fun _ => ls_zero) true
  | AClient i => mk_item a (a_loc d a) (ds_client (p_client d i)) (ls_client (p_client d i)) false
  | APickup i => mk_item a (a_loc d a) (ds_step (s_pickup (p_shipment d i)))
                   (ls_shipment (p_shipment d i) true) false
  | ADelivery i => mk_item a (a_loc d a) (ds_step (s_delivery (p_shipment d i)))
                   (ls_shipment (p_shipment d i) false) false
  end.

(** Nodes of a route with the given activities between start and end depot. *)
Definition route_items (d : pdata) (v : vehicle) (mid : list activity) : list item :=
  item_start d v :: map (item_act d) mid ++ [item_end d v].

(** Service duration of the (reload) depot of an item: data.depot(node->idx()).serviceDuration. *)
Definition it_srv (d : pdata) (x : item) : Z := d_service (p_depot d (a_idx (it_act x))).

(** search/Route.cpp:218-235: the counters numClients_, numPickups_, numDeliveries_. *)
Fixpoint count_loop (f : activity -> bool) (acc : nat) (rest : list item) : list nat :=
  match rest with
  | [] => []
  | x :: xs => let c := (acc + if f (it_act x) then 1 else 0)%nat in c :: count_loop f c xs
  end.
Definition count_array (f : activity -> bool) (its : list item) : list nat :=
  match its with
  | [] => []
  | _ :: xs => 0%nat :: count_loop f 0 xs
  end.

(** search/Route.cpp:237-244: cumDist. *)
Fixpoint dist_loop (dist : nat -> nat -> Z) (prev : item) (acc : Z) (rest : list item) : list Z :=
  match rest with
  | [] => []
  | x :: xs => let c := acc + dist (it_loc prev) (it_loc x) in c :: dist_loop dist x c xs
  end.
Definition dist_array (dist : nat -> nat -> Z) (its : list item) : list Z :=
  match its with
  | [] => []
  | x :: xs => 0 :: dist_loop dist x 0 xs
  end.

(** search/Route.cpp:284-303: durBefore. *)
Definition before_step (d : pdata) (dur : nat -> nat -> Z) (prev : item) (acc : dseg) (x : item) :=
  let before := if it_reload prev
                then ds_merge0 (ds_finaliseBack acc) (ds_service (it_srv d prev))
                else acc in
  ds_merge (dur (it_loc prev) (it_loc x)) before (it_dur x).
Fixpoint before_loop (d : pdata) (dur : nat -> nat -> Z) (prev : item) (acc : dseg)
    (rest : list item) : list dseg :=
  match rest with
  | [] => []
  | x :: xs => let c := before_step d dur prev acc x in c :: before_loop d dur x c xs
  end.
Definition before_array (d : pdata) (dur : nat -> nat -> Z) (its : list item) : list dseg :=
  match its with
  | [] => []
  | x :: xs => it_dur x :: before_loop d dur x (it_dur x) xs
  end.

(** search/Route.cpp:305-326: durAfter, the value at the first of the given items. *)
Definition after_step (d : pdata) (dur : nat -> nat -> Z) (x next : item) (nextDur : dseg) :=
  let after := if it_reload next then ds_finaliseFront nextDur else nextDur in
  let after := if it_reload x then ds_merge0 (ds_service (it_srv d x)) after else after in
  ds_merge (dur (it_loc x) (it_loc next)) (it_dur x) after.
Fixpoint after_array (d : pdata) (dur : nat -> nat -> Z) (its : list item) : list dseg :=
  match its with
  | [] => []
  | x :: xs =>
      let rest := after_array d dur xs in
      match xs, rest with
      | next :: _, nextDur :: _ => after_step d dur x next nextDur :: rest
      | _, _ => [it_dur x]
      end
  end.

(** search/Route.cpp:358-369: loadBefore, in one dimension. *)
Definition lbefore_step (cap : Z) (prev : item) (acc : lseg) (x : lseg) : lseg :=
  ls_merge (if it_reload prev then ls_finalise cap acc else acc) x.
Fixpoint lbefore_loop (cap : Z) (dim : nat) (prev : item) (acc : lseg) (rest : list item) :=
  match rest with
  | [] => []
  | x :: xs => let c := lbefore_step cap prev acc (it_load x dim) in
               c :: lbefore_loop cap dim x c xs
  end.
Definition lbefore_array (cap : Z) (dim : nat) (its : list item) : list lseg :=
  match its with
  | [] => []
  | x :: xs => it_load x dim :: lbefore_loop cap dim x (it_load x dim) xs
  end.

(** search/Route.cpp:377-389: loadAfter, in one dimension. *)
Fixpoint lafter_array (cap : Z) (dim : nat) (its : list item) : list lseg :=
  match its with
  | [] => []
  | x :: xs =>
      let rest := lafter_array cap dim xs in
      match xs, rest with
      | next :: _, nextLoad :: _ =>
          ls_merge (it_load x dim)
            (if it_reload next then ls_finalise cap nextLoad else nextLoad) :: rest
      | _, _ => [it_load x dim]
      end
  end.

(** search/Route.cpp:371-375: load_, the sum of the loads of all trips. *)
Fixpoint load_sum (its : list item) (before : list lseg) : Z :=
  match its, before with
  | x :: xs, b :: bs =>
      (if a_isDepot (it_act x) then ls_load b else 0) + load_sum xs bs
  | _, _ => 0
  end.

(** The cached fields of a route after [update()]. *)
Record cache := mk_cache {
  ca_veh : vehicle;
  ca_items : list item;
  ca_nClients : list nat;
  ca_nPickups : list nat;
  ca_nDeliveries : list nat;
  ca_cumDist : list Z;
  ca_durBefore : list dseg;
  ca_durAfter : list dseg;
  ca_loadBefore : list (list lseg);   (* per dimension *)
  ca_loadAfter : list (list lseg);
  ca_load : list Z;
  ca_excessLoad : list Z;
  ca_distance : Z;
  ca_excessDistance : Z;
  ca_distanceCost : Z;
  ca_duration : Z;
  ca_timeWarp : Z;
  ca_durationCost : Z }.

Definition dnone : dseg := ds_raw 0 0 0 MAXV.   (* default constructed segment *)

(** search/Route.cpp:189-407: update(). *)
Definition update (d : pdata) (v : vehicle) (mid : list activity) : cache :=
  let its := route_items d v mid in
  let dist := p_dist d (v_profile v) in
  let dur := p_dur d (v_profile v) in
  let cumDist := dist_array dist its in
  let durAfter := after_array d dur its in
  let dims := seq 0 (p_numLoadDimensions d) in
  let lb dim := lbefore_array (dimv (v_capacity v) dim) dim its in
  let distance := last cumDist 0 in
  let duration := ds_duration (hd dnone durAfter) in
  let overtime := Z.max (duration - v_shift v) 0 in
  mk_cache v its
    (count_array a_isClient its) (count_array a_isPickup its) (count_array a_isDelivery its)
    cumDist (before_array d dur its) durAfter
    (map lb dims)
    (map (fun dim => lafter_array (dimv (v_capacity v) dim) dim its) dims)
    (map (fun dim => load_sum (tl its) (tl (lb dim))) dims)
    (map (fun dim => ls_excessLoad (dimv (v_capacity v) dim) (last (lb dim) ls_zero)) dims)
    distance
    (Z.max (distance - v_maxDistance v) 0)
    (v_unitDistance v * distance)
    duration
    (ds_timeWarp (v_maxDuration v) (hd dnone durAfter))
    (v_unitDuration v * duration + v_unitOvertime v * overtime).

(** search/Route.h:1090-1124 *)
Definition ca_size (c : cache) : nat := length (ca_items c).
Definition ca_numClients (c : cache) : nat := last (ca_nClients c) 0%nat.
Definition ca_numShipments (c : cache) : nat := last (ca_nPickups c) 0%nat.
Definition ca_empty (c : cache) : bool :=
  (ca_numClients c =? 0)%nat && (ca_numShipments c =? 0)%nat.

(** Pieces a proposal is made of: search/Route.h:730-953 (SegmentBefore, SegmentAfter,
    SegmentBetween), ClientSegment.h, PickupSegment.h, DeliverySegment.h, DepotSegment.h. *)
Inductive seg :=
| SBefore (c : cache) (e : nat)
| SAfter (c : cache) (s : nat)
| SBetween (c : cache) (s e : nat)
| SClient (i : nat)
| SPickup (i : nat)
| SDelivery (i : nat)
| SDepot (i : nat).

Definition dummy_item : item := mk_item (ADepot 0) 0 dnone (fun _ => ls_zero) false.
Definition ca_item (c : cache) (i : nat) : item := nth i (ca_items c) dummy_item.

(** ClientSegment.h, PickupSegment.h, DeliverySegment.h, DepotSegment.h: 28-60 *)
Definition single (d : pdata) (s : seg) : option item :=
  match s with
  | SClient i => Some (item_act d (AClient i))
  | SPickup i => Some (item_act d (APickup i))
  | SDelivery i => Some (item_act d (ADelivery i))
  | SDepot i => Some (item_act d (ADepot i))
  | _ => None
  end.

(** front() and back(): the node, giving activity and location. *)
Definition sg_front (d : pdata) (s : seg) : item :=
  match s with
  | SBefore c e => ca_item c 0
  | SAfter c s => ca_item c s
  | SBetween c s e => ca_item c s
  | SClient i => item_act d (AClient i)
  | SPickup i => item_act d (APickup i)
  | SDelivery i => item_act d (ADelivery i)
  | SDepot i => item_act d (ADepot i)
  end.
Definition sg_back (d : pdata) (s : seg) : item :=
  match s with
  | SBefore c e => ca_item c e
  | SAfter c s => last (ca_items c) dummy_item
  | SBetween c s e => ca_item c e
  | SClient i => item_act d (AClient i)
  | SPickup i => item_act d (APickup i)
  | SDelivery i => item_act d (ADelivery i)
  | SDepot i => item_act d (ADepot i)
  end.

Definition sg_size (s : seg) : nat :=
  match s with
  | SBefore c e => (e + 1)%nat
  | SAfter c s => (ca_size c - s)%nat
  | SBetween c s e => (e - s + 1)%nat
  | _ => 1%nat
  end.

Definition sg_startsReload (s : seg) : bool :=
  match s with
  | SBefore c e => false
  | SAfter c s => it_reload (ca_item c s)
  | SBetween c s e => it_reload (ca_item c s)
  | SDepot _ => true
  | _ => false
  end.
Definition sg_endsReload (s : seg) : bool :=
  match s with
  | SBefore c e => it_reload (ca_item c e)
  | SAfter c s => false
  | SBetween c s e => it_reload (ca_item c e)
  | SDepot _ => true
  | _ => false
  end.

(** search/Route.h:898-920: walk over the locations from [s] to [e]. *)
Fixpoint dist_walk (dist : nat -> nat -> Z) (prev : item) (rest : list item) : Z :=
  match rest with
  | [] => 0
  | x :: xs => dist (it_loc prev) (it_loc x) + dist_walk dist x xs
  end.

(** Items at positions [s + 1 .. e]. *)
Definition slice {A} (l : list A) (s e : nat) : list A := firstn (e - s) (skipn (s + 1) l).

Definition sg_distance (d : pdata) (profile : nat) (s : seg) : Z :=
  match s with
  | SBefore c e => nth e (ca_cumDist c) 0
  | SAfter c s => last (ca_cumDist c) 0 - nth s (ca_cumDist c) 0
  | SBetween c s e =>
      if Nat.eqb profile (v_profile (ca_veh c))
      then nth e (ca_cumDist c) 0 - nth s (ca_cumDist c) 0
      else dist_walk (p_dist d profile) (ca_item c s) (slice (ca_items c) s e)
  | _ => 0
  end.

(** search/Route.h:922-942 *)
Fixpoint dur_walk (dur : nat -> nat -> Z) (prev : item) (acc : dseg) (rest : list item) : dseg :=
  match rest with
  | [] => acc
  | x :: xs => dur_walk dur x (ds_merge (dur (it_loc prev) (it_loc x)) acc (it_dur x)) xs
  end.

Definition sg_duration (d : pdata) (profile : nat) (s : seg) : dseg :=
  match s with
  | SBefore c e => nth e (ca_durBefore c) dnone
  | SAfter c s => nth s (ca_durAfter c) dnone
  | SBetween c s e =>
      let x := ca_item c s in
      let segment := it_dur x in
      let segment := if negb (sg_size (SBetween c s e) =? 1)%nat && it_reload x
                     then ds_merge0 segment (ds_service (it_srv d x)) else segment in
      dur_walk (p_dur d profile) x segment (slice (ca_items c) s e)
  | SClient i => ds_client (p_client d i)
  | SPickup i => ds_step (s_pickup (p_shipment d i))
  | SDelivery i => ds_step (s_delivery (p_shipment d i))
  | SDepot i => ds_depot (p_depot d i) 0
  end.

(** search/Route.h:944-953 *)
Definition sg_load (d : pdata) (dim : nat) (s : seg) : lseg :=
  match s with
  | SBefore c e => nth e (nth dim (ca_loadBefore c) []) ls_zero
  | SAfter c s => nth s (nth dim (ca_loadAfter c) []) ls_zero
  | SBetween c s e =>
      fold_left (fun acc x => ls_merge acc (it_load x dim)) (slice (ca_items c) s e)
                (it_load (ca_item c s) dim)
  | SClient i => ls_client (p_client d i) dim
  | SPickup i => ls_shipment (p_shipment d i) true dim
  | SDelivery i => ls_shipment (p_shipment d i) false dim
  | SDepot i => ls_zero
  end.

(** A proposal: its first segment, from the start of a route, and the others.  The code's
    variadic template always has at least two. *)
Record proposal := mk_proposal { pr_first : seg; pr_rest : list seg }.

(** The route of a proposal is the route of its first segment; search/Route.h:1178-1182. *)
Definition seg_cache (s : seg) : option cache :=
  match s with
  | SBefore c _ | SAfter c _ | SBetween c _ _ => Some c
  | _ => None
  end.

(** search/Route.h:1190-1222, the total distance. *)
Fixpoint prop_dist_loop (d : pdata) (profile : nat) (acc : Z) (lastLoc : nat) (rest : list seg) : Z :=
  match rest with
  | [] => acc
  | o :: more =>
      let acc := acc + p_dist d profile lastLoc (it_loc (sg_front d o)) in
      let acc := acc + sg_distance d profile o in
      prop_dist_loop d profile acc (it_loc (sg_back d o)) more
  end.
Definition prop_distance (d : pdata) (v : vehicle) (p : proposal) : Z * Z :=
  let profile := v_profile v in
  let distance := prop_dist_loop d profile (sg_distance d profile (pr_first p))
                    (it_loc (sg_back d (pr_first p))) (pr_rest p) in
  (v_unitDistance v * distance, Z.max (distance - v_maxDistance v) 0).

(** search/Route.h:1224-1293, from right to left; the list of segments is reversed. *)
Definition prop_dur_merge (d : pdata) (profile : nat) (ds : dseg) (firstLoc : nat) (o : seg) : dseg :=
  let edgeDur := p_dur d profile (it_loc (sg_back d o)) firstLoc in
  if sg_endsReload o then
    let depot := p_depot d (a_idx (it_act (sg_back d o))) in
    let ds := ds_merge edgeDur (ds_depot depot (d_service depot)) ds in
    let ds := ds_finaliseFront ds in
    ds_merge 0 (sg_duration d profile o) ds
  else ds_merge edgeDur (sg_duration d profile o) ds.
Fixpoint prop_dur_loop (d : pdata) (profile : nat) (ds : dseg) (firstLoc : nat) (rest : list seg) : dseg :=
  match rest with
  | [] => ds
  | o :: more =>
      let ds := prop_dur_merge d profile ds firstLoc o in
      let ds := match more with
                | [] => ds
                | _ => if sg_startsReload o && (1 <? sg_size o)%nat
                       then ds_finaliseFront ds else ds
                end in
      prop_dur_loop d profile ds (it_loc (sg_front d o)) more
  end.
Definition prop_dseg (d : pdata) (profile : nat) (segs : list seg) : dseg :=
  match rev segs with
  | [] => dnone
  | l :: others =>
      let ds := sg_duration d profile l in
      let ds := if sg_startsReload l then ds_finaliseFront ds else ds in
      prop_dur_loop d profile ds (it_loc (sg_front d l)) others
  end.
Definition prop_duration (d : pdata) (v : vehicle) (p : proposal) : Z * Z :=
  let ds := prop_dseg d (v_profile v) (pr_first p :: pr_rest p) in
  let duration := ds_duration ds in
  let overtime := Z.max (duration - v_shift v) 0 in
  (v_unitDuration v * duration + v_unitOvertime v * overtime, ds_timeWarp (v_maxDuration v) ds).

(** search/Route.h:1295-1331 *)
Fixpoint prop_load_loop (d : pdata) (cap : Z) (dim : nat) (ls : lseg) (rest : list seg) : lseg :=
  match rest with
  | [] => ls
  | o :: more =>
      let ls := if sg_startsReload o then ls_finalise cap ls else ls in
      let ls := ls_merge ls (sg_load d dim o) in
      let ls := match more with
                | [] => ls
                | _ => if sg_endsReload o && (1 <? sg_size o)%nat
                       then ls_finalise cap ls else ls
                end in
      prop_load_loop d cap dim ls more
  end.
Definition prop_excessLoad (d : pdata) (v : vehicle) (dim : nat) (p : proposal) : Z :=
  let cap := dimv (v_capacity v) dim in
  let ls := sg_load d dim (pr_first p) in
  let ls := if sg_endsReload (pr_first p) then ls_finalise cap ls else ls in
  ls_excessLoad cap (prop_load_loop d cap dim ls (pr_rest p)).
