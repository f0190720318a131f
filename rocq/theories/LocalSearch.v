(** Model of the local search: pyvrp/cpp/search/LocalSearch.cpp, and of inserting clients and
    shipments into the search solution, pyvrp/cpp/search/Solution.cpp:237-401.

    Where the code would dereference a null pointer, index out of bounds or let std::out_of_range
    escape (a neighbour that is a depot or does not exist, an activity without neighbours), the
    functions below return [None].  Counters are unbounded. *)
From Verif Require Import Base DurationSegment Data LoadSegment SearchRoute Route RouteSpec Cost SearchSpace SearchNodes SearchSeq SearchLoad Ops.
Local Open Scope nat_scope.

(** search/Solution.h:79-95: nodes exist for the clients and shipments of the data. *)
Definition has_node (d : pdata) (a : activity) : bool :=
  match a with
  | AClient i => i <? p_numClients d
  | APickup i | ADelivery i => i <? p_numShipments d
  | ADepot _ => false
  end.

(** The nodes of a route, for marking. *)
Definition route_nodes (d : pdata) (p : plan) (r : nat) : list activity :=
  ADepot (v_start (rveh d r)) :: mid_at p r ++ [ADepot (v_end (rveh d r))].

(** SearchSpace::markPromising(Node) for a visit in the plan, and for a node given by route and
    position. *)
Definition mark_at (d : pdata) (p : plan) (r pos : nat) (sp : space) : space := mark_node sp (route_nodes d p r) pos.
Definition mark_act (d : pdata) (p : plan) (a : activity) (sp : space) : space :=
  match find_act a p with Some (r, pos) => mark_at d p r pos sp | None => sp end.

Section Inserting.
Variable d : pdata.
Variable ev : evaluator.

(** std::find_if over the routes [from, from + count) with Route::empty(): search/Solution.cpp:269-274,
    LocalSearch.cpp:220-223. *)
Fixpoint first_empty (s : sstate) (from count : nat) : option nat :=
  match count with
  | O => None
  | S count' => if isEmpty s from then Some from else first_empty s (S from) count'
  end.

(** ** Inserting a client, search/Solution.cpp:237-294 *)
(** search/Solution.cpp:94-113 *)
Definition insert_cost (s : sstate) (i r pos : nat) : Z :=
  dcost d ev true (0 - c_prize (p_client d i))%Z (bef s r pos) [SClient i; aft s r (pos + 1)].

(** The best place so far: its cost, route, and the position to insert after. *)
Definition place := (Z * (nat * nat))%type.
Definition better (cost : Z) (r pos : nat) (best : place) : place := if (cost <? fst best)%Z then (cost, (r, pos)) else best.

(** search/Solution.cpp:247-263 *)
Fixpoint place_near (s : sstate) (i : nat) (vs : list activity) (best : place) : option place :=
  match vs with
  | [] => Some best
  | v :: more =>
      if has_node d v then
        match find_act v (sp_mids s) with
        | None => place_near s i more best
        | Some (r, pos) => place_near s i more (better (insert_cost s i r pos) r pos best)
        end
      else None
  end.
(** search/Solution.cpp:265-284 *)
Fixpoint place_empty (s : sstate) (i : nat) (types : list (nat * nat)) (best : place) : place :=
  match types with
  | [] => best
  | (t, off) :: more =>
      match first_empty s off (avail d t) with
      | None => place_empty s i more best
      | Some r =>
          let cost := insert_cost s i r 0 in
          if (cost <? fst best)%Z then (cost, (r, 0)) else place_empty s i more best
      end
  end.
(** The new plan, if the client is inserted. *)
Definition insert_client (sp : space) (s : sstate) (i : nat) (required : bool) : option (option plan) :=
  match neighbours_of sp (AClient i) with
  | Err _ => None
  | Ok vs =>
      match place_near s i vs (insert_cost s i 0 0, (0, 0)) with
      | None => None
      | Some best =>
          let '(cost, (r, pos)) := place_empty s i (ss_vehOrder sp) best in
          Some (if required || (cost <? 0)%Z then Some (ins (sp_mids s) r (pos + 1) (AClient i)) else None)
      end
  end.

(** ** Inserting a shipment, search/Solution.cpp:296-401 *)
(** Cost, route, position to insert the pickup after, position of the delivery.  The code starts
    from the maximum Cost: [None].  The segment between pickup and delivery is an
    IncrementalSegmentBetween (search/Solution.cpp:27-92), which merges one node at a time; LocalInsert.v
    shows that this gives the figures of the usual segment. *)
Definition splace := option (Z * (nat * nat * nat))%type.
Definition sbetter (cost : Z) (r pos dpos : nat) (best : splace) : splace :=
  match best with
  | Some (z, _) => if (cost <? z)%Z then Some (cost, (r, pos, dpos)) else best
  | None => Some (cost, (r, pos, dpos))
  end.
Definition ship_cost (s : sstate) (i r pos : nat) (upto : option nat) : Z :=
  dcost d ev true (0 - s_prize (p_shipment d i))%Z (bef s r pos)
    match upto with
    | None => [SPickup i; SDelivery i; aft s r (pos + 1)]
    | Some e => [SPickup i; btw s r (pos + 1) e; SDelivery i; aft s r (e + 1)]
    end.
(** search/Solution.cpp:323-360: the pickup after position [pos]. *)
Definition splace_after (s : sstate) (i r pos : nat) (best : splace) : splace :=
  fold_left (fun best e => sbetter (ship_cost s i r pos (Some e)) r pos (e + 1) best)
    (trip_rest (mid_at (sp_mids s) r) pos)
    (sbetter (ship_cost s i r pos None) r pos (pos + 1) best).
(** search/Solution.cpp:314-361 *)
Fixpoint splace_near (s : sstate) (i : nat) (vs : list activity) (best : splace) : option splace :=
  match vs with
  | [] => Some best
  | v :: more =>
      if has_node d v then
        match find_act v (sp_mids s) with
        | None => splace_near s i more best
        | Some (r, pos) => splace_near s i more (splace_after s i r pos (splace_after s i r (pos - 1) best))
        end
      else None
  end.
(** search/Solution.cpp:363-390 *)
Fixpoint splace_empty (s : sstate) (i : nat) (types : list (nat * nat)) (best : splace) : splace :=
  match types with
  | [] => best
  | (t, off) :: more =>
      match first_empty s off (avail d t) with
      | None => splace_empty s i more best
      | Some r =>
          let cost := ship_cost s i r 0 None in
          if match best with Some (z, _) => (cost <? z)%Z | None => true end then Some (cost, (r, 0, 1))
          else splace_empty s i more best
      end
  end.
Definition insert_shipment (sp : space) (s : sstate) (i : nat) (required : bool) : option (option plan) :=
  match neighbours_of sp (APickup i) with
  | Err _ => None
  | Ok vs =>
      match splace_near s i vs None with
      | None => None
      | Some best =>
          let put r pos dpos := ins (ins (sp_mids s) r dpos (ADelivery i)) r (pos + 1) (APickup i) in
          Some (match splace_empty s i (ss_vehOrder sp) best with
                | Some (cost, (r, pos, dpos)) => if required || (cost <? 0)%Z then Some (put r pos dpos) else None
                | None => if required then Some (put 0 0 1) else None
                end)
      end
  end.
End Inserting.

(** ** LocalSearch.h:23-41: the state.  One remove cost cache per binary operator. *)
Record lstate := mk_lstate {
  l_sol : sstate;
  l_rcs : list rcache;
  l_space : space;
  l_test : list Z;       (* lastTest_ *)
  l_upd : list Z;        (* lastUpdate_ *)
  l_num : Z;             (* numUpdates_ *)
  l_done : bool }.       (* searchCompleted_ *)
Definition l_plan (st : lstate) : plan := sp_mids (l_sol st).

Definition with_sol (st : lstate) (s : sstate) : lstate :=
  mk_lstate s (l_rcs st) (l_space st) (l_test st) (l_upd st) (l_num st) (l_done st).
Definition with_plan (st : lstate) (p : plan) : lstate := with_sol st (mk_sstate p (sp_caches (l_sol st))).
Definition with_rcs (st : lstate) (rcs : list rcache) : lstate :=
  mk_lstate (l_sol st) rcs (l_space st) (l_test st) (l_upd st) (l_num st) (l_done st).
Definition with_space (st : lstate) (sp : space) : lstate :=
  mk_lstate (l_sol st) (l_rcs st) sp (l_test st) (l_upd st) (l_num st) (l_done st).
Definition with_test (st : lstate) (l : list Z) : lstate :=
  mk_lstate (l_sol st) (l_rcs st) (l_space st) l (l_upd st) (l_num st) (l_done st).
Definition with_done (st : lstate) (b : bool) : lstate :=
  mk_lstate (l_sol st) (l_rcs st) (l_space st) (l_test st) (l_upd st) (l_num st) b.

Section Search.
Variable d : pdata.
Variable ev : evaluator.
Variable uops : list unary.
Variable bops : list binary.

Definition mark_in (st : lstate) (a : activity) : lstate := with_space st (mark_act d (l_plan st) a (l_space st)).
Definition mark_ref (st : lstate) (v : vref) : lstate :=
  match locate (l_plan st) v with Some (r, pos) => with_space st (mark_at d (l_plan st) r pos (l_space st)) | None => st end.

(** Route::update(), and Route::clear() if that leaves the route empty: LocalSearch.cpp:345-347. *)
Definition refresh (s : sstate) (r : nat) : sstate :=
  let c := update d (rveh d r) (mid_at (sp_mids s) r) in
  if ca_empty c then mk_sstate (upd (sp_mids s) r []) (upd (sp_caches s) r (update d (rveh d r) []))
  else mk_sstate (sp_mids s) (upd (sp_caches s) r c).
(** LocalSearch.cpp:343-356 *)
Definition update_route (st : lstate) (r : nat) : lstate :=
  let s := refresh (l_sol st) r in
  mk_lstate s (map (rc_forget (mid_at (sp_mids s) r)) (l_rcs st)) (l_space st) (l_test st)
    (upd (l_upd st) r (l_num st)) (l_num st) (l_done st).
(** LocalSearch.cpp:337-363 *)
Definition ls_update (st : lstate) (rU : option nat) (rV : nat) : lstate :=
  let st := mk_lstate (l_sol st) (l_rcs st) (l_space st) (l_test st) (l_upd st) (l_num st + 1) false in
  match rU with
  | None => update_route st rV
  | Some r => let st := update_route st r in if r =? rV then st else update_route st rV
  end.

(** The route of a visit, if it is in one. *)
Definition home (p : plan) (a : activity) : option nat := option_map fst (find_act a p).

(** LocalSearch.cpp:119-163: the first operator with a move to apply. *)
Fixpoint try_unary (s : sstate) (ops : list unary) (u : activity) : option (unary * move) :=
  match ops with
  | [] => None
  | o :: more =>
      let '(delta, apply, m) := eval_unary d ev o s u in
      if apply then Some (o, m) else try_unary s more u
  end.
Definition apply_unary_ops (st : lstate) (u : activity) : lstate :=
  match try_unary (l_sol st) uops u with
  | None => st
  | Some (o, m) =>
      match home (l_plan st) u with
      | Some r =>
          let st := mark_in st u in
          ls_update (with_plan st (apply_unary o m (l_plan st) u)) (Some r) r
      | None =>
          let st := with_plan st (apply_unary o m (l_plan st) u) in
          match home (l_plan st) u with
          | Some r => ls_update (mark_in st u) (Some r) r
          | None => st      (* cannot happen: markPromising needs a route *)
          end
      end
  end.

(** LocalSearch.cpp:165-209 *)
Fixpoint try_binary (s : sstate) (ops : list binary) (rcs : list rcache) (u : activity) (v : vref) : option (binary * move) * list rcache :=
  match ops, rcs with
  | o :: ops, rc :: rcs =>
      let '((delta, apply, m), rc) := eval_binary d ev o s rc u v in
      if apply then (Some (o, m), rc :: rcs)
      else let '(found, rcs) := try_binary s ops rcs u v in (found, rc :: rcs)
  | _, _ => (None, rcs)
  end.
Definition apply_binary_ops (st : lstate) (u : activity) (v : vref) : bool * lstate :=
  let '(found, rcs) := try_binary (l_sol st) bops (l_rcs st) u v in
  let st := with_rcs st rcs in
  match found with
  | None => (false, st)
  | Some (o, m) =>
      let rU := home (l_plan st) u in
      match locate (l_plan st) v with
      | None => (false, st)  (* cannot happen: V is in a route *)
      | Some (rV, _) =>
          let st := mark_ref (mark_in st u) v in
          (true, ls_update (with_plan st (apply_binary o m (l_plan st) u v)) rU rV)
      end
  end.

(** LocalSearch.cpp:211-228 *)
Fixpoint empty_moves (st : lstate) (u : activity) (types : list (nat * nat)) : lstate :=
  match types with
  | [] => st
  | (t, off) :: more =>
      match first_empty (l_sol st) off (avail d t) with
      | None => empty_moves st u more
      | Some r =>
          let '(applied, st) := apply_binary_ops st u (VStart r) in
          if applied then st else empty_moves st u more
      end
  end.

(** LocalSearch.cpp:81-103: one neighbour. *)
Definition test_neighbour (lastTest : Z) (u : activity) (st : lstate) (v : activity) : option lstate :=
  if has_node d v then
    match find_act v (l_plan st) with
    | None => Some st
    | Some (rv, pv) =>
        let uUpdate := match home (l_plan st) u with Some r => nth r (l_upd st) 0%Z | None => 0%Z end in
        if (lastTest <? uUpdate)%Z || (lastTest <? nth rv (l_upd st) 0)%Z then
          let '(applied, st) := apply_binary_ops st u (VAct v) in
          if negb applied && (pv =? 1) then Some (snd (apply_binary_ops st u (VStart rv))) else Some st
        else Some st
    end
  else None.
Fixpoint test_neighbours (lastTest : Z) (u : activity) (st : lstate) (vs : list activity) : option lstate :=
  match vs with
  | [] => Some st
  | v :: more => match test_neighbour lastTest u st v with Some st => test_neighbours lastTest u st more | None => None end
  end.

(** LocalSearch.cpp:65-106: one activity. *)
Definition test_index (u : activity) : nat := (if a_isClient u then 0 else p_numClients d) + a_idx u.
Definition visit_act (st : lstate) (u : activity) : option lstate :=
  if is_promising (l_space st) u then
    let lastTest := nth (test_index u) (l_test st) 0%Z in
    let st := with_test st (upd (l_test st) (test_index u) (l_num st)) in
    let st := apply_unary_ops st u in
    match neighbours_of (l_space st) u with
    | Err _ => None
    | Ok vs =>
        match test_neighbours lastTest u st vs with
        | Some st => Some (empty_moves st u (ss_vehOrder (l_space st)))
        | None => None
        end
    end
  else Some st.
Fixpoint visit_all (st : lstate) (us : list activity) : option lstate :=
  match us with
  | [] => Some st
  | u :: more => match visit_act st u with Some st => visit_all st more | None => None end
  end.

(** LocalSearch.cpp:54-108: the search, with at most [n] rounds. *)
Inductive outcome := Finished (st : lstate) | Crashed | Unfinished.
Fixpoint search_loop (n : nat) (st : lstate) : outcome :=
  if l_done st then Finished st
  else
    match n with
    | O => Unfinished
    | S n' =>
        match visit_all (with_done st true) (ss_order (l_space st)) with
        | Some st => search_loop n' st
        | None => Crashed
        end
    end.
Definition search (n : nat) (st : lstate) : outcome :=
  match uops, bops with
  | [], [] => Finished st
  | _, _ => search_loop n (with_done st false)
  end.

(** ** ensureStructuralFeasibility, LocalSearch.cpp:230-335 *)
(** LocalSearch.cpp:233-240 *)
Definition group_counts (p : plan) : list nat :=
  map (fun g => length (filter (fun i => isPlanned p (AClient i)) (g_clients g))) (p_groups d).
Definition insert_required (st : lstate) (a : activity) : option lstate :=
  let new := match a with
             | AClient i => insert_client d ev (l_space st) (l_sol st) i true
             | _ => insert_shipment d ev (l_space st) (l_sol st) (a_idx a) true
             end in
  match new with
  | Some (Some p) =>
      match home p a with
      | Some r => Some (ls_update (with_plan st p) (Some r) r)
      | None => None       (* cannot happen *)
      end
  | _ => None
  end.
(** LocalSearch.cpp:244-310: one activity of the order. *)
Definition ensure_act (x : lstate * list nat) (a : activity) : option (lstate * list nat) :=
  let '(st, counts) := x in
  match a with
  | AClient i =>
      let c := p_client d i in
      let planned := isPlanned (l_plan st) a in
      if negb planned && c_required c then
        option_map (fun st => (mark_in st a, counts)) (insert_required st a)
      else
        match c_group c with
        | None => Some (st, counts)
        | Some g =>
            let n := nth g counts 0 in
            if g_required (p_group d g) && (n =? 0) then
              option_map (fun st => (mark_in st a, upd counts g (n + 1))) (insert_required st a)
            else if planned && (1 <? n) then
              match find_act a (l_plan st) with
              | Some (r, pos) =>
                  let st := mark_in st a in
                  Some (ls_update (with_plan st (rem (l_plan st) r pos)) (Some r) r, upd counts g (n - 1))
              | None => None
              end
            else Some (st, counts)
        end
  | APickup i =>
      if negb (isPlanned (l_plan st) a) && s_required (p_shipment d i) then
        option_map (fun st => (mark_in (mark_in st a) (ADelivery i), counts)) (insert_required st a)
      else Some (st, counts)
  | _ => Some (st, counts)
  end.
Fixpoint ensure_all (x : lstate * list nat) (acts : list activity) : option (lstate * list nat) :=
  match acts with
  | [] => Some x
  | a :: more => match ensure_act x a with Some x => ensure_all x more | None => None end
  end.
Definition ensure (st : lstate) : option lstate :=
  option_map fst (ensure_all (st, group_counts (l_plan st)) (ss_order (l_space st))).
End Search.
