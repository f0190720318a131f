(** Model of the search operators (pyvrp/cpp/search/Relocate.h, Swap.h, SwapTails.cpp and the
    other operator files): what they evaluate and how they change the plan.

    The search solution is given by the activities of every route between its start and end depot;
    SearchNodes.v and SearchSeq.v model the nodes themselves and prove that inserting, removing
    and swapping nodes are these edits.  A node is a visit (an activity other than a depot), or
    the start depot of a route.  Positions count the start depot as 0, as in the code. *)
From Verif Require Import Base DurationSegment Data LoadSegment SearchRoute Route RouteSpec Cost SearchNodes SearchSeq SearchLoad.
Local Open Scope nat_scope.

(** ** The search solution: routes and the statistics of their last update(). *)
Definition plan := list (list activity).
Record sstate := mk_sstate { sp_mids : plan; sp_caches : list cache }.
Definition mid_at (p : plan) (r : nat) : list activity := nth r p [].
Definition cache_at (s : sstate) (r : nat) : cache := nth r (sp_caches s) (update (mk_pdata [] [] [] [] [] [] [] []) dummy_vehicle []).
Definition rveh (d : pdata) (r : nat) : vehicle := nth r (fleet_vehicles d) dummy_vehicle.

(** A node operators work with: a visit, or the start depot of a route. *)
Inductive vref := VAct (a : activity) | VStart (r : nat).

(** Route and position of a visit: Node::route() and Node::pos(), search/Route.h:134-145. *)
Fixpoint index_of (a : activity) (l : list activity) : option nat :=
  match l with
  | [] => None
  | x :: more => if a_eqb x a then Some 0 else option_map S (index_of a more)
  end.
Fixpoint find_act (a : activity) (p : plan) : option (nat * nat) :=
  match p with
  | [] => None
  | l :: more =>
      match index_of a l with
      | Some i => Some (0, S i)
      | None => option_map (fun x => (S (fst x), snd x)) (find_act a more)
      end
  end.
Definition locate (p : plan) (v : vref) : option (nat * nat) :=
  match v with VAct a => find_act a p | VStart r => Some (r, 0) end.
Definition isPlanned (p : plan) (a : activity) : bool :=
  match find_act a p with Some _ => true | None => false end.

(** The node at a position: Route::operator[], and what kind of node it is. *)
Inductive nkind := KStart | KEnd | KAct (a : activity).
Definition kind_at (mid : list activity) (pos : nat) : nkind :=
  match pos with
  | O => KStart
  | S i => match nth_error mid i with Some a => KAct a | None => KEnd end
  end.
Definition k_isDepot (k : nkind) : bool := match k with KAct a => a_isDepot a | _ => true end.
Definition k_isReload (k : nkind) : bool := match k with KAct a => a_isDepot a | _ => false end.
Definition k_isEnd (k : nkind) : bool := match k with KEnd => true | _ => false end.
Definition k_isStart (k : nkind) : bool := match k with KStart => true | _ => false end.
Definition k_is (k : nkind) (a : activity) : bool := match k with KAct b => a_eqb b a | _ => false end.

(** Node::trip(): reload depots passed, the node itself included (search/Route.cpp:116-124). *)
Definition trip_of (mid : list activity) (pos : nat) : nat := num_reloads (firstn pos mid).
Definition rsize (mid : list activity) : nat := length mid + 2.
Definition numTrips (mid : list activity) : nat := num_reloads mid + 1.

(** Route::insert, Route::remove and Route::swap, search/Route.cpp:90-187. *)
Definition ins (p : plan) (r pos : nat) (a : activity) : plan := upd p r (insert_at (pos - 1) a (mid_at p r)).
Definition rem (p : plan) (r pos : nat) : plan := upd p r (remove_at (pos - 1) (mid_at p r)).
Definition swp (p : plan) (a b : activity) : plan := map (map (swap_name a b)) p.

(** numClients(), numShipments(), numPickups(pos), numDeliveries(pos): search/Route.h:1090-1124. *)
Definition nPickups (s : sstate) (r pos : nat) : nat := nth pos (ca_nPickups (cache_at s r)) 0.
Definition nDeliveries (s : sstate) (r pos : nat) : nat := nth pos (ca_nDeliveries (cache_at s r)) 0.
Definition nClients (s : sstate) (r : nat) : nat := ca_numClients (cache_at s r).
Definition nShipments (s : sstate) (r : nat) : nat := ca_numShipments (cache_at s r).
Definition isEmpty (s : sstate) (r : nat) : bool := ca_empty (cache_at s r).

(** before(), after(), between() and at(): search/Route.h:1132-1154. *)
Definition bef (s : sstate) (r e : nat) : seg := SBefore (cache_at s r) e.
Definition aft (s : sstate) (r b : nat) : seg := SAfter (cache_at s r) b.
Definition btw (s : sstate) (r b e : nat) : seg := SBetween (cache_at s r) b e.
Definition at_ (s : sstate) (r i : nat) : seg := SBetween (cache_at s r) i i.

(** What an operator remembers between evaluate() and apply(): the fields [move_] and [V_]. *)
Inductive move :=
| MNone
| MPos (pos : nat)                     (* where the delivery goes *)
| MAlt (client : nat)                  (* the other client *)
| MNode (a : activity)                 (* after or before this node *)
| MDepot (first : bool) (depot : nat)  (* DEPOT_U or U_DEPOT *)
| MPrev | MNext.                       (* REMOVE_PREV, REMOVE_NEXT *)

(** The remove cost caches [hasCachedRemoveCost_] and [removeCost_] of an operator. *)
Definition rcache := activity -> option Z.
Definition rc_none : rcache := fun _ => None.
Definition rc_set (rc : rcache) (a : activity) (z : Z) : rcache :=
  fun b => if a_eqb b a then Some z else rc b.

Section Operators.
Variable d : pdata.
Variable ev : evaluator.

(** CostEvaluator::deltaCost<exact>: the new value of [out]. *)
Definition dcost (exact : bool) (out : Z) (first : seg) (rest : list seg) : Z :=
  fst (deltaCost exact ev d out (mk_proposal first rest)).
Definition dcost2 (out : Z) (first : seg) (rest : list seg) (first' : seg) (rest' : list seg) : Z :=
  fst (deltaCost2 false ev d out (mk_proposal first rest) (mk_proposal first' rest')).
Definition pcost (s : sstate) (r : nat) : Z := search_penalised ev (cache_at s r).

Definition result := (Z * bool * move)%type.
Definition no : result := (0%Z, false, MNone).
Definition improving (delta : Z) (m : move) : result := (delta, (delta <? 0)%Z, m).

(** ** Relocate<N> (Relocate.h) and Swap<N, M> (Swap.h) *)
(** Relocate.h:52-61, Swap.h:48-58 *)
Definition hasDepot (s : sstate) (r first n : nat) : bool :=
  let mid := mid_at (sp_mids s) r in
  let last := first + n - 1 in
  (first =? 0) || (rsize mid - 1 <=? last) || negb (trip_of mid first =? trip_of mid last).

(** Relocate.h:70-82, Swap.h:74-87 *)
Definition splitsShipment (s : sstate) (a : activity) (r pos n : nat) : bool :=
  let last := pos + n - 1 in
  a_isDelivery a
  || negb (nPickups s r pos =? nDeliveries s r pos + (if a_isPickup a then 1 else 0))
  || negb (nPickups s r last =? nDeliveries s r last).

(** The part of evaluate() that looks up or computes a cached remove cost. *)
Definition remove_cost (rc : rcache) (u : activity) (fresh : Z) : Z * rcache :=
  match rc u with
  | Some z => (z, rc)
  | None => (fresh, rc_set rc u fresh)
  end.

(** Relocate.h:84-153 *)
Definition eval_relocate (n : nat) (s : sstate) (rc : rcache) (u : activity) (v : vref) : result * rcache :=
  match find_act u (sp_mids s), locate (sp_mids s) v with
  | Some (ru, pu), Some (rv, pv) =>
      if hasDepot s ru pu n || splitsShipment s u ru pu n then (no, rc)
      else if (ru =? rv) &&
              (negb (trip_of (mid_at (sp_mids s) ru) pu =? trip_of (mid_at (sp_mids s) rv) pv)
               || ((pu <=? pv) && (pv <=? pu + n - 1)) || (pu =? pv + 1)) then (no, rc)
      else if negb (ru =? rv) then
        let '(cost, rc) := remove_cost rc u
          (if nClients s ru + 2 * nShipments s ru =? n then (0 - pcost s ru)%Z
           else dcost true 0 (bef s ru (pu - 1)) [aft s ru (pu + n)]) in
        (improving (dcost false cost (bef s rv pv) [btw s ru pu (pu + n - 1); aft s rv (pv + 1)]) MNone, rc)
      else if pu <? pv then
        (improving (dcost false 0 (bef s ru (pu - 1))
                      [btw s ru (pu + n) pv; btw s ru pu (pu + n - 1); aft s ru (pv + 1)]) MNone, rc)
      else
        (improving (dcost false 0 (bef s ru pv)
                      [btw s ru pu (pu + n - 1); btw s ru (pv + 1) (pu - 1); aft s ru (pu + n)]) MNone, rc)
  | _, _ => (no, rc)
  end.

(** Relocate.h:164-170, Swap.h:164-170: [k] times, take the node, remove it from its route and
    insert it after [v]; continue with the node before it. *)
Fixpoint move_after (k : nat) (p : plan) (ru : nat) (a : activity) (rv : nat) (v : vref) : plan :=
  match k with
  | O => p
  | S k' =>
      match find_act a p with
      | None => p
      | Some (_, pa) =>
          let prev := kind_at (mid_at p ru) (pa - 1) in
          let p1 := rem p ru pa in
          match locate p1 v with
          | None => p1
          | Some (_, pv) =>
              let p2 := ins p1 rv (pv + 1) a in
              match prev with KAct b => move_after k' p2 ru b rv v | _ => p2 end
          end
      end
  end.

(** Relocate.h:155-171 *)
Definition apply_relocate (n : nat) (p : plan) (u : activity) (v : vref) : plan :=
  match find_act u p, locate p v with
  | Some (ru, pu), Some (rv, pv) =>
      match kind_at (mid_at p ru) (pu + n - 1) with
      | KAct a => move_after n p ru a rv v
      | _ => p
      end
  | _, _ => p
  end.

(** Swap.h:89-151 *)
Definition eval_swap (n m : nat) (s : sstate) (u : activity) (v : vref) : result :=
  match find_act u (sp_mids s), locate (sp_mids s) v with
  | Some (ru, pu), Some (rv, pv) =>
      match v with
      | VStart _ => no       (* hasDepot(V, M): contains the start depot *)
      | VAct va =>
          if hasDepot s ru pu n || splitsShipment s u ru pu n
             || hasDepot s rv pv m || splitsShipment s va rv pv m then no
          else if (ru =? rv) &&
                  (negb (trip_of (mid_at (sp_mids s) ru) pu =? trip_of (mid_at (sp_mids s) rv) pv)
                   || ((pu <=? pv + m - 1) && (pv <=? pu + n - 1))
                   || ((pu + n =? pv) || (pv + m =? pu))) then no
          else if (n =? m) && (a_idx va <=? a_idx u) then no
          else if negb (ru =? rv) then
            improving (dcost2 0 (bef s ru (pu - 1)) [btw s rv pv (pv + m - 1); aft s ru (pu + n)]
                                (bef s rv (pv - 1)) [btw s ru pu (pu + n - 1); aft s rv (pv + m)]) MNone
          else if pu <? pv then
            improving (dcost false 0 (bef s ru (pu - 1))
                         [btw s ru pv (pv + m - 1); btw s ru (pu + n) (pv - 1);
                          btw s ru pu (pu + n - 1); aft s ru (pv + m)]) MNone
          else
            improving (dcost false 0 (bef s ru (pv - 1))
                         [btw s ru pu (pu + n - 1); btw s ru (pv + m) (pu - 1);
                          btw s ru pv (pv + m - 1); aft s ru (pu + n)]) MNone
      end
  | _, _ => no
  end.

(** Swap.h:172-178: swap [k] pairs, advancing both nodes. *)
Fixpoint swap_pairs (k : nat) (p : plan) (u v : activity) : plan :=
  match k with
  | O => p
  | S k' =>
      let p1 := swp p u v in
      match find_act u p1, find_act v p1 with
      | Some (ru, pu), Some (rv, pv) =>
          match kind_at (mid_at p1 ru) (pu + 1), kind_at (mid_at p1 rv) (pv + 1) with
          | KAct u', KAct v' => swap_pairs k' p1 u' v'
          | _, _ => p1
          end
      | _, _ => p1
      end
  end.

(** Swap.h:153-179 *)
Definition apply_swap (n m : nat) (p : plan) (u : activity) (v : vref) : plan :=
  match v, find_act u p, locate p v with
  | VAct va, Some (ru, pu), Some (rv, pv) =>
      match kind_at (mid_at p ru) (pu + n - 1), kind_at (mid_at p rv) (pv + m - 1) with
      | KAct a, KAct b => swap_pairs m (move_after (n - m) p ru a rv (VAct b)) u va
      | _, _ => p
      end
  | _, _, _ => p
  end.

(** ** SwapTails (SwapTails.cpp:11-124) *)
Definition eval_tails (s : sstate) (u : activity) (v : vref) : result :=
  match find_act u (sp_mids s), locate (sp_mids s) v with
  | Some (ru, pu), Some (rv, pv) =>
      let umid := mid_at (sp_mids s) ru in
      let vmid := mid_at (sp_mids s) rv in
      if ru =? rv then no
      else if (rv <? ru) && negb (isEmpty s ru) && negb (isEmpty s rv) then no
      else if negb (trip_of umid pu + 1 =? numTrips umid) || negb (trip_of vmid pv + 1 =? numTrips vmid) then no
      else if negb (nPickups s ru pu =? nDeliveries s ru pu) || negb (nPickups s rv pv =? nDeliveries s rv pv) then no
      else
        let nuEnd := k_isEnd (kind_at umid (pu + 1)) in
        let nvEnd := k_isEnd (kind_at vmid (pv + 1)) in
        let uEnd := at_ s ru (rsize umid - 1) in
        let vEnd := at_ s rv (rsize vmid - 1) in
        let uTail := btw s ru (pu + 1) (rsize umid - 2) in
        let vTail := btw s rv (pv + 1) (rsize vmid - 2) in
        improving
          (if negb nuEnd && negb nvEnd then
             dcost2 0 (bef s ru pu) [vTail; uEnd] (bef s rv pv) [uTail; vEnd]
           else if negb nuEnd && nvEnd then
             dcost2 0 (bef s ru pu) [uEnd] (bef s rv pv) [uTail; vEnd]
           else if nuEnd && negb nvEnd then
             if pv =? 0 then dcost false (0 - pcost s rv)%Z (bef s ru pu) [vTail; uEnd]
             else dcost2 0 (bef s ru pu) [vTail; uEnd] (bef s rv pv) [vEnd]
           else 0%Z) MNone
  | _, _ => no
  end.

(** SwapTails.cpp:107-114 and 116-123: move the nodes after [pos] in route [r] one by one to
    position [idx] and following of route [r']; [k] bounds their number. *)
Fixpoint move_tail (k : nat) (p : plan) (r pos r' idx : nat) : plan :=
  match k with
  | O => p
  | S k' =>
      match kind_at (mid_at p r) (pos + 1) with
      | KAct a => move_tail k' (ins (rem p r (pos + 1)) r' idx a) r pos r' (S idx)
      | _ => p
      end
  end.

(** SwapTails.cpp:101-124.  The second loop starts at the node that followed [u] before the first
    loop put the other tail between [u] and it. *)
Definition apply_tails (p : plan) (u : activity) (v : vref) : plan :=
  match find_act u p, locate p v with
  | Some (ru, pu), Some (rv, pv) =>
      let k := length (mid_at p rv) - pv in
      let k' := length (mid_at p ru) - pu in
      let p1 := move_tail k p rv pv ru (pu + 1) in
      move_tail k' p1 ru (pu + k) rv (pv + 1)
  | _, _ => p
  end.

(** ** InsertOptionalClient.cpp:9-48 *)
Definition eval_insert_client (s : sstate) (u : activity) (v : vref) : result :=
  match u, find_act u (sp_mids s), locate (sp_mids s) v with
  | AClient i, None, Some (rv, pv) =>
      let c := p_client d i in
      let blocked :=
        match c_group c with
        | Some g => g_required (p_group d g)
                    || existsb (fun j => isPlanned (sp_mids s) (AClient j)) (g_clients (p_group d g))
        | None => false
        end in
      if blocked then no
      else improving (dcost false (- c_prize c) (bef s rv pv) [SClient i; aft s rv (pv + 1)]) MNone
  | _, _, _ => no
  end.
Definition insert_after (p : plan) (v : vref) (a : activity) : plan :=
  match locate p v with Some (rv, pv) => ins p rv (pv + 1) a | None => p end.
Definition apply_insert_client (p : plan) (u : activity) (v : vref) : plan := insert_after p v u.

(** ** InsertOptionalShipment.cpp:10-68 *)
(** The loops `for (node = n(V); !node->isDepot(); node = n(node))`: the positions visited. *)
Fixpoint run_length (l : list activity) : nat :=
  match l with
  | [] => 0
  | a :: more => if a_isDepot a then 0 else S (run_length more)
  end.
Definition trip_rest (mid : list activity) (pos : nat) : list nat :=
  seq (pos + 1) (run_length (skipn pos mid)).

(** First position for which the delta improves; [none] is the cost returned when there is none. *)
Fixpoint first_improving {A} (none : Z) (eval : A -> Z) (mk : A -> move) (l : list A) : result :=
  match l with
  | [] => (none, false, MNone)
  | x :: more => let delta := eval x in
                 if (delta <? 0)%Z then (delta, true, mk x) else first_improving none eval mk more
  end.

Definition eval_insert_shipment (s : sstate) (u : activity) (v : vref) : result :=
  match u, find_act u (sp_mids s), locate (sp_mids s) v with
  | APickup i, None, Some (rv, pv) =>
      let prize := s_prize (p_shipment d i) in
      let delta := dcost false (- prize) (bef s rv pv) [SPickup i; SDelivery i; aft s rv (pv + 1)] in
      if (delta <? 0)%Z then (delta, true, MPos (pv + 1))
      else first_improving 0%Z
             (fun pos => dcost false (- prize) (bef s rv pv)
                           [SPickup i; btw s rv (pv + 1) pos; SDelivery i; aft s rv (pos + 1)])
             (fun pos => MPos (pos + 1))
             (trip_rest (mid_at (sp_mids s) rv) pv)
  | _, _, _ => no
  end.
Definition apply_insert_shipment (m : move) (p : plan) (u : activity) (v : vref) : plan :=
  match u, locate p v, m with
  | APickup i, Some (rv, pv), MPos pos => insert_after (ins p rv pos (ADelivery i)) v (APickup i)
  | _, _, _ => p
  end.

(** ** RelocateAlternative.cpp:9-145 *)
Definition eval_alternative (s : sstate) (rc : rcache) (u : activity) (v : vref) : result * rcache :=
  match u, find_act u (sp_mids s), locate (sp_mids s) v with
  | AClient i, Some (ru, pu), Some (rv, pv) =>
      if (ru =? rv) && ((pu =? pv) || (pu =? pv + 1)) then (no, rc)
      else
        match c_group (p_client d i) with
        | None => (no, rc)
        | Some g =>
            let prize := c_prize (p_client d i) in
            let others := filter (fun j => negb (j =? i)) (g_clients (p_group d g)) in
            if ru =? rv then
              if negb (trip_of (mid_at (sp_mids s) ru) pu =? trip_of (mid_at (sp_mids s) rv) pv) then (no, rc)
              else
                (first_improving 0%Z
                   (fun j => let out := (prize - c_prize (p_client d j))%Z in
                      if pu <? pv
                      then dcost false out (bef s ru (pu - 1)) [btw s ru (pu + 1) pv; SClient j; aft s ru (pv + 1)]
                      else dcost false out (bef s ru pv) [SClient j; btw s ru (pv + 1) (pu - 1); aft s ru (pu + 1)])
                   MAlt others, rc)
            else
              let '(cost, rc) := remove_cost rc u
                (if (nClients s ru =? 1) && (nShipments s ru =? 0) then (prize - pcost s ru)%Z
                 else dcost true prize (bef s ru (pu - 1)) [aft s ru (pu + 1)]) in
              (first_improving 0%Z
                 (fun j => dcost false (cost - c_prize (p_client d j))%Z (bef s rv pv) [SClient j; aft s rv (pv + 1)])
                 MAlt others, rc)
        end
  | _, _, _ => (no, rc)
  end.
Definition remove_act (p : plan) (a : activity) : plan :=
  match find_act a p with Some (r, pos) => rem p r pos | None => p end.
Definition apply_alternative (m : move) (p : plan) (u : activity) (v : vref) : plan :=
  match m with MAlt j => insert_after (remove_act p u) v (AClient j) | _ => p end.

(** ** RelocateDelivery.cpp:9-66 *)
Definition eval_delivery (s : sstate) (u : activity) : result :=
  match u with
  | APickup i =>
      match find_act u (sp_mids s), find_act (ADelivery i) (sp_mids s) with
      | Some (r, pu), Some (_, pd) =>
          let mid := mid_at (sp_mids s) r in
          first_improving MAXV
            (fun pa => if pd <? pa
               then dcost false 0 (bef s r (pd - 1)) [btw s r (pd + 1) pa; SDelivery i; aft s r (pa + 1)]
               else dcost false 0 (bef s r pa) [SDelivery i; btw s r (pa + 1) (pd - 1); aft s r (pd + 1)])
            (fun pa => match kind_at mid pa with KAct a => MNode a | _ => MNone end)
            (filter (fun pa => negb (pa =? pd) && negb (pa + 1 =? pd)) (pu :: trip_rest mid pu))
      | _, _ => no
      end
  | _ => no
  end.
Definition apply_delivery (m : move) (p : plan) (u : activity) : plan :=
  match u, m with
  | APickup i, MNode a => insert_after (remove_act p (ADelivery i)) (VAct a) (ADelivery i)
  | _, _ => p
  end.

(** ** RelocatePickup.cpp:9-65 *)
(** `for (node = delivery; !node->isDepot(); node = p(node))`: the positions visited. *)
Definition trip_back (mid : list activity) (pos : nat) : list nat :=
  let k := run_length (rev (firstn pos mid)) in rev (seq (pos + 1 - k) k).
Definition eval_pickup (s : sstate) (u : activity) : result :=
  match u with
  | APickup i =>
      match find_act u (sp_mids s), find_act (ADelivery i) (sp_mids s) with
      | Some (r, pu), Some (_, pd) =>
          let mid := mid_at (sp_mids s) r in
          first_improving MAXV
            (fun pn => if pu <? pn
               then dcost false 0 (bef s r (pu - 1)) [btw s r (pu + 1) (pn - 1); SPickup i; aft s r pn]
               else dcost false 0 (bef s r (pn - 1)) [SPickup i; btw s r pn (pu - 1); aft s r (pu + 1)])
            (fun pn => match kind_at mid pn with KAct a => MNode a | _ => MNone end)
            (filter (fun pn => negb (pn =? pu) && negb (pn - 1 =? pu)) (trip_back mid pd))
      | _, _ => no
      end
  | _ => no
  end.
Definition apply_pickup (m : move) (p : plan) (u : activity) : plan :=
  match m with
  | MNode a =>
      let p1 := remove_act p u in
      match find_act a p1 with Some (r, pos) => ins p1 r pos u | None => p1 end
  | _ => p
  end.

(** ** RelocateShipment.cpp:7-102 *)
Definition eval_shipment (s : sstate) (rc : rcache) (u : activity) (v : vref) : result * rcache :=
  match u with
  | APickup i =>
      match find_act u (sp_mids s), find_act (ADelivery i) (sp_mids s), locate (sp_mids s) v with
      | Some (ru, pp), Some (_, pd), Some (rv, pv) =>
          if ru =? rv then (no, rc)
          else
            let '(cost, rc) := remove_cost rc u
              (if (nClients s ru =? 0) && (nShipments s ru =? 1) then (0 - pcost s ru)%Z
               else if negb (pp + 1 =? pd)
               then dcost true 0 (bef s ru (pp - 1)) [btw s ru (pp + 1) (pd - 1); aft s ru (pd + 1)]
               else dcost true 0 (bef s ru (pp - 1)) [aft s ru (pd + 1)]) in
            let delta := dcost false cost (bef s rv pv) [at_ s ru pp; at_ s ru pd; aft s rv (pv + 1)] in
            if (delta <? 0)%Z then ((delta, true, MPos (pv + 1)), rc)
            else (first_improving 0%Z
                    (fun pos => dcost false cost (bef s rv pv)
                                  [at_ s ru pp; btw s rv (pv + 1) pos; at_ s ru pd; aft s rv (pos + 1)])
                    (fun pos => MPos (pos + 1))
                    (trip_rest (mid_at (sp_mids s) rv) pv), rc)
      | _, _, _ => (no, rc)
      end
  | _ => (no, rc)
  end.
Definition apply_shipment (m : move) (p : plan) (u : activity) (v : vref) : plan :=
  match u, m with
  | APickup i, MPos pos =>
      let p1 := remove_act (remove_act p (ADelivery i)) u in
      match locate p1 v with
      | Some (rv, _) => insert_after (ins p1 rv pos (ADelivery i)) v u
      | None => p1
      end
  | _, _ => p
  end.

(** ** RelocateWithDepot.cpp:10-187 *)
(** The loops keep the best move so far. *)
Fixpoint best_depot (eval : nat -> Z) (first : bool) (depots : list nat) (best : Z * move) : Z * move :=
  match depots with
  | [] => best
  | x :: more =>
      let delta := eval x in
      best_depot eval first more (if (delta <? fst best)%Z then (delta, MDepot first x) else best)
  end.
Definition eval_with_depot (s : sstate) (rc : rcache) (u : activity) (v : vref) : result * rcache :=
  match u, find_act u (sp_mids s), locate (sp_mids s) v with
  | AClient i, Some (ru, pu), Some (rv, pv) =>
      let vmid := mid_at (sp_mids s) rv in
      let veh := rveh d rv in
      if ((ru =? rv) && (pu =? pv + 1)) || isEmpty s rv then (no, rc)
      else if (Z.of_nat (numTrips vmid) =? v_maxTrips veh)%Z then (no, rc)
      else if (ru =? rv) && negb (trip_of (mid_at (sp_mids s) ru) pu =? trip_of vmid pv) then (no, rc)
      else if negb (nPickups s rv pv =? nDeliveries s rv pv) then (no, rc)
      else
        let vReload := k_isReload (kind_at vmid pv) in
        let nvReload := k_isReload (kind_at vmid (pv + 1)) in
        let search (evalF evalL : nat -> Z) : result :=
          let best := (MAXV, MNone) in
          let best := if vReload then best else best_depot evalF true (v_reload veh) best in
          let best := if nvReload then best else best_depot evalL false (v_reload veh) best in
          improving (fst best) (snd best) in
        if ru =? rv then
          (search
             (fun x => if pu <? pv
                then dcost false 0 (bef s ru (pu - 1)) [btw s ru (pu + 1) pv; SDepot x; at_ s ru pu; aft s ru (pv + 1)]
                else dcost false 0 (bef s ru pv) [SDepot x; at_ s ru pu; btw s ru (pv + 1) (pu - 1); aft s ru (pu + 1)])
             (fun x => if pu <? pv
                then dcost false 0 (bef s ru (pu - 1)) [btw s ru (pu + 1) pv; at_ s ru pu; SDepot x; aft s ru (pv + 1)]
                else dcost false 0 (bef s ru pv) [at_ s ru pu; SDepot x; btw s ru (pv + 1) (pu - 1); aft s ru (pu + 1)]),
           rc)
        else
          let '(cost, rc) := remove_cost rc u
            (if (nClients s ru =? 1) && (nShipments s ru =? 0) then (0 - pcost s ru)%Z
             else dcost true 0 (bef s ru (pu - 1)) [aft s ru (pu + 1)]) in
          (search
             (fun x => dcost false cost (bef s rv pv) [SDepot x; at_ s ru pu; aft s rv (pv + 1)])
             (fun x => dcost false cost (bef s rv pv) [at_ s ru pu; SDepot x; aft s rv (pv + 1)]),
           rc)
  | _, _, _ => (no, rc)
  end.
Definition apply_with_depot (m : move) (p : plan) (u : activity) (v : vref) : plan :=
  match m with
  | MDepot first x =>
      let p1 := remove_act p u in
      match locate p1 v with
      | Some (rv, pv) =>
          let p2 := ins p1 rv (pv + 1) u in
          if first then ins p2 rv (pv + 1) (ADepot x) else ins p2 rv (pv + 2) (ADepot x)
      | None => p1
      end
  | _ => p
  end.

(** ** RemoveAdjacentDepot.cpp:8-66 *)
Definition eval_adjacent (s : sstate) (u : activity) : result :=
  match find_act u (sp_mids s) with
  | Some (r, pu) =>
      let mid := mid_at (sp_mids s) r in
      let best := (MAXV, MNone) in
      let best :=
        if k_isReload (kind_at mid (pu - 1)) then
          let delta := dcost true 0 (bef s r (pu - 2)) [aft s r pu] in
          if (delta <? fst best)%Z then (delta, MPrev) else best
        else best in
      let best :=
        if k_isReload (kind_at mid (pu + 1)) then
          let delta := dcost true 0 (bef s r pu) [aft s r (pu + 2)] in
          if (delta <? fst best)%Z then (delta, MNext) else best
        else best in
      (fst best, (fst best <=? 0)%Z, snd best)
  | None => no
  end.
Definition apply_adjacent (m : move) (p : plan) (u : activity) : plan :=
  match find_act u p, m with
  | Some (r, pu), MPrev => rem p r (pu - 1)
  | Some (r, pu), MNext => rem p r (pu + 1)
  | _, _ => p
  end.

(** ** RemoveOptionalClient.cpp:7-42 *)
Definition eval_remove_client (s : sstate) (u : activity) : result :=
  match u, find_act u (sp_mids s) with
  | AClient i, Some (r, pu) =>
      let c := p_client d i in
      if c_required c || match c_group c with Some g => g_required (p_group d g) | None => false end then no
      else
        improving
          (if (nShipments s r =? 0) && (nClients s r =? 1) then (c_prize c - pcost s r)%Z
           else dcost false (c_prize c) (bef s r (pu - 1)) [aft s r (pu + 1)]) MNone
  | _, _ => no
  end.
Definition apply_remove_client (p : plan) (u : activity) : plan := remove_act p u.

(** ** RemoveOptionalShipment.cpp:7-53 *)
Definition eval_remove_shipment (s : sstate) (u : activity) : result :=
  match u with
  | APickup i =>
      match find_act u (sp_mids s), find_act (ADelivery i) (sp_mids s) with
      | Some (r, pp), Some (_, pd) =>
          let x := p_shipment d i in
          if s_required x then no
          else
            improving
              (if (nShipments s r =? 1) && (nClients s r =? 0) then (s_prize x - pcost s r)%Z
               else if pp + 1 =? pd then dcost false (s_prize x) (bef s r (pp - 1)) [aft s r (pd + 1)]
               else dcost false (s_prize x) (bef s r (pp - 1)) [btw s r (pp + 1) (pd - 1); aft s r (pd + 1)]) MNone
      | _, _ => no
      end
  | _ => no
  end.
Definition apply_remove_shipment (p : plan) (u : activity) : plan :=
  match u with
  | APickup i => remove_act (remove_act p (ADelivery i)) u
  | _ => p
  end.

(** ** ReplaceGroup.cpp:10-58 *)
Definition eval_replace_group (s : sstate) (u : activity) : result :=
  match u, find_act u (sp_mids s) with
  | AClient i, None =>
      match c_group (p_client d i) with
      | None => no
      | Some g =>
          match find (fun j => isPlanned (sp_mids s) (AClient j)) (g_clients (p_group d g)) with
          | None => improving 0 MNone
          | Some j =>
              match find_act (AClient j) (sp_mids s) with
              | Some (r, pv) =>
                  improving (dcost false (c_prize (p_client d j) - c_prize (p_client d i))%Z
                               (bef s r (pv - 1)) [SClient i; aft s r (pv + 1)]) (MAlt j)
              | None => no
              end
          end
      end
  | _, _ => no
  end.
Definition replace_act (p : plan) (old new : activity) : plan :=
  match find_act old p with Some (r, pos) => ins (rem p r pos) r pos new | None => p end.
Definition apply_replace_group (m : move) (p : plan) (u : activity) : plan :=
  match m with MAlt j => replace_act p (AClient j) u | _ => p end.

(** ** ReplaceOptionalClient.cpp:9-41 *)
Definition eval_replace_client (s : sstate) (u : activity) (v : vref) : result :=
  match u, v with
  | AClient i, VAct (AClient j) =>
      match find_act u (sp_mids s), find_act (AClient j) (sp_mids s) with
      | None, Some (r, pv) =>
          let c := p_client d i in
          let c' := p_client d j in
          if c_required c' || match c_group c with Some _ => true | None => false end
             || match c_group c' with Some _ => true | None => false end then no
          else improving (dcost false (c_prize c' - c_prize c)%Z (bef s r (pv - 1)) [SClient i; aft s r (pv + 1)]) MNone
      | _, _ => no
      end
  | _, _ => no
  end.
Definition apply_replace_client (p : plan) (u : activity) (v : vref) : plan :=
  match v with VAct a => replace_act p a u | _ => p end.

(** ** ReplaceOptionalShipment.cpp:10-79 *)
Definition eval_replace_shipment (s : sstate) (u : activity) (v : vref) : result :=
  match u, v with
  | APickup i, VAct (APickup j | ADelivery j) =>
      match find_act u (sp_mids s), find_act (APickup j) (sp_mids s), find_act (ADelivery j) (sp_mids s) with
      | None, Some (r, pp), Some (_, pd) =>
          let x := p_shipment d i in
          let y := p_shipment d j in
          if s_required y then no
          else
            let out := (s_prize y - s_prize x)%Z in
            improving
              (if pp + 1 =? pd
               then dcost false out (bef s r (pp - 1)) [SPickup i; SDelivery i; aft s r (pd + 1)]
               else dcost false out (bef s r (pp - 1))
                      [SPickup i; btw s r (pp + 1) (pd - 1); SDelivery i; aft s r (pd + 1)]) MNone
      | _, _, _ => no
      end
  | _, _ => no
  end.
Definition apply_replace_shipment (p : plan) (u : activity) (v : vref) : plan :=
  match u, v with
  | APickup i, VAct (APickup j | ADelivery j) => swp (swp p (APickup j) u) (ADelivery j) (ADelivery i)
  | _, _ => p
  end.

(** ** The operators *)
Inductive unary := URelocateDelivery | URelocatePickup | URemoveAdjacentDepot
| URemoveOptionalClient | URemoveOptionalShipment | UReplaceGroup.
Inductive binary := BRelocate (n : nat) | BSwap (n m : nat) | BSwapTails
| BInsertOptionalClient | BInsertOptionalShipment | BRelocateAlternative | BRelocateShipment
| BRelocateWithDepot | BReplaceOptionalClient | BReplaceOptionalShipment.

(** UnaryOperator::evaluate and apply *)
Definition eval_unary (o : unary) (s : sstate) (u : activity) : result :=
  match o with
  | URelocateDelivery => eval_delivery s u
  | URelocatePickup => eval_pickup s u
  | URemoveAdjacentDepot => eval_adjacent s u
  | URemoveOptionalClient => eval_remove_client s u
  | URemoveOptionalShipment => eval_remove_shipment s u
  | UReplaceGroup => eval_replace_group s u
  end.
Definition apply_unary (o : unary) (m : move) (p : plan) (u : activity) : plan :=
  match o with
  | URelocateDelivery => apply_delivery m p u
  | URelocatePickup => apply_pickup m p u
  | URemoveAdjacentDepot => apply_adjacent m p u
  | URemoveOptionalClient => apply_remove_client p u
  | URemoveOptionalShipment => apply_remove_shipment p u
  | UReplaceGroup => apply_replace_group m p u
  end.

(** BinaryOperator::evaluate and apply *)
Definition eval_binary (o : binary) (s : sstate) (rc : rcache) (u : activity) (v : vref) : result * rcache :=
  match o with
  | BRelocate n => eval_relocate n s rc u v
  | BSwap n m => (eval_swap n m s u v, rc)
  | BSwapTails => (eval_tails s u v, rc)
  | BInsertOptionalClient => (eval_insert_client s u v, rc)
  | BInsertOptionalShipment => (eval_insert_shipment s u v, rc)
  | BRelocateAlternative => eval_alternative s rc u v
  | BRelocateShipment => eval_shipment s rc u v
  | BRelocateWithDepot => eval_with_depot s rc u v
  | BReplaceOptionalClient => (eval_replace_client s u v, rc)
  | BReplaceOptionalShipment => (eval_replace_shipment s u v, rc)
  end.
Definition apply_binary (o : binary) (m : move) (p : plan) (u : activity) (v : vref) : plan :=
  match o with
  | BRelocate n => apply_relocate n p u v
  | BSwap n m' => apply_swap n m' p u v
  | BSwapTails => apply_tails p u v
  | BInsertOptionalClient => apply_insert_client p u v
  | BInsertOptionalShipment => apply_insert_shipment m p u v
  | BRelocateAlternative => apply_alternative m p u v
  | BRelocateShipment => apply_shipment m p u v
  | BRelocateWithDepot => apply_with_depot m p u v
  | BReplaceOptionalClient => apply_replace_client p u v
  | BReplaceOptionalShipment => apply_replace_shipment p u v
  end.

(** The operators' update(route), Relocate.h:193-203, RelocateAlternative.cpp:165-170,
    RelocateShipment.cpp:119-124, RelocateWithDepot.cpp:207-212: forget the remove costs of the
    visits now in the route. *)
Definition rc_forget (mid : list activity) (rc : rcache) : rcache :=
  fun a => if existsb (a_eqb a) mid then None else rc a.

(** Operators' supports(): see Solve.v; the local search uses the operators it is given. *)
End Operators.

(** ** Route::update() for the routes of a plan, and penalisedCost of the search solution
    (search/Solution.cpp:410-429). *)
Definition sync (d : pdata) (p : plan) : sstate :=
  mk_sstate p (map (fun r => update d (rveh d r) (mid_at p r)) (seq 0 (length p))).
Definition uncollected (d : pdata) (p : plan) : Z :=
  (zsum (map (fun i => if isPlanned p (AClient i) then 0 else c_prize (p_client d i)) (seq 0 (p_numClients d)))
   + zsum (map (fun i => if isPlanned p (APickup i) then 0 else s_prize (p_shipment d i)) (seq 0 (p_numShipments d))))%Z.
Definition state_cost (ev : evaluator) (d : pdata) (s : sstate) : Z :=
  (uncollected d (sp_mids s) + zsum (map (search_penalised ev) (sp_caches s)))%Z.
