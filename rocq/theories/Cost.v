(** Model of pyvrp/cpp/CostEvaluator.{h,cpp} and of the penalised cost of routes
    (Route.cpp:622-635, search/Route.h:1340-1355). *)
From Verif Require Import Base DurationSegment Data LoadSegment SearchRoute Route.

(** CostEvaluator.h:56-58.  A penalty weight [w] enters only through the function
    [x |-> static_cast<Cost>(x * w)] (x converted to double, product rounded, then truncated);
    the model keeps these functions.  Penalty.v defines them in binary64. *)
Record evaluator := mk_evaluator {
  ev_load : list (Z -> Z);
  ev_tw : Z -> Z;
  ev_dist : Z -> Z }.

(** CostEvaluator.h:175-185 *)
Fixpoint excessLoadPenalties (fs : list (Z -> Z)) (loads : list Z) : Z :=
  match fs, loads with
  | f :: fs', x :: loads' => f x + excessLoadPenalties fs' loads'
  | _, _ => 0
  end.

(** CostEvaluator.h:187-194 *)
Definition loadPenalty (ev : evaluator) (load capacity : Z) (dim : nat) : Z :=
  nth dim (ev_load ev) (fun _ => 0) (Z.max (load - capacity) 0).

(** CostEvaluator.h:196-199 *)
Definition twPenalty (ev : evaluator) (timeWarp : Z) : Z := ev_tw ev timeWarp.

(** CostEvaluator.h:201-210 *)
Definition excessDistPenalty (ev : evaluator) (excess : Z) : Z := ev_dist ev excess.
Definition distPenalty (ev : evaluator) (distance maxDistance : Z) : Z :=
  excessDistPenalty ev (Z.max (distance - maxDistance) 0).

(** Route.cpp:622-635 *)
Definition route_penalised (ev : evaluator) (r : route) : Z :=
  if r_empty r then 0
  else r_distanceCost r + r_durationCost r + r_fixedCost r
       + excessLoadPenalties (ev_load ev) (r_excessLoad r)
       + twPenalty ev (r_timeWarp r)
       + distPenalty ev (r_excessDistance r) 0.

(** search/Route.h:1340-1355 *)
Definition search_penalised (ev : evaluator) (c : cache) : Z :=
  if ca_empty c then 0
  else ca_distanceCost c + ca_durationCost c + v_fixedCost (ca_veh c)
       + excessLoadPenalties (ev_load ev) (ca_excessLoad c)
       + twPenalty ev (ca_timeWarp c)
       + distPenalty ev (ca_excessDistance c) 0.

(** search/Route.h:1036-1040 *)
Definition hasDistanceCost (v : vehicle) : bool :=
  negb (v_unitDistance v =? 0) || negb (v_maxDistance v =? MAXV).

(** search/Route.h:1064-1072 *)
Definition hasDurationCost (d : pdata) (v : vehicle) : bool :=
  p_hasTimeWindows d || negb (v_unitDuration v =? 0)
  || (negb (v_unitOvertime v =? 0) && negb (v_maxOvertime v =? 0))
  || negb (v_maxDuration v =? MAXV).

(** A proposal knows its route through its first piece, search/Route.h:1178-1182. *)
Definition prop_cache (d : pdata) (p : proposal) : cache :=
  match seg_cache (pr_first p) with Some c => c | None => update d dummy_vehicle [] end.

(** CostEvaluator.h:229-234 *)
Definition add_dist (ev : evaluator) (d : pdata) (v : vehicle) (p : proposal) (out : Z) : Z :=
  if hasDistanceCost v then
    let '(cost, excess) := prop_distance d v p in out + cost + excessDistPenalty ev excess
  else out.

(** CostEvaluator.h:246-251 *)
Definition add_dur (ev : evaluator) (d : pdata) (v : vehicle) (p : proposal) (out : Z) : Z :=
  if hasDurationCost d v then
    let '(cost, timeWarp) := prop_duration d v p in out + cost + twPenalty ev timeWarp
  else out.

(** CostEvaluator.h:236-244: the loop over the load dimensions; [inl] is the early return. *)
Fixpoint add_loads (exact : bool) (ev : evaluator) (d : pdata) (v : vehicle) (p : proposal)
    (dims : list nat) (out : Z) : Z + Z :=
  match dims with
  | [] => inr out
  | dim :: more =>
      if negb exact && (0 <=? out) then inl out
      else add_loads exact ev d v p more (out + loadPenalty ev (prop_excessLoad d v dim p) 0 dim)
  end.
Definition cap_dims (v : vehicle) : list nat := seq 0 (length (v_capacity v)).

(** CostEvaluator.h:220-254: the new value of [out], and whether the evaluation was complete. *)
Definition deltaCost (exact : bool) (ev : evaluator) (d : pdata) (out : Z) (p : proposal) : Z * bool :=
  let c := prop_cache d p in
  let v := ca_veh c in
  let out := out - search_penalised ev c in
  let out := out + v_fixedCost v in
  let out := add_dist ev d v p out in
  match add_loads exact ev d v p (cap_dims v) out with
  | inl out => (out, false)
  | inr out => (add_dur ev d v p out, true)
  end.

(** CostEvaluator.h:256-329: two proposals at once. *)
Definition deltaCost2 (exact : bool) (ev : evaluator) (d : pdata) (out : Z) (u v : proposal)
  : Z * bool :=
  let cu := prop_cache d u in
  let cv := prop_cache d v in
  let uv := ca_veh cu in
  let vv := ca_veh cv in
  let out := out - search_penalised ev cu in
  let out := out - search_penalised ev cv in
  let out := out + v_fixedCost uv in
  let out := out + v_fixedCost vv in
  let out := add_dist ev d uv u out in
  let out := add_dist ev d vv v out in
  match add_loads exact ev d uv u (cap_dims uv) out with
  | inl out => (out, false)
  | inr out =>
      match add_loads exact ev d vv v (cap_dims vv) out with
      | inl out => (out, false)
      | inr out =>
          if negb exact && (0 <=? out) then (out, false)
          else (add_dur ev d vv v (add_dur ev d uv u out), true)
      end
  end.
