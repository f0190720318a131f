(** Property theorems C18 and C19: the routes and nodes of the search. *)
From Coq Require Import ZArith Lia List Permutation.
From Verif Require Import Base DurationSegment Data Valid Route RouteSpec Cost Solution SolutionFacts Equal
  SearchSpace SearchNodes SearchSeq SearchLoad SearchLoad2 Sample PSolution.
Import ListNotations.
Local Open Scope nat_scope.

(** Take any number of routes and any sequence of insertions, removals, swaps, clears and updates
    with valid arguments.  No step throws or dereferences a dangling pointer, and afterwards the
    nodes show the lists one gets by editing plain lists: each node knows its route, its position
    and its trip, depots stay at both ends, and nodes in no route are unassigned. *)
Theorem C18_edits : forall vs os, (forall v, In v vs -> (1 <= v_maxTrips v)%Z) -> ops_ok vs (start_plan vs) os ->
  exists s, run_ops (new_heap vs) os = Some (s, false) /\ shows vs s (fold_left (plan_op vs) os (start_plan vs)).
Proof. exact ops_shows. Qed.
Print Assumptions C18_edits.

(** No visit is at two places. *)
Theorem C18_unique : forall vs os, (forall v, In v vs -> (1 <= v_maxTrips v)%Z) -> ops_ok vs (start_plan vs) os ->
  forall r i r' i' a, let pl := fold_left (plan_op vs) os (start_plan vs) in
  a_isDepot a = false -> nth_error (nth r pl []) i = Some a -> nth_error (nth r' pl []) i' = Some a -> r = r' /\ i = i'.
Proof. exact ops_unique. Qed.
Print Assumptions C18_unique.

(** Inserting a reload depot beyond the allowed number of trips throws, but not cleanly: afterwards
    every insertion into that route throws, even of a client. *)
Theorem C18_failed_insert : forall s r idx k, heap_ok s -> r < length (hp_routes s) ->
  (v_maxTrips (sr_veh (sroute_at s r)) < Z.of_nat (length (sr_depots (sroute_at s r))))%Z ->
  exists s', route_insert s r idx (ADepot k) = Some (s', true) /\
    (forall idx' a, exists s'', route_insert s' r idx' a = Some (s'', true)).
Proof. exact insert_depot_throws. Qed.
Print Assumptions C18_failed_insert.

(** A case: two vehicles, with reloads, a swap across routes, removals and a clear. *)
Definition sEdits : list op :=
  [OInsert 0 1 (AClient 0); OInsert 0 2 (AClient 1); OInsert 0 2 (ADepot 1); OInsert 1 1 (APickup 0);
   OInsert 1 2 (ADelivery 0); OSwap (AClient 1) (APickup 0); OUpdate 0; ORemove 0 2; OClear 1; OInsert 1 1 (AClient 2)].
Example C18_case :
  let vs := [p_vehicle sample 0; p_vehicle sample 1] in
  (forall v, In v vs -> (1 <= v_maxTrips v)%Z) /\ ops_ok vs (start_plan vs) sEdits /\
  fold_left (plan_op vs) sEdits (start_plan vs) =
    [[ADepot 0; AClient 0; APickup 0; ADepot 0]; [ADepot 0; AClient 2; ADepot 1]].
Proof.
  split; [|split].
  - intros v [<-|[<-|[]]]; vm_compute; discriminate.
  - cbn [ops_ok sEdits]. vm_compute. repeat split; try lia; try discriminate; intuition (subst; intuition discriminate).
  - vm_compute. reflexivity.
Qed.

(** States of the search: as constructed, and after any valid edits followed by updates. *)
Theorem C19_states : forall d, (forall t, t < p_numVehicleTypes d -> (1 <= v_maxTrips (p_vehicle d t))%Z) ->
  ready d (new_search d) (start_plan (fleet_vehicles d)) /\
  forall s pl os, ready d s pl -> ops_ok (fleet_vehicles d) pl os ->
    exists s', run_ops s (os ++ update_all (length pl)) = Some (s', false) /\
      ready d s' (fold_left (plan_op (fleet_vehicles d)) os pl).
Proof. intros d H. split; [apply new_ready, H|]. intros s pl os. apply edits_ready. Qed.
Print Assumptions C19_states.

(** Loading a solution into any such state, then unloading, gives a solution with the same routes,
    ordered by vehicle type; it is equal to the loaded one and has the same penalised cost.  The
    loading neither throws nor goes out of bounds, and leaves exactly the routes of the solution
    and empty routes. *)
Theorem C19_load_unload : forall d s pl routes sol, groups_nodup d -> groups_known d ->
  ready d s pl -> length pl = offset (avail d) (p_numVehicleTypes d) ->
  Forall (built d) routes -> make_solution d routes = Ok sol ->
  exists s' sol', load d s (so_routes sol) = Some (s', false) /\ ready d s' (target d routes) /\
    unload d s' = Ok sol' /\ so_routes sol' = by_type d routes /\ Permutation (so_routes sol') (so_routes sol) /\
    solution_eqb sol' sol = true /\ forall ev, solution_penalised ev sol' = solution_penalised ev sol.
Proof. exact load_unload. Qed.
Print Assumptions C19_load_unload.

(** A case: the state holds another plan; the solution has two routes, given in the other order. *)
Example C19_case :
  let os := [OInsert 0 1 (AClient 0); OInsert 1 1 (AClient 1); OInsert 2 1 (AClient 3)] in
  (forall t, t < p_numVehicleTypes sample -> (1 <= v_maxTrips (p_vehicle sample t))%Z) /\
  ops_ok (fleet_vehicles sample) (start_plan (fleet_vehicles sample)) os /\
  length (fold_left (plan_op (fleet_vehicles sample)) os (start_plan (fleet_vehicles sample))) = offset (avail sample) (p_numVehicleTypes sample) /\
  Forall (built sample) [ex_r2; ex_r1] /\ (exists sol, make_solution sample [ex_r2; ex_r1] = Ok sol) /\
  by_type sample [ex_r2; ex_r1] = [ex_r1; ex_r2].
Proof.
  split; [|split; [|split; [|split; [|split]]]].
  - intros [|[|t]] Ht; [vm_compute; discriminate|vm_compute; discriminate|]. exfalso. cbn in Ht. lia.
  - cbn [ops_ok]. vm_compute. repeat split; try lia; intuition (subst; intuition discriminate).
  - vm_compute. reflexivity.
  - pose proof ex_built as H. inversion H as [|x l H1 H2]; subst. inversion H2 as [|y l H3 H4]; subst. repeat constructor; assumption.
  - eexists. vm_compute. reflexivity.
  - vm_compute. reflexivity.
Qed.
