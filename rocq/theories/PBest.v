(** Property theorems C49 and C50: the operators overlook no improving move, and an exhaustive call
    of the local search returns a local optimum. *)
From Coq Require Import ZArith Lia List.
From Verif Require Import Base DurationSegment Data LoadSegment SearchRoute Valid Route RouteSpec RouteFacts2 Cost CostFacts DataCtor Solution SolutionFacts
  Rng SearchSpace SearchNodes SearchSeq SearchLoad Ops PlanFacts OpsBase OpsGen OpsRelocate OpsSwap OpsOne OpsEdit OpsEdit2 OpsAll
  LocalSearch LocalFacts Perturb LocalRun LocalOpt OpsComplete OpsComplete2 OpsComplete3 Moves LocalBest Fits Sample Sample2 Sample3 POps PLocal.
Import ListNotations.
Local Open Scope nat_scope.

(** C49.  When evaluate() of an operator says that there is nothing to apply, then no move of the
    operator's kind lowers the cost.  The moves are written out as lists before and after:
    [unary_effect] (OpsAll.v) and [binary_move] (Moves.v).  A move has no other conditions than those
    written there; that it respects time windows, load and the like is not one of them.  [rc]: the
    remove costs that the operator remembers. *)
Theorem C49_unary : forall d h ev, setting d h ev -> forall o p u p',
  plan_ok d p -> group_once d p -> known d u -> a_isDepot u = false -> unary_effect d o p u p' ->
  snd (fst (eval_unary d ev o (sync d p) u)) = false -> (plan_cost d ev p <= plan_cost d ev p')%Z.
Proof. exact unary_complete. Qed.
Print Assumptions C49_unary.
Theorem C49_binary : forall d h ev, setting d h ev -> forall o p rc u v p',
  plan_ok d p -> group_once d p -> vref_ok p v -> rc_ok d ev o p rc -> binary_move d o p u v p' ->
  snd (fst (fst (eval_binary d ev o (sync d p) rc u v))) = false -> (plan_cost d ev p <= plan_cost d ev p')%Z.
Proof. exact cached_complete. Qed.
Print Assumptions C49_binary.
(** RemoveAdjacentDepot also removes depots when that leaves the cost as it is. *)
Theorem C49_depot : forall d h ev, setting d h ev -> forall p u p', plan_ok d p -> a_isDepot u = false -> depot_removed p u p' ->
  snd (fst (eval_unary d ev URemoveAdjacentDepot (sync d p) u)) = false -> (plan_cost d ev p < plan_cost d ev p')%Z.
Proof. exact adjacent_complete. Qed.
Print Assumptions C49_depot.

(** C50.  After an exhaustive call, no solution that is one move away is cheaper.  [one_move]
    (Moves.v): a move of one of the operators of the search; a planned client or shipment may be moved
    next to a neighbour or into the first unused vehicle of a type, an unplanned one only into an
    unused vehicle.  [represents]: the plan gives each vehicle the visits of its route in the solution;
    vehicles without visits are not part of the solution. *)
Theorem C50_exhaustive : forall d h ev, setting d h ev -> groups_nodup d -> (forall v, In v (p_vehicles d) -> (0 <= v_maxReloads v)%Z) ->
  forall se routes sol n sol' se', usable d se -> Forall (built d) routes -> make_solution d routes = Ok sol ->
  py_call d n se sol ev true = Some (sol', se') ->
  exists p, represents d p (so_routes sol') /\
    forall p' routes2 sol2, one_move d (se_unary se) (se_binary se) (ss_neighbours (se_space se)) p p' -> represents d p' routes2 ->
      Forall (built d) routes2 -> make_solution d routes2 = Ok sol2 -> (solution_penalised ev sol' <= solution_penalised ev sol2)%Z.
Proof. exact exhaustive_best. Qed.
Print Assumptions C50_exhaustive.

(** ** Cases *)
Lemma client_relocates : can_relocate 1 [[AClient 0; AClient 2]; [AClient 1]; [AClient 3]] (AClient 2) (VAct (AClient 3)) [[AClient 0]; [AClient 1]; [AClient 3; AClient 2]].
Proof.
  apply (CR_across 1 mPlan (AClient 2) (VAct (AClient 3)) 0 2 [AClient 0] [] [] [AClient 3] []); try (cbn; lia); try reflexivity.
  - split; [reflexivity|]. split; intros i; reflexivity.
  - exists []. reflexivity.
Qed.
(** Where the move improves evaluate() says so, after it no further move of the kind does. *)
Example C49_case :
  setting msample 0 mEv /\ plan_ok msample mPlan /\ group_once msample mPlan /\
  snd (fst (fst (eval_binary msample mEv (BRelocate 1) (sync msample mPlan) rc_none (AClient 2) (VAct (AClient 3))))) = true /\
  binary_move msample (BRelocate 1) mPlan (AClient 2) (VAct (AClient 3)) [[AClient 0]; [AClient 1]; [AClient 3; AClient 2]] /\
  plan_cost msample mEv mPlan = 100%Z /\ plan_cost msample mEv [[AClient 0]; [AClient 1]; [AClient 3; AClient 2]] = 81%Z /\
  snd (fst (eval_unary msample mEv URemoveOptionalClient (sync msample mPlan) (AClient 0))) = false /\
  unary_effect msample URemoveOptionalClient mPlan (AClient 0) [[AClient 2]; [AClient 1]; [AClient 3]] /\
  plan_cost msample mEv [[AClient 2]; [AClient 1]; [AClient 3]] = 112%Z.
Proof.
  split; [exact msample_setting|]. split; [apply plan_checked; vm_compute; reflexivity|]. split; [apply group_checked; vm_compute; reflexivity|].
  split; [vm_compute; reflexivity|]. split; [exact client_relocates|]. split; [vm_compute; reflexivity|]. split; [vm_compute; reflexivity|]. split; [vm_compute; reflexivity|].
  split; [|vm_compute; reflexivity]. exists 0. split; [reflexivity|]. split; [reflexivity|]. split; [intros g Hg; discriminate|].
  apply (Rem mPlan (AClient 0) 0 [] [AClient 2]); [cbn; lia|reflexivity].
Qed.
(** The hypotheses of C50 can be met: see C22_case (PLocal.v), where an exhaustive call ends at cost 91.  Here is one with a
    neighbour of the result: the first client is planned after the second; without it the cost is higher. *)
Definition mBest : plan := [[]; [AClient 1; AClient 0]; [AClient 3; AClient 2]].
Definition mWorse : plan := [[]; [AClient 1]; [AClient 3; AClient 2]].
Lemma m_solution p : plan_check msample p = true -> group_check msample p = true ->
  exists routes sol, unload_sol msample (sync msample p) = Ok sol /\ make_solution msample routes = Ok sol /\ Forall (built msample) routes /\
    represents msample p routes /\ so_routes sol = routes /\ solution_penalised mEv sol = plan_cost msample mEv p.
Proof.
  intros P G. apply plan_checked in P. apply group_checked in G.
  destruct (plan_solution msample 0 mEv msample_setting msample_groups (trips msample msample_reloads) p P G) as (routes & sol & E & U & Es & B & _ & _ & C).
  exists routes, sol. split; [exact U|]. split; [exact Es|]. split; [exact B|]. split; [exact (plan_represented msample p routes P E)|].
  split; [exact (own_routes msample 0 mEv msample_setting msample_groups routes sol B Es)|exact C].
Qed.
Example C50_case : exists routes sol sol' se' routes2 sol2,
  Forall (built msample) routes /\ make_solution msample routes = Ok sol /\ usable msample (mSearcher 1) /\
  py_call msample 20 (mSearcher 1) sol mEv true = Some (sol', se') /\ represents msample mBest (so_routes sol') /\
  one_move msample (se_unary (mSearcher 1)) (se_binary (mSearcher 1)) (ss_neighbours (se_space (mSearcher 1))) mBest mWorse /\
  represents msample mWorse routes2 /\ Forall (built msample) routes2 /\ make_solution msample routes2 = Ok sol2 /\
  solution_penalised mEv sol' = 66%Z /\ solution_penalised mEv sol2 = 73%Z.
Proof.
  destruct (m_solution mPlan) as (routes & sol & U & Es & B & _); [vm_compute; reflexivity|vm_compute; reflexivity|].
  destruct (m_solution mBest) as (rs & sol' & U' & Es' & B' & R' & O' & C'); [vm_compute; reflexivity|vm_compute; reflexivity|].
  destruct (m_solution mWorse) as (routes2 & sol2 & U2 & Es2 & B2 & R2 & O2 & C2); [vm_compute; reflexivity|vm_compute; reflexivity|].
  assert (X : match unload_sol msample (sync msample mPlan), unload_sol msample (sync msample mBest) with
              | Ok a, Ok b => option_map fst (py_call msample 20 (mSearcher 1) a mEv true) = Some b | _, _ => False end) by (vm_compute; reflexivity).
  rewrite U, U' in X. destruct (py_call msample 20 (mSearcher 1) sol mEv true) as [[x se']|] eqn:E; [|discriminate]. injection X as ->.
  exists routes, sol, sol', se', routes2, sol2. split; [exact B|]. split; [exact Es|]. split; [apply mSearcher_usable|]. split; [exact E|]. split; [rewrite O'; exact R'|].
  split; [|split; [exact R2|split; [exact B2|split; [exact Es2|split; [rewrite C'; vm_compute; reflexivity|rewrite C2; vm_compute; reflexivity]]]]].
  apply (Move1 msample _ _ _ mBest URemoveOptionalClient (AClient 0)); [left; reflexivity|left; reflexivity|].
  exists 0. split; [reflexivity|]. split; [reflexivity|]. split; [intros g Hg; discriminate|].
  apply (Rem mBest (AClient 0) 1 [AClient 1] []); [cbn; lia|reflexivity].
Qed.

(** For unplanned clients the search can stop too early: with other random numbers the same call ends
    with a solution of cost 73, where putting the optional client after its neighbour, a move that
    InsertOptionalClient is there for, gives 66.  The client was taken out in a later round than the
    one in which the neighbour was last looked at, and neither counts as a reason to look again. *)
Theorem C50_insertion_refuted : exists d h ev se routes sol n sol' se' p p' routes2 sol2 i w vs,
  setting d h ev /\ groups_nodup d /\ (forall v, In v (p_vehicles d) -> (0 <= v_maxReloads v)%Z) /\
  usable d se /\ Forall (built d) routes /\ make_solution d routes = Ok sol /\
  py_call d n se sol ev true = Some (sol', se') /\ represents d p (so_routes sol') /\
  In BInsertOptionalClient (se_binary se) /\ nb_find (ss_neighbours (se_space se)) (AClient i) = Some vs /\ In w vs /\
  binary_move d BInsertOptionalClient p (AClient i) (VAct w) p' /\
  represents d p' routes2 /\ Forall (built d) routes2 /\ make_solution d routes2 = Ok sol2 /\
  (solution_penalised ev sol2 < solution_penalised ev sol')%Z.
Proof.
  destruct (m_solution mPlan) as (routes & sol & U & Es & B & _); [vm_compute; reflexivity|vm_compute; reflexivity|].
  destruct (m_solution mWorse) as (rs & sol' & U' & Es' & B' & R' & O' & C'); [vm_compute; reflexivity|vm_compute; reflexivity|].
  destruct (m_solution mBest) as (routes2 & sol2 & U2 & Es2 & B2 & R2 & O2 & C2); [vm_compute; reflexivity|vm_compute; reflexivity|].
  assert (X : match unload_sol msample (sync msample mPlan), unload_sol msample (sync msample mWorse) with
              | Ok a, Ok b => option_map fst (py_call msample 20 (mSearcher 3) a mEv true) = Some b | _, _ => False end) by (vm_compute; reflexivity).
  rewrite U, U' in X. destruct (py_call msample 20 (mSearcher 3) sol mEv true) as [[x se']|] eqn:E; [|discriminate]. injection X as ->.
  exists msample, 0%Z, mEv, (mSearcher 3), routes, sol, 20, sol', se', mWorse, mBest, routes2, sol2, 0, (AClient 1), [AClient 1].
  split; [exact msample_setting|]. split; [exact msample_groups|]. split; [exact msample_reloads|]. split; [apply mSearcher_usable|]. split; [exact B|]. split; [exact Es|].
  split; [exact E|]. split; [rewrite O'; exact R'|]. split; [right; left; reflexivity|]. split; [reflexivity|]. split; [left; reflexivity|].
  split; [|split; [exact R2|split; [exact B2|split; [exact Es2|rewrite C', C2; vm_compute; reflexivity]]]].
  exists 0. split; [reflexivity|]. split; [unfold p_numClients; cbn; lia|]. split; [reflexivity|]. split; [intros g Hg; discriminate|].
  apply (Ins mWorse (AClient 0) (VAct (AClient 1)) 1 [AClient 1] []); [cbn; lia|reflexivity|exists []; reflexivity].
Qed.
Print Assumptions C50_insertion_refuted.
