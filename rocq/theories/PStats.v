(** Property theorem C66: the statistics of the local search. *)
From Coq Require Import ZArith Lia List Permutation.
From Verif Require Import Base DurationSegment Data LoadSegment SearchRoute RouteDur Valid Route RouteSpec RouteFacts2 Cost CostFacts DataCtor Solution SolutionFacts
  SolutionFacts2 SolutionFacts3 Penalty Pm Bitset Rng MakeRandom SearchSpace Neighbourhood SearchNodes SearchSeq SearchLoad SearchLoad2 Ops PlanFacts OpsBase OpsGen OpsOne OpsEdit OpsEdit2 OpsAll
  LocalSearch LocalFacts LocalTerm LocalInsert LocalEnsure Perturb LocalRun Fits Sample Sample2 POps PLocal Counted CountedFacts Owed CountedCall CountedRounds.
Import ListNotations.
Local Open Scope nat_scope.

(** [LocalSearch.statistics], and the [statistics] of its operators, after a call: LocalSearch.py:87-92. *)
Definition call_statistics (d : pdata) (n : nat) (se : searcher) (sol : solution) (ev : evaluator) (exhaustive : bool) : option (lstats * (list ocount * list ocount)) :=
  let se := se_shuffle se in
  match snd (counted_call d ev (se_unary se) (se_binary se) n (se_num se) exhaustive (se_space se) sol) with
  | Some (s, x) => Some (s, (co_unary x, co_binary x))
  | None => None
  end.
(** Routes make a trip more than they visit reload depots. *)
Definition visited_reloads (sol : solution) : nat := list_sum (map (fun r => r_numTrips r - 1) (so_routes sol)).
(** Counts in the order of the operators, which is that of [unary_operators] and [binary_operators] after the call. *)
Definition in_turn (cs : list ocount) : Prop :=
  forall i, i + 1 < length cs -> oc_evals (nth (i + 1) cs (mk_ocount 0 0)) + oc_apps (nth i cs (mk_ocount 0 0)) = oc_evals (nth i cs (mk_ocount 0 0)).
Lemma chain_turn cs : chain cs -> in_turn cs.
Proof.
  induction cs as [|c cs IH]; intros H i Hi; cbn [length] in Hi; [lia|]. destruct H as [H1 H2]. destruct i as [|i].
  - destruct cs as [|c' cs]; cbn in *; [lia|exact H1].
  - exact (IH H2 i ltac:(lia)).
Qed.

(** C66.  After every call of the local search there are statistics, of the search and of each
    operator in use.  No operator has applied more moves than it evaluated; the totals are the sums
    over the operators.  Operators are evaluated in turn until one has a move to apply: each is evaluated
    as often as the one before it was evaluated without being applied.  The number of updates is the number of applied moves plus what the given
    solution misses (required clients, groups and shipments), plus at most the number of
    perturbations: so it is at least the number of applied moves.  When an unperturbed complete
    solution is searched the updates are the applied moves.  If there are none, the result has the
    routes of the given solution, and otherwise it costs less, or the same with fewer visits to reload
    depots. *)
Theorem C66_statistics : forall d h ev, setting d h ev -> groups_nodup d -> (forall v, In v (p_vehicles d) -> (0 <= v_maxReloads v)%Z) ->
  forall se routes sol exhaustive n sol' se', usable d se -> Forall (built d) routes -> make_solution d routes = Ok sol ->
  py_call d n se sol ev exhaustive = Some (sol', se') ->
  exists s us bs, call_statistics d n se sol ev exhaustive = Some (s, (us, bs)) /\ length us = length (se_unary se') /\ length bs = length (se_binary se') /\
    in_turn us /\ in_turn bs /\
    ls_moves s = list_sum (map oc_evals (us ++ bs)) /\ ls_improving s = list_sum (map oc_apps (us ++ bs)) /\ Forall (fun c => oc_apps c <= oc_evals c) (us ++ bs) /\
    let drawn := if exhaustive then 0 else se_num (se_shuffle se) in
    let lacking := so_missingClients sol + so_missingGroups sol + so_missingShipments sol in
    (Z.of_nat (ls_improving s) <= ls_updates s <= Z.of_nat (ls_improving s + lacking + Nat.min drawn (p_numClients d + p_numShipments d)))%Z /\
    (drawn = 0 -> ls_updates s = Z.of_nat (ls_improving s + lacking)) /\
    (so_isComplete sol = true -> drawn = 0 -> ls_updates s = Z.of_nat (ls_improving s) /\
      (ls_improving s = 0 -> Permutation (so_routes sol') (so_routes sol)) /\
      (0 < ls_improving s -> (solution_penalised ev sol' < solution_penalised ev sol)%Z \/
        (solution_penalised ev sol' = solution_penalised ev sol /\ visited_reloads sol' < visited_reloads sol))).
Proof.
  intros d h ev St ND Re se routes sol exhaustive n sol' se' U B Es E.
  pose proof (shuffle_usable d se U) as [A1 A2 A3 A4 A5]. unfold py_call in E. unfold call_statistics.
  set (s1 := se_shuffle se) in *. destruct (ls_call d ev (se_unary s1) (se_binary s1) n (se_num s1) exhaustive (se_space s1) sol) as [sol1 sp1| | |] eqn:Ec; try discriminate.
  injection E as -> <-. destruct (counted_right d h ev St ND Re (se_unary s1) (se_binary s1) A3 (se_space s1) routes sol (se_num s1) exhaustive n sol' sp1 B Es A1 A2 Ec)
    as (s & x & -> & [[Sz1 Sz2] -> Each [Ch1 Ch2] Mv (k & K1 & K2 & K3) Q1 Q2]).
  exists (statistics x), (co_unary x), (co_binary x). split; [reflexivity|]. split; [exact Sz1|]. split; [exact Sz2|].
  split; [apply chain_turn, Ch1|]. split; [apply chain_turn, Ch2|].
  split; [reflexivity|]. split; [reflexivity|]. split; [exact Each|]. cbv zeta. fold (missing sol) in *.
  assert (D : (if exhaustive then 0 else se_num s1) = 0 -> exhaustive = true \/ se_num s1 = 0) by (destruct exhaustive; auto).
  split; [rewrite K1; destruct exhaustive; lia|]. split; [intros Z; rewrite K1, (K3 (D Z)); reflexivity|].
  intros C Z. split; [|split; [exact (Q1 C (D Z))|exact (Q2 C (D Z))]].
  rewrite K1, (K3 (D Z)). replace (missing sol) with 0; [f_equal; lia|]. unfold missing. unfold so_isComplete in C.
  rewrite !Bool.andb_true_iff, !Nat.eqb_eq in C. lia.
Qed.
Print Assumptions C66_statistics.

(** An exhaustive call visits all clients and shipments in rounds, each round but the last making a move: the first unary operator
    is evaluated once for each of them in every round. *)
Theorem C66_rounds : forall d h ev, setting d h ev -> groups_nodup d -> (forall v, In v (p_vehicles d) -> (0 <= v_maxReloads v)%Z) ->
  forall se routes sol n sol' se' s us bs, usable d se -> Forall (built d) routes -> make_solution d routes = Ok sol ->
  py_call d n se sol ev true = Some (sol', se') -> call_statistics d n se sol ev true = Some (s, (us, bs)) -> se_unary se <> [] ->
  exists k, oc_evals (nth 0 us (mk_ocount 0 0)) = k * (p_numClients d + p_numShipments d) /\ 1 <= k <= ls_improving s + 1.
Proof.
  intros d h ev St ND Re se routes sol n sol' se' s us bs U B Es E Cs Ne.
  pose proof (shuffle_usable d se U) as [A1 A2 A3 A4 A5]. unfold py_call in E. unfold call_statistics in Cs.
  assert (Nu : se_unary (se_shuffle se) <> []).
  { unfold se_shuffle. destruct (pm_shuffle _ _) as [r1 num]. destruct (space_shuffle r1 _) as [r2 sp].
    pose proof (rng_shuffle_perm r2 (se_unary se)) as P1. destruct (rng_shuffle r2 (se_unary se)) as [r3 us']. destruct (rng_shuffle r3 (se_binary se)) as [r4 bs']. cbn [snd se_unary] in *.
    intros ->. apply Permutation_sym, Permutation_nil in P1. congruence. }
  set (s1 := se_shuffle se) in *. rewrite <- (counted_call_st d ev (se_unary s1) (se_binary s1)) in E.
  destruct (counted_call d ev (se_unary s1) (se_binary s1) n (se_num s1) true (se_space s1) sol) as [r o] eqn:Ec. cbn [fst snd] in *.
  destruct r as [sol1 sp1| | |]; try discriminate. destruct o as [[s2 x]|]; [|discriminate]. injection Cs as -> <- <-.
  destruct (counted_rounds d h ev St (se_unary s1) (se_binary s1) A3 ND Re (se_space s1) routes sol (se_num s1) n sol1 sp1 s x Nu B Es A1 A2 Ec) as (k & K1 & K2).
  exists k. split; [|exact K2]. rewrite <- K1. destruct (co_unary x); reflexivity.
Qed.
Print Assumptions C66_rounds.

(** ** Case *)
(** The calls of [C22_case]: an exhaustive one of a complete solution makes 17 moves and updates; one
    of a solution without routes makes 8 moves and 12 updates, four being for what is required.  With
    perturbation, which takes out or inserts four activities, a complete solution needs two updates
    more than moves. *)
Definition oStats (p : plan) (exhaustive : bool) : option (nat * nat * lstats) :=
  match unload_sol osample (sync osample p) with
  | Ok sol => match call_statistics osample 50 oSearcher sol oEv exhaustive with
              | Some (s, _) => Some ((so_missingClients sol + so_missingGroups sol + so_missingShipments sol)%nat, se_num (se_shuffle oSearcher), s)
              | None => None
              end
  | Err _ => None
  end.
Example C66_case :
  setting osample 20 oEv /\ groups_nodup osample /\ usable osample oSearcher /\
  (exists routes sol, Forall (built osample) routes /\ make_solution osample routes = Ok sol /\ unload_sol osample (sync osample oPlan2) = Ok sol) /\
  oStats oPlan2 true = Some (0, 4, mk_lstats 3087 17 17%Z) /\
  oStats [[]; []; []; []] true = Some (4, 4, mk_lstats 2801 8 12%Z) /\
  oStats oPlan1 false = Some (0, 4, mk_lstats 1058 5 7%Z).
Proof.
  destruct C22_case as (A & B & C & D & _). split; [exact A|]. split; [exact B|]. split; [exact C|]. split; [exact D|].
  split; [vm_compute; reflexivity|]. split; vm_compute; reflexivity.
Qed.
