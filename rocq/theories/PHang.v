(** C58: the local search and solve() need not return.  [near_solvable] (Hang.v) are the conditions
    under which C23 and C48 prove that they do, with the condition [fits] on the routes weakened. *)
From Coq Require Import ZArith Lia List.
From Verif Require Import Base DurationSegment Data LoadSegment SearchRoute RouteDur Valid Route RouteSpec RouteFacts2 Cost CostFacts DataCtor Solution SolutionFacts SolutionFacts2 SolutionFacts3
  MakeRandom SearchSpace Ops PlanFacts OpsBase OpsAll LocalSearch LocalRun Fits Solve Loops Hang.
Import ListNotations.
Local Open Scope nat_scope.

(** With [fits] itself these are conditions under which solve() returns (C48_returns). *)
Theorem C58_with_fits : forall d h, near_solvable (fits d h) d h -> solvable d h.
Proof. intros d h [A B C D E F G H I J]. constructor; try assumption. intros s Hs _. exact (J s Hs). Qed.
Print Assumptions C58_with_fits.

(** Drop the condition that reload depots stay open until the clients of the next trip are released.
    There is an instance, accepted and with a feasible solution, on which solve() with the default
    parameters and seed 0 never returns, whatever the stopping criterion. *)
Theorem C58_solve_release_refuted : exists d h, near_solvable (fits_but_release d h) d h /\
  (exists s, is_solution d s /\ so_isFeasible s = true) /\ params_ok defaults /\
  forall X stop collect_stats n k x, solve d X stop defaults collect_stats n k 0 None x = None.
Proof.
  exists hang, 6%Z. split; [exact hang_near|]. split; [exact hang_feasible|]. split; [exact defaults_ok|].
  destruct (cycles_waits _ _ _ _ _ _ _ _ hang_cycles) as (se & sol & ev & B & W). exact (begins_waits _ _ _ se sol ev B W).
Qed.
Print Assumptions C58_solve_release_refuted.

(** Drop the condition on the maximum duration of vehicles that reload.  All depots are always open. *)
Theorem C58_solve_duration_refuted : exists d h seed, near_solvable (fits_but_duration d h) d h /\ params_ok defaults /\
  forall X stop collect_stats n k x, solve d X stop defaults collect_stats n k seed None x = None.
Proof.
  exists kang, 13%Z, 1%Z. split; [exact kang_near|]. split; [exact defaults_ok|].
  destruct (cycles_waits _ _ _ _ _ _ _ _ kang_cycles) as (se & sol & ev & B & W). exact (begins_waits _ _ _ se sol ev B W).
Qed.
Print Assumptions C58_solve_duration_refuted.

(** The same for a call of the local search object: with penalties that are not negative, a usable
    object and a complete solution, every number of rounds leaves more to do. *)
Lemma call_of_begins d h (F : Prop) seed A m0 m T c : near_solvable F d h -> cycles d defaults seed A m0 m T c ->
  exists ev se sol, good_evaluator d ev /\ usable d se /\ is_solution d sol /\ so_isComplete sol = true /\
  (forall n, let se' := se_shuffle se in ls_call d ev (se_unary se') (se_binary se') n (se_num se') true (se_space se') sol = Waits) /\
  forall n, py_call d n se sol ev true = None.
Proof.
  intros [_ V2 _ _ _ V6 V7 V8 V9 _] C. destruct (cycles_waits _ _ _ _ _ _ _ _ C) as (se & sol & ev & B & W).
  destruct (begins_usable d defaults seed se sol ev V2 V6 V7 V8 V9 defaults_ok B) as (U & S & K & G).
  exists ev, se, sol. split; [exact G|]. split; [exact U|]. split; [exact S|]. split; [exact K|]. split; [exact W|].
  intros n. specialize (W n). cbn zeta in W. unfold py_call. cbn zeta. rewrite W. reflexivity.
Qed.
Theorem C58_call_release_refuted : exists d h ev se sol, near_solvable (fits_but_release d h) d h /\
  good_evaluator d ev /\ usable d se /\ is_solution d sol /\ so_isComplete sol = true /\
  (forall n, let se' := se_shuffle se in ls_call d ev (se_unary se') (se_binary se') n (se_num se') true (se_space se') sol = Waits) /\
  forall n, py_call d n se sol ev true = None.
Proof.
  destruct (call_of_begins _ _ _ _ _ _ _ _ _ hang_near hang_cycles) as (ev & se & sol & H). exists hang, 6%Z, ev, se, sol. split; [exact hang_near|exact H].
Qed.
Print Assumptions C58_call_release_refuted.
Theorem C58_call_duration_refuted : exists d h ev se sol, near_solvable (fits_but_duration d h) d h /\
  good_evaluator d ev /\ usable d se /\ is_solution d sol /\ so_isComplete sol = true /\
  (forall n, let se' := se_shuffle se in ls_call d ev (se_unary se') (se_binary se') n (se_num se') true (se_space se') sol = Waits) /\
  forall n, py_call d n se sol ev true = None.
Proof.
  destruct (call_of_begins _ _ _ _ _ _ _ _ _ kang_near kang_cycles) as (ev & se & sol & H). exists kang, 13%Z, ev, se, sol. split; [exact kang_near|exact H].
Qed.
Print Assumptions C58_call_duration_refuted.

(** Why: the counters of the search matter only through their order.  [busy m st] are [m] rounds of
    the search, none of which was the last; [later] is the same state with its counters renumbered.
    A search that comes back to the same plan with its counters in the same order never stops, and no
    stopping criterion is asked meanwhile. *)
Theorem C58_cycle : forall d ev uops bops A m0 m st st1 st2 f,
  busy d ev uops bops m0 st = Some st1 -> busy d ev uops bops (Datatypes.S m) st1 = Some st2 ->
  (forall k y, k <= Datatypes.S m -> busy d ev uops bops k st1 = Some y -> forall u, In u (ss_order (l_space y)) -> In u A) ->
  renumber f (l_num st1) -> later A f st1 st2 ->
  forall n, search_loop d ev uops bops n st = Unfinished.
Proof. exact cycle_forever. Qed.
Print Assumptions C58_cycle.
