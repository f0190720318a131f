(** Property theorems C57: at which depots the vehicles of a returned solution reload. *)
From Coq Require Import ZArith Lia List.
From Verif Require Import Base DurationSegment Data LoadSegment SearchRoute RouteDur Valid Route RouteSpec Cost CostFacts DeltaFacts DataCtor Solution SolutionFacts
  SolutionFacts2 SolutionFacts3 Rng RngFloat Penalty Pm MakeRandom SearchSpace Neighbourhood SearchNodes SearchSeq SearchLoad Ops PlanFacts OpsBase OpsGen OpsAll
  LocalSearch LocalFacts Perturb LocalRun Stop Ils Solve ReloadsAllowed ReloadsRun Sample Sample2 POps PLocal PSolve.
Import ListNotations.
Local Open Scope nat_scope.

(** A call of the local search on a solution whose routes reload at depots of their vehicle types
    only returns such a solution, whatever the operators, neighbourhoods, penalties and draws. *)
Theorem C57_search : forall d h ev, setting d h ev -> groups_nodup d -> (forall v, In v (p_vehicles d) -> (0 <= v_maxReloads v)%Z) ->
  forall se routes sol exhaustive n sol' se', usable d se -> Forall (built d) routes -> make_solution d routes = Ok sol ->
  py_call d n se sol ev exhaustive = Some (sol', se') ->
  (forall r k, In r (so_routes sol) -> In (ADepot k) (r_acts r) -> In k (v_reload (p_vehicle d (r_vehicleType r)))) ->
  forall r k, In r (so_routes sol') -> In (ADepot k) (r_acts r) -> In k (v_reload (p_vehicle d (r_vehicleType r))).
Proof.
  intros d h ev St ND Re se routes sol exhaustive n sol' se' U B Es E H r k Hr.
  exact (py_call_allowed d h ev St ND Re se routes sol exhaustive n sol' se' U B Es E (fun r Hr k => H r k Hr) r Hr k).
Qed.
Print Assumptions C57_search.

(** Likewise solve(): without a given initial solution always, and otherwise if that one is like this. *)
Theorem C57_solve : forall d X stop p collect_stats h, solvable d h -> params_ok p ->
  forall n k seed initial x o,
  (forall s, initial = Some s -> is_solution d s /\ forall r i, In r (so_routes s) -> In (ADepot i) (r_acts r) -> In i (v_reload (p_vehicle d (r_vehicleType r)))) ->
  solve d X stop p collect_stats n k seed initial x = Some (Ok o) ->
  forall r i, In r (so_routes (o_best o)) -> In (ADepot i) (r_acts r) -> In i (v_reload (p_vehicle d (r_vehicleType r))).
Proof.
  intros d X stop p cs h Hd Hp n k seed initial x o Hi E r i Hr.
  assert (Hi' : forall s, initial = Some s -> is_solution d s /\ sol_reloads d s) by (intros s Hs; destruct (Hi s Hs) as [A B]; split; [exact A|]; intros r' Hr' i' Hx; exact (B r' i' Hr' Hx)).
  exact (proj1 (solve_reloads d X stop p cs h Hd Hp n k seed initial x o Hi' E) r Hr i).
Qed.
Print Assumptions C57_solve.

(** The condition is needed: a Route may have any depot of the instance as a reload depot, and the
    solution may be feasible.  The vehicle type of this route reloads at depot 1 only. *)
Definition rBad : plan := [[AClient 0; ADepot 0; AClient 5]; [APickup 0; AClient 1; ADelivery 0]; []; []].
Definition rMisses (s : solution) : bool :=
  existsb (fun r => existsb (fun k => existsb (a_eqb (ADepot k)) (r_acts r) && negb (existsb (Nat.eqb k) (v_reload (p_vehicle osample (r_vehicleType r))))) [0; 1]) (so_routes s).
Definition rRuns (s : solution) : bool := match solve osample (criterion * nat) (py_stop (fun _ => 0%Z)) svParams true 50 20 42 (Some s) (MaxIterations 0 0, 0) with Some (Ok _) => true | _ => false end.
Lemma rFacts : match unload_sol osample (sync osample rBad) with Ok s => so_isFeasible s && rMisses s && rRuns s | Err _ => false end = true.
Proof. vm_compute. reflexivity. Qed.
Lemma rMissing s : rMisses s = true -> exists r k, In r (so_routes s) /\ In (ADepot k) (r_acts r) /\ ~ In k (v_reload (p_vehicle osample (r_vehicleType r))).
Proof.
  intros F. apply existsb_exists in F as (r & Hr & F2). apply existsb_exists in F2 as (k & _ & F2). apply andb_prop in F2 as [F2 F3].
  exists r, k. split; [exact Hr|]. split.
  - apply existsb_exists in F2 as (a & Ha & F2). apply a_eqb_eq in F2. subst a. exact Ha.
  - intros X. apply Bool.negb_true_iff in F3. assert (Y : existsb (Nat.eqb k) (v_reload (p_vehicle osample (r_vehicleType r))) = true) by (apply existsb_exists; exists k; split; [exact X|apply Nat.eqb_refl]). congruence.
Qed.
Lemma no_iterations d p h : solvable d h -> params_ok p -> forall n k seed s o, is_solution d s ->
  solve d (criterion * nat) (py_stop (fun _ => 0%Z)) p true n k seed (Some s) (MaxIterations 0 0, 0) = Some (Ok o) -> o_best o = s.
Proof.
  intros Hd Hp n k seed s o Hs E. assert (Hi : forall x, Some s = Some x -> is_solution d x) by (intros x Hx; injection Hx as <-; exact Hs).
  destruct (C48_result d _ _ p true h Hd Hp n k seed (Some s) _ (Ok o) Hi E) as (o' & Eo & _ & _ & _ & [Hin _] & Hit & _). injection Eo as <-.
  pose proof (C48_max_iterations d p true h Hd Hp (fun _ => 0%Z) n k seed (Some s) 0%Z o Hi ltac:(lia) E) as Z0.
  assert (T : o_trace o = []) by (destruct (o_trace o); [reflexivity|cbn in Hit; lia]). rewrite T in Hin. destruct Hin as [<-|[]].
  destruct (solve_spec d _ (py_stop (fun _ => 0%Z)) p true h Hd Hp n k seed (Some s) _ (Ok o) Hi E) as (o' & Eo & _ & _ & I & _). injection Eo as <-. apply I. reflexivity.
Qed.
Lemma rRan s : rRuns s = true -> exists o, solve osample (criterion * nat) (py_stop (fun _ => 0%Z)) svParams true 50 20 42 (Some s) (MaxIterations 0 0, 0) = Some (Ok o).
Proof. unfold rRuns. generalize (solve osample (criterion * nat) (py_stop (fun _ => 0%Z)) svParams true 50 20 42 (Some s) (MaxIterations 0 0, 0)). intros [[o|e]|]; [|discriminate|discriminate]. intros _. exists o. reflexivity. Qed.
Lemma rKept s o : is_solution osample s -> solve osample (criterion * nat) (py_stop (fun _ => 0%Z)) svParams true 50 20 42 (Some s) (MaxIterations 0 0, 0) = Some (Ok o) -> o_best o = s.
Proof. exact (no_iterations osample svParams 20 osample_solvable svParams_ok 50 20 42 s o). Qed.
Theorem C57_given_refuted : exists d s o, is_solution d s /\ so_isFeasible s = true /\
  (exists r k, In r (so_routes s) /\ In (ADepot k) (r_acts r) /\ ~ In k (v_reload (p_vehicle d (r_vehicleType r)))) /\
  solve d (criterion * nat) (py_stop (fun _ => 0%Z)) svParams true 50 20 42 (Some s) (MaxIterations 0 0, 0) = Some (Ok o) /\ o_best o = s.
Proof.
  destruct (plan_solution osample 20 oEv osample_setting osample_groups (trips osample osample_reloads) rBad) as (routes & s & _ & U & Es & B & _).
  { apply plan_checked. vm_compute. reflexivity. }
  { apply group_checked. vm_compute. reflexivity. }
  pose proof rFacts as F. rewrite U in F. apply andb_prop in F as [F F3]. apply andb_prop in F as [F1 F2]. destruct (rRan s F3) as (o & E).
  assert (Hs : is_solution osample s) by (exists routes; split; [exact B|exact Es]).
  exists osample, s, o. split; [exact Hs|]. split; [exact F1|]. split; [exact (rMissing s F2)|]. split; [exact E|exact (rKept s o Hs E)].
Qed.
Print Assumptions C57_given_refuted.

(** A call that adds a reload at depot 1 to one there was. *)
Definition rSearcher : searcher := set_rng oSearcher (rng_seed 2).
Definition rEv : evaluator := mk_evaluator [Z.mul 50; Z.mul 60] (Z.mul 1) (Z.mul 1).
Definition rCall : option (list (list activity)) :=
  match unload_sol osample (sync osample oPlan1) with
  | Ok sol => option_map (fun x => map r_acts (so_routes (fst x))) (py_call osample 50 rSearcher sol rEv true)
  | Err _ => None
  end.
Example C57_case : setting osample 20 rEv /\ usable osample rSearcher /\ solvable osample 20 /\ params_ok svParams /\
  map v_reload (p_vehicles osample) = [[1]; []] /\ allowed osample oPlan1 /\
  rCall = Some [[AClient 0; ADepot 1; AClient 5; APickup 0; APickup 2; ADelivery 2; ADelivery 0; AClient 4; AClient 3; ADepot 1; AClient 1; APickup 1; ADelivery 1]].
Proof.
  split; [|split; [|split; [exact osample_solvable|split; [exact svParams_ok|split; [reflexivity|split]]]]].
  - destruct osample_setting as [A B C D E _ _]. constructor; [exact A|exact B|exact C|exact D|exact E| |reflexivity].
    constructor; [repeat constructor| |]; cbn [rEv ev_load ev_tw ev_dist]; try (split; [reflexivity|intros; lia]); intros; lia.
  - exact (set_rng_usable osample oSearcher (rng_seed 2) oSearcher_usable).
  - intros [|[|[|[|r]]]] k; cbn [oPlan1 mid_at nth]; intros H; [|destruct H|destruct H as [H|[]]; discriminate|destruct H|unfold mid_at in H; destruct r; destruct H].
    repeat (destruct H as [H|H]; [try discriminate; injection H as <-; left; reflexivity|]). destruct H.
  - vm_compute. reflexivity.
Qed.
