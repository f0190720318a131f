(** C48: the solver as a whole.  [solvable] and [params_ok] (Solve.v) say which instances and
    parameters; [n] and [k] bound the rounds of the model's loops. *)
From Coq Require Import ZArith Lia List String.
From Verif Require Import Base DurationSegment Data LoadSegment SearchRoute Valid Route RouteSpec Cost CostFacts DataCtor Solution SolutionFacts
  SolutionFacts2 SolutionFacts3 Penalty Rng RngFloat Pm MakeRandom RingBuffer Ils Stop SearchSpace Neighbourhood Ops PlanFacts OpsBase OpsAll
  LocalSearch LocalFacts Perturb LocalRun Fits Finite Sample Sample2 PPm PLocal Solve SolveTrace.
Import ListNotations.
Local Open Scope nat_scope.

(** [ends] are the criteria that stop in the end: at most so many iterations, at most so much time,
    so many iterations without improvement, or several of which one is of this kind.  The solver then
    returns: it neither raises an exception nor runs forever. *)
Theorem C48_returns : forall d p collect_stats h, solvable d h -> params_ok p ->
  forall clock seed initial c, (forall s, initial = Some s -> is_solution d s) -> ends clock c ->
  exists n0 k0 o, forall n k, n0 <= n -> k0 <= k ->
    solve d (criterion * nat) (py_stop clock) p collect_stats n k seed initial (c, 0) = Some (Ok o).
Proof.
  intros d p cs h Hd Hp clock seed initial c Hi Hc. apply (solve_returns d (criterion * nat) (py_stop clock) p cs h Hd Hp seed initial (c, 0) Hi).
  intros L. apply ends_fires, Hc.
Qed.
Print Assumptions C48_returns.

(** Whatever the stopping criterion: what the result is. *)
Theorem C48_result : forall d X stop p collect_stats h, solvable d h -> params_ok p ->
  forall n k seed initial x r, (forall s, initial = Some s -> is_solution d s) ->
  solve d X stop p collect_stats n k seed initial x = Some r ->
  exists o, r = Ok o /\ is_solution d (o_best o) /\ (so_isComplete (o_best o) = true \/ initial = Some (o_best o)) /\
    (forall s, initial = Some s -> so_isFeasible s = true -> so_isFeasible (o_best o) = true /\ (objective d (o_best o) <= objective d s)%Z) /\
    (In (o_best o) (o_init o :: candidates (o_trace o)) /\
     forall c, In c (o_init o :: candidates (o_trace o)) -> so_isFeasible c = true -> so_isFeasible (o_best o) = true /\ (objective d (o_best o) <= objective d c)%Z) /\
    o_iters o = length (o_trace o) /\
    o_stats o = (if collect_stats then map (collect so_isFeasible solution_penalised) (o_trace o) else []).
Proof.
  intros d X stop p cs h Hd Hp n k seed initial x r Hi H.
  destruct (solve_spec d X stop p cs h Hd Hp n k seed initial x r Hi H) as (o & -> & A1 & A2 & A3 & A4 & A5 & A6 & A7 & A8 & A9 & _).
  exists o. split; [reflexivity|]. split; [exact A1|]. split.
  { destruct initial as [s|]; [|left; destruct A5 as [->|A5]; auto]. rewrite (A3 s eq_refl) in A5. destruct A5 as [->|A5]; auto. }
  split; [|split; [split; [exact A6|exact A7]|split; [exact A8|exact A9]]].
  intros s -> Hf. apply A7; [left; apply A3; reflexivity|exact Hf].
Qed.
Print Assumptions C48_result.

(** The stopping criterion is asked about the cost of the best solution before each iteration: it says
    no before each, and yes at the end. *)
Theorem C48_asked : forall d X stop p collect_stats h, solvable d h -> params_ok p ->
  forall n k seed initial x o, (forall s, initial = Some s -> is_solution d s) ->
  solve d X stop p collect_stats n k seed initial x = Some (Ok o) ->
  asked X stop x (map (value so_isFeasible (objective d)) (o_init o :: map t_best (o_trace o))).
Proof.
  intros d X stop p cs h Hd Hp n k seed initial x o Hi H.
  destruct (solve_spec d X stop p cs h Hd Hp n k seed initial x (Ok o) Hi H) as (o' & E & _ & _ & _ & _ & _ & _ & _ & _ & _ & A).
  injection E as <-. exact A.
Qed.
Print Assumptions C48_asked.

(** At most so many iterations means exactly so many. *)
Theorem C48_max_iterations : forall d p collect_stats h, solvable d h -> params_ok p ->
  forall clock n k seed initial max o, (forall s, initial = Some s -> is_solution d s) -> (0 <= max)%Z ->
  solve d (criterion * nat) (py_stop clock) p collect_stats n k seed initial (MaxIterations max 0, 0) = Some (Ok o) ->
  Z.of_nat (o_iters o) = max.
Proof.
  intros d p cs h Hd Hp clock n k seed initial max o Hi Hm H.
  pose proof (C48_asked d _ _ p cs h Hd Hp n k seed initial _ o Hi H) as A. apply max_iterations_asked in A; [|exact Hm|lia].
  destruct (C48_result d _ _ p cs h Hd Hp n k seed initial _ _ Hi H) as (o' & E & _ & _ & _ & _ & E' & _). injection E as <-.
  cbn [map length] in A. rewrite !map_length in A. lia.
Qed.
Print Assumptions C48_max_iterations.

(** What happens on the way, for any instance: the first solution is the given one, or the exhaustive local search's answer for a random one; each
    iteration ([threaded], SolveTrace.v) searches with the evaluator of the penalty manager, which was told about the candidates of all iterations before,
    and with the search method and random numbers that the iteration before left; [iter_ok] (Ils.v) says which solution each search starts from,
    when the search restarts and which solutions become the current and the best. *)
Theorem C48_trace : forall d X stop p collect_stats n k seed initial x o, 0 < ip_history (sv_ils p) ->
  solve d X stop p collect_stats n k seed initial x = Some (Ok o) ->
  exists se0, starts d p n seed initial (o_init o) se0 /\
    (exists se pm, threaded d n se0 (midpoint_manager d (sv_penalty p)) (o_trace o) se pm) /\
    o_best o = last_best (o_init o) (o_trace o) /\
    forall pre t post, o_trace o = pre ++ t :: post ->
      iter_ok so_isFeasible solution_cost solution_penalised (w_evaluator X) (w_find d X n) (ip_history (sv_ils p)) (ip_noimp (sv_ils p)) (ip_exhaustive (sv_ils p)) (o_init o) pre t.
Proof. intros d X stop p cs n k seed initial x o. exact (solve_trace d X stop p cs n k seed initial x o). Qed.
Print Assumptions C48_trace.

(** A closed-form condition for the finiteness of objective values in [solvable]. *)
Theorem C48_finite : forall d h T M S F U, valid_data d -> opens_by d h -> nonneg_durs d -> groups_nodup d -> groups_known d ->
  modest_size d h T M S -> modest_costs d h T M S F U -> forall s, is_solution d s -> (objective d s < MAXV)%Z.
Proof.
  intros d h T M S F U Hv Ho Hn Hg Hk Hm Hc s (routes & HB & Es). exact (modest_objective d h Hv Ho Hn T M S F U Hm Hc routes s Hg Hk HB Es).
Qed.
Print Assumptions C48_finite.

(** ** A case: the instance of Sample2.v, all operators, at most two iterations. *)
Definition svParams : solve_params := mk_solve_params (mk_ils_params 100 10 true) ex_params oPar OPERATORS (Perturb.mk_pparams 2 4).
Lemma osample_in_int64 : in_int64 osample.
Proof.
  constructor.
  - cbn [osample p_clients]. repeat (constructor; [cbn; unfold MAXV; lia|]). constructor.
  - cbn [osample p_shipments]. repeat (constructor; [intros x [-> | ->]; cbn; lia|]). constructor.
  - cbn [osample p_vehicles]. repeat (constructor; [cbn; lia|]). constructor.
  - intros profile a b. unfold p_dist, m_at. apply (Forall_nth_default (fun z => (Z.abs z <= 2 ^ 63)%Z)); [|lia].
    apply (Forall_nth_default (fun m => Forall (fun z => (Z.abs z <= 2 ^ 63)%Z) (m_data m))); [|constructor].
    repeat (constructor; [cbn; repeat (constructor; [lia|]); constructor|]). constructor.
  - intros profile a b. unfold p_dur, m_at. apply (Forall_nth_default (fun z => (Z.abs z <= 2 ^ 63)%Z)); [|lia].
    apply (Forall_nth_default (fun m => Forall (fun z => (Z.abs z <= 2 ^ 63)%Z) (m_data m))); [|constructor].
    repeat (constructor; [cbn; repeat (constructor; [lia|]); constructor|]). constructor.
Qed.
Lemma osample_costs : modest_costs osample 20 3 22 3 10 2.
Proof.
  constructor.
  - intros v [<-|[<-|[]]]; cbn; lia.
  - intros v [<-|[<-|[]]]; cbn; lia.
  - lia.
  - vm_compute. reflexivity.
Qed.
Lemma osample_known : groups_known osample.
Proof. repeat constructor; cbn; lia. Qed.
Lemma osample_solvable : solvable osample 20.
Proof.
  pose proof osample_setting as [V D O N F _ _].
  constructor; [exact V|exact D|exact O|exact N|exact F|exact osample_groups|exact osample_in_int64| | |].
  - repeat constructor; cbn; unfold SIZE_MAX; lia.
  - repeat constructor; cbn; lia.
  - intros s Hs _. exact (C48_finite osample 20 3 22 3 10 2 V O N osample_groups osample_known (modest_time_size _ _ _ _ _ osample_modest_time) osample_costs s Hs).
Qed.
Lemma svParams_ok : params_ok svParams.
Proof.
  constructor.
  - exact (proj1 C32_case).
  - vm_compute; reflexivity.
  - unfold svParams, OPERATORS. cbn [sv_operators]. repeat (constructor; [cbn; lia|]). constructor.
  - cbn; lia.
  - cbn; lia.
Qed.
Definition svShow (x : option (res outcome)) : option (bool * bool * Z * nat * Z) :=
  match x with
  | Some (Ok o) => Some (so_isComplete (o_best o), so_isFeasible (o_best o), objective osample (o_best o), o_iters o, objective osample (o_init o))
  | _ => None
  end.
Definition svEmpty : option solution := match make_solution osample [] with Ok s => Some s | Err _ => None end.
Definition svRun (initial : option solution) (c : criterion) : option (bool * bool * Z * nat * Z) :=
  svShow (solve osample (criterion * nat) (py_stop (fun _ => 0%Z)) svParams true 50 20 42 initial (c, 0)).
(** From a random solution; from the solution without routes, until it is feasible or for ten iterations. *)
Example C48_case : solvable osample 20 /\ params_ok svParams /\ ends (fun i => 0%Z) (MultipleCriteria [FirstFeasible; MaxIterations 10 0]) /\
  (exists s, svEmpty = Some s /\ is_solution osample s /\ so_isComplete s = false) /\
  svRun None (MaxIterations 10 0) = Some (true, true, 94%Z, 10, 94%Z) /\
  svRun svEmpty (MultipleCriteria [FirstFeasible; MaxIterations 10 0]) = Some (true, true, 105%Z, 1, 277%Z).
Proof.
  split; [exact osample_solvable|]. split; [exact svParams_ok|]. split.
  { apply ends_multiple with (MaxIterations 10 0); [right; left; reflexivity|constructor]. }
  split.
  { assert (E : exists s, make_solution osample [] = Ok s /\ so_isComplete s = false) by (eexists; split; [vm_compute; reflexivity|vm_compute; reflexivity]).
    destruct E as (s & E & C). exists s. unfold svEmpty. rewrite E. split; [reflexivity|]. split; [exists []; split; [constructor|exact E]|exact C]. }
  unfold svRun, solve, solve_searcher. change (sv_neighbourhood svParams) with oPar. rewrite oNb_computed. split; vm_compute; reflexivity.
Qed.
