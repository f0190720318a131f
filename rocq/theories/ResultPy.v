(** The result of a run: pyvrp/Result.py. *)
From Verif Require Import Base DurationSegment Data LoadSegment Valid Route RouteSpec Cost CostFacts
  Penalty Solution SolutionFacts SolutionFacts2 SolutionFacts3.
From Flocq Require Import IEEE754.BinarySingleNaN.

(** Result.py:31-41; statistics left out. *)
Record result := mk_result { rs_best : solution; rs_iters : Z; rs_runtime : b64 }.
Definition make_result (best : solution) (iters : Z) (runtime : b64) : res result :=
  if iters <? 0 then Err InvalidArgument
  else if b64_neg runtime then Err InvalidArgument
  else Ok (mk_result best iters runtime).

(** Result.py:43-52; [None] is infinity. *)
Definition result_cost (r : result) : option Z :=
  if negb (so_isFeasible (rs_best r)) then None
  else match make_evaluator (repeat b64_zero (length (so_excessLoad (rs_best r)))) b64_zero b64_zero with
       | Ok ev => Some (solution_cost ev (rs_best r))
       | Err _ => None
       end.
(** Result.py:54-58 *)
Definition result_feasible (r : result) : bool := so_isFeasible (rs_best r).

Lemma zero_evaluator n : exists ev, make_evaluator (repeat b64_zero n) b64_zero b64_zero = Ok ev /\ ev_ok ev.
Proof.
  assert (E : exists ev, make_evaluator (repeat b64_zero n) b64_zero b64_zero = Ok ev).
  { eexists. unfold make_evaluator.
    replace (b64_neg b64_zero) with false by (vm_compute; reflexivity).
    replace (existsb b64_neg (repeat b64_zero n)) with false; [reflexivity|].
    induction n as [|n IH]; [reflexivity|]. cbn [repeat existsb]. rewrite <- IH.
    vm_compute. reflexivity. }
  destruct E as [ev E]. exists ev. split; [exact E|].
  destruct (make_evaluator_ok _ _ _ _ E) as [H _]; [|reflexivity|reflexivity|exact H].
  clear. induction n; constructor; [reflexivity|assumption].
Qed.

Theorem result_spec d h : valid_data d -> opens_by d h -> nonneg_durs d -> 2 * h <= MAXV ->
  forall routes, Forall (built d) routes -> groups_nodup d -> groups_known d -> forall s,
  make_solution d routes = Ok s -> forall iters runtime r, make_result s iters runtime = Ok r ->
  (result_feasible r = true <-> result_cost r <> None) /\
  (result_feasible r = true -> result_cost r = Some (objective d s) /\
     forall ev, ev_ok ev -> result_cost r = Some (solution_cost ev s)) /\
  result_feasible r = so_isFeasible s /\ 0 <= iters.
Proof.
  intros Hv Ho Hn Hh routes HB Hg Hk s Hs iters runtime r Hr.
  unfold make_result in Hr. destruct (Z.ltb_spec iters 0); [discriminate|].
  destruct (b64_neg runtime); [discriminate|].
  apply (f_equal (fun x => match x with Ok y => y | Err _ => r end)) in Hr. subst r.
  unfold result_feasible, result_cost. cbn [rs_best].
  destruct (zero_evaluator (length (so_excessLoad s))) as (ev & Eev & Hev). rewrite Eev.
  destruct (so_isFeasible s) eqn:Ef; cbn [negb].
  - split; [split; [discriminate|reflexivity]|]. split; [|split; [reflexivity|assumption]]. intros _.
    destruct (cost_spec d h Hv Ho Hn Hh routes HB Hg Hk s Hs ev Hev) as (H1 & _ & _). destruct (H1 Ef) as [H2 _].
    rewrite H2. split; [reflexivity|]. intros ev2 Hev2.
    destruct (cost_spec d h Hv Ho Hn Hh routes HB Hg Hk s Hs ev2 Hev2) as (H3 & _ & _). destruct (H3 Ef) as [-> _].
    reflexivity.
  - split; [split; [discriminate|congruence]|]. split; [discriminate|]. split; [reflexivity|assumption].
Qed.
