(** The observers of solve(). *)
From Coq Require Import ZArith Lia List.
From Verif Require Import Base Data Cost Solution SolutionFacts3 Pm Ils Solve Callbacks.
Import ListNotations.
Local Open Scope nat_scope.

Section Observed.
Variable d : pdata.
Variable X : Type.
Variable stop : X -> Z -> bool * X.
Variable p : solve_params.
Variable collect_stats : bool.
(** IteratedLocalSearch.run() as solve() calls it (solve.py:182-183), with observers: callbacks [cb] with a state, the
    arguments display and display_interval, and the clock of the progress printer. *)
Definition solve_observed {O : Type} (cb : @callbacks solution evaluator O) (display : bool) (interval : Z) (clock : nat -> Z) (n : nat) :=
  cb_returns so_isFeasible solution_cost solution_penalised (w_evaluator X) (w_find d X n) (w_register X) (w_stops X stop)
    (ip_history (sv_ils p)) (ip_noimp (sv_ils p)) (ip_exhaustive (sv_ils p)) collect_stats cb display interval clock.

Variable h : Z.
Hypothesis Hd : solvable d h.
Hypothesis Hp : params_ok p.
Theorem solve_is_observed n k seed initial x o : (forall s, initial = Some s -> is_solution d s) ->
  solve d X stop p collect_stats n k seed initial x = Some (Ok o) ->
  exists w0 : world X, (forall O (cb : @callbacks solution evaluator O) display interval clock o0, exists u lines,
      solve_observed cb display interval clock n (o_init o) w0 o0 (o_best o) (o_stats o) (o_iters o) (o_trace o) u lines) /\
    last (o_init o :: bests (o_trace o)) (o_init o) = o_best o /\
    falling so_isFeasible (objective d) (value so_isFeasible (objective d) (o_init o)) (bests (o_trace o)).
Proof.
  intros Hi E. unfold solve in E. destruct (searcher_made d p h Hd Hp seed) as (se & Ese & U). rewrite Ese in E.
  destruct (init_stable d X stop p h Hd Hp se initial U Hi) as (n1 & init & se' & E1 & U' & Hs & Hc & Hsame).
  destruct (proj1 (reached_evaluators d X stop p h Hp _ (reached_start d p))) as (e0 & Ee & _).
  destruct (solve_init d n se (midpoint_manager d (sv_penalty p)) initial) as [y|] eqn:E0; [|discriminate].
  pose proof (init_some d p _ _ _ _ E0 (Nat.max n n1) ltac:(lia)) as E2. rewrite (E1 (Nat.max n n1)) in E2 by lia. injection E2 as <-. rewrite Ee in E.
  set (w0 := mk_world X se' (midpoint_manager d (sv_penalty p)) x true) in E.
  assert (W0 : okw d X p w0) by (split; [exact U'|exact (reached_start d p)]).
  set (st0 := ils_init (w_evaluator X) (ip_history (sv_ils p)) init w0) in E.
  destruct (run d X stop p collect_stats n k init st0) as [st|] eqn:Er; [|discriminate]. destruct (w_ok X (i_world st)); [|discriminate]. injection E as <-.
  cbn [o_best o_init o_trace o_iters o_stats]. exists w0.
  pose proof (run_reaches d X stop p collect_stats n init w0 k st0 st (reaches_init _ _ _ _ _ _ _ _ _ _ _ _ _) Er) as R.
  split; [intros O cb display interval clock o0; exact (observable _ _ _ _ _ _ _ _ _ _ _ cb display interval clock init w0 o0 _ _ _ _ R)|].
  destruct R as (st1 & w1 & R & _ & Q1 & _ & _ & Q4). rewrite Q1, Q4.
  assert (Hg : is_solution d init /\ (init = init \/ so_isComplete init = true)) by auto.
  pose proof (reaches_inv _ _ _ _ _ _ _ _ _ _ _ _ _ _ (po_history _ Hp) R) as I.
  split.
  - rewrite (iv_best _ _ _ _ _ _ _ _ _ _ _ I). apply (bests_last _ _ _ _ _ _ _ _ _ _ (iv_iter _ _ _ _ _ _ _ _ _ _ _ I)).
  - exact (bests_fall _ _ _ _ _ _ _ _ _ _ _ _ _ (objective d) (okw d X p) (good_cost d X stop h Hd init) (good_finite d h Hd init) (good_eval d X stop p h Hp)
      (good_find d X stop p h Hd n init) (good_register d X p h Hd init) (okw_stop d X stop p) (po_history _ Hp) (find_sane d X stop p h Hd n init) init w0 st1 Hg W0 R).
Qed.
End Observed.
