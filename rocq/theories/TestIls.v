(** The model on the inputs of tests/test_IteratedLocalSearch.py; see TestData.v.  Each example has the name of
    the test, and the values on the right are those that the test expects. *)
From Coq Require Import ZArith List Bool.
From Verif Require Import Base DurationSegment Data LoadSegment Route SearchRoute Cost Penalty Solution Equal RingBuffer Pm Ils Callbacks Solve Hang TestData TestRoute TestSolution TestRest.
Import ListNotations.
Local Open Scope Z_scope.

(** The search method of the tests answers with the next solution of a list, and notes whether it was asked for
    an exhaustive search. *)
Definition world := (pmanager * list solution * list bool)%type.
Definition t_search (w : world) (s : solution) (_ : evaluator) (exhaustive : bool) : solution * world :=
  match w with
  | (m, [], l) => (s, (m, [], l ++ [exhaustive]))
  | (m, x :: more, l) => (x, (m, more, l ++ [exhaustive]))
  end.
Definition t_evaluator (w : world) : evaluator := ok no_ev (pm_evaluator (fst (fst w))).
Definition t_register (w : world) (s : solution) : world :=
  let '(m, ss, l) := w in (ok no_pm (pm_run m [violations s]), ss, l).
(** The callbacks count their calls: on_start, on_end, on_iteration and on_restart; on_best keeps what it got. *)
Record calls := mk_calls { n_start : nat; n_end : nat; n_iteration : nat; n_restart : nat; got_best : list solution }.
Definition t_callbacks : @callbacks solution evaluator calls := {|
  on_start := fun c => mk_calls (S (n_start c)) (n_end c) (n_iteration c) (n_restart c) (got_best c);
  on_end := fun _ _ _ c => mk_calls (n_start c) (S (n_end c)) (n_iteration c) (n_restart c) (got_best c);
  on_iteration := fun _ _ _ _ c => mk_calls (n_start c) (n_end c) (S (n_iteration c)) (n_restart c) (got_best c);
  on_restart := fun _ c => mk_calls (n_start c) (n_end c) (n_iteration c) (S (n_restart c)) (got_best c);
  on_best := fun s c => mk_calls (n_start c) (n_end c) (n_iteration c) (n_restart c) (got_best c ++ [s]) |}.
(** The state after [n] iterations, MaxIterations(n); the defaults are history_length 300 and
    num_iters_no_improvement 150000. *)
Definition t_state (n hist noimp : Z) (exhaustive : bool) (init : solution) (sols : list solution) :=
  let m := make_pmanager [b64_of_Z 20] (b64_of_Z 6) (b64_of_Z 6) defPenalty in
  Nat.iter (Z.to_nat n)
    (cb_body so_isFeasible solution_cost solution_penalised t_evaluator t_search t_register (Z.to_nat noimp) exhaustive true
       t_callbacks false 5 (fun _ => 0) init)
    (cb_init t_evaluator (Z.to_nat hist) t_callbacks false (fun _ => 0) init (m, sols, []) (mk_calls 0 0 0 0 [])).
Definition t_run n hist noimp exhaustive init sols := b_ils (t_state n hist noimp exhaustive init sols).
Definition t_calls n hist noimp exhaustive init sols :=
  let st := t_state n hist noimp exhaustive init sols in
  on_end t_callbacks (i_best (b_ils st)) (i_stats (b_ils st)) (i_iters (b_ils st)) (b_user st).
Definition infeas22065 := sc okSmall [[0; 2]; [1; 3]]%nat.
Definition s9725 := sc okSmall [[0; 1]; [2; 3]]%nat.
Definition s9868 := sc okSmall [[0; 1]; [3; 2]]%nat.
Definition s9240 := sc okSmall [[0; 3]; [1; 2]]%nat.

Example test_ils_acceptance_behaviour :
  map (fun x => (dt_curr x, dt_cand x, dt_best x)) (i_stats (t_run 5 2 150000 false infeas22065 [infeas22065; s9725; s9868; s9240; s9725])) =
  [(22065, 22065, 22065); (9725, 9725, 9725); (9868, 9868, 9725); (9240, 9240, 9240); (9725, 9725, 9240)].
Proof. run. Qed.
Example test_restart :
  map (fun noimp => map dt_curr (i_stats (t_run 4 1 noimp false infeas22065 [infeas22065; s9725; s9725; s9868]))) [150000; 1] =
  [[22065; 9725; 9725; 9725]; [22065; 9725; 9725; 9868]].
Proof. run. Qed.
Example test_exhaustive_search_on_new_best_solution :
  let st := t_run 2 300 150000 true s9868 [s9868; s9725; s9240] in
  (solution_cost (t_evaluator (i_world st)) (i_best st), length (snd (fst (i_world st))), snd (i_world st)) = (9240, 0%nat, [false; false; true]).
Proof. run. Qed.
Example test_callback_on_start_and_end :
  (fun c => (n_start c, n_end c)) (t_calls 10 300 150000 true s9725 []) = (1, 1)%nat.
Proof. run. Qed.
Example test_callback_on_iteration_and_restart :
  map (fun n => let c := t_calls n 300 1 true s9725 [] in (n_iteration c, n_restart c)) [1; 10; 100] = [(1, 0); (10, 9); (100, 99)]%nat.
Proof. run. Qed.
Example test_callback_on_best :
  let best := got_best (t_calls 2 300 150000 true s9868 [s9868; s9725; s9240]) in
  (length best, map (solution_eqb s9240) best) = (1%nat, [true]).
Proof. run. Qed.
