(** The model on the inputs of tests/test_RandomNumberGenerator.py, test_RingBuffer.py, test_DynamicBitset.py,
    test_PiecewiseLinearFunction.py, test_PenaltyManager.py, test_solve.py and tests/stop; see TestData.v.
    Each example has the name of the test, and the values on the right are those that the test expects. *)
From Coq Require Import ZArith List Bool.
From Flocq Require Import IEEE754.BinarySingleNaN.
From Verif Require Import Base DurationSegment Data LoadSegment Route SearchRoute Cost Penalty Solution Equal Rng RngFloat RingBuffer Bitset Pwl Stop Pm PmWarn
  Neighbourhood Ops Ils Solve Hang TestData TestRoute TestSolution.
Import ListNotations.
Local Open Scope Z_scope.

(** ** tests/test_RandomNumberGenerator.py *)
Example test_call :
  map (fun seed => let '(r, a) := rng_next (rng_seed seed) in (a, snd (rng_next r))) [42; 43] =
  [(2386648076, 1236469084); (2386648077, 1236469085)].
Proof. run. Qed.
Example test_randint :
  (let '(r, a) := rng_int (rng_seed 42) 100 in (a, snd (rng_int r 100))) = (2386648076 mod 100, 1236469084 mod 100).
Proof. run. Qed.
Example test_rng_has_given_state : map (fun s => rng_state (rng_restore s)) [(1, 2, 3, 4); (10, 14, 274, 83)] = [(1, 2, 3, 4); (10, 14, 274, 83)].
Proof. run. Qed.

(** ** tests/test_RingBuffer.py *)
Example test_ring_buffer :
  let b0 := @rb_make nat 2 in let b1 := rb_append b0 1%nat in let b2 := rb_append b1 2%nat in let b3 := rb_skip b2 in let b4 := rb_clear b3 in
  (map (@rb_len nat) [b0; b1; b2; b3; b4], map (@rb_peek nat) [b1; b2; b3], map (@rb_maxlen nat) [b0; b4]) =
  ([0; 1; 2; 2; 0]%nat, [None; Some 1; Some 2]%nat, [2; 2]%nat).
Proof. run. Qed.

(** ** tests/test_DynamicBitset.py *)
Definition bits (n : nat) (l : list nat) : bitset := fold_left (fun b i => bs_set b i true) l (bs_make n).
Example test_size : map (fun n => bs_size (bs_make n)) [0; 1; 64; 65; 128]%nat = [0; 64; 64; 128; 128]%nat.
Proof. run. Qed.
Example test_bitset_eq : (bs_eqb (bs_make 64) (bs_make 64), bs_eqb (bs_make 64) (bits 64 [0%nat])) = (true, false).
Proof. run. Qed.
Example test_get_set_item :
  let l := [0; 1; 63; 64; 126; 127]%nat in let b := bits 128 l in
  (bs_count b, map (bs_get b) l, bs_count (fold_left (fun b i => bs_set b i false) l b)) = (6%nat, repeat true 6, 0%nat).
Proof. run. Qed.
Example test_get_set_raises_out_of_bounds : (fails (py_get (bs_make 128) 128), fails (py_set (bs_make 128) 128 true)) = (true, true).
Proof. run. Qed.
Example test_all_any_none :
  map (fun b => (bs_any b, bs_none b, bs_all b, bs_all (bs_not b))) [bs_make 128; bits 128 [0%nat]; bs_make 0] =
  [(false, true, false, true); (true, false, false, false); (false, true, true, true)].
Proof. run. Qed.
Example test_bit_or_and_xor :
  let a := bits 128 [0; 64]%nat in let b := bits 128 [0; 65]%nat in
  map (fun c => (bs_count c, map (bs_get c) [0; 64; 65]%nat)) [bs_or a b; bs_and a b; bs_xor a b] =
  [(3%nat, [true; true; true]); (1%nat, [true; false; false]); (2%nat, [false; true; true])].
Proof. run. Qed.
Example test_bit_not :
  let i := bs_not (bs_make 128) in (bs_count i, bs_count (bs_not (bs_set (bs_set i 0 false) 127 false))) = (128, 2)%nat.
Proof. run. Qed.
Example test_set_reset :
  (bs_count (bs_set_all (bits 128 [0; 1]%nat)), bs_count (bs_reset (bits 128 [0; 1]%nat))) = (128, 0)%nat.
Proof. run. Qed.

(** ** tests/test_PiecewiseLinearFunction.py *)
Definition no_pwl : pwl := mk_pwl [] [].
Example test_pwl_call :
  map (pwl_eval (ok no_pwl (pwl_of_breaks [5; 10] [(1, 2); (11, 3); (26, 4)]))) [-100; 0; 4; 5; 9; 10; 13; 100] =
  [1 + 2 * -100; 1; 1 + 2 * 4; 11 + 3 * 5; 11 + 3 * 9; 26 + 4 * 10; 26 + 4 * 13; 26 + 4 * 100].
Proof. run. Qed.
Example test_zero :
  map (fun x => map (pwl_eval (ok no_pwl (pwl_of_breaks [] [x]))) [-1; 0; 1]) [(0, 7); (7, 0); (0, 0)] = [[-7; 0; 7]; [7; 7; 7]; [0; 0; 0]].
Proof. run. Qed.
Example test_piecewise_linear_function_raises :
  map (fun x => fails (pwl_of_breaks (fst x) (snd x)))
    [([], []); ([0], []); ([1; 2], [(0, 0); (0, 0)]); ([2; 1; 3], [(1, 1); (2, 2); (3, 3); (4, 4)]); ([1; 1], [(1, 1); (2, 2); (2, 2)])] = repeat true 5.
Proof. run. Qed.
Example test_points_constructor :
  map pwl_of_points [[(0, 0); (1, 0)]; [(0, 0); (1, 1)]; [(0, 0); (2, 4); (2, 6); (10, 14)]] =
  [Ok (mk_pwl [] [(0, 0)]); Ok (mk_pwl [] [(0, 1)]); Ok (mk_pwl [2] [(0, 2); (4, 1)])].
Proof. run. Qed.
Example test_raises_point_constructor :
  map (fun l => fails (pwl_of_points l)) [[(0, 0)]; [(0, 0); (0, 0); (10, 10)]; [(1, 0); (2, 0); (2, 0)]; [(0, 0); (-1, 0)]; [(0, 0); (2, 3)]] = repeat true 5.
Proof. run. Qed.
Example test_is_monotonically_increasing :
  map (fun l => pwl_monotone (ok no_pwl (pwl_of_points l)))
    [[(0, 0); (10, 10); (10, 13); (11, 15)]; [(0, 0); (1, -1)]; [(0, 0); (5, 10); (5, 7); (6, 9)]; [(0, 0); (1, 0)]] = [true; false; false; true].
Proof. run. Qed.

(** ** tests/stop *)
Definition says (c : res criterion) (bests : list Z) : list bool := match c with Ok c => answers c (map (fun b => (0, b)) bests) | Err _ => [] end.
Example test_stops_on_first_feasible_solution :
  says (Ok FirstFeasible) (map (solution_cost (evaluator_of [0] 0 0)) [sc okSmall [[0; 1; 2; 3]]%nat; sc okSmall [[0; 1]; [2; 3]]%nat]) = [false; true].
Proof. run. Qed.
Example test_raise_negative_parameters :
  (map (fun n => fails (make_max_iterations n)) [-1; -42; 1; 42], map (fun n => fails (make_max_runtime n)) [-1; 1],
   map (fun n => fails (make_no_improvement n)) [-10; 0], fails (make_multiple [])) = ([true; true; false; false], [true; false], [true; false], true).
Proof. run. Qed.
Example test_after_max_iterations : says (make_max_iterations 100) (repeat 1 (Z.to_nat 200)) = repeat false (Z.to_nat 100) ++ repeat true (Z.to_nat 100).
Proof. run. Qed.
Example test_after_max_runtime : answers (MaxRuntime 10 None) [(5, 1); (15, 1); (16, 1); (17, 1)] = [false; false; true; true].
Proof. run. Qed.
Example test_stops_if_zero_max_iterations : says (make_multiple [MaxIterations 0 0; MaxRuntime 100 None]) [1] = [true].
Proof. run. Qed.
Example test_zero_max_iterations : says (make_no_improvement 0) [1; 1] = [true; true].
Proof. run. Qed.
Example test_one_max_iterations : says (make_no_improvement 1) [2; 1; 1] = [false; false; true].
Proof. run. Qed.
Example test_n_max_iterations_non_improving : says (make_no_improvement 10) (repeat 1 20) = repeat false 10 ++ repeat true 10.
Proof. run. Qed.
Example test_n_max_iterations_with_single_improvement :
  says (make_no_improvement 10) (repeat 2 2 ++ repeat 1 20) = repeat false 12 ++ repeat true 10.
Proof. run. Qed.

(** ** tests/test_PenaltyManager.py *)
Definition pp4 : pparams := mk_pparams 4 (dec 110 100) (dec 90 100) (dec 5 10) (dec 5 100) (dec 1 10) (b64_of_Z 100000).
Definition no_pm : pmanager := mk_pmanager pp4 [] [].
Definition no_ev : evaluator := mk_evaluator [] (fun x => x) (fun x => x).
Definition pm_after (m : pmanager) (ss : list solution) : pmanager := ok no_pm (pm_run m (map violations ss)).
Definition evaluator_after (m : pmanager) (ss : list solution) : evaluator := ok no_ev (pm_evaluator (pm_after m ss)).
Definition feas3 := sc okSmall [[0; 1]]%nat.
Definition infeas3 := sc okSmall [[0; 1; 2]]%nat.
Definition mixed4 := [feas3; infeas3; feas3; infeas3].
Example test_constructor_throws_when_arguments_invalid :
  map (fun x => let '(n, a, b, c, t, lo, hi) := x in fails (make_pparams n a b c t lo hi))
    (let z := b64_of_Z in
     [(-1, z 1, dec 1 2, dec 1 2, z 0, z 0, z 0); (0, z 1, dec 1 2, dec 1 2, z 0, z 0, z 0); (1, z (-1), dec 1 2, dec 1 2, z 0, z 0, z 0);
      (1, dec 1 2, dec 1 2, dec 1 2, z 0, z 0, z 0); (1, dec 3 2, z (-1), dec 1 2, z 0, z 0, z 0); (1, dec 3 2, z 2, dec 1 2, z 0, z 0, z 0);
      (1, z 1, z 1, z (-1), z 0, z 0, z 0); (1, z 1, z 1, z 2, z 0, z 0, z 0); (1, dec 3 2, dec 1 2, dec 1 2, z (-1), z 0, z 0);
      (1, dec 3 2, dec 1 2, dec 1 2, z 2, z 0, z 0); (1, dec 3 2, dec 1 2, dec 1 2, z 0, z (-1), z 0); (1, dec 3 2, dec 1 2, dec 1 2, z 0, z 2, z 1)]) = repeat true 12.
Proof. run. Qed.
Example test_load_penalty_update :
  let start l ss := loadPenalty (evaluator_after (make_pmanager [b64_of_Z l] (b64_of_Z 1) (b64_of_Z 1) pp4) ss) 2 1 0 in
  ([start 1 []; start 1 mixed4; start 1 (mixed4 ++ repeat infeas3 4); start 100 []; start 100 (repeat infeas3 4)],
   [start 4 []; start 4 mixed4; start 4 (mixed4 ++ repeat feas3 4); start 100 (repeat feas3 4)]) = ([1; 1; 1; 100; 110], [4; 4; 3; 90]).
Proof. run. Qed.
Example test_load_penalty_minimum :
  let start ss := loadPenalty (evaluator_after (make_pmanager [dec 1 10] (b64_of_Z 1) (b64_of_Z 1) pp4) ss) 11 1 0 in (start [], start (repeat feas3 4)) = (1, 1).
Proof. run. Qed.
Example test_time_warp_penalty_update :
  let start t ss := twPenalty (evaluator_after (make_pmanager [b64_of_Z 1] (b64_of_Z t) (b64_of_Z 1) pp4) ss) 1 in
  ([start 1 []; start 1 mixed4; start 1 (mixed4 ++ repeat infeas3 4); start 100 []; start 100 (repeat infeas3 4)],
   [start 4 []; start 4 mixed4; start 4 (mixed4 ++ repeat feas3 4); start 100 (repeat feas3 4)]) = ([1; 1; 1; 100; 110], [4; 4; 3; 90]).
Proof. run. Qed.
Example test_does_not_update_penalties_before_sufficient_registrations :
  let d := with_vehicles okSmall [v_maxd 6000 (veh 3 [10])] in let feas := sc d [[0; 1]; [2; 3]]%nat in let infeas := sc d [[0; 1; 2; 3]]%nat in
  let after ss := let e := evaluator_after (make_pmanager [b64_of_Z 4] (b64_of_Z 4) (b64_of_Z 4) pp4) ss in (twPenalty e 1, loadPenalty e 2 1 0, distPenalty e 1 0) in
  map after [[]; [feas]; [feas; infeas]; [feas; infeas; feas]; [feas; infeas; feas; feas]] = repeat (4, 4, 4) 4 ++ [(3, 3, 3)].
Proof. run. Qed.
Example test_max_min_penalty :
  let p := mk_pparams 1 (b64_of_Z 2) (b64_of_Z 0) (dec 65 100) (dec 5 100) (dec 1 10) (b64_of_Z 100000) in
  let m := make_pmanager [b64_of_Z 20] (b64_of_Z 100000) (b64_of_Z 6) p in
  let infeas := sc okSmall [[0; 1; 2; 3]]%nat in let feas := sc okSmall [[0; 1]; [2; 3]]%nat in
  (map (fun ss => twPenalty (evaluator_after m ss) 1) [[]; [infeas]], twPenalty (evaluator_after m [infeas; feas]) 10) = ([100000; 100000], 1).
Proof. run. Qed.
Example test_init_clips_penalties :
  let e := evaluator_after (make_pmanager [b64_of_Z 0] (b64_of_Z 100001) (b64_of_Z 2) defPenalty) [] in
  (loadPenalty e 10 0 0, twPenalty e 1, distPenalty e 1 0) = (1, 100000, 2).
Proof. run. Qed.
Example test_max_cost_evaluator :
  let p := mk_pparams 500 (dec 150 100) (dec 90 100) (dec 65 100) (dec 5 100) (dec 1 10) (b64_of_Z 100) in
  let e := ok no_ev (pm_max_evaluator (make_pmanager [b64_of_Z 20; b64_of_Z 20] (b64_of_Z 6) (b64_of_Z 6) p)) in
  (loadPenalty e 1 0 0, loadPenalty e 1 0 1, twPenalty e 1, distPenalty e 1 0) = (100, 100, 100, 100).
Proof. run. Qed.

(** ** tests/test_solve.py *)
Definition solved (d : pdata) (iterations : Z) : solution :=
  match solve d (criterion * nat) (py_stop (fun _ => 0)) defaults true 100 (Z.to_nat (iterations + 2)) 0 None (MaxIterations iterations 0, 0%nat) with
  | Some (Ok o) => o_best o
  | _ => no_solution
  end.
Example test_negative_fixed_cost_uses_all_vehicles :
  (so_numRoutes (solved okSmall 10), so_numRoutes (solved (with_vehicles okSmall [v_costs (-10000) 1 0 0 (p_vehicle okSmall 0)]) 10)) = (2, 3)%nat.
Proof. run. Qed.
Example test_solve_optional_shipments :
  let s := solved smallOptional 10 in
  (so_numShipments s, so_isFeasible s, so_distanceCost s, existsb (a_eqb (APickup 0)) (so_unplanned s), existsb (a_eqb (ADelivery 0)) (so_unplanned s)) =
  (1%nat, true, 9571, false, false).
Proof. run. Qed.
