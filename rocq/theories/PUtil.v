(** Property theorems C30, C31, C37-C41, C45: ring buffer, stopping criteria, random numbers,
    piecewise linear functions, bitsets, matrices, activity text and results. *)
From Coq Require Import Permutation Reals Ascii.
From Flocq Require Import IEEE754.BinarySingleNaN.
From Verif Require Import Base DurationSegment Data LoadSegment Valid Route RouteSpec Cost CostFacts
  Penalty Solution SolutionFacts SolutionFacts2 SolutionFacts3 Sample
  RingBuffer Stop Rng RngFloat Pwl Bitset MatrixFacts ActivityText ResultPy PSolution.
Local Open Scope Z_scope.

(** C30: ring buffer of length [n].  [written] is the history since the last clear, a skip writing
    what was written [n] entries earlier; peek is the entry [n] back, and the buffer holds the last
    [n]. *)
Theorem C30_ring_peek : forall (T : Type) n (ops : list (@ring_op T)), (0 < n)%nat ->
  rb_peek (rb_run (rb_make n) ops) = ago n (written n ops).
Proof. exact (@ring_peek). Qed.
Print Assumptions C30_ring_peek.
Theorem C30_ring_content : forall (T : Type) n (ops : list (@ring_op T)), (0 < n)%nat ->
  let b := rb_run (rb_make n) ops in let w := written n ops in
  let r := (rb_idx b mod n)%nat in
  skipn r (rb_buffer b) ++ firstn r (rb_buffer b) = repeat None (n - length w) ++ lastn n w.
Proof. exact (@ring_content). Qed.
Print Assumptions C30_ring_content.
Theorem C30_ring_len : forall (T : Type) n (ops : list (@ring_op T)), (0 < n)%nat ->
  rb_len (rb_run (rb_make n) ops) = length (filter is_some (lastn n (written n ops))).
Proof. exact (@ring_len). Qed.
Print Assumptions C30_ring_len.
Theorem C30_appends : forall (T : Type) n (xs : list T),
  written n (map RAppend xs) = map Some xs.
Proof. exact (@written_appends). Qed.
Print Assumptions C30_appends.
Theorem C30_clear : forall (T : Type) n (ops ops' : list (@ring_op T)),
  written n (ops ++ RClear :: ops') = written n ops'.
Proof. exact (@written_clear). Qed.
Print Assumptions C30_clear.
Example C30_case : let b := rb_run (rb_make 2) [RAppend 1; RAppend 2; RAppend 3; RSkip] in
  rb_peek b = Some 3 /\ rb_len b = 2%nat /\
  written 2 [RAppend 1; RAppend 2; RAppend 3; RSkip] = [Some 1; Some 2; Some 3; Some 2].
Proof. vm_compute. auto. Qed.

(** C31: stopping criteria, after any sequence of earlier calls. *)
Theorem C31_max_iterations : forall n c calls now best, make_max_iterations n = Ok c ->
  answer c calls now best = true <-> n < Z.of_nat (length calls) + 1.
Proof. exact max_iterations_spec. Qed.
Print Assumptions C31_max_iterations.
Theorem C31_max_runtime : forall t c calls now best, make_max_runtime t = Ok c ->
  answer c calls now best = true <-> t < now - fst (hd (now, 0) calls).
Proof. exact max_runtime_spec. Qed.
Print Assumptions C31_max_runtime.
Theorem C31_no_improvement : forall n c calls now best, make_no_improvement n = Ok c ->
  answer c calls now best = true <->
  exists a b, map snd calls ++ [best] = a ++ b /\ a <> [] /\ Z.of_nat (length b) = n /\
              forall x, In x b -> exists y, In y a /\ y <= x.
Proof. exact no_improvement_spec. Qed.
Print Assumptions C31_no_improvement.
Theorem C31_first_feasible : forall calls now best,
  answer FirstFeasible calls now best = true <-> best < MAXV.
Proof. exact first_feasible_spec. Qed.
Print Assumptions C31_first_feasible.
Theorem C31_multiple : forall cs now best,
  snd (call now best (MultipleCriteria cs)) = existsb (fun c => snd (call now best c)) cs.
Proof. exact multiple_spec. Qed.
Print Assumptions C31_multiple.
(** Only the criteria up to and including the first that stops see a call. *)
Theorem C31_multiple_calls : forall cs now best,
  exists pre post, cs = pre ++ post /\
    fst (call now best (MultipleCriteria cs)) = MultipleCriteria (map (fun c => fst (call now best c)) pre ++ post) /\
    ((post = [] /\ forall c, In c pre -> snd (call now best c) = false) \/
     exists pre' c, pre = pre' ++ [c] /\ snd (call now best c) = true /\
                    forall c, In c pre' -> snd (call now best c) = false).
Proof. exact multiple_state. Qed.
Print Assumptions C31_multiple_calls.
(** Once stopped, criteria stay so while time passes and costs do not increase; not so for the
    no-improvement criterion. *)
Theorem C31_stop_lasts : forall c now best now' best', lasting c -> now <= now' -> best' <= best ->
  snd (call now best c) = true -> snd (call now' best' (fst (call now best c))) = true.
Proof. exact stop_lasts. Qed.
Print Assumptions C31_stop_lasts.
Example C31_case : exists c, make_no_improvement 2 = Ok c /\
  answer c [(0, 9); (0, 7)] 0 7 = false /\ answer c [(0, 9); (0, 7); (0, 7)] 0 8 = true.
Proof. eexists. split; [reflexivity|]. vm_compute. auto. Qed.
Example C31_multiple_case : exists c, make_max_iterations 1 = Ok c /\ lasting (MultipleCriteria [c; FirstFeasible]) /\
  snd (call 0 5 (MultipleCriteria [c; FirstFeasible])) = true.
Proof. eexists. split; [reflexivity|]. cbn. auto. Qed.

(** C37: random numbers. *)
Theorem C37_state_valid : forall r, rng_ok r -> rng_ok (fst (rng_next r)) /\ word (snd (rng_next r)).
Proof. exact rng_next_ok. Qed.
Print Assumptions C37_state_valid.
Theorem C37_no_state_lost : forall r r', rng_ok r -> rng_ok r' -> fst (rng_next r) = fst (rng_next r') -> r = r'.
Proof. exact rng_next_inj. Qed.
Print Assumptions C37_no_state_lost.
Theorem C37_from_seed : forall seed n, word seed ->
  rng_ok (rng_steps (rng_seed seed) n) /\ rng_steps (rng_seed seed) n <> rng_zero /\
  Forall word (rng_draws (rng_seed seed) n).
Proof. exact rng_from_seed. Qed.
Print Assumptions C37_from_seed.
Theorem C37_resume : forall r n m,
  rng_draws r (n + m) = rng_draws r n ++ rng_draws (rng_restore (rng_state (rng_steps r n))) m.
Proof. exact rng_resume. Qed.
Print Assumptions C37_resume.
Theorem C37_randint : forall r high, 0 < high -> 0 <= snd (rng_int r high) < high.
Proof. exact rng_int_range. Qed.
Print Assumptions C37_randint.
Theorem C37_rand : forall r, rng_ok r ->
  is_finite (snd (rng_rand r)) = true /\ (0 <= B2R (snd (rng_rand r)) <= 1)%R.
Proof. exact rng_rand_range. Qed.
Print Assumptions C37_rand.
Theorem C37_shuffle : forall (A : Type) r (l : list A), Permutation l (snd (rng_shuffle r l)).
Proof. exact (@rng_shuffle_perm). Qed.
Print Assumptions C37_shuffle.
Example C37_case : rng_ok (rng_seed 42) /\ rng_draws (rng_seed 42) 2 = [2386648076; 1236469084] /\
  snd (rng_shuffle (rng_seed 42) [1; 2; 3; 4]) = [3; 4; 2; 1].
Proof. vm_compute. repeat split; try reflexivity; discriminate. Qed.

(** C38: piecewise linear functions. *)
Theorem C38_of_breaks : forall bs ss f, pwl_of_breaks bs ss = Ok f <-> f = mk_pwl bs ss /\ pwl_ok f.
Proof. exact of_breaks_spec. Qed.
Print Assumptions C38_of_breaks.
Theorem C38_eval_piece : forall f i x, pwl_ok f -> (i <= length (pw_breaks f))%nat ->
  (i = 0%nat \/ nth (i - 1) (pw_breaks f) 0 <= x) ->
  (i = length (pw_breaks f) \/ x < nth i (pw_breaks f) 0) ->
  pwl_eval f x = fst (nth i (pw_segs f) (0, 0)) + snd (nth i (pw_segs f) (0, 0)) * x.
Proof. exact eval_piece. Qed.
Print Assumptions C38_eval_piece.
Theorem C38_of_points_accepts : forall points,
  (exists f, pwl_of_points points = Ok f) <-> points_ok points.
Proof.
  intros points. split; [intros [f H]; apply of_points_spec in H; tauto|].
  intros H. pose proof H as ((p & q & more & E & _) & _).
  exists (mk_pwl (loop_breaks (q :: more)) (seg_between p q :: loop_segs (q :: more))).
  apply of_points_spec. split; [exact H|]. exists p, q, more. auto.
Qed.
Print Assumptions C38_of_points_accepts.
(** On and between the given points the value is the linear interpolation; beyond them, the first
    and last piece go on. *)
Theorem C38_interpolates : forall points f pre p q post x, pwl_of_points points = Ok f ->
  points = pre ++ p :: q :: post -> fst p < fst q ->
  (pre = [] \/ fst p <= x) -> (post = [] \/ x < fst q) ->
  (pwl_eval f x - snd p) * (fst q - fst p) = (snd q - snd p) * (x - fst p).
Proof. exact of_points_eval. Qed.
Print Assumptions C38_interpolates.
Theorem C38_of_points_ok : forall points f, pwl_of_points points = Ok f -> pwl_ok f.
Proof. exact of_points_ok. Qed.
Print Assumptions C38_of_points_ok.
(** Monotone over the rationals ([eval_frac f den p] is [den * f (p / den)]). *)
Theorem C38_monotone : forall f, pwl_ok f ->
  pwl_monotone f = true <-> forall den p q, 0 < den -> p <= q -> eval_frac f den p <= eval_frac f den q.
Proof. exact monotone_spec. Qed.
Print Assumptions C38_monotone.
Theorem C38_monotone_integers : forall f, pwl_ok f -> pwl_monotone f = true ->
  forall x y, x <= y -> pwl_eval f x <= pwl_eval f y.
Proof.
  intros f Hf Hm x y Hxy. pose proof (proj1 (monotone_spec f Hf) Hm 1 x y ltac:(lia) Hxy) as H.
  pose proof (eval_frac_int f x Hf) as H1. pose proof (eval_frac_int f y Hf) as H2.
  lia.
Qed.
Print Assumptions C38_monotone_integers.
(** The converse fails over the integers: x below 10, x - 1 from there on. *)
Theorem C38_monotone_integers_converse_refuted :
  exists f, pwl_ok f /\ (forall x y, x <= y -> pwl_eval f x <= pwl_eval f y) /\ pwl_monotone f = false.
Proof.
  exists (mk_pwl [10] [(0, 1); (-1, 1)]). split; [split; [reflexivity|exact I]|]. split; [|reflexivity].
  intros x y H. unfold pwl_eval, seg_at. cbn [pw_breaks pw_segs upper].
  destruct (Z.ltb_spec x 10); destruct (Z.ltb_spec y 10); cbn [nth fst snd]; lia.
Qed.
Print Assumptions C38_monotone_integers_converse_refuted.
Example C38_case : exists f, pwl_of_points [(0, 0); (5, 10); (5, 20); (8, 26)] = Ok f /\
  map (pwl_eval f) [-1; 0; 4; 5; 6; 10] = [-2; 0; 8; 20; 22; 30] /\ pwl_monotone f = true.
Proof. eexists. split; [reflexivity|]. vm_compute. auto. Qed.

(** C39: bitsets. *)
Theorem C39_make : forall n, bs_ok (bs_make n) /\ (forall i, bs_get (bs_make n) i = false) /\
  (n <= bs_size (bs_make n))%nat /\ (bs_size (bs_make n) < n + BLOCK)%nat /\
  (exists q, bs_size (bs_make n) = q * BLOCK)%nat.
Proof. exact make_spec. Qed.
Print Assumptions C39_make.
Theorem C39_set_get : forall b idx x, bs_ok b -> (idx < bs_size b)%nat ->
  bs_ok (bs_set b idx x) /\ bs_size (bs_set b idx x) = bs_size b /\
  forall j, bs_get (bs_set b idx x) j = if Nat.eqb idx j then x else bs_get b j.
Proof. exact set_spec. Qed.
Print Assumptions C39_set_get.
Theorem C39_bounds : forall b idx, (bs_size b <= idx)%nat ->
  py_get b idx = Err OutOfRange /\ forall x, py_set b idx x = Err OutOfRange.
Proof.
  intros b idx H. split; [exact (py_get_spec b idx H)|]. intros x. unfold py_set.
  destruct (Nat.leb_spec (bs_size b) idx); [reflexivity|lia].
Qed.
Print Assumptions C39_bounds.
Theorem C39_queries : forall b, bs_ok b ->
  (bs_all b = true <-> forall i, (i < bs_size b)%nat -> bs_get b i = true) /\
  (bs_any b = true <-> exists i, (i < bs_size b)%nat /\ bs_get b i = true) /\
  (bs_none b = true <-> forall i, (i < bs_size b)%nat -> bs_get b i = false) /\
  bs_count b = length (filter (bs_get b) (seq 0 (bs_size b))).
Proof. exact (fun b H => conj (all_spec b H) (conj (any_spec b H) (conj (none_spec b H) (count_spec b H)))). Qed.
Print Assumptions C39_queries.
Theorem C39_and_or_xor : forall a b, bs_ok a -> bs_ok b -> bs_size a = bs_size b ->
  (forall i, bs_get (bs_and a b) i = bs_get a i && bs_get b i) /\
  (forall i, bs_get (bs_or a b) i = bs_get a i || bs_get b i) /\
  (forall i, bs_get (bs_xor a b) i = xorb (bs_get a i) (bs_get b i)) /\
  bs_size (bs_and a b) = bs_size a /\ bs_size (bs_or a b) = bs_size a /\ bs_size (bs_xor a b) = bs_size a.
Proof.
  intros a b Ha Hb E. destruct (zip_spec andb a b eq_refl Ha Hb E) as (_ & H1 & H2).
  destruct (zip_spec orb a b eq_refl Ha Hb E) as (_ & H3 & H4).
  destruct (zip_spec xorb a b eq_refl Ha Hb E) as (_ & H5 & H6). auto 10.
Qed.
Print Assumptions C39_and_or_xor.
Theorem C39_not : forall b, bs_ok b -> bs_ok (bs_not b) /\ bs_size (bs_not b) = bs_size b /\
  forall i, (i < bs_size b)%nat -> bs_get (bs_not b) i = negb (bs_get b i).
Proof. exact not_spec. Qed.
Print Assumptions C39_not.
Theorem C39_set_reset : forall b, bs_ok b ->
  (bs_ok (bs_set_all b) /\ bs_size (bs_set_all b) = bs_size b /\
   forall i, (i < bs_size b)%nat -> bs_get (bs_set_all b) i = true) /\
  (bs_ok (bs_reset b) /\ bs_size (bs_reset b) = bs_size b /\ forall i, bs_get (bs_reset b) i = false).
Proof. exact fill_spec. Qed.
Print Assumptions C39_set_reset.
Theorem C39_equal : forall a b, bs_ok a -> bs_ok b ->
  bs_eqb a b = true <-> bs_size a = bs_size b /\ forall i, bs_get a i = bs_get b i.
Proof. exact eqb_spec. Qed.
Print Assumptions C39_equal.
Example C39_case : let b := bs_set (bs_make 65) 64 true in
  bs_size b = 128%nat /\ bs_count b = 1%nat /\ bs_count (bs_not b) = 127%nat /\
  bs_get b 64 = true /\ bs_get b 0 = false.
Proof. vm_compute. auto. Qed.

(** C40: matrices. *)
Theorem C40_set_get : forall m i j x, m_ok m -> (i < m_rows m)%nat -> (j < m_cols m)%nat ->
  m_ok (m_set m i j x) /\ m_at (m_set m i j x) i j = x /\
  forall i' j', (i' < m_rows m)%nat -> (j' < m_cols m)%nat -> (i', j') <> (i, j) ->
    m_at (m_set m i j x) i' j' = m_at m i' j'.
Proof. exact matrix_set_get. Qed.
Print Assumptions C40_set_get.
Theorem C40_fill : forall rows cols x, m_ok (m_fill rows cols x) /\
  forall i j, (i < rows)%nat -> (j < cols)%nat -> m_at (m_fill rows cols x) i j = x.
Proof. exact matrix_fill. Qed.
Print Assumptions C40_fill.
Theorem C40_of_array : forall cols a, rect cols a ->
  let m := m_of_array cols a in
  m_ok m /\
  (forall i j, (i < length a)%nat -> (j < cols)%nat -> m_at m i j = nth j (nth i a []) 0) /\
  ((0 < length a)%nat -> (0 < cols)%nat -> m_rows m = length a /\ m_cols m = cols /\ m_to_array m = a).
Proof. exact matrix_of_array. Qed.
Print Assumptions C40_of_array.
(** An array without entries gives the matrix of size zero by zero. *)
Theorem C40_empty_array : forall cols a, rect cols a -> length a = 0%nat \/ cols = 0%nat ->
  let m := m_of_array cols a in m_rows m = 0%nat /\ m_cols m = 0%nat /\ m_to_array m = [].
Proof.
  intros cols a H E. cbv zeta. unfold m_of_array. replace (concat a) with (@nil Z); [auto|]. destruct E as [E|E]; [destruct a; [reflexivity|discriminate]|].
  subst cols. induction H as [|r a Hr H IH]; [reflexivity|]. cbn. destruct r; [exact IH|discriminate].
Qed.
Print Assumptions C40_empty_array.
Theorem C40_max : forall m, m_ok m -> (0 < m_rows m)%nat -> (0 < m_cols m)%nat ->
  (forall i j, (i < m_rows m)%nat -> (j < m_cols m)%nat -> m_at m i j <= m_max m) /\
  exists i j, (i < m_rows m)%nat /\ (j < m_cols m)%nat /\ m_at m i j = m_max m.
Proof. exact matrix_max. Qed.
Print Assumptions C40_max.
Example C40_case : let m := m_of_array 3 [[1; 2; 3]; [4; 5; 6]] in
  rect 3 [[1; 2; 3]; [4; 5; 6]] /\ m_rows m = 2%nat /\ m_cols m = 3%nat /\ m_at m 1 0 = 4 /\ m_max m = 6.
Proof. split; [repeat constructor|]. vm_compute. auto. Qed.

(** C41: the text form of activities. *)
Theorem C41_round_trip : forall a, Z.of_nat (a_idx a) <= SIZE_MAX -> parse_activity (print_activity a) = Ok a.
Proof. exact parse_print. Qed.
Print Assumptions C41_round_trip.
(** What is accepted: a type letter, then whitespace, a sign, digits and anything else. *)
Theorem C41_accepts : forall s a, parse_activity s = Ok a <->
  exists c make ws sg ds rest v, s = c :: ws ++ sg ++ ds ++ rest /\ char_type c = Ok make /\
    Forall (fun c => is_space c = true) ws /\ sign_ok sg /\ all_digits ds /\ ds <> [] /\
    starts_digit rest = false /\ value ds <= SIZE_MAX /\
    v = (if existsb (fun c => code c =? 45) sg then (- value ds) mod (SIZE_MAX + 1) else value ds) /\
    a = make (Z.to_nat v).
Proof.
  intros s a. rewrite parse_accepts. split.
  - intros (c & make & rest & v & -> & Hc & Hs & ->). apply stoul_accepts in Hs.
    destruct Hs as (ws & sg & ds & rest' & -> & H). exists c, make, ws, sg, ds, rest', v. tauto.
  - intros (c & make & ws & sg & ds & rest & v & -> & Hc & H1 & H2 & H3 & H4 & H5 & H6 & H7 & ->).
    exists c, make, (ws ++ sg ++ ds ++ rest), v. repeat split; [exact Hc|]. apply stoul_accepts.
    exists ws, sg, ds, rest. tauto.
Qed.
Print Assumptions C41_accepts.
(** So text that no activity prints as is accepted: "C1x", "C 1" and "C+1" all are client 1. *)
Theorem C41_rejects_malformed_refuted : exists s1 s2 s3,
  parse_activity s1 = Ok (AClient 1) /\ parse_activity s2 = Ok (AClient 1) /\ parse_activity s3 = Ok (AClient 1) /\
  forall s, In s [s1; s2; s3] -> s <> print_activity (AClient 1).
Proof.
  exists ["C"; "1"; "x"]%char, ["C"; " "; "1"]%char, ["C"; "+"; "1"]%char.
  repeat split; try (vm_compute; reflexivity).
  intros s [<-|[<-|[<-|[]]]]; vm_compute; discriminate.
Qed.
Print Assumptions C41_rejects_malformed_refuted.
Theorem C41_hash : forall a b, Z.of_nat (a_idx a) < 2 ^ 20 -> Z.of_nat (a_idx b) < 2 ^ 20 ->
  hash_activity a = hash_activity b -> a = b.
Proof. exact hash_inj. Qed.
Print Assumptions C41_hash.
Example C41_case : print_activity (ADelivery 102) = ["U"; "1"; "0"; "2"]%char /\
  parse_activity ["X"; "1"]%char = Err InvalidArgument /\ parse_activity ["C"]%char = Err InvalidArgument.
Proof. vm_compute. auto. Qed.

(** C45: results. *)
Theorem C45_result : forall d h, valid_data d -> opens_by d h -> nonneg_durs d -> 2 * h <= MAXV ->
  forall routes, Forall (built d) routes -> groups_nodup d -> groups_known d -> forall s,
  make_solution d routes = Ok s -> forall iters runtime r, make_result s iters runtime = Ok r ->
  (result_feasible r = true <-> result_cost r <> None) /\
  (result_feasible r = true -> result_cost r = Some (objective d s) /\
     forall ev, ev_ok ev -> result_cost r = Some (solution_cost ev s)) /\
  result_feasible r = so_isFeasible s /\ 0 <= iters.
Proof. exact result_spec. Qed.
Print Assumptions C45_result.
Theorem C45_rejects : forall s iters runtime,
  iters < 0 \/ b64_neg runtime = true -> make_result s iters runtime = Err InvalidArgument.
Proof.
  intros s iters runtime H. unfold make_result. destruct (Z.ltb_spec iters 0) as [Hi|Hi]; [reflexivity|].
  destruct H as [H|H]; [lia|]. rewrite H. reflexivity.
Qed.
Print Assumptions C45_rejects.
Example C45_case : exists s r, make_solution sample [ex_r1; ex_r2] = Ok s /\ make_result s 10 b64_zero = Ok r /\
  result_feasible r = true.
Proof.
  eexists. eexists. split; [vm_compute; reflexivity|]. split; [vm_compute; reflexivity|]. vm_compute. reflexivity.
Qed.
