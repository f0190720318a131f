(** The plots of statistics and data: pyvrp/plotting/plot_objectives.py, plot_runtimes.py, plot_demands.py and
    plot_time_windows.py.  The functions return what is handed to matplotlib: the points of lines and the bars.  Not
    modelled: axis limits, the trendline of run times, titles (for demands, the averages in it) and legends. *)
From Coq Require Import Reals Lra Permutation Sorted.
From Flocq Require Import Core.Core.
From Verif Require Import Base Data Ils Rounding.
Local Open Scope Z_scope.
Local Open Scope list_scope.

(** The slice [l[k:]] of Python lists and numpy arrays. *)
Definition slice_from {A} (k : Z) (l : list A) : list A :=
  if 0 <=? k then skipn (Z.to_nat k) l else skipn (length l - Z.to_nat (- k)) l.
(** ax.plot(x, y): matplotlib raises ValueError if there are not as many x as y. *)
Definition draw {A} (x : list Z) (y : list A) : res (list (Z * A)) :=
  if (length x =? length y)%nat then Ok (combine x y) else Err InvalidArgument.
(** 1 + np.arange(n), plot_objectives.py:40 and plot_runtimes.py:21 *)
Definition iteration_axis (n : nat) : list Z := map (fun i => 1 + Z.of_nat i) (seq 0 n).
(** plot_objectives.py:34-35: 0.05 is the nearest double, the product is rounded, and int() truncates. *)
Definition default_skip (n : nat) : Z := Ztrunc (fl (fl (1 / 20) * IZR (Z.of_nat n))).
Record objective_lines := mk_objective_lines { ol_current : list (Z * Z); ol_candidate : list (Z * Z); ol_best : list (Z * Z) }.
(** plot_objectives.py:34-49; iterating over the statistics gives their data, in order (Statistics.py:56-60). *)
Definition plot_objectives (num_iterations : nat) (stats : list datum) (num_to_skip : option Z) : res objective_lines :=
  let skip := match num_to_skip with Some k => k | None => default_skip num_iterations end in
  let x := iteration_axis num_iterations in
  let line f := draw (slice_from skip x) (slice_from skip (map f stats)) in
  match line dt_curr, line dt_cand, line dt_best with
  | Ok a, Ok b, Ok c => Ok (mk_objective_lines a b c)
  | _, _, _ => Err InvalidArgument
  end.
(** plot_runtimes.py:21-22 *)
Definition plot_runtimes {T} (num_iterations : nat) (runtimes : list T) : res (list (Z * T)) := draw (iteration_axis num_iterations) runtimes.

(** np.sort and np.lexsort, which is stable. *)
Fixpoint put_in {A} (le : A -> A -> bool) (x : A) (l : list A) : list A :=
  match l with [] => [x] | y :: more => if le x y then x :: y :: more else y :: put_in le x more end.
Definition sort_by {A} (le : A -> A -> bool) (l : list A) : list A := fold_right (put_in le) [] l.
(** plot_demands.py:32-42: the heights of the bars, from left to right. *)
Definition plot_demands (d : pdata) (dimension : nat) : res (list Z) :=
  if (p_numLoadDimensions d <=? dimension)%nat then Err InvalidArgument
  else Ok (sort_by Z.leb (map (fun c => dimv (c_delivery c) dimension) (p_clients d))).
(** plot_time_windows.py:27-36: the bars, as bottom and height.  Without clients the array has one dimension only, and
    indexing its second raises IndexError. *)
Definition window_le (a b : Z * Z) : bool := (fst a <? fst b) || ((fst a =? fst b) && (snd a <=? snd b)).
Definition plot_time_windows (d : pdata) : res (list (Z * Z)) :=
  match p_clients d with
  | [] => Err OutOfRange
  | clients => Ok (map (fun w => (fst w, snd w - fst w)) (sort_by window_le (map (fun c => (c_early c, c_late c)) clients)))
  end.

(** ** Slices and lines *)
Lemma nth_skipn {A} n (l : list A) i x : nth i (skipn n l) x = nth (n + i) l x.
Proof. revert l. induction n as [|n IH]; intros l; [reflexivity|]. destruct l; [destruct i; reflexivity|]. apply IH. Qed.
Lemma axis_length n : length (iteration_axis n) = n.
Proof. unfold iteration_axis. rewrite map_length, seq_length. reflexivity. Qed.
Lemma axis_nth n i x : (i < n)%nat -> nth i (iteration_axis n) x = 1 + Z.of_nat i.
Proof.
  intros H. rewrite (nth_indep _ x (1 + Z.of_nat 0)) by (rewrite axis_length; exact H). unfold iteration_axis.
  rewrite (map_nth (fun i => 1 + Z.of_nat i)), seq_nth by exact H. reflexivity.
Qed.
(** The first point that is drawn. *)
Definition first_drawn (n : nat) (skip : Z) : nat := if 0 <=? skip then Nat.min n (Z.to_nat skip) else (n - Z.to_nat (- skip))%nat.
Lemma slice_skipn {A} k (l : list A) : slice_from k l = skipn (first_drawn (length l) k) l.
Proof.
  unfold slice_from, first_drawn. destruct (0 <=? k); [|reflexivity]. destruct (Nat.le_gt_cases (length l) (Z.to_nat k)) as [H|H].
  - rewrite Nat.min_l by exact H. rewrite !skipn_all2 by lia. reflexivity.
  - rewrite Nat.min_r by lia. reflexivity.
Qed.
Definition line_is {A} (n first : nat) (y : nat -> A) (l : list (Z * A)) : Prop :=
  length l = (n - first)%nat /\ forall i, (first + i < n)%nat -> nth_error l i = Some (1 + Z.of_nat (first + i), y (first + i)%nat).
Lemma draw_line {A} n (ys : list A) dft k : length ys = n ->
  exists l, draw (slice_from k (iteration_axis n)) (slice_from k ys) = Ok l /\ line_is n (first_drawn n k) (fun i => nth i ys dft) l.
Proof.
  intros H. rewrite !slice_skipn, axis_length, H. set (f := first_drawn n k). unfold draw. rewrite !skipn_length, axis_length, H, Nat.eqb_refl.
  eexists. split; [reflexivity|]. split; [rewrite combine_length, !skipn_length, axis_length, H; lia|].
  intros i Hi. rewrite (nth_error_nth' _ (0, dft)) by (rewrite combine_length, !skipn_length, axis_length, H; lia).
  rewrite combine_nth by (rewrite !skipn_length, axis_length, H; reflexivity). rewrite !nth_skipn, axis_nth by exact Hi. reflexivity.
Qed.

(** ** The default number of iterations to skip *)
Local Open Scope R_scope.
Lemma twentieth : fl (1 / 20) = IZR 7205759403792794 / IZR (2 ^ 57).
Proof.
  assert (B : bpow radix2 (-5) <= 1 / 20 < bpow radix2 (-5 + 1)) by (cbn; lra).
  rewrite (fl_at (1 / 20) (-5) B ltac:(lia)). replace (ZnearestE (1 / 20 * bpow radix2 (- (-5 - 52)))) with 7205759403792794%Z.
  - reflexivity.
  - symmetry. apply Znearest_imp. change (bpow radix2 (- (-5 - 52))) with (IZR (2 ^ 57)). change (2 ^ 57)%Z with 144115188075855872%Z.
    apply Rabs_def1; lra.
Qed.
Theorem default_skip_spec n : (Z.of_nat n <= 2 ^ 50)%Z -> default_skip n = (Z.of_nat n / 20)%Z.
Proof.
  intros Hn. unfold default_skip. rewrite twentieth. set (z := Z.of_nat n) in *. assert (H0 : (0 <= z)%Z) by (unfold z; lia). clearbody z. clear n.
  set (k := (z / 20)%Z). assert (Hk : (20 * k <= z <= 20 * k + 19)%Z) by (unfold k; pose proof (Z.div_mod z 20 ltac:(lia)); pose proof (Z.mod_pos_bound z 20 ltac:(lia)); lia).
  clearbody k. change (2 ^ 50)%Z with 1125899906842624%Z in Hn. change (2 ^ 57)%Z with 144115188075855872%Z.
  destruct Hk as [K1 K2]. assert (R1 : 20 * IZR k <= IZR z) by (rewrite <- mult_IZR; apply IZR_le; exact K1).
  assert (R2 : IZR z <= 20 * IZR k + 19) by (rewrite <- mult_IZR, <- plus_IZR; apply IZR_le; exact K2).
  assert (R3 : IZR z <= 1125899906842624) by (apply IZR_le; exact Hn). assert (R0 : 0 <= IZR z) by (apply IZR_le; exact H0).
  set (x := IZR 7205759403792794 / IZR 144115188075855872 * IZR z).
  assert (L : IZR k <= fl x).
  { rewrite <- (fl_int k) at 1 by (change (2 ^ 53)%Z with 9007199254740992%Z; lia). apply fl_le. unfold x. lra. }
  assert (U : fl x <= IZR (64 * k + 63) * bpow radix2 (-6)).
  { rewrite <- fl_float with (m := (64 * k + 63)%Z) (e := (-6)%Z) by (change (2 ^ 53)%Z with 9007199254740992%Z; lia). apply fl_le.
    rewrite plus_IZR, mult_IZR. change (bpow radix2 (-6)) with (/ 64). unfold x. lra. }
  rewrite plus_IZR, mult_IZR in U. change (bpow radix2 (-6)) with (/ 64) in U.
  assert (K0 : 0 <= IZR k) by (apply IZR_le; lia).
  rewrite Ztrunc_floor by lra. apply Zfloor_imp. rewrite plus_IZR. lra.
Qed.
Local Close Scope R_scope.

(** ** Sorting *)
Section Sort.
Context {A : Type} (le : A -> A -> bool).
Hypothesis total : forall x y, le x y = false -> le y x = true.
Lemma put_in_perm x l : Permutation (x :: l) (put_in le x l).
Proof. induction l as [|y l IH]; [reflexivity|]. cbn. destruct (le x y); [reflexivity|]. rewrite perm_swap. apply perm_skip, IH. Qed.
Lemma put_in_sorted x l : Sorted (fun x y => le x y = true) l -> Sorted (fun x y => le x y = true) (put_in le x l).
Proof.
  induction 1 as [|y l S IH H]; cbn; [repeat constructor|]. destruct (le x y) eqn:E; [repeat constructor; assumption|].
  constructor; [exact IH|]. destruct l as [|z l]; cbn; [constructor; apply total, E|]. destruct (le x z); constructor; [apply total, E|]. inversion H; assumption.
Qed.
Lemma sort_by_spec l : Permutation l (sort_by le l) /\ Sorted (fun x y => le x y = true) (sort_by le l).
Proof.
  induction l as [|x l [P S]]; [split; constructor|]. cbn. split; [rewrite <- put_in_perm; apply perm_skip, P|apply put_in_sorted, S].
Qed.
End Sort.
Lemma window_total x y : window_le x y = false -> window_le y x = true.
Proof.
  unfold window_le. destruct x as [a b], y as [a' b']. cbn. destruct (Z.ltb_spec a a'), (Z.ltb_spec a' a), (Z.eqb_spec a a'), (Z.eqb_spec a' a), (Z.leb_spec b b'), (Z.leb_spec b' b); cbn; lia || congruence || auto.
Qed.
