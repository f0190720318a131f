(** Property theorems C72: the plots of a run's statistics and of the data. *)
From Coq Require Import List Permutation Sorted.
From Verif Require Import Base Data DataCtor Cost Solution Ils Rounding PlotStats Sample MatrixFacts PPy.
Import ListNotations.
Local Open Scope Z_scope.
Notation EmptyString := String.EmptyString.

(** The number of iterations that are left out: the first [k], or all but the last [- k] for a negative number, or one in
    twenty. *)
Definition left_out (iters : nat) (skip : option Z) : Z :=
  match skip with
  | Some k => if 0 <=? k then Z.min k (Z.of_nat iters) else Z.max 0 (Z.of_nat iters + k)
  | None => Z.of_nat iters / 20
  end.
Lemma left_out_first iters skip : Z.of_nat iters <= 2 ^ 50 ->
  Z.of_nat (first_drawn iters (match skip with Some k => k | None => default_skip iters end)) = left_out iters skip.
Proof.
  intros H. unfold first_drawn, left_out. destruct skip as [k|].
  - destruct (Z.leb_spec 0 k); lia.
  - rewrite default_skip_spec by exact H. assert (A : 0 <= Z.of_nat iters / 20 <= Z.of_nat iters).
    { split; [apply Z.div_pos; lia|]. apply Z.div_le_upper_bound; lia. }
    rewrite (proj2 (Z.leb_le 0 _) (proj1 A)). lia.
Qed.

(** For a run that collected statistics, the three lines have a point for each iteration that is not left out: its number
    (from 1) and the penalised cost, at that time, of the current, candidate and best solution. *)
Theorem C72_objectives : forall (S E W : Type) (feas : S -> bool) (cost pcost : E -> S -> Z) (cost_evaluator : W -> E)
    search register stop history noimp exh (init : S) w0 best data iters trace skip, (0 < history)%nat ->
  returns feas cost pcost cost_evaluator search register stop history noimp exh true init w0 best data iters trace ->
  Z.of_nat iters <= 2 ^ 50 ->
  exists lines, plot_objectives iters data skip = Ok lines /\
  (forall l, In l [ol_current lines; ol_candidate lines; ol_best lines] -> Z.of_nat (length l) = Z.of_nat iters - left_out iters skip) /\
  forall i x, nth_error trace (Z.to_nat (left_out iters skip) + i) = Some x ->
    let it := left_out iters skip + Z.of_nat i + 1 in
    nth_error (ol_current lines) i = Some (it, pcost (t_eval x) (t_curr x)) /\
    nth_error (ol_candidate lines) i = Some (it, pcost (t_eval x) (t_final x)) /\
    nth_error (ol_best lines) i = Some (it, pcost (t_eval x) (t_best x)).
Proof.
  intros S E W feas cost pcost ce search register stop history noimp exh init w0 best data iters trace skip HL Hr Hb.
  destruct (C29_bookkeeping _ _ _ _ _ _ _ _ _ _ _ _ _ _ _ _ _ _ _ _ HL Hr) as (E1 & _ & E2 & _). cbv iota in E2.
  pose proof (left_out_first iters skip Hb) as LO. unfold plot_objectives. set (k := match skip with Some k => k | None => default_skip iters end) in *.
  assert (Hl : length data = iters) by (rewrite E2, map_length; symmetry; exact E1).
  assert (Hlf : forall f : datum -> Z, length (map f data) = iters) by (intros f; rewrite map_length; exact Hl).
  destruct (draw_line iters (map dt_curr data) 0 k (Hlf _)) as (l1 & -> & L1 & P1). destruct (draw_line iters (map dt_cand data) 0 k (Hlf _)) as (l2 & -> & L2 & P2).
  destruct (draw_line iters (map dt_best data) 0 k (Hlf _)) as (l3 & -> & L3 & P3). eexists. split; [reflexivity|]. cbn [ol_current ol_candidate ol_best].
  assert (F : (first_drawn iters k <= iters)%nat) by (unfold first_drawn; destruct (0 <=? k); lia).
  split; [intros l [<-|[<-|[<-|[]]]]; lia|]. intros i x Hx. cbv zeta. rewrite <- LO, Nat2Z.id in *.
  assert (Hi : (first_drawn iters k + i < iters)%nat) by (rewrite E1 at 2; apply nth_error_Some; congruence).
  assert (G : forall f : datum -> Z, nth (first_drawn iters k + i) (map f data) 0 = f (collect feas pcost x)).
  { intros f. apply nth_error_nth. rewrite E2, !nth_error_map, Hx. reflexivity. }
  rewrite P1, P2, P3 by exact Hi. rewrite !G. cbn [dt_curr dt_cand dt_best collect].
  replace (Z.of_nat (first_drawn iters k) + Z.of_nat i + 1) with (1 + Z.of_nat (first_drawn iters k + i)) by lia. auto.
Qed.
Print Assumptions C72_objectives.

(** Of a run that did not collect statistics neither plot can be made, unless all iterations are left out. *)
Theorem C72_not_collected : forall (S E W : Type) (feas : S -> bool) (cost pcost : E -> S -> Z) (cost_evaluator : W -> E)
    search register stop history noimp exh (init : S) w0 best data iters trace skip, (0 < history)%nat ->
  returns feas cost pcost cost_evaluator search register stop history noimp exh false init w0 best data iters trace ->
  Z.of_nat iters <= 2 ^ 50 ->
  (left_out iters skip < Z.of_nat iters -> plot_objectives iters data skip = Err InvalidArgument) /\
  (left_out iters skip = Z.of_nat iters -> plot_objectives iters data skip = Ok (mk_objective_lines [] [] [])) /\
  forall T, (0 < iters)%nat -> plot_runtimes iters (@nil T) = Err InvalidArgument.
Proof.
  intros S E W feas cost pcost ce search register stop history noimp exh init w0 best data iters trace skip HL Hr Hb.
  destruct (C29_bookkeeping _ _ _ _ _ _ _ _ _ _ _ _ _ _ _ _ _ _ _ _ HL Hr) as (_ & _ & E2 & _). cbv iota in E2. subst data.
  pose proof (left_out_first iters skip Hb) as LO. unfold plot_objectives. set (k := match skip with Some k => k | None => default_skip iters end) in *.
  cbn [map]. assert (N : slice_from k (@nil Z) = []) by (unfold slice_from; destruct (0 <=? k); apply skipn_nil). rewrite N.
  assert (X : length (slice_from k (iteration_axis iters)) = (iters - first_drawn iters k)%nat) by (rewrite slice_skipn, skipn_length, axis_length; reflexivity).
  assert (F : (first_drawn iters k <= iters)%nat) by (unfold first_drawn; destruct (0 <=? k); lia).
  split; [|split].
  - intros H. unfold draw. rewrite X. cbn [length]. destruct (Nat.eqb_spec (iters - first_drawn iters k) 0); [lia|reflexivity].
  - intros H. assert (X0 : slice_from k (iteration_axis iters) = []) by (apply length_zero_iff_nil; lia). rewrite X0. reflexivity.
  - intros T H. unfold plot_runtimes, draw. rewrite axis_length. cbn [length]. destruct (Nat.eqb_spec iters 0); [lia|reflexivity].
Qed.
Print Assumptions C72_not_collected.
(** That concerns every run of at least one iteration, if nothing is said about iterations to leave out. *)
Theorem C72_default_raises : forall iters, (0 < iters)%nat -> Z.of_nat iters <= 2 ^ 50 ->
  plot_objectives iters [] None = Err InvalidArgument /\ plot_runtimes iters (@nil Z) = Err InvalidArgument.
Proof.
  intros iters H Hb. pose proof (left_out_first iters None Hb) as LO. cbn [left_out] in LO. unfold plot_objectives, plot_runtimes, draw. cbn [map].
  assert (N : slice_from (default_skip iters) (@nil Z) = []) by (unfold slice_from; destruct (0 <=? _); apply skipn_nil). rewrite N.
  rewrite slice_skipn, skipn_length, !axis_length. cbn [length].
  assert (A : Z.of_nat iters / 20 < Z.of_nat iters) by (apply Z.div_lt; lia).
  destruct (Nat.eqb_spec (iters - first_drawn iters (default_skip iters)) 0); [lia|]. destruct (Nat.eqb_spec iters 0); [lia|]. split; reflexivity.
Qed.
Print Assumptions C72_default_raises.

(** The plot of run times has a point for each iteration. *)
Theorem C72_runtimes : forall (T : Type) iters (runtimes : list T), length runtimes = iters ->
  exists l, plot_runtimes iters runtimes = Ok l /\ length l = iters /\
  forall i t, nth_error runtimes i = Some t -> nth_error l i = Some (Z.of_nat i + 1, t).
Proof.
  intros T iters [|dft rs] H.
  - subst iters. exists []. split; [reflexivity|]. split; [reflexivity|]. intros [|i] t Hi; discriminate.
  - destruct (draw_line iters (dft :: rs) dft 0 H) as (l & D & L & P). exists l.
    assert (F : first_drawn iters 0 = 0%nat) by (unfold first_drawn; cbn; apply Nat.min_0_r). rewrite F in *. rewrite Nat.sub_0_r in L.
    split; [exact D|]. split; [exact L|]. intros i t Hi. assert (Hlt : (i < length (dft :: rs))%nat) by (apply nth_error_Some; congruence).
    rewrite (P i) by lia. rewrite Nat.add_0_l, (nth_error_nth _ _ dft Hi). f_equal. f_equal. lia.
Qed.
Print Assumptions C72_runtimes.

(** The bars of demands: the delivered amounts of all clients, in increasing order. *)
Theorem C72_demands : forall d dim,
  ((p_numLoadDimensions d <= dim)%nat -> plot_demands d dim = Err InvalidArgument) /\
  ((dim < p_numLoadDimensions d)%nat -> exists bars, plot_demands d dim = Ok bars /\ Sorted Z.le bars /\
     Permutation (map (fun c => nth dim (c_delivery c) 0) (p_clients d)) bars).
Proof.
  intros d dim. unfold plot_demands. destruct (Nat.leb_spec (p_numLoadDimensions d) dim) as [H|H]; (split; [intros H'|intros H']); try lia; [reflexivity|].
  eexists. split; [reflexivity|].
  destruct (sort_by_spec Z.leb ltac:(intros x y Hxy; apply Z.leb_gt in Hxy; apply Z.leb_le; lia) (map (fun c => dimv (c_delivery c) dim) (p_clients d))) as [P S].
  split; [|exact P]. clear - S. induction S as [|x l S IH H]; constructor; [exact IH|]. destruct H as [|y l H]; constructor. apply Z.leb_le, H.
Qed.
Print Assumptions C72_demands.

(** The bars of time windows go from opening to closing, for all clients, in the order of opening, then closing. *)
Theorem C72_windows : forall d, p_clients d <> [] ->
  exists bars, plot_time_windows d = Ok bars /\
  let ends := map (fun b => (fst b, fst b + snd b)) bars in
  Permutation (map (fun c => (c_early c, c_late c)) (p_clients d)) ends /\
  Sorted (fun a b => fst a < fst b \/ (fst a = fst b /\ snd a <= snd b)) ends.
Proof.
  intros d H. unfold plot_time_windows. destruct (p_clients d) as [|c cs]; [contradiction|]. eexists. split; [reflexivity|]. cbv zeta.
  destruct (sort_by_spec window_le window_total (map (fun c => (c_early c, c_late c)) (c :: cs))) as [P S]. set (ws := sort_by _ _) in *. clearbody ws.
  rewrite map_map. rewrite (map_ext _ (fun w : Z * Z => w)) by (intros [a b]; cbn; f_equal; lia). rewrite map_id. split; [exact P|].
  clear - S. induction S as [|x l S IH H]; constructor; [exact IH|]. destruct H as [|y l H]; constructor. unfold window_le in H.
  apply Bool.orb_true_iff in H as [H|H]; [left; apply Z.ltb_lt, H|right]. apply Bool.andb_true_iff in H as [A B]. split; [apply Z.eqb_eq, A|apply Z.leb_le, B].
Qed.
Print Assumptions C72_windows.

(** Data without clients (only shipments, say) are accepted, but their time windows cannot be plotted: IndexError. *)
Theorem C72_no_clients_refuted : exists d, make_pdata (p_locations d) (p_clients d) (p_depots d) (p_vehicles d) (p_dists d) (p_durs d) (p_groups d) (p_shipments d) = Ok d /\
  p_numShipments d = 1%nat /\ plot_time_windows d = Err OutOfRange.
Proof.
  exists (mk_pdata [mk_location 0 0 EmptyString; mk_location 1 1 EmptyString] [] [mk_depot 0 0 MAXV 0 EmptyString]
    [mk_vehicle 1 0 0 [10] 0 MAXV MAXV MAXV 0 1 0 0 MAXV [0] [] SIZE_MAX 0 0 MAXV EmptyString]
    [mk_matrix 2 2 [0; 1; 1; 0]] [mk_matrix 2 2 [0; 1; 1; 0]] []
    [mk_shipment (mk_step 1 0 MAXV 0) (mk_step 0 0 MAXV 0) [1] 0 true EmptyString]).
  split; [vm_compute; reflexivity|]. split; reflexivity.
Qed.
Print Assumptions C72_no_clients_refuted.

(** The run of C28_case; and the plots of the sample data. *)
Example C72_case : exists data trace lines,
  returns so_isFeasible solution_cost solution_penalised (fun _ => ex_ev) ex_search (fun w _ => w) ex_stop 2 1 true true
    ex_s1 0%nat ex_s2 data 6 trace /\ plot_objectives 6 data (Some 2) = Ok lines /\ map fst (ol_best lines) = [3; 4; 5; 6].
Proof.
  do 3 eexists. split; [|split].
  - do 2 eexists. split; [ex_steps 6%nat|]. split; [vm_compute; reflexivity|]. repeat split; vm_compute; reflexivity.
  - vm_compute. reflexivity.
  - reflexivity.
Qed.
Example C72_case_not_collected : exists trace,
  returns so_isFeasible solution_cost solution_penalised (fun _ => ex_ev) ex_search (fun w _ => w) ex_stop 2 1 true false
    ex_s1 0%nat ex_s2 [] 6 trace /\ plot_objectives 6 [] (Some 2) = Err InvalidArgument.
Proof.
  eexists. split; [|vm_compute; reflexivity].
  do 2 eexists. split; [ex_steps 6%nat|]. split; [vm_compute; reflexivity|]. repeat split; vm_compute; reflexivity.
Qed.
Example C72_case_data : plot_demands sample 0 = Ok (sort_by Z.leb (map (fun c => nth 0 (c_delivery c) 0) (p_clients sample))) /\
  plot_demands sample 2 = Err InvalidArgument /\ (exists bars, plot_time_windows sample = Ok bars /\ length bars = 4%nat).
Proof. split; [reflexivity|]. split; [reflexivity|]. eexists. split; reflexivity. Qed.
(** tests/plotting/test_plotting.py:133-151 *)
Example test_plot_demands_raises_for_out_of_bounds_load_dimension :
  match make_pdata [mk_location 0 0 EmptyString] [] [mk_depot 0 0 MAXV 0 EmptyString] [mk_vehicle 1 0 0 [] 0 MAXV MAXV MAXV 0 1 0 0 MAXV [] [] SIZE_MAX 0 0 MAXV EmptyString]
    [mk_matrix 1 1 [0]] [mk_matrix 1 1 [0]] [] [] with
  | Ok d => p_numLoadDimensions d = 0%nat /\ plot_demands d 0 = Err InvalidArgument
  | Err _ => False
  end.
Proof. vm_compute. split; reflexivity. Qed.
