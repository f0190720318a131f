(** C59: the rounding functions of read() give the integers that exact arithmetic gives. *)
From Coq Require Import ZArith Lia List String Reals Lra.
From Flocq Require Import Core.
From Verif Require Import Base Data Read ReadFacts ReadSpec ReadData ReadVeh ReadMat ReadOk PRead Rounding.
Import ListNotations.
Local Open Scope Z_scope.

(** ** Numbers written with decimals.  [decimal m j] is the number with digits [m], [j] of them after the
    point, and [fl] the nearest binary64 number, which is what the file's text is read as. *)
Theorem C59_trunc : forall m j, Z.abs m <= 2 ^ 52 -> (j <= 200)%nat -> round_trunc (fl (decimal m j)) = Z.quot m (10 ^ Z.of_nat j).
Proof. exact decimal_trunc. Qed.
Print Assumptions C59_trunc.
Theorem C59_round : forall m j, Z.abs m <= 2 ^ 51 -> (j <= 200)%nat -> round_nearest (fl (decimal m j)) = ZnearestE (decimal m j).
Proof. exact decimal_round. Qed.
Print Assumptions C59_round.
Theorem C59_dimacs : forall m j, Z.abs m <= 2 ^ 48 -> (j <= 200)%nat -> round_dimacs (fl (decimal m j)) = Z.quot (10 * m) (10 ^ Z.of_nat j).
Proof. exact decimal_dimacs. Qed.
Print Assumptions C59_dimacs.
(** The nearest integer to a thousand times the number; with at most three decimals there is no rounding. *)
Theorem C59_exact : forall m j, Z.abs m <= 2 ^ 40 -> (j <= 200)%nat ->
  2 * Z.abs (1000 * m - round_exact (fl (decimal m j)) * 10 ^ Z.of_nat j) <= 10 ^ Z.of_nat j /\
  ((j <= 3)%nat -> round_exact (fl (decimal m j)) = m * 10 ^ (3 - Z.of_nat j)).
Proof.
  intros m j Hm Hj. pose proof (decimal_exact m j Hm Hj) as H. split; [exact H|]. intros J.
  set (r := round_exact (fl (decimal m j))) in *. clearbody r. clear Hm Hj.
  destruct j as [|[|[|[|j]]]]; [| | | |lia].
  - change (10 ^ Z.of_nat 0) with 1 in H. change (10 ^ (3 - Z.of_nat 0)) with 1000. lia.
  - change (10 ^ Z.of_nat 1) with 10 in H. change (10 ^ (3 - Z.of_nat 1)) with 100. lia.
  - change (10 ^ Z.of_nat 2) with 100 in H. change (10 ^ (3 - Z.of_nat 2)) with 10. lia.
  - change (10 ^ Z.of_nat 3) with 1000 in H. change (10 ^ (3 - Z.of_nat 3)) with 1. lia.
Qed.
Print Assumptions C59_exact.

(** ** Euclidean distances: the square root of the squared distance [D], an integer, rounded to binary64. *)
Theorem C59_euclid : forall D, 0 <= D ->
  (D <= 2 ^ 50 -> round_trunc (euclid D) = Zfloor (sqrt (IZR D))) /\
  (D <= 2 ^ 48 -> round_nearest (euclid D) = ZnearestE (sqrt (IZR D))) /\
  (100 * D <= 2 ^ 50 -> round_dimacs (euclid D) = Zfloor (10 * sqrt (IZR D))) /\
  (1000000 * D <= 2 ^ 48 -> round_exact (euclid D) = ZnearestE (1000 * sqrt (IZR D))).
Proof.
  intros D HD. repeat split; intros H.
  - rewrite floor_sqrt by exact HD. apply euclid_trunc; lia.
  - rewrite near_sqrt by exact HD. apply euclid_round; lia.
  - change 10%R with (IZR 10). rewrite scaled_root by lia. replace (10 * 10 * D) with (100 * D) by ring. rewrite floor_sqrt by lia. apply euclid_dimacs; lia.
  - change 1000%R with (IZR 1000). rewrite scaled_root by lia. rewrite near_sqrt by lia. replace (4 * (1000 * 1000 * D)) with (4000000 * D) by ring. apply euclid_exact; lia.
Qed.
Print Assumptions C59_euclid.

(** Not so for large distances: D = 94906265^2 - 1, below 2^53. *)
Theorem C59_euclid_refuted : exists D, 0 <= D < 2 ^ 53 /\ round_trunc (euclid D) <> Zfloor (sqrt (IZR D)).
Proof.
  exists (94906265 * 94906265 - 1). split; [lia|]. rewrite large_root. rewrite floor_sqrt by lia. vm_compute. discriminate.
Qed.
Print Assumptions C59_euclid_refuted.

(** ** The distances of the data, when the file has locations with integer coordinates and Euclidean
    distances between them. *)
Definition squared (pos : nat -> Z * Z) (i j : nat) : Z :=
  (fst (pos i) - fst (pos j)) * (fst (pos i) - fst (pos j)) + (snd (pos i) - snd (pos j)) * (snd (pos i) - snd (pos j)).
Definition euclidean (inst : instance R) (pos : nat -> Z * Z) : Prop :=
  let '(_, cols, l) := in_edge inst in
  forall i j, (i < in_dimension inst)%nat -> (j < in_dimension inst)%nat -> nth_error l (cols * i + j) = Some (euclid (squared pos i j)).
Lemma squared_nonneg pos i j : 0 <= squared pos i j.
Proof. unfold squared. apply Z.add_nonneg_nonneg; apply Z.square_nonneg. Qed.
Lemma edge_entry rf inst pos i j : euclidean inst pos -> (i < in_dimension inst)%nat -> (j < in_dimension inst)%nat ->
  file_edge R rf inst i j = rf (euclid (squared pos i j)).
Proof.
  unfold euclidean, file_edge. destruct (in_edge inst) as [[rows cols] l]. intros H Hi Hj.
  apply nth_error_nth. rewrite nth_error_map, (H i j Hi Hj). reflexivity.
Qed.
Theorem C59_distances : forall rf (inst : instance R) d pos v t i j, read R 0%R rf inst = Ok d -> euclidean inst pos ->
  file_sized R inst -> allowed_proper R inst -> belongs d v t -> (i < in_dimension inst)%nat -> (j < in_dimension inst)%nat -> i <> j ->
  may_visit R inst v i -> may_visit R inst v j -> ~ backward R rf inst i j ->
  let dist := p_dist d (v_profile (p_vehicle d t)) i j in let D := squared pos i j in
  (rf = round_trunc -> D <= 2 ^ 50 -> dist * dist <= D < (dist + 1) * (dist + 1)) /\
  (rf = round_nearest -> D <= 2 ^ 48 -> (D = 0 /\ dist = 0) \/ (2 * dist - 1) * (2 * dist - 1) < 4 * D < (2 * dist + 1) * (2 * dist + 1)) /\
  (rf = round_dimacs -> 100 * D <= 2 ^ 50 -> dist * dist <= 100 * D < (dist + 1) * (dist + 1)) /\
  (rf = round_exact -> 1000000 * D <= 2 ^ 48 -> (D = 0 /\ dist = 0) \/ (2 * dist - 1) * (2 * dist - 1) < 4000000 * D < (2 * dist + 1) * (2 * dist + 1)).
Proof.
  intros rf inst d pos v t i j Hr He Hs Ha Hb Hi Hj Ne Vi Vj Nb dist D.
  destruct (C51_matrices R 0%R rf inst d v t Hr Hs Ha Hb) as [_ M]. destruct (M i j Hi Hj) as (_ & _ & M1 & _). specialize (M1 Ne Vi Vj Nb).
  fold dist in M1. rewrite (edge_entry rf inst pos i j He Hi Hj) in M1. pose proof (squared_nonneg pos i j) as P. fold D in M1, P.
  clearbody dist D. rewrite M1. clear - P. split; [|split; [|split]]; intros -> H.
  - rewrite euclid_trunc by lia. pose proof (Z.sqrt_spec D P) as A. rewrite Z.add_1_r. exact A.
  - rewrite euclid_round by lia. exact (half_root D P).
  - rewrite euclid_dimacs by lia. pose proof (Z.sqrt_spec (100 * D) ltac:(lia)) as A. rewrite Z.add_1_r. exact A.
  - rewrite euclid_exact by lia. replace (4000000 * D) with (4 * (1000000 * D)) by ring. destruct (half_root (1000000 * D) ltac:(lia)) as [[A B]|A]; [left; split; [lia|exact B]|right; exact A].
Qed.
Print Assumptions C59_distances.

(** ** Cases *)
Example C59_decimals : round_dimacs (fl (decimal 7 1)) = 7 /\ round_dimacs (fl (decimal (-1299) 2)) = -129 /\ round_trunc (fl (decimal 1299 2)) = 12 /\
  round_exact (fl (decimal 29 2)) = 290.
Proof.
  split; [rewrite C59_dimacs by lia; reflexivity|]. split; [rewrite C59_dimacs by lia; reflexivity|]. split; [rewrite C59_trunc by lia; reflexivity|].
  rewrite (proj2 (C59_exact 29 2 ltac:(lia) ltac:(lia))) by lia. reflexivity.
Qed.
(** A depot at (0, 0) and a client at (1, 1). *)
Definition two_points (i : nat) : Z * Z := match i with 0%nat => (0, 0) | _ => (1, 1) end.
Definition two_file : instance R :=
  mk_instance "CVRP" 2 None (Some 1%nat) (2%nat, 2%nat, [euclid 0; euclid 2; euclid 2; euclid 0])
    None None None None None None None None None None None None None None None None None None None.
Lemma zero_rounds : round_dimacs 0 = 0.
Proof. unfold round_dimacs. rewrite Rmult_0_r, fl_0. apply (Ztrunc_IZR 0). Qed.
Example C59_distances_case : exists d, read R 0%R round_dimacs two_file = Ok d /\ euclidean two_file two_points /\ file_sized R two_file /\
  allowed_proper R two_file /\ exists t, belongs d 0 t /\ p_dist d (v_profile (p_vehicle d t)) 0 1 = 14.
Proof.
  destruct (C51_accepts R 0%R round_dimacs two_file) as [d Hd].
  { constructor.
    all: cbn; try tauto; try lia; try (intros; lia); try discriminate.
    - intros i Hi. destruct i as [|[|i]]; [| |lia]; cbn; rewrite euclid_dimacs by lia; reflexivity.
    - intros loc _. rewrite zero_rounds. unfold MAXV. lia.
    - intros loc _. unfold MAXV. lia.
    - intros v _. unfold MAXV, SIZE_MAX. repeat split; try lia. repeat constructor; lia.
    - constructor. }
  assert (E : euclidean two_file two_points).
  { intros i j Hi Hj. cbn in Hi, Hj. destruct i as [|[|i]], j as [|[|j]]; try lia; reflexivity. }
  destruct (C51_vehicles R 0%R round_dimacs two_file d Hd) as (_ & V & _). destruct (V 0%nat) as (t & Hb & _ & _); [cbn; lia|].
  exists d. split; [exact Hd|]. split; [exact E|]. split; [exact I|]. split; [exact I|]. exists t. split; [exact Hb|].
  destruct (C51_matrices R 0%R round_dimacs two_file d 0 t Hd I I Hb) as [_ M].
  destruct (M 0%nat 1%nat) as (_ & _ & M1 & _); [cbn; lia|cbn; lia|].
  rewrite M1; [|lia|left; cbn; lia|right; exact I|intros [B _]; discriminate B].
  rewrite (edge_entry _ _ two_points) by (try exact E; cbn; lia). rewrite euclid_dimacs by (cbn; lia). reflexivity.
Qed.
