(** Model of pyvrp/cpp/RandomNumberGenerator.{h,cpp}: xorshift128 on unsigned 32-bit integers,
    which are [Z] below [2^32] here. *)
From Coq Require Import Permutation Znumtheory.
From Verif Require Import Base Data.

Definition W32 : Z := 4294967296.
(** RandomNumberGenerator.h:68: the state. *)
Record rng := mk_rng { rs0 : Z; rs1 : Z; rs2 : Z; rs3 : Z }.
Definition word (x : Z) : Prop := 0 <= x < W32.
Definition rng_ok (r : rng) : Prop := word (rs0 r) /\ word (rs1 r) /\ word (rs2 r) /\ word (rs3 r).

(** RandomNumberGenerator.cpp:5-13 *)
Definition rng_seed (seed : Z) : rng := mk_rng seed 123456789 362436069 521288629.
Definition rng_restore (state : Z * Z * Z * Z) : rng :=
  let '(a, b, c, d) := state in mk_rng a b c d.
(** RandomNumberGenerator.cpp:33-36 *)
Definition rng_state (r : rng) : Z * Z * Z * Z := (rs0 r, rs1 r, rs2 r, rs3 r).

Definition shl32 (x k : Z) : Z := Z.shiftl x k mod W32.

(** RandomNumberGenerator.cpp:15-31 *)
Definition rng_next (r : rng) : rng * Z :=
  let t := rs3 r in
  let s := rs0 r in
  let t := Z.lxor t (shl32 t 11) in
  let t := Z.lxor t (Z.shiftr t 8) in
  let new := Z.lxor (Z.lxor t s) (Z.shiftr s 19) in
  (mk_rng new s (rs1 r) (rs2 r), new).

(** RandomNumberGenerator.h:94-99; [high = 0] is a division by zero in the code. *)
Definition rng_int (r : rng) (high : Z) : rng * Z :=
  let '(r, x) := rng_next r in (r, x mod high).

Definition swap_at {A} (l : list A) (i j : nat) : list A :=
  match nth_error l i, nth_error l j with
  | Some x, Some y => upd (upd l i y) j x
  | _, _ => l
  end.

(** RandomNumberGenerator.h:101-107 *)
Fixpoint shuffle_loop {A} (r : rng) (l : list A) (idx : nat) : rng * list A :=
  match idx with
  | O => (r, l)
  | S idx' =>
      let '(r, j) := rng_int r (Z.of_nat idx + 1) in
      shuffle_loop r (swap_at l idx (Z.to_nat j)) idx'
  end.
Definition rng_shuffle {A} (r : rng) (l : list A) : rng * list A :=
  shuffle_loop r l (length l - 1).

(** ** Facts *)
Lemma word_lxor a b : word a -> word b -> word (Z.lxor a b).
Proof.
  unfold word. intros [Ha Ha'] [Hb Hb']. split; [apply Z.lxor_nonneg; lia|].
  assert (H0 : 0 <= Z.lxor a b) by (apply Z.lxor_nonneg; lia).
  destruct (Z.eq_dec (Z.lxor a b) 0) as [->|Hne]; [reflexivity|].
  change W32 with (2 ^ 32). apply Z.log2_lt_pow2; [lia|].
  eapply Z.le_lt_trans; [apply Z.log2_lxor; assumption|].
  change W32 with (2 ^ 32) in *.
  destruct (Z.eq_dec a 0) as [->|]; destruct (Z.eq_dec b 0) as [->|]; cbn in Hne; try congruence.
  - rewrite Z.max_r by (apply Z.log2_nonneg). apply Z.log2_lt_pow2; lia.
  - rewrite Z.max_l by (apply Z.log2_nonneg). apply Z.log2_lt_pow2; lia.
  - apply Z.max_lub_lt; apply Z.log2_lt_pow2; lia.
Qed.
Lemma word_shr a k : 0 <= k -> word a -> word (Z.shiftr a k).
Proof.
  unfold word. intros Hk [H0 H1]. rewrite Z.shiftr_div_pow2 by lia.
  assert (0 < 2 ^ k) by (apply Z.pow_pos_nonneg; lia).
  split; [apply Z.div_pos; lia|]. apply Z.le_lt_trans with a; [|exact H1].
  apply Z.div_le_upper_bound; nia.
Qed.
Lemma word_shl a k : word (shl32 a k).
Proof. unfold shl32, word. apply Z.mod_pos_bound. reflexivity. Qed.

Theorem rng_next_ok r : rng_ok r -> rng_ok (fst (rng_next r)) /\ word (snd (rng_next r)).
Proof.
  intros (H0 & H1 & H2 & H3). unfold rng_next. cbn [fst snd].
  assert (word (Z.lxor (Z.lxor (Z.lxor (Z.lxor (rs3 r) (shl32 (rs3 r) 11))
     (Z.shiftr (Z.lxor (rs3 r) (shl32 (rs3 r) 11)) 8)) (rs0 r)) (Z.shiftr (rs0 r) 19))).
  { repeat apply word_lxor; try apply word_shr; try lia; try assumption; try apply word_shl.
    all: apply word_lxor; [assumption|apply word_shl]. }
  split; [|assumption]. repeat split; cbn; try apply H0; try apply H1; try apply H2; apply H.
Qed.

(** Linearity of the shifts, and injectivity of [t ^ (t << 11)] and [t ^ (t >> 8)]. *)
Lemma shl32_bits a k i : 0 <= k -> 0 <= i ->
  Z.testbit (shl32 a k) i = (i <? 32) && Z.testbit a (i - k).
Proof.
  intros Hk Hi. unfold shl32. change W32 with (2 ^ 32).
  destruct (Z.ltb_spec i 32).
  - rewrite Z.mod_pow2_bits_low by lia. rewrite Z.shiftl_spec by lia. reflexivity.
  - rewrite Z.mod_pow2_bits_high by lia. reflexivity.
Qed.
Lemma shl32_lxor a b k : 0 <= k -> shl32 (Z.lxor a b) k = Z.lxor (shl32 a k) (shl32 b k).
Proof.
  intros Hk. apply Z.bits_inj'. intros i Hi. rewrite Z.lxor_spec, !shl32_bits by lia.
  rewrite Z.lxor_spec. destruct (i <? 32); reflexivity.
Qed.

Lemma xor_eq_zero a b : Z.lxor a b = 0 -> a = b.
Proof. apply Z.lxor_eq. Qed.
Lemma xor_shuffle a b c e : Z.lxor a b = Z.lxor c e -> Z.lxor (Z.lxor a c) (Z.lxor b e) = 0.
Proof.
  intros H. apply Z.bits_inj'. intros i Hi. rewrite !Z.lxor_spec, Z.bits_0.
  assert (Hb : Z.testbit (Z.lxor a b) i = Z.testbit (Z.lxor c e) i) by (rewrite H; reflexivity).
  rewrite !Z.lxor_spec in Hb.
  destruct (Z.testbit a i), (Z.testbit b i), (Z.testbit c i), (Z.testbit e i); cbn in *; congruence.
Qed.

Lemma left_zero t : word t -> t = shl32 t 11 -> t = 0.
Proof.
  intros [H0 H1] H. unfold shl32 in H. rewrite Z.shiftl_mul_pow2 in H by lia.
  change (2 ^ 11) with 2048 in H.
  assert (Hd : (W32 | 2047 * t)).
  { exists (t * 2048 / W32). pose proof (Z.div_mod (t * 2048) W32 ltac:(discriminate)). lia. }
  apply Gauss in Hd.
  - destruct Hd as [q Hq]. unfold W32 in *. assert (q = 0) by lia. lia.
  - apply Zgcd_1_rel_prime. reflexivity.
Qed.
Lemma left_inj a b : word a -> word b ->
  Z.lxor a (shl32 a 11) = Z.lxor b (shl32 b 11) -> a = b.
Proof.
  intros Ha Hb H. apply xor_shuffle in H. rewrite <- shl32_lxor in H by lia.
  apply xor_eq_zero in H. apply xor_eq_zero. apply left_zero; [apply word_lxor; assumption|exact H].
Qed.
Lemma right_inj a b k : 0 < k -> 0 <= a -> 0 <= b ->
  Z.lxor a (Z.shiftr a k) = Z.lxor b (Z.shiftr b k) -> a = b.
Proof.
  intros Hk Ha Hb H. apply xor_shuffle in H. rewrite <- Z.shiftr_lxor in H.
  apply xor_eq_zero in H. apply xor_eq_zero.
  assert (H0 : 0 <= Z.lxor a b) by (apply Z.lxor_nonneg; lia).
  rewrite Z.shiftr_div_pow2 in H by lia.
  assert (1 < 2 ^ k) by (apply Z.pow_gt_1; lia).
  destruct (Z.eq_dec (Z.lxor a b) 0) as [|Hne]; [assumption|exfalso].
  assert (Z.lxor a b / 2 ^ k < Z.lxor a b) by (apply Z.div_lt; lia). lia.
Qed.

(** Stepping is injective: different states never run into the same state. *)
Theorem rng_next_inj r r' : rng_ok r -> rng_ok r' -> fst (rng_next r) = fst (rng_next r') -> r = r'.
Proof.
  intros (A0 & A1 & A2 & A3) (B0 & B1 & B2 & B3). unfold rng_next. cbn [fst].
  intros H. injection H as H3 H0 H1 H2. rewrite H0 in H3.
  assert (G : forall x y z, Z.lxor x z = Z.lxor y z -> x = y).
  { intros x y z E. apply xor_shuffle in E. rewrite Z.lxor_nilpotent, Z.lxor_0_r in E.
    apply xor_eq_zero. exact E. }
  apply G, G in H3.
  assert (N : forall x, word x -> 0 <= Z.lxor x (shl32 x 11)) by (intros x Hx; apply (word_lxor _ _ Hx (word_shl x 11))).
  apply right_inj in H3; [|lia|apply N; assumption|apply N; assumption].
  apply left_inj in H3; [|assumption|assumption].
  destruct r, r'; cbn in *. congruence.
Qed.

Definition rng_zero : rng := mk_rng 0 0 0 0.
Theorem rng_never_zero r : rng_ok r -> r <> rng_zero -> fst (rng_next r) <> rng_zero.
Proof.
  intros Hok Hne H. apply Hne. apply rng_next_inj; [exact Hok| |].
  - repeat split; cbn; reflexivity || lia.
  - rewrite H. reflexivity.
Qed.

Fixpoint rng_steps (r : rng) (n : nat) : rng :=
  match n with O => r | S n' => rng_steps (fst (rng_next r)) n' end.
Fixpoint rng_draws (r : rng) (n : nat) : list Z :=
  match n with O => [] | S n' => let '(r, x) := rng_next r in x :: rng_draws r n' end.

Theorem rng_from_seed seed n : word seed ->
  rng_ok (rng_steps (rng_seed seed) n) /\ rng_steps (rng_seed seed) n <> rng_zero /\
  Forall word (rng_draws (rng_seed seed) n).
Proof.
  intros Hs.
  assert (G : forall n r, rng_ok r -> r <> rng_zero ->
     rng_ok (rng_steps r n) /\ rng_steps r n <> rng_zero /\ Forall word (rng_draws r n)).
  { clear. induction n as [|n IH]; intros r Hok Hne; [cbn; auto|]. cbn [rng_steps rng_draws].
    pose proof (rng_next_ok r Hok) as [H1 H2]. pose proof (rng_never_zero r Hok Hne) as H3.
    destruct (rng_next r) as [r' x]. cbn [fst snd] in *.
    destruct (IH r' H1 H3) as (I1 & I2 & I3). auto. }
  apply G; [|discriminate]. repeat split; cbn; apply Hs || lia || reflexivity.
Qed.

(** Restoring a saved state resumes the sequence. *)
Theorem rng_resume r n m :
  rng_draws r (n + m) = rng_draws r n ++ rng_draws (rng_restore (rng_state (rng_steps r n))) m.
Proof.
  revert r. induction n as [|n IH]; intros r.
  - cbn. destruct r; reflexivity.
  - cbn [Nat.add rng_draws rng_steps]. destruct (rng_next r) as [r' x]. cbn [fst]. rewrite IH. reflexivity.
Qed.

Theorem rng_int_range r high : 0 < high -> 0 <= snd (rng_int r high) < high.
Proof. intros H. unfold rng_int. destruct (rng_next r). cbn. apply Z.mod_pos_bound. exact H. Qed.

(** ** Shuffling *)
Lemma upd_length {A} (l : list A) i x : length (upd l i x) = length l.
Proof. revert i. induction l as [|y l IH]; intros [|i]; cbn; auto. Qed.
Lemma upd_nth_error {A} (l : list A) i j x : (i < length l)%nat ->
  nth_error (upd l i x) j = if Nat.eqb i j then Some x else nth_error l j.
Proof.
  revert i j. induction l as [|y l IH]; intros [|i] [|j] Hi; cbn in *; try lia; try reflexivity.
  apply IH. lia.
Qed.

Lemma swap_length {A} (l : list A) i j : length (swap_at l i j) = length l.
Proof.
  unfold swap_at. destruct (nth_error l i); [|reflexivity]. destruct (nth_error l j); [|reflexivity].
  rewrite !upd_length. reflexivity.
Qed.
Lemma swap_perm {A} (l : list A) i j : Permutation l (swap_at l i j).
Proof.
  unfold swap_at. destruct (nth_error l i) as [x|] eqn:Ei; [|reflexivity].
  destruct (nth_error l j) as [y|] eqn:Ej; [|reflexivity].
  assert (Hi : (i < length l)%nat) by (apply nth_error_Some; congruence).
  assert (Hj : (j < length l)%nat) by (apply nth_error_Some; congruence).
  apply Permutation_nth_error. split; [rewrite !upd_length; reflexivity|].
  exists (fun n => if Nat.eqb n i then j else if Nat.eqb n j then i else n). split.
  - intros a b. destruct (Nat.eqb_spec a i), (Nat.eqb_spec a j), (Nat.eqb_spec b i), (Nat.eqb_spec b j); lia.
  - intros n. rewrite upd_nth_error by (rewrite upd_length; lia). rewrite upd_nth_error by lia.
    destruct (Nat.eqb_spec j n), (Nat.eqb_spec i n), (Nat.eqb_spec n i), (Nat.eqb_spec n j); try lia; congruence.
Qed.

(** Shuffling permutes. *)
Theorem rng_shuffle_perm {A} r (l : list A) : Permutation l (snd (rng_shuffle r l)).
Proof.
  unfold rng_shuffle. generalize (length l - 1)%nat as idx. intros idx. revert r l.
  induction idx as [|idx IH]; intros r l; [reflexivity|].
  cbn [shuffle_loop]. destruct (rng_int r _) as [r' j].
  etransitivity; [apply swap_perm|apply IH].
Qed.
