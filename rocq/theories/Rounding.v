(** The rounding functions of read.py (lines 31-37) on binary64 numbers.  [np.round] rounds to the
    nearest integer and halves to even; [astype(np.int64)] drops the fraction. *)
From Coq Require Import ZArith Lia Reals Lra Psatz.
From Flocq Require Import Core Relative.
From Verif Require Import Base.
Local Open Scope R_scope.

Definition fl (x : R) : R := round radix2 (FLT_exp (-1074) 53) ZnearestE x.
(** read.py:32 *)
Definition round_nearest (v : R) : Z := ZnearestE v.
(** read.py:33 *)
Definition round_trunc (v : R) : Z := Ztrunc v.
(** read.py:34 *)
Definition round_dimacs (v : R) : Z := Ztrunc (fl (10 * v)).
(** read.py:35 *)
Definition round_exact (v : R) : Z := ZnearestE (fl (1000 * v)).

#[global] Instance flt_valid : Valid_exp (FLT_exp (-1074) 53).
Proof. apply FLT_exp_valid. reflexivity. Qed.

Lemma fl_format x : generic_format radix2 (FLT_exp (-1074) 53) (fl x).
Proof. apply generic_format_round; [apply flt_valid|apply valid_rnd_N]. Qed.
Lemma fl_float m e : (Z.abs m < 2 ^ 53)%Z -> (-1074 <= e)%Z -> fl (IZR m * bpow radix2 e) = IZR m * bpow radix2 e.
Proof.
  intros Hm He. apply round_generic; [apply valid_rnd_N|]. apply generic_format_FLT.
  exists (Float radix2 m e); [reflexivity|exact Hm|exact He].
Qed.
Lemma fl_int m : (Z.abs m < 2 ^ 53)%Z -> fl (IZR m) = IZR m.
Proof. intros Hm. rewrite <- (Rmult_1_r (IZR m)). apply (fl_float m 0 Hm). lia. Qed.
Lemma fl_0 : fl 0 = 0.
Proof. apply round_0. apply valid_rnd_N. Qed.
Lemma fl_le x y : x <= y -> fl x <= fl y.
Proof. apply round_le; [apply flt_valid|apply valid_rnd_N]. Qed.
Definition EPS := / 2 ^ 53.
Lemma eps_bpow : / 2 * bpow radix2 (-53 + 1) = EPS.
Proof. unfold EPS. change (bpow radix2 (-53 + 1)) with (/ 4503599627370496). lra. Qed.
Lemma fl_error x : x = 0 \/ / 2 ^ 1000 <= Rabs x -> Rabs (fl x - x) <= EPS * Rabs x.
Proof.
  intros [->|Hx].
  - rewrite fl_0, Rminus_0_r, Rabs_R0. lra.
  - rewrite <- eps_bpow. apply relative_error_N_FLT; [reflexivity|].
    apply Rle_trans with (2 := Hx). apply Rle_trans with (bpow radix2 (-1000)); [apply bpow_le; lia|].
    right. change (-1000)%Z with (Z.opp (Z.of_nat 1000)). rewrite bpow_opp. f_equal. rewrite (bpow_powerRZ radix2 (Z.of_nat 1000)).
    rewrite <- pow_powerRZ. reflexivity.
Qed.
Lemma eps_small : 0 < EPS < / 1000000.
Proof. unfold EPS. split; [apply Rinv_0_lt_compat; lra|]. apply Rinv_lt_contravar; lra. Qed.
Lemma tiny_order : 0 < / 2 ^ 1000 /\ 2 * / 2 ^ 1000 <= / 2 ^ 900.
Proof.
  assert (H : 2 ^ 1000 = 2 ^ 900 * 2 ^ 100) by (rewrite <- pow_add; reflexivity).
  assert (H9 : 0 < 2 ^ 900) by (apply pow_lt; lra). assert (H1 : 2 <= 2 ^ 100) by (apply Rle_trans with (2 ^ 1); [lra|apply Rle_pow; [lra|lia]]).
  rewrite H. generalize dependent (2 ^ 900). generalize dependent (2 ^ 100). intros b Hb a H Ha.
  split; [apply Rinv_0_lt_compat; nra|]. rewrite Rinv_mult. assert (0 < / a) by (apply Rinv_0_lt_compat; exact Ha).
  assert (/ b <= / 2) by (apply Rinv_le_contravar; lra). nra.
Qed.
Lemma scaled_error c y : 1 <= c -> y = 0 \/ / 2 ^ 900 <= Rabs y -> Rabs (fl (c * fl y) - c * y) <= 2001 / 1000 * EPS * (c * Rabs y).
Proof.
  intros Hc Hy. pose proof eps_small as [E0 E1]. pose proof tiny_order as [T0 T1].
  assert (Y : y = 0 \/ / 2 ^ 1000 <= Rabs y) by (destruct Hy as [Hy|Hy]; [left; exact Hy|right; lra]).
  pose proof (fl_error y Y) as H1. set (v := fl y) in *.
  assert (Hv : Rabs y * (1 - EPS) <= Rabs v <= Rabs y * (1 + EPS)).
  { assert (Hab := Rabs_triang_inv y v). assert (Hba := Rabs_triang_inv v y). rewrite (Rabs_minus_sym y v) in Hab. nra. }
  assert (V : c * v = 0 \/ / 2 ^ 1000 <= Rabs (c * v)).
  { destruct Hy as [Hy|Hy].
    - left. subst v. rewrite Hy, fl_0. ring.
    - right. rewrite Rabs_mult, (Rabs_pos_eq c) by lra. pose proof (Rabs_pos y). assert (/ 2 * Rabs y <= Rabs v) by nra. nra. }
  pose proof (fl_error (c * v) V) as H2. replace (fl (c * v) - c * y) with ((fl (c * v) - c * v) + c * (v - y)) by ring.
  eapply Rle_trans; [apply Rabs_triang|]. rewrite Rabs_mult in H2. rewrite Rabs_mult. rewrite (Rabs_pos_eq c) in * by lra.
  pose proof (Rabs_pos y) as P. assert (c * Rabs v <= c * (Rabs y * (1 + EPS))) by nra.
  assert (c * Rabs (v - y) <= c * (EPS * Rabs y)) by nra.
  assert (EPS * (c * Rabs v) <= EPS * (c * (Rabs y * (1 + EPS)))) by nra.
  assert (0 <= EPS * (c * Rabs y)) by (apply Rmult_le_pos; [lra|apply Rmult_le_pos; lra]).
  assert (EPS * (EPS * (c * Rabs y)) <= / 1000000 * (EPS * (c * Rabs y))) by (apply Rmult_le_compat_r; lra). nra.
Qed.

(** ** A tenth times ten (a theorem of Kahan's, for the divisor 10) *)
Lemma fl_at x e : bpow radix2 e <= x < bpow radix2 (e + 1) -> (-1000 <= e)%Z ->
  fl x = IZR (ZnearestE (x * bpow radix2 (- (e - 52)))) * bpow radix2 (e - 52).
Proof.
  intros Hx He. unfold fl, round, F2R, scaled_mantissa, cexp. cbn [Fnum Fexp].
  rewrite (mag_unique_pos radix2 x (e + 1)); [|replace (e + 1 - 1)%Z with e by lia; exact Hx].
  unfold FLT_exp. replace (Z.max (e + 1 - 53) (-1074)) with (e - 52)%Z by lia. reflexivity.
Qed.
Lemma nearest_half x n : Rabs (x - IZR n) <= / 2 -> Z.even n = true -> ZnearestE x = n.
Proof.
  intros Hx Hn. destruct (Rle_lt_or_eq_dec _ _ Hx) as [L|E]; [apply Znearest_imp; exact L|].
  unfold Rabs in E. destruct (Rcase_abs (x - IZR n)) as [Neg|Pos].
  - assert (X : x = IZR (n - 1) + / 2) by (rewrite minus_IZR; lra). rewrite X. unfold Znearest.
    assert (Fl : Zfloor (IZR (n - 1) + / 2) = (n - 1)%Z) by (apply Zfloor_imp; rewrite plus_IZR; lra).
    rewrite Fl. replace (IZR (n - 1) + / 2 - IZR (n - 1)) with (/ 2) by ring. rewrite Rcompare_Eq by reflexivity.
    replace (Z.even (n - 1)) with false by (rewrite Z.even_sub, Hn; reflexivity). cbn [negb].
    assert (C : Zceil (IZR (n - 1) + / 2) = n) by (apply Zceil_imp; rewrite !minus_IZR; lra). exact C.
  - assert (X : x = IZR n + / 2) by lra. rewrite X. unfold Znearest.
    assert (Fl : Zfloor (IZR n + / 2) = n) by (apply Zfloor_imp; rewrite plus_IZR; lra).
    rewrite Fl. replace (IZR n + / 2 - IZR n) with (/ 2) by ring. rewrite Rcompare_Eq by reflexivity. rewrite Hn. reflexivity.
Qed.
(** A number within half a unit of an integer below 2^52 rounds to it. *)
Lemma fl_near k s z : (bpow radix2 (s + 52) <= z < bpow radix2 (s + 53)) -> (-1000 <= s + 52)%Z -> (s < 0)%Z ->
  Rabs (z - IZR k) <= bpow radix2 (s - 1) -> fl z = IZR k.
Proof.
  intros Hz Hs Hn Hk. rewrite (fl_at z (s + 52)); [|replace (s + 52 + 1)%Z with (s + 53)%Z by lia; exact Hz|exact Hs].
  replace (s + 52 - 52)%Z with s by lia.
  assert (E : IZR k = IZR (k * 2 ^ (- s)) * bpow radix2 s).
  { rewrite mult_IZR. rewrite (IZR_Zpower radix2) by lia. rewrite Rmult_assoc, <- bpow_plus. replace (- s + s)%Z with 0%Z by lia. cbn. ring. }
  rewrite (nearest_half _ (k * 2 ^ (- s))); [symmetry; exact E| |].
  - assert (B : z * bpow radix2 (- s) - IZR (k * 2 ^ (- s)) = (z - IZR k) * bpow radix2 (- s)).
    { rewrite Rmult_minus_distr_r. f_equal. rewrite mult_IZR. rewrite (IZR_Zpower radix2) by lia. reflexivity. }
    rewrite B, Rabs_mult, (Rabs_pos_eq (bpow radix2 (- s))) by apply bpow_ge_0.
    apply Rle_trans with (bpow radix2 (s - 1) * bpow radix2 (- s)); [apply Rmult_le_compat_r; [apply bpow_ge_0|exact Hk]|].
    rewrite <- bpow_plus. replace (s - 1 + - s)%Z with (-1)%Z by lia. cbn. lra.
  - replace (- s)%Z with (Z.succ (- s - 1)) by lia. rewrite Z.pow_succ_r by lia. rewrite Z.even_mul, Z.even_mul. cbn. apply Bool.orb_true_r.
Qed.
Lemma tenth k : (0 < k < 2 ^ 52)%Z -> fl (10 * fl (IZR k / 10)) = IZR k.
Proof.
  intros Hk. set (e := Z.log2 k). assert (He : (2 ^ e <= k < 2 ^ (e + 1))%Z) by (rewrite Z.add_1_r; apply Z.log2_spec; lia).
  assert (E0 : (0 <= e)%Z) by apply Z.log2_nonneg.
  assert (E1 : (e < 52)%Z) by (apply Z.log2_lt_pow2; lia).
  assert (B0 : bpow radix2 e <= IZR k) by (rewrite <- (IZR_Zpower radix2 e E0); apply IZR_le; exact (proj1 He)).
  assert (B1 : IZR k <= bpow radix2 (e + 1) - 1) by (rewrite <- (IZR_Zpower radix2 (e + 1)) by lia; rewrite <- minus_IZR; apply IZR_le; change (radix_val radix2) with 2%Z; lia).
  assert (P1 : bpow radix2 (e + 1) = 2 * bpow radix2 e) by (rewrite bpow_plus; cbn; ring).
  (* the quotient, in units of 2^c *)
  assert (Q : forall c, bpow radix2 (c + 52) <= IZR k / 10 < bpow radix2 (c + 53) -> (-1000 <= c)%Z -> (c < 0)%Z ->
    Rabs (10 * fl (IZR k / 10) - IZR k) <= 4 * bpow radix2 c).
  { intros c Hc C0 C1. rewrite (fl_at (IZR k / 10) (c + 52)); [|replace (c + 52 + 1)%Z with (c + 53)%Z by lia; exact Hc|lia].
    replace (c + 52 - 52)%Z with c by lia. set (q := ZnearestE (IZR k / 10 * bpow radix2 (- c))).
    set (K := (k * 2 ^ (- c))%Z).
    assert (EK : IZR k * bpow radix2 (- c) = IZR K) by (unfold K; rewrite mult_IZR, (IZR_Zpower radix2) by lia; reflexivity).
    assert (EK' : IZR k = IZR K * bpow radix2 c).
    { rewrite <- EK, Rmult_assoc, <- bpow_plus. replace (- c + c)%Z with 0%Z by lia. cbn. ring. }
    assert (H : Rabs (IZR k / 10 * bpow radix2 (- c) - IZR q) <= / 2) by (apply Znearest_half).
    replace (IZR k / 10 * bpow radix2 (- c)) with (IZR K / 10) in H by (rewrite <- EK; field).
    assert (H5 : (Z.abs (10 * q - K) <= 5)%Z).
    { apply le_IZR. rewrite abs_IZR, minus_IZR, mult_IZR. replace (10 * IZR q - IZR K) with (- 10 * (IZR K / 10 - IZR q)) by field.
      rewrite Rabs_mult. rewrite (Rabs_left (-10)) by lra. lra. }
    assert (H4 : (Z.abs (10 * q - K) <= 4)%Z).
    { assert (exists K', K = 2 * K')%Z as [K' EK2].
      { exists (k * 2 ^ (- c - 1))%Z. unfold K. replace (- c)%Z with (Z.succ (- c - 1)) at 1 by lia. rewrite Z.pow_succ_r by lia. ring. }
      lia. }
    rewrite EK'. replace (10 * (IZR q * bpow radix2 c) - IZR K * bpow radix2 c) with (IZR (10 * q - K) * bpow radix2 c) by (rewrite minus_IZR, mult_IZR; ring).
    rewrite Rabs_mult, (Rabs_pos_eq (bpow radix2 c)) by apply bpow_ge_0. rewrite <- abs_IZR.
    apply Rmult_le_compat_r; [apply bpow_ge_0|]. change 4 with (IZR 4). apply IZR_le. exact H4. }
  assert (P3 : bpow radix2 e = 8 * bpow radix2 (e - 3)) by (replace e with (e - 3 + 3)%Z at 1 by lia; rewrite bpow_plus; cbn; ring).
  assert (P2 : bpow radix2 (e - 2) = 2 * bpow radix2 (e - 3)) by (replace (e - 2)%Z with (e - 3 + 1)%Z by lia; rewrite bpow_plus; cbn; ring).
  assert (P4 : bpow radix2 (e - 3) = 2 * bpow radix2 (e - 4)) by (replace (e - 3)%Z with (e - 4 + 1)%Z by lia; rewrite bpow_plus; cbn; ring).
  pose proof (bpow_gt_0 radix2 (e - 4)) as Pos.
  destruct (Rlt_or_le (IZR k / 10) (bpow radix2 (e - 3))) as [A|B].
  - (* case A *)
    assert (Hz : Rabs (10 * fl (IZR k / 10) - IZR k) <= bpow radix2 (e - 54)).
    { eapply Rle_trans; [apply (Q (e - 56)%Z); [|lia|lia]|].
      - replace (e - 56 + 52)%Z with (e - 4)%Z by lia. replace (e - 56 + 53)%Z with (e - 3)%Z by lia. split; [lra|exact A].
      - replace (e - 54)%Z with (e - 56 + 2)%Z by lia. rewrite bpow_plus. cbn. lra. }
    set (z := 10 * fl (IZR k / 10)) in *. pose proof Hz as Hz'. apply Rabs_le_inv in Hz'.
    assert (Sm : bpow radix2 (e - 54) <= / 4) by (apply Rle_trans with (bpow radix2 (-2)); [apply bpow_le; lia|cbn; lra]).
    destruct (Rle_or_lt (bpow radix2 e) z) as [G|L].
    + apply (fl_near k (e - 52)); [replace (e - 52 + 52)%Z with e by lia; replace (e - 52 + 53)%Z with (e + 1)%Z by lia; lra|lia|lia|].
      eapply Rle_trans; [exact Hz|apply bpow_le; lia].
    + assert (P5 : bpow radix2 e = 2 * bpow radix2 (e - 1)) by (replace e with (e - 1 + 1)%Z at 1 by lia; rewrite bpow_plus; cbn; ring).
      assert (P6 : bpow radix2 (e - 54) <= bpow radix2 (e - 1)) by (apply bpow_le; lia).
      apply (fl_near k (e - 53)); [replace (e - 53 + 52)%Z with (e - 1)%Z by lia; replace (e - 53 + 53)%Z with e by lia; lra|lia|lia|].
      replace (e - 53 - 1)%Z with (e - 54)%Z by lia. exact Hz.
  - assert (Hz : Rabs (10 * fl (IZR k / 10) - IZR k) <= bpow radix2 (e - 53)).
    { eapply Rle_trans; [apply (Q (e - 55)%Z); [|lia|lia]|].
      - replace (e - 55 + 52)%Z with (e - 3)%Z by lia. replace (e - 55 + 53)%Z with (e - 2)%Z by lia. split; [exact B|]. lra.
      - replace (e - 53)%Z with (e - 55 + 2)%Z by lia. rewrite bpow_plus. cbn. lra. }
    set (z := 10 * fl (IZR k / 10)) in *. pose proof Hz as Hz'. apply Rabs_le_inv in Hz'.
    assert (Sm : bpow radix2 (e - 53) <= / 2) by (apply Rle_trans with (bpow radix2 (-1)); [apply bpow_le; lia|cbn; lra]).
    assert (P6 : bpow radix2 (e - 53) <= bpow radix2 (e - 4)) by (apply bpow_le; lia).
    apply (fl_near k (e - 52)); [replace (e - 52 + 52)%Z with e by lia; replace (e - 52 + 53)%Z with (e + 1)%Z by lia; lra|lia|lia|].
    replace (e - 52 - 1)%Z with (e - 53)%Z by lia. exact Hz.
Qed.

(** ** Decimal numbers *)
Lemma fl_opp x : fl (- x) = - fl x.
Proof. apply round_NE_opp. Qed.
Lemma trunc_opp v : round_trunc (- v) = (- round_trunc v)%Z.
Proof. apply Ztrunc_opp. Qed.
Lemma dimacs_opp v : round_dimacs (- v) = (- round_dimacs v)%Z.
Proof. unfold round_dimacs. replace (10 * - v) with (- (10 * v)) by ring. rewrite fl_opp. apply Ztrunc_opp. Qed.
(** The value in the file: [m] with the decimal point [j] places from the right. *)
Definition decimal (m : Z) (j : nat) : R := IZR m / IZR (10 ^ Z.of_nat j).
Lemma decimal_opp m j : decimal (- m) j = - decimal m j.
Proof. unfold decimal. rewrite opp_IZR. unfold Rdiv. ring. Qed.
Lemma ten_pos j : (0 < 10 ^ Z.of_nat j)%Z.
Proof. apply Z.pow_pos_nonneg; lia. Qed.
Lemma trunc_quot p q x : (0 <= p)%Z -> (0 < q)%Z -> Rabs (x - IZR p / IZR q) < / IZR q -> (forall k, p = (k * q)%Z -> x = IZR k) -> Ztrunc x = (p / q)%Z.
Proof.
  intros Hp Hq Hx Hi. set (k := (p / q)%Z). assert (Hk : (0 <= k)%Z) by (apply Z.div_pos; lia).
  assert (Q : 0 < IZR q) by (apply IZR_lt; exact Hq). assert (Qi : 0 < / IZR q) by (apply Rinv_0_lt_compat; exact Q).
  pose proof (Z.div_mod p q ltac:(lia)) as E. pose proof (Z.mod_pos_bound p q Hq) as M. fold k in E.
  destruct (Z.eq_dec (p mod q) 0) as [Z0|Nz].
  - rewrite (Hi k) by lia. apply Ztrunc_IZR.
  - apply Rabs_def2 in Hx.
    assert (L : IZR k + / IZR q <= IZR p / IZR q).
    { apply Rmult_le_reg_r with (IZR q); [exact Q|]. unfold Rdiv. rewrite Rmult_plus_distr_r, Rmult_assoc, Rinv_l, Rmult_1_r by lra.
      rewrite <- mult_IZR, <- plus_IZR. apply IZR_le. lia. }
    assert (U : IZR p / IZR q <= IZR (k + 1) - / IZR q).
    { apply Rmult_le_reg_r with (IZR q); [exact Q|]. unfold Rdiv. rewrite Rmult_minus_distr_r, Rmult_assoc, Rinv_l, Rmult_1_r by lra.
      rewrite <- mult_IZR, <- minus_IZR. apply IZR_le. lia. }
    assert (K : 0 <= IZR k) by (apply IZR_le; exact Hk).
    rewrite Ztrunc_floor by lra. apply Zfloor_imp. lra.
Qed.
Lemma ten_real j : IZR (10 ^ Z.of_nat j) = 10 ^ j.
Proof. symmetry. apply (pow_IZR 10 j). Qed.
Lemma ten_bound : 10 ^ 200 <= 2 ^ 900.
Proof. rewrite (pow_IZR 10 200), (pow_IZR 2 900). apply IZR_le. vm_compute. discriminate. Qed.
Lemma decimal_size m j : (j <= 200)%nat -> decimal m j = 0 \/ / 2 ^ 900 <= Rabs (decimal m j).
Proof.
  intros Hj. destruct (Z.eq_dec m 0) as [->|Nz]; [left; unfold decimal; unfold Rdiv; ring|right].
  pose proof (ten_pos j) as T. assert (Q : 0 < IZR (10 ^ Z.of_nat j)) by (apply IZR_lt; exact T).
  unfold decimal, Rdiv. rewrite Rabs_mult. rewrite (Rabs_pos_eq (/ _)) by (apply Rlt_le, Rinv_0_lt_compat; exact Q).
  apply Rle_trans with (1 * / IZR (10 ^ Z.of_nat j)).
  - rewrite Rmult_1_l. apply Rinv_le_contravar; [exact Q|]. rewrite ten_real. apply Rle_trans with (10 ^ 200); [apply Rle_pow; [lra|exact Hj]|exact ten_bound].
  - apply Rmult_le_compat_r; [apply Rlt_le, Rinv_0_lt_compat; exact Q|]. rewrite <- abs_IZR. apply IZR_le. lia.
Qed.
Lemma by_sign (P : Z -> Prop) m : (forall m, (0 <= m)%Z -> P m) -> (forall m, (0 <= m)%Z -> P m -> P (- m)%Z) -> P m.
Proof. intros H1 H2. destruct (Z_le_gt_dec 0 m); [auto|]. replace m with (- - m)%Z by lia. apply H2; [lia|apply H1; lia]. Qed.
Lemma rabs_decimal m j : (0 <= m)%Z -> Rabs (decimal m j) = IZR m * / IZR (10 ^ Z.of_nat j).
Proof.
  intros Hm. unfold decimal, Rdiv. apply Rabs_pos_eq. apply Rmult_le_pos; [apply IZR_le; exact Hm|]. apply Rlt_le, Rinv_0_lt_compat, IZR_lt, ten_pos.
Qed.
Lemma eps_times z B : (0 <= z)%Z -> IZR z <= B -> EPS * IZR z <= EPS * B.
Proof. intros _ H. apply Rmult_le_compat_l; [apply Rlt_le, eps_small|exact H]. Qed.

Lemma decimal_int k j : decimal (k * 10 ^ Z.of_nat j) j = IZR k.
Proof. unfold decimal. rewrite mult_IZR. field. apply not_0_IZR. pose proof (ten_pos j). lia. Qed.
Lemma small_size m j : (j <= 200)%nat -> decimal m j = 0 \/ / 2 ^ 1000 <= Rabs (decimal m j).
Proof. intros Hj. destruct (decimal_size m j Hj) as [H|H]; [left; exact H|right]. pose proof tiny_order as [T0 T1]. lra. Qed.

Lemma decimal_trunc_pos m j : (0 <= m <= 2 ^ 52)%Z -> (j <= 200)%nat -> round_trunc (fl (decimal m j)) = (m / 10 ^ Z.of_nat j)%Z.
Proof.
  intros Hm Hj. pose proof (ten_pos j) as T. apply trunc_quot; [lia|exact T| |].
  - assert (Q : 0 < IZR (10 ^ Z.of_nat j)) by (apply IZR_lt; exact T).
    change (IZR m / IZR (10 ^ Z.of_nat j)) with (decimal m j). eapply Rle_lt_trans; [apply fl_error, small_size, Hj|]. rewrite rabs_decimal by lia. rewrite <- Rmult_assoc.
    rewrite <- (Rmult_1_l (/ IZR (10 ^ Z.of_nat j))) at 2. apply Rmult_lt_compat_r; [apply Rinv_0_lt_compat; exact Q|].
    apply Rle_lt_trans with (EPS * 2 ^ 52); [apply eps_times; [lia|rewrite (pow_IZR 2 52); apply IZR_le; cbn; lia]|]. unfold EPS. lra.
  - intros k ->. rewrite decimal_int. apply fl_int. nia.
Qed.
Lemma decimal_dimacs_pos m j : (0 <= m <= 2 ^ 48)%Z -> (j <= 200)%nat -> round_dimacs (fl (decimal m j)) = ((10 * m) / 10 ^ Z.of_nat j)%Z.
Proof.
  intros Hm Hj. destruct j as [|j].
  - cbn [Z.of_nat]. rewrite Z.pow_0_r, Z.div_1_r. unfold round_dimacs, decimal. cbn [Z.of_nat]. rewrite Z.pow_0_r. unfold Rdiv. rewrite Rinv_1, Rmult_1_r.
    rewrite fl_int by lia. rewrite <- mult_IZR. rewrite fl_int by lia. apply Ztrunc_IZR.
  - pose proof (ten_pos j) as T. assert (Q : 0 < IZR (10 ^ Z.of_nat j)) by (apply IZR_lt; exact T).
    assert (E10 : (10 ^ Z.of_nat (S j) = 10 * 10 ^ Z.of_nat j)%Z) by (rewrite Nat2Z.inj_succ, Z.pow_succ_r by lia; reflexivity).
    rewrite E10, Z.div_mul_cancel_l by lia.
    apply trunc_quot; [lia|exact T| |].
    + replace (IZR m / IZR (10 ^ Z.of_nat j)) with (10 * decimal m (S j)) by (unfold decimal; rewrite E10, mult_IZR; field; lra).
      eapply Rle_lt_trans; [apply scaled_error; [lra|apply decimal_size, Hj]|]. rewrite rabs_decimal by lia. rewrite E10, mult_IZR.
      replace (2001 / 1000 * EPS * (10 * (IZR m * / (10 * IZR (10 ^ Z.of_nat j))))) with (2001 / 1000 * (EPS * IZR m) * / IZR (10 ^ Z.of_nat j)) by (field; lra).
      rewrite <- (Rmult_1_l (/ IZR (10 ^ Z.of_nat j))) at 2. apply Rmult_lt_compat_r; [apply Rinv_0_lt_compat; exact Q|].
      assert (EPS * IZR m <= EPS * 2 ^ 48) by (apply eps_times; [lia|rewrite (pow_IZR 2 48); apply IZR_le; cbn; lia]). unfold EPS in *. lra.
    + intros k Ek. replace (decimal m (S j)) with (IZR k / 10) by (unfold decimal; rewrite E10, Ek, !mult_IZR; field; lra).
      destruct (Z.eq_dec k 0) as [->|Nz]; [unfold Rdiv; rewrite Rmult_0_l, fl_0, Rmult_0_r; apply fl_0|]. apply tenth. nia.
Qed.
Theorem decimal_trunc m j : (Z.abs m <= 2 ^ 52)%Z -> (j <= 200)%nat -> round_trunc (fl (decimal m j)) = Z.quot m (10 ^ Z.of_nat j).
Proof.
  intros Hm Hj. pose proof (ten_pos j) as T. revert Hm. pattern m. apply by_sign; clear m.
  - intros m Hm Hb. rewrite Z.quot_div_nonneg by lia. apply decimal_trunc_pos; [lia|exact Hj].
  - intros m Hm IH Hb. rewrite decimal_opp, fl_opp, trunc_opp, Z.quot_opp_l by lia. rewrite IH by lia. reflexivity.
Qed.
Theorem decimal_dimacs m j : (Z.abs m <= 2 ^ 48)%Z -> (j <= 200)%nat -> round_dimacs (fl (decimal m j)) = Z.quot (10 * m) (10 ^ Z.of_nat j).
Proof.
  intros Hm Hj. pose proof (ten_pos j) as T. revert Hm. pattern m. apply by_sign; clear m.
  - intros m Hm Hb. rewrite Z.quot_div_nonneg by lia. apply decimal_dimacs_pos; [lia|exact Hj].
  - intros m Hm IH Hb. rewrite decimal_opp, fl_opp, dimacs_opp. replace (10 * - m)%Z with (- (10 * m))%Z by ring. rewrite Z.quot_opp_l by lia. rewrite IH by lia. reflexivity.
Qed.
(** Nearest integers. *)
Lemma nearest_ratio p q x : (0 < q)%Z -> Rabs (x - IZR p / IZR q) < / (2 * IZR q) -> (2 * Z.abs (p - ZnearestE x * q) <= q)%Z.
Proof.
  intros Hq Hx. assert (Q : 0 < IZR q) by (apply IZR_lt; exact Hq). set (r := ZnearestE x). pose proof (Znearest_half (fun t => negb (Z.even t)) x) as H. fold r in H.
  assert (D : Rabs (IZR p / IZR q - IZR r) < / 2 + / (2 * IZR q)).
  { replace (IZR p / IZR q - IZR r) with ((x - IZR r) - (x - IZR p / IZR q)) by ring. eapply Rle_lt_trans; [apply Rabs_triang|]. rewrite Rabs_Ropp. lra. }
  assert (E : IZR (2 * Z.abs (p - r * q)) < IZR (q + 1)); [|apply lt_IZR in E; lia].
  rewrite mult_IZR, abs_IZR, minus_IZR, mult_IZR, plus_IZR.
  replace (IZR p - IZR r * IZR q) with ((IZR p / IZR q - IZR r) * IZR q) by (field; lra). rewrite Rabs_mult, (Rabs_pos_eq (IZR q)) by lra.
  apply Rlt_le_trans with (2 * ((/ 2 + / (2 * IZR q)) * IZR q)); [nra|]. right. field. lra.
Qed.
Lemma rabs_decimal' m j : Rabs (decimal m j) = IZR (Z.abs m) * / IZR (10 ^ Z.of_nat j).
Proof.
  unfold decimal, Rdiv. rewrite Rabs_mult, abs_IZR. f_equal. apply Rabs_pos_eq. apply Rlt_le, Rinv_0_lt_compat, IZR_lt, ten_pos.
Qed.
(** [halves] to even, as with the exact number. *)
Theorem decimal_round m j : (Z.abs m <= 2 ^ 51)%Z -> (j <= 200)%nat -> round_nearest (fl (decimal m j)) = ZnearestE (decimal m j).
Proof.
  intros Hm Hj. pose proof (ten_pos j) as T. assert (Q : 0 < IZR (10 ^ Z.of_nat j)) by (apply IZR_lt; exact T). unfold round_nearest.
  set (r := ZnearestE (decimal m j)). pose proof (Znearest_half (fun t => negb (Z.even t)) (decimal m j)) as H. fold r in H.
  set (q := (10 ^ Z.of_nat j)%Z) in *.
  assert (E : IZR (2 * (m - r * q)) = 2 * (decimal m j - IZR r) * IZR q).
  { unfold decimal. fold q. rewrite mult_IZR, minus_IZR, mult_IZR. field. lra. }
  assert (H2 : (Z.abs (2 * (m - r * q)) <= q)%Z).
  { apply le_IZR. rewrite abs_IZR, E, Rabs_mult, Rabs_mult, (Rabs_pos_eq (IZR q)), (Rabs_pos_eq 2) by lra. nra. }
  destruct (Z.eq_dec (Z.abs (2 * (m - r * q))) q) as [Tie|Ne].
  - assert (exists n, 2 * m = n * q)%Z as [n En].
    { destruct (Z.abs_spec (2 * (m - r * q))) as [[_ A]|[_ A]]; [exists (2 * r + 1)%Z|exists (2 * r - 1)%Z]; lia. }
    assert (D : decimal m j = IZR n * bpow radix2 (-1)).
    { replace (bpow radix2 (-1)) with (/ 2) by (cbn; lra). unfold decimal. fold q. apply Rmult_eq_reg_r with (2 * IZR q); [|nra].
      replace (IZR m / IZR q * (2 * IZR q)) with (IZR (2 * m)) by (rewrite mult_IZR; field; lra). rewrite En, mult_IZR. field. }
    assert (Hn : (Z.abs n < 2 ^ 53)%Z) by nia.
    unfold r. rewrite D. rewrite fl_float by (try exact Hn; lia). reflexivity.
  - apply Znearest_imp. replace (fl (decimal m j) - IZR r) with ((fl (decimal m j) - decimal m j) + (decimal m j - IZR r)) by ring.
    eapply Rle_lt_trans; [apply Rabs_triang|].
    assert (G : Rabs (decimal m j - IZR r) <= / 2 - / 2 * / IZR q).
    { assert (H3 : Rabs (2 * (decimal m j - IZR r) * IZR q) <= IZR q - 1).
      { rewrite <- E, <- abs_IZR, <- minus_IZR. apply IZR_le. lia. }
      rewrite Rabs_mult, Rabs_mult, (Rabs_pos_eq (IZR q)), (Rabs_pos_eq 2) in H3 by lra.
      apply Rmult_le_reg_r with (2 * IZR q); [lra|]. replace ((/ 2 - / 2 * / IZR q) * (2 * IZR q)) with (IZR q - 1) by (field; lra). lra. }
    pose proof (fl_error (decimal m j) (small_size m j Hj)) as F. rewrite rabs_decimal' in F. fold q in F.
    assert (EPS * IZR (Z.abs m) <= EPS * 2 ^ 51) by (apply eps_times; [lia|rewrite (pow_IZR 2 51); apply IZR_le; cbn; lia]).
    assert (E2 : EPS * 2 ^ 51 < / 2) by (unfold EPS; lra). assert (Qi : 0 < / IZR q) by (apply Rinv_0_lt_compat; exact Q).
    assert (EPS * (IZR (Z.abs m) * / IZR q) < / 2 * / IZR q) by (rewrite <- Rmult_assoc; apply Rmult_lt_compat_r; lra). lra.
Qed.
Theorem decimal_exact m j : (Z.abs m <= 2 ^ 40)%Z -> (j <= 200)%nat -> (2 * Z.abs (1000 * m - round_exact (fl (decimal m j)) * 10 ^ Z.of_nat j) <= 10 ^ Z.of_nat j)%Z.
Proof.
  intros Hm Hj. pose proof (ten_pos j) as T. assert (Q : 0 < IZR (10 ^ Z.of_nat j)) by (apply IZR_lt; exact T).
  unfold round_exact. apply nearest_ratio; [exact T|].
  replace (IZR (1000 * m) / IZR (10 ^ Z.of_nat j)) with (1000 * decimal m j) by (unfold decimal; rewrite mult_IZR; field; lra).
  eapply Rle_lt_trans; [apply scaled_error; [lra|apply decimal_size, Hj]|]. rewrite rabs_decimal'.
  assert (EPS * IZR (Z.abs m) <= EPS * 2 ^ 40) by (apply eps_times; [lia|rewrite (pow_IZR 2 40); apply IZR_le; cbn; lia]).
  assert (E2 : 2001 * (EPS * 2 ^ 40) < / 2) by (unfold EPS; lra). assert (Qi : 0 < / IZR (10 ^ Z.of_nat j)) by (apply Rinv_0_lt_compat; exact Q).
  replace (2001 / 1000 * EPS * (1000 * (IZR (Z.abs m) * / IZR (10 ^ Z.of_nat j)))) with (2001 * (EPS * IZR (Z.abs m)) * / IZR (10 ^ Z.of_nat j)) by (field; lra).
  rewrite Rinv_mult. apply Rmult_lt_compat_r; lra.
Qed.

(** ** Euclidean distances: the square root of an integer *)
Definition euclid (D : Z) : R := fl (sqrt (IZR D)).
Lemma sqrt_square n : (0 <= n)%Z -> sqrt (IZR (n * n)) = IZR n.
Proof. intros H. rewrite mult_IZR. apply sqrt_square. apply IZR_le. exact H. Qed.
Lemma sqrt_size D : sqrt (IZR D) = 0 \/ / 2 ^ 900 <= Rabs (sqrt (IZR D)).
Proof.
  destruct (Z_lt_le_dec 0 D) as [P|N]; [right|left; apply sqrt_neg_0; apply IZR_le; lia].
  rewrite Rabs_pos_eq by apply sqrt_pos. apply Rle_trans with 1.
  - rewrite <- Rinv_1. apply Rinv_le_contravar; [lra|]. apply pow_R1_Rle. lra.
  - rewrite <- sqrt_1. apply sqrt_le_1_alt. apply IZR_le. lia.
Qed.
Lemma sqrt_size' D : sqrt (IZR D) = 0 \/ / 2 ^ 1000 <= Rabs (sqrt (IZR D)).
Proof. pose proof tiny_order as [T0 T1]. destruct (sqrt_size D) as [H|H]; [left; exact H|right; lra]. Qed.
(** Two square roots of different integers are apart. *)
Lemma sqrt_apart a b : (0 <= a < b)%Z -> / (sqrt (IZR a) + sqrt (IZR b)) <= sqrt (IZR b) - sqrt (IZR a).
Proof.
  intros H. assert (A : 0 <= IZR a) by (apply IZR_le; lia). assert (B : IZR a + 1 <= IZR b) by (rewrite <- plus_IZR; apply IZR_le; lia).
  pose proof (sqrt_sqrt (IZR a) A) as Sa. pose proof (sqrt_sqrt (IZR b) ltac:(lra)) as Sb. pose proof (sqrt_pos (IZR a)). pose proof (sqrt_lt_R0 (IZR b) ltac:(lra)).
  apply Rmult_le_reg_r with (sqrt (IZR a) + sqrt (IZR b)); [lra|]. rewrite Rinv_l by lra. nra.
Qed.
Lemma trunc_sqrt E x : (0 <= E)%Z -> (forall n, E = (n * n)%Z -> (0 <= n)%Z -> x = IZR n) ->
  Rabs (x - sqrt (IZR E)) < / (2 * (sqrt (IZR E) + 1)) -> Ztrunc x = Z.sqrt E.
Proof.
  intros HE Hi Hx. pose proof (Z.sqrt_spec E HE) as [L U]. pose proof (Z.sqrt_nonneg E) as N. set (s := Z.sqrt E) in *. cbv zeta in *.
  destruct (Z.eq_dec E (s * s)) as [Sq|Ne]; [rewrite (Hi s Sq N); apply Ztrunc_IZR|].
  assert (A : / (IZR s + sqrt (IZR E)) <= sqrt (IZR E) - IZR s).
  { rewrite <- (sqrt_square s N). apply sqrt_apart. nia. }
  assert (B : / (sqrt (IZR E) + IZR (s + 1)) <= IZR (s + 1) - sqrt (IZR E)).
  { rewrite <- (sqrt_square (s + 1)) by lia. apply sqrt_apart. replace (Z.succ s) with (s + 1)%Z in U by lia. lia. }
  assert (N' : 0 <= IZR s) by (apply IZR_le; exact N). rewrite plus_IZR in B.
  set (y := sqrt (IZR E)) in *. assert (Y : 0 <= y) by apply sqrt_pos.
  assert (I : 0 < / (2 * (y + 1))) by (apply Rinv_0_lt_compat; lra).
  assert (Ys : IZR s <= y). { assert (0 < / (IZR s + y) \/ IZR s + y = 0) as [?|?]; [|lra|lra]. destruct (Req_dec (IZR s + y) 0); [right; assumption|left; apply Rinv_0_lt_compat; lra]. }
  assert (A' : / (2 * (y + 1)) <= y - IZR s).
  { destruct (Req_dec (IZR s + y) 0) as [Z0|Nz].
    - exfalso. assert (IZR s = 0) by lra. assert (s = 0)%Z by (apply eq_IZR; assumption). assert (0 < E)%Z by nia.
      assert (0 < y) by (apply sqrt_lt_R0, IZR_lt; assumption). lra.
    - eapply Rle_trans; [|exact A]. apply Rinv_le_contravar; lra. }
  assert (B' : / (2 * (y + 1)) <= IZR s + 1 - y) by (eapply Rle_trans; [|exact B]; apply Rinv_le_contravar; lra).
  apply Rabs_def2 in Hx. rewrite Ztrunc_floor by lra. apply Zfloor_imp. rewrite plus_IZR. lra.
Qed.
Lemma nearest_sqrt E x : (0 <= E)%Z -> Rabs (x - sqrt (IZR E)) < / (8 * (sqrt (IZR E) + 1)) -> ZnearestE x = ((Z.sqrt (4 * E) + 1) / 2)%Z.
Proof.
  intros HE Hx. set (y := sqrt (IZR E)) in *. assert (Y : 0 <= y) by apply sqrt_pos.
  assert (Y2 : sqrt (IZR (4 * E)) = 2 * y). { rewrite mult_IZR, sqrt_mult_alt by lra. f_equal. replace 4 with (2 * 2) by ring. apply R_sqrt.sqrt_square. lra. }
  pose proof (Z.sqrt_spec (4 * E) ltac:(lia)) as [L U]. pose proof (Z.sqrt_nonneg (4 * E)) as N. set (t := Z.sqrt (4 * E)) in *. cbv zeta in *.
  set (r := ((t + 1) / 2)%Z). assert (Hr : (2 * r - 1 <= t <= 2 * r)%Z) by (unfold r; pose proof (Z.div_mod (t + 1) 2 ltac:(lia)); pose proof (Z.mod_pos_bound (t + 1) 2 ltac:(lia)); lia).
  assert (R0 : (0 <= r)%Z) by lia. assert (R0' : 0 <= IZR r) by (apply IZR_le; exact R0).
  apply Znearest_imp.
  assert (Up : / (2 * y + IZR (2 * r + 1)) <= IZR (2 * r + 1) - 2 * y).
  { rewrite <- Y2, <- (sqrt_square (2 * r + 1)) by lia. apply sqrt_apart. nia. }
  rewrite plus_IZR, mult_IZR in Up.
  assert (I : 0 < / (2 * y + (2 * IZR r + 1))) by (apply Rinv_0_lt_compat; lra).
  assert (Lo : r = 0%Z \/ / (2 * IZR r - 1 + 2 * y) <= 2 * y - (2 * IZR r - 1)).
  { destruct (Z.eq_dec r 0) as [Z0|Nz]; [left; exact Z0|right]. rewrite <- Y2. replace (2 * IZR r - 1) with (IZR (2 * r - 1)) by (rewrite minus_IZR, mult_IZR; ring).
    rewrite <- (sqrt_square (2 * r - 1)) by lia. apply sqrt_apart.
    assert ((2 * r - 1) * (2 * r - 1) <> 4 * E)%Z by lia. nia. }
  assert (Ry : IZR r <= y + / 2).
  { destruct Lo as [->|Lo]; [cbn; lra|]. destruct (Rle_or_lt (2 * IZR r - 1 + 2 * y) 0) as [Q|Q]; [lra|]. assert (0 < / (2 * IZR r - 1 + 2 * y)) by (apply Rinv_0_lt_compat; exact Q). lra. }
  assert (Up' : / (8 * (y + 1)) <= IZR r + / 2 - y).
  { assert (H : / (4 * (y + 1)) <= / (2 * y + (2 * IZR r + 1))) by (apply Rinv_le_contravar; lra).
    replace (/ (8 * (y + 1))) with (/ 2 * / (4 * (y + 1))) by (field; lra). lra. }
  assert (Lo' : / (8 * (y + 1)) <= y - (IZR r - / 2)).
  { destruct Lo as [->|Lo].
    - cbn. assert (/ (8 * (y + 1)) <= / 8) by (apply Rinv_le_contravar; lra). lra.
    - destruct (Z.eq_dec r 0) as [Z0|Nz].
      + rewrite Z0. assert (/ (8 * (y + 1)) <= / 8) by (apply Rinv_le_contravar; lra). lra.
      + assert (R1 : 1 <= IZR r) by (apply IZR_le; lia). assert (H : / (4 * (y + 1)) <= / (2 * IZR r - 1 + 2 * y)) by (apply Rinv_le_contravar; lra).
        replace (/ (8 * (y + 1))) with (/ 2 * / (4 * (y + 1))) by (field; lra). lra. }
  apply Rabs_def2 in Hx. apply Rabs_def1; lra.
Qed.

(** Bounds on the error in terms of the square root. *)
Lemma root_bound E B : (0 <= E)%Z -> (E <= B * B)%Z -> (0 <= B)%Z -> sqrt (IZR E) <= IZR B.
Proof. intros H0 H1 H2. rewrite <- (sqrt_square B H2). apply sqrt_le_1_alt, IZR_le, H1. Qed.
(** Errors of [c] times the machine epsilon stay below the gap. *)
Lemma below_gap c e y B : 0 <= y <= B -> 0 < c -> 0 < e -> e * B * (c * (B + 1)) < 1 -> e * y < / (c * (y + 1)).
Proof.
  intros Hy Hc He H. apply Rmult_lt_reg_r with (c * (y + 1)); [nra|]. rewrite Rinv_l by nra.
  eapply Rle_lt_trans; [|exact H]. apply Rmult_le_compat; nra.
Qed.
Lemma scaled_root c D : (0 <= c)%Z -> (0 <= D)%Z -> IZR c * sqrt (IZR D) = sqrt (IZR (c * c * D)).
Proof. intros Hc HD. rewrite mult_IZR, sqrt_mult_alt by (apply IZR_le; nia). rewrite sqrt_square by exact Hc. reflexivity. Qed.

Theorem euclid_trunc D : (0 <= D <= 2 ^ 50)%Z -> round_trunc (euclid D) = Z.sqrt D.
Proof.
  intros HD. apply trunc_sqrt; [lia| |].
  - intros n En Hn. unfold euclid. rewrite En, sqrt_square by exact Hn. apply fl_int. nia.
  - eapply Rle_lt_trans; [apply fl_error, sqrt_size'|]. rewrite Rabs_pos_eq by apply sqrt_pos.
    apply below_gap with (IZR (2 ^ 25)); [split; [apply sqrt_pos|apply root_bound; lia]|lra|apply eps_small|].
    unfold EPS. change (2 ^ 25)%Z with 33554432%Z. lra.
Qed.
Theorem euclid_round D : (0 <= D <= 2 ^ 48)%Z -> round_nearest (euclid D) = ((Z.sqrt (4 * D) + 1) / 2)%Z.
Proof.
  intros HD. apply nearest_sqrt; [lia|].
  eapply Rle_lt_trans; [apply fl_error, sqrt_size'|]. rewrite Rabs_pos_eq by apply sqrt_pos.
  apply below_gap with (IZR (2 ^ 24)); [split; [apply sqrt_pos|apply root_bound; lia]|lra|apply eps_small|].
  unfold EPS. change (2 ^ 24)%Z with 16777216%Z. lra.
Qed.
Theorem euclid_dimacs D : (0 <= 100 * D <= 2 ^ 50)%Z -> round_dimacs (euclid D) = Z.sqrt (100 * D).
Proof.
  intros HD. apply trunc_sqrt; [lia| |].
  - intros n En Hn. assert (exists k, n = 10 * k)%Z as [k Ek].
    { exists (n / 10)%Z. assert (n mod 10 = 0)%Z; [|pose proof (Z.div_mod n 10 ltac:(lia)); lia].
      assert (n * n mod 10 = 0)%Z by (rewrite <- En; replace (100 * D)%Z with (10 * D * 10)%Z by ring; apply Z.mod_mul; lia).
      rewrite Z.mul_mod in H by lia. pose proof (Z.mod_pos_bound n 10 ltac:(lia)) as B. set (x := (n mod 10)%Z) in *.
      assert (x = 0 \/ x = 1 \/ x = 2 \/ x = 3 \/ x = 4 \/ x = 5 \/ x = 6 \/ x = 7 \/ x = 8 \/ x = 9)%Z as C by lia.
      destruct C as [C|[C|[C|[C|[C|[C|[C|[C|[C|C]]]]]]]]]; rewrite C in H; try discriminate H; exact C. }
    assert (Dk : D = (k * k)%Z) by nia. unfold euclid. rewrite Dk, sqrt_square by lia. rewrite fl_int by nia. rewrite <- mult_IZR, <- Ek. apply fl_int. nia.
  - change 10 with (IZR 10). replace (100 * D)%Z with (10 * 10 * D)%Z by ring. rewrite <- scaled_root by lia. unfold euclid.
    eapply Rle_lt_trans; [apply scaled_error; [lra|apply sqrt_size]|]. rewrite Rabs_pos_eq by apply sqrt_pos. rewrite scaled_root by lia.
    apply below_gap with (IZR (2 ^ 25)); [split; [apply sqrt_pos|apply root_bound; lia]|lra|pose proof eps_small; lra|].
    unfold EPS. change (2 ^ 25)%Z with 33554432%Z. lra.
Qed.
Theorem euclid_exact D : (0 <= 1000000 * D <= 2 ^ 48)%Z -> round_exact (euclid D) = ((Z.sqrt (4000000 * D) + 1) / 2)%Z.
Proof.
  intros HD. replace (4000000 * D)%Z with (4 * (1000 * 1000 * D))%Z by ring. apply nearest_sqrt; [lia|].
  change 1000 with (IZR 1000). rewrite <- scaled_root by lia. unfold euclid.
  eapply Rle_lt_trans; [apply scaled_error; [lra|apply sqrt_size]|]. rewrite Rabs_pos_eq by apply sqrt_pos. rewrite scaled_root by lia.
  apply below_gap with (IZR (2 ^ 24)); [split; [apply sqrt_pos|apply root_bound; lia]|lra|pose proof eps_small; lra|].
  unfold EPS. change (2 ^ 24)%Z with 16777216%Z. lra.
Qed.

(** The integers on the right, as roundings of real numbers. *)
Lemma floor_sqrt E : (0 <= E)%Z -> Zfloor (sqrt (IZR E)) = Z.sqrt E.
Proof.
  intros HE. rewrite <- (Ztrunc_floor (sqrt (IZR E))) by apply sqrt_pos. apply trunc_sqrt; [exact HE| |].
  - intros n -> Hn. apply sqrt_square. exact Hn.
  - rewrite Rminus_eq_0, Rabs_R0. apply Rinv_0_lt_compat. pose proof (sqrt_pos (IZR E)). lra.
Qed.
Lemma near_sqrt E : (0 <= E)%Z -> ZnearestE (sqrt (IZR E)) = ((Z.sqrt (4 * E) + 1) / 2)%Z.
Proof.
  intros HE. apply nearest_sqrt; [exact HE|]. rewrite Rminus_eq_0, Rabs_R0. apply Rinv_0_lt_compat. pose proof (sqrt_pos (IZR E)). lra.
Qed.
Lemma half_root E : (0 <= E)%Z -> let r := ((Z.sqrt (4 * E) + 1) / 2)%Z in (E = 0 /\ r = 0 \/ (2 * r - 1) * (2 * r - 1) < 4 * E < (2 * r + 1) * (2 * r + 1))%Z.
Proof.
  intros HE r. pose proof (Z.sqrt_spec (4 * E) ltac:(lia)) as [L U]. pose proof (Z.sqrt_nonneg (4 * E)) as N. cbv zeta in *. set (t := Z.sqrt (4 * E)) in *.
  assert (Hr : (2 * r - 1 <= t <= 2 * r)%Z) by (unfold r; pose proof (Z.div_mod (t + 1) 2 ltac:(lia)); pose proof (Z.mod_pos_bound (t + 1) 2 ltac:(lia)); lia).
  clearbody t r. destruct (Z.eq_dec r 0) as [Z0|Nz]; [left; nia|right].
  assert ((2 * r - 1) * (2 * r - 1) <> 4 * E)%Z by lia. nia.
Qed.
Lemma large_root : round_trunc (euclid (94906265 * 94906265 - 1)) = 94906265%Z.
Proof.
  unfold euclid, round_trunc. set (n := 94906265%Z).
  rewrite (fl_near n (-26)); [apply Ztrunc_IZR| |lia|lia|].
  - change (-26 + 52)%Z with 26%Z. change (-26 + 53)%Z with 27%Z. change (bpow radix2 26) with (IZR 67108864). change (bpow radix2 27) with (IZR 134217728).
    rewrite <- (sqrt_square 67108864), <- (sqrt_square 134217728) by lia. split; [apply sqrt_le_1_alt, IZR_le; unfold n; lia|apply sqrt_lt_1_alt; split; [apply IZR_le|apply IZR_lt]; unfold n; lia].
  - change (bpow radix2 (-26 - 1)) with (/ 134217728). set (y := sqrt (IZR (n * n - 1))).
    assert (Y : y * y = IZR (n * n - 1)) by (apply sqrt_sqrt, IZR_le; unfold n; lia). assert (P : 0 <= y) by apply sqrt_pos.
    rewrite minus_IZR, mult_IZR in Y. change (IZR n) with 94906265 in *. apply Rabs_le. split; nra.
Qed.
