(** Penalty terms in binary64, CostEvaluator.h:175-210: an int64 value is converted to double,
    multiplied with the penalty weight (rounding to nearest even) and the product is cast back to
    int64, that is, truncated. *)
From Coq Require Import ZArith Reals Lia Lra Psatz.
From Flocq Require Import Core.Core IEEE754.BinarySingleNaN.
From Verif Require Import Base DurationSegment Data LoadSegment SearchRoute Route Cost CostFacts.
Local Open Scope Z_scope.

Definition b64 := binary_float 53 1024.
Global Instance b64_prec : FLX.Prec_gt_0 53 := eq_refl.
Global Instance b64_emax : Prec_lt_emax 53 1024 := eq_refl.

(** Conversion of an integer to double. *)
Definition b64_of_Z (x : Z) : b64 := binary_normalize 53 1024 _ _ mode_NE x 0 false.
Definition b64_mul (x y : b64) : b64 := Bmult mode_NE x y.
(** static_cast<int64_t>: towards zero.  Outside of the int64 range (infinities included) the
    behaviour of the code is undefined; the model goes on in Z, with 2^1024 for infinity. *)
Definition b64_cast (x : b64) : Z :=
  match x with
  | B754_infinity false => 2 ^ 1024
  | B754_infinity true => - 2 ^ 1024
  | _ => Btrunc x
  end.

(** [x * w] cast to Cost, for weight [w]. *)
Definition penalty (w : b64) (x : Z) : Z := b64_cast (b64_mul (b64_of_Z x) w).

(** CostEvaluator.cpp:7-23: the constructor throws on negative weights. *)
Definition b64_zero : b64 := B754_zero false.
Definition b64_neg (w : b64) : bool := Bltb w b64_zero.
Definition make_evaluator (loads : list b64) (tw dist : b64) : res evaluator :=
  if existsb b64_neg loads then Err InvalidArgument
  else if b64_neg tw then Err InvalidArgument
  else if b64_neg dist then Err InvalidArgument
  else Ok (mk_evaluator (map penalty loads) (penalty tw) (penalty dist)).

(** ** Facts *)
Local Open Scope R_scope.
Notation rnd := (round radix2 (SpecFloat.fexp 53 1024) (round_mode mode_NE)).

Lemma bpow_IZR : bpow radix2 1024 = IZR (2 ^ 1024).
Proof. rewrite <- (IZR_Zpower radix2) by lia. reflexivity. Qed.

Lemma rnd_nonneg r : 0 <= r -> 0 <= rnd r.
Proof.
  intros H. replace 0 with (rnd 0) by (apply round_0; apply valid_rnd_round_mode).
  apply round_le; [apply FLT.FLT_exp_valid; reflexivity | apply valid_rnd_round_mode | exact H].
Qed.

Lemma rnd_le a b : a <= b -> rnd a <= rnd b.
Proof. apply round_le; [apply FLT.FLT_exp_valid; reflexivity | apply valid_rnd_round_mode]. Qed.

(** [f] is what rounding the non-negative real [r] gives. *)
Definition is_rnd (f : b64) (r : R) : Prop :=
  if Rlt_bool (rnd r) (bpow radix2 1024)
  then is_finite f = true /\ B2R f = rnd r
  else f = B754_infinity false.

Lemma cast_is_rnd f r : 0 <= r -> is_rnd f r ->
  b64_cast f = Ztrunc (Rmin (rnd r) (bpow radix2 1024)).
Proof.
  intros Hr. unfold is_rnd. destruct (Rlt_bool_spec (rnd r) (bpow radix2 1024)) as [H|H].
  - intros [H1 H2]. rewrite Rmin_left by lra.
    assert (E : b64_cast f = Btrunc f) by (destruct f; try reflexivity; discriminate).
    rewrite E. apply eq_IZR. rewrite (Btrunc_correct 53 1024 b64_emax), H2, round_FIX_IZR. reflexivity.
  - intros ->. rewrite Rmin_right by lra. rewrite bpow_IZR, Ztrunc_IZR. reflexivity.
Qed.

Lemma of_Z_is_rnd x : (0 <= x)%Z -> is_rnd (b64_of_Z x) (IZR x).
Proof.
  intros Hx. unfold b64_of_Z, is_rnd.
  pose proof (binary_normalize_correct 53 1024 b64_prec b64_emax mode_NE x 0 false) as H.
  cbv zeta in H. rewrite F2R_0_IZR in H || idtac.
  assert (E : F2R (Float radix2 x 0) = IZR x) by (unfold F2R; cbn; lra).
  rewrite E in H. assert (HR : 0 <= IZR x) by (apply IZR_le; exact Hx).
  rewrite (Rabs_pos_eq _ (rnd_nonneg _ HR)) in H.
  destruct (Rlt_bool_spec (rnd (IZR x)) (bpow radix2 1024)) as [H1|H1].
  - destruct H as (H2 & H3 & _). auto.
  - rewrite Rlt_bool_false in H by exact HR.
    destruct (binary_normalize 53 1024 b64_prec b64_emax mode_NE x 0 false); cbn in H; try discriminate.
    injection H as ->. reflexivity.
Qed.

Lemma not_neg_real w : is_finite w = true -> b64_neg w = false -> 0 <= B2R w.
Proof.
  intros Hf Hn. unfold b64_neg in Hn. rewrite Bltb_correct in Hn by auto.
  cbn [b64_zero B2R] in Hn. destruct (Rlt_bool_spec (B2R w) 0); [discriminate|assumption].
Qed.

Lemma mul_is_rnd f w : is_finite f = true -> is_finite w = true -> 0 <= B2R f -> 0 <= B2R w ->
  is_rnd (b64_mul f w) (B2R f * B2R w).
Proof.
  intros Hf Hw Pf Pw. unfold is_rnd, b64_mul.
  pose proof (Bmult_correct 53 1024 b64_prec b64_emax mode_NE f w) as H.
  assert (HR : 0 <= B2R f * B2R w) by nra.
  rewrite (Rabs_pos_eq _ (rnd_nonneg _ HR)) in H.
  destruct (Rlt_bool_spec (rnd (B2R f * B2R w)) (bpow radix2 1024)) as [H1|H1].
  - destruct H as (H2 & H3 & _). rewrite Hf, Hw in H3. auto.
  - assert (Hs : forall g : b64, is_finite g = true -> 0 <= B2R g -> B2R g <> 0 -> Bsign g = false).
    { intros [s|s| |s m e Hb] G1 G2 G3; try discriminate; [exfalso; apply G3; reflexivity|].
      cbn [Bsign]. destruct s; [|reflexivity]. exfalso. cbn [B2R] in G2.
      assert (F2R (Float radix2 (cond_Zopp true (Z.pos m)) e) < 0); [|lra].
      apply F2R_lt_0. reflexivity. }
    assert (Hnz : B2R f <> 0 /\ B2R w <> 0).
    { assert (B2R f * B2R w <> 0).
      { intros E. rewrite E, round_0 in H1 by apply valid_rnd_round_mode.
        pose proof (bpow_gt_0 radix2 1024). lra. }
      split; intros E; rewrite E in *; lra. }
    rewrite (Hs f Hf Pf (proj1 Hnz)), (Hs w Hw Pw (proj2 Hnz)) in H.
    destruct (Bmult mode_NE f w); cbn in H; try discriminate. injection H as ->. reflexivity.
Qed.

Lemma cast_le_max f r : 0 <= r -> is_rnd f r -> (0 <= b64_cast f <= 2 ^ 1024)%Z.
Proof.
  intros Hr H. rewrite (cast_is_rnd f r Hr H). split.
  - replace 0%Z with (Ztrunc (IZR 0)) by apply Ztrunc_IZR. apply Ztrunc_le.
    apply Rmin_glb; [apply rnd_nonneg; exact Hr|apply bpow_ge_0].
  - replace (2 ^ 1024)%Z with (Ztrunc (IZR (2 ^ 1024))) by apply Ztrunc_IZR. apply Ztrunc_le.
    rewrite <- bpow_IZR. apply Rmin_r.
Qed.

(** A finite weight the constructor accepts gives a penalty function. *)
Theorem penalty_ok w : is_finite w = true -> b64_neg w = false -> pen_ok (penalty w).
Proof.
  intros Hw Hneg. pose proof (not_neg_real w Hw Hneg) as Pw. split.
  - unfold penalty, b64_of_Z, b64_mul. cbn [binary_normalize]. destruct w; cbn in *; try discriminate; reflexivity.
  - intros x y [Hx Hxy].
    pose proof (of_Z_is_rnd x Hx) as Fx. pose proof (of_Z_is_rnd y ltac:(lia)) as Fy.
    assert (Hr : rnd (IZR x) <= rnd (IZR y)) by (apply rnd_le, IZR_le; exact Hxy).
    assert (Hx0 : 0 <= rnd (IZR x)) by (apply rnd_nonneg, IZR_le; exact Hx).
    unfold penalty. unfold is_rnd in Fx, Fy.
    destruct (Rlt_bool_spec (rnd (IZR y)) (bpow radix2 1024)) as [H1|H1].
    + rewrite Rlt_bool_true in Fx by lra. destruct Fx as [Fx1 Fx2]. destruct Fy as [Fy1 Fy2].
      assert (Px : 0 <= B2R (b64_of_Z x)) by lra. assert (Py : 0 <= B2R (b64_of_Z y)) by lra.
      rewrite (cast_is_rnd _ _ (Rmult_le_pos _ _ Px Pw) (mul_is_rnd _ _ Fx1 Hw Px Pw)).
      rewrite (cast_is_rnd _ _ (Rmult_le_pos _ _ Py Pw) (mul_is_rnd _ _ Fy1 Hw Py Pw)).
      apply Ztrunc_le. apply Rle_min_compat_r. apply rnd_le. nra.
    + rewrite Fy. 
      assert (Hx2 : is_finite (b64_of_Z x) = true /\ 0 <= B2R (b64_of_Z x) \/ b64_of_Z x = B754_infinity false).
      { destruct (Rlt_bool_spec (rnd (IZR x)) (bpow radix2 1024)); [left; destruct Fx; split; [assumption|lra]|right; exact Fx]. }
      destruct Hx2 as [[Fx1 Px]|E]; [|rewrite E; lia].
      destruct w as [s|s| |s m e Hb]; try discriminate.
      * assert (E : b64_mul (b64_of_Z x) (B754_zero s) = B754_zero (xorb (Bsign (b64_of_Z x)) s)).
        { destruct (b64_of_Z x); try discriminate; reflexivity. }
        rewrite E. cbn. lia.
      * pose proof (cast_le_max _ _ (Rmult_le_pos _ _ Px Pw) (mul_is_rnd _ _ Fx1 Hw Px Pw)) as [_ Hle].
        assert (Hs : s = false).
        { destruct s; [|reflexivity]. exfalso. cbn [B2R] in Pw.
          assert (F2R (Float radix2 (cond_Zopp true (Z.pos m)) e) < 0); [|lra].
          apply F2R_lt_0. reflexivity. }
        subst s. exact Hle.
Qed.

Theorem make_evaluator_ok loads tw dist ev :
  make_evaluator loads tw dist = Ok ev ->
  Forall (fun w => is_finite w = true) loads -> is_finite tw = true -> is_finite dist = true ->
  ev_ok ev /\ length (ev_load ev) = length loads.
Proof.
  unfold make_evaluator. intros H Hl Ht Hd.
  destruct (existsb b64_neg loads) eqn:E1; [discriminate|].
  destruct (b64_neg tw) eqn:E2; [discriminate|]. destruct (b64_neg dist) eqn:E3; [discriminate|].
  apply (f_equal (fun x => match x with Ok r => r | Err _ => ev end)) in H. subst ev. split.
  - constructor; cbn [ev_load ev_tw ev_dist]; try (apply penalty_ok; assumption).
    clear - E1 Hl. induction Hl as [|w loads Hw Hl IH]; [constructor|].
    cbn in E1. apply Bool.orb_false_iff in E1. destruct E1 as [E1 E2].
    cbn [map]. constructor; [apply penalty_ok; assumption|]. apply IH. exact E2.
  - cbn [ev_load]. apply map_length.
Qed.
