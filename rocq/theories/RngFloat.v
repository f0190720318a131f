(** The generator's [rand()]: RandomNumberGenerator.cpp:38-41, in binary64. *)
From Coq Require Import ZArith Reals Lia Lra Psatz.
From Flocq Require Import Core.Core IEEE754.BinarySingleNaN.
From Verif Require Import Base Penalty Rng.
Local Open Scope Z_scope.

Definition b64_div (x y : b64) : b64 := Bdiv mode_NE x y.
(** RandomNumberGenerator.cpp:38-41 *)
Definition rng_rand (r : rng) : rng * b64 :=
  let '(r, x) := rng_next r in (r, b64_div (b64_of_Z x) (b64_of_Z (W32 - 1))).

Local Open Scope R_scope.
(** 32-bit integers are exact in binary64. *)
Lemma word_exact x : word x -> is_finite (b64_of_Z x) = true /\ B2R (b64_of_Z x) = IZR x.
Proof.
  intros [Hx0 Hx1]. pose proof (of_Z_is_rnd x Hx0) as H. unfold is_rnd in H.
  assert (E : rnd (IZR x) = IZR x).
  { apply round_generic; [apply valid_rnd_round_mode|].
    replace (IZR x) with (F2R (Float radix2 x 0)) by (unfold F2R; cbn; lra).
    apply generic_format_F2R. intros Hne. cbn [Fnum Fexp].
    assert (Hm : (mag radix2 (F2R (Float radix2 x 0)) <= 32)%Z).
    { unfold F2R. cbn [Fnum Fexp bpow]. rewrite Rmult_1_r. apply mag_le_bpow.
      - intros E. apply eq_IZR in E. contradiction.
      - rewrite <- abs_IZR. rewrite <- (IZR_Zpower radix2) by lia.
        apply IZR_lt. change (radix2 ^ 32)%Z with W32. lia. }
    unfold cexp, SpecFloat.fexp, SpecFloat.emin. lia. }
  rewrite E in H. destruct (Rlt_bool_spec (IZR x) (bpow radix2 1024)) as [_|Hge]; [exact H|exfalso].
  assert (IZR x < bpow radix2 32).
  { rewrite <- (IZR_Zpower radix2) by lia. apply IZR_lt. exact Hx1. }
  pose proof (bpow_le radix2 32 1024 ltac:(lia)). lra.
Qed.

Lemma rnd_one : rnd 1 = 1.
Proof.
  apply round_generic; [apply valid_rnd_round_mode|].
  replace 1 with (F2R (Float radix2 1 0)) by (unfold F2R; cbn; lra).
  apply generic_format_F2R. intros _. cbn [Fnum Fexp]. 
  replace (F2R (Float radix2 1 0)) with (bpow radix2 0) by (unfold F2R; cbn; lra).
  unfold cexp. rewrite mag_bpow. unfold SpecFloat.fexp, SpecFloat.emin. lia.
Qed.

(** [rand()] lies in [0, 1]. *)
Theorem rng_rand_range r : rng_ok r ->
  is_finite (snd (rng_rand r)) = true /\ 0 <= B2R (snd (rng_rand r)) <= 1.
Proof.
  intros Hr. unfold rng_rand. pose proof (rng_next_ok r Hr) as [_ Hx].
  destruct (rng_next r) as [r' x]. cbn [snd] in *.
  destruct (word_exact x Hx) as [F1 E1].
  destruct (word_exact (W32 - 1)) as [F2 E2]; [unfold word, W32; lia|].
  assert (Hq : 0 <= IZR x / IZR (W32 - 1) <= 1).
  { assert (0 < IZR (W32 - 1)) by (apply IZR_lt; unfold W32; lia).
    destruct Hx as [H0 H1]. assert (0 <= IZR x) by (apply IZR_le; lia).
    assert (IZR x <= IZR (W32 - 1)) by (apply IZR_le; lia).
    split; [apply Rmult_le_pos; [assumption|left; apply Rinv_0_lt_compat; assumption]|].
    apply (Rmult_le_reg_r (IZR (W32 - 1))); [assumption|]. unfold Rdiv.
    rewrite Rmult_assoc, Rinv_l by lra. lra. }
  pose proof (Bdiv_correct 53 1024 b64_prec b64_emax mode_NE (b64_of_Z x) (b64_of_Z (W32 - 1))) as H.
  rewrite E1, E2 in H.
  specialize (H ltac:(apply Rgt_not_eq, IZR_lt; unfold W32; lia)).
  assert (Hrnd : 0 <= rnd (IZR x / IZR (W32 - 1)) <= 1).
  { split; [apply rnd_nonneg; lra|]. apply Rle_trans with (rnd 1); [apply rnd_le; lra|rewrite rnd_one; lra]. }
  rewrite Rlt_bool_true in H.
  - destruct H as (H1 & H2 & _). unfold b64_div. rewrite H1, H2. auto.
  - rewrite Rabs_pos_eq by lra. apply Rle_lt_trans with 1; [lra|].
    change 1 with (bpow radix2 0). apply bpow_lt. lia.
Qed.
