(** Model of pyvrp/PenaltyManager.py in binary64. *)
From Coq Require Import ZArith Reals Lia Lra Psatz.
From Flocq Require Import Core.Core IEEE754.BinarySingleNaN Plus_error.
From Verif Require Import Base DurationSegment Data LoadSegment SearchRoute Route Cost CostFacts Solution Penalty Rng RngFloat.
Local Open Scope Z_scope.

Definition b64_sub (x y : b64) : b64 := Bminus mode_NE x y.
Definition b64_one : b64 := b64_of_Z 1.

(** PenaltyManager.py:83-89 *)
Record pparams := mk_pparams {
  pp_between : Z; pp_increase : b64; pp_decrease : b64; pp_target : b64; pp_tolerance : b64;
  pp_min : b64; pp_max : b64 }.
(** PenaltyManager.py:91-111 *)
Definition make_pparams (between : Z) (increase decrease target tolerance min max : b64) : res pparams :=
  if negb (1 <=? between) then Err InvalidArgument
  else if negb (Bleb b64_one increase) then Err InvalidArgument
  else if negb (Bleb b64_zero decrease && Bleb decrease b64_one) then Err InvalidArgument
  else if negb (Bleb b64_zero target && Bleb target b64_one) then Err InvalidArgument
  else if negb (Bleb b64_zero tolerance && Bleb tolerance b64_one) then Err InvalidArgument
  else if Bltb min b64_zero then Err InvalidArgument
  else if Bltb max min then Err InvalidArgument
  else Ok (mk_pparams between increase decrease target tolerance min max).

(** numpy.clip: minimum(maximum(x, lo), hi), where not-a-number wins. *)
Definition np_maximum (x y : b64) : b64 := if is_nan x then x else if Bleb y x then x else y.
Definition np_minimum (x y : b64) : b64 := if is_nan x then x else if Bleb x y then x else y.
Definition np_clip (x lo hi : b64) : b64 := np_minimum (np_maximum x lo) hi.

(** PenaltyManager.py:154-179.  The averages of past violations (lines 169, 211-230) only decide on
    a warning and are left out here; PmWarn.v adds them. *)
Record pmanager := mk_pmanager { pm_params : pparams; pm_penalties : list b64; pm_viols : list (list Z) }.
Definition make_pmanager (loads : list b64) (tw dist : b64) (p : pparams) : pmanager :=
  let pens := map (fun x => np_clip x (pp_min p) (pp_max p)) (loads ++ [tw; dist]) in
  mk_pmanager p pens (map (fun _ => []) pens).

(** PenaltyManager.py:181-198 *)
Definition pm_compute (p : pparams) (penalty feas : b64) : b64 :=
  let diff := b64_sub (pp_target p) feas in
  if Bltb (Babs diff) (pp_tolerance p) then penalty
  else
    let new := if Bltb b64_zero diff then b64_mul (pp_increase p) penalty else b64_mul (pp_decrease p) penalty in
    np_clip new (pp_min p) (pp_max p).

(** Line 208: fmean of truth values, a correctly rounded sum divided by the number of values. *)
Definition feas_percentage (viols : list Z) : b64 :=
  b64_div (b64_of_Z (Z.of_nat (length (filter (Z.eqb 0) viols)))) (b64_of_Z (Z.of_nat (length viols))).

(** PenaltyManager.py:200-231, for one penalty dimension. *)
Definition register_one (p : pparams) (pen : b64) (viols : list Z) (violation : Z) : b64 * list Z :=
  let viols := viols ++ [violation] in
  if negb (Z.of_nat (length viols) =? pp_between p) then (pen, viols)
  else (pm_compute p pen (feas_percentage viols), []).

Fixpoint register_all (p : pparams) (pens : list b64) (viols : list (list Z)) (xs : list Z) : list b64 * list (list Z) :=
  match pens, viols, xs with
  | pen :: pens, v :: viols, x :: xs =>
      let '(pen, v) := register_one p pen v x in
      let '(pens, viols) := register_all p pens viols xs in
      (pen :: pens, v :: viols)
  | _, _, _ => (pens, viols)
  end.
(** PenaltyManager.py:233-244; IndexError when there are more violations than penalties. *)
Definition violations (s : solution) : list Z := so_excessLoad s ++ [so_timeWarp s; so_excessDistance s].
Definition pm_register (m : pmanager) (xs : list Z) : res pmanager :=
  if (length (pm_penalties m) <? length xs)%nat then Err OutOfRange
  else let '(pens, viols) := register_all (pm_params m) (pm_penalties m) (pm_viols m) xs in
       Ok (mk_pmanager (pm_params m) pens viols).

(** PenaltyManager.py:246-259: all but the last two are load penalties. *)
Definition evaluator_of_pens (pens : list b64) : res evaluator :=
  let n := (length pens - 2)%nat in
  make_evaluator (firstn n pens) (nth n pens b64_zero) (nth (n + 1) pens b64_zero).
Definition pm_evaluator (m : pmanager) : res evaluator := evaluator_of_pens (pm_penalties m).
Definition pm_max_evaluator (m : pmanager) : res evaluator :=
  evaluator_of_pens (map (fun _ => pp_max (pm_params m)) (pm_penalties m)).

(** ** Facts *)
Local Open Scope R_scope.

(** Parameters that are actual numbers. *)
Record pparams_ok (p : pparams) : Prop := mk_pparams_ok {
  ppo_between : (1 <= pp_between p)%Z;
  ppo_between_fin : is_finite (b64_of_Z (pp_between p)) = true;
  ppo_fin : is_finite (pp_increase p) = true /\ is_finite (pp_decrease p) = true /\ is_finite (pp_target p) = true /\
            is_finite (pp_tolerance p) = true /\ is_finite (pp_min p) = true /\ is_finite (pp_max p) = true;
  ppo_increase : 1 <= B2R (pp_increase p);
  ppo_decrease : 0 <= B2R (pp_decrease p) <= 1;
  ppo_target : 0 <= B2R (pp_target p) <= 1;
  ppo_tolerance : 0 <= B2R (pp_tolerance p) <= 1;
  ppo_bounds : 0 <= B2R (pp_min p) <= B2R (pp_max p) }.

Lemma one_exact : is_finite b64_one = true /\ B2R b64_one = 1.
Proof. apply (word_exact 1). unfold word, W32. lia. Qed.
Lemma B2R_b64_zero : B2R b64_zero = 0.
Proof. reflexivity. Qed.
Lemma leb_R (x y : b64) : is_finite x = true -> is_finite y = true -> Bleb x y = true <-> B2R x <= B2R y.
Proof. intros Hx Hy. rewrite Bleb_correct by assumption. destruct (Rle_bool_spec (B2R x) (B2R y)); split; intros; try lra; try reflexivity; discriminate. Qed.
Lemma ltb_R (x y : b64) : is_finite x = true -> is_finite y = true -> Bltb x y = true <-> B2R x < B2R y.
Proof. intros Hx Hy. rewrite Bltb_correct by assumption. destruct (Rlt_bool_spec (B2R x) (B2R y)); split; intros; try lra; try reflexivity; discriminate. Qed.

(** Which parameters the constructor accepts (for actual numbers). *)
Theorem make_pparams_spec between increase decrease target tolerance min max :
  is_finite (b64_of_Z between) = true ->
  is_finite increase = true -> is_finite decrease = true -> is_finite target = true ->
  is_finite tolerance = true -> is_finite min = true -> is_finite max = true ->
  let p := mk_pparams between increase decrease target tolerance min max in
  (pparams_ok p -> make_pparams between increase decrease target tolerance min max = Ok p) /\
  (~ pparams_ok p -> make_pparams between increase decrease target tolerance min max = Err InvalidArgument).
Proof.
  intros F0 F1 F2 F3 F4 F5 F6 p. destruct one_exact as [O1 O2]. pose proof B2R_b64_zero as Z0.
  assert (Fz : is_finite b64_zero = true) by reflexivity.
  unfold make_pparams. fold p.
  destruct (Z.leb_spec 1 between) as [H1|H1]; cbn [negb];
    [|split; [intros K; pose proof (ppo_between p K) as K1; cbn [p pp_between pp_increase pp_decrease pp_target pp_tolerance pp_min pp_max] in K1; lia|reflexivity]].
  destruct (Bleb b64_one increase) eqn:H2; cbn [negb].
  2:{ split; [intros K|reflexivity]. pose proof (ppo_increase p K) as K1. cbn [p pp_between pp_increase pp_decrease pp_target pp_tolerance pp_min pp_max] in K1. rewrite <- O2 in K1.
      apply leb_R in K1; [congruence|assumption|assumption]. }
  apply leb_R in H2; [|assumption|assumption].
  assert (Hunit : forall x, is_finite x = true -> (Bleb b64_zero x && Bleb x b64_one)%bool = true <-> 0 <= B2R x <= 1).
  { intros x Hx. rewrite Bool.andb_true_iff, !leb_R by assumption. rewrite Z0, O2. reflexivity. }
  destruct (Bleb b64_zero decrease && Bleb decrease b64_one)%bool eqn:H3; cbn [negb].
  2:{ split; [intros K|reflexivity]. pose proof (ppo_decrease p K) as K1. apply Hunit in K1; [|assumption]. cbn [p pp_between pp_increase pp_decrease pp_target pp_tolerance pp_min pp_max] in K1. congruence. }
  destruct (Bleb b64_zero target && Bleb target b64_one)%bool eqn:H4; cbn [negb].
  2:{ split; [intros K|reflexivity]. pose proof (ppo_target p K) as K1. apply Hunit in K1; [|assumption]. cbn [p pp_between pp_increase pp_decrease pp_target pp_tolerance pp_min pp_max] in K1. congruence. }
  destruct (Bleb b64_zero tolerance && Bleb tolerance b64_one)%bool eqn:H5; cbn [negb].
  2:{ split; [intros K|reflexivity]. pose proof (ppo_tolerance p K) as K1. apply Hunit in K1; [|assumption]. cbn [p pp_between pp_increase pp_decrease pp_target pp_tolerance pp_min pp_max] in K1. congruence. }
  destruct (Bltb min b64_zero) eqn:H6.
  { split; [intros K|reflexivity]. pose proof (ppo_bounds p K) as K1. cbn [p pp_between pp_increase pp_decrease pp_target pp_tolerance pp_min pp_max] in K1. apply ltb_R in H6; [|assumption|assumption].
    rewrite Z0 in H6. lra. }
  destruct (Bltb max min) eqn:H7.
  { split; [intros K|reflexivity]. pose proof (ppo_bounds p K) as K1. cbn [p pp_between pp_increase pp_decrease pp_target pp_tolerance pp_min pp_max] in K1. apply ltb_R in H7; [|assumption|assumption]. lra. }
  split; [reflexivity|]. intros K. destruct K.
  apply Hunit in H3, H4, H5; try assumption.
  assert (0 <= B2R min).
  { destruct (Rle_lt_dec 0 (B2R min)) as [?|Hlt]; [assumption|]. rewrite <- Z0 in Hlt.
    apply ltb_R in Hlt; [congruence|assumption|assumption]. }
  assert (B2R min <= B2R max).
  { destruct (Rle_lt_dec (B2R min) (B2R max)) as [?|Hlt]; [assumption|]. apply ltb_R in Hlt; [congruence|assumption|assumption]. }
  constructor; cbn [p pp_between pp_increase pp_decrease pp_target pp_tolerance pp_min pp_max]; auto 10; lra.
Qed.

(** A penalty lies within its bounds. *)
Definition in_bounds (p : pparams) (x : b64) : Prop :=
  is_finite x = true /\ B2R (pp_min p) <= B2R x <= B2R (pp_max p).

Lemma clip_bounds p x : pparams_ok p -> is_nan x = false -> in_bounds p (np_clip x (pp_min p) (pp_max p)).
Proof.
  intros K Hx. destruct (ppo_fin p K) as (_ & _ & _ & _ & F5 & F6). pose proof (ppo_bounds p K) as Hb.
  unfold np_clip, np_maximum, np_minimum, in_bounds. rewrite Hx.
  destruct (is_finite x) eqn:Fx.
  - destruct (Bleb (pp_min p) x) eqn:E1.
    + rewrite Hx. apply leb_R in E1; [|assumption|assumption]. destruct (Bleb x (pp_max p)) eqn:E2.
      * apply leb_R in E2; [|assumption|assumption]. split; [assumption|lra].
      * split; [assumption|lra].
    + assert (En : is_nan (pp_min p) = false) by (destruct (pp_min p); [reflexivity|reflexivity|discriminate|reflexivity]).
      rewrite En. destruct (Bleb (pp_min p) (pp_max p)); split; try assumption; lra.
  - destruct x as [sx|sx| |sx mx ex Bx]; try discriminate. destruct sx.
    + assert (E : Bleb (pp_min p) (B754_infinity true : b64) = false) by (destruct (pp_min p) as [[]|[]| |[] ? ? ?]; try discriminate; reflexivity).
      rewrite E. assert (En : is_nan (pp_min p) = false) by (destruct (pp_min p); [reflexivity|reflexivity|discriminate|reflexivity]).
      rewrite En. destruct (Bleb (pp_min p) (pp_max p)); split; try assumption; lra.
    + assert (E : Bleb (pp_min p) (B754_infinity false : b64) = true) by (destruct (pp_min p) as [[]|[]| |[] ? ? ?]; try discriminate; reflexivity).
      rewrite E. cbn [is_nan].
      assert (E' : Bleb (B754_infinity false : b64) (pp_max p) = false) by (destruct (pp_max p) as [[]|[]| |[] ? ? ?]; try discriminate; reflexivity).
      rewrite E'. split; [assumption|lra].
Qed.

Lemma clip_finite p x : pparams_ok p -> is_finite x = true ->
  B2R (np_clip x (pp_min p) (pp_max p)) = Rmin (Rmax (B2R x) (B2R (pp_min p))) (B2R (pp_max p)).
Proof.
  intros K Fx. destruct (ppo_fin p K) as (_ & _ & _ & _ & F5 & F6). pose proof (ppo_bounds p K) as Hb.
  assert (Hx : is_nan x = false) by (destruct x; [reflexivity|reflexivity|discriminate|reflexivity]).
  assert (En : is_nan (pp_min p) = false) by (destruct (pp_min p); [reflexivity|reflexivity|discriminate|reflexivity]).
  unfold np_clip, np_maximum, np_minimum. rewrite Hx.
  destruct (Bleb (pp_min p) x) eqn:E1.
  - apply leb_R in E1; [|assumption|assumption]. rewrite Hx, Rmax_left by lra.
    destruct (Bleb x (pp_max p)) eqn:E2.
    + apply leb_R in E2; [|assumption|assumption]. rewrite Rmin_left by lra. reflexivity.
    + destruct (Rle_lt_dec (B2R x) (B2R (pp_max p))) as [H|H]; [apply leb_R in H; [congruence|assumption|assumption]|].
      rewrite Rmin_right by lra. reflexivity.
  - rewrite En. destruct (Rle_lt_dec (B2R (pp_min p)) (B2R x)) as [H|H]; [apply leb_R in H; [congruence|assumption|assumption]|].
    rewrite Rmax_right by lra. assert (E2 : Bleb (pp_min p) (pp_max p) = true) by (apply leb_R; [assumption|assumption|lra]).
    rewrite E2, Rmin_left by lra. reflexivity.
Qed.

Lemma is_rnd_not_nan f r : is_rnd f r -> is_nan f = false.
Proof.
  unfold is_rnd. destruct (Rlt_bool _ _); [|intros ->; reflexivity].
  intros [H _]. destruct f; [reflexivity|reflexivity|discriminate|reflexivity].
Qed.

Lemma rnd_b64 (x : b64) : rnd (B2R x) = B2R x.
Proof. apply round_generic; [apply valid_rnd_round_mode|]. apply generic_format_B2R. Qed.

Lemma b64_lt_max (x : b64) : is_finite x = true -> B2R x < bpow radix2 1024.
Proof. intros H. apply Rle_lt_trans with (Rabs (B2R x)); [apply RRle_abs|]. apply abs_B2R_lt_emax. Qed.

(** Increasing does not decrease, decreasing does not increase. *)
Lemma increase_ge p x : pparams_ok p -> in_bounds p x ->
  in_bounds p (np_clip (b64_mul (pp_increase p) x) (pp_min p) (pp_max p)) /\
  B2R x <= B2R (np_clip (b64_mul (pp_increase p) x) (pp_min p) (pp_max p)).
Proof.
  intros K [Fx Bx]. destruct (ppo_fin p K) as (F1 & _ & _ & _ & F5 & F6). pose proof (ppo_bounds p K) as Hb.
  pose proof (ppo_increase p K) as Hi.
  pose proof (mul_is_rnd (pp_increase p) x F1 Fx ltac:(lra) ltac:(lra)) as Hr.
  split; [apply clip_bounds; [exact K|exact (is_rnd_not_nan _ _ Hr)]|].
  assert (Hge : B2R x <= rnd (B2R (pp_increase p) * B2R x)).
  { rewrite <- (rnd_b64 x) at 1. apply rnd_le. nra. }
  unfold is_rnd in Hr. destruct (Rlt_bool _ _).
  - destruct Hr as [Hf He]. rewrite (clip_finite p _ K Hf), He.
    apply Rmin_glb; [apply Rle_trans with (2 := Rmax_l _ _); exact Hge|lra].
  - rewrite Hr. unfold np_clip, np_maximum, np_minimum. cbn [is_nan].
    assert (E : Bleb (pp_min p) (B754_infinity false : b64) = true) by (destruct (pp_min p) as [[]|[]| |[] ? ? ?]; try discriminate; reflexivity).
    rewrite E. cbn [is_nan].
    assert (E' : Bleb (B754_infinity false : b64) (pp_max p) = false) by (destruct (pp_max p) as [[]|[]| |[] ? ? ?]; try discriminate; reflexivity).
    rewrite E'. lra.
Qed.

Lemma decrease_le p x : pparams_ok p -> in_bounds p x ->
  in_bounds p (np_clip (b64_mul (pp_decrease p) x) (pp_min p) (pp_max p)) /\
  B2R (np_clip (b64_mul (pp_decrease p) x) (pp_min p) (pp_max p)) <= B2R x.
Proof.
  intros K [Fx Bx]. destruct (ppo_fin p K) as (_ & F2 & _ & _ & F5 & F6). pose proof (ppo_bounds p K) as Hb.
  pose proof (ppo_decrease p K) as Hi.
  pose proof (mul_is_rnd (pp_decrease p) x F2 Fx ltac:(lra) ltac:(lra)) as Hr.
  split; [apply clip_bounds; [exact K|exact (is_rnd_not_nan _ _ Hr)]|].
  assert (Hle : rnd (B2R (pp_decrease p) * B2R x) <= B2R x).
  { rewrite <- (rnd_b64 x) at 2. apply rnd_le. nra. }
  unfold is_rnd in Hr. destruct (Rlt_bool_spec (rnd (B2R (pp_decrease p) * B2R x)) (bpow radix2 1024)) as [_|H].
  - destruct Hr as [Hf He]. rewrite (clip_finite p _ K Hf), He.
    apply Rle_trans with (1 := Rmin_l _ _). apply Rmax_lub; lra.
  - pose proof (b64_lt_max x Fx). lra.
Qed.

(** The feasible fraction, and the difference to the target. *)
Lemma feas_fraction viols : viols <> [] -> is_finite (b64_of_Z (Z.of_nat (length viols))) = true ->
  is_finite (feas_percentage viols) = true /\ 0 <= B2R (feas_percentage viols) <= 1.
Proof.
  intros Hne Hfin. unfold feas_percentage.
  set (n := length viols) in *. set (k := length (filter (Z.eqb 0) viols)).
  assert (Hk : (k <= n)%nat) by (subst k n; clear; induction viols as [|z l IH]; cbn; [lia|]; destruct z; cbn; lia).
  assert (Hn : (1 <= n)%nat) by (subst n; destruct viols; [contradiction|cbn; lia]).
  pose proof (of_Z_is_rnd (Z.of_nat n) ltac:(lia)) as Rn. pose proof (of_Z_is_rnd (Z.of_nat k) ltac:(lia)) as Rk.
  assert (Hkn : rnd (IZR (Z.of_nat k)) <= rnd (IZR (Z.of_nat n))) by (apply rnd_le, IZR_le; lia).
  assert (H1n : 1 <= rnd (IZR (Z.of_nat n))) by (rewrite <- rnd_one; apply rnd_le; change 1 with (IZR 1); apply IZR_le; lia).
  assert (H0k : 0 <= rnd (IZR (Z.of_nat k))) by (apply rnd_nonneg; change 0 with (IZR 0); apply IZR_le; lia).
  unfold is_rnd in Rn, Rk.
  destruct (Rlt_bool_spec (rnd (IZR (Z.of_nat n))) (bpow radix2 1024)) as [Hlt|Hlt]; [|rewrite Rn in Hfin; discriminate].
  rewrite Rlt_bool_true in Rk by lra. destruct Rn as [Fn En], Rk as [Fk Ek].
  pose proof (Bdiv_correct 53 1024 b64_prec b64_emax mode_NE (b64_of_Z (Z.of_nat k)) (b64_of_Z (Z.of_nat n))) as H.
  rewrite En, Ek in H. specialize (H ltac:(lra)).
  set (a := rnd (IZR (Z.of_nat k))) in *. set (b := rnd (IZR (Z.of_nat n))) in *.
  assert (Hq : 0 <= a / b <= 1).
  { split; [apply Rmult_le_pos; [assumption|left; apply Rinv_0_lt_compat; lra]|].
    apply (Rmult_le_reg_r b); [lra|]. unfold Rdiv. rewrite Rmult_assoc, Rinv_l by lra. lra. }
  assert (Hr : 0 <= rnd (a / b) <= 1).
  { split; [apply rnd_nonneg; lra|]. apply Rle_trans with (rnd 1); [apply rnd_le; lra|rewrite rnd_one; lra]. }
  rewrite Rlt_bool_true in H.
  - destruct H as (H1 & H2 & _). unfold b64_div. rewrite H1, H2. auto.
  - rewrite Rabs_pos_eq by lra. apply Rle_lt_trans with 1; [lra|]. change 1 with (bpow radix2 0). apply bpow_lt. lia.
Qed.

Lemma sub_sign (x y : b64) : is_finite x = true -> is_finite y = true -> 0 <= B2R x <= 1 -> 0 <= B2R y <= 1 ->
  is_finite (b64_sub x y) = true /\ B2R (b64_sub x y) = rnd (B2R x - B2R y) /\
  (0 < B2R (b64_sub x y) <-> B2R y < B2R x).
Proof.
  intros Fx Fy Hx Hy. pose proof (Bminus_correct 53 1024 b64_prec b64_emax mode_NE x y Fx Fy) as H.
  assert (Hr : -1 <= rnd (B2R x - B2R y) <= 1).
  { split.
    - replace (-1) with (rnd (-1)); [apply rnd_le; lra|].
      replace (-1) with (- B2R b64_one) by (rewrite (proj2 one_exact); lra).
      apply round_generic; [apply valid_rnd_round_mode|]. apply generic_format_opp, generic_format_B2R.
    - apply Rle_trans with (rnd 1); [apply rnd_le; lra|rewrite rnd_one; lra]. }
  rewrite Rlt_bool_true in H.
  2:{ apply Rle_lt_trans with 1; [apply Rabs_le; lra|]. change 1 with (bpow radix2 0). apply bpow_lt. lia. }
  destruct H as (H1 & H2 & _). unfold b64_sub. split; [exact H2|]. split; [exact H1|]. rewrite H1. split.
  - intros Hp. destruct (Rlt_le_dec (B2R y) (B2R x)) as [?|Hle]; [assumption|]. exfalso.
    assert (rnd (B2R x - B2R y) <= rnd 0) by (apply rnd_le; lra). rewrite round_0 in H by apply valid_rnd_round_mode. lra.
  - intros Hlt. assert (H0 : 0 <= rnd (B2R x - B2R y)) by (apply rnd_nonneg; lra).
    assert (Hne : rnd (B2R x + - B2R y) <> 0).
    { apply round_plus_neq_0; try apply valid_rnd_round_mode.
      - apply fexp_correct. reflexivity.
      - apply monotone_exp_not_FTZ; [apply fexp_correct; reflexivity|apply fexp_monotone].
      - apply generic_format_B2R.
      - apply generic_format_opp, generic_format_B2R.
      - lra. }
    unfold Rminus in *. lra.
Qed.

(** One revision. *)
Lemma compute_spec p pen feas : pparams_ok p -> in_bounds p pen ->
  is_finite feas = true -> 0 <= B2R feas <= 1 ->
  let new := pm_compute p pen feas in
  in_bounds p new /\
  (Rabs (rnd (B2R (pp_target p) - B2R feas)) < B2R (pp_tolerance p) -> new = pen) /\
  (B2R feas < B2R (pp_target p) -> B2R pen <= B2R new) /\
  (B2R (pp_target p) <= B2R feas -> B2R new <= B2R pen).
Proof.
  intros K Hpen Ff Hf new. subst new. destruct (ppo_fin p K) as (F1 & F2 & F3 & F4 & F5 & F6).
  destruct (sub_sign (pp_target p) feas F3 Ff (ppo_target p K) Hf) as (S1 & S2 & S3).
  unfold pm_compute.
  assert (Ea : Bltb (Babs (b64_sub (pp_target p) feas)) (pp_tolerance p) = true <->
               Rabs (rnd (B2R (pp_target p) - B2R feas)) < B2R (pp_tolerance p)).
  { rewrite ltb_R, B2R_Babs, S2; [reflexivity|rewrite is_finite_Babs; exact S1|exact F4]. }
  destruct (Bltb (Babs (b64_sub (pp_target p) feas)) (pp_tolerance p)).
  { split; [exact Hpen|]. split; [reflexivity|]. split; intros; lra. }
  assert (Hno : ~ Rabs (rnd (B2R (pp_target p) - B2R feas)) < B2R (pp_tolerance p)) by (rewrite <- Ea; discriminate).
  assert (Ep : Bltb b64_zero (b64_sub (pp_target p) feas) = true <-> B2R feas < B2R (pp_target p)).
  { rewrite ltb_R by (assumption || reflexivity). rewrite B2R_b64_zero. exact S3. }
  destruct (Bltb b64_zero (b64_sub (pp_target p) feas)).
  - destruct (increase_ge p pen K Hpen) as [I1 I2]. assert (B2R feas < B2R (pp_target p)) by (apply Ep; reflexivity).
    split; [exact I1|]. split; [intros H1; contradiction|]. split; [intros _; exact I2|intros; lra].
  - destruct (decrease_le p pen K Hpen) as [I1 I2].
    assert (~ B2R feas < B2R (pp_target p)) by (rewrite <- Ep; discriminate).
    split; [exact I1|]. split; [intros H1; contradiction|]. split; [intros; contradiction|intros _; exact I2].
Qed.

(** ** Histories *)
(** One penalty dimension after a list of registered violations. *)
Definition run_one (p : pparams) (pen : b64) (xs : list Z) : b64 * list Z :=
  fold_left (fun st x => register_one p (fst st) (snd st) x) xs (pen, []).

Definition pen_after (p : pparams) (pen : b64) (xs : list Z) : b64 := fst (run_one p pen xs).

Lemma run_one_snoc p pen xs x : run_one p pen (xs ++ [x]) = register_one p (pen_after p pen xs) (snd (run_one p pen xs)) x.
Proof. unfold pen_after, run_one. rewrite fold_left_app. reflexivity. Qed.

(** The violations waiting for the next revision are the most recent ones. *)
Definition lasts (n : nat) (xs : list Z) : list Z := skipn (length xs - n) xs.
Lemma pending p pen xs : (1 <= pp_between p)%Z ->
  let k := Z.to_nat (pp_between p) in
  snd (run_one p pen xs) = lasts (length xs mod k) xs.
Proof.
  intros Hk k. assert (Hk' : (0 < k)%nat) by (subst k; lia).
  induction xs as [|x xs IH] using rev_ind.
  - unfold lasts. rewrite skipn_nil. reflexivity.
  - rewrite run_one_snoc. unfold register_one.
    rewrite IH. assert (Hlen : length (lasts (length xs mod k) xs ++ [x]) = S (length xs mod k)).
    { unfold lasts. rewrite app_length, skipn_length. cbn [length].
      pose proof (Nat.mod_le (length xs) k ltac:(lia)). lia. }
    rewrite Hlen. pose proof (Nat.mod_upper_bound (length xs) k ltac:(lia)) as Hub.
    pose proof (Nat.div_mod (length xs) k ltac:(lia)) as Hdm.
    rewrite app_length. cbn [length].
    destruct (Z.eqb_spec (Z.of_nat (S (length xs mod k))) (pp_between p)) as [E|E]; cbn [negb snd].
    + assert (Hm : ((length xs + 1) mod k = 0)%nat).
      { replace (length xs + 1)%nat with (0 + (length xs / k + 1) * k)%nat by lia. rewrite Nat.mod_add by lia. apply Nat.mod_0_l. lia. }
      rewrite Hm. unfold lasts. rewrite Nat.sub_0_r. symmetry. apply skipn_all.
    + assert (Hm : ((length xs + 1) mod k = S (length xs mod k))%nat).
      { replace (length xs + 1)%nat with (S (length xs mod k) + (length xs / k) * k)%nat by lia.
        rewrite Nat.mod_add by lia. apply Nat.mod_small. lia. }
      rewrite Hm. unfold lasts. rewrite app_length. cbn [length].
      pose proof (Nat.mod_le (length xs) k ltac:(lia)).
      rewrite skipn_app. replace (length xs + 1 - S (length xs mod k))%nat with (length xs - length xs mod k)%nat by lia.
      replace (length xs - length xs mod k - length xs)%nat with 0%nat by lia. reflexivity.
Qed.

(** What one more registration does to a penalty. *)
Theorem one_spec p pen xs x : pparams_ok p -> in_bounds p pen ->
  let k := Z.to_nat (pp_between p) in
  let old := pen_after p pen xs in let new := pen_after p pen (xs ++ [x]) in
  let recent := lasts k (xs ++ [x]) in
  in_bounds p old /\
  ((length (xs ++ [x]) mod k <> 0)%nat -> new = old) /\
  ((length (xs ++ [x]) mod k = 0)%nat ->
     (length recent = k)%nat /\
     (B2R (feas_percentage recent) < B2R (pp_target p) -> B2R old <= B2R new) /\
     (B2R (pp_target p) <= B2R (feas_percentage recent) -> B2R new <= B2R old) /\
     (Rabs (rnd (B2R (pp_target p) - B2R (feas_percentage recent))) < B2R (pp_tolerance p) -> new = old)).
Proof.
  intros K Hpen k old new recent.
  assert (Hk : (0 < k)%nat) by (subst k; pose proof (ppo_between p K); lia).
  assert (Hstep : forall xs x, in_bounds p (pen_after p pen xs) ->
    in_bounds p (pen_after p pen (xs ++ [x])) /\
    ((length (xs ++ [x]) mod k <> 0)%nat -> pen_after p pen (xs ++ [x]) = pen_after p pen xs) /\
    ((length (xs ++ [x]) mod k = 0)%nat -> length (lasts k (xs ++ [x])) = k /\
      pen_after p pen (xs ++ [x]) = pm_compute p (pen_after p pen xs) (feas_percentage (lasts k (xs ++ [x]))))).
  { clear xs x old new recent. intros xs x Hold.
    unfold pen_after at 1 2 4. rewrite run_one_snoc. unfold register_one.
    pose proof (pending p pen xs (ppo_between p K)) as Hp. cbv zeta in Hp. fold k in Hp. rewrite Hp.
    pose proof (Nat.mod_upper_bound (length xs) k ltac:(lia)) as Hub.
    pose proof (Nat.div_mod (length xs) k ltac:(lia)) as Hdm.
    pose proof (Nat.mod_le (length xs) k ltac:(lia)) as Hml.
    assert (Hlen : length (lasts (length xs mod k) xs ++ [x]) = S (length xs mod k)).
    { unfold lasts. rewrite app_length, skipn_length. cbn [length]. lia. }
    rewrite Hlen, app_length. cbn [length].
    destruct (Z.eqb_spec (Z.of_nat (S (length xs mod k))) (pp_between p)) as [E|E]; cbn [negb fst].
    - assert (Ek : S (length xs mod k) = k) by (subst k; lia).
      assert (Hm : ((length xs + 1) mod k = 0)%nat).
      { replace (length xs + 1)%nat with (0 + (length xs / k + 1) * k)%nat by lia. rewrite Nat.mod_add by lia. apply Nat.mod_0_l. lia. }
      assert (El : lasts (length xs mod k) xs ++ [x] = lasts k (xs ++ [x])).
      { unfold lasts. rewrite app_length, skipn_app. cbn [length]. rewrite <- Ek at 2 3.
        replace (length xs + 1 - S (length xs mod k))%nat with (length xs - length xs mod k)%nat by lia.
        replace (length xs - length xs mod k - length xs)%nat with 0%nat by lia. reflexivity. }
      rewrite El in *. rewrite Ek in Hlen.
      split; [|split; [intros H; contradiction|intros _; auto]].
      destruct (feas_fraction (lasts k (xs ++ [x]))) as [Q1 Q2].
      + intros H0. rewrite H0 in Hlen. cbn in Hlen. lia.
      + rewrite Hlen. replace (Z.of_nat k) with (pp_between p) by (subst k; pose proof (ppo_between p K); lia). apply (ppo_between_fin p K).
      + apply (compute_spec p _ _ K Hold Q1 Q2).
    - split; [exact Hold|]. split; [reflexivity|]. intros Hm. exfalso.
      replace (length xs + 1)%nat with (S (length xs mod k) + (length xs / k) * k)%nat in Hm by lia.
      rewrite Nat.mod_add in Hm by lia. rewrite Nat.mod_small in Hm; [discriminate|]. subst k. lia. }
  assert (Hold : in_bounds p old).
  { subst old. clear new recent. induction xs as [|y xs IH] using rev_ind; [exact Hpen|]. apply Hstep. exact IH. }
  destruct (Hstep xs x Hold) as (_ & H2 & H3). split; [exact Hold|]. split; [exact H2|].
  intros Hm. destruct (H3 Hm) as [Hl Hn]. split; [exact Hl|].
  destruct (feas_fraction recent) as [Q1 Q2].
  { intros H0. unfold recent in H0. rewrite H0 in Hl. cbn in Hl. lia. }
  { unfold recent. rewrite Hl. replace (Z.of_nat k) with (pp_between p) by (subst k; pose proof (ppo_between p K); lia). apply (ppo_between_fin p K). }
  destruct (compute_spec p old (feas_percentage recent) K Hold Q1 Q2) as (_ & C1 & C2 & C3).
  subst new. rewrite Hn. auto.
Qed.

(** The manager runs the dimensions side by side. *)
Definition pm_run (m : pmanager) (xss : list (list Z)) : res pmanager :=
  fold_left (fun m xs => match m with Ok m => pm_register m xs | Err e => Err e end) xss (Ok m).
Definition column (i : nat) (xss : list (list Z)) : list Z := map (fun xs => nth i xs 0%Z) xss.

Lemma register_all_spec p pens : forall viols xs, length viols = length pens -> length xs = length pens ->
  let r := register_all p pens viols xs in
  length (fst r) = length pens /\ length (snd r) = length pens /\
  forall i, (i < length pens)%nat ->
    (nth i (fst r) b64_zero, nth i (snd r) []) = register_one p (nth i pens b64_zero) (nth i viols []) (nth i xs 0%Z).
Proof.
  induction pens as [|pen pens IH]; intros [|v viols] [|x xs] H1 H2; try discriminate.
  - cbn. split; [reflexivity|]. split; [reflexivity|]. intros i Hi. lia.
  - cbn [register_all]. destruct (register_one p pen v x) as [pen' v'] eqn:E1.
    specialize (IH viols xs ltac:(cbn in H1; lia) ltac:(cbn in H2; lia)).
    destruct (register_all p pens viols xs) as [pens' viols']. cbn [fst snd] in *.
    destruct IH as (I1 & I2 & I3). cbn [length]. split; [lia|]. split; [lia|].
    intros [|i] Hi; cbn [nth]; [symmetry; exact E1|]. apply I3. lia.
Qed.

Theorem pm_run_spec loads tw dist p xss :
  let m := make_pmanager loads tw dist p in
  Forall (fun xs => length xs = (length loads + 2)%nat) xss ->
  exists m', pm_run m xss = Ok m' /\ pm_params m' = p /\ length (pm_penalties m') = (length loads + 2)%nat /\
  length (pm_viols m') = (length loads + 2)%nat /\
  forall i, (i < length loads + 2)%nat ->
    (nth i (pm_penalties m') b64_zero, nth i (pm_viols m') [])
      = run_one p (np_clip (nth i (loads ++ [tw; dist]) b64_zero) (pp_min p) (pp_max p)) (column i xss).
Proof.
  intros m Hx. induction xss as [|xs xss IH] using rev_ind.
  - exists m. split; [reflexivity|]. split; [reflexivity|]. unfold m, make_pmanager. cbn [pm_penalties pm_viols].
    rewrite !map_length, app_length. cbn [length]. split; [reflexivity|]. split; [reflexivity|].
    intros i Hi. unfold run_one, column. cbn [map fold_left].
    rewrite (nth_indep _ _ (np_clip b64_zero (pp_min p) (pp_max p))) by (rewrite map_length, app_length; cbn [length]; lia).
    rewrite (map_nth (fun x => np_clip x (pp_min p) (pp_max p))). f_equal.
    clear. generalize (map (fun x : b64 => np_clip x (pp_min p) (pp_max p)) (loads ++ [tw; dist])). intros l. revert i.
    induction l as [|x l IH]; intros [|i]; cbn; auto.
  - apply Forall_app in Hx. destruct Hx as [Hx Hxs]. inversion Hxs as [|? ? Hl _]; subst.
    destruct (IH Hx) as (m' & E & Ep & L1 & L2 & L3). unfold pm_run in *. rewrite fold_left_app, E. cbn [fold_left].
    unfold pm_register. rewrite L1, Hl, Nat.ltb_irrefl, Ep.
    destruct (register_all_spec p (pm_penalties m') (pm_viols m') xs ltac:(lia) ltac:(lia)) as (R1 & R2 & R3).
    destruct (register_all p (pm_penalties m') (pm_viols m') xs) as [pens viols]. cbn [fst snd] in *.
    eexists. split; [reflexivity|]. cbn [pm_params pm_penalties pm_viols]. split; [reflexivity|]. split; [lia|]. split; [lia|].
    intros i Hi. rewrite (R3 i ltac:(lia)). specialize (L3 i Hi). unfold column. rewrite map_app. cbn [map].
    rewrite run_one_snoc. unfold pen_after. unfold column in L3. rewrite <- L3. reflexivity.
Qed.

(** Hence every penalty always lies within the bounds, and the evaluators can be made and are sane. *)
Theorem pm_bounds loads tw dist p xss m' : pparams_ok p ->
  Forall (fun x => is_nan x = false) (loads ++ [tw; dist]) ->
  Forall (fun xs => length xs = (length loads + 2)%nat) xss ->
  pm_run (make_pmanager loads tw dist p) xss = Ok m' -> Forall (in_bounds p) (pm_penalties m').
Proof.
  intros K Hn Hx E. destruct (pm_run_spec loads tw dist p xss Hx) as (m2 & E2 & _ & L1 & _ & L3).
  rewrite E in E2. injection E2 as <-. apply Forall_forall. intros x Hin.
  destruct (In_nth _ _ b64_zero Hin) as (i & Hi & <-). rewrite L1 in Hi. specialize (L3 i Hi).
  assert (Hc : in_bounds p (np_clip (nth i (loads ++ [tw; dist]) b64_zero) (pp_min p) (pp_max p))).
  { apply clip_bounds; [exact K|]. rewrite Forall_forall in Hn. apply Hn. apply nth_In. rewrite app_length. exact Hi. }
  replace (nth i (pm_penalties m') b64_zero) with (fst (nth i (pm_penalties m') b64_zero, nth i (pm_viols m') [])) by reflexivity.
  rewrite L3. destruct (one_spec p _ (column i xss) 0%Z K Hc) as [H _]. exact H.
Qed.

Lemma pens_evaluator pens p : pparams_ok p -> (2 <= length pens)%nat -> Forall (in_bounds p) pens ->
  exists ev, evaluator_of_pens pens = Ok ev /\ ev_ok ev /\ length (ev_load ev) = (length pens - 2)%nat.
Proof.
  intros K Hl Hb. pose proof (ppo_bounds p K) as Hpb. unfold evaluator_of_pens.
  assert (Hneg : forall x, In x pens -> is_finite x = true /\ b64_neg x = false).
  { intros x Hx. rewrite Forall_forall in Hb. destruct (Hb x Hx) as [F B]. split; [exact F|].
    destruct (b64_neg x) eqn:En; [|reflexivity]. unfold b64_neg in En. apply ltb_R in En; [|exact F|reflexivity].
    rewrite B2R_b64_zero in En. lra. }
  set (n := (length pens - 2)%nat).
  assert (H1 : In (nth n pens b64_zero) pens) by (apply nth_In; lia).
  assert (H2 : In (nth (n + 1) pens b64_zero) pens) by (apply nth_In; lia).
  assert (H3 : forall x, In x (firstn n pens) -> In x pens).
  { intros x Hx. rewrite <- (firstn_skipn n pens). apply in_or_app. left. exact Hx. }
  destruct (Hneg _ H1) as [A1 A2], (Hneg _ H2) as [B1 B2].
  assert (E : existsb b64_neg (firstn n pens) = false).
  { apply Bool.not_true_is_false. intros Hex. apply existsb_exists in Hex. destruct Hex as (x & Hx & Hx2).
    destruct (Hneg x (H3 x Hx)). congruence. }
  assert (Em : exists ev, make_evaluator (firstn n pens) (nth n pens b64_zero) (nth (n + 1) pens b64_zero) = Ok ev).
  { unfold make_evaluator. rewrite E, A2, B2. eexists. reflexivity. }
  destruct Em as [ev Em]. exists ev. split; [exact Em|].
  destruct (make_evaluator_ok _ _ _ ev Em) as [Q1 Q2].
  - apply Forall_forall. intros x Hx. apply Hneg. apply H3. exact Hx.
  - exact A1.
  - exact B1.
  - split; [exact Q1|]. rewrite Q2, firstn_length. lia.
Qed.

Theorem pm_evaluators loads tw dist p xss m' : pparams_ok p ->
  Forall (fun x => is_nan x = false) (loads ++ [tw; dist]) ->
  Forall (fun xs => length xs = (length loads + 2)%nat) xss ->
  pm_run (make_pmanager loads tw dist p) xss = Ok m' ->
  (exists ev, pm_evaluator m' = Ok ev /\ ev_ok ev /\ length (ev_load ev) = length loads) /\
  (exists ev, pm_max_evaluator m' = Ok ev /\ ev_ok ev /\ length (ev_load ev) = length loads).
Proof.
  intros K Hn Hx E. pose proof (pm_bounds loads tw dist p xss m' K Hn Hx E) as HB.
  destruct (pm_run_spec loads tw dist p xss Hx) as (m2 & E2 & Ep & L1 & _ & _). rewrite E in E2. injection E2 as <-.
  split.
  - destruct (pens_evaluator (pm_penalties m') p K ltac:(lia) HB) as (ev & H1 & H2 & H3).
    exists ev. split; [exact H1|]. split; [exact H2|]. rewrite H3, L1. apply Nat.add_sub.
  - destruct (pens_evaluator (map (fun _ => pp_max (pm_params m')) (pm_penalties m')) p K) as (ev & H1 & H2 & H3).
    + rewrite map_length. lia.
    + apply Forall_forall. intros x Hin. apply in_map_iff in Hin. destruct Hin as (y & <- & _). rewrite Ep.
      destruct (ppo_fin p K) as (_ & _ & _ & _ & _ & F6). split; [exact F6|]. pose proof (ppo_bounds p K). lra.
    + exists ev. split; [exact H1|]. split; [exact H2|]. rewrite H3, map_length, L1. apply Nat.add_sub.
Qed.
