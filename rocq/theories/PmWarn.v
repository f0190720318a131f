(** The warning of pyvrp/PenaltyManager.py (lines 166-169 and 200-231), which Pm.v leaves out. *)
From Coq Require Import ZArith Reals Lia Lra Psatz.
From Flocq Require Import Core.Core IEEE754.BinarySingleNaN Plus_error Relative.
From Verif Require Import Base DurationSegment Data LoadSegment SearchRoute Route Cost CostFacts Solution Penalty Rng RngFloat Pm.
Local Open Scope Z_scope.

(** Line 209: statistics.fmean of a list of integers.  Every integer is converted to double, math.fsum rounds the exact
    sum of these (integral) numbers once, and the result is divided by the number of values. *)
Definition float_int (x : Z) : Z := Btrunc (b64_of_Z x).
Definition fmean (xs : list Z) : b64 :=
  b64_div (b64_of_Z (zsum (map float_int xs))) (b64_of_Z (Z.of_nat (length xs))).

(** One penalty dimension: the penalty, the violations since the last update (line 168) and the average violation at
    the last update (line 169). *)
Record wdim := mk_wdim { wd_pen : b64; wd_viols : list Z; wd_prev : b64 }.
Record wmanager := mk_wmanager { wm_params : pparams; wm_dims : list wdim }.
(** PenaltyManager.py:154-169 *)
Definition make_wmanager (loads : list b64) (tw dist : b64) (p : pparams) : wmanager :=
  mk_wmanager p (map (fun x => mk_wdim (np_clip x (pp_min p) (pp_max p)) [] (B754_infinity false)) (loads ++ [tw; dist])).

(** PenaltyManager.py:212-219 *)
Definition warns (p : pparams) (pen prev : b64) (viols : list Z) : bool :=
  Bleb (pp_max p) pen && Bleb (pp_tolerance p) (b64_sub (pp_target p) (feas_percentage viols)) && Bleb prev (fmean viols).
(** PenaltyManager.py:200-231; the flag tells whether warn was called. *)
Definition w_register_one (p : pparams) (d : wdim) (violation : Z) : wdim * bool :=
  let viols := wd_viols d ++ [violation] in
  if negb (Z.of_nat (length viols) =? pp_between p) then (mk_wdim (wd_pen d) viols (wd_prev d), false)
  else (mk_wdim (pm_compute p (wd_pen d) (feas_percentage viols)) [] (fmean viols), warns p (wd_pen d) (wd_prev d) viols).
(** PenaltyManager.py:233-244.  The flags are those of the dimensions. *)
Fixpoint w_register_all (p : pparams) (ds : list wdim) (xs : list Z) : list wdim * list bool :=
  match ds, xs with
  | d :: ds, x :: xs =>
      let '(d, b) := w_register_one p d x in
      let '(ds, bs) := w_register_all p ds xs in
      (d :: ds, b :: bs)
  | _, _ => (ds, [])
  end.
Definition wm_register (m : wmanager) (xs : list Z) : res (wmanager * list bool) :=
  if (length (wm_dims m) <? length xs)%nat then Err OutOfRange
  else let '(ds, bs) := w_register_all (wm_params m) (wm_dims m) xs in Ok (mk_wmanager (wm_params m) ds, bs).

(** What Pm.v keeps of this. *)
Definition forget (m : wmanager) : pmanager := mk_pmanager (wm_params m) (map wd_pen (wm_dims m)) (map wd_viols (wm_dims m)).

Lemma forget_make loads tw dist p : forget (make_wmanager loads tw dist p) = make_pmanager loads tw dist p.
Proof. unfold forget, make_wmanager, make_pmanager. cbn [wm_params wm_dims]. rewrite !map_map. reflexivity. Qed.

Lemma w_register_all_forget p : forall ds xs,
  register_all p (map wd_pen ds) (map wd_viols ds) xs
  = (map wd_pen (fst (w_register_all p ds xs)), map wd_viols (fst (w_register_all p ds xs))).
Proof.
  induction ds as [|d ds IH]; intros [|x xs]; try reflexivity. cbn [map register_all w_register_all].
  unfold register_one, w_register_one. rewrite (IH xs). destruct (w_register_all p ds xs) as [ds' bs].
  cbn [fst]. destruct (negb _); reflexivity.
Qed.
Theorem register_forget m xs :
  pm_register (forget m) xs = match wm_register m xs with Ok (m', _) => Ok (forget m') | Err e => Err e end.
Proof.
  unfold pm_register, wm_register, forget. cbn [pm_params pm_penalties pm_viols]. rewrite map_length.
  destruct (_ <? _)%nat; [reflexivity|]. rewrite w_register_all_forget.
  destruct (w_register_all (wm_params m) (wm_dims m) xs) as [ds bs]. reflexivity.
Qed.

(** Registering a whole history; the flags of each registration. *)
Fixpoint wm_run (m : wmanager) (xss : list (list Z)) : res (wmanager * list (list bool)) :=
  match xss with
  | [] => Ok (m, [])
  | xs :: xss =>
      match wm_register m xs with
      | Err e => Err e
      | Ok (m, bs) => match wm_run m xss with Err e => Err e | Ok (m, bss) => Ok (m, bs :: bss) end
      end
  end.

Definition w_run_one (p : pparams) (pen : b64) (xs : list Z) : wdim :=
  fold_left (fun d x => fst (w_register_one p d x)) xs (mk_wdim pen [] (B754_infinity false)).
Lemma w_run_one_snoc p pen xs x : w_run_one p pen (xs ++ [x]) = fst (w_register_one p (w_run_one p pen xs) x).
Proof. unfold w_run_one. rewrite fold_left_app. reflexivity. Qed.
Lemma w_run_one_forget p pen xs : (wd_pen (w_run_one p pen xs), wd_viols (w_run_one p pen xs)) = run_one p pen xs.
Proof.
  induction xs as [|x xs IH] using rev_ind; [reflexivity|]. rewrite w_run_one_snoc, run_one_snoc.
  unfold pen_after. rewrite <- IH. cbn [fst snd]. unfold w_register_one, register_one. destruct (negb _); reflexivity.
Qed.

Local Open Scope R_scope.
(** ** Averages of integers *)
Lemma of_Z_exact x : (0 <= x <= 2 ^ 53)%Z -> is_finite (b64_of_Z x) = true /\ B2R (b64_of_Z x) = IZR x.
Proof.
  intros Hx. pose proof (of_Z_is_rnd x ltac:(lia)) as H. unfold is_rnd in H.
  assert (E : rnd (IZR x) = IZR x).
  { apply round_generic; [apply valid_rnd_round_mode|]. change (SpecFloat.fexp 53 1024) with (FLT_exp (-1074) 53).
    destruct (Z.eq_dec x (2 ^ 53)) as [->|Hne].
    - change (2 ^ 53)%Z with (Zpower radix2 53). rewrite IZR_Zpower by lia. apply generic_format_bpow. unfold FLT_exp. lia.
    - apply generic_format_FLT. exists (Float radix2 x 0); [unfold F2R; cbn; lra|cbn [Fnum]|cbn; lia].
      rewrite Z.abs_eq by lia. change (Zpower radix2 53) with (2 ^ 53)%Z. lia. }
  rewrite E in H. rewrite Rlt_bool_true in H; [exact H|].
  rewrite bpow_IZR. apply IZR_lt. apply Z.le_lt_trans with (2 ^ 53)%Z; [lia|]. apply Z.pow_lt_mono_r; lia.
Qed.
Lemma float_int_small x : (0 <= x <= 2 ^ 53)%Z -> float_int x = x.
Proof.
  intros Hx. destruct (of_Z_exact x Hx) as [Hf He]. unfold float_int. apply eq_IZR.
  rewrite (Btrunc_correct 53 1024 b64_emax), He, round_FIX_IZR, Ztrunc_IZR. reflexivity.
Qed.
Lemma zsum_bound xs : Forall (Z.le 0) xs -> (0 <= zsum xs)%Z /\ Forall (fun x => (x <= zsum xs)%Z) xs.
Proof.
  induction 1 as [|x xs Hx _ [IH1 IH2]]; [split; [cbn; lia|constructor]|].
  assert (E : zsum (x :: xs) = (x + zsum xs)%Z) by reflexivity. rewrite E. split; [lia|]. constructor; [lia|].
  eapply Forall_impl; [|exact IH2]. cbn. intros a Ha. lia.
Qed.
Lemma floats_small xs : Forall (Z.le 0) xs -> (zsum xs < 2 ^ 52)%Z -> map float_int xs = xs.
Proof.
  intros H0 Hs. destruct (zsum_bound xs H0) as [_ Hb]. revert H0 Hb. generalize (zsum xs) Hs. clear Hs. intros S HS H0 Hb.
  induction xs as [|x xs IH]; [reflexivity|]. inversion H0; inversion Hb; subst. cbn [map].
  rewrite float_int_small, IH; auto. lia.
Qed.
Lemma fmean_spec xs : Forall (Z.le 0) xs -> (zsum xs < 2 ^ 52)%Z -> (1 <= Z.of_nat (length xs) <= 2 ^ 53)%Z ->
  is_finite (fmean xs) = true /\ B2R (fmean xs) = rnd (IZR (zsum xs) / IZR (Z.of_nat (length xs))).
Proof.
  intros H0 Hs Hl. unfold fmean. rewrite (floats_small xs H0 Hs). destruct (zsum_bound xs H0) as [Hp _].
  destruct (of_Z_exact (zsum xs) ltac:(lia)) as [F1 E1]. destruct (of_Z_exact (Z.of_nat (length xs)) ltac:(lia)) as [F2 E2].
  set (S := zsum xs) in *. set (k := Z.of_nat (length xs)) in *.
  assert (Hk : 1 <= IZR k) by (apply IZR_le; lia). assert (HS : 0 <= IZR S) by (apply IZR_le; lia).
  pose proof (Bdiv_correct 53 1024 b64_prec b64_emax mode_NE (b64_of_Z S) (b64_of_Z k)) as H.
  rewrite E1, E2 in H. specialize (H ltac:(lra)).
  assert (Hq : 0 <= IZR S / IZR k <= IZR S).
  { split; [apply Rmult_le_pos; [assumption|left; apply Rinv_0_lt_compat; lra]|].
    apply (Rmult_le_reg_r (IZR k)); [lra|]. unfold Rdiv. rewrite Rmult_assoc, Rinv_l by lra. nra. }
  rewrite Rlt_bool_true in H.
  - destruct H as (H1 & H2 & _). unfold b64_div. rewrite H1, H2. auto.
  - rewrite Rabs_pos_eq by (apply rnd_nonneg; lra).
    apply Rle_lt_trans with (rnd (IZR S)); [apply rnd_le; lra|]. rewrite <- E1, rnd_b64. apply b64_lt_max. exact F1.
Qed.
Lemma mean_order S T k : (0 <= S < 2 ^ 52)%Z -> (0 <= T < 2 ^ 52)%Z -> (1 <= k <= 2 ^ 53)%Z ->
  rnd (IZR S / IZR k) <= rnd (IZR T / IZR k) <-> (S <= T)%Z.
Proof.
  intros HS HT Hk. assert (Hk' : 1 <= IZR k) by (apply IZR_le; lia).
  assert (Hi : 0 < / IZR k) by (apply Rinv_0_lt_compat; lra).
  split.
  2:{ intros H. apply rnd_le. apply Rmult_le_compat_r; [lra|]. apply IZR_le. exact H. }
  intros H. destruct (Z_le_gt_dec S T) as [?|Hgt]; [assumption|]. exfalso.
  assert (Herr : forall X, (0 <= X < 2 ^ 52)%Z -> Rabs (rnd (IZR X / IZR k) - IZR X / IZR k) < / 2 * / IZR k).
  { intros X HX. destruct (Z.eq_dec X 0) as [->|Hne].
    - unfold Rdiv. rewrite Rmult_0_l, round_0 by apply valid_rnd_round_mode. rewrite Rminus_0_r, Rabs_R0. lra.
    - assert (HX1 : 1 <= IZR X) by (apply IZR_le; lia).
      assert (HX2 : IZR X < bpow radix2 52) by (rewrite <- (IZR_Zpower radix2) by lia; apply IZR_lt; cbn; lia).
      assert (Hq : 0 < IZR X / IZR k) by (apply Rmult_lt_0_compat; lra).
      apply Rle_lt_trans with (/ 2 * bpow radix2 (- 53 + 1) * Rabs (IZR X / IZR k)).
      + apply (relative_error_N_FLT radix2 (-1074) 53 ltac:(reflexivity) (fun x => negb (Z.even x))).
        rewrite Rabs_pos_eq by lra. apply Rle_trans with (/ IZR k).
        * apply Rle_trans with (bpow radix2 (-53)); [apply bpow_le; lia|].
          change (-53)%Z with (Z.opp 53). rewrite bpow_opp. apply Rinv_le; [lra|]. rewrite <- (IZR_Zpower radix2) by lia. apply IZR_le. cbn; lia.
        * unfold Rdiv. nra.
      + rewrite Rabs_pos_eq by lra. change (- 53 + 1)%Z with (Z.opp 52). rewrite bpow_opp.
        assert (Hb : 0 < bpow radix2 52) by apply bpow_gt_0.
        unfold Rdiv. rewrite Rmult_assoc. apply Rmult_lt_compat_l; [lra|].
        rewrite <- Rmult_assoc. rewrite <- (Rmult_1_l (/ IZR k)) at 2. apply Rmult_lt_compat_r; [exact Hi|].
        apply (Rmult_lt_reg_l (bpow radix2 52)); [exact Hb|]. rewrite <- Rmult_assoc, Rinv_r by lra. lra. }
  pose proof (Herr S HS) as ES. pose proof (Herr T HT) as ET. apply Rabs_def2 in ES, ET.
  assert (HST : IZR T + 1 <= IZR S) by (rewrite <- plus_IZR; apply IZR_le; lia).
  assert (IZR T / IZR k + / IZR k <= IZR S / IZR k) by (unfold Rdiv; nra).
  lra.
Qed.

(** ** When a registration warns *)
Local Open Scope nat_scope.
(** The last n values, and the n values before these. *)
Definition window_before (n : nat) (xs : list Z) : list Z := lasts n (firstn (length xs - n) xs).

Lemma lasts_pending k xs x : 0 < k -> S (length xs mod k) = k -> lasts (length xs mod k) xs ++ [x] = lasts k (xs ++ [x]).
Proof.
  intros Hk Ek. pose proof (Nat.mod_le (length xs) k ltac:(lia)).
  unfold lasts. rewrite app_length, skipn_app. cbn [length]. rewrite <- Ek at 2 3.
  replace (length xs + 1 - S (length xs mod k)) with (length xs - length xs mod k) by lia.
  replace (length xs - length xs mod k - length xs) with 0 by lia. reflexivity.
Qed.
Lemma mod_snoc k n : 0 < k -> (S (n mod k) = k <-> (n + 1) mod k = 0).
Proof.
  intros Hk. pose proof (Nat.mod_upper_bound n k ltac:(lia)). pose proof (Nat.div_mod n k ltac:(lia)) as Hdm. split.
  - intros E. replace (n + 1) with (0 + (n / k + 1) * k) by lia. rewrite Nat.mod_add by lia. apply Nat.mod_0_l. lia.
  - intros E. destruct (Nat.eq_dec (S (n mod k)) k) as [?|Hne]; [assumption|]. exfalso.
    replace (n + 1) with (S (n mod k) + (n / k) * k) in E by lia.
    rewrite Nat.mod_add in E by lia. rewrite Nat.mod_small in E by lia. discriminate.
Qed.

(** The average that a dimension remembers is that of the last complete window. *)
Lemma prev_spec p pen xs : (1 <= pp_between p)%Z ->
  let k := Z.to_nat (pp_between p) in
  wd_prev (w_run_one p pen xs)
  = if length xs <? k then B754_infinity false else fmean (lasts k (firstn (length xs - length xs mod k) xs)).
Proof.
  intros Hb k. assert (Hk : 0 < k) by (subst k; lia).
  induction xs as [|x xs IH] using rev_ind.
  { cbn [length]. destruct (Nat.ltb_spec 0 k); [reflexivity|lia]. }
  rewrite w_run_one_snoc. unfold w_register_one.
  assert (Ev : wd_viols (w_run_one p pen xs) = lasts (length xs mod k) xs).
  { pose proof (w_run_one_forget p pen xs) as E. pose proof (pending p pen xs Hb) as P. cbv zeta in P. rewrite <- E in P. exact P. }
  rewrite Ev. pose proof (Nat.mod_le (length xs) k ltac:(lia)) as Hml.
  pose proof (Nat.mod_upper_bound (length xs) k ltac:(lia)) as Hub.
  pose proof (Nat.div_mod (length xs) k ltac:(lia)) as Hdm.
  assert (Hlen : length (lasts (length xs mod k) xs ++ [x]) = S (length xs mod k)).
  { unfold lasts. rewrite app_length, skipn_length. cbn [length]. lia. }
  rewrite Hlen. rewrite app_length. cbn [length].
  destruct (Z.eqb_spec (Z.of_nat (S (length xs mod k))) (pp_between p)) as [E|E]; cbn [negb fst wd_prev].
  - assert (Ek : S (length xs mod k) = k) by (subst k; lia).
    rewrite (lasts_pending k xs x Hk Ek). assert (Hm := proj1 (mod_snoc k (length xs) Hk) Ek). rewrite Hm, Nat.sub_0_r.
    destruct (Nat.ltb_spec (length xs + 1) k) as [Hlt|_]; [exfalso; nia|].
    rewrite firstn_all2; [reflexivity|]. rewrite app_length. cbn [length]. lia.
  - assert (Ek : S (length xs mod k) <> k) by (subst k; lia).
    assert (Hm : (length xs + 1) mod k = S (length xs mod k)).
    { replace (length xs + 1) with (S (length xs mod k) + (length xs / k) * k) by lia.
      rewrite Nat.mod_add by lia. apply Nat.mod_small. lia. }
    rewrite IH, Hm. replace (length xs + 1 - S (length xs mod k)) with (length xs - length xs mod k) by lia.
    rewrite firstn_app. replace (length xs - length xs mod k - length xs) with 0 by lia. cbn [firstn]. rewrite app_nil_r.
    destruct (Nat.ltb_spec (length xs) k) as [H1|H1], (Nat.ltb_spec (length xs + 1) k) as [H2|H2]; try reflexivity; exfalso; [|lia].
    rewrite Nat.mod_small in Ek by lia. lia.
Qed.

Lemma lasts_sub n (xs : list Z) (P : Z -> Prop) : Forall P xs -> Forall P (lasts n xs).
Proof.
  intros H. unfold lasts. rewrite <- (firstn_skipn (length xs - n) xs) in H. apply Forall_app in H. apply H.
Qed.
Lemma firstn_sub n (xs : list Z) (P : Z -> Prop) : Forall P xs -> Forall P (firstn n xs).
Proof. intros H. rewrite <- (firstn_skipn n xs) in H. apply Forall_app in H. apply H. Qed.

Local Open Scope R_scope.
Theorem warn_spec p pen xs x : pparams_ok p -> (pp_between p <= 2 ^ 53)%Z -> in_bounds p pen ->
  Forall (Z.le 0) (xs ++ [x]) ->
  let k := Z.to_nat (pp_between p) in let hist := xs ++ [x] in
  let recent := lasts k hist in let before := window_before k hist in
  (zsum recent < 2 ^ 52)%Z -> (zsum before < 2 ^ 52)%Z ->
  snd (w_register_one p (w_run_one p pen xs) x) = true <->
  (length hist mod k = 0 /\ 2 * k <= length hist)%nat /\ B2R (pen_after p pen xs) = B2R (pp_max p) /\
  B2R (pp_tolerance p) <= rnd (B2R (pp_target p) - B2R (feas_percentage recent)) /\ (zsum before <= zsum recent)%Z.
Proof.
  intros K Hb53 Hpen H0 k hist recent before Hr Hbf.
  pose proof (ppo_between p K) as Hb. assert (Hk : (0 < k)%nat) by (subst k; lia).
  destruct (one_spec p pen xs x K Hpen) as (Hold & _ & _).
  pose proof (prev_spec p pen xs Hb) as Hprev. cbv zeta in Hprev. fold k in Hprev.
  assert (Ev : wd_viols (w_run_one p pen xs) = lasts (length xs mod k) xs).
  { pose proof (w_run_one_forget p pen xs) as E. pose proof (pending p pen xs Hb) as P. cbv zeta in P. rewrite <- E in P. exact P. }
  assert (Ep : wd_pen (w_run_one p pen xs) = pen_after p pen xs).
  { unfold pen_after. rewrite <- w_run_one_forget. reflexivity. }
  assert (Hlh : length hist = (length xs + 1)%nat) by (unfold hist; rewrite app_length; reflexivity).
  pose proof (Nat.mod_le (length xs) k ltac:(lia)) as Hml.
  pose proof (Nat.mod_upper_bound (length xs) k ltac:(lia)) as Hub.
  pose proof (Nat.div_mod (length xs) k ltac:(lia)) as Hdm.
  unfold w_register_one. rewrite Ev, Ep.
  assert (Hlen : length (lasts (length xs mod k) xs ++ [x]) = S (length xs mod k)).
  { unfold lasts. rewrite app_length, skipn_length. cbn [length]. lia. }
  rewrite Hlen, Hlh.
  destruct (Z.eqb_spec (Z.of_nat (S (length xs mod k))) (pp_between p)) as [E|E]; cbn [negb snd].
  2:{ split; [discriminate|]. intros ((Hm & _) & _). exfalso. apply (mod_snoc k (length xs) Hk) in Hm. subst k. lia. }
  assert (Ek : S (length xs mod k) = k) by (subst k; lia).
  assert (Hm := proj1 (mod_snoc k (length xs) Hk) Ek).
  rewrite (lasts_pending k xs x Hk Ek). fold hist. fold recent.
  assert (Hrl : length recent = k).
  { unfold recent, hist. rewrite <- (lasts_pending k xs x Hk Ek). rewrite Hlen. exact Ek. }
  assert (Hr0 : Forall (Z.le 0) recent) by (apply lasts_sub; exact H0).
  assert (Hb0 : Forall (Z.le 0) before) by (apply lasts_sub, firstn_sub; exact H0).
  assert (Hkz : Z.of_nat k = pp_between p) by (subst k; lia).
  destruct (fmean_spec recent Hr0 Hr ltac:(rewrite Hrl; lia)) as [Fr Er].
  destruct (feas_fraction recent) as [Q1 Q2].
  { intros C. rewrite C in Hrl. cbn in Hrl. lia. }
  { rewrite Hrl, Hkz. apply (ppo_between_fin p K). }
  destruct (ppo_fin p K) as (_ & _ & F3 & F4 & _ & F6).
  destruct (sub_sign (pp_target p) (feas_percentage recent) F3 Q1 (ppo_target p K) Q2) as (S1 & S2 & _).
  destruct Hold as [Fo Ho].
  unfold warns. rewrite !Bool.andb_true_iff, leb_R, leb_R by assumption. rewrite S2, Hprev.
  assert (Hmax : B2R (pp_max p) <= B2R (pen_after p pen xs) <-> B2R (pen_after p pen xs) = B2R (pp_max p)) by (split; intros; lra).
  rewrite Hmax. destruct (Nat.ltb_spec (length xs) k) as [Hlt|Hge].
  - assert (Hf : Bleb (B754_infinity false) (fmean recent) = false).
    { destruct (fmean recent) as [s|s| |s m e Hbd]; try discriminate Fr; try reflexivity; destruct s; reflexivity. }
    rewrite Hf. split; [intros [_ C]; discriminate|]. intros ((_ & C) & _). lia.
  - assert (Eb : lasts k (firstn (length xs - length xs mod k) xs) = before).
    { unfold before, window_before. rewrite Hlh. replace (length xs + 1 - k)%nat with (length xs - length xs mod k)%nat by lia.
      unfold hist. rewrite firstn_app. replace (length xs - length xs mod k - length xs)%nat with 0%nat by lia.
      cbn [firstn]. rewrite app_nil_r. reflexivity. }
    rewrite Eb. assert (Hdv : (1 <= length xs / k)%nat) by (apply Nat.div_le_lower_bound; lia).
    assert (Hbl : length before = k).
    { rewrite <- Eb. unfold lasts. rewrite skipn_length, firstn_length. nia. }
    destruct (fmean_spec before Hb0 Hbf ltac:(rewrite Hbl; lia)) as [Fb Ebm].
    rewrite leb_R by assumption. rewrite Er, Ebm, Hrl, Hbl.
    destruct (zsum_bound recent Hr0) as [Pr _]. destruct (zsum_bound before Hb0) as [Pb _].
    rewrite (mean_order (zsum before) (zsum recent) (Z.of_nat k)) by lia.
    assert (Hlen2 : (2 * k <= length xs + 1)%nat) by nia.
    tauto.
Qed.

(** After a warning the penalty is still the largest allowed, if the tolerance is positive. *)
Theorem warn_stays p pen xs x : pparams_ok p -> in_bounds p pen -> 0 < B2R (pp_tolerance p) ->
  snd (w_register_one p (w_run_one p pen xs) x) = true ->
  B2R (pen_after p pen (xs ++ [x])) = B2R (pp_max p).
Proof.
  intros K Hpen Ht Hw. destruct (one_spec p pen xs x K Hpen) as (Hold & Hno & Hyes).
  destruct (one_spec p pen (xs ++ [x]) x K Hpen) as (Hnew & _ & _).
  pose proof (ppo_between p K) as Hb. set (k := Z.to_nat (pp_between p)) in *. assert (Hk : (0 < k)%nat) by (subst k; lia).
  assert (Ev : wd_viols (w_run_one p pen xs) = lasts (length xs mod k) xs).
  { pose proof (w_run_one_forget p pen xs) as E. pose proof (pending p pen xs Hb) as P. cbv zeta in P. rewrite <- E in P. exact P. }
  assert (Ep : wd_pen (w_run_one p pen xs) = pen_after p pen xs).
  { unfold pen_after. rewrite <- w_run_one_forget. reflexivity. }
  unfold w_register_one in Hw. rewrite Ev, Ep in Hw. pose proof (Nat.mod_le (length xs) k ltac:(lia)) as Hml.
  assert (Hlen : length (lasts (length xs mod k) xs ++ [x]) = S (length xs mod k)).
  { unfold lasts. rewrite app_length, skipn_length. cbn [length]. lia. }
  rewrite Hlen in Hw.
  destruct (Z.eqb_spec (Z.of_nat (S (length xs mod k))) (pp_between p)) as [E|E]; cbn [negb snd] in Hw; [|discriminate].
  assert (Ek : S (length xs mod k) = k) by (subst k; lia).
  assert (Hm := proj1 (mod_snoc k (length xs) Hk) Ek).
  assert (Hl : length (xs ++ [x]) = (length xs + 1)%nat) by (rewrite app_length; reflexivity).
  rewrite <- Hl in Hm. destruct (Hyes Hm) as (Hrl & Hup & _).
  rewrite (lasts_pending k xs x Hk Ek) in Hw. set (recent := lasts k (xs ++ [x])) in *.
  destruct (feas_fraction recent) as [Q1 Q2].
  { intros C. rewrite C in Hrl. cbn in Hrl. lia. }
  { rewrite Hrl. replace (Z.of_nat k) with (pp_between p) by (subst k; lia). apply (ppo_between_fin p K). }
  destruct (ppo_fin p K) as (_ & _ & F3 & F4 & _ & F6).
  destruct (sub_sign (pp_target p) (feas_percentage recent) F3 Q1 (ppo_target p K) Q2) as (S1 & S2 & S3).
  destruct Hold as [Fo Ho]. unfold warns in Hw. rewrite !Bool.andb_true_iff, leb_R, leb_R in Hw by assumption.
  destruct Hw as [[W1 W2] _]. specialize (Hup (proj1 S3 ltac:(lra))). destruct Hnew as [_ Hn]. lra.
Qed.

(** ** The manager *)
Lemma w_register_all_spec p : forall ds xs, length xs = length ds ->
  w_register_all p ds xs
  = (map (fun dx => fst (w_register_one p (fst dx) (snd dx))) (combine ds xs),
     map (fun dx => snd (w_register_one p (fst dx) (snd dx))) (combine ds xs)).
Proof.
  induction ds as [|d ds IH]; intros [|x xs] H; try discriminate; [reflexivity|].
  cbn [w_register_all combine map fst snd]. rewrite IH by (cbn in H; lia). destruct (w_register_one p d x). reflexivity.
Qed.
Definition dflt : wdim := mk_wdim b64_zero [] (B754_infinity false).
Lemma wm_run_app m xss yss : wm_run m (xss ++ yss)
  = match wm_run m xss with
    | Ok (m', b1) => match wm_run m' yss with Ok (m'', b2) => Ok (m'', b1 ++ b2) | Err e => Err e end
    | Err e => Err e end.
Proof.
  revert m. induction xss as [|xs xss IH]; intros m.
  - cbn [app wm_run]. destruct (wm_run m yss) as [[? ?]|]; reflexivity.
  - cbn [app wm_run]. destruct (wm_register m xs) as [[m1 b]|]; [|reflexivity]. rewrite IH.
    destruct (wm_run m1 xss) as [[m2 b1]|]; [|reflexivity]. destruct (wm_run m2 yss) as [[? ?]|]; reflexivity.
Qed.
Theorem wm_run_spec loads tw dist p xss :
  let m := make_wmanager loads tw dist p in
  let first i := np_clip (nth i (loads ++ [tw; dist]) b64_zero) (pp_min p) (pp_max p) in
  Forall (fun xs => length xs = (length loads + 2)%nat) xss ->
  exists m' flags, wm_run m xss = Ok (m', flags) /\ wm_params m' = p /\ length (wm_dims m') = (length loads + 2)%nat /\
  length flags = length xss /\
  (forall i, (i < length loads + 2)%nat -> nth i (wm_dims m') dflt = w_run_one p (first i) (column i xss)) /\
  (forall j i, (j < length xss)%nat -> (i < length loads + 2)%nat ->
     nth i (nth j flags []) false
     = snd (w_register_one p (w_run_one p (first i) (column i (firstn j xss))) (nth i (nth j xss []) 0%Z))).
Proof.
  intros m first Hx. induction xss as [|xs xss IH] using rev_ind.
  - exists m, []. repeat split; try reflexivity.
    + unfold m, make_wmanager. cbn [wm_dims]. rewrite map_length, app_length. reflexivity.
    + intros i Hi. unfold m, make_wmanager, w_run_one, column. cbn [wm_dims map fold_left].
      set (f := fun x => mk_wdim (np_clip x (pp_min p) (pp_max p)) [] (B754_infinity false)).
      rewrite (nth_indep _ _ (f b64_zero)) by (rewrite map_length, app_length; cbn [length]; lia).
      rewrite (map_nth f). reflexivity.
    + intros j i Hj. cbn in Hj. lia.
  - apply Forall_app in Hx. destruct Hx as [Hx Hxs]. inversion Hxs as [|? ? Hl _]; subst.
    destruct (IH Hx) as (m' & flags & E & Ep & L1 & L2 & L3 & L4).
    rewrite wm_run_app, E. cbn [wm_run]. unfold wm_register. rewrite L1, Hl, Nat.ltb_irrefl, Ep.
    rewrite w_register_all_spec by lia. do 2 eexists. split; [reflexivity|]. cbn [wm_params wm_dims].
    assert (Hc : length (combine (wm_dims m') xs) = (length loads + 2)%nat) by (rewrite combine_length; lia).
    split; [reflexivity|]. split; [rewrite map_length; exact Hc|]. split; [rewrite !app_length; cbn [length]; lia|].
    assert (Hn : forall i, (i < length loads + 2)%nat -> nth i (combine (wm_dims m') xs) (dflt, 0%Z) = (w_run_one p (first i) (column i xss), nth i xs 0%Z)).
    { intros i Hi. rewrite combine_nth by lia. rewrite (L3 i Hi). reflexivity. }
    split.
    + intros i Hi. set (f := fun dx : wdim * Z => fst (w_register_one p (fst dx) (snd dx))).
      rewrite (nth_indep _ _ (f (dflt, 0%Z))) by (rewrite map_length; lia). rewrite (map_nth f), (Hn i Hi). unfold f. cbn [fst snd].
      unfold column. rewrite map_app. cbn [map]. rewrite w_run_one_snoc. reflexivity.
    + intros j i Hj Hi. rewrite app_length in Hj. cbn [length] in Hj.
      destruct (Nat.lt_ge_cases j (length xss)) as [H1|H1].
      * rewrite (app_nth1 flags) by lia. rewrite (app_nth1 xss) by lia. rewrite firstn_app.
        replace (j - length xss)%nat with 0%nat by lia. cbn [firstn]. rewrite app_nil_r. apply L4; assumption.
      * assert (j = length xss) as -> by lia. rewrite (app_nth2 flags) by lia. rewrite (app_nth2 xss) by lia.
        rewrite L2, Nat.sub_diag. cbn [nth].
        rewrite firstn_app, Nat.sub_diag, firstn_all. cbn [firstn]. rewrite app_nil_r.
        set (f := fun dx : wdim * Z => snd (w_register_one p (fst dx) (snd dx))).
        rewrite (nth_indep _ _ (f (dflt, 0%Z))) by (rewrite map_length; lia). rewrite (map_nth f), (Hn i Hi). reflexivity.
Qed.
Theorem run_forget xss : forall m,
  pm_run (forget m) xss = match wm_run m xss with Ok (m', _) => Ok (forget m') | Err e => Err e end.
Proof.
  assert (Herr : forall e l, fold_left (fun (m : res pmanager) xs => match m with Ok m => pm_register m xs | Err e => Err e end) l (Err e) = Err e)
    by (intros e l; induction l; cbn; auto).
  induction xss as [|xs xss IH]; intros m; [reflexivity|]. unfold pm_run. cbn [fold_left wm_run].
  rewrite register_forget. destruct (wm_register m xs) as [[m1 b]|e]; [|apply Herr].
  fold (pm_run (forget m1) xss). rewrite IH. destruct (wm_run m1 xss) as [[? ?]|]; reflexivity.
Qed.
