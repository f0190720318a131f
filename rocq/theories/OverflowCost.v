(** 64-bit arithmetic of the cost evaluator, as Overflow.v does for routes: [None] is an overflow, or a penalty that
    does not fit when it is cast from double to int64.  Each definition repeats the one of the same name without
    [k] in Cost.v and Solution.v, operation by operation.  The figures of a proposal (distance, excess load, duration) are taken
    as they are here; OverflowSearch.v checks their arithmetic. *)
From Coq Require Import ZArith Lia List Reals Lra.
From Flocq Require Import Core.Core IEEE754.BinarySingleNaN.
From Verif Require Import Base DurationSegment Data LoadSegment SearchRoute Valid Route RouteSpec Cost CostFacts DeltaFacts Solution Penalty Overflow OverflowSeg OverflowRoute OverflowMore PSearch.
Import ListNotations.
Local Open Scope Z_scope.

(** CostEvaluator.h:175-185, 56-58: each product is cast to Cost before it is added. *)
Fixpoint kload_penalties (cost : Z) (fs : list (Z -> Z)) (loads : list Z) : option Z :=
  match fs, loads with
  | f :: fs', x :: loads' => p <-- ck (f x); cost <-- ck (cost + p); kload_penalties cost fs' loads'
  | _, _ => Some cost
  end.
(** Route.cpp:622-635, search/Route.h:1340-1355 *)
Definition kpenalised (ev : evaluator) (empty : bool) (distanceCost durationCost fixedCost : Z) (loads : list Z) (timeWarp excessDistance : Z) : option Z :=
  if empty then Some 0
  else a <-- ck (distanceCost + durationCost);
       a <-- ck (a + fixedCost);
       l <-- kload_penalties 0 (ev_load ev) loads;
       a <-- ck (a + l);
       t <-- ck (twPenalty ev timeWarp);
       a <-- ck (a + t);
       e <-- ck (excessDistance - 0);
       x <-- ck (excessDistPenalty ev (Z.max e 0));
       ck (a + x).
Definition kroute_penalised (ev : evaluator) (r : route) : option Z :=
  kpenalised ev (r_empty r) (r_distanceCost r) (r_durationCost r) (r_fixedCost r) (r_excessLoad r) (r_timeWarp r) (r_excessDistance r).
Definition ksearch_penalised (ev : evaluator) (c : cache) : option Z :=
  kpenalised ev (ca_empty c) (ca_distanceCost c) (ca_durationCost c) (v_fixedCost (ca_veh c)) (ca_excessLoad c) (ca_timeWarp c) (ca_excessDistance c).
(** Solution.cpp:406-413 *)
Fixpoint kroutes_penalised (ev : evaluator) (cost : Z) (routes : list route) : option Z :=
  match routes with
  | [] => Some cost
  | r :: more => p <-- kroute_penalised ev r; cost <-- ck (cost + p); kroutes_penalised ev cost more
  end.
Definition ksolution_penalised (ev : evaluator) (s : solution) : option Z := kroutes_penalised ev (so_uncollected s) (so_routes s).

(** CostEvaluator.h:212-254 *)
Definition kadd_dist (ev : evaluator) (d : pdata) (v : vehicle) (p : proposal) (out : Z) : option Z :=
  if hasDistanceCost v then
    let '(cost, excess) := prop_distance d v p in
    out <-- ck (out + cost); x <-- ck (excessDistPenalty ev excess); ck (out + x)
  else Some out.
Definition kadd_dur (ev : evaluator) (d : pdata) (v : vehicle) (p : proposal) (out : Z) : option Z :=
  if hasDurationCost d v then
    let '(cost, timeWarp) := prop_duration d v p in
    out <-- ck (out + cost); x <-- ck (twPenalty ev timeWarp); ck (out + x)
  else Some out.
Definition kloadPenalty (ev : evaluator) (load capacity : Z) (dim : nat) : option Z :=
  e <-- ck (load - capacity); ck (nth dim (ev_load ev) (fun _ => 0) (Z.max e 0)).
Fixpoint kadd_loads (exact : bool) (ev : evaluator) (d : pdata) (v : vehicle) (p : proposal) (dims : list nat) (out : Z) : option (Z + Z) :=
  match dims with
  | [] => Some (inr out)
  | dim :: more =>
      if negb exact && (0 <=? out) then Some (inl out)
      else x <-- kloadPenalty ev (prop_excessLoad d v dim p) 0 dim; out <-- ck (out + x); kadd_loads exact ev d v p more out
  end.
Definition kdeltaCost (exact : bool) (ev : evaluator) (d : pdata) (out : Z) (p : proposal) : option (Z * bool) :=
  let c := prop_cache d p in
  let v := ca_veh c in
  pc <-- ksearch_penalised ev c;
  out <-- ck (out - pc);
  out <-- ck (out + v_fixedCost v);
  out <-- kadd_dist ev d v p out;
  l <-- kadd_loads exact ev d v p (cap_dims v) out;
  match l with
  | inl out => Some (out, false)
  | inr out => out <-- kadd_dur ev d v p out; Some (out, true)
  end.
(** CostEvaluator.h:256-329 *)
Definition kdeltaCost2 (exact : bool) (ev : evaluator) (d : pdata) (out : Z) (u v : proposal) : option (Z * bool) :=
  let cu := prop_cache d u in
  let cv := prop_cache d v in
  let uv := ca_veh cu in
  let vv := ca_veh cv in
  pu <-- ksearch_penalised ev cu;
  out <-- ck (out - pu);
  pv <-- ksearch_penalised ev cv;
  out <-- ck (out - pv);
  out <-- ck (out + v_fixedCost uv);
  out <-- ck (out + v_fixedCost vv);
  out <-- kadd_dist ev d uv u out;
  out <-- kadd_dist ev d vv v out;
  l <-- kadd_loads exact ev d uv u (cap_dims uv) out;
  match l with
  | inl out => Some (out, false)
  | inr out =>
      l <-- kadd_loads exact ev d vv v (cap_dims vv) out;
      match l with
      | inl out => Some (out, false)
      | inr out =>
          if negb exact && (0 <=? out) then Some (out, false)
          else out <-- kadd_dur ev d uv u out; out <-- kadd_dur ev d vv v out; Some (out, true)
      end
  end.

(** Penalties of at most [P] per unit. *)
Definition within (P : Z) (f : Z -> Z) : Prop := forall x, 0 <= x <= MAXV -> 0 <= f x <= P * x.
Record ev_within (P : Z) (ev : evaluator) : Prop := mk_ev_within {
  ew_pos : 0 <= P;
  ew_load : Forall (within P) (ev_load ev);
  ew_tw : within P (ev_tw ev);
  ew_dist : within P (ev_dist ev) }.

(** ** Weights in binary64 *)
Section Weights.
Local Open Scope R_scope.
Lemma rnd_bpow e : (-1000 <= e <= 1000)%Z -> rnd (bpow radix2 e) = bpow radix2 e.
Proof.
  intros He. apply round_generic; [apply valid_rnd_round_mode|]. apply generic_format_bpow'; [apply FLT.FLT_exp_valid; reflexivity|].
  unfold SpecFloat.fexp, SpecFloat.emin. lia.
Qed.
Lemma penalty_within w k : (0 <= k <= 900)%Z -> is_finite w = true -> b64_neg w = false -> B2R w <= bpow radix2 k -> within (2 ^ (k + 1)) (penalty w).
Proof.
  intros Hk Hw Hn Hb x Hx. pose proof (not_neg_real w Hw Hn) as Pw. pose proof (penalty_ok w Hw Hn) as [P0 Pm].
  destruct (Z.eq_dec x 0) as [-> |Nz]; [rewrite P0; lia|].
  set (e := (Z.log2 x + 1)%Z). assert (He : (1 <= e <= 63)%Z).
  { unfold e. assert (Z.log2 x < 63)%Z by (apply Z.log2_lt_pow2; [lia|]; unfold MAXV in Hx; lia). pose proof (Z.log2_nonneg x). lia. }
  destruct (Z.log2_spec x ltac:(lia)) as [L1 L2]. replace (Z.succ (Z.log2 x)) with e in L2 by (unfold e; lia).
  assert (Fx : is_finite (b64_of_Z x) = true /\ 0 <= B2R (b64_of_Z x) <= bpow radix2 e).
  { pose proof (of_Z_is_rnd x ltac:(lia)) as F. unfold is_rnd in F.
    assert (R1 : rnd (IZR x) <= bpow radix2 e).
    { rewrite <- (rnd_bpow e) by lia. apply rnd_le. rewrite <- (IZR_Zpower radix2) by lia. apply IZR_le. cbn [radix_val radix2]. lia. }
    assert (R2 : bpow radix2 e < bpow radix2 1024) by (apply bpow_lt; lia).
    rewrite Rlt_bool_true in F by lra. destruct F as [F1 F2]. split; [exact F1|]. rewrite F2. split; [apply rnd_nonneg, IZR_le; lia|exact R1]. }
  destruct Fx as [Fx [Px Bx]]. unfold penalty.
  rewrite (cast_is_rnd _ _ (Rmult_le_pos _ _ Px Pw) (mul_is_rnd _ _ Fx Hw Px Pw)).
  assert (U : rnd (B2R (b64_of_Z x) * B2R w) <= bpow radix2 (e + k)).
  { rewrite <- (rnd_bpow (e + k)) by lia. apply rnd_le. rewrite bpow_plus. apply Rmult_le_compat; assumption. }
  split.
  - replace 0%Z with (Ztrunc (IZR 0)) by apply Ztrunc_IZR. apply Ztrunc_le. apply Rmin_glb; [apply rnd_nonneg, Rmult_le_pos; assumption|apply bpow_ge_0].
  - transitivity (2 ^ (e + k))%Z.
    + replace (2 ^ (e + k))%Z with (Ztrunc (IZR (2 ^ (e + k)))) by apply Ztrunc_IZR. apply Ztrunc_le.
      rewrite (IZR_Zpower radix2) by lia. eapply Rle_trans; [apply Rmin_l|exact U].
    + rewrite !Z.pow_add_r by lia. unfold e. rewrite Z.pow_add_r by (pose proof (Z.log2_nonneg x); lia).
      change (2 ^ 1)%Z with 2%Z. assert (0 < 2 ^ k)%Z by (apply Z.pow_pos_nonneg; lia). nia.
Qed.
Theorem weights_within loads tw dist ev k : (0 <= k <= 900)%Z -> make_evaluator loads tw dist = Ok ev ->
  Forall (fun w => is_finite w = true /\ B2R w <= bpow radix2 k) (tw :: dist :: loads) -> ev_within (2 ^ (k + 1)) ev.
Proof.
  unfold make_evaluator. intros Hk H HF.
  destruct (existsb b64_neg loads) eqn:E1; [discriminate|].
  destruct (b64_neg tw) eqn:E2; [discriminate|]. destruct (b64_neg dist) eqn:E3; [discriminate|].
  apply okinj in H. rewrite <- H. inversion HF as [|? ? [T1 T2] HF1]; subst. inversion HF1 as [|? ? [D1 D2] HF2]; subst. clear HF HF1.
  constructor; cbn [ev_load ev_tw ev_dist]; try (apply penalty_within; assumption).
  - apply Z.lt_le_incl, Z.pow_pos_nonneg; lia.
  - clear - E1 HF2 Hk. induction HF2 as [|w loads [H1 H2] HF IH]; [constructor|].
    cbn in E1. apply Bool.orb_false_iff in E1. destruct E1 as [E1 E2]. cbn [map]. constructor; [apply penalty_within; assumption|]. apply IH. exact E2.
Qed.
End Weights.

(** ** The sums *)
Section Sums.
Variable ev : evaluator.
Variable P : Z.
Hypothesis Hw : ev_within P ev.
Notation D := (Z.of_nat (length (ev_load ev))).

Lemma within_ck f M x : within P f -> 0 <= x <= M -> P * M <= MAXV -> M <= MAXV -> ck (f x) = Some (f x) /\ 0 <= f x <= P * M.
Proof.
  intros Hf Hx HM HM'. pose proof (ew_pos _ _ Hw) as HP. specialize (Hf x ltac:(lia)). assert (P * x <= P * M) by (apply Z.mul_le_mono_nonneg_l; lia).
  split; [apply ck_ok; unfold MAXV in *; lia|lia].
Qed.
Lemma loads_cost M fs : Forall (within P) fs -> forall loads cost, (forall dim, 0 <= nth dim loads 0 <= M) -> 0 <= cost -> M <= MAXV ->
  cost + Z.of_nat (length fs) * (P * M) <= MAXV ->
  kload_penalties cost fs loads = Some (cost + excessLoadPenalties fs loads) /\ 0 <= excessLoadPenalties fs loads <= Z.of_nat (length fs) * (P * M).
Proof.
  pose proof (ew_pos _ _ Hw) as HP. induction 1 as [|f fs Hf HF IH]; intros [|x loads] cost Hx Hc HM HS; cbn [kload_penalties excessLoadPenalties length] in *.
  - rewrite Z.add_0_r. split; [reflexivity|lia].
  - rewrite Z.add_0_r. split; [reflexivity|lia].
  - rewrite Z.add_0_r. pose proof (Hx 0%nat) as H0. cbn in H0. assert (0 <= P * M) by nia. split; [reflexivity|lia].
  - pose proof (Hx 0%nat) as H0. cbn [nth] in H0. assert (HPM : 0 <= P * M) by nia. rewrite Nat2Z.inj_succ in *.
    assert (HL : 0 <= Z.of_nat (length fs) * (P * M)) by nia.
    destruct (within_ck f M x Hf H0) as [E B]; [lia|lia|]. rewrite E, ob_some, ck_ok, ob_some by (unfold MAXV in *; lia).
    destruct (IH loads (cost + f x)) as [E' B']; [intros dim; apply (Hx (S dim))|lia|exact HM|lia|]. rewrite E'. split; [f_equal; lia|lia].
Qed.

Lemma penalised_ok M (empty : bool) dc tc fc loads tw ed : 0 <= dc <= M -> 0 <= tc <= M -> - M <= fc <= M -> (forall dim, 0 <= nth dim loads 0 <= M) -> 0 <= tw <= M -> 0 <= ed <= M ->
  M * (3 + P * (D + 2)) <= MAXV ->
  let total := if empty then 0 else dc + tc + fc + excessLoadPenalties (ev_load ev) loads + twPenalty ev tw + distPenalty ev ed 0 in
  kpenalised ev empty dc tc fc loads tw ed = Some total /\ - M <= total <= M * (3 + P * (D + 2)).
Proof.
  intros H1 H2 H3 H4 H5 H6 HS total. pose proof (ew_pos _ _ Hw) as HP. assert (HPM : 0 <= P * M) by nia.
  assert (HD : 0 <= D * (P * M)) by nia. replace (M * (3 + P * (D + 2))) with (3 * M + D * (P * M) + 2 * (P * M)) in * by ring.
  unfold kpenalised. destruct empty; [split; [reflexivity|unfold total; lia]|].
  destruct (loads_cost M (ev_load ev) (ew_load _ _ Hw) loads 0) as [E B]; try assumption; try lia.
  destruct (within_ck _ M tw (ew_tw _ _ Hw) H5) as [Et Bt]; [lia|lia|].
  destruct (within_ck _ M ed (ew_dist _ _ Hw) H6) as [Ed Bd]; [lia|lia|].
  unfold total, distPenalty, excessDistPenalty, twPenalty. replace (Z.max (ed - 0) 0) with ed by lia.
  set (L := excessLoadPenalties (ev_load ev) loads) in *. clearbody L.
  rewrite ck_ok, ob_some by (unfold MAXV in *; lia). rewrite ck_ok, ob_some by (unfold MAXV in *; lia).
  rewrite E, ob_some, Z.add_0_l. rewrite ck_ok, ob_some by (unfold MAXV in *; lia). rewrite Et, ob_some. rewrite ck_ok, ob_some by (unfold MAXV in *; lia).
  rewrite (ck_ok (ed - 0)), ob_some by (unfold MAXV in *; lia). replace (Z.max (ed - 0) 0) with ed by lia. rewrite Ed, ob_some.
  rewrite ck_ok by (unfold MAXV in *; lia). split; [reflexivity|lia].
Qed.
Lemma route_penalised_ok M r : in_range M r -> M * (3 + P * (D + 2)) <= MAXV ->
  kroute_penalised ev r = Some (route_penalised ev r) /\ - M <= route_penalised ev r <= M * (3 + P * (D + 2)).
Proof. intros [] HS. apply penalised_ok; assumption. Qed.

(** ** Delta costs *)
Variable d : pdata.
(** What is known of the figures of a proposal. *)
Record moderate (M : Z) (v : vehicle) (p : proposal) : Prop := mk_moderate {
  md_distance : 0 <= fst (prop_distance d v p) <= M /\ 0 <= snd (prop_distance d v p) <= M;
  md_duration : 0 <= fst (prop_duration d v p) <= M /\ 0 <= snd (prop_duration d v p) <= M;
  md_load : forall dim, (dim < length (v_capacity v))%nat -> 0 <= prop_excessLoad d v dim p <= M;
  md_fixed : - M <= v_fixedCost v <= M;
  md_dims : length (v_capacity v) = length (ev_load ev) }.

Lemma add_two out cost pen : 0 <= cost -> 0 <= pen -> - MAXV - 1 <= out -> out + cost + pen <= MAXV ->
  (out <-- ck (out + cost); x <-- Some pen; ck (out + x)) = Some (out + cost + pen).
Proof. intros. rewrite ck_ok, !ob_some by (unfold MAXV in *; lia). apply ck_ok. unfold MAXV in *; lia. Qed.
Lemma add_dist_ok M v p out : moderate M v p -> - MAXV - 1 <= out -> out + M + P * M <= MAXV -> M <= MAXV -> P * M <= MAXV ->
  kadd_dist ev d v p out = Some (add_dist ev d v p out) /\ out <= add_dist ev d v p out <= out + M + P * M.
Proof.
  intros [[A B] _ _ _ _] H1 H2 H3 H4. pose proof (ew_pos _ _ Hw) as HP. assert (0 <= P * M) by nia. unfold kadd_dist, add_dist. destruct (hasDistanceCost v); [|split; [reflexivity|lia]].
  destruct (prop_distance d v p) as [cost excess]. cbn [fst snd] in A, B. destruct (within_ck _ M excess (ew_dist _ _ Hw) B H4 H3) as [E F].
  unfold excessDistPenalty. rewrite E. rewrite add_two by lia. split; [reflexivity|lia].
Qed.
Lemma add_dur_ok M v p out : moderate M v p -> - MAXV - 1 <= out -> out + M + P * M <= MAXV -> M <= MAXV -> P * M <= MAXV ->
  kadd_dur ev d v p out = Some (add_dur ev d v p out) /\ out <= add_dur ev d v p out <= out + M + P * M.
Proof.
  intros [_ [A B] _ _ _] H1 H2 H3 H4. pose proof (ew_pos _ _ Hw) as HP. assert (0 <= P * M) by nia. unfold kadd_dur, add_dur. destruct (hasDurationCost d v); [|split; [reflexivity|lia]].
  destruct (prop_duration d v p) as [cost tw]. cbn [fst snd] in A, B. destruct (within_ck _ M tw (ew_tw _ _ Hw) B H4 H3) as [E F].
  unfold twPenalty. rewrite E. rewrite add_two by lia. split; [reflexivity|lia].
Qed.
Definition value (x : Z + Z) : Z := match x with inl o => o | inr o => o end.
Lemma add_loads_ok M exact v p : moderate M v p -> M <= MAXV -> P * M <= MAXV -> forall dims, (forall dim, In dim dims -> (dim < length (v_capacity v))%nat) ->
  forall out, - MAXV - 1 <= out -> out + Z.of_nat (length dims) * (P * M) <= MAXV ->
  kadd_loads exact ev d v p dims out = Some (add_loads exact ev d v p dims out) /\
  out <= value (add_loads exact ev d v p dims out) <= out + Z.of_nat (length dims) * (P * M).
Proof.
  intros Hm H3 H4. pose proof (ew_pos _ _ Hw) as HP. assert (HM : 0 <= M) by (destruct Hm; lia). assert (HPM : 0 <= P * M) by nia.
  induction dims as [|dim dims IH]; intros Hd out H1 H2; cbn [kadd_loads add_loads length] in *; [split; [reflexivity|cbn; lia]|].
  rewrite Nat2Z.inj_succ in *. assert (HL : 0 <= Z.of_nat (length dims) * (P * M)) by nia.
  destruct (negb exact && (0 <=? out)); [split; [reflexivity|cbn [value]; lia]|].
  pose proof (md_load _ _ _ Hm dim (Hd dim (or_introl eq_refl))) as B. unfold kloadPenalty, loadPenalty.
  assert (Hf : within P (nth dim (ev_load ev) (fun _ => 0))).
  { apply Forall_nth_default; [exact (ew_load _ _ Hw)|]. intros x Hx. nia. }
  rewrite (ck_ok (_ - 0)), ob_some by (unfold MAXV in *; lia). replace (Z.max (prop_excessLoad d v dim p - 0) 0) with (prop_excessLoad d v dim p) by lia.
  destruct (within_ck _ M _ Hf B H4 H3) as [E F]. rewrite E, ob_some. rewrite ck_ok, ob_some by (unfold MAXV in *; lia).
  destruct (IH ltac:(intros; apply Hd; right; assumption) (out + nth dim (ev_load ev) (fun _ => 0) (prop_excessLoad d v dim p))) as [E' B']; [lia|lia|].
  rewrite E'. split; [reflexivity|lia].
Qed.
Lemma cap_dims_in v dim : In dim (cap_dims v) -> (dim < length (v_capacity v))%nat.
Proof. unfold cap_dims. intros H. apply in_seq in H. lia. Qed.

(** The cached figures of a route of the search. *)
Record moderate_cache (M : Z) (c : cache) : Prop := mk_moderate_cache {
  mh_distance : 0 <= ca_distanceCost c <= M; mh_duration : 0 <= ca_durationCost c <= M; mh_fixed : - M <= v_fixedCost (ca_veh c) <= M;
  mh_load : forall dim, 0 <= nth dim (ca_excessLoad c) 0 <= M; mh_tw : 0 <= ca_timeWarp c <= M; mh_excess : 0 <= ca_excessDistance c <= M }.
Lemma cache_ok M c : moderate_cache M c -> M * (3 + P * (D + 2)) <= MAXV ->
  ksearch_penalised ev c = Some (search_penalised ev c) /\ - M <= search_penalised ev c <= M * (3 + P * (D + 2)).
Proof. intros [] HS. apply penalised_ok; assumption. Qed.

Lemma delta_ok M O exact p out : let v := ca_veh (prop_cache d p) in
  moderate_cache M (prop_cache d p) -> moderate M v p -> - O <= out <= O -> O + 2 * (M * (3 + P * (D + 2))) <= MAXV ->
  kdeltaCost exact ev d out p = Some (deltaCost exact ev d out p).
Proof.
  intros v Hc Hm Hout HS. pose proof (ew_pos _ _ Hw) as HP. assert (HM : 0 <= M) by (destruct Hm; lia). assert (HPM : 0 <= P * M) by nia. assert (HD : 0 <= D * (P * M)) by nia.
  destruct (cache_ok M _ Hc) as [E0 B0]; [lia|].
  replace (M * (3 + P * (D + 2))) with (3 * M + D * (P * M) + 2 * (P * M)) in * by ring.
  unfold kdeltaCost, deltaCost. fold v. rewrite E0, ob_some. set (pc := search_penalised ev (prop_cache d p)) in *. clearbody pc.
  pose proof (md_fixed _ _ _ Hm) as Hf. rewrite ck_ok, ob_some by (unfold MAXV in *; lia). rewrite ck_ok, ob_some by (unfold MAXV in *; lia).
  set (o1 := out - pc + v_fixedCost v). assert (Bo1 : - O - 3 * M - D * (P * M) - 2 * (P * M) - M <= o1 <= O + 2 * M) by (unfold o1; lia).
  clearbody o1. destruct (add_dist_ok M v p o1 Hm) as [E1 B1]; try (unfold MAXV in *; lia). rewrite E1, ob_some.
  set (o2 := add_dist ev d v p o1) in *. clearbody o2.
  assert (Ln : Z.of_nat (length (cap_dims v)) = D) by (unfold cap_dims; rewrite seq_length, (md_dims _ _ _ Hm); reflexivity).
  destruct (add_loads_ok M exact v p Hm ltac:(unfold MAXV in *; lia) ltac:(unfold MAXV in *; lia) (cap_dims v) (cap_dims_in v) o2) as [E2 B2]; try (rewrite ?Ln; unfold MAXV in *; lia).
  rewrite E2, ob_some. rewrite Ln in B2. destruct (add_loads exact ev d v p (cap_dims v) o2) as [o3|o3]; cbn [value] in B2; [reflexivity|].
  destruct (add_dur_ok M v p o3 Hm) as [E3 B3]; try (unfold MAXV in *; lia). rewrite E3. reflexivity.
Qed.
Lemma delta2_ok M O exact pu pv out : let uv := ca_veh (prop_cache d pu) in let vv := ca_veh (prop_cache d pv) in
  moderate_cache M (prop_cache d pu) -> moderate M uv pu -> moderate_cache M (prop_cache d pv) -> moderate M vv pv -> - O <= out <= O -> O + 4 * (M * (3 + P * (D + 2))) <= MAXV ->
  kdeltaCost2 exact ev d out pu pv = Some (deltaCost2 exact ev d out pu pv).
Proof.
  intros uv vv Hcu Hmu Hcv Hmv Hout HS. pose proof (ew_pos _ _ Hw) as HP. assert (HM : 0 <= M) by (destruct Hmu; lia). assert (HPM : 0 <= P * M) by nia. assert (HD : 0 <= D * (P * M)) by nia.
  destruct (cache_ok M _ Hcu) as [Eu Bu]; [lia|]. destruct (cache_ok M _ Hcv) as [Ev Bv]; [lia|].
  replace (M * (3 + P * (D + 2))) with (3 * M + D * (P * M) + 2 * (P * M)) in * by ring.
  unfold kdeltaCost2, deltaCost2. fold uv vv. rewrite Eu, Ev, ob_some. set (qu := search_penalised ev (prop_cache d pu)) in *. set (qv := search_penalised ev (prop_cache d pv)) in *. clearbody qu qv.
  pose proof (md_fixed _ _ _ Hmu) as Fu. pose proof (md_fixed _ _ _ Hmv) as Fv.
  rewrite ck_ok, !ob_some by (unfold MAXV in *; lia). rewrite ck_ok, ob_some by (unfold MAXV in *; lia).
  rewrite ck_ok, ob_some by (unfold MAXV in *; lia). rewrite ck_ok, ob_some by (unfold MAXV in *; lia).
  set (o1 := out - qu - qv + v_fixedCost uv + v_fixedCost vv). set (K := D * (P * M)) in *.
  assert (Bo1 : - O - 2 * (3 * M + K + 2 * (P * M)) - 2 * M <= o1 <= O + 4 * M) by (unfold o1; lia). clearbody o1.
  destruct (add_dist_ok M uv pu o1 Hmu) as [E1 B1]; try (unfold MAXV in *; lia). rewrite E1, ob_some. set (o2 := add_dist ev d uv pu o1) in *. clearbody o2.
  destruct (add_dist_ok M vv pv o2 Hmv) as [E2 B2]; try (unfold MAXV in *; lia). rewrite E2, ob_some. set (o3 := add_dist ev d vv pv o2) in *. clearbody o3.
  assert (Lu : Z.of_nat (length (cap_dims uv)) * (P * M) = K) by (unfold cap_dims, K; rewrite seq_length, (md_dims _ _ _ Hmu); reflexivity).
  assert (Lv : Z.of_nat (length (cap_dims vv)) * (P * M) = K) by (unfold cap_dims, K; rewrite seq_length, (md_dims _ _ _ Hmv); reflexivity).
  clearbody K.
  destruct (add_loads_ok M exact uv pu Hmu ltac:(unfold MAXV in *; lia) ltac:(unfold MAXV in *; lia) (cap_dims uv) (cap_dims_in uv) o3) as [E3 B3]; try (rewrite ?Lu; unfold MAXV in *; lia).
  rewrite E3, ob_some. rewrite Lu in B3. destruct (add_loads exact ev d uv pu (cap_dims uv) o3) as [o4|o4]; cbn [value] in B3; [reflexivity|].
  destruct (add_loads_ok M exact vv pv Hmv ltac:(unfold MAXV in *; lia) ltac:(unfold MAXV in *; lia) (cap_dims vv) (cap_dims_in vv) o4) as [E4 B4]; try (rewrite ?Lv; unfold MAXV in *; lia).
  rewrite E4, ob_some. rewrite Lv in B4. destruct (add_loads exact ev d vv pv (cap_dims vv) o4) as [o5|o5]; cbn [value] in B4; [reflexivity|].
  destruct (negb exact && (0 <=? o5)); [reflexivity|].
  destruct (add_dur_ok M uv pu o5 Hmu) as [E5 B5]; try (unfold MAXV in *; lia). rewrite E5, ob_some. set (o6 := add_dur ev d uv pu o5) in *. clearbody o6.
  destruct (add_dur_ok M vv pv o6 Hmv) as [E6 B6]; try (unfold MAXV in *; lia). rewrite E6. reflexivity.
Qed.
End Sums.
(** ** Bounded data *)
Section Data.
Variable d : pdata.
Variables B U : Z.
Hypothesis Hv : valid_data d.
Hypothesis Hs : sized d B U.
Variable ev : evaluator.
Variable P : Z.
Hypothesis Hw : ev_within P ev.
Notation D := (Z.of_nat (length (ev_load ev))).
(** A bound of the figures of a route of [n] activities. *)
Definition figures (n : Z) : Z := 8 * (n + 3) * B * (U + 1).
Lemma figures_fit n : 0 <= n -> figures n <= Q -> 6 * (n + 3) * B <= Q /\ 6 * (n + 3) * B * U <= MAXV.
Proof.
  intros Hn H. pose proof (B0 d B U Hs) as HB. pose proof (sz_U _ _ _ Hs) as HU. unfold figures in H.
  assert (HX : 0 <= (n + 3) * B) by nia. assert (HY : 0 <= (n + 3) * B * U) by nia. unfold Q, MAXV in *. split; lia.
Qed.
Lemma figures_pos n : 0 <= n -> 0 <= figures n.
Proof. intros Hn. pose proof (B0 d B U Hs) as HB. pose proof (sz_U _ _ _ Hs) as HU. unfold figures. nia. Qed.
Lemma figures_le n m : n <= m -> figures n <= figures m.
Proof. intros Hn. pose proof (B0 d B U Hs) as HB. pose proof (sz_U _ _ _ Hs) as HU. unfold figures. assert (0 <= B * (U + 1)) by nia. nia. Qed.

Lemma rate_pos : 0 <= P * (D + 2).
Proof. pose proof (ew_pos _ _ Hw). apply Z.mul_nonneg_nonneg; lia. Qed.
Lemma route_range vt acts r : (vt < p_numVehicleTypes d)%nat -> make_route d acts vt = Ok r -> figures (Z.of_nat (length acts)) <= Q ->
  in_range (figures (Z.of_nat (length acts))) r.
Proof.
  intros Hvt Hr HS. destruct (figures_fit (Z.of_nat (length acts)) ltac:(lia) HS) as [Q1 Q2].
  destruct (route_ok d B U Hv Hs vt Hvt acts r Q1 Q2 Hr) as (_ & _ & _ & R). exact R.
Qed.
Lemma route_cost_ok vt acts r : (vt < p_numVehicleTypes d)%nat -> make_route d acts vt = Ok r -> figures (Z.of_nat (length acts)) <= Q ->
  figures (Z.of_nat (length acts)) * (3 + P * (D + 2)) <= MAXV -> kroute_penalised ev r = Some (route_penalised ev r).
Proof. intros Hvt Hr HQ HS. apply (route_penalised_ok ev P Hw _ r (route_range vt acts r Hvt Hr HQ) HS). Qed.

Lemma routes_cost_ok plans routes : Forall2 (fun p r => in_range (figures (Z.of_nat (length (fst p)))) r) plans routes ->
  forall cost, - MAXV <= cost - 8 * plan_size plans * B * (U + 1) -> 8 * plan_size plans * B * (U + 1) * (3 + P * (D + 2)) <= MAXV ->
  cost + 8 * plan_size plans * B * (U + 1) * (3 + P * (D + 2)) <= MAXV ->
  kroutes_penalised ev cost routes = Some (cost + zsum (map (route_penalised ev) routes)).
Proof.
  pose proof rate_pos as HR. pose proof (B0 d B U Hs) as HB. pose proof (sz_U _ _ _ Hs) as HU.
  induction 1 as [|p r plans routes Hr HF IH]; intros cost H1 H0 H2; cbn [kroutes_penalised map zsum]; [f_equal; lia|].
  unfold plan_size in H0, H1, H2. cbn [map zsum] in H0, H1, H2. fold (plan_size plans) in H0, H1, H2. pose proof (plan_size_nonneg plans) as Hn.
  set (m := 8 * plan_size plans * B * (U + 1)) in *. assert (Hm : 0 <= m) by (unfold m; nia).
  set (f := figures (Z.of_nat (length (fst p)))) in *. assert (Hf : 0 <= f) by (apply figures_pos; lia).
  replace (8 * (Z.of_nat (length (fst p)) + 3 + plan_size plans) * B * (U + 1)) with (f + m) in * by (unfold f, m, figures; ring).
  set (R := 3 + P * (D + 2)) in *. assert (HfR : 0 <= f * R) by nia. assert (HmR : 0 <= m * R) by nia. rewrite Z.mul_add_distr_r in H0, H2.
  destruct (route_penalised_ok ev P Hw f r Hr) as [E Bd]; [fold R; lia|]. fold R in Bd.
  rewrite E, ob_some. rewrite ck_ok, ob_some by (unfold MAXV in *; lia). rewrite IH; [f_equal; lia|lia|lia|lia].
Qed.

Lemma uncollected_range plans routes s : Forall2 (OverflowMore.built d) plans routes -> make_solution d routes = Ok s ->
  8 * plan_size plans * B * (U + 1) <= Q -> Z.of_nat (p_numClients d + p_numShipments d) * B <= Q -> so_routes s = routes /\ - Q <= so_uncollected s <= Q.
Proof.
  intros F Es HQ HP. pose proof (ranges d B U Hv Hs _ _ F HQ) as R. clear F.
  pose proof (B0 d B U Hs) as HB. pose proof (sz_U _ _ _ Hs) as HU.
  destruct (ksum_range d B U Hs _ 0 ltac:(lia) (prizes_range d B U Hv Hs)) as [K0 K1].
  { rewrite app_length, !map_length. unfold p_numClients, p_numShipments in HP. lia. }
  assert (Kp : 0 <= sum_of r_prizes routes <= 8 * plan_size plans * B * (U + 1)).
  { clear - R HB HU. unfold sum_of, plan_size. induction R as [|p r plans routes Hr R IH]; cbn [map zsum]; [lia|]. destruct Hr. lia. }
  rewrite app_length, !map_length in K1. unfold p_numClients, p_numShipments in HP.
  assert (Ez : zsum (map c_prize (p_clients d) ++ map s_prize (p_shipments d)) = all_prizes d) by (unfold all_prizes; apply zsum_app).
  unfold make_solution in Es. destruct (_ <? _)%nat; [discriminate|].
  destruct (visit_routes _ _ _ _) as [[[cv sv] used]|]; [|discriminate]. destruct (check_groups _ _ _); [|discriminate].
  destruct (existsb _ _); [discriminate|]. apply okinj in Es. rewrite <- Es. cbn [so_routes so_uncollected]. split; [reflexivity|]. lia.
Qed.
Lemma solution_cost_ok plans routes s : Forall2 (OverflowMore.built d) plans routes -> make_solution d routes = Ok s ->
  8 * plan_size plans * B * (U + 1) <= Q -> Z.of_nat (p_numClients d + p_numShipments d) * B <= Q ->
  8 * plan_size plans * B * (U + 1) * (3 + P * (D + 2)) <= 2 ^ 62 ->
  ksolution_penalised ev s = Some (solution_penalised ev s).
Proof.
  intros F Es HQ HP HS. destruct (uncollected_range _ _ _ F Es HQ HP) as [E Bu]. pose proof (ranges d B U Hv Hs _ _ F HQ) as R.
  unfold ksolution_penalised, solution_penalised. rewrite E. apply (routes_cost_ok plans); [exact R| | |]; unfold MAXV, Q in *; lia.
Qed.

Lemma durs_nonneg : nonneg_durs d.
Proof. intros pr a b. apply (dur_ok d B U Hs). Qed.
Lemma route_caches vt mid r M : (vt < p_numVehicleTypes d)%nat -> make_route d mid vt = Ok r -> figures (Z.of_nat (length mid)) <= M -> M <= Q -> B <= M ->
  moderate_cache M (update d (p_vehicle d vt) mid).
Proof.
  intros Hvt Hr H1 H2 H3. pose proof (route_range vt mid r Hvt Hr ltac:(lia)) as R.
  destruct (C17_search_agrees_with_solution d B Hv (sz_opens _ _ _ Hs) durs_nonneg ltac:(unfold MAXV, Q in *; lia) mid vt r) as (A1 & A2 & A3 & A4 & A5 & A6 & A7 & _); [|exact Hr|].
  { apply nth_In. exact Hvt. }
  destruct R as [R1 R2 R3 R4 R5 R6 R7 R8 R9 R10]. constructor.
  - rewrite <- A2. lia.
  - rewrite <- A5. lia.
  - change (ca_veh (update d (p_vehicle d vt) mid)) with (p_vehicle d vt). pose proof (vehicle_ok d B U Hv Hs vt Hvt) as V. lia.
  - intros dim. rewrite <- A7. specialize (R10 dim). lia.
  - rewrite <- A6. lia.
  - rewrite <- A3. lia.
Qed.
Lemma proposal_moderate vt mid r M p : (vt < p_numVehicleTypes d)%nat -> make_route d mid vt = Ok r -> figures (Z.of_nat (length mid)) <= M -> M <= Q -> B <= M ->
  applicable d B ev (p_vehicle d vt) p mid -> moderate ev d M (p_vehicle d vt) p.
Proof.
  intros Hvt Hr H1 H2 H3 [Av Ad Ap Aw Ai Ah Ar At _ Am]. destruct (route_caches vt mid r M Hvt Hr H1 H2 H3) as [C1 C2 C3 C4 C5 C6].
  pose proof (C15_proposal_distance d _ p mid Aw Ai) as E1. pose proof (C15_proposal_duration d B Hv (sz_opens _ _ _ Hs) durs_nonneg _ Av p mid Aw Ai Ar At) as [E2 E3].
  specialize (E3 Am). cbv zeta in E1. constructor.
  - rewrite E1. exact (conj C1 C6).
  - rewrite E2, E3. exact (conj C2 C5).
  - intros dim Hd. rewrite (C15_proposal_load d _ p mid dim Aw Ai) by (rewrite <- Ad; exact Hd). apply C4.
  - exact C3.
  - congruence.
Qed.

(** A change of one route, and of two. *)
Lemma figures_B n : 0 <= n -> B <= figures n.
Proof. intros Hn. pose proof (B0 d B U Hs) as HB. pose proof (sz_U _ _ _ Hs) as HU. unfold figures. assert (0 <= n * B) by nia. assert (0 <= (n + 3) * B * U) by nia. lia. Qed.
Definition changes (vt : nat) (old new : list activity) (p : proposal) : Prop :=
  (vt < p_numVehicleTypes d)%nat /\ (exists r, make_route d old vt = Ok r) /\ (exists r, make_route d new vt = Ok r) /\
  prop_cache d p = update d (p_vehicle d vt) old /\ applicable d B ev (p_vehicle d vt) p new.
Lemma changes_moderate vt old new p N : changes vt old new p -> Z.of_nat (length old) <= N -> Z.of_nat (length new) <= N -> figures N <= Q ->
  moderate_cache (figures N) (prop_cache d p) /\ moderate ev d (figures N) (ca_veh (prop_cache d p)) p.
Proof.
  intros (Hvt & [r Hr] & [r' Hr'] & E & A) H1 H2 HQ. rewrite E. pose proof (figures_B N ltac:(lia)) as HB.
  split; [apply (route_caches vt old r)|change (ca_veh (update d (p_vehicle d vt) old)) with (p_vehicle d vt); apply (proposal_moderate vt new r')]; try assumption; apply figures_le; assumption.
Qed.
Lemma delta_cost_ok vt old new p N O exact out : changes vt old new p -> Z.of_nat (length old) <= N -> Z.of_nat (length new) <= N -> figures N <= Q ->
  - O <= out <= O -> O + 2 * (figures N * (3 + P * (D + 2))) <= MAXV -> kdeltaCost exact ev d out p = Some (deltaCost exact ev d out p).
Proof.
  intros C H1 H2 HQ Ho HS. destruct (changes_moderate _ _ _ _ N C H1 H2 HQ) as [A1 A2].
  exact (delta_ok ev P Hw d (figures N) O exact p out A1 A2 Ho HS).
Qed.
Lemma delta2_cost_ok vu oldu newu u vv oldv newv v N O exact out : changes vu oldu newu u -> changes vv oldv newv v ->
  Z.of_nat (length oldu) <= N -> Z.of_nat (length newu) <= N -> Z.of_nat (length oldv) <= N -> Z.of_nat (length newv) <= N -> figures N <= Q ->
  - O <= out <= O -> O + 4 * (figures N * (3 + P * (D + 2))) <= MAXV -> kdeltaCost2 exact ev d out u v = Some (deltaCost2 exact ev d out u v).
Proof.
  intros Cu Cv H1 H2 H3 H4 HQ Ho HS. destruct (changes_moderate _ _ _ _ N Cu H1 H2 HQ) as [A1 A2]. destruct (changes_moderate _ _ _ _ N Cv H3 H4 HQ) as [A3 A4].
  exact (delta2_ok ev P Hw d (figures N) O exact u v out A1 A2 A3 A4 Ho HS).
Qed.
End Data.
