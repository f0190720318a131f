(** Model of pyvrp/cpp/search/neighbourhood.cpp. *)
From Coq Require Import ZArith Reals Lra Lia Permutation Sorted.
From Flocq Require Import Core.Core IEEE754.BinarySingleNaN.
From Verif Require Import Base DurationSegment Data Valid RouteSpec CostFacts Penalty RngFloat Pm SearchSpace.
Local Open Scope Z_scope.

(** neighbourhood.h:39-50 and neighbourhood.cpp:162-171 *)
Record nparams := mk_nparams { np_wait : b64; np_num : nat; np_symmetric : bool }.
Definition make_nparams (wait : b64) (num : nat) (symmetric : bool) : res nparams :=
  if (num =? 0)%nat then Err InvalidArgument else Ok (mk_nparams wait num symmetric).

(** std::numeric_limits<double>::max() and infinity() *)
Definition b64_max : b64 := Bmax_float.
Definition b64_inf : b64 := B754_infinity false.
Definition b64_add (x y : b64) : b64 := Bplus mode_NE x y.
(** std::min(a, b) is (b < a) ? b : a and std::max(a, b) is (a < b) ? b : a. *)
Definition std_min (a b : b64) : b64 := if Bltb b a then b else a.
Definition std_max (a b : b64) : b64 := if Bltb a b then b else a.

(** What the proximity needs of a client or a shipment step. *)
Record visit := mk_visit { vi_loc : nat; vi_service : Z; vi_early : Z; vi_late : Z }.
Definition visit_client (c : client) := mk_visit (c_loc c) (c_service c) (c_early c) (c_late c).
Definition visit_step (s : step) := mk_visit (st_loc s) (st_service s) (st_early s) (st_late s).

(** neighbourhood.cpp:50-77: arcCost. *)
Definition arc_cost (d : pdata) (w : b64) (v : vehicle) (frm to : visit) : b64 :=
  let frmServ := b64_of_Z (vi_service frm) in
  let frmEarly := b64_of_Z (vi_early frm) in
  let frmLate := b64_of_Z (vi_late frm) in
  let toEarly := b64_of_Z (vi_early to) in
  let toLate := b64_of_Z (vi_late to) in
  let edgeDur := b64_of_Z (p_dur d (v_profile v) (vi_loc frm) (vi_loc to)) in
  if Bltb toLate (b64_add (b64_add frmEarly frmServ) edgeDur) then b64_max
  else
    let distance := b64_of_Z (p_dist d (v_profile v) (vi_loc frm) (vi_loc to)) in
    let minWait := b64_sub (b64_sub (b64_sub toEarly edgeDur) frmServ) frmLate in
    let duration := b64_add edgeDur (std_max minWait b64_zero) in
    b64_add (b64_add (b64_mul (b64_of_Z (v_unitDistance v)) distance)
                     (b64_mul (b64_of_Z (v_unitDuration v)) duration))
            (b64_mul w (std_max minWait b64_zero)).

(** neighbourhood.cpp:79-88: cost. *)
Definition pair_cost (d : pdata) (p : nparams) (v : vehicle) (frm to : visit) : b64 :=
  let value := arc_cost d (np_wait p) v frm to in
  if np_symmetric p then std_min value (arc_cost d (np_wait p) v to frm) else value.

(** neighbourhood.cpp:40-49: the vehicle types that are looked at, one per cost profile. *)
Definition cost_key (v : vehicle) : Z * Z * nat := (v_unitDistance v, v_unitDuration v, v_profile v).
Definition key_eqb (a b : Z * Z * nat) : bool :=
  let '(a1, a2, a3) := a in let '(b1, b2, b3) := b in (a1 =? b1) && (a2 =? b2) && (a3 =? b3)%nat.
Fixpoint unseen (seen : list (Z * Z * nat)) (vs : list vehicle) : list vehicle :=
  match vs with
  | [] => []
  | v :: more => if existsb (key_eqb (cost_key v)) seen then unseen seen more
                 else v :: unseen (cost_key v :: seen) more
  end.

(** Rows are clients and pickups; columns clients, pickups and deliveries. *)
Definition row_visits (d : pdata) (row : nat) : list visit :=
  if (row <? p_numClients d)%nat then [visit_client (p_client d row)]
  else let s := p_shipment d (row - p_numClients d) in [visit_step (s_pickup s); visit_step (s_delivery s)].
Definition col_visit (d : pdata) (col : nat) : visit :=
  if (col <? p_numClients d)%nat then visit_client (p_client d col)
  else if (col <? p_numClients d + p_numShipments d)%nat
       then visit_step (s_pickup (p_shipment d (col - p_numClients d)))
       else visit_step (s_delivery (p_shipment d (col - p_numClients d - p_numShipments d))).

(** neighbourhood.cpp:90-156: one entry of the matrix; the entries do not depend on each other,
    and std::min over an initializer list is a left-to-right minimum. *)
Definition min_list (x : b64) (l : list b64) : b64 := fold_left std_min l x.
Definition prox_step (d : pdata) (p : nparams) (row col : nat) (prox : b64) (v : vehicle) : b64 :=
  match map (fun frm => pair_cost d p v frm (col_visit d col)) (row_visits d row) with
  | [] => prox
  | x :: more => min_list x (more ++ [prox])
  end.
Definition proximity (d : pdata) (p : nparams) (row col : nat) : b64 :=
  fold_left (prox_step d p row col) (unseen [] (p_vehicles d)) b64_max.

(** neighbourhood.cpp:179-193: group members are far away; an activity itself and the own delivery
    of a pickup are excluded. *)
Definition mates (d : pdata) (i j : nat) : bool :=
  existsb (fun g => existsb (Nat.eqb i) (g_clients g) && existsb (Nat.eqb j) (g_clients g)) (p_groups d).
Definition prox_final (d : pdata) (p : nparams) (row col : nat) : b64 :=
  if (p_numClients d <=? row)%nat && (col =? row + p_numShipments d)%nat then b64_inf
  else if (col =? row)%nat then b64_inf
  else if mates d row col then b64_max
  else proximity d p row col.

(** std::stable_sort of the indices by increasing proximity: the stable order is unique, and
    insertion sort produces it. *)
Fixpoint insert_by (f : nat -> b64) (x : nat) (l : list nat) : list nat :=
  match l with
  | [] => [x]
  | y :: more => if Bltb (f x) (f y) then x :: l else y :: insert_by f x more
  end.
Definition stable_sort (f : nat -> b64) (l : list nat) : list nat :=
  fold_left (fun acc x => insert_by f x acc) l [].

(** neighbourhood.cpp:195-203 *)
Definition num_neighbours (d : pdata) (p : nparams) : nat :=
  let numClients := (Nat.max (p_numClients d) 1 - 1)%nat in
  let numShipments := (Nat.max (2 * p_numShipments d) 2 - 2)%nat in
  Nat.min (np_num p) (numClients + numShipments).

(** neighbourhood.cpp:225-237: from column to activity. *)
Definition col_activity (d : pdata) (col : nat) : activity :=
  if (col <? p_numClients d)%nat then AClient col
  else if (col <? p_numClients d + p_numShipments d)%nat then APickup (col - p_numClients d)
  else ADelivery (col - p_numClients d - p_numShipments d).
Definition num_cols (d : pdata) : nat := (p_numClients d + 2 * p_numShipments d)%nat.
Definition nearest (d : pdata) (p : nparams) (row : nat) : list activity :=
  map (col_activity d)
    (firstn (num_neighbours d p) (stable_sort (prox_final d p row) (seq 0 (num_cols d)))).

(** neighbourhood.cpp:173-277: computeNeighbours. *)
Definition compute_neighbours (d : pdata) (p : nparams) : neighbours :=
  map (fun i => (AClient i, nearest d p i)) (seq 0 (p_numClients d))
  ++ map (fun i => (APickup i, nearest d p (p_numClients d + i))) (seq 0 (p_numShipments d)).

(** ** Facts *)
Local Open Scope R_scope.

(** Bounded doubles. *)
Definition bnd (f : b64) (e : Z) : Prop := is_finite f = true /\ Rabs (B2R f) <= bpow radix2 e.

Lemma rnd_bnd r e : (-1000 <= e <= 1000)%Z -> Rabs r <= bpow radix2 e -> Rabs (rnd r) <= bpow radix2 e.
Proof.
  intros He H. apply abs_round_le_generic; [apply FLT.FLT_exp_valid; reflexivity|apply valid_rnd_round_mode| |exact H].
  apply generic_format_FLT_bpow; [reflexivity|]. unfold SpecFloat.emin. lia.
Qed.
Lemma bpow_lt_max e : (e <= 1000)%Z -> bpow radix2 e < bpow radix2 1024.
Proof. intros H. apply bpow_lt. lia. Qed.

Lemma of_Z_bnd x : (Z.abs x <= 2 ^ 63)%Z -> bnd (b64_of_Z x) 63.
Proof.
  intros Hx. unfold b64_of_Z.
  pose proof (binary_normalize_correct 53 1024 b64_prec b64_emax mode_NE x 0 false) as H. cbv zeta in H.
  assert (E : F2R (Float radix2 x 0) = IZR x) by (unfold F2R; cbn; lra). rewrite E in H.
  assert (HR : Rabs (IZR x) <= bpow radix2 63).
  { rewrite <- abs_IZR. change (bpow radix2 63) with (IZR (2 ^ 63)). apply IZR_le, Hx. }
  pose proof (rnd_bnd _ 63 ltac:(lia) HR) as HB.
  rewrite Rlt_bool_true in H by (eapply Rle_lt_trans; [exact HB|apply bpow_lt_max; lia]).
  destruct H as (H1 & H2 & _). split; [exact H2|rewrite H1; exact HB].
Qed.

Lemma bnd_weaken f e e' : (e <= e')%Z -> bnd f e -> bnd f e'.
Proof. intros He [H1 H2]. split; [assumption|]. eapply Rle_trans; [exact H2|apply bpow_le, He]. Qed.

Lemma mul_bnd f g e1 e2 : (-500 <= e1)%Z -> (-500 <= e2)%Z -> (e1 + e2 <= 1000)%Z ->
  bnd f e1 -> bnd g e2 -> bnd (b64_mul f g) (e1 + e2).
Proof.
  intros L1 L2 L3 [F1 B1] [F2 B2]. unfold b64_mul.
  pose proof (Bmult_correct 53 1024 b64_prec b64_emax mode_NE f g) as H.
  assert (HR : Rabs (B2R f * B2R g) <= bpow radix2 (e1 + e2)).
  { rewrite Rabs_mult, bpow_plus. apply Rmult_le_compat; try apply Rabs_pos; assumption. }
  pose proof (rnd_bnd _ (e1 + e2) ltac:(lia) HR) as HB.
  rewrite Rlt_bool_true in H by (eapply Rle_lt_trans; [exact HB|apply bpow_lt_max; lia]).
  destruct H as (H1 & H2 & _). split; [rewrite H2, F1, F2; reflexivity|rewrite H1; exact HB].
Qed.

Lemma bpow_double e : bpow radix2 e + bpow radix2 e = bpow radix2 (e + 1).
Proof. rewrite bpow_plus. cbn [bpow]. change (IZR (Z.pow_pos radix2 1)) with 2. lra. Qed.

Lemma add_bnd f g e : (-500 <= e <= 999)%Z -> bnd f e -> bnd g e -> bnd (b64_add f g) (e + 1).
Proof.
  intros L [F1 B1] [F2 B2]. unfold b64_add.
  pose proof (Bplus_correct 53 1024 b64_prec b64_emax mode_NE f g F1 F2) as H.
  assert (HR : Rabs (B2R f + B2R g) <= bpow radix2 (e + 1)).
  { eapply Rle_trans; [apply Rabs_triang|]. rewrite <- bpow_double. lra. }
  pose proof (rnd_bnd _ (e + 1) ltac:(lia) HR) as HB.
  rewrite Rlt_bool_true in H by (eapply Rle_lt_trans; [exact HB|apply bpow_lt_max; lia]).
  destruct H as (H1 & H2 & _). split; [exact H2|rewrite H1; exact HB].
Qed.

Lemma sub_bnd f g e : (-500 <= e <= 999)%Z -> bnd f e -> bnd g e -> bnd (b64_sub f g) (e + 1).
Proof.
  intros L [F1 B1] [F2 B2]. unfold b64_sub.
  pose proof (Bminus_correct 53 1024 b64_prec b64_emax mode_NE f g F1 F2) as H.
  assert (HR : Rabs (B2R f - B2R g) <= bpow radix2 (e + 1)).
  { eapply Rle_trans; [apply Rabs_triang|]. rewrite Rabs_Ropp, <- bpow_double. lra. }
  pose proof (rnd_bnd _ (e + 1) ltac:(lia) HR) as HB.
  rewrite Rlt_bool_true in H by (eapply Rle_lt_trans; [exact HB|apply bpow_lt_max; lia]).
  destruct H as (H1 & H2 & _). split; [exact H2|rewrite H1; exact HB].
Qed.

Lemma max_bnd f e : bnd f e -> bnd (std_max f b64_zero) e.
Proof.
  intros H. unfold std_max. destruct (Bltb f b64_zero); [|exact H].
  split; [reflexivity|]. rewrite B2R_b64_zero, Rabs_R0. apply bpow_ge_0.
Qed.

(** All measures fit in int64. *)
Record in_int64 (d : pdata) : Prop := mk_in_int64 {
  i64_clients : Forall (fun c => Z.abs (c_service c) <= 2 ^ 63 /\ Z.abs (c_early c) <= 2 ^ 63 /\ Z.abs (c_late c) <= 2 ^ 63)%Z (p_clients d);
  i64_shipments : Forall (fun s => forall x, x = s_pickup s \/ x = s_delivery s ->
     Z.abs (st_service x) <= 2 ^ 63 /\ Z.abs (st_early x) <= 2 ^ 63 /\ Z.abs (st_late x) <= 2 ^ 63)%Z (p_shipments d);
  i64_vehicles : Forall (fun v => Z.abs (v_unitDistance v) <= 2 ^ 63 /\ Z.abs (v_unitDuration v) <= 2 ^ 63)%Z (p_vehicles d);
  i64_dist : forall profile a b, (Z.abs (p_dist d profile a b) <= 2 ^ 63)%Z;
  i64_dur : forall profile a b, (Z.abs (p_dur d profile a b) <= 2 ^ 63)%Z }.
Definition vi_ok (x : visit) : Prop :=
  (Z.abs (vi_service x) <= 2 ^ 63 /\ Z.abs (vi_early x) <= 2 ^ 63 /\ Z.abs (vi_late x) <= 2 ^ 63)%Z.

(** The weight is a finite double. *)
Definition weight_ok (w : b64) : Prop := is_finite w = true.

Lemma mul_not_nan f g : is_finite f = true -> is_finite g = true -> is_nan (b64_mul f g) = false.
Proof.
  intros F1 F2. unfold b64_mul. pose proof (Bmult_correct 53 1024 b64_prec b64_emax mode_NE f g) as H.
  destruct (Rlt_bool _ _).
  - destruct H as (_ & H & _). rewrite F1, F2 in H. destruct (Bmult _ _ _); try reflexivity; discriminate.
  - destruct (Bmult mode_NE f g); try reflexivity. destruct (xorb _ _); discriminate.
Qed.
Lemma add_not_nan f g : is_finite f = true -> is_nan g = false -> is_nan (b64_add f g) = false.
Proof.
  intros F1 N2. unfold b64_add. destruct (is_finite g) eqn:F2.
  - pose proof (Bplus_correct 53 1024 b64_prec b64_emax mode_NE f g F1 F2) as H. destruct (Rlt_bool _ _).
    + destruct H as (_ & H & _). destruct (Bplus _ _ _); try reflexivity; discriminate.
    + destruct H as [H _]. destruct (Bplus mode_NE f g); try reflexivity. destruct (Bsign f); discriminate.
  - destruct f as [s|s| |s m e Hb]; try discriminate; destruct g as [s'|s'| |s' m' e' Hb']; try discriminate; reflexivity.
Qed.

Lemma arc_not_nan d w v a b : in_int64 d -> weight_ok w -> In v (p_vehicles d) -> vi_ok a -> vi_ok b ->
  is_nan (arc_cost d w v a b) = false.
Proof.
  intros Hd Hw Hv (A1 & A2 & A3) (B1 & B2 & B3). unfold arc_cost. destruct (Bltb _ _); [reflexivity|].
  pose proof (proj1 (Forall_forall _ _) (i64_vehicles d Hd) v Hv) as [V1 V2].
  set (wait := b64_sub _ _).
  pose proof (of_Z_bnd _ (i64_dur d Hd (v_profile v) (vi_loc a) (vi_loc b))) as Bdur.
  pose proof (of_Z_bnd _ (i64_dist d Hd (v_profile v) (vi_loc a) (vi_loc b))) as Bdist.
  assert (Bw : bnd wait 66).
  { unfold wait. apply (sub_bnd _ _ 65); [lia| |apply (bnd_weaken _ 63); [lia|apply of_Z_bnd; assumption]].
    apply (sub_bnd _ _ 64); [lia| |apply (bnd_weaken _ 63); [lia|apply of_Z_bnd; assumption]].
    apply (sub_bnd _ _ 63); [lia|apply of_Z_bnd; assumption|exact Bdur]. }
  apply max_bnd in Bw.
  assert (Bd : bnd (b64_add (b64_of_Z (p_dur d (v_profile v) (vi_loc a) (vi_loc b))) (std_max wait b64_zero)) 67).
  { apply (add_bnd _ _ 66); [lia|apply (bnd_weaken _ 63); [lia|exact Bdur]|exact Bw]. }
  apply add_not_nan.
  - apply (add_bnd _ _ 130); [lia| |].
    + apply (bnd_weaken _ (63 + 63)); [lia|]. apply mul_bnd; try lia; [apply of_Z_bnd; assumption|exact Bdist].
    + apply (mul_bnd _ _ 63 67); try lia; [apply of_Z_bnd; assumption|exact Bd].
  - apply mul_not_nan; [exact Hw|apply Bw].
Qed.

(** *** Ranks: the order of doubles that are not NaN. *)
Definition rank (f : b64) : R :=
  match f with B754_infinity false => bpow radix2 1024 | B754_infinity true => - bpow radix2 1024 | _ => B2R f end.
Definition ranked (f : b64) : Prop := is_nan f = false.

Lemma rank_finite f : is_finite f = true -> rank f = B2R f.
Proof. destruct f as [s|[|]| |]; intros H; try discriminate; reflexivity. Qed.
Lemma finite_lt (f : b64) : is_finite f = true -> - bpow radix2 1024 < B2R f < bpow radix2 1024.
Proof. intros _. pose proof (abs_B2R_lt_emax 53 1024 f) as H. apply Rabs_lt_inv in H. exact H. Qed.

Lemma ltb_rank f g : ranked f -> ranked g -> Bltb f g = Rlt_bool (rank f) (rank g).
Proof.
  intros Hf Hg. pose proof (bpow_gt_0 radix2 1024) as P.
  destruct (is_finite f) eqn:Ff, (is_finite g) eqn:Fg.
  - rewrite !rank_finite by assumption. apply Bltb_correct; assumption.
  - rewrite (rank_finite f Ff). pose proof (finite_lt f Ff) as [L1 L2].
    destruct g as [s|[|]| |s m e Hb]; try discriminate; cbn [rank].
    + rewrite Rlt_bool_false by lra. destruct f as [s|s| |s m e Hb]; try discriminate; reflexivity.
    + rewrite Rlt_bool_true by lra. destruct f as [s|s| |s m e Hb]; try discriminate; reflexivity.
  - rewrite (rank_finite g Fg). pose proof (finite_lt g Fg) as [L1 L2].
    destruct f as [s|[|]| |s m e Hb]; try discriminate; cbn [rank].
    + rewrite Rlt_bool_true by lra. destruct g as [s|s| |s m e Hb]; try discriminate; reflexivity.
    + rewrite Rlt_bool_false by lra. destruct g as [s|s| |s m e Hb]; try discriminate; reflexivity.
  - destruct f as [s|[|]| |s m e Hb]; try discriminate; destruct g as [s'|[|]| |s' m' e' Hb']; try discriminate;
      cbn [rank]; [rewrite Rlt_bool_false|rewrite Rlt_bool_true|rewrite Rlt_bool_false|rewrite Rlt_bool_false]; try lra; reflexivity.
Qed.

Lemma min_ranked a b : ranked a -> ranked b -> ranked (std_min a b).
Proof. intros. unfold std_min. destruct (Bltb b a); assumption. Qed.
Lemma min_rank_r a b : ranked a -> ranked b -> rank (std_min a b) <= rank b.
Proof.
  intros Ha Hb. unfold std_min. rewrite (ltb_rank b a Hb Ha). destruct (Rlt_bool_spec (rank b) (rank a)); lra.
Qed.
(** A proximity: not NaN and not plus infinity. *)
Definition near (f : b64) : Prop := ranked f /\ rank f < bpow radix2 1024.
Lemma near_max : near b64_max.
Proof. split; [reflexivity|]. rewrite rank_finite by reflexivity. apply finite_lt. reflexivity. Qed.
Lemma min_near a b : ranked a -> near b -> near (std_min a b).
Proof.
  intros Ha [Hb1 Hb2]. split; [apply min_ranked; assumption|]. pose proof (min_rank_r a b Ha Hb1). lra.
Qed.

Lemma unseen_in vs : forall seen v, In v (unseen seen vs) -> In v vs.
Proof.
  induction vs as [|x vs IH]; intros seen v H; cbn in *; [assumption|].
  destruct (existsb _ _); [right; eapply IH; eassumption|].
  destruct H as [->|H]; [left; reflexivity|right; eapply IH; eassumption].
Qed.

Lemma client_vi_ok d i : in_int64 d -> vi_ok (visit_client (p_client d i)).
Proof.
  intros Hd. unfold p_client. apply (Forall_nth_default (fun c => vi_ok (visit_client c))); [|].
  - eapply Forall_impl; [|exact (i64_clients d Hd)]. intros c H; exact H.
  - unfold vi_ok; cbn. unfold MAXV. lia.
Qed.
Lemma step_vi_ok d i : in_int64 d ->
  vi_ok (visit_step (s_pickup (p_shipment d i))) /\ vi_ok (visit_step (s_delivery (p_shipment d i))).
Proof.
  intros Hd. unfold p_shipment.
  apply (Forall_nth_default (fun s => vi_ok (visit_step (s_pickup s)) /\ vi_ok (visit_step (s_delivery s)))).
  - eapply Forall_impl; [|exact (i64_shipments d Hd)]. intros s H.
    split; [apply (H (s_pickup s)); auto|apply (H (s_delivery s)); auto].
  - unfold vi_ok; cbn. unfold MAXV. lia.
Qed.

Lemma pair_ranked d p v a b : in_int64 d -> weight_ok (np_wait p) -> In v (p_vehicles d) -> vi_ok a -> vi_ok b ->
  ranked (pair_cost d p v a b).
Proof.
  intros. unfold pair_cost. destruct (np_symmetric p); [apply min_ranked|]; apply arc_not_nan; assumption.
Qed.

Theorem proximity_near d p row col : in_int64 d -> weight_ok (np_wait p) -> near (proximity d p row col).
Proof.
  intros Hd Hw. unfold proximity.
  assert (G : forall vs x, (forall v, In v vs -> In v (p_vehicles d)) -> near x ->
            near (fold_left (prox_step d p row col) vs x)).
  { induction vs as [|v vs IH]; intros x Hvs Hx; cbn [fold_left]; [assumption|].
    apply IH; [intros; apply Hvs; right; assumption|].
    assert (Hv : In v (p_vehicles d)) by (apply Hvs; left; reflexivity).
    assert (Hc : vi_ok (col_visit d col)).
    { unfold col_visit. destruct (_ <? _)%nat; [apply client_vi_ok; assumption|].
      destruct (_ <? _)%nat; apply step_vi_ok; assumption. }
    unfold prox_step, row_visits. destruct (_ <? _)%nat; cbn [map app]; unfold min_list; cbn [fold_left].
    - apply min_near; [|assumption]. apply pair_ranked; try assumption. apply client_vi_ok; assumption.
    - destruct (step_vi_ok d (row - p_numClients d) Hd) as [S1 S2].
      apply min_near; [|assumption]. apply min_ranked; apply pair_ranked; assumption. }
  apply G; [intros v Hv; eapply unseen_in; eassumption|apply near_max].
Qed.

Lemma prox_final_ranked d p row col : in_int64 d -> weight_ok (np_wait p) -> ranked (prox_final d p row col).
Proof.
  intros. unfold prox_final. destruct (_ && _); [reflexivity|]. destruct (_ =? _)%nat; [reflexivity|].
  destruct (mates _ _ _); [reflexivity|]. apply proximity_near; assumption.
Qed.

(** *** The sort *)
Section Sort.
Variable f : nat -> b64.
Hypothesis Hf : forall i, ranked (f i).
Notation rk i := (rank (f i)).

(** Earlier means closer, or equally close with a smaller index. *)
Definition before (x y : nat) : Prop := rk x < rk y \/ (rk x = rk y /\ (x < y)%nat).

Lemma insert_perm x l : Permutation (x :: l) (insert_by f x l).
Proof.
  induction l as [|y l IH]; cbn; [reflexivity|]. destruct (Bltb _ _); [reflexivity|].
  rewrite perm_swap. apply perm_skip, IH.
Qed.
Lemma sort_perm l : Permutation l (stable_sort f l).
Proof.
  unfold stable_sort. induction l as [|x l IH] using rev_ind; [reflexivity|].
  rewrite fold_left_app. cbn [fold_left]. etransitivity; [|apply insert_perm].
  rewrite Permutation_app_comm. cbn. apply perm_skip, IH.
Qed.

Lemma insert_sorted x l : StronglySorted before l -> Forall (fun y => (y < x)%nat) l ->
  StronglySorted before (insert_by f x l).
Proof.
  induction l as [|y l IH]; intros Hs Hl; cbn; [constructor; [constructor|constructor]|].
  inversion Hs as [|? ? Hs' Hy]; subst. inversion Hl as [|? ? Hyx Hl']; subst.
  rewrite (ltb_rank _ _ (Hf x) (Hf y)). destruct (Rlt_bool_spec (rk x) (rk y)) as [H|H].
  - constructor; [assumption|]. constructor; [left; assumption|].
    eapply Forall_impl; [|exact Hy]. intros z [Hz|[Hz _]]; left; lra.
  - constructor; [apply IH; assumption|].
    eapply Permutation_Forall; [apply insert_perm|]. constructor; [|assumption].
    destruct H as [H|H]; [left; assumption|right; split; assumption].
Qed.

Lemma sort_sorted n : StronglySorted before (stable_sort f (seq 0 n)).
Proof.
  induction n as [|n IH]; [constructor|]. rewrite seq_S. unfold stable_sort in *. rewrite fold_left_app.
  cbn [fold_left Nat.add]. apply insert_sorted; [assumption|].
  eapply Permutation_Forall; [apply (sort_perm (seq 0 n))|]. apply Forall_forall. intros y Hy.
  apply in_seq in Hy. lia.
Qed.
End Sort.

Lemma nodup_l {A} (l1 l2 : list A) : NoDup (l1 ++ l2) -> NoDup l1.
Proof.
  induction l1 as [|x l1 IH]; cbn; intros H; [constructor|]. inversion H; subst.
  constructor; [intros Hx; apply H2, in_or_app; auto|auto].
Qed.
Lemma nodup_r {A} (l1 l2 : list A) : NoDup (l1 ++ l2) -> NoDup l2.
Proof. induction l1 as [|x l1 IH]; cbn; intros H; [assumption|]. inversion H; subst; auto. Qed.

Lemma sorted_app {A} (R : A -> A -> Prop) l1 l2 : StronglySorted R (l1 ++ l2) ->
  StronglySorted R l1 /\ StronglySorted R l2 /\ forall x y, In x l1 -> In y l2 -> R x y.
Proof.
  induction l1 as [|a l1 IH]; cbn; intros H.
  - split; [constructor|split; [assumption|intros x y []]].
  - inversion H as [|? ? Hs Ha]; subst. destruct (IH Hs) as (I1 & I2 & I3).
    apply Forall_app in Ha as [Ha1 Ha2]. split; [constructor; assumption|split; [assumption|]].
    intros x y [<-|Hx] Hy; [eapply Forall_forall in Ha2; eassumption|auto].
Qed.

(** Selecting the first [k] of the sorted indices avoids the excluded ones as long as there are
    [k] others. *)
Lemma select_spec f n k (ex : list nat) :
  (forall i, ranked (f i)) -> (forall i, In i ex -> f i = b64_inf) ->
  (forall i, ~ In i ex -> near (f i)) -> NoDup ex ->
  (k + length ex <= n)%nat ->
  let chosen := firstn k (stable_sort f (seq 0 n)) in
  length chosen = k /\ NoDup chosen /\ (forall i, In i chosen -> (i < n)%nat /\ ~ In i ex) /\
  StronglySorted (before f) chosen /\
  forall i j, In i chosen -> (j < n)%nat -> ~ In j chosen -> before f i j.
Proof.
  intros Hf Hinf Hfin Hnd Hk chosen.
  pose proof (sort_perm f (seq 0 n)) as P. pose proof (sort_sorted f Hf n) as S.
  pose proof (Permutation_length P) as L. rewrite seq_length in L.
  assert (N : NoDup (stable_sort f (seq 0 n))) by (eapply Permutation_NoDup; [exact P|apply seq_NoDup]).
  pose proof (firstn_skipn k (stable_sort f (seq 0 n))) as FS. fold chosen in FS.
  set (rest := skipn k (stable_sort f (seq 0 n))) in *.
  rewrite <- FS in S, N. destruct (sorted_app _ _ _ S) as (S1 & S2 & S3).
  assert (Lc : length chosen = k).
  { unfold chosen. apply firstn_length_le. rewrite <- L. lia. }
  assert (Nc : NoDup chosen) by (eapply nodup_l; exact N).
  assert (In1 : forall i, In i chosen \/ In i rest <-> (i < n)%nat).
  { intros i. rewrite <- in_app_iff, FS. split; intros H.
    - eapply Permutation_in in H; [|symmetry; exact P]. apply in_seq in H. lia.
    - eapply Permutation_in; [exact P|]. apply in_seq. lia. }
  split; [assumption|]. split; [assumption|]. split; [|split; [assumption|]].
  - intros i Hi. split; [apply In1; auto|]. intros Hex.
    (* everything after an excluded index is excluded *)
    apply in_split in Hi as (a & b & E).
    assert (Hrest : forall j, In j (b ++ rest) -> In j ex).
    { intros j Hj. destruct (in_dec Nat.eq_dec j ex) as [|Hn]; [assumption|exfalso].
      assert (B : before f i j).
      { rewrite E in S. rewrite <- app_assoc in S. apply sorted_app in S as (_ & S' & _). cbn in S'.
        inversion S' as [|? ? _ Hall]. eapply Forall_forall in Hall; [exact Hall|assumption]. }
      pose proof (Hfin j Hn) as [_ Hlt].
      unfold before in B. rewrite (Hinf i Hex) in B. cbn [rank b64_inf] in B. destruct B as [B|[B _]]; lra. }
    assert (Lx : (length (i :: b ++ rest) <= length ex)%nat).
    { apply NoDup_incl_length.
      - rewrite E in N. rewrite <- app_assoc in N. apply nodup_r in N. exact N.
      - intros j [<-|Hj]; auto. }
    assert (length chosen + length rest = n)%nat by (rewrite <- app_length, FS; lia).
    rewrite E, app_length in Lc. cbn [length] in Lc, Lx. rewrite app_length in Lx.
    rewrite E, app_length in H. cbn [length] in H. lia.
  - intros i j Hi Hj Hn. apply S3; [assumption|]. destruct (proj2 (In1 j) Hj) as [H|H]; [contradiction|assumption].
Qed.

(** *** Rows *)
Definition excluded (d : pdata) (row : nat) : list nat :=
  if (row <? p_numClients d)%nat then [row] else [row; row + p_numShipments d]%nat.

Lemma excluded_inf d p row i : (row < p_numClients d + p_numShipments d)%nat ->
  In i (excluded d row) -> prox_final d p row i = b64_inf.
Proof.
  intros Hr Hi. unfold prox_final, excluded in *.
  destruct (row <? p_numClients d)%nat eqn:E.
  - apply Nat.ltb_lt in E. destruct Hi as [<-|[]]. rewrite Nat.eqb_refl.
    destruct (_ && _); reflexivity.
  - apply Nat.ltb_ge in E. destruct Hi as [<-|[<-|[]]].
    + rewrite Nat.eqb_refl. destruct (_ && _); reflexivity.
    + rewrite (proj2 (Nat.leb_le _ _) E), Nat.eqb_refl. reflexivity.
Qed.
Lemma included_near d p row i : in_int64 d -> weight_ok (np_wait p) ->
  ~ In i (excluded d row) -> near (prox_final d p row i).
Proof.
  intros Hd Hw Hi. unfold prox_final, excluded in *.
  destruct (p_numClients d <=? row)%nat eqn:E; cbn [andb].
  - apply Nat.leb_le in E. rewrite (proj2 (Nat.ltb_ge _ _) E) in Hi. cbn in Hi.
    destruct (i =? row + p_numShipments d)%nat eqn:E1; [apply Nat.eqb_eq in E1; subst; tauto|].
    destruct (i =? row)%nat eqn:E2; [apply Nat.eqb_eq in E2; subst; tauto|].
    destruct (mates _ _ _); [apply near_max|apply proximity_near; assumption].
  - apply Nat.leb_gt in E. rewrite (proj2 (Nat.ltb_lt _ _) E) in Hi. cbn in Hi.
    destruct (i =? row)%nat eqn:E2; [apply Nat.eqb_eq in E2; subst; tauto|].
    destruct (mates _ _ _); [apply near_max|apply proximity_near; assumption].
Qed.

Definition row_activity (d : pdata) (row : nat) : activity :=
  if (row <? p_numClients d)%nat then AClient row else APickup (row - p_numClients d).
(** The column of an activity. *)
Definition act_col (d : pdata) (a : activity) : nat :=
  match a with
  | ADepot _ => num_cols d
  | AClient i => i
  | APickup i => p_numClients d + i
  | ADelivery i => p_numClients d + p_numShipments d + i
  end.
Lemma act_col_activity d i : act_col d (col_activity d i) = i.
Proof.
  unfold col_activity. destruct (i <? _)%nat eqn:E1; [reflexivity|]. apply Nat.ltb_ge in E1.
  destruct (i <? _)%nat eqn:E2; cbn; [lia|]. apply Nat.ltb_ge in E2. lia.
Qed.
Lemma col_activity_col d a : visit_known d a -> col_activity d (act_col d a) = a /\ (act_col d a < num_cols d)%nat.
Proof.
  intros [Hd Hk]. unfold num_cols. destruct a as [i|i|i|i]; cbn in *; try discriminate; unfold col_activity.
  - rewrite (proj2 (Nat.ltb_lt _ _) Hk). split; [reflexivity|lia].
  - destruct (p_numClients d + i <? p_numClients d)%nat eqn:E1; [apply Nat.ltb_lt in E1; lia|].
    destruct (p_numClients d + i <? p_numClients d + p_numShipments d)%nat eqn:E2; [|apply Nat.ltb_ge in E2; lia].
    split; [f_equal; lia|lia].
  - destruct (_ <? p_numClients d)%nat eqn:E1; [apply Nat.ltb_lt in E1; lia|].
    destruct (_ <? p_numClients d + p_numShipments d)%nat eqn:E2; [apply Nat.ltb_lt in E2; lia|].
    split; [f_equal; lia|lia].
Qed.
Lemma col_known d i : (i < num_cols d)%nat -> visit_known d (col_activity d i).
Proof.
  unfold num_cols. intros H. unfold col_activity, visit_known.
  destruct (i <? _)%nat eqn:E1; [apply Nat.ltb_lt in E1; split; [reflexivity|exact E1]|]. apply Nat.ltb_ge in E1.
  destruct (i <? _)%nat eqn:E2; [apply Nat.ltb_lt in E2|apply Nat.ltb_ge in E2]; (split; [reflexivity|cbn; lia]).
Qed.

(** How far [b] is from [a], for the order of the neighbourhood of [a]. *)
Definition distance_to (d : pdata) (p : nparams) (a b : activity) : R :=
  rank (prox_final d p (act_col d a) (act_col d b)).

Theorem nearest_spec d p row : in_int64 d -> weight_ok (np_wait p) ->
  (row < p_numClients d + p_numShipments d)%nat ->
  let a := row_activity d row in
  let l := nearest d p row in
  length l = num_neighbours d p /\ NoDup l /\
  (forall b, In b l -> visit_known d b /\ b <> a /\ (forall i, a = APickup i -> b <> ADelivery i)) /\
  StronglySorted (fun b c => distance_to d p a b <= distance_to d p a c) l /\
  (forall b c, In b l -> visit_known d c -> ~ In c l -> distance_to d p a b <= distance_to d p a c).
Proof.
  intros Hd Hw Hr a l.
  assert (Hrow : act_col d a = row).
  { unfold a, row_activity. destruct (row <? _)%nat eqn:E; [reflexivity|]. apply Nat.ltb_ge in E. cbn. lia. }
  destruct (select_spec (prox_final d p row) (num_cols d) (num_neighbours d p) (excluded d row)) as (S1 & S2 & S3 & S4 & S5).
  - intros i. apply prox_final_ranked; assumption.
  - intros i. apply excluded_inf; assumption.
  - intros i. apply included_near; assumption.
  - unfold excluded. destruct (row <? _)%nat eqn:E; [constructor; [intros []|constructor]|].
    apply Nat.ltb_ge in E. constructor; [|constructor; [intros []|constructor]]. intros [H|[]]. lia.
  - unfold num_neighbours, excluded, num_cols. destruct (row <? _)%nat eqn:E.
    + apply Nat.ltb_lt in E. cbn [length]. lia.
    + apply Nat.ltb_ge in E. cbn [length]. lia.
  - unfold l, nearest. set (ch := firstn _ _) in *.
    split; [rewrite map_length; exact S1|]. split; [|split; [|split]].
    + clear - S2. induction S2 as [|x c Hx Hc IH]; cbn; constructor; [|assumption].
      intros H. apply in_map_iff in H as (y & Ey & Hy). apply (f_equal (act_col d)) in Ey.
      rewrite !act_col_activity in Ey. subst. contradiction.
    + intros b Hb. apply in_map_iff in Hb as (i & <- & Hi). destruct (S3 i Hi) as [S31 S32].
      split; [apply col_known; assumption|]. split.
      * intros E. apply S32. apply (f_equal (act_col d)) in E. rewrite act_col_activity, Hrow in E. subst i.
        unfold excluded. destruct (row <? _)%nat; left; reflexivity.
      * intros j Ea E. apply S32. apply (f_equal (act_col d)) in E. rewrite act_col_activity in E. cbn in E.
        unfold a, row_activity in Ea. unfold excluded. destruct (row <? _)%nat eqn:Er; [discriminate|].
        apply Nat.ltb_ge in Er. injection Ea as Ea. right; left. lia.
    + clear - S4 Hrow. induction S4 as [|x c Hc IH Hx]; cbn; constructor; [assumption|].
      apply Forall_forall. intros y Hy. apply in_map_iff in Hy as (j & <- & Hj).
      eapply Forall_forall in Hx; [|exact Hj]. unfold distance_to. rewrite !act_col_activity, Hrow.
      destruct Hx as [Hx|[Hx _]]; lra.
    + intros b c Hb Hc Hn. apply in_map_iff in Hb as (i & <- & Hi).
      destruct (col_activity_col d c Hc) as [C1 C2].
      assert (B : before (prox_final d p row) i (act_col d c)).
      { apply S5; [assumption|assumption|]. intros H. apply Hn. rewrite <- C1. apply in_map. assumption. }
      unfold distance_to. rewrite act_col_activity, Hrow. destruct B as [B|[B _]]; lra.
Qed.

(** The whole structure. *)
Lemma compute_keys d p : map fst (compute_neighbours d p) = activity_order d.
Proof. unfold compute_neighbours, activity_order. rewrite map_app, !map_map. reflexivity. Qed.
Lemma compute_entry d p a l : In (a, l) (compute_neighbours d p) ->
  exists row, (row < p_numClients d + p_numShipments d)%nat /\ a = row_activity d row /\ l = nearest d p row.
Proof.
  intros H. unfold compute_neighbours in H. apply in_app_or in H as [H|H]; apply in_map_iff in H as (i & E & Hi);
    apply in_seq in Hi; injection E as <- <-.
  - exists i. split; [lia|]. split; [|reflexivity]. unfold row_activity.
    rewrite (proj2 (Nat.ltb_lt _ _)) by lia. reflexivity.
  - exists (p_numClients d + i)%nat. split; [lia|]. split; [|reflexivity]. unfold row_activity.
    rewrite (proj2 (Nat.ltb_ge _ _)) by lia. f_equal. lia.
Qed.

(** Accepted by the search space. *)
Theorem compute_accepted d p : in_int64 d -> weight_ok (np_wait p) ->
  exists s, make_space d (compute_neighbours d p) = Ok s.
Proof.
  intros Hd Hw. apply make_space_iff. split.
  - unfold compute_neighbours. rewrite app_length, !map_length, !seq_length. reflexivity.
  - intros a l H. apply compute_entry in H as (row & Hr & -> & ->).
    split; [unfold row_activity; destruct (_ <? _)%nat; auto|].
    intros Hin. pose proof (nearest_spec d p row Hd Hw Hr) as (_ & _ & H & _). apply H in Hin.
    destruct Hin as (_ & Hne & _). apply Hne. reflexivity.
Qed.

(** ** Exactness: for moderate numbers the proximity is an integer cost *)
Definition isz (f : b64) (z : Z) : Prop := is_finite f = true /\ B2R f = IZR z.
Definition small (z : Z) : Prop := (Z.abs z <= 2 ^ 53)%Z.

Lemma rnd_int z : small z -> rnd (IZR z) = IZR z.
Proof.
  intros H. apply round_generic; [apply valid_rnd_round_mode|].
  destruct (Z.eq_dec (Z.abs z) (2 ^ 53)) as [E|E].
  - assert (z = 2 ^ 53 \/ z = - 2 ^ 53)%Z as [-> | ->] by lia.
    + change (IZR (2 ^ 53)) with (bpow radix2 53). apply generic_format_FLT_bpow; [reflexivity|]. unfold SpecFloat.emin. lia.
    + change (IZR (- 2 ^ 53)) with (- bpow radix2 53). apply generic_format_opp.
      apply generic_format_FLT_bpow; [reflexivity|]. unfold SpecFloat.emin. lia.
  - apply generic_format_FLT. apply (FLT_spec _ _ _ _ (Float radix2 z 0)).
    + unfold F2R; cbn; lra.
    + unfold small in H. cbn [Fnum]. change (radix2 ^ 53)%Z with (2 ^ 53)%Z. lia.
    + cbn [Fexp]. unfold SpecFloat.emin. lia.
Qed.
Lemma small_lt z : small z -> Rabs (IZR z) < bpow radix2 1024.
Proof.
  intros H. rewrite <- abs_IZR. eapply Rle_lt_trans; [apply IZR_le, H|].
  change (IZR (2 ^ 53)) with (bpow radix2 53). apply bpow_lt. lia.
Qed.

Lemma of_Z_isz z : small z -> isz (b64_of_Z z) z.
Proof.
  intros Hz. unfold b64_of_Z.
  pose proof (binary_normalize_correct 53 1024 b64_prec b64_emax mode_NE z 0 false) as H. cbv zeta in H.
  assert (E : F2R (Float radix2 z 0) = IZR z) by (unfold F2R; cbn; lra). rewrite E in H.
  change (round radix2 _ _ (IZR z)) with (rnd (IZR z)) in H.
  rewrite (rnd_int z Hz), Rlt_bool_true in H by (apply small_lt; assumption).
  destruct H as (H1 & H2 & _). split; assumption.
Qed.
Lemma add_isz f g x y : isz f x -> isz g y -> small (x + y) -> isz (b64_add f g) (x + y).
Proof.
  intros [F1 B1] [F2 B2] Hs. unfold b64_add.
  pose proof (Bplus_correct 53 1024 b64_prec b64_emax mode_NE f g F1 F2) as H.
  rewrite B1, B2, <- plus_IZR in H. change (round radix2 _ _ (IZR (x + y))) with (rnd (IZR (x + y))) in H.
  rewrite (rnd_int _ Hs), Rlt_bool_true in H by (apply small_lt; assumption).
  destruct H as (H1 & H2 & _). split; assumption.
Qed.
Lemma sub_isz f g x y : isz f x -> isz g y -> small (x - y) -> isz (b64_sub f g) (x - y).
Proof.
  intros [F1 B1] [F2 B2] Hs. unfold b64_sub.
  pose proof (Bminus_correct 53 1024 b64_prec b64_emax mode_NE f g F1 F2) as H.
  rewrite B1, B2, <- minus_IZR in H. change (round radix2 _ _ (IZR (x - y))) with (rnd (IZR (x - y))) in H.
  rewrite (rnd_int _ Hs), Rlt_bool_true in H by (apply small_lt; assumption).
  destruct H as (H1 & H2 & _). split; assumption.
Qed.
Lemma mul_isz f g x y : isz f x -> isz g y -> small (x * y) -> isz (b64_mul f g) (x * y).
Proof.
  intros [F1 B1] [F2 B2] Hs. unfold b64_mul.
  pose proof (Bmult_correct 53 1024 b64_prec b64_emax mode_NE f g) as H.
  rewrite B1, B2, <- mult_IZR in H. change (round radix2 _ _ (IZR (x * y))) with (rnd (IZR (x * y))) in H.
  rewrite (rnd_int _ Hs), Rlt_bool_true in H by (apply small_lt; assumption).
  destruct H as (H1 & H2 & _). split; [rewrite H2, F1, F2; reflexivity|assumption].
Qed.
Lemma rnd_mono x y : x <= y -> rnd x <= rnd y.
Proof. intros H. apply round_le; [apply FLT.FLT_exp_valid; reflexivity|apply valid_rnd_round_mode|exact H]. Qed.

(** Comparing a possibly huge number with a moderate one. *)
Lemma of_Z_rnd z : (Z.abs z <= 2 ^ 63)%Z -> is_finite (b64_of_Z z) = true /\ B2R (b64_of_Z z) = rnd (IZR z).
Proof.
  intros Hz. unfold b64_of_Z.
  pose proof (binary_normalize_correct 53 1024 b64_prec b64_emax mode_NE z 0 false) as H. cbv zeta in H.
  assert (E : F2R (Float radix2 z 0) = IZR z) by (unfold F2R; cbn; lra). rewrite E in H.
  assert (HR : Rabs (IZR z) <= bpow radix2 63).
  { rewrite <- abs_IZR. change (bpow radix2 63) with (IZR (2 ^ 63)). apply IZR_le, Hz. }
  pose proof (rnd_bnd _ 63 ltac:(lia) HR) as HB.
  rewrite Rlt_bool_true in H by (eapply Rle_lt_trans; [exact HB|apply bpow_lt_max; lia]).
  destruct H as (H1 & H2 & _). split; assumption.
Qed.
Lemma late_cmp late f z : (0 <= late <= 2 ^ 63)%Z -> isz f z -> small z ->
  Bltb (b64_of_Z late) f = (late <? z)%Z.
Proof.
  intros Hl [Ff Bf] Hz. destruct (of_Z_rnd late ltac:(lia)) as [Fl Bl].
  pose proof (Bltb_correct 53 1024 (b64_of_Z late) f Fl Ff) as HC. etransitivity; [exact HC|].
  rewrite Bl, Bf. destruct (Z.ltb_spec late z) as [H|H].
  - apply Rlt_bool_true. rewrite rnd_int by (unfold small in *; lia). apply IZR_lt, H.
  - apply Rlt_bool_false. rewrite <- (rnd_int z Hz). apply rnd_mono, IZR_le, H.
Qed.
Lemma wait_exact f z late : isz f z -> (Z.abs z <= 2 ^ 30)%Z -> (0 <= late <= 2 ^ 63)%Z ->
  isz (std_max (b64_sub f (b64_of_Z late)) b64_zero) (Z.max 0 (z - late)).
Proof.
  intros Hf Hz Hl. destruct (Z.le_gt_cases late (2 ^ 52)) as [H|H].
  - pose proof (sub_isz _ _ _ _ Hf (of_Z_isz late ltac:(unfold small; lia)) ltac:(unfold small; lia)) as [F B].
    unfold std_max. pose proof (Bltb_correct 53 1024 _ b64_zero F eq_refl) as HC.
    replace (Bltb (b64_sub f (b64_of_Z late)) b64_zero) with (Rlt_bool (B2R (b64_sub f (b64_of_Z late))) (B2R b64_zero)).
    rewrite B, B2R_b64_zero. destruct (Rlt_bool_spec (IZR (z - late)) 0) as [L|L].
    + apply lt_IZR in L. split; [reflexivity|]. rewrite Z.max_l by lia. apply B2R_b64_zero.
    + apply le_IZR in L. split; [assumption|]. rewrite Z.max_r by lia. assumption.
  - rewrite Z.max_l by lia. destruct Hf as [F1 B1]. destruct (of_Z_rnd late ltac:(lia)) as [F2 B2].
    pose proof (Bminus_correct 53 1024 b64_prec b64_emax mode_NE f (b64_of_Z late) F1 F2) as HM.
    rewrite B1, B2 in HM.
    assert (L1 : bpow radix2 52 <= rnd (IZR late)).
    { change (bpow radix2 52) with (IZR (2 ^ 52)). rewrite <- (rnd_int (2 ^ 52)) by (unfold small; lia).
      apply rnd_mono, IZR_le. lia. }
    assert (L2 : rnd (IZR late) <= bpow radix2 63).
    { eapply Rle_trans; [apply Rle_abs|]. apply rnd_bnd; [lia|]. rewrite <- abs_IZR.
      change (bpow radix2 63) with (IZR (2 ^ 63)). apply IZR_le. lia. }
    assert (L3 : Rabs (IZR z) <= bpow radix2 30).
    { rewrite <- abs_IZR. change (bpow radix2 30) with (IZR (2 ^ 30)). apply IZR_le. lia. }
    assert (L4 : bpow radix2 30 < bpow radix2 52) by (apply bpow_lt; lia).
    assert (L5 : bpow radix2 30 <= bpow radix2 63) by (apply bpow_le; lia).
    assert (HR : Rabs (IZR z - rnd (IZR late)) <= bpow radix2 64).
    { replace 64%Z with (63 + 1)%Z by lia. rewrite <- bpow_double.
      pose proof (bpow_ge_0 radix2 52) as G0. eapply Rle_trans; [apply Rabs_triang|].
      rewrite Rabs_Ropp, (Rabs_pos_eq (rnd (IZR late))) by lra. lra. }
    pose proof (rnd_bnd _ 64 ltac:(lia) HR) as HB.
    rewrite Rlt_bool_true in HM by (eapply Rle_lt_trans; [exact HB|apply bpow_lt_max; lia]).
    destruct HM as (M1 & M2 & _).
    assert (Neg : rnd (IZR z - rnd (IZR late)) <= -1).
    { rewrite <- (rnd_int (-1)) by (unfold small; lia). apply rnd_mono.
      assert (bpow radix2 30 + 1 <= bpow radix2 52).
      { change (bpow radix2 30) with (IZR (2 ^ 30)). change (bpow radix2 52) with (IZR (2 ^ 52)).
        rewrite <- plus_IZR. apply IZR_le. lia. }
      pose proof (Rle_abs (IZR z)). lra. }
    unfold std_max. pose proof (Bltb_correct 53 1024 (b64_sub f (b64_of_Z late)) b64_zero M2 eq_refl) as HC.
    replace (Bltb (b64_sub f (b64_of_Z late)) b64_zero) with true.
    + split; [reflexivity|apply B2R_b64_zero].
    + symmetry. etransitivity; [exact HC|]. apply Rlt_bool_true. unfold b64_sub. rewrite M1, B2R_b64_zero.
      change (round radix2 _ _ ?x) with (rnd x). lra.
Qed.

(** The cost of going from one visit to another: [None] when the second can never be reached in time. *)
Definition int_arc (d : pdata) (w : Z) (v : vehicle) (x y : visit) : option Z :=
  let dur := p_dur d (v_profile v) (vi_loc x) (vi_loc y) in
  if (vi_early x + vi_service x + dur <=? vi_late y)%Z then
    let wait := Z.max 0 (vi_early y - dur - vi_service x - vi_late x) in
    Some (v_unitDistance v * p_dist d (v_profile v) (vi_loc x) (vi_loc y) + v_unitDuration v * (dur + wait) + w * wait)%Z
  else None.

Record moderate (d : pdata) : Prop := mk_moderate {
  md_clients : Forall (fun c => Z.abs (c_service c) <= 2 ^ 20 /\ Z.abs (c_early c) <= 2 ^ 20 /\ 0 <= c_late c <= 2 ^ 63)%Z (p_clients d);
  md_shipments : Forall (fun s => forall x, x = s_pickup s \/ x = s_delivery s ->
     Z.abs (st_service x) <= 2 ^ 20 /\ Z.abs (st_early x) <= 2 ^ 20 /\ 0 <= st_late x <= 2 ^ 63)%Z (p_shipments d);
  md_vehicles : Forall (fun v => Z.abs (v_unitDistance v) <= 2 ^ 20 /\ Z.abs (v_unitDuration v) <= 2 ^ 20)%Z (p_vehicles d);
  md_dist : forall profile a b, (Z.abs (p_dist d profile a b) <= 2 ^ 20)%Z;
  md_dur : forall profile a b, (Z.abs (p_dur d profile a b) <= 2 ^ 20)%Z }.
Definition vi_mod (x : visit) : Prop :=
  (Z.abs (vi_service x) <= 2 ^ 20 /\ Z.abs (vi_early x) <= 2 ^ 20 /\ 0 <= vi_late x <= 2 ^ 63)%Z.

Definition reps (f : b64) (o : option Z) : Prop :=
  match o with Some z => isz f z /\ small z | None => f = b64_max end.

Lemma prod_bound x y a b : (Z.abs x <= a -> Z.abs y <= b -> Z.abs (x * y) <= a * b)%Z.
Proof. intros. rewrite Z.abs_mul. apply Z.mul_le_mono_nonneg; lia. Qed.

Lemma arc_exact d wf w v x y : moderate d -> isz wf w -> (Z.abs w <= 2 ^ 20)%Z -> In v (p_vehicles d) ->
  vi_mod x -> vi_mod y -> reps (arc_cost d wf v x y) (int_arc d w v x y).
Proof.
  intros Hd Hw Hwb Hv (X1 & X2 & X3) (Y1 & Y2 & Y3). unfold arc_cost, int_arc.
  pose proof (proj1 (Forall_forall _ _) (md_vehicles d Hd) v Hv) as [V1 V2].
  pose proof (md_dur d Hd (v_profile v) (vi_loc x) (vi_loc y)) as D1.
  pose proof (md_dist d Hd (v_profile v) (vi_loc x) (vi_loc y)) as D2.
  set (dur := p_dur _ _ _ _) in *. set (dist := p_dist _ _ _ _) in *.
  assert (SS : forall z, (Z.abs z <= 2 ^ 24)%Z -> small z) by (intros z Hz; unfold small; lia).
  pose proof (of_Z_isz dur ltac:(apply SS; lia)) as Edur.
  pose proof (of_Z_isz (vi_service x) ltac:(apply SS; lia)) as Eserv.
  pose proof (of_Z_isz (vi_early x) ltac:(apply SS; lia)) as Eearly.
  pose proof (of_Z_isz (vi_early y) ltac:(apply SS; lia)) as Eto.
  pose proof (add_isz _ _ _ _ (add_isz _ _ _ _ Eearly Eserv ltac:(apply SS; lia)) Edur ltac:(apply SS; lia)) as Earr.
  rewrite (late_cmp (vi_late y) _ _ Y3 Earr ltac:(apply SS; lia)).
  rewrite Z.ltb_antisym. destruct (_ <=? vi_late y)%Z; cbn [negb reps]; [|reflexivity].
  pose proof (sub_isz _ _ _ _ (sub_isz _ _ _ _ Eto Edur ltac:(apply SS; lia)) Eserv ltac:(apply SS; lia)) as Ew.
  pose proof (wait_exact _ _ (vi_late x) Ew ltac:(lia) X3) as EW.
  set (wait := Z.max 0 _) in *. assert (Hwait : (0 <= wait <= 2 ^ 22)%Z) by (unfold wait; lia).
  clearbody wait.
  pose proof (add_isz _ _ _ _ Edur EW ltac:(apply SS; lia)) as ED.
  pose proof (prod_bound (v_unitDistance v) dist _ _ V1 D2) as P1.
  pose proof (prod_bound (v_unitDuration v) (dur + wait) _ (2 ^ 23) V2 ltac:(lia)) as P2.
  pose proof (prod_bound w wait _ (2 ^ 22) Hwb ltac:(lia)) as P3.
  assert (SB : forall z, (Z.abs z <= 2 ^ 20 * 2 ^ 20 + 2 ^ 20 * 2 ^ 23 + 2 ^ 20 * 2 ^ 22)%Z -> small z).
  { intros z Hz. unfold small. eapply Z.le_trans; [exact Hz|]. vm_compute. discriminate. }
  split; [|apply SB; lia].
  apply add_isz; [apply add_isz| |apply SB; lia].
  - apply mul_isz; [apply of_Z_isz, SS; lia|apply of_Z_isz, SS; lia|apply SB; lia].
  - apply mul_isz; [apply of_Z_isz, SS; lia|exact ED|apply SB; lia].
  - apply SB; lia.
  - apply mul_isz; [exact Hw|exact EW|apply SB; lia].
Qed.

(** The smaller of two costs, absent costs being the largest. *)
Definition omin (a b : option Z) : option Z :=
  match a, b with Some x, Some y => Some (Z.min x y) | Some x, None => Some x | None, _ => b end.
Lemma max_big z : small z -> IZR z < B2R b64_max.
Proof.
  intros H. assert (E : B2R b64_max = IZR ((2 ^ 53 - 1) * 2 ^ 971)).
  { cbn [B2R b64_max Bmax_float SF2B]. unfold Bmax_float, SF2B, B2R, F2R. cbn [Fnum Fexp].
    rewrite mult_IZR. f_equal. }
  rewrite E. apply IZR_lt. unfold small in H. assert (2 ^ 53 < (2 ^ 53 - 1) * 2 ^ 971)%Z by reflexivity. lia.
Qed.
Lemma min_reps f g x y : reps f x -> reps g y -> reps (std_min f g) (omin x y).
Proof.
  intros Hf Hg. unfold std_min.
  assert (Ff : is_finite f = true) by (destruct x; [apply Hf|cbn in Hf; subst f; reflexivity]).
  assert (Fg : is_finite g = true) by (destruct y; [apply Hg|cbn in Hg; subst g; reflexivity]).
  pose proof (Bltb_correct 53 1024 g f Fg Ff) as HC.
  replace (Bltb g f) with (Rlt_bool (B2R g) (B2R f)).
  destruct x as [x|], y as [y|]; cbn [omin reps] in *.
  - destruct Hf as [[_ Bf] Sf], Hg as [[_ Bg] Sg]. rewrite Bf, Bg.
    destruct (Rlt_bool_spec (IZR y) (IZR x)) as [H|H]; [apply lt_IZR in H|apply le_IZR in H].
    + rewrite Z.min_r by lia. repeat split; assumption.
    + rewrite Z.min_l by lia. repeat split; assumption.
  - subst g. destruct Hf as [[_ Bf] Sf]. rewrite Bf, Rlt_bool_false; [repeat split; assumption|].
    apply Rlt_le, max_big, Sf.
  - subst f. destruct Hg as [[_ Bg] Sg]. rewrite Bg, Rlt_bool_true; [repeat split; assumption|]. apply max_big, Sg.
  - subst. rewrite Rlt_bool_false by lra. reflexivity.
Qed.

Definition int_pair d w (sym : bool) v x y : option Z :=
  if sym then omin (int_arc d w v x y) (int_arc d w v y x) else int_arc d w v x y.
Definition int_prox (d : pdata) (w : Z) (sym : bool) (row col : nat) : option Z :=
  fold_left (fun acc v => fold_left (fun acc x => omin acc (int_pair d w sym v x (col_visit d col))) (row_visits d row) acc)
    (unseen [] (p_vehicles d)) None.

Lemma client_vi_mod d i : moderate d -> vi_mod (visit_client (p_client d i)).
Proof.
  intros Hd. unfold p_client. apply (Forall_nth_default (fun c => vi_mod (visit_client c))).
  - eapply Forall_impl; [|exact (md_clients d Hd)]. intros c H; exact H.
  - unfold vi_mod; cbn. unfold MAXV. lia.
Qed.
Lemma step_vi_mod d i : moderate d ->
  vi_mod (visit_step (s_pickup (p_shipment d i))) /\ vi_mod (visit_step (s_delivery (p_shipment d i))).
Proof.
  intros Hd. unfold p_shipment.
  apply (Forall_nth_default (fun s => vi_mod (visit_step (s_pickup s)) /\ vi_mod (visit_step (s_delivery s)))).
  - eapply Forall_impl; [|exact (md_shipments d Hd)]. intros s H.
    split; [apply (H (s_pickup s)); auto|apply (H (s_delivery s)); auto].
  - unfold vi_mod; cbn. unfold MAXV. lia.
Qed.
Lemma col_vi_mod d col : moderate d -> vi_mod (col_visit d col).
Proof.
  intros Hd. unfold col_visit. destruct (_ <? _)%nat; [apply client_vi_mod; assumption|].
  destruct (_ <? _)%nat; apply step_vi_mod; assumption.
Qed.

Lemma omin_comm a b : omin a b = omin b a.
Proof. destruct a, b; cbn; try reflexivity. rewrite Z.min_comm. reflexivity. Qed.
Lemma omin_assoc a b c : omin (omin a b) c = omin a (omin b c).
Proof. destruct a, b, c; cbn; try reflexivity. rewrite Z.min_assoc. reflexivity. Qed.

Theorem prox_exact d p w row col : moderate d -> isz (np_wait p) w -> (Z.abs w <= 2 ^ 20)%Z ->
  reps (proximity d p row col) (int_prox d w (np_symmetric p) row col).
Proof.
  intros Hd Hw Hwb. unfold proximity, int_prox.
  assert (G : forall vs x o, (forall v, In v vs -> In v (p_vehicles d)) -> reps x o ->
            reps (fold_left (prox_step d p row col) vs x)
              (fold_left (fun acc v => fold_left (fun acc x => omin acc (int_pair d w (np_symmetric p) v x (col_visit d col)))
                 (row_visits d row) acc) vs o)).
  { induction vs as [|v vs IH]; intros x o Hvs Hx; cbn [fold_left]; [assumption|].
    apply IH; [intros; apply Hvs; right; assumption|].
    assert (Hv : In v (p_vehicles d)) by (apply Hvs; left; reflexivity).
    assert (Hp : forall a, vi_mod a -> reps (pair_cost d p v a (col_visit d col)) (int_pair d w (np_symmetric p) v a (col_visit d col))).
    { intros a Ha. unfold pair_cost, int_pair. pose proof (col_vi_mod d col Hd).
      destruct (np_symmetric p); [apply min_reps|]; apply arc_exact; assumption. }
    unfold prox_step, row_visits. destruct (_ <? _)%nat; cbn [map fold_left app]; unfold min_list; cbn [fold_left app].
    - rewrite omin_comm. apply min_reps; [apply Hp, client_vi_mod; assumption|assumption].
    - destruct (step_vi_mod d (row - p_numClients d) Hd) as [S1 S2].
      rewrite omin_assoc, omin_comm. apply min_reps; [|assumption]. apply min_reps; apply Hp; assumption. }
  apply G; [intros v Hv; eapply unseen_in; eassumption|reflexivity].
Qed.

(** A possible direct trip between (the visits of) two activities and its cost. *)
Definition visits_of (d : pdata) (a : activity) : list visit :=
  match a with
  | AClient i => [visit_client (p_client d i)]
  | APickup i => [visit_step (s_pickup (p_shipment d i)); visit_step (s_delivery (p_shipment d i))]
  | _ => []
  end.
Definition visit_of (d : pdata) (a : activity) : visit :=
  match a with
  | APickup i => visit_step (s_pickup (p_shipment d i))
  | ADelivery i => visit_step (s_delivery (p_shipment d i))
  | AClient i | ADepot i => visit_client (p_client d i)
  end.
Definition direct (d : pdata) (w : Z) (v : vehicle) (x y : visit) (z : Z) : Prop :=
  let dur := p_dur d (v_profile v) (vi_loc x) (vi_loc y) in
  let dist := p_dist d (v_profile v) (vi_loc x) (vi_loc y) in
  let wait := Z.max 0 (vi_early y - (vi_late x + vi_service x + dur)) in
  (vi_early x + vi_service x + dur <= vi_late y /\
   z = v_unitDistance v * dist + v_unitDuration v * (dur + wait) + w * wait)%Z.
Definition linked (d : pdata) (w : Z) (sym : bool) (a b : activity) (z : Z) : Prop :=
  exists v x, In v (p_vehicles d) /\ In x (visits_of d a) /\
    (direct d w v x (visit_of d b) z \/ (sym = true /\ direct d w v (visit_of d b) x z)).

Lemma int_arc_spec d w v x y z : int_arc d w v x y = Some z <-> direct d w v x y z.
Proof.
  unfold int_arc, direct. set (dur := p_dur _ _ _ _).
  replace (vi_early y - (vi_late x + vi_service x + dur))%Z with (vi_early y - dur - vi_service x - vi_late x)%Z by lia.
  destruct (Z.leb_spec (vi_early x + vi_service x + dur) (vi_late y)).
  - split; [intros H'; injection H' as H'; split; [assumption|congruence]|intros [_ ->]; reflexivity].
  - split; [discriminate|intros [H' _]; lia].
Qed.

(** Minimum of a set of costs. *)
Definition is_min (o : option Z) (P : Z -> Prop) : Prop :=
  match o with Some z => P z /\ forall z', P z' -> (z <= z')%Z | None => forall z, ~ P z end.
Lemma omin_is_min a b P Q : is_min a P -> is_min b Q -> is_min (omin a b) (fun z => P z \/ Q z).
Proof.
  destruct a as [x|], b as [y|]; cbn; intros HP HQ.
  - destruct HP as [P1 P2], HQ as [Q1 Q2]. split.
    + destruct (Z.min_dec x y) as [E|E]; rewrite E; auto.
    + intros z [Hz|Hz]; [specialize (P2 z Hz)|specialize (Q2 z Hz)]; lia.
  - destruct HP as [P1 P2]. split; [auto|]. intros z [Hz|Hz]; [auto|destruct (HQ z Hz)].
  - destruct HQ as [Q1 Q2]. split; [auto|]. intros z [Hz|Hz]; [destruct (HP z Hz)|auto].
  - intros z [Hz|Hz]; [destruct (HP z Hz)|destruct (HQ z Hz)].
Qed.
Lemma is_min_ext o P Q : (forall z, P z <-> Q z) -> is_min o P -> is_min o Q.
Proof. intros E. destruct o; cbn; [intros [H1 H2]; split; [apply E, H1|intros z' H; apply H2, E, H]|intros H z Hz; apply (H z), E, Hz]. Qed.

Lemma key_eqb_eq a b : key_eqb a b = true <-> a = b.
Proof.
  destruct a as [[a1 a2] a3], b as [[b1 b2] b3]. cbn. rewrite !Bool.andb_true_iff, !Z.eqb_eq, Nat.eqb_eq.
  split; [intros [[-> ->] ->]; reflexivity|intros H; injection H; auto].
Qed.
Lemma unseen_covers vs : forall seen v, In v vs ->
  In (cost_key v) seen \/ exists v', In v' (unseen seen vs) /\ cost_key v' = cost_key v.
Proof.
  induction vs as [|x vs IH]; intros seen v []; cbn [unseen].
  - subst x. destruct (existsb _ _) eqn:E.
    + left. apply existsb_exists in E as (k & Hk & E). apply key_eqb_eq in E. congruence.
    + right. exists v. split; [left|]; reflexivity.
  - destruct (existsb _ _) eqn:E; [apply IH; assumption|].
    destruct (IH (cost_key x :: seen) v H) as [[H1|H1]|(v' & H1 & H2)].
    + right. exists x. split; [left; reflexivity|assumption].
    + left; assumption.
    + right. exists v'. split; [right|]; assumption.
Qed.
Lemma direct_key d w v v' x y z : cost_key v = cost_key v' -> direct d w v x y z -> direct d w v' x y z.
Proof. intros H. injection H as H1 H2 H3. unfold direct. rewrite H1, H2, H3. auto. Qed.

Lemma fold_is_min {A} (f : A -> option Z) (P : A -> Z -> Prop) (l : list A) :
  (forall x, In x l -> is_min (f x) (P x)) ->
  forall o Q, is_min o Q -> is_min (fold_left (fun acc x => omin acc (f x)) l o) (fun z => Q z \/ exists x, In x l /\ P x z).
Proof.
  induction l as [|x l IH]; intros Hl o Q Ho; cbn [fold_left].
  - eapply is_min_ext; [|exact Ho]. intros z. split; [auto|intros [H|(x & [] & _)]; assumption].
  - eapply is_min_ext; [|apply IH; [intros; apply Hl; right; assumption|]].
    2:{ apply omin_is_min; [exact Ho|apply Hl; left; reflexivity]. }
    intros z. cbv beta. split.
    + intros [[H|H]|(y & Hy & H)]; [auto|right; exists x; split; [left; reflexivity|assumption]|right; exists y; split; [right; assumption|assumption]].
    + intros [H|(y & [<-|Hy] & H)]; [auto|auto|right; exists y; auto].
Qed.
Lemma fold_omin_acc {A} (f : A -> option Z) l : forall o, fold_left (fun acc x => omin acc (f x)) l o
  = omin o (fold_left (fun acc x => omin acc (f x)) l None).
Proof.
  induction l as [|x l IH]; intros o; cbn [fold_left]; [destruct o; reflexivity|].
  rewrite IH, (IH (omin None (f x))), omin_assoc. reflexivity.
Qed.

Theorem int_prox_spec d w sym row col : (row < p_numClients d + p_numShipments d)%nat -> (col < num_cols d)%nat ->
  is_min (int_prox d w sym row col) (linked d w sym (row_activity d row) (col_activity d col)).
Proof.
  intros Hr Hc. unfold int_prox.
  assert (EV : row_visits d row = visits_of d (row_activity d row)).
  { unfold row_visits, row_activity. destruct (_ <? _)%nat; reflexivity. }
  assert (EC : col_visit d col = visit_of d (col_activity d col)).
  { unfold col_visit, col_activity. destruct (_ <? _)%nat; [reflexivity|]. destruct (_ <? _)%nat; reflexivity. }
  rewrite EV, EC. set (a := row_activity d row). set (b := visit_of d _).
  set (g := fun v => fold_left (fun acc x => omin acc (int_pair d w sym v x b)) (visits_of d a) None).
  set (P := fun v z => exists x, In x (visits_of d a) /\ (direct d w v x b z \/ (sym = true /\ direct d w v b x z))).
  assert (Hg : forall v, is_min (g v) (P v)).
  { intros v. unfold g, P.
    eapply is_min_ext; [|apply (fold_is_min (fun x => int_pair d w sym v x b)
       (fun x z => direct d w v x b z \/ (sym = true /\ direct d w v b x z)) (visits_of d a)) with (Q := fun _ => False)].
    - intros z. cbv beta. split; [intros [[]|H]; exact H|auto].
    - intros x _. unfold int_pair.
      assert (Hi : forall x y, is_min (int_arc d w v x y) (direct d w v x y)).
      { intros x' y'. destruct (int_arc d w v x' y') as [z|] eqn:E; cbn.
        - split; [apply int_arc_spec, E|]. intros z' Hz'. apply int_arc_spec in Hz'. rewrite E in Hz'. injection Hz' as ->. lia.
        - intros z Hz. apply int_arc_spec in Hz. congruence. }
      destruct sym.
      + eapply is_min_ext; [|apply omin_is_min; apply Hi]. intros z; cbv beta. tauto.
      + eapply is_min_ext; [|apply Hi]. intros z; cbv beta. split; [auto|intros [H|[H _]]; [assumption|discriminate]].
    - intros z []. }
  assert (E : forall vs o, fold_left (fun acc v => fold_left (fun acc x => omin acc (int_pair d w sym v x b)) (visits_of d a) acc) vs o
              = fold_left (fun acc v => omin acc (g v)) vs o).
  { induction vs as [|v vs IH]; intros o; cbn [fold_left]; [reflexivity|]. rewrite fold_omin_acc. apply IH. }
  rewrite E. clear E.
  eapply is_min_ext; [|apply (fold_is_min g P (unseen [] (p_vehicles d))) with (Q := fun _ => False)].
  - intros z. cbv beta. unfold linked, P. split.
    + intros [[]|(v & Hv & x & Hx & H)]. exists v, x. split; [eapply unseen_in; eassumption|auto].
    + intros (v & x & Hv & Hx & H). right.
      destruct (unseen_covers (p_vehicles d) [] v Hv) as [[]|(v' & Hv' & Ek)].
      exists v'. split; [assumption|]. exists x. split; [assumption|].
      destruct H as [H|[Hs H]]; [left|right; split; [assumption|]]; eapply direct_key; try eassumption; congruence.
  - intros v _. apply Hg.
  - intros z [].
Qed.

(** In the same group. *)
Definition same_group (d : pdata) (a b : activity) : Prop :=
  match a, b with
  | AClient i, AClient j => exists g, In g (p_groups d) /\ In i (g_clients g) /\ In j (g_clients g)
  | _, _ => False
  end.
Definition groups_known (d : pdata) : Prop :=
  Forall (fun g => Forall (fun i => (i < p_numClients d)%nat) (g_clients g)) (p_groups d).

Lemma mates_spec d row col : groups_known d ->
  mates d row col = true <-> same_group d (row_activity d row) (col_activity d col).
Proof.
  intros Hg. unfold mates. rewrite existsb_exists.
  assert (He : forall i l, existsb (Nat.eqb i) l = true <-> In i l).
  { intros i l. rewrite existsb_exists. split; [intros (x & Hx & E); apply Nat.eqb_eq in E; subst; assumption|].
    intros H. exists i. split; [assumption|apply Nat.eqb_refl]. }
  unfold row_activity, col_activity. split.
  - intros (g & Hin & H). apply Bool.andb_true_iff in H as [H1 H2]. apply He in H1, H2.
    pose proof (proj1 (Forall_forall _ _) Hg g Hin) as Hk.
    rewrite (proj2 (Nat.ltb_lt _ _) (proj1 (Forall_forall _ _) Hk _ H1)),
            (proj2 (Nat.ltb_lt _ _) (proj1 (Forall_forall _ _) Hk _ H2)).
    exists g. auto.
  - destruct (row <? _)%nat; [|intros []]. destruct (col <? _)%nat.
    + intros (g & Hin & H1 & H2). exists g. split; [assumption|]. apply Bool.andb_true_iff. rewrite !He. auto.
    + destruct (_ <? _)%nat; intros [].
Qed.

(** If [b] is not further than [c], each direct trip to [c] is matched by one to [b] that is not
    more expensive, groups aside. *)
Theorem distance_meaning d p w a b c : moderate d -> groups_known d -> isz (np_wait p) w -> (Z.abs w <= 2 ^ 20)%Z ->
  In a (activity_order d) -> visit_known d b -> visit_known d c -> c <> a -> (forall i, a = APickup i -> c <> ADelivery i) ->
  distance_to d p a b <= distance_to d p a c ->
  ~ same_group d a c -> forall z, linked d w (np_symmetric p) a c z ->
  ~ same_group d a b /\ exists z', (z' <= z)%Z /\ linked d w (np_symmetric p) a b z'.
Proof.
  intros Hd Hgk Hw Hwb Ha Hb Hc Hca Hcd Hle Hgc z Hz.
  assert (exists row, (row < p_numClients d + p_numShipments d)%nat /\ a = row_activity d row /\ act_col d a = row) as (row & Hr & Ea & Er).
  { unfold activity_order in Ha. apply in_app_or in Ha as [H|H]; apply in_map_iff in H as (i & <- & Hi); apply in_seq in Hi.
    - exists i. unfold row_activity. rewrite (proj2 (Nat.ltb_lt _ _)) by lia. split; [lia|]. split; reflexivity.
    - exists (p_numClients d + i)%nat. unfold row_activity. rewrite (proj2 (Nat.ltb_ge _ _)) by lia.
      split; [lia|]. split; [f_equal; lia|reflexivity]. }
  unfold distance_to in Hle. rewrite Er in Hle.
  destruct (col_activity_col d b Hb) as [B1 B2], (col_activity_col d c Hc) as [C1 C2].
  set (cb := act_col d b) in *. set (cc := act_col d c) in *.
  pose proof (prox_exact d p w row cb Hd Hw Hwb) as Rb. pose proof (prox_exact d p w row cc Hd Hw Hwb) as Rc.
  pose proof (int_prox_spec d w (np_symmetric p) row cb Hr B2) as Mb.
  pose proof (int_prox_spec d w (np_symmetric p) row cc Hr C2) as Mc.
  rewrite <- Ea, B1 in Mb. rewrite <- Ea, C1 in Mc.
  assert (Fc : prox_final d p row cc = proximity d p row cc).
  { unfold prox_final.
    destruct (_ && _) eqn:E1.
    { exfalso. apply Bool.andb_true_iff in E1 as [E1 E2]. apply Nat.leb_le in E1. apply Nat.eqb_eq in E2.
      unfold row_activity in Ea. rewrite (proj2 (Nat.ltb_ge _ _) E1) in Ea. apply (Hcd _ Ea).
      rewrite <- C1, E2. unfold col_activity. rewrite (proj2 (Nat.ltb_ge _ _)) by lia.
      rewrite (proj2 (Nat.ltb_ge _ _)) by lia. f_equal. lia. }
    destruct (cc =? row)%nat eqn:E2.
    { exfalso. apply Nat.eqb_eq in E2. apply Hca. rewrite <- C1, E2, Ea. unfold col_activity, row_activity.
      destruct (row <? p_numClients d)%nat; [reflexivity|]. rewrite (proj2 (Nat.ltb_lt _ _)) by lia. reflexivity. }
    destruct (mates d row cc) eqn:E3; [|reflexivity]. apply mates_spec in E3; [|assumption].
    rewrite <- Ea, C1 in E3. contradiction. }
  rewrite Fc in Hle.
  destruct (int_prox d w (np_symmetric p) row cc) as [zc|]; [|destruct (Mc z Hz)].
  destruct Rc as [[Fz Bz] Sz]. rewrite (rank_finite _ Fz), Bz in Hle. destruct Mc as [Mc1 Mc2].
  pose proof (max_big zc Sz) as Hbig. pose proof (b64_lt_max b64_max eq_refl) as Hinf.
  unfold prox_final in Hle.
  destruct (_ && _); [cbn [rank b64_inf] in Hle; lra|].
  destruct (cb =? row)%nat; [cbn [rank b64_inf] in Hle; lra|].
  destruct (mates d row cb) eqn:E3; [rewrite (rank_finite b64_max eq_refl) in Hle; lra|].
  split. { intros Hs. rewrite Ea, <- B1 in Hs. apply mates_spec in Hs; [congruence|assumption]. }
  destruct (int_prox d w (np_symmetric p) row cb) as [zb|].
  - destruct Rb as [[Fb Bb] Sb]. rewrite (rank_finite _ Fb), Bb in Hle. apply le_IZR in Hle.
    destruct Mb as [Mb1 Mb2]. exists zb. split; [|assumption]. specialize (Mc2 z Hz). lia.
  - cbn [reps] in Rb. rewrite Rb, (rank_finite b64_max eq_refl) in Hle. lra.
Qed.

Lemma moderate_int64 d : moderate d -> in_int64 d.
Proof.
  intros [M1 M2 M3 M4 M5]. constructor.
  - eapply Forall_impl; [|exact M1]. cbv beta. lia.
  - eapply Forall_impl; [|exact M2]. cbv beta. intros s H x Hx. specialize (H x Hx). lia.
  - eapply Forall_impl; [|exact M3]. cbv beta. lia.
  - intros. specialize (M4 profile a b). lia.
  - intros. specialize (M5 profile a b). lia.
Qed.
Lemma weight_int f w : isz f w -> (Z.abs w <= 2 ^ 20)%Z -> weight_ok f.
Proof.
  intros [F B] H. exact F.
Qed.

(** ** The statements used by the property file *)
Theorem neighbourhoods_wf d p : in_int64 d -> weight_ok (np_wait p) ->
  map fst (compute_neighbours d p) = activity_order d /\
  forall a l, In (a, l) (compute_neighbours d p) ->
    length l = Nat.min (np_num p) (Nat.pred (p_numClients d) + 2 * Nat.pred (p_numShipments d)) /\ NoDup l /\
    forall b, In b l -> visit_known d b /\ b <> a /\ (forall i, a = APickup i -> b <> ADelivery i).
Proof.
  intros Hd Hw. split; [apply compute_keys|]. intros a l H.
  apply compute_entry in H as (row & Hr & -> & ->).
  destruct (nearest_spec d p row Hd Hw Hr) as (N1 & N2 & N3 & _). split; [|split; assumption].
  rewrite N1. unfold num_neighbours. lia.
Qed.

Theorem neighbourhoods_order d p w a l : moderate d -> groups_known d ->
  isz (np_wait p) w -> (Z.abs w <= 2 ^ 20)%Z -> In (a, l) (compute_neighbours d p) ->
  forall b c, (exists l1 l2 l3, l = l1 ++ b :: l2 ++ c :: l3) \/ (In b l /\ ~ In c l /\ visit_known d c /\ c <> a /\ forall i, a = APickup i -> c <> ADelivery i) ->
  ~ same_group d a c -> forall z, linked d w (np_symmetric p) a c z ->
  ~ same_group d a b /\ exists z', (z' <= z)%Z /\ linked d w (np_symmetric p) a b z'.
Proof.
  intros Hd Hg Hw Hwb Hin b c Hbc.
  assert (Ha : In a (activity_order d)).
  { rewrite <- (compute_keys d p). change a with (fst (a, l)). apply in_map, Hin. }
  apply compute_entry in Hin as (row & Hr & Ea & El).
  destruct (nearest_spec d p row (moderate_int64 d Hd) (weight_int _ _ Hw Hwb) Hr) as (_ & _ & N3 & N4 & N5).
  rewrite <- El in N3, N4, N5. rewrite <- Ea in N3, N4, N5.
  destruct Hbc as [(l1 & l2 & l3 & E)|(Hb & Hnc & Hkc & Hca & Hcd)].
  - assert (Hb : In b l) by (rewrite E; apply in_or_app; right; left; reflexivity).
    assert (Hc : In c l) by (rewrite E; apply in_or_app; right; right; apply in_or_app; right; left; reflexivity).
    destruct (N3 b Hb) as (B1 & _), (N3 c Hc) as (C1 & C2 & C3).
    apply (distance_meaning d p w a b c); try assumption.
    rewrite E in N4. apply sorted_app in N4 as (_ & N4 & _). inversion N4 as [|? ? _ Hall].
    eapply Forall_forall in Hall; [exact Hall|]. apply in_or_app; right; left; reflexivity.
  - destruct (N3 b Hb) as (B1 & _). apply (distance_meaning d p w a b c); try assumption. apply N5; assumption.
Qed.

Theorem nparams_spec w num sym :
  (num <> 0%nat -> make_nparams w num sym = Ok (mk_nparams w num sym)) /\
  (num = 0%nat -> make_nparams w num sym = Err InvalidArgument).
Proof. unfold make_nparams. destruct (num =? 0)%nat eqn:E; [apply Nat.eqb_eq in E|apply Nat.eqb_neq in E]; split; congruence. Qed.
