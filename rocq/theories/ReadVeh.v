(** The vehicle types that read() makes from the vehicles of the file. *)
From Coq Require Import Ascii.
From Coq Require Import String List Permutation.
From Verif Require Import Base DurationSegment Data DataCtor MatrixFacts ModelPy ActivityText StatsCsv LoadSegment SearchRoute Route RouteSpec
  Cost Solution SolutionFacts Read ReadFacts ReadSpec ReadSol ReadData.
Import ListNotations.
Local Open Scope Z_scope.
Notation length := List.length.

Fixpoint key_idx (k : vkey) (l : list vkey) : nat :=
  match l with [] => 0%nat | x :: more => if vkey_eqb k x then 0%nat else S (key_idx k more) end.
Lemma key_idx_in k l dft : In k l -> (key_idx k l < length l)%nat /\ nth (key_idx k l) l dft = k.
Proof.
  induction l as [|x l IH]; intros H; [destruct H|]. cbn [key_idx]. destruct (vkey_eqb k x) eqn:E.
  - apply vkey_eqb_eq in E. subst. cbn. split; [lia|reflexivity].
  - destruct H as [->|H]; [rewrite (proj2 (vkey_eqb_eq k k) eq_refl) in E; discriminate|]. destruct (IH H). cbn. split; [lia|assumption].
Qed.
Lemma key_idx_eq k l dft t : NoDup l -> In k l -> (t < length l)%nat -> key_idx k l = t <-> nth t l dft = k.
Proof.
  intros Hn Hk Ht. destruct (key_idx_in k l dft Hk) as [H1 H2]. split; [intros <-; exact H2|].
  intros E. apply (proj1 (NoDup_nth l dft) Hn); [exact H1|exact Ht|congruence].
Qed.
Lemma map_inj {A B} (f : A -> B) (l l' : list A) : (forall x y, f x = f y -> x = y) -> map f l = map f l' -> l = l'.
Proof.
  intros Hf. revert l'. induction l as [|x l IH]; intros [|y l'] H; try discriminate; [reflexivity|].
  cbn in H. injection H as H1 H2. f_equal; [apply Hf, H1|apply IH, H2].
Qed.
Lemma sum_avail vs : forall n, fold_left (fun sum v => (sum + v_numAvailable v)%nat) vs n = (n + list_sum (map v_numAvailable vs))%nat.
Proof. induction vs as [|v vs IH]; intros n; cbn [fold_left map]; [cbn; lia|]. rewrite IH. cbn [list_sum fold_right]. unfold list_sum. lia. Qed.

Section Inst.
Variable Num : Type.
Variable zero : Num.
Variable rf : Num -> Z.
Variable inst : instance Num.
Notation read := (read Num zero rf inst).
Notation nv := (file_vehicles Num inst).
(** The clients allowed to vehicle [v], counted from zero. *)
Definition file_allowed (v : nat) : list Z := nth v (allowed_clients Num inst) [].

Record key_is (v : nat) (k : vkey) : Prop := mk_key_is {
  ki_capacity : vk_capacity k = match in_capacity inst with
                               | None => [MAXV] | Some (Uniform c) => map rf c | Some (Each rows) => map rf (nth v rows []) end;
  ki_allowed : vk_allowed k = file_allowed v;
  ki_reload : vk_reload k = match in_reload inst with None => [] | Some rows => map (fun i => i - 1) (nth v rows []) end;
  ki_depot : vk_depot k = match in_vdepot inst with None => nth 0 (depot_idcs Num inst) 0 | Some l => nth v l 0 - 1 end;
  ki_distance : vk_maxDistance k = match in_maxDistance inst with None => MAXV | Some s => rf (value_at s v zero) end;
  ki_shift : vk_shift k = match in_maxDuration inst with None => MAXV | Some s => rf (value_at s v zero) end;
  ki_reloads : vk_maxReloads k = match in_maxReloads inst with None => SIZE_MAX | Some s => value_at s v 0 end;
  ki_fixed : vk_fixed k = match in_fixed inst with None => rf zero | Some s => rf (value_at s v zero) end;
  ki_unit : vk_unit k = match in_unit inst with None => 1 | Some s => value_at s v 0 end }.

Lemma rounded_at s l v : rounded Num rf (broadcast s nv) = Ok l -> (v < nv)%nat -> nth v l 0 = rf (value_at s v zero).
Proof.
  unfold rounded. intros H Hv. apply bind_ok in H as (l0 & H & [= <-]). apply broadcast_ok in H as (_ & Hl & Hn).
  rewrite (nth_map rf l0 v zero) by lia. rewrite Hn by exact Hv. reflexivity.
Qed.
Lemma broadcast_at {A} (s : spec A) l v dft : broadcast s nv = Ok l -> (v < nv)%nat -> nth v l dft = value_at s v dft.
Proof. intros H Hv. apply broadcast_ok in H as (_ & _ & Hn). apply Hn, Hv. Qed.

Lemma data_keys keys : vehicles_data Num zero rf inst = Ok keys ->
  length keys = nv /\ length (allowed_clients Num inst) = nv /\ forall v, (v < nv)%nat -> key_is v (nth v keys dummy_key).
Proof.
  unfold vehicles_data. intros H. apply bind_ok in H as (depots & H1 & H). apply bind_ok in H as (dists & H2 & H). apply bind_ok in H as (shifts & H3 & H).
  apply bind_ok in H as (reloads & H4 & H). apply bind_ok in H as (fixed & H5 & H). apply bind_ok in H as (unit & H6 & H).
  cbv zeta in H. destruct (forallb _ _) eqn:E in H; [|discriminate]. injection H as <-. cbn [forallb] in E.
  rewrite !Bool.andb_true_iff, !Nat.eqb_eq, vehicles_num in E. destruct E as (E1 & E2 & E3 & E4 & E5 & E6 & E7 & E8 & E9 & _).
  rewrite vehicles_num. split; [rewrite map_length, seq_length; reflexivity|]. split; [congruence|].
  intros v Hv. rewrite (nth_map _ _ v 0%nat) by (rewrite seq_length; exact Hv). rewrite seq_nth by exact Hv. cbn [Nat.add].
  constructor; cbn [vk_capacity vk_allowed vk_reload vk_depot vk_maxDistance vk_shift vk_maxReloads vk_fixed vk_unit].
  - unfold capacities in *. destruct (in_capacity inst) as [[c|rows]|].
    + rewrite vehicles_num. apply nth_repeat_lt, Hv.
    + rewrite map_length in E1. apply (nth_map (map rf) rows v [] []). lia.
    + rewrite vehicles_num. apply nth_repeat_lt, Hv.
  - reflexivity.
  - unfold reload_depots in *. destruct (in_reload inst) as [rows|].
    + rewrite map_length in E3. apply (nth_map (map (fun i => i - 1)) rows v [] []). lia.
    + rewrite vehicles_num. apply nth_repeat_lt, Hv.
  - unfold vehicles_depots in *. destruct (in_vdepot inst) as [l|].
    + injection H1 as <-. rewrite map_length in E4. apply (nth_map (fun i => i - 1) l v 0 0). lia.
    + apply bind_ok in H1 as (x & Hx & [= <-]). apply (get_ok _ _ _ 0) in Hx as [_ ->]. rewrite vehicles_num. apply nth_repeat_lt, Hv.
  - unfold max_distances in *. rewrite vehicles_num in *. destruct (in_maxDistance inst) as [s|]; [apply rounded_at; assumption|]. injection H2 as <-. apply nth_repeat_lt, Hv.
  - unfold shift_durations in *. rewrite vehicles_num in *. destruct (in_maxDuration inst) as [s|]; [apply rounded_at; assumption|]. injection H3 as <-. apply nth_repeat_lt, Hv.
  - unfold max_reloads in *. rewrite vehicles_num in *. rewrite (broadcast_at _ _ _ _ H4 Hv). destruct (in_maxReloads inst); reflexivity.
  - unfold fixed_costs in *. rewrite vehicles_num in *. rewrite (rounded_at _ _ _ H5 Hv). destruct (in_fixed inst); reflexivity.
  - unfold unit_distance_costs in *. rewrite vehicles_num in *. rewrite (broadcast_at _ _ _ _ H6 Hv). destruct (in_unit inst); reflexivity.
Qed.

Lemma read_vehicle_is v k vs x : (0 < file_depots Num inst)%nat -> depot_idcs Num inst = map Z.of_nat (seq 0 (file_depots Num inst)) ->
  key_is v k -> read_vehicle Num rf inst (k, vs) = Ok x ->
  vehicle_is Num zero rf inst v x /\ v_numAvailable x = length vs /\ v_name x = to_string (join_names vs) /\
  nth_error (profiles Num inst) (v_profile x) = Some (file_allowed v) /\ 0 <= vk_depot k.
Proof.
  intros Hd Hi K H. unfold read_vehicle in H. apply bind_ok in H as (i & H1 & H). apply bind_ok in H as (w & H2 & H).
  apply bind_ok in H as (profile & H3 & H). apply bind_ok in H as (depot & H4 & H). apply bind_ok in H as (reload & H5 & H). apply bind_ok in H as (mr & H6 & H).
  apply make_vehicle_spec in H as [_ ->]. destruct K as [K1 K2 K3 K4 K5 K6 K7 K8 K9].
  apply to_size_ok in H4 as [Hpos ->]. apply mapM_to_size in H5 as [Hr ->]. apply (py_index_pos _ _ _ Hpos) in H1 as [_ ->].
  apply (get_window Num zero rf inst) in H2. apply profile_idx_ok in H3. rewrite K2 in H3.
  split; [|cbn; auto].
  constructor; cbn [v_capacity v_start v_end v_fixedCost v_early v_late v_startLate v_shift v_maxOvertime v_unitOvertime v_maxDistance v_unitDistance v_unitDuration
    v_initialLoad v_reload v_maxReloads or_else].
  - rewrite pad_id by (cbn; lia). exact K1.
  - rewrite Z2Nat.id by exact Hpos. rewrite K4. destruct (in_vdepot inst); [reflexivity|]. rewrite Hi. destruct (file_depots Num inst); [lia|reflexivity].
  - reflexivity.
  - exact K8.
  - rewrite <- surjective_pairing. exact H2.
  - reflexivity.
  - exact K6.
  - auto.
  - exact K5.
  - exact K9.
  - reflexivity.
  - intros dim. rewrite pad_nth. unfold dimv. destruct dim; reflexivity.
  - rewrite to_nat_map by exact Hr. exact K3.
  - exact K7.
Qed.

(** Everything about vehicles at once. *)
Lemma vehicles_full d : read = Ok d -> exists owner : nat -> nat,
  (forall v, (v < nv)%nat -> (owner v < p_numVehicleTypes d)%nat /\ vehicle_is Num zero rf inst v (p_vehicle d (owner v)) /\
     nth_error (profiles Num inst) (v_profile (p_vehicle d (owner v))) = Some (file_allowed v)) /\
  (forall t, (t < p_numVehicleTypes d)%nat -> let vs := filter (fun v => (owner v =? t)%nat) (seq 0 nv) in
     vs <> [] /\ v_numAvailable (p_vehicle d t) = length vs /\ vehicles_of (p_vehicle d t) = Ok (map Z.of_nat vs)) /\
  (forall v w, (v < nv)%nat -> (w < nv)%nat -> vehicle_is Num zero rf inst v (p_vehicle d (owner w)) -> file_allowed v = file_allowed w -> owner v = owner w) /\
  p_numVehicles d = nv /\ length (allowed_clients Num inst) = nv.
Proof.
  intros H. destruct (read_inv Num zero rf inst d H) as [P D]. destruct (depots_read Num inst _ (pt_depots _ _ _ _ d P)) as (Hd & Hi & _).
  pose proof (pt_vehicles _ _ _ _ d P) as Hv. unfold read_vehicles in Hv. apply bind_ok in Hv as (keys & Hk & Hv). destruct (data_keys keys Hk) as (Hlk & Hla & Hkeys).
  pose proof (group_all keys) as G. set (types := group_vehicles 0 keys []) in *. pose proof (flat_members_perm keys types G) as Perm. destruct G as [Gn Gm Ga].
  pose proof (mapM_length _ _ _ Hv) as Hlt.
  assert (Ht : forall t, (t < length types)%nat -> exists v, (v < nv)%nat /\ nth v keys dummy_key = nth t (map fst types) dummy_key /\
    snd (nth t types (dummy_key, [])) = members keys (nth t (map fst types) dummy_key) /\ snd (nth t types (dummy_key, [])) <> []).
  { intros t Ht. rewrite (nth_map fst types t (dummy_key, [])) by exact Ht. destruct (nth t types (dummy_key, [])) as [k vs] eqn:E. cbn [fst snd].
    assert (Hin : In (k, vs) types) by (rewrite <- E; apply nth_In, Ht). destruct (Gm k vs Hin) as [-> Hne].
    destruct (members keys k) as [|v l] eqn:Em; [congruence|]. assert (Hv' : In v (members keys k)) by (rewrite Em; left; reflexivity).
    apply filter_In in Hv' as [Hv1 Hv2]. apply in_seq in Hv1. apply vkey_eqb_eq in Hv2. exists v. repeat split; [lia|symmetry; exact Hv2|discriminate]. }
  assert (Hrv : forall t, (t < length types)%nat -> read_vehicle Num rf inst (nth t types (dummy_key, [])) = Ok (p_vehicle d t)).
  { intros t Ht'. exact (mapM_nth _ _ _ t (dummy_key, []) dummy_vehicle Hv Ht'). }
  assert (Hkin : forall v, (v < nv)%nat -> In (nth v keys dummy_key) (map fst types)) by (intros v Hv'; apply Ga, nth_In; lia).
  exists (fun v => key_idx (nth v keys dummy_key) (map fst types)).
  assert (Own : forall v, (v < nv)%nat -> let t := key_idx (nth v keys dummy_key) (map fst types) in (t < length types)%nat /\ nth t (map fst types) dummy_key = nth v keys dummy_key).
  { intros v Hv'. destruct (key_idx_in _ _ dummy_key (Hkin v Hv')) as [H1 H2]. rewrite map_length in H1. auto. }
  assert (Spec : forall v, (v < nv)%nat -> let t := key_idx (nth v keys dummy_key) (map fst types) in
    vehicle_is Num zero rf inst v (p_vehicle d t) /\ nth_error (profiles Num inst) (v_profile (p_vehicle d t)) = Some (file_allowed v) /\ 0 <= vk_depot (nth v keys dummy_key)).
  { intros v Hv' t. destruct (Own v Hv') as [Ht1 Ht2]. fold t in Ht1, Ht2. pose proof (Hrv t Ht1) as Hx. rewrite (nth_map fst types t (dummy_key, [])) in Ht2 by exact Ht1.
    destruct (nth t types (dummy_key, [])) as [k vs] eqn:E. cbn [fst] in Ht2. subst k.
    destruct (read_vehicle_is v _ vs _ Hd Hi (Hkeys v Hv') Hx) as (? & _ & _ & ? & ?). auto. }
  assert (Vs : forall t, (t < length types)%nat -> filter (fun v => (key_idx (nth v keys dummy_key) (map fst types) =? t)%nat) (seq 0 nv) = snd (nth t types (dummy_key, []))).
  { intros t Ht'. destruct (Ht t Ht') as (v0 & _ & _ & -> & _). unfold members. rewrite Hlk. apply filter_ext_in. intros v Hv'. apply in_seq in Hv'.
    apply Bool.eq_iff_eq_true. rewrite Nat.eqb_eq, vkey_eqb_eq. apply key_idx_eq; [exact Gn|apply Hkin; lia|rewrite map_length; exact Ht']. }
  split; [|split; [|split; [|split]]].
  - intros v Hv'. destruct (Own v Hv') as [H1 _]. destruct (Spec v Hv') as (H2 & H3 & _). unfold p_numVehicleTypes. rewrite Hlt. auto.
  - intros t Ht'. unfold p_numVehicleTypes in Ht'. rewrite Hlt in Ht'. cbv zeta. rewrite (Vs t Ht'). destruct (Ht t Ht') as (v & Hv' & Ek & _ & Hne).
    pose proof (Hrv t Ht') as Hx. rewrite (nth_map fst types t (dummy_key, [])) in Ek by exact Ht'. destruct (nth t types (dummy_key, [])) as [k vs] eqn:E. cbn [fst snd] in *. subst k.
    destruct (read_vehicle_is v _ vs _ Hd Hi (Hkeys v Hv') Hx) as (_ & H1 & H2 & _). split; [exact Hne|]. split; [exact H1|]. apply names_read; assumption.
  - intros v w Hv' Hw Hvi Ha. f_equal. destruct (Spec w Hw) as (Hwi & _ & Hpw). destruct (Spec v Hv') as (_ & _ & Hpv).
    destruct (Hkeys v Hv') as [K1 K2 K3 K4 K5 K6 K7 K8 K9]. destruct (Hkeys w Hw) as [L1 L2 L3 L4 L5 L6 L7 L8 L9].
    destruct Hvi as [V1 V2 _ V4 _ _ V7 _ V9 V10 _ _ V13 V14]. destruct Hwi as [W1 W2 _ W4 _ _ W7 _ W9 W10 _ _ W13 W14].
    assert (E4 : vk_depot (nth v keys dummy_key) = vk_depot (nth w keys dummy_key)).
    { rewrite K4, L4. destruct (in_vdepot inst); [lia|reflexivity]. }
    destruct (nth v keys dummy_key), (nth w keys dummy_key). cbn in *. f_equal; congruence.
  - unfold p_numVehicles. rewrite sum_avail. cbn [Nat.add]. rewrite <- Hlk at 1. rewrite <- (seq_length (length keys) 0), <- (Permutation_length Perm).
    clear - Hv. apply mapM_ok in Hv. induction Hv as [|[k vs] x l l' Hx H IH]; [reflexivity|]. cbn [map flat_map snd]. rewrite app_length. cbn [list_sum fold_right]. unfold list_sum in *. rewrite IH.
    unfold read_vehicle in Hx. repeat (apply bind_ok in Hx as (? & _ & Hx)). apply make_vehicle_spec in Hx as [_ ->]. reflexivity.
  - exact Hla.
Qed.

Lemma filter_partition (owner : nat -> nat) n : forall l, (forall v, In v l -> (owner v < n)%nat) ->
  Permutation (flat_map (fun t => filter (fun v => (owner v =? t)%nat) l) (seq 0 n)) l.
Proof.
  induction l as [|v l IH]; intros Hb.
  - cbn. induction (seq 0 n); [constructor|assumption].
  - assert (Hv : (owner v < n)%nat) by (apply Hb; left; reflexivity). specialize (IH (fun w Hw => Hb w (or_intror Hw))).
    etransitivity; [|constructor; exact IH]. clear IH.
    assert (E : n = (owner v + S (n - S (owner v)))%nat) by lia. rewrite E, seq_app, !flat_map_app. cbn [Nat.add seq flat_map filter]. rewrite Nat.eqb_refl.
    assert (G : forall a m, (forall t, In t (seq a m) -> t <> owner v) ->
      flat_map (fun t => filter (fun v => (owner v =? t)%nat) (v :: l)) (seq a m) = flat_map (fun t => filter (fun v => (owner v =? t)%nat) l) (seq a m)).
    { intros a m Ha. induction (seq a m) as [|t ts IHt]; [reflexivity|]. cbn [flat_map]. rewrite IHt by (intros t' Ht'; apply Ha; right; exact Ht').
      cbn [filter]. destruct (Nat.eqb_spec (owner v) t) as [E'|_]; [exfalso; apply (Ha t); [left; reflexivity|auto]|reflexivity]. }
    cbn [filter] in G. rewrite !G by (intros t Ht; apply in_seq in Ht; lia). cbn [app]. symmetry. apply Permutation_middle.
Qed.
Theorem read_fleet_named d : read = Ok d -> exists ms, fleet_named d ms.
Proof.
  intros H. destruct (vehicles_full d H) as (owner & H1 & H2 & _ & H4 & _).
  set (f := fun t => filter (fun v => (owner v =? t)%nat) (seq 0 nv)).
  exists (map f (seq 0 (p_numVehicleTypes d))).
  assert (N : forall t, (t < p_numVehicleTypes d)%nat -> nth t (map f (seq 0 (p_numVehicleTypes d))) [] = f t).
  { intros t Ht. rewrite (nth_map f _ t 0%nat) by (rewrite seq_length; exact Ht). rewrite seq_nth by exact Ht. reflexivity. }
  constructor.
  - rewrite map_length, seq_length. reflexivity.
  - intros t Ht. rewrite N by exact Ht. apply H2, Ht.
  - intros t Ht. rewrite N by exact Ht. symmetry. apply H2, Ht.
  - rewrite H4, <- flat_map_concat_map. apply filter_partition. intros v Hv. apply in_seq in Hv. apply H1. lia.
Qed.
End Inst.
