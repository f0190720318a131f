(** The distances that read() makes from the edge weights, the allowed clients and the backhauls. *)
From Coq Require Import Ascii.
From Coq Require Import String List Permutation.
From Verif Require Import Base DurationSegment Data DataCtor MatrixFacts ModelPy ActivityText StatsCsv LoadSegment SearchRoute Route RouteSpec
  Cost Solution SolutionFacts Read ReadFacts ReadSpec ReadSol ReadData ReadVeh.
Import ListNotations.
Local Open Scope Z_scope.
Notation length := List.length.

(** Vehicle [v] of the file is one of the vehicles of type [t]: the type's name lists it. *)
Definition belongs (d : pdata) (v t : nat) : Prop :=
  (t < p_numVehicleTypes d)%nat /\ exists vs, vehicles_of (p_vehicle d t) = Ok vs /\ In (Z.of_nat v) vs.

Lemma set_true_spec is : forall l l', Forall (fun i => 0 <= i) is -> set_true l is = Ok l' ->
  length l' = length l /\ forall i, is_true l' i = is_true l i || existsb (Z.eqb (Z.of_nat i)) is.
Proof.
  induction is as [|i is IH]; intros l l' Hp H; cbn [set_true] in H.
  - injection H as <-. split; [reflexivity|]. intros i. cbn. rewrite Bool.orb_false_r. reflexivity.
  - inversion Hp; subst. apply bind_ok in H as (k & Hk & H). pose proof (py_index_lt _ _ _ Hk) as Hlt. apply py_index_pos in Hk as [Hk ->]; [|assumption].
    destruct (IH _ _ H3 H) as [Hl Hn]. rewrite upd_length in Hl. split; [exact Hl|]. intros j. rewrite Hn. cbn [existsb]. unfold is_true.
    rewrite upd_nth by exact Hlt. destruct (Nat.eqb_spec (Z.to_nat i) j) as [E|E], (Z.eqb_spec (Z.of_nat j) i) as [E'|E']; lia.
Qed.
Lemma set_true_total is : forall l, Forall (fun i => 0 <= i < Z.of_nat (length l)) is -> exists l', set_true l is = Ok l'.
Proof.
  induction is as [|i is IH]; intros l H; cbn [set_true]; [eauto|]. inversion H; subst.
  rewrite (proj2 (py_index_pos (length l) i (Z.to_nat i) (proj1 H2)) (conj (proj2 H2) eq_refl)). cbn [bind]. apply IH. rewrite upd_length. assumption.
Qed.

Section Inst.
Variable Num : Type.
Variable zero : Num.
Variable rf : Num -> Z.
Variable inst : instance Num.
Notation read := (read Num zero rf inst).
Notation nv := (file_vehicles Num inst).
Notation may_visit := (may_visit Num inst).
Notation backward := (backward Num rf inst).
Notation dim := (in_dimension inst).
Notation depots := (file_depots Num inst).

Lemma belongs_unique d v : read = Ok d -> (v < nv)%nat -> exists t, belongs d v t /\ forall t', belongs d v t' -> t' = t.
Proof.
  intros H Hv. destruct (vehicles_full Num zero rf inst d H) as (owner & H1 & H2 & _). exists (owner v).
  assert (B : forall t, belongs d v t <-> owner v = t).
  { intros t. unfold belongs. split.
    - intros (Ht & vs & Ev & Hin). destruct (H2 t Ht) as (_ & _ & E). rewrite E in Ev. injection Ev as <-. apply in_map_iff in Hin as (w & Ew & Hw).
      apply Nat2Z.inj in Ew. subst w. apply filter_In in Hw as [_ Hw]. apply Nat.eqb_eq, Hw.
    - intros <-. destruct (H1 v Hv) as [Ht _]. split; [exact Ht|]. destruct (H2 _ Ht) as (_ & _ & E). rewrite E. eexists. split; [reflexivity|].
      apply in_map_iff. exists v. split; [reflexivity|]. apply filter_In. split; [apply in_seq; lia|apply Nat.eqb_refl]. }
  split; [apply B; reflexivity|]. intros t Ht. symmetry. apply B, Ht.
Qed.
Lemma belongs_spec d v t : read = Ok d -> belongs d v t ->
  (v < nv)%nat /\ vehicle_is Num zero rf inst v (p_vehicle d t) /\ nth_error (profiles Num inst) (v_profile (p_vehicle d t)) = Some (file_allowed Num inst v).
Proof.
  intros H (Ht & vs & Ev & Hin). destruct (vehicles_full Num zero rf inst d H) as (owner & H1 & H2 & _).
  destruct (H2 t Ht) as (_ & _ & E). rewrite E in Ev. injection Ev as <-. apply in_map_iff in Hin as (w & Ew & Hw).
  apply Nat2Z.inj in Ew. subst w. apply filter_In in Hw as [Hv Hw]. apply Nat.eqb_eq in Hw. apply in_seq in Hv. subst t.
  destruct (H1 v ltac:(lia)) as (_ & ? & ?). split; [lia|auto].
Qed.

(** ** Backhauls *)
Lemma mask_spec n rows e l : mask Num rf n rows e = Ok l -> forall i, is_true l i = (0 <? file_amount Num rf rows i 0).
Proof.
  unfold mask, file_amount. destruct rows as [rows|]; [|discriminate]. destruct (forallb _ _ && _); [|discriminate]. intros [= <-] i. unfold is_true, dimv.
  destruct (Nat.lt_ge_cases i (length rows)) as [Hi|Hi].
  - rewrite (nth_map _ rows i []) by exact Hi. destruct (nth i rows []); reflexivity.
  - rewrite nth_overflow by (rewrite map_length; exact Hi). rewrite (nth_overflow rows) by exact Hi. reflexivity.
Qed.
Lemma edge_at i j : m_at (edge_weight Num rf inst) i j = file_edge Num rf inst i j.
Proof. unfold edge_weight, file_edge, m_at. destruct (in_edge inst) as [[rows cols] l]. reflexivity. Qed.
Lemma vrpb_spec m : vrpb_distances Num rf inst = Ok m ->
  m_rows m = m_rows (edge_weight Num rf inst) /\ m_cols m = m_cols (edge_weight Num rf inst) /\
  forall i j, (i < m_rows m)%nat -> (j < m_cols m)%nat ->
    (backward i j -> m_at m i j = MAX_VALUE) /\ (~ backward i j -> m_at m i j = file_edge Num rf inst i j).
Proof.
  unfold vrpb_distances. destruct (String.eqb_spec (in_type inst) "VRPB") as [E|E].
  - intros H. apply bind_ok in H as (back & Hb & H). apply bind_ok in H as (line & Hl & [= <-]). cbn [m_rows m_cols m_tab].
    split; [reflexivity|]. split; [reflexivity|]. intros i j Hi Hj. rewrite m_tab_at by assumption.
    rewrite !(mask_spec _ _ _ _ Hb), (mask_spec _ _ _ _ Hl), edge_at. unfold ReadSpec.backward. change (demand_rows Num inst) with (file_linehaul Num inst).
    match goal with |- context [if ?b then _ else _] => destruct b eqn:Eb end.
    + split; [reflexivity|]. intros Hn. exfalso. apply Hn. split; [exact E|]. apply Bool.orb_true_iff in Eb.
      rewrite !Bool.andb_true_iff, Nat.eqb_eq, !Z.ltb_lt in Eb. exact Eb.
    + split; [|reflexivity]. intros [_ Hn]. exfalso. apply Bool.not_true_iff_false in Eb. apply Eb. apply Bool.orb_true_iff.
      rewrite !Bool.andb_true_iff, Nat.eqb_eq, !Z.ltb_lt. exact Hn.
  - intros [= <-]. split; [reflexivity|]. split; [reflexivity|]. intros i j _ _. split; [intros [Hb _]; contradiction|]. intros _. apply edge_at.
Qed.

(** ** Allowed clients *)
Lemma allowed_file v : (v < nv)%nat -> length (allowed_clients Num inst) = nv ->
  file_allowed Num inst v = match in_allowed inst with
    | None => map Z.of_nat (seq depots (dim - depots)) | Some rows => map (fun i => i - 1) (nth v rows []) end.
Proof.
  intros Hv Hl. unfold file_allowed, allowed_clients in *. destruct (in_allowed inst) as [rows|].
  - rewrite map_length in Hl. apply (nth_map (map (fun i => i - 1)) rows v [] []). lia.
  - rewrite vehicles_num, depots_num. apply nth_repeat_lt. exact Hv.
Qed.
Lemma allowed_in v loc : (v < nv)%nat -> length (allowed_clients Num inst) = nv -> (loc < dim)%nat ->
  may_visit v loc <-> (loc < depots)%nat \/ In (Z.of_nat loc) (file_allowed Num inst v).
Proof.
  intros Hv Hl Hd. rewrite (allowed_file v Hv Hl). unfold ReadSpec.may_visit. destruct (in_allowed inst) as [rows|].
  - rewrite in_map_iff. split; (intros [H|H]; [left; exact H|right]).
    + exists (Z.of_nat loc + 1). split; [lia|exact H].
    + destruct H as (x & E & H). replace (Z.of_nat loc + 1) with x by lia. exact H.
  - split; [|tauto]. intros _. destruct (Nat.lt_ge_cases loc depots) as [H|H]; [left; exact H|right]. apply in_map. apply in_seq. lia.
Qed.
Lemma all_allowed v : (v < nv)%nat -> length (allowed_clients Num inst) = nv -> allowed_proper Num inst ->
  Z.of_nat (length (file_allowed Num inst v)) = num_clients Num inst -> forall loc, (loc < dim)%nat -> may_visit v loc.
Proof.
  intros Hv Hl Hp Hn loc Hloc. rewrite (allowed_file v Hv Hl) in Hn. unfold allowed_proper, ReadSpec.may_visit in *.
  destruct (Nat.lt_ge_cases loc depots) as [H|H]; [left; exact H|right]. destruct (in_allowed inst) as [rows|] eqn:Ea; [|exact I].
  destruct Hp as [Hpd Hp]. assert (Hlr : length rows = nv) by (unfold allowed_clients in Hl; rewrite Ea, map_length in Hl; exact Hl).
  rewrite Forall_forall in Hp. destruct (Hp (nth v rows [])) as [Hnd Hr]; [apply nth_In; lia|].
  rewrite map_length in Hn. unfold num_clients, num_shipments, num_locations in Hn. rewrite Hpd, depots_num in Hn.
  set (all := map (fun i => Z.of_nat i + 1) (seq depots (dim - depots))).
  assert (Hi : incl all (nth v rows [])).
  { apply NoDup_length_incl; [exact Hnd|unfold all; rewrite map_length, seq_length; lia|].
    intros i Hi. rewrite Forall_forall in Hr. specialize (Hr i Hi). unfold all. apply in_map_iff. exists (Z.to_nat (i - 1)). split; [lia|apply in_seq; lia]. }
  apply Hi. unfold all. apply in_map_iff. exists loc. split; [reflexivity|apply in_seq; lia].
Qed.
Lemma may_visit_dec v loc : may_visit v loc \/ ~ may_visit v loc.
Proof.
  unfold ReadSpec.may_visit. destruct (Nat.lt_ge_cases loc depots) as [H|H]; [tauto|]. destruct (in_allowed inst) as [rows|]; [|tauto].
  destruct (in_dec Z.eq_dec (Z.of_nat loc + 1) (nth v rows [])); [tauto|]. right. intros [H'|H']; [lia|contradiction].
Qed.
Lemma backward_dec i j : backward i j \/ ~ backward i j.
Proof.
  unfold ReadSpec.backward. destruct (String.eqb_spec (in_type inst) "VRPB") as [E|E]; [|right; intros [H _]; contradiction].
  destruct (Nat.eq_dec i 0), (Z_lt_dec 0 (file_amount Num rf (in_backhaul inst) j 0)), (Z_lt_dec 0 (file_amount Num rf (in_backhaul inst) i 0)),
    (Z_lt_dec 0 (file_amount Num rf (file_linehaul Num inst) j 0)); tauto.
Qed.

Theorem matrices_read d v t : read = Ok d -> allowed_proper Num inst -> belongs d v t ->
  forall i j, (i < p_numLocations d)%nat -> (j < p_numLocations d)%nat -> (i < dim)%nat -> (j < dim)%nat ->
    let x := p_vehicle d t in
    p_dur d (v_profile x) i j = p_dist d (v_profile x) i j /\
    (i = j -> p_dist d (v_profile x) i j = 0) /\
    (i <> j -> may_visit v i -> may_visit v j -> ~ backward i j -> p_dist d (v_profile x) i j = file_edge Num rf inst i j) /\
    (i <> j -> ~ may_visit v i \/ ~ may_visit v j \/ backward i j -> p_dist d (v_profile x) i j = MAX_VALUE).
Proof.
  intros H Hap Hb i j Hi Hj Hid Hjd x. destruct (belongs_spec d v t H Hb) as (Hv & _ & Hprof). fold x in Hprof.
  destruct (read_inv Num zero rf inst d H) as [P D]. destruct (vehicles_full Num zero rf inst d H) as (_ & _ & _ & _ & _ & Hla).
  pose proof (pt_dists _ _ _ _ d P) as Hm. unfold read_matrices in Hm. apply bind_ok in Hm as (base & Hbase & Hm).
  assert (Hpl : (v_profile x < length (profiles Num inst))%nat) by (apply nth_error_Some; congruence).
  pose proof (mapM_nth _ _ _ (v_profile x) [] dummy_matrix Hm Hpl) as Hpm. rewrite (nth_error_nth _ _ [] Hprof) in Hpm.
  pose proof (mapM_length _ _ _ Hm) as Hml.
  set (m := nth (v_profile x) (p_dists d) dummy_matrix) in *.
  assert (Em : p_dist d (v_profile x) i j = m_at m i j) by reflexivity.
  destruct (vrpb_spec base Hbase) as (Hbr & Hbc & Hbv).
  destruct (do_matrices d D m) as (Hr & Hc & Hdiag); [apply in_or_app; left; apply nth_In; lia|].
  split; [unfold p_dur, p_dist; rewrite (pt_durs _ _ _ _ d P); reflexivity|]. rewrite Em. split; [intros <-; apply Hdiag, Hi|].
  unfold profile_matrix in Hpm. destruct (Z.eqb_spec (Z.of_nat (length (file_allowed Num inst v))) (num_clients Num inst)) as [El|El].
  - injection Hpm as Eb. rewrite <- Eb in *. destruct (Hbv i j ltac:(lia) ltac:(lia)) as [B1 B2]. split; [intros _ _ _; exact B2|].
    intros _ [Hn|[Hn|Hn]]; [exfalso; apply Hn, (all_allowed v Hv Hla Hap El); assumption|exfalso; apply Hn, (all_allowed v Hv Hla Hap El); assumption|apply B1, Hn].
  - cbv zeta in Hpm. apply bind_ok in Hpm as (allowed & Hset & Hpm).
    destruct ((m_rows base =? num_locations Num inst)%nat && (m_cols base =? num_locations Num inst)%nat) eqn:Es; [|discriminate]. injection Hpm as Eb.
    apply Bool.andb_true_iff in Es as [Es1 Es2]. apply Nat.eqb_eq in Es1, Es2. unfold num_locations in Es1, Es2.
    assert (Hpos : Forall (fun i => 0 <= i) (file_allowed Num inst v)).
    { rewrite (allowed_file v Hv Hla). unfold allowed_proper in Hap. destruct (in_allowed inst) as [rows|] eqn:Ea.
      - destruct Hap as [_ Hap]. assert (Hlr : length rows = nv) by (unfold allowed_clients in Hla; rewrite Ea, map_length in Hla; exact Hla).
        rewrite Forall_forall in Hap. destruct (Hap (nth v rows [])) as [_ Hrg]; [apply nth_In; lia|]. apply Forall_forall. intros y Hy. apply in_map_iff in Hy as (z & <- & Hz).
        rewrite Forall_forall in Hrg. specialize (Hrg z Hz). lia.
      - apply Forall_forall. intros y Hy. apply in_map_iff in Hy as (z & <- & _). lia. }
    destruct (set_true_spec _ _ _ Hpos Hset) as [_ Hset'].
    assert (A : forall loc, (loc < dim)%nat -> is_true allowed loc = true <-> may_visit v loc).
    { intros loc Hloc. rewrite (allowed_in v loc Hv Hla Hloc), Hset', Bool.orb_true_iff, existsb_exists. unfold is_true, num_locations. rewrite depots_num. split.
      - intros [Hn|(y & Hy & E)]; [left|right; apply Z.eqb_eq in E; rewrite E; exact Hy].
        destruct (Nat.lt_ge_cases loc depots) as [Hl|Hl]; [exact Hl|]. exfalso. rewrite app_nth2 in Hn by (rewrite repeat_length; lia).
        rewrite repeat_length, nth_repeat_lt in Hn by lia. discriminate.
      - intros [Hn|Hn]; [left|right; exists (Z.of_nat loc); split; [exact Hn|apply Z.eqb_refl]].
        rewrite app_nth1 by (rewrite repeat_length; lia). apply nth_repeat_lt. lia. }
    assert (Erc : m_rows m = m_rows base /\ m_cols m = m_cols base) by (rewrite <- Eb; split; reflexivity).
    rewrite <- Eb, m_tab_at by lia. destruct (Nat.eqb_spec i j) as [E|E]; [split; intros; contradiction|].
    destruct (Hbv i j ltac:(lia) ltac:(lia)) as [B1 B2].
    destruct (is_true allowed i && is_true allowed j) eqn:Ea.
    + apply Bool.andb_true_iff in Ea as [A1 A2]. apply A in A1; [|exact Hid]. apply A in A2; [|exact Hjd].
      split; [intros _ _ _; exact B2|]. intros _ [Hn|[Hn|Hn]]; [contradiction|contradiction|apply B1, Hn].
    + split; [|reflexivity]. intros _ A1 A2. exfalso. apply A in A1; [|exact Hid]. apply A in A2; [|exact Hjd]. rewrite A1, A2 in Ea. discriminate.
Qed.

(** The vehicles as a whole: those that agree on everything, and no others, share a type. *)
Theorem vehicles_read d : read = Ok d -> p_numVehicles d = nv /\
  (forall v, (v < nv)%nat -> exists t, belongs d v t /\ (forall t', belongs d v t' -> t' = t) /\ vehicle_is Num zero rf inst v (p_vehicle d t)) /\
  (forall t, (t < p_numVehicleTypes d)%nat -> exists vs, vs <> [] /\ NoDup vs /\ (forall v, In v vs <-> belongs d v t) /\ v_numAvailable (p_vehicle d t) = length vs) /\
  (forall v t, belongs d v t -> (v < nv)%nat) /\
  (forall v w t u, belongs d v t -> belongs d w u -> vehicle_is Num zero rf inst v (p_vehicle d u) ->
     match in_allowed inst with None => True | Some rows => nth v rows [] = nth w rows [] end -> t = u).
Proof.
  intros H. destruct (vehicles_full Num zero rf inst d H) as (owner & H1 & H2 & H3 & H4 & Hla). split; [exact H4|].
  assert (B : forall v t, belongs d v t <-> (v < nv)%nat /\ owner v = t).
  { intros v t. unfold belongs. split.
    - intros (Ht & vs & Ev & Hin). destruct (H2 t Ht) as (_ & _ & E). rewrite E in Ev. injection Ev as <-. apply in_map_iff in Hin as (w & Ew & Hw).
      apply Nat2Z.inj in Ew. subst w. apply filter_In in Hw as [Hs Hw]. apply in_seq in Hs. apply Nat.eqb_eq in Hw. split; [lia|exact Hw].
    - intros [Hv <-]. destruct (H1 v Hv) as [Ht _]. split; [exact Ht|]. destruct (H2 _ Ht) as (_ & _ & E). rewrite E. eexists. split; [reflexivity|].
      apply in_map_iff. exists v. split; [reflexivity|]. apply filter_In. split; [apply in_seq; lia|apply Nat.eqb_refl]. }
  split; [|split; [|split]].
  - intros v Hv. exists (owner v). split; [apply B; auto|]. split; [intros t' Ht'; apply B in Ht' as [_ <-]; reflexivity|apply (H1 v Hv)].
  - intros t Ht. destruct (H2 t Ht) as (N1 & N2 & _). eexists. split; [exact N1|]. split; [apply NoDup_filter, seq_NoDup|]. split; [|exact N2].
    intros v. rewrite B, filter_In, in_seq, Nat.eqb_eq. intuition lia.
  - intros v t Hb. apply B in Hb. apply Hb.
  - intros v w t u Hv Hw Hvi Ha. apply B in Hv as [Hv <-]. apply B in Hw as [Hw <-]. apply (H3 v w Hv Hw Hvi).
    rewrite !allowed_file by assumption. destruct (in_allowed inst); [rewrite Ha|]; reflexivity.
Qed.
End Inst.
