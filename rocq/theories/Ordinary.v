(** Conditions on the calls that build a Model under which solve() works: numbers of a moderate size, and for
    vehicles that may reload no maximum duration and no client released after a depot closes. *)
From Coq Require Import ZArith Lia List.
From Verif Require Import Base Data DataCtor MatrixFacts Valid ModelPy ModelSpec ModelHist Solution SolutionFacts SearchSpace Neighbourhood OpsBase
  LocalRun Fits Finite Solve.
Import ListNotations.
Local Open Scope Z_scope.

Definition modest_call (h : Z) (T : nat) (M S F U : Z) (o : op) : Prop :=
  match o with
  | AddClient _ _ _ service early _ release _ _ _ _ => service <= S /\ early <= h /\ release <= h
  | AddShipment _ _ pearly _ pservice dearly _ dservice _ _ _ _ => pservice <= S /\ dservice <= S /\ pearly <= h /\ dearly <= h
  | AddDepot _ _ early _ service _ => service <= S /\ early <= h
  | AddEdge _ _ dist dur _ => dist <= M /\ dur <= M
  | AddVehicle _ _ _ _ fixedCost early _ shift _ unitDistance unitDuration _ _ _ reload maxReloads maxOvertime unitOvertime _ =>
      early <= h /\ fixedCost <= F /\ unitDistance <= U /\ unitDuration <= U /\ unitOvertime <= U /\ 0 <= maxReloads <= SIZE_MAX /\
      (reload = [] \/ maxReloads + 1 <= Z.of_nat T /\ MAXV <= shift + maxOvertime)
  | _ => True
  end.
Definition no_reload (o : op) : Prop :=
  match o with AddVehicle _ _ _ _ _ _ _ _ _ _ _ _ _ _ reload _ _ _ _ => reload = [] | _ => True end.
Definition released_in_time (ops : list op) : Prop :=
  forall location delivery pickup service early late release prize required group name id dlocation dearly dlate dservice dname,
    In (AddClient location delivery pickup service early late release prize required group name) ops ->
    In (AddDepot id dlocation dearly dlate dservice dname) ops -> release <= dlate.
Definition num_added (o : op) : Z :=
  match o with AddVehicle numAvailable _ _ _ _ _ _ _ _ _ _ _ _ _ _ _ _ _ _ => Z.of_nat numAvailable | _ => 0 end.
Definition prize_added (o : op) : Z :=
  match o with
  | AddClient _ _ _ _ _ _ _ prize _ _ _ => prize
  | AddShipment _ _ _ _ _ _ _ _ _ prize _ _ => prize
  | _ => 0
  end.
Record modest_calls (ops : list op) (missing h : Z) (T : nat) (M S F U : Z) : Prop := mk_modest_calls {
  ml_each : Forall (modest_call h T M S F U) ops;
  ml_missing : 0 <= missing /\ Z.min missing MAX_VALUE <= M;
  ml_reload : Forall no_reload ops \/ released_in_time ops;
  ml_pos : (0 < T)%nat /\ 0 <= h /\ 0 <= S /\ 0 <= F /\ 0 <= U <= MAXV;
  ml_fit : 4 * (Z.of_nat (length (client_calls ops) + 2 * length (shipment_calls ops) + T + 2) * (4 * h + M + S)) <= MAXV;
  ml_costs : zsum (map num_added ops) *
    (F + 3 * (U * (Z.of_nat (length (client_calls ops) + 2 * length (shipment_calls ops) + T + 2) * (4 * h + M + S)))) +
    zsum (map prize_added ops) < MAXV }.

Lemma Forall2_right {A B} (R : A -> B -> Prop) l l' : Forall2 R l l' -> Forall (fun b => exists a, In a l /\ R a b) l'.
Proof.
  induction 1 as [|a b l l' H HF IH]; constructor; [exists a; split; [left; reflexivity|exact H]|].
  eapply Forall_impl; [|exact IH]. intros x (y & Hy & Hr). exists y. split; [right; exact Hy|exact Hr].
Qed.
Lemma Forall2_sum {A B} (R : A -> B -> Prop) (f : A -> Z) (g : B -> Z) l l' : Forall2 R l l' -> (forall a b, R a b -> f a = g b) -> zsum (map f l) = zsum (map g l').
Proof. induction 1 as [|a b l l' H HF IH]; intros E; cbn; [reflexivity|]. rewrite (E a b H), IH by exact E. reflexivity. Qed.
Lemma zsum_filter {A} (f : A -> Z) (p : A -> bool) l : (forall a, p a = false -> f a = 0) -> zsum (map f (filter p l)) = zsum (map f l).
Proof. intros H. induction l as [|a l IH]; [reflexivity|]. cbn [filter map zsum]. destruct (p a) eqn:E; cbn [map zsum]; [|rewrite (H a E)]; lia. Qed.
Lemma zsum_split {A} (f g h : A -> Z) l : (forall a, f a = g a + h a) -> zsum (map f l) = zsum (map g l) + zsum (map h l).
Proof. intros H. induction l as [|a l IH]; cbn; [reflexivity|]. rewrite H, IH. lia. Qed.
Lemma fold_count l z : fold_left (fun sum v => (sum + v_numAvailable v)%nat) l z = (z + fold_left (fun sum v => (sum + v_numAvailable v)%nat) l 0)%nat.
Proof. revert z. induction l as [|v l IH]; intros z; cbn; [lia|]. rewrite IH, (IH (v_numAvailable v)). lia. Qed.
Lemma count_sum l : Z.of_nat (fold_left (fun sum v => (sum + v_numAvailable v)%nat) l 0%nat) = zsum (map (fun v => Z.of_nat (v_numAvailable v)) l).
Proof. induction l as [|v l IH]; cbn; [reflexivity|]. rewrite fold_count. lia. Qed.

Section Model.
Variables (ops : list op) (m : pymodel) (missing : Z) (d : pdata).
Hypothesis Ha : after ops m.
Hypothesis Hd : model_data m missing = Ok d.

Lemma data_edges_known : edges_known m.
Proof.
  destruct (Forall_dec (fun e => In (e_frm e) (ids (mo_locations m)) /\ In (e_to e) (ids (mo_locations m)))
      ltac:(intros e; destruct (in_dec Nat.eq_dec (e_frm e) (ids (mo_locations m))); [|right; tauto];
          destruct (in_dec Nat.eq_dec (e_to e) (ids (mo_locations m))); [left|right]; tauto) (all_edges m)) as [Hk|Hk]; [exact Hk|].
  pose proof Hd as E. rewrite (model_data_unknown m missing Hk) in E. discriminate.
Qed.

(** What is built is what the constructors make. *)
Lemma model_made : Forall client_made (p_clients d) /\ Forall depot_made (p_depots d) /\ Forall shipment_made (p_shipments d) /\
  Forall vehicle_made (p_vehicles d) /\ Forall group_made (p_groups d) /\
  make_pdata (p_locations d) (p_clients d) (p_depots d) (p_vehicles d) (p_dists d) (p_durs d) (p_groups d) (p_shipments d) = Ok d.
Proof.
  pose proof (model_built_ok m (model_of_calls ops m Ha)) as OK.
  pose proof Hd as E0. unfold model_data in E0. apply bind_ok in E0 as (base & _ & E0). apply bind_ok in E0 as (dds & _ & E0).
  pose proof E0 as E1. unfold make_pdata in E1. apply ModelHist.checked_ok in E1. rewrite E1 in E0 |- *. cbn [p_clients p_depots p_shipments p_vehicles p_groups p_locations p_dists p_durs].
  destruct OK. tauto.
Qed.

(** Matrix entries are edge values, the missing value or zero. *)
Lemma entries (P : Z -> Prop) : P 0 -> P (Z.min missing MAX_VALUE) -> Forall (fun e => P (e_dist e) /\ P (e_dur e)) (all_edges m) ->
  forall k a b, P (p_dist d k a b) /\ P (p_dur d k a b).
Proof.
  intros P0 P1 PE k a b. pose proof (model_built_ok m (model_of_calls ops m Ha)) as OK.
  destruct (model_data_matrices m missing (mk_loc_ids m OK) data_edges_known) as (dists & durs & E1 & L1 & L2 & HM).
  pose proof Hd as E0. rewrite E1 in E0. unfold make_pdata in E0. apply ModelHist.checked_ok in E0. rewrite E0. unfold p_dist, p_dur. cbn [p_dists p_durs]. clear E0 E1.
  destruct (Nat.lt_ge_cases k (num_profiles m)) as [Hk|Hk].
  2: { rewrite !nth_overflow by lia. unfold m_at. rewrite !(nth_overflow (m_data dummy_matrix)) by (cbn; lia). split; exact P0. }
  destruct (HM k Hk) as (Q1 & Q2 & HE). clear HM. cbv zeta in *. set (n := length (mo_locations m)) in *.
  assert (G : forall mat (f : edge -> Z), square n mat -> (forall e, In e (all_edges m) -> P (f e)) ->
    (forall i j, (i < n)%nat -> (j < n)%nat -> m_at mat i j = last_or f (applicable_edges m k) (id_at m i) (id_at m j) (if (i =? j)%nat then 0 else Z.min missing MAX_VALUE)) ->
    P (m_at mat a b)).
  { intros mat f (Q & R1 & R2) Pf HV. unfold m_at. destruct (Nat.lt_ge_cases (m_cols mat * a + b) (length (m_data mat))) as [Hi|Hi]; [|rewrite nth_overflow by exact Hi; exact P0].
    set (i := (m_cols mat * a + b)%nat) in *. unfold m_ok in Q. rewrite Q, R1, R2 in Hi.
    assert (Hn : n <> 0%nat) by (intros Z; rewrite Z in Hi; lia).
    pose proof (Nat.div_mod i n Hn) as Ei. pose proof (Nat.mod_upper_bound i n Hn) as Hu.
    assert (Hv : (i / n < n)%nat) by (apply Nat.div_lt_upper_bound; assumption).
    specialize (HV _ _ Hv Hu). unfold m_at in HV. rewrite R2, <- Ei in HV. rewrite HV.
    apply last_or_all with (P := P); [destruct (i / n =? i mod n)%nat; assumption|].
    apply Forall_forall. intros e He _ _. apply Pf, (applicable_all m k e He). }
  rewrite Forall_forall in PE. split; [apply (G _ e_dist Q1)|apply (G _ e_dur Q2)]; try (intros e He; apply (PE e He)); intros i j Hi Hj; apply HE; assumption.
Qed.

Lemma edges_all (P : Z -> Prop) : (forall a b x y p, In (AddEdge a b x y p) ops -> P x /\ P y) -> Forall (fun e => P (e_dist e) /\ P (e_dur e)) (all_edges m).
Proof.
  intros H. pose proof (tracked ops m Ha) as T. unfold all_edges. rewrite (tk_edges _ _ T), (tk_profiles _ _ T). apply Forall_app. split.
  - apply Forall_forall. intros e He. apply in_flat_map in He as (o & Ho & He). destruct o; try contradiction He. destruct profile; [contradiction He|].
    destruct He as [<-|[]]. cbn. eapply H, Ho.
  - apply Forall_forall. intros e He. apply in_flat_map in He as (p & Hp & He). apply in_map_iff in Hp as (id & <- & _). cbn [snd] in He.
    assert (G : forall os, incl os ops -> In e (own_edges id os) -> P (e_dist e) /\ P (e_dur e)).
    { intros os Hos Hi. apply in_flat_map in Hi as (o & Ho & Hi). destruct o; try contradiction Hi. destruct profile as [q|]; [|contradiction Hi].
      destruct (q =? id)%nat; [|contradiction Hi]. destruct Hi as [<-|[]]. cbn. eapply H, Hos, Ho. }
    assert (K : forall os, incl os ops -> In e (profile_edges id os) -> P (e_dist e) /\ P (e_dur e)).
    { induction os as [|o os IH]; intros Hos Hi; [contradiction Hi|]. assert (Hos' : incl os ops) by (intros x Hx; apply Hos; right; exact Hx).
      destruct o; cbn [profile_edges] in Hi; auto. destruct (id0 =? id)%nat; auto. eapply G; eassumption. }
    apply (K ops); [apply incl_refl|exact He].
Qed.
End Model.

(** ** Data made by the constructors, of moderate size *)
Theorem ordinary_solvable d h T M S F U :
  Forall client_made (p_clients d) -> Forall depot_made (p_depots d) -> Forall shipment_made (p_shipments d) ->
  Forall vehicle_made (p_vehicles d) -> Forall group_made (p_groups d) ->
  make_pdata (p_locations d) (p_clients d) (p_depots d) (p_vehicles d) (p_dists d) (p_durs d) (p_groups d) (p_shipments d) = Ok d ->
  opens_by d h -> nonneg_dists d -> nonneg_durs d -> Forall (fun v => 0 <= v_maxReloads v <= SIZE_MAX) (p_vehicles d) ->
  modest d h T M S -> modest_costs d h T M S F U -> U <= MAXV -> solvable d h.
Proof.
  intros Hc Hx Hs Hv Hg Hm Ho Nd Nt Hr Hmo Hco HU.
  destruct (made_data_valid d Hc Hx Hs Hv Hg Hm) as (Va & Ok & Gn & Gk & _).
  pose proof (modest_time_size _ _ _ _ _ (proj1 Hmo)) as Hms. destruct Hms as [M1 M2 M3 M4 M5 M6].
  pose proof (ob_nonneg d h Ho) as Hh. pose proof (Nt 0%nat 0%nat 0%nat) as N0. pose proof (M2 0%nat 0%nat 0%nat) as M20.
  pose proof (M5 (length (p_depots d))) as M50. unfold p_depot in M50. rewrite nth_overflow in M50 by lia. cbn in M50.
  assert (HMS : M + S <= MAXV).
  { assert (1 <= Z.of_nat (p_numClients d + 2 * p_numShipments d + T + 2)) by lia. set (n := Z.of_nat (p_numClients d + 2 * p_numShipments d + T + 2)) in *.
    assert (1 * (4 * h + M + S) <= n * (4 * h + M + S)) by (apply Z.mul_le_mono_nonneg_r; lia). lia. }
  assert (E63 : 2 ^ 63 = MAXV + 1) by reflexivity.
  constructor; try assumption.
  - exact (modest_fits d h T M S Va Ho Nt Hmo).
  - constructor; rewrite ?E63.
    + apply Forall_forall. intros c Hi. pose proof (proj1 (Forall_forall _ _) (va_clients d Va) c Hi) as V. destruct (In_nth _ _ dummy_client Hi) as (i & _ & Ei).
      pose proof (M4 (AClient i)) as Hi4. cbn in Hi4. unfold p_client in Hi4. rewrite Ei in Hi4. destruct V. lia.
    + apply Forall_forall. intros s Hi x Hxs. pose proof (proj1 (Forall_forall _ _) (va_shipments d Va) s Hi) as [[] [] _ _]. destruct (In_nth _ _ dummy_shipment Hi) as (i & _ & Ei).
      pose proof (M4 (APickup i)) as Hi4. pose proof (M4 (ADelivery i)) as Hi5. cbn in Hi4, Hi5. unfold p_shipment in Hi4, Hi5. rewrite Ei in Hi4, Hi5. destruct Hxs as [-> | ->]; lia.
    + apply Forall_forall. intros v Hi. pose proof (proj1 (Forall_forall _ _) (va_vehicles d Va) v Hi) as []. destruct (mc_units _ _ _ _ _ _ _ Hco v Hi) as (U1 & U2 & _). lia.
    + intros k a b. specialize (M3 k a b). specialize (Nd k a b). lia.
    + intros k a b. specialize (M2 k a b). specialize (Nt k a b). lia.
  - apply Forall_forall. intros v Hi. pose proof (proj1 (Forall_forall _ _) (va_vehicles d Va) v Hi) as []. lia.
  - intros s (routes & HB & Es) _. exact (modest_objective d h Va Ho Nt T M S F U (modest_time_size _ _ _ _ _ (proj1 Hmo)) Hco routes s Gn Gk HB Es).
Qed.

(** ** Data built by a Model *)
Section Calls.
Variables (ops : list op) (m : pymodel) (missing : Z) (d : pdata).
Hypothesis Ha : after ops m.
Hypothesis Hd : model_data m missing = Ok d.
Variables (h : Z) (T : nat) (M S F U : Z).
Hypothesis Hc : modest_calls ops missing h T M S F U.

Lemma calls_each o : In o ops -> modest_call h T M S F U o.
Proof. apply Forall_forall, Hc. Qed.
Lemma calls_made {A} (R : op -> A -> Prop) (p : op -> bool) l : Forall2 R (filter p ops) l -> forall x, In x l -> exists o, In o ops /\ R o x.
Proof.
  intros H x Hx. apply Forall2_right in H. destruct (proj1 (Forall_forall _ _) H x Hx) as (o & Ho & Hr). apply filter_In in Ho. exists o. split; [apply Ho|exact Hr].
Qed.
Lemma calls_client c : In c (p_clients d) -> c_service c <= S /\ c_early c <= h /\ c_release c <= h /\
  exists location delivery pickup service early late release prize required group name,
    In (AddClient location delivery pickup service early late release prize required group name) ops /\ c_release c = release.
Proof.
  intros Hi. destruct (calls_made _ _ _ (ds_clients _ _ _ (calls_described ops m missing d Ha Hd)) c Hi) as (o & Ho & Hr).
  destruct o; try contradiction Hr. cbn in Hr. pose proof (calls_each _ Ho) as Hm. cbn in Hm. destruct Hr as (_ & _ & _ & -> & -> & _ & E & _). rewrite E.
  split; [lia|]. split; [lia|]. split; [lia|]. repeat eexists. exact Ho.
Qed.
Lemma calls_shipment s : In s (p_shipments d) -> st_service (s_pickup s) <= S /\ st_service (s_delivery s) <= S /\ st_early (s_pickup s) <= h /\ st_early (s_delivery s) <= h.
Proof.
  intros Hi. destruct (calls_made _ _ _ (ds_shipments _ _ _ (calls_described ops m missing d Ha Hd)) s Hi) as (o & Ho & Hr).
  destruct o; try contradiction Hr. cbn in Hr. pose proof (calls_each _ Ho) as Hm. cbn in Hm. lia.
Qed.
Lemma calls_depot x : In x (p_depots d) -> d_service x <= S /\ d_early x <= h /\
  exists id location early late service name, In (AddDepot id location early late service name) ops /\ d_late x = late.
Proof.
  intros Hi. destruct (calls_made _ _ _ (ds_depots _ _ _ (calls_described ops m missing d Ha Hd)) x Hi) as (o & Ho & Hr).
  destruct o; try contradiction Hr. cbn in Hr. pose proof (calls_each _ Ho) as Hm. cbn in Hm. destruct Hr as (_ & -> & E & -> & _). rewrite E.
  split; [lia|]. split; [lia|]. repeat eexists. exact Ho.
Qed.
Lemma calls_vehicle v : In v (p_vehicles d) -> v_early v <= h /\ v_fixedCost v <= F /\ v_unitDistance v <= U /\ v_unitDuration v <= U /\ v_unitOvertime v <= U /\
  0 <= v_maxReloads v <= SIZE_MAX /\ (v_reload v = [] \/ v_maxReloads v + 1 <= Z.of_nat T /\ MAXV <= v_shift v + v_maxOvertime v /\ ~ Forall no_reload ops).
Proof.
  intros Hi. destruct (calls_made _ _ _ (ds_vehicles _ _ _ (calls_described ops m missing d Ha Hd)) v Hi) as (o & Ho & Hr).
  destruct o; try contradiction Hr. cbn [vehicle_added] in Hr. pose proof (calls_each _ Ho) as Hm. cbn [modest_call] in Hm.
  destruct Hr as (_ & _ & _ & _ & -> & -> & _ & -> & _ & -> & -> & _ & _ & _ & Er & -> & -> & -> & _). destruct Hm as (H1 & H2 & H3 & H4 & H5 & H6 & H7).
  do 6 (split; [assumption|]). destruct reload as [|x reload]; [inversion Er; left; reflexivity|]. right. destruct H7 as [H7|[H7 H8]]; [discriminate|].
  split; [exact H7|]. split; [exact H8|]. intros HF. pose proof (proj1 (Forall_forall _ _) HF _ Ho) as X. cbn in X. discriminate.
Qed.
Lemma numbers : p_numClients d = length (client_calls ops) /\ p_numShipments d = length (shipment_calls ops) /\
  Z.of_nat (p_numVehicles d) = zsum (map num_added ops) /\ all_prizes d = zsum (map prize_added ops).
Proof.
  pose proof (calls_described ops m missing d Ha Hd) as D. unfold p_numClients, p_numShipments, p_numVehicles, all_prizes.
  split; [symmetry; apply (Forall2_len _ _ _ (ds_clients _ _ _ D))|]. split; [symmetry; apply (Forall2_len _ _ _ (ds_shipments _ _ _ D))|]. split.
  - rewrite count_sum, <- (Forall2_sum _ num_added _ _ _ (ds_vehicles _ _ _ D)).
    + apply zsum_filter. intros []; cbn; congruence.
    + intros o v Hr. destruct o; try contradiction Hr. cbn in Hr. cbn. destruct Hr as (-> & _). reflexivity.
  - rewrite <- (Forall2_sum _ prize_added _ _ _ (ds_clients _ _ _ D)), <- (Forall2_sum _ prize_added _ _ _ (ds_shipments _ _ _ D)).
    + set (pc := fun o => match o with AddClient _ _ _ _ _ _ _ prize _ _ _ => prize | _ => 0 end).
      set (ps := fun o => match o with AddShipment _ _ _ _ _ _ _ _ _ prize _ _ => prize | _ => 0 end).
      rewrite (zsum_split prize_added pc ps ops) by (intros []; cbn; lia). unfold client_calls, shipment_calls. f_equal.
      * rewrite <- (zsum_filter pc (fun o => match o with AddClient _ _ _ _ _ _ _ _ _ _ _ => true | _ => false end)) by (intros []; cbn; congruence).
        f_equal. apply map_ext_in. intros o Ho. apply filter_In in Ho as [_ Ho]. destruct o; try discriminate Ho. reflexivity.
      * rewrite <- (zsum_filter ps (fun o => match o with AddShipment _ _ _ _ _ _ _ _ _ _ _ _ => true | _ => false end)) by (intros []; cbn; congruence).
        f_equal. apply map_ext_in. intros o Ho. apply filter_In in Ho as [_ Ho]. destruct o; try discriminate Ho. reflexivity.
    + intros o s Hr. destruct o; try contradiction Hr. cbn in *. tauto || lia.
    + intros o s Hr. destruct o; try contradiction Hr. cbn in *. tauto || lia.
Qed.

Theorem modest_calls_solvable : solvable d h.
Proof.
  destruct (model_made ops m missing d Ha Hd) as (Mc & Mx & Ms & Mv & Mg & Mm).
  destruct (made_data_valid d Mc Mx Ms Mv Mg Mm) as (Va & _).
  destruct Hc as [C1 [C2 C2'] C3 (T0 & H0 & S0 & F0 & U0) C5 C6]. destruct numbers as (N1 & N2 & N3 & N4).
  assert (Nn : forall k a b, 0 <= p_dist d k a b /\ 0 <= p_dur d k a b).
  { apply (entries ops m missing d Ha Hd (fun z => 0 <= z)); [lia|unfold MAX_VALUE; lia|].
    pose proof (mk_edges m (model_built_ok m (model_of_calls ops m Ha))) as E. eapply Forall_impl; [|exact E]. unfold edge_ok. intros e. tauto. }
  assert (Mm0 : 0 <= M) by (unfold MAX_VALUE in *; lia).
  assert (Nm : forall k a b, p_dist d k a b <= M /\ p_dur d k a b <= M).
  { apply (entries ops m missing d Ha Hd (fun z => z <= M)); [lia|lia|]. apply (edges_all ops m Ha (fun z => z <= M)). intros a b x y p Hi. exact (calls_each _ Hi). }
  assert (Ob : opens_by d h).
  { constructor; [exact H0| | | |]; apply Forall_forall; intros x Hx.
    - destruct (calls_client x Hx) as (_ & A & B & _). lia.
    - destruct (calls_depot x Hx) as (_ & A & _). lia.
    - destruct (calls_shipment x Hx) as (_ & _ & A). lia.
    - destruct (calls_vehicle x Hx) as (A & _). lia. }
  assert (Tr : forall v, In v (p_vehicles d) -> v_maxTrips v <= Z.of_nat T).
  { intros v Hv. destruct (calls_vehicle v Hv) as (_ & _ & _ & _ & _ & R & [E|(A & _)]); unfold v_maxTrips; [rewrite E; lia|]. destruct (v_reload v); [lia|].
    assert ((v_maxReloads v + 1) mod (SIZE_MAX + 1) <= v_maxReloads v + 1) by (apply Z.mod_le; unfold SIZE_MAX; lia). lia. }
  assert (Re : forall v, In v (p_vehicles d) -> 1 < v_maxTrips v -> MAXV <= v_shift v + v_maxOvertime v /\ ~ Forall no_reload ops).
  { intros v Hv Ht. destruct (calls_vehicle v Hv) as (_ & _ & _ & _ & _ & R & [E|(_ & A)]); [|exact A]. unfold v_maxTrips in Ht. rewrite E in Ht. lia. }
  apply (ordinary_solvable d h T M S F U Mc Mx Ms Mv Mg Mm Ob); try (intros k a b; apply Nn).
  - apply Forall_forall. intros v Hv. apply (calls_vehicle v Hv).
  - split.
    + constructor; [exact Tr|intros; apply Nm|intros; apply Nm| | | |].
      * intros [i|i|i|i]; cbn; unfold p_depot, p_client, p_shipment.
        -- destruct (nth_in_or_default i (p_depots d) dummy_depot) as [Hi| ->]; [apply calls_depot, Hi|exact S0].
        -- destruct (nth_in_or_default i (p_clients d) dummy_client) as [Hi| ->]; [apply calls_client, Hi|exact S0].
        -- destruct (nth_in_or_default i (p_shipments d) dummy_shipment) as [Hi| ->]; [apply calls_shipment, Hi|exact S0].
        -- destruct (nth_in_or_default i (p_shipments d) dummy_shipment) as [Hi| ->]; [apply calls_shipment, Hi|exact S0].
      * intros i. unfold p_depot. destruct (nth_in_or_default i (p_depots d) dummy_depot) as [Hi| ->]; [apply calls_depot, Hi|exact S0].
      * intros v x i Hv Ht. destruct (Re v Hv Ht) as [_ Hn]. destruct C3 as [C3|C3]; [contradiction|]. unfold p_client, p_depot.
        destruct (nth_in_or_default i (p_clients d) dummy_client) as [Hi| ->].
        2: { pose proof (valid_p_depot d x Va) as V. destruct V. unfold p_depot in *. cbn. lia. }
        destruct (nth_in_or_default x (p_depots d) dummy_depot) as [Hx| ->].
        2: { pose proof (valid_p_client d i Va) as V. destruct V. unfold p_client in *. cbn [dummy_depot d_late]. lia. }
        destruct (calls_client _ Hi) as (_ & _ & _ & a1 & a2 & a3 & a4 & a5 & a6 & a7 & a8 & a9 & a10 & a11 & Hi1 & ->).
        destruct (calls_depot _ Hx) as (_ & _ & b1 & b2 & b3 & b4 & b5 & b6 & Hx1 & ->). exact (C3 _ _ _ _ _ _ _ _ _ _ _ _ _ _ _ _ _ Hi1 Hx1).
      * rewrite N1, N2. exact C5.
    + intros v Hv Ht. destruct (Re v Hv Ht) as [Hs _]. pose proof (proj1 (Forall_forall _ _) (va_vehicles d Va) v Hv) as V. destruct V.
      rewrite vv_maxDuration_def. destruct (Z.ltb_spec (v_maxOvertime v) (MAXV - v_shift v)); [lia|reflexivity].
  - constructor.
    + intros v Hv. apply (calls_vehicle v Hv).
    + intros v Hv. destruct (calls_vehicle v Hv) as (_ & _ & A1 & A2 & A3 & _). lia.
    + lia.
    + rewrite N1, N2, N3, N4. exact C6.
  - lia.
Qed.
End Calls.

(** Model.py:588-637 *)
Definition model_solve (m : pymodel) (missing : Z) (X : Type) (stop : X -> Z -> bool * X) (p : solve_params) (collect_stats : bool) (n k : nat) (seed : Z)
    (initial : option solution) (x : X) : option (res outcome) :=
  match model_data m missing with
  | Err e => Some (Err e)
  | Ok d => solve d X stop p collect_stats n k seed initial x
  end.
