(** Instance files with moderate numbers give data that solve() accepts. *)
From Coq Require Import String List Lia ZArith.
From Verif Require Import Base DurationSegment Data DataCtor ModelPy Valid Route Cost Solution SolutionFacts Fits Finite OpsBase Solve Ordinary
  Read ReadFacts ReadSpec ReadData ReadVeh ReadMat ReadRoute.
Import ListNotations.
Local Open Scope Z_scope.
Notation length := List.length.

Section Inst.
Variable Num : Type.
Variable zero : Num.
Variable rf : Num -> Z.
Variable inst : instance Num.
Notation read := (read Num zero rf inst).
Notation nv := (file_vehicles Num inst).

(** The places of a route other than depots, at most. *)
Definition file_places : nat := (file_clients Num inst + 2 * match in_pd inst with Some rows => length rows | None => 0 end)%nat.
(** Bounds on the numbers of a file: times by which windows open and releases end, trips of a vehicle, edge weights, service
    times, fixed and unit costs, prizes. *)
Record modest_file (h : Z) (T : nat) (M S F U P : Z) : Prop := mk_modest_file {
  mf_positive : 0 <= h /\ (1 <= T)%nat /\ 0 <= S /\ 0 <= F /\ 0 <= U <= MAXV /\ 0 <= P;
  mf_edges : forall i j, 0 <= file_edge Num rf inst i j <= M;
  mf_restricted : in_type inst = "VRPB"%string \/ in_allowed inst <> None -> MAX_VALUE <= M;
  mf_windows : forall loc, fst (file_window Num zero rf inst loc) <= h /\ snd (file_window Num zero rf inst loc) <= MAXV;
  mf_release : forall loc, match in_release inst with None => rf zero | Some s => rf (value_at s loc zero) end <= h;
  mf_service : forall loc, match in_service inst with None => rf zero | Some (Uniform x) => rf x | Some (Each l) => rf (nth loc l zero) end <= S /\
    match in_pd inst with None => True | Some rows => rf (pd_service (nth loc rows (dummy_row Num zero))) <= S end;
  mf_prizes : forall loc, file_prize Num zero rf inst loc <= P;
  mf_fixed : forall v, (v < nv)%nat -> match in_fixed inst with None => rf zero | Some s => rf (value_at s v zero) end <= F;
  mf_unit : forall v, (v < nv)%nat -> match in_unit inst with None => 1 | Some s => value_at s v 0 end <= U;
  mf_reloads : forall v, (v < nv)%nat -> match in_maxReloads inst with None => True | Some s => value_at s v 0 <= SIZE_MAX end;
  (** With reload depots, the number of reloads is limited, and durations are not. *)
  mf_trips : in_reload inst <> None -> in_maxDuration inst = None /\
    forall v, (v < nv)%nat -> match in_maxReloads inst with None => False | Some s => value_at s v 0 + 1 <= Z.of_nat T end;
  mf_times : 4 * (Z.of_nat (file_places + T + 2) * (4 * h + M + S)) <= MAXV;
  mf_costs : Z.of_nat nv * (F + 3 * (U * (Z.of_nat (file_places + T + 2) * (4 * h + M + S)))) + Z.of_nat (file_clients Num inst) * P < MAXV }.

Variable d : pdata.
Hypothesis Hread : read = Ok d.

Lemma read_made : (forall loc, snd (file_window Num zero rf inst loc) <= MAXV) ->
  Forall client_made (p_clients d) /\ Forall depot_made (p_depots d) /\ Forall shipment_made (p_shipments d) /\ Forall vehicle_made (p_vehicles d) /\
  Forall group_made (p_groups d) /\
  make_pdata (p_locations d) (p_clients d) (p_depots d) (p_vehicles d) (p_dists d) (p_durs d) (p_groups d) (p_shipments d) = Ok d.
Proof.
  intros Hw. destruct (read_inv Num zero rf inst d Hread) as [[P1 P2 P3 P4 P5 P6 P7 P8] Dok]. split; [|split; [|split; [|split; [|split]]]].
  - destruct (clients_read Num zero rf inst d Hread) as [Nc Hc]. apply Forall_forall. intros c Hi. destruct (In_nth _ _ dummy_client Hi) as (i & Hl & Ei). split.
    { pose proof (ci_window _ _ _ _ _ _ (Hc i Hl)) as E. unfold p_client in E. rewrite Ei in E. pose proof (Hw (file_depots Num inst + i)%nat) as Hs. rewrite <- E in Hs. exact Hs. }
    unfold read_clients in P1. apply bind_ok in P1 as (gs & _ & P1). apply bind_ok in P1 as (rel & _ & P1). apply mapM_ok in P1.
    revert Hi. clear - P1. induction P1 as [|x y l l' Hx H IH]; [intros []|]. intros [<-|Hi]; [|exact (IH Hi)].
    unfold read_client in Hx. repeat (apply bind_ok in Hx as (? & _ & Hx)). repeat eexists. exact Hx.
  - destruct (depots_read Num inst _ P2) as (_ & _ & Hl & Hn). apply Forall_forall. intros x Hi. destruct (In_nth _ _ dummy_depot Hi) as (i & Hj & Ei).
    rewrite Hn in Ei by lia. subst x. split; [cbn; lia|]. exists i, 0, MAXV, 0, EmptyString. apply make_depot_spec. split; [|reflexivity]. unfold MAXV. lia.
  - destruct (in_pd inst) as [rows|] eqn:E.
    2: { unfold read_shipments in P7. rewrite E in P7. injection P7 as <-. constructor. }
    destruct (shipments_read Num zero rf inst d rows Hread E) as [Ns Hs]. apply Forall_forall. intros s Hi. destruct (In_nth _ _ dummy_shipment Hi) as (i & Hl & Ei).
    specialize (Hs i Hl). cbv zeta in Hs. destruct Hs as [S1 S2 S3 S4 S5 S6]. unfold p_shipment in S1, S3. rewrite Ei in S1, S3. unfold shipment_made. rewrite S1, S3. cbn [st_late].
    assert (W : forall q, rf (pd_late (nth q rows (dummy_row Num zero))) <= MAXV).
    { intros q. pose proof (Hw q) as W. unfold file_window in W. rewrite E in W. exact W. }
    split; [apply W|]. split; [apply W|].
    unfold read_shipments in P7. rewrite E in P7. apply bind_ok in P7 as (ls & P7 & Ec). apply mapM_ok in P7. injection Ec as Ec. rewrite <- Ec in Hi.
    revert Hi. clear - P7. induction P7 as [|x y l l' Hx H IH]; [intros []|]. cbn [concat]. intros Hi. apply in_app_or in Hi as [Hi|Hi]; [|exact (IH Hi)].
    unfold read_shipment in Hx. destruct ((pd_pick (snd x) =? 0) && (0 <? pd_deliv (snd x)))%bool; [|injection Hx as <-; destruct Hi].
    repeat (apply bind_ok in Hx as (? & ? & Hx)). injection Hx as <-. destruct Hi as [<-|[]]. repeat eexists. eassumption.
  - apply Forall_forall. intros v Hi. destruct (In_nth _ _ dummy_vehicle Hi) as (t & Hl & Et).
    destruct (vehicles_full Num zero rf inst d Hread) as (owner & O1 & O2 & _). destruct (O2 t Hl) as (Hne & _). cbv zeta in Hne.
    destruct (filter (fun w => (owner w =? t)%nat) (seq 0 nv)) as [|w ws] eqn:Ew; [contradiction Hne; reflexivity|].
    assert (Hw1 : In w (filter (fun w => (owner w =? t)%nat) (seq 0 nv))) by (rewrite Ew; left; reflexivity).
    apply filter_In in Hw1 as [Hw1 Hw2]. apply Nat.eqb_eq in Hw2. apply in_seq in Hw1. destruct (O1 w ltac:(lia)) as (_ & V & _). rewrite Hw2 in V. unfold p_vehicle in V. rewrite Et in V.
    split. { pose proof (vi_window _ _ _ _ _ _ V) as E. pose proof (Hw (v_start v)) as Hs. rewrite <- E in Hs. exact Hs. }
    unfold read_vehicles in P3. apply bind_ok in P3 as (keys & _ & P3). apply mapM_ok in P3. revert Hi. clear - P3.
    induction P3 as [|[k vs] y l l' Hx H IH]; [intros []|]. intros [<-|Hi]; [|exact (IH Hi)].
    unfold read_vehicle in Hx. repeat (apply bind_ok in Hx as (? & _ & Hx)). repeat eexists. exact Hx.
  - unfold read_groups in P6. apply mapM_ok in P6. clear - P6. induction P6 as [|x y l l' Hx H IH]; constructor; [|exact IH].
    apply bind_ok in Hx as (? & _ & Hx). repeat eexists. exact Hx.
  - pose proof Hread as H. unfold Read.read in H. apply bind_ok in H as (clients & H1 & H). apply bind_ok in H as (depots & H2 & H). apply bind_ok in H as (vehicles & H3 & H).
    apply bind_ok in H as (dists & H4 & H). apply bind_ok in H as (groups & H5 & H). apply bind_ok in H as (shipments & H6 & H).
    rewrite P1 in H1. rewrite P2 in H2. rewrite P3 in H3. rewrite P4 in H4. rewrite P6 in H5. rewrite P7 in H6.
    injection H1 as <-. injection H2 as <-. injection H3 as <-. injection H4 as <-. injection H5 as <-. injection H6 as <-.
    rewrite P5, P8. exact H.
Qed.

(** Entries of the matrices, for any property of numbers. *)
Lemma read_entries (P : Z -> Prop) : P 0 -> (forall i j, P (file_edge Num rf inst i j)) -> (in_type inst = "VRPB"%string \/ in_allowed inst <> None -> P MAX_VALUE) ->
  forall k a b, P (p_dist d k a b) /\ P (p_dur d k a b).
Proof.
  intros P0 Pe Pm. destruct (read_inv Num zero rf inst d Hread) as [[_ _ _ P4 P5 _ _ _] _].
  assert (Tab : forall rows cols f, (forall i j, (i < rows)%nat -> (j < cols)%nat -> P (f i j)) -> Forall P (m_data (m_tab rows cols f))).
  { intros rows cols f Hf. apply Forall_forall. intros z Hz. unfold m_tab in Hz. cbn [m_data] in Hz. apply in_flat_map in Hz as (i & Hi & Hz). apply in_map_iff in Hz as (j & <- & Hj). apply in_seq in Hi, Hj. apply Hf; lia. }
  unfold read_matrices in P4. apply bind_ok in P4 as (m & Hm & P4). apply mapM_ok in P4.
  assert (Fm : Forall P (m_data m)).
  { unfold vrpb_distances in Hm. destruct (String.eqb_spec (in_type inst) "VRPB") as [Et|Et].
    - apply bind_ok in Hm as (back & _ & Hm). apply bind_ok in Hm as (line & _ & Hm). injection Hm as <-. apply Tab. intros i j _ _.
      destruct (_ || _)%bool; [apply Pm; left; exact Et|]. rewrite edge_at. apply Pe.
    - injection Hm as <-. unfold edge_weight. pose proof Pe as Pe'. unfold file_edge in Pe'. destruct (in_edge inst) as [[rows cols] l]. cbn [m_data].
      apply Forall_forall. intros z Hz. destruct (In_nth _ _ 0 Hz) as (i & _ & <-). specialize (Pe' 0%nat i). rewrite Nat.mul_0_r, Nat.add_0_l in Pe'. exact Pe'. }
  assert (Fd : Forall (fun m => Forall P (m_data m)) (p_dists d)).
  { clear P5. destruct (in_allowed inst) as [al|] eqn:Ea.
    - induction P4 as [|r m' l l' Hr H IH]; [constructor|constructor; [|exact IH]]. unfold profile_matrix in Hr. destruct (_ =? _); [injection Hr as <-; exact Fm|].
      apply bind_ok in Hr as (al' & _ & Hr). destruct (_ && _)%bool; [|discriminate]. injection Hr as <-. apply Tab. intros i j _ _.
      destruct (i =? j)%nat; [exact P0|]. destruct (_ && _)%bool; [|apply Pm; right; discriminate]. unfold m_at. apply Forall_nth_default; [exact Fm|exact P0].
    - assert (Hall : Forall (fun r => r = map Z.of_nat (seq (num_depots Num inst) (num_locations Num inst - num_depots Num inst))) (profiles Num inst)).
      { apply Forall_forall. intros r Hr. unfold profiles in Hr. apply (proj2 (profiles_of_spec (allowed_clients Num inst) [] (NoDup_nil _))) in Hr as [[]|Hr].
        unfold allowed_clients in Hr. rewrite Ea in Hr. apply repeat_spec in Hr. exact Hr. }
      induction P4 as [|r m' l l' Hr H IH]; [constructor|constructor; [|exact (IH (Forall_inv_tail Hall))]]. apply Forall_inv in Hall. unfold profile_matrix in Hr.
      destruct (_ =? _); [injection Hr as <-; exact Fm|]. apply bind_ok in Hr as (al & Hal & Hr). destruct (_ && _)%bool eqn:Er; [|discriminate]. injection Hr as <-.
      apply Bool.andb_true_iff in Er as [Er Ec]. apply Nat.eqb_eq in Er, Ec.
      assert (Hin : forall i, (i < num_locations Num inst)%nat -> is_true al i = true).
      { apply set_true_spec in Hal as [_ Hal]; [|subst r; apply Forall_forall; intros z Hz; apply in_map_iff in Hz as (n & <- & _); lia].
        intros i Hi. rewrite Hal. destruct (Nat.lt_ge_cases i (num_depots Num inst)) as [Hd|Hd].
        - unfold is_true. rewrite app_nth1 by (rewrite repeat_length; lia). rewrite nth_repeat_lt by lia. reflexivity.
        - apply Bool.orb_true_iff. right. apply existsb_exists. exists (Z.of_nat i). split; [|apply Z.eqb_refl]. subst r. apply in_map, in_seq. lia. }
      apply Tab. intros i j Hi Hj. destruct (i =? j)%nat; [exact P0|]. rewrite !Hin by lia. unfold m_at. apply Forall_nth_default; [exact Fm|exact P0]. }
  assert (G : forall k a b, P (m_at (nth k (p_dists d) (dummy_matrix)) a b)).
  { intros k a b. unfold m_at. apply Forall_nth_default; [|exact P0]. destruct (nth_in_or_default k (p_dists d) (dummy_matrix)) as [Hi| ->]; [|constructor].
    exact (proj1 (Forall_forall _ _) Fd _ Hi). }
  intros k a b. unfold p_dist, p_dur. rewrite P5. split; apply G.
Qed.

Theorem modest_file_solvable h T M S F U P : modest_file h T M S F U P -> solvable d h.
Proof.
  intros [(H0 & T0 & S0 & F0 & (U0 & U1) & Pr0) Me Mr Mw Mrel Ms Mp Mf Mu Mre Mt Mti Mc].
  destruct (read_made (fun loc => proj2 (Mw loc))) as (Dc & Dx & Ds & Dv & Dg & Dm). destruct (made_data_valid d Dc Dx Ds Dv Dg Dm) as (Va & _).
  destruct (read_inv Num zero rf inst d Hread) as [Pt _]. destruct (depots_read Num inst _ (pt_depots _ _ _ _ d Pt)) as (_ & _ & Dl & Dn).
  destruct (clients_read Num zero rf inst d Hread) as [Nc Hc]. destruct (vehicles_full Num zero rf inst d Hread) as (owner & O1 & O2 & _ & Nv & _).
  assert (Hcl : forall c, In c (p_clients d) -> exists loc, client_is Num zero rf inst loc c).
  { intros c Hi. destruct (In_nth _ _ dummy_client Hi) as (i & Hl & <-). eexists. exact (Hc i Hl). }
  assert (Hde : forall x, In x (p_depots d) -> exists i, x = mk_depot i 0 MAXV 0 EmptyString).
  { intros x Hi. destruct (In_nth _ _ dummy_depot Hi) as (i & Hl & <-). exists i. apply Dn. lia. }
  assert (Hve : forall v, In v (p_vehicles d) -> exists w, (w < nv)%nat /\ vehicle_is Num zero rf inst w v).
  { intros v Hi. destruct (In_nth _ _ dummy_vehicle Hi) as (t & Hl & Et). destruct (O2 t Hl) as (Hne & _). cbv zeta in Hne.
    destruct (filter (fun w => (owner w =? t)%nat) (seq 0 nv)) as [|w ws] eqn:Ew; [contradiction Hne; reflexivity|].
    assert (Hw1 : In w (filter (fun w => (owner w =? t)%nat) (seq 0 nv))) by (rewrite Ew; left; reflexivity).
    apply filter_In in Hw1 as [Hw1 Hw2]. apply Nat.eqb_eq in Hw2. apply in_seq in Hw1. exists w. destruct (O1 w ltac:(lia)) as (_ & V & _). rewrite Hw2 in V. unfold p_vehicle in V. rewrite Et in V.
    split; [lia|exact V]. }
  assert (Hsh : (p_numShipments d <= match in_pd inst with Some rows => length rows | None => 0 end)%nat /\
    forall s, In s (p_shipments d) -> st_early (s_pickup s) <= h /\ st_early (s_delivery s) <= h /\ st_service (s_pickup s) <= S /\ st_service (s_delivery s) <= S /\ s_prize s = 0).
  { destruct (in_pd inst) as [rows|] eqn:E.
    - destruct (shipments_read Num zero rf inst d rows Hread E) as [Ns Hs]. split.
      { rewrite Ns. unfold pickup_rows. rewrite <- (seq_length (length rows) 0) at 2. generalize (seq 0 (length rows)). intros l. induction l as [|i l IH]; [apply le_n|]. cbn [filter]. destruct (is_pickup _ _); cbn [length]; lia. }
      intros s Hi. destruct (In_nth _ _ dummy_shipment Hi) as (i & Hl & Ei). specialize (Hs i Hl). cbv zeta in Hs. destruct Hs as [S1 S2 S3 S4 S5 S6].
      unfold p_shipment in S1, S3, S6. rewrite Ei in S1, S3, S6. rewrite S1, S3. cbn [st_early st_service].
      assert (W : forall q, rf (pd_early (nth q rows (dummy_row Num zero))) <= h /\ rf (pd_service (nth q rows (dummy_row Num zero))) <= S).
      { intros q. pose proof (proj1 (Mw q)) as W. unfold file_window in W. rewrite E in W. split; [exact W|apply (Ms q)]. }
      repeat split; try apply W. exact S6.
    - rewrite (no_shipments Num zero rf inst d Hread E). split; [lia|]. intros s Hi. pose proof (no_shipments Num zero rf inst d Hread E) as N0.
      unfold p_numShipments in N0. destruct (p_shipments d); [destruct Hi|discriminate N0]. }
  destruct Hsh as [Ns Hsh].
  assert (M0 : 0 <= M). { pose proof (Me 0%nat 0%nat). lia. }
  pose proof (read_entries (fun z => 0 <= z <= M) (conj (Z.le_refl 0) M0) Me) as En. specialize (En (fun H => conj (Zle_bool_imp_le 0 MAX_VALUE eq_refl) (Mr H))).
  assert (R0 : forall v, In v (p_vehicles d) -> 0 <= v_maxReloads v).
  { intros v Hi. destruct (read_inv Num zero rf inst d Hread) as [[_ _ P3 _ _ _ _ _] _]. unfold read_vehicles in P3. apply bind_ok in P3 as (keys & _ & P3). apply mapM_ok in P3.
    revert Hi. clear - P3. induction P3 as [|[k vs] y l l' Hx H IH]; [intros []|]. intros [<-|Hi]; [|exact (IH Hi)].
    unfold read_vehicle in Hx. do 5 (apply bind_ok in Hx as (? & _ & Hx)). apply bind_ok in Hx as (? & Hsz & Hx). apply make_vehicle_spec in Hx as [_ ->]. cbn [v_maxReloads].
    unfold is_size in Hsz. destruct (Z.ltb_spec (vk_maxReloads k) 0); [discriminate|lia]. }
  assert (Tr : forall v, In v (p_vehicles d) -> v_maxTrips v <= Z.of_nat T /\ (1 < v_maxTrips v -> v_shift v = MAXV)).
  { intros v Hi. destruct (Hve v Hi) as (w & Hw & V). pose proof (vi_reload _ _ _ _ _ _ V) as Er. pose proof (vi_shift _ _ _ _ _ _ V) as Esh.
    pose proof (vi_maxReloads _ _ _ _ _ _ V) as Em. unfold v_maxTrips. destruct (v_reload v) as [|x xs]; [split; lia|].
    destruct (in_reload inst) as [rows|] eqn:Ei; [|discriminate Er]. destruct (Mt ltac:(discriminate)) as [Md Mx]. rewrite Md in Esh. split; [|intros _; exact Esh].
    specialize (Mx w Hw). destruct (in_maxReloads inst) as [s|]; [|destruct Mx]. rewrite Em.
    pose proof (R0 v Hi) as R. rewrite Em in R. assert ((value_at s w 0 + 1) mod (SIZE_MAX + 1) <= value_at s w 0 + 1) by (apply Z.mod_le; unfold SIZE_MAX; lia). lia. }
  assert (Pl : (p_numClients d + 2 * p_numShipments d + T + 2 <= file_places + T + 2)%nat) by (unfold file_places; lia).
  assert (G0 : 0 <= 4 * h + M + S) by lia.
  assert (Sc : forall c, In c (p_clients d) -> c_early c <= h /\ c_release c <= h /\ c_service c <= S /\ c_prize c <= P).
  { intros c Hi. destruct (Hcl c Hi) as (loc & [C1 _ _ C4 C5 C6 C7 _]). pose proof (proj1 (Mw loc)) as W. rewrite <- C5 in W. rewrite C6, C4, C7. repeat split; [exact W|apply Mrel|apply (Ms loc)|apply Mp]. }
  apply (ordinary_solvable d h T M S F U Dc Dx Ds Dv Dg Dm); try (intros k a b; apply En).
  - constructor; [exact H0| | | |]; apply Forall_forall; intros x Hx.
    + split; apply (Sc x Hx).
    + destruct (Hde x Hx) as (i & ->). exact H0.
    + split; apply (Hsh x Hx).
    + destruct (Hve x Hx) as (w & _ & V). pose proof (proj1 (Mw (v_start x))) as W. rewrite <- (vi_window _ _ _ _ _ _ V) in W. exact W.
  - apply Forall_forall. intros v Hv. split; [exact (R0 v Hv)|]. destruct (Hve v Hv) as (w & Hw & V). rewrite (vi_maxReloads _ _ _ _ _ _ V). specialize (Mre w Hw).
    destruct (in_maxReloads inst); [exact Mre|lia].
  - split.
    + constructor; [intros v Hv; apply (Tr v Hv)|intros; apply En|intros; apply En| | | |].
      * intros [i|i|i|i]; cbn; unfold p_depot, p_client, p_shipment.
        -- destruct (nth_in_or_default i (p_depots d) dummy_depot) as [Hi| ->]; [destruct (Hde _ Hi) as (j & ->); exact S0|exact S0].
        -- destruct (nth_in_or_default i (p_clients d) dummy_client) as [Hi| ->]; [apply (Sc _ Hi)|exact S0].
        -- destruct (nth_in_or_default i (p_shipments d) dummy_shipment) as [Hi| ->]; [apply (Hsh _ Hi)|exact S0].
        -- destruct (nth_in_or_default i (p_shipments d) dummy_shipment) as [Hi| ->]; [apply (Hsh _ Hi)|exact S0].
      * intros i. unfold p_depot. destruct (nth_in_or_default i (p_depots d) dummy_depot) as [Hi| ->]; [destruct (Hde _ Hi) as (j & ->); exact S0|exact S0].
      * intros v x i _ _. pose proof (valid_p_client d i Va) as V. destruct V. unfold p_depot. transitivity MAXV; [lia|].
        destruct (nth_in_or_default x (p_depots d) dummy_depot) as [Hi| ->]; [destruct (Hde _ Hi) as (j & ->)|]; apply Z.le_refl.
      * etransitivity; [|exact Mti]. apply Z.mul_le_mono_nonneg_l; [lia|]. apply Z.mul_le_mono_nonneg_r; lia.
    + intros v Hv Ht. destruct (Hve v Hv) as (w & _ & V). pose proof (proj1 (Forall_forall _ _) (va_vehicles d Va) v Hv) as Vv. destruct Vv.
      rewrite vv_maxDuration_def, (proj2 (Tr v Hv) Ht), (proj1 (vi_overtime _ _ _ _ _ _ V)). destruct (Z.ltb_spec 0 (MAXV - MAXV)); [lia|reflexivity].
  - constructor.
    + intros v Hv. destruct (Hve v Hv) as (w & Hw & V). rewrite (vi_fixed _ _ _ _ _ _ V). exact (Mf w Hw).
    + intros v Hv. destruct (Hve v Hv) as (w & Hw & V). rewrite (vi_unitDistance _ _ _ _ _ _ V), (vi_unitDuration _ _ _ _ _ _ V), (proj2 (vi_overtime _ _ _ _ _ _ V)).
      split; [exact (Mu w Hw)|lia].
    + lia.
    + assert (Pz : all_prizes d <= Z.of_nat (file_clients Num inst) * P).
      { assert (Q : forall l, (forall x : Z, In x l -> x <= P) -> zsum l <= Z.of_nat (length l) * P).
        { induction l as [|x l IH]; intros H; [cbn; lia|]. cbn [length zsum]. pose proof (H x (or_introl eq_refl)). specialize (IH (fun y Hy => H y (or_intror Hy))). rewrite Nat2Z.inj_succ, Z.mul_succ_l. lia. }
        unfold all_prizes. rewrite <- Nc. unfold p_numClients. rewrite <- (map_length c_prize).
        assert (Z0 : zsum (map s_prize (p_shipments d)) = 0).
        { assert (Zs : forall s, In s (p_shipments d) -> s_prize s = 0) by (intros s Hi; apply (Hsh s Hi)). revert Zs. clear. induction (p_shipments d) as [|s l IH]; intros H; [reflexivity|].
          cbn. rewrite (H s (or_introl eq_refl)). rewrite IH; [reflexivity|]. intros x Hx. apply H. right. exact Hx. }
        rewrite Z0, Z.add_0_r. apply Q. intros x Hx. apply in_map_iff in Hx as (c & <- & Hc'). apply (Sc c Hc'). }
      eapply Z.le_lt_trans; [|exact Mc]. rewrite Nv. apply Z.add_le_mono; [|exact Pz]. apply Z.mul_le_mono_nonneg_l; [lia|]. apply Z.add_le_mono_l, Z.mul_le_mono_nonneg_l; [lia|].
      apply Z.mul_le_mono_nonneg_l; [lia|]. apply Z.mul_le_mono_nonneg_r; lia.
  - exact U1.
Qed.
End Inst.
