(** Loading then unloading returns the same routes. *)
From Coq Require Import Permutation.
From Verif Require Import Base DurationSegment Data LoadSegment SearchRoute Valid Route RouteSpec RouteFacts2 RouteFacts3
  Cost CostFacts Solution SolutionFacts SolutionFacts2 SolutionFacts3 Equal SearchSpace SearchNodes SearchSeq SearchLoad.
Local Open Scope nat_scope.

(** ** Visits of a solution are distinct *)
Lemma nodup_app {A} (l l' : list A) : NoDup l -> NoDup l' -> (forall x, In x l -> ~ In x l') -> NoDup (l ++ l').
Proof.
  induction l as [|x l IH]; intros H1 H2 H; [assumption|]. inversion H1; subst. cbn. constructor.
  - rewrite in_app_iff. intros [|]; [contradiction|]. apply (H x); [left; reflexivity|assumption].
  - apply IH; auto. intros y Hy. apply H. right; assumption.
Qed.
Lemma nodup_parts {A} (l l' : list A) : NoDup (l ++ l') -> NoDup l /\ NoDup l' /\ forall x, In x l -> ~ In x l'.
Proof.
  induction l as [|x l IH]; intros H; [split; [constructor|auto]|]. cbn in H. inversion H as [|? ? H1 H2]; subst.
  destruct (IH H2) as (I1 & I2 & I3). rewrite in_app_iff in H1. split; [constructor; tauto|]. split; [assumption|].
  intros y [->|Hy]; [tauto|auto].
Qed.
Lemma visits_app l l' : visits (l ++ l') = visits l ++ visits l'.
Proof. apply filter_app. Qed.
Lemma in_visits l a : In a (visits l) <-> In a l /\ a_isDepot a = false.
Proof. unfold visits. rewrite filter_In. destruct (a_isDepot a); cbn; intuition congruence. Qed.

Lemma wf_visits_nodup d v mid : well_formed d v mid -> NoDup (client_ids mid) -> NoDup (visits mid).
Proof.
  intros Hwf Hc.
  assert (Hgen : forall l pre, mid = pre ++ l -> NoDup (client_ids l) -> NoDup (visits l)).
  { induction l as [|a l IH]; intros pre E Hcl; [constructor|].
    assert (E' : mid = (pre ++ [a]) ++ l) by (rewrite <- app_assoc; exact E).
    destruct a as [i|i|i|i]; unfold visits; cbn [filter a_isDepot negb]; fold (visits l).
    - apply (IH _ E'). exact Hcl.
    - cbn in Hcl. inversion Hcl as [|? ? H1 H2]; subst. constructor; [|apply (IH _ E'); assumption].
      rewrite in_visits. intros [H _]. apply H1. apply in_client_ids. assumption.
    - constructor; [|apply (IH _ E'); exact Hcl]. rewrite in_visits. intros [H _].
      apply (wf_pickup_once _ _ _ Hwf i pre l E H).
    - constructor; [|apply (IH _ E'); exact Hcl]. rewrite in_visits. intros [H _].
      apply (wf_delivery_once _ _ _ Hwf i pre l E H). }
  apply (Hgen mid []); [reflexivity|assumption].
Qed.

Lemma built_mid d r : built d r -> exists mid, make_route d mid (r_vehicleType r) = Ok r /\
  r_vehicleType r < p_numVehicleTypes d /\ well_formed d (p_vehicle d (r_vehicleType r)) mid /\ r_acts r = mid /\
  sched_acts r = (ADepot (v_start (p_vehicle d (r_vehicleType r))) :: mid) ++ [ADepot (v_end (p_vehicle d (r_vehicleType r)))].
Proof.
  intros (mid & vt & Hvt & Hm). pose proof (route_fields d mid vt r Hm) as Hf. cbv zeta in Hf.
  assert (E : r_vehicleType r = vt) by (rewrite Hf; reflexivity). rewrite E.
  assert (Hsched : sched_acts r = (ADepot (v_start (p_vehicle d vt)) :: mid) ++ [ADepot (v_end (p_vehicle d vt))])
    by (unfold sched_acts; rewrite Hf; cbn [r_schedule]; apply schedule_acts).
  exists mid. split; [assumption|]. split; [assumption|]. split; [apply (make_route_ok _ _ _ _ Hm)|]. split; [|exact Hsched].
  unfold r_acts. fold (sched_acts r). rewrite Hsched. cbn [app List.tl]. apply removelast_last.
Qed.
Lemma visits_sched d r : built d r -> visits (sched_acts r) = visits (r_acts r).
Proof.
  intros H. destruct (built_mid d r H) as (mid & _ & _ & _ & -> & ->). rewrite visits_app. cbn. apply app_nil_r.
Qed.

Lemma delivery_pickup d r i : built d r -> In (ADelivery i) (sched_acts r) -> In (APickup i) (sched_acts r).
Proof.
  intros H Hi. destruct (built_mid d r H) as (mid & _ & _ & Hwf & _ & E). rewrite E in *.
  apply in_app_or in Hi as [[|Hi]|[|[]]]; try discriminate. apply in_split in Hi as (pre & post & Em).
  destruct (wf_delivery_after _ _ _ Hwf i pre post Em) as (p1 & p2 & Ep & _).
  apply in_or_app; left; right. rewrite Em, Ep. apply in_or_app; left. apply in_or_app; right; left; reflexivity.
Qed.

Theorem plan_nodup d routes : Forall (built d) routes -> consistent d routes -> NoDup (visits (plan routes)).
Proof.
  intros HB Hc. pose proof (cs_clients _ _ Hc) as C1. pose proof (cs_shipments _ _ Hc) as C2. clear Hc.
  induction routes as [|r routes IH]; [constructor|]. inversion HB as [|? ? Hb HB']; subst.
  change (plan (r :: routes)) with (sched_acts r ++ plan routes) in *. rewrite client_ids_app in C1. rewrite pickup_ids_app in C2.
  apply nodup_parts in C1 as (A1 & A2 & A3). apply nodup_parts in C2 as (B1 & B2 & B3).
  rewrite visits_app. apply nodup_app; [|apply IH; assumption|].
  - rewrite (visits_sched d r Hb). destruct (built_mid d r Hb) as (mid & _ & _ & Hwf & Em & Es). rewrite Em.
    apply (wf_visits_nodup _ _ _ Hwf). rewrite Es, !client_ids_app in A1. cbn in A1. apply nodup_parts in A1 as [A1 _]. exact A1.
  - intros a Ha Ha'. apply in_visits in Ha as [Ha Hd], Ha' as [Ha' _]. destruct a as [i|i|i|i]; [discriminate| | |].
    + apply (A3 i); apply in_client_ids; assumption.
    + apply (B3 i); apply in_pickup_ids; assumption.
    + apply (B3 i); apply in_pickup_ids; [eapply delivery_pickup; eassumption|].
      apply in_flat_map in Ha' as (r' & Hr' & Ha'). apply in_flat_map. exists r'. split; [assumption|].
      rewrite Forall_forall in HB'. apply (delivery_pickup d r' i (HB' r' Hr') Ha').
Qed.

(** ** Loading *)
Record loading (d : pdata) (done : list route) (s : heap) : Prop := mk_loading {
  li_ok : heap_ok s;
  li_len : length (hp_routes s) = offset (avail d) (p_numVehicleTypes d);
  li_veh : forall r, r < length (hp_routes s) -> sr_veh (sroute_at s r) = nth r (fleet_vehicles d) dummy_vehicle;
  li_syn : forall r, r < length (hp_routes s) -> sr_synced (sroute_at s r) = mid_of s r;
  li_done : forall t k sr, t < p_numVehicleTypes d -> k < avail d t -> nth_error (of_type t done) k = Some sr ->
    acts s (offset (avail d) t + k) = sched_acts sr /\ strict s (offset (avail d) t + k);
  li_todo : forall t k, t < p_numVehicleTypes d -> k < avail d t -> length (of_type t done) <= k ->
    forall i c, nth_error (sr_nodes (sroute_at s (offset (avail d) t + k))) i = Some (PV c) ->
    In c (plan done) \/ (n_route (hp_visits s c) = Some (offset (avail d) t + k) /\ n_pos (hp_visits s c) = i) }.

Lemma of_type_app t a b : of_type t (a ++ b) = of_type t a ++ of_type t b.
Proof. apply filter_app. Qed.
Lemma plan_app a b : plan (a ++ b) = plan a ++ plan b.
Proof. apply flat_map_app. Qed.
Lemma in_of_type t routes r : In r (of_type t routes) <-> In r routes /\ r_vehicleType r = t.
Proof. unfold of_type. rewrite filter_In, Nat.eqb_eq. tauto. Qed.
Lemma mid_other s s' r : acts s' r = acts s r -> mid_of s' r = mid_of s r.
Proof. unfold mid_of. intros ->. reflexivity. Qed.

Lemma load_step d done sr s : loading d done s -> built d sr ->
  NoDup (visits (plan (done ++ [sr]))) ->
  length (of_type (r_vehicleType sr) done) < avail d (r_vehicleType sr) ->
  exists s', load_route d s (offset (avail d) (r_vehicleType sr) + length (of_type (r_vehicleType sr) done)) sr = Some (s', false) /\
    loading d (done ++ [sr]) s'.
Proof.
  intros L Hb Hnd Hk. destruct (built_mid d sr Hb) as (mid & Hm & Ht & Hwf & Hra & Hsa).
  set (t := r_vehicleType sr) in *. set (k := length (of_type t done)) in *. set (r := offset (avail d) t + k).
  rewrite plan_app, visits_app in Hnd. apply nodup_parts in Hnd as (_ & Hnd & Hdis).
  replace (plan [sr]) with (sched_acts sr) in * by (cbn; rewrite app_nil_r; reflexivity).
  assert (Hvm : visits (sched_acts sr) = visits mid) by (rewrite (visits_sched d sr Hb), Hra; reflexivity).
  rewrite Hvm in Hnd, Hdis.
  assert (Hr : r < length (hp_routes s)) by (rewrite (li_len _ _ _ L); apply offset_lt; assumption).
  assert (HdisP : forall c, a_isDepot c = false -> In c (plan done) -> ~ In c mid).
  { intros c Hd H1 H2. apply (Hdis c); apply in_visits; auto. }
  destruct (load_route_spec d s t k sr mid Ht Hk Hm) as (s' & E & Ed & Sy & V1 & V2).
  { apply L. }
  { apply L. }
  { rewrite (li_veh _ _ _ L) by assumption. apply fleet_veh; assumption. }
  { apply (li_syn _ _ _ L). assumption. }
  { intros i c Hc Hi. destruct (li_todo _ _ _ L t k Ht Hk (le_n _) i c Hi) as [Hin|H]; [|exact H].
    exfalso. revert Hc. apply HdisP; [|assumption]. apply (ok_nodes s r (hk_routes s (li_ok _ _ _ L) r Hr) i (PV c) Hi). }
  { assumption. }
  exists s'. split; [exact E|]. fold r in E, Ed, Sy, V1, V2. pose proof Ed as [F1 F2 F3 F4 F5 F6].
  assert (Hot : forall t', of_type t' (done ++ [sr]) = of_type t' done ++ (if t =? t' then [sr] else [])).
  { intros t'. rewrite of_type_app. reflexivity. }
  assert (Hsame : forall r' i c, r' <> r -> a_isDepot c = false -> ~ In c mid ->
            n_route (hp_visits s c) = Some r' /\ n_pos (hp_visits s c) = i -> n_route (hp_visits s' c) = Some r' /\ n_pos (hp_visits s' c) = i).
  { intros r' i c Hne Hd Hc [H1 H2]. rewrite V1; [auto|assumption|congruence]. }
  constructor.
  - assumption.
  - rewrite F2. apply L.
  - intros r' Hr'. rewrite F2 in Hr'. destruct (Nat.eq_dec r' r) as [->|Hne].
    + rewrite F6. apply L. assumption.
    + rewrite F3 by assumption. apply L. assumption.
  - intros r' Hr'. rewrite F2 in Hr'. destruct (Nat.eq_dec r' r) as [->|Hne]; [assumption|].
    rewrite F3 by assumption. rewrite (li_syn _ _ _ L) by assumption. symmetry. apply mid_other, acts_other; [apply L|assumption|]. apply F3. assumption.
  - intros t' k' sr' Ht' Hk' Hn. rewrite Hot in Hn. set (r' := offset (avail d) t' + k').
    destruct (Nat.eq_dec r' r) as [Er|Hne].
    + destruct (offset_inj (avail d) t' t k' k Hk' Hk Er) as [-> ->]. rewrite Nat.eqb_refl in Hn.
      unfold k in Hn. rewrite nth_error_app2, Nat.sub_diag in Hn by lia. injection Hn as <-.
      rewrite Er. split; [assumption|apply good_strict; assumption].
    + assert (Hn' : nth_error (of_type t' done) k' = Some sr').
      { destruct (Nat.lt_ge_cases k' (length (of_type t' done))) as [Lk|Lk]; [rewrite nth_error_app1 in Hn by assumption; assumption|].
        exfalso. rewrite nth_error_app2 in Hn by assumption. destruct (Nat.eqb_spec t t') as [<-|Htt].
        - destruct (k' - length (of_type t done)) eqn:Ek; [|destruct n; discriminate]. apply Hne. unfold r', r, k in *. lia.
        - destruct (k' - _); discriminate. }
      destruct (li_done _ _ _ L t' k' sr' Ht' Hk' Hn') as [D1 D2]. fold r' in D1, D2. split.
      * rewrite <- D1. apply acts_other; [apply L|assumption|]. apply F3. assumption.
      * intros i c Hi. rewrite F3 in Hi by assumption.
        assert (Hr' : r' < length (hp_routes s)) by (rewrite (li_len _ _ _ L); apply offset_lt; assumption).
        assert (Hd : a_isDepot c = false) by (apply (ok_nodes s r' (hk_routes s (li_ok _ _ _ L) r' Hr') i (PV c) Hi)).
        apply Hsame; [assumption|assumption| |apply D2; assumption].
        apply HdisP; [assumption|]. pose proof (in_acts_PV s r' c (li_ok _ _ _ L) (nth_error_In _ _ Hi)) as Hin. rewrite D1 in Hin.
        apply in_flat_map. exists sr'. split; [|assumption]. apply nth_error_In in Hn'. apply in_of_type in Hn'. tauto.
  - intros t' k' Ht' Hk' Hge i c Hi. set (r' := offset (avail d) t' + k') in *. rewrite Hot, app_length in Hge.
    assert (Hne : r' <> r).
    { intros Er. destruct (offset_inj (avail d) t' t k' k Hk' Hk Er) as [-> ->]. rewrite Nat.eqb_refl in Hge. cbn in Hge. unfold k in Hge. lia. }
    rewrite F3 in Hi by assumption.
    assert (Hr' : r' < length (hp_routes s)) by (rewrite (li_len _ _ _ L); apply offset_lt; assumption).
    assert (Hd : a_isDepot c = false) by (apply (ok_nodes s r' (hk_routes s (li_ok _ _ _ L) r' Hr') i (PV c) Hi)).
    rewrite plan_app, in_app_iff. replace (plan [sr]) with (sched_acts sr) by (cbn; rewrite app_nil_r; reflexivity).
    destruct (li_todo _ _ _ L t' k' Ht' Hk' ltac:(lia) i c Hi) as [H|H]; [auto|]. fold r' in H.
    destruct (in_dec (fun a b => reflect_dec _ _ (a_eqb_spec a b)) c mid) as [Hin|Hnin].
    + left; right. rewrite Hsa. apply in_or_app; left; right; assumption.
    + right. apply Hsame; assumption.
Qed.

Lemma load_routes_spec d : forall routes done s offs, loading d done s -> Forall (built d) routes ->
  NoDup (visits (plan (done ++ routes))) ->
  (forall t, t < p_numVehicleTypes d -> length (of_type t (done ++ routes)) <= avail d t) ->
  length offs = p_numVehicleTypes d ->
  (forall t, t < p_numVehicleTypes d -> nth t offs 0 = offset (avail d) t + length (of_type t done)) ->
  exists s' offs', load_routes d offs s routes = Some (s', offs', false) /\ loading d (done ++ routes) s' /\
    (forall t, t < p_numVehicleTypes d -> nth t offs' 0 = offset (avail d) t + length (of_type t (done ++ routes))).
Proof.
  induction routes as [|sr routes IH]; intros done s offs L HB Hnd Hav Hlo Hoffs; cbn [load_routes].
  - rewrite app_nil_r. eauto.
  - inversion HB as [|? ? Hb HB']; subst. destruct (built_mid d sr Hb) as (mid & _ & Ht & _).
    set (t := r_vehicleType sr) in *. rewrite (nth_error_nth' offs 0) by lia. rewrite Hoffs by assumption.
    assert (E : done ++ sr :: routes = (done ++ [sr]) ++ routes) by (rewrite <- app_assoc; reflexivity).
    assert (Hot : of_type t (done ++ sr :: routes) = of_type t done ++ sr :: of_type t routes).
    { rewrite of_type_app. f_equal. unfold of_type. cbn. fold t. rewrite Nat.eqb_refl. reflexivity. }
    destruct (load_step d done sr s L Hb) as (s1 & E1 & L1).
    { rewrite E, plan_app, visits_app in Hnd. apply nodup_parts in Hnd as [H _]. exact H. }
    { specialize (Hav t Ht). rewrite Hot, app_length in Hav. cbn in Hav. unfold t in *. lia. }
    fold t in E1. rewrite E1. rewrite E in Hnd, Hav |- *. apply IH; try assumption.
    + rewrite upd_len. assumption.
    + intros t' Ht'. rewrite nth_upd by lia. rewrite of_type_app, app_length.
      change (of_type t' [sr]) with (if t =? t' then [sr] else []).
      destruct (Nat.eqb_spec t t') as [<-|]; cbn [length]; [lia|]. rewrite Hoffs by assumption. lia.
Qed.

(** ** Clearing the rest *)
Record clearing (d : pdata) (routes : list route) (bound : nat) (s : heap) : Prop := mk_clearing {
  cl_loading : loading d routes s;
  cl_clear : forall t k, t < p_numVehicleTypes d -> k < avail d t -> length (of_type t routes) <= k ->
    offset (avail d) t + k < bound -> acts s (offset (avail d) t + k) = empty_acts d t }.

Lemma clear_step d routes t k s : t < p_numVehicleTypes d -> k < avail d t -> length (of_type t routes) <= k ->
  clearing d routes (offset (avail d) t + k) s ->
  exists s', route_clear s (offset (avail d) t + k) = Some s' /\ clearing d routes (S (offset (avail d) t + k)) s'.
Proof.
  intros Ht Hk Hge [L C]. set (r := offset (avail d) t + k) in *.
  assert (Hr : r < length (hp_routes s)) by (rewrite (li_len _ _ _ L); apply offset_lt; assumption).
  destruct (clear_spec s r (li_ok _ _ _ L) Hr) as (s' & E & Ed & Sy & Hno & Hvis).
  specialize (Sy (or_introl (li_syn _ _ _ L r Hr))). pose proof Ed as [F1 F2 F3 F4 F5 F6].
  assert (Ea : acts s' r = empty_acts d t).
  { rewrite F5. rewrite (li_veh _ _ _ L) by assumption. unfold r. rewrite fleet_veh by assumption. reflexivity. }
  exists s'. split; [exact E|]. constructor; [constructor|].
  - assumption.
  - rewrite F2. apply L.
  - intros r' Hr'. rewrite F2 in Hr'. destruct (Nat.eq_dec r' r) as [->|Hne].
    + rewrite F6. apply L. assumption.
    + rewrite F3 by assumption. apply L. assumption.
  - intros r' Hr'. rewrite F2 in Hr'. destruct (Nat.eq_dec r' r) as [->|Hne].
    + rewrite Sy. unfold mid_of. rewrite Ea. reflexivity.
    + rewrite F3 by assumption. rewrite (li_syn _ _ _ L) by assumption. symmetry. apply mid_other, acts_other; [apply L|assumption|]. apply F3. assumption.
  - intros t' k' sr' Ht' Hk' Hn. set (r' := offset (avail d) t' + k').
    assert (Hne : r' <> r).
    { intros Er. destruct (offset_inj (avail d) t' t k' k Hk' Hk Er) as [-> ->]. pose proof (nth_error_lt _ _ _ Hn). lia. }
    destruct (li_done _ _ _ L t' k' sr' Ht' Hk' Hn) as [D1 D2]. fold r' in D1, D2. split.
    + rewrite <- D1. apply acts_other; [apply L|assumption|]. apply F3. assumption.
    + intros i c Hi. rewrite F3 in Hi by assumption. destruct (D2 i c Hi) as [G1 G2]. rewrite Hvis, G1.
      destruct (Nat.eqb_spec r' r); [contradiction|auto].
  - intros t' k' Ht' Hk' Hge' i c Hi. set (r' := offset (avail d) t' + k') in *. destruct (Nat.eq_dec r' r) as [Er|Hne].
    + exfalso. rewrite Er in Hi. apply (Hno c). eapply nth_error_In; eassumption.
    + rewrite F3 in Hi by assumption. destruct (li_todo _ _ _ L t' k' Ht' Hk' Hge' i c Hi) as [H|[G1 G2]]; [auto|].
      right. fold r' in G1. rewrite Hvis, G1. destruct (Nat.eqb_spec r' r); [contradiction|auto].
  - intros t' k' Ht' Hk' Hge' Hlt. set (r' := offset (avail d) t' + k') in *. destruct (Nat.eq_dec r' r) as [Er|Hne].
    + destruct (offset_inj (avail d) t' t k' k Hk' Hk Er) as [-> ->]. exact Ea.
    + rewrite <- (C t' k' Ht' Hk' Hge'); [|fold r'; lia]. apply acts_other; [apply L|assumption|]. apply F3. assumption.
Qed.

Lemma clear_range_spec d routes t : t < p_numVehicleTypes d -> forall count k s,
  k + count = avail d t -> length (of_type t routes) <= k -> clearing d routes (offset (avail d) t + k) s ->
  exists s', clear_range s (offset (avail d) t + k) count = Some s' /\ clearing d routes (offset (avail d) (S t)) s'.
Proof.
  intros Ht. induction count as [|count IH]; intros k s E Hge C; cbn [clear_range].
  - exists s. split; [reflexivity|]. cbn [offset]. rewrite <- E, Nat.add_0_r. exact C.
  - assert (Hr : offset (avail d) t + k < length (hp_routes s)) by (rewrite (li_len _ _ _ (cl_loading _ _ _ _ C)); apply offset_lt; [assumption|lia]).
    rewrite (proj2 (Nat.leb_gt _ _) Hr).
    destruct (clear_step d routes t k s Ht ltac:(lia) Hge C) as (s1 & E1 & C1). rewrite E1.
    replace (S (offset (avail d) t + k)) with (offset (avail d) t + S k) in * by lia. apply IH; [lia|lia|assumption].
Qed.

Lemma clear_rest_spec d routes offs : (forall t, t < p_numVehicleTypes d -> nth t offs 0 = offset (avail d) t + length (of_type t routes)) ->
  (forall t, t < p_numVehicleTypes d -> length (of_type t routes) <= avail d t) ->
  forall m t s, t + m = p_numVehicleTypes d -> clearing d routes (offset (avail d) t) s ->
  exists s', clear_rest d offs s (seq t m) = Some s' /\ clearing d routes (offset (avail d) (p_numVehicleTypes d)) s'.
Proof.
  intros Hoffs Hav. induction m as [|m IH]; intros t s E C; cbn [clear_rest seq].
  - exists s. split; [reflexivity|]. rewrite <- E, Nat.add_0_r. exact C.
  - assert (Ht : t < p_numVehicleTypes d) by lia. rewrite (Hoffs t Ht). specialize (Hav t Ht) as Hu. cbn [offset].
    rewrite (proj2 (Nat.ltb_ge _ _)) by lia.
    replace (offset (avail d) t + avail d t - (offset (avail d) t + length (of_type t routes))) with (avail d t - length (of_type t routes)) by lia.
    destruct (clear_range_spec d routes t Ht (avail d t - length (of_type t routes)) (length (of_type t routes)) s) as (s1 & E1 & C1).
    + lia.
    + lia.
    + destruct C as [L C]. constructor; [assumption|]. intros t' k' Ht' Hk' Hge Hlt.
      destruct (Nat.lt_ge_cases (offset (avail d) t' + k') (offset (avail d) t)) as [Lt|Ge]; [auto|]. exfalso.
      assert (Ex : exists x, offset (avail d) t' + k' = offset (avail d) t + x) by (exists (offset (avail d) t' + k' - offset (avail d) t); lia).
      destruct Ex as [x Ex]. destruct (offset_inj (avail d) t' t k' x Hk' ltac:(lia) Ex) as [-> ->]. lia.
    + rewrite E1. apply IH; [lia|assumption].
Qed.

Theorem load_spec d s pl routes : ready d s pl -> length pl = offset (avail d) (p_numVehicleTypes d) ->
  Forall (built d) routes -> consistent d routes ->
  exists s', load d s routes = Some (s', false) /\ ready d s' (target d routes).
Proof.
  intros [[Hok Hstr Hl Ha Hv] Hsy] Hpl HB Hc.
  assert (Hav : forall t, t < p_numVehicleTypes d -> length (of_type t routes) <= avail d t).
  { intros t Ht. apply (cs_types _ _ Hc t Ht). }
  assert (L0 : loading d [] s).
  { constructor.
    - assumption.
    - congruence.
    - intros r Hr. apply Hv. lia.
    - intros r Hr. apply Hsy. lia.
    - intros t k sr _ _ H. destruct k; discriminate.
    - intros t k Ht Hk _ i c Hi. right. apply (Hstr (offset (avail d) t + k)); [|assumption].
      rewrite Hl, Hpl. apply offset_lt; assumption. }
  unfold load. destruct (load_routes_spec d routes [] s (offsets d) L0 HB) as (s1 & offs & E1 & L1 & O1).
  { apply (plan_nodup d routes HB Hc). }
  { exact Hav. }
  { unfold offsets. rewrite map_length, seq_length. reflexivity. }
  { intros t Ht. unfold offsets. apply nth_error_nth. rewrite nth_error_map.
    rewrite (nth_error_nth' _ 0) by (rewrite seq_length; assumption). rewrite seq_nth by assumption. cbn. f_equal. lia. }
  rewrite E1. cbn [app] in L1, O1.
  destruct (clear_rest_spec d routes offs O1 Hav (p_numVehicleTypes d) 0 s1) as (s2 & E2 & [L2 C2]).
  { reflexivity. }
  { constructor; [assumption|]. intros t k _ _ _ H. cbn in H. lia. }
  rewrite E2. exists s2. split; [reflexivity|].
  assert (Htl : length (target d routes) = offset (avail d) (p_numVehicleTypes d)) by (apply flat_len, target_len; assumption).
  assert (Hacts : forall r, r < length (target d routes) -> acts s2 r = nth r (target d routes) [] /\ strict s2 r).
  { intros r Hr. rewrite Htl in Hr. destruct (slot_of _ _ _ Hr) as (t & k & Ht & Hk & ->).
    rewrite target_nth by assumption. destruct (nth_error (of_type t routes) k) as [sr|] eqn:Ek.
    - apply (li_done _ _ _ L2); assumption.
    - apply nth_error_None in Ek. pose proof (C2 t k Ht Hk Ek Hr) as Ea. split; [assumption|].
      intros i c Hi. exfalso. pose proof (in_acts_PV s2 _ c (li_ok _ _ _ L2) (nth_error_In _ _ Hi)) as Hin. rewrite Ea in Hin.
      assert (Hd : a_isDepot c = false).
      { apply (ok_nodes s2 (offset (avail d) t + k)) with (i := i) (p := PV c); [|assumption]. apply (hk_routes _ (li_ok _ _ _ L2)). rewrite (li_len _ _ _ L2). assumption. }
      destruct Hin as [<-|[<-|[]]]; discriminate. }
  constructor; [constructor|].
  - apply L2.
  - intros r Hr. rewrite (li_len _ _ _ L2), <- Htl in Hr. apply Hacts. assumption.
  - rewrite (li_len _ _ _ L2), Htl. reflexivity.
  - intros r Hr. apply Hacts. assumption.
  - intros r Hr. rewrite Htl in Hr. apply L2. rewrite (li_len _ _ _ L2). assumption.
  - intros r Hr. rewrite Htl in Hr. apply L2. rewrite (li_len _ _ _ L2). assumption.
Qed.

(** ** Unloading *)
Lemma unload_app d s : forall a b la, unload_routes d s a = Ok la ->
  unload_routes d s (a ++ b) = match unload_routes d s b with Ok lb => Ok (la ++ lb) | Err e => Err e end.
Proof.
  induction a as [|r a IH]; intros b la E; cbn [unload_routes app] in *.
  - injection E as <-. destruct (unload_routes d s b); reflexivity.
  - destruct (ca_empty _); [apply IH; assumption|]. destruct (make_route _ _ _) as [x|e]; [|discriminate].
    destruct (unload_routes d s a) as [l|e] eqn:Ea; [|discriminate]. injection E as <-. rewrite (IH b l eq_refl).
    destruct (unload_routes d s b); reflexivity.
Qed.


Lemma filter_permut {A} (f : A -> bool) l l' : Permutation l l' -> Permutation (filter f l) (filter f l').
Proof.
  induction 1 as [|x l l' H IH|x y l|l l' l'' H1 IH1 H2 IH2]; cbn [filter].
  - constructor.
  - destruct (f x); [constructor|]; assumption.
  - destruct (f x), (f y); try reflexivity. constructor.
  - etransitivity; eassumption.
Qed.
Lemma perm_plan r r' : Permutation r r' -> Permutation (plan r) (plan r').
Proof. apply Permutation_flat_map. Qed.
Lemma perm_consistent d routes routes' : Permutation routes routes' -> consistent d routes -> consistent d routes'.
Proof.
  intros P [C1 C2 C3 C4 C5 C6]. pose proof (perm_plan _ _ P) as PP. constructor.
  - rewrite <- (Permutation_length P). assumption.
  - intros r Hr. apply C2. apply (Permutation_in r (Permutation_sym P) Hr).
  - eapply Permutation_NoDup; [|exact C3]. apply Permutation_flat_map. assumption.
  - eapply Permutation_NoDup; [|exact C4]. apply Permutation_flat_map. assumption.
  - intros g i j Hg Hi Hj H1 H2. apply (C5 g i j Hg Hi Hj); apply (Permutation_in _ (Permutation_sym PP)); assumption.
  - intros t Ht. specialize (C6 t Ht). unfold used_vehicles in *. rewrite <- (Permutation_length (filter_permut _ _ _ P)). assumption.
Qed.

Lemma by_type_perm d : forall routes, Forall (built d) routes -> Permutation (by_type d routes) routes.
Proof.
  unfold by_type. induction routes as [|r routes IH]; intros HB.
  - cbn. induction (seq 0 _); cbn; [constructor|assumption].
  - inversion HB as [|? ? Hb HB']; subst. transitivity (r :: flat_map (fun t => of_type t routes) (seq 0 (p_numVehicleTypes d))); [|constructor; apply (IH HB')]. destruct (built_mid d r Hb) as (_ & _ & Ht & _).
    set (n := p_numVehicleTypes d) in *. clearbody n. clear IH HB HB' Hb.
    assert (G : forall m s, s <= r_vehicleType r -> r_vehicleType r < s + m ->
      Permutation (flat_map (fun t => of_type t (r :: routes)) (seq s m)) (r :: flat_map (fun t => of_type t routes) (seq s m))).
    { induction m as [|m IHm]; intros s0 H1 H2; [lia|]. cbn [seq flat_map].
      change (of_type s0 (r :: routes)) with (if r_vehicleType r =? s0 then r :: of_type s0 routes else of_type s0 routes).
      destruct (Nat.eqb_spec (r_vehicleType r) s0) as [<-|Hne].
      - cbn [app]. constructor. apply Permutation_app_head.
        assert (E : forall m' s', r_vehicleType r < s' -> flat_map (fun t => of_type t (r :: routes)) (seq s' m') = flat_map (fun t => of_type t routes) (seq s' m')).
        { induction m' as [|m' IH']; intros s' Hs; [reflexivity|]. cbn [seq flat_map]. rewrite IH' by lia. f_equal.
          change (of_type s' (r :: routes)) with (if r_vehicleType r =? s' then r :: of_type s' routes else of_type s' routes).
          destruct (Nat.eqb_spec (r_vehicleType r) s'); [lia|reflexivity]. }
        rewrite E by lia. reflexivity.
      - rewrite IHm by lia. rewrite Permutation_middle. reflexivity. }
    apply G; lia.
Qed.

Lemma seq_split a b c : seq a (b + c) = seq a b ++ seq (a + b) c.
Proof. apply seq_app. Qed.

Lemma unload_empty d s v : forall m from, (forall r, from <= r < from + m -> ca_empty (update d (v r) (sr_synced (sroute_at s r))) = true /\ sr_veh (sroute_at s r) = v r) ->
  unload_routes d s (seq from m) = Ok [].
Proof.
  induction m as [|m IH]; intros from H; [reflexivity|]. cbn [seq unload_routes].
  destruct (H from ltac:(lia)) as [E1 E2]. rewrite E2, E1. apply IH. intros r Hr. apply H. lia.
Qed.

Lemma unload_type d s routes t : t < p_numVehicleTypes d ->
  ready d s (target d routes) -> Forall (built d) routes -> consistent d routes ->
  unload_routes d s (seq (offset (avail d) t) (avail d t)) = Ok (of_type t routes).
Proof.
  intros Ht [Hf Hsy] HB Hc.
  assert (Hav : forall t, t < p_numVehicleTypes d -> length (of_type t routes) <= avail d t).
  { intros t' Ht'. apply (cs_types _ _ Hc t' Ht'). }
  assert (Htl : length (target d routes) = offset (avail d) (p_numVehicleTypes d)) by (apply flat_len, target_len; assumption).
  assert (Hslot : forall k, k < avail d t -> offset (avail d) t + k < length (target d routes)) by (intros k Hk; rewrite Htl; apply offset_lt; assumption).
  assert (Hacts : forall k, k < avail d t -> acts s (offset (avail d) t + k) =
    match nth_error (of_type t routes) k with Some sr => sched_acts sr | None => empty_acts d t end).
  { intros k Hk. rewrite (fi_acts _ _ _ Hf) by auto. apply target_nth; assumption. }
  assert (Hveh : forall k, k < avail d t -> sr_veh (sroute_at s (offset (avail d) t + k)) = p_vehicle d t).
  { intros k Hk. rewrite (fi_veh _ _ _ Hf) by auto. apply fleet_veh; assumption. }
  specialize (Hav t Ht).
  assert (Eseq : seq (offset (avail d) t) (avail d t) = seq (offset (avail d) t) (length (of_type t routes))
      ++ seq (offset (avail d) t + length (of_type t routes)) (avail d t - length (of_type t routes))) by (rewrite <- seq_app; f_equal; lia).
  rewrite Eseq.
  assert (E1 : forall m k, k + m = length (of_type t routes) -> unload_routes d s (seq (offset (avail d) t + k) m) = Ok (skipn k (of_type t routes))).
  { induction m as [|m IH]; intros k Hk.
    - cbn. rewrite skipn_all2 by lia. reflexivity.
    - cbn [seq unload_routes]. assert (Hka : k < avail d t) by lia.
      rewrite (Hveh k Hka). rewrite Hsy by auto.
      destruct (nth_error (of_type t routes) k) as [sr|] eqn:Ek; [|apply nth_error_None in Ek; lia].
      pose proof (nth_error_In _ _ Ek) as Hin. apply in_of_type in Hin as [Hin Hty].
      rewrite Forall_forall in HB. pose proof (HB sr Hin) as Hb. destruct (built_mid d sr Hb) as (mid & Hm & _ & _ & _ & Es).
      rewrite Hty in Hm, Es. specialize (Hacts k Hka). rewrite Ek, Es in Hacts. rewrite (mid_of_acts s _ _ _ _ Hacts).
      rewrite ca_empty_spec, <- (r_empty_spec d _ _ _ Hm).
      destruct (built_empty d sr Hb) as [_ He]. rewrite (He (cs_nonempty _ _ Hc sr Hin)).
      rewrite fleet_nth by assumption. rewrite Hm.
      replace (S (offset (avail d) t + k)) with (offset (avail d) t + S k) by lia. rewrite IH by lia.
      f_equal. clear - Ek. revert k Ek. induction (of_type t routes) as [|x l IHl]; intros [|k] E; try discriminate.
      + injection E as ->. reflexivity.
      + cbn [skipn]. apply IHl. assumption. }
  specialize (E1 (length (of_type t routes)) 0 eq_refl) as E0. rewrite Nat.add_0_r in E0. cbn [skipn] in E0.
  rewrite (unload_app d s _ _ _ E0). rewrite (unload_empty d s (fun _ => p_vehicle d t)); [rewrite app_nil_r; reflexivity|].
  intros r Hr. set (k := r - offset (avail d) t). assert (E : r = offset (avail d) t + k) by (unfold k; lia).
  assert (Hka : k < avail d t) by (unfold k; lia). rewrite E. split; [|auto].
  rewrite Hsy by auto. specialize (Hacts k Hka). rewrite (proj2 (nth_error_None (of_type t routes) k)) in Hacts by (unfold k; lia).
  rewrite (mid_of_acts s _ _ [] _ Hacts). rewrite ca_empty_spec. reflexivity.
Qed.

Lemma unload_routes_spec d s routes : ready d s (target d routes) -> Forall (built d) routes -> consistent d routes ->
  unload_routes d s (seq 0 (length (hp_routes s))) = Ok (by_type d routes).
Proof.
  intros R HB Hc.
  assert (Htl : length (target d routes) = offset (avail d) (p_numVehicleTypes d)).
  { apply flat_len, target_len. intros t' Ht'. apply (cs_types _ _ Hc t' Ht'). }
  rewrite (fi_len _ _ _ (rd_fine _ _ _ R)), Htl. unfold by_type.
  assert (G : forall n, n <= p_numVehicleTypes d -> unload_routes d s (seq 0 (offset (avail d) n)) = Ok (flat_map (fun t => of_type t routes) (seq 0 n))).
  { induction n as [|n IH]; intros Hn; [reflexivity|]. cbn [offset]. rewrite seq_app, (unload_app d s _ _ _ (IH ltac:(lia))).
    cbn [Nat.add]. rewrite (unload_type d s routes) by (try assumption; lia). rewrite seq_S, flat_map_app. cbn. rewrite app_nil_r. reflexivity. }
  apply G. lia.
Qed.

Lemma by_type_built d routes : Forall (built d) routes -> Forall (built d) (by_type d routes).
Proof.
  intros HB. apply Forall_forall. intros r Hr. apply (Permutation_in _ (by_type_perm d routes HB)) in Hr.
  rewrite Forall_forall in HB. auto.
Qed.

Lemma new_ready d : (forall t, t < p_numVehicleTypes d -> (1 <= v_maxTrips (p_vehicle d t))%Z) ->
  ready d (new_search d) (start_plan (fleet_vehicles d)) /\ length (start_plan (fleet_vehicles d)) = offset (avail d) (p_numVehicleTypes d).
Proof.
  intros H. assert (F : fine (fleet_vehicles d) (new_search d) (start_plan (fleet_vehicles d))).
  { apply new_fine. intros v Hv. unfold fleet_vehicles in Hv. apply in_map_iff in Hv as (t & <- & Ht).
    unfold fleet in Ht. apply in_flat_map in Ht as (t' & Ht' & Hr). apply repeat_spec in Hr. subst t'. apply in_seq in Ht'. apply H. lia. }
  split; [|unfold start_plan; rewrite map_length; unfold fleet_vehicles; rewrite map_length; apply fleet_len].
  constructor; [exact F|]. intros r Hr. rewrite (mid_of_acts _ r (ADepot (v_start (nth r (fleet_vehicles d) dummy_vehicle))) []
    (ADepot (v_end (nth r (fleet_vehicles d) dummy_vehicle)))).
  - unfold start_plan in Hr. rewrite map_length in Hr. unfold new_search, sroute_at, new_heap. cbn [hp_routes].
    erewrite nth_error_nth; [|rewrite new_routes_nth, (nth_error_nth' _ dummy_vehicle Hr); reflexivity]. reflexivity.
  - rewrite (fi_acts _ _ _ F r Hr). unfold start_plan in *. rewrite map_length in Hr. apply nth_error_nth.
    rewrite nth_error_map, (nth_error_nth' _ dummy_vehicle Hr). reflexivity.
Qed.

(** ** Loading and unloading *)
Theorem load_unload d s pl routes sol : groups_nodup d -> groups_known d ->
  ready d s pl -> length pl = offset (avail d) (p_numVehicleTypes d) ->
  Forall (built d) routes -> make_solution d routes = Ok sol ->
  exists s' sol', load d s (so_routes sol) = Some (s', false) /\ ready d s' (target d routes) /\
    unload d s' = Ok sol' /\ so_routes sol' = by_type d routes /\ Permutation (so_routes sol') (so_routes sol) /\
    solution_eqb sol' sol = true /\ forall ev, solution_penalised ev sol' = solution_penalised ev sol.
Proof.
  intros Hg Hk R Hpl HB Hs. destruct (sol_inv d routes HB Hg Hk sol Hs) as (Hc & cv & sv & Es & _).
  assert (Er : so_routes sol = routes) by (rewrite Es; reflexivity). rewrite Er.
  destruct (load_spec d s pl routes R Hpl HB Hc) as (s' & El & R').
  pose proof (by_type_perm d routes HB) as P. pose proof (by_type_built d routes HB) as HB'.
  destruct (make_solution_iff d (by_type d routes) HB' Hg Hk) as [[Hok _] _].
  destruct (Hok (perm_consistent _ _ _ (Permutation_sym P) Hc)) as [sol' Es'].
  destruct (sol_inv d (by_type d routes) HB' Hg Hk sol' Es') as (_ & cv' & sv' & Et & _).
  assert (Er' : so_routes sol' = by_type d routes) by (rewrite Et; reflexivity).
  exists s', sol'. split; [exact El|]. split; [exact R'|]. split; [unfold unload; rewrite (unload_routes_spec d s' routes R' HB Hc); exact Es'|].
  split; [exact Er'|]. rewrite Er'. split; [exact P|]. split.
  - apply (solution_eqb_spec d (by_type d routes) routes sol' sol Hg Hk HB' HB Es' Hs). apply Permutation_map. assumption.
  - intros ev. unfold solution_penalised. rewrite Er', Er. rewrite Et, Es. cbn [so_uncollected the_solution]. unfold sum_of.
    rewrite (zsum_perm _ _ (Permutation_map r_prizes P)), (zsum_perm _ _ (Permutation_map (route_penalised ev) P)). reflexivity.
Qed.

(** Any sequence of edits after which all statistics are recomputed gives such a state. *)
Definition update_all (n : nat) : list op := map OUpdate (seq 0 n).
Lemma update_all_ready d pl : forall m from s, fine (fleet_vehicles d) s pl -> from + m = length pl ->
  (forall r, r < from -> sr_synced (sroute_at s r) = mid_of s r) ->
  exists s', run_ops s (map OUpdate (seq from m)) = Some (s', false) /\ ready d s' pl.
Proof.
  induction m as [|m IH]; intros from s F E H; cbn [seq map run_ops run_op].
  - exists s. split; [reflexivity|]. constructor; [assumption|]. intros r Hr. apply H. lia.
  - pose proof F as [Hok _ Hl _ _].
    destruct (op_fine _ s pl (OUpdate from) F ltac:(cbn; lia)) as (s1 & E1 & F1). cbn in E1. injection E1 as <-. cbn [plan_op] in F1.
    destruct (update_spec s from Hok ltac:(lia)) as (_ & _ & _ & A & O & Sy). apply IH; [assumption|lia|].
    intros r Hr. assert (Em : mid_of (route_update s from) r = mid_of s r) by (apply mid_other, A). rewrite Em.
    destruct (Nat.eq_dec r from) as [->|Hne]; [assumption|]. rewrite O by assumption. apply H. lia.
Qed.
Theorem edits_ready d s pl os : ready d s pl -> ops_ok (fleet_vehicles d) pl os ->
  exists s', run_ops s (os ++ update_all (length pl)) = Some (s', false) /\ ready d s' (fold_left (plan_op (fleet_vehicles d)) os pl).
Proof.
  intros [F _] Ho. destruct (ops_fine _ os s pl F Ho) as (s1 & E1 & F1).
  assert (Hlen : forall os pl, length (fold_left (plan_op (fleet_vehicles d)) os pl) = length pl).
  { clear. induction os as [|o os IH]; intros pl; [reflexivity|]. cbn [fold_left]. rewrite IH.
    destruct o; cbn [plan_op]; rewrite ?upd_len, ?map_length; reflexivity. }
  destruct (update_all_ready d _ (length pl) 0 s1 F1) as (s2 & E2 & R2); [rewrite Hlen; reflexivity|lia|].
  exists s2. split; [|exact R2]. unfold update_all.
  assert (Hr : forall l s0 s0', run_ops s0 l = Some (s0', false) -> forall l', run_ops s0 (l ++ l') = run_ops s0' l').
  { clear. induction l as [|o l IH]; intros s0 s0' H l'; cbn [run_ops app] in *; [injection H as <-; reflexivity|].
    destruct (run_op s0 o) as [[s1 [|]]|]; try discriminate. apply IH. assumption. }
  rewrite (Hr _ _ _ E1). exact E2.
Qed.
