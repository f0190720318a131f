(** Splitting routes at nodes, and plans with one or two routes changed. *)
From Verif Require Import Base DurationSegment Data LoadSegment SearchRoute RouteDur Valid ProposalDur ProposalRest Route RouteSpec
  RouteFacts2 RouteFacts3 Cost CostFacts DeltaFacts SearchFacts DataCtor SearchSpace SearchNodes SearchSeq SearchLoad Ops PlanFacts ShipState OpsBase.
Local Open Scope nat_scope.

Definition vref_ok (p : plan) (v : vref) : Prop :=
  match v with VAct a => a_isDepot a = false | VStart r => r < length p end.
(** [C] is the part of route [r] up to and including [v]. *)
Definition ends (v : vref) (r : nat) (C : list activity) : Prop :=
  match v with VAct a => exists C', C = C' ++ [a] | VStart r' => r' = r /\ C = [] end.

Lemma locate_split p v rv pv : vref_ok p v -> locate p v = Some (rv, pv) ->
  exists C D, mid_at p rv = C ++ D /\ pv = length C /\ ends v rv C /\ rv < length p.
Proof.
  destruct v as [a|r]; cbn [vref_ok locate ends]; intros Hv H.
  - destruct (find_act_spec _ _ _ _ H) as (A & B & Hm & Hp & Hr). exists (A ++ [a]), B. rewrite <- app_assoc, app_length. cbn.
    repeat split; eauto.
  - injection H as <- <-. exists [], (mid_at p r). auto.
Qed.
Lemma locate_at p v r C D n : r < length p -> mid_at p r = C ++ D -> ends v r C ->
  (forall a, v = VAct a -> tot p a <= 1) -> n = length C -> locate p v = Some (r, n).
Proof.
  intros Hr Hm He Ht ->. destruct v as [a|r']; cbn [ends locate] in *.
  - destruct He as (C' & ->). rewrite <- app_assoc in Hm. cbn [app] in Hm. apply (find_act_at a p r C' D); auto. rewrite app_length. reflexivity.
  - destruct He as [-> ->]. reflexivity.
Qed.

Lemma app_split {A} (l1 l2 l3 l4 : list A) : l1 ++ l2 = l3 ++ l4 -> length l1 <= length l3 ->
  exists m, l3 = l1 ++ m /\ l2 = m ++ l4.
Proof.
  revert l3; induction l1 as [|x l1 IH]; intros l3 H Hl; [exists l3; auto|].
  destruct l3 as [|y l3]; [cbn in Hl; lia|]. cbn [app] in H. injection H as -> H. cbn [length] in Hl.
  destruct (IH l3 H ltac:(lia)) as (m & -> & ->). exists m. auto.
Qed.
Lemma split_at {A} (l : list A) n : n <= length l -> exists X Y, l = X ++ Y /\ length X = n.
Proof. intros H. exists (firstn n l), (skipn n l). rewrite firstn_skipn, firstn_length. split; [reflexivity|lia]. Qed.
Lemma last_split {A} (l : list A) : l <> [] -> exists X x, l = X ++ [x].
Proof. intros H. destruct (exists_last H) as (X & x & ->). eauto. Qed.

Lemma ships_counts l : ships_ok l -> npick l = ndeliv l.
Proof.
  intros H. set (k := S (fold_right (fun a m => Nat.max (a_idx a) m) 0 l)).
  assert (Hk : forall j, In (APickup j) l -> j < k).
  { intros j Hj. assert (j <= fold_right (fun a m => Nat.max (a_idx a) m) 0 l); [|unfold k; lia].
    clear - Hj. induction l as [|a l IH]; [destruct Hj|]. cbn [fold_right]. destruct Hj as [->|Hj]; [cbn [a_idx]; lia|]. specialize (IH Hj). lia. }
  rewrite (counters k l (ships_runs l H) Hk). assert (E : onb k l = 0); [|lia].
  clear Hk. induction k as [|k IH]; [reflexivity|]. cbn [onb]. rewrite IH, (H k). reflexivity.
Qed.
Lemma length_counts l : length l = ncli l + npick l + ndeliv l + num_reloads l.
Proof.
  induction l as [|a l IH]; [reflexivity|]. rewrite ncli_cons, npick_cons, ndeliv_cons, num_reloads_cons. cbn [length]. rewrite IH.
  destruct a; cbn; lia.
Qed.
Lemma has_visit_in l a : In a l -> a_isDepot a = false -> ships_ok l -> has_visit l = true.
Proof.
  intros Hin Ha Hs. destruct (has_visit l) eqn:E; [reflexivity|exfalso]. apply has_visit_counts in E as [E1 E2].
  pose proof (ships_counts l Hs) as E3. pose proof (length_counts l) as E4.
  assert (X : 1 <= ncli l + npick l + ndeliv l).
  { clear - Hin Ha. induction l as [|b l IH]; [destruct Hin|]. rewrite ncli_cons, npick_cons, ndeliv_cons.
    destruct Hin as [->|Hin]; [destruct a; try discriminate; cbn; lia|]. specialize (IH Hin). lia. }
  lia.
Qed.
Lemma has_visit_cons l1 a l2 : a_isDepot a = false -> ships_ok (l1 ++ a :: l2) -> has_visit (l1 ++ a :: l2) = true.
Proof. intros Ha. apply (has_visit_in _ a); [apply in_elt|exact Ha]. Qed.

Section Plans.
Variable d : pdata.

Definition trips_fit (v : vehicle) (m : list activity) : Prop := (Z.of_nat (num_reloads m + 1) <= v_maxTrips v)%Z.
Lemma wf_known' p r : plan_ok d p -> Forall (known d) (mid_at p r).
Proof.
  intros H. destruct (Nat.lt_ge_cases r (length p)) as [Hr|Hr].
  - apply Forall_forall. apply (pk_wf d p H r Hr).
  - unfold mid_at. rewrite nth_overflow by exact Hr. constructor.
Qed.
Lemma wf_trips' p r : plan_ok d p -> r < length p -> trips_fit (rveh d r) (mid_at p r).
Proof. intros H Hr. apply (pk_wf d p H r Hr). Qed.
Lemma pk_veh p r : plan_ok d p -> r < length p -> In (rveh d r) (p_vehicles d).
Proof. intros H Hr. apply fleet_in. rewrite <- (pk_len d p H). exact Hr. Qed.

(** One route changed. *)
Lemma one_route p r m : plan_ok d p -> r < length p -> Forall (known d) m -> ships_ok m -> trips_fit (rveh d r) m ->
  (forall a, a_isDepot a = false -> tot p a + cnt m a <= 1 + cnt (mid_at p r) a) ->
  plan_ok d (upd p r m) /\ fine_mid d (rveh d r) m.
Proof.
  intros H Hr Hk Hs Ht Hc.
  assert (Hone : forall a, a_isDepot a = false -> tot (upd p r m) a <= 1).
  { intros a Ha. pose proof (tot_upd p r m a Hr). specialize (Hc a Ha). lia. }
  assert (Hm : forall a, a_isDepot a = false -> cnt m a <= 1).
  { intros a Ha. pose proof (cnt_le_tot (upd p r m) r a) as L. rewrite mid_at_same in L by exact Hr. specialize (Hone a Ha). lia. }
  assert (Hw : well_formed d (rveh d r) m) by (apply ships_wf; auto; apply Forall_forall; exact Hk).
  split; [|constructor; assumption]. constructor.
  - rewrite upd_length. apply H.
  - intros r' Hr'. rewrite upd_length in Hr'. rewrite mid_at_upd by exact Hr.
    destruct (Nat.eqb_spec r r') as [<-|]; [exact Hw|]. apply (pk_wf d p H r' Hr').
  - exact Hone.
Qed.
(** Two routes changed. *)
Lemma two_routes p ru rv mu mv : plan_ok d p -> ru < length p -> rv < length p -> ru <> rv ->
  Forall (known d) mu -> Forall (known d) mv -> ships_ok mu -> ships_ok mv -> trips_fit (rveh d ru) mu -> trips_fit (rveh d rv) mv ->
  (forall a, a_isDepot a = false -> tot p a + cnt mu a + cnt mv a <= 1 + cnt (mid_at p ru) a + cnt (mid_at p rv) a) ->
  plan_ok d (upd (upd p ru mu) rv mv) /\ fine_mid d (rveh d ru) mu /\ fine_mid d (rveh d rv) mv.
Proof.
  intros H Hru Hrv Hne Hku Hkv Hsu Hsv Htu Htv Hc.
  set (q := upd (upd p ru mu) rv mv).
  assert (Hone : forall a, a_isDepot a = false -> tot q a <= 1).
  { intros a Ha. pose proof (tot_upd p ru mu a Hru) as E1.
    pose proof (tot_upd (upd p ru mu) rv mv a ltac:(rewrite upd_length; exact Hrv)) as E2.
    rewrite mid_at_other in E2 by exact Hne. specialize (Hc a Ha). unfold q. lia. }
  assert (Mv : mid_at q rv = mv) by (apply mid_at_same; rewrite upd_length; exact Hrv).
  assert (Mu : mid_at q ru = mu) by (unfold q; rewrite mid_at_other by congruence; apply mid_at_same; exact Hru).
  assert (Hmu : forall a, a_isDepot a = false -> cnt mu a <= 1).
  { intros a Ha. pose proof (cnt_le_tot q ru a) as L. rewrite Mu in L. specialize (Hone a Ha). lia. }
  assert (Hmv : forall a, a_isDepot a = false -> cnt mv a <= 1).
  { intros a Ha. pose proof (cnt_le_tot q rv a) as L. rewrite Mv in L. specialize (Hone a Ha). lia. }
  assert (Hwu : well_formed d (rveh d ru) mu) by (apply ships_wf; auto; apply Forall_forall; exact Hku).
  assert (Hwv : well_formed d (rveh d rv) mv) by (apply ships_wf; auto; apply Forall_forall; exact Hkv).
  split; [|split; constructor; assumption]. constructor.
  - unfold q. rewrite !upd_length. apply H.
  - intros r Hr. unfold q in Hr. rewrite !upd_length in Hr.
    destruct (Nat.eq_dec r rv) as [->|]; [rewrite Mv; exact Hwv|]. destruct (Nat.eq_dec r ru) as [->|]; [rewrite Mu; exact Hwu|].
    unfold q. rewrite !mid_at_other by congruence. apply (pk_wf d p H r Hr).
  - exact Hone.
Qed.

Variable ev : evaluator.
Lemma unit_visit a : unit_act d a -> a_isDepot a = false.
Proof. destruct a; [intros []| | |]; reflexivity. Qed.
Lemma unc_same p q : (forall a, a_isDepot a = false -> tot q a = tot p a) -> uncollected d q = uncollected d p.
Proof.
  intros H. rewrite !uncollected_unc. apply unc_ext. intros a Ha. rewrite !isPlanned_tot, H; [reflexivity|apply unit_visit; exact Ha].
Qed.
Lemma unc_insert p q x : unit_act d x -> tot p x = 0 -> 1 <= tot q x ->
  (forall a, unit_act d a -> a <> x -> tot q a = tot p a) -> uncollected d q = (uncollected d p - prize_of d x)%Z.
Proof.
  intros Hx H0 H1 He. rewrite !uncollected_unc.
  set (g := fun a => if a_eqb a x then true else isPlanned p a).
  rewrite (unc_ext d (isPlanned q) g).
  - apply unc_add; auto; unfold g.
    + rewrite isPlanned_tot, H0. reflexivity.
    + rewrite eqb_refl. reflexivity.
    + intros b Hb. rewrite eqb_false by exact Hb. reflexivity.
  - intros a Ha. unfold g. destruct (a_eqb a x) eqn:E.
    + apply a_eqb_eq in E. subst a. rewrite isPlanned_tot. apply Nat.leb_le. exact H1.
    + rewrite !isPlanned_tot, He; auto. intros ->. rewrite eqb_refl in E. discriminate.
Qed.
Lemma unc_remove p q x : unit_act d x -> tot q x = 0 -> 1 <= tot p x ->
  (forall a, unit_act d a -> a <> x -> tot q a = tot p a) -> uncollected d q = (uncollected d p + prize_of d x)%Z.
Proof.
  intros Hx H0 H1 He. pose proof (unc_insert q p x Hx H0 H1 ltac:(intros; symmetry; auto)). lia.
Qed.
Lemma unc_replace p q x y : unit_act d x -> unit_act d y -> x <> y -> 1 <= tot p x -> tot p y = 0 -> tot q x = 0 -> 1 <= tot q y ->
  (forall a, unit_act d a -> a <> x -> a <> y -> tot q a = tot p a) ->
  uncollected d q = (uncollected d p + prize_of d x - prize_of d y)%Z.
Proof.
  intros Hx Hy Hne P1 P2 Q1 Q2 He. rewrite !uncollected_unc.
  set (g := fun a => if a_eqb a y then true else if a_eqb a x then false else isPlanned p a).
  rewrite (unc_ext d (isPlanned q) g).
  - apply unc_swap; auto; unfold g.
    + rewrite isPlanned_tot. apply Nat.leb_le. exact P1.
    + rewrite isPlanned_tot, P2. reflexivity.
    + rewrite eqb_false, eqb_refl by exact Hne. reflexivity.
    + rewrite eqb_refl. reflexivity.
    + intros c C1 C2. rewrite !eqb_false by assumption. reflexivity.
  - intros a Ha. unfold g. destruct (a_eqb a y) eqn:E.
    + apply a_eqb_eq in E. subst a. rewrite isPlanned_tot. apply Nat.leb_le. exact Q2.
    + destruct (a_eqb a x) eqn:E'.
      * apply a_eqb_eq in E'. subst a. rewrite isPlanned_tot, Q1. reflexivity.
      * rewrite !isPlanned_tot, He; auto; intros ->; rewrite eqb_refl in *; discriminate.
Qed.

Lemma cost_one p r m : r < length p ->
  (plan_cost d ev (upd p r m) = plan_cost d ev p + (uncollected d (upd p r m) - uncollected d p)
     - rcost d ev (rveh d r) (mid_at p r) + rcost d ev (rveh d r) m)%Z.
Proof. intros H. rewrite !plan_cost_eq, routes_upd by exact H. lia. Qed.
Lemma cost_two p ru rv mu mv : ru < length p -> rv < length p -> ru <> rv ->
  (plan_cost d ev (upd (upd p ru mu) rv mv) = plan_cost d ev p + (uncollected d (upd (upd p ru mu) rv mv) - uncollected d p)
     - rcost d ev (rveh d ru) (mid_at p ru) - rcost d ev (rveh d rv) (mid_at p rv)
     + rcost d ev (rveh d ru) mu + rcost d ev (rveh d rv) mv)%Z.
Proof.
  intros H H' Hne. rewrite !plan_cost_eq, routes_upd by (rewrite upd_length; exact H'). rewrite routes_upd by exact H.
  rewrite mid_at_other by exact Hne. lia.
Qed.
Lemma cost_one_move p r m : r < length p -> (forall a, a_isDepot a = false -> cnt m a = cnt (mid_at p r) a) ->
  (plan_cost d ev (upd p r m) = plan_cost d ev p - rcost d ev (rveh d r) (mid_at p r) + rcost d ev (rveh d r) m)%Z.
Proof.
  intros H He. rewrite cost_one, (unc_same p (upd p r m)) by
    (try exact H; intros a Ha; pose proof (tot_upd p r m a H); specialize (He a Ha); lia). lia.
Qed.
Lemma tot_two_upd p ru rv mu mv a : ru < length p -> rv < length p -> ru <> rv ->
  tot (upd (upd p ru mu) rv mv) a + cnt (mid_at p ru) a + cnt (mid_at p rv) a = tot p a + cnt mu a + cnt mv a.
Proof.
  intros H H' Hne. pose proof (tot_upd p ru mu a H) as E1.
  pose proof (tot_upd (upd p ru mu) rv mv a ltac:(rewrite upd_length; exact H')) as E2. rewrite mid_at_other in E2 by exact Hne. lia.
Qed.
Lemma cost_two_move p ru rv mu mv : ru < length p -> rv < length p -> ru <> rv ->
  (forall a, a_isDepot a = false -> cnt mu a + cnt mv a = cnt (mid_at p ru) a + cnt (mid_at p rv) a) ->
  (plan_cost d ev (upd (upd p ru mu) rv mv) = plan_cost d ev p
     - rcost d ev (rveh d ru) (mid_at p ru) - rcost d ev (rveh d rv) (mid_at p rv)
     + rcost d ev (rveh d ru) mu + rcost d ev (rveh d rv) mv)%Z.
Proof.
  intros H H' Hne He. rewrite cost_two, (unc_same p (upd (upd p ru mu) rv mv)); auto; [lia|].
  intros a Ha. pose proof (tot_two_upd p ru rv mu mv a H H' Hne). specialize (He a Ha). lia.
Qed.
End Plans.

(** Counting in lists that are put together. *)
Global Hint Rewrite cnt_app cnt_cons cnt_nil : cnts.
Lemma num_reloads_nil : num_reloads [] = 0.
Proof. reflexivity. Qed.
Global Hint Rewrite num_reloads_app num_reloads_cons num_reloads_nil : rels.
Ltac counts := autorewrite with cnts in *; try lia.
Ltac reloads := unfold trips_fit in *; autorewrite with rels in *; try lia.
Ltac lens := repeat first [rewrite app_length in * | progress cbn [length] in *]; try lia.
Ltac assoc := repeat first [rewrite <- app_assoc | progress cbn [app]].
Ltac knowns := rewrite ?Forall_app, ?Forall_cons_iff in *; tauto.

Ltac side Hm := first [assumption | match goal with |- In (rveh ?d ?r) _ => match goal with H : r < length ?p |- _ => apply (pk_veh d p r); assumption end end | solve [rewrite Hm; assoc; reflexivity] | solve [reloads] | solve [lens]].

(** ** Segments chosen by Relocate and Swap *)
Section Segs.
Variable d : pdata.
Variable p : plan.
Hypothesis P : plan_ok d p.

Lemma seg_of u ru pu n : a_isDepot u = false -> 0 < n -> find_act u p = Some (ru, pu) ->
  hasDepot (sync d p) ru pu n = false -> splitsShipment (sync d p) u ru pu n = false ->
  exists A S B, mid_at p ru = A ++ (u :: S) ++ B /\ ru < length p /\ pu = length A + 1 /\ n = length S + 1
    /\ num_reloads (u :: S) = 0 /\ num_reloads S = 0 /\ ships_ok (u :: S) /\ ships_ok A.
Proof.
  intros Hu Hn Hf Hd Hs. destruct (find_act_spec _ _ _ _ Hf) as (A & R & Hm & Hp & Hr).
  unfold hasDepot in Hd. cbn [sp_mids sync] in Hd. rewrite Hm in Hd. apply orb_false_iff in Hd as [Hd Hd3]. apply orb_false_iff in Hd as [_ Hd2].
  apply Nat.leb_gt in Hd2. unfold rsize in Hd2. rewrite app_length in Hd2. cbn [length] in Hd2.
  destruct (split_at R (n - 1) ltac:(lia)) as (S & B & -> & HS). exists A, S, B.
  apply negb_false_iff, Nat.eqb_eq in Hd3. unfold trip_of in Hd3.
  assert (F1 : firstn pu (A ++ u :: S ++ B) = A ++ [u]).
  { replace (A ++ u :: S ++ B) with ((A ++ [u]) ++ S ++ B) by (rewrite <- app_assoc; reflexivity).
    apply firstn_len_app. rewrite app_length. cbn. lia. }
  assert (F2 : firstn (pu + n - 1) (A ++ u :: S ++ B) = A ++ u :: S).
  { replace (A ++ u :: S ++ B) with ((A ++ u :: S) ++ B) by (rewrite <- app_assoc; reflexivity).
    apply firstn_len_app. rewrite app_length. cbn. lia. }
  rewrite F1, F2, !num_reloads_app, !num_reloads_cons in Hd3. unfold num_reloads at 2 in Hd3. cbn [filter length] in Hd3.
  unfold splitsShipment in Hs. apply orb_false_iff in Hs as [Hs Hs3]. apply orb_false_iff in Hs as [Hs1 Hs2].
  apply negb_false_iff, Nat.eqb_eq in Hs2, Hs3.
  assert (Hlen : length (mid_at p ru) = length A + 1 + length S + length B) by (rewrite Hm, app_length; cbn [length]; rewrite app_length; lia).
  rewrite nPickups_at, nDeliveries_at, Hm in Hs2, Hs3 by (try exact Hr; lia). rewrite F1 in Hs2. rewrite F2 in Hs3.
  rewrite npick_app, ndeliv_app, npick_cons, ndeliv_cons, Hs1 in Hs2. cbn [npick ndeliv filter length] in Hs2.
  pose proof (plan_ships d p ru P) as Hsh. rewrite Hm in Hsh.
  assert (SA : ships_ok A).
  { apply counters_closed; [apply (runs_prefix A (u :: S ++ B)); apply ships_runs; exact Hsh|]. cbn in Hs2. lia. }
  assert (SAS : ships_ok (A ++ u :: S)).
  { apply counters_closed; [|exact Hs3]. apply (runs_prefix _ B). rewrite <- app_assoc. apply ships_runs; exact Hsh. }
  assert (Hrs : num_reloads S = 0) by lia.
  repeat split; auto; try lia.
  - rewrite num_reloads_cons, Hu. lia.
  - intros i. apply (ships_suffix A (u :: S)); assumption.
Qed.

(** A prefix with equal counters has nothing on board. *)
Lemma closed_at r C D : r < length p -> mid_at p r = C ++ D ->
  nPickups (sync d p) r (length C) = nDeliveries (sync d p) r (length C) -> ships_ok C.
Proof.
  intros Hr Hm H. rewrite nPickups_at, nDeliveries_at, Hm in H by (try exact Hr; rewrite Hm, app_length; lia).
  rewrite firstn_len_app in H by reflexivity. apply counters_closed; [|exact H].
  apply (runs_prefix C D). rewrite <- Hm. apply ships_runs. apply (plan_ships d). exact P.
Qed.
Lemma trip_at C D : trip_of (C ++ D) (length C) = num_reloads C.
Proof. unfold trip_of. rewrite firstn_len_app; reflexivity. Qed.
End Segs.
