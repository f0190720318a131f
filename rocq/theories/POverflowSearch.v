(** Property theorems C67: the figures the local search keeps and evaluates, in 64-bit arithmetic. *)
From Coq Require Import ZArith Lia List String.
From Verif Require Import Base DurationSegment Data DataCtor LoadSegment SearchRoute Route Solution Cost CostFacts DeltaFacts ProposalDur ProposalRest Valid Sample PSearch POverflow
  Overflow OverflowSeg OverflowRoute OverflowMore OverflowCost POverflowCost OverflowSearch OverflowSearchFacts.
Import ListNotations.
Local Open Scope Z_scope.

(** C67: updating a route of the search with up to [n] visits overflows nowhere: not in the distances, duration segments,
    load segments and loads kept for each position, nor in the figures of the whole route. *)
Theorem C67_route_figures : forall d B U v mid n, valid_data d -> sized d B U -> In v (p_vehicles d) ->
  Z.of_nat (List.length mid) <= n -> 192 * (n + 3) * B * (U + 1) <= 2 ^ 60 ->
  kupdate d v mid = Some (update d v mid).
Proof.
  intros d B U v mid n Hv Hs Hi Hn Hf. destruct (in_vehicle d v Hi) as (vt & Hvt & ->). exact (kupdate_ok d B U Hv Hs vt Hvt mid n Hn Hf).
Qed.
Print Assumptions C67_route_figures.

(** Evaluating a proposal overflows nowhere either, as long as it proposes a route of up to [n] visits and takes its
    pieces from such routes. *)
Theorem C67_proposal_figures : forall d B U v p n, valid_data d -> sized d B U -> In v (p_vehicles d) -> wf_prop d v p ->
  (forall o c, In o (pr_first p :: pr_rest p) -> seg_cache o = Some c -> Z.of_nat (ca_size c) <= n + 2) ->
  Z.of_nat (List.length (prop_items d p)) <= n + 2 -> 192 * (n + 3) * B * (U + 1) <= 2 ^ 60 ->
  kprop_distance d v p = Some (prop_distance d v p) /\ kprop_duration d v p = Some (prop_duration d v p) /\
  (forall dim, kprop_excessLoad d v dim p = Some (prop_excessLoad d v dim p)).
Proof.
  intros d B U v p n Hv Hs Hi W Hc Ht Hf. assert (Hn : 0 <= n).
  { destruct W as [mid e mids l He Hm Hl]. specialize (Hc _ _ (or_introl eq_refl) eq_refl). unfold ca_size in Hc. cbn [ca_items update] in Hc. rewrite route_items_len in Hc. lia. }
  exact (proposal_ok d B U Hv Hs n Hn Hf v p Hi W (conj Hc Ht)).
Qed.
Print Assumptions C67_proposal_figures.

(** So nothing overflows in the delta cost of a change to one route, or to two, from the pieces to the total. *)
Theorem C67_delta : forall d B U ev P vt old new p n O exact out, valid_data d -> sized d B U -> ev_within P ev ->
  (vt < p_numVehicleTypes d)%nat -> (exists r, make_route d old vt = Ok r) -> (exists r, make_route d new vt = Ok r) ->
  prop_cache d p = update d (p_vehicle d vt) old -> applicable d B ev (p_vehicle d vt) p new ->
  (forall o c, In o (pr_first p :: pr_rest p) -> seg_cache o = Some c -> Z.of_nat (ca_size c) <= n + 2) ->
  Z.of_nat (List.length new) <= n ->
  let figures := 8 * (n + 3) * B * (U + 1) in
  24 * figures <= 2 ^ 60 -> - O <= out <= O -> O + 2 * (figures * (3 + P * (Z.of_nat (List.length (ev_load ev)) + 2))) <= MAXV ->
  fdeltaCost exact ev d out p = Some (deltaCost exact ev d out p).
Proof.
  intros d B U ev P vt old new p n O exact out Hv Hs Hw H1 H2 H3 H4 H5 H6 H7 F H8 H9 H10.
  pose proof (f_equal ca_veh H4) as Ev. change (ca_veh (update d (p_vehicle d vt) old)) with (p_vehicle d vt) in Ev.
  assert (Hf : 192 * (n + 3) * B * (U + 1) <= 2 ^ 60) by (unfold F in H8; lia).
  assert (Ho : Z.of_nat (List.length old) <= n).
  { pose proof (ap_wf _ _ _ _ _ _ H5) as W. destruct W as [mid e mids l He Hm Hl]. specialize (H6 _ _ (or_introl eq_refl) eq_refl).
    change (prop_cache d _) with (update d (p_vehicle d vt) mid) in H4. rewrite H4 in H6. unfold ca_size in H6. cbn [ca_items update] in H6. rewrite route_items_len in H6. lia. }
  rewrite fdelta_eq.
  - apply (C55_delta d B U ev P vt old new p n O exact out); try assumption. fold F. assert (0 <= F) by (apply (figures_pos d B U Hs n); lia). lia.
  - rewrite Ev. apply (C67_proposal_figures d B U _ p n Hv Hs (ap_veh _ _ _ _ _ _ H5) (ap_wf _ _ _ _ _ _ H5) H6); [|exact Hf].
    rewrite (ap_items _ _ _ _ _ _ H5), route_items_len. lia.
Qed.
Print Assumptions C67_delta.

Theorem C67_delta_two_routes : forall d B U ev P vu oldu newu u vv oldv newv v n O exact out, valid_data d -> sized d B U -> ev_within P ev ->
  (vu < p_numVehicleTypes d)%nat -> (exists r, make_route d oldu vu = Ok r) -> (exists r, make_route d newu vu = Ok r) ->
  prop_cache d u = update d (p_vehicle d vu) oldu -> applicable d B ev (p_vehicle d vu) u newu ->
  (vv < p_numVehicleTypes d)%nat -> (exists r, make_route d oldv vv = Ok r) -> (exists r, make_route d newv vv = Ok r) ->
  prop_cache d v = update d (p_vehicle d vv) oldv -> applicable d B ev (p_vehicle d vv) v newv ->
  (forall o c, In o (pr_first u :: pr_rest u ++ pr_first v :: pr_rest v) -> seg_cache o = Some c -> Z.of_nat (ca_size c) <= n + 2) ->
  Z.of_nat (List.length newu) <= n -> Z.of_nat (List.length newv) <= n ->
  let figures := 8 * (n + 3) * B * (U + 1) in
  24 * figures <= 2 ^ 60 -> - O <= out <= O -> O + 4 * (figures * (3 + P * (Z.of_nat (List.length (ev_load ev)) + 2))) <= MAXV ->
  fdeltaCost2 exact ev d out u v = Some (deltaCost2 exact ev d out u v).
Proof.
  intros d B U ev P vu oldu newu u vv oldv newv v n O exact out Hv Hs Hw H1 H2 H3 H4 H5 I1 I2 I3 I4 I5 H6 H7 I7 F H8 H9 H10.
  assert (Hf : 192 * (n + 3) * B * (U + 1) <= 2 ^ 60) by (unfold F in H8; lia).
  assert (Su : forall o c, In o (pr_first u :: pr_rest u) -> seg_cache o = Some c -> Z.of_nat (ca_size c) <= n + 2).
  { intros o c Ho. apply (H6 o c). destruct Ho as [Ho|Ho]; [left; exact Ho|right; apply in_or_app; left; exact Ho]. }
  assert (Sv : forall o c, In o (pr_first v :: pr_rest v) -> seg_cache o = Some c -> Z.of_nat (ca_size c) <= n + 2).
  { intros o c Ho. apply (H6 o c). right. apply in_or_app. right. exact Ho. }
  assert (G : forall vt old new p, prop_cache d p = update d (p_vehicle d vt) old -> applicable d B ev (p_vehicle d vt) p new ->
    (forall o c, In o (pr_first p :: pr_rest p) -> seg_cache o = Some c -> Z.of_nat (ca_size c) <= n + 2) -> Z.of_nat (List.length new) <= n ->
    Z.of_nat (List.length old) <= n /\ checked d (ca_veh (prop_cache d p)) p).
  { intros vt old new p E A S L. split.
    - pose proof (ap_wf _ _ _ _ _ _ A) as W. destruct W as [mid e mids l He Hm Hl]. specialize (S _ _ (or_introl eq_refl) eq_refl).
      change (prop_cache d _) with (update d (p_vehicle d vt) mid) in E. rewrite E in S. unfold ca_size in S. cbn [ca_items update] in S. rewrite route_items_len in S. lia.
    - rewrite E. change (ca_veh (update d (p_vehicle d vt) old)) with (p_vehicle d vt).
      apply (C67_proposal_figures d B U _ p n Hv Hs (ap_veh _ _ _ _ _ _ A) (ap_wf _ _ _ _ _ _ A) S); [|exact Hf]. rewrite (ap_items _ _ _ _ _ _ A), route_items_len. lia. }
  destruct (G _ _ _ _ H4 H5 Su H7) as [Lu Cu]. destruct (G _ _ _ _ I4 I5 Sv I7) as [Lv Cv]. rewrite fdelta2_eq by assumption.
  apply (C55_delta_two_routes d B U ev P vu oldu newu u vv oldv newv v n O exact out); try assumption. fold F. assert (0 <= F) by (apply (figures_pos d B U Hs n); lia). lia.
Qed.
Print Assumptions C67_delta_two_routes.

(** Without bounds it can happen: data that its constructor accepts, and a route whose update overflows. *)
Theorem C67_unbounded_refuted : exists d mid, valid_data d /\
  make_pdata (p_locations d) (p_clients d) (p_depots d) (p_vehicles d) (p_dists d) (p_durs d) (p_groups d) (p_shipments d) = Ok d /\
  (exists r, make_route d mid 0 = Ok r) /\ kupdate d (p_vehicle d 0) mid = None.
Proof.
  exists late_data, [AClient 0]. split; [|split; [|split]]; [|vm_compute; reflexivity|eexists; vm_compute; reflexivity|vm_compute; reflexivity].
  constructor; cbn [late_data p_clients p_depots p_shipments p_vehicles]; repeat constructor; cbn; try (unfold MAXV; lia).
Qed.
Print Assumptions C67_unbounded_refuted.

(** The sample: the route of six visits in two trips, and the change of [C16_case]. *)
Example C67_case : valid_data sample /\ sized sample 30 10 /\ In (p_vehicle sample 0) (p_vehicles sample) /\
  192 * (10 + 3) * 30 * (10 + 1) <= 2 ^ 60 /\ Z.of_nat (List.length sMid) <= 10 /\
  (exists c, kupdate sample (p_vehicle sample 0) sMid = Some c /\ ca_duration c = 53) /\
  wf_prop sample (p_vehicle sample 0) ex_p /\
  (forall o c, In o (pr_first ex_p :: pr_rest ex_p) -> seg_cache o = Some c -> Z.of_nat (ca_size c) <= 10 + 2) /\
  Z.of_nat (List.length (prop_items sample ex_p)) <= 10 + 2 /\
  applicable sample 30 ex_ev (p_vehicle sample 0) ex_p ex_mid' /\
  fdeltaCost true ex_ev sample 0 ex_p = Some (deltaCost true ex_ev sample 0 ex_p) /\ fst (deltaCost true ex_ev sample 0 ex_p) <> 0.
Proof.
  pose proof C55_cost_case as (A1 & A2 & _ & _ & _ & _ & A3 & _). split; [exact A1|]. split; [exact A2|]. split; [left; reflexivity|]. split; [lia|]. split; [vm_compute; discriminate|].
  split; [eexists; split; vm_compute; reflexivity|]. split; [apply (ap_wf _ _ _ _ _ _ A3)|].
  split. { assert (E : forall a b : cache, Some a = Some b -> a = b) by congruence. intros o c Ho Hc. cbn [ex_p pr_first pr_rest In] in Ho. repeat destruct Ho as [<- |Ho]; try (cbn [seg_cache] in Hc; apply E in Hc; rewrite <- Hc; vm_compute; discriminate); try discriminate. destruct Ho. }
  split; [vm_compute; discriminate|]. split; [exact A3|]. split; vm_compute; [reflexivity|discriminate].
Qed.
