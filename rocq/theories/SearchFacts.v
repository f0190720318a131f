(** Corollaries about the caches of a search route. *)
From Verif Require Import Base DurationSegment Beh Tws DurationFacts Data LoadSegment SearchRoute
  RouteDur Valid ProposalDur ProposalRest Route RouteSpec RouteFacts RouteFacts2 RouteFacts3
  Cost CostFacts DeltaFacts.

Lemma inner_no_reload l : (forall x, In x l -> it_reload x = false) -> inner l.
Proof.
  induction l as [|x [|y l] IH]; intros H; [exact I|exact I|].
  split; [apply H; left; reflexivity|]. apply IH. intros z Hz. apply H. right. exact Hz.
Qed.

Lemma cut_items d v mid e : (e < length mid + 1)%nat ->
  prop_items d (mk_proposal (SBefore (update d v mid) e) [SAfter (update d v mid) (e + 1)]) = route_items d v mid.
Proof.
  intros He. unfold prop_items. cbn [pr_first pr_rest map concat seg_items]. rewrite app_nil_r.
  cbn [ca_items update]. apply firstn_skipn.
Qed.

Lemma reload_items d v mid x : (forall a, In a mid -> a_isDepot a = false) ->
  In x (route_items d v mid) -> it_reload x = false.
Proof.
  intros H. unfold route_items. intros [<-|Hx]; [reflexivity|].
  apply in_app_iff in Hx. destruct Hx as [Hx|[<-|[]]]; [|reflexivity].
  apply in_map_iff in Hx. destruct Hx as (a & <- & Ha). rewrite it_reload_act. auto.
Qed.

Theorem cut_agrees d h : valid_data d -> opens_by d h -> nonneg_durs d ->
  forall v, In v (p_vehicles d) -> forall mid e, (e < length mid + 1)%nat ->
  let c := update d v mid in
  let p := mk_proposal (SBefore c e) [SAfter c (e + 1)] in
  prop_distance d v p = (ca_distanceCost c, ca_excessDistance c) /\
  (forall dim, (dim < p_numLoadDimensions d)%nat -> prop_excessLoad d v dim p = nth dim (ca_excessLoad c) 0) /\
  (reload_releases_ok d mid -> time_fits d h v mid ->
   fst (prop_duration d v p) = ca_durationCost c /\
   ((forall a, In a mid -> a_isDepot a = false) \/ ca_duration c <= v_maxDuration v \/ ca_timeWarp c = 0 ->
    snd (prop_duration d v p) = ca_timeWarp c)).
Proof.
  intros Hv Ho Hn v Hin mid e He. cbv zeta. set (p := mk_proposal _ _).
  assert (Hw : wf_prop d v p).
  { apply (wf_prop_intro d v mid e []); [lia|constructor|]. apply wf_after. lia. }
  pose proof (cut_items d v mid e He) as Hi. fold p in Hi.
  split; [apply prop_distance_exact; assumption|]. split; [intros; apply prop_excessLoad_exact; assumption|].
  intros Hr Ht. destruct (prop_duration_exact d h Hv Ho Hn v Hin p mid Hw Hi Hr Ht) as [P1 P2].
  split; [exact P1|]. intros H. apply P2. destruct H as [H|H]; [left|right; exact H].
  - apply inner_no_reload. intros x Hx. apply (reload_items d v mid x H).
    cbn [p pr_first seg_items] in Hx. unfold p in Hx. cbn [pr_first seg_items ca_items update] in Hx.
    assert (In x (firstn (e + 1) (route_items d v mid))).
    { destruct (firstn (e + 1) (route_items d v mid)); [destruct Hx|right; exact Hx]. }
    rewrite <- (firstn_skipn (e + 1)). apply in_or_app. left. assumption.
Qed.
