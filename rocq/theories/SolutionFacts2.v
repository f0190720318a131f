(** Planned and unplanned activities, feasibility and cost of solutions. *)
From Coq Require Import Permutation.
From Verif Require Import Base DurationSegment Beh Tws DurationFacts Data LoadSegment SearchRoute
  RouteDur Valid ProposalDur ProposalRest Route RouteSpec RouteFacts RouteFacts2 RouteFacts3
  Cost CostFacts DeltaFacts Solution SolutionFacts.

Lemma zsum_perm a b : Permutation a b -> zsum a = zsum b.
Proof. induction 1; cbn [zsum]; lia. Qed.

Lemma list_map_nth {A} (l : list A) dft : l = map (fun i => nth i l dft) (seq 0 (length l)).
Proof.
  induction l as [|x l IH]; [reflexivity|]. cbn [length seq map nth]. f_equal.
  rewrite <- seq_shift, map_map. exact IH.
Qed.

Definition rest_of (n : nat) (b : list bool) : list nat := filter (fun i => negb (bit b i)) (seq 0 n).

(** Members and non-members together are everything. *)
Lemma rest_perm n b ids : bits_are n b ids -> NoDup ids -> (forall i, In i ids -> (i < n)%nat) ->
  Permutation (seq 0 n) (ids ++ rest_of n b).
Proof.
  intros [H1 H2] Hn Hlt.
  assert (Hd : forall i, In i (rest_of n b) -> ~ In i ids).
  { intros i Hi Hc. unfold rest_of in Hi. apply filter_In in Hi. destruct Hi as [Hs Hb].
    apply in_seq in Hs. apply negb_true_iff in Hb. apply H2 in Hc; [congruence|lia]. }
  apply NoDup_Permutation.
  - apply seq_NoDup.
  - clear - Hn Hd. assert (Hr : NoDup (rest_of n b)) by (apply NoDup_filter, seq_NoDup).
    induction Hn as [|x l Hx Hl IH]; [exact Hr|]. cbn [app]. constructor.
    + intros Hin. apply in_app_or in Hin. destruct Hin as [Hin|Hin]; [auto|].
      apply (Hd x Hin). left. reflexivity.
    + apply IH. intros i Hi Hc. apply (Hd i Hi). right. exact Hc.
  - intros i. rewrite in_app_iff. unfold rest_of. rewrite filter_In, in_seq, negb_true_iff. split.
    + intros Hi. destruct (bit b i) eqn:E; [left; apply H2; [lia|exact E]|right; auto].
    + intros [Hi|[Hi _]]; [|exact Hi]. specialize (Hlt i Hi). lia.
Qed.

Lemma flat_map_rest n b (f : nat -> list activity) :
  flat_map (fun i => if bit b i then [] else f i) (seq 0 n) = flat_map f (rest_of n b).
Proof.
  unfold rest_of. induction (seq 0 n) as [|i l IH]; [reflexivity|].
  cbn [flat_map filter]. destruct (bit b i); cbn [negb flat_map]; [exact IH|]. rewrite IH. reflexivity.
Qed.

Definition unplanned_list (d : pdata) (cv sv : list bool) : list activity :=
  map AClient (rest_of (p_numClients d) cv)
  ++ flat_map (fun i => [APickup i; ADelivery i]) (rest_of (p_numShipments d) sv).
Lemma unplanned_eq d cv sv : unplanned_of d cv sv = unplanned_list d cv sv.
Proof.
  unfold unplanned_of, unplanned_list. rewrite !flat_map_rest. f_equal.
Qed.

Lemma in_plan routes a : In a (plan routes) <-> exists r, In r routes /\ In a (map sa_act (r_schedule r)).
Proof. unfold plan. apply in_flat_map. Qed.

Lemma plan_delivery d routes i : Forall (built d) routes ->
  (In (ADelivery i) (plan routes) <-> In (APickup i) (plan routes)).
Proof.
  intros HB. rewrite Forall_forall in HB. rewrite !in_plan.
  split; intros (r & Hr & Ha); exists r; (split; [exact Hr|]);
  destruct (built_fields d r (HB r Hr)) as (mid & vt & _ & _ & Hwf & _ & E); rewrite E in *;
  (destruct Ha as [Ha|Ha]; [discriminate|]); apply in_app_or in Ha;
  (destruct Ha as [Ha|[Ha|[]]]; [|discriminate]); right; apply in_or_app; left.
  - apply in_split in Ha. destruct Ha as (pre & post & E2).
    destruct (wf_delivery_after _ _ _ Hwf i pre post E2) as (p1 & p2 & -> & _).
    rewrite E2. apply in_or_app. left. apply in_or_app. right. left. reflexivity.
  - exact (wf_pickup_paired _ _ _ Hwf i Ha).
Qed.

Lemma prizes_split d acts : zsum (map (act_prize d) acts) =
  zsum (map (fun i => c_prize (p_client d i)) (client_ids acts))
  + zsum (map (fun i => s_prize (p_shipment d i)) (pickup_ids acts)).
Proof.
  induction acts as [|a acts IH]; [reflexivity|].
  destruct a; cbn [map zsum act_prize client_ids pickup_ids flat_map app] in *; unfold client_ids, pickup_ids in *; lia.
Qed.

Lemma plan_prizes d routes : Forall (built d) routes ->
  sum_of r_prizes routes = zsum (map (act_prize d) (plan routes)).
Proof.
  induction 1 as [|r routes Hr HR IH]; [reflexivity|].
  cbn [plan flat_map]. rewrite map_app, zsum_app. unfold sum_of in *. cbn [map zsum]. rewrite IH.
  f_equal. destruct (built_fields d r Hr) as (mid & vt & _ & Hm & _ & _ & E). rewrite E.
  apply route_fields in Hm. cbv zeta in Hm. rewrite Hm. reflexivity.
Qed.

Lemma filter_client_ids acts : length (filter a_isClient acts) = length (client_ids acts).
Proof. induction acts as [|a acts IH]; [reflexivity|]. destruct a; cbn in *; auto. Qed.
Lemma filter_pickup_ids acts : length (filter a_isPickup acts) = length (pickup_ids acts).
Proof. induction acts as [|a acts IH]; [reflexivity|]. destruct a; cbn in *; auto. Qed.

Lemma plan_counts d routes : Forall (built d) routes ->
  count_of r_numClients routes = length (client_ids (plan routes)) /\
  count_of r_numShipments routes = length (pickup_ids (plan routes)).
Proof.
  induction 1 as [|r routes Hr HR [IH1 IH2]]; [auto|].
  change (plan (r :: routes)) with (map sa_act (r_schedule r) ++ plan routes).
  rewrite client_ids_app, pickup_ids_app, !app_length.
  destruct (built_fields d r Hr) as (mid & vt & _ & Hm & _ & _ & E).
  destruct (route_counts d mid vt r Hm) as (_ & C1 & C2).
  assert (G1 : length (client_ids (map sa_act (r_schedule r))) = r_numClients r).
  { rewrite C1, E, <- filter_client_ids. cbn [filter a_isClient]. rewrite filter_app, app_length. cbn. lia. }
  assert (G2 : length (pickup_ids (map sa_act (r_schedule r))) = r_numShipments r).
  { rewrite C2, E, <- filter_pickup_ids. cbn [filter a_isPickup]. rewrite filter_app, app_length. cbn. lia. }
  cbn [count_of fold_right]. unfold count_of in *. lia.
Qed.

Section Sol.
Variable d : pdata.
Variable routes : list route.
Hypothesis HB : Forall (built d) routes.
Hypothesis Hg : groups_nodup d.
Hypothesis Hk : groups_known d.
Variable s : solution.
Hypothesis Hs : make_solution d routes = Ok s.

Lemma sol_inv : consistent d routes /\ exists cv sv, s = the_solution d routes cv sv /\
  bits_are (p_numClients d) cv (client_ids (plan routes)) /\
  bits_are (p_numShipments d) sv (pickup_ids (plan routes)).
Proof.
  destruct (make_solution_spec d routes HB Hg Hk) as [[H (cv & sv & E & H1 & H2)]|[_ E]];
  rewrite E in Hs; [|discriminate].
  split; [exact H|]. exists cv, sv. split; [|auto].
  apply (f_equal (fun x => match x with Ok r => r | Err _ => s end)) in Hs. symmetry. exact Hs.
Qed.

Lemma plan_ids_lt : (forall i, In i (client_ids (plan routes)) -> (i < p_numClients d)%nat) /\
                    (forall i, In i (pickup_ids (plan routes)) -> (i < p_numShipments d)%nat).
Proof.
  pose proof HB as HB'. rewrite Forall_forall in HB'.
  split; intros i Hi; [apply in_client_ids in Hi|apply in_pickup_ids in Hi];
  apply in_plan in Hi; destruct Hi as (r & Hr & Ha);
  destruct (built_ids d r (HB' r Hr)) as (B1 & B2 & _).
  - apply B1. apply in_client_ids. exact Ha.
  - apply B2. apply in_pickup_ids. exact Ha.
Qed.

(** Every activity is either on a route or unplanned, and listed once. *)
Theorem partition :
  so_routes s = routes /\
  (forall i, In (AClient i) (so_unplanned s) <-> (i < p_numClients d)%nat /\ ~ In (AClient i) (plan routes)) /\
  (forall i, In (APickup i) (so_unplanned s) <-> (i < p_numShipments d)%nat /\ ~ In (APickup i) (plan routes)) /\
  (forall i, In (ADelivery i) (so_unplanned s) <-> (i < p_numShipments d)%nat /\ ~ In (ADelivery i) (plan routes)) /\
  (forall i, ~ In (ADepot i) (so_unplanned s)) /\
  NoDup (so_unplanned s) /\
  NoDup (client_ids (plan routes)) /\ NoDup (pickup_ids (plan routes)) /\
  so_numClients s = length (client_ids (plan routes)) /\
  so_numShipments s = length (pickup_ids (plan routes)) /\
  so_prizes s = zsum (map (act_prize d) (plan routes)) /\
  so_uncollected s = zsum (map (act_prize d) (so_unplanned s)) /\
  so_prizes s + so_uncollected s = all_prizes d.
Proof.
  destruct sol_inv as [Hcon (cv & sv & E & Hc & Hsv)].
  destruct plan_ids_lt as [L1 L2].
  rewrite E. cbn [so_routes so_unplanned so_numClients so_numShipments so_prizes so_uncollected the_solution].
  rewrite unplanned_eq. unfold unplanned_list.
  split; [reflexivity|].
  assert (RC : forall i, In i (rest_of (p_numClients d) cv) <->
                 (i < p_numClients d)%nat /\ ~ In (AClient i) (plan routes)).
  { intros i. unfold rest_of. rewrite filter_In, in_seq, negb_true_iff, <- in_client_ids. split.
    - intros [H1 H2]. split; [lia|]. intros H3. apply (proj2 Hc i) in H3; [congruence|lia].
    - intros [H1 H2]. split; [lia|]. destruct (bit cv i) eqn:Eb; [|reflexivity].
      exfalso. apply H2. apply (proj2 Hc i H1). exact Eb. }
  assert (RS : forall i, In i (rest_of (p_numShipments d) sv) <->
                 (i < p_numShipments d)%nat /\ ~ In (APickup i) (plan routes)).
  { intros i. unfold rest_of. rewrite filter_In, in_seq, negb_true_iff, <- in_pickup_ids. split.
    - intros [H1 H2]. split; [lia|]. intros H3. apply (proj2 Hsv i) in H3; [congruence|lia].
    - intros [H1 H2]. split; [lia|]. destruct (bit sv i) eqn:Eb; [|reflexivity].
      exfalso. apply H2. apply (proj2 Hsv i H1). exact Eb. }
  assert (IP : forall a l, In a (flat_map (fun i => [APickup i; ADelivery i]) l) <->
                exists i, In i l /\ (a = APickup i \/ a = ADelivery i)).
  { intros a l. rewrite in_flat_map. split; intros (i & Hi & Ha); exists i; (split; [exact Hi|]); cbn in *; intuition. }
  split; [|split; [|split; [|split; [|split; [|split; [|split; [|split; [|split; [|split; [|split]]]]]]]]]].
  - intros i. rewrite in_app_iff, IP, in_map_iff, <- RC. split.
    + intros [(j & Ej & Hj)|(j & _ & [Ej|Ej])]; try discriminate. injection Ej as ->. exact Hj.
    + intros Hi. left. eauto.
  - intros i. rewrite in_app_iff, IP, in_map_iff, <- RS. split.
    + intros [(j & Ej & Hj)|(j & Hj & [Ej|Ej])]; try discriminate. injection Ej as ->. exact Hj.
    + intros Hi. right. eauto.
  - intros i. rewrite in_app_iff, IP, in_map_iff, (plan_delivery d routes i HB), <- RS. split.
    + intros [(j & Ej & Hj)|(j & Hj & [Ej|Ej])]; try discriminate. injection Ej as ->. exact Hj.
    + intros Hi. right. eauto.
  - intros i. rewrite in_app_iff, IP, in_map_iff. intros [(j & Ej & Hj)|(j & Hj & [Ej|Ej])]; discriminate.
  - assert (N2 : NoDup (flat_map (fun i => [APickup i; ADelivery i]) (rest_of (p_numShipments d) sv))).
    { assert (Hr : NoDup (rest_of (p_numShipments d) sv)) by apply NoDup_filter, seq_NoDup.
      clear - Hr IP. induction Hr as [|x l Hx Hl IH]; [constructor|]. cbn [flat_map app].
      constructor; [|constructor; [|exact IH]].
      - intros [H|H]; [discriminate|]. apply IP in H. destruct H as (i & Hi & [H|H]); [|discriminate].
        injection H as ->. auto.
      - intros H. apply IP in H. destruct H as (i & Hi & [H|H]); [discriminate|]. injection H as ->. auto. }
    assert (G : forall l1 : list nat, NoDup l1 ->
       NoDup (map AClient l1 ++ flat_map (fun i => [APickup i; ADelivery i]) (rest_of (p_numShipments d) sv))).
    { intros l1. induction 1 as [|y l1 Hy Hl1 IH1]; [exact N2|]. cbn [map app]. constructor; [|exact IH1].
      intros Hin. apply in_app_or in Hin. destruct Hin as [Hin|Hin].
      - apply in_map_iff in Hin. destruct Hin as (z & Ez & Hz). injection Ez as ->. auto.
      - apply IP in Hin. destruct Hin as (z & _ & [Ez|Ez]); discriminate. }
    apply G. apply NoDup_filter, seq_NoDup.
  - exact (cs_clients _ _ Hcon).
  - exact (cs_shipments _ _ Hcon).
  - apply (plan_counts d routes HB).
  - apply (plan_counts d routes HB).
  - apply plan_prizes. exact HB.
  - rewrite (plan_prizes d routes HB), prizes_split, map_app, zsum_app.
    assert (P1 : zsum (map c_prize (p_clients d)) =
      zsum (map (fun i => c_prize (p_client d i)) (client_ids (plan routes)))
      + zsum (map (act_prize d) (map AClient (rest_of (p_numClients d) cv)))).
    { rewrite (list_map_nth (p_clients d) dummy_client), map_map.
      fold (p_numClients d).
      rewrite (zsum_perm _ _ (Permutation_map _ (rest_perm _ _ _ Hc (cs_clients _ _ Hcon) L1))).
      rewrite map_app, zsum_app, map_map. reflexivity. }
    assert (P2 : zsum (map s_prize (p_shipments d)) =
      zsum (map (fun i => s_prize (p_shipment d i)) (pickup_ids (plan routes)))
      + zsum (map (act_prize d) (flat_map (fun i => [APickup i; ADelivery i]) (rest_of (p_numShipments d) sv)))).
    { rewrite (list_map_nth (p_shipments d) dummy_shipment), map_map.
      fold (p_numShipments d).
      rewrite (zsum_perm _ _ (Permutation_map _ (rest_perm _ _ _ Hsv (cs_shipments _ _ Hcon) L2))).
      rewrite map_app, zsum_app. f_equal. clear RS.
      induction (rest_of (p_numShipments d) sv) as [|i l IHl]; [reflexivity|].
      cbn [map zsum flat_map app act_prize] in *. rewrite IHl. unfold p_shipment. lia. }
    unfold all_prizes. lia.
  - lia.
Qed.
End Sol.
