(** An instance for the search: two depots, six clients (two of them in a required group, two
    optional), three shipments (two optional), two vehicle types, one with a reload depot. *)
From Verif Require Import Base DurationSegment Data LoadSegment SearchRoute RouteDur Valid Route RouteSpec RouteFacts3 Cost CostFacts DeltaFacts
  DataCtor Sample SearchSpace SearchNodes SearchSeq SearchLoad Ops PlanFacts OpsBase Fits.
Import String.

Definition oClient := sClient.
Definition osample : pdata := mk_pdata
  [sLoc 0 0; sLoc 4 0; sLoc 1 2; sLoc 3 5; sLoc 6 1; sLoc 2 7; sLoc 5 4; sLoc 0 6]
  [ oClient 2 2 5 30 [3; 1] [1; 0] 0 0 true None;
    oClient 3 1 0 60 [2; 0] [0; 2] 20 7 false (Some 0%nat);
    oClient 4 3 10 40 [4; 2] [0; 0] 0 5 false (Some 0%nat);
    oClient 5 2 0 MAXV [1; 1] [5; 0] 3 9 false None;
    oClient 7 1 0 90 [1; 0] [0; 0] 0 100 false None;
    oClient 6 1 0 90 [1; 0] [0; 0] 0 0 true None ]
  [ mk_depot 0 0 100 1 EmptyString; mk_depot 1 0 90 2 EmptyString ]
  [ mk_vehicle 2 0 0 [6; 4] 0 100 MAXV 60 10 2 1 0 40 [1; 0] [1%nat] 2 0 0 MAXV EmptyString;
    mk_vehicle 2 0 1 [8; 3] 0 95 MAXV 80 4 1 0 1 95 [0; 0] [] 0 0 0 MAXV EmptyString ]
  [sMat1; sMat2] [sMat1; sMat2]
  [ mk_cgroup [1%nat; 2%nat] true EmptyString ]
  [ mk_shipment (mk_step 6 0 50 1) (mk_step 7 5 80 2) [3; 1] 6 true EmptyString;
    mk_shipment (mk_step 3 0 90 1) (mk_step 5 0 90 1) [1; 0] 60 false EmptyString;
    mk_shipment (mk_step 6 0 90 1) (mk_step 7 0 90 1) [1; 0] 90 false EmptyString ].
Definition oEv : evaluator := mk_evaluator [Z.mul 5; Z.mul 6] (Z.mul 7) (Z.mul 8).

Lemma osample_valid : valid_data osample.
Proof.
  constructor; cbn [osample p_clients p_depots p_shipments p_vehicles].
  - repeat (constructor; [constructor; cbn; unfold MAXV; try lia; repeat constructor; lia|]). constructor.
  - repeat (constructor; [constructor; cbn; unfold MAXV; try lia|]). constructor.
  - repeat (constructor; [constructor; cbn; try lia; try (constructor; cbn; unfold MAXV; lia); repeat constructor; lia|]).
    constructor.
  - repeat (constructor; [constructor; cbn; unfold MAXV; try lia;
      try (intros [|[|dim]]; unfold dimv; cbn; try lia; destruct dim; cbn; lia); repeat constructor; lia|]).
    constructor.
Qed.
Lemma osample_opens : opens_by osample 20.
Proof. constructor; cbn; repeat constructor; cbn; lia. Qed.
Lemma osample_durs : nonneg_durs osample.
Proof. exact sample_durs. Qed.
Lemma osample_data : data_ok osample.
Proof.
  assert (W : windows_ok osample) by (split; repeat constructor; cbn; lia).
  assert (M : make_pdata (p_locations osample) (p_clients osample) (p_depots osample) (p_vehicles osample) (p_dists osample)
    (p_durs osample) (p_groups osample) (p_shipments osample) = Ok osample) by (vm_compute; reflexivity).
  apply (data_checks_spec osample W). apply checked_ok in M. apply M.
Qed.
Lemma mat_le m z : 0 <= z -> Forall (fun x => x <= z) (m_data m) -> forall a b, m_at m a b <= z.
Proof. intros Hz H a b. unfold m_at. apply (Forall_nth_default (fun x => x <= z)); assumption. Qed.
Lemma osample_modest_time : modest_time osample 20 3 22 3.
Proof.
  constructor.
  - intros v [<-|[<-|[]]]; vm_compute; discriminate.
  - intros k a b. unfold p_dur. apply mat_le; [lia|]. destruct k as [|[|[|k]]]; cbn; repeat constructor; lia.
  - intros k a b. unfold p_dist. apply mat_le; [lia|]. destruct k as [|[|[|k]]]; cbn; repeat constructor; lia.
  - intros [i|i|i|i]; cbn [a_service].
    + unfold p_depot. apply (Forall_nth_default (fun x => d_service x <= 3)); [repeat constructor; cbn; lia|cbn; lia].
    + unfold p_client. apply (Forall_nth_default (fun x => c_service x <= 3)); [repeat constructor; cbn; lia|cbn; lia].
    + unfold p_shipment. apply (Forall_nth_default (fun x => st_service (s_pickup x) <= 3)); [repeat constructor; cbn; lia|cbn; lia].
    + unfold p_shipment. apply (Forall_nth_default (fun x => st_service (s_delivery x) <= 3)); [repeat constructor; cbn; lia|cbn; lia].
  - intros i. unfold p_depot. apply (Forall_nth_default (fun x => d_service x <= 3)); [repeat constructor; cbn; lia|cbn; lia].
  - intros v x i Hin Hv. unfold p_client, p_depot. apply Z.le_trans with 20.
    + apply (Forall_nth_default (fun c => c_release c <= 20)); [repeat constructor; cbn; lia|cbn; lia].
    + apply (Forall_nth_default (fun c => 20 <= d_late c)); [repeat constructor; cbn; lia|cbn; unfold MAXV; lia].
  - vm_compute. discriminate.
Qed.
Lemma osample_modest : modest osample 20 3 22 3.
Proof. split; [exact osample_modest_time|]. intros v [<-|[<-|[]]] H; vm_compute in H; try discriminate; reflexivity. Qed.
Lemma oEv_ok : ev_ok oEv.
Proof. constructor; [repeat constructor| |]; cbn [oEv ev_load ev_tw ev_dist]; try (split; [reflexivity|intros; lia]); intros; lia. Qed.
Lemma osample_setting : setting osample 20 oEv.
Proof.
  constructor; [apply osample_valid|apply osample_data|apply osample_opens|apply osample_durs| |apply oEv_ok|reflexivity].
  apply (modest_fits osample 20 3 22 3 osample_valid osample_opens osample_durs osample_modest).
Qed.

(** Deciding whether a plan is a plan. *)
Definition plan_check (d : pdata) (p : plan) : bool :=
  (List.length p =? List.length (fleet_vehicles d))%nat
  && forallb (fun r => match validate d (mid_at p r) (nth r (fleet d) 0%nat) with Ok _ => true | Err _ => false end) (seq 0 (List.length p))
  && forallb (fun a => a_isDepot a || (cnt (List.concat p) a <=? 1)%nat) (List.concat p).
Lemma plan_checked d p : plan_check d p = true -> plan_ok d p.
Proof.
  unfold plan_check. intros H. apply andb_true_iff in H as [H H3]. apply andb_true_iff in H as [H1 H2]. apply Nat.eqb_eq in H1. constructor.
  - exact H1.
  - intros r Hr. rewrite forallb_forall in H2. specialize (H2 r ltac:(apply in_seq; lia)).
    destruct (validate d (mid_at p r) (nth r (fleet d) 0%nat)) as [[]|] eqn:E; [|discriminate]. apply validate_spec in E.
    replace (rveh d r) with (p_vehicle d (nth r (fleet d) 0%nat)); [exact E|]. unfold rveh, fleet_vehicles.
    rewrite (nth_indep _ dummy_vehicle (p_vehicle d 0)); [rewrite map_nth; reflexivity|]. unfold fleet_vehicles in H1. lia.
  - intros a Ha. unfold tot. destruct (cnt_notIn (List.concat p) a) as [C _].
    destruct (Nat.eq_dec (cnt (List.concat p) a) 0) as [->|N]; [lia|].
    assert (Hin : In a (List.concat p)) by (apply cnt_In; lia). rewrite forallb_forall in H3. specialize (H3 a Hin). rewrite Ha in H3. cbn in H3. apply Nat.leb_le, H3.
Qed.
