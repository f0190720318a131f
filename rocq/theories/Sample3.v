(** An instance where the local search stops short of an improving insertion: a depot, four clients (the first is optional) and
    three vehicles. *)
From Verif Require Import Base DurationSegment Data LoadSegment SearchRoute RouteDur Valid Route RouteSpec RouteFacts3 Cost CostFacts DeltaFacts
  DataCtor Sample Sample2 Solution SolutionFacts Rng SearchSpace SearchNodes SearchSeq SearchLoad Ops PlanFacts OpsBase OpsAll LocalSearch LocalFacts Perturb LocalRun Fits.
Import String.

Definition mMat : matrix := mk_matrix 5 5 [ 0; 10; 10; 20; 20;
   10;  0;  5; 10; 11;
   10;  5;  0; 15; 16;
   20; 10; 15;  0;  1;
   20; 11; 16;  1;  0].
Definition mClient (loc : nat) (prize : Z) (req : bool) : client := sClient loc 0 0 200 [0] [0] 0 prize req None.
Definition msample : pdata := mk_pdata
  [sLoc 0 0; sLoc 10 0; sLoc 8 5; sLoc 20 0; sLoc 20 1]
  [ mClient 1 12 false; mClient 2 0 true; mClient 3 0 true; mClient 4 0 true ]
  [ mk_depot 0 0 200 0 EmptyString ]
  [ mk_vehicle 3 0 0 [9] 0 200 MAXV MAXV 0 1 0 0 200 [0] [] 0 0 0 MAXV EmptyString ]
  [mMat] [mMat] [] [].
Definition mEv : evaluator := mk_evaluator [Z.mul 5] (Z.mul 7) (Z.mul 8).

Lemma msample_valid : valid_data msample.
Proof.
  constructor; cbn [msample p_clients p_depots p_shipments p_vehicles].
  - repeat (constructor; [constructor; cbn; unfold MAXV; try lia; repeat constructor; lia|]). constructor.
  - repeat (constructor; [constructor; cbn; unfold MAXV; try lia|]). constructor.
  - constructor.
  - repeat (constructor; [constructor; cbn; unfold MAXV; try lia;
      try (intros [|dim]; unfold dimv; cbn; try lia; destruct dim; cbn; lia); repeat constructor; lia|]).
    constructor.
Qed.
Lemma msample_opens : opens_by msample 0.
Proof. constructor; cbn; repeat constructor; cbn; lia. Qed.
Lemma msample_durs : nonneg_durs msample.
Proof. intros k a b. unfold p_dur. apply mat_nonneg. destruct k as [|[|k]]; cbn; repeat constructor; lia. Qed.
Lemma msample_data : data_ok msample.
Proof.
  assert (W : windows_ok msample) by (split; repeat constructor; cbn; lia).
  assert (M : make_pdata (p_locations msample) (p_clients msample) (p_depots msample) (p_vehicles msample) (p_dists msample)
    (p_durs msample) (p_groups msample) (p_shipments msample) = Ok msample) by (vm_compute; reflexivity).
  apply (data_checks_spec msample W). apply checked_ok in M. apply M.
Qed.
Lemma msample_modest : modest msample 0 1 20 0.
Proof.
  split; [|intros v [<-|[]] H; vm_compute in H; discriminate]. constructor.
  - intros v [<-|[]]; vm_compute; discriminate.
  - intros k a b. unfold p_dur. apply mat_le; [lia|]. destruct k as [|[|k]]; cbn; repeat constructor; lia.
  - intros k a b. unfold p_dist. apply mat_le; [lia|]. destruct k as [|[|k]]; cbn; repeat constructor; lia.
  - intros [i|i|i|i]; cbn [a_service].
    + unfold p_depot. apply (Forall_nth_default (fun x => d_service x <= 0)); [repeat constructor; cbn; lia|cbn; lia].
    + unfold p_client. apply (Forall_nth_default (fun x => c_service x <= 0)); [repeat constructor; cbn; lia|cbn; lia].
    + unfold p_shipment. apply (Forall_nth_default (fun x => st_service (s_pickup x) <= 0)); [repeat constructor; cbn; lia|cbn; lia].
    + unfold p_shipment. apply (Forall_nth_default (fun x => st_service (s_delivery x) <= 0)); [repeat constructor; cbn; lia|cbn; lia].
  - intros i. unfold p_depot. apply (Forall_nth_default (fun x => d_service x <= 0)); [repeat constructor; cbn; lia|cbn; lia].
  - intros v x i [<-|[]] H; vm_compute in H; discriminate.
  - vm_compute. discriminate.
Qed.
Lemma mEv_ok : ev_ok mEv.
Proof. constructor; [repeat constructor| |]; cbn [mEv ev_load ev_tw ev_dist]; try (split; [reflexivity|intros; lia]); intros; lia. Qed.
Lemma msample_setting : setting msample 0 mEv.
Proof.
  constructor; [apply msample_valid|apply msample_data|apply msample_opens|apply msample_durs| |apply mEv_ok|reflexivity].
  apply (modest_fits msample 0 1 20 0 msample_valid msample_opens msample_durs msample_modest).
Qed.
Lemma msample_groups : groups_nodup msample.
Proof. constructor. Qed.
Lemma msample_reloads v : In v (p_vehicles msample) -> (0 <= v_maxReloads v)%Z.
Proof. intros [<-|[]]; cbn; lia. Qed.

(** The first client is near the second, the third near the fourth. *)
Definition mNb : neighbours := [(AClient 0, [AClient 1]); (AClient 1, []); (AClient 2, [AClient 3]); (AClient 3, [])].
Definition mSearcher0 (seed : Z) : searcher :=
  match make_searcher msample (rng_seed seed) mNb (Perturb.mk_pparams 0 0) with Ok se => se | Err _ => mk_searcher (rng_seed 0) (mk_space [] [] [] []) [] [] (Perturb.mk_pparams 0 0) 0 end.
Definition mSearcher (seed : Z) : searcher := fold_left add_binary [BRelocate 1; BInsertOptionalClient] (add_unary (mSearcher0 seed) URemoveOptionalClient).
Definition mPlan : plan := [[AClient 0; AClient 2]; [AClient 1]; [AClient 3]].
Lemma mSearcher_usable seed : usable msample (mSearcher seed).
Proof.
  assert (U : usable msample (mSearcher0 seed)).
  { unfold mSearcher0, make_searcher. destruct (make_space msample mNb) as [sp|] eqn:E; [|vm_compute in E; discriminate].
    destruct (make_space_ok msample _ sp E) as (S1 & S2 & _).
    constructor; cbn [se_space se_binary se_params se_num]; [|exact S1|constructor|cbn; lia|cbn; lia].
    constructor; [exact (so_order _ _ S1)|exact (so_veh _ _ S1)|]. intros a Ha. unfold neighbours_of. rewrite S2. cbn in Ha.
    destruct Ha as [<-|[<-|[<-|[<-|[]]]]]; cbn; (eexists; split; [reflexivity|]); (split; [intros H; cbn in H; intuition discriminate|]);
      intros b Hb; cbn in Hb; try destruct Hb as [<-|[]]; try destruct Hb; (split; [reflexivity|cbn; unfold p_numClients; cbn; lia]). }
  unfold mSearcher. cbn [fold_left].
  repeat (match goal with
    | |- usable _ (add_unary ?s ?u) => apply (operators_usable msample s u (BRelocate 1)); [|cbn; lia]
    | |- usable _ (add_binary ?s ?b) => apply (operators_usable msample s UReplaceGroup b); [|cbn; lia] end). exact U.
Qed.
