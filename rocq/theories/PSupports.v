(** Property theorems C56: the operators that solve() leaves out. *)
From Coq Require Import ZArith Lia List.
From Verif Require Import Base DurationSegment Data LoadSegment SearchRoute RouteDur Valid Route RouteSpec Cost CostFacts DeltaFacts DataCtor Solution SolutionFacts
  SolutionFacts2 SolutionFacts3 Rng RngFloat Penalty Pm MakeRandom SearchSpace Neighbourhood SearchNodes SearchSeq SearchLoad Ops PlanFacts OpsBase OpsGen OpsAll
  LocalSearch LocalFacts Perturb LocalRun Fits Solve Supports SupportsRun Sample Sample2 POps.
Import ListNotations.
Local Open Scope nat_scope.

(** Where an operator does not support the instance, its evaluate() reports no applicable move: for
    every visit, on every state of the local search (a plan [p] with checked routes, in which what is
    required is planned).  The segment lengths of Relocate and Swap are positive ([op_ok]). *)
Theorem C56_unary : forall d ev, data_ok d -> forall p, plan_ok d p -> structured d p -> forall o u, supports d (OUnary o) = false ->
  known d u -> a_isDepot u = false -> exists delta m, eval_unary d ev o (sync d p) u = (delta, false, m).
Proof. intros d ev Dok p P _ o u H. apply (unary_idle d ev Dok p P o u). split; [exact H|discriminate]. Qed.
Print Assumptions C56_unary.

(** The exception is SwapTails without clients, see [C56_tails_refuted]. *)
Theorem C56_binary : forall d ev, data_ok d -> forall p, plan_ok d p -> structured d p -> forall o rc u v, supports d (OBinary o) = false -> op_ok o ->
  (o = BSwapTails -> 0 < p_numClients d \/ p_numVehicles d <= 1) -> known d u -> a_isDepot u = false -> vref_ok p v ->
  exists delta m rc', eval_binary d ev o (sync d p) rc u v = ((delta, false, m), rc').
Proof.
  intros d ev Dok p P Sp o rc u v H Ho T. apply (binary_idle d ev Dok p P Sp o rc u v); [|exact Ho]. split; [exact H|].
  intros E. injection E as ->. destruct (T eq_refl) as [C|C]; [|exact C]. cbn [supports] in H. apply Nat.ltb_lt in C. rewrite C, andb_true_r in H. apply Nat.ltb_ge, H.
Qed.
Print Assumptions C56_binary.

(** Hence leaving those operators out, as solve() does, gives the same solution (and the same marks
    for the next call) as adding all operators: for each number of rounds, operator order, starting
    solution, neighbourhood and number of perturbations. *)
Theorem C56_same_result : forall d h ev, setting d h ev -> groups_nodup d -> (forall v, In v (p_vehicles d) -> (0 <= v_maxReloads v)%Z) ->
  forall uops bops, Forall op_ok bops -> (In BSwapTails bops -> 0 < p_numClients d \/ p_numVehicles d <= 1) ->
  forall n sp routes sol num exhaustive, 1 <= n -> Forall (built d) routes -> make_solution d routes = Ok sol -> space_inv d sp -> space_ok d sp ->
  ls_call d ev (filter (fun o => supports d (OUnary o)) uops) (filter (fun o => supports d (OBinary o)) bops) n num exhaustive sp sol =
  ls_call d ev uops bops n num exhaustive sp sol.
Proof.
  intros d h ev St ND Re uops bops Ops T. apply (call_slim d h ev St ND Re uops bops Ops).
  - intros o _ H. split; [exact H|discriminate].
  - intros o Ho H. split; [exact H|]. intros E. injection E as ->. destruct (T Ho) as [C|C]; [|exact C].
    cbn [supports] in H. apply Nat.ltb_lt in C. rewrite C, andb_true_r in H. apply Nat.ltb_ge, H.
Qed.
Print Assumptions C56_same_result.

(** Three required shipments, no clients, two vehicles of each of two types, no reloads. *)
Definition wsample : pdata := mk_pdata (p_locations osample) [] (p_depots osample)
  [ mk_vehicle 2 0 0 [6; 4]%Z 0 100 MAXV 60 10 2 1 0 40 [1; 0]%Z [] 2 0 0 MAXV String.EmptyString;
    mk_vehicle 2 0 1 [8; 3]%Z 0 95 MAXV 80 4 1 0 1 95 [0; 0]%Z [] 0 0 0 MAXV String.EmptyString ]
  (p_dists osample) (p_durs osample) []
  [ mk_shipment (mk_step 6 0 50 1) (mk_step 7 5 80 2) [3; 1]%Z 6 true String.EmptyString;
    mk_shipment (mk_step 3 0 90 1) (mk_step 5 0 90 1) [1; 0]%Z 60 true String.EmptyString;
    mk_shipment (mk_step 6 0 90 1) (mk_step 7 0 90 1) [1; 0]%Z 90 true String.EmptyString ].
Lemma wsample_setting : setting wsample 20 oEv.
Proof.
  destruct osample_valid as [_ V2 V3 _].
  assert (V : valid_data wsample).
  { constructor; [constructor|exact V2| |]; cbn [wsample p_shipments p_vehicles].
    - repeat (constructor; [constructor; cbn; try lia; try (constructor; cbn; unfold MAXV; lia); repeat constructor; lia|]). constructor.
    - repeat (constructor; [constructor; cbn; unfold MAXV; try lia; try (intros [|[|dim]]; unfold dimv; cbn; try lia; destruct dim; cbn; lia); repeat constructor; lia|]).
      constructor. }
  assert (O : opens_by wsample 20) by (constructor; cbn; repeat constructor; cbn; lia).
  assert (W : windows_ok wsample) by (split; repeat constructor; cbn; lia).
  assert (M : make_pdata (p_locations wsample) (p_clients wsample) (p_depots wsample) (p_vehicles wsample) (p_dists wsample)
    (p_durs wsample) (p_groups wsample) (p_shipments wsample) = Ok wsample) by (vm_compute; reflexivity).
  assert (Mo : modest wsample 20 3 22 3).
  { destruct osample_modest_time as [_ Mdur Mdist _ Mdep _ _]. split.
    - constructor.
      + intros v [<-|[<-|[]]]; vm_compute; discriminate.
      + exact Mdur.
      + exact Mdist.
      + intros [i|i|i|i]; cbn [a_service].
        * apply Mdep.
        * unfold p_client. cbn. destruct i; cbn; lia.
        * unfold p_shipment. apply (Forall_nth_default (fun x => st_service (s_pickup x) <= 3)%Z); [repeat constructor; cbn; lia|cbn; lia].
        * unfold p_shipment. apply (Forall_nth_default (fun x => st_service (s_delivery x) <= 3)%Z); [repeat constructor; cbn; lia|cbn; lia].
      + exact Mdep.
      + intros v x i Hin Hv. unfold p_client, p_depot. apply Z.le_trans with 20%Z.
        * cbn. destruct i; cbn; lia.
        * apply (Forall_nth_default (fun c => 20 <= d_late c)%Z); [repeat constructor; cbn; lia|cbn; unfold MAXV; lia].
      + vm_compute. discriminate.
    - intros v [<-|[<-|[]]] H; vm_compute in H; try discriminate; reflexivity. }
  constructor; [exact V| |exact O|exact osample_durs| |exact oEv_ok|reflexivity].
  - apply (data_checks_spec wsample W). apply checked_ok in M. apply M.
  - apply (modest_fits wsample 20 3 22 3 V O osample_durs Mo).
Qed.
Definition wPlan : plan := [[APickup 0; ADelivery 0; APickup 1; ADelivery 1]; []; [APickup 2; ADelivery 2]; []].
Lemma wPlan_ok : plan_ok wsample wPlan /\ structured wsample wPlan.
Proof.
  split; [apply plan_checked; vm_compute; reflexivity|]. constructor.
  - intros i Hi. cbn in Hi. lia.
  - intros [|[|[|i]]] Hi _; vm_compute; try lia. cbn in Hi. lia.
  - intros g Hg. cbn in Hg. lia.
  - apply group_checked. vm_compute. reflexivity.
Qed.

(** SwapTails is not used for instances with only shipments ("a single client is needed"), but it can
    improve a solution of one: it reports an applicable move here. *)
Theorem C56_tails_refuted : exists d h ev p u v, setting d h ev /\ plan_ok d p /\ structured d p /\ known d u /\ vref_ok p v /\
  supports d (OBinary BSwapTails) = false /\ exists delta m rc, (delta < 0)%Z /\ eval_binary d ev BSwapTails (sync d p) rc_none u v = ((delta, true, m), rc).
Proof.
  exists wsample, 20%Z, oEv, wPlan, (ADelivery 0), (VAct (ADelivery 2)).
  split; [exact wsample_setting|]. split; [apply wPlan_ok|]. split; [apply wPlan_ok|]. split; [cbn; lia|]. split; [reflexivity|]. split; [reflexivity|].
  do 3 eexists. split; [|vm_compute; reflexivity]. vm_compute. reflexivity.
Qed.
Print Assumptions C56_tails_refuted.

(** For that instance only 5 of the 18 operators below are used.  The other hypotheses hold for a
    search with computed neighbourhoods and for the solution with the routes of [wPlan], which both
    calls improve in the same way. *)
Definition wPar : nparams := mk_nparams (b64_of_Z 2) 6 true.
Definition wSearcher : searcher :=
  match make_searcher wsample (rng_seed 42) (compute_neighbours wsample wPar) (mk_pparams 2 4) with Ok se => se | Err _ => mk_searcher (rng_seed 0) (mk_space [] [] [] []) [] [] (mk_pparams 0 0) 0 end.
Lemma wSearcher_usable : usable wsample wSearcher.
Proof.
  apply (computed_usable wsample (rng_seed 42) wPar (mk_pparams 2 4)); [|vm_compute; reflexivity|cbn; lia|vm_compute; reflexivity].
  constructor.
  - constructor.
  - cbn [wsample p_shipments]. repeat (constructor; [intros x [-> | ->]; cbn; lia|]). constructor.
  - cbn [wsample p_vehicles]. repeat (constructor; [cbn; lia|]). constructor.
  - intros profile a b. unfold p_dist, m_at. apply (Forall_nth_default (fun z => (Z.abs z <= 2 ^ 63)%Z)); [|lia].
    apply (Forall_nth_default (fun m => Forall (fun z => (Z.abs z <= 2 ^ 63)%Z) (m_data m))); [|constructor].
    repeat (constructor; [cbn; repeat (constructor; [lia|]); constructor|]). constructor.
  - intros profile a b. unfold p_dur, m_at. apply (Forall_nth_default (fun z => (Z.abs z <= 2 ^ 63)%Z)); [|lia].
    apply (Forall_nth_default (fun m => Forall (fun z => (Z.abs z <= 2 ^ 63)%Z) (m_data m))); [|constructor].
    repeat (constructor; [cbn; repeat (constructor; [lia|]); constructor|]). constructor.
Qed.
Definition wUnary : list unary := [URelocateDelivery; URelocatePickup; URemoveAdjacentDepot; URemoveOptionalClient; URemoveOptionalShipment; UReplaceGroup].
Definition wBinary : list binary :=
  [BRelocate 1; BRelocate 2; BSwap 1 1; BSwap 2 1; BSwap 2 2; BInsertOptionalClient; BInsertOptionalShipment; BRelocateAlternative;
   BRelocateShipment; BRelocateWithDepot; BReplaceOptionalClient; BReplaceOptionalShipment].
Definition wCost (r : ls_result) : option Z := match r with Returns sol _ => Some (solution_penalised oEv sol) | _ => None end.
Definition wCalls : option (Z * option Z * option Z) :=
  match unload_sol wsample (sync wsample wPlan) with
  | Ok sol => Some (solution_penalised oEv sol,
      wCost (ls_call wsample oEv (filter (fun o => supports wsample (OUnary o)) wUnary) (filter (fun o => supports wsample (OBinary o)) wBinary) 20 0 true (se_space wSearcher) sol),
      wCost (ls_call wsample oEv wUnary wBinary 20 0 true (se_space wSearcher) sol))
  | Err _ => None
  end.
Lemma wCalls_of sol : unload_sol wsample (sync wsample wPlan) = Ok sol -> wCalls = Some (solution_penalised oEv sol,
  wCost (ls_call wsample oEv (filter (fun o => supports wsample (OUnary o)) wUnary) (filter (fun o => supports wsample (OBinary o)) wBinary) 20 0 true (se_space wSearcher) sol),
  wCost (ls_call wsample oEv wUnary wBinary 20 0 true (se_space wSearcher) sol)).
Proof. intros U. unfold wCalls. rewrite U. reflexivity. Qed.
Example C56_case : setting wsample 20 oEv /\ groups_nodup wsample /\ (forall v, In v (p_vehicles wsample) -> (0 <= v_maxReloads v)%Z) /\
  plan_ok wsample wPlan /\ structured wsample wPlan /\ Forall op_ok wBinary /\ (In BSwapTails wBinary -> 0 < p_numClients wsample \/ p_numVehicles wsample <= 1) /\
  space_inv wsample (se_space wSearcher) /\ space_ok wsample (se_space wSearcher) /\
  filter (fun o => supports wsample (OUnary o)) wUnary = [URelocateDelivery; URelocatePickup] /\
  filter (fun o => supports wsample (OBinary o)) wBinary = [BRelocate 2; BSwap 2 2; BRelocateShipment] /\
  exists routes sol, Forall (built wsample) routes /\ make_solution wsample routes = Ok sol /\ solution_penalised oEv sol = 168%Z /\
    wCost (ls_call wsample oEv (filter (fun o => supports wsample (OUnary o)) wUnary) (filter (fun o => supports wsample (OBinary o)) wBinary) 20 0 true (se_space wSearcher) sol) = Some 60%Z /\
    wCost (ls_call wsample oEv wUnary wBinary 20 0 true (se_space wSearcher) sol) = Some 60%Z.
Proof.
  assert (R : forall v, In v (p_vehicles wsample) -> (0 <= v_maxReloads v)%Z) by (intros v [<-|[<-|[]]]; cbn; lia).
  assert (ND : groups_nodup wsample) by constructor.
  split; [exact wsample_setting|]. split; [exact ND|]. split; [exact R|]. split; [apply wPlan_ok|]. split; [apply wPlan_ok|].
  split; [repeat (constructor; [cbn; lia|]); constructor|]. split; [cbn; intuition discriminate|].
  split; [apply wSearcher_usable|]. split; [apply wSearcher_usable|]. split; [reflexivity|]. split; [reflexivity|].
  destruct (plan_solution wsample 20 oEv wsample_setting ND (fun v H => trips_one v (R v H)) wPlan (proj1 wPlan_ok) (sr_once _ _ (proj2 wPlan_ok))) as (routes & sol & _ & U & Es & B & _).
  exists routes, sol. split; [exact B|]. split; [exact Es|].
  assert (X : wCalls = Some (168, Some 60, Some 60)%Z) by (vm_compute; reflexivity). rewrite (wCalls_of sol U) in X.
  apply some_eq in X. apply pair_eq in X as [X X3]. apply pair_eq in X as [X1 X2]. split; [exact X1|]. split; [exact X2|exact X3].
Qed.
