(** Property theorems C20 and C21: the search operators. *)
From Coq Require Import ZArith Lia List.
From Verif Require Import Base DurationSegment Data LoadSegment SearchRoute Valid Route RouteSpec RouteFacts2 Cost CostFacts DataCtor
  SearchSpace SearchNodes SearchSeq SearchLoad Ops PlanFacts OpsBase OpsGen OpsRelocate OpsSwap OpsOne OpsEdit OpsEdit2 OpsAll Fits Sample Sample2.
Import ListNotations.
Local Open Scope nat_scope.

(** C20.  When an operator evaluates a move as one to apply, applying it changes the plan as
    [unary_effect] and [binary_effect] (OpsAll.v) write out: the routes concerned are given before
    and after the move, as lists.  The result is a plan again (no visit twice, shipments picked up
    before they are delivered in the same trip, no more trips than allowed), and routes other than
    those of the nodes given to the operator are unchanged. *)
Theorem C20_unary : forall d h ev, setting d h ev -> forall o p u delta m,
  plan_ok d p -> known d u -> a_isDepot u = false -> eval_unary d ev o (sync d p) u = (delta, true, m) ->
  let p' := apply_unary o m p u in
  unary_effect d o p u p' /\ plan_ok d p' /\
  (1 <= tot p u -> touched p p' (homes p u)) /\ (tot p u = 0 -> touched p p' (homes p' u)).
Proof.
  intros d h ev St o p u delta m P K Hu H. destruct (unary_ok d h ev St o p u delta m P K Hu H) as (E & [P' _] & _).
  destruct (unary_touched d o p u _ P P' Hu E) as [T1 T2]. split; [exact E|]. split; [exact P'|]. split; [exact T1|]. intros Z. apply T2, Z.
Qed.
Print Assumptions C20_unary.

Theorem C20_binary : forall d h ev, setting d h ev -> forall o p rc u v delta m rc' rv pv,
  plan_ok d p -> op_ok o -> known d u -> a_isDepot u = false -> vref_ok p v -> v <> VAct u -> group_once d p -> rc_ok d ev o p rc ->
  locate p v = Some (rv, pv) -> eval_binary d ev o (sync d p) rc u v = ((delta, true, m), rc') ->
  let p' := apply_binary o m p u v in
  binary_effect d o p u v p' /\ plan_ok d p' /\ touched p p' (homes p u ++ [rv]).
Proof.
  intros d h ev St o p rc u v delta m rc' rv pv P Ho K Hu Hv Hne G Hrc L H.
  destruct (binary_ok d h ev St o p rc u v delta m rc' P Ho K Hu Hv Hne G Hrc H) as (E & [P' _] & _).
  split; [exact E|]. split; [exact P'|]. apply (binary_touched d o p u v _ rv pv); assumption.
Qed.
Print Assumptions C20_binary.

(** Required clients and shipments stay planned, required groups keep a member, and of a group at
    most one member is planned. *)
Theorem C20_unary_structure : forall d h ev, setting d h ev -> forall o p u delta m,
  plan_ok d p -> known d u -> a_isDepot u = false -> structured d p ->
  eval_unary d ev o (sync d p) u = (delta, true, m) -> structured d (apply_unary o m p u).
Proof.
  intros d h ev St o p u delta m P K Hu Sp H. destruct (unary_ok d h ev St o p u delta m P K Hu H) as (E & [P' _] & _).
  apply (unary_structured d h ev St o p u _ P P' K E Sp).
Qed.
Print Assumptions C20_unary_structure.

Theorem C20_binary_structure : forall d h ev, setting d h ev -> forall o p rc u v delta m rc',
  plan_ok d p -> op_ok o -> known d u -> a_isDepot u = false -> vref_ok p v -> v <> VAct u -> structured d p -> rc_ok d ev o p rc ->
  eval_binary d ev o (sync d p) rc u v = ((delta, true, m), rc') -> structured d (apply_binary o m p u v).
Proof.
  intros d h ev St o p rc u v delta m rc' P Ho K Hu Hv Hne Sp Hrc H.
  destruct (binary_ok d h ev St o p rc u v delta m rc' P Ho K Hu Hv Hne (sr_once d p Sp) Hrc H) as (E & [P' _] & _).
  apply (binary_structured d h ev St o p u v _ P P' K E Sp).
Qed.
Print Assumptions C20_binary_structure.

(** C21.  The cost of the search solution changes by exactly the evaluated delta, and the delta is
    negative (RemoveAdjacentDepot also applies moves with delta zero).  The cost of the plan
    (Ops.v) is that of the routes after update(), plus uncollected prizes. *)
Theorem C21_unary : forall d h ev, setting d h ev -> forall o p u delta m,
  plan_ok d p -> known d u -> a_isDepot u = false -> eval_unary d ev o (sync d p) u = (delta, true, m) ->
  state_cost ev d (sync d (apply_unary o m p u)) = (state_cost ev d (sync d p) + delta)%Z /\
  ((delta < 0)%Z \/ (delta = 0%Z /\ o = URemoveAdjacentDepot)).
Proof.
  intros d h ev St o p u delta m P K Hu H. destruct (unary_ok d h ev St o p u delta m P K Hu H) as (_ & [_ C] & D). split; [exact C|exact D].
Qed.
Print Assumptions C21_unary.

Theorem C21_binary : forall d h ev, setting d h ev -> forall o p rc u v delta m rc',
  plan_ok d p -> op_ok o -> known d u -> a_isDepot u = false -> vref_ok p v -> v <> VAct u -> group_once d p -> rc_ok d ev o p rc ->
  eval_binary d ev o (sync d p) rc u v = ((delta, true, m), rc') ->
  state_cost ev d (sync d (apply_binary o m p u v)) = (state_cost ev d (sync d p) + delta)%Z /\ (delta < 0)%Z.
Proof.
  intros d h ev St o p rc u v delta m rc' P Ho K Hu Hv Hne G Hrc H.
  destruct (binary_ok d h ev St o p rc u v delta m rc' P Ho K Hu Hv Hne G Hrc H) as (_ & [_ C] & D). split; [exact C|exact D].
Qed.
Print Assumptions C21_binary.

(** The remove costs an operator remembers between evaluations ([rc_ok]: they are what a fresh
    evaluation would give) start out right, stay right when something is evaluated, and stay right
    when the plan changes and the operator is told the routes that changed. *)
Theorem C21_remembered_start : forall d ev o p, rc_ok d ev o p rc_none.
Proof.
  intros d ev o p. split; [reflexivity|]. destruct o; try exact I; intros u z H; discriminate H.
Qed.
Print Assumptions C21_remembered_start.
Theorem C21_remembered_evaluate : forall d ev o p rc u v res rc', plan_ok d p -> a_isDepot u = false -> rc_ok d ev o p rc ->
  eval_binary d ev o (sync d p) rc u v = (res, rc') -> rc_ok d ev o p rc'.
Proof. exact eval_keeps_costs. Qed.
Print Assumptions C21_remembered_evaluate.
Theorem C21_remembered_update : forall d ev o p p' rs rc, plan_ok d p -> plan_ok d p' -> touched p p' rs -> rc_ok d ev o p rc ->
  rc_ok d ev o p' (rc_forget_all p' rs rc).
Proof. exact forget_ok. Qed.
Print Assumptions C21_remembered_update.

(** A multi-trip route that exceeds its maximum duration and has time warp breaks the property:
    the operator sees an improvement and applies a move that makes the solution worse. *)
Definition oTight : pdata := mk_pdata (p_locations osample) (p_clients osample) (p_depots osample)
  [ mk_vehicle 2 0 0 [6; 4]%Z 0 100 20 60 10 2 1 0 40 [1; 0]%Z [1] 2 0 0 20 String.EmptyString; p_vehicle osample 1 ]
  (p_dists osample) (p_durs osample) (p_groups osample) (p_shipments osample).
Definition oTightPlan : plan := [[AClient 1; ADepot 1; AClient 0; APickup 1; AClient 3; ADelivery 1]; [AClient 5]; []; []].
Theorem C21_max_duration_refuted : exists d h ev o p u delta m,
  valid_data d /\ data_ok d /\ opens_by d h /\ nonneg_durs d /\ ev_ok ev /\ length (ev_load ev) = p_numLoadDimensions d /\
  (forall v mid, In v (p_vehicles d) -> well_formed d v mid -> (forall a, a_isDepot a = false -> cnt mid a <= 1) ->
     reload_releases_ok d mid /\ time_fits d h v mid /\ (route_dist d v mid <= MAXV)%Z) /\
  plan_ok d p /\ known d u /\ a_isDepot u = false /\ eval_unary d ev o (sync d p) u = (delta, true, m) /\
  (state_cost ev d (sync d p) < state_cost ev d (sync d (apply_unary o m p u)))%Z.
Proof.
  exists oTight, 20%Z, oEv, URelocatePickup, oTightPlan, (APickup 1), (-51)%Z, (MNode (ADelivery 1)).
  assert (V : valid_data oTight).
  { destruct osample_valid as [V1 V2 V3 V4]. constructor; [exact V1|exact V2|exact V3|].
    constructor; [|constructor; [|constructor]]; [|exact (proj1 (Forall_forall _ _) V4 _ (or_intror (or_introl eq_refl)))].
    constructor; cbn; unfold MAXV; try lia.
    - repeat constructor; lia.
    - repeat constructor; lia.
    - intros [|[|dim]]; unfold dimv; cbn; try lia; destruct dim; cbn; lia. }
  assert (O : opens_by oTight 20) by (constructor; cbn; repeat constructor; cbn; lia).
  split; [exact V|]. split; [|split; [exact O|split; [exact osample_durs|split; [exact oEv_ok|split; [reflexivity|split; [|split; [|split; [|split; [|split]]]]]]]]].
  - assert (W : windows_ok oTight) by (split; repeat constructor; cbn; lia).
    assert (M : make_pdata (p_locations oTight) (p_clients oTight) (p_depots oTight) (p_vehicles oTight) (p_dists oTight)
      (p_durs oTight) (p_groups oTight) (p_shipments oTight) = Ok oTight) by (vm_compute; reflexivity).
    apply (data_checks_spec oTight W). apply checked_ok in M. apply M.
  - intros v mid Hin W Once. destruct osample_modest_time as [_ Mdur Mdist Mser Mdep _ _].
    assert (Mo : modest_time oTight 20 3 22 3).
    { constructor; [|exact Mdur|exact Mdist|exact Mser|exact Mdep| |].
      - intros v' [<-|[<-|[]]]; vm_compute; discriminate.
      - intros v' x i _ _. unfold p_client, p_depot. apply Z.le_trans with 20%Z.
        + apply (Forall_nth_default (fun c => (c_release c <= 20)%Z)); [repeat constructor; cbn; lia|cbn; lia].
        + apply (Forall_nth_default (fun c => (20 <= d_late c)%Z)); [repeat constructor; cbn; lia|cbn; unfold MAXV; lia].
      - vm_compute. discriminate. }
    exact (modest_times oTight 20 V O osample_durs 3 22 3 Mo v mid Hin W Once).
  - apply plan_checked. vm_compute. reflexivity.
  - cbn. unfold p_numShipments. cbn. lia.
  - reflexivity.
  - vm_compute. reflexivity.
  - vm_compute. reflexivity.
Qed.
Print Assumptions C21_max_duration_refuted.

(** ** Cases: every operator has an improving move in one of these plans *)
Definition oPlan1 : plan := [[AClient 0; APickup 0; AClient 3; ADelivery 0; ADepot 1; AClient 1]; []; [AClient 5]; []].
Definition oPlan2 : plan := [[AClient 5; ADepot 1; AClient 0]; [APickup 0; AClient 3; ADelivery 0]; [APickup 1; AClient 4; ADelivery 1; AClient 2]; []].
Definition oPlan3 : plan := [[AClient 5; AClient 4; APickup 1; ADelivery 1; AClient 0]; []; [AClient 2]; [AClient 3]].
Definition oPlan4 : plan := [[AClient 5; APickup 1; AClient 4; AClient 3; AClient 0; ADelivery 1]; [AClient 2; APickup 0; ADelivery 0]; []; []].
Definition group_check (d : pdata) (p : plan) : bool :=
  forallb (fun g => length (filter (fun i => 1 <=? tot p (AClient i)) (g_clients g)) <=? 1) (p_groups d).
Lemma group_checked d p : group_check d p = true -> group_once d p.
Proof.
  intros H g i j Hg Hi Hj Ti Tj. unfold group_check in H. rewrite forallb_forall in H.
  assert (Hin : In (p_group d g) (p_groups d)) by (unfold p_group; apply nth_In; exact Hg). specialize (H _ Hin). apply Nat.leb_le in H.
  assert (A : In i (filter (fun i => 1 <=? tot p (AClient i)) (g_clients (p_group d g)))) by (apply filter_In; split; [exact Hi|apply Nat.leb_le, Ti]).
  assert (B : In j (filter (fun i => 1 <=? tot p (AClient i)) (g_clients (p_group d g)))) by (apply filter_In; split; [exact Hj|apply Nat.leb_le, Tj]).
  destruct (filter _ _) as [|x [|y l]]; [destruct A|cbn in A, B; intuition congruence|cbn in H; lia].
Qed.

Example C20_unary_case : setting osample 20 oEv /\ plan_ok osample oPlan2 /\
  eval_unary osample oEv URelocateDelivery (sync osample oPlan2) (APickup 0) = (-3, true, MNode (APickup 0))%Z /\
  eval_unary osample oEv URelocatePickup (sync osample oPlan2) (APickup 1) = (-32, true, MNode (ADelivery 1))%Z /\
  eval_unary osample oEv URemoveAdjacentDepot (sync osample oPlan2) (AClient 0) = (-14, true, MPrev)%Z /\
  eval_unary osample oEv URemoveOptionalClient (sync osample oPlan2) (AClient 3) = (-14, true, MNone)%Z /\
  eval_unary osample oEv URemoveOptionalShipment (sync osample oPlan2) (APickup 1) = (-54, true, MNone)%Z /\
  eval_unary osample oEv UReplaceGroup (sync osample oPlan2) (AClient 1) = (-108, true, MAlt 2)%Z.
Proof.
  split; [exact osample_setting|]. split; [apply plan_checked; vm_compute; reflexivity|]. repeat split; vm_compute; reflexivity.
Qed.

Example C20_binary_case : setting osample 20 oEv /\ plan_ok osample oPlan1 /\ plan_ok osample oPlan3 /\ plan_ok osample oPlan4 /\
  group_once osample oPlan1 /\ group_once osample oPlan3 /\ group_once osample oPlan4 /\
  fst (eval_binary osample oEv (BRelocate 1) (sync osample oPlan1) rc_none (AClient 1) (VAct (AClient 5))) = (-23, true, MNone)%Z /\
  fst (eval_binary osample oEv (BRelocate 2) (sync osample oPlan3) rc_none (AClient 5) (VAct (AClient 2))) = (-30, true, MNone)%Z /\
  fst (eval_binary osample oEv (BSwap 1 1) (sync osample oPlan1) rc_none (AClient 0) (VAct (AClient 5))) = (-18, true, MNone)%Z /\
  fst (eval_binary osample oEv (BSwap 2 1) (sync osample oPlan3) rc_none (AClient 5) (VAct (AClient 3))) = (-16, true, MNone)%Z /\
  fst (eval_binary osample oEv BSwapTails (sync osample oPlan1) rc_none (AClient 1) (VStart 2)) = (-19, true, MNone)%Z /\
  fst (eval_binary osample oEv BInsertOptionalClient (sync osample oPlan1) rc_none (AClient 4) (VAct (AClient 0))) = (-81, true, MNone)%Z /\
  fst (eval_binary osample oEv BInsertOptionalShipment (sync osample oPlan1) rc_none (APickup 1) (VAct (AClient 1))) = (-46, true, MPos 7)%Z /\
  fst (eval_binary osample oEv BRelocateAlternative (sync osample oPlan1) rc_none (AClient 1) (VAct (AClient 5))) = (-25, true, MAlt 2)%Z /\
  fst (eval_binary osample oEv BRelocateShipment (sync osample oPlan1) rc_none (APickup 0) (VAct (AClient 5))) = (-24, true, MPos 2)%Z /\
  fst (eval_binary osample oEv BRelocateWithDepot (sync osample oPlan1) rc_none (AClient 5) (VAct (AClient 0))) = (-27, true, MDepot true 1)%Z /\
  fst (eval_binary osample oEv BReplaceOptionalClient (sync osample oPlan1) rc_none (AClient 4) (VAct (AClient 3))) = (-118, true, MNone)%Z /\
  fst (eval_binary osample oEv BReplaceOptionalShipment (sync osample oPlan4) rc_none (APickup 2) (VAct (APickup 1))) = (-42, true, MNone)%Z.
Proof.
  split; [exact osample_setting|].
  split; [apply plan_checked; vm_compute; reflexivity|]. split; [apply plan_checked; vm_compute; reflexivity|]. split; [apply plan_checked; vm_compute; reflexivity|].
  split; [apply group_checked; vm_compute; reflexivity|]. split; [apply group_checked; vm_compute; reflexivity|]. split; [apply group_checked; vm_compute; reflexivity|].
  repeat split; vm_compute; reflexivity.
Qed.
