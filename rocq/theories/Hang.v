(** Two instances on which the local search of solve() comes back to the same state. *)
From Coq Require Import ZArith Reals Lia List String.
From Flocq Require Import Core.Core IEEE754.BinarySingleNaN.
From Verif Require Import Base DurationSegment Data LoadSegment SearchRoute RouteDur Valid Route RouteSpec RouteFacts2 RouteFacts3 Cost CostFacts DataCtor Solution SolutionFacts SolutionFacts2 SolutionFacts3 Penalty Pm Bitset Rng RngFloat
  MakeRandom Ils SearchSpace Neighbourhood SearchNodes SearchSeq SearchLoad Ops PlanFacts OpsBase OpsAll LocalSearch Perturb LocalRun Fits Finite Sample Sample2 PPm Solve Loops.
Import ListNotations.
Local Open Scope nat_scope.

(** ** The default parameters *)
(** The defaults of solve.py:51-59: IteratedLocalSearch.py:88-90, PenaltyManager.py:83-89, neighbourhood.h:45-47,
    PerturbationManager.h:30-31. *)
Definition dec (a b : Z) : b64 := b64_div (b64_of_Z a) (b64_of_Z b).
Definition defPenalty : Pm.pparams := Pm.mk_pparams 500 (dec 150 100) (dec 90 100) (dec 65 100) (dec 5 100) (dec 1 10) (b64_of_Z 100000).
Definition defaults : solve_params := mk_solve_params (mk_ils_params (Z.to_nat 150000) (Z.to_nat 300) true) defPenalty
  (mk_nparams (dec 2 10) (Z.to_nat 50) true) OPERATORS (Perturb.mk_pparams 1 25).
Lemma defPenalty_ok : pparams_ok defPenalty.
Proof.
  Local Open Scope R_scope.
  destruct one_exact as [F1 E1]. pose proof B2R_b64_zero as E0.
  assert (X : forall a b : b64, is_finite a = true -> is_finite b = true -> Bleb a b = true -> B2R a <= B2R b)
    by (intros a b A B C; apply leb_R; assumption).
  assert (X0 : forall a : b64, is_finite a = true -> Bleb b64_zero a = true -> 0 <= B2R a)
    by (intros a A B; rewrite <- E0; apply X; [reflexivity|exact A|exact B]).
  assert (X1 : forall a : b64, is_finite a = true -> Bleb a b64_one = true -> B2R a <= 1)
    by (intros a A B; rewrite <- E1; apply X; [exact A|exact F1|exact B]).
  constructor.
  - cbn [pp_between defPenalty]. lia.
  - vm_compute. reflexivity.
  - repeat split; vm_compute; reflexivity.
  - rewrite <- E1. apply X; vm_compute; reflexivity.
  - split; [apply X0|apply X1]; vm_compute; reflexivity.
  - split; [apply X0|apply X1]; vm_compute; reflexivity.
  - split; [apply X0|apply X1]; vm_compute; reflexivity.
  - split; [apply X0|apply X]; vm_compute; reflexivity.
Qed.
Local Open Scope nat_scope.
Lemma defaults_ok : params_ok defaults.
Proof.
  constructor.
  - exact defPenalty_ok.
  - vm_compute; reflexivity.
  - unfold defaults, OPERATORS. cbn [sv_operators]. repeat (constructor; [cbn; lia|]). constructor.
  - cbn; lia.
  - apply Nat.ltb_lt. vm_compute. reflexivity.
Qed.

(** ** What the theorems on termination assume of the instance, with another condition on its routes *)
Record near_solvable (routes_fit : Prop) (d : pdata) (h : Z) : Prop := mk_near_solvable {
  nv_valid : valid_data d;
  nv_data : data_ok d;
  nv_opens : opens_by d h;
  nv_durs : nonneg_durs d;
  nv_fits : routes_fit;
  nv_groups : groups_nodup d;
  nv_int64 : in_int64 d;
  nv_reloads : Forall (fun v => 0 <= v_maxReloads v <= SIZE_MAX)%Z (p_vehicles d);
  nv_available : Forall (fun v => 0 < v_numAvailable v) (p_vehicles d);
  nv_finite : forall s, is_solution d s -> (objective d s < MAXV)%Z }.
Definition fits_but_release (d : pdata) (h : Z) : Prop :=
  forall v mid, In v (p_vehicles d) -> well_formed d v mid -> (forall a, a_isDepot a = false -> cnt mid a <= 1) ->
  (time_fits d h v mid /\ route_dist d v mid <= MAXV)%Z /\ (ca_duration (update d v mid) <= v_maxDuration v)%Z.
Definition fits_but_duration (d : pdata) (h : Z) : Prop :=
  forall v mid, In v (p_vehicles d) -> well_formed d v mid -> (forall a, a_isDepot a = false -> cnt mid a <= 1) ->
  (reload_releases_ok d mid /\ time_fits d h v mid /\ route_dist d v mid <= MAXV)%Z.

(** ** A reload depot that closes before a client is released *)
Definition aClient (loc : nat) (early late release : Z) (delivery pickup : list Z) : client := mk_client loc 0 early late delivery pickup release 0 true None EmptyString.
Local Open Scope Z_scope.
Definition hMat : matrix := mk_matrix 5 5 [0;1;0;2;2; 1;0;0;0;1; 0;0;0;2;2; 2;0;2;0;2; 2;1;2;2;0].
Definition hang : pdata := mk_pdata [sLoc 0 0; sLoc 0 0; sLoc 0 0; sLoc 0 0; sLoc 0 0]
  [aClient 2%nat 0 MAXV 0 [] []; aClient 3%nat 0 MAXV 6 [] []; aClient 4%nat 0 MAXV 0 [] []] [mk_depot 0 0 MAXV 0 EmptyString; mk_depot 1 0 4 0 EmptyString]
  [mk_vehicle 2 0 0 [] 0 MAXV MAXV MAXV 0 1 0 0 MAXV [] [1%nat] 1 0 0 MAXV EmptyString] [hMat] [hMat] [] [].

(** ** Reloads, release times and a maximum duration; the depot is always open *)
Definition kMat : matrix := mk_matrix 4 4 [0;7;8;3; 6;0;15;8; 0;15;0;14; 12;14;12;0].
Definition kang : pdata := mk_pdata [sLoc 0 0; sLoc 0 0; sLoc 0 0; sLoc 0 0]
  [aClient 1%nat 0 MAXV 13 [2] [0]; aClient 2%nat 4 9 0 [2] [0]; aClient 3%nat 0 MAXV 0 [1] [0]] [mk_depot 0 0 MAXV 0 EmptyString]
  [mk_vehicle 1 0 0 [3] 0 MAXV 23 MAXV 0 1 0 0 MAXV [0] [0%nat] 2 0 0 23 EmptyString] [kMat] [kMat] [] [].
Local Open Scope nat_scope.

(** ** They cycle *)
Definition hActs : list activity := [AClient 0; AClient 1; AClient 2].
Lemma hang_cycles : cycles hang defaults 0 hActs 2 0 4 4.
Proof. vm_compute. repeat split; reflexivity. Qed.
Lemma kang_cycles : cycles kang defaults 1 hActs 2 1 3 4.
Proof. vm_compute. repeat split; reflexivity. Qed.

(** ** They are instances of the kind described *)
Ltac fields := repeat (constructor; [constructor; cbn; unfold MAXV; try lia; try (intros [|[|dim]]; unfold dimv; cbn; try lia; destruct dim; cbn; lia); repeat constructor; lia|]); constructor.
Lemma hang_valid : valid_data hang.
Proof. constructor; cbn [hang p_clients p_depots p_shipments p_vehicles]; fields. Qed.
Lemma kang_valid : valid_data kang.
Proof. constructor; cbn [kang p_clients p_depots p_shipments p_vehicles]; fields. Qed.
Lemma hang_opens : opens_by hang 6.
Proof. constructor; cbn; repeat constructor; cbn; lia. Qed.
Lemma kang_opens : opens_by kang 13.
Proof. constructor; cbn; repeat constructor; cbn; lia. Qed.
Lemma one_matrix_nonneg d m : p_durs d = [m] -> Forall (fun x => 0 <= x)%Z (m_data m) -> nonneg_durs d.
Proof. intros E H profile a b. unfold p_dur. rewrite E. apply mat_nonneg. destruct profile as [|[|k]]; cbn; [exact H|constructor|constructor]. Qed.
Lemma hang_durs : nonneg_durs hang.
Proof. apply (one_matrix_nonneg _ hMat); [reflexivity|]. repeat constructor; lia. Qed.
Lemma kang_durs : nonneg_durs kang.
Proof. apply (one_matrix_nonneg _ kMat); [reflexivity|]. repeat constructor; lia. Qed.
Lemma accepted_ok d : windows_ok d -> make_pdata (p_locations d) (p_clients d) (p_depots d) (p_vehicles d) (p_dists d) (p_durs d) (p_groups d) (p_shipments d) = Ok d -> data_ok d.
Proof. intros W M. apply (data_checks_spec d W). apply checked_ok in M. apply M. Qed.
Lemma hang_data : data_ok hang.
Proof. apply accepted_ok; [split; repeat constructor; cbn; unfold MAXV; lia|vm_compute; reflexivity]. Qed.
Lemma kang_data : data_ok kang.
Proof. apply accepted_ok; [split; repeat constructor; cbn; unfold MAXV; lia|vm_compute; reflexivity]. Qed.
Lemma hang_int64 : in_int64 hang.
Proof.
  constructor.
  - cbn [hang p_clients]. repeat (constructor; [cbn; unfold MAXV; lia|]). constructor.
  - constructor.
  - cbn [hang p_vehicles]. repeat (constructor; [cbn; lia|]). constructor.
  - intros profile a b. unfold p_dist, m_at. apply (Forall_nth_default (fun z => (Z.abs z <= 2 ^ 63)%Z)); [|lia].
    apply (Forall_nth_default (fun m => Forall (fun z => (Z.abs z <= 2 ^ 63)%Z) (m_data m))); [|constructor].
    repeat (constructor; [cbn; repeat (constructor; [lia|]); constructor|]). constructor.
  - intros profile a b. unfold p_dur, m_at. apply (Forall_nth_default (fun z => (Z.abs z <= 2 ^ 63)%Z)); [|lia].
    apply (Forall_nth_default (fun m => Forall (fun z => (Z.abs z <= 2 ^ 63)%Z) (m_data m))); [|constructor].
    repeat (constructor; [cbn; repeat (constructor; [lia|]); constructor|]). constructor.
Qed.
Lemma kang_int64 : in_int64 kang.
Proof.
  constructor.
  - cbn [kang p_clients]. repeat (constructor; [cbn; unfold MAXV; lia|]). constructor.
  - constructor.
  - cbn [kang p_vehicles]. repeat (constructor; [cbn; lia|]). constructor.
  - intros profile a b. unfold p_dist, m_at. apply (Forall_nth_default (fun z => (Z.abs z <= 2 ^ 63)%Z)); [|lia].
    apply (Forall_nth_default (fun m => Forall (fun z => (Z.abs z <= 2 ^ 63)%Z) (m_data m))); [|constructor].
    repeat (constructor; [cbn; repeat (constructor; [lia|]); constructor|]). constructor.
  - intros profile a b. unfold p_dur, m_at. apply (Forall_nth_default (fun z => (Z.abs z <= 2 ^ 63)%Z)); [|lia].
    apply (Forall_nth_default (fun m => Forall (fun z => (Z.abs z <= 2 ^ 63)%Z) (m_data m))); [|constructor].
    repeat (constructor; [cbn; repeat (constructor; [lia|]); constructor|]). constructor.
Qed.
Local Open Scope Z_scope.
Lemma no_service d : Forall (fun x => d_service x <= 0) (p_depots d) -> Forall (fun c => c_service c <= 0) (p_clients d) -> p_shipments d = [] ->
  (forall a, a_service d a <= 0) /\ (forall i, d_service (p_depot d i) <= 0).
Proof.
  intros H1 H2 E. assert (D : forall i, d_service (p_depot d i) <= 0) by (intros i; unfold p_depot; apply (Forall_nth_default (fun x => d_service x <= 0)); [exact H1|cbn; lia]).
  split; [|exact D]. intros [i|i|i|i]; cbn [a_service]; [apply D| | |].
  - unfold p_client. apply (Forall_nth_default (fun x => c_service x <= 0)); [exact H2|cbn; lia].
  - unfold p_shipment. rewrite E. destruct i; cbn; lia.
  - unfold p_shipment. rewrite E. destruct i; cbn; lia.
Qed.
Lemma one_matrix_le (l : list matrix) m M k a b : l = [m] -> 0 <= M -> Forall (fun x => x <= M) (m_data m) -> forall dft, m_data dft = [] -> m_at (nth k l dft) a b <= M.
Proof.
  intros -> HM H dft E. apply mat_le; [exact HM|]. destruct k as [|[|k]]; cbn; [exact H|rewrite E; constructor|rewrite E; constructor].
Qed.
Lemma hang_size : modest_size hang 6 2 2 0.
Proof.
  destruct (no_service hang) as [S1 S2]; [repeat constructor; cbn; lia|repeat constructor; cbn; lia|reflexivity|].
  constructor; [|intros k a b|intros k a b|exact S1|exact S2|].
  - intros v [<-|[]]. vm_compute. discriminate.
  - apply (one_matrix_le (p_durs hang) hMat); [reflexivity|lia|repeat constructor; lia|reflexivity].
  - apply (one_matrix_le (p_dists hang) hMat); [reflexivity|lia|repeat constructor; lia|reflexivity].
  - vm_compute. discriminate.
Qed.
Lemma kang_size : modest_size kang 13 3 15 0.
Proof.
  destruct (no_service kang) as [S1 S2]; [repeat constructor; cbn; lia|repeat constructor; cbn; lia|reflexivity|].
  constructor; [|intros k a b|intros k a b|exact S1|exact S2|].
  - intros v [<-|[]]. vm_compute. discriminate.
  - apply (one_matrix_le (p_durs kang) kMat); [reflexivity|lia|repeat constructor; lia|reflexivity].
  - apply (one_matrix_le (p_dists kang) kMat); [reflexivity|lia|repeat constructor; lia|reflexivity].
  - vm_compute. discriminate.
Qed.
Lemma kang_time : modest_time kang 13 3 15 0.
Proof.
  destruct kang_size as [A B C D E F]. constructor; try assumption. intros v x i [<-|[]] _. unfold p_client, p_depot. apply Z.le_trans with 13.
  - apply (Forall_nth_default (fun c => c_release c <= 13)); [repeat constructor; cbn; lia|cbn; lia].
  - apply (Forall_nth_default (fun c => 13 <= d_late c)); [repeat constructor; cbn; unfold MAXV; lia|cbn; unfold MAXV; lia].
Qed.
Lemma hang_finite s : is_solution hang s -> objective hang s < MAXV.
Proof.
  intros (routes & HB & Es). refine (modest_objective hang 6 hang_valid hang_opens hang_durs 2 2 0 0 1 hang_size _ routes s _ _ HB Es).
  - constructor; [intros v [<-|[]]; cbn; lia|intros v [<-|[]]; cbn; lia|lia|vm_compute; reflexivity].
  - repeat constructor.
  - repeat constructor.
Qed.
Lemma kang_finite s : is_solution kang s -> objective kang s < MAXV.
Proof.
  intros (routes & HB & Es). refine (modest_objective kang 13 kang_valid kang_opens kang_durs 3 15 0 0 1 kang_size _ routes s _ _ HB Es).
  - constructor; [intros v [<-|[]]; cbn; lia|intros v [<-|[]]; cbn; lia|lia|vm_compute; reflexivity].
  - repeat constructor.
  - repeat constructor.
Qed.
Lemma hang_near : near_solvable (fits_but_release hang 6) hang 6.
Proof.
  constructor; [exact hang_valid|exact hang_data|exact hang_opens|exact hang_durs| |repeat constructor|exact hang_int64| | |exact hang_finite].
  - intros v mid Hin W Once. destruct (size_bounds hang 6 hang_valid hang_opens hang_durs 2 2 0 hang_size v mid Hin W Once) as [H1 H2]. split; [exact H1|].
    destruct Hin as [<-|[]]. exact H2.
  - repeat constructor; cbn; unfold SIZE_MAX; lia.
  - repeat constructor; cbn; lia.
Qed.
Lemma kang_near : near_solvable (fits_but_duration kang 13) kang 13.
Proof.
  constructor; [exact kang_valid|exact kang_data|exact kang_opens|exact kang_durs| |repeat constructor|exact kang_int64| | |exact kang_finite].
  - intros v mid Hin W Once. destruct (modest_times kang 13 kang_valid kang_opens kang_durs 3 15 0 kang_time v mid Hin W Once) as (H1 & H2 & H3). auto.
  - repeat constructor; cbn; unfold SIZE_MAX; lia.
  - repeat constructor; cbn; lia.
Qed.
(** A feasible solution: the released-late client has a vehicle of its own. *)
Lemma hang_feasible : exists s, is_solution hang s /\ so_isFeasible s = true.
Proof.
  assert (E1 : exists a b, make_route hang [AClient 0; AClient 2] 0 = Ok a /\ make_route hang [AClient 1] 0 = Ok b /\
    exists s, make_solution hang [a; b] = Ok s /\ so_isFeasible s = true).
  { eexists. eexists. split; [vm_compute; reflexivity|]. split; [vm_compute; reflexivity|]. eexists. split; vm_compute; reflexivity. }
  destruct E1 as (a & b & Ea & Eb & s & Es & F). exists s. split; [|exact F]. exists [a; b]. split; [|exact Es].
  repeat constructor; [exists [AClient 0; AClient 2]%nat|exists [AClient 1]%nat]; exists 0%nat; (split; [cbn; lia|assumption]).
Qed.
