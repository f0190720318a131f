(** C33, continued: fleet minimisation with solve() itself. *)
From Coq Require Import ZArith Lia List String.
From Verif Require Import Base DurationSegment Data DataCtor LoadSegment SearchRoute Valid Route RouteSpec RouteFacts2 Cost CostFacts Solution SolutionFacts
  SolutionFacts2 SolutionFacts3 Stop MakeRandom Neighbourhood Ops PlanFacts OpsBase LocalRun Fits Sample2 LocalSearch Fleet FleetSame Penalty Pm PPm Ils OverflowRoute Solve PSolve PPy.
Import ListNotations.
Local Open Scope nat_scope.

Lemma fleet_objective d n routes s : p_numVehicleTypes d = 1 -> Forall (built (with_fleet d n)) routes -> make_solution (with_fleet d n) routes = Ok s ->
  objective (with_fleet d n) s = objective d s.
Proof.
  intros One HB Es. unfold objective. f_equal. f_equal.
  assert (Er : so_routes s = routes) by (revert Es; unfold make_solution; destruct (_ <? _); [discriminate|]; destruct (visit_routes _ _ _ _) as [[[? ?] ?]|]; [|discriminate]; destruct (check_groups _ _ _); [|discriminate]; destruct (existsb _ _); [discriminate|]; intros Es; apply okinj in Es; rewrite <- Es; reflexivity).
  rewrite Er. apply map_ext_in. intros r Hr. pose proof (proj1 (Forall_forall _ _) HB r Hr) as Br. apply (built_type (with_fleet d n)) in Br; [|reflexivity].
  unfold route_objective. rewrite Br. reflexivity.
Qed.
(** What is solvable with its fleet is with fewer vehicles. *)
Lemma fleet_solvable d h n : fleet_data d h -> solvable d h -> 0 < n <= v_numAvailable (p_vehicle d 0) -> solvable (with_fleet d n) h.
Proof.
  intros F [S1 S2 S3 S4 S5 S6 S7 S8 S9 S10] Hn. pose proof (fd_one _ _ F) as One. pose proof (one_vehicle d One) as E.
  destruct (with_fleet_data d h n F ltac:(lia)) as [F1 F2 F3 _ F5 _ _ F8 _ _ _].
  constructor; [exact F1|exact F8|exact F2|exact F3| |exact F5| | | |].
  - intros v mid [<-|[]] W Once. apply (same_well_formed d n) in W. destruct (S5 (p_vehicle d 0) mid) as [(R1 & R2 & R3) R4]; [rewrite E; left; reflexivity|exact W|exact Once|].
    destruct (same_duration d n mid) as [E1 E2]. rewrite E1, E2. split; [|exact R4]. split; [apply (same_releases d n); exact R1|]. split; [exact R2|exact R3].
  - destruct S7 as [I1 I2 I3 I4 I5]. constructor; try assumption. rewrite E in I3. inversion I3; subst. constructor; [assumption|constructor].
  - rewrite E in S8. inversion S8; subst. constructor; [assumption|constructor].
  - constructor; [cbn; lia|constructor].
  - intros s (routes & HB & Es) Hf. rewrite (fleet_objective d n routes s One HB Es). apply S10; [|exact Hf].
    exists routes. rewrite <- (fleet_itself d One). apply (fewer_vehicles d _ n routes s One HB Es).
    pose proof (solution_few _ _ _ Es) as L. change (p_numVehicles (with_fleet d n)) with n in L. lia.
Qed.

(** [solver] does what solve() does: on each of the smaller instances it returns the best solution that
    solve() returns, given some state of the stopping criterion and enough rounds. *)
Theorem C33_with_solve : forall d h p seed (X : Type) (criterion : X -> Z -> bool * X) (W : Type) (solver : W -> pdata -> solution * W) stop w,
  fleet_data d h -> solvable d h -> params_ok p -> (1 <= lower_bound d)%Z -> (Z.of_nat (v_numAvailable (p_vehicle d 0)) <= 2 ^ 53)%Z ->
  (forall w n, 0 < n <= v_numAvailable (p_vehicle d 0) ->
     exists x m k o, solve (with_fleet d n) X criterion p false m k seed None x = Some (Ok o) /\ fst (solver w (with_fleet d n)) = o_best o) ->
  let v := p_vehicle d 0 in
  exists n, minimise_fleet solver stop w d = Ok (with_available v n) /\ 0 < n <= v_numAvailable v /\
    (n = v_numAvailable v \/
     (lower_bound d <= Z.of_nat n)%Z /\ exists s, is_solution (with_fleet d n) s /\ so_isFeasible s = true).
Proof.
  intros d h p seed X criterion W solver stop w F S P L M H v.
  assert (A : answers solver d).
  { intros w' n Hn. destruct (H w' n Hn) as (x & m & k & o & E & Eo). rewrite Eo.
    destruct (C48_result (with_fleet d n) X criterion p false h (fleet_solvable d h n F S Hn) P m k seed None x (Ok o) ltac:(discriminate) E) as (o' & Eo' & HS & _).
    injection Eo' as <-. exact HS. }
  destruct (C33_minimised W solver stop d h w F A L M) as (n & E & Hn & C). exists n. split; [exact E|]. split; [exact Hn|].
  destruct C as [C|(C1 & routes & s & HB & Es & Hf)]; [left; exact C|right]. split; [exact C1|]. exists s. split; [exists routes; auto|exact Hf].
Qed.
Print Assumptions C33_with_solve.

(** A case: the instance of C33_case, and solve() with at most ten iterations each time. *)
Lemma fl_modest : modest_time (fl_data 6 5) 20 1 5 0.
Proof.
  constructor.
  - intros v [<-|[]]; vm_compute; discriminate.
  - intros k a b. unfold p_dur. apply mat_le; [lia|]. destruct k as [|[|k]]; cbn; repeat constructor; lia.
  - intros k a b. unfold p_dist. apply mat_le; [lia|]. destruct k as [|[|k]]; cbn; repeat constructor; lia.
  - intros [i|i|i|i]; cbn [a_service].
    + unfold p_depot. apply (Forall_nth_default (fun x => (d_service x <= 0)%Z)); [repeat constructor; cbn; lia|cbn; lia].
    + unfold p_client. apply (Forall_nth_default (fun x => (c_service x <= 0)%Z)); [repeat constructor; cbn; lia|cbn; lia].
    + unfold p_shipment. apply (Forall_nth_default (fun x => (st_service (s_pickup x) <= 0)%Z)); [repeat constructor; cbn; lia|cbn; lia].
    + unfold p_shipment. apply (Forall_nth_default (fun x => (st_service (s_delivery x) <= 0)%Z)); [repeat constructor; cbn; lia|cbn; lia].
  - intros i. unfold p_depot. apply (Forall_nth_default (fun x => (d_service x <= 0)%Z)); [repeat constructor; cbn; lia|cbn; lia].
  - intros v x i [<-|[]] Hv. vm_compute in Hv. discriminate Hv.
  - vm_compute. discriminate.
Qed.
Lemma fl_solvable : solvable (fl_data 6 5) 20.
Proof.
  pose proof (fl_ok 6 5 ltac:(lia) ltac:(lia)) as F. pose proof F as [V O N _ G K _ D _ _ _].
  constructor; try assumption.
  - apply (modest_fits (fl_data 6 5) 20 1 5 0 V O N). split; [exact fl_modest|]. intros v [<-|[]] _. reflexivity.
  - constructor.
    + cbn [fl_data p_clients]. repeat (constructor; [cbn; unfold MAXV; lia|]). constructor.
    + constructor.
    + cbn [fl_data p_vehicles]. repeat (constructor; [cbn; lia|]). constructor.
    + intros profile a b. unfold p_dist, m_at. apply (Forall_nth_default (fun z => (Z.abs z <= 2 ^ 63)%Z)); [|lia].
      apply (Forall_nth_default (fun m => Forall (fun z => (Z.abs z <= 2 ^ 63)%Z) (m_data m))); [|constructor].
      repeat (constructor; [cbn; repeat (constructor; [lia|]); constructor|]). constructor.
    + intros profile a b. unfold p_dur, m_at. apply (Forall_nth_default (fun z => (Z.abs z <= 2 ^ 63)%Z)); [|lia].
      apply (Forall_nth_default (fun m => Forall (fun z => (Z.abs z <= 2 ^ 63)%Z) (m_data m))); [|constructor].
      repeat (constructor; [cbn; repeat (constructor; [lia|]); constructor|]). constructor.
  - repeat constructor; cbn; unfold SIZE_MAX; lia.
  - repeat constructor; cbn; lia.
  - intros s Hs _. apply (C48_finite (fl_data 6 5) 20 1 5 0 0 1 V O N G K (modest_time_size _ _ _ _ _ fl_modest)); [|exact Hs].
    constructor; [intros v [<-|[]]; cbn; lia|intros v [<-|[]]; cbn; lia|lia|vm_compute; reflexivity].
Qed.
Definition fl_stop := py_stop (fun _ => 0%Z).
Lemma fl_rounds : forall N, N <= 5 -> exists m k, forall n, 0 < n <= N ->
  exists o, solve (with_fleet (fl_data 6 5) n) (criterion * nat) fl_stop svParams false m k 42 None (MaxIterations 10 0, 0) = Some (Ok o).
Proof.
  assert (H : forall N, N <= 5 -> exists m0 k0, forall m k, m0 <= m -> k0 <= k -> forall n, 0 < n <= N ->
    exists o, solve (with_fleet (fl_data 6 5) n) (criterion * nat) fl_stop svParams false m k 42 None (MaxIterations 10 0, 0) = Some (Ok o)).
  { induction N as [|N IH]; intros HN; [exists 0, 0; intros; lia|]. destruct (IH ltac:(lia)) as (m0 & k0 & A).
    assert (HN' : 0 < Datatypes.S N <= 5) by lia.
    destruct (C48_returns (with_fleet (fl_data 6 5) (Datatypes.S N)) svParams false 20 (fleet_solvable _ _ _ (fl_ok 6 5 ltac:(lia) ltac:(lia)) fl_solvable HN') svParams_ok
      (fun _ => 0%Z) 42 None (MaxIterations 10 0)) as (m1 & k1 & o & B); [discriminate|constructor|].
    exists (m0 + m1), (k0 + k1). intros m k Hm Hk n Hn. destruct (Nat.eq_dec n (Datatypes.S N)) as [->|Ne].
    - exists o. apply B; lia.
    - apply A; lia. }
  intros N HN. destruct (H N HN) as (m & k & A). exists m, k. intros n Hn. apply A; lia.
Qed.
Example C33_solve_case : fleet_data (fl_data 6 5) 20 /\ solvable (fl_data 6 5) 20 /\ params_ok svParams /\ lower_bound (fl_data 6 5) = 2%Z /\
  exists solver : unit -> pdata -> solution * unit, forall w n, 0 < n <= 5 ->
    exists x m k o, solve (with_fleet (fl_data 6 5) n) (criterion * nat) fl_stop svParams false m k 42 None x = Some (Ok o) /\
      fst (solver w (with_fleet (fl_data 6 5) n)) = o_best o.
Proof.
  split; [apply fl_ok; lia|]. split; [exact fl_solvable|]. split; [exact svParams_ok|]. split; [exact fl_bound|].
  destruct (fl_rounds 5 ltac:(lia)) as (m & k & A). destruct (A 1 ltac:(lia)) as (o1 & _).
  exists (fun w d => (match solve d (criterion * nat) fl_stop svParams false m k 42 None (MaxIterations 10 0, 0) with Some (Ok o) => o_best o | _ => o_best o1 end, w)).
  intros w n Hn. destruct (A n Hn) as (o & E). exists (MaxIterations 10 0, 0), m, k, o. split; [exact E|]. cbn [fst]. rewrite E. reflexivity.
Qed.
