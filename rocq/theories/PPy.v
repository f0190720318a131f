(** Property theorems C28, C29, C33, C42-C44: iterated local search, fleet minimisation, statistics
    files, models and random solutions. *)
From Coq Require Import Ascii String List Reals Lra.
From Flocq Require Import Core.Core.
From Verif Require Import Base DurationSegment Data DataCtor Valid Route RouteSpec Cost CostFacts Penalty Solution
  SolutionFacts SolutionFacts2 SolutionFacts3 Sample MatrixFacts RingBuffer Ils Fleet FleetSame ModelPy ActivityText StatsCsv Rng MakeRandom.
Open Scope Z_scope.
Notation EmptyString := String.EmptyString.

(** [s] is a solution of [d]. *)
Definition solution_of (d : pdata) (s : solution) : Prop :=
  exists routes, Forall (built d) routes /\ make_solution d routes = Ok s.

Lemma solution_value d h : valid_data d -> opens_by d h -> nonneg_durs d -> 2 * h <= MAXV -> groups_nodup d -> groups_known d ->
  forall e s, ev_ok e -> solution_of d s -> solution_cost e s = Ils.value so_isFeasible (objective d) s.
Proof.
  intros Hv Ho Hn Hh Hg Hk e s He (routes & HB & Hs). unfold Ils.value.
  destruct (cost_spec d h Hv Ho Hn Hh routes HB Hg Hk s Hs e He) as (C1 & C2 & _). destruct (so_isFeasible s); auto.
  apply C1. reflexivity.
Qed.

(** C28: for any search method, penalty manager and stopping criterion, the best solution is one that
    was seen, it is feasible if any solution seen was, and (if exhaustive search does not make its
    argument worse) none of those seen is better, and it never gets worse. *)
Theorem C28_best_was_seen : forall d h, valid_data d -> opens_by d h -> nonneg_durs d -> 2 * h <= MAXV ->
  groups_nodup d -> groups_known d -> (forall s, solution_of d s -> so_isFeasible s = true -> objective d s < MAXV) ->
  forall (W : Type) (cost_evaluator : W -> evaluator) search register stop history noimp exh stats,
  (forall w, ev_ok (cost_evaluator w)) ->
  (forall w s e b, solution_of d s -> ev_ok e -> solution_of d (fst (search w s e b))) ->
  forall init w0 best data iters trace, solution_of d init ->
  returns so_isFeasible solution_cost solution_penalised cost_evaluator search register stop history noimp exh stats
    init w0 best data iters trace ->
  let seen := init :: candidates trace in
  In best seen /\ solution_of d best /\ (so_isFeasible best = true <-> exists c, In c seen /\ so_isFeasible c = true).
Proof.
  intros d h Hv Ho Hn Hh Hg Hk Hfin W ce search register stop history noimp exh stats Hev Hse init w0 best data iters trace Hi
    (st & w & Hr & _ & -> & _ & _ & ->).
  destruct (reaches_best so_isFeasible solution_cost solution_penalised ce search register stop history noimp exh stats
    (solution_of d) ev_ok (objective d) (solution_value d h Hv Ho Hn Hh Hg Hk) Hfin
    (fun _ => True) (fun w _ => Hev w) (fun w s e b _ Hs He => conj (Hse w s e b Hs He) I) (fun _ _ _ _ => I) (fun _ _ _ => I) init w0 st Hi I Hr). auto.
Qed.
Print Assumptions C28_best_was_seen.

Theorem C28_best_is_minimal : forall d h, valid_data d -> opens_by d h -> nonneg_durs d -> 2 * h <= MAXV ->
  groups_nodup d -> groups_known d -> (forall s, solution_of d s -> so_isFeasible s = true -> objective d s < MAXV) ->
  forall (W : Type) (cost_evaluator : W -> evaluator) search register stop history noimp exh stats,
  (forall w, ev_ok (cost_evaluator w)) ->
  (forall w s e b, solution_of d s -> ev_ok e -> solution_of d (fst (search w s e b))) ->
  (forall w s e, solution_of d s -> ev_ok e -> so_isFeasible s = true -> so_isFeasible (fst (search w s e true)) = true ->
     objective d (fst (search w s e true)) <= objective d s) ->
  (0 < history)%nat ->
  forall init w0 best data iters trace, solution_of d init ->
  returns so_isFeasible solution_cost solution_penalised cost_evaluator search register stop history noimp exh stats
    init w0 best data iters trace ->
  (forall c, In c (init :: candidates trace) -> so_isFeasible c = true ->
     so_isFeasible best = true /\ objective d best <= objective d c) /\
  (forall pre x post, trace = pre ++ x :: post -> so_isFeasible (last_best init pre) = true ->
     so_isFeasible (t_best x) = true /\ objective d (t_best x) <= objective d (last_best init pre)).
Proof.
  intros d h Hv Ho Hn Hh Hg Hk Hfin W ce search register stop history noimp exh stats Hev Hse Hsane HL init w0 best data iters trace Hi
    (st & w & Hr & _ & -> & _ & _ & ->).
  pose proof (solution_value d h Hv Ho Hn Hh Hg Hk) as Hval.
  assert (HB := reaches_best so_isFeasible solution_cost solution_penalised ce search register stop history noimp exh stats
    (solution_of d) ev_ok (objective d) Hval Hfin
    (fun _ => True) (fun w _ => Hev w) (fun w s e b _ Hs He => conj (Hse w s e b Hs He) I) (fun _ _ _ _ => I) (fun _ _ _ => I) init w0 st Hi I Hr).
  destruct (best_is_minimal so_isFeasible solution_cost solution_penalised ce search register stop history noimp exh stats
    (solution_of d) ev_ok (objective d) Hval Hfin
    (fun _ => True) (fun w _ => Hev w) (fun w s e b _ Hs He => conj (Hse w s e b Hs He) I) (fun _ _ _ _ => I) (fun _ _ _ => I) init w0 st HL (fun w s e _ => Hsane w s e) Hi I Hr) as [M1 M2].
  assert (Hseen : forall c, In c (init :: candidates (i_trace st)) -> solution_of d c).
  { intros c [<-|Hc]; [exact Hi|]. pose proof (bi_good_cands _ _ _ _ _ _ _ HB) as HF. rewrite Forall_forall in HF. auto. }
  assert (Hle : forall a b, solution_of d a -> solution_of d b -> so_isFeasible b = true ->
     Ils.value so_isFeasible (objective d) a <= Ils.value so_isFeasible (objective d) b ->
     so_isFeasible a = true /\ objective d a <= objective d b).
  { intros a b Ha Hb Hf. unfold Ils.value. rewrite Hf. pose proof (Hfin b Hb Hf). destruct (so_isFeasible a) eqn:Ea; [auto|]. intros; lia. }
  pose proof (reaches_inv _ _ _ _ _ _ _ _ _ _ _ _ _ _ HL Hr) as HI.
  assert (Hbest : forall tr, (exists post, i_trace st = tr ++ post) -> In (last_best init tr) (init :: candidates tr)).
  { intros tr. induction tr as [|x tr IH] using rev_ind; intros [post Ep]; [left; reflexivity|].
    rewrite <- app_assoc in Ep. cbn [app] in Ep. specialize (IH ltac:(eexists; exact Ep)).
    pose proof (iv_iter _ _ _ _ _ _ _ _ _ _ _ HI tr x post Ep) as Hx. unfold last_best at 1. rewrite last_map_app.
    rewrite (io_best _ _ _ _ _ _ _ _ _ _ _ Hx). unfold candidates. rewrite flat_map_app. cbn [flat_map]. rewrite app_nil_r.
    fold (candidates tr). rewrite app_comm_cons. apply in_or_app. destruct (t_improves x); [right|left; exact IH].
    unfold cands. destruct (t_exh x) as [c|]; [|left; reflexivity]. destruct (so_isFeasible c); [right; left; reflexivity|left; reflexivity]. }
  split.
  - intros c Hc Hf. apply Hle; [apply (bi_good_best _ _ _ _ _ _ _ HB)|apply Hseen; exact Hc|exact Hf|apply M1; exact Hc].
  - intros pre x post Ep Hf.
    assert (Hsub : forall tr c, (exists post, i_trace st = tr ++ post) -> In c (init :: candidates tr) -> solution_of d c).
    { intros tr c [post' Ep'] [<-|Hc]; [exact Hi|]. apply Hseen. right. rewrite Ep'. unfold candidates. rewrite flat_map_app. apply in_or_app. left. exact Hc. }
    apply Hle; [|apply (Hsub pre); [eexists; exact Ep|apply Hbest; eexists; exact Ep]|exact Hf|exact (M2 pre x post Ep)].
    assert (Ep2 : i_trace st = (pre ++ [x]) ++ post) by (rewrite Ep, <- app_assoc; reflexivity).
    apply (Hsub (pre ++ [x])); [eexists; exact Ep2|]. replace (t_best x) with (last_best init (pre ++ [x])) by (unfold last_best; apply last_map_app).
    apply Hbest. eexists; exact Ep2.
Qed.
Print Assumptions C28_best_is_minimal.

(** Example data, and two solutions of it. *)
Definition ex_get (x : res route) : route :=
  match x with Ok r => r | Err _ => mk_route [] 0 0 0 [] [] [] 0 0 0 0 0 0 0 0 0 0 0 0 0 end.
Definition ex_gets (x : res solution) : solution :=
  match x with Ok s => s | Err _ => mk_solution [] [] 0 0 0 0 0 0 0 0 0 0 0 [] 0 0 0 0 end.
Definition ex_acts1 : list activity := [AClient 0; APickup 0; ADelivery 0; ADepot 1; AClient 1].
Definition ex_r1 : route := ex_get (make_route sample ex_acts1 0).
Definition ex_r2 : route := ex_get (make_route sample [AClient 3] 1).
Definition ex_s1 : solution := ex_gets (make_solution sample [ex_r1; ex_r2]).
Definition ex_s2 : solution := ex_gets (make_solution sample [ex_r1]).
Definition ex_ev : evaluator := mk_evaluator [fun _ => 0; fun _ => 0] (fun _ => 0) (fun _ => 0).
Lemma ex_ev_ok : ev_ok ex_ev.
Proof. constructor; repeat constructor; intros; cbn; lia. Qed.
Lemma ex_built1 : built sample ex_r1.
Proof. exists ex_acts1, 0%nat. split; [vm_compute; lia|vm_compute; reflexivity]. Qed.
Lemma ex_built2 : built sample ex_r2.
Proof. exists [AClient 3], 1%nat. split; [vm_compute; lia|vm_compute; reflexivity]. Qed.
Lemma ex_solutions : solution_of sample ex_s1 /\ solution_of sample ex_s2.
Proof.
  split.
  - exists [ex_r1; ex_r2]. split; [repeat constructor; [apply ex_built1|apply ex_built2]|vm_compute; reflexivity].
  - exists [ex_r1]. split; [repeat constructor; apply ex_built1|vm_compute; reflexivity].
Qed.

(** The proviso is needed: if the exhaustive search returns a feasible but worse solution then that
    is the one returned, although a better one was seen. *)
Theorem C28_worse_exhaustive_refuted : exists search stop best data iters trace,
  (forall w s e b, solution_of sample s -> ev_ok e -> solution_of sample (fst (search w s e b))) /\
  returns so_isFeasible solution_cost solution_penalised (fun _ : nat => ex_ev) search (fun w _ => w) stop 3 10 true true
    ex_s1 0%nat best data iters trace /\
  In ex_s2 (candidates trace) /\ so_isFeasible ex_s2 = true /\ objective sample ex_s2 < objective sample best.
Proof.
  exists (fun (w : nat) (_ : solution) (_ : evaluator) (b : bool) => (if b then ex_s1 else ex_s2, w)), (fun (w : nat) (_ : Z) => match w with O => (false, 1%nat) | _ => (true, w) end).
  do 4 eexists. split; [|split; [|split]].
  - intros w s e b _ _. cbn [fst]. destruct b; apply ex_solutions.
  - do 2 eexists. split; [eapply reaches_step; [apply reaches_init|vm_compute; reflexivity]|].
    split; [vm_compute; reflexivity|]. repeat split; vm_compute; reflexivity.
  - vm_compute. left. reflexivity.
  - split; [vm_compute; reflexivity|]. vm_compute. reflexivity.
Qed.
Print Assumptions C28_worse_exhaustive_refuted.

(** The hypotheses of the theorems above are met: a search that always answers with the same two
    solutions, in turns. *)
Lemma sample_groups : groups_nodup sample /\ groups_known sample.
Proof.
  split; repeat constructor; cbn; try lia; intros H; repeat destruct H as [H|H]; try discriminate; tauto.
Qed.
Definition ex_search (w : nat) (s : solution) (e : evaluator) (b : bool) : solution * nat :=
  (if b then s else if Nat.even w then ex_s1 else ex_s2, S w).
Definition ex_stop (w : nat) (best : Z) : bool * nat := ((6 <? w)%nat, w).
Ltac ex_steps n :=
  match n with O => apply reaches_init | S ?k => eapply reaches_step; [ex_steps k|vm_compute; reflexivity] end.
Example C28_case : (forall w s e b, solution_of sample s -> ev_ok e -> solution_of sample (fst (ex_search w s e b))) /\
  (forall w s e, solution_of sample s -> ev_ok e -> so_isFeasible s = true -> so_isFeasible (fst (ex_search w s e true)) = true ->
     objective sample (fst (ex_search w s e true)) <= objective sample s) /\
  solution_of sample ex_s1 /\ groups_nodup sample /\ groups_known sample /\ valid_data sample /\ opens_by sample 20 /\
  exists data trace,
  returns so_isFeasible solution_cost solution_penalised (fun _ => ex_ev) ex_search (fun w _ => w) ex_stop 2 1 true true
    ex_s1 0%nat ex_s2 data 6 trace /\ map t_restart trace = [false; true; false; true; true; true].
Proof.
  split; [|split; [|split; [|split; [|split; [|split; [|split]]]]]].
  - intros w s e b Hs _. unfold ex_search. cbn [fst]. destruct b; [exact Hs|]. destruct (Nat.even w); apply ex_solutions.
  - intros w s e _ _ _ _. cbn. lia.
  - apply ex_solutions.
  - apply sample_groups.
  - apply sample_groups.
  - apply sample_valid.
  - apply sample_opens.
  - do 2 eexists. split.
    + do 2 eexists. split.
      * ex_steps 6%nat.
      * split; [vm_compute; reflexivity|]. repeat split; vm_compute; reflexivity.
    + vm_compute. reflexivity.
Qed.

(** C29: bookkeeping of iterated local search, for any search method, penalty manager, and so on. *)
Theorem C29_bookkeeping : forall (S E W : Type) (feas : S -> bool) (cost pcost : E -> S -> Z) (cost_evaluator : W -> E)
    search register stop history noimp exh stats (init : S) w0 best data iters trace, (0 < history)%nat ->
  returns feas cost pcost cost_evaluator search register stop history noimp exh stats init w0 best data iters trace ->
  iters = length trace /\ best = last (map t_best trace) init /\
  data = (if stats : bool then map (collect feas pcost) trace else []) /\
  forall pre x post, trace = pre ++ x :: post -> iter_ok feas cost pcost cost_evaluator search history noimp exh init pre x.
Proof.
  intros S E W feas cost pcost ce search register stop history noimp exh stats init w0 best data iters trace HL (st & w & Hr & _ & -> & -> & -> & ->).
  destruct (reaches_inv feas cost pcost ce search register stop history noimp exh stats init w0 st HL Hr). auto.
Qed.
Print Assumptions C29_bookkeeping.

(** C33: minimising the fleet, for any solver that returns solutions of what it is asked to solve. *)
Theorem C33_lower_bound : forall d h routes s,
  valid_data d -> opens_by d h -> nonneg_durs d -> 2 * h <= MAXV -> groups_nodup d -> groups_known d ->
  p_numVehicleTypes d = 1%nat -> Forall (fun c => c_required c = true) (p_clients d) ->
  Forall (built d) routes -> make_solution d routes = Ok s -> so_isFeasible s = true ->
  Z.of_nat (length routes) <= 2 ^ 53 -> lower_bound d <= Z.of_nat (length routes).
Proof. exact lower_bound_sound. Qed.
Print Assumptions C33_lower_bound.

(** The fleet that is returned is the original one, or one with fewer vehicles with which a feasible
    solution exists. *)
Theorem C33_minimised : forall (W : Type) (solve : W -> pdata -> solution * W) stop d h w,
  fleet_data d h -> answers solve d -> 1 <= lower_bound d -> Z.of_nat (v_numAvailable (p_vehicle d 0)) <= 2 ^ 53 ->
  let v := p_vehicle d 0 in
  exists n, minimise_fleet solve stop w d = Ok (with_available v n) /\ (0 < n <= v_numAvailable v)%nat /\
    (n = v_numAvailable v \/
     lower_bound d <= Z.of_nat n /\
     exists routes s, Forall (built (with_fleet d n)) routes /\ make_solution (with_fleet d n) routes = Ok s /\ so_isFeasible s = true).
Proof.
  intros W solve stop d h w F A L M v. destruct (minimise_fleet_spec solve stop d h w F A L M) as (n & E & Hn & H).
  exists n. split; [exact E|]. split; [exact Hn|]. destruct H as [H|(H & n' & routes & s & _ & HB & Es & Hf & Hle)]; [left; exact H|right].
  split; [exact H|]. exists routes, s. destruct (fewer_vehicles d n n' routes s (fd_one _ _ F) HB Es Hle) as [HB' Es']. auto.
Qed.
Print Assumptions C33_minimised.

Theorem C33_rejects : forall (W : Type) (solve : W -> pdata -> solution * W) stop d w,
  (p_numVehicleTypes d <> 1%nat \/ exists c, In c (p_clients d) /\ c_required c = false) ->
  minimise_fleet solve stop w d = Err InvalidArgument.
Proof. exact @minimise_fleet_rejects. Qed.
Print Assumptions C33_rejects.

(** Three clients that need two vehicles; [demand] 0 for no demand at all. *)
Definition fl_vehicle (n : nat) : vehicle :=
  mk_vehicle n 0 0 [10] 0 100 MAXV MAXV 0 1 0 0 100 [0] [] 0 0 0 MAXV EmptyString.
Definition fl_client (demand : Z) : client := mk_client 1 0 0 100 [demand] [0] 0 0 true None EmptyString.
Definition fl_data (demand : Z) (n : nat) : pdata :=
  mk_pdata [sLoc 0 0; sLoc 3 4] [fl_client demand; fl_client demand; fl_client demand] [mk_depot 0 0 100 0 EmptyString]
    [fl_vehicle n] [mk_matrix 2 2 [0; 5; 5; 0]] [mk_matrix 2 2 [0; 5; 5; 0]] [] [].
Lemma fl_made n : (0 < n)%nat -> vehicle_made (fl_vehicle n).
Proof.
  intros Hn. split; [vm_compute; discriminate|].
  exists n, [10], 0%nat, 0%nat, 0, 0, 100, MAXV, MAXV, 1, 0, 0%nat, None, [], [], 0, 0, 0, EmptyString.
  apply make_vehicle_spec. split; [|reflexivity]. cbn [or_else]. unfold MAXV.
  split; [exact Hn|]. split; [repeat constructor; lia|]. split; [constructor|].
  split; [intros [|[|dim]]; unfold dimv; cbn; try lia; destruct dim; cbn; lia|]. lia.
Qed.
Lemma fl_ok demand n : (0 < n)%nat -> 0 <= demand -> fleet_data (fl_data demand n) 20.
Proof.
  intros Hn Hd.
  assert (HM : Forall client_made (p_clients (fl_data demand n))).
  { repeat constructor; try (cbn; unfold MAXV; lia);
      (exists 1%nat, [demand], [0], 0, 0, 100, 0, 0, true, None, EmptyString; apply make_client_spec; split; [|reflexivity];
       repeat split; try lia; repeat constructor; lia). }
  assert (HW : windows_ok (fl_data demand n)) by (split; repeat constructor; cbn; lia).
  assert (HD : data_ok (fl_data demand n)).
  { constructor.
    - intros i Hi. cbn in Hi. destruct i as [|[|[|i]]]; [| | |lia]; cbn; (repeat split; try lia; discriminate).
    - cbn. lia.
    - intros x [<-|[]]. cbn. lia.
    - intros g Hg. cbn in Hg. lia.
    - intros x [].
    - cbn. lia.
    - intros v [<-|[]]. cbn.
      split; [reflexivity|]. split; [lia|]. split; [lia|]. split; [lia|]. split; [exists 0; lia|]. split; [exists 0; lia|tauto].
    - cbn. lia.
    - reflexivity.
    - intros m [<-|[<-|[]]]; (split; [reflexivity|]; split; [reflexivity|]); intros loc Hloc; unfold p_numLocations in Hloc;
        cbn in Hloc; destruct loc as [|[|loc]]; try lia; reflexivity. }
  constructor; try assumption.
  - destruct (DataCtor.vehicle_valid _ (fl_made n Hn)) as [Hv _]. constructor; cbn [fl_data p_clients p_depots p_shipments p_vehicles].
    + rewrite Forall_forall in HM |- *. intros c Hc. apply client_valid. apply HM. exact Hc.
    + repeat constructor; cbn; unfold MAXV; lia.
    + constructor.
    + constructor; [exact Hv|constructor].
  - constructor; cbn; repeat constructor; cbn; lia.
  - intros profile a b. unfold p_dur. apply mat_nonneg. cbn [fl_data p_durs]. destruct profile as [|[|p]]; cbn; repeat constructor; lia.
  - unfold MAXV. lia.
  - constructor.
  - constructor.
  - reflexivity.
  - repeat constructor.
  - apply fl_made. exact Hn.
Qed.
(** A solver meeting the hypothesis: random solutions. *)
Definition fl_solve (r : rng) (d : pdata) : solution * rng :=
  let '(r, s) := make_random d r in (ex_gets s, r).
Lemma fl_bound : lower_bound (fl_data 6 5) = 2.
Proof.
  change (Z.max (ceil_div 18 10) 0 = 2). assert (H : ceil_div 18 10 = 2); [|rewrite H; reflexivity].
  assert (H2 : ceil_div 18 10 <= 2) by (apply ceil_div_le; lia).
  assert (H1 : 1 < ceil_div 18 10); [|lia]. apply lt_IZR. apply Rlt_le_trans with (true_div 18 10); [|apply Zceil_ub].
  apply Rlt_le_trans with (3 / 2)%R; [lra|]. unfold true_div.
  assert (G : generic_format radix2 (FLT_exp (3 - 1024 - 53) 53) (3 / 2)%R).
  { apply generic_format_FLT. exists (Float radix2 3 (-1)); [unfold F2R; cbn; lra|cbn; lia|cbn; lia]. }
  rewrite <- (round_generic radix2 (FLT_exp (3 - 1024 - 53) 53) ZnearestE (3 / 2)%R G).
  apply round_le; [apply FLT_exp_valid; reflexivity|apply valid_rnd_N|lra].
Qed.
Lemma no_bound : lower_bound (fl_data 0 1) = 0.
Proof.
  change (Z.max (ceil_div 0 10) 0 = 0). replace (ceil_div 0 10) with 0; [reflexivity|].
  unfold ceil_div, true_div. replace (0 / 10)%R with 0%R by lra. rewrite round_0; [symmetry; apply Zceil_IZR|apply valid_rnd_N].
Qed.
Example C33_case : fleet_data (fl_data 6 5) 20 /\ answers fl_solve (fl_data 6 5) /\ lower_bound (fl_data 6 5) = 2.
Proof.
  split; [apply fl_ok; lia|]. split; [|exact fl_bound]. intros w n [Hn _].
  assert (F : fleet_data (with_fleet (fl_data 6 5) n) 20) by (apply with_fleet_data; [apply fl_ok; lia|exact Hn]).
  destruct (make_random_spec (with_fleet (fl_data 6 5) n) w) as (routes & s & E & HB & Hs & _).
  - apply (fd_ok _ _ F).
  - cbn. repeat constructor; unfold SIZE_MAX; cbn; lia.
  - cbn. repeat constructor; exact Hn.
  - apply (fd_nodup _ _ F).
  - exists routes. split; [exact HB|]. unfold fl_solve. destruct (make_random (with_fleet (fl_data 6 5) n) w) as [r' x]. cbn [snd] in E. subst x. exact Hs.
Qed.

(** The lower bound must be positive: without demand and with a single vehicle the call fails,
    whatever the solver. *)
Theorem C33_no_demand_refuted : forall (W : Type) (solve : W -> pdata -> solution * W) stop w,
  fleet_data (fl_data 0 1) 20 /\ lower_bound (fl_data 0 1) = 0 /\
  minimise_fleet solve stop w (fl_data 0 1) = Err InvalidArgument.
Proof.
  intros W solve stop w. split; [apply fl_ok; lia|]. split; [exact no_bound|]. unfold minimise_fleet. rewrite no_bound. reflexivity.
Qed.
Print Assumptions C33_no_demand_refuted.

(** C42: statistics files.  [repr] and [float] are Python's conversions between floats and text. *)
Theorem C42_csv_roundtrip : forall (F : Type) (repr : F -> text) (float : text -> res F),
  (forall x, float (repr x) = Ok x) -> (forall x, ~ In lf (repr x)) ->
  forall delim s, delim <> quote -> delim <> lf -> collected true s -> from_csv float delim (to_csv repr delim s) = Ok s.
Proof. exact @csv_roundtrip. Qed.
Print Assumptions C42_csv_roundtrip.

(** Statistics that do not collect come back as (empty) statistics that do. *)
Theorem C42_not_collecting_refuted : forall (F : Type) (repr : F -> text) (float : text -> res F),
  (forall x, float (repr x) = Ok x) -> (forall x, ~ In lf (repr x)) ->
  forall delim, delim <> quote -> delim <> lf -> exists s, collected false s /\
  from_csv float delim (to_csv repr delim s) <> Ok s.
Proof.
  intros F repr float H1 H2 delim D1 D2. exists (new_stats false). split; [constructor|].
  rewrite (proj1 (csv_not_collecting repr float H1 H2 delim (new_stats false) D1 D2 (co_new false))). discriminate.
Qed.
Print Assumptions C42_not_collecting_refuted.

(** With integral run times, [repr] and [float] as for integers; a comma as delimiter. *)
Example C42_case : exists s, (forall x, read_int (print_int x) = Ok x) /\ (forall x, ~ In lf (print_int x)) /\
  collected true s /\ sc_iterations s = 2%nat /\
  to_csv print_int ","%char s =
    list_ascii_of_string ("runtime,current_cost,current_feas,candidate_cost,candidate_feas,best_cost,best_feas" ++
      String lf "3,10,1,-7,0,10,1" ++ String lf "5,8,1,8,1,8,1" ++ String lf "")%string.
Proof.
  exists (stats_collect (stats_collect (new_stats true) 3 (mk_datum 10 true (-7) false 10 true)) 5 (mk_datum 8 true 8 true 8 true)).
  split; [exact int_roundtrip|]. split; [exact int_line|]. split; [repeat constructor|]. split; [reflexivity|]. vm_compute. reflexivity.
Qed.

(** C43: random solutions. *)
Theorem C43_random_solution : forall d r,
  data_ok d -> Forall (fun v => 0 <= v_maxReloads v <= SIZE_MAX) (p_vehicles d) ->
  Forall (fun v => (0 < v_numAvailable v)%nat) (p_vehicles d) -> groups_nodup d ->
  exists routes s, snd (make_random d r) = Ok s /\ Forall (built d) routes /\ make_solution d routes = Ok s /\
    so_isComplete s = true /\ forall rt, In rt routes -> forall a, In a (r_acts rt) -> a_isDepot a = false.
Proof. exact make_random_spec. Qed.
Print Assumptions C43_random_solution.

(** What completeness means, and what every solution satisfies. *)
Theorem C43_complete : forall d routes s, Forall (built d) routes -> groups_nodup d -> groups_known d ->
  make_solution d routes = Ok s ->
  consistent d routes /\
  (so_isComplete s = true <->
   (forall i, (i < p_numClients d)%nat -> c_required (p_client d i) = true -> In (AClient i) (plan routes)) /\
   (forall i, (i < p_numShipments d)%nat -> s_required (p_shipment d i) = true ->
      In (APickup i) (plan routes) /\ In (ADelivery i) (plan routes)) /\
   (forall g, In g (p_groups d) -> g_required g = true -> exists i, In i (g_clients g) /\ In (AClient i) (plan routes))).
Proof.
  intros d routes s HB Hg Hk Hs. split; [apply (make_solution_iff d routes HB Hg Hk); exists s; exact Hs|].
  exact (complete_spec d routes HB Hg Hk s Hs).
Qed.
Print Assumptions C43_complete.

Example C43_case : data_ok (fl_data 6 5) /\ Forall (fun v => 0 <= v_maxReloads v <= SIZE_MAX) (p_vehicles (fl_data 6 5)) /\
  Forall (fun v => (0 < v_numAvailable v)%nat) (p_vehicles (fl_data 6 5)) /\ groups_nodup (fl_data 6 5) /\
  map r_acts (so_routes (ex_gets (snd (make_random (fl_data 6 2) (rng_seed 1))))) = [[AClient 0; AClient 1]; [AClient 2]].
Proof.
  pose proof (fl_ok 6 5 ltac:(lia) ltac:(lia)) as F. split; [apply (fd_ok _ _ F)|].
  split; [cbn; repeat constructor; unfold SIZE_MAX; cbn; lia|]. split; [cbn; repeat constructor; lia|]. split; [apply (fd_nodup _ _ F)|].
  vm_compute. reflexivity.
Qed.

(** C44: models. *)
Theorem C44_edges : forall m missing d, model_built m -> model_data m missing = Ok d ->
  length (p_dists d) = Nat.max 1 (length (mo_profiles m)) /\
  forall p i j, (p < Nat.max 1 (length (mo_profiles m)))%nat -> (i < length (mo_locations m))%nat -> (j < length (mo_locations m))%nat ->
    let fill := if (i =? j)%nat then 0 else Z.min missing MAX_VALUE in
    let between := filter (fun e => (e_frm e =? id_at m i)%nat && (e_to e =? id_at m j)%nat)
                     (mo_edges m ++ snd (nth p (mo_profiles m) (0%nat, []))) in
    p_dist d p i j = last (map e_dist between) fill /\ p_dur d p i j = last (map e_dur between) fill.
Proof. exact model_data_edges. Qed.
Print Assumptions C44_edges.

Theorem C44_unknown_location : forall m missing, ~ edges_known m -> model_data m missing = Err OutOfRange.
Proof. exact model_data_unknown. Qed.
Print Assumptions C44_unknown_location.

Theorem C44_succeeds_iff_complete : forall m missing, model_built m ->
  (complete m -> exists d, model_data m missing = Ok d /\ valid_data d /\ data_ok d /\
     (0 <= missing -> nonneg_dists d /\ nonneg_durs d)) /\
  (~ complete m -> exists e, model_data m missing = Err e).
Proof. exact model_data_complete. Qed.
Print Assumptions C44_succeeds_iff_complete.

Theorem C44_from_data_roundtrip : forall d missing, windows_ok d -> data_ok d -> Forall m_ok (p_dists d ++ p_durs d) ->
  (forall p i j, (p < length (p_dists d))%nat -> (i < p_numLocations d)%nat -> (j < p_numLocations d)%nat ->
     0 <= p_dist d p i j /\ 0 <= p_dur d p i j) ->
  exists m, from_data d = Ok m /\ model_data m missing = Ok d.
Proof. exact from_data_roundtrip. Qed.
Print Assumptions C44_from_data_roundtrip.

Theorem C44_from_data_negative : forall d p i j, (p < length (p_dists d))%nat -> (i < p_numLocations d)%nat -> (j < p_numLocations d)%nat ->
  p_dist d p i j < 0 \/ p_dur d p i j < 0 -> exists e, from_data d = Err e.
Proof. exact from_data_negative. Qed.
Print Assumptions C44_from_data_negative.

(** A model with two locations, an edge that is overridden, and a profile that overrides it again. *)
Definition ex_ops : list op :=
  [ AddLocation 7 (sLoc 0 0); AddLocation 9 (sLoc 3 4); AddProfile 4; AddProfile 5; AddEdge 7 9 5 5 None; AddEdge 7 9 6 8 None;
    AddEdge 9 7 2 1 (Some 5%nat); AddEdge 7 9 3 3 (Some 5%nat); AddDepot 1 7 0 100 0 EmptyString;
    AddClient 9 [1] [0] 2 0 50 0 0 true None EmptyString;
    AddVehicle 2 [10] None None 0 0 100 MAXV MAXV 1 0 (Some 5%nat) None [] [] 0 0 0 EmptyString ].
Definition ex_run (ops : list op) : res pymodel := fold_left (fun m o => bind m (fun m => step m o)) ops (Ok empty_model).
Definition ex_model : pymodel := match ex_run ex_ops with Ok m => m | Err _ => empty_model end.
Example C44_case : model_built ex_model /\
  exists d, model_data ex_model 99 = Ok d /\
    map (fun p => [p_dist d p 0 0; p_dist d p 0 1; p_dist d p 1 0; p_dur d p 0 1]) [0%nat; 1%nat] = [[0; 6; 99; 8]; [0; 3; 2; 3]].
Proof.
  split.
  - assert (G : forall ops m, model_built m -> forall m', fold_left (fun m o => bind m (fun m => step m o)) ops (Ok m) = Ok m' ->
      (forall pre o post m1, ops = pre ++ o :: post -> fold_left (fun m o => bind m (fun m => step m o)) pre (Ok m) = Ok m1 -> fresh m1 o /\ int64_late o) ->
      model_built m').
    { induction ops as [|o ops IH]; intros m Hm m' E Hf; cbn [fold_left] in E; [congruence|]. cbn [bind] in E.
      destruct (step m o) as [m1|e] eqn:Es.
      - destruct (Hf [] o ops m eq_refl eq_refl) as [F1 F2]. apply (IH m1); [eapply mb_step; eassumption|exact E|].
        intros pre o' post m2 Ep Er. apply (Hf (o :: pre) o' post m2); [rewrite Ep; reflexivity|]. cbn [fold_left bind]. rewrite Es. exact Er.
      - exfalso. revert E. clear. induction ops as [|x ops IH]; cbn; [discriminate|exact IH]. }
    apply (G ex_ops empty_model mb_empty); [reflexivity|].
    intros pre o post m1 Ep Er.
    do 11 (destruct pre as [|? pre]; [injection Ep as <- _; injection Er as <-; cbn; split; try tauto; try (vm_compute; congruence); lia|
      injection Ep as <- Ep]). destruct pre; discriminate.
  - eexists. split; vm_compute; reflexivity.
Qed.
Example C44_roundtrip_case : windows_ok (fl_data 6 5) /\ data_ok (fl_data 6 5) /\ Forall m_ok (p_dists (fl_data 6 5) ++ p_durs (fl_data 6 5)) /\
  forall p i j, 0 <= p_dist (fl_data 6 5) p i j /\ 0 <= p_dur (fl_data 6 5) p i j.
Proof.
  pose proof (fl_ok 6 5 ltac:(lia) ltac:(lia)) as F. split; [apply (fd_windows _ _ F)|]. split; [apply (fd_ok _ _ F)|].
  split; [repeat constructor|]. intros p i j. split; [|apply (fd_durs _ _ F)].
  unfold p_dist. apply mat_nonneg. destruct p as [|[|p]]; cbn; repeat constructor; lia.
Qed.
