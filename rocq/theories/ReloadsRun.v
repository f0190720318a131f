(** The reload depots in the routes that a call of the local search and solve() return. *)
From Coq Require Import Permutation.
From Verif Require Import Base DurationSegment Data LoadSegment SearchRoute Valid Route RouteSpec RouteFacts2 RouteFacts3 RouteFacts4 Cost CostFacts DeltaFacts DataCtor Solution SolutionFacts
  SolutionFacts2 SolutionFacts3 Bitset Rng RngFloat Penalty Pm MakeRandom SearchSpace Neighbourhood SearchNodes SearchSeq SearchLoad Ops PlanFacts ShipState OpsBase OpsGen
  OpsEdit2 OpsAll LocalSearch LocalFacts LocalTerm LocalInsert LocalEnsure Perturb LocalRun Stop Ils Solve SupportsRun ReloadsAllowed.
Local Open Scope nat_scope.

Section Call.
Variable d : pdata.
Variable h : Z.
Variable ev : evaluator.
Hypothesis St : setting d h ev.
Hypothesis ND : groups_nodup d.
Hypothesis Reloads : forall v, In v (p_vehicles d) -> (0 <= v_maxReloads v)%Z.

Lemma load_allowed routes sol : Forall (built d) routes -> make_solution d routes = Ok sol -> (forall r, In r routes -> route_reloads d r) -> allowed d (load_plan d routes).
Proof.
  intros B Es H r k Hk. destruct (Nat.lt_ge_cases r (length (load_plan d routes))) as [L|L]; [|unfold mid_at in Hk; rewrite nth_overflow in Hk by exact L; destruct Hk].
  pose proof (load_len d h ev St ND routes B sol Es) as Ln.
  assert (Hin : In (nth r (fleet d) 0, mid_at (load_plan d routes) r) (combine (fleet d) (load_plan d routes))).
  { unfold mid_at. rewrite <- (combine_nth _ _ r 0 [] (eq_sym Ln)). apply nth_In. rewrite combine_length. lia. }
  rewrite rveh_type by lia. revert Hin Hk. generalize (nth r (fleet d) 0) (mid_at (load_plan d routes) r). intros t m Hin Hk.
  rewrite (load_pairs d h ev St ND routes B sol Es) in Hin. apply in_flat_map in Hin as (t' & _ & Hin). apply in_app_iff in Hin as [Hin|Hin].
  - apply in_map_iff in Hin as (x & E & Hx). injection E as <- <-. unfold of_type in Hx. apply filter_In in Hx as [Hx Ht]. apply Nat.eqb_eq in Ht.
    pose proof (H x Hx k Hk) as X. rewrite Ht in X. exact X.
  - apply repeat_spec in Hin. injection Hin as -> ->. destruct Hk.
Qed.
Lemma plan_routes_in : forall l routes, plan_routes d l = Ok routes -> forall r, In r routes -> exists vt mid, In (vt, mid) l /\ make_route d mid vt = Ok r.
Proof.
  induction l as [|[vt mid] l IH]; intros routes; cbn [plan_routes]; [intros [= <-] r []|]. destruct (has_visit mid).
  - destruct (make_route d mid vt) as [x|] eqn:E; [|discriminate]. destruct (plan_routes d l) as [rs|] eqn:El; [|discriminate]. intros X. injection X as <-.
    intros r [<-|Hr]; [exists vt, mid; split; [left; reflexivity|exact E]|]. destruct (IH rs eq_refl r Hr) as (vt' & mid' & H1 & H2). exists vt', mid'. split; [right; exact H1|exact H2].
  - intros E r Hr. destruct (IH routes E r Hr) as (vt' & mid' & H1 & H2). exists vt', mid'. split; [right; exact H1|exact H2].
Qed.
Lemma unload_allowed p sol : plan_ok d p -> group_once d p -> unload_sol d (sync d p) = Ok sol -> allowed d p -> sol_reloads d sol.
Proof.
  intros P G E H r Hr. pose proof (fun v H => trips_one v (Reloads v H)) as Trips.
  destruct (plan_solution d h ev St ND Trips p P G) as (routes & sol' & Ep & U & Es & B & _). rewrite U in E. injection E as ->.
  rewrite (own_routes d h ev St ND routes sol B Es) in Hr. destruct (plan_routes_in _ _ Ep r Hr) as (vt & mid & Hin & Er).
  assert (L : length p = length (fleet d)) by (rewrite (pk_len d p P); unfold fleet_vehicles; rewrite map_length; reflexivity).
  destruct (combine_in _ _ _ _ 0 [] Hin) as (i & H1 & H2 & -> & ->).
  assert (Ea : r_acts r = nth i p []) by (rewrite (route_fields d _ _ r Er); unfold r_acts; cbn [r_schedule]; rewrite schedule_acts; cbn [List.tl]; apply removelast_last).
  assert (Et : r_vehicleType r = nth i (fleet d) 0) by (rewrite (route_fields d _ _ r Er); reflexivity).
  intros k Hk. rewrite Et, <- rveh_type by exact H1. rewrite Ea in Hk. apply H. exact Hk.
Qed.
Theorem call_allowed uops bops sp sol n num exhaustive sol' sp' routes : Forall op_ok bops -> Forall (built d) routes -> make_solution d routes = Ok sol -> space_inv d sp -> space_ok d sp ->
  ls_call d ev uops bops n num exhaustive sp sol = Returns sol' sp' -> sol_reloads d sol -> sol_reloads d sol'.
Proof.
  intros Ops B Es Si So E Hs. pose proof (fun v H => trips_one v (Reloads v H)) as Trips. pose proof (own_routes d h ev St ND routes sol B Es) as Er.
  unfold sol_reloads in Hs. rewrite Er in Hs. pose proof (load_allowed routes sol B Es Hs) as A0.
  destruct (call_ready d h ev St ND Reloads bops sp routes sol num exhaustive B Es Si So) as (st1 & st2 & P1 & E2 & I2).
  unfold ls_call in E. rewrite P1, E2 in E. destruct (search d ev uops bops n st2) as [st3| |] eqn:E3; try discriminate.
  assert (A1 : allowed d (l_plan st1)).
  { revert P1. unfold ls_prepare. destruct exhaustive.
    - intros X. rewrite <- (some_eq _ _ X). unfold ls_start, l_plan, with_space. cbn [l_sol sp_mids sync]. rewrite Er. exact A0.
    - destruct (perturb_spec d h ev St num (load_plan d routes) sp (load_ok d h ev St ND Trips routes B sol Es) Si So) as ([s1 sp1] & X & Ep & Px & _).
      unfold ls_start. cbn [l_sol l_space]. rewrite Er, Ep. intros Y. rewrite <- (some_eq _ _ Y). exact (allowed_perturbed d _ _ _ _ Px A0). }
  pose proof (allowed_ensure d ev st1 st2 E2 A1) as A2.
  pose proof (q_search d h ev St uops bops Ops (allowed d) (allowed_tidy d) (unary_allowed d) (binary_allowed d) n st2 st3 (mk_good d ev bops (allowed d) st2 I2 A2) E3) as [I3 A3].
  destruct (unload_sol d (l_sol st3)) as [s|] eqn:U; [|discriminate]. assert (X : s = sol') by congruence. subst s.
  rewrite (li_sync _ _ _ _ I3) in U. exact (unload_allowed (l_plan st3) sol' (li_ok _ _ _ _ I3) (sr_once d _ (li_str _ _ _ _ I3)) U A3).
Qed.
Theorem py_call_allowed se routes sol exhaustive n sol' se' : usable d se -> Forall (built d) routes -> make_solution d routes = Ok sol ->
  py_call d n se sol ev exhaustive = Some (sol', se') -> sol_reloads d sol -> sol_reloads d sol'.
Proof.
  intros U B Es E. pose proof (shuffle_usable d se U) as [A1 A2 A3 A4 A5]. unfold py_call in E. set (s1 := se_shuffle se) in *.
  destruct (ls_call d ev (se_unary s1) (se_binary s1) n (se_num s1) exhaustive (se_space s1) sol) as [s sp'| | |] eqn:El; try discriminate.
  assert (X : s = sol') by congruence. subst s. exact (call_allowed _ _ _ _ _ _ _ _ _ routes A3 B Es A1 A2 El).
Qed.
End Call.

(** ** solve() *)
Section Keep.
Variable d : pdata.
Variable X : Type.
Variable stop : X -> Z -> bool * X.
Variable p : solve_params.
Variable collect_stats : bool.
Variable h : Z.
Hypothesis Hd : solvable d h.
Hypothesis Hp : params_ok p.
(** Whatever the local search keeps, solve() keeps. *)
Variable Q : solution -> Prop.
Hypothesis Hcall : forall ev se s exhaustive n s' se', setting d h ev -> usable d se -> is_solution d s -> py_call d n se s ev exhaustive = Some (s', se') -> Q s -> Q s'.
Hypothesis Hrandom : forall r s, snd (make_random d r) = Ok s -> Q s.

Lemma keep_find n w s e exhaustive : okw d X p w -> is_solution d s /\ Q s -> good_evaluator d e ->
  (is_solution d (fst (w_find d X n w s e exhaustive)) /\ Q (fst (w_find d X n w s e exhaustive))) /\ okw d X p (snd (w_find d X n w s e exhaustive)).
Proof.
  intros W [Hs Hq] He. destruct (find_ok d X stop p h Hd n w s e exhaustive W Hs He) as (A & _ & B & _). split; [|exact A]. split; [exact B|].
  unfold w_find. destruct (py_call d n (w_search X w) s e exhaustive) as [[s1 se1]|] eqn:E; cbn [fst]; [|exact Hq].
  exact (Hcall e _ s exhaustive n s1 se1 (in_setting d h Hd e He) (proj1 W) Hs E Hq).
Qed.
Theorem solve_keeps n k seed initial x o : (forall s, initial = Some s -> is_solution d s /\ Q s) -> solve d X stop p collect_stats n k seed initial x = Some (Ok o) ->
  Q (o_best o) /\ forall c, In c (o_init o :: candidates (o_trace o)) -> Q c.
Proof.
  intros Hi E. unfold solve in E. destruct (searcher_made d p h Hd Hp seed) as (se & Ese & U). rewrite Ese in E.
  assert (Hi' : forall s, initial = Some s -> is_solution d s) by (intros s Hs; apply Hi, Hs).
  destruct (init_stable d X stop p h Hd Hp se initial U Hi') as (n1 & init & se' & E1 & U' & Hs & Hc & Hsame).
  destruct (proj1 (reached_evaluators d X stop p h Hp _ (reached_start d p))) as (e0 & Ee & _).
  destruct (solve_init d n se (midpoint_manager d (sv_penalty p)) initial) as [y|] eqn:E0; [|discriminate].
  assert (Qi : Q init).
  { destruct initial as [s|]; [rewrite (Hsame s eq_refl); apply Hi; reflexivity|].
    pose proof (init_some d p _ _ _ _ E0 (Nat.max n n1) ltac:(lia)) as E2. pose proof (E1 (Nat.max n n1) ltac:(lia)) as E3.
    unfold solve_init in E3. pose proof (make_random_spec d (se_rng se) (sb_data d h Hd) (sb_reloads d h Hd) (sb_available d h Hd) (sb_groups d h Hd)) as (routes & s & Er & HB & Es & _).
    pose proof (Hrandom (se_rng se)) as Hr. destruct (make_random d (se_rng se)) as [r random]. cbn [snd] in Er, Hr. subst random.
    destruct (proj2 (reached_evaluators d X stop p h Hp _ (reached_start d p))) as (ev & Ev & He). rewrite Ev in E3.
    destruct (py_call d (Nat.max n n1) (set_rng se r) s ev true) as [[s2 se2]|] eqn:Ec; [|discriminate]. cbn [option_map] in E3. injection E3 as -> ->.
    apply (Hcall ev (set_rng se r) s true (Nat.max n n1) init se' (in_setting d h Hd ev He) (set_rng_usable d se r U) (ex_intro _ routes (conj HB Es)) Ec). apply Hr. reflexivity. }
  pose proof (init_some d p _ _ _ _ E0 (Nat.max n n1) ltac:(lia)) as E2. rewrite (E1 (Nat.max n n1)) in E2 by lia. injection E2 as <-. rewrite Ee in E.
  set (w0 := mk_world X se' (midpoint_manager d (sv_penalty p)) x true) in E.
  assert (W0 : okw d X p w0) by (split; [exact U'|apply reached_start]).
  destruct (run d X stop p collect_stats n k init (ils_init (w_evaluator X) (ip_history (sv_ils p)) init w0)) as [st|] eqn:Er; [|discriminate].
  destruct (w_ok X (i_world st)); [|discriminate]. injection E as <-. cbn [o_best o_init o_trace].
  pose proof (run_reaches d X stop p collect_stats n init w0 k _ st (reaches_init _ _ _ _ _ _ _ _ _ _ _ _ _) Er) as (st1 & w1 & R & _ & Q1 & Q2 & Q3 & Q4). rewrite Q1, Q4.
  pose proof (reaches_best _ _ _ _ _ _ _ _ _ _ _ (fun s => is_solution d s /\ Q s) (good_evaluator d) (objective d)
    (fun e s He Hs => sol_cost d X stop h Hd e s He (proj1 Hs)) (fun s Hs => sb_finite d h Hd s (proj1 Hs)) (okw d X p) (good_eval d X stop p h Hp)
    (keep_find n) (fun w s W Hs => proj1 (okw_register d X p h Hd w s W (proj1 Hs))) (okw_stop d X stop p) init w0 st1 (conj Hs Qi) W0 R) as B.
  split; [apply (bi_good_best _ _ _ _ _ _ _ B)|]. intros c [<-|Hin]; [exact Qi|].
  exact (proj2 (proj1 (Forall_forall _ _) (bi_good_cands _ _ _ _ _ _ _ B) c Hin)).
Qed.
End Keep.

Theorem solve_reloads d X stop p collect_stats h : solvable d h -> params_ok p -> forall n k seed initial x o,
  (forall s, initial = Some s -> is_solution d s /\ sol_reloads d s) -> solve d X stop p collect_stats n k seed initial x = Some (Ok o) ->
  sol_reloads d (o_best o) /\ forall c, In c (o_init o :: candidates (o_trace o)) -> sol_reloads d c.
Proof.
  intros Hd Hp. apply (solve_keeps d X stop p collect_stats h Hd Hp).
  - intros ev se s exhaustive n s' se' St U (routes & B & Es) E. exact (py_call_allowed d h ev St (sb_groups d h Hd) (reloads_ok d h Hd) se routes s exhaustive n s' se' U B Es E).
  - intros r s E. destruct (make_random_spec d r (sb_data d h Hd) (sb_reloads d h Hd) (sb_available d h Hd) (sb_groups d h Hd)) as (routes & s' & Er & HB & Es & _ & Nd).
    rewrite E in Er. injection Er as ->. intros rt Hr k Hk. exfalso.
    assert (Eo : so_routes s' = routes) by (destruct (sol_inv d routes HB (sb_groups d h Hd) (groups_ok d h Hd) s' Es) as (_ & cv & sv & -> & _); reflexivity).
    rewrite Eo in Hr. pose proof (Nd rt Hr _ Hk). discriminate.
Qed.
