(** The statistics of a whole call of the local search. *)
From Coq Require Import Permutation.
From Verif Require Import Base DurationSegment Data LoadSegment SearchRoute RouteDur Valid ProposalDur ProposalRest Route RouteSpec
  RouteFacts2 RouteFacts3 RouteFacts4 Cost CostFacts DeltaFacts SearchFacts DataCtor Solution SolutionFacts SolutionFacts2 SolutionFacts3 Bitset Rng MakeRandom SearchSpace Neighbourhood SearchNodes SearchSeq SearchLoad SearchLoad2 Ops PlanFacts ShipState OpsBase OpsGen OpsMove OpsRelocate OpsSwap OpsOne OpsEdit OpsEdit2 OpsAll LocalSearch LocalFacts LocalTerm LocalInsert LocalEnsure Perturb LocalRun LocalBest Counted CountedFacts Owed.
Local Open Scope nat_scope.

(** Visits of reload depots: the trips of the routes beyond their first. *)
Definition reload_visits (routes : list route) : nat := list_sum (map (fun r => r_numTrips r - 1) routes).
Lemma list_sum_perm l l' : Permutation l l' -> list_sum l = list_sum l'.
Proof. unfold list_sum. induction 1; cbn [fold_right]; lia. Qed.
Lemma reload_visits_acts d routes : Forall (built d) routes -> reload_visits routes = list_sum (map (fun r => num_reloads (r_acts r)) routes).
Proof.
  induction 1 as [|r routes Br _ IH]; [reflexivity|]. unfold reload_visits in *. cbn [map list_sum fold_right]. change (fold_right Nat.add 0) with list_sum. rewrite IH. f_equal.
  destruct (built_mid d r Br) as (mid & Em & _ & _ & -> & _). destruct (route_counts d mid _ r Em) as (-> & _). lia.
Qed.
Lemma reloads_filter (f : nat * list activity -> bool) l : list_sum (map (fun x => num_reloads (snd x)) (filter f l)) <= list_sum (map (fun x => num_reloads (snd x)) l).
Proof. induction l as [|x l IH]; cbn [filter map list_sum fold_right]; [lia|]. change (fold_right Nat.add 0) with list_sum. destruct (f x); cbn [map list_sum fold_right]; change (fold_right Nat.add 0) with list_sum; lia. Qed.
Lemma reloads_concat {A} (g : A -> list activity) l : num_reloads (flat_map g l) = list_sum (map (fun x => num_reloads (g x)) l).
Proof. induction l as [|x l IH]; cbn [flat_map map list_sum fold_right]; [reflexivity|]. rewrite num_reloads_app, IH. reflexivity. Qed.

Section Call.
Variable d : pdata.
Variable h : Z.
Variable ev : evaluator.
Hypothesis St : setting d h ev.
Hypothesis ND : groups_nodup d.
Hypothesis Reloads : forall v, In v (p_vehicles d) -> (0 <= v_maxReloads v)%Z.
Variable uops : list unary.
Variable bops : list binary.
Hypothesis Ops : Forall op_ok bops.

Lemma trips_ok v : In v (p_vehicles d) -> (1 <= v_maxTrips v)%Z.
Proof. intros H. apply trips_one, Reloads, H. Qed.
Lemma load_depots routes sol : Forall (built d) routes -> make_solution d routes = Ok sol -> depots_in (load_plan d routes) = reload_visits routes.
Proof.
  intros B Es. unfold depots_in. rewrite (load_concat d routes), (reload_visits_acts d routes B), reloads_concat. apply list_sum_perm, Permutation_map, by_type_perm, B.
Qed.
Lemma unload_depots p routes : plan_ok d p -> Forall (built d) routes -> plan_routes d (combine (fleet d) p) = Ok routes -> reload_visits routes <= depots_in p.
Proof.
  intros P B E. destruct (plan_represented d p routes P E) as [L R]. rewrite (reload_visits_acts d routes B).
  assert (X : map (fun r => num_reloads (r_acts r)) routes = map (fun x => num_reloads (snd x)) (map (fun r => (r_vehicleType r, r_acts r)) routes)) by (rewrite map_map; reflexivity).
  rewrite X, R. eapply Nat.le_trans; [apply reloads_filter|]. unfold depots_in. rewrite <- (combine_snd (fleet d) p) at 2 by (symmetry; exact L).
  rewrite <- flat_map_concat_map, reloads_concat. lia.
Qed.

(** The statistics of the operators of a call. *)
Record stats_right (exhaustive : bool) (num : nat) (sol sol' : solution) (s : lstats) (x : counted) : Prop := mk_stats_right {
  sx_sized : sized uops bops x;
  sx_stats : s = statistics x;
  (** Of each operator, and of all, no more moves are applied than evaluated. *)
  sx_each : Forall (fun c => oc_apps c <= oc_evals c) (co_unary x ++ co_binary x);
  sx_chain : chain (co_unary x) /\ chain (co_binary x);
  sx_improving : ls_improving s <= ls_moves s;
  (** Updates are the applied moves and what is needed to make the solution complete. *)
  sx_updates : exists k, ls_updates s = Z.of_nat (ls_improving s + k) /\ k <= missing sol + (if exhaustive then 0 else Nat.min num (p_numClients d + p_numShipments d)) /\
    (exhaustive = true \/ num = 0 -> k = missing sol);
  (** Without moves an unperturbed complete solution is returned as it was, up to the order of its routes; with moves a better one. *)
  sx_none : so_isComplete sol = true -> exhaustive = true \/ num = 0 -> ls_improving s = 0 -> Permutation (so_routes sol') (so_routes sol);
  sx_some : so_isComplete sol = true -> exhaustive = true \/ num = 0 -> 0 < ls_improving s ->
    (solution_penalised ev sol' < solution_penalised ev sol)%Z \/
    (solution_penalised ev sol' = solution_penalised ev sol /\ reload_visits (so_routes sol') < reload_visits (so_routes sol)) }.

Theorem counted_right sp routes sol num exhaustive n sol' sp' : Forall (built d) routes -> make_solution d routes = Ok sol -> space_inv d sp -> space_ok d sp ->
  ls_call d ev uops bops n num exhaustive sp sol = Returns sol' sp' ->
  exists s x, counted_call d ev uops bops n num exhaustive sp sol = (Returns sol' sp', Some (s, x)) /\ stats_right exhaustive num sol sol' s x.
Proof.
  intros B Es Si So Call. pose proof (start_inv d h ev St ND trips_ok bops sp routes sol B Es Si) as I0.
  assert (Er : so_routes sol = routes) by (destruct (sol_inv d routes B ND (known_groups d h ev St) sol Es) as (_ & cv & sv & -> & _); reflexivity).
  pose proof (load_ok d h ev St ND trips_ok routes B sol Es) as Lo.
  rewrite <- (counted_call_st d ev uops bops) in Call. unfold counted_call in *. set (st0 := ls_start d bops sp sol) in *.
  assert (E0 : l_plan st0 = load_plan d routes) by (unfold st0, ls_start, l_plan; rewrite Er; reflexivity).
  assert (Prep : exists st1, ls_prepare d ev num exhaustive st0 = Some st1 /\ pre_inv d ev bops st1 /\ l_num st1 = 0%Z /\
    owed d (planned (l_plan st1)) <= owed d (planned (load_plan d routes)) + (if exhaustive then 0 else Nat.min num (p_numClients d + p_numShipments d)) /\
    (exhaustive = true \/ num = 0 -> l_plan st1 = load_plan d routes)).
  { unfold ls_prepare. destruct exhaustive.
    - exists (with_space st0 (mark_all sp)). split; [reflexivity|]. split; [apply pre_space; [exact I0|apply mark_all_same]|]. split; [reflexivity|].
      assert (E1 : l_plan (with_space st0 (mark_all sp)) = load_plan d routes) by exact E0. rewrite E1. split; [lia|auto].
    - destruct (perturb_spec d h ev St num (load_plan d routes) sp Lo Si So) as ([s1 sp1] & X & E & Px & Lx).
      change (l_space st0) with sp. assert (Es0 : l_sol st0 = sync d (load_plan d routes)) by (rewrite <- E0; exact (pi_sync _ _ _ _ I0)). rewrite Es0, E.
      exists (with_space (with_sol st0 s1) sp1). split; [reflexivity|]. split; [|split; [reflexivity|]].
      + constructor.
        * exact (pt_sync _ _ _ _ _ Px).
        * exact (pt_ok _ _ _ _ _ Px).
        * cbn [l_rcs with_space with_sol]. unfold st0, ls_start. cbn [l_rcs]. clear. induction bops as [|o os IH]; constructor; [apply none_ok|exact IH].
        * exact (same_space_inv d _ _ (pt_space _ _ _ _ _ Px) Si).
      + change (l_plan (with_space (with_sol st0 s1) sp1)) with (sp_mids s1). rewrite <- Lx. split.
        * exact (perturbed_owed d h ev St (nodup_groups_of d ND) _ _ _ _ Px).
        * intros [F|F]; [discriminate|]. rewrite F in Lx. destruct X; [|cbn in Lx; lia]. exact (perturbed_nothing d _ _ _ Lo Px). }
  destruct Prep as (st1 & P1 & I1 & N1 & K1 & Q1). rewrite P1 in *.
  destruct (ensure_spec d h ev St bops (nodup_groups_of d ND) st1 I1) as (st2 & E2 & I2 & _ & _). rewrite E2 in *. cbv zeta in *.
  pose proof (ensure_owed d h ev St (nodup_groups_of d ND) bops st1 st2 I1 E2) as N2. rewrite N1 in N2.
  set (x0 := mk_counted st2 _ _) in *. assert (Z0 : sized uops bops x0) by (split; apply map_length).
  pose proof (c_search_tally d h ev St uops bops Ops n x0 I2 Z0) as T. pose proof (proj2 (c_search_st d ev uops bops n x0)) as Fs.
  destruct (c_search d ev uops bops n x0) as [r x]. cbn [fst snd] in *. destruct r as [st3| |]; try discriminate. specialize (T st3 eq_refl). specialize (Fs st3 eq_refl). subst st3.
  pose proof (ta_inv _ _ _ _ _ T) as I3.
  destruct (plan_solution d h ev St ND trips_ok (l_plan (co_st x)) (li_ok _ _ _ _ I3) (sr_once _ _ (li_str _ _ _ _ I3))) as (routes' & sol3 & Pr & U & Es' & B' & _ & _ & Pc).
  rewrite (li_sync _ _ _ _ I3), U in *. cbn [fst] in Call. injection Call as -> <-. exists (statistics x), x. split; [reflexivity|].
  assert (Er' : so_routes sol' = routes') by (destruct (sol_inv d routes' B' ND (known_groups d h ev St) sol' Es') as (_ & cv & sv & -> & _); reflexivity).
  pose proof (load_owed d h ev routes sol St ND Reloads B Es) as Lw.
  assert (A0 : apps x0 = 0).
  { unfold apps, x0. cbn [co_unary co_binary]. rewrite map_app, list_sum_app, !map_map. cbn [oc_apps].
    assert (Z : forall A (l : list A), list_sum (map (fun _ => 0) l) = 0) by (induction l; cbn; auto). rewrite !Z. reflexivity. }
  assert (Each : Forall (fun c => oc_apps c <= oc_evals c) (co_unary x ++ co_binary x)).
  { assert (W : forall A (l : list A) cs, Forall2 oc_step (map (fun _ => mk_ocount 0 0) l) cs -> Forall (fun c => oc_apps c <= oc_evals c) cs).
    { induction l as [|a l IH]; intros cs H; inversion H; subst; constructor; [|apply IH; assumption]. match goal with H1 : oc_step _ _ |- _ => destruct H1 as (_ & _ & H1); cbn in H1; lia end. }
    apply Forall_app. split; [exact (W _ uops _ (ta_unary _ _ _ _ _ T))|exact (W _ bops _ (ta_binary _ _ _ _ _ T))]. }
  assert (Unchanged : so_isComplete sol = true -> exhaustive = true \/ num = 0 -> l_plan st2 = load_plan d routes).
  { intros C F. specialize (Q1 F). assert (Sd : structured d (l_plan st1)) by (rewrite Q1; apply (load_structured d h ev St ND trips_ok routes B sol Es); exact C).
    assert (I1x : ls_inv d ev bops st1) by (destruct I1; constructor; assumption). rewrite (ensure_nothing d h ev St bops (nodup_groups_of d ND) st1 I1x) in E2. injection E2 as <-. exact Q1. }
  constructor; cbn [statistics ls_moves ls_improving ls_updates].
  - eapply tally_sized; [exact T|exact Z0].
  - reflexivity.
  - exact Each.
  - assert (W : forall A (l : list A), chain (map (fun _ => mk_ocount 0 0) l)) by (induction l as [|a [|b l] IH]; repeat split; apply IH).
    split; [apply (ta_uchain _ _ _ _ _ T), W|apply (ta_bchain _ _ _ _ _ T), W].
  - unfold apps, evals. clear - Each. induction Each; cbn; [lia|]. unfold list_sum in IHEach. lia.
  - exists (owed d (planned (l_plan st1))). split.
    + pose proof (ta_num _ _ _ _ _ T) as TN. rewrite A0 in TN. change (co_st x0) with st2 in TN. lia.
    + split; [rewrite <- Lw; exact K1|]. intros F. rewrite (Q1 F). exact Lw.
  - intros C F Z. destruct (ta_plan _ _ _ _ _ T) as [[_ Ep]|[Hl _]]; [|lia]. change (co_st x0) with st2 in Ep. rewrite (Unchanged C F) in Ep. rewrite Ep in Pr.
    rewrite (load_routes_of d h ev St ND routes B sol Es) in Pr. injection Pr as <-. rewrite Er, Er'. apply by_type_perm, B.
  - intros C F Z. destruct (ta_plan _ _ _ _ _ T) as [[Ha _]|[_ Hl]]; [lia|]. change (co_st x0) with st2 in Hl. rewrite (Unchanged C F) in Hl.
    pose proof (load_cost d h ev St ND trips_ok routes B sol Es) as Lc. rewrite Pc, <- Lc. destruct Hl as [Hl|[Hl Hd]]; [left; exact Hl|right]. split; [exact Hl|].
    rewrite Er, Er', <- (load_depots routes sol B Es). eapply Nat.le_lt_trans; [|exact Hd]. apply unload_depots; [exact (li_ok _ _ _ _ I3)|exact B'|exact Pr].
Qed.
End Call.
