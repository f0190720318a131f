(** The rounds of an exhaustive search, as the counts show them. *)
From Coq Require Import Permutation.
From Verif Require Import Base DurationSegment Data LoadSegment SearchRoute RouteDur Valid ProposalDur ProposalRest Route RouteSpec
  RouteFacts2 RouteFacts3 RouteFacts4 Cost CostFacts DeltaFacts SearchFacts DataCtor Solution SolutionFacts SolutionFacts2 SolutionFacts3 Bitset Rng MakeRandom SearchSpace Neighbourhood SearchNodes SearchSeq SearchLoad SearchLoad2 Ops PlanFacts ShipState OpsBase OpsGen OpsMove OpsRelocate OpsSwap OpsOne OpsEdit OpsEdit2 OpsAll LocalSearch LocalFacts LocalTerm LocalInsert LocalEnsure Perturb LocalRun LocalBest Counted CountedFacts Owed CountedCall.
Local Open Scope nat_scope.

(** Without updates a search that is done stays so. *)
Definition calm (st st' : lstate) : Prop := (l_num st <= l_num st')%Z /\ (l_num st' = l_num st -> l_done st = true -> l_done st' = true).
Lemma calm_refl st : calm st st.
Proof. split; [lia|auto]. Qed.
Lemma calm_trans a b c : calm a b -> calm b c -> calm a c.
Proof. intros [A1 A2] [B1 B2]. split; [lia|]. intros E D. apply B2; [lia|]. apply A2; [lia|exact D]. Qed.

Section Rounds.
Variable d : pdata.
Variable h : Z.
Variable ev : evaluator.
Hypothesis St : setting d h ev.
Variable uops : list unary.
Variable bops : list binary.
Hypothesis Ops : Forall op_ok bops.

Lemma update_calm st st0 rU rV : l_num st0 = l_num st -> calm st (ls_update d st0 rU rV).
Proof. intros E. assert (N : l_num (ls_update d st0 rU rV) = (l_num st0 + 1)%Z) by (destruct rU as [r|]; unfold ls_update; [destruct (r =? rV)|]; reflexivity). split; rewrite N; [lia|intros X; lia]. Qed.
Lemma unary_calm st u : calm st (apply_unary_ops d ev uops st u).
Proof.
  unfold apply_unary_ops. destruct (try_unary d ev (l_sol st) uops u) as [[o m]|]; [|apply calm_refl]. destruct (home (l_plan st) u); [apply update_calm; reflexivity|]. cbv zeta.
  destruct (home _ u); [apply update_calm; reflexivity|]. split; [cbn; lia|auto].
Qed.
Lemma binary_calm st u v : calm st (snd (apply_binary_ops d ev bops st u v)).
Proof.
  unfold apply_binary_ops. destruct (try_binary _ _ _ _ _ _ _) as [[[o m]|] rcs]; [|split; [cbn; lia|auto]]. cbv zeta.
  destruct (locate _ _) as [[rV pV]|] eqn:L; [|split; [cbn; lia|auto]]. cbn [snd]. apply update_calm. unfold mark_ref. destruct (locate _ _) as [[r pos]|]; reflexivity.
Qed.
Lemma empty_calm u types : forall st, calm st (empty_moves d ev bops st u types).
Proof.
  induction types as [|[t off] types IH]; intros st; cbn [empty_moves]; [apply calm_refl|]. destruct (first_empty _ _ _) as [r|]; [|apply IH].
  pose proof (binary_calm st u (VStart r)) as M. destruct (apply_binary_ops d ev bops st u (VStart r)) as [b st1]. cbn [snd] in M.
  destruct b; [exact M|eapply calm_trans; [exact M|apply IH]].
Qed.
Lemma neighbour_calm t u st v st' : test_neighbour d ev bops t u st v = Some st' -> calm st st'.
Proof.
  unfold test_neighbour. destruct (has_node d v); [|discriminate]. destruct (find_act v (l_plan st)) as [[rv pv]|]; [|intros X; apply some_inj in X; subst st'; apply calm_refl].
  cbv zeta. destruct (_ || _); [|intros X; apply some_inj in X; subst st'; apply calm_refl].
  pose proof (binary_calm st u (VAct v)) as M. destruct (apply_binary_ops d ev bops st u (VAct v)) as [b st1]. cbn [snd] in M.
  destruct (_ && _); intros X; apply some_inj in X; subst st'; [eapply calm_trans; [exact M|apply binary_calm]|exact M].
Qed.
Lemma neighbours_calm t u vs : forall st st', test_neighbours d ev bops t u st vs = Some st' -> calm st st'.
Proof.
  induction vs as [|v vs IH]; intros st st' H; cbn [test_neighbours] in H; [apply some_inj in H; subst st'; apply calm_refl|].
  destruct (test_neighbour d ev bops t u st v) as [st1|] eqn:E; [|discriminate]. eapply calm_trans; [exact (neighbour_calm _ _ _ _ _ E)|exact (IH _ _ H)].
Qed.
Lemma visit_calm st u st' : visit_act d ev uops bops st u = Some st' -> calm st st'.
Proof.
  unfold visit_act. destruct (is_promising _ _); [|intros X; apply some_inj in X; subst st'; apply calm_refl]. cbv zeta. set (st1 := apply_unary_ops _ _ _ _ _).
  assert (M : calm st st1) by (unfold st1; eapply calm_trans; [|apply unary_calm]; split; [cbn; lia|auto]). clearbody st1.
  destruct (neighbours_of _ _); [|discriminate]. destruct (test_neighbours _ _ _ _ _ _ _) as [st2|] eqn:E; [|discriminate]. intros X; apply some_inj in X; subst st'.
  eapply calm_trans; [exact M|]. eapply calm_trans; [exact (neighbours_calm _ _ _ _ _ E)|apply empty_calm].
Qed.
Lemma visits_calm us : forall st st', visit_all d ev uops bops st us = Some st' -> calm st st'.
Proof.
  induction us as [|u us IH]; intros st st' H; cbn [visit_all] in H; [apply some_inj in H; subst st'; apply calm_refl|].
  destruct (visit_act d ev uops bops st u) as [st1|] eqn:E; [|discriminate]. eapply calm_trans; [exact (visit_calm _ _ _ E)|exact (IH _ _ H)].
Qed.

(** Binary operators do not touch the counts of unary ones. *)
Lemma c_binary_unary x u v : co_unary (snd (c_binary_ops d ev bops x u v)) = co_unary x.
Proof. unfold c_binary_ops. destruct (apply_binary_ops _ _ _ _ _ _) as [b st]. reflexivity. Qed.
Lemma c_empty_unary u types : forall x, co_unary (c_empty_moves d ev bops x u types) = co_unary x.
Proof.
  induction types as [|[t off] types IH]; intros x; cbn [c_empty_moves]; [reflexivity|]. destruct (first_empty _ _ _) as [r|]; [|apply IH].
  pose proof (c_binary_unary x u (VStart r)) as M. destruct (c_binary_ops d ev bops x u (VStart r)) as [b x1]. cbn [snd] in M. destruct b; [exact M|rewrite IH; exact M].
Qed.
Lemma c_neighbours_unary t u vs : forall x x', c_test_neighbours d ev bops t u x vs = Some x' -> co_unary x' = co_unary x.
Proof.
  induction vs as [|v vs IH]; intros x x' H; cbn [c_test_neighbours] in H; [congruence|].
  destruct (c_test_neighbour d ev bops t u x v) as [x1|] eqn:E; [|discriminate]. rewrite (IH _ _ H). clear H IH.
  unfold c_test_neighbour in E. destruct (has_node d v); [|discriminate]. destruct (find_act v _) as [[rv pv]|]; [|congruence]. cbv zeta in E. destruct (_ || _); [|congruence].
  pose proof (c_binary_unary x u (VAct v)) as M. destruct (c_binary_ops d ev bops x u (VAct v)) as [b x2]. cbn [snd] in M.
  destruct (_ && _); apply some_inj in E; subst x1; [rewrite c_binary_unary; exact M|exact M].
Qed.
(** A visit to a promising activity evaluates the first unary operator once. *)
Lemma c_visit_head x u x' : sized uops bops x -> uops <> [] -> chain (co_unary x) -> c_visit_act d ev uops bops x u = Some x' ->
  is_promising (l_space (co_st x)) u = true -> head_evals (co_unary x') = head_evals (co_unary x) + 1.
Proof.
  intros [Z1 Z2] Ne Ch. unfold c_visit_act. intros H Hp. rewrite Hp in H. cbv zeta in H. set (x1 := c_unary_ops _ _ _ _ _) in H.
  destruct (neighbours_of _ _); [|discriminate]. destruct (c_test_neighbours _ _ _ _ _ _ _) as [x2|] eqn:E; [|discriminate]. apply some_inj in H. subst x'.
  rewrite c_empty_unary, (c_neighbours_unary _ _ _ _ _ E). unfold x1. cbn [c_unary_ops co_unary with_st co_st].
  apply (count_unary_chain d ev); [exact Z1|exact Ch|]. intros X. rewrite X in Z1. destruct uops; [congruence|discriminate].
Qed.
Lemma c_visits_head us : (forall u, In u us -> In u (activity_order d)) -> uops <> [] -> forall x x', ls_inv d ev bops (co_st x) -> sized uops bops x -> chain (co_unary x) ->
  c_visit_all d ev uops bops x us = Some x' -> (forall u, In u us -> is_promising (l_space (co_st x)) u = true) -> head_evals (co_unary x') = head_evals (co_unary x) + length us.
Proof.
  intros Hu Ne. induction us as [|u us IH]; intros x x' I Z Ch H Pr; cbn [c_visit_all length] in *; [apply some_inj in H; subst x'; lia|].
  destruct (c_visit_tally d h ev St uops bops Ops x u I Z (Hu u (or_introl eq_refl))) as (x1 & E & T). rewrite E in H.
  pose proof (c_visit_head x u x1 Z Ne Ch E (Pr u (or_introl eq_refl))) as Hh.
  assert (Ev : visit_act d ev uops bops (co_st x) u = Some (co_st x1)) by (rewrite <- c_visit_st, E; reflexivity).
  rewrite (IH (fun y Hy => Hu y (or_intror Hy)) x1 x' (ta_inv _ _ _ _ _ T)); [lia| | |exact H|].
  - eapply tally_sized; eassumption.
  - exact (ta_uchain _ _ _ _ _ T Ch).
  - intros y Hy. apply (more_promising (l_space (co_st x))); [exact (visit_act_more d ev uops bops _ _ _ Ev)|apply Pr; right; exact Hy].
Qed.

Lemma c_loop_rounds n : uops <> [] -> forall x st, ls_inv d ev bops (co_st x) -> sized uops bops x -> chain (co_unary x) ->
  (forall u, In u (activity_order d) -> is_promising (l_space (co_st x)) u = true) -> fst (c_search_loop d ev uops bops n x) = Finished st ->
  let x' := snd (c_search_loop d ev uops bops n x) in
  exists k, head_evals (co_unary x') = head_evals (co_unary x) + k * length (activity_order d) /\ (l_num (co_st x) <= l_num (co_st x'))%Z /\
    (l_done (co_st x) = true -> k = 0) /\ (l_done (co_st x) = false -> 1 <= k /\ (Z.of_nat k <= 1 + (l_num (co_st x') - l_num (co_st x)))%Z).
Proof.
  intros Ne. induction n as [|n IH]; intros x st I Z Ch Pr; cbn [c_search_loop]; destruct (l_done (co_st x)) eqn:Dn; cbn [fst snd].
  - intros _. exists 0. repeat split; try lia; try discriminate.
  - discriminate.
  - intros _. exists 0. repeat split; try lia; try discriminate.
  - pose proof (tally_done d ev bops x true I) as B0. set (x0 := with_st x (with_done (co_st x) true)) in *. assert (Z0 : sized uops bops x0) by exact Z.
    assert (Ord : Permutation (activity_order d) (ss_order (l_space (co_st x)))) by exact (si_order d _ (li_space _ _ _ _ I)).
    destruct (c_visits_tally d h ev St uops bops Ops (ss_order (l_space (co_st x)))) with (x := x0) as (x1 & E & B1); [|exact (ta_inv _ _ _ _ _ B0)|exact Z0|].
    { intros u Hu. eapply Permutation_in; [symmetry; exact Ord|exact Hu]. }
    rewrite E. intros F.
    assert (Hh : head_evals (co_unary x1) = head_evals (co_unary x) + length (activity_order d)).
    { rewrite (Permutation_length Ord). apply (c_visits_head (ss_order (l_space (co_st x)))) with (x := x0); auto.
      - intros u Hu. eapply Permutation_in; [symmetry; exact Ord|exact Hu].
      - exact (ta_inv _ _ _ _ _ B0).
      - intros u Hu. apply Pr. eapply Permutation_in; [symmetry; exact Ord|exact Hu]. }
    assert (Ev : visit_all d ev uops bops (with_done (co_st x) true) (ss_order (l_space (co_st x))) = Some (co_st x1)).
    { change (with_done (co_st x) true) with (co_st x0). rewrite <- c_visits_st, E. reflexivity. }
    destruct (visits_calm _ _ _ Ev) as [C1 C2]. cbn [with_done l_num l_done] in C1, C2.
    destruct (IH x1 st (ta_inv _ _ _ _ _ B1)) as (k & K1 & K2 & K3 & K4).
    + eapply tally_sized; eassumption.
    + exact (ta_uchain _ _ _ _ _ B1 Ch).
    + intros u Hu. apply (more_promising (l_space (co_st x))); [exact (visit_all_more d ev uops bops _ _ _ Ev)|apply Pr, Hu].
    + exact F.
    + exists (S k). cbv zeta in *. rewrite K1, Hh. split; [cbn [Nat.mul]; lia|]. split; [lia|]. split; [discriminate|]. intros _. split; [lia|].
      destruct (l_done (co_st x1)) eqn:D1; [rewrite (K3 eq_refl); lia|]. destruct (K4 eq_refl) as [_ K5].
      assert (l_num (co_st x1) <> l_num (co_st x)) by (intros X; specialize (C2 X eq_refl); congruence). lia.
Qed.

Hypothesis ND : groups_nodup d.
Hypothesis Reloads : forall v, In v (p_vehicles d) -> (0 <= v_maxReloads v)%Z.
Theorem counted_rounds sp routes sol num n sol' sp' s x : uops <> [] -> Forall (built d) routes -> make_solution d routes = Ok sol -> space_inv d sp -> space_ok d sp ->
  counted_call d ev uops bops n num true sp sol = (Returns sol' sp', Some (s, x)) ->
  exists k, head_evals (co_unary x) = k * (p_numClients d + p_numShipments d) /\ 1 <= k <= ls_improving s + 1.
Proof.
  intros Ne B Es Si So Call. pose proof (start_inv d h ev St ND (trips_ok d Reloads) bops sp routes sol B Es Si) as I0.
  unfold counted_call, ls_prepare in Call. set (st0 := ls_start d bops sp sol) in *. set (st1 := with_space st0 (mark_all (l_space st0))) in *.
  assert (I1 : pre_inv d ev bops st1) by (apply pre_space; [exact I0|apply mark_all_same]).
  destruct (ensure_spec d h ev St bops (nodup_groups_of d ND) st1 I1) as (st2 & E2 & I2 & S2 & _). rewrite E2 in Call. cbv zeta in Call.
  assert (F2 : fresh st1 st2) by (apply (ensure_fresh d ev); [cbn; lia|exact E2]).
  set (x0 := mk_counted st2 _ _) in *. assert (Z0 : sized uops bops x0) by (split; apply map_length).
  assert (Ch0 : chain (co_unary x0)) by (unfold x0; cbn [co_unary]; clear; induction uops as [|a [|b l] IH]; repeat split; apply IH).
  assert (Hd : head_evals (co_unary x0) = 0) by (unfold x0; cbn [co_unary]; clear; destruct uops; reflexivity).
  pose proof (c_search_tally d h ev St uops bops Ops n x0 I2 Z0) as T. pose proof (proj2 (c_search_st d ev uops bops n x0)) as Fs.
  assert (Sl : c_search d ev uops bops n x0 = c_search_loop d ev uops bops n (with_st x0 (with_done (co_st x0) false))) by (clear - Ne; unfold c_search; destruct uops; [congruence|reflexivity]).
  assert (Pr : forall u, In u (activity_order d) -> is_promising (l_space st2) u = true).
  { intros u Hu. apply (more_promising (l_space st1)); [exact (fr_more _ _ F2)|]. apply (all_promising d); [exact So|exact Hu]. }
  pose proof (c_loop_rounds n Ne (with_st x0 (with_done (co_st x0) false))) as R. rewrite <- Sl in R.
  destruct (c_search d ev uops bops n x0) as [r x1]. cbn [fst snd] in *. destruct r as [st3| |]; try discriminate. specialize (T st3 eq_refl). specialize (Fs st3 eq_refl). subst st3.
  destruct (unload_sol d (l_sol (co_st x1))) as [sol1|]; [|discriminate]. assert (X : statistics x1 = s /\ x1 = x) by (split; congruence). destruct X as [<- ->].
  destruct (R (co_st x)) as (k & K1 & _ & _ & K4); [apply with_done_inv; exact I2|exact Z0|exact Ch0|exact Pr|reflexivity|].
  exists k. cbn [with_st co_unary] in K1. rewrite Hd in K1. split; [rewrite K1, Nat.add_0_l; f_equal; unfold activity_order; rewrite app_length, !map_length, !seq_length; reflexivity|].
  destruct (K4 eq_refl) as [K5 K6]. cbn [with_st with_done co_st l_num] in K6. pose proof (ta_num _ _ _ _ _ T) as TN. change (co_st x0) with st2 in *.
  cbn [statistics ls_improving].
  assert (A0 : apps x0 = 0).
  { unfold apps, x0. cbn [co_unary co_binary]. rewrite map_app, list_sum_app, !map_map. cbn [oc_apps].
    assert (Z : forall A (l : list A), list_sum (map (fun _ => 0) l) = 0) by (induction l; cbn; auto). rewrite !Z. reflexivity. }
  lia.
Qed.
End Rounds.
