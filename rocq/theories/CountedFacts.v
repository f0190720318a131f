(** What the statistics of the local search say about a call. *)
From Coq Require Import Permutation.
From Verif Require Import Base DurationSegment Data LoadSegment SearchRoute RouteDur Valid ProposalDur ProposalRest Route RouteSpec
  RouteFacts2 RouteFacts3 Cost CostFacts DeltaFacts SearchFacts DataCtor Solution SolutionFacts SolutionFacts2 SolutionFacts3 Bitset Rng MakeRandom SearchSpace Neighbourhood SearchNodes SearchSeq SearchLoad SearchLoad2 Ops PlanFacts ShipState OpsBase OpsGen OpsMove OpsRelocate OpsSwap OpsOne OpsEdit OpsEdit2 OpsAll LocalSearch LocalFacts LocalTerm LocalInsert LocalEnsure Perturb LocalRun Counted.
Local Open Scope nat_scope.

(** Counts only grow, and no more is applied than evaluated. *)
Definition oc_step (c c' : ocount) : Prop := oc_apps c <= oc_apps c' /\ oc_evals c <= oc_evals c' /\ oc_apps c' + oc_evals c <= oc_apps c + oc_evals c'.
Lemma oc_refl cs : Forall2 oc_step cs cs.
Proof. induction cs as [|c cs IH]; constructor; [unfold oc_step; lia|exact IH]. Qed.
Lemma oc_trans a : forall b c, Forall2 oc_step a b -> Forall2 oc_step b c -> Forall2 oc_step a c.
Proof.
  induction a as [|x a IH]; intros b c H1 H2; inversion H1; subst; inversion H2; subst; constructor; [unfold oc_step in *; lia|eapply IH; eassumption].
Qed.
Lemma Forall2_length {A B} (R : A -> B -> Prop) l l' : Forall2 R l l' -> length l = length l'.
Proof. induction 1; cbn; congruence. Qed.
Definition sum_apps (cs : list ocount) : nat := list_sum (map oc_apps cs).
Definition sum_evals (cs : list ocount) : nat := list_sum (map oc_evals cs).

(** An operator is evaluated when the one before it was evaluated and had nothing to apply. *)
Fixpoint chain (cs : list ocount) : Prop :=
  match cs with
  | c :: more => match more with c' :: _ => oc_evals c' + oc_apps c = oc_evals c | [] => True end /\ chain more
  | [] => True
  end.
Definition head_evals (cs : list ocount) : nat := match cs with c :: _ => oc_evals c | [] => 0 end.

Section Facts.
Variable d : pdata.
Variable h : Z.
Variable ev : evaluator.
Hypothesis St : setting d h ev.
Variable uops : list unary.
Variable bops : list binary.
Hypothesis Ops : Forall op_ok bops.

Lemma count_unary_step s u ops : forall cs, Forall2 oc_step cs (count_unary d ev s ops cs u) /\
  (length cs = length ops -> sum_apps (count_unary d ev s ops cs u) = sum_apps cs + match try_unary d ev s ops u with Some _ => 1 | None => 0 end).
Proof.
  induction ops as [|o ops IH]; intros cs; cbn [count_unary try_unary]; [split; [destruct cs; apply oc_refl|intros _; destruct cs; lia]|].
  destruct cs as [|c cs]; [split; [constructor|discriminate]|]. destruct (eval_unary d ev o s u) as [[delta ap] m]. destruct (IH cs) as [I1 I2]. destruct ap.
  - split; [constructor; [unfold oc_step; cbn; lia|apply oc_refl]|]. intros _. unfold sum_apps. cbn. lia.
  - split; [constructor; [unfold oc_step; cbn; lia|exact I1]|]. intros [= L]. specialize (I2 L). unfold sum_apps in *. cbn [map list_sum fold_right evaluated oc_apps] in *. change list_sum with (fold_right Nat.add 0) in I2. lia.
Qed.
Lemma count_binary_step s u v ops : forall rcs cs, Forall2 oc_step cs (count_binary d ev s ops rcs cs u v) /\
  (length cs = length ops -> length rcs = length ops ->
   sum_apps (count_binary d ev s ops rcs cs u v) = sum_apps cs + match fst (try_binary d ev s ops rcs u v) with Some _ => 1 | None => 0 end).
Proof.
  induction ops as [|o ops IH]; intros rcs cs; cbn [count_binary try_binary]; [split; [apply oc_refl|intros _ _; cbn; lia]|].
  destruct rcs as [|rc rcs]; [split; [apply oc_refl|discriminate]|]. destruct cs as [|c cs]; [split; [constructor|discriminate]|].
  destruct (eval_binary d ev o s rc u v) as [[[delta ap] m] rc']. destruct (IH rcs cs) as [I1 I2]. destruct ap.
  - split; [constructor; [unfold oc_step; cbn; lia|apply oc_refl]|]. intros _ _. unfold sum_apps. cbn. lia.
  - split; [constructor; [unfold oc_step; cbn; lia|exact I1]|]. intros [= L] [= L']. specialize (I2 L L'). destruct (try_binary d ev s ops rcs u v) as [f r]. cbn [fst] in *.
    unfold sum_apps in *. cbn [map list_sum fold_right evaluated oc_apps] in *. change list_sum with (fold_right Nat.add 0) in I2. lia.
Qed.
Lemma count_unary_chain s u ops : forall cs, length cs = length ops -> chain cs ->
  chain (count_unary d ev s ops cs u) /\ (cs <> [] -> head_evals (count_unary d ev s ops cs u) = head_evals cs + 1).
Proof.
  induction ops as [|o ops IH]; intros [|c cs] L H; try discriminate; cbn [count_unary]; [split; [exact I|congruence]|]. injection L as L. destruct H as [H1 H2].
  destruct (eval_unary d ev o s u) as [[delta ap] m]. destruct ap.
  - split; [|reflexivity]. split; [destruct cs; cbn; [exact I|lia]|exact H2].
  - split; [|reflexivity]. destruct (IH cs L H2) as [I1 I2]. split; [|exact I1]. destruct cs as [|c' cs]; [destruct ops; [exact I|discriminate]|].
    specialize (I2 ltac:(discriminate)). destruct (count_unary d ev s ops (c' :: cs) u); cbn in *; [exact I|lia].
Qed.
Lemma count_binary_chain s u v ops : forall rcs cs, length cs = length ops -> length rcs = length ops -> chain cs ->
  chain (count_binary d ev s ops rcs cs u v) /\ (cs <> [] -> head_evals (count_binary d ev s ops rcs cs u v) = head_evals cs + 1).
Proof.
  induction ops as [|o ops IH]; intros [|rc rcs] [|c cs] L L' H; try discriminate; cbn [count_binary]; [split; [exact I|congruence]|]. injection L as L. injection L' as L'. destruct H as [H1 H2].
  destruct (eval_binary d ev o s rc u v) as [[[delta ap] m] rc']. destruct ap.
  - split; [|reflexivity]. split; [destruct cs; cbn; [exact I|lia]|exact H2].
  - split; [|reflexivity]. destruct (IH rcs cs L L' H2) as [I1 I2]. split; [|exact I1]. destruct cs as [|c' cs]; [destruct ops; [exact I|discriminate]|].
    specialize (I2 ltac:(discriminate)). destruct (count_binary d ev s ops rcs (c' :: cs) u v); cbn in *; [exact I|lia].
Qed.

(** Every applied move is an update that lowers the plan. *)
Record tally (x x' : counted) : Prop := mk_tally {
  ta_inv : ls_inv d ev bops (co_st x');
  ta_space : same_space (l_space (co_st x)) (l_space (co_st x'));
  ta_unary : Forall2 oc_step (co_unary x) (co_unary x');
  ta_binary : Forall2 oc_step (co_binary x) (co_binary x');
  ta_uchain : chain (co_unary x) -> chain (co_unary x');
  ta_bchain : chain (co_binary x) -> chain (co_binary x');
  ta_num : (Z.of_nat (apps x') + l_num (co_st x) = Z.of_nat (apps x) + l_num (co_st x'))%Z;
  ta_plan : (apps x' = apps x /\ l_plan (co_st x') = l_plan (co_st x)) \/ (apps x < apps x' /\ lower d ev (l_plan (co_st x')) (l_plan (co_st x))) }.
Definition sized (x : counted) : Prop := length (co_unary x) = length uops /\ length (co_binary x) = length bops.
Lemma tally_sized x x' : tally x x' -> sized x -> sized x'.
Proof. intros T [A B]. pose proof (Forall2_length _ _ _ (ta_unary _ _ T)). pose proof (Forall2_length _ _ _ (ta_binary _ _ T)). split; congruence. Qed.
Lemma tally_trans a b c : tally a b -> tally b c -> tally a c.
Proof.
  intros A B. constructor.
  - exact (ta_inv _ _ B).
  - exact (same_space_trans _ _ _ (ta_space _ _ A) (ta_space _ _ B)).
  - exact (oc_trans _ _ _ (ta_unary _ _ A) (ta_unary _ _ B)).
  - exact (oc_trans _ _ _ (ta_binary _ _ A) (ta_binary _ _ B)).
  - intros H. exact (ta_uchain _ _ B (ta_uchain _ _ A H)).
  - intros H. exact (ta_bchain _ _ B (ta_bchain _ _ A H)).
  - pose proof (ta_num _ _ A). pose proof (ta_num _ _ B). lia.
  - destruct (ta_plan _ _ A) as [[A1 A2]|[A1 A2]]; destruct (ta_plan _ _ B) as [[B1 B2]|[B1 B2]].
    + left. split; congruence.
    + right. split; [lia|rewrite <- A2; exact B2].
    + right. split; [lia|rewrite B2; exact A2].
    + right. split; [lia|exact (lower_trans d ev _ _ _ B2 A2)].
Qed.
Lemma tally_st x st : ls_inv d ev bops st -> l_plan st = l_plan (co_st x) -> l_num st = l_num (co_st x) -> same_space (l_space (co_st x)) (l_space st) -> tally x (with_st x st).
Proof. intros I P N S. constructor; cbn [co_st with_st co_unary co_binary]; auto using oc_refl. unfold apps. cbn [with_st co_unary co_binary]. lia. Qed.
Lemma tally_refl x : ls_inv d ev bops (co_st x) -> tally x x.
Proof. intros I. constructor; auto using oc_refl. apply same_space_refl. Qed.

Lemma apps_sum x : apps x = sum_apps (co_unary x) + sum_apps (co_binary x).
Proof. unfold apps, sum_apps. rewrite map_app, list_sum_app. reflexivity. Qed.

Lemma c_unary_tally x u : ls_inv d ev bops (co_st x) -> sized x -> visit_known d u -> tally x (c_unary_ops d ev uops x u).
Proof.
  intros I [Z1 Z2] K. destruct (unary_step d h ev St uops bops (co_st x) u I K) as (I' & [Sp _] & M).
  destruct (count_unary_step (l_sol (co_st x)) u uops (co_unary x)) as [C1 C2]. specialize (C2 Z1).
  assert (X : match try_unary d ev (l_sol (co_st x)) uops u with Some _ => l_num (apply_unary_ops d ev uops (co_st x) u) = (l_num (co_st x) + 1)%Z | None => apply_unary_ops d ev uops (co_st x) u = co_st x end).
  { unfold apply_unary_ops. destruct (try_unary d ev (l_sol (co_st x)) uops u) as [[o m]|] eqn:T; [|reflexivity].
    assert (N : forall st rU rV, l_num (ls_update d st rU rV) = (l_num st + 1)%Z) by (intros st [r|] rV; unfold ls_update; [destruct (r =? rV)|]; reflexivity).
    destruct (home (l_plan (co_st x)) u) as [r|] eqn:Hh; [rewrite N; reflexivity|].
    destruct (home (l_plan (with_plan (co_st x) (apply_unary o m (l_plan (co_st x)) u))) u) as [r|] eqn:Hr; [rewrite N; reflexivity|]. exfalso.
    apply try_unary_some in T as [_ [delta E]]. rewrite (li_sync _ _ _ _ I) in E. destruct K as [Hu K].
    destruct (unary_ok d h ev St o (l_plan (co_st x)) u delta m (li_ok _ _ _ _ I) K Hu E) as (Ef & Dn & _).
    destruct (unary_touched d o (l_plan (co_st x)) u _ (li_ok _ _ _ _ I) (dn_ok _ _ _ _ _ Dn) Hu Ef) as [_ T2]. apply home_tot in Hh. destruct (T2 Hh) as [_ T4].
    change (l_plan (with_plan (co_st x) (apply_unary o m (l_plan (co_st x)) u))) with (apply_unary o m (l_plan (co_st x)) u) in Hr. apply home_tot in Hr. lia. }
  assert (A : apps (c_unary_ops d ev uops x u) = apps x + match try_unary d ev (l_sol (co_st x)) uops u with Some _ => 1 | None => 0 end).
  { rewrite !apps_sum. cbn [c_unary_ops co_unary co_binary]. rewrite C2. lia. }
  constructor; [exact I'|exact Sp|exact C1|apply oc_refl|exact (fun H => proj1 (count_unary_chain (l_sol (co_st x)) u uops (co_unary x) Z1 H))|exact (fun H => H)| |]; rewrite A; cbn [c_unary_ops co_st]; destruct (try_unary d ev (l_sol (co_st x)) uops u).
  - rewrite X. lia.
  - rewrite X. lia.
  - right. split; [lia|]. destruct M as [[_ M]|[M _]]; [lia|exact M].
  - left. rewrite X. split; [lia|reflexivity].
Qed.

Lemma c_binary_tally x u v : ls_inv d ev bops (co_st x) -> sized x -> visit_known d u -> vref_ok (l_plan (co_st x)) v -> (exists r pos, locate (l_plan (co_st x)) v = Some (r, pos)) -> v <> VAct u ->
  tally x (snd (c_binary_ops d ev bops x u v)) /\ (fst (c_binary_ops d ev bops x u v) = false -> l_plan (co_st (snd (c_binary_ops d ev bops x u v))) = l_plan (co_st x)).
Proof.
  intros I [Z1 Z2] K Hv (r & pos & L) Hne. pose proof (binary_step d h ev St bops Ops (co_st x) u v I K Hv Hne) as B. unfold c_binary_ops.
  destruct (count_binary_step (l_sol (co_st x)) u v bops (l_rcs (co_st x)) (co_binary x)) as [C1 C2]. specialize (C2 Z2 (eq_sym (Forall2_length _ _ _ (li_rcs _ _ _ _ I)))).
  assert (X : fst (apply_binary_ops d ev bops (co_st x) u v) = match fst (try_binary d ev (l_sol (co_st x)) bops (l_rcs (co_st x)) u v) with Some _ => true | None => false end).
  { unfold apply_binary_ops. destruct (try_binary d ev (l_sol (co_st x)) bops (l_rcs (co_st x)) u v) as [[[o m]|] rcs]; [|reflexivity]. change (l_plan (with_rcs (co_st x) rcs)) with (l_plan (co_st x)). rewrite L. reflexivity. }
  destruct (apply_binary_ops d ev bops (co_st x) u v) as [b st]. destruct B as ((I' & [Sp _] & _) & B1 & B2). cbn [fst snd] in *.
  assert (A : apps (mk_counted st (co_unary x) (count_binary d ev (l_sol (co_st x)) bops (l_rcs (co_st x)) (co_binary x) u v)) = apps x + (if b then 1 else 0)).
  { rewrite !apps_sum. cbn [co_unary co_binary]. rewrite C2, X. destruct (fst (try_binary _ _ _ _ _ _ _)); lia. }
  split; [|intros ->; apply (B2 eq_refl)]. constructor; [exact I'|exact Sp|apply oc_refl|exact C1|exact (fun H => H)|
    exact (fun H => proj1 (count_binary_chain (l_sol (co_st x)) u v bops (l_rcs (co_st x)) (co_binary x) Z2 (eq_sym (Forall2_length _ _ _ (li_rcs _ _ _ _ I))) H))| |]; rewrite A; cbn [co_st]; destruct b.
  - destruct (B1 eq_refl) as [_ ->]. lia.
  - destruct (B2 eq_refl) as (_ & -> & _). lia.
  - right. split; [lia|apply B1; reflexivity].
  - left. split; [lia|apply B2; reflexivity].
Qed.
Lemma start_located p r : r < length p -> exists x pos, locate p (VStart r) = Some (x, pos).
Proof. intros H. cbn. eauto. Qed.
Lemma c_empty_tally u : visit_known d u -> forall types x, ls_inv d ev bops (co_st x) -> sized x -> (forall t, In t types -> In t (veh_order (p_vehicles d) 0 0)) ->
  tally x (c_empty_moves d ev bops x u types).
Proof.
  intros K. induction types as [|[t o] types IH]; intros x I Z Ht; cbn [c_empty_moves]; [apply tally_refl, I|].
  destruct (first_empty (l_sol (co_st x)) o (avail d t)) as [r|] eqn:F; [|apply IH; [exact I|exact Z|intros y Hy; apply Ht; right; exact Hy]].
  pose proof (empty_slot d _ _ _ _ (Ht _ (or_introl eq_refl)) F) as Hr. rewrite <- (pk_len d _ (li_ok _ _ _ _ I)) in Hr.
  destruct (c_binary_tally x u (VStart r) I Z K Hr (start_located _ _ Hr) ltac:(discriminate)) as [B _]. destruct (c_binary_ops d ev bops x u (VStart r)) as [ap x']. cbn [snd] in B.
  destruct ap; [exact B|]. eapply tally_trans; [exact B|]. apply IH; [apply B|exact (tally_sized _ _ B Z)|]. intros y Hy; apply Ht; right; exact Hy.
Qed.
Lemma c_neighbour_tally lt u v x : visit_known d u -> visit_known d v -> v <> u -> ls_inv d ev bops (co_st x) -> sized x ->
  exists x', c_test_neighbour d ev bops lt u x v = Some x' /\ tally x x'.
Proof.
  intros K Kv Hne I Z. unfold c_test_neighbour. rewrite (proj2 (node_known d v) Kv).
  destruct (find_act v (l_plan (co_st x))) as [[rv pv]|] eqn:F; [|exists x; split; [reflexivity|apply tally_refl, I]].
  destruct (_ || _); [|exists x; split; [reflexivity|apply tally_refl, I]].
  destruct (c_binary_tally x u (VAct v) I Z K (proj1 Kv)) as [B B2]; [exists rv, pv; exact F|congruence|].
  destruct (c_binary_ops d ev bops x u (VAct v)) as [ap x1]. cbn [fst snd] in B, B2. destruct ap; cbn [negb andb].
  - exists x1. auto.
  - destruct (pv =? 1); [|exists x1; auto]. eexists. split; [reflexivity|].
    specialize (B2 eq_refl). destruct (find_act_spec _ _ _ _ F) as (A' & B' & _ & _ & Hr). rewrite <- B2 in Hr.
    destruct (c_binary_tally x1 u (VStart rv) (ta_inv _ _ B) (tally_sized _ _ B Z) K Hr (start_located _ _ Hr) ltac:(discriminate)) as [C _].
    eapply tally_trans; eassumption.
Qed.
Lemma c_neighbours_tally lt u vs : visit_known d u -> (forall v, In v vs -> visit_known d v) -> ~ In u vs -> forall x, ls_inv d ev bops (co_st x) -> sized x ->
  exists x', c_test_neighbours d ev bops lt u x vs = Some x' /\ tally x x'.
Proof.
  intros K. induction vs as [|v vs IH]; intros Kv Hn x I Z; cbn [c_test_neighbours]; [exists x; split; [reflexivity|apply tally_refl, I]|].
  destruct (c_neighbour_tally lt u v x K) as (x1 & -> & B1); [apply Kv; left; reflexivity|intros ->; apply Hn; left; reflexivity|exact I|exact Z|].
  destruct (IH (fun y Hy => Kv y (or_intror Hy)) (fun X => Hn (or_intror X)) x1 (ta_inv _ _ B1) (tally_sized _ _ B1 Z)) as (x2 & -> & B2).
  exists x2. split; [reflexivity|]. eapply tally_trans; eassumption.
Qed.
Theorem c_visit_tally x u : ls_inv d ev bops (co_st x) -> sized x -> In u (activity_order d) -> exists x', c_visit_act d ev uops bops x u = Some x' /\ tally x x'.
Proof.
  intros I Z Hu. unfold c_visit_act. destruct (is_promising (l_space (co_st x)) u); [|exists x; split; [reflexivity|apply tally_refl, I]].
  pose proof (proj1 (order_in d u Hu)) as K. cbv zeta.
  set (x0 := with_st x (with_test (co_st x) _)). assert (B0 : tally x x0).
  { apply tally_st; try reflexivity; [|apply same_space_refl]. exact (proj1 (with_test_kept d ev bops (co_st x) _ I)). }
  pose proof (c_unary_tally x0 u (ta_inv _ _ B0) (tally_sized _ _ B0 Z) K) as B1. set (x1 := c_unary_ops d ev uops x0 u) in *.
  pose proof (tally_sized _ _ B1 (tally_sized _ _ B0 Z)) as Z1.
  destruct (si_nb d _ (li_space _ _ _ _ (ta_inv _ _ B1)) u Hu) as (vs & -> & Hn & Kv).
  destruct (c_neighbours_tally (nth (test_index d u) (l_test (co_st x)) 0%Z) u vs K Kv Hn x1 (ta_inv _ _ B1) Z1) as (x2 & -> & B2).
  eexists. split; [reflexivity|]. eapply tally_trans; [exact B0|]. eapply tally_trans; [exact B1|]. eapply tally_trans; [exact B2|].
  apply c_empty_tally; [exact K|apply B2|exact (tally_sized _ _ B2 Z1)|]. intros t Ht. eapply Permutation_in; [symmetry; apply (si_veh d _ (li_space _ _ _ _ (ta_inv _ _ B2)))|exact Ht].
Qed.
Theorem c_visits_tally us : (forall u, In u us -> In u (activity_order d)) -> forall x, ls_inv d ev bops (co_st x) -> sized x ->
  exists x', c_visit_all d ev uops bops x us = Some x' /\ tally x x'.
Proof.
  induction us as [|u us IH]; intros Hu x I Z; cbn [c_visit_all]; [exists x; split; [reflexivity|apply tally_refl, I]|].
  destruct (c_visit_tally x u I Z (Hu u (or_introl eq_refl))) as (x1 & -> & B1).
  destruct (IH (fun y Hy => Hu y (or_intror Hy)) x1 (ta_inv _ _ B1) (tally_sized _ _ B1 Z)) as (x2 & -> & B2). exists x2. split; [reflexivity|]. eapply tally_trans; eassumption.
Qed.
Lemma tally_done x b : ls_inv d ev bops (co_st x) -> tally x (with_st x (with_done (co_st x) b)).
Proof. intros I. apply tally_st; try reflexivity; [apply with_done_inv; exact I|apply same_space_refl]. Qed.
Lemma c_loop_tally n : forall x, ls_inv d ev bops (co_st x) -> sized x -> forall st, fst (c_search_loop d ev uops bops n x) = Finished st -> tally x (snd (c_search_loop d ev uops bops n x)).
Proof.
  induction n as [|n IH]; intros x I Z st; cbn [c_search_loop]; destruct (l_done (co_st x)); cbn [fst snd]; [intros _; apply tally_refl, I|discriminate|intros _; apply tally_refl, I|].
  pose proof (tally_done x true I) as B0. set (x0 := with_st x (with_done (co_st x) true)) in *. pose proof (tally_sized _ _ B0 Z) as Z0.
  destruct (c_visits_tally (ss_order (l_space (co_st x)))) with (x := x0) as (x1 & E & B1); [|exact (ta_inv _ _ B0)|exact Z0|].
  { intros u Hu. eapply Permutation_in; [symmetry; apply (si_order d _ (li_space _ _ _ _ I))|exact Hu]. }
  rewrite E. intros F. eapply tally_trans; [exact B0|]. eapply tally_trans; [exact B1|]. apply (IH x1 (ta_inv _ _ B1) (tally_sized _ _ B1 Z0) st F).
Qed.
Lemma c_search_tally n x : ls_inv d ev bops (co_st x) -> sized x -> forall st, fst (c_search d ev uops bops n x) = Finished st -> tally x (snd (c_search d ev uops bops n x)).
Proof.
  intros I Z st. pose proof (tally_done x false I) as B0.
  assert (G : fst (c_search_loop d ev uops bops n (with_st x (with_done (co_st x) false))) = Finished st -> tally x (snd (c_search_loop d ev uops bops n (with_st x (with_done (co_st x) false))))).
  { intros F. eapply tally_trans; [exact B0|]. exact (c_loop_tally n _ (ta_inv _ _ B0) (tally_sized _ _ B0 Z) st F). }
  assert (E : c_search d ev uops bops n x = c_search_loop d ev uops bops n (with_st x (with_done (co_st x) false)) \/ c_search d ev uops bops n x = (Finished (co_st x), x)).
  { clear. unfold c_search. destruct uops; [destruct bops|]; auto. }
  destruct E as [->| ->]; [exact G|intros _; apply tally_refl, I].
Qed.
End Facts.
