(** Leaving out operators that do not support the data does not change what the local search returns. *)
From Coq Require Import Permutation.
From Verif Require Import Base DurationSegment Data LoadSegment SearchRoute Valid Route RouteSpec Cost CostFacts DeltaFacts DataCtor Solution SolutionFacts
  SolutionFacts2 SolutionFacts3 RouteFacts4 Bitset Rng MakeRandom SearchSpace Neighbourhood SearchNodes SearchSeq SearchLoad Ops PlanFacts ShipState OpsBase OpsGen OpsMove OpsRelocate
  OpsSwap OpsOne OpsEdit OpsEdit2 OpsAll LocalSearch LocalFacts LocalTerm LocalInsert LocalEnsure Perturb LocalRun Solve Supports.
Local Open Scope nat_scope.

Lemma some_eq {A} (x y : A) : Some x = Some y -> x = y.
Proof. congruence. Qed.
Lemma pair_eq {A B} (a a' : A) (b b' : B) : (a, b) = (a', b') -> a = a' /\ b = b'.
Proof. intros H. split; congruence. Qed.
(** ** The state without the caches of the operators left out *)
Section Slim.
Variable d : pdata.
Variable ev : evaluator.
Variable keep : binary -> bool.
Variable bops : list binary.
Fixpoint keep_rcs (ops : list binary) (rcs : list rcache) : list rcache :=
  match ops, rcs with
  | o :: ops, rc :: rcs => if keep o then rc :: keep_rcs ops rcs else keep_rcs ops rcs
  | _, _ => []
  end.
Definition slim (st : lstate) : lstate :=
  mk_lstate (l_sol st) (keep_rcs bops (l_rcs st)) (l_space st) (l_test st) (l_upd st) (l_num st) (l_done st).
Lemma keep_map f : forall ops rcs, keep_rcs ops (map f rcs) = map f (keep_rcs ops rcs).
Proof. induction ops as [|o ops IH]; intros [|rc rcs]; try reflexivity. cbn. destruct (keep o); cbn; rewrite IH; reflexivity. Qed.
Lemma slim_route st r : update_route d (slim st) r = slim (update_route d st r).
Proof. unfold update_route, slim. cbn [l_sol l_rcs l_space l_test l_upd l_num l_done]. rewrite keep_map. reflexivity. Qed.
Lemma slim_update st rU rV : ls_update d (slim st) rU rV = slim (ls_update d st rU rV).
Proof.
  unfold ls_update. set (st1 := mk_lstate (l_sol st) (l_rcs st) (l_space st) (l_test st) (l_upd st) (l_num st + 1) false).
  change (mk_lstate (l_sol (slim st)) (l_rcs (slim st)) (l_space (slim st)) (l_test (slim st)) (l_upd (slim st)) (l_num (slim st) + 1) false) with (slim st1).
  destruct rU as [r|]; [|apply slim_route]. rewrite slim_route. destruct (r =? rV); [reflexivity|apply slim_route].
Qed.
Lemma slim_plan st p : with_plan (slim st) p = slim (with_plan st p).
Proof. reflexivity. Qed.
Lemma slim_mark st a : mark_in d (slim st) a = slim (mark_in d st a).
Proof. reflexivity. Qed.
Lemma slim_ref st v : mark_ref d (slim st) v = slim (mark_ref d st v).
Proof. unfold mark_ref. change (l_plan (slim st)) with (l_plan st). destruct (locate (l_plan st) v) as [[r pos]|]; reflexivity. Qed.
(** *** Making the solution complete *)
Lemma slim_required st a : insert_required d ev (slim st) a = option_map slim (insert_required d ev st a).
Proof.
  unfold insert_required. change (l_space (slim st)) with (l_space st). change (l_sol (slim st)) with (l_sol st).
  destruct (match a with AClient _ => _ | _ => _ end) as [[p|]|]; try reflexivity.
  destruct (home p a) as [r|]; [|reflexivity]. rewrite slim_plan, slim_update. reflexivity.
Qed.
Definition slim2 (x : lstate * list nat) : lstate * list nat := (slim (fst x), snd x).
Lemma slim_ensure_act x a : ensure_act d ev (slim2 x) a = option_map slim2 (ensure_act d ev x a).
Proof.
  destruct x as [st counts]. unfold ensure_act, slim2 at 1. cbn [fst snd]. change (l_plan (slim st)) with (l_plan st).
  destruct a as [i|i|i|i]; try reflexivity.
  - destruct (negb _ && _).
    { rewrite slim_required. destruct (insert_required d ev st (AClient i)); reflexivity. }
    destruct (c_group _) as [g|]; [|reflexivity]. destruct (g_required _ && _).
    { rewrite slim_required. destruct (insert_required d ev st (AClient i)); reflexivity. }
    destruct (_ && _); [|reflexivity]. destruct (find_act _ _) as [[r pos]|]; [|reflexivity].
    cbn [option_map]. rewrite slim_mark, slim_plan, slim_update. reflexivity.
  - destruct (negb _ && _); [|reflexivity].
    rewrite slim_required. destruct (insert_required d ev st (APickup i)); reflexivity.
Qed.
Lemma slim_ensure_all acts : forall x, ensure_all d ev (slim2 x) acts = option_map slim2 (ensure_all d ev x acts).
Proof.
  induction acts as [|a acts IH]; intros x; [reflexivity|]. cbn [ensure_all]. rewrite slim_ensure_act. destruct (ensure_act d ev x a) as [x'|]; [|reflexivity]. apply IH.
Qed.
Lemma slim_ensure st : ensure d ev (slim st) = option_map slim (ensure d ev st).
Proof.
  unfold ensure. change (l_plan (slim st)) with (l_plan st). change (slim st, group_counts d (l_plan st)) with (slim2 (st, group_counts d (l_plan st))).
  change (l_space (slim st)) with (l_space st). rewrite slim_ensure_all. destruct (ensure_all _ _ _ _) as [[x c]|]; reflexivity.
Qed.

End Slim.

(** ** The search *)
Section Search.
Variable d : pdata.
Variable h : Z.
Variable ev : evaluator.
Hypothesis St : setting d h ev.
Variable uops : list unary.
Variable bops : list binary.
Hypothesis Ops : Forall op_ok bops.
Variable ku : unary -> bool.
Variable kb : binary -> bool.
Hypothesis HU : forall o, In o uops -> ku o = false -> idle d (OUnary o).
Hypothesis HB : forall o, In o bops -> kb o = false -> idle d (OBinary o).
Let Dok : data_ok d := st_data d h ev St.

Notation good := (ls_inv d ev bops).
Notation sl := (slim kb bops).

Lemma try_unary_slim p u : plan_ok d p -> structured d p -> visit_known d u ->
  try_unary d ev (sync d p) (filter ku uops) u = try_unary d ev (sync d p) uops u.
Proof.
  intros P Sp [Hu K]. clear HB. revert HU. induction uops as [|o ops IH]; intros H; [reflexivity|]. cbn [filter try_unary].
  specialize (IH (fun o Ho => H o (or_intror Ho))). destruct (ku o) eqn:Ko.
  - cbn [try_unary]. destruct (eval_unary d ev o (sync d p) u) as [[delta ap] m]. destruct ap; [reflexivity|exact IH].
  - destruct (unary_idle d ev Dok p P o u (H o (or_introl eq_refl) Ko) K Hu) as (delta & m & ->). exact IH.
Qed.
Lemma good_unary st u : good st -> visit_known d u ->
  good (apply_unary_ops d ev uops st u) /\ apply_unary_ops d ev (filter ku uops) (sl st) u = sl (apply_unary_ops d ev uops st u).
Proof.
  intros I K. pose proof (unary_step d h ev St uops bops st u I K) as (I' & _ & _). split.
  - exact I'.
  - unfold apply_unary_ops. change (l_sol (sl st)) with (l_sol st). change (l_plan (sl st)) with (l_plan st).
    rewrite (li_sync _ _ _ _ I), (try_unary_slim (l_plan st) u (li_ok _ _ _ _ I) (li_str _ _ _ _ I) K).
    destruct (try_unary d ev (sync d (l_plan st)) uops u) as [[o m]|]; [|reflexivity]. destruct (home (l_plan st) u) as [r|].
    + rewrite slim_mark, slim_plan, slim_update. reflexivity.
    + rewrite slim_plan. change (l_plan (sl (with_plan st (apply_unary o m (l_plan st) u)))) with (l_plan (with_plan st (apply_unary o m (l_plan st) u))).
      destruct (home (l_plan (with_plan st (apply_unary o m (l_plan st) u))) u) as [r|]; [|reflexivity]. rewrite slim_mark, slim_update. reflexivity.
Qed.

Lemma try_binary_slim p u v : plan_ok d p -> structured d p -> visit_known d u -> vref_ok p v -> forall rcs,
  let '(found, rcs') := try_binary d ev (sync d p) bops rcs u v in
  try_binary d ev (sync d p) (filter kb bops) (keep_rcs kb bops rcs) u v = (found, keep_rcs kb bops rcs').
Proof.
  intros P Sp [Hu K] Hv. clear HU. revert Ops HB. induction bops as [|o ops IH]; intros Ho H rcs; [reflexivity|].
  specialize (IH (Forall_inv_tail Ho) (fun o Ho => H o (or_intror Ho))). apply Forall_inv in Ho.
  destruct rcs as [|rc rcs]. { cbn [try_binary keep_rcs]. destruct (filter kb (o :: ops)); reflexivity. }
  cbn [try_binary keep_rcs filter]. specialize (IH rcs). destruct (kb o) eqn:Ko.
  - cbn [try_binary]. destruct (eval_binary d ev o (sync d p) rc u v) as [[[delta ap] m] rc']. destruct ap; [cbn [keep_rcs]; rewrite ?Ko; reflexivity|].
    destruct (try_binary d ev (sync d p) ops rcs u v) as [found rcs']. rewrite IH. cbn [keep_rcs]. rewrite ?Ko. reflexivity.
  - destruct (binary_idle d ev Dok p P Sp o rc u v (H o (or_introl eq_refl) Ko) Ho K Hu Hv) as (delta & m & rc' & ->).
    destruct (try_binary d ev (sync d p) ops rcs u v) as [found rcs']. cbn [keep_rcs]. rewrite ?Ko. exact IH.
Qed.
Lemma good_binary st u v : good st -> visit_known d u -> vref_ok (l_plan st) v -> v <> VAct u ->
  let '(applied, st') := apply_binary_ops d ev bops st u v in
  good st' /\ apply_binary_ops d ev (filter kb bops) (sl st) u v = (applied, sl st') /\ (applied = false -> l_plan st' = l_plan st).
Proof.
  intros I K Hv Hne. pose proof (binary_step d h ev St bops Ops st u v I K Hv Hne) as B.
  pose proof (try_binary_slim (l_plan st) u v (li_ok _ _ _ _ I) (li_str _ _ _ _ I) K Hv (l_rcs st)) as T.
  destruct (apply_binary_ops d ev bops st u v) as [applied st'] eqn:A. destruct B as ((I' & _) & _ & F). split; [exact I'|]. split; [|intros X; exact (proj1 (F X))].
  unfold apply_binary_ops in *. change (l_sol (sl st)) with (l_sol st). change (l_rcs (sl st)) with (keep_rcs kb bops (l_rcs st)).
  rewrite (li_sync _ _ _ _ I) in A |- *. destruct (try_binary d ev (sync d (l_plan st)) bops (l_rcs st) u v) as [found rcs]. rewrite T.
  change (with_rcs (sl st) (keep_rcs kb bops rcs)) with (sl (with_rcs st rcs)). change (l_plan (sl (with_rcs st rcs))) with (l_plan (with_rcs st rcs)).
  destruct found as [[o m]|]; [|apply pair_eq in A as [<- <-]; reflexivity].
  destruct (locate (l_plan (with_rcs st rcs)) v) as [[rV pV]|]; [|apply pair_eq in A as [<- <-]; reflexivity].
  apply pair_eq in A as [<- <-]. rewrite slim_mark, slim_ref, slim_plan, slim_update. reflexivity.
Qed.

Lemma good_empty u : visit_known d u -> forall types st, good st -> (forall t, In t types -> In t (veh_order (p_vehicles d) 0 0)) ->
  good (empty_moves d ev bops st u types) /\ empty_moves d ev (filter kb bops) (sl st) u types = sl (empty_moves d ev bops st u types).
Proof.
  intros K. induction types as [|[t o] types IH]; intros st I Ht; cbn [empty_moves]; [split; [exact I|reflexivity]|].
  change (l_sol (sl st)) with (l_sol st).
  destruct (first_empty (l_sol st) o (avail d t)) as [r|] eqn:F; [|apply IH; [exact I|intros x Hx; apply Ht; right; exact Hx]].
  pose proof (empty_slot d _ _ _ _ (Ht _ (or_introl eq_refl)) F) as Hr. rewrite <- (pk_len d _ (li_ok _ _ _ _ I)) in Hr.
  pose proof (good_binary st u (VStart r) I K Hr ltac:(discriminate)) as B. destruct (apply_binary_ops d ev bops st u (VStart r)) as [ap st'].
  destruct B as (B1 & -> & _). destruct ap; [split; [exact B1|reflexivity]|]. apply IH; [exact B1|]. intros x Hx; apply Ht; right; exact Hx.
Qed.
Lemma good_neighbour lt u v st : visit_known d u -> visit_known d v -> v <> u -> good st ->
  exists st', test_neighbour d ev bops lt u st v = Some st' /\ good st' /\ test_neighbour d ev (filter kb bops) lt u (sl st) v = Some (sl st').
Proof.
  intros K Kv Hne I. unfold test_neighbour. rewrite (proj2 (node_known d v) Kv). change (l_plan (sl st)) with (l_plan st). change (l_upd (sl st)) with (l_upd st).
  destruct (find_act v (l_plan st)) as [[rv pv]|] eqn:F; [|exists st; auto].
  destruct (_ || _); [|exists st; auto].
  pose proof (good_binary st u (VAct v) I K (proj1 Kv) ltac:(congruence)) as B. destruct (apply_binary_ops d ev bops st u (VAct v)) as [ap st1].
  destruct B as (B1 & -> & B2). destruct ap; cbn [negb andb].
  - exists st1. auto.
  - destruct (pv =? 1); [|exists st1; auto]. eexists. split; [reflexivity|].
    specialize (B2 eq_refl). destruct (find_act_spec _ _ _ _ F) as (A' & B' & _ & _ & Hr). rewrite <- B2 in Hr.
    pose proof (good_binary st1 u (VStart rv) B1 K Hr ltac:(discriminate)) as C. destruct (apply_binary_ops d ev bops st1 u (VStart rv)) as [ap st2].
    destruct C as (C1 & -> & _). split; [exact C1|reflexivity].
Qed.
Lemma good_neighbours lt u vs : visit_known d u -> (forall v, In v vs -> visit_known d v) -> ~ In u vs -> forall st, good st ->
  exists st', test_neighbours d ev bops lt u st vs = Some st' /\ good st' /\ test_neighbours d ev (filter kb bops) lt u (sl st) vs = Some (sl st').
Proof.
  intros K. induction vs as [|v vs IH]; intros Kv Hn st I; cbn [test_neighbours]; [exists st; auto|].
  destruct (good_neighbour lt u v st K) as (st1 & -> & B1 & ->); [apply Kv; left; reflexivity|intros ->; apply Hn; left; reflexivity|exact I|].
  exact (IH (fun x Hx => Kv x (or_intror Hx)) (fun X => Hn (or_intror X)) st1 B1).
Qed.
Theorem good_visit st u : good st -> In u (activity_order d) ->
  exists st', visit_act d ev uops bops st u = Some st' /\ good st' /\ visit_act d ev (filter ku uops) (filter kb bops) (sl st) u = Some (sl st').
Proof.
  intros I Hu. unfold visit_act. change (l_space (sl st)) with (l_space st). change (l_test (sl st)) with (l_test st). change (l_num (sl st)) with (l_num st).
  destruct (is_promising (l_space st) u); [|exists st; auto].
  pose proof (proj1 (order_in d u Hu)) as K.
  set (st0 := with_test st _). assert (I0 : good st0) by (apply (with_test_kept d ev bops), I).
  change (with_test (sl st) (upd (l_test st) (test_index d u) (l_num st))) with (sl st0).
  destruct (good_unary st0 u I0 K) as [I1 ->]. set (st1 := apply_unary_ops d ev uops st0 u) in *. change (l_space (sl st1)) with (l_space st1).
  destruct (si_nb d _ (li_space _ _ _ _ I1) u Hu) as (vs & -> & Hn & Kv).
  destruct (good_neighbours (nth (test_index d u) (l_test st) 0%Z) u vs K Kv Hn st1 I1) as (st2 & -> & I2 & ->). change (l_space (sl st2)) with (l_space st2).
  destruct (good_empty u K (ss_vehOrder (l_space st2)) st2 I2) as [I3 ->].
  { intros t Ht. eapply Permutation_in; [symmetry; apply (si_veh d _ (li_space _ _ _ _ I2))|exact Ht]. }
  eexists. split; [reflexivity|]. split; [exact I3|reflexivity].
Qed.
Theorem good_visits us : (forall u, In u us -> In u (activity_order d)) -> forall st, good st ->
  exists st', visit_all d ev uops bops st us = Some st' /\ good st' /\ visit_all d ev (filter ku uops) (filter kb bops) (sl st) us = Some (sl st').
Proof.
  induction us as [|u us IH]; intros Hu st I; cbn [visit_all]; [exists st; auto|].
  destruct (good_visit st u I (Hu u (or_introl eq_refl))) as (st1 & -> & I1 & ->). exact (IH (fun x Hx => Hu x (or_intror Hx)) st1 I1).
Qed.

(** Without operators nothing changes. *)
Lemma no_binary st u v : apply_binary_ops d ev [] st u v = (false, st).
Proof. unfold apply_binary_ops. cbn [try_binary]. destruct st. reflexivity. Qed.
Definition still (st st' : lstate) : Prop := l_sol st' = l_sol st /\ l_space st' = l_space st /\ l_done st' = l_done st.
Lemma no_empty u types : forall st, empty_moves d ev [] st u types = st.
Proof. induction types as [|[t o] types IH]; intros st; cbn [empty_moves]; [reflexivity|]. destruct (first_empty _ _ _); [rewrite no_binary|]; apply IH. Qed.
Lemma no_neighbours lt u vs : forall st st', test_neighbours d ev [] lt u st vs = Some st' -> st' = st.
Proof.
  induction vs as [|v vs IH]; intros st st' E; cbn [test_neighbours] in E; [congruence|].
  unfold test_neighbour in E. destruct (has_node d v); [|discriminate]. destruct (find_act v (l_plan st)) as [[rv pv]|]; [|exact (IH _ _ E)].
  destruct (_ || _); [|exact (IH _ _ E)]. rewrite no_binary in E. destruct (_ && _); [rewrite no_binary in E|]; exact (IH _ _ E).
Qed.
Lemma no_visits_all us : forall st st', visit_all d ev [] [] st us = Some st' -> still st st'.
Proof.
  induction us as [|u us IH]; intros st st' E; cbn [visit_all] in E; [injection E as <-; repeat split|].
  destruct (visit_act d ev [] [] st u) as [st1|] eqn:E1; [|discriminate]. specialize (IH _ _ E).
  assert (X : still st st1); [|destruct X as (X1 & X2 & X3), IH as (Y1 & Y2 & Y3); repeat split; congruence].
  unfold visit_act in E1. destruct (is_promising (l_space st) u); [|injection E1 as <-; repeat split].
  cbv zeta in E1. set (st0 := with_test st _) in E1. change (apply_unary_ops d ev [] st0 u) with st0 in E1.
  destruct (neighbours_of (l_space st0) u) as [vs|]; [|discriminate].
  destruct (test_neighbours d ev [] _ u st0 vs) as [st2|] eqn:E2; [|discriminate]. apply no_neighbours in E2. subst st2. rewrite no_empty in E1. injection E1 as <-. repeat split.
Qed.

(** The same solution and search space, if there is a result. *)
Definition same_end (x y : LocalSearch.outcome) : Prop :=
  match x, y with
  | Finished st, Finished st' => l_sol st' = l_sol st /\ l_space st' = l_space st
  | Crashed, Crashed | Unfinished, Unfinished => True
  | _, _ => False
  end.
Lemma loop_slim n : forall st, good st -> search_loop d ev (filter ku uops) (filter kb bops) n (sl st) = 
  match search_loop d ev uops bops n st with Finished st' => Finished (sl st') | Crashed => Crashed | Unfinished => Unfinished end.
Proof.
  induction n as [|n IH]; intros st I; cbn [search_loop]; change (l_done (sl st)) with (l_done st); destruct (l_done st); try reflexivity.
  assert (I' : good (with_done st true)) by (apply (with_done_inv d ev bops), I).
  destruct (good_visits (ss_order (l_space st))) with (st := with_done st true) as (st' & -> & J & E); [|exact I'|].
  - intros u Hu. eapply Permutation_in; [symmetry; apply (si_order d _ (li_space _ _ _ _ I))|exact Hu].
  - change (with_done (sl st) true) with (sl (with_done st true)). change (l_space (sl st)) with (l_space st). rewrite E. apply IH, J.
Qed.
Theorem search_slim n st : 1 <= n -> good st -> same_end (search d ev uops bops n st) (search d ev (filter ku uops) (filter kb bops) n (sl st)).
Proof.
  intros Hn I. assert (I' : good (with_done st false)) by (apply (with_done_inv d ev bops), I).
  pose proof (loop_slim n (with_done st false) I') as L. change (sl (with_done st false)) with (with_done (sl st) false) in L.
  assert (Full : search d ev uops bops n st = search_loop d ev uops bops n (with_done st false) \/ (uops = [] /\ bops = [])).
  { unfold search. destruct uops; [destruct bops; [right; auto|left; reflexivity]|left; reflexivity]. }
  assert (Slim : search d ev (filter ku uops) (filter kb bops) n (sl st) = search_loop d ev (filter ku uops) (filter kb bops) n (with_done (sl st) false) \/ (filter ku uops = [] /\ filter kb bops = [])).
  { unfold search. destruct (filter ku uops); [destruct (filter kb bops); [right; auto|left; reflexivity]|left; reflexivity]. }
  destruct Full as [Full|[E1 E2]].
  - destruct Slim as [Slim|[E1 E2]].
    + rewrite Full, Slim, L. destruct (search_loop d ev uops bops n (with_done st false)); cbn; auto.
    + rewrite Full, E1, E2. unfold search. rewrite E1, E2 in L. clear Full. destruct n as [|n]; [lia|].
      destruct (good_visits (ss_order (l_space st))) with (st := with_done (with_done st false) true) as (st' & E & J & E').
      { intros u Hu. eapply Permutation_in; [symmetry; apply (si_order d _ (li_space _ _ _ _ I))|exact Hu]. }
      { apply (with_done_inv d ev bops), (with_done_inv d ev bops), I. }
      rewrite E1, E2 in E'. pose proof (no_visits_all _ _ _ E') as (S1 & S2 & S3).
      assert (F : search_loop d ev uops bops (Datatypes.S n) (with_done st false) = Finished st').
      { change (match visit_all d ev uops bops (with_done (with_done st false) true) (ss_order (l_space st)) with Some st => search_loop d ev uops bops n st | None => Crashed end = Finished st').
        rewrite E. assert (Dn : l_done st' = true) by exact S3. destruct n; cbn [search_loop]; rewrite Dn; reflexivity. }
      rewrite F. cbn. split; [symmetry; exact S1|symmetry; exact S2].
  - unfold search. rewrite E1, E2. cbn. split; reflexivity.
Qed.
End Search.

(** ** Before the search *)
Section Ready.
Variable d : pdata.
Variable h : Z.
Variable ev : evaluator.
Hypothesis St : setting d h ev.
Hypothesis ND : groups_nodup d.
Hypothesis Reloads : forall v, In v (p_vehicles d) -> (0 <= v_maxReloads v)%Z.
Variable bops : list binary.
Theorem call_ready sp routes sol num exhaustive : Forall (built d) routes -> make_solution d routes = Ok sol -> space_inv d sp -> space_ok d sp ->
  exists st1 st2, ls_prepare d ev num exhaustive (ls_start d bops sp sol) = Some st1 /\ ensure d ev st1 = Some st2 /\ ls_inv d ev bops st2.
Proof.
  intros B Es Si So. pose proof (fun v H => trips_one v (Reloads v H)) as Trips.
  pose proof (start_inv d h ev St ND Trips bops sp routes sol B Es Si) as I0.
  assert (Er : so_routes sol = routes) by (destruct (sol_inv d routes B ND (known_groups d h ev St) sol Es) as (_ & cv & sv & -> & _); reflexivity).
  set (st0 := ls_start d bops sp sol) in *. assert (E0 : l_plan st0 = load_plan d routes) by (unfold st0, ls_start, l_plan; rewrite Er; reflexivity).
  assert (Prep : exists st1, ls_prepare d ev num exhaustive st0 = Some st1 /\ pre_inv d ev bops st1).
  { unfold ls_prepare. destruct exhaustive.
    - exists (with_space st0 (mark_all sp)). split; [reflexivity|]. apply pre_space; [exact I0|apply mark_all_same].
    - destruct (perturb_spec d h ev St num (load_plan d routes) sp (load_ok d h ev St ND Trips routes B sol Es) Si So) as ([s1 sp1] & X & E & Px & Lx).
      change (l_space st0) with sp. assert (Es0 : l_sol st0 = sync d (load_plan d routes)) by (rewrite <- E0; exact (pi_sync _ _ _ _ I0)). rewrite Es0, E.
      exists (with_space (with_sol st0 s1) sp1). split; [reflexivity|]. constructor.
      + exact (pt_sync _ _ _ _ _ Px).
      + exact (pt_ok _ _ _ _ _ Px).
      + cbn [l_rcs with_space with_sol]. unfold st0, ls_start. cbn [l_rcs]. clear I0 st0 E0 Es0. induction bops as [|o os IH]; constructor; [apply none_ok|exact IH].
      + exact (same_space_inv d _ _ (pt_space _ _ _ _ _ Px) Si). }
  destruct Prep as (st1 & P1 & I1).
  destruct (ensure_spec d h ev St bops (nodup_groups_of d ND) st1 I1) as (st2 & E2 & I2 & S2 & Ef).
  exists st1, st2. auto.
Qed.
End Ready.

(** ** A call of the local search *)
Section Call.
Variable d : pdata.
Variable h : Z.
Variable ev : evaluator.
Hypothesis St : setting d h ev.
Hypothesis ND : groups_nodup d.
Hypothesis Reloads : forall v, In v (p_vehicles d) -> (0 <= v_maxReloads v)%Z.
Variable uops : list unary.
Variable bops : list binary.
Hypothesis Ops : Forall op_ok bops.
Variable ku : unary -> bool.
Variable kb : binary -> bool.
Hypothesis HU : forall o, In o uops -> ku o = false -> idle d (OUnary o).
Hypothesis HB : forall o, In o bops -> kb o = false -> idle d (OBinary o).

Lemma slim_start sp sol : slim kb bops (ls_start d bops sp sol) = ls_start d (filter kb bops) sp sol.
Proof.
  unfold ls_start, slim. cbn [l_sol l_rcs l_space l_test l_upd l_num l_done]. f_equal. clear Ops HB.
  induction bops as [|o os IH]; [reflexivity|]. cbn [map keep_rcs filter]. destruct (kb o); cbn [map]; rewrite IH; reflexivity.
Qed.
Lemma slim_prepare num exhaustive st : ls_prepare d ev num exhaustive (slim kb bops st) = option_map (slim kb bops) (ls_prepare d ev num exhaustive st).
Proof.
  unfold ls_prepare. destruct exhaustive; [reflexivity|]. change (l_sol (slim kb bops st)) with (l_sol st). change (l_space (slim kb bops st)) with (l_space st).
  destruct (perturb d ev num (l_sol st, l_space st)) as [[s sp]|]; reflexivity.
Qed.
Theorem call_slim n sp routes sol num exhaustive : 1 <= n -> Forall (built d) routes -> make_solution d routes = Ok sol -> space_inv d sp -> space_ok d sp ->
  ls_call d ev (filter ku uops) (filter kb bops) n num exhaustive sp sol = ls_call d ev uops bops n num exhaustive sp sol.
Proof.
  intros Hn B Es Si So. destruct (call_ready d h ev St ND Reloads bops sp routes sol num exhaustive B Es Si So) as (st1 & st2 & P1 & E2 & G).
  pose proof (search_slim d h ev St uops bops Ops ku kb HU HB n st2 Hn G) as F.
  unfold ls_call. rewrite <- slim_start, slim_prepare, P1. cbn [option_map]. rewrite slim_ensure, E2. cbn [option_map].
  destruct (search d ev uops bops n st2) as [st3| |], (search d ev (filter ku uops) (filter kb bops) n (slim kb bops st2)) as [st4| |]; try contradiction; try reflexivity.
  destruct F as [-> ->]. reflexivity.
Qed.
End Call.
