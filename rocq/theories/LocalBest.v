(** What an exhaustive call of the local search returns is a local optimum. *)
From Coq Require Import Permutation.
From Verif Require Import Base DurationSegment Data LoadSegment SearchRoute RouteDur Valid Route RouteSpec RouteFacts2 Cost CostFacts DeltaFacts DataCtor
  Bitset Rng SearchSpace SearchNodes SearchSeq SearchLoad SearchLoad2 Ops PlanFacts ShipState OpsBase OpsGen OpsRelocate OpsSwap OpsOne OpsEdit OpsEdit2 OpsAll Solution SolutionFacts
  LocalSearch LocalFacts LocalInsert LocalEnsure LocalTerm Perturb LocalRun LocalOpt OpsComplete OpsComplete2 OpsComplete3 Moves.
Local Open Scope nat_scope.

Lemma some_inj {A} (x y : A) : Some x = Some y -> x = y.
Proof. congruence. Qed.
Lemma some_fst {A B} (x y : A) (a b : B) : Some (x, a) = Some (y, b) -> x = y.
Proof. congruence. Qed.

(** ** What is promising stays promising *)
Definition more (sp sp' : space) : Prop :=
  length (ss_promising sp') = length (ss_promising sp) /\ forall i, bs_get (ss_promising sp) i = true -> bs_get (ss_promising sp') i = true.
Lemma more_refl sp : more sp sp.
Proof. split; auto. Qed.
Lemma more_trans a b c : more a b -> more b c -> more a c.
Proof. intros [L H] [L' H']. split; [congruence|auto]. Qed.
Lemma more_promising sp sp' u : more sp sp' -> is_promising sp u = true -> is_promising sp' u = true.
Proof. intros [L H]. unfold is_promising, bit_of, bs_size. rewrite L. destruct (a_isClient u); apply H. Qed.
Lemma upd_out {A} (l : list A) i x : length l <= i -> upd l i x = l.
Proof. revert i. induction l as [|y l IH]; intros [|i] H; cbn in *; auto; [lia|]. rewrite IH by lia. reflexivity. Qed.
Lemma set_more b k i : bs_get b i = true -> bs_get (bs_set b k true) i = true.
Proof.
  unfold bs_get, bs_set. intros H. destruct (Nat.lt_ge_cases (k / BLOCK) (length b)) as [L|L]; [|rewrite upd_out by exact L; exact H].
  rewrite upd_nth by exact L. destruct (Nat.eqb_spec (k / BLOCK) (i / BLOCK)) as [E|]; [|exact H]. rewrite E.
  destruct (Nat.lt_ge_cases (k mod BLOCK) (length (nth (i / BLOCK) b []))) as [L'|L']; [|rewrite upd_out by exact L'; exact H].
  rewrite upd_nth by exact L'. destruct (k mod BLOCK =? i mod BLOCK); [reflexivity|exact H].
Qed.
Lemma mark_more sp a : more sp (mark sp a).
Proof. split; [apply upd_length|intros i; apply set_more]. Qed.
Lemma visit_more sp a : more sp (mark_visit sp a).
Proof. unfold mark_visit. destruct (_ || _); [apply mark_more|apply more_refl]. Qed.
Lemma node_more sp nodes pos : more sp (mark_node sp nodes pos).
Proof.
  unfold mark_node. cbv zeta. set (s1 := mark_visit sp _). assert (M1 : more sp s1) by apply visit_more. clearbody s1.
  set (s2 := if pos =? 0 then _ else _). assert (M2 : more sp s2) by (unfold s2; destruct (pos =? 0); [exact M1|eapply more_trans; [exact M1|apply visit_more]]).
  clearbody s2. destruct (_ =? _); [exact M2|eapply more_trans; [exact M2|apply visit_more]].
Qed.
Lemma act_more d p a sp : more sp (mark_act d p a sp).
Proof. unfold mark_act. destruct (find_act a p) as [[r pos]|]; [apply node_more|apply more_refl]. Qed.

Section Grow.
Variable d : pdata.
Variable ev : evaluator.
Variable uops : list unary.
Variable bops : list binary.

(** Marks and stamps before the search. *)
Record fresh (st st' : lstate) : Prop := mk_fresh {
  fr_more : more (l_space st) (l_space st');
  fr_test : l_test st' = l_test st;
  fr_len : length (l_upd st') = length (l_upd st);
  fr_num : (l_num st <= l_num st')%Z;
  fr_upd : (forall r, (0 <= nth r (l_upd st) 0 <= l_num st)%Z) -> (forall r, (0 <= nth r (l_upd st') 0 <= l_num st')%Z) }.
Lemma fresh_refl st : fresh st st.
Proof. constructor; auto; [apply more_refl|lia]. Qed.
Lemma fresh_trans a b c : fresh a b -> fresh b c -> fresh a c.
Proof. intros [A B C D E] [A' B' C' D' E']. constructor; [eapply more_trans; eassumption|congruence|congruence|lia|auto]. Qed.
Lemma update_space st r : l_space (update_route d st r) = l_space st.
Proof. reflexivity. Qed.
Lemma ls_update_space st rU rV : l_space (ls_update d st rU rV) = l_space st.
Proof. unfold ls_update. destruct rU as [r|]; [destruct (r =? rV)|]; reflexivity. Qed.
Lemma upd_bound l r z (n : Z) : (forall x, (0 <= nth x l 0 <= n)%Z) -> (0 <= z <= n)%Z -> forall x, (0 <= nth x (upd l r z) 0 <= n)%Z.
Proof.
  intros H Hz x. destruct (Nat.lt_ge_cases r (length l)) as [L|L]; [rewrite upd_nth by exact L; destruct (r =? x); auto|rewrite upd_out by exact L; auto].
Qed.
Lemma ls_update_fresh st rU rV : (0 <= l_num st)%Z -> fresh st (ls_update d st rU rV).
Proof.
  intros N. constructor.
  - rewrite ls_update_space. apply more_refl.
  - unfold ls_update. destruct rU as [r|]; [destruct (r =? rV)|]; reflexivity.
  - unfold ls_update. destruct rU as [r|]; [destruct (r =? rV)|]; unfold update_route; cbn [l_upd]; rewrite !upd_length; reflexivity.
  - unfold ls_update. destruct rU as [r|]; [destruct (r =? rV)|]; unfold update_route; cbn [l_num]; lia.
  - intros H. assert (H' : forall x, (0 <= nth x (l_upd st) 0 <= l_num st + 1)%Z) by (intros x; specialize (H x); lia).
    unfold ls_update. destruct rU as [r|]; [destruct (r =? rV)|]; unfold update_route; cbn [l_upd l_num]; repeat apply upd_bound; auto; lia.
Qed.
Lemma mark_in_fresh st a : fresh st (mark_in d st a).
Proof. constructor; auto; [apply act_more|cbn; lia]. Qed.
Lemma mark_ref_more st v : more (l_space st) (l_space (mark_ref d st v)).
Proof. unfold mark_ref. destruct (locate _ _) as [[r pos]|]; [apply node_more|apply more_refl]. Qed.

(** *** The search *)
Lemma unary_more st u : more (l_space st) (l_space (apply_unary_ops d ev uops st u)).
Proof.
  unfold apply_unary_ops. destruct (try_unary _ _ _ _ _) as [[o m]|]; [|apply more_refl]. destruct (home _ _); cbv zeta.
  - rewrite ls_update_space. apply act_more.
  - destruct (home _ _); [rewrite ls_update_space; apply act_more|apply more_refl].
Qed.
Lemma binary_more st u v : more (l_space st) (l_space (snd (apply_binary_ops d ev bops st u v))).
Proof.
  unfold apply_binary_ops. destruct (try_binary _ _ _ _ _ _ _) as [[[o m]|] rcs]; [|apply more_refl]. cbv zeta.
  destruct (locate _ _) as [[rV pV]|]; [|apply more_refl]. cbn [snd]. rewrite ls_update_space.
  change (more (l_space st) (l_space (mark_ref d (mark_in d (with_rcs st rcs) u) v))). eapply more_trans; [|apply mark_ref_more]. apply act_more.
Qed.
Lemma empty_more u types : forall st, more (l_space st) (l_space (empty_moves d ev bops st u types)).
Proof.
  induction types as [|[t off] types IH]; intros st; cbn [empty_moves]; [apply more_refl|]. destruct (first_empty _ _ _) as [r|]; [|apply IH].
  pose proof (binary_more st u (VStart r)) as M. destruct (apply_binary_ops d ev bops st u (VStart r)) as [b st1]. cbn [snd] in M.
  destruct b; [exact M|eapply more_trans; [exact M|apply IH]].
Qed.
Lemma neighbour_more t u st v st' : test_neighbour d ev bops t u st v = Some st' -> more (l_space st) (l_space st').
Proof.
  unfold test_neighbour. destruct (has_node d v); [|discriminate]. destruct (find_act v (l_plan st)) as [[rv pv]|]; [|intros X; apply some_inj in X; subst st'; apply more_refl].
  cbv zeta. destruct (_ || _); [|intros X; apply some_inj in X; subst st'; apply more_refl].
  pose proof (binary_more st u (VAct v)) as M. destruct (apply_binary_ops d ev bops st u (VAct v)) as [b st1]. cbn [snd] in M.
  destruct (_ && _); intros X; apply some_inj in X; subst st'; [eapply more_trans; [exact M|apply binary_more]|exact M].
Qed.
Lemma neighbours_more t u vs : forall st st', test_neighbours d ev bops t u st vs = Some st' -> more (l_space st) (l_space st').
Proof.
  induction vs as [|v vs IH]; intros st st' H; cbn [test_neighbours] in H; [injection H as <-; apply more_refl|].
  destruct (test_neighbour d ev bops t u st v) as [st1|] eqn:E; [|discriminate]. eapply more_trans; [exact (neighbour_more _ _ _ _ _ E)|exact (IH _ _ H)].
Qed.
Lemma visit_act_more st u st' : visit_act d ev uops bops st u = Some st' -> more (l_space st) (l_space st').
Proof.
  unfold visit_act. destruct (is_promising _ _); [|intros X; apply some_inj in X; subst st'; apply more_refl]. cbv zeta. set (st1 := apply_unary_ops _ _ _ _ _).
  assert (M : more (l_space st) (l_space st1)) by (unfold st1; eapply more_trans; [|apply unary_more]; apply more_refl). clearbody st1.
  destruct (neighbours_of _ _); [|discriminate]. destruct (test_neighbours _ _ _ _ _ _ _) as [st2|] eqn:E; [|discriminate]. intros X; apply some_inj in X; subst st'.
  eapply more_trans; [exact M|]. eapply more_trans; [exact (neighbours_more _ _ _ _ _ E)|apply empty_more].
Qed.
Lemma visit_all_more us : forall st st', visit_all d ev uops bops st us = Some st' -> more (l_space st) (l_space st').
Proof.
  induction us as [|u us IH]; intros st st' H; cbn [visit_all] in H; [injection H as <-; apply more_refl|].
  destruct (visit_act d ev uops bops st u) as [st1|] eqn:E; [|discriminate]. eapply more_trans; [exact (visit_act_more _ _ _ E)|exact (IH _ _ H)].
Qed.
Lemma loop_more' n : forall st st', search_loop d ev uops bops n st = Finished st' -> more (l_space st) (l_space st').
Proof.
  induction n as [|n IH]; intros st st' H; cbn [search_loop] in H; destruct (l_done st); try discriminate; try (injection H as <-; apply more_refl).
  destruct (visit_all _ _ _ _ _ _) as [st1|] eqn:E; [|discriminate]. eapply more_trans; [exact (visit_all_more _ (with_done st true) _ E)|exact (IH _ _ H)].
Qed.
Lemma search_more' n st st' : search d ev uops bops n st = Finished st' -> more (l_space st) (l_space st').
Proof.
  unfold search. intros H. assert (X : st' = st \/ search_loop d ev uops bops n (with_done st false) = Finished st') by (destruct uops, bops; auto; left; congruence).
  destruct X as [->|X]; [apply more_refl|exact (loop_more' n (with_done st false) st' X)].
Qed.

(** *** Making the plan complete *)
Lemma insert_fresh st a st' : (0 <= l_num st)%Z -> insert_required d ev st a = Some st' -> fresh st st'.
Proof.
  intros N. unfold insert_required. cbv zeta. destruct (match a with AClient _ => _ | _ => _ end) as [[p|]|]; try discriminate.
  destruct (home p a) as [r|]; [|discriminate]. intros X; apply some_inj in X; subst st'. apply (fresh_trans st (with_plan st p)); [|apply ls_update_fresh; exact N].
  constructor; auto; [apply more_refl|cbn; lia].
Qed.
Lemma ensure_act_fresh st counts a st' counts' : (0 <= l_num st)%Z -> ensure_act d ev (st, counts) a = Some (st', counts') -> fresh st st'.
Proof.
  intros N. unfold ensure_act. destruct a as [x|i|i|i].
  - intros X; apply some_fst in X; subst st'. apply fresh_refl.
  - cbv zeta. destruct (_ && c_required _).
    { destruct (insert_required d ev st (AClient i)) as [st1|] eqn:E; [|discriminate]. cbn [option_map]. intros X; apply some_fst in X; subst st'.
      eapply fresh_trans; [exact (insert_fresh _ _ _ N E)|apply mark_in_fresh]. }
    destruct (c_group _) as [g|]; [|intros X; apply some_fst in X; subst st'; apply fresh_refl]. destruct (_ && (_ =? 0)).
    { destruct (insert_required d ev st (AClient i)) as [st1|] eqn:E; [|discriminate]. cbn [option_map]. intros X; apply some_fst in X; subst st'.
      eapply fresh_trans; [exact (insert_fresh _ _ _ N E)|apply mark_in_fresh]. }
    destruct (_ && _); [|intros X; apply some_fst in X; subst st'; apply fresh_refl]. destruct (find_act _ _) as [[r pos]|]; [|discriminate]. intros X; apply some_fst in X; subst st'.
    eapply fresh_trans; [apply (mark_in_fresh st (AClient i))|].
    eapply (fresh_trans _ (with_plan (mark_in d st (AClient i)) (rem (l_plan (mark_in d st (AClient i))) r pos))); [|apply ls_update_fresh; exact N].
    constructor; auto; [apply more_refl|cbn; lia].
  - destruct (_ && _); [|intros X; apply some_fst in X; subst st'; apply fresh_refl].
    destruct (insert_required d ev st (APickup i)) as [st1|] eqn:E; [|discriminate]. cbn [option_map]. intros X; apply some_fst in X; subst st'.
    eapply fresh_trans; [exact (insert_fresh _ _ _ N E)|]. eapply fresh_trans; apply mark_in_fresh.
  - intros X; apply some_fst in X; subst st'. apply fresh_refl.
Qed.
Lemma ensure_all_fresh us : forall st counts st' counts', (0 <= l_num st)%Z -> ensure_all d ev (st, counts) us = Some (st', counts') -> fresh st st'.
Proof.
  induction us as [|u us IH]; intros st counts st' counts' N H; cbn [ensure_all] in H; [injection H as <- _; apply fresh_refl|].
  destruct (ensure_act d ev (st, counts) u) as [[st1 counts1]|] eqn:E; [|discriminate]. pose proof (ensure_act_fresh _ _ _ _ _ N E) as F.
  eapply fresh_trans; [exact F|]. eapply IH; [|exact H]. pose proof (fr_num _ _ F). lia.
Qed.
Lemma ensure_fresh st st' : (0 <= l_num st)%Z -> ensure d ev st = Some st' -> fresh st st'.
Proof.
  intros N. unfold ensure. destruct (ensure_all _ _ _ _) as [[st1 counts]|] eqn:E; [|discriminate]. cbn [option_map fst]. intros X; apply some_inj in X; subst st'. exact (ensure_all_fresh _ _ _ _ _ N E).
Qed.
End Grow.

(** ** Unused routes *)
Lemma first_empty_at s : forall count from r, from <= r < from + count -> isEmpty s r = true -> (forall x, from <= x < r -> isEmpty s x = false) ->
  first_empty s from count = Some r.
Proof.
  induction count as [|c IH]; intros from r B E H; [lia|]. cbn [first_empty]. destruct (Nat.eq_dec from r) as [->|N]; [rewrite E; reflexivity|].
  rewrite H by lia. apply IH; [lia|exact E|]. intros x Hx. apply H. lia.
Qed.
Lemma slot_of d r : r < length (fleet d) -> exists t k, t < p_numVehicleTypes d /\ k < avail d t /\ r = offset (avail d) t + k.
Proof.
  rewrite fleet_len. generalize (p_numVehicleTypes d). intros n. revert r. induction n as [|n IH]; intros r H; cbn [offset] in H; [lia|].
  destruct (Nat.lt_ge_cases r (offset (avail d) n)) as [L|L].
  - destruct (IH r L) as (t & k & H1 & H2 & H3). exists t, k. repeat split; auto.
  - exists n, (r - offset (avail d) n). repeat split; lia.
Qed.
Lemma veh_order_at vs : forall t0 off k, k < length vs -> In (t0 + k, off + fold_right Nat.add 0 (map v_numAvailable (firstn k vs))) (veh_order vs t0 off).
Proof.
  induction vs as [|v vs IH]; intros t0 off k H; cbn [length] in H; [lia|]. cbn [veh_order]. destruct k as [|k].
  - left. cbn. f_equal; lia.
  - right. specialize (IH (Datatypes.S t0) (off + v_numAvailable v) k ltac:(lia)). cbn [firstn map fold_right].
    replace (t0 + Datatypes.S k) with (Datatypes.S t0 + k) by lia. rewrite Nat.add_assoc. exact IH.
Qed.
Lemma free_first d p r : length p = length (fleet d) -> free_route d p r ->
  exists t off, In (t, off) (veh_order (p_vehicles d) 0 0) /\ first_empty (sync d p) off (avail d t) = Some r.
Proof.
  intros L (Hr & E & F). destruct (slot_of d r) as (t & k & Ht & Hk & ->); [lia|]. exists t, (offset (avail d) t). split.
  - rewrite offset_sum by lia. apply (veh_order_at (p_vehicles d) 0 0 t). exact Ht.
  - apply first_empty_at; [lia|rewrite isEmpty_at, E by exact Hr; reflexivity|]. intros x Hx.
    rewrite isEmpty_at by lia. rewrite (F x) by (try lia; rewrite (fleet_nth d t k Ht Hk); replace x with (offset (avail d) t + (x - offset (avail d) t)) by lia; apply fleet_nth; lia).
    reflexivity.
Qed.

(** ** Plans and solutions *)
Section Best.
Variable d : pdata.
Variable h : Z.
Variable ev : evaluator.
Hypothesis St : setting d h ev.
Hypothesis ND : groups_nodup d.
Hypothesis Reloads : forall v, In v (p_vehicles d) -> (0 <= v_maxReloads v)%Z.

Lemma busy_visit l : ships_ok l -> busy l = has_visit l.
Proof.
  intros S. destruct (busy l) eqn:B.
  - apply existsb_exists in B as (a & Ha & Da). symmetry. apply (has_visit_in l a Ha); [|exact S]. destruct (a_isDepot a); [discriminate|reflexivity].
  - symmetry. destruct (has_visit l) eqn:V; [|reflexivity]. apply existsb_exists in V as (a & Ha & Va).
    assert (X : busy l = true) by (apply existsb_exists; exists a; split; [exact Ha|destruct a; [discriminate| | |]; reflexivity]). congruence.
Qed.
Lemma quiet_cost v l : busy l = false -> rcost d ev v l = 0%Z.
Proof.
  intros B. apply rcost_empty. destruct (has_visit l) eqn:V; [|reflexivity]. apply existsb_exists in V as (a & Ha & Va).
  assert (X : busy l = true) by (apply existsb_exists; exists a; split; [exact Ha|destruct a; [discriminate| | |]; reflexivity]). congruence.
Qed.
Lemma quiet_cnt l a : busy l = false -> a_isDepot a = false -> cnt l a = 0.
Proof.
  intros B Da. destruct (Nat.eq_dec (cnt l a) 0) as [|N]; [assumption|]. assert (Ha : In a l) by (apply cnt_In; lia).
  assert (X : busy l = true) by (apply existsb_exists; exists a; split; [exact Ha|rewrite Da; reflexivity]). congruence.
Qed.
Lemma quiet_visits l : busy l = false -> visits l = [].
Proof.
  intros B. destruct (visits l) as [|a m] eqn:E; [reflexivity|]. assert (Ha : In a (visits l)) by (rewrite E; left; reflexivity).
  apply in_visits in Ha as [Ha Da]. assert (X : busy l = true) by (apply existsb_exists; exists a; split; [exact Ha|rewrite Da; reflexivity]). congruence.
Qed.

Lemma trips_pos v : In v (p_vehicles d) -> (1 <= v_maxTrips v)%Z.
Proof. intros H. apply trips_one, Reloads, H. Qed.

Lemma pairs_cost l : forall routes, Forall (built d) routes -> map (fun r => (r_vehicleType r, r_acts r)) routes = filter (fun x => busy (snd x)) l ->
  zsum (map (route_penalised ev) routes) = zsum (map (fun x => rcost d ev (p_vehicle d (fst x)) (snd x)) l) /\
  visits (SolutionFacts.plan routes) = visits (concat (map snd l)).
Proof.
  induction l as [|[vt mid] l IH]; intros routes B E; cbn [filter snd] in E.
  - destruct routes; [split; reflexivity|discriminate].
  - cbn [map concat fst snd zsum]. rewrite visits_app. destruct (busy mid) eqn:Bm.
    + destruct routes as [|r routes]; [discriminate|]. cbn [map] in E. injection E as E1 E2 E3. inversion B as [|? ? Br Bs]; subst.
      destruct (IH routes Bs E3) as [C V]. destruct (built_mid d r Br) as (mid & Em & Hvt & W & Ea & Es). rewrite <- Ea in Em. rewrite !Ea in *. split.
      * cbn [map zsum]. rewrite C. f_equal.
        destruct (search_core_agree d h (st_valid d h ev St) (st_opens d h ev St) (st_durs d h ev St) (two_h d h ev St trips_pos) mid (r_vehicleType r) r (veh_in d _ Hvt) Em) as (_ & _ & _ & _ & _ & _ & _ & _ & _ & X).
        rewrite X. reflexivity.
      * change (SolutionFacts.plan (r :: routes)) with (sched_acts r ++ SolutionFacts.plan routes). rewrite visits_app, V. f_equal. rewrite Es, visits_app. cbn. rewrite app_nil_r. reflexivity.
    + destruct (IH routes B E) as [C V]. rewrite C, V, (quiet_cost _ mid Bm), (quiet_visits mid Bm). split; [lia|reflexivity].
Qed.
Theorem represents_cost p routes sol : Forall (built d) routes -> make_solution d routes = Ok sol -> represents d p routes ->
  solution_penalised ev sol = plan_cost d ev p.
Proof.
  intros B Es [L E]. destruct (pairs_cost _ routes B E) as [C V]. rewrite combine_snd in V by (symmetry; exact L).
  assert (T : forall a, a_isDepot a = false -> In a (SolutionFacts.plan routes) <-> 1 <= tot p a).
  { intros a Ha. unfold tot. rewrite <- cnt_In. assert (X : In a (visits (SolutionFacts.plan routes)) <-> In a (visits (concat p))) by (rewrite V; reflexivity).
    rewrite !in_visits in X. tauto. }
  unfold solution_penalised. rewrite (uncollected_sol d h ev St ND p routes sol B Es T), plan_cost_eq. f_equal.
  rewrite (own_routes d h ev St ND routes sol B Es), C.
  rewrite (combine_seq (fun vt m => rcost d ev (p_vehicle d vt) m) 0 []) by (symmetry; exact L). unfold routes_cost. f_equal. apply map_ext_in.
  intros r Hr. apply in_seq in Hr. rewrite (rveh_type d) by lia. reflexivity.
Qed.
Lemma plan_represented p routes : plan_ok d p -> plan_routes d (combine (fleet d) p) = Ok routes -> represents d p routes.
Proof.
  intros P E. assert (L : length p = length (fleet d)) by (rewrite (pk_len d p P); unfold fleet_vehicles; apply map_length). split; [exact L|].
  assert (X : forall l rs, (forall x, In x l -> ships_ok (snd x)) -> plan_routes d l = Ok rs -> map (fun r => (r_vehicleType r, r_acts r)) rs = filter (fun x => busy (snd x)) l).
  { induction l as [|[vt mid] l IH]; intros rs S H; cbn [plan_routes filter snd] in *; [injection H as <-; reflexivity|].
    rewrite (busy_visit mid) by exact (S (vt, mid) (or_introl eq_refl)). destruct (has_visit mid); [|apply IH; [intros x Hx; apply S; right; exact Hx|exact H]].
    destruct (make_route d mid vt) as [r|] eqn:Er; [|discriminate]. destruct (plan_routes d l) as [rs'|]; [|discriminate]. injection H as <-.
    cbn [map]. rewrite (IH rs') by (try reflexivity; intros x Hx; apply S; right; exact Hx). f_equal. unfold r_acts. rewrite (route_fields d mid vt r Er). cbn [r_schedule r_vehicleType].
    rewrite schedule_acts. cbn [List.tl app]. rewrite removelast_last. reflexivity. }
  apply X; [|exact E]. intros [vt mid] Hx. destruct (combine_in _ _ _ _ 0 [] Hx) as (i & H1 & H2 & _ & ->). apply (plan_ships d p i P).
Qed.

(** ** Settled means no better move *)
Theorem settled_best uops bops sp p p' : Forall op_ok bops -> plan_ok d p -> structured d p -> space_inv d sp ->
  (forall u, In u (activity_order d) -> settled d ev uops bops sp p u) ->
  one_move d uops bops (ss_neighbours sp) p p' -> (plan_cost d ev p <= plan_cost d ev p')%Z.
Proof.
  intros Ops P Sr Si All M. pose proof (sr_once d p Sr) as G.
  assert (L : length p = length (fleet d)) by (rewrite (pk_len d p P); unfold fleet_vehicles; apply map_length).
  assert (Free : forall u r, In u (activity_order d) -> free_route d p r -> refuses d ev bops p u (VStart r)).
  { intros u r Hu F. destruct (free_first d p r L F) as (t & off & Ht & Fe). destruct (All u Hu) as (_ & _ & H). apply (H t off r); [|exact Fe].
    eapply Permutation_in; [apply (si_veh _ _ Si)|exact Ht]. }
  destruct M as [o u p' Ho Hu M|o u v p' Ho Hu Tu T M|o u r p' Ho Hu Tu F M].
  - destruct (order_in d u Hu) as [[Du Ku] _]. apply (unary_complete d h ev St o p u p' P G Ku Du M). exact (proj1 (All u Hu) o Ho).
  - assert (Fu : exists ru pu, find_act u p = Some (ru, pu)).
    { destruct (find_act u p) as [[ru pu]|] eqn:E; [exists ru, pu; reflexivity|]. apply tot_find in E. lia. }
    destruct Fu as (ru & pu & Fu). destruct (order_in d u Hu) as [[Du Ku] _]. destruct (si_nb _ _ Si u Hu) as (vs & Nb & _ & Kvs).
    assert (R : vref_ok p v /\ refuses d ev bops p u v).
    { destruct T as [w vs' E Hw|w vs' r D E Hw Hr Hm|r F].
      - assert (vs' = vs) by (unfold neighbours_of in Nb; rewrite E in Nb; congruence). subst vs'. pose proof (proj1 (Kvs w Hw)) as Dw. split; [exact Dw|].
        destruct (move_place d o p u (VAct w) p' P Dw M) as (rv & pv & Fw). cbn [locate] in Fw.
        exact (proj1 (proj1 (proj2 (All u Hu)) vs w ru pu rv pv Nb Hw Fu Fw)).
      - assert (vs' = vs) by (unfold neighbours_of in Nb; rewrite E in Nb; congruence). subst vs'. pose proof (proj1 (Kvs w Hw)) as Dw. split; [exact Hr|].
        assert (Fw : find_act w p = Some (r, 1)) by (apply (find_act_at w p r [] D); auto; apply (pk_once d p P w Dw)).
        exact (proj2 (proj1 (proj2 (All u Hu)) vs w ru pu r 1 Nb Hw Fu Fw) eq_refl).
      - split; [exact (proj1 F)|apply Free; assumption]. }
    exact (binary_complete d h ev St o p u v p' P G (proj1 R) M (proj2 R o Ho)).
  - exact (binary_complete d h ev St o p u (VStart r) p' P G (proj1 F) M (Free u r Hu F o Ho)).
Qed.

(** ** A call *)
Lemma all_promising sp u : space_ok d sp -> In u (activity_order d) -> is_promising (mark_all sp) u = true.
Proof.
  intros So Hu. assert (K : visit_known d u) by exact (proj1 (order_in d u Hu)).
  apply (proj2 (step_ok d sp OpMarkAll So I) u K). left. exact I.
Qed.
Theorem call_best uops bops n num sp routes sol sol' sp' : Forall op_ok bops -> Forall (built d) routes -> make_solution d routes = Ok sol ->
  space_inv d sp -> space_ok d sp -> ls_call d ev uops bops n num true sp sol = Returns sol' sp' ->
  exists p, represents d p (so_routes sol') /\ plan_ok d p /\ solution_penalised ev sol' = plan_cost d ev p /\
    forall p', one_move d uops bops (ss_neighbours sp) p p' -> (plan_cost d ev p <= plan_cost d ev p')%Z.
Proof.
  intros Ops B Es Si So. unfold ls_call, ls_prepare. set (st0 := ls_start d bops sp sol). set (st1 := with_space st0 (mark_all (l_space st0))).
  assert (I0 : pre_inv d ev bops st0) by exact (start_inv d h ev St ND trips_pos bops sp routes sol B Es Si).
  assert (I1 : pre_inv d ev bops st1) by (apply pre_space; [exact I0|apply mark_all_same]).
  destruct (ensure_spec d h ev St bops (nodup_groups_of d ND) st1 I1) as (st2 & E2 & I2 & S2 & _). rewrite E2.
  assert (F2 : fresh st1 st2) by (apply (ensure_fresh d ev); [cbn; lia|exact E2]).
  destruct (search d ev uops bops n st2) as [st3| |] eqn:E3; try discriminate.
  assert (Len : length (fleet d) = length (l_plan st2)) by (rewrite (pk_len d _ (li_ok _ _ _ _ I2)); unfold fleet_vehicles; symmetry; apply map_length).
  assert (U1 : forall r, (0 <= nth r (l_upd st1) 0 <= l_num st1)%Z).
  { intros r. cbn [l_upd l_num st1 st0 ls_start with_space]. destruct (Nat.lt_ge_cases r (length (fleet d))) as [X|X]; [rewrite nth_repeat; lia|rewrite nth_overflow by (rewrite repeat_length; exact X); lia]. }
  pose proof (fr_upd _ _ F2 U1) as U2. pose proof (fr_num _ _ F2) as N2. cbn [l_num st1 st0 ls_start with_space] in N2.
  assert (T2 : l_test st2 = repeat (-1)%Z (p_numClients d + p_numShipments d)) by (rewrite (fr_test _ _ F2); reflexivity).
  assert (Sd : stamped d ev bops st2).
  { constructor; [exact I2| |exact N2|intros r; exact (proj2 (U2 r))| |].
    - rewrite (fr_len _ _ F2). cbn [l_upd st1 st0 ls_start with_space]. rewrite repeat_length. exact Len.
    - rewrite T2. apply repeat_length.
    - rewrite T2. intros i. destruct (Nat.lt_ge_cases i (p_numClients d + p_numShipments d)) as [X|X]; [rewrite (nth_indep _ 0%Z (-1)%Z) by (rewrite repeat_length; exact X); rewrite nth_repeat; lia|rewrite nth_overflow by (rewrite repeat_length; exact X); lia]. }
  assert (At : all_tested d ev bops st2).
  { apply (fresh_tested d ev bops); [intros r; exact (proj1 (U2 r))|]. intros i Hi. rewrite T2, (nth_indep _ 0%Z (-1)%Z) by (rewrite repeat_length; exact Hi). rewrite nth_repeat. lia. }
  destruct (search_settled d h ev St uops bops Ops n st2 st3 Sd At E3) as (I3 & S3 & A3).
  pose proof (search_more' d ev uops bops n st2 st3 E3) as M3.
  assert (Pr : forall u, In u (activity_order d) -> is_promising (l_space st3) u = true).
  { intros u Hu. apply (more_promising (l_space st1)); [eapply more_trans; [exact (fr_more _ _ F2)|exact M3]|]. apply all_promising; [exact So|exact Hu]. }
  assert (SS : same_space sp (l_space st3)) by (eapply same_space_trans; [apply mark_all_same|]; eapply same_space_trans; [exact S2|exact S3]).
  destruct (plan_solution d h ev St ND trips_pos (l_plan st3) (li_ok _ _ _ _ I3) (sr_once d _ (li_str _ _ _ _ I3))) as (rs & sol3 & R1 & R2 & R3 & R4 & _ & _ & R5).
  rewrite (li_sync _ _ _ _ I3), R2. intros X. injection X as <- <-.
  exists (l_plan st3). rewrite (own_routes d h ev St ND rs sol3 R4 R3). split; [exact (plan_represented _ _ (li_ok _ _ _ _ I3) R1)|]. split; [exact (li_ok _ _ _ _ I3)|]. split; [exact R5|].
  intros p' M. apply (settled_best uops bops (l_space st3)); auto.
  - exact (li_ok _ _ _ _ I3).
  - exact (li_str _ _ _ _ I3).
  - exact (same_space_inv d _ _ SS Si).
  - destruct SS as (-> & _). exact M.
Qed.

Theorem exhaustive_best se routes sol n sol' se' : usable d se -> Forall (built d) routes -> make_solution d routes = Ok sol ->
  py_call d n se sol ev true = Some (sol', se') ->
  exists p, represents d p (so_routes sol') /\
    forall p' routes2 sol2, one_move d (se_unary se) (se_binary se) (ss_neighbours (se_space se)) p p' -> represents d p' routes2 ->
      Forall (built d) routes2 -> make_solution d routes2 = Ok sol2 -> (solution_penalised ev sol' <= solution_penalised ev sol2)%Z.
Proof.
  intros U B Es. pose proof (shuffle_usable d se U) as [A1 A2 A3 _ _]. unfold py_call.
  assert (Sh : ss_neighbours (se_space (se_shuffle se)) = ss_neighbours (se_space se) /\ Permutation (se_unary se) (se_unary (se_shuffle se)) /\ Permutation (se_binary se) (se_binary (se_shuffle se))).
  { unfold se_shuffle. destruct (pm_shuffle (se_params se) (se_rng se)) as [r num].
    destruct (shuffle_spec d r (se_space se) (us_ok d se U)) as (_ & S2 & _). destruct (space_shuffle r (se_space se)) as [r1 sp]. cbn [snd] in *.
    pose proof (rng_shuffle_perm r1 (se_unary se)) as Pa. destruct (rng_shuffle r1 (se_unary se)) as [r2 us]. pose proof (rng_shuffle_perm r2 (se_binary se)) as Pb. destruct (rng_shuffle r2 (se_binary se)) as [r3 bs].
    cbn [snd se_space se_unary se_binary] in *. auto. }
  destruct Sh as (S1 & S2 & S3). set (s1 := se_shuffle se) in *. cbv zeta.
  destruct (ls_call d ev (se_unary s1) (se_binary s1) n (se_num s1) true (se_space s1) sol) as [sol1 sp1| | |] eqn:E; try discriminate. intros X. injection X as <- _.
  destruct (call_best _ _ _ _ _ _ _ _ _ A3 B Es A1 A2 E) as (p & R & P & C & H). exists p. split; [exact R|].
  intros p' routes2 sol2 M R2 B2 E2. rewrite C, (represents_cost p' routes2 sol2 B2 E2 R2). apply H. rewrite S1.
  destruct M as [o u p' Ho Hu M|o u v p' Ho Hu Tu T M|o u r p' Ho Hu Tu F M].
  - apply (Move1 d _ _ _ p o u p'); auto. exact (Permutation_in _ S2 Ho).
  - apply (Move2 d _ _ _ p o u v p'); auto. exact (Permutation_in _ S3 Ho).
  - apply (Move3 d _ _ _ p o u r p'); auto. exact (Permutation_in _ S3 Ho).
Qed.
End Best.
