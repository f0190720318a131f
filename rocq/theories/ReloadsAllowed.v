(** The reload depots in the routes that the local search and solve() return. *)
From Coq Require Import Permutation.
From Verif Require Import Base DurationSegment Data LoadSegment SearchRoute Valid Route RouteSpec Cost CostFacts DeltaFacts DataCtor Solution SolutionFacts
  SolutionFacts2 SolutionFacts3 RouteFacts4 Bitset Rng MakeRandom SearchSpace Neighbourhood SearchNodes SearchSeq SearchLoad Ops PlanFacts ShipState OpsBase OpsGen OpsMove OpsRelocate
  OpsSwap OpsOne OpsEdit OpsEdit2 OpsAll LocalSearch LocalFacts LocalTerm LocalInsert LocalEnsure Perturb LocalRun SupportsRun.
Local Open Scope nat_scope.

(** Every reload depot of a route is one of those of its vehicle type. *)
Definition route_reloads (d : pdata) (r : route) : Prop := forall k, In (ADepot k) (r_acts r) -> In k (v_reload (p_vehicle d (r_vehicleType r))).
Definition sol_reloads (d : pdata) (s : solution) : Prop := forall r, In r (so_routes s) -> route_reloads d r.
Definition allowed (d : pdata) (p : plan) : Prop := forall r k, In (ADepot k) (mid_at p r) -> In k (v_reload (rveh d r)).

Lemma no_reload_in l k : num_reloads l = 0 -> ~ In (ADepot k) l.
Proof. induction l as [|a l IH]; intros H; [intros []|]. rewrite num_reloads_cons in H. intros [->|X]; [cbn [a_isDepot] in H; lia|]. apply IH; [lia|exact X]. Qed.

Section Plans.
Variable d : pdata.
Notation ok := (allowed d).
Lemma allowed_upd p r m : ok p -> (forall k, In (ADepot k) m -> In (ADepot k) (mid_at p r) \/ In k (v_reload (rveh d r))) -> ok (upd p r m).
Proof.
  intros H Hm r' k. destruct (Nat.lt_ge_cases r (length p)) as [L|L].
  - rewrite mid_at_upd by exact L. destruct (Nat.eqb_spec r r') as [<-|N]; [|apply H]. intros X. destruct (Hm k X) as [Y|Y]; [exact (H r k Y)|exact Y].
  - destruct (Nat.eq_dec r r') as [<-|N]; [|rewrite mid_at_other by exact N; apply H].
    unfold mid_at. rewrite nth_overflow; [intros []|rewrite upd_length; exact L].
Qed.
Lemma allowed_tidy p r : ok p -> ok (tidy p r).
Proof. intros H. unfold tidy. destruct (has_visit _); [exact H|]. apply allowed_upd; [exact H|intros k []]. Qed.
Lemma allowed_tidies l : forall p, ok p -> ok (fold_left tidy l p).
Proof. induction l as [|r l IH]; intros p H; [exact H|]. cbn [fold_left]. apply IH, allowed_tidy, H. Qed.

Ltac seg := match goal with E : mid_at _ ?r = _ |- context [mid_at _ ?r] => rewrite E end.
Ltac mem := let k := fresh "k" in let X := fresh "X" in intros k X; try seg; cbn [app] in *; rewrite ?in_app_iff in *; cbn [In] in *; rewrite ?in_app_iff in *; cbn [In] in *; rewrite ?in_app_iff in *;
  repeat match goal with H : num_reloads ?l = 0 |- _ => pose proof (no_reload_in l k H); clear H end; cbn [In] in *; intuition (subst; try discriminate; auto).
Lemma allowed_removed p u p' : removed p u p' -> ok p -> ok p'.
Proof. intros [r A B Hr Hm] H. apply allowed_upd; [exact H|]. mem. Qed.
Lemma allowed_inserted p u v p' : inserted p u v p' -> a_isDepot u = false -> ok p -> ok p'.
Proof. intros [r A B Hr Hm _] Hu H. apply allowed_upd; [exact H|]. mem. Qed.
Lemma allowed_replaced p u u' p' : replaced p u u' p' -> a_isDepot u' = false -> ok p -> ok p'.
Proof. intros [r A B Hr Hm] Hu H. apply allowed_upd; [exact H|]. mem. Qed.
Lemma allowed_ship_removed p i p' : ship_removed p i p' -> ok p -> ok p'.
Proof. intros [r A M B Hr Hm] H. apply allowed_upd; [exact H|]. mem. Qed.
Lemma allowed_ship_inserted p i v p' : ship_inserted p i v p' -> ok p -> ok p'.
Proof. intros [r A M B Hr Hm _ _] H. apply allowed_upd; [exact H|]. mem. Qed.
Lemma allowed_ship_replaced p j i p' : ship_replaced p j i p' -> ok p -> ok p'.
Proof. intros [r A M B Hr Hm] H. apply allowed_upd; [exact H|]. mem. Qed.
Lemma allowed_with_depot p u v p' : with_depot d p u v p' -> a_isDepot u = false -> ok p -> ok p'.
Proof. intros [r C D x Hr Hm _ Hx|r C D x Hr Hm _ Hx] Hu H; (apply allowed_upd; [exact H|]); mem; match goal with E : ADepot _ = ADepot _ |- _ => injection E as -> end; auto. Qed.

Lemma in_eq_app (A B A' B' : list activity) x : A' ++ B' = A ++ B -> In x A' \/ In x B' -> In x A \/ In x B.
Proof. intros E H. apply in_app_iff. rewrite <- E. apply in_app_iff, H. Qed.
Theorem unary_allowed o p u p' : unary_effect d o p u p' -> a_isDepot u = false -> ok p -> ok p'.
Proof.
  intros E Hu H. destruct o; cbn [unary_effect] in E.
  - destruct E as (i & -> & [r A M B M' B' Hr Hm Hs _]). apply allowed_upd; [exact H|]. intros k X. pose proof (in_eq_app _ _ _ _ (ADepot k) Hs) as Y. revert k X Y. mem.
  - destruct E as (i & -> & [r A M B A' M' Hr Hm Hs _]). apply allowed_upd; [exact H|]. intros k X. pose proof (in_eq_app _ _ _ _ (ADepot k) Hs) as Y. revert k X Y. mem.
  - destruct E as [r A x B Hr Hm|r A x B Hr Hm]; (apply allowed_upd; [exact H|]); mem.
  - destruct E as (i & -> & R & G & E). exact (allowed_removed _ _ _ E H).
  - destruct E as (i & -> & R & E). exact (allowed_ship_removed _ _ _ E H).
  - destruct E as (i & j & g & -> & T0 & Gi & Hj & E). exact (allowed_replaced _ _ _ _ E eq_refl H).
Qed.
Lemma two_upd p ru rv m m' : ru <> rv -> ok p -> (forall k, In (ADepot k) m -> In (ADepot k) (mid_at p ru) \/ In k (v_reload (rveh d ru))) ->
  (forall k, In (ADepot k) m' -> In (ADepot k) (mid_at p rv) \/ In k (v_reload (rveh d rv))) -> ok (upd (upd p ru m) rv m').
Proof. intros N H H1 H2. apply allowed_upd; [apply allowed_upd; assumption|]. rewrite mid_at_other by exact N. exact H2. Qed.
Theorem binary_allowed o p u v p' : binary_effect d o p u v p' -> a_isDepot u = false -> ok p -> ok p'.
Proof.
  intros E Hu H. destruct o; cbn [binary_effect] in E.
  - destruct E as [ru rv' A S B C D Hne Hru Hrv Mu Hl Mv He Rn | r A S M b D Hr Hm Hl Ev | r C M S B Hr Hm Hl He].
    + apply two_upd; [exact Hne|exact H| |]; clear Hl; mem.
    + apply allowed_upd; [exact H|]. clear Hl. mem.
    + apply allowed_upd; [exact H|]. clear Hl. mem.
  - destruct E as (va & -> & E). destruct E as [ru rv' A S B C T D Hne Hru Hrv Mu Mv H1 H2 R1 R2 | r A S M T B Hr Hm H1 H2 | r A S M T B Hr Hm H1 H2]; clear H1 H2.
    + apply two_upd; [exact Hne|exact H| |]; mem.
    + apply allowed_upd; [exact H|]. mem.
    + apply allowed_upd; [exact H|]. mem.
  - destruct E as [ru rv' A B C D Hne Hru Hrv Mu Mv He R1 R2]. apply two_upd; [exact Hne|exact H| |]; mem.
  - destruct E as (i & -> & T0 & G & E). exact (allowed_inserted _ _ _ _ E eq_refl H).
  - destruct E as (i & -> & T0 & E). exact (allowed_ship_inserted _ _ _ _ E H).
  - destruct E as (i & j & g & p1 & -> & Gi & Hj & Hne & T0 & E1 & E2). exact (allowed_inserted _ _ _ _ E2 eq_refl (allowed_removed _ _ _ E1 H)).
  - destruct E as (i & p1 & -> & E1 & E2). exact (allowed_ship_inserted _ _ _ _ E2 (allowed_ship_removed _ _ _ E1 H)).
  - destruct E as (i & p1 & -> & E1 & E2). exact (allowed_with_depot _ _ _ _ E2 eq_refl (allowed_removed _ _ _ E1 H)).
  - destruct E as (i & j & -> & -> & T0 & Rj & Gi & Gj & E). exact (allowed_replaced _ _ _ _ E eq_refl H).
  - destruct E as (i & j & -> & _ & T0 & R & E). exact (allowed_ship_replaced _ _ _ _ E H).
Qed.
End Plans.

Lemma update_plan d st rU rV : l_plan (ls_update d st rU rV) = fold_left tidy (upd_list rU rV) (l_plan st).
Proof.
  unfold ls_update. assert (X : forall st r, l_plan (update_route d st r) = tidy (l_plan st) r) by (intros; apply refresh_mids).
  destruct rU as [r|]; cbn [upd_list]; [|apply X]. destruct (r =? rV); [apply X|]. rewrite !X. reflexivity.
Qed.

(** ** Whatever holds of a plan after each move holds after the search *)
Section Search.
Variable d : pdata.
Variable h : Z.
Variable ev : evaluator.
Hypothesis St : setting d h ev.
Variable uops : list unary.
Variable bops : list binary.
Hypothesis Ops : Forall op_ok bops.
Variable Q : plan -> Prop.
Hypothesis Qtidy : forall p r, Q p -> Q (tidy p r).
Hypothesis Qunary : forall o p u p', unary_effect d o p u p' -> a_isDepot u = false -> Q p -> Q p'.
Hypothesis Qbinary : forall o p u v p', binary_effect d o p u v p' -> a_isDepot u = false -> Q p -> Q p'.

Record good (st : lstate) : Prop := mk_good { gd_inv : ls_inv d ev bops st; gd_q : Q (l_plan st) }.
Lemma q_update st rU rV : Q (l_plan st) -> Q (l_plan (ls_update d st rU rV)).
Proof. rewrite update_plan. generalize (upd_list rU rV) (l_plan st). intros l. induction l as [|r l IH]; intros p H; [exact H|]. cbn [fold_left]. apply IH, Qtidy, H. Qed.
Lemma q_unary st u : good st -> visit_known d u -> good (apply_unary_ops d ev uops st u).
Proof.
  intros [I D] K. pose proof (unary_step d h ev St uops bops st u I K) as (I' & _ & _).
  constructor; [exact I'|]. clear I'. unfold apply_unary_ops. destruct (try_unary d ev (l_sol st) uops u) as [[o m]|] eqn:T; [|exact D].
  apply try_unary_some in T as [_ [delta E]]. rewrite (li_sync _ _ _ _ I) in E. destruct K as [Hu K].
  destruct (unary_ok d h ev St o (l_plan st) u delta m (li_ok _ _ _ _ I) K Hu E) as (Ef & _ & _).
  pose proof (Qunary o _ _ _ Ef Hu D) as N.
  destruct (home (l_plan st) u) as [r|].
  - apply q_update. exact N.
  - change (l_plan (with_plan st (apply_unary o m (l_plan st) u))) with (apply_unary o m (l_plan st) u).
    destruct (home (apply_unary o m (l_plan st) u) u) as [r|]; [|exact N]. apply q_update. exact N.
Qed.
Lemma q_binary st u v : good st -> visit_known d u -> vref_ok (l_plan st) v -> v <> VAct u ->
  let '(applied, st') := apply_binary_ops d ev bops st u v in good st' /\ (applied = false -> l_plan st' = l_plan st).
Proof.
  intros [I D] K Hv Hne. pose proof (binary_step d h ev St bops Ops st u v I K Hv Hne) as B.
  pose proof (try_binary_spec d ev (l_plan st) u v (li_ok _ _ _ _ I) (proj1 K) bops (l_rcs st) Ops (li_rcs _ _ _ _ I)) as Sp.
  assert (N : Q (l_plan (snd (apply_binary_ops d ev bops st u v)))).
  { unfold apply_binary_ops. rewrite (li_sync _ _ _ _ I). destruct (try_binary d ev (sync d (l_plan st)) bops (l_rcs st) u v) as [found rcs].
    change (l_plan (with_rcs st rcs)) with (l_plan st).
    destruct found as [[o m]|]; [|exact D]. destruct (locate (l_plan st) v) as [[rV pV]|]; [|exact D]. cbn [snd]. apply q_update.
    assert (X : forall st' p, l_plan (with_plan st' p) = p) by reflexivity. rewrite X.
    assert (Y : l_plan (mark_ref d (mark_in d (with_rcs st rcs) u) v) = l_plan st) by (unfold mark_ref; destruct (locate _ _) as [[? ?]|]; reflexivity). rewrite Y.
    destruct Sp as (_ & delta & rc & rc' & Ho & Hrc & E).
    destruct (binary_ok d h ev St o (l_plan st) rc u v delta m rc' (li_ok _ _ _ _ I) Ho (proj2 K) (proj1 K) Hv Hne (sr_once d _ (li_str _ _ _ _ I)) Hrc E) as (Ef & _ & _).
    exact (Qbinary o _ u v _ Ef (proj1 K) D). }
  destruct (apply_binary_ops d ev bops st u v) as [applied st']. destruct B as ((I' & _) & _ & F). cbn [snd] in N.
  split; [constructor; assumption|]. intros X; exact (proj1 (F X)).
Qed.
Lemma q_empty u : visit_known d u -> forall types st, good st -> (forall t, In t types -> In t (veh_order (p_vehicles d) 0 0)) -> good (empty_moves d ev bops st u types).
Proof.
  intros K. induction types as [|[t o] types IH]; intros st I Ht; cbn [empty_moves]; [exact I|].
  destruct (first_empty (l_sol st) o (avail d t)) as [r|] eqn:F; [|apply IH; [exact I|intros x Hx; apply Ht; right; exact Hx]].
  pose proof (empty_slot d _ _ _ _ (Ht _ (or_introl eq_refl)) F) as Hr. rewrite <- (pk_len d _ (li_ok _ _ _ _ (gd_inv st I))) in Hr.
  pose proof (q_binary st u (VStart r) I K Hr ltac:(discriminate)) as B. destruct (apply_binary_ops d ev bops st u (VStart r)) as [ap st'].
  destruct B as (B1 & _). destruct ap; [exact B1|]. apply IH; [exact B1|]. intros x Hx; apply Ht; right; exact Hx.
Qed.
Lemma q_neighbour lt u v st st' : visit_known d u -> visit_known d v -> v <> u -> good st -> test_neighbour d ev bops lt u st v = Some st' -> good st'.
Proof.
  intros K Kv Hne I. unfold test_neighbour. rewrite (proj2 (node_known d v) Kv).
  destruct (find_act v (l_plan st)) as [[rv pv]|] eqn:F; [|intros X; rewrite <- (some_eq _ _ X); exact I].
  destruct (_ || _); [|intros X; rewrite <- (some_eq _ _ X); exact I].
  pose proof (q_binary st u (VAct v) I K (proj1 Kv) ltac:(congruence)) as B. destruct (apply_binary_ops d ev bops st u (VAct v)) as [ap st1].
  destruct B as (B1 & B2). destruct ap; cbn [negb andb]; [intros X; rewrite <- (some_eq _ _ X); exact B1|].
  destruct (pv =? 1); [|intros X; rewrite <- (some_eq _ _ X); exact B1].
  specialize (B2 eq_refl). destruct (find_act_spec _ _ _ _ F) as (A' & B' & _ & _ & Hr). rewrite <- B2 in Hr.
  pose proof (q_binary st1 u (VStart rv) B1 K Hr ltac:(discriminate)) as C. destruct (apply_binary_ops d ev bops st1 u (VStart rv)) as [ap st2].
  destruct C as (C1 & _). intros X; rewrite <- (some_eq _ _ X). exact C1.
Qed.
Lemma q_neighbours lt u vs : visit_known d u -> (forall v, In v vs -> visit_known d v) -> ~ In u vs -> forall st st', good st ->
  test_neighbours d ev bops lt u st vs = Some st' -> good st'.
Proof.
  intros K. induction vs as [|v vs IH]; intros Kv Hn st st' I; cbn [test_neighbours]; [intros X; rewrite <- (some_eq _ _ X); exact I|].
  destruct (test_neighbour d ev bops lt u st v) as [st1|] eqn:E; [|discriminate].
  apply (IH (fun x Hx => Kv x (or_intror Hx)) (fun X => Hn (or_intror X)) st1 st').
  apply (q_neighbour lt u v st st1 K); [apply Kv; left; reflexivity|intros ->; apply Hn; left; reflexivity|exact I|exact E].
Qed.
Theorem q_visit st u st' : good st -> In u (activity_order d) -> visit_act d ev uops bops st u = Some st' -> good st'.
Proof.
  intros I Hu. unfold visit_act. destruct (is_promising (l_space st) u); [|intros X; rewrite <- (some_eq _ _ X); exact I].
  pose proof (proj1 (order_in d u Hu)) as K.
  set (st0 := with_test st _). assert (I0 : good st0) by (constructor; [apply (with_test_kept d ev bops), I|exact (gd_q st I)]).
  pose proof (q_unary st0 u I0 K) as I1. cbv zeta. set (st1 := apply_unary_ops d ev uops st0 u) in *.
  destruct (si_nb d _ (li_space _ _ _ _ (gd_inv _ I1)) u Hu) as (vs & -> & Hn & Kv).
  destruct (test_neighbours d ev bops _ u st1 vs) as [st2|] eqn:E2; [|discriminate].
  pose proof (q_neighbours _ u vs K Kv Hn st1 st2 I1 E2) as I2.
  intros X; rewrite <- (some_eq _ _ X). apply (q_empty u K (ss_vehOrder (l_space st2)) st2 I2).
  intros t Ht. eapply Permutation_in; [symmetry; apply (si_veh d _ (li_space _ _ _ _ (gd_inv _ I2)))|exact Ht].
Qed.
Theorem q_visits us : (forall u, In u us -> In u (activity_order d)) -> forall st st', good st -> visit_all d ev uops bops st us = Some st' -> good st'.
Proof.
  induction us as [|u us IH]; intros Hu st st' I; cbn [visit_all]; [intros X; rewrite <- (some_eq _ _ X); exact I|].
  destruct (visit_act d ev uops bops st u) as [st1|] eqn:E; [|discriminate].
  exact (IH (fun x Hx => Hu x (or_intror Hx)) st1 st' (q_visit st u st1 I (Hu u (or_introl eq_refl)) E)).
Qed.
Lemma q_loop n : forall st st', good st -> search_loop d ev uops bops n st = Finished st' -> good st'.
Proof.
  induction n as [|n IH]; intros st st' I; cbn [search_loop]; destruct (l_done st); try discriminate;
    try (intros X; assert (Y : st = st') by congruence; rewrite <- Y; exact I).
  assert (I' : good (with_done st true)) by (constructor; [apply (with_done_inv d ev bops), I|exact (gd_q st I)]).
  destruct (visit_all d ev uops bops (with_done st true) (ss_order (l_space st))) as [st1|] eqn:E; [|discriminate].
  apply IH. apply (q_visits (ss_order (l_space st))) with (st := with_done st true); [|exact I'|exact E].
  intros u Hu. eapply Permutation_in; [symmetry; apply (si_order d _ (li_space _ _ _ _ (gd_inv _ I)))|exact Hu].
Qed.
Theorem q_search n st st' : good st -> search d ev uops bops n st = Finished st' -> good st'.
Proof.
  intros I. assert (I' : good (with_done st false)) by (constructor; [apply (with_done_inv d ev bops), I|exact (gd_q st I)]).
  assert (E0 : search d ev uops bops n st = search_loop d ev uops bops n (with_done st false) \/ search d ev uops bops n st = Finished st).
  { unfold search. destruct uops; [destruct bops; [right; auto|left; reflexivity]|left; reflexivity]. }
  destruct E0 as [E0|E0]; rewrite E0; [apply q_loop, I'|]. intros X. assert (Y : st = st') by congruence. rewrite <- Y. exact I.
Qed.
End Search.

(** ** Making the plan complete *)
Section Ensure.
Variable d : pdata.
Variable ev : evaluator.
Notation ok := (allowed d).
Lemma insert_split {A} n (x : A) l : exists l1 l2, l = l1 ++ l2 /\ insert_at n x l = l1 ++ x :: l2.
Proof. exists (firstn n l), (skipn n l). split; [symmetry; apply firstn_skipn|reflexivity]. Qed.
Lemma allowed_ins p r k a : ok p -> a_isDepot a = false -> ok (ins p r k a).
Proof.
  intros H Ha. unfold ins. apply allowed_upd; [exact H|]. destruct (insert_split (k - 1) a (mid_at p r)) as (l1 & l2 & E & ->).
  intros x. rewrite E, !in_app_iff. cbn [In]. intuition. subst a. discriminate.
Qed.
Lemma allowed_rem p r k : ok p -> ok (rem p r k).
Proof.
  intros H. unfold rem. apply allowed_upd; [exact H|]. unfold remove_at. intros x X. left. apply in_app_iff in X. destruct X as [X|X].
  - rewrite <- (firstn_skipn (k - 1) (mid_at p r)). apply in_app_iff. left. exact X.
  - rewrite <- (firstn_skipn (Datatypes.S (k - 1)) (mid_at p r)). apply in_app_iff. right. exact X.
Qed.
Lemma put_client sp s i b p : insert_client d ev sp s i b = Some (Some p) -> ok (sp_mids s) -> ok p.
Proof.
  unfold insert_client. destruct (neighbours_of sp _) as [vs|]; [|discriminate]. destruct (place_near _ _ _ _ _ _) as [best|]; [|discriminate].
  destruct (place_empty _ _ _ _ _ _) as [cost [r pos]]. destruct (_ || _); [|discriminate]. intros E H. injection E as <-. apply allowed_ins; [exact H|reflexivity].
Qed.
Lemma put_shipment sp s i b p : insert_shipment d ev sp s i b = Some (Some p) -> ok (sp_mids s) -> ok p.
Proof.
  unfold insert_shipment. destruct (neighbours_of sp _) as [vs|]; [|discriminate]. destruct (splace_near _ _ _ _ _ _) as [best|]; [|discriminate].
  cbv zeta. destruct (splace_empty _ _ _ _ _ _) as [[cost [[r pos] dpos]]|]; (destruct (_ || _) || destruct b); try discriminate;
    intros E H; injection E as <-; apply allowed_ins; try reflexivity; apply allowed_ins; try reflexivity; exact H.
Qed.
Lemma allowed_update st rU rV : ok (l_plan st) -> ok (l_plan (ls_update d st rU rV)).
Proof. rewrite update_plan. apply allowed_tidies. Qed.
Lemma allowed_required st a st' : insert_required d ev st a = Some st' -> ok (l_plan st) -> ok (l_plan st').
Proof.
  unfold insert_required.
  assert (X : forall p, (match a with AClient i => insert_client d ev (l_space st) (l_sol st) i true | _ => insert_shipment d ev (l_space st) (l_sol st) (a_idx a) true end) = Some (Some p) ->
    ok (l_plan st) -> ok p) by (intros p E; destruct a; [eapply put_shipment|eapply put_client|eapply put_shipment|eapply put_shipment]; exact E).
  destruct (match a with AClient _ => _ | _ => _ end) as [[p|]|]; try discriminate. destruct (home p a) as [r|]; [|discriminate].
  intros E H. rewrite <- (some_eq _ _ E). apply allowed_update. exact (X p eq_refl H).
Qed.
Lemma allowed_ensure_act x a x' : ensure_act d ev x a = Some x' -> ok (l_plan (fst x)) -> ok (l_plan (fst x')).
Proof.
  destruct x as [st counts]. unfold ensure_act. cbn [fst]. destruct a as [i|i|i|i]; try (intros E; injection E as <-; auto; fail).
  - destruct (negb _ && _).
    { destruct (insert_required d ev st (AClient i)) as [st'|] eqn:E; [|discriminate]. intros X. injection X as <-. exact (allowed_required _ _ _ E). }
    destruct (c_group _) as [g|]; [|intros X; injection X as <-; auto]. destruct (g_required _ && _).
    { destruct (insert_required d ev st (AClient i)) as [st'|] eqn:E; [|discriminate]. intros X. injection X as <-. exact (allowed_required _ _ _ E). }
    destruct (_ && _); [|intros X; injection X as <-; auto]. destruct (find_act _ _) as [[r pos]|]; [|discriminate].
    intros X H. rewrite <- (some_eq _ _ X). cbn [fst]. apply allowed_update. apply allowed_rem. exact H.
  - destruct (negb _ && _); [|intros X; injection X as <-; auto].
    destruct (insert_required d ev st (APickup i)) as [st'|] eqn:E; [|discriminate]. intros X. injection X as <-. exact (allowed_required _ _ _ E).
Qed.
Lemma allowed_ensure st st' : ensure d ev st = Some st' -> ok (l_plan st) -> ok (l_plan st').
Proof.
  unfold ensure. generalize (ss_order (l_space st)) (group_counts d (l_plan st)). intros acts counts.
  assert (X : forall x x', ensure_all d ev x acts = Some x' -> ok (l_plan (fst x)) -> ok (l_plan (fst x'))).
  { induction acts as [|a acts IH]; intros x x' E H; cbn [ensure_all] in E; [injection E as <-; exact H|].
    destruct (ensure_act d ev x a) as [x1|] eqn:E1; [|discriminate]. exact (IH _ _ E (allowed_ensure_act _ _ _ E1 H)). }
  destruct (ensure_all d ev (st, counts) acts) as [x|] eqn:E; [|discriminate]. intros Y H. injection Y as <-. exact (X _ _ E H).
Qed.
Lemma others_depot X l k : (forall a, In a X -> In a (activity_order d)) -> In (ADepot k) (others X l) <-> In (ADepot k) l.
Proof.
  intros H. unfold others. rewrite filter_In. split; [intros []; assumption|]. intros Hk. split; [exact Hk|].
  destruct (of_items X (ADepot k)) eqn:E; [|reflexivity]. apply of_items_in in E. apply H in E. destruct (order_in d _ E) as [_ T]. cbn in T. destruct T; discriminate.
Qed.
Lemma allowed_perturbed p sp X x : perturbed d p sp X x -> ok p -> ok (sp_mids (fst x)).
Proof.
  intros Px H r k. rewrite <- (others_depot X) by exact (pt_items _ _ _ _ _ Px). rewrite (pt_rest _ _ _ _ _ Px r), (others_depot X) by exact (pt_items _ _ _ _ _ Px). apply H.
Qed.
End Ensure.
