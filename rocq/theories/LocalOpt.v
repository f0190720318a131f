(** When the local search stops, no operator has a move to apply: what the time stamps
    (lastTest_, lastUpdate_) that skip earlier tests guarantee. *)
From Coq Require Import Permutation.
From Verif Require Import Base DurationSegment Data LoadSegment SearchRoute RouteDur Valid ProposalDur ProposalRest Route RouteSpec
  RouteFacts2 RouteFacts3 Cost CostFacts DeltaFacts SearchFacts DataCtor Bitset SearchSpace SearchNodes SearchSeq SearchLoad Ops PlanFacts ShipState OpsBase OpsGen OpsMove OpsRelocate OpsSwap OpsOne OpsEdit OpsEdit2 OpsAll LocalSearch LocalFacts.
Local Open Scope nat_scope.

(** The answer of evaluate(): apply the move or not. *)
Definition yes (r : result) : bool := snd (fst r).

(** ** Evaluations look at the routes of their arguments only *)
Section Local.
Variable d : pdata.
Variable ev : evaluator.

Lemma remove_cost_fresh f p rc u r pos : rc_valid f p rc -> find_act u p = Some (r, pos) -> fst (remove_cost rc u (f r pos)) = f r pos.
Proof. intros H F. destruct (remove_cost rc u (f r pos)) as [c rc'] eqn:E. apply (remove_cost_valid _ _ _ _ _ _ _ _ H F E). Qed.

(** Remembered remove costs do not change the answer. *)
Lemma eval_fresh o p rc u v : rc_ok d ev o p rc ->
  fst (eval_binary d ev o (sync d p) rc u v) = fst (eval_binary d ev o (sync d p) rc_none u v).
Proof.
  intros [_ H]. destruct o as [n|n m| | | | | | | |]; cbn [eval_binary fst]; try reflexivity.
  - unfold eval_relocate. cbn [sp_mids sync]. destruct (find_act u p) as [[ru pu]|] eqn:Fu; [|reflexivity].
    destruct (locate p v) as [[rv pv]|]; [|reflexivity]. destruct (hasDepot _ _ _ _ || _); [reflexivity|]. destruct (_ && _); [reflexivity|].
    destruct (negb _); [|destruct (_ <? _); reflexivity]. fold (reloc_fresh d ev n p ru pu).
    pose proof (remove_cost_fresh _ _ _ _ _ _ H Fu) as E. destruct (remove_cost rc u (reloc_fresh d ev n p ru pu)) as [c rc']. cbn [fst] in E. subst c. reflexivity.
  - unfold eval_alternative. cbn [sp_mids sync]. destruct u as [i|i|i|i]; try reflexivity. destruct (find_act (AClient i) p) as [[ru pu]|] eqn:Fu; [|reflexivity].
    destruct (locate p v) as [[rv pv]|]; [|reflexivity]. destruct (_ && _); [reflexivity|]. destruct (c_group _); [|reflexivity]. destruct (ru =? rv); [destruct (negb _); reflexivity|].
    cbv zeta.
    assert (F : alt_fresh d ev p ru pu = (if (nClients (sync d p) ru =? 1) && (nShipments (sync d p) ru =? 0) then (c_prize (p_client d i) - pcost ev (sync d p) ru)%Z
      else dcost d ev true (c_prize (p_client d i)) (bef (sync d p) ru (pu - 1)) [aft (sync d p) ru (pu + 1)])).
    { unfold alt_fresh. destruct (find_act_spec _ _ _ _ Fu) as (A & B & Mu & Hpu & Hru). rewrite Mu, (kind_at_app A (AClient i) B pu Hpu). reflexivity. }
    rewrite <- F. pose proof (remove_cost_fresh _ _ _ _ _ _ H Fu) as E.
    destruct (remove_cost rc (AClient i) (alt_fresh d ev p ru pu)) as [c rc']. cbn [fst] in E. subst c. reflexivity.
  - unfold eval_shipment. cbn [sp_mids sync]. destruct u as [i|i|i|i]; try reflexivity. destruct (find_act (APickup i) p) as [[ru pp]|] eqn:Fu; [|reflexivity].
    destruct (find_act (ADelivery i) p) as [[rd pd]|] eqn:Fd; [|reflexivity]. destruct (locate p v) as [[rv pv]|]; [|reflexivity]. destruct (ru =? rv); [reflexivity|].
    match goal with |- context [remove_cost rc _ ?x] => assert (F : ship_fresh d ev p ru pp = x) end.
    { unfold ship_fresh. destruct (find_act_spec _ _ _ _ Fu) as (A & B & Mu & Hpu & Hru). rewrite Mu, (kind_at_app A (APickup i) B pp Hpu), Fd. reflexivity. }
    rewrite <- F. pose proof (remove_cost_fresh _ _ _ _ _ _ H Fu) as E.
    destruct (remove_cost rc (APickup i) (ship_fresh d ev p ru pp)) as [c rc']. cbn [fst] in E. subst c. unfold remove_cost, rc_none. cbv zeta. destruct (_ <? 0)%Z; reflexivity.
  - unfold eval_with_depot. cbn [sp_mids sync]. destruct u as [i|i|i|i]; try reflexivity. destruct (find_act (AClient i) p) as [[ru pu]|] eqn:Fu; [|reflexivity].
    destruct (locate p v) as [[rv pv]|]; [|reflexivity]. cbv zeta.
    destruct (_ || _); [reflexivity|]. destruct (_ =? _)%Z; [reflexivity|]. destruct (_ && _); [reflexivity|]. destruct (negb _); [reflexivity|]. destruct (ru =? rv); [reflexivity|].
    fold (dep_fresh d ev p ru pu). pose proof (remove_cost_fresh _ _ _ _ _ _ H Fu) as E.
    destruct (remove_cost rc (AClient i) (dep_fresh d ev p ru pu)) as [c rc']. cbn [fst] in E. subst c. reflexivity.
Qed.

(** Two plans with the same routes of [u] and [v]: an evaluation gives the same result. *)
Lemma find_same p q a r pos : plan_ok d q -> length q = length p -> a_isDepot a = false -> mid_at q r = mid_at p r ->
  find_act a p = Some (r, pos) -> find_act a q = Some (r, pos).
Proof. intros Q L Ha M F. apply (find_other q p a r pos); auto. apply (pk_once d q Q a Ha). Qed.
Lemma eval_local o p q u v ru pu rv pv : plan_ok d p -> plan_ok d q -> a_isDepot u = false -> vref_ok p v ->
  find_act u p = Some (ru, pu) -> locate p v = Some (rv, pv) -> mid_at q ru = mid_at p ru -> mid_at q rv = mid_at p rv ->
  fst (eval_binary d ev o (sync d q) rc_none u v) = fst (eval_binary d ev o (sync d p) rc_none u v).
Proof.
  intros P Q Hu Hv Fu Fv Mu Mv.
  assert (L : length q = length p) by (rewrite (pk_len d p P), (pk_len d q Q); reflexivity).
  pose proof (find_same p q u ru pu Q L Hu Mu Fu) as Fu'.
  assert (Fv' : locate q v = Some (rv, pv)).
  { destruct v as [a|r]; cbn [locate] in *; [apply (find_same p q a rv pv Q L Hv Mv Fv)|exact Fv]. }
  destruct (find_act_spec _ _ _ _ Fu) as (_ & _ & _ & _ & Hru). destruct (locate_split p v rv pv Hv Fv) as (_ & _ & _ & _ & _ & Hrv).
  pose proof (sync_other d p q ru L Hru Mu) as Cu. pose proof (sync_other d p q rv L Hrv Mv) as Cv.
  destruct o as [n|n m| | | | | | | |]; cbn [eval_binary fst].
  - unfold eval_relocate, hasDepot, splitsShipment, nPickups, nDeliveries, nClients, nShipments, pcost, bef, aft, btw, at_. cbn [sp_mids sync]. rewrite Fu, Fu', Fv, Fv', Mu, Mv, Cu, Cv. reflexivity.
  - unfold eval_swap, hasDepot, splitsShipment, nPickups, nDeliveries, nClients, nShipments, pcost, bef, aft, btw, at_. cbn [sp_mids sync]. rewrite Fu, Fu', Fv, Fv', Mu, Mv, Cu, Cv. reflexivity.
  - unfold eval_tails, isEmpty, nPickups, nDeliveries, nClients, nShipments, pcost, bef, aft, btw, at_. cbn [sp_mids sync]. rewrite Fu, Fu', Fv, Fv', Mu, Mv, Cu, Cv. reflexivity.
  - unfold eval_insert_client. cbn [sp_mids sync]. destruct u; try reflexivity. rewrite Fu, Fu'. reflexivity.
  - unfold eval_insert_shipment. cbn [sp_mids sync]. destruct u; try reflexivity. rewrite Fu, Fu'. reflexivity.
  - unfold eval_alternative, nClients, nShipments, pcost, bef, aft, btw, at_. cbn [sp_mids sync]. destruct u; try reflexivity. rewrite Fu, Fu', Fv, Fv', Mu, Mv, Cu, Cv. reflexivity.
  - unfold eval_shipment. cbn [sp_mids sync]. destruct u as [i|i|i|i]; try reflexivity. destruct (ship_at d p i ru pu P Fu) as (A & M & B & _ & _ & _ & _ & Fd).
    rewrite Fu, Fu', Fv, Fv', Fd, (find_same p q (ADelivery i) ru _ Q L eq_refl Mu Fd).
    unfold nClients, nShipments, pcost, bef, aft, btw, at_. rewrite Mv, Cu, Cv. reflexivity.
  - unfold eval_with_depot, isEmpty, nPickups, nDeliveries, nClients, nShipments, pcost, bef, aft, btw, at_. cbn [sp_mids sync]. destruct u; try reflexivity. rewrite Fu, Fu', Fv, Fv', Mu, Mv, Cu, Cv. reflexivity.
  - unfold eval_replace_client. cbn [sp_mids sync]. destruct u; try reflexivity. rewrite Fu, Fu'. reflexivity.
  - unfold eval_replace_shipment. cbn [sp_mids sync]. destruct u; try reflexivity. rewrite Fu, Fu'. reflexivity.
Qed.
End Local.

(** ** The search *)
Section Search.
Variable d : pdata.
Variable h : Z.
Variable ev : evaluator.
Hypothesis St : setting d h ev.
Variable uops : list unary.
Variable bops : list binary.
Hypothesis Ops : Forall op_ok bops.

(** No operator wants to apply a move, given up-to-date routes and nothing remembered. *)
Definition refuses (p : plan) (u : activity) (v : vref) : Prop :=
  forall o, In o bops -> yes (fst (eval_binary d ev o (sync d p) rc_none u v)) = false.
Definition refuses1 (p : plan) (u : activity) : Prop :=
  forall o, In o uops -> yes (eval_unary d ev o (sync d p) u) = false.

Lemma refuses_local p q u v ru pu rv pv : plan_ok d p -> plan_ok d q -> a_isDepot u = false -> vref_ok p v ->
  find_act u p = Some (ru, pu) -> locate p v = Some (rv, pv) -> mid_at q ru = mid_at p ru -> mid_at q rv = mid_at p rv ->
  refuses p u v -> refuses q u v.
Proof. intros P Q Hu Hv Fu Fv Mu Mv R o Ho. rewrite (eval_local d ev o p q u v ru pu rv pv); auto. Qed.

Lemma try_unary_none p : forall ops u, try_unary d ev (sync d p) ops u = None -> forall o, In o ops -> yes (eval_unary d ev o (sync d p) u) = false.
Proof.
  induction ops as [|o ops IH]; intros u H o' Ho; cbn [try_unary] in H; [destruct Ho|].
  destruct (eval_unary d ev o (sync d p) u) as [[delta ap] m] eqn:E. destruct ap; [discriminate|]. destruct Ho as [<-|Ho]; [rewrite E; reflexivity|apply (IH u H o' Ho)].
Qed.
Lemma try_binary_none p u v ops rcs : Forall2 (fun o rc => rc_ok d ev o p rc) ops rcs -> fst (try_binary d ev (sync d p) ops rcs u v) = None ->
  forall o, In o ops -> yes (fst (eval_binary d ev o (sync d p) rc_none u v)) = false.
Proof.
  intros H. induction H as [|o rc ops rcs R H IH]; intros T o' Ho; cbn [try_binary] in T; [destruct Ho|].
  pose proof (eval_fresh d ev o p rc u v R) as Fr.
  destruct (eval_binary d ev o (sync d p) rc u v) as [[[delta ap] m] rc'] eqn:E. cbn [fst] in Fr. destruct ap; [discriminate|].
  destruct (try_binary d ev (sync d p) ops rcs u v) as [found rcs']. destruct Ho as [<-|Ho]; [rewrite <- Fr; reflexivity|apply (IH T o' Ho)].
Qed.

(** What happens to the state: routes keep their stamp and content, or get a newer stamp. *)
Record evol (st st' : lstate) : Prop := mk_evol {
  eo_inv : ls_inv d ev bops st';
  eo_len : length (l_upd st') = length (l_upd st);
  eo_num : (l_num st <= l_num st')%Z;
  eo_space : same_space (l_space st) (l_space st');
  eo_at : forall r, (nth r (l_upd st') 0%Z = nth r (l_upd st) 0%Z /\ mid_at (l_plan st') r = mid_at (l_plan st) r) \/
                    (l_num st < nth r (l_upd st') 0%Z <= l_num st')%Z;
  eo_done : l_done st' = true -> l_done st = true /\ l_plan st' = l_plan st /\ l_num st' = l_num st /\ l_upd st' = l_upd st /\ l_space st' = l_space st }.
Lemma evol_refl st : ls_inv d ev bops st -> evol st st.
Proof. intros I. constructor; auto; [lia|apply same_space_refl]. Qed.
Lemma evol_trans a b c : evol a b -> evol b c -> evol a c.
Proof.
  intros [I1 L1 N1 S1 A1 D1] [I2 L2 N2 S2 A2 D2]. constructor; [exact I2|congruence|lia|eapply same_space_trans; eassumption| |].
  - intros r. destruct (A2 r) as [[E M]|H]; [|right; lia]. destruct (A1 r) as [[E' M']|H']; [left; split; congruence|right; lia].
  - intros D. destruct (D2 D) as (D' & P2 & N' & U2 & S'). destruct (D1 D') as (D0 & P1 & N0 & U1 & S0). repeat split; congruence.
Qed.
Lemma fold_upd_length (x : Z) rs : forall l, length (fold_left (fun l r => upd l r x) rs l) = length l.
Proof. induction rs as [|r rs IH]; intros l; cbn [fold_left]; [reflexivity|]. rewrite IH. apply upd_length. Qed.
Lemma fold_upd_nth (x : Z) rs : forall l r, (forall r', In r' rs -> r' < length l) ->
  nth r (fold_left (fun l r => upd l r x) rs l) 0%Z = if existsb (Nat.eqb r) rs then x else nth r l 0%Z.
Proof.
  induction rs as [|r0 rs IH]; intros l r B; cbn [fold_left existsb]; [reflexivity|].
  rewrite IH by (intros r' H; rewrite upd_length; apply B; right; exact H). destruct (existsb (Nat.eqb r) rs); [rewrite orb_true_r; reflexivity|]. rewrite orb_false_r.
  destruct (Nat.eqb_spec r r0) as [->|N]; [apply nth_upd_same, B; left; reflexivity|apply nth_upd_other; congruence].
Qed.
Lemma existsb_nat r rs : existsb (Nat.eqb r) rs = true <-> In r rs.
Proof. rewrite existsb_exists. split; [intros (x & H & E); apply Nat.eqb_eq in E; subst; exact H|intros H; exists r; split; [exact H|apply Nat.eqb_refl]]. Qed.

Lemma move_evol st sp p' delta rU rV : ls_inv d ev bops st -> length (l_upd st) = length (l_plan st) -> same_space (l_space st) sp -> done d ev (l_plan st) p' delta -> structured d p' ->
  touched (l_plan st) p' (upd_list rU rV) -> (forall r, In r (upd_list rU rV) -> r < length (l_plan st)) ->
  ((delta < 0)%Z \/ (delta = 0%Z /\ depots_in p' < depots_in (l_plan st))) ->
  let st' := ls_update d (with_plan (with_space st sp) p') rU rV in
  evol st st' /\ l_test st' = l_test st /\ l_done st' = false /\ (l_num st < nth rV (l_upd st') 0%Z)%Z.
Proof.
  intros I Lu SS Dn Sr' T B D st'.
  destruct (move_step d ev bops st sp p' delta rU rV I SS Dn Sr' T B D) as (M1 & [M2 _] & M3 & M4). fold st' in M1, M2, M3, M4.
  assert (B' : forall r, In r (upd_list rU rV) -> r < length p') by (intros r Hr; destruct T as [L _]; rewrite L; apply B, Hr).
  destruct (ls_update_spec d (with_plan (with_space st sp) p') rU rV) as (U1 & U2 & U3 & U4 & U5 & U6 & U7 & U8).
  { unfold with_plan. cbn [l_sol with_sol with_space]. rewrite (li_sync _ _ _ _ I). apply stale_touched, T. }
  { exact B'. }
  fold st' in U1, U2, U3, U4, U5, U6, U7, U8. unfold with_plan, with_sol, with_space, l_plan at 2 in U1. cbn [l_sol l_rcs l_space sp_mids l_num] in *.
  destruct (tidy_all d ev (upd_list rU rV) p' (dn_ok _ _ _ _ _ Dn) B') as (_ & _ & _ & _ & X2). cbv zeta in X2. rewrite <- U1 in X2.
  assert (X : touched (l_plan st) (l_plan st') (upd_list rU rV)) by (eapply touched_trans; eassumption).
  change (l_num (with_plan (with_space st sp) p')) with (l_num st) in *. change (l_upd (with_plan (with_space st sp) p')) with (l_upd st) in *.
  assert (N : forall r, nth r (l_upd st') 0%Z = if existsb (Nat.eqb r) (upd_list rU rV) then (l_num st + 1)%Z else nth r (l_upd st) 0%Z).
  { intros r. rewrite U6. apply fold_upd_nth. intros r' Hr'. rewrite Lu. apply B, Hr'. }
  split; [constructor|split; [|split]].
  - exact M1.
  - rewrite U6. apply fold_upd_length.
  - lia.
  - exact M2.
  - intros r. rewrite N. destruct (existsb (Nat.eqb r) (upd_list rU rV)) eqn:E; [right; lia|]. left. split; [reflexivity|]. apply (proj2 X). intros Hr. apply existsb_nat in Hr. congruence.
  - intros Z. congruence.
  - exact U5.
  - exact U8.
  - rewrite N. replace (existsb (Nat.eqb rV) (upd_list rU rV)) with true; [lia|]. symmetry. apply existsb_nat, upd_list_in. apply in_app_iff. right. left. reflexivity.
Qed.

Lemma unary_evol st u : ls_inv d ev bops st -> length (l_upd st) = length (l_plan st) -> visit_known d u ->
  let st' := apply_unary_ops d ev uops st u in
  evol st st' /\ l_test st' = l_test st /\ (l_done st' = true -> refuses1 (l_plan st) u).
Proof.
  intros I Lu [Hu K]. unfold apply_unary_ops. destruct (try_unary d ev (l_sol st) uops u) as [[o m]|] eqn:T.
  2: { cbv zeta. split; [apply evol_refl, I|]. split; [reflexivity|]. intros _. rewrite (li_sync _ _ _ _ I) in T. exact (try_unary_none _ _ _ T). }
  apply try_unary_some in T as [_ [delta E]]. rewrite (li_sync _ _ _ st I) in E.
  destruct (unary_ok d h ev St o (l_plan st) u delta m (li_ok _ _ _ st I) K Hu E) as (Ef & Dn & Dl).
  destruct (unary_touched d o (l_plan st) u _ (li_ok _ _ _ st I) (dn_ok _ _ _ _ _ Dn) Hu Ef) as [T1 T2].
  pose proof (unary_structured d h ev St o _ u _ (li_ok _ _ _ st I) (dn_ok _ _ _ _ _ Dn) K Ef (li_str _ _ _ st I)) as Sr.
  assert (Dl' : (delta < 0)%Z \/ (delta = 0%Z /\ depots_in (apply_unary o m (l_plan st) u) < depots_in (l_plan st))).
  { destruct Dl as [|[Z ->]]; [left; assumption|right; split; [exact Z|]]. cbn [unary_effect] in Ef. pose proof (adjacent_depots _ _ _ Ef). lia. }
  destruct (home (l_plan st) u) as [r|] eqn:Hh.
  - assert (Hp : 1 <= tot (l_plan st) u). { destruct (Nat.eq_dec (tot (l_plan st) u) 0) as [Z|]; [|lia]. apply home_tot in Z. congruence. }
    specialize (T1 Hp). rewrite home_homes, Hh in T1.
    assert (UL : upd_list (Some r) r = [r]) by (unfold upd_list; rewrite Nat.eqb_refl; reflexivity).
    destruct (move_evol st (mark_act d (l_plan st) u (l_space st)) _ delta (Some r) r I Lu (mark_act_same _ _ _ _) Dn Sr) as (M1 & M2 & M3 & _);
      rewrite ?UL; try assumption.
    { intros r' [<-|[]]. apply (home_lt _ _ _ Hh). }
    split; [exact M1|]. split; [exact M2|]. intros Z. exfalso. pose proof (eq_trans (eq_sym M3) Z) as X. discriminate X.
  - apply home_tot in Hh. destruct (T2 Hh) as [T3 T4].
    change (l_plan (with_plan st (apply_unary o m (l_plan st) u))) with (apply_unary o m (l_plan st) u).
    destruct (home (apply_unary o m (l_plan st) u) u) as [r|] eqn:Hr; [|apply home_tot in Hr; lia].
    rewrite home_homes, Hr in T3.
    assert (UL : upd_list (Some r) r = [r]) by (unfold upd_list; rewrite Nat.eqb_refl; reflexivity).
    destruct (move_evol st (mark_act d (apply_unary o m (l_plan st) u) u (l_space st)) _ delta (Some r) r I Lu (mark_act_same _ _ _ _) Dn Sr) as (M1 & M2 & M3 & _);
      rewrite ?UL; try assumption.
    { intros r' [<-|[]]. destruct T3 as [L _]. rewrite <- L. apply (home_lt _ _ _ Hr). }
    split; [exact M1|]. split; [exact M2|]. intros Z. exfalso. pose proof (eq_trans (eq_sym M3) Z) as X. discriminate X.
Qed.

Lemma binary_evol st u v rv pv : ls_inv d ev bops st -> length (l_upd st) = length (l_plan st) -> visit_known d u -> vref_ok (l_plan st) v -> v <> VAct u ->
  locate (l_plan st) v = Some (rv, pv) ->
  let '(applied, st') := apply_binary_ops d ev bops st u v in
  evol st st' /\ l_test st' = l_test st /\ (applied = true -> l_done st' = false /\ (l_num st < nth rv (l_upd st') 0%Z)%Z) /\
  (applied = false -> l_plan st' = l_plan st /\ l_num st' = l_num st /\ l_upd st' = l_upd st /\ refuses (l_plan st) u v).
Proof.
  intros I Lu [Hu K] Hv Hne L. unfold apply_binary_ops. rewrite (li_sync _ _ _ st I).
  pose proof (try_binary_spec d ev (l_plan st) u v (li_ok _ _ _ st I) Hu bops (l_rcs st) Ops (li_rcs _ _ _ st I)) as Sp.
  pose proof (try_binary_none (l_plan st) u v bops (l_rcs st) (li_rcs _ _ _ st I)) as None.
  destruct (try_binary d ev (sync d (l_plan st)) bops (l_rcs st) u v) as [found rcs]. destruct Sp as [Rc Sp].
  assert (I' : ls_inv d ev bops (with_rcs st rcs)). { destruct I as [Sy P Sr _ Sc]. constructor; assumption. }
  assert (Same : evol st (with_rcs st rcs)).
  { constructor; [exact I'|reflexivity|cbn; lia|apply same_space_refl|left; split; reflexivity|]. intros Z. change (l_done st = true) in Z. split; [exact Z|]. repeat split. }
  destruct found as [[o m]|]; [|split; [exact Same|split; [reflexivity|split; [discriminate|intros _; repeat split; exact (None eq_refl)]]]].
  destruct Sp as (delta & rc & rc' & Ho & Hrc & E).
  change (l_plan (with_rcs st rcs)) with (l_plan st). rewrite L.
  destruct (binary_ok d h ev St o (l_plan st) rc u v delta m rc' (li_ok _ _ _ st I) Ho K Hu Hv Hne (sr_once d _ (li_str _ _ _ st I)) Hrc E) as (Ef & Dn & Dl).
  pose proof (binary_touched d o (l_plan st) u v _ rv pv (li_ok _ _ _ st I) Hu Hv L Ef) as T. rewrite home_homes in T.
  pose proof (binary_structured d h ev St o _ u v _ (li_ok _ _ _ st I) (dn_ok _ _ _ _ _ Dn) K Ef (li_str _ _ _ st I)) as Sr.
  set (sp := l_space (mark_ref d (mark_in d (with_rcs st rcs) u) v)).
  assert (SS : same_space (l_space (with_rcs st rcs)) sp).
  { unfold sp, mark_ref, mark_in. cbn [l_space with_space l_plan l_sol]. change (sp_mids (l_sol (with_rcs st rcs))) with (l_plan st).
    eapply same_space_trans; [apply mark_act_same|]. change (l_plan (with_space (with_rcs st rcs) (mark_act d (l_plan (with_rcs st rcs)) u (l_space (with_rcs st rcs))))) with (l_plan st). rewrite L. apply mark_node_same. }
  destruct (move_evol (with_rcs st rcs) sp (apply_binary o m (l_plan st) u v) delta (home (l_plan st) u) rv I' Lu SS Dn Sr) as (M1 & M2 & M3 & M4).
  { eapply touched_in; [|exact T]. intros r Hr. apply upd_list_in, Hr. }
  { intros r Hr. apply upd_list_in in Hr. apply in_app_iff in Hr as [Hr|[<-|[]]].
    - destruct (home (l_plan st) u) eqn:Hh; [|destruct Hr]. destruct Hr as [<-|[]]. apply (home_lt _ _ _ Hh).
    - destruct (locate_split _ _ _ _ Hv L) as (C & D & _ & _ & _ & B). exact B. }
  { left. exact Dl. }
  assert (X : with_plan (mark_ref d (mark_in d (with_rcs st rcs) u) v) (apply_binary o m (l_plan (mark_ref d (mark_in d (with_rcs st rcs) u) v)) u v)
            = with_plan (with_space (with_rcs st rcs) sp) (apply_binary o m (l_plan st) u v)).
  { unfold sp, mark_ref. change (l_plan (mark_in d (with_rcs st rcs) u)) with (l_plan st). rewrite L. reflexivity. }
  rewrite X. split; [eapply evol_trans; [exact Same|exact M1]|]. split; [exact M2|]. split; [intros _; split; [exact M3|exact M4]|discriminate].
Qed.

(** ** Stamps *)
Record stamped (st : lstate) : Prop := mk_stamped {
  sd_inv : ls_inv d ev bops st;
  sd_len : length (l_upd st) = length (l_plan st);
  sd_num : (0 <= l_num st)%Z;
  sd_upd : forall r, (nth r (l_upd st) 0 <= l_num st)%Z;
  sd_tests : length (l_test st) = p_numClients d + p_numShipments d;
  sd_test : forall i, (nth i (l_test st) 0 <= l_num st)%Z }.
Lemma stamped_evol st st' : stamped st -> evol st st' -> l_test st' = l_test st -> stamped st'.
Proof.
  intros [I Lu N U Ts T] [I' L' N' S' A' _] E. constructor; [exact I'| |lia| |congruence|intros i; rewrite E; specialize (T i); lia].
  - rewrite L', Lu, (pk_len d _ (li_ok _ _ _ _ I)), (pk_len d _ (li_ok _ _ _ _ I')). reflexivity.
  - intros r. destruct (A' r) as [[-> _]|H]; [specialize (U r)|]; lia.
Qed.

(** [u] and [v] were tested at time [t]; nothing to apply unless one of their routes changed since. *)
Definition tested (st : lstate) (u v : activity) (t : Z) : Prop :=
  forall ru pu rv pv, find_act u (l_plan st) = Some (ru, pu) -> find_act v (l_plan st) = Some (rv, pv) ->
  (nth ru (l_upd st) 0 <= t)%Z -> (nth rv (l_upd st) 0 <= t)%Z ->
  refuses (l_plan st) u (VAct v) /\ (pv = 1 -> refuses (l_plan st) u (VStart rv)).

Lemma find_back p q a r pos : plan_ok d p -> plan_ok d q -> a_isDepot a = false -> mid_at q r = mid_at p r -> find_act a q = Some (r, pos) -> find_act a p = Some (r, pos).
Proof. intros P Q Ha M F. apply (find_other p q a r pos); auto; [rewrite (pk_len d p P), (pk_len d q Q); reflexivity|apply (pk_once d p P a Ha)]. Qed.
Lemma tested_evol st st' u v t : stamped st -> evol st st' -> a_isDepot u = false -> a_isDepot v = false -> (t <= l_num st)%Z -> tested st u v t -> tested st' u v t.
Proof.
  intros Sd Ev Hu Hv Ht T ru pu rv pv Fu Fv Uu Uv. pose proof (li_ok _ _ _ _ (sd_inv _ Sd)) as P. pose proof (li_ok _ _ _ _ (eo_inv _ _ Ev)) as P'.
  destruct (eo_at _ _ Ev ru) as [[Eu Mu]|H]; [|lia]. destruct (eo_at _ _ Ev rv) as [[Evv Mv]|H]; [|lia].
  pose proof (find_back _ _ u ru pu P P' Hu Mu Fu) as Fu0. pose proof (find_back _ _ v rv pv P P' Hv Mv Fv) as Fv0.
  destruct (T ru pu rv pv Fu0 Fv0) as [R1 R2]; [lia|lia|]. destruct (find_act_spec _ _ _ _ Fv0) as (_ & _ & _ & _ & Hrv). split.
  - apply (refuses_local (l_plan st) _ u (VAct v) ru pu rv pv); auto.
  - intros Hp. apply (refuses_local (l_plan st) _ u (VStart rv) ru pu rv 0); auto.
Qed.
(** After a move that involved [v]'s route, nothing is claimed. *)
Lemma tested_moved st st' u v t rv pv : stamped st -> evol st st' -> a_isDepot v = false -> (t <= l_num st)%Z ->
  find_act v (l_plan st) = Some (rv, pv) -> (l_num st < nth rv (l_upd st') 0)%Z -> tested st' u v t.
Proof.
  intros Sd Ev Hv Ht F H ru pu rv' pv' Fu' Fv' Uu Uv. exfalso.
  destruct (eo_at _ _ Ev rv') as [[E M]|H']; [|lia].
  pose proof (find_back _ _ v rv' pv' (li_ok _ _ _ _ (sd_inv _ Sd)) (li_ok _ _ _ _ (eo_inv _ _ Ev)) Hv M Fv') as F0. rewrite F in F0. injection F0 as <- <-. lia.
Qed.

Lemma neighbour_tested lt t u v st st' : stamped st -> visit_known d u -> visit_known d v -> v <> u -> (t <= l_num st)%Z -> (lt <= t)%Z ->
  tested st u v lt -> test_neighbour d ev bops lt u st v = Some st' ->
  evol st st' /\ l_test st' = l_test st /\ tested st' u v t.
Proof.
  intros Sd K Kv Hne Ht Hlt T. unfold test_neighbour. rewrite (proj2 (node_known d v) Kv). pose proof (sd_inv _ Sd) as I.
  destruct (find_act v (l_plan st)) as [[rv pv]|] eqn:F.
  2: { intros [= <-]. split; [apply evol_refl, I|]. split; [reflexivity|]. intros ru pu rv pv _ F'. congruence. }
  destruct (_ || _) eqn:Flt.
  2: { intros [= <-]. split; [apply evol_refl, I|]. split; [reflexivity|]. intros ru pu rv' pv' Fu Fv _ _. apply orb_false_iff in Flt as [F1 F2].
       rewrite F in Fv. injection Fv as <- <-. unfold home in F1. rewrite Fu in F1. cbn [option_map fst] in F1. apply Z.ltb_ge in F1, F2. apply (T ru pu rv pv); auto. }
  pose proof (binary_evol st u (VAct v) rv pv I (sd_len _ Sd) K (proj1 Kv) ltac:(congruence) F) as B. destruct (apply_binary_ops d ev bops st u (VAct v)) as [ap st1].
  destruct B as (B1 & B2 & B3 & B4). destruct ap; cbn [negb andb].
  - intros [= <-]. destruct (B3 eq_refl) as [_ N]. split; [exact B1|]. split; [exact B2|]. apply (tested_moved st st1 u v t rv pv); auto. apply Kv.
  - destruct (B4 eq_refl) as (E1 & E2 & E3 & R1). pose proof (stamped_evol st st1 Sd B1 B2) as Sd1. destruct (find_act_spec _ _ _ _ F) as (_ & _ & _ & _ & Hrv).
    destruct (Nat.eqb_spec pv 1) as [Hp|Hp].
    + intros [= <-]. pose proof (binary_evol st1 u (VStart rv) rv 0 (sd_inv _ Sd1) (sd_len _ Sd1) K ltac:(cbn [vref_ok]; congruence) ltac:(discriminate) eq_refl) as C.
      destruct (apply_binary_ops d ev bops st1 u (VStart rv)) as [ap st2]. destruct C as (C1 & C2 & C3 & C4). cbn [snd].
      split; [eapply evol_trans; eassumption|]. split; [congruence|]. destruct ap.
      * destruct (C3 eq_refl) as [_ N]. apply (tested_moved st1 st2 u v t rv pv); auto; [apply Kv|lia|rewrite E1; exact F].
      * destruct (C4 eq_refl) as (G1 & _ & _ & R2). intros ru pu rv' pv' _ Fv _ _. rewrite G1, E1 in *. rewrite F in Fv. injection Fv as <- <-. split; [exact R1|intros _; exact R2].
    + intros [= <-]. split; [exact B1|]. split; [exact B2|]. intros ru pu rv' pv' _ Fv _ _. rewrite E1 in *. rewrite F in Fv. injection Fv as <- <-. split; [exact R1|intros X; congruence].
Qed.
Lemma neighbours_tested lt t u vs : visit_known d u -> (forall v, In v vs -> visit_known d v) -> ~ In u vs -> (lt <= t)%Z ->
  forall done st st', (forall v, In v done -> visit_known d v) -> stamped st -> (t <= l_num st)%Z -> (forall v, In v done -> tested st u v t) -> (forall v, In v vs -> tested st u v lt) ->
  test_neighbours d ev bops lt u st vs = Some st' ->
  evol st st' /\ l_test st' = l_test st /\ (forall v, In v done \/ In v vs -> tested st' u v t).
Proof.
  intros K. induction vs as [|v vs IH]; intros Kv Hn Hlt dn st st' Kd Sd Ht T1 T2 H; cbn [test_neighbours] in H.
  - injection H as <-. split; [apply evol_refl, (sd_inv _ Sd)|]. split; [reflexivity|]. intros v [Hv|[]]. apply T1, Hv.
  - destruct (test_neighbour d ev bops lt u st v) as [st1|] eqn:E; [|discriminate].
    destruct (neighbour_tested lt t u v st st1 Sd K) as (E1 & E2 & E3); auto; [apply Kv; left; reflexivity|intros ->; apply Hn; left; reflexivity|apply T2; left; reflexivity|].
    pose proof (stamped_evol st st1 Sd E1 E2) as Sd1.
    destruct (IH (fun x Hx => Kv x (or_intror Hx)) (fun X => Hn (or_intror X)) Hlt (v :: dn) st1 st') as (F1 & F2 & F3); auto.
    + intros x [<-|Hx]; [apply Kv; left; reflexivity|apply Kd, Hx].
    + pose proof (eo_num _ _ E1). lia.
    + intros x [<-|Hx]; [exact E3|]. apply (tested_evol st st1 u x t); auto; [apply K|apply Kd, Hx].
    + intros x Hx. apply (tested_evol st st1 u x lt); auto; [apply K|apply Kv; right; exact Hx|lia|apply T2; right; exact Hx].
    + split; [eapply evol_trans; eassumption|]. split; [congruence|]. intros x [Hx|[<-|Hx]]; apply F3; [left; right; exact Hx|left; left; reflexivity|right; exact Hx].
Qed.

Lemma empty_evol u : visit_known d u -> forall types st, stamped st -> (forall t, In t types -> In t (veh_order (p_vehicles d) 0 0)) ->
  let st' := empty_moves d ev bops st u types in
  evol st st' /\ l_test st' = l_test st /\
  (l_done st' = true -> forall t off r, In (t, off) types -> first_empty (sync d (l_plan st)) off (avail d t) = Some r -> refuses (l_plan st) u (VStart r)).
Proof.
  intros K. induction types as [|[t o] types IH]; intros st Sd Ht; cbn [empty_moves]; pose proof (sd_inv _ Sd) as I.
  { cbv zeta. split; [apply evol_refl, I|]. split; [reflexivity|]. intros _ t off r []. }
  destruct (first_empty (l_sol st) o (avail d t)) as [r|] eqn:F.
  2: { destruct (IH st Sd (fun x Hx => Ht x (or_intror Hx))) as (E1 & E2 & E3). cbv zeta in *. split; [exact E1|]. split; [exact E2|].
       intros D t' off r [[= <- <-]|Hin] F'; [|apply (E3 D t' off r Hin F')]. rewrite <- (li_sync _ _ _ _ I) in F'. congruence. }
  pose proof (empty_slot d _ _ _ _ (Ht _ (or_introl eq_refl)) F) as Hr. rewrite <- (pk_len d _ (li_ok _ _ _ st I)) in Hr.
  pose proof (binary_evol st u (VStart r) r 0 I (sd_len _ Sd) K Hr ltac:(discriminate) eq_refl) as B. destruct (apply_binary_ops d ev bops st u (VStart r)) as [ap st1].
  destruct B as (B1 & B2 & B3 & B4). destruct ap; cbv zeta.
  - destruct (B3 eq_refl) as [D _]. split; [exact B1|]. split; [exact B2|]. intros Z. congruence.
  - destruct (B4 eq_refl) as (G1 & _ & _ & R). pose proof (stamped_evol st st1 Sd B1 B2) as Sd1.
    destruct (IH st1 Sd1 (fun x Hx => Ht x (or_intror Hx))) as (E1 & E2 & E3). cbv zeta in *.
    split; [eapply evol_trans; eassumption|]. split; [congruence|]. intros D t' off r' [[= <- <-]|Hin] F'.
    + rewrite <- (li_sync _ _ _ _ I), F in F'. injection F' as <-. exact R.
    + rewrite <- G1 in *. apply (E3 D t' off r' Hin F').
Qed.

(** No operator finds a move from [u]: alone, to one of its neighbours [v] if both are planned,
    to the front of [v]'s route if [v] is first, or to the first empty route of a vehicle type. *)
Definition settled (sp : space) (p : plan) (u : activity) : Prop :=
  refuses1 p u /\
  (forall vs v ru pu rv pv, neighbours_of sp u = Ok vs -> In v vs -> find_act u p = Some (ru, pu) -> find_act v p = Some (rv, pv) ->
     refuses p u (VAct v) /\ (pv = 1 -> refuses p u (VStart rv))) /\
  (forall t off r, In (t, off) (ss_vehOrder sp) -> first_empty (sync d p) off (avail d t) = Some r -> refuses p u (VStart r)).

Definition all_tested (st : lstate) : Prop :=
  forall u vs v, In u (activity_order d) -> neighbours_of (l_space st) u = Ok vs -> In v vs -> tested st u v (nth (test_index d u) (l_test st) 0%Z).

Lemma test_index_inj u w : In u (activity_order d) -> In w (activity_order d) -> test_index d u = test_index d w -> u = w.
Proof.
  intros Hu Hw. apply order_in in Hu as [[_ Ku] Tu], Hw as [[_ Kw] Tw]. destruct u as [i|i|i|i], w as [j|j|j|j]; cbn in *; try (destruct Tu; discriminate); try (destruct Tw; discriminate); intros H; f_equal; lia.
Qed.
Lemma test_index_lt u : In u (activity_order d) -> test_index d u < p_numClients d + p_numShipments d.
Proof. intros Hu. apply order_in in Hu as [[_ Ku] Tu]. destruct u as [i|i|i|i]; cbn in *; try (destruct Tu; discriminate); lia. Qed.

Lemma visit_tested st u st' : stamped st -> all_tested st -> In u (activity_order d) -> visit_act d ev uops bops st u = Some st' ->
  stamped st' /\ evol st st' /\ all_tested st' /\ (l_done st' = true -> is_promising (l_space st') u = true -> settled (l_space st') (l_plan st') u).
Proof.
  intros Sd At Hu. unfold visit_act. destruct (is_promising (l_space st) u) eqn:Pr.
  2: { intros [= <-]. split; [exact Sd|]. split; [apply evol_refl, (sd_inv _ Sd)|]. split; [exact At|]. intros _ Z. congruence. }
  pose proof (proj1 (order_in d u Hu)) as K. pose proof (test_index_lt u Hu) as Hi.
  set (lt := nth (test_index d u) (l_test st) 0%Z) in *. set (t := l_num st).
  set (st0 := with_test st _). assert (E0 : evol st st0).
  { constructor; [destruct (sd_inv _ Sd); constructor; assumption|reflexivity|cbn; lia|apply same_space_refl|left; split; reflexivity|intros Z; cbn in *; repeat split; assumption]. }
  assert (Hlt : (lt <= t)%Z) by apply (sd_test _ Sd).
  assert (N0 : forall i, nth i (l_test st0) 0%Z = if test_index d u =? i then t else nth i (l_test st) 0%Z).
  { intros i. unfold st0. cbn [l_test with_test]. destruct (Nat.eqb_spec (test_index d u) i) as [<-|N]; [apply nth_upd_same; rewrite (sd_tests _ Sd); exact Hi|apply nth_upd_other, N]. }
  assert (Sd0 : stamped st0).
  { destruct Sd as [I Lu N U Ts T]. constructor; [apply E0|exact Lu|exact N|exact U|unfold st0; cbn [l_test with_test]; rewrite upd_length; exact Ts|].
    intros i. rewrite N0. change (l_num st0) with t. destruct (_ =? _); [lia|apply T]. }
  destruct (unary_evol st0 u (sd_inv _ Sd0) (sd_len _ Sd0) K) as (E1 & X1 & R1). set (st1 := apply_unary_ops d ev uops st0 u) in *.
  pose proof (stamped_evol _ _ Sd0 E1 X1) as Sd1.
  destruct (si_nb d _ (li_space _ _ _ _ (sd_inv _ Sd1)) u Hu) as (vs & Nb & Hn & Kv). rewrite Nb.
  destruct (test_neighbours d ev bops lt u st1 vs) as [st2|] eqn:TN; [|discriminate]. intros [= <-].
  assert (Nb0 : forall w, neighbours_of (l_space st1) w = neighbours_of (l_space st) w).
  { intros w. unfold neighbours_of. rewrite (proj1 (eo_space _ _ E1)). reflexivity. }
  destruct (neighbours_tested lt t u vs K Kv Hn Hlt [] st1 st2) as (E2 & X2 & T2); auto.
  { intros v []. }
  { pose proof (eo_num _ _ E1). exact H. }
  { intros v []. }
  { intros v Hv. apply (tested_evol st0 st1); auto; [apply K|apply Kv, Hv|]. rewrite Nb0 in Nb. exact (At u vs v Hu Nb Hv). }
  pose proof (stamped_evol _ _ Sd1 E2 X2) as Sd2.
  assert (Ht : forall x, In x (ss_vehOrder (l_space st2)) -> In x (veh_order (p_vehicles d) 0 0)).
  { intros x Hx. eapply Permutation_in; [symmetry; apply (si_veh d _ (li_space _ _ _ _ (sd_inv _ Sd2)))|exact Hx]. }
  destruct (empty_evol u K (ss_vehOrder (l_space st2)) st2 Sd2 Ht) as (E3 & X3 & R3). set (st3 := empty_moves d ev bops st2 u (ss_vehOrder (l_space st2))) in *. cbv zeta in R3.
  pose proof (stamped_evol _ _ Sd2 E3 X3) as Sd3.
  pose proof (evol_trans _ _ _ E1 (evol_trans _ _ _ E2 E3)) as E03.
  assert (X03 : l_test st3 = l_test st0) by congruence.
  assert (Tu : forall v, In v vs -> tested st3 u v t).
  { intros v Hv. apply (tested_evol st2 st3); auto; [apply K|apply Kv, Hv|]. pose proof (eo_num _ _ E1). pose proof (eo_num _ _ E2). change (l_num st0) with t in *. lia. }
  assert (NbS : forall w, neighbours_of (l_space st3) w = neighbours_of (l_space st) w).
  { intros w. unfold neighbours_of. rewrite (proj1 (eo_space _ _ E03)). reflexivity. }
  split; [exact Sd3|]. split; [eapply evol_trans; eassumption|]. split.
  - intros w ws v Hw Nw Hv. rewrite X03, N0. rewrite NbS in Nw. destruct (Nat.eqb_spec (test_index d u) (test_index d w)) as [E|N].
    + apply (test_index_inj u w Hu Hw) in E. subst w. rewrite Nb0 in Nb. assert (ws = vs) by congruence. subst ws. apply Tu, Hv.
    + destruct (si_nb d _ (li_space _ _ _ _ (sd_inv _ Sd)) w Hw) as (ws' & Nw' & _ & Kw). assert (ws' = ws) by congruence. subst ws'.
      apply (tested_evol st0 st3); auto; [apply (order_in d w Hw)|apply Kw, Hv| |exact (At w ws v Hw Nw Hv)]. pose proof (sd_test _ Sd (test_index d w)). exact H.
  - intros D _. destruct (eo_done _ _ E3 D) as (D2 & P3 & U3 & V3 & S3). destruct (eo_done _ _ E2 D2) as (D1 & P2 & U2 & V2 & S2). destruct (eo_done _ _ E1 D1) as (D0 & P1 & U1 & V1 & S1).
    rewrite S3. split; [|split].
    + rewrite P3, P2, P1. exact (R1 D1).
    + intros vs' v ru pu rv pv Nv Hv Fu Fv. assert (vs' = vs). { rewrite S2 in Nv. congruence. } subst vs'.
      apply (Tu v Hv ru pu rv pv Fu Fv); (eapply Z.le_trans; [apply (sd_upd _ Sd3)|]); rewrite U3, U2, U1; apply Z.le_refl.
    + rewrite P3. exact (R3 D).
Qed.

Lemma visits_tested us : (forall u, In u us -> In u (activity_order d)) -> forall st st', stamped st -> all_tested st -> visit_all d ev uops bops st us = Some st' ->
  stamped st' /\ evol st st' /\ all_tested st' /\
  (l_done st' = true -> forall u, In u us -> is_promising (l_space st') u = true -> settled (l_space st') (l_plan st') u).
Proof.
  induction us as [|u us IH]; intros Hu st st' Sd At H; cbn [visit_all] in H.
  - injection H as <-. split; [exact Sd|]. split; [apply evol_refl, (sd_inv _ Sd)|]. split; [exact At|]. intros _ u [].
  - destruct (visit_act d ev uops bops st u) as [st1|] eqn:E; [|discriminate].
    destruct (visit_tested st u st1 Sd At (Hu u (or_introl eq_refl)) E) as (Sd1 & E1 & At1 & R1).
    destruct (IH (fun x Hx => Hu x (or_intror Hx)) st1 st' Sd1 At1 H) as (Sd2 & E2 & At2 & R2).
    split; [exact Sd2|]. split; [eapply evol_trans; eassumption|]. split; [exact At2|]. intros D w [<-|Hw] Pr; [|apply R2; assumption].
    destruct (eo_done _ _ E2 D) as (D1 & P & _ & _ & S). rewrite P, S in *. apply R1; assumption.
Qed.

(** Whenever the search loop is done, everything promising is settled. *)
Definition all_settled (st : lstate) : Prop :=
  forall u, In u (activity_order d) -> is_promising (l_space st) u = true -> settled (l_space st) (l_plan st) u.
Theorem loop_settled n : forall st st', stamped st -> all_tested st -> (l_done st = true -> all_settled st) ->
  search_loop d ev uops bops n st = Finished st' -> ls_inv d ev bops st' /\ same_space (l_space st) (l_space st') /\ all_settled st'.
Proof.
  induction n as [|n IH]; intros st st' Sd At Done H; cbn [search_loop] in H; destruct (l_done st) eqn:D; try discriminate;
    try (injection H as <-; split; [apply (sd_inv _ Sd)|split; [apply same_space_refl|apply Done; reflexivity]]).
  destruct (visit_all d ev uops bops (with_done st true) (ss_order (l_space st))) as [st1|] eqn:V; [|discriminate].
  pose proof (si_order d _ (li_space _ _ _ _ (sd_inv _ Sd))) as Po.
  destruct (visits_tested (ss_order (l_space st)) (fun u Hu => Permutation_in u (Permutation_sym Po) Hu) (with_done st true) st1) as (Sd1 & E1 & At1 & R1); auto.
  { destruct Sd as [[I1 I2 I3 I4 I5] Lu N U Ts T]. constructor; [constructor|..]; assumption. }
  destruct (IH st1 st' Sd1 At1) as (I2 & S2 & A2); [|exact H|].
  { intros D1 u Hu Pr. apply (R1 D1 u); [eapply Permutation_in; eassumption|exact Pr]. }
  split; [exact I2|]. split; [|exact A2]. eapply same_space_trans; [|exact S2]. exact (eo_space _ _ E1).
Qed.

Lemma fresh_tested st : (forall r, (0 <= nth r (l_upd st) 0)%Z) -> (forall i, i < p_numClients d + p_numShipments d -> (nth i (l_test st) 0 < 0)%Z) -> all_tested st.
Proof. intros U T u vs v Hu _ _ ru pu rv pv _ _ Hru _. specialize (U ru). specialize (T _ (test_index_lt u Hu)). lia. Qed.
Theorem search_settled n st st' : stamped st -> all_tested st -> search d ev uops bops n st = Finished st' ->
  ls_inv d ev bops st' /\ same_space (l_space st) (l_space st') /\ all_settled st'.
Proof.
  intros Sd At H. unfold search in H.
  assert (X : (uops = [] /\ bops = [] /\ st' = st) \/ search_loop d ev uops bops n (with_done st false) = Finished st').
  { destruct uops, bops; auto. left. injection H as <-. auto. }
  destruct X as [(E1 & E2 & ->)|H'].
  - split; [apply (sd_inv _ Sd)|]. split; [apply same_space_refl|]. intros u _ _. split; [|split].
    + intros o Ho. rewrite E1 in Ho. destruct Ho.
    + intros vs v ru pu rv pv _ _ _ _. split; [|intros _]; intros o Ho; rewrite E2 in Ho; destruct Ho.
    + intros t off r _ _ o Ho. rewrite E2 in Ho. destruct Ho.
  - destruct (loop_settled n (with_done st false) st') as (I & S & A); auto.
    + destruct Sd as [[I1 I2 I3 I4 I5] Lu N U Ts T]. constructor; [constructor|..]; assumption.
    + discriminate.
Qed.
End Search.
