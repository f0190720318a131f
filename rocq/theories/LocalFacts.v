(** Facts about the local search: updates, and what the search keeps. *)
From Coq Require Import Permutation.
From Verif Require Import Base DurationSegment Data LoadSegment SearchRoute RouteDur Valid ProposalDur ProposalRest Route RouteSpec
  RouteFacts2 RouteFacts3 Cost CostFacts DeltaFacts SearchFacts DataCtor Bitset SearchSpace SearchNodes SearchSeq SearchLoad Ops PlanFacts ShipState OpsBase OpsGen OpsMove OpsRelocate OpsSwap OpsOne OpsEdit OpsEdit2 OpsAll LocalSearch.
Local Open Scope nat_scope.

(** ** Updates *)
(** Clear a route without visits. *)
Definition tidy (p : plan) (r : nat) : plan := if has_visit (mid_at p r) then p else upd p r [].
Lemma tidy_length p r : length (tidy p r) = length p.
Proof. unfold tidy. destruct (has_visit _); [reflexivity|apply upd_length]. Qed.
Lemma tidy_other p r r' : r <> r' -> mid_at (tidy p r) r' = mid_at p r'.
Proof. intros H. unfold tidy. destruct (has_visit _); [reflexivity|apply mid_at_other, H]. Qed.
Lemma tidy_same p r : r < length p -> mid_at (tidy p r) r = if has_visit (mid_at p r) then mid_at p r else [].
Proof. intros H. unfold tidy. destruct (has_visit _); [reflexivity|apply mid_at_same, H]. Qed.

Lemma no_visit_cnt l a : ships_ok l -> has_visit l = false -> a_isDepot a = false -> cnt l a = 0.
Proof.
  intros S H Ha. destruct (Nat.eq_dec (cnt l a) 0) as [|N]; [assumption|exfalso].
  assert (Hin : In a l) by (apply cnt_In; lia). rewrite (has_visit_in l a Hin Ha S) in H. discriminate.
Qed.

Section Update.
Variable d : pdata.
Variable ev : evaluator.

Lemma tidy_ok p r : plan_ok d p -> r < length p ->
  plan_ok d (tidy p r) /\ (forall a, a_isDepot a = false -> tot (tidy p r) a = tot p a) /\
  plan_cost d ev (tidy p r) = plan_cost d ev p /\ depots_in (tidy p r) <= depots_in p.
Proof.
  intros P Hr. unfold tidy. destruct (has_visit (mid_at p r)) eqn:E.
  - split; [exact P|]. split; [reflexivity|]. split; [reflexivity|lia].
  - pose proof (plan_ships d p r P) as S.
    assert (Z : forall a, a_isDepot a = false -> cnt (mid_at p r) a = 0) by (intros a; apply no_visit_cnt; assumption).
    assert (T : forall a, a_isDepot a = false -> tot (upd p r []) a = tot p a).
    { intros a Ha. pose proof (tot_upd p r [] a Hr) as T. rewrite Z in T by exact Ha. rewrite cnt_nil in T. lia. }
    split; [|split; [exact T|split]].
    + apply (one_route d p r []); auto.
      * apply ships_nil.
      * pose proof (wf_trips' d p r P Hr) as W. unfold trips_fit in *. rewrite num_reloads_nil. lia.
      * intros a Ha. rewrite cnt_nil, Z by exact Ha. pose proof (pk_once d p P a Ha). lia.
    + rewrite (cost_one_move d ev p r []); auto.
      * rewrite (rcost_empty d ev (rveh d r) (mid_at p r) E), (rcost_empty d ev (rveh d r) [] eq_refl). lia.
      * intros a Ha. rewrite Z by exact Ha. reflexivity.
    + pose proof (depots_upd p r [] Hr) as D. rewrite num_reloads_nil in D. lia.
Qed.

(** The statistics of the routes other than [rs] are up to date. *)
Definition stale (s : sstate) (rs : list nat) : Prop :=
  length (sp_caches s) = length (sp_mids s) /\ forall r, r < length (sp_mids s) -> ~ In r rs -> cache_at s r = update d (rveh d r) (mid_at (sp_mids s) r).
Lemma stale_none s : stale s [] -> s = sync d (sp_mids s).
Proof.
  intros [L H]. destruct s as [p cs]. unfold sync. cbn [sp_mids sp_caches] in *. f_equal.
  apply (nth_ext _ _ (update (mk_pdata [] [] [] [] [] [] [] []) dummy_vehicle []) (update d (rveh d 0) (mid_at p 0))).
  - rewrite map_length, seq_length. exact L.
  - intros n Hn. rewrite L in Hn.
    rewrite (map_nth (fun r => update d (rveh d r) (mid_at p r)) (seq 0 (length p)) 0 n). rewrite seq_nth by exact Hn.
    exact (H n Hn (fun x => x)).
Qed.
Lemma stale_touched p p' rs : touched p p' rs -> stale (mk_sstate p' (sp_caches (sync d p))) rs.
Proof.
  intros [L T]. split; cbn [sp_caches sp_mids sync]; [rewrite map_length, seq_length; auto|].
  intros r Hr Hn. change (cache_at (sync d p) r = update d (rveh d r) (mid_at p' r)). rewrite T by exact Hn. apply cache_sync. lia.
Qed.
Lemma nth_upd_same {A} (l : list A) r x dv : r < length l -> nth r (upd l r x) dv = x.
Proof. revert r. induction l as [|y l IH]; intros r H; cbn [length] in H; [lia|]. destruct r as [|r]; cbn; [reflexivity|]. apply IH. lia. Qed.
Lemma nth_upd_other {A} (l : list A) r r' x dv : r <> r' -> nth r' (upd l r x) dv = nth r' l dv.
Proof. revert r r'. induction l as [|y l IH]; intros r r' H; destruct r, r'; cbn; try reflexivity; try contradiction. apply IH. lia. Qed.
Lemma refresh_mids s r : sp_mids (refresh d s r) = tidy (sp_mids s) r.
Proof. unfold refresh, tidy. rewrite ca_empty_spec. destruct (has_visit _); reflexivity. Qed.
Lemma refresh_stale s r rs : r < length (sp_mids s) -> stale s (r :: rs) -> stale (refresh d s r) rs.
Proof.
  intros Hr [L H]. unfold refresh. rewrite ca_empty_spec.
  destruct (has_visit (mid_at (sp_mids s) r)) eqn:E; cbn [negb]; split; cbn [sp_mids sp_caches]; rewrite ?upd_length; try exact L.
  - intros r' Hr' Hn. unfold cache_at. cbn [sp_caches]. destruct (Nat.eq_dec r r') as [<-|N].
    + rewrite nth_upd_same by lia. reflexivity.
    + rewrite nth_upd_other by exact N. apply (H r' Hr'). intros [X|X]; contradiction.
  - intros r' Hr' Hn. unfold cache_at. cbn [sp_caches]. destruct (Nat.eq_dec r r') as [<-|N].
    + rewrite nth_upd_same by lia. rewrite mid_at_same by exact Hr. reflexivity.
    + rewrite nth_upd_other by exact N. rewrite mid_at_other by exact N. apply (H r' Hr'). intros [X|X]; contradiction.
Qed.

(** The routes update(U, V) is about. *)
Definition upd_list (rU : option nat) (rV : nat) : list nat :=
  match rU with None => [rV] | Some r => if r =? rV then [r] else [r; rV] end.
Theorem ls_update_spec st rU rV : stale (l_sol st) (upd_list rU rV) -> (forall r, In r (upd_list rU rV) -> r < length (l_plan st)) ->
  let st' := ls_update d st rU rV in
  l_plan st' = fold_left tidy (upd_list rU rV) (l_plan st) /\ l_sol st' = sync d (l_plan st') /\ l_rcs st' = map (rc_forget_all (l_plan st') (upd_list rU rV)) (l_rcs st) /\ l_space st' = l_space st /\ l_test st' = l_test st /\ l_upd st' = fold_left (fun l r => upd l r (l_num st + 1)%Z) (upd_list rU rV) (l_upd st) /\ l_num st' = (l_num st + 1)%Z /\ l_done st' = false.
Proof.
  intros S B. unfold ls_update. unfold upd_list in *. destruct rU as [r|].
  - destruct (Nat.eqb_spec r rV) as [E|E].
    + assert (Hr : r < length (l_plan st)) by (apply B; left; reflexivity).
      cbv zeta. unfold update_route, l_plan in *. cbv zeta. cbn [l_sol l_rcs l_space l_test l_upd l_num l_done fold_left]. rewrite refresh_mids.
      split; [reflexivity|]. split; [|split; [reflexivity|repeat split]].
      rewrite <- refresh_mids. apply stale_none, refresh_stale; assumption.
    + assert (Hr : r < length (l_plan st)) by (apply B; left; reflexivity). assert (Hv : rV < length (l_plan st)) by (apply B; right; left; reflexivity).
      cbv zeta. unfold update_route, l_plan in *. cbv zeta. cbn [l_sol l_rcs l_space l_test l_upd l_num l_done fold_left]. rewrite !refresh_mids.
      split; [reflexivity|]. split; [|split; [|repeat split]].
      * rewrite <- !refresh_mids. apply stale_none, refresh_stale; [rewrite refresh_mids, tidy_length; exact Hv|]. apply refresh_stale; assumption.
      * rewrite map_map. apply map_ext. intros rc. cbn [rc_forget_all fold_left]. rewrite (tidy_other _ rV r) by congruence. reflexivity.
  - assert (Hv : rV < length (l_plan st)) by (apply B; left; reflexivity).
    cbv zeta. unfold update_route, l_plan in *. cbv zeta. cbn [l_sol l_rcs l_space l_test l_upd l_num l_done fold_left]. rewrite refresh_mids.
    split; [reflexivity|]. split; [|split; [reflexivity|repeat split]].
    rewrite <- refresh_mids. apply stale_none, refresh_stale; assumption.
Qed.

Lemma tidy_all rs : forall p, plan_ok d p -> (forall r, In r rs -> r < length p) ->
  let q := fold_left tidy rs p in
  plan_ok d q /\ (forall a, a_isDepot a = false -> tot q a = tot p a) /\ plan_cost d ev q = plan_cost d ev p /\ depots_in q <= depots_in p /\ touched p q rs.
Proof.
  induction rs as [|r rs IH]; intros p P B; cbn [fold_left].
  - split; [exact P|]. split; [reflexivity|]. split; [reflexivity|]. split; [lia|]. split; reflexivity.
  - destruct (tidy_ok p r P (B r (or_introl eq_refl))) as (P1 & T1 & C1 & D1).
    destruct (IH (tidy p r) P1) as (P2 & T2 & C2 & D2 & X2). { intros r' H. rewrite tidy_length. apply B. right. exact H. }
    cbv zeta in *. split; [exact P2|]. split; [intros a Ha; rewrite T2, T1 by exact Ha; reflexivity|]. split; [congruence|]. split; [lia|].
    destruct X2 as [L X]. split; [rewrite L; apply tidy_length|]. intros r' Hn. rewrite X by (intros H; apply Hn; right; exact H).
    apply tidy_other. intros ->. apply Hn. left. reflexivity.
Qed.
End Update.

(** ** The space *)
(** Neighbourhoods as the search needs them: every client and shipment has one, it lists existing
    visits, and none lists its own activity; the orders are those of the data, shuffled. *)
Record space_inv (d : pdata) (sp : space) : Prop := mk_space_inv {
  si_order : Permutation (activity_order d) (ss_order sp);
  si_veh : Permutation (veh_order (p_vehicles d) 0 0) (ss_vehOrder sp);
  si_nb : forall a, In a (activity_order d) -> exists l, neighbours_of sp a = Ok l /\ ~ In a l /\ forall b, In b l -> visit_known d b }.
Definition same_space (sp sp' : space) : Prop :=
  ss_neighbours sp' = ss_neighbours sp /\ ss_order sp' = ss_order sp /\ ss_vehOrder sp' = ss_vehOrder sp /\
  length (ss_promising sp') = length (ss_promising sp) /\ (bs_ok (ss_promising sp) -> bs_ok (ss_promising sp')).
Lemma same_space_refl sp : same_space sp sp.
Proof. repeat split. auto. Qed.
Lemma same_space_trans a b c : same_space a b -> same_space b c -> same_space a c.
Proof. intros (A & B & C & D & E) (A' & B' & C' & D' & E'). repeat split; try congruence. auto. Qed.
Lemma same_space_inv d sp sp' : same_space sp sp' -> space_inv d sp -> space_inv d sp'.
Proof. intros (A & B & C & _) [H1 H2 H3]. constructor; rewrite ?B, ?C; auto. intros a Ha. unfold neighbours_of. rewrite A. exact (H3 a Ha). Qed.
Lemma same_space_ok d sp sp' : same_space sp sp' -> space_ok d sp -> space_ok d sp'.
Proof. intros (A & B & C & D & E) [H1 H2 H3 H4 H5]. constructor; rewrite ?A, ?B, ?C; auto. unfold bs_size in *. rewrite D. exact H2. Qed.
Lemma bs_set_ok b idx x : bs_ok b -> bs_ok (bs_set b idx x).
Proof.
  unfold bs_ok, bs_set. intros H. generalize (idx / BLOCK) as n. induction H as [|k b Hk Hb IH]; intros n; [destruct n; constructor|].
  destruct n as [|n]; cbn [upd nth]; constructor; auto. rewrite upd_length. exact Hk.
Qed.
Lemma mark_visit_same sp a : same_space sp (mark_visit sp a).
Proof.
  unfold mark_visit. destruct (_ || _); [|apply same_space_refl]. unfold mark, set_promising. repeat split; cbn [ss_promising].
  - unfold bs_set. apply upd_length.
  - apply bs_set_ok.
Qed.
Lemma mark_node_same sp nodes pos : same_space sp (mark_node sp nodes pos).
Proof.
  unfold mark_node. cbv zeta. eapply same_space_trans; [apply mark_visit_same|].
  destruct (pos =? 0); [|eapply same_space_trans; [apply mark_visit_same|]];
    destruct (pos =? length nodes - 1); try apply same_space_refl; apply mark_visit_same.
Qed.
Lemma order_in d a : In a (activity_order d) -> visit_known d a /\ (a_isClient a = true \/ a_isPickup a = true).
Proof.
  unfold activity_order. rewrite in_app_iff, !in_map_iff. intros [(i & <- & H)|(i & <- & H)]; apply in_seq in H; (split; [split; [reflexivity|cbn; lia]|cbn; auto]).
Qed.
Lemma node_known d a : has_node d a = true <-> visit_known d a.
Proof.
  destruct a as [i|i|i|i]; unfold visit_known; cbn [has_node a_isDepot known]; rewrite ?Nat.ltb_lt; split; intros H; try discriminate; try (destruct H; congruence); try (split; [reflexivity|exact H]); apply H.
Qed.
Lemma veh_order_in vs : forall t0 off t o, In (t, o) (veh_order vs t0 off) ->
  exists k, t = t0 + k /\ k < length vs /\ o = off + fold_right Nat.add 0 (map v_numAvailable (firstn k vs)).
Proof.
  induction vs as [|v vs IH]; intros t0 off t o H; cbn [veh_order] in H; [destruct H|]. destruct H as [H|H].
  - injection H as <- <-. exists 0. cbn. lia.
  - destruct (IH _ _ _ _ H) as (k & -> & Hk & ->). exists (S k). cbn [firstn map fold_right length]. lia.
Qed.
Lemma offset_sum d k : k <= p_numVehicleTypes d -> offset (avail d) k = fold_right Nat.add 0 (map v_numAvailable (firstn k (p_vehicles d))).
Proof.
  unfold p_numVehicleTypes. induction k as [|k IH]; intros H; [reflexivity|]. cbn [offset]. rewrite IH by lia.
  unfold avail, p_vehicle. assert (E : forall (l : list vehicle) n, n < length l -> firstn (S n) l = firstn n l ++ [nth n l dummy_vehicle]).
  { induction l as [|x l IHl]; intros n Hn; cbn [length] in Hn; [lia|]. destruct n; [reflexivity|]. cbn [firstn app nth]. f_equal. apply IHl. lia. }
  rewrite E by lia. rewrite map_app, fold_right_app. cbn [map fold_right]. rewrite Nat.add_0_r.
  generalize (map v_numAvailable (firstn k (p_vehicles d))). intros l. induction l as [|x l IHl]; cbn; lia.
Qed.
Lemma veh_slots d t o : In (t, o) (veh_order (p_vehicles d) 0 0) -> t < p_numVehicleTypes d /\ o = offset (avail d) t.
Proof.
  intros H. destruct (veh_order_in _ _ _ _ _ H) as (k & -> & Hk & ->). cbn [Nat.add]. split; [exact Hk|]. symmetry. apply offset_sum. unfold p_numVehicleTypes. lia.
Qed.
Lemma first_empty_range s : forall count from r, first_empty s from count = Some r -> from <= r < from + count /\ isEmpty s r = true.
Proof.
  induction count as [|c IH]; intros from r H; cbn [first_empty] in H; [discriminate|]. destruct (isEmpty s from) eqn:E.
  - injection H as <-. split; [lia|exact E].
  - destruct (IH _ _ H). split; [lia|assumption].
Qed.
Lemma fleet_length d : length (fleet_vehicles d) = offset (avail d) (p_numVehicleTypes d).
Proof. unfold fleet_vehicles. rewrite map_length. apply fleet_len. Qed.
Lemma empty_slot d s t o r : In (t, o) (veh_order (p_vehicles d) 0 0) -> first_empty s o (avail d t) = Some r -> r < length (fleet_vehicles d).
Proof.
  intros H F. destruct (veh_slots d t o H) as [Ht ->]. destruct (first_empty_range _ _ _ _ F) as [B _]. rewrite fleet_length.
  replace r with (offset (avail d) t + (r - offset (avail d) t)) by lia. apply offset_lt; lia.
Qed.

(** ** The search *)
Section Search.
Variable d : pdata.
Variable h : Z.
Variable ev : evaluator.
Hypothesis St : setting d h ev.
Variable uops : list unary.
Variable bops : list binary.
Hypothesis Ops : Forall op_ok bops.

Record ls_inv (st : lstate) : Prop := mk_ls_inv {
  li_sync : l_sol st = sync d (l_plan st);
  li_ok : plan_ok d (l_plan st);
  li_str : structured d (l_plan st);
  li_rcs : Forall2 (fun o rc => rc_ok d ev o (l_plan st) rc) bops (l_rcs st);
  li_space : space_inv d (l_space st) }.

(** Cheaper, or as expensive with fewer reload depots. *)
Definition lower (q p : plan) : Prop :=
  (plan_cost d ev q < plan_cost d ev p)%Z \/ (plan_cost d ev q = plan_cost d ev p /\ depots_in q < depots_in p).
Lemma lower_trans a b c : lower a b -> lower b c -> lower a c.
Proof. unfold lower. intros [H|[H H']] [G|[G G']]; [left; lia|left; lia|left; lia|right; split; [congruence|lia]]. Qed.
Definition prog (st st' : lstate) : Prop :=
  same_space (l_space st) (l_space st') /\ ((l_plan st' = l_plan st /\ l_done st' = l_done st) \/ (lower (l_plan st') (l_plan st) /\ l_done st' = false)).
Lemma prog_refl st : prog st st.
Proof. split; [apply same_space_refl|]. left. auto. Qed.
Lemma prog_trans a b c : prog a b -> prog b c -> prog a c.
Proof.
  intros [S H] [S' H']. split; [eapply same_space_trans; eassumption|]. destruct H as [[E F]|[L F]], H' as [[E' F']|[L' F']].
  - left. split; congruence.
  - right. rewrite <- E. auto.
  - right. rewrite E'. split; [exact L|congruence].
  - right. split; [eapply lower_trans; eassumption|exact F'].
Qed.

(** A move: the new plan [p'] differs in the routes that are then updated. *)
Lemma move_step st sp p' delta rU rV : ls_inv st -> same_space (l_space st) sp -> done d ev (l_plan st) p' delta -> structured d p' ->
  touched (l_plan st) p' (upd_list rU rV) -> (forall r, In r (upd_list rU rV) -> r < length (l_plan st)) ->
  ((delta < 0)%Z \/ (delta = 0%Z /\ depots_in p' < depots_in (l_plan st))) ->
  let st' := ls_update d (with_plan (with_space st sp) p') rU rV in
  ls_inv st' /\ prog st st' /\ lower (l_plan st') (l_plan st) /\ l_num st' = (l_num st + 1)%Z.
Proof.
  intros [Sy P Sr Rc Sp] SS [P' C] Sr' T B D st'.
  assert (B' : forall r, In r (upd_list rU rV) -> r < length p') by (intros r Hr; destruct T as [L _]; rewrite L; apply B, Hr).
  destruct (ls_update_spec d (with_plan (with_space st sp) p') rU rV) as (U1 & U2 & U3 & U4 & U5 & U6 & U7 & U8).
  { unfold with_plan. cbn [l_sol with_sol with_space]. rewrite Sy. apply stale_touched, T. }
  { exact B'. }
  fold st' in U1, U2, U3, U4, U5, U6, U7, U8. unfold with_plan, with_sol, with_space, l_plan at 2 in U1. cbn [l_sol l_rcs l_space sp_mids l_num] in *.
  destruct (tidy_all d ev (upd_list rU rV) p' P' B') as (P2 & T2 & C2 & D2 & X2). cbv zeta in *. rewrite <- U1 in *.
  assert (Lo : lower (l_plan st') (l_plan st)) by (unfold lower; rewrite C2, C; destruct D as [D|[D D']]; [left; lia|right; split; lia]).
  assert (X : touched (l_plan st) (l_plan st') (upd_list rU rV)) by (eapply touched_trans; eassumption).
  split; [constructor|split; [split|split]].
  - exact U2.
  - exact P2.
  - eapply same_structured; eassumption.
  - rewrite U3. change (l_rcs (with_plan (with_space st sp) p')) with (l_rcs st). clearbody st'. clear Ops. revert Rc. generalize (l_rcs st). intros rcs Rc.
    induction Rc as [|o rc os rcs H _ IH]; cbn [map]; [constructor|]. constructor; [|exact IH]. apply (forget_ok d ev o (l_plan st)); assumption.
  - rewrite U4. exact (same_space_inv d _ _ SS Sp).
  - rewrite U4. exact SS.
  - right. split; [exact Lo|exact U8].
  - exact Lo.
  - exact U7.
Qed.

Lemma prog_space st sp : same_space (l_space st) sp -> ls_inv st -> ls_inv (with_space st sp) /\ prog st (with_space st sp).
Proof.
  intros SS [Sy P Sr Rc Sp]. split; [constructor; auto|split; [exact SS|left; split; reflexivity]]. exact (same_space_inv d _ _ SS Sp).
Qed.

(** *** Unary operators *)
Lemma try_unary_some s ops u o m : try_unary d ev s ops u = Some (o, m) -> In o ops /\ exists delta, eval_unary d ev o s u = (delta, true, m).
Proof.
  induction ops as [|o' ops IH]; cbn [try_unary]; [discriminate|]. destruct (eval_unary d ev o' s u) as [[delta ap] m'] eqn:E.
  destruct ap; [|intros H; destruct (IH H); split; [right|]; assumption]. intros H. injection H as <- <-. split; [left; reflexivity|eauto].
Qed.
Lemma home_homes p u : homes p u = match home p u with Some r => [r] | None => [] end.
Proof. unfold homes, home. destruct (find_act u p) as [[r pos]|]; reflexivity. Qed.
Lemma home_lt p u r : home p u = Some r -> r < length p.
Proof. unfold home. destruct (find_act u p) as [[r' pos]|] eqn:F; [|discriminate]. intros [= <-]. destruct (find_act_spec _ _ _ _ F) as (A & B & _ & _ & H). exact H. Qed.
Lemma home_tot p u : home p u = None <-> tot p u = 0.
Proof. rewrite <- find_act_none. unfold home. destruct (find_act u p) as [[r pos]|]; cbn; split; congruence. Qed.
Lemma mark_act_same p a sp : same_space sp (mark_act d p a sp).
Proof. unfold mark_act. destruct (find_act a p) as [[r pos]|]; [apply mark_node_same|apply same_space_refl]. Qed.

Definition moved (st st' : lstate) : Prop :=
  ls_inv st' /\ prog st st' /\ ((l_plan st' = l_plan st /\ l_num st' = l_num st) \/ (lower (l_plan st') (l_plan st) /\ l_num st' = (l_num st + 1)%Z)).

Theorem unary_step st u : ls_inv st -> visit_known d u -> moved st (apply_unary_ops d ev uops st u).
Proof.
  intros I [Hu K]. unfold apply_unary_ops. destruct (try_unary d ev (l_sol st) uops u) as [[o m]|] eqn:T.
  2: { split; [exact I|]. split; [apply prog_refl|left; auto]. }
  apply try_unary_some in T as [_ [delta E]]. rewrite (li_sync st I) in E.
  destruct (unary_ok d h ev St o (l_plan st) u delta m (li_ok st I) K Hu E) as (Ef & Dn & Dl).
  destruct (unary_touched d o (l_plan st) u _ (li_ok st I) (dn_ok _ _ _ _ _ Dn) Hu Ef) as [T1 T2].
  pose proof (unary_structured d h ev St o _ u _ (li_ok st I) (dn_ok _ _ _ _ _ Dn) K Ef (li_str st I)) as Sr.
  assert (Dl' : (delta < 0)%Z \/ (delta = 0%Z /\ depots_in (apply_unary o m (l_plan st) u) < depots_in (l_plan st))).
  { destruct Dl as [|[Z ->]]; [left; assumption|right; split; [exact Z|]]. cbn [unary_effect] in Ef. pose proof (adjacent_depots _ _ _ Ef). lia. }
  destruct (home (l_plan st) u) as [r|] eqn:Hh.
  - assert (Hp : 1 <= tot (l_plan st) u). { destruct (Nat.eq_dec (tot (l_plan st) u) 0) as [Z|]; [|lia]. apply home_tot in Z. congruence. }
    specialize (T1 Hp). rewrite home_homes, Hh in T1.
    assert (UL : upd_list (Some r) r = [r]) by (unfold upd_list; rewrite Nat.eqb_refl; reflexivity).
    destruct (move_step st (mark_act d (l_plan st) u (l_space st)) _ delta (Some r) r I (mark_act_same _ _ _) Dn Sr) as (M1 & M2 & M3 & M4);
      rewrite ?UL; try assumption.
    { intros r' [<-|[]]. apply (home_lt _ _ _ Hh). }
    split; [exact M1|]. split; [exact M2|]. right. split; [exact M3|exact M4].
  - apply home_tot in Hh. destruct (T2 Hh) as [T3 T4].
    change (l_plan (with_plan st (apply_unary o m (l_plan st) u))) with (apply_unary o m (l_plan st) u).
    destruct (home (apply_unary o m (l_plan st) u) u) as [r|] eqn:Hr; [|apply home_tot in Hr; lia].
    rewrite home_homes, Hr in T3.
    assert (UL : upd_list (Some r) r = [r]) by (unfold upd_list; rewrite Nat.eqb_refl; reflexivity).
    destruct (move_step st (mark_act d (apply_unary o m (l_plan st) u) u (l_space st)) _ delta (Some r) r I (mark_act_same _ _ _) Dn Sr) as (M1 & M2 & M3 & M4);
      rewrite ?UL; try assumption.
    { intros r' [<-|[]]. destruct T3 as [L _]. rewrite <- L. apply (home_lt _ _ _ Hr). }
    split; [exact M1|]. split; [exact M2|]. right. split; [exact M3|exact M4].
Qed.

(** *** Binary operators *)
Lemma try_binary_spec p u v : plan_ok d p -> a_isDepot u = false -> forall ops rcs, Forall op_ok ops ->
  Forall2 (fun o rc => rc_ok d ev o p rc) ops rcs ->
  let '(found, rcs') := try_binary d ev (sync d p) ops rcs u v in
  Forall2 (fun o rc => rc_ok d ev o p rc) ops rcs' /\
  match found with
  | None => True
  | Some (o, m) => exists delta rc rc', op_ok o /\ rc_ok d ev o p rc /\ eval_binary d ev o (sync d p) rc u v = ((delta, true, m), rc')
  end.
Proof.
  intros P Hu ops rcs Ho H. revert Ho. induction H as [|o rc ops rcs R H IH]; intros Ho; cbn [try_binary]; [split; [constructor|exact I]|].
  inversion Ho as [|? ? Ho1 Ho2]; subst.
  destruct (eval_binary d ev o (sync d p) rc u v) as [[[delta ap] m] rc'] eqn:E.
  pose proof (eval_keeps_costs d ev o p rc u v _ rc' P Hu R E) as R'. destruct ap.
  - split; [constructor; assumption|]. exists delta, rc, rc'. auto.
  - specialize (IH Ho2). destruct (try_binary d ev (sync d p) ops rcs u v) as [found rcs']. destruct IH as [IH1 IH2]. split; [constructor; assumption|exact IH2].
Qed.
Lemma upd_list_in rU rV r : In r (upd_list rU rV) <-> In r (match rU with Some r => [r] | None => [] end ++ [rV]).
Proof. unfold upd_list. destruct rU as [r'|]; [|reflexivity]. destruct (Nat.eqb_spec r' rV) as [->|]; cbn; tauto. Qed.
Lemma touched_in p p' rs rs' : (forall r, In r rs -> In r rs') -> touched p p' rs -> touched p p' rs'.
Proof. intros H [L T]. split; [exact L|]. intros r Hr. apply T. intros X. apply Hr, H, X. Qed.

Theorem binary_step st u v : ls_inv st -> visit_known d u -> vref_ok (l_plan st) v -> v <> VAct u ->
  let '(applied, st') := apply_binary_ops d ev bops st u v in
  moved st st' /\ (applied = true -> lower (l_plan st') (l_plan st) /\ l_num st' = (l_num st + 1)%Z) /\
  (applied = false -> l_plan st' = l_plan st /\ l_num st' = l_num st /\ l_done st' = l_done st).
Proof.
  intros I [Hu K] Hv Hne. unfold apply_binary_ops. rewrite (li_sync st I).
  pose proof (try_binary_spec (l_plan st) u v (li_ok st I) Hu bops (l_rcs st) Ops (li_rcs st I)) as Sp.
  destruct (try_binary d ev (sync d (l_plan st)) bops (l_rcs st) u v) as [found rcs]. destruct Sp as [Rc Sp].
  assert (I' : ls_inv (with_rcs st rcs)). { destruct I as [Sy P Sr _ Sc]. constructor; assumption. }
  assert (Same : moved st (with_rcs st rcs)).
  { split; [exact I'|]. split; [split; [apply same_space_refl|left; split; reflexivity]|left; split; reflexivity]. }
  destruct found as [[o m]|]; [|split; [exact Same|split; [discriminate|intros _; auto]]].
  destruct Sp as (delta & rc & rc' & Ho & Hrc & E).
  change (l_plan (with_rcs st rcs)) with (l_plan st).
  destruct (locate (l_plan st) v) as [[rV pV]|] eqn:L; [|split; [exact Same|split; [discriminate|intros _; auto]]].
  destruct (binary_ok d h ev St o (l_plan st) rc u v delta m rc' (li_ok st I) Ho K Hu Hv Hne (sr_once d _ (li_str st I)) Hrc E) as (Ef & Dn & Dl).
  pose proof (binary_touched d o (l_plan st) u v _ rV pV (li_ok st I) Hu Hv L Ef) as T. rewrite home_homes in T.
  pose proof (binary_structured d h ev St o _ u v _ (li_ok st I) (dn_ok _ _ _ _ _ Dn) K Ef (li_str st I)) as Sr.
  set (sp := l_space (mark_ref d (mark_in d (with_rcs st rcs) u) v)).
  assert (SS : same_space (l_space (with_rcs st rcs)) sp).
  { unfold sp, mark_ref, mark_in. cbn [l_space with_space l_plan l_sol]. change (sp_mids (l_sol (with_rcs st rcs))) with (l_plan st).
    eapply same_space_trans; [apply mark_act_same|]. change (l_plan (with_space (with_rcs st rcs) (mark_act d (l_plan (with_rcs st rcs)) u (l_space (with_rcs st rcs))))) with (l_plan st). rewrite L. apply mark_node_same. }
  destruct (move_step (with_rcs st rcs) sp (apply_binary o m (l_plan st) u v) delta (home (l_plan st) u) rV I' SS Dn Sr) as (M1 & M2 & M3 & M4).
  { eapply touched_in; [|exact T]. intros r Hr. apply upd_list_in, Hr. }
  { intros r Hr. apply upd_list_in in Hr. apply in_app_iff in Hr as [Hr|[<-|[]]].
    - destruct (home (l_plan st) u) eqn:Hh; [|destruct Hr]. destruct Hr as [<-|[]]. apply (home_lt _ _ _ Hh).
    - destruct (locate_split _ _ _ _ Hv L) as (C & D & _ & _ & _ & B). exact B. }
  { left. exact Dl. }
  assert (X : with_plan (mark_ref d (mark_in d (with_rcs st rcs) u) v) (apply_binary o m (l_plan (mark_ref d (mark_in d (with_rcs st rcs) u) v)) u v)
            = with_plan (with_space (with_rcs st rcs) sp) (apply_binary o m (l_plan st) u v)).
  { unfold sp, mark_ref. change (l_plan (mark_in d (with_rcs st rcs) u)) with (l_plan st). rewrite L. reflexivity. }
  rewrite X. split; [split; [exact M1|split; [exact M2|right; split; [exact M3|exact M4]]]|]. split; [intros _; split; [exact M3|exact M4]|discriminate].
Qed.

Lemma moved_refl st : ls_inv st -> moved st st.
Proof. intros I. split; [exact I|]. split; [apply prog_refl|left; auto]. Qed.
Definition kept (st st' : lstate) : Prop := ls_inv st' /\ prog st st'.
Lemma moved_kept st st' : moved st st' -> kept st st'.
Proof. intros (A & B & _). split; assumption. Qed.
Lemma kept_trans a b c : kept a b -> kept b c -> kept a c.
Proof. intros [_ A] [I B]. split; [exact I|eapply prog_trans; eassumption]. Qed.
Lemma kept_refl st : ls_inv st -> kept st st.
Proof. intros I. split; [exact I|apply prog_refl]. Qed.

Lemma empty_step u : visit_known d u -> forall types st, ls_inv st -> (forall t, In t types -> In t (veh_order (p_vehicles d) 0 0)) ->
  kept st (empty_moves d ev bops st u types).
Proof.
  intros K. induction types as [|[t o] types IH]; intros st I Ht; cbn [empty_moves]; [apply kept_refl, I|].
  destruct (first_empty (l_sol st) o (avail d t)) as [r|] eqn:F; [|apply IH; [exact I|intros x Hx; apply Ht; right; exact Hx]].
  pose proof (empty_slot d _ _ _ _ (Ht _ (or_introl eq_refl)) F) as Hr. rewrite <- (pk_len d _ (li_ok st I)) in Hr.
  pose proof (binary_step st u (VStart r) I K Hr ltac:(discriminate)) as B. destruct (apply_binary_ops d ev bops st u (VStart r)) as [ap st'].
  destruct B as [B _]. apply moved_kept in B. destruct ap; [exact B|]. eapply kept_trans; [exact B|]. apply IH; [apply B|]. intros x Hx; apply Ht; right; exact Hx.
Qed.

Lemma neighbour_step lt u v st : visit_known d u -> visit_known d v -> v <> u -> ls_inv st ->
  exists st', test_neighbour d ev bops lt u st v = Some st' /\ kept st st'.
Proof.
  intros K Kv Hne I. unfold test_neighbour. rewrite (proj2 (node_known d v) Kv).
  destruct (find_act v (l_plan st)) as [[rv pv]|] eqn:F; [|exists st; split; [reflexivity|apply kept_refl, I]].
  destruct (_ || _); [|exists st; split; [reflexivity|apply kept_refl, I]].
  pose proof (binary_step st u (VAct v) I K (proj1 Kv) ltac:(congruence)) as B. destruct (apply_binary_ops d ev bops st u (VAct v)) as [ap st1].
  destruct B as (B & _ & B2). apply moved_kept in B. destruct ap; cbn [negb andb].
  - exists st1. auto.
  - destruct (pv =? 1); [|exists st1; auto]. eexists. split; [reflexivity|].
    destruct (B2 eq_refl) as [E _]. destruct (find_act_spec _ _ _ _ F) as (A' & B' & _ & _ & Hr). rewrite <- E in Hr.
    pose proof (binary_step st1 u (VStart rv) (proj1 B) K Hr ltac:(discriminate)) as C. destruct (apply_binary_ops d ev bops st1 u (VStart rv)) as [ap st2].
    destruct C as [C _]. apply moved_kept in C. eapply kept_trans; eassumption.
Qed.
Lemma neighbours_step lt u vs : visit_known d u -> (forall v, In v vs -> visit_known d v) -> ~ In u vs -> forall st, ls_inv st ->
  exists st', test_neighbours d ev bops lt u st vs = Some st' /\ kept st st'.
Proof.
  intros K. induction vs as [|v vs IH]; intros Kv Hn st I; cbn [test_neighbours]; [exists st; split; [reflexivity|apply kept_refl, I]|].
  destruct (neighbour_step lt u v st K) as (st1 & -> & B1); [apply Kv; left; reflexivity|intros ->; apply Hn; left; reflexivity|exact I|].
  destruct (IH (fun x Hx => Kv x (or_intror Hx)) (fun X => Hn (or_intror X)) st1 (proj1 B1)) as (st2 & -> & B2).
  exists st2. split; [reflexivity|]. eapply kept_trans; eassumption.
Qed.
Lemma with_test_kept st l : ls_inv st -> kept st (with_test st l).
Proof. intros [A B C D E]. split; [constructor; assumption|]. split; [apply same_space_refl|left; split; reflexivity]. Qed.

Theorem visit_step st u : ls_inv st -> In u (activity_order d) -> exists st', visit_act d ev uops bops st u = Some st' /\ kept st st'.
Proof.
  intros I Hu. unfold visit_act. destruct (is_promising (l_space st) u); [|exists st; split; [reflexivity|apply kept_refl, I]].
  pose proof (proj1 (order_in d u Hu)) as K.
  set (st0 := with_test st _). assert (B0 : kept st st0) by apply with_test_kept, I.
  pose proof (moved_kept _ _ (unary_step st0 u (proj1 B0) K)) as B1. set (st1 := apply_unary_ops d ev uops st0 u) in *.
  destruct (si_nb d _ (li_space _ (proj1 B1)) u Hu) as (vs & -> & Hn & Kv).
  destruct (neighbours_step (nth (test_index d u) (l_test st) 0%Z) u vs K Kv Hn st1 (proj1 B1)) as (st2 & -> & B2).
  eexists. split; [reflexivity|]. eapply kept_trans; [exact B0|]. eapply kept_trans; [exact B1|]. eapply kept_trans; [exact B2|].
  apply empty_step; [exact K|apply B2|]. intros t Ht. eapply Permutation_in; [symmetry; apply (si_veh d _ (li_space _ (proj1 B2)))|exact Ht].
Qed.
Theorem visits_step us : (forall u, In u us -> In u (activity_order d)) -> forall st, ls_inv st ->
  exists st', visit_all d ev uops bops st us = Some st' /\ kept st st'.
Proof.
  induction us as [|u us IH]; intros Hu st I; cbn [visit_all]; [exists st; split; [reflexivity|apply kept_refl, I]|].
  destruct (visit_step st u I (Hu u (or_introl eq_refl))) as (st1 & -> & B1).
  destruct (IH (fun x Hx => Hu x (or_intror Hx)) st1 (proj1 B1)) as (st2 & -> & B2). exists st2. split; [reflexivity|]. eapply kept_trans; eassumption.
Qed.
End Search.
