(** What ensureStructuralFeasibility does. *)
From Coq Require Import Permutation.
From Verif Require Import Base DurationSegment Data LoadSegment SearchRoute RouteDur Valid Route RouteSpec
  RouteFacts2 Cost CostFacts DataCtor SearchSpace SearchNodes SearchSeq SearchLoad Ops PlanFacts ShipState OpsBase OpsGen OpsRelocate OpsOne OpsEdit OpsEdit2 OpsAll LocalSearch LocalFacts LocalInsert.
Local Open Scope nat_scope.

(** ** Members of a group in the plan *)
Definition members (d : pdata) (p : plan) (g : nat) : nat := length (filter (fun i => isPlanned p (AClient i)) (g_clients (p_group d g))).
Definition nodup_groups (d : pdata) : Prop := forall g, g < p_numGroups d -> NoDup (g_clients (p_group d g)).

Lemma group_counts_nth d p g : g < p_numGroups d -> nth g (group_counts d p) 0 = members d p g.
Proof.
  intros H. unfold group_counts, members, p_group. 
  match goal with |- nth g (map ?f _) 0 = _ => rewrite (nth_indep _ 0 (f dummy_group)) by (rewrite map_length; exact H); rewrite (map_nth f) end. reflexivity.
Qed.
Lemma planned_tot p a : isPlanned p a = true <-> 1 <= tot p a.
Proof. rewrite isPlanned_tot. apply Nat.leb_le. Qed.
Lemma unplanned_tot p a : isPlanned p a = false <-> tot p a = 0.
Proof. rewrite isPlanned_tot. rewrite Nat.leb_gt. lia. Qed.
Lemma members_pos d p g : 0 < members d p g <-> exists i, In i (g_clients (p_group d g)) /\ 1 <= tot p (AClient i).
Proof.
  unfold members. split.
  - intros H. destruct (filter _ _) as [|i l] eqn:E; [cbn in H; lia|]. exists i. assert (X : In i (i :: l)) by (left; reflexivity). rewrite <- E in X. apply filter_In in X as [X1 X2]. split; [exact X1|apply planned_tot, X2].
  - intros (i & Hi & Hp). assert (X : In i (filter (fun i => isPlanned p (AClient i)) (g_clients (p_group d g)))) by (apply filter_In; split; [exact Hi|apply planned_tot, Hp]).
    destruct (filter _ _); [destruct X|cbn; lia].
Qed.
Lemma two_members {A} (f : A -> bool) l i j : In i l -> In j l -> i <> j -> f i = true -> f j = true -> 2 <= length (filter f l).
Proof.
  intros Hi Hj N Fi Fj. assert (X : In i (filter f l)) by (apply filter_In; auto). assert (Y : In j (filter f l)) by (apply filter_In; auto).
  destruct (filter f l) as [|a [|b m]]; [destruct X| |cbn; lia]. destruct X as [->|[]], Y as [->|[]]. congruence.
Qed.
Lemma members_once d p g : g < p_numGroups d -> NoDup (g_clients (p_group d g)) ->
  (forall i j, In i (g_clients (p_group d g)) -> In j (g_clients (p_group d g)) -> 1 <= tot p (AClient i) -> 1 <= tot p (AClient j) -> i = j) -> members d p g <= 1.
Proof.
  intros Hg ND H. unfold members. destruct (filter _ _) as [|i [|j l]] eqn:E; [cbn; lia|cbn; lia|]. exfalso.
  assert (N : NoDup (i :: j :: l)) by (rewrite <- E; apply NoDup_filter, ND).
  assert (Xi : In i (i :: j :: l)) by (left; reflexivity). assert (Xj : In j (i :: j :: l)) by (right; left; reflexivity).
  rewrite <- E in Xi, Xj. apply filter_In in Xi as [X1 X2]. apply filter_In in Xj as [Y1 Y2].
  rewrite (H i j X1 Y1) in N by (apply planned_tot; assumption). inversion N as [|? ? Z _]. apply Z. left. reflexivity.
Qed.
Lemma members_same d p q g : (forall i, In i (g_clients (p_group d g)) -> tot q (AClient i) = tot p (AClient i)) -> members d q g = members d p g.
Proof. intros H. unfold members. f_equal. apply filter_ext_in. intros i Hi. rewrite !isPlanned_tot, H by exact Hi. reflexivity. Qed.
Lemma filter_one {A} (f g : A -> bool) l i : NoDup l -> In i l -> f i = false -> g i = true -> (forall j, j <> i -> f j = g j) -> length (filter g l) = length (filter f l) + 1.
Proof.
  intros ND Hi Fi Gi E. induction ND as [|a l Ha ND IH]; [destruct Hi|]. cbn [filter]. destruct Hi as [->|Hi].
  - rewrite Fi, Gi. cbn [length]. rewrite (filter_ext_in g f); [lia|]. intros j Hj. symmetry. apply E. intros ->. apply Ha, Hj.
  - assert (a <> i) by (intros ->; apply Ha, Hi). rewrite (E a) by assumption. destruct (g a); cbn [length]; rewrite IH by exact Hi; reflexivity.
Qed.
Lemma members_in d p q g i : NoDup (g_clients (p_group d g)) -> In i (g_clients (p_group d g)) -> tot p (AClient i) = 0 -> 1 <= tot q (AClient i) ->
  (forall j, j <> i -> tot q (AClient j) = tot p (AClient j)) -> members d q g = members d p g + 1.
Proof.
  intros ND Hi H0 H1 E. apply (filter_one _ _ _ i ND Hi); [apply unplanned_tot, H0|apply planned_tot, H1|].
  intros j Hj. rewrite !isPlanned_tot, E by exact Hj. reflexivity.
Qed.
Lemma counts_upd d p q g n : g < p_numGroups d -> members d q g = n -> (forall g', g' < p_numGroups d -> g' <> g -> members d q g' = members d p g') ->
  upd (group_counts d p) g n = group_counts d q.
Proof.
  intros Hg E O. assert (L : length (group_counts d p) = p_numGroups d) by (unfold group_counts; apply map_length).
  assert (L' : length (group_counts d q) = p_numGroups d) by (unfold group_counts; apply map_length).
  apply nth_ext with (d := 0) (d' := 0); [rewrite upd_length, L, L'; reflexivity|]. intros k Hk. rewrite upd_length, L in Hk. rewrite (group_counts_nth d q k Hk).
  destruct (Nat.eq_dec k g) as [->|N]; [rewrite nth_upd_same by (rewrite L; exact Hg); symmetry; exact E|].
  rewrite nth_upd_other by congruence. rewrite group_counts_nth by exact Hk. symmetry. apply O; assumption.
Qed.
Lemma counts_same d p q : (forall g, g < p_numGroups d -> members d q g = members d p g) -> group_counts d p = group_counts d q.
Proof.
  intros O. assert (L : length (group_counts d p) = p_numGroups d) by (unfold group_counts; apply map_length).
  assert (L' : length (group_counts d q) = p_numGroups d) by (unfold group_counts; apply map_length).
  apply nth_ext with (d := 0) (d' := 0); [rewrite L, L'; reflexivity|]. intros k Hk. rewrite L in Hk. rewrite !group_counts_nth by exact Hk. symmetry. apply O, Hk.
Qed.

Section Ensure.
Variable d : pdata.
Variable h : Z.
Variable ev : evaluator.
Hypothesis St : setting d h ev.
Variable bops : list binary.

(** The state of the search, for any plan. *)
Record pre_inv (st : lstate) : Prop := mk_pre_inv {
  pi_sync : l_sol st = sync d (l_plan st);
  pi_ok : plan_ok d (l_plan st);
  pi_rcs : Forall2 (fun o rc => rc_ok d ev o (l_plan st) rc) bops (l_rcs st);
  pi_space : space_inv d (l_space st) }.
Lemma pre_ls st : ls_inv d ev bops st <-> pre_inv st /\ structured d (l_plan st).
Proof. split; [intros [A B C D E]; split; [constructor; assumption|assumption]|intros [[A B C D] E]; constructor; assumption]. Qed.

(** Changing the plan of one route. *)
Lemma edit_step st sp p' r : pre_inv st -> same_space (l_space st) sp -> plan_ok d p' -> touched (l_plan st) p' [r] -> r < length (l_plan st) ->
  let st' := ls_update d (with_plan (with_space st sp) p') (Some r) r in
  pre_inv st' /\ (forall a, a_isDepot a = false -> tot (l_plan st') a = tot p' a) /\ plan_cost d ev (l_plan st') = plan_cost d ev p' /\ l_space st' = sp /\ l_plan st' = tidy p' r.
Proof.
  intros [Sy P Rc Sp] SS P' T B st'.
  assert (UL : upd_list (Some r) r = [r]) by (cbn; rewrite Nat.eqb_refl; reflexivity).
  assert (B' : forall x, In x (upd_list (Some r) r) -> x < length p') by (rewrite UL; intros x [<-|[]]; destruct T as [L _]; rewrite L; exact B).
  destruct (ls_update_spec d (with_plan (with_space st sp) p') (Some r) r) as (U1 & U2 & U3 & U4 & U5 & U6 & U7 & U8).
  { unfold with_plan. cbn [l_sol with_sol with_space]. rewrite Sy. rewrite UL. apply stale_touched, T. }
  { exact B'. }
  fold st' in U1, U2, U3, U4, U5, U6, U7, U8. unfold with_plan, with_sol, with_space, l_plan at 2 in U1. cbn [l_sol l_rcs l_space sp_mids l_num] in *.
  destruct (tidy_all d ev (upd_list (Some r) r) p' P' B') as (P2 & T2 & C2 & D2 & X2). cbv zeta in *. rewrite <- U1 in *.
  assert (X : touched (l_plan st) (l_plan st') (upd_list (Some r) r)) by (eapply touched_trans; [rewrite UL; exact T|exact X2]).
  split; [constructor|split; [exact T2|split; [exact C2|split; [exact U4|rewrite U1, UL; reflexivity]]]].
  - exact U2.
  - exact P2.
  - rewrite U3. change (l_rcs (with_plan (with_space st sp) p')) with (l_rcs st). clearbody st'. revert Rc. generalize (l_rcs st). intros rcs Rc. clear St.
    induction Rc as [|o rc os rcs H _ IH]; cbn [map]; [constructor|]. constructor; [|exact IH]. apply (forget_ok d ev o (l_plan st)); assumption.
  - rewrite U4. exact (same_space_inv d _ _ SS Sp).
Qed.
Lemma pre_space st sp : pre_inv st -> same_space (l_space st) sp -> pre_inv (with_space st sp).
Proof. intros [A B C D] SS. constructor; auto. exact (same_space_inv d _ _ SS D). Qed.
Lemma pre_mark st a : pre_inv st -> pre_inv (mark_in d st a) /\ l_plan (mark_in d st a) = l_plan st /\ same_space (l_space st) (l_space (mark_in d st a)).
Proof. intros I. unfold mark_in. split; [apply pre_space; [exact I|apply mark_act_same]|split; [reflexivity|apply mark_act_same]]. Qed.
Lemma with_same_space st : with_space st (l_space st) = st.
Proof. destruct st; reflexivity. Qed.

(** Same plan up to clearing a route without visits, with one more client or shipment. *)
Definition gained (p q : plan) (x : activity) : Prop :=
  forall a, a_isDepot a = false -> tot q a = tot p a + (match x with APickup i => if a_eqb a (APickup i) then 1 else if a_eqb a (ADelivery i) then 1 else 0 | _ => if a_eqb a x then 1 else 0 end).

Lemma insert_required_step st a : pre_inv st -> In a (activity_order d) -> tot (l_plan st) a = 0 ->
  exists st', insert_required d ev st a = Some st' /\ pre_inv st' /\ gained (l_plan st) (l_plan st') a /\ l_space st' = l_space st.
Proof.
  intros I Ha H0. destruct (si_nb d _ (pi_space st I) a Ha) as (vs & N & _ & K). destruct (order_in d a Ha) as [Ka Ta].
  unfold insert_required. rewrite (pi_sync st I). pose proof (pi_ok st I) as P.
  destruct a as [i|i|i|i]; [destruct Ta; discriminate| | |destruct Ta; discriminate].
  - destruct (insert_client_spec d h ev St (l_plan st) P i (proj2 Ka) H0 (l_space st) vs true (pi_space st I) N K) as (delta & p' & E & Put & Dn & _).
    cbn [orb] in E. rewrite E. inversion Put as [r C D Hr Hm Ep]. subst p'. set (p' := upd (l_plan st) r (C ++ AClient i :: D)) in *.
    assert (T : tot p' (AClient i) = 1).
    { unfold p'. rewrite (tot_in _ r C D) by assumption. rewrite H0, eqb_refl. reflexivity. }
    assert (Hh : home p' (AClient i) = Some r).
    { unfold home. erewrite (find_act_at (AClient i) p' r C D); [reflexivity|unfold p'; rewrite upd_length; exact Hr|unfold p'; apply mid_at_same, Hr|lia|reflexivity]. }
    rewrite Hh. destruct (edit_step st (l_space st) p' r I (same_space_refl _) (dn_ok _ _ _ _ _ Dn)) as (J1 & J2 & J3 & J4 & _); [apply touched_one; left; reflexivity|exact Hr|].
    rewrite with_same_space in J1, J2, J3, J4. eexists. split; [reflexivity|]. split; [exact J1|]. split; [|exact J4].
    intros a Da. rewrite J2 by exact Da. unfold p'. rewrite (tot_in _ r C D) by assumption. reflexivity.
  - destruct (insert_shipment_spec d h ev St (l_plan st) P i (proj2 Ka) H0 (l_space st) vs true (pi_space st I) N K) as (res & E & R1 & R2 & _).
    cbn [a_idx]. rewrite E. destruct res as [p'|]; [|destruct (R1 eq_refl eq_refl)]. destruct (R2 p' eq_refl) as (Put & P' & _ & _).
    inversion Put as [r C M D Hr Hm RM Ep]. subst p'. set (p' := upd (l_plan st) r (C ++ APickup i :: M ++ ADelivery i :: D)) in *.
    assert (T : forall a, tot p' a = tot (l_plan st) a + (if a_eqb a (APickup i) then 1 else 0) + (if a_eqb a (ADelivery i) then 1 else 0)).
    { intros a. pose proof (tot_upd (l_plan st) r (C ++ APickup i :: M ++ ADelivery i :: D) a Hr) as X. fold p' in X. rewrite Hm in X. revert X. rewrite !cnt_app, !cnt_cons, !cnt_app, !cnt_cons. lia. }
    assert (Hh : home p' (APickup i) = Some r).
    { unfold home. erewrite (find_act_at (APickup i) p' r C (M ++ ADelivery i :: D)); [reflexivity|unfold p'; rewrite upd_length; exact Hr|unfold p'; apply mid_at_same, Hr|rewrite T, H0, eqb_refl; cbn; lia|reflexivity]. }
    rewrite Hh. destruct (edit_step st (l_space st) p' r I (same_space_refl _) P') as (J1 & J2 & J3 & J4 & _); [apply touched_one; left; reflexivity|exact Hr|].
    rewrite with_same_space in J1, J2, J3, J4. eexists. split; [reflexivity|]. split; [exact J1|]. split; [|exact J4].
    intros a Da. rewrite J2 by exact Da. rewrite T. destruct (a_eqb a (APickup i)) eqn:E1; [|lia]. apply a_eqb_eq in E1. subst a. cbn. lia.
Qed.

(** ** The pass over all activities *)
Hypothesis ND : nodup_groups d.
Definition handled (p : plan) (a : activity) : Prop :=
  match a with
  | AClient i => (c_required (p_client d i) = true -> 1 <= tot p a) /\
      (forall g, c_group (p_client d i) = Some g -> (g_required (p_group d g) = true -> 1 <= members d p g) /\ (1 <= tot p a -> members d p g <= 1))
  | APickup i => s_required (p_shipment d i) = true -> 1 <= tot p a
  | _ => True
  end.
(** What one step may do to the plan. *)
Inductive ensure_effect (p q : plan) : Prop :=
| E_same : q = p -> ensure_effect p q
| E_client i : i < p_numClients d -> tot p (AClient i) = 0 -> c_required (p_client d i) = true -> gained p q (AClient i) -> ensure_effect p q
| E_group i g : i < p_numClients d -> c_group (p_client d i) = Some g -> g_required (p_group d g) = true -> members d p g = 0 -> gained p q (AClient i) -> ensure_effect p q
| E_remove i g : i < p_numClients d -> c_group (p_client d i) = Some g -> 1 < members d p g -> 1 <= tot p (AClient i) ->
    (forall a, a_isDepot a = false -> tot p a = tot q a + (if a_eqb a (AClient i) then 1 else 0)) -> ensure_effect p q
| E_ship i : i < p_numShipments d -> tot p (APickup i) = 0 -> s_required (p_shipment d i) = true -> gained p q (APickup i) -> ensure_effect p q.

Lemma client_group i g : i < p_numClients d -> c_group (p_client d i) = Some g -> g < p_numGroups d /\ In i (g_clients (p_group d g)) /\ c_required (p_client d i) = false.
Proof. intros Hi Hg. destruct (do_clients d (st_data d h ev St) i Hi) as (_ & _ & _ & H). exact (H g Hg). Qed.
Lemma other_group i g g' : i < p_numClients d -> c_group (p_client d i) = Some g -> g' < p_numGroups d -> g' <> g -> ~ In i (g_clients (p_group d g')).
Proof. intros Hi Hg Hg' N Hin. destruct (do_groups d (st_data d h ev St) g' Hg') as [_ H]. destruct (H i Hin) as [_ X]. congruence. Qed.
Lemma no_group i g' : c_group (p_client d i) = None -> g' < p_numGroups d -> ~ In i (g_clients (p_group d g')).
Proof. intros Hg Hg' Hin. destruct (do_groups d (st_data d h ev St) g' Hg') as [_ H]. destruct (H i Hin) as [_ X]. congruence. Qed.
Lemma required_no_group i : i < p_numClients d -> c_required (p_client d i) = true -> c_group (p_client d i) = None.
Proof. intros Hi R. destruct (c_group (p_client d i)) as [g|] eqn:E; [|reflexivity]. destruct (client_group i g Hi E) as (_ & _ & X). congruence. Qed.
Lemma gained_client p q i j : gained p q (AClient i) -> tot q (AClient j) = tot p (AClient j) + (if j =? i then 1 else 0).
Proof. intros G. rewrite (G (AClient j) eq_refl). rewrite a_eqb_client. reflexivity. Qed.
Lemma gained_ship p q i j : gained p q (APickup i) -> tot q (AClient j) = tot p (AClient j).
Proof. intros G. rewrite (G (AClient j) eq_refl). rewrite !eqb_false by discriminate. lia. Qed.

(** Membership counts after a step. *)
Lemma effect_members p q : plan_ok d p -> ensure_effect p q -> forall g, g < p_numGroups d ->
  members d q g = members d p g \/ (members d p g = 0 /\ members d q g = 1 /\ g_required (p_group d g) = true) \/ (1 < members d p g /\ members d q g + 1 = members d p g).
Proof.
  intros P E g Hg. destruct E as [->|i Hi H0 R G|i g0 Hi Hgi R M0 G|i g0 Hi Hgi M1 H1 L|i Hi H0 R G].
  - left; reflexivity.
  - left. apply members_same. intros j Hj. rewrite (gained_client p q i j G). destruct (Nat.eqb_spec j i) as [->|]; [|lia].
    destruct (no_group i g (required_no_group i Hi R) Hg Hj).
  - destruct (client_group i g0 Hi Hgi) as (Hg0 & Hin & _). destruct (Nat.eq_dec g g0) as [->|N].
    + right; left. split; [exact M0|]. split; [|exact R]. 
      assert (H0 : tot p (AClient i) = 0). { destruct (Nat.eq_0_gt_0_cases (tot p (AClient i))) as [|H]; [assumption|]. assert (0 < members d p g0) by (apply members_pos; exists i; split; [exact Hin|lia]). lia. }
      rewrite (members_in d p q g0 i (ND g0 Hg0) Hin H0); [lia| |]; [rewrite (gained_client p q i i G), Nat.eqb_refl; lia|].
      intros j Hj. rewrite (gained_client p q i j G). destruct (Nat.eqb_spec j i); [congruence|lia].
    + left. apply members_same. intros j Hj. rewrite (gained_client p q i j G). destruct (Nat.eqb_spec j i) as [->|]; [|lia]. destruct (other_group i g0 g Hi Hgi Hg N Hj).
  - destruct (client_group i g0 Hi Hgi) as (Hg0 & Hin & _). destruct (Nat.eq_dec g g0) as [->|N].
    + right; right. split; [exact M1|]. pose proof (pk_once d p P (AClient i) eq_refl) as O. pose proof (L (AClient i) eq_refl) as Li. rewrite eqb_refl in Li.
      rewrite (members_in d q p g0 i (ND g0 Hg0) Hin); [reflexivity|lia|lia|]. intros j Hj. rewrite (L (AClient j) eq_refl). rewrite eqb_false by congruence. lia.
    + left. apply members_same. intros j Hj. rewrite (L (AClient j) eq_refl). rewrite a_eqb_client. destruct (Nat.eqb_spec j i) as [->|]; [|lia]. destruct (other_group i g0 g Hi Hgi Hg N Hj).
  - left. apply members_same. intros j Hj. apply (gained_ship p q i j G).
Qed.
Lemma effect_handled p q a : plan_ok d p -> In a (activity_order d) -> ensure_effect p q -> handled p a -> handled q a.
Proof.
  intros P Ha E. destruct (order_in d a Ha) as [[_ Ka] _]. pose proof (effect_members p q P E) as EM. destruct a as [x|i|i|i]; cbn [handled]; auto.
  - intros [H1 H2]. split.
    + intros R. specialize (H1 R). destruct E as [->|j Hj _ _ G|j g Hj _ _ _ G|j g Hj Hgj _ _ L|j Hj _ _ G]; [exact H1| | | |].
      * rewrite (gained_client p q j i G). lia.
      * rewrite (gained_client p q j i G). lia.
      * pose proof (L (AClient i) eq_refl) as X. rewrite a_eqb_client in X. destruct (Nat.eqb_spec i j) as [->|]; [|lia].
        destruct (client_group j g Hj Hgj) as (_ & _ & Y). congruence.
      * rewrite (gained_ship p q j i G). exact H1.
    + intros g Hg. destruct (client_group i g Ka Hg) as (Lg & Hin & _). destruct (H2 g Hg) as [H3 H4]. destruct (EM g Lg) as [E0|[(M0 & M1 & _)|(M1 & M2)]].
      * rewrite E0. split; [exact H3|]. intros Q. apply H4. destruct E as [->|j Hj _ R G|j g' Hj Hgj _ M0 G|j g' Hj Hgj _ _ L|j Hj _ _ G]; [exact Q| | | |].
        -- rewrite (gained_client p q j i G) in Q. destruct (Nat.eqb_spec i j) as [->|]; [|lia]. rewrite (required_no_group j Hj R) in Hg. discriminate.
        -- rewrite (gained_client p q j i G) in Q. destruct (Nat.eqb_spec i j) as [->|]; [|lia]. assert (g' = g) by congruence. subst g'.
           (* the count would have changed *)
           assert (X : 0 < members d q g) by (apply members_pos; exists j; split; [exact Hin|rewrite (gained_client p q j j G), Nat.eqb_refl; lia]).
           destruct (Nat.eq_0_gt_0_cases (tot p (AClient j))) as [T0|T0]; [|exact T0]. exfalso.
           assert (Y : members d q g = members d p g + 1).
           { apply (members_in d p q g j (ND g Lg) Hin T0); [rewrite (gained_client p q j j G), Nat.eqb_refl; lia|]. intros k Hk. rewrite (gained_client p q j k G). destruct (Nat.eqb_spec k j); [congruence|lia]. }
           lia.
        -- pose proof (L (AClient i) eq_refl). lia.
        -- rewrite (gained_ship p q j i G) in Q. exact Q.
      * split; intros; lia.
      * split; [intros R; specialize (H3 R); lia|]. intros Q. assert (X : 1 <= tot p (AClient i)).
        { destruct E as [->|j Hj _ R G|j g' Hj Hgj _ M0 G|j g' Hj Hgj _ _ L|j Hj _ _ G]; [exact Q| | | |].
          - rewrite (gained_client p q j i G) in Q. destruct (Nat.eqb_spec i j) as [->|]; [|lia]. rewrite (required_no_group j Hj R) in Hg. discriminate.
          - rewrite (gained_client p q j i G) in Q. destruct (Nat.eqb_spec i j) as [->|]; [|lia]. assert (g' = g) by congruence. subst g'. lia.
          - pose proof (L (AClient i) eq_refl). lia.
          - rewrite (gained_ship p q j i G) in Q. exact Q. }
        specialize (H4 X). lia.
  - intros H R. specialize (H R). destruct E as [->|j Hj _ _ G|j g Hj _ _ _ G|j g Hj Hgj _ _ L|j Hj _ _ G]; [exact H| | | |].
    + rewrite (G (APickup i) eq_refl). lia.
    + rewrite (G (APickup i) eq_refl). lia.
    + pose proof (L (APickup i) eq_refl) as X. rewrite eqb_false in X by discriminate. lia.
    + rewrite (G (APickup i) eq_refl). lia.
Qed.

Lemma rem_client_ok p r pos i : plan_ok d p -> find_act (AClient i) p = Some (r, pos) ->
  exists A B, rem p r pos = upd p r (A ++ B) /\ mid_at p r = A ++ AClient i :: B /\ r < length p /\ plan_ok d (rem p r pos) /\
    forall a, a_isDepot a = false -> tot p a = tot (rem p r pos) a + (if a_eqb a (AClient i) then 1 else 0).
Proof.
  intros P F. destruct (find_act_spec _ _ _ _ F) as (A & B & Hm & Hpos & Hr). exists A, B. rewrite (rem_eq p r pos (AClient i) A B Hm Hpos).
  destruct (client_out d ev p r A B i P Hr Hm) as (Q1 & _ & Q3 & Q4 & _). split; [reflexivity|]. split; [exact Hm|]. split; [exact Hr|]. split; [exact Q1|].
  intros a _. pose proof (tot_upd p r (A ++ B) a Hr) as X. rewrite Hm in X. revert X. rewrite !cnt_app, cnt_cons. lia.
Qed.

Theorem ensure_act_step st a : pre_inv st -> In a (activity_order d) ->
  exists st' , ensure_act d ev (st, group_counts d (l_plan st)) a = Some (st', group_counts d (l_plan st')) /\
    pre_inv st' /\ same_space (l_space st) (l_space st') /\ ensure_effect (l_plan st) (l_plan st') /\ handled (l_plan st') a /\
    (l_plan st' = l_plan st -> st' = st).
Proof.
  intros I Ha. destruct (order_in d a Ha) as [[Da Ka] Ta]. pose proof (pi_ok st I) as P.
  destruct a as [x|i|i|i]; [destruct Ta; discriminate| | |destruct Ta; discriminate]; cbn [ensure_act known] in *.
  - destruct (negb (isPlanned (l_plan st) (AClient i)) && c_required (p_client d i)) eqn:B.
    + apply Bool.andb_true_iff in B as [B1 B2]. apply Bool.negb_true_iff, unplanned_tot in B1.
      destruct (insert_required_step st (AClient i) I Ha B1) as (st1 & -> & I1 & G & S1). cbn [option_map].
      destruct (pre_mark st1 (AClient i) I1) as (I2 & E2 & S2). exists (mark_in d st1 (AClient i)). rewrite E2.
      assert (EF : ensure_effect (l_plan st) (l_plan st1)) by (apply (E_client _ _ i); assumption).
      assert (T1 : tot (l_plan st1) (AClient i) = 1) by (rewrite (gained_client _ _ i i G), B1, Nat.eqb_refl; reflexivity).
      split; [|split; [exact I2|split; [rewrite S1 in S2; exact S2|split; [exact EF|split]]]].
      * f_equal. f_equal. apply counts_same. intros g Hg. apply members_same. intros j Hj. rewrite (gained_client _ _ i j G).
        destruct (Nat.eqb_spec j i) as [->|]; [|lia]. destruct (no_group i g (required_no_group i Ka B2) Hg Hj).
      * split; [intros; lia|]. intros g Hg. rewrite (required_no_group i Ka B2) in Hg. discriminate.
      * intros E. rewrite E in T1. lia.
    + destruct (c_group (p_client d i)) as [g|] eqn:Hg.
      * destruct (client_group i g Ka Hg) as (Lg & Hin & NR). rewrite (group_counts_nth d (l_plan st) g Lg).
        destruct (g_required (p_group d g) && (members d (l_plan st) g =? 0)) eqn:B'.
        -- apply Bool.andb_true_iff in B' as [B1 B2]. apply Nat.eqb_eq in B2.
           assert (T0 : tot (l_plan st) (AClient i) = 0). { destruct (Nat.eq_0_gt_0_cases (tot (l_plan st) (AClient i))) as [|H]; [assumption|]. assert (0 < members d (l_plan st) g) by (apply members_pos; exists i; split; [exact Hin|lia]). lia. }
           destruct (insert_required_step st (AClient i) I Ha T0) as (st1 & -> & I1 & G & S1). cbn [option_map].
           destruct (pre_mark st1 (AClient i) I1) as (I2 & E2 & S2). exists (mark_in d st1 (AClient i)). rewrite E2.
           assert (EF : ensure_effect (l_plan st) (l_plan st1)) by (apply (E_group _ _ i g); assumption).
           assert (T1 : tot (l_plan st1) (AClient i) = 1) by (rewrite (gained_client _ _ i i G), T0, Nat.eqb_refl; reflexivity).
           assert (M1 : members d (l_plan st1) g = members d (l_plan st) g + 1).
           { apply (members_in d _ _ g i (ND g Lg) Hin T0); [lia|]. intros j Hj. rewrite (gained_client _ _ i j G). destruct (Nat.eqb_spec j i); [congruence|lia]. }
           split; [|split; [exact I2|split; [rewrite S1 in S2; exact S2|split; [exact EF|split]]]].
           ++ f_equal. f_equal. apply counts_upd; [exact Lg|exact M1|]. intros g' Hg' N. apply members_same. intros j Hj. rewrite (gained_client _ _ i j G).
              destruct (Nat.eqb_spec j i) as [->|]; [|lia]. destruct (other_group i g g' Ka Hg Hg' N Hj).
           ++ split; [congruence|]. intros g' Hg'. replace g' with g by congruence. split; intros; lia.
           ++ intros E. rewrite E in T1. lia.
        -- destruct (isPlanned (l_plan st) (AClient i) && (1 <? members d (l_plan st) g)) eqn:B2.
           ++ apply Bool.andb_true_iff in B2 as [B2 B3]. apply Nat.ltb_lt in B3. pose proof B2 as B2'. apply planned_tot in B2'. unfold isPlanned in B2.
              destruct (find_act (AClient i) (l_plan st)) as [[r pos]|] eqn:F; [|discriminate].
              destruct (rem_client_ok (l_plan st) r pos i P F) as (A & R & E1 & Hm & Hr & P' & L).
              destruct (pre_mark st (AClient i) I) as (I1 & E2 & S2).
              destruct (edit_step st (mark_act d (l_plan st) (AClient i) (l_space st)) (rem (l_plan st) r pos) r I (mark_act_same d _ _ _) P') as (J1 & J2 & J3 & J4 & _).
              { rewrite E1. apply touched_one. left. reflexivity. }
              { exact Hr. }
              rewrite E2. unfold mark_in. set (st1 := ls_update d _ (Some r) r) in *. exists st1.
              assert (L' : forall a, a_isDepot a = false -> tot (l_plan st) a = tot (l_plan st1) a + (if a_eqb a (AClient i) then 1 else 0)) by (intros a Ea; rewrite J2 by exact Ea; apply L, Ea).
              assert (T1 : tot (l_plan st1) (AClient i) = 0) by (pose proof (L' (AClient i) eq_refl) as X; rewrite eqb_refl in X; pose proof (pk_once d _ P (AClient i) eq_refl); lia).
              assert (O : forall j, j <> i -> tot (l_plan st1) (AClient j) = tot (l_plan st) (AClient j)).
              { intros j Hj. rewrite (L' (AClient j) eq_refl). rewrite eqb_false by congruence. lia. }
              assert (M1 : members d (l_plan st) g = members d (l_plan st1) g + 1).
              { apply (members_in d _ _ g i (ND g Lg) Hin T1); [lia|]. intros j Hj. symmetry. apply O, Hj. }
              split; [|split; [exact J1|split; [rewrite J4; apply mark_act_same|split; [apply (E_remove _ _ i g); assumption|split]]]].
              ** f_equal. f_equal. apply counts_upd; [exact Lg|lia|]. intros g' Hg' N. apply members_same. intros j Hj. apply O. intros ->. destruct (other_group i g g' Ka Hg Hg' N Hj).
              ** split; [congruence|]. intros g' Hg'. replace g' with g by congruence. split; intros; lia.
              ** intros E. rewrite E in T1. lia.
           ++ exists st. split; [reflexivity|]. split; [exact I|]. split; [apply same_space_refl|]. split; [apply E_same; reflexivity|]. split; [|reflexivity].
              split; [congruence|]. intros g' Hg'. replace g' with g by congruence. split.
              ** intros R. rewrite R in B'. cbn [andb] in B'. apply Nat.eqb_neq in B'. lia.
              ** intros T. apply planned_tot in T. rewrite T in B2. cbn [andb] in B2. apply Nat.ltb_ge in B2. exact B2.
      * exists st. split; [reflexivity|]. split; [exact I|]. split; [apply same_space_refl|]. split; [apply E_same; reflexivity|]. split; [|reflexivity].
        split; [|congruence]. intros R. rewrite R, Bool.andb_true_r in B. apply Bool.negb_false_iff, planned_tot in B. exact B.
  - destruct (negb (isPlanned (l_plan st) (APickup i)) && s_required (p_shipment d i)) eqn:B.
    + apply Bool.andb_true_iff in B as [B1 B2]. apply Bool.negb_true_iff, unplanned_tot in B1.
      destruct (insert_required_step st (APickup i) I Ha B1) as (st1 & -> & I1 & G & S1). cbn [option_map].
      destruct (pre_mark st1 (APickup i) I1) as (I2 & E2 & S2). destruct (pre_mark (mark_in d st1 (APickup i)) (ADelivery i) I2) as (I3 & E3 & S3).
      exists (mark_in d (mark_in d st1 (APickup i)) (ADelivery i)). rewrite E3, E2.
      assert (T1 : tot (l_plan st1) (APickup i) = 1) by (rewrite (G (APickup i) eq_refl), B1, eqb_refl; reflexivity).
      split; [|split; [exact I3|split; [rewrite <- S1; eapply same_space_trans; eassumption|split; [apply (E_ship _ _ i); assumption|split]]]].
      * f_equal. f_equal. apply counts_same. intros g Hg. apply members_same. intros j Hj. apply (gained_ship _ _ i j G).
      * intros _. rewrite T1. lia.
      * intros E. rewrite E in T1. lia.
    + exists st. split; [reflexivity|]. split; [exact I|]. split; [apply same_space_refl|]. split; [apply E_same; reflexivity|]. split; [|reflexivity].
      intros R. rewrite R, Bool.andb_true_r in B. apply Bool.negb_false_iff, planned_tot in B. exact B.
Qed.

(** What happened overall. *)
Inductive effects : plan -> plan -> Prop :=
| Ef_nil p : effects p p
| Ef_cons p q q' : ensure_effect p q -> effects q q' -> effects p q'.

Lemma ensure_all_step us : (forall a, In a us -> In a (activity_order d)) -> forall vs st, pre_inv st ->
  (forall a, In a vs -> In a (activity_order d) /\ handled (l_plan st) a) ->
  exists st', ensure_all d ev (st, group_counts d (l_plan st)) us = Some (st', group_counts d (l_plan st')) /\
    pre_inv st' /\ same_space (l_space st) (l_space st') /\ effects (l_plan st) (l_plan st') /\
    (forall a, In a vs \/ In a us -> handled (l_plan st') a).
Proof.
  induction us as [|u us IH]; intros K vs st I H; cbn [ensure_all].
  - exists st. split; [reflexivity|]. split; [exact I|]. split; [apply same_space_refl|]. split; [constructor|]. intros a [Ha|[]]. apply H, Ha.
  - destruct (ensure_act_step st u I (K u (or_introl eq_refl))) as (st1 & -> & I1 & S1 & E1 & H1 & _).
    destruct (IH (fun a Ha => K a (or_intror Ha)) (u :: vs) st1 I1) as (st2 & -> & I2 & S2 & E2 & H2).
    { intros a [<-|Ha]; [split; [apply K; left; reflexivity|exact H1]|]. destruct (H a Ha) as [Ha' Hh]. split; [exact Ha'|]. apply (effect_handled (l_plan st)); auto. apply (pi_ok st I). }
    exists st2. split; [reflexivity|]. split; [exact I2|]. split; [eapply same_space_trans; eassumption|]. split; [econstructor; eassumption|].
    intros a Ha. apply H2. destruct Ha as [Ha|[<-|Ha]]; [left; right; exact Ha|left; left; reflexivity|right; exact Ha].
Qed.

Lemma handled_structured p : (forall a, In a (activity_order d) -> handled p a) -> structured d p.
Proof.
  intros H. assert (HC : forall i, i < p_numClients d -> In (AClient i) (activity_order d)).
  { intros i Hi. unfold activity_order. apply in_or_app. left. apply in_map, in_seq. lia. }
  assert (HS : forall i, i < p_numShipments d -> In (APickup i) (activity_order d)).
  { intros i Hi. unfold activity_order. apply in_or_app. right. apply in_map, in_seq. lia. }
  constructor.
  - intros i Hi R. exact (proj1 (H (AClient i) (HC i Hi)) R).
  - intros i Hi R. exact (H (APickup i) (HS i Hi) R).
  - intros g Hg R. destruct (do_groups d (st_data d h ev St) g Hg) as [NE X]. destruct (g_clients (p_group d g)) as [|i l] eqn:E; [congruence|].
    destruct (X i (or_introl eq_refl)) as [Hi Hgi]. destruct (proj2 (H (AClient i) (HC i Hi)) g Hgi) as [Y _]. specialize (Y R). rewrite <- E.
    apply members_pos. exact Y.
  - intros g i j Hg Hi Hj Ti Tj. destruct (Nat.eq_dec i j) as [|N]; [assumption|exfalso]. destruct (group_member d h ev St g i Hg Hi) as (Li & Gi & _).
    destruct (proj2 (H (AClient i) (HC i Li)) g Gi) as [_ Y]. specialize (Y Ti). unfold members in Y.
    pose proof (two_members (fun i => isPlanned p (AClient i)) _ i j Hi Hj N (proj2 (planned_tot _ _) Ti) (proj2 (planned_tot _ _) Tj)). lia.
Qed.
Theorem ensure_spec st : pre_inv st -> exists st', ensure d ev st = Some st' /\ ls_inv d ev bops st' /\ same_space (l_space st) (l_space st') /\ effects (l_plan st) (l_plan st').
Proof.
  intros I. unfold ensure. destruct (ensure_all_step (ss_order (l_space st))) with (vs := @nil activity) (st := st) as (st' & -> & I' & S' & E & H); auto.
  { intros a Ha. eapply Permutation_in; [symmetry; apply (si_order d _ (pi_space st I))|exact Ha]. }
  { intros a []. }
  exists st'. split; [reflexivity|]. split; [|split; assumption]. apply pre_ls. split; [exact I'|]. apply handled_structured. intros a Ha. apply H. right.
  eapply Permutation_in; [apply (si_order d _ (pi_space st I))|exact Ha].
Qed.
(** Nothing to do for a structured plan. *)
Lemma structured_handled p a : structured d p -> In a (activity_order d) -> handled p a.
Proof.
  intros S Ha. destruct (order_in d a Ha) as [[_ Ka] _]. destruct a as [x|i|i|i]; cbn [handled known] in *; auto.
  - split; [apply (sr_clients d p S i Ka)|]. intros g Hg. destruct (client_group i g Ka Hg) as (Lg & Hin & _). split.
    + intros R. apply members_pos, (sr_groups d p S g Lg R).
    + intros _. apply members_once; [exact Lg|apply ND, Lg|]. intros j k Hj Hk Tj Tk. exact (sr_once d p S g j k Lg Hj Hk Tj Tk).
  - apply (sr_ships d p S i Ka).
Qed.
Theorem ensure_nothing st : ls_inv d ev bops st -> ensure d ev st = Some st.
Proof.
  intros I. apply pre_ls in I as [I S]. unfold ensure.
  assert (X : forall us, (forall a, In a us -> In a (activity_order d)) -> ensure_all d ev (st, group_counts d (l_plan st)) us = Some (st, group_counts d (l_plan st))).
  { induction us as [|u us IH]; intros K; cbn [ensure_all]; [reflexivity|].
    assert (E : ensure_act d ev (st, group_counts d (l_plan st)) u = Some (st, group_counts d (l_plan st))).
    { pose proof (structured_handled (l_plan st) u S (K u (or_introl eq_refl))) as H. destruct (order_in d u (K u (or_introl eq_refl))) as [[_ Ku] Tu].
      destruct u as [x|i|i|i]; [destruct Tu; discriminate| | |destruct Tu; discriminate]; cbn [ensure_act known handled] in *.
      - destruct H as [H1 H2]. destruct (c_required (p_client d i)) eqn:R.
        + rewrite (proj2 (planned_tot _ _) (H1 eq_refl)). cbn [negb andb]. rewrite (required_no_group i Ku R). reflexivity.
        + rewrite Bool.andb_false_r. destruct (c_group (p_client d i)) as [g|] eqn:Hg; [|reflexivity]. destruct (H2 g eq_refl) as [H3 H4]. destruct (client_group i g Ku Hg) as (Lg & _ & _). rewrite group_counts_nth by exact Lg.
          destruct (g_required (p_group d g)); cbn [andb].
          * specialize (H3 eq_refl). rewrite (proj2 (Nat.eqb_neq _ 0)) by lia. destruct (isPlanned (l_plan st) (AClient i)) eqn:Q; [|reflexivity]. apply planned_tot in Q. specialize (H4 Q). cbn [andb]. rewrite (proj2 (Nat.ltb_ge _ _)) by lia. reflexivity.
          * destruct (isPlanned (l_plan st) (AClient i)) eqn:Q; [|reflexivity]. apply planned_tot in Q. specialize (H4 Q). cbn [andb]. rewrite (proj2 (Nat.ltb_ge _ _)) by lia. reflexivity.
      - destruct (s_required (p_shipment d i)) eqn:R; [|rewrite Bool.andb_false_r; reflexivity]. rewrite (proj2 (planned_tot _ _) (H eq_refl)). reflexivity. }
    rewrite E. apply IH. intros a Ha. apply K. right. exact Ha. }
  rewrite X; [reflexivity|]. intros a Ha. eapply Permutation_in; [symmetry; apply (si_order d _ (pi_space st I))|exact Ha].
Qed.
End Ensure.
