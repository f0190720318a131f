(** How many insertions and removals make a plan complete (LocalSearch.cpp:230-335), by counting what is missing or too much. *)
From Coq Require Import Permutation.
From Verif Require Import Base DurationSegment Data LoadSegment SearchRoute RouteDur Valid ProposalDur ProposalRest Route RouteSpec
  RouteFacts2 RouteFacts3 Cost CostFacts DeltaFacts SearchFacts DataCtor Solution SolutionFacts SolutionFacts2 SolutionFacts3 Bitset Rng MakeRandom SearchSpace Neighbourhood SearchNodes SearchSeq SearchLoad SearchLoad2 Ops PlanFacts ShipState OpsBase OpsGen OpsMove OpsRelocate OpsSwap OpsOne OpsEdit OpsEdit2 OpsAll LocalSearch LocalFacts LocalTerm LocalInsert LocalEnsure Perturb LocalRun.
Local Open Scope nat_scope.

Definition b2n (b : bool) : nat := if b then 1 else 0.
(** A sum over the indices below [n]. *)
Definition sum_below (n : nat) (f : nat -> nat) : nat := list_sum (map f (seq 0 n)).
Lemma sum_same n f g : (forall j, j < n -> f j = g j) -> sum_below n f = sum_below n g.
Proof. intros H. unfold sum_below. f_equal. apply map_ext_in. intros j Hj. apply in_seq in Hj. apply H. lia. Qed.
Lemma sum_snoc n f : sum_below (S n) f = sum_below n f + f n.
Proof. unfold sum_below. rewrite seq_S, map_app, list_sum_app. cbn. lia. Qed.
Lemma sum_one n f g i : i < n -> (forall j, j < n -> j <> i -> f j = g j) -> sum_below n f + g i = sum_below n g + f i.
Proof.
  revert i. induction n as [|n IH]; intros i Hi H; [lia|]. rewrite !sum_snoc. destruct (Nat.eq_dec i n) as [->|N].
  - rewrite (sum_same n f g) by (intros j Hj; apply H; lia). lia.
  - specialize (IH i ltac:(lia) (fun j Hj Hn => H j (Nat.lt_lt_succ_r _ _ Hj) Hn)). rewrite (H n) by lia. lia.
Qed.
Lemma sum_zero n f : sum_below n f = 0 <-> forall j, j < n -> f j = 0.
Proof.
  induction n as [|n IH]; [split; [intros _ j Hj; lia|reflexivity]|]. rewrite sum_snoc. split.
  - intros H j Hj. destruct (Nat.eq_dec j n) as [->|]; [lia|]. apply (proj1 IH); lia.
  - intros H. rewrite (H n) by lia. rewrite (proj2 IH); [reflexivity|]. intros j Hj. apply H. lia.
Qed.

Section Owed.
Variable d : pdata.
(** Of the clients and shipments in [pl]: the required ones that are missing, the required groups without a member, and the members
    beyond the first of each group. *)
Definition inside (pl : activity -> bool) (g : nat) : nat := length (filter (fun i => pl (AClient i)) (g_clients (p_group d g))).
Definition surplus (req : bool) (n : nat) : nat := match n with O => b2n req | S k => k end.
Definition owed_client (pl : activity -> bool) (i : nat) : nat := b2n (negb (pl (AClient i)) && c_required (p_client d i)).
Definition owed_group (pl : activity -> bool) (g : nat) : nat := surplus (g_required (p_group d g)) (inside pl g).
Definition owed_ship (pl : activity -> bool) (i : nat) : nat := b2n (negb (pl (APickup i)) && s_required (p_shipment d i)).
Definition owed (pl : activity -> bool) : nat :=
  sum_below (p_numClients d) (owed_client pl) + sum_below (p_numGroups d) (owed_group pl) + sum_below (p_numShipments d) (owed_ship pl).

(** Clients and pickups. *)
Definition counts (a : activity) : Prop := match a with AClient _ | APickup _ => True | _ => False end.
Lemma inside_ext pl pl' g : (forall i, In i (g_clients (p_group d g)) -> pl' (AClient i) = pl (AClient i)) -> inside pl' g = inside pl g.
Proof. intros H. unfold inside. f_equal. apply filter_ext_in. exact H. Qed.
Lemma owed_ext pl pl' : (forall a, counts a -> pl' a = pl a) -> owed pl' = owed pl.
Proof.
  intros H. unfold owed. f_equal; [f_equal|]; apply sum_same; intros j _.
  - unfold owed_client. rewrite (H (AClient j) I). reflexivity.
  - unfold owed_group. rewrite (inside_ext pl pl') by (intros i _; apply (H (AClient i) I)). reflexivity.
  - unfold owed_ship. rewrite (H (APickup j) I). reflexivity.
Qed.

Variable h : Z.
Variable ev : evaluator.
Hypothesis St : setting d h ev.
Hypothesis ND : nodup_groups d.

(** One client more or less. *)
Definition but (x : activity) (pl pl' : activity -> bool) : Prop := forall a, counts a -> a <> x -> pl' a = pl a.
Lemma ship_change pl pl' i : i < p_numShipments d -> but (APickup i) pl pl' -> owed pl' + owed_ship pl i = owed pl + owed_ship pl' i.
Proof.
  intros Hi H. unfold owed. rewrite (sum_same (p_numClients d) (owed_client pl') (owed_client pl)), (sum_same (p_numGroups d) (owed_group pl') (owed_group pl)).
  - pose proof (sum_one (p_numShipments d) (owed_ship pl') (owed_ship pl) i Hi). assert (forall j, j < p_numShipments d -> j <> i -> owed_ship pl' j = owed_ship pl j); [|specialize (H0 H1); lia].
    intros j _ Hj. unfold owed_ship. rewrite (H (APickup j) I) by congruence. reflexivity.
  - intros g _. unfold owed_group. rewrite (inside_ext pl pl'); [reflexivity|]. intros j _. apply (H (AClient j) I). discriminate.
  - intros j _. unfold owed_client. rewrite (H (AClient j) I) by discriminate. reflexivity.
Qed.
Lemma client_change pl pl' i : i < p_numClients d -> but (AClient i) pl pl' ->
  match c_group (p_client d i) with
  | None => owed pl' + owed_client pl i = owed pl + owed_client pl' i
  | Some g => owed pl' + owed_group pl g = owed pl + owed_group pl' g
  end.
Proof.
  intros Hi H. assert (Es : sum_below (p_numShipments d) (owed_ship pl') = sum_below (p_numShipments d) (owed_ship pl)).
  { apply sum_same. intros j _. unfold owed_ship. rewrite (H (APickup j) I) by discriminate. reflexivity. }
  assert (Ec : sum_below (p_numClients d) (owed_client pl') + owed_client pl i = sum_below (p_numClients d) (owed_client pl) + owed_client pl' i).
  { apply sum_one; [exact Hi|]. intros j _ Hj. unfold owed_client. rewrite (H (AClient j) I) by congruence. reflexivity. }
  assert (Eg : forall g, ~ In i (g_clients (p_group d g)) -> owed_group pl' g = owed_group pl g).
  { intros g Hg. unfold owed_group. rewrite (inside_ext pl pl'); [reflexivity|]. intros j Hj. apply (H (AClient j) I). congruence. }
  unfold owed. rewrite Es. destruct (c_group (p_client d i)) as [g|] eqn:G.
  - destruct (client_group d h ev St i g Hi G) as (Hg & Hin & R). assert (Z : forall f, owed_client f i = 0) by (intros f; unfold owed_client; rewrite R, Bool.andb_false_r; reflexivity).
    rewrite !Z in Ec. pose proof (sum_one (p_numGroups d) (owed_group pl') (owed_group pl) g Hg) as S1.
    assert (forall j, j < p_numGroups d -> j <> g -> owed_group pl' j = owed_group pl j); [|specialize (S1 H0); lia].
    intros j Hj Hn. apply Eg. exact (other_group d h ev St i g j Hi G Hj Hn).
  - rewrite (sum_same (p_numGroups d) (owed_group pl') (owed_group pl)); [lia|]. intros g Hg. apply Eg. exact (no_group d h ev St i g G Hg).
Qed.
Lemma inside_more pl pl' g i : g < p_numGroups d -> In i (g_clients (p_group d g)) -> pl (AClient i) = false -> pl' (AClient i) = true -> but (AClient i) pl pl' -> inside pl' g = inside pl g + 1.
Proof.
  intros Hg Hi H0 H1 H. unfold inside. apply (filter_one (fun j => pl (AClient j)) (fun j => pl' (AClient j)) _ i (ND g Hg) Hi H0 H1).
  intros j Hj. symmetry. apply (H (AClient j) I). congruence.
Qed.
(** A change of one client or shipment changes the number by at most one. *)
Lemma owed_flip pl pl' x : In x (activity_order d) -> but x pl pl' -> owed pl' <= owed pl + 1.
Proof.
  intros Hx H. destruct (order_in d x Hx) as [[_ K] T]. destruct x as [i|i|i|i]; [destruct T; discriminate| | |destruct T; discriminate]; cbn [known] in K.
  - pose proof (client_change pl pl' i K H) as C. destruct (c_group (p_client d i)) as [g|] eqn:G.
    + destruct (client_group d h ev St i g K G) as (Hg & Hin & _). unfold owed_group in C.
      assert (X : inside pl' g = inside pl g \/ inside pl' g = inside pl g + 1 \/ inside pl g = inside pl' g + 1).
      { destruct (pl (AClient i)) eqn:E1; destruct (pl' (AClient i)) eqn:E2.
        - left. apply inside_ext. intros j _. destruct (Nat.eq_dec j i) as [->|]; [congruence|]. apply (H (AClient j) I). congruence.
        - right; right. apply (inside_more pl' pl g i Hg Hin E2 E1). intros a Ha Hn. symmetry. apply (H a Ha Hn).
        - right; left. apply (inside_more pl pl' g i Hg Hin E1 E2 H).
        - left. apply inside_ext. intros j _. destruct (Nat.eq_dec j i) as [->|]; [congruence|]. apply (H (AClient j) I). congruence. }
      revert C X. generalize (inside pl g) (inside pl' g). intros a b C X. destruct a as [|a], b as [|b]; cbn [surplus] in C; destruct (g_required (p_group d g)); cbn [b2n] in C; lia.
    + assert (owed_client pl' i <= 1) by (unfold owed_client; destruct (negb _ && _); cbn; lia). lia.
  - pose proof (ship_change pl pl' i K H) as C. assert (owed_ship pl' i <= 1) by (unfold owed_ship; destruct (negb _ && _); cbn; lia). lia.
Qed.

(** *** Plans *)
Definition planned (p : plan) : activity -> bool := isPlanned p.
Lemma planned_same p q a : tot q a = tot p a -> planned q a = planned p a.
Proof.
  intros E. unfold planned. destruct (isPlanned p a) eqn:F.
  - apply planned_tot. apply planned_tot in F. lia.
  - apply unplanned_tot. apply unplanned_tot in F. lia.
Qed.
Lemma gained_but p q x : counts x -> gained p q x -> but x (planned p) (planned q).
Proof.
  intros Hx G a Ha Hn. apply planned_same. rewrite (G a); [|destruct a; try destruct Ha; reflexivity].
  destruct x as [x|x|x|x]; try destruct Hx; destruct a as [y|y|y|y]; try destruct Ha; rewrite ?eqb_false by congruence; lia.
Qed.
(** Each step of ensureStructuralFeasibility that changes the plan settles one. *)
Lemma effect_owed p q : plan_ok d p -> ensure_effect d p q -> q = p \/ owed (planned p) = owed (planned q) + 1.
Proof.
  intros P E. destruct E as [->|i Hi H0 R G|i g Hi Hgi R M0 G|i g Hi Hgi M1 H1 L|i Hi H0 R G]; [left; reflexivity|right..].
  - pose proof (client_change (planned p) (planned q) i Hi (gained_but p q (AClient i) I G)) as C. rewrite (required_no_group d h ev St i Hi R) in C.
    unfold owed_client in C. rewrite R in C. unfold planned in C at 2 4. rewrite (proj2 (unplanned_tot p (AClient i)) H0) in C.
    rewrite (proj2 (planned_tot q (AClient i))) in C by (rewrite (gained_client p q i i G), Nat.eqb_refl; lia). cbn in C. lia.
  - pose proof (client_change (planned p) (planned q) i Hi (gained_but p q (AClient i) I G)) as C. rewrite Hgi in C. destruct (client_group d h ev St i g Hi Hgi) as (Hg & Hin & _).
    assert (Z : tot p (AClient i) = 0). { destruct (Nat.eq_0_gt_0_cases (tot p (AClient i))) as [|X]; [assumption|]. assert (0 < members d p g) by (apply members_pos; exists i; split; [exact Hin|lia]). lia. }
    assert (Q : inside (planned q) g = inside (planned p) g + 1).
    { apply (inside_more _ _ g i Hg Hin); [apply unplanned_tot; exact Z|apply planned_tot; rewrite (gained_client p q i i G), Nat.eqb_refl; lia|apply (gained_but p q (AClient i) I G)]. }
    unfold owed_group in C. rewrite Q in C. change (inside (planned p) g) with (members d p g) in C. rewrite M0, R in C. cbn in C. lia.
  - assert (B : but (AClient i) (planned p) (planned q)).
    { intros a Ha Hn. apply planned_same. rewrite (L a) by (destruct a; try destruct Ha; reflexivity). rewrite eqb_false by congruence. lia. }
    pose proof (client_change (planned p) (planned q) i Hi B) as C. rewrite Hgi in C. destruct (client_group d h ev St i g Hi Hgi) as (Hg & Hin & _).
    pose proof (L (AClient i) eq_refl) as Li. rewrite eqb_refl in Li. pose proof (pk_once d p P (AClient i) eq_refl) as O.
    assert (Q : inside (planned p) g = inside (planned q) g + 1).
    { apply (inside_more (planned q) (planned p) g i Hg Hin); [apply unplanned_tot; lia|apply planned_tot; exact H1|]. intros a Ha Hn. symmetry. apply (B a Ha Hn). }
    unfold owed_group in C. change (inside (planned p) g) with (members d p g) in C, Q. rewrite Q in C, M1. destruct (inside (planned q) g) as [|k]; [lia|]. cbn in C. rewrite Nat.add_1_r in C. cbn in C. lia.
  - pose proof (ship_change (planned p) (planned q) i Hi (gained_but p q (APickup i) I G)) as C. unfold owed_ship in C. rewrite R in C. unfold planned in C at 2 4.
    rewrite (proj2 (unplanned_tot p (APickup i)) H0) in C.
    rewrite (proj2 (planned_tot q (APickup i))) in C by (rewrite (G (APickup i) eq_refl), eqb_refl; lia). cbn in C. lia.
Qed.
Lemma structured_owed p : structured d p -> owed (planned p) = 0.
Proof.
  intros [S1 S2 S3 S4]. assert (E : forall a b c, a = 0 -> b = 0 -> c = 0 -> a + b + c = 0) by (intros; lia). apply E; apply sum_zero; intros j Hj.
  - unfold owed_client. destruct (c_required (p_client d j)) eqn:R; [|rewrite Bool.andb_false_r; reflexivity]. unfold planned. rewrite (proj2 (planned_tot p (AClient j)) (S1 j Hj R)). reflexivity.
  - unfold owed_group. change (inside (planned p) j) with (members d p j).
    assert (members d p j <= 1) by (apply members_once; [exact Hj|apply ND, Hj|intros; eapply S4; eassumption]).
    destruct (members d p j) as [|[|]] eqn:M; [|reflexivity|lia]. destruct (g_required (p_group d j)) eqn:R; [|reflexivity]. destruct (S3 j Hj R) as (i & Hi & Pi).
    assert (0 < members d p j) by (apply members_pos; exists i; auto). lia.
  - unfold owed_ship. destruct (s_required (p_shipment d j)) eqn:R; [|rewrite Bool.andb_false_r; reflexivity]. unfold planned. rewrite (proj2 (planned_tot p (APickup j)) (S2 j Hj R)). reflexivity.
Qed.

(** *** The updates of ensureStructuralFeasibility *)
Variable bops : list binary.
Lemma update_num st rU rV : l_num (ls_update d st rU rV) = (l_num st + 1)%Z.
Proof. destruct rU as [r|]; unfold ls_update; [destruct (r =? rV)|]; reflexivity. Qed.
Lemma insert_num st a st' : insert_required d ev st a = Some st' -> l_num st' = (l_num st + 1)%Z.
Proof.
  unfold insert_required. set (new := match a with AClient _ => _ | _ => _ end). destruct new as [[p|]|]; try discriminate. destruct (home p a) as [r|]; [|discriminate].
  intros E. assert (X : st' = ls_update d (with_plan st p) (Some r) r) by congruence. rewrite X, update_num. reflexivity.
Qed.
Lemma ensure_act_num st c a st' c' : ensure_act d ev (st, c) a = Some (st', c') -> st' = st \/ l_num st' = (l_num st + 1)%Z.
Proof.
  assert (M : forall s b, l_num (mark_in d s b) = l_num s) by reflexivity.
  unfold ensure_act. destruct a as [i|i|i|i]; try (intros [= <- _]; left; reflexivity).
  - destruct (negb _ && _). { destruct (insert_required d ev st (AClient i)) as [s|] eqn:E; [|discriminate]. cbn [option_map]. intros X. assert (Y : st' = mark_in d s (AClient i)) by congruence. right. rewrite Y, M. apply (insert_num _ _ _ E). }
    destruct (c_group (p_client d i)) as [g|]; [|intros [= <- _]; left; reflexivity].
    destruct (g_required _ && _). { destruct (insert_required d ev st (AClient i)) as [s|] eqn:E; [|discriminate]. cbn [option_map]. intros X. assert (Y : st' = mark_in d s (AClient i)) by congruence. right. rewrite Y, M. apply (insert_num _ _ _ E). }
    destruct (_ && _); [|intros [= <- _]; left; reflexivity]. destruct (find_act _ _) as [[r pos]|]; [|discriminate]. intros E. right. assert (X : st' = ls_update d (with_plan (mark_in d st (AClient i)) (rem (l_plan (mark_in d st (AClient i))) r pos)) (Some r) r) by congruence. rewrite X, update_num. reflexivity.
  - destruct (negb _ && _); [|intros [= <- _]; left; reflexivity]. destruct (insert_required d ev st (APickup i)) as [s|] eqn:E; [|discriminate]. cbn [option_map]. intros X. assert (Y : st' = mark_in d (mark_in d s (APickup i)) (ADelivery i)) by congruence. right. rewrite Y, !M. apply (insert_num _ _ _ E).
Qed.
Lemma ensure_all_num us : (forall a, In a us -> In a (activity_order d)) -> forall st st' c', pre_inv d ev bops st ->
  ensure_all d ev (st, group_counts d (l_plan st)) us = Some (st', c') ->
  (l_num st' + Z.of_nat (owed (planned (l_plan st'))) = l_num st + Z.of_nat (owed (planned (l_plan st))))%Z.
Proof.
  induction us as [|a us IH]; intros Hu st st' c' Pi E; cbn [ensure_all] in E; [injection E as <- _; reflexivity|].
  destruct (ensure_act_step d h ev St bops ND st a Pi (Hu a (or_introl eq_refl))) as (st1 & E1 & P1 & _ & Ef & _ & Sa). rewrite E1 in E.
  specialize (IH (fun y Hy => Hu y (or_intror Hy)) st1 st' c' P1 E). rewrite IH. destruct (effect_owed _ _ (pi_ok _ _ _ _ Pi) Ef) as [Q|Q].
  - rewrite (Sa Q). reflexivity.
  - destruct (ensure_act_num _ _ _ _ _ E1) as [->|N]; [lia|]. rewrite N. lia.
Qed.
Theorem ensure_owed st st' : pre_inv d ev bops st -> ensure d ev st = Some st' -> l_num st' = (l_num st + Z.of_nat (owed (planned (l_plan st))))%Z.
Proof.
  intros Pi E. destruct (ensure_spec d h ev St bops ND st Pi) as (st1 & E1 & I1 & _). rewrite E in E1. injection E1 as <-.
  unfold ensure in E. destruct (ensure_all d ev (st, group_counts d (l_plan st)) (ss_order (l_space st))) as [[s c]|] eqn:Ea; [|discriminate]. cbn [option_map fst] in E. injection E as ->.
  pose proof (ensure_all_num (ss_order (l_space st)) (fun a Ha => Permutation_in _ (Permutation_sym (si_order d _ (pi_space _ _ _ _ Pi))) Ha) st st' c Pi Ea) as N.
  rewrite (structured_owed _ (li_str _ _ _ _ I1)) in N. lia.
Qed.

(** *** Perturbed plans *)
Definition flip (pl : activity -> bool) (x : activity) : activity -> bool := fun a => if a_eqb a x then negb (pl a) else pl a.
Lemma flips_owed X : (forall a, In a X -> In a (activity_order d)) -> forall pl, owed (fold_left flip X pl) <= owed pl + length X.
Proof.
  induction X as [|x X IH]; intros H pl; cbn [fold_left length]; [lia|]. specialize (IH (fun a Ha => H a (or_intror Ha)) (flip pl x)).
  assert (owed (flip pl x) <= owed pl + 1); [|lia]. apply (owed_flip pl _ x (H x (or_introl eq_refl))). intros a _ Hn. unfold flip. rewrite eqb_false by congruence. reflexivity.
Qed.
Lemma flips_at X : NoDup X -> forall pl a, fold_left flip X pl a = if existsb (a_eqb a) X then negb (pl a) else pl a.
Proof.
  induction 1 as [|x X Hx _ IH]; intros pl a; cbn [fold_left existsb]; [reflexivity|]. rewrite IH. unfold flip. destruct (a_eqb a x) eqn:E; cbn [orb]; [|reflexivity].
  apply a_eqb_eq in E. subst x. destruct (existsb (a_eqb a) X) eqn:F; [|reflexivity]. exfalso. apply existsb_exists in F as (y & Hy & Ey). apply a_eqb_eq in Ey. subst y. exact (Hx Hy).
Qed.
Theorem perturbed_owed p sp X x : perturbed d p sp X x -> owed (planned (sp_mids (fst x))) <= owed (planned p) + length X.
Proof.
  intros P. rewrite (owed_ext (fold_left flip X (planned p)) (planned (sp_mids (fst x)))); [apply flips_owed, (pt_items _ _ _ _ _ P)|].
  intros a Ha. rewrite (flips_at X (pt_nodup _ _ _ _ _ P)). destruct (existsb (a_eqb a) X) eqn:E.
  - apply existsb_exists in E as (y & Hy & Ey). apply a_eqb_eq in Ey. subst y. pose proof (pt_flip _ _ _ _ _ P a Hy) as F. unfold planned. destruct (isPlanned p a) eqn:Q; cbn [negb].
    + apply planned_tot in Q. apply unplanned_tot. lia.
    + apply unplanned_tot in Q. apply planned_tot. lia.
  - apply planned_same. apply (pt_tot _ _ _ _ _ P); [destruct a; try destruct Ha; reflexivity|]. intros Hin.
    assert (L : lead a = a) by (destruct a; try destruct Ha; reflexivity). rewrite L in Hin. assert (existsb (a_eqb a) X = true) by (apply existsb_exists; exists a; split; [exact Hin|apply eqb_refl]). congruence.
Qed.
End Owed.

(** *** Solutions *)
Lemma sum_filter n (f : nat -> bool) : sum_below n (fun i => b2n (f i)) = length (filter f (seq 0 n)).
Proof. unfold sum_below. generalize (seq 0 n). intros l. induction l as [|i l IH]; cbn; [reflexivity|]. destruct (f i); cbn; [f_equal|]; exact IH. Qed.
Lemma sum_nth {A} (l : list A) (x : A) (f : A -> nat) : sum_below (length l) (fun i => f (nth i l x)) = list_sum (map f l).
Proof.
  induction l as [|y l IH] using rev_ind; [reflexivity|]. rewrite app_length, Nat.add_1_r, sum_snoc, map_app, list_sum_app, <- IH. cbn. rewrite app_nth2, Nat.sub_diag by lia. cbn.
  rewrite (sum_same (length l) (fun i => f (nth i (l ++ [y]) x)) (fun i => f (nth i l x))); [lia|]. intros j Hj. rewrite app_nth1 by exact Hj. reflexivity.
Qed.
Definition missing (s : solution) : nat := so_missingClients s + so_missingGroups s + so_missingShipments s.
Theorem load_owed d h ev routes sol : setting d h ev -> groups_nodup d -> (forall v, In v (p_vehicles d) -> (0 <= v_maxReloads v)%Z) ->
  Forall (built d) routes -> make_solution d routes = Ok sol -> owed d (planned (load_plan d routes)) = missing sol.
Proof.
  intros St ND Rl B Es. pose proof (known_groups d h ev St) as GK. destruct (sol_inv d routes B ND GK sol Es) as (Con & cv & sv & E & Hc & Hs). rewrite E.
  unfold owed, missing. cbn [so_missingClients so_missingGroups so_missingShipments the_solution].
  assert (T : forall a, a_isDepot a = false -> isPlanned (load_plan d routes) a = true <-> In a (SolutionFacts.plan routes)).
  { intros a Ha. rewrite planned_tot. symmetry. eapply load_tot; eassumption. }
  assert (Bc : forall i, i < p_numClients d -> isPlanned (load_plan d routes) (AClient i) = bit cv i).
  { intros i Hi. apply Bool.eq_true_iff_eq. rewrite (T (AClient i) eq_refl), (proj2 Hc i Hi). symmetry. apply in_client_ids. }
  assert (Bs : forall i, i < p_numShipments d -> isPlanned (load_plan d routes) (APickup i) = bit sv i).
  { intros i Hi. apply Bool.eq_true_iff_eq. rewrite (T (APickup i) eq_refl), (proj2 Hs i Hi). symmetry. apply in_pickup_ids. }
  f_equal; [f_equal|].
  - unfold missing_clients. rewrite <- sum_filter. apply sum_same. intros i Hi. unfold owed_client, planned. rewrite (Bc i Hi). reflexivity.
  - assert (L : forall l, length (filter (fun g => g_required g && (group_count cv g =? 0)) l) = list_sum (map (fun g => b2n (g_required g && (group_count cv g =? 0))) l)).
    { induction l as [|g l IH]; cbn; [reflexivity|]. destruct (g_required g && (group_count cv g =? 0)); cbn; [f_equal|]; exact IH. }
    rewrite L, <- (sum_nth (p_groups d) dummy_group). apply sum_same. intros g Hg. unfold owed_group. fold (p_group d g).
    assert (N : inside d (planned (load_plan d routes)) g = group_count cv (p_group d g)).
    { unfold inside, group_count. f_equal. apply filter_ext_in. intros i Hi. apply Bc. unfold groups_known in GK. rewrite Forall_forall in GK. specialize (GK (p_group d g) (nth_In _ _ Hg)).
      rewrite Forall_forall in GK. exact (GK i Hi). }
    rewrite <- N. assert (M : members d (load_plan d routes) g <= 1).
    { apply members_once; [exact Hg|apply (nodup_groups_of d ND), Hg|]. intros i j Hi Hj Pi Pj. eapply load_once; eassumption. }
    change (members d (load_plan d routes) g) with (inside d (planned (load_plan d routes)) g) in M. destruct (inside d (planned (load_plan d routes)) g) as [|[|]]; [|destruct (g_required _); reflexivity|lia].
    destruct (g_required (p_group d g)); reflexivity.
  - unfold missing_shipments. rewrite <- sum_filter. apply sum_same. intros i Hi. unfold owed_ship, planned. rewrite (Bs i Hi). reflexivity.
Qed.
