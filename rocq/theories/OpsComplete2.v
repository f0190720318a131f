(** No operator overlooks an improving move of its own kind: the other operators. *)
From Verif Require Import Base DurationSegment Data LoadSegment SearchRoute RouteDur Valid ProposalDur ProposalRest Route RouteSpec
  RouteFacts2 RouteFacts3 Cost CostFacts DeltaFacts SearchFacts DataCtor SearchSpace SearchNodes SearchSeq SearchLoad Ops PlanFacts ShipState
  OpsBase OpsGen OpsMove OpsRelocate OpsSwap OpsOne OpsEdit OpsEdit2 LocalOpt OpsComplete.
Local Open Scope nat_scope.

Lemma first_improving_none {A} z (f : A -> Z) mk l : yes (first_improving z f mk l) = false -> forall x, In x l -> (0 <= f x)%Z.
Proof.
  induction l as [|y l IH]; cbn [first_improving]; [intros _ x []|]. cbv zeta. destruct (Z.ltb_spec (f y) 0) as [L|L]; [discriminate|].
  intros H x [<-|Hx]; [assumption|]. apply IH; assumption.
Qed.
Lemma run_length_app M R : num_reloads M = 0 -> length M <= run_length (M ++ R).
Proof.
  induction M as [|a M IH]; [cbn; lia|]. rewrite num_reloads_cons. cbn [app run_length length]. destruct (a_isDepot a); [discriminate|]. intros H. specialize (IH H). lia.
Qed.
Lemma trip_rest_in C M R : num_reloads M = 0 -> M <> [] -> In (length C + length M) (trip_rest (C ++ M ++ R) (length C)).
Proof.
  intros H HM. unfold trip_rest. rewrite skipn_len_app by reflexivity. apply in_seq. pose proof (run_length_app M R H).
  assert (0 < length M) by (destruct M; [congruence|cbn; lia]). lia.
Qed.
Lemma trip_back_in A M B : num_reloads M = 0 -> M <> [] -> In (length A + 1) (trip_back (A ++ M ++ B) (length A + length M)).
Proof.
  intros H HM. unfold trip_back. rewrite app_assoc, firstn_len_app by lens. apply in_rev. rewrite rev_involutive. apply in_seq.
  rewrite rev_app_distr.
  assert (HR : num_reloads (rev M) = 0).
  { clear - H. unfold num_reloads in *. induction M as [|a M IH]; [reflexivity|]. cbn [rev filter] in *. rewrite filter_app, app_length. cbn [filter].
    destruct (a_isDepot a); cbn [length] in *; [lia|]. rewrite IH; auto. }
  pose proof (run_length_app (rev M) (rev A) HR) as L. rewrite rev_length in L.
  assert (U : run_length (rev M ++ rev A) <= length (rev M ++ rev A)).
  { generalize (rev M ++ rev A). intros l. induction l as [|a l IH]; cbn; [lia|]. destruct (a_isDepot a); lia. }
  rewrite app_length, !rev_length in U. assert (0 < length M) by (destruct M; [congruence|cbn; lia]). lia.
Qed.
Lemma refuse_le' e t (c c' : Z) : (0 <= e)%Z -> (e <? 0)%Z = (t <? 0)%Z -> c' = (c + t)%Z -> (c <= c')%Z.
Proof. intros H E ->. destruct (Z.ltb_spec e 0); [lia|]. symmetry in E. apply Z.ltb_ge in E. lia. Qed.
Lemma exact_le e m (c c' : Z) : yes (improving e m) = false -> c' = (c + e)%Z -> (c <= c')%Z.
Proof. unfold yes, improving. cbn [fst snd]. intros H ->. apply Z.ltb_ge in H. lia. Qed.

(** A client may be left out. *)
Definition droppable (d : pdata) (i : nat) : Prop :=
  c_required (p_client d i) = false /\ (forall g, c_group (p_client d i) = Some g -> g_required (p_group d g) = false).

Section Complete2.
Variable d : pdata.
Variable h : Z.
Variable ev : evaluator.
Hypothesis St : setting d h ev.

(** ** RemoveOptionalClient *)
Theorem remove_client_complete p i p' : plan_ok d p -> droppable d i -> removed p (AClient i) p' ->
  yes (eval_remove_client d ev (sync d p) (AClient i)) = false -> (plan_cost d ev p <= plan_cost d ev p')%Z.
Proof.
  intros P [Hq Hg] Rm. destruct Rm as [r A B Hr Hm]. unfold eval_remove_client. cbn [sp_mids sync].
  rewrite (find_act_at (AClient i) p r A B (length A + 1)) by first [assumption | reflexivity | apply (pk_once d p P); reflexivity].
  rewrite Hq. assert (E : match c_group (p_client d i) with Some g => g_required (p_group d g) | None => false end = false).
  { destruct (c_group (p_client d i)) as [g|]; [apply Hg; reflexivity|reflexivity]. }
  rewrite E. cbn [orb]. destruct (client_out d ev p r A B i P Hr Hm) as (Q1 & Q2 & _ & _ & Q5 & Q6).
  destruct ((nShipments (sync d p) r =? 0) && (nClients (sync d p) r =? 1)).
  - intros K. eapply exact_le; [exact K|]. rewrite Q5, (rcost_empty d ev (rveh d r) (A ++ B)) by exact Q6. unfold pcost. rewrite cache_sync by exact Hr. unfold rcost. lia.
  - intros K. eapply refuse_le; [exact K| |].
    + apply (one_sign d h ev St false (c_prize (p_client d i)) p r A (AClient i :: B) [] [] (aft (sync d p) r (length A + 1 + 1)) B (A ++ B)); auto; [lia|].
      apply (piece_aft d p r (A ++ [AClient i]) B); side Hm.
    + rewrite Q5. lia.
Qed.

(** ** Shipments *)
Lemma pair_known p r A M B i : plan_ok d p -> r < length p -> mid_at p r = A ++ APickup i :: M ++ ADelivery i :: B ->
  num_reloads M = 0 /\ find_act (APickup i) p = Some (r, length A + 1) /\ find_act (ADelivery i) p = Some (r, length A + length M + 2).
Proof.
  intros P Hr Hm.
  assert (F1 : find_act (APickup i) p = Some (r, length A + 1)).
  { apply (find_act_at (APickup i) p r A (M ++ ADelivery i :: B)); auto. apply (pk_once d p P); reflexivity. }
  assert (F2 : find_act (ADelivery i) p = Some (r, length A + length M + 2)).
  { apply (find_act_at (ADelivery i) p r (A ++ APickup i :: M) B); auto; [rewrite Hm; assoc; reflexivity|apply (pk_once d p P); reflexivity|lens]. }
  split; [|auto]. destruct (ship_at d p i r _ P F1) as (A2 & M2 & B2 & Hm2 & RM & _ & L & F3). rewrite F3 in F2.
  assert (LM : length M2 = length M) by (injection F2; lia). assert (LA : length A2 = length A) by lia.
  assert (E : (A2 ++ [APickup i]) ++ M2 ++ ADelivery i :: B2 = (A ++ [APickup i]) ++ M ++ ADelivery i :: B) by (assoc; cbn [app]; congruence).
  destruct (app_split _ _ _ _ E ltac:(lens)) as (Z & E1 & E2). assert (Z = []) as -> by (apply (f_equal (@length _)) in E1; destruct Z; [reflexivity|lens]).
  cbn [app] in E2. destruct (app_split _ _ _ _ E2 ltac:(lens)) as (Z & E3 & _). assert (Z = []) as -> by (apply (f_equal (@length _)) in E3; destruct Z; [reflexivity|lens]).
  rewrite app_nil_r in E3. congruence.
Qed.
Lemma ship_gap_sign (ex : bool) out p r A M B x y k k1 k2 k3 : plan_ok d p -> r < length p -> mid_at p r = A ++ x :: M ++ y :: B ->
  num_reloads M = 0 -> fine_mid d (rveh d r) (A ++ M ++ B) -> has_visit (A ++ M ++ B) = true ->
  k = length A -> k1 = length A + 2 -> k2 = length A + length M + 1 -> k3 = length A + length M + 3 ->
  ((if (k1 =? length A + length M + 2)%nat then dcost d ev ex out (bef (sync d p) r k) [aft (sync d p) r k3]
           else dcost d ev ex out (bef (sync d p) r k) [btw (sync d p) r k1 k2; aft (sync d p) r k3]) <? 0)%Z
  = (out - rcost d ev (rveh d r) (mid_at p r) + rcost d ev (rveh d r) (A ++ M ++ B) <? 0)%Z.
Proof.
  intros P Hr Hm RM Q2 V -> -> -> ->.
  destruct (Nat.eqb_spec (length A + 2) (length A + length M + 2)) as [Z|Z].
  - assert (M = []) as -> by (destruct M; [reflexivity|cbn [length] in Z; lia]). cbn [app length] in *.
    apply (one_sign d h ev St ex out p r A (x :: y :: B) [] [] (aft (sync d p) r (length A + 0 + 3)) B (A ++ B)); auto.
    apply (piece_aft d p r (A ++ [x; y]) B); side Hm.
  - destruct M as [|z M]; [cbn [length] in Z; lia|].
    apply (one_sign d h ev St ex out p r A (x :: (z :: M) ++ y :: B) [btw (sync d p) r (length A + 2) (length A + length (z :: M) + 1)] [z :: M]
      (aft (sync d p) r (length A + length (z :: M) + 3)) B (A ++ (z :: M) ++ B)); auto.
    + apply Forall2_cons; [|apply Forall2_nil]. apply (piece_btw d p r (A ++ [x]) z M (y :: B)); side Hm.
    + apply (piece_aft d p r (A ++ x :: (z :: M) ++ [y]) B); side Hm.
    + flat.
Qed.
Theorem remove_shipment_complete p i p' : plan_ok d p -> s_required (p_shipment d i) = false -> ship_removed p i p' ->
  yes (eval_remove_shipment d ev (sync d p) (APickup i)) = false -> (plan_cost d ev p <= plan_cost d ev p')%Z.
Proof.
  intros P Hq Rm. destruct Rm as [r A M B Hr Hm]. unfold eval_remove_shipment. cbn [sp_mids sync].
  destruct (pair_known p r A M B i P Hr Hm) as (RM & F1 & F2). rewrite F1, F2, Hq.
  destruct (pair_out d p r A M B i P Hr Hm RM) as (Q1 & Q2 & _ & _).
  destruct (ship_out d ev p r A M B i P Hr Hm RM) as (_ & Q5 & Q6).
  destruct ((nShipments (sync d p) r =? 1) && (nClients (sync d p) r =? 0)).
  - intros K. eapply exact_le; [exact K|]. rewrite Q5, (rcost_empty d ev (rveh d r) (A ++ M ++ B)) by exact Q6. unfold pcost. rewrite cache_sync by exact Hr. unfold rcost. lia.
  - intros K. eapply refuse_le; [exact K| |].
    + apply (ship_gap_sign false (s_prize (p_shipment d i)) p r A M B (APickup i) (ADelivery i)); auto; lia.
    + rewrite Q5. lia.
Qed.

(** ** Replacing clients *)
Lemma replace_sign p r A B i j k : plan_ok d p -> r < length p -> mid_at p r = A ++ AClient j :: B -> known d (AClient i) -> tot p (AClient i) = 0 ->
  k = length A + 1 ->
  (0 <= dcost d ev false (c_prize (p_client d j) - c_prize (p_client d i)) (bef (sync d p) r (k - 1)) [SClient i; aft (sync d p) r (k + 1)])%Z ->
  (plan_cost d ev p <= plan_cost d ev (upd p r (A ++ AClient i :: B)))%Z.
Proof.
  intros P Hr Hm K T0 -> H. destruct (repl_plan d p r A B (AClient j) (AClient i) P Hr Hm K eq_refl eq_refl T0) as (Q1 & Q2).
  eapply refuse_le'; [exact H| |].
  - apply (one_sign d h ev St false (c_prize (p_client d j) - c_prize (p_client d i)) p r A (AClient j :: B) [SClient i] [[AClient i]] (aft (sync d p) r (length A + 1 + 1)) B (A ++ AClient i :: B)); auto.
    + lia.
    + apply Forall2_cons; [apply piece_client|apply Forall2_nil].
    + apply (piece_aft d p r (A ++ [AClient j]) B); side Hm.
    + apply (has_visit_in _ (AClient i)); [apply in_elt|reflexivity|apply (fine_ships d _ _ Q2)].
  - rewrite cost_one by exact Hr.
    assert (Hne : AClient j <> AClient i).
    { intros Z. pose proof (tot_In p r (AClient j)) as T. rewrite Hm in T. specialize (T ltac:(apply in_elt)). rewrite Z in T. lia. }
    assert (Ht : forall a, tot (upd p r (A ++ AClient i :: B)) a + (if a_eqb a (AClient j) then 1 else 0) = tot p a + (if a_eqb a (AClient i) then 1 else 0)).
    { intros a. pose proof (tot_upd p r (A ++ AClient i :: B) a Hr) as X. rewrite Hm in X. counts. }
    rewrite (unc_replace d p _ (AClient j) (AClient i)); auto.
    + cbn [prize_of]. lia.
    + apply (known_at d p r A (AClient j) B P Hm).
    + apply (tot_In p r). rewrite Hm. apply in_elt.
    + specialize (Ht (AClient j)). rewrite eqb_refl, (eqb_false (AClient j) (AClient i)) in Ht by exact Hne. pose proof (pk_once d p P (AClient j) eq_refl). lia.
    + specialize (Ht (AClient i)). rewrite eqb_refl in Ht. pose proof (eqb_false (AClient i) (AClient j) ltac:(congruence)) as Z. rewrite Z in Ht. lia.
    + intros a _ Ha Hb. specialize (Ht a). rewrite !eqb_false in Ht by assumption. lia.
Qed.
Lemma tot_find a p : find_act a p = None <-> tot p a = 0.
Proof.
  split; [apply find_act_none|]. intros H. destruct (find_act a p) as [[r pos]|] eqn:E; [exfalso|reflexivity].
  destruct (find_act_spec _ _ _ _ E) as (A & B & Hm & _ & _). pose proof (tot_In p r a) as T. rewrite Hm in T. specialize (T (in_elt _ _ _)). lia.
Qed.
Theorem replace_group_complete p i j g p' : plan_ok d p -> group_once d p -> known d (AClient i) -> tot p (AClient i) = 0 ->
  c_group (p_client d i) = Some g -> In j (g_clients (p_group d g)) -> replaced p (AClient j) (AClient i) p' ->
  yes (eval_replace_group d ev (sync d p) (AClient i)) = false -> (plan_cost d ev p <= plan_cost d ev p')%Z.
Proof.
  intros P G K T0 Eg Hj Rp. destruct Rp as [r A B Hr Hm]. unfold eval_replace_group. cbn [sp_mids sync].
  rewrite (proj2 (tot_find (AClient i) p) T0), Eg.
  destruct (do_clients d (st_data d h ev St) i K) as (_ & _ & _ & Gi). destruct (Gi g Eg) as (Hg & _ & _). clear Gi.
  assert (Tj : 1 <= tot p (AClient j)) by (apply (tot_In p r); rewrite Hm; apply in_elt).
  destruct (find _ _) as [j'|] eqn:Ef.
  - apply find_some in Ef as [Hj' Hp]. unfold isPlanned in Hp. destruct (find_act (AClient j') p) as [[r' pv]|] eqn:Fj; [|discriminate].
    assert (j' = j) as ->.
    { apply (G g j' j Hg Hj' Hj); [|exact Tj]. destruct (find_act_spec _ _ _ _ Fj) as (A' & B' & Hm' & _ & _). apply (tot_In p r'). rewrite Hm'. apply in_elt. }
    rewrite (find_act_at (AClient j) p r A B (length A + 1)) in Fj by first [assumption | reflexivity | apply (pk_once d p P); reflexivity].
    injection Fj as <- <-. intros H. apply (replace_sign p r A B i j (length A + 1)); auto. unfold yes, improving in H. cbn [fst snd] in H. apply Z.ltb_ge in H. exact H.
  - exfalso. pose proof (find_none _ _ Ef j Hj) as Z. cbn beta in Z. unfold isPlanned in Z.
    destruct (find_act (AClient j) p) eqn:Fj; [discriminate|]. apply find_act_none in Fj. lia.
Qed.
Theorem replace_client_complete p i j p' : plan_ok d p -> known d (AClient i) -> tot p (AClient i) = 0 ->
  c_required (p_client d j) = false -> c_group (p_client d i) = None -> c_group (p_client d j) = None -> replaced p (AClient j) (AClient i) p' ->
  yes (eval_replace_client d ev (sync d p) (AClient i) (VAct (AClient j))) = false -> (plan_cost d ev p <= plan_cost d ev p')%Z.
Proof.
  intros P K T0 Hq G1 G2 Rp. destruct Rp as [r A B Hr Hm]. unfold eval_replace_client. cbn [sp_mids sync].
  rewrite (proj2 (tot_find (AClient i) p) T0).
  rewrite (find_act_at (AClient j) p r A B (length A + 1)) by first [assumption | reflexivity | apply (pk_once d p P); reflexivity].
  rewrite Hq, G1, G2. cbn [orb]. intros H. apply (replace_sign p r A B i j (length A + 1)); auto. unfold yes, improving in H. cbn [fst snd] in H. apply Z.ltb_ge in H. exact H.
Qed.

(** ** RemoveAdjacentDepot: a removal that does not even keep the cost the same *)
Theorem adjacent_complete p u p' : plan_ok d p -> a_isDepot u = false -> depot_removed p u p' ->
  yes (eval_adjacent d ev (sync d p) u) = false -> (plan_cost d ev p < plan_cost d ev p')%Z.
Proof.
  intros P Hu Rm. unfold eval_adjacent. cbn [sp_mids sync].
  assert (MX : (0 < MAXV)%Z) by reflexivity.
  destruct Rm as [r A x B Hr Hm|r A x B Hr Hm].
  - rewrite (find_act_at u p r (A ++ [ADepot x]) B (length A + 2)) by first [assumption | apply (pk_once d p P); exact Hu | solve [lens] | rewrite Hm; assoc; reflexivity].
    assert (Kx : kind_at (mid_at p r) (length A + 2 - 1) = KAct (ADepot x)) by (rewrite Hm; apply kind_at_app; lia).
    rewrite Kx. cbn [k_isReload a_isDepot].
    destruct (drop_depot d p r A x (u :: B) P Hr Hm) as (Q1 & Q2 & Q3).
    assert (E := one_eval d h ev St true 0 p r A (ADepot x :: u :: B) [] [] (aft (sync d p) r (length A + 2)) (u :: B) (A ++ u :: B) (length A + 2 - 2) P Hr Hm ltac:(lia)).
    cbn [app concat] in E. rewrite E; auto.
    2: { apply (piece_aft d p r (A ++ [ADepot x]) (u :: B)); side Hm. }
    2: { apply has_visit_cons; [exact Hu|apply (fine_ships d _ _ Q2)]. }
    rewrite cost_one_move by auto. set (e := (0 - _ + _)%Z). set (dn := dcost _ _ _ _ _ _). intros K.
    assert (0 < e)%Z; [|unfold e in *; lia]. clearbody e dn. revert K. cbv zeta. unfold yes.
    destruct (k_isReload _); cbn [fst snd]; destruct (Z.ltb_spec e MAXV); cbn [fst snd]; try match goal with |- context [(dn <? ?z)%Z] => destruct (Z.ltb_spec dn z) end;
      cbn [fst snd]; intros K; apply Z.leb_gt in K; lia.
  - rewrite (find_act_at u p r A (ADepot x :: B) (length A + 1)) by first [assumption | apply (pk_once d p P); exact Hu | reflexivity].
    assert (Kx : kind_at (mid_at p r) (length A + 1 + 1) = KAct (ADepot x)).
    { rewrite Hm. replace (A ++ u :: ADepot x :: B) with ((A ++ [u]) ++ ADepot x :: B) by (assoc; reflexivity). apply kind_at_app. lens. }
    rewrite Kx. cbn [k_isReload a_isDepot].
    assert (Hm' : mid_at p r = (A ++ [u]) ++ ADepot x :: B) by (rewrite Hm; assoc; reflexivity).
    destruct (drop_depot d p r (A ++ [u]) x B P Hr Hm') as (Q1 & Q2 & Q3).
    assert (E := one_eval d h ev St true 0 p r (A ++ [u]) (ADepot x :: B) [] [] (aft (sync d p) r (length A + 1 + 2)) B ((A ++ [u]) ++ B) (length A + 1) P Hr Hm' ltac:(lens)).
    cbn [app concat] in E. rewrite E; auto.
    2: { apply (piece_aft d p r (A ++ [u; ADepot x]) B); side Hm. }
    2: { apply (has_visit_in _ u); [apply in_or_app; left; apply in_elt|exact Hu|apply (fine_ships d _ _ Q2)]. }
    assert (Ea : (A ++ [u]) ++ B = A ++ u :: B) by (assoc; reflexivity). rewrite Ea in *.
    rewrite cost_one_move by auto. set (e := (0 - _ + _)%Z). set (dp := dcost _ _ _ _ _ _). intros K.
    assert (0 < e)%Z; [|unfold e in *; lia]. clearbody e dp. revert K. cbv zeta.
    destruct (k_isReload _); cbn [fst snd]; try destruct (Z.ltb_spec dp MAXV); cbn [fst snd];
      match goal with |- context [(e <? ?z)%Z] => destruct (Z.ltb_spec e z) end;
      unfold yes; cbn [fst snd]; intros K; apply Z.leb_gt in K; lia.
Qed.

(** ** InsertOptionalClient *)
Theorem insert_client_complete p i v p' : plan_ok d p -> vref_ok p v -> known d (AClient i) -> tot p (AClient i) = 0 ->
  (forall g, c_group (p_client d i) = Some g -> g_required (p_group d g) = false /\ forall j, In j (g_clients (p_group d g)) -> tot p (AClient j) = 0) ->
  inserted p (AClient i) v p' ->
  yes (eval_insert_client d ev (sync d p) (AClient i) v) = false -> (plan_cost d ev p <= plan_cost d ev p')%Z.
Proof.
  intros P Hv K T0 Hg In_. destruct In_ as [r C D Hr Hm He]. unfold eval_insert_client. cbn [sp_mids sync].
  rewrite (proj2 (tot_find (AClient i) p) T0). rewrite (locate_at p v r C D (length C)) by first [assumption | reflexivity | apply (ref_once d p v P Hv)].
  assert (E : match c_group (p_client d i) with Some g => g_required (p_group d g) || existsb (fun j => isPlanned p (AClient j)) (g_clients (p_group d g)) | None => false end = false).
  { destruct (c_group (p_client d i)) as [g|]; [|reflexivity]. destruct (Hg g eq_refl) as [-> Hj]. cbn [orb].
    destruct (existsb _ _) eqn:Ex; [exfalso|reflexivity]. apply existsb_exists in Ex as (j & Hin & Hp). unfold isPlanned in Hp.
    rewrite (proj2 (tot_find (AClient j) p) (Hj j Hin)) in Hp. discriminate. }
  rewrite E. destruct (client_in d ev p r C D i P Hr Hm K T0) as (Q1 & Q2 & Q3 & Q4).
  intros H. eapply refuse_le; [exact H| |].
  - apply (one_sign d h ev St false (- c_prize (p_client d i)) p r C D [SClient i] [[AClient i]] (aft (sync d p) r (length C + 1)) D (C ++ AClient i :: D)); auto.
    + apply Forall2_cons; [apply piece_client|apply Forall2_nil].
    + apply (piece_aft d p r C D); first [assumption | lia].
  - rewrite Q3, Hm. lia.
Qed.

(** ** InsertOptionalShipment and RelocateShipment *)
Lemma pair_sign p r C M D x y out k k1 k2 k3 (sx sy : seg) (e : Z) : plan_ok d p -> r < length p -> mid_at p r = C ++ M ++ D ->
  mid_piece d sx [x] -> mid_piece d sy [y] -> num_reloads M = 0 ->
  fine_mid d (rveh d r) (C ++ x :: M ++ y :: D) -> a_isDepot x = false -> k = length C ->
  k3 = length C + length M + 1 -> k1 = length C + 1 -> k2 = length C + length M ->
  (M = [] /\ e = dcost d ev false out (bef (sync d p) r k) [sx; sy; aft (sync d p) r k3] \/
   M <> [] /\ e = dcost d ev false out (bef (sync d p) r k) [sx; btw (sync d p) r k1 k2; sy; aft (sync d p) r k3]) ->
  (e <? 0)%Z = (out - rcost d ev (rveh d r) (mid_at p r) + rcost d ev (rveh d r) (C ++ x :: M ++ y :: D) <? 0)%Z.
Proof.
  intros P Hr Hm Px Py RM Q Hx -> -> -> -> HM.
  assert (Hvis : has_visit (C ++ x :: M ++ y :: D) = true) by (apply (has_visit_in _ x); [apply in_elt|exact Hx|apply (fine_ships d _ _ Q)]).
  destruct HM as [[-> ->]|[HM ->]].
  - apply (one_sign d h ev St false out p r C D [sx; sy] [[x]; [y]] (aft (sync d p) r (length C + length (@nil activity) + 1)) D (C ++ x :: y :: D)); auto.
    apply (piece_aft d p r C D); first [assumption | cbn [length]; lia].
  - destruct M as [|z M]; [congruence|].
    apply (one_sign d h ev St false out p r C ((z :: M) ++ D) [sx; btw (sync d p) r (length C + 1) (length C + length (z :: M)); sy] [[x]; z :: M; [y]]
       (aft (sync d p) r (length C + length (z :: M) + 1)) D (C ++ x :: (z :: M) ++ y :: D)); auto.
    + apply Forall2_cons; [exact Px|]. apply Forall2_cons; [|apply Forall2_cons; [exact Py|apply Forall2_nil]].
      apply (piece_btw d p r C z M D); side Hm.
    + apply (piece_aft d p r (C ++ z :: M) D); side Hm.
    + flat.
Qed.
Lemma pair_search z (f0 : Z) (f : nat -> Z) mk0 mk l : yes (if (f0 <? 0)%Z then (f0, true, mk0) else first_improving z f mk l) = false ->
  (0 <= f0)%Z /\ forall x, In x l -> (0 <= f x)%Z.
Proof. destruct (Z.ltb_spec f0 0); [discriminate|]. intros K. split; [assumption|]. apply (first_improving_none z f mk l K). Qed.
Theorem insert_shipment_complete p i v p' : plan_ok d p -> vref_ok p v -> i < p_numShipments d -> tot p (APickup i) = 0 -> ship_inserted p i v p' ->
  yes (eval_insert_shipment d ev (sync d p) (APickup i) v) = false -> (plan_cost d ev p <= plan_cost d ev p')%Z.
Proof.
  intros P Hv K T0 In_. destruct In_ as [r C M D Hr Hm He RM]. unfold eval_insert_shipment. cbn [sp_mids sync].
  rewrite (proj2 (tot_find (APickup i) p) T0). rewrite (locate_at p v r C (M ++ D) (length C)) by first [assumption | reflexivity | apply (ref_once d p v P Hv)].
  pose proof (ship_tot d p i P) as Fd. rewrite T0 in Fd.
  destruct (pair_in d p r C M D i P Hr Hm RM K T0 Fd) as (Q1 & Q2). cbv zeta.
  intros H. apply pair_search in H as [H0 H1].
  assert (C0 : forall t, t = (- s_prize (p_shipment d i) - rcost d ev (rveh d r) (mid_at p r) + rcost d ev (rveh d r) (C ++ APickup i :: M ++ ADelivery i :: D))%Z ->
     plan_cost d ev (upd p r (C ++ APickup i :: M ++ ADelivery i :: D)) = (plan_cost d ev p + t)%Z).
  { intros t ->. rewrite (ship_in_cost d ev p r C M D i 0 _ P Hr Hm K T0 eq_refl). lia. }
  destruct M as [|z M].
  - eapply refuse_le'; [exact H0| |apply C0; reflexivity].
    apply (pair_sign p r C [] D (APickup i) (ADelivery i) (- s_prize (p_shipment d i)) (length C) (length C + 1) (length C) (length C + 1) (SPickup i) (SDelivery i)); auto;
      try (cbn [length]; lia); try apply piece_pickup; try apply piece_delivery.
  - specialize (H1 (length C + length (z :: M))). rewrite Hm in H1. specialize (H1 (trip_rest_in C (z :: M) D RM ltac:(discriminate))).
    eapply refuse_le'; [exact H1| |apply C0; reflexivity].
    apply (pair_sign p r C (z :: M) D (APickup i) (ADelivery i) (- s_prize (p_shipment d i)) (length C) (length C + 1) (length C + length (z :: M)) (length C + length (z :: M) + 1) (SPickup i) (SDelivery i)); auto;
      try apply piece_pickup; try apply piece_delivery. right. split; [discriminate|reflexivity].
Qed.
(** The shipment moves to another route: picked up right after [v], delivered somewhere further along that trip. *)
Theorem shipment_complete p i v p' : plan_ok d p -> vref_ok p v ->
  (exists ru rv A M B C N D, ru <> rv /\ ru < length p /\ rv < length p /\ mid_at p ru = A ++ APickup i :: M ++ ADelivery i :: B /\
     mid_at p rv = C ++ N ++ D /\ ends v rv C /\ num_reloads N = 0 /\ p' = upd (upd p ru (A ++ M ++ B)) rv (C ++ APickup i :: N ++ ADelivery i :: D)) ->
  yes (fst (eval_shipment d ev (sync d p) rc_none (APickup i) v)) = false -> (plan_cost d ev p <= plan_cost d ev p')%Z.
Proof.
  intros P Hv (ru & rv & A & M & B & C & N & D & Hne & Hr & Hrv & Hm & Mv & He & RN & ->). unfold eval_shipment. cbn [sp_mids sync].
  destruct (pair_known p ru A M B i P Hr Hm) as (RM & F1 & F2). rewrite F1, F2.
  rewrite (locate_at p v rv C (N ++ D) (length C)) by first [assumption | reflexivity | apply (ref_once d p v P Hv)].
  rewrite (proj2 (Nat.eqb_neq ru rv) Hne). unfold remove_cost, rc_none. cbn [fst].
  match goal with |- context [dcost d ev false ?f] => assert (EF : f = ship_fresh d ev p ru (length A + 1)) end.
  { unfold ship_fresh. rewrite Hm at 1. rewrite kind_at_app by reflexivity. rewrite F2. reflexivity. }
  rewrite EF, (ship_fresh_ok d h ev St p ru A M B i _ P Hr Hm RM eq_refl). clear EF. set (cost := (rcost _ _ _ _ - _)%Z).
  destruct (pair_out d p ru A M B i P Hr Hm RM) as (P1 & _ & T1 & T2). set (p1 := upd p ru (A ++ M ++ B)) in *.
  destruct (ship_out d ev p ru A M B i P Hr Hm RM) as (_ & C1 & _). fold p1 in C1.
  assert (Mv1 : mid_at p1 rv = C ++ N ++ D) by (unfold p1; rewrite mid_at_other by exact Hne; exact Mv).
  assert (L1 : rv < length p1) by (unfold p1; rewrite upd_length; exact Hrv).
  assert (Ki : i < p_numShipments d) by (apply (known_at d p ru A (APickup i) (M ++ ADelivery i :: B) P Hm)).
  destruct (pair_in d p1 rv C N D i P1 L1 Mv1 RN Ki T1 T2) as (Q1 & Q2).
  pose proof (pk_veh d p ru P Hr) as Vu.
  pose proof (piece_at d p ru A (APickup i) (M ++ ADelivery i :: B) (length A + 1) Hr Vu Hm eq_refl) as Pp.
  pose proof (piece_at d p ru (A ++ APickup i :: M) (ADelivery i) B (length A + length M + 2) Hr Vu ltac:(rewrite Hm; assoc; reflexivity) ltac:(lens)) as Pd.
  assert (C0 : forall t, t = (cost - rcost d ev (rveh d rv) (mid_at p rv) + rcost d ev (rveh d rv) (C ++ APickup i :: N ++ ADelivery i :: D))%Z ->
     plan_cost d ev (upd p1 rv (C ++ APickup i :: N ++ ADelivery i :: D)) = (plan_cost d ev p + t)%Z).
  { intros t ->. rewrite (ship_in_cost d ev p1 rv C N D i 0 _ P1 L1 Mv1 Ki T1 eq_refl). rewrite C1, Mv1, <- Mv. unfold cost. lia. }
  set (cc := (0 <? 0)%Z). clear cc.
  match goal with |- yes (fst (if (?z <? 0)%Z then _ else _)) = false -> _ => intros H; assert (H' : yes (if (z <? 0)%Z then (z, true, MPos (length C + 1)) else
     first_improving 0%Z (fun pos => dcost d ev false cost (bef (sync d p) rv (length C)) [at_ (sync d p) ru (length A + 1); btw (sync d p) rv (length C + 1) pos; at_ (sync d p) ru (length A + length M + 2); aft (sync d p) rv (pos + 1)])
       (fun pos => MPos (pos + 1)) (trip_rest (mid_at p rv) (length C))) = false) by (revert H; destruct (z <? 0)%Z; auto) end.
  clear H. apply pair_search in H' as [H0 H1].
  destruct N as [|z N].
  - eapply refuse_le'; [exact H0| |apply C0; reflexivity].
    apply (pair_sign p rv C [] D (APickup i) (ADelivery i) cost (length C) (length C + 1) (length C) (length C + 1) (at_ (sync d p) ru (length A + 1)) (at_ (sync d p) ru (length A + length M + 2))); auto; cbn [length]; lia.
  - specialize (H1 (length C + length (z :: N))). rewrite Mv in H1. specialize (H1 (trip_rest_in C (z :: N) D RN ltac:(discriminate))).
    eapply refuse_le'; [exact H1| |apply C0; reflexivity].
    apply (pair_sign p rv C (z :: N) D (APickup i) (ADelivery i) cost (length C) (length C + 1) (length C + length (z :: N)) (length C + length (z :: N) + 1) (at_ (sync d p) ru (length A + 1)) (at_ (sync d p) ru (length A + length M + 2))); auto.
    right. split; [discriminate|reflexivity].
Qed.
End Complete2.
