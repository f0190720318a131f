(** All operators: what they do to the plan, to its cost, and what they leave alone. *)
From Verif Require Import Base DurationSegment Data LoadSegment SearchRoute RouteDur Valid ProposalDur ProposalRest Route RouteSpec
  RouteFacts2 RouteFacts3 Cost CostFacts DeltaFacts SearchFacts DataCtor SearchSpace SearchNodes SearchSeq SearchLoad Ops PlanFacts ShipState OpsBase OpsGen OpsMove OpsRelocate OpsSwap OpsOne OpsEdit OpsEdit2.
Local Open Scope nat_scope.

(** ** Effects *)
Definition unary_effect (d : pdata) (o : unary) (p : plan) (u : activity) (p' : plan) : Prop :=
  match o with
  | URelocateDelivery => exists i, u = APickup i /\ delivery_moved p i p'
  | URelocatePickup => exists i, u = APickup i /\ pickup_moved p i p'
  | URemoveAdjacentDepot => depot_removed p u p'
  | URemoveOptionalClient =>
      exists i, u = AClient i /\ c_required (p_client d i) = false /\
        (forall g, c_group (p_client d i) = Some g -> g_required (p_group d g) = false) /\ removed p u p'
  | URemoveOptionalShipment => exists i, u = APickup i /\ s_required (p_shipment d i) = false /\ ship_removed p i p'
  | UReplaceGroup =>
      exists i j g, u = AClient i /\ tot p u = 0 /\ c_group (p_client d i) = Some g /\ In j (g_clients (p_group d g)) /\
        replaced p (AClient j) u p'
  end.
Definition binary_effect (d : pdata) (o : binary) (p : plan) (u : activity) (v : vref) (p' : plan) : Prop :=
  match o with
  | BRelocate n => relocated n p u v p'
  | BSwap n m => exists va, v = VAct va /\ swapped n m p u va p'
  | BSwapTails => tails_swapped p u v p'
  | BInsertOptionalClient =>
      exists i, u = AClient i /\ tot p u = 0 /\
        (forall g, c_group (p_client d i) = Some g -> forall j, In j (g_clients (p_group d g)) -> tot p (AClient j) = 0) /\
        inserted p u v p'
  | BInsertOptionalShipment => exists i, u = APickup i /\ tot p u = 0 /\ ship_inserted p i v p'
  | BRelocateAlternative =>
      exists i j g p1, u = AClient i /\ c_group (p_client d i) = Some g /\ In j (g_clients (p_group d g)) /\ j <> i /\ tot p (AClient j) = 0 /\
        removed p u p1 /\ inserted p1 (AClient j) v p'
  | BRelocateShipment => exists i p1, u = APickup i /\ ship_removed p i p1 /\ ship_inserted p1 i v p'
  | BRelocateWithDepot => exists i p1, u = AClient i /\ removed p u p1 /\ with_depot d p1 u v p'
  | BReplaceOptionalClient =>
      exists i j, u = AClient i /\ v = VAct (AClient j) /\ tot p u = 0 /\ c_required (p_client d j) = false /\
        c_group (p_client d i) = None /\ c_group (p_client d j) = None /\ replaced p (AClient j) u p'
  | BReplaceOptionalShipment =>
      exists i j, u = APickup i /\ (v = VAct (APickup j) \/ v = VAct (ADelivery j)) /\ tot p u = 0 /\
        s_required (p_shipment d j) = false /\ ship_replaced p j i p'
  end.

(** Relocate<N> and Swap<N, M> are instantiated with 0 < N, 0 < M <= N. *)
Definition op_ok (o : binary) : Prop :=
  match o with BRelocate n => 0 < n | BSwap n m => 0 < m /\ m <= n | _ => True end.

Section All.
Variable d : pdata.
Variable h : Z.
Variable ev : evaluator.
Hypothesis St : setting d h ev.

(** ** Improving moves *)
Lemma improving_neg z m delta m' : improving z m = (delta, true, m') -> (delta < 0)%Z.
Proof. intros H. apply improving_inv in H as (H & -> & _). exact H. Qed.
Lemma first_neg {A} z (f : A -> Z) mk l delta m : first_improving z f mk l = (delta, true, m) -> (delta < 0)%Z.
Proof. intros H. apply first_improving_inv in H as (x & _ & -> & H & _). exact H. Qed.
Ltac neg H :=
  cbv zeta in H;
  repeat match type of H with
  | no = _ => discriminate H
  | (no, _) = _ => discriminate H
  | improving _ _ = _ => apply improving_neg in H; exact H
  | first_improving _ _ _ _ = _ => apply first_neg in H; exact H
  | (improving _ _, _) = _ => apply (f_equal fst) in H; cbn [fst] in H
  | (first_improving _ _ _ _, _) = _ => apply (f_equal fst) in H; cbn [fst] in H
  | (let '(_, _) := ?x in _) = _ => destruct x eqn:?
  | match ?x with _ => _ end = _ => destruct x eqn:?
  | (match ?x with _ => _ end, _) = _ => destruct x eqn:?
  | (?z, true, _) = (?delta, true, _) => injection H as H _; subst; apply Z.ltb_lt; assumption
  | ((?z, true, _), _) = (?delta, true, _, _) => injection H as H _; subst; apply Z.ltb_lt; assumption
  end.
Lemma unary_neg o s u delta m : eval_unary d ev o s u = (delta, true, m) -> o <> URemoveAdjacentDepot -> (delta < 0)%Z.
Proof.
  intros H Ho. destruct o; cbn [eval_unary] in H; try contradiction.
  - unfold eval_delivery in H. neg H.
  - unfold eval_pickup in H. neg H.
  - unfold eval_remove_client in H. neg H.
  - unfold eval_remove_shipment in H. neg H.
  - unfold eval_replace_group in H. neg H.
Qed.
Lemma binary_neg o s rc u v delta m rc' : eval_binary d ev o s rc u v = ((delta, true, m), rc') -> (delta < 0)%Z.
Proof.
  intros H. destruct o; cbn [eval_binary] in H.
  - unfold eval_relocate in H. neg H.
  - unfold eval_swap in H. neg H.
  - unfold eval_tails in H. neg H.
  - unfold eval_insert_client in H. neg H.
  - unfold eval_insert_shipment in H. neg H.
  - unfold eval_alternative in H. neg H.
  - unfold eval_shipment in H. neg H.
  - unfold eval_with_depot in H. neg H.
  - unfold eval_replace_client in H. neg H.
  - unfold eval_replace_shipment in H. neg H.
Qed.

(** ** The unary operators *)
Theorem unary_ok o p u delta m : plan_ok d p -> known d u -> a_isDepot u = false ->
  eval_unary d ev o (sync d p) u = (delta, true, m) ->
  unary_effect d o p u (apply_unary o m p u) /\ done d ev p (apply_unary o m p u) delta /\
  ((delta < 0)%Z \/ (delta = 0%Z /\ o = URemoveAdjacentDepot)).
Proof.
  intros P K Hu H.
  assert (X : unary_effect d o p u (apply_unary o m p u) /\ done d ev p (apply_unary o m p u) delta /\ (delta <= 0 \/ o <> URemoveAdjacentDepot)%Z).
  { destruct o; cbn [eval_unary apply_unary unary_effect] in *.
    - destruct (delivery_ok d h ev St p u delta m P H) as (i & ? & ? & ?). split; [eauto|]. split; [assumption|right; discriminate].
    - destruct (pickup_ok d h ev St p u delta m P H) as (i & ? & ? & ?). split; [eauto|]. split; [assumption|right; discriminate].
    - destruct (adjacent_ok d h ev St p u delta m P Hu H) as (? & ? & ?). auto.
    - destruct (remove_client_ok d h ev St p u delta m P H) as (E & D). split; [|split; [exact D|right; discriminate]].
      unfold eval_remove_client in H. destruct u as [|i| |]; try discriminate. exists i. destruct (find_act _ _) as [[? ?]|]; [|discriminate].
      destruct (c_required _ || _) eqn:G; [discriminate|]. apply orb_false_iff in G as [G1 G2]. repeat split; auto.
      intros g Eg. rewrite Eg in G2. exact G2.
    - destruct (remove_shipment_ok d h ev St p u delta m P H) as (i & -> & E & D). split; [|split; [exact D|right; discriminate]].
      unfold eval_remove_shipment in H. exists i. destruct (find_act _ _) as [[? ?]|]; [|discriminate]. destruct (find_act _ _) as [[? ?]|]; [|discriminate].
      destruct (s_required _) eqn:G; [discriminate|]. auto.
    - destruct (replace_group_ok d h ev St p u delta m P K H) as (i & j & g & ? & ? & ? & ? & ? & ?).
      split; [exists i, j, g; auto 8|]. split; [assumption|right; discriminate]. }
  destruct X as (X1 & X2 & X3). split; [exact X1|]. split; [exact X2|].
  destruct o; try (left; apply (unary_neg _ _ _ _ _ H); discriminate).
  destruct X3 as [X3|X3]; [|contradiction]. destruct (Z.eq_dec delta 0); [right; auto|left; lia].
Qed.

(** ** The binary operators *)
Definition rc_ok (o : binary) (p : plan) (rc : rcache) : Prop :=
  (forall u, a_isDepot u = true -> rc u = None) /\
  match o with
  | BRelocate n => rc_valid (reloc_fresh d ev n p) p rc
  | BRelocateShipment => rc_valid (ship_fresh d ev p) p rc
  | BRelocateAlternative => rc_valid (alt_fresh d ev p) p rc
  | BRelocateWithDepot => rc_valid (dep_fresh d ev p) p rc
  | _ => True
  end.
Theorem binary_ok o p rc u v delta m rc' : plan_ok d p -> op_ok o -> known d u -> a_isDepot u = false -> vref_ok p v -> v <> VAct u ->
  group_once d p -> rc_ok o p rc -> eval_binary d ev o (sync d p) rc u v = ((delta, true, m), rc') ->
  binary_effect d o p u v (apply_binary o m p u v) /\ done d ev p (apply_binary o m p u v) delta /\ (delta < 0)%Z.
Proof.
  intros P Ho K Hu Hv Hvu G Hrc H. pose proof (binary_neg _ _ _ _ _ _ _ _ H) as Hneg.
  assert (X : binary_effect d o p u v (apply_binary o m p u v) /\ done d ev p (apply_binary o m p u v) delta); [|tauto].
  destruct o; cbn [eval_binary apply_binary binary_effect op_ok] in *; apply proj2 in Hrc;
    try match type of H with (_, rc) = _ => apply (f_equal fst) in H; cbn [fst] in H end.
  - exact (relocate_ok d h ev St n p rc u v delta m rc' P Ho Hu Hv Hrc H).
  - destruct Ho as [Ho1 Ho2]. destruct (swap_ok d h ev St n m0 p u v delta m P Ho1 Ho2 Hu Hv H) as (va & ? & ? & ?). split; [eauto|assumption].
  - apply (tails_ok d h ev St p u v delta m P Hu Hv H).
  - destruct (insert_client_ok d h ev St p u v delta m P K Hv H) as (T & E & D). split; [|exact D].
    unfold eval_insert_client in H. cbn [sp_mids sync] in H. destruct u as [|i| |]; try discriminate. exists i. repeat split; auto.
    destruct (find_act _ _) as [[? ?]|]; [discriminate|]. destruct (locate _ _) as [[? ?]|]; [|discriminate].
    intros g Eg j Hj. rewrite Eg in H. destruct (g_required _ || _) eqn:B; [discriminate|]. apply orb_false_iff in B as [_ B].
    destruct (Nat.eq_dec (tot p (AClient j)) 0) as [|Z]; [assumption|exfalso].
    assert (B' : existsb (fun j0 => isPlanned p (AClient j0)) (g_clients (p_group d g)) = true); [|congruence].
    apply existsb_exists. exists j. split; [exact Hj|]. rewrite isPlanned_tot. apply Nat.leb_le. lia.
  - destruct (insert_shipment_ok d h ev St p u v delta m P K Hv H) as (i & ? & ? & ? & ?). split; [eauto|assumption].
  - destruct (alternative_ok d h ev St p rc u v delta m rc' P G Hv Hrc H) as (i & j & g & p1 & ? & ? & ? & ? & ? & ? & ? & ?).
    split; [exists i, j, g, p1; auto 10|assumption].
  - destruct (shipment_ok d h ev St p rc u v delta m rc' P Hv Hrc H) as (i & p1 & ? & ? & ? & ?). split; [exists i, p1; auto|assumption].
  - destruct (with_depot_ok d h ev St p rc u v delta m rc' P Hv Hvu Hrc H) as (i & p1 & ? & ? & ? & ?). split; [exists i, p1; auto|assumption].
  - destruct (replace_client_ok d h ev St p u v delta m P K H) as (a & -> & ? & ? & ?). split; [|assumption].
    unfold eval_replace_client in H. destruct u as [|i| |]; try discriminate. destruct a as [|j| |]; try discriminate. exists i, j.
    destruct (find_act _ _) as [[? ?]|]; [discriminate|]. destruct (find_act _ _) as [[? ?]|]; [|discriminate].
    destruct (c_required (p_client d j)) eqn:E1; [discriminate|]. destruct (c_group (p_client d i)) eqn:E2; [discriminate|].
    destruct (c_group (p_client d j)) eqn:E3; [discriminate|]. repeat split; auto.
  - destruct (replace_shipment_ok d h ev St p u v delta m P K H) as (i & j & -> & Ej & ? & ? & ?). split; [|assumption].
    exists i, j. repeat split; auto. unfold eval_replace_shipment in H. cbn [sp_mids sync] in H.
    assert (X : match find_act (APickup i) p, find_act (APickup j) p, find_act (ADelivery j) p with
                | None, Some _, Some _ => s_required (p_shipment d j) = false | _, _, _ => False end).
    { destruct Ej as [-> | ->]; destruct (find_act (APickup i) p) as [[? ?]|]; try discriminate;
        destruct (find_act (APickup j) p) as [[? ?]|]; try discriminate; destruct (find_act (ADelivery j) p) as [[? ?]|]; try discriminate;
        destruct (s_required _); [discriminate|reflexivity|discriminate|reflexivity]. }
    destruct (find_act (APickup i) p), (find_act (APickup j) p), (find_act (ADelivery j) p); tauto.
Qed.

(** ** Remembered remove costs *)
Ltac costs R H :=
  cbv zeta in H;
  repeat match type of H with
  | (_, _) = (_, _) => apply (f_equal snd) in H; cbn [snd] in H; subst; first [left; reflexivity | eapply R; eassumption]
  | (let '(_, _) := ?x in _) = _ => destruct x eqn:?
  | match ?x with _ => _ end = _ => destruct x eqn:?
  end.
Theorem eval_keeps_costs o p rc u v res rc' : plan_ok d p -> a_isDepot u = false -> rc_ok o p rc -> eval_binary d ev o (sync d p) rc u v = (res, rc') -> rc_ok o p rc'.
Proof.
  intros P Hu [Hdep Hrc] H.
  assert (Hdep' : forall a, a_isDepot a = true -> rc' a = None).
  { assert (X : rc' = rc \/ exists z, rc' = rc_set rc u z).
    { assert (R : forall z c rc1, remove_cost rc u z = (c, rc1) -> rc1 = rc \/ exists z, rc1 = rc_set rc u z).
      { intros z c rc1. unfold remove_cost. destruct (rc u); intros E; injection E as _ <-; eauto. }
      destruct o; cbn [eval_binary] in H; try (injection H as _ <-; left; reflexivity).
      - unfold eval_relocate in H. costs R H.
      - unfold eval_alternative in H. costs R H.
      - unfold eval_shipment in H. costs R H.
      - unfold eval_with_depot in H. costs R H. }
    destruct X as [->|[z ->]]; [exact Hdep|]. intros a Ha. unfold rc_set. destruct (a_eqb a u) eqn:E; [|auto]. apply a_eqb_eq in E. congruence. }
  split; [exact Hdep'|]. clear Hdep Hdep'.
  destruct o; cbn [eval_binary] in *; auto.
  - unfold eval_relocate in H. cbn [sp_mids sync] in H.
    destruct (find_act u p) as [[ru pu]|] eqn:Fu; [|injection H as _ <-; exact Hrc].
    destruct (locate p v) as [[rv pv]|]; [|injection H as _ <-; exact Hrc].
    destruct (hasDepot _ _ _ _ || splitsShipment _ _ _ _ _); [injection H as _ <-; exact Hrc|].
    destruct (_ && _); [injection H as _ <-; exact Hrc|]. destruct (negb _).
    + destruct (remove_cost _ _ _) as [c rc1] eqn:E. apply (f_equal snd) in H. cbn [snd] in H. subst rc1.
      apply (remove_cost_valid (reloc_fresh d ev n p) p rc u ru pu c rc' Hrc Fu E).
    + destruct (_ <? _); apply (f_equal snd) in H; cbn [snd] in H; subst; exact Hrc.
  - unfold eval_alternative in H. cbn [sp_mids sync] in H.
    destruct u as [|i| |]; try (injection H as _ <-; exact Hrc).
    destruct (find_act (AClient i) p) as [[ru pu]|] eqn:Fu; [|injection H as _ <-; exact Hrc].
    destruct (locate p v) as [[rv pv]|]; [|injection H as _ <-; exact Hrc].
    destruct (_ && _); [injection H as _ <-; exact Hrc|].
    destruct (c_group _) as [g|]; [|injection H as _ <-; exact Hrc].
    destruct (ru =? rv). { destruct (negb _); apply (f_equal snd) in H; cbn [snd] in H; subst; exact Hrc. }
    destruct (remove_cost _ _ _) as [c rc1] eqn:E. apply (f_equal snd) in H. cbn [snd] in H. subst rc1.
    assert (F : alt_fresh d ev p ru pu = (if (nClients (sync d p) ru =? 1) && (nShipments (sync d p) ru =? 0) then (c_prize (p_client d i) - pcost ev (sync d p) ru)%Z
      else dcost d ev true (c_prize (p_client d i)) (bef (sync d p) ru (pu - 1)) [aft (sync d p) ru (pu + 1)])).
    { unfold alt_fresh. destruct (find_act_spec _ _ _ _ Fu) as (A & B & Mu & Hpu & Hru). rewrite Mu, (kind_at_app A (AClient i) B pu Hpu). reflexivity. }
    rewrite <- F in E. apply (remove_cost_valid (alt_fresh d ev p) p rc (AClient i) ru pu c rc' Hrc Fu E).
  - unfold eval_shipment in H. cbn [sp_mids sync] in H.
    destruct u as [| |i|]; try (injection H as _ <-; exact Hrc).
    destruct (find_act (APickup i) p) as [[ru pp]|] eqn:Fu; [|injection H as _ <-; exact Hrc].
    destruct (find_act (ADelivery i) p) as [[rd pd]|] eqn:Fd; [|injection H as _ <-; exact Hrc].
    destruct (locate p v) as [[rv pv]|]; [|injection H as _ <-; exact Hrc].
    destruct (ru =? rv); [injection H as _ <-; exact Hrc|].
    destruct (remove_cost _ _ _) as [c rc1] eqn:E.
    assert (rc1 = rc') as -> by (destruct (_ <? 0)%Z in H; apply (f_equal snd) in H; exact H). clear H.
    refine (proj2 (remove_cost_valid (ship_fresh d ev p) p rc (APickup i) ru pp c rc' Hrc Fu _)). rewrite <- E. f_equal.
    unfold ship_fresh. destruct (find_act_spec _ _ _ _ Fu) as (A & B & Mu & Hpu & Hru). rewrite Mu, (kind_at_app A (APickup i) B pp Hpu), Fd. reflexivity.
  - unfold eval_with_depot in H. cbn [sp_mids sync] in H.
    destruct u as [|i| |]; try (injection H as _ <-; exact Hrc).
    destruct (find_act (AClient i) p) as [[ru pu]|] eqn:Fu; [|injection H as _ <-; exact Hrc].
    destruct (locate p v) as [[rv pv]|]; [|injection H as _ <-; exact Hrc]. cbv zeta in H.
    destruct (_ || _); [injection H as _ <-; exact Hrc|]. destruct (_ =? _)%Z; [injection H as _ <-; exact Hrc|].
    destruct (_ && _); [injection H as _ <-; exact Hrc|]. destruct (negb _); [injection H as _ <-; exact Hrc|].
    destruct (ru =? rv); [apply (f_equal snd) in H; cbn [snd] in H; subst; exact Hrc|].
    destruct (remove_cost _ _ _) as [c rc1] eqn:E. apply (f_equal snd) in H. cbn [snd] in H. subst rc1.
    apply (remove_cost_valid (dep_fresh d ev p) p rc (AClient i) ru pu c rc' Hrc Fu E).
Qed.

(** Routes other than [rs] are as they were. *)
Definition touched (p p' : plan) (rs : list nat) : Prop :=
  length p' = length p /\ forall r, ~ In r rs -> mid_at p' r = mid_at p r.

Definition rc_forget_all (p : plan) (rs : list nat) (rc : rcache) : rcache := fold_left (fun rc r => rc_forget (mid_at p r) rc) rs rc.
Lemma forget_all_spec p rs : forall rc u z, rc_forget_all p rs rc u = Some z -> rc u = Some z /\ forall r, In r rs -> ~ In u (mid_at p r).
Proof.
  induction rs as [|r rs IH]; intros rc u z H; cbn [rc_forget_all fold_left] in H; [split; [exact H|intros ? []]|].
  destruct (IH _ _ _ H) as [H1 H2]. unfold rc_forget in H1. destruct (existsb (a_eqb u) (mid_at p r)) eqn:E; [discriminate|].
  split; [exact H1|]. intros r' [<-|Hin]; [|auto]. intros Hu. apply Bool.not_true_iff_false in E. apply E. apply existsb_exists. exists u. split; [exact Hu|apply eqb_refl].
Qed.
Lemma sync_other p p' r : length p' = length p -> r < length p -> mid_at p' r = mid_at p r -> cache_at (sync d p') r = cache_at (sync d p) r.
Proof. intros L Hr M. rewrite !cache_sync by lia. rewrite M. reflexivity. Qed.
Lemma find_other p p' u r pos : length p' = length p -> tot p u <= 1 -> mid_at p' r = mid_at p r -> find_act u p' = Some (r, pos) -> find_act u p = Some (r, pos).
Proof.
  intros L T M F. destruct (find_act_spec _ _ _ _ F) as (A & B & Hm & Hp & Hr). rewrite M in Hm. apply (find_act_at u p r A B pos); auto. lia.
Qed.
Theorem forget_ok o p p' rs rc : plan_ok d p -> plan_ok d p' -> touched p p' rs -> rc_ok o p rc -> rc_ok o p' (rc_forget_all p' rs rc).
Proof.
  intros P P' [L T] [Hd H]. split.
  { intros u Hu. destruct (rc_forget_all p' rs rc u) as [z|] eqn:E; [|reflexivity]. apply forget_all_spec in E as [E _]. rewrite Hd in E by exact Hu. discriminate. }
  assert (G : forall f f', rc_valid f p rc ->
    (forall u r pos, r < length p -> cache_at (sync d p') r = cache_at (sync d p) r -> mid_at p' r = mid_at p r ->
        find_act u p = Some (r, pos) -> find_act u p' = Some (r, pos) -> f' r pos = f r pos) ->
    rc_valid f' p' (rc_forget_all p' rs rc)).
  { intros f f' Hv Hf u z Hz r pos F. destruct (forget_all_spec _ _ _ _ _ Hz) as [Hz' Hn].
    destruct (find_act_spec _ _ _ _ F) as (A & B & Hm & Hp & Hr).
    assert (Hnr : ~ In r rs) by (intros Hin; apply (Hn r Hin); rewrite Hm; apply in_elt).
    destruct (a_isDepot u) eqn:Hu; [rewrite Hd in Hz' by exact Hu; discriminate|].
    assert (F' : find_act u p = Some (r, pos)) by (apply (find_other p p'); auto; apply (pk_once d p P u Hu)).
    rewrite (Hf u r pos); auto; [exact (Hv u z Hz' r pos F')|lia|]. apply sync_other; auto. lia. }
  destruct o; auto.
  - apply (G (reloc_fresh d ev n p)); auto. intros u r pos Hr Hc Hm F F'. unfold reloc_fresh, nClients, nShipments, pcost, bef, aft. rewrite Hc. reflexivity.
  - apply (G (alt_fresh d ev p)); auto. intros u r pos Hr Hc Hm F F'. unfold alt_fresh, nClients, nShipments, pcost, bef, aft. rewrite Hc, Hm. reflexivity.
  - apply (G (ship_fresh d ev p)); auto. intros u r pos Hr Hc Hm F F'. unfold ship_fresh, nClients, nShipments, pcost, bef, aft, btw. rewrite Hc, Hm.
    destruct (find_act_spec _ _ _ _ F) as (A & B & Hu & Hp & _). rewrite Hu, (kind_at_app A u B pos Hp). destruct u as [| |i|]; auto.
    destruct (ship_at d p i r pos P F) as (A1 & M1 & B1 & Hm1 & _ & _ & Hp1 & F1). destruct (ship_at d p' i r pos P' F') as (A2 & M2 & B2 & Hm2 & _ & _ & Hp2 & F2).
    assert (E : length A2 + length M2 + 2 = length A1 + length M1 + 2); [|rewrite F1, F2, E; reflexivity].
    rewrite Hm in Hm2. assert (Some (r, length A2 + length M2 + 2) = find_act (ADelivery i) p) as E; [|rewrite F1 in E; injection E as E; lia].
    symmetry. apply (find_act_at _ p r (A2 ++ APickup i :: M2) B2); auto.
    + rewrite Hm2. assoc. reflexivity.
    + apply (pk_once d p P); reflexivity.
    + lens.
  - apply (G (dep_fresh d ev p)); auto. intros u r pos Hr Hc Hm F F'. unfold dep_fresh, nClients, nShipments, pcost, bef, aft. rewrite Hc. reflexivity.
Qed.

(** ** Routes left alone *)
Definition homes (p : plan) (u : activity) : list nat := match find_act u p with Some (r, _) => [r] | None => [] end.
Lemma home_of p u r A B : plan_ok d p -> a_isDepot u = false -> r < length p -> mid_at p r = A ++ u :: B -> homes p u = [r].
Proof. intros P Hu Hr Hm. unfold homes. rewrite (find_act_at u p r A B (length A + 1)); auto. apply (pk_once d p P u Hu). Qed.
Lemma touched_one p r m rs : In r rs -> touched p (upd p r m) rs.
Proof. intros Hr. split; [apply upd_length|]. intros r' Hn. apply mid_at_other. intros ->. contradiction. Qed.
Lemma touched_trans p q q' rs : touched p q rs -> touched q q' rs -> touched p q' rs.
Proof. intros [L H] [L' H']. split; [congruence|]. intros r Hr. rewrite H', H; auto. Qed.
Lemma touched_two p r m r' m' rs : In r rs -> In r' rs -> touched p (upd (upd p r m) r' m') rs.
Proof. intros H H'. eapply touched_trans; apply touched_one; assumption. Qed.
Lemma ref_home p v r C D rv pv : plan_ok d p -> vref_ok p v -> r < length p -> mid_at p r = C ++ D -> ends v r C -> locate p v = Some (rv, pv) -> rv = r.
Proof.
  intros P Hv Hr Hm He F. rewrite (locate_at p v r C D (length C)) in F; auto; [congruence|]. intros a ->. apply (pk_once d p P a Hv).
Qed.
(** A visit of the plan with a visit taken out was there before. *)
Lemma ref_home_sub p p1 v r C D rv pv : plan_ok d p -> vref_ok p v -> r < length p -> (forall r a, In a (mid_at p1 r) -> In a (mid_at p r)) ->
  mid_at p1 r = C ++ D -> ends v r C -> locate p v = Some (rv, pv) -> rv = r.
Proof.
  intros P Hv Hr Hsub Hm He F. destruct v as [a|r']; cbn [ends locate vref_ok] in *.
  - destruct He as [C' ->]. assert (Hin : In a (mid_at p r)) by (apply Hsub; rewrite Hm, <- app_assoc; apply in_elt).
    apply in_split in Hin as (A & B & Hin). rewrite (find_act_at a p r A B (length A + 1)) in F; auto; [congruence|]. apply (pk_once d p P a Hv).
  - destruct He as [-> _]. congruence.
Qed.
Lemma removed_sub p u p1 : removed p u p1 -> forall r a, In a (mid_at p1 r) -> In a (mid_at p r).
Proof.
  intros [r0 A B Hr Hm] r a. rewrite mid_at_upd by exact Hr. destruct (Nat.eqb_spec r0 r) as [<-|]; [|auto]. rewrite Hm, !in_app_iff. cbn. tauto.
Qed.
Lemma ship_removed_sub p i p1 : ship_removed p i p1 -> forall r a, In a (mid_at p1 r) -> In a (mid_at p r).
Proof.
  intros [r0 A M B Hr Hm] r a. rewrite mid_at_upd by exact Hr. destruct (Nat.eqb_spec r0 r) as [<-|]; [|auto]. rewrite Hm. rewrite !in_app_iff. cbn. rewrite in_app_iff. cbn. tauto.
Qed.

Lemma unary_touched o p u p' : plan_ok d p -> plan_ok d p' -> a_isDepot u = false -> unary_effect d o p u p' ->
  (1 <= tot p u -> touched p p' (homes p u)) /\ (tot p u = 0 -> touched p p' (homes p' u) /\ 1 <= tot p' u).
Proof.
  intros P P' Hu E.
  assert (K : forall r A B m, r < length p -> mid_at p r = A ++ u :: B ->
     (1 <= tot p u -> touched p (upd p r m) (homes p u)) /\ (tot p u = 0 -> touched p (upd p r m) (homes (upd p r m) u) /\ 1 <= tot (upd p r m) u)).
  { intros r A B m Hr Hm. rewrite (home_of p u r A B) by assumption. split; [intros _; apply touched_one; left; reflexivity|].
    intros Z. exfalso. pose proof (tot_In p r u) as I. rewrite Hm in I. specialize (I (in_elt _ _ _)). lia. }
  destruct o; cbn [unary_effect] in E.
  - destruct E as (i & -> & [r A M B M' B' Hr Hm _ _]). eapply K; eauto.
  - destruct E as (i & -> & [r A M B A' M' Hr Hm _ _]). eapply K; eauto.
  - inversion E as [r A x B Hr Hm | r A x B Hr Hm]; subst.
    + apply (K r (A ++ [ADepot x]) B (A ++ u :: B)); auto. rewrite Hm. assoc. reflexivity.
    + eapply K; eauto.
  - destruct E as (i & _ & _ & _ & [r A B Hr Hm]). eapply K; eauto.
  - destruct E as (i & -> & _ & [r A M B Hr Hm]). eapply K; eauto.
  - destruct E as (i & j & g & -> & T & _ & _ & E). inversion E as [r A B Hr Hm Eq]. subst p'. split; [lia|]. intros _.
    rewrite (home_of _ (AClient i) r A B P'); [|reflexivity|rewrite upd_length; exact Hr|rewrite mid_at_same by exact Hr; reflexivity].
    split; [apply touched_one; left; reflexivity|]. apply (tot_In _ r). rewrite mid_at_same by exact Hr. apply in_elt.
Qed.

Lemma binary_touched o p u v p' rv pv : plan_ok d p -> a_isDepot u = false -> vref_ok p v -> locate p v = Some (rv, pv) -> binary_effect d o p u v p' ->
  touched p p' (homes p u ++ [rv]).
Proof.
  intros P Hu Hv F E.
  destruct o; cbn [binary_effect] in E.
  - inversion E as [ru rv' A S B C D Hne Hru Hrv Mu Hl Mv He _ | r A S M b D Hr Hm Hl Ev | r C M S B Hr Hm Hl He]; subst.
    + rewrite (home_of p u ru A (S ++ B)) by auto. rewrite (ref_home p v rv' C D rv pv) by auto. apply touched_two; cbn; auto.
    + rewrite (home_of p u r A (S ++ (M ++ [b]) ++ D)) by auto. apply touched_one; cbn; auto.
    + rewrite (home_of p u r (C ++ M) (S ++ B)); auto; [apply touched_one; cbn; auto|]. rewrite Hm. assoc. reflexivity.
  - destruct E as (va & -> & E). inversion E as [ru rv' A S B C T D Hne Hru Hrv Mu Mv _ _ _ _ | r A S M T B Hr Hm _ _ | r A S M T B Hr Hm _ _]; subst.
    + rewrite (home_of p u ru A (S ++ B)) by auto. rewrite (ref_home p (VAct va) rv' (C ++ [va]) (T ++ D) rv pv); auto.
      * apply touched_two; cbn; auto.
      * rewrite Mv. assoc. reflexivity.
      * exists C. reflexivity.
    + rewrite (home_of p u r A (S ++ M ++ (va :: T) ++ B)) by auto. apply touched_one; cbn; auto.
    + rewrite (home_of p u r (A ++ (va :: T) ++ M) (S ++ B)); auto; [apply touched_one; cbn; auto|]. rewrite Hm. assoc. reflexivity.
  - destruct E as [ru rv' A B C D Hne Hru Hrv Mu Mv He _ _]. rewrite (home_of p u ru A B); auto; [|rewrite Mu; assoc; reflexivity].
    rewrite (ref_home p v rv' C D rv pv) by auto. apply touched_two; cbn; auto.
  - destruct E as (i & -> & _ & _ & [r C D Hr Hm He]). rewrite (ref_home p v r C D rv pv) by auto. apply touched_one, in_elt.
  - destruct E as (i & -> & _ & [r C M D Hr Hm He _]). rewrite (ref_home p v r C (M ++ D) rv pv) by auto. apply touched_one, in_elt.
  - destruct E as (i & j & g & p1 & -> & _ & _ & _ & _ & R & [r C D Hr Hm He]). pose proof (removed_sub _ _ _ R) as Hs.
    destruct R as [ru A B Hru Mu]. rewrite upd_length in Hr. rewrite (home_of p (AClient i) ru A B) by auto.
    rewrite (ref_home_sub p _ v r C D rv pv P Hv Hr Hs Hm He F). apply touched_two; cbn; auto.
  - destruct E as (i & p1 & -> & R & [r C M D Hr Hm He _]). pose proof (ship_removed_sub _ _ _ R) as Hs.
    destruct R as [ru A M1 B Hru Mu]. rewrite upd_length in Hr. rewrite (home_of p (APickup i) ru A (M1 ++ ADelivery i :: B)) by auto.
    rewrite (ref_home_sub p _ v r C (M ++ D) rv pv P Hv Hr Hs Hm He F). apply touched_two; cbn; auto.
  - destruct E as (i & p1 & -> & R & W). pose proof (removed_sub _ _ _ R) as Hs. destruct R as [ru A B Hru Mu].
    rewrite (home_of p (AClient i) ru A B) by auto.
    inversion W as [r C D x Hr Hm He | r C D x Hr Hm He]; subst; rewrite upd_length in Hr;
      rewrite (ref_home_sub p _ v r C D rv pv P Hv Hr Hs Hm He F); apply touched_two; cbn; auto.
  - destruct E as (i & j & -> & -> & _ & _ & _ & _ & [r A B Hr Hm]). rewrite (ref_home p (VAct (AClient j)) r (A ++ [AClient j]) B rv pv); auto.
    + apply touched_one, in_elt.
    + rewrite Hm. assoc. reflexivity.
    + exists A. reflexivity.
  - destruct E as (i & j & -> & Ej & _ & _ & [r A M B Hr Hm]).
    assert (rv = r) as ->; [|apply touched_one, in_elt]. destruct Ej as [-> | ->].
    + apply (ref_home p (VAct (APickup j)) r (A ++ [APickup j]) (M ++ ADelivery j :: B) rv pv); auto; [rewrite Hm; assoc; reflexivity|exists A; reflexivity].
    + apply (ref_home p (VAct (ADelivery j)) r (A ++ APickup j :: M ++ [ADelivery j]) B rv pv); auto; [rewrite Hm; assoc; reflexivity|].
      exists (A ++ APickup j :: M). assoc. reflexivity.
Qed.

(** ** What is planned *)
Record structured (p : plan) : Prop := mk_structured {
  sr_clients : forall i, i < p_numClients d -> c_required (p_client d i) = true -> 1 <= tot p (AClient i);
  sr_ships : forall i, i < p_numShipments d -> s_required (p_shipment d i) = true -> 1 <= tot p (APickup i);
  sr_groups : forall g, g < p_numGroups d -> g_required (p_group d g) = true -> exists i, In i (g_clients (p_group d g)) /\ 1 <= tot p (AClient i);
  sr_once : group_once d p }.

Lemma same_structured p p' : (forall a, a_isDepot a = false -> tot p' a = tot p a) -> structured p -> structured p'.
Proof.
  intros E [A B C D]. constructor.
  - intros i Hi R. rewrite E by reflexivity. auto.
  - intros i Hi R. rewrite E by reflexivity. auto.
  - intros g Hg R. destruct (C g Hg R) as (i & Hi & T). exists i. rewrite E by reflexivity. auto.
  - intros g i j Hg Hi Hj. rewrite !E by reflexivity. exact (D g i j Hg Hi Hj).
Qed.
Lemma removed_tot p u p' a : removed p u p' -> tot p' a + (if a_eqb a u then 1 else 0) = tot p a.
Proof. intros [r A B Hr Hm]. pose proof (tot_upd p r (A ++ B) a Hr) as T. rewrite Hm in T. counts. Qed.
Lemma inserted_tot p u v p' a : inserted p u v p' -> tot p' a = tot p a + (if a_eqb a u then 1 else 0).
Proof. intros [r A B Hr Hm _]. pose proof (tot_upd p r (A ++ u :: B) a Hr) as T. rewrite Hm in T. counts. Qed.
Lemma replaced_tot p u u' p' a : replaced p u u' p' -> tot p' a + (if a_eqb a u then 1 else 0) = tot p a + (if a_eqb a u' then 1 else 0).
Proof. intros [r A B Hr Hm]. pose proof (tot_upd p r (A ++ u' :: B) a Hr) as T. rewrite Hm in T. counts. Qed.
Lemma ship_removed_tot p i p' a : ship_removed p i p' -> tot p' a + (if a_eqb a (APickup i) then 1 else 0) + (if a_eqb a (ADelivery i) then 1 else 0) = tot p a.
Proof. intros [r A M B Hr Hm]. pose proof (tot_upd p r (A ++ M ++ B) a Hr) as T. rewrite Hm in T. counts. Qed.
Lemma ship_inserted_tot p i v p' a : ship_inserted p i v p' -> tot p' a = tot p a + (if a_eqb a (APickup i) then 1 else 0) + (if a_eqb a (ADelivery i) then 1 else 0).
Proof. intros [r A M B Hr Hm]. pose proof (tot_upd p r (A ++ APickup i :: M ++ ADelivery i :: B) a Hr) as T. rewrite Hm in T. counts. Qed.
Lemma ship_replaced_tot p j i p' a : ship_replaced p j i p' ->
  tot p' a + (if a_eqb a (APickup j) then 1 else 0) + (if a_eqb a (ADelivery j) then 1 else 0)
  = tot p a + (if a_eqb a (APickup i) then 1 else 0) + (if a_eqb a (ADelivery i) then 1 else 0).
Proof. intros [r A M B Hr Hm]. pose proof (tot_upd p r (A ++ APickup i :: M ++ ADelivery i :: B) a Hr) as T. rewrite Hm in T. counts. Qed.

Lemma a_eqb_client i j : a_eqb (AClient i) (AClient j) = (i =? j).
Proof. reflexivity. Qed.
Ltac bits := unfold a_eqb in *; repeat match goal with
  | |- context [?x =? ?y] => destruct (Nat.eqb_spec x y); subst
  | H : context [?x =? ?y] |- _ => destruct (Nat.eqb_spec x y); subst end.

Lemma group_member g i : g < p_numGroups d -> In i (g_clients (p_group d g)) -> i < p_numClients d /\ c_group (p_client d i) = Some g /\ c_required (p_client d i) = false.
Proof.
  intros Hg Hi. pose proof (st_data d h ev St) as D. destruct (do_groups d D g Hg) as [_ G]. destruct (G i Hi) as [Hn Gi]. split; [exact Hn|]. split; [exact Gi|].
  destruct (do_clients d D i Hn) as (_ & _ & _ & X). destruct (X g Gi) as (_ & _ & R). exact R.
Qed.

(** Client [j] is replaced by client [i] of the same group. *)
Lemma group_swap p p' i j g : structured p -> c_group (p_client d i) = Some g -> i < p_numClients d -> In j (g_clients (p_group d g)) -> i <> j -> 1 <= tot p (AClient j) ->
  (forall k, tot p' (APickup k) = tot p (APickup k)) -> (forall k, k <> i -> k <> j -> tot p' (AClient k) = tot p (AClient k)) ->
  1 <= tot p' (AClient i) -> tot p' (AClient j) = 0 -> structured p'.
Proof.
  intros [A B C D] Gi Hi Hj Hne Tj E F Ti T0.
  destruct (do_clients d (st_data d h ev St) i Hi) as (_ & _ & _ & X). destruct (X g Gi) as (Hg & Ii & _).
  constructor.
  - intros k Hk R. destruct (Nat.eq_dec k i) as [->|Ni]; [exact Ti|]. destruct (Nat.eq_dec k j) as [->|Nj].
    + destruct (group_member g j Hg Hj) as (_ & _ & Z). congruence.
    + rewrite F by assumption. auto.
  - intros k Hk R. rewrite E. auto.
  - intros g' Hg' R. destruct (C g' Hg' R) as (k & Hk & T). destruct (Nat.eq_dec k j) as [->|Nj].
    + destruct (group_member g j Hg Hj) as (_ & G1 & _). destruct (group_member g' j Hg' Hk) as (_ & G2 & _).
      assert (g' = g) as -> by congruence. exists i. auto.
    + exists k. split; [exact Hk|]. destruct (Nat.eq_dec k i) as [->|Ni]; [exact Ti|]. rewrite F by assumption. exact T.
  - intros g' k l Hg' Hk Hl Tk Tl.
    assert (N : forall x, In x (g_clients (p_group d g')) -> 1 <= tot p' (AClient x) -> x = i \/ (x <> i /\ x <> j /\ 1 <= tot p (AClient x))).
    { intros x Hx Tx. destruct (Nat.eq_dec x i) as [->|Ni]; [auto|right]. destruct (Nat.eq_dec x j) as [->|Nj]; [lia|]. rewrite <- F by assumption. auto. }
    assert (O : forall x, In i (g_clients (p_group d g')) -> In x (g_clients (p_group d g')) -> x <> i -> x <> j -> 1 <= tot p (AClient x) -> False).
    { intros x H1 H2 Ni Nj Tx. destruct (group_member g' i Hg' H1) as (_ & G1 & _). assert (g' = g) as -> by congruence.
      apply Nj. exact (D g x j Hg H2 Hj Tx Tj). }
    destruct (N k Hk Tk) as [->|(K1 & K2 & K3)], (N l Hl Tl) as [->|(L1 & L2 & L3)].
    + reflexivity.
    + destruct (O l); auto.
    + destruct (O k); auto.
    + exact (D g' k l Hg' Hk Hl K3 L3).
Qed.

Theorem unary_structured o p u p' : plan_ok d p -> plan_ok d p' -> known d u -> unary_effect d o p u p' -> structured p -> structured p'.
Proof.
  intros P P' Ku E Sp. destruct o; cbn [unary_effect] in E.
  - destruct E as (i & -> & [r A M B M' B' Hr Hm Hs _]). apply (same_structured p); [|exact Sp]. intros a _.
    pose proof (tot_upd p r (A ++ APickup i :: M' ++ ADelivery i :: B') a Hr) as T. apply (f_equal (fun l => cnt l a)) in Hs. rewrite Hm in T. counts.
  - destruct E as (i & -> & [r A M B A' M' Hr Hm Hs _]). apply (same_structured p); [|exact Sp]. intros a _.
    pose proof (tot_upd p r (A' ++ APickup i :: M' ++ ADelivery i :: B) a Hr) as T. apply (f_equal (fun l => cnt l a)) in Hs. rewrite Hm in T. counts.
  - apply (same_structured p); [|exact Sp]. intros a Ha. inversion E as [r A x B Hr Hm | r A x B Hr Hm]; subst;
      pose proof (tot_upd p r (A ++ u :: B) a Hr) as T; rewrite Hm in T; autorewrite with cnts in T; destruct a; cbn in Ha; try discriminate; unfold a_eqb in T; lia.
  - destruct E as (i & -> & R & G & E). pose proof (fun a => removed_tot _ _ _ a E) as T. destruct Sp as [SA SB SC SD]. constructor.
    + intros k Hk Rk. specialize (SA k Hk Rk). specialize (T (AClient k)). rewrite a_eqb_client in T. destruct (Nat.eqb_spec k i); [congruence|lia].
    + intros k Hk Rk. specialize (SB k Hk Rk). specialize (T (APickup k)). cbn in T. lia.
    + intros g Hg Rg. destruct (SC g Hg Rg) as (k & Hk & Tk). exists k. split; [exact Hk|]. specialize (T (AClient k)). rewrite a_eqb_client in T.
      destruct (Nat.eqb_spec k i) as [Eki|]; [subst k|lia]. destruct (group_member g i Hg Hk) as (_ & Gi & _). rewrite (G g Gi) in Rg. discriminate.
    + intros g k l Hg Hk Hl Tk Tl. apply (SD g k l Hg Hk Hl); [specialize (T (AClient k))|specialize (T (AClient l))]; lia.
  - destruct E as (i & -> & R & E). pose proof (fun a => ship_removed_tot _ _ _ a E) as T. destruct Sp as [SA SB SC SD]. constructor.
    + intros k Hk Rk. specialize (SA k Hk Rk). specialize (T (AClient k)). cbn in T. lia.
    + intros k Hk Rk. specialize (SB k Hk Rk). specialize (T (APickup k)). change (a_eqb (APickup k) (APickup i)) with (k =? i) in T.
      change (a_eqb (APickup k) (ADelivery i)) with false in T. destruct (Nat.eqb_spec k i); [congruence|lia].
    + intros g Hg Rg. destruct (SC g Hg Rg) as (k & Hk & Tk). exists k. split; [exact Hk|]. specialize (T (AClient k)). cbn in T. lia.
    + intros g k l Hg Hk Hl Tk Tl. apply (SD g k l Hg Hk Hl); [specialize (T (AClient k))|specialize (T (AClient l))]; cbn in T; lia.
  - destruct E as (i & j & g & -> & T0 & Gi & Hj & E). pose proof (fun a => replaced_tot _ _ _ _ a E) as T.
    assert (Tj : 1 <= tot p (AClient j)). { destruct E as [r A B Hr Hm]. apply (tot_In p r). rewrite Hm. apply in_elt. }
    assert (Hne : i <> j) by (intros ->; lia).
    apply (group_swap p p' i j g Sp Gi Ku Hj Hne Tj).
    + intros k. specialize (T (APickup k)). cbn in T. lia.
    + intros k K1 K2. specialize (T (AClient k)). rewrite !a_eqb_client in T. destruct (Nat.eqb_spec k i), (Nat.eqb_spec k j); try contradiction. lia.
    + specialize (T (AClient i)). rewrite !a_eqb_client, Nat.eqb_refl in T. destruct (Nat.eqb_spec i j); [contradiction|lia].
    + specialize (T (AClient j)). rewrite !a_eqb_client, Nat.eqb_refl in T. destruct (Nat.eqb_spec j i); [congruence|].
      pose proof (pk_once d p P (AClient j) eq_refl). lia.
Qed.

Theorem binary_structured o p u v p' : plan_ok d p -> plan_ok d p' -> known d u -> binary_effect d o p u v p' -> structured p -> structured p'.
Proof.
  intros P P' Ku E Sp. destruct o; cbn [binary_effect] in E.
  - apply (same_structured p); [|exact Sp]. intros a _.
    inversion E as [ru rv' A S B C D Hne Hru Hrv Mu Hl Mv He _ | r A S M b D Hr Hm Hl Ev | r C M S B Hr Hm Hl He]; subst.
    + pose proof (tot_two_upd p ru rv' (A ++ B) (C ++ (u :: S) ++ D) a Hru Hrv Hne) as T. rewrite Mu, Mv in T. counts.
    + pose proof (tot_upd p r (A ++ (M ++ [b]) ++ (u :: S) ++ D) a Hr) as T. rewrite Hm in T. counts.
    + pose proof (tot_upd p r (C ++ (u :: S) ++ M ++ B) a Hr) as T. rewrite Hm in T. counts.
  - apply (same_structured p); [|exact Sp]. intros a _. destruct E as (va & -> & E).
    inversion E as [ru rv' A S B C T D Hne Hru Hrv Mu Mv _ _ _ _ | r A S M T B Hr Hm _ _ | r A S M T B Hr Hm _ _]; subst.
    + pose proof (tot_two_upd p ru rv' (A ++ (va :: T) ++ B) (C ++ (u :: S) ++ D) a Hru Hrv Hne) as X. rewrite Mu, Mv in X. counts.
    + pose proof (tot_upd p r (A ++ (va :: T) ++ M ++ (u :: S) ++ B) a Hr) as X. rewrite Hm in X. counts.
    + pose proof (tot_upd p r (A ++ (u :: S) ++ M ++ (va :: T) ++ B) a Hr) as X. rewrite Hm in X. counts.
  - apply (same_structured p); [|exact Sp]. intros a _. destruct E as [ru rv' A B C D Hne Hru Hrv Mu Mv He _ _].
    pose proof (tot_two_upd p ru rv' ((A ++ [u]) ++ D) (C ++ B) a Hru Hrv Hne) as X. rewrite Mu, Mv in X. counts.
  - destruct E as (i & -> & T0 & G & E). pose proof (fun a => inserted_tot _ _ _ _ a E) as T. destruct Sp as [SA SB SC SD]. constructor.
    + intros k Hk Rk. rewrite T. specialize (SA k Hk Rk). lia.
    + intros k Hk Rk. rewrite T. specialize (SB k Hk Rk). lia.
    + intros g Hg Rg. destruct (SC g Hg Rg) as (k & Hk & Tk). exists k. split; [exact Hk|]. rewrite T. lia.
    + intros g k l Hg Hk Hl Tk Tl. rewrite T, a_eqb_client in Tk, Tl.
      destruct (Nat.eqb_spec k i) as [->|Nk], (Nat.eqb_spec l i) as [->|Nl]; auto.
      * destruct (group_member g i Hg Hk) as (_ & Gi & _). pose proof (G g Gi l Hl). lia.
      * destruct (group_member g i Hg Hl) as (_ & Gi & _). pose proof (G g Gi k Hk). lia.
      * apply (SD g k l Hg Hk Hl); lia.
  - destruct E as (i & -> & T0 & E). pose proof (fun a => ship_inserted_tot _ _ _ _ a E) as T. destruct Sp as [SA SB SC SD]. constructor.
    + intros k Hk Rk. rewrite T. specialize (SA k Hk Rk). lia.
    + intros k Hk Rk. rewrite T. specialize (SB k Hk Rk). lia.
    + intros g Hg Rg. destruct (SC g Hg Rg) as (k & Hk & Tk). exists k. split; [exact Hk|]. rewrite T. lia.
    + intros g k l Hg Hk Hl Tk Tl. rewrite T in Tk, Tl. cbn in Tk, Tl. apply (SD g k l Hg Hk Hl); lia.
  - destruct E as (i & j & g & p1 & -> & Gi & Hj & Hne & T0 & E1 & E2).
    pose proof (fun a => removed_tot _ _ _ a E1) as T1. pose proof (fun a => inserted_tot _ _ _ _ a E2) as T2.
    assert (Ti : 1 <= tot p (AClient i)). { specialize (T1 (AClient i)). rewrite eqb_refl in T1. lia. }
    destruct (do_clients d (st_data d h ev St) i Ku) as (_ & _ & _ & X). destruct (X g Gi) as (Hg & Ii & _).
    destruct (group_member g j Hg Hj) as (Hjn & Gj & _).
    apply (group_swap p p' j i g Sp Gj Hjn Ii Hne Ti).
    + intros k. rewrite T2. specialize (T1 (APickup k)). cbn in *. lia.
    + intros k K1 K2. rewrite T2. specialize (T1 (AClient k)). rewrite !a_eqb_client in *. destruct (Nat.eqb_spec k i), (Nat.eqb_spec k j); try contradiction. lia.
    + rewrite T2, eqb_refl. lia.
    + rewrite T2. specialize (T1 (AClient i)). rewrite eqb_refl in T1. rewrite a_eqb_client. destruct (Nat.eqb_spec i j); [congruence|].
      pose proof (pk_once d p P (AClient i) eq_refl). lia.
  - apply (same_structured p); [|exact Sp]. intros a _. destruct E as (i & p1 & -> & E1 & E2).
    rewrite (ship_inserted_tot _ _ _ _ a E2). pose proof (ship_removed_tot _ _ _ a E1). lia.
  - apply (same_structured p); [|exact Sp]. intros a Ha. destruct E as (i & p1 & -> & E1 & W). pose proof (removed_tot _ _ _ a E1) as T1.
    inversion W as [r C D x Hr Hm He | r C D x Hr Hm He]; subst;
      match goal with |- tot (upd p1 r ?m) a = _ => pose proof (tot_upd p1 r m a Hr) as T end; rewrite Hm in T; autorewrite with cnts in T;
      destruct a; cbn in Ha; try discriminate; unfold a_eqb in *; lia.
  - destruct E as (i & j & -> & -> & T0 & Rj & Gi & Gj & E). pose proof (fun a => replaced_tot _ _ _ _ a E) as T. destruct Sp as [SA SB SC SD]. constructor.
    + intros k Hk Rk. specialize (SA k Hk Rk). specialize (T (AClient k)). rewrite !a_eqb_client in T. destruct (Nat.eqb_spec k j); [congruence|lia].
    + intros k Hk Rk. specialize (SB k Hk Rk). specialize (T (APickup k)). cbn in T. lia.
    + intros g Hg Rg. destruct (SC g Hg Rg) as (k & Hk & Tk). exists k. split; [exact Hk|]. specialize (T (AClient k)). rewrite !a_eqb_client in T.
      destruct (Nat.eqb_spec k j) as [Ekj|]; [subst k|lia]. destruct (group_member g j Hg Hk) as (_ & G & _). congruence.
    + intros g k l Hg Hk Hl Tk Tl.
      assert (N : forall x, In x (g_clients (p_group d g)) -> 1 <= tot p' (AClient x) -> 1 <= tot p (AClient x)).
      { intros x Hx Tx. specialize (T (AClient x)). rewrite !a_eqb_client in T. destruct (Nat.eqb_spec x i) as [Exi|]; [subst x|lia].
        destruct (group_member g i Hg Hx) as (_ & G & _). congruence. }
      apply (SD g k l Hg Hk Hl); auto.
  - destruct E as (i & j & -> & _ & T0 & R & E). pose proof (fun a => ship_replaced_tot _ _ _ _ a E) as T. destruct Sp as [SA SB SC SD]. constructor.
    + intros k Hk Rk. specialize (SA k Hk Rk). specialize (T (AClient k)). cbn in T. lia.
    + intros k Hk Rk. specialize (SB k Hk Rk). specialize (T (APickup k)). change (a_eqb (APickup k) (APickup j)) with (k =? j) in T.
      change (a_eqb (APickup k) (ADelivery j)) with false in T. destruct (Nat.eqb_spec k j); [congruence|lia].
    + intros g Hg Rg. destruct (SC g Hg Rg) as (k & Hk & Tk). exists k. split; [exact Hk|]. specialize (T (AClient k)). cbn in T. lia.
    + intros g k l Hg Hk Hl Tk Tl. apply (SD g k l Hg Hk Hl); [specialize (T (AClient k))|specialize (T (AClient l))]; cbn in T; lia.
Qed.

(** ** Reload depots *)
Definition depots_in (p : plan) : nat := num_reloads (concat p).
Lemma depots_upd p r m : r < length p -> depots_in (upd p r m) + num_reloads (mid_at p r) = depots_in p + num_reloads m.
Proof.
  unfold depots_in. revert r. induction p as [|l p IH]; intros r Hr; cbn [length] in Hr; [lia|]. destruct r as [|r]; cbn [upd concat mid_at nth].
  - rewrite !num_reloads_app. unfold mid_at. cbn [nth]. lia.
  - rewrite !num_reloads_app. specialize (IH r ltac:(lia)). unfold mid_at in *. cbn [nth]. lia.
Qed.
Lemma adjacent_depots p u p' : depot_removed p u p' -> depots_in p' + 1 = depots_in p.
Proof.
  intros E. inversion E as [r A x B Hr Hm | r A x B Hr Hm]; subst; pose proof (depots_upd p r (A ++ u :: B) Hr) as T; rewrite Hm in T;
    rewrite !num_reloads_app, !num_reloads_cons in T; cbn [a_isDepot] in T; lia.
Qed.
End All.
