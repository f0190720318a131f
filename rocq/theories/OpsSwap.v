(** Swap: the plan after the move, and its cost. *)
From Verif Require Import Base DurationSegment Data LoadSegment SearchRoute RouteDur Valid ProposalDur ProposalRest Route RouteSpec
  RouteFacts2 RouteFacts3 Cost CostFacts DeltaFacts SearchFacts DataCtor SearchSpace SearchNodes SearchSeq SearchLoad Ops PlanFacts ShipState OpsBase OpsGen OpsMove OpsRelocate.
Local Open Scope nat_scope.

(** The [n] nodes from [u] on and the [m] nodes from [v] on changed places; no reload depot changes route. *)
Inductive swapped (n m : nat) (p : plan) (u v : activity) : plan -> Prop :=
| Swap_across ru rv A S B C T D : ru <> rv -> ru < length p -> rv < length p ->
    mid_at p ru = A ++ (u :: S) ++ B -> mid_at p rv = C ++ (v :: T) ++ D -> length (u :: S) = n -> length (v :: T) = m ->
    num_reloads (u :: S) = 0 -> num_reloads (v :: T) = 0 ->
    swapped n m p u v (upd (upd p ru (A ++ (v :: T) ++ B)) rv (C ++ (u :: S) ++ D))
| Swap_later r A S M T B : r < length p -> mid_at p r = A ++ (u :: S) ++ M ++ (v :: T) ++ B ->
    length (u :: S) = n -> length (v :: T) = m ->
    swapped n m p u v (upd p r (A ++ (v :: T) ++ M ++ (u :: S) ++ B))
| Swap_earlier r A S M T B : r < length p -> mid_at p r = A ++ (v :: T) ++ M ++ (u :: S) ++ B ->
    length (u :: S) = n -> length (v :: T) = m ->
    swapped n m p u v (upd p r (A ++ (u :: S) ++ M ++ (v :: T) ++ B)).

Section Swap.
Variable d : pdata.
Variable h : Z.
Variable ev : evaluator.
Hypothesis St : setting d h ev.

Lemma swap_segs p ru rv A sg B C tg D : plan_ok d p -> ru < length p -> rv < length p -> ru <> rv ->
  mid_at p ru = A ++ sg ++ B -> mid_at p rv = C ++ tg ++ D -> ships_ok sg -> num_reloads sg = 0 -> ships_ok tg -> num_reloads tg = 0 ->
  plan_ok d (upd (upd p ru (A ++ tg ++ B)) rv (C ++ sg ++ D)) /\ fine_mid d (rveh d ru) (A ++ tg ++ B) /\ fine_mid d (rveh d rv) (C ++ sg ++ D).
Proof.
  intros P Hu Hv Hne Mu Mv Ss Rs St' Rt.
  pose proof (wf_known' d p ru P) as Ku. pose proof (wf_trips' d p ru P Hu) as Tu. pose proof (plan_ships d p ru P) as Su.
  pose proof (wf_known' d p rv P) as Kv. pose proof (wf_trips' d p rv P Hv) as Tv. pose proof (plan_ships d p rv P) as Sv.
  rewrite Mu in Ku, Tu, Su. rewrite Mv in Kv, Tv, Sv.
  assert (O : forall i, cnt (A ++ sg ++ B) (APickup i) + cnt (C ++ tg ++ D) (APickup i) <= 1).
  { intros i. pose proof (tot_two p ru rv (APickup i) Hne) as O. pose proof (pk_once d p P (APickup i) eq_refl). rewrite Mu, Mv in O. lia. }
  apply two_routes; auto.
  - knowns.
  - knowns.
  - apply ships_insert; auto; [|intros i; specialize (O i); counts].
    apply (ships_delete A sg B); auto. intros i. specialize (O i). counts.
  - apply ships_insert; auto; [|intros i; specialize (O i); counts].
    apply (ships_delete C tg D); auto. intros i. specialize (O i). counts.
  - reloads.
  - reloads.
  - intros a Ha. pose proof (pk_once d p P a Ha). rewrite Mu, Mv. counts.
Qed.
Lemma swap_segs_within p r A sg M tg B : plan_ok d p -> r < length p ->
  mid_at p r = A ++ sg ++ M ++ tg ++ B -> ships_ok sg -> num_reloads sg = 0 -> ships_ok tg -> num_reloads tg = 0 ->
  let m' := A ++ tg ++ M ++ sg ++ B in
  plan_ok d (upd p r m') /\ fine_mid d (rveh d r) m' /\ (forall a, cnt m' a = cnt (mid_at p r) a).
Proof.
  intros P Hr Hm Ss Rs St' Rt m'.
  pose proof (wf_known' d p r P) as K. pose proof (wf_trips' d p r P Hr) as T. pose proof (plan_ships d p r P) as Sh.
  rewrite Hm in K, T, Sh.
  assert (O : forall i, cnt (A ++ sg ++ M ++ tg ++ B) (APickup i) <= 1).
  { intros i. pose proof (mid_once d p r P (APickup i) eq_refl) as O. rewrite Hm in O. exact O. }
  assert (C : forall a, cnt m' a = cnt (mid_at p r) a) by (intros a; rewrite Hm; unfold m'; counts).
  assert (X : plan_ok d (upd p r m') /\ fine_mid d (rveh d r) m'); [|tauto].
  apply one_route; auto; unfold m'.
  - knowns.
  - apply ships_insert; auto; [|intros i; specialize (O i); counts].
    rewrite (app_assoc A M). apply ships_insert; auto; [|intros i; specialize (O i); counts].
    rewrite <- app_assoc. apply (ships_delete A sg (M ++ B)); auto; [|intros i; specialize (O i); counts].
    rewrite (app_assoc sg), (app_assoc A). apply (ships_delete (A ++ sg ++ M) tg B); auto; [|intros i; specialize (O i); counts].
    revert Sh. assoc. auto.
  - reloads.
  - intros a Ha. fold m'. rewrite C. pose proof (pk_once d p P a Ha). lia.
Qed.

Lemma split_seg (u : activity) (S : list activity) m : 0 < m <= length S + 1 ->
  exists U1 U2, S = U1 ++ U2 /\ length U1 = m - 1 /\ length U2 = length S + 1 - m.
Proof. intros H. destruct (split_at S (m - 1) ltac:(lia)) as (U1 & U2 & -> & HU). exists U1, U2. lens. repeat split; lia. Qed.

(** apply(), given where the segments are *)
Section Apply.
Variable p : plan.
Hypothesis P : plan_ok d p.
Variables (u v : activity) (S T : list activity).
Hypothesis RU : num_reloads (u :: S) = 0.
Hypothesis RV : num_reloads (v :: T) = 0.
Hypothesis Hlen : length T <= length S.
Let n := length S + 1.
Let m := length T + 1.
Lemma swap_once : forall x, In x (u :: S) \/ In x (v :: T) -> once p x.
Proof. intros x [Hx|Hx]; apply (pk_once d p P); [apply (num_reloads_In (u :: S))|apply (num_reloads_In (v :: T))]; assumption. Qed.

Lemma apply_swap_across ru rv A B C D : ru <> rv -> ru < length p -> rv < length p ->
  mid_at p ru = A ++ (u :: S) ++ B -> mid_at p rv = C ++ (v :: T) ++ D ->
  apply_swap n m p u (VAct v) = upd (upd p ru (A ++ (v :: T) ++ B)) rv (C ++ (u :: S) ++ D).
Proof.
  intros Hne Hu Hv Mu Mv. pose proof swap_once as Ho. unfold apply_swap, n, m. cbn [locate].
  rewrite (find_act_at u p ru A (S ++ B) (length A + 1)) by first [assumption | reflexivity | apply Ho; left; left; reflexivity].
  rewrite (find_act_at v p rv C (T ++ D) (length C + 1)) by first [assumption | reflexivity | apply Ho; right; left; reflexivity].
  destruct (seg_last u S) as (X & a & EX & LX). destruct (seg_last v T) as (Y & b & EY & LY).
  replace (mid_at p ru) with ((A ++ X) ++ a :: B) by (rewrite Mu, EX; assoc; reflexivity).
  replace (mid_at p rv) with ((C ++ Y) ++ b :: D) by (rewrite Mv, EY; assoc; reflexivity).
  rewrite !kind_at_app by lens.
  destruct (split_seg u S (length T + 1) ltac:(lia)) as (U1 & U2 & ES & L1 & L2). 
  assert (E1 : move_after (length S + 1 - (length T + 1)) p ru a rv (VAct b)
               = upd (upd p ru (A ++ (u :: U1) ++ B)) rv (C ++ (v :: T) ++ U2 ++ D)).
  { destruct (Nat.eq_dec (length U2) 0) as [Z|Z].
    - destruct U2; [|discriminate]. rewrite app_nil_r in ES. subst U1.
      replace (length S + 1 - (length T + 1)) with 0 by (cbn in L2; lia). cbn [move_after].
      rewrite (upd_same_id p ru) by exact Mu. symmetry. apply upd_same_id. rewrite Mv. reflexivity.
    - destruct (last_split U2) as (X2 & a2 & EU2); [intros ->; apply Z; reflexivity|].
      assert (a2 = a) as ->.
      { rewrite ES, EU2 in EX. replace (u :: U1 ++ X2 ++ [a2]) with ((u :: U1 ++ X2) ++ [a2]) in EX by (assoc; reflexivity). apply app_inj_tail in EX as [_ ->]. reflexivity. }
      replace (length S + 1 - (length T + 1)) with (Datatypes.S (length X2)) by (rewrite EU2 in L2; lens).
      rewrite (move_across ru rv (VAct b) Hne B (C ++ v :: T) D (A ++ u :: U1) X2 p [] a); auto.
      + rewrite <- EU2. assoc. reflexivity.
      + rewrite Mu, ES, EU2. assoc. reflexivity.
      + rewrite Mv. assoc. reflexivity.
      + exists (C ++ Y). rewrite EY. assoc. reflexivity.
      + intros x Hx. apply Ho. left. right. rewrite ES. apply in_or_app. right. rewrite EU2. exact Hx.
      + intros x Ex. injection Ex as <-. apply Ho. right. rewrite EY. apply in_elt. }
  rewrite E1. set (p1 := upd _ _ _).
  assert (Ht : forall x, tot p1 x = tot p x).
  { intros x. unfold p1. pose proof (tot_two_upd p ru rv (A ++ (u :: U1) ++ B) (C ++ (v :: T) ++ U2 ++ D) x Hu Hv Hne) as E. rewrite Mu, Mv, ES in E. cbn [app] in *. counts. }
  rewrite Nat.add_1_r. 
  rewrite (swap_across (length T) U1 T p1 ru rv A B C (U2 ++ D) u v); auto.
  - unfold p1. rewrite upd2_same by exact Hne. rewrite ES. assoc. reflexivity.
  - unfold p1. rewrite !upd_length. exact Hu.
  - unfold p1. rewrite !upd_length. exact Hv.
  - lia.
  - unfold p1. rewrite mid_at_other by congruence. apply mid_at_same. exact Hu.
  - unfold p1. apply mid_at_same. rewrite upd_length. exact Hv.
  - intros x Hx. unfold once. rewrite Ht. apply Ho. destruct Hx as [Hx|Hx]; [left|right; exact Hx].
    rewrite ES. destruct Hx as [->|Hx]; [left; reflexivity|right; apply in_or_app; left; exact Hx].
Qed.
Lemma apply_swap_later r A M B : r < length p -> mid_at p r = A ++ (u :: S) ++ M ++ (v :: T) ++ B ->
  apply_swap n m p u (VAct v) = upd p r (A ++ (v :: T) ++ M ++ (u :: S) ++ B).
Proof.
  intros Hr Hm. pose proof swap_once as Ho. unfold apply_swap, n, m. cbn [locate].
  rewrite (find_act_at u p r A (S ++ M ++ (v :: T) ++ B) (length A + 1)) by first [assumption | reflexivity | apply Ho; left; left; reflexivity].
  rewrite (find_act_at v p r (A ++ (u :: S) ++ M) (T ++ B) (length (A ++ (u :: S) ++ M) + 1))
    by first [assumption | reflexivity | apply Ho; right; left; reflexivity | rewrite Hm; assoc; reflexivity].
  destruct (seg_last u S) as (X & a & EX & LX). destruct (seg_last v T) as (Y & b & EY & LY).
  assert (Ka : kind_at (mid_at p r) (length A + 1 + (length S + 1) - 1) = KAct a).
  { replace (mid_at p r) with ((A ++ X) ++ a :: M ++ (v :: T) ++ B) by (rewrite Hm, EX; assoc; reflexivity). apply kind_at_app. lens. }
  assert (Kb : kind_at (mid_at p r) (length (A ++ (u :: S) ++ M) + 1 + (length T + 1) - 1) = KAct b).
  { replace (mid_at p r) with ((A ++ (u :: S) ++ M ++ Y) ++ b :: B) by (rewrite Hm, EY; assoc; reflexivity). apply kind_at_app. lens. }
  rewrite Ka, Kb.
  destruct (split_seg u S (length T + 1) ltac:(lia)) as (U1 & U2 & ES & L1 & L2).
  assert (E1 : move_after (length S + 1 - (length T + 1)) p r a r (VAct b) = upd p r (A ++ (u :: U1) ++ M ++ (v :: T) ++ U2 ++ B)).
  { destruct (Nat.eq_dec (length U2) 0) as [Z|Z].
    - destruct U2; [|discriminate]. rewrite app_nil_r in ES. subst U1.
      replace (length S + 1 - (length T + 1)) with 0 by (cbn in L2; lia). cbn [move_after].
      symmetry. apply upd_same_id. rewrite Hm. reflexivity.
    - destruct (last_split U2) as (X2 & a2 & EU2); [intros ->; apply Z; reflexivity|].
      assert (a2 = a) as ->.
      { rewrite ES, EU2 in EX. replace (u :: U1 ++ X2 ++ [a2]) with ((u :: U1 ++ X2) ++ [a2]) in EX by (assoc; reflexivity). apply app_inj_tail in EX as [_ ->]. reflexivity. }
      replace (length S + 1 - (length T + 1)) with (Datatypes.S (length X2)) by (rewrite EU2 in L2; lens).
      rewrite (move_later r (A ++ u :: U1) (M ++ Y) b B X2 p [] a); auto.
      + rewrite <- EU2, EY. assoc. reflexivity.
      + rewrite Hm, ES, EU2, EY. assoc. reflexivity.
      + intros x Hx. apply Ho. left. right. rewrite ES. apply in_or_app. right. rewrite EU2. exact Hx.
      + apply Ho. right. rewrite EY. apply in_elt. }
  rewrite E1. set (p1 := upd _ _ _).
  assert (Ht : forall x, tot p1 x = tot p x).
  { intros x. unfold p1. pose proof (tot_upd p r (A ++ (u :: U1) ++ M ++ (v :: T) ++ U2 ++ B) x Hr) as E. rewrite Hm, ES in E. cbn [app] in *. counts. }
  rewrite Nat.add_1_r.
  rewrite (swap_within (length T) true U1 T p1 r A M (U2 ++ B) u v); auto.
  - unfold p1. rewrite upd_upd, ES. assoc. reflexivity.
  - unfold p1. rewrite upd_length. exact Hr.
  - lia.
  - unfold p1. apply mid_at_same. exact Hr.
  - intros x Hx. unfold once. rewrite Ht. apply Ho. destruct Hx as [Hx|Hx]; [left|right; exact Hx].
    rewrite ES. destruct Hx as [->|Hx]; [left; reflexivity|right; apply in_or_app; left; exact Hx].
Qed.
Lemma apply_swap_earlier r A M B : r < length p -> mid_at p r = A ++ (v :: T) ++ M ++ (u :: S) ++ B ->
  apply_swap n m p u (VAct v) = upd p r (A ++ (u :: S) ++ M ++ (v :: T) ++ B).
Proof.
  intros Hr Hm. pose proof swap_once as Ho. unfold apply_swap, n, m. cbn [locate].
  rewrite (find_act_at v p r A (T ++ M ++ (u :: S) ++ B) (length A + 1)) by first [assumption | reflexivity | apply Ho; right; left; reflexivity].
  rewrite (find_act_at u p r (A ++ (v :: T) ++ M) (S ++ B) (length (A ++ (v :: T) ++ M) + 1))
    by first [assumption | reflexivity | apply Ho; left; left; reflexivity | rewrite Hm; assoc; reflexivity].
  destruct (seg_last u S) as (X & a & EX & LX). destruct (seg_last v T) as (Y & b & EY & LY).
  assert (Kb : kind_at (mid_at p r) (length A + 1 + (length T + 1) - 1) = KAct b).
  { replace (mid_at p r) with ((A ++ Y) ++ b :: M ++ (u :: S) ++ B) by (rewrite Hm, EY; assoc; reflexivity). apply kind_at_app. lens. }
  assert (Ka : kind_at (mid_at p r) (length (A ++ (v :: T) ++ M) + 1 + (length S + 1) - 1) = KAct a).
  { replace (mid_at p r) with ((A ++ (v :: T) ++ M ++ X) ++ a :: B) by (rewrite Hm, EX; assoc; reflexivity). apply kind_at_app. lens. }
  rewrite Ka, Kb.
  destruct (split_seg u S (length T + 1) ltac:(lia)) as (U1 & U2 & ES & L1 & L2).
  assert (E1 : move_after (length S + 1 - (length T + 1)) p r a r (VAct b) = upd p r (A ++ (v :: T) ++ (U2 ++ M) ++ (u :: U1) ++ B)).
  { destruct (Nat.eq_dec (length U2) 0) as [Z|Z].
    - destruct U2; [|discriminate]. rewrite app_nil_r in ES. subst U1.
      replace (length S + 1 - (length T + 1)) with 0 by (cbn in L2; lia). cbn [move_after].
      symmetry. apply upd_same_id. rewrite Hm. reflexivity.
    - destruct (last_split U2) as (X2 & a2 & EU2); [intros ->; apply Z; reflexivity|].
      assert (a2 = a) as ->.
      { rewrite ES, EU2 in EX. replace (u :: U1 ++ X2 ++ [a2]) with ((u :: U1 ++ X2) ++ [a2]) in EX by (assoc; reflexivity). apply app_inj_tail in EX as [_ ->]. reflexivity. }
      replace (length S + 1 - (length T + 1)) with (Datatypes.S (length X2)) by (rewrite EU2 in L2; lens).
      rewrite (move_earlier r (VAct b) (A ++ v :: T) (M ++ u :: U1) B X2 p [] a); auto.
      + rewrite <- EU2. assoc. reflexivity.
      + rewrite Hm, ES, EU2. assoc. reflexivity.
      + exists (A ++ Y). rewrite EY. assoc. reflexivity.
      + intros x Hx. apply Ho. left. right. rewrite ES. apply in_or_app. right. rewrite EU2. exact Hx.
      + intros x Ex. injection Ex as <-. apply Ho. right. rewrite EY. apply in_elt. }
  rewrite E1. set (p1 := upd _ _ _).
  assert (Ht : forall x, tot p1 x = tot p x).
  { intros x. unfold p1. pose proof (tot_upd p r (A ++ (v :: T) ++ (U2 ++ M) ++ (u :: U1) ++ B) x Hr) as E. rewrite Hm, ES in E. cbn [app] in *. counts. }
  rewrite Nat.add_1_r.
  rewrite (swap_within (length T) false T U1 p1 r A (U2 ++ M) B v u); auto.
  - unfold p1. rewrite upd_upd, ES. assoc. reflexivity.
  - unfold p1. rewrite upd_length. exact Hr.
  - lia.
  - unfold p1. apply mid_at_same. exact Hr.
  - intros x Hx. unfold once. rewrite Ht. apply Ho. destruct Hx as [Hx|Hx]; [right; exact Hx|left].
    rewrite ES. destruct Hx as [->|Hx]; [left; reflexivity|right; apply in_or_app; left; exact Hx].
Qed.
End Apply.

Lemma cons_form {A} (l : list A) : l <> [] -> exists x y, l = x :: y.
Proof. destruct l; [congruence|eauto]. Qed.

Lemma within_pieces_ok p r A x M1 y M2 B z M3 (m' := A ++ (z :: M3) ++ (y :: M2) ++ (x :: M1) ++ B) k1 k2 k3 k4 k5 k6 k7 k8 :
  plan_ok d p -> r < length p -> mid_at p r = A ++ (x :: M1) ++ (y :: M2) ++ (z :: M3) ++ B ->
  num_reloads M1 = 0 -> num_reloads (y :: M2) = 0 -> num_reloads M3 = 0 -> a_isDepot x = false ->
  fine_mid d (rveh d r) m' -> (forall a, cnt m' a = cnt (mid_at p r) a) ->
  k1 = length A -> k2 = length A + length M1 + length M2 + 3 -> k3 = k2 + length M3 ->
  k4 = length A + length M1 + 2 -> k5 = k4 + length M2 -> k6 = length A + 1 -> k7 = k6 + length M1 -> k8 = k3 + 1 ->
  let e := dcost d ev false 0 (bef (sync d p) r k1) [btw (sync d p) r k2 k3; btw (sync d p) r k4 k5; btw (sync d p) r k6 k7; aft (sync d p) r k8] in
  (e < 0)%Z -> plan_cost d ev (upd p r m') = (plan_cost d ev p + e)%Z.
Proof.
  intros P Hr Hm R1 R2 R3 Hx Q2 Q3 -> -> -> -> -> -> -> -> e Hneg.
  destruct (dcost_ok d h ev St false 0 r p (bef (sync d p) r (length A))
    [btw (sync d p) r (length A + length M1 + length M2 + 3) (length A + length M1 + length M2 + 3 + length M3);
     btw (sync d p) r (length A + length M1 + 2) (length A + length M1 + 2 + length M2);
     btw (sync d p) r (length A + 1) (length A + 1 + length M1)]
    (aft (sync d p) r (length A + length M1 + length M2 + 3 + length M3 + 1))
    A [z :: M3; y :: M2; x :: M1] B m' Hr (pk_veh d p r P Hr) eq_refl) as [Hd _].
  - apply (piece_bef d p r A ((x :: M1) ++ (y :: M2) ++ (z :: M3) ++ B)); auto.
  - apply Forall2_cons; [|apply Forall2_cons; [|apply Forall2_cons; [|apply Forall2_nil]]].
    + apply (piece_btw d p r (A ++ (x :: M1) ++ (y :: M2)) z M3 B); side Hm.
    + apply (piece_btw d p r (A ++ (x :: M1)) y M2 ((z :: M3) ++ B)); side Hm.
    + apply (piece_btw d p r A x M1 ((y :: M2) ++ (z :: M3) ++ B)); side Hm.
  - apply (piece_aft d p r (A ++ (x :: M1) ++ (y :: M2) ++ (z :: M3)) B); side Hm.
  - unfold m'. cbn [concat]. assoc. reflexivity.
  - exact Q2.
  - destruct Q2 as [W _]. apply wf_ships in W. apply (has_visit_in _ x); auto. unfold m'. apply in_or_app. right. apply in_or_app. right. apply in_or_app. right. left. reflexivity.
  - cbn [app] in Hd. unfold e in *. rewrite Hd by (right; exact Hneg). rewrite cost_one_move by (auto; intros; apply Q3). lia.
Qed.

Theorem swap_ok n m p u v delta mv : plan_ok d p -> 0 < m -> m <= n -> a_isDepot u = false -> vref_ok p v ->
  eval_swap d ev n m (sync d p) u v = (delta, true, mv) ->
  exists va, v = VAct va /\ swapped n m p u va (apply_swap n m p u v) /\ done d ev p (apply_swap n m p u v) delta.
Proof.
  intros P Hm Hmn Hu Hv. unfold eval_swap. cbn [sp_mids sync].
  destruct (find_act u p) as [[ru pu]|] eqn:Fu; [|discriminate].
  destruct (locate p v) as [[rv pv]|] eqn:Fv; [|discriminate].
  destruct v as [va|]; [|discriminate]. cbn [locate vref_ok] in Fv, Hv.
  destruct (hasDepot (sync d p) ru pu n) eqn:HD; [discriminate|].
  destruct (splitsShipment (sync d p) u ru pu n) eqn:HS; [discriminate|].
  destruct (hasDepot (sync d p) rv pv m) eqn:HD'; [discriminate|].
  destruct (splitsShipment (sync d p) va rv pv m) eqn:HS'; [discriminate|]. cbn [orb].
  destruct (seg_of d p P u ru pu n Hu ltac:(lia) Fu HD HS) as (A & S & B & Mu & Hru & Hpu & Hlen & Rn & Rs & Ss & Sa).
  destruct (seg_of d p P va rv pv m Hv Hm Fv HD' HS') as (C & T & D & Mv & Hrv & Hpv & Hlen' & Rn' & Rt & Sst & Sc).
  assert (Hl : length T <= length S) by lia.
  destruct (Nat.eqb_spec ru rv) as [->|Hne]; cbn [andb negb].
  - destruct (trip_of _ _ =? trip_of _ _) eqn:HT; cbn [negb orb]; [|discriminate]. apply Nat.eqb_eq in HT.
    destruct ((pu <=? pv + m - 1) && (pv <=? pu + n - 1)) eqn:HO; cbn [orb]; [discriminate|].
    destruct ((pu + n =? pv) || (pv + m =? pu)) eqn:HA; [discriminate|]. apply orb_false_iff in HA as [HA1 HA2].
    apply Nat.eqb_neq in HA1, HA2.
    destruct ((n =? m) && _); [discriminate|]. destruct (Nat.ltb_spec pu pv) as [Hlt|Hge]; intros H; exists va; (split; [reflexivity|]).
    + assert (Hgap : pu + n < pv).
      { destruct (Nat.leb_spec pu (pv + m - 1)); cbn [andb] in HO; [|lia]. destruct (Nat.leb_spec pv (pu + n - 1)); [discriminate|lia]. }
      assert (E : (A ++ u :: S) ++ B = C ++ (va :: T) ++ D) by (rewrite <- Mv, Mu; assoc; reflexivity).
      destruct (app_split (A ++ u :: S) B C ((va :: T) ++ D) E ltac:(lens)) as (M & -> & ->).
      destruct (cons_form M) as (y & M2 & ->); [intros ->; lens|].
      assert (RM : num_reloads (y :: M2) = 0).
      { rewrite Mu in HT. replace (A ++ (u :: S) ++ (y :: M2) ++ (va :: T) ++ D) with ((A ++ [u]) ++ S ++ (y :: M2) ++ (va :: T) ++ D) in HT at 1 by (assoc; reflexivity).
        replace pu with (length (A ++ [u])) in HT by lens. rewrite trip_at in HT.
        replace (A ++ (u :: S) ++ (y :: M2) ++ (va :: T) ++ D) with ((A ++ (u :: S) ++ (y :: M2) ++ [va]) ++ T ++ D) in HT by (assoc; reflexivity).
        replace pv with (length (A ++ (u :: S) ++ (y :: M2) ++ [va])) in HT by lens. rewrite trip_at in HT. autorewrite with rels in *. rewrite Hv in *. lia. }
      rewrite Hlen, Hlen'. rewrite (apply_swap_later p P u va S T Rn Rn' Hl rv A (y :: M2) D Hru Mu).
      destruct (swap_segs_within p rv A (u :: S) (y :: M2) (va :: T) D P Hru Mu Ss Rn Sst Rn') as (Q1 & Q2 & Q3).
      split; [apply Swap_later; auto; lens|]. constructor; [exact Q1|].
      apply improving_inv in H as (Hneg & -> & _).
      apply (within_pieces_ok p rv A u S y M2 D va T); auto; lens.
    + assert (Hgap : pv + m < pu).
      { destruct (Nat.leb_spec pu (pv + m - 1)); cbn [andb] in HO; [|lia]. destruct (Nat.leb_spec pv (pu + n - 1)); [discriminate|lia]. }
      assert (E : (C ++ va :: T) ++ D = A ++ (u :: S) ++ B) by (rewrite <- Mu, Mv; assoc; reflexivity).
      destruct (app_split (C ++ va :: T) D A ((u :: S) ++ B) E ltac:(lens)) as (M & -> & ->).
      destruct (cons_form M) as (y & M2 & ->); [intros ->; lens|].
      assert (RM : num_reloads (y :: M2) = 0).
      { rewrite Mv in HT. replace (C ++ (va :: T) ++ (y :: M2) ++ (u :: S) ++ B) with ((C ++ (va :: T) ++ (y :: M2) ++ [u]) ++ S ++ B) in HT at 1 by (assoc; reflexivity).
        replace pu with (length (C ++ (va :: T) ++ (y :: M2) ++ [u])) in HT by lens. rewrite trip_at in HT.
        replace (C ++ (va :: T) ++ (y :: M2) ++ (u :: S) ++ B) with ((C ++ [va]) ++ T ++ (y :: M2) ++ (u :: S) ++ B) in HT by (assoc; reflexivity).
        replace pv with (length (C ++ [va])) in HT by lens. rewrite trip_at in HT. autorewrite with rels in *. rewrite Hv in *. lia. }
      rewrite Hlen, Hlen'. rewrite (apply_swap_earlier p P u va S T Rn Rn' Hl rv C (y :: M2) B Hru Mv).
      destruct (swap_segs_within p rv C (va :: T) (y :: M2) (u :: S) B P Hru Mv Sst Rn' Ss Rn) as (Q1 & Q2 & Q3).
      split; [apply Swap_earlier; auto; lens|]. constructor; [exact Q1|].
      apply improving_inv in H as (Hneg & -> & _).
      apply (within_pieces_ok p rv C va T y M2 B u S); auto; lens.
  - destruct ((n =? m) && _); [discriminate|]. intros H; exists va; (split; [reflexivity|]).
    rewrite Hlen, Hlen'. rewrite (apply_swap_across p P u va S T Rn Rn' Hl ru rv A B C D Hne Hru Hrv Mu Mv).
    destruct (swap_segs p ru rv A (u :: S) B C (va :: T) D P Hru Hrv Hne Mu Mv Ss Rn Sst Rn') as (Q1 & Q2 & Q3).
    split; [apply Swap_across; auto; lens|]. constructor; [exact Q1|].
    apply improving_inv in H as (Hneg & -> & _).
    destruct (dcost2_ok d h ev St 0 ru rv p (bef (sync d p) ru (pu - 1)) [btw (sync d p) rv pv (pv + m - 1)] (aft (sync d p) ru (pu + n))
       (bef (sync d p) rv (pv - 1)) [btw (sync d p) ru pu (pu + n - 1)] (aft (sync d p) rv (pv + m))
       A [va :: T] B C [u :: S] D (A ++ (va :: T) ++ B) (C ++ (u :: S) ++ D)) as [Hd _]; auto.
    + apply (pk_veh d p ru P Hru).
    + f_equal. lia.
    + apply (piece_bef d p ru A ((u :: S) ++ B)); side Mu.
    + apply Forall2_cons; [|apply Forall2_nil]. apply (piece_btw d p rv C va T D); side Mv.
    + apply (piece_aft d p ru (A ++ u :: S) B); side Mu.
    + cbn [concat]; assoc; reflexivity.
    + apply has_visit_cons; [exact Hv|]. destruct Q2 as [W _]. apply wf_ships in W. exact W.
    + apply (pk_veh d p rv P Hrv).
    + f_equal. lia.
    + apply (piece_bef d p rv C ((va :: T) ++ D)); side Mv.
    + apply Forall2_cons; [|apply Forall2_nil]. apply (piece_btw d p ru A u S B); side Mu.
    + apply (piece_aft d p rv (C ++ va :: T) D); side Mv.
    + cbn [concat]; assoc; reflexivity.
    + apply has_visit_cons; [exact Hu|]. destruct Q3 as [W _]. apply wf_ships in W. exact W.
    + cbn [app] in Hd. rewrite (Hd Hneg). rewrite cost_two_move; auto; [cbn [app]; lia|].
      intros y _. rewrite Mu, Mv. counts.
Qed.
End Swap.
