(** Operators on one or two routes, helpers; SwapTails and the insertion operators. *)
From Verif Require Import Base DurationSegment Data LoadSegment SearchRoute RouteDur Valid ProposalDur ProposalRest Route RouteSpec
  RouteFacts2 RouteFacts3 Cost CostFacts DeltaFacts SearchFacts DataCtor SearchSpace SearchNodes SearchSeq SearchLoad Ops PlanFacts ShipState OpsBase OpsGen OpsMove OpsRelocate.
Local Open Scope nat_scope.

Ltac flat := cbn [concat]; assoc; rewrite ?app_nil_r; try reflexivity.

Section One.
Variable d : pdata.
Variable h : Z.
Variable ev : evaluator.
Hypothesis St : setting d h ev.
Let s (p : plan) := sync d p.

Lemma one_eval ex out p r A R ms Ms l B m' k : plan_ok d p -> r < length p -> mid_at p r = A ++ R -> k = length A ->
  Forall2 (mid_piece d) ms Ms -> last_piece d (rveh d r) l B -> m' = A ++ concat Ms ++ B ->
  fine_mid d (rveh d r) m' -> has_visit m' = true ->
  let e := dcost d ev ex out (bef (sync d p) r k) (ms ++ [l]) in
  (ex = true \/ (e < 0)%Z) -> e = (out - rcost d ev (rveh d r) (mid_at p r) + rcost d ev (rveh d r) m')%Z.
Proof.
  intros P Hr Hm -> Hms Hl Em Hf Hv e He.
  destruct (dcost_ok d h ev St ex out r p (bef (sync d p) r (length A)) ms l A Ms B m' Hr (pk_veh d p r P Hr) eq_refl) as [Hd _]; auto.
  apply (piece_bef d p r A R); auto.
Qed.

Lemma fine_ships v m : fine_mid d v m -> ships_ok m.
Proof. intros [W _]. apply (wf_ships d v m W). Qed.

(** ** SwapTails *)
Inductive tails_swapped (p : plan) (u : activity) (v : vref) : plan -> Prop :=
| Tails ru rv A B C D : ru <> rv -> ru < length p -> rv < length p ->
    mid_at p ru = (A ++ [u]) ++ B -> mid_at p rv = C ++ D -> ends v rv C ->
    num_reloads B = 0 -> num_reloads D = 0 -> tails_swapped p u v (upd (upd p ru ((A ++ [u]) ++ D)) rv (C ++ B)).

Lemma tails_plan p ru rv A B C D : plan_ok d p -> ru < length p -> rv < length p -> ru <> rv ->
  mid_at p ru = A ++ B -> mid_at p rv = C ++ D -> ships_ok A -> ships_ok C -> num_reloads B = 0 -> num_reloads D = 0 ->
  plan_ok d (upd (upd p ru (A ++ D)) rv (C ++ B)) /\ fine_mid d (rveh d ru) (A ++ D) /\ fine_mid d (rveh d rv) (C ++ B).
Proof.
  intros P Hu Hv Hne Mu Mv Sa Sc Rb Rd.
  pose proof (wf_known' d p ru P) as Ku. pose proof (wf_trips' d p ru P Hu) as Tu. pose proof (plan_ships d p ru P) as Su.
  pose proof (wf_known' d p rv P) as Kv. pose proof (wf_trips' d p rv P Hv) as Tv. pose proof (plan_ships d p rv P) as Sv.
  rewrite Mu in Ku, Tu, Su. rewrite Mv in Kv, Tv, Sv.
  apply two_routes; auto.
  - knowns.
  - knowns.
  - apply ships_app; [exact Sa|]. apply (ships_suffix C); assumption.
  - apply ships_app; [exact Sc|]. apply (ships_suffix A); assumption.
  - reloads.
  - reloads.
  - intros a Ha. pose proof (pk_once d p P a Ha). rewrite Mu, Mv. counts.
Qed.

Lemma apply_tails_ok p u v ru rv A B C D : plan_ok d p -> vref_ok p v -> a_isDepot u = false -> ru <> rv -> ru < length p -> rv < length p ->
  mid_at p ru = (A ++ [u]) ++ B -> mid_at p rv = C ++ D -> ends v rv C ->
  apply_tails p u v = upd (upd p ru ((A ++ [u]) ++ D)) rv (C ++ B).
Proof.
  intros P Hv Hu Hne Hru Hrv Mu Mv He. unfold apply_tails.
  rewrite (find_act_at u p ru A B (length (A ++ [u]))) by first [assumption | solve [lens] | apply (pk_once d p P); assumption | rewrite Mu; assoc; reflexivity].
  rewrite (locate_at p v rv C D (length C)) by first [assumption | reflexivity | apply (ref_once d p v P Hv)].
  rewrite Mu, Mv.
  replace (length (C ++ D) - length C) with (length D) by lens.
  replace (length ((A ++ [u]) ++ B) - length (A ++ [u])) with (length B) by lens.
  rewrite (move_tail_ok D p rv ru C (A ++ [u]) B) by (auto; congruence). set (p1 := upd _ _ _).
  replace (length (A ++ [u]) + length D) with (length ((A ++ [u]) ++ D)) by lens.
  rewrite (move_tail_ok B p1 ru rv ((A ++ [u]) ++ D) C []).
  - unfold p1. rewrite app_nil_r. rewrite (upd_comm p) by congruence. rewrite upd2_same by exact Hne. reflexivity.
  - exact Hne.
  - unfold p1. rewrite !upd_length. exact Hru.
  - unfold p1. rewrite !upd_length. exact Hrv.
  - unfold p1. rewrite mid_at_same by (rewrite upd_length; exact Hru). assoc. reflexivity.
  - unfold p1. rewrite mid_at_other by exact Hne. rewrite mid_at_same by exact Hrv. rewrite app_nil_r. reflexivity.
Qed.

Lemma tail_piece p r A x B k k' : plan_ok d p -> r < length p -> mid_at p r = A ++ x :: B -> num_reloads (x :: B) = 0 ->
  k = length A + 1 -> k' = rsize (mid_at p r) - 2 -> mid_piece d (btw (sync d p) r k k') (x :: B).
Proof.
  intros P Hr Hm Hn -> ->. apply (piece_btw d p r A x B []); auto.
  - apply (pk_veh d p r P Hr).
  - rewrite app_nil_r. exact Hm.
  - reloads.
  - unfold rsize. rewrite Hm. lens.
Qed.
Lemma end_piece p r k : plan_ok d p -> r < length p -> k = rsize (mid_at p r) - 1 -> last_piece d (rveh d r) (at_ (sync d p) r k) [].
Proof. intros P Hr ->. apply piece_end; auto; [apply (pk_veh d p r P Hr)|unfold rsize; lia]. Qed.

Theorem tails_ok p u v delta mv : plan_ok d p -> a_isDepot u = false -> vref_ok p v ->
  eval_tails d ev (sync d p) u v = (delta, true, mv) ->
  tails_swapped p u v (apply_tails p u v) /\ done d ev p (apply_tails p u v) delta.
Proof.
  intros P Hu Hv. unfold eval_tails. cbn [sp_mids sync].
  destruct (find_act u p) as [[ru pu]|] eqn:Fu; [|discriminate].
  destruct (locate p v) as [[rv pv]|] eqn:Fv; [|discriminate].
  destruct (Nat.eqb_spec ru rv) as [|Hne]; [discriminate|].
  destruct (_ && _ && _); [discriminate|].
  destruct (find_act_spec _ _ _ _ Fu) as (A & B & Mu & Hpu & Hru).
  destruct (locate_split p v rv pv Hv Fv) as (C & D & Mv & Hpv & He & Hrv).
  assert (Mu' : mid_at p ru = (A ++ [u]) ++ B) by (rewrite Mu; assoc; reflexivity).
  assert (Hpu' : pu = length (A ++ [u])) by lens.
  destruct (Nat.eqb_spec (trip_of (mid_at p ru) pu + 1) (numTrips (mid_at p ru))) as [T1|]; cbn [negb orb]; [|discriminate].
  destruct (Nat.eqb_spec (trip_of (mid_at p rv) pv + 1) (numTrips (mid_at p rv))) as [T2|]; cbn [negb orb]; [|discriminate].
  destruct (Nat.eqb_spec (nPickups (sync d p) ru pu) (nDeliveries (sync d p) ru pu)) as [S1|]; cbn [negb orb]; [|discriminate].
  destruct (Nat.eqb_spec (nPickups (sync d p) rv pv) (nDeliveries (sync d p) rv pv)) as [S2|]; cbn [negb orb]; [|discriminate].
  intros H. apply improving_inv in H as (Hneg & -> & _).
  assert (Sa : ships_ok (A ++ [u])) by (apply (closed_at d p P ru (A ++ [u]) B Hru Mu'); rewrite <- Hpu'; exact S1).
  assert (Sc : ships_ok C) by (apply (closed_at d p P rv C D Hrv Mv); rewrite <- Hpv; exact S2).
  assert (Rb : num_reloads B = 0).
  { rewrite Mu' in T1. rewrite Hpu', trip_at in T1. unfold numTrips in T1. reloads. }
  assert (Rd : num_reloads D = 0).
  { rewrite Mv in T2. rewrite Hpv, trip_at in T2. unfold numTrips in T2. reloads. }
  rewrite (apply_tails_ok p u v ru rv A B C D P Hv Hu Hne Hru Hrv Mu' Mv He).
  destruct (tails_plan p ru rv (A ++ [u]) B C D P Hru Hrv Hne Mu' Mv Sa Sc Rb Rd) as (Q1 & Q2 & Q3).
  split; [apply Tails; auto|]. constructor; [exact Q1|].
  assert (Vu : has_visit ((A ++ [u]) ++ D) = true).
  { apply (has_visit_in _ u); [apply in_or_app; left; apply in_elt|exact Hu|apply (fine_ships _ _ Q2)]. }
  assert (Hcost : forall a, cnt ((A ++ [u]) ++ D) a + cnt (C ++ B) a = cnt (mid_at p ru) a + cnt (mid_at p rv) a).
  { intros a. rewrite Mu', Mv. counts. }
  assert (Kb : k_isEnd (kind_at (mid_at p ru) (pu + 1)) = match B with [] => true | _ => false end).
  { rewrite Mu', Hpu'. destruct B as [|b B']; [rewrite app_nil_r, kind_at_end by lens; reflexivity|rewrite kind_at_app by lens; reflexivity]. }
  assert (Kd : k_isEnd (kind_at (mid_at p rv) (pv + 1)) = match D with [] => true | _ => false end).
  { rewrite Mv, Hpv. destruct D as [|x D']; [rewrite app_nil_r, kind_at_end by lens; reflexivity|rewrite kind_at_app by lens; reflexivity]. }
  rewrite Kb, Kd in *.
  destruct B as [|b B]; destruct D as [|x D]; cbn [negb andb] in *; [lia| | |].
  - (* only v has a tail *)
    destruct (Nat.eqb_spec pv 0) as [Z|Z].
    + assert (C = []) as -> by (destruct C; [reflexivity|lens]).
      assert (E : (dcost d ev false (0 - pcost ev (sync d p) rv) (bef (sync d p) ru pu) ([btw (sync d p) rv (pv + 1) (rsize (mid_at p rv) - 2)] ++ [at_ (sync d p) ru (rsize (mid_at p ru) - 1)])
        = (0 - pcost ev (sync d p) rv) - rcost d ev (rveh d ru) (mid_at p ru) + rcost d ev (rveh d ru) ((A ++ [u]) ++ x :: D))%Z).
      { apply (one_eval false _ p ru (A ++ [u]) [] _ [x :: D] _ []); auto.
        - apply Forall2_cons; [|apply Forall2_nil]. apply (tail_piece p rv [] x D); auto; lens.
        - apply end_piece; auto.
        - flat. }
      cbn [app] in E. rewrite E. unfold pcost. rewrite cache_sync by exact Hrv.
      rewrite cost_two_move by (auto; intros; apply Hcost). cbn [app]. rewrite (rcost_empty d ev (rveh d rv) []) by reflexivity. unfold rcost. lia.
    + destruct v as [va|]; [|destruct He as [_ E]; subst C; lens].
      destruct He as (C' & EC).
      destruct (dcost2_ok d h ev St 0 ru rv p (bef (sync d p) ru pu) [btw (sync d p) rv (pv + 1) (rsize (mid_at p rv) - 2)] (at_ (sync d p) ru (rsize (mid_at p ru) - 1))
        (bef (sync d p) rv pv) [] (at_ (sync d p) rv (rsize (mid_at p rv) - 1)) (A ++ [u]) [x :: D] [] C [] [] ((A ++ [u]) ++ x :: D) (C ++ [])) as [Hd _]; auto.
      * apply (pk_veh d p ru P Hru).
      * apply (piece_bef d p ru (A ++ [u]) []); auto.
      * apply Forall2_cons; [|apply Forall2_nil]. apply (tail_piece p rv C x D); auto; lens.
      * apply end_piece; auto.
      * flat.
      * apply (pk_veh d p rv P Hrv).
      * apply (piece_bef d p rv C (x :: D)); auto.
      * apply end_piece; auto.
      * apply (has_visit_in _ va); [rewrite EC; apply in_or_app; left; apply in_elt|exact Hv|apply (fine_ships _ _ Q3)].
      * cbn [app] in Hd, Hneg. rewrite (Hd Hneg). rewrite cost_two_move by (auto; intros; apply Hcost). cbn [app]. lia.
  - (* only u has a tail *)
    destruct (dcost2_ok d h ev St 0 ru rv p (bef (sync d p) ru pu) [] (at_ (sync d p) ru (rsize (mid_at p ru) - 1))
      (bef (sync d p) rv pv) [btw (sync d p) ru (pu + 1) (rsize (mid_at p ru) - 2)] (at_ (sync d p) rv (rsize (mid_at p rv) - 1)) (A ++ [u]) [] [] C [b :: B] [] ((A ++ [u]) ++ []) (C ++ b :: B)) as [Hd _]; auto.
    * apply (pk_veh d p ru P Hru).
    * apply (piece_bef d p ru (A ++ [u]) (b :: B)); auto.
    * apply end_piece; auto.
    * apply (pk_veh d p rv P Hrv).
    * apply (piece_bef d p rv C []); auto.
    * apply Forall2_cons; [|apply Forall2_nil]. apply (tail_piece p ru (A ++ [u]) b B); auto; lens.
    * apply end_piece; auto.
    * flat.
    * apply (has_visit_in _ b); [apply in_elt|apply (num_reloads_In (b :: B)); [exact Rb|left; reflexivity]|apply (fine_ships _ _ Q3)].
    * cbn [app] in Hd, Hneg. rewrite (Hd Hneg). rewrite cost_two_move by (auto; intros; apply Hcost). cbn [app]. lia.
  - destruct (dcost2_ok d h ev St 0 ru rv p (bef (sync d p) ru pu) [btw (sync d p) rv (pv + 1) (rsize (mid_at p rv) - 2)] (at_ (sync d p) ru (rsize (mid_at p ru) - 1))
      (bef (sync d p) rv pv) [btw (sync d p) ru (pu + 1) (rsize (mid_at p ru) - 2)] (at_ (sync d p) rv (rsize (mid_at p rv) - 1)) (A ++ [u]) [x :: D] [] C [b :: B] [] ((A ++ [u]) ++ x :: D) (C ++ b :: B)) as [Hd _]; auto.
    * apply (pk_veh d p ru P Hru).
    * apply (piece_bef d p ru (A ++ [u]) (b :: B)); auto.
    * apply Forall2_cons; [|apply Forall2_nil]. apply (tail_piece p rv C x D); auto; lens.
    * apply end_piece; auto.
    * flat.
    * apply (pk_veh d p rv P Hrv).
    * apply (piece_bef d p rv C (x :: D)); auto.
    * apply Forall2_cons; [|apply Forall2_nil]. apply (tail_piece p ru (A ++ [u]) b B); auto; lens.
    * apply end_piece; auto.
    * flat.
    * apply (has_visit_in _ b); [apply in_elt|apply (num_reloads_In (b :: B)); [exact Rb|left; reflexivity]|apply (fine_ships _ _ Q3)].
    * cbn [app] in Hd, Hneg. rewrite (Hd Hneg). rewrite cost_two_move by (auto; intros; apply Hcost). cbn [app]. lia.
Qed.
End One.
