(** The search terminates. *)
From Coq Require Import Permutation Wf_nat.
From Verif Require Import Base DurationSegment Data LoadSegment SearchRoute RouteDur Valid Route RouteSpec
  RouteFacts2 Cost CostFacts DataCtor SearchSpace SearchNodes SearchSeq SearchLoad Ops PlanFacts ShipState OpsBase OpsGen OpsRelocate OpsEdit OpsEdit2 OpsAll Fits LocalSearch LocalFacts.
Local Open Scope nat_scope.

(** ** Costs of plans are bounded from below *)
Lemma bounded_lists {A} (al : list A) : forall n (f : list A -> Z), exists lb, forall l, incl l al -> length l <= n -> (lb <= f l)%Z.
Proof.
  induction n as [|n IH]; intros f.
  - exists (f []). intros l _ H. destruct l; [lia|cbn in H; lia].
  - assert (X : exists lb, forall a l, In a al -> incl l al -> length l <= n -> (lb <= f (a :: l))%Z).
    { assert (Y : forall al', exists lb, forall a l, In a al' -> incl l al -> length l <= n -> (lb <= f (a :: l))%Z).
      { induction al' as [|x al' [lb Hlb]]; [exists 0%Z; intros a l []|].
        destruct (IH (fun l => f (x :: l))) as [lb' Hlb']. exists (Z.min lb lb'). intros a l [<-|Ha] Hl Hn.
        - specialize (Hlb' l Hl Hn). lia.
        - specialize (Hlb a l Ha Hl Hn). lia. }
      apply Y. }
    destruct X as [lb Hlb]. exists (Z.min lb (f [])). intros [|a l] Hl Hn; [lia|].
    specialize (Hlb a l (Hl a (or_introl eq_refl)) (fun x Hx => Hl x (or_intror Hx)) ltac:(cbn in Hn; lia)). lia.
Qed.
Lemma bounded_sum (f : nat -> list activity -> Z) (ok : nat -> list activity -> Prop) :
  (forall r, exists lb, forall l, ok r l -> (lb <= f r l)%Z) -> forall n, exists lb, forall g : nat -> list activity,
  (forall r, r < n -> ok r (g r)) -> (lb <= zsum (map (fun r => f r (g r)) (seq 0 n)))%Z.
Proof.
  intros H n. induction n as [|n [lb IH]]; [exists 0%Z; intros; cbn; lia|]. destruct (H n) as [lb' H']. exists (lb + lb')%Z. intros g Hg.
  rewrite seq_S, map_app. cbn [map Nat.add]. assert (E : forall a b, zsum (a ++ [b]) = (zsum a + b)%Z).
  { intros a b. induction a as [|x a IHa]; cbn; [lia|]. rewrite IHa. lia. }
  rewrite E. specialize (IH g (fun r Hr => Hg r ltac:(lia))). specialize (H' (g n) (Hg n ltac:(lia))). lia.
Qed.

Section Term.
Variable d : pdata.
Variable ev : evaluator.
Definition all_acts : list activity :=
  map AClient (seq 0 (p_numClients d)) ++ map APickup (seq 0 (p_numShipments d)) ++ map ADelivery (seq 0 (p_numShipments d))
  ++ map ADepot (seq 0 (p_numDepots d)).
Lemma known_all a : known d a -> In a all_acts.
Proof.
  unfold all_acts. rewrite !in_app_iff, !in_map_iff. destruct a as [i|i|i|i]; cbn [known]; intros H.
  - right; right; right. exists i. split; [reflexivity|apply in_seq; lia].
  - left. exists i. split; [reflexivity|apply in_seq; lia].
  - right; left. exists i. split; [reflexivity|apply in_seq; lia].
  - right; right; left. exists i. split; [reflexivity|apply in_seq; lia].
Qed.
Lemma uncollected_bound : exists lb, forall p, (lb <= uncollected d p)%Z.
Proof.
  assert (B : forall (f : nat -> Z) n, exists lb, forall g : nat -> bool, (lb <= zsum (map (fun i => if g i then 0 else f i) (seq 0 n)))%Z).
  { intros f n. destruct (bounded_sum (fun r l => match l with [] => f r | _ => 0%Z end) (fun _ _ => True)) with (n := n) as [lb H].
    { intros r. exists (Z.min (f r) 0). intros [|] _; lia. }
    exists lb. intros g. specialize (H (fun i => if g i then [AClient 0] else []) (fun _ _ => I)).
    erewrite map_ext; [exact H|]. intros i. cbn. destruct (g i); reflexivity. }
  destruct (B (fun i => c_prize (p_client d i)) (p_numClients d)) as [l1 H1]. destruct (B (fun i => s_prize (p_shipment d i)) (p_numShipments d)) as [l2 H2].
  exists (l1 + l2)%Z. intros p. unfold uncollected. specialize (H1 (fun i => isPlanned p (AClient i))). specialize (H2 (fun i => isPlanned p (APickup i))). cbv beta in *. lia.
Qed.
Theorem cost_bound : exists lb, forall p, plan_ok d p -> (lb <= plan_cost d ev p)%Z.
Proof.
  destruct uncollected_bound as [l1 H1].
  destruct (bounded_sum (fun r mid => rcost d ev (rveh d r) mid)
    (fun r mid => well_formed d (rveh d r) mid /\ forall a, a_isDepot a = false -> cnt mid a <= 1)) with (n := length (fleet_vehicles d)) as [l2 H2].
  { intros r. destruct (bounded_lists all_acts (p_numClients d + 2 * p_numShipments d + Z.to_nat (v_maxTrips (rveh d r))) (rcost d ev (rveh d r))) as [lb H].
    exists lb. intros mid [W O]. apply H.
    - intros a Ha. apply known_all, (wf_known _ _ _ W a Ha).
    - pose proof (mid_length d (rveh d r) mid W O). pose proof (wf_trips _ _ _ W). lia. }
  exists (l1 + l2)%Z. intros p P. rewrite plan_cost_eq. unfold routes_cost. rewrite (pk_len d p P).
  specialize (H2 (mid_at p)). assert (X : forall r, r < length (fleet_vehicles d) -> well_formed d (rveh d r) (mid_at p r) /\ forall a, a_isDepot a = false -> cnt (mid_at p r) a <= 1).
  { intros r Hr. split; [apply (pk_wf d p P); rewrite (pk_len d p P); exact Hr|]. apply (mid_once d p r P). }
  specialize (H2 X). specialize (H1 p). cbv beta in H2. lia.
Qed.

(** Descending is well-founded on plans. *)
Lemma lower_wf : forall lb, (forall p, plan_ok d p -> (lb <= plan_cost d ev p)%Z) ->
  forall (Q : plan -> Prop), (forall p, plan_ok d p -> (forall q, plan_ok d q -> lower d ev q p -> Q q) -> Q p) -> forall p, plan_ok d p -> Q p.
Proof.
  intros lb Hlb Q H.
  assert (X : forall n k p, plan_ok d p -> Z.to_nat (plan_cost d ev p - lb) <= n -> depots_in p <= k -> Q p).
  { induction n as [n IHn] using lt_wf_ind. induction k as [k IHk] using lt_wf_ind. intros p P Hn Hk. apply H; [exact P|].
    intros q P' [L|[L L']]; pose proof (Hlb p P); pose proof (Hlb q P').
    - apply (IHn (Z.to_nat (plan_cost d ev q - lb))) with (k := depots_in q); auto; lia.
    - apply (IHk (depots_in q)); auto; [lia|]. rewrite L. exact Hn. }
  intros p P. eapply X; [exact P|reflexivity|reflexivity].
Qed.
End Term.

Section Loop.
Variable d : pdata.
Variable h : Z.
Variable ev : evaluator.
Hypothesis St : setting d h ev.
Variable uops : list unary.
Variable bops : list binary.
Hypothesis Ops : Forall op_ok bops.

Lemma with_done_inv st b : ls_inv d ev bops st -> ls_inv d ev bops (with_done st b).
Proof. intros [A B C D E]. constructor; assumption. Qed.

(** Not more expensive: as it was, or lower. *)
Definition descends (st st' : lstate) : Prop := l_plan st' = l_plan st \/ lower d ev (l_plan st') (l_plan st).

Lemma loop_ends st : ls_inv d ev bops st -> exists n st', search_loop d ev uops bops n st = Finished st' /\
  ls_inv d ev bops st' /\ l_done st' = true /\ descends st st' /\ same_space (l_space st) (l_space st').
Proof.
  destruct (cost_bound d ev) as [lb Hlb]. intros I.
  set (Q := fun p => forall st, ls_inv d ev bops st -> l_plan st = p -> exists n st', search_loop d ev uops bops n st = Finished st' /\
    ls_inv d ev bops st' /\ l_done st' = true /\ descends st st' /\ same_space (l_space st) (l_space st')).
  enough (H : Q (l_plan st)) by (apply H; [exact I|reflexivity]).
  apply (lower_wf d ev lb Hlb Q); [|apply (li_ok d ev bops st I)].
  clear st I. intros p P IH st I E. destruct (l_done st) eqn:D.
  { exists 0, st. cbn [search_loop]. rewrite D. repeat (split; [first [reflexivity|exact I|left; reflexivity|exact D]|]). apply same_space_refl. }
  destruct (visits_step d h ev St uops bops Ops (ss_order (l_space st))) with (st := with_done st true) as (st1 & V & I1 & SS & Pr).
  { intros u Hu. eapply Permutation_in; [symmetry; apply (si_order d _ (li_space d ev bops st I))|exact Hu]. }
  { apply with_done_inv, I. }
  change (l_plan (with_done st true)) with (l_plan st) in Pr. change (l_space (with_done st true)) with (l_space st) in SS. change (l_done (with_done st true)) with true in Pr.
  destruct Pr as [[E1 D1]|[L1 D1]].
  - exists 1, st1. cbn [search_loop]. rewrite D, V. rewrite D1. split; [reflexivity|]. split; [exact I1|]. split; [reflexivity|]. split; [left; exact E1|exact SS].
  - rewrite E in L1. destruct (IH (l_plan st1) (li_ok d ev bops st1 I1) L1 st1 I1 eq_refl) as (n & st2 & R & I2 & D2 & De & SS2).
    exists (S n), st2. cbn [search_loop]. rewrite D, V. split; [exact R|]. split; [exact I2|]. split; [exact D2|]. split.
    + right. rewrite E. destruct De as [->|De]; [exact L1|eapply lower_trans; eassumption].
    + eapply same_space_trans; eassumption.
Qed.
(** More rounds make no difference. *)
Lemma loop_more n : forall st st', search_loop d ev uops bops n st = Finished st' -> forall m, n <= m -> search_loop d ev uops bops m st = Finished st'.
Proof.
  induction n as [|n IH]; intros st st' H m Hm; cbn [search_loop] in H.
  - destruct m; cbn [search_loop]; destruct (l_done st); [exact H|discriminate|exact H|discriminate].
  - destruct m as [|m]; [lia|]. cbn [search_loop]. destruct (l_done st); [exact H|].
    destruct (visit_all _ _ _ _ _ _) as [st1|]; [|discriminate]. apply IH; [exact H|lia].
Qed.
Theorem search_ends st : ls_inv d ev bops st -> exists n st', (forall m, n <= m -> search d ev uops bops m st = Finished st') /\
  ls_inv d ev bops st' /\ descends st st' /\ same_space (l_space st) (l_space st').
Proof.
  intros I. destruct (loop_ends (with_done st false) (with_done_inv st false I)) as (n & st' & R & I' & _ & D & SS).
  assert (X : (uops = [] /\ bops = []) \/ forall m, search d ev uops bops m st = search_loop d ev uops bops m (with_done st false)).
  { unfold search. destruct uops; [destruct bops|]; auto. }
  destruct X as [[-> ->]|X].
  - exists 0, st. split; [reflexivity|]. split; [exact I|]. split; [left; reflexivity|apply same_space_refl].
  - exists n, st'. split; [intros m Hm; rewrite X; eapply loop_more; eassumption|]. split; [exact I'|]. split; [exact D|exact SS].
Qed.
End Loop.
