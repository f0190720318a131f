(** Relocate: the plan after the move, and its cost. *)
From Verif Require Import Base DurationSegment Data LoadSegment SearchRoute RouteDur Valid ProposalDur ProposalRest Route RouteSpec
  RouteFacts2 RouteFacts3 Cost CostFacts DeltaFacts SearchFacts DataCtor SearchSpace SearchNodes SearchSeq SearchLoad Ops PlanFacts ShipState OpsBase OpsGen OpsMove.
Local Open Scope nat_scope.

(** The plan remains one, and its cost changes by [delta]. *)
Record done (d : pdata) (ev : evaluator) (p p' : plan) (delta : Z) : Prop := mk_done {
  dn_ok : plan_ok d p';
  dn_cost : plan_cost d ev p' = (plan_cost d ev p + delta)%Z }.

(** The segment of [n] nodes from [u] on now follows [v]; nothing else changed.  A segment that changes route has no reload depot. *)
Inductive relocated (n : nat) (p : plan) (u : activity) (v : vref) : plan -> Prop :=
| Reloc_across ru rv A S B C D : ru <> rv -> ru < length p -> rv < length p ->
    mid_at p ru = A ++ (u :: S) ++ B -> length (u :: S) = n -> mid_at p rv = C ++ D -> ends v rv C -> num_reloads (u :: S) = 0 ->
    relocated n p u v (upd (upd p ru (A ++ B)) rv (C ++ (u :: S) ++ D))
| Reloc_later r A S M b D : r < length p ->
    mid_at p r = A ++ (u :: S) ++ (M ++ [b]) ++ D -> length (u :: S) = n -> v = VAct b ->
    relocated n p u v (upd p r (A ++ (M ++ [b]) ++ (u :: S) ++ D))
| Reloc_earlier r C M S B : r < length p ->
    mid_at p r = C ++ M ++ (u :: S) ++ B -> length (u :: S) = n -> ends v r C ->
    relocated n p u v (upd p r (C ++ (u :: S) ++ M ++ B)).

(** Remembered remove costs are right for the visits that are planned. *)
Definition rc_valid (f : nat -> nat -> Z) (p : plan) (rc : rcache) : Prop :=
  forall u z, rc u = Some z -> forall r pos, find_act u p = Some (r, pos) -> z = f r pos.

Lemma remove_cost_valid f p rc u r pos c rc' : rc_valid f p rc -> find_act u p = Some (r, pos) ->
  remove_cost rc u (f r pos) = (c, rc') -> c = f r pos /\ rc_valid f p rc'.
Proof.
  intros Hv Hf. unfold remove_cost. destruct (rc u) as [z|] eqn:E.
  - intros H. injection H as <- <-. split; [apply (Hv u z E r pos Hf)|exact Hv].
  - intros H. injection H as <- <-. split; [reflexivity|]. intros u' z. unfold rc_set.
    destruct (a_eqb u' u) eqn:E'; [|apply Hv]. intros H. injection H as <-. intros r' pos' Hf'.
    apply a_eqb_eq in E'. subst u'. congruence.
Qed.

Section Relocate.
Variable d : pdata.
Variable h : Z.
Variable ev : evaluator.
Hypothesis St : setting d h ev.

(** Taking [seg] out of a route. *)
Lemma removal_cost p r A seg B out (c : bool) k k' : plan_ok d p -> r < length p -> mid_at p r = A ++ seg ++ B ->
  fine_mid d (rveh d r) (A ++ B) -> has_visit (A ++ B) = negb c -> k = length A -> k' = length A + length seg + 1 ->
  (if c then (out - pcost ev (sync d p) r)%Z else dcost d ev true out (bef (sync d p) r k) [aft (sync d p) r k'])
  = (out - rcost d ev (rveh d r) (mid_at p r) + rcost d ev (rveh d r) (A ++ B))%Z.
Proof.
  intros P Hr Hm Hf Hv -> ->. destruct c.
  - unfold pcost. rewrite cache_sync by exact Hr. rewrite (rcost_empty d ev (rveh d r) (A ++ B)) by exact Hv. unfold rcost. lia.
  - pose proof (dcost_ok d h ev St true out r p (bef (sync d p) r (length A)) [] (aft (sync d p) r (length A + length seg + 1)) A [] B (A ++ B) Hr (pk_veh d p r P Hr) eq_refl) as X.
    cbn [app concat] in X. apply X; auto.
    + apply (piece_bef d p r A (seg ++ B)); auto.
    + rewrite app_assoc in Hm. apply (piece_aft d p r (A ++ seg) B); auto. lens.
Qed.

(** A segment can be taken out. *)
Lemma remove_seg p r A seg B : plan_ok d p -> r < length p -> mid_at p r = A ++ seg ++ B ->
  ships_ok seg -> num_reloads seg = 0 -> fine_mid d (rveh d r) (A ++ B) /\ plan_ok d (upd p r (A ++ B)).
Proof.
  intros P Hr Hm Hs Hn. pose proof (wf_known' d p r P) as K. pose proof (wf_trips' d p r P Hr) as T.
  pose proof (plan_ships d p r P) as Hsh. rewrite Hm in K, T, Hsh.
  assert (X : plan_ok d (upd p r (A ++ B)) /\ fine_mid d (rveh d r) (A ++ B)).
  { apply one_route; auto.
    - knowns.
    - apply (ships_delete A seg B); auto. intros i. pose proof (mid_once d p r P (APickup i) eq_refl) as O. rewrite Hm in O. counts.
    - reloads.
    - intros a Ha. rewrite Hm. pose proof (pk_once d p P a Ha). counts. }
  tauto.
Qed.

Definition reloc_fresh (n : nat) (p : plan) (r pos : nat) : Z :=
  let s := sync d p in
  if nClients s r + 2 * nShipments s r =? n then (0 - pcost ev s r)%Z
  else dcost d ev true 0 (bef s r (pos - 1)) [aft s r (pos + n)].

Lemma reloc_fresh_ok n p r A seg B pos : plan_ok d p -> r < length p -> mid_at p r = A ++ seg ++ B ->
  ships_ok seg -> num_reloads seg = 0 -> length seg = n -> pos = length A + 1 ->
  reloc_fresh n p r pos = (rcost d ev (rveh d r) (A ++ B) - rcost d ev (rveh d r) (mid_at p r))%Z.
Proof.
  intros P Hr Hm Hs Hn Hl ->. unfold reloc_fresh. destruct (remove_seg p r A seg B P Hr Hm Hs Hn) as [Hf _].
  rewrite (removal_cost p r A seg B 0 (nClients (sync d p) r + 2 * nShipments (sync d p) r =? n) (length A + 1 - 1) (length A + 1 + n)); auto; [lia| |lia|lia].
  rewrite nClients_at, nShipments_at, Hm by exact Hr. rewrite !ncli_app, !npick_app.
  pose proof (ships_counts seg Hs) as C1. pose proof (length_counts seg) as C2.
  destruct (Nat.eqb_spec (ncli A + (ncli seg + ncli B) + 2 * (npick A + (npick seg + npick B))) n) as [E|E]; cbn [negb].
  - apply has_visit_counts. rewrite ncli_app, npick_app. lia.
  - destruct (has_visit (A ++ B)) eqn:V; [reflexivity|exfalso]. apply has_visit_counts in V. rewrite ncli_app, npick_app in V. lia.
Qed.

Lemma improving_inv z m delta m' : improving z m = (delta, true, m') -> (z < 0)%Z /\ delta = z /\ m' = m.
Proof. unfold improving. intros H. injection H as <- H <-. apply Z.ltb_lt in H. auto. Qed.

Lemma seg_last (u : activity) S : exists X a, u :: S = X ++ [a] /\ length X = length S.
Proof. destruct (last_split (u :: S) ltac:(discriminate)) as (X & a & E). exists X, a. split; [exact E|]. apply (f_equal (@length _)) in E. lens. Qed.

Lemma in_once p r A seg B : plan_ok d p -> mid_at p r = A ++ seg ++ B -> num_reloads seg = 0 -> forall x, In x seg -> once p x.
Proof. intros P Hm Hn x Hx. apply (pk_once d p P). apply (num_reloads_In seg); assumption. Qed.
Lemma ref_once p v : plan_ok d p -> vref_ok p v -> forall b, v = VAct b -> once p b.
Proof. intros P Hv b ->. apply (pk_once d p P). exact Hv. Qed.

(** Inserting a segment in another route. *)
Lemma move_seg p ru rv A seg B C D : plan_ok d p -> ru < length p -> rv < length p -> ru <> rv ->
  mid_at p ru = A ++ seg ++ B -> mid_at p rv = C ++ D -> ships_ok seg -> num_reloads seg = 0 ->
  plan_ok d (upd (upd p ru (A ++ B)) rv (C ++ seg ++ D)) /\ fine_mid d (rveh d ru) (A ++ B) /\ fine_mid d (rveh d rv) (C ++ seg ++ D).
Proof.
  intros P Hu Hv Hne Mu Mv Hs Hn.
  pose proof (wf_known' d p ru P) as Ku. pose proof (wf_trips' d p ru P Hu) as Tu. pose proof (plan_ships d p ru P) as Su.
  pose proof (wf_known' d p rv P) as Kv. pose proof (wf_trips' d p rv P Hv) as Tv. pose proof (plan_ships d p rv P) as Sv.
  rewrite Mu in Ku, Tu, Su. rewrite Mv in Kv, Tv, Sv.
  apply two_routes; auto.
  - knowns.
  - knowns.
  - apply (ships_delete A seg B); auto. intros i. pose proof (mid_once d p ru P (APickup i) eq_refl) as O. rewrite Mu in O. counts.
  - apply ships_insert; auto. intros i. pose proof (tot_two p ru rv (APickup i) Hne) as O. pose proof (pk_once d p P (APickup i) eq_refl).
    rewrite Mu, Mv in O. counts.
  - reloads.
  - reloads.
  - intros a Ha. pose proof (pk_once d p P a Ha). rewrite Mu, Mv. counts.
Qed.

Lemma within_seg p r A seg M B m' : plan_ok d p -> r < length p ->
  (mid_at p r = A ++ seg ++ M ++ B /\ m' = A ++ M ++ seg ++ B \/ mid_at p r = A ++ M ++ seg ++ B /\ m' = A ++ seg ++ M ++ B) ->
  ships_ok seg -> num_reloads seg = 0 ->
  plan_ok d (upd p r m') /\ fine_mid d (rveh d r) m' /\ (forall a, cnt m' a = cnt (mid_at p r) a).
Proof.
  intros P Hr Hm Hs Hn.
  pose proof (wf_known' d p r P) as K. pose proof (wf_trips' d p r P Hr) as T. pose proof (plan_ships d p r P) as Sh.
  assert (C : forall a, cnt m' a = cnt (mid_at p r) a).
  { intros a. destruct Hm as [[-> ->]|[-> ->]]; counts. }
  assert (R : num_reloads m' = num_reloads (mid_at p r)).
  { destruct Hm as [[-> ->]|[-> ->]]; autorewrite with rels; lia. }
  assert (X : plan_ok d (upd p r m') /\ fine_mid d (rveh d r) m'); [|tauto].
  apply one_route; auto.
  - destruct Hm as [[Hm ->]|[Hm ->]]; rewrite Hm in K; knowns.
  - destruct Hm as [[Hm ->]|[Hm ->]]; rewrite Hm in Sh.
    + rewrite (app_assoc A M). apply ships_insert; auto.
      * rewrite <- app_assoc. apply (ships_delete A seg (M ++ B)); auto. intros i. pose proof (mid_once d p r P (APickup i) eq_refl) as O. rewrite Hm in O. counts.
      * intros i. pose proof (mid_once d p r P (APickup i) eq_refl) as O. rewrite Hm in O. counts.
    + apply ships_insert; auto.
      * rewrite app_assoc. rewrite app_assoc in Sh. apply (ships_delete (A ++ M) seg B); auto. intros i. pose proof (mid_once d p r P (APickup i) eq_refl) as O. rewrite Hm in O. counts.
      * intros i. pose proof (mid_once d p r P (APickup i) eq_refl) as O. rewrite Hm in O. counts.
  - unfold trips_fit. rewrite R. exact T.
  - intros a Ha. rewrite C. pose proof (pk_once d p P a Ha). lia.
Qed.

Theorem relocate_ok n p rc u v delta m rc' : plan_ok d p -> 0 < n -> a_isDepot u = false -> vref_ok p v ->
  rc_valid (reloc_fresh n p) p rc -> eval_relocate d ev n (sync d p) rc u v = ((delta, true, m), rc') ->
  relocated n p u v (apply_relocate n p u v) /\ done d ev p (apply_relocate n p u v) delta.
Proof.
  intros P Hn Hu Hv Hrc. unfold eval_relocate. cbn [sp_mids sync].
  destruct (find_act u p) as [[ru pu]|] eqn:Fu; [|discriminate].
  destruct (locate p v) as [[rv pv]|] eqn:Fv; [|discriminate].
  destruct (hasDepot (sync d p) ru pu n) eqn:HD; [discriminate|].
  destruct (splitsShipment (sync d p) u ru pu n) eqn:HS; [discriminate|]. cbn [orb].
  destruct (seg_of d p P u ru pu n Hu Hn Fu HD HS) as (A & S & B & Mu & Hru & Hpu & Hlen & Rn & Rs & Ss & Sa).
  destruct (locate_split p v rv pv Hv Fv) as (C & D & Mv & Hpv & He & Hrv).
  assert (Hap : forall X a, u :: S = X ++ [a] -> length X = length S ->
            apply_relocate n p u v = move_after (Datatypes.S (length X)) p ru a rv v).
  { intros X a EX LX. unfold apply_relocate. rewrite Fu, Fv.
    replace (mid_at p ru) with ((A ++ X) ++ a :: B) by (rewrite Mu, EX; assoc; reflexivity).
    rewrite kind_at_app by lens. f_equal. lia. }
  destruct (Nat.eqb_spec ru rv) as [->|Hne]; cbn [andb negb].
  - (* within the route *)
    destruct (trip_of _ _ =? trip_of _ _) eqn:HT; cbn [negb orb]; [|discriminate]. apply Nat.eqb_eq in HT.
    destruct ((pu <=? pv) && (pv <=? pu + n - 1)) eqn:HO; cbn [orb]; [discriminate|].
    destruct (Nat.eqb_spec pu (pv + 1)) as [|Hadj]; [discriminate|].
    destruct (Nat.ltb_spec pu pv) as [Hlt|Hge]; intros H; apply (f_equal fst) in H; cbn [fst] in H.
    + (* later *)
      assert (Hpv2 : pu + n - 1 < pv).
      { destruct (Nat.leb_spec pu pv); cbn [andb] in HO; [|lia]. destruct (Nat.leb_spec pv (pu + n - 1)); [discriminate|lia]. }
      rewrite Mu in Mv. rewrite app_assoc in Mv. destruct (app_split (A ++ u :: S) B C D Mv ltac:(lens)) as (M & -> & ->).
      assert (HM : M <> []) by (intros ->; lens).
      destruct (last_split M HM) as (M' & b & ->).
      assert (Ev : v = VAct b).
      { destruct v as [a|r]; cbn [ends] in He.
        - destruct He as (C' & E). rewrite !app_assoc in E. apply app_inj_tail in E as [_ ->]. reflexivity.
        - destruct He as [_ E]. apply (f_equal (@length _)) in E. lens. }
      subst v. assert (Hb : a_isDepot b = false) by exact Hv.
      assert (RM : num_reloads (M' ++ [b]) = 0).
      { rewrite Mu in HT. replace (A ++ (u :: S) ++ (M' ++ [b]) ++ D) with ((A ++ [u]) ++ S ++ (M' ++ [b]) ++ D) in HT at 1 by (assoc; reflexivity).
        replace pu with (length (A ++ [u])) in HT by lens. rewrite trip_at in HT.
        replace (A ++ (u :: S) ++ (M' ++ [b]) ++ D) with (((A ++ u :: S) ++ M' ++ [b]) ++ D) in HT by (assoc; reflexivity).
        rewrite Hpv, trip_at in HT. autorewrite with rels in *. lia. }
      destruct (seg_last u S) as (X & a & EX & LX). rewrite (Hap X a EX LX).
      rewrite (move_later rv A M' b D X p [] a); auto.
      2: { rewrite Mu, EX. reflexivity. }
      2: { intros x Hx. apply (in_once p rv A (u :: S) ((M' ++ [b]) ++ D) P Mu Rn). rewrite EX. exact Hx. }
      2: { apply (pk_once d p P). exact Hb. }
      rewrite <- EX. cbn [app].
      destruct (within_seg p rv A (u :: S) (M' ++ [b]) D (A ++ (M' ++ [b]) ++ (u :: S) ++ D) P Hru (or_introl (conj Mu eq_refl)) Ss Rn) as (Q1 & Q2 & Q3).
      split; [constructor; auto; lens|]. constructor; [exact Q1|].
      apply improving_inv in H as (Hneg & -> & _).
      assert (HM2 : exists x M2, M' ++ [b] = x :: M2) by (destruct M'; cbn; eauto). destruct HM2 as (x & M2 & EM).
      destruct (dcost_ok d h ev St false 0 rv p (bef (sync d p) rv (pu - 1))
        [btw (sync d p) rv (pu + n) pv; btw (sync d p) rv pu (pu + n - 1)] (aft (sync d p) rv (pv + 1))
        A [M' ++ [b]; u :: S] D (A ++ (M' ++ [b]) ++ (u :: S) ++ D) Hru (pk_veh d p rv P Hru)) as [Hd _].
      * f_equal. lia.
      * apply (piece_bef d p rv A ((u :: S) ++ (M' ++ [b]) ++ D)); auto. lia.
      * apply Forall2_cons; [|apply Forall2_cons; [|apply Forall2_nil]].
        -- rewrite EM in *. apply (piece_btw d p rv (A ++ u :: S) x M2 D); side Mu.
        -- apply (piece_btw d p rv A u S ((M' ++ [b]) ++ D)); auto; [apply (pk_veh d p rv P Hru)|lia].
      * apply (piece_aft d p rv (A ++ (u :: S) ++ M' ++ [b]) D); auto; [rewrite Mu; assoc; reflexivity|lens].
      * cbn [concat]. assoc. reflexivity.
      * exact Q2.
      * replace (A ++ (M' ++ [b]) ++ (u :: S) ++ D) with ((A ++ M' ++ [b]) ++ u :: S ++ D) by (assoc; reflexivity).
        apply has_visit_cons; [exact Hu|]. destruct Q2 as [W _]. apply wf_ships in W. revert W. assoc. auto.
      * cbn [app] in Hd. rewrite Hd by (right; exact Hneg). rewrite cost_one_move by (auto; intros; apply Q3). lia.
    + (* earlier *)
      assert (Hlt : pv + 1 < pu).
      { destruct (Nat.leb_spec pu pv); cbn [andb] in HO; [|lia]. destruct (Nat.leb_spec pv (pu + n - 1)); [discriminate|lia]. }
      rewrite Mu in Mv. destruct (app_split C D A ((u :: S) ++ B) (eq_sym Mv) ltac:(lens)) as (M & -> & ->).
      assert (RM : num_reloads M = 0).
      { rewrite Mu in HT. replace ((C ++ M) ++ (u :: S) ++ B) with ((C ++ M ++ [u]) ++ S ++ B) in HT at 1 by (assoc; reflexivity).
        replace pu with (length (C ++ M ++ [u])) in HT by lens. rewrite trip_at in HT.
        replace ((C ++ M) ++ (u :: S) ++ B) with (C ++ M ++ (u :: S) ++ B) in HT by (assoc; reflexivity).
        rewrite Hpv, trip_at in HT. autorewrite with rels in *. lia. }
      assert (Mu' : mid_at p rv = C ++ M ++ (u :: S) ++ B) by (rewrite Mu; assoc; reflexivity).
      destruct (seg_last u S) as (X & a & EX & LX). rewrite (Hap X a EX LX).
      rewrite (move_earlier rv v C M B X p [] a); auto.
      2: { rewrite Mu', EX. reflexivity. }
      2: { intros x Hx. apply (in_once p rv (C ++ M) (u :: S) B P Mu Rn). rewrite EX. exact Hx. }
      2: { apply (ref_once p v P Hv). }
      rewrite <- EX. cbn [app].
      destruct (within_seg p rv C (u :: S) M B (C ++ (u :: S) ++ M ++ B) P Hru (or_intror (conj Mu' eq_refl)) Ss Rn) as (Q1 & Q2 & Q3).
      split; [apply Reloc_earlier; auto; lens|]. constructor; [exact Q1|].
      apply improving_inv in H as (Hneg & -> & _).
      assert (HM2 : exists x M2, M = x :: M2) by (destruct M; [lens|eauto]). destruct HM2 as (x & M2 & EM).
      destruct (dcost_ok d h ev St false 0 rv p (bef (sync d p) rv pv)
        [btw (sync d p) rv pu (pu + n - 1); btw (sync d p) rv (pv + 1) (pu - 1)] (aft (sync d p) rv (pu + n))
        C [u :: S; M] B (C ++ (u :: S) ++ M ++ B) Hru (pk_veh d p rv P Hru)) as [Hd _].
      * f_equal. lia.
      * apply (piece_bef d p rv C (M ++ (u :: S) ++ B)); auto.
      * apply Forall2_cons; [|apply Forall2_cons; [|apply Forall2_nil]].
        -- apply (piece_btw d p rv (C ++ M) u S B); auto; [apply (pk_veh d p rv P Hru)|lia].
        -- rewrite EM in *. apply (piece_btw d p rv C x M2 ((u :: S) ++ B)); side Mu.
      * apply (piece_aft d p rv (C ++ M ++ (u :: S)) B); auto; [rewrite Mu; assoc; reflexivity|lens].
      * cbn [concat]. assoc. reflexivity.
      * exact Q2.
      * apply has_visit_cons; [exact Hu|]. destruct Q2 as [W _]. apply wf_ships in W. exact W.
      * cbn [app] in Hd. rewrite Hd by (right; exact Hneg). rewrite cost_one_move by (auto; intros; apply Q3). lia.
  - (* to another route *)
    fold (reloc_fresh n p ru pu). destruct (remove_cost rc u (reloc_fresh n p ru pu)) as [c rc2] eqn:Ec.
    destruct (remove_cost_valid _ _ _ _ _ _ _ _ Hrc Fu Ec) as [-> _].
    intros H; apply (f_equal fst) in H; cbn [fst] in H.
    rewrite (reloc_fresh_ok n p ru A (u :: S) B pu P Hru Mu Ss Rn ltac:(lens) Hpu) in H.
    destruct (move_seg p ru rv A (u :: S) B C D P Hru Hrv Hne Mu Mv Ss Rn) as (Q1 & Q2 & Q3).
    destruct (seg_last u S) as (X & a & EX & LX). rewrite (Hap X a EX LX).
    rewrite (move_across ru rv v Hne B C D A X p [] a); auto.
    2: { rewrite Mu, EX. reflexivity. }
    2: { intros x Hx. apply (in_once p ru A (u :: S) B P Mu Rn). rewrite EX. exact Hx. }
    2: { apply (ref_once p v P Hv). }
    rewrite <- EX. cbn [app].
    split; [apply Reloc_across; auto; lens|]. constructor; [exact Q1|].
    apply improving_inv in H as (Hneg & -> & _).
    match type of Hneg with (dcost _ _ _ ?out _ _ < 0)%Z => 
      destruct (dcost_ok d h ev St false out rv p (bef (sync d p) rv pv)
        [btw (sync d p) ru pu (pu + n - 1)] (aft (sync d p) rv (pv + 1))
        C [u :: S] D (C ++ (u :: S) ++ D) Hrv (pk_veh d p rv P Hrv)) as [Hd _] end.
    + f_equal. exact Hpv.
    + apply (piece_bef d p rv C D); auto.
    + apply Forall2_cons; [|apply Forall2_nil]. apply (piece_btw d p ru A u S B); auto; [apply (pk_veh d p ru P Hru)|lia].
    + apply (piece_aft d p rv C D); side Mv.
    + cbn [concat]; assoc; reflexivity.
    + exact Q3.
    + apply has_visit_cons; [exact Hu|]. destruct Q3 as [W _]. apply wf_ships in W. exact W.
    + cbn [app] in Hd. rewrite Hd by (right; exact Hneg). rewrite cost_two_move; auto; [lia|].
      intros y _. rewrite Mu, Mv. counts.
Qed.
End Relocate.
