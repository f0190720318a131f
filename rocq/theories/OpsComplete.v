(** No operator overlooks an improving move of its own kind: when evaluate() declines, the move does not lower the cost. *)
From Verif Require Import Base DurationSegment Data LoadSegment SearchRoute RouteDur Valid ProposalDur ProposalRest Route RouteSpec
  RouteFacts2 RouteFacts3 Cost CostFacts DeltaFacts SearchFacts DataCtor SearchSpace SearchNodes SearchSeq SearchLoad Ops PlanFacts ShipState
  OpsBase OpsGen OpsMove OpsRelocate OpsSwap OpsOne OpsEdit OpsEdit2 LocalOpt.
Local Open Scope nat_scope.

(** A stretch of visits an operator may take out of a route after [A]: there is no depot in it, and no shipment is on board
    when it begins or when it ends. *)
Definition movable (A seg : list activity) : Prop := num_reloads seg = 0 /\ ships_ok A /\ ships_ok seg.

(** The moves that Relocate considers: the [n] visits from [u] on are put after [v], in another route or within the trip. *)
Inductive can_relocate (n : nat) (p : plan) (u : activity) (v : vref) : plan -> Prop :=
| CR_across ru rv A S B C D : ru <> rv -> ru < length p -> rv < length p ->
    mid_at p ru = A ++ (u :: S) ++ B -> length (u :: S) = n -> movable A (u :: S) -> mid_at p rv = C ++ D -> ends v rv C ->
    can_relocate n p u v (upd (upd p ru (A ++ B)) rv (C ++ (u :: S) ++ D))
| CR_later r A S M b D : r < length p ->
    mid_at p r = A ++ (u :: S) ++ (M ++ [b]) ++ D -> length (u :: S) = n -> movable A (u :: S) -> num_reloads (M ++ [b]) = 0 -> v = VAct b ->
    can_relocate n p u v (upd p r (A ++ (M ++ [b]) ++ (u :: S) ++ D))
| CR_earlier r C M S B : r < length p ->
    mid_at p r = C ++ M ++ (u :: S) ++ B -> length (u :: S) = n -> movable (C ++ M) (u :: S) -> num_reloads M = 0 -> ends v r C ->
    can_relocate n p u v (upd p r (C ++ (u :: S) ++ M ++ B)).

(** The moves that Swap considers: the [n] visits from [u] on change places with the [m] visits from [v] on, in another route or
    further along the trip. Swap<N, N> looks at a pair only once, from the visit with the smaller index. *)
Inductive can_swap (n m : nat) (p : plan) (u v : activity) : plan -> Prop :=
| CS_across ru rv A S B C T D : ru <> rv -> ru < length p -> rv < length p ->
    mid_at p ru = A ++ (u :: S) ++ B -> mid_at p rv = C ++ (v :: T) ++ D -> length (u :: S) = n -> length (v :: T) = m ->
    movable A (u :: S) -> movable C (v :: T) -> (n = m -> a_idx u < a_idx v) ->
    can_swap n m p u v (upd (upd p ru (A ++ (v :: T) ++ B)) rv (C ++ (u :: S) ++ D))
| CS_later r A S M T B : r < length p ->
    mid_at p r = A ++ (u :: S) ++ M ++ (v :: T) ++ B -> length (u :: S) = n -> length (v :: T) = m ->
    movable A (u :: S) -> movable (A ++ (u :: S) ++ M) (v :: T) -> num_reloads M = 0 -> M <> [] -> (n = m -> a_idx u < a_idx v) ->
    can_swap n m p u v (upd p r (A ++ (v :: T) ++ M ++ (u :: S) ++ B))
| CS_earlier r A T M S B : r < length p ->
    mid_at p r = A ++ (v :: T) ++ M ++ (u :: S) ++ B -> length (u :: S) = n -> length (v :: T) = m ->
    movable A (v :: T) -> movable (A ++ (v :: T) ++ M) (u :: S) -> num_reloads M = 0 -> M <> [] -> (n = m -> a_idx u < a_idx v) ->
    can_swap n m p u v (upd p r (A ++ (u :: S) ++ M ++ (v :: T) ++ B)).

(** The moves that SwapTails considers: the visits after [u] and those after [v] change places, when both come after the last
    reload of their routes and no shipment is on board at [u] or [v]. Each pair of routes is looked at from the earlier one only. *)
Inductive can_swap_tails (p : plan) (u : activity) (v : vref) : plan -> Prop :=
| CT ru rv A B C D : ru <> rv -> ru < length p -> rv < length p ->
    mid_at p ru = (A ++ [u]) ++ B -> mid_at p rv = C ++ D -> ends v rv C -> a_isDepot u = false ->
    num_reloads B = 0 -> num_reloads D = 0 -> ships_ok (A ++ [u]) -> ships_ok C -> (ru < rv \/ has_visit (mid_at p rv) = false) ->
    can_swap_tails p u v (upd (upd p ru ((A ++ [u]) ++ D)) rv (C ++ B)).

Lemma refuse_le e m t (c c' : Z) : yes (improving e m) = false -> (e <? 0)%Z = (t <? 0)%Z -> c' = (c + t)%Z -> (c <= c')%Z.
Proof. unfold yes, improving. cbn [fst snd]. intros H E ->. rewrite E in H. apply Z.ltb_ge in H. lia. Qed.

Section Complete.
Variable d : pdata.
Variable h : Z.
Variable ev : evaluator.
Hypothesis St : setting d h ev.

Lemma one_sign ex out p r A R ms Ms l B m' k : plan_ok d p -> r < length p -> mid_at p r = A ++ R -> k = length A ->
  Forall2 (mid_piece d) ms Ms -> last_piece d (rveh d r) l B -> m' = A ++ concat Ms ++ B ->
  fine_mid d (rveh d r) m' -> has_visit m' = true ->
  (dcost d ev ex out (bef (sync d p) r k) (ms ++ [l]) <? 0)%Z = (out - rcost d ev (rveh d r) (mid_at p r) + rcost d ev (rveh d r) m' <? 0)%Z.
Proof.
  intros P Hr Hm -> Hms Hl Em Hf Hv.
  destruct (dcost_ok d h ev St ex out r p (bef (sync d p) r (length A)) ms l A Ms B m' Hr (pk_veh d p r P Hr) eq_refl) as [_ Hd]; auto.
  apply (piece_bef d p r A R); auto.
Qed.
Lemma two_sign out p ru rv Au Ru Av Rv msu Msu lu Bu msv Msv lv Bv mu mv ku kv : plan_ok d p -> ru < length p -> rv < length p ->
  mid_at p ru = Au ++ Ru -> mid_at p rv = Av ++ Rv -> ku = length Au -> kv = length Av ->
  Forall2 (mid_piece d) msu Msu -> last_piece d (rveh d ru) lu Bu -> mu = Au ++ concat Msu ++ Bu -> fine_mid d (rveh d ru) mu -> has_visit mu = true ->
  Forall2 (mid_piece d) msv Msv -> last_piece d (rveh d rv) lv Bv -> mv = Av ++ concat Msv ++ Bv -> fine_mid d (rveh d rv) mv -> has_visit mv = true ->
  (dcost2 d ev out (bef (sync d p) ru ku) (msu ++ [lu]) (bef (sync d p) rv kv) (msv ++ [lv]) <? 0)%Z
  = (out - rcost d ev (rveh d ru) (mid_at p ru) - rcost d ev (rveh d rv) (mid_at p rv) + rcost d ev (rveh d ru) mu + rcost d ev (rveh d rv) mv <? 0)%Z.
Proof.
  intros P Hu Hv Mu Mv -> -> H1 H2 H3 H4 H5 H6 H7 H8 H9 H10.
  destruct (dcost2_ok d h ev St out ru rv p (bef (sync d p) ru (length Au)) msu lu (bef (sync d p) rv (length Av)) msv lv Au Msu Bu Av Msv Bv mu mv) as [_ Hd]; auto.
  - apply (pk_veh d p ru P Hu).
  - apply (piece_bef d p ru Au Ru); auto.
  - apply (pk_veh d p rv P Hv).
  - apply (piece_bef d p rv Av Rv); auto.
Qed.

(** Where a movable stretch is, the operators' own tests let it pass. *)
Lemma movable_passes p r A u S B n : plan_ok d p -> r < length p -> mid_at p r = A ++ (u :: S) ++ B -> movable A (u :: S) -> n = length S + 1 ->
  hasDepot (sync d p) r (length A + 1) n = false /\ splitsShipment (sync d p) u r (length A + 1) n = false.
Proof.
  intros P Hr Hm (R & SA & SS) ->.
  assert (F1 : firstn (length A + 1) (mid_at p r) = A ++ [u]).
  { rewrite Hm. replace (A ++ (u :: S) ++ B) with ((A ++ [u]) ++ S ++ B) by (assoc; reflexivity). apply firstn_len_app. lens. }
  assert (F2 : firstn (length A + 1 + (length S + 1) - 1) (mid_at p r) = A ++ u :: S).
  { rewrite Hm, app_assoc. apply firstn_len_app. lens. }
  assert (L : length (mid_at p r) = length A + length S + 1 + length B) by (rewrite Hm; lens).
  split.
  - unfold hasDepot. cbn [sp_mids sync]. unfold trip_of. rewrite F1, F2. unfold rsize. rewrite L.
    destruct (Nat.eqb_spec (length A + 1) 0); [lia|].
    destruct (Nat.leb_spec (length A + length S + 1 + length B + 2 - 1) (length A + 1 + (length S + 1) - 1)); [lia|].
    cbn [orb]. apply negb_false_iff, Nat.eqb_eq. reloads.
  - unfold splitsShipment. rewrite !nPickups_at, !nDeliveries_at by (try exact Hr; lia). rewrite F1, F2.
    assert (D : a_isDelivery u = false).
    { destruct u as [| | |i]; try reflexivity. exfalso. specialize (SS i). cbn in SS. rewrite Nat.eqb_refl in SS. discriminate. }
    rewrite D. pose proof (ships_counts A SA) as E1. pose proof (ships_counts (u :: S) SS) as E2.
    rewrite !npick_app, !ndeliv_app. apply orb_false_iff. split; [apply orb_false_iff; split; [reflexivity|]|]; apply negb_false_iff, Nat.eqb_eq.
    + rewrite npick_cons, ndeliv_cons, D. cbn. destruct (a_isPickup u); lia.
    + lia.
Qed.

Lemma visit_head u S : num_reloads (u :: S) = 0 -> a_isDepot u = false /\ num_reloads S = 0.
Proof. rewrite num_reloads_cons. destruct (a_isDepot u); [discriminate|]. auto. Qed.

(** ** Relocate *)
Theorem relocate_complete n p u v p' : plan_ok d p -> vref_ok p v -> can_relocate n p u v p' ->
  yes (fst (eval_relocate d ev n (sync d p) rc_none u v)) = false -> (plan_cost d ev p <= plan_cost d ev p')%Z.
Proof.
  intros P Hv Mv. unfold eval_relocate. cbn [sp_mids sync].
  destruct Mv as [ru rv A S B C D Hne Hru Hrv Mu Hl Hmov Mv He|r A S M b D Hr Hm Hl Hmov RM ->|r C M S B Hr Hm Hl Hmov RM He].
  - (* to another route *)
    destruct (movable_passes p ru A u S B n P Hru Mu Hmov ltac:(lens)) as [HD HS]. destruct Hmov as (Rn & SA & Ss).
    destruct (visit_head u S Rn) as [Hu Rs].
    rewrite (find_act_at u p ru A (S ++ B) (length A + 1)) by first [assumption | reflexivity | apply (pk_once d p P); exact Hu].
    rewrite (locate_at p v rv C D (length C)) by first [assumption | reflexivity | apply (ref_once d p v P Hv)].
    rewrite HD, HS. cbn [orb]. rewrite (proj2 (Nat.eqb_neq ru rv) Hne). cbn [andb negb].
    fold (reloc_fresh d ev n p ru (length A + 1)). unfold remove_cost, rc_none. cbn [fst].
    rewrite (reloc_fresh_ok d h ev St n p ru A (u :: S) B (length A + 1) P Hru Mu Ss Rn ltac:(lens) eq_refl).
    destruct (move_seg d p ru rv A (u :: S) B C D P Hru Hrv Hne Mu Mv Ss Rn) as (Q1 & Q2 & Q3).
    intros H. eapply refuse_le; [exact H| |].
    + apply (one_sign false _ p rv C D [btw (sync d p) ru (length A + 1) (length A + 1 + n - 1)] [u :: S] (aft (sync d p) rv (length C + 1)) D (C ++ (u :: S) ++ D)); auto.
      * apply Forall2_cons; [|apply Forall2_nil]. apply (piece_btw d p ru A u S B); auto; [apply (pk_veh d p ru P Hru)|lens].
      * apply (piece_aft d p rv C D); side Mv.
      * flat.
      * apply has_visit_cons; [exact Hu|]. apply (fine_ships d _ _ Q3).
    + rewrite cost_two_move; auto; [lia|]. intros y _. rewrite Mu, Mv. counts.
  - (* later in the trip *)
    destruct (movable_passes p r A u S ((M ++ [b]) ++ D) n P Hr Hm Hmov ltac:(lens)) as [HD HS]. destruct Hmov as (Rn & SA & Ss).
    destruct (visit_head u S Rn) as [Hu Rs]. cbn [locate]. cbn [vref_ok] in Hv.
    rewrite (find_act_at u p r A (S ++ (M ++ [b]) ++ D) (length A + 1)) by first [assumption | reflexivity | apply (pk_once d p P); exact Hu].
    rewrite (find_act_at b p r (A ++ (u :: S) ++ M) D (length (A ++ (u :: S) ++ M) + 1)) by first [assumption | reflexivity | apply (pk_once d p P); exact Hv | rewrite Hm; assoc; reflexivity].
    rewrite HD, HS. cbn [orb]. rewrite Nat.eqb_refl. cbn [andb negb].
    assert (T1 : trip_of (mid_at p r) (length A + 1) = num_reloads A).
    { rewrite Hm. replace (A ++ (u :: S) ++ (M ++ [b]) ++ D) with ((A ++ [u]) ++ S ++ (M ++ [b]) ++ D) by (assoc; reflexivity).
      replace (length A + 1) with (length (A ++ [u])) by lens. rewrite trip_at. autorewrite with rels. rewrite Hu. lia. }
    assert (T2 : trip_of (mid_at p r) (length (A ++ (u :: S) ++ M) + 1) = num_reloads A).
    { rewrite Hm. replace (A ++ (u :: S) ++ (M ++ [b]) ++ D) with ((A ++ (u :: S) ++ M ++ [b]) ++ D) by (assoc; reflexivity).
      replace (length (A ++ (u :: S) ++ M) + 1) with (length (A ++ (u :: S) ++ M ++ [b])) by lens. rewrite trip_at. reloads. }
    rewrite T1, T2, Nat.eqb_refl. cbn [negb orb].
    set (pv := length (A ++ (u :: S) ++ M) + 1).
    assert (Hpv : pv = length A + length S + length M + 2) by (unfold pv; lens).
    destruct (Nat.leb_spec pv (length A + 1 + n - 1)); [lens|]. rewrite andb_false_r. cbn [orb].
    destruct (Nat.eqb_spec (length A + 1) (pv + 1)); [lens|]. destruct (Nat.ltb_spec (length A + 1) pv); [|lia]. cbn [fst].
    destruct (within_seg d p r A (u :: S) (M ++ [b]) D (A ++ (M ++ [b]) ++ (u :: S) ++ D) P Hr (or_introl (conj Hm eq_refl)) Ss Rn) as (Q1 & Q2 & Q3).
    assert (HM2 : exists x M2, M ++ [b] = x :: M2) by (destruct M; cbn; eauto). destruct HM2 as (x & M2 & EM).
    intros K. eapply refuse_le; [exact K| |].
    + apply (one_sign false 0 p r A ((u :: S) ++ (M ++ [b]) ++ D) [btw (sync d p) r (length A + 1 + n) pv; btw (sync d p) r (length A + 1) (length A + 1 + n - 1)] [M ++ [b]; u :: S]
        (aft (sync d p) r (pv + 1)) D (A ++ (M ++ [b]) ++ (u :: S) ++ D)); auto.
      * lia.
      * apply Forall2_cons; [|apply Forall2_cons; [|apply Forall2_nil]].
        -- assert (LM : length M = length M2) by (apply (f_equal (@length _)) in EM; lens).
           rewrite EM in *. apply (piece_btw d p r (A ++ u :: S) x M2 D); side Hm.
        -- apply (piece_btw d p r A u S ((M ++ [b]) ++ D)); auto; [apply (pk_veh d p r P Hr)|lens].
      * apply (piece_aft d p r (A ++ (u :: S) ++ M ++ [b]) D); auto; [rewrite Hm; assoc; reflexivity|lens].
      * flat.
      * apply (has_visit_in _ u); [|exact Hu|apply (fine_ships d _ _ Q2)]. apply in_or_app. right. apply in_or_app. right. left. reflexivity.
    + rewrite cost_one_move by (auto; intros; apply Q3). lia.
  - (* earlier in the trip *)
    destruct M as [|x M].
    { cbn [app] in *. rewrite (upd_same_id p r) by (rewrite Hm; reflexivity). intros _. lia. }
    assert (Hm' : mid_at p r = (C ++ x :: M) ++ (u :: S) ++ B) by (rewrite Hm; assoc; reflexivity).
    destruct (movable_passes p r (C ++ x :: M) u S B n P Hr Hm' Hmov ltac:(lens)) as [HD HS]. destruct Hmov as (Rn & SA & Ss).
    destruct (visit_head u S Rn) as [Hu Rs].
    rewrite (find_act_at u p r (C ++ x :: M) (S ++ B) (length (C ++ x :: M) + 1)) by first [assumption | reflexivity | apply (pk_once d p P); exact Hu].
    rewrite (locate_at p v r C ((x :: M) ++ (u :: S) ++ B) (length C)) by first [assumption | reflexivity | apply (ref_once d p v P Hv)].
    rewrite HD, HS. cbn [orb]. rewrite Nat.eqb_refl. cbn [andb negb].
    assert (T1 : trip_of (mid_at p r) (length (C ++ x :: M) + 1) = num_reloads C).
    { rewrite Hm'. replace ((C ++ x :: M) ++ (u :: S) ++ B) with ((C ++ (x :: M) ++ [u]) ++ S ++ B) by (assoc; reflexivity).
      replace (length (C ++ x :: M) + 1) with (length (C ++ (x :: M) ++ [u])) by lens. rewrite trip_at. reloads. }
    assert (T2 : trip_of (mid_at p r) (length C) = num_reloads C) by (rewrite Hm; apply trip_at).
    rewrite T1, T2, Nat.eqb_refl. cbn [negb orb].
    set (pu := length (C ++ x :: M) + 1).
    assert (Hpu : pu = length C + length M + 2) by (unfold pu; lens).
    destruct (Nat.leb_spec pu (length C)); [lia|]. cbn [andb orb].
    destruct (Nat.eqb_spec pu (length C + 1)); [lia|]. destruct (Nat.ltb_spec pu (length C)); [lia|]. cbn [fst].
    destruct (within_seg d p r C (u :: S) (x :: M) B (C ++ (u :: S) ++ (x :: M) ++ B) P Hr (or_intror (conj Hm eq_refl)) Ss Rn) as (Q1 & Q2 & Q3).
    intros K. eapply refuse_le; [exact K| |].
    + apply (one_sign false 0 p r C ((x :: M) ++ (u :: S) ++ B) [btw (sync d p) r pu (pu + n - 1); btw (sync d p) r (length C + 1) (pu - 1)] [u :: S; x :: M]
        (aft (sync d p) r (pu + n)) B (C ++ (u :: S) ++ (x :: M) ++ B)); auto.
      * apply Forall2_cons; [|apply Forall2_cons; [|apply Forall2_nil]].
        -- apply (piece_btw d p r (C ++ x :: M) u S B); auto; [apply (pk_veh d p r P Hr)|lens].
        -- apply (piece_btw d p r C x M ((u :: S) ++ B)); side Hm.
      * apply (piece_aft d p r (C ++ (x :: M) ++ (u :: S)) B); auto; [rewrite Hm; assoc; reflexivity|lens].
      * flat.
      * apply has_visit_cons; [exact Hu|]. apply (fine_ships d _ _ Q2).
    + rewrite cost_one_move by (auto; intros; apply Q3). lia.
Qed.

(** ** Swap *)
Lemma within_pieces_sign p r A x M1 y M2 B z M3 (m' := A ++ (z :: M3) ++ (y :: M2) ++ (x :: M1) ++ B) k1 k2 k3 k4 k5 k6 k7 k8 :
  plan_ok d p -> r < length p -> mid_at p r = A ++ (x :: M1) ++ (y :: M2) ++ (z :: M3) ++ B ->
  num_reloads M1 = 0 -> num_reloads (y :: M2) = 0 -> num_reloads M3 = 0 -> a_isDepot x = false ->
  fine_mid d (rveh d r) m' ->
  k1 = length A -> k2 = length A + length M1 + length M2 + 3 -> k3 = k2 + length M3 ->
  k4 = length A + length M1 + 2 -> k5 = k4 + length M2 -> k6 = length A + 1 -> k7 = k6 + length M1 -> k8 = k3 + 1 ->
  (dcost d ev false 0 (bef (sync d p) r k1) [btw (sync d p) r k2 k3; btw (sync d p) r k4 k5; btw (sync d p) r k6 k7; aft (sync d p) r k8] <? 0)%Z
  = (0 - rcost d ev (rveh d r) (mid_at p r) + rcost d ev (rveh d r) m' <? 0)%Z.
Proof.
  intros P Hr Hm R1 R2 R3 Hx Q2 -> -> -> -> -> -> -> ->.
  apply (one_sign false 0 p r A ((x :: M1) ++ (y :: M2) ++ (z :: M3) ++ B)
    [btw (sync d p) r (length A + length M1 + length M2 + 3) (length A + length M1 + length M2 + 3 + length M3);
     btw (sync d p) r (length A + length M1 + 2) (length A + length M1 + 2 + length M2);
     btw (sync d p) r (length A + 1) (length A + 1 + length M1)] [z :: M3; y :: M2; x :: M1]
    (aft (sync d p) r (length A + length M1 + length M2 + 3 + length M3 + 1)) B m'); auto.
  - apply Forall2_cons; [|apply Forall2_cons; [|apply Forall2_cons; [|apply Forall2_nil]]].
    + apply (piece_btw d p r (A ++ (x :: M1) ++ (y :: M2)) z M3 B); side Hm.
    + apply (piece_btw d p r (A ++ (x :: M1)) y M2 ((z :: M3) ++ B)); side Hm.
    + apply (piece_btw d p r A x M1 ((y :: M2) ++ (z :: M3) ++ B)); side Hm.
  - apply (piece_aft d p r (A ++ (x :: M1) ++ (y :: M2) ++ (z :: M3)) B); side Hm.
  - unfold m'. flat.
  - apply (has_visit_in _ x); [|exact Hx|apply (fine_ships d _ _ Q2)]. unfold m'. apply in_or_app. right. apply in_or_app. right. apply in_or_app. right. left. reflexivity.
Qed.
Lemma same_size_passes n m (u v : activity) : (n = m -> a_idx u < a_idx v) -> (n =? m) && (a_idx v <=? a_idx u) = false.
Proof. intros H. destruct (Nat.eqb_spec n m) as [E|]; [|reflexivity]. apply H in E. cbn [andb]. apply Nat.leb_gt. exact E. Qed.

Theorem swap_complete n m p u v p' : plan_ok d p -> can_swap n m p u v p' ->
  yes (eval_swap d ev n m (sync d p) u (VAct v)) = false -> (plan_cost d ev p <= plan_cost d ev p')%Z.
Proof.
  intros P Mv. unfold eval_swap. cbn [sp_mids sync locate].
  destruct Mv as [ru rv A S B C T D Hne Hru Hrv Mu Mv Hl Hl' Hmov Hmov' Hi|r A S M T B Hr Hm Hl Hl' Hmov Hmov' RM HM Hi|r A T M S B Hr Hm Hl Hl' Hmov' Hmov RM HM Hi].
  - pose proof (same_size_passes n m u v Hi) as Hss. clear Hi.
    destruct (movable_passes p ru A u S B n P Hru Mu Hmov ltac:(lens)) as [HD HS]. destruct Hmov as (Rn & SA & Ss).
    destruct (movable_passes p rv C v T D m P Hrv Mv Hmov' ltac:(lens)) as [HD' HS']. destruct Hmov' as (Rn' & SC & St').
    destruct (visit_head u S Rn) as [Hu Rs]. destruct (visit_head v T Rn') as [Hv Rt].
    rewrite (find_act_at u p ru A (S ++ B) (length A + 1)) by first [assumption | reflexivity | apply (pk_once d p P); exact Hu].
    rewrite (find_act_at v p rv C (T ++ D) (length C + 1)) by first [assumption | reflexivity | apply (pk_once d p P); exact Hv].
    rewrite HD, HS, HD', HS'. clear HD HS HD' HS'. cbn [orb]. rewrite (proj2 (Nat.eqb_neq ru rv) Hne). cbn [andb negb].
    rewrite Hss. clear Hss.
    destruct (swap_segs d p ru rv A (u :: S) B C (v :: T) D P Hru Hrv Hne Mu Mv Ss Rn St' Rn') as (Q1 & Q2 & Q3).
    intros H. eapply refuse_le; [exact H| |].
    + apply (two_sign 0 p ru rv A ((u :: S) ++ B) C ((v :: T) ++ D) [btw (sync d p) rv (length C + 1) (length C + 1 + m - 1)] [v :: T] (aft (sync d p) ru (length A + 1 + n)) B
        [btw (sync d p) ru (length A + 1) (length A + 1 + n - 1)] [u :: S] (aft (sync d p) rv (length C + 1 + m)) D
        (A ++ (v :: T) ++ B) (C ++ (u :: S) ++ D)); auto; try lia.
      * apply Forall2_cons; [|apply Forall2_nil]. apply (piece_btw d p rv C v T D); side Mv.
      * apply (piece_aft d p ru (A ++ u :: S) B); side Mu.
      * flat.
      * apply has_visit_cons; [exact Hv|]. apply (fine_ships d _ _ Q2).
      * apply Forall2_cons; [|apply Forall2_nil]. apply (piece_btw d p ru A u S B); side Mu.
      * apply (piece_aft d p rv (C ++ v :: T) D); side Mv.
      * flat.
      * apply has_visit_cons; [exact Hu|]. apply (fine_ships d _ _ Q3).
    + rewrite cost_two_move; auto; [lia|]. intros y _. rewrite Mu, Mv. counts.
  - pose proof (same_size_passes n m u v Hi) as Hss. clear Hi.
    assert (Hm' : mid_at p r = (A ++ (u :: S) ++ M) ++ (v :: T) ++ B) by (rewrite Hm; assoc; reflexivity).
    destruct (movable_passes p r A u S (M ++ (v :: T) ++ B) n P Hr Hm Hmov ltac:(lens)) as [HD HS]. destruct Hmov as (Rn & SA & Ss).
    destruct (movable_passes p r (A ++ (u :: S) ++ M) v T B m P Hr Hm' Hmov' ltac:(lens)) as [HD' HS']. destruct Hmov' as (Rn' & SC & St').
    destruct (visit_head u S Rn) as [Hu Rs]. destruct (visit_head v T Rn') as [Hv Rt].
    rewrite (find_act_at u p r A (S ++ M ++ (v :: T) ++ B) (length A + 1)) by first [assumption | reflexivity | apply (pk_once d p P); exact Hu].
    rewrite (find_act_at v p r (A ++ (u :: S) ++ M) (T ++ B) (length (A ++ (u :: S) ++ M) + 1)) by first [assumption | reflexivity | apply (pk_once d p P); exact Hv].
    rewrite HD, HS, HD', HS'. clear HD HS HD' HS'. cbn [orb]. rewrite Nat.eqb_refl. cbn [andb negb].
    assert (T1 : trip_of (mid_at p r) (length A + 1) = num_reloads A).
    { rewrite Hm. replace (A ++ (u :: S) ++ M ++ (v :: T) ++ B) with ((A ++ [u]) ++ S ++ M ++ (v :: T) ++ B) by (assoc; reflexivity).
      replace (length A + 1) with (length (A ++ [u])) by lens. rewrite trip_at. autorewrite with rels. rewrite Hu. lia. }
    assert (T2 : trip_of (mid_at p r) (length (A ++ (u :: S) ++ M) + 1) = num_reloads A).
    { rewrite Hm'. replace ((A ++ (u :: S) ++ M) ++ (v :: T) ++ B) with ((A ++ (u :: S) ++ M ++ [v]) ++ T ++ B) by (assoc; reflexivity).
      replace (length (A ++ (u :: S) ++ M) + 1) with (length (A ++ (u :: S) ++ M ++ [v])) by lens. rewrite trip_at. autorewrite with rels in *. rewrite Hv. lia. }
    rewrite T1, T2, Nat.eqb_refl, Hss. clear T1 T2 Hss. cbn [negb orb].
    destruct (cons_form M HM) as (y & M2 & ->).
    set (pv := length (A ++ (u :: S) ++ (y :: M2)) + 1).
    assert (Hpv : pv = length A + length S + length M2 + 3) by (unfold pv; lens).
    destruct (Nat.leb_spec pv (length A + 1 + n - 1)); [lens|]. rewrite andb_false_r. cbn [orb].
    destruct (Nat.eqb_spec (length A + 1 + n) pv); [lens|]. destruct (Nat.eqb_spec (pv + m) (length A + 1)); [lens|]. cbn [orb].
    destruct (Nat.ltb_spec (length A + 1) pv); [|lia].
    destruct (swap_segs_within d p r A (u :: S) (y :: M2) (v :: T) B P Hr Hm Ss Rn St' Rn') as (Q1 & Q2 & Q3).
    intros K. eapply refuse_le; [exact K| |].
    + apply (within_pieces_sign p r A u S y M2 B v T); auto; lens.
    + rewrite cost_one_move by (auto; intros; apply Q3). lia.
  - pose proof (same_size_passes n m u v Hi) as Hss. clear Hi.
    assert (Hm' : mid_at p r = (A ++ (v :: T) ++ M) ++ (u :: S) ++ B) by (rewrite Hm; assoc; reflexivity).
    destruct (movable_passes p r A v T (M ++ (u :: S) ++ B) m P Hr Hm Hmov' ltac:(lens)) as [HD' HS']. destruct Hmov' as (Rn' & SA & St').
    destruct (movable_passes p r (A ++ (v :: T) ++ M) u S B n P Hr Hm' Hmov ltac:(lens)) as [HD HS]. destruct Hmov as (Rn & SC & Ss).
    destruct (visit_head u S Rn) as [Hu Rs]. destruct (visit_head v T Rn') as [Hv Rt].
    rewrite (find_act_at v p r A (T ++ M ++ (u :: S) ++ B) (length A + 1)) by first [assumption | reflexivity | apply (pk_once d p P); exact Hv].
    rewrite (find_act_at u p r (A ++ (v :: T) ++ M) (S ++ B) (length (A ++ (v :: T) ++ M) + 1)) by first [assumption | reflexivity | apply (pk_once d p P); exact Hu].
    rewrite HD, HS, HD', HS'. clear HD HS HD' HS'. cbn [orb]. rewrite Nat.eqb_refl. cbn [andb negb].
    assert (T1 : trip_of (mid_at p r) (length A + 1) = num_reloads A).
    { rewrite Hm. replace (A ++ (v :: T) ++ M ++ (u :: S) ++ B) with ((A ++ [v]) ++ T ++ M ++ (u :: S) ++ B) by (assoc; reflexivity).
      replace (length A + 1) with (length (A ++ [v])) by lens. rewrite trip_at. autorewrite with rels. rewrite Hv. lia. }
    assert (T2 : trip_of (mid_at p r) (length (A ++ (v :: T) ++ M) + 1) = num_reloads A).
    { rewrite Hm'. replace ((A ++ (v :: T) ++ M) ++ (u :: S) ++ B) with ((A ++ (v :: T) ++ M ++ [u]) ++ S ++ B) by (assoc; reflexivity).
      replace (length (A ++ (v :: T) ++ M) + 1) with (length (A ++ (v :: T) ++ M ++ [u])) by lens. rewrite trip_at. autorewrite with rels in *. rewrite Hu. lia. }
    rewrite T1, T2, Nat.eqb_refl, Hss. clear T1 T2 Hss. cbn [negb orb].
    destruct (cons_form M HM) as (y & M2 & ->).
    set (pu := length (A ++ (v :: T) ++ (y :: M2)) + 1).
    assert (Hpu : pu = length A + length T + length M2 + 3) by (unfold pu; lens).
    destruct (Nat.leb_spec pu (length A + 1 + m - 1)); [lens|]. cbn [andb orb].
    destruct (Nat.eqb_spec (pu + n) (length A + 1)); [lens|]. destruct (Nat.eqb_spec (length A + 1 + m) pu); [lens|]. cbn [orb].
    destruct (Nat.ltb_spec pu (length A + 1)); [lia|].
    destruct (swap_segs_within d p r A (v :: T) (y :: M2) (u :: S) B P Hr Hm St' Rn' Ss Rn) as (Q1 & Q2 & Q3).
    intros K. eapply refuse_le; [exact K| |].
    + apply (within_pieces_sign p r A v T y M2 B u S); auto; lens.
    + rewrite cost_one_move by (auto; intros; apply Q3). lia.
Qed.

(** ** SwapTails *)
Theorem tails_complete p u v p' : plan_ok d p -> vref_ok p v -> can_swap_tails p u v p' ->
  yes (eval_tails d ev (sync d p) u v) = false -> (plan_cost d ev p <= plan_cost d ev p')%Z.
Proof.
  intros P Hv Mv. unfold eval_tails. cbn [sp_mids sync].
  destruct Mv as [ru rv A B C D Hne Hru Hrv Mu Mv He Hu Rb Rd Sa Sc Ho].
  rewrite (find_act_at u p ru A B (length (A ++ [u]))) by first [assumption | solve [lens] | apply (pk_once d p P); exact Hu | rewrite Mu; assoc; reflexivity].
  rewrite (locate_at p v rv C D (length C)) by first [assumption | reflexivity | apply (ref_once d p v P Hv)].
  rewrite (proj2 (Nat.eqb_neq ru rv) Hne).
  assert (E0 : (rv <? ru) && negb (isEmpty (sync d p) ru) && negb (isEmpty (sync d p) rv) = false).
  { rewrite !isEmpty_at by assumption. destruct Ho as [Ho| ->]; [destruct (Nat.ltb_spec rv ru); [lia|reflexivity]|apply andb_false_r]. }
  rewrite E0. clear E0.
  assert (T1 : trip_of (mid_at p ru) (length (A ++ [u])) + 1 =? numTrips (mid_at p ru) = true).
  { apply Nat.eqb_eq. rewrite Mu, trip_at. unfold numTrips. reloads. }
  assert (T2 : trip_of (mid_at p rv) (length C) + 1 =? numTrips (mid_at p rv) = true).
  { apply Nat.eqb_eq. rewrite Mv, trip_at. unfold numTrips. reloads. }
  rewrite T1, T2. cbn [negb orb].
  rewrite !nPickups_at, !nDeliveries_at by (try assumption; rewrite ?Mu, ?Mv; lens).
  rewrite Mu at 1 2. rewrite Mv at 1 2. rewrite !firstn_len_app by reflexivity.
  rewrite (ships_counts _ Sa), (ships_counts _ Sc), !Nat.eqb_refl. cbn [negb orb].
  destruct (tails_plan d p ru rv (A ++ [u]) B C D P Hru Hrv Hne Mu Mv Sa Sc Rb Rd) as (Q1 & Q2 & Q3).
  assert (Vu : has_visit ((A ++ [u]) ++ D) = true).
  { apply (has_visit_in _ u); [apply in_or_app; left; apply in_elt|exact Hu|apply (fine_ships d _ _ Q2)]. }
  assert (Hcost : forall a, cnt ((A ++ [u]) ++ D) a + cnt (C ++ B) a = cnt (mid_at p ru) a + cnt (mid_at p rv) a).
  { intros a. rewrite Mu, Mv. counts. }
  assert (Kb : k_isEnd (kind_at (mid_at p ru) (length (A ++ [u]) + 1)) = match B with [] => true | _ => false end).
  { rewrite Mu. destruct B as [|b B']; [rewrite app_nil_r, kind_at_end by lens; reflexivity|rewrite kind_at_app by lens; reflexivity]. }
  assert (Kd : k_isEnd (kind_at (mid_at p rv) (length C + 1)) = match D with [] => true | _ => false end).
  { rewrite Mv. destruct D as [|x D']; [rewrite app_nil_r, kind_at_end by lens; reflexivity|rewrite kind_at_app by lens; reflexivity]. }
  rewrite Kb, Kd. set (pu := length (A ++ [u])) in *.
  destruct B as [|b B]; destruct D as [|x D]; cbn [negb andb].
  - intros _. rewrite !app_nil_r in *. rewrite (upd_same_id p ru) by (rewrite Mu; reflexivity). rewrite upd_same_id by (rewrite Mv; reflexivity). lia.
  - destruct (Nat.eqb_spec (length C) 0) as [Z|Z].
    + assert (C = []) as -> by (destruct C; [reflexivity|lens]).
      intros K. eapply refuse_le; [exact K| |].
      * apply (one_sign false (0 - pcost ev (sync d p) rv) p ru (A ++ [u]) [] [btw (sync d p) rv (length (@nil activity) + 1) (rsize (mid_at p rv) - 2)] [x :: D]
          (at_ (sync d p) ru (rsize (mid_at p ru) - 1)) [] ((A ++ [u]) ++ x :: D)); auto.
        -- apply Forall2_cons; [|apply Forall2_nil]. apply (tail_piece d p rv [] x D); auto; lens.
        -- apply end_piece; auto.
        -- flat.
      * unfold pcost. rewrite cache_sync by exact Hrv. rewrite cost_two_move by (auto; intros; apply Hcost). cbn [app].
        rewrite (rcost_empty d ev (rveh d rv) []) by reflexivity. unfold rcost. lia.
    + destruct v as [va|]; [|destruct He as [_ E]; subst C; lens].
      destruct He as (C' & EC).
      intros K. eapply refuse_le; [exact K| |].
      * apply (two_sign 0 p ru rv (A ++ [u]) [] C (x :: D) [btw (sync d p) rv (length C + 1) (rsize (mid_at p rv) - 2)] [x :: D] (at_ (sync d p) ru (rsize (mid_at p ru) - 1)) []
          [] [] (at_ (sync d p) rv (rsize (mid_at p rv) - 1)) [] ((A ++ [u]) ++ x :: D) (C ++ [])); auto.
        -- apply Forall2_cons; [|apply Forall2_nil]. apply (tail_piece d p rv C x D); auto; lens.
        -- apply end_piece; auto.
        -- flat.
        -- apply end_piece; auto.
        -- apply (has_visit_in _ va); [rewrite EC; apply in_or_app; left; apply in_elt|exact Hv|apply (fine_ships d _ _ Q3)].
      * rewrite cost_two_move by (auto; intros; apply Hcost). lia.
  - intros K. eapply refuse_le; [exact K| |].
    + apply (two_sign 0 p ru rv (A ++ [u]) (b :: B) C [] [] [] (at_ (sync d p) ru (rsize (mid_at p ru) - 1)) []
        [btw (sync d p) ru (pu + 1) (rsize (mid_at p ru) - 2)] [b :: B] (at_ (sync d p) rv (rsize (mid_at p rv) - 1)) [] ((A ++ [u]) ++ []) (C ++ b :: B)); auto.
      * apply end_piece; auto.
      * apply Forall2_cons; [|apply Forall2_nil]. apply (tail_piece d p ru (A ++ [u]) b B); auto; lens.
      * apply end_piece; auto.
      * flat.
      * apply (has_visit_in _ b); [apply in_elt|apply (num_reloads_In (b :: B)); [exact Rb|left; reflexivity]|apply (fine_ships d _ _ Q3)].
    + rewrite cost_two_move by (auto; intros; apply Hcost). lia.
  - intros K. eapply refuse_le; [exact K| |].
    + apply (two_sign 0 p ru rv (A ++ [u]) (b :: B) C (x :: D) [btw (sync d p) rv (length C + 1) (rsize (mid_at p rv) - 2)] [x :: D] (at_ (sync d p) ru (rsize (mid_at p ru) - 1)) []
        [btw (sync d p) ru (pu + 1) (rsize (mid_at p ru) - 2)] [b :: B] (at_ (sync d p) rv (rsize (mid_at p rv) - 1)) [] ((A ++ [u]) ++ x :: D) (C ++ b :: B)); auto.
      * apply Forall2_cons; [|apply Forall2_nil]. apply (tail_piece d p rv C x D); auto; lens.
      * apply end_piece; auto.
      * flat.
      * apply Forall2_cons; [|apply Forall2_nil]. apply (tail_piece d p ru (A ++ [u]) b B); auto; lens.
      * apply end_piece; auto.
      * flat.
      * apply (has_visit_in _ b); [apply in_elt|apply (num_reloads_In (b :: B)); [exact Rb|left; reflexivity]|apply (fine_ships d _ _ Q3)].
    + rewrite cost_two_move by (auto; intros; apply Hcost). lia.
Qed.
End Complete.
