(** What Solution::insert does: it puts the client or shipment where that is cheapest among the
    places it considers. *)
From Coq Require Import Permutation.
From Verif Require Import Base DurationSegment Data LoadSegment SearchRoute RouteDur Valid Route RouteSpec
  RouteFacts2 Cost CostFacts DataCtor SearchSpace SearchNodes SearchSeq SearchLoad Ops PlanFacts ShipState OpsBase OpsGen OpsRelocate OpsOne OpsEdit OpsEdit2 OpsAll LocalSearch LocalFacts.
Local Open Scope nat_scope.

(** The client is now in some route, nothing else changed; similarly for a shipment. *)
Inductive client_put (p : plan) (i : nat) : plan -> Prop :=
| CPut r C D : r < length p -> mid_at p r = C ++ D -> client_put p i (upd p r (C ++ AClient i :: D)).
Inductive ship_put (p : plan) (i : nat) : plan -> Prop :=
| SPut r C M D : r < length p -> mid_at p r = C ++ M ++ D -> num_reloads M = 0 ->
    ship_put p i (upd p r (C ++ APickup i :: M ++ ADelivery i :: D)).

Section Insert.
Variable d : pdata.
Variable h : Z.
Variable ev : evaluator.
Hypothesis St : setting d h ev.
Variable p : plan.
Hypothesis P : plan_ok d p.

Lemma some_route : 0 < length p.
Proof.
  rewrite (pk_len d p P), fleet_length. pose proof (do_some_vehicle d (st_data d h ev St)) as H.
  assert (X : 0 < avail d 0).
  { unfold avail. apply vv_numAvailable. apply (proj1 (Forall_forall _ _) (va_vehicles _ (st_valid d h ev St))). apply nth_In. exact H. }
  pose proof (offset_lt (avail d) 0 (p_numVehicleTypes d) 0 H X). lia.
Qed.

Lemma before_spot r a A B : mid_at p r = A ++ a :: B -> exists C D, mid_at p r = C ++ D /\ length A = length C.
Proof. intros ->. exists A, (a :: B). auto. Qed.
Lemma spot_found a r pos : find_act a p = Some (r, pos) -> exists C D, mid_at p r = C ++ D /\ pos = length C /\ ends (VAct a) r C /\ r < length p.
Proof. intros F. destruct (find_act_spec _ _ _ _ F) as (A & B & E & -> & H). exists (A ++ [a]), B. repeat split; [rewrite E; assoc; reflexivity|rewrite app_length; cbn; lia|exists A; reflexivity|exact H]. Qed.

(** ** Clients *)
Section Client.
Variable i : nat.
Hypothesis Hi : i < p_numClients d.
Hypothesis Un : tot p (AClient i) = 0.

Lemma insert_cost_ok r C D pos : r < length p -> mid_at p r = C ++ D -> pos = length C ->
  ins p r (pos + 1) (AClient i) = upd p r (C ++ AClient i :: D) /\ done d ev p (upd p r (C ++ AClient i :: D)) (insert_cost d ev (sync d p) i r pos).
Proof.
  intros Hr Hm ->. split; [apply (ins_eq p r (length C + 1) (AClient i) C D Hm eq_refl)|].
  destruct (client_in d ev p r C D i P Hr Hm Hi Un) as (Q1 & Q2 & Q3 & Q4). constructor; [exact Q1|]. rewrite Q3. unfold insert_cost.
  assert (E := one_eval d h ev St true (0 - c_prize (p_client d i)) p r C D [SClient i] [[AClient i]] (aft (sync d p) r (length C + 1)) D (C ++ AClient i :: D) (length C) P Hr Hm eq_refl).
  cbn [app concat] in E. rewrite E; auto.
  - rewrite Hm. lia.
  - apply Forall2_cons; [apply piece_client|apply Forall2_nil].
  - apply (piece_aft d p r C D); first [assumption | lia].
Qed.
Definition place_ok (x : place) : Prop :=
  exists C D, fst (snd x) < length p /\ mid_at p (fst (snd x)) = C ++ D /\ snd (snd x) = length C /\ fst x = insert_cost d ev (sync d p) i (fst (snd x)) (snd (snd x)).
Lemma better_ok cost r pos best : place_ok best -> place_ok (cost, (r, pos)) -> place_ok (better cost r pos best) /\ (fst (better cost r pos best) <= fst best)%Z /\ (fst (better cost r pos best) <= cost)%Z.
Proof. intros B N. unfold better. destruct (Z.ltb_spec cost (fst best)); cbn [fst]; split; auto; lia. Qed.
Lemma place_near_ok vs : (forall v, In v vs -> visit_known d v) -> forall best, place_ok best ->
  exists x, place_near d ev (sync d p) i vs best = Some x /\ place_ok x /\ (fst x <= fst best)%Z /\
    forall v r pos, In v vs -> find_act v p = Some (r, pos) -> (fst x <= insert_cost d ev (sync d p) i r pos)%Z.
Proof.
  induction vs as [|v vs IH]; intros K best B; cbn [place_near]; [exists best; repeat split; auto; [lia|intros ? ? ? []]|].
  rewrite (proj2 (node_known d v) (K v (or_introl eq_refl))). change (sp_mids (sync d p)) with p.
  assert (K' : forall v, In v vs -> visit_known d v) by (intros w Hw; apply K; right; exact Hw).
  destruct (find_act v p) as [[r pos]|] eqn:F.
  - destruct (spot_found v r pos F) as (C & D & E & Hp & _ & Hr). set (c := insert_cost d ev (sync d p) i r pos).
    assert (N : place_ok (c, (r, pos))) by (exists C, D; repeat split; assumption).
    destruct (better_ok c r pos best B N) as (B1 & B2 & B3). destruct (IH K' (better c r pos best) B1) as (x & Ex & X1 & X2 & X3).
    exists x. split; [exact Ex|]. split; [exact X1|]. split; [lia|]. intros w r' pos' [<-|Hw] Fw; [|eapply X3; eassumption].
    rewrite F in Fw. injection Fw as <- <-. fold c. lia.
  - destruct (IH K' best B) as (x & Ex & X1 & X2 & X3). exists x. split; [exact Ex|]. split; [exact X1|]. split; [exact X2|].
    intros w r' pos' [<-|Hw] Fw; [congruence|eapply X3; eassumption].
Qed.
Lemma place_empty_ok types : (forall t, In t types -> In t (veh_order (p_vehicles d) 0 0)) -> forall best, place_ok best ->
  let x := place_empty d ev (sync d p) i types best in place_ok x /\ (fst x <= fst best)%Z /\
    ((exists r, snd x = (r, 0) /\ isEmpty (sync d p) r = true) \/
     forall t o r, In (t, o) types -> first_empty (sync d p) o (avail d t) = Some r -> (fst x <= insert_cost d ev (sync d p) i r 0)%Z).
Proof.
  induction types as [|[t o] types IH]; intros K best B; cbn [place_empty]; [cbv zeta; repeat split; auto; [lia|right; intros ? ? ? []]|].
  assert (K' : forall t, In t types -> In t (veh_order (p_vehicles d) 0 0)) by (intros w Hw; apply K; right; exact Hw).
  specialize (IH K'). destruct (first_empty (sync d p) o (avail d t)) as [r|] eqn:F.
  - set (c := insert_cost d ev (sync d p) i r 0). destruct (Z.ltb_spec c (fst best)) as [L|L]; cbv zeta.
    + pose proof (empty_slot d (sync d p) t o r (K _ (or_introl eq_refl)) F) as Hr. rewrite <- (pk_len d p P) in Hr.
      split; [exists [], (mid_at p r); repeat split; auto|]. cbn [fst snd]. split; [lia|]. left. exists r. split; [reflexivity|]. apply (first_empty_range _ _ _ _ F).
    + destruct (IH best B) as (X1 & X2 & X3). split; [exact X1|]. split; [exact X2|]. destruct X3 as [X3|X3]; [left; exact X3|]. right.
      intros t' o' r' [E|Hin] F'; [injection E as <- <-; rewrite F in F'; injection F' as <-; fold c; lia|eapply X3; eassumption].
  - destruct (IH best B) as (X1 & X2 & X3). split; [exact X1|]. split; [exact X2|]. destruct X3 as [X3|X3]; [left; exact X3|]. right.
    intros t' o' r' [E|Hin] F'; [injection E as <- <-; congruence|eapply X3; eassumption].
Qed.
Theorem insert_client_spec sp vs required : space_inv d sp -> neighbours_of sp (AClient i) = Ok vs -> (forall v, In v vs -> visit_known d v) ->
  exists delta p', insert_client d ev sp (sync d p) i required = Some (if required || (delta <? 0)%Z then Some p' else None) /\
    client_put p i p' /\ done d ev p p' delta /\
    (forall q, inserted p (AClient i) (VStart 0) q -> (plan_cost d ev p' <= plan_cost d ev q)%Z) /\
    (forall a q, In a vs -> visit_known d a -> inserted p (AClient i) (VAct a) q -> (plan_cost d ev p' <= plan_cost d ev q)%Z) /\
    ((exists r, has_visit (mid_at p r) = false /\ inserted p (AClient i) (VStart r) p') \/
     (forall t o r q, In (t, o) (ss_vehOrder sp) -> first_empty (sync d p) o (avail d t) = Some r -> inserted p (AClient i) (VStart r) q -> (plan_cost d ev p' <= plan_cost d ev q)%Z)).
Proof.
  intros Sp N K. unfold insert_client. rewrite N. pose proof some_route as H0.
  assert (B0 : place_ok (insert_cost d ev (sync d p) i 0 0, (0, 0))) by (exists [], (mid_at p 0); repeat split; auto).
  destruct (place_near_ok vs K _ B0) as (x & -> & X1 & X2 & X3). cbn [fst] in X2.
  assert (V : forall t, In t (ss_vehOrder sp) -> In t (veh_order (p_vehicles d) 0 0)).
  { intros t Ht. eapply Permutation_in; [symmetry; apply (si_veh d sp Sp)|exact Ht]. }
  pose proof (place_empty_ok (ss_vehOrder sp) V x X1) as Y. cbv zeta in Y.
  destruct (place_empty d ev (sync d p) i (ss_vehOrder sp) x) as [cost [r pos]]. cbn [fst snd] in Y. destruct Y as ((C & D & Hr & Hm & Hpos & Hc) & Y2 & Y3). cbn [fst snd] in *.
  destruct (insert_cost_ok r C D pos Hr Hm Hpos) as [I1 I2]. rewrite <- Hc in I2.
  exists cost, (upd p r (C ++ AClient i :: D)). change (sp_mids (sync d p)) with p. rewrite I1. split; [reflexivity|]. split; [constructor; assumption|]. split; [exact I2|].
  rewrite (dn_cost _ _ _ _ _ I2).
  assert (Q : forall v q, inserted p (AClient i) v q -> (forall a, v = VAct a -> visit_known d a) -> exists r pos, locate p v = Some (r, pos) /\ plan_cost d ev q = (plan_cost d ev p + insert_cost d ev (sync d p) i r pos)%Z).
  { intros v q I Kv. inversion I as [r' C' D' Hr' Hm' He']; subst q. exists r', (length C'). split.
    - apply (locate_at p v r' C' D'); auto. intros a Ea. apply (pk_once d p P). specialize (Kv a Ea). exact (proj1 Kv).
    - destruct (insert_cost_ok r' C' D' (length C') Hr' Hm' eq_refl) as [_ J]. exact (dn_cost _ _ _ _ _ J). }
  split; [|split].
  - intros q I. destruct (Q (VStart 0) q I) as (r' & pos' & L & ->); [discriminate|]. cbn [locate] in L. injection L as <- <-. lia.
  - intros a q Ha Ka I. destruct (Q (VAct a) q I) as (r' & pos' & L & ->); [intros b [= <-]; exact Ka|]. cbn [locate] in L. specialize (X3 a r' pos' Ha L). lia.
  - destruct Y3 as [(r' & E & He)|Y3].
    + injection E as -> ->. left. exists r'. rewrite isEmpty_at in He by exact Hr. apply Bool.negb_true_iff in He. split; [exact He|].
      destruct C; [|cbn in Hpos; lia]. constructor; auto. split; reflexivity.
    + right. intros t o r' q Ht F I. destruct (Q (VStart r') q I) as (r2 & pos2 & L & ->); [discriminate|]. cbn [locate] in L. injection L as <- <-. specialize (Y3 t o r' Ht F). lia.
Qed.
End Client.

(** ** Shipments *)
Section Shipment.
Variable i : nat.
Hypothesis Hi : i < p_numShipments d.
Hypothesis Un : tot p (APickup i) = 0.
Definition put_ship (r pos dpos : nat) : plan := ins (ins p r dpos (ADelivery i)) r (pos + 1) (APickup i).
Definition ship_new r C M D : plan := upd p r (C ++ APickup i :: M ++ ADelivery i :: D).

Lemma put_ship_eq r C M D pos dpos : r < length p -> mid_at p r = C ++ M ++ D -> pos = length C -> dpos = length C + length M + 1 ->
  put_ship r pos dpos = ship_new r C M D.
Proof.
  intros Hr Hm -> ->. unfold put_ship, ship_new.
  rewrite (ins_eq p r _ (ADelivery i) (C ++ M) D); [|rewrite Hm; assoc; reflexivity|rewrite app_length; lia].
  rewrite (ins_eq _ r _ (APickup i) C (M ++ ADelivery i :: D)); [apply upd_upd|rewrite mid_at_same by exact Hr; assoc; reflexivity|reflexivity].
Qed.
Lemma ship_done r C M D e out : r < length p -> mid_at p r = C ++ M ++ D -> num_reloads M = 0 ->
  e = (out - s_prize (p_shipment d i) - rcost d ev (rveh d r) (mid_at p r) + rcost d ev (rveh d r) (C ++ APickup i :: M ++ ADelivery i :: D))%Z -> out = 0%Z ->
  done d ev p (ship_new r C M D) e.
Proof.
  intros Hr Hm RM He ->. pose proof (ship_tot d p i P) as Fd. rewrite Un in Fd.
  destruct (pair_in d p r C M D i P Hr Hm RM Hi Un Fd) as (Q1 & Q2). constructor; [exact Q1|]. unfold ship_new.
  rewrite (ship_in_cost d ev p r C M D i 0 e P Hr Hm Hi Un He). lia.
Qed.
(** Where the delivery goes: directly behind the pickup ([None]), or after position [e]. *)
Definition dpos_of (pos : nat) (upto : option nat) : nat := match upto with None => pos + 1 | Some e => e + 1 end.
Lemma ship_cost_ok r C M D pos upto : r < length p -> mid_at p r = C ++ M ++ D -> num_reloads M = 0 -> pos = length C ->
  (upto = None /\ M = [] \/ M <> [] /\ upto = Some (length C + length M)) ->
  put_ship r pos (dpos_of pos upto) = ship_new r C M D /\ done d ev p (ship_new r C M D) (ship_cost d ev (sync d p) i r pos upto).
Proof.
  intros Hr Hm RM -> HM. split.
  { apply put_ship_eq; auto. destruct HM as [[-> ->]|[_ ->]]; cbn; lia. }
  pose proof (ship_tot d p i P) as Fd. rewrite Un in Fd. destruct (pair_in d p r C M D i P Hr Hm RM Hi Un Fd) as (Q1 & Q2).
  apply ship_done with (out := 0%Z); auto. unfold ship_cost.
  assert (Hvis : has_visit (C ++ APickup i :: M ++ ADelivery i :: D) = true) by (apply (has_visit_in _ (APickup i)); [apply in_elt|reflexivity|apply (fine_ships d _ _ Q2)]).
  destruct HM as [[-> ->]|[HM ->]].
  - assert (E := one_eval d h ev St true (0 - s_prize (p_shipment d i)) p r C D [SPickup i; SDelivery i] [[APickup i]; [ADelivery i]] (aft (sync d p) r (length C + 1)) D
       (C ++ APickup i :: ADelivery i :: D) (length C) P Hr Hm eq_refl).
    cbn [app concat] in E. rewrite E; auto.
    + apply Forall2_cons; [apply piece_pickup|apply Forall2_cons; [apply piece_delivery|apply Forall2_nil]].
    + apply (piece_aft d p r C D); first [assumption | lia].
  - destruct M as [|z M]; [congruence|].
    assert (E := one_eval d h ev St true (0 - s_prize (p_shipment d i)) p r C ((z :: M) ++ D) [SPickup i; btw (sync d p) r (length C + 1) (length C + length (z :: M)); SDelivery i]
       [[APickup i]; z :: M; [ADelivery i]] (aft (sync d p) r (length C + length (z :: M) + 1)) D (C ++ APickup i :: (z :: M) ++ ADelivery i :: D) (length C) P Hr Hm eq_refl).
    cbn [app] in E. cbn [app]. rewrite E; auto.
    + apply Forall2_cons; [apply piece_pickup|]. apply Forall2_cons; [|apply Forall2_cons; [apply piece_delivery|apply Forall2_nil]].
      apply (piece_btw d p r C z M D); side Hm.
    + apply (piece_aft d p r (C ++ z :: M) D); side Hm.
    + flat.
Qed.
Definition splace_ok (x : splace) : Prop :=
  match x with
  | None => True
  | Some (z, (r, pos, dpos)) => exists C M D, r < length p /\ mid_at p r = C ++ M ++ D /\ num_reloads M = 0 /\
      pos = length C /\ dpos = length C + length M + 1 /\ done d ev p (ship_new r C M D) z
  end.
Ltac spot := do 5 (split; [first [assumption|reflexivity|cbn; lia]|]); assumption.
(** At most [z]. *)
Definition sle (x : splace) (z : Z) : Prop := match x with Some (z', _) => (z' <= z)%Z | None => False end.
Definition sles (x y : splace) : Prop := forall z, sle y z -> sle x z.
Lemma sbetter_ok cost r pos dpos best : splace_ok best -> splace_ok (Some (cost, (r, pos, dpos))) ->
  splace_ok (sbetter cost r pos dpos best) /\ sles (sbetter cost r pos dpos best) best /\ sle (sbetter cost r pos dpos best) cost.
Proof.
  intros B N. unfold sbetter, sles. destruct best as [[z w]|].
  - destruct (Z.ltb_spec cost z); cbn [sle]; split; auto; split; intros; lia.
  - split; [exact N|]. split; [intros z []|cbn; lia].
Qed.
Lemma sles_refl x : sles x x.
Proof. intros z H. exact H. Qed.
Lemma sles_trans x y z : sles x y -> sles y z -> sles x z.
Proof. intros A B c H. apply A, B, H. Qed.

(** Everything that inserts the pickup after the first [length C] activities of the route. *)
Lemma splace_after_ok r C R pos best : r < length p -> mid_at p r = C ++ R -> pos = length C -> splace_ok best ->
  let x := splace_after d ev (sync d p) i r pos best in
  splace_ok x /\ sles x best /\ forall M D, R = M ++ D -> num_reloads M = 0 -> sle x (plan_cost d ev (ship_new r C M D) - plan_cost d ev p).
Proof.
  intros Hr Hm -> B x. unfold splace_after in x. change (sp_mids (sync d p)) with p in x.
  set (c0 := ship_cost d ev (sync d p) i r (length C) None) in x.
  destruct (ship_cost_ok r C [] R (length C) None Hr Hm eq_refl eq_refl (or_introl (conj eq_refl eq_refl))) as [E0 D0]. fold c0 in D0.
  assert (N0 : splace_ok (Some (c0, (r, length C, length C + 1)))) by (exists C, [], R; spot).
  destruct (sbetter_ok c0 r (length C) (length C + 1) best B N0) as (B1 & B2 & B3).
  set (b0 := sbetter c0 r (length C) (length C + 1) best) in *.
  assert (L : forall es b, (forall e, In e es -> exists M D, R = M ++ D /\ M <> [] /\ num_reloads M = 0 /\ e = length C + length M) -> splace_ok b ->
    let y := fold_left (fun best e => sbetter (ship_cost d ev (sync d p) i r (length C) (Some e)) r (length C) (e + 1) best) es b in
    splace_ok y /\ sles y b /\ forall e, In e es -> sle y (ship_cost d ev (sync d p) i r (length C) (Some e))).
  { induction es as [|e es IH]; intros b He Hb; cbn [fold_left]; [repeat split; [exact Hb|apply sles_refl|intros ? []]|].
    destruct (He e (or_introl eq_refl)) as (M & D & -> & HM & RM & Ee).
    destruct (ship_cost_ok r C M D (length C) (Some e) Hr Hm RM eq_refl) as [E1 D1]; [right; split; [exact HM|rewrite Ee; reflexivity]|].
    set (c := ship_cost d ev (sync d p) i r (length C) (Some e)) in *.
    destruct (sbetter_ok c r (length C) (e + 1) b Hb) as (X1 & X2 & X3); [exists C, M, D; spot|].
    destruct (IH (sbetter c r (length C) (e + 1) b)) as (Y1 & Y2 & Y3); [intros e' He'; apply He; right; exact He'|exact X1|]. cbv zeta.
    split; [exact Y1|]. split; [eapply sles_trans; eassumption|]. intros e' [<-|He']; [apply Y2; exact X3|apply Y3, He']. }
  assert (H1 : forall e, In e (trip_rest (mid_at p r) (length C)) -> exists M D, R = M ++ D /\ M <> [] /\ num_reloads M = 0 /\ e = length C + length M).
  { intros e He. rewrite Hm in He. destruct (trip_rest_split C R e (length C) eq_refl He) as (M & R' & E & H1 & H2 & H3). exists M, R'. auto. }
  destruct (L (trip_rest (mid_at p r) (length C)) b0 H1 B1) as (Y1 & Y2 & Y3). fold x in Y1, Y2, Y3.
  split; [exact Y1|]. split; [eapply sles_trans; eassumption|].
  intros M D -> RM. destruct M as [|z M].
  - cbn [app] in D0. rewrite (dn_cost _ _ _ _ _ D0). replace (plan_cost d ev p + c0 - plan_cost d ev p)%Z with c0 by lia. apply Y2, B3.
  - destruct (ship_cost_ok r C (z :: M) D (length C) (Some (length C + length (z :: M))) Hr Hm RM eq_refl) as [_ D1]; [right; split; [discriminate|reflexivity]|].
    rewrite (dn_cost _ _ _ _ _ D1). match goal with |- sle x (?a + ?c - ?a) => replace (a + c - a)%Z with c by lia end. apply Y3. rewrite Hm. unfold trip_rest. apply in_seq.
    rewrite skipn_len_app by reflexivity.
    assert (G : forall A B, num_reloads A = 0 -> length A <= run_length (A ++ B)).
    { induction A as [|a A IHA]; intros B' HA; [cbn; lia|]. cbn [app run_length length]. rewrite num_reloads_cons in HA. destruct (a_isDepot a); [lia|]. specialize (IHA B' ltac:(lia)). lia. }
    specialize (G (z :: M) D RM). cbn [length] in *. lia.
Qed.
Lemma splace_near_ok vs : (forall v, In v vs -> visit_known d v) -> forall best, splace_ok best ->
  exists x, splace_near d ev (sync d p) i vs best = Some x /\ splace_ok x /\ sles x best /\
    forall v r A B, In v vs -> r < length p -> mid_at p r = A ++ v :: B ->
      forall C M D, C ++ M ++ D = A ++ v :: B -> num_reloads M = 0 -> (C = A \/ C = A ++ [v]) -> sle x (plan_cost d ev (ship_new r C M D) - plan_cost d ev p).
Proof.
  induction vs as [|v vs IH]; intros K best B; cbn [splace_near]; [exists best; repeat split; auto; [apply sles_refl|intros ? ? ? ? []]|].
  pose proof (K v (or_introl eq_refl)) as Kv.
  assert (Hv : tot p v <= 1) by (apply (pk_once d p P); exact (proj1 Kv)).
  rewrite (proj2 (node_known d v) Kv). change (sp_mids (sync d p)) with p.
  assert (K' : forall v, In v vs -> visit_known d v) by (intros w Hw; apply K; right; exact Hw).
  destruct (find_act v p) as [[r pos]|] eqn:F.
  - destruct (find_act_spec _ _ _ _ F) as (A & R & E & -> & Hr). replace (length A + 1 - 1) with (length A) by lia.
    destruct (splace_after_ok r A (v :: R) (length A) best Hr E eq_refl B) as (X1 & X2 & X3).
    set (b1 := splace_after d ev (sync d p) i r (length A) best) in *.
    assert (E' : mid_at p r = (A ++ [v]) ++ R) by (rewrite E; assoc; reflexivity).
    destruct (splace_after_ok r (A ++ [v]) R (length A + 1) b1 Hr E') as (Y1 & Y2 & Y3); [rewrite app_length; reflexivity|exact X1|].
    set (b2 := splace_after d ev (sync d p) i r (length A + 1) b1) in *.
    destruct (IH K' b2 Y1) as (x & Ex & Z1 & Z2 & Z3). exists x. split; [exact Ex|]. split; [exact Z1|]. split; [eapply sles_trans; [exact Z2|eapply sles_trans; eassumption]|].
    intros w r' A' B' [<-|Hw] Hr' Hm' C M D EC RM HC; [|eapply Z3; eassumption]. apply Z2.
    pose proof (find_act_at v p r' A' B' (length A' + 1) Hr' Hm' Hv eq_refl) as F'. rewrite F in F'. injection F' as <- EL. apply Nat.add_cancel_r in EL.
    rewrite E in Hm'. destruct (app_split _ _ _ _ Hm') as (m & -> & Em); [lia|]. rewrite app_length in EL. destruct m; [|cbn in EL; lia]. rewrite app_nil_r in *. cbn [app] in Em. injection Em as ->.
    destruct HC as [->|HC].
    + apply Y2, X3; [|exact RM]. symmetry. eapply app_inv_head; exact EC.
    + subst C. apply Y3; [|exact RM]. rewrite <- app_assoc in EC. apply app_inv_head in EC. cbn in EC. injection EC as EC. symmetry. exact EC.
  - destruct (IH K' best B) as (x & Ex & Z1 & Z2 & Z3). exists x. split; [exact Ex|]. split; [exact Z1|]. split; [exact Z2|].
    intros w r' A' B' [<-|Hw] Hr' Hm'; [|eapply Z3; eassumption]. apply find_act_none in F. pose proof (tot_In p r' v). rewrite Hm' in H. specialize (H (in_elt _ _ _)). lia.
Qed.
Lemma splace_empty_ok types : (forall t, In t types -> In t (veh_order (p_vehicles d) 0 0)) -> forall best, splace_ok best ->
  let x := splace_empty d ev (sync d p) i types best in splace_ok x /\ sles x best.
Proof.
  induction types as [|[t o] types IH]; intros K best B; cbn [splace_empty]; [cbv zeta; split; [exact B|apply sles_refl]|].
  assert (K' : forall t, In t types -> In t (veh_order (p_vehicles d) 0 0)) by (intros w Hw; apply K; right; exact Hw).
  specialize (IH K'). destruct (first_empty (sync d p) o (avail d t)) as [r|] eqn:F; [|apply IH, B].
  set (c := ship_cost d ev (sync d p) i r 0 None).
  pose proof (empty_slot d (sync d p) t o r (K _ (or_introl eq_refl)) F) as Hr. rewrite <- (pk_len d p P) in Hr.
  destruct (ship_cost_ok r [] [] (mid_at p r) 0 None Hr eq_refl eq_refl eq_refl (or_introl (conj eq_refl eq_refl))) as [E0 D0]. fold c in D0.
  assert (N0 : splace_ok (Some (c, (r, 0, 1)))) by (exists [], [], (mid_at p r); spot).
  destruct best as [[z w]|]; [destruct (Z.ltb_spec c z)|]; cbv zeta; try (apply IH, B); (split; [exact N0|]); intros z'; cbn [sle]; [lia|intros []].
Qed.
Theorem insert_shipment_spec sp vs required : space_inv d sp -> neighbours_of sp (APickup i) = Ok vs -> (forall v, In v vs -> visit_known d v) ->
  exists res, insert_shipment d ev sp (sync d p) i required = Some res /\
    (required = true -> res <> None) /\
    (forall p', res = Some p' -> ship_put p i p' /\ plan_ok d p' /\ (required = true \/ (plan_cost d ev p' < plan_cost d ev p)%Z) /\
      forall v r A B C M D, In v vs -> r < length p -> mid_at p r = A ++ v :: B -> C ++ M ++ D = A ++ v :: B -> num_reloads M = 0 -> (C = A \/ C = A ++ [v]) ->
        (plan_cost d ev p' <= plan_cost d ev (ship_new r C M D))%Z) /\
    (res = None -> forall v r A B C M D, In v vs -> r < length p -> mid_at p r = A ++ v :: B -> C ++ M ++ D = A ++ v :: B -> num_reloads M = 0 -> (C = A \/ C = A ++ [v]) ->
        (plan_cost d ev p <= plan_cost d ev (ship_new r C M D))%Z).
Proof.
  intros Sp N K. unfold insert_shipment. rewrite N. pose proof some_route as H0.
  destruct (splace_near_ok vs K None I) as (x & -> & X1 & _ & X3).
  assert (V : forall t, In t (ss_vehOrder sp) -> In t (veh_order (p_vehicles d) 0 0)).
  { intros t Ht. eapply Permutation_in; [symmetry; apply (si_veh d sp Sp)|exact Ht]. }
  pose proof (splace_empty_ok (ss_vehOrder sp) V x X1) as Y. cbv zeta in Y.
  change (sp_mids (sync d p)) with p. destruct Y as [Y1 Y2].
  destruct (splace_empty d ev (sync d p) i (ss_vehOrder sp) x) as [[cost [[r pos] dpos]]|].
  - destruct Y1 as (C & M & D & Hr & Hm & RM & Hpos & Hdpos & Dn). fold (put_ship r pos dpos). rewrite (put_ship_eq r C M D pos dpos Hr Hm Hpos Hdpos).
    eexists. split; [reflexivity|]. split; [intros ->; discriminate|]. split.
    + destruct (required || (cost <? 0)%Z) eqn:G; [|discriminate]. intros p' [= <-]. split; [constructor; assumption|]. split; [exact (dn_ok _ _ _ _ _ Dn)|]. rewrite (dn_cost _ _ _ _ _ Dn).
      split; [apply Bool.orb_true_iff in G as [G|G]; [left; exact G|right; apply Z.ltb_lt in G; lia]|].
      intros v r' A B C' M' D' Hv Hr' Hm' EC RM' HC. specialize (X3 v r' A B Hv Hr' Hm' C' M' D' EC RM' HC). apply Y2 in X3. cbn [sle] in X3. lia.
    + destruct (required || (cost <? 0)%Z) eqn:G; [discriminate|]. intros _ v r' A B C' M' D' Hv Hr' Hm' EC RM' HC. specialize (X3 v r' A B Hv Hr' Hm' C' M' D' EC RM' HC). apply Y2 in X3. cbn [sle] in X3.
      apply Bool.orb_false_iff in G as [_ G]. apply Z.ltb_ge in G. lia.
  - destruct (ship_cost_ok 0 [] [] (mid_at p 0) 0 None H0 eq_refl eq_refl eq_refl (or_introl (conj eq_refl eq_refl))) as [E0 D0]. cbn [dpos_of Nat.add] in E0.
    fold (put_ship 0 0 1). rewrite E0.
    eexists. split; [reflexivity|]. split; [intros ->; discriminate|]. split.
    + destruct required; [|discriminate]. intros p' [= <-]. split; [exact (SPut p i 0 [] [] (mid_at p 0) H0 eq_refl eq_refl)|]. split; [exact (dn_ok _ _ _ _ _ D0)|]. split; [left; reflexivity|].
      intros v r' A B C' M' D' Hv Hr' Hm' EC RM' HC. specialize (X3 v r' A B Hv Hr' Hm' C' M' D' EC RM' HC). apply Y2 in X3. destruct X3.
    + intros _ v r' A B C' M' D' Hv Hr' Hm' EC RM' HC. specialize (X3 v r' A B Hv Hr' Hm' C' M' D' EC RM' HC). apply Y2 in X3. destruct X3.
Qed.
End Shipment.
End Insert.

(** *** IncrementalSegmentBetween, search/Solution.cpp:27-92 *)
(** The incremental segment after [k] steps from position [s] of a route: the duration and loads are
    grown by merging one node at a time. *)
Fixpoint grown (d : pdata) (profile : nat) (c : cache) (s k : nat) : dseg * (nat -> lseg) :=
  match k with
  | O => (sg_duration d profile (SBetween c s s), fun dim => sg_load d dim (SBetween c s s))
  | S k' =>
      let '(dur, load) := grown d profile c s k' in
      let at_ := SBetween c (s + k) (s + k) in
      (ds_merge (p_dur d profile (it_loc (ca_item c (s + k'))) (it_loc (sg_front d at_))) dur (sg_duration d profile at_),
       fun dim => ls_merge (load dim) (sg_load d dim at_))
  end.
Lemma slice_more {A} (l : list A) s k z : s + S k < length l -> slice l s (s + S k) = slice l s (s + k) ++ [nth (s + S k) l z].
Proof.
  intros H. unfold slice. replace (s + S k - s) with (S k) by lia. replace (s + k - s) with k by lia.
  replace (s + S k) with (s + 1 + k) in * by lia. generalize (s + 1) as m, H. clear. intros m H.
  replace (nth (m + k) l z) with (nth k (skipn m l) z) by (revert l H; induction m as [|m IH]; intros l H; [reflexivity|]; destruct l as [|x l]; cbn in H; [lia|]; cbn [skipn Nat.add nth]; apply IH; lia).
  assert (Hk : k < length (skipn m l)) by (rewrite skipn_length; lia). revert Hk. generalize (skipn m l). clear.
  induction k as [|k IH]; intros [|x l] H; cbn in H; try lia; [reflexivity|]. change (firstn (S (S k)) (x :: l)) with (x :: firstn (S k) l).
  rewrite (IH l) by lia. reflexivity.
Qed.
Lemma dur_walk_app dur : forall l prev acc x, dur_walk dur prev acc (l ++ [x]) = ds_merge (dur (it_loc (last l prev)) (it_loc x)) (dur_walk dur prev acc l) (it_dur x).
Proof.
  induction l as [|y l IH]; intros prev acc x; [reflexivity|]. change ((y :: l) ++ [x]) with (y :: (l ++ [x])). cbn [dur_walk]. rewrite IH.
  replace (last (y :: l) prev) with (last l y); [reflexivity|]. destruct l as [|z l]; [reflexivity|]. change (last (y :: z :: l) prev) with (last (z :: l) prev).
  clear. revert z. induction l as [|w l IHl]; intros z; [reflexivity|]. exact (IHl w).
Qed.
(** It has the figures of the usual segment, provided it does not start at a reload depot. *)
Theorem grown_spec d profile c s k : s + k < length (ca_items c) -> it_reload (ca_item c s) = false ->
  fst (grown d profile c s k) = sg_duration d profile (SBetween c s (s + k)) /\
  forall dim, snd (grown d profile c s k) dim = sg_load d dim (SBetween c s (s + k)).
Proof.
  intros H R. induction k as [|k IH].
  - rewrite Nat.add_0_r in *. split; reflexivity.
  - destruct (IH ltac:(lia)) as [I1 I2]. cbn [grown]. destruct (grown d profile c s k) as [dur load]. cbn [fst snd] in *. subst dur.
    assert (E0 : forall j, slice (ca_items c) j j = []) by (intros j; unfold slice; rewrite Nat.sub_diag; reflexivity).
    split; [|intros dim; rewrite I2]; unfold sg_duration, sg_load, sg_size, sg_front; rewrite (slice_more _ s k dummy_item H), E0; fold (ca_item c (s + S k)).
    + rewrite R, !Bool.andb_false_r, dur_walk_app. replace (s + S k - (s + S k) + 1 =? 1) with true by (symmetry; apply Nat.eqb_eq; lia). cbn [negb andb dur_walk].
      replace (last (slice (ca_items c) s (s + k)) (ca_item c s)) with (ca_item c (s + k)); [reflexivity|].
      destruct k as [|k]; [rewrite Nat.add_0_r, E0; reflexivity|]. rewrite (slice_more _ s k dummy_item) by lia. rewrite last_last. reflexivity.
    + rewrite fold_left_app. reflexivity.
Qed.
