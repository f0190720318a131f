(** Edits of a plan by the remaining operators: inserting, removing and replacing clients and
    shipments. *)
From Verif Require Import Base DurationSegment Data LoadSegment SearchRoute RouteDur Valid ProposalDur ProposalRest Route RouteSpec
  RouteFacts2 RouteFacts3 Cost CostFacts DeltaFacts SearchFacts DataCtor SearchSpace SearchNodes SearchSeq SearchLoad Ops PlanFacts ShipState OpsBase OpsGen OpsMove OpsRelocate OpsOne.
Local Open Scope nat_scope.

(** ** What the operators do to a plan *)
Inductive inserted (p : plan) (u : activity) (v : vref) : plan -> Prop :=
| Ins r C D : r < length p -> mid_at p r = C ++ D -> ends v r C -> inserted p u v (upd p r (C ++ u :: D)).
Inductive removed (p : plan) (u : activity) : plan -> Prop :=
| Rem r A B : r < length p -> mid_at p r = A ++ u :: B -> removed p u (upd p r (A ++ B)).
Inductive replaced (p : plan) (old new : activity) : plan -> Prop :=
| Repl r A B : r < length p -> mid_at p r = A ++ old :: B -> replaced p old new (upd p r (A ++ new :: B)).
Inductive ship_inserted (p : plan) (i : nat) (v : vref) : plan -> Prop :=
| SIns r C M D : r < length p -> mid_at p r = C ++ M ++ D -> ends v r C -> num_reloads M = 0 ->
    ship_inserted p i v (upd p r (C ++ APickup i :: M ++ ADelivery i :: D)).
Inductive ship_removed (p : plan) (i : nat) : plan -> Prop :=
| SRem r A M B : r < length p -> mid_at p r = A ++ APickup i :: M ++ ADelivery i :: B ->
    ship_removed p i (upd p r (A ++ M ++ B)).
Inductive ship_replaced (p : plan) (j i : nat) : plan -> Prop :=
| SRepl r A M B : r < length p -> mid_at p r = A ++ APickup j :: M ++ ADelivery j :: B ->
    ship_replaced p j i (upd p r (A ++ APickup i :: M ++ ADelivery i :: B)).
(** The delivery (pickup) moves within its trip, the rest of the route stays as it is. *)
Inductive delivery_moved (p : plan) (i : nat) : plan -> Prop :=
| DMov r A M B M' B' : r < length p -> mid_at p r = A ++ APickup i :: M ++ ADelivery i :: B ->
    M' ++ B' = M ++ B -> num_reloads M' = 0 ->
    delivery_moved p i (upd p r (A ++ APickup i :: M' ++ ADelivery i :: B')).
Inductive pickup_moved (p : plan) (i : nat) : plan -> Prop :=
| PMov r A M B A' M' : r < length p -> mid_at p r = A ++ APickup i :: M ++ ADelivery i :: B ->
    A' ++ M' = A ++ M -> num_reloads M' = 0 ->
    pickup_moved p i (upd p r (A' ++ APickup i :: M' ++ ADelivery i :: B)).
Inductive depot_removed (p : plan) (u : activity) : plan -> Prop :=
| DepPrev r A x B : r < length p -> mid_at p r = A ++ ADepot x :: u :: B -> depot_removed p u (upd p r (A ++ u :: B))
| DepNext r A x B : r < length p -> mid_at p r = A ++ u :: ADepot x :: B -> depot_removed p u (upd p r (A ++ u :: B)).

Section Edit.
Variable d : pdata.
Variable h : Z.
Variable ev : evaluator.
Hypothesis St : setting d h ev.

Lemma first_improving_inv {A} z (f : A -> Z) mk l delta m : first_improving z f mk l = (delta, true, m) ->
  exists x, In x l /\ delta = f x /\ (f x < 0)%Z /\ m = mk x.
Proof.
  induction l as [|x l IH]; cbn [first_improving]; [discriminate|]. destruct (Z.ltb_spec (f x) 0).
  - intros E. injection E as <- <-. exists x. split; [left; reflexivity|auto].
  - intros E. destruct (IH E) as (y & Hy & R). exists y. split; [right; exact Hy|exact R].
Qed.

(** ** Positions *)
Lemma run_length_split l k : k <= run_length l -> exists M R, l = M ++ R /\ length M = k /\ num_reloads M = 0.
Proof.
  revert k; induction l as [|a l IH]; intros k Hk; cbn [run_length] in Hk.
  - exists [], []. cbn. repeat split. lia.
  - destruct k as [|k]; [exists [], (a :: l); auto|]. destruct (a_isDepot a) eqn:E; [lia|].
    destruct (IH k ltac:(lia)) as (M & R & -> & <- & H0). exists (a :: M), R. repeat split. rewrite num_reloads_cons, E. exact H0.
Qed.
Lemma trip_rest_split C D pos k : k = length C -> In pos (trip_rest (C ++ D) k) ->
  exists M R, D = M ++ R /\ M <> [] /\ num_reloads M = 0 /\ pos = length C + length M.
Proof.
  intros -> H. unfold trip_rest in H. rewrite skipn_len_app in H by reflexivity. apply in_seq in H.
  destruct (run_length_split D (pos - length C) ltac:(lia)) as (M & R & -> & HM & H0). exists M, R. repeat split; auto; [|lia].
  intros ->. cbn in HM. lia.
Qed.
Lemma trip_back_split mid pos pn : In pn (trip_back mid pos) -> pos <= length mid ->
  exists A M B, mid = A ++ M ++ B /\ pn = length A + 1 /\ pos = length A + length M /\ M <> [] /\ num_reloads M = 0.
Proof.
  intros H Hp. unfold trip_back in H. apply in_rev in H. apply in_seq in H.
  set (l := firstn pos mid) in *. assert (Hl : length l = pos) by (unfold l; rewrite firstn_length; lia).
  destruct (run_length_split (rev l) (pos + 1 - pn) ltac:(lia)) as (M & R & E & HM & H0).
  assert (E' : l = rev R ++ rev M) by (rewrite <- rev_app_distr, <- E, rev_involutive; reflexivity).
  assert (Hlen : length (rev R) + length (rev M) = pos) by (rewrite <- app_length, <- E'; exact Hl).
  exists (rev R), (rev M), (skipn pos mid). rewrite !rev_length in *.
  assert (Hk : run_length (rev l) <= pos).
  { clear - Hl. rewrite <- Hl, <- rev_length. generalize (rev l). intros x. induction x as [|a x IH]; cbn; [lia|]. destruct (a_isDepot a); lia. }
  assert (Hpn : 1 <= pn) by (clear - H Hk; lia).
  split; [|split; [lia|split; [lia|split]]].
  - rewrite app_assoc, <- E'. unfold l. symmetry. apply firstn_skipn.
  - intros Z. apply (f_equal (@length _)) in Z. rewrite rev_length in Z. cbn in Z. lia.
  - clear - H0. unfold num_reloads in *. induction M as [|a M IH]; [reflexivity|]. cbn [rev filter] in *. rewrite filter_app, app_length. cbn [filter].
    destruct (a_isDepot a); cbn [length] in *; [lia|]. rewrite IH; auto.
Qed.

(** ** Edits keep a plan a plan *)
Lemma ins_plan p r C seg D : plan_ok d p -> r < length p -> mid_at p r = C ++ D -> Forall (known d) seg ->
  ships_ok seg -> num_reloads seg = 0 -> (forall a, a_isDepot a = false -> tot p a + cnt seg a <= 1) ->
  plan_ok d (upd p r (C ++ seg ++ D)) /\ fine_mid d (rveh d r) (C ++ seg ++ D).
Proof.
  intros P Hr Hm K S R O. pose proof (wf_known' d p r P) as Kr. pose proof (wf_trips' d p r P Hr) as T. pose proof (plan_ships d p r P) as Sh.
  rewrite Hm in Kr, T, Sh. apply one_route; auto.
  - knowns.
  - apply ships_insert; auto. intros i. specialize (O (APickup i) eq_refl). pose proof (cnt_le_tot p r (APickup i)) as L. rewrite Hm in L. counts.
  - reloads.
  - intros a Ha. specialize (O a Ha). rewrite Hm. counts.
Qed.
Lemma pair_in p r A M B i : plan_ok d p -> r < length p -> mid_at p r = A ++ M ++ B -> num_reloads M = 0 -> i < p_numShipments d ->
  tot p (APickup i) = 0 -> tot p (ADelivery i) = 0 ->
  plan_ok d (upd p r (A ++ APickup i :: M ++ ADelivery i :: B)) /\ fine_mid d (rveh d r) (A ++ APickup i :: M ++ ADelivery i :: B).
Proof.
  intros P Hr Hm R Hi O1 O2. pose proof (wf_known' d p r P) as Kr. pose proof (wf_trips' d p r P Hr) as T. pose proof (plan_ships d p r P) as Sh.
  pose proof (cnt_le_tot p r (APickup i)) as L1. pose proof (cnt_le_tot p r (ADelivery i)) as L2.
  rewrite Hm in Kr, T, Sh, L1, L2. apply one_route; auto.
  - rewrite ?Forall_app, ?Forall_cons_iff, ?Forall_app, ?Forall_cons_iff in *. cbn [known]. tauto.
  - apply ships_pair; auto; lia.
  - reloads. cbn [a_isDepot]. lia.
  - intros a Ha. rewrite Hm. pose proof (pk_once d p P a Ha). counts.
    destruct (a_eqb a (APickup i)) eqn:E1; [apply a_eqb_eq in E1; subst a; cbn [a_eqb]; lia|].
    destruct (a_eqb a (ADelivery i)) eqn:E2; [apply a_eqb_eq in E2; subst a; lia|]. lia.
Qed.
Lemma pair_out p r A M B i : plan_ok d p -> r < length p -> mid_at p r = A ++ APickup i :: M ++ ADelivery i :: B -> num_reloads M = 0 ->
  plan_ok d (upd p r (A ++ M ++ B)) /\ fine_mid d (rveh d r) (A ++ M ++ B)
  /\ tot (upd p r (A ++ M ++ B)) (APickup i) = 0 /\ tot (upd p r (A ++ M ++ B)) (ADelivery i) = 0.
Proof.
  intros P Hr Hm R. pose proof (wf_known' d p r P) as Kr. pose proof (wf_trips' d p r P Hr) as T. pose proof (plan_ships d p r P) as Sh.
  pose proof (pk_once d p P (APickup i) eq_refl) as O1. pose proof (pk_once d p P (ADelivery i) eq_refl) as O2.
  pose proof (mid_once d p r P (APickup i) eq_refl) as L1. pose proof (mid_once d p r P (ADelivery i) eq_refl) as L2.
  pose proof (tot_upd p r (A ++ M ++ B) (APickup i) Hr) as E1. pose proof (tot_upd p r (A ++ M ++ B) (ADelivery i) Hr) as E2.
  rewrite Hm in Kr, T, Sh, L1, L2, E1, E2.
  assert (Z1 : tot (upd p r (A ++ M ++ B)) (APickup i) = 0) by (counts; cbn [a_eqb] in *; rewrite ?Nat.eqb_refl in *; lia).
  assert (Z2 : tot (upd p r (A ++ M ++ B)) (ADelivery i) = 0) by (counts; cbn [a_eqb] in *; rewrite ?Nat.eqb_refl in *; lia).
  assert (X : plan_ok d (upd p r (A ++ M ++ B)) /\ fine_mid d (rveh d r) (A ++ M ++ B)); [|tauto].
  apply one_route; auto.
  - rewrite ?Forall_app, ?Forall_cons_iff, ?Forall_app, ?Forall_cons_iff in *. tauto.
  - apply (ships_pair i A M B); auto; [clear - L1|clear - L2]; counts; cbn [a_eqb] in *; rewrite ?Nat.eqb_refl in *; lia.
  - reloads.
  - intros a Ha. rewrite Hm. pose proof (pk_once d p P a Ha). counts.
Qed.
Lemma repl_plan p r A B x y : plan_ok d p -> r < length p -> mid_at p r = A ++ x :: B -> known d y ->
  a_isClient x = true -> a_isClient y = true -> tot p y = 0 ->
  plan_ok d (upd p r (A ++ y :: B)) /\ fine_mid d (rveh d r) (A ++ y :: B).
Proof.
  intros P Hr Hm K Hx Hy O. destruct x as [|x| |]; try discriminate. destruct y as [|y| |]; try discriminate.
  assert (Rx : plan_ok d (upd p r (A ++ B))) by (apply (remove_seg d p r A [AClient x] B); auto; apply ships_client).
  pose proof (ins_plan (upd p r (A ++ B)) r A [AClient y] B Rx) as I. rewrite upd_upd in I. apply I.
  - rewrite upd_length. exact Hr.
  - apply mid_at_same. exact Hr.
  - constructor; [exact K|constructor].
  - apply ships_client.
  - reflexivity.
  - intros a Ha. pose proof (pk_once d _ Rx a Ha) as O1. pose proof (tot_upd p r (A ++ B) a Hr) as E. rewrite Hm in E. counts.
    destruct (a_eqb a (AClient y)) eqn:E1; [apply a_eqb_eq in E1; subst a; lia|lia].
Qed.
(** Removing a reload depot. *)
Lemma drop_depot p r A x B : plan_ok d p -> r < length p -> mid_at p r = A ++ ADepot x :: B ->
  plan_ok d (upd p r (A ++ B)) /\ fine_mid d (rveh d r) (A ++ B) /\ (forall a, a_isDepot a = false -> cnt (A ++ B) a = cnt (mid_at p r) a).
Proof.
  intros P Hr Hm. pose proof (wf_known' d p r P) as Kr. pose proof (wf_trips' d p r P Hr) as T. pose proof (plan_ships d p r P) as Sh.
  assert (C : forall a, a_isDepot a = false -> cnt (A ++ B) a = cnt (mid_at p r) a).
  { intros a Ha. rewrite Hm. counts. destruct a; try discriminate; cbn [a_eqb]; lia. }
  rewrite Hm in Kr, T, Sh.
  assert (X : plan_ok d (upd p r (A ++ B)) /\ fine_mid d (rveh d r) (A ++ B)); [|tauto].
  apply one_route; auto.
  - knowns.
  - apply (ships_drop_depot A x B Sh).
  - reloads.
  - intros a Ha. rewrite C by exact Ha. pose proof (pk_once d p P a Ha). lia.
Qed.
(** Adding a reload depot. *)
Lemma add_depot p r A x B : plan_ok d p -> r < length p -> mid_at p r = A ++ B -> ships_ok A -> x < p_numDepots d ->
  (Z.of_nat (num_reloads (A ++ B) + 2) <= v_maxTrips (rveh d r))%Z ->
  plan_ok d (upd p r (A ++ ADepot x :: B)) /\ fine_mid d (rveh d r) (A ++ ADepot x :: B).
Proof.
  intros P Hr Hm SA Hx HT. pose proof (wf_known' d p r P) as Kr. pose proof (plan_ships d p r P) as Sh.
  rewrite Hm in Kr, Sh. apply one_route; auto.
  - rewrite ?Forall_app, ?Forall_cons_iff in *. cbn [known]. tauto.
  - apply ships_app; [exact SA|]. change (ADepot x :: B) with ([ADepot x] ++ B). apply ships_app; [apply ships_depot|]. apply (ships_suffix A); assumption.
  - reloads. cbn [a_isDepot]. lia.
  - intros a Ha. rewrite Hm. pose proof (pk_once d p P a Ha). counts. destruct a; try discriminate; cbn [a_eqb]; lia.
Qed.

(** Pickups and deliveries are planned together, on the same trip. *)
Lemma ship_at p i r pp : plan_ok d p -> find_act (APickup i) p = Some (r, pp) ->
  exists A M B, mid_at p r = A ++ APickup i :: M ++ ADelivery i :: B /\ num_reloads M = 0 /\ r < length p /\ pp = length A + 1
    /\ find_act (ADelivery i) p = Some (r, length A + length M + 2).
Proof.
  intros P F. destruct (find_act_spec _ _ _ _ F) as (A0 & B0 & Hm & Hp & Hr).
  destruct (ships_where i (mid_at p r) (plan_ships d p r P) (mid_once d p r P (APickup i) eq_refl)) as (A & M & B & E & R).
  { rewrite Hm. apply in_elt. }
  exists A, M, B. repeat split; auto.
  - rewrite (find_act_at (APickup i) p r A (M ++ ADelivery i :: B) (length A + 1)) in F; auto; [congruence|]. apply (pk_once d p P). reflexivity.
  - apply (find_act_at (ADelivery i) p r (A ++ APickup i :: M) B); auto.
    + rewrite E. assoc. reflexivity.
    + apply (pk_once d p P). reflexivity.
    + lens.
Qed.
Lemma ship_tot p i : plan_ok d p -> tot p (ADelivery i) = tot p (APickup i).
Proof.
  intros P. pose proof (pk_once d p P (APickup i) eq_refl) as O1. pose proof (pk_once d p P (ADelivery i) eq_refl) as O2.
  destruct (find_act (APickup i) p) as [[r pp]|] eqn:F.
  - destruct (ship_at p i r pp P F) as (A & M & B & Hm & _). pose proof (tot_In p r (APickup i)) as T1. pose proof (tot_In p r (ADelivery i)) as T2.
    rewrite Hm in T1, T2. specialize (T1 ltac:(apply in_elt)). specialize (T2 ltac:(apply in_or_app; right; right; apply in_elt)). lia.
  - pose proof F as F0. apply find_act_none in F. destruct (Nat.eq_dec (tot p (ADelivery i)) 0) as [|Z]; [lia|exfalso].
    destruct (planned_where p (ADelivery i) ltac:(lia)) as (r & A & B & Hr & Hm).
    pose proof (plan_ships d p r P i) as S. pose proof (cnt_le_tot p r (APickup i)) as L.
    destruct (srun_nodeliv i (mid_at p r) false S ltac:(lia)) as [H0 _]. rewrite Hm in H0. counts. rewrite eqb_refl in H0. lia.
Qed.
Lemma known_at p r A x B : plan_ok d p -> mid_at p r = A ++ x :: B -> known d x.
Proof. intros P Hm. pose proof (wf_known' d p r P) as K. rewrite Hm, Forall_app, Forall_cons_iff in K. tauto. Qed.

Lemma insert_after_ok p v a r C D : plan_ok d p \/ (forall b, v = VAct b -> tot p b <= 1) -> vref_ok p v -> r < length p -> mid_at p r = C ++ D -> ends v r C ->
  insert_after p v a = upd p r (C ++ a :: D).
Proof.
  intros P Hv Hr Hm He. unfold insert_after. rewrite (locate_at p v r C D (length C)); auto.
  - rewrite (ins_eq p r _ a C D) by auto. reflexivity.
  - destruct P as [P|P]; [apply (ref_once d p v P Hv)|exact P].
Qed.
Lemma remove_act_ok p a r A B : plan_ok d p \/ tot p a <= 1 -> a_isDepot a = false -> r < length p -> mid_at p r = A ++ a :: B ->
  remove_act p a = upd p r (A ++ B).
Proof.
  intros P Ha Hr Hm. unfold remove_act. rewrite (find_act_at a p r A B (length A + 1)); auto.
  - apply (rem_eq p r _ a A B); auto.
  - destruct P as [P|P]; [apply (pk_once d p P); exact Ha|exact P].
Qed.
Lemma replace_act_ok p a b r A B : plan_ok d p -> a_isDepot a = false -> r < length p -> mid_at p r = A ++ a :: B ->
  replace_act p a b = upd p r (A ++ b :: B).
Proof.
  intros P Ha Hr Hm. unfold replace_act. rewrite (find_act_at a p r A B (length A + 1)); auto; [|apply (pk_once d p P); exact Ha].
  rewrite (rem_eq p r _ a A B) by auto. rewrite (ins_eq (upd p r (A ++ B)) r _ b A B).
  - apply upd_upd.
  - apply mid_at_same. exact Hr.
  - reflexivity.
Qed.

(** ** Counting when one client comes in or goes out *)
Lemma tot_in p r C D a b : r < length p -> mid_at p r = C ++ D -> tot (upd p r (C ++ b :: D)) a = tot p a + (if a_eqb a b then 1 else 0).
Proof. intros Hr Hm. pose proof (tot_upd p r (C ++ b :: D) a Hr) as E. rewrite Hm in E. counts. Qed.

(** ** InsertOptionalClient *)
Theorem insert_client_ok p u v delta mv : plan_ok d p -> known d u -> vref_ok p v ->
  eval_insert_client d ev (sync d p) u v = (delta, true, mv) ->
  tot p u = 0 /\ inserted p u v (apply_insert_client p u v) /\ done d ev p (apply_insert_client p u v) delta.
Proof.
  intros P K Hv. unfold eval_insert_client. cbn [sp_mids sync]. destruct u as [|i| |]; try discriminate.
  destruct (find_act (AClient i) p) as [[? ?]|] eqn:Fu; [discriminate|]. apply find_act_none in Fu.
  destruct (locate p v) as [[rv pv]|] eqn:Fv; [|discriminate]. set (blocked := match c_group _ with Some _ => _ | None => _ end). destruct blocked; [discriminate|].
  destruct (locate_split p v rv pv Hv Fv) as (C & D & Mv & Hpv & He & Hrv).
  intros H. apply improving_inv in H as (Hneg & -> & _). split; [exact Fu|].
  unfold apply_insert_client. rewrite (insert_after_ok p v (AClient i) rv C D); auto. split; [constructor; auto|].
  destruct (ins_plan p rv C [AClient i] D P Hrv Mv) as (Q1 & Q2); auto.
  { apply ships_client. }
  { intros a Ha. pose proof (pk_once d p P a Ha). counts. destruct (a_eqb a (AClient i)) eqn:E; [apply a_eqb_eq in E; subst; lia|lia]. }
  cbn [app] in Q1, Q2. constructor; [exact Q1|].
  assert (E := one_eval d h ev St false (- c_prize (p_client d i)) p rv C D [SClient i] [[AClient i]] (aft (sync d p) rv (pv + 1)) D (C ++ AClient i :: D) pv P Hrv Mv Hpv).
  cbn [app concat] in E. rewrite E; auto.
  - rewrite cost_one by exact Hrv. rewrite (unc_insert d p (upd p rv (C ++ AClient i :: D)) (AClient i)); auto.
    + cbn [prize_of]. lia.
    + rewrite (tot_in p rv C D) by auto. rewrite eqb_refl. lia.
    + intros a _ Ha. rewrite (tot_in p rv C D) by auto. rewrite eqb_false by exact Ha. lia.
  - apply Forall2_cons; [apply piece_client|apply Forall2_nil].
  - apply (piece_aft d p rv C D); first [assumption | lia].
  - apply (has_visit_in _ (AClient i)); [apply in_elt|reflexivity|apply (fine_ships d _ _ Q2)].
Qed.

(** ** InsertOptionalShipment *)
Lemma ship_in_cost p r C M D i out (e : Z) : plan_ok d p -> r < length p -> mid_at p r = C ++ M ++ D -> i < p_numShipments d -> tot p (APickup i) = 0 ->
  e = (out - s_prize (p_shipment d i) - rcost d ev (rveh d r) (mid_at p r) + rcost d ev (rveh d r) (C ++ APickup i :: M ++ ADelivery i :: D))%Z ->
  plan_cost d ev (upd p r (C ++ APickup i :: M ++ ADelivery i :: D)) = (plan_cost d ev p + (e - out))%Z.
Proof.
  intros P Hr Hm Hi Ht ->. rewrite cost_one by exact Hr. rewrite (unc_insert d p _ (APickup i)); auto.
  - cbn [prize_of]. lia.
  - pose proof (tot_upd p r (C ++ APickup i :: M ++ ADelivery i :: D) (APickup i) Hr) as E. rewrite Hm in E. counts. rewrite eqb_refl in E. lia.
  - intros a Ha Hne. pose proof (tot_upd p r (C ++ APickup i :: M ++ ADelivery i :: D) a Hr) as E. rewrite Hm in E. counts.
    rewrite (eqb_false a (APickup i)) in E by exact Hne. assert (a_eqb a (ADelivery i) = false) by (destruct a; cbn in *; try reflexivity; contradiction). rewrite H in E. lia.
Qed.
Lemma insert_shipment_apply p i v r C M D m : plan_ok d p -> vref_ok p v -> r < length p -> mid_at p r = C ++ M ++ D -> ends v r C -> tot p (ADelivery i) = 0 ->
  m = MPos (length C + length M + 1) -> apply_insert_shipment m p (APickup i) v = upd p r (C ++ APickup i :: M ++ ADelivery i :: D).
Proof.
  intros P Hv Hr Hm He Ht ->. unfold apply_insert_shipment. rewrite (locate_at p v r C (M ++ D) (length C)) by first [assumption | reflexivity | apply (ref_once d p v P Hv)].
  rewrite (ins_eq p r _ (ADelivery i) (C ++ M) D) by first [solve [lens] | rewrite Hm; assoc; reflexivity].
  rewrite (insert_after_ok _ v (APickup i) r C (M ++ ADelivery i :: D)).
  - apply upd_upd.
  - right. intros b Eb. pose proof (ref_once d p v P Hv b Eb) as O. unfold once in O.
    pose proof (tot_upd p r ((C ++ M) ++ ADelivery i :: D) b Hr) as E. rewrite Hm in E. counts.
    destruct (a_eqb b (ADelivery i)) eqn:Eq; [|lia]. apply a_eqb_eq in Eq. subst b v. exfalso.
    destruct He as (C' & ->). pose proof (tot_In p r (ADelivery i)) as T. rewrite Hm in T. specialize (T ltac:(rewrite <- !app_assoc; apply in_elt)). lia.
  - destruct v; cbn [vref_ok] in *; rewrite ?upd_length; exact Hv.
  - rewrite upd_length. exact Hr.
  - rewrite mid_at_same by exact Hr. assoc. reflexivity.
  - exact He.
Qed.
(** Pieces of a pair insertion. *)
Lemma pair_eval p r C M D x y out k k1 k2 k3 (sx sy : seg) (e : Z) : plan_ok d p -> r < length p -> mid_at p r = C ++ M ++ D ->
  mid_piece d sx [x] -> mid_piece d sy [y] -> num_reloads M = 0 ->
  fine_mid d (rveh d r) (C ++ x :: M ++ y :: D) -> a_isDepot x = false -> k = length C ->
  k3 = length C + length M + 1 -> k1 = length C + 1 -> k2 = length C + length M ->
  (M = [] /\ e = dcost d ev false out (bef (sync d p) r k) [sx; sy; aft (sync d p) r k3] \/
   M <> [] /\ e = dcost d ev false out (bef (sync d p) r k) [sx; btw (sync d p) r k1 k2; sy; aft (sync d p) r k3]) ->
  (e < 0)%Z -> e = (out - rcost d ev (rveh d r) (mid_at p r) + rcost d ev (rveh d r) (C ++ x :: M ++ y :: D))%Z.
Proof.
  intros P Hr Hm Px Py RM Q Hx -> -> -> -> HM Hneg.
  assert (Hvis : has_visit (C ++ x :: M ++ y :: D) = true) by (apply (has_visit_in _ x); [apply in_elt|exact Hx|apply (fine_ships d _ _ Q)]).
  destruct HM as [[-> ->]|[HM ->]].
  - assert (E := one_eval d h ev St false out p r C D [sx; sy] [[x]; [y]] (aft (sync d p) r (length C + length (@nil activity) + 1)) D (C ++ x :: y :: D) (length C) P Hr Hm eq_refl).
    cbn [app concat] in E. apply E; auto. apply (piece_aft d p r C D); first [assumption | cbn [length]; lia].
  - destruct M as [|z M]; [congruence|].
    assert (E := one_eval d h ev St false out p r C ((z :: M) ++ D) [sx; btw (sync d p) r (length C + 1) (length C + length (z :: M)); sy] [[x]; z :: M; [y]]
       (aft (sync d p) r (length C + length (z :: M) + 1)) D (C ++ x :: (z :: M) ++ y :: D) (length C) P Hr Hm eq_refl).
    cbn [app] in E. apply E; auto.
    + apply Forall2_cons; [exact Px|]. apply Forall2_cons; [|apply Forall2_cons; [exact Py|apply Forall2_nil]].
      apply (piece_btw d p r C z M D); side Hm.
    + apply (piece_aft d p r (C ++ z :: M) D); side Hm.
    + flat.
Qed.
Theorem insert_shipment_ok p u v delta mv : plan_ok d p -> known d u -> vref_ok p v ->
  eval_insert_shipment d ev (sync d p) u v = (delta, true, mv) ->
  exists i, u = APickup i /\ tot p u = 0 /\ ship_inserted p i v (apply_insert_shipment mv p u v) /\ done d ev p (apply_insert_shipment mv p u v) delta.
Proof.
  intros P K Hv. unfold eval_insert_shipment. cbn [sp_mids sync]. destruct u as [| |i|]; try discriminate.
  destruct (find_act (APickup i) p) as [[? ?]|] eqn:Fu; [discriminate|]. apply find_act_none in Fu.
  pose proof (ship_tot p i P) as Fd. rewrite Fu in Fd.
  destruct (locate p v) as [[rv pv]|] eqn:Fv; [|discriminate].
  destruct (locate_split p v rv pv Hv Fv) as (C & D & Mv & Hpv & He & Hrv). cbn [known] in K.
  intros H. exists i. split; [reflexivity|]. split; [exact Fu|].
  assert (X : exists M R, D = M ++ R /\ num_reloads M = 0 /\ mv = MPos (length C + length M + 1) /\ (delta < 0)%Z /\
     (M = [] /\ delta = dcost d ev false (- s_prize (p_shipment d i)) (bef (sync d p) rv pv) [SPickup i; SDelivery i; aft (sync d p) rv (length C + length M + 1)] \/
      M <> [] /\ delta = dcost d ev false (- s_prize (p_shipment d i)) (bef (sync d p) rv pv) [SPickup i; btw (sync d p) rv (pv + 1) (length C + length M); SDelivery i; aft (sync d p) rv (length C + length M + 1)])).
  { destruct (Z.ltb_spec (dcost d ev false (- s_prize (p_shipment d i)) (bef (sync d p) rv pv) [SPickup i; SDelivery i; aft (sync d p) rv (pv + 1)]) 0).
    - injection H as <- <-. exists [], D. rewrite Hpv. cbn [length]. rewrite Nat.add_0_r. rewrite <- Hpv. repeat split; auto.
    - apply first_improving_inv in H as (pos & Hin & -> & Hneg & ->). rewrite Mv in Hin. apply trip_rest_split in Hin as (M & R & -> & HM & RM & ->); [|exact Hpv].
      exists M, R. repeat split; auto. }
  clear H. destruct X as (M & R & -> & RM & -> & Hneg & Hd).
  rewrite (insert_shipment_apply p i v rv C M R _ P Hv Hrv Mv He Fd eq_refl).
  split; [constructor; auto|].
  destruct (pair_in p rv C M R i P Hrv Mv RM K Fu Fd) as (Q1 & Q2). constructor; [exact Q1|].
  pose proof (pair_eval p rv C M R (APickup i) (ADelivery i) (- s_prize (p_shipment d i)) pv (pv + 1) (length C + length M) (length C + length M + 1)
    (SPickup i) (SDelivery i) delta P Hrv Mv (piece_pickup d i) (piece_delivery d i) RM Q2 eq_refl Hpv eq_refl ltac:(lia) eq_refl Hd Hneg) as E.
  rewrite (ship_in_cost p rv C M R i 0 delta P Hrv Mv K Fu); [lia|]. rewrite E. lia.
Qed.

(** ** RemoveOptionalClient *)
Lemma client_out p r A B i : plan_ok d p -> r < length p -> mid_at p r = A ++ AClient i :: B ->
  plan_ok d (upd p r (A ++ B)) /\ fine_mid d (rveh d r) (A ++ B) /\ tot (upd p r (A ++ B)) (AClient i) = 0
  /\ (forall a, a <> AClient i -> tot (upd p r (A ++ B)) a = tot p a)
  /\ plan_cost d ev (upd p r (A ++ B)) = (plan_cost d ev p + c_prize (p_client d i) - rcost d ev (rveh d r) (mid_at p r) + rcost d ev (rveh d r) (A ++ B))%Z
  /\ has_visit (A ++ B) = negb ((nShipments (sync d p) r =? 0) && (nClients (sync d p) r =? 1)).
Proof.
  intros P Hr Hm. destruct (remove_seg d p r A [AClient i] B P Hr Hm (ships_client i) eq_refl) as [Q2 Q1].
  pose proof (pk_once d p P (AClient i) eq_refl) as O.
  assert (Ht : forall a, tot p a = tot (upd p r (A ++ B)) a + (if a_eqb a (AClient i) then 1 else 0)).
  { intros a. pose proof (tot_upd p r (A ++ B) a Hr) as E. rewrite Hm in E. counts. }
  assert (T0 : tot (upd p r (A ++ B)) (AClient i) = 0) by (specialize (Ht (AClient i)); rewrite eqb_refl in Ht; lia).
  assert (T1 : forall a, a <> AClient i -> tot (upd p r (A ++ B)) a = tot p a).
  { intros a Ha. specialize (Ht a). rewrite eqb_false in Ht by exact Ha. lia. }
  repeat split; try apply Q1; try apply Q2; auto.
  - rewrite cost_one by exact Hr. rewrite (unc_remove d p (upd p r (A ++ B)) (AClient i)); auto.
    + cbn [prize_of]. lia.
    + apply (known_at p r A (AClient i) B P Hm).
    + specialize (Ht (AClient i)). rewrite eqb_refl in Ht. lia.
  - rewrite nClients_at, nShipments_at, Hm by exact Hr. rewrite npick_app, ncli_app, npick_cons, ncli_cons. cbn [a_isPickup a_isClient].
    destruct (has_visit (A ++ B)) eqn:V; symmetry; [apply negb_true_iff|apply negb_false_iff].
    + destruct (Nat.eqb_spec (npick A + (0 + npick B)) 0) as [Z1|]; [|reflexivity]. destruct (Nat.eqb_spec (ncli A + (1 + ncli B)) 1) as [Z2|]; [|reflexivity].
      assert (X : has_visit (A ++ B) = false) by (apply has_visit_counts; rewrite ncli_app, npick_app; lia). congruence.
    + apply has_visit_counts in V. rewrite ncli_app, npick_app in V. apply andb_true_iff. rewrite !Nat.eqb_eq. lia.
Qed.
Theorem remove_client_ok p u delta mv : plan_ok d p ->
  eval_remove_client d ev (sync d p) u = (delta, true, mv) ->
  removed p u (apply_remove_client p u) /\ done d ev p (apply_remove_client p u) delta.
Proof.
  intros P. unfold eval_remove_client. cbn [sp_mids sync]. destruct u as [|i| |]; try discriminate.
  destruct (find_act (AClient i) p) as [[r pu]|] eqn:Fu; [|discriminate]. set (g := c_required _ || _). destruct g; [discriminate|].
  destruct (find_act_spec _ _ _ _ Fu) as (A & B & Hm & Hp & Hr).
  intros H. apply improving_inv in H as (Hneg & -> & _).
  unfold apply_remove_client. rewrite (remove_act_ok p (AClient i) r A B); auto.
  split; [constructor; auto|].
  destruct (client_out p r A B i P Hr Hm) as (Q1 & Q2 & _ & _ & Q5 & Q6). constructor; [exact Q1|]. rewrite Q5.
  destruct ((nShipments (sync d p) r =? 0) && (nClients (sync d p) r =? 1)).
  - rewrite (rcost_empty d ev (rveh d r) (A ++ B)) by exact Q6. unfold pcost. rewrite cache_sync by exact Hr. unfold rcost. lia.
  - assert (E := one_eval d h ev St false (c_prize (p_client d i)) p r A (AClient i :: B) [] [] (aft (sync d p) r (pu + 1)) B (A ++ B) (pu - 1) P Hr Hm ltac:(lia)).
    cbn [app concat] in E. rewrite E; auto; [lia|].
    apply (piece_aft d p r (A ++ [AClient i]) B); side Hm.
Qed.

(** ** RemoveOptionalShipment *)
Lemma ship_out p r A M B i : plan_ok d p -> r < length p -> mid_at p r = A ++ APickup i :: M ++ ADelivery i :: B -> num_reloads M = 0 ->
  (forall a, a <> APickup i -> a <> ADelivery i -> tot (upd p r (A ++ M ++ B)) a = tot p a)
  /\ plan_cost d ev (upd p r (A ++ M ++ B)) = (plan_cost d ev p + s_prize (p_shipment d i) - rcost d ev (rveh d r) (mid_at p r) + rcost d ev (rveh d r) (A ++ M ++ B))%Z
  /\ has_visit (A ++ M ++ B) = negb ((nShipments (sync d p) r =? 1) && (nClients (sync d p) r =? 0)).
Proof.
  intros P Hr Hm RM. destruct (pair_out p r A M B i P Hr Hm RM) as (_ & _ & T0 & T0').
  assert (T1 : forall a, a <> APickup i -> a <> ADelivery i -> tot (upd p r (A ++ M ++ B)) a = tot p a).
  { intros a Ha Hb. pose proof (tot_upd p r (A ++ M ++ B) a Hr) as E. rewrite Hm in E. counts. rewrite !eqb_false in E by assumption. lia. }
  repeat split; auto.
  - rewrite cost_one by exact Hr. rewrite (unc_remove d p (upd p r (A ++ M ++ B)) (APickup i)); auto.
    + cbn [prize_of]. lia.
    + apply (known_at p r A (APickup i) (M ++ ADelivery i :: B) P Hm).
    + apply (tot_In p r). rewrite Hm. apply in_elt.
    + intros a Ha Hne. apply T1; [exact Hne|]. intros ->. destruct Ha.
  - rewrite nClients_at, nShipments_at, Hm by exact Hr. repeat rewrite ?npick_app, ?ncli_app, ?npick_cons, ?ncli_cons. cbn [a_isPickup a_isClient].
    destruct (has_visit (A ++ M ++ B)) eqn:V; symmetry; [apply negb_true_iff|apply negb_false_iff].
    + match goal with |- ?x && ?y = false => destruct x eqn:Z1; [|reflexivity]; destruct y eqn:Z2; [|reflexivity] end.
      apply Nat.eqb_eq in Z1, Z2.
      assert (X : has_visit (A ++ M ++ B) = false) by (apply has_visit_counts; rewrite !ncli_app, !npick_app; lia). congruence.
    + apply has_visit_counts in V. rewrite !ncli_app, !npick_app in V. apply andb_true_iff. rewrite !Nat.eqb_eq. lia.
Qed.
Lemma remove_pair_apply p i r A M B : plan_ok d p -> r < length p -> mid_at p r = A ++ APickup i :: M ++ ADelivery i :: B ->
  remove_act (remove_act p (ADelivery i)) (APickup i) = upd p r (A ++ M ++ B).
Proof.
  intros P Hr Hm. rewrite (remove_act_ok p (ADelivery i) r (A ++ APickup i :: M) B) by first [left; exact P | reflexivity | exact Hr | rewrite Hm; assoc; reflexivity].
  rewrite (remove_act_ok _ (APickup i) r A (M ++ B)).
  - apply upd_upd.
  - right. pose proof (tot_upd p r ((A ++ APickup i :: M) ++ B) (APickup i) Hr) as E. pose proof (pk_once d p P (APickup i) eq_refl). rewrite Hm in E. counts.
  - reflexivity.
  - rewrite upd_length. exact Hr.
  - rewrite mid_at_same by exact Hr. assoc. reflexivity.
Qed.
Lemma ship_gap_eval (ex : bool) out p r A M B x y k k1 k2 k3 : plan_ok d p -> r < length p -> mid_at p r = A ++ x :: M ++ y :: B ->
  num_reloads M = 0 -> fine_mid d (rveh d r) (A ++ M ++ B) -> has_visit (A ++ M ++ B) = true ->
  k = length A -> k1 = length A + 2 -> k2 = length A + length M + 1 -> k3 = length A + length M + 3 ->
  let e := if k1 =? length A + length M + 2 then dcost d ev ex out (bef (sync d p) r k) [aft (sync d p) r k3]
           else dcost d ev ex out (bef (sync d p) r k) [btw (sync d p) r k1 k2; aft (sync d p) r k3] in
  ex = true \/ (e < 0)%Z -> e = (out - rcost d ev (rveh d r) (mid_at p r) + rcost d ev (rveh d r) (A ++ M ++ B))%Z.
Proof.
  intros P Hr Hm RM Q2 V -> -> -> -> e He. unfold e in *. clear e.
  destruct (Nat.eqb_spec (length A + 2) (length A + length M + 2)) as [Z|Z].
  - assert (M = []) as -> by (destruct M; [reflexivity|cbn [length] in Z; lia]). cbn [app length] in *.
    assert (E := one_eval d h ev St ex out p r A (x :: y :: B) [] [] (aft (sync d p) r (length A + 0 + 3)) B (A ++ B) (length A) P Hr Hm eq_refl).
    cbn [app concat] in E. apply E; auto. apply (piece_aft d p r (A ++ [x; y]) B); side Hm.
  - destruct M as [|z M]; [cbn [length] in Z; lia|].
    assert (E := one_eval d h ev St ex out p r A (x :: (z :: M) ++ y :: B) [btw (sync d p) r (length A + 2) (length A + length (z :: M) + 1)] [z :: M]
      (aft (sync d p) r (length A + length (z :: M) + 3)) B (A ++ (z :: M) ++ B) (length A) P Hr Hm eq_refl).
    cbn [app] in E. apply E; auto.
    + apply Forall2_cons; [|apply Forall2_nil]. apply (piece_btw d p r (A ++ [x]) z M (y :: B)); side Hm.
    + apply (piece_aft d p r (A ++ x :: (z :: M) ++ [y]) B); side Hm.
    + flat.
Qed.
Theorem remove_shipment_ok p u delta mv : plan_ok d p ->
  eval_remove_shipment d ev (sync d p) u = (delta, true, mv) ->
  exists i, u = APickup i /\ ship_removed p i (apply_remove_shipment p u) /\ done d ev p (apply_remove_shipment p u) delta.
Proof.
  intros P. unfold eval_remove_shipment. cbn [sp_mids sync]. destruct u as [| |i|]; try discriminate.
  destruct (find_act (APickup i) p) as [[r pp]|] eqn:Fu; [|discriminate].
  destruct (ship_at p i r pp P Fu) as (A & M & B & Hm & RM & Hr & Hpp & Fd). rewrite Fd.
  destruct (s_required _); [discriminate|]. intros H. apply improving_inv in H as (Hneg & -> & _).
  exists i. split; [reflexivity|]. unfold apply_remove_shipment. rewrite (remove_pair_apply p i r A M B P Hr Hm).
  split; [apply SRem; auto|].
  destruct (pair_out p r A M B i P Hr Hm RM) as (Q1 & Q2 & _ & _).
  destruct (ship_out p r A M B i P Hr Hm RM) as (_ & Q5 & Q6). constructor; [exact Q1|]. rewrite Q5.
  destruct ((nShipments (sync d p) r =? 1) && (nClients (sync d p) r =? 0)).
  - rewrite (rcost_empty d ev (rveh d r) (A ++ M ++ B)) by exact Q6. unfold pcost. rewrite cache_sync by exact Hr. unfold rcost. lia.
  - assert (E := ship_gap_eval false (s_prize (p_shipment d i)) p r A M B (APickup i) (ADelivery i) (pp - 1) (pp + 1) (length A + length M + 2 - 1) (length A + length M + 2 + 1) P Hr Hm RM Q2 Q6
      ltac:(lia) ltac:(lia) ltac:(lia) ltac:(lia)). cbv zeta in E. rewrite E by (right; exact Hneg). lia.
Qed.

(** ** Replacing clients *)
Lemma replace_cost p r A B i j k : plan_ok d p -> r < length p -> mid_at p r = A ++ AClient j :: B -> known d (AClient i) -> tot p (AClient i) = 0 ->
  k = length A + 1 ->
  let e := dcost d ev false (c_prize (p_client d j) - c_prize (p_client d i)) (bef (sync d p) r (k - 1)) [SClient i; aft (sync d p) r (k + 1)] in
  (e < 0)%Z -> done d ev p (upd p r (A ++ AClient i :: B)) e.
Proof.
  intros P Hr Hm K T0 -> e Hneg. destruct (repl_plan p r A B (AClient j) (AClient i) P Hr Hm K eq_refl eq_refl T0) as (Q1 & Q2).
  constructor; [exact Q1|].
  assert (E := one_eval d h ev St false (c_prize (p_client d j) - c_prize (p_client d i)) p r A (AClient j :: B) [SClient i] [[AClient i]] (aft (sync d p) r (length A + 1 + 1)) B (A ++ AClient i :: B) (length A + 1 - 1) P Hr Hm ltac:(lia)).
  cbn [app concat] in E. unfold e in *. rewrite E; auto.
  - rewrite cost_one by exact Hr.
    assert (Hne : AClient j <> AClient i).
    { intros Z. pose proof (tot_In p r (AClient j)) as T. rewrite Hm in T. specialize (T ltac:(apply in_elt)). rewrite Z in T. lia. }
    assert (Ht : forall a, tot (upd p r (A ++ AClient i :: B)) a + (if a_eqb a (AClient j) then 1 else 0) = tot p a + (if a_eqb a (AClient i) then 1 else 0)).
    { intros a. pose proof (tot_upd p r (A ++ AClient i :: B) a Hr) as X. rewrite Hm in X. counts. }
    rewrite (unc_replace d p _ (AClient j) (AClient i)); auto.
    + cbn [prize_of]. lia.
    + apply (known_at p r A (AClient j) B P Hm).
    + apply (tot_In p r). rewrite Hm. apply in_elt.
    + specialize (Ht (AClient j)). rewrite eqb_refl, (eqb_false (AClient j) (AClient i)) in Ht by exact Hne. pose proof (pk_once d p P (AClient j) eq_refl). lia.
    + specialize (Ht (AClient i)). rewrite eqb_refl in Ht. pose proof (eqb_false (AClient i) (AClient j) ltac:(congruence)) as Z. rewrite Z in Ht. lia.
    + intros a _ Ha Hb. specialize (Ht a). rewrite !eqb_false in Ht by assumption. lia.
  - apply Forall2_cons; [apply piece_client|apply Forall2_nil].
  - apply (piece_aft d p r (A ++ [AClient j]) B); side Hm.
  - apply (has_visit_in _ (AClient i)); [apply in_elt|reflexivity|apply (fine_ships d _ _ Q2)].
Qed.
Theorem replace_group_ok p u delta mv : plan_ok d p -> known d u ->
  eval_replace_group d ev (sync d p) u = (delta, true, mv) ->
  exists i j g, u = AClient i /\ tot p u = 0 /\ c_group (p_client d i) = Some g /\ In j (g_clients (p_group d g)) /\
    replaced p (AClient j) u (apply_replace_group mv p u) /\ done d ev p (apply_replace_group mv p u) delta.
Proof.
  intros P K. unfold eval_replace_group. cbn [sp_mids sync]. destruct u as [|i| |]; try discriminate.
  destruct (find_act (AClient i) p) as [[? ?]|] eqn:Fu; [discriminate|]. apply find_act_none in Fu.
  destruct (c_group (p_client d i)) as [g|] eqn:Eg; [|discriminate].
  destruct (find _ _) as [j|] eqn:Ef; [|discriminate]. apply find_some in Ef as [Hj _].
  destruct (find_act (AClient j) p) as [[r pv]|] eqn:Fj; [|discriminate].
  destruct (find_act_spec _ _ _ _ Fj) as (A & B & Hm & Hp & Hr).
  intros H. apply improving_inv in H as (Hneg & -> & ->).
  exists i, j, g. cbn [apply_replace_group]. rewrite (replace_act_ok p (AClient j) (AClient i) r A B P eq_refl Hr Hm).
  split; [reflexivity|]. split; [exact Fu|]. split; [exact Eg|]. split; [exact Hj|]. split; [constructor; auto|].
  apply (replace_cost p r A B i j pv); auto.
Qed.
Theorem replace_client_ok p u v delta mv : plan_ok d p -> known d u ->
  eval_replace_client d ev (sync d p) u v = (delta, true, mv) ->
  exists a, v = VAct a /\ tot p u = 0 /\ replaced p a u (apply_replace_client p u v) /\ done d ev p (apply_replace_client p u v) delta.
Proof.
  intros P K. unfold eval_replace_client. cbn [sp_mids sync]. destruct u as [|i| |]; try discriminate.
  destruct v as [[|j| |]|]; try discriminate.
  destruct (find_act (AClient i) p) as [[? ?]|] eqn:Fu; [discriminate|]. apply find_act_none in Fu.
  destruct (find_act (AClient j) p) as [[r pv]|] eqn:Fj; [|discriminate].
  destruct (find_act_spec _ _ _ _ Fj) as (A & B & Hm & Hp & Hr). set (g := _ || _ || _). destruct g; [discriminate|].
  intros H. apply improving_inv in H as (Hneg & -> & ->).
  exists (AClient j). unfold apply_replace_client. rewrite (replace_act_ok p (AClient j) (AClient i) r A B P eq_refl Hr Hm).
  split; [reflexivity|]. split; [exact Fu|]. split; [constructor; auto|]. apply (replace_cost p r A B i j pv); auto.
Qed.

(** ** ReplaceOptionalShipment *)
Lemma swp_new p x y r A B : r < length p -> mid_at p r = A ++ x :: B -> once p x -> tot p y = 0 -> swp p x y = upd p r (A ++ y :: B).
Proof.
  intros Hr Hm Hx Hy. apply plan_ext; [rewrite swp_length, upd_length; reflexivity|].
  intros r' _. rewrite swp_mid. assert (Zy : forall k, cnt (mid_at p k) y = 0) by (intros k; pose proof (cnt_le_tot p k y); lia).
  destruct (Nat.eq_dec r' r) as [->|Hr'].
  - rewrite mid_at_same by exact Hr. specialize (Zy r). pose proof (cnt_le_tot p r x) as T. unfold once in *. rewrite Hm in *. counts. rewrite eqb_refl in T.
    rewrite map_app. cbn [map]. rewrite !swap_none, swap_fst by lia. reflexivity.
  - rewrite mid_at_other by congruence. apply swap_none; [|apply Zy].
    pose proof (tot_two p r r' x ltac:(congruence)) as T. rewrite Hm in T. unfold once in Hx. counts. rewrite !eqb_refl in *. lia.
Qed.
Lemma replace_shipment_at p i j pos r pp : plan_ok d p -> known d (APickup i) -> tot p (APickup i) = 0 ->
  find_act (APickup j) p = Some (r, pp) -> pos = snd (match find_act (ADelivery j) p with Some x => x | None => (0, 0) end) ->
  let out := (s_prize (p_shipment d j) - s_prize (p_shipment d i))%Z in
  let e := if pp + 1 =? pos then dcost d ev false out (bef (sync d p) r (pp - 1)) [SPickup i; SDelivery i; aft (sync d p) r (pos + 1)]
           else dcost d ev false out (bef (sync d p) r (pp - 1)) [SPickup i; btw (sync d p) r (pp + 1) (pos - 1); SDelivery i; aft (sync d p) r (pos + 1)] in
  (e < 0)%Z ->
  ship_replaced p j i (swp (swp p (APickup j) (APickup i)) (ADelivery j) (ADelivery i)) /\
  done d ev p (swp (swp p (APickup j) (APickup i)) (ADelivery j) (ADelivery i)) e.
Proof.
  intros P K T0 Fj -> out e Hneg. cbn [known] in K. destruct (ship_at p j r pp P Fj) as (A & M & B & Hm & RM & Hr & Hpp & Fd).
  unfold e in *. clear e. rewrite Fd in *. cbn [snd] in *.
  pose proof (ship_tot p i P) as T0'. rewrite T0 in T0'.
  assert (Hij : j <> i) by (intros ->; pose proof (tot_In p r (APickup i)) as T; rewrite Hm in T; specialize (T ltac:(apply in_elt)); lia).
  destruct (pair_out p r A M B j P Hr Hm RM) as (P1 & _ & _ & _). set (p1 := upd p r (A ++ M ++ B)) in *.
  destruct (ship_out p r A M B j P Hr Hm RM) as (T1 & C1 & _). fold p1 in T1, C1.
  assert (M1 : mid_at p1 r = A ++ M ++ B) by (unfold p1; apply mid_at_same; exact Hr).
  assert (L1 : r < length p1) by (unfold p1; rewrite upd_length; exact Hr).
  assert (U0 : tot p1 (APickup i) = 0) by (rewrite T1; auto; congruence).
  assert (U0' : tot p1 (ADelivery i) = 0) by (rewrite T1; auto; congruence).
  destruct (pair_in p1 r A M B i P1 L1 M1 RM K U0 U0') as (Q1 & Q2).
  assert (Eupd : upd p1 r (A ++ APickup i :: M ++ ADelivery i :: B) = upd p r (A ++ APickup i :: M ++ ADelivery i :: B)) by (unfold p1; apply upd_upd).
  assert (Es : swp (swp p (APickup j) (APickup i)) (ADelivery j) (ADelivery i) = upd p r (A ++ APickup i :: M ++ ADelivery i :: B)).
  { rewrite (swp_new p (APickup j) (APickup i) r A (M ++ ADelivery j :: B)) by (auto; apply (pk_once d p P); reflexivity).
    set (q := upd p r _).
    assert (Tq : forall a, tot q a + (if a_eqb a (APickup j) then 1 else 0) = tot p a + (if a_eqb a (APickup i) then 1 else 0)).
    { intros a. unfold q. pose proof (tot_upd p r (A ++ APickup i :: M ++ ADelivery j :: B) a Hr) as X. rewrite Hm in X. counts. }
    rewrite (swp_new q (ADelivery j) (ADelivery i) r (A ++ APickup i :: M) B).
    - unfold q. rewrite upd_upd. assoc. reflexivity.
    - unfold q. rewrite upd_length. exact Hr.
    - unfold q. rewrite mid_at_same by exact Hr. assoc. reflexivity.
    - unfold once. specialize (Tq (ADelivery j)). cbn [a_eqb] in Tq. pose proof (pk_once d p P (ADelivery j) eq_refl). lia.
    - specialize (Tq (ADelivery i)). cbn [a_eqb] in Tq. lia. }
  rewrite Es. split; [apply SRepl; exact Hm || auto; exact Hr || auto|]. constructor; [rewrite <- Eupd; exact Q1|].
  rewrite <- Eupd. rewrite (ship_in_cost p1 r A M B i 0 (- s_prize (p_shipment d i) - rcost d ev (rveh d r) (mid_at p1 r) + rcost d ev (rveh d r) (A ++ APickup i :: M ++ ADelivery i :: B))%Z P1 L1 M1 K U0) by lia.
  rewrite C1, M1.
  assert (Hvis : has_visit (A ++ APickup i :: M ++ ADelivery i :: B) = true) by (apply (has_visit_in _ (APickup i)); [apply in_elt|reflexivity|apply (fine_ships d _ _ Q2)]).
  replace (A ++ APickup j :: M ++ ADelivery j :: B) with (A ++ [APickup j] ++ M ++ [ADelivery j] ++ B) in Hm by reflexivity.
  destruct (Nat.eqb_spec (pp + 1) (length A + length M + 2)) as [Z|Z].
  - assert (M = []) as -> by (destruct M; [reflexivity|cbn [length] in Z; lia]). cbn [app length] in *.
    assert (E := one_eval d h ev St false out p r A (APickup j :: ADelivery j :: B) [SPickup i; SDelivery i] [[APickup i]; [ADelivery i]] (aft (sync d p) r (length A + 0 + 2 + 1)) B (A ++ APickup i :: ADelivery i :: B) (pp - 1) P Hr Hm ltac:(lia)).
    cbn [app concat] in E. rewrite E; auto; [unfold out; lia| |].
    + apply Forall2_cons; [apply piece_pickup|]. apply Forall2_cons; [apply piece_delivery|apply Forall2_nil].
    + apply (piece_aft d p r (A ++ [APickup j; ADelivery j]) B); side Hm.
  - destruct M as [|z M]; [cbn [length] in Z; lia|].
    assert (E := one_eval d h ev St false out p r A ([APickup j] ++ (z :: M) ++ [ADelivery j] ++ B) [SPickup i; btw (sync d p) r (pp + 1) (length A + length (z :: M) + 2 - 1); SDelivery i] [[APickup i]; z :: M; [ADelivery i]]
      (aft (sync d p) r (length A + length (z :: M) + 2 + 1)) B (A ++ APickup i :: (z :: M) ++ ADelivery i :: B) (pp - 1) P Hr Hm ltac:(lia)).
    cbn [app] in E, Hneg |- *. rewrite E; auto; [unfold out; lia| | |].
    + apply Forall2_cons; [apply piece_pickup|]. apply Forall2_cons; [|apply Forall2_cons; [apply piece_delivery|apply Forall2_nil]].
      apply (piece_btw d p r (A ++ [APickup j]) z M ([ADelivery j] ++ B)); side Hm.
    + apply (piece_aft d p r (A ++ [APickup j] ++ (z :: M) ++ [ADelivery j]) B); side Hm.
    + flat.
Qed.
Theorem replace_shipment_ok p u v delta mv : plan_ok d p -> known d u ->
  eval_replace_shipment d ev (sync d p) u v = (delta, true, mv) ->
  exists i j, u = APickup i /\ (v = VAct (APickup j) \/ v = VAct (ADelivery j)) /\ tot p u = 0 /\
    ship_replaced p j i (apply_replace_shipment p u v) /\ done d ev p (apply_replace_shipment p u v) delta.
Proof.
  intros P K. unfold eval_replace_shipment. cbn [sp_mids sync]. destruct u as [| |i|]; try discriminate.
  assert (X : forall j, v = VAct (APickup j) \/ v = VAct (ADelivery j) ->
     (match find_act (APickup i) p, find_act (APickup j) p, find_act (ADelivery j) p with
      | None, Some (r, pp), Some (_, pd) =>
          if s_required (p_shipment d j) then no
          else improving (if pp + 1 =? pd
               then dcost d ev false (s_prize (p_shipment d j) - s_prize (p_shipment d i)) (bef (sync d p) r (pp - 1)) [SPickup i; SDelivery i; aft (sync d p) r (pd + 1)]
               else dcost d ev false (s_prize (p_shipment d j) - s_prize (p_shipment d i)) (bef (sync d p) r (pp - 1))
                      [SPickup i; btw (sync d p) r (pp + 1) (pd - 1); SDelivery i; aft (sync d p) r (pd + 1)]) MNone
      | _, _, _ => no end) = (delta, true, mv) ->
     exists i0 j0, APickup i = APickup i0 /\ (v = VAct (APickup j0) \/ v = VAct (ADelivery j0)) /\ tot p (APickup i) = 0 /\
       ship_replaced p j0 i0 (apply_replace_shipment p (APickup i) v) /\ done d ev p (apply_replace_shipment p (APickup i) v) delta).
  { intros j Hj H. destruct (find_act (APickup i) p) as [[? ?]|] eqn:Fu; [discriminate|]. apply find_act_none in Fu.
    destruct (find_act (APickup j) p) as [[r pp]|] eqn:Fj; [|discriminate].
    destruct (find_act (ADelivery j) p) as [[r' pd]|] eqn:Fd; [|discriminate]. destruct (s_required _); [discriminate|].
    apply improving_inv in H as (Hneg & -> & ->).
    destruct (replace_shipment_at p i j pd r pp P K Fu Fj ltac:(rewrite Fd; reflexivity) Hneg) as [R1 R2].
    assert (Ea : apply_replace_shipment p (APickup i) v = swp (swp p (APickup j) (APickup i)) (ADelivery j) (ADelivery i)) by (destruct Hj as [->| ->]; reflexivity).
    exists i, j. rewrite Ea. auto. }
  destruct v as [[| |j|j]|]; try discriminate; intros H; apply (X j); auto.
Qed.

(** ** RemoveAdjacentDepot *)
Theorem adjacent_ok p u delta mv : plan_ok d p -> a_isDepot u = false ->
  eval_adjacent d ev (sync d p) u = (delta, true, mv) ->
  depot_removed p u (apply_adjacent mv p u) /\ done d ev p (apply_adjacent mv p u) delta /\ (delta <= 0)%Z.
Proof.
  intros P Hu. unfold eval_adjacent. cbn [sp_mids sync].
  destruct (find_act u p) as [[r pu]|] eqn:Fu; [|discriminate]. destruct (find_act_spec _ _ _ _ Fu) as (A & B & Hm & Hp & Hr).
  set (dp := dcost d ev true 0 (bef (sync d p) r (pu - 2)) [aft (sync d p) r pu]).
  set (dn := dcost d ev true 0 (bef (sync d p) r pu) [aft (sync d p) r (pu + 2)]).
  assert (Prev : k_isReload (kind_at (mid_at p r) (pu - 1)) = true ->
     depot_removed p u (apply_adjacent MPrev p u) /\ done d ev p (apply_adjacent MPrev p u) dp).
  { intros Hk. destruct (list_eq_dec act_dec A []) as [->|HA].
    { cbn [length] in Hp. replace (pu - 1) with 0 in Hk by lia. discriminate. }
    destruct (last_split A HA) as (A' & x & ->).
    assert (Hx : kind_at (mid_at p r) (pu - 1) = KAct x).
    { rewrite Hm. replace ((A' ++ [x]) ++ u :: B) with (A' ++ x :: u :: B) by (assoc; reflexivity). apply kind_at_app. lens. }
    rewrite Hx in Hk. destruct x as [x| | |]; try discriminate.
    assert (Hm' : mid_at p r = A' ++ ADepot x :: u :: B) by (rewrite Hm; assoc; reflexivity).
    unfold apply_adjacent. rewrite Fu. rewrite (rem_eq p r _ (ADepot x) A' (u :: B)) by (auto; lens).
    destruct (drop_depot p r A' x (u :: B) P Hr Hm') as (Q1 & Q2 & Q3).
    split; [apply (DepPrev p u r A' x B); auto|]. constructor; [exact Q1|].
    assert (E := one_eval d h ev St true 0 p r A' (ADepot x :: u :: B) [] [] (aft (sync d p) r pu) (u :: B) (A' ++ u :: B) (pu - 2) P Hr Hm' ltac:(lens)).
    cbn [app concat] in E. unfold dp. rewrite E; auto.
    - rewrite cost_one_move by auto. lia.
    - apply (piece_aft d p r (A' ++ [ADepot x]) (u :: B)); side Hm.
    - apply has_visit_cons; [exact Hu|apply (fine_ships d _ _ Q2)]. }
  assert (Next : k_isReload (kind_at (mid_at p r) (pu + 1)) = true ->
     depot_removed p u (apply_adjacent MNext p u) /\ done d ev p (apply_adjacent MNext p u) dn).
  { intros Hk. destruct B as [|x B].
    { rewrite Hm, kind_at_end in Hk by lens. discriminate. }
    assert (Hx : kind_at (mid_at p r) (pu + 1) = KAct x).
    { rewrite Hm. replace (A ++ u :: x :: B) with ((A ++ [u]) ++ x :: B) by (assoc; reflexivity). apply kind_at_app. lens. }
    rewrite Hx in Hk. destruct x as [x| | |]; try discriminate.
    assert (Hm' : mid_at p r = (A ++ [u]) ++ ADepot x :: B) by (rewrite Hm; assoc; reflexivity).
    unfold apply_adjacent. rewrite Fu. rewrite (rem_eq p r _ (ADepot x) (A ++ [u]) B) by (auto; lens).
    destruct (drop_depot p r (A ++ [u]) x B P Hr Hm') as (Q1 & Q2 & Q3).
    assert (Ea : (A ++ [u]) ++ B = A ++ u :: B) by (assoc; reflexivity). rewrite Ea in *.
    split; [apply (DepNext p u r A x B); auto|]. constructor; [exact Q1|].
    assert (E := one_eval d h ev St true 0 p r (A ++ [u]) (ADepot x :: B) [] [] (aft (sync d p) r (pu + 2)) B ((A ++ [u]) ++ B) pu P Hr Hm' ltac:(lens)).
    cbn [app concat] in E. unfold dn. rewrite E; auto.
    - rewrite Ea. rewrite cost_one_move by auto. lia.
    - apply (piece_aft d p r (A ++ [u; ADepot x]) B); side Hm.
    - rewrite Ea. exact Q2.
    - rewrite Ea. apply has_visit_cons; [exact Hu|apply (fine_ships d _ _ Q2)]. }
  intros H. cbn [fst snd] in H.
  destruct (k_isReload (kind_at (mid_at p r) (pu - 1))) eqn:K1; destruct (k_isReload (kind_at (mid_at p r) (pu + 1))) eqn:K2;
    repeat match type of H with context [if ?c then _ else _] => destruct c eqn:? end; cbn [fst snd] in H; injection H as <- H <-;
    try (apply Z.leb_le in H; destruct (Prev eq_refl); auto; fail); try (apply Z.leb_le in H; destruct (Next eq_refl); auto; fail); discriminate.
Qed.

(** ** RelocateDelivery and RelocatePickup *)
Lemma rejoin p r A M B A' M' B' i : plan_ok d p -> r < length p -> mid_at p r = A ++ APickup i :: M ++ ADelivery i :: B -> num_reloads M = 0 ->
  A' ++ M' ++ B' = A ++ M ++ B -> num_reloads M' = 0 ->
  let m' := A' ++ APickup i :: M' ++ ADelivery i :: B' in
  plan_ok d (upd p r m') /\ fine_mid d (rveh d r) m' /\ (forall a, cnt m' a = cnt (mid_at p r) a) /\ has_visit m' = true.
Proof.
  intros P Hr Hm RM He RM' m'. destruct (pair_out p r A M B i P Hr Hm RM) as (P1 & _ & T1 & T2).
  set (p1 := upd p r (A ++ M ++ B)) in *.
  assert (M1 : mid_at p1 r = A' ++ M' ++ B') by (rewrite He; unfold p1; apply mid_at_same; exact Hr).
  assert (L1 : r < length p1) by (unfold p1; rewrite upd_length; exact Hr).
  assert (K : i < p_numShipments d) by (apply (known_at p r A (APickup i) (M ++ ADelivery i :: B) P Hm)).
  destruct (pair_in p1 r A' M' B' i P1 L1 M1 RM' K T1 T2) as (Q1 & Q2). unfold p1 in Q1. rewrite upd_upd in Q1.
  split; [exact Q1|]. split; [exact Q2|]. unfold m'. split.
  - intros a. rewrite Hm. apply (f_equal (fun l => cnt l a)) in He. counts.
  - apply (has_visit_in _ (APickup i)); [apply in_elt|reflexivity|apply (fine_ships d _ _ Q2)].
Qed.

Lemma find_act_inj p a r pos A B : plan_ok d p -> a_isDepot a = false -> r < length p -> mid_at p r = A ++ a :: B -> find_act a p = Some (r, pos) -> pos = length A + 1.
Proof.
  intros P Ha Hr Hm F. rewrite (find_act_at a p r A B (length A + 1)) in F; auto; [congruence|apply (pk_once d p P); exact Ha].
Qed.

Theorem delivery_ok p u delta mv : plan_ok d p -> eval_delivery d ev (sync d p) u = (delta, true, mv) ->
  exists i, u = APickup i /\ delivery_moved p i (apply_delivery mv p u) /\ done d ev p (apply_delivery mv p u) delta.
Proof.
  intros P. unfold eval_delivery. cbn [sp_mids sync]. destruct u as [| |i|]; try discriminate.
  destruct (find_act (APickup i) p) as [[r pu]|] eqn:Fu; [|discriminate].
  destruct (ship_at p i r pu P Fu) as (A & M & B & Hm & RM & Hr & Hpu & Fd). rewrite Fd. set (pd := length A + length M + 2) in *.
  intros H. apply first_improving_inv in H as (pa & Hin & -> & Hneg & ->). apply filter_In in Hin as [Hin Hne].
  apply andb_true_iff in Hne as [N1 N2]. apply negb_true_iff, Nat.eqb_neq in N1, N2.
  (* the node to insert after *)
  assert (X : exists Z b W, mid_at p r = A ++ (APickup i :: Z) ++ W /\ num_reloads Z = 0 /\ pa = length A + 1 + length Z /\ (exists Y, APickup i :: Z = Y ++ [b])).
  { destruct Hin as [<-|Hin].
    - exists [], (APickup i), (M ++ ADelivery i :: B). rewrite Hm. cbn [length]. repeat split; [lia|exists []; reflexivity].
    - replace (mid_at p r) with ((A ++ [APickup i]) ++ M ++ ADelivery i :: B) in Hin by (rewrite Hm; assoc; reflexivity).
      apply trip_rest_split in Hin as (Z & W & E & HZ & RZ & ->); [|lens].
      destruct (last_split Z HZ) as (Y & b & ->). exists (Y ++ [b]), b, W. repeat split; auto.
      + rewrite Hm, E. reflexivity.
      + lens.
      + exists (APickup i :: Y). reflexivity. }
  destruct X as (Z & b & W & Hm2 & RZ & Hpa & Y & EY).
  assert (Hb : a_isDepot b = false).
  { apply (num_reloads_In (APickup i :: Z)); [rewrite num_reloads_cons; exact RZ|rewrite EY; apply in_elt]. }
  assert (Kb : kind_at (mid_at p r) pa = KAct b).
  { rewrite Hm2, EY. replace (A ++ (Y ++ [b]) ++ W) with ((A ++ Y) ++ b :: W) by (assoc; reflexivity). apply kind_at_app. apply (f_equal (@length _)) in EY. lens. }
  rewrite Kb. exists i. split; [reflexivity|]. cbn [apply_delivery].
  rewrite (remove_act_ok p (ADelivery i) r (A ++ APickup i :: M) B) by first [left; exact P | reflexivity | exact Hr | rewrite Hm; assoc; reflexivity].
  set (p1 := upd p r ((A ++ APickup i :: M) ++ B)).
  assert (M1 : mid_at p1 r = (A ++ APickup i :: M) ++ B) by (unfold p1; apply mid_at_same; exact Hr).
  assert (L1 : r < length p1) by (unfold p1; rewrite upd_length; exact Hr).
  assert (T1 : forall a, a_isDepot a = false -> tot p1 a <= 1).
  { intros a Ha. pose proof (tot_upd p r ((A ++ APickup i :: M) ++ B) a Hr) as E. pose proof (pk_once d p P a Ha). rewrite Hm in E. unfold p1. counts. }
  destruct (Nat.ltb_spec pd pa) as [Hlt|Hge].
  - (* later: Z = M ++ D :: M2, B = M2 ++ W *)
    assert (E : (A ++ APickup i :: M ++ [ADelivery i]) ++ B = (A ++ APickup i :: Z) ++ W) by (transitivity (mid_at p r); [rewrite Hm|rewrite Hm2]; assoc; reflexivity).
    destruct (app_split (A ++ APickup i :: M ++ [ADelivery i]) B (A ++ APickup i :: Z) W E ltac:(unfold pd in *; lens)) as (M2 & E1 & ->).
    assert (EZ : Z = M ++ ADelivery i :: M2).
    { revert E1. assoc. intros E1. apply app_inv_head in E1. injection E1 as ->. assoc. reflexivity. }
    assert (HM2 : M2 <> []) by (intros ->; subst Z; unfold pd in *; lens).
    destruct (last_split M2 HM2) as (Y2 & b2 & EM2). assert (b2 = b) as ->.
    { rewrite EZ, EM2 in EY. replace (APickup i :: M ++ ADelivery i :: Y2 ++ [b2]) with ((APickup i :: M ++ ADelivery i :: Y2) ++ [b2]) in EY by (assoc; reflexivity). apply app_inj_tail in EY as [_ ->]. reflexivity. }
    assert (RM2 : num_reloads M2 = 0) by (subst Z; reloads).
    rewrite (insert_after_ok p1 (VAct b) (ADelivery i) r (A ++ APickup i :: M ++ M2) W).
    2: { right. intros c Ec. injection Ec as <-. apply T1. exact Hb. }
    2: exact Hb. 2: exact L1. 2: { rewrite M1. assoc. reflexivity. }
    2: { exists (A ++ APickup i :: M ++ Y2). rewrite EM2. assoc. reflexivity. }
    unfold p1. rewrite upd_upd.
    replace ((A ++ APickup i :: M ++ M2) ++ ADelivery i :: W) with (A ++ APickup i :: (M ++ M2) ++ ADelivery i :: W) by (assoc; reflexivity).
    destruct (rejoin p r A M (M2 ++ W) A (M ++ M2) W i P Hr Hm RM ltac:(assoc; reflexivity) ltac:(reloads)) as (Q1 & Q2 & Q3 & Q4).
    split; [apply (DMov p i r A M (M2 ++ W)); auto; [assoc; reflexivity|reloads]|]. constructor; [exact Q1|].
    destruct M2 as [|z M2]; [congruence|].
    assert (Ev := one_eval d h ev St false 0 p r (A ++ APickup i :: M) (ADelivery i :: (z :: M2) ++ W) [btw (sync d p) r (pd + 1) pa; SDelivery i] [z :: M2; [ADelivery i]]
       (aft (sync d p) r (pa + 1)) W (A ++ APickup i :: (M ++ z :: M2) ++ ADelivery i :: W) (pd - 1) P Hr ltac:(rewrite Hm; assoc; reflexivity) ltac:(unfold pd; lens)).
    cbn [app] in Ev, Q1, Q2, Q3, Q4 |- *. rewrite Ev; auto.
    + rewrite cost_one_move by (auto; intros; apply Q3). cbn [app]. lia.
    + apply Forall2_cons; [|apply Forall2_cons; [apply piece_delivery|apply Forall2_nil]].
      apply (piece_btw d p r (A ++ APickup i :: M ++ [ADelivery i]) z M2 W); first [solve [rewrite Hm; assoc; reflexivity] | unfold pd in *; subst Z; side Hm].
    + apply (piece_aft d p r (A ++ APickup i :: M ++ ADelivery i :: z :: M2) W); first [solve [rewrite Hm; assoc; reflexivity] | unfold pd in *; subst Z; side Hm].
    + cbn [concat]. assoc. reflexivity.
  - (* earlier: M = Z ++ M2 with M2 <> [] *)
    assert (E : (A ++ APickup i :: Z) ++ W = (A ++ APickup i :: M) ++ ADelivery i :: B) by (transitivity (mid_at p r); [rewrite Hm2|rewrite Hm]; assoc; reflexivity).
    destruct (app_split (A ++ APickup i :: Z) W (A ++ APickup i :: M) (ADelivery i :: B) E ltac:(unfold pd in *; lens)) as (M2 & E1 & ->).
    assert (EM : M = Z ++ M2).
    { revert E1. assoc. intros E1. apply app_inv_head in E1. injection E1 as ->. reflexivity. }
    assert (RM2 : num_reloads M2 = 0) by (subst M; reloads).
    rewrite (insert_after_ok p1 (VAct b) (ADelivery i) r (A ++ APickup i :: Z) (M2 ++ B)).
    2: { right. intros c Ec. injection Ec as <-. apply T1. exact Hb. }
    2: exact Hb. 2: exact L1. 2: { rewrite M1, EM. assoc. reflexivity. }
    2: { exists (A ++ Y). rewrite EY. assoc. reflexivity. }
    unfold p1. rewrite upd_upd.
    replace ((A ++ APickup i :: Z) ++ ADelivery i :: M2 ++ B) with (A ++ APickup i :: Z ++ ADelivery i :: M2 ++ B) by (assoc; reflexivity).
    destruct (rejoin p r A M B A Z (M2 ++ B) i P Hr Hm RM ltac:(subst M; assoc; reflexivity) RZ) as (Q1 & Q2 & Q3 & Q4).
    split; [apply (DMov p i r A M B); auto; subst M; assoc; reflexivity|]. constructor; [exact Q1|].
    destruct M2 as [|z M2]; [subst M; unfold pd in *; lens|].
    assert (Ev := one_eval d h ev St false 0 p r (A ++ APickup i :: Z) ((z :: M2) ++ ADelivery i :: B) [SDelivery i; btw (sync d p) r (pa + 1) (pd - 1)] [[ADelivery i]; z :: M2]
       (aft (sync d p) r (pd + 1)) B (A ++ APickup i :: Z ++ ADelivery i :: (z :: M2) ++ B) pa P Hr ltac:(rewrite Hm2; assoc; reflexivity) ltac:(lens)).
    cbn [app] in Ev, Q1, Q2, Q3, Q4 |- *. rewrite Ev; auto.
    + rewrite cost_one_move by (auto; intros; apply Q3). cbn [app]. lia.
    + apply Forall2_cons; [apply piece_delivery|]. apply Forall2_cons; [|apply Forall2_nil].
      apply (piece_btw d p r (A ++ APickup i :: Z) z M2 (ADelivery i :: B)); first [solve [rewrite Hm2; assoc; reflexivity] | unfold pd in *; subst M; side Hm].
    + apply (piece_aft d p r (A ++ APickup i :: Z ++ (z :: M2) ++ [ADelivery i]) B); first [solve [rewrite Hm2; assoc; reflexivity] | unfold pd in *; subst M; side Hm].
    + cbn [concat]. assoc. reflexivity.
Qed.
End Edit.
