(** Model of pyvrp/cpp/search/PerturbationManager.{h,cpp}, and what a perturbation does. *)
From Coq Require Import Permutation.
From Verif Require Import Base DurationSegment Data LoadSegment SearchRoute RouteDur Valid ProposalDur ProposalRest Route RouteSpec
  RouteFacts2 RouteFacts3 Cost CostFacts DeltaFacts SearchFacts DataCtor Bitset Rng MakeRandom SearchSpace SearchNodes SearchSeq SearchLoad Ops PlanFacts ShipState OpsBase OpsGen OpsMove OpsRelocate OpsSwap OpsOne OpsEdit OpsEdit2 OpsAll LocalSearch LocalFacts LocalTerm LocalInsert LocalEnsure.
Local Open Scope nat_scope.

(** ** Parameters and the number of perturbations *)
(** PerturbationManager.h:25-34, PerturbationManager.cpp:14-21 *)
Record pparams := mk_pparams { pp_min : nat; pp_max : nat }.
Definition make_pparams (lo hi : nat) : res pparams := if hi <? lo then Err InvalidArgument else Ok (mk_pparams lo hi).
(** PerturbationManager.cpp:23-26: the number of perturbations of a new manager. *)
Definition pm_init (pp : pparams) : nat := pp_min pp.
(** PerturbationManager.cpp:33-37.  Simplified: with a range of 2^64 - 1 the argument of randint
    would wrap around to zero. *)
Definition pm_shuffle (pp : pparams) (r : rng) : rng * nat :=
  let '(r, x) := randint r (pp_max pp - pp_min pp + 1) in (r, pp_min pp + x).

Section Perturb.
Variable d : pdata.
Variable ev : evaluator.

(** ** Moves.  [None]: the code would dereference a null pointer or let an exception escape. *)
(** Route::update() *)
Definition renew (s : sstate) (r : nat) : sstate :=
  mk_sstate (sp_mids s) (upd (sp_caches s) r (update d (rveh d r) (mid_at (sp_mids s) r))).
(** PerturbationManager.cpp:76-96 *)
Definition remove_node (x : sstate * space) (a : activity) : option (sstate * space) :=
  let '(s, sp) := x in
  match find_act a (sp_mids s) with
  | None => None
  | Some (r, pos) =>
      let sp := mark_act d (sp_mids s) a sp in
      let p := rem (sp_mids s) r pos in
      match a with
      | APickup i =>
          match find_act (ADelivery i) p with
          | None => None
          | Some (_, dpos) => Some (renew (mk_sstate (rem p r dpos) (sp_caches s)) r, mark_act d p (ADelivery i) sp)
          end
      | _ => Some (renew (mk_sstate p (sp_caches s)) r, sp)
      end
  end.
(** PerturbationManager.cpp:50-74 *)
Definition insert_node (x : sstate * space) (a : activity) : option (sstate * space) :=
  let '(s, sp) := x in
  let new := match a with
             | AClient i => insert_client d ev sp s i true
             | _ => insert_shipment d ev sp s (a_idx a) true
             end in
  match new with
  | Some (Some p) =>
      match home p a with
      | None => None
      | Some r =>
          let sp := mark_act d p a sp in
          let sp := match a with APickup i => mark_act d p (ADelivery i) sp | _ => sp end in
          Some (renew (mk_sstate p (sp_caches s)) r, sp)
      end
  | _ => None
  end.

(** ** Groups of nodes with the same route, PerturbationManager.cpp:98-124.  The nodes already seen
    are kept as a list. *)
Definition groups := list (option nat * list activity).
Definition same_route (a b : option nat) : bool :=
  match a, b with Some x, Some y => x =? y | None, None => true | _, _ => false end.
Fixpoint add_group (r : option nat) (a : activity) (gs : groups) : groups :=
  match gs with
  | [] => [(r, [a])]
  | (r', l) :: more => if same_route r' r then (r', l ++ [a]) :: more else (r', l) :: add_group r a more
  end.
Definition group_node (p : plan) (x : list activity * groups) (a : activity) : list activity * groups :=
  if existsb (a_eqb a) (fst x) then x else (a :: fst x, add_group (home p a) a (snd x)).
(** The client, or the pickup of the shipment. *)
Definition lead (a : activity) : activity := match a with ADelivery i => APickup i | _ => a end.
(** PerturbationManager.cpp:137-141 *)
Fixpoint group_all (p : plan) (x : list activity * groups) (vs : list activity) : option (list activity * groups) :=
  match vs with
  | [] => Some x
  | v :: more => if has_node d v then group_all p (group_node p x (lead v)) more else None
  end.
Definition todo (gs : groups) : list (option nat * activity) := flat_map (fun g => map (pair (fst g)) (snd g)) gs.

(** PerturbationManager.cpp:143-154: the number of moves left, and the new state. *)
Fixpoint act_moves (left_ : nat) (x : sstate * space) (l : list (option nat * activity)) : option (nat * (sstate * space)) :=
  match l with
  | [] => Some (left_, x)
  | (r, a) :: more =>
      match (match r with Some _ => remove_node x a | None => insert_node x a end) with
      | None => None
      | Some x => if left_ - 1 =? 0 then Some (0, x) else act_moves (left_ - 1) x more
      end
  end.
(** PerturbationManager.cpp:129-155 *)
Fixpoint perturb_all (left_ : nat) (seen : list activity) (x : sstate * space) (us : list activity) : option (sstate * space) :=
  match us with
  | [] => Some x
  | u :: more =>
      match neighbours_of (snd x) u with
      | Err _ => None
      | Ok vs =>
          let p := sp_mids (fst x) in
          match group_all p (group_node p (seen, []) u) vs with
          | None => None
          | Some (seen, gs) =>
              match act_moves left_ x (todo gs) with
              | None => None
              | Some (0, x) => Some x
              | Some (left_, x) => perturb_all left_ seen x more
              end
          end
      end
  end.
(** PerturbationManager.cpp:39-48, 98-99 *)
Definition perturb (num : nat) (x : sstate * space) : option (sstate * space) :=
  if num =? 0 then Some x else perturb_all num [] (fst x, unmark_all (snd x)) (ss_order (snd x)).
End Perturb.

(** ** What a perturbation does *)
Theorem shuffle_range pp r : pp_min pp <= pp_max pp -> pp_min pp <= snd (pm_shuffle pp r) <= pp_max pp.
Proof.
  intros H. unfold pm_shuffle. pose proof (randint_range r (pp_max pp - pp_min pp + 1) ltac:(lia)) as B.
  destruct (randint r _) as [r' x]. cbn [snd] in *. lia.
Qed.

(** [a] is one of the items [X]: a client of [X], or the pickup or delivery of a pickup in [X]. *)
Definition of_items (X : list activity) (a : activity) : bool := existsb (a_eqb (lead a)) X.
(** The activities that are not about the items [X], in order. *)
Definition others (X : list activity) (l : list activity) : list activity := filter (fun a => negb (of_items X a)) l.

Lemma of_items_in X a : of_items X a = true <-> In (lead a) X.
Proof.
  unfold of_items. rewrite existsb_exists. split.
  - intros (x & Hx & E). apply a_eqb_eq in E. rewrite E. exact Hx.
  - intros H. exists (lead a). split; [exact H|apply eqb_refl].
Qed.
Lemma filter_sub {A} (f g : A -> bool) l : (forall a, g a = true -> f a = true) -> filter g (filter f l) = filter g l.
Proof.
  intros H. induction l as [|x l IH]; [reflexivity|]. cbn [filter]. destruct (f x) eqn:F; cbn [filter].
  - destruct (g x); rewrite IH; reflexivity.
  - destruct (g x) eqn:G; [rewrite (H x G) in F; discriminate|exact IH].
Qed.
Lemma others_more X Y l m : (forall a, In a X -> In a Y) -> others X l = others X m -> others Y l = others Y m.
Proof.
  intros H E. unfold others in *.
  assert (S : forall a, negb (of_items Y a) = true -> negb (of_items X a) = true).
  { intros a. rewrite !Bool.negb_true_iff. intros N. destruct (of_items X a) eqn:O; [|reflexivity].
    apply of_items_in in O. apply H in O. apply of_items_in in O. congruence. }
  rewrite <- (filter_sub _ _ l S), <- (filter_sub _ _ m S), E. reflexivity.
Qed.
Lemma others_app X l m : others X (l ++ m) = others X l ++ others X m.
Proof. apply filter_app. Qed.
Lemma others_skip X a l : In (lead a) X -> others X (a :: l) = others X l.
Proof. intros H. unfold others. cbn [filter]. apply of_items_in in H. rewrite H. reflexivity. Qed.

Lemma route_eq a b : same_route a b = true <-> a = b.
Proof. destruct a as [x|], b as [y|]; cbn; rewrite ?Nat.eqb_eq; split; intros H; try congruence; try reflexivity; injection H as ->; reflexivity. Qed.
Lemma add_group_todo r a gs : Permutation (todo (add_group r a gs)) ((r, a) :: todo gs).
Proof.
  unfold todo. induction gs as [|[r' l] gs IH]; cbn [add_group flat_map map fst snd app]; [reflexivity|].
  destruct (same_route r' r) eqn:E; cbn [flat_map fst snd].
  - apply route_eq in E. subst r'. rewrite map_app. cbn [map]. rewrite <- app_assoc. cbn [app]. symmetry. apply Permutation_middle.
  - rewrite IH. symmetry. apply Permutation_middle.
Qed.

Section Facts.
Variable d : pdata.
Variable h : Z.
Variable ev : evaluator.
Hypothesis St : setting d h ev.

(** *** Marking *)
Definition all_known (p : plan) : Prop := forall r, Forall (known d) (mid_at p r).
Lemma node_marks_known p r pos a : all_known p -> In a (node_marks (route_nodes d p r) pos) -> visit_known d a.
Proof.
  intros K H. unfold node_marks in H. apply filter_In in H as [H N]. apply Bool.negb_true_iff in N. split; [exact N|].
  assert (Q : In a (route_nodes d p r) \/ a = ADepot 0).
  { assert (X : forall n, In (nth n (route_nodes d p r) (ADepot 0)) (route_nodes d p r) \/ nth n (route_nodes d p r) (ADepot 0) = ADepot 0).
    { intros n. destruct (Nat.lt_ge_cases n (length (route_nodes d p r))); [left; apply nth_In; assumption|right; apply nth_overflow; assumption]. }
    destruct H as [<-|H]; [apply X|]. apply in_app_or in H as [H|H]; [destruct (pos =? 0)|destruct (pos =? _)]; cbn in H; try tauto; destruct H as [<-|[]]; apply X. }
  destruct Q as [Q|Q]; [|subst a; discriminate]. unfold route_nodes in Q. destruct Q as [Q|Q]; [subst a; discriminate|].
  apply in_app_or in Q as [Q|[Q|[]]]; [|subst a; discriminate]. exact (proj1 (Forall_forall _ _) (K r) a Q).
Qed.
Lemma mark_act_spec p a sp : all_known p -> space_ok d sp -> visit_known d a ->
  space_ok d (mark_act d p a sp) /\ (forall b, visit_known d b -> is_promising sp b = true -> is_promising (mark_act d p a sp) b = true) /\
  (1 <= tot p a -> is_promising (mark_act d p a sp) a = true).
Proof.
  intros K So Ka. unfold mark_act. destruct (find_act a p) as [[r pos]|] eqn:F.
  - unfold mark_at. rewrite mark_node_fold. destruct (marks_fold d (node_marks (route_nodes d p r) pos) sp So) as [M1 M2]; [intros b; apply node_marks_known, K|].
    split; [exact M1|]. split; [intros b Kb Hb; apply M2; auto|]. intros _. apply M2; [exact Ka|]. right. exists a. split.
    + unfold node_marks. apply filter_In. split; [|rewrite (proj1 Ka); reflexivity]. left.
      destruct (find_act_spec a p r pos F) as (A & B & Hm & -> & _). unfold route_nodes. rewrite Hm, Nat.add_1_r. cbn [nth].
      rewrite <- app_assoc. cbn [app]. rewrite app_nth2, Nat.sub_diag by lia. reflexivity.
    + pose proof (proj1 Ka). unfold same_item. auto.
  - split; [exact So|]. split; [auto|]. intros H. apply find_act_none in F. lia.
Qed.
Lemma ok_known p : plan_ok d p -> all_known p.
Proof. intros P r. apply wf_known', P. Qed.
Lemma unmark_ok sp : space_ok d sp -> space_ok d (unmark_all sp).
Proof. intros H. exact (proj1 (step_ok d sp OpUnmarkAll H I)). Qed.

Lemma unmark_same sp : same_space sp (unmark_all sp).
Proof.
  unfold unmark_all, set_promising. repeat split; cbn [ss_promising]; unfold bs_reset; [apply map_length|].
  intros _. apply Forall_forall. intros k Hk. apply in_map_iff in Hk as (x & <- & _). apply repeat_length.
Qed.
Lemma mark_all_same sp : same_space sp (mark_all sp).
Proof.
  unfold mark_all, set_promising. repeat split; cbn [ss_promising]; unfold bs_set_all; [apply map_length|].
  intros _. apply Forall_forall. intros k Hk. apply in_map_iff in Hk as (x & <- & _). apply repeat_length.
Qed.

(** *** One move *)
Lemma renew_sync p p' r : touched p p' [r] -> r < length p -> renew d (mk_sstate p' (sp_caches (sync d p))) r = sync d p'.
Proof.
  intros T Hr. pose proof (stale_touched d p p' [r] T) as [L S]. pose proof T as [Lp _]. cbn [sp_mids sp_caches] in *.
  assert (X : stale d (renew d (mk_sstate p' (sp_caches (sync d p))) r) []).
  { unfold renew. split; cbn [sp_mids sp_caches]; [rewrite upd_length; exact L|].
    intros r' Hr' _. unfold cache_at. cbn [sp_caches]. destruct (Nat.eq_dec r r') as [<-|N].
    - rewrite nth_upd_same by lia. reflexivity.
    - rewrite nth_upd_other by exact N. apply (S r' Hr'). intros [Y|[]]. contradiction. }
  apply stale_none in X. rewrite X. reflexivity.
Qed.

(** Item [a] goes in or out; everything else stays where it is. *)
Record toggled (p q : plan) (a : activity) : Prop := mk_toggled {
  tg_ok : plan_ok d q;
  tg_flip : tot q a + tot p a = 1;
  tg_tot : forall b, a_isDepot b = false -> lead b <> a -> tot q b = tot p b;
  tg_rest : forall r, others [a] (mid_at q r) = others [a] (mid_at p r) }.
Definition moved_to (p : plan) (sp : space) (a : activity) (x : sstate * space) : Prop :=
  exists q, fst x = sync d q /\ toggled p q a /\ same_space sp (snd x) /\ space_ok d (snd x) /\
    is_promising (snd x) a = true /\ (forall b, visit_known d b -> is_promising sp b = true -> is_promising (snd x) b = true).

Lemma others_upd p r m a r' : r < length p -> others [a] m = others [a] (mid_at p r) -> others [a] (mid_at (upd p r m) r') = others [a] (mid_at p r').
Proof. intros Hr E. rewrite mid_at_upd by exact Hr. destruct (Nat.eqb_spec r r') as [<-|]; [exact E|reflexivity]. Qed.

Lemma remove_step p sp a : plan_ok d p -> space_ok d sp -> In a (activity_order d) -> 1 <= tot p a ->
  exists x, remove_node d (sync d p, sp) a = Some x /\ moved_to p sp a x.
Proof.
  intros P So Ha H1. destruct (order_in d a Ha) as [Ka Ta]. pose proof (pk_once d p P a (proj1 Ka)) as O.
  unfold remove_node. cbn [sp_mids sync]. destruct (find_act a p) as [[r pos]|] eqn:F; [|apply find_act_none in F; lia].
  destruct (mark_act_spec p a sp (ok_known p P) So Ka) as (M1 & M2 & M3).
  destruct a as [i|i|i|i]; [destruct Ta; discriminate| | |destruct Ta; discriminate].
  - destruct (rem_client_ok d ev p r pos i P F) as (A & B & E & Hm & Hr & P' & T).
    eexists. split; [reflexivity|]. exists (rem p r pos). cbn [fst snd].
    split; [apply renew_sync; [rewrite E; apply touched_one; left; reflexivity|exact Hr]|].
    split; [|split; [apply mark_act_same|split; [exact M1|split; [apply M3, H1|exact M2]]]].
    constructor; [exact P'| | |].
    + specialize (T (AClient i) eq_refl). rewrite eqb_refl in T. lia.
    + intros b Hb N. rewrite (T b Hb). rewrite eqb_false; [lia|]. intros ->. apply N. reflexivity.
    + intros r'. rewrite E. apply others_upd; [exact Hr|]. rewrite Hm, !others_app, others_skip by (left; reflexivity). reflexivity.
  - destruct (ship_at d p i r pos P F) as (A & M & B & Hm & RM & Hr & Ep & FD).
    assert (E : rem p r pos = upd p r (A ++ M ++ ADelivery i :: B)) by (apply (rem_eq p r pos (APickup i)); assumption).
    set (q := rem p r pos) in *. assert (Hq : mid_at q r = (A ++ M) ++ ADelivery i :: B) by (rewrite E, mid_at_same by exact Hr; rewrite app_assoc; reflexivity).
    assert (Lq : length q = length p) by (rewrite E; apply upd_length).
    pose proof (ship_tot d p i P) as TD. pose proof (pk_once d p P (ADelivery i) eq_refl) as OD.
    assert (Tq : forall b, tot p b = tot q b + (if a_eqb b (APickup i) then 1 else 0)).
    { intros b. pose proof (tot_upd p r (A ++ M ++ ADelivery i :: B) b Hr) as X. rewrite <- E, Hm in X. revert X. rewrite !cnt_app, !cnt_cons, !cnt_app, !cnt_cons. lia. }
    assert (FQ : find_act (ADelivery i) q = Some (r, length (A ++ M) + 1)).
    { apply (find_act_at _ q r (A ++ M) B); [rewrite Lq; exact Hr|exact Hq| |reflexivity]. specialize (Tq (ADelivery i)). lia. }
    rewrite FQ. assert (E2 : rem q r (length (A ++ M) + 1) = upd p r (A ++ M ++ B)).
    { rewrite (rem_eq q r _ (ADelivery i) (A ++ M) B Hq eq_refl), E, upd_upd, <- app_assoc. reflexivity. }
    rewrite E2. destruct (pair_out d p r A M B i P Hr Hm RM) as (P' & _ & T1 & T2).
    assert (Kq : all_known q).
    { intros r'. rewrite E, mid_at_upd by exact Hr. destruct (r =? r'); [|apply wf_known', P]. pose proof (wf_known' d p r P) as W. rewrite Hm in W.
      apply Forall_forall. intros b Hb. apply (proj1 (Forall_forall _ _) W). apply in_app_or in Hb as [Hb|Hb]; apply in_or_app; [left; exact Hb|right; right; exact Hb]. }
    destruct (mark_act_spec q (ADelivery i) (mark_act d p (APickup i) sp) Kq M1) as (N1 & N2 & N3); [split; [reflexivity|exact (proj2 Ka)]|].
    eexists. split; [reflexivity|]. exists (upd p r (A ++ M ++ B)). cbn [fst snd].
    split; [apply renew_sync; [apply touched_one; left; reflexivity|exact Hr]|].
    split; [|split; [eapply same_space_trans; apply mark_act_same|split; [exact N1|split; [apply N2; [exact Ka|apply M3, H1]|intros b Kb Hb; apply N2; auto]]]].
    constructor; [exact P'|lia| |].
    + intros b Hb N. pose proof (tot_upd p r (A ++ M ++ B) b Hr) as X. rewrite Hm in X. revert X. rewrite !cnt_app, !cnt_cons, !cnt_app, !cnt_cons.
      rewrite !eqb_false; [lia| |]; intros ->; apply N; reflexivity.
    + intros r'. apply others_upd; [exact Hr|]. rewrite Hm, !others_app, others_skip by (left; reflexivity). rewrite others_app, others_skip by (left; reflexivity). reflexivity.
Qed.

Lemma insert_step p sp a : plan_ok d p -> space_inv d sp -> space_ok d sp -> In a (activity_order d) -> tot p a = 0 ->
  exists x, insert_node d ev (sync d p, sp) a = Some x /\ moved_to p sp a x.
Proof.
  intros P Si So Ha H0. destruct (si_nb d _ Si a Ha) as (vs & N & _ & K). destruct (order_in d a Ha) as [Ka Ta].
  unfold insert_node. destruct a as [i|i|i|i]; [destruct Ta; discriminate| | |destruct Ta; discriminate].
  - destruct (insert_client_spec d h ev St p P i (proj2 Ka) H0 sp vs true Si N K) as (delta & p' & E & Put & Dn & _).
    cbn [orb] in E. rewrite E. pose proof (dn_ok _ _ _ _ _ Dn) as P'. inversion Put as [r C D Hr Hm Ep]. subst p'. set (q := upd p r (C ++ AClient i :: D)) in *.
    assert (T : forall b, tot q b = tot p b + (if a_eqb b (AClient i) then 1 else 0)) by (intros b; apply tot_in; assumption).
    assert (T1 : tot q (AClient i) = 1) by (rewrite T, H0, eqb_refl; reflexivity).
    assert (Hh : home q (AClient i) = Some r).
    { unfold home. erewrite (find_act_at (AClient i) q r C D); [reflexivity|unfold q; rewrite upd_length; exact Hr|unfold q; apply mid_at_same, Hr|lia|reflexivity]. }
    rewrite Hh. destruct (mark_act_spec q (AClient i) sp (ok_known q P') So Ka) as (M1 & M2 & M3).
    eexists. split; [reflexivity|]. exists q. cbn [fst snd].
    split; [apply renew_sync; [apply touched_one; left; reflexivity|exact Hr]|].
    split; [|split; [apply mark_act_same|split; [exact M1|split; [apply M3; lia|exact M2]]]].
    constructor; [exact P'|lia| |].
    + intros b Hb Nb. rewrite T, eqb_false; [lia|]. intros ->. apply Nb. reflexivity.
    + intros r'. apply others_upd; [exact Hr|]. rewrite Hm, !others_app, others_skip by (left; reflexivity). reflexivity.
  - destruct (insert_shipment_spec d h ev St p P i (proj2 Ka) H0 sp vs true Si N K) as (res & E & R1 & R2 & _).
    cbn [a_idx]. rewrite E. destruct res as [p'|]; [|destruct (R1 eq_refl eq_refl)]. destruct (R2 p' eq_refl) as (Put & P' & _ & _).
    inversion Put as [r C M D Hr Hm RM Ep]. subst p'. set (q := upd p r (C ++ APickup i :: M ++ ADelivery i :: D)) in *.
    assert (T : forall b, tot q b = tot p b + (if a_eqb b (APickup i) then 1 else 0) + (if a_eqb b (ADelivery i) then 1 else 0)).
    { intros b. pose proof (tot_upd p r (C ++ APickup i :: M ++ ADelivery i :: D) b Hr) as X. fold q in X. rewrite Hm in X. revert X. rewrite !cnt_app, !cnt_cons, !cnt_app, !cnt_cons. lia. }
    assert (T1 : tot q (APickup i) = 1) by (rewrite T, H0, eqb_refl; reflexivity).
    assert (Hh : home q (APickup i) = Some r).
    { unfold home. erewrite (find_act_at (APickup i) q r C (M ++ ADelivery i :: D)); [reflexivity|unfold q; rewrite upd_length; exact Hr|unfold q; apply mid_at_same, Hr|lia|reflexivity]. }
    rewrite Hh. destruct (mark_act_spec q (APickup i) sp (ok_known q P') So Ka) as (M1 & M2 & M3).
    destruct (mark_act_spec q (ADelivery i) (mark_act d q (APickup i) sp) (ok_known q P') M1) as (N1 & N2 & N3); [split; [reflexivity|exact (proj2 Ka)]|].
    eexists. split; [reflexivity|]. exists q. cbn [fst snd].
    split; [apply renew_sync; [apply touched_one; left; reflexivity|exact Hr]|].
    split; [|split; [eapply same_space_trans; apply mark_act_same|split; [exact N1|split; [apply N2; [exact Ka|apply M3; lia]|intros b Kb Hb; apply N2; auto]]]].
    constructor; [exact P'|lia| |].
    + intros b Hb Nb. rewrite T, !eqb_false; [lia| |]; intros ->; apply Nb; reflexivity.
    + intros r'. apply others_upd; [exact Hr|]. rewrite Hm, !others_app, others_skip by (left; reflexivity). rewrite others_app, others_skip by (left; reflexivity). reflexivity.
Qed.

(** *** All moves *)
(** The state [x] after toggling the items [X] of plan [p], starting from space [sp]. *)
Record perturbed (p : plan) (sp : space) (X : list activity) (x : sstate * space) : Prop := mk_perturbed {
  pt_sync : fst x = sync d (sp_mids (fst x));
  pt_ok : plan_ok d (sp_mids (fst x));
  pt_nodup : NoDup X;
  pt_items : forall a, In a X -> In a (activity_order d);
  pt_flip : forall a, In a X -> tot (sp_mids (fst x)) a + tot p a = 1;
  pt_tot : forall a, a_isDepot a = false -> ~ In (lead a) X -> tot (sp_mids (fst x)) a = tot p a;
  pt_rest : forall r, others X (mid_at (sp_mids (fst x)) r) = others X (mid_at p r);
  pt_space : same_space sp (snd x);
  pt_sok : space_ok d (snd x);
  pt_prom : forall a, In a X -> is_promising (snd x) a = true }.

Lemma lead_item a : In a (activity_order d) -> lead a = a.
Proof. intros H. destruct (order_in d a H) as [_ [T|T]]; destruct a; cbn in *; congruence. Qed.
Lemma perturbed_more p sp X x a y : perturbed p sp X x -> In a (activity_order d) -> ~ In a X ->
  moved_to (sp_mids (fst x)) (snd x) a y -> perturbed p sp (a :: X) y.
Proof.
  intros [A1 A2 A3 A4 A5 A6 A7 A8 A9 A10] Ha N (q & E & [T1 T2 T3 T4] & SS & So & Pr & Mo).
  destruct (order_in d a Ha) as [Ka _]. pose proof (lead_item a Ha) as La.
  assert (Eq : sp_mids (fst y) = q) by (rewrite E; reflexivity). constructor; rewrite ?Eq.
  - exact E.
  - exact T1.
  - constructor; assumption.
  - intros b [<-|Hb]; auto.
  - intros b [<-|Hb].
    + rewrite <- (A6 a (proj1 Ka)) by (rewrite La; exact N). exact T2.
    + destruct (order_in d b (A4 b Hb)) as [Kb _]. rewrite T3; [apply A5, Hb|exact (proj1 Kb)|]. rewrite (lead_item b (A4 b Hb)). intros ->. contradiction.
  - intros b Db Nb. rewrite T3; [apply A6; [exact Db|]|exact Db|]; intros Z; apply Nb; [right; exact Z|left; symmetry; exact Z].
  - intros r. rewrite (others_more [a] (a :: X) _ (mid_at (sp_mids (fst x)) r)); [|intros b [<-|[]]; left; reflexivity|apply T4].
    apply (others_more X); [intros b Hb; right; exact Hb|apply A7].
  - eapply same_space_trans; eassumption.
  - exact So.
  - intros b [<-|Hb]; [exact Pr|]. apply Mo; [exact (proj1 (order_in d b (A4 b Hb)))|apply A10, Hb].
Qed.

Lemma moves_step p sp l : space_inv d sp -> forall left_ X x, perturbed p sp X x -> 0 < left_ ->
  NoDup (map snd l) -> (forall r a, In (r, a) l -> In a (activity_order d) /\ ~ In a X /\ (r = None <-> tot p a = 0)) ->
  exists left' x' Y, act_moves d ev left_ x l = Some (left', x') /\ perturbed p sp (Y ++ X) x' /\
    (forall a, In a Y -> In a (map snd l)) /\ left' + length Y = left_ /\ (0 < left' -> forall a, In a (map snd l) -> In a Y).
Proof.
  intros Si. induction l as [|[r a] l IH]; intros left_ X x Px Hl ND Hi; cbn [act_moves].
  - exists left_, x, []. split; [reflexivity|]. split; [exact Px|]. split; [intros a []|]. split; [cbn; lia|]. intros _ a [].
  - cbn [map snd] in ND. inversion ND as [|? ? Na ND']. subst.
    destruct (Hi r a (or_introl eq_refl)) as (Ha & Nx & Hr). destruct (order_in d a Ha) as [Ka _].
    assert (Et : tot (sp_mids (fst x)) a = tot p a) by (apply (pt_tot _ _ _ _ Px); [exact (proj1 Ka)|rewrite (lead_item a Ha); exact Nx]).
    assert (Step : exists y, match r with Some _ => remove_node d x a | None => insert_node d ev x a end = Some y /\ moved_to (sp_mids (fst x)) (snd x) a y).
    { assert (Ex : x = (sync d (sp_mids (fst x)), snd x)) by (destruct x as [s sp']; cbn [fst snd]; f_equal; exact (pt_sync _ _ _ _ Px)).
      destruct r as [k|].
      - replace (remove_node d x a) with (remove_node d (sync d (sp_mids (fst x)), snd x) a) by (rewrite <- Ex; reflexivity). apply remove_step; [apply (pt_ok _ _ _ _ Px)|apply (pt_sok _ _ _ _ Px)|exact Ha|].
        rewrite Et. destruct (tot p a) eqn:Z; [|lia]. destruct Hr as [_ Hr]. discriminate (Hr eq_refl).
      - replace (insert_node d ev x a) with (insert_node d ev (sync d (sp_mids (fst x)), snd x) a) by (rewrite <- Ex; reflexivity). apply insert_step; [apply (pt_ok _ _ _ _ Px)|exact (same_space_inv d _ _ (pt_space _ _ _ _ Px) Si)|apply (pt_sok _ _ _ _ Px)|exact Ha|].
        rewrite Et. apply Hr. reflexivity. }
    destruct Step as (y & -> & My). pose proof (perturbed_more p sp X x a y Px Ha Nx My) as Py.
    destruct (Nat.eqb_spec (left_ - 1) 0) as [E|E].
    + exists 0, y, [a]. split; [reflexivity|]. split; [exact Py|]. split; [intros b [<-|[]]; left; reflexivity|]. split; [cbn; lia|]. intros Z. lia.
    + destruct (IH (left_ - 1) (a :: X) y Py) as (left' & x' & Y & -> & P' & Y1 & Y2 & Y3); [lia|exact ND'| |].
      { intros r' b Hb. destruct (Hi r' b (or_intror Hb)) as (B1 & B2 & B3). split; [exact B1|]. split; [|exact B3].
        intros [<-|Z]; [|contradiction]. apply Na. apply in_map_iff. exists (r', a). auto. }
      exists left', x', (Y ++ [a]). split; [reflexivity|]. rewrite <- app_assoc. cbn [app]. split; [exact P'|].
      split; [intros b Hb; apply in_app_or in Hb as [Hb|[<-|[]]]; [right; apply Y1, Hb|left; reflexivity]|].
      split; [rewrite app_length; cbn; lia|]. intros Z b [<-|Hb]; apply in_or_app; [right; left; reflexivity|left; apply Y3; assumption].
Qed.

(** *** Grouping *)
Definition grouped (p : plan) (seen : list activity) (x : list activity * groups) : Prop :=
  exists new, fst x = new ++ seen /\ NoDup new /\ (forall a, In a new -> In a (activity_order d) /\ ~ In a seen) /\
    Permutation (todo (snd x)) (map (fun a => (home p a, a)) new).
Lemma group_step p seen x a : grouped p seen x -> In a (activity_order d) ->
  grouped p seen (group_node p x a) /\ In a (fst (group_node p x a)) /\ (forall b, In b (fst x) -> In b (fst (group_node p x a))).
Proof.
  intros (new & E & ND & H & Pm) Ha. unfold group_node. destruct (existsb (a_eqb a) (fst x)) eqn:Ex.
  - split; [exists new; auto|]. split; [|auto]. apply existsb_exists in Ex as (b & Hb & Eb). apply a_eqb_eq in Eb. subst b. exact Hb.
  - assert (N : ~ In a (fst x)).
    { intros Hin. assert (existsb (a_eqb a) (fst x) = true); [|congruence]. apply existsb_exists. exists a. split; [exact Hin|apply eqb_refl]. }
    rewrite E in N. cbn [fst snd]. split; [|split; [left; reflexivity|intros b Hb; right; exact Hb]].
    exists (a :: new). cbn [fst snd app map]. split; [rewrite E; reflexivity|]. split; [constructor; [intros Z; apply N, in_or_app; auto|exact ND]|].
    split; [intros b [<-|Hb]; [split; [exact Ha|intros Z; apply N, in_or_app; auto]|apply H, Hb]|].
    rewrite add_group_todo. constructor. exact Pm.
Qed.
Lemma lead_known v : visit_known d v -> In (lead v) (activity_order d).
Proof.
  unfold activity_order. intros [N K]. apply in_or_app. destruct v as [i|i|i|i]; cbn in *; [discriminate| | |]; [left|right|right]; apply in_map_iff; exists i; (split; [reflexivity|apply in_seq; lia]).
Qed.
Lemma group_all_step p seen vs : (forall v, In v vs -> visit_known d v) -> forall x, grouped p seen x ->
  exists y, group_all d p x vs = Some y /\ grouped p seen y /\ (forall b, In b (fst x) -> In b (fst y)).
Proof.
  intros K. induction vs as [|v vs IH]; intros x G; cbn [group_all].
  - exists x. auto.
  - assert (Kv : visit_known d v) by (apply K; left; reflexivity). rewrite (proj2 (node_known d v) Kv).
    destruct (group_step p seen x (lead v) G (lead_known v Kv)) as (G1 & _ & M1).
    destruct (IH (fun w Hw => K w (or_intror Hw)) _ G1) as (y & E & G2 & M2). exists y. auto.
Qed.

(** *** The whole perturbation *)
Lemma all_step p sp us : space_inv d sp -> (forall u, In u us -> In u (activity_order d)) -> forall left_ X seen x, perturbed p sp X x -> 0 < left_ ->
  (forall a, In a seen <-> In a X) ->
  exists x' X', perturb_all d ev left_ seen x us = Some x' /\ perturbed p sp X' x' /\
    length X' <= length X + left_ /\ (length X' < length X + left_ -> forall u, In u X \/ In u us -> In u X').
Proof.
  intros Si. induction us as [|u us IH]; intros Hu left_ X seen x Px Hl Hs; cbn [perturb_all].
  - exists x, X. split; [reflexivity|]. split; [exact Px|]. split; [lia|]. intros _ u [H|[]]. exact H.
  - assert (Hin : In u (activity_order d)) by (apply Hu; left; reflexivity).
    destruct (si_nb d _ (same_space_inv d _ _ (pt_space _ _ _ _ Px) Si) u Hin) as (vs & -> & _ & K).
    set (q := sp_mids (fst x)).
    destruct (group_step q seen (seen, []) u) as (G1 & I1 & _); [exists []; cbn; split; [reflexivity|]; split; [constructor|]; split; [intros a []|reflexivity]|exact Hin|].
    destruct (group_all_step q seen vs K _ G1) as ([seen' gs] & -> & (new & E & ND & Hn & Pm) & M2). cbn [fst snd] in *.
    specialize (M2 u I1). clear I1 G1.
    assert (Pm' : Permutation (map snd (todo gs)) new).
    { rewrite (Permutation_map snd Pm), map_map. cbn [snd]. rewrite map_id. reflexivity. }
    destruct (moves_step p sp (todo gs) Si left_ X x Px Hl) as (left' & x' & Y & -> & P' & Y1 & Y2 & Y3).
    { rewrite Pm'. exact ND. }
    { intros r a Hra. assert (Q : In (r, a) (map (fun a => (home q a, a)) new)) by (rewrite <- Pm; exact Hra).
      apply in_map_iff in Q as (b & Eb & Hb). injection Eb as <- ->. destruct (Hn a Hb) as [O N]. split; [exact O|]. rewrite Hs in N. split; [exact N|].
      rewrite home_tot. unfold q. rewrite (pt_tot _ _ _ _ Px); [reflexivity|exact (proj1 (proj1 (order_in d a O)))|rewrite (lead_item a O); exact N]. }
    destruct left' as [|left'].
    + exists x', (Y ++ X). split; [reflexivity|]. split; [exact P'|]. rewrite app_length. split; [lia|]. intros Z. lia.
    + assert (SY : forall a, In a seen' <-> In a (Y ++ X)).
      { intros a. rewrite E, !in_app_iff, Hs. split; intros [H|H]; auto; left.
        - apply Y3; [lia|]. rewrite Pm'. exact H.
        - apply Y1 in H. rewrite Pm' in H. exact H. }
      destruct (IH (fun w Hw => Hu w (or_intror Hw)) (S left') (Y ++ X) seen' x' P') as (x'' & X'' & E' & P'' & L1 & L2); [lia|exact SY|].
      exists x'', X''. split; [exact E'|]. split; [exact P''|]. rewrite app_length in L1, L2. split; [lia|].
      intros Z w [Hw|[<-|Hw]]; apply L2; try lia; [left; apply in_or_app; auto|left; apply SY; exact M2|right; exact Hw].
Qed.

Lemma order_nodup : NoDup (activity_order d).
Proof.
  unfold activity_order. assert (M : forall (f : nat -> activity), (forall i j, f i = f j -> i = j) -> forall n, NoDup (map f (seq 0 n))).
  { intros f Inj n. apply FinFun.Injective_map_NoDup; [exact Inj|apply seq_NoDup]. }
  assert (C : forall (l1 l2 : list activity), NoDup l1 -> NoDup l2 -> (forall a, In a l1 -> ~ In a l2) -> NoDup (l1 ++ l2)).
  { induction l1 as [|x l1 IH]; intros l2 N1 N2 Dj; cbn [app]; [exact N2|]. inversion N1; subst. constructor.
    - intros Hin. apply in_app_or in Hin as [Hin|Hin]; [contradiction|]. exact (Dj x (or_introl eq_refl) Hin).
    - apply IH; auto. intros a Ha. apply Dj. right. exact Ha. }
  apply C; [apply M; congruence|apply M; congruence|].
  intros a H1 H2. apply in_map_iff in H1 as (i & <- & _). apply in_map_iff in H2 as (j & H & _). discriminate.
Qed.
Lemma order_length : length (activity_order d) = p_numClients d + p_numShipments d.
Proof. unfold activity_order. rewrite app_length, !map_length, !seq_length. reflexivity. Qed.

(** Exactly [num] items, or all of them if there are fewer, go in or out; the others stay in the
    order they had. *)
Theorem perturb_spec num p sp : plan_ok d p -> space_inv d sp -> space_ok d sp ->
  exists x X, perturb d ev num (sync d p, sp) = Some x /\ perturbed p sp X x /\ length X = Nat.min num (p_numClients d + p_numShipments d).
Proof.
  intros P Si So. unfold perturb. destruct (Nat.eqb_spec num 0) as [->|N].
  - exists (sync d p, sp), []. split; [reflexivity|]. split; [|reflexivity].
    constructor; cbn [fst snd sp_mids sync]; auto; try (intros a []); [constructor|apply same_space_refl].
  - cbn [fst snd]. set (sp0 := unmark_all sp).
    assert (P0 : perturbed p sp [] (sync d p, sp0)).
    { constructor; cbn [fst snd sp_mids sync]; auto; try (intros a []); [constructor|apply unmark_same|apply unmark_ok, So]. }
    destruct (all_step p sp (ss_order sp) Si) with (left_ := num) (X := @nil activity) (seen := @nil activity) (x := (sync d p, sp0)) as (x & X & E & Px & L1 & L2).
    { intros u Hu. rewrite (si_order d sp Si). exact Hu. } { exact P0. } { lia. } { reflexivity. }
    exists x, X. split; [exact E|]. split; [exact Px|]. cbn [length Nat.add] in L1, L2.
    pose proof (NoDup_incl_length (pt_nodup _ _ _ _ Px) (pt_items _ _ _ _ Px)) as B. rewrite order_length in B.
    destruct (Nat.eq_dec (length X) num) as [|Ne]; [lia|].
    assert (B2 : length (activity_order d) <= length X).
    { apply NoDup_incl_length; [exact order_nodup|]. intros a Ha. apply L2; [lia|]. right. rewrite <- (si_order d sp Si). exact Ha. }
    rewrite order_length in B2. lia.
Qed.
End Facts.
