(** The rounds of the local search depend on its counters ([numUpdates_], [lastTest_] and
    [lastUpdate_], LocalSearch.cpp:54-108) only through their order.  So when the search comes back to
    a plan with later counters in the same order, it goes on forever. *)
From Coq Require Import ZArith Lia List.
From Verif Require Import Base DurationSegment Data LoadSegment SearchRoute Route RouteSpec Cost SearchSpace SearchNodes SearchSeq SearchLoad Ops LocalSearch Solution SolutionFacts CostFacts DataCtor Penalty Pm Bitset Rng RngFloat MakeRandom Neighbourhood Perturb LocalRun Solve.
Import ListNotations.
Local Open Scope nat_scope.

(** Two remove cost caches that agree on the activities [A]. *)
Definition agree (A : list activity) (f g : rcache) : Prop := forall u, In u A -> f u = g u.
(** Renumbering from update [n] on: keeps the order, keeps 0, and keeps counting by ones. *)
Record renumber (f : Z -> Z) (n : Z) : Prop := mk_renumber {
  rn_lt : forall x y, (x < y <-> f x < f y)%Z;
  rn_zero : f 0%Z = 0%Z;
  rn_next : forall x, (n <= x)%Z -> f (x + 1)%Z = (f x + 1)%Z }.
(** The same state with its counters renumbered. *)
Record later (A : list activity) (f : Z -> Z) (st st' : lstate) : Prop := mk_later {
  la_sol : l_sol st' = l_sol st;
  la_rcs : Forall2 (agree A) (l_rcs st) (l_rcs st');
  la_space : l_space st' = l_space st;
  la_test : l_test st' = map f (l_test st);
  la_upd : l_upd st' = map f (l_upd st);
  la_num : l_num st' = f (l_num st);
  la_done : l_done st' = l_done st }.

Lemma renumber_ltb f n : renumber f n -> forall x y, (f x <? f y)%Z = (x <? y)%Z.
Proof.
  intros R x y. destruct (Z.ltb_spec x y) as [H|H]; [apply Z.ltb_lt, (proj1 (rn_lt f n R x y)), H|]. apply Z.ltb_ge. destruct (Z.le_gt_cases (f y) (f x)) as [C|C]; [exact C|].
  apply (proj2 (rn_lt f n R x y)) in C. lia.
Qed.
Lemma renumber_mono f n m : (n <= m)%Z -> renumber f n -> renumber f m.
Proof. intros H [A B C]. constructor; auto. intros x Hx. apply C. lia. Qed.
Lemma renumber_ge f n x : renumber f n -> (n <= x)%Z -> (f n <= f x)%Z.
Proof.
  intros R H. destruct (Z.eq_dec n x) as [->|Hne]; [lia|]. assert (C : (n < x)%Z) by lia. apply (proj1 (rn_lt f n R n x)) in C. lia.
Qed.
Lemma renumber_comp f g n m : renumber g n -> renumber f m -> g n = m -> renumber (fun x => f (g x)) n.
Proof.
  intros G F E. constructor.
  - intros x y. rewrite (rn_lt g n G), (rn_lt f m F). reflexivity.
  - rewrite (rn_zero g n G). exact (rn_zero f m F).
  - intros x Hx. rewrite (rn_next g n G x Hx). apply (rn_next f m F). rewrite <- E. exact (renumber_ge g n x G Hx).
Qed.
Lemma renumber_id n : renumber (fun x => x) n.
Proof. constructor; intros; lia || reflexivity. Qed.
Lemma nth_renumber f n l i : renumber f n -> nth i (map f l) 0%Z = f (nth i l 0%Z).
Proof. intros R. rewrite <- (rn_zero f n R) at 1. apply map_nth. Qed.
Lemma upd_renumber (f : Z -> Z) l i x : upd (map f l) i (f x) = map f (upd l i x).
Proof. revert i. induction l as [|y l IH]; intros [|i]; cbn; try reflexivity. rewrite IH. reflexivity. Qed.

Lemma agree_trans A f g h : agree A f g -> agree A g h -> agree A f h.
Proof. intros H1 H2 u Hu. rewrite (H1 u Hu). exact (H2 u Hu). Qed.
Lemma agrees_trans A : forall l1 l2 l3, Forall2 (agree A) l1 l2 -> Forall2 (agree A) l2 l3 -> Forall2 (agree A) l1 l3.
Proof.
  induction l1 as [|x l1 IH]; intros l2 l3 H1 H2.
  - inversion H1; subst. exact H2.
  - inversion H1 as [|? y ? l2' Hxy Hl]; subst. inversion H2 as [|? z ? l3' Hyz Hl']; subst. constructor; [exact (agree_trans A _ _ _ Hxy Hyz)|exact (IH _ _ Hl Hl')].
Qed.
Lemma later_id A st : later A (fun x => x) st st.
Proof. constructor; try reflexivity; [|rewrite map_id; reflexivity|rewrite map_id; reflexivity]. induction (l_rcs st); constructor; [intros u _; reflexivity|assumption]. Qed.
Lemma later_comp A f g s1 s2 s3 : later A f s1 s2 -> later A g s2 s3 -> later A (fun x => g (f x)) s1 s3.
Proof.
  intros [A1 A2 A3 A4 A5 A6 A7] [B1 B2 B3 B4 B5 B6 B7]. constructor; try congruence.
  - exact (agrees_trans A _ _ _ A2 B2).
  - rewrite B4, A4, map_map. reflexivity.
  - rewrite B5, A5, map_map. reflexivity.
Qed.

Section Loop.
Variable d : pdata.
Variable ev : evaluator.
Variable uops : list unary.
Variable bops : list binary.
Variable A : list activity.
Notation later := (later A).

Lemma remove_cost_agree rc rc' u z : In u A -> agree A rc rc' ->
  fst (remove_cost rc u z) = fst (remove_cost rc' u z) /\ agree A (snd (remove_cost rc u z)) (snd (remove_cost rc' u z)).
Proof.
  intros Hu H. unfold remove_cost. rewrite <- (H u Hu). destruct (rc u); cbn [fst snd]; (split; [reflexivity|]); [exact H|].
  intros a Ha. unfold rc_set. destruct (a_eqb a u); [reflexivity|exact (H a Ha)].
Qed.
Ltac remembered := match goal with H : agree A ?rc ?rc', Hu : In ?u A |- context [remove_cost ?rc ?u ?z] =>
    let E1 := fresh "E1" in let E2 := fresh "E2" in destruct (remove_cost_agree rc rc' u z Hu H) as [E1 E2];
    destruct (remove_cost rc u z) as [? ?]; destruct (remove_cost rc' u z) as [? ?]; cbn [fst snd] in E1, E2; subst end.
Lemma eval_binary_agree o s rc rc' u v : In u A -> agree A rc rc' ->
  fst (eval_binary d ev o s rc u v) = fst (eval_binary d ev o s rc' u v) /\
  agree A (snd (eval_binary d ev o s rc u v)) (snd (eval_binary d ev o s rc' u v)).
Proof.
  intros Hu H. destruct o; unfold eval_binary; try (split; [reflexivity|exact H]).
  - unfold eval_relocate. destruct (find_act u _) as [[ru pu]|]; [|split; [reflexivity|exact H]]. destruct (locate _ v) as [[rv pv]|]; [|split; [reflexivity|exact H]].
    repeat (match goal with |- context [if ?c then _ else _] =>
      lazymatch c with
      | (nClients _ _ + _ =? _) => fail
      | _ => destruct c; [split; [reflexivity|exact H] || idtac|try (split; [reflexivity|exact H])]
      end end).
    all: try (split; [reflexivity|exact H]).
    all: remembered; split; [reflexivity|assumption].
  - unfold eval_alternative. destruct u; try (split; [reflexivity|exact H]). destruct (find_act _ _) as [[ru pu]|]; [|split; [reflexivity|exact H]].
    destruct (locate _ v) as [[rv pv]|]; [|split; [reflexivity|exact H]]. destruct ((ru =? rv) && _); [split; [reflexivity|exact H]|].
    destruct (c_group _) as [g|]; [|split; [reflexivity|exact H]]. destruct (ru =? rv); [destruct (negb _); split; try reflexivity; exact H|].
    remembered; split; [reflexivity|assumption].
  - unfold eval_shipment. destruct u; try (split; [reflexivity|exact H]). destruct (find_act _ _) as [[ru pu]|]; [|split; [reflexivity|exact H]].
    destruct (find_act _ _) as [[rd pd]|]; [|split; [reflexivity|exact H]].
    destruct (locate _ v) as [[rv pv]|]; [|split; [reflexivity|exact H]]. destruct (ru =? rv); [split; [reflexivity|exact H]|].
    remembered.
    destruct (_ <? 0)%Z; split; try reflexivity; assumption.
  - unfold eval_with_depot. destruct u; try (split; [reflexivity|exact H]). destruct (find_act _ _) as [[ru pu]|]; [|split; [reflexivity|exact H]].
    destruct (locate _ v) as [[rv pv]|]; [|split; [reflexivity|exact H]]. destruct (((ru =? rv) && _) || _); [split; [reflexivity|exact H]|].
    destruct (_ =? v_maxTrips _)%Z; [split; [reflexivity|exact H]|]. destruct ((ru =? rv) && _); [split; [reflexivity|exact H]|].
    destruct (negb _); [split; [reflexivity|exact H]|]. destruct (ru =? rv); [split; [reflexivity|exact H]|].
    remembered; split; [reflexivity|assumption].
Qed.
Lemma forget_agree mid rc rc' : agree A rc rc' -> agree A (rc_forget mid rc) (rc_forget mid rc').
Proof. intros H u Hu. unfold rc_forget. destruct (existsb _ _); [reflexivity|exact (H u Hu)]. Qed.

(** What the steps of a round do with renumbered states: the same, renumbered. *)
Definition kept (f : Z -> Z) (st x x' : lstate) : Prop := later f x x' /\ (l_num st <= l_num x)%Z.

Lemma later_plan f st st' : later f st st' -> l_plan st' = l_plan st.
Proof. intros H. unfold l_plan. rewrite (la_sol _ _ _ _ H). reflexivity. Qed.
Lemma later_update_route f st st' r : later f st st' -> later f (update_route d st r) (update_route d st' r).
Proof.
  intros [H1 H2 H3 H4 H5 H6 H7]. unfold update_route. rewrite H1. constructor; cbn [l_sol l_rcs l_space l_test l_upd l_num l_done]; auto.
  - induction H2; constructor; [apply forget_agree|]; assumption.
  - rewrite H5, H6. apply upd_renumber.
Qed.
Lemma later_update f n st st' rU rV : renumber f n -> later f st st' -> (n <= l_num st)%Z -> kept f st (ls_update d st rU rV) (ls_update d st' rU rV).
Proof.
  intros R H Hn. pose proof H as [H1 H2 H3 H4 H5 H6 H7]. unfold ls_update.
  set (a := mk_lstate (l_sol st) _ _ _ _ _ _). set (b := mk_lstate (l_sol st') _ _ _ _ _ _).
  assert (L : later f a b).
  { constructor; cbn [a b l_sol l_rcs l_space l_test l_upd l_num l_done]; auto. rewrite H6. symmetry. apply (rn_next f n R). exact Hn. }
  assert (N : forall x r, l_num (update_route d x r) = l_num x) by reflexivity.
  destruct rU as [r|].
  - destruct (r =? rV).
    + split; [apply later_update_route, L|]. rewrite N. cbn. lia.
    + split; [do 2 apply later_update_route; exact L|]. rewrite !N. cbn. lia.
  - split; [apply later_update_route, L|]. rewrite N. cbn. lia.
Qed.
Lemma later_with_plan f st st' p : later f st st' -> later f (with_plan st p) (with_plan st' p).
Proof. intros [H1 H2 H3 H4 H5 H6 H7]. unfold with_plan, with_sol. rewrite H1. constructor; cbn; auto. Qed.
Lemma later_with_space f st st' s : later f st st' -> later f (with_space st s) (with_space st' s).
Proof. intros [H1 H2 H3 H4 H5 H6 H7]. unfold with_space. constructor; cbn; auto. Qed.
Lemma later_mark f st st' a : later f st st' -> later f (mark_in d st a) (mark_in d st' a).
Proof. intros H. unfold mark_in. rewrite (later_plan f st st' H), (la_space _ _ _ _ H). apply later_with_space, H. Qed.
Lemma later_mark_ref f st st' v : later f st st' -> later f (mark_ref d st v) (mark_ref d st' v).
Proof.
  intros H. unfold mark_ref. rewrite (later_plan f st st' H), (la_space _ _ _ _ H). destruct (locate _ v) as [[r p]|]; [apply later_with_space, H|exact H].
Qed.

Lemma later_unary f n st st' u : renumber f n -> (n <= l_num st)%Z -> later f st st' ->
  kept f st (apply_unary_ops d ev uops st u) (apply_unary_ops d ev uops st' u).
Proof.
  intros R Hn H. unfold apply_unary_ops. rewrite (la_sol _ _ _ _ H). destruct (try_unary d ev (l_sol st) uops u) as [[o m]|]; [|split; [exact H|apply Z.le_refl]].
  rewrite (later_plan f st st' H). destruct (home (l_plan st) u) as [r|].
  - pose proof (later_mark f st st' u H) as M. cbn zeta. rewrite (later_plan f _ _ M).
    destruct (later_update f n _ _ (Some r) r R (later_with_plan f _ _ (apply_unary o m (l_plan (mark_in d st u)) u) M) Hn) as [X1 X2]. split; [exact X1|exact X2].
  - pose proof (later_with_plan f st st' (apply_unary o m (l_plan st) u) H) as M. cbn zeta. rewrite (later_plan f _ _ M).
    destruct (home (l_plan (with_plan st (apply_unary o m (l_plan st) u))) u) as [r|]; [|split; [exact M|cbn; lia]].
    destruct (later_update f n _ _ (Some r) r R (later_mark f _ _ u M) Hn) as [X1 X2]. split; [exact X1|exact X2].
Qed.
Lemma later_try ops : forall s rcs rcs' u v, In u A -> Forall2 (agree A) rcs rcs' ->
  fst (try_binary d ev s ops rcs u v) = fst (try_binary d ev s ops rcs' u v) /\
  Forall2 (agree A) (snd (try_binary d ev s ops rcs u v)) (snd (try_binary d ev s ops rcs' u v)).
Proof.
  induction ops as [|o ops IH]; intros s rcs rcs' u v Hu H; [split; [reflexivity|exact H]|].
  destruct H as [|rc rc' rcs rcs' Hrc H]; [split; [reflexivity|constructor]|]. cbn [try_binary].
  destruct (eval_binary_agree o s rc rc' u v Hu Hrc) as [E1 E2]. destruct (eval_binary d ev o s rc u v) as [[[delta ap] m] r1].
  destruct (eval_binary d ev o s rc' u v) as [x r2]. cbn [fst snd] in E1, E2. subst x. destruct ap; cbn [fst snd].
  - split; [reflexivity|]. constructor; assumption.
  - destruct (IH s rcs rcs' u v Hu H) as [F1 F2]. destruct (try_binary d ev s ops rcs u v) as [x l1]. destruct (try_binary d ev s ops rcs' u v) as [y l2].
    cbn [fst snd] in *. split; [exact F1|]. constructor; assumption.
Qed.
Lemma later_binary f n st st' u v : renumber f n -> (n <= l_num st)%Z -> In u A -> later f st st' ->
  fst (apply_binary_ops d ev bops st u v) = fst (apply_binary_ops d ev bops st' u v) /\
  kept f st (snd (apply_binary_ops d ev bops st u v)) (snd (apply_binary_ops d ev bops st' u v)).
Proof.
  intros R Hn Hu H. unfold apply_binary_ops. rewrite (la_sol _ _ _ _ H).
  destruct (later_try bops (l_sol st) (l_rcs st) (l_rcs st') u v Hu (la_rcs _ _ _ _ H)) as [E1 E2].
  destruct (try_binary d ev (l_sol st) bops (l_rcs st) u v) as [found l1]. destruct (try_binary d ev (l_sol st) bops (l_rcs st') u v) as [found' l2].
  cbn [fst snd] in E1, E2. subst found'.
  assert (L : later f (with_rcs st l1) (with_rcs st' l2)) by (destruct H as [H1 H2 H3 H4 H5 H6 H7]; constructor; cbn; auto).
  destruct found as [[o m]|]; [|split; [reflexivity|split; [exact L|cbn; lia]]]. cbn zeta. rewrite (later_plan f _ _ L).
  destruct (locate (l_plan (with_rcs st l1)) v) as [[rv pv]|]; [|split; [reflexivity|split; [exact L|cbn; lia]]].
  cbn [fst snd]. split; [reflexivity|]. pose proof (later_mark_ref f _ _ v (later_mark f _ _ u L)) as M. rewrite (later_plan f _ _ M).
  assert (N : l_num (mark_ref d (mark_in d (with_rcs st l1) u) v) = l_num st).
  { unfold mark_ref. destruct (locate _ v) as [[? ?]|]; reflexivity. }
  destruct (later_update f n _ _ (home (l_plan (with_rcs st l1)) u) rv R
    (later_with_plan f _ _ (apply_binary o m (l_plan (mark_ref d (mark_in d (with_rcs st l1) u) v)) u v) M)
    ltac:(cbn [with_plan with_sol l_num]; rewrite N; exact Hn)) as [X1 X2].
  split; [exact X1|]. cbn [with_plan with_sol l_num] in X2. rewrite N in X2. exact X2.
Qed.
Lemma later_empty f n u types : forall st st', renumber f n -> (n <= l_num st)%Z -> In u A -> later f st st' ->
  kept f st (empty_moves d ev bops st u types) (empty_moves d ev bops st' u types).
Proof.
  induction types as [|[t off] types IH]; intros st st' R Hn Hu H; [split; [exact H|apply Z.le_refl]|]. cbn [empty_moves]. rewrite (la_sol _ _ _ _ H).
  destruct (first_empty (l_sol st) off (avail d t)) as [r|]; [|exact (IH st st' R Hn Hu H)].
  destruct (later_binary f n st st' u (VStart r) R Hn Hu H) as [E [L N]].
  destruct (apply_binary_ops d ev bops st u (VStart r)) as [b x]. destruct (apply_binary_ops d ev bops st' u (VStart r)) as [b' x'].
  cbn [fst snd] in *. subst b'. destruct b; [split; assumption|]. destruct (IH x x' R ltac:(lia) Hu L) as [L' N']. split; [exact L'|lia].
Qed.
(** Results that may be missing. *)
Definition keptO (f : Z -> Z) (st : lstate) (x x' : option lstate) : Prop :=
  match x, x' with Some x, Some x' => kept f st x x' | None, None => True | _, _ => False end.
Lemma later_neighbour f n t u st st' v : renumber f n -> (n <= l_num st)%Z -> In u A -> later f st st' ->
  keptO f st (test_neighbour d ev bops t u st v) (test_neighbour d ev bops (f t) u st' v).
Proof.
  intros R Hn Hu H. unfold test_neighbour. destruct (has_node d v); [|exact I]. rewrite (later_plan f st st' H).
  destruct (find_act v (l_plan st)) as [[rv pv]|]; [|split; [exact H|apply Z.le_refl]]. rewrite (la_upd _ _ _ _ H).
  replace (match home (l_plan st) u with Some r => nth r (map f (l_upd st)) 0%Z | None => 0%Z end)
    with (f (match home (l_plan st) u with Some r => nth r (l_upd st) 0%Z | None => 0%Z end)).
  2:{ destruct (home _ u) as [r|]; [rewrite (nth_renumber f n _ _ R); reflexivity|exact (rn_zero f n R)]. }
  rewrite (nth_renumber f n _ _ R), !(renumber_ltb f n R). destruct (_ || _); [|split; [exact H|apply Z.le_refl]].
  destruct (later_binary f n st st' u (VAct v) R Hn Hu H) as [E [L N]].
  destruct (apply_binary_ops d ev bops st u (VAct v)) as [b x]. destruct (apply_binary_ops d ev bops st' u (VAct v)) as [b' x'].
  cbn [fst snd] in *. subst b'. destruct (negb b && (pv =? 1)); [|split; assumption].
  destruct (later_binary f n x x' u (VStart rv) R ltac:(lia) Hu L) as [_ [L' N']]. split; [exact L'|lia].
Qed.
Lemma later_neighbours f n t u vs : forall st st', renumber f n -> (n <= l_num st)%Z -> In u A -> later f st st' ->
  keptO f st (test_neighbours d ev bops t u st vs) (test_neighbours d ev bops (f t) u st' vs).
Proof.
  induction vs as [|v vs IH]; intros st st' R Hn Hu H; [split; [exact H|apply Z.le_refl]|]. cbn [test_neighbours].
  pose proof (later_neighbour f n t u st st' v R Hn Hu H) as K.
  destruct (test_neighbour d ev bops t u st v) as [x|]; destruct (test_neighbour d ev bops (f t) u st' v) as [x'|]; cbn in K; try contradiction; [|exact I].
  destruct K as [L N]. pose proof (IH x x' R ltac:(lia) Hu L) as K.
  destruct (test_neighbours d ev bops t u x vs) as [y|]; destruct (test_neighbours d ev bops (f t) u x' vs) as [y'|]; cbn in K |- *; try contradiction; [|exact I].
  destruct K as [L' N']. split; [exact L'|lia].
Qed.
Lemma later_visit f n st st' u : renumber f n -> (n <= l_num st)%Z -> In u A -> later f st st' ->
  keptO f st (visit_act d ev uops bops st u) (visit_act d ev uops bops st' u).
Proof.
  intros R Hn Hu H. unfold visit_act. rewrite (la_space _ _ _ _ H). destruct (is_promising (l_space st) u); [|split; [exact H|apply Z.le_refl]].
  cbn zeta. rewrite (la_test _ _ _ _ H), (la_num _ _ _ _ H), (nth_renumber f n _ _ R), upd_renumber.
  set (a := with_test st _). set (b := with_test st' _).
  assert (L : later f a b) by (destruct H as [H1 H2 H3 H4 H5 H6 H7]; constructor; cbn; auto).
  destruct (later_unary f n a b u R Hn L) as [L1 N1]. rewrite (la_space _ _ _ _ L1).
  destruct (neighbours_of _ u) as [vs|e]; [|exact I].
  change (l_num a) with (l_num st) in N1. assert (N0 : (n <= l_num (apply_unary_ops d ev uops a u))%Z) by (clear - Hn N1; lia).
  pose proof (later_neighbours f n (nth (test_index d u) (l_test st) 0%Z) u vs _ _ R N0 Hu L1) as K.
  destruct (test_neighbours d ev bops (nth (test_index d u) (l_test st) 0%Z) u (apply_unary_ops d ev uops a u) vs) as [x|];
    destruct (test_neighbours d ev bops (f (nth (test_index d u) (l_test st) 0%Z)) u (apply_unary_ops d ev uops b u) vs) as [x'|]; cbn in K |- *; try contradiction; [|exact I].
  destruct K as [L2 N2]. rewrite (la_space _ _ _ _ L2).
  destruct (later_empty f n u (ss_vehOrder (l_space x)) x x' R ltac:(clear - Hn N1 N2; lia) Hu L2) as [L3 N3]. split; [exact L3|]. clear - N1 N2 N3. lia.
Qed.
Lemma later_visits f n us : forall st st', renumber f n -> (n <= l_num st)%Z -> (forall u, In u us -> In u A) -> later f st st' ->
  keptO f st (visit_all d ev uops bops st us) (visit_all d ev uops bops st' us).
Proof.
  induction us as [|u us IH]; intros st st' R Hn Hu H; [split; [exact H|apply Z.le_refl]|]. cbn [visit_all].
  pose proof (later_visit f n st st' u R Hn (Hu u (or_introl eq_refl)) H) as K.
  destruct (visit_act d ev uops bops st u) as [x|]; destruct (visit_act d ev uops bops st' u) as [x'|]; cbn in K; try contradiction; [|exact I].
  destruct K as [L N]. pose proof (IH x x' R ltac:(lia) (fun a Ha => Hu a (or_intror Ha)) L) as K.
  destruct (visit_all d ev uops bops x us) as [y|]; destruct (visit_all d ev uops bops x' us) as [y'|]; cbn in K |- *; try contradiction; [|exact I].
  destruct K as [L' N']. split; [exact L'|lia].
Qed.

(** One round from a state that is not done; the loop's body, LocalSearch.cpp:60-107. *)
Definition round (st : lstate) : option lstate := visit_all d ev uops bops (with_done st true) (ss_order (l_space st)).
(** [m] rounds, none of which was the last. *)
Fixpoint busy (m : nat) (st : lstate) : option lstate :=
  if l_done st then None
  else match m with
       | O => Some st
       | Datatypes.S m => match round st with Some st => busy m st | None => None end
       end.
Lemma later_round f n st st' : renumber f n -> (n <= l_num st)%Z -> (forall u, In u (ss_order (l_space st)) -> In u A) -> later f st st' ->
  keptO f st (round st) (round st').
Proof.
  intros R Hn Hu H. unfold round. rewrite (la_space _ _ _ _ H).
  apply (later_visits f n _ (with_done st true) (with_done st' true) R); [exact Hn|exact Hu|]. destruct H as [H1 H2 H3 H4 H5 H6 H7]. constructor; cbn; auto.
Qed.

(** The order of visits stays the same during a search. *)
Lemma busy_unfinished m : forall st st' n, busy m st = Some st' -> n <= m -> search_loop d ev uops bops n st = Unfinished.
Proof.
  induction m as [|m IH]; intros st st' n H Hn; cbn [busy] in H; destruct (l_done st) eqn:D; try discriminate H.
  - replace n with 0 by lia. cbn. rewrite D. reflexivity.
  - destruct n as [|n]; cbn [search_loop]; rewrite D; [reflexivity|]. unfold round in H.
    destruct (visit_all d ev uops bops (with_done st true) (ss_order (l_space st))) as [x|]; [|discriminate H]. apply (IH x st' n H). lia.
Qed.
Lemma busy_add m1 : forall m2 st st1 st2, busy m1 st = Some st1 -> busy m2 st1 = Some st2 -> busy (m1 + m2) st = Some st2.
Proof.
  induction m1 as [|m1 IH]; intros m2 st st1 st2 H1 H2; cbn [busy Nat.add] in *.
  - destruct (l_done st); [discriminate H1|]. injection H1 as <-. exact H2.
  - destruct (l_done st); [discriminate H1|]. destruct (round st) as [x|]; [|discriminate H1]. exact (IH m2 x st1 st2 H1 H2).
Qed.
Lemma later_busy f n m : forall st st' x, renumber f n -> (n <= l_num st)%Z ->
  (forall k y, k <= m -> busy k st = Some y -> forall u, In u (ss_order (l_space y)) -> In u A) -> later f st st' -> busy m st = Some x ->
  exists x', busy m st' = Some x' /\ kept f st x x'.
Proof.
  induction m as [|m IH]; intros st st' x R Hn Hu H E; cbn [busy] in E |- *; rewrite (la_done _ _ _ _ H); destruct (l_done st) eqn:D; try discriminate E.
  - injection E as <-. exists st'. split; [reflexivity|]. split; [exact H|apply Z.le_refl].
  - assert (Hu0 : forall u, In u (ss_order (l_space st)) -> In u A) by (apply (Hu 0 st); [lia|]; cbn; rewrite D; reflexivity).
    pose proof (later_round f n st st' R Hn Hu0 H) as K. destruct (round st) as [y|] eqn:Er; [|discriminate E].
    destruct (round st') as [y'|]; [|destruct K]. destruct K as [L N].
    destruct (IH y y' x R ltac:(lia)) as (x' & E' & [L' N']); [|exact L|exact E|].
    + intros k z Hk Ek. apply (Hu (Datatypes.S k) z ltac:(lia)). cbn [busy]. rewrite D, Er. exact Ek.
    + exists x'. split; [exact E'|]. split; [exact L'|lia].
Qed.

(** A search that after some rounds is back where it was does not end. *)
Theorem cycle_forever m0 m st st1 st2 f : busy m0 st = Some st1 -> busy (Datatypes.S m) st1 = Some st2 ->
  (forall k y, k <= Datatypes.S m -> busy k st1 = Some y -> forall u, In u (ss_order (l_space y)) -> In u A) ->
  renumber f (l_num st1) -> later f st1 st2 -> forall n, search_loop d ev uops bops n st = Unfinished.
Proof.
  intros H0 H1 Hu R L n.
  assert (C : forall k, exists x g, busy (k * Datatypes.S m) st1 = Some x /\ renumber g (l_num st1) /\ later g st1 x).
  { induction k as [|k (x & g & E & Rg & Lg)].
    - exists st1, (fun z => z). split; [|split; [apply renumber_id|apply later_id]]. cbn. cbn [busy] in H1. destruct (l_done st1); [discriminate H1|reflexivity].
    - destruct (later_busy g (l_num st1) (Datatypes.S m) st1 x st2 Rg ltac:(lia) Hu Lg H1) as (x' & E' & [L' N']).
      exists x', (fun z => g (f z)). split; [|split].
      + replace (Datatypes.S k * Datatypes.S m) with (k * Datatypes.S m + Datatypes.S m) by lia. exact (busy_add _ _ _ _ _ E E').
      + apply (renumber_comp g f (l_num st1) (l_num st2) R); [|symmetry; exact (la_num _ _ _ _ L)]. exact (renumber_mono g _ _ N' Rg).
      + exact (later_comp A f g st1 st2 x' L L'). }
  destruct (C n) as (x & g & E & _). apply (busy_unfinished (m0 + n * Datatypes.S m) st x n (busy_add _ _ _ _ _ H0 E)). lia.
Qed.
End Loop.

(** ** Concrete cycles *)
(** Later by [c], for all that happened after update [T]. *)
Definition shifted (T c : Z) (x : Z) : Z := if (x <=? T)%Z then x else (x + c)%Z.
Lemma shifted_renumber T c n : (0 <= T < n)%Z -> (0 <= c)%Z -> renumber (shifted T c) n.
Proof.
  intros H Hc. unfold shifted. constructor.
  - intros x y. destruct (Z.leb_spec x T), (Z.leb_spec y T); lia.
  - destruct (Z.leb_spec 0 T); lia.
  - intros x Hx. destruct (Z.leb_spec x T), (Z.leb_spec (x + 1) T); lia.
Qed.
Definition oz_eqb (x y : option Z) : bool := match x, y with Some a, Some b => (a =? b)%Z | None, None => true | _, _ => false end.
Lemma oz_eqb_eq x y : oz_eqb x y = true -> x = y.
Proof. destruct x, y; cbn; try discriminate; intros H; [|reflexivity]. apply Z.eqb_eq in H. congruence. Qed.
Fixpoint same_rcs (A : list activity) (l l' : list rcache) : bool :=
  match l, l' with
  | [], [] => true
  | rc :: l, rc' :: l' => forallb (fun u => oz_eqb (rc u) (rc' u)) A && same_rcs A l l'
  | _, _ => false
  end.
Lemma same_rcs_ok A : forall l l', same_rcs A l l' = true -> Forall2 (agree A) l l'.
Proof.
  induction l as [|rc l IH]; intros [|rc' l'] H; cbn [same_rcs] in H; try discriminate H; [constructor|]. apply andb_prop in H as [H1 H2].
  constructor; [|exact (IH l' H2)]. intros u Hu. rewrite forallb_forall in H1. exact (oz_eqb_eq _ _ (H1 u Hu)).
Qed.
Fixpoint covers (d : pdata) (ev : evaluator) (uops : list unary) (bops : list binary) (A : list activity) (m : nat) (st : lstate) : bool :=
  forallb (fun u => existsb (a_eqb u) A) (ss_order (l_space st)) &&
  match m with
  | O => true
  | Datatypes.S m => match round d ev uops bops st with Some st => covers d ev uops bops A m st | None => true end
  end.
Lemma covers_ok d ev uops bops A : forall m st, covers d ev uops bops A m st = true ->
  forall k y, k <= m -> busy d ev uops bops k st = Some y -> forall u, In u (ss_order (l_space y)) -> In u A.
Proof.
  induction m as [|m IH]; intros st H k y Hk E; cbn [covers] in H; apply andb_prop in H as [H1 H2].
  all: assert (Here : forall u, In u (ss_order (l_space st)) -> In u A)
    by (intros u Hu; rewrite forallb_forall in H1; specialize (H1 u Hu); apply existsb_exists in H1 as (b & Hb & Eb); apply a_eqb_eq in Eb; subst b; exact Hb).
  all: destruct k as [|k]; cbn [busy] in E; destruct (l_done st); try discriminate E; try (injection E as <-; exact Here); try (exfalso; clear - Hk; lia).
  destruct (round d ev uops bops st) as [x|]; [|discriminate E]. exact (IH x H2 k y ltac:(lia) E).
Qed.
Definition is_some {B} (o : option B) : bool := match o with Some _ => true | None => false end.
Lemma some_or {B} (o : option B) (x : B) : is_some o = true -> o = Some (match o with Some y => y | None => x end).
Proof. destruct o; [reflexivity|discriminate]. Qed.

(** LocalSearch.cpp:24-42: the state in which the search starts. *)
Definition ls_ready (d : pdata) (ev : evaluator) (bops : list binary) (num : nat) (exhaustive : bool) (sp : space) (sol : solution) : option lstate :=
  match ls_prepare d ev num exhaustive (ls_start d bops sp sol) with Some st => ensure d ev st | None => None end.
Lemma never_returns d ev uops bops num exhaustive sp sol st : ls_ready d ev bops num exhaustive sp sol = Some st -> bops <> [] ->
  (forall n, search_loop d ev uops bops n (with_done st false) = Unfinished) -> forall n, ls_call d ev uops bops n num exhaustive sp sol = Waits.
Proof.
  unfold ls_ready, ls_call. destruct (ls_prepare _ _ _ _ _) as [st0|]; [|discriminate]. intros -> Hb H n. unfold search.
  destruct uops as [|u uops]; [destruct bops as [|b bops]; [congruence|]|]; rewrite H; reflexivity.
Qed.
(** A call of the local search object. *)
Definition call_ready (d : pdata) (ev : evaluator) (se : searcher) (sol : solution) : option lstate :=
  let se := se_shuffle se in ls_ready d ev (se_binary se) (se_num se) true (se_space se) sol.
Definition call_waits (d : pdata) (ev : evaluator) (se : searcher) (sol : solution) : Prop :=
  forall n, let se := se_shuffle se in ls_call d ev (se_unary se) (se_binary se) n (se_num se) true (se_space se) sol = Waits.

(** What solve() begins with when no solution is given: its local search object, a random solution
    and the evaluator with the largest penalties; solve.py:163-178. *)
Definition begins (d : pdata) (p : solve_params) (seed : Z) : option (searcher * solution * evaluator) :=
  match solve_searcher d seed p with
  | Err _ => None
  | Ok se =>
      let '(r, random) := make_random d (se_rng se) in
      match random, pm_max_evaluator (midpoint_manager d (sv_penalty p)) with
      | Ok sol, Ok ev => Some (set_rng se r, sol, ev)
      | _, _ => None
      end
  end.
Lemma begins_waits d p seed se sol ev : begins d p seed = Some (se, sol, ev) -> call_waits d ev se sol ->
  forall X stop collect_stats n k x, solve d X stop p collect_stats n k seed None x = None.
Proof.
  unfold begins, solve. intros B W X stop cs n k x. destruct (solve_searcher d seed p) as [se0|]; [|discriminate B]. unfold solve_init.
  destruct (make_random d (se_rng se0)) as [r [random|]]; [|discriminate B].
  destruct (pm_max_evaluator _) as [ev0|]; [|discriminate B]. injection B as <- <- <-. specialize (W n). cbn zeta in W. unfold py_call. cbn zeta. rewrite W. reflexivity.
Qed.
Lemma begins_usable d p seed se sol ev : data_ok d -> groups_nodup d -> in_int64 d -> Forall (fun v => 0 <= v_maxReloads v <= SIZE_MAX)%Z (p_vehicles d) ->
  Forall (fun v => 0 < v_numAvailable v) (p_vehicles d) -> params_ok p -> begins d p seed = Some (se, sol, ev) ->
  usable d se /\ is_solution d sol /\ so_isComplete sol = true /\ good_evaluator d ev.
Proof.
  unfold begins. intros Hd Hg Hi Hr Ha Hp B. destruct (solve_searcher d seed p) as [se0|] eqn:Es; [|discriminate B].
  destruct (make_random_spec d (se_rng se0) Hd Hr Ha Hg) as (routes & s & E & HB & Em & C & _).
  destruct (make_random d (se_rng se0)) as [r random]. cbn [snd] in E. subst random.
  destruct (proj2 (reached_evaluators d unit (fun x _ => (false, x)) p 0%Z Hp _ (reached_start d p))) as (ev0 & E & G). rewrite E in B.
  injection B as <- <- <-. split; [|split; [exists routes; auto|split; [exact C|exact G]]]. apply set_rng_usable.
  unfold solve_searcher in Es. destruct (make_searcher d (rng_seed seed) (compute_neighbours d (sv_neighbourhood p)) (sv_perturbation p)) as [se1|] eqn:E1; [|discriminate Es].
  injection Es as <-. apply add_operators_usable; [exact (po_ops p Hp)|].
  exact (computed_usable d (rng_seed seed) _ _ se1 Hi (po_weight p Hp) (po_perturb p Hp) E1).
Qed.

(** A search that is at [st1] after [m0] rounds and at the same plan, later by [c], after [m] rounds more. *)
Section Check.
Variables (d : pdata) (ev : evaluator) (se : searcher) (sol : solution) (A : list activity) (m0 m : nat) (T c : Z).
Let uops := se_unary (se_shuffle se).
Let bops := se_binary (se_shuffle se).
Definition nowhere : lstate := mk_lstate (mk_sstate [] []) [] (mk_space [] [] [] (bs_make 0)) [] [] 0 true.
Definition some_state (o : option lstate) : lstate := match o with Some st => st | None => nowhere end.
Definition at0 : lstate := with_done (some_state (call_ready d ev se sol)) false.
Definition at1 : lstate := some_state (busy d ev uops bops m0 at0).
Definition at2 : lstate := some_state (busy d ev uops bops (Datatypes.S m) at1).
Definition cycle_check : bool :=
  is_some (call_ready d ev se sol) && is_some (busy d ev uops bops m0 at0) && is_some (busy d ev uops bops (Datatypes.S m) at1)
  && negb (length bops =? 0) && covers d ev uops bops A (Datatypes.S m) at1 && same_rcs A (l_rcs at1) (l_rcs at2)
  && (0 <=? T)%Z && (T <? l_num at1)%Z && (0 <=? c)%Z.
Definition counters (st : lstate) : list Z * list Z * Z * bool := (l_test st, l_upd st, l_num st, l_done st).
Lemma cycle_waits : cycle_check = true -> l_sol at2 = l_sol at1 -> l_space at2 = l_space at1 ->
  counters at2 = (map (shifted T c) (l_test at1), map (shifted T c) (l_upd at1), shifted T c (l_num at1), l_done at1) -> call_waits d ev se sol.
Proof.
  intros H Es Ep Ec. unfold cycle_check in H. repeat (apply andb_prop in H as [H ?]).
  unfold counters in Ec. apply pair_equal_spec in Ec as [Ec E4]. apply pair_equal_spec in Ec as [Ec E3]. apply pair_equal_spec in Ec as [E1 E2].
  unfold call_waits. intros n. cbn zeta. refine (never_returns d ev uops bops _ true _ sol (some_state (call_ready d ev se sol)) _ _ _ n).
  - exact (some_or (call_ready d ev se sol) nowhere H).
  - intros E. unfold bops in *. rewrite E in *. discriminate.
  - fold at0. apply (cycle_forever d ev uops bops A m0 m at0 at1 at2 (shifted T c)).
    + apply (some_or (busy d ev uops bops m0 at0) nowhere). assumption.
    + apply (some_or (busy d ev uops bops (Datatypes.S m) at1) nowhere). assumption.
    + apply covers_ok. assumption.
    + apply shifted_renumber; [split|]; [apply Z.leb_le|apply Z.ltb_lt|apply Z.leb_le]; assumption.
    + constructor; [exact Es| |exact Ep|exact E1|exact E2|exact E3|exact E4]. apply same_rcs_ok. assumption.
Qed.
End Check.

(** solve()'s first search does so. *)
Definition cycles (d : pdata) (p : solve_params) (seed : Z) (A : list activity) (m0 m : nat) (T c : Z) : Prop :=
  match begins d p seed with
  | Some (se, sol, ev) =>
      let st1 := at1 d ev se sol m0 in let st2 := at2 d ev se sol m0 m in
      cycle_check d ev se sol A m0 m T c = true /\ l_sol st2 = l_sol st1 /\ l_space st2 = l_space st1 /\
      counters st2 = (map (shifted T c) (l_test st1), map (shifted T c) (l_upd st1), shifted T c (l_num st1), l_done st1)
  | None => False
  end.
Lemma cycles_waits d p seed A m0 m T c : cycles d p seed A m0 m T c ->
  exists se sol ev, begins d p seed = Some (se, sol, ev) /\ call_waits d ev se sol.
Proof.
  unfold cycles. destruct (begins d p seed) as [[[se sol] ev]|]; [|intros []]. intros (H1 & H2 & H3 & H4). exists se, sol, ev. split; [reflexivity|].
  exact (cycle_waits d ev se sol A m0 m T c H1 H2 H3 H4).
Qed.
