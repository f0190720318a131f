(** The loops of the operators' apply() functions, in terms of lists. *)
From Verif Require Import Base DurationSegment Data LoadSegment SearchRoute Route RouteSpec Cost SearchSpace SearchNodes SearchSeq SearchLoad
  Ops PlanFacts ShipState OpsBase OpsGen.
Local Open Scope nat_scope.

Definition once (p : plan) (a : activity) : Prop := tot p a <= 1.

Lemma upd_same_id p r m : mid_at p r = m -> upd p r m = p.
Proof. intros <-. apply upd_mid. Qed.

Lemma upd2_same (p : plan) ru rv mu mv mu' mv' : ru <> rv -> upd (upd (upd (upd p ru mu) rv mv) ru mu') rv mv' = upd (upd p ru mu') rv mv'.
Proof. intros H. rewrite (upd_comm (upd p ru mu)) by congruence. rewrite !upd_upd. reflexivity. Qed.

(** ** Moving nodes one by one *)
Section Across.
Variables (ru rv : nat) (v : vref).
Hypothesis Hne : ru <> rv.
Lemma move_across B C D A : forall X p Y a, ru < length p -> rv < length p ->
  mid_at p ru = A ++ (X ++ [a]) ++ B -> mid_at p rv = C ++ Y ++ D -> ends v rv C ->
  (forall x, In x (X ++ [a]) -> once p x) -> (forall b, v = VAct b -> once p b) ->
  move_after (S (length X)) p ru a rv v = upd (upd p ru (A ++ B)) rv (C ++ (X ++ [a]) ++ Y ++ D).
Proof.
  induction X as [|b X IH] using rev_ind; intros p Y a Hu Hv Mu Mv He Hx Hb.
  - cbn [length move_after].
    rewrite (find_act_at a p ru A B (length A + 1)) by first [exact Mu | apply Hx; left; reflexivity | auto].
    rewrite (rem_eq p ru _ a A B) by auto.
    rewrite (locate_at (upd p ru (A ++ B)) v rv C (Y ++ D) (length C)).
    + rewrite (ins_eq (upd p ru (A ++ B)) rv _ a C (Y ++ D)); [|rewrite mid_at_other by exact Hne; exact Mv|reflexivity].
      destruct (kind_at _ _); reflexivity.
    + rewrite upd_length. exact Hv.
    + rewrite mid_at_other by exact Hne. exact Mv.
    + exact He.
    + intros b Eb. specialize (Hb b Eb). pose proof (tot_upd p ru (A ++ B) b Hu) as E. unfold once in *. rewrite Mu in E. counts.
    + reflexivity.
  - rewrite app_length. cbn [length]. rewrite Nat.add_1_r. remember (S (length X)) as k. cbn [move_after].
    assert (Mu' : mid_at p ru = (A ++ X ++ [b]) ++ a :: B) by (rewrite Mu, <- !app_assoc; reflexivity).
    rewrite (find_act_at a p ru (A ++ X ++ [b]) B (length (A ++ X ++ [b]) + 1)) by (auto; apply Hx; apply in_elt).
    rewrite (rem_eq p ru _ a (A ++ X ++ [b]) B) by auto.
    rewrite (locate_at (upd p ru ((A ++ X ++ [b]) ++ B)) v rv C (Y ++ D) (length C)).
    + rewrite (ins_eq (upd p ru ((A ++ X ++ [b]) ++ B)) rv _ a C (Y ++ D)); [|rewrite mid_at_other by exact Hne; exact Mv|reflexivity].
      rewrite Nat.add_sub.
      replace (mid_at p ru) with ((A ++ X) ++ b :: a :: B) by (rewrite Mu, <- !app_assoc; reflexivity).
      rewrite kind_at_app by (rewrite !app_length; cbn; lia). subst k.
      set (p2 := upd (upd p ru ((A ++ X ++ [b]) ++ B)) rv (C ++ a :: Y ++ D)).
      assert (Ht : forall x, tot p2 x = tot p x).
      { intros x. pose proof (tot_two_upd p ru rv ((A ++ X ++ [b]) ++ B) (C ++ a :: Y ++ D) x Hu Hv Hne) as E.
        rewrite Mu, Mv in E. unfold p2. counts. }
      rewrite (IH p2 (a :: Y) b).
      * unfold p2. rewrite upd2_same by exact Hne. rewrite <- !app_assoc. reflexivity.
      * unfold p2. rewrite !upd_length. exact Hu.
      * unfold p2. rewrite !upd_length. exact Hv.
      * unfold p2. rewrite mid_at_other by congruence. rewrite mid_at_same by exact Hu. rewrite <- !app_assoc. reflexivity.
      * unfold p2. rewrite mid_at_same by (rewrite upd_length; exact Hv). reflexivity.
      * exact He.
      * intros x Hin. unfold once. rewrite Ht. apply Hx. apply in_or_app. left. exact Hin.
      * intros x Ex. unfold once. rewrite Ht. apply Hb. exact Ex.
    + rewrite upd_length. exact Hv.
    + rewrite mid_at_other by exact Hne. exact Mv.
    + exact He.
    + intros c Ec. specialize (Hb c Ec). pose proof (tot_upd p ru ((A ++ X ++ [b]) ++ B) c Hu) as E. unfold once in *. rewrite Mu in E. counts.
    + reflexivity.
Qed.
End Across.

(** Within a route, towards the end. *)
Lemma move_later r A M b D : forall X p Y a, r < length p ->
  mid_at p r = A ++ (X ++ [a]) ++ (M ++ [b]) ++ Y ++ D ->
  (forall x, In x (X ++ [a]) -> once p x) -> once p b ->
  move_after (S (length X)) p r a r (VAct b) = upd p r (A ++ (M ++ [b]) ++ (X ++ [a]) ++ Y ++ D).
Proof.
  induction X as [|c X IH] using rev_ind; intros p Y a Hr Hm Hx Hb.
  - cbn [length move_after].
    rewrite (find_act_at a p r A ((M ++ [b]) ++ Y ++ D) (length A + 1)) by first [exact Hm | apply Hx; left; reflexivity | auto].
    rewrite (rem_eq p r _ a A ((M ++ [b]) ++ Y ++ D)) by auto. cbn [locate].
    rewrite (find_act_at b (upd p r _) r (A ++ M) (Y ++ D) (length (A ++ M) + 1)); [|rewrite upd_length; exact Hr| | |reflexivity].
    + rewrite (ins_eq (upd p r _) r _ a (A ++ M ++ [b]) (Y ++ D)).
      * rewrite upd_upd. rewrite <- !app_assoc. cbn [app]. destruct (kind_at _ _); reflexivity.
      * rewrite mid_at_same by exact Hr. rewrite <- !app_assoc. reflexivity.
      * rewrite !app_length. cbn. lia.
    + rewrite mid_at_same by exact Hr. rewrite <- !app_assoc. reflexivity.
    + pose proof (tot_upd p r (A ++ (M ++ [b]) ++ Y ++ D) b Hr) as E. rewrite Hm in E. unfold once in Hb. counts.
  - rewrite app_length. cbn [length]. rewrite Nat.add_1_r. remember (S (length X)) as k. cbn [move_after].
    set (R := (M ++ [b]) ++ Y ++ D) in *.
    assert (Mu' : mid_at p r = (A ++ X ++ [c]) ++ a :: R) by (rewrite Hm, <- !app_assoc; reflexivity).
    rewrite (find_act_at a p r (A ++ X ++ [c]) R (length (A ++ X ++ [c]) + 1)) by (auto; apply Hx; apply in_elt).
    rewrite (rem_eq p r _ a (A ++ X ++ [c]) R) by auto. cbn [locate].
    rewrite (find_act_at b (upd p r _) r (A ++ X ++ [c] ++ M) (Y ++ D) (length (A ++ X ++ [c] ++ M) + 1)); [|rewrite upd_length; exact Hr| | |reflexivity].
    + rewrite (ins_eq (upd p r _) r _ a (A ++ X ++ [c] ++ M ++ [b]) (Y ++ D)); [|rewrite mid_at_same by exact Hr; unfold R; rewrite <- !app_assoc; reflexivity|lens].
      rewrite Nat.add_sub. rewrite upd_upd.
      replace (mid_at p r) with ((A ++ X) ++ c :: a :: R) by (rewrite Hm, <- !app_assoc; reflexivity).
      rewrite kind_at_app by (rewrite !app_length; cbn; lia). subst k.
      set (p2 := upd p r _).
      assert (Ht : forall x, tot p2 x = tot p x).
      { intros x. pose proof (tot_upd p r ((A ++ X ++ [c] ++ M ++ [b]) ++ a :: Y ++ D) x Hr) as E. rewrite Hm in E. unfold p2, R in *. counts. }
      rewrite (IH p2 (a :: Y) c).
      * unfold p2. rewrite upd_upd. f_equal. rewrite <- !app_assoc. reflexivity.
      * unfold p2. rewrite !upd_length. exact Hr.
      * unfold p2. rewrite mid_at_same by exact Hr. rewrite <- !app_assoc. reflexivity.
      * intros x Hin. unfold once. rewrite Ht. apply Hx. apply in_or_app. left. exact Hin.
      * unfold once. rewrite Ht. exact Hb.
    + rewrite mid_at_same by exact Hr. unfold R. rewrite <- !app_assoc. reflexivity.
    + pose proof (tot_upd p r ((A ++ X ++ [c]) ++ R) b Hr) as E. rewrite Hm in E. unfold once, R in *. counts.
Qed.

(** Within a route, towards the start. *)
Lemma move_earlier r v C M B : forall X p Y a, r < length p ->
  mid_at p r = C ++ Y ++ M ++ (X ++ [a]) ++ B -> ends v r C ->
  (forall x, In x (X ++ [a]) -> once p x) -> (forall b, v = VAct b -> once p b) ->
  move_after (S (length X)) p r a r v = upd p r (C ++ (X ++ [a]) ++ Y ++ M ++ B).
Proof.
  induction X as [|c X IH] using rev_ind; intros p Y a Hr Hm He Hx Hb.
  - cbn [length move_after].
    assert (Hm' : mid_at p r = (C ++ Y ++ M) ++ a :: B) by (rewrite Hm, <- !app_assoc; reflexivity).
    rewrite (find_act_at a p r (C ++ Y ++ M) B (length (C ++ Y ++ M) + 1)) by (auto; apply Hx; left; reflexivity).
    rewrite (rem_eq p r _ a (C ++ Y ++ M) B) by auto.
    rewrite (locate_at (upd p r _) v r C (Y ++ M ++ B) (length C)); [|rewrite upd_length; exact Hr| |exact He| |reflexivity].
    + rewrite (ins_eq (upd p r _) r _ a C (Y ++ M ++ B)); [|rewrite mid_at_same by exact Hr; rewrite <- !app_assoc; reflexivity|reflexivity].
      rewrite upd_upd. destruct (kind_at _ _); reflexivity.
    + rewrite mid_at_same by exact Hr. rewrite <- !app_assoc. reflexivity.
    + intros b Eb. specialize (Hb b Eb). pose proof (tot_upd p r ((C ++ Y ++ M) ++ B) b Hr) as E. rewrite Hm in E. unfold once in *. counts.
  - rewrite app_length. cbn [length]. rewrite Nat.add_1_r. remember (S (length X)) as k. cbn [move_after].
    assert (Mu' : mid_at p r = (C ++ Y ++ M ++ X ++ [c]) ++ a :: B) by (rewrite Hm, <- !app_assoc; reflexivity).
    rewrite (find_act_at a p r (C ++ Y ++ M ++ X ++ [c]) B (length (C ++ Y ++ M ++ X ++ [c]) + 1)) by (auto; apply Hx; apply in_elt).
    rewrite (rem_eq p r _ a (C ++ Y ++ M ++ X ++ [c]) B) by auto.
    rewrite (locate_at (upd p r _) v r C (Y ++ M ++ X ++ [c] ++ B) (length C)); [|rewrite upd_length; exact Hr| |exact He| |reflexivity].
    + rewrite (ins_eq (upd p r _) r _ a C (Y ++ M ++ X ++ [c] ++ B)); [|rewrite mid_at_same by exact Hr; rewrite <- !app_assoc; reflexivity|reflexivity].
      rewrite Nat.add_sub. rewrite upd_upd.
      replace (mid_at p r) with ((C ++ Y ++ M ++ X) ++ c :: a :: B) by (rewrite Hm, <- !app_assoc; reflexivity).
      rewrite kind_at_app by (rewrite !app_length; cbn; lia). subst k.
      set (p2 := upd p r _).
      assert (Ht : forall x, tot p2 x = tot p x).
      { intros x. pose proof (tot_upd p r (C ++ a :: Y ++ M ++ X ++ [c] ++ B) x Hr) as E. rewrite Hm in E. unfold p2 in *. counts. }
      rewrite (IH p2 (a :: Y) c).
      * unfold p2. rewrite upd_upd. f_equal. rewrite <- !app_assoc. reflexivity.
      * unfold p2. rewrite !upd_length. exact Hr.
      * unfold p2. rewrite mid_at_same by exact Hr. rewrite <- !app_assoc. reflexivity.
      * exact He.
      * intros x Hin. unfold once. rewrite Ht. apply Hx. apply in_or_app. left. exact Hin.
      * intros x Ex. unfold once. rewrite Ht. apply Hb. exact Ex.
    + rewrite mid_at_same by exact Hr. rewrite <- !app_assoc. reflexivity.
    + intros b Eb. specialize (Hb b Eb). pose proof (tot_upd p r ((C ++ Y ++ M ++ X ++ [c]) ++ B) b Hr) as E. rewrite Hm in E. unfold once in *. counts.
Qed.

(** ** Swapping nodes *)
Lemma plan_ext (p q : plan) : length p = length q -> (forall r, r < length p -> mid_at p r = mid_at q r) -> p = q.
Proof. intros H He. apply (nth_ext p q [] []); auto. Qed.
Lemma swap_none x y l : cnt l x = 0 -> cnt l y = 0 -> map (swap_name x y) l = l.
Proof.
  induction l as [|a l IH]; intros Hx Hy; [reflexivity|]. rewrite cnt_cons in *. cbn [map]. rewrite IH by lia. f_equal.
  unfold swap_name. rewrite (eqb_sym a x), (eqb_sym a y). destruct (a_eqb x a); [lia|]. destruct (a_eqb y a); [lia|]. reflexivity.
Qed.
Lemma swap_fst x y : swap_name x y x = y.
Proof. unfold swap_name. rewrite eqb_refl. reflexivity. Qed.
Lemma swap_snd x y : swap_name x y y = x.
Proof. unfold swap_name. destruct (a_eqb y x) eqn:E; [apply a_eqb_eq in E; congruence|]. rewrite eqb_refl. reflexivity. Qed.
Lemma swp_length p x y : length (swp p x y) = length p.
Proof. apply map_length. Qed.
Lemma swp_mid p x y r : mid_at (swp p x y) r = map (swap_name x y) (mid_at p r).
Proof. unfold mid_at, swp. change (@nil activity) with (map (swap_name x y) []) at 1. apply map_nth. Qed.

Lemma swp_two p x y ru rv A B C D : ru <> rv -> ru < length p -> rv < length p ->
  mid_at p ru = A ++ x :: B -> mid_at p rv = C ++ y :: D -> once p x -> once p y -> x <> y ->
  swp p x y = upd (upd p ru (A ++ y :: B)) rv (C ++ x :: D).
Proof.
  intros Hne Hu Hv Mu Mv Hx Hy Hxy. apply plan_ext; [rewrite swp_length, !upd_length; reflexivity|].
  intros r _. rewrite swp_mid.
  assert (Zx : forall r', r' <> ru -> cnt (mid_at p r') x = 0).
  { intros r' Hr'. pose proof (tot_two p ru r' x ltac:(congruence)) as T. rewrite Mu in T. unfold once in Hx. counts. rewrite eqb_refl in T. lia. }
  assert (Zy : forall r', r' <> rv -> cnt (mid_at p r') y = 0).
  { intros r' Hr'. pose proof (tot_two p rv r' y ltac:(congruence)) as T. rewrite Mv in T. unfold once in Hy. counts. rewrite eqb_refl in T. lia. }
  destruct (Nat.eq_dec r rv) as [->|Hrv].
  - rewrite mid_at_same by (rewrite upd_length; exact Hv). specialize (Zx rv ltac:(congruence)).
    pose proof (cnt_le_tot p rv y) as T. unfold once in Hy. rewrite Mv in *. counts. rewrite eqb_refl in T.
    rewrite map_app. cbn [map]. rewrite !swap_none, swap_snd by lia. reflexivity.
  - rewrite mid_at_other by congruence. destruct (Nat.eq_dec r ru) as [->|Hru].
    + rewrite mid_at_same by exact Hu. specialize (Zy ru ltac:(congruence)).
      pose proof (cnt_le_tot p ru x) as T. unfold once in Hx. rewrite Mu in *. counts. rewrite eqb_refl in T.
      rewrite map_app. cbn [map]. rewrite !swap_none, swap_fst by lia. reflexivity.
    + rewrite mid_at_other by congruence. apply swap_none; auto.
Qed.
Lemma swap_name_sym x y a : swap_name x y a = swap_name y x a.
Proof.
  unfold swap_name. destruct (a_eqb a x) eqn:E1, (a_eqb a y) eqn:E2; try reflexivity.
  apply a_eqb_eq in E1, E2. congruence.
Qed.
Lemma swp_sym p x y : swp p x y = swp p y x.
Proof. unfold swp. apply map_ext. intros l. apply map_ext. intros a. apply swap_name_sym. Qed.
Lemma swp_one p x y r A M B : r < length p -> mid_at p r = A ++ x :: M ++ y :: B -> once p x -> once p y -> x <> y ->
  swp p x y = upd p r (A ++ y :: M ++ x :: B).
Proof.
  intros Hr Hm Hx Hy Hxy. apply plan_ext; [rewrite swp_length, upd_length; reflexivity|].
  intros r' _. rewrite swp_mid. destruct (Nat.eq_dec r' r) as [->|Hr'].
  - rewrite mid_at_same by exact Hr. pose proof (cnt_le_tot p r x) as T1. pose proof (cnt_le_tot p r y) as T2. unfold once in *.
    rewrite Hm in *. counts. rewrite !eqb_refl in *.
    rewrite map_app. cbn [map]. rewrite map_app. cbn [map]. rewrite !swap_none, swap_fst, swap_snd by lia. reflexivity.
  - rewrite mid_at_other by congruence. apply swap_none.
    + pose proof (tot_two p r r' x ltac:(congruence)) as T. rewrite Hm in T. unfold once in Hx. counts. rewrite !eqb_refl in *. lia.
    + pose proof (tot_two p r r' y ltac:(congruence)) as T. rewrite Hm in T. unfold once in Hy. counts. rewrite !eqb_refl in *. lia.
Qed.


Lemma swap_across : forall n (U V : list activity) p ru rv A B C D u v, ru <> rv -> ru < length p -> rv < length p ->
  length U = n -> length V = n -> mid_at p ru = A ++ (u :: U) ++ B -> mid_at p rv = C ++ (v :: V) ++ D ->
  (forall x, In x (u :: U) \/ In x (v :: V) -> once p x) ->
  swap_pairs (S n) p u v = upd (upd p ru (A ++ (v :: V) ++ B)) rv (C ++ (u :: U) ++ D).
Proof.
  induction n as [|n IH]; intros U V p ru rv A B C D u v Hne Hu Hv HU HV Mu Mv Ho;
    (assert (Huv : u <> v) by (intros ->; pose proof (tot_two p ru rv v Hne) as T; rewrite Mu, Mv in T;
       specialize (Ho v ltac:(left; left; reflexivity)); unfold once in Ho; cbn [app] in T; counts; rewrite eqb_refl in T; lia)).
  - destruct U; [|discriminate]. destruct V; [|discriminate]. cbn [length swap_pairs app] in *.
    rewrite (swp_two p u v ru rv A B C D) by first [assumption | apply Ho; left; left; reflexivity | apply Ho; right; left; reflexivity].
    destruct (find_act u _) as [[? ?]|]; [|reflexivity]. destruct (find_act v _) as [[? ?]|]; [|reflexivity].
    destruct (kind_at _ _); [reflexivity|reflexivity|]. destruct (kind_at _ _); reflexivity.
  - destruct U as [|u' U]; [discriminate|]. destruct V as [|v' V]; [discriminate|]. cbn [length] in HU, HV.
    remember (S n) as k. cbn [swap_pairs]. 
    rewrite (swp_two p u v ru rv A ((u' :: U) ++ B) C ((v' :: V) ++ D)) by first [assumption | apply Ho; left; left; reflexivity | apply Ho; right; left; reflexivity].
    set (p1 := upd _ _ _).
    assert (M1 : mid_at p1 ru = A ++ v :: u' :: U ++ B) by (unfold p1; rewrite mid_at_other by congruence; apply mid_at_same; exact Hu).
    assert (M2 : mid_at p1 rv = C ++ u :: v' :: V ++ D) by (unfold p1; apply mid_at_same; rewrite upd_length; exact Hv).
    assert (Hlen : length p1 = length p) by (unfold p1; rewrite !upd_length; reflexivity).
    assert (Ht : forall x, tot p1 x = tot p x).
    { intros x. unfold p1. pose proof (tot_two_upd p ru rv (A ++ v :: (u' :: U) ++ B) (C ++ u :: (v' :: V) ++ D) x Hu Hv Hne) as E.
      rewrite Mu, Mv in E. cbn [app] in *. counts. }
    rewrite (find_act_at u p1 rv C (v' :: V ++ D) (length C + 1)) by (rewrite ?Hlen, ?Ht; auto; apply Ho; left; left; reflexivity).
    rewrite (find_act_at v p1 ru A (u' :: U ++ B) (length A + 1)) by (rewrite ?Hlen, ?Ht; auto; apply Ho; right; left; reflexivity).
    rewrite M1, M2.
    replace (C ++ u :: v' :: V ++ D) with ((C ++ [u]) ++ v' :: V ++ D) by (rewrite <- app_assoc; reflexivity).
    replace (A ++ v :: u' :: U ++ B) with ((A ++ [v]) ++ u' :: U ++ B) by (rewrite <- app_assoc; reflexivity).
    rewrite !kind_at_app by (rewrite app_length; reflexivity). subst k.
    rewrite (IH V U p1 rv ru (C ++ [u]) D (A ++ [v]) B v' u'); try (rewrite ?Hlen; auto; lia).
    + rewrite (upd_comm p1) by congruence. unfold p1. rewrite upd2_same by exact Hne. rewrite <- !app_assoc. reflexivity.
    + rewrite M2, <- !app_assoc. reflexivity.
    + rewrite M1, <- !app_assoc. reflexivity.
    + intros x Hx. unfold once. rewrite Ht. apply Ho. destruct Hx as [Hx|Hx]; [right|left]; right; exact Hx.
Qed.
(** Within a route: [first] tells whether the first argument stands before the second. *)
Lemma swap_within : forall n (first : bool) (U V : list activity) p r A M B u v, r < length p ->
  length U = n -> length V = n -> mid_at p r = A ++ (u :: U) ++ M ++ (v :: V) ++ B ->
  (forall x, In x (u :: U) \/ In x (v :: V) -> once p x) ->
  swap_pairs (S n) p (if first then u else v) (if first then v else u) = upd p r (A ++ (v :: V) ++ M ++ (u :: U) ++ B).
Proof.
  induction n as [|n IH]; intros first U V p r A M B u v Hr HU HV Hm Ho;
    (assert (Huv : u <> v) by (intros ->; pose proof (cnt_le_tot p r v) as T; rewrite Hm in T;
       specialize (Ho v ltac:(left; left; reflexivity)); unfold once in Ho; cbn [app] in T; counts; rewrite eqb_refl in T; lia)).
  - destruct U; [|discriminate]. destruct V; [|discriminate]. cbn [length swap_pairs app] in *.
    assert (E : swp p (if first then u else v) (if first then v else u) = swp p u v) by (destruct first; [reflexivity|apply swp_sym]).
    rewrite E, (swp_one p u v r A M B) by first [assumption | apply Ho; left; left; reflexivity | apply Ho; right; left; reflexivity].
    destruct (find_act _ _) as [[? ?]|]; [|reflexivity]. destruct (find_act _ _) as [[? ?]|]; [|reflexivity].
    destruct (kind_at _ _); [reflexivity|reflexivity|]. destruct (kind_at _ _); reflexivity.
  - destruct U as [|u' U]; [discriminate|]. destruct V as [|v' V]; [discriminate|]. cbn [length] in HU, HV.
    remember (S n) as k. cbn [swap_pairs].
    assert (E : swp p (if first then u else v) (if first then v else u) = swp p u v) by (destruct first; [reflexivity|apply swp_sym]).
    rewrite E, (swp_one p u v r A ((u' :: U) ++ M) ((v' :: V) ++ B)).
    2: exact Hr. 2: { rewrite Hm, <- !app_assoc. reflexivity. } 2, 3: first [apply Ho; left; left; reflexivity | apply Ho; right; left; reflexivity]. 2: exact Huv.
    set (p1 := upd _ _ _).
    assert (M1 : mid_at p1 r = A ++ v :: ((u' :: U) ++ M) ++ u :: (v' :: V) ++ B) by (unfold p1; apply mid_at_same; exact Hr).
    assert (Hlen : length p1 = length p) by (unfold p1; rewrite !upd_length; reflexivity).
    assert (Ht : forall x, tot p1 x = tot p x).
    { intros x. unfold p1. pose proof (tot_upd p r (A ++ v :: ((u' :: U) ++ M) ++ u :: (v' :: V) ++ B) x Hr) as E'.
      rewrite Hm in E'. cbn [app] in *. counts. }
    assert (F1 : find_act v p1 = Some (r, length A + 1)).
    { apply (find_act_at v p1 r A (((u' :: U) ++ M) ++ u :: (v' :: V) ++ B)); rewrite ?Hlen, ?Ht; auto; apply Ho; right; left; reflexivity. }
    assert (F2 : find_act u p1 = Some (r, length (A ++ v :: (u' :: U) ++ M) + 1)).
    { apply (find_act_at u p1 r (A ++ v :: (u' :: U) ++ M) ((v' :: V) ++ B)); rewrite ?Hlen, ?Ht; auto; [|apply Ho; left; left; reflexivity].
      rewrite M1. assoc. reflexivity. }
    assert (K1 : kind_at (mid_at p1 r) (length A + 1 + 1) = KAct u').
    { rewrite M1. replace (A ++ v :: ((u' :: U) ++ M) ++ u :: (v' :: V) ++ B) with ((A ++ [v]) ++ u' :: (U ++ M) ++ u :: (v' :: V) ++ B)
        by (assoc; reflexivity).
      apply kind_at_app. lens. }
    assert (K2 : kind_at (mid_at p1 r) (length (A ++ v :: (u' :: U) ++ M) + 1 + 1) = KAct v').
    { rewrite M1. replace (A ++ v :: ((u' :: U) ++ M) ++ u :: (v' :: V) ++ B) with (((A ++ v :: (u' :: U) ++ M) ++ [u]) ++ v' :: V ++ B)
        by (assoc; reflexivity).
      apply kind_at_app. lens. }
    subst k.
    assert (Hfin : swap_pairs (S n) p1 (if negb first then u' else v') (if negb first then v' else u')
                   = upd p r (A ++ (v :: v' :: V) ++ M ++ (u :: u' :: U) ++ B)).
    { rewrite (IH (negb first) U V p1 r (A ++ [v]) (M ++ [u]) B u' v'); try (rewrite ?Hlen; auto; lia).
      - unfold p1. rewrite upd_upd. assoc. reflexivity.
      - rewrite M1. assoc. reflexivity.
      - intros x Hx. unfold once. rewrite Ht. apply Ho. destruct Hx as [Hx|Hx]; [left|right]; right; exact Hx. }
    destruct first; cbn [negb] in *; rewrite F1, F2, K1, K2; exact Hfin.
Qed.

(** ** Moving tails *)
Lemma move_tail_ok : forall T p r r' A C E, r <> r' -> r < length p -> r' < length p ->
  mid_at p r = A ++ T -> mid_at p r' = C ++ E ->
  move_tail (length T) p r (length A) r' (length C + 1) = upd (upd p r A) r' (C ++ T ++ E).
Proof.
  induction T as [|t T IH]; intros p r r' A C E Hne Hr Hr' Hm Hm'.
  - cbn [length move_tail app]. rewrite app_nil_r in Hm. rewrite (upd_same_id p r A Hm), (upd_same_id p r' _ Hm'). reflexivity.
  - cbn [length move_tail]. rewrite Hm, kind_at_app by reflexivity.
    rewrite (rem_eq p r _ t A T) by auto.
    rewrite (ins_eq (upd p r (A ++ T)) r' _ t C E) by (auto; rewrite mid_at_other by exact Hne; exact Hm').
    set (p2 := upd _ _ _).
    replace (S (length C + 1)) with (length (C ++ [t]) + 1) by (rewrite app_length; cbn; lia).
    rewrite (IH p2 r r' A (C ++ [t]) E); auto.
    + unfold p2. rewrite upd2_same by exact Hne. rewrite <- app_assoc. reflexivity.
    + unfold p2. rewrite !upd_length. exact Hr.
    + unfold p2. rewrite !upd_length. exact Hr'.
    + unfold p2. rewrite mid_at_other by congruence. apply mid_at_same. exact Hr.
    + unfold p2. rewrite mid_at_same by (rewrite upd_length; exact Hr'). rewrite <- app_assoc. reflexivity.
Qed.
