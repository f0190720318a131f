(** Lists of activities, plans and positions. *)
From Verif Require Import Base DurationSegment Data LoadSegment SearchRoute Route RouteSpec Cost SearchSpace SearchNodes SearchSeq SearchLoad Ops.
Local Open Scope nat_scope.

Lemma act_dec (a b : activity) : {a = b} + {a <> b}.
Proof. decide equality; apply Nat.eq_dec. Defined.

(** ** Counting *)
Definition cnt (l : list activity) (a : activity) : nat := length (filter (a_eqb a) l).
Definition tot (p : plan) (a : activity) : nat := cnt (concat p) a.

Lemma eqb_refl a : a_eqb a a = true.
Proof. apply a_eqb_eq. reflexivity. Qed.
Lemma eqb_false a b : a <> b -> a_eqb a b = false.
Proof. intros H. destruct (a_eqb a b) eqn:E; [|reflexivity]. apply a_eqb_eq in E. congruence. Qed.
Lemma eqb_sym a b : a_eqb a b = a_eqb b a.
Proof.
  destruct (a_eqb a b) eqn:E; symmetry.
  - apply a_eqb_eq in E. subst. apply eqb_refl.
  - destruct (a_eqb b a) eqn:E'; [|reflexivity]. apply a_eqb_eq in E'. subst. rewrite eqb_refl in E. discriminate.
Qed.

Lemma cnt_nil a : cnt [] a = 0.
Proof. reflexivity. Qed.
Lemma cnt_cons x l a : cnt (x :: l) a = (if a_eqb a x then 1 else 0) + cnt l a.
Proof. unfold cnt. cbn [filter]. destruct (a_eqb a x); reflexivity. Qed.
Lemma cnt_app l l' a : cnt (l ++ l') a = cnt l a + cnt l' a.
Proof. unfold cnt. rewrite filter_app, app_length. reflexivity. Qed.
Lemma cnt_In l a : In a l <-> 1 <= cnt l a.
Proof.
  induction l as [|x l IH]; [cbn; split; [tauto|lia]|]. rewrite cnt_cons. cbn [In]. rewrite IH.
  destruct (a_eqb a x) eqn:E.
  - apply a_eqb_eq in E. subst. split; [lia|]. auto.
  - split; [|intros; right; lia]. intros [->|H]; [rewrite eqb_refl in E; discriminate|lia].
Qed.
Lemma cnt_notIn l a : ~ In a l <-> cnt l a = 0.
Proof. rewrite cnt_In. lia. Qed.
Lemma cnt_self a l : cnt (a :: l) a = S (cnt l a).
Proof. rewrite cnt_cons, eqb_refl. reflexivity. Qed.

(** ** Edits of a plan *)
Lemma upd_length {A} (l : list A) i x : length (upd l i x) = length l.
Proof. revert i; induction l as [|y l IH]; intros [|i]; cbn; auto. Qed.
Lemma mid_at_upd p r m r' : r < length p -> mid_at (upd p r m) r' = if r =? r' then m else mid_at p r'.
Proof.
  unfold mid_at. revert r r'; induction p as [|l p IH]; intros [|r] [|r'] H; cbn in *; try lia; auto.
  apply IH. lia.
Qed.
Lemma mid_at_same p r m : r < length p -> mid_at (upd p r m) r = m.
Proof. intros H. rewrite mid_at_upd, Nat.eqb_refl by exact H. reflexivity. Qed.
Lemma mid_at_other p r m r' : r <> r' -> mid_at (upd p r m) r' = mid_at p r'.
Proof.
  unfold mid_at. revert r r'; induction p as [|l p IH]; intros [|r] [|r'] H; cbn in *; try lia; auto.
Qed.
Lemma upd_upd {A} (p : list A) r m m' : upd (upd p r m) r m' = upd p r m'.
Proof. revert r; induction p as [|l p IH]; intros [|r]; cbn; [reflexivity|reflexivity|reflexivity|]. rewrite IH. reflexivity. Qed.
Lemma upd_comm {A} (p : list A) r r' m m' : r <> r' -> upd (upd p r m) r' m' = upd (upd p r' m') r m.
Proof.
  revert r r'; induction p as [|l p IH]; intros [|r] [|r'] H; cbn; try reflexivity; try lia. rewrite IH by lia. reflexivity.
Qed.
Lemma upd_mid p r : upd p r (mid_at p r) = p.
Proof.
  unfold mid_at. revert r; induction p as [|l p IH]; intros [|r]; cbn; try reflexivity. rewrite IH. reflexivity.
Qed.
Lemma tot_upd p r m a : r < length p -> tot (upd p r m) a + cnt (mid_at p r) a = tot p a + cnt m a.
Proof.
  unfold tot, mid_at. revert r; induction p as [|l p IH]; intros [|r] H; cbn [length] in H; [lia|lia| |].
  - cbn [upd concat nth]. rewrite !cnt_app. lia.
  - cbn [upd concat nth]. rewrite !cnt_app. specialize (IH r ltac:(lia)). lia.
Qed.
Lemma cnt_le_tot p r a : cnt (mid_at p r) a <= tot p a.
Proof.
  unfold tot, mid_at. revert r; induction p as [|l p IH]; intros [|r]; cbn [concat nth]; rewrite ?cnt_app; cbn; try lia.
  specialize (IH r). lia.
Qed.
Lemma tot_two p r r' a : r <> r' -> cnt (mid_at p r) a + cnt (mid_at p r') a <= tot p a.
Proof.
  intros H. destruct (Nat.lt_ge_cases r (length p)) as [Hr|Hr].
  - pose proof (tot_upd p r [] a Hr) as E. rewrite cnt_nil in E. pose proof (cnt_le_tot (upd p r []) r' a) as L.
    rewrite mid_at_other in L by exact H. lia.
  - unfold mid_at at 1. rewrite nth_overflow by exact Hr. apply cnt_le_tot.
Qed.
Lemma tot_In p r a : In a (mid_at p r) -> 1 <= tot p a.
Proof. intros H. apply cnt_In in H. pose proof (cnt_le_tot p r a). lia. Qed.

(** ** Positions *)
Lemma index_of_spec a l i : index_of a l = Some i -> exists A B, l = A ++ a :: B /\ i = length A /\ cnt A a = 0.
Proof.
  revert i; induction l as [|x l IH]; intros i H; cbn in H; [discriminate|].
  destruct (a_eqb x a) eqn:E.
  - apply a_eqb_eq in E. subst. injection H as <-. exists [], l. auto.
  - destruct (index_of a l) as [k|]; [|discriminate]. injection H as <-.
    destruct (IH k eq_refl) as (A & B & -> & -> & Hc). exists (x :: A), B. repeat split.
    rewrite cnt_cons, eqb_sym, E. exact Hc.
Qed.
Lemma index_of_at a A B : cnt A a = 0 -> index_of a (A ++ a :: B) = Some (length A).
Proof.
  induction A as [|x A IH]; intros H; cbn [app index_of length].
  - rewrite eqb_refl. reflexivity.
  - rewrite cnt_cons in H. rewrite eqb_sym. destruct (a_eqb a x); [lia|]. rewrite IH by lia. reflexivity.
Qed.
Lemma index_of_none a l : index_of a l = None <-> cnt l a = 0.
Proof.
  induction l as [|x l IH]; [cbn; tauto|]. cbn [index_of]. rewrite cnt_cons, eqb_sym.
  destruct (a_eqb a x); [split; [discriminate|lia]|]. destruct (index_of a l); cbn; rewrite <- ?IH; split; try discriminate; auto.
Qed.

Lemma find_act_spec a p r pos : find_act a p = Some (r, pos) ->
  exists A B, mid_at p r = A ++ a :: B /\ pos = length A + 1 /\ r < length p.
Proof.
  revert r; induction p as [|l p IH]; intros r H; cbn in H; [discriminate|].
  destruct (index_of a l) as [i|] eqn:E.
  - injection H as <- <-. destruct (index_of_spec _ _ _ E) as (A & B & -> & -> & _). exists A, B.
    cbn [mid_at nth length]. repeat split; lia.
  - destruct (find_act a p) as [[r' pos']|]; [|discriminate]. cbn in H. injection H as <- <-.
    destruct (IH r' eq_refl) as (A & B & H1 & H2 & H3). exists A, B. cbn [length]. repeat split; [exact H1|exact H2|lia].
Qed.
Lemma find_act_none a p : find_act a p = None <-> tot p a = 0.
Proof.
  unfold tot. induction p as [|l p IH]; [cbn; tauto|]. cbn [find_act concat]. rewrite cnt_app.
  destruct (index_of a l) as [i|] eqn:E.
  - split; [discriminate|]. intros H. assert (cnt l a = 0) by lia. apply index_of_none in H0. congruence.
  - apply index_of_none in E. destruct (find_act a p) as [[r x]|]; cbn; split; intros H; try discriminate.
    + exfalso. destruct IH as [_ IH]. specialize (IH ltac:(lia)). discriminate.
    + destruct IH as [IH _]. specialize (IH eq_refl). lia.
    + reflexivity.
Qed.
Lemma find_act_at a p r A B pos : r < length p -> mid_at p r = A ++ a :: B -> tot p a <= 1 ->
  pos = length A + 1 -> find_act a p = Some (r, pos).
Proof.
  unfold mid_at, tot. intros H E Ht ->. revert r H E Ht. induction p as [|l p IH]; intros [|r] H E Ht; cbn [length] in H; [lia|lia| |].
  - cbn [nth] in E. subst l. cbn [find_act concat] in *. rewrite !cnt_app, cnt_self in Ht.
    rewrite index_of_at by lia. f_equal. f_equal. lia.
  - cbn [nth] in E. cbn [find_act concat] in *. rewrite cnt_app in Ht.
    assert (Hp : 1 <= cnt (concat p) a).
    { pose proof (cnt_le_tot p r a) as L. unfold mid_at, tot in L. rewrite E, cnt_app, cnt_self in L. lia. }
    destruct (index_of a l) as [i|] eqn:Ei.
    + exfalso. destruct (index_of_spec _ _ _ Ei) as (A' & B' & -> & _). rewrite cnt_app, cnt_self in Ht. lia.
    + rewrite (IH r) by (auto; lia). reflexivity.
Qed.
Lemma isPlanned_tot p a : isPlanned p a = (1 <=? tot p a).
Proof.
  unfold isPlanned. destruct (find_act a p) as [[r x]|] eqn:E.
  - destruct (find_act_spec _ _ _ _ E) as (A & B & Hm & _). symmetry. apply Nat.leb_le.
    apply (tot_In p r). rewrite Hm. apply in_elt.
  - apply find_act_none in E. rewrite E. reflexivity.
Qed.
Lemma planned_where p a : 1 <= tot p a -> exists r A B, r < length p /\ mid_at p r = A ++ a :: B.
Proof.
  intros H. destruct (find_act a p) as [[r x]|] eqn:E.
  - destruct (find_act_spec _ _ _ _ E) as (A & B & Hm & _ & Hr). eauto.
  - apply find_act_none in E. lia.
Qed.

Lemma insert_at_app {A} (l l' : list A) x n : n = length l -> insert_at n x (l ++ l') = l ++ x :: l'.
Proof. intros ->. unfold insert_at. rewrite firstn_app, firstn_all, Nat.sub_diag, skipn_app, skipn_all, Nat.sub_diag. cbn. rewrite app_nil_r. reflexivity. Qed.
Lemma remove_at_app {A} (l l' : list A) x n : n = length l -> remove_at n (l ++ x :: l') = l ++ l'.
Proof.
  intros ->. unfold remove_at. rewrite firstn_app, firstn_all, Nat.sub_diag. cbn [firstn]. rewrite app_nil_r. f_equal.
  replace (l ++ x :: l') with ((l ++ [x]) ++ l') by (rewrite <- app_assoc; reflexivity).
  rewrite skipn_app, skipn_all2 by (rewrite app_length; cbn; lia). rewrite app_length. cbn [length app].
  replace (S (length l) - (length l + 1)) with 0 by lia. reflexivity.
Qed.
Lemma ins_eq p r pos a A B : mid_at p r = A ++ B -> pos = length A + 1 -> ins p r pos a = upd p r (A ++ a :: B).
Proof. intros H ->. unfold ins. rewrite H. rewrite insert_at_app by lia. reflexivity. Qed.
Lemma rem_eq p r pos a A B : mid_at p r = A ++ a :: B -> pos = length A + 1 -> rem p r pos = upd p r (A ++ B).
Proof. intros H ->. unfold rem. rewrite H. rewrite remove_at_app by lia. reflexivity. Qed.

Lemma kind_at_app A a B pos : pos = length A + 1 -> kind_at (A ++ a :: B) pos = KAct a.
Proof.
  intros ->. rewrite Nat.add_1_r. cbn [kind_at]. rewrite nth_error_app2, Nat.sub_diag by lia. reflexivity.
Qed.
Lemma kind_at_end A pos : pos = length A + 1 -> kind_at A pos = KEnd.
Proof.
  intros ->. rewrite Nat.add_1_r. cbn [kind_at]. destruct (nth_error A (length A)) eqn:E; [|reflexivity].
  assert (H : nth_error A (length A) <> None) by congruence. apply nth_error_Some in H. lia.
Qed.
