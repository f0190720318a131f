(** Matrix.h and the conversion of two-dimensional arrays, bindings.h:29-73. *)
From Verif Require Import Base Data.

(** Matrix.h:62-66 *)
Definition m_fill (rows cols : nat) (x : Z) : matrix := mk_matrix rows cols (repeat x (rows * cols)).
(** Matrix.h:75-79, writing through the returned reference. *)
Definition m_set (m : matrix) (row col : nat) (x : Z) : matrix :=
  mk_matrix (m_rows m) (m_cols m) (upd (m_data m) (m_cols m * row + col) x).
(** Matrix.h:121 *)
Definition m_size (m : matrix) : nat := length (m_data m).
(** Matrix.h:116-119; undefined for an empty matrix. *)
Definition m_max (m : matrix) : Z :=
  match m_data m with [] => 0 | x :: more => fold_left Z.max more x end.

(** bindings.h:29-51: a C-contiguous array of the given shape, row after row; an array without
    elements becomes the default constructed, 0 x 0 matrix. *)
Definition m_of_array (cols : nat) (a : list (list Z)) : matrix :=
  let data := concat a in
  match data with
  | [] => mk_matrix 0 0 []
  | _ => mk_matrix (length a) cols data
  end.
(** bindings.h:53-73: the array view of a matrix; row strides are the number of columns. *)
Definition m_to_array (m : matrix) : list (list Z) :=
  map (fun i => firstn (m_cols m) (skipn (m_cols m * i) (m_data m))) (seq 0 (m_rows m)).

Definition m_ok (m : matrix) : Prop := length (m_data m) = (m_cols m * m_rows m)%nat.
Definition rect (cols : nat) (a : list (list Z)) : Prop := Forall (fun r => length r = cols) a.

Lemma upd_length {A} (l : list A) i x : length (upd l i x) = length l.
Proof. revert i. induction l as [|y l IH]; intros [|i]; cbn; auto. Qed.
Lemma upd_nth {A} (l : list A) i j x dft : (i < length l)%nat ->
  nth j (upd l i x) dft = if Nat.eqb i j then x else nth j l dft.
Proof.
  revert i j. induction l as [|y l IH]; intros [|i] [|j] Hi; cbn in *; try lia; try reflexivity.
  apply IH. lia.
Qed.

Theorem matrix_set_get m i j x : m_ok m -> (i < m_rows m)%nat -> (j < m_cols m)%nat ->
  m_ok (m_set m i j x) /\ m_at (m_set m i j x) i j = x /\
  forall i' j', (i' < m_rows m)%nat -> (j' < m_cols m)%nat -> (i', j') <> (i, j) ->
    m_at (m_set m i j x) i' j' = m_at m i' j'.
Proof.
  unfold m_ok. intros Hm Hi Hj. assert (Hk : (m_cols m * i + j < length (m_data m))%nat) by nia.
  unfold m_at, m_set. cbn [m_data m_cols m_rows]. rewrite upd_length. split; [exact Hm|].
  rewrite upd_nth by exact Hk. rewrite Nat.eqb_refl. split; [reflexivity|].
  intros i' j' Hi' Hj' Hne. rewrite upd_nth by exact Hk.
  destruct (Nat.eqb_spec (m_cols m * i + j) (m_cols m * i' + j')) as [E|]; [exfalso|reflexivity].
  apply Hne. assert (i = i') by nia. subst i'. f_equal. lia.
Qed.

Theorem matrix_fill rows cols x : m_ok (m_fill rows cols x) /\
  forall i j, (i < rows)%nat -> (j < cols)%nat -> m_at (m_fill rows cols x) i j = x.
Proof.
  unfold m_ok, m_fill, m_at. cbn [m_data m_cols m_rows]. rewrite repeat_length. split; [lia|].
  intros i j Hi Hj. assert (G : forall k n, (k < n)%nat -> nth k (repeat x n) 0 = x).
  { clear. induction k as [|k IH]; intros [|n] H; cbn; try lia. apply IH. lia. }
  apply G. nia.
Qed.

Lemma concat_rect cols a : rect cols a -> length (concat a) = (cols * length a)%nat.
Proof. induction 1 as [|r a Hr Ha IH]; [cbn; lia|]. cbn [concat length]. rewrite app_length, IH, Hr. lia. Qed.
Lemma concat_nth cols a i j : rect cols a -> (j < cols)%nat ->
  nth (cols * i + j) (concat a) 0 = nth j (nth i a []) 0.
Proof.
  intros Ha Hj. revert i. induction Ha as [|r a Hr Ha IH]; intros i.
  - cbn. destruct (cols * i + j)%nat, i, j; reflexivity.
  - cbn [concat]. destruct i as [|i].
    + rewrite app_nth1 by lia. rewrite Nat.mul_0_r. reflexivity.
    + rewrite app_nth2 by nia. cbn [nth]. rewrite <- IH. f_equal. nia.
Qed.

(** Entry [i, j] of the array becomes entry [(i, j)] of the matrix. *)
Theorem matrix_of_array cols a : rect cols a ->
  let m := m_of_array cols a in
  m_ok m /\
  (forall i j, (i < length a)%nat -> (j < cols)%nat -> m_at m i j = nth j (nth i a []) 0) /\
  ((0 < length a)%nat -> (0 < cols)%nat -> m_rows m = length a /\ m_cols m = cols /\ m_to_array m = a).
Proof.
  intros Ha. cbv zeta. pose proof (concat_rect cols a Ha) as Hl. unfold m_of_array.
  destruct (concat a) as [|z more] eqn:E.
  - cbn in Hl. split; [reflexivity|]. split; [intros; nia|intros; nia].
  - rewrite <- E in *. split; [exact Hl|]. split.
    + intros i j Hi Hj. unfold m_at. cbn [m_cols m_data]. apply concat_nth; assumption.
    + intros _ _. split; [reflexivity|]. split; [reflexivity|]. unfold m_to_array. cbn [m_cols m_rows m_data].
      clear E Hl. induction Ha as [|r a Hr Ha IH]; [reflexivity|].
      cbn [length seq map concat]. f_equal.
      * rewrite Nat.mul_0_r. cbn [skipn]. rewrite firstn_app, Hr, Nat.sub_diag, <- Hr, firstn_all. cbn.
        apply app_nil_r.
      * rewrite <- seq_shift, map_map. etransitivity; [|exact IH]. apply map_ext. intros i.
        replace (cols * S i)%nat with (length r + cols * i)%nat by lia.
        rewrite skipn_app. rewrite skipn_all2 by lia. cbn [app].
        replace (length r + cols * i - length r)%nat with (cols * i)%nat by lia. reflexivity.
Qed.

Lemma fold_max_le l : forall x, x <= fold_left Z.max l x /\ (forall y, In y l -> y <= fold_left Z.max l x) /\
  (fold_left Z.max l x = x \/ In (fold_left Z.max l x) l).
Proof.
  induction l as [|z l IH]; intros x; [cbn; split; [lia|]; split; [intros ? []|auto]|].
  cbn [fold_left]. destruct (IH (Z.max x z)) as (I1 & I2 & I3). split; [lia|]. split.
  - intros y [<-|Hy]; [lia|auto].
  - destruct I3 as [I3|I3]; [|right; right; exact I3]. rewrite I3.
    destruct (Z.max_spec x z) as [[_ ->]|[_ ->]]; [right; left; reflexivity|left; reflexivity].
Qed.

Lemma entry_at m y : m_ok m -> In y (m_data m) ->
  exists i j, (i < m_rows m)%nat /\ (j < m_cols m)%nat /\ m_at m i j = y.
Proof.
  intros Hm Hy. apply (In_nth _ _ 0) in Hy. destruct Hy as (k & Hk & <-). unfold m_ok in Hm. rewrite Hm in Hk.
  assert (Hc : m_cols m <> 0%nat) by (intros E; rewrite E in Hk; cbn in Hk; lia).
  exists (k / m_cols m)%nat, (k mod m_cols m)%nat.
  split; [apply Nat.div_lt_upper_bound; lia|]. split; [apply Nat.mod_upper_bound; exact Hc|].
  unfold m_at. rewrite <- Nat.div_mod by exact Hc. reflexivity.
Qed.

(** [max()] is the largest entry. *)
Theorem matrix_max m : m_ok m -> (0 < m_rows m)%nat -> (0 < m_cols m)%nat ->
  (forall i j, (i < m_rows m)%nat -> (j < m_cols m)%nat -> m_at m i j <= m_max m) /\
  exists i j, (i < m_rows m)%nat /\ (j < m_cols m)%nat /\ m_at m i j = m_max m.
Proof.
  intros Hm Hr Hc. assert (Hin : forall i j, (i < m_rows m)%nat -> (j < m_cols m)%nat -> In (m_at m i j) (m_data m)).
  { intros i j Hi Hj. apply nth_In. unfold m_ok in Hm. rewrite Hm. nia. }
  pose proof (entry_at m (m_max m) Hm) as Hat. unfold m_max in *.
  destruct (m_data m) as [|x l] eqn:E; [unfold m_ok in Hm; rewrite E in Hm; cbn in Hm; nia|].
  destruct (fold_max_le l x) as (F1 & F2 & F3). split.
  - intros i j Hi Hj. destruct (Hin i j Hi Hj) as [<-|H]; [exact F1|auto].
  - apply Hat. destruct F3 as [->|F3]; [left; reflexivity|right; exact F3].
Qed.
