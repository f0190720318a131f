(** Model of pyvrp/RingBuffer.py and proof that it keeps the values last written. *)
From Verif Require Import Base.

Section Ring.
Context {T : Type}.

(** RingBuffer.py:17-19 *)
Record ring := mk_ring { rb_buffer : list (option T); rb_idx : nat }.
Definition rb_make (maxlen : nat) : ring := mk_ring (repeat None maxlen) 0.

(** RingBuffer.py:21-23 *)
Definition rb_maxlen (b : ring) : nat := length (rb_buffer b).

(** RingBuffer.py:25-29 *)
Definition is_some (x : option T) : bool := match x with Some _ => true | None => false end.
Definition rb_len (b : ring) : nat := length (filter is_some (rb_buffer b)).

(** RingBuffer.py:31-36 *)
Definition rb_clear (b : ring) : ring := mk_ring (repeat None (rb_maxlen b)) 0.

(** RingBuffer.py:38-44.  With [maxlen = 0] the code raises ZeroDivisionError here and in
    [peek]; the theorems assume a positive length. *)
Definition rb_append (b : ring) (x : T) : ring :=
  mk_ring (upd (rb_buffer b) (rb_idx b mod rb_maxlen b) (Some x)) (S (rb_idx b)).

(** RingBuffer.py:46-51 *)
Definition rb_peek (b : ring) : option T := nth (rb_idx b mod rb_maxlen b) (rb_buffer b) None.

(** RingBuffer.py:53-57 *)
Definition rb_skip (b : ring) : ring := mk_ring (rb_buffer b) (S (rb_idx b)).

Inductive ring_op := RAppend (x : T) | RSkip | RClear.
Definition rb_do (b : ring) (o : ring_op) : ring :=
  match o with RAppend x => rb_append b x | RSkip => rb_skip b | RClear => rb_clear b end.
Definition rb_run (b : ring) (ops : list ring_op) : ring := fold_left rb_do ops b.

(** ** Specification: the list of what was written, oldest first.  Skipping leaves the value
    written [n] steps ago in place, as if it had been written again. *)
Definition ago (n : nat) (w : list (option T)) : option T :=
  if (n <=? length w)%nat then nth (length w - n) w None else None.
Definition spec_do (n : nat) (w : list (option T)) (o : ring_op) : list (option T) :=
  match o with
  | RAppend x => w ++ [Some x]
  | RSkip => w ++ [ago n w]
  | RClear => []
  end.
Definition written (n : nat) (ops : list ring_op) : list (option T) := fold_left (spec_do n) ops [].

(** ** Facts *)
Lemma upd_length {A} (l : list A) i x : length (upd l i x) = length l.
Proof. revert i. induction l as [|y l IH]; intros [|i]; cbn; auto. Qed.
Lemma upd_nth {A} (l : list A) i j x dft : (i < length l)%nat ->
  nth j (upd l i x) dft = if Nat.eqb i j then x else nth j l dft.
Proof.
  revert i j. induction l as [|y l IH]; intros [|i] [|j] Hi; cbn in *; try lia; try reflexivity.
  apply IH. lia.
Qed.

(** What slot [i] holds: the last value written at a time congruent to [i]. *)
Fixpoint slot (n i : nat) (w : list (option T)) (k : nat) : option T :=   (* [k]: times below *)
  match k with
  | O => None
  | S k' => if Nat.eqb (k' mod n) i then nth k' w None else slot n i w k'
  end.

Lemma slot_app n i w w' k : (k <= length w)%nat -> slot n i (w ++ w') k = slot n i w k.
Proof.
  induction k as [|k IH]; intros Hk; [reflexivity|]. cbn [slot].
  rewrite IH by lia. rewrite app_nth1 by lia. reflexivity.
Qed.

(** Going back [n] steps from time [k] finds the slot of [k]. *)
Lemma slot_ago n w j : forall k, (0 < n)%nat -> (j < n)%nat -> (n <= k + n)%nat ->
  (k <= length w)%nat ->
  slot n ((k + j) mod n) w k = if (n <=? k + j)%nat then nth (k + j - n) w None else None.
Proof.
  intros k Hn Hj _. remember (n - j)%nat as i eqn:Ei. revert j Hj Ei k.
  induction i as [|i IH]; intros j Hj Ei k Hk; [lia|].
  destruct k as [|k]; cbn [slot].
  - replace (n <=? 0 + j)%nat with false by (symmetry; apply Nat.leb_gt; lia). reflexivity.
  - destruct (Nat.eqb_spec (k mod n) ((S k + j) mod n)) as [E|E].
    + assert (Hd : (S j = n)%nat).
      { pose proof (Nat.div_mod k n ltac:(lia)). pose proof (Nat.div_mod (S k + j) n ltac:(lia)).
        rewrite <- E in H0. assert (S j = n * ((S k + j) / n - k / n))%nat by nia.
        destruct ((S k + j) / n - k / n)%nat as [|[|q]]; nia. }
      replace (n <=? S k + j)%nat with true by (symmetry; apply Nat.leb_le; lia).
      f_equal. lia.
    + assert (Hd : (S j <> n)%nat).
      { intros Hd. apply E. replace (S k + j)%nat with (k + 1 * n)%nat by lia.
        rewrite Nat.mod_add by lia. reflexivity. }
      replace (S k + j)%nat with (k + S j)%nat by lia.
      rewrite (IH (S j)) by lia. reflexivity.
Qed.

Lemma slot_now n w : (0 < n)%nat -> slot n (length w mod n) w (length w) = ago n w.
Proof.
  intros Hn. pose proof (slot_ago n w 0 (length w) Hn Hn ltac:(lia) (le_n _)) as H.
  rewrite Nat.add_0_r in H. exact H.
Qed.

Lemma run_inv n ops : (0 < n)%nat ->
  let b := rb_run (rb_make n) ops in let w := written n ops in
  rb_maxlen b = n /\ rb_idx b = length w /\
  forall i, (i < n)%nat -> nth i (rb_buffer b) None = slot n i w (length w).
Proof.
  intros Hn. unfold rb_run, written.
  assert (G : forall ops b w, rb_maxlen b = n -> rb_idx b = length w ->
    (forall i, (i < n)%nat -> nth i (rb_buffer b) None = slot n i w (length w)) ->
    let b := fold_left rb_do ops b in let w := fold_left (spec_do n) ops w in
    rb_maxlen b = n /\ rb_idx b = length w /\
    forall i, (i < n)%nat -> nth i (rb_buffer b) None = slot n i w (length w)).
  { clear ops. induction ops as [|o ops IH]; intros b w Hl Hi Hb; [cbn; auto|].
    cbn [fold_left]. apply IH; clear IH; unfold rb_maxlen in *.
    - destruct o; cbn; [rewrite upd_length; exact Hl|exact Hl|rewrite repeat_length; exact Hl].
    - destruct o; cbn; rewrite ?app_length; cbn; lia.
    - intros i Hin. destruct o as [x| |]; cbn [rb_do spec_do rb_append rb_skip rb_clear rb_buffer].
      + unfold rb_maxlen. rewrite Hl, Hi.
        assert (Hm : (length w mod n < n)%nat) by (apply Nat.mod_upper_bound; lia).
        rewrite upd_nth by lia. rewrite app_length. cbn [length]. rewrite Nat.add_1_r. cbn [slot].
        rewrite slot_app by lia.
        destruct (Nat.eqb_spec (length w mod n) i); [|apply Hb; exact Hin].
        rewrite app_nth2 by lia. rewrite Nat.sub_diag. reflexivity.
      + rewrite app_length. cbn [length]. rewrite Nat.add_1_r. cbn [slot]. rewrite slot_app by lia.
        rewrite (Hb i Hin).
        destruct (Nat.eqb_spec (length w mod n) i) as [E|E]; [|reflexivity].
        rewrite app_nth2 by lia. rewrite Nat.sub_diag. cbn [nth].
        subst i. apply slot_now. exact Hn.
      + cbn. apply nth_repeat. }
  apply G; cbn; [apply repeat_length|reflexivity|]. intros i Hi. apply nth_repeat.
Qed.

(** The last [n] values written, oldest first. *)
Definition lastn {A} (n : nat) (w : list A) : list A := skipn (length w - n) w.

(** [peek] returns the value written [n] steps ago. *)
Theorem ring_peek n ops : (0 < n)%nat ->
  rb_peek (rb_run (rb_make n) ops) = ago n (written n ops).
Proof.
  intros Hn. destruct (run_inv n ops Hn) as (H1 & H2 & H3). unfold rb_peek.
  rewrite H1, H2, H3 by (apply Nat.mod_upper_bound; lia). apply slot_now. exact Hn.
Qed.

Lemma nth_firstn' {A} (l : list A) r j dft : (j < r)%nat -> nth j (firstn r l) dft = nth j l dft.
Proof.
  revert r j. induction l as [|x l IH]; intros [|r] [|j] H; cbn; try lia; try reflexivity.
  apply IH. lia.
Qed.

Lemma nth_skipn' {A} (l : list A) r j dft : nth j (skipn r l) dft = nth (r + j) l dft.
Proof.
  revert r. induction l as [|x l IH]; intros [|r]; cbn; try reflexivity; [destruct j; reflexivity|]. apply IH.
Qed.

Lemma nth_rot {A} (l : list A) r j dft : (r < length l)%nat -> (j < length l)%nat ->
  nth j (skipn r l ++ firstn r l) dft = nth ((r + j) mod length l) l dft.
Proof.
  intros Hr Hj. destruct (Nat.lt_ge_cases j (length l - r)) as [H|H].
  - rewrite app_nth1 by (rewrite skipn_length; lia).
    rewrite Nat.mod_small by lia. revert l Hr Hj H. induction r as [|r IH]; intros l Hr Hj H; [reflexivity|].
    destruct l as [|x l]; cbn in *; [lia|].
    destruct (Nat.eq_dec j (length l)) as [->|Hne]; [lia|]. apply IH; lia.
  - rewrite app_nth2 by (rewrite skipn_length; lia). rewrite skipn_length.
    replace ((r + j) mod length l)%nat with (r + j - length l)%nat.
    + replace (j - (length l - r))%nat with (r + j - length l)%nat by lia.
      apply nth_firstn'. lia.
    + apply (Nat.mod_unique _ _ 1); lia.
Qed.

(** Reading the buffer from the slot to be overwritten next gives the last [n] values written,
    oldest first; slots never written come first and hold nothing. *)
Theorem ring_content n ops : (0 < n)%nat ->
  let b := rb_run (rb_make n) ops in let w := written n ops in
  let r := (rb_idx b mod n)%nat in
  skipn r (rb_buffer b) ++ firstn r (rb_buffer b) = repeat None (n - length w) ++ lastn n w.
Proof.
  intros Hn. cbv zeta. destruct (run_inv n ops Hn) as (H1 & H2 & H3). unfold rb_maxlen in H1.
  set (b := rb_run (rb_make n) ops) in *. set (w := written n ops) in *.
  assert (Hr : (rb_idx b mod n < n)%nat) by (apply Nat.mod_upper_bound; lia).
  apply (nth_ext _ _ None None).
  - unfold lastn. rewrite !app_length, !skipn_length, firstn_length, repeat_length. lia.
  - intros j Hj. rewrite app_length, skipn_length, firstn_length in Hj.
    rewrite nth_rot by lia. rewrite H1, H2. rewrite Nat.add_mod_idemp_l by lia.
    rewrite H3 by (apply Nat.mod_upper_bound; lia).
    rewrite slot_ago by lia.
    destruct (Nat.leb_spec n (length w + j)) as [Hle|Hgt].
    + rewrite app_nth2 by (rewrite repeat_length; lia). rewrite repeat_length. unfold lastn.
      rewrite nth_skipn'. f_equal. lia.
    + rewrite app_nth1 by (rewrite repeat_length; lia). symmetry. apply nth_repeat.
Qed.

Lemma filter_rot {A} (f : A -> bool) r l :
  length (filter f (skipn r l ++ firstn r l)) = length (filter f l).
Proof.
  rewrite <- (firstn_skipn r l) at 3. rewrite !filter_app, !app_length. lia.
Qed.

Theorem ring_len n ops : (0 < n)%nat ->
  rb_len (rb_run (rb_make n) ops) = length (filter is_some (lastn n (written n ops))).
Proof.
  intros Hn. pose proof (ring_content n ops Hn) as H. cbv zeta in H. unfold rb_len.
  rewrite <- (filter_rot is_some (rb_idx (rb_run (rb_make n) ops) mod n)), H, filter_app, app_length.
  assert (G : forall k, length (filter is_some (repeat None k)) = 0%nat) by (induction k; cbn; auto).
  rewrite G. reflexivity.
Qed.

(** When nothing was skipped or cleared, what is written are the appended values. *)
Theorem written_appends n xs : written n (map RAppend xs) = map Some xs.
Proof.
  unfold written. assert (G : forall xs w, fold_left (spec_do n) (map RAppend xs) w = w ++ map Some xs).
  { clear. induction xs as [|x xs IH]; intros w; cbn; [symmetry; apply app_nil_r|].
    rewrite IH, <- app_assoc. reflexivity. }
  apply G.
Qed.
Theorem written_clear n ops ops' : written n (ops ++ RClear :: ops') = written n ops'.
Proof. unfold written. rewrite fold_left_app. reflexivity. Qed.
End Ring.
