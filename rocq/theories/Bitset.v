(** Model of pyvrp/cpp/DynamicBitset.{h,cpp}: a vector of blocks of 64 bits. *)
From Verif Require Import Base Data.

(** DynamicBitset.h:28: sizeof(unsigned long long) * CHAR_BIT. *)
Definition BLOCK : nat := 64.
(** std::bitset<64>, bit 0 first. *)
Definition block := list bool.
Definition bitset := list block.

Definition block_zero : block := repeat false BLOCK.
Definition block_ones : block := repeat true BLOCK.

(** DynamicBitset.cpp:7-12 *)
Definition bs_make (numBits : nat) : bitset :=
  repeat block_zero (numBits / BLOCK + if (numBits mod BLOCK =? 0)%nat then 0 else 1).
(** DynamicBitset.cpp:68 *)
Definition bs_size (b : bitset) : nat := (BLOCK * length b)%nat.
(** DynamicBitset.cpp:23-35; the bindings (bindings.cpp:121-142) throw an IndexError when the
    index is not below the size. *)
Definition bs_get (b : bitset) (idx : nat) : bool :=
  nth (idx mod BLOCK) (nth (idx / BLOCK) b []) false.
Definition bs_set (b : bitset) (idx : nat) (x : bool) : bitset :=
  upd b (idx / BLOCK) (upd (nth (idx / BLOCK) b []) (idx mod BLOCK) x).
Definition py_get (b : bitset) (idx : nat) : res bool :=
  if (bs_size b <=? idx)%nat then Err OutOfRange else Ok (bs_get b idx).
Definition py_set (b : bitset) (idx : nat) (x : bool) : res bitset :=
  if (bs_size b <=? idx)%nat then Err OutOfRange else Ok (bs_set b idx x).
(** DynamicBitset.cpp:42-66 *)
Definition bs_all (b : bitset) : bool := forallb (forallb (fun x => x)) b.
Definition bs_any (b : bitset) : bool := existsb (existsb (fun x => x)) b.
Definition bs_none (b : bitset) : bool := negb (bs_any b).
Definition block_count (k : block) : nat := length (filter (fun x => x) k).
Definition bs_count (b : bitset) : nat := fold_left (fun n k => (n + block_count k)%nat) b 0%nat.
(** DynamicBitset.cpp:70-124 *)
Fixpoint zip_with (f : bool -> bool -> bool) (a b : block) : block :=
  match a, b with x :: a', y :: b' => f x y :: zip_with f a' b' | _, _ => [] end.
Fixpoint bs_zip (f : bool -> bool -> bool) (a b : bitset) : bitset :=
  match a, b with x :: a', y :: b' => zip_with f x y :: bs_zip f a' b' | _, _ => [] end.
Definition bs_and := bs_zip andb.
Definition bs_or := bs_zip orb.
Definition bs_xor := bs_zip xorb.
Definition bs_not (b : bitset) : bitset := map (map negb) b.
(** DynamicBitset.cpp:126-138 *)
Definition bs_set_all (b : bitset) : bitset := map (fun _ => block_ones) b.
Definition bs_reset (b : bitset) : bitset := map (fun _ => block_zero) b.
(** DynamicBitset.cpp:18-21 *)
Definition bs_eqb (a b : bitset) : bool :=
  (length a =? length b)%nat
  && forallb (fun p => (length (fst p) =? length (snd p))%nat && forallb (fun q => Bool.eqb (fst q) (snd q)) (combine (fst p) (snd p)))
             (combine a b).

(** ** Facts *)
Definition bs_ok (b : bitset) : Prop := Forall (fun k => length k = BLOCK) b.
Lemma BLOCK_pos : (0 < BLOCK)%nat.
Proof. unfold BLOCK. lia. Qed.
#[local] Opaque BLOCK.

(** A bitset is the function of its bits. *)
Definition flat (b : bitset) : list bool := concat b.
Lemma flat_length b : bs_ok b -> length (flat b) = bs_size b.
Proof.
  unfold bs_size. induction 1 as [|k b Hk Hb IH]; [cbn; lia|].
  cbn [flat concat length]. rewrite app_length. unfold flat in IH. rewrite IH, Hk. lia.
Qed.
Lemma flat_get b idx : bs_ok b -> bs_get b idx = nth idx (flat b) false.
Proof.
  intros Hb. unfold bs_get. revert idx. induction Hb as [|k b Hk Hb IH]; intros idx.
  - cbn. destruct (idx / BLOCK)%nat, (idx mod BLOCK)%nat, idx; reflexivity.
  - pose proof BLOCK_pos. cbn [flat concat].
    destruct (Nat.lt_ge_cases idx BLOCK) as [H1|H1].
    + rewrite Nat.div_small, Nat.mod_small by exact H1. cbn [nth]. rewrite app_nth1 by lia. reflexivity.
    + rewrite app_nth2 by lia. rewrite Hk. specialize (IH (idx - BLOCK)%nat).
      replace idx with ((idx - BLOCK) + 1 * BLOCK)%nat at 1 2 by lia.
      rewrite Nat.div_add, Nat.mod_add by lia. rewrite Nat.add_1_r. exact IH.
Qed.

Lemma upd_length {A} (l : list A) i x : length (upd l i x) = length l.
Proof. revert i. induction l as [|y l IH]; intros [|i]; cbn; auto. Qed.
Lemma upd_nth {A} (l : list A) i j x dft : (i < length l)%nat ->
  nth j (upd l i x) dft = if Nat.eqb i j then x else nth j l dft.
Proof.
  revert i j. induction l as [|y l IH]; intros [|i] [|j] Hi; cbn in *; try lia; try reflexivity.
  apply IH. lia.
Qed.

Theorem make_spec n : bs_ok (bs_make n) /\ (forall i, bs_get (bs_make n) i = false) /\
  (n <= bs_size (bs_make n))%nat /\ (bs_size (bs_make n) < n + BLOCK)%nat /\
  (exists q, bs_size (bs_make n) = q * BLOCK)%nat.
Proof.
  assert (Hok : bs_ok (bs_make n)).
  { unfold bs_make. apply Forall_forall. intros k Hk. apply repeat_spec in Hk. subst k. apply repeat_length. }
  split; [exact Hok|]. split.
  - intros i. unfold bs_get, bs_make. set (q := (n / BLOCK + _)%nat).
    assert (G : nth (i / BLOCK) (repeat block_zero q) [] = block_zero \/ nth (i / BLOCK) (repeat block_zero q) [] = []).
    { generalize (i / BLOCK)%nat. induction q as [|q IH]; intros [|j]; cbn; auto. }
    destruct G as [->| ->]; [apply nth_repeat|destruct (i mod BLOCK)%nat; reflexivity].
  - unfold bs_size, bs_make. rewrite repeat_length. pose proof BLOCK_pos.
    pose proof (Nat.div_mod n BLOCK ltac:(lia)). pose proof (Nat.mod_upper_bound n BLOCK ltac:(lia)).
    set (q := (n / BLOCK)%nat) in *. set (r := (n mod BLOCK)%nat) in *.
    destruct (Nat.eqb_spec r 0); (split; [nia|]; split; [nia|]).
    + exists q. lia.
    + exists (S q). lia.
Qed.

Lemma div_lt_size b idx : (idx < bs_size b)%nat -> (idx / BLOCK < length b)%nat.
Proof. intros H. pose proof BLOCK_pos. apply Nat.div_lt_upper_bound; [lia|]. unfold bs_size in H. lia. Qed.

Theorem set_spec b idx x : bs_ok b -> (idx < bs_size b)%nat ->
  bs_ok (bs_set b idx x) /\ bs_size (bs_set b idx x) = bs_size b /\
  forall j, bs_get (bs_set b idx x) j = if Nat.eqb idx j then x else bs_get b j.
Proof.
  intros Hb Hi. pose proof (div_lt_size b idx Hi) as Hd. pose proof BLOCK_pos as HB.
  assert (Hlen : length (nth (idx / BLOCK) b []) = BLOCK).
  { unfold bs_ok in Hb. rewrite Forall_forall in Hb. apply Hb. apply nth_In. exact Hd. }
  unfold bs_set. split; [|split].
  - unfold bs_ok in *. clear - Hb Hlen Hd. set (k := upd (nth (idx / BLOCK) b []) (idx mod BLOCK) x).
    assert (Hk : length k = BLOCK) by (unfold k; rewrite upd_length; exact Hlen). clearbody k. clear Hlen.
    revert Hd. generalize (idx / BLOCK)%nat as q. induction Hb as [|k0 b Hk0 Hb IH]; intros [|q] Hq; cbn in *; try lia.
    + constructor; assumption.
    + constructor; [exact Hk0|]. apply IH. lia.
  - unfold bs_size. rewrite upd_length. reflexivity.
  - intros j. unfold bs_get. rewrite upd_nth by exact Hd.
    pose proof (Nat.div_mod idx BLOCK ltac:(lia)). pose proof (Nat.div_mod j BLOCK ltac:(lia)).
    pose proof (Nat.mod_upper_bound idx BLOCK ltac:(lia)).
    destruct (Nat.eqb_spec (idx / BLOCK) (j / BLOCK)) as [E|E].
    + rewrite upd_nth by lia. rewrite <- E.
      destruct (Nat.eqb_spec (idx mod BLOCK) (j mod BLOCK)), (Nat.eqb_spec idx j); try reflexivity; exfalso; [|subst j; lia].
      rewrite <- E in *. lia.
    + destruct (Nat.eqb_spec idx j); [subst j; lia|reflexivity].
Qed.

Theorem py_get_spec b idx : (bs_size b <= idx)%nat -> py_get b idx = Err OutOfRange.
Proof. intros H. unfold py_get. destruct (Nat.leb_spec (bs_size b) idx); [reflexivity|lia]. Qed.

Lemma forallb_concat {A} (f : A -> bool) l : forallb (forallb f) l = forallb f (concat l).
Proof. induction l as [|k l IH]; [reflexivity|]. cbn. rewrite forallb_app, IH. reflexivity. Qed.
Lemma existsb_concat {A} (f : A -> bool) l : existsb (existsb f) l = existsb f (concat l).
Proof. induction l as [|k l IH]; [reflexivity|]. cbn. rewrite existsb_app, IH. reflexivity. Qed.

Lemma bits_in b i : bs_ok b -> (i < bs_size b)%nat -> In (bs_get b i) (flat b).
Proof. intros Hb Hi. rewrite flat_get by exact Hb. apply nth_In. rewrite flat_length by exact Hb. exact Hi. Qed.

Theorem all_spec b : bs_ok b -> bs_all b = true <-> forall i, (i < bs_size b)%nat -> bs_get b i = true.
Proof.
  intros Hb. unfold bs_all. rewrite forallb_concat, forallb_forall. fold (flat b). split.
  - intros H i Hi. apply (H _ (bits_in b i Hb Hi)).
  - intros H x Hx. apply (In_nth _ _ false) in Hx. destruct Hx as (i & Hi & <-).
    rewrite <- flat_get by exact Hb. apply H. rewrite <- flat_length by exact Hb. exact Hi.
Qed.
Theorem any_spec b : bs_ok b -> bs_any b = true <-> exists i, (i < bs_size b)%nat /\ bs_get b i = true.
Proof.
  intros Hb. unfold bs_any. rewrite existsb_concat, existsb_exists. fold (flat b). split.
  - intros (x & Hx & ->). apply (In_nth _ _ false) in Hx. destruct Hx as (i & Hi & E).
    exists i. rewrite <- flat_get in E by exact Hb. rewrite flat_length in Hi by exact Hb. auto.
  - intros (i & Hi & E). exists true. split; [|reflexivity]. rewrite <- E. apply bits_in; assumption.
Qed.
Theorem none_spec b : bs_ok b -> bs_none b = true <-> forall i, (i < bs_size b)%nat -> bs_get b i = false.
Proof.
  intros Hb. unfold bs_none. rewrite negb_true_iff. split.
  - intros H i Hi. destruct (bs_get b i) eqn:E; [|reflexivity].
    assert (bs_any b = true) by (apply any_spec; [exact Hb|exists i; auto]). congruence.
  - intros H. destruct (bs_any b) eqn:E; [|reflexivity]. apply any_spec in E; [|exact Hb].
    destruct E as (i & Hi & E). rewrite (H i Hi) in E. discriminate.
Qed.

(** The number of set bits is the number of members. *)
Theorem count_spec b : bs_ok b -> bs_count b = length (filter (bs_get b) (seq 0 (bs_size b))).
Proof.
  intros Hb.
  assert (E : bs_count b = length (filter (fun x => x) (flat b))).
  { unfold bs_count. assert (G : forall b n, fold_left (fun n k => (n + block_count k)%nat) b n = (n + length (filter (fun x => x) (flat b)))%nat).
    { clear. induction b as [|k b IH]; intros n; [cbn; lia|]. cbn [fold_left flat concat].
      rewrite IH, filter_app, app_length. unfold block_count, flat. lia. }
    apply G. }
  rewrite E. rewrite <- flat_length by exact Hb.
  assert (G : forall (l : list bool) g, (forall i, (i < length l)%nat -> g i = nth i l false) ->
     length (filter (fun x => x) l) = length (filter g (seq 0 (length l)))).
  { clear. induction l as [|x l IH] using rev_ind; intros g Hg; [reflexivity|].
    rewrite app_length in *. cbn [length] in *. rewrite Nat.add_1_r, seq_S, !filter_app, !app_length.
    rewrite (IH g).
    - f_equal. cbn. rewrite Hg by lia. rewrite app_nth2 by lia. rewrite Nat.sub_diag. cbn. destruct x; reflexivity.
    - intros i Hi. rewrite Hg by lia. apply app_nth1. exact Hi. }
  apply G. intros i _. apply flat_get. exact Hb.
Qed.

Lemma zip_nth f a b : length a = length b -> f false false = false ->
  forall i, nth i (zip_with f a b) false = f (nth i a false) (nth i b false).
Proof.
  revert b. induction a as [|x a IH]; intros [|y b] Hl Hf [|i]; cbn in *; try discriminate; auto.
Qed.
Lemma zip_length f a b : length a = length b -> length (zip_with f a b) = length a.
Proof. revert b. induction a as [|x a IH]; intros [|y b] Hl; cbn in *; try discriminate; auto. Qed.

Theorem zip_spec f a b : f false false = false -> bs_ok a -> bs_ok b -> bs_size a = bs_size b ->
  bs_ok (bs_zip f a b) /\ bs_size (bs_zip f a b) = bs_size a /\
  forall i, bs_get (bs_zip f a b) i = f (bs_get a i) (bs_get b i).
Proof.
  intros Hf Ha Hb Hs. assert (Hl : length a = length b) by (pose proof BLOCK_pos; unfold bs_size in Hs; nia). clear Hs.
  assert (G : bs_ok (bs_zip f a b) /\ length (bs_zip f a b) = length a /\
    forall q r, nth r (nth q (bs_zip f a b) []) false = f (nth r (nth q a []) false) (nth r (nth q b []) false)).
  { revert b Hb Hl. induction Ha as [|x a Hx Ha IH]; intros b Hb Hl.
    - destruct b; [|discriminate]. split; [constructor|]. split; [reflexivity|].
      intros [|q] [|r]; cbn; auto.
    - destruct Hb as [|y b Hy Hb]; [discriminate|]. cbn in Hl. destruct (IH b Hb ltac:(lia)) as (I1 & I2 & I3).
      cbn [bs_zip]. split; [constructor; [rewrite zip_length; congruence|exact I1]|].
      split; [cbn; lia|]. intros [|q] r; cbn [nth]; [apply zip_nth; congruence|apply I3]. }
  destruct G as (G1 & G2 & G3). split; [exact G1|]. split; [unfold bs_size; rewrite G2; reflexivity|].
  intros i. apply G3.
Qed.

Lemma map_ok g b : (forall k, length k = BLOCK -> length (g k) = BLOCK) -> bs_ok b -> bs_ok (map g b).
Proof. intros Hg. unfold bs_ok. rewrite Forall_map. apply Forall_impl. exact Hg. Qed.

Theorem not_spec b : bs_ok b -> bs_ok (bs_not b) /\ bs_size (bs_not b) = bs_size b /\
  forall i, (i < bs_size b)%nat -> bs_get (bs_not b) i = negb (bs_get b i).
Proof.
  intros Hb. split; [apply map_ok; [intros; rewrite map_length; assumption|exact Hb]|].
  split; [unfold bs_size, bs_not; rewrite map_length; reflexivity|].
  intros i Hi. unfold bs_get, bs_not.
  rewrite (nth_indep _ [] (map negb [])) by (rewrite map_length; apply div_lt_size; exact Hi).
  rewrite map_nth. rewrite (nth_indep _ false (negb false)).
  - apply map_nth.
  - rewrite map_length. pose proof BLOCK_pos. unfold bs_ok in Hb. rewrite Forall_forall in Hb.
    rewrite Hb by (apply nth_In; apply div_lt_size; exact Hi). apply Nat.mod_upper_bound. lia.
Qed.

Theorem fill_spec b : bs_ok b ->
  (bs_ok (bs_set_all b) /\ bs_size (bs_set_all b) = bs_size b /\
   forall i, (i < bs_size b)%nat -> bs_get (bs_set_all b) i = true) /\
  (bs_ok (bs_reset b) /\ bs_size (bs_reset b) = bs_size b /\ forall i, bs_get (bs_reset b) i = false).
Proof.
  intros Hb. split; (split; [|split; [unfold bs_size, bs_set_all, bs_reset; rewrite map_length; reflexivity|]]).
  - apply map_ok; [intros; apply repeat_length|exact Hb].
  - intros i Hi. unfold bs_get, bs_set_all. pose proof BLOCK_pos.
    assert (Hq : forall q, (q < length b)%nat -> nth q (map (fun _ => block_ones) b) [] = block_ones).
    { clear. induction b as [|k b IH]; intros [|q] H; cbn in *; try lia; [reflexivity|]. apply IH. lia. }
    rewrite Hq by (apply div_lt_size; exact Hi).
    unfold block_ones. assert (G : forall k n, (k < n)%nat -> nth k (repeat true n) false = true).
    { clear. induction k as [|k IH]; intros [|n] H; cbn; try lia; auto. apply IH. lia. }
    apply G. apply Nat.mod_upper_bound. lia.
  - apply map_ok; [intros; apply repeat_length|exact Hb].
  - intros i. unfold bs_get, bs_reset.
    assert (G : nth (i / BLOCK) (map (fun _ => block_zero) b) [] = block_zero \/ nth (i / BLOCK) (map (fun _ => block_zero) b) [] = []).
    { generalize (i / BLOCK)%nat. induction b as [|k b IH]; intros [|j]; cbn; auto. inversion Hb; auto. }
    destruct G as [->| ->]; [apply nth_repeat|destruct (i mod BLOCK)%nat; reflexivity].
Qed.

(** Bitsets compare equal exactly when they have the same size and members. *)
Theorem eqb_spec a b : bs_ok a -> bs_ok b ->
  bs_eqb a b = true <-> bs_size a = bs_size b /\ forall i, bs_get a i = bs_get b i.
Proof.
  intros Ha Hb. 
  assert (E : bs_eqb a b = true <-> a = b).
  { unfold bs_eqb. split.
    - rewrite andb_true_iff, Nat.eqb_eq. intros [Hl H]. clear Ha Hb. revert b Hl H.
      induction a as [|x a IH]; intros [|y b] Hl H; cbn in *; try discriminate; [reflexivity|].
      rewrite !andb_true_iff, Nat.eqb_eq in H. destruct H as [[H1 H2] H3]. f_equal; [|apply IH; [lia|exact H3]].
      clear - H1 H2. revert y H1 H2. induction x as [|u x IH]; intros [|v y] H1 H2; cbn in *; try discriminate; [reflexivity|].
      rewrite andb_true_iff in H2. destruct H2 as [H2 H3]. apply Bool.eqb_prop in H2. f_equal; [exact H2|]. apply IH; [lia|exact H3].
    - intros <-. rewrite Nat.eqb_refl. cbn. apply forallb_forall. intros [x y] Hin.
      assert (x = y). { clear - Hin. induction a as [|z a IH]; [destruct Hin|]. destruct Hin as [[= <- <-]|Hin]; auto. }
      subst y. cbn. rewrite Nat.eqb_refl. cbn. apply forallb_forall. intros [u v] Huv.
      assert (u = v). { clear - Huv. induction x as [|z x IH]; [destruct Huv|]. destruct Huv as [[= <- <-]|Huv]; auto. }
      subst v. apply Bool.eqb_reflx. }
  rewrite E. split; [intros <-; auto|]. intros [Hs Hg].
  assert (Ef : flat a = flat b).
  { apply (nth_ext _ _ false false); [rewrite !flat_length by assumption; exact Hs|].
    intros i _. rewrite <- !flat_get by assumption. apply Hg. }
  clear - Ha Hb Ef. pose proof BLOCK_pos as HB. revert b Hb Ef. induction Ha as [|x a Hx Ha IH]; intros b Hb Ef.
  - destruct Hb as [|y b Hy Hb]; [reflexivity|]. cbn in Ef. destruct y; [cbn in Hy; lia|discriminate].
  - destruct Hb as [|y b Hy Hb]; cbn in Ef; [destruct x; [cbn in Hx; lia|discriminate]|].
    assert (x = y /\ flat a = flat b) as [-> Ef'].
    { clear - Ef Hx Hy. assert (Hl : length x = length y) by congruence. clear Hx Hy. revert y Ef Hl.
      induction x as [|u x IH]; intros [|v y] Ef Hl; cbn in *; try discriminate; [auto|].
      injection Ef as -> Ef. destruct (IH y Ef ltac:(lia)) as [-> ->]. auto. }
    f_equal. apply IH; assumption.
Qed.
