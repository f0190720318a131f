(** Behaviours: what happens when a vehicle goes through a piece of a route, as a function of
    the time at which it gets there.  This is the specification side: nothing here refers
    to duration segments. *)
From Verif Require Import Base.

(** [f x = (elapsed, tw)]: entering at time [x], time spent (travel, service, waiting) and time
    warp used.  The vehicle comes out at time [x + elapsed - tw]. *)
Definition beh := Z -> Z * Z.

Definition bend (f : beh) (x : Z) : Z := x + fst (f x) - snd (f x).

(** First [f], then [g]. *)
Definition bseq (f g : beh) : beh := fun x =>
  let y := bend f x in (fst (f x) + fst (g y), snd (f x) + snd (g y)).

(** Nothing happens. *)
Definition bskip : beh := fun _ => (0, 0).
(** Travelling or servicing for [d]. *)
Definition bspend (d : Z) : beh := fun _ => (d, 0).
(** Waiting until [r], if it is earlier than that. *)
Definition bwait (r : Z) : beh := fun x => (Z.max 0 (r - x), 0).
(** A time window [e, l]: wait until it opens, go back in time when it has closed. *)
Definition bwindow (e l : Z) : beh := fun x => (Z.max 0 (e - x), Z.max 0 (x - l)).

Definition beq (f g : beh) : Prop := forall x, f x = g x.

Declare Scope beh_scope.
Delimit Scope beh_scope with beh.
Infix ";;" := bseq (at level 58, right associativity) : beh_scope.
Infix "==" := beq (at level 70, no associativity) : beh_scope.
Open Scope beh_scope.

Lemma beq_refl f : f == f. Proof. intros x; reflexivity. Qed.
Lemma beq_sym f g : f == g -> g == f. Proof. intros H x; symmetry; apply H. Qed.
Lemma beq_trans f g h : f == g -> g == h -> f == h.
Proof. intros H1 H2 x; rewrite H1; apply H2. Qed.

From Coq Require Export Setoid Morphisms.

#[global] Instance beq_equiv : Equivalence beq.
Proof. split; [exact beq_refl | exact beq_sym | exact beq_trans]. Qed.

#[global] Instance bseq_proper : Proper (beq ==> beq ==> beq) bseq.
Proof.
  intros f f' Hf g g' Hg x. unfold bseq, bend. rewrite !Hf, !Hg. reflexivity.
Qed.

Lemma bend_seq f g x : bend (f ;; g) x = bend g (bend f x).
Proof. unfold bend, bseq, bend; cbn [fst snd]. lia. Qed.

Lemma bseq_assoc f g h : (f ;; g) ;; h == f ;; (g ;; h).
Proof.
  intros x. unfold bseq at 1 3. rewrite bend_seq.
  cbn [fst snd]. unfold bseq. cbn [fst snd]. f_equal; lia.
Qed.

Lemma bskip_l f : bskip ;; f == f.
Proof.
  intros x. unfold bseq, bskip, bend; cbn [fst snd].
  replace (x + 0 - 0) with x by lia. destruct (f x); cbn [fst snd]. f_equal; lia.
Qed.

Lemma bskip_r f : f ;; bskip == f.
Proof. intros x. unfold bseq, bskip; cbn [fst snd]. destruct (f x); cbn [fst snd]. f_equal; lia. Qed.

Lemma bspend_add a b : bspend a ;; bspend b == bspend (a + b).
Proof. intros x. unfold bseq, bspend; cbn [fst snd]. f_equal; lia. Qed.

Lemma bspend_0 : bspend 0 == bskip.
Proof. intros x; reflexivity. Qed.

Lemma bwait_wait a b : bwait a ;; bwait b == bwait (Z.max a b).
Proof. intros x. unfold bseq, bwait, bend; cbn [fst snd]. f_equal; lia. Qed.
