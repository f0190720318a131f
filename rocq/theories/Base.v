(** Common imports and constants. *)
From Coq Require Export ZArith List Bool Lia.
From Coq Require Export ZifyBool ZifyNat.
Export ListNotations.
#[global] Open Scope Z_scope.

(** [std::numeric_limits<int64_t>::max()]; pyvrp/cpp/Measure.h:246-258.
    Measures (Measure.h:32-36) are 64-bit integers in the code; here they are unbounded
    [Z], and this constant is kept wherever the code mentions it. *)
Definition MAXV : Z := 9223372036854775807.

Lemma MAXV_pos : 0 < MAXV.
Proof. reflexivity. Qed.

(** Sum of a list of integers. *)
Fixpoint zsum (l : list Z) : Z :=
  match l with
  | [] => 0
  | x :: l' => x + zsum l'
  end.

Lemma zsum_app l1 l2 : zsum (l1 ++ l2) = zsum l1 + zsum l2.
Proof. induction l1 as [|x l1 IH]; cbn [zsum app]; lia. Qed.

Lemma zsum_nonneg l : (forall x, In x l -> 0 <= x) -> 0 <= zsum l.
Proof.
  induction l as [|x l IH]; cbn [zsum]; intros H; [lia|].
  pose proof (H x (or_introl eq_refl)).
  assert (0 <= zsum l) by (apply IH; intros y Hy; apply H; right; exact Hy).
  lia.
Qed.

(** Replace the element at a position (no change when out of range). *)
Fixpoint upd {A} (l : list A) (i : nat) (x : A) : list A :=
  match l, i with
  | [], _ => []
  | _ :: l', O => x :: l'
  | y :: l', S i' => y :: upd l' i' x
  end.

(** Case analysis on the innermost [Z.max], [Z.min] and comparisons; much faster than leaving
    them all to [lia]. *)
Ltac no_zmm x :=
  lazymatch x with
  | context [Z.max _ _] => fail
  | context [Z.min _ _] => fail
  | context [Z.gtb _ _] => fail
  | context [Z.ltb _ _] => fail
  | _ => idtac
  end.

Ltac zcase1 :=
  match goal with
  | |- context [Z.max ?a ?b] => no_zmm a; no_zmm b;
      destruct (Z.max_spec_le a b) as [[? ->]|[? ->]]
  | |- context [Z.min ?a ?b] => no_zmm a; no_zmm b;
      destruct (Z.min_spec_le a b) as [[? ->]|[? ->]]
  | |- context [Z.gtb ?a ?b] => no_zmm a; no_zmm b;
      destruct (Z.gtb_spec a b)
  | |- context [Z.ltb ?a ?b] => no_zmm a; no_zmm b;
      destruct (Z.ltb_spec a b)
  end.

Ltac zcases := repeat (zcase1; try (exfalso; lia)); try lia.
