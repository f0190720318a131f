(** Time window segments in normal form, and their behaviours: the semantic reading of the
    (duration, time warp, start early, start late) part of a duration segment. *)
From Verif Require Import Base DurationSegment Beh.

Record tws := mk_tws { td : Z; tw : Z; te : Z; tl : Z }.

(** Entering at [x]: wait until [te], go back in time to [tl] when late, then spend [td] with
    time warp [tw]. *)
Definition tbeh (t : tws) : beh := fun x =>
  (td t + Z.max 0 (te t - x), tw t + Z.max 0 (x - tl t)).

Definition tmerge (edge : Z) (a b : tws) : tws :=
  let at2 := td a - tw a + edge in
  let dtw := Z.max 0 (te a + at2 - tl b) in
  let dwait := Z.max 0 (te b - at2 - tl a) in
  mk_tws (td a + td b + edge + dwait) (tw a + tw b + dtw)
         (Z.max (te a) (te b - at2) - dwait)
         (Z.min (tl a) (tl b - at2) + dtw).

Lemma bend_tbeh t x : te t <= tl t ->
  bend (tbeh t) x = Z.max (te t) (Z.min x (tl t)) + td t - tw t.
Proof. intros H. unfold bend, tbeh; cbn [fst snd]. lia. Qed.

Lemma tmerge_window edge a b : te a <= tl a -> te b <= tl b ->
  te (tmerge edge a b) <= tl (tmerge edge a b).
Proof. intros Ha Hb. unfold tmerge; cbn [te tl]. lia. Qed.

(** Merging is running one after the other. *)
Lemma tmerge_beh edge a b : te a <= tl a -> te b <= tl b ->
  tbeh (tmerge edge a b) == tbeh a ;; bspend edge ;; tbeh b.
Proof.
  intros Ha Hb x. unfold bseq. rewrite bend_tbeh by exact Ha.
  unfold bspend, bend; cbn [fst snd].
  unfold tbeh, tmerge; cbn [td tw te tl fst snd].
  destruct a as [ad aw ae al], b as [bd bw be' bl]; cbn [td tw te tl] in *.
  f_equal; zcases.
Qed.

(** The normal form is determined by the behaviour. *)
Lemma tws_ext a b : te a <= tl a -> te b <= tl b -> tbeh a == tbeh b -> a = b.
Proof.
  intros Ha Hb H.
  destruct a as [ad aw ae al], b as [bd bw be' bl]; cbn [td tw te tl] in *.
  assert (HD : forall x, ad + Z.max 0 (ae - x) = bd + Z.max 0 (be' - x)).
  { intros x. exact (f_equal fst (H x)). }
  assert (HW : forall x, aw + Z.max 0 (x - al) = bw + Z.max 0 (x - bl)).
  { intros x. exact (f_equal snd (H x)). }
  clear H.
  assert (E1 : ad = bd).
  { pose proof (HD (Z.max ae be')) as H.
    rewrite (Z.max_l 0 (ae - _)), (Z.max_l 0 (be' - _)) in H by lia. lia. }
  assert (E2 : aw = bw).
  { pose proof (HW (Z.min al bl)) as H.
    rewrite (Z.max_l 0 (_ - al)), (Z.max_l 0 (_ - bl)) in H by lia. lia. }
  assert (E3 : ae = be').
  { pose proof (HD (Z.min ae be')) as H.
    rewrite (Z.max_r 0 (ae - _)), (Z.max_r 0 (be' - _)) in H by lia. lia. }
  assert (E4 : al = bl).
  { pose proof (HW (Z.max al bl)) as H.
    rewrite (Z.max_r 0 (_ - al)), (Z.max_r 0 (_ - bl)) in H by lia. lia. }
  subst. reflexivity.
Qed.
