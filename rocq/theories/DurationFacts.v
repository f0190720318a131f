(** Facts about duration segments: merging is composition of behaviours, finalising is waiting
    for the release time. *)
From Verif Require Import Base DurationSegment Beh Tws.

Ltac dcbn := cbn [td tw te tl ds_dur ds_tw ds_early ds_late ds_rel ds_cdur ds_ctw ds_pel] in *.

Definition plain (s : dseg) : tws := mk_tws (ds_dur s) (ds_tw s) (ds_early s) (ds_late s).

(** Segments that arise from valid data: no opening time is later than [h], and the segment
    contains at most [n] units of travel and service. *)
Record okt (h n : Z) (t : tws) : Prop := mk_okt {
  ok_n : 0 <= n;
  ok_d : 0 <= td t;
  ok_w : 0 <= tw t;
  ok_e : 0 <= te t;
  ok_el : te t <= tl t;
  ok_l : tl t <= MAXV;
  ok_h : te t <= h;
  ok_tight : tw t = 0 \/ te t = tl t;
  ok_end : 0 <= te t + td t - tw t;
  ok_net : Z.min h (tl t) + td t - tw t <= h + n }.

Lemma okt_mono h h' n n' t : h <= h' -> n <= n' -> okt h n t -> okt h' n' t.
Proof. intros H1 H2 []; constructor; lia. Qed.

Lemma okt_merge h n1 n2 edge a b : 0 <= edge ->
  okt h n1 a -> okt h n2 b -> okt h (n1 + edge + n2) (tmerge edge a b).
Proof.
  intros He [] [].
  destruct a as [ad aw ae al], b as [bd bw be' bl]; cbn [td tw te tl] in *.
  constructor; unfold tmerge; cbn [td tw te tl]; zcases.
Qed.

Lemma plain_merge h n1 n2 edge a b : 0 <= edge -> 2 * h <= MAXV ->
  okt h n1 (plain a) -> okt h n2 (plain b) ->
  plain (ds_merge edge a b) = tmerge edge (plain a) (plain b).
Proof.
  intros He Hh [] [].
  destruct a as [ad aw ae al ? ? ? ?], b as [bd bw be' bl ? ? ? ?].
  unfold plain, ds_merge, tmerge in *; dcbn.
  f_equal.
  - zcases.
  - zcases.
  - zcases.
  - destruct (Z.gtb_spec (ad - aw + edge) (bl - MAXV)); zcases.
Qed.

(** Waiting for a release time in front of a segment. *)
Definition twait (r : Z) (t : tws) : tws :=
  mk_tws (td t) (tw t + Z.max 0 (r - tl t)) (Z.max (te t) r) (Z.max (tl t) r).

Lemma twait_beh r t : te t <= tl t -> tbeh (twait r t) == bwait r ;; tbeh t.
Proof.
  intros H x. destruct t as [d w e l]; cbn [td tw te tl] in *.
  unfold twait, tbeh, bseq, bwait, bend; cbn [td tw te tl fst snd].
  f_equal; zcases.
Qed.

Lemma okt_wait h n r t : 0 <= r <= h -> h <= MAXV -> okt h n t -> okt h n (twait r t).
Proof.
  intros Hr Hh [].
  destruct t as [d w e l]; cbn [td tw te tl] in *.
  constructor; unfold twait; cbn [td tw te tl]; zcases.
Qed.

Lemma finaliseFront_plain s : 0 <= ds_late s -> ds_late s <= MAXV -> ds_early s <= ds_late s ->
  ds_finaliseFront s = let t := twait (ds_rel s) (plain s) in ds_raw (td t) (tw t) (te t) (tl t).
Proof.
  intros Hl0 HlM He. destruct s as [d w e l r c1 c2 p].
  unfold ds_finaliseFront, ds_merge0, ds_merge, ds_raw, ds_startEarly, ds_startLate, twait, plain.
  dcbn.
  f_equal; zcases.
Qed.

Lemma plain_finaliseFront s : 0 <= ds_late s -> ds_late s <= MAXV -> ds_early s <= ds_late s ->
  plain (ds_finaliseFront s) = twait (ds_rel s) (plain s).
Proof. intros. rewrite finaliseFront_plain by assumption. reflexivity. Qed.

(** Running [a] until it ends: [t_end_early]/[t_end_late] are the earliest and latest times at
    which it can be left. *)
Definition tendE (t : tws) : Z := te t + td t - tw t.
Definition tendL (t : tws) : Z := tl t + td t - tw t.

(** A segment with history: [A] are the finished trips, [B] the current one, [r] its release
    time. *)
Record Rep (h n : Z) (s : dseg) (A B : tws) (r : Z) : Prop := mk_Rep {
  rep_plain : plain s = B;
  rep_cdur : ds_cdur s = td A;
  rep_ctw : ds_ctw s = tw A;
  rep_pel : ds_pel s = Z.min MAXV (tendL A);
  rep_rel : ds_rel s = Z.max (tendE A) r;
  rep_okA : okt h n A;
  rep_okB : okt h n B;
  rep_r : 0 <= r <= h;
  rep_E : tendE A <= h }.

(** The empty history: nothing before, any start time is fine. *)
Definition tnone : tws := mk_tws 0 0 0 MAXV.

(** The whole: finished trips, wait for the release time, current trip. *)
Definition Tot (A B : tws) (r : Z) : tws := tmerge 0 A (twait r B).

Lemma Tot_beh A B r : te A <= tl A -> te B <= tl B ->
  tbeh (Tot A B r) == tbeh A ;; bwait r ;; tbeh B.
Proof.
  intros HA HB. unfold Tot. rewrite tmerge_beh.
  - rewrite twait_beh by exact HB. rewrite bspend_0, bskip_l. reflexivity.
  - exact HA.
  - unfold twait; cbn [te tl]. lia.
Qed.

Lemma Rep_duration h n s A B r : h <= MAXV -> Rep h n s A B r ->
  ds_duration s = td (Tot A B r).
Proof.
  intros Hh [HB Hc1 Hc2 Hp Hr [] [] Hr0 HE].
  unfold ds_duration, ds_startEarly, Tot, tmerge, twait; cbn [td tw te tl].
  rewrite Hc1, Hp, Hr. subst B. destruct s as [d w e l ? ? ? ?], A as [ad aw ae al].
  unfold plain, tendE, tendL in *; dcbn. zcases.
Qed.

(** The base time warp, without the surcharge for exceeding the maximum duration. *)
Lemma Rep_timeWarp h n s A B r : h <= MAXV -> Rep h n s A B r ->
  ds_ctw s + ds_tw s + Z.max (ds_rel s - ds_late s) 0 = tw (Tot A B r).
Proof.
  intros Hh [HB Hc1 Hc2 Hp Hr [] [] Hr0 HE].
  unfold Tot, tmerge, twait; cbn [td tw te tl].
  rewrite Hc2, Hr. subst B. destruct s as [d w e l ? ? ? ?], A as [ad aw ae al].
  unfold plain, tendE, tendL in *; dcbn. zcases.
Qed.

Lemma Rep_merge h n1 n2 edge s A B r s2 : 0 <= edge -> 2 * h <= MAXV ->
  Rep h n1 s A B r -> okt h n2 (plain s2) -> ds_cdur s2 = 0 -> ds_ctw s2 = 0 ->
  0 <= ds_rel s2 <= h ->
  Rep h (n1 + edge + n2) (ds_merge edge s s2) A (tmerge edge B (plain s2)) (Z.max r (ds_rel s2)).
Proof.
  intros He Hh [HB Hc1 Hc2 Hp Hr HA HoB Hr0 HE] H2 Hc3 Hc4 Hr2.
  assert (HoA : okt h (n1 + edge + n2) A).
  { apply (okt_mono h h n1); [lia | | exact HA]. destruct H2; lia. }
  constructor.
  - rewrite <- HB. eapply plain_merge; try eassumption. rewrite HB. exact HoB.
  - unfold ds_merge; dcbn. lia.
  - unfold ds_merge; dcbn. lia.
  - unfold ds_merge; dcbn. exact Hp.
  - unfold ds_merge; cbn [ds_rel]. lia.
  - exact HoA.
  - apply okt_merge; assumption.
  - lia.
  - exact HE.
Qed.

Lemma Tot_okt h n m A B r : 0 <= r <= h -> h <= MAXV -> okt h n A -> okt h m B ->
  okt h (n + 0 + m) (Tot A B r).
Proof. intros Hr Hh HA HB. apply okt_merge; [lia | exact HA | apply okt_wait; assumption]. Qed.

Lemma tmerge_endE edge a b : te a <= tl a -> te b <= tl b ->
  tendE (tmerge edge a b) = Z.max (te b) (Z.min (tendE a + edge) (tl b)) + td b - tw b.
Proof.
  intros Ha Hb. destruct a as [ad aw ae al], b as [bd bw be' bl].
  unfold tmerge, tendE in *; dcbn. zcases.
Qed.

Lemma tmerge_endL edge a b : te a <= tl a -> te b <= tl b ->
  tendL (tmerge edge a b) = Z.max (te b) (Z.min (tendL a + edge) (tl b)) + td b - tw b.
Proof.
  intros Ha Hb. destruct a as [ad aw ae al], b as [bd bw be' bl].
  unfold tmerge, tendL in *; dcbn. zcases.
Qed.

Lemma Tot_endE A B r : te A <= tl A -> te B <= tl B ->
  tendE (Tot A B r) = Z.max (te B) (Z.min (Z.max r (tendE A)) (tl B)) + td B - tw B.
Proof.
  intros HA HB. unfold Tot. rewrite tmerge_endE; [ | exact HA | unfold twait; dcbn; lia].
  generalize (tendE A). intros E. destruct B as [bd bw be' bl]; unfold twait; dcbn. zcases.
Qed.

Lemma Tot_endL A B r : te A <= tl A -> te B <= tl B ->
  tendL (Tot A B r) = Z.max (te B) (Z.min (Z.max r (tendL A)) (tl B)) + td B - tw B.
Proof.
  intros HA HB. unfold Tot. rewrite tmerge_endL; [ | exact HA | unfold twait; dcbn; lia].
  generalize (tendL A). intros E. destruct B as [bd bw be' bl]; unfold twait; dcbn. zcases.
Qed.

Lemma Tot_td A B r :
  td (Tot A B r) = td A + td B + Z.max 0 (Z.max (te B) r - tendL A).
Proof. unfold Tot, tmerge, twait, tendL; dcbn. lia. Qed.

Lemma Tot_tw A B r :
  tw (Tot A B r) = tw A + tw B + Z.max 0 (r - tl B) + Z.max 0 (tendE A - Z.max (tl B) r).
Proof. unfold Tot, tmerge, twait, tendE; dcbn. lia. Qed.

(** Finalising at the back: the current trip becomes part of the history. *)
Lemma finaliseBack_closed s d w e l :
  ds_finaliseFront s = ds_raw d w e l ->
  0 <= e <= l -> l <= MAXV -> 0 <= w -> 0 <= ds_pel s <= MAXV ->
  d + Z.max 0 (e - ds_pel s) - w <= MAXV ->
  ds_finaliseBack s =
  mk_dseg 0 0 (e + d - w) MAXV (e + d - w)
          (ds_cdur s + d + Z.max 0 (e - ds_pel s)) (ds_ctw s + w)
          (Z.min MAXV (Z.max e (Z.min (ds_pel s) l) + d - w)).
Proof.
  intros HF He Hl Hw Hp Hn. unfold ds_finaliseBack. rewrite HF.
  destruct s as [sd sw se sl sr c1 c2 p]; cbn [ds_pel ds_cdur ds_ctw] in *. clear HF.
  assert (Hm : ds_merge0 (ds_raw 0 0 0 p) (ds_raw d w e l) =
          mk_dseg (d + Z.max 0 (e - p)) w (Z.min e p) (Z.min p l) 0 0 0 MAXV).
  { unfold ds_merge0, ds_merge, ds_raw; dcbn. f_equal; zcases. }
  rewrite Hm. clear Hm.
  set (m := Z.max 0 (e - p)) in *.
  assert (Hdur : ds_duration (mk_dseg (d + m) w (Z.min e p) (Z.min p l) 0 0 0 MAXV) = d + m).
  { unfold ds_duration, ds_startEarly; dcbn. lia. }
  assert (Htw : ds_timeWarp MAXV (mk_dseg (d + m) w (Z.min e p) (Z.min p l) 0 0 0 MAXV) = w).
  { unfold ds_timeWarp. rewrite Hdur; dcbn. zcases. }
  assert (HeE : ds_endEarly (mk_dseg (d + m) w (Z.min e p) (Z.min p l) 0 0 0 MAXV) = e + d - w).
  { unfold ds_endEarly. rewrite Hdur, Htw. unfold ds_startEarly; dcbn. subst m. clear Hdur Htw. lia. }
  assert (HeL : ds_endLate (mk_dseg (d + m) w (Z.min e p) (Z.min p l) 0 0 0 MAXV)
                = Z.min MAXV (Z.max e (Z.min p l) + d - w)).
  { unfold ds_endLate. rewrite Hdur, Htw. unfold ds_startLate; dcbn. subst m. clear Hdur Htw HeE.
    zcases. }
  rewrite Hdur, Htw, HeE, HeL. f_equal; lia.
Qed.

Lemma Rep_finaliseBack h n s A B r : 2 * (h + n) <= MAXV ->
  Rep h n s A B r -> tendE (Tot A B r) <= h -> okt h n (Tot A B r) ->
  Rep h n (ds_finaliseBack s) (Tot A B r)
      (mk_tws 0 0 (tendE (Tot A B r)) MAXV) 0.
Proof.
  intros Hh HR HE Hok.
  assert (Hn : 0 <= n) by (destruct Hok; lia).
  assert (HtE : 0 <= tendE (Tot A B r)) by (destruct Hok; unfold tendE; lia).
  destruct HR as [HB Hc1 Hc2 Hp Hr HA HoB Hr0 HEA].
  assert (HFF : ds_finaliseFront s = let t := twait (ds_rel s) B in
                 ds_raw (td t) (tw t) (te t) (tl t)).
  { subst B. apply finaliseFront_plain; destruct HoB, s; unfold plain in *; dcbn; lia. }
  cbn zeta in HFF.
  assert (HEA0 : 0 <= tendE A) by (destruct HA; unfold tendE; lia).
  assert (HoW : okt h n (twait (ds_rel s) B)).
  { apply okt_wait; [rewrite Hr; lia | lia | exact HoB]. }
  assert (HLA : tendE A <= tendL A) by (destruct HA; unfold tendE, tendL; lia).
  assert (Hd : td (Tot A B r) = td A + td B + Z.max 0 (te (twait (ds_rel s) B) - ds_pel s)).
  { rewrite Hr, Hp, Tot_td. unfold twait; dcbn. destruct HoB.
    generalize dependent (tendE A). generalize dependent (tendL A). clear - Hh Hn ok_h0 Hr0. intros. lia. }
  assert (Hw : tw (Tot A B r) = tw A + tw (twait (ds_rel s) B)).
  { rewrite Hr, Tot_tw. unfold twait; dcbn.
    generalize (tendE A). clear. intros. lia. }
  assert (Hnet : td B + Z.max 0 (te (twait (ds_rel s) B) - ds_pel s) - tw (twait (ds_rel s) B)
                 <= MAXV).
  { rewrite Hp. clear - HoW Hh Hn HLA HEA0 HEA. destruct HoW.
    unfold twait in *; dcbn. zcases. }
  assert (HtE2 : tendE (Tot A B r)
                 = te (twait (ds_rel s) B) + td B - tw (twait (ds_rel s) B)).
  { rewrite Tot_endE; [ | destruct HA; lia | destruct HoB; lia]. rewrite Hr. unfold twait; dcbn.
    destruct HoB. clear - ok_el0. generalize (tendE A); intros E. lia. }
  assert (HtL : Z.min MAXV (tendL (Tot A B r)) =
     Z.min MAXV (Z.max (te (twait (ds_rel s) B))
                  (Z.min (ds_pel s) (tl (twait (ds_rel s) B))) + td B - tw (twait (ds_rel s) B))).
  { rewrite Tot_endL; [ | destruct HA; lia | destruct HoB; lia]. rewrite Hp, Hr. unfold twait; dcbn.
    destruct HoB. f_equal. clear - ok_el0 ok_l0 HLA HEA Hh Hn Hr0.
    generalize dependent (tendE A). generalize dependent (tendL A). intros L E. intros. zcases. }
  assert (HF := finaliseBack_closed s _ _ _ _ HFF).
  assert (HF2 := HF ltac:(destruct HoW; lia) ltac:(destruct HoW; lia) ltac:(destruct HoW; lia)
                  ltac:(rewrite Hp; lia) Hnet).
  clear HF. rewrite HF2. clear HF2.
  change (td (twait (ds_rel s) B)) with (td B).
  constructor; dcbn.
  - unfold plain; dcbn. rewrite <- HtE2. reflexivity.
  - rewrite Hd, Hc1. reflexivity.
  - rewrite Hw, Hc2. reflexivity.
  - symmetry. exact HtL.
  - lia.
  - exact Hok.
  - constructor; dcbn; lia.
  - lia.
  - exact HE.
Qed.

(** Algebra of waits and windows. *)
Lemma tskip_ok h n : 0 <= h -> 0 <= n -> h <= MAXV -> okt h n tnone.
Proof. intros. constructor; cbn [tnone td tw te tl]; pose proof MAXV_pos; lia. Qed.

Lemma tbeh_tnone_wait t : te t <= tl t -> 0 <= te t -> tl t <= MAXV -> tmerge 0 tnone t = t.
Proof.
  intros. destruct t as [d w e l]. unfold tmerge, tnone; dcbn. pose proof MAXV_pos.
  f_equal; zcases.
Qed.

Lemma twait_tmerge r edge a b : te a <= tl a -> te b <= tl b ->
  tmerge edge (twait r a) b = twait r (tmerge edge a b).
Proof.
  intros Ha Hb. apply tws_ext.
  - apply tmerge_window; [unfold twait; dcbn; lia | exact Hb].
  - pose proof (tmerge_window edge a b Ha Hb). unfold twait; dcbn. lia.
  - rewrite tmerge_beh, !twait_beh, tmerge_beh; try assumption.
    + rewrite bseq_assoc. reflexivity.
    + apply tmerge_window; assumption.
    + unfold twait; dcbn. lia.
Qed.

Lemma twait_0 t : 0 <= te t -> te t <= tl t -> twait 0 t = t.
Proof. intros. destruct t as [d w e l]. unfold twait; dcbn. f_equal; lia. Qed.

Lemma twait_twait a b t : twait a (twait b t) = twait (Z.max a b) t.
Proof. destruct t as [d w e l]. unfold twait; dcbn. f_equal; lia. Qed.

Lemma tmerge_assoc e1 e2 a b c : te a <= tl a -> te b <= tl b -> te c <= tl c ->
  tmerge e2 (tmerge e1 a b) c = tmerge e1 a (tmerge e2 b c).
Proof.
  intros Ha Hb Hc. apply tws_ext.
  - apply tmerge_window; [apply tmerge_window|]; assumption.
  - apply tmerge_window; [|apply tmerge_window]; assumption.
  - rewrite !tmerge_beh; try (apply tmerge_window); try assumption.
    rewrite !bseq_assoc. reflexivity.
Qed.

(** Once [A] is done it is at least [tendE A], so waiting until then changes nothing. *)
Lemma Tot_wait_end A B r : te A <= tl A -> te B <= tl B ->
  Tot A (twait (tendE A) B) r = Tot A B r.
Proof.
  intros HA HB. apply tws_ext.
  - apply tmerge_window; [exact HA | unfold twait; dcbn; lia].
  - apply tmerge_window; [exact HA | unfold twait; dcbn; lia].
  - rewrite !Tot_beh, twait_beh; try assumption; [ | unfold twait; dcbn; lia].
    intros x. unfold bseq, bwait, bend; cbn [fst snd].
    assert (HE : tendE A <= x + fst (tbeh A x) - snd (tbeh A x)).
    { unfold tendE, tbeh; cbn [fst snd]. lia. }
    generalize dependent (x + fst (tbeh A x) - snd (tbeh A x)). intros y Hy.
    replace (y + Z.max 0 (r - y) - 0) with (Z.max y r) by lia.
    replace (Z.max y r + Z.max 0 (tendE A - Z.max y r) - 0) with (Z.max y r) by lia.
    f_equal; lia.
Qed.

(** The representation used for scanning a route from the front: [H] bounds all opening times
    plus all work. *)
Record RepN (h N nA nB : Z) (s : dseg) (A B : tws) (r : Z) : Prop := mk_RepN {
  rn_rep : Rep (h + N) N s A (twait (tendE A) B) r;
  rn_A : okt h nA A;
  rn_B : okt h nB B;
  rn_r : r <= h;
  rn_sum : nA + nB <= N }.

Lemma okt_endE h n t : okt h n t -> 0 <= tendE t <= h + n.
Proof. intros []. unfold tendE. zcases. Qed.

Lemma RepN_init h N nB s : 4 * (h + N) <= MAXV -> nB <= N ->
  okt h nB (plain s) -> ds_cdur s = 0 -> ds_ctw s = 0 -> ds_pel s = MAXV -> 0 <= ds_rel s <= h ->
  RepN h N 0 nB s tnone (plain s) (ds_rel s).
Proof.
  intros Hh HN Hok H1 H2 H3 H4.
  assert (0 <= nB) by (destruct Hok; lia).
  assert (Hnone : okt h 0 tnone) by (apply tskip_ok; lia).
  constructor; try lia; try assumption.
  replace (tendE tnone) with 0 by reflexivity.
  rewrite twait_0 by (destruct Hok; lia).
  assert (E0 : tendE tnone = 0) by reflexivity.
  assert (L0 : tendL tnone = MAXV) by reflexivity.
  assert (0 <= h) by (destruct Hnone; cbn [tnone te] in *; lia).
  constructor.
  - reflexivity.
  - exact H1.
  - exact H2.
  - lia.
  - lia.
  - apply (okt_mono h (h + N) 0 N); try lia. exact Hnone.
  - apply (okt_mono h (h + N) nB N); try lia. exact Hok.
  - lia.
  - lia.
Qed.

Lemma RepN_merge h N nA nB n2 edge s A B r s2 : 0 <= edge -> 4 * (h + N) <= MAXV ->
  RepN h N nA nB s A B r -> okt h n2 (plain s2) -> ds_cdur s2 = 0 -> ds_ctw s2 = 0 ->
  0 <= ds_rel s2 <= h -> nA + (nB + edge + n2) <= N ->
  RepN h N nA (nB + edge + n2) (ds_merge edge s s2) A (tmerge edge B (plain s2))
       (Z.max r (ds_rel s2)).
Proof.
  intros He Hh [HR HA HB Hr Hs] H2 Hc1 Hc2 Hrel HN.
  assert (0 <= n2) by (destruct H2; lia). assert (0 <= nA) by (destruct HA; lia).
  assert (0 <= nB) by (destruct HB; lia).
  assert (Hm : okt h (nB + edge + n2) (tmerge edge B (plain s2))) by (apply okt_merge; assumption).
  constructor; try assumption; try lia.
  assert (HR2 : Rep (h + N) (N + edge + n2) (ds_merge edge s s2) A
              (tmerge edge (twait (tendE A) B) (plain s2)) (Z.max r (ds_rel s2))).
  { apply Rep_merge; try assumption; try lia.
    apply (okt_mono h (h + N) n2 n2); try lia. exact H2. }
  rewrite twait_tmerge in HR2 by (destruct HB, H2; assumption).
  destruct HR2. constructor; try assumption.
  - destruct HR; assumption.
  - pose proof (okt_endE _ _ _ HA). apply okt_wait; try lia.
    apply (okt_mono h (h + N) (nB + edge + n2) N); try lia. exact Hm.
Qed.

Lemma RepN_Tot h N nA nB s A B r : 4 * (h + N) <= MAXV ->
  RepN h N nA nB s A B r ->
  ds_duration s = td (Tot A B r) /\
  ds_ctw s + ds_tw s + Z.max (ds_rel s - ds_late s) 0 = tw (Tot A B r) /\
  okt h (nA + nB) (Tot A B r).
Proof.
  intros Hh [HR HA HB Hr Hs].
  assert (0 <= nA) by (destruct HA; lia). assert (0 <= nB) by (destruct HB; lia).
  assert (0 <= r) by (destruct HR; lia).
  assert (0 <= h) by (destruct HA; lia).
  rewrite <- (Tot_wait_end A B r) by (destruct HA, HB; assumption).
  split; [|split].
  - eapply Rep_duration; [|exact HR]. lia.
  - eapply Rep_timeWarp; [|exact HR]. lia.
  - rewrite Tot_wait_end by (destruct HA, HB; assumption).
    replace (nA + nB) with (nA + 0 + nB) by lia. apply Tot_okt; try assumption; lia.
Qed.

Lemma RepN_finaliseBack h N nA nB s A B r : 4 * (h + N) <= MAXV ->
  RepN h N nA nB s A B r ->
  RepN h N (nA + nB) 0 (ds_finaliseBack s) (Tot A B r) tnone 0.
Proof.
  intros Hh HRN.
  destruct (RepN_Tot h N nA nB s A B r Hh HRN) as (_ & _ & Hok).
  destruct HRN as [HR HA HB Hr Hs].
  assert (0 <= nA) by (destruct HA; lia). assert (0 <= nB) by (destruct HB; lia).
  assert (0 <= h) by (destruct HA; lia).
  pose proof (okt_endE _ _ _ Hok).
  assert (Hnone : okt h 0 tnone) by (apply tskip_ok; lia).
  constructor; try assumption; try lia.
  rewrite <- (Tot_wait_end A B r) by (destruct HA, HB; assumption).
  replace (twait (tendE (Tot A (twait (tendE A) B) r)) tnone)
    with (mk_tws 0 0 (tendE (Tot A (twait (tendE A) B) r)) MAXV).
  2:{ rewrite Tot_wait_end by (destruct HA, HB; assumption).
      unfold twait, tnone; dcbn. f_equal; lia. }
  apply Rep_finaliseBack; try assumption; try lia.
  - rewrite Tot_wait_end by (destruct HA, HB; assumption). lia.
  - rewrite Tot_wait_end by (destruct HA, HB; assumption).
    apply (okt_mono h (h + N) (nA + nB) N); try lia. exact Hok.
Qed.
