(** Durations of routes: the cached forward and backward segments of a search route and the
    evaluation of proposals against one reference behaviour. *)
From Verif Require Import Base DurationSegment Beh Tws DurationFacts Data LoadSegment SearchRoute.

Section RouteDur.
Variable d : pdata.
Variable D : nat -> nat -> Z.
Hypothesis D_nonneg : forall a b, 0 <= D a b.
Variable h : Z.
Hypothesis h_bound : 2 * h <= MAXV.
Hypothesis h_nonneg : 0 <= h.

(** ** Segments without history. *)
Record good (n : Z) (s : dseg) (f : beh) (r : Z) : Prop := mk_good {
  gd_ok : okt h n (plain s);
  gd_beh : tbeh (plain s) == f;
  gd_rel : ds_rel s = r;
  gd_r : 0 <= r <= h;
  gd_cdur : ds_cdur s = 0;
  gd_ctw : ds_ctw s = 0;
  gd_pel : ds_pel s = MAXV }.

Lemma good_merge n1 n2 e s1 s2 f1 f2 r1 r2 : 0 <= e ->
  good n1 s1 f1 r1 -> good n2 s2 f2 r2 ->
  good (n1 + e + n2) (ds_merge e s1 s2) (f1 ;; bspend e ;; f2) (Z.max r1 r2).
Proof.
  intros He [] [].
  assert (Hp : plain (ds_merge e s1 s2) = tmerge e (plain s1) (plain s2))
    by (eapply plain_merge; eassumption).
  constructor.
  - rewrite Hp. apply okt_merge; assumption.
  - rewrite Hp, tmerge_beh; [ | destruct gd_ok0; assumption | destruct gd_ok1; assumption].
    rewrite gd_beh0, gd_beh1. reflexivity.
  - unfold ds_merge; cbn [ds_rel]. lia.
  - lia.
  - unfold ds_merge; cbn [ds_cdur]. lia.
  - unfold ds_merge; cbn [ds_ctw]. lia.
  - unfold ds_merge; cbn [ds_pel]. assumption.
Qed.

Lemma good_front n s f r : good n s f r -> good n (ds_finaliseFront s) (bwait r ;; f) 0.
Proof.
  intros [].
  assert (Hs : 0 <= ds_late s <= MAXV /\ ds_early s <= ds_late s)
    by (destruct gd_ok0, s; unfold plain in *; dcbn; lia).
  assert (Hp : plain (ds_finaliseFront s) = twait (ds_rel s) (plain s))
    by (apply plain_finaliseFront; lia).
  constructor.
  - rewrite Hp. apply okt_wait; [lia | lia | assumption].
  - rewrite Hp, twait_beh by (destruct gd_ok0; assumption).
    rewrite gd_beh0, gd_rel0. reflexivity.
  - rewrite finaliseFront_plain by lia. reflexivity.
  - lia.
  - rewrite finaliseFront_plain by lia. reflexivity.
  - rewrite finaliseFront_plain by lia. reflexivity.
  - rewrite finaliseFront_plain by lia. reflexivity.
Qed.

Lemma good_eq n s f g r : f == g -> good n s f r -> good n s g r.
Proof. intros H []; constructor; try assumption. rewrite gd_beh0. exact H. Qed.

Lemma good_n n m s f r : n <= m -> good n s f r -> good m s f r.
Proof. intros H []; constructor; try assumption. eapply okt_mono; [| exact H | eassumption]. lia. Qed.

Lemma bseq_pt f g1 g2 : (forall t, g1 (bend f t) = g2 (bend f t)) -> f ;; g1 == f ;; g2.
Proof. intros H x. unfold bseq. fold (bend f x). rewrite H. reflexivity. Qed.

Lemma tbeh_raw v e l : e <= l -> tbeh (mk_tws v 0 e l) == bwindow e l ;; bspend v.
Proof.
  intros H x. unfold tbeh, bseq, bwindow, bspend; cbn [td tw te tl fst snd]. f_equal; lia.
Qed.

(** A window up to a time no earlier than the next closing time does not clamp. *)
Lemma clamp_noop M v t : 0 <= v -> tl t <= M -> te t <= tl t -> 0 <= M ->
  bwindow 0 M ;; bspend v ;; tbeh t == bwait 0 ;; bspend v ;; tbeh t.
Proof.
  intros Hv Hl He HM x. unfold bseq, bwindow, bspend, bwait, tbeh, bend; cbn [fst snd].
  f_equal; lia.
Qed.

Lemma none_noop r t : 0 <= r <= MAXV -> te t <= tl t -> tl t <= MAXV ->
  tbeh tnone ;; bwait r ;; tbeh t == bwait r ;; tbeh t.
Proof.
  intros Hr He Hl x. pose proof MAXV_pos. unfold tnone, bseq, bwait, tbeh, bend; cbn [td tw te tl fst snd].
  f_equal; lia.
Qed.

Lemma end_wait0 n t e : okt h n t -> 0 <= e -> tbeh t ;; bspend e ;; bwait 0 == tbeh t ;; bspend e.
Proof.
  intros [] He x. unfold bseq, bspend, bwait, tbeh, bend; cbn [fst snd]. f_equal; lia.
Qed.

Lemma good_service v : 0 <= v -> good v (ds_service v) (bwindow 0 MAXV ;; bspend v) 0.
Proof.
  intros Hv. pose proof MAXV_pos. constructor; try reflexivity; try lia.
  - constructor; unfold ds_service, plain; dcbn; lia.
  - unfold plain, ds_service; dcbn. apply tbeh_raw. lia.
Qed.

Lemma good_service_merge v n s f r : 0 <= v -> good n s f r ->
  good (v + n) (ds_merge0 (ds_service v) s) (bwait 0 ;; bspend v ;; f) r.
Proof.
  intros Hv Hs. pose proof MAXV_pos.
  pose proof (good_merge v n 0 (ds_service v) s _ f 0 r ltac:(lia) (good_service v Hv) Hs) as Hg.
  replace (Z.max 0 r) with r in Hg by (destruct Hs; lia).
  replace (v + 0 + n) with (v + n) in Hg by lia.
  eapply good_eq; [|exact Hg].
  rewrite bspend_0, bskip_l, bseq_assoc. destruct Hs as [[] Hb _ _ _ _ _].
  rewrite <- Hb. apply clamp_noop; lia.
Qed.

(** Windows. *)
Lemma window_idem e l r : e <= l -> r <= l ->
  bwindow e l ;; bwait r ;; bwindow e l == bwindow e l ;; bwait r.
Proof.
  intros He Hr x. unfold bseq, bwindow, bwait, bend; cbn [fst snd]. f_equal; lia.
Qed.

Lemma window_idem' e l r f : e <= l -> r <= l ->
  bwindow e l ;; bwait r ;; bwindow e l ;; f == bwindow e l ;; bwait r ;; f.
Proof.
  intros He Hr.
  transitivity ((bwindow e l ;; bwait r ;; bwindow e l) ;; f);
    [rewrite !bseq_assoc; reflexivity|].
  rewrite (window_idem e l r He Hr). rewrite !bseq_assoc. reflexivity.
Qed.

Lemma window_wait0 M : 0 <= M -> bwindow 0 M ;; bwait 0 == bwindow 0 M.
Proof. intros HM x. unfold bseq, bwindow, bwait, bend; cbn [fst snd]. f_equal; lia. Qed.

Lemma wait_window e l r : e <= l -> r <= l ->
  bwait r ;; bwindow e l == bwindow e l ;; bwait r.
Proof. intros He Hr x. unfold bseq, bwindow, bwait, bend; cbn [fst snd]. f_equal; lia. Qed.

(** ** Items. *)
Definition it_win (x : item) : beh := tbeh (plain (it_dur x)).
Definition iw (x : item) : Z := ds_dur (it_dur x) + if it_reload x then it_srv d x else 0.

Record item_ok (x : item) : Prop := mk_item_ok {
  io_good : good (ds_dur (it_dur x)) (it_dur x) (it_win x) (ds_rel (it_dur x));
  io_reload : it_reload x = true ->
    it_dur x = ds_depot (p_depot d (a_idx (it_act x))) 0 /\ 0 <= it_srv d x }.

(** Release time of the current trip: the largest one up to the next reload. *)
Fixpoint trel (l : list item) : Z :=
  match l with
  | [] => 0
  | x :: xs => if it_reload x then 0 else Z.max (ds_rel (it_dur x)) (trel xs)
  end.

Definition srvb (x : item) : beh := if it_reload x then bspend (it_srv d x) else bskip.
Definition waitb (x : item) (xs : list item) : beh := if it_reload x then bwait (trel xs) else bskip.

(** Reference behaviour of the rest of a route, after having finished at [prev]. *)
Fixpoint go (prev : item) (l : list item) : beh :=
  match l with
  | [] => bskip
  | x :: xs => bspend (D (it_loc prev) (it_loc x)) ;; waitb x xs ;; it_win x ;; srvb x ;; go x xs
  end.

Definition enter (l : list item) : beh :=
  match l with
  | [] => bskip
  | x :: xs => waitb x xs ;; it_win x ;; srvb x ;; go x xs
  end.

(** The whole route. *)
Definition ref (l : list item) : beh :=
  match l with
  | [] => bskip
  | x :: xs => bwait (Z.max (ds_rel (it_dur x)) (trel xs)) ;; it_win x ;; go x xs
  end.

Fixpoint wrk (prev : item) (l : list item) : Z :=
  match l with
  | [] => 0
  | x :: xs => D (it_loc prev) (it_loc x) + iw x + wrk x xs
  end.

(** No release time is later than the closing time of the (reload) depot where its trip
    starts. *)
Fixpoint R1 (l : list item) : Prop :=
  match l with
  | [] => True
  | x :: xs => (it_reload x = true -> trel xs <= ds_late (it_dur x)) /\ R1 xs
  end.

Lemma iw_nonneg x : item_ok x -> 0 <= iw x.
Proof.
  intros [Hg Hr]. unfold iw.
  pose proof (ok_d _ _ _ (gd_ok _ _ _ _ Hg)) as Hd. unfold plain in Hd; cbn [td] in Hd.
  destruct (it_reload x); [destruct (Hr eq_refl) |]; lia.
Qed.

Lemma wrk_nonneg prev l : Forall item_ok l -> 0 <= wrk prev l.
Proof.
  revert prev; induction l as [|x l IH]; intros prev H; cbn [wrk]; [lia|].
  inversion H; subst. pose proof (iw_nonneg x H2). pose proof (IH x H3).
  pose proof (D_nonneg (it_loc prev) (it_loc x)). lia.
Qed.

Lemma trel_bound l : Forall item_ok l -> 0 <= trel l <= h.
Proof.
  induction l as [|x l IH]; cbn [trel]; intros H; [lia|].
  inversion H as [|? ? Hx Hl]; subst. destruct (it_reload x); [lia|].
  pose proof (gd_r _ _ _ _ (io_good _ Hx)). specialize (IH Hl). lia.
Qed.

Lemma item_reload_win x : item_ok x -> it_reload x = true ->
  it_win x == bwindow (ds_early (it_dur x)) (ds_late (it_dur x)) /\
  ds_early (it_dur x) <= ds_late (it_dur x) /\ ds_rel (it_dur x) = 0 /\ ds_dur (it_dur x) = 0.
Proof.
  intros [Hg Hr] H. destruct (Hr H) as [He _].
  assert (Hel : ds_early (it_dur x) <= ds_late (it_dur x))
    by exact (ok_el _ _ _ (gd_ok _ _ _ _ Hg)).
  split; [|split; [exact Hel | rewrite He; split; reflexivity]].
  unfold it_win. rewrite He in *. unfold plain, ds_depot in *; dcbn.
  rewrite tbeh_raw by exact Hel. rewrite bspend_0, bskip_r. reflexivity.
Qed.

(** ** durAfter *)
Lemma after_array_cons x xs : exists s rest, after_array d D (x :: xs) = s :: rest.
Proof.
  cbn [after_array]. destruct xs; [eexists; eexists; reflexivity|].
  destruct (after_array d D (i :: xs)); eexists; eexists; reflexivity.
Qed.

Lemma after_array_length l : length (after_array d D l) = length l.
Proof.
  induction l as [|x l IH]; [reflexivity|].
  destruct l as [|y l]; [reflexivity|].
  destruct (after_array_cons y l) as (s & rest & E).
  cbn [after_array] in *. cbn [length]. rewrite E in *. cbn [length] in *. lia.
Qed.

Lemma after_array_skipn l i : after_array d D (skipn i l) = skipn i (after_array d D l).
Proof.
  revert i; induction l as [|x l IH]; intros i; [destruct i; reflexivity|].
  destruct i; [reflexivity|].
  cbn [skipn]. rewrite IH.
  destruct l as [|y l]; [destruct i; reflexivity|].
  destruct (after_array_cons y l) as (s & rest & E).
  change (after_array d D (x :: y :: l)) with
    (match after_array d D (y :: l) with
     | nextDur :: _ => after_step d D x y nextDur :: after_array d D (y :: l)
     | [] => [it_dur x] end).
  rewrite E. reflexivity.
Qed.

Fixpoint lastof (x : item) (xs : list item) : item :=
  match xs with
  | [] => x
  | y :: ys => lastof y ys
  end.

Lemma after_array_cons2 x y ys : after_array d D (x :: y :: ys) =
  after_step d D x y (hd dnone (after_array d D (y :: ys))) :: after_array d D (y :: ys).
Proof.
  destruct (after_array_cons y ys) as (s & rest & E).
  change (after_array d D (x :: y :: ys)) with
    (match after_array d D (y :: ys) with
     | nextDur :: _ => after_step d D x y nextDur :: after_array d D (y :: ys)
     | [] => [it_dur x] end).
  rewrite E. reflexivity.
Qed.

Lemma after_good xs : forall x, item_ok x -> Forall item_ok xs ->
  it_reload (lastof x xs) = false ->
  good (iw x + wrk x xs) (hd dnone (after_array d D (x :: xs)))
       (it_win x ;; srvb x ;; go x xs)
       (Z.max (ds_rel (it_dur x)) (trel xs)).
Proof.
  induction xs as [|y ys IH]; intros x Hx Hxs HL.
  - cbn [lastof] in HL. cbn [after_array hd go wrk trel]. unfold srvb, iw; rewrite HL.
    destruct Hx as [Hx _]. eapply good_eq; [|].
    2:{ replace (Z.max (ds_rel (it_dur x)) 0) with (ds_rel (it_dur x)) by (destruct Hx; lia).
        eapply good_n; [|exact Hx]. lia. }
    rewrite !bskip_r. reflexivity.
  - inversion Hxs as [|? ? Hy Hys]; subst. cbn [lastof] in HL.
    specialize (IH y Hy Hys HL).
    rewrite after_array_cons2. cbn [hd].
    set (s := hd dnone (after_array d D (y :: ys))) in *.
    pose proof (D_nonneg (it_loc x) (it_loc y)) as HD.
    (* the segment after travelling to y *)
    assert (H1 : good (iw y + wrk y ys) (if it_reload y then ds_finaliseFront s else s)
                   (enter (y :: ys)) (trel (y :: ys))).
    { cbn [enter trel]. unfold waitb. destruct (it_reload y) eqn:Ey.
      - destruct (item_reload_win y Hy Ey) as (_ & _ & Hr & _).
        apply good_front in IH. rewrite Hr in IH.
        replace (Z.max 0 (trel ys)) with (trel ys) in IH by (pose proof (trel_bound ys Hys); lia).
        exact IH.
      - eapply good_eq; [|exact IH]. rewrite bskip_l. reflexivity. }
    unfold after_step.
    set (a := if it_reload y then ds_finaliseFront s else s) in *.
    pose proof (trel_bound (y :: ys) Hxs) as Ht.
    unfold srvb at 1, iw at 1. destruct (it_reload x) eqn:Ex.
    + destruct (item_reload_win x Hx Ex) as (_ & _ & Hr & Hd0).
      destruct (io_reload x Hx Ex) as [_ Hsrv].
      pose proof (good_service_merge _ _ _ _ _ Hsrv H1) as H2.
      pose proof (good_merge _ _ _ _ _ _ _ _ _ HD (io_good _ Hx) H2) as H3.
      eapply good_n; [|eapply good_eq; [|exact H3]].
      * cbn [wrk]. lia.
      * cbn [go].
        rewrite <- !bseq_assoc.
        assert (E0 : (it_win x ;; bspend (D (it_loc x) (it_loc y))) ;; bwait 0 ==
                     it_win x ;; bspend (D (it_loc x) (it_loc y))).
        { rewrite bseq_assoc. eapply end_wait0; [exact (gd_ok _ _ _ _ (io_good _ Hx)) | exact HD]. }
        rewrite E0. rewrite !bseq_assoc. cbn [enter].
        rewrite <- (bseq_assoc (bspend _) (bspend _)).
        rewrite bspend_add, Z.add_comm, <- bspend_add, !bseq_assoc. reflexivity.
    + pose proof (good_merge _ _ _ _ _ _ _ _ _ HD (io_good _ Hx) H1) as H3.
      eapply good_n; [|eapply good_eq; [|exact H3]].
      * cbn [wrk]. lia.
      * cbn [go enter]. rewrite bskip_l. reflexivity.
Qed.

(** ** durBefore *)
Definition cont (x : item) (suf : list item) : beh :=
  if it_reload x then bwait (trel suf) ;; bspend (it_srv d x) ;; go x suf else go x suf.

Definition pend (x : item) : Z := if it_reload x then it_srv d x else 0.

Variable N : Z.
Hypothesis N_bound : 4 * (h + N) <= MAXV.

Record prefix_ok (W : Z) (p : list item) (x : item) (s : dseg) (nA nB : Z) (A B : tws) (r : Z)
  : Prop := mk_prefix_ok {
  po_rep : RepN h N nA nB s A B r;
  po_sum : nA + nB + pend x <= W;
  po_last : exists p0, p = p0 ++ [x];
  po_win : it_reload x = true ->
           forall t, ds_early (it_dur x) <= bend (tbeh B) t <= ds_late (it_dur x);
  po_sem : forall suf, Forall item_ok suf -> R1 (p ++ suf) ->
    ref (p ++ suf) ==
    tbeh A ;; bwait (Z.max r (if it_reload x then 0 else trel suf)) ;; tbeh B ;; cont x suf }.

Fixpoint bfold (prev : item) (acc : dseg) (l : list item) : dseg :=
  match l with
  | [] => acc
  | x :: xs => bfold x (before_step d D prev acc x) xs
  end.

Lemma before_loop_nth l : forall i prev acc, (i < length l)%nat ->
  nth i (before_loop d D prev acc l) dnone = bfold prev acc (firstn (S i) l).
Proof.
  induction l as [|x l IH]; intros i prev acc Hi; [cbn in Hi; lia|].
  cbn [before_loop]. destruct i; [destruct l; reflexivity|].
  cbn [nth]. rewrite IH by (cbn in Hi; lia). reflexivity.
Qed.

Lemma before_array_nth x l i : (i <= length l)%nat ->
  nth i (before_array d D (x :: l)) dnone = bfold x (it_dur x) (firstn i l).
Proof.
  intros Hi. cbn [before_array]. destruct i; [reflexivity|].
  cbn [nth]. apply before_loop_nth. lia.
Qed.

Lemma R1_mid a y ys : R1 (a ++ y :: ys) -> it_reload y = true -> trel ys <= ds_late (it_dur y).
Proof.
  induction a as [|x a IH]; cbn [app R1]; intros [H1 H2] Hy; [apply H1; exact Hy|].
  apply IH; assumption.
Qed.

Lemma R1_app a b : R1 (a ++ b) -> R1 b.
Proof. induction a as [|x a IH]; cbn [app R1]; [tauto|]. intros [_ H]. apply IH; exact H. Qed.

Lemma bwait_0_r t : 0 <= t -> bwait t ;; bwait 0 == bwait t.
Proof. intros H. rewrite bwait_wait. rewrite Z.max_l by lia. reflexivity. Qed.

Lemma win_bounds y : item_ok y -> it_reload y = true ->
  forall x, ds_early (it_dur y) <= bend (it_win y) x <= ds_late (it_dur y).
Proof.
  intros Hy Ey x. destruct (item_reload_win y Hy Ey) as (Hw & Hel & _ & _).
  unfold bend. rewrite (Hw x). unfold bwindow; cbn [fst snd]. lia.
Qed.

Lemma prefix_step W p x s nA nB A B r y :
  prefix_ok W p x s nA nB A B r -> item_ok x -> item_ok y ->
  W + D (it_loc x) (it_loc y) + iw y <= N ->
  exists nA' nB' A' B' r',
    prefix_ok (W + D (it_loc x) (it_loc y) + iw y) (p ++ [y]) y
              (before_step d D x s y) nA' nB' A' B' r'.
Proof.
  intros [HR HS _ _ Hsem] Hx Hy HN.
  pose proof (D_nonneg (it_loc x) (it_loc y)) as HD.
  pose proof Hy as Hy'. destruct Hy as [Hyg Hyr].
  assert (Hyok := gd_ok _ _ _ _ Hyg).
  assert (Hn2 : 0 <= ds_dur (it_dur y)) by exact (ok_d _ _ _ Hyok).
  assert (Hr0 : 0 <= r) by (destruct HR as [[] _ _ _ _]; lia).
  assert (Hpy : 0 <= pend y).
  { unfold pend. destruct (it_reload y); [destruct (Hyr eq_refl); lia | lia]. }
  assert (Hiw : iw y = ds_dur (it_dur y) + pend y) by reflexivity.
  assert (Hpx : pend x = if it_reload x then it_srv d x else 0) by reflexivity.
  rewrite Hpx in HS. clear Hpx. unfold before_step.
  destruct (it_reload x) eqn:Ex.
  - (* the previous node is a reload depot *)
    destruct (io_reload x Hx Ex) as [_ Hsrv].
    pose proof (RepN_finaliseBack h N nA nB s A B r N_bound HR) as H1.
    assert (Hsok : okt h (it_srv d x) (plain (ds_service (it_srv d x))))
      by exact (gd_ok _ _ _ _ (good_service _ Hsrv)).
    pose proof (RepN_merge h N (nA + nB) 0 (it_srv d x) 0 _ _ _ _ (ds_service (it_srv d x))
      ltac:(lia) N_bound H1 Hsok eq_refl eq_refl ltac:(cbn; lia) ltac:(lia)) as H2.
    pose proof (RepN_merge h N (nA + nB) _ (ds_dur (it_dur y)) (D (it_loc x) (it_loc y)) _ _ _ _
      (it_dur y) HD N_bound H2 Hyok (gd_cdur _ _ _ _ Hyg) (gd_ctw _ _ _ _ Hyg)
      (gd_r _ _ _ _ Hyg) ltac:(lia)) as H3.
    eexists _, _, _, _, _. constructor.
    + exact H3.
    + lia.
    + eexists; reflexivity.
    + intros Ey t.
      assert (Ht : tbeh (tmerge (D (it_loc x) (it_loc y))
                 (tmerge 0 tnone (plain (ds_service (it_srv d x)))) (plain (it_dur y))) ==
              (tbeh (tmerge 0 tnone (plain (ds_service (it_srv d x)))) ;;
               bspend (D (it_loc x) (it_loc y))) ;; it_win y).
      { rewrite tmerge_beh, bseq_assoc; [reflexivity | | exact (ok_el _ _ _ Hyok)].
        apply tmerge_window; [cbn; pose proof MAXV_pos; lia | exact (ok_el _ _ _ Hsok)]. }
      unfold bend at 1 2. rewrite (Ht t). fold (bend ((tbeh (tmerge 0 tnone (plain (ds_service (it_srv d x)))) ;;
               bspend (D (it_loc x) (it_loc y))) ;; it_win y) t).
      rewrite bend_seq. apply win_bounds; assumption.
    + intros suf Hsuf HR1.
      rewrite <- app_assoc in *. cbn [app] in *.
      rewrite (Hsem (y :: suf)); [ | constructor; assumption | exact HR1].
      pose proof (trel_bound suf Hsuf) as Hts.
      pose proof (gd_r _ _ _ _ Hyg) as Hry.
      rewrite Z.max_l by lia.
      rewrite Tot_beh; [ | destruct HR as [_ [] _ _ _]; assumption | destruct HR as [_ _ [] _ _]; assumption].
      rewrite !bseq_assoc.
      (* the new current trip *)
      assert (HB : tbeh (tmerge (D (it_loc x) (it_loc y))
                 (tmerge 0 tnone (plain (ds_service (it_srv d x)))) (plain (it_dur y))) ==
              bwait 0 ;; bspend (it_srv d x) ;; bspend (D (it_loc x) (it_loc y)) ;; it_win y).
      { rewrite tmerge_beh; [ | apply tmerge_window; [cbn; pose proof MAXV_pos; lia | exact (ok_el _ _ _ Hsok)] | exact (ok_el _ _ _ Hyok)].
        rewrite tmerge_beh; [ | cbn; pose proof MAXV_pos; lia | exact (ok_el _ _ _ Hsok)].
        unfold plain at 1, ds_service; dcbn.
        unfold tnone. rewrite !tbeh_raw by (pose proof MAXV_pos; lia).
        rewrite !bseq_assoc, !bspend_0, !bskip_l.
        rewrite <- (bseq_assoc (bspend (it_srv d x))).
        rewrite bspend_add.
        pose proof MAXV_pos.
        assert (Hc := clamp_noop MAXV (it_srv d x + D (it_loc x) (it_loc y)) (plain (it_dur y))
                 ltac:(lia) (ok_l _ _ _ Hyok) (ok_el _ _ _ Hyok) ltac:(lia)).
        rewrite Hc. rewrite <- (bseq_assoc (bwindow _ _) (bwait 0)), window_wait0 by lia.
        rewrite Hc. fold (it_win y).
        rewrite <- bspend_add, bseq_assoc. reflexivity. }
      rewrite HB. clear HB. rewrite !bseq_assoc.
      cbn [cont]. unfold cont. rewrite Ex. cbn [go].
      cbn [plain ds_service ds_rel] in *.
      unfold waitb, srvb. cbn [trel].
      destruct (it_reload y) eqn:Ey.
      * destruct (item_reload_win y Hy' Ey) as (Hw & Hel & Hry0 & _).
        rewrite Hry0. change (Z.max (Z.max (Z.max 0 0) 0) 0) with 0.
        pose proof (R1_mid p y suf HR1 Ey) as Hlate.
        rewrite Hw.
        rewrite <- (bseq_assoc (bwait (trel suf))).
        rewrite (wait_window _ _ _ Hel Hlate).
        rewrite !bseq_assoc. rewrite <- (bseq_assoc (bwait 0) (bwait 0)), bwait_0_r by lia.
        reflexivity.
      * replace (Z.max (Z.max (Z.max 0 0) (ds_rel (it_dur y))) (trel suf))
          with (Z.max (ds_rel (it_dur y)) (trel suf)) by lia.
        rewrite <- (bseq_assoc (bwait (Z.max _ _)) (bwait 0)), bwait_0_r by lia.
        rewrite !bskip_l. reflexivity.
  - (* the previous node is not a reload depot *)
    pose proof (RepN_merge h N nA nB (ds_dur (it_dur y)) (D (it_loc x) (it_loc y)) _ _ _ _
      (it_dur y) HD N_bound HR Hyok (gd_cdur _ _ _ _ Hyg) (gd_ctw _ _ _ _ Hyg)
      (gd_r _ _ _ _ Hyg) ltac:(lia)) as H3.
    assert (HBe : te B <= tl B) by (destruct HR as [_ _ [] _ _]; assumption).
    eexists _, _, _, _, _. constructor.
    + exact H3.
    + lia.
    + eexists; reflexivity.
    + intros Ey t.
      assert (Ht : tbeh (tmerge (D (it_loc x) (it_loc y)) B (plain (it_dur y))) ==
              (tbeh B ;; bspend (D (it_loc x) (it_loc y))) ;; it_win y).
      { rewrite tmerge_beh, bseq_assoc; [reflexivity | exact HBe | exact (ok_el _ _ _ Hyok)]. }
      unfold bend at 1 2. rewrite (Ht t).
      fold (bend ((tbeh B ;; bspend (D (it_loc x) (it_loc y))) ;; it_win y) t).
      rewrite bend_seq. apply win_bounds; assumption.
    + intros suf Hsuf HR1.
      rewrite <- app_assoc in *. cbn [app] in *.
      rewrite (Hsem (y :: suf)); [ | constructor; assumption | exact HR1].
      pose proof (trel_bound suf Hsuf) as Hts.
      pose proof (gd_r _ _ _ _ Hyg) as Hry.
      rewrite tmerge_beh; [ | exact HBe | exact (ok_el _ _ _ Hyok)].
      unfold cont. rewrite Ex. cbn [go]. unfold waitb, srvb. fold (it_win y).
      rewrite !bseq_assoc. cbn [trel].
      destruct (it_reload y) eqn:Ey.
      * destruct (item_reload_win y Hy' Ey) as (Hw & Hel & Hry0 & _).
        rewrite Hry0. rewrite !(Z.max_l r 0) by lia.
        pose proof (R1_mid p y suf HR1 Ey) as Hlate.
        rewrite Hw.
        rewrite <- (bseq_assoc (bwait (trel suf))).
        rewrite (wait_window _ _ _ Hel Hlate).
        rewrite !bseq_assoc. reflexivity.
      * rewrite <- Z.max_assoc. rewrite !bskip_l. reflexivity.
Qed.

Lemma prefix_gen l : forall W p x s nA nB A B r,
  prefix_ok W p x s nA nB A B r -> item_ok x -> Forall item_ok l ->
  W + wrk x l <= N ->
  exists nA' nB' A' B' r',
    prefix_ok (W + wrk x l) (p ++ l) (lastof x l) (bfold x s l) nA' nB' A' B' r'.
Proof.
  induction l as [|y l IH]; intros W p x s nA nB A B r HP Hx Hl HN; cbn [wrk lastof bfold] in *.
  - exists nA, nB, A, B, r. rewrite app_nil_r. replace (W + 0) with W by lia. exact HP.
  - inversion Hl as [|? ? Hy Hl']; subst.
    pose proof (wrk_nonneg y l Hl').
    destruct (prefix_step W p x s nA nB A B r y HP Hx Hy ltac:(lia))
      as (nA' & nB' & A' & B' & r' & HP').
    destruct (IH _ _ _ _ _ _ _ _ _ HP' Hy Hl' ltac:(lia)) as (nA2 & nB2 & A2 & B2 & r2 & HP2).
    exists nA2, nB2, A2, B2, r2.
    rewrite <- app_assoc in HP2. cbn [app] in HP2.
    replace (W + (D (it_loc x) (it_loc y) + iw y + wrk y l))
      with (W + D (it_loc x) (it_loc y) + iw y + wrk y l) by lia.
    exact HP2.
Qed.

Lemma prefix_start x : item_ok x -> it_reload x = false -> iw x <= N ->
  prefix_ok (iw x) [x] x (it_dur x) 0 (ds_dur (it_dur x)) tnone (plain (it_dur x))
            (ds_rel (it_dur x)).
Proof.
  intros Hx Ex HN. destruct Hx as [[] _]. unfold iw in *. rewrite Ex in *.
  constructor.
  - apply RepN_init; try assumption; lia.
  - unfold pend. rewrite Ex. lia.
  - exists []; reflexivity.
  - rewrite Ex. discriminate.
  - intros suf Hsuf HR. unfold ref, cont. cbn [app]. rewrite Ex.
    fold (it_win x).
    pose proof (trel_bound suf Hsuf). pose proof MAXV_pos.
    rewrite <- !bseq_assoc. rewrite (bseq_assoc (tbeh tnone)).
    apply bseq_proper; [|reflexivity].
    try rewrite bseq_assoc. symmetry. apply none_noop; try lia.
    + exact (ok_el _ _ _ gd_ok0).
    + exact (ok_l _ _ _ gd_ok0).
Qed.

(** ** Segments in the middle of a proposal. *)
Fixpoint walk (prev : item) (l : list item) : beh :=
  match l with
  | [] => bskip
  | x :: xs => bspend (D (it_loc prev) (it_loc x)) ;; it_win x ;; walk x xs
  end.

Fixpoint mxrel (l : list item) : Z :=
  match l with
  | [] => 0
  | x :: xs => Z.max (ds_rel (it_dur x)) (mxrel xs)
  end.

Definition mid_beh (y : item) (ys : list item) : beh :=
  it_win y ;; (match ys with [] => bskip | _ => srvb y end) ;; walk y ys.

(** No reload depots except possibly at the end. *)
Fixpoint inner (l : list item) : Prop :=
  match l with
  | [] => True
  | [_] => True
  | x :: xs => it_reload x = false /\ inner xs
  end.

Lemma inner_cons x xs : inner (x :: xs) -> xs <> [] -> it_reload x = false /\ inner xs.
Proof. destruct xs; [congruence|]. cbn [inner]. tauto. Qed.

Lemma mxrel_nonneg l : Forall item_ok l -> 0 <= mxrel l <= h.
Proof.
  induction l as [|x l IH]; cbn [mxrel]; intros H; [lia|].
  inversion H as [|? ? Hx Hl]; subst.
  pose proof (gd_r _ _ _ _ (io_good _ Hx)). specialize (IH Hl). lia.
Qed.

Lemma trel_app y ys suf : inner (y :: ys) -> item_ok y -> Forall item_ok ys -> Forall item_ok suf ->
  trel ((y :: ys) ++ suf) =
  Z.max (mxrel (y :: ys)) (if it_reload (lastof y ys) then 0 else trel suf).
Proof.
  revert y; induction ys as [|z zs IH]; intros y Hi Hy Hys Hsuf.
  - cbn [app trel mxrel lastof].
    pose proof (trel_bound suf Hsuf). pose proof (gd_r _ _ _ _ (io_good _ Hy)).
    destruct (it_reload y) eqn:Ey.
    + destruct (item_reload_win y Hy Ey) as (_ & _ & Hr & _). lia.
    + lia.
  - destruct (inner_cons _ _ Hi ltac:(discriminate)) as [Ey Hi'].
    inversion Hys as [|? ? Hz Hzs]; subst.
    specialize (IH z Hi' Hz Hzs Hsuf).
    change (trel ((y :: z :: zs) ++ suf)) with
      (if it_reload y then 0 else Z.max (ds_rel (it_dur y)) (trel ((z :: zs) ++ suf))).
    rewrite Ey, IH. cbn [lastof].
    change (mxrel (y :: z :: zs)) with (Z.max (ds_rel (it_dur y)) (mxrel (z :: zs))). lia.
Qed.

Lemma swap_wait y suf rest : item_ok y -> (it_reload y = true -> trel suf <= ds_late (it_dur y)) ->
  waitb y suf ;; it_win y ;; rest == it_win y ;; waitb y suf ;; rest.
Proof.
  intros Hy HR. unfold waitb. destruct (it_reload y) eqn:Ey.
  - destruct (item_reload_win y Hy Ey) as (Hw & Hel & _ & _).
    rewrite Hw, <- !bseq_assoc, wait_window by (auto using HR). reflexivity.
  - rewrite !bskip_l. reflexivity.
Qed.

Lemma go_walk ys : forall y suf, ys <> [] -> inner ys -> Forall item_ok ys -> R1 (ys ++ suf) ->
  go y (ys ++ suf) ==
  walk y ys ;; waitb (lastof y ys) suf ;; srvb (lastof y ys) ;; go (lastof y ys) suf.
Proof.
  induction ys as [|x xs IH]; intros y suf Hne Hi Hok HR; [congruence|].
  inversion Hok as [|? ? Hx Hxs]; subst. cbn [app] in *.
  destruct HR as [HR1 HR2].
  cbn [go walk]. rewrite !bseq_assoc. apply bseq_proper; [reflexivity|].
  destruct xs as [|z zs].
  - cbn [app lastof walk]. rewrite bskip_l. apply swap_wait; [exact Hx|]. exact HR1.
  - destruct (inner_cons _ _ Hi ltac:(discriminate)) as [Ex Hi'].
    rewrite (IH x suf ltac:(discriminate) Hi' Hxs HR2).
    unfold waitb at 1, srvb at 1. rewrite Ex. rewrite !bskip_l. reflexivity.
Qed.

Fixpoint dwrk (prev : item) (l : list item) : Z :=
  match l with
  | [] => 0
  | x :: xs => D (it_loc prev) (it_loc x) + ds_dur (it_dur x) + dwrk x xs
  end.

Lemma dwrk_wrk ys : forall y, ys <> [] -> inner ys ->
  dwrk y ys + pend (lastof y ys) = wrk y ys.
Proof.
  induction ys as [|x xs IH]; intros y Hne Hi; [congruence|].
  cbn [dwrk wrk lastof]. unfold iw.
  destruct xs as [|z zs].
  - cbn [dwrk wrk lastof]. unfold pend. lia.
  - destruct (inner_cons _ _ Hi ltac:(discriminate)) as [Ex Hi'].
    specialize (IH x ltac:(discriminate) Hi'). rewrite Ex. lia.
Qed.

Lemma good_walk ys : forall y acc f n r, good n acc f r -> Forall item_ok ys ->
  good (n + dwrk y ys) (dur_walk D y acc ys) (f ;; walk y ys) (Z.max r (mxrel ys)).
Proof.
  induction ys as [|x xs IH]; intros y acc f n r Hg Hok; cbn [dur_walk walk dwrk mxrel].
  - replace (Z.max r 0) with r by (destruct Hg; lia).
    eapply good_n; [|eapply good_eq; [|exact Hg]]; [lia|]. rewrite bskip_r. reflexivity.
  - inversion Hok as [|? ? Hx Hxs]; subst.
    pose proof (D_nonneg (it_loc y) (it_loc x)) as HD.
    pose proof (good_merge _ _ _ _ _ _ _ _ _ HD Hg (io_good _ Hx)) as H1.
    specialize (IH x _ _ _ _ H1 Hxs). rewrite Z.max_assoc.
    eapply good_n; [|eapply good_eq; [|exact IH]].
    + lia.
    + rewrite !bseq_assoc. reflexivity.
Qed.

Record mid_ok (profile : nat) (o : seg) (y : item) (ys : list item) : Prop := mk_mid_ok {
  mo_front : sg_front d o = y;
  mo_back : sg_back d o = lastof y ys;
  mo_size : sg_size o = S (length ys);
  mo_starts : sg_startsReload o = it_reload y;
  mo_ends : sg_endsReload o = it_reload (lastof y ys);
  mo_inner : inner ys;
  mo_y : item_ok y;
  mo_ys : Forall item_ok ys;
  mo_dur : good (iw y + wrk y ys - pend (lastof y ys)) (sg_duration d profile o) (mid_beh y ys)
                (Z.max (ds_rel (it_dur y)) (mxrel ys)) }.

Lemma wrk_app p a : forall b, wrk p (a ++ b) = wrk p a + wrk (lastof p a) b.
Proof.
  revert p; induction a as [|x a IH]; intros p b; cbn [app wrk lastof]; [lia|].
  rewrite IH. lia.
Qed.

Lemma lastof_app p a : forall b, lastof p (a ++ b) = lastof (lastof p a) b.
Proof. revert p; induction a as [|x a IH]; intros p b; cbn [app lastof]; [reflexivity|]. apply IH. Qed.

Lemma walk_ends_win zs : forall z y, exists X, walk y (z :: zs) == X ;; it_win (lastof z zs).
Proof.
  induction zs as [|w ws IH]; intros z y.
  - exists (bspend (D (it_loc y) (it_loc z))). cbn [walk lastof]. rewrite bskip_r. reflexivity.
  - destruct (IH w z) as [X HX]. exists (bspend (D (it_loc y) (it_loc z)) ;; it_win z ;; X).
    change (walk y (z :: w :: ws)) with
      (bspend (D (it_loc y) (it_loc z)) ;; it_win z ;; walk z (w :: ws)).
    rewrite HX. cbn [lastof]. rewrite !bseq_assoc. reflexivity.
Qed.

Lemma mid_ends_win y ys : exists X, mid_beh y ys == X ;; it_win (lastof y ys).
Proof.
  unfold mid_beh. destruct ys as [|z zs].
  - exists bskip. cbn [lastof walk]. rewrite !bskip_r. rewrite bskip_l. reflexivity.
  - destruct (walk_ends_win zs z y) as [X HX]. exists (it_win y ;; srvb y ;; X).
    rewrite HX. cbn [lastof]. rewrite !bseq_assoc. reflexivity.
Qed.

Lemma lastof_ok y ys : item_ok y -> Forall item_ok ys -> item_ok (lastof y ys).
Proof.
  revert y; induction ys as [|z zs IH]; intros y Hy Hys; [exact Hy|].
  inversion Hys; subst. cbn [lastof]. apply IH; assumption.
Qed.

Lemma pend_nonneg y : item_ok y -> 0 <= pend y.
Proof.
  intros [_ Hr]. unfold pend. destruct (it_reload y); [destruct (Hr eq_refl); assumption | lia].
Qed.

(** Merging a middle segment in front of what follows. *)
Lemma mid_merge profile o y ys n ds z zs :
  (forall a b, p_dur d profile a b = D a b) ->
  mid_ok profile o y ys -> good n ds (enter (z :: zs)) (trel (z :: zs)) ->
  Forall item_ok (z :: zs) -> R1 ((y :: ys) ++ z :: zs) ->
  let ds2 := prop_dur_merge d profile ds (it_loc z) o in
  let ds3 := if sg_startsReload o && (1 <? sg_size o)%nat then ds_finaliseFront ds2 else ds2 in
  good (iw y + wrk y ys + D (it_loc (lastof y ys)) (it_loc z) + n) ds3
       (enter ((y :: ys) ++ z :: zs)) (trel ((y :: ys) ++ z :: zs)).
Proof.
  intros HDp [Hfr Hbk Hsz Hst Hen Hin Hy Hys Hdur] Hds Hzs HR ds2 ds3.
  set (w := lastof y ys) in *.
  assert (Hw : item_ok w) by (apply lastof_ok; assumption).
  pose proof (D_nonneg (it_loc w) (it_loc z)) as HD.
  pose proof (trel_bound _ Hzs) as Htz.
  pose proof (mxrel_nonneg _ Hys) as Hmx.
  pose proof (gd_r _ _ _ _ (io_good _ Hy)) as Hry.
  assert (HRw : it_reload w = true -> trel (z :: zs) <= ds_late (it_dur w)).
  { intros Ew. clear - HR Ew. subst w. revert y HR Ew. induction ys as [|a ys' IH]; intros y HR Ew.
    - cbn [lastof] in Ew. apply (proj1 HR Ew).
    - cbn [lastof] in Ew. apply (IH a); [exact (proj2 HR) | exact Ew]. }
  (* after merging *)
  assert (H2 : good (iw y + wrk y ys + D (it_loc w) (it_loc z) + n) ds2
             (mid_beh y ys ;; waitb w (z :: zs) ;; srvb w ;; go w (z :: zs))
             (Z.max (Z.max (ds_rel (it_dur y)) (mxrel ys))
                    (if it_reload w then 0 else trel (z :: zs)))).
  { subst ds2. unfold prop_dur_merge. rewrite Hen, Hbk, HDp. fold w.
    unfold waitb, srvb. pose proof (pend_nonneg w Hw) as Hpw. unfold pend in Hdur, Hpw.
    fold w in Hdur. destruct (it_reload w) eqn:Ew.
    - destruct (item_reload_win w Hw Ew) as (Hww & Hel & Hr0 & Hd0).
      destruct (io_reload w Hw Ew) as [Hdw Hsrv].
      unfold it_srv in *.
      set (dep := p_depot d (a_idx (it_act w))) in *.
      assert (Hdep : good (d_service dep) (ds_depot dep (d_service dep))
                       (it_win w ;; bspend (d_service dep)) 0).
      { pose proof (gd_ok _ _ _ _ (io_good _ Hw)) as Hok. rewrite Hdw in Hok.
        destruct Hok. unfold plain, ds_depot in *; dcbn.
        constructor; try reflexivity; try lia.
        - constructor; unfold plain, ds_depot; dcbn; try lia.
        - unfold plain, ds_depot; dcbn. rewrite tbeh_raw by assumption.
          unfold it_win. rewrite Hdw. unfold plain, ds_depot; dcbn.
          rewrite (tbeh_raw 0) by assumption. rewrite bspend_0, bskip_r. reflexivity. }
      pose proof (good_merge _ _ _ _ _ _ _ _ _ HD Hdep Hds) as H1.
      replace (Z.max 0 (trel (z :: zs))) with (trel (z :: zs)) in H1 by lia.
      apply good_front in H1.
      pose proof (good_merge _ _ 0 _ _ _ _ _ _ ltac:(lia) Hdur H1) as H3.
      eapply good_n; [|eapply good_eq; [|exact H3]].
      + lia.
      + rewrite bspend_0, bskip_l.
        destruct (mid_ends_win y ys) as [X HX]. fold w in HX.
        rewrite HX, Hww. rewrite !bseq_assoc.
        change (go w (z :: zs)) with (bspend (D (it_loc w) (it_loc z)) ;; enter (z :: zs)).
        apply bseq_proper; [reflexivity|].
        rewrite (window_idem' _ _ _ _ Hel (HRw eq_refl)). reflexivity.
    - pose proof (good_merge _ _ _ _ _ _ _ _ _ HD Hdur Hds) as H1.
      eapply good_n; [|eapply good_eq; [|exact H1]].
      + lia.
      + rewrite !bskip_l. reflexivity. }
  cbv zeta in *. subst ds3. clearbody ds2.
  rewrite Hst, Hsz.
  change (enter ((y :: ys) ++ z :: zs)) with
    (waitb y (ys ++ z :: zs) ;; it_win y ;; srvb y ;; go y (ys ++ z :: zs)).
  destruct ys as [|x xs].
  - (* a single node *)
    cbn [length lastof app] in *. subst w. rewrite andb_false_r by reflexivity.
    assert (HR1 := proj1 HR). cbn [app] in HR1.
    eapply good_eq.
    2:{ replace (trel (y :: z :: zs)) with (Z.max (Z.max (ds_rel (it_dur y)) (mxrel []))
             (if it_reload y then 0 else trel (z :: zs))).
        - exact H2.
        - cbn [mxrel]. change (trel (y :: z :: zs)) with
            (if it_reload y then 0 else Z.max (ds_rel (it_dur y)) (trel (z :: zs))).
          destruct (it_reload y) eqn:Ey; [|lia].
          destruct (item_reload_win y Hy Ey) as (_ & _ & Hr0 & _). lia. }
    rewrite swap_wait by assumption.
    unfold mid_beh. cbn [walk]. rewrite !bskip_r. reflexivity.
  - pose proof (go_walk (x :: xs) y (z :: zs) ltac:(discriminate) Hin Hys (proj2 HR)) as HG.
    fold w in HG.
    assert (HT : trel ((x :: xs) ++ z :: zs) =
                 Z.max (mxrel (x :: xs)) (if it_reload w then 0 else trel (z :: zs))).
    { inversion Hys; subst. rewrite trel_app by assumption. reflexivity. }
    assert (HB : mid_beh y (x :: xs) ;; waitb w (z :: zs) ;; srvb w ;; go w (z :: zs) ==
                 it_win y ;; srvb y ;; go y ((x :: xs) ++ z :: zs)).
    { rewrite HG. unfold mid_beh. rewrite !bseq_assoc. reflexivity. }
    apply (good_eq _ _ _ _ _ HB) in H2.
    replace (1 <? S (length (x :: xs)))%nat with true by reflexivity.
    rewrite andb_true_r.
    change (trel ((y :: x :: xs) ++ z :: zs)) with
      (if it_reload y then 0 else Z.max (ds_rel (it_dur y)) (trel ((x :: xs) ++ z :: zs))).
    unfold waitb. destruct (it_reload y) eqn:Ey.
    + destruct (item_reload_win y Hy Ey) as (_ & _ & Hr0 & _).
      apply good_front in H2. rewrite Hr0, Z.max_r, <- HT in H2; [exact H2 | | lia] || idtac.
      replace (Z.max (Z.max (ds_rel (it_dur y)) (mxrel (x :: xs)))
          (if it_reload w then 0 else trel (z :: zs))) with (trel ((x :: xs) ++ z :: zs)) in H2
        by (rewrite HT, Hr0; lia).
      exact H2.
    + rewrite HT, Z.max_assoc. eapply good_eq; [|exact H2]. rewrite bskip_l. reflexivity.
Qed.

(** The cached suffix as the last piece of a proposal. *)
Lemma enter_good y ys : item_ok y -> Forall item_ok ys -> it_reload (lastof y ys) = false ->
  good (iw y + wrk y ys)
       (let s := hd dnone (after_array d D (y :: ys)) in
        if it_reload y then ds_finaliseFront s else s)
       (enter (y :: ys)) (trel (y :: ys)).
Proof.
  intros Hy Hys HL. pose proof (after_good ys y Hy Hys HL) as IH. cbv zeta.
  cbn [enter trel]. unfold waitb. destruct (it_reload y) eqn:Ey.
  - destruct (item_reload_win y Hy Ey) as (_ & _ & Hr & _).
    apply good_front in IH. rewrite Hr in IH.
    replace (Z.max 0 (trel ys)) with (trel ys) in IH by (pose proof (trel_bound ys Hys); lia).
    exact IH.
  - eapply good_eq; [|exact IH]. rewrite bskip_l. reflexivity.
Qed.

(** Joining a cached prefix with what follows. *)
Lemma join profile o W p x s nA nB A B r n ds z zs :
  (forall a b, p_dur d profile a b = D a b) ->
  sg_back d o = x -> sg_endsReload o = it_reload x -> sg_duration d profile o = s ->
  prefix_ok W p x s nA nB A B r -> item_ok x ->
  good n ds (enter (z :: zs)) (trel (z :: zs)) ->
  Forall item_ok (z :: zs) -> R1 (p ++ z :: zs) ->
  W + D (it_loc x) (it_loc z) + n <= N ->
  exists nB' B' r',
    RepN h N nA nB' (prop_dur_merge d profile ds (it_loc z) o) A B' r' /\
    tbeh (Tot A B' r') == ref (p ++ z :: zs).
Proof.
  intros HDp Hbk Hen Hsd [HRN HS [p0 Hp0] Hwin Hsem] Hx Hds Hzs HR HN.
  pose proof (D_nonneg (it_loc x) (it_loc z)) as HD.
  pose proof (trel_bound _ Hzs) as Htz.
  pose proof (Hsem _ Hzs HR) as Href.
  assert (HAe : te A <= tl A) by (destruct HRN as [_ [] _ _ _]; assumption).
  assert (HBe : te B <= tl B) by (destruct HRN as [_ _ [] _ _]; assumption).
  assert (Hr0' : 0 <= r) by (destruct HRN as [[] _ _ _ _]; lia).
  unfold prop_dur_merge. rewrite Hen, Hbk, Hsd, HDp.
  unfold pend in HS. unfold cont in Href.
  destruct (it_reload x) eqn:Ex.
  - destruct (item_reload_win x Hx Ex) as (Hww & Hel & Hr0 & Hd0).
    destruct (io_reload x Hx Ex) as [Hdw Hsrv].
    unfold it_srv in *. set (dep := p_depot d (a_idx (it_act x))) in *.
    assert (Hdep : good (d_service dep) (ds_depot dep (d_service dep))
                     (it_win x ;; bspend (d_service dep)) 0).
    { pose proof (gd_ok _ _ _ _ (io_good _ Hx)) as Hok. rewrite Hdw in Hok.
      destruct Hok. unfold plain, ds_depot in *; dcbn.
      constructor; try reflexivity; try lia.
      - constructor; unfold plain, ds_depot; dcbn; try lia.
      - unfold plain, ds_depot; dcbn. rewrite tbeh_raw by assumption.
        unfold it_win. rewrite Hdw. unfold plain, ds_depot; dcbn.
        rewrite (tbeh_raw 0) by assumption. rewrite bspend_0, bskip_r. reflexivity. }
    pose proof (good_merge _ _ _ _ _ _ _ _ _ HD Hdep Hds) as H1.
    replace (Z.max 0 (trel (z :: zs))) with (trel (z :: zs)) in H1 by lia.
    apply good_front in H1.
    assert (Hlate : trel (z :: zs) <= ds_late (it_dur x)).
    { subst p. rewrite <- app_assoc in HR. apply (R1_mid p0 x (z :: zs)); [exact HR | exact Ex]. }
    set (ds1 := ds_finaliseFront _) in *.
    pose proof (RepN_merge h N nA nB _ 0 s A B r ds1 ltac:(lia) N_bound HRN
      (gd_ok _ _ _ _ H1) (gd_cdur _ _ _ _ H1) (gd_ctw _ _ _ _ H1)
      ltac:(rewrite (gd_rel _ _ _ _ H1); lia) ltac:(lia)) as H2.
    eexists _, _, _. split; [exact H2|].
    rewrite (gd_rel _ _ _ _ H1), Z.max_l by lia.
    rewrite Tot_beh; [ | exact HAe | destruct H2 as [_ _ [] _ _]; assumption].
    rewrite tmerge_beh; [ | exact HBe | exact (ok_el _ _ _ (gd_ok _ _ _ _ H1))].
    rewrite (gd_beh _ _ _ _ H1), Href. rewrite Z.max_l by lia.
    rewrite bspend_0, bskip_l, !bseq_assoc.
    change (go x (z :: zs)) with (bspend (D (it_loc x) (it_loc z)) ;; enter (z :: zs)).
    apply bseq_proper; [reflexivity|]. apply bseq_proper; [reflexivity|].
    rewrite Hww.
    apply bseq_pt. intros t. pose proof (Hwin eq_refl t) as Hb.
    generalize dependent (bend (tbeh B) t). intros q Hq.
    unfold bseq at 1 2 4, bwait, bwindow, bend; cbn [fst snd].
    replace (Z.max 0 (ds_early (it_dur x) - (q + Z.max 0 (trel (z :: zs) - q) - 0))) with 0 by lia.
    replace (Z.max 0 (q + Z.max 0 (trel (z :: zs) - q) - 0 - ds_late (it_dur x))) with 0 by lia.
    replace (q + Z.max 0 (trel (z :: zs) - q) - 0 + 0 - 0) with (q + Z.max 0 (trel (z :: zs) - q) - 0) by lia.
    reflexivity.
  - pose proof (RepN_merge h N nA nB _ (D (it_loc x) (it_loc z)) s A B r ds HD N_bound HRN
      (gd_ok _ _ _ _ Hds) (gd_cdur _ _ _ _ Hds) (gd_ctw _ _ _ _ Hds)
      ltac:(rewrite (gd_rel _ _ _ _ Hds); lia) ltac:(lia)) as H2.
    eexists _, _, _. split; [exact H2|].
    rewrite (gd_rel _ _ _ _ Hds).
    rewrite Tot_beh; [ | exact HAe | destruct H2 as [_ _ [] _ _]; assumption].
    rewrite tmerge_beh; [ | exact HBe | exact (ok_el _ _ _ (gd_ok _ _ _ _ Hds))].
    rewrite (gd_beh _ _ _ _ Hds), Href. reflexivity.
Qed.

(** What a segment reports, up to the surcharge for the maximum duration. *)
Definition ds_warp0 (s : dseg) : Z := ds_ctw s + ds_tw s + Z.max (ds_rel s - ds_late s) 0.

Lemma RepN_ref nA nB s A B r l : RepN h N nA nB s A B r -> tbeh (Tot A B r) == ref l ->
  forall nA' nB' s' A' B' r',
  RepN h N nA' nB' s' A' B' r' -> tbeh (Tot A' B' r') == ref l ->
  ds_duration s = ds_duration s' /\ ds_warp0 s = ds_warp0 s'.
Proof.
  intros HR Hb nA' nB' s' A' B' r' HR' Hb'.
  destruct (RepN_Tot _ _ _ _ _ _ _ _ N_bound HR) as (E1 & E2 & Ok1).
  destruct (RepN_Tot _ _ _ _ _ _ _ _ N_bound HR') as (E1' & E2' & Ok2).
  assert (E : Tot A B r = Tot A' B' r').
  { apply tws_ext; [exact (ok_el _ _ _ Ok1) | exact (ok_el _ _ _ Ok2) |].
    rewrite Hb, Hb'. reflexivity. }
  unfold ds_warp0. rewrite E1, E2, E1', E2', E. split; reflexivity.
Qed.

Lemma RepN_warp nA nB s A B r : RepN h N nA nB s A B r ->
  0 <= ds_ctw s + ds_tw s <= ds_warp0 s.
Proof.
  intros [[Hp _ Hc _ _ HA HB _ _] _ _ _ _]. unfold ds_warp0.
  pose proof (ok_w _ _ _ HA). pose proof (ok_w _ _ _ HB) as H2.
  rewrite <- Hp in H2. unfold plain in H2; cbn [tw] in H2. lia.
Qed.

(** The route's own duration: durAfter of the start depot. *)
Lemma whole x xs : item_ok x -> Forall item_ok xs -> it_reload x = false ->
  it_reload (lastof x xs) = false -> iw x + wrk x xs <= N ->
  let s := hd dnone (after_array d D (x :: xs)) in
  exists nB B r, RepN h N 0 nB s tnone B r /\ tbeh (Tot tnone B r) == ref (x :: xs).
Proof.
  intros Hx Hxs Ex HL HN s.
  pose proof (after_good xs x Hx Hxs HL) as HG. fold s in HG.
  pose proof (iw_nonneg x Hx). pose proof (wrk_nonneg x xs Hxs).
  exists (iw x + wrk x xs), (plain s), (ds_rel s).
  assert (Hrel := gd_rel _ _ _ _ HG). assert (Hr := gd_r _ _ _ _ HG).
  split.
  - apply RepN_init; try assumption; try (destruct HG; assumption). destruct HG; lia.
  - pose proof MAXV_pos.
    rewrite Tot_beh; [ | cbn; lia | exact (ok_el _ _ _ (gd_ok _ _ _ _ HG))].
    rewrite none_noop; [ | lia | exact (ok_el _ _ _ (gd_ok _ _ _ _ HG)) | exact (ok_l _ _ _ (gd_ok _ _ _ _ HG))].
    rewrite (gd_beh _ _ _ _ HG), Hrel. cbn [ref]. unfold srvb. rewrite Ex, bskip_l. reflexivity.
Qed.
End RouteDur.
