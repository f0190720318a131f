(** Bounds on the duration segments: no operation on them leaves the int64 range. *)
From Verif Require Import Base DurationSegment Data Overflow.

Definition Q : Z := 1152921504606846976.

(** [Sc] bounds the service and travel of the current trip, [Sp] that of the earlier trips, [W] the waiting;
    all opening times and release times are at most [H]. *)
Record inv (H Sc Sp W : Z) (s : dseg) : Prop := {
  i_Sc : 0 <= Sc; i_Sp : 0 <= Sp; i_W : 0 <= W; i_H : 0 <= H;
  i_e : 0 <= ds_early s <= H + Sp;
  i_l : ds_early s <= ds_late s <= MAXV;
  i_rel : 0 <= ds_rel s <= H + Sp;
  i_dur : 0 <= ds_dur s;
  i_tw : 0 <= ds_tw s;
  i_cdur : 0 <= ds_cdur s;
  i_ctw : 0 <= ds_ctw s;
  i_pel : 0 <= ds_pel s <= MAXV;
  i_fix1 : Sc < ds_dur s -> ds_early s = ds_late s;
  i_fix2 : 0 < ds_tw s -> ds_early s = ds_late s;
  i_end : 0 <= ds_early s + ds_dur s - ds_tw s <= H + Sp + Sc;
  i_tot : ds_cdur s + ds_dur s <= Sp + Sc + W;
  i_ce : ds_ctw s + ds_early s <= ds_cdur s + W + H;
  i_cr : ds_ctw s + ds_rel s <= ds_cdur s + W + H;
  i_pe : ds_early s <= ds_pel s \/ ds_early s <= H;
  i_pr : ds_rel s <= ds_pel s \/ ds_rel s <= H }.

(** The four quantities of a merge, from the windows of its parts and the time [a] between their starts. *)
Lemma merge_core : forall a e1 l1 e2 l2 dt dw sl e l,
  0 <= e1 -> e1 <= l1 -> l1 <= MAXV -> 0 <= e2 -> e2 <= l2 -> l2 <= MAXV -> e1 <= Q -> e2 <= Q -> 0 <= e1 + a -> (0 <= a \/ e1 = l1) ->
  dt = (if e1 + a >? l2 then e1 + a - l2 else 0) ->
  dw = (if e2 - a >? l1 then e2 - a - l1 else 0) ->
  sl = (if a >? l2 - MAXV then l2 - a else l2) ->
  e = Z.max e1 (e2 - a) - dw -> l = Z.min l1 sl + dt ->
  0 <= dt /\ dt <= e1 + a /\ 0 <= dw <= e2 /\ 0 <= e /\ (e <= e1 \/ e <= e2) /\ e <= l <= MAXV
  /\ (e = l \/ (dw = 0 /\ dt = 0 /\ e1 < l1 /\ e2 < l2))
  /\ e2 <= e + a + dw - dt <= l2 /\ (e + a + dw - dt = e2 \/ e + a + dw - dt <= e1 + a).
Proof.
  intros a e1 l1 e2 l2 dt dw sl e l. unfold Q, MAXV. intros.
  destruct (Z.gtb_spec (e1 + a) l2); destruct (Z.gtb_spec (e2 - a) l1); destruct (Z.gtb_spec a (l2 - 9223372036854775807));
    subst dt dw sl; try (exfalso; lia); subst e l; zcases.
Qed.

Lemma i_cases : forall H Sc Sp W s, inv H Sc Sp W s ->
  (ds_tw s = 0 /\ ds_dur s <= Sc) \/ ds_early s = ds_late s.
Proof.
  intros H Sc Sp W s [].
  destruct (Z.eq_dec (ds_early s) (ds_late s)) as [E|E]; [right; exact E|left].
  split; [destruct (Z.eq_dec (ds_tw s) 0) as [E0|E0]; [exact E0|exfalso; apply E, i_fix4; clear - i_tw0 E0; lia]|].
  destruct (Z.le_gt_cases (ds_dur s) Sc) as [E0|E0]; [exact E0|exfalso; apply E, i_fix3, E0].
Qed.

Lemma merge_inv : forall H Sc1 Sc2 Sp W1 W2 edge f s,
  inv H Sc1 Sp W1 f -> inv H Sc2 0 W2 s -> ds_cdur s = 0 -> ds_ctw s = 0 -> 0 <= edge -> H + Sp <= Q ->
  inv H (Sc1 + Sc2 + edge) Sp (W1 + W2 + H) (ds_merge edge f s).
Proof.
  intros H Sc1 Sc2 Sp W1 W2 edge f s I1 I2 Hc1 Hc2 Hedge HQ.
  pose proof (i_cases _ _ _ _ _ I1) as C1. pose proof (i_cases _ _ _ _ _ I2) as C2.
  destruct f as [d1 t1 e1 l1 r1 cd1 ct1 p1], s as [d2 t2 e2 l2 r2 cd2 ct2 p2]. destruct I1, I2.
  cbn [ds_dur ds_tw ds_early ds_late ds_rel ds_cdur ds_ctw ds_pel] in *. subst cd2 ct2.
  clear i_fix3 i_fix4 i_fix5 i_fix6.
  unfold ds_merge; cbn [ds_dur ds_tw ds_early ds_late ds_rel ds_cdur ds_ctw ds_pel].
  set (a := d1 - t1 + edge) in *. assert (Ha : a = d1 - t1 + edge) by reflexivity. clearbody a.
  set (dt := if e1 + a >? l2 then _ else _). set (dw := if e2 - a >? l1 then _ else _). set (sl := if a >? l2 - MAXV then _ else _).
  set (e := Z.max e1 (e2 - a) - dw). set (l := Z.min l1 sl + dt).
  pose proof (merge_core a e1 l1 e2 l2 dt dw sl e l) as M.
  destruct M as (M1 & M2 & M3 & M4 & M5 & M6 & M7 & M8 & M9); try reflexivity; try (clear dt dw sl e l; lia).
  clearbody dt dw sl e l. clear sl.
  constructor; cbn [ds_dur ds_tw ds_early ds_late ds_rel ds_cdur ds_ctw ds_pel]; clear HQ; try lia.
Qed.

(** ** The two finalisations *)
Ltac dsc := cbn [ds_dur ds_tw ds_early ds_late ds_rel ds_cdur ds_ctw ds_pel] in *.

Lemma front_form : forall s, 0 <= ds_early s -> ds_early s <= ds_late s <= MAXV ->
  ds_finaliseFront s
  = ds_raw (ds_dur s) (ds_tw s + Z.max (ds_rel s - ds_late s) 0) (Z.max (ds_early s) (ds_rel s)) (Z.max (ds_late s) (ds_rel s)).
Proof.
  intros [d t e l r cd ct p]; dsc. intros H1 H2.
  unfold ds_finaliseFront, ds_merge0, ds_merge, ds_raw, ds_startEarly, ds_startLate; dsc. unfold MAXV in *.
  f_equal; zcases.
Qed.

Definition net_wait (s : dseg) : Z := Z.max (Z.max (ds_early s) (ds_rel s) - ds_pel s) 0.
Lemma back_form : forall s, 0 <= ds_early s -> ds_early s <= ds_late s <= MAXV -> 0 <= ds_pel s <= MAXV -> 0 <= ds_rel s <= MAXV ->
  ds_merge0 (ds_raw 0 0 0 (ds_pel s)) (ds_finaliseFront s)
  = ds_raw (ds_dur s + net_wait s) (ds_tw s + Z.max (ds_rel s - ds_late s) 0)
      (Z.min (Z.max (ds_early s) (ds_rel s)) (ds_pel s)) (Z.min (Z.max (ds_late s) (ds_rel s)) (ds_pel s)).
Proof.
  intros s H1 H2 H3 H4. rewrite front_form by assumption. unfold net_wait.
  destruct s as [d t e l r cd ct p]; dsc.
  unfold ds_merge0, ds_merge, ds_raw; dsc. unfold MAXV in *.
  set (w := Z.max (r - l) 0). assert (Hw : 0 <= w) by (clear; lia). clearbody w.
  assert (Hm : 0 <= Z.max e r <= Z.max l r /\ Z.max l r <= 9223372036854775807) by (clear - H1 H2 H4; lia).
  set (E := Z.max e r) in *. set (L := Z.max l r) in *. clearbody E L. clear H1 H2 H4.
  f_equal; zcases.
Qed.

Lemma raw_duration : forall d t e l, e <= MAXV -> ds_duration (ds_raw d t e l) = d.
Proof. intros d t e l H. unfold ds_duration, ds_startEarly, ds_raw; dsc. revert H. unfold MAXV. lia. Qed.
Lemma raw_timeWarp : forall d t e l, e <= MAXV -> 0 <= l -> d - t <= MAXV -> ds_timeWarp MAXV (ds_raw d t e l) = t.
Proof.
  intros d t e l H1 H2 H3. unfold ds_timeWarp. rewrite raw_duration by exact H1. unfold ds_raw; dsc.
  destruct (Z.gtb_spec (d - (0 + t)) MAXV); lia.
Qed.

Lemma back_inv : forall H Sc Sp W s, inv H Sc Sp W s -> H + Sp + Sc + W + H <= Q ->
  inv H 0 (Sp + Sc) (W + H) (ds_finaliseBack s).
Proof.
  intros H Sc Sp W s I HQ. pose proof (i_cases _ _ _ _ _ I) as C. pose proof I as I0. destruct I.
  unfold ds_finaliseBack. unfold Q, MAXV in *.
  rewrite back_form by (unfold MAXV; lia).
  set (E := Z.max (ds_early s) (ds_rel s)). set (L := Z.max (ds_late s) (ds_rel s)). set (w := Z.max (ds_rel s - ds_late s) 0).
  assert (HE : ds_early s <= E /\ ds_rel s <= E /\ (E = ds_early s \/ E = ds_rel s)) by (clear; lia).
  assert (HL : ds_late s <= L /\ ds_rel s <= L /\ (L = ds_late s \/ L = ds_rel s)) by (clear; lia).
  assert (Hw : 0 <= w /\ ds_rel s - ds_late s <= w /\ (w = 0 \/ w = ds_rel s - ds_late s)) by (clear; lia).
  assert (Hn : 0 <= net_wait s /\ E - ds_pel s <= net_wait s /\ (net_wait s = 0 \/ net_wait s = E - ds_pel s)) by (unfold net_wait; clear; lia).
  assert (Hend : 0 <= E + ds_dur s - (ds_tw s + w) <= H + Sp + Sc) by (clear - I0 C HE HL Hw; destruct I0; clear i_fix3 i_fix4; lia).
  set (n := net_wait s) in *. clearbody E L w n.
  assert (Hm : Z.min E (ds_pel s) = E - n) by (clear - HE Hn; lia).
  set (e := Z.min E (ds_pel s)) in *. set (l := Z.min L (ds_pel s)).
  assert (Hel : 0 <= e <= l /\ l <= 9223372036854775807) by (subst e l; clear - HE HL i_e0 i_l0 i_rel0 i_pel0; lia).
  clearbody e l.
  assert (Hdur : ds_duration (ds_raw (ds_dur s + n) (ds_tw s + w) e l) = ds_dur s + n) by (apply raw_duration; unfold MAXV; lia).
  assert (Htw : ds_timeWarp 9223372036854775807 (ds_raw (ds_dur s + n) (ds_tw s + w) e l) = ds_tw s + w)
    by (apply raw_timeWarp; unfold MAXV; lia).
  assert (HeE : ds_endEarly (ds_raw (ds_dur s + n) (ds_tw s + w) e l) = E + ds_dur s - (ds_tw s + w)).
  { unfold ds_endEarly. change MAXV with 9223372036854775807. rewrite Hdur, Htw. unfold ds_startEarly, ds_raw; dsc. lia. }
  assert (HlE : E + ds_dur s - (ds_tw s + w) <= ds_endLate (ds_raw (ds_dur s + n) (ds_tw s + w) e l) <= MAXV).
  { unfold ds_endLate. change MAXV with 9223372036854775807. rewrite Hdur, Htw. unfold ds_startLate, ds_raw; dsc.
    rewrite Z.max_l by lia. destruct (Z.gtb_spec (ds_dur s + n - 0 - (ds_tw s + w - 0)) (9223372036854775807 - l)); lia. }
  rewrite Htw, Hdur, HeE. set (x := ds_endLate _) in *. unfold MAXV in HlE. clearbody x. clear Htw Hdur HeE I0 i_fix3 i_fix4.
  constructor; dsc; unfold MAXV; try lia.
Qed.

Lemma front_inv : forall H Sc W s, inv H Sc 0 W s -> H <= Q -> inv H Sc 0 W (ds_finaliseFront s).
Proof.
  intros H Sc W s I HQ. pose proof (i_cases _ _ _ _ _ I) as C. destruct I.
  rewrite front_form by lia. unfold Q, MAXV in *. unfold ds_raw.
  set (E := Z.max (ds_early s) (ds_rel s)). set (L := Z.max (ds_late s) (ds_rel s)). set (w := Z.max (ds_rel s - ds_late s) 0).
  assert (HE : ds_early s <= E /\ ds_rel s <= E /\ (E = ds_early s \/ E = ds_rel s)) by (clear; lia).
  assert (HL : ds_late s <= L /\ ds_rel s <= L /\ (L = ds_late s \/ L = ds_rel s)) by (clear; lia).
  assert (Hw : 0 <= w /\ ds_rel s - ds_late s <= w /\ (w = 0 \/ w = ds_rel s - ds_late s)) by (clear; lia).
  clearbody E L w. clear i_fix3 i_fix4.
  constructor; dsc; unfold MAXV; try lia.
Qed.

(** ** Every operation stays in range *)
Record bnd (M : Z) (s : dseg) : Prop := {
  b_dur : 0 <= ds_dur s <= M; b_tw : 0 <= ds_tw s <= M; b_e : 0 <= ds_early s <= M; b_l : 0 <= ds_late s <= MAXV;
  b_rel : 0 <= ds_rel s <= M; b_cdur : 0 <= ds_cdur s <= M; b_ctw : 0 <= ds_ctw s <= M; b_pel : 0 <= ds_pel s <= MAXV }.
Lemma bnd_le : forall M N s, bnd M s -> M <= N -> bnd N s.
Proof. intros M N s [] H. constructor; lia. Qed.
Lemma inv_bnd : forall H Sc Sp W s M, inv H Sc Sp W s -> 2 * (H + Sp + Sc + W) <= M -> bnd M s.
Proof. intros H Sc Sp W s M [] HM. clear i_fix3 i_fix4. constructor; lia. Qed.

Lemma ck_ok : forall x, - MAXV - 1 <= x <= MAXV -> ck x = Some x.
Proof. intros x H. unfold ck, int64b. rewrite (proj2 (Z.leb_le _ _) (proj1 H)), (proj2 (Z.leb_le _ _) (proj2 H)). reflexivity. Qed.
Lemma ck_if : forall (c : bool) x y, (c = true -> - MAXV - 1 <= x <= MAXV) -> (if c then ck x else Some y) = Some (if c then x else y).
Proof. intros [] x y H; [apply ck_ok, H; reflexivity|reflexivity]. Qed.
Lemma gtb_t : forall a b, (a >? b) = true -> b < a.
Proof. lia. Qed.
Lemma ob_some : forall {A B} (a : A) (f : A -> option B), obind (Some a) f = f a.
Proof. reflexivity. Qed.

Ltac kk := rewrite ck_ok; [rewrite ob_some|unfold MAXV, Q in *; try lia].

Lemma kmerge_ok : forall edge f s, bnd Q f -> bnd Q s -> 0 <= edge <= Q ->
  kds_merge edge f s = Some (ds_merge edge f s).
Proof.
  intros edge [d1 t1 e1 l1 r1 cd1 ct1 p1] [d2 t2 e2 l2 r2 cd2 ct2 p2] [] [] He.
  unfold kds_merge, ds_merge; dsc.
  kk. kk. set (a := d1 - t1 + edge). assert (Ha : - Q <= a <= 2 * Q) by (unfold Q in *; clear - b_dur0 b_tw0 He; lia). clearbody a.
  kk. rewrite ck_if by (intros C; apply gtb_t in C; unfold MAXV, Q in *; lia). rewrite ob_some.
  kk. rewrite ck_if by (intros C; apply gtb_t in C; unfold MAXV, Q in *; lia). rewrite ob_some.
  kk. rewrite ck_if by (intros C; apply gtb_t in C; unfold MAXV, Q in *; lia). rewrite ob_some.
  set (dt := if e1 + a >? l2 then _ else _). set (dw := if e2 - a >? l1 then _ else _). set (sl := if a >? l2 - MAXV then _ else _).
  assert (Hw : 0 <= dw <= 2 * Q) by (unfold dw, Q in *; clear - b_e0 b_e1 b_l0 Ha; destruct (Z.gtb_spec (e2 - a) l1); lia).
  assert (Ht : 0 <= dt <= 3 * Q) by (unfold dt, Q in *; clear - b_e0 b_l1 Ha; destruct (Z.gtb_spec (e1 + a) l2); lia).
  assert (Hs : - (2 * Q) <= sl /\ (dt = 0 \/ sl + dt <= e1)).
  { unfold sl, dt, Q, MAXV in *. clear - b_e0 b_l1 Ha.
    destruct (Z.gtb_spec (e1 + a) l2), (Z.gtb_spec a (l2 - 9223372036854775807)); lia. }
  clearbody dt dw sl. do 6 kk. kk.
  kk. kk. reflexivity.
Qed.

Lemma kduration_ok : forall s, bnd Q s -> kds_duration s = Some (ds_duration s).
Proof. intros s []. unfold kds_duration, ds_duration, ds_startEarly. kk. kk. apply ck_ok. unfold MAXV, Q in *. lia. Qed.
Lemma dur_range : forall s, bnd Q s -> 0 <= ds_duration s <= 3 * Q.
Proof. intros s []. unfold ds_duration, ds_startEarly. unfold MAXV, Q in *. lia. Qed.
Lemma ktimeWarp_ok : forall m s, bnd Q s -> 0 <= m -> kds_timeWarp m s = Some (ds_timeWarp m s).
Proof.
  intros m s B Hm. pose proof (dur_range s B) as D. unfold kds_timeWarp, ds_timeWarp. rewrite kduration_ok by exact B. destruct B.
  set (dd := ds_duration s) in *. clearbody dd.
  kk. rewrite ob_some. kk. kk. kk. rewrite ck_if by (intros C; apply gtb_t in C; unfold MAXV, Q in *; lia). rewrite ob_some.
  apply ck_ok. set (x := if _ >? _ then _ else _).
  assert (Hx : 0 <= x <= 3 * Q).
  { unfold x. destruct (Z.gtb_spec (dd - (ds_ctw s + ds_tw s)) m); unfold MAXV, Q in *; lia. }
  clearbody x. unfold MAXV, Q in *. lia.
Qed.
Lemma tw_range : forall m s, bnd Q s -> 0 <= m -> 0 <= ds_timeWarp m s <= 6 * Q.
Proof.
  intros m s B Hm. pose proof (dur_range s B) as D. unfold ds_timeWarp. destruct B. set (dd := ds_duration s) in *. clearbody dd.
  destruct (Z.gtb_spec (dd - (ds_ctw s + ds_tw s)) m); unfold MAXV, Q in *; lia.
Qed.
Lemma tw_range3 : forall s, bnd Q s -> 0 <= ds_timeWarp MAXV s - ds_ctw s <= 2 * Q.
Proof.
  intros s B. pose proof (dur_range s B) as D. unfold ds_timeWarp. destruct B. set (dd := ds_duration s) in *. clearbody dd.
  destruct (Z.gtb_spec (dd - (ds_ctw s + ds_tw s)) MAXV); unfold MAXV, Q in *; lia.
Qed.
Lemma kendEarly_ok : forall s, bnd Q s -> kds_endEarly s = Some (ds_endEarly s).
Proof.
  intros s B. pose proof (dur_range s B) as D. pose proof (tw_range MAXV s B ltac:(discriminate)) as T.
  unfold kds_endEarly, ds_endEarly, ds_startEarly. rewrite kduration_ok, ktimeWarp_ok by (try exact B; discriminate).
  destruct B. pose proof (eq_refl : ds_duration s = ds_cdur s + ds_dur s + Z.max (ds_startEarly s - ds_pel s) 0) as E. unfold ds_startEarly in E.
  set (dd := ds_duration s) in *. set (tt := ds_timeWarp MAXV s) in *. clearbody dd tt.
  rewrite !ob_some. kk. rewrite !ob_some. kk. kk. apply ck_ok. unfold MAXV, Q in *. lia.
Qed.
Lemma kendLate_ok : forall s, bnd Q s -> kds_endLate s = Some (ds_endLate s).
Proof.
  intros s B. pose proof (dur_range s B) as D. pose proof (tw_range MAXV s B ltac:(discriminate)) as T. pose proof (tw_range3 s B) as T3.
  unfold kds_endLate, ds_endLate, ds_startLate. rewrite kduration_ok, ktimeWarp_ok by (try exact B; discriminate).
  destruct B. set (dd := ds_duration s) in *. set (tt := ds_timeWarp MAXV s) in *. clearbody dd tt.
  rewrite !ob_some. kk. rewrite !ob_some. kk. kk. kk.
  set (n := dd - ds_cdur s - (tt - ds_ctw s)).
  destruct (Z.gtb_spec n (MAXV - Z.max (ds_late s) (ds_rel s))) as [C|C]; [reflexivity|]. apply ck_ok.
  assert (- (3 * Q) <= n) by (unfold n, Q in *; lia). clearbody n. unfold MAXV, Q in *. lia.
Qed.
Lemma kslack_ok : forall s, bnd Q s -> kds_slack s = Some (ds_slack s).
Proof. intros s []. unfold kds_slack, ds_slack, ds_startLate, ds_startEarly. kk. kk. reflexivity. Qed.

Definition HQ : Z := 576460752303423488.
Lemma raw_bnd : forall M d w e l, 0 <= d <= M -> 0 <= w <= M -> 0 <= e <= M -> 0 <= l <= MAXV -> bnd M (ds_raw d w e l).
Proof. intros. constructor; unfold ds_raw; dsc; try lia; split; try lia; discriminate. Qed.
Lemma kfront_ok : forall s, bnd Q s -> kds_finaliseFront s = Some (ds_finaliseFront s).
Proof.
  intros s []. unfold kds_finaliseFront, ds_finaliseFront, ds_merge0. apply kmerge_ok; [| |unfold Q; lia]; apply raw_bnd; unfold ds_startEarly, ds_startLate, Q, MAXV in *; lia.
Qed.
Lemma kback_ok : forall s, bnd HQ s -> ds_early s <= ds_late s -> kds_finaliseBack s = Some (ds_finaliseBack s).
Proof.
  intros s B Hel. pose proof (bnd_le _ Q _ B ltac:(discriminate)) as B1. unfold kds_finaliseBack. rewrite kfront_ok by exact B1. rewrite ob_some.
  assert (Bf : bnd Q (ds_finaliseFront s)).
  { destruct B. rewrite front_form by lia. apply raw_bnd; unfold HQ, Q, MAXV in *; lia. }
  rewrite kmerge_ok; [rewrite ob_some| |exact Bf|unfold Q; lia].
  2:{ destruct B. apply raw_bnd; unfold HQ, Q, MAXV in *; lia. }
  unfold ds_finaliseBack. change (ds_merge 0 (ds_raw 0 0 0 (ds_pel s)) (ds_finaliseFront s)) with (ds_merge0 (ds_raw 0 0 0 (ds_pel s)) (ds_finaliseFront s)).
  assert (Bm : bnd Q (ds_merge0 (ds_raw 0 0 0 (ds_pel s)) (ds_finaliseFront s))).
  { destruct B. rewrite back_form by (unfold HQ, Q, MAXV in *; lia). apply raw_bnd; unfold net_wait; unfold HQ, Q, MAXV in *; lia. }
  set (m := ds_merge0 _ _) in *. clearbody m.
  rewrite kendEarly_ok, kduration_ok, ktimeWarp_ok, kendLate_ok by (try exact Bm; discriminate).
  pose proof (dur_range m Bm) as D. pose proof (tw_range MAXV m Bm ltac:(discriminate)) as T.
  set (x1 := ds_duration m) in *. set (x2 := ds_timeWarp MAXV m) in *. clearbody x1 x2. destruct B1.
  rewrite !ob_some. kk. rewrite ob_some. kk. rewrite ob_some. reflexivity.
Qed.
