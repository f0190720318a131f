(** The figures of search routes and of proposals do not overflow on data of bounded size. *)
From Coq Require Import ZArith Lia List.
From Verif Require Import Base DurationSegment Data LoadSegment SearchRoute Valid RouteDur ProposalDur ProposalRest Cost Overflow OverflowSeg OverflowRoute OverflowMore OverflowCost OverflowSearch.
Import ListNotations.
Local Open Scope Z_scope.

Lemma In_firstn {A} n (l : list A) x : In x (firstn n l) -> In x l.
Proof. intros H. rewrite <- (firstn_skipn n l). apply in_or_app. left. exact H. Qed.
Lemma In_skipn {A} n (l : list A) x : In x (skipn n l) -> In x l.
Proof. intros H. rewrite <- (firstn_skipn n l). apply in_or_app. right. exact H. Qed.

Section Data.
Variable d : pdata.
Variables B U : Z.
Hypothesis Hv : valid_data d.
Hypothesis Hs : sized d B U.

(** ** Segments built by [n] steps *)
Definition pexp (n : Z) (s : dseg) : Prop := exists e, plain d e /\ seval d e = s /\ xsize e <= n.
Definition jexp (n : Z) (s : dseg) : Prop := exists e, joined d e /\ seval d e = s /\ xsize e <= n.
Lemma plain_joined : forall e, plain d e -> joined d e.
Proof. induction e as [s|p i j a IHa b IHb|a IHa b IHb|a IHa|a IHa]; cbn [plain joined]; try tauto. Qed.
Lemma pj n s : pexp n s -> jexp n s.
Proof. intros (e & P & E). exists e. split; [apply plain_joined, P|exact E]. Qed.
Lemma p_le n m s : pexp n s -> n <= m -> pexp m s.
Proof. intros (e & P & E & L) H. exists e. split; [exact P|]. split; [exact E|lia]. Qed.
Lemma j_le n m s : jexp n s -> n <= m -> jexp m s.
Proof. intros (e & P & E & L) H. exists e. split; [exact P|]. split; [exact E|lia]. Qed.
Lemma p_pos n s : pexp n s -> 1 <= n.
Proof. intros (e & P & E & L). pose proof (xsize_pos e). lia. Qed.
Lemma j_pos n s : jexp n s -> 1 <= n.
Proof. intros (e & P & E & L). pose proof (xsize_pos e). lia. Qed.
Lemma room n m : n <= m -> 8 * m * B <= HQ -> 8 * n * B <= HQ.
Proof. intros H1 H2. pose proof (B0 d B U Hs) as HB. nia. Qed.

Lemma j_value n s : jexp n s -> 8 * n * B <= HQ ->
  kds_duration s = Some (ds_duration s) /\ (forall m, 0 <= m -> kds_timeWarp m s = Some (ds_timeWarp m s)) /\ 0 <= ds_duration s <= 5 * n * B.
Proof.
  intros (e & J & <- & L) H. assert (H1 : 8 * xsize e * B <= HQ) by (apply (room _ n); assumption).
  destruct (segments_ok d B U Hv Hs e J H1) as (_ & E1 & E2 & _). split; [exact E1|]. split; [exact E2|].
  destruct (joined_ok d B U Hv Hs e J H1) as (_ & Sc & Sp & W & I & A1 & A2). pose proof (B0 d B U Hs) as HB. pose proof (xsize_pos e) as Np.
  assert (HL : xsize e * B <= n * B) by (apply Z.mul_le_mono_nonneg_r; lia). unfold ds_duration, ds_startEarly.
  set (s := seval d e) in *. clearbody s. pose proof (i_e _ _ _ _ _ I) as I1. pose proof (i_l _ _ _ _ _ I) as I2. pose proof (i_rel _ _ _ _ _ I) as I3.
  pose proof (i_dur _ _ _ _ _ I) as I4. pose proof (i_cdur _ _ _ _ _ I) as I5. pose proof (i_pel _ _ _ _ _ I) as I6. pose proof (i_tot _ _ _ _ _ I) as I7.
  pose proof (i_Sc _ _ _ _ _ I) as I8. pose proof (i_Sp _ _ _ _ _ I) as I9. clear I E1 E2 J H H1. lia.
Qed.
Lemma p_edge n m p i j a b : pexp n a -> pexp m b -> 8 * (n + m + 1) * B <= HQ ->
  kds_merge (p_dur d p i j) a b = Some (ds_merge (p_dur d p i j) a b) /\ pexp (n + m + 1) (ds_merge (p_dur d p i j) a b).
Proof.
  intros (e & P & E & L) (f & P' & E' & L') H. assert (P2 : plain d (XEdge p i j e f)) by (split; assumption).
  split; [|exists (XEdge p i j e f); split; [exact P2|]; split; [cbn [seval]; congruence|cbn [xsize]; lia]].
  destruct (plain_ok d B U Hv Hs _ P2) as [K _]; [apply (room _ (n + m + 1)); [cbn [xsize]; lia|exact H]|].
  destruct (plain_ok d B U Hv Hs _ P) as [K1 _]; [apply (room _ (n + m + 1)); [pose proof (xsize_pos f); lia|exact H]|].
  destruct (plain_ok d B U Hv Hs _ P') as [K2 _]; [apply (room _ (n + m + 1)); [pose proof (xsize_pos e); lia|exact H]|].
  cbn [kseval seval] in K. rewrite K1, K2, !ob_some, E, E' in K. exact K.
Qed.
Lemma p_here n m a b : pexp n a -> pexp m b -> 8 * (n + m + 1) * B <= HQ ->
  kds_merge 0 a b = Some (ds_merge0 a b) /\ pexp (n + m + 1) (ds_merge0 a b).
Proof.
  intros (e & P & E & L) (f & P' & E' & L') H. assert (P2 : plain d (XHere e f)) by (split; assumption).
  split; [|exists (XHere e f); split; [exact P2|]; split; [cbn [seval]; congruence|cbn [xsize]; lia]].
  destruct (plain_ok d B U Hv Hs _ P2) as [K _]; [apply (room _ (n + m + 1)); [cbn [xsize]; lia|exact H]|].
  destruct (plain_ok d B U Hv Hs _ P) as [K1 _]; [apply (room _ (n + m + 1)); [pose proof (xsize_pos f); lia|exact H]|].
  destruct (plain_ok d B U Hv Hs _ P') as [K2 _]; [apply (room _ (n + m + 1)); [pose proof (xsize_pos e); lia|exact H]|].
  cbn [kseval seval] in K. rewrite K1, K2, !ob_some, E, E' in K. exact K.
Qed.
Lemma j_edge n m p i j a b : jexp n a -> pexp m b -> 8 * (n + m + 1) * B <= HQ ->
  kds_merge (p_dur d p i j) a b = Some (ds_merge (p_dur d p i j) a b) /\ jexp (n + m + 1) (ds_merge (p_dur d p i j) a b).
Proof.
  intros (e & P & E & L) (f & P' & E' & L') H. assert (P2 : joined d (XEdge p i j e f)) by (split; assumption).
  split; [|exists (XEdge p i j e f); split; [exact P2|]; split; [cbn [seval]; congruence|cbn [xsize]; lia]].
  destruct (joined_ok d B U Hv Hs _ P2) as [K _]; [apply (room _ (n + m + 1)); [cbn [xsize]; lia|exact H]|].
  destruct (joined_ok d B U Hv Hs _ P) as [K1 _]; [apply (room _ (n + m + 1)); [pose proof (xsize_pos f); lia|exact H]|].
  destruct (plain_ok d B U Hv Hs _ P') as [K2 _]; [apply (room _ (n + m + 1)); [pose proof (xsize_pos e); lia|exact H]|].
  cbn [kseval seval] in K. rewrite K1, K2, !ob_some, E, E' in K. exact K.
Qed.
Lemma j_here n m a b : jexp n a -> pexp m b -> 8 * (n + m + 1) * B <= HQ ->
  kds_merge 0 a b = Some (ds_merge0 a b) /\ jexp (n + m + 1) (ds_merge0 a b).
Proof.
  intros (e & P & E & L) (f & P' & E' & L') H. assert (P2 : joined d (XHere e f)) by (split; assumption).
  split; [|exists (XHere e f); split; [exact P2|]; split; [cbn [seval]; congruence|cbn [xsize]; lia]].
  destruct (joined_ok d B U Hv Hs _ P2) as [K _]; [apply (room _ (n + m + 1)); [cbn [xsize]; lia|exact H]|].
  destruct (joined_ok d B U Hv Hs _ P) as [K1 _]; [apply (room _ (n + m + 1)); [pose proof (xsize_pos f); lia|exact H]|].
  destruct (plain_ok d B U Hv Hs _ P') as [K2 _]; [apply (room _ (n + m + 1)); [pose proof (xsize_pos e); lia|exact H]|].
  cbn [kseval seval] in K. rewrite K1, K2, !ob_some, E, E' in K. exact K.
Qed.
Lemma p_front n a : pexp n a -> 8 * (n + 1) * B <= HQ -> kds_finaliseFront a = Some (ds_finaliseFront a) /\ pexp (n + 1) (ds_finaliseFront a).
Proof.
  intros (e & P & E & L) H. split; [|exists (XFront e); split; [exact P|]; split; [cbn [seval]; congruence|cbn [xsize]; lia]].
  destruct (plain_ok d B U Hv Hs (XFront e) P) as [K _]; [apply (room _ (n + 1)); [cbn [xsize]; lia|exact H]|].
  destruct (plain_ok d B U Hv Hs _ P) as [K1 _]; [apply (room _ (n + 1)); [lia|exact H]|].
  cbn [kseval seval] in K. rewrite K1, ob_some, E in K. exact K.
Qed.
Lemma j_back n a : jexp n a -> 8 * (n + 1) * B <= HQ -> kds_finaliseBack a = Some (ds_finaliseBack a) /\ jexp (n + 1) (ds_finaliseBack a).
Proof.
  intros (e & P & E & L) H. split; [|exists (XBack e); split; [exact P|]; split; [cbn [seval]; congruence|cbn [xsize]; lia]].
  destruct (joined_ok d B U Hv Hs (XBack e) P) as [K _]; [apply (room _ (n + 1)); [cbn [xsize]; lia|exact H]|].
  destruct (joined_ok d B U Hv Hs _ P) as [K1 _]; [apply (room _ (n + 1)); [lia|exact H]|].
  cbn [kseval seval] in K. rewrite K1, ob_some, E in K. exact K.
Qed.
Lemma p_stop s : plain d (XStop s) -> pexp 1 (stop_seg d s).
Proof. intros P. exists (XStop s). split; [exact P|]. split; [reflexivity|cbn; lia]. Qed.
Lemma p_service x : pexp 1 (ds_service (it_srv d x)).
Proof. exact (p_stop (PService (a_idx (it_act x))) I). Qed.
Lemma p_depot_service i : pexp 1 (ds_depot (p_depot d i) (d_service (p_depot d i))).
Proof. exact (p_stop (PDepot i true) I). Qed.

(** ** Loads of [n] stops *)
Record lfit (n : Z) (s : lseg) : Prop := mk_lfit {
  lf_init : 0 <= ls_initial s; lf_inc : 0 <= ls_increase s; lf_ex : 0 <= ls_excess s;
  lf_delta : - (n * B) <= ls_delta s <= ls_increase s;
  lf_sum : ls_initial s + ls_increase s + ls_excess s <= 2 * n * B }.
Lemma lfit_le n m s : lfit n s -> n <= m -> lfit m s.
Proof. intros [] H. pose proof (B0 d B U Hs) as HB. assert (n * B <= m * B) by nia. constructor; lia. Qed.
Lemma l_merge n m a b : lfit n a -> lfit m b -> 0 <= n -> 0 <= m -> 12 * (n + m) * B <= Q ->
  kls_merge a b = Some (ls_merge a b) /\ lfit (n + m) (ls_merge a b) /\ ls_load (ls_merge a b) <= ls_load a + ls_load b.
Proof.
  intros [] [] H1 H2 H. pose proof (B0 d B U Hs) as HB. assert (HnB : 0 <= n * B /\ 0 <= m * B) by nia.
  split; [unfold kls_merge; kk; kk; kk; kk; reflexivity|].
  unfold ls_merge, ls_load; split; [constructor|]; cbn [ls_initial ls_delta ls_increase ls_excess]; lia.
Qed.
Lemma l_excess n cap a : lfit n a -> 1 <= n -> 0 <= cap <= MAXV -> 12 * n * B <= Q ->
  kls_excessLoad cap a = Some (ls_excessLoad cap a) /\ 0 <= ls_excessLoad cap a <= 2 * n * B.
Proof.
  intros [] H0 Hc H. pose proof (B0 d B U Hs) as HB. assert (HnB : B <= n * B) by nia.
  apply (excess_ok d B U Hs n cap a); try assumption; lia.
Qed.
Lemma l_final n cap a : lfit n a -> 1 <= n -> 0 <= cap <= MAXV -> 12 * n * B <= Q ->
  kls_finalise cap a = Some (ls_finalise cap a) /\ lfit n (ls_finalise cap a) /\ ls_load (ls_finalise cap a) = 0.
Proof.
  intros F H0 Hc H. destruct (l_excess n cap a F H0 Hc H) as [E R]. pose proof (B0 d B U Hs) as HB. assert (0 <= n * B) by nia.
  unfold kls_finalise. rewrite E, ob_some. split; [reflexivity|]. unfold ls_finalise, ls_load.
  split; [constructor|]; cbn [ls_initial ls_delta ls_increase ls_excess]; lia.
Qed.
Lemma l_load n a : lfit n a -> 0 <= ls_load a <= 2 * n * B.
Proof. intros []. unfold ls_load. lia. Qed.

(** ** The nodes of a route *)
Record good_item (x : item) : Prop := mk_good_item {
  gi_dur : pexp 3 (it_dur x);
  gi_kload : forall dim, kit_load d dim x = Some (it_load x dim);
  gi_load : forall dim, lfit 1 (it_load x dim) }.
Lemma l_stop s dim : lgood d (YStop s) -> 12 * B <= Q -> klstop_seg d dim s = Some (lstop_seg d dim s) /\ lfit 1 (lstop_seg d dim s).
Proof.
  intros G H. destruct (loads_ok d B U Hv Hs 0 dim (YStop s)) as (E & A1 & A2 & A3 & A4 & A5); [unfold MAXV; lia|exact G|cbn [lsize]; lia|].
  split; [exact E|]. cbn [leval lsize] in *. constructor; assumption.
Qed.

Lemma act_good a : 12 * B <= Q -> good_item (item_act d a).
Proof.
  intros H. destruct a as [i|i|i|i]; constructor; cbn [item_act it_dur it_load it_act kit_load]; try (intros dim; unfold kit_load; cbn [it_act]).
  - apply (p_le 1); [exact (p_stop (PDepot i false) I)|lia].
  - reflexivity.
  - exact (proj2 (l_stop LNone dim I H)).
  - apply (p_le 1); [exact (p_stop (PClient i) I)|lia].
  - exact (proj1 (l_stop (LClient i) dim I H)).
  - exact (proj2 (l_stop (LClient i) dim I H)).
  - apply (p_le 1); [exact (p_stop (PPickup i) I)|lia].
  - exact (proj1 (l_stop (LPickup i) dim I H)).
  - exact (proj2 (l_stop (LPickup i) dim I H)).
  - apply (p_le 1); [exact (p_stop (PDelivery i) I)|lia].
  - exact (proj1 (l_stop (LDelivery i) dim I H)).
  - exact (proj2 (l_stop (LDelivery i) dim I H)).
Qed.
Lemma in_vehicle v : In v (p_vehicles d) -> exists vt, (vt < p_numVehicleTypes d)%nat /\ v = p_vehicle d vt.
Proof. intros H. destruct (In_nth _ _ dummy_vehicle H) as (vt & H1 & H2). exists vt. split; [exact H1|]. symmetry. exact H2. Qed.

Notation len l := (Z.of_nat (length l)).
(** ** The arrays *)
Lemma kdist_ok dist l : (forall i j, 0 <= dist i j <= B) -> forall prev acc, 0 <= acc -> acc + len l * B <= Q ->
  kdist_loop dist prev acc l = Some (dist_loop dist prev acc l).
Proof.
  intros Hd. induction l as [|x l IH]; intros prev acc H0 H; cbn [kdist_loop dist_loop length] in *; [reflexivity|].
  rewrite Nat2Z.inj_succ in H. pose proof (Hd (it_loc prev) (it_loc x)) as R. assert (0 <= len l * B) by nia.
  kk. rewrite IH by lia. reflexivity.
Qed.
Lemma kdist_walk_ok dist l : (forall i j, 0 <= dist i j <= B) -> forall prev acc, 0 <= acc -> acc + len l * B <= Q ->
  kdist_walk dist prev acc l = Some (acc + dist_walk dist prev l) /\ 0 <= dist_walk dist prev l <= len l * B.
Proof.
  intros Hd. induction l as [|x l IH]; intros prev acc H0 H; cbn [kdist_walk dist_walk length] in *; [rewrite Z.add_0_r; split; [reflexivity|lia]|].
  rewrite Nat2Z.inj_succ in *. pose proof (Hd (it_loc prev) (it_loc x)) as R. assert (0 <= len l * B) by nia.
  kk. destruct (IH x (acc + dist (it_loc prev) (it_loc x))) as [E F]; [lia|lia|]. rewrite E. split; [f_equal; lia|lia].
Qed.

Lemma before_step_ok p prev x acc n : jexp n acc -> good_item x -> 8 * (n + 7) * B <= HQ ->
  kbefore_step d (p_dur d p) prev acc x = Some (before_step d (p_dur d p) prev acc x) /\ jexp (n + 7) (before_step d (p_dur d p) prev acc x).
Proof.
  intros J G H. unfold kbefore_step, before_step.
  assert (A : exists b, (if it_reload prev then b <-- kds_finaliseBack acc; kds_merge 0 b (ds_service (it_srv d prev)) else Some acc) = Some b /\
    (if it_reload prev then ds_merge0 (ds_finaliseBack acc) (ds_service (it_srv d prev)) else acc) = b /\ jexp (n + 3) b).
  { destruct (it_reload prev); [|exists acc; split; [reflexivity|]; split; [reflexivity|apply (j_le n); [exact J|lia]]].
    destruct (j_back n acc J) as [E1 J1]; [apply (room _ (n + 7)); [lia|exact H]|]. rewrite E1, ob_some.
    destruct (j_here _ 1 _ _ J1 (p_service prev)) as [E2 J2]; [apply (room _ (n + 7)); [lia|exact H]|].
    eexists. split; [exact E2|]. split; [reflexivity|]. apply (j_le _ _ _ J2). lia. }
  destruct A as (b & -> & -> & J3). rewrite ob_some.
  destruct (j_edge _ 3 p (it_loc prev) (it_loc x) _ _ J3 (gi_dur _ G)) as [E J4]; [apply (room _ (n + 7)); [lia|exact H]|].
  split; [exact E|]. apply (j_le _ _ _ J4). lia.
Qed.
Lemma before_loop_ok p l : Forall good_item l -> forall prev acc n, jexp n acc -> 8 * (n + 7 * len l) * B <= HQ ->
  kbefore_loop d (p_dur d p) prev acc l = Some (before_loop d (p_dur d p) prev acc l) /\
  forall i, (i < length l)%nat -> jexp (n + 7 * (Z.of_nat i + 1)) (nth i (before_loop d (p_dur d p) prev acc l) dnone).
Proof.
  induction 1 as [|x l G HF IH]; intros prev acc n J H; cbn [kbefore_loop before_loop length] in *; [split; [reflexivity|]; intros i Hi; lia|].
  rewrite Nat2Z.inj_succ in H. destruct (before_step_ok p prev x acc n J G) as [E J1]; [eapply room; [|exact H]; lia|].
  rewrite E, ob_some. destruct (IH x _ _ J1) as [E2 J2]; [eapply room; [|exact H]; lia|]. rewrite E2, ob_some. split; [reflexivity|].
  intros [|i] Hi; cbn [nth]; [apply (j_le _ _ _ J1); lia|]. apply (j_le _ _ _ (J2 i ltac:(lia))). lia.
Qed.
Lemma before_ok p l : Forall good_item l -> 8 * (7 * len l) * B <= HQ ->
  kbefore_array d (p_dur d p) l = Some (before_array d (p_dur d p) l) /\
  forall i, (i < length l)%nat -> jexp (7 * (Z.of_nat i + 1)) (nth i (before_array d (p_dur d p) l) dnone).
Proof.
  intros [|x l' G HF] H; cbn [kbefore_array before_array length] in *; [split; [reflexivity|]; intros i Hi; lia|].
  rewrite Nat2Z.inj_succ in H. destruct (before_loop_ok p l' HF x (it_dur x) 3 (pj _ _ (gi_dur _ G))) as [E J]; [eapply room; [|exact H]; lia|].
  rewrite E, ob_some. split; [reflexivity|]. intros [|i] Hi; cbn [nth]; [apply (j_le 3); [apply pj, (gi_dur _ G)|lia]|].
  apply (j_le _ _ _ (J i ltac:(lia))). lia.
Qed.

Lemma after_step_ok p x next s n : good_item x -> pexp n s -> 8 * (n + 7) * B <= HQ ->
  kafter_step d (p_dur d p) x next s = Some (after_step d (p_dur d p) x next s) /\ pexp (n + 7) (after_step d (p_dur d p) x next s).
Proof.
  intros G J H. unfold kafter_step, after_step.
  assert (A : exists a, (if it_reload next then kds_finaliseFront s else Some s) = Some a /\ (if it_reload next then ds_finaliseFront s else s) = a /\ pexp (n + 1) a).
  { destruct (it_reload next); [|exists s; split; [reflexivity|]; split; [reflexivity|apply (p_le n); [exact J|lia]]].
    destruct (p_front n s J) as [E1 J1]; [apply (room _ (n + 7)); [lia|exact H]|]. eexists. split; [exact E1|]. split; [reflexivity|exact J1]. }
  destruct A as (a & -> & -> & J1). rewrite ob_some.
  assert (A : exists b, (if it_reload x then kds_merge 0 (ds_service (it_srv d x)) a else Some a) = Some b /\
    (if it_reload x then ds_merge0 (ds_service (it_srv d x)) a else a) = b /\ pexp (n + 3) b).
  { destruct (it_reload x); [|exists a; split; [reflexivity|]; split; [reflexivity|apply (p_le _ _ _ J1); lia]].
    destruct (p_here 1 _ _ _ (p_service x) J1) as [E2 J2]; [apply (room _ (n + 7)); [lia|exact H]|].
    eexists. split; [exact E2|]. split; [reflexivity|]. apply (p_le _ _ _ J2). lia. }
  destruct A as (b & -> & -> & J2). rewrite ob_some.
  destruct (p_edge 3 _ p (it_loc x) (it_loc next) _ _ (gi_dur _ G) J2) as [E J3]; [apply (room _ (n + 7)); [lia|exact H]|].
  split; [exact E|]. apply (p_le _ _ _ J3). lia.
Qed.
Lemma after_ok p l : Forall good_item l -> 8 * (7 * len l) * B <= HQ ->
  kafter_array d (p_dur d p) l = Some (after_array d (p_dur d p) l) /\
  forall i, (i < length l)%nat -> pexp (7 * (len l - Z.of_nat i)) (nth i (after_array d (p_dur d p) l) dnone).
Proof.
  induction 1 as [|x l G HF IH]; intros H; [split; [reflexivity|]; cbn [length]; intros i Hi; lia|].
  cbn [length] in H. rewrite Nat2Z.inj_succ in H. destruct IH as [E J]; [eapply room; [|exact H]; lia|].
  destruct l as [|y l].
  - split; [reflexivity|]. intros [|i] Hi; [|cbn [length] in Hi; lia]. cbn [nth after_array length]. apply (p_le 3); [apply (gi_dur _ G)|lia].
  - destruct (after_array_cons d (p_dur d p) y l) as (s & rest & Es).
    change (kafter_array d (p_dur d p) (x :: y :: l)) with
      (rest <-- kafter_array d (p_dur d p) (y :: l); match rest with nextDur :: _ => c <-- kafter_step d (p_dur d p) x y nextDur; Some (c :: rest) | [] => Some [it_dur x] end).
    change (after_array d (p_dur d p) (x :: y :: l)) with
      (match after_array d (p_dur d p) (y :: l) with nextDur :: _ => after_step d (p_dur d p) x y nextDur :: after_array d (p_dur d p) (y :: l) | [] => [it_dur x] end).
    rewrite E, ob_some. rewrite Es in *. pose proof (J 0%nat ltac:(cbn [length]; lia)) as J0. cbn [nth] in J0.
    destruct (after_step_ok p x y s _ G J0) as [E1 J1]; [eapply room; [|exact H]; lia|]. rewrite E1, ob_some. split; [reflexivity|].
    intros [|i] Hi; cbn [nth]; [apply (p_le _ _ _ J1); cbn [length]; lia|].
    apply (p_le _ _ _ (J i ltac:(cbn [length] in *; lia))). cbn [length]. lia.
Qed.

Lemma lbefore_step_ok cap prev acc s n : 0 <= cap <= MAXV -> lfit n acc -> 1 <= n -> lfit 1 s -> 12 * (n + 1) * B <= Q ->
  klbefore_step cap prev acc s = Some (lbefore_step cap prev acc s) /\ lfit (n + 1) (lbefore_step cap prev acc s) /\
  ls_load (lbefore_step cap prev acc s) <= (if it_reload prev then 0 else ls_load acc) + 2 * B.
Proof.
  intros Hc F Hn G H. unfold klbefore_step, lbefore_step. pose proof (B0 d B U Hs) as HB. pose proof (l_load 1 s G) as L1. destruct (it_reload prev).
  - destruct (l_final n cap acc F Hn Hc) as (E & F1 & L); [nia|]. rewrite E, ob_some. destruct (l_merge n 1 _ s F1 G) as (E2 & F2 & L2); [lia|lia|exact H|].
    split; [exact E2|]. split; [exact F2|]. lia.
  - rewrite ob_some. destruct (l_merge n 1 _ s F G) as (E2 & F2 & L2); [lia|lia|exact H|]. split; [exact E2|]. split; [exact F2|]. lia.
Qed.
Lemma lbefore_loop_ok cap dim l : 0 <= cap <= MAXV -> Forall good_item l -> forall prev acc n, lfit n acc -> 1 <= n -> 12 * (n + len l) * B <= Q ->
  klbefore_loop d cap dim prev acc l = Some (lbefore_loop cap dim prev acc l) /\
  forall i, (i < length l)%nat -> lfit (n + Z.of_nat i + 1) (nth i (lbefore_loop cap dim prev acc l) ls_zero).
Proof.
  intros Hc. pose proof (B0 d B U Hs) as HB. induction 1 as [|x l G HF IH]; intros prev acc n F Hn H; cbn [klbefore_loop lbefore_loop length] in *; [split; [reflexivity|]; intros i Hi; lia|].
  rewrite Nat2Z.inj_succ in H. rewrite (gi_kload _ G dim), ob_some.
  destruct (lbefore_step_ok cap prev acc _ n Hc F Hn (gi_load _ G dim)) as (E & F1 & _); [nia|]. rewrite E, ob_some.
  destruct (IH x _ _ F1) as [E2 F2]; [lia|nia|]. rewrite E2, ob_some. split; [reflexivity|].
  intros [|i] Hi; cbn [nth]; [apply (lfit_le _ _ _ F1); lia|]. apply (lfit_le _ _ _ (F2 i ltac:(lia))). lia.
Qed.
Lemma lbefore_ok cap dim l : 0 <= cap <= MAXV -> Forall good_item l -> 12 * len l * B <= Q ->
  klbefore_array d cap dim l = Some (lbefore_array cap dim l) /\
  forall i, (i < length l)%nat -> lfit (Z.of_nat i + 1) (nth i (lbefore_array cap dim l) ls_zero).
Proof.
  intros Hc [|x l' G HF] H; cbn [klbefore_array lbefore_array length] in *; [split; [reflexivity|]; intros i Hi; lia|].
  rewrite Nat2Z.inj_succ in H. rewrite (gi_kload _ G dim), ob_some.
  destruct (lbefore_loop_ok cap dim l' Hc HF x _ 1 (gi_load _ G dim)) as [E F]; [lia|lia|]. rewrite E, ob_some. split; [reflexivity|].
  intros [|i] Hi; cbn [nth]; [exact (gi_load _ G dim)|]. apply (lfit_le _ _ _ (F i ltac:(lia))). lia.
Qed.
Lemma lafter_ok cap dim l : 0 <= cap <= MAXV -> Forall good_item l -> 12 * len l * B <= Q ->
  klafter_array d cap dim l = Some (lafter_array cap dim l) /\ length (lafter_array cap dim l) = length l /\
  forall i, (i < length l)%nat -> lfit (len l - Z.of_nat i) (nth i (lafter_array cap dim l) ls_zero).
Proof.
  intros Hc. pose proof (B0 d B U Hs) as HB. induction 1 as [|x l G HF IH]; intros H; [split; [reflexivity|]; split; [reflexivity|]; cbn [length]; intros i Hi; lia|].
  cbn [length] in H. rewrite Nat2Z.inj_succ in H. destruct IH as (E & L & J); [nia|].
  destruct l as [|y l].
  - cbn [klafter_array lafter_array]. rewrite ob_some, (gi_kload _ G dim), ob_some. split; [reflexivity|]. split; [reflexivity|].
    intros [|i] Hi; [|cbn [length] in Hi; lia]. cbn [nth length]. exact (gi_load _ G dim).
  - destruct (lafter_array cap dim (y :: l)) as [|s rest] eqn:Es; [cbn [length] in L; lia|].
    change (klafter_array d cap dim (x :: y :: l)) with
      (rest <-- klafter_array d cap dim (y :: l); l0 <-- kit_load d dim x;
       match rest with nextLoad :: _ => after <-- (if it_reload y then kls_finalise cap nextLoad else Some nextLoad); c <-- kls_merge l0 after; Some (c :: rest) | [] => Some [l0] end).
    change (lafter_array cap dim (x :: y :: l)) with
      (match lafter_array cap dim (y :: l) with nextLoad :: _ => ls_merge (it_load x dim) (if it_reload y then ls_finalise cap nextLoad else nextLoad) :: lafter_array cap dim (y :: l)
       | [] => [it_load x dim] end).
    rewrite E, ob_some, (gi_kload _ G dim), ob_some. rewrite Es. pose proof (J 0%nat ltac:(cbn [length]; lia)) as J0. cbn [nth] in J0.
    set (m := len (y :: l) - Z.of_nat 0) in *. assert (Hm : 1 <= m /\ m = len (y :: l)) by (unfold m; cbn [length]; lia). destruct Hm as [Hm Em].
    assert (A : exists a, (if it_reload y then kls_finalise cap s else Some s) = Some a /\ (if it_reload y then ls_finalise cap s else s) = a /\ lfit m a).
    { destruct (it_reload y); [|exists s; split; [reflexivity|]; split; [reflexivity|exact J0]].
      destruct (l_final m cap s J0 Hm Hc) as (E1 & F1 & _); [nia|]. eexists. split; [exact E1|]. split; [reflexivity|exact F1]. }
    destruct A as (a & -> & -> & F1). rewrite ob_some. destruct (l_merge 1 m _ a (gi_load _ G dim) F1) as (E2 & F2 & _); [lia|lia|nia|].
    rewrite E2, ob_some. split; [reflexivity|]. split; [cbn [length] in *; lia|].
    intros [|i] Hi; cbn [nth]; [apply (lfit_le _ _ _ F2); cbn [length] in *; lia|].
    apply (lfit_le _ _ _ (J i ltac:(cbn [length] in *; lia))). cbn [length] in *. lia.
Qed.

(** ** A route *)
Definition fits (n : Z) : Prop := 192 * (n + 3) * B * (U + 1) <= Q.
Lemma fits_room n : 0 <= n -> fits n -> 8 * (12 * (n + 3)) * B <= HQ /\ 192 * (n + 3) * B <= Q /\ 192 * (n + 3) * B * U <= Q.
Proof.
  unfold fits. intros Hn H. pose proof (B0 d B U Hs) as HB. pose proof (sz_U _ _ _ Hs) as HU.
  assert (0 <= (n + 3) * B) by nia. assert (0 <= (n + 3) * B * U) by nia. unfold HQ, Q in *. lia.
Qed.
Lemma fits_le n m : n <= m -> fits m -> fits n.
Proof. unfold fits. intros H1 H2. pose proof (B0 d B U Hs) as HB. pose proof (sz_U _ _ _ Hs) as HU. assert (0 <= B * (U + 1)) by nia. nia. Qed.

Section Vehicle.
Variable vt : nat.
Hypothesis Hvt : (vt < p_numVehicleTypes d)%nat.
Let v := p_vehicle d vt.
Lemma ends_ok : 24 * B <= HQ -> 
  (kds_merge 0 (ds_vehicle v (v_startLate v)) (ds_depot (p_depot d (v_start v)) (d_service (p_depot d (v_start v)))) = Some (it_dur (item_start d v)) /\ pexp 3 (it_dur (item_start d v))) /\
  (kds_merge 0 (ds_depot (p_depot d (v_end v)) 0) (ds_vehicle v (v_late v)) = Some (it_dur (item_end d v)) /\ pexp 3 (it_dur (item_end d v))).
Proof.
  intros H. split.
  - exact (p_here 1 1 _ _ (p_stop (PStart vt) Hvt) (p_stop (PDepot (v_start v) true) I) ltac:(lia)).
  - exact (p_here 1 1 _ _ (p_stop (PDepot (v_end v) false) I) (p_stop (PEnd vt) Hvt) ltac:(lia)).
Qed.
Lemma kitems_ok mid : 24 * B <= HQ -> kroute_items d v mid = Some (route_items d v mid).
Proof. intros H. destruct (ends_ok H) as [[E1 _] [E2 _]]. unfold kroute_items. rewrite E1, ob_some, E2, ob_some. reflexivity. Qed.
Lemma items_good mid : 24 * B <= HQ -> Forall good_item (route_items d v mid).
Proof.
  intros H. assert (H' : 12 * B <= Q) by (pose proof (B0 d B U Hs); unfold HQ, Q in *; lia). destruct (ends_ok H) as [[_ P1] [_ P2]]. unfold route_items. constructor.
  - constructor; [exact P1|reflexivity|]. intros dim. exact (proj2 (l_stop (LStart vt) dim Hvt H')).
  - apply Forall_app. split.
    + apply Forall_forall. intros x Hx. apply in_map_iff in Hx as (a & <- & _). apply act_good. exact H'.
    + constructor; [|constructor]. constructor; [exact P2|reflexivity|]. intros dim. exact (proj2 (l_stop LNone dim I H')).
Qed.

Lemma load_sum_ok cap dim last mid : 0 <= cap <= MAXV -> 12 * B <= Q -> good_item last -> forall prev acc n sum, lfit n acc -> 1 <= n -> 0 <= sum ->
  sum + (if it_reload prev then 0 else ls_load acc) <= 2 * n * B -> 12 * (n + len mid + 1) * B <= Q ->
  kload_sum sum (map (item_act d) mid ++ [last]) (lbefore_loop cap dim prev acc (map (item_act d) mid ++ [last]))
  = Some (sum + load_sum (map (item_act d) mid ++ [last]) (lbefore_loop cap dim prev acc (map (item_act d) mid ++ [last]))).
Proof.
  intros Hc H12 Gl. pose proof (B0 d B U Hs) as HB. induction mid as [|a mid IH]; intros prev acc n sum F Hn H0 HS H; cbn [map app length] in *.
  - cbn [lbefore_loop kload_sum load_sum]. destruct (lbefore_step_ok cap prev acc _ n Hc F Hn (gi_load _ Gl dim)) as (_ & F1 & L1); [nia|].
    pose proof (l_load _ _ F1) as R. pose proof (lf_init _ _ F1) as R1. pose proof (lf_inc _ _ F1) as R2. assert (HnB : B <= n * B) by nia. unfold ls_load in *.
    destruct (a_isDepot (it_act last)); [|f_equal; lia]. kk. kk. f_equal. lia.
  - rewrite Nat2Z.inj_succ in H. cbn [lbefore_loop kload_sum load_sum]. pose proof (act_good a H12) as G.
    destruct (lbefore_step_ok cap prev acc _ n Hc F Hn (gi_load _ G dim)) as (_ & F1 & L1); [nia|].
    set (b := lbefore_step cap prev acc (it_load (item_act d a) dim)) in *. clearbody b.
    pose proof (l_load _ _ F1) as R. pose proof (lf_init _ _ F1) as R1. pose proof (lf_inc _ _ F1) as R2. assert (HnB : B <= n * B) by nia.
    assert (HmB : 0 <= len mid * B) by nia.
    assert (Er : it_reload (item_act d a) = a_isDepot (it_act (item_act d a))) by (destruct a; reflexivity).
    destruct (a_isDepot (it_act (item_act d a))).
    + unfold ls_load in *. kk. kk. rewrite (IH _ _ (n + 1)); [f_equal; lia|exact F1|lia|lia|rewrite Er; lia|nia].
    + rewrite (IH _ _ (n + 1)); [f_equal; lia|exact F1|lia|lia|rewrite Er; lia|nia].
Qed.

Lemma kload_dim_ok mid n dim : len mid <= n -> fits n -> let its := route_items d v mid in let cap := dimv (v_capacity v) dim in
  kload_dim d v its dim = Some (lbefore_array cap dim its, lafter_array cap dim its,
    load_sum (List.tl its) (List.tl (lbefore_array cap dim its)), ls_excessLoad cap (last (lbefore_array cap dim its) ls_zero)).
Proof.
  intros Hn Hf its cap. pose proof (B0 d B U Hs) as HB. destruct (fits_room n ltac:(lia) Hf) as (R1 & R2 & R3). assert (HnB : 0 <= n * B) by nia.
  assert (HB' : 24 * B <= HQ) by (unfold HQ in *; lia). pose proof (items_good mid HB') as G. fold its in G.
  assert (Hc : 0 <= cap <= MAXV) by (pose proof (vehicle_ok d B U Hv Hs vt Hvt) as V; apply V).
  assert (L : len its = len mid + 2) by (unfold its; rewrite route_items_len; lia).
  assert (H12 : 12 * len its * B <= Q) by (rewrite L; nia).
  destruct (lbefore_ok cap dim its Hc G H12) as [E1 F1]. destruct (lafter_ok cap dim its Hc G H12) as (E2 & _ & _).
  unfold kload_dim. fold cap. rewrite E1, ob_some, E2, ob_some.
  assert (E3 : kload_sum 0 (List.tl its) (List.tl (lbefore_array cap dim its)) = Some (load_sum (List.tl its) (List.tl (lbefore_array cap dim its)))).
  { unfold its, route_items in G |- *. cbn [List.tl lbefore_array]. inversion G as [|? ? G0 G']; subst. apply Forall_app in G'. destruct G' as [_ G']. inversion G' as [|? ? Gl _]; subst.
    pose proof (gi_load _ G0 dim) as F0. pose proof (l_load _ _ F0) as L0.
    rewrite (load_sum_ok cap dim (item_end d v) mid Hc ltac:(unfold Q in *; lia) Gl _ _ 1 0 F0); [f_equal; lia|lia|lia|cbn [item_start it_reload]; lia|nia]. }
  rewrite E3, ob_some. destruct (l_excess (len its) cap (last (lbefore_array cap dim its) ls_zero)) as [E4 _]; [| | |exact H12|].
  - rewrite last_nth, lbefore_array_length. eapply lfit_le; [apply F1|]; lia.
  - lia.
  - exact Hc.
  - rewrite E4. reflexivity.
Qed.

Lemma figure_costs n x : 0 <= n -> fits n -> 0 <= x <= 60 * (n + 3) * B ->
  ck (x - v_shift v) = Some (x - v_shift v) /\ ck (v_unitDuration v * x) = Some (v_unitDuration v * x) /\
  ck (v_unitOvertime v * Z.max (x - v_shift v) 0) = Some (v_unitOvertime v * Z.max (x - v_shift v) 0) /\
  ck (v_unitDuration v * x + v_unitOvertime v * Z.max (x - v_shift v) 0) = Some (v_unitDuration v * x + v_unitOvertime v * Z.max (x - v_shift v) 0) /\
  ck (x - v_maxDistance v) = Some (x - v_maxDistance v) /\ ck (v_unitDistance v * x) = Some (v_unitDistance v * x).
Proof.
  intros Hn Hf Hx. destruct (fits_room n Hn Hf) as (R1 & R2 & R3).
  pose proof (vehicle_ok d B U Hv Hs vt Hvt) as (_ & _ & _ & _ & _ & V6 & V7 & V8 & V9 & V10 & _). fold v in V6, V7, V8, V9, V10.
  set (X := 60 * (n + 3) * B) in *. assert (HX : 3 * X <= Q /\ 3 * (X * U) <= Q) by (unfold X, Q in *; split; [|replace (60 * (n + 3) * B * U) with (60 * ((n + 3) * B * U)) by ring]; lia).
  clearbody X. clear R1 R2 R3 Hf. set (y := Z.max (x - v_shift v) 0). assert (Hy : 0 <= y <= X) by (unfold y; lia). clearbody y.
  assert (A : forall u z, 0 <= u <= U -> 0 <= z <= X -> 0 <= u * z <= X * U) by (clear; intros; nia).
  pose proof (A _ _ V8 Hx) as A1. pose proof (A _ _ V9 Hx) as A2. pose proof (A _ _ V10 Hy) as A3. clear A.
  unfold Q, MAXV in *. repeat split; apply ck_ok; unfold MAXV; lia.
Qed.
Theorem kupdate_ok mid n : len mid <= n -> fits n -> kupdate d v mid = Some (update d v mid).
Proof.
  intros Hn Hf. pose proof (B0 d B U Hs) as HB. pose proof (fits_le _ _ Hn Hf) as Hf'. destruct (fits_room (len mid) ltac:(lia) Hf') as (R1 & R2 & R3). assert (HnB : 0 <= len mid * B) by nia.
  assert (HB' : 24 * B <= HQ) by (unfold HQ in *; lia). pose proof (items_good mid HB') as G.
  unfold kupdate. rewrite kitems_ok, ob_some by exact HB'. set (its := route_items d v mid) in *.
  assert (L : len its = len mid + 2) by (unfold its; rewrite route_items_len; lia).
  assert (Ed : kdist_array (p_dist d (v_profile v)) its = Some (dist_array (p_dist d (v_profile v)) its)).
  { unfold its, route_items. cbn [kdist_array dist_array]. rewrite kdist_ok; [reflexivity|intros; apply (dist_ok d B U Hs)|lia|].
    rewrite app_length, map_length. cbn [length]. unfold Q in *. nia. }
  rewrite Ed, ob_some. destruct (before_ok (v_profile v) its G) as [Eb _]; [rewrite L; eapply room; [|exact R1]; lia|]. rewrite Eb, ob_some.
  destruct (after_ok (v_profile v) its G) as [Ea Fa]; [rewrite L; eapply room; [|exact R1]; lia|]. rewrite Ea, ob_some.
  rewrite (omap_some _ (fun dim => (lbefore_array (dimv (v_capacity v) dim) dim its, lafter_array (dimv (v_capacity v) dim) dim its,
    load_sum (List.tl its) (List.tl (lbefore_array (dimv (v_capacity v) dim) dim its)), ls_excessLoad (dimv (v_capacity v) dim) (last (lbefore_array (dimv (v_capacity v) dim) dim its) ls_zero)))) by
    (intros dim; exact (kload_dim_ok mid n dim Hn Hf)).
  rewrite ob_some.
  assert (Hd : 0 <= last (dist_array (p_dist d (v_profile v)) its) 0 <= 60 * (len mid + 3) * B).
  { unfold its, route_items. rewrite dist_array_last. destruct (kdist_walk_ok (p_dist d (v_profile v)) (map (item_act d) mid ++ [item_end d v])) with (prev := item_start d v) (acc := 0) as [_ W]; [intros; apply (dist_ok d B U Hs)|lia| |].
    - rewrite app_length, map_length. cbn [length]. unfold Q in *. nia.
    - rewrite app_length, map_length in W. cbn [length] in W. nia. }
  pose proof (Fa 0%nat ltac:(lia)) as J. replace (nth 0 (after_array d (p_dur d (v_profile v)) its) dnone) with (hd dnone (after_array d (p_dur d (v_profile v)) its)) in J by (destruct (after_array d (p_dur d (v_profile v)) its); reflexivity).
  destruct (j_value _ _ (pj _ _ J)) as (D1 & D2 & D3); [rewrite L; eapply room; [|exact R1]; lia|].
  destruct (figure_costs (len mid) _ ltac:(lia) Hf' Hd) as (_ & _ & _ & _ & C5 & C6).
  destruct (figure_costs (len mid) (ds_duration (hd dnone (after_array d (p_dur d (v_profile v)) its))) ltac:(lia) Hf') as (C1 & C2 & C3 & C4 & _); [rewrite L in D3; nia|].
  assert (Hm : 0 <= v_maxDuration v) by apply (vehicle_ok d B U Hv Hs vt Hvt).
  rewrite C5, ob_some, C6, ob_some, D1, ob_some, (D2 _ Hm), ob_some, C1, ob_some, C2, ob_some, C3, ob_some, C4, ob_some. rewrite !map_map. reflexivity.
Qed.
End Vehicle.

(** ** Segments *)
Definition from_route (n : Z) (c : cache) : Prop := exists v mid, In v (p_vehicles d) /\ c = update d v mid /\ len mid <= n.
Notation size o := (Z.of_nat (sg_size o)).
Record seg_fit (pr : nat) (o : seg) : Prop := mk_seg_fit {
  sf_kdist : ksg_distance d pr o = Some (sg_distance d pr o);
  sf_dist : 0 <= sg_distance d pr o <= size o * B;
  sf_kdur : ksg_duration d pr o = Some (sg_duration d pr o);
  sf_dur : jexp (7 * size o) (sg_duration d pr o);
  sf_kload : forall dim, ksg_load d dim o = Some (sg_load d dim o);
  sf_load : forall dim, lfit (size o) (sg_load d dim o);
  sf_size : 1 <= size o;
  sf_items : len (seg_items d o) = size o }.

Lemma lfit_zero n : 0 <= n -> lfit n ls_zero.
Proof. intros H. pose proof (B0 d B U Hs) as HB. assert (0 <= n * B) by nia. constructor; unfold ls_zero; cbn [ls_initial ls_delta ls_increase ls_excess]; lia. Qed.
Lemma dims_fit (f : nat -> list lseg) n k i : 0 <= k -> (forall dim, lfit k (nth i (f dim) ls_zero)) -> forall dim, lfit k (nth i (nth dim (map f (seq 0 n)) []) ls_zero).
Proof.
  intros Hk H dim. destruct (le_lt_dec n dim) as [L|L].
  - rewrite (nth_overflow (map f (seq 0 n))) by (rewrite map_length, seq_length; exact L). destruct i; apply lfit_zero, Hk.
  - rewrite (nth_indep _ [] (f 0%nat)) by (rewrite map_length, seq_length; exact L). rewrite map_nth, seq_nth by exact L. apply H.
Qed.
Lemma walk_dist pr y ys : len ys * B <= Q -> 0 <= dist_walk (p_dist d pr) y ys <= len ys * B.
Proof.
  intros H. destruct (kdist_walk_ok (p_dist d pr) ys (dist_ok d B U Hs pr) y 0) as [_ W]; [lia|lia|exact W].
Qed.
Lemma kdur_walk_ok pr l : Forall good_item l -> forall prev acc n, pexp n acc -> 8 * (n + 4 * len l) * B <= HQ ->
  kdur_walk (p_dur d pr) prev acc l = Some (dur_walk (p_dur d pr) prev acc l) /\ pexp (n + 4 * len l) (dur_walk (p_dur d pr) prev acc l).
Proof.
  induction 1 as [|x l G HF IH]; intros prev acc n J H; cbn [kdur_walk dur_walk length] in *; [split; [reflexivity|apply (p_le _ _ _ J); lia]|].
  rewrite Nat2Z.inj_succ in *. destruct (p_edge n 3 pr (it_loc prev) (it_loc x) _ _ J (gi_dur _ G)) as [E J1]; [eapply room; [|exact H]; lia|].
  rewrite E, ob_some. destruct (IH x _ _ J1) as [E2 J2]; [eapply room; [|exact H]; lia|]. rewrite E2. split; [reflexivity|]. apply (p_le _ _ _ J2). lia.
Qed.
Lemma kload_walk_ok dim l : Forall good_item l -> forall acc n, lfit n acc -> 1 <= n -> 12 * (n + len l) * B <= Q ->
  kload_walk dim acc l = Some (fold_left (fun acc x => ls_merge acc (it_load x dim)) l acc) /\ lfit (n + len l) (fold_left (fun acc x => ls_merge acc (it_load x dim)) l acc).
Proof.
  pose proof (B0 d B U Hs) as HB. induction 1 as [|x l G HF IH]; intros acc n F Hn H; cbn [kload_walk fold_left length] in *; [split; [reflexivity|apply (lfit_le _ _ _ F); lia]|].
  rewrite Nat2Z.inj_succ in *. destruct (l_merge n 1 _ _ F (gi_load _ G dim)) as (E & F1 & _); [lia|lia|nia|].
  rewrite E, ob_some. destruct (IH _ _ F1) as [E2 F2]; [lia|nia|]. rewrite E2. split; [reflexivity|]. apply (lfit_le _ _ _ F2). lia.
Qed.

Section Fits.
Variable n : Z.
Hypothesis Hn : 0 <= n.
Hypothesis Hf : fits n.
Lemma base : B <= Q /\ 24 * B <= HQ /\ 12 * B <= Q /\ 0 <= n * B /\ 0 <= B.
Proof. pose proof (B0 d B U Hs) as HB. destruct (fits_room n Hn Hf) as (R1 & R2 & R3). assert (0 <= n * B) by nia. unfold HQ, Q in *. lia. Qed.
Lemma rooms k : k <= 12 * (n + 3) -> 8 * k * B <= HQ.
Proof. intros H. destruct (fits_room n Hn Hf) as (R1 & _). eapply room; [exact H|exact R1]. Qed.
Lemma lrooms k : k <= 12 * (n + 3) -> 12 * k * B <= Q.
Proof. intros H. destruct base as (_ & _ & _ & _ & HB). destruct (fits_room n Hn Hf) as (_ & R & _). nia. Qed.
Lemma single_fit pr o x : single d o = Some x -> seg_fit pr o /\ pexp (7 * size o) (sg_duration d pr o).
Proof.
  intros E. destruct base as (H1 & H2 & H3 & H4 & HB). pose proof (fun i => l_stop (LClient i)) as LC. pose proof (fun i => l_stop (LPickup i)) as LP. pose proof (fun i => l_stop (LDelivery i)) as LD.
  assert (P : pexp (7 * size o) (sg_duration d pr o)).
  { destruct o as [c e|c s|c s e|i|i|i|i]; try discriminate; apply (p_le 1); try (cbn; lia).
    - exact (p_stop (PClient i) I).
    - exact (p_stop (PPickup i) I).
    - exact (p_stop (PDelivery i) I).
    - exact (p_stop (PDepot i false) I). }
  split; [|exact P]. destruct o as [c e|c s|c s e|i|i|i|i]; try discriminate;
    (constructor; [reflexivity|cbn [sg_distance sg_size]; lia|reflexivity|apply pj, P| | |cbn; lia|reflexivity]); intros dim.
  - exact (proj1 (LC i dim I H3)).
  - exact (proj2 (LC i dim I H3)).
  - exact (proj1 (LP i dim I H3)).
  - exact (proj2 (LP i dim I H3)).
  - exact (proj1 (LD i dim I H3)).
  - exact (proj2 (LD i dim I H3)).
  - reflexivity.
  - apply lfit_zero. cbn; lia.
Qed.

Lemma before_fit v mid e : In v (p_vehicles d) -> len mid <= n -> (e < length mid + 2)%nat -> seg_fit (v_profile v) (SBefore (update d v mid) e).
Proof.
  intros Hi Hm He. destruct (in_vehicle v Hi) as (vt & Hvt & ->). set (v := p_vehicle d vt) in *. destruct base as (H1 & H2 & H3 & H4 & HB).
  pose proof (items_good vt Hvt mid H2) as G. fold v in G. pose proof (route_items_len d v mid) as L.
  assert (Hc : forall dim, 0 <= dimv (v_capacity v) dim <= MAXV) by (pose proof (vehicle_ok d B U Hv Hs vt Hvt) as V; intros dim; apply V).
  pose proof (before_dist d v mid e He) as [D1 D2 D3 D4].
  assert (Z1 : size (SBefore (update d v mid) e) = Z.of_nat e + 1) by (cbn [sg_size]; lia).
  constructor; rewrite ?Z1.
  - reflexivity.
  - rewrite D4. set (ys := firstn e (map (item_act d) mid ++ [item_end d v])) in *. assert (Ly : len ys <= Z.of_nat e) by (unfold ys; rewrite firstn_length; lia).
    pose proof (lrooms (len ys) ltac:(lia)) as R. assert (0 <= len ys * B) by nia. pose proof (walk_dist (v_profile v) (item_start d v) ys ltac:(unfold Q in *; lia)) as W. nia.
  - reflexivity.
  - destruct (before_ok (v_profile v) _ G) as [_ J]; [apply rooms; rewrite L; lia|]. specialize (J e ltac:(rewrite L; exact He)). exact J.
  - reflexivity.
  - intros dim. cbn [sg_load ca_loadBefore update]. apply dims_fit; [lia|]. intros dim'.
    destruct (lbefore_ok (dimv (v_capacity v) dim') dim' _ (Hc dim') G) as [_ F]; [apply lrooms; rewrite L; lia|]. apply F. rewrite L. exact He.
  - lia.
  - cbn [seg_items ca_items update]. rewrite firstn_length, L. lia.
Qed.
Lemma after_fit v mid s : In v (p_vehicles d) -> len mid <= n -> (s < length mid + 2)%nat ->
  let o := SAfter (update d v mid) s in seg_fit (v_profile v) o /\ pexp (7 * size o) (sg_duration d (v_profile v) o).
Proof.
  intros Hi Hm He o. destruct (in_vehicle v Hi) as (vt & Hvt & ->). set (v := p_vehicle d vt) in *. destruct base as (H1 & H2 & H3 & H4 & HB).
  pose proof (items_good vt Hvt mid H2) as G. fold v in G. pose proof (route_items_len d v mid) as L.
  assert (Hc : forall dim, 0 <= dimv (v_capacity v) dim <= MAXV) by (pose proof (vehicle_ok d B U Hv Hs vt Hvt) as V; intros dim; apply V).
  destruct (after_dist d v mid s He) as (y & ys & [D1 D2 D3 D4]).
  assert (Z1 : size o = len mid + 2 - Z.of_nat s) by (unfold o; cbn [sg_size]; unfold ca_size; cbn [ca_items update]; rewrite L; lia).
  assert (Z2 : len (seg_items d o) = size o) by (rewrite Z1; unfold o; cbn [seg_items ca_items update]; rewrite skipn_length, L; lia).
  assert (P : pexp (7 * size o) (sg_duration d (v_profile v) o)).
  { destruct (after_ok (v_profile v) _ G) as [_ J]; [apply rooms; rewrite L; lia|]. specialize (J s ltac:(rewrite L; exact He)). apply (p_le _ _ _ J). rewrite L. lia. }
  assert (W : 0 <= sg_distance d (v_profile v) o <= len ys * B /\ len ys * B <= Q /\ len ys <= size o).
  { fold o in D1, D4. rewrite D1 in Z2. cbn [length] in Z2. pose proof (lrooms (len ys) ltac:(lia)) as R. assert (0 <= len ys * B) by nia. rewrite D4. split; [apply walk_dist; unfold Q in *; lia|]. split; [unfold Q in *; lia|lia]. }
  split; [|exact P]. constructor.
  - change (ck (sg_distance d (v_profile v) o) = Some (sg_distance d (v_profile v) o)). apply ck_ok. unfold Q, MAXV in *. lia.
  - nia.
  - reflexivity.
  - apply pj, P.
  - reflexivity.
  - intros dim. unfold o. cbn [sg_load ca_loadAfter update]. fold o. rewrite Z1. apply dims_fit; [lia|]. intros dim'.
    destruct (lafter_ok (dimv (v_capacity v) dim') dim' _ (Hc dim') G) as (_ & _ & F); [apply lrooms; rewrite L; lia|]. specialize (F s ltac:(rewrite L; exact He)). apply (lfit_le _ _ _ F). rewrite L. lia.
  - lia.
  - exact Z2.
Qed.
Lemma between_fit pr v mid s e : In v (p_vehicles d) -> len mid <= n -> (s <= e)%nat -> (e < length mid + 2)%nat ->
  let o := SBetween (update d v mid) s e in seg_fit pr o /\ pexp (7 * size o) (sg_duration d pr o).
Proof.
  intros Hi Hm Hse He o. destruct (in_vehicle v Hi) as (vt & Hvt & ->). set (v := p_vehicle d vt) in *. destruct base as (H1 & H2 & H3 & H4 & HB).
  pose proof (items_good vt Hvt mid H2) as G. fold v in G. pose proof (route_items_len d v mid) as L.
  set (y := ca_item (update d v mid) s) in *. set (ys := slice (ca_items (update d v mid)) s e) in *.
  assert (Gy : good_item y) by (apply (proj1 (Forall_forall _ _) G); apply nth_In; cbn [ca_items update]; rewrite L; lia).
  assert (Gs : Forall good_item ys).
  { apply Forall_forall. intros x Hx. apply (proj1 (Forall_forall _ _) G). unfold ys, slice in Hx. cbn [ca_items update] in Hx. apply In_firstn in Hx. revert Hx. apply In_skipn. }
  assert (Ly : length ys = (e - s)%nat) by (unfold ys, slice; cbn [ca_items update]; rewrite firstn_length, skipn_length, L; lia).
  assert (Z1 : size o = len ys + 1) by (unfold o; cbn [sg_size]; rewrite Ly; lia).
  pose proof (lrooms (len ys + 1) ltac:(lia)) as R. assert (Y0 : 0 <= len ys * B) by nia.
  assert (W : sg_distance d pr o = dist_walk (p_dist d pr) y ys).
  { unfold o. cbn [sg_distance ca_veh ca_cumDist update]. destruct (Nat.eqb_spec pr (v_profile v)) as [-> |_]; [|reflexivity]. exact (between_dist_gen d v mid s e Hse He). }
  assert (Wr : 0 <= sg_distance d pr o <= len ys * B) by (rewrite W; apply walk_dist; unfold Q in *; lia).
  assert (K : ksg_duration d pr o = Some (sg_duration d pr o) /\ pexp (7 * size o) (sg_duration d pr o)).
  { unfold o. cbn [ksg_duration sg_duration]. fold y ys o.
    assert (A : exists b, (if negb (sg_size o =? 1)%nat && it_reload y then kds_merge 0 (it_dur y) (ds_service (it_srv d y)) else Some (it_dur y)) = Some b /\
      (if negb (sg_size o =? 1)%nat && it_reload y then ds_merge0 (it_dur y) (ds_service (it_srv d y)) else it_dur y) = b /\ pexp 5 b).
    { destruct (negb (sg_size o =? 1)%nat && it_reload y); [|exists (it_dur y); split; [reflexivity|]; split; [reflexivity|apply (p_le 3); [apply (gi_dur _ Gy)|lia]]].
      destruct (p_here 3 1 _ _ (gi_dur _ Gy) (p_service y)) as [E J]; [apply rooms; lia|]. eexists. split; [exact E|]. split; [reflexivity|exact J]. }
    destruct A as (b & -> & -> & J). rewrite ob_some. destruct (kdur_walk_ok pr ys Gs y b 5 J) as [E J2]; [apply rooms; lia|]. rewrite E. split; [reflexivity|]. apply (p_le _ _ _ J2). lia. }
  split; [|exact (proj2 K)]. constructor; rewrite ?Z1.
  - unfold o in *. cbn [ksg_distance sg_distance ca_veh ca_cumDist update] in *. destruct (Nat.eqb pr (v_profile v)); [apply ck_ok; unfold Q, MAXV in *; lia|].
    destruct (kdist_walk_ok (p_dist d pr) ys (dist_ok d B U Hs pr) y 0) as [E _]; [lia|unfold Q in *; lia|]. exact E.
  - lia.
  - exact (proj1 K).
  - rewrite <- Z1. apply pj, (proj2 K).
  - intros dim. destruct (kload_walk_ok dim ys Gs _ 1 (gi_load _ Gy dim)) as [E _]; [lia|apply lrooms; lia|]. exact E.
  - intros dim. destruct (kload_walk_ok dim ys Gs _ 1 (gi_load _ Gy dim)) as [_ F]; [lia|apply lrooms; lia|]. apply (lfit_le _ _ _ F). lia.
  - lia.
  - unfold o. cbn [seg_items length]. fold ys. lia.
Qed.

(** ** Proposals *)
Notation tot l := (Z.of_nat (length (concat (map (seg_items d) l)))).
Lemma tot_cons pr o l : seg_fit pr o -> tot (o :: l) = size o + tot l.
Proof. intros F. cbn [map concat]. rewrite app_length, Nat2Z.inj_add, (sf_items _ _ F). reflexivity. Qed.
Lemma kprop_dist_ok pr l : Forall (seg_fit pr) l -> forall acc loc, 0 <= acc -> acc + 2 * tot l * B <= Q ->
  kprop_dist_loop d pr acc loc l = Some (prop_dist_loop d pr acc loc l) /\ acc <= prop_dist_loop d pr acc loc l <= acc + 2 * tot l * B.
Proof.
  destruct base as (H1 & H2 & H3 & H4 & HB). induction 1 as [|o l F HF IH]; intros acc loc H0 H; [cbn; split; [reflexivity|lia]|].
  rewrite (tot_cons _ _ _ F) in *. cbn [kprop_dist_loop prop_dist_loop]. pose proof (dist_ok d B U Hs pr loc (it_loc (sg_front d o))) as R. pose proof (sf_dist _ _ F) as R2. pose proof (sf_size _ _ F) as R3.
  assert (T0 : 0 <= tot l * B) by nia. assert (S0 : B <= size o * B) by nia.
  kk. rewrite (sf_kdist _ _ F), ob_some. kk. destruct (IH (acc + p_dist d pr loc (it_loc (sg_front d o)) + sg_distance d pr o) (it_loc (sg_back d o))) as [E W]; [lia|lia|]. rewrite E. split; [reflexivity|lia].
Qed.

Lemma dur_merge_ok (exp : Z -> dseg -> Prop) pr ds loc o k :
  (forall m1 m2 p i j a b, exp m1 a -> pexp m2 b -> 8 * (m1 + m2 + 1) * B <= HQ -> kds_merge (p_dur d p i j) a b = Some (ds_merge (p_dur d p i j) a b) /\ exp (m1 + m2 + 1) (ds_merge (p_dur d p i j) a b)) ->
  (forall m1 m2 a b, exp m1 a -> pexp m2 b -> 8 * (m1 + m2 + 1) * B <= HQ -> kds_merge 0 a b = Some (ds_merge0 a b) /\ exp (m1 + m2 + 1) (ds_merge0 a b)) ->
  (forall m1 m2 a, exp m1 a -> m1 <= m2 -> exp m2 a) ->
  seg_fit pr o -> exp (7 * size o) (sg_duration d pr o) -> pexp k ds -> k + 11 * size o <= 12 * (n + 3) ->
  kprop_dur_merge d pr ds loc o = Some (prop_dur_merge d pr ds loc o) /\ exp (k + 11 * size o) (prop_dur_merge d pr ds loc o).
Proof.
  intros Xe Xh Xl F X P H. pose proof (sf_size _ _ F) as S1. unfold kprop_dur_merge, prop_dur_merge. rewrite (sf_kdur _ _ F), ob_some. destruct (sg_endsReload o).
  - destruct (p_edge 1 k pr (it_loc (sg_back d o)) loc _ _ (p_depot_service (a_idx (it_act (sg_back d o)))) P) as [E1 P1]; [apply rooms; lia|]. rewrite E1, ob_some.
    destruct (p_front _ _ P1) as [E2 P2]; [apply rooms; lia|]. rewrite E2, ob_some.
    destruct (Xh _ _ _ _ X P2) as [E3 X3]; [apply rooms; lia|]. unfold ds_merge0 in E3, X3. rewrite E3. split; [reflexivity|]. apply (Xl _ _ _ X3). lia.
  - destruct (Xe _ _ pr (it_loc (sg_back d o)) loc _ _ X P) as [E3 X3]; [apply rooms; lia|]. rewrite E3. split; [reflexivity|]. apply (Xl _ _ _ X3). lia.
Qed.
Definition plain_fit (pr : nat) (o : seg) : Prop := seg_fit pr o /\ pexp (7 * size o) (sg_duration d pr o).
Lemma kprop_dur_ok pr first l : seg_fit pr first -> Forall (plain_fit pr) l -> forall ds loc k, pexp k ds -> k + 12 * (tot l + size first) <= 12 * (n + 3) ->
  kprop_dur_loop d pr ds loc (l ++ [first]) = Some (prop_dur_loop d pr ds loc (l ++ [first])) /\ jexp (k + 12 * (tot l + size first)) (prop_dur_loop d pr ds loc (l ++ [first])).
Proof.
  intros Ff. pose proof (sf_size _ _ Ff) as S0. induction 1 as [|o l [F Po] HF IH]; intros ds loc k P H.
  - cbn [app kprop_dur_loop prop_dur_loop map concat length] in *. destruct (dur_merge_ok jexp pr ds loc first k j_edge j_here j_le Ff (sf_dur _ _ Ff) P) as [E J]; [lia|].
    rewrite E, ob_some, ob_some. split; [reflexivity|]. apply (j_le _ _ _ J). lia.
  - rewrite (tot_cons _ _ _ F) in *. pose proof (sf_size _ _ F) as S1. cbn [app kprop_dur_loop prop_dur_loop].
    destruct (dur_merge_ok pexp pr ds loc o k p_edge p_here p_le F Po P) as [E J]; [lia|]. rewrite E, ob_some.
    set (ds1 := prop_dur_merge d pr ds loc o) in *. clearbody ds1. set (c := sg_startsReload o && (1 <? sg_size o)%nat) in *. clearbody c.
    assert (A : exists b, (if c then kds_finaliseFront ds1 else Some ds1) = Some b /\ (if c then ds_finaliseFront ds1 else ds1) = b /\ pexp (k + 12 * size o) b).
    { destruct c; [|exists ds1; split; [reflexivity|]; split; [reflexivity|apply (p_le _ _ _ J); lia]].
      destruct (p_front _ _ J) as [E2 P2]; [apply rooms; lia|]. eexists. split; [exact E2|]. split; [reflexivity|]. apply (p_le _ _ _ P2). lia. }
    destruct A as (b & A1 & A2 & P2). destruct (IH b (it_loc (sg_front d o)) _ P2) as [E3 J3]; [lia|].
    destruct (l ++ [first]) as [|q qs] eqn:El; [destruct l; discriminate|]. rewrite A1, A2, ob_some, E3. split; [reflexivity|]. apply (j_le _ _ _ J3). lia.
Qed.
Lemma kdseg_ok pr first mids lst : seg_fit pr first -> Forall (plain_fit pr) mids -> plain_fit pr lst -> size first + tot mids + size lst <= n + 2 ->
  let segs := first :: mids ++ [lst] in
  kprop_dseg d pr segs = Some (prop_dseg d pr segs) /\ jexp (12 * (n + 2)) (prop_dseg d pr segs).
Proof.
  intros Ff Fm [Fl Pl] H segs. pose proof (sf_size _ _ Ff) as S0. pose proof (sf_size _ _ Fl) as S1. unfold kprop_dseg, prop_dseg.
  assert (Er : rev segs = lst :: rev mids ++ [first]) by (unfold segs; cbn [rev]; rewrite rev_app_distr; reflexivity). rewrite Er.
  rewrite (sf_kdur _ _ Fl), ob_some.
  assert (A : exists b, (if sg_startsReload lst then kds_finaliseFront (sg_duration d pr lst) else Some (sg_duration d pr lst)) = Some b /\
    (if sg_startsReload lst then ds_finaliseFront (sg_duration d pr lst) else sg_duration d pr lst) = b /\ pexp (8 * size lst) b).
  { destruct (sg_startsReload lst); [|eexists; split; [reflexivity|]; split; [reflexivity|apply (p_le _ _ _ Pl); lia]].
    destruct (p_front _ _ Pl) as [E P]; [apply rooms; lia|]. eexists. split; [exact E|]. split; [reflexivity|]. apply (p_le _ _ _ P). lia. }
  destruct A as (b & -> & -> & P). rewrite ob_some.
  assert (Et : tot (rev mids) = tot mids).
  { clear - Fm. induction Fm as [|o l [F _] HF IH]; [reflexivity|]. cbn [rev]. rewrite map_app, concat_app, app_length, Nat2Z.inj_add, IH. rewrite (tot_cons _ o l F), (tot_cons _ o [] F). cbn [map concat length]. lia. }
  destruct (kprop_dur_ok pr first (rev mids) Ff) with (ds := b) (loc := it_loc (sg_front d lst)) (k := 8 * size lst) as [E J]; [apply Forall_rev, Fm|exact P|rewrite Et; lia|].
  rewrite E. split; [reflexivity|]. apply (j_le _ _ _ J). rewrite Et. lia.
Qed.
Lemma kprop_load_ok cap dim pr l : 0 <= cap <= MAXV -> Forall (seg_fit pr) l -> forall ls k, lfit k ls -> 1 <= k -> k + tot l <= n + 2 ->
  kprop_load_loop d cap dim ls l = Some (prop_load_loop d cap dim ls l) /\ lfit (k + tot l) (prop_load_loop d cap dim ls l).
Proof.
  intros Hc. induction 1 as [|o l F HF IH]; intros ls k G Hk H; [cbn; split; [reflexivity|apply (lfit_le _ _ _ G); lia]|].
  rewrite (tot_cons _ _ _ F) in *. pose proof (sf_size _ _ F) as S1. cbn [kprop_load_loop prop_load_loop].
  assert (A : exists b, (if sg_startsReload o then kls_finalise cap ls else Some ls) = Some b /\ (if sg_startsReload o then ls_finalise cap ls else ls) = b /\ lfit k b).
  { destruct (sg_startsReload o); [|exists ls; split; [reflexivity|]; split; [reflexivity|exact G]].
    destruct (l_final k cap ls G Hk Hc) as (E1 & F1 & _); [apply lrooms; lia|]. eexists. split; [exact E1|]. split; [reflexivity|exact F1]. }
  destruct A as (b & -> & -> & G1). rewrite ob_some, (sf_kload _ _ F), ob_some. destruct (l_merge k (size o) b _ G1 (sf_load _ _ F dim)) as (E2 & G2 & _); [lia|lia|apply lrooms; lia|].
  rewrite E2, ob_some. set (l1 := ls_merge b (sg_load d dim o)) in *. clearbody l1. set (c := sg_endsReload o && (1 <? sg_size o)%nat) in *. clearbody c.
  assert (A : exists b, (if c then kls_finalise cap l1 else Some l1) = Some b /\ (if c then ls_finalise cap l1 else l1) = b /\ lfit (k + size o) b).
  { destruct c; [|exists l1; split; [reflexivity|]; split; [reflexivity|exact G2]].
    destruct (l_final _ cap l1 G2 ltac:(lia) Hc) as (E1 & F1 & _); [apply lrooms; lia|]. eexists. split; [exact E1|]. split; [reflexivity|exact F1]. }
  destruct A as (b2 & A1 & A2 & G3). destruct l as [|q qs].
  - cbn [kprop_load_loop prop_load_loop]. rewrite ob_some. split; [reflexivity|]. apply (lfit_le _ _ _ G2). cbn. lia.
  - rewrite A1, A2, ob_some. destruct (IH _ _ G3) as [E4 G4]; [lia|lia|]. rewrite E4. split; [reflexivity|]. apply (lfit_le _ _ _ G4). lia.
Qed.

(** The cached routes have at most [n] visits, and so has the route that is proposed. *)
Definition short (p : proposal) : Prop :=
  (forall o c, In o (pr_first p :: pr_rest p) -> seg_cache o = Some c -> Z.of_nat (ca_size c) <= n + 2) /\ Z.of_nat (length (prop_items d p)) <= n + 2.
Lemma mid_fit pr o : wf_mid d o -> (forall c, seg_cache o = Some c -> Z.of_nat (ca_size c) <= n + 2) -> plain_fit pr o.
Proof.
  intros W Hc. destruct W as [c s e (v & mid & Hi & ->) Hse He Hin|i|i|i|i]; [|eapply single_fit; reflexivity ..].
  specialize (Hc _ eq_refl). unfold ca_size in *. cbn [ca_items update] in *. rewrite route_items_len in *. apply between_fit; try assumption; lia.
Qed.
Theorem proposal_ok v p : In v (p_vehicles d) -> wf_prop d v p -> short p ->
  kprop_distance d v p = Some (prop_distance d v p) /\ kprop_duration d v p = Some (prop_duration d v p) /\ (forall dim, kprop_excessLoad d v dim p = Some (prop_excessLoad d v dim p)).
Proof.
  intros Hi W [Hc Ht]. destruct (in_vehicle v Hi) as (vt & Hvt & Ev). destruct W as [mid e mids l He Hm Hl]. cbn [pr_first pr_rest] in Hc.
  assert (Hlen : len mid <= n).
  { specialize (Hc _ _ (or_introl eq_refl) eq_refl). unfold ca_size in Hc. cbn [ca_items update] in Hc. rewrite route_items_len in Hc. lia. }
  pose proof (before_fit v mid e Hi Hlen He) as F0. set (first := SBefore (update d v mid) e) in *.
  assert (Fm : Forall (plain_fit (v_profile v)) mids).
  { rewrite Forall_forall in Hm |- *. intros o Ho. apply mid_fit; [exact (Hm o Ho)|]. intros c. apply Hc. right. apply in_or_app. left. exact Ho. }
  assert (Fl : plain_fit (v_profile v) l).
  { assert (Hcl : forall c, seg_cache l = Some c -> Z.of_nat (ca_size c) <= n + 2) by (intros c; apply Hc; right; apply in_or_app; right; left; reflexivity).
    destruct Hl as [mid' s Hs'|o Ho]; [|apply mid_fit; assumption]. specialize (Hcl _ eq_refl). unfold ca_size in Hcl. cbn [ca_items update] in Hcl. rewrite route_items_len in Hcl.
    apply after_fit; [exact Hi|lia|exact Hs']. }
  assert (Fa : Forall (seg_fit (v_profile v)) (mids ++ [l])).
  { apply Forall_app. split; [eapply Forall_impl; [|exact Fm]; intros o [F _]; exact F|]. constructor; [exact (proj1 Fl)|constructor]. }
  unfold prop_items in Ht. cbn [pr_first pr_rest] in Ht. rewrite (tot_cons _ _ _ F0) in Ht.
  assert (Hsum : tot (mids ++ [l]) = tot mids + size l).
  { rewrite map_app, concat_app, app_length, Nat2Z.inj_add. cbn [map concat]. rewrite app_nil_r, (sf_items _ _ (proj1 Fl)). reflexivity. }
  destruct base as (H1 & H2 & H3 & H4 & HB). pose proof (sf_size _ _ F0) as S0. destruct (fits_room n Hn Hf) as (R1 & R2 & R3).
  pose proof (vehicle_ok d B U Hv Hs vt Hvt) as V. rewrite <- Ev in V. destruct V as (_ & _ & _ & _ & V5 & _ & _ & _ & _ & _ & V11 & _).
  split; [|split].
  - unfold kprop_distance, prop_distance. cbn [pr_first pr_rest]. rewrite (sf_kdist _ _ F0), ob_some. pose proof (sf_dist _ _ F0) as D0.
    assert (T0 : 0 <= tot (mids ++ [l]) * B /\ (size first + tot (mids ++ [l])) * B <= (n + 2) * B) by (split; [nia|apply Z.mul_le_mono_nonneg_r; assumption]).
    destruct (kprop_dist_ok (v_profile v) _ Fa (sg_distance d (v_profile v) first) (it_loc (sg_back d first))) as [E D]; [lia|unfold Q in *; lia|].
    rewrite E, ob_some. set (dist := prop_dist_loop _ _ _ _ _) in *. clearbody dist.
    destruct (figure_costs vt Hvt n dist Hn Hf) as (_ & _ & _ & _ & C5 & C6); [lia|]. rewrite <- Ev in C5, C6. rewrite C5, ob_some, C6, ob_some. reflexivity.
  - unfold kprop_duration, prop_duration. cbn [pr_first pr_rest]. destruct (kdseg_ok (v_profile v) first mids l F0 Fm Fl) as [E J]; [lia|]. rewrite E, ob_some.
    set (ds := prop_dseg _ _ _) in *. clearbody ds. destruct (j_value _ _ J) as (D1 & D2 & D3); [apply rooms; lia|]. rewrite D1, ob_some.
    destruct (figure_costs vt Hvt n (ds_duration ds) Hn Hf) as (C1 & C2 & C3 & C4 & _); [lia|]. rewrite <- Ev in C1, C2, C3, C4.
    rewrite C1, ob_some, C2, ob_some, C3, ob_some, C4, ob_some, (D2 _ V5), ob_some. reflexivity.
  - intros dim. unfold kprop_excessLoad, prop_excessLoad. cbn [pr_first pr_rest]. rewrite (sf_kload _ _ F0), ob_some. set (cap := dimv (v_capacity v) dim). assert (Hcap : 0 <= cap <= MAXV) by apply V11.
    assert (A : exists b, (if sg_endsReload first then kls_finalise cap (sg_load d dim first) else Some (sg_load d dim first)) = Some b /\
      (if sg_endsReload first then ls_finalise cap (sg_load d dim first) else sg_load d dim first) = b /\ lfit (size first) b).
    { pose proof (sf_load _ _ F0 dim) as G. destruct (sg_endsReload first); [|eexists; split; [reflexivity|]; split; [reflexivity|exact G]].
      destruct (l_final _ cap _ G S0 Hcap) as (E1 & F1 & _); [apply lrooms; lia|]. eexists. split; [exact E1|]. split; [reflexivity|exact F1]. }
    destruct A as (b & -> & -> & G). rewrite ob_some. destruct (kprop_load_ok cap dim (v_profile v) _ Hcap Fa b _ G S0) as [E2 G2]; [lia|]. rewrite E2, ob_some.
    destruct (l_excess _ cap _ G2) as [E3 _]; [lia|exact Hcap|apply lrooms; lia|]. exact E3.
Qed.
End Fits.

(** ** Delta costs *)
Section Delta.
Variable ev : evaluator.
Definition checked (v : vehicle) (p : proposal) : Prop :=
  kprop_distance d v p = Some (prop_distance d v p) /\ kprop_duration d v p = Some (prop_duration d v p) /\ (forall dim, kprop_excessLoad d v dim p = Some (prop_excessLoad d v dim p)).
Lemma fadd_dist_eq v p out : checked v p -> fadd_dist ev d v p out = kadd_dist ev d v p out.
Proof. intros (E & _). unfold fadd_dist, kadd_dist. rewrite E, ob_some. destruct (prop_distance d v p). reflexivity. Qed.
Lemma fadd_dur_eq v p out : checked v p -> fadd_dur ev d v p out = kadd_dur ev d v p out.
Proof. intros (_ & E & _). unfold fadd_dur, kadd_dur. rewrite E, ob_some. destruct (prop_duration d v p). reflexivity. Qed.
Lemma fadd_loads_eq exact v p dims : checked v p -> forall out, fadd_loads exact ev d v p dims out = kadd_loads exact ev d v p dims out.
Proof.
  intros (_ & _ & E). induction dims as [|dim dims IH]; intros out; cbn [fadd_loads kadd_loads]; [reflexivity|]. rewrite E, ob_some. destruct (negb exact && (0 <=? out)); [reflexivity|].
  destruct (kloadPenalty ev (prop_excessLoad d v dim p) 0 dim) as [x|]; [rewrite !ob_some|reflexivity]. destruct (ck (out + x)); [rewrite !ob_some; apply IH|reflexivity].
Qed.
Lemma obind_ext {A C} (x : option A) (f g : A -> option C) : (forall a, f a = g a) -> obind x f = obind x g.
Proof. intros H. destruct x; [apply H|reflexivity]. Qed.
Lemma fdelta_eq exact out p : checked (ca_veh (prop_cache d p)) p -> fdeltaCost exact ev d out p = kdeltaCost exact ev d out p.
Proof.
  intros H. unfold fdeltaCost, kdeltaCost. apply obind_ext; intros a. apply obind_ext; intros b. apply obind_ext; intros c. rewrite fadd_dist_eq by exact H. apply obind_ext; intros e.
  rewrite fadd_loads_eq by exact H. apply obind_ext. intros [x|x]; [reflexivity|]. rewrite fadd_dur_eq by exact H. reflexivity.
Qed.
Lemma fdelta2_eq exact out p q : checked (ca_veh (prop_cache d p)) p -> checked (ca_veh (prop_cache d q)) q -> fdeltaCost2 exact ev d out p q = kdeltaCost2 exact ev d out p q.
Proof.
  intros H H'. unfold fdeltaCost2, kdeltaCost2. do 6 (apply obind_ext; intros ?). rewrite fadd_dist_eq by exact H. apply obind_ext; intros e.
  rewrite fadd_dist_eq by exact H'. apply obind_ext; intros e'.
  rewrite fadd_loads_eq by exact H. apply obind_ext. intros [x|x]; [reflexivity|]. rewrite fadd_loads_eq by exact H'. apply obind_ext. intros [y|y]; [reflexivity|].
  destruct (negb exact && (0 <=? y)); [reflexivity|]. rewrite fadd_dur_eq by exact H. apply obind_ext. intros z. rewrite fadd_dur_eq by exact H'. reflexivity.
Qed.
End Delta.
End Data.
