(** Shipments on board, one shipment at a time; another way to say that a list of activities is
    well formed, which splits along the list. *)
From Verif Require Import Base DurationSegment Data LoadSegment SearchRoute Route RouteSpec Cost SearchSpace SearchNodes SearchSeq SearchLoad Ops PlanFacts.
Local Open Scope nat_scope.

(** Is shipment [i] on board after [l], when it was ([b]) before?  [None]: not allowed. *)
Fixpoint srun (i : nat) (b : bool) (l : list activity) : option bool :=
  match l with
  | [] => Some b
  | ADepot _ :: more => if b then None else srun i false more
  | AClient _ :: more => srun i b more
  | APickup j :: more => if j =? i then (if b then None else srun i true more) else srun i b more
  | ADelivery j :: more => if j =? i then (if b then srun i false more else None) else srun i b more
  end.

Lemma srun_app i l l' : forall b, srun i b (l ++ l') = match srun i b l with Some b' => srun i b' l' | None => None end.
Proof.
  induction l as [|[x|x|x|x] l IH]; intros b; cbn [srun app]; try apply IH; try reflexivity.
  - destruct b; [reflexivity|apply IH].
  - destruct (x =? i); [destruct b; [reflexivity|]|]; apply IH.
  - destruct (x =? i); [destruct b; [|reflexivity]|]; apply IH.
Qed.
Lemma srun_free i b l : cnt l (APickup i) = 0 -> cnt l (ADelivery i) = 0 ->
  (b = true -> num_reloads l = 0) -> srun i b l = Some b.
Proof.
  unfold num_reloads. revert b. induction l as [|[x|x|x|x] l IH]; intros b Hp Hd Hr; [reflexivity| | | |]; rewrite cnt_cons in *;
    cbn [srun a_eqb filter a_isDepot length] in *.
  - destruct b; [specialize (Hr eq_refl); lia|]. apply IH; try lia; intros; discriminate.
  - apply IH; auto.
  - rewrite Nat.eqb_sym. destruct (i =? x); [lia|]. apply IH; auto.
  - rewrite Nat.eqb_sym. destruct (i =? x); [lia|]. apply IH; auto.
Qed.
(** Somebody on board was picked up, in this trip. *)
Lemma srun_true i l : srun i false l = Some true ->
  exists A B, l = A ++ APickup i :: B /\ forall a, In a B -> a_isDepot a = false.
Proof.
  induction l as [|x l IH] using rev_ind; [discriminate|]. rewrite srun_app.
  destruct (srun i false l) as [[]|]; [| |discriminate].
  - intros H. destruct (IH eq_refl) as (A & B & -> & HB). exists A, (B ++ [x]). rewrite <- app_assoc. split; [reflexivity|].
    intros a Ha. apply in_app_or in Ha as [Ha|[<-|[]]]; [auto|]. destruct x; try reflexivity. discriminate.
  - clear IH. destruct x as [x|x|x|x]; cbn [srun]; try discriminate.
    + destruct (Nat.eqb_spec x i) as [->|]; [|discriminate]. intros _. exists l, []. split; [reflexivity|]. intros a [].
    + destruct (x =? i); discriminate.
Qed.
Lemma srun_delivered i l : srun i true l = Some false -> 1 <= cnt l (ADelivery i).
Proof.
  induction l as [|[x|x|x|x] l IH]; cbn [srun]; try discriminate; rewrite cnt_cons; cbn [a_eqb].
  - intros H. specialize (IH H). lia.
  - destruct (x =? i); [discriminate|]. intros H. specialize (IH H). lia.
  - rewrite Nat.eqb_sym. destruct (i =? x); [lia|]. intros H. specialize (IH H). lia.
Qed.
(** Without the pickup there is no delivery. *)
Lemma srun_nodeliv i l c : srun i false l = Some c -> cnt l (APickup i) = 0 -> cnt l (ADelivery i) = 0 /\ c = false.
Proof.
  induction l as [|[x|x|x|x] l IH]; cbn [srun]; rewrite ?cnt_cons; cbn [a_eqb]; intros H Hc.
  - injection H as <-. auto.
  - auto.
  - auto.
  - rewrite Nat.eqb_sym in H. destruct (i =? x); [lia|]. auto.
  - rewrite Nat.eqb_sym in H. destruct (i =? x); [discriminate|]. auto.
Qed.

Definition ships_ok (l : list activity) : Prop := forall i, srun i false l = Some false.

(** Equivalence with the specification of well-formed routes. *)
Lemma cnt_split l a : 1 <= cnt l a -> exists A B, l = A ++ a :: B.
Proof. intros H. apply cnt_In in H. apply in_split in H. exact H. Qed.
Lemma wf_ships d v mid : well_formed d v mid -> ships_ok mid.
Proof.
  intros [_ Hp1 Hd1 Haft Hpair _] i.
  destruct (Nat.eq_dec (cnt mid (APickup i)) 0) as [H0|H0].
  - assert (Hd0 : cnt mid (ADelivery i) = 0).
    { destruct (Nat.eq_dec (cnt mid (ADelivery i)) 0) as [|Hd]; [assumption|exfalso].
      destruct (cnt_split mid (ADelivery i) ltac:(lia)) as (A & B & E).
      destruct (Haft i A B E) as (p1 & p2 & -> & _). rewrite E, !cnt_app, cnt_self in H0. lia. }
    apply srun_free; auto; discriminate.
  - assert (Hin : In (APickup i) mid) by (apply cnt_In; lia). apply Hpair in Hin.
    apply in_split in Hin as (A & B & E). destruct (Haft i A B E) as (p1 & p2 & EA & Hnd). subst A.
    assert (P2 : cnt p2 (APickup i) = 0 /\ cnt B (APickup i) = 0).
    { assert (X : ~ In (APickup i) (p2 ++ ADelivery i :: B)) by (apply (Hp1 i p1); rewrite E, <- app_assoc; reflexivity).
      apply cnt_notIn in X. rewrite cnt_app, cnt_cons in X. cbn [a_eqb] in X. lia. }
    assert (P1 : cnt p1 (APickup i) = 0).
    { destruct (Nat.eq_dec (cnt p1 (APickup i)) 0) as [|Hx]; [assumption|exfalso].
      destruct (cnt_split p1 (APickup i) ltac:(lia)) as (x & y & ->).
      assert (X : ~ In (APickup i) (y ++ APickup i :: p2 ++ ADelivery i :: B)).
      { apply (Hp1 i x). rewrite E, <- !app_assoc. reflexivity. }
      apply X. apply in_elt. }
    assert (D0 : cnt B (ADelivery i) = 0).
    { assert (X : ~ In (ADelivery i) B) by (apply (Hd1 i _ _ E)). apply cnt_notIn in X. exact X. }
    assert (D1 : cnt (p1 ++ APickup i :: p2) (ADelivery i) = 0).
    { destruct (Nat.eq_dec (cnt (p1 ++ APickup i :: p2) (ADelivery i)) 0) as [|Hx]; [assumption|exfalso].
      destruct (cnt_split _ (ADelivery i) ltac:(apply Nat.neq_0_lt_0; exact Hx)) as (x & y & Exy).
      assert (X : ~ In (ADelivery i) (y ++ ADelivery i :: B)).
      { apply (Hd1 i x). rewrite E, Exy, <- app_assoc. reflexivity. }
      apply X. apply in_elt. }
    rewrite cnt_app, cnt_cons in D1. cbn [a_eqb] in D1.
    rewrite E, <- app_assoc. cbn [app]. rewrite srun_app, (srun_free i false p1) by (try lia; discriminate).
    cbn [srun]. rewrite Nat.eqb_refl, srun_app, (srun_free i true p2); [|lia|lia|].
    + cbn [srun]. rewrite Nat.eqb_refl. apply srun_free; try lia; discriminate.
    + intros _. unfold num_reloads. clear - Hnd. induction p2 as [|a p2 IH]; [reflexivity|]. cbn [filter].
      rewrite (Hnd a (or_introl eq_refl)). apply IH. intros b Hb. apply Hnd. right. exact Hb.
Qed.
Lemma ships_wf d v mid : (forall a, In a mid -> known d a) ->
  (forall a, a_isDepot a = false -> cnt mid a <= 1) -> ships_ok mid ->
  (Z.of_nat (num_reloads mid + 1) <= v_maxTrips v)%Z -> well_formed d v mid.
Proof.
  intros Hk Hu Hs Ht. constructor; [exact Hk| | | | |exact Ht].
  - intros i pre post -> Hin. specialize (Hu (APickup i) eq_refl). rewrite cnt_app, cnt_self in Hu. apply cnt_In in Hin. lia.
  - intros i pre post -> Hin. specialize (Hu (ADelivery i) eq_refl). rewrite cnt_app, cnt_self in Hu. apply cnt_In in Hin. lia.
  - intros i pre post ->. apply srun_true. specialize (Hs i). rewrite srun_app in Hs.
    destruct (srun i false pre) as [[]|]; [reflexivity| |discriminate]. cbn [srun] in Hs. rewrite Nat.eqb_refl in Hs. discriminate.
  - intros i Hin. apply cnt_In. apply cnt_In in Hin. destruct (cnt_split _ _ Hin) as (A & B & ->).
    specialize (Hs i). rewrite srun_app in Hs. destruct (srun i false A) as [[]|]; try discriminate; cbn [srun] in Hs; rewrite Nat.eqb_refl in Hs; [discriminate|].
    apply srun_delivered in Hs. rewrite cnt_app, cnt_cons. lia.
Qed.

(** ** Editing lists: segments that carry no shipment in or out *)
Definition visits_only (l : list activity) : Prop := num_reloads l = 0.
Lemma num_reloads_app l l' : num_reloads (l ++ l') = num_reloads l + num_reloads l'.
Proof. unfold num_reloads. rewrite filter_app, app_length. reflexivity. Qed.
Lemma num_reloads_cons a l : num_reloads (a :: l) = (if a_isDepot a then 1 else 0) + num_reloads l.
Proof. unfold num_reloads. cbn [filter]. destruct (a_isDepot a); reflexivity. Qed.
Lemma num_reloads_In l a : num_reloads l = 0 -> In a l -> a_isDepot a = false.
Proof.
  induction l as [|x l IH]; [intros _ []|]. rewrite num_reloads_cons. intros H [->|Hin]; [destruct (a_isDepot a); [lia|reflexivity]|].
  apply IH; [lia|exact Hin].
Qed.

(** Passing over a closed segment leaves everything as it is. *)
Lemma srun_seg i b seg A : srun i false A = Some b -> ships_ok seg -> num_reloads seg = 0 ->
  cnt A (APickup i) + cnt seg (APickup i) <= 1 -> srun i b seg = Some b.
Proof.
  intros HA Hs Hn Hc. destruct b; [|apply Hs].
  destruct (srun_true i A HA) as (x & y & -> & _). rewrite cnt_app, cnt_self in Hc.
  assert (H0 : cnt seg (APickup i) = 0) by lia. destruct (srun_nodeliv i seg _ (Hs i) H0) as [H1 _].
  apply srun_free; auto.
Qed.
Lemma ships_insert A seg B : ships_ok (A ++ B) -> ships_ok seg -> num_reloads seg = 0 ->
  (forall i, cnt A (APickup i) + cnt seg (APickup i) <= 1) -> ships_ok (A ++ seg ++ B).
Proof.
  intros H Hs Hn Hc i. specialize (H i). rewrite srun_app in H |- *.
  destruct (srun i false A) as [b|] eqn:EA; [|discriminate]. rewrite srun_app, (srun_seg i b seg A EA Hs Hn (Hc i)). exact H.
Qed.
Lemma ships_delete A seg B : ships_ok (A ++ seg ++ B) -> ships_ok seg -> num_reloads seg = 0 ->
  (forall i, cnt A (APickup i) + cnt seg (APickup i) <= 1) -> ships_ok (A ++ B).
Proof.
  intros H Hs Hn Hc i. specialize (H i). rewrite srun_app in H |- *.
  destruct (srun i false A) as [b|] eqn:EA; [|discriminate]. rewrite srun_app, (srun_seg i b seg A EA Hs Hn (Hc i)) in H. exact H.
Qed.
Lemma ships_app A B : ships_ok A -> ships_ok B -> ships_ok (A ++ B).
Proof. intros H H' i. rewrite srun_app, (H i). apply H'. Qed.
Lemma ships_suffix A B : ships_ok A -> ships_ok (A ++ B) -> ships_ok B.
Proof. intros H H' i. specialize (H' i). rewrite srun_app, (H i) in H'. exact H'. Qed.
Lemma ships_client i : ships_ok [AClient i].
Proof. intros j. reflexivity. Qed.
Lemma ships_depot i : ships_ok [ADepot i].
Proof. intros j. reflexivity. Qed.
Lemma ships_nil : ships_ok [].
Proof. intros j. reflexivity. Qed.
Lemma ships_drop_depot A x B : ships_ok (A ++ ADepot x :: B) -> ships_ok (A ++ B).
Proof.
  intros H i. specialize (H i). rewrite srun_app in H |- *. destruct (srun i false A) as [[]|]; try discriminate. exact H.
Qed.
(** A pickup and its delivery come or go together. *)
Lemma srun_other i j b l : i <> j -> srun j b (APickup i :: l) = srun j b l.
Proof. intros H. cbn [srun]. destruct (Nat.eqb_spec i j); [contradiction|reflexivity]. Qed.
Lemma srun_other' i j b l : i <> j -> srun j b (ADelivery i :: l) = srun j b l.
Proof. intros H. cbn [srun]. destruct (Nat.eqb_spec i j); [contradiction|reflexivity]. Qed.
Lemma ships_pair i A M B : num_reloads M = 0 ->
  cnt (A ++ M ++ B) (APickup i) = 0 -> cnt (A ++ M ++ B) (ADelivery i) = 0 ->
  ships_ok (A ++ M ++ B) <-> ships_ok (A ++ APickup i :: M ++ ADelivery i :: B).
Proof.
  intros HM Hp Hd. rewrite !cnt_app in Hp, Hd.
  assert (E : forall j, j <> i -> srun j false (A ++ APickup i :: M ++ ADelivery i :: B) = srun j false (A ++ M ++ B)).
  { intros j Hj. rewrite !srun_app. destruct (srun j false A); [|reflexivity]. rewrite srun_other, !srun_app by congruence.
    destruct (srun j b M); [|reflexivity]. apply srun_other'. congruence. }
  assert (E' : srun i false (A ++ M ++ B) = Some false) by (apply srun_free; rewrite ?cnt_app; try lia; discriminate).
  assert (E'' : srun i false (A ++ APickup i :: M ++ ADelivery i :: B) = Some false).
  { rewrite srun_app, (srun_free i false A) by (try lia; discriminate). cbn [srun]. rewrite Nat.eqb_refl, srun_app.
    rewrite (srun_free i true M) by (try lia; auto). cbn [srun]. rewrite Nat.eqb_refl. apply srun_free; try lia; discriminate. }
  split; intros H j; specialize (H j); destruct (Nat.eq_dec j i) as [->|Hj]; try assumption; [rewrite E|rewrite <- E]; assumption.
Qed.

(** Where a delivery is, relative to its pickup. *)
Lemma srun_kept i M : srun i true M = Some true -> cnt M (APickup i) = 0 -> num_reloads M = 0.
Proof.
  induction M as [|[x|x|x|x] M IH]; cbn [srun]; rewrite ?cnt_cons, ?num_reloads_cons; cbn [a_eqb a_isDepot]; intros H Hc;
    [reflexivity|discriminate|auto| |].
  - rewrite Nat.eqb_sym in H. destruct (i =? x); [lia|]. auto.
  - destruct (x =? i); [|auto]. destruct (srun_true _ _ H) as (A & B & -> & _). rewrite cnt_app, cnt_self in Hc. lia.
Qed.
Lemma ships_where i mid : ships_ok mid -> cnt mid (APickup i) <= 1 -> In (APickup i) mid ->
  exists A M B, mid = A ++ APickup i :: M ++ ADelivery i :: B /\ num_reloads M = 0.
Proof.
  intros Hs Hu Hin. apply in_split in Hin as (A & R & E). pose proof (Hs i) as H. rewrite E, srun_app in H.
  destruct (srun i false A) as [[]|] eqn:EA; try discriminate; cbn [srun] in H; rewrite Nat.eqb_refl in H; [discriminate|].
  pose proof (srun_delivered _ _ H) as HR. destruct (cnt_split _ _ HR) as (M & B & ->).
  exists A, M, B. split; [exact E|]. rewrite srun_app in H. rewrite E, cnt_app, cnt_self, cnt_app in Hu.
  destruct (srun i true M) as [[]|] eqn:EM; try discriminate.
  - apply (srun_kept i); [exact EM|lia].
  - exfalso. cbn [srun] in H. rewrite Nat.eqb_refl in H. discriminate.
Qed.

(** ** The counters of a route tell when nothing is on board *)
Definition npick (l : list activity) : nat := length (filter a_isPickup l).
Definition ndeliv (l : list activity) : nat := length (filter a_isDelivery l).
Definition ncli (l : list activity) : nat := length (filter a_isClient l).
Lemma npick_app l l' : npick (l ++ l') = npick l + npick l'.
Proof. unfold npick. rewrite filter_app, app_length. reflexivity. Qed.
Lemma ndeliv_app l l' : ndeliv (l ++ l') = ndeliv l + ndeliv l'.
Proof. unfold ndeliv. rewrite filter_app, app_length. reflexivity. Qed.
Lemma ncli_app l l' : ncli (l ++ l') = ncli l + ncli l'.
Proof. unfold ncli. rewrite filter_app, app_length. reflexivity. Qed.
Lemma npick_cons a l : npick (a :: l) = (if a_isPickup a then 1 else 0) + npick l.
Proof. unfold npick. cbn [filter]. destruct (a_isPickup a); reflexivity. Qed.
Lemma ndeliv_cons a l : ndeliv (a :: l) = (if a_isDelivery a then 1 else 0) + ndeliv l.
Proof. unfold ndeliv. cbn [filter]. destruct (a_isDelivery a); reflexivity. Qed.
Lemma ncli_cons a l : ncli (a :: l) = (if a_isClient a then 1 else 0) + ncli l.
Proof. unfold ncli. cbn [filter]. destruct (a_isClient a); reflexivity. Qed.

(** Shipments below [k] on board. *)
Definition onboard (b : option bool) : nat := match b with Some true => 1 | _ => 0 end.
Fixpoint onb (k : nat) (l : list activity) : nat :=
  match k with O => 0 | S k' => onb k' l + onboard (srun k' false l) end.
Definition runs (l : list activity) : Prop := forall i, srun i false l <> None.

Lemma runs_prefix A B : runs (A ++ B) -> runs A.
Proof. intros H i E. apply (H i). rewrite srun_app, E. reflexivity. Qed.
Lemma ships_runs l : ships_ok l -> runs l.
Proof. intros H i. rewrite H. discriminate. Qed.
Lemma onb_ext k l l' : (forall i, i < k -> onboard (srun i false l) = onboard (srun i false l')) -> onb k l = onb k l'.
Proof. induction k as [|k IH]; intros H; [reflexivity|]. cbn [onb]. rewrite IH by (intros; apply H; lia). rewrite H by lia. reflexivity. Qed.
Lemma onb_one k l l' j z : j < k -> (forall i, i <> j -> onboard (srun i false l) = onboard (srun i false l')) ->
  onboard (srun j false l) = onboard (srun j false l') + z -> onb k l = onb k l' + z.
Proof.
  induction k as [|k IH]; intros Hj He Hz; [lia|]. cbn [onb]. destruct (Nat.eq_dec j k) as [->|Hne].
  - rewrite (onb_ext k l l') by (intros; apply He; lia). lia.
  - rewrite IH by (auto; lia). rewrite (He k) by lia. lia.
Qed.
Lemma srun_snoc i l x : srun i false (l ++ [x]) = match srun i false l with Some b => srun i b [x] | None => None end.
Proof. apply srun_app. Qed.
Lemma counters k l : runs l -> (forall i, In (APickup i) l -> i < k) ->
  npick l = ndeliv l + onb k l.
Proof.
  induction l as [|x l IH] using rev_ind; intros Hr Hk.
  - cbn. induction k as [|k IHk]; [reflexivity|]. cbn [onb srun onboard]. rewrite <- IHk by (intros i []). reflexivity.
  - rewrite npick_app, ndeliv_app.
    assert (Hl : npick l = ndeliv l + onb k l).
    { apply IH; [apply (runs_prefix _ _ Hr)|]. intros i Hi. apply Hk. apply in_or_app. auto. }
    assert (X : forall i, exists b, srun i false l = Some b /\ srun i b [x] <> None).
    { intros i. specialize (Hr i). rewrite srun_app in Hr. destruct (srun i false l) as [b|]; [|congruence]. eauto. }
    destruct x as [j|j|j|j].
    + rewrite (onb_ext k (l ++ [ADepot j]) l); [cbn; lia|]. intros i _. rewrite srun_snoc. destruct (X i) as (b & -> & Hb).
      cbn [srun] in *. destruct b; [congruence|reflexivity].
    + rewrite (onb_ext k (l ++ [AClient j]) l); [cbn; lia|]. intros i _. rewrite srun_snoc. destruct (X i) as (b & -> & Hb). reflexivity.
    + rewrite (onb_one k (l ++ [APickup j]) l j 1); [cbn; lia| | |].
      * apply Hk. apply in_or_app. right. left. reflexivity.
      * intros i Hi. rewrite srun_snoc. destruct (X i) as (b & -> & Hb). rewrite srun_other by congruence. reflexivity.
      * rewrite srun_snoc. destruct (X j) as (b & -> & Hb). cbn [srun] in *. rewrite Nat.eqb_refl in *. destruct b; [congruence|reflexivity].
    + assert (E : srun j false l = Some true).
      { destruct (X j) as (b & -> & Hb). cbn [srun] in Hb. rewrite Nat.eqb_refl in Hb. destruct b; [reflexivity|congruence]. }
      assert (Hj : j < k).
      { destruct (srun_true j l E) as (A & B & -> & _). apply Hk. apply in_or_app. left. apply in_elt. }
      assert (Y : onb k l = onb k (l ++ [ADelivery j]) + 1).
      { apply onb_one with (j := j); [exact Hj| |].
        - intros i Hi. rewrite srun_snoc. destruct (X i) as (b & -> & Hb). rewrite srun_other' by congruence. reflexivity.
        - rewrite srun_snoc, E. cbn [srun]. rewrite Nat.eqb_refl. reflexivity. }
      cbn. lia.
Qed.
Lemma onb_zero k l : onb k l = 0 -> forall i, i < k -> onboard (srun i false l) = 0.
Proof.
  induction k as [|k IH]; intros H i Hi; [lia|]. cbn [onb] in H. destruct (Nat.eq_dec i k) as [->|]; [lia|]. apply IH; lia.
Qed.
(** Equal counters: nothing on board. *)
Lemma counters_closed l : runs l -> npick l = ndeliv l -> ships_ok l.
Proof.
  intros Hr He i.
  set (k := S (i + fold_right (fun a m => Nat.max (a_idx a) m) 0 l)).
  assert (Hk : forall j, In (APickup j) l -> j < k).
  { intros j Hj. assert (j <= fold_right (fun a m => Nat.max (a_idx a) m) 0 l); [|unfold k; lia].
    clear - Hj. induction l as [|a l IH]; [destruct Hj|]. cbn [fold_right]. destruct Hj as [->|Hj]; [cbn [a_idx]; lia|]. specialize (IH Hj). lia. }
  pose proof (counters k l Hr Hk) as C. pose proof (onb_zero k l ltac:(lia) i ltac:(unfold k; lia)) as Z.
  specialize (Hr i). destruct (srun i false l) as [[]|]; [discriminate|reflexivity|congruence].
Qed.
