(** The solution route: load and validation against the specification. *)
From Verif Require Import Base DurationSegment Data LoadSegment SearchRoute Valid
  ProposalRest Route RouteSpec.

(** ** Load *)
Lemma dimv_nonneg l dim : Forall (fun x => 0 <= x) l -> 0 <= dimv l dim.
Proof. intros H. unfold dimv. apply (Forall_nth_default (fun x => 0 <= x)); [exact H | lia]. Qed.

Lemma peak_shift d dim t : forall x, peak d dim x t = x + peak d dim 0 t.
Proof.
  induction t as [|a t IH]; intros x; cbn [peak]; [lia|].
  rewrite IH, (IH (0 + _)). lia.
Qed.
Lemma peak_nonneg d dim t : 0 <= peak d dim 0 t.
Proof. destruct t; cbn [peak]; lia. Qed.

Definition inc_ok (s : lseg) : Prop := 0 <= ls_increase s /\ ls_delta s <= ls_increase s.

Lemma lrun_trips d dim cap mid : forall acc, inc_ok acc ->
  ls_excessLoad cap (lrun cap dim acc (map (item_act d) mid)) =
  match trips mid with
  | [] => 0
  | t :: ts =>
      ls_excess acc
      + Z.max 0 (ls_initial acc + trip_delivery d dim t
                 + Z.max (ls_increase acc) (ls_delta acc + peak d dim 0 t) - cap)
      + zsum (map (trip_excess d dim cap 0) ts)
  end.
Proof.
  induction mid as [|a mid IH]; intros acc [Ha1 Ha2].
  - cbn [map lrun trips trip_delivery peak zsum]. unfold ls_excessLoad, ls_load, trip_delivery. cbn. lia.
  - assert (Hne : exists t ts, trips mid = t :: ts).
    { destruct mid as [|b mid]; [cbn; eauto|]. destruct b; cbn [trips]; eauto;
        destruct (trips mid); eauto. }
    destruct Hne as (t & ts & Et).
    assert (Hstep : forall l, it_reload (item_act d a) = false ->
      it_load (item_act d a) dim = l ->
      ls_excess l = 0 -> ls_delta l = load_change d dim a -> ls_increase l = Z.max 0 (load_change d dim a) ->
      ls_initial l = trip_delivery d dim [a] ->
      ls_excessLoad cap (lrun cap dim acc (map (item_act d) (a :: mid))) =
      ls_excess acc
      + Z.max 0 (ls_initial acc + trip_delivery d dim (a :: t)
                 + Z.max (ls_increase acc) (ls_delta acc + peak d dim 0 (a :: t)) - cap)
      + zsum (map (trip_excess d dim cap 0) ts)).
    { intros l Hr Hl H1 H2 H3 H4. cbn [map lrun]. rewrite Hr, Hl. rewrite IH.
      - rewrite Et. unfold ls_merge; cbn [ls_initial ls_delta ls_increase ls_excess].
        unfold trip_delivery in *. cbn [map zsum peak] in *. rewrite H1, H2, H3, H4.
        rewrite (peak_shift d dim t (0 + _)). pose proof (peak_nonneg d dim t).
        rewrite Z.add_0_r. do 2 f_equal. lia.
      - unfold inc_ok, ls_merge; cbn [ls_increase ls_delta]. lia. }
    destruct a as [i|i|i|i]; cbn [trips]; rewrite ?Et.
    + cbn [map lrun]. replace (it_reload (item_act d (ADepot i))) with true by reflexivity.
      rewrite IH by (unfold inc_ok, ls_finalise; cbn; lia). rewrite Et.
      unfold ls_finalise, ls_excessLoad, ls_load, trip_excess; cbn [ls_initial ls_delta ls_increase ls_excess map zsum].
      rewrite (peak_shift d dim t (trip_delivery d dim t + 0)).
      pose proof (peak_nonneg d dim t).
      change (trip_delivery d dim []) with 0. cbn [peak]. fold (trip_excess d dim cap 0). lia.
    + eapply Hstep; try reflexivity. unfold trip_delivery; cbn. lia.
    + eapply Hstep; reflexivity.
    + eapply Hstep; reflexivity.
Qed.

Lemma load_step_fold d v dim mid : forall acc x y,
  fold_left (load_step d v dim) mid (acc, x, y) =
  (lrun (dimv (v_capacity v) dim) dim acc (map (item_act d) mid),
   x + zsum (map (fun a => match a with AClient i => dimv (c_delivery (p_client d i)) dim | _ => 0 end) mid),
   y + zsum (map (fun a => match a with AClient i => dimv (c_pickup (p_client d i)) dim | _ => 0 end) mid)).
Proof.
  induction mid as [|a mid IH]; intros acc x y.
  - cbn [fold_left map lrun zsum]. rewrite !Z.add_0_r. reflexivity.
  - destruct a; cbn [fold_left load_step map lrun zsum];
      rewrite IH;
      repeat match goal with |- context [it_reload (item_act d ?a)] =>
        let b := eval cbn in (it_reload (item_act d a)) in
        change (it_reload (item_act d a)) with b end;
      cbn [item_act it_load];
      f_equal; [f_equal|]; lia.
Qed.

Lemma lrun_inc cap dim d mid : forall acc, inc_ok acc -> inc_ok (lrun cap dim acc (map (item_act d) mid)).
Proof.
  induction mid as [|a mid IH]; intros acc [H1 H2]; [split; assumption|].
  cbn [map lrun]. apply IH.
  destruct a; cbn [item_act it_reload it_load]; unfold inc_ok, ls_finalise, ls_merge, ls_client, ls_shipment;
    cbn [ls_increase ls_delta]; lia.
Qed.

Lemma init_load d v dim : In v (p_vehicles d) -> valid_data d ->
  (if dimv (v_initialLoad v) dim >? 0
   then (ls_vehicle v dim, 0, dimv (v_initialLoad v) dim) else (ls_zero, 0, 0)) =
  (ls_vehicle v dim, 0, dimv (v_initialLoad v) dim).
Proof.
  intros Hin Hv.
  pose proof (proj1 (Forall_forall _ _) (va_vehicles _ Hv) v Hin) as Hvv.
  pose proof (dimv_nonneg _ dim (vv_initial _ Hvv)).
  destruct (Z.gtb_spec (dimv (v_initialLoad v) dim) 0); [reflexivity|].
  unfold ls_vehicle. replace (dimv (v_initialLoad v) dim) with 0 by lia. reflexivity.
Qed.

(** Excess load of a route is what simulating its trips gives. *)
Theorem set_load_spec d v dim mid e : In v (p_vehicles d) -> valid_data d ->
  let '(ls, del, pick) := set_load d v dim (mid ++ [ADepot e]) in
  ls_excessLoad (dimv (v_capacity v) dim) ls = route_excess d v dim mid /\
  del = zsum (map (fun a => match a with AClient i => dimv (c_delivery (p_client d i)) dim | _ => 0 end) mid) /\
  pick = dimv (v_initialLoad v) dim
         + zsum (map (fun a => match a with AClient i => dimv (c_pickup (p_client d i)) dim | _ => 0 end) mid).
Proof.
  intros Hin Hv. unfold set_load. rewrite (init_load d v dim Hin Hv).
  rewrite fold_left_app, load_step_fold. cbn [fold_left load_step].
  split; [|split; lia].
  pose proof (proj1 (Forall_forall _ _) (va_vehicles _ Hv) v Hin) as Hvv.
  pose proof (dimv_nonneg _ dim (vv_capacity _ Hvv)) as Hc.
  set (cap := dimv (v_capacity v) dim) in *.
  assert (E : forall s, ls_excessLoad cap (ls_finalise cap s) = ls_excessLoad cap s).
  { intros s. unfold ls_excessLoad at 1, ls_finalise, ls_load; cbn [ls_initial ls_increase ls_excess]. lia. }
  rewrite E, lrun_trips by (unfold inc_ok, ls_vehicle; cbn; lia).
  unfold route_excess. fold cap. destruct (trips mid) as [|t ts]; [reflexivity|].
  unfold ls_vehicle; cbn [ls_initial ls_delta ls_increase ls_excess].
  unfold trip_excess at 2. rewrite (peak_shift d dim t (_ + _)). pose proof (peak_nonneg d dim t).
  fold (trip_excess d dim cap 0). lia.
Qed.

(** The search computes the same. *)
Theorem update_excess_spec d v dim mid : In v (p_vehicles d) -> valid_data d ->
  (dim < p_numLoadDimensions d)%nat ->
  nth dim (ca_excessLoad (update d v mid)) 0 = route_excess d v dim mid.
Proof.
  intros Hin Hv Hd. rewrite update_excess by exact Hd.
  set (cap := dimv (v_capacity v) dim).
  assert (E : lrun cap dim (ls_vehicle v dim) (map (item_act d) mid ++ [item_end d v]) =
              ls_merge (lrun cap dim (ls_vehicle v dim) (map (item_act d) mid)) ls_zero).
  { generalize (ls_vehicle v dim). induction mid as [|a mid IH]; intros acc; [reflexivity|].
    cbn [map app lrun]. apply IH. }
  rewrite E.
  assert (Hi : inc_ok (lrun cap dim (ls_vehicle v dim) (map (item_act d) mid)))
    by (apply lrun_inc; unfold inc_ok, ls_vehicle; cbn; lia).
  assert (E2 : ls_excessLoad cap (ls_merge (lrun cap dim (ls_vehicle v dim) (map (item_act d) mid)) ls_zero) =
               ls_excessLoad cap (lrun cap dim (ls_vehicle v dim) (map (item_act d) mid))).
  { destruct Hi. unfold ls_excessLoad, ls_load, ls_merge, ls_zero; cbn [ls_initial ls_delta ls_increase ls_excess]. lia. }
  rewrite E2, lrun_trips by (unfold inc_ok, ls_vehicle; cbn; lia).
  unfold route_excess. fold cap. destruct (trips mid) as [|t ts]; [reflexivity|].
  unfold ls_vehicle; cbn [ls_initial ls_delta ls_increase ls_excess].
  unfold trip_excess at 2. rewrite (peak_shift d dim t (_ + _)). pose proof (peak_nonneg d dim t).
  fold (trip_excess d dim cap 0). lia.
Qed.

(** ** Validation *)
Definition step_ok (pre : list activity) (a : activity) : Prop :=
  match a with
  | ADepot _ => forall i, In (APickup i) pre <-> In (ADelivery i) pre
  | AClient _ => True
  | APickup i => ~ In (APickup i) pre
  | ADelivery i => In (APickup i) pre /\ ~ In (ADelivery i) pre
  end.
Fixpoint vok (d : pdata) (pre acts : list activity) : Prop :=
  match acts with
  | [] => True
  | a :: more => known d a /\ step_ok pre a /\ vok d (pre ++ [a]) more
  end.

Record binv (d : pdata) (pre : list activity) (pv dv : list bool) : Prop := mk_binv {
  bi_lp : length pv = p_numShipments d;
  bi_ld : length dv = p_numShipments d;
  bi_p : forall i, (i < p_numShipments d)%nat -> bit pv i = true <-> In (APickup i) pre;
  bi_d : forall i, (i < p_numShipments d)%nat -> bit dv i = true <-> In (ADelivery i) pre;
  bi_known : forall a, In a pre -> known d a }.

Lemma bits_eqb_spec a : forall b, length a = length b ->
  bits_eqb a b = true <-> forall i, (i < length a)%nat -> bit a i = bit b i.
Proof.
  induction a as [|x a IH]; intros [|y b] Hl; cbn in Hl; try lia.
  - cbn. split; [intros _ i Hi; lia | reflexivity].
  - cbn [bits_eqb length]. rewrite andb_true_iff, eqb_true_iff, IH by lia. split.
    + intros [-> H] i Hi. destruct i; [reflexivity|]. apply (H i). lia.
    + intros H. split; [apply (H 0%nat); lia|]. intros i Hi. apply (H (S i)). lia.
Qed.

Lemma bit_upd l i j b : (i < length l)%nat -> bit (upd l i b) j = if Nat.eqb i j then b else bit l j.
Proof.
  unfold bit. revert l j; induction i as [|i IH]; intros [|x l] j Hi; cbn in Hi; try lia.
  - destruct j; reflexivity.
  - destruct j as [|j]; [reflexivity|]. cbn [upd nth Nat.eqb]. apply IH. lia.
Qed.

Lemma upd_length {A} (l : list A) i b : length (upd l i b) = length l.
Proof. revert i; induction l as [|x l IH]; intros [|i]; cbn; auto. Qed.

Lemma binv_depot d pre pv dv : binv d pre pv dv ->
  (bits_eqb pv dv = true <-> forall i, In (APickup i) pre <-> In (ADelivery i) pre).
Proof.
  intros [H1 H2 H3 H4 H5]. rewrite bits_eqb_spec by lia. rewrite H1. split.
  - intros H i. split; intros Hi.
    + pose proof (H5 _ Hi) as Hk. cbn in Hk. apply H4; [exact Hk|]. rewrite <- H by exact Hk. apply H3; assumption.
    + pose proof (H5 _ Hi) as Hk. cbn in Hk. apply H3; [exact Hk|]. rewrite H by exact Hk. apply H4; assumption.
  - intros H i Hi. specialize (H i). rewrite <- (H3 i Hi), <- (H4 i Hi) in H.
    destruct (bit pv i), (bit dv i); try reflexivity; destruct H as [Ha Hb];
      first [specialize (Ha eq_refl) | specialize (Hb eq_refl)]; discriminate.
Qed.

Lemma in_snoc {A} (x a : A) l : In x (l ++ [a]) <-> In x l \/ x = a.
Proof. rewrite in_app_iff. cbn. intuition congruence. Qed.

Lemma binv_step d pre pv dv a : binv d pre pv dv -> known d a ->
  binv d (pre ++ [a])
    (match a with APickup i => upd pv i true | _ => pv end)
    (match a with ADelivery i => upd dv i true | _ => dv end).
Proof.
  intros [H1 H2 H3 H4 H5] Hk. constructor.
  - destruct a; rewrite ?upd_length; assumption.
  - destruct a; rewrite ?upd_length; assumption.
  - intros i Hi. rewrite in_snoc. destruct a as [j|j|j|j]; try (rewrite (H3 i Hi); intuition congruence).
    cbn in Hk. rewrite bit_upd by lia. destruct (Nat.eqb_spec j i) as [->|Hne].
    + intuition.
    + rewrite (H3 i Hi). intuition congruence.
  - intros i Hi. rewrite in_snoc. destruct a as [j|j|j|j]; try (rewrite (H4 i Hi); intuition congruence).
    cbn in Hk. rewrite bit_upd by lia. destruct (Nat.eqb_spec j i) as [->|Hne].
    + intuition.
    + rewrite (H4 i Hi). intuition congruence.
  - intros x Hx. apply in_snoc in Hx. destruct Hx as [Hx| ->]; [apply H5; exact Hx | exact Hk].
Qed.

Lemma validate_loop_spec d acts : forall n pre pv dv, binv d pre pv dv ->
  (vok d pre acts -> exists pv' dv',
     validate_loop d n pv dv acts = Ok ((n + num_reloads acts)%nat, pv', dv') /\
     binv d (pre ++ acts) pv' dv') /\
  (~ vok d pre acts -> validate_loop d n pv dv acts = Err InvalidArgument).
Proof.
  induction acts as [|a acts IH]; intros n pre pv dv Hb.
  - split; [intros _|intros H; exfalso; apply H; exact I].
    exists pv, dv. rewrite app_nil_r. cbn. rewrite Nat.add_0_r. split; [reflexivity | exact Hb].
  - assert (Hrec : forall m, known d a -> step_ok pre a ->
      (num_reloads (a :: acts) + n = num_reloads acts + m)%nat ->
      validate_loop d n pv dv (a :: acts) =
        validate_loop d m (match a with APickup i => upd pv i true | _ => pv end)
                          (match a with ADelivery i => upd dv i true | _ => dv end) acts ->
      (vok d pre (a :: acts) -> exists pv' dv',
         validate_loop d n pv dv (a :: acts) = Ok ((n + num_reloads (a :: acts))%nat, pv', dv') /\
         binv d (pre ++ a :: acts) pv' dv') /\
      (~ vok d pre (a :: acts) -> validate_loop d n pv dv (a :: acts) = Err InvalidArgument)).
    { intros m Hk Hs Hm E. rewrite E. clear E.
      destruct (IH m (pre ++ [a]) _ _ (binv_step d pre pv dv a Hb Hk)) as [I1 I2].
      split.
      - intros (_ & _ & Hv). destruct (I1 Hv) as (pv' & dv' & E & Hb').
        exists pv', dv'. rewrite E, <- app_assoc in *. split; [|exact Hb'].
        do 3 f_equal. lia.
      - intros Hn. apply I2. intros Hv. apply Hn. repeat split; assumption. }
    destruct Hb as [L1 L2 B1 B2 B3]. pose proof (mk_binv _ _ _ _ L1 L2 B1 B2 B3) as Hb.
    destruct a as [i|i|i|i]; cbn [validate_loop] in *.
    + destruct (Nat.leb_spec (p_numDepots d) i) as [Hi|Hi].
      * split; [intros (Hk & _); cbn in Hk; lia | reflexivity].
      * pose proof (binv_depot d pre pv dv Hb) as Hd.
        destruct (bits_eqb pv dv) eqn:E; cbn [negb] in *.
        -- apply (Hrec (S n)); [exact Hi | cbn; apply Hd; reflexivity | unfold num_reloads; cbn; lia | reflexivity].
        -- split; [intros (_ & Hs & _); apply Hd in Hs; discriminate | reflexivity].
    + destruct (Nat.leb_spec (p_numClients d) i) as [Hi|Hi].
      * split; [intros (Hk & _); cbn in Hk; lia | reflexivity].
      * apply (Hrec n); [exact Hi | exact I | unfold num_reloads; cbn; lia | reflexivity].
    + destruct (Nat.leb_spec (p_numShipments d) i) as [Hi|Hi].
      * split; [intros (Hk & _); cbn in Hk; lia | reflexivity].
      * pose proof (B1 i Hi) as Hp. destruct (bit pv i) eqn:E.
        -- split; [intros (_ & Hs & _); exfalso; apply Hs; apply Hp; reflexivity | reflexivity].
        -- apply (Hrec n); [exact Hi | cbn; rewrite <- Hp; discriminate | unfold num_reloads; cbn; lia | reflexivity].
    + destruct (Nat.leb_spec (p_numShipments d) i) as [Hi|Hi].
      * split; [intros (Hk & _); cbn in Hk; lia | reflexivity].
      * pose proof (B1 i Hi) as Hp. pose proof (B2 i Hi) as Hq. destruct (bit pv i) eqn:E; cbn [negb] in *.
        -- destruct (bit dv i) eqn:E'.
           ++ split; [intros (_ & [_ Hs] & _); exfalso; apply Hs; apply Hq; reflexivity | reflexivity].
           ++ apply (Hrec n); [exact Hi | split; [apply Hp; reflexivity | rewrite <- Hq; discriminate]
                              | unfold num_reloads; cbn; lia | reflexivity].
        -- split; [intros (_ & [Hs _] & _); apply Hp in Hs; discriminate | reflexivity].
Qed.

Lemma vok_split d mid : forall p0,
  vok d p0 mid <-> forall pre a post, mid = pre ++ a :: post -> known d a /\ step_ok (p0 ++ pre) a.
Proof.
  induction mid as [|x mid IH]; intros p0.
  - cbn. split; [intros _ pre a post H; destruct pre; discriminate | trivial].
  - cbn [vok]. rewrite IH. split.
    + intros (H1 & H2 & H3) pre a post E. destruct pre as [|y pre]; cbn in E; injection E as -> E.
      * rewrite app_nil_r. split; assumption.
      * specialize (H3 pre a post E). rewrite <- app_assoc in H3. exact H3.
    + intros H. split; [|split].
      * apply (H [] x mid eq_refl).
      * specialize (H [] x mid eq_refl). rewrite app_nil_r in H. apply H.
      * intros pre a post ->. rewrite <- app_assoc. apply (H (x :: pre) a post eq_refl).
Qed.

Lemma split_cmp {A} (l1 : list A) x r1 l2 y r2 : l1 ++ x :: r1 = l2 ++ y :: r2 ->
  (exists m, l2 = l1 ++ x :: m) \/ (l1 = l2 /\ x = y /\ r1 = r2) \/
  (exists m, l1 = l2 ++ y :: m /\ r2 = m ++ x :: r1).
Proof.
  revert l2; induction l1 as [|a l1 IH]; intros [|b l2] H; cbn in H.
  - injection H as -> ->. right; left; repeat split.
  - injection H as -> H. left. exists l2. reflexivity.
  - injection H as -> H. right; right. exists l1. subst. split; reflexivity.
  - injection H as -> H. destruct (IH l2 H) as [[m ->]|[(-> & -> & ->)|[m [-> ->]]]].
    + left. exists m. reflexivity.
    + right; left; repeat split.
    + right; right. exists m. split; reflexivity.
Qed.

Lemma vok_well_formed d mid :
  (vok d [] mid /\ forall i, In (APickup i) mid <-> In (ADelivery i) mid) <->
  ((forall a, In a mid -> known d a) /\
   (forall i pre post, mid = pre ++ APickup i :: post -> ~ In (APickup i) post) /\
   (forall i pre post, mid = pre ++ ADelivery i :: post -> ~ In (ADelivery i) post) /\
   (forall i pre post, mid = pre ++ ADelivery i :: post ->
      exists p1 p2, pre = p1 ++ APickup i :: p2 /\ forall a, In a p2 -> a_isDepot a = false) /\
   (forall i, In (APickup i) mid -> In (ADelivery i) mid)).
Proof.
  rewrite vok_split. cbn [app]. split.
  - intros [H Hpair]. repeat split.
    + intros a Ha. apply in_split in Ha. destruct Ha as (l1 & l2 & E). apply (H _ _ _ E).
    + intros i pre post -> Hin. apply in_split in Hin. destruct Hin as (q1 & q2 & ->).
      destruct (H (pre ++ APickup i :: q1) (APickup i) q2) as [_ Hs];
        [rewrite <- app_assoc; reflexivity|].
      apply Hs. apply in_app_iff. right; left; reflexivity.
    + intros i pre post -> Hin. apply in_split in Hin. destruct Hin as (q1 & q2 & ->).
      destruct (H (pre ++ ADelivery i :: q1) (ADelivery i) q2) as [_ [_ Hs]];
        [rewrite <- app_assoc; reflexivity|].
      apply Hs. apply in_app_iff. right; left; reflexivity.
    + intros i pre post E. destruct (H _ _ _ E) as [_ [H1 H2]].
      apply in_split in H1. destruct H1 as (p1 & p2 & ->). exists p1, p2. split; [reflexivity|].
      intros a Ha. destruct a as [k|k|k|k]; try reflexivity. exfalso.
      apply in_split in Ha. destruct Ha as (q1 & q2 & ->).
      destruct (H (p1 ++ APickup i :: q1) (ADepot k) (q2 ++ ADelivery i :: post)) as [_ Hs].
      { rewrite E. rewrite <- !app_assoc. cbn. rewrite <- app_assoc. reflexivity. }
      cbn in Hs. apply H2. specialize (Hs i). destruct Hs as [Hs _].
      assert (Hi : In (ADelivery i) (p1 ++ APickup i :: q1))
        by (apply Hs; apply in_app_iff; right; left; reflexivity).
      apply in_app_iff in Hi. apply in_app_iff. destruct Hi as [Hi|[Hi|Hi]]; [left; exact Hi | discriminate |].
      right. right. apply in_app_iff. left; exact Hi.
    + intros i Hi. apply Hpair. exact Hi.
  - intros (Hk & Hp1 & Hd1 & Ha & Hpair).
    assert (Hdp : forall i, In (ADelivery i) mid -> In (APickup i) mid).
    { intros i Hi. apply in_split in Hi. destruct Hi as (l1 & l2 & E).
      destruct (Ha i l1 l2 E) as (p1 & p2 & -> & _). rewrite E.
      apply in_app_iff. left. apply in_app_iff. right; left; reflexivity. }
    split; [|intros i; split; auto].
    intros pre a post E. split; [apply Hk; rewrite E; apply in_app_iff; right; left; reflexivity|].
    destruct a as [k|k|i|i]; cbn [step_ok].
    + intros i. split; intros Hi.
      * assert (Hm : In (ADelivery i) mid)
          by (apply Hpair; rewrite E; apply in_app_iff; left; exact Hi).
        rewrite E in Hm. apply in_app_iff in Hm. destruct Hm as [Hm|[Hm|Hm]]; [exact Hm | discriminate |].
        exfalso. apply in_split in Hm. destruct Hm as (q1 & q2 & ->).
        destruct (Ha i (pre ++ ADepot k :: q1) q2) as (p1 & p2 & E2 & Hnd).
        { rewrite E, <- app_assoc. reflexivity. }
        apply in_split in Hi. destruct Hi as (r1 & r2 & ->).
        destruct (split_cmp _ _ _ _ _ _ E2) as [[m Hm]|[(_ & Hm & _)|[m [Hm1 Hm2]]]]; [|discriminate|].
        -- subst p1.
           assert (Emid : mid = r1 ++ APickup i :: (r2 ++ ADepot k :: m ++ APickup i :: p2 ++ ADelivery i :: q2)).
           { rewrite E.
             assert (E3 : (r1 ++ APickup i :: r2) ++ ADepot k :: q1 =
                          (r1 ++ APickup i :: r2) ++ ADepot k :: (m ++ APickup i :: p2)).
             { rewrite E2. rewrite <- !app_assoc. cbn. reflexivity. }
             apply app_inv_head in E3. injection E3 as ->.
             repeat (rewrite <- app_assoc; cbn [app]). reflexivity. }
           apply (Hp1 _ _ _ Emid). apply in_app_iff. right; right.
           apply in_app_iff. right; left; reflexivity.
        -- specialize (Hnd (ADepot k)). rewrite Hm2 in Hnd.
           assert (Hx : a_isDepot (ADepot k) = false)
             by (apply Hnd; apply in_app_iff; right; left; reflexivity).
           discriminate.
      * apply in_split in Hi. destruct Hi as (r1 & r2 & ->).
        destruct (Ha i r1 (r2 ++ ADepot k :: post)) as (p1 & p2 & -> & _).
        { rewrite E, <- app_assoc. reflexivity. }
        apply in_app_iff. left. apply in_app_iff. right; left; reflexivity.
    + exact I.
    + intros Hi. apply in_split in Hi. destruct Hi as (r1 & r2 & ->).
      apply (Hp1 i r1 (r2 ++ APickup i :: post)).
      * rewrite E, <- app_assoc. reflexivity.
      * apply in_app_iff. right; left; reflexivity.
    + split.
      * destruct (Ha i pre post E) as (p1 & p2 & -> & _). apply in_app_iff. right; left; reflexivity.
      * intros Hi. apply in_split in Hi. destruct Hi as (r1 & r2 & ->).
        apply (Hd1 i r1 (r2 ++ ADelivery i :: post)).
        -- rewrite E, <- app_assoc. reflexivity.
        -- apply in_app_iff. right; left; reflexivity.
Qed.

Lemma bit_repeat n i : bit (repeat false n) i = false.
Proof. unfold bit. revert i; induction n as [|n IH]; intros [|i]; cbn; auto. Qed.

Lemma binv_init d : binv d [] (repeat false (p_numShipments d)) (repeat false (p_numShipments d)).
Proof.
  constructor; try apply repeat_length; try (intros i _; rewrite bit_repeat; cbn; intuition congruence).
  intros a [].
Qed.

(** Classical case split is not needed: validity is decided by the code itself. *)
Lemma vok_dec d acts : forall pre, (forall a, In a pre -> known d a) ->
  {vok d pre acts} + {~ vok d pre acts}.
Proof.
  induction acts as [|a acts IH]; intros pre Hpre; [left; exact I|].
  assert (Hk : {known d a} + {~ known d a}) by (destruct a; cbn; apply lt_dec).
  destruct Hk as [Hk|Hk]; [|right; intros (H & _); contradiction].
  assert (adec : forall x y : activity, {x = y} + {x <> y}) by (repeat decide equality).
  assert (Hs : {step_ok pre a} + {~ step_ok pre a}).
  { destruct a as [k|k|i|i]; cbn [step_ok].
    - assert (Hall : {Forall (fun x => forall i, (x = APickup i -> In (ADelivery i) pre) /\
                                       (x = ADelivery i -> In (APickup i) pre)) pre} +
                     {~ Forall (fun x => forall i, (x = APickup i -> In (ADelivery i) pre) /\
                                       (x = ADelivery i -> In (APickup i) pre)) pre}).
      { apply Forall_dec. intros x. destruct x as [j|j|j|j].
        - left; split; discriminate.
        - left; split; discriminate.
        - destruct (in_dec adec (ADelivery j) pre) as [H|H].
          + left. intros i; split; [intros [= <-]; exact H | discriminate].
          + right. intros Hc. apply H. apply (Hc j). reflexivity.
        - destruct (in_dec adec (APickup j) pre) as [H|H].
          + left. intros i; split; [discriminate | intros [= <-]; exact H].
          + right. intros Hc. apply H. apply (Hc j). reflexivity. }
      destruct Hall as [H|H]; [left|right].
      + intros i. rewrite Forall_forall in H. split; intros Hi.
        * apply (H _ Hi i). reflexivity.
        * apply (H _ Hi i). reflexivity.
      + intros Hc. apply H. apply Forall_forall. intros x Hx i. split; intros ->; apply Hc; exact Hx.
    - left; exact I.
    - destruct (in_dec adec (APickup i) pre); [right; tauto | left; assumption].
    - destruct (in_dec adec (APickup i) pre), (in_dec adec (ADelivery i) pre); tauto. }
  destruct Hs as [Hs|Hs]; [|right; intros (_ & H & _); contradiction].
  destruct (IH (pre ++ [a])) as [H|H].
  - intros x Hx. apply in_snoc in Hx. destruct Hx as [Hx| ->]; [apply Hpre; exact Hx | exact Hk].
  - left; repeat split; assumption.
  - right; intros (_ & _ & Hc); contradiction.
Qed.

Theorem validate_spec d mid vt :
  (validate d mid vt = Ok tt <-> well_formed d (p_vehicle d vt) mid) /\
  (validate d mid vt <> Ok tt -> validate d mid vt = Err InvalidArgument).
Proof.
  unfold validate.
  destruct (validate_loop_spec d mid 1 [] _ _ (binv_init d)) as [H1 H2].
  destruct (vok_dec d mid [] ltac:(intros a [])) as [Hv|Hv].
  - destruct (H1 Hv) as (pv & dv & E & Hb). rewrite E. cbn [app] in Hb. clear H1 H2 E.
    destruct Hb as [L1 L2 B1 B2 B3].
    assert (Hall : forallb (fun i => Bool.eqb (bit pv i) (bit dv i)) (seq 0 (p_numShipments d)) = true <->
                   forall i, In (APickup i) mid <-> In (ADelivery i) mid).
    { rewrite forallb_forall. split.
      - intros H i. split; intros Hi; pose proof (B3 _ Hi) as Hk; cbn in Hk;
          specialize (H i ltac:(apply in_seq; lia)); apply eqb_prop in H.
        + apply (B2 i Hk). rewrite <- H. apply (B1 i Hk). exact Hi.
        + apply (B1 i Hk). rewrite H. apply (B2 i Hk). exact Hi.
      - intros H i Hi. apply in_seq in Hi. specialize (H i).
        rewrite <- (B1 i ltac:(lia)), <- (B2 i ltac:(lia)) in H.
        destruct (bit pv i), (bit dv i); try reflexivity; destruct H as [Ha Hb];
          first [specialize (Ha eq_refl) | specialize (Hb eq_refl)]; discriminate. }
    destruct (forallb _ _) eqn:Ef; cbn [negb].
    + assert (Hw := proj1 (vok_well_formed d mid) (conj Hv (proj1 Hall eq_refl))).
      destruct Hw as (W1 & W2 & W3 & W4 & W5).
      destruct (Z.gtb_spec (Z.of_nat (1 + num_reloads mid)) (v_maxTrips (p_vehicle d vt))) as [Ht|Ht].
      * split; [|reflexivity]. split; [discriminate|]. intros []. lia.
      * split; [|congruence]. split; [|reflexivity]. intros _. constructor; try assumption. lia.
    + split; [|reflexivity]. split; [discriminate|]. intros [].
      assert (Hw := proj2 (vok_well_formed d mid)).
      specialize (Hw (conj wf_known (conj wf_pickup_once (conj wf_delivery_once (conj wf_delivery_after wf_pickup_paired))))).
      apply proj2 in Hall. specialize (Hall (proj2 Hw)). discriminate.
  - rewrite (H2 Hv). split; [|reflexivity]. split; [discriminate|]. intros [].
    exfalso. apply Hv.
    apply (proj2 (vok_well_formed d mid)
      (conj wf_known (conj wf_pickup_once (conj wf_delivery_once (conj wf_delivery_after wf_pickup_paired))))).
Qed.
