(** Random solutions: Solution.cpp:157-244. *)
From Coq Require Import Permutation.
From Flocq Require Import IEEE754.BinarySingleNaN.
From Verif Require Import Base Data DataCtor Valid Route RouteSpec RouteFacts3 Solution SolutionFacts SolutionFacts2
  SolutionFacts3 RouteFacts2 CostFacts Penalty Rng RngFloat Bitset.

(** [rng.rand() < 0.5] *)
Definition coin (r : rng) : rng * bool :=
  let '(r, x) := rng_rand r in (r, Bltb x (b64_div (b64_of_Z 1) (b64_of_Z 2))).
Definition randint (r : rng) (n : nat) : rng * nat := let '(r, x) := rng_int r (Z.of_nat n) in (r, Z.to_nat x).
(** [required || rng.rand() < 0.5] *)
Definition pick (r : rng) (required : bool) : rng * bool := if required then (r, true) else coin r.

(** Solution.cpp:165-172 *)
Fixpoint random_groups (r : rng) (gs : list cgroup) : rng * list activity :=
  match gs with
  | [] => (r, [])
  | g :: more =>
      let '(r, b) := pick r (g_required g) in
      if b then
        let '(r, idx) := randint r (length (g_clients g)) in
        let '(r, acts) := random_groups r more in
        (r, AClient (nth idx (g_clients g) 0%nat) :: acts)
      else random_groups r more
  end.
(** Solution.cpp:174-182 *)
Fixpoint random_clients (d : pdata) (r : rng) (is : list nat) : rng * list activity :=
  match is with
  | [] => (r, [])
  | i :: more =>
      match c_group (p_client d i) with
      | Some _ => random_clients d r more
      | None =>
          let '(r, b) := pick r (c_required (p_client d i)) in
          let '(r, acts) := random_clients d r more in
          (r, if b then AClient i :: acts else acts)
      end
  end.
(** Solution.cpp:184-190 *)
Fixpoint random_shipments (d : pdata) (r : rng) (is : list nat) : rng * list activity :=
  match is with
  | [] => (r, [])
  | i :: more =>
      let '(r, b) := pick r (s_required (p_shipment d i)) in
      let '(r, acts) := random_shipments d r more in
      (r, if b then APickup i :: acts else acts)
  end.
(** Solution.cpp:195-203 *)
Definition per_route (numActivities numVehicles : nat) : nat :=
  let perVehicle := Nat.max (numActivities / numVehicles) 1 in
  let adjustment := ((numVehicles <? numActivities) && negb (numActivities mod numVehicles =? 0))%nat in
  if adjustment then S perVehicle else perVehicle.
Definition num_routes (numActivities perRoute : nat) : nat := ((numActivities + perRoute - 1) / perRoute)%nat.
(** Solution.cpp:205-222 *)
Fixpoint place (r : rng) (perRoute idx : nat) (acts : list activity) (routes : list (list activity))
    : rng * list (list activity) :=
  match acts with
  | [] => (r, routes)
  | a :: more =>
      let i := (idx / perRoute)%nat in
      let route := nth i routes [] in
      match a with
      | AClient _ => place r perRoute (S idx) more (upd routes i (route ++ [a]))
      | APickup k =>
          let '(r, pos) := randint r (S (length route)) in
          place r perRoute (S idx) more (upd routes i ((firstn pos route ++ a :: skipn pos route) ++ [ADelivery k]))
      | _ => place r perRoute (S idx) more routes
      end
  end.
(** Solution.cpp:224-237 *)
Definition fleet (d : pdata) : list nat :=
  flat_map (fun vt => repeat vt (v_numAvailable (p_vehicle d vt))) (seq 0 (p_numVehicleTypes d)).
(** Solution.cpp:239-241 *)
Fixpoint random_routes (d : pdata) (routes : list (list activity)) (types : list nat) : res (list route) :=
  match routes with
  | [] => Ok []
  | acts :: more =>
      match make_route d acts (hd 0%nat types) with
      | Err e => Err e
      | Ok r => match random_routes d more (List.tl types) with Err e => Err e | Ok rs => Ok (r :: rs) end
      end
  end.
(** Solution.cpp:157-244 *)
Definition make_random (d : pdata) (r : rng) : rng * res solution :=
  let '(r, a1) := random_groups r (p_groups d) in
  let '(r, a2) := random_clients d r (seq 0 (p_numClients d)) in
  let '(r, a3) := random_shipments d r (seq 0 (p_numShipments d)) in
  let '(r, acts) := rng_shuffle r (a1 ++ a2 ++ a3) in
  let perRoute := per_route (length acts) (p_numVehicles d) in
  let '(r, routes) := place r perRoute 0 acts (repeat [] (num_routes (length acts) perRoute)) in
  let '(r, types) := if (1 <? p_numVehicleTypes d)%nat then rng_shuffle r (fleet d) else (r, fleet d) in
  (r, match random_routes d routes types with Err e => Err e | Ok rs => make_solution d rs end).

(** ** Facts *)
Lemma randint_range r n : (0 < n)%nat -> (snd (randint r n) < n)%nat.
Proof.
  intros Hn. unfold randint. pose proof (rng_int_range r (Z.of_nat n) ltac:(lia)) as H.
  destruct (rng_int r (Z.of_nat n)) as [r' x]. cbn in *. lia.
Qed.

Section Random.
Variable d : pdata.
Hypothesis Hok : data_ok d.

Definition in_group (g : nat) (a : activity) : Prop :=
  exists i, a = AClient i /\ (i < p_numClients d)%nat /\ c_group (p_client d i) = Some g.

Lemma random_groups_spec : forall n r, (n <= p_numGroups d)%nat ->
  let acts := snd (random_groups r (skipn n (p_groups d))) in
  NoDup acts /\
  (forall a, In a acts -> exists g, (n <= g < p_numGroups d)%nat /\ in_group g a) /\
  (forall g, (n <= g < p_numGroups d)%nat ->
     (g_required (p_group d g) = true -> exists a, In a acts /\ in_group g a) /\
     (forall a b, In a acts -> In b acts -> in_group g a -> in_group g b -> a = b)).
Proof.
  assert (G : forall m n r, (n + m = p_numGroups d)%nat ->
  let acts := snd (random_groups r (skipn n (p_groups d))) in
  NoDup acts /\
  (forall a, In a acts -> exists g, (n <= g < p_numGroups d)%nat /\ in_group g a) /\
  (forall g, (n <= g < p_numGroups d)%nat ->
     (g_required (p_group d g) = true -> exists a, In a acts /\ in_group g a) /\
     (forall a b, In a acts -> In b acts -> in_group g a -> in_group g b -> a = b))).
  2: { intros n r Hn. apply (G (p_numGroups d - n)%nat n r). lia. }
  induction m as [|m IH]; intros n r Hn; cbv zeta.
  - rewrite skipn_all2 by (unfold p_numGroups in Hn; lia). cbn. split; [constructor|]. split; [tauto|]. intros; lia.
  - assert (Es : skipn n (p_groups d) = p_group d n :: skipn (S n) (p_groups d)).
    { unfold p_group. assert (Hlt : (n < length (p_groups d))%nat) by (unfold p_numGroups in Hn; lia). clear - Hlt.
      revert n Hlt. induction (p_groups d) as [|g l IH]; intros n Hlt; [cbn in Hlt; lia|]. destruct n; [reflexivity|].
      cbn [skipn nth]. apply IH. cbn in Hlt. lia. }
    rewrite Es. cbn [random_groups]. destruct (pick r (g_required (p_group d n))) as [r1 b] eqn:Ep.
    assert (Hb : g_required (p_group d n) = true -> b = true) by (intros H; rewrite H in Ep; cbn in Ep; congruence).
    destruct b.
    + destruct (do_groups d Hok n ltac:(lia)) as [Hne Hgc].
      destruct (randint r1 (length (g_clients (p_group d n)))) as [r2 idx] eqn:Er.
      pose proof (randint_range r1 (length (g_clients (p_group d n)))) as Hr. rewrite Er in Hr. cbn [snd] in Hr.
      specialize (Hr ltac:(destruct (g_clients (p_group d n)); [congruence|cbn; lia])).
      specialize (IH (S n) r2 ltac:(lia)). cbv zeta in IH. destruct (random_groups r2 (skipn (S n) (p_groups d))) as [r3 acts]. cbn [snd] in *.
      destruct IH as (I1 & I2 & I3). set (i := nth idx (g_clients (p_group d n)) 0%nat).
      assert (Hi : In i (g_clients (p_group d n))) by (apply nth_In; exact Hr). destruct (Hgc i Hi) as [Hi1 Hi2].
      assert (Hin : in_group n (AClient i)) by (exists i; auto).
      assert (Huniq : forall a g, In a acts -> in_group g a -> (S n <= g)%nat).
      { intros a g Ha (i1 & E1 & _ & E2). destruct (I2 a Ha) as (g' & Hg' & i2 & E3 & _ & E4). assert (i2 = i1) by congruence. subst i2. assert (g = g') by congruence. lia. }
      split; [|split].
      * constructor; [|exact I1]. intros Ha. specialize (Huniq _ n Ha Hin). lia.
      * intros a [<-|Ha]; [exists n; split; [lia|exact Hin]|]. destruct (I2 a Ha) as (g & Hg & H). exists g. split; [lia|exact H].
      * intros g Hg. destruct (Nat.eq_dec g n) as [->|Hne'].
        -- split; [intros _; exists (AClient i); split; [left; reflexivity|exact Hin]|].
           intros a b [<-|Ha] [<-|Hb'] Ga Gb; try reflexivity; try (specialize (Huniq _ n Ha Ga); lia); specialize (Huniq _ n Hb' Gb); lia.
        -- destruct (I3 g ltac:(lia)) as [J1 J2]. split.
           ++ intros Hreq. destruct (J1 Hreq) as (a & Ha & Ga). exists a. split; [right; exact Ha|exact Ga].
           ++ assert (Hno : ~ in_group g (AClient i)) by (intros (i1 & [= <-] & _ & E2); congruence).
              intros a b [<-|Ha] [<-|Hb'] Ga Gb; try tauto. apply J2; assumption.
    + specialize (IH (S n) r1 ltac:(lia)). cbv zeta in IH. destruct IH as (I1 & I2 & I3). split; [exact I1|]. split.
      * intros a Ha. destruct (I2 a Ha) as (g & Hg & H). exists g. split; [lia|exact H].
      * intros g Hg. destruct (Nat.eq_dec g n) as [->|Hne'].
        -- split; [intros H; specialize (Hb H); discriminate|].
           intros a b Ha _ (i1 & E1 & _ & E2). destruct (I2 a Ha) as (g' & Hg' & i2 & E3 & _ & E4).
           assert (i2 = i1) by congruence. subst i2. assert (n = g') by congruence. lia.
        -- apply I3. lia.
Qed.

Lemma random_clients_spec r is : NoDup is -> (forall i, In i is -> (i < p_numClients d)%nat) ->
  let acts := snd (random_clients d r is) in
  NoDup acts /\
  (forall a, In a acts -> exists i, a = AClient i /\ In i is /\ c_group (p_client d i) = None) /\
  (forall i, In i is -> c_required (p_client d i) = true -> In (AClient i) acts).
Proof.
  intros Hnd Hlt. revert r. induction Hnd as [|i is Hi Hnd IH]; intros r; cbv zeta; cbn [random_clients].
  - split; [constructor|]. split; [intros a []|intros i []].
  - specialize (IH ltac:(intros j Hj; apply Hlt; right; exact Hj)).
    destruct (c_group (p_client d i)) as [g|] eqn:Eg.
    + destruct (IH r) as (I1 & I2 & I3). split; [exact I1|]. split.
      * intros a Ha. destruct (I2 a Ha) as (j & E0 & Hj & E1). exists j. split; [exact E0|]. split; [right; exact Hj|exact E1].
      * intros j [<-|Hj] Hr; [|apply I3; assumption]. exfalso.
        destruct (do_clients d Hok i (Hlt i (or_introl eq_refl))) as (_ & _ & _ & H). destruct (H g Eg) as (_ & _ & Hf). congruence.
    + destruct (pick r (c_required (p_client d i))) as [r1 b] eqn:Ep.
      assert (Hb : c_required (p_client d i) = true -> b = true) by (intros H; rewrite H in Ep; cbn in Ep; congruence).
      specialize (IH r1). cbv zeta in IH. destruct (random_clients d r1 is) as [r2 acts]. cbn [snd] in *. destruct IH as (I1 & I2 & I3).
      assert (Hni : ~ In (AClient i) acts) by (intros Ha; destruct (I2 _ Ha) as (j & [= <-] & Hj & _); tauto).
      split; [destruct b; [constructor; assumption|exact I1]|]. split.
      * intros a Ha. assert (Ha' : a = AClient i \/ In a acts) by (destruct b; [destruct Ha; auto|auto]).
        destruct Ha' as [->|Ha']; [exists i; split; [reflexivity|split; [left; reflexivity|exact Eg]]|].
        destruct (I2 a Ha') as (j & E0 & Hj & E1). exists j. split; [exact E0|]. split; [right; exact Hj|exact E1].
      * intros j [<-|Hj] Hr; [rewrite (Hb Hr); left; reflexivity|]. specialize (I3 j Hj Hr). destruct b; [right; exact I3|exact I3].
Qed.

Lemma random_shipments_spec r is : NoDup is ->
  let acts := snd (random_shipments d r is) in
  NoDup acts /\ (forall a, In a acts -> exists i, a = APickup i /\ In i is) /\
  (forall i, In i is -> s_required (p_shipment d i) = true -> In (APickup i) acts).
Proof.
  intros Hnd. revert r. induction Hnd as [|i is Hi Hnd IH]; intros r; cbv zeta; cbn [random_shipments].
  - split; [constructor|]. split; [intros a []|intros i []].
  - destruct (pick r (s_required (p_shipment d i))) as [r1 b] eqn:Ep.
    assert (Hb : s_required (p_shipment d i) = true -> b = true) by (intros H; rewrite H in Ep; cbn in Ep; congruence).
    specialize (IH r1). cbv zeta in IH. destruct (random_shipments d r1 is) as [r2 acts]. cbn [snd] in *. destruct IH as (I1 & I2 & I3).
    assert (Hni : ~ In (APickup i) acts) by (intros Ha; destruct (I2 _ Ha) as (j & [= <-] & Hj); tauto).
    split; [destruct b; [constructor; assumption|exact I1]|]. split.
    + intros a Ha. assert (Ha' : a = APickup i \/ In a acts) by (destruct b; [destruct Ha; auto|auto]).
      destruct Ha' as [->|Ha']; [exists i; split; [reflexivity|left; reflexivity]|].
      destruct (I2 a Ha') as (j & E0 & Hj). exists j. split; [exact E0|right; exact Hj].
    + intros j [<-|Hj] Hr; [rewrite (Hb Hr); left; reflexivity|]. specialize (I3 j Hj Hr). destruct b; [right; exact I3|exact I3].
Qed.
End Random.

(** *** Distribution over routes *)
Definition is_visit (a : activity) : bool := a_isClient a || a_isPickup a.
Definition deliveries (acts : list activity) : list nat := flat_map (fun a => match a with ADelivery i => [i] | _ => [] end) acts.
Record route_ok (route : list activity) : Prop := mk_route_ok {
  rk_depots : forall a, In a route -> a_isDepot a = false;
  rk_pairs : Permutation (deliveries route) (pickup_ids route);
  rk_order : forall i pre post, route = pre ++ ADelivery i :: post -> In (APickup i) pre }.

Lemma upd_perm {A} (l : list (list A)) i x y : (i < length l)%nat -> Permutation x (y ++ nth i l []) ->
  Permutation (concat (upd l i x)) (y ++ concat l).
Proof.
  revert i. induction l as [|z l IH]; intros i Hi Hp; [cbn in Hi; lia|]. destruct i as [|i]; cbn [upd concat nth] in *.
  - rewrite Hp. rewrite <- app_assoc. reflexivity.
  - rewrite IH by (try exact Hp; cbn in Hi; lia). rewrite !app_assoc. apply Permutation_app_tail. apply Permutation_app_comm.
Qed.
Lemma filter_perm {A} (f : A -> bool) l l' : Permutation l l' -> Permutation (filter f l) (filter f l').
Proof.
  induction 1; cbn; auto.
  - destruct (f x); auto.
  - destruct (f x), (f y); auto. apply perm_swap.
  - etransitivity; eassumption.
Qed.
Lemma flat_map_perm {A B} (f : A -> list B) l l' : Permutation l l' -> Permutation (flat_map f l) (flat_map f l').
Proof. apply Permutation_flat_map. Qed.

Lemma route_ok_nil : route_ok [].
Proof. constructor; [intros a []|constructor|]. intros i [|? ?] post H; discriminate. Qed.
Lemma route_ok_client route i : route_ok route -> route_ok (route ++ [AClient i]).
Proof.
  intros [H1 H2 H3]. constructor.
  - intros a Ha. apply in_app_or in Ha. destruct Ha as [Ha|[<-|[]]]; [auto|reflexivity].
  - unfold deliveries, pickup_ids in *. rewrite !flat_map_app. cbn. rewrite !app_nil_r. exact H2.
  - intros j pre post E0. destruct (rev post) as [|z rp] eqn:Ep.
    + assert (post = []) by (rewrite <- (rev_involutive post), Ep; reflexivity). subst post.
      apply app_inj_tail in E0. destruct E0 as [_ E0]. discriminate.
    + assert (Epost : post = rev rp ++ [z]) by (rewrite <- (rev_involutive post), Ep; reflexivity). subst post.
      rewrite app_comm_cons, app_assoc in E0. apply app_inj_tail in E0. destruct E0 as [E0 _]. eapply H3. exact E0.
Qed.
Lemma route_ok_shipment route pos k : route_ok route ->
  route_ok ((firstn pos route ++ APickup k :: skipn pos route) ++ [ADelivery k]).
Proof.
  intros [H1 H2 H3]. set (ins := firstn pos route ++ APickup k :: skipn pos route).
  assert (Hp : Permutation ins (APickup k :: route)).
  { unfold ins. rewrite <- Permutation_middle. rewrite firstn_skipn. reflexivity. }
  constructor.
  - intros a Ha. apply in_app_or in Ha. destruct Ha as [Ha|[<-|[]]]; [|reflexivity].
    apply (Permutation_in _ Hp) in Ha. destruct Ha as [<-|Ha]; [reflexivity|auto].
  - unfold deliveries, pickup_ids in *. rewrite !flat_map_app. cbn [flat_map app].
    rewrite (flat_map_perm (fun a => match a with ADelivery i => [i] | _ => [] end) _ _ Hp).
    rewrite (flat_map_perm (fun a => match a with APickup i => [i] | _ => [] end) _ _ Hp). cbn [flat_map app].
    rewrite H2. rewrite app_nil_r. symmetry. apply Permutation_cons_append.
  - intros j pre post E0. destruct (rev post) as [|z rp] eqn:Ep.
    + assert (post = []) by (rewrite <- (rev_involutive post), Ep; reflexivity). subst post.
      apply app_inj_tail in E0. destruct E0 as [E0 [= <-]]. rewrite <- E0. unfold ins. apply in_or_app. right. left. reflexivity.
    + assert (Epost : post = rev rp ++ [z]) by (rewrite <- (rev_involutive post), Ep; reflexivity). subst post.
      rewrite app_comm_cons, app_assoc in E0. apply app_inj_tail in E0. destruct E0 as [E0 _].
      (* the delivery is one of the old route's *)
      unfold ins in E0.
      assert (Hlen : (length pre < length (firstn pos route) \/ length (firstn pos route) <= length pre)%nat) by lia.
      destruct Hlen as [Hlen|Hlen].
      * (* before the new pickup *)
        assert (E1 : firstn (length pre) (firstn pos route) = pre).
        { apply (f_equal (firstn (length pre))) in E0. rewrite firstn_app in E0.
          replace (length pre - length (firstn pos route))%nat with 0%nat in E0 by lia. cbn [firstn] in E0. rewrite app_nil_r in E0.
          rewrite firstn_app, Nat.sub_diag, firstn_all in E0. cbn [firstn] in E0. rewrite app_nil_r in E0. exact E0. }
        assert (E2 : exists q, firstn pos route = pre ++ ADelivery j :: q).
        { apply (f_equal (skipn (length pre))) in E0. rewrite skipn_app in E0.
          replace (length pre - length (firstn pos route))%nat with 0%nat in E0 by lia. cbn [skipn] in E0.
          rewrite skipn_app, Nat.sub_diag, skipn_all in E0. cbn [skipn app] in E0.
          destruct (skipn (length pre) (firstn pos route)) as [|z' q] eqn:Eq.
          - assert (length (skipn (length pre) (firstn pos route)) = 0%nat) by (rewrite Eq; reflexivity). rewrite skipn_length in H. lia.
          - cbn [app] in E0. injection E0 as -> _. exists q. rewrite <- Eq. rewrite <- E1 at 1. symmetry. apply firstn_skipn. }
        destruct E2 as [q E2]. apply (H3 j pre (q ++ skipn pos route)). rewrite <- (firstn_skipn pos route) at 1. rewrite E2.
        rewrite <- app_assoc. reflexivity.
      * (* after it *)
        assert (E1 : exists q, pre = firstn pos route ++ APickup k :: q /\ skipn pos route = q ++ ADelivery j :: rev rp).
        { apply (f_equal (skipn (length (firstn pos route)))) in E0 as E1. rewrite skipn_app, Nat.sub_diag, skipn_all in E1. cbn [skipn app] in E1.
          rewrite skipn_app in E1. replace (length (firstn pos route) - length pre)%nat with 0%nat in E1 by lia. cbn [skipn] in E1.
          apply (f_equal (firstn (length (firstn pos route)))) in E0 as E2. rewrite firstn_app, Nat.sub_diag, firstn_all in E2.
          cbn [firstn] in E2. rewrite app_nil_r in E2. rewrite firstn_app in E2.
          replace (length (firstn pos route) - length pre)%nat with 0%nat in E2 by lia. cbn [firstn] in E2. rewrite app_nil_r in E2.
          destruct (skipn (length (firstn pos route)) pre) as [|z' q] eqn:Eq; cbn [app] in E1; [discriminate|]. injection E1 as <- E1.
          exists q. split; [|exact E1]. rewrite E2 at 1. rewrite <- Eq. symmetry. apply firstn_skipn. }
        destruct E1 as (q & E1 & E2). assert (Hin : In (APickup j) (firstn pos route ++ q)).
        { apply (H3 j (firstn pos route ++ q) (rev rp)). rewrite <- app_assoc, <- E2. symmetry. apply firstn_skipn. }
        rewrite E1. apply in_app_or in Hin. apply in_or_app. destruct Hin; [auto|right; right; assumption].
Qed.

Lemma place_spec perRoute acts : (0 < perRoute)%nat -> forall r idx routes processed,
  (idx + length acts <= perRoute * length routes)%nat ->
  Forall (fun a => is_visit a = true) acts ->
  Forall route_ok routes ->
  Permutation (filter is_visit (concat routes)) processed ->
  (forall i, (i < length routes)%nat -> (i * perRoute < idx)%nat -> nth i routes [] <> []) ->
  let routes' := snd (place r perRoute idx acts routes) in
  length routes' = length routes /\ Forall route_ok routes' /\
  Permutation (filter is_visit (concat routes')) (processed ++ acts) /\
  (forall i, (i < length routes)%nat -> (i * perRoute < idx + length acts)%nat -> nth i routes' [] <> []).
Proof.
  intros Hp. induction acts as [|a acts IH]; intros r idx routes processed Hlen Hv Hok Hperm Hne; cbv zeta.
  - cbn. rewrite app_nil_r, Nat.add_0_r. auto.
  - inversion Hv as [|? ? Ha Hv']; subst. cbn [length] in Hlen.
    assert (Hi : (idx / perRoute < length routes)%nat) by (apply Nat.div_lt_upper_bound; lia).
    set (i := (idx / perRoute)%nat) in *. set (route := nth i routes []) in *.
    assert (Hr : route_ok route) by (rewrite Forall_forall in Hok; apply Hok; apply nth_In; exact Hi).
    assert (Step : forall new added r1, route_ok new -> new <> [] -> Permutation new (added ++ route) -> filter is_visit added = [a] ->
      let routes1 := upd routes i new in
      let routes' := snd (place r1 perRoute (S idx) acts routes1) in
      length routes' = length routes /\ Forall route_ok routes' /\
      Permutation (filter is_visit (concat routes')) (processed ++ a :: acts) /\
      (forall i, (i < length routes)%nat -> (i * perRoute < idx + S (length acts))%nat -> nth i routes' [] <> [])).
    { intros new added r1 Hnew Hnn Hpn Hf. cbv zeta.
      destruct (IH r1 (S idx) (upd routes i new) (processed ++ [a])) as (L1 & L2 & L3 & L4).
      - rewrite Bitset.upd_length. lia.
      - exact Hv'.
      - apply Forall_forall. intros x Hx. destruct (In_nth _ _ [] Hx) as (j & Hj & <-). rewrite Bitset.upd_length in Hj.
        rewrite Bitset.upd_nth by exact Hi. destruct (i =? j)%nat; [exact Hnew|]. rewrite Forall_forall in Hok. apply Hok. apply nth_In. exact Hj.
      - rewrite (filter_perm is_visit _ _ (upd_perm routes i new added Hi Hpn)). rewrite filter_app, Hf. cbn [app].
        rewrite Hperm. apply Permutation_cons_append.
      - intros j Hj Hlt. rewrite Bitset.upd_length in Hj. rewrite Bitset.upd_nth by exact Hi. destruct (Nat.eqb_spec i j) as [<-|Hij]; [exact Hnn|].
        apply Hne; [exact Hj|]. assert (j * perRoute <> idx)%nat; [|lia]. intros E0. apply Hij. unfold i. rewrite <- E0. apply Nat.div_mul. lia.
      - rewrite Bitset.upd_length in *. split; [exact L1|]. split; [exact L2|]. split; [rewrite <- app_assoc in L3; exact L3|].
        intros j Hj Hlt. apply L4; [exact Hj|lia]. }
    destruct a as [k|k|k|k]; try discriminate; cbn [place]; fold i; fold route.
    + apply (Step (route ++ [AClient k]) [AClient k]).
      * apply route_ok_client. exact Hr.
      * destruct route; discriminate.
      * symmetry. apply Permutation_cons_append.
      * reflexivity.
    + destruct (randint r (S (length route))) as [r1 pos].
      apply (Step ((firstn pos route ++ APickup k :: skipn pos route) ++ [ADelivery k]) [ADelivery k; APickup k]).
      * apply route_ok_shipment. exact Hr.
      * destruct (firstn pos route); discriminate.
      * rewrite <- Permutation_cons_append. cbn [app]. constructor. rewrite <- Permutation_middle. rewrite firstn_skipn. reflexivity.
      * reflexivity.
Qed.

(** *** Vehicles *)
Lemma per_route_pos n v : (0 < per_route n v)%nat.
Proof. unfold per_route. cbv zeta. destruct (_ && _); lia. Qed.
Lemma num_routes_fits n v : (0 < v)%nat -> (num_routes n (per_route n v) <= v)%nat /\ (n <= per_route n v * num_routes n (per_route n v))%nat /\
  forall i, (i < num_routes n (per_route n v))%nat -> (i * per_route n v < n)%nat.
Proof.
  intros Hv. pose proof (per_route_pos n v) as Hp. set (p := per_route n v) in *.
  assert (Hnp : (n <= v * p)%nat).
  { unfold p, per_route. cbv zeta. pose proof (Nat.div_mod n v ltac:(lia)) as Hd. pose proof (Nat.mod_upper_bound n v ltac:(lia)) as Hm.
    destruct (Nat.ltb_spec v n); cbn [andb].
    - destruct (Nat.eqb_spec (n mod v) 0) as [E0|E0]; cbn [negb]; nia.
    - nia. }
  unfold num_routes. pose proof (Nat.div_mod (n + p - 1) p ltac:(lia)) as Hd. pose proof (Nat.mod_upper_bound (n + p - 1) p ltac:(lia)) as Hm.
  set (q := ((n + p - 1) / p)%nat) in *. split; [|split].
  - assert (q < S v)%nat; [|lia]. apply Nat.div_lt_upper_bound; nia.
  - nia.
  - intros i Hi. nia.
Qed.
Lemma fleet_length d : length (fleet d) = p_numVehicles d.
Proof.
  unfold fleet, p_numVehicles.
  assert (G : forall (vs : list vehicle) n, fold_left (fun s v => (s + v_numAvailable v)%nat) vs n =
    (n + fold_right (fun v s => v_numAvailable v + s) 0 vs)%nat).
  { induction vs as [|v vs IH]; intros n; cbn; [lia|]. rewrite IH. lia. }
  rewrite G. cbn [plus]. unfold p_numVehicleTypes, p_vehicle.
  generalize (p_vehicles d). intros vs. assert (K : forall k pre, length pre = k ->
    length (flat_map (fun x => repeat x (v_numAvailable (nth x (pre ++ vs) dummy_vehicle))) (seq k (length vs))) =
    fold_right (fun v s => (v_numAvailable v + s)%nat) 0%nat vs).
  { induction vs as [|v vs IH]; intros k pre Hk; [reflexivity|]. cbn [length seq flat_map fold_right].
    rewrite app_length, repeat_length. rewrite app_nth2, Hk, Nat.sub_diag by lia. cbn [nth]. f_equal.
    rewrite <- (IH (S k) (pre ++ [v])) by (rewrite app_length; cbn; lia). rewrite <- app_assoc. reflexivity. }
  apply (K 0%nat []). reflexivity.
Qed.
Lemma count_occ_flat (f : nat -> nat) l vt : NoDup l ->
  count_occ Nat.eq_dec (flat_map (fun x => repeat x (f x)) l) vt = if in_dec Nat.eq_dec vt l then f vt else 0%nat.
Proof.
  induction 1 as [|x l Hx Hnd IH]; [reflexivity|]. cbn [flat_map]. rewrite count_occ_app, IH.
  destruct (Nat.eq_dec x vt) as [->|Hne].
  - rewrite count_occ_repeat_eq by reflexivity. destruct (in_dec Nat.eq_dec vt l); [contradiction|].
    destruct (in_dec Nat.eq_dec vt (vt :: l)) as [|Hn]; [lia|exfalso; apply Hn; left; reflexivity].
  - rewrite count_occ_repeat_neq by congruence. destruct (in_dec Nat.eq_dec vt l) as [Hi|Hi]; destruct (in_dec Nat.eq_dec vt (x :: l)) as [Hj|Hj]; try reflexivity.
    + exfalso. apply Hj. right. exact Hi.
    + destruct Hj; congruence.
Qed.

(** *** Routes *)
Lemma route_ok_wf d v route : route_ok route -> (forall a, In a route -> is_visit a = true -> known d a) ->
  NoDup (pickup_ids route) -> 1 <= v_maxTrips v -> well_formed d v route.
Proof.
  intros [H1 H2 H3] Hk Hnd Hv.
  assert (Hdel : forall i, In (ADelivery i) route <-> In (APickup i) route).
  { intros i. rewrite <- in_pickup_ids. assert (Hd : In (ADelivery i) route <-> In i (deliveries route)).
    { unfold deliveries. rewrite in_flat_map. split.
      - intros H. exists (ADelivery i). split; [exact H|left; reflexivity].
      - intros (a & Ha & Hi). destruct a; cbn in Hi; try tauto. destruct Hi as [->|[]]. exact Ha. }
    rewrite Hd. split; apply Permutation_in; [exact H2|symmetry; exact H2]. }
  constructor.
  - intros a Ha. destruct a as [i|i|i|i]; try (apply (Hk _ Ha); reflexivity).
    + specialize (H1 _ Ha). discriminate.
    + apply Hdel in Ha. apply (Hk _ Ha). reflexivity.
  - intros i pre post -> Hin. unfold pickup_ids in Hnd. rewrite flat_map_app in Hnd. cbn [flat_map app] in Hnd.
    apply NoDup_remove_2 in Hnd. apply Hnd. apply in_or_app. right. apply in_pickup_ids. exact Hin.
  - intros i pre post -> Hin. assert (Hnd' : NoDup (deliveries (pre ++ ADelivery i :: post)))
      by (eapply Permutation_NoDup; [symmetry; exact H2|exact Hnd]).
    unfold deliveries in Hnd'. rewrite flat_map_app in Hnd'. cbn [flat_map app] in Hnd'.
    apply NoDup_remove_2 in Hnd'. apply Hnd'. apply in_or_app. right. apply in_flat_map. exists (ADelivery i). split; [exact Hin|left; reflexivity].
  - intros i pre post E0. specialize (H3 i pre post E0). destruct (in_split _ _ H3) as (p1 & p2 & ->). exists p1, p2. split; [reflexivity|].
    intros a Ha. apply H1. rewrite E0. apply in_or_app. left. apply in_or_app. right. right. exact Ha.
  - intros i. apply Hdel.
  - unfold num_reloads. replace (filter a_isDepot route) with (@nil activity); [cbn; lia|].
    clear - H1. induction route as [|a route IH]; [reflexivity|]. cbn. rewrite (H1 a (or_introl eq_refl)).
    apply IH. intros b Hb. apply H1. right. exact Hb.
Qed.

Lemma random_routes_spec d routes types :
  (length routes <= length types)%nat -> (forall vt, In vt types -> (vt < p_numVehicleTypes d)%nat) ->
  (forall vt acts, (vt < p_numVehicleTypes d)%nat -> In acts routes -> well_formed d (p_vehicle d vt) acts) ->
  exists rs, random_routes d routes types = Ok rs /\ Forall (built d) rs /\ map r_acts rs = routes /\
    map r_vehicleType rs = firstn (length routes) types.
Proof.
  revert types. induction routes as [|acts routes IH]; intros types Hl Ht Hw.
  - exists []. cbn. auto.
  - destruct types as [|vt types]; [cbn in Hl; lia|]. cbn [random_routes hd List.tl length firstn].
    assert (Hvt : (vt < p_numVehicleTypes d)%nat) by (apply Ht; left; reflexivity).
    destruct (validate_spec d acts vt) as [V1 _]. pose proof (proj2 V1 (Hw vt acts Hvt (or_introl eq_refl))) as Hval.
    assert (H : exists r, make_route d acts vt = Ok r) by (unfold make_route; rewrite Hval; eexists; reflexivity).
    destruct H as [r Hr]. rewrite Hr.
    destruct (IH types) as (rs & E1 & E2 & E3 & E4).
    { cbn in Hl. lia. }
    { intros x Hx. apply Ht. right. exact Hx. }
    { intros x a Hx Ha. apply Hw; [exact Hx|right; exact Ha]. }
    rewrite E1. exists (r :: rs). split; [reflexivity|]. split; [constructor; [exists acts, vt; auto|exact E2]|].
    cbn [map]. apply route_fields in Hr. cbv zeta in Hr. rewrite E3, E4.
    assert (Ha : r_acts r = acts) by (rewrite Hr; unfold r_acts; cbn [r_schedule]; rewrite schedule_acts; cbn [List.tl]; apply removelast_last).
    assert (Hv : r_vehicleType r = vt) by (rewrite Hr; reflexivity). rewrite Ha, Hv. auto.
Qed.

Lemma plan_visits d rs : Forall (built d) rs ->
  filter is_visit (plan rs) = filter is_visit (concat (map r_acts rs)).
Proof.
  induction 1 as [|r rs (mid & vt & Hvt & Hr) _ IH]; [reflexivity|]. cbn [plan flat_map map concat]. rewrite !filter_app. f_equal; [|exact IH].
  apply route_fields in Hr. cbv zeta in Hr. rewrite Hr. unfold r_acts. cbn [r_schedule]. rewrite schedule_acts. cbn [List.tl filter is_visit a_isClient a_isPickup orb].
  rewrite removelast_last. cbn. rewrite filter_app. cbn. apply app_nil_r.
Qed.
Lemma client_ids_visits l : client_ids l = client_ids (filter is_visit l).
Proof. induction l as [|a l IH]; [reflexivity|]. destruct a; cbn; unfold client_ids in IH; rewrite IH; reflexivity. Qed.
Lemma pickup_ids_visits l : pickup_ids l = pickup_ids (filter is_visit l).
Proof. induction l as [|a l IH]; [reflexivity|]. destruct a; cbn; unfold pickup_ids in IH; rewrite IH; reflexivity. Qed.
Lemma NoDup_client_ids l : NoDup l -> NoDup (client_ids l).
Proof.
  induction 1 as [|a l Ha Hl IH]; [constructor|]. destruct a; cbn; try exact IH. constructor; [|exact IH].
  intros H. apply Ha. apply in_client_ids. exact H.
Qed.
Lemma NoDup_pickup_ids l : NoDup l -> NoDup (pickup_ids l).
Proof.
  induction 1 as [|a l Ha Hl IH]; [constructor|]. destruct a; cbn; try exact IH. constructor; [|exact IH].
  intros H. apply Ha. apply in_pickup_ids. exact H.
Qed.
Lemma pickup_ids_concat rs r : In r rs -> NoDup (pickup_ids (concat rs)) -> NoDup (pickup_ids r).
Proof.
  induction rs as [|x rs IH]; [intros []|]. cbn [concat]. unfold pickup_ids. rewrite flat_map_app. intros [->|Hr] Hnd.
  - eapply NoDup_app_l. exact Hnd.
  - apply IH; [exact Hr|]. clear - Hnd. revert Hnd. generalize (flat_map (fun a => match a with APickup i => [i] | _ => [] end) x).
    intros l. induction l as [|y l IH]; [auto|]. cbn. intros H. inversion H. auto.
Qed.

Lemma NoDup_app3 {A} (a b : list A) : NoDup a -> NoDup b -> (forall x, In x a -> ~ In x b) -> NoDup (a ++ b).
Proof.
  induction 1 as [|x a Hx Ha IH]; intros Hb Hd; [exact Hb|]. cbn. constructor.
  - intros H. apply in_app_or in H. destruct H as [H|H]; [tauto|]. apply (Hd x); [left; reflexivity|exact H].
  - apply IH; [exact Hb|]. intros y Hy. apply Hd. right. exact Hy.
Qed.

Theorem make_random_spec d r :
  data_ok d -> Forall (fun v => 0 <= v_maxReloads v <= SIZE_MAX) (p_vehicles d) ->
  Forall (fun v => (0 < v_numAvailable v)%nat) (p_vehicles d) -> groups_nodup d ->
  exists routes s, snd (make_random d r) = Ok s /\ Forall (built d) routes /\ make_solution d routes = Ok s /\
    so_isComplete s = true /\ forall rt, In rt routes -> forall a, In a (r_acts rt) -> a_isDepot a = false.
Proof.
  intros Hok Hrel Hav Hgnd.
  assert (Hgk : groups_known d).
  { unfold groups_known. rewrite Forall_forall. intros g Hg. rewrite Forall_forall. intros i Hi.
    destruct (In_nth _ _ dummy_group Hg) as (k & Hk & <-). apply (do_groups d Hok k Hk). exact Hi. }
  unfold make_random.
  pose proof (random_groups_spec d Hok 0 r ltac:(lia)) as G. cbv zeta in G. cbn [skipn] in G.
  destruct (random_groups r (p_groups d)) as [r1 a1]. cbn [snd] in G. destruct G as (G1 & G2 & G3).
  pose proof (random_clients_spec d Hok r1 (seq 0 (p_numClients d)) (seq_NoDup _ _) ltac:(intros i Hi; apply in_seq in Hi; lia)) as C. cbv zeta in C.
  destruct (random_clients d r1 (seq 0 (p_numClients d))) as [r2 a2]. cbn [snd] in C. destruct C as (C1 & C2 & C3).
  pose proof (random_shipments_spec d r2 (seq 0 (p_numShipments d)) (seq_NoDup _ _)) as S. cbv zeta in S.
  destruct (random_shipments d r2 (seq 0 (p_numShipments d))) as [r3 a3]. cbn [snd] in S. destruct S as (S1 & S2 & S3).
  pose proof (rng_shuffle_perm r3 (a1 ++ a2 ++ a3)) as P. destruct (rng_shuffle r3 (a1 ++ a2 ++ a3)) as [r4 acts]. cbn [snd] in P.
  assert (Hnd : NoDup acts).
  { eapply Permutation_NoDup; [exact P|]. apply NoDup_app3; [exact G1|apply NoDup_app3; [exact C1|exact S1|]|].
    - intros x Hx Hx'. destruct (C2 x Hx) as (i & -> & _). destruct (S2 _ Hx') as (j & Hj & _). discriminate.
    - intros x Hx Hx'. destruct (G2 x Hx) as (g & _ & i & -> & _ & Eg). apply in_app_or in Hx'. destruct Hx' as [Hx'|Hx'].
      + destruct (C2 _ Hx') as (j & [= <-] & _ & En). congruence.
      + destruct (S2 _ Hx') as (j & Hj & _). discriminate. }
  assert (Hin : forall a, In a acts <-> In a a1 \/ In a a2 \/ In a a3).
  { intros a. rewrite <- !in_app_iff. split; apply Permutation_in; [symmetry; exact P|exact P]. }
  assert (Hkn : forall a, In a acts -> is_visit a = true /\ known d a).
  { intros a Ha. apply Hin in Ha. destruct Ha as [Ha|[Ha|Ha]].
    - destruct (G2 a Ha) as (g & _ & i & -> & Hi & _). split; [reflexivity|exact Hi].
    - destruct (C2 a Ha) as (i & -> & Hi & _). apply in_seq in Hi. split; [reflexivity|cbn; lia].
    - destruct (S2 a Ha) as (i & -> & Hi). apply in_seq in Hi. split; [reflexivity|cbn; lia]. }
  assert (Hgr : forall g i j, In g (p_groups d) -> In i (g_clients g) -> In j (g_clients g) -> In (AClient i) acts -> In (AClient j) acts -> i = j).
  { intros g i j Hg Hi Hj Hai Haj. destruct (In_nth _ _ dummy_group Hg) as (k & Hk & <-).
    destruct (do_groups d Hok k Hk) as [_ Hm]. destruct (Hm i Hi) as [Li Ei]. destruct (Hm j Hj) as [Lj Ej].
    assert (Gi : In (AClient i) a1).
    { apply Hin in Hai. destruct Hai as [H|[H|H]]; [exact H| |].
      - destruct (C2 _ H) as (i' & [= <-] & _ & E0). congruence.
      - destruct (S2 _ H) as (i' & E0 & _). discriminate. }
    assert (Gj : In (AClient j) a1).
    { apply Hin in Haj. destruct Haj as [H|[H|H]]; [exact H| |].
      - destruct (C2 _ H) as (i' & [= <-] & _ & E0). congruence.
      - destruct (S2 _ H) as (i' & E0 & _). discriminate. }
    destruct (G3 k ltac:(split; [lia|exact Hk])) as [_ U].
    assert (E0 : AClient i = AClient j); [|congruence]. apply U; [exact Gi|exact Gj|exists i; auto|exists j; auto]. }
  assert (HV : (0 < p_numVehicles d)%nat).
  { rewrite <- fleet_length. unfold fleet. pose proof (do_some_vehicle d Hok) as H0.
    destruct (p_numVehicleTypes d) as [|n] eqn:En; [lia|]. cbn [seq flat_map]. rewrite app_length, repeat_length.
    rewrite Forall_forall in Hav. assert (H1 : (0 < v_numAvailable (p_vehicle d 0))%nat); [|lia].
    apply Hav. apply nth_In. unfold p_numVehicleTypes in En. lia. }
  destruct (num_routes_fits (length acts) (p_numVehicles d) HV) as (N1 & N2 & N3).
  set (perRoute := per_route (length acts) (p_numVehicles d)) in *. set (numRoutes := num_routes (length acts) perRoute) in *.
  pose proof (place_spec perRoute acts (per_route_pos _ _) r4 0 (repeat [] numRoutes) []) as L. cbv zeta in L.
  rewrite repeat_length in L. specialize (L ltac:(lia)).
  specialize (L ltac:(apply Forall_forall; intros a Ha; apply Hkn; exact Ha)).
  specialize (L ltac:(apply Forall_forall; intros x Hx; apply repeat_spec in Hx; subst x; apply route_ok_nil)).
  assert (Hc0 : filter is_visit (concat (repeat [] numRoutes)) = []) by (clear; induction numRoutes; cbn; auto).
  specialize (L ltac:(rewrite Hc0; reflexivity)). specialize (L ltac:(intros; lia)).
  destruct (place r4 perRoute 0 acts (repeat [] numRoutes)) as [r5 routes]. cbn [snd app] in L. destruct L as (L1 & L2 & L3 & L4).
  assert (Ht : exists types r6, (if (1 <? p_numVehicleTypes d)%nat then rng_shuffle r5 (fleet d) else (r5, fleet d)) = (r6, types) /\ Permutation (fleet d) types).
  { destruct (1 <? p_numVehicleTypes d)%nat; [|exists (fleet d), r5; auto].
    pose proof (rng_shuffle_perm r5 (fleet d)) as Q. destruct (rng_shuffle r5 (fleet d)) as [r6 types]. exists types, r6. auto. }
  destruct Ht as (types & r6 & -> & Hty). cbn [snd].
  assert (Hfl : forall vt, In vt (fleet d) -> (vt < p_numVehicleTypes d)%nat).
  { intros vt H. apply in_flat_map in H. destruct H as (x & Hx & H). apply repeat_spec in H. subst x. apply in_seq in Hx. lia. }
  assert (Hvis : forall a, In a (concat routes) -> is_visit a = true -> In a acts).
  { intros a Ha Hv. apply (Permutation_in _ L3). apply filter_In. auto. }
  assert (Hndv : NoDup (filter is_visit (concat routes))) by (eapply Permutation_NoDup; [symmetry; exact L3|exact Hnd]).
  destruct (random_routes_spec d routes types) as (rs & R1 & R2 & R3 & R4).
  { rewrite <- (Permutation_length Hty), fleet_length, L1. exact N1. }
  { intros vt H. apply Hfl. eapply Permutation_in; [symmetry; exact Hty|exact H]. }
  { intros vt rt Hvt Hrt. apply route_ok_wf.
    - rewrite Forall_forall in L2. apply L2. exact Hrt.
    - intros a Ha Hv. apply Hkn, Hvis; [|exact Hv]. apply in_concat. exists rt. auto.
    - apply (pickup_ids_concat routes); [exact Hrt|]. rewrite pickup_ids_visits. apply NoDup_pickup_ids. exact Hndv.
    - unfold v_maxTrips. rewrite Forall_forall in Hrel. specialize (Hrel (p_vehicle d vt) ltac:(apply nth_In; exact Hvt)).
      destruct (v_reload (p_vehicle d vt)); [lia|]. pose proof (Z.mod_pos_bound (v_maxReloads (p_vehicle d vt) + 1) (SIZE_MAX + 1) ltac:(unfold SIZE_MAX; lia)).
      destruct (Z.eq_dec (v_maxReloads (p_vehicle d vt)) 0) as [E0|E0]; [|lia]. rewrite E0. change (0 + 1) with 1. rewrite (Z.mod_small 1) by (unfold SIZE_MAX; lia). lia. }
  rewrite R1.
  pose proof (plan_visits d rs R2) as Hplan. rewrite R3 in Hplan.
  assert (Hpl : forall a, is_visit a = true -> In a (plan rs) <-> In a acts).
  { intros a Ha. split.
    - intros H. apply (Permutation_in _ L3). rewrite <- Hplan. apply filter_In. auto.
    - intros H. assert (H' : In a (filter is_visit (plan rs))) by (rewrite Hplan; eapply Permutation_in; [symmetry; exact L3|exact H]).
      apply filter_In in H'. apply H'. }
  assert (Hcon : consistent d rs).
  { assert (Hlen : length rs = numRoutes) by (rewrite <- L1, <- R3, map_length; reflexivity).
    constructor.
    - lia.
    - intros rt Hrt. destruct (In_nth _ _ rt Hrt) as (k & Hk & Ek).
      assert (Hn : nth k routes [] <> []) by (apply L4; [lia|]; cbn [Nat.add]; apply N3; lia).
      assert (Er : nth k routes [] = r_acts rt).
      { rewrite <- R3. rewrite (nth_indep _ [] (r_acts rt)) by (rewrite map_length; exact Hk). rewrite map_nth, Ek. reflexivity. }
      rewrite Er in Hn. destruct (r_acts rt) as [|a l] eqn:Ea; [congruence|]. exists a. split.
      + rewrite Forall_forall in R2. destruct (R2 rt Hrt) as (mid & vt & _ & Hr). apply route_fields in Hr. cbv zeta in Hr.
        rewrite Hr in Ea. unfold r_acts in Ea. cbn [r_schedule] in Ea. rewrite schedule_acts in Ea. cbn [List.tl] in Ea. rewrite removelast_last in Ea.
        rewrite Hr. cbn [r_schedule]. rewrite schedule_acts, Ea. right. left. reflexivity.
      + assert (Hro : route_ok (r_acts rt)) by (rewrite Ea, <- Er; rewrite Forall_forall in L2; apply L2; apply nth_In; lia).
        apply (rk_depots _ Hro). rewrite Ea. left. reflexivity.
    - rewrite client_ids_visits, Hplan. apply NoDup_client_ids. exact Hndv.
    - rewrite pickup_ids_visits, Hplan. apply NoDup_pickup_ids. exact Hndv.
    - intros g i j Hg Hi Hj Hai Haj. apply (Hgr g i j Hg Hi Hj); apply Hpl; auto.
    - intros vt Hvt. assert (E0 : used_vehicles rs vt = count_occ Nat.eq_dec (map r_vehicleType rs) vt).
      { unfold used_vehicles. clear. induction rs as [|x rs IH]; [reflexivity|]. cbn.
        destruct (Nat.eq_dec (r_vehicleType x) vt) as [->|Hne]; [rewrite Nat.eqb_refl; cbn; rewrite IH; reflexivity|].
        rewrite (proj2 (Nat.eqb_neq _ _) Hne). exact IH. }
      rewrite E0, R4.
      assert (E1 : (count_occ Nat.eq_dec (firstn (length routes) types) vt <= count_occ Nat.eq_dec types vt)%nat).
      { rewrite <- (firstn_skipn (length routes) types) at 2. rewrite count_occ_app. lia. }
      assert (E2 : count_occ Nat.eq_dec types vt = count_occ Nat.eq_dec (fleet d) vt) by (symmetry; apply Permutation_count_occ; exact Hty).
      unfold fleet in E2. rewrite (count_occ_flat (fun x => v_numAvailable (p_vehicle d x))) in E2 by apply seq_NoDup.
      destruct (in_dec Nat.eq_dec vt (seq 0 (p_numVehicleTypes d))); lia. }
  destruct (proj1 (proj1 (make_solution_iff d rs R2 Hgnd Hgk)) Hcon) as [s Hs].
  exists rs, s. split; [exact Hs|]. split; [exact R2|]. split; [exact Hs|]. split.
  - apply (complete_spec d rs R2 Hgnd Hgk s Hs). split; [|split].
    + intros i Hi Hreq. apply Hpl; [reflexivity|]. apply Hin. right. left. apply C3; [apply in_seq; lia|exact Hreq].
    + intros i Hi Hreq. rewrite (plan_delivery d rs i R2).
      assert (H : In (APickup i) (plan rs)); [|auto]. apply Hpl; [reflexivity|]. apply Hin. right. right. apply S3; [apply in_seq; lia|exact Hreq].
    + intros g Hg Hreq. destruct (In_nth _ _ dummy_group Hg) as (k & Hk & Ek).
      destruct (G3 k ltac:(split; [lia|exact Hk])) as [Q _]. unfold p_group in Q. rewrite Ek in Q. destruct (Q Hreq) as (a & Ha & i & -> & Hi & Eg).
      exists i. split; [|apply Hpl; [reflexivity|apply Hin; left; exact Ha]].
      destruct (do_clients d Hok i Hi) as (_ & _ & _ & Hm). destruct (Hm k Eg) as (_ & Hm' & _). unfold p_group in Hm'. rewrite Ek in Hm'. exact Hm'.
  - intros rt Hrt a Ha. assert (Hro : In (r_acts rt) routes) by (rewrite <- R3; apply in_map; exact Hrt).
    rewrite Forall_forall in L2. apply (rk_depots _ (L2 _ Hro)). exact Ha.
Qed.
