(** Model of pyvrp/minimise_fleet.py, over an arbitrary solver and stopping criterion. *)
From Coq Require Import Permutation Reals Lra.
From Flocq Require Import Core.Core.
From Verif Require Import Base DurationSegment Data LoadSegment Valid Route RouteSpec RouteFacts4 Cost CostFacts Penalty Solution
  SolutionFacts SolutionFacts2 SolutionFacts3 DataCtor.
Notation EmptyString := String.EmptyString.

(** minimise_fleet.py:90-110.  [a / b] for Python integers: the double nearest to the quotient, here as
    the real number that it is (the quotients are too small to overflow).  Then numpy's ceil. *)
Definition true_div (a b : Z) : R := round radix2 (FLT_exp (3 - 1024 - 53) 53) ZnearestE (IZR a / IZR b).
Definition ceil_div (a b : Z) : Z := Zceil (true_div a b).
Definition demand_of (f : client -> list Z) (d : pdata) (dim : nat) : Z :=
  zsum (map (fun c => dimv (f c) dim) (p_clients d)).
Definition dim_bound (d : pdata) (v : vehicle) (dim : nat) : Z :=
  ceil_div (Z.max (demand_of c_delivery d dim) (demand_of c_pickup d dim))
           (Z.max (dimv (v_capacity v) dim * v_maxTrips v) 1).
Definition lower_bound (d : pdata) : Z :=
  fold_left (fun b dim => Z.max (dim_bound d (p_vehicle d 0) dim) b) (seq 0 (p_numLoadDimensions d)) 0.

Definition set_available (v : vehicle) (n : nat) : res vehicle :=
  replace_vehicle v (Some n) None None None None None None None None None None None None None None None None None None.
Definition set_fleet (d : pdata) (v : vehicle) : res pdata :=
  replace_pdata d None None None (Some [v]) None None None None.

Section Fleet.
Context {W : Type}.
(** The solver and the stopping criterion, with their state. *)
Variables (solve : W -> pdata -> solution * W) (stop : W -> Z -> bool * W).

(** minimise_fleet.py:59-87: the loop.  [fuel] only bounds the recursion. *)
Fixpoint fleet_loop (fuel : nat) (w : W) (d : pdata) (feas : vehicle) (bound : Z) : res vehicle :=
  match fuel with
  | O => Err RuntimeErr
  | S fuel =>
      if negb (Z.of_nat (v_numAvailable feas) >? bound) then Ok feas
      else match set_available feas (v_numAvailable feas - 1) with
      | Err e => Err e
      | Ok fleet =>
          match set_fleet d fleet with
          | Err e => Err e
          | Ok d =>
              let '(best, w) := solve w d in
              match make_evaluator (repeat b64_zero (p_numLoadDimensions d)) b64_zero b64_zero with
              | Err e => Err e
              | Ok ev =>
                  let '(stopped, w) := stop w (solution_cost ev best) in
                  if stopped || negb (so_isFeasible best) then Ok feas
                  else if (length (so_routes best) <? p_numVehicles d)%nat then
                    match set_available fleet (length (so_routes best)) with
                    | Err e => Err e
                    | Ok fleet => fleet_loop fuel w d fleet bound
                    end
                  else fleet_loop fuel w d fleet bound
              end
          end
      end
  end.

(** minimise_fleet.py:51-60 *)
Definition minimise_fleet (w : W) (d : pdata) : res vehicle :=
  if negb (p_numVehicleTypes d =? 1)%nat then Err InvalidArgument
  else if existsb (fun c => negb (c_required c)) (p_clients d) then Err InvalidArgument
  else let feas := p_vehicle d 0 in
       fleet_loop (S (v_numAvailable feas)) w d feas (lower_bound d).
End Fleet.

(** ** The lower bound is one *)
Lemma trips_concat f mid : (forall i, f (ADepot i) = 0) -> zsum (map f mid) = zsum (map (fun t => zsum (map f t)) (trips mid)).
Proof.
  intros H0. induction mid as [|a mid IH]; [reflexivity|]. cbn [map zsum]. rewrite IH.
  destruct a as [i|i|i|i]; cbn [trips]; [cbn [map zsum]; rewrite H0; reflexivity| | |];
    (destruct (trips mid) as [|t ts]; cbn [map zsum]; lia).
Qed.
Lemma trips_number mid : length (trips mid) = (num_reloads mid + 1)%nat.
Proof.
  unfold num_reloads. induction mid as [|a mid IH]; [reflexivity|].
  destruct a; cbn [trips filter a_isDepot length]; rewrite ?IH; try reflexivity;
    destruct (trips mid); cbn [length] in *; lia.
Qed.

(** Where a trip lies in the route. *)
Lemma trips_split mid t : In t (trips mid) ->
  exists pre post, mid = pre ++ t ++ post /\ (pre = [] \/ exists p i, pre = p ++ [ADepot i]) /\
    (forall a, In a t -> a_isDepot a = false).
Proof.
  assert (H : forall mid, match trips mid with
    | [] => False
    | t :: ts => (exists post, mid = t ++ post) /\ (forall a, In a t -> a_isDepot a = false) /\
        forall t', In t' ts -> exists p i post, mid = p ++ [ADepot i] ++ t' ++ post /\ (forall a, In a t' -> a_isDepot a = false)
    end).
  { clear. induction mid as [|a mid IH]; cbn [trips].
    - split; [exists []; reflexivity|]. split; [intros a []|intros t []].
    - destruct a as [i|i|i|i]; cbn [trips]; destruct (trips mid) as [|t ts]; try contradiction; destruct IH as ((post & IH1) & IH2 & IH3).
      { split; [exists (ADepot i :: mid); reflexivity|]. split; [intros a []|].
        intros t' [<-|Ht'].
        - exists [], i, post. cbn. rewrite IH1. auto.
        - destruct (IH3 t' Ht') as (p & j & post' & E & Hd). exists (ADepot i :: p), j, post'. cbn. rewrite E. auto. }
      all: split; [exists post; cbn; rewrite IH1; reflexivity|]; split; [intros a [<-|Ha]; [reflexivity|auto]|];
        intros t' Ht'; destruct (IH3 t' Ht') as (p & j & post' & E & Hd); eexists (_ :: p), j, post'; cbn; rewrite E; auto. }
  specialize (H mid). destruct (trips mid) as [|t0 ts]; [contradiction|]. destruct H as ((post & H1) & H2 & H3).
  intros [<-|Ht].
  - exists [], post. cbn. auto.
  - destruct (H3 t Ht) as (p & i & post' & E & Hd). exists (p ++ [ADepot i]), post'.
    split; [rewrite E, <- app_assoc; reflexivity|]. eauto.
Qed.

Definition ships_in (f : nat -> Z) (t : list activity) : Z :=
  zsum (map (fun a => match a with APickup i => f i | ADelivery i => - f i | _ => 0 end) t).
Fixpoint picks (t : list activity) : list nat :=
  match t with [] => [] | APickup i :: l => i :: picks l | _ :: l => picks l end.
Fixpoint drops (t : list activity) : list nat :=
  match t with [] => [] | ADelivery i :: l => i :: drops l | _ :: l => drops l end.
Lemma in_picks i t : In i (picks t) <-> In (APickup i) t.
Proof.
  induction t as [|a t IH]; [reflexivity|]. cbn [In]. rewrite <- IH. destruct a as [j|j|j|j]; cbn [picks In];
    (split; [intros H; auto|intros [H|H]; [discriminate|exact H]]) || idtac.
  split; (intros [H|H]; [left; congruence|right; exact H]).
Qed.
Lemma in_drops i t : In i (drops t) <-> In (ADelivery i) t.
Proof.
  induction t as [|a t IH]; [reflexivity|]. cbn [In]. rewrite <- IH. destruct a as [j|j|j|j]; cbn [drops In];
    (split; [intros H; auto|intros [H|H]; [discriminate|exact H]]) || idtac.
  split; (intros [H|H]; [left; congruence|right; exact H]).
Qed.
Lemma ships_lists f t : ships_in f t = zsum (map f (picks t)) - zsum (map f (drops t)).
Proof. unfold ships_in. induction t as [|[j|j|j|j] t IH]; cbn [map zsum picks drops]; rewrite ?IH; lia. Qed.

Lemma zsum_incl (f : nat -> Z) l : forall l', (forall i, 0 <= f i) -> NoDup l -> incl l l' -> zsum (map f l) <= zsum (map f l').
Proof.
  induction l as [|x l IH]; intros l' Hf Hn Hi.
  - cbn. apply zsum_nonneg. intros y Hy. apply in_map_iff in Hy. destruct Hy as (z & <- & _). apply Hf.
  - inversion Hn as [|? ? Hx Hn']; subst.
    destruct (in_split x l' (Hi x (or_introl eq_refl))) as (l1 & l2 & ->).
    assert (zsum (map f l) <= zsum (map f (l1 ++ l2))).
    { apply IH; [exact Hf|exact Hn'|]. intros y Hy. specialize (Hi y (or_intror Hy)).
      apply in_app_or in Hi. apply in_or_app. destruct Hi as [H|[H|H]]; auto. subst. contradiction. }
    rewrite !map_app, !zsum_app in *. cbn [map zsum]. lia.
Qed.

(** In a trip, no more is taken off than was put on. *)
Lemma trip_ships d v mid t f : well_formed d v mid -> (forall i, 0 <= f i) -> In t (trips mid) -> 0 <= ships_in f t.
Proof.
  intros Hwf Hf Ht. destruct (trips_split mid t Ht) as (pre & post & E & Hpre & Hnd).
  rewrite ships_lists. cut (zsum (map f (drops t)) <= zsum (map f (picks t))); [lia|]. apply zsum_incl; [exact Hf| |].
  - assert (Honce : forall i p q, t = p ++ ADelivery i :: q -> ~ In (ADelivery i) q).
    { intros i p q Et Hin. apply (wf_delivery_once d v mid Hwf i (pre ++ p) (q ++ post)).
      - rewrite E, Et, <- !app_assoc. reflexivity.
      - apply in_or_app. auto. }
    clear - Honce. induction t as [|a t IH]; [constructor|].
    assert (IHt : NoDup (drops t)) by (apply IH; intros i p q Et; apply (Honce i (a :: p) q); rewrite Et; reflexivity).
    destruct a as [j|j|j|j]; cbn [drops]; try exact IHt. constructor; [|exact IHt].
    rewrite in_drops. apply (Honce j [] t). reflexivity.
  - intros i Hi. apply in_drops in Hi. apply in_picks. destruct (in_split _ _ Hi) as (t1 & t2 & Et).
    destruct (wf_delivery_after d v mid Hwf i (pre ++ t1) (t2 ++ post)) as (p1 & p2 & Ep & Hp2).
    { rewrite E, Et, <- !app_assoc. reflexivity. }
    rewrite Et. apply in_or_app. left.
    assert (Hin : In (APickup i) (pre ++ t1) ) by (rewrite Ep; apply in_or_app; right; left; reflexivity).
    destruct Hpre as [->|(p & k & ->)]; [exact Hin|].
    (* the depot before the trip lies before the pickup *)
    destruct (Nat.le_gt_cases (length (p ++ [ADepot k])) (length p1)) as [Hle|Hgt].
    + assert (Hin1 : In (APickup i) (skipn (length (p ++ [ADepot k])) ((p ++ [ADepot k]) ++ t1))).
      { rewrite Ep, skipn_app. apply in_or_app. right.
        replace (length (p ++ [ADepot k]) - length p1)%nat with 0%nat by lia. left. reflexivity. }
      rewrite skipn_app, skipn_all, Nat.sub_diag in Hin1. exact Hin1.
    + exfalso. rewrite app_length in Hgt. cbn [length] in Hgt.
      assert (Hn : nth_error ((p ++ [ADepot k]) ++ t1) (length p) = Some (ADepot k)).
      { rewrite <- app_assoc. rewrite nth_error_app2 by lia. rewrite Nat.sub_diag. reflexivity. }
      rewrite Ep in Hn. rewrite nth_error_app2 in Hn by lia.
      destruct (length p - length p1)%nat as [|m]; [discriminate|]. cbn [nth_error] in Hn.
      apply nth_error_In in Hn. specialize (Hp2 _ Hn). discriminate.
Qed.

Lemma peak_ge_start d dim x t : x <= peak d dim x t.
Proof. destruct t; cbn [peak]; lia. Qed.
Lemma peak_ge_end d dim t : forall x, x + zsum (map (load_change d dim) t) <= peak d dim x t.
Proof.
  induction t as [|a t IH]; intros x; cbn [peak map zsum]; [lia|]. specialize (IH (x + load_change d dim a)). lia.
Qed.

Definition act_amount (f : client -> list Z) (d : pdata) (dim : nat) (a : activity) : Z :=
  match a with AClient i => dimv (f (p_client d i)) dim | _ => 0 end.

Lemma dimv_nonneg_nth l dim : Forall (fun x => 0 <= x) l -> 0 <= dimv l dim.
Proof. intros H. unfold dimv. apply (Forall_nth_default (fun x => 0 <= x)); [exact H|lia]. Qed.

Section Bound.
Variables (d : pdata) (Hv : valid_data d) (dim : nat).

Lemma amounts_nonneg i : 0 <= dimv (s_amount (p_shipment d i)) dim.
Proof.
  unfold p_shipment. destruct (Nat.lt_ge_cases i (length (p_shipments d))) as [H|H].
  - apply dimv_nonneg_nth. pose proof (va_shipments d Hv) as HS. rewrite Forall_forall in HS.
    apply (vs_amount _ (HS _ (nth_In _ _ H))).
  - rewrite nth_overflow by exact H. unfold dimv. cbn. destruct dim; cbn; lia.
Qed.
Lemma client_nonneg i : 0 <= dimv (c_delivery (p_client d i)) dim /\ 0 <= dimv (c_pickup (p_client d i)) dim.
Proof.
  unfold p_client. destruct (Nat.lt_ge_cases i (length (p_clients d))) as [H|H].
  - pose proof (va_clients d Hv) as HS. rewrite Forall_forall in HS. pose proof (HS _ (nth_In _ dummy_client H)) as Hc.
    split; apply dimv_nonneg_nth; apply Hc.
  - rewrite nth_overflow by exact H. unfold dimv. cbn. destruct dim; cbn; lia.
Qed.

(** Both kinds of demand fit on board of each trip. *)
Lemma trip_fits v mid t cap extra : well_formed d v mid -> In t (trips mid) -> 0 <= extra ->
  trip_excess d dim cap extra t = 0 ->
  zsum (map (act_amount c_delivery d dim) t) <= cap /\ zsum (map (act_amount c_pickup d dim) t) <= cap.
Proof.
  intros Hwf Ht Hex H. unfold trip_excess in H.
  set (del := trip_delivery d dim t) in *.
  assert (Hdel : del = zsum (map (act_amount c_delivery d dim) t)) by reflexivity.
  pose proof (peak_ge_start d dim (del + extra) t) as H1. pose proof (peak_ge_end d dim t (del + extra)) as H2.
  assert (Hsum : zsum (map (load_change d dim) t) =
    zsum (map (act_amount c_pickup d dim) t) - zsum (map (act_amount c_delivery d dim) t)
    + ships_in (fun i => dimv (s_amount (p_shipment d i)) dim) t).
  { unfold ships_in. clear. induction t as [|a t IH]; [reflexivity|]. cbn [map zsum]. rewrite IH.
    destruct a; cbn [load_change act_amount]; lia. }
  pose proof (trip_ships d v mid t _ Hwf amounts_nonneg Ht). split; lia.
Qed.

Lemma zsum_bound (l : list Z) cap : (forall x, In x l -> x <= cap) -> zsum l <= Z.of_nat (length l) * cap.
Proof.
  induction l as [|x l IH]; intros H; cbn [zsum length]; [lia|].
  specialize (IH (fun y Hy => H y (or_intror Hy))). pose proof (H x (or_introl eq_refl)). nia.
Qed.

Lemma route_fits v mid : well_formed d v mid -> 0 <= dimv (v_initialLoad v) dim -> 0 <= dimv (v_capacity v) dim ->
  route_excess d v dim mid = 0 ->
  zsum (map (act_amount c_delivery d dim) mid) <= v_maxTrips v * dimv (v_capacity v) dim /\
  zsum (map (act_amount c_pickup d dim) mid) <= v_maxTrips v * dimv (v_capacity v) dim.
Proof.
  intros Hwf Hil Hcap H. unfold route_excess in H. set (cap := dimv (v_capacity v) dim) in *.
  assert (Hall : forall t, In t (trips mid) -> exists extra, 0 <= extra /\ trip_excess d dim cap extra t = 0).
  { destruct (trips mid) as [|t0 ts]; [intros t []|].
    assert (Hts : 0 <= zsum (map (trip_excess d dim cap 0) ts)).
    { apply zsum_nonneg. intros x Hx. apply in_map_iff in Hx. destruct Hx as (y & <- & _). unfold trip_excess. lia. }
    assert (H0 : 0 <= trip_excess d dim cap (dimv (v_initialLoad v) dim) t0) by (unfold trip_excess; lia).
    intros t [<-|Ht]; [exists (dimv (v_initialLoad v) dim); split; [exact Hil|lia]|].
    exists 0. split; [lia|]. assert (Hz : zsum (map (trip_excess d dim cap 0) ts) = 0) by lia. clear - Hz Ht.
    induction ts as [|x ts IH]; [destruct Ht|]. cbn [map zsum] in Hz.
    assert (0 <= zsum (map (trip_excess d dim cap 0) ts)).
    { apply zsum_nonneg. intros y Hy. apply in_map_iff in Hy. destruct Hy as (z & <- & _). unfold trip_excess. lia. }
    assert (0 <= trip_excess d dim cap 0 x) by (unfold trip_excess; lia).
    destruct Ht as [<-|Ht]; [lia|apply IH; [exact Ht|lia]]. }
  assert (Hn : Z.of_nat (length (trips mid)) <= v_maxTrips v) by (rewrite trips_number; apply (wf_trips d v mid Hwf)).
  assert (Hgo : forall f, (forall t, In t (trips mid) -> zsum (map (act_amount f d dim) t) <= cap) ->
     zsum (map (act_amount f d dim) mid) <= v_maxTrips v * cap).
  { intros f Hf. rewrite trips_concat by reflexivity.
    pose proof (zsum_bound (map (fun t => zsum (map (act_amount f d dim) t)) (trips mid)) cap) as Hb.
    rewrite map_length in Hb. specialize (Hb ltac:(intros x Hx; apply in_map_iff in Hx; destruct Hx as (t & <- & Ht); auto)). nia. }
  split; apply Hgo; intros t Ht; destruct (Hall t Ht) as (extra & He1 & He2);
    destruct (trip_fits v mid t cap extra Hwf Ht He1 He2); assumption.
Qed.
End Bound.

Lemma integer_double k : 0 <= k <= 2 ^ 53 -> generic_format radix2 (FLT_exp (3 - 1024 - 53) 53) (IZR k).
Proof.
  intros H. destruct (Z.eq_dec k (2 ^ 53)) as [->|Hne].
  - change (2 ^ 53) with (Zpower radix2 53). rewrite IZR_Zpower by lia. apply generic_format_bpow. unfold FLT_exp. lia.
  - apply generic_format_FLT. exists (Float radix2 k 0).
    + unfold F2R. cbn [Fnum Fexp bpow]. lra.
    + cbn [Fnum]. change (Zpower radix2 53) with (2 ^ 53). lia.
    + cbn [Fexp]. lia.
Qed.
(** Rounding to a double does not exceed an integer that the quotient does not exceed. *)
Lemma ceil_div_le a b k : 0 < b -> a <= k * b -> 0 <= k <= 2 ^ 53 -> ceil_div a b <= k.
Proof.
  intros Hb H Hk. unfold ceil_div. apply Zceil_glb. unfold true_div.
  rewrite <- (round_generic radix2 (FLT_exp (3 - 1024 - 53) 53) ZnearestE (IZR k)) by (apply integer_double; exact Hk).
  apply round_le; [apply FLT_exp_valid; reflexivity|apply valid_rnd_N|].
  apply IZR_lt in Hb. apply IZR_le in H. rewrite mult_IZR in H. apply Rmult_le_reg_r with (IZR b); [exact Hb|].
  unfold Rdiv. rewrite Rmult_assoc, Rinv_l by lra. lra.
Qed.

Lemma plan_amount f d dim : forall routes, (forall i, 0 <= dimv (f (p_client d i)) dim) ->
  (forall i, (i < p_numClients d)%nat -> In (AClient i) (plan routes)) ->
  demand_of f d dim <= zsum (map (act_amount f d dim) (plan routes)).
Proof.
  intros routes Hf Hall.
  assert (E1 : demand_of f d dim = zsum (map (fun i => dimv (f (p_client d i)) dim) (seq 0 (p_numClients d)))).
  { unfold demand_of, p_client, p_numClients. f_equal. clear.
    assert (H : forall (l pre : list client), map (fun c => dimv (f c) dim) l =
      map (fun i => dimv (f (nth i (pre ++ l) dummy_client)) dim) (seq (length pre) (length l))).
    { induction l as [|c l IH]; intros pre; [reflexivity|]. cbn [map seq length].
      rewrite nth_middle. f_equal. rewrite (IH (pre ++ [c])), app_length, <- app_assoc, Nat.add_comm. reflexivity. }
    apply (H (p_clients d) []). }
  assert (E2 : zsum (map (act_amount f d dim) (plan routes)) = zsum (map (fun i => dimv (f (p_client d i)) dim) (client_ids (plan routes)))).
  { clear. induction (plan routes) as [|a l IH]; [reflexivity|]. destruct a; cbn [map zsum act_amount]; rewrite IH; reflexivity. }
  rewrite E1, E2. apply zsum_incl; [exact Hf|apply seq_NoDup|].
  intros i Hi. apply in_seq in Hi. apply in_client_ids. apply Hall. lia.
Qed.

(** Every feasible solution of data with one vehicle type and only required clients needs at least
    [lower_bound] routes. *)
Theorem lower_bound_sound d h routes s :
  valid_data d -> opens_by d h -> nonneg_durs d -> 2 * h <= MAXV -> groups_nodup d -> groups_known d ->
  p_numVehicleTypes d = 1%nat -> Forall (fun c => c_required c = true) (p_clients d) ->
  Forall (built d) routes -> make_solution d routes = Ok s -> so_isFeasible s = true -> Z.of_nat (length routes) <= 2 ^ 53 ->
  lower_bound d <= Z.of_nat (length routes).
Proof.
  intros Hv Ho Hn Hh Hg Hk H1 Hreq HB Hs Hf Hmany.
  apply (feasible_spec d h Hv Ho Hn Hh routes HB Hg Hk s Hs) in Hf. destruct Hf as (F1 & F2 & _).
  assert (Hall : forall i, (i < p_numClients d)%nat -> In (AClient i) (plan routes)).
  { intros i Hi. apply F2; [exact Hi|]. rewrite Forall_forall in Hreq. apply Hreq. apply nth_In. exact Hi. }
  unfold lower_bound.
  assert (Hfold : forall l b, (forall dim, In dim l -> dim_bound d (p_vehicle d 0) dim <= Z.of_nat (length routes)) -> b <= Z.of_nat (length routes) ->
    fold_left (fun b dim => Z.max (dim_bound d (p_vehicle d 0) dim) b) l b <= Z.of_nat (length routes)).
  { induction l as [|x l IH]; intros b Hl Hb; [exact Hb|]. cbn [fold_left]. apply IH; [intros y Hy; apply Hl; right; exact Hy|].
    pose proof (Hl x (or_introl eq_refl)). lia. }
  apply Hfold; [|lia]. intros dim Hdim. apply in_seq in Hdim. unfold dim_bound.
  set (v := p_vehicle d 0).
  assert (Hvin : In v (p_vehicles d)) by (apply nth_In; unfold p_numVehicleTypes in H1; lia).
  pose proof (va_vehicles d Hv) as Hvv. rewrite Forall_forall in Hvv. specialize (Hvv v Hvin).
  assert (Hcap : 0 <= dimv (v_capacity v) dim) by (apply dimv_nonneg_nth; apply Hvv).
  assert (Hil : 0 <= dimv (v_initialLoad v) dim) by (apply dimv_nonneg_nth; apply Hvv).
  assert (Hroute : forall r, In r routes -> exists mid, r_vehicleType r = 0%nat /\
     map sa_act (r_schedule r) = ADepot (v_start v) :: mid ++ [ADepot (v_end v)] /\
     zsum (map (act_amount c_delivery d dim) mid) <= v_maxTrips v * dimv (v_capacity v) dim /\
     zsum (map (act_amount c_pickup d dim) mid) <= v_maxTrips v * dimv (v_capacity v) dim).
  { intros r Hr. rewrite Forall_forall in HB. destruct (built_fields d r (HB r Hr)) as (mid & vt & Hvt & Em & Hwf & Ev & Es).
    assert (E0 : vt = 0%nat) by lia. rewrite E0 in Hwf, Es, Em, Ev, Hvt. fold v in Hwf, Es. exists mid. split; [exact Ev|]. split; [exact Es|].
    apply (route_fits d Hv dim v mid Hwf Hil Hcap).
    destruct (route_load d mid _ r dim Hv Hvt Em ltac:(lia)) as (L1 & L2 & _). fold v in L2. rewrite <- L2.
    destruct (F1 r Hr) as [Hx _]. apply Hx. apply nth_In. lia. }
  assert (Hsum : forall f : client -> list Z,
    (forall r, In r routes -> exists mid, map sa_act (r_schedule r) = ADepot (v_start v) :: mid ++ [ADepot (v_end v)] /\
       zsum (map (act_amount f d dim) mid) <= v_maxTrips v * dimv (v_capacity v) dim) ->
    zsum (map (act_amount f d dim) (plan routes)) <= Z.of_nat (length routes) * (v_maxTrips v * dimv (v_capacity v) dim)).
  { intros f. clear - routes. induction routes as [|r l IH]; intros Hr; [cbn; lia|].
    specialize (IH (fun r' Hr' => Hr r' (or_intror Hr'))). destruct (Hr r (or_introl eq_refl)) as (mid & E & Hle).
    change (plan (r :: l)) with (map sa_act (r_schedule r) ++ plan l). rewrite map_app, zsum_app, E.
    cbn [map zsum act_amount length]. rewrite map_app, zsum_app. cbn [map zsum act_amount]. nia. }
  assert (Htot : Z.max (demand_of c_delivery d dim) (demand_of c_pickup d dim) <= Z.of_nat (length routes) * (v_maxTrips v * dimv (v_capacity v) dim)).
  { apply Z.max_lub.
    - etransitivity; [apply (plan_amount c_delivery d dim routes); [intros i; apply (client_nonneg d Hv dim i)|exact Hall]|].
      apply Hsum. intros r Hr. destruct (Hroute r Hr) as (mid & _ & E & Q & _). eauto.
    - etransitivity; [apply (plan_amount c_pickup d dim routes); [intros i; apply (client_nonneg d Hv dim i)|exact Hall]|].
      apply Hsum. intros r Hr. destruct (Hroute r Hr) as (mid & _ & E & _ & Q). eauto. }
  apply ceil_div_le; [lia|nia|lia].
Qed.

(** ** The search for a smaller fleet *)
Definition with_available (v : vehicle) (n : nat) : vehicle :=
  mk_vehicle n (v_start v) (v_end v) (v_capacity v) (v_early v) (v_late v) (v_shift v) (v_maxDistance v) (v_fixedCost v)
    (v_unitDistance v) (v_unitDuration v) (v_profile v) (v_startLate v) (v_initialLoad v) (v_reload v) (v_maxReloads v)
    (v_maxOvertime v) (v_unitOvertime v) (v_maxDuration v) (v_name v).
Definition with_fleet (d : pdata) (n : nat) : pdata :=
  mk_pdata (p_locations d) (p_clients d) (p_depots d) [with_available (p_vehicle d 0) n] (p_dists d) (p_durs d)
    (p_groups d) (p_shipments d).

Lemma set_available_spec v n : vehicle_made v ->
  ((0 < n)%nat -> set_available v n = Ok (with_available v n) /\ vehicle_made (with_available v n)) /\
  (n = 0%nat -> set_available v n = Err InvalidArgument).
Proof.
  intros Hm. destruct (DataCtor.vehicle_valid v Hm) as [[] Hl]. destruct Hm as [HM Hm].
  assert (Hmk : (0 < n)%nat -> make_vehicle n (v_capacity v) (v_start v) (v_end v) (v_fixedCost v) (v_early v) (v_late v)
    (v_shift v) (v_maxDistance v) (v_unitDistance v) (v_unitDuration v) (v_profile v) (Some (v_startLate v))
    (v_initialLoad v) (v_reload v) (v_maxReloads v) (v_maxOvertime v) (v_unitOvertime v) (v_name v) = Ok (with_available v n)).
  { intros Hn. apply make_vehicle_spec. cbn [or_else]. split.
    - split; [assumption|]. split; [assumption|]. split; [assumption|]. split; [assumption|]. lia.
    - rewrite !pad_id by lia. rewrite <- vv_maxDuration_def. reflexivity. }
  split.
  - intros Hn. split; [exact (Hmk Hn)|]. split; [exact HM|]. do 19 eexists. exact (Hmk Hn).
  - intros ->. reflexivity.
Qed.

Record fleet_data (d : pdata) (h : Z) : Prop := mk_fleet_data {
  fd_valid : valid_data d; fd_opens : opens_by d h; fd_durs : nonneg_durs d; fd_h : 2 * h <= MAXV;
  fd_nodup : groups_nodup d; fd_known : groups_known d; fd_windows : windows_ok d; fd_ok : data_ok d;
  fd_one : p_numVehicleTypes d = 1%nat; fd_required : Forall (fun c => c_required c = true) (p_clients d);
  fd_made : vehicle_made (p_vehicle d 0) }.

Lemma one_vehicle d : p_numVehicleTypes d = 1%nat -> p_vehicles d = [p_vehicle d 0].
Proof. unfold p_numVehicleTypes, p_vehicle. destruct (p_vehicles d) as [|v [|]]; try discriminate. reflexivity. Qed.

Lemma with_fleet_data d h n : fleet_data d h -> (0 < n)%nat -> fleet_data (with_fleet d n) h.
Proof.
  intros [F1 F2 F3 F4 F5 F6 F7 F8 F9 F10 F11] Hn. pose proof (one_vehicle d F9) as E.
  assert (HM : vehicle_made (with_available (p_vehicle d 0) n)) by (apply set_available_spec; assumption).
  assert (Hin : In (p_vehicle d 0) (p_vehicles d)) by (rewrite E; left; reflexivity).
  assert (Eld : p_numLoadDimensions (with_fleet d n) = p_numLoadDimensions d).
  { unfold p_numLoadDimensions. rewrite E. reflexivity. }
  constructor; try assumption.
  - destruct F1 as [V1 V2 V3 V4]. constructor; try assumption. constructor; [|constructor].
    destruct (DataCtor.vehicle_valid _ HM) as [H _]. exact H.
  - destruct F2. constructor; try assumption. cbn [with_fleet p_vehicles]. rewrite E in *.
    match goal with H : Forall _ [p_vehicle d 0] |- _ => inversion H; subst end. constructor; [assumption|constructor].
  - destruct F7 as [W1 W2]. split; [exact W1|]. constructor; [|constructor]. rewrite Forall_forall in W2. exact (W2 _ Hin).
  - destruct F8 as [D1 D2 D3 D4 D5 D6 D7 D8 D9 D10]. constructor; try assumption.
    + intros i Hi. specialize (D1 i Hi). cbv zeta in *. rewrite Eld. exact D1.
    + intros s Hs. rewrite Eld. exact (D5 s Hs).
    + cbn. lia.
    + intros v [<-|[]]. rewrite Eld. exact (D7 _ Hin).
  - reflexivity.
Qed.

Lemma set_fleet_spec d h n : fleet_data d h -> (0 < n)%nat ->
  set_fleet d (with_available (p_vehicle d 0) n) = Ok (with_fleet d n).
Proof.
  intros F Hn. pose proof (with_fleet_data d h n F Hn) as F'.
  destruct (make_pdata_spec (p_locations d) (p_clients d) (p_depots d) [with_available (p_vehicle d 0) n] (p_dists d)
     (p_durs d) (p_groups d) (p_shipments d) (fd_windows _ _ F')) as [H _]. exact (H (fd_ok _ _ F')).
Qed.

Lemma lower_bound_fleet d n : p_numVehicleTypes d = 1%nat -> lower_bound (with_fleet d n) = lower_bound d.
Proof.
  intros H. pose proof (one_vehicle d H) as E. unfold lower_bound.
  assert (Eld : p_numLoadDimensions (with_fleet d n) = p_numLoadDimensions d).
  { unfold p_numLoadDimensions. rewrite E. reflexivity. }
  rewrite Eld. reflexivity.
Qed.

Lemma zero_eval n : exists ev, make_evaluator (repeat b64_zero n) b64_zero b64_zero = Ok ev.
Proof.
  unfold make_evaluator. assert (E : existsb b64_neg (repeat b64_zero n) = false).
  { induction n as [|n IH]; [reflexivity|]. cbn [repeat existsb]. rewrite IH. reflexivity. }
  rewrite E. eexists. reflexivity.
Qed.

(** The fleet of [n] vehicles is vouched for by a feasible solution. *)
Definition vouched (d : pdata) (n : nat) : Prop :=
  exists n' routes s, (n <= n')%nat /\ Forall (built (with_fleet d n')) routes /\
    make_solution (with_fleet d n') routes = Ok s /\ so_isFeasible s = true /\ (length routes <= n)%nat.

Section FleetSpec.
Context {W : Type}.
Variables (solve : W -> pdata -> solution * W) (stop : W -> Z -> bool * W).
(** The solver answers with a solution of the data it is given. *)
Definition answers (d : pdata) : Prop := forall w n, (0 < n <= v_numAvailable (p_vehicle d 0))%nat ->
  exists routes, Forall (built (with_fleet d n)) routes /\ make_solution (with_fleet d n) routes = Ok (fst (solve w (with_fleet d n))).

Lemma loop_spec d h : fleet_data d h -> answers d -> 1 <= lower_bound d -> Z.of_nat (v_numAvailable (p_vehicle d 0)) <= 2 ^ 53 ->
  forall fuel w cd k, (cd = d \/ exists m, (0 < m)%nat /\ cd = with_fleet d m) ->
  (k < fuel)%nat -> (0 < k <= v_numAvailable (p_vehicle d 0))%nat ->
  exists n, fleet_loop solve stop fuel w cd (with_available (p_vehicle d 0) k) (lower_bound d)
              = Ok (with_available (p_vehicle d 0) n) /\ (0 < n <= k)%nat /\
    (n = k \/ (lower_bound d <= Z.of_nat n /\ vouched d n)).
Proof.
  intros F Hans Hlb Hmany. induction fuel as [|fuel IH]; intros w cd k Hcd Hfuel [Hk Hka]; [lia|].
  cbn [fleet_loop]. change (v_numAvailable (with_available (p_vehicle d 0) k)) with k.
  destruct (Z.of_nat k >? lower_bound d) eqn:Egt; cbn [negb].
  2:{ exists k. split; [reflexivity|]. split; [lia|]. left. reflexivity. }
  apply Z.gtb_lt in Egt.
  assert (Hmk : vehicle_made (with_available (p_vehicle d 0) k)) by (apply set_available_spec; [apply (fd_made _ _ F)|exact Hk]).
  destruct (set_available_spec _ (k - 1) Hmk) as [Hset _]. destruct (Hset ltac:(lia)) as [-> _].
  change (with_available (with_available (p_vehicle d 0) k) (k - 1)) with (with_available (p_vehicle d 0) (k - 1)).
  assert (Eset : set_fleet cd (with_available (p_vehicle d 0) (k - 1)) = Ok (with_fleet d (k - 1))).
  { destruct Hcd as [->|(m & Hm & ->)]; [apply (set_fleet_spec d h); [exact F|lia]|].
    pose proof (set_fleet_spec (with_fleet d m) h (k - 1) (with_fleet_data d h m F Hm) ltac:(lia)) as E. exact E. }
  rewrite Eset. set (d' := with_fleet d (k - 1)).
  destruct (Hans w (k - 1)%nat ltac:(lia)) as (routes & HB & Hs). fold d' in HB, Hs.
  destruct (solve w d') as [best w2]. cbn [fst] in Hs.
  destruct (zero_eval (p_numLoadDimensions d')) as [ev ->].
  destruct (stop w2 (solution_cost ev best)) as [stopped w3].
  destruct (stopped || negb (so_isFeasible best)) eqn:Estop.
  { exists k. split; [reflexivity|]. split; [lia|]. left. reflexivity. }
  apply Bool.orb_false_iff in Estop. destruct Estop as [_ Hf]. apply Bool.negb_false_iff in Hf.
  pose proof (with_fleet_data d h (k - 1) F ltac:(lia)) as F'. fold d' in F'.
  destruct (partition d' routes HB (fd_nodup _ _ F') (fd_known _ _ F') best Hs) as (Er & _).
  destruct (sol_inv d' routes HB (fd_nodup _ _ F') (fd_known _ _ F') best Hs) as (Hcon & _).
  assert (Hle : (length routes <= k - 1)%nat).
  { pose proof (cs_vehicles _ _ Hcon) as Hc. unfold d', with_fleet, p_numVehicles in Hc. cbn in Hc. exact Hc. }
  assert (Hlow : lower_bound d <= Z.of_nat (length routes)).
  { rewrite <- (lower_bound_fleet d (k - 1) (fd_one _ _ F)). fold d'.
    destruct F'. apply (lower_bound_sound d' h routes best); try assumption. lia. }
  rewrite Er. change (p_numVehicles d') with (k - 1)%nat. subst d'.
  assert (Hv1 : vouched d (k - 1)) by (exists (k - 1)%nat, routes, best; auto 10).
  assert (Hv2 : vouched d (length routes)) by (exists (k - 1)%nat, routes, best; auto 10).
  destruct (length routes <? k - 1)%nat eqn:Elt.
  - assert (Hmk' : vehicle_made (with_available (p_vehicle d 0) (k - 1))) by (apply set_available_spec; [apply (fd_made _ _ F)|lia]).
    destruct (set_available_spec _ (length routes) Hmk') as [Hset' _]. destruct (Hset' ltac:(lia)) as [E _].
    rewrite E.
    destruct (IH w3 (with_fleet d (k - 1)) (length routes)) as (n & E1 & E2 & E3); [right; exists (k - 1)%nat; split; [lia|reflexivity]|lia|lia|].
    exists n. split; [exact E1|]. split; [lia|]. right. destruct E3 as [->|E3]; [split; [lia|exact Hv2]|exact E3].
  - destruct (IH w3 (with_fleet d (k - 1)) (k - 1)%nat) as (n & E1 & E2 & E3); [right; exists (k - 1)%nat; split; [lia|reflexivity]|lia|lia|].
    exists n. split; [exact E1|]. split; [lia|]. right. destruct E3 as [->|E3]; [split; [lia|exact Hv1]|exact E3].
Qed.

Theorem minimise_fleet_spec d h w : fleet_data d h -> answers d -> 1 <= lower_bound d -> Z.of_nat (v_numAvailable (p_vehicle d 0)) <= 2 ^ 53 ->
  let v := p_vehicle d 0 in
  exists n, minimise_fleet solve stop w d = Ok (with_available v n) /\ (0 < n <= v_numAvailable v)%nat /\
    (n = v_numAvailable v \/ (lower_bound d <= Z.of_nat n /\ vouched d n)).
Proof.
  intros F Hans Hlb Hmany v. unfold minimise_fleet. rewrite (fd_one _ _ F). cbn [Nat.eqb negb].
  assert (E : existsb (fun c => negb (c_required c)) (p_clients d) = false).
  { apply Bool.not_true_is_false. intros H. apply existsb_exists in H. destruct H as (c & Hc & Hr).
    pose proof (fd_required _ _ F) as HR. rewrite Forall_forall in HR. rewrite (HR c Hc) in Hr. discriminate. }
  rewrite E. fold v.
  assert (Hpos : (0 < v_numAvailable v)%nat).
  { pose proof (vehicle_remake v (fd_made _ _ F)) as Em. apply make_vehicle_spec in Em. apply Em. }
  destruct (loop_spec d h F Hans Hlb Hmany (S (v_numAvailable v)) w d (v_numAvailable v) (or_introl eq_refl) ltac:(lia) (conj Hpos (Nat.le_refl _))) as (n & E1 & E2 & E3).
  exists n. replace (with_available (p_vehicle d 0) (v_numAvailable v)) with v in E1 by (subst v; destruct (p_vehicle d 0); reflexivity).
  auto.
Qed.

Theorem minimise_fleet_rejects d w :
  (p_numVehicleTypes d <> 1%nat \/ exists c, In c (p_clients d) /\ c_required c = false) ->
  minimise_fleet solve stop w d = Err InvalidArgument.
Proof.
  intros H. unfold minimise_fleet. destruct (Nat.eqb_spec (p_numVehicleTypes d) 1) as [E|E]; cbn [negb]; [|reflexivity].
  destruct H as [H|(c & Hc & Hr)]; [contradiction|].
  assert (Ex : existsb (fun c => negb (c_required c)) (p_clients d) = true).
  { apply existsb_exists. exists c. split; [exact Hc|]. rewrite Hr. reflexivity. }
  rewrite Ex. reflexivity.
Qed.
End FleetSpec.
