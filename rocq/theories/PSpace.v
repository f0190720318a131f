(** Property theorems C25 and C26: neighbourhoods and the search space. *)
From Coq Require Import ZArith Reals Lia List Permutation.
From Flocq Require Import Core.Core IEEE754.BinarySingleNaN.
From Verif Require Import Base DurationSegment Data Valid RouteSpec Penalty Pm Bitset Rng SearchSpace Neighbourhood Sample.
Import ListNotations.
Local Open Scope Z_scope.

(** A neighbourhood structure has one entry for each client and each pickup.  Each list has the
    requested size or, if fewer exist, as many as exist; it has no duplicates, only existing
    activities, not the activity itself and not a pickup's own delivery. *)
Theorem C25_well_formed : forall d p, in_int64 d -> weight_ok (np_wait p) ->
  map fst (compute_neighbours d p) = activity_order d /\
  forall a l, In (a, l) (compute_neighbours d p) ->
    length l = Nat.min (np_num p) (Nat.pred (p_numClients d) + 2 * Nat.pred (p_numShipments d)) /\ NoDup l /\
    forall b, In b l -> visit_known d b /\ b <> a /\ (forall i, a = APickup i -> b <> ADelivery i).
Proof. exact neighbourhoods_wf. Qed.
Print Assumptions C25_well_formed.

(** The structure is one the search space accepts. *)
Theorem C25_accepted : forall d p, in_int64 d -> weight_ok (np_wait p) ->
  exists s, make_space d (compute_neighbours d p) = Ok s.
Proof. exact compute_accepted. Qed.
Print Assumptions C25_accepted.

(** Order: if [b] comes before [c] in the list, or [c] was left out, then for each direct trip to
    (or, for symmetric proximity, from) [c] with some vehicle type there is one to or from [b] that
    is not more expensive, where the cost is the vehicle's distance and duration cost plus the
    weighted minimum wait.  Members of the same group come last.  The numbers must be moderate for
    doubles to be exact. *)
Theorem C25_order : forall d p w a l, moderate d -> groups_known d ->
  isz (np_wait p) w -> Z.abs w <= 2 ^ 20 -> In (a, l) (compute_neighbours d p) ->
  forall b c, (exists l1 l2 l3, l = l1 ++ b :: l2 ++ c :: l3) \/
              (In b l /\ ~ In c l /\ visit_known d c /\ c <> a /\ forall i, a = APickup i -> c <> ADelivery i) ->
  ~ same_group d a c -> forall z, linked d w (np_symmetric p) a c z ->
  ~ same_group d a b /\ exists z', z' <= z /\ linked d w (np_symmetric p) a b z'.
Proof. exact neighbourhoods_order. Qed.
Print Assumptions C25_order.

(** Parameters: only a positive number of neighbours is accepted. *)
Theorem C25_parameters : forall w num sym,
  (num <> 0%nat -> make_nparams w num sym = Ok (mk_nparams w num sym)) /\
  (num = 0%nat -> make_nparams w num sym = Err InvalidArgument).
Proof. exact nparams_spec. Qed.
Print Assumptions C25_parameters.

Definition sPar : nparams := mk_nparams (b64_of_Z 2) 3 true.
Example sample_moderate : moderate sample.
Proof.
  constructor.
  - cbn [sample p_clients]. repeat (constructor; [cbn; unfold MAXV; lia|]). constructor.
  - cbn [sample p_shipments]. constructor; [|constructor]. intros x [-> | ->]; cbn; lia.
  - cbn [sample p_vehicles]. repeat (constructor; [cbn; lia|]). constructor.
  - intros profile a b. unfold p_dist, m_at. apply (Forall_nth_default (fun z => Z.abs z <= 2 ^ 20)); [|lia].
    apply (Forall_nth_default (fun m => Forall (fun z => Z.abs z <= 2 ^ 20) (m_data m))); [|constructor].
    repeat (constructor; [cbn; repeat (constructor; [lia|]); constructor|]). constructor.
  - intros profile a b. unfold p_dur, m_at. apply (Forall_nth_default (fun z => Z.abs z <= 2 ^ 20)); [|lia].
    apply (Forall_nth_default (fun m => Forall (fun z => Z.abs z <= 2 ^ 20) (m_data m))); [|constructor].
    repeat (constructor; [cbn; repeat (constructor; [lia|]); constructor|]). constructor.
Qed.
Example sample_groups_known : groups_known sample.
Proof. constructor; [|constructor]. repeat (constructor; [cbn; lia|]). constructor. Qed.
Example sPar_weight : isz (np_wait sPar) 2 /\ weight_ok (np_wait sPar).
Proof. assert (isz (np_wait sPar) 2) by (apply of_Z_isz; unfold small; lia). split; [assumption|]. apply (weight_int _ 2); [assumption|lia]. Qed.
(** Three neighbours each for the clients and the pickup of the sample. *)
Example sample_neighbourhood : compute_neighbours sample sPar =
  [(AClient 0, [AClient 1; ADelivery 0; AClient 2]);
   (AClient 1, [AClient 3; APickup 0; ADelivery 0]);
   (AClient 2, [APickup 0; AClient 0; AClient 3]);
   (AClient 3, [AClient 1; ADelivery 0; AClient 0]);
   (APickup 0, [AClient 1; AClient 3; AClient 2])].
Proof. vm_compute. reflexivity. Qed.
(** The hypotheses of the order theorem are met by the pair AClient 1, AClient 2 of client 0. *)
Example sample_linked : exists z, linked sample 2 true (AClient 0) (AClient 2) z.
Proof.
  eexists. exists (nth 0 (p_vehicles sample) dummy_vehicle), (visit_client (p_client sample 0)).
  split; [left; reflexivity|]. split; [left; reflexivity|]. left. split; [vm_compute; discriminate|reflexivity].
Qed.
Example sample_not_group : ~ same_group sample (AClient 0) (AClient 2).
Proof. intros (g & [<-|[]] & H & _). cbn in H. destruct H as [H|[H|[]]]; discriminate. Qed.

(** ** C26 *)

(** A neighbourhood structure is accepted at construction exactly when it has as many entries as
    there are clients and shipments, the keys are clients or pickups, and nothing neighbours
    itself.  What is accepted is what is used; nothing is promising yet; the search visits each
    client and each pickup once, and each vehicle type once. *)
Theorem C26_construction : forall d nb,
  ((exists s, make_space d nb = Ok s) <->
   length nb = (p_numClients d + p_numShipments d)%nat /\
   forall k l, In (k, l) nb -> (a_isClient k = true \/ a_isPickup k = true) /\ ~ In k l) /\
  forall s, make_space d nb = Ok s ->
    ss_neighbours s = nb /\ (forall a, is_promising s a = false) /\
    Permutation (activity_order d) (ss_order s).
Proof.
  intros d nb. split; [exact (make_space_iff d nb)|]. intros s H.
  destruct (make_space_ok d nb s H) as (H1 & H2 & H3). split; [exact H2|]. split; [exact H3|exact (so_order _ _ H1)].
Qed.
Print Assumptions C26_construction.

(** Later, a structure is accepted exactly when it has as many entries as the current one (unless
    that is empty) and passes the same tests; a refused one changes nothing. *)
Theorem C26_set_neighbours : forall s nb,
  (exists s', set_neighbours s nb = Ok s') <->
  (ss_neighbours s <> [] -> length nb = length (ss_neighbours s)) /\
  forall k l, In (k, l) nb -> (a_isClient k = true \/ a_isPickup k = true) /\ ~ In k l.
Proof. exact set_neighbours_iff. Qed.
Print Assumptions C26_set_neighbours.

(** Whatever is done to the search space, no activity ever neighbours itself, and the orders remain
    orders of all activities and all vehicle types. *)
Theorem C26_invariant : forall d nb s ops, make_space d nb = Ok s -> Forall (op_known d) ops ->
  let s' := space_run s ops in
  (forall k l, In (k, l) (ss_neighbours s') -> (a_isClient k = true \/ a_isPickup k = true) /\ ~ In k l) /\
  Permutation (activity_order d) (ss_order s') /\ Permutation (veh_order (p_vehicles d) 0 0) (ss_vehOrder s').
Proof.
  intros d nb s ops Hm Ho s'. pose proof (space_run_ok d nb s ops Hm Ho) as H.
  split; [exact (so_nb _ _ H)|split; [exact (so_order _ _ H)|exact (so_veh _ _ H)]].
Qed.
Print Assumptions C26_invariant.

(** An activity is promising exactly when it, another step of the same shipment, a neighbouring
    visit in a route, or everything was marked after the last unmark. *)
Theorem C26_promising : forall d ops nb s, make_space d nb = Ok s ->
  Forall (op_known d) ops -> forall a, visit_known d a ->
  is_promising (space_run s ops) a = true <->
  exists before o after, ops = before ++ o :: after /\ marks o a /\ ~ In OpUnmarkAll after.
Proof. exact promising_spec. Qed.
Print Assumptions C26_promising.

(** The vehicle types' offsets are where the search solution keeps the type's routes. *)
Theorem C26_offsets : forall d,
  map fst (veh_order (p_vehicles d) 0 0) = seq 0 (length (p_vehicles d)) /\
  forall t o, In (t, o) (veh_order (p_vehicles d) 0 0) ->
    (t < length (p_vehicles d))%nat /\
    o = fold_right Nat.add 0%nat (map v_numAvailable (firstn t (p_vehicles d))).
Proof.
  intros d. destruct (veh_order_spec (p_vehicles d) 0 0) as [H1 H2]. split; [exact H1|].
  intros t o H. apply H2 in H as [H ->]. rewrite Nat.sub_0_r. split; [lia|reflexivity].
Qed.
Print Assumptions C26_offsets.

(** Not checked: that the keys and the neighbours exist. *)
Theorem C26_unknown_refuted : exists d nb s k l,
  make_space d nb = Ok s /\ In (k, l) nb /\ ~ visit_known d k /\
  exists a, In a (activity_order d) /\ neighbours_of s a = Err OutOfRange.
Proof.
  exists sample, [(AClient 0, []); (AClient 1, []); (AClient 2, []); (AClient 4, [AClient 9]); (APickup 0, [])].
  eexists. exists (AClient 4), [AClient 9].
  split; [reflexivity|]. split; [cbn; auto|]. split; [intros [_ H]; cbn in H; lia|].
  exists (AClient 3). split; [cbn; auto|reflexivity].
Qed.
Print Assumptions C26_unknown_refuted.

Definition sNb : neighbours := compute_neighbours sample sPar.
Example sample_space : exists s, make_space sample sNb = Ok s /\
  is_promising (space_run s [OpMark (AClient 3); OpMarkAll; OpUnmarkAll; OpMarkNode [ADepot 0; AClient 2; APickup 0; AClient 0; ADepot 0] 1]) (ADelivery 0) = true /\
  is_promising (space_run s [OpMark (AClient 3); OpMarkAll; OpUnmarkAll; OpMarkNode [ADepot 0; AClient 2; APickup 0; AClient 0; ADepot 0] 1]) (AClient 3) = false.
Proof. eexists. split; [vm_compute; reflexivity|]. split; vm_compute; reflexivity. Qed.
Example sample_ops_known :
  Forall (op_known sample) [OpMark (AClient 3); OpMarkAll; OpUnmarkAll; OpMarkNode [ADepot 0; AClient 2; APickup 0; AClient 0; ADepot 0] 1].
Proof.
  repeat constructor; try (cbn; lia).
  - destruct H as [<-|[<-|[]]]; reflexivity.
  - destruct H as [<-|[<-|[]]]; cbn; unfold p_numClients, p_numShipments; cbn; lia.
Qed.
