(** C46, continued: hash values. *)
From Coq Require Import Permutation String List.
From Verif Require Import Base DurationSegment Data DataCtor LoadSegment Valid Route RouteSpec Cost Solution SolutionFacts SolutionFacts2 Equal ActivityText Sample.
Import ListNotations.
Local Open Scope Z_scope.
Notation length := List.length.

(** Solution.h:292-309; std::hash of an int64 is the value as a size_t. *)
Definition hash_solution (s : solution) : Z :=
  let w x := x mod (SIZE_MAX + 1) in
  let hash := w (Z.of_nat (length (so_routes s))) in
  let hash := w (hash * 257 + w (so_uncollected s)) in
  let hash := w (hash * 257 + w (so_distance s)) in
  let hash := w (hash * 257 + w (so_duration s)) in
  w (hash * 257 + w (so_timeWarp s)).

(** Equal solutions of the same instance have equal hash values. *)
Theorem C46_hash : forall d a b s t, groups_nodup d -> groups_known d ->
  Forall (built d) a -> Forall (built d) b -> make_solution d a = Ok s -> make_solution d b = Ok t ->
  solution_eqb s t = true -> hash_solution s = hash_solution t.
Proof.
  intros d a b s t Hg Hk Ha Hb Hs Ht E.
  pose proof (proj1 (solution_eqb_spec d a b s t Hg Hk Ha Hb Hs Ht) E) as P. apply (keys_perm d a b Ha Hb) in P.
  destruct (partition d a Ha Hg Hk s Hs) as (Ra & _ & _ & _ & _ & _ & _ & _ & _ & _ & P1 & _ & Q1).
  destruct (partition d b Hb Hg Hk t Ht) as (Rb & _ & _ & _ & _ & _ & _ & _ & _ & _ & P2 & _ & Q2).
  assert (Ep : so_prizes s = so_prizes t).
  { rewrite P1, P2. apply zsum_perm, Permutation_map. unfold plan. apply Permutation_flat_map. exact P. }
  unfold solution_eqb in E. rewrite !Bool.andb_true_iff, !Z.eqb_eq in E. destruct E as (((((((E1 & E2) & _) & _) & E3) & _) & _) & _).
  unfold hash_solution. rewrite Ra, Rb, (Permutation_length P), E1, E2, E3. replace (so_uncollected t) with (so_uncollected s) by lia. reflexivity.
Qed.
Print Assumptions C46_hash.

(** Not so for solutions of different instances: == does not compare prizes, the hash value depends on them. *)
Definition prize_data (prize : Z) : pdata :=
  mk_pdata [mk_location 0 0 EmptyString; mk_location 1 0 EmptyString] [mk_client 1 0 0 100 [] [] 0 prize false None EmptyString] [mk_depot 0 0 100 0 EmptyString]
    [mk_vehicle 1 0 0 [] 0 100 MAXV MAXV 0 1 0 0 100 [] [] 0 0 0 MAXV EmptyString] [mk_matrix 2 2 [0; 5; 5; 0]] [mk_matrix 2 2 [0; 5; 5; 0]] [] [].
Definition accepted (d : pdata) : Prop :=
  make_pdata (p_locations d) (p_clients d) (p_depots d) (p_vehicles d) (p_dists d) (p_durs d) (p_groups d) (p_shipments d) = Ok d.
Theorem C46_hash_refuted : exists d d' s t, accepted d /\ accepted d' /\ make_solution d [] = Ok s /\ make_solution d' [] = Ok t /\
  solution_eqb s t = true /\ hash_solution s <> hash_solution t.
Proof.
  exists (prize_data 3), (prize_data 4). do 2 eexists. split; [vm_compute; reflexivity|]. split; [vm_compute; reflexivity|].
  split; [vm_compute; reflexivity|]. split; [vm_compute; reflexivity|]. split; [vm_compute; reflexivity|vm_compute; discriminate].
Qed.
Print Assumptions C46_hash_refuted.

(** A case: two solutions with their routes in another order. *)
Example C46_hash_case : groups_nodup sample /\ groups_known sample /\ exists r1 r2 s t,
  make_route sample [AClient 0; APickup 0; ADelivery 0; ADepot 1; AClient 1] 0 = Ok r1 /\
  make_route sample [AClient 3] 1 = Ok r2 /\
  make_solution sample [r1; r2] = Ok s /\ make_solution sample [r2; r1] = Ok t /\
  solution_eqb s t = true /\ hash_solution s <> hash_solution (mk_solution [] [] 0 0 0 0 0 0 0 0 0 0 0 [] 0 0 0 0).
Proof.
  split; [vm_compute; repeat constructor; cbn; intuition discriminate|]. split; [repeat constructor; cbn; lia|].
  do 4 eexists. split; [vm_compute; reflexivity|]. split; [vm_compute; reflexivity|].
  split; [vm_compute; reflexivity|]. split; [vm_compute; reflexivity|]. split; [vm_compute; reflexivity|vm_compute; discriminate].
Qed.
