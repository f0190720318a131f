(** Equality of routes and solutions. *)
From Coq Require Import Permutation.
From Verif Require Import Base DurationSegment Data LoadSegment Valid Route RouteSpec Cost Solution
  SolutionFacts SolutionFacts2.

(** std::is_permutation, by its specification (some rearrangement is elementwise equal); [eqb] is
    an equivalence here. *)
Fixpoint remove_first {A} (eqb : A -> A -> bool) (x : A) (l : list A) : option (list A) :=
  match l with
  | [] => None
  | y :: more => if eqb x y then Some more
                 else match remove_first eqb x more with None => None | Some l => Some (y :: l) end
  end.
Fixpoint is_permutation {A} (eqb : A -> A -> bool) (a b : list A) : bool :=
  match a with
  | [] => match b with [] => true | _ => false end
  | x :: a' => match remove_first eqb x b with None => false | Some b' => is_permutation eqb a' b' end
  end.

(** Solution.cpp:134-155 *)
Definition solution_eqb (a b : solution) : bool :=
  (so_distance a =? so_distance b) && (so_duration a =? so_duration b)
  && (so_distanceCost a =? so_distanceCost b) && (so_durationCost a =? so_durationCost b)
  && (so_timeWarp a =? so_timeWarp b)
  && (so_numClients a =? so_numClients b)%nat && (so_numShipments a =? so_numShipments b)%nat
  && is_permutation route_eqb (so_routes a) (so_routes b).

(** ** Facts *)
Lemma a_eqb_eq a b : a_eqb a b = true <-> a = b.
Proof.
  destruct a, b; cbn; try (split; discriminate); rewrite Nat.eqb_eq; split; congruence.
Qed.
Lemma sched_eqb_eq a b : sched_eqb a b = true <-> a = b.
Proof.
  unfold sched_eqb. rewrite !Bool.andb_true_iff, a_eqb_eq, Nat.eqb_eq, !Z.eqb_eq.
  destruct a, b; cbn. split; [intros (((((-> & ->) & ->) & ->) & ->) & ->); reflexivity|intros [= -> -> -> -> -> ->]; auto 10].
Qed.
Lemma list_eqb_eq {A} (eqb : A -> A -> bool) : (forall x y, eqb x y = true <-> x = y) ->
  forall a b, list_eqb eqb a b = true <-> a = b.
Proof.
  intros H. induction a as [|x a IH]; intros [|y b]; cbn; try (split; congruence).
  rewrite Bool.andb_true_iff, H, IH. split; [intros [-> ->]; reflexivity|intros [= -> ->]; auto].
Qed.

Lemma remove_first_some {A} (eqb : A -> A -> bool) x l l' :
  (forall y, In y l -> eqb x y = true <-> x = y) -> remove_first eqb x l = Some l' -> Permutation l (x :: l').
Proof.
  revert l'. induction l as [|y l IH]; intros l' He; cbn; [discriminate|].
  destruct (eqb x y) eqn:E.
  - intros [= <-]. apply He in E; [|left; reflexivity]. subst. reflexivity.
  - destruct (remove_first eqb x l) as [l''|] eqn:El; [|discriminate]. intros [= <-].
    rewrite (IH l'' (fun z Hz => He z (or_intror Hz)) eq_refl). apply perm_swap.
Qed.
Lemma remove_first_in {A} (eqb : A -> A -> bool) x l :
  (forall y, In y l -> eqb x y = true <-> x = y) -> In x l -> exists l', remove_first eqb x l = Some l'.
Proof.
  induction l as [|y l IH]; intros He Hx; [destruct Hx|]. cbn.
  destruct (eqb x y) eqn:E; [eauto|].
  destruct Hx as [->|Hx]; [exfalso; rewrite (proj2 (He x (or_introl eq_refl)) eq_refl) in E; discriminate|].
  destruct (IH (fun z Hz => He z (or_intror Hz)) Hx) as [l' ->]. eauto.
Qed.
Lemma is_permutation_spec {A} (eqb : A -> A -> bool) a : forall b,
  (forall x y, In x a -> In y b -> eqb x y = true <-> x = y) ->
  is_permutation eqb a b = true <-> Permutation a b.
Proof.
  induction a as [|x a IH]; intros b He; cbn.
  - destruct b; [split; auto|]. split; [discriminate|]. intros H. apply Permutation_nil in H. discriminate.
  - destruct (remove_first eqb x b) as [b'|] eqn:E.
    + assert (Hp : Permutation b (x :: b')) by (apply (remove_first_some eqb); [intros y Hy; apply He; [left; reflexivity|exact Hy]|exact E]).
      rewrite IH.
      * rewrite Hp. split; [intros H; constructor; exact H|apply Permutation_cons_inv].
      * intros y z Hy Hz. apply He; [right; exact Hy|]. apply (Permutation_in (l := x :: b')); [symmetry; exact Hp|right; exact Hz].
    + split; [discriminate|]. intros H. exfalso.
      destruct (remove_first_in eqb x b) as [l' El]; [intros y Hy; apply He; [left; reflexivity|exact Hy]| |congruence].
      apply (Permutation_in (l := x :: a)); [exact H|left; reflexivity].
Qed.

Definition route_key (r : route) : list activity * nat := (r_acts r, r_vehicleType r).

Lemma acts_of_sched v1 mid v2 : removelast (List.tl (ADepot v1 :: mid ++ [ADepot v2])) = mid.
Proof. cbn [List.tl]. apply removelast_last. Qed.

Lemma built_key d r : built d r -> exists mid vt, make_route d mid vt = Ok r /\ route_key r = (mid, vt).
Proof.
  intros H. destruct (built_fields d r H) as (mid & vt & _ & Hr & _ & Ev & Es). exists mid, vt. split; [exact Hr|].
  unfold route_key, r_acts. rewrite Es, Ev, acts_of_sched. reflexivity.
Qed.
Lemma key_inj d r r' : built d r -> built d r' -> route_key r = route_key r' -> r = r'.
Proof.
  intros H H' E. destruct (built_key d r H) as (mid & vt & Hr & Ek). destruct (built_key d r' H') as (mid' & vt' & Hr' & Ek').
  rewrite Ek, Ek' in E. injection E as -> ->. congruence.
Qed.

Theorem route_eqb_spec d r r' : built d r -> built d r' ->
  route_eqb r r' = true <-> r_acts r = r_acts r' /\ r_vehicleType r = r_vehicleType r'.
Proof.
  intros H H'. unfold route_eqb. rewrite !Bool.andb_true_iff, !Z.eqb_eq, Nat.eqb_eq, (list_eqb_eq _ sched_eqb_eq). split.
  - intros ((((_ & _) & _) & Ev) & Es). unfold r_acts. rewrite Es. auto.
  - intros [Ea Ev]. assert (E : r = r') by (apply (key_inj d); [assumption|assumption|unfold route_key; congruence]).
    subst. auto 10.
Qed.

Lemma route_eqb_eq d r r' : built d r -> built d r' -> route_eqb r r' = true <-> r = r'.
Proof.
  intros H H'. rewrite (route_eqb_spec d r r' H H'). split.
  - intros [E1 E2]. apply (key_inj d); [assumption|assumption|]. unfold route_key. congruence.
  - intros ->. auto.
Qed.

Lemma count_perm f a b : Permutation a b -> count_of f a = count_of f b.
Proof.
  intros H. unfold count_of. induction H; cbn in *; lia.
Qed.

Lemma keys_perm d a b : Forall (built d) a -> Forall (built d) b ->
  Permutation (map route_key a) (map route_key b) <-> Permutation a b.
Proof.
  intros Ha Hb. split; [|apply Permutation_map].
  intros H. destruct (Permutation_map_inv _ _ H) as (b' & E & Hp). symmetry in Hp.
  assert (Hb' : Forall (built d) b').
  { rewrite Forall_forall in *. intros r Hr. apply Hb. apply (Permutation_in (l := b')); assumption. }
  transitivity b'; [|exact Hp]. clear Hp H Hb. revert b' E Hb'.
  induction Ha as [|r l Hr Hl IH]; intros [|r' b'] E Hb'; try discriminate; [reflexivity|].
  inversion Hb'; subst. cbn [map] in E. injection E as E1 E2 E3.
  assert (r = r') by (apply (key_inj d); [assumption|assumption|unfold route_key; congruence]). subst.
  constructor. apply IH; assumption.
Qed.

(** Solutions of the same data are equal exactly when they have the same routes, in any order. *)
Theorem solution_eqb_spec d a b s t : groups_nodup d -> groups_known d ->
  Forall (built d) a -> Forall (built d) b -> make_solution d a = Ok s -> make_solution d b = Ok t ->
  solution_eqb s t = true <-> Permutation (map route_key a) (map route_key b).
Proof.
  intros Hg Hk Ha Hb Hs Ht.
  destruct (sol_inv d a Ha Hg Hk s Hs) as (_ & cv & sv & Es & _ & _).
  destruct (sol_inv d b Hb Hg Hk t Ht) as (_ & cv' & sv' & Et & _ & _).
  rewrite (keys_perm d a b Ha Hb).
  assert (Hp : is_permutation route_eqb a b = true <-> Permutation a b).
  { apply is_permutation_spec. intros x y Hx Hy. rewrite Forall_forall in Ha, Hb. apply (route_eqb_eq d); auto. }
  unfold solution_eqb. rewrite Es, Et. unfold the_solution.
  cbn [so_distance so_duration so_distanceCost so_durationCost so_timeWarp so_numClients so_numShipments so_routes].
  rewrite !Bool.andb_true_iff, Hp. split; [tauto|]. intros H.
  assert (Hsum : forall f, sum_of f a = sum_of f b) by (intros f; unfold sum_of; apply zsum_perm; apply Permutation_map; exact H).
  rewrite !Z.eqb_eq, !Nat.eqb_eq, !Hsum, !(count_perm _ a b H). auto 10.
Qed.
