(** Model of the node bookkeeping in pyvrp/cpp/search/Route.{h,cpp}: routes hold pointers to nodes
    that live elsewhere (clients and shipments, owned by the search solution) or in the route's own
    [depots_] vector, whose elements move when the vector grows or shrinks.  Undefined behaviour
    (dereferencing a dangling pointer, an index out of range) is explicit. *)
From Verif Require Import Base DurationSegment Data SearchSpace.
Local Open Scope nat_scope.

(** search/Route.h:134-141: Node. *)
Record node := mk_node { n_act : activity; n_pos : nat; n_trip : nat; n_route : option nat }.

(** A Node*: the node of a client, pickup or delivery (search/Solution.h:42-44), or the element [k] of a
    depots vector that was allocated at address [base]. *)
Inductive ptr := PV (a : activity) | PD (base k : nat).

(** search/Route.h:321-359.  [sr_synced] are the activities at the time of the last update(): all other
    fields are functions of it, see SearchRoute.v. *)
Record sroute := mk_sroute {
  sr_veh : vehicle;
  sr_base : nat;
  sr_cap : nat;
  sr_depots : list node;
  sr_nodes : list ptr;
  sr_synced : list activity }.

(** All nodes and routes; [hp_fresh] is an address that has never been used. *)
Record heap := mk_heap { hp_visits : activity -> node; hp_routes : list sroute; hp_fresh : nat }.

Definition dummy_sroute := mk_sroute dummy_vehicle 0 0 [] [] [].
Definition sroute_at (s : heap) (r : nat) : sroute := nth r (hp_routes s) dummy_sroute.
Definition set_sroute (s : heap) (r : nat) (x : sroute) : heap :=
  mk_heap (hp_visits s) (upd (hp_routes s) r x) (hp_fresh s).
Definition with_nodes (x : sroute) (nodes : list ptr) : sroute :=
  mk_sroute (sr_veh x) (sr_base x) (sr_cap x) (sr_depots x) nodes (sr_synced x).
Definition with_depots (x : sroute) (depots : list node) : sroute :=
  mk_sroute (sr_veh x) (sr_base x) (sr_cap x) depots (sr_nodes x) (sr_synced x).
Definition with_memory (x : sroute) (base cap : nat) : sroute :=
  mk_sroute (sr_veh x) base cap (sr_depots x) (sr_nodes x) (sr_synced x).
Definition with_synced (x : sroute) (synced : list activity) : sroute :=
  mk_sroute (sr_veh x) (sr_base x) (sr_cap x) (sr_depots x) (sr_nodes x) synced.

(** Dereferencing a pointer held by route [r]. *)
Definition get (s : heap) (r : nat) (p : ptr) : option node :=
  match p with
  | PV a => Some (hp_visits s a)
  | PD b k => if b =? sr_base (sroute_at s r) then nth_error (sr_depots (sroute_at s r)) k else None
  end.
Definition put (s : heap) (r : nat) (p : ptr) (n : node) : heap :=
  match p with
  | PV a => mk_heap (fun b => if a_eqb b a then n else hp_visits s b) (hp_routes s) (hp_fresh s)
  | PD b k => set_sroute s r (with_depots (sroute_at s r) (upd (sr_depots (sroute_at s r)) k n))
  end.

(** search/Route.cpp:18-30: assign and unassign. *)
Definition n_assign (n : node) (r pos trip : nat) : node := mk_node (n_act n) pos trip (Some r).
Definition n_unassign (n : node) : node := mk_node (n_act n) 0 0 None.

(** search/Route.h:709-722: a depot that is neither the start nor the end depot of its route. *)
Definition p_isReload (s : heap) (p : ptr) (n : node) : bool :=
  a_isDepot (n_act n) &&
  match n_route n, p with
  | Some r, PD b k => negb ((b =? sr_base (sroute_at s r)) && (k <? 2))
  | _, _ => true
  end.

(** search/Route.cpp:119-124 and 153-158: renumbering the nodes from position [after] on. *)
Fixpoint renumber (s : heap) (r : nat) (trip : nat -> nat) (after : nat) (ps : list ptr) : option heap :=
  match ps with
  | [] => Some s
  | p :: more =>
      match get s r p with
      | None => None
      | Some n => renumber (put s r p (mk_node (n_act n) after (trip (n_trip n)) (n_route n))) r trip (S after) more
      end
  end.

(** Loops of the form [for (auto &depot : depots) nodes[depot.pos()] = &depot], with pointers into
    the allocation [base], starting at index [k]. *)
Fixpoint relink (base k : nat) (depots : list node) (nodes : list ptr) : list ptr :=
  match depots with
  | [] => nodes
  | n :: more => relink base (S k) more (upd nodes (n_pos n) (PD base k))
  end.

Definition insert_at {A} (i : nat) (x : A) (l : list A) : list A := firstn i l ++ x :: skipn i l.
Definition remove_at {A} (i : nat) (l : list A) : list A := firstn i l ++ skipn (S i) l.

(** search/Route.cpp:90-116: taking a copy of a depot into the depots vector. *)
Definition take_depot (s : heap) (r : nat) (a : activity) : heap * ptr :=
  let x := sroute_at s r in
  let '(x, fresh) :=
    if length (sr_depots x) =? sr_cap x
    then let b := hp_fresh s in
         (with_nodes (with_memory x b (S (sr_cap x))) (relink b 0 (sr_depots x) (sr_nodes x)), S b)
    else (x, hp_fresh s) in
  let x' := with_depots x (sr_depots x ++ [mk_node a 0 0 None]) in
  (mk_heap (hp_visits s) (upd (hp_routes s) r x') fresh, PD (sr_base x) (length (sr_depots x))).

(** search/Route.cpp:90-129: insert the node of a client, pickup or delivery, or a copy of a depot node.
    [None] is undefined behaviour; the flag tells whether std::invalid_argument was thrown. *)
Definition route_insert (s : heap) (r idx : nat) (a : activity) : option (heap * bool) :=
  let '(s, p) := if a_isDepot a then take_depot s r a else (s, PV a) in
  let x := sroute_at s r in
  if (v_maxTrips (sr_veh x) <? Z.of_nat (length (sr_depots x) - 1))%Z then Some (s, true)
  else
    let nodes := insert_at idx p (sr_nodes x) in
    let s := set_sroute s r (with_nodes x nodes) in
    match nth_error nodes (idx - 1) with
    | None => None
    | Some q =>
        match get s r q, get s r p with
        | Some prev, Some n =>
            let s := put s r p (n_assign n r idx (n_trip prev)) in
            match renumber s r (if a_isDepot a then S else id) idx (skipn idx nodes) with
            | Some s => Some (s, false)
            | None => None
            end
        | _, _ => None
        end
    end.

(** search/Route.cpp:133-163: remove. *)
Definition route_remove (s : heap) (r idx : nat) : option heap :=
  let x := sroute_at s r in
  match nth_error (sr_nodes x) idx with
  | None => None
  | Some p =>
      match get s r p with
      | None => None
      | Some n =>
          let isDepot := p_isReload s p n in
          let s :=
            match isDepot, p with
            | true, PD b k =>
                let depots := remove_at k (sr_depots x) in
                set_sroute s r (with_nodes (with_depots x depots)
                                  (relink b k (skipn k depots) (sr_nodes x)))
            | _, _ => put s r p (n_unassign n)
            end in
          let x := sroute_at s r in
          let nodes := remove_at idx (sr_nodes x) in
          renumber (set_sroute s r (with_nodes x nodes)) r (if isDepot then pred else id) idx (skipn idx nodes)
      end
  end.

(** search/Route.cpp:165-187: swap two nodes that are not depots; [a] and [b] name the nodes. *)
Definition link_node (s : heap) (n : node) (p : ptr) : heap :=
  match n_route n with
  | None => s
  | Some r => set_sroute s r (with_nodes (sroute_at s r) (upd (sr_nodes (sroute_at s r)) (n_pos n) p))
  end.
Definition route_swap (s : heap) (a b : activity) : heap :=
  let na := hp_visits s a in
  let nb := hp_visits s b in
  let s := link_node s na (PV b) in
  let s := link_node s nb (PV a) in
  put (put s 0 (PV a) (mk_node (n_act na) (n_pos nb) (n_trip nb) (n_route nb)))
      0 (PV b) (mk_node (n_act nb) (n_pos na) (n_trip na) (n_route na)).

(** search/Route.cpp:62-86: clear. *)
Fixpoint unassign_all (s : heap) (r : nat) (ps : list ptr) : option heap :=
  match ps with
  | [] => Some s
  | p :: more =>
      match get s r p with
      | None => None
      | Some n =>
          let s := match n_route n with
                   | Some r' => if r' =? r then put s r p (n_unassign n) else s
                   | None => s
                   end in
          unassign_all s r more
      end
  end.
Definition route_clear (s : heap) (r : nat) : option heap :=
  let x := sroute_at s r in
  if length (sr_nodes x) =? 2 then Some s
  else
    match unassign_all s r (sr_nodes x) with
    | None => None
    | Some s =>
        let v := sr_veh x in
        let grow := sr_cap x <? 2 in
        let base := if grow then hp_fresh s else sr_base x in
        let depots := [mk_node (ADepot (v_start v)) 0 0 (Some r); mk_node (ADepot (v_end v)) 1 1 (Some r)] in
        Some (mk_heap (hp_visits s)
                (upd (hp_routes s) r
                   (mk_sroute v base (Nat.max (sr_cap x) 2) depots [PD base 0; PD base 1] []))
                (if grow then S (hp_fresh s) else hp_fresh s))
    end.

(** The activities of a route, depots included; those between start and end depot. *)
Definition p_act (s : heap) (r : nat) (p : ptr) : activity :=
  match get s r p with Some n => n_act n | None => ADepot 0 end.
Definition acts (s : heap) (r : nat) : list activity := map (p_act s r) (sr_nodes (sroute_at s r)).
Definition mid_of (s : heap) (r : nat) : list activity := removelast (List.tl (acts s r)).

(** search/Route.cpp:189-407: update(), which makes all statistics follow the nodes. *)
Definition route_update (s : heap) (r : nat) : heap :=
  set_sroute s r (with_synced (sroute_at s r) (mid_of s r)).

(** search/Route.cpp:32-44 and search/Solution.cpp:139-157: construction; the order of allocation is
    irrelevant. *)
Definition new_route (r : nat) (v : vehicle) : sroute :=
  mk_sroute v r 2
    [mk_node (ADepot (v_start v)) 0 0 (Some r); mk_node (ADepot (v_end v)) 1 1 (Some r)]
    [PD r 0; PD r 1] [].
Fixpoint new_routes (r : nat) (vs : list vehicle) : list sroute :=
  match vs with [] => [] | v :: more => new_route r v :: new_routes (S r) more end.
Definition new_heap (vs : list vehicle) : heap :=
  mk_heap (fun a => mk_node a 0 0 None) (new_routes 0 vs) (length vs).

(** ** Invariant *)
Definition isPD (p : ptr) : bool := match p with PD _ _ => true | PV _ => false end.
(** The trip of position [i]: depots passed, the start depot excluded. *)
Definition trip_at (nodes : list ptr) (i : nat) : nat := length (filter isPD (firstn i (List.tl nodes))).

Record route_ok (s : heap) (r : nat) : Prop := mk_route_ok {
  ok_start : nth_error (sr_nodes (sroute_at s r)) 0 = Some (PD (sr_base (sroute_at s r)) 0);
  ok_end : nth_error (sr_nodes (sroute_at s r)) (length (sr_nodes (sroute_at s r)) - 1)
           = Some (PD (sr_base (sroute_at s r)) 1);
  ok_depots : forall k n, nth_error (sr_depots (sroute_at s r)) k = Some n ->
    nth_error (sr_nodes (sroute_at s r)) (n_pos n) = Some (PD (sr_base (sroute_at s r)) k) /\
    n_route n = Some r /\ a_isDepot (n_act n) = true /\ n_trip n = trip_at (sr_nodes (sroute_at s r)) (n_pos n);
  ok_nodes : forall i p, nth_error (sr_nodes (sroute_at s r)) i = Some p ->
    match p with
    | PV a => a_isDepot a = false
    | PD b k => b = sr_base (sroute_at s r) /\
                exists n, nth_error (sr_depots (sroute_at s r)) k = Some n /\ n_pos n = i
    end;
  ok_ends : map n_act (firstn 2 (sr_depots (sroute_at s r)))
            = [ADepot (v_start (sr_veh (sroute_at s r))); ADepot (v_end (sr_veh (sroute_at s r)))];
  ok_cap : length (sr_depots (sroute_at s r)) <= sr_cap (sroute_at s r);
  ok_trips : (Z.of_nat (length (sr_depots (sroute_at s r)) - 1) <= v_maxTrips (sr_veh (sroute_at s r)))%Z }.

Record heap_ok (s : heap) : Prop := mk_heap_ok {
  hk_routes : forall r, r < length (hp_routes s) -> route_ok s r;
  hk_acts : forall a, n_act (hp_visits s a) = a;
  hk_assigned : forall a r, n_route (hp_visits s a) = Some r ->
    r < length (hp_routes s) /\ nth_error (sr_nodes (sroute_at s r)) (n_pos (hp_visits s a)) = Some (PV a) /\
    n_trip (hp_visits s a) = trip_at (sr_nodes (sroute_at s r)) (n_pos (hp_visits s a));
  hk_free : forall a, n_route (hp_visits s a) = None -> n_pos (hp_visits s a) = 0 /\ n_trip (hp_visits s a) = 0 }.

(** All nodes of the route know that they are in it.  While a solution is being loaded, a route
    that has not been reached yet may still point to nodes that are in another route by now. *)
Definition strict (s : heap) (r : nat) : Prop :=
  forall i a, nth_error (sr_nodes (sroute_at s r)) i = Some (PV a) ->
    n_route (hp_visits s a) = Some r /\ n_pos (hp_visits s a) = i.

(** ** Facts *)

(** *** Lists *)
Lemma upd_len {A} (l : list A) i x : length (upd l i x) = length l.
Proof. revert i; induction l as [|y l IH]; intros [|i]; cbn; try reflexivity. rewrite IH; reflexivity. Qed.
Lemma upd_nth_err {A} (l : list A) : forall i j x, i < length l ->
  nth_error (upd l i x) j = if i =? j then Some x else nth_error l j.
Proof.
  induction l as [|y l IH]; intros i j x H; cbn in H; [lia|]. destruct i as [|i], j as [|j]; cbn; try reflexivity.
  apply IH. lia.
Qed.
Lemma upd_oob {A} (l : list A) : forall i x, length l <= i -> upd l i x = l.
Proof. induction l as [|y l IH]; intros [|i] x H; cbn in *; try reflexivity; [lia|]. rewrite IH by lia. reflexivity. Qed.

Lemma set_at s r x r' : r < length (hp_routes s) ->
  sroute_at (set_sroute s r x) r' = if r =? r' then x else sroute_at s r'.
Proof.
  intros H. unfold sroute_at, set_sroute; cbn [hp_routes].
  destruct (Nat.eqb_spec r r') as [->|Hne].
  - apply nth_error_nth. rewrite upd_nth_err, Nat.eqb_refl by assumption. reflexivity.
  - destruct (Nat.lt_ge_cases r' (length (hp_routes s))) as [H'|H'].
    + apply nth_error_nth. rewrite upd_nth_err by assumption. rewrite (proj2 (Nat.eqb_neq _ _) Hne).
      apply nth_error_nth'. assumption.
    + rewrite !nth_overflow; [reflexivity|assumption|rewrite upd_len; assumption].
Qed.

Lemma insert_at_nth {A} (l : list A) i x j : i <= length l ->
  nth_error (insert_at i x l) j = if j <? i then nth_error l j else if j =? i then Some x else nth_error l (j - 1).
Proof.
  intros H. unfold insert_at. assert (L : length (firstn i l) = i) by (apply firstn_length_le, H).
  destruct (Nat.ltb_spec j i) as [Hj|Hj].
  - rewrite nth_error_app1 by lia. rewrite <- (firstn_skipn i l) at 2. rewrite nth_error_app1 by lia. reflexivity.
  - rewrite nth_error_app2 by lia. rewrite L. destruct (Nat.eqb_spec j i) as [->|Hne].
    + rewrite Nat.sub_diag. reflexivity.
    + destruct (j - i) as [|m] eqn:E; [lia|]. cbn [nth_error].
      rewrite <- (firstn_skipn i l) at 2. rewrite nth_error_app2 by lia. rewrite L. f_equal. lia.
Qed.
Lemma insert_at_len {A} (l : list A) i x : i <= length l -> length (insert_at i x l) = S (length l).
Proof. intros H. unfold insert_at. rewrite app_length. cbn. rewrite firstn_length, skipn_length. lia. Qed.
Lemma remove_at_nth {A} (l : list A) i j : i < length l ->
  nth_error (remove_at i l) j = if j <? i then nth_error l j else nth_error l (S j).
Proof.
  intros H. unfold remove_at. assert (L : length (firstn i l) = i) by (apply firstn_length_le; lia).
  destruct (Nat.ltb_spec j i) as [Hj|Hj].
  - rewrite nth_error_app1 by lia. rewrite <- (firstn_skipn i l) at 2. rewrite nth_error_app1 by lia. reflexivity.
  - rewrite nth_error_app2 by lia. rewrite L.
    rewrite <- (firstn_skipn (S i) l) at 2. rewrite nth_error_app2 by (rewrite firstn_length_le; lia).
    rewrite firstn_length_le by lia. f_equal; lia.
Qed.
Lemma remove_at_len {A} (l : list A) i : i < length l -> length (remove_at i l) = length l - 1.
Proof. intros H. unfold remove_at. rewrite app_length, firstn_length, skipn_length. lia. Qed.
Lemma nth_error_ext {A} (l1 l2 : list A) : (forall i, nth_error l1 i = nth_error l2 i) -> l1 = l2.
Proof.
  revert l2; induction l1 as [|x l1 IH]; intros [|y l2] H; [reflexivity|specialize (H 0); discriminate|specialize (H 0); discriminate|].
  pose proof (H 0) as H0. cbn in H0. injection H0 as ->. f_equal. apply IH. intros i. exact (H (S i)).
Qed.
Lemma nth_error_lt {A} (l : list A) i x : nth_error l i = Some x -> i < length l.
Proof. intros H. apply nth_error_Some. congruence. Qed.
Lemma skipn_nth {A} (l : list A) i j : nth_error (skipn i l) j = nth_error l (i + j).
Proof. revert i; induction l as [|x l IH]; intros [|i]; cbn; try reflexivity; [destruct j; reflexivity|apply IH]. Qed.

(** *** Relinking *)
Lemma relink_len base depots : forall k nodes, length (relink base k depots nodes) = length nodes.
Proof. induction depots as [|n more IH]; intros k nodes; cbn; [reflexivity|]. rewrite IH, upd_len. reflexivity. Qed.
Lemma relink_nth base depots : forall k nodes i,
  (forall j n, nth_error depots j = Some n -> n_pos n < length nodes) ->
  (forall j j' n n', nth_error depots j = Some n -> nth_error depots j' = Some n' -> n_pos n = n_pos n' -> j = j') ->
  (forall j n, nth_error depots j = Some n -> n_pos n = i -> nth_error (relink base k depots nodes) i = Some (PD base (k + j))) /\
  ((forall j n, nth_error depots j = Some n -> n_pos n <> i) -> nth_error (relink base k depots nodes) i = nth_error nodes i).
Proof.
  induction depots as [|n0 more IH]; intros k nodes i Hl Hinj; cbn [relink].
  - split; [intros [|j] n H; discriminate|reflexivity].
  - pose proof (Hl 0 n0 eq_refl) as L0.
    destruct (IH (S k) (upd nodes (n_pos n0) (PD base k)) i) as [I1 I2].
    { intros j n Hj. rewrite upd_len. apply (Hl (S j) n Hj). }
    { intros j j' n n' H1 H2 H3. specialize (Hinj (S j) (S j') n n' H1 H2 H3). lia. }
    split.
    + intros [|j] n Hj Hi; cbn in Hj.
      * injection Hj as ->. rewrite I2.
        -- rewrite upd_nth_err, Hi, Nat.eqb_refl by assumption. rewrite Nat.add_0_r. reflexivity.
        -- intros j' n' Hj' Hc. specialize (Hinj 0 (S j') n n' eq_refl Hj' ltac:(congruence)). discriminate.
      * rewrite (I1 j n Hj Hi). f_equal. f_equal. lia.
    + intros Hno. rewrite I2.
      * rewrite upd_nth_err by assumption. destruct (Nat.eqb_spec (n_pos n0) i) as [E|E]; [|reflexivity].
        destruct (Hno 0 n0 eq_refl E).
      * intros j n Hj. apply (Hno (S j) n Hj).
Qed.

(** *** Dereferencing *)
Lemma a_eqb_refl a : a_eqb a a = true.
Proof. apply a_eqb_eq. reflexivity. Qed.
Lemma ptr_dec (p q : ptr) : {p = q} + {p <> q}.
Proof. repeat decide equality. Qed.

(** Equal but for the contents of nodes: same pointers, bases, capacities, vehicles. *)
Definition same_shape (s s' : heap) : Prop :=
  length (hp_routes s') = length (hp_routes s) /\
  hp_fresh s' = hp_fresh s /\
  (forall r, sr_nodes (sroute_at s' r) = sr_nodes (sroute_at s r) /\ sr_base (sroute_at s' r) = sr_base (sroute_at s r) /\
             sr_cap (sroute_at s' r) = sr_cap (sroute_at s r) /\ sr_veh (sroute_at s' r) = sr_veh (sroute_at s r) /\
             sr_synced (sroute_at s' r) = sr_synced (sroute_at s r) /\
             length (sr_depots (sroute_at s' r)) = length (sr_depots (sroute_at s r))).
Lemma shape_refl s : same_shape s s.
Proof. repeat split. Qed.
Lemma shape_trans s1 s2 s3 : same_shape s1 s2 -> same_shape s2 s3 -> same_shape s1 s3.
Proof.
  intros (A1 & A2 & A3) (B1 & B2 & B3). split; [congruence|split; [congruence|]]. intros r.
  destruct (A3 r) as (C1 & C2 & C3 & C4 & C5 & C6), (B3 r) as (D1 & D2 & D3 & D4 & D5 & D6).
  repeat split; congruence.
Qed.

Lemma put_shape s r p n : r < length (hp_routes s) -> same_shape s (put s r p n).
Proof.
  intros Hr. destruct p as [a|b k]; cbn [put]; [repeat split|].
  split; [cbn; apply upd_len|split; [reflexivity|]]. intros r'. rewrite set_at by assumption.
  destruct (Nat.eqb_spec r r') as [<-|_]; [|repeat split]. cbn. rewrite upd_len. repeat split.
Qed.
Lemma put_get_same s r p n n0 : r < length (hp_routes s) -> get s r p = Some n0 -> get (put s r p n) r p = Some n.
Proof.
  intros Hr Hg. destruct p as [a|b k]; cbn [get put] in *.
  - cbn. rewrite a_eqb_refl. reflexivity.
  - rewrite set_at, Nat.eqb_refl by assumption. cbn. destruct (b =? _); [|discriminate].
    rewrite upd_nth_err, Nat.eqb_refl by (eapply nth_error_lt; eassumption). reflexivity.
Qed.
Lemma put_get_other s r p n n0 q : r < length (hp_routes s) -> get s r p = Some n0 -> p <> q ->
  get (put s r p n) r q = get s r q.
Proof.
  intros Hr Hg Hne. destruct p as [a|b k], q as [a'|b' k']; cbn [get put] in *; try reflexivity.
  - cbn. destruct (a_eqb a' a) eqn:E; [apply a_eqb_eq in E; congruence|reflexivity].
  - rewrite set_at, Nat.eqb_refl by assumption. cbn. destruct (b =? _) eqn:Eb; [|discriminate].
    destruct (b' =? _) eqn:Eb'; [|reflexivity]. apply Nat.eqb_eq in Eb, Eb'. subst b b'.
    rewrite upd_nth_err by (eapply nth_error_lt; eassumption).
    destruct (Nat.eqb_spec k k'); [congruence|reflexivity].
Qed.
(** Seen from another route: clients and shipments are shared, depots are not. *)
Lemma put_get_route s r p n r' q : r < length (hp_routes s) -> r <> r' ->
  get (put s r p n) r' q = match q with PV a => get (put s r p n) r (PV a) | PD _ _ => get s r' q end.
Proof.
  intros Hr Hne. destruct q as [a|b k]; [reflexivity|]. destruct p as [a'|b' k']; cbn [get put]; [reflexivity|].
  rewrite set_at by assumption. rewrite (proj2 (Nat.eqb_neq _ _) Hne). reflexivity.
Qed.

Lemma put_other_route s r p n r' : r < length (hp_routes s) -> r <> r' ->
  sroute_at (put s r p n) r' = sroute_at s r'.
Proof.
  intros Hr Hne. destruct p as [a|b k]; cbn [put]; [reflexivity|]. rewrite set_at by assumption.
  rewrite (proj2 (Nat.eqb_neq _ _) Hne). reflexivity.
Qed.

(** *** Renumbering *)
Lemma renumber_spec trip r ps : forall s after, r < length (hp_routes s) -> NoDup ps ->
  (forall p, In p ps -> exists n, get s r p = Some n) ->
  exists s', renumber s r trip after ps = Some s' /\ same_shape s s' /\
  (forall j p n, nth_error ps j = Some p -> get s r p = Some n ->
     get s' r p = Some (mk_node (n_act n) (after + j) (trip (n_trip n)) (n_route n))) /\
  (forall q, ~ In q ps -> get s' r q = get s r q) /\
  (forall r', r' <> r -> sroute_at s' r' = sroute_at s r').
Proof.
  induction ps as [|p ps IH]; intros s after Hr Hnd Hget; cbn [renumber].
  - exists s. split; [reflexivity|]. split; [apply shape_refl|]. split; [intros [|j] ? ? H; discriminate|auto].
  - inversion Hnd as [|? ? Hp Hps]; subst. destruct (Hget p (or_introl eq_refl)) as [n Hn]. rewrite Hn.
    set (n' := mk_node _ _ _ _). pose proof (put_shape s r p n' Hr) as Sh.
    destruct (IH (put s r p n') (S after)) as (s' & E & Sh' & I1 & I2 & I3).
    + rewrite (proj1 Sh). assumption.
    + assumption.
    + intros q Hq. destruct (Hget q (or_intror Hq)) as [nq Hnq]. exists nq.
      rewrite (put_get_other _ _ _ _ n) by (try assumption; intros ->; contradiction). assumption.
    + exists s'. split; [exact E|]. split; [eapply shape_trans; eassumption|]. split; [|split].
      * intros [|j] q nq Hj Hq; cbn in Hj.
        -- injection Hj as <-. rewrite I2 by assumption. rewrite (put_get_same _ _ _ _ n) by assumption.
           rewrite Hn in Hq. injection Hq as <-. unfold n'. rewrite Nat.add_0_r. reflexivity.
        -- rewrite (I1 j q nq Hj).
           ++ do 2 f_equal. lia.
           ++ rewrite (put_get_other _ _ _ _ n); try assumption. intros ->. apply Hp. eapply nth_error_In; eassumption.
      * intros q Hq. rewrite I2 by (intros X; apply Hq; right; assumption).
        apply (put_get_other _ _ _ _ n); try assumption. intros ->. apply Hq. left; reflexivity.
      * intros r' Hr'. rewrite I3 by assumption. apply put_other_route; auto.
Qed.

(** *** Trips *)
Lemma tl_insert {A} (l : list A) i x : 0 < i -> i <= length l -> List.tl (insert_at i x l) = insert_at (i - 1) x (List.tl l).
Proof.
  intros H1 H2. destruct l as [|y l]; [cbn in *; lia|]. destruct i as [|i]; [lia|]. cbn. rewrite Nat.sub_0_r. reflexivity.
Qed.
Lemma tl_remove {A} (l : list A) i : 0 < i -> List.tl (remove_at i l) = remove_at (i - 1) (List.tl l).
Proof.
  intros H1. destruct l as [|y l]; [destruct i; [lia|]; destruct i; reflexivity|]. destruct i as [|i]; [lia|]. cbn. rewrite Nat.sub_0_r. reflexivity.
Qed.
Lemma count_insert {A} (f : A -> bool) x : forall (l : list A) i j, i <= length l ->
  length (filter f (firstn j (insert_at i x l)))
  = if j <=? i then length (filter f (firstn j l)) else length (filter f (firstn (j - 1) l)) + (if f x then 1 else 0).
Proof.
  induction l as [|y l IH]; intros i j H; cbn in H.
  - assert (i = 0) as -> by lia. destruct j as [|j]; [reflexivity|]. cbn. rewrite !firstn_nil. cbn.
    destruct (f x); cbn; rewrite ?firstn_nil; reflexivity.
  - destruct i as [|i].
    + destruct j as [|j]; [reflexivity|]. unfold insert_at. cbn [firstn skipn app filter Nat.leb].
      rewrite Nat.sub_succ, Nat.sub_0_r. destruct (f x); cbn [length]; lia.
    + destruct j as [|j]; [reflexivity|]. unfold insert_at in *. cbn [firstn skipn app filter].
      specialize (IH i j ltac:(lia)). cbn [Nat.leb]. rewrite Nat.sub_succ, Nat.sub_0_r.
      destruct (Nat.leb_spec j i) as [Hj|Hj].
      * destruct (f y); cbn [length]; rewrite IH; reflexivity.
      * destruct j as [|j]; [lia|]. rewrite Nat.sub_succ, Nat.sub_0_r in IH.
        destruct (f y) eqn:Ef; cbn [length]; rewrite IH; cbn [firstn filter]; rewrite Ef; reflexivity.
Qed.
Lemma trip_insert nodes i p j : 0 < i -> i < length nodes ->
  trip_at (insert_at i p nodes) j =
  if j <? i then trip_at nodes j else trip_at nodes (j - 1) + (if isPD p then 1 else 0).
Proof.
  intros H1 H2. unfold trip_at. rewrite tl_insert by lia.
  rewrite count_insert by (destruct nodes; cbn in *; lia).
  destruct (Nat.leb_spec j (i - 1)); destruct (Nat.ltb_spec j i); try lia; reflexivity.
Qed.
Lemma insert_remove {A} (l : list A) i x : nth_error l i = Some x -> l = insert_at i x (remove_at i l).
Proof.
  intros H. pose proof (nth_error_lt _ _ _ H) as L. apply nth_error_ext. intros j.
  rewrite insert_at_nth by (rewrite remove_at_len by assumption; lia).
  rewrite !remove_at_nth by assumption.
  destruct (Nat.ltb_spec j i); [destruct (Nat.ltb_spec j i); [reflexivity|lia]|].
  destruct (Nat.eqb_spec j i) as [->|]; [assumption|]. destruct (Nat.ltb_spec (j - 1) i); [lia|]. f_equal. lia.
Qed.
Lemma trip_remove nodes i p j : 0 < i -> i < length nodes - 1 -> nth_error nodes i = Some p ->
  trip_at (remove_at i nodes) j =
  if j <? i then trip_at nodes j else trip_at nodes (S j) - (if isPD p then 1 else 0).
Proof.
  intros H1 H2 Hp.
  assert (E : forall k, trip_at nodes k = trip_at (insert_at i p (remove_at i nodes)) k)
    by (intros; rewrite <- insert_remove by assumption; reflexivity).
  rewrite !E, !trip_insert by (rewrite ?remove_at_len; lia).
  destruct (Nat.ltb_spec j i); [reflexivity|]. destruct (Nat.ltb_spec (S j) i); [lia|].
  rewrite Nat.sub_succ, Nat.sub_0_r. destruct (isPD p); lia.
Qed.

(** *** Good routes *)
Definition good (s : heap) (r : nat) : Prop :=
  forall i q, nth_error (sr_nodes (sroute_at s r)) i = Some q ->
    exists n, get s r q = Some n /\ n_pos n = i /\ n_route n = Some r /\ n_trip n = trip_at (sr_nodes (sroute_at s r)) i.

(** What does not depend on the contents of nodes, except for their activities. *)
Record shape (s : heap) (r : nat) : Prop := mk_shape {
  rs_start : nth_error (sr_nodes (sroute_at s r)) 0 = Some (PD (sr_base (sroute_at s r)) 0);
  rs_end : nth_error (sr_nodes (sroute_at s r)) (length (sr_nodes (sroute_at s r)) - 1)
           = Some (PD (sr_base (sroute_at s r)) 1);
  rs_ptr : forall p, In p (sr_nodes (sroute_at s r)) ->
    match p with
    | PV a => a_isDepot a = false
    | PD b k => b = sr_base (sroute_at s r) /\ k < length (sr_depots (sroute_at s r))
    end;
  rs_all : forall k, k < length (sr_depots (sroute_at s r)) -> In (PD (sr_base (sroute_at s r)) k) (sr_nodes (sroute_at s r));
  rs_acts : forall n, In n (sr_depots (sroute_at s r)) -> a_isDepot (n_act n) = true;
  rs_ends : map n_act (firstn 2 (sr_depots (sroute_at s r)))
            = [ADepot (v_start (sr_veh (sroute_at s r))); ADepot (v_end (sr_veh (sroute_at s r)))];
  rs_cap : length (sr_depots (sroute_at s r)) <= sr_cap (sroute_at s r);
  rs_trips : (Z.of_nat (length (sr_depots (sroute_at s r)) - 1) <= v_maxTrips (sr_veh (sroute_at s r)))%Z }.

Lemma ok_shape s r : route_ok s r -> shape s r.
Proof.
  intros [H1 H2 H3 H4 H5 H6 H7]. constructor; try assumption.
  - intros p Hp. apply In_nth_error in Hp as [i Hi]. specialize (H4 i p Hi). destruct p as [a|b k]; [assumption|].
    destruct H4 as (-> & n & Hn & _). split; [reflexivity|eapply nth_error_lt; eassumption].
  - intros k Hk. destruct (nth_error (sr_depots (sroute_at s r)) k) as [n|] eqn:E; [|apply nth_error_None in E; lia].
    destruct (H3 k n E) as [H _]. eapply nth_error_In; eassumption.
  - intros n Hn. apply In_nth_error in Hn as [k Hk]. apply (H3 k n Hk).
Qed.
Lemma ok_good s r : heap_ok s -> route_ok s r -> strict s r -> good s r.
Proof.
  intros Hs [H1 H2 H3 H4 H5 H6 H7] Hstr i q Hq. specialize (H4 i q Hq). destruct q as [a|b k].
  - destruct (Hstr i a Hq) as [S1 S2]. destruct (hk_assigned s Hs a r S1) as (A1 & A2 & A3).
    exists (hp_visits s a). split; [reflexivity|]. split; [assumption|]. split; [assumption|]. rewrite A3, S2. reflexivity.
  - destruct H4 as (-> & n & Hn & Hp). exists n. cbn [get]. rewrite Nat.eqb_refl. split; [assumption|].
    destruct (H3 k n Hn) as (D1 & D2 & D3 & D4). split; [assumption|]. split; [assumption|]. rewrite D4, Hp. reflexivity.
Qed.
Lemma good_ok s r : shape s r -> good s r -> route_ok s r.
Proof.
  intros [H1 H2 H3 H4 H5 H6 H7 H8] Hg. constructor; try assumption.
  - intros k n Hk. pose proof (H4 k (nth_error_lt _ _ _ Hk)) as Hin. apply In_nth_error in Hin as [i Hi].
    destruct (Hg i _ Hi) as (n' & G1 & G2 & G3 & G4). cbn [get] in G1. rewrite Nat.eqb_refl, Hk in G1. injection G1 as <-.
    subst i. split; [assumption|]. split; [assumption|]. split; [apply H5; eapply nth_error_In; eassumption|assumption].
  - intros i p Hp. pose proof (H3 p (nth_error_In _ _ Hp)) as H. destruct p as [a|b k]; [assumption|].
    destruct H as [-> Hk]. split; [reflexivity|]. destruct (Hg i _ Hp) as (n & G1 & G2 & _). cbn [get] in G1.
    rewrite Nat.eqb_refl in G1. eauto.
Qed.
Lemma good_nodup s r : good s r -> NoDup (sr_nodes (sroute_at s r)).
Proof.
  intros Hg. apply NoDup_nth_error. intros i j Hi E. destruct (nth_error (sr_nodes (sroute_at s r)) i) as [q|] eqn:Ei.
  - destruct (Hg i q Ei) as (n & G1 & G2 & _). destruct (Hg j q (eq_sym E)) as (n' & G1' & G2' & _). congruence.
  - apply nth_error_None in Ei. lia.
Qed.
Lemma good_strict s r : good s r -> strict s r.
Proof. intros Hg i a Hi. destruct (Hg i _ Hi) as (n & G1 & G2 & G3 & _). cbn in G1. injection G1 as <-. auto. Qed.

(** A heap all of whose changes are in the routes [T] is fine if those are. *)
Lemma assemble s s' (T : nat -> Prop) : heap_ok s -> (forall r, {T r} + {~ T r}) ->
  length (hp_routes s') = length (hp_routes s) ->
  (forall r, ~ T r -> sroute_at s' r = sroute_at s r) ->
  (forall r, T r -> r < length (hp_routes s) /\ shape s' r /\ good s' r) ->
  (forall a, n_act (hp_visits s' a) = a) ->
  (forall a, (forall r, T r -> ~ In (PV a) (sr_nodes (sroute_at s' r))) ->
     (hp_visits s' a = hp_visits s a /\ forall r, T r -> n_route (hp_visits s a) <> Some r) \/
     (n_route (hp_visits s' a) = None /\ n_pos (hp_visits s' a) = 0 /\ n_trip (hp_visits s' a) = 0)) ->
  (forall a, (forall r, T r -> ~ In (PV a) (sr_nodes (sroute_at s' r))) \/ exists r, T r /\ In (PV a) (sr_nodes (sroute_at s' r))) ->
  heap_ok s'.
Proof.
  intros Hs HT HL Hother Htouched Hact Hrest Hdec. constructor.
  - intros r Hr. destruct (HT r) as [Hr'|Hr'].
    + destruct (Htouched r Hr') as (_ & H1 & H2). apply good_ok; assumption.
    + rewrite HL in Hr. pose proof (hk_routes s Hs r Hr) as H. destruct H as [H1 H2 H3 H4 H5 H6 H7].
      rewrite <- (Hother r Hr') in *. constructor; assumption.
  - assumption.
  - intros a r Ha. destruct (Hdec a) as [Hno|(r' & HT' & Hin)].
    + destruct (Hrest a Hno) as [[E Hn]|(E & _)]; [|congruence]. rewrite E in *.
      destruct (HT r) as [Hr'|Hr']; [destruct (Hn r Hr' Ha)|]. rewrite (Hother r Hr'), HL. apply (hk_assigned s Hs a r Ha).
    + apply In_nth_error in Hin as [i Hi]. destruct (Htouched r' HT') as (L & _ & Hg).
      destruct (Hg i _ Hi) as (n & G1 & G2 & G3 & G4). cbn in G1. injection G1 as <-.
      assert (r' = r) as -> by congruence. rewrite HL. split; [assumption|]. rewrite G2. split; assumption.
  - intros a Ha. destruct (Hdec a) as [Hno|(r' & HT' & Hin)].
    + destruct (Hrest a Hno) as [[E Hn]|(_ & E)]; [|assumption]. rewrite E in *. apply (hk_free s Hs a Ha).
    + apply In_nth_error in Hin as [i Hi]. destruct (Htouched r' HT') as (L & _ & Hg).
      destruct (Hg i _ Hi) as (n & G1 & G2 & G3 & G4). cbn in G1. injection G1 as <-. congruence.
Qed.

(** *** Inserting a pointer *)
Lemma core_insert s r idx p np : r < length (hp_routes s) -> good s r ->
  ~ In p (sr_nodes (sroute_at s r)) -> get s r p = Some np ->
  0 < idx -> idx < length (sr_nodes (sroute_at s r)) ->
  let nodes := insert_at idx p (sr_nodes (sroute_at s r)) in
  let s2 := set_sroute s r (with_nodes (sroute_at s r) nodes) in
  exists q prev s3, nth_error nodes (idx - 1) = Some q /\ get s2 r q = Some prev /\ get s2 r p = Some np /\
    renumber (put s2 r p (n_assign np r idx (n_trip prev))) r (if isPD p then S else id) idx (skipn idx nodes) = Some s3 /\
    length (hp_routes s3) = length (hp_routes s) /\ hp_fresh s3 = hp_fresh s /\
    (forall r', r' <> r -> sroute_at s3 r' = sroute_at s r') /\
    sr_nodes (sroute_at s3 r) = nodes /\ sr_base (sroute_at s3 r) = sr_base (sroute_at s r) /\
    sr_cap (sroute_at s3 r) = sr_cap (sroute_at s r) /\ sr_veh (sroute_at s3 r) = sr_veh (sroute_at s r) /\
    sr_synced (sroute_at s3 r) = sr_synced (sroute_at s r) /\
    length (sr_depots (sroute_at s3 r)) = length (sr_depots (sroute_at s r)) /\
    good s3 r /\
    (forall q n, get s r q = Some n -> exists n', get s3 r q = Some n' /\ n_act n' = n_act n) /\
    (forall q, ~ In q nodes -> get s3 r q = get s r q).
Proof.
  intros Hr Hg Hnew Hp Hi0 Hi1 nodes s2.
  assert (Hat2 : forall r', sroute_at s2 r' = if r =? r' then with_nodes (sroute_at s r) nodes else sroute_at s r')
    by (intros; apply set_at; assumption).
  assert (Hget2 : forall q, get s2 r q = get s r q).
  { intros [a|b k]; [reflexivity|]. cbn [get]. rewrite Hat2, Nat.eqb_refl. reflexivity. }
  assert (Hr2 : r < length (hp_routes s2)) by (unfold s2, set_sroute; cbn; rewrite upd_len; assumption).
  destruct (nth_error (sr_nodes (sroute_at s r)) (idx - 1)) as [q|] eqn:Eq; [|apply nth_error_None in Eq; lia].
  destruct (Hg _ _ Eq) as (prev & P1 & P2 & P3 & P4).
  assert (Enth : forall j, nth_error nodes j = if j <? idx then nth_error (sr_nodes (sroute_at s r)) j
            else if j =? idx then Some p else nth_error (sr_nodes (sroute_at s r)) (j - 1)).
  { intros j. apply insert_at_nth. lia. }
  assert (Hndn : NoDup (sr_nodes (sroute_at s r))) by (apply good_nodup; assumption).
  assert (Hnd : NoDup nodes).
  { unfold nodes, insert_at. apply NoDup_Add with (a := p) (l := sr_nodes (sroute_at s r)); [|split; assumption].
    rewrite <- (firstn_skipn idx (sr_nodes (sroute_at s r))) at 1. apply Add_app. }
  set (s2' := put s2 r p (n_assign np r idx (n_trip prev))).
  pose proof (put_shape s2 r p (n_assign np r idx (n_trip prev)) Hr2) as Sh2. fold s2' in Sh2.
  assert (Hp2 : get s2 r p = Some np) by (rewrite Hget2; assumption).
  assert (Hget2' : forall q', get s2' r q' = if ptr_dec p q' then Some (n_assign np r idx (n_trip prev)) else get s r q').
  { intros q'. unfold s2'. destruct (ptr_dec p q') as [<-|Hne].
    - apply (put_get_same _ _ _ _ np); assumption.
    - rewrite (put_get_other _ _ _ _ np) by assumption. apply Hget2. }
  destruct (renumber_spec (if isPD p then S else id) r (skipn idx nodes) s2' idx) as (s3 & E3 & Sh3 & N1 & N2 & N3).
  { rewrite (proj1 Sh2). assumption. }
  { clear - Hnd. rewrite <- (firstn_skipn idx nodes) in Hnd. induction (firstn idx nodes) as [|x l IH]; [assumption|].
    cbn in Hnd. inversion Hnd; auto. }
  { intros q' Hq'. rewrite Hget2'. destruct (ptr_dec p q') as [|Hne]; [eauto|].
    apply In_nth_error in Hq' as [j Hj]. rewrite skipn_nth, Enth in Hj.
    destruct (Nat.ltb_spec (idx + j) idx); [lia|]. destruct (Nat.eqb_spec (idx + j) idx); [congruence|].
    destruct (Hg _ _ Hj) as (n0 & G & _). eauto. }
  exists q, prev, s3. split; [rewrite Enth; destruct (Nat.ltb_spec (idx - 1) idx); [assumption|lia]|].
  split; [rewrite Hget2; assumption|]. split; [assumption|]. split; [exact E3|].
  pose proof (shape_trans _ _ _ Sh2 Sh3) as (L1 & L2 & L3).
  assert (Ln : sr_nodes (sroute_at s3 r) = nodes).
  { rewrite (proj1 (L3 r)), Hat2, Nat.eqb_refl. reflexivity. }
  split; [rewrite L1; unfold s2, set_sroute; cbn; apply upd_len|]. split; [rewrite L2; reflexivity|].
  split. { intros r' Hr'. rewrite N3 by assumption. unfold s2'. rewrite put_other_route by auto. rewrite Hat2.
    rewrite (proj2 (Nat.eqb_neq r r')) by auto. reflexivity. }
  split; [exact Ln|].
  destruct (L3 r) as (_ & K2 & K3 & K4 & K5 & K6). rewrite Hat2, Nat.eqb_refl in K2, K3, K4, K5, K6.
  split; [exact K2|]. split; [exact K3|]. split; [exact K4|]. split; [exact K5|]. split; [exact K6|].
  assert (Hin_skip : forall j q', nth_error nodes j = Some q' -> idx <= j -> nth_error (skipn idx nodes) (j - idx) = Some q').
  { intros j q' H H'. rewrite skipn_nth. replace (idx + (j - idx)) with j by lia. assumption. }
  assert (Hnot_skip : forall j q', nth_error nodes j = Some q' -> j < idx -> ~ In q' (skipn idx nodes)).
  { intros j q' H H' Hin. apply In_nth_error in Hin as [m Hm]. rewrite skipn_nth in Hm.
    assert (j = idx + m); [|lia]. eapply NoDup_nth_error; [exact Hnd|eapply nth_error_lt; eassumption|congruence]. }
  assert (Hskip_p : In p (skipn idx nodes)).
  { apply (nth_error_In _ 0). rewrite skipn_nth, Nat.add_0_r, Enth, Nat.ltb_irrefl, Nat.eqb_refl. reflexivity. }
  split; [|split].
  - intros j q' Hj. rewrite Ln in *. rewrite Enth in Hj.
    unfold nodes at 1. rewrite trip_insert by assumption.
    destruct (Nat.ltb_spec j idx) as [Lj|Lj].
    + destruct (Hg _ _ Hj) as (n & G1 & G2 & G3 & G4). exists n. split; [|auto].
      rewrite N2.
      * rewrite Hget2'. destruct (ptr_dec p q') as [<-|]; [|assumption]. destruct Hnew. eapply nth_error_In; eassumption.
      * apply (Hnot_skip j); [|assumption]. rewrite Enth, (proj2 (Nat.ltb_lt _ _)) by assumption. assumption.
    + destruct (Nat.eqb_spec j idx) as [->|Hne].
      * injection Hj as <-. eexists. split.
        { apply (N1 0 p). - rewrite skipn_nth, Nat.add_0_r, Enth, Nat.ltb_irrefl, Nat.eqb_refl. reflexivity.
          - rewrite Hget2'. destruct (ptr_dec p p); [reflexivity|contradiction]. }
        cbn [n_pos n_route n_trip n_assign]. split; [lia|]. split; [reflexivity|]. rewrite P4.
        destruct (isPD p); unfold id; lia.
      * destruct (Hg _ _ Hj) as (n & G1 & G2 & G3 & G4). eexists. split.
        { apply (N1 (j - idx) q').
          - apply Hin_skip; [|lia]. rewrite Enth, (proj2 (Nat.ltb_ge _ _)), (proj2 (Nat.eqb_neq _ _)) by lia. assumption.
          - rewrite Hget2'. destruct (ptr_dec p q') as [<-|]; [|eassumption]. destruct Hnew. eapply nth_error_In; eassumption. }
        cbn [n_pos n_route n_trip]. split; [lia|]. split; [assumption|]. rewrite G4. destruct (isPD p); unfold id; lia.
  - intros q' n Hq'. destruct (in_dec ptr_dec q' (skipn idx nodes)) as [Hin|Hin].
    + apply In_nth_error in Hin as [m Hm].
      pose proof (N1 m q') as N1'. rewrite Hget2' in N1'. destruct (ptr_dec p q') as [<-|].
      * eexists. split; [eapply N1'; [exact Hm|reflexivity]|]. cbn. congruence.
      * eexists. split; [eapply N1'; [exact Hm|eassumption]|]. reflexivity.
    + rewrite N2 by assumption. rewrite Hget2'. destruct (ptr_dec p q') as [<-|]; [contradiction|]. eauto.
  - intros q' Hq'. rewrite N2.
    + rewrite Hget2'. destruct (ptr_dec p q') as [<-|]; [|reflexivity]. destruct Hq'. unfold nodes, insert_at. apply in_or_app. right; left; reflexivity.
    + intros Hin. apply Hq'. rewrite <- (firstn_skipn idx nodes). apply in_or_app; right; assumption.
Qed.

Lemma acts_insert s s' r idx p a :
  sr_nodes (sroute_at s' r) = insert_at idx p (sr_nodes (sroute_at s r)) ->
  (forall q, In q (sr_nodes (sroute_at s r)) -> p_act s' r q = p_act s r q) -> p_act s' r p = a ->
  acts s' r = insert_at idx a (acts s r).
Proof.
  intros E H1 H2. unfold acts. rewrite E. unfold insert_at. rewrite map_app, firstn_map, skipn_map. cbn [map]. rewrite H2.
  f_equal; [|f_equal].
  - apply map_ext_in. intros q Hq. apply H1. rewrite <- (firstn_skipn idx). apply in_or_app; left; assumption.
  - apply map_ext_in. intros q Hq. apply H1. rewrite <- (firstn_skipn idx). apply in_or_app; right; assumption.
Qed.

Lemma depot_acts s s' r : sr_base (sroute_at s' r) = sr_base (sroute_at s r) ->
  length (sr_depots (sroute_at s' r)) = length (sr_depots (sroute_at s r)) ->
  (forall q n, get s r q = Some n -> exists n', get s' r q = Some n' /\ n_act n' = n_act n) ->
  map n_act (sr_depots (sroute_at s' r)) = map n_act (sr_depots (sroute_at s r)).
Proof.
  intros H1 H2 H. apply nth_error_ext. intros k. rewrite !nth_error_map.
  destruct (nth_error (sr_depots (sroute_at s r)) k) as [n|] eqn:E.
  - destruct (H (PD (sr_base (sroute_at s r)) k) n) as (n' & G1 & G2); [cbn; rewrite Nat.eqb_refl; assumption|].
    cbn in G1. rewrite H1, Nat.eqb_refl in G1. rewrite G1. cbn. congruence.
  - assert (E' : nth_error (sr_depots (sroute_at s' r)) k = None); [|rewrite E'; reflexivity].
    apply nth_error_None. apply nth_error_None in E. lia.
Qed.

(** The effect of an edit of route [r] that makes its activities [l]. *)
Record edited (s s' : heap) (r : nat) (l : list activity) : Prop := mk_edited {
  ed_ok : heap_ok s';
  ed_len : length (hp_routes s') = length (hp_routes s);
  ed_others : forall r', r' <> r -> sroute_at s' r' = sroute_at s r';
  ed_good : good s' r;
  ed_acts : acts s' r = l;
  ed_veh : sr_veh (sroute_at s' r) = sr_veh (sroute_at s r) }.

Lemma in_insert {A} i (x y : A) l : In y (insert_at i x l) <-> x = y \/ In y l.
Proof.
  unfold insert_at. rewrite <- (firstn_skipn i l) at 3. rewrite !in_app_iff. cbn. tauto.
Qed.

Theorem insert_visit s r idx a : heap_ok s -> r < length (hp_routes s) -> strict s r ->
  a_isDepot a = false -> ~ In (PV a) (sr_nodes (sroute_at s r)) ->
  0 < idx -> idx < length (sr_nodes (sroute_at s r)) ->
  exists s', route_insert s r idx a = Some (s', false) /\ edited s s' r (insert_at idx a (acts s r)) /\
    sr_nodes (sroute_at s' r) = insert_at idx (PV a) (sr_nodes (sroute_at s r)) /\
    sr_synced (sroute_at s' r) = sr_synced (sroute_at s r) /\
    (forall b, ~ In (PV b) (sr_nodes (sroute_at s' r)) -> hp_visits s' b = hp_visits s b).
Proof.
  intros Hs Hr Hstr Hd Hnew Hi0 Hi1. pose proof (hk_routes s Hs r Hr) as Hok.
  pose proof (ok_shape s r Hok) as Sh. pose proof (ok_good s r Hs Hok Hstr) as Hg.
  destruct (core_insert s r idx (PV a) (hp_visits s a) Hr Hg Hnew eq_refl Hi0 Hi1)
    as (q & prev & s3 & E1 & E2 & E3 & E4 & C1 & C2 & C3 & C4 & C5 & C6 & C7 & C8 & C9 & C10 & C11 & C12).
  unfold route_insert. rewrite Hd.
  destruct (Z.ltb_spec (v_maxTrips (sr_veh (sroute_at s r))) (Z.of_nat (length (sr_depots (sroute_at s r)) - 1))) as [L|_];
    [pose proof (rs_trips s r Sh); lia|].
  rewrite E1, E2, E3. cbn [isPD] in E4. rewrite E4. exists s3. split; [reflexivity|].
  assert (Hin : forall p, In p (sr_nodes (sroute_at s3 r)) <-> PV a = p \/ In p (sr_nodes (sroute_at s r)))
    by (intros; rewrite C4; apply in_insert).
  assert (Hv : forall b, ~ In (PV b) (sr_nodes (sroute_at s3 r)) -> hp_visits s3 b = hp_visits s b).
  { intros b Hb. specialize (C12 (PV b)). cbn [get] in C12. rewrite <- C4 in C12. specialize (C12 Hb). congruence. }
  assert (Ha3 : forall b, n_act (hp_visits s3 b) = b).
  { intros b. destruct (C11 (PV b) (hp_visits s b) eq_refl) as (n' & G & G'). cbn in G. injection G as <-.
    rewrite G'. apply (hk_acts s Hs). }
  split; [|split; [exact C4|split; [exact C8|exact Hv]]].
  constructor; try assumption.
  - apply (assemble s s3 (eq r)); try assumption.
    + intros r'. apply Nat.eq_dec.
    + intros r' H. apply C3. congruence.
    + intros r' <-. split; [assumption|]. split; [|assumption]. constructor.
      * rewrite C4, C5, insert_at_nth by lia. destruct (Nat.ltb_spec 0 idx); [apply (rs_start s r Sh)|lia].
      * rewrite C4, C5, insert_at_len, insert_at_nth by lia.
        destruct (Nat.ltb_spec (S (length (sr_nodes (sroute_at s r))) - 1) idx); [lia|].
        destruct (Nat.eqb_spec (S (length (sr_nodes (sroute_at s r))) - 1) idx); [lia|].
        rewrite Nat.sub_succ, Nat.sub_0_r. apply (rs_end s r Sh).
      * intros p Hp. apply Hin in Hp as [<-|Hp]; [assumption|]. pose proof (rs_ptr s r Sh p Hp) as H. rewrite C5, C9. exact H.
      * intros k Hk. rewrite C9 in Hk. rewrite C5. apply Hin. right. apply (rs_all s r Sh); assumption.
      * intros n Hn. apply (in_map n_act) in Hn. rewrite (depot_acts s s3 r C5 C9 C11) in Hn.
        apply in_map_iff in Hn as (n0 & <- & Hn). apply (rs_acts s r Sh n0 Hn).
      * rewrite C7, <- (rs_ends s r Sh), <- !firstn_map, (depot_acts s s3 r C5 C9 C11). reflexivity.
      * rewrite C9, C6. apply (rs_cap s r Sh).
      * rewrite C9, C7. apply (rs_trips s r Sh).
    + intros b Hb. left. split; [apply Hv, Hb; reflexivity|]. intros r' <- Hr'. apply (Hb r eq_refl). apply Hin. right.
      apply (nth_error_In _ _ (proj1 (proj2 (hk_assigned s Hs b r Hr')))).
    + intros b. destruct (in_dec ptr_dec (PV b) (sr_nodes (sroute_at s3 r))); [right; eauto|left; intros r' <-; assumption].
  - apply (acts_insert s s3 r idx (PV a) a C4).
    + intros p Hp. unfold p_act. destruct (get s r p) as [n|] eqn:Ep.
      * destruct (C11 p n Ep) as (n' & -> & ->). reflexivity.
      * apply In_nth_error in Hp as [i Hi]. destruct (Hg i p Hi) as (n & G & _). congruence.
    + cbn. apply Ha3.
Qed.

(** *** Inserting a depot *)
Definition rebase (b : nat) (p : ptr) : ptr := match p with PD _ k => PD b k | PV a => PV a end.

Lemma rebase_trip b nodes i : trip_at (map (rebase b) nodes) i = trip_at nodes i.
Proof.
  unfold trip_at. replace (List.tl (map (rebase b) nodes)) with (map (rebase b) (List.tl nodes)) by (destruct nodes; reflexivity).
  rewrite firstn_map. generalize (firstn i (List.tl nodes)). intros l.
  induction l as [|[a|b' k] l IH]; cbn; [reflexivity|assumption|congruence].
Qed.
Lemma relink_all s r b : route_ok s r ->
  relink b 0 (sr_depots (sroute_at s r)) (sr_nodes (sroute_at s r)) = map (rebase b) (sr_nodes (sroute_at s r)).
Proof.
  intros [H1 H2 H3 H4 H5 H6 H7]. apply nth_error_ext. intros i. rewrite nth_error_map.
  destruct (relink_nth b (sr_depots (sroute_at s r)) 0 (sr_nodes (sroute_at s r)) i) as [R1 R2].
  { intros j n Hj. destruct (H3 j n Hj) as [H _]. eapply nth_error_lt; eassumption. }
  { intros j j' n n' Hj Hj' E. destruct (H3 j n Hj) as [H _], (H3 j' n' Hj') as [H' _]. congruence. }
  destruct (nth_error (sr_nodes (sroute_at s r)) i) as [p|] eqn:E.
  - specialize (H4 i p E). destruct p as [a|b' k].
    + rewrite R2, ?E; [reflexivity|]. intros j n Hj Hp. destruct (H3 j n Hj) as [H _]. congruence.
    + destruct H4 as (-> & n & Hn & Hp). rewrite (R1 k n Hn Hp). reflexivity.
  - rewrite R2, ?E; [reflexivity|]. intros j n Hj Hp. destruct (H3 j n Hj) as [H _]. congruence.
Qed.
Lemma rebase_same s r : route_ok s r ->
  map (rebase (sr_base (sroute_at s r))) (sr_nodes (sroute_at s r)) = sr_nodes (sroute_at s r).
Proof.
  intros H. apply nth_error_ext. intros i. rewrite nth_error_map.
  destruct (nth_error (sr_nodes (sroute_at s r)) i) as [p|] eqn:E; [|reflexivity].
  pose proof (ok_nodes s r H i p E) as H4. destruct p as [a|b k]; [reflexivity|]. destruct H4 as (-> & _). reflexivity.
Qed.

Lemma take_depot_spec s r a : route_ok s r -> r < length (hp_routes s) ->
  exists s1 b, take_depot s r a = (s1, PD b (length (sr_depots (sroute_at s r)))) /\
    hp_visits s1 = hp_visits s /\ length (hp_routes s1) = length (hp_routes s) /\
    (forall r', r' <> r -> sroute_at s1 r' = sroute_at s r') /\
    sr_nodes (sroute_at s1 r) = map (rebase b) (sr_nodes (sroute_at s r)) /\
    sr_base (sroute_at s1 r) = b /\
    sr_depots (sroute_at s1 r) = sr_depots (sroute_at s r) ++ [mk_node a 0 0 None] /\
    sr_veh (sroute_at s1 r) = sr_veh (sroute_at s r) /\ sr_synced (sroute_at s1 r) = sr_synced (sroute_at s r) /\
    length (sr_depots (sroute_at s1 r)) <= sr_cap (sroute_at s1 r).
Proof.
  intros Hok Hr. unfold take_depot. pose proof (ok_cap s r Hok) as Hcap.
  destruct (Nat.eqb_spec (length (sr_depots (sroute_at s r))) (sr_cap (sroute_at s r))) as [E|E].
  - eexists _, _. split; [reflexivity|]. cbn [hp_visits hp_routes]. split; [reflexivity|]. split; [apply upd_len|].
    assert (Hat : forall x r', sroute_at (mk_heap (hp_visits s) (upd (hp_routes s) r x) (S (hp_fresh s))) r'
                   = if r =? r' then x else sroute_at s r') by (intros; apply (set_at s r x r' Hr)).
    split. { intros r' Hne. rewrite Hat, (proj2 (Nat.eqb_neq r r')) by auto. reflexivity. }
    rewrite Hat, Nat.eqb_refl. cbn. rewrite relink_all by assumption.
    repeat (split; [reflexivity|]). rewrite app_length. cbn. lia.
  - eexists _, _. split; [reflexivity|]. cbn [hp_visits hp_routes]. split; [reflexivity|]. split; [apply upd_len|].
    assert (Hat : forall x r', sroute_at (mk_heap (hp_visits s) (upd (hp_routes s) r x) (hp_fresh s)) r'
                   = if r =? r' then x else sroute_at s r') by (intros; apply (set_at s r x r' Hr)).
    split. { intros r' Hne. rewrite Hat, (proj2 (Nat.eqb_neq r r')) by auto. reflexivity. }
    rewrite Hat, Nat.eqb_refl. cbn. rewrite rebase_same by assumption.
    repeat (split; [reflexivity|]). rewrite app_length. cbn. lia.
Qed.

Lemma at_upd v f s r x : r < length (hp_routes s) -> sroute_at (mk_heap v (upd (hp_routes s) r x) f) r = x.
Proof. intros Hr. pose proof (set_at s r x r Hr) as H. rewrite Nat.eqb_refl in H. exact H. Qed.

Theorem insert_depot_throws s r idx k : heap_ok s -> r < length (hp_routes s) ->
  (v_maxTrips (sr_veh (sroute_at s r)) < Z.of_nat (length (sr_depots (sroute_at s r))))%Z ->
  exists s', route_insert s r idx (ADepot k) = Some (s', true) /\
    (forall idx' a, exists s'', route_insert s' r idx' a = Some (s'', true)).
Proof.
  intros Hs Hr Hmax. pose proof (hk_routes s Hs r Hr) as Hok.
  destruct (take_depot_spec s r (ADepot k) Hok Hr) as (s1 & b & E & V & L & O & N & B & D & Ve & Sy & Ca).
  unfold route_insert at 1. cbn [a_isDepot]. rewrite E.
  assert (Hlen : length (sr_depots (sroute_at s1 r)) - 1 = length (sr_depots (sroute_at s r))) by (rewrite D, app_length; cbn; lia).
  rewrite Hlen, Ve, (proj2 (Z.ltb_lt _ _) Hmax). exists s1. split; [reflexivity|]. intros idx' a.
  unfold route_insert. destruct (a_isDepot a).
  - unfold take_depot. destruct (length (sr_depots (sroute_at s1 r)) =? sr_cap (sroute_at s1 r));
      rewrite at_upd by lia; cbn [sr_veh sr_depots with_nodes with_memory with_depots]; rewrite Ve, app_length, D, app_length;
      cbn [length];
      (destruct (Z.ltb_spec (v_maxTrips (sr_veh (sroute_at s r))) (Z.of_nat (length (sr_depots (sroute_at s r)) + 1 + 1 - 1))); [eauto|lia]).
  - rewrite Hlen, Ve, (proj2 (Z.ltb_lt _ _) Hmax). eauto.
Qed.

Theorem insert_depot s r idx dk : heap_ok s -> r < length (hp_routes s) -> strict s r ->
  (Z.of_nat (length (sr_depots (sroute_at s r))) <= v_maxTrips (sr_veh (sroute_at s r)))%Z ->
  0 < idx -> idx < length (sr_nodes (sroute_at s r)) ->
  exists s', route_insert s r idx (ADepot dk) = Some (s', false) /\ edited s s' r (insert_at idx (ADepot dk) (acts s r)) /\
    length (sr_depots (sroute_at s' r)) = S (length (sr_depots (sroute_at s r))) /\
    sr_synced (sroute_at s' r) = sr_synced (sroute_at s r) /\
    (forall b, In (PV b) (sr_nodes (sroute_at s' r)) <-> In (PV b) (sr_nodes (sroute_at s r))) /\
    (forall b, ~ In (PV b) (sr_nodes (sroute_at s' r)) -> hp_visits s' b = hp_visits s b).
Proof.
  intros Hs Hr Hstr Hmax Hi0 Hi1. pose proof (hk_routes s Hs r Hr) as Hok.
  pose proof (ok_shape s r Hok) as Sh. pose proof (ok_good s r Hs Hok Hstr) as Hg.
  destruct (take_depot_spec s r (ADepot dk) Hok Hr) as (s1 & b & E & V & L & O & N & B & D & Ve & Sy & Ca).
  unfold route_insert. cbn [a_isDepot]. rewrite E.
  assert (Hlen : length (sr_depots (sroute_at s1 r)) = S (length (sr_depots (sroute_at s r)))) by (rewrite D, app_length; cbn; lia).
  rewrite Hlen, Ve, Nat.sub_succ, Nat.sub_0_r.
  destruct (Z.ltb_spec (v_maxTrips (sr_veh (sroute_at s r))) (Z.of_nat (length (sr_depots (sroute_at s r))))) as [|_]; [lia|].
  set (p := PD b (length (sr_depots (sroute_at s r)))).
  assert (Hget1 : forall q n, In q (sr_nodes (sroute_at s r)) -> get s r q = Some n -> get s1 r (rebase b q) = Some n).
  { intros [a'|b' k'] n Hq Hn; cbn [rebase get] in *; [rewrite V; assumption|].
    destruct (b' =? _) eqn:Eb; [|discriminate]. rewrite B, Nat.eqb_refl, D.
    rewrite nth_error_app1 by (eapply nth_error_lt; eassumption). assumption. }
  assert (Hg1 : good s1 r).
  { intros i q Hq. rewrite N, nth_error_map in Hq. destruct (nth_error (sr_nodes (sroute_at s r)) i) as [q0|] eqn:E0; [|discriminate].
    injection Hq as <-. destruct (Hg i q0 E0) as (n & G1 & G2 & G3 & G4). exists n.
    split; [apply Hget1; [eapply nth_error_In; eassumption|assumption]|]. rewrite N, rebase_trip. auto. }
  assert (Hnew : ~ In p (sr_nodes (sroute_at s1 r))).
  { rewrite N. intros Hin. apply in_map_iff in Hin as ([a'|b' k'] & Hq & Hin); [discriminate|]. injection Hq as Hk.
    pose proof (rs_ptr s r Sh _ Hin) as [_ ?]. lia. }
  assert (Hp1 : get s1 r p = Some (mk_node (ADepot dk) 0 0 None)).
  { cbn [get p]. rewrite B, Nat.eqb_refl, D, nth_error_app2, Nat.sub_diag by lia. reflexivity. }
  assert (Hr1 : r < length (hp_routes s1)) by lia.
  assert (Hi1' : idx < length (sr_nodes (sroute_at s1 r))) by (rewrite N, map_length; assumption).
  destruct (core_insert s1 r idx p _ Hr1 Hg1 Hnew Hp1 Hi0 Hi1')
    as (q & prev & s3 & E1 & E2 & E3 & E4 & C1 & C2 & C3 & C4 & C5 & C6 & C7 & C8 & C9 & C10 & C11 & C12).
  rewrite E1, E2, E3. cbn [isPD p] in E4. rewrite E4. exists s3. split; [reflexivity|].
  assert (Hin : forall q', In q' (sr_nodes (sroute_at s3 r)) <-> p = q' \/ In q' (map (rebase b) (sr_nodes (sroute_at s r))))
    by (intros; rewrite C4, N; apply in_insert).
  assert (HinV : forall c, In (PV c) (sr_nodes (sroute_at s3 r)) <-> In (PV c) (sr_nodes (sroute_at s r))).
  { intros c. rewrite Hin, in_map_iff. split.
    - intros [|([a'|b' k'] & Hq & Hc)]; [discriminate| |discriminate]. cbn in Hq. injection Hq as <-. assumption.
    - intros Hc. right. exists (PV c). auto. }
  assert (Hv : forall c, ~ In (PV c) (sr_nodes (sroute_at s3 r)) -> hp_visits s3 c = hp_visits s c).
  { intros c Hc. specialize (C12 (PV c)). cbn [get] in C12. rewrite <- C4, V in C12. specialize (C12 Hc). congruence. }
  assert (Ha3 : forall c, n_act (hp_visits s3 c) = c).
  { intros c. destruct (C11 (PV c) (hp_visits s1 c) eq_refl) as (n' & G & G'). cbn in G. injection G as <-.
    rewrite G', V. apply (hk_acts s Hs). }
  assert (Hdep : map n_act (sr_depots (sroute_at s3 r)) = map n_act (sr_depots (sroute_at s r)) ++ [ADepot dk]).
  { rewrite (depot_acts s1 s3 r C5 C9 C11), D, map_app. reflexivity. }
  assert (Hlen2 : 2 <= length (sr_depots (sroute_at s r))).
  { pose proof (f_equal (@length _) (rs_ends s r Sh)) as H. rewrite map_length, firstn_length in H. cbn [length] in H. lia. }
  split; [|split; [rewrite C9; exact Hlen|split; [rewrite C8; exact Sy|split; [exact HinV|exact Hv]]]].
  constructor; try assumption.
  - apply (assemble s s3 (eq r)); try assumption.
    + intros r'. apply Nat.eq_dec.
    + rewrite C1. assumption.
    + intros r' H. rewrite C3 by congruence. apply O. congruence.
    + intros r' <-. split; [assumption|]. split; [|assumption]. constructor.
      * rewrite C4, C5, insert_at_nth, B, N by lia. destruct (Nat.ltb_spec 0 idx); [|lia].
        rewrite nth_error_map, (rs_start s r Sh). reflexivity.
      * rewrite C4, C5, insert_at_len, insert_at_nth, B, N, map_length by lia.
        destruct (Nat.ltb_spec (S (length (sr_nodes (sroute_at s r))) - 1) idx); [lia|].
        destruct (Nat.eqb_spec (S (length (sr_nodes (sroute_at s r))) - 1) idx); [lia|].
        rewrite Nat.sub_succ, Nat.sub_0_r, nth_error_map, (rs_end s r Sh). reflexivity.
      * intros p' Hp'. apply Hin in Hp' as [<-|Hp'].
        -- cbn. rewrite C5, B, C9, Hlen. split; [reflexivity|lia].
        -- apply in_map_iff in Hp' as (p0 & <- & Hp0). pose proof (rs_ptr s r Sh p0 Hp0) as H.
           destruct p0 as [a'|b' k']; [exact H|]. cbn. rewrite C5, B, C9, Hlen. split; [reflexivity|lia].
      * intros k Hk. rewrite C9, Hlen in Hk. rewrite C5, B. apply Hin.
        destruct (Nat.eq_dec k (length (sr_depots (sroute_at s r)))) as [->|]; [left; reflexivity|].
        right. apply in_map_iff. exists (PD (sr_base (sroute_at s r)) k). split; [reflexivity|]. apply (rs_all s r Sh). lia.
      * intros n Hn. apply (in_map n_act) in Hn. rewrite Hdep in Hn. apply in_app_or in Hn as [Hn|[<-|[]]]; [|reflexivity].
        apply in_map_iff in Hn as (n0 & <- & Hn). apply (rs_acts s r Sh n0 Hn).
      * rewrite C7, Ve, <- (rs_ends s r Sh), <- !firstn_map, Hdep, firstn_app, map_length.
        replace (2 - _) with 0 by lia. cbn [firstn]. rewrite app_nil_r. reflexivity.
      * rewrite C9, C6. assumption.
      * rewrite C9, C7, Hlen, Ve. lia.
    + intros c Hc. left. split; [apply Hv, Hc; reflexivity|]. intros r' <- Hr'. apply (Hc r eq_refl). apply HinV.
      apply (nth_error_In _ _ (proj1 (proj2 (hk_assigned s Hs c r Hr')))).
    + intros c. destruct (in_dec ptr_dec (PV c) (sr_nodes (sroute_at s3 r))); [right; eauto|left; intros r' <-; assumption].
  - rewrite C1. assumption.
  - intros r' H. rewrite C3 by assumption. apply O. assumption.
  - assert (Ea : acts s r = acts s1 r).
    { unfold acts. rewrite N, map_map. apply map_ext_in. intros q' Hq'. unfold p_act.
      apply In_nth_error in Hq' as [i Hi]. destruct (Hg i q' Hi) as (n & G & _). rewrite G.
      rewrite (Hget1 q' n (nth_error_In _ _ Hi) G). reflexivity. }
    rewrite Ea. apply (acts_insert s1 s3 r idx p (ADepot dk) C4).
    + intros p' Hp'. unfold p_act. destruct (get s1 r p') as [n|] eqn:Ep.
      * destruct (C11 p' n Ep) as (n' & -> & ->). reflexivity.
      * apply In_nth_error in Hp' as [i Hi]. destruct (Hg1 i p' Hi) as (n & G & _). congruence.
    + unfold p_act. destruct (C11 p _ Hp1) as (n' & -> & ->). reflexivity.
  - congruence.
Qed.

(** *** Removing *)
Lemma core_remove s r idx p : r < length (hp_routes s) ->
  (forall i q, i <> idx -> nth_error (sr_nodes (sroute_at s r)) i = Some q ->
     exists n, get s r q = Some n /\ n_pos n = i /\ n_route n = Some r /\ n_trip n = trip_at (sr_nodes (sroute_at s r)) i) ->
  nth_error (sr_nodes (sroute_at s r)) idx = Some p ->
  0 < idx -> idx < length (sr_nodes (sroute_at s r)) - 1 ->
  let nodes := remove_at idx (sr_nodes (sroute_at s r)) in
  exists s3, renumber (set_sroute s r (with_nodes (sroute_at s r) nodes)) r (if isPD p then pred else id) idx (skipn idx nodes) = Some s3 /\
    length (hp_routes s3) = length (hp_routes s) /\
    (forall r', r' <> r -> sroute_at s3 r' = sroute_at s r') /\
    sr_nodes (sroute_at s3 r) = nodes /\ sr_base (sroute_at s3 r) = sr_base (sroute_at s r) /\
    sr_cap (sroute_at s3 r) = sr_cap (sroute_at s r) /\ sr_veh (sroute_at s3 r) = sr_veh (sroute_at s r) /\
    sr_synced (sroute_at s3 r) = sr_synced (sroute_at s r) /\
    length (sr_depots (sroute_at s3 r)) = length (sr_depots (sroute_at s r)) /\
    good s3 r /\
    (forall q n, get s r q = Some n -> exists n', get s3 r q = Some n' /\ n_act n' = n_act n) /\
    (forall q, ~ In q nodes -> get s3 r q = get s r q).
Proof.
  intros Hr Hg Hp Hi0 Hi1 nodes. set (s2 := set_sroute s r (with_nodes (sroute_at s r) nodes)).
  assert (Hat2 : forall r', sroute_at s2 r' = if r =? r' then with_nodes (sroute_at s r) nodes else sroute_at s r')
    by (intros; apply set_at; assumption).
  assert (Hget2 : forall q, get s2 r q = get s r q).
  { intros [a|b k]; [reflexivity|]. cbn [get]. rewrite Hat2, Nat.eqb_refl. reflexivity. }
  assert (Hr2 : r < length (hp_routes s2)) by (unfold s2, set_sroute; cbn; rewrite upd_len; assumption).
  assert (Enth : forall j, nth_error nodes j = if j <? idx then nth_error (sr_nodes (sroute_at s r)) j
            else nth_error (sr_nodes (sroute_at s r)) (S j)).
  { intros j. apply remove_at_nth. lia. }
  assert (Hn : forall j q, nth_error nodes j = Some q -> exists n, get s r q = Some n /\
             n_pos n = (if j <? idx then j else S j) /\ n_route n = Some r /\
             n_trip n = trip_at (sr_nodes (sroute_at s r)) (if j <? idx then j else S j)).
  { intros j q Hj. rewrite Enth in Hj. destruct (Nat.ltb_spec j idx); apply Hg; try assumption; lia. }
  assert (Hnd : NoDup nodes).
  { apply NoDup_nth_error. intros i j Li E. destruct (nth_error nodes i) as [q|] eqn:Ei; [|apply nth_error_None in Ei; lia].
    destruct (Hn i q Ei) as (n & G1 & G2 & _), (Hn j q (eq_sym E)) as (n' & G1' & G2' & _).
    assert (n = n') as <- by congruence. rewrite G2 in G2'.
    destruct (Nat.ltb_spec i idx), (Nat.ltb_spec j idx); lia. }
  destruct (renumber_spec (if isPD p then pred else id) r (skipn idx nodes) s2 idx Hr2) as (s3 & E3 & Sh3 & N1 & N2 & N3).
  { clear - Hnd. rewrite <- (firstn_skipn idx nodes) in Hnd. induction (firstn idx nodes) as [|x l IH]; [assumption|].
    cbn in Hnd. inversion Hnd; auto. }
  { intros q Hq. rewrite Hget2. apply In_nth_error in Hq as [j Hj]. rewrite skipn_nth in Hj.
    destruct (Hn _ _ Hj) as (n & G & _). eauto. }
  exists s3. split; [exact E3|]. destruct Sh3 as (L1 & L2 & L3).
  assert (Ln : sr_nodes (sroute_at s3 r) = nodes).
  { rewrite (proj1 (L3 r)), Hat2, Nat.eqb_refl. reflexivity. }
  split; [rewrite L1; unfold s2, set_sroute; cbn; apply upd_len|].
  split. { intros r' Hr'. rewrite N3 by assumption. rewrite Hat2, (proj2 (Nat.eqb_neq r r')) by auto. reflexivity. }
  split; [exact Ln|].
  destruct (L3 r) as (_ & K2 & K3 & K4 & K5 & K6). rewrite Hat2, Nat.eqb_refl in K2, K3, K4, K5, K6.
  split; [exact K2|]. split; [exact K3|]. split; [exact K4|]. split; [exact K5|]. split; [exact K6|].
  split; [|split].
  - intros j q Hj. rewrite Ln in *. unfold nodes at 1. rewrite (trip_remove _ _ p) by assumption.
    destruct (Hn j q Hj) as (n & G1 & G2 & G3 & G4). destruct (Nat.ltb_spec j idx) as [Lj|Lj].
    + exists n. split; [|auto]. rewrite N2; [rewrite Hget2; assumption|].
      intros Hin. apply In_nth_error in Hin as [m Hm]. rewrite skipn_nth in Hm.
      assert (j = idx + m); [|lia]. eapply NoDup_nth_error; [exact Hnd|eapply nth_error_lt; eassumption|congruence].
    + eexists. split.
      { apply (N1 (j - idx) q); [rewrite skipn_nth; replace (idx + (j - idx)) with j by lia; assumption|].
        rewrite Hget2. eassumption. }
      cbn [n_pos n_route n_trip]. split; [lia|]. split; [assumption|]. rewrite G4. destruct (isPD p); unfold id; lia.
  - intros q n Hq. destruct (in_dec ptr_dec q (skipn idx nodes)) as [Hin|Hin].
    + apply In_nth_error in Hin as [m Hm]. eexists. split; [apply (N1 m q n Hm); rewrite Hget2; assumption|reflexivity].
    + rewrite N2 by assumption. rewrite Hget2. eauto.
  - intros q Hq. rewrite N2; [apply Hget2|]. intros Hin. apply Hq. rewrite <- (firstn_skipn idx nodes).
    apply in_or_app; right; assumption.
Qed.

Lemma in_remove_at {A} (i : nat) (x y : A) l : NoDup l -> nth_error l i = Some x ->
  (In y (remove_at i l) <-> In y l /\ x <> y).
Proof.
  intros Hnd Hx. rewrite (insert_remove l i x Hx) in Hnd |- * at 2.
  assert (HA : Add x (remove_at i l) (insert_at i x (remove_at i l))).
  { unfold insert_at. rewrite <- (firstn_skipn i (remove_at i l)) at 1. apply Add_app. }
  pose proof (proj1 (NoDup_Add HA) Hnd) as [Hn1 Hn2]. rewrite in_insert.
  split; [intros H; split; [right; assumption|intros ->; contradiction]|intros [[|] ?]; [contradiction|assumption]].
Qed.
Lemma map_remove_at {A B} (f : A -> B) i l : map f (remove_at i l) = remove_at i (map f l).
Proof. unfold remove_at. rewrite map_app, firstn_map, skipn_map. reflexivity. Qed.

(** Removing a visit. *)
Theorem remove_visit s r idx a : heap_ok s -> r < length (hp_routes s) -> strict s r ->
  nth_error (sr_nodes (sroute_at s r)) idx = Some (PV a) ->
  exists s', route_remove s r idx = Some s' /\ edited s s' r (remove_at idx (acts s r)) /\
    sr_nodes (sroute_at s' r) = remove_at idx (sr_nodes (sroute_at s r)) /\
    sr_synced (sroute_at s' r) = sr_synced (sroute_at s r) /\
    n_route (hp_visits s' a) = None /\
    (forall b, b <> a -> ~ In (PV b) (sr_nodes (sroute_at s' r)) -> hp_visits s' b = hp_visits s b).
Proof.
  intros Hs Hr Hstr Hidx. pose proof (hk_routes s Hs r Hr) as Hok.
  pose proof (ok_shape s r Hok) as Sh. pose proof (ok_good s r Hs Hok Hstr) as Hg.
  pose proof (good_nodup s r Hg) as Hnd.
  assert (Hi0 : 0 < idx).
  { destruct idx; [|lia]. rewrite (rs_start s r Sh) in Hidx. discriminate. }
  assert (Hi1 : idx < length (sr_nodes (sroute_at s r)) - 1).
  { pose proof (nth_error_lt _ _ _ Hidx). destruct (Nat.eq_dec idx (length (sr_nodes (sroute_at s r)) - 1)) as [E|]; [|lia].
    rewrite E, (rs_end s r Sh) in Hidx. discriminate. }
  assert (Hda : a_isDepot a = false) by (apply (rs_ptr s r Sh (PV a)); eapply nth_error_In; eassumption).
  unfold route_remove. rewrite Hidx. cbn [get]. unfold p_isReload. rewrite (hk_acts s Hs), Hda. cbn [andb].
  set (s1 := put s r (PV a) (n_unassign (hp_visits s a))).
  assert (Hsr : forall r', sroute_at s1 r' = sroute_at s r') by reflexivity.
  assert (Hget1 : forall q, q <> PV a -> get s1 r q = get s r q).
  { intros q Hq. unfold s1. apply (put_get_other _ _ _ _ (hp_visits s a)); [assumption|reflexivity|congruence]. }
  destruct (core_remove s1 r idx (PV a)) as (s3 & E4 & C1 & C3 & C4 & C5 & C6 & C7 & C8 & C9 & C10 & C11 & C12); try assumption.
  { intros i q Hne Hq. rewrite Hsr in Hq |- *. destruct (Hg i q Hq) as (n & G). exists n. rewrite Hget1; [assumption|].
    intros ->. apply Hne. eapply NoDup_nth_error; [exact Hnd|eapply nth_error_lt; eassumption|congruence]. }
  cbn [isPD] in E4. rewrite E4. exists s3. split; [reflexivity|]. rewrite !Hsr in *.
  assert (Hin : forall q, In q (sr_nodes (sroute_at s3 r)) <-> In q (sr_nodes (sroute_at s r)) /\ PV a <> q)
    by (intros; rewrite C4; apply in_remove_at; assumption).
  assert (Hva : hp_visits s3 a = n_unassign (hp_visits s a)).
  { specialize (C12 (PV a)). rewrite <- C4, Hin in C12. cbn [get] in C12. specialize (C12 ltac:(tauto)).
    injection C12 as ->. unfold s1. cbn. rewrite a_eqb_refl. reflexivity. }
  assert (Hv : forall b, b <> a -> ~ In (PV b) (sr_nodes (sroute_at s3 r)) -> hp_visits s3 b = hp_visits s b).
  { intros b Hne Hb. specialize (C12 (PV b)). rewrite <- C4 in C12. specialize (C12 Hb).
    rewrite Hget1 in C12 by congruence. cbn in C12. congruence. }
  assert (Ha1 : forall q n, get s r q = Some n -> exists n', get s3 r q = Some n' /\ n_act n' = n_act n).
  { intros q n Hq. destruct (ptr_dec q (PV a)) as [->|Hne].
    - cbn in Hq |- *. injection Hq as <-. rewrite Hva. eauto.
    - apply C11. rewrite Hget1; assumption. }
  assert (Ha3 : forall b, n_act (hp_visits s3 b) = b).
  { intros b. destruct (Ha1 (PV b) (hp_visits s b) eq_refl) as (n' & G & G'). cbn in G. injection G as <-.
    rewrite G'. apply (hk_acts s Hs). }
  split; [|split; [exact C4|split; [exact C8|split; [rewrite Hva; reflexivity|exact Hv]]]].
  constructor; try assumption.
  - apply (assemble s s3 (eq r)); try assumption.
    + intros r'. apply Nat.eq_dec.
    + intros r' H. rewrite <- (Hsr r'). apply C3. congruence.
    + intros r' <-. split; [assumption|]. split; [|assumption]. constructor.
      * rewrite C4, C5, remove_at_nth by lia. destruct (Nat.ltb_spec 0 idx); [apply (rs_start s r Sh)|lia].
      * rewrite C4, C5, remove_at_len, remove_at_nth by lia.
        destruct (Nat.ltb_spec (length (sr_nodes (sroute_at s r)) - 1 - 1) idx); [lia|].
        replace (S _) with (length (sr_nodes (sroute_at s r)) - 1) by lia. apply (rs_end s r Sh).
      * intros p Hp. apply Hin in Hp as [Hp _]. pose proof (rs_ptr s r Sh p Hp) as H. rewrite C5, C9. exact H.
      * intros k Hk. rewrite C9 in Hk. rewrite C5. apply Hin. split; [apply (rs_all s r Sh); assumption|discriminate].
      * intros n Hn. apply (in_map n_act) in Hn. rewrite (depot_acts s s3 r C5 C9 Ha1) in Hn.
        apply in_map_iff in Hn as (n0 & <- & Hn). apply (rs_acts s r Sh n0 Hn).
      * rewrite C7, <- (rs_ends s r Sh), <- !firstn_map, (depot_acts s s3 r C5 C9 Ha1). reflexivity.
      * rewrite C9, C6. apply (rs_cap s r Sh).
      * rewrite C9, C7. apply (rs_trips s r Sh).
    + intros b Hb. destruct (a_eqb b a) eqn:Eb.
      * apply a_eqb_eq in Eb as ->. right. rewrite Hva. auto.
      * assert (b <> a) by (intros ->; rewrite a_eqb_refl in Eb; discriminate).
        left. split; [apply Hv; [assumption|apply Hb; reflexivity]|]. intros r' <- Hr'. apply (Hb r eq_refl). apply Hin.
        split; [|congruence]. apply (nth_error_In _ _ (proj1 (proj2 (hk_assigned s Hs b r Hr')))).
    + intros b. destruct (in_dec ptr_dec (PV b) (sr_nodes (sroute_at s3 r))); [right; eauto|left; intros r' <-; assumption].
  - unfold acts. rewrite C4, <- map_remove_at. apply map_ext_in. intros q Hq. unfold p_act.
    rewrite <- C4 in Hq. apply Hin in Hq as [Hq _]. apply In_nth_error in Hq as [i Hi].
    destruct (Hg i q Hi) as (n & G & _). rewrite G. destruct (Ha1 q n G) as (n' & -> & ->). reflexivity.
Qed.

(** Removing a reload depot. *)
Definition unshift (k : nat) (p : ptr) : ptr :=
  match p with PD b j => PD b (if k <? j then j - 1 else j) | PV a => PV a end.
Lemma unshift_trip b nodes i : trip_at (map (unshift b) nodes) i = trip_at nodes i.
Proof.
  unfold trip_at. replace (List.tl (map (unshift b) nodes)) with (map (unshift b) (List.tl nodes)) by (destruct nodes; reflexivity).
  rewrite firstn_map. generalize (firstn i (List.tl nodes)). intros l.
  induction l as [|[a|b' k] l IH]; cbn; [reflexivity|assumption|congruence].
Qed.
Lemma relink_erased s r k n0 : route_ok s r -> nth_error (sr_depots (sroute_at s r)) k = Some n0 ->
  relink (sr_base (sroute_at s r)) k (skipn k (remove_at k (sr_depots (sroute_at s r)))) (sr_nodes (sroute_at s r))
  = map (unshift k) (sr_nodes (sroute_at s r)).
Proof.
  intros [H1 H2 H3 H4 H5 H6 H7] Hk. pose proof (nth_error_lt _ _ _ Hk) as Lk. apply nth_error_ext. intros i. rewrite nth_error_map.
  assert (Hd : forall j, nth_error (skipn k (remove_at k (sr_depots (sroute_at s r)))) j = nth_error (sr_depots (sroute_at s r)) (S (k + j))).
  { intros j. rewrite skipn_nth, remove_at_nth by lia. destruct (Nat.ltb_spec (k + j) k); [lia|reflexivity]. }
  destruct (relink_nth (sr_base (sroute_at s r)) (skipn k (remove_at k (sr_depots (sroute_at s r)))) k (sr_nodes (sroute_at s r)) i) as [R1 R2].
  { intros j n Hj. rewrite Hd in Hj. destruct (H3 _ n Hj) as [H _]. eapply nth_error_lt; eassumption. }
  { intros j j' n n' Hj Hj' E. rewrite Hd in Hj, Hj'. destruct (H3 _ n Hj) as [H _], (H3 _ n' Hj') as [H' _].
    assert (PD (sr_base (sroute_at s r)) (S (k + j)) = PD (sr_base (sroute_at s r)) (S (k + j'))) as X by congruence.
    injection X as X. lia. }
  destruct (nth_error (sr_nodes (sroute_at s r)) i) as [p|] eqn:E.
  - specialize (H4 i p E). destruct p as [a|b' j].
    + rewrite R2, ?E; [reflexivity|]. intros j n Hj Hp. rewrite Hd in Hj. destruct (H3 _ n Hj) as [H _]. congruence.
    + destruct H4 as (-> & n & Hn & Hp). cbn [option_map unshift]. destruct (Nat.ltb_spec k j) as [Lj|Lj].
      * rewrite (R1 (j - 1 - k) n); [|rewrite Hd; replace (S (k + (j - 1 - k))) with j by lia; assumption|assumption].
        do 2 f_equal. lia.
      * rewrite R2, ?E; [reflexivity|]. intros j' n' Hj Hp'. rewrite Hd in Hj. destruct (H3 _ n' Hj) as [H _].
        assert (PD (sr_base (sroute_at s r)) (S (k + j')) = PD (sr_base (sroute_at s r)) j) as X by congruence.
        injection X as X. lia.
  - rewrite R2, ?E; [reflexivity|]. intros j n Hj Hp. rewrite Hd in Hj. destruct (H3 _ n Hj) as [H _]. congruence.
Qed.

Theorem remove_depot s r idx b k : heap_ok s -> r < length (hp_routes s) -> strict s r ->
  nth_error (sr_nodes (sroute_at s r)) idx = Some (PD b k) ->
  0 < idx -> idx < length (sr_nodes (sroute_at s r)) - 1 ->
  exists s', route_remove s r idx = Some s' /\ edited s s' r (remove_at idx (acts s r)) /\
    S (length (sr_depots (sroute_at s' r))) = length (sr_depots (sroute_at s r)) /\
    sr_synced (sroute_at s' r) = sr_synced (sroute_at s r) /\
    (forall c, In (PV c) (sr_nodes (sroute_at s' r)) <-> In (PV c) (sr_nodes (sroute_at s r))) /\
    (forall c, ~ In (PV c) (sr_nodes (sroute_at s' r)) -> hp_visits s' c = hp_visits s c).
Proof.
  intros Hs Hr Hstr Hidx Hi0 Hi1. pose proof (hk_routes s Hs r Hr) as Hok.
  pose proof (ok_shape s r Hok) as Sh. pose proof (ok_good s r Hs Hok Hstr) as Hg.
  pose proof (good_nodup s r Hg) as Hnd.
  destruct (rs_ptr s r Sh _ (nth_error_In _ _ Hidx)) as [-> Hk].
  destruct (Hg idx _ Hidx) as (n0 & G1 & G2 & G3 & G4).
  assert (Hk2 : 2 <= k).
  { destruct k as [|[|k]]; [| |lia]; exfalso.
    - assert (idx = 0); [|lia]. eapply NoDup_nth_error; [exact Hnd|eapply nth_error_lt; eassumption|].
      rewrite (rs_start s r Sh). assumption.
    - assert (idx = length (sr_nodes (sroute_at s r)) - 1); [|lia].
      eapply NoDup_nth_error; [exact Hnd|eapply nth_error_lt; eassumption|]. rewrite (rs_end s r Sh). assumption. }
  assert (Hd0 : a_isDepot (n_act n0) = true).
  { cbn [get] in G1. rewrite Nat.eqb_refl in G1. apply (rs_acts s r Sh). eapply nth_error_In; eassumption. }
  assert (Hn0 : nth_error (sr_depots (sroute_at s r)) k = Some n0) by (cbn [get] in G1; rewrite Nat.eqb_refl in G1; exact G1).
  unfold route_remove. rewrite Hidx, G1. unfold p_isReload. rewrite Hd0, G3, Nat.eqb_refl.
  destruct (Nat.ltb_spec k 2) as [|_]; [lia|]. cbn [andb negb].
  rewrite (relink_erased s r k n0 Hok Hn0).
  set (x1 := with_nodes (with_depots (sroute_at s r) (remove_at k (sr_depots (sroute_at s r)))) (map (unshift k) (sr_nodes (sroute_at s r)))).
  set (s1 := set_sroute s r x1).
  assert (Hsr : forall r', sroute_at s1 r' = if r =? r' then x1 else sroute_at s r') by (intros; apply set_at; assumption).
  assert (Hsrr : sroute_at s1 r = x1) by (rewrite Hsr, Nat.eqb_refl; reflexivity).
  assert (Hbase : forall i b' j, nth_error (sr_nodes (sroute_at s r)) i = Some (PD b' j) -> b' = sr_base (sroute_at s r)).
  { intros i b' j H. apply (rs_ptr s r Sh _ (nth_error_In _ _ H)). }
  assert (Hget1 : forall i q n, i <> idx -> nth_error (sr_nodes (sroute_at s r)) i = Some q -> get s r q = Some n ->
            get s1 r (unshift k q) = Some n).
  { intros i [a'|b' j'] n Hne Hq Hn; cbn [unshift get] in *; [assumption|].
    rewrite (Hbase _ _ _ Hq), Nat.eqb_refl in Hn. rewrite Hsrr. cbn [x1 sr_base with_nodes with_depots sr_depots].
    rewrite (Hbase _ _ _ Hq), Nat.eqb_refl, remove_at_nth by assumption.
    assert (j' <> k).
    { intros ->. apply Hne. eapply NoDup_nth_error; [exact Hnd|eapply nth_error_lt; eassumption|].
      rewrite Hq, Hidx, (Hbase _ _ _ Hq). reflexivity. }
    destruct (Nat.ltb_spec k j').
    - destruct (Nat.ltb_spec (j' - 1) k); [lia|]. replace (S (j' - 1)) with j' by lia. assumption.
    - destruct (Nat.ltb_spec j' k); [assumption|lia]. }
  destruct (core_remove s1 r idx (PD (sr_base (sroute_at s r)) k)) as (s3 & E4 & C1 & C3 & C4 & C5 & C6 & C7 & C8 & C9 & C10 & C11 & C12).
  { unfold s1, set_sroute; cbn; rewrite upd_len; assumption. }
  { intros i q Hne Hq. rewrite Hsrr in Hq |- *. cbn [x1 sr_nodes with_nodes] in Hq |- *. rewrite nth_error_map in Hq.
    destruct (nth_error (sr_nodes (sroute_at s r)) i) as [q0|] eqn:E0; [|discriminate]. injection Hq as <-.
    destruct (Hg i q0 E0) as (n & F1 & F2 & F3 & F4). exists n. rewrite unshift_trip.
    split; [eapply Hget1; eassumption|]. auto. }
  { rewrite Hsrr. cbn [x1 sr_nodes with_nodes]. rewrite nth_error_map, Hidx. cbn [option_map unshift]. rewrite Nat.ltb_irrefl. reflexivity. }
  { assumption. }
  { rewrite Hsrr. cbn [x1 sr_nodes with_nodes]. rewrite map_length. assumption. }
  cbn [isPD] in E4. rewrite E4. exists s3. split; [reflexivity|].
  rewrite Hsrr in C4, C5, C6, C7, C8, C9, C12.
  cbn [x1 sr_nodes with_nodes with_depots sr_base sr_cap sr_veh sr_synced sr_depots] in C4, C5, C6, C7, C8, C9, C12.
  rewrite remove_at_len in C9 by assumption.
  assert (Hin : forall q, In q (sr_nodes (sroute_at s3 r)) <->
             exists q0, q = unshift k q0 /\ In q0 (sr_nodes (sroute_at s r)) /\ PD (sr_base (sroute_at s r)) k <> q0).
  { intros q. rewrite C4, <- map_remove_at, in_map_iff. split.
    - intros (q0 & <- & Hq0). apply (in_remove_at idx (PD (sr_base (sroute_at s r)) k)) in Hq0; [|assumption..]. exists q0. tauto.
    - intros (q0 & -> & Hq0). exists q0. split; [reflexivity|]. apply (in_remove_at idx (PD (sr_base (sroute_at s r)) k)); [assumption..|exact Hq0]. }
  assert (HinV : forall c, In (PV c) (sr_nodes (sroute_at s3 r)) <-> In (PV c) (sr_nodes (sroute_at s r))).
  { intros c. rewrite Hin. split.
    - intros ([a'|b' k'] & Hq & Hc & _); [|discriminate]. cbn in Hq. injection Hq as <-. assumption.
    - intros Hc. exists (PV c). split; [reflexivity|]. split; [assumption|discriminate]. }
  assert (Hv : forall c, ~ In (PV c) (sr_nodes (sroute_at s3 r)) -> hp_visits s3 c = hp_visits s c).
  { intros c Hc. specialize (C12 (PV c)). cbn [get] in C12. rewrite <- C4 in C12. specialize (C12 Hc).
    unfold s1, set_sroute in C12. cbn in C12. congruence. }
  assert (Ha3 : forall c, n_act (hp_visits s3 c) = c).
  { intros c. destruct (C11 (PV c) (hp_visits s c) eq_refl) as (n' & G & G'). cbn in G. injection G as <-.
    rewrite G'. apply (hk_acts s Hs). }
  assert (Hdep : map n_act (sr_depots (sroute_at s3 r)) = remove_at k (map n_act (sr_depots (sroute_at s r)))).
  { rewrite (depot_acts s1 s3 r); [rewrite Hsrr; apply map_remove_at| | |assumption]; rewrite Hsrr; cbn [x1 sr_base with_nodes with_depots sr_depots];
      rewrite ?remove_at_len by assumption; assumption. }
  split; [|split; [lia|split; [exact C8|split; [exact HinV|exact Hv]]]].
  constructor; try assumption.
  - apply (assemble s s3 (eq r)); try assumption.
    + intros r'. apply Nat.eq_dec.
    + rewrite C1. unfold s1, set_sroute; cbn; apply upd_len.
    + intros r' H. rewrite C3 by congruence. rewrite Hsr, (proj2 (Nat.eqb_neq r r')) by assumption. reflexivity.
    + intros r' <-. split; [assumption|]. split; [|assumption]. constructor.
      * rewrite C4, C5, remove_at_nth by (rewrite map_length; lia). destruct (Nat.ltb_spec 0 idx); [|lia].
        rewrite nth_error_map, (rs_start s r Sh). reflexivity.
      * rewrite C4, C5, remove_at_len, remove_at_nth by (rewrite map_length; lia). rewrite map_length.
        destruct (Nat.ltb_spec (length (sr_nodes (sroute_at s r)) - 1 - 1) idx); [lia|].
        replace (S _) with (length (sr_nodes (sroute_at s r)) - 1) by lia. rewrite nth_error_map, (rs_end s r Sh). cbn.
        destruct k as [|[|k]]; [lia|lia|reflexivity].
      * intros p Hp. apply Hin in Hp as (q0 & -> & Hp & Hne). pose proof (rs_ptr s r Sh q0 Hp) as H.
        destruct q0 as [a'|b' j]; cbn [unshift]; [exact H|]. destruct H as [-> Hj]. rewrite C5, C9. split; [reflexivity|].
        assert (j <> k) by congruence. destruct (Nat.ltb_spec k j); lia.
      * intros j Hj. rewrite C9 in Hj. rewrite C5. apply Hin. destruct (Nat.ltb_spec j k) as [L|L].
        -- exists (PD (sr_base (sroute_at s r)) j). cbn [unshift]. destruct (Nat.ltb_spec k j); [lia|]. split; [reflexivity|].
           split; [apply (rs_all s r Sh); lia|]. injection 1. lia.
        -- exists (PD (sr_base (sroute_at s r)) (S j)). cbn [unshift]. destruct (Nat.ltb_spec k (S j)); [|lia].
           split; [f_equal; lia|]. split; [apply (rs_all s r Sh); lia|]. injection 1. lia.
      * intros n Hn. apply (in_map n_act) in Hn. rewrite Hdep in Hn. rewrite <- map_remove_at in Hn.
        apply in_map_iff in Hn as (n1 & <- & Hn). apply (rs_acts s r Sh n1). unfold remove_at in Hn.
        apply in_app_or in Hn as [Hn|Hn].
        -- rewrite <- (firstn_skipn k). apply in_or_app; left; assumption.
        -- rewrite <- (firstn_skipn (S k)). apply in_or_app; right; assumption.
      * rewrite C7, <- (rs_ends s r Sh), <- !firstn_map, Hdep. unfold remove_at. rewrite firstn_app, firstn_firstn.
        replace (Nat.min 2 k) with 2 by lia. rewrite firstn_length, map_length.
        replace (2 - Nat.min k _) with 0 by lia. cbn [firstn]. rewrite app_nil_r. reflexivity.
      * rewrite C9, C6. pose proof (rs_cap s r Sh). lia.
      * rewrite C9, C7. pose proof (rs_trips s r Sh). lia.
    + intros c Hc. left. split; [apply Hv, Hc; reflexivity|]. intros r' <- Hr'. apply (Hc r eq_refl). apply HinV.
      apply (nth_error_In _ _ (proj1 (proj2 (hk_assigned s Hs c r Hr')))).
    + intros c. destruct (in_dec ptr_dec (PV c) (sr_nodes (sroute_at s3 r))); [right; eauto|left; intros r' <-; assumption].
  - rewrite C1. unfold s1, set_sroute; cbn; apply upd_len.
  - intros r' H. rewrite C3 by assumption. rewrite Hsr, (proj2 (Nat.eqb_neq r r')) by congruence. reflexivity.
  - unfold acts. rewrite C4, <- !map_remove_at, map_map. apply map_ext_in. intros q Hq.
    apply (in_remove_at idx (PD (sr_base (sroute_at s r)) k)) in Hq as [Hq Hne]; [|assumption..].
    apply In_nth_error in Hq as [i Hi]. unfold p_act. destruct (Hg i q Hi) as (n & G & _). rewrite G.
    assert (i <> idx) by (intros ->; congruence).
    destruct (C11 _ _ (Hget1 i q n H Hi G)) as (n' & -> & ->). reflexivity.
Qed.

(** *** Clearing *)
Lemma unassign_all_spec r ps : forall s, r < length (hp_routes s) ->
  (forall p, In p ps -> exists n, get s r p = Some n) ->
  exists s', unassign_all s r ps = Some s' /\ same_shape s s' /\
    (forall r', r' <> r -> sroute_at s' r' = sroute_at s r') /\
    (forall b, hp_visits s' b = hp_visits s b \/
               (n_route (hp_visits s b) = Some r /\ hp_visits s' b = n_unassign (hp_visits s b))) /\
    (forall b, In (PV b) ps -> n_route (hp_visits s' b) <> Some r) /\
    (forall b, n_route (hp_visits s b) <> Some r -> hp_visits s' b = hp_visits s b).
Proof.
  induction ps as [|p ps IH]; intros s Hr Hget; cbn [unassign_all].
  - exists s. split; [reflexivity|]. split; [apply shape_refl|]. repeat split; auto.
  - destruct (Hget p (or_introl eq_refl)) as [n Hn]. rewrite Hn.
    set (s1 := match n_route n with Some r' => if r' =? r then put s r p (n_unassign n) else s | None => s end).
    assert (H1 : s1 = s \/ (n_route n = Some r /\ s1 = put s r p (n_unassign n))).
    { unfold s1. destruct (n_route n) as [r0|]; [|left; reflexivity]. destruct (r0 =? r) eqn:E0; [right|left; reflexivity].
      apply Nat.eqb_eq in E0. rewrite E0. split; reflexivity. }
    assert (Hs1 : n_route n = Some r -> s1 = put s r p (n_unassign n)).
    { intros E. unfold s1. rewrite E, Nat.eqb_refl. reflexivity. }
    assert (Sh1 : same_shape s s1).
    { destruct H1 as [->|[_ ->]]; [apply shape_refl|apply put_shape; assumption]. }
    assert (O1 : forall r', r' <> r -> sroute_at s1 r' = sroute_at s r').
    { intros r' Hne. destruct H1 as [->|[_ ->]]; [reflexivity|apply put_other_route; auto]. }
    assert (V1 : forall b, hp_visits s1 b = hp_visits s b \/
               (n_route (hp_visits s b) = Some r /\ hp_visits s1 b = n_unassign (hp_visits s b))).
    { intros b. destruct H1 as [->|[E ->]]; [auto|]. destruct p as [a|b' k]; [|auto]. cbn [get put hp_visits] in *.
      injection Hn as <-. destruct (a_eqb b a) eqn:Eb; [|auto]. apply a_eqb_eq in Eb as ->. auto. }
    assert (V2 : forall b, n_route (hp_visits s b) <> Some r -> hp_visits s1 b = hp_visits s b).
    { intros b Hb. destruct (V1 b) as [|[? _]]; [assumption|contradiction]. }
    destruct (IH s1) as (s' & E & Sh' & O' & W1 & W2 & W3).
    { rewrite (proj1 Sh1). assumption. }
    { intros q Hq. destruct (Hget q (or_intror Hq)) as [m Hm]. destruct H1 as [->|[_ ->]]; [eauto|].
      destruct (ptr_dec p q) as [<-|Hne]; [exists (n_unassign n); eapply put_get_same; eassumption|].
      rewrite (put_get_other _ _ _ _ n) by assumption. eauto. }
    exists s'. split; [exact E|]. split; [eapply shape_trans; eassumption|].
    split; [intros r' Hne; rewrite O', O1 by assumption; reflexivity|].
    split; [|split].
    + intros b. destruct (V1 b) as [Eb|[Eb Eb']].
      * destruct (W1 b) as [F|[F F']]; [left; congruence|right; rewrite Eb in *; auto].
      * right. split; [assumption|]. rewrite <- Eb'. apply W3. rewrite Eb'. cbn. discriminate.
    + intros b [->|Hb]; [|apply W2; assumption]. cbn [get] in Hn. injection Hn as <-.
      destruct (n_route (hp_visits s b)) as [r0|] eqn:Er.
      * destruct (Nat.eq_dec r0 r) as [->|Hne].
        -- specialize (Hs1 eq_refl). assert (Eb : hp_visits s1 b = n_unassign (hp_visits s b)).
           { rewrite Hs1. cbn. rewrite a_eqb_refl. reflexivity. }
           rewrite W3; rewrite Eb; cbn; discriminate.
        -- rewrite W3; rewrite V2; rewrite ?Er; congruence.
      * rewrite W3; rewrite V2; rewrite ?Er; congruence.
    + intros b Hb. rewrite W3; [apply V2; assumption|]. rewrite V2; assumption.
Qed.

Lemma two_nodes s r : route_ok s r -> length (sr_nodes (sroute_at s r)) = 2 ->
  sr_nodes (sroute_at s r) = [PD (sr_base (sroute_at s r)) 0; PD (sr_base (sroute_at s r)) 1].
Proof.
  intros [H1 H2 _ _ _ _ _] L. rewrite L in H2. cbn in H2.
  destruct (sr_nodes (sroute_at s r)) as [|p [|q [|]]]; try discriminate. cbn in *. congruence.
Qed.
Lemma ends_acts s r : route_ok s r ->
  p_act s r (PD (sr_base (sroute_at s r)) 0) = ADepot (v_start (sr_veh (sroute_at s r))) /\
  p_act s r (PD (sr_base (sroute_at s r)) 1) = ADepot (v_end (sr_veh (sroute_at s r))).
Proof.
  intros [_ _ _ _ H5 _ _]. unfold p_act. cbn [get]. rewrite Nat.eqb_refl.
  destruct (sr_depots (sroute_at s r)) as [|n0 [|n1 l]]; cbn in *; try discriminate. injection H5 as <- <-. auto.
Qed.

Theorem clear_spec s r : heap_ok s -> r < length (hp_routes s) -> 
  exists s', route_clear s r = Some s' /\
    edited s s' r [ADepot (v_start (sr_veh (sroute_at s r))); ADepot (v_end (sr_veh (sroute_at s r)))] /\
    (sr_synced (sroute_at s r) = mid_of s r \/ length (sr_nodes (sroute_at s r)) <> 2 -> sr_synced (sroute_at s' r) = []) /\
    (forall b, ~ In (PV b) (sr_nodes (sroute_at s' r))) /\
    (forall b, hp_visits s' b = if match n_route (hp_visits s b) with Some r' => r' =? r | None => false end
                                then n_unassign (hp_visits s b) else hp_visits s b).
Proof.
  intros Hs Hr. pose proof (hk_routes s Hs r Hr) as Hok. unfold route_clear.
  destruct (Nat.eqb_spec (length (sr_nodes (sroute_at s r))) 2) as [E2|E2].
  - exists s. split; [reflexivity|]. pose proof (two_nodes s r Hok E2) as En. destruct (ends_acts s r Hok) as [A0 A1].
    assert (Hno : forall b, ~ In (PV b) (sr_nodes (sroute_at s r))).
    { intros b. rewrite En. cbn. intros [|[|[]]]; discriminate. }
    assert (Hea : acts s r = [ADepot (v_start (sr_veh (sroute_at s r))); ADepot (v_end (sr_veh (sroute_at s r)))]).
    { unfold acts. rewrite En. cbn [map]. congruence. }
    split; [|split; [|split; [assumption|]]].
    + constructor; auto. apply ok_good; try assumption. intros i a Hi. destruct (Hno a). eapply nth_error_In; eassumption.
    + intros [->|H]; [|contradiction]. unfold mid_of. rewrite Hea. reflexivity.
    + intros b. destruct (n_route (hp_visits s b)) as [r'|] eqn:Eb; [|reflexivity].
      destruct (Nat.eqb_spec r' r) as [->|]; [|reflexivity]. destruct (Hno b).
      apply (nth_error_In _ _ (proj1 (proj2 (hk_assigned s Hs b r Eb)))).
  - destruct (unassign_all_spec r (sr_nodes (sroute_at s r)) s Hr) as (s1 & E & (L1 & L2 & L3) & O & W1 & W2 & W3).
    { intros p Hp. apply In_nth_error in Hp as [i Hi]. pose proof (ok_nodes s r Hok i p Hi) as H. destruct p as [a|b k]; [cbn; eauto|].
      destruct H as (-> & n & Hn & _). cbn. rewrite Nat.eqb_refl. eauto. }
    rewrite E. eexists. split; [reflexivity|].
    set (b0 := if sr_cap (sroute_at s r) <? 2 then hp_fresh s1 else sr_base (sroute_at s r)).
    set (v := sr_veh (sroute_at s r)).
    set (x := mk_sroute v b0 _ _ _ _). set (s2 := mk_heap _ _ _).
    assert (Hr1 : r < length (hp_routes s1)) by lia.
    assert (Hat : forall r', sroute_at s2 r' = if r =? r' then x else sroute_at s1 r') by (intros r'; apply (set_at s1 r x r' Hr1)).
    assert (Hx : sroute_at s2 r = x) by (rewrite Hat, Nat.eqb_refl; reflexivity).
    assert (Ho : forall r', r' <> r -> sroute_at s2 r' = sroute_at s r').
    { intros r' Hne. rewrite Hat, (proj2 (Nat.eqb_neq r r')) by auto. apply O. assumption. }
    assert (Hno : forall b, ~ In (PV b) (sr_nodes (sroute_at s2 r))).
    { intros b. rewrite Hx. cbn. intros [|[|[]]]; discriminate. }
    assert (Hv : forall b, hp_visits s2 b = if match n_route (hp_visits s b) with Some r' => r' =? r | None => false end
                                then n_unassign (hp_visits s b) else hp_visits s b).
    { intros b. cbn [s2 hp_visits]. destruct (n_route (hp_visits s b)) as [r'|] eqn:Eb; [|apply W3; congruence].
      destruct (Nat.eqb_spec r' r) as [->|Hne]; [|apply W3; congruence].
      destruct (W1 b) as [F|[F F']]; [|assumption]. exfalso. apply (W2 b); [|congruence].
      apply (nth_error_In _ _ (proj1 (proj2 (hk_assigned s Hs b r Eb)))). }
    assert (Hgood : good s2 r).
    { intros i q Hq. rewrite Hx in Hq |- *. cbn [x sr_nodes] in Hq |- *. destruct i as [|[|i]]; cbn in Hq.
      - injection Hq as <-. cbn [get]. rewrite Hx. cbn [x sr_base sr_depots]. rewrite Nat.eqb_refl. eexists. split; [reflexivity|]. auto.
      - injection Hq as <-. cbn [get]. rewrite Hx. cbn [x sr_base sr_depots]. rewrite Nat.eqb_refl. eexists. split; [reflexivity|]. auto.
      - destruct i; discriminate. }
    assert (Hshape : shape s2 r).
    { constructor; rewrite Hx; cbn [x sr_nodes sr_base sr_depots sr_veh sr_cap length Nat.sub]; try reflexivity.
      - intros p [<-|[<-|[]]]; split; try reflexivity; lia.
      - intros [|[|k]] Hk; cbn; auto. lia.
      - intros n [<-|[<-|[]]]; reflexivity.
      - lia.
      - pose proof (ok_trips s r Hok) as Ht. pose proof (f_equal (@length _) (ok_ends s r Hok)) as H2.
        rewrite map_length, firstn_length in H2. cbn [length] in H2. fold v in Ht. lia. }
    split; [|split; [|split; [assumption|assumption]]].
    + constructor.
      * apply (assemble s s2 (eq r)); try assumption.
        -- intros r'. apply Nat.eq_dec.
        -- cbn [s2 hp_routes]. rewrite upd_len. assumption.
        -- intros r' H. apply Ho. congruence.
        -- intros r' <-. auto.
        -- intros a. rewrite Hv. destruct (match n_route (hp_visits s a) with Some r' => r' =? r | None => false end); cbn; apply (hk_acts s Hs).
        -- intros b _. rewrite Hv. destruct (n_route (hp_visits s b)) as [r'|] eqn:Eb.
           ++ destruct (Nat.eqb_spec r' r) as [->|Hne]; [right; auto|]. left. split; [reflexivity|]. intros ? <-. congruence.
           ++ left. split; [reflexivity|]. intros ? <-. congruence.
        -- intros b. left. intros ? <-. apply Hno.
      * cbn [s2 hp_routes]. rewrite upd_len. assumption.
      * assumption.
      * assumption.
      * unfold acts. rewrite Hx. cbn [x sr_nodes map]. unfold p_act. cbn [get]. rewrite Hx. cbn [x sr_base sr_depots].
        rewrite Nat.eqb_refl. reflexivity.
      * rewrite Hx. reflexivity.
    + intros _. rewrite Hx. reflexivity.
Qed.

(** *** Updating *)
Theorem update_spec s r : heap_ok s -> r < length (hp_routes s) ->
  heap_ok (route_update s r) /\ length (hp_routes (route_update s r)) = length (hp_routes s) /\
  hp_visits (route_update s r) = hp_visits s /\
  (forall r', sr_nodes (sroute_at (route_update s r) r') = sr_nodes (sroute_at s r') /\
              sr_veh (sroute_at (route_update s r) r') = sr_veh (sroute_at s r') /\
              sr_depots (sroute_at (route_update s r) r') = sr_depots (sroute_at s r') /\
              sr_base (sroute_at (route_update s r) r') = sr_base (sroute_at s r') /\
              acts (route_update s r) r' = acts s r') /\
  (forall r', r' <> r -> sroute_at (route_update s r) r' = sroute_at s r') /\
  sr_synced (sroute_at (route_update s r) r) = mid_of s r.
Proof.
  intros Hs Hr. unfold route_update. set (x := with_synced _ _).
  assert (Hat : forall r', sroute_at (set_sroute s r x) r' = if r =? r' then x else sroute_at s r') by (intros; apply set_at; assumption).
  assert (Hf : forall r', sr_nodes (sroute_at (set_sroute s r x) r') = sr_nodes (sroute_at s r') /\
              sr_veh (sroute_at (set_sroute s r x) r') = sr_veh (sroute_at s r') /\
              sr_depots (sroute_at (set_sroute s r x) r') = sr_depots (sroute_at s r') /\
              sr_base (sroute_at (set_sroute s r x) r') = sr_base (sroute_at s r') /\
              sr_cap (sroute_at (set_sroute s r x) r') = sr_cap (sroute_at s r')).
  { intros r'. rewrite Hat. destruct (Nat.eqb_spec r r') as [<-|]; repeat split. }
  assert (Hl : length (hp_routes (set_sroute s r x)) = length (hp_routes s)) by apply upd_len.
  split; [|split; [assumption|split; [reflexivity|split; [|split]]]].
  - destruct Hs as [K1 K2 K3 K4]. constructor; cbn [set_sroute hp_visits]; try assumption.
    + intros r' Hr'. rewrite Hl in Hr'. destruct (Hf r') as (F1 & F2 & F3 & F4 & F5). destruct (K1 r' Hr') as [H1 H2 H3 H4 H5 H6 H7].
      rewrite <- ?F1, <- ?F2, <- ?F3, <- ?F4, <- ?F5 in *. constructor; assumption.
    + intros a r' Ha. rewrite Hl, (proj1 (Hf r')). apply K3. assumption.
  - intros r'. destruct (Hf r') as (F1 & F2 & F3 & F4 & F5). repeat (split; [assumption|]).
    unfold acts. rewrite F1. apply map_ext. intros [a|b k]; unfold p_act; cbn [get]; [reflexivity|]. rewrite F3, F4. reflexivity.
  - intros r' Hne. rewrite Hat, (proj2 (Nat.eqb_neq r r')) by auto. reflexivity.
  - rewrite Hat, Nat.eqb_refl. reflexivity.
Qed.

(** *** Swapping *)
Definition swap_name (a b : activity) (c : activity) : activity :=
  if a_eqb c a then b else if a_eqb c b then a else c.
Definition swap_ptr (a b : activity) (p : ptr) : ptr := match p with PV c => PV (swap_name a b c) | PD _ _ => p end.

Lemma swap_trip a b nodes i : trip_at (map (swap_ptr a b) nodes) i = trip_at nodes i.
Proof.
  unfold trip_at. replace (List.tl (map (swap_ptr a b) nodes)) with (map (swap_ptr a b) (List.tl nodes)) by (destruct nodes; reflexivity).
  rewrite firstn_map. generalize (firstn i (List.tl nodes)). intros l.
  induction l as [|[c|b' k] l IH]; cbn; [reflexivity|assumption|congruence].
Qed.
Lemma a_eqb_spec a b : reflect (a = b) (a_eqb a b).
Proof.
  destruct (a_eqb a b) eqn:E; constructor; [apply a_eqb_eq; assumption|]. intros ->. rewrite a_eqb_refl in E. discriminate.
Qed.
Lemma swap_invol a b c : swap_name a b (swap_name a b c) = c.
Proof.
  unfold swap_name. destruct (a_eqb_spec c a); [|destruct (a_eqb_spec c b)]; subst;
    repeat match goal with |- context [a_eqb ?x ?y] => destruct (a_eqb_spec x y) end; congruence.
Qed.
Lemma swap_inj a b c c' : swap_name a b c = swap_name a b c' -> c = c'.
Proof. intros H. rewrite <- (swap_invol a b c), H. apply swap_invol. Qed.

Lemma link_at s n p r : match n_route n with Some r => r < length (hp_routes s) | None => True end ->
  sr_nodes (sroute_at (link_node s n p) r) =
    match n_route n with Some r' => if r' =? r then upd (sr_nodes (sroute_at s r)) (n_pos n) p else sr_nodes (sroute_at s r)
    | None => sr_nodes (sroute_at s r) end /\
  sr_base (sroute_at (link_node s n p) r) = sr_base (sroute_at s r) /\
  sr_depots (sroute_at (link_node s n p) r) = sr_depots (sroute_at s r) /\
  sr_cap (sroute_at (link_node s n p) r) = sr_cap (sroute_at s r) /\
  sr_veh (sroute_at (link_node s n p) r) = sr_veh (sroute_at s r) /\
  sr_synced (sroute_at (link_node s n p) r) = sr_synced (sroute_at s r) /\
  hp_visits (link_node s n p) = hp_visits s /\ length (hp_routes (link_node s n p)) = length (hp_routes s).
Proof.
  intros H. unfold link_node. destruct (n_route n) as [r'|]; [|repeat split]. rewrite set_at by assumption.
  destruct (Nat.eqb_spec r' r) as [<-|]; cbn; rewrite upd_len; repeat split.
Qed.

Theorem swap_spec s a b : heap_ok s -> (forall r, r < length (hp_routes s) -> strict s r) ->
  a_isDepot a = false -> a_isDepot b = false ->
  heap_ok (route_swap s a b) /\ length (hp_routes (route_swap s a b)) = length (hp_routes s) /\
  (forall r, r < length (hp_routes s) -> strict (route_swap s a b) r) /\
  (forall r, sr_nodes (sroute_at (route_swap s a b) r) = map (swap_ptr a b) (sr_nodes (sroute_at s r)) /\
             sr_veh (sroute_at (route_swap s a b) r) = sr_veh (sroute_at s r) /\
             sr_base (sroute_at (route_swap s a b) r) = sr_base (sroute_at s r) /\
             sr_depots (sroute_at (route_swap s a b) r) = sr_depots (sroute_at s r) /\
             sr_synced (sroute_at (route_swap s a b) r) = sr_synced (sroute_at s r)) /\
  (forall r, r < length (hp_routes s) -> acts (route_swap s a b) r = map (swap_name a b) (acts s r)).
Proof.
  intros Hs Hstr Hda Hdb. set (s' := route_swap s a b).
  assert (Hra : match n_route (hp_visits s a) with Some r => r < length (hp_routes s) | None => True end).
  { destruct (n_route (hp_visits s a)) eqn:E; [|exact I]. apply (hk_assigned s Hs a n E). }
  assert (Hrb : match n_route (hp_visits s b) with Some r => r < length (hp_routes s) | None => True end).
  { destruct (n_route (hp_visits s b)) eqn:E; [|exact I]. apply (hk_assigned s Hs b n E). }
  assert (Hf : forall r, sr_base (sroute_at s' r) = sr_base (sroute_at s r) /\ sr_depots (sroute_at s' r) = sr_depots (sroute_at s r) /\
            sr_cap (sroute_at s' r) = sr_cap (sroute_at s r) /\ sr_veh (sroute_at s' r) = sr_veh (sroute_at s r) /\
            sr_synced (sroute_at s' r) = sr_synced (sroute_at s r) /\
            sr_nodes (sroute_at s' r) =
              (let l := match n_route (hp_visits s a) with
                        | Some r' => if r' =? r then upd (sr_nodes (sroute_at s r)) (n_pos (hp_visits s a)) (PV b) else sr_nodes (sroute_at s r)
                        | None => sr_nodes (sroute_at s r) end in
               match n_route (hp_visits s b) with
               | Some r' => if r' =? r then upd l (n_pos (hp_visits s b)) (PV a) else l
               | None => l end)).
  { intros r. destruct (link_at s (hp_visits s a) (PV b) r Hra) as (A1 & A2 & A3 & A4 & A5 & A6 & A7 & A8).
    assert (Hrb' : match n_route (hp_visits s b) with Some r => r < length (hp_routes (link_node s (hp_visits s a) (PV b))) | None => True end)
      by (destruct (n_route (hp_visits s b)); [rewrite A8; assumption|exact I]).
    destruct (link_at (link_node s (hp_visits s a) (PV b)) (hp_visits s b) (PV a) r Hrb') as (B1 & B2 & B3 & B4 & B5 & B6 & B7 & B8).
    change (sroute_at s' r) with (sroute_at (link_node (link_node s (hp_visits s a) (PV b)) (hp_visits s b) (PV a)) r).
    rewrite B2, B3, B4, B5, B6, A2, A3, A4, A5, A6. repeat (split; [reflexivity|]). rewrite B1, A1. reflexivity. }
  assert (Hlen : length (hp_routes s') = length (hp_routes s)).
  { destruct (link_at s (hp_visits s a) (PV b) 0 Hra) as (A1 & A2 & A3 & A4 & A5 & A6 & A7 & A8).
    assert (Hrb' : match n_route (hp_visits s b) with Some r => r < length (hp_routes (link_node s (hp_visits s a) (PV b))) | None => True end)
      by (destruct (n_route (hp_visits s b)); [rewrite A8; assumption|exact I]).
    destruct (link_at (link_node s (hp_visits s a) (PV b)) (hp_visits s b) (PV a) 0 Hrb') as (B1 & B2 & B3 & B4 & B5 & B6 & B7 & B8).
    change (length (hp_routes (link_node (link_node s (hp_visits s a) (PV b)) (hp_visits s b) (PV a))) = length (hp_routes s)).
    congruence. }
  assert (Hv : forall c, hp_visits s' c =
     let n := hp_visits s (swap_name a b c) in mk_node c (n_pos n) (n_trip n) (n_route n)).
  { intros c. unfold s', route_swap. cbn [put hp_visits].
    assert (Hv0 : hp_visits (link_node (link_node s (hp_visits s a) (PV b)) (hp_visits s b) (PV a)) = hp_visits s).
    { unfold link_node. destruct (n_route (hp_visits s a)), (n_route (hp_visits s b)); reflexivity. }
    unfold swap_name. destruct (a_eqb_spec c b) as [->|Hcb].
    - destruct (a_eqb_spec b a) as [->|Hba]; cbn; f_equal; apply (hk_acts s Hs).
    - destruct (a_eqb_spec c a) as [->|Hca]; [cbn; f_equal; apply (hk_acts s Hs)|].
      rewrite Hv0. cbn. rewrite <- (hk_acts s Hs c) at 2. destruct (hp_visits s c); reflexivity. }
  assert (Hnodes : forall r, sr_nodes (sroute_at s' r) = map (swap_ptr a b) (sr_nodes (sroute_at s r))).
  { intros r. destruct (Nat.lt_ge_cases r (length (hp_routes s))) as [Hr|Hr].
    2:{ assert (E : forall t, length (hp_routes t) <= r -> sr_nodes (sroute_at t r) = []).
        { intros t Ht. unfold sroute_at. rewrite nth_overflow by assumption. reflexivity. }
        rewrite !E by lia. reflexivity. }
    destruct (Hf r) as (_ & _ & _ & _ & _ & ->). apply nth_error_ext. intros i. rewrite nth_error_map.
    specialize (Hstr r Hr).
    assert (Ha : forall r', n_route (hp_visits s a) = Some r' -> nth_error (sr_nodes (sroute_at s r')) (n_pos (hp_visits s a)) = Some (PV a))
      by (intros r' E; apply (hk_assigned s Hs a r' E)).
    assert (Hb : forall r', n_route (hp_visits s b) = Some r' -> nth_error (sr_nodes (sroute_at s r')) (n_pos (hp_visits s b)) = Some (PV b))
      by (intros r' E; apply (hk_assigned s Hs b r' E)).
    set (l1 := match n_route (hp_visits s a) with Some r' => _ | None => _ end).
    assert (Hl1 : length l1 = length (sr_nodes (sroute_at s r))).
    { unfold l1. destruct (n_route (hp_visits s a)) as [r'|]; [|reflexivity]. destruct (r' =? r); [apply upd_len|reflexivity]. }
    assert (H1 : forall i, nth_error l1 i = match n_route (hp_visits s a) with
              | Some r' => if (r' =? r) && (n_pos (hp_visits s a) =? i) then Some (PV b) else nth_error (sr_nodes (sroute_at s r)) i
              | None => nth_error (sr_nodes (sroute_at s r)) i end).
    { intros j. unfold l1. destruct (n_route (hp_visits s a)) as [r'|]; [|reflexivity].
      destruct (Nat.eqb_spec r' r) as [->|]; [|reflexivity]. cbn [andb].
      apply upd_nth_err. eapply nth_error_lt. apply Ha. reflexivity. }
    assert (H2 : nth_error (match n_route (hp_visits s b) with Some r' => if r' =? r then upd l1 (n_pos (hp_visits s b)) (PV a) else l1 | None => l1 end) i
              = match n_route (hp_visits s b) with
              | Some r' => if (r' =? r) && (n_pos (hp_visits s b) =? i) then Some (PV a) else nth_error l1 i
              | None => nth_error l1 i end).
    { destruct (n_route (hp_visits s b)) as [r'|]; [|reflexivity].
      destruct (Nat.eqb_spec r' r) as [->|]; [|reflexivity]. cbn [andb].
      apply upd_nth_err. rewrite Hl1. eapply nth_error_lt. apply Hb. reflexivity. }
    cbv zeta. rewrite H2, H1. clear H1 H2 Hl1 l1.
    destruct (nth_error (sr_nodes (sroute_at s r)) i) as [p|] eqn:Ei.
    - destruct p as [c|bb k].
      + destruct (Hstr i c Ei) as [Hc1 Hc2]. cbn [option_map swap_ptr]. unfold swap_name.
        destruct (a_eqb_spec c a) as [->|Hca].
        * rewrite Hc1, Nat.eqb_refl, (proj2 (Nat.eqb_eq _ _) Hc2). cbn [andb].
          destruct (n_route (hp_visits s b)) as [r'|] eqn:Eb; [|reflexivity].
          destruct (Nat.eqb_spec r' r) as [->|]; [|reflexivity]. destruct (Nat.eqb_spec (n_pos (hp_visits s b)) i) as [Ep|]; [|reflexivity].
          cbn [andb]. specialize (Hb r eq_refl). congruence.
        * destruct (a_eqb_spec c b) as [->|Hcb].
          -- rewrite Hc1, Nat.eqb_refl, (proj2 (Nat.eqb_eq _ _) Hc2). reflexivity.
          -- assert (Xb : match n_route (hp_visits s b) with Some r' => (r' =? r) && (n_pos (hp_visits s b) =? i) | None => false end = false).
             { destruct (n_route (hp_visits s b)) as [r'|]; [|reflexivity]. destruct (Nat.eqb_spec r' r) as [->|]; [|reflexivity].
               cbn [andb]. apply Nat.eqb_neq. intros E. specialize (Hb r eq_refl). congruence. }
             assert (Xa : match n_route (hp_visits s a) with Some r' => (r' =? r) && (n_pos (hp_visits s a) =? i) | None => false end = false).
             { destruct (n_route (hp_visits s a)) as [r'|]; [|reflexivity]. destruct (Nat.eqb_spec r' r) as [->|]; [|reflexivity].
               cbn [andb]. apply Nat.eqb_neq. intros E. specialize (Ha r eq_refl). congruence. }
             destruct (n_route (hp_visits s b)) as [r'|]; destruct (n_route (hp_visits s a)) as [r''|]; rewrite ?Xa, ?Xb; reflexivity.
      + cbn [option_map swap_ptr].
        assert (Xb : match n_route (hp_visits s b) with Some r' => (r' =? r) && (n_pos (hp_visits s b) =? i) | None => false end = false).
        { destruct (n_route (hp_visits s b)) as [r'|]; [|reflexivity]. destruct (Nat.eqb_spec r' r) as [->|]; [|reflexivity].
          cbn [andb]. apply Nat.eqb_neq. intros E. specialize (Hb r eq_refl). congruence. }
        assert (Xa : match n_route (hp_visits s a) with Some r' => (r' =? r) && (n_pos (hp_visits s a) =? i) | None => false end = false).
        { destruct (n_route (hp_visits s a)) as [r'|]; [|reflexivity]. destruct (Nat.eqb_spec r' r) as [->|]; [|reflexivity].
          cbn [andb]. apply Nat.eqb_neq. intros E. specialize (Ha r eq_refl). congruence. }
        destruct (n_route (hp_visits s b)) as [r'|]; destruct (n_route (hp_visits s a)) as [r''|]; rewrite ?Xa, ?Xb; reflexivity.
    - assert (Xb : match n_route (hp_visits s b) with Some r' => (r' =? r) && (n_pos (hp_visits s b) =? i) | None => false end = false).
      { destruct (n_route (hp_visits s b)) as [r'|]; [|reflexivity]. destruct (Nat.eqb_spec r' r) as [->|]; [|reflexivity].
        cbn [andb]. apply Nat.eqb_neq. intros E. specialize (Hb r eq_refl). congruence. }
      assert (Xa : match n_route (hp_visits s a) with Some r' => (r' =? r) && (n_pos (hp_visits s a) =? i) | None => false end = false).
      { destruct (n_route (hp_visits s a)) as [r'|]; [|reflexivity]. destruct (Nat.eqb_spec r' r) as [->|]; [|reflexivity].
        cbn [andb]. apply Nat.eqb_neq. intros E. specialize (Ha r eq_refl). congruence. }
      destruct (n_route (hp_visits s b)) as [r'|]; destruct (n_route (hp_visits s a)) as [r''|]; rewrite ?Xa, ?Xb; reflexivity. }
  assert (Hnd : forall c, a_isDepot c = false -> a_isDepot (swap_name a b c) = false).
  { intros c Hc. unfold swap_name. destruct (a_eqb c a); [assumption|]. destruct (a_eqb c b); assumption. }
  assert (Hat : forall r i c, nth_error (sr_nodes (sroute_at s r)) i = Some (PV (swap_name a b c)) <->
              nth_error (sr_nodes (sroute_at s' r)) i = Some (PV c)).
  { intros r i c. rewrite Hnodes, nth_error_map. split.
    - intros ->. cbn. rewrite swap_invol. reflexivity.
    - destruct (nth_error (sr_nodes (sroute_at s r)) i) as [[c'|bb k]|]; cbn; try discriminate. injection 1 as <-.
      rewrite swap_invol. reflexivity. }
  assert (Hstr' : forall r, r < length (hp_routes s) -> strict s' r).
  { intros r Hr i c Hi. apply Hat in Hi. destruct (Hstr r Hr i _ Hi) as [S1 S2]. rewrite Hv. cbn. auto. }
  split; [|split; [assumption|split; [assumption|split]]].
  - constructor.
    + intros r Hr. rewrite Hlen in Hr. destruct (Hf r) as (F1 & F2 & F3 & F4 & _ & _). pose proof (Hnodes r) as F5.
      destruct (hk_routes s Hs r Hr) as [H1 H2 H3 H4 H5 H6 H7]. constructor; rewrite ?F1, ?F2, ?F3, ?F4, ?F5; try assumption.
      * rewrite nth_error_map, H1. reflexivity.
      * rewrite map_length, nth_error_map, H2. reflexivity.
      * intros k n Hn. destruct (H3 k n Hn) as (G1 & G2 & G3 & G4). rewrite nth_error_map, G1, swap_trip. auto.
      * intros i p Hp. rewrite nth_error_map in Hp. destruct (nth_error (sr_nodes (sroute_at s r)) i) as [p0|] eqn:E; [|discriminate].
        injection Hp as <-. specialize (H4 i p0 E). destruct p0 as [c|bb k]; cbn [swap_ptr]; [apply Hnd|]; assumption.
    + intros c. rewrite Hv. reflexivity.
    + intros c r. rewrite Hv. cbn [n_route n_pos n_trip]. intros Hc. destruct (hk_assigned s Hs _ r Hc) as (G1 & G2 & G3). rewrite Hlen.
      split; [assumption|]. split; [apply Hat; assumption|]. rewrite Hnodes, swap_trip. assumption.
    + intros c. rewrite Hv. cbn. apply (hk_free s Hs).
  - intros r. destruct (Hf r) as (F1 & F2 & F3 & F4 & F5 & _). auto.
  - intros r Hr. unfold acts. rewrite Hnodes, !map_map. apply map_ext_in. intros p Hp. unfold p_act.
    destruct p as [c|bb k]; cbn [swap_ptr get].
    + rewrite Hv, (hk_acts s Hs). cbn. reflexivity.
    + destruct (Hf r) as (F1 & F2 & _). rewrite F1, F2. apply In_nth_error in Hp as [i Hi].
      pose proof (ok_nodes s r (hk_routes s Hs r Hr) i _ Hi) as (-> & n & Hn & _). rewrite Nat.eqb_refl, Hn.
      pose proof (ok_depots s r (hk_routes s Hs r Hr) k n Hn) as (_ & _ & Hd & _). unfold swap_name.
      destruct (a_eqb_spec (n_act n) a); [congruence|]. destruct (a_eqb_spec (n_act n) b); congruence.
Qed.
