(** Model of pyvrp/cpp/search/SearchSpace.{h,cpp}: neighbourhoods, promising activities and the
    order in which the search traverses activities and vehicle types. *)
From Coq Require Import Permutation.
From Verif Require Import Base DurationSegment Data Valid RouteSpec Bitset Rng.

(** SearchSpace.h:27, a std::unordered_map<Activity, std::vector<Activity>>: an association list
    without repeated keys.  Its iteration order is unspecified; nothing below depends on it. *)
Definition neighbours := list (activity * list activity).
Fixpoint nb_find (nb : neighbours) (a : activity) : option (list activity) :=
  match nb with
  | [] => None
  | (k, l) :: more => if a_eqb k a then Some l else nb_find more a
  end.

(** SearchSpace.h:27-44 *)
Record space := mk_space {
  ss_neighbours : neighbours;
  ss_order : list activity;
  ss_vehOrder : list (nat * nat);
  ss_promising : bitset }.

(** SearchSpace.cpp:41-58: the loop over the entries; both failures throw std::runtime_error. *)
Definition entry_ok (entry : activity * list activity) : bool :=
  (a_isClient (fst entry) || a_isPickup (fst entry))
  && negb (existsb (fun item => a_eqb item (fst entry)) (snd entry)).

(** SearchSpace.cpp:36-63: setNeighbours. *)
Definition set_neighbours (s : space) (nb : neighbours) : res space :=
  if negb (length (ss_neighbours s) =? 0)%nat && negb (length nb =? length (ss_neighbours s))%nat
  then Err RuntimeErr
  else if forallb entry_ok nb
  then Ok (mk_space nb (ss_order s) (ss_vehOrder s) (ss_promising s))
  else Err RuntimeErr.

(** SearchSpace.cpp:26-31: the pairs of vehicle type and offset. *)
Fixpoint veh_order (types : list vehicle) (vt offset : nat) : list (nat * nat) :=
  match types with
  | [] => []
  | v :: more => (vt, offset) :: veh_order more (S vt) (offset + v_numAvailable v)
  end.

(** SearchSpace.cpp:20-24 *)
Definition activity_order (d : pdata) : list activity :=
  map AClient (seq 0 (p_numClients d)) ++ map APickup (seq 0 (p_numShipments d)).

(** SearchSpace.cpp:11-32: the constructor. *)
Definition make_space (d : pdata) (nb : neighbours) : res space :=
  let n := (p_numClients d + p_numShipments d)%nat in
  if negb (length nb =? n)%nat then Err RuntimeErr
  else set_neighbours (mk_space [] (activity_order d) (veh_order (p_vehicles d) 0 0) (bs_make n)) nb.

(** SearchSpace.cpp:70-74: std::unordered_map::at throws std::out_of_range. *)
Definition neighbours_of (s : space) (a : activity) : res (list activity) :=
  match nb_find (ss_neighbours s) a with Some l => Ok l | None => Err OutOfRange end.

(** SearchSpace.cpp:76-91: the bit of an activity; clients from the front, shipments from the
    back. *)
Definition bit_of (b : bitset) (a : activity) : nat :=
  if a_isClient a then a_idx a else (bs_size b - a_idx a - 1)%nat.
Definition is_promising (s : space) (a : activity) : bool :=
  bs_get (ss_promising s) (bit_of (ss_promising s) a).
Definition set_promising (s : space) (b : bitset) : space :=
  mk_space (ss_neighbours s) (ss_order s) (ss_vehOrder s) b.
Definition mark (s : space) (a : activity) : space :=
  set_promising s (bs_set (ss_promising s) (bit_of (ss_promising s) a) true).

(** SearchSpace.cpp:93-105: mark a node of a route and its two neighbours, unless they are depots.
    [nodes] are the activities of the route, depots included, and [pos] the node's position. *)
Definition mark_visit (s : space) (a : activity) : space :=
  if a_isClient a || a_isShipment a then mark s a else s.
Definition mark_node (s : space) (nodes : list activity) (pos : nat) : space :=
  let at_ i := nth i nodes (ADepot 0) in
  let s := mark_visit s (at_ pos) in
  let s := if (pos =? 0)%nat then s else mark_visit s (at_ (pos - 1)%nat) in
  if (pos =? length nodes - 1)%nat then s else mark_visit s (at_ (pos + 1)%nat).

(** SearchSpace.cpp:107-109 *)
Definition mark_all (s : space) : space := set_promising s (bs_set_all (ss_promising s)).
Definition unmark_all (s : space) : space := set_promising s (bs_reset (ss_promising s)).

(** SearchSpace.cpp:121-125 *)
Definition space_shuffle (r : rng) (s : space) : rng * space :=
  let '(r, order) := rng_shuffle r (ss_order s) in
  let '(r, vehOrder) := rng_shuffle r (ss_vehOrder s) in
  (r, mk_space (ss_neighbours s) order vehOrder (ss_promising s)).

(** Everything one can do to a search space. *)
Inductive space_op :=
| OpSet (nb : neighbours)
| OpMark (a : activity)
| OpMarkNode (nodes : list activity) (pos : nat)
| OpMarkAll
| OpUnmarkAll
| OpShuffle (r : rng).
Definition space_step (s : space) (o : space_op) : space :=
  match o with
  | OpSet nb => match set_neighbours s nb with Ok s' => s' | Err _ => s end
  | OpMark a => mark s a
  | OpMarkNode nodes pos => mark_node s nodes pos
  | OpMarkAll => mark_all s
  | OpUnmarkAll => unmark_all s
  | OpShuffle r => snd (space_shuffle r s)
  end.
Definition space_run (s : space) (ops : list space_op) : space := fold_left space_step ops s.

(** ** Facts *)
Lemma a_eqb_eq a b : a_eqb a b = true <-> a = b.
Proof.
  destruct a, b; cbn; split; intros H; try discriminate; try (apply Nat.eqb_eq in H; subst; reflexivity);
  injection H as ->; apply Nat.eqb_refl.
Qed.

Lemma entry_ok_spec e : entry_ok e = true <->
  (a_isClient (fst e) = true \/ a_isPickup (fst e) = true) /\ ~ In (fst e) (snd e).
Proof.
  unfold entry_ok. rewrite Bool.andb_true_iff, Bool.orb_true_iff, Bool.negb_true_iff.
  split; intros [H1 H2]; (split; [assumption|]).
  - intros Hin. assert (existsb (fun item => a_eqb item (fst e)) (snd e) = true) as X; [|congruence].
    apply existsb_exists. exists (fst e). split; [assumption|]. apply a_eqb_eq; reflexivity.
  - destruct (existsb _ (snd e)) eqn:E; [|reflexivity].
    apply existsb_exists in E as (x & Hx & Hx'). apply a_eqb_eq in Hx'; subst. contradiction.
Qed.

Definition good_neighbours (nb : neighbours) : Prop :=
  forall k l, In (k, l) nb -> (a_isClient k = true \/ a_isPickup k = true) /\ ~ In k l.

Lemma entries_ok nb : forallb entry_ok nb = true <-> good_neighbours nb.
Proof.
  rewrite forallb_forall. split.
  - intros H k l Hin. apply (entry_ok_spec (k, l)), H, Hin.
  - intros H [k l] Hin. apply entry_ok_spec, (H k l Hin).
Qed.

Theorem set_neighbours_iff s nb :
  (exists s', set_neighbours s nb = Ok s') <->
  (ss_neighbours s <> [] -> length nb = length (ss_neighbours s)) /\ good_neighbours nb.
Proof.
  unfold set_neighbours. split.
  - intros [s' H]. destruct (negb _ && negb _) eqn:E; [discriminate|].
    destruct (forallb entry_ok nb) eqn:F; [|discriminate]. split; [|apply entries_ok, F].
    intros Hne. apply Bool.andb_false_iff in E as [E|E]; apply Bool.negb_false_iff, Nat.eqb_eq in E;
      [|assumption]. apply length_zero_iff_nil in E; contradiction.
  - intros [H1 H2]. apply entries_ok in H2. rewrite H2.
    destruct (ss_neighbours s) as [|e more] eqn:E.
    + cbn. eexists; reflexivity.
    + rewrite H1 by discriminate. rewrite Nat.eqb_refl. rewrite Bool.andb_false_r. eexists; reflexivity.
Qed.

Theorem set_neighbours_result s nb s' : set_neighbours s nb = Ok s' ->
  ss_neighbours s' = nb /\ ss_order s' = ss_order s /\ ss_vehOrder s' = ss_vehOrder s /\
  ss_promising s' = ss_promising s.
Proof.
  unfold set_neighbours. destruct (_ && _); [discriminate|]. destruct (forallb _ _); [|discriminate].
  intros [= <-]. repeat split.
Qed.

Theorem make_space_iff d nb :
  (exists s, make_space d nb = Ok s) <->
  length nb = (p_numClients d + p_numShipments d)%nat /\ good_neighbours nb.
Proof.
  unfold make_space. destruct (length nb =? _)%nat eqn:E; cbn [negb].
  - apply Nat.eqb_eq in E. rewrite set_neighbours_iff. cbn [ss_neighbours].
    split; [intros [_ H]; auto|intros [_ H]; split; [congruence|assumption]].
  - apply Nat.eqb_neq in E. split; [intros [s H]; discriminate|intros [H _]; contradiction].
Qed.

(** *** Promising activities *)
Record space_ok (d : pdata) (s : space) : Prop := mk_space_ok {
  so_bits : bs_ok (ss_promising s);
  so_size : (p_numClients d + p_numShipments d <= bs_size (ss_promising s))%nat;
  so_order : Permutation (activity_order d) (ss_order s);
  so_veh : Permutation (veh_order (p_vehicles d) 0 0) (ss_vehOrder s);
  so_nb : good_neighbours (ss_neighbours s) }.

(** Client or part of a shipment that exists. *)
Definition visit_known (d : pdata) (a : activity) : Prop := a_isDepot a = false /\ known d a.

(** The client or shipment an activity belongs to. *)
Definition same_item (a b : activity) : Prop :=
  a_isDepot a = false /\ a_isDepot b = false /\ a_isClient a = a_isClient b /\ a_idx a = a_idx b.

Lemma same_item_dec a b : {same_item a b} + {~ same_item a b}.
Proof.
  unfold same_item. destruct a, b; cbn; try (right; intros (H1 & H2 & H3 & H4); discriminate).
  all: destruct (Nat.eq_dec i i0); [left; auto|right; intros (_ & _ & _ & H); contradiction].
Qed.

Lemma bit_of_inj d s a b : space_ok d s -> visit_known d a -> visit_known d b ->
  bit_of (ss_promising s) a = bit_of (ss_promising s) b <-> same_item a b.
Proof.
  intros [_ Hs _ _ _] [Ha Ka] [Hb Kb]. unfold bit_of, same_item, p_numClients, p_numShipments in *.
  destruct a, b; cbn in *; try discriminate; unfold p_numClients, p_numShipments in *;
  split; intros H; repeat split; try lia; try (destruct H as (_ & _ & H1 & H2); try discriminate; lia).
Qed.
Lemma bit_of_lt d s a : space_ok d s -> visit_known d a ->
  (bit_of (ss_promising s) a < bs_size (ss_promising s))%nat.
Proof.
  intros [_ Hs _ _ _] [Ha Ka]. unfold bit_of, p_numClients, p_numShipments in *.
  destruct a; cbn in *; try discriminate; unfold p_numClients, p_numShipments in *; lia.
Qed.

Lemma make_space_ok d nb s : make_space d nb = Ok s ->
  space_ok d s /\ ss_neighbours s = nb /\ forall a, is_promising s a = false.
Proof.
  intros H. assert (exists s, make_space d nb = Ok s) as H' by eauto.
  apply make_space_iff in H' as [H1 H2]. unfold make_space in H. rewrite H1, Nat.eqb_refl in H. cbn [negb] in H.
  apply set_neighbours_result in H as (E1 & E2 & E3 & E4). cbn in E2, E3, E4.
  pose proof (make_spec (p_numClients d + p_numShipments d)) as (B1 & B2 & B3 & _).
  split; [constructor|split; [assumption|]].
  - rewrite E4; assumption.
  - rewrite E4; assumption.
  - rewrite E2; reflexivity.
  - rewrite E3; reflexivity.
  - rewrite E1; assumption.
  - intros a. unfold is_promising. rewrite E4. apply B2.
Qed.

Lemma mark_spec d s a : space_ok d s -> visit_known d a ->
  space_ok d (mark s a) /\
  forall b, visit_known d b ->
    is_promising (mark s a) b = if same_item_dec a b then true else is_promising s b.
Proof.
  intros Hs Ha. destruct (set_spec (ss_promising s) (bit_of (ss_promising s) a) true
    (so_bits _ _ Hs) (bit_of_lt _ _ _ Hs Ha)) as (S1 & S2 & S3).
  split.
  - destruct Hs as [A1 A2 A3 A4 A5]. constructor; cbn [mark set_promising ss_promising ss_order ss_vehOrder ss_neighbours]; try assumption. rewrite S2. assumption.
  - intros b Hb. unfold is_promising at 1. cbn [mark set_promising ss_promising].
    assert (bit_of (bs_set (ss_promising s) (bit_of (ss_promising s) a) true) b
            = bit_of (ss_promising s) b) as E by (unfold bit_of at 1; rewrite S2; reflexivity).
    rewrite E, S3. pose proof (bit_of_inj d s a b Hs Ha Hb) as I.
    destruct (same_item_dec a b) as [X|X].
    + apply I in X. rewrite X, Nat.eqb_refl. reflexivity.
    + destruct (Nat.eqb_spec (bit_of (ss_promising s) a) (bit_of (ss_promising s) b)) as [Y|Y]; [|reflexivity].
      apply I in Y; contradiction.
Qed.

(** The activities a node mark is about: those of the node, its predecessor and its successor that
    are not depots. *)
Definition node_marks (nodes : list activity) (pos : nat) : list activity :=
  filter (fun a => negb (a_isDepot a))
    (nth pos nodes (ADepot 0)
     :: (if (pos =? 0)%nat then [] else [nth (pos - 1) nodes (ADepot 0)])
     ++ (if (pos =? length nodes - 1)%nat then [] else [nth (pos + 1) nodes (ADepot 0)])).

Lemma mark_visit_fold s a : mark_visit s a = fold_left mark (filter (fun a => negb (a_isDepot a)) [a]) s.
Proof. destruct a; reflexivity. Qed.

Lemma mark_node_fold s nodes pos : mark_node s nodes pos = fold_left mark (node_marks nodes pos) s.
Proof.
  unfold mark_node, node_marks. set (f := fun a => negb (a_isDepot a)).
  set (x := nth pos nodes (ADepot 0)). set (y := nth (pos - 1) nodes (ADepot 0)).
  set (z := nth (pos + 1) nodes (ADepot 0)).
  rewrite !mark_visit_fold. change (x :: ?l) with ([x] ++ l).
  rewrite !filter_app, !fold_left_app.
  destruct (pos =? 0)%nat, (pos =? length nodes - 1)%nat; reflexivity.
Qed.

(** Marks of one operation: [None] stands for "all". *)
Definition op_known (d : pdata) (o : space_op) : Prop :=
  match o with
  | OpMark a => visit_known d a
  | OpMarkNode nodes pos => forall a, In a (node_marks nodes pos) -> visit_known d a
  | _ => True
  end.
Definition marks (o : space_op) (b : activity) : Prop :=
  match o with
  | OpMark a => same_item a b
  | OpMarkNode nodes pos => exists a, In a (node_marks nodes pos) /\ same_item a b
  | OpMarkAll => True
  | _ => False
  end.

Lemma marks_fold d l : forall s, space_ok d s -> (forall a, In a l -> visit_known d a) ->
  space_ok d (fold_left mark l s) /\
  forall b, visit_known d b ->
    is_promising (fold_left mark l s) b = true <->
    is_promising s b = true \/ exists a, In a l /\ same_item a b.
Proof.
  induction l as [|a l IH]; intros s Hs Hl; cbn [fold_left].
  - split; [assumption|]. intros b Hb. split; [auto|intros [H|(a & [] & _)]; assumption].
  - destruct (mark_spec d s a Hs (Hl a (or_introl eq_refl))) as [M1 M2].
    destruct (IH (mark s a) M1 (fun x Hx => Hl x (or_intror Hx))) as [I1 I2].
    split; [assumption|]. intros b Hb. rewrite (I2 b Hb), (M2 b Hb).
    destruct (same_item_dec a b) as [X|X]; split.
    + intros _. right. exists a. split; [left; reflexivity|assumption].
    + intros _. left; reflexivity.
    + intros [H|(x & Hx & Hx')]; [left; assumption|right; exists x; split; [right|]; assumption].
    + intros [H|(x & [->|Hx] & Hx')]; [left; assumption|contradiction|right; eauto].
Qed.

Lemma shuffle_spec d r s : space_ok d s ->
  space_ok d (snd (space_shuffle r s)) /\
  ss_neighbours (snd (space_shuffle r s)) = ss_neighbours s /\
  ss_promising (snd (space_shuffle r s)) = ss_promising s.
Proof.
  intros Hs. unfold space_shuffle.
  pose proof (rng_shuffle_perm r (ss_order s)) as P1. destruct (rng_shuffle r (ss_order s)) as [r1 o].
  pose proof (rng_shuffle_perm r1 (ss_vehOrder s)) as P2. destruct (rng_shuffle r1 (ss_vehOrder s)) as [r2 vo].
  cbn in *. split; [|split; reflexivity]. destruct Hs as [A1 A2 A3 A4 A5]. constructor; cbn; try assumption.
  - etransitivity; eassumption.
  - etransitivity; eassumption.
Qed.

Lemma step_ok d s o : space_ok d s -> op_known d o -> space_ok d (space_step s o) /\
  forall b, visit_known d b ->
    is_promising (space_step s o) b = true <->
    marks o b \/ (o <> OpUnmarkAll /\ is_promising s b = true).
Proof.
  intros Hs Ho. destruct o as [nb|a|nodes pos| | |r]; cbn [space_step marks op_known] in *.
  - destruct (set_neighbours s nb) as [s'|e] eqn:E.
    + assert (exists s', set_neighbours s nb = Ok s') as X by eauto. apply set_neighbours_iff in X as [_ X].
      apply set_neighbours_result in E as (E1 & E2 & E3 & E4). destruct Hs as [A1 A2 A3 A4 A5].
      split; [constructor; rewrite ?E1, ?E2, ?E3, ?E4; assumption|]. intros b Hb. unfold is_promising. rewrite E4.
      split; [intros H; right; split; [discriminate|assumption]|intros [[]|[_ H]]; assumption].
    + split; [assumption|]. intros b Hb. split; [intros H; right; split; [discriminate|assumption]|intros [[]|[_ H]]; assumption].
  - destruct (mark_spec d s a Hs Ho) as [M1 M2]. split; [assumption|]. intros b Hb. rewrite (M2 b Hb).
    destruct (same_item_dec a b) as [X|X]; split; auto.
    + intros H; right; split; [discriminate|assumption].
    + intros [H|[_ H]]; [contradiction|assumption].
  - rewrite mark_node_fold. destruct (marks_fold d (node_marks nodes pos) s Hs Ho) as [M1 M2].
    split; [assumption|]. intros b Hb. rewrite (M2 b Hb).
    split; [intros [H|H]; [right; split; [discriminate|assumption]|left; assumption]|intros [H|[_ H]]; auto].
  - destruct (fill_spec (ss_promising s) (so_bits _ _ Hs)) as [(F1 & F2 & F3) _].
    destruct Hs as [A1 A2 A3 A4 A5]. split.
    + constructor; cbn [mark_all unmark_all set_promising ss_promising ss_order ss_vehOrder ss_neighbours]; try assumption. rewrite F2; assumption.
    + intros b Hb. split; [auto|intros _]. unfold is_promising, mark_all, set_promising; cbn [ss_promising].
      apply F3. rewrite <- F2. apply (bit_of_lt d (mark_all s)); [|assumption].
      constructor; cbn [mark_all unmark_all set_promising ss_promising ss_order ss_vehOrder ss_neighbours]; try assumption. rewrite F2; assumption.
  - destruct (fill_spec (ss_promising s) (so_bits _ _ Hs)) as [_ (F1 & F2 & F3)].
    destruct Hs as [A1 A2 A3 A4 A5]. split.
    + constructor; cbn [mark_all unmark_all set_promising ss_promising ss_order ss_vehOrder ss_neighbours]; try assumption. rewrite F2; assumption.
    + intros b Hb. unfold is_promising, unmark_all, set_promising; cbn [ss_promising]. rewrite F3.
      split; [discriminate|intros [[]|[H _]]; contradiction].
  - destruct (shuffle_spec d r s Hs) as (H1 & H2 & H3). split; [assumption|]. intros b Hb.
    unfold is_promising. rewrite H3.
    split; [intros H; right; split; [discriminate|assumption]|intros [[]|[_ H]]; assumption].
Qed.

(** An activity is promising exactly when something marked it after the last unmark. *)
Theorem promising_spec d : forall ops nb s, make_space d nb = Ok s ->
  Forall (op_known d) ops -> forall a, visit_known d a ->
  is_promising (space_run s ops) a = true <->
  exists before o after, ops = before ++ o :: after /\ marks o a /\ ~ In OpUnmarkAll after.
Proof.
  intros ops nb s Hm Hops a Ha. destruct (make_space_ok d nb s Hm) as (Hs & _ & Hp).
  unfold space_run. revert Hops. induction ops as [|o ops IH] using rev_ind; intros Hops.
  - cbn. rewrite Hp. split; [discriminate|intros (b & o & af & E & _)]. destruct b; discriminate.
  - apply Forall_app in Hops as [H1 H2]. apply Forall_inv in H2.
    assert (space_ok d (fold_left space_step ops s)) as Hok.
    { clear - Hs H1. revert s Hs; induction H1 as [|x l Hx Hl IH]; intros s Hs; cbn; [assumption|].
      apply IH, step_ok; assumption. }
    rewrite fold_left_app. cbn [fold_left]. destruct (step_ok d _ o Hok H2) as [_ S]. rewrite (S a Ha).
    rewrite (IH H1). split.
    + intros [H|[Hn (b & o' & af & -> & M & N)]].
      * exists ops, o, []. repeat split; [assumption|intros []].
      * exists b, o', (af ++ [o]). rewrite <- app_assoc. split; [reflexivity|]. split; [assumption|].
        intros X. apply in_app_or in X as [X|[X|[]]]; [contradiction|]. congruence.
    + intros (b & o' & af & E & M & N).
      destruct af as [|y af _] using rev_ind.
      * apply app_inj_tail in E as [-> ->]. left; assumption.
      * rewrite app_comm_cons, app_assoc in E. apply app_inj_tail in E as [-> ->]. right.
        split; [intros ->; apply N, in_or_app; right; left; reflexivity|].
        exists b, o', af. split; [reflexivity|]. split; [assumption|].
        intros X. apply N, in_or_app; left; assumption.
Qed.

Theorem space_run_ok d nb s ops : make_space d nb = Ok s -> Forall (op_known d) ops ->
  space_ok d (space_run s ops).
Proof.
  intros Hm Hops. destruct (make_space_ok d nb s Hm) as (Hs & _ & _). unfold space_run. clear Hm.
  revert s Hs; induction Hops as [|x l Hx Hl IH]; intros s Hs; cbn; [assumption|].
  apply IH, step_ok; assumption.
Qed.

(** *** Vehicle types: the routes [offset .. offset + numAvailable - 1] are those of the type. *)
Lemma veh_order_spec vs : forall vt off,
  map fst (veh_order vs vt off) = seq vt (length vs) /\
  forall t o, In (t, o) (veh_order vs vt off) ->
    (vt <= t < vt + length vs)%nat /\
    o = (off + fold_right Nat.add 0 (map v_numAvailable (firstn (t - vt) vs)))%nat.
Proof.
  induction vs as [|v vs IH]; intros vt off; cbn [veh_order map length seq].
  - split; [reflexivity|intros t o []].
  - destruct (IH (S vt) (off + v_numAvailable v)%nat) as [H1 H2]. split; [cbn; rewrite H1; reflexivity|].
    intros t o [H|H].
    + injection H as <- <-. rewrite Nat.sub_diag. cbn. lia.
    + apply H2 in H as [H3 ->]. split; [lia|].
      replace (t - vt)%nat with (S (t - S vt)) by lia. cbn [firstn map fold_right]. lia.
Qed.
