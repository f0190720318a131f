(** Sequences of edits of search routes: the pointer structure of SearchNodes.v refines plain lists. *)
From Coq Require Import Permutation.
From Verif Require Import Base DurationSegment Data SearchSpace SearchNodes.
Local Open Scope nat_scope.

(** The operations of search::Route on the routes and nodes of a search solution (search/Route.h:370-500;
    search/Route.cpp:62-187). *)
Inductive op :=
| OInsert (r idx : nat) (a : activity)
| ORemove (r idx : nat)
| OSwap (a b : activity)
| OClear (r : nat)
| OUpdate (r : nat).

(** [None]: undefined behaviour; the flag: an exception was thrown. *)
Definition run_op (s : heap) (o : op) : option (heap * bool) :=
  match o with
  | OInsert r idx a => route_insert s r idx a
  | ORemove r idx => match route_remove s r idx with Some s' => Some (s', false) | None => None end
  | OSwap a b => Some (route_swap s a b, false)
  | OClear r => match route_clear s r with Some s' => Some (s', false) | None => None end
  | OUpdate r => Some (route_update s r, false)
  end.
Fixpoint run_ops (s : heap) (os : list op) : option (heap * bool) :=
  match os with
  | [] => Some (s, false)
  | o :: more =>
      match run_op s o with
      | Some (s', false) => run_ops s' more
      | other => other
      end
  end.

(** What the operations should do to the lists of activities, depots included. *)
Definition plan_op (vs : list vehicle) (pl : list (list activity)) (o : op) : list (list activity) :=
  match o with
  | OInsert r idx a => upd pl r (insert_at idx a (nth r pl []))
  | ORemove r idx => upd pl r (remove_at idx (nth r pl []))
  | OSwap a b => map (map (swap_name a b)) pl
  | OClear r => let v := nth r vs dummy_vehicle in upd pl r [ADepot (v_start v); ADepot (v_end v)]
  | OUpdate _ => pl
  end.
(** Their preconditions (the assertions of search/Route.cpp:92, 135, 136 and 167; a node goes into one
    route; the trip limit). *)
Definition op_ok (vs : list vehicle) (pl : list (list activity)) (o : op) : Prop :=
  match o with
  | OInsert r idx a => r < length pl /\ 0 < idx /\ idx < length (nth r pl []) /\
      if a_isDepot a then (Z.of_nat (length (filter a_isDepot (nth r pl []))) <= v_maxTrips (nth r vs dummy_vehicle))%Z
      else forall l, In l pl -> ~ In a l
  | ORemove r idx => r < length pl /\ 0 < idx /\ idx < length (nth r pl []) - 1
  | OSwap a b => a_isDepot a = false /\ a_isDepot b = false
  | OClear r | OUpdate r => r < length pl
  end.
Fixpoint ops_ok (vs : list vehicle) (pl : list (list activity)) (os : list op) : Prop :=
  match os with [] => True | o :: more => op_ok vs pl o /\ ops_ok vs (plan_op vs pl o) more end.
Definition start_plan (vs : list vehicle) : list (list activity) :=
  map (fun v => [ADepot (v_start v); ADepot (v_end v)]) vs.

(** The node at a position of a route. *)
Definition node_at (s : heap) (r i : nat) : option node :=
  match nth_error (sr_nodes (sroute_at s r)) i with Some p => get s r p | None => None end.

(** The nodes and routes [s] show the plan [pl]. *)
Record shows (vs : list vehicle) (s : heap) (pl : list (list activity)) : Prop := mk_shows {
  sw_routes : length (hp_routes s) = length pl;
  sw_len : forall r, r < length pl -> length (sr_nodes (sroute_at s r)) = length (nth r pl []);
  sw_nodes : forall r i a, r < length pl -> nth_error (nth r pl []) i = Some a ->
    exists n, node_at s r i = Some n /\ n_act n = a /\ n_pos n = i /\ n_route n = Some r /\
      n_trip n = length (filter a_isDepot (firstn i (List.tl (nth r pl [])))) /\
      (a_isDepot a = false -> n = hp_visits s a);
  sw_free : forall a, a_isDepot a = false -> (forall l, In l pl -> ~ In a l) -> hp_visits s a = mk_node a 0 0 None;
  sw_ends : forall r, r < length pl -> 2 <= length (nth r pl []) /\
    hd_error (nth r pl []) = Some (ADepot (v_start (nth r vs dummy_vehicle))) /\
    nth_error (nth r pl []) (length (nth r pl []) - 1) = Some (ADepot (v_end (nth r vs dummy_vehicle)));
  sw_trips : forall r, r < length pl ->
    (Z.of_nat (length (filter a_isDepot (nth r pl [])) - 1) <= v_maxTrips (nth r vs dummy_vehicle))%Z }.

(** ** Proofs *)
Record fine (vs : list vehicle) (s : heap) (pl : list (list activity)) : Prop := mk_fine {
  fi_ok : heap_ok s;
  fi_strict : forall r, r < length (hp_routes s) -> strict s r;
  fi_len : length (hp_routes s) = length pl;
  fi_acts : forall r, r < length pl -> acts s r = nth r pl [];
  fi_veh : forall r, r < length pl -> sr_veh (sroute_at s r) = nth r vs dummy_vehicle }.

Lemma isPD_act s r p n : shape s r -> In p (sr_nodes (sroute_at s r)) -> get s r p = Some n ->
  (forall a, n_act (hp_visits s a) = a) -> isPD p = a_isDepot (n_act n).
Proof.
  intros Sh Hp Hn Ha. pose proof (rs_ptr s r Sh p Hp) as H. destruct p as [a|b k]; cbn [isPD get] in *.
  - injection Hn as <-. rewrite Ha. symmetry; assumption.
  - destruct H as [-> Hk]. rewrite Nat.eqb_refl in Hn. symmetry. apply (rs_acts s r Sh). eapply nth_error_In; eassumption.
Qed.
Lemma count_acts s r (l : list ptr) : shape s r -> good s r -> (forall a, n_act (hp_visits s a) = a) ->
  (forall p, In p l -> In p (sr_nodes (sroute_at s r))) ->
  length (filter isPD l) = length (filter a_isDepot (map (p_act s r) l)).
Proof.
  intros Sh Hg Ha. induction l as [|p l IH]; intros Hl; cbn; [reflexivity|].
  pose proof (Hl p (or_introl eq_refl)) as Hp. pose proof Hp as Hp'. apply In_nth_error in Hp' as [i Hi].
  destruct (Hg i p Hi) as (n & G & _). unfold p_act at 1. rewrite G, <- (isPD_act s r p n Sh Hp G Ha).
  specialize (IH (fun q Hq => Hl q (or_intror Hq))). destruct (isPD p); cbn; congruence.
Qed.
Lemma depots_count s r : shape s r -> good s r ->
  length (filter isPD (sr_nodes (sroute_at s r))) = length (sr_depots (sroute_at s r)).
Proof.
  intros Sh Hg.
  assert (HP : Permutation (filter isPD (sr_nodes (sroute_at s r)))
                 (map (PD (sr_base (sroute_at s r))) (seq 0 (length (sr_depots (sroute_at s r)))))).
  { apply NoDup_Permutation.
    - apply NoDup_filter, good_nodup, Hg.
    - apply FinFun.Injective_map_NoDup; [intros x y E; congruence|apply seq_NoDup].
    - intros p. rewrite filter_In, in_map_iff. split.
      + intros [Hp Hd]. destruct p as [a|b k]; [discriminate|]. destruct (rs_ptr s r Sh _ Hp) as [-> Hk].
        exists k. split; [reflexivity|]. apply in_seq. lia.
      + intros (k & <- & Hk). apply in_seq in Hk. split; [|reflexivity]. apply (rs_all s r Sh). lia. }
  apply Permutation_length in HP. rewrite map_length, seq_length in HP. assumption.
Qed.

Lemma fine_shows vs s pl : fine vs s pl -> shows vs s pl.
Proof.
  intros [Hok Hstr Hl Ha Hv].
  assert (HG : forall r, r < length pl -> shape s r /\ good s r).
  { intros r Hr. rewrite <- Hl in Hr. pose proof (hk_routes s Hok r Hr). split; [apply ok_shape|apply ok_good]; auto. }
  assert (Hlen : forall r, r < length pl -> length (sr_nodes (sroute_at s r)) = length (nth r pl [])).
  { intros r Hr. rewrite <- Ha by assumption. unfold acts. rewrite map_length. reflexivity. }
  assert (Hends : forall r, r < length pl -> 2 <= length (nth r pl []) /\
    hd_error (nth r pl []) = Some (ADepot (v_start (nth r vs dummy_vehicle))) /\
    nth_error (nth r pl []) (length (nth r pl []) - 1) = Some (ADepot (v_end (nth r vs dummy_vehicle)))).
  { intros r Hr. destruct (HG r Hr) as [Sh Hg]. rewrite <- (Hlen r Hr), <- (Ha r Hr), <- (Hv r Hr).
    rewrite <- Hl in Hr. destruct (ends_acts s r (hk_routes s Hok r Hr)) as [E0 E1].
    pose proof (rs_start s r Sh) as R0. pose proof (rs_end s r Sh) as R1.
    destruct (sr_nodes (sroute_at s r)) as [|p0 [|p1 l]] eqn:En; [discriminate|cbn in *; congruence|].
    split; [cbn; lia|]. split.
    - unfold acts. rewrite En. cbn in R0 |- *. injection R0 as ->. rewrite E0. reflexivity.
    - unfold acts. rewrite En, nth_error_map, R1. cbn [option_map]. rewrite E1. reflexivity. }
  constructor; try assumption.
  - intros r i a Hr Hi. destruct (HG r Hr) as [Sh Hg]. rewrite <- Ha in Hi |- * by assumption.
    unfold acts in Hi. rewrite nth_error_map in Hi.
    destruct (nth_error (sr_nodes (sroute_at s r)) i) as [p|] eqn:Ep; [|discriminate]. injection Hi as Hi.
    destruct (Hg i p Ep) as (n & G1 & G2 & G3 & G4). unfold p_act in Hi. rewrite G1 in Hi. exists n.
    unfold node_at. rewrite Ep. split; [assumption|]. split; [assumption|]. split; [assumption|]. split; [assumption|].
    split.
    + rewrite G4. unfold trip_at, acts. rewrite (count_acts s r); [|assumption|assumption|apply (hk_acts s Hok)|].
      * f_equal. f_equal. rewrite <- firstn_map. f_equal. destruct (sr_nodes (sroute_at s r)); reflexivity.
      * intros q Hq. destruct (sr_nodes (sroute_at s r)) as [|p0 l]; [rewrite firstn_nil in Hq; destruct Hq|].
        right. cbn [List.tl] in Hq. rewrite <- (firstn_skipn i l). apply in_or_app; left; assumption.
    + intros Hd. pose proof (isPD_act s r p n Sh (nth_error_In _ _ Ep) G1 (hk_acts s Hok)) as Hpd.
      rewrite Hi, Hd in Hpd. destruct p as [c|]; [|discriminate]. cbn in G1. injection G1 as <-.
      rewrite (hk_acts s Hok) in Hi. subst c. reflexivity.
  - intros a Hd Hno. destruct (n_route (hp_visits s a)) as [r|] eqn:Er.
    + exfalso. destruct (hk_assigned s Hok a r Er) as (Hr & Hp & _). rewrite Hl in Hr.
      apply (Hno (nth r pl [])); [apply nth_In; assumption|]. rewrite <- Ha by assumption.
      apply in_map_iff. exists (PV a). split; [cbn; apply (hk_acts s Hok)|eapply nth_error_In; eassumption].
    + destruct (hk_free s Hok a Er) as [F1 F2]. pose proof (hk_acts s Hok a). destruct (hp_visits s a); cbn in *. congruence.
  - intros r Hr. destruct (HG r Hr) as [Sh Hg]. rewrite <- Ha, <- Hv by assumption.
    unfold acts. rewrite <- (count_acts s r); [|assumption|assumption|apply (hk_acts s Hok)|auto].
    rewrite depots_count by assumption. apply (rs_trips s r Sh).
Qed.

Lemma new_routes_nth vs : forall k r, nth_error (new_routes k vs) r = option_map (new_route (k + r)) (nth_error vs r).
Proof.
  induction vs as [|v vs IH]; intros k [|r]; cbn; try reflexivity.
  - rewrite Nat.add_0_r. reflexivity.
  - rewrite IH. replace (S k + r) with (k + S r) by lia. reflexivity.
Qed.
Lemma new_fine vs : (forall v, In v vs -> (1 <= v_maxTrips v)%Z) -> fine vs (new_heap vs) (start_plan vs).
Proof.
  intros Hm.
  assert (Hlen : length (new_routes 0 vs) = length vs).
  { clear Hm. generalize 0. induction vs as [|v vs IH]; intros k; cbn; [reflexivity|]. rewrite IH. reflexivity. }
  assert (Hat : forall r, r < length vs -> sroute_at (new_heap vs) r = new_route r (nth r vs dummy_vehicle)).
  { intros r Hr. unfold sroute_at, new_heap. cbn [hp_routes]. rewrite <- nth_default_eq. unfold nth_default.
    rewrite new_routes_nth. rewrite (nth_error_nth' vs dummy_vehicle Hr). reflexivity. }
  assert (HG : forall r, r < length vs -> shape (new_heap vs) r /\ good (new_heap vs) r).
  { intros r Hr. pose proof (Hat r Hr) as E. split.
    - constructor; rewrite E; cbn [new_route sr_nodes sr_base sr_depots sr_veh sr_cap length Nat.sub]; try reflexivity.
      + intros p [<-|[<-|[]]]; split; try reflexivity; lia.
      + intros [|[|k]] Hk; cbn; auto. lia.
      + intros n [<-|[<-|[]]]; reflexivity.
      + apply (Hm (nth r vs dummy_vehicle)), nth_In, Hr.
    - intros i q Hq. rewrite E in Hq |- *. cbn [new_route sr_nodes] in Hq |- *. destruct i as [|[|i]]; cbn in Hq.
      + injection Hq as <-. cbn [get]. rewrite E. cbn [new_route sr_base sr_depots]. rewrite Nat.eqb_refl. eexists. split; [reflexivity|]. auto.
      + injection Hq as <-. cbn [get]. rewrite E. cbn [new_route sr_base sr_depots]. rewrite Nat.eqb_refl. eexists. split; [reflexivity|]. auto.
      + destruct i; discriminate. }
  constructor.
  - constructor.
    + intros r Hr. cbn [new_heap hp_routes] in Hr. rewrite Hlen in Hr. destruct (HG r Hr). apply good_ok; assumption.
    + reflexivity.
    + intros a r H. discriminate.
    + auto.
  - intros r Hr. cbn [new_heap hp_routes] in Hr. rewrite Hlen in Hr. apply good_strict, HG, Hr.
  - cbn. unfold start_plan. rewrite Hlen, map_length. reflexivity.
  - intros r Hr. unfold start_plan in *. rewrite map_length in Hr. unfold acts, p_act. rewrite (Hat r Hr).
    cbn [new_route sr_nodes map get]. rewrite (Hat r Hr). cbn [new_route sr_base sr_depots]. rewrite Nat.eqb_refl. cbn [nth_error n_act].
    symmetry. apply nth_error_nth. rewrite nth_error_map, (nth_error_nth' vs dummy_vehicle Hr). reflexivity.
  - intros r Hr. unfold start_plan in *. rewrite map_length in Hr. rewrite (Hat r Hr). reflexivity.
Qed.

Lemma acts_other s s' r : heap_ok s -> heap_ok s' -> sroute_at s' r = sroute_at s r -> acts s' r = acts s r.
Proof.
  intros H H' E. unfold acts. rewrite E. apply map_ext. intros [a|b k]; unfold p_act; cbn [get].
  - rewrite (hk_acts s H), (hk_acts s' H'). reflexivity.
  - rewrite E. reflexivity.
Qed.
Lemma strict_apart s r r' a : strict s r -> strict s r' -> In (PV a) (sr_nodes (sroute_at s r)) ->
  In (PV a) (sr_nodes (sroute_at s r')) -> r = r'.
Proof.
  intros H H' Hin Hin'. apply In_nth_error in Hin as [i Hi], Hin' as [j Hj].
  destruct (H i a Hi) as [E _], (H' j a Hj) as [E' _]. congruence.
Qed.
Lemma nth_upd {A} (l : list A) r r' x d : r < length l -> nth r' (upd l r x) d = if r =? r' then x else nth r' l d.
Proof.
  intros H. rewrite <- !nth_default_eq. unfold nth_default. rewrite upd_nth_err by assumption. destruct (r =? r'); reflexivity.
Qed.

Lemma edited_fine vs s s' pl r l : fine vs s pl -> r < length pl -> edited s s' r l ->
  (forall r' c, r' <> r -> r' < length pl -> In (PV c) (sr_nodes (sroute_at s r')) -> hp_visits s' c = hp_visits s c) ->
  fine vs s' (upd pl r l).
Proof.
  intros [Hok Hstr Hl Ha Hv] Hr [E1 E2 E3 E4 E5 E6] Hvis. constructor.
  - assumption.
  - intros r' Hr'. rewrite E2 in Hr'. destruct (Nat.eq_dec r' r) as [->|Hne]; [apply good_strict; assumption|].
    intros i c Hi. rewrite E3 in Hi by assumption. rewrite (Hvis r' c Hne ltac:(lia) (nth_error_In _ _ Hi)).
    apply (Hstr r' Hr' i c Hi).
  - rewrite upd_len. congruence.
  - intros r' Hr'. rewrite upd_len in Hr'. rewrite nth_upd by assumption. destruct (Nat.eqb_spec r r') as [<-|Hne]; [assumption|].
    rewrite <- Ha by assumption. apply acts_other; [assumption..|]. apply E3. congruence.
  - intros r' Hr'. rewrite upd_len in Hr'. destruct (Nat.eq_dec r' r) as [->|Hne]; [rewrite E6; auto|rewrite E3; auto].
Qed.

Theorem op_fine vs s pl o : fine vs s pl -> op_ok vs pl o ->
  exists s', run_op s o = Some (s', false) /\ fine vs s' (plan_op vs pl o).
Proof.
  intros F Ho. pose proof F as [Hok Hstr Hl Ha Hv].
  assert (HG : forall r, r < length pl -> shape s r /\ good s r).
  { intros r Hr. rewrite <- Hl in Hr. pose proof (hk_routes s Hok r Hr). split; [apply ok_shape|apply ok_good]; auto. }
  assert (Hlen : forall r, r < length pl -> length (sr_nodes (sroute_at s r)) = length (nth r pl [])).
  { intros r Hr. rewrite <- Ha by assumption. unfold acts. rewrite map_length. reflexivity. }
  assert (HinV : forall r a, r < length pl -> In (PV a) (sr_nodes (sroute_at s r)) -> In a (nth r pl [])).
  { intros r a Hr Hin. rewrite <- Ha by assumption. apply in_map_iff. exists (PV a). split; [cbn; apply (hk_acts s Hok)|assumption]. }
  destruct o as [r idx a|r idx|a b|r|r]; cbn [op_ok run_op plan_op] in *.
  - destruct Ho as (Hr & H0 & H1 & Hd). assert (Hr' : r < length (hp_routes s)) by lia.
    rewrite <- (Hlen r Hr) in H1. destruct (a_isDepot a) eqn:Da.
    + destruct a as [dk| | |]; try discriminate.
      rewrite <- (Ha r Hr) in Hd. destruct (HG r Hr) as [Sh Hg]. unfold acts in Hd.
      rewrite <- (count_acts s r) in Hd; [|assumption|assumption|apply (hk_acts s Hok)|auto].
      rewrite depots_count, <- (Hv r Hr) in Hd by assumption.
      destruct (insert_depot s r idx dk Hok Hr' (Hstr r Hr') Hd H0 H1) as (s' & E & Ed & _ & _ & _ & Hvis).
      exists s'. split; [assumption|]. rewrite <- (Ha r Hr). apply (edited_fine vs s); try assumption.
      intros r' c Hne Hr2 Hc. apply Hvis. intros Hin.
      assert (In (PV c) (sr_nodes (sroute_at s' r'))) by (rewrite (ed_others _ _ _ _ Ed) by assumption; assumption).
      assert (L' : r' < length (hp_routes s)) by lia.
      (* c is in r after, hence in r before *)
      destruct (insert_depot s r idx dk Hok Hr' (Hstr r Hr') Hd H0 H1) as (s2 & E' & _ & _ & _ & Hiff & _).
      assert (s2 = s') as -> by congruence. apply Hiff in Hin. apply Hne. symmetry. eapply (strict_apart s); eauto.
    + assert (Hnew : forall r', r' < length pl -> ~ In (PV a) (sr_nodes (sroute_at s r'))).
      { intros r' Hr2 Hin. apply (Hd (nth r' pl [])); [apply nth_In; assumption|apply HinV; assumption]. }
      destruct (insert_visit s r idx a Hok Hr' (Hstr r Hr') Da (Hnew r Hr) H0 H1) as (s' & E & Ed & Hn & _ & Hvis).
      exists s'. split; [assumption|]. rewrite <- (Ha r Hr). apply (edited_fine vs s); try assumption.
      intros r' c Hne Hr2 Hc. apply Hvis. rewrite Hn. intros Hin. apply in_insert in Hin as [E2|Hin].
      * injection E2 as <-. apply (Hnew r' Hr2 Hc).
      * apply Hne. symmetry. eapply (strict_apart s); [apply Hstr; lia|apply Hstr; lia|eassumption|eassumption].
  - destruct Ho as (Hr & H0 & H1). assert (Hr' : r < length (hp_routes s)) by lia. rewrite <- (Hlen r Hr) in H1.
    destruct (nth_error (sr_nodes (sroute_at s r)) idx) as [p|] eqn:Ep; [|apply nth_error_None in Ep; lia].
    destruct p as [a|b k].
    + destruct (remove_visit s r idx a Hok Hr' (Hstr r Hr') Ep) as (s' & E & Ed & Hn & _ & _ & Hvis).
      rewrite E. exists s'. split; [reflexivity|]. rewrite <- (Ha r Hr). apply (edited_fine vs s); try assumption.
      intros r' c Hne Hr2 Hc.
      assert (Hnot : ~ In (PV c) (sr_nodes (sroute_at s r))).
      { intros Hin. apply Hne. symmetry. eapply (strict_apart s); [apply Hstr; lia|apply Hstr; lia|eassumption|eassumption]. }
      apply Hvis; [intros ->; apply Hnot; eapply nth_error_In; eassumption|]. rewrite Hn. intros Hin. apply Hnot.
      eapply in_remove_at; [apply good_nodup, HG, Hr|exact Ep|exact Hin].
    + destruct (remove_depot s r idx b k Hok Hr' (Hstr r Hr') Ep H0 H1) as (s' & E & Ed & _ & _ & Hiff & Hvis).
      rewrite E. exists s'. split; [reflexivity|]. rewrite <- (Ha r Hr). apply (edited_fine vs s); try assumption.
      intros r' c Hne Hr2 Hc. apply Hvis. intros Hin. apply Hiff in Hin. apply Hne. symmetry.
      eapply (strict_apart s); [apply Hstr; lia|apply Hstr; lia|eassumption|eassumption].
  - destruct Ho as [Da Db]. destruct (swap_spec s a b Hok Hstr Da Db) as (S1 & S2 & S3 & S4 & S5).
    eexists. split; [reflexivity|]. constructor; try assumption.
    + intros r Hr. rewrite S2 in Hr. auto.
    + rewrite map_length. congruence.
    + intros r Hr. rewrite map_length in Hr. rewrite S5 by lia. rewrite Ha by assumption.
      symmetry. apply nth_error_nth. rewrite nth_error_map, (nth_error_nth' pl [] Hr). reflexivity.
    + intros r Hr. rewrite map_length in Hr. destruct (S4 r) as (_ & -> & _). auto.
  - assert (Hr' : r < length (hp_routes s)) by lia. destruct (clear_spec s r Hok Hr') as (s' & E & Ed & _ & Hno & Hvis).
    rewrite E. exists s'. split; [reflexivity|]. rewrite <- (Hv r Ho). apply (edited_fine vs s); try assumption.
    intros r' c Hne Hr2 Hc. rewrite Hvis. apply In_nth_error in Hc as [i Hi]. destruct (Hstr r' ltac:(lia) i c Hi) as [-> _].
    destruct (Nat.eqb_spec r' r); [contradiction|reflexivity].
  - assert (Hr' : r < length (hp_routes s)) by lia.
    destruct (update_spec s r Hok Hr') as (U1 & U2 & U3 & U4 & U5 & U6). eexists. split; [reflexivity|].
    constructor; try assumption.
    + intros r' Hr2 i a Hi. rewrite (proj1 (U4 r')) in Hi. rewrite U3. apply (Hstr r'); [lia|assumption].
    + congruence.
    + intros r' Hr2. destruct (U4 r') as (_ & _ & _ & _ & ->). auto.
    + intros r' Hr2. destruct (U4 r') as (_ & -> & _). auto.
Qed.

Theorem ops_fine vs os : forall s pl, fine vs s pl -> ops_ok vs pl os ->
  exists s', run_ops s os = Some (s', false) /\ fine vs s' (fold_left (plan_op vs) os pl).
Proof.
  induction os as [|o os IH]; intros s pl F Ho; cbn [run_ops fold_left]; [eauto|].
  destruct Ho as [Ho Hos]. destruct (op_fine vs s pl o F Ho) as (s1 & E & F1). rewrite E. apply IH; assumption.
Qed.

Theorem ops_shows vs os : (forall v, In v vs -> (1 <= v_maxTrips v)%Z) -> ops_ok vs (start_plan vs) os ->
  exists s, run_ops (new_heap vs) os = Some (s, false) /\ shows vs s (fold_left (plan_op vs) os (start_plan vs)).
Proof.
  intros Hm Ho. destruct (ops_fine vs os _ _ (new_fine vs Hm) Ho) as (s & E & F). exists s. split; [exact E|].
  apply fine_shows. assumption.
Qed.

(** The plan never has a visit twice. *)
Theorem ops_unique vs os : (forall v, In v vs -> (1 <= v_maxTrips v)%Z) -> ops_ok vs (start_plan vs) os ->
  forall r i r' i' a, let pl := fold_left (plan_op vs) os (start_plan vs) in
  a_isDepot a = false -> nth_error (nth r pl []) i = Some a -> nth_error (nth r' pl []) i' = Some a -> r = r' /\ i = i'.
Proof.
  intros Hm Ho r i r' i' a pl Hd Hi Hi'. destruct (ops_shows vs os Hm Ho) as (s & _ & Sw). fold pl in Sw.
  assert (L : forall r i, nth_error (nth r pl []) i = Some a -> r < length pl).
  { intros r0 i0 H. destruct (Nat.lt_ge_cases r0 (length pl)) as [|Hge]; [assumption|].
    rewrite nth_overflow in H by assumption. destruct i0; discriminate. }
  destruct (sw_nodes vs s pl Sw r i a (L _ _ Hi) Hi) as (n & _ & _ & P1 & R1 & _ & V1).
  destruct (sw_nodes vs s pl Sw r' i' a (L _ _ Hi') Hi') as (n' & _ & _ & P2 & R2 & _ & V2).
  rewrite (V1 Hd) in P1, R1. rewrite (V2 Hd) in P2, R2. split; congruence.
Qed.

(** update() makes the statistics those of the current activities. *)
Theorem update_synced s r : r < length (hp_routes s) -> heap_ok s -> sr_synced (sroute_at (route_update s r) r) = mid_of s r.
Proof. intros Hr Hs. apply (update_spec s r Hs Hr). Qed.
