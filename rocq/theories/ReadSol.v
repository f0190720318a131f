(** Writing a solution to a file and reading it back gives an equal solution. *)
From Coq Require Import Ascii.
From Coq Require Import String List Permutation.
From Verif Require Import Base DurationSegment Data DataCtor MatrixFacts ModelPy ActivityText StatsCsv LoadSegment SearchRoute Route RouteSpec
  RouteFacts Cost Solution SolutionFacts SolutionFacts2 SolutionFacts3 Equal MakeRandom SearchLoad SearchLoad2 Read ReadFacts.
Import ListNotations.
Notation length := List.length.
Local Open Scope nat_scope.

(** The names of the types list the vehicles 0, 1, ..., each once. *)
Record fleet_named (d : pdata) (ms : list (list nat)) : Prop := mk_fleet_named {
  fn_len : length ms = p_numVehicleTypes d;
  fn_names : forall t, t < p_numVehicleTypes d -> vehicles_of (p_vehicle d t) = Ok (map Z.of_nat (nth t ms []));
  fn_number : forall t, t < p_numVehicleTypes d -> length (nth t ms []) = v_numAvailable (p_vehicle d t);
  fn_all : Permutation (concat ms) (seq 0 (p_numVehicles d)) }.
(** No two of the depots, clients, pickups and deliveries share a location. *)
Record places_differ (d : pdata) : Prop := mk_places_differ {
  pl_differ : forall a b, RouteSpec.known d a -> RouteSpec.known d b -> a_loc d a = a_loc d b -> a = b;
  pl_range : forall a, RouteSpec.known d a -> a_loc d a < p_numLocations d }.

(** ** Locations and activities *)
Lemma fold_upd {A} (es : list (nat * A)) : forall l, (forall e, In e es -> fst e < length l) ->
  (forall e e', In e es -> In e' es -> fst e = fst e' -> e = e') ->
  let l' := fold_left (fun l e => upd l (fst e) (Some (snd e))) es l in
  length l' = length l /\ forall e, In e es -> nth (fst e) l' None = Some (snd e).
Proof.
  intros l Hr Hu. cbv zeta. revert Hr Hu.
  assert (G : forall es l, (forall e, In e es -> fst e < length l) ->
    length (fold_left (fun l e => upd l (fst e) (Some (snd e))) es l) = length l /\
    forall i, (forall e, In e es -> fst e <> i) -> nth i (fold_left (fun l e => upd l (fst e) (Some (snd e))) es l) None = nth i l (@None A)).
  { clear. induction es as [|e es IH]; intros l Hr; [split; reflexivity|]. cbn [fold_left].
    destruct (IH (upd l (fst e) (Some (snd e)))) as [H1 H2].
    { intros e' He'. rewrite upd_length. apply Hr. right. exact He'. }
    rewrite upd_length in H1. split; [exact H1|]. intros i Hi. rewrite H2 by (intros e' He'; apply Hi; right; exact He').
    rewrite upd_nth by (apply Hr; left; reflexivity). destruct (Nat.eqb_spec (fst e) i) as [E|E]; [|reflexivity].
    exfalso. apply (Hi e); [left; reflexivity|exact E]. }
  revert l. induction es as [|e es IH]; intros l Hr Hu; [split; [reflexivity|intros e []]|]. cbn [fold_left].
  assert (Hr' : forall e', In e' es -> fst e' < length (upd l (fst e) (Some (snd e)))).
  { intros e' He'. rewrite upd_length. apply Hr. right. exact He'. }
  split; [rewrite (proj1 (G es _ Hr')), upd_length; reflexivity|]. intros e' He'.
  destruct (in_dec (fun x y : nat => Nat.eq_dec x y) (fst e') (map fst es)) as [Hin|Hin].
  - apply in_map_iff in Hin as (e'' & E & Hin). assert (E' : e'' = e') by (apply Hu; [right; exact Hin|exact He'|exact E]). subst e''.
    apply IH; [exact Hr'| |exact Hin]. intros a b Ha Hb. apply Hu; right; assumption.
  - destruct He' as [->|He']; [|exfalso; apply Hin, in_map, He'].
    rewrite (proj2 (G es _ Hr')) by (intros e'' He'' E; apply Hin; rewrite <- E; apply in_map, He'').
    rewrite upd_nth by (apply Hr; left; reflexivity). rewrite Nat.eqb_refl. reflexivity.
Qed.
Lemma entries_known d e : In e (loc_entries d) <-> RouteSpec.known d (snd e) /\ fst e = a_loc d (snd e).
Proof.
  unfold loc_entries. rewrite !in_app_iff, !in_map_iff, in_flat_map. split.
  - intros [(i & <- & Hi)|[(i & <- & Hi)|(i & Hi & [<-|[<-|[]]])]]; apply in_seq in Hi; cbn; split; try lia; reflexivity.
  - destruct e as [l a]. cbn [fst snd]. intros [K ->]. destruct a as [i|i|i|i]; cbn in K.
    all: first [left; exists i; split; [reflexivity|apply in_seq; lia]
               |right; left; exists i; split; [reflexivity|apply in_seq; lia]
               |right; right; exists i; split; [apply in_seq; lia|cbn; tauto]].
Qed.
Lemma loc2activity_spec d a : places_differ d -> RouteSpec.known d a -> visit_activity (loc2activity d) (a_loc d a) = Ok a.
Proof.
  intros [Hd Hr] K. destruct (fold_upd (loc_entries d) (repeat None (p_numLocations d))) as [Hl Hn].
  - intros e He. apply entries_known in He as [He ->]. rewrite repeat_length. apply Hr, He.
  - intros [x a1] [x' a2] H1 H2. cbn [fst]. intros <-. apply entries_known in H1 as [K1 E1]. apply entries_known in H2 as [K2 E2]. cbn [fst snd] in *.
    f_equal. apply Hd; [assumption|assumption|congruence].
  - fold (loc2activity d) in Hl, Hn. specialize (Hn (a_loc d a, a) ltac:(apply entries_known; split; [exact K|reflexivity])). cbn [fst snd] in Hn.
    unfold visit_activity. rewrite (proj2 (get_ok _ (a_loc d a) (Some a) None)); [|split; [rewrite Hl, repeat_length; apply Hr, K|symmetry; exact Hn]]. reflexivity.
Qed.
Lemma route_visits d r : built d r -> route2vrplib d r = map (a_loc d) (r_acts r).
Proof.
  intros H. destruct (built_mid d r H) as (mid & _ & _ & _ & E & Es). unfold route2vrplib. rewrite E. unfold sched_acts in Es.
  rewrite <- (map_map sa_act (a_loc d)), Es. cbn [app map List.tl]. rewrite map_app. cbn [map]. apply removelast_last.
Qed.
Lemma visits_route d r : places_differ d -> built d r -> mapM (visit_activity (loc2activity d)) (route2vrplib d r) = Ok (r_acts r).
Proof.
  intros Hp H. rewrite (route_visits d r H), mapM_map. destruct (built_mid d r H) as (mid & _ & _ & W & -> & _).
  apply mapM_ok. pose proof (wf_known _ _ _ W) as K. clear - Hp K. induction mid as [|a mid IH]; constructor.
  - apply loc2activity_spec; [exact Hp|apply K; left; reflexivity].
  - apply IH. intros b Hb. apply K. right. exact Hb.
Qed.

(** ** Vehicles and types *)
Lemma nodup_app_l {A} (l l' : list A) : NoDup (l ++ l') -> NoDup l.
Proof. induction l as [|x l IH]; intros H; [constructor|]. inversion H; subst. constructor; [|apply IH; assumption]. intros Hx. apply H2, in_or_app. auto. Qed.
Lemma nodup_app_r {A} (l l' : list A) : NoDup (l ++ l') -> NoDup l'.
Proof. induction l as [|x l IH]; intros H; [exact H|]. inversion H; subst. auto. Qed.
Lemma nodup_app_disj {A} (l l' : list A) x : NoDup (l ++ l') -> In x l -> ~ In x l'.
Proof. induction l as [|y l IH]; intros H [] Hx; inversion H; subst; [apply H3, in_or_app; auto|eapply IH; eassumption]. Qed.
Lemma py_of_nat n v : v < n -> py_index n (Z.of_nat v) = Ok v.
Proof. intros H. apply py_index_pos; [lia|]. rewrite Nat2Z.id. split; [lia|reflexivity]. Qed.
Lemma put_types_spec vs : forall l t, (forall v, In v vs -> v < length l) ->
  exists l', put_types l (map Z.of_nat vs) t = Ok l' /\ length l' = length l /\
    forall v dft, nth v l' dft = if existsb (Nat.eqb v) vs then t else nth v l dft.
Proof.
  induction vs as [|v vs IH]; intros l t H; cbn [put_types map].
  - exists l. repeat split; reflexivity.
  - rewrite py_of_nat by (apply H; left; reflexivity). cbn [bind].
    destruct (IH (upd l v t) t) as (l' & E & Hl & Hn); [intros w Hw; rewrite upd_length; apply H; right; exact Hw|].
    exists l'. split; [exact E|]. rewrite upd_length in Hl. split; [exact Hl|]. intros w dft. rewrite Hn. cbn [existsb].
    rewrite upd_nth by (apply H; left; reflexivity). rewrite (Nat.eqb_sym w v). destruct (Nat.eqb v w), (existsb (Nat.eqb w) vs); reflexivity.
Qed.
Lemma veh2type_spec vs : forall ms t l, length ms = length vs ->
  (forall j, j < length vs -> vehicles_of (nth j vs dummy_vehicle) = Ok (map Z.of_nat (nth j ms []))) ->
  NoDup (concat ms) -> (forall v, In v (concat ms) -> v < length l) ->
  exists l', veh2type t vs l = Ok l' /\ length l' = length l /\
    (forall j v dft, j < length vs -> In v (nth j ms []) -> nth v l' dft = t + j) /\
    (forall v dft, ~ In v (concat ms) -> nth v l' dft = nth v l dft).
Proof.
  induction vs as [|x vs IH]; intros [|m ms] t l Hl Hn Hd Hr; cbn in Hl; try lia; cbn [veh2type concat] in *.
  - exists l. repeat split; [intros j v dft Hj; cbn in Hj; lia].
  - pose proof (Hn 0 ltac:(cbn; lia)) as H0. cbn [nth] in H0. rewrite H0. cbn [bind].
    destruct (put_types_spec m l t) as (l1 & E1 & Hl1 & N1); [intros v Hv; apply Hr, in_or_app; auto|]. rewrite E1. cbn [bind].
    destruct (IH ms (S t) l1) as (l2 & E2 & Hl2 & N2 & N2'); [lia| |exact (nodup_app_r _ _ Hd)| |].
    + intros j Hj. apply (Hn (S j)). cbn. lia.
    + intros v Hv. rewrite Hl1. apply Hr, in_or_app. auto.
    + exists l2. split; [exact E2|]. split; [congruence|]. split.
      * intros [|j] v dft Hj Hv; cbn [nth] in Hv.
        -- rewrite N2' by (apply (nodup_app_disj _ _ v Hd Hv)). rewrite N1.
           assert (Ex : existsb (Nat.eqb v) m = true) by (apply existsb_exists; exists v; split; [exact Hv|apply Nat.eqb_refl]). rewrite Ex. lia.
        -- rewrite (N2 j v dft) by (try exact Hv; cbn in Hj; lia). lia.
      * intros v dft Hv. rewrite N2' by (intros H; apply Hv, in_or_app; auto). rewrite N1.
        destruct (existsb (Nat.eqb v) m) eqn:Ex; [|reflexivity]. apply existsb_exists in Ex as (w & Hw & Ew). apply Nat.eqb_eq in Ew. subst w.
        exfalso. apply Hv, in_or_app. auto.
Qed.

(** ** Lines *)
(** A file with one line for each vehicle; [None] is a vehicle that is not used. *)
Definition line (d : pdata) (o : option route) : list nat := match o with Some r => route2vrplib d r | None => [] end.
Definition somes (l : list (option route)) : list route := flat_map (fun o => match o with Some r => [r] | None => [] end) l.
Lemma somes_app a b : somes (a ++ b) = somes a ++ somes b.
Proof. apply flat_map_app. Qed.
Lemma somes_cons o l : somes (o :: l) = somes [o] ++ somes l.
Proof. exact (somes_app [o] l). Qed.
Lemma somes_none n : somes (repeat None n) = [].
Proof. induction n; [reflexivity|assumption]. Qed.
Lemma somes_map rs : somes (map Some rs) = rs.
Proof. induction rs as [|r rs IH]; [reflexivity|]. cbn. f_equal. exact IH. Qed.
Lemma somes_upd l i r : i < length l -> nth i l None = None -> Permutation (somes (upd l i (Some r))) (r :: somes l).
Proof.
  revert i. induction l as [|o l IH]; intros [|i] Hi Hn; cbn in Hi; try lia; cbn [upd nth] in *.
  - subst o. cbn. constructor. reflexivity.
  - rewrite (somes_cons o (upd _ _ _)), (somes_cons o l).
    rewrite IH by (try assumption; lia). symmetry. apply Permutation_middle.
Qed.
Lemma somes_in l r : In r (somes l) <-> exists i, i < length l /\ nth i l None = Some r.
Proof.
  unfold somes. rewrite in_flat_map. split.
  - intros (o & Ho & Hr). destruct o as [r'|]; [|destruct Hr]. destruct Hr as [->|[]]. apply (In_nth _ _ None) in Ho. exact Ho.
  - intros (i & Hi & E). exists (Some r). split; [rewrite <- E; apply nth_In, Hi|left; reflexivity].
Qed.

Lemma nonempty_line d rs r : Forall (built d) rs -> consistent d rs -> In r rs -> route2vrplib d r <> [].
Proof.
  intros HB C Hr E. rewrite Forall_forall in HB. pose proof (HB r Hr) as B. rewrite (route_visits d r B) in E. apply map_eq_nil in E.
  destruct (cs_nonempty _ _ C r Hr) as (a & Ha & Hd). destruct (built_mid d r B) as (mid & _ & _ & _ & Em & Es). unfold sched_acts in Es.
  rewrite Es in Ha. rewrite <- Em, E in Ha. cbn in Ha. destruct Ha as [<-|[<-|[]]]; discriminate.
Qed.

Lemma read_routes_spec d types : places_differ d -> forall asg idx,
  (forall r, In r (somes asg) -> built d r /\ route2vrplib d r <> []) ->
  (forall i r, i < length asg -> nth i asg None = Some r -> idx + i < length types /\ nth (idx + i) types 0 = r_vehicleType r) ->
  read_routes d (loc2activity d) types idx (map (line d) asg) = Ok (somes asg).
Proof.
  intros Hp. induction asg as [|o asg IH]; intros idx HB Ht; [reflexivity|]. cbn [map].
  assert (Hrec : read_routes d (loc2activity d) types (S idx) (map (line d) asg) = Ok (somes asg)).
  { apply IH.
    - intros r Hr. apply HB. rewrite somes_cons. apply in_or_app. auto.
    - intros i r Hi E. specialize (Ht (S i) r ltac:(cbn; lia) E). replace (S idx + i) with (idx + S i) by lia. exact Ht. }
  destruct o as [r|]; cbn [line]; [|cbn [read_routes]; exact Hrec].
  destruct (HB r (or_introl eq_refl)) as [B Hne]. destruct (Ht 0 r ltac:(cbn; lia) eq_refl) as [Hl Hn]. rewrite Nat.add_0_r in Hl, Hn.
  assert (E : read_routes d (loc2activity d) types idx (route2vrplib d r :: map (line d) asg) =
    bind (mapM (visit_activity (loc2activity d)) (route2vrplib d r)) (fun acts => bind (get types idx) (fun t => bind (make_route d acts t) (fun r =>
      bind (read_routes d (loc2activity d) types (S idx) (map (line d) asg)) (fun rs => Ok (r :: rs)))))).
  { cbn [read_routes]. destruct (route2vrplib d r); [congruence|reflexivity]. }
  rewrite E, (visits_route d r Hp B). cbn [bind]. rewrite (proj2 (get_ok types idx (nth idx types 0) 0) (conj Hl eq_refl)). cbn [bind]. rewrite Hn.
  destruct (built_mid d r B) as (mid & Hm & _ & _ & -> & _). rewrite Hm. cbn [bind]. rewrite Hrec. reflexivity.
Qed.

(** ** Writing *)
Lemma map_upd {A B} (f : A -> B) l i x : map f (upd l i x) = upd (map f l) i (f x).
Proof. revert i. induction l as [|y l IH]; intros [|i]; cbn; congruence. Qed.
Lemma in_concat_nth {A} (qs : list (list A)) x : In x (concat qs) <-> exists t, t < length qs /\ In x (nth t qs []).
Proof.
  rewrite in_concat. split.
  - intros (q & Hq & Hx). apply (In_nth _ _ []) in Hq as (t & Ht & <-). eauto.
  - intros (t & Ht & Hx). exists (nth t qs []). split; [apply nth_In, Ht|exact Hx].
Qed.
Lemma write_spec d rs : forall qs asg, Forall (built d) rs -> length qs = p_numVehicleTypes d -> NoDup (concat qs) ->
  (forall v, In v (concat qs) -> v < length asg /\ nth v asg None = None) ->
  (forall t, t < length qs -> used_vehicles rs t <= length (nth t qs [])) ->
  exists asg', write_routes d rs (map (map Z.of_nat) qs) (map (line d) asg) = Ok (map (line d) asg') /\
    length asg' = length asg /\ Permutation (somes asg') (rs ++ somes asg) /\
    forall v r, nth v asg' None = Some r -> nth v asg None = Some r \/ In v (nth (r_vehicleType r) qs []).
Proof.
  induction rs as [|r rs IH]; intros qs asg HB Hq Hd Hv Hu; cbn [write_routes].
  - exists asg. repeat split; auto.
  - inversion HB as [|x y B HB']; subst. destruct (built_mid d r B) as (_ & _ & Ht & _). set (t := r_vehicleType r) in *. rewrite <- Hq in Ht.
    rewrite (proj2 (get_ok (map (map Z.of_nat) qs) t (map Z.of_nat (nth t qs [])) [])).
    2:{ rewrite map_length. split; [exact Ht|]. rewrite (nth_map _ qs t [] []) by exact Ht. reflexivity. }
    cbn [bind]. pose proof (Hu t Ht) as Hut. unfold used_vehicles in Hut. cbn [filter] in Hut. fold t in Hut. rewrite Nat.eqb_refl in Hut. cbn [length] in Hut.
    destruct (nth t qs []) as [|v q] eqn:Eq; [cbn in Hut; lia|]. cbn [map].
    assert (Hvin : In v (concat qs)) by (apply in_concat_nth; exists t; rewrite Eq; split; [exact Ht|left; reflexivity]).
    destruct (Hv v Hvin) as [Hvl Hvn]. rewrite map_length, py_of_nat by exact Hvl. cbn [bind].
    assert (P : Permutation (concat qs) (v :: concat (upd qs t q))).
    { assert (Ep : Permutation (concat (upd (upd qs t q) t (v :: q))) ([v] ++ concat (upd qs t q))).
      { apply upd_perm; [rewrite upd_length; exact Ht|]. rewrite upd_nth by exact Ht. rewrite Nat.eqb_refl. reflexivity. }
      assert (Eu : upd (upd qs t q) t (v :: q) = qs).
      { rewrite <- Eq. clearbody t. clear. revert t. induction qs as [|z qs IH]; intros [|t]; cbn; [reflexivity|reflexivity|reflexivity|]. f_equal. apply IH. }
      rewrite Eu in Ep. exact Ep. }
    assert (Hd' : NoDup (v :: concat (upd qs t q))) by (eapply Permutation_NoDup; [exact P|exact Hd]). inversion Hd' as [|x y Hnv Hd'']; subst x y.
    assert (Eline : upd (map (line d) asg) v (nth v (map (line d) asg) [] ++ route2vrplib d r) = map (line d) (upd asg v (Some r))).
    { rewrite map_upd. f_equal. rewrite (nth_map _ asg v None []) by exact Hvl. rewrite Hvn. reflexivity. }
    rewrite Eline.
    replace (upd (map (map Z.of_nat) qs) t (map Z.of_nat q)) with (map (map Z.of_nat) (upd qs t q)) by apply map_upd.
    destruct (IH (upd qs t q) (upd asg v (Some r)) HB') as (asg' & E & Hl & Hp & Ho).
    + rewrite upd_length. exact Hq.
    + exact Hd''.
    + intros w Hw. rewrite upd_length. assert (Hw' : In w (concat qs)) by (eapply Permutation_in; [symmetry; exact P|right; exact Hw]).
      destruct (Hv w Hw') as [H1 H2]. split; [exact H1|]. rewrite upd_nth by exact Hvl. destruct (Nat.eqb_spec v w) as [->|_]; [contradiction|exact H2].
    + intros t' Ht'. rewrite upd_length in Ht'. rewrite upd_nth by exact Ht. specialize (Hu t' Ht'). unfold used_vehicles in Hu |- *. cbn [filter] in Hu. fold t in Hu.
      destruct (Nat.eqb_spec t t') as [<-|Hne]; [cbn in Hut; lia|exact Hu].
    + exists asg'. split; [exact E|]. rewrite upd_length in Hl. split; [exact Hl|]. split.
      * rewrite Hp, (somes_upd asg v r Hvl Hvn). cbn [app]. symmetry. apply Permutation_middle.
      * intros w r' Hw. destruct (Ho w r' Hw) as [H|H].
        -- rewrite upd_nth in H by exact Hvl. destruct (Nat.eqb_spec v w) as [<-|_]; [|left; exact H]. injection H as <-. right. fold t. rewrite Eq. left. reflexivity.
        -- right. rewrite upd_nth in H by exact Ht. destruct (Nat.eqb_spec t (r_vehicleType r')) as [<-|_]; [rewrite Eq; right; exact H|exact H].
Qed.

Theorem solution_file d ms routes s : groups_nodup d -> groups_known d -> fleet_named d ms -> places_differ d ->
  Forall (built d) routes -> make_solution d routes = Ok s ->
  exists lines s', write_solution d s = Ok lines /\ read_solution d lines = Ok s' /\ solution_eqb s' s = true /\
    Permutation (so_routes s') (so_routes s) /\ forall ev, solution_penalised ev s' = solution_penalised ev s.
Proof.
  intros Hg Hk [Fl Fn Fc Fa] Hp HB Hs. destruct (sol_inv d routes HB Hg Hk s Hs) as (Hc & cv & sv & Es & _).
  assert (Er : so_routes s = routes) by (rewrite Es; reflexivity).
  assert (Nd : NoDup (concat ms)) by (eapply Permutation_NoDup; [symmetry; exact Fa|apply seq_NoDup]).
  assert (Hrange : forall v, In v (concat ms) -> v < p_numVehicles d).
  { intros v Hv. apply (Permutation_in _ Fa) in Hv. apply in_seq in Hv. lia. }
  destruct (veh2type_spec (p_vehicles d) ms 0 (repeat 0 (p_numVehicles d))) as (types & Et & Hlt & Nt & _).
  { exact Fl. } { exact Fn. } { exact Nd. } { intros v Hv. rewrite repeat_length. auto. }
  rewrite repeat_length in Hlt. cbn [Nat.add] in Nt.
  assert (A : exists asg, write_solution d s = Ok (map (line d) asg) /\ Permutation (somes asg) routes /\
    forall i r, i < length asg -> nth i asg None = Some r -> i < length types /\ nth i types 0 = r_vehicleType r).
  { unfold write_solution. rewrite Er. destruct (Nat.eqb_spec (p_numVehicleTypes d) 1) as [E1|E1].
    - exists (map Some routes). split; [rewrite map_map; reflexivity|]. split; [rewrite somes_map; reflexivity|].
      intros i r Hi E. rewrite map_length in Hi. pose proof (cs_vehicles _ _ Hc) as Hcv. split; [lia|].
      assert (B : built d r).
      { rewrite Forall_forall in HB. apply HB. rewrite (nth_map _ routes i (nth 0 routes r) None) in E by exact Hi. injection E as <-. apply nth_In, Hi. }
      destruct (built_mid d r B) as (_ & _ & Hr & _). assert (E0 : r_vehicleType r = 0) by lia. rewrite E0.
      assert (Hin : In i (concat ms)) by (eapply Permutation_in; [symmetry; exact Fa|apply in_seq; lia]).
      apply in_concat_nth in Hin as (t & Ht & Hin). assert (t = 0) by lia. subst t. rewrite (Nt 0 i 0); [reflexivity|unfold p_numVehicleTypes in E1; lia|exact Hin].
    - assert (Em : mapM vehicles_of (p_vehicles d) = Ok (map (map Z.of_nat) ms)).
      { apply mapM_ok. unfold p_vehicle, p_numVehicleTypes in Fn, Fl. clear - Fn Fl. revert ms Fn Fl. induction (p_vehicles d) as [|v vs IH]; intros [|m ms] Fn Fl; cbn in Fl; try lia; constructor.
        - exact (Fn 0 ltac:(cbn; lia)).
        - apply IH; [|lia]. intros t Ht. apply (Fn (S t)). cbn. lia. }
      rewrite Em. cbn [bind]. replace (repeat [] (p_numVehicles d)) with (map (line d) (repeat None (p_numVehicles d))).
      2:{ clear. induction (p_numVehicles d) as [|n IH]; [reflexivity|]. cbn [repeat map]. rewrite IH. reflexivity. }
      destruct (write_spec d routes ms (repeat None (p_numVehicles d)) HB Fl Nd) as (asg & E & Hl & P & Ho).
      + intros v Hv. rewrite repeat_length. split; [auto|]. apply nth_repeat_lt. auto.
      + intros t Ht. rewrite Fl in Ht. rewrite (Fc t Ht). apply (cs_types _ _ Hc t Ht).
      + exists asg. split; [exact E|]. rewrite somes_none, app_nil_r in P. split; [exact P|]. intros i r Hi En. rewrite repeat_length in Hl. split; [lia|].
        destruct (Ho i r En) as [H|H]; [rewrite nth_repeat_lt in H by lia; discriminate|].
        apply (Nt _ _ 0); [|exact H]. rewrite Forall_forall in HB. destruct (built_mid d r) as (_ & _ & Hr & _); [|exact Hr]. apply HB. eapply Permutation_in; [exact P|]. apply somes_in. exists i. auto. }
  destruct A as (asg & Ew & P & Hty). exists (map (line d) asg).
  assert (HB' : Forall (built d) (somes asg)).
  { apply Forall_forall. intros r Hr. apply (Permutation_in _ P) in Hr. rewrite Forall_forall in HB. auto. }
  assert (Hrd : read_routes d (loc2activity d) types 0 (map (line d) asg) = Ok (somes asg)).
  { apply read_routes_spec; [exact Hp| |exact Hty]. intros r Hr. rewrite Forall_forall in HB'. split; [auto|].
    apply (nonempty_line d routes r HB Hc). eapply Permutation_in; [exact P|exact Hr]. }
  destruct (make_solution_iff d (somes asg) HB' Hg Hk) as [[Hok _] _].
  destruct (Hok (perm_consistent _ _ _ (Permutation_sym P) Hc)) as [s' Es'].
  destruct (sol_inv d (somes asg) HB' Hg Hk s' Es') as (_ & cv' & sv' & Et' & _).
  assert (Er' : so_routes s' = somes asg) by (rewrite Et'; reflexivity).
  exists s'. split; [exact Ew|]. split.
  { unfold read_solution. rewrite Et. cbn [bind]. rewrite Hrd. cbn [bind]. exact Es'. }
  split; [|split].
  - apply (solution_eqb_spec d (somes asg) routes s' s Hg Hk HB' HB Es' Hs). apply Permutation_map. exact P.
  - rewrite Er, Er'. exact P.
  - intros ev. unfold solution_penalised. rewrite Er', Er. rewrite Et', Es. cbn [so_uncollected the_solution]. unfold sum_of.
    rewrite (zsum_perm _ _ (Permutation_map r_prizes P)), (zsum_perm _ _ (Permutation_map (route_penalised ev) P)). reflexivity.
Qed.
