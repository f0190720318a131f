(** Shipments, locations and routes of the data that read() makes. *)
From Coq Require Import Ascii.
From Coq Require Import String List Permutation.
From Verif Require Import Base DurationSegment Data DataCtor MatrixFacts ModelPy ActivityText StatsCsv LoadSegment SearchRoute Valid Route RouteSpec RouteFacts2 RouteFacts3
  Cost CostFacts Solution SolutionFacts SearchLoad2 Read ReadFacts ReadSpec ReadSol ReadData ReadVeh ReadMat.
Import ListNotations.
Local Open Scope Z_scope.
Notation length := List.length.

Lemma Forall2_nth' {A B} (R : A -> B -> Prop) l l' : Forall2 R l l' ->
  length l = length l' /\ forall i a b, (i < length l')%nat -> R (nth i l a) (nth i l' b).
Proof.
  intros H. assert (E : length l = length l') by (induction H; cbn; congruence). split; [exact E|].
  intros i a b Hi. apply (Forall2_nth R l l' H). lia.
Qed.
Lemma combine_seq {A} (rows : list A) dft : forall a, combine (seq a (length rows)) rows = map (fun i => (i, nth (i - a) rows dft)) (seq a (length rows)).
Proof.
  induction rows as [|r rows IH]; intros a; [reflexivity|]. cbn [length seq combine map]. rewrite Nat.sub_diag. cbn [nth]. f_equal.
  rewrite IH. apply map_ext_in. intros i Hi. apply in_seq in Hi. f_equal. replace (i - a)%nat with (S (i - S a)) by lia. reflexivity.
Qed.

Section Inst.
Variable Num : Type.
Variable zero : Num.
Variable rf : Num -> Z.
Variable inst : instance Num.
Notation read := (read Num zero rf inst).
Notation depots := (file_depots Num inst).
Notation dim := (in_dimension inst).
Notation row := (fun rows i => nth i rows (dummy_row Num zero)).

Lemma no_shipments d : read = Ok d -> in_pd inst = None -> p_numShipments d = 0%nat.
Proof.
  intros H E. destruct (read_inv Num zero rf inst d H) as [P _]. pose proof (pt_shipments _ _ _ _ d P) as Hs. unfold read_shipments in Hs. rewrite E in Hs.
  injection Hs as Hs. unfold p_numShipments. rewrite <- Hs. reflexivity.
Qed.
Lemma shipments_read d rows : read = Ok d -> in_pd inst = Some rows ->
  p_numShipments d = length (pickup_rows Num zero rows) /\
  forall s, (s < p_numShipments d)%nat -> let i := nth s (pickup_rows Num zero rows) 0%nat in
    shipment_is Num zero rf rows i (pd_deliv (row rows i) - Z.of_nat depots) (p_shipment d s).
Proof.
  intros H E. destruct (read_inv Num zero rf inst d H) as [P _]. pose proof (pt_shipments _ _ _ _ d P) as Hs. unfold read_shipments in Hs. rewrite E in Hs.
  apply bind_ok in Hs as (ls & Hs & [= Ec]). rewrite (combine_seq rows (dummy_row Num zero)), mapM_map in Hs. cbn [fst snd] in Hs. apply mapM_ok in Hs.
  assert (G : Forall2 (fun i s => shipment_is Num zero rf rows i (pd_deliv (row rows i) - Z.of_nat depots) s) (pickup_rows Num zero rows) (concat ls)).
  { unfold pickup_rows. clear Ec. revert ls Hs. induction (seq 0 (length rows)) as [|i is IH]; intros ls Hs; inversion Hs as [|i' y is' ys Hi Hr]; subst; [constructor|].
    cbn [filter concat]. specialize (IH _ Hr). rewrite Nat.sub_0_r in Hi. unfold read_shipment in Hi. fold (is_pickup Num (row rows i)) in Hi.
    destruct (is_pickup Num (row rows i)) eqn:Ep; [|injection Hi as <-; exact IH].
    cbv zeta in Hi. apply bind_ok in Hi as (k & Hk & Hi). apply bind_ok in Hi as (q & Hq & Hi). apply bind_ok in Hi as (dl & Hd & Hi). apply bind_ok in Hi as (s & Hs' & [= <-]).
    rewrite depots_num in *. apply to_size_ok in Hd as [Hpos ->]. apply (py_index_pos _ _ _ Hpos) in Hk as [Hlt ->]. apply (get_ok _ _ _ (dummy_row Num zero)) in Hq as [_ ->].
    apply make_shipment_spec in Hs' as [_ ->]. cbn [app]. constructor; [|exact IH]. constructor; cbn [s_pickup s_delivery s_amount s_required s_prize]; try reflexivity. lia. }
  destruct (Forall2_nth' _ _ _ G) as [Hl Hn]. unfold p_numShipments, p_shipment. rewrite <- Ec. split; [lia|].
  intros s Hslt. cbv zeta. apply Hn. exact Hslt.
Qed.

Lemma locations_num d : read = Ok d -> file_sized Num inst -> p_numLocations d = dim.
Proof.
  intros H Hs. destruct (read_inv Num zero rf inst d H) as [P _]. unfold p_numLocations. rewrite (pt_locations _ _ _ _ d P). unfold read_locations. rewrite map_length.
  unfold coords, file_sized in *. destruct (in_coord inst); [rewrite map_length; exact Hs|apply repeat_length].
Qed.
Lemma depot_loc d i : read = Ok d -> (i < p_numDepots d)%nat -> p_numDepots d = depots /\ d_loc (p_depot d i) = i.
Proof.
  intros H Hi. destruct (read_inv Num zero rf inst d H) as [P _]. destruct (depots_read Num inst _ (pt_depots _ _ _ _ d P)) as (_ & _ & Hl & Hn).
  unfold p_numDepots in *. split; [exact Hl|]. unfold p_depot. rewrite Hn by lia. reflexivity.
Qed.
Lemma client_loc d i : read = Ok d -> (i < p_numClients d)%nat -> c_loc (p_client d i) = (depots + i)%nat.
Proof. intros H Hi. apply (proj2 (clients_read Num zero rf inst d H) i Hi). Qed.
Lemma known_loc d a : read = Ok d -> RouteSpec.known d a -> (a_loc d a < p_numLocations d)%nat.
Proof.
  intros H K. destruct (read_inv Num zero rf inst d H) as [_ D]. destruct a as [i|i|i|i]; cbn in *.
  all: first [apply (do_depots d D), nth_In, K | apply (do_clients d D), K | apply (do_shipments d D), nth_In, K].
Qed.
Lemma pickup_row s rows : (s < length (pickup_rows Num zero rows))%nat -> let i := nth s (pickup_rows Num zero rows) 0%nat in
  (i < length rows)%nat /\ is_pickup Num (row rows i) = true.
Proof.
  intros Hs i. assert (Hin : In i (pickup_rows Num zero rows)) by (apply nth_In, Hs). apply filter_In in Hin as [H1 H2]. apply in_seq in H1. split; [lia|exact H2].
Qed.

Theorem read_places d : read = Ok d -> (forall rows, in_pd inst = Some rows -> pairs_proper Num zero inst rows) -> places_differ d.
Proof.
  intros H Hpp. constructor; [|intros a K; apply known_loc; assumption].
  assert (Dl : forall i, (i < p_numDepots d)%nat -> (i < depots)%nat /\ d_loc (p_depot d i) = i).
  { intros i Hi. destruct (depot_loc d i H Hi) as [E1 E2]. split; [lia|exact E2]. }
  destruct (in_pd inst) as [rows|] eqn:E.
  - specialize (Hpp rows eq_refl). destruct Hpp as [P1 P2 P3]. destruct (shipments_read d rows H E) as [Hn Hs].
    assert (Nc : p_numClients d = 0%nat).
    { rewrite (proj1 (clients_read Num zero rf inst d H)). unfold file_clients. rewrite E. lia. }
    assert (S : forall s, (s < p_numShipments d)%nat -> let i := nth s (pickup_rows Num zero rows) 0%nat in let q := Z.to_nat (pd_deliv (row rows i) - 1) in
      st_loc (s_pickup (p_shipment d s)) = i /\ st_loc (s_delivery (p_shipment d s)) = q /\ (1 <= i)%nat /\ (1 <= q)%nat /\
      pd_pick (row rows i) = 0 /\ pd_pick (row rows q) = Z.of_nat i + 1).
    { intros s Hslt i q. specialize (Hs s Hslt). cbv zeta in Hs. fold i in Hs. rewrite P1 in Hs. rewrite Hn in Hslt. destruct (pickup_row s rows Hslt) as [Hi Hp]. fold i in Hi, Hp.
      destruct (P3 i Hi Hp) as (Q1 & Q2 & Q3). destruct Hs as [S1 _ S2 _ _ _]. rewrite S1, S2. cbn [st_loc]. fold q in Q3.
      unfold is_pickup in Hp. apply Bool.andb_true_iff in Hp as [Hp _]. apply Z.eqb_eq in Hp. change (Z.of_nat 1) with 1. fold q. repeat split; try assumption. lia. }
    assert (Inj : forall s s', (s < p_numShipments d)%nat -> (s' < p_numShipments d)%nat -> nth s (pickup_rows Num zero rows) 0%nat = nth s' (pickup_rows Num zero rows) 0%nat -> s = s').
    { intros s s' H1 H2 En. rewrite Hn in H1, H2. apply (proj1 (NoDup_nth (pickup_rows Num zero rows) 0%nat)); try assumption. apply NoDup_filter, seq_NoDup. }
    intros a b Ka Kb Eab. destruct a as [i|i|i|i], b as [j|j|j|j]; cbn [RouteSpec.known a_loc] in *; try lia;
      repeat match goal with
      | K : (?i < p_numDepots d)%nat |- _ => let Q := fresh "Q" in pose proof (Dl i K) as Q; destruct Q as [? ?]; clear K
      | K : (?i < p_numShipments d)%nat |- _ => pose proof (S i K) as (? & ? & ? & ? & ? & ?); revert K
      end; intros; try (exfalso; lia).
    + f_equal. lia.
    + f_equal. apply Inj; [assumption|assumption|congruence].
    + exfalso. assert (X : nth i (pickup_rows Num zero rows) 0%nat = Z.to_nat (pd_deliv (row rows (nth j (pickup_rows Num zero rows) 0%nat)) - 1)) by congruence.
      cbv beta in *. rewrite <- X in *. lia.
    + exfalso. assert (X : nth j (pickup_rows Num zero rows) 0%nat = Z.to_nat (pd_deliv (row rows (nth i (pickup_rows Num zero rows) 0%nat)) - 1)) by congruence.
      cbv beta in *. rewrite <- X in *. lia.
    + f_equal. apply Inj; [assumption|assumption|]. cbv beta in *.
      assert (X : Z.to_nat (pd_deliv (row rows (nth i (pickup_rows Num zero rows) 0%nat)) - 1) = Z.to_nat (pd_deliv (row rows (nth j (pickup_rows Num zero rows) 0%nat)) - 1)) by (cbv beta; congruence).
      cbv beta in X. rewrite X in *. lia.
  - pose proof (no_shipments d H E) as N. intros a b Ka Kb Eab.
    assert (Cl : forall i, (i < p_numClients d)%nat -> c_loc (p_client d i) = (depots + i)%nat) by (intros i Hi; apply client_loc; assumption).
    destruct a as [i|i|i|i], b as [j|j|j|j]; cbn [RouteSpec.known a_loc] in *; try lia;
      repeat match goal with
      | K : (?i < p_numDepots d)%nat |- _ => let Q := fresh "Q" in pose proof (Dl i K) as Q; destruct Q as [? ?]; clear K
      | K : (?i < p_numClients d)%nat |- _ => pose proof (Cl i K); clear K
      end; try (exfalso; lia).
    + f_equal. lia.
    + f_equal. lia.
Qed.

(** ** Routes *)
Section Walk.
Variable f : nat -> nat -> Z.
Hypothesis Hf : forall a b, 0 <= f a b.
Lemma path_nonneg l : 0 <= path_sum f l.
Proof.
  induction l as [|a [|b l] IH]; cbn [path_sum] in *; [lia|lia|]. specialize (Hf a b). lia.
Qed.
Lemma path_arc l1 a b l2 : f a b <= path_sum f (l1 ++ a :: b :: l2).
Proof.
  induction l1 as [|x l1 IH]; cbn [app].
  - rewrite path_sum_cons2. pose proof (path_nonneg (b :: l2)). lia.
  - destruct (l1 ++ a :: b :: l2) as [|y l] eqn:E; [destruct l1; discriminate|]. rewrite path_sum_cons2. specialize (Hf x y). lia.
Qed.
End Walk.
Lemma path_ext f g l : (forall l1 a b l2, l = l1 ++ a :: b :: l2 -> f a b = g a b) -> path_sum f l = path_sum g l.
Proof.
  induction l as [|a [|b l] IH]; intros H; [reflexivity|reflexivity|]. rewrite !path_sum_cons2. f_equal; [exact (H [] a b l eq_refl)|].
  apply IH. intros l1 x y l2 E. apply (H (a :: l1) x y l2). rewrite E. reflexivity.
Qed.
(** A path from inside to outside of a set leaves it somewhere. *)
Lemma crossing (P : nat -> Prop) : (forall x, P x \/ ~ P x) -> forall l a, P a -> (exists x, In x l /\ ~ P x) ->
  exists l1 x y l2, a :: l = l1 ++ x :: y :: l2 /\ P x /\ ~ P y.
Proof.
  intros Dec. induction l as [|b l IH]; intros a Ha (x & Hx & Nx); [destruct Hx|]. destruct (Dec b) as [Hb|Hb].
  - destruct Hx as [<-|Hx]; [contradiction|]. destruct (IH b Hb ltac:(eauto)) as (l1 & y & z & l2 & E & Hy & Hz).
    exists (a :: l1), y, z, l2. rewrite E. auto.
  - exists [], a, b, l. auto.
Qed.

Variable d : pdata.
Hypothesis H : read = Ok d.
Hypothesis Hsize : file_sized Num inst.
Hypothesis Hap : allowed_proper Num inst.
Variables v t : nat.
Hypothesis Hb : belongs d v t.
Variable mid : list activity.
Variable r : route.
Hypothesis Hr : make_route d mid t = Ok r.
Let x := p_vehicle d t.

Lemma route_known : forall a, In a mid -> RouteSpec.known d a.
Proof. exact (wf_known _ _ _ (make_route_ok _ _ _ _ Hr)). Qed.
Lemma vehicle_depots : (v_start x < p_numDepots d)%nat /\ (v_end x < p_numDepots d)%nat.
Proof.
  destruct (read_inv Num zero rf inst d H) as [_ D]. destruct Hb as [Ht _]. destruct (do_vehicles d D x) as (_ & ? & ? & _); [apply nth_In, Ht|auto].
Qed.
Lemma locs_known loc : In loc (route_locs d x mid) -> (loc < p_numLocations d)%nat /\ (loc < dim)%nat.
Proof.
  rewrite <- (locations_num d H Hsize). intros Hl. assert (G : (loc < p_numLocations d)%nat); [|auto]. unfold route_locs in Hl. destruct vehicle_depots as [V1 V2].
  destruct Hl as [<-|Hl]; [apply (known_loc d (ADepot (v_start x)) H V1)|]. apply in_app_or in Hl as [Hl|[<-|[]]]; [|apply (known_loc d (ADepot (v_end x)) H V2)].
  apply in_map_iff in Hl as (a & <- & Ha). apply known_loc; [exact H|apply route_known, Ha].
Qed.
Lemma in_arc {A} (l l1 : list A) a b l2 : l = l1 ++ a :: b :: l2 -> In a l /\ In b l.
Proof. intros ->. split; apply in_or_app; right; [left|right; left]; reflexivity. Qed.

(** The length of a step: zero within a location. *)
Definition file_step (i j : nat) : Z := if (i =? j)%nat then 0 else file_edge Num rf inst i j.
Notation path := (route_locs d x mid).
Definition arc (a b : nat) : Prop := exists l1 l2, path = l1 ++ a :: b :: l2.
Hypothesis Hpos : forall i j, 0 <= file_edge Num rf inst i j.

Lemma arc_nonneg a b : arc a b -> 0 <= p_dist d (v_profile x) a b.
Proof.
  intros (l1 & l2 & E). destruct (in_arc _ _ _ _ _ E) as [Ha Hb']. apply locs_known in Ha as [A1 A2]. apply locs_known in Hb' as [B1 B2].
  destruct (matrices_read Num zero rf inst d v t H Hap Hb a b A1 B1 A2 B2) as (_ & M0 & M1 & M2). fold x in M0, M1, M2.
  destruct (Nat.eq_dec a b) as [Eab|Eab]; [rewrite (M0 Eab); lia|].
  destruct (may_visit_dec Num zero rf inst v a) as [Va|Va]; [|rewrite M2 by auto; unfold MAX_VALUE; lia].
  destruct (may_visit_dec Num zero rf inst v b) as [Vb|Vb]; [|rewrite M2 by auto; unfold MAX_VALUE; lia].
  destruct (backward_dec Num rf inst a b) as [Bk|Bk]; [rewrite M2 by auto; unfold MAX_VALUE; lia|]. rewrite M1 by assumption. apply Hpos.
Qed.
Lemma sum_arc f l : (forall l1 a b l2, l = l1 ++ a :: b :: l2 -> 0 <= f a b) -> 0 <= path_sum f l /\ forall l1 a b l2, l = l1 ++ a :: b :: l2 -> f a b <= path_sum f l.
Proof.
  induction l as [|c [|e l] IH]; intros Hn; [cbn; split; [lia|intros [|? [|]] ? ? ? X; discriminate]|cbn; split; [lia|intros [|? [|]] ? ? ? X; discriminate]|].
  destruct IH as [I1 I2]; [intros l1 a b l2 X; apply (Hn (c :: l1) a b l2); rewrite X; reflexivity|]. rewrite path_sum_cons2.
  pose proof (Hn [] c e l eq_refl). split; [lia|]. intros [|y l1] a b l2 X.
  - injection X as <- <- <-. lia.
  - injection X as <- X. pose proof (I2 _ _ _ _ X). lia.
Qed.
Lemma route_distance : r_distance r = path_sum (p_dist d (v_profile x)) path.
Proof.
  pose proof (route_fields d mid t r Hr) as Hf. cbv zeta in Hf. rewrite Hf. reflexivity.
Qed.
Lemma costly_arc a b : arc a b -> a <> b -> ~ may_visit Num inst v a \/ ~ may_visit Num inst v b \/ backward Num rf inst a b -> MAX_VALUE <= r_distance r.
Proof.
  intros A Hne Hbad. rewrite route_distance. destruct (sum_arc (p_dist d (v_profile x)) path) as [_ S]; [intros l1 y z l2 E; apply arc_nonneg; exists l1, l2; exact E|].
  destruct A as (l1 & l2 & E). destruct (in_arc _ _ _ _ _ E) as [Ha Hb']. apply locs_known in Ha as [A1 A2]. apply locs_known in Hb' as [B1 B2].
  destruct (matrices_read Num zero rf inst d v t H Hap Hb a b A1 B1 A2 B2) as (_ & _ & _ & M2). fold x in M2. specialize (M2 Hne Hbad). specialize (S _ _ _ _ E). lia.
Qed.

(** A route that visits a client that is not allowed has a prohibitive distance; other routes have the distance of their edges. *)
Theorem allowed_route : (exists a, In a mid /\ ~ may_visit Num inst v (a_loc d a)) -> MAX_VALUE <= r_distance r.
Proof.
  intros (a & Ha & Hn). destruct vehicle_depots as [V1 _]. destruct (depot_loc d _ H V1) as [E1 E2].
  destruct (crossing (may_visit Num inst v) (may_visit_dec Num zero rf inst v) (map (a_loc d) mid ++ [d_loc (p_depot d (v_end x))]) (d_loc (p_depot d (v_start x)))) as (l1 & y & z & l2 & E & Hy & Hz).
  - left. fold x in E2. rewrite E2. lia.
  - exists (a_loc d a). split; [apply in_or_app; left; apply in_map, Ha|exact Hn].
  - apply (costly_arc y z); [exists l1, l2; exact E|intros ->; contradiction|auto].
Qed.
Theorem plain_route : (forall a, In a mid -> may_visit Num inst v (a_loc d a)) -> (forall a b, arc a b -> a <> b -> ~ backward Num rf inst a b) ->
  r_distance r = path_sum file_step path.
Proof.
  clear Hpos. intros Hv Hnb. rewrite route_distance. apply path_ext. intros l1 a b l2 E. destruct (in_arc _ _ _ _ _ E) as [Ha Hb'].
  assert (V : forall loc, In loc path -> may_visit Num inst v loc).
  { destruct vehicle_depots as [V1 V2]. destruct (depot_loc d _ H V1) as [E1 E2]. destruct (depot_loc d _ H V2) as [_ E3]. intros loc [<-|Hl]; [left; rewrite E2; lia|].
    apply in_app_or in Hl as [Hl|[<-|[]]]; [|left; rewrite E3; lia]. apply in_map_iff in Hl as (c & <- & Hc). apply Hv, Hc. }
  pose proof (locs_known _ Ha) as [A1 A2]. pose proof (locs_known _ Hb') as [B1 B2].
  destruct (matrices_read Num zero rf inst d v t H Hap Hb a b A1 B1 A2 B2) as (_ & M0 & M1 & _). fold x in M0, M1. unfold file_step. destruct (Nat.eqb_spec a b) as [Eab|Eab]; [apply M0, Eab|].
  apply M1; [exact Eab|apply V, Ha|apply V, Hb'|apply Hnb; [exists l1, l2; exact E|exact Eab]].
Qed.

(** In a VRP with backhauls, a route of reasonable length serves linehaul clients first. *)
Definition is_back (a : activity) : Prop := 0 < file_amount Num rf (in_backhaul inst) (a_loc d a) 0.
Definition is_line (a : activity) : Prop := 0 < file_amount Num rf (file_linehaul Num inst) (a_loc d a) 0.
Theorem backhaul_first : in_type inst = "VRPB"%string -> depots = 1%nat -> (forall a, In a mid -> is_back a -> ~ is_line a) ->
  (forall a, In a mid -> is_back a \/ is_line a) -> r_distance r < MAX_VALUE ->
  (forall a l, mid = a :: l -> a_loc d a <> 0%nat -> ~ is_back a) /\
  (forall l1 a l2 b l3, mid = l1 ++ a :: l2 ++ b :: l3 -> is_back a -> ~ is_line b).
Proof.
  intros Ht Hd Hx Hor Hlt. split.
  - intros a l E Hne Hba. destruct vehicle_depots as [V1 _]. destruct (depot_loc d _ H V1) as [E1 E2].
    assert (X : MAX_VALUE <= r_distance r); [|lia]. apply (costly_arc 0%nat (a_loc d a)).
    + exists [], (map (a_loc d) l ++ [d_loc (p_depot d (v_end x))]). unfold route_locs. fold x in E2. rewrite E2, E. replace (v_start x) with 0%nat by lia. reflexivity.
    + auto.
    + right. right. split; [exact Ht|]. left. split; [reflexivity|exact Hba].
  - intros l1 a l2. revert l1 a. induction l2 as [|c l2 IH]; intros l1 a b l3 E Hba Hlb.
    + assert (X : MAX_VALUE <= r_distance r); [|lia]. apply (costly_arc (a_loc d a) (a_loc d b)).
      * exists (d_loc (p_depot d (v_start x)) :: map (a_loc d) l1), (map (a_loc d) l3 ++ [d_loc (p_depot d (v_end x))]). unfold route_locs. rewrite E. cbn [app]. rewrite map_app. cbn [map].
        rewrite <- app_assoc. reflexivity.
      * intros El. apply (Hx a); [rewrite E; apply in_or_app; right; left; reflexivity|exact Hba|]. unfold is_line. rewrite El. exact Hlb.
      * right. right. split; [exact Ht|]. right. split; [exact Hba|exact Hlb].
    + assert (Hc : In c mid) by (rewrite E; apply in_or_app; right; right; left; reflexivity).
      destruct (Hor c Hc) as [Hc'|Hc'].
      * apply (IH (l1 ++ [a]) c b l3); [rewrite <- app_assoc; exact E|exact Hc'|exact Hlb].
      * assert (X : MAX_VALUE <= r_distance r); [|lia]. apply (costly_arc (a_loc d a) (a_loc d c)).
        -- exists (d_loc (p_depot d (v_start x)) :: map (a_loc d) l1), (map (a_loc d) (l2 ++ b :: l3) ++ [d_loc (p_depot d (v_end x))]). unfold route_locs. rewrite E. cbn [app]. rewrite map_app. cbn [map].
           rewrite <- app_assoc. reflexivity.
        -- intros El. apply (Hx a); [rewrite E; apply in_or_app; right; left; reflexivity|exact Hba|]. unfold is_line. rewrite El. exact Hc'.
        -- right. right. split; [exact Ht|]. right. split; [exact Hba|exact Hc'].
Qed.
End Inst.
