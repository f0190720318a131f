(** Well-formed files are accepted. *)
From Coq Require Import Ascii.
From Coq Require Import String List Permutation.
From Verif Require Import Base DurationSegment Data DataCtor MatrixFacts ModelPy ActivityText StatsCsv LoadSegment Route RouteSpec
  Cost Solution SolutionFacts Read ReadFacts ReadSpec ReadData ReadVeh ReadMat ReadRoute.
Import ListNotations.
Local Open Scope Z_scope.
Notation length := List.length.

Section File.
Variable Num : Type.
Variable zero : Num.
Variable rf : Num -> Z.
Variable inst : instance Num.
Notation depots := (file_depots Num inst).
Notation clients := (file_clients Num inst).
Notation nv := (file_vehicles Num inst).
Notation dim := (in_dimension inst).

(** A section with one row for each of [n] locations or vehicles, if it is there. *)
Definition one_each {A} (n : nat) (l : option (list A)) : Prop := match l with None => True | Some l => length l = n end.
(** A value that is given once, or one for each. *)
Definition fits {A} (n : nat) (s : option (spec A)) : Prop :=
  match s with None => True | Some (Uniform _) => True | Some (Each l) => length l = n \/ length l = 1%nat end.
(** The number of load dimensions of location [loc] and of vehicle [v]. *)
Definition row_width (rows : option (list (list Num))) (loc : nat) : nat := match rows with None => 1%nat | Some rows => length (nth loc rows []) end.
Definition capacity_of (v : nat) : list Z :=
  match in_capacity inst with None => [MAXV] | Some (Uniform c) => map rf c | Some (Each rows) => map rf (nth v rows []) end.
Definition service_of (loc : nat) : Z :=
  match in_service inst with None => rf zero | Some (Uniform x) => rf x | Some (Each l) => rf (nth loc l zero) end.
Definition release_of (loc : nat) : Z := match in_release inst with None => rf zero | Some s => rf (value_at s loc zero) end.
Definition optional_value (s : option (spec Num)) (dft : Z) (v : nat) : Z := match s with None => dft | Some s => rf (value_at s v zero) end.
Definition optional_number (s : option (spec Z)) (dft : Z) (v : nat) : Z := match s with None => dft | Some s => value_at s v 0 end.

Record file_ok : Prop := mk_file_ok {
  (* depots come first *)
  fo_depots : match in_depot inst with None => True | Some l => l <> [] /\ l = map Z.of_nat (seq 0 (length l)) end;
  fo_dimension : (depots <= dim)%nat;
  fo_coord : file_sized Num inst;
  fo_edge : let '(rows, cols, _) := in_edge inst in rows = dim /\ cols = dim;
  fo_diagonal : forall i, (i < dim)%nat -> file_edge Num rf inst i i = 0;
  (* one row per location *)
  fo_demand : one_each dim (file_linehaul Num inst) /\ one_each dim (in_backhaul inst);
  fo_service : match in_service inst with Some (Each l) => length l = dim | _ => True end;
  fo_window : match in_pd inst with None => one_each dim (in_window inst) | Some _ => True end;
  fo_release : fits dim (in_release inst);
  fo_prize : one_each dim (in_prize inst);
  (* clients *)
  fo_amounts : forall loc k, (depots <= loc < depots + clients)%nat ->
    0 <= file_amount Num rf (file_linehaul Num inst) loc k /\ 0 <= file_amount Num rf (in_backhaul inst) loc k;
  fo_client : forall loc, (depots <= loc < depots + clients)%nat ->
    0 <= service_of loc /\ 0 <= release_of loc <= snd (file_window Num zero rf inst loc) /\ 0 <= file_prize Num zero rf inst loc;
  fo_windows : forall loc, (loc < dim)%nat -> let '(early, late) := file_window Num zero rf inst loc in 0 <= early <= late /\ early <= MAXV;
  (* vehicles *)
  fo_some : (0 < nv)%nat;
  fo_vehicles : match in_capacity inst with Some (Each rows) => length rows = nv | _ => True end /\
    one_each nv (in_allowed inst) /\ one_each nv (in_reload inst) /\ one_each nv (in_vdepot inst) /\
    fits nv (in_maxDistance inst) /\ fits nv (in_maxDuration inst) /\ fits nv (in_maxReloads inst) /\ fits nv (in_fixed inst) /\ fits nv (in_unit inst);
  fo_vehicle : forall v, (v < nv)%nat -> Forall (fun x => 0 <= x) (capacity_of v) /\ 0 <= optional_value (in_maxDistance inst) MAXV v /\
    0 <= optional_value (in_maxDuration inst) MAXV v /\ 0 <= optional_number (in_maxReloads inst) SIZE_MAX v /\ 0 <= optional_number (in_unit inst) 1 v;
  fo_vdepot : match in_vdepot inst with None => True | Some l => Forall (fun i => 1 <= i <= Z.of_nat depots) l end;
  fo_reload : match in_reload inst with None => True | Some rows => Forall (Forall (fun i => 1 <= i <= Z.of_nat depots)) rows end;
  fo_allowed : match in_allowed inst with None => True | Some rows => Forall (Forall (fun i => 1 <= i <= Z.of_nat dim)) rows end;
  (* load dimensions *)
  fo_width : forall loc v, (depots <= loc < depots + clients)%nat -> (v < nv)%nat ->
    Nat.max (row_width (file_linehaul Num inst) loc) (row_width (in_backhaul inst) loc) = length (capacity_of v);
  fo_same_width : forall v w, (v < nv)%nat -> (w < nv)%nat -> length (capacity_of v) = length (capacity_of w);
  (* backhauls *)
  fo_vrpb : in_type inst = "VRPB"%string -> exists back line, in_backhaul inst = Some back /\ file_linehaul Num inst = Some line /\
    Forall (fun row => length row = 1%nat) back /\ Forall (fun row => length row = 1%nat) line /\
    forall i, (i < dim)%nat -> ~ backward Num rf inst i i;
  (* groups *)
  fo_groups : Forall (fun g => NoDup g /\ Forall (fun i => Z.of_nat depots < i <= Z.of_nat (depots + clients)) g) (file_groups Num inst);
  fo_disjoint : forall g h i, (g < length (file_groups Num inst))%nat -> (h < length (file_groups Num inst))%nat ->
    In i (nth g (file_groups Num inst) []) -> In i (nth h (file_groups Num inst) []) -> g = h;
  (* shipments *)
  fo_pd : forall rows, in_pd inst = Some rows -> pairs_proper Num zero inst rows /\
    (forall v, (v < nv)%nat -> length (capacity_of v) = 1%nat) /\
    Forall (fun r => 0 <= rf (pd_service r)) rows /\
    forall i, (i < length rows)%nat -> let r := nth i rows (dummy_row Num zero) in is_pickup Num r = true ->
      0 <= rf (pd_demand r) /\ rf (pd_early r) <= rf (pd_late (nth (Z.to_nat (pd_deliv r - 1)) rows (dummy_row Num zero))) }.

Hypothesis F : file_ok.
Lemma depots_pos : (0 < depots)%nat.
Proof. pose proof (fo_depots F) as H. unfold file_depots. destruct (in_depot inst) as [[|i l]|]; [destruct H; congruence|cbn; lia|lia]. Qed.
Lemma idcs : depot_idcs Num inst = map Z.of_nat (seq 0 depots).
Proof. pose proof (fo_depots F) as H. unfold depot_idcs, file_depots. destruct (in_depot inst) as [l|]; [apply H|reflexivity]. Qed.
Lemma read_depots_ok : read_depots Num inst = Ok (map (fun i => mk_depot i 0 MAXV 0 EmptyString) (seq 0 depots)).
Proof.
  unfold read_depots. rewrite depots_num, idcs. pose proof depots_pos. rewrite (proj2 (Nat.eqb_neq _ _)) by lia.
  rewrite (proj2 (zlist_eqb_eq _ _) eq_refl). cbn [orb negb]. apply mapM_ok. induction (seq 0 depots); constructor; [|assumption].
  apply make_depot_spec. split; [unfold MAXV; lia|reflexivity].
Qed.
Lemma get_total {A} (l : list A) i dft : (i < length l)%nat -> get l i = Ok (nth i l dft).
Proof. clear. intros H. apply (get_ok l i _ dft). auto. Qed.
Lemma clients_fit : (depots + clients <= dim)%nat.
Proof. pose proof (fo_dimension F). unfold file_clients. destruct (in_pd inst) as [rows|] eqn:E; [|lia]. destruct (fo_pd F rows E) as ([_ Hl _] & _). lia. Qed.
Lemma one_each_map {A B} (f : list A -> B) n rows x : one_each n rows -> length (match rows with Some rows => map f rows | None => repeat x n end) = n.
Proof. destruct rows; cbn; intros; [rewrite map_length; assumption|apply repeat_length]. Qed.
Lemma windows_length : length (time_windows Num rf inst) = dim.
Proof.
  unfold time_windows. pose proof (fo_window F) as H. destruct (in_pd inst) as [rows|] eqn:E.
  - rewrite map_length. apply (pp_rows _ _ _ _ (proj1 (fo_pd F rows E))).
  - destruct (in_window inst); cbn in *; [rewrite map_length; exact H|apply repeat_length].
Qed.
Lemma window_at loc : (loc < dim)%nat -> get (time_windows Num rf inst) loc = Ok (file_window Num zero rf inst loc).
Proof.
  intros H. rewrite (get_total _ _ (0, 0)) by (rewrite windows_length; exact H). f_equal. apply get_window. apply get_total. rewrite windows_length. exact H.
Qed.
Lemma fits_spec {A} n (s : option (spec A)) dft : fits n s -> exists l, broadcast (match s with Some s => s | None => Uniform dft end) n = Ok l.
Proof.
  intros H. apply broadcast_total. destruct s as [[x|[|x [|y l]]]|]; cbn in *; auto; lia.
Qed.
Lemma rounded_total n (s : option (spec Num)) dft : fits n s ->
  exists l, rounded Num rf (broadcast (match s with Some s => s | None => Uniform dft end) n) = Ok l /\ length l = n /\
    forall v, (v < n)%nat -> nth v l 0 = match s with None => rf dft | Some s => rf (value_at s v dft) end.
Proof.
  intros H. destruct (fits_spec n s dft H) as [l Hl]. unfold rounded. rewrite Hl. cbn [bind]. eexists. split; [reflexivity|].
  apply broadcast_ok in Hl as (_ & H1 & H2). rewrite map_length. split; [exact H1|]. intros v Hv. rewrite (nth_map rf l v dft) by lia. rewrite H2 by exact Hv.
  destruct s; [rewrite spec_value|]; reflexivity.
Qed.

(** ** Groups *)
Lemma assign_spec members : forall g l, Forall (fun i => 0 <= i < Z.of_nat (length l)) members ->
  exists l', assign_group g members l = Ok l' /\ length l' = length l /\
    forall i dft, nth i l' dft = if existsb (Z.eqb (Z.of_nat i)) members then Some g else nth i l dft.
Proof.
  clear F. induction members as [|c members IH]; intros g l H; cbn [assign_group existsb]; [exists l; auto|]. inversion H as [|c' m' Hc Hm]; subst.
  rewrite (proj2 (py_index_pos _ c (Z.to_nat c) (proj1 Hc)) (conj (proj2 Hc) eq_refl)). cbn [bind].
  destruct (IH g (upd l (Z.to_nat c) (Some g))) as (l' & E & Hl & Hn); [rewrite upd_length; exact Hm|]. exists l'. split; [exact E|]. rewrite upd_length in Hl. split; [exact Hl|].
  intros i dft. rewrite Hn, upd_nth by lia. destruct (existsb _ members); [rewrite Bool.orb_true_r; reflexivity|]. rewrite Bool.orb_false_r.
  destruct (Nat.eqb_spec (Z.to_nat c) i), (Z.eqb_spec (Z.of_nat i) c); try reflexivity; lia.
Qed.
Lemma assigns_spec groups : forall g l, Forall (Forall (fun i => 0 <= i < Z.of_nat (length l))) groups ->
  exists l', assign_groups g groups l = Ok l' /\ length l' = length l /\
    (forall i dft k, (k < length groups)%nat -> In (Z.of_nat i) (nth k groups []) ->
       (forall k', (k < k' < length groups)%nat -> ~ In (Z.of_nat i) (nth k' groups [])) -> nth i l' dft = Some (g + k)%nat) /\
    (forall i dft, (forall k, (k < length groups)%nat -> ~ In (Z.of_nat i) (nth k groups [])) -> nth i l' dft = nth i l dft).
Proof.
  clear F. induction groups as [|ms groups IH]; intros g l H; cbn [assign_groups].
  - exists l. split; [reflexivity|]. split; [reflexivity|]. split; [cbn; intros; lia|reflexivity].
  - inversion H as [|m' g' Hm Hg]; subst. destruct (assign_spec ms g l Hm) as (l1 & E1 & L1 & N1). rewrite E1. cbn [bind]. rewrite <- L1 in Hg.
    destruct (IH (S g) l1 Hg) as (l' & E & L & N & N'). exists l'. split; [exact E|]. split; [congruence|]. split.
    + intros i dft [|k] Hk Hin Hlast; cbn [nth length] in *.
      * rewrite N'; [|intros k Hk'; apply (Hlast (S k)); lia]. rewrite N1. replace (existsb (Z.eqb (Z.of_nat i)) ms) with true; [rewrite Nat.add_0_r; reflexivity|].
        symmetry. apply existsb_exists. exists (Z.of_nat i). split; [exact Hin|apply Z.eqb_refl].
      * rewrite (N i dft k); [f_equal; lia|lia|exact Hin|]. intros k' Hk'. apply (Hlast (S k')). lia.
    + intros i dft Hno. rewrite N'; [|intros k Hk; apply (Hno (S k)); cbn; lia]. rewrite N1. replace (existsb (Z.eqb (Z.of_nat i)) ms) with false; [reflexivity|].
      symmetry. apply Bool.not_true_iff_false. intros X. apply existsb_exists in X as (y & Hy & Ey). apply Z.eqb_eq in Ey. subst y. apply (Hno 0%nat); [cbn; lia|exact Hy].
Qed.
Notation groups := (exclusive_groups Num inst).
Lemma groups_nth g : (g < length (file_groups Num inst))%nat -> nth g groups [] = map (fun i => i - Z.of_nat depots - 1) (nth g (file_groups Num inst) []).
Proof. clear F zero rf. intros H. rewrite exclusive_file. apply (nth_map (map (fun i => i - Z.of_nat depots - 1)) _ g [] []). exact H. Qed.
Lemma groups_len : length groups = length (file_groups Num inst).
Proof. clear F zero rf. rewrite exclusive_file. apply map_length. Qed.
Lemma groups_range g i : (g < length groups)%nat -> In i (nth g groups []) -> 0 <= i < Z.of_nat clients.
Proof.
  rewrite groups_len. intros H Hi. rewrite groups_nth in Hi by exact H. apply in_map_iff in Hi as (j & <- & Hj). pose proof (fo_groups F) as G. rewrite Forall_forall in G.
  destruct (G (nth g (file_groups Num inst) [])) as [_ R]; [apply nth_In, H|]. rewrite Forall_forall in R. specialize (R j Hj). lia.
Qed.
Lemma groups_disjoint g h i : (g < length groups)%nat -> (h < length groups)%nat -> In i (nth g groups []) -> In i (nth h groups []) -> g = h.
Proof.
  rewrite groups_len. intros Hg Hh Hi Hj. rewrite groups_nth in Hi, Hj by assumption. apply in_map_iff in Hi as (a & Ea & Ha). apply in_map_iff in Hj as (b & Eb & Hb).
  assert (a = b) by lia. subst b. exact (fo_disjoint F g h a Hg Hh Ha Hb).
Qed.
Lemma groups_assigned : exists l, assign_groups 0 groups (repeat None clients) = Ok l /\ length l = clients /\
  forall i g, (i < clients)%nat -> nth i l None = Some g <-> (g < length groups)%nat /\ In (Z.of_nat i) (nth g groups []).
Proof.
  destruct (assigns_spec groups 0 (repeat None clients)) as (l & E & L & N & N').
  { apply Forall_forall. intros ms Hm. apply (In_nth _ _ []) in Hm as (g & Hg & <-). apply Forall_forall. intros i Hi. rewrite repeat_length. apply (groups_range g); assumption. }
  rewrite repeat_length in L. exists l. split; [exact E|]. split; [exact L|]. intros i g Hi. split.
  - intros Hn. destruct (in_dec Z.eq_dec (Z.of_nat i) (concat groups)) as [Hin|Hin].
    + apply in_concat in Hin as (ms & Hms & Hin). apply (In_nth _ _ []) in Hms as (k & Hk & Ek). subst ms.
      rewrite (N i None k Hk Hin) in Hn; [|intros k' Hk' Hin'; pose proof (groups_disjoint k k' _ Hk (proj2 Hk') Hin Hin'); lia]. injection Hn as <-. auto.
    + rewrite N' in Hn; [rewrite nth_repeat_lt in Hn by exact Hi; discriminate|]. intros k Hk Hin'. apply Hin, in_concat. eexists. split; [apply nth_In, Hk|exact Hin'].
  - intros [Hg Hin]. apply (N i None g Hg Hin). intros k Hk Hin'. pose proof (groups_disjoint g k _ Hg (proj2 Hk) Hin Hin'). lia.
Qed.

(** ** Clients *)
Lemma rows_at (rows : option (list (list Num))) loc : one_each dim rows -> (loc < dim)%nat ->
  exists x, get (match rows with Some rows => map (map rf) rows | None => repeat [0] (num_locations Num inst) end) loc = Ok x /\ length x = row_width rows loc /\
    forall k, dimv x k = file_amount Num rf rows loc k.
Proof.
  intros H Hl. unfold num_locations. eexists. split; [apply (get_total _ _ []); rewrite one_each_map; assumption|]. split.
  - unfold row_width. destruct rows as [rows|]; cbn in *; [rewrite (nth_map (map rf) rows loc [] []) by lia; apply map_length|rewrite nth_repeat_lt by exact Hl; reflexivity].
  - apply (get_rows Num rf rows dim loc). apply get_total. rewrite one_each_map; assumption.
Qed.
Lemma nonneg_rows l : (forall k, 0 <= dimv l k) -> Forall (fun x => 0 <= x) l.
Proof. clear. intros H. apply Forall_forall. intros x Hx. apply (In_nth _ _ 0) in Hx as (k & _ & <-). apply H. Qed.
Lemma read_clients_ok : exists cs, read_clients Num zero rf inst = Ok cs /\ length cs = clients /\
  forall i, (i < clients)%nat -> let c := nth i cs dummy_client in c_loc c = (depots + i)%nat /\
    length (c_delivery c) = length (capacity_of 0) /\ length (c_pickup c) = length (capacity_of 0) /\
    (forall g, c_group c = Some g <-> (g < length groups)%nat /\ In (Z.of_nat i) (nth g groups [])) /\
    (c_group c <> None -> c_required c = false).
Proof.
  unfold read_clients. cbv zeta. rewrite clients_num, depots_num. destruct groups_assigned as (idx & E & L & G). rewrite E. cbn [bind].
  destruct (rounded_total dim (in_release inst) zero (fo_release F)) as (rel & Er & Lr & Nr). unfold release_times, num_locations. rewrite Er. cbn [bind].
  pose proof clients_fit as Hfit.
  assert (One : forall loc, (depots <= loc < depots + clients)%nat -> exists c, read_client Num zero rf inst idx rel loc = Ok c /\ c_loc c = loc /\
    length (c_delivery c) = length (capacity_of 0) /\ length (c_pickup c) = length (capacity_of 0) /\ c_group c = nth (loc - depots) idx None /\ (c_group c <> None -> c_required c = false)).
  { intros loc Hloc. assert (Hd : (loc < dim)%nat) by lia. unfold read_client. destruct (fo_demand F) as [F1 F2].
    destruct (rows_at (file_linehaul Num inst) loc F1 Hd) as (del & E1 & W1 & A1). change (demands Num rf inst) with (match file_linehaul Num inst with Some rows => map (map rf) rows | None => repeat [0] (num_locations Num inst) end).
    rewrite E1. cbn [bind]. destruct (rows_at (in_backhaul inst) loc F2 Hd) as (pick & E2 & W2 & A2). unfold backhauls. rewrite E2. cbn [bind].
    assert (Es : get (service_times Num zero rf inst) loc = Ok (service_of loc)).
    { pose proof (fo_service F) as Hs. unfold service_times, service_of, num_locations. rewrite depots_num.
      destruct (in_service inst) as [[x|l]|]; cbv iota beta.
      - rewrite (get_total _ _ (rf zero)) by (rewrite map_length, app_length, !repeat_length; lia). rewrite map_nth, app_nth2 by (rewrite repeat_length; lia). rewrite nth_repeat_lt by (rewrite repeat_length; lia). reflexivity.
      - rewrite (get_total _ _ (rf zero)) by (rewrite map_length; lia). rewrite map_nth. reflexivity.
      - rewrite (get_total _ _ (rf zero)) by (rewrite map_length, app_length, !repeat_length; lia). rewrite map_nth, app_nth2 by (rewrite repeat_length; lia). rewrite nth_repeat_lt by (rewrite repeat_length; lia). reflexivity. }
    rewrite Es. cbn [bind]. rewrite (window_at loc Hd). cbn [bind]. rewrite (get_total rel loc 0) by lia. cbn [bind].
    assert (Ep : get (prizes Num rf inst) loc = Ok (file_prize Num zero rf inst loc)).
    { pose proof (fo_prize F) as Hp. unfold prizes, file_prize, num_locations. destruct (in_prize inst) as [l|]; cbn in Hp.
      - rewrite (get_total _ _ (rf zero)) by (rewrite map_length; lia). rewrite map_nth. reflexivity.
      - rewrite (get_total _ _ 0) by (rewrite repeat_length; lia). rewrite nth_repeat_lt by lia. reflexivity. }
    rewrite Ep. cbn [bind]. rewrite depots_num, (get_total idx (loc - depots) None) by lia. cbn [bind].
    destruct (fo_client F loc Hloc) as (C1 & C2 & C3). pose proof (fo_windows F loc Hd) as C4. destruct (file_window Num zero rf inst loc) as [early late]. cbn [fst snd] in *.
    eexists. split; [apply make_client_spec; split; [|reflexivity]|].
    - split; [apply nonneg_rows; intros k; rewrite A1; apply (fo_amounts F loc k Hloc)|]. split; [apply nonneg_rows; intros k; rewrite A2; apply (fo_amounts F loc k Hloc)|].
      split; [exact C1|]. split; [apply C4|]. split; [|exact C3]. rewrite Nr by exact Hd. exact C2.
    - cbn [c_loc c_delivery c_pickup c_group c_required]. rewrite !pad_length, W1, W2. rewrite <- (fo_width F loc 0 Hloc (fo_some F)).
      split; [reflexivity|]. split; [reflexivity|]. split; [apply Nat.max_comm|]. split; [reflexivity|]. intros Hn. destruct (nth (loc - depots) idx None); [apply Bool.andb_false_r|congruence]. }
  destruct (mapM_total (read_client Num zero rf inst idx rel) (seq depots clients)) as [cs Hcs].
  { intros loc Hloc. apply in_seq in Hloc. destruct (One loc ltac:(lia)) as (c & Hc & _). eauto. }
  exists cs. split; [exact Hcs|]. pose proof (mapM_length _ _ _ Hcs) as Hl. rewrite seq_length in Hl. split; [exact Hl|].
  intros i Hi. pose proof (mapM_nth _ _ _ i 0%nat dummy_client Hcs) as Hn. rewrite seq_length in Hn. specialize (Hn Hi). rewrite seq_nth in Hn by exact Hi.
  destruct (One (depots + i)%nat ltac:(lia)) as (c & Hc & P1 & P2 & P3 & P4 & P5). rewrite Hc in Hn. injection Hn as <-. cbv zeta.
  split; [exact P1|]. split; [exact P2|]. split; [exact P3|]. split; [|exact P5]. intros g. rewrite P4. replace (depots + i - depots)%nat with i by lia. apply G, Hi.
Qed.

(** ** Vehicles *)
Lemma optional_rounded n (s : option (spec Num)) dft : fits n s ->
  exists l, match s with None => Ok (repeat dft n) | Some s => rounded Num rf (broadcast s n) end = Ok l /\ length l = n.
Proof.
  clear F. intros H. destruct s as [s|]; [|eexists; split; [reflexivity|apply repeat_length]]. destruct (rounded_total n (Some s) zero H) as (l & E & L & _). eauto.
Qed.
Lemma vehicles_data_ok : exists keys, vehicles_data Num zero rf inst = Ok keys.
Proof.
  destruct (fo_vehicles F) as (V1 & V2 & V3 & V4 & V5 & V6 & V7 & V8 & V9). unfold vehicles_data.
  assert (H1 : exists l, vehicles_depots Num inst = Ok l /\ length l = nv).
  { unfold vehicles_depots. rewrite vehicles_num. destruct (in_vdepot inst) as [l|].
    - eexists. split; [reflexivity|]. rewrite map_length. exact V4.
    - pose proof depots_pos. rewrite (get_total (depot_idcs Num inst) 0 0) by (rewrite idcs, map_length, seq_length; lia). cbn [bind]. eexists. split; [reflexivity|apply repeat_length]. }
  destruct H1 as (l1 & E1 & L1). rewrite E1. cbn [bind].
  destruct (optional_rounded nv (in_maxDistance inst) MAXV V5) as (l2 & E2 & L2). unfold max_distances. rewrite vehicles_num, E2. cbn [bind].
  destruct (optional_rounded nv (in_maxDuration inst) MAXV V6) as (l3 & E3 & L3). unfold shift_durations. rewrite vehicles_num, E3. cbn [bind].
  destruct (fits_spec nv (in_maxReloads inst) SIZE_MAX V7) as (l4 & E4). pose proof (broadcast_ok _ _ _ E4) as (_ & L4 & _). unfold max_reloads. rewrite vehicles_num, E4. cbn [bind].
  destruct (rounded_total nv (in_fixed inst) zero V8) as (l5 & E5 & L5 & _). unfold fixed_costs. rewrite vehicles_num, E5. cbn [bind].
  destruct (fits_spec nv (in_unit inst) 1 V9) as (l6 & E6). pose proof (broadcast_ok _ _ _ E6) as (_ & L6 & _). unfold unit_distance_costs. rewrite vehicles_num, E6. cbn [bind]. cbv zeta.
  assert (L7 : length (capacities Num rf inst) = nv).
  { unfold capacities. rewrite vehicles_num. destruct (in_capacity inst) as [[c|rows]|]; [apply repeat_length|rewrite map_length; exact V1|apply repeat_length]. }
  assert (L8 : length (allowed_clients Num inst) = nv).
  { unfold allowed_clients. rewrite vehicles_num. destruct (in_allowed inst) as [rows|]; [rewrite map_length; exact V2|apply repeat_length]. }
  assert (L9 : length (reload_depots Num inst) = nv).
  { unfold reload_depots. rewrite vehicles_num. destruct (in_reload inst) as [rows|]; [rewrite map_length; exact V3|apply repeat_length]. }
  rewrite L1, L2, L3, L4, L5, L6, L7, L8, L9. cbn [forallb]. rewrite !Nat.eqb_refl. cbn [andb]. eauto.
Qed.
Lemma allowed_length : length (allowed_clients Num inst) = nv.
Proof. destruct vehicles_data_ok as [keys Hk]. apply (data_keys Num zero rf inst keys Hk). Qed.
Lemma profiles_in r : In r (profiles Num inst) <-> exists v, (v < nv)%nat /\ r = file_allowed Num inst v.
Proof.
  unfold profiles. rewrite (proj2 (profiles_of_spec (allowed_clients Num inst) [] (NoDup_nil _))). unfold file_allowed. split.
  - intros [[]|H]. apply (In_nth _ _ []) in H as (v & Hv & <-). rewrite allowed_length in Hv. eauto.
  - intros (v & Hv & ->). right. apply nth_In. rewrite allowed_length. exact Hv.
Qed.
Lemma key_depot v k : (v < nv)%nat -> key_is Num zero rf inst v k -> 0 <= vk_depot k < Z.of_nat depots.
Proof.
  intros Hv K. rewrite (ki_depot _ _ _ _ _ _ K). pose proof (fo_vdepot F) as Hd. destruct (fo_vehicles F) as (_ & _ & _ & V4 & _). pose proof depots_pos. destruct (in_vdepot inst) as [l|].
  - rewrite Forall_forall in Hd. specialize (Hd (nth v l 0)). cbn in V4. specialize (Hd ltac:(apply nth_In; lia)). lia.
  - rewrite idcs. rewrite (nth_map Z.of_nat (seq 0 depots) 0 0%nat) by (rewrite seq_length; lia). rewrite seq_nth by lia. lia.
Qed.
Lemma key_reload v k : (v < nv)%nat -> key_is Num zero rf inst v k -> Forall (fun i => 0 <= i < Z.of_nat depots) (vk_reload k).
Proof.
  intros Hv K. rewrite (ki_reload _ _ _ _ _ _ K). pose proof (fo_reload F) as Hd. destruct (fo_vehicles F) as (_ & _ & V3 & _). destruct (in_reload inst) as [rows|]; [|constructor].
  cbn in V3. rewrite Forall_forall in Hd. specialize (Hd (nth v rows []) ltac:(apply nth_In; lia)). apply Forall_forall. intros i Hi. apply in_map_iff in Hi as (j & <- & Hj).
  rewrite Forall_forall in Hd. specialize (Hd j Hj). lia.
Qed.
Definition good_vehicle (x : vehicle) : Prop := length (v_capacity x) = length (capacity_of 0) /\ (v_start x < depots)%nat /\ (v_end x < depots)%nat /\
  (v_profile x < length (profiles Num inst))%nat /\ 0 <= v_early x <= MAXV /\ v_early x <= v_late x /\ Forall (fun i => (i < depots)%nat) (v_reload x).
Lemma read_vehicle_ok v k vs : (v < nv)%nat -> key_is Num zero rf inst v k -> vs <> [] -> exists x, read_vehicle Num rf inst (k, vs) = Ok x /\ good_vehicle x.
Proof.
  intros Hv K Hvs. pose proof (key_depot v k Hv K) as Hd. pose proof (key_reload v k Hv K) as Hr. pose proof (fo_dimension F) as Hdim. unfold read_vehicle.
  rewrite windows_length, (proj2 (py_index_pos dim (vk_depot k) (Z.to_nat (vk_depot k)) ltac:(lia)) ltac:(split; [lia|reflexivity])). cbn [bind].
  rewrite window_at by lia. cbn [bind].
  destruct (profile_idx_total (vk_allowed k) (profiles Num inst)) as [p Hp]; [apply profiles_in; exists v; split; [exact Hv|apply (ki_allowed _ _ _ _ _ _ K)]|]. rewrite Hp. cbn [bind].
  rewrite (proj2 (to_size_ok (vk_depot k) (Z.to_nat (vk_depot k))) ltac:(split; [lia|reflexivity])). cbn [bind].
  rewrite (proj2 (mapM_to_size (vk_reload k) (map Z.to_nat (vk_reload k)))) by (split; [eapply Forall_impl; [|exact Hr]; cbn; lia|reflexivity]). cbn [bind].
  destruct (fo_vehicle F v Hv) as (C1 & C2 & C3 & C4 & C5). unfold is_size. rewrite (ki_reloads _ _ _ _ _ _ K). fold (optional_number (in_maxReloads inst) SIZE_MAX v).
  rewrite (proj2 (Z.ltb_ge _ _) C4). cbn [bind].
  pose proof (fo_windows F (Z.to_nat (vk_depot k)) ltac:(lia)) as C6. destruct (file_window Num zero rf inst (Z.to_nat (vk_depot k))) as [early late]. cbn [fst snd].
  eexists. split; [apply make_vehicle_spec; split; [|reflexivity]|].
  - split; [destruct vs; [congruence|cbn; lia]|]. split; [rewrite (ki_capacity _ _ _ _ _ _ K); exact C1|]. split; [constructor|]. split.
    { intros dm. unfold dimv at 1. destruct dm; cbn [nth]; (destruct (Nat.lt_ge_cases 0 0); [lia|]).
      - unfold dimv. destruct (vk_capacity k) eqn:E; cbn; [lia|]. rewrite (ki_capacity _ _ _ _ _ _ K) in E. fold (capacity_of v) in E. rewrite E in C1. inversion C1; assumption.
      - unfold dimv. destruct (nth_in_or_default (Datatypes.S dm) (vk_capacity k) 0) as [Hin|Hz]; [|rewrite Hz; lia]. rewrite (ki_capacity _ _ _ _ _ _ K) in Hin at 2. fold (capacity_of v) in Hin.
        rewrite Forall_forall in C1. apply C1, Hin. }
    cbn [or_else]. rewrite (ki_shift _ _ _ _ _ _ K), (ki_distance _ _ _ _ _ _ K), (ki_unit _ _ _ _ _ _ K).
    fold (optional_value (in_maxDuration inst) MAXV v) (optional_value (in_maxDistance inst) MAXV v) (optional_number (in_unit inst) 1 v). lia.
  - unfold good_vehicle. cbn [v_capacity v_start v_end v_profile v_early v_late v_reload]. rewrite pad_id by (cbn; lia). rewrite (ki_capacity _ _ _ _ _ _ K). fold (capacity_of v).
    split; [apply (fo_same_width F); [exact Hv|apply (fo_some F)]|]. split; [lia|]. split; [lia|]. split; [apply nth_error_Some; rewrite (profile_idx_ok _ _ _ Hp); discriminate|].
    split; [lia|]. split; [lia|]. apply Forall_forall. intros i Hi. apply in_map_iff in Hi as (j & <- & Hj). rewrite Forall_forall in Hr. specialize (Hr j Hj). lia.
Qed.
Lemma read_vehicles_ok : exists xs, read_vehicles Num zero rf inst = Ok xs /\ xs <> [] /\ Forall good_vehicle xs.
Proof.
  destruct vehicles_data_ok as [keys Hk]. unfold read_vehicles. rewrite Hk. cbn [bind]. destruct (data_keys Num zero rf inst keys Hk) as (Lk & _ & K).
  pose proof (group_all keys) as G.
  assert (One : forall kv, In kv (group_vehicles 0 keys []) -> exists x, read_vehicle Num rf inst kv = Ok x /\ good_vehicle x).
  { intros [k vs] Hin. destruct (gr_members _ _ G k vs Hin) as [Em Hne]. assert (Hv : exists v, In v (members keys k)) by (rewrite <- Em; destruct vs as [|v vs]; [congruence|exists v; left; reflexivity]).
    destruct Hv as [v Hv]. apply filter_In in Hv as [Hv Ev]. apply in_seq in Hv. apply vkey_eqb_eq in Ev. apply (read_vehicle_ok v); [lia|rewrite Ev; apply K; lia|exact Hne]. }
  destruct (mapM_total (read_vehicle Num rf inst) (group_vehicles 0 keys [])) as [xs Hx]; [intros kv Hin; destruct (One kv Hin) as (x & Hx & _); eauto|].
  exists xs. split; [exact Hx|]. split.
  - pose proof (mapM_length _ _ _ Hx) as Hl. pose proof (fo_some F) as Hs. pose proof (gr_all _ _ G (nth 0 keys dummy_key) ltac:(apply nth_In; lia)) as Hin.
    destruct (group_vehicles 0 keys []); [destruct Hin|]. destruct xs; [discriminate|congruence].
  - apply mapM_ok in Hx. apply Forall_forall. intros x Hin. apply (In_nth _ _ x) in Hin as (i & Hi & Ei).
    destruct (Forall2_nth' _ _ _ Hx) as [Hl Hn]. specialize (Hn i (dummy_key, []) x Hi). rewrite Ei in Hn. cbv beta in Hn.
    destruct (One (nth i (group_vehicles 0 keys []) (dummy_key, []))) as (y & Hy & Gy); [apply nth_In; lia|]. rewrite Hy in Hn. injection Hn as <-. exact Gy.
Qed.

(** ** Matrices *)
Definition good_matrix (m : matrix) : Prop := m_rows m = dim /\ m_cols m = dim /\ forall i, (i < dim)%nat -> m_at m i i = 0.
Lemma mask_total n rows e : Forall (fun row : list Num => length row = 1%nat) rows -> length rows = n -> exists l, mask Num rf n (Some rows) e = Ok l.
Proof.
  clear F. intros H1 H2. unfold mask. rewrite (proj2 (forallb_forall _ rows)); [rewrite (proj2 (Nat.eqb_eq _ _) H2); cbn [andb]; eauto|].
  intros r Hr. apply Nat.eqb_eq. rewrite Forall_forall in H1. apply H1, Hr.
Qed.
Lemma base_ok : exists m, vrpb_distances Num rf inst = Ok m /\ good_matrix m.
Proof.
  assert (Esz : m_rows (edge_weight Num rf inst) = dim /\ m_cols (edge_weight Num rf inst) = dim).
  { pose proof (fo_edge F) as He. unfold edge_weight. destruct (in_edge inst) as [[rows cols] l]. exact He. }
  destruct Esz as [Er Ec].
  assert (T : exists m, vrpb_distances Num rf inst = Ok m).
  { unfold vrpb_distances. cbv zeta. destruct (String.eqb_spec (in_type inst) "VRPB") as [Et|Et]; [|eauto].
    destruct (fo_vrpb F Et) as (back & line & E1 & E2 & R1 & R2 & _). destruct (fo_demand F) as [D1 D2]. rewrite E1 in D2. rewrite E2 in D1. cbn in D1, D2.
    change (demand_rows Num inst) with (file_linehaul Num inst). rewrite E1, E2, Ec. destruct (mask_total dim back OutOfRange R1 D2) as [lb ->]. destruct (mask_total dim line InvalidArgument R2 D1) as [ll ->].
    cbn [bind]. eauto. }
  destruct T as [m Hm]. exists m. split; [exact Hm|]. destruct (vrpb_spec Num rf inst m Hm) as (S1 & S2 & S3). unfold good_matrix. split; [congruence|]. split; [congruence|].
  intros i Hi. destruct (S3 i i ltac:(lia) ltac:(lia)) as [_ S]. rewrite S; [apply (fo_diagonal F), Hi|]. intros Hb. destruct (fo_vrpb F (proj1 Hb)) as (_ & _ & _ & _ & _ & _ & N). exact (N i Hi Hb).
Qed.
Lemma read_matrices_ok : exists ms, read_matrices Num rf inst = Ok ms /\ length ms = length (profiles Num inst) /\ Forall good_matrix ms.
Proof.
  destruct base_ok as (m & Hm & Gm). unfold read_matrices. rewrite Hm. cbn [bind].
  assert (One : forall r, In r (profiles Num inst) -> exists y, profile_matrix Num inst m r = Ok y /\ good_matrix y).
  { intros r Hr. apply profiles_in in Hr as (v & Hv & ->). unfold profile_matrix. destruct (_ =? _); [eauto|]. cbv zeta. unfold num_locations.
    destruct (set_true_total (file_allowed Num inst v) (repeat true (Nat.min (num_depots Num inst) dim) ++ repeat false (dim - Nat.min (num_depots Num inst) dim))) as [l Hl].
    { rewrite app_length, !repeat_length. replace (Nat.min (num_depots Num inst) dim + (dim - Nat.min (num_depots Num inst) dim))%nat with dim by lia.
      rewrite (allowed_file Num zero rf inst v Hv allowed_length). pose proof (fo_allowed F) as Ha. destruct (fo_vehicles F) as (_ & V2 & _). apply Forall_forall. destruct (in_allowed inst) as [rows|].
      - cbn in V2. rewrite Forall_forall in Ha. specialize (Ha (nth v rows []) ltac:(apply nth_In; lia)). rewrite Forall_forall in Ha. intros i Hi. apply in_map_iff in Hi as (j & <- & Hj).
        specialize (Ha j Hj). lia.
      - intros i Hi. apply in_map_iff in Hi as (j & <- & Hj). apply in_seq in Hj. pose proof (fo_dimension F). lia. }
    rewrite Hl. cbn [bind]. destruct Gm as (G1 & G2 & G3). rewrite G1, G2, Nat.eqb_refl. cbn [andb]. eexists. split; [reflexivity|]. split; [reflexivity|]. split; [reflexivity|].
    intros i Hi. rewrite m_tab_at by assumption. rewrite Nat.eqb_refl. reflexivity. }
  destruct (mapM_total (profile_matrix Num inst m) (profiles Num inst)) as [ms Hms]; [intros r Hr; destruct (One r Hr) as (y & Hy & _); eauto|].
  exists ms. split; [exact Hms|]. pose proof (mapM_length _ _ _ Hms) as Hl. split; [exact Hl|]. apply mapM_ok in Hms. destruct (Forall2_nth' _ _ _ Hms) as [_ Hn].
  apply Forall_forall. intros y Hy. apply (In_nth _ _ y) in Hy as (i & Hi & Ei). specialize (Hn i [] y Hi). rewrite Ei in Hn. cbv beta in Hn.
  destruct (One (nth i (profiles Num inst) [])) as (z & Hz & Gz); [apply nth_In; lia|]. rewrite Hz in Hn. injection Hn as <-. exact Gz.
Qed.

(** ** Groups and shipments *)
Lemma read_groups_ok : read_groups Num inst = Ok (map (fun g => mk_cgroup (map Z.to_nat g) true EmptyString) groups).
Proof.
  unfold read_groups. apply mapM_ok.
  assert (A : forall g, In g groups -> bind (mapM to_size g) (fun cs => make_group cs true EmptyString) = Ok (mk_cgroup (map Z.to_nat g) true EmptyString)).
  { intros g Hg. apply (In_nth _ _ []) in Hg as (k & Hk & <-). rewrite (proj2 (mapM_to_size (nth k groups []) _)) by (split; [apply Forall_forall; intros i Hi; apply (groups_range k i Hk Hi)|reflexivity]).
    cbn [bind]. apply make_group_spec. split; [|reflexivity].
    assert (N : NoDup (nth k groups [])).
    { rewrite groups_len in Hk. rewrite groups_nth by exact Hk. pose proof (fo_groups F) as G. rewrite Forall_forall in G. destruct (G (nth k (file_groups Num inst) [])) as [N _]; [apply nth_In, Hk|].
      apply FinFun.Injective_map_NoDup; [intros x y; lia|exact N]. }
    pose proof (groups_range k) as R. specialize (fun i => R i Hk). clear Hk. induction (nth k groups []) as [|i l IH]; cbn [map]; [constructor|]. inversion N as [|i' l' N1 N2]; subst. constructor.
    - intros Hin. apply in_map_iff in Hin as (j & Ej & Hj). pose proof (R i (or_introl eq_refl)). pose proof (R j (or_intror Hj)). assert (i = j) by lia. subst. contradiction.
    - apply IH; [exact N2|]. intros j Hj. apply R. right. exact Hj. }
  revert A. generalize groups. intros l A. induction l as [|g l IH]; constructor; [apply A; left; reflexivity|apply IH; intros g' Hg'; apply A; right; exact Hg'].
Qed.
Lemma read_shipments_ok : exists ss, read_shipments Num rf inst = Ok ss /\
  Forall (fun s => (st_loc (s_pickup s) < dim)%nat /\ (st_loc (s_delivery s) < dim)%nat /\ length (s_amount s) = length (capacity_of 0)) ss.
Proof.
  unfold read_shipments. destruct (in_pd inst) as [rows|] eqn:E; [|exists []; split; [reflexivity|constructor]].
  destruct (fo_pd F rows E) as ([P1 P2 P3] & W & Sv & P4). rewrite (combine_seq rows (dummy_row Num zero)), mapM_map. cbn [fst snd].
  assert (One : forall i, In i (seq 0 (length rows)) -> exists ss, read_shipment Num rf inst rows i (nth (i - 0) rows (dummy_row Num zero)) = Ok ss /\
    Forall (fun s => (st_loc (s_pickup s) < dim)%nat /\ (st_loc (s_delivery s) < dim)%nat /\ length (s_amount s) = length (capacity_of 0)) ss).
  { intros i Hi. apply in_seq in Hi. rewrite Nat.sub_0_r. unfold read_shipment. fold (is_pickup Num (nth i rows (dummy_row Num zero))).
    destruct (is_pickup Num (nth i rows (dummy_row Num zero))) eqn:Ep; [|eexists; split; [reflexivity|constructor]].
    destruct (P3 i ltac:(lia) Ep) as (Q1 & Q2 & _). destruct (P4 i ltac:(lia) Ep) as (Q3 & Q4). cbv zeta. rewrite depots_num, P1. set (r := nth i rows (dummy_row Num zero)) in *.
    set (dl := pd_deliv r - Z.of_nat 1). assert (Edl : Z.to_nat dl = Z.to_nat (pd_deliv r - 1)) by reflexivity.
    rewrite (proj2 (py_index_pos (length rows) dl (Z.to_nat dl) ltac:(subst dl; lia)) ltac:(split; [subst dl; lia|reflexivity])). cbn [bind].
    rewrite (get_total rows _ (dummy_row Num zero)) by (subst dl; lia). cbn [bind]. set (q := nth (Z.to_nat dl) rows (dummy_row Num zero)).
    rewrite (proj2 (to_size_ok dl (Z.to_nat dl)) ltac:(split; [subst dl; lia|reflexivity])). cbn [bind].
    assert (Wi : forall j, (j < length rows)%nat -> let r := nth j rows (dummy_row Num zero) in 0 <= rf (pd_service r) /\ 0 <= rf (pd_early r) <= rf (pd_late r)).
    { intros j Hj. cbv zeta. pose proof (fo_windows F j ltac:(lia)) as Hw. unfold file_window in Hw. rewrite E in Hw. rewrite Forall_forall in Sv. split; [apply Sv, nth_In, Hj|lia]. }
    destruct (Wi i ltac:(lia)) as [W1 W2]. destruct (Wi (Z.to_nat dl) ltac:(subst dl; lia)) as [W3 W4]. fold r in W1, W2. fold q in W3, W4. fold q in Q4.
    rewrite (proj2 (make_shipment_spec _ _ _ _ _ _ _ _ _ _ _ _ _) (conj (conj W1 (conj W2 (conj W3 (conj W4 (conj Q4 (conj (Forall_cons _ Q3 (Forall_nil _)) (Z.le_refl 0))))))) eq_refl)). cbn [bind].
    eexists. split; [reflexivity|]. constructor; [|constructor]. cbn [s_pickup s_delivery st_loc s_amount length]. rewrite (W 0%nat (fo_some F)). subst dl. lia. }
  destruct (mapM_total (fun i => read_shipment Num rf inst rows i (nth (i - 0) rows (dummy_row Num zero))) (seq 0 (length rows))) as [ls Hls]; [intros i Hi; destruct (One i Hi) as (ss & Hs & _); eauto|].
  rewrite Hls. cbn [bind]. eexists. split; [reflexivity|]. apply mapM_ok in Hls. clear - Hls One. induction Hls as [|i ss is ls Hi Hl IH]; [constructor|]. cbn [concat]. apply Forall_app. split.
  - destruct (One i (or_introl eq_refl)) as (ss' & Hs' & G). cbv beta in Hi. rewrite Hi in Hs'. injection Hs' as <-. exact G.
  - apply IH. intros j Hj. apply One. right. exact Hj.
Qed.

(** ** The data *)
Theorem read_ok : exists d, read Num zero rf inst = Ok d.
Proof.
  destruct read_clients_ok as (cs & Ec & Lc & Nc). destruct read_vehicles_ok as (xs & Ex & Hx & Gx). destruct read_matrices_ok as (ms & Em & Lm & Gm). destruct read_shipments_ok as (ss & Es & Gs).
  unfold read. rewrite Ec, read_depots_ok, Ex, Em, read_groups_ok, Es. cbn [bind]. set (ds := map (fun i => mk_depot i 0 MAXV 0 EmptyString) (seq 0 depots)).
  set (gs := map (fun g => mk_cgroup (map Z.to_nat g) true EmptyString) groups). set (ls := read_locations Num rf inst).
  set (d := mk_pdata ls cs ds xs ms ms gs ss). exists d.
  assert (Nl : p_numLocations d = dim).
  { unfold p_numLocations. cbn [p_locations d]. unfold ls, read_locations, coords. rewrite map_length. pose proof (fo_coord F) as Hs. unfold file_sized in Hs.
    destruct (in_coord inst); [rewrite map_length; exact Hs|apply repeat_length]. }
  assert (Ld : length ds = depots) by (unfold ds; rewrite map_length, seq_length; reflexivity).
  assert (Dep : forall i, (i < depots)%nat -> p_depot d i = mk_depot i 0 MAXV 0 EmptyString).
  { intros i Hi. unfold p_depot. cbn [p_depots d]. unfold ds. rewrite (nth_map _ _ i 0%nat) by (rewrite seq_length; exact Hi). rewrite seq_nth by exact Hi. reflexivity. }
  assert (Nd : p_numLoadDimensions d = length (capacity_of 0)).
  { unfold p_numLoadDimensions. cbn [p_vehicles d]. destruct xs as [|x xs]; [congruence|]. inversion Gx as [|x' xs' G1 G2]; subst. apply G1. }
  assert (Gr : forall g, (g < length groups)%nat -> g_clients (p_group d g) = map Z.to_nat (nth g groups [])).
  { intros g Hg. unfold p_group. cbn [p_groups d]. unfold gs. rewrite (nth_map _ groups g []) by exact Hg. reflexivity. }
  assert (In_group : forall i g, (g < length groups)%nat -> In i (map Z.to_nat (nth g groups [])) <-> In (Z.of_nat i) (nth g groups [])).
  { intros i g Hg. rewrite in_map_iff. split.
    - intros (j & <- & Hj). pose proof (groups_range g j Hg Hj). rewrite Z2Nat.id by lia. exact Hj.
    - intros Hi. exists (Z.of_nat i). rewrite Nat2Z.id. auto. }
  apply make_pdata_spec.
  - split; cbn [p_depots p_vehicles d].
    + apply Forall_forall. intros y Hy. apply in_map_iff in Hy as (i & <- & _). cbn. unfold MAXV. lia.
    + eapply Forall_impl; [|exact Gx]. intros y (_ & _ & _ & _ & _ & Hw & _). exact Hw.
  - fold d. constructor.
    + intros i Hi. cbv zeta. change (p_numClients d) with (length cs) in Hi. rewrite Lc in Hi. destruct (Nc i Hi) as (C1 & C2 & C3 & C4 & C5). unfold p_client. cbn [p_clients d].
      rewrite Nl, Nd. pose proof clients_fit. split; [lia|]. split; [exact C2|]. split; [exact C3|]. intros g Eg. apply C4 in Eg as Hg. destruct Hg as [Hg Hin].
      unfold p_numGroups. cbn [p_groups d]. unfold gs at 1. rewrite map_length. split; [exact Hg|]. split; [rewrite Gr by exact Hg; apply In_group; assumption|apply C5; congruence].
    + unfold p_numDepots. cbn [p_depots d]. rewrite Ld. apply depots_pos.
    + cbn [p_depots d]. intros y Hy. apply in_map_iff in Hy as (i & <- & Hi). apply in_seq in Hi. cbn [d_loc]. rewrite Nl. pose proof (fo_dimension F). lia.
    + unfold p_numGroups. cbn [p_groups d]. unfold gs at 1. rewrite map_length. intros g Hg. rewrite Gr by exact Hg. split.
      * pose proof Hg as Hg'. rewrite groups_len in Hg'. rewrite groups_nth by exact Hg'. unfold file_groups in *. destruct (in_groups inst) as [rows|]; [|cbn in Hg'; lia].
        assert (X : In (nth g (filter (fun row => (1 <? length row)%nat) rows) []) (filter (fun row => (1 <? length row)%nat) rows)) by (apply nth_In, Hg').
        apply filter_In in X as [_ X]. destruct (nth g _ []); [discriminate|]. cbn. discriminate.
      * intros i Hi. apply In_group in Hi; [|exact Hg]. pose proof (groups_range g _ Hg Hi) as R. unfold p_numClients. cbn [p_clients d]. split; [lia|]. unfold p_client. cbn [p_clients d].
        apply (Nc i ltac:(lia)). auto.
    + cbn [p_shipments d]. rewrite Nl, Nd. apply Forall_forall. exact Gs.
    + unfold p_numVehicleTypes. cbn [p_vehicles d]. destruct xs; [congruence|cbn; lia].
    + cbn [p_vehicles p_dists d]. intros x Hin. rewrite Forall_forall in Gx. destruct (Gx x Hin) as (G1 & G2 & G3 & G4 & G5 & G6 & G7). unfold p_numDepots. cbn [p_depots d]. rewrite Nd, Ld, Lm, !Dep by assumption.
      split; [exact G1|]. split; [exact G2|]. split; [exact G3|]. split; [exact G4|]. cbn [d_early d_late].
      split; [exists (v_early x); lia|]. split; [exists (v_early x); lia|]. rewrite Forall_forall in G7. exact G7.
    + cbn [p_dists d]. rewrite Lm. pose proof (fo_some F) as Hs. assert (X : In (file_allowed Num inst 0) (profiles Num inst)) by (apply profiles_in; eauto).
      destruct (profiles Num inst); [destruct X|cbn; lia].
    + reflexivity.
    + cbn [p_dists p_durs d]. rewrite Nl. intros m Hm. rewrite Forall_forall in Gm. apply Gm. apply in_app_or in Hm as [Hm|Hm]; exact Hm.
Qed.
End File.
