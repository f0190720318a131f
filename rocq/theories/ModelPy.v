(** pyvrp/Model.py: building problem data from Python.

    Python objects are identified by a number, so that [_idx_by_id] (lines 640-651) and the
    dictionary [loc2idx] (line 538) compare identities.  The containers hold pairs of an identity
    and the object.  Not modelled: the conversion of an [int] argument to a list, the warning for large edge
    values (lines 53-58; ScaleWarn.v has it), and numpy's overflow error for an edge value of 2^63 or more. *)
From Coq Require Import Permutation.
From Verif Require Import Base Data DataCtor MatrixFacts Valid.

(** constants.py:3 *)
Definition MAX_VALUE : Z := 17592186044416.

(** Model.py:40-63 *)
Record edge := mk_edge { e_frm : nat; e_to : nat; e_dist : Z; e_dur : Z }.
Definition make_edge (frm to : nat) (dist dur : Z) : res edge :=
  if (dist <? 0) || (dur <? 0) then Err InvalidArgument
  else if (frm =? to)%nat && (negb (dist =? 0) || negb (dur =? 0)) then Err InvalidArgument
  else Ok (mk_edge frm to dist dur).

(** Model.py:107-115; a profile is its list of edges, lines 66-99. *)
Record pymodel := mk_pymodel {
  mo_locations : list (nat * location);
  mo_clients : list client;
  mo_depots : list (nat * depot);
  mo_edges : list edge;
  mo_groups : list (nat * cgroup);
  mo_shipments : list shipment;
  mo_profiles : list (nat * list edge);
  mo_vehicles : list vehicle }.
Definition empty_model : pymodel := mk_pymodel [] [] [] [] [] [] [] [].

(** Model.py:640-651 *)
Fixpoint idx_by_id {A} (id : nat) (objs : list (nat * A)) : option nat :=
  match objs with
  | [] => None
  | (id', _) :: more => if (id =? id')%nat then Some 0%nat else option_map S (idx_by_id id more)
  end.

(** The methods that add something to a model, with the identity of the new object (if it can be referred
    to later) and the identities of the objects referred to. *)
Inductive op :=
| AddLocation (id : nat) (l : location)
| AddGroup (id : nat) (required : bool) (name : string)
| AddProfile (id : nat)
| AddClient (location : nat) (delivery pickup : list Z) (service early late release prize : Z)
    (required : bool) (group : option nat) (name : string)
| AddShipment (ploc dloc : nat) (pearly plate pservice dearly dlate dservice : Z) (amount : list Z)
    (prize : Z) (required : bool) (name : string)
| AddDepot (id location : nat) (early late service : Z) (name : string)
| AddEdge (frm to : nat) (dist dur : Z) (profile : option nat)
| AddVehicle (numAvailable : nat) (capacity : list Z) (start endd : option nat)
    (fixedCost early late shift maxDistance unitDistance unitDuration : Z) (profile : option nat)
    (startLate : option Z) (initial : list Z) (reload : list nat) (maxReloads maxOvertime unitOvertime : Z)
    (name : string).

Definition bind {A B} (x : res A) (f : A -> res B) : res B := match x with Ok a => f a | Err e => Err e end.
Definition known {A} (id : nat) (objs : list (nat * A)) : res nat :=
  match idx_by_id id objs with Some i => Ok i | None => Err InvalidArgument end.
(** An optional argument: [None] means index 0, lines 466-485. *)
Definition known_or_first {A} (id : option nat) (objs : list (nat * A)) : res nat :=
  match id with None => Ok 0%nat | Some id => known id objs end.
Fixpoint known_all {A} (ids : list nat) (objs : list (nat * A)) : res (list nat) :=
  match ids with
  | [] => Ok []
  | id :: more => bind (known id objs) (fun i => bind (known_all more objs) (fun is => Ok (i :: is)))
  end.

(** profile.add_edge, lines 84-96, on the profile with the given identity; if that is not a
    profile of the model then the model does not change. *)
Definition add_to_profile (id : nat) (e : edge) (profiles : list (nat * list edge)) : list (nat * list edge) :=
  map (fun p => if (fst p =? id)%nat then (fst p, snd p ++ [e]) else p) profiles.

Definition step (m : pymodel) (o : op) : res pymodel :=
  let '(mk_pymodel locs clients depots edges groups shipments profiles vehicles) := m in
  match o with
  | AddLocation id l =>  (* lines 217-235 *)
      Ok (mk_pymodel (locs ++ [(id, l)]) clients depots edges groups shipments profiles vehicles)
  | AddGroup id required name =>  (* lines 347-356 *)
      bind (make_group [] required name) (fun g =>
      Ok (mk_pymodel locs clients depots edges (groups ++ [(id, g)]) shipments profiles vehicles))
  | AddProfile id =>  (* lines 420-426 *)
      Ok (mk_pymodel locs clients depots edges groups shipments (profiles ++ [(id, [])]) vehicles)
  | AddClient location delivery pickup service early late release prize required group name =>  (* 237-298 *)
      bind (match group with None => Ok None | Some g => bind (known g groups) (fun i => Ok (Some i)) end) (fun group =>
      bind (known location locs) (fun location =>
      if required && match group with Some _ => true | None => false end then Err InvalidArgument else
      bind (make_client location delivery pickup service early late release prize required group name) (fun c =>
      match group with
      | None => Ok (mk_pymodel locs (clients ++ [c]) depots edges groups shipments profiles vehicles)
      | Some i =>
          let old := nth i groups (0%nat, dummy_group) in
          bind (add_client (snd old) (length clients)) (fun g =>
          Ok (mk_pymodel locs (clients ++ [c]) depots edges (upd groups i (fst old, g)) shipments profiles vehicles))
      end)))
  | AddShipment ploc dloc pearly plate pservice dearly dlate dservice amount prize required name =>  (* 300-345 *)
      bind (known ploc locs) (fun ploc => bind (known dloc locs) (fun dloc =>
      bind (make_shipment ploc dloc pearly plate pservice dearly dlate dservice amount prize required name) (fun s =>
      Ok (mk_pymodel locs clients depots edges groups (shipments ++ [s]) profiles vehicles))))
  | AddDepot id location early late service name =>  (* 358-384 *)
      bind (known location locs) (fun location => bind (make_depot location early late service name) (fun x =>
      Ok (mk_pymodel locs clients (depots ++ [(id, x)]) edges groups shipments profiles vehicles)))
  | AddEdge frm to dist dur profile =>  (* 386-418 *)
      bind (make_edge frm to dist dur) (fun e =>
      match profile with
      | Some p => Ok (mk_pymodel locs clients depots edges groups shipments (add_to_profile p e profiles) vehicles)
      | None => Ok (mk_pymodel locs clients depots (edges ++ [e]) groups shipments profiles vehicles)
      end)
  | AddVehicle numAvailable capacity start endd fixedCost early late shift maxDistance unitDistance unitDuration
      profile startLate initial reload maxReloads maxOvertime unitOvertime name =>  (* 428-523 *)
      bind (known_or_first start depots) (fun start => bind (known_or_first endd depots) (fun endd =>
      bind (known_or_first profile profiles) (fun profile => bind (known_all reload depots) (fun reload =>
      bind (make_vehicle numAvailable capacity start endd fixedCost early late shift maxDistance unitDistance
              unitDuration profile startLate initial reload maxReloads maxOvertime unitOvertime name) (fun v =>
      Ok (mk_pymodel locs clients depots edges groups shipments profiles (vehicles ++ [v])))))))
  end.

(** data(), lines 537-586.  [loc2idx] is a dictionary; the identities in a list of live objects are distinct,
    so the first occurrence is the last.  An edge of an unknown location raises KeyError, a LookupError,
    for which the model uses [OutOfRange]. *)
Definition loc2idx (id : nat) (locs : list (nat * location)) : res nat :=
  match idx_by_id id locs with Some i => Ok i | None => Err OutOfRange end.
Fixpoint diagonal (k : nat) (m : matrix) : matrix :=
  match k with O => m | S k => m_set (diagonal k m) k k 0 end.
Fixpoint put_edges (locs : list (nat * location)) (es : list edge) (dd : matrix * matrix) : res (matrix * matrix) :=
  match es with
  | [] => Ok dd
  | e :: more =>
      bind (loc2idx (e_frm e) locs) (fun frm => bind (loc2idx (e_to e) locs) (fun to =>
      put_edges locs more (m_set (fst dd) frm to (e_dist e), m_set (snd dd) frm to (e_dur e))))
  end.
Fixpoint put_profiles (locs : list (nat * location)) (ps : list (nat * list edge)) (base : matrix * matrix)
    : res (list (matrix * matrix)) :=
  match ps with
  | [] => Ok []
  | p :: more => bind (put_edges locs (snd p) base) (fun dd =>
                 bind (put_profiles locs more base) (fun dds => Ok (dd :: dds)))
  end.
Definition model_data (m : pymodel) (missing : Z) : res pdata :=
  let locs := mo_locations m in
  let n := length locs in
  let base := diagonal n (m_fill n n (Z.min missing MAX_VALUE)) in
  bind (put_edges locs (mo_edges m) (base, base)) (fun base =>
  bind (put_profiles locs (mo_profiles m) base) (fun dds =>
  let dds := match mo_profiles m with [] => [base] | _ => dds end in
  make_pdata (map snd locs) (mo_clients m) (map snd (mo_depots m)) (mo_vehicles m) (map fst dds) (map snd dds)
    (map snd (mo_groups m)) (mo_shipments m))).

(** ** Specification *)
Definition ids {A} (l : list (nat * A)) : list nat := map fst l.
(** A new object has an identity of its own. *)
Definition fresh (m : pymodel) (o : op) : Prop :=
  match o with
  | AddLocation id _ => ~ In id (ids (mo_locations m))
  | AddGroup id _ _ => ~ In id (ids (mo_groups m))
  | AddProfile id => ~ In id (ids (mo_profiles m))
  | AddDepot id _ _ _ _ _ => ~ In id (ids (mo_depots m))
  | _ => True
  end.
(** Times fit in 64 bits; Python raises otherwise. *)
Definition int64_late (o : op) : Prop :=
  match o with
  | AddClient _ _ _ _ _ late _ _ _ _ _ => late <= MAXV
  | AddShipment _ _ _ plate _ _ dlate _ _ _ _ _ => plate <= MAXV /\ dlate <= MAXV
  | AddDepot _ _ _ late _ _ => late <= MAXV
  | AddVehicle _ _ _ _ _ _ late _ _ _ _ _ _ _ _ _ _ _ _ => late <= MAXV
  | _ => True
  end.
Inductive model_built : pymodel -> Prop :=
| mb_empty : model_built empty_model
| mb_step m o m' : model_built m -> fresh m o -> int64_late o -> step m o = Ok m' -> model_built m'.

Definition id_at (m : pymodel) (i : nat) : nat := nth i (ids (mo_locations m)) 0%nat.
Definition edges_between (es : list edge) (a b : nat) : list edge :=
  filter (fun e => (e_frm e =? a)%nat && (e_to e =? b)%nat) es.
(** The value of the last edge added between two locations, or a default. *)
Definition last_or (f : edge -> Z) (es : list edge) (a b : nat) (dft : Z) : Z :=
  last (map f (edges_between es a b)) dft.
(** The edges that apply to a profile, in increasing order of precedence. *)
Definition applicable_edges (m : pymodel) (profile : nat) : list edge :=
  mo_edges m ++ snd (nth profile (mo_profiles m) (0%nat, [])).
Definition num_profiles (m : pymodel) : nat := Nat.max 1 (length (mo_profiles m)).
Definition all_edges (m : pymodel) : list edge := mo_edges m ++ flat_map snd (mo_profiles m).

Definition edge_ok (e : edge) : Prop := 0 <= e_dist e /\ 0 <= e_dur e /\ (e_frm e = e_to e -> e_dist e = 0 /\ e_dur e = 0).
Definition edges_known (m : pymodel) : Prop :=
  Forall (fun e => In (e_frm e) (ids (mo_locations m)) /\ In (e_to e) (ids (mo_locations m))) (all_edges m).

Definition loc_in (m : pymodel) (i : nat) : Prop := (i < length (mo_locations m))%nat.
Record model_ok (m : pymodel) : Prop := mk_model_ok {
  mk_loc_ids : NoDup (ids (mo_locations m));
  mk_depot_ids : NoDup (ids (mo_depots m));
  mk_group_ids : NoDup (ids (mo_groups m));
  mk_profile_ids : NoDup (ids (mo_profiles m));
  mk_edges : Forall edge_ok (all_edges m);
  mk_clients : Forall client_made (mo_clients m);
  mk_depots : Forall depot_made (map snd (mo_depots m));
  mk_groups : Forall group_made (map snd (mo_groups m));
  mk_shipments : Forall shipment_made (mo_shipments m);
  mk_vehicles : Forall vehicle_made (mo_vehicles m);
  mk_client_locs : Forall (fun c => loc_in m (c_loc c)) (mo_clients m);
  mk_client_groups : forall i g, (i < length (mo_clients m))%nat -> c_group (nth i (mo_clients m) dummy_client) = Some g ->
    (g < length (mo_groups m))%nat /\ In i (g_clients (nth g (map snd (mo_groups m)) dummy_group)) /\
    c_required (nth i (mo_clients m) dummy_client) = false;
  mk_group_clients : forall i g, (g < length (mo_groups m))%nat -> In i (g_clients (nth g (map snd (mo_groups m)) dummy_group)) ->
    (i < length (mo_clients m))%nat /\ c_group (nth i (mo_clients m) dummy_client) = Some g;
  mk_depot_locs : Forall (fun x => loc_in m (d_loc x)) (map snd (mo_depots m));
  mk_shipment_locs : Forall (fun s => loc_in m (st_loc (s_pickup s)) /\ loc_in m (st_loc (s_delivery s))) (mo_shipments m);
  mk_vehicle_refs : Forall (fun v =>
    (v_start v = 0%nat \/ v_start v < length (mo_depots m))%nat /\
    (v_end v = 0%nat \/ v_end v < length (mo_depots m))%nat /\
    (v_profile v < num_profiles m)%nat /\
    Forall (fun r => r < length (mo_depots m))%nat (v_reload v)) (mo_vehicles m) }.

(** ** Facts *)
Lemma make_edge_spec frm to dist dur e : make_edge frm to dist dur = Ok e <-> edge_ok e /\ e = mk_edge frm to dist dur.
Proof.
  unfold make_edge, edge_ok. destruct ((dist <? 0) || (dur <? 0)) eqn:E1; [split; [discriminate|]|].
  - intros [H ->]. cbn in H. lia.
  - destruct ((frm =? to)%nat && (negb (dist =? 0) || negb (dur =? 0))) eqn:E2; [split; [discriminate|]|].
    + intros [H ->]. cbn in H. lia.
    + split; [intros [= <-]; cbn; split; [|reflexivity]; lia|intros [_ ->]; reflexivity].
Qed.

Lemma idx_by_id_some {A} id (l : list (nat * A)) i : idx_by_id id l = Some i -> (i < length l)%nat /\ nth i (ids l) 0%nat = id.
Proof.
  revert i. induction l as [|[a x] l IH]; intros i; cbn; [discriminate|].
  destruct (Nat.eqb_spec id a) as [->|]; [intros [= <-]; split; [lia|reflexivity]|].
  destruct (idx_by_id id l) as [j|] eqn:E; [|discriminate]. intros [= <-]. destruct (IH j eq_refl). cbn. split; [lia|assumption].
Qed.
Lemma idx_by_id_none {A} id (l : list (nat * A)) : idx_by_id id l = None <-> ~ In id (ids l).
Proof.
  induction l as [|[a x] l IH]; cbn; [tauto|]. fold (ids l). destruct (Nat.eqb_spec id a) as [->|].
  - split; [discriminate|tauto].
  - destruct (idx_by_id id l) as [i|]; cbn; (split; intros H).
    + discriminate.
    + exfalso. assert (Some i = None) by (apply IH; tauto). discriminate.
    + intros [?|?]; [congruence|]. apply IH; [reflexivity|assumption].
    + reflexivity.
Qed.
Lemma idx_by_id_nth {A} (l : list (nat * A)) i : NoDup (ids l) -> (i < length l)%nat -> idx_by_id (nth i (ids l) 0%nat) l = Some i.
Proof.
  intros Hn Hi. destruct (idx_by_id (nth i (ids l) 0%nat) l) as [j|] eqn:Ej.
  - apply idx_by_id_some in Ej. destruct Ej as [Hj Ej]. f_equal. symmetry. eapply NoDup_nth; [exact Hn| | |symmetry; exact Ej];
      unfold ids; rewrite map_length; assumption.
  - apply idx_by_id_none in Ej. exfalso. apply Ej. apply nth_In. unfold ids. rewrite map_length. exact Hi.
Qed.
Lemma idx_by_id_in {A} (l : list (nat * A)) id : In id (ids l) -> exists i, idx_by_id id l = Some i.
Proof. destruct (idx_by_id id l) eqn:E0; [eauto|]. apply idx_by_id_none in E0. tauto. Qed.

(** *** Matrices *)
Definition square (n : nat) (m : matrix) : Prop := m_ok m /\ m_rows m = n /\ m_cols m = n.
Lemma square_set n m i j x : square n m -> (i < n)%nat -> (j < n)%nat -> square n (m_set m i j x) /\
  forall i' j', (i' < n)%nat -> (j' < n)%nat ->
    m_at (m_set m i j x) i' j' = if (i =? i')%nat && (j =? j')%nat then x else m_at m i' j'.
Proof.
  intros (H1 & H2 & H3) Hi Hj. destruct (matrix_set_get m i j x H1 ltac:(lia) ltac:(lia)) as (G1 & G2 & G3).
  split; [split; [exact G1|split; assumption]|]. intros i' j' Hi' Hj'.
  destruct (Nat.eqb_spec i i') as [<-|]; [destruct (Nat.eqb_spec j j') as [<-|]|]; cbn [andb]; [exact G2| |];
    apply G3; try lia; congruence.
Qed.
Lemma diagonal_spec n fill k : (k <= n)%nat -> square n (diagonal k (m_fill n n fill)) /\
  forall i j, (i < n)%nat -> (j < n)%nat ->
    m_at (diagonal k (m_fill n n fill)) i j = if (i =? j)%nat && (i <? k)%nat then 0 else fill.
Proof.
  induction k as [|k IH]; intros Hk; cbn [diagonal].
  - destruct (matrix_fill n n fill) as [H1 H2]. split; [split; [exact H1|split; reflexivity]|].
    intros i j Hi Hj. rewrite H2 by assumption. rewrite Bool.andb_false_r. reflexivity.
  - destruct IH as [I1 I2]; [lia|]. destruct (square_set n _ k k 0 I1 ltac:(lia) ltac:(lia)) as [G1 G2].
    split; [exact G1|]. intros i j Hi Hj. rewrite G2, I2 by assumption.
    destruct (Nat.eqb_spec k i), (Nat.eqb_spec k j), (Nat.eqb_spec i j), (Nat.ltb_spec i k), (Nat.ltb_spec i (S k));
      cbn [andb]; try reflexivity; lia.
Qed.

Lemma last_or_cons f e es a b dft :
  last_or f (e :: es) a b dft = last_or f es a b (if (e_frm e =? a)%nat && (e_to e =? b)%nat then f e else dft).
Proof.
  unfold last_or, edges_between. cbn [filter]. destruct ((e_frm e =? a)%nat && (e_to e =? b)%nat); [|reflexivity].
  cbn [map]. generalize (map f (filter (fun e => (e_frm e =? a)%nat && (e_to e =? b)%nat) es)) as l.
  assert (G : forall (l : list Z) x y z, last (x :: l) y = last (x :: l) z).
  { induction l as [|w l IH]; intros x y z; [reflexivity|]. apply (IH w). }
  intros [|w l]; [reflexivity|]. cbn [last]. apply (G l w).
Qed.
Lemma last_or_app f es es' a b dft : last_or f (es ++ es') a b dft = last_or f es' a b (last_or f es a b dft).
Proof.
  revert dft. induction es as [|e es IH]; intros dft; [reflexivity|]. cbn [app]. rewrite !last_or_cons. apply IH.
Qed.

Lemma put_edges_spec locs es dd : let n := length locs in NoDup (ids locs) -> square n (fst dd) -> square n (snd dd) ->
  Forall (fun e => In (e_frm e) (ids locs) /\ In (e_to e) (ids locs)) es ->
  exists dd', put_edges locs es dd = Ok dd' /\ square n (fst dd') /\ square n (snd dd') /\
    forall i j, (i < n)%nat -> (j < n)%nat ->
      m_at (fst dd') i j = last_or e_dist es (nth i (ids locs) 0%nat) (nth j (ids locs) 0%nat) (m_at (fst dd) i j) /\
      m_at (snd dd') i j = last_or e_dur es (nth i (ids locs) 0%nat) (nth j (ids locs) 0%nat) (m_at (snd dd) i j).
Proof.
  cbv zeta. intros Hn H1 H2 HF. revert dd H1 H2. induction HF as [|e es [Ha Hb] HF IH]; intros dd H1 H2; cbn [put_edges].
  - exists dd. auto.
  - destruct (idx_by_id_in _ _ Ha) as [x Ex]. destruct (idx_by_id_in _ _ Hb) as [y Ey].
    unfold loc2idx at 1 2. rewrite Ex, Ey. cbn [bind].
    apply idx_by_id_some in Ex, Ey. destruct Ex as [Hx Ex], Ey as [Hy Ey].
    destruct (square_set _ _ x y (e_dist e) H1 Hx Hy) as [G1 G2]. destruct (square_set _ _ x y (e_dur e) H2 Hx Hy) as [G3 G4].
    destruct (IH (m_set (fst dd) x y (e_dist e), m_set (snd dd) x y (e_dur e)) G1 G3) as (dd' & E' & S1 & S2 & Hm).
    exists dd'. split; [exact E'|]. split; [exact S1|]. split; [exact S2|]. intros i j Hi Hj.
    destruct (Hm i j Hi Hj) as [-> ->]. cbn [fst snd]. rewrite !last_or_cons, G2, G4 by assumption.
    assert (EE : forall k z, (k < length locs)%nat -> (z < length locs)%nat ->
      (nth z (ids locs) 0%nat =? nth k (ids locs) 0%nat)%nat = (z =? k)%nat).
    { intros k z Hk Hz. destruct (Nat.eqb_spec z k) as [->|Hne]; [apply Nat.eqb_refl|]. apply Nat.eqb_neq.
      intros Heq. apply Hne. eapply NoDup_nth; [exact Hn| | |exact Heq]; unfold ids; rewrite map_length; assumption. }
    rewrite <- Ex, <- Ey, !EE by assumption. auto.
Qed.
Lemma put_edges_err locs es dd :
  ~ Forall (fun e => In (e_frm e) (ids locs) /\ In (e_to e) (ids locs)) es -> put_edges locs es dd = Err OutOfRange.
Proof.
  revert dd. induction es as [|e es IH]; intros dd H; [exfalso; apply H; constructor|]. cbn [put_edges].
  unfold loc2idx. destruct (idx_by_id (e_frm e) locs) eqn:Ea; [|reflexivity]. cbn [bind].
  destruct (idx_by_id (e_to e) locs) eqn:Eb; [|reflexivity]. cbn [bind]. apply IH. intros HF. apply H. constructor; [|exact HF].
  split.
  - destruct (in_dec Nat.eq_dec (e_frm e) (ids locs)) as [|Hno]; [assumption|]. apply idx_by_id_none in Hno. congruence.
  - destruct (in_dec Nat.eq_dec (e_to e) (ids locs)) as [|Hno]; [assumption|]. apply idx_by_id_none in Hno. congruence.
Qed.

Definition profile_entries (locs : list (nat * location)) (es : list edge) (base : Z) (dd : matrix * matrix) (n : nat) : Prop :=
  square n (fst dd) /\ square n (snd dd) /\
  forall i j, (i < n)%nat -> (j < n)%nat ->
    let fill := if (i =? j)%nat then 0 else base in
    m_at (fst dd) i j = last_or e_dist es (nth i (ids locs) 0%nat) (nth j (ids locs) 0%nat) fill /\
    m_at (snd dd) i j = last_or e_dur es (nth i (ids locs) 0%nat) (nth j (ids locs) 0%nat) fill.
Lemma put_profiles_spec (locs : list (nat * location)) es0 ps base0 fill : let n := length locs in NoDup (ids locs) ->
  profile_entries locs es0 fill base0 n ->
  Forall (fun e => In (e_frm e) (ids locs) /\ In (e_to e) (ids locs)) (flat_map snd ps) ->
  exists dds, put_profiles locs ps base0 = Ok dds /\ Forall2 (fun p dd => profile_entries locs (es0 ++ snd p) fill dd n) ps dds.
Proof.
  cbv zeta. intros Hn Hb. destruct Hb as (B1 & B2 & B3). induction ps as [|p ps IH]; cbn [flat_map put_profiles]; intros HF.
  - exists []. split; [reflexivity|constructor].
  - apply Forall_app in HF. destruct HF as [HF1 HF2].
    destruct (put_edges_spec locs (snd p) base0 Hn B1 B2 HF1) as (dd & E1 & S1 & S2 & Hm). rewrite E1. cbn [bind].
    destruct (IH HF2) as (dds & E2 & HF'). rewrite E2. cbn [bind]. exists (dd :: dds). split; [reflexivity|]. constructor; [|exact HF'].
    split; [exact S1|]. split; [exact S2|]. intros i j Hi Hj. cbv zeta. destruct (Hm i j Hi Hj) as [-> ->].
    destruct (B3 i j Hi Hj) as [-> ->]. rewrite !last_or_app. auto.
Qed.
Lemma put_profiles_err (locs : list (nat * location)) ps base0 :
  ~ Forall (fun e => In (e_frm e) (ids locs) /\ In (e_to e) (ids locs)) (flat_map snd ps) ->
  put_profiles locs ps base0 = Err OutOfRange.
Proof.
  induction ps as [|p ps IH]; cbn [flat_map put_profiles]; intros HF; [exfalso; apply HF; constructor|].
  destruct (Forall_dec (fun e => In (e_frm e) (ids locs) /\ In (e_to e) (ids locs))
    ltac:(intros e; destruct (in_dec Nat.eq_dec (e_frm e) (ids locs)); [|right; tauto];
          destruct (in_dec Nat.eq_dec (e_to e) (ids locs)); [left|right]; tauto) (snd p)) as [Hp|Hp].
  - rewrite IH by (intros H; apply HF; apply Forall_app; auto). destruct (put_edges locs (snd p) base0) as [|x] eqn:Ee; [reflexivity|].
    clear - Hp Ee. exfalso. revert base0 Ee. induction Hp as [|e es [Ha Hb] Hp IH]; intros dd; cbn; [discriminate|].
    unfold loc2idx at 1 2. destruct (idx_by_id_in _ _ Ha) as [? ->]. destruct (idx_by_id_in _ _ Hb) as [? ->]. cbn [bind]. apply IH.
  - rewrite put_edges_err by exact Hp. reflexivity.
Qed.

(** data() passes the matrices with exactly the promised entries to the constructor. *)
Theorem model_data_matrices m missing : NoDup (ids (mo_locations m)) -> edges_known m ->
  let n := length (mo_locations m) in
  exists dists durs,
    model_data m missing = make_pdata (map snd (mo_locations m)) (mo_clients m) (map snd (mo_depots m)) (mo_vehicles m)
      dists durs (map snd (mo_groups m)) (mo_shipments m) /\
    length dists = num_profiles m /\ length durs = num_profiles m /\
    forall p, (p < num_profiles m)%nat ->
      let dist := nth p dists dummy_matrix in let dur := nth p durs dummy_matrix in
      square n dist /\ square n dur /\
      forall i j, (i < n)%nat -> (j < n)%nat ->
        let fill := if (i =? j)%nat then 0 else Z.min missing MAX_VALUE in
        m_at dist i j = last_or e_dist (applicable_edges m p) (id_at m i) (id_at m j) fill /\
        m_at dur i j = last_or e_dur (applicable_edges m p) (id_at m i) (id_at m j) fill.
Proof.
  intros Hn Hk. cbv zeta. unfold edges_known, all_edges in Hk. apply Forall_app in Hk. destruct Hk as [Hk1 Hk2].
  unfold model_data. cbv zeta. set (fill := Z.min missing MAX_VALUE). set (n := length (mo_locations m)).
  destruct (diagonal_spec n fill n (le_n _)) as [D1 D2]. set (base := diagonal n (m_fill n n fill)) in *.
  destruct (put_edges_spec (mo_locations m) (mo_edges m) (base, base) Hn D1 D1 Hk1) as (b & Eb & S1 & S2 & Hm).
  rewrite Eb. cbn [bind].
  assert (Hb : profile_entries (mo_locations m) (mo_edges m) fill b n).
  { split; [exact S1|]. split; [exact S2|]. intros i j Hi Hj. cbv zeta. destruct (Hm i j Hi Hj) as [-> ->]. cbn [fst snd].
    rewrite D2 by assumption. rewrite (proj2 (Nat.ltb_lt i n)) by exact Hi. rewrite Bool.andb_true_r. auto. }
  destruct (put_profiles_spec _ _ _ _ _ Hn Hb Hk2) as (dds & Ed & HF). rewrite Ed. cbn [bind].
  set (out := match mo_profiles m with [] => [b] | _ => dds end).
  exists (map fst out), (map snd out). split; [reflexivity|]. rewrite !map_length.
  assert (G : length out = num_profiles m /\ forall p, (p < num_profiles m)%nat ->
    profile_entries (mo_locations m) (applicable_edges m p) fill (nth p out (dummy_matrix, dummy_matrix)) n).
  { unfold out, num_profiles, applicable_edges. assert (HL : length (mo_profiles m) = length dds) by (clear - HF; induction HF; cbn; congruence). destruct (mo_profiles m) as [|p0 ps] eqn:Ep.
    - cbn. split; [reflexivity|]. intros p Hp. assert (p = 0%nat) by lia. subst p. cbn [nth snd]. rewrite app_nil_r. exact Hb.
    - rewrite <- HL. cbn [length]. split; [lia|]. intros p Hp. assert (Hp' : (p < length (p0 :: ps))%nat) by (cbn; lia). clear - HF Hp'.
      revert p Hp'. generalize dependent dds. generalize (p0 :: ps) as l. induction l as [|q l IH]; intros dds HF p Hp; [cbn in Hp; lia|].
      inversion HF; subst. destruct p as [|p]; [cbn; assumption|]. cbn [nth]. apply IH; [assumption|cbn in Hp; lia]. }
  destruct G as [G1 G2]. split; [exact G1|]. split; [exact G1|]. intros p Hp. cbv zeta.
  change dummy_matrix with (fst (dummy_matrix, dummy_matrix)) at 1.
  change dummy_matrix with (snd (dummy_matrix, dummy_matrix)) at 4.
  assert (N1 : nth p (map fst out) dummy_matrix = fst (nth p out (dummy_matrix, dummy_matrix))) by apply (map_nth fst out (dummy_matrix, dummy_matrix) p).
  assert (N2 : nth p (map snd out) dummy_matrix = snd (nth p out (dummy_matrix, dummy_matrix))) by apply (map_nth snd out (dummy_matrix, dummy_matrix) p).
  cbn [fst snd]. rewrite N1, N2. exact (G2 p Hp).
Qed.
Theorem model_data_unknown m missing : ~ edges_known m -> model_data m missing = Err OutOfRange.
Proof.
  intros H. unfold model_data. cbv zeta. set (base := diagonal _ _).
  destruct (put_edges (mo_locations m) (mo_edges m) (base, base)) as [b|e] eqn:Eb.
  - cbn [bind]. rewrite put_profiles_err; [reflexivity|]. intros HF. apply H. unfold edges_known, all_edges. apply Forall_app. split; [|exact HF].
    destruct (Forall_dec (fun e => In (e_frm e) (ids (mo_locations m)) /\ In (e_to e) (ids (mo_locations m)))
      ltac:(intros e; destruct (in_dec Nat.eq_dec (e_frm e) (ids (mo_locations m))); [|right; tauto];
          destruct (in_dec Nat.eq_dec (e_to e) (ids (mo_locations m))); [left|right]; tauto) (mo_edges m)) as [Hp|Hp]; [exact Hp|].
    rewrite put_edges_err in Eb by exact Hp. discriminate.
  - cbn [bind]. f_equal. revert Eb. generalize (base, base). generalize (mo_edges m). induction l as [|x es IH]; intros dd; cbn [put_edges]; [discriminate|].
    unfold loc2idx. destruct (idx_by_id (e_frm x) (mo_locations m)); [|cbn; congruence]. cbn [bind].
    destruct (idx_by_id (e_to x) (mo_locations m)); [|cbn; congruence]. cbn [bind]. apply IH.
Qed.

(** *** What the methods maintain *)
Lemma bind_ok {A B} (x : res A) (f : A -> res B) b : bind x f = Ok b -> exists a, x = Ok a /\ f a = Ok b.
Proof. destruct x as [a|]; cbn; [eauto|discriminate]. Qed.
Lemma known_ok {A} id (l : list (nat * A)) i : known id l = Ok i -> (i < length l)%nat.
Proof. unfold known. destruct (idx_by_id id l) as [j|] eqn:E0; [|discriminate]. intros [= <-]. apply (idx_by_id_some _ _ _ E0). Qed.
Lemma known_or_first_ok {A} id (l : list (nat * A)) i : known_or_first id l = Ok i -> (i = 0 \/ i < length l)%nat.
Proof. destruct id; cbn; [intros H; right; eapply known_ok; exact H|intros [= <-]; auto]. Qed.
Lemma known_all_ok {A} is (l : list (nat * A)) js : known_all is l = Ok js -> Forall (fun r => r < length l)%nat js.
Proof.
  revert js. induction is as [|i is IH]; intros js; cbn; [intros [= <-]; constructor|].
  intros H. apply bind_ok in H. destruct H as (a & Ha & H). apply bind_ok in H. destruct H as (b & Hb & H).
  injection H as <-. constructor; [eapply known_ok; exact Ha|auto].
Qed.
Lemma ids_snoc {A} (l : list (nat * A)) id x : NoDup (ids l) -> ~ In id (ids l) -> NoDup (ids (l ++ [(id, x)])).
Proof.
  intros H1 H2. unfold ids. rewrite map_app. cbn.
  eapply Permutation_NoDup; [apply Permutation_cons_append|]. constructor; [exact H2|exact H1].
Qed.
Lemma Forall_snoc {A} (P : A -> Prop) l x : Forall P l -> P x -> Forall P (l ++ [x]).
Proof. intros H1 H2. apply Forall_app. auto. Qed.
Lemma ids_upd {A} (l : list (nat * A)) i x dft : ids (upd l i (fst (nth i l dft), x)) = ids l.
Proof. revert i. induction l as [|[a y] l IH]; intros [|i]; cbn; try reflexivity. f_equal. apply IH. Qed.
Lemma map_snd_upd {A} (l : list (nat * A)) i x : map snd (upd l i x) = upd (map snd l) i (snd x).
Proof. revert i. induction l as [|y l IH]; intros [|i]; cbn; try reflexivity. f_equal. apply IH. Qed.
Lemma Forall_upd {A} (P : A -> Prop) l i x : Forall P l -> P x -> Forall P (upd l i x).
Proof. intros H Hx. revert i. induction H as [|y l Hy H IH]; intros [|i]; cbn; constructor; auto. Qed.
Lemma ids_add_to_profile p e ps : ids (add_to_profile p e ps) = ids ps.
Proof. unfold ids, add_to_profile. rewrite map_map. apply map_ext. intros [a es]. cbn. destruct (a =? p)%nat; reflexivity. Qed.
Lemma edges_add_to_profile p e ps : edge_ok e -> Forall edge_ok (flat_map snd ps) -> Forall edge_ok (flat_map snd (add_to_profile p e ps)).
Proof.
  intros He. induction ps as [|[a es] ps IH]; cbn; [auto|]. intros H. apply Forall_app in H. destruct H as [H1 H2].
  apply Forall_app. split; [|apply IH; exact H2]. destruct (a =? p)%nat; cbn; [apply Forall_snoc|]; assumption.
Qed.
Lemma nth_snoc {A} (l : list A) x i dft : nth i (l ++ [x]) dft = if (i =? length l)%nat then x else nth i l dft.
Proof.
  destruct (Nat.eqb_spec i (length l)) as [->|]; [rewrite app_nth2, Nat.sub_diag by lia; reflexivity|].
  destruct (Nat.lt_ge_cases i (length l)); [apply app_nth1; assumption|].
  rewrite !nth_overflow; [reflexivity|lia|rewrite app_length; cbn; lia].
Qed.
Lemma group_made_add g c g' : group_made g -> add_client g c = Ok g' -> group_made g' /\ g_clients g' = g_clients g ++ [c].
Proof.
  intros (cs & rq & nm & H) Ha. apply make_group_spec in H. destruct H as [Hn ->]. unfold add_client in Ha. cbn [g_clients] in *.
  destruct (existsb (Nat.eqb c) cs) eqn:Ex; [discriminate|]. injection Ha as <-. cbn. split; [|reflexivity].
  exists (cs ++ [c]), rq, nm. apply make_group_spec. split; [|reflexivity].
  eapply Permutation_NoDup; [apply Permutation_cons_append|]. constructor; [|exact Hn].
  intros Hin. apply existsb_eqb in Hin. congruence.
Qed.

Lemma model_step_ok m o m' : model_ok m -> fresh m o -> int64_late o -> step m o = Ok m' -> model_ok m'.
Proof.
  destruct m as [locs clients depots edges groups shipments profiles vehicles].
  intros [I1 I2 I3 I4 I5 I6 I7 I8 I9 I10 I11 I12 I13 I14 I15 I16] Hf Hl Hs.
  unfold loc_in, num_profiles, all_edges in *.
  cbn [mo_locations mo_clients mo_depots mo_edges mo_groups mo_shipments mo_profiles mo_vehicles] in *.
  unfold step in Hs. destruct o; cbn [fresh int64_late mo_locations mo_clients mo_depots mo_edges mo_groups mo_shipments mo_profiles mo_vehicles] in Hf, Hl.
  - (* AddLocation *)
    injection Hs as <-. constructor; unfold loc_in, num_profiles, all_edges;
      cbn [mo_locations mo_clients mo_depots mo_edges mo_groups mo_shipments mo_profiles mo_vehicles]; try assumption.
    + apply ids_snoc; assumption.
    + eapply Forall_impl; [|exact I11]. intros c H. rewrite app_length. cbn in *. lia.
    + eapply Forall_impl; [|exact I14]. intros c H. rewrite app_length. cbn in *. lia.
    + eapply Forall_impl; [|exact I15]. intros c H. rewrite app_length. cbn in *. lia.
  - (* AddGroup *)
    apply bind_ok in Hs. destruct Hs as (g & Hg & Hs). injection Hs as <-.
    constructor; unfold loc_in, num_profiles, all_edges;
      cbn [mo_locations mo_clients mo_depots mo_edges mo_groups mo_shipments mo_profiles mo_vehicles]; try assumption.
    + apply ids_snoc; assumption.
    + rewrite map_app. apply Forall_snoc; [assumption|]. cbn. eexists _, _, _. exact Hg.
    + intros i g0 Hi H0. destruct (I12 i g0 Hi H0) as (K1 & K2 & K3). rewrite app_length. cbn [length]. split; [lia|].
      split; [|exact K3]. rewrite map_app. cbn [map]. rewrite nth_snoc, map_length.
      destruct (Nat.eqb_spec g0 (length groups)); [lia|]. exact K2.
    + intros i g0 H0 Hin. rewrite app_length in H0. cbn [length] in H0. rewrite map_app in Hin. cbn [map snd] in Hin.
      rewrite nth_snoc, map_length in Hin. destruct (Nat.eqb_spec g0 (length groups)); [|apply I13; [lia|exact Hin]].
      cbn in Hg. injection Hg as <-. destruct Hin.
  - (* AddProfile *)
    injection Hs as <-. constructor; unfold loc_in, num_profiles, all_edges;
      cbn [mo_locations mo_clients mo_depots mo_edges mo_groups mo_shipments mo_profiles mo_vehicles]; try assumption.
    + apply ids_snoc; assumption.
    + rewrite flat_map_app. cbn. rewrite app_nil_r. assumption.
    + eapply Forall_impl; [|exact I16]. intros v (K1 & K2 & K3 & K4). rewrite app_length. cbn [length]. repeat split; try assumption. lia.
  - (* AddClient *)
    apply bind_ok in Hs. destruct Hs as (og & Hg & Hs). apply bind_ok in Hs. destruct Hs as (l & Hk & Hs).
    destruct (required && match og with Some _ => true | None => false end) eqn:Er; [discriminate|].
    apply bind_ok in Hs. destruct Hs as (c & Hc & Hs). apply known_ok in Hk.
    assert (Hc' := Hc). apply make_client_spec in Hc'. destruct Hc' as [_ Ec].
    assert (Hm : client_made c) by (split; [rewrite Ec; exact Hl|repeat eexists; exact Hc]).
    assert (Cg : c_group c = og) by (rewrite Ec; reflexivity).
    assert (Cl : (c_loc c < length locs)%nat) by (rewrite Ec; exact Hk).
    assert (Cr : forall g, og = Some g -> c_required c = false).
    { intros g ->. rewrite Ec. cbn. destruct required; [discriminate|reflexivity]. }
    destruct og as [gi|].
    + destruct group as [gid|]; [|discriminate]. apply bind_ok in Hg. destruct Hg as (gi' & Hg & E0). injection E0 as <-.
      apply known_ok in Hg. apply bind_ok in Hs. destruct Hs as (g' & Ha & Hs). injection Hs as <-.
      set (old := nth gi' groups (0%nat, dummy_group)) in *.
      assert (Eo : snd old = nth gi' (map snd groups) dummy_group) by (symmetry; apply (map_nth snd groups (0%nat, dummy_group))).
      assert (Mo : group_made (snd old)).
      { rewrite Eo. rewrite Forall_forall in I8. apply I8. apply nth_In. rewrite map_length. exact Hg. }
      destruct (group_made_add _ _ _ Mo Ha) as [Mg Eg].
      constructor; unfold loc_in, num_profiles, all_edges;
        cbn [mo_locations mo_clients mo_depots mo_edges mo_groups mo_shipments mo_profiles mo_vehicles]; try assumption.
      * unfold old. rewrite ids_upd. assumption.
      * apply Forall_snoc; assumption.
      * rewrite map_snd_upd. apply Forall_upd; assumption.
      * apply Forall_snoc; assumption.
      * intros i g Hi. rewrite nth_snoc, upd_length, map_snd_upd. cbn [snd]. rewrite upd_nth by (rewrite map_length; exact Hg).
        rewrite app_length in Hi. cbn [length] in Hi. destruct (Nat.eqb_spec i (length clients)) as [->|Hne].
        -- intros E0. rewrite Cg in E0. injection E0 as <-. rewrite Nat.eqb_refl, Eg. split; [exact Hg|].
           split; [apply in_or_app; right; left; reflexivity|apply (Cr gi'); reflexivity].
        -- intros E0. destruct (I12 i g ltac:(lia) E0) as (K1 & K2 & K3). split; [exact K1|]. split; [|exact K3].
           destruct (Nat.eqb_spec gi' g) as [<-|]; [|exact K2]. rewrite Eg, Eo. apply in_or_app. left. exact K2.
      * intros i g. rewrite upd_length, map_snd_upd. cbn [snd]. intros H0. rewrite upd_nth by (rewrite map_length; exact Hg).
        rewrite nth_snoc, app_length. cbn [length]. destruct (Nat.eqb_spec gi' g) as [<-|].
        -- rewrite Eg, Eo. intros Hin. apply in_app_or in Hin. destruct Hin as [Hin|[<-|[]]].
           ++ destruct (I13 i gi' H0 Hin) as [K1 K2]. destruct (Nat.eqb_spec i (length clients)); [lia|]. split; [lia|exact K2].
           ++ rewrite Nat.eqb_refl. split; [lia|exact Cg].
        -- intros Hin. destruct (I13 i g H0 Hin) as [K1 K2]. destruct (Nat.eqb_spec i (length clients)); [lia|]. split; [lia|exact K2].
    + injection Hs as <-. constructor; unfold loc_in, num_profiles, all_edges;
        cbn [mo_locations mo_clients mo_depots mo_edges mo_groups mo_shipments mo_profiles mo_vehicles]; try assumption.
      * apply Forall_snoc; assumption.
      * apply Forall_snoc; assumption.
      * intros i g Hi. rewrite nth_snoc. rewrite app_length in Hi. cbn [length] in Hi.
        destruct (Nat.eqb_spec i (length clients)) as [->|Hne]; [rewrite Cg; discriminate|]. apply I12. lia.
      * intros i g H0 Hin. destruct (I13 i g H0 Hin) as [K1 K2]. rewrite nth_snoc, app_length. cbn [length].
        destruct (Nat.eqb_spec i (length clients)); [lia|]. split; [lia|exact K2].
  - (* AddShipment *)
    apply bind_ok in Hs. destruct Hs as (l1 & Hk1 & Hs). apply bind_ok in Hs. destruct Hs as (l2 & Hk2 & Hs).
    apply bind_ok in Hs. destruct Hs as (s & Hc & Hs). apply known_ok in Hk1, Hk2. injection Hs as <-.
    assert (Hc' := Hc). apply make_shipment_spec in Hc'. destruct Hc' as [_ Ec].
    constructor; unfold loc_in, num_profiles, all_edges;
      cbn [mo_locations mo_clients mo_depots mo_edges mo_groups mo_shipments mo_profiles mo_vehicles]; try assumption.
    + apply Forall_snoc; [assumption|]. split; [rewrite Ec; apply Hl|]. split; [rewrite Ec; apply Hl|]. repeat eexists. exact Hc.
    + apply Forall_snoc; [assumption|]. rewrite Ec. split; assumption.
  - (* AddDepot *)
    apply bind_ok in Hs. destruct Hs as (l & Hk & Hs). apply bind_ok in Hs. destruct Hs as (x & Hc & Hs). apply known_ok in Hk.
    injection Hs as <-. assert (Hc' := Hc). apply make_depot_spec in Hc'. destruct Hc' as [_ Ec].
    constructor; unfold loc_in, num_profiles, all_edges;
      cbn [mo_locations mo_clients mo_depots mo_edges mo_groups mo_shipments mo_profiles mo_vehicles]; try assumption.
    + apply ids_snoc; assumption.
    + rewrite map_app. apply Forall_snoc; [assumption|]. split; [cbn; rewrite Ec; exact Hl|]. repeat eexists. exact Hc.
    + rewrite map_app. apply Forall_snoc; [assumption|]. cbn. rewrite Ec. exact Hk.
    + eapply Forall_impl; [|exact I16]. intros v (K1 & K2 & K3 & K4). rewrite app_length. cbn [length].
      split; [lia|]. split; [lia|]. split; [exact K3|]. eapply Forall_impl; [|exact K4]. intros r Hr. cbn in Hr. lia.
  - (* AddEdge *)
    apply bind_ok in Hs. destruct Hs as (e & He & Hs). apply make_edge_spec in He. destruct He as [He Ee].
    destruct profile as [p|]; injection Hs as <-; (constructor; unfold loc_in, num_profiles, all_edges;
      cbn [mo_locations mo_clients mo_depots mo_edges mo_groups mo_shipments mo_profiles mo_vehicles]; try assumption).
    + rewrite ids_add_to_profile. assumption.
    + apply Forall_app in I5. apply Forall_app. split; [apply I5|apply edges_add_to_profile; [exact He|apply I5]].
    + unfold add_to_profile. rewrite map_length. assumption.
    + apply Forall_app in I5. apply Forall_app. split; [apply Forall_snoc; [apply I5|exact He]|apply I5].
  - (* AddVehicle *)
    apply bind_ok in Hs. destruct Hs as (s & Hk1 & Hs). apply bind_ok in Hs. destruct Hs as (e & Hk2 & Hs).
    apply bind_ok in Hs. destruct Hs as (p & Hk3 & Hs). apply bind_ok in Hs. destruct Hs as (r & Hk4 & Hs).
    apply bind_ok in Hs. destruct Hs as (v & Hc & Hs). injection Hs as <-.
    apply known_or_first_ok in Hk1, Hk2, Hk3. apply known_all_ok in Hk4.
    assert (Hc' := Hc). apply make_vehicle_spec in Hc'. destruct Hc' as [_ Ec].
    constructor; unfold loc_in, num_profiles, all_edges;
      cbn [mo_locations mo_clients mo_depots mo_edges mo_groups mo_shipments mo_profiles mo_vehicles]; try assumption.
    + apply Forall_snoc; [assumption|]. split; [rewrite Ec; exact Hl|]. repeat eexists. exact Hc.
    + apply Forall_snoc; [assumption|]. rewrite Ec. cbn [v_start v_end v_profile v_reload]. split; [exact Hk1|]. split; [exact Hk2|]. split; [lia|exact Hk4].
Qed.
Theorem model_built_ok m : model_built m -> model_ok m.
Proof.
  induction 1 as [|m o m' _ IH Hf Hl Hs]; [|eapply model_step_ok; eassumption].
  constructor; cbn; try constructor; intros; lia.
Qed.

(** What remains to be provided for data() to succeed. *)
Record complete (m : pymodel) : Prop := mk_complete {
  cm_edges : edges_known m;
  cm_depots : mo_depots m <> [];
  cm_vehicles : mo_vehicles m <> [];
  cm_groups : Forall (fun g => g_clients (snd g) <> []) (mo_groups m);
  cm_dims : exists dim,
    Forall (fun c => length (c_delivery c) = dim) (mo_clients m) /\
    Forall (fun s => length (s_amount s) = dim) (mo_shipments m) /\
    Forall (fun v => length (v_capacity v) = dim) (mo_vehicles m);
  cm_windows : Forall (fun v => Forall (fun i =>
      let x := nth i (map snd (mo_depots m)) dummy_depot in
      exists t, d_early x <= t <= d_late x /\ v_early v <= t <= v_late v) [v_start v; v_end v]) (mo_vehicles m) }.

Lemma last_or_all f es a b dft (P : Z -> Prop) : P dft -> Forall (fun e => e_frm e = a -> e_to e = b -> P (f e)) es -> P (last_or f es a b dft).
Proof.
  intros Hd HF. revert dft Hd. induction HF as [|e es He HF IH]; intros dft Hd; [exact Hd|]. rewrite last_or_cons. apply IH.
  destruct (Nat.eqb_spec (e_frm e) a), (Nat.eqb_spec (e_to e) b); cbn [andb]; auto.
Qed.
Lemma applicable_all m p : incl (applicable_edges m p) (all_edges m).
Proof.
  unfold applicable_edges, all_edges. intros e He. apply in_or_app. apply in_app_or in He. destruct He as [He|He]; [auto|right].
  destruct (Nat.lt_ge_cases p (length (mo_profiles m))) as [Hp|Hp]; [|rewrite nth_overflow in He by exact Hp; destruct He].
  apply in_flat_map. eexists. split; [apply nth_In; exact Hp|exact He].
Qed.
Lemma square_nonneg n m : square n m -> (forall i j, (i < n)%nat -> (j < n)%nat -> 0 <= m_at m i j) -> forall i j, 0 <= m_at m i j.
Proof.
  intros (H1 & H2 & H3) H i j. unfold m_at. destruct (nth_in_or_default (m_cols m * i + j) (m_data m) 0) as [Hin| ->]; [|lia].
  destruct (entry_at m _ H1 Hin) as (i' & j' & Hi & Hj & <-). apply H; lia.
Qed.

(** A model that was built with the methods and is complete gives valid data, and no other does; the indices of
    locations, depots, groups and profiles are always right, groups and clients agree, and the
    matrices are square with zero diagonal. *)
Theorem model_data_complete m missing : model_built m ->
  (complete m -> exists d, model_data m missing = Ok d /\ valid_data d /\ data_ok d /\
     (0 <= missing -> nonneg_dists d /\ nonneg_durs d)) /\
  (~ complete m -> exists e, model_data m missing = Err e).
Proof.
  intros Hb. apply model_built_ok in Hb.
  assert (Dec : edges_known m \/ ~ edges_known m).
  { unfold edges_known. destruct (Forall_dec (fun e => In (e_frm e) (ids (mo_locations m)) /\ In (e_to e) (ids (mo_locations m)))
      ltac:(intros e; destruct (in_dec Nat.eq_dec (e_frm e) (ids (mo_locations m))); [|right; tauto];
          destruct (in_dec Nat.eq_dec (e_to e) (ids (mo_locations m))); [left|right]; tauto) (all_edges m)); auto. }
  destruct Dec as [Hk|Hk].
  2: { split; [intros Hc; exfalso; apply Hk; apply Hc|]. intros _. eexists. apply model_data_unknown. exact Hk. }
  pose proof (mk_loc_ids m Hb) as Hn.
  destruct (model_data_matrices m missing Hn Hk) as (dists & durs & E0 & L1 & L2 & HM).
  rewrite E0. set (d := mk_pdata (map snd (mo_locations m)) (mo_clients m) (map snd (mo_depots m)) (mo_vehicles m) dists durs
    (map snd (mo_groups m)) (mo_shipments m)).
  assert (Va : valid_data d).
  { constructor; cbn.
    - eapply Forall_impl; [|apply (mk_clients m Hb)]. intros c H. apply (client_valid c H).
    - eapply Forall_impl; [|apply (mk_depots m Hb)]. exact depot_valid.
    - eapply Forall_impl; [|apply (mk_shipments m Hb)]. intros c H. apply (shipment_valid c H).
    - eapply Forall_impl; [|apply (mk_vehicles m Hb)]. intros c H. apply (DataCtor.vehicle_valid c H). }
  assert (Hw : windows_ok d).
  { split; [eapply Forall_impl; [|apply (va_depots _ Va)]|eapply Forall_impl; [|apply (va_vehicles _ Va)]]; intros x []; lia. }
  destruct (make_pdata_spec (map snd (mo_locations m)) (mo_clients m) (map snd (mo_depots m)) (mo_vehicles m) dists durs
    (map snd (mo_groups m)) (mo_shipments m) Hw) as [MS1 MS2]. fold d in MS1, MS2.
  assert (Hdiag : forall mat, In mat (dists ++ durs) ->
    m_rows mat = length (mo_locations m) /\ m_cols mat = length (mo_locations m) /\
    forall loc, (loc < length (mo_locations m))%nat -> m_at mat loc loc = 0).
  { pose proof (mk_edges m Hb) as Hedges. rewrite Forall_forall in Hedges.
    assert (K : forall p f, (forall e, In e (all_edges m) -> e_frm e = e_to e -> f e = 0) -> forall loc,
      last_or f (applicable_edges m p) (id_at m loc) (id_at m loc) (if (loc =? loc)%nat then 0 else Z.min missing MAX_VALUE) = 0).
    { intros p f Hf loc. apply last_or_all with (P := fun x => x = 0); [rewrite Nat.eqb_refl; reflexivity|].
      apply Forall_forall. intros e He Ea Eb. apply Hf; [apply (applicable_all m p e He)|congruence]. }
    intros mat Hin. apply in_app_or in Hin.
    destruct Hin as [Hin|Hin]; destruct (In_nth _ _ dummy_matrix Hin) as (p & Hp & <-);
      (destruct (HM p ltac:(lia)) as ((S1 & S2 & S3) & (S4 & S5 & S6) & HE));
      (split; [assumption|]); (split; [assumption|]); intros loc Hl; destruct (HE loc loc Hl Hl) as [HE1 HE2];
      [rewrite HE1|rewrite HE2]; apply K; intros e He Ee; destruct (Hedges e He) as (_ & _ & Hz); apply Hz; exact Ee. }
  assert (Hgroups : forall g, (g < length (mo_groups m))%nat -> nth g (map snd (mo_groups m)) dummy_group = snd (nth g (mo_groups m) (0%nat, dummy_group)))
    by (intros g _; apply (map_nth snd (mo_groups m) (0%nat, dummy_group))).
  assert (Iff : data_ok d <-> complete m).
  { split.
    - intros [D1 D2 D3 D4 D5 D6 D7 D8 D9 D10]. cbn in *. constructor.
      + exact Hk.
      + intros E1. unfold p_numDepots in D2. cbn in D2. rewrite E1 in D2. cbn in D2. lia.
      + intros E1. unfold p_numVehicleTypes in D6. cbn in D6. rewrite E1 in D6. cbn in D6. lia.
      + apply Forall_forall. intros g Hg. destruct (In_nth _ _ (0%nat, dummy_group) Hg) as (i & Hi & <-).
        rewrite <- Hgroups by exact Hi. apply (D4 i). unfold p_numGroups. cbn. rewrite map_length. exact Hi.
      + exists (p_numLoadDimensions d). split; [|split].
        * apply Forall_forall. intros c Hc. destruct (In_nth _ _ dummy_client Hc) as (i & Hi & <-). apply (D1 i Hi).
        * apply Forall_forall. intros s Hs. apply (D5 s Hs).
        * apply Forall_forall. intros v Hv. apply (D7 v Hv).
      + apply Forall_forall. intros v Hv. destruct (D7 v Hv) as (_ & _ & _ & _ & K1 & K2 & _).
        constructor; [exact K1|]. constructor; [exact K2|constructor].
    - intros [C1 C2 C3 C4 C5 C6]. destruct C5 as (dim & Cd1 & Cd2 & Cd3). rewrite Forall_forall in *.
      assert (Hdim : p_numLoadDimensions d = dim).
      { unfold p_numLoadDimensions. cbn. destruct (mo_vehicles m) as [|v vs]; [congruence|]. apply Cd3. left. reflexivity. }
      assert (N : p_numLocations d = length (mo_locations m)) by (unfold p_numLocations; cbn; apply map_length).
      assert (Nd : p_numDepots d = length (mo_depots m)) by (unfold p_numDepots; cbn; apply map_length).
      assert (Ng : p_numGroups d = length (mo_groups m)) by (unfold p_numGroups; cbn; apply map_length).
      assert (0 < length (mo_depots m))%nat by (destruct (mo_depots m); [congruence|cbn; lia]).
      assert (Np : (0 < num_profiles m)%nat) by (unfold num_profiles; lia).
      constructor; rewrite ?Hdim, ?N, ?Nd, ?Ng.
      + intros i Hi. cbv zeta. change (p_client d i) with (nth i (mo_clients m) dummy_client).
        change (p_numClients d) with (length (mo_clients m)) in Hi. assert (Hin := nth_In _ dummy_client Hi).
        set (c := nth i (mo_clients m) dummy_client) in *. split.
        { pose proof (mk_client_locs m Hb) as K. rewrite Forall_forall in K. apply (K c Hin). }
        pose proof (mk_clients m Hb) as K. rewrite Forall_forall in K. destruct (client_valid c (K c Hin)) as [_ El].
        rewrite <- El. rewrite (Cd1 c Hin). split; [reflexivity|]. split; [reflexivity|].
        intros g Hg. apply (mk_client_groups m Hb i g Hi Hg).
      + assumption.
      + intros x Hx. pose proof (mk_depot_locs m Hb) as K. rewrite Forall_forall in K. apply (K x Hx).
      + intros g Hg. change (p_group d g) with (nth g (map snd (mo_groups m)) dummy_group). split.
        * rewrite Hgroups by exact Hg. apply C4. apply nth_In. exact Hg.
        * intros i Hi. apply (mk_group_clients m Hb i g Hg Hi).
      + intros s Hs. pose proof (mk_shipment_locs m Hb) as K. rewrite Forall_forall in K. destruct (K s Hs). auto.
      + unfold p_numVehicleTypes. cbn. destruct (mo_vehicles m); [congruence|cbn; lia].
      + intros v Hv. pose proof (mk_vehicle_refs m Hb) as K. rewrite Forall_forall in K. destruct (K v Hv) as (K1 & K2 & K3 & K4).
        cbn [p_dists d]. rewrite L1. split; [apply Cd3; exact Hv|]. split; [lia|]. split; [lia|]. split; [exact K3|].
        specialize (C6 v Hv). inversion C6 as [|? ? W1 W2]; subst. inversion W2 as [|? ? W3 _]; subst.
        split; [exact W1|]. split; [exact W3|].
        intros r Hr. rewrite Forall_forall in K4. apply K4. exact Hr.
      + cbn [p_dists d]. rewrite L1. exact Np.
      + cbn [p_dists p_durs d]. congruence.
      + exact Hdiag. }
  split.
  - intros Hc. exists d. apply Iff in Hc. split; [exact (MS1 Hc)|]. split; [exact Va|]. split; [exact Hc|]. intros Hmiss.
    pose proof (mk_edges m Hb) as Hedges. rewrite Forall_forall in Hedges.
    assert (K : forall p f, (forall e, In e (all_edges m) -> 0 <= f e) -> forall i j,
      0 <= last_or f (applicable_edges m p) (id_at m i) (id_at m j) (if (i =? j)%nat then 0 else Z.min missing MAX_VALUE)).
    { intros p f Hf i j. apply last_or_all; [unfold MAX_VALUE; destruct (i =? j)%nat; lia|].
      apply Forall_forall. intros e He _ _. apply Hf. apply (applicable_all m p e He). }
    split; intros p i j; [unfold p_dist|unfold p_dur]; cbn [p_dists p_durs d];
      (destruct (Nat.lt_ge_cases p (num_profiles m)) as [Hp|Hp];
       [|rewrite nth_overflow by lia; unfold m_at; cbn [m_data dummy_matrix]; rewrite (nth_overflow [] 0 (Nat.le_0_l _)); lia]);
      destruct (HM p Hp) as (S1 & S2 & HE).
    + apply (square_nonneg _ _ S1). intros i' j' Hi Hj. destruct (HE i' j' Hi Hj) as [-> _]. apply K. intros e He. apply (Hedges e He).
    + apply (square_nonneg _ _ S2). intros i' j' Hi Hj. destruct (HE i' j' Hi Hj) as [_ ->]. apply K. intros e He. apply (Hedges e He).
  - intros Hc. apply MS2. tauto.
Qed.

(** The entries of the data, in terms of the edges. *)
Theorem model_data_edges m missing d : model_built m -> model_data m missing = Ok d ->
  length (p_dists d) = num_profiles m /\
  forall p i j, (p < num_profiles m)%nat -> (i < length (mo_locations m))%nat -> (j < length (mo_locations m))%nat ->
    let fill := if (i =? j)%nat then 0 else Z.min missing MAX_VALUE in
    p_dist d p i j = last_or e_dist (applicable_edges m p) (id_at m i) (id_at m j) fill /\
    p_dur d p i j = last_or e_dur (applicable_edges m p) (id_at m i) (id_at m j) fill.
Proof.
  intros Hb E0. apply model_built_ok in Hb.
  destruct (Forall_dec (fun e => In (e_frm e) (ids (mo_locations m)) /\ In (e_to e) (ids (mo_locations m)))
      ltac:(intros e; destruct (in_dec Nat.eq_dec (e_frm e) (ids (mo_locations m))); [|right; tauto];
          destruct (in_dec Nat.eq_dec (e_to e) (ids (mo_locations m))); [left|right]; tauto) (all_edges m)) as [Hk|Hk].
  2: { rewrite (model_data_unknown m missing Hk) in E0. discriminate. }
  destruct (model_data_matrices m missing (mk_loc_ids m Hb) Hk) as (dists & durs & E1 & L1 & L2 & HM).
  rewrite E1 in E0. unfold make_pdata in E0. apply checked_ok in E0. destruct E0 as [_ ->]. cbn [p_dists]. split; [exact L1|].
  intros p i j Hp Hi Hj. cbv zeta. destruct (HM p Hp) as (_ & _ & HE). exact (HE i j Hi Hj).
Qed.

(** ** from_data, lines 170-215 *)
Fixpoint collect_res {A B} (f : A -> res B) (l : list A) : res (list B) :=
  match l with
  | [] => Ok []
  | x :: more => bind (f x) (fun y => bind (collect_res f more) (fun ys => Ok (y :: ys)))
  end.
(** The objects of the data get their position as identity. *)
Definition numbered {A} (l : list A) : list (nat * A) := combine (seq 0 (length l)) l.
Definition pairs (n : nat) : list (nat * nat) := flat_map (fun frm => map (fun to => (frm, to)) (seq 0 n)) (seq 0 n).
Definition from_data (d : pdata) : res pymodel :=
  let n := p_numLocations d in
  bind (collect_res (fun p => collect_res (fun ft =>
      make_edge (fst ft) (snd ft) (p_dist d p (fst ft) (snd ft)) (p_dur d p (fst ft) (snd ft))) (pairs n))
    (seq 0 (length (p_dists d)))) (fun profiles =>
  Ok (mk_pymodel (numbered (p_locations d)) (p_clients d) (numbered (p_depots d)) [] (numbered (p_groups d))
        (p_shipments d) (numbered profiles) (p_vehicles d))).

Lemma collect_res_ok {A B} (f : A -> res B) l ys : collect_res f l = Ok ys <-> Forall2 (fun x y => f x = Ok y) l ys.
Proof.
  revert ys. induction l as [|x l IH]; intros ys; cbn; [split; [intros [= <-]; constructor|inversion 1; reflexivity]|]. split.
  - intros H. apply bind_ok in H. destruct H as (y & Hy & H). apply bind_ok in H. destruct H as (ys' & Hys & H).
    injection H as <-. constructor; [exact Hy|apply IH; exact Hys].
  - inversion 1 as [|? y ? ys' Hy Hys]; subst. rewrite Hy. cbn. apply IH in Hys. rewrite Hys. reflexivity.
Qed.
Lemma collect_res_err {A B} (f : A -> res B) l x e : In x l -> f x = Err e -> exists e', collect_res f l = Err e'.
Proof.
  intros Hin Hf. induction l as [|y l IH]; [destruct Hin|]. cbn. destruct Hin as [->|Hin]; [rewrite Hf; cbn; eauto|].
  destruct (f y); cbn; [|eauto]. destruct (IH Hin) as [e' ->]. cbn. eauto.
Qed.
Lemma numbered_ids {A} (l : list A) : ids (numbered l) = seq 0 (length l).
Proof.
  unfold ids, numbered. generalize 0%nat as k. induction l as [|x l IH]; intros k; [reflexivity|]. cbn. f_equal. apply IH.
Qed.
Lemma numbered_snd {A} (l : list A) : map snd (numbered l) = l.
Proof. unfold numbered. generalize 0%nat as k. induction l as [|x l IH]; intros k; [reflexivity|]. cbn. f_equal. apply IH. Qed.
Lemma numbered_length {A} (l : list A) : length (numbered l) = length l.
Proof. unfold numbered. rewrite combine_length, seq_length. apply Nat.min_id. Qed.
Lemma in_pairs n a b : In (a, b) (pairs n) <-> (a < n /\ b < n)%nat.
Proof.
  unfold pairs. rewrite in_flat_map. split.
  - intros (x & Hx & H). apply in_map_iff in H. destruct H as (y & [= <- <-] & Hy). apply in_seq in Hx, Hy. lia.
  - intros [Ha Hb]. exists a. split; [apply in_seq; lia|]. apply in_map_iff. exists b. split; [reflexivity|apply in_seq; lia].
Qed.
Lemma square_ext n m m' : square n m -> square n m' ->
  (forall i j, (i < n)%nat -> (j < n)%nat -> m_at m i j = m_at m' i j) -> m = m'.
Proof.
  destruct m as [r c x], m' as [r' c' x']. unfold square, m_ok, m_at. cbn [m_rows m_cols m_data].
  intros (H1 & -> & ->) (H2 & -> & ->) H. f_equal. apply nth_ext with (d := 0) (d' := 0); [congruence|]. intros k Hk.
  rewrite H1 in Hk. assert (n <> 0)%nat by (intros ->; cbn in Hk; lia).
  rewrite (Nat.div_mod k n) by assumption. apply H; [apply Nat.div_lt_upper_bound; lia|apply Nat.mod_upper_bound; assumption].
Qed.
Lemma last_or_unique f es a b dft x :
  (exists e, In e es /\ e_frm e = a /\ e_to e = b) ->
  (forall e, In e es -> e_frm e = a -> e_to e = b -> f e = x) -> last_or f es a b dft = x.
Proof.
  revert dft. induction es as [|e es IH]; intros dft (e0 & Hin & Ha & Hb) H; [destruct Hin|]. rewrite last_or_cons.
  destruct (existsb (fun e => (e_frm e =? a)%nat && (e_to e =? b)%nat) es) eqn:Ex.
  - apply existsb_exists in Ex. destruct Ex as (e1 & H1 & H2). apply andb_prop in H2. destruct H2 as [H2 H3].
    apply Nat.eqb_eq in H2, H3. apply IH; [exists e1; auto|]. intros e2 H4. apply H. right. exact H4.
  - assert (Hno : forall e, In e es -> ~ (e_frm e = a /\ e_to e = b)).
    { intros e1 H1 [H2 H3]. assert (existsb (fun e => (e_frm e =? a)%nat && (e_to e =? b)%nat) es = true); [|congruence].
      apply existsb_exists. exists e1. split; [exact H1|]. rewrite H2, H3, !Nat.eqb_refl. reflexivity. }
    destruct Hin as [->|Hin]; [|exfalso; apply (Hno e0 Hin); auto].
    rewrite Ha, Hb, !Nat.eqb_refl. cbn [andb].
    apply last_or_all with (P := fun z => z = x); [apply H; [left; reflexivity|assumption|assumption]|].
    apply Forall_forall. intros e1 H1 H2 H3. exfalso. apply (Hno e1 H1). auto.
Qed.

(** A model made from data with non-negative matrices gives that data back. *)
Theorem from_data_roundtrip d missing : windows_ok d -> data_ok d -> Forall m_ok (p_dists d ++ p_durs d) ->
  (forall p i j, (p < length (p_dists d))%nat -> (i < p_numLocations d)%nat -> (j < p_numLocations d)%nat ->
     0 <= p_dist d p i j /\ 0 <= p_dur d p i j) ->
  exists m, from_data d = Ok m /\ model_data m missing = Ok d.
Proof.
  intros Hw Hd Hok Hnn. unfold from_data. cbv zeta. set (n := p_numLocations d).
  set (mk := fun p ft => mk_edge (fst ft) (snd ft) (p_dist d p (fst ft) (snd ft)) (p_dur d p (fst ft) (snd ft)) : edge).
  assert (Hsq : forall p, (p < length (p_dists d))%nat -> square n (nth p (p_dists d) dummy_matrix) /\ square n (nth p (p_durs d) dummy_matrix) /\
    forall loc, (loc < n)%nat -> p_dist d p loc loc = 0 /\ p_dur d p loc loc = 0).
  { intros p Hp. rewrite Forall_forall in Hok.
    assert (I1 : In (nth p (p_dists d) dummy_matrix) (p_dists d ++ p_durs d)) by (apply in_or_app; left; apply nth_In; exact Hp).
    assert (I2 : In (nth p (p_durs d) dummy_matrix) (p_dists d ++ p_durs d))
      by (apply in_or_app; right; apply nth_In; rewrite <- (do_matrix_number d Hd); exact Hp).
    destruct (do_matrices d Hd _ I1) as (A1 & A2 & A3). destruct (do_matrices d Hd _ I2) as (B1 & B2 & B3).
    split; [split; [apply Hok; exact I1|split; assumption]|]. split; [split; [apply Hok; exact I2|split; assumption]|].
    intros loc Hl. split; [apply A3|apply B3]; exact Hl. }
  assert (E1 : collect_res (fun p => collect_res (fun ft =>
      make_edge (fst ft) (snd ft) (p_dist d p (fst ft) (snd ft)) (p_dur d p (fst ft) (snd ft))) (pairs n))
    (seq 0 (length (p_dists d))) = Ok (map (fun p => map (mk p) (pairs n)) (seq 0 (length (p_dists d))))).
  { apply collect_res_ok. assert (G : forall l, (forall p, In p l -> (p < length (p_dists d))%nat) ->
      Forall2 (fun x y => collect_res (fun ft => make_edge (fst ft) (snd ft) (p_dist d x (fst ft) (snd ft)) (p_dur d x (fst ft) (snd ft))) (pairs n) = Ok y)
        l (map (fun p => map (mk p) (pairs n)) l)).
    { induction l as [|p l IH]; intros Hl; cbn [map]; constructor; [|apply IH; intros q Hq; apply Hl; right; exact Hq].
      apply collect_res_ok. assert (Hp := Hl p (or_introl eq_refl)). destruct (Hsq p Hp) as (_ & _ & Hz).
      assert (G : forall l', (forall ft, In ft l' -> (fst ft < n /\ snd ft < n)%nat) ->
        Forall2 (fun ft y => make_edge (fst ft) (snd ft) (p_dist d p (fst ft) (snd ft)) (p_dur d p (fst ft) (snd ft)) = Ok y) l' (map (mk p) l')).
      { induction l' as [|ft l' IH']; intros Hl'; cbn [map]; constructor; [|apply IH'; intros q Hq; apply Hl'; right; exact Hq].
        apply make_edge_spec. split; [|reflexivity]. unfold edge_ok, mk. cbn [e_dist e_dur e_frm e_to].
        destruct (Hl' ft (or_introl eq_refl)) as [F1 F2]. destruct (Hnn p (fst ft) (snd ft) Hp F1 F2) as [N1 N2].
        split; [exact N1|]. split; [exact N2|]. intros Eq. rewrite <- Eq. apply Hz. exact F1. }
      apply G. intros [a b] Hab. apply in_pairs. exact Hab. }
    apply G. intros p Hp. apply in_seq in Hp. lia. }
  rewrite E1. cbn [bind]. eexists. split; [reflexivity|]. set (m := mk_pymodel _ _ _ _ _ _ _ _).
  assert (Hids : ids (mo_locations m) = seq 0 n) by apply numbered_ids.
  assert (Hlen : length (mo_locations m) = n) by apply numbered_length.
  assert (Hpl : length (mo_profiles m) = length (p_dists d)) by (cbn; rewrite numbered_length, map_length; apply seq_length).
  assert (Hpn : num_profiles m = length (p_dists d)) by (unfold num_profiles; rewrite Hpl; pose proof (do_some_matrix d Hd); lia).
  assert (Hk : edges_known m).
  { unfold edges_known, all_edges. rewrite Hids. cbn [mo_edges m app]. apply Forall_forall. intros e He. apply in_flat_map in He.
    destruct He as (p & Hp & He). apply (in_map snd) in Hp. cbn [mo_profiles m] in Hp. rewrite numbered_snd in Hp.
    apply in_map_iff in Hp. destruct Hp as (q & Eq & _). rewrite <- Eq in He. apply in_map_iff in He.
    destruct He as ([a b] & <- & Hab). apply in_pairs in Hab. cbn. rewrite !in_seq. lia. }
  destruct (model_data_matrices m missing ltac:(rewrite Hids; apply seq_NoDup) Hk) as (dists & durs & E2 & L1 & L2 & HM).
  rewrite E2. cbn [mo_locations mo_clients mo_depots mo_vehicles mo_groups mo_shipments m]. rewrite !numbered_snd.
  assert (Hprof : forall p, (p < length (p_dists d))%nat -> applicable_edges m p = map (mk p) (pairs n)).
  { intros p Hp. unfold applicable_edges. cbn [mo_edges app m]. change (mo_profiles m) with (numbered (map (fun p => map (mk p) (pairs n)) (seq 0 (length (p_dists d))))).
    rewrite <- (map_nth snd), numbered_snd. cbn [snd].
    rewrite nth_indep with (d' := map (mk 0%nat) (pairs n)) by (rewrite map_length, seq_length; exact Hp).
    rewrite (map_nth (fun p => map (mk p) (pairs n))), seq_nth by exact Hp. reflexivity. }
  assert (Hval : forall p i j, (p < length (p_dists d))%nat -> (i < n)%nat -> (j < n)%nat -> forall f dft,
    last_or f (applicable_edges m p) (id_at m i) (id_at m j) dft = f (mk p (i, j))).
  { intros p i j Hp Hi Hj f dft. unfold id_at. rewrite Hids, !seq_nth by assumption. cbn [plus]. rewrite Hprof by exact Hp.
    apply last_or_unique.
    - exists (mk p (i, j)). split; [|split; reflexivity]. apply in_map_iff. exists (i, j). split; [reflexivity|apply in_pairs; auto].
    - intros e He. apply in_map_iff in He. destruct He as ([a b] & <- & _). cbn. intros -> ->. reflexivity. }
  assert (Ed : dists = p_dists d /\ durs = p_durs d).
  { split; (apply nth_ext with (d := dummy_matrix) (d' := dummy_matrix); [pose proof (do_matrix_number d Hd); lia|]); intros p Hp;
      (destruct (HM p ltac:(lia)) as (S1 & S2 & HE)); (destruct (Hsq p ltac:(lia)) as (S3 & S4 & _)); rewrite Hlen in *;
      (apply (square_ext n); [assumption|assumption|]); intros i j Hi Hj; destruct (HE i j Hi Hj) as [HE1 HE2];
      [rewrite HE1|rewrite HE2]; rewrite Hval by lia; reflexivity. }
  destruct Ed as [-> ->]. destruct d as [dl dc dd dv ddi ddu dg ds].
  exact (proj1 (make_pdata_spec dl dc dd dv ddi ddu dg ds Hw) Hd).
Qed.
(** A negative entry is rejected. *)
Theorem from_data_negative d p i j : (p < length (p_dists d))%nat -> (i < p_numLocations d)%nat -> (j < p_numLocations d)%nat ->
  p_dist d p i j < 0 \/ p_dur d p i j < 0 -> exists e, from_data d = Err e.
Proof.
  intros Hp Hi Hj Hneg. unfold from_data. cbv zeta.
  assert (E1 : exists e, collect_res (fun ft =>
      make_edge (fst ft) (snd ft) (p_dist d p (fst ft) (snd ft)) (p_dur d p (fst ft) (snd ft))) (pairs (p_numLocations d)) = Err e).
  { apply collect_res_err with (x := (i, j)) (e := InvalidArgument); [apply in_pairs; auto|]. cbn [fst snd]. unfold make_edge.
    replace ((p_dist d p i j <? 0) || (p_dur d p i j <? 0)) with true by lia. reflexivity. }
  destruct E1 as [e E1].
  edestruct (@collect_res_err nat (list edge)) as [e' ->]; [apply in_seq; split; [apply Nat.le_0_l|exact Hp]|exact E1|]. cbn. eauto.
Qed.
