(** The constructors of the problem data classes and the validation of ProblemData.
    Names are copied up to their first NUL character in the code; the model keeps them whole. *)
From Coq Require Import Permutation.
From Verif Require Import Base DurationSegment Data Valid SolutionFacts.

(** Client.cpp:22-27, VehicleType.cpp:21-26: [vec1.resize(max(...))] zero fills.  The constructors
    pad their own parameters in place, so later checks see the padded vectors. *)
Definition pad (a b : list Z) : list Z := a ++ repeat 0 (length b - length a).
Definition any_neg (l : list Z) : bool := existsb (fun x => x <? 0) l.

(** A sequence of checks, each throwing the given exception on failure. *)
Fixpoint first_fail (l : list (bool * exn)) : option exn :=
  match l with
  | [] => None
  | (bad, e) :: more => if bad : bool then Some e else first_fail more
  end.
Definition checked {A} (l : list (bool * exn)) (x : A) : res A :=
  match first_fail l with Some e => Err e | None => Ok x end.

(** Client.cpp:32-80 *)
Definition make_client (location : nat) (delivery pickup : list Z) (service early late release prize : Z)
    (required : bool) (group : option nat) (name : string) : res client :=
  let delivery := pad delivery pickup in
  let pickup := pad pickup delivery in
  checked
    [ (any_neg delivery, InvalidArgument);
      (any_neg pickup, InvalidArgument);
      (service <? 0, InvalidArgument);
      (early >? late, InvalidArgument);
      (early <? 0, InvalidArgument);
      (release >? late, InvalidArgument);
      (release <? 0, InvalidArgument);
      (prize <? 0, InvalidArgument) ]
    (mk_client location service early late delivery pickup release prize required group name).

(** Depot.cpp:22-41 *)
Definition make_depot (location : nat) (early late service : Z) (name : string) : res depot :=
  checked [ (service <? 0, InvalidArgument); (early >? late, InvalidArgument); (early <? 0, InvalidArgument) ]
          (mk_depot location early late service name).

(** Shipment.cpp:26-43 *)
Definition make_step (location : nat) (early late service : Z) : res step :=
  checked [ (service <? 0, InvalidArgument); (early >? late, InvalidArgument); (early <? 0, InvalidArgument) ]
          (mk_step location early late service).

(** Shipment.cpp:45-77 *)
Definition make_shipment (ploc dloc : nat) (pearly plate pservice dearly dlate dservice : Z)
    (amount : list Z) (prize : Z) (required : bool) (name : string) : res shipment :=
  match make_step ploc pearly plate pservice with
  | Err e => Err e
  | Ok p =>
      match make_step dloc dearly dlate dservice with
      | Err e => Err e
      | Ok dl =>
          checked
            [ (st_late dl <? st_early p, InvalidArgument);
              (any_neg amount, InvalidArgument);
              (prize <? 0, InvalidArgument) ]
            (mk_shipment p dl amount prize required name)
      end
  end.
(** Shipment.cpp:79-92: the constructor from steps does not check; it is not available in Python
    other than through unpickling. *)
Definition make_shipment_steps (p dl : step) (amount : list Z) (prize : Z) (required : bool) (name : string)
  : shipment := mk_shipment p dl amount prize required name.

(** ClientGroup.cpp:74-80 *)
Definition add_client (g : cgroup) (c : nat) : res cgroup :=
  if existsb (Nat.eqb c) (g_clients g) then Err InvalidArgument
  else Ok (mk_cgroup (g_clients g ++ [c]) (g_required g) (g_name g)).
(** ClientGroup.cpp:22-29 *)
Fixpoint add_clients (g : cgroup) (cs : list nat) : res cgroup :=
  match cs with
  | [] => Ok g
  | c :: more => match add_client g c with Err e => Err e | Ok g => add_clients g more end
  end.
Definition make_group (clients : list nat) (required : bool) (name : string) : res cgroup :=
  add_clients (mk_cgroup [] required name) clients.

(** VehicleType.cpp:108-110 *)
Definition exceeds (initial capacity : list Z) : bool :=
  existsb (fun dim => dimv initial dim >? dimv capacity dim) (seq 0 (length initial)).

(** VehicleType.cpp:31-117.  Sizes are not negative, [num_available] is a [nat] here. *)
Definition make_vehicle (numAvailable : nat) (capacity : list Z) (start endd : nat)
    (fixedCost early late shift maxDistance unitDistance unitDuration : Z) (profile : nat)
    (startLate : option Z) (initial : list Z) (reload : list nat) (maxReloads maxOvertime unitOvertime : Z)
    (name : string) : res vehicle :=
  let capacity := pad capacity initial in
  let initial := pad initial capacity in
  let startLate := match startLate with Some x => x | None => late end in
  let maxDuration := if (shift >=? 0) && (maxOvertime >=? 0) && (maxOvertime <? MAXV - shift)
                     then shift + maxOvertime else MAXV in
  checked
    [ ((numAvailable =? 0)%nat, InvalidArgument);
      (any_neg capacity, InvalidArgument);
      (early >? startLate, InvalidArgument);
      (startLate >? late, InvalidArgument);
      (early <? 0, InvalidArgument);
      (shift <? 0, InvalidArgument);
      (maxDistance <? 0, InvalidArgument);
      (unitDistance <? 0, InvalidArgument);
      (unitDuration <? 0, InvalidArgument);
      (any_neg initial, InvalidArgument);
      (exceeds initial capacity, InvalidArgument);
      (maxOvertime <? 0, InvalidArgument);
      (unitOvertime <? 0, InvalidArgument) ]
    (mk_vehicle numAvailable start endd capacity early late shift maxDistance fixedCost unitDistance
       unitDuration profile startLate initial reload maxReloads maxOvertime unitOvertime maxDuration name).

(** ProblemData.cpp:22-27 *)
Definition overlap (x : depot) (v : vehicle) : bool := (d_early x <=? v_late v) && (d_late x >=? v_early v).

(** ProblemData.cpp:112-268, in the order of the code. *)
Definition client_checks (d : pdata) (idx : nat) : list (bool * exn) :=
  let c := p_client d idx in
  [ ((p_numLocations d <=? c_loc c)%nat, OutOfRange);
    (negb (length (c_delivery c) =? p_numLoadDimensions d)%nat, InvalidArgument);
    (negb (length (c_pickup c) =? p_numLoadDimensions d)%nat, InvalidArgument) ] ++
  match c_group c with
  | None => []
  | Some g =>
      [ ((p_numGroups d <=? g)%nat, OutOfRange);
        (negb (existsb (Nat.eqb idx) (g_clients (p_group d g))), InvalidArgument);
        (c_required c && g_mutuallyExclusive (p_group d g), InvalidArgument) ]
  end.
Definition group_checks (d : pdata) (idx : nat) : list (bool * exn) :=
  let g := p_group d idx in
  ((length (g_clients g) =? 0)%nat, InvalidArgument) ::
  flat_map (fun c =>
      [ ((p_numClients d <=? c)%nat, OutOfRange);
        (negb (match c_group (p_client d c) with Some g' => (g' =? idx)%nat | None => false end), InvalidArgument) ])
    (g_clients g).
Definition shipment_checks (d : pdata) (s : shipment) : list (bool * exn) :=
  [ ((p_numLocations d <=? st_loc (s_pickup s))%nat, OutOfRange);
    ((p_numLocations d <=? st_loc (s_delivery s))%nat, OutOfRange);
    (negb (length (s_amount s) =? p_numLoadDimensions d)%nat, InvalidArgument) ].
Definition vehicle_checks (d : pdata) (v : vehicle) : list (bool * exn) :=
  [ (negb (length (v_capacity v) =? p_numLoadDimensions d)%nat, InvalidArgument);
    ((p_numDepots d <=? v_start v)%nat, OutOfRange);
    ((p_numDepots d <=? v_end v)%nat, OutOfRange);
    ((length (p_dists d) <=? v_profile v)%nat, OutOfRange);
    (negb (overlap (p_depot d (v_start v)) v), InvalidArgument);
    (negb (overlap (p_depot d (v_end v)) v), InvalidArgument) ] ++
  map (fun r => ((p_numDepots d <=? r)%nat, OutOfRange)) (v_reload v).
Definition matrix_checks (d : pdata) (idx : nat) : list (bool * exn) :=
  let n := p_numLocations d in
  let dist := nth idx (p_dists d) dummy_matrix in
  let dur := nth idx (p_durs d) dummy_matrix in
  [ (negb (m_rows dist =? n)%nat || negb (m_cols dist =? n)%nat, InvalidArgument);
    (negb (m_rows dur =? n)%nat || negb (m_cols dur =? n)%nat, InvalidArgument) ] ++
  flat_map (fun loc => [ (negb (m_at dist loc loc =? 0), InvalidArgument);
                         (negb (m_at dur loc loc =? 0), InvalidArgument) ]) (seq 0 n).
Definition data_checks (d : pdata) : list (bool * exn) :=
  flat_map (client_checks d) (seq 0 (p_numClients d)) ++
  [ ((p_numDepots d =? 0)%nat, InvalidArgument) ] ++
  map (fun x => ((p_numLocations d <=? d_loc x)%nat, OutOfRange)) (p_depots d) ++
  flat_map (group_checks d) (seq 0 (p_numGroups d)) ++
  flat_map (shipment_checks d) (p_shipments d) ++
  [ ((p_numVehicleTypes d =? 0)%nat, InvalidArgument) ] ++
  flat_map (vehicle_checks d) (p_vehicles d) ++
  [ ((length (p_dists d) =? 0)%nat || (length (p_durs d) =? 0)%nat, InvalidArgument);
    (negb (length (p_dists d) =? length (p_durs d))%nat, InvalidArgument) ] ++
  flat_map (matrix_checks d) (seq 0 (length (p_dists d))).

(** ProblemData.cpp:290-334 *)
Definition make_pdata (locations : list location) (clients : list client) (depots : list depot)
    (vehicles : list vehicle) (dists durs : list matrix) (groups : list cgroup) (shipments : list shipment)
    : res pdata :=
  let d := mk_pdata locations clients depots vehicles dists durs groups shipments in
  checked (data_checks d) d.

(** ProblemData.cpp:270-288 *)
Definition or_else {A} (x : option A) (y : A) : A := match x with Some x => x | None => y end.
Definition replace_pdata (d : pdata) (locations : option (list location)) (clients : option (list client))
    (depots : option (list depot)) (vehicles : option (list vehicle)) (dists durs : option (list matrix))
    (groups : option (list cgroup)) (shipments : option (list shipment)) : res pdata :=
  make_pdata (or_else locations (p_locations d)) (or_else clients (p_clients d)) (or_else depots (p_depots d))
    (or_else vehicles (p_vehicles d)) (or_else dists (p_dists d)) (or_else durs (p_durs d))
    (or_else groups (p_groups d)) (or_else shipments (p_shipments d)).

(** VehicleType.cpp:170-210 *)
Definition replace_vehicle (v : vehicle) (numAvailable : option nat) (capacity : option (list Z))
    (start endd : option nat) (fixedCost early late shift maxDistance unitDistance unitDuration : option Z)
    (profile : option nat) (startLate : option Z) (initial : option (list Z)) (reload : option (list nat))
    (maxReloads maxOvertime unitOvertime : option Z) (name : option string) : res vehicle :=
  make_vehicle (or_else numAvailable (v_numAvailable v)) (or_else capacity (v_capacity v))
    (or_else start (v_start v)) (or_else endd (v_end v)) (or_else fixedCost (v_fixedCost v))
    (or_else early (v_early v)) (or_else late (v_late v)) (or_else shift (v_shift v))
    (or_else maxDistance (v_maxDistance v)) (or_else unitDistance (v_unitDistance v))
    (or_else unitDuration (v_unitDuration v)) (or_else profile (v_profile v))
    (Some (or_else startLate (v_startLate v))) (or_else initial (v_initialLoad v))
    (or_else reload (v_reload v)) (or_else maxReloads (v_maxReloads v)) (or_else maxOvertime (v_maxOvertime v))
    (or_else unitOvertime (v_unitOvertime v)) (or_else name (v_name v)).

(** ** Facts *)
Lemma first_fail_none l : first_fail l = None <-> forall x, In x l -> fst x = false.
Proof.
  induction l as [|[b e] l IH]; cbn [first_fail]; [split; [intros _ x []|reflexivity]|].
  destruct b.
  - split; [discriminate|]. intros H. specialize (H _ (or_introl eq_refl)). discriminate.
  - rewrite IH. split; intros H x; [intros [<-|Hx]; [reflexivity|apply H; exact Hx]|intros Hx; apply H; right; exact Hx].
Qed.
Lemma checked_ok {A} l (x y : A) : checked l x = Ok y <-> (forall c, In c l -> fst c = false) /\ y = x.
Proof.
  unfold checked. rewrite <- first_fail_none. destruct (first_fail l).
  - split; [discriminate|intros [H _]; discriminate].
  - split; [intros H; split; [reflexivity|congruence]|intros [_ ->]; reflexivity].
Qed.
Lemma checked_total {A} l (x : A) : checked l x = Ok x \/ exists e, checked l x = Err e.
Proof. unfold checked. destruct (first_fail l); eauto. Qed.

Lemma pad_length a b : length (pad a b) = Nat.max (length a) (length b).
Proof. unfold pad. rewrite app_length, repeat_length. lia. Qed.
Lemma pad_nth a b dim : dimv (pad a b) dim = dimv a dim.
Proof.
  unfold pad, dimv. destruct (Nat.lt_ge_cases dim (length a)) as [H|H].
  - apply app_nth1. exact H.
  - rewrite app_nth2 by exact H. rewrite (nth_overflow a) by exact H. apply nth_repeat.
Qed.
Lemma pad_id a b : (length b <= length a)%nat -> pad a b = a.
Proof. intros H. unfold pad. replace (length b - length a)%nat with 0%nat by lia. apply app_nil_r. Qed.
Lemma any_neg_false l : any_neg l = false <-> Forall (fun x => 0 <= x) l.
Proof.
  unfold any_neg. induction l as [|x l IH]; cbn [existsb]; [split; [constructor|reflexivity]|].
  rewrite Bool.orb_false_iff, IH. split.
  - intros [H1 H2]. constructor; [lia|exact H2].
  - intros H. inversion H; subst. split; [lia|assumption].
Qed.
Lemma any_neg_pad a b : any_neg (pad a b) = any_neg a.
Proof.
  unfold any_neg, pad. rewrite existsb_app. replace (existsb _ (repeat _ _)) with false.
  - apply Bool.orb_false_r.
  - induction (length b - length a)%nat as [|n IH]; [reflexivity|]. cbn. exact IH.
Qed.

Ltac checks H :=
  repeat match type of H with
  | forall c, In c (?x :: ?l) -> _ =>
      let H1 := fresh "Hc" in let H2 := fresh "Hl" in
      pose proof (H x (or_introl eq_refl)) as H1; cbn [fst] in H1;
      assert (H2 : forall c, In c l -> fst c = false) by (intros ? ?; apply H; right; assumption);
      clear H; rename H2 into H
  | forall c, In c [] -> _ => clear H
  end.
Ltac all_checks := let c := fresh "c" in let H := fresh "H" in
  intros c H; cbn [In] in H; repeat (destruct H as [<-|H]; [cbn [fst]|]); [..|destruct H].

Theorem make_client_spec location delivery pickup service early late release prize required group name c :
  make_client location delivery pickup service early late release prize required group name = Ok c <->
  (Forall (fun x => 0 <= x) delivery /\ Forall (fun x => 0 <= x) pickup /\ 0 <= service /\
   0 <= early <= late /\ 0 <= release <= late /\ 0 <= prize) /\
  c = mk_client location service early late (pad delivery pickup) (pad pickup delivery) release prize required group name.
Proof.
  unfold make_client. rewrite checked_ok.
  assert (E : pad pickup (pad delivery pickup) = pad pickup delivery).
  { unfold pad at 1 3. rewrite pad_length. f_equal. f_equal. lia. }
  rewrite E. split.
  - intros [H ->]. checks H. rewrite any_neg_pad, any_neg_false in Hc, Hc0. repeat split; try assumption; lia.
  - intros ((H1 & H2 & H3 & H4 & H5 & H6) & ->). split; [|reflexivity].
    all_checks; try (rewrite any_neg_pad, any_neg_false; assumption); lia.
Qed.

Lemma make_client_err location delivery pickup service early late release prize required group name e :
  make_client location delivery pickup service early late release prize required group name = Err e -> e = InvalidArgument.
Proof.
  unfold make_client, checked. cbn [first_fail].
  repeat match goal with |- context [if ?b then Some _ else _] => destruct b end; congruence.
Qed.

Theorem make_depot_spec location early late service name x :
  make_depot location early late service name = Ok x <->
  (0 <= service /\ 0 <= early <= late) /\ x = mk_depot location early late service name.
Proof.
  unfold make_depot. rewrite checked_ok. split.
  - intros [H ->]. checks H. split; [lia|reflexivity].
  - intros (H & ->). split; [|reflexivity]. all_checks; lia.
Qed.
Lemma make_step_spec location early late service x :
  make_step location early late service = Ok x <->
  (0 <= service /\ 0 <= early <= late) /\ x = mk_step location early late service.
Proof.
  unfold make_step. rewrite checked_ok. split.
  - intros [H ->]. checks H. split; [lia|reflexivity].
  - intros (H & ->). split; [|reflexivity]. all_checks; lia.
Qed.

Theorem make_shipment_spec ploc dloc pearly plate pservice dearly dlate dservice amount prize required name s :
  make_shipment ploc dloc pearly plate pservice dearly dlate dservice amount prize required name = Ok s <->
  (0 <= pservice /\ 0 <= pearly <= plate /\ 0 <= dservice /\ 0 <= dearly <= dlate /\ pearly <= dlate /\
   Forall (fun x => 0 <= x) amount /\ 0 <= prize) /\
  s = mk_shipment (mk_step ploc pearly plate pservice) (mk_step dloc dearly dlate dservice) amount prize required name.
Proof.
  unfold make_shipment. split.
  - destruct (make_step ploc pearly plate pservice) as [p|] eqn:Ep; [|discriminate].
    destruct (make_step dloc dearly dlate dservice) as [q|] eqn:Eq; [|discriminate].
    apply make_step_spec in Ep, Eq. destruct Ep as [Hp ->]. destruct Eq as [Hq ->].
    rewrite checked_ok. intros [H ->]. checks H. rewrite any_neg_false in Hc0. cbn in Hc. repeat split; try assumption; lia.
  - intros ((H1 & H2 & H3 & H4 & H5 & H6 & H7) & ->).
    rewrite (proj2 (make_step_spec ploc pearly plate pservice _)) by (split; [split; eassumption|reflexivity]).
    rewrite (proj2 (make_step_spec dloc dearly dlate dservice _)) by (split; [split; eassumption|reflexivity]).
    apply checked_ok. split; [|reflexivity]. cbn [st_late st_early].
    all_checks; try (rewrite any_neg_false; assumption); lia.
Qed.

Lemma existsb_eqb c l : existsb (Nat.eqb c) l = true <-> In c l.
Proof.
  rewrite existsb_exists. split.
  - intros (x & Hx & E). apply Nat.eqb_eq in E. subst. exact Hx.
  - intros H. exists c. split; [exact H|apply Nat.eqb_refl].
Qed.

Lemma add_clients_spec cs : forall g, NoDup (g_clients g) ->
  (NoDup (g_clients g ++ cs) -> add_clients g cs = Ok (mk_cgroup (g_clients g ++ cs) (g_required g) (g_name g))) /\
  (~ NoDup (g_clients g ++ cs) -> add_clients g cs = Err InvalidArgument).
Proof.
  induction cs as [|c cs IH]; intros g Hg; cbn [add_clients].
  - rewrite app_nil_r. split; [|tauto]. destruct g; reflexivity.
  - unfold add_client. destruct (existsb (Nat.eqb c) (g_clients g)) eqn:E.
    + apply existsb_eqb in E. split; [|reflexivity]. intros H. exfalso.
      apply (NoDup_remove_2 _ _ _ H). apply in_or_app. left. exact E.
    + assert (Hn : ~ In c (g_clients g)) by (rewrite <- existsb_eqb, E; discriminate).
      destruct (IH (mk_cgroup (g_clients g ++ [c]) (g_required g) (g_name g))) as [H1 H2].
      { cbn. apply (Permutation_NoDup (l := c :: g_clients g)); [apply Permutation_cons_append|]. constructor; assumption. }
      cbn [g_clients g_required g_name] in H1, H2. rewrite <- app_assoc in H1, H2. split; assumption.
Qed.
Theorem make_group_spec clients required name g :
  make_group clients required name = Ok g <-> NoDup clients /\ g = mk_cgroup clients required name.
Proof.
  unfold make_group. destruct (add_clients_spec clients (mk_cgroup [] required name) ltac:(constructor)) as [H1 H2].
  cbn [g_clients g_required g_name app] in H1, H2. split.
  - intros H. destruct (ListDec.NoDup_dec Nat.eq_dec clients) as [Hn|Hn].
    + rewrite (H1 Hn) in H. split; [exact Hn|congruence].
    + rewrite (H2 Hn) in H. discriminate.
  - intros [Hn ->]. apply H1. exact Hn.
Qed.

Lemma exceeds_false a b : exceeds a b = false <-> forall dim, (dim < length a)%nat -> dimv a dim <= dimv b dim.
Proof.
  unfold exceeds. split.
  - intros H dim Hd. destruct (Z.le_gt_cases (dimv a dim) (dimv b dim)) as [Hle|Hgt]; [exact Hle|]. exfalso.
    assert (Ht : existsb (fun dim => dimv a dim >? dimv b dim) (seq 0 (length a)) = true); [|congruence].
    apply existsb_exists. exists dim. split; [apply in_seq; lia|lia].
  - intros H. destruct (existsb _ _) eqn:E; [|reflexivity]. apply existsb_exists in E. destruct E as (dim & Hd & E).
    apply in_seq in Hd. specialize (H dim ltac:(lia)). lia.
Qed.

Theorem make_vehicle_spec numAvailable capacity start endd fixedCost early late shift maxDistance unitDistance
    unitDuration profile startLate initial reload maxReloads maxOvertime unitOvertime name v :
  make_vehicle numAvailable capacity start endd fixedCost early late shift maxDistance unitDistance
    unitDuration profile startLate initial reload maxReloads maxOvertime unitOvertime name = Ok v <->
  ((0 < numAvailable)%nat /\ Forall (fun x => 0 <= x) capacity /\ Forall (fun x => 0 <= x) initial /\
   (forall dim, dimv initial dim <= dimv capacity dim) /\
   0 <= early <= or_else startLate late /\ or_else startLate late <= late /\
   0 <= shift /\ 0 <= maxDistance /\ 0 <= unitDistance /\ 0 <= unitDuration /\ 0 <= maxOvertime /\ 0 <= unitOvertime) /\
  v = mk_vehicle numAvailable start endd (pad capacity initial) early late shift maxDistance fixedCost
        unitDistance unitDuration profile (or_else startLate late) (pad initial capacity) reload maxReloads
        maxOvertime unitOvertime (if maxOvertime <? MAXV - shift then shift + maxOvertime else MAXV) name.
Proof.
  unfold make_vehicle. rewrite checked_ok. fold (or_else startLate late).
  assert (E : pad initial (pad capacity initial) = pad initial capacity).
  { unfold pad at 1 3. rewrite pad_length. f_equal. f_equal. lia. }
  rewrite E. set (sl := or_else startLate late).
  assert (Ed : 0 <= shift -> 0 <= maxOvertime ->
    (if (shift >=? 0) && (maxOvertime >=? 0) && (maxOvertime <? MAXV - shift) then shift + maxOvertime else MAXV)
    = (if maxOvertime <? MAXV - shift then shift + maxOvertime else MAXV)).
  { intros H1 H2. destruct (Z.geb_spec shift 0); [|lia]. destruct (Z.geb_spec maxOvertime 0); [|lia]. reflexivity. }
  split.
  - intros [H ->]. checks H. rewrite any_neg_pad, any_neg_false in Hc0, Hc8.
    rewrite exceeds_false in Hc9. rewrite Ed by lia. split; [|reflexivity].
    apply Nat.eqb_neq in Hc.
    split; [lia|]. split; [assumption|]. split; [assumption|]. split.
    { intros dim. destruct (Nat.lt_ge_cases dim (length (pad initial capacity))) as [Hd|Hd].
      - specialize (Hc9 dim Hd). rewrite !pad_nth in Hc9. exact Hc9.
      - rewrite pad_length in Hd. unfold dimv. rewrite !nth_overflow by lia. lia. }
    clear Hc Hc0 Hc8 Hc9. lia.
  - intros ((H1 & H2 & H3 & H4 & H5 & H6 & H7 & H8 & H9 & H10 & H11 & H12) & ->). rewrite Ed by lia.
    split; [|reflexivity]. all_checks; try (rewrite any_neg_pad, any_neg_false; assumption); try lia.
    apply exceeds_false. intros dim _. rewrite !pad_nth. apply H4.
Qed.

(** ** Validation of problem data *)
Record data_ok (d : pdata) : Prop := mk_data_ok {
  do_clients : forall i, (i < p_numClients d)%nat ->
    let c := p_client d i in
    (c_loc c < p_numLocations d)%nat /\
    length (c_delivery c) = p_numLoadDimensions d /\ length (c_pickup c) = p_numLoadDimensions d /\
    forall g, c_group c = Some g ->
      (g < p_numGroups d)%nat /\ In i (g_clients (p_group d g)) /\ c_required c = false;
  do_some_depot : (0 < p_numDepots d)%nat;
  do_depots : forall x, In x (p_depots d) -> (d_loc x < p_numLocations d)%nat;
  do_groups : forall g, (g < p_numGroups d)%nat ->
    g_clients (p_group d g) <> [] /\
    forall i, In i (g_clients (p_group d g)) -> (i < p_numClients d)%nat /\ c_group (p_client d i) = Some g;
  do_shipments : forall s, In s (p_shipments d) ->
    (st_loc (s_pickup s) < p_numLocations d)%nat /\ (st_loc (s_delivery s) < p_numLocations d)%nat /\
    length (s_amount s) = p_numLoadDimensions d;
  do_some_vehicle : (0 < p_numVehicleTypes d)%nat;
  do_vehicles : forall v, In v (p_vehicles d) ->
    length (v_capacity v) = p_numLoadDimensions d /\
    (v_start v < p_numDepots d)%nat /\ (v_end v < p_numDepots d)%nat /\
    (v_profile v < length (p_dists d))%nat /\
    (exists t, d_early (p_depot d (v_start v)) <= t <= d_late (p_depot d (v_start v)) /\ v_early v <= t <= v_late v) /\
    (exists t, d_early (p_depot d (v_end v)) <= t <= d_late (p_depot d (v_end v)) /\ v_early v <= t <= v_late v) /\
    forall r, In r (v_reload v) -> (r < p_numDepots d)%nat;
  do_some_matrix : (0 < length (p_dists d))%nat;
  do_matrix_number : length (p_dists d) = length (p_durs d);
  do_matrices : forall m, In m (p_dists d ++ p_durs d) ->
    m_rows m = p_numLocations d /\ m_cols m = p_numLocations d /\
    forall loc, (loc < p_numLocations d)%nat -> m_at m loc loc = 0 }.

(** The time windows of the arguments are not empty. *)
Definition windows_ok (d : pdata) : Prop :=
  Forall (fun x => d_early x <= d_late x) (p_depots d) /\ Forall (fun v => v_early v <= v_late v) (p_vehicles d).

Lemma overlap_spec x v : d_early x <= d_late x -> v_early v <= v_late v ->
  overlap x v = true <-> exists t, d_early x <= t <= d_late x /\ v_early v <= t <= v_late v.
Proof.
  intros H1 H2. unfold overlap. split.
  - intros H. exists (Z.max (d_early x) (v_early v)). lia.
  - intros (t & H3 & H4). lia.
Qed.

Lemma checks_app (a b : list (bool * exn)) :
  (forall c, In c (a ++ b) -> fst c = false) <->
  (forall c, In c a -> fst c = false) /\ (forall c, In c b -> fst c = false).
Proof.
  split.
  - intros H. split; intros c Hc; apply H; apply in_or_app; auto.
  - intros [H1 H2] c Hc. apply in_app_or in Hc. destruct Hc; auto.
Qed.
Lemma checks_flat {A} (f : A -> list (bool * exn)) l :
  (forall c, In c (flat_map f l) -> fst c = false) <-> forall x, In x l -> forall c, In c (f x) -> fst c = false.
Proof.
  split.
  - intros H x Hx c Hc. apply H. apply in_flat_map. eauto.
  - intros H c Hc. apply in_flat_map in Hc. destruct Hc as (x & Hx & Hc). eapply H; eauto.
Qed.
Lemma checks_map {A} (f : A -> bool * exn) l :
  (forall c, In c (map f l) -> fst c = false) <-> forall x, In x l -> fst (f x) = false.
Proof.
  split.
  - intros H x Hx. apply H. apply in_map. exact Hx.
  - intros H c Hc. apply in_map_iff in Hc. destruct Hc as (x & <- & Hx). auto.
Qed.

Lemma checks_cons x (l : list (bool * exn)) :
  (forall c, In c (x :: l) -> fst c = false) <-> fst x = false /\ (forall c, In c l -> fst c = false).
Proof.
  split.
  - intros H. split; [apply H; left; reflexivity|intros c Hc; apply H; right; exact Hc].
  - intros [H1 H2] c [<-|Hc]; auto.
Qed.
Lemma checks_nil : (forall c : bool * exn, In c [] -> fst c = false) <-> True.
Proof. split; [tauto|intros _ c []]. Qed.

Lemma p_depot_ok d i : windows_ok d -> d_early (p_depot d i) <= d_late (p_depot d i).
Proof.
  intros [H _]. unfold p_depot. apply (Forall_nth_default (fun x => d_early x <= d_late x)); [exact H|].
  pose proof MAXV_pos. cbn. lia.
Qed.

Lemma client_checks_spec d i :
  (forall c, In c (client_checks d i) -> fst c = false) <->
  (let c := p_client d i in
    (c_loc c < p_numLocations d)%nat /\
    length (c_delivery c) = p_numLoadDimensions d /\ length (c_pickup c) = p_numLoadDimensions d /\
    forall g, c_group c = Some g ->
      (g < p_numGroups d)%nat /\ In i (g_clients (p_group d g)) /\ c_required c = false).
Proof.
  unfold client_checks. cbv zeta. rewrite checks_app, !checks_cons, checks_nil. cbn [fst].
  rewrite Nat.leb_gt, !Bool.negb_false_iff, !Nat.eqb_eq.
  destruct (c_group (p_client d i)) as [g|].
  - rewrite !checks_cons, checks_nil. cbn [fst].
    rewrite Nat.leb_gt, !Bool.negb_false_iff, existsb_eqb. unfold g_mutuallyExclusive. rewrite Bool.andb_true_r.
    split.
    + intros ((H1 & H2 & H3 & _) & H4 & H5 & H6 & _). split; [|split; [|split]]; try assumption.
      intros g' Hg. injection Hg as <-. auto.
    + intros (H1 & H2 & H3 & H4). destruct (H4 g eq_refl) as (H5 & H6 & H7). tauto.
  - rewrite checks_nil. split.
    + intros ((H1 & H2 & H3 & _) & _). split; [|split; [|split]]; try assumption; discriminate.
    + intros (H1 & H2 & H3 & H4). tauto.
Qed.

Lemma group_checks_spec d g :
  (forall c, In c (group_checks d g) -> fst c = false) <->
  g_clients (p_group d g) <> [] /\
    forall i, In i (g_clients (p_group d g)) -> (i < p_numClients d)%nat /\ c_group (p_client d i) = Some g.
Proof.
  unfold group_checks. cbv zeta. rewrite checks_cons, checks_flat. cbn [fst].
  assert (E0 : (length (g_clients (p_group d g)) =? 0)%nat = false <-> g_clients (p_group d g) <> []).
  { rewrite Nat.eqb_neq. destruct (g_clients (p_group d g)); cbn; split; congruence. }
  rewrite E0. apply and_iff_compat_l.
  assert (E : forall i, (forall c, In c [((p_numClients d <=? i)%nat, OutOfRange);
        (negb (match c_group (p_client d i) with Some g' => (g' =? g)%nat | None => false end), InvalidArgument)] -> fst c = false)
      <-> (i < p_numClients d)%nat /\ c_group (p_client d i) = Some g).
  { intros i. rewrite !checks_cons, checks_nil. cbn [fst]. rewrite Nat.leb_gt, Bool.negb_false_iff.
    destruct (c_group (p_client d i)) as [g'|].
    - rewrite Nat.eqb_eq. split; [intros (H1 & -> & _); auto|intros (H1 & [= ->]); auto].
    - split; [intros (_ & H & _); discriminate|intros (_ & H); discriminate]. }
  split; intros H i Hi; apply E; apply H; exact Hi.
Qed.

Lemma shipment_checks_spec d s :
  (forall c, In c (shipment_checks d s) -> fst c = false) <->
    (st_loc (s_pickup s) < p_numLocations d)%nat /\ (st_loc (s_delivery s) < p_numLocations d)%nat /\
    length (s_amount s) = p_numLoadDimensions d.
Proof.
  unfold shipment_checks. rewrite !checks_cons, checks_nil. cbn [fst].
  rewrite !Nat.leb_gt, !Bool.negb_false_iff, Nat.eqb_eq. tauto.
Qed.

Lemma vehicle_checks_spec d v : windows_ok d -> v_early v <= v_late v ->
  (forall c, In c (vehicle_checks d v) -> fst c = false) <->
    length (v_capacity v) = p_numLoadDimensions d /\
    (v_start v < p_numDepots d)%nat /\ (v_end v < p_numDepots d)%nat /\
    (v_profile v < length (p_dists d))%nat /\
    (exists t, d_early (p_depot d (v_start v)) <= t <= d_late (p_depot d (v_start v)) /\ v_early v <= t <= v_late v) /\
    (exists t, d_early (p_depot d (v_end v)) <= t <= d_late (p_depot d (v_end v)) /\ v_early v <= t <= v_late v) /\
    forall r, In r (v_reload v) -> (r < p_numDepots d)%nat.
Proof.
  intros Hw Hv. unfold vehicle_checks. rewrite checks_app, !checks_cons, checks_nil, checks_map. cbn [fst].
  rewrite !Nat.leb_gt, !Bool.negb_false_iff, Nat.eqb_eq.
  rewrite !overlap_spec by (try apply p_depot_ok; assumption).
  assert (E : (forall x, In x (v_reload v) -> (p_numDepots d <=? x)%nat = false) <->
              (forall r, In r (v_reload v) -> (r < p_numDepots d)%nat)).
  { split; intros H x Hx; apply Nat.leb_gt; apply H; exact Hx. }
  rewrite E. tauto.
Qed.

Lemma matrix_checks_spec d idx :
  let ok m := m_rows m = p_numLocations d /\ m_cols m = p_numLocations d /\
              forall loc, (loc < p_numLocations d)%nat -> m_at m loc loc = 0 in
  (forall c, In c (matrix_checks d idx) -> fst c = false) <->
  ok (nth idx (p_dists d) dummy_matrix) /\ ok (nth idx (p_durs d) dummy_matrix).
Proof.
  unfold matrix_checks. cbv zeta. rewrite checks_app, !checks_cons, checks_nil, checks_flat. cbn [fst].
  rewrite !Bool.orb_false_iff, !Bool.negb_false_iff, !Nat.eqb_eq.
  set (a := nth idx (p_dists d) dummy_matrix). set (b := nth idx (p_durs d) dummy_matrix).
  assert (E : (forall x, In x (seq 0 (p_numLocations d)) -> forall c,
       In c [(negb (m_at a x x =? 0), InvalidArgument); (negb (m_at b x x =? 0), InvalidArgument)] -> fst c = false)
     <-> (forall loc, (loc < p_numLocations d)%nat -> m_at a loc loc = 0 /\ m_at b loc loc = 0)).
  { split.
    - intros H loc Hl. specialize (H loc ltac:(apply in_seq; lia)).
      rewrite !checks_cons, checks_nil in H. cbn [fst] in H. rewrite !Bool.negb_false_iff, !Z.eqb_eq in H. tauto.
    - intros H x Hx. apply in_seq in Hx. specialize (H x ltac:(lia)).
      rewrite !checks_cons, checks_nil. cbn [fst]. rewrite !Bool.negb_false_iff, !Z.eqb_eq. tauto. }
  rewrite E. split.
  - intros ((H1 & H2 & _) & H3). repeat split; try tauto; intros loc Hl; apply H3; exact Hl.
  - intros ((H1 & H2 & H3) & H4 & H5 & H6). split; [tauto|]. intros loc Hl. split; auto.
Qed.

Theorem data_checks_spec d : windows_ok d ->
  (forall c, In c (data_checks d) -> fst c = false) <-> data_ok d.
Proof.
  intros Hw. unfold data_checks.
  rewrite !checks_app, !checks_cons, checks_nil, !checks_flat, checks_map. cbn [fst].
  split.
  - intros (H1 & (H2 & _) & H3 & H4 & H5 & (H6 & _) & H7 & (H8 & H9 & _) & H10).
    apply Nat.eqb_neq in H2, H6. apply Bool.orb_false_iff in H8. destruct H8 as [H8 _]. apply Nat.eqb_neq in H8.
    apply Bool.negb_false_iff, Nat.eqb_eq in H9.
    assert (Hm : forall idx, (idx < length (p_dists d))%nat -> _) by (intros idx Hi; exact (proj1 (matrix_checks_spec d idx) (H10 idx ltac:(apply in_seq; lia)))).
    constructor; try lia.
    + intros i Hi. apply client_checks_spec. apply H1. apply in_seq. lia.
    + intros x Hx. apply Nat.leb_gt. apply (H3 x Hx).
    + intros g Hg. apply group_checks_spec. apply H4. apply in_seq. lia.
    + intros s Hs. apply shipment_checks_spec. apply H5. exact Hs.
    + intros v Hv. apply vehicle_checks_spec; [exact Hw| |apply H7; exact Hv].
      destruct Hw as [_ Hw]. rewrite Forall_forall in Hw. apply Hw. exact Hv.
    + intros m Hin. apply in_app_or in Hin. destruct Hin as [Hin|Hin];
        destruct (In_nth _ _ dummy_matrix Hin) as (idx & Hi & <-); apply Hm; lia.
  - intros [H1 H2 H3 H4 H5 H6 H7 H8 H9 H10].
    repeat split.
    + intros i Hi. apply in_seq in Hi. apply client_checks_spec. apply H1. lia.
    + apply Nat.eqb_neq. lia.
    + intros x Hx. apply Nat.leb_gt. apply H3. exact Hx.
    + intros g Hg. apply in_seq in Hg. apply group_checks_spec. apply H4. lia.
    + intros s Hs. apply shipment_checks_spec. apply H5. exact Hs.
    + apply Nat.eqb_neq. lia.
    + intros v Hv. apply vehicle_checks_spec; [exact Hw| |apply H7; exact Hv].
      destruct Hw as [_ Hw]. rewrite Forall_forall in Hw. apply Hw. exact Hv.
    + apply Bool.orb_false_iff. split; apply Nat.eqb_neq; lia.
    + apply Bool.negb_false_iff, Nat.eqb_eq. exact H9.
    + intros idx Hi. apply in_seq in Hi. apply matrix_checks_spec. split; apply H10; apply in_or_app; [left|right]; apply nth_In; lia.
Qed.

Theorem make_pdata_spec locations clients depots vehicles dists durs groups shipments :
  let d := mk_pdata locations clients depots vehicles dists durs groups shipments in windows_ok d ->
  (data_ok d -> make_pdata locations clients depots vehicles dists durs groups shipments = Ok d) /\
  (~ data_ok d -> exists e, make_pdata locations clients depots vehicles dists durs groups shipments = Err e).
Proof.
  intros d Hw. unfold make_pdata. fold d. split.
  - intros H. apply checked_ok. split; [apply data_checks_spec; assumption|reflexivity].
  - intros H. destruct (checked_total (data_checks d) d) as [E|E]; [|exact E]. exfalso. apply H.
    apply checked_ok in E. apply data_checks_spec; tauto.
Qed.

(** Objects made by the constructors, with int64 times. *)
Definition client_made (c : client) : Prop := c_late c <= MAXV /\ exists location delivery pickup service early late release prize required group name,
  make_client location delivery pickup service early late release prize required group name = Ok c.
Definition depot_made (x : depot) : Prop := d_late x <= MAXV /\ exists location early late service name,
  make_depot location early late service name = Ok x.
Definition shipment_made (s : shipment) : Prop := st_late (s_pickup s) <= MAXV /\ st_late (s_delivery s) <= MAXV /\
  exists ploc dloc pearly plate pservice dearly dlate dservice amount prize required name,
  make_shipment ploc dloc pearly plate pservice dearly dlate dservice amount prize required name = Ok s.
Definition group_made (g : cgroup) : Prop := exists clients required name, make_group clients required name = Ok g.
Definition vehicle_made (v : vehicle) : Prop := v_late v <= MAXV /\ 
  exists numAvailable capacity start endd fixedCost early late shift maxDistance unitDistance
    unitDuration profile startLate initial reload maxReloads maxOvertime unitOvertime name,
  make_vehicle numAvailable capacity start endd fixedCost early late shift maxDistance unitDistance
    unitDuration profile startLate initial reload maxReloads maxOvertime unitOvertime name = Ok v.

Lemma pad_nonneg a b : Forall (fun x => 0 <= x) a -> Forall (fun x => 0 <= x) (pad a b).
Proof. intros H. apply any_neg_false. rewrite any_neg_pad. apply any_neg_false. exact H. Qed.

Theorem client_valid c : client_made c -> valid_client c /\ length (c_delivery c) = length (c_pickup c).
Proof.
  intros (Hl & location & delivery & pickup & service & early & late & release & prize & required & group & name & H).
  apply make_client_spec in H. destruct H as ((H1 & H2 & H3 & H4 & H5 & H6) & ->). cbn in *. split.
  - constructor; cbn; try lia; apply pad_nonneg; assumption.
  - rewrite !pad_length. lia.
Qed.
Theorem depot_valid x : depot_made x -> valid_depot x.
Proof.
  intros (Hl & location & early & late & service & name & H). apply make_depot_spec in H. destruct H as (H & ->).
  cbn in *. constructor; cbn; lia.
Qed.
Theorem shipment_valid s : shipment_made s -> valid_shipment s /\ st_early (s_pickup s) <= st_late (s_delivery s).
Proof.
  intros (Hl1 & Hl2 & ploc & dloc & pearly & plate & pservice & dearly & dlate & dservice & amount & prize & required & name & H).
  apply make_shipment_spec in H. destruct H as ((H1 & H2 & H3 & H4 & H5 & H6 & H7) & ->). cbn in *. split; [|lia].
  constructor; cbn; try assumption; constructor; cbn; lia.
Qed.
Theorem vehicle_valid v : vehicle_made v -> valid_vehicle v /\ length (v_initialLoad v) = length (v_capacity v).
Proof.
  intros (Hl & numAvailable & capacity & start & endd & fixedCost & early & late & shift & maxDistance & unitDistance &
    unitDuration & profile & startLate & initial & reload & maxReloads & maxOvertime & unitOvertime & name & H).
  apply make_vehicle_spec in H. destruct H as ((H1 & H2 & H3 & H4 & H5 & H6 & H7 & H8 & H9 & H10 & H11 & H12) & ->).
  cbn in Hl. split.
  - constructor; cbn -[Z.ltb MAXV pad dimv]; try lia; try (apply pad_nonneg; assumption); try reflexivity.
    + pose proof MAXV_pos. destruct (maxOvertime <? MAXV - shift); lia.
    + intros dim. rewrite !pad_nth. apply H4.
  - cbn. rewrite !pad_length. lia.
Qed.

(** Everything assumed about valid data elsewhere follows from its construction. *)
Theorem made_data_valid d :
  Forall client_made (p_clients d) -> Forall depot_made (p_depots d) -> Forall shipment_made (p_shipments d) ->
  Forall vehicle_made (p_vehicles d) -> Forall group_made (p_groups d) ->
  make_pdata (p_locations d) (p_clients d) (p_depots d) (p_vehicles d) (p_dists d) (p_durs d) (p_groups d) (p_shipments d) = Ok d ->
  valid_data d /\ data_ok d /\ groups_nodup d /\ groups_known d /\
  Forall (fun v => length (v_initialLoad v) = p_numLoadDimensions d) (p_vehicles d).
Proof.
  intros Hc Hd Hs Hv Hg Hm.
  assert (Va : valid_data d).
  { constructor.
    - eapply Forall_impl; [|exact Hc]. intros c H. apply (client_valid c H).
    - eapply Forall_impl; [|exact Hd]. exact depot_valid.
    - eapply Forall_impl; [|exact Hs]. intros c H. apply (shipment_valid c H).
    - eapply Forall_impl; [|exact Hv]. intros c H. apply (vehicle_valid c H). }
  assert (Hw : windows_ok d).
  { split; [eapply Forall_impl; [|apply (va_depots _ Va)]|eapply Forall_impl; [|apply (va_vehicles _ Va)]]; intros x []; lia. }
  unfold make_pdata in Hm. apply checked_ok in Hm. destruct Hm as [Hm _].
  replace (mk_pdata _ _ _ _ _ _ _ _) with d in Hm by (destruct d; reflexivity).
  apply data_checks_spec in Hm; [|exact Hw]. pose proof Hm as Hok.
  split; [exact Va|]. split; [exact Hm|]. split; [|split].
  - eapply Forall_impl; [|exact Hg]. intros g (cs & rq & nm & H). apply make_group_spec in H. destruct H as [H ->]. exact H.
  - apply Forall_forall. intros g Hin. destruct (In_nth _ _ dummy_group Hin) as (i & Hi & <-).
    apply Forall_forall. intros c Hc'. apply (do_groups d Hok i Hi). exact Hc'.
  - apply Forall_forall. intros v Hin. rewrite Forall_forall in Hv. destruct (vehicle_valid v (Hv v Hin)) as [_ ->].
    apply (do_vehicles d Hok v Hin).
Qed.

(** ** replace *)
Theorem replace_pdata_spec d l c x v di du g s d' :
  replace_pdata d l c x v di du g s = Ok d' ->
  p_locations d' = or_else l (p_locations d) /\ p_clients d' = or_else c (p_clients d) /\
  p_depots d' = or_else x (p_depots d) /\ p_vehicles d' = or_else v (p_vehicles d) /\
  p_dists d' = or_else di (p_dists d) /\ p_durs d' = or_else du (p_durs d) /\
  p_groups d' = or_else g (p_groups d) /\ p_shipments d' = or_else s (p_shipments d).
Proof. unfold replace_pdata, make_pdata. intros H. apply checked_ok in H. destruct H as [_ ->]. cbn. auto 10. Qed.

Theorem replace_pdata_id locations clients depots vehicles dists durs groups shipments d :
  make_pdata locations clients depots vehicles dists durs groups shipments = Ok d ->
  replace_pdata d None None None None None None None None = Ok d.
Proof.
  intros H. unfold replace_pdata, make_pdata in *. apply checked_ok in H. destruct H as [H ->]. cbn.
  apply checked_ok. auto.
Qed.

Lemma vehicle_remake v : vehicle_made v ->
  make_vehicle (v_numAvailable v) (v_capacity v) (v_start v) (v_end v) (v_fixedCost v) (v_early v) (v_late v)
    (v_shift v) (v_maxDistance v) (v_unitDistance v) (v_unitDuration v) (v_profile v) (Some (v_startLate v))
    (v_initialLoad v) (v_reload v) (v_maxReloads v) (v_maxOvertime v) (v_unitOvertime v) (v_name v) = Ok v.
Proof.
  intros H. destruct (vehicle_valid v H) as [[] Hl]. apply make_vehicle_spec. cbn [or_else]. split.
  - split; [assumption|]. split; [assumption|]. split; [assumption|]. split; [assumption|]. lia.
  - rewrite !pad_id by lia. rewrite <- vv_maxDuration_def. destruct v; reflexivity.
Qed.

Theorem replace_vehicle_id v : vehicle_made v ->
  replace_vehicle v None None None None None None None None None None None None None None None None None None None = Ok v.
Proof. intros H. unfold replace_vehicle. cbn [or_else]. apply vehicle_remake. exact H. Qed.

Theorem replace_vehicle_spec v n cap s e f te tl sh md ud ut p sl il r mr mo uo nm v' :
  replace_vehicle v n cap s e f te tl sh md ud ut p sl il r mr mo uo nm = Ok v' ->
  v_numAvailable v' = or_else n (v_numAvailable v) /\
  v_start v' = or_else s (v_start v) /\ v_end v' = or_else e (v_end v) /\
  v_fixedCost v' = or_else f (v_fixedCost v) /\ v_early v' = or_else te (v_early v) /\
  v_late v' = or_else tl (v_late v) /\ v_shift v' = or_else sh (v_shift v) /\
  v_maxDistance v' = or_else md (v_maxDistance v) /\ v_unitDistance v' = or_else ud (v_unitDistance v) /\
  v_unitDuration v' = or_else ut (v_unitDuration v) /\ v_profile v' = or_else p (v_profile v) /\
  v_startLate v' = or_else sl (v_startLate v) /\ v_reload v' = or_else r (v_reload v) /\
  v_maxReloads v' = or_else mr (v_maxReloads v) /\ v_maxOvertime v' = or_else mo (v_maxOvertime v) /\
  v_unitOvertime v' = or_else uo (v_unitOvertime v) /\ v_name v' = or_else nm (v_name v) /\
  (forall dim, dimv (v_capacity v') dim = dimv (or_else cap (v_capacity v)) dim) /\
  (forall dim, dimv (v_initialLoad v') dim = dimv (or_else il (v_initialLoad v)) dim).
Proof.
  unfold replace_vehicle. intros H. apply make_vehicle_spec in H. destruct H as [_ ->].
  cbn -[dimv or_else pad Z.ltb]. repeat (split; [reflexivity|]). split; intros dim; apply pad_nth.
Qed.
