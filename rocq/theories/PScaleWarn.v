(** Property theorems C71: the warnings about large distances and durations. *)
From Coq Require Import String.
From Verif Require Import Base Data DataCtor ModelPy ModelSpec ModelHist MatrixFacts Read ReadSpec ReadData ReadVeh ReadMat FileSize ScaleWarn PRead.
Import ListNotations.
Local Open Scope Z_scope.
Notation length := List.length.

(** If none of the calls that made a model warned, then its data have no distance or duration above MAX_VALUE, whatever is
    asked for missing edges. *)
Theorem C71_silent : forall ops m missing d, after ops m -> model_data m missing = Ok d ->
  (forall o, In o ops -> call_warns o = false) ->
  forall p i j, (p < length (p_dists d))%nat -> (i < p_numLocations d)%nat -> (j < p_numLocations d)%nat ->
    p_dist d p i j <= MAX_VALUE /\ p_dur d p i j <= MAX_VALUE.
Proof.
  intros ops m missing d Ha Hd Hw p i j Hp Hi Hj.
  destruct (model_data_edges m missing d (model_of_calls _ _ Ha) Hd) as [Hn _]. rewrite Hn in Hp.
  assert (En : p_numLocations d = length (mo_locations m)).
  { unfold model_data in Hd. cbv zeta in Hd. apply ModelPy.bind_ok in Hd as (? & _ & Hd). apply ModelPy.bind_ok in Hd as (? & _ & Hd).
    unfold make_pdata in Hd. apply (proj1 (DataCtor.checked_ok _ _ _)) in Hd; destruct Hd as [_ Hd]; subst d. unfold p_numLocations. cbn [p_locations]. apply map_length. }
  rewrite En in Hi, Hj. pose proof (large_entry_warned ops m missing d Ha Hd p i j Hp Hi Hj) as L.
  destruct (Z_lt_dec MAX_VALUE (p_dist d p i j)) as [H|H1]; [|destruct (Z_lt_dec MAX_VALUE (p_dur d p i j)) as [H|H2]; [|lia]].
  - destruct (L (or_introl H)) as (dist & dur & prof & Hin & W). rewrite (Hw _ Hin) in W. discriminate.
  - destruct (L (or_intror H)) as (dist & dur & prof & Hin & W). rewrite (Hw _ Hin) in W. discriminate.
Qed.
Print Assumptions C71_silent.

(** A large entry is from a call that warned and was about the same two locations. *)
Theorem C71_cause : forall ops m missing d, after ops m -> model_data m missing = Ok d ->
  forall p i j, (p < num_profiles m)%nat -> (i < length (mo_locations m))%nat -> (j < length (mo_locations m))%nat ->
  MAX_VALUE < p_dist d p i j \/ MAX_VALUE < p_dur d p i j ->
  exists dist dur prof, In (AddEdge (id_at m i) (id_at m j) dist dur prof) ops /\ call_warns (AddEdge (id_at m i) (id_at m j) dist dur prof) = true.
Proof. exact large_entry_warned. Qed.
Print Assumptions C71_cause.

(** add_edge warns if one of its values is above MAX_VALUE, and no other call warns.  If it is the only edge between two
    locations, and for all profiles, then the data hold these values, in every profile. *)
Theorem C71_calls : forall o, call_warns o = true <->
  exists frm to dist dur prof, o = AddEdge frm to dist dur prof /\ (MAX_VALUE < dist \/ MAX_VALUE < dur).
Proof.
  intros o. split.
  - intros H. destruct o; try discriminate. apply edge_warns_spec in H. repeat eexists. exact H.
  - intros (frm & to & dist & dur & prof & -> & H). apply edge_warns_spec. exact H.
Qed.
Print Assumptions C71_calls.
Theorem C71_stored : forall ops m missing d, after ops m -> model_data m missing = Ok d ->
  forall i j dist dur, (i < length (mo_locations m))%nat -> (j < length (mo_locations m))%nat ->
  In (AddEdge (id_at m i) (id_at m j) dist dur None) ops ->
  (forall dist' dur' prof, In (AddEdge (id_at m i) (id_at m j) dist' dur' prof) ops -> dist' = dist /\ dur' = dur) ->
  forall p, (p < num_profiles m)%nat -> p_dist d p i j = dist /\ p_dur d p i j = dur.
Proof. exact warned_in_data. Qed.
Print Assumptions C71_stored.

(** A warning does not go away: an edge that replaces the large one leaves data without large values. *)
Definition sw_ops : list op :=
  [ AddLocation 7 (mk_location 0 0 EmptyString); AddLocation 9 (mk_location 3 4 EmptyString); AddDepot 1 7 0 100 0 EmptyString;
    AddVehicle 2 [10] None None 0 0 100 MAXV MAXV 1 0 None None [] [] 0 0 0 EmptyString;
    AddEdge 7 9 (MAX_VALUE + 1) 8 None; AddEdge 7 9 3 MAX_VALUE None ].
Definition sw_run (ops : list op) : res pymodel := fold_left (fun m o => bind m (fun m => step m o)) ops (Ok empty_model).
Lemma sw_after ops : forall m, sw_run ops = Ok m ->
  (forall pre o post m, ops = pre ++ o :: post -> sw_run pre = Ok m -> fresh m o /\ int64_late o) -> after ops m.
Proof.
  induction ops as [|o ops IH] using rev_ind; intros m E Hf; [injection E as <-; constructor|].
  unfold sw_run in *. rewrite fold_left_app in E. cbn [fold_left] in E. destruct (fold_left _ ops (Ok empty_model)) as [m1|] eqn:E1; [|discriminate]. cbn [bind] in E.
  destruct (Hf ops o [] m1 eq_refl E1) as [F1 F2]. apply (af_call _ m1); try assumption. apply IH; [reflexivity|].
  intros pre o' post m2 Ep. apply (Hf pre o' (post ++ [o]) m2). rewrite Ep, <- app_assoc. reflexivity.
Qed.
Theorem C71_replaced_refuted : exists ops m d, after ops m /\ model_data m MAX_VALUE = Ok d /\ existsb call_warns ops = true /\
  forall p i j, (p < 1)%nat -> (i < 2)%nat -> (j < 2)%nat -> p_dist d p i j <= MAX_VALUE /\ p_dur d p i j <= MAX_VALUE.
Proof.
  exists sw_ops. eexists. eexists. split; [|split; [|split]].
  - apply sw_after; [vm_compute; reflexivity|]. intros pre o post m Ep Er.
    do 6 (destruct pre as [|? pre]; [injection Ep as <- _; vm_compute in Er; injection Er as <-; cbn; split; try tauto; try (vm_compute; congruence); lia|
      injection Ep as <- Ep]). destruct pre; discriminate.
  - vm_compute. reflexivity.
  - reflexivity.
  - intros p i j Hp Hi Hj. destruct p; [|lia]. destruct i as [|[|]], j as [|[|]]; try lia; split; discriminate.
Qed.
Print Assumptions C71_replaced_refuted.

(** from_data makes an edge of every entry: it warns exactly if an entry is above MAX_VALUE. *)
Theorem C71_from_data : forall d, In true (from_data_warns d) <->
  exists p i j, (p < length (p_dists d))%nat /\ (i < p_numLocations d)%nat /\ (j < p_numLocations d)%nat /\ (MAX_VALUE < p_dist d p i j \/ MAX_VALUE < p_dur d p i j).
Proof. exact from_data_warns_iff. Qed.
Print Assumptions C71_from_data.

(** read() warns exactly if a distance of the data that it returns is above MAX_VALUE; durations are the distances. *)
Theorem C71_read : forall Num zero rf (inst : instance Num) d, read Num zero rf inst = Ok d -> edge_array Num inst ->
  (read_warns Num rf inst = true <->
   exists p i j, (p < length (p_dists d))%nat /\ (i < p_numLocations d)%nat /\ (j < p_numLocations d)%nat /\ MAX_VALUE < p_dist d p i j) /\
  p_durs d = p_dists d.
Proof.
  intros Num zero rf inst d H Ha. split; [exact (read_warns_iff Num zero rf inst d H Ha)|].
  destruct (read_inv Num zero rf inst d H) as [P _]. exact (pt_durs _ _ _ _ d P).
Qed.
Print Assumptions C71_read.

(** In terms of the file: a warning needs an edge weight that is, rounded, above MAX_VALUE (so disallowed clients and
    backhauls alone give none), and such a weight gives one if some vehicle can use the edge. *)
Theorem C71_read_needs : forall Num zero rf (inst : instance Num) d, read Num zero rf inst = Ok d -> edge_array Num inst ->
  read_warns Num rf inst = true -> exists i j, MAX_VALUE < file_edge Num rf inst i j.
Proof.
  intros Num zero rf inst d H Ha W. apply (read_warns_iff Num zero rf inst d H Ha) in W as (p & i & j & _ & _ & _ & L).
  pose proof (read_entries Num zero rf inst d H (fun z => MAX_VALUE < z -> exists i j, MAX_VALUE < file_edge Num rf inst i j)) as En.
  refine (proj1 (En _ _ _ p i j) L).
  - discriminate.
  - intros a b Hab. exists a, b. exact Hab.
  - intros _ Hm. exfalso. exact (Z.lt_irrefl _ Hm).
Qed.
Print Assumptions C71_read_needs.
Theorem C71_read_suffices : forall Num zero rf (inst : instance Num) d v t i j, read Num zero rf inst = Ok d -> edge_array Num inst ->
  file_sized Num inst -> allowed_proper Num inst -> belongs d v t ->
  (i < in_dimension inst)%nat -> (j < in_dimension inst)%nat -> i <> j ->
  may_visit Num inst v i -> may_visit Num inst v j -> ~ backward Num rf inst i j ->
  MAX_VALUE < file_edge Num rf inst i j -> read_warns Num rf inst = true.
Proof.
  intros Num zero rf inst d v t i j H Ha Hs Hp Hb Hi Hj Hij Vi Vj Hback L.
  destruct (C51_matrices Num zero rf inst d v t H Hs Hp Hb) as [En HE]. destruct (HE i j Hi Hj) as (_ & _ & E & _). cbv zeta in E.
  apply (read_warns_iff Num zero rf inst d H Ha). exists (v_profile (p_vehicle d t)), i, j. rewrite (E Hij Vi Vj Hback). repeat split; try lia.
  destruct (read_inv Num zero rf inst d H) as [_ D]. apply (do_vehicles d D (p_vehicle d t)). apply nth_In. exact (proj1 Hb).
Qed.
Print Assumptions C71_read_suffices.

(** A file with clients that not every vehicle may visit, for which entries are MAX_VALUE: no warning.  With one larger
    weight on a usable edge there is one. *)
Definition sw_file (w : Z) : instance Z :=
  small "CVRP" 4 1 3 (Some [[0; 7; 7; 7]; [7; 0; w; 7]; [7; 7; 0; 7]; [7; 7; 7; 0]]) None (Some [[0]; [3]; [4]; [5]]) (Some [[2; 3; 4]; [2; 3]; [2; 3]])
    (Some [[1]; [2]; [3; 4]]) None.
Example C71_case : edge_array Z ex_file /\ read_warns Z ident ex_file = false /\ p_dist ex_data 1 0 3 = MAX_VALUE /\
  (exists d, read Z 0 ident (sw_file (MAX_VALUE + 1)) = Ok d /\ belongs d 1 1) /\ edge_array Z (sw_file (MAX_VALUE + 1)) /\
  may_visit Z (sw_file (MAX_VALUE + 1)) 1 1 /\ may_visit Z (sw_file (MAX_VALUE + 1)) 1 2 /\ ~ backward Z ident (sw_file (MAX_VALUE + 1)) 1 2 /\
  read_warns Z ident (sw_file (MAX_VALUE + 1)) = true /\ read_warns Z ident (sw_file MAX_VALUE) = false.
Proof.
  split; [reflexivity|]. split; [vm_compute; reflexivity|]. split; [vm_compute; reflexivity|]. split.
  { eexists. split; [vm_compute; reflexivity|]. split; [vm_compute; lia|]. eexists. split; [vm_compute; reflexivity|]. left. reflexivity. }
  split; [reflexivity|]. split; [vm_compute; tauto|]. split; [vm_compute; tauto|]. split; [intros [E _]; discriminate|].
  split; vm_compute; reflexivity.
Qed.
(** The tests of the warnings, tests/test_Model.py:442-464 and tests/test_read.py:169-177 (tests/data/ReallyLargeDistance.txt). *)
Example test_data_warns_about_scaling_issues :
  map (fun x => call_warns (AddEdge 2 1 x 0 None)) [1; 10; 100; 1000; 10000; 100000; MAX_VALUE] = repeat false 7 /\
  call_warns (AddEdge 1 2 (MAX_VALUE + 1) 0 None) = true /\ call_warns (AddEdge 1 2 0 (MAX_VALUE + 1) None) = true.
Proof. vm_compute. repeat split; reflexivity. Qed.
Definition really_large (x : Z) : instance Z :=
  small "CVRP" 5 1 3 (Some [[0; 1544; 1944; 1931; x]; [1726; 0; 1992; 1427; 1593]; [1965; 1975; 0; 621; 1090]; [2063; 1433; 647; 0; 818]; [1475; 1594; 1090; 828; 0]])
    None (Some [[0]; [5]; [5]; [3]; [5]]) None None None.
Example test_warns_about_scaling_issues : (exists d, read Z 0 ident (really_large 10000000000000000) = Ok d) /\
  read_warns Z ident (really_large 10000000000000000) = true /\ read_warns Z ident (really_large 1090) = false.
Proof. split; [eexists; vm_compute; reflexivity|]. split; vm_compute; reflexivity. Qed.
