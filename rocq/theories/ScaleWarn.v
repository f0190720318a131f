(** The warnings about large values of pyvrp/Model.py (lines 53-58) and pyvrp/read.py (lines 563-568), which ModelPy.v and
    Read.v leave out. *)
From Coq Require Import String.
From Verif Require Import Base Data DataCtor ModelPy ModelSpec ModelHist MatrixFacts Read ReadSpec ReadFacts ReadData ReadMat FileSize.
Local Open Scope Z_scope.
Local Open Scope list_scope.

(** Model.py:53-58; the constructor has already refused negative values and self loops. *)
Definition edge_warns (dist dur : Z) : bool := MAX_VALUE <? Z.max dist dur.
(** Model.py:386-418: of the methods that add something, only add_edge makes an edge. *)
Definition call_warns (o : op) : bool := match o with AddEdge _ _ dist dur _ => edge_warns dist dur | _ => false end.
(** Model.py:187-201: from_data makes an edge for every entry, in the order of the profiles. *)
Definition from_data_warns (d : pdata) : list bool :=
  flat_map (fun p => map (fun ft => edge_warns (p_dist d p (fst ft) (snd ft)) (p_dur d p (fst ft) (snd ft))) (pairs (p_numLocations d)))
    (seq 0 (length (p_dists d))).
(** read.py:563-568, where dist.max() is that of numpy. *)
Definition large_matrices (ms : list matrix) : bool := existsb (fun m => MAX_VALUE <? m_max m) ms.
Definition read_warns (Num : Type) (rf : Num -> Z) (inst : instance Num) : bool :=
  match read_matrices Num rf inst with Ok ms => large_matrices ms | Err _ => false end.

(** ** Models *)
Lemma edge_warns_spec dist dur : edge_warns dist dur = true <-> MAX_VALUE < dist \/ MAX_VALUE < dur.
Proof. unfold edge_warns. rewrite Z.ltb_lt. lia. Qed.

(** An edge of the model is from a call. *)
Lemma edge_call ops m : after ops m -> forall e, In e (all_edges m) -> exists prof, In (AddEdge (e_frm e) (e_to e) (e_dist e) (e_dur e) prof) ops.
Proof.
  induction 1 as [|ops m o m' H IH Hf Hi Hs]; intros e He; [destruct He|].
  assert (G : In e (all_edges m) \/ exists prof, o = AddEdge (e_frm e) (e_to e) (e_dist e) (e_dur e) prof).
  { clear - He Hs. destruct m as [locs clients depots edges groups shipments profiles vehicles]. unfold all_edges in *. cbn [mo_edges mo_profiles] in *.
    destruct o; cbn [step] in Hs; repeat (apply bind_ok in Hs as (? & ? & Hs)).
    - injection Hs as <-. left. exact He.
    - injection Hs as <-. left. exact He.
    - injection Hs as <-. left. cbn [mo_edges mo_profiles] in He. rewrite flat_map_app in He. cbn in He. rewrite app_nil_r in He. exact He.
    - destruct (_ && _)%bool; [discriminate|]. repeat (apply bind_ok in Hs as (? & ? & Hs)). destruct x; [apply bind_ok in Hs as (? & ? & Hs)|]; injection Hs as <-; left; exact He.
    - injection Hs as <-. left. exact He.
    - injection Hs as <-. left. exact He.
    - apply make_edge_spec in H as [_ ->]. destruct profile as [p|]; injection Hs as <-; cbn [mo_edges mo_profiles] in He.
      + apply in_app_or in He as [He|He]; [left; apply in_or_app; left; exact He|]. apply in_flat_map in He as (pr & Hpr & He). unfold add_to_profile in Hpr.
        apply in_map_iff in Hpr as (q & Eq & Hq). destruct (fst q =? p)%nat; subst pr; cbn [snd] in He.
        * apply in_app_or in He as [He|[<-|[]]]; [left; apply in_or_app; right; apply in_flat_map; exists q; tauto|right; exists (Some p); reflexivity].
        * left. apply in_or_app; right; apply in_flat_map; exists q; tauto.
      + rewrite <- app_assoc in He. apply in_app_or in He as [He|[<-|He]]; [left; apply in_or_app; tauto|right; exists None; reflexivity|left; apply in_or_app; tauto].
    - injection Hs as <-. left. exact He. }
  destruct G as [G|[prof ->]].
  - destruct (IH e G) as [prof Hp]. exists prof. apply in_or_app. left. exact Hp.
  - exists prof. apply in_or_app. right. left. reflexivity.
Qed.
Lemma applicable_in m p e : In e (applicable_edges m p) -> In e (all_edges m).
Proof. apply applicable_all. Qed.

(** A large entry of the data is the value of a call that warned, between the same locations. *)
Theorem large_entry_warned ops m missing d : after ops m -> model_data m missing = Ok d ->
  forall p i j, (p < num_profiles m)%nat -> (i < length (mo_locations m))%nat -> (j < length (mo_locations m))%nat ->
  MAX_VALUE < p_dist d p i j \/ MAX_VALUE < p_dur d p i j ->
  exists dist dur prof, In (AddEdge (id_at m i) (id_at m j) dist dur prof) ops /\ call_warns (AddEdge (id_at m i) (id_at m j) dist dur prof) = true.
Proof.
  intros Ha Hd p i j Hp Hi Hj HL. destruct (model_data_edges m missing d (model_of_calls _ _ Ha) Hd) as [_ HE].
  destruct (HE p i j Hp Hi Hj) as [E1 E2]. cbv zeta in E1, E2.
  assert (Hfill : (if (i =? j)%nat then 0 else Z.min missing MAX_VALUE) <= MAX_VALUE) by (unfold MAX_VALUE; destruct (i =? j)%nat; lia).
  assert (G : forall f, MAX_VALUE < last_or f (applicable_edges m p) (id_at m i) (id_at m j) (if (i =? j)%nat then 0 else Z.min missing MAX_VALUE) ->
    exists e, In e (applicable_edges m p) /\ e_frm e = id_at m i /\ e_to e = id_at m j /\ MAX_VALUE < f e).
  { intros f. apply last_or_all; [intros H; lia|]. apply Forall_forall. intros e He A B H. exists e. tauto. }
  assert (K : exists e, In e (applicable_edges m p) /\ e_frm e = id_at m i /\ e_to e = id_at m j /\ (MAX_VALUE < e_dist e \/ MAX_VALUE < e_dur e)).
  { destruct HL as [HL|HL]; [rewrite E1 in HL|rewrite E2 in HL]; destruct (G _ HL) as (e & A & B & C & D); exists e; tauto. }
  destruct K as (e & He & Ef & Et & HM). destruct (edge_call _ _ Ha e (applicable_in m p e He)) as [prof Hin].
  rewrite Ef, Et in Hin. exists (e_dist e), (e_dur e), prof. split; [exact Hin|]. apply edge_warns_spec. exact HM.
Qed.

(** An edge added for all profiles stays. *)
Lemma base_edge_kept ops m : after ops m -> forall frm to dist dur, In (AddEdge frm to dist dur None) ops -> In (mk_edge frm to dist dur) (mo_edges m).
Proof.
  induction 1 as [|ops m o m' H IH Hf Hi Hs]; intros frm to dist dur Hin; [destruct Hin|].
  assert (K : In (mk_edge frm to dist dur) (mo_edges m) \/ o = AddEdge frm to dist dur None).
  { apply in_app_or in Hin as [Hin|[Hin|[]]]; [left; apply IH, Hin|right; exact Hin]. }
  clear - K Hs. destruct m as [locs clients depots edges groups shipments profiles vehicles]. cbn [mo_edges] in K.
  destruct o; cbn [step] in Hs; repeat (apply bind_ok in Hs as (? & ? & Hs)).
  7: { apply make_edge_spec in H as [_ ->]. destruct profile as [p|]; injection Hs as <-; cbn [mo_edges].
    - destruct K as [K|K]; [exact K|discriminate].
    - apply in_or_app. destruct K as [K|K]; [left; exact K|right; injection K as -> -> -> ->; left; reflexivity]. }
  all: destruct K as [K|K]; [|discriminate].
  4: { destruct (_ && _)%bool; [discriminate|]. repeat (apply bind_ok in Hs as (? & ? & Hs)). destruct x; [apply bind_ok in Hs as (? & ? & Hs)|]; injection Hs as <-; exact K. }
  all: injection Hs as <-; exact K.
Qed.
Lemma last_const (f : edge -> Z) x es a b dft : (exists e, In e es /\ e_frm e = a /\ e_to e = b) ->
  (forall e, In e es -> e_frm e = a -> e_to e = b -> f e = x) -> last_or f es a b dft = x.
Proof.
  revert dft. induction es as [|e es IH]; intros dft (e0 & Hin & A & B) Hall; [destruct Hin|]. rewrite last_or_cons.
  destruct Hin as [->|Hin].
  - rewrite A, B, !Nat.eqb_refl. cbn [andb]. rewrite (Hall e0 (or_introl eq_refl) A B). apply last_or_all with (P := fun y => y = x); [reflexivity|].
    apply Forall_forall. intros e He. apply Hall. right. exact He.
  - apply IH; [exists e0; tauto|]. intros e1 H1. apply Hall. right. exact H1.
Qed.
(** The values of the only edge between two locations are in the data. *)
Theorem warned_in_data ops m missing d : after ops m -> model_data m missing = Ok d ->
  forall i j dist dur, (i < length (mo_locations m))%nat -> (j < length (mo_locations m))%nat ->
  In (AddEdge (id_at m i) (id_at m j) dist dur None) ops ->
  (forall dist' dur' prof, In (AddEdge (id_at m i) (id_at m j) dist' dur' prof) ops -> dist' = dist /\ dur' = dur) ->
  forall p, (p < num_profiles m)%nat -> p_dist d p i j = dist /\ p_dur d p i j = dur.
Proof.
  intros Ha Hd i j dist dur Hi Hj Hin Hall p Hp. destruct (model_data_edges m missing d (model_of_calls _ _ Ha) Hd) as [_ HE].
  destruct (HE p i j Hp Hi Hj) as [E1 E2]. cbv zeta in E1, E2. rewrite E1, E2.
  assert (G : exists e, In e (applicable_edges m p) /\ e_frm e = id_at m i /\ e_to e = id_at m j).
  { eexists. split; [apply in_or_app; left; apply (base_edge_kept _ _ Ha _ _ _ _ Hin)|]. split; reflexivity. }
  assert (K : forall e, In e (applicable_edges m p) -> e_frm e = id_at m i -> e_to e = id_at m j -> e_dist e = dist /\ e_dur e = dur).
  { intros e He A B. destruct (edge_call _ _ Ha e (applicable_in m p e He)) as [prof H]. rewrite A, B in H. apply (Hall _ _ _ H). }
  split; (apply last_const; [exact G|]); intros e He A B; apply (K e He A B).
Qed.

(** ** from_data *)
Lemma in_pairs' n i j : In (i, j) (pairs n) <-> (i < n /\ j < n)%nat.
Proof.
  unfold pairs. rewrite in_flat_map. split.
  - intros (a & Ha & H). apply in_map_iff in H as (b & E & Hb). injection E as <- <-. apply in_seq in Ha, Hb. lia.
  - intros [Hi Hj]. exists i. split; [apply in_seq; lia|]. apply in_map_iff. exists j. split; [reflexivity|apply in_seq; lia].
Qed.
Theorem from_data_warns_iff d : In true (from_data_warns d) <->
  exists p i j, (p < length (p_dists d))%nat /\ (i < p_numLocations d)%nat /\ (j < p_numLocations d)%nat /\ (MAX_VALUE < p_dist d p i j \/ MAX_VALUE < p_dur d p i j).
Proof.
  unfold from_data_warns. rewrite in_flat_map. split.
  - intros (p & Hp & H). apply in_map_iff in H as ([i j] & E & H). apply in_pairs' in H. apply in_seq in Hp. cbn [fst snd] in E.
    apply edge_warns_spec in E. exists p, i, j. repeat split; try lia; exact E.
  - intros (p & i & j & Hp & Hi & Hj & H). exists p. split; [apply in_seq; lia|]. apply in_map_iff. exists (i, j). split; [apply edge_warns_spec, H|apply in_pairs'; lia].
Qed.

(** ** Files *)
Section Files.
Variable Num : Type.
Variable zero : Num.
Variable rf : Num -> Z.
Variable inst : instance Num.
(** The edge weights are an array of some shape. *)
Definition edge_array : Prop := let '(rows, cols, l) := in_edge inst in length l = (rows * cols)%nat.

Lemma m_tab_ok rows cols f : m_ok (m_tab rows cols f).
Proof.
  unfold m_ok, m_tab. cbn [m_rows m_cols m_data]. generalize 0%nat at 2. induction rows as [|r IH]; intros k; [cbn; lia|]. cbn [seq flat_map].
  rewrite app_length, map_length, seq_length, IH. nia.
Qed.
Lemma read_matrices_arrays ms : edge_array -> read_matrices Num rf inst = Ok ms -> Forall m_ok ms.
Proof.
  intros Ha H. unfold read_matrices in H. apply bind_ok in H as (base & Hb & H). apply mapM_ok in H.
  assert (Ob : m_ok base).
  { unfold vrpb_distances in Hb. cbv zeta in Hb. destruct (String.eqb _ _).
    - apply bind_ok in Hb as (? & _ & Hb). apply bind_ok in Hb as (? & _ & Hb). injection Hb as <-. apply m_tab_ok.
    - injection Hb as <-. unfold edge_array in Ha. unfold edge_weight, m_ok. destruct (in_edge inst) as [[rows cols] l]. cbn [m_rows m_cols m_data]. rewrite map_length. lia. }
  induction H as [|r m l l' Hr H IH]; constructor; [|exact IH]. unfold profile_matrix in Hr. destruct (_ =? _); [injection Hr as <-; exact Ob|].
  cbv zeta in Hr. apply bind_ok in Hr as (? & _ & Hr). destruct (_ && _)%bool; [|discriminate]. injection Hr as <-. apply m_tab_ok.
Qed.

Theorem read_warns_iff d : read Num zero rf inst = Ok d -> edge_array ->
  read_warns Num rf inst = true <->
  exists p i j, (p < length (p_dists d))%nat /\ (i < p_numLocations d)%nat /\ (j < p_numLocations d)%nat /\ MAX_VALUE < p_dist d p i j.
Proof.
  intros H Ha. destruct (read_inv Num zero rf inst d H) as [P D]. pose proof (pt_dists _ _ _ _ d P) as Hm.
  pose proof (read_matrices_arrays _ Ha Hm) as Ok. rewrite Forall_forall in Ok.
  assert (Npos : (0 < p_numLocations d)%nat).
  { pose proof (do_some_depot d D) as H0. assert (Hin : In (nth 0 (p_depots d) dummy_depot) (p_depots d)) by (apply nth_In; exact H0).
    pose proof (do_depots d D _ Hin). lia. }
  assert (Sq : forall m, In m (p_dists d) -> m_rows m = p_numLocations d /\ m_cols m = p_numLocations d).
  { intros m Hin. destruct (do_matrices d D m) as (A & B & _); [apply in_or_app; left; exact Hin|]. tauto. }
  unfold read_warns, large_matrices. rewrite Hm, existsb_exists. split.
  - intros (m & Hin & L). apply Z.ltb_lt in L. destruct (Sq m Hin) as [A B]. destruct (matrix_max m (Ok m Hin) ltac:(lia) ltac:(lia)) as [_ (i & j & Hi & Hj & E)].
    destruct (In_nth _ _ dummy_matrix Hin) as (p & Hp & En). exists p, i, j. unfold p_dist. rewrite En, E. repeat split; try lia; assumption.
  - intros (p & i & j & Hp & Hi & Hj & L). pose proof (nth_In (p_dists d) dummy_matrix Hp) as Hin. eexists. split; [exact Hin|].
    destruct (Sq _ Hin) as [A B]. destruct (matrix_max _ (Ok _ Hin) ltac:(lia) ltac:(lia)) as [M _]. apply Z.ltb_lt. specialize (M i j ltac:(lia) ltac:(lia)).
    unfold p_dist in L. lia.
Qed.
End Files.
