(** read() returns the data that the file describes. *)
From Coq Require Import Ascii.
From Coq Require Import String List Permutation.
From Verif Require Import Base DurationSegment Data DataCtor MatrixFacts ModelPy ActivityText StatsCsv LoadSegment SearchRoute Route RouteSpec
  Cost Solution SolutionFacts Read ReadFacts ReadSpec ReadSol.
Import ListNotations.
Local Open Scope Z_scope.
Notation length := List.length.

Section Inst.
Variable Num : Type.
Variable zero : Num.
Variable rf : Num -> Z.
Variable inst : instance Num.
Notation read := (read Num zero rf inst).

Lemma depots_num : num_depots Num inst = file_depots Num inst.
Proof. unfold num_depots, depot_idcs, file_depots. destruct (in_depot inst); reflexivity. Qed.
Lemma clients_num : Z.to_nat (num_clients Num inst) = file_clients Num inst.
Proof.
  clear zero rf.
  unfold num_clients, num_shipments, num_locations, file_clients. rewrite depots_num. destruct (in_pd inst); lia.
Qed.
Lemma vehicles_num : num_vehicles Num inst = file_vehicles Num inst.
Proof. unfold num_vehicles, file_vehicles. destruct (in_vehicles inst); [reflexivity|apply clients_num]. Qed.
Lemma spec_value {A} (s : spec A) v dft : spec_at s v dft = value_at s v dft.
Proof. reflexivity. Qed.

(** ** The parts *)
Record parts (d : pdata) : Prop := mk_parts {
  pt_clients : read_clients Num zero rf inst = Ok (p_clients d);
  pt_depots : read_depots Num inst = Ok (p_depots d);
  pt_vehicles : read_vehicles Num zero rf inst = Ok (p_vehicles d);
  pt_dists : read_matrices Num rf inst = Ok (p_dists d);
  pt_durs : p_durs d = p_dists d;
  pt_groups : read_groups Num inst = Ok (p_groups d);
  pt_shipments : read_shipments Num rf inst = Ok (p_shipments d);
  pt_locations : p_locations d = read_locations Num rf inst }.
Lemma depots_read depots : read_depots Num inst = Ok depots -> (0 < file_depots Num inst)%nat /\
  depot_idcs Num inst = map Z.of_nat (seq 0 (file_depots Num inst)) /\ length depots = file_depots Num inst /\
  forall i, (i < file_depots Num inst)%nat -> nth i depots dummy_depot = mk_depot i 0 MAXV 0 EmptyString.
Proof.
  clear zero rf. unfold read_depots. rewrite depots_num. destruct (Nat.eqb_spec (file_depots Num inst) 0) as [E|E]; cbn [orb]; [discriminate|].
  destruct (zlist_eqb _ _) eqn:Ez; cbn [negb]; [|discriminate]. apply zlist_eqb_eq in Ez. intros H.
  split; [lia|]. split; [exact Ez|]. pose proof (mapM_length _ _ _ H) as Hl. rewrite seq_length in Hl. split; [exact Hl|].
  intros i Hi. pose proof (mapM_nth _ _ _ i 0%nat dummy_depot H ltac:(rewrite seq_length; exact Hi)) as Hn.
  apply make_depot_spec in Hn as [_ ->]. rewrite seq_nth by exact Hi. reflexivity.
Qed.
Lemma vehicles_window vehicles : read_vehicles Num zero rf inst = Ok vehicles -> Forall (fun v => v_early v <= v_late v) vehicles.
Proof.
  unfold read_vehicles. intros H. apply bind_ok in H as (keys & _ & H). apply mapM_ok in H. induction H as [|[k vs] v l l' Hv H IH]; constructor; [|exact IH].
  unfold read_vehicle in Hv. repeat (apply bind_ok in Hv as (? & _ & Hv)). apply make_vehicle_spec in Hv as [Hc ->]. cbn [v_early v_late or_else] in *. lia.
Qed.
Lemma read_inv d : read = Ok d -> parts d /\ data_ok d.
Proof.
  unfold Read.read. intros H. apply bind_ok in H as (clients & H1 & H). apply bind_ok in H as (depots & H2 & H). apply bind_ok in H as (vehicles & H3 & H).
  apply bind_ok in H as (dists & H4 & H). apply bind_ok in H as (groups & H5 & H). apply bind_ok in H as (shipments & H6 & H).
  assert (E : d = mk_pdata (read_locations Num rf inst) clients depots vehicles dists dists groups shipments).
  { unfold make_pdata in H. apply checked_ok in H as [_ <-]. reflexivity. }
  assert (W : windows_ok (mk_pdata (read_locations Num rf inst) clients depots vehicles dists dists groups shipments)).
  { split; cbn [p_depots p_vehicles]; [|exact (vehicles_window _ H3)].
    destruct (depots_read _ H2) as (_ & _ & Hl & Hn). apply Forall_forall. intros x Hx. apply (In_nth _ _ dummy_depot) in Hx as (i & Hi & <-).
    rewrite Hn by lia. cbn. unfold MAXV. lia. }
  destruct (make_pdata_spec (read_locations Num rf inst) clients depots vehicles dists dists groups shipments W) as [_ Hno]. rewrite <- E in Hno.
  split; [subst d; constructor; assumption || reflexivity|].
  (* the data is valid, or the constructor would have refused it *)
  unfold make_pdata in H. apply checked_ok in H as [Hc _]. rewrite <- E in Hc, W. apply (data_checks_spec d W). exact Hc.
Qed.

(** ** Clients *)
Lemma to_nat_map (l : list Z) : Forall (fun i => 0 <= i) l -> map Z.of_nat (map Z.to_nat l) = l.
Proof. induction 1 as [|i l Hi Hl IH]; [reflexivity|]. cbn. rewrite IH, Z2Nat.id by exact Hi. reflexivity. Qed.
Lemma get_map {A B} (f : A -> B) l i x a : get (map f l) i = Ok x -> x = f (nth i l a).
Proof.
  intros H. apply (get_ok _ _ _ (f a)) in H as [Hi ->]. rewrite map_length in Hi. rewrite (nth_map f l i a) by exact Hi. reflexivity.
Qed.
Lemma get_repeat {A} (x y : A) n i : get (repeat x n) i = Ok y -> y = x.
Proof. intros H. apply (get_ok _ _ _ x) in H as [Hi ->]. rewrite repeat_length in Hi. apply nth_repeat_lt, Hi. Qed.
Lemma get_rows (rows : option (list (list Num))) n i x : get (match rows with Some rows => map (map rf) rows | None => repeat [0] n end) i = Ok x ->
  forall dim, dimv x dim = file_amount Num rf rows i dim.
Proof.
  intros H dim. unfold file_amount. destruct rows as [rows|].
  - apply get_map with (a := []) in H. subst x. reflexivity.
  - apply get_repeat in H. subst x. unfold dimv. destruct dim as [|[|dim]]; reflexivity.
Qed.
Lemma get_window i w : get (time_windows Num rf inst) i = Ok w -> w = file_window Num zero rf inst i.
Proof.
  unfold time_windows, file_window. destruct (in_pd inst) as [rows|].
  - intros H. apply get_map with (a := dummy_row Num zero) in H. exact H.
  - destruct (in_window inst) as [l|]; intros H.
    + apply get_map with (a := (zero, zero)) in H. exact H.
    + apply get_repeat in H. exact H.
Qed.
Lemma read_client_is groups release loc c : release_times Num zero rf inst = Ok release -> (num_depots Num inst <= loc)%nat ->
  read_client Num zero rf inst groups release loc = Ok c ->
  client_is Num zero rf inst loc c /\ nth_error groups (loc - num_depots Num inst) = Some (c_group c).
Proof.
  intros Hr Hloc H. unfold read_client in H.
  apply bind_ok in H as (delivery & H1 & H). apply bind_ok in H as (pickup & H2 & H). apply bind_ok in H as (service & H3 & H).
  apply bind_ok in H as (w & H4 & H). apply bind_ok in H as (rel & H5 & H). apply bind_ok in H as (prize & H6 & H). apply bind_ok in H as (group & H7 & H).
  apply make_client_spec in H as [_ ->].
  assert (Ep : prize = file_prize Num zero rf inst loc).
  { unfold prizes, file_prize in *. destruct (in_prize inst); [apply get_map with (a := zero) in H6; exact H6|apply get_repeat in H6; exact H6]. }
  split; [|cbn [c_group]; unfold get in H7; destruct (nth_error _ _); [injection H7 as <-; reflexivity|discriminate]].
  constructor; cbn [c_loc c_delivery c_pickup c_service c_early c_late c_release c_prize c_required c_group].
  - reflexivity.
  - intros dim. rewrite pad_nth. exact (get_rows _ _ _ _ H1 dim).
  - intros dim. rewrite pad_nth. exact (get_rows _ _ _ _ H2 dim).
  - unfold service_times in H3. destruct (in_service inst) as [[x|l]|].
    + apply get_map with (a := zero) in H3. subst service. f_equal. rewrite app_nth2; rewrite repeat_length; [|lia].
      pose proof H1 as H1'. apply get_ok with (dft := []) in H5 as [H5 _] || idtac.
      destruct (Nat.lt_ge_cases loc (num_locations Num inst)) as [Hl|Hl]; [apply nth_repeat_lt; lia|].
      (* the release times have one entry per location *)
      exfalso. unfold release_times, rounded in Hr. apply bind_ok in Hr as (rs & Hr & [= <-]). apply broadcast_ok in Hr as (_ & Hr & _).
      apply (get_ok _ _ _ 0) in H5 as [H5 _]. rewrite map_length in H5. lia.
    + apply get_map with (a := zero) in H3. exact H3.
    + apply get_map with (a := zero) in H3. subst service. f_equal.
      destruct (Nat.lt_ge_cases loc (Nat.min (num_depots Num inst) (num_locations Num inst))).
      * rewrite app_nth1 by (rewrite repeat_length; assumption). apply nth_repeat_lt; assumption.
      * rewrite app_nth2 by (rewrite repeat_length; assumption). rewrite repeat_length.
        destruct (Nat.lt_ge_cases (loc - Nat.min (num_depots Num inst) (num_locations Num inst)) (num_locations Num inst - num_depots Num inst)) as [Hl|Hl];
          [apply nth_repeat_lt, Hl|]. apply nth_overflow. rewrite repeat_length. exact Hl.
  - rewrite <- surjective_pairing. apply get_window, H4.
  - unfold release_times, rounded in Hr. apply bind_ok in Hr as (rs & Hr & [= <-]). apply broadcast_ok in Hr as (_ & Hl & Hn).
    pose proof (proj1 (get_ok _ _ _ 0) H5) as [Hi _]. rewrite map_length, Hl in Hi.
    apply get_map with (a := zero) in H5. subst rel. rewrite (Hn loc zero Hi). destruct (in_release inst); reflexivity.
  - exact Ep.
  - rewrite Bool.andb_true_iff, Z.eqb_eq, Ep. destruct group; intuition congruence.
Qed.

Lemma assign_length members : forall g l l', assign_group g members l = Ok l' -> length l' = length l.
Proof.
  induction members as [|c more IH]; intros g l l' H; cbn [assign_group] in H; [injection H as <-; reflexivity|].
  apply bind_ok in H as (i & _ & H). apply IH in H. rewrite upd_length in H. exact H.
Qed.
Lemma assigns_length groups : forall g l l', assign_groups g groups l = Ok l' -> length l' = length l.
Proof.
  induction groups as [|m more IH]; intros g l l' H; cbn [assign_groups] in H; [injection H as <-; reflexivity|].
  apply bind_ok in H as (l1 & H1 & H). apply assign_length in H1. apply IH in H. congruence.
Qed.
Lemma clients_read d : read = Ok d -> p_numClients d = file_clients Num inst /\
  forall i, (i < p_numClients d)%nat -> client_is Num zero rf inst (file_depots Num inst + i) (p_client d i).
Proof.
  intros H. destruct (read_inv d H) as [P _]. pose proof (pt_clients d P) as Hc. unfold read_clients in Hc. cbv zeta in Hc.
  apply bind_ok in Hc as (groups & Hg & Hc). apply bind_ok in Hc as (release & Hr & Hc).
  pose proof (mapM_length _ _ _ Hc) as Hl. rewrite seq_length, clients_num in Hl. split; [exact Hl|].
  intros i Hi. unfold p_numClients in Hi. rewrite Hl in Hi.
  pose proof (mapM_nth _ _ _ i 0%nat dummy_client Hc ltac:(rewrite seq_length, clients_num; exact Hi)) as Hn.
  rewrite seq_nth in Hn by (rewrite clients_num; exact Hi). rewrite depots_num in Hn.
  apply (read_client_is groups release _ _ Hr) in Hn; [exact (proj1 Hn)|rewrite depots_num; lia].
Qed.

(** ** Groups *)
Definition file_groups : list (list Z) := match in_groups inst with None => [] | Some rows => filter (fun row => (1 <? length row)%nat) rows end.
Lemma filter_map_comm {A B} (f : A -> B) (p : B -> bool) l : filter p (map f l) = map f (filter (fun x => p (f x)) l).
Proof. induction l as [|x l IH]; [reflexivity|]. cbn. destruct (p (f x)); cbn; congruence. Qed.
Lemma exclusive_file : exclusive_groups Num inst = map (map (fun i => i - Z.of_nat (file_depots Num inst) - 1)) file_groups.
Proof.
  unfold exclusive_groups, file_groups. destruct (in_groups inst) as [rows|]; [|reflexivity]. rewrite filter_map_comm, depots_num. f_equal.
  apply filter_ext. intros row. rewrite map_length. reflexivity.
Qed.
Lemma groups_read d : read = Ok d -> p_numGroups d = length file_groups /\
  (forall g, (g < p_numGroups d)%nat -> g_required (p_group d g) = true /\
     map (fun i => Z.of_nat (file_depots Num inst + i) + 1) (g_clients (p_group d g)) = nth g file_groups []) /\
  (forall i g, (i < p_numClients d)%nat -> c_group (p_client d i) = Some g <-> (g < p_numGroups d)%nat /\ In i (g_clients (p_group d g))) /\
  groups_nodup d /\ groups_known d.
Proof.
  intros H. destruct (read_inv d H) as [P D]. pose proof (pt_groups d P) as Hg. unfold read_groups in Hg.
  pose proof (mapM_length _ _ _ Hg) as Hl. rewrite exclusive_file, map_length in Hl. split; [exact Hl|].
  assert (G : forall g, (g < p_numGroups d)%nat -> exists cs, Forall (fun i => 0 <= i) (map (fun i => i - Z.of_nat (file_depots Num inst) - 1) (nth g file_groups [])) /\
    cs = map Z.to_nat (map (fun i => i - Z.of_nat (file_depots Num inst) - 1) (nth g file_groups [])) /\ NoDup cs /\ p_group d g = mk_cgroup cs true EmptyString).
  { intros g Hgl. unfold p_numGroups in Hgl. rewrite Hl in Hgl. pose proof (mapM_nth _ _ _ g [] dummy_group Hg) as Hn. rewrite exclusive_file, map_length in Hn. specialize (Hn Hgl).
    rewrite (nth_map _ file_groups g [] []) in Hn by exact Hgl. apply bind_ok in Hn as (cs & Hcs & Hn). apply mapM_to_size in Hcs as [Hpos Ecs].
    apply make_group_spec in Hn as [Hnd Eg]. exists cs. auto. }
  split; [|split; [|split]].
  - intros g Hgl. destruct (G g Hgl) as (cs & Hpos & -> & Hnd & ->). cbn [g_required g_clients]. split; [reflexivity|].
    rewrite !map_map. rewrite <- (map_id (nth g file_groups [])) at 2. apply map_ext_in. intros i Hi. rewrite Forall_forall in Hpos.
    specialize (Hpos (i - Z.of_nat (file_depots Num inst) - 1) ltac:(apply in_map_iff; eauto)). lia.
  - intros i g Hi. split.
    + intros E. destruct (do_clients d D i Hi) as (_ & _ & _ & Hgr). destruct (Hgr g E) as (? & ? & _). auto.
    + intros [Hgl Hin]. apply (do_groups d D g Hgl), Hin.
  - apply Forall_forall. intros x Hx. apply (In_nth _ _ dummy_group) in Hx as (g & Hgl & <-). destruct (G g Hgl) as (cs & _ & _ & Hnd & Eg).
    unfold p_group in Eg. rewrite Eg. exact Hnd.
  - apply Forall_forall. intros x Hx. apply (In_nth _ _ dummy_group) in Hx as (g & Hgl & <-). apply Forall_forall. intros i Hi.
    apply (do_groups d D g Hgl). exact Hi.
Qed.
End Inst.
