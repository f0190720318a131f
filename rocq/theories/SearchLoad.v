(** Model of loading a solution into the search and unloading it: pyvrp/cpp/search/Solution.cpp:117-235. *)
From Coq Require Import Permutation.
From Verif Require Import Base DurationSegment Data LoadSegment SearchRoute Valid Route RouteSpec RouteFacts2 RouteFacts3
  Cost CostFacts Solution SolutionFacts SolutionFacts2 SolutionFacts3 SearchSpace SearchNodes SearchSeq.
Local Open Scope nat_scope.

(** search/Solution.cpp:150-156: one route per available vehicle, ordered by vehicle type.  The list gives
    the vehicle type of every route. *)
Definition avail (d : pdata) (t : nat) : nat := v_numAvailable (p_vehicle d t).
Definition fleet (d : pdata) : list nat :=
  flat_map (fun t => repeat t (avail d t)) (seq 0 (p_numVehicleTypes d)).
Definition fleet_vehicles (d : pdata) : list vehicle := map (p_vehicle d) (fleet d).

(** search/Solution.cpp:139-157: the constructor. *)
Definition new_search (d : pdata) : heap := new_heap (fleet_vehicles d).

(** The activities of a route, [None] if a node pointer dangles. *)
Fixpoint deref (s : heap) (r : nat) (ps : list ptr) : option (list activity) :=
  match ps with
  | [] => Some []
  | p :: more =>
      match get s r p, deref s r more with
      | Some n, Some l => Some (n_act n :: l)
      | _, _ => None
      end
  end.

(** search/Solution.cpp:117-136: comparison of a search route with a route of a solution. *)
Definition same_route (d : pdata) (s : heap) (r : nat) (sr : route) : option bool :=
  let x := sroute_at s r in
  let c := update d (sr_veh x) (sr_synced x) in
  if ((r_distance sr =? ca_distance c) && (r_duration sr =? ca_duration c)
      && (r_timeWarp sr =? ca_timeWarp c))%Z
     && (r_vehicleType sr =? nth r (fleet d) 0) && (length (r_schedule sr) =? length (sr_nodes x))
  then
    match deref s r (sr_nodes x) with
    | Some l => Some (list_eqb a_eqb l (map sa_act (r_schedule sr)))
    | None => None
    end
  else Some false.

(** search/Solution.cpp:186-197: pushing the activities at the back. *)
Fixpoint push_acts (s : heap) (r : nat) (acts : list activity) : option (heap * bool) :=
  match acts with
  | [] => Some (s, false)
  | a :: more =>
      match route_insert s r (length (sr_nodes (sroute_at s r)) - 1) a with
      | Some (s', false) => push_acts s' r more
      | other => other
      end
  end.

(** search/Solution.cpp:169-198: one route of the solution goes to search route [r]. *)
Definition load_route (d : pdata) (s : heap) (r : nat) (sr : route) : option (heap * bool) :=
  if length (hp_routes s) <=? r then None
  else
    match same_route d s r sr with
    | None => None
    | Some true => Some (s, false)
    | Some false =>
        match route_clear s r with
        | None => None
        | Some s =>
            match push_acts s r (r_acts sr) with
            | Some (s, false) => Some (route_update s r, false)
            | other => other
            end
        end
    end.
Fixpoint load_routes (d : pdata) (offs : list nat) (s : heap) (routes : list route) : option (heap * list nat * bool) :=
  match routes with
  | [] => Some (s, offs, false)
  | sr :: more =>
      match nth_error offs (r_vehicleType sr) with
      | None => None
      | Some r =>
          let offs := upd offs (r_vehicleType sr) (S r) in
          match load_route d s r sr with
          | Some (s, false) => load_routes d offs s more
          | Some (s, true) => Some (s, offs, true)
          | None => None
          end
      end
  end.

(** search/Solution.cpp:161-167: offsets of the vehicle types. *)
Fixpoint offset (av : nat -> nat) (t : nat) : nat :=
  match t with O => O | S t' => offset av t' + av t' end.
Definition offsets (d : pdata) : list nat := map (offset (avail d)) (seq 0 (p_numVehicleTypes d)).

(** search/Solution.cpp:202-211: clearing what was not used. *)
Fixpoint clear_range (s : heap) (from count : nat) : option heap :=
  match count with
  | O => Some s
  | S count' =>
      if length (hp_routes s) <=? from then None
      else match route_clear s from with
           | Some s' => clear_range s' (S from) count'
           | None => None
           end
  end.
Fixpoint clear_rest (d : pdata) (offs : list nat) (s : heap) (ts : list nat) : option heap :=
  match ts with
  | [] => Some s
  | t :: more =>
      let last := offset (avail d) (S t) in
      let from := nth t offs 0 in
      if last <? from then None
      else match clear_range s from (last - from) with
           | Some s' => clear_rest d offs s' more
           | None => None
           end
  end.

(** search/Solution.cpp:159-212: load; the routes of the solution suffice. *)
Definition load (d : pdata) (s : heap) (routes : list route) : option (heap * bool) :=
  match load_routes d (offsets d) s routes with
  | None => None
  | Some (s, _, true) => Some (s, true)
  | Some (s, offs, false) =>
      match clear_rest d offs s (seq 0 (p_numVehicleTypes d)) with
      | Some s' => Some (s', false)
      | None => None
      end
  end.

(** search/Solution.cpp:214-235: unload. *)
Fixpoint unload_routes (d : pdata) (s : heap) (rs : list nat) : res (list route) :=
  match rs with
  | [] => Ok []
  | r :: more =>
      if ca_empty (update d (sr_veh (sroute_at s r)) (sr_synced (sroute_at s r))) then unload_routes d s more
      else
        match make_route d (mid_of s r) (nth r (fleet d) 0) with
        | Err e => Err e
        | Ok x => match unload_routes d s more with Ok l => Ok (x :: l) | Err e => Err e end
        end
  end.
Definition unload (d : pdata) (s : heap) : res solution :=
  match unload_routes d s (seq 0 (length (hp_routes s))) with
  | Ok routes => make_solution d routes
  | Err e => Err e
  end.

(** ** Specification *)
Definition of_type (t : nat) (routes : list route) : list route := filter (fun r => r_vehicleType r =? t) routes.
Definition sched_acts (r : route) : list activity := map sa_act (r_schedule r).
Definition empty_acts (d : pdata) (t : nat) : list activity :=
  [ADepot (v_start (p_vehicle d t)); ADepot (v_end (p_vehicle d t))].
(** What the search routes hold: for each vehicle type its routes in order, then empty routes. *)
Definition target (d : pdata) (routes : list route) : list (list activity) :=
  flat_map (fun t => map sched_acts (of_type t routes)
                     ++ repeat (empty_acts d t) (avail d t - length (of_type t routes)))
           (seq 0 (p_numVehicleTypes d)).
(** A search state: any plan, with statistics in sync. *)
Record ready (d : pdata) (s : heap) (pl : list (list activity)) : Prop := mk_ready {
  rd_fine : fine (fleet_vehicles d) s pl;
  rd_synced : forall r, r < length pl -> sr_synced (sroute_at s r) = mid_of s r }.
Definition by_type (d : pdata) (routes : list route) : list route :=
  flat_map (fun t => of_type t routes) (seq 0 (p_numVehicleTypes d)).

(** ** Slots *)
Lemma offset_mono av a b : a <= b -> offset av a <= offset av b.
Proof. induction 1; cbn; lia. Qed.
Lemma offset_lt av t n k : t < n -> k < av t -> offset av t + k < offset av n.
Proof. intros H1 H2. pose proof (offset_mono av (S t) n H1). cbn in H. lia. Qed.
Lemma offset_inj av t t' k k' : k < av t -> k' < av t' -> offset av t + k = offset av t' + k' -> t = t' /\ k = k'.
Proof.
  intros H1 H2 E. destruct (Nat.lt_trichotomy t t') as [L|[->|L]]; [|lia|].
  - pose proof (offset_mono av (S t) t' L). cbn in H. lia.
  - pose proof (offset_mono av (S t') t L). cbn in H. lia.
Qed.
Lemma slot_of av n : forall r, r < offset av n -> exists t k, t < n /\ k < av t /\ r = offset av t + k.
Proof.
  induction n as [|n IH]; intros r H; cbn in H; [lia|].
  destruct (Nat.lt_ge_cases r (offset av n)) as [L|L].
  - destruct (IH r L) as (t & k & H1 & H2 & H3). exists t, k. split; [lia|auto].
  - exists n, (r - offset av n). split; [lia|]. split; lia.
Qed.
Lemma flat_len {A} (f : nat -> list A) av n : (forall t, t < n -> length (f t) = av t) ->
  length (flat_map f (seq 0 n)) = offset av n.
Proof.
  induction n as [|n IH]; intros H; [reflexivity|]. rewrite seq_S, flat_map_app, app_length. cbn.
  rewrite IH by auto. rewrite app_nil_r, H by lia. reflexivity.
Qed.
Lemma flat_nth {A} (f : nat -> list A) av n t k : (forall t, t < n -> length (f t) = av t) -> t < n -> k < av t ->
  nth_error (flat_map f (seq 0 n)) (offset av t + k) = nth_error (f t) k.
Proof.
  induction n as [|n IH]; intros H Ht Hk; [lia|]. rewrite seq_S, flat_map_app. cbn [Nat.add flat_map]. rewrite app_nil_r.
  pose proof (flat_len f av n ltac:(auto)) as HL. destruct (Nat.eq_dec t n) as [->|Hne].
  - rewrite nth_error_app2 by lia. f_equal. lia.
  - rewrite nth_error_app1 by (rewrite HL; apply offset_lt; lia). apply IH; auto; lia.
Qed.

Lemma fleet_len d : length (fleet d) = offset (avail d) (p_numVehicleTypes d).
Proof. apply flat_len. intros. apply repeat_length. Qed.
Lemma fleet_nth d t k : t < p_numVehicleTypes d -> k < avail d t -> nth (offset (avail d) t + k) (fleet d) 0 = t.
Proof.
  intros Ht Hk. apply nth_error_nth. unfold fleet. rewrite (flat_nth _ (avail d)); [|intros; apply repeat_length|assumption..].
  rewrite nth_error_repeat by assumption. reflexivity.
Qed.
Lemma fleet_veh d t k : t < p_numVehicleTypes d -> k < avail d t ->
  nth (offset (avail d) t + k) (fleet_vehicles d) dummy_vehicle = p_vehicle d t.
Proof.
  intros Ht Hk. unfold fleet_vehicles. apply nth_error_nth. rewrite nth_error_map.
  rewrite (nth_error_nth' (fleet d) 0) by (rewrite fleet_len; apply offset_lt; assumption).
  rewrite fleet_nth by assumption. reflexivity.
Qed.
Lemma target_len d routes : (forall t, t < p_numVehicleTypes d -> length (of_type t routes) <= avail d t) ->
  forall t, t < p_numVehicleTypes d ->
  length (map sched_acts (of_type t routes) ++ repeat (empty_acts d t) (avail d t - length (of_type t routes))) = avail d t.
Proof. intros H t Ht. rewrite app_length, map_length, repeat_length. specialize (H t Ht). lia. Qed.
Lemma target_nth d routes t k : (forall t, t < p_numVehicleTypes d -> length (of_type t routes) <= avail d t) ->
  t < p_numVehicleTypes d -> k < avail d t ->
  nth (offset (avail d) t + k) (target d routes) [] =
  match nth_error (of_type t routes) k with Some sr => sched_acts sr | None => empty_acts d t end.
Proof.
  intros H Ht Hk. apply nth_error_nth. unfold target. rewrite (flat_nth _ (avail d)); [|apply target_len; assumption|assumption..].
  destruct (Nat.lt_ge_cases k (length (of_type t routes))) as [L|L].
  - rewrite nth_error_app1 by (rewrite map_length; assumption). rewrite nth_error_map.
    destruct (nth_error (of_type t routes) k) eqn:E; [reflexivity|]. apply nth_error_None in E. lia.
  - rewrite nth_error_app2 by (rewrite map_length; assumption). rewrite map_length, nth_error_repeat by lia.
    rewrite (proj2 (nth_error_None _ _) L). reflexivity.
Qed.

(** ** Dereferencing *)
Lemma deref_ok s r ps : (forall p, In p ps -> exists n, get s r p = Some n) -> deref s r ps = Some (map (p_act s r) ps).
Proof.
  induction ps as [|p ps IH]; intros H; [reflexivity|]. cbn [deref map]. unfold p_act at 1.
  destruct (H p (or_introl eq_refl)) as [n Hn]. rewrite Hn, IH by (intros q Hq; apply H; right; assumption). reflexivity.
Qed.
Lemma ok_gets s r : route_ok s r -> forall p, In p (sr_nodes (sroute_at s r)) -> exists n, get s r p = Some n.
Proof.
  intros Hok p Hp. apply In_nth_error in Hp as [i Hi]. pose proof (ok_nodes s r Hok i p Hi) as H. destruct p as [a|b k]; [cbn; eauto|].
  destruct H as (-> & n & Hn & _). cbn. rewrite Nat.eqb_refl. eauto.
Qed.
Lemma acts_eqb_eq l : forall l', list_eqb a_eqb l l' = true <-> l = l'.
Proof.
  induction l as [|x l IH]; intros [|y l']; cbn; split; intros H; try discriminate; try reflexivity.
  - apply andb_prop in H as [H1 H2]. apply a_eqb_eq in H1. apply IH in H2. congruence.
  - injection H as <- <-. rewrite a_eqb_refl. apply IH. reflexivity.
Qed.

(** ** Pushing *)
Lemma edited_trans s s1 s2 r l1 l2 : edited s s1 r l1 -> edited s1 s2 r l2 -> edited s s2 r l2.
Proof.
  intros [A1 A2 A3 A4 A5 A6] [B1 B2 B3 B4 B5 B6]. constructor; try assumption; try congruence.
  intros r' H. rewrite B3, A3 by assumption. reflexivity.
Qed.
Definition visits (l : list activity) : list activity := filter (fun a => negb (a_isDepot a)) l.
Lemma insert_at_end {A} (l : list A) x e : insert_at (length (l ++ [e]) - 1) x (l ++ [e]) = (l ++ [x]) ++ [e].
Proof.
  unfold insert_at. rewrite app_length. cbn [length]. replace (length l + 1 - 1) with (length l) by lia.
  rewrite firstn_app, skipn_app, firstn_all, skipn_all, Nat.sub_diag. cbn. rewrite app_nil_r, <- app_assoc. reflexivity.
Qed.
Lemma in_acts_PV s r a : heap_ok s -> In (PV a) (sr_nodes (sroute_at s r)) -> In a (acts s r).
Proof. intros Hs H. apply in_map_iff. exists (PV a). split; [cbn; apply (hk_acts s Hs)|assumption]. Qed.
Lemma in_PV_acts s r a : heap_ok s -> r < length (hp_routes s) -> a_isDepot a = false -> In a (acts s r) -> In (PV a) (sr_nodes (sroute_at s r)).
Proof.
  intros Hs Hr Hd H. apply in_map_iff in H as (p & E & Hp). destruct p as [c|b k].
  - cbn in E. rewrite (hk_acts s Hs) in E. subst c. assumption.
  - exfalso. pose proof (hk_routes s Hs r Hr) as Hok. destruct (ok_gets s r Hok _ Hp) as [n Hn]. unfold p_act in E. rewrite Hn in E.
    cbn [get] in Hn. destruct (b =? _); [|discriminate]. destruct (ok_depots s r Hok k n Hn) as (_ & _ & Hd' & _). congruence.
Qed.

Lemma push_spec r : forall l s A0 pre E0, heap_ok s -> r < length (hp_routes s) -> strict s r ->
  acts s r = (A0 :: pre) ++ [E0] ->
  NoDup (visits l) -> (forall a, In a (visits l) -> ~ In a (acts s r)) ->
  (Z.of_nat (length (sr_depots (sroute_at s r)) - 1 + num_reloads l) <= v_maxTrips (sr_veh (sroute_at s r)))%Z ->
  exists s', push_acts s r l = Some (s', false) /\ edited s s' r ((A0 :: pre ++ l) ++ [E0]) /\
    (forall c, ~ In c l -> ~ In (PV c) (sr_nodes (sroute_at s r)) -> hp_visits s' c = hp_visits s c).
Proof.
  induction l as [|a l IH]; intros s A0 pre E0 Hs Hr Hstr Ha Hnd Hnew Hmax; cbn [push_acts].
  - exists s. split; [reflexivity|]. rewrite app_nil_r. split; [|auto]. constructor; auto.
    apply ok_good; auto. apply (hk_routes s Hs); assumption.
  - assert (HlenN : length (sr_nodes (sroute_at s r)) = length (acts s r)) by (unfold acts; rewrite map_length; reflexivity).
    assert (Hl2 : 2 <= length (acts s r)) by (rewrite Ha, app_length; cbn; lia).
    assert (Hi0 : 0 < length (sr_nodes (sroute_at s r)) - 1) by lia.
    assert (Hi1 : length (sr_nodes (sroute_at s r)) - 1 < length (sr_nodes (sroute_at s r))) by lia.
    assert (Hins : insert_at (length (sr_nodes (sroute_at s r)) - 1) a (acts s r) = (A0 :: pre ++ [a]) ++ [E0]).
    { rewrite HlenN, Ha, insert_at_end. reflexivity. }
    assert (Hl2' : 2 <= length (sr_depots (sroute_at s r))).
    { pose proof (f_equal (@length _) (ok_ends s r (hk_routes s Hs r Hr))) as H. rewrite map_length, firstn_length in H. cbn [length] in H. lia. }
    destruct (a_isDepot a) eqn:Da.
    + destruct a as [dk| | |]; try discriminate.
      unfold num_reloads in Hmax. cbn [filter a_isDepot length] in Hmax. fold (num_reloads l) in Hmax.
      destruct (insert_depot s r _ dk Hs Hr Hstr ltac:(lia) Hi0 Hi1) as (s1 & E & Ed & Hdl & _ & Hiff & Hvis).
      rewrite E. rewrite Hins in Ed. pose proof Ed as [F1 F2 F3 F4 F5 F6].
      destruct (IH s1 A0 (pre ++ [ADepot dk]) E0) as (s' & E' & Ed' & Hvis').
      * assumption.
      * lia.
      * apply good_strict; assumption.
      * rewrite F5. reflexivity.
      * exact Hnd.
      * intros c Hc. rewrite F5. specialize (Hnew c Hc). rewrite Ha in Hnew. intros Hin. apply Hnew.
        apply in_app_or in Hin as [[<-|Hin]|Hin]; [left; reflexivity| |apply in_or_app; right; exact Hin].
        apply in_app_or in Hin as [Hin|[E2|[]]]; [apply in_or_app; left; right; exact Hin|].
        subst c. apply filter_In in Hc as [_ Hc]. discriminate.
      * rewrite Hdl, F6. lia.
      * exists s'. split; [exact E'|]. split.
        -- eapply edited_trans; [exact Ed|]. rewrite <- app_assoc in Ed'. exact Ed'.
        -- intros c Hc Hc'. rewrite Hvis'; [|intros H; apply Hc; right; exact H|intros H; apply Hc'; apply Hiff; exact H].
           apply Hvis. intros H. apply Hc', Hiff. exact H.
    + assert (HVa : visits (a :: l) = a :: visits l) by (unfold visits; cbn; rewrite Da; reflexivity).
      rewrite HVa in Hnd, Hnew. inversion Hnd as [|? ? Hna Hnd']; subst.
      assert (Hanew : ~ In (PV a) (sr_nodes (sroute_at s r))).
      { intros H. apply (Hnew a (or_introl eq_refl)). apply in_acts_PV; assumption. }
      destruct (insert_visit s r _ a Hs Hr Hstr Da Hanew Hi0 Hi1) as (s1 & E & Ed & Hnodes & _ & Hvis).
      rewrite E. rewrite Hins in Ed. pose proof Ed as [F1 F2 F3 F4 F5 F6].
      assert (Hdl : length (sr_depots (sroute_at s1 r)) = length (sr_depots (sroute_at s r))).
      { assert (HG1 : forall t, heap_ok t -> r < length (hp_routes t) -> strict t r ->
                   length (sr_depots (sroute_at t r)) = length (filter a_isDepot (acts t r))).
        { intros t Ht Hrt Hst. pose proof (hk_routes t Ht r Hrt) as Hok. unfold acts.
          rewrite <- (count_acts t r), depots_count; auto using ok_shape, ok_good. apply (hk_acts t Ht). }
        rewrite !HG1; try assumption; [|lia|apply good_strict; assumption]. rewrite F5, Ha.
        change (A0 :: pre ++ [a]) with ((A0 :: pre) ++ [a]). rewrite !(filter_app a_isDepot).
        replace (filter a_isDepot [a]) with (@nil activity) by (cbn; rewrite Da; reflexivity). rewrite app_nil_r. reflexivity. }
      destruct (IH s1 A0 (pre ++ [a]) E0) as (s' & E' & Ed' & Hvis').
      * assumption.
      * lia.
      * apply good_strict; assumption.
      * rewrite F5. reflexivity.
      * exact Hnd'.
      * intros c Hc. rewrite F5. specialize (Hnew c (or_intror Hc)). rewrite Ha in Hnew. intros Hin. apply Hnew.
        apply in_app_or in Hin as [[<-|Hin]|Hin]; [left; reflexivity| |apply in_or_app; right; exact Hin].
        apply in_app_or in Hin as [Hin|[E2|[]]]; [apply in_or_app; left; right; exact Hin|]. subst c. contradiction.
      * rewrite Hdl, F6. unfold num_reloads in Hmax |- *. cbn [filter] in Hmax. rewrite Da in Hmax. exact Hmax.
      * exists s'. split; [exact E'|]. split.
        -- eapply edited_trans; [exact Ed|]. rewrite <- app_assoc in Ed'. exact Ed'.
        -- intros c Hc Hc'.
           assert (Hns1 : ~ In (PV c) (sr_nodes (sroute_at s1 r))).
           { rewrite Hnodes. intros H. apply in_insert in H as [H|H]; [|contradiction]. apply Hc. left. congruence. }
           rewrite Hvis'; [|intros H; apply Hc; right; exact H|assumption]. apply Hvis. assumption.
Qed.

(** ** One route *)
Lemma mid_of_acts s r A0 l E0 : acts s r = (A0 :: l) ++ [E0] -> mid_of s r = l.
Proof. intros E. unfold mid_of. rewrite E. cbn [app List.tl]. apply removelast_last. Qed.

Lemma load_route_spec d s t k sr mid : t < p_numVehicleTypes d -> k < avail d t -> make_route d mid t = Ok sr ->
  let r := offset (avail d) t + k in
  heap_ok s -> length (hp_routes s) = offset (avail d) (p_numVehicleTypes d) ->
  sr_veh (sroute_at s r) = p_vehicle d t -> sr_synced (sroute_at s r) = mid_of s r ->
  (forall i c, In c mid -> nth_error (sr_nodes (sroute_at s r)) i = Some (PV c) ->
     n_route (hp_visits s c) = Some r /\ n_pos (hp_visits s c) = i) ->
  NoDup (visits mid) ->
  exists s', load_route d s r sr = Some (s', false) /\ edited s s' r (sched_acts sr) /\
    sr_synced (sroute_at s' r) = mid_of s' r /\
    (forall c, ~ In c mid -> n_route (hp_visits s c) <> Some r -> hp_visits s' c = hp_visits s c) /\
    (forall c r', ~ In c mid -> n_route (hp_visits s c) = Some r -> n_route (hp_visits s' c) = Some r' -> r' = r).
Proof.
  intros Ht Hk Hm r Hs Hlen Hveh Hsyn Hpre Hnd.
  assert (Hr : r < length (hp_routes s)) by (rewrite Hlen; apply offset_lt; assumption).
  pose proof (hk_routes s Hs r Hr) as Hok. pose proof (make_route_ok d mid t sr Hm) as Hwf.
  pose proof (route_fields d mid t sr Hm) as Hf. cbv zeta in Hf.
  assert (Hsched : sched_acts sr = (ADepot (v_start (p_vehicle d t)) :: mid) ++ [ADepot (v_end (p_vehicle d t))]).
  { unfold sched_acts. rewrite Hf. cbn [r_schedule]. apply schedule_acts. }
  assert (Hracts : r_acts sr = mid).
  { unfold r_acts. fold (sched_acts sr). rewrite Hsched. cbn [app List.tl]. apply removelast_last. }
  unfold load_route. rewrite (proj2 (Nat.leb_gt _ _) Hr).
  assert (Hsame : exists b, same_route d s r sr = Some b /\ (b = true -> acts s r = sched_acts sr)).
  { unfold same_route. rewrite (deref_ok s r _ (ok_gets s r Hok)).
    destruct (_ && _ && _); [|exists false; split; [reflexivity|discriminate]].
    eexists. split; [reflexivity|]. intros H. apply acts_eqb_eq in H. exact H. }
  destruct Hsame as ([|] & Esame & Hsame); rewrite Esame.
  - specialize (Hsame eq_refl). exists s. split; [reflexivity|].
    assert (Hstr : strict s r).
    { intros i c Hi. apply Hpre; [|assumption].
      pose proof (in_acts_PV s r c Hs (nth_error_In _ _ Hi)) as Hin. rewrite Hsame, Hsched in Hin.
      assert (Hdc : a_isDepot c = false) by (apply (ok_nodes s r Hok i (PV c) Hi)).
      apply in_app_or in Hin as [[<-|Hin]|[<-|[]]]; [discriminate|assumption|discriminate]. }
    split; [constructor; auto using ok_good|]. split; [assumption|]. split; [auto|]. intros. congruence.
  - destruct (clear_spec s r Hs Hr) as (s1 & E1 & Ed1 & Sy1 & Hno1 & Hvis1). rewrite E1, Hracts, Hveh in *.
    pose proof Ed1 as [F1 F2 F3 F4 F5 F6].
    assert (Hok1 : route_ok s1 r) by (apply (hk_routes s1 F1); lia).
    destruct (push_spec r mid s1 (ADepot (v_start (p_vehicle d t))) [] (ADepot (v_end (p_vehicle d t)))) as (s2 & E2 & Ed2 & Hvis2).
    + assumption.
    + lia.
    + apply good_strict; assumption.
    + rewrite F5. reflexivity.
    + assumption.
    + intros c Hc. rewrite F5. apply filter_In in Hc as [_ Hc]. cbn. intros [<-|[<-|[]]]; discriminate.
    + assert (Hd2 : length (sr_depots (sroute_at s1 r)) = 2).
      { rewrite <- depots_count; [|apply ok_shape; assumption|assumption].
        rewrite (count_acts s1 r); [|apply ok_shape; assumption|assumption|apply (hk_acts s1 F1)|auto].
        change (map (p_act s1 r) (sr_nodes (sroute_at s1 r))) with (acts s1 r). rewrite F5. reflexivity. }
      rewrite Hd2, F6, Hveh. pose proof (wf_trips _ _ _ Hwf). lia.
    + rewrite E2. eexists. split; [reflexivity|]. pose proof Ed2 as [G1 G2 G3 G4 G5 G6].
      destruct (update_spec s2 r G1 ltac:(lia)) as (U1 & U2 & U3 & U4 & U5 & U6).
      assert (Hvm : forall c, ~ In c mid -> hp_visits s2 c = hp_visits s1 c) by (intros c Hc; apply Hvis2; [assumption|apply Hno1]).
      split; [|split; [|split]].
      * constructor; try assumption.
        -- lia.
        -- intros r' Hne. rewrite U5, G3, F3 by assumption. reflexivity.
        -- intros i q Hq. rewrite (proj1 (U4 r)) in Hq |- *. destruct (G4 i q Hq) as (n & K1 & K2). exists n.
           split; [|assumption]. destruct q as [c|b j]; cbn [get] in *; [rewrite U3; assumption|].
           destruct (U4 r) as (_ & _ & -> & -> & _). assumption.
        -- destruct (U4 r) as (_ & _ & _ & _ & ->). rewrite G5, Hsched. reflexivity.
        -- destruct (U4 r) as (_ & -> & _). rewrite G6, F6. reflexivity.
      * rewrite U6. unfold mid_of. destruct (U4 r) as (_ & _ & _ & _ & ->). reflexivity.
      * intros c Hc Hnr. rewrite U3, Hvm, Hvis1 by assumption. destruct (n_route (hp_visits s c)) as [r'|]; [|reflexivity].
        destruct (Nat.eqb_spec r' r) as [->|]; [congruence|reflexivity].
      * intros c r' Hc Hnr. rewrite U3, Hvm, Hvis1 by assumption. rewrite Hnr, Nat.eqb_refl. cbn. discriminate.
Qed.
