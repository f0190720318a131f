(** Model of calling the local search, pyvrp/cpp/search/LocalSearch.cpp:17-52, and of what it does to
    a solution.  The search routes are seen as a plan here; [target], [load] and [unload] of
    SearchLoad.v are the same steps on the node bookkeeping, and the last section below links them. *)
From Coq Require Import Permutation.
From Verif Require Import Base DurationSegment Data LoadSegment SearchRoute RouteDur Valid ProposalDur ProposalRest Route RouteSpec
  RouteFacts2 RouteFacts3 Cost CostFacts DeltaFacts SearchFacts DataCtor Solution SolutionFacts SolutionFacts2 SolutionFacts3 Bitset Rng MakeRandom SearchSpace Neighbourhood SearchNodes SearchSeq SearchLoad SearchLoad2 Ops PlanFacts ShipState OpsBase OpsGen OpsMove OpsRelocate OpsSwap OpsOne OpsEdit OpsEdit2 OpsAll LocalSearch LocalFacts LocalTerm LocalInsert LocalEnsure Perturb.
Local Open Scope nat_scope.

(** ** Loading and unloading, search/Solution.cpp:159-235, as plans *)
(** search/Solution.cpp:159-212: for each vehicle type its routes in order, then empty routes. *)
Definition load_plan (d : pdata) (routes : list route) : plan :=
  flat_map (fun t => map r_acts (of_type t routes) ++ repeat [] (avail d t - length (of_type t routes))) (seq 0 (p_numVehicleTypes d)).
(** search/Solution.cpp:214-235 *)
Fixpoint unload_state (d : pdata) (l : list (nat * (list activity * cache))) : res (list route) :=
  match l with
  | [] => Ok []
  | (vt, (mid, c)) :: more =>
      if ca_empty c then unload_state d more
      else
        match make_route d mid vt with
        | Err e => Err e
        | Ok r => match unload_state d more with Ok rs => Ok (r :: rs) | Err e => Err e end
        end
  end.
Definition unload_sol (d : pdata) (s : sstate) : res solution :=
  match unload_state d (combine (fleet d) (combine (sp_mids s) (sp_caches s))) with
  | Ok routes => make_solution d routes
  | Err e => Err e
  end.

(** ** LocalSearch::operator(), LocalSearch.cpp:17-52 *)
Section Run.
Variable d : pdata.
Variable ev : evaluator.
Variable uops : list unary.
Variable bops : list binary.

(** LocalSearch.cpp:24-34.  Before loading, the search routes may hold anything. *)
Definition ls_start (sp : space) (sol : solution) : lstate :=
  mk_lstate (sync d (load_plan d (so_routes sol))) (map (fun _ => rc_none) bops) sp
    (repeat (-1)%Z (p_numClients d + p_numShipments d)) (repeat 0%Z (length (fleet d))) 0 false.
(** LocalSearch.cpp:36-39; [num] is the number of perturbations. *)
Definition ls_prepare (num : nat) (exhaustive : bool) (st : lstate) : option lstate :=
  if exhaustive then Some (with_space st (mark_all (l_space st)))
  else
    match perturb d ev num (l_sol st, l_space st) with
    | Some (s, sp) => Some (with_space (with_sol st s) sp)
    | None => None
    end.
(** The new solution, and the search space, which stays with the search.  [Waits]: more than [n]
    rounds are needed. *)
Inductive ls_result := Returns (sol : solution) (sp : space) | Throws (e : exn) | Dies | Waits.
Definition ls_call (n num : nat) (exhaustive : bool) (sp : space) (sol : solution) : ls_result :=
  match ls_prepare num exhaustive (ls_start sp sol) with
  | None => Dies
  | Some st =>
      match ensure d ev st with
      | None => Dies
      | Some st =>
          match search d ev uops bops n st with
          | Crashed => Dies
          | Unfinished => Waits
          | Finished st =>
              match unload_sol d (l_sol st) with
              | Ok sol => Returns sol (l_space st)
              | Err e => Throws e
              end
          end
      end
  end.
End Run.

(** ** Plans and solutions *)
Section Facts.
Variable d : pdata.
Variable h : Z.
Variable ev : evaluator.
Hypothesis St : setting d h ev.
Hypothesis ND : groups_nodup d.
Hypothesis Trips : forall v, In v (p_vehicles d) -> (1 <= v_maxTrips v)%Z.

Lemma known_groups : groups_known d.
Proof.
  apply Forall_forall. intros g Hg. apply Forall_forall. intros i Hi. apply In_nth with (d := dummy_group) in Hg as (n & Hn & <-).
  exact (proj1 (proj2 (do_groups d (st_data d h ev St) n Hn) i Hi)).
Qed.
Lemma nodup_groups_of : nodup_groups d.
Proof. intros g Hg. unfold groups_nodup in ND. rewrite Forall_forall in ND. apply ND. apply nth_In. exact Hg. Qed.
Lemma two_h : (2 * h <= MAXV)%Z.
Proof.
  pose proof (do_some_vehicle d (st_data d h ev St)) as V. unfold p_numVehicleTypes in V.
  assert (X : exists v, In v (p_vehicles d)) by (destruct (p_vehicles d) as [|v vs]; [cbn in V; lia|exists v; left; reflexivity]).
  destruct X as (v & Hv).
  destruct (st_fits d h ev St v [] Hv) as [(_ & F & _) _].
  - apply (ships_wf d v []); [intros a []|intros a _; rewrite cnt_nil; lia|apply ships_nil|]. pose proof (Trips v Hv). cbn. lia.
  - intros a _. rewrite cnt_nil. lia.
  - exact (proj1 (proj2 (fits_bounds d h (st_valid d h ev St) (st_opens d h ev St) (st_durs d h ev St) v [] F))).
Qed.

(** The routes of a plan: those with visits. *)
Fixpoint plan_routes (l : list (nat * list activity)) : res (list route) :=
  match l with
  | [] => Ok []
  | (vt, mid) :: more =>
      if has_visit mid then
        match make_route d mid vt with
        | Err e => Err e
        | Ok r => match plan_routes more with Ok rs => Ok (r :: rs) | Err e => Err e end
        end
      else plan_routes more
  end.
Lemma unload_state_eq dc : forall mids fl caches, length caches = length mids ->
  (forall i, i < length mids -> ca_empty (nth i caches dc) = negb (has_visit (nth i mids []))) ->
  unload_state d (combine fl (combine mids caches)) = plan_routes (combine fl mids).
Proof.
  induction mids as [|m mids IH]; intros fl caches L H; [destruct fl; reflexivity|].
  destruct caches as [|c caches]; [discriminate|]. destruct fl as [|vt fl]; [reflexivity|]. cbn [combine unload_state plan_routes].
  pose proof (H 0 ltac:(cbn; lia)) as H0. cbn [nth] in H0. rewrite H0.
  rewrite IH; [|cbn in L; lia|intros i Hi; apply (H (S i)); cbn; lia]. destruct (has_visit m); reflexivity.
Qed.
Lemma unload_sync p : unload_state d (combine (fleet d) (combine (sp_mids (sync d p)) (sp_caches (sync d p)))) = plan_routes (combine (fleet d) p).
Proof.
  apply (unload_state_eq (update d (rveh d 0) (mid_at p 0))); cbn [sp_mids sp_caches sync]; [rewrite map_length, seq_length; reflexivity|].
  intros i Hi. rewrite (map_nth (fun r => update d (rveh d r) (mid_at p r)) (seq 0 (length p)) 0 i), seq_nth by exact Hi. rewrite ca_empty_spec. reflexivity.
Qed.

Lemma no_visits l : ships_ok l -> has_visit l = false -> visits l = [].
Proof.
  intros S H. destruct (visits l) as [|a m] eqn:E; [reflexivity|]. assert (Ha : In a (visits l)) by (rewrite E; left; reflexivity).
  apply in_visits in Ha as [Ha Da]. rewrite (has_visit_in l a Ha Da S) in H. discriminate.
Qed.
Lemma veh_in t : t < p_numVehicleTypes d -> In (p_vehicle d t) (p_vehicles d).
Proof. intros H. unfold p_vehicle. apply nth_In. exact H. Qed.
Lemma plan_routes_ok l : (forall vt mid, In (vt, mid) l -> vt < p_numVehicleTypes d /\ well_formed d (p_vehicle d vt) mid) ->
  exists routes, plan_routes l = Ok routes /\ Forall (built d) routes /\
    visits (SolutionFacts.plan routes) = visits (concat (map snd l)) /\
    map r_vehicleType routes = map fst (filter (fun x => has_visit (snd x)) l) /\
    (forall r, In r routes -> exists a, In a (map sa_act (r_schedule r)) /\ a_isDepot a = false) /\
    zsum (map (route_penalised ev) routes) = zsum (map (fun x => rcost d ev (p_vehicle d (fst x)) (snd x)) l).
Proof.
  induction l as [|[vt mid] l IH]; intros H.
  - exists []. split; [reflexivity|]. split; [constructor|]. split; [reflexivity|]. split; [reflexivity|]. split; [intros r []|reflexivity].
  - destruct (IH (fun vt' m' Hx => H vt' m' (or_intror Hx))) as (rs & E & B & V & T & N & C). clear IH.
    destruct (H vt mid (or_introl eq_refl)) as [Hvt W]. cbn [plan_routes map filter fst snd concat]. destruct (has_visit mid) eqn:Hv.
    + assert (X : exists r, make_route d mid vt = Ok r) by (unfold make_route; rewrite (proj2 (proj1 (validate_spec d mid vt)) W); eexists; reflexivity).
      destruct X as [r Er]. rewrite Er, E. assert (Br : built d r) by (exists mid, vt; auto).
      assert (Ty : r_vehicleType r = vt) by (rewrite (route_fields d mid vt r Er); reflexivity).
      assert (Em : sched_acts r = (ADepot (v_start (p_vehicle d vt)) :: mid) ++ [ADepot (v_end (p_vehicle d vt))]).
      { unfold sched_acts. rewrite (route_fields d mid vt r Er). cbn [r_schedule]. apply schedule_acts. }
      exists (r :: rs). split; [reflexivity|]. split; [constructor; assumption|]. split; [|split; [|split]].
      * change (SolutionFacts.plan (r :: rs)) with (sched_acts r ++ SolutionFacts.plan rs). rewrite !visits_app, V. f_equal. rewrite Em, visits_app. cbn. rewrite app_nil_r. reflexivity.
      * cbn [map fst]. rewrite Ty, T. reflexivity.
      * intros r' [<-|Hr]; [|apply N, Hr]. fold (sched_acts r). rewrite Em. unfold has_visit in Hv. apply existsb_exists in Hv as (a & Ha & Ka). exists a.
        split; [apply in_or_app; left; right; exact Ha|destruct a; [discriminate| | |]; reflexivity].
      * cbn [map zsum]. rewrite C. f_equal.
        destruct (search_core_agree d h (st_valid d h ev St) (st_opens d h ev St) (st_durs d h ev St) two_h mid vt r (veh_in vt Hvt) Er) as (_ & _ & _ & _ & _ & _ & _ & _ & _ & X).
        rewrite X. reflexivity.
    + exists rs. split; [exact E|]. split; [exact B|]. split; [|split; [exact T|split; [exact N|]]].
      * rewrite visits_app, (no_visits mid (wf_ships d _ mid W) Hv), V. reflexivity.
      * cbn [map zsum fst snd]. rewrite <- C, (rcost_empty d ev _ mid Hv). lia.
Qed.

(** *** The pairs of vehicle type and visits of a plan *)
Lemma combine_in {A B} (l : list A) (m : list B) x y da db : In (x, y) (combine l m) -> exists i, i < length l /\ i < length m /\ x = nth i l da /\ y = nth i m db.
Proof.
  revert m. induction l as [|a l IH]; intros [|b m] H; cbn in H; [destruct H|destruct H|destruct H|]. destruct H as [H|H].
  - injection H as <- <-. exists 0. cbn. repeat split; lia.
  - destruct (IH m H) as (i & H1 & H2 & -> & ->). exists (S i). cbn. repeat split; lia.
Qed.
Lemma combine_fst {A B} (l : list A) (m : list B) : length l = length m -> map fst (combine l m) = l.
Proof. revert m. induction l as [|a l IH]; intros [|b m] H; cbn in *; try lia; [reflexivity|]. rewrite IH by lia. reflexivity. Qed.
Lemma combine_snd {A B} (l : list A) (m : list B) : length l = length m -> map snd (combine l m) = m.
Proof. revert m. induction l as [|a l IH]; intros [|b m] H; cbn in *; try lia; [reflexivity|]. rewrite IH by lia. reflexivity. Qed.
Lemma combine_seq {A B C} (f : A -> B -> C) da db : forall (l : list A) (m : list B), length l = length m ->
  map (fun x => f (fst x) (snd x)) (combine l m) = map (fun i => f (nth i l da) (nth i m db)) (seq 0 (length m)).
Proof.
  induction l as [|a l IH]; intros [|b m] H; cbn [length] in H; try lia; [reflexivity|]. cbn [combine map length seq fst snd nth]. f_equal.
  rewrite IH by lia. rewrite <- seq_shift, map_map. reflexivity.
Qed.
Lemma rveh_type r : r < length (fleet d) -> rveh d r = p_vehicle d (nth r (fleet d) 0).
Proof.
  intros H. unfold rveh, fleet_vehicles. rewrite (nth_indep _ dummy_vehicle (p_vehicle d 0)) by (rewrite map_length; exact H). apply map_nth.
Qed.
Lemma fleet_type r : r < length (fleet d) -> nth r (fleet d) 0 < p_numVehicleTypes d.
Proof.
  intros H. rewrite fleet_len in H. destruct (slot_of (avail d) (p_numVehicleTypes d) r H) as (t & k & Ht & Hk & ->). rewrite fleet_nth by assumption. exact Ht.
Qed.
Lemma fleet_count vt : vt < p_numVehicleTypes d -> length (filter (Nat.eqb vt) (fleet d)) = avail d vt.
Proof.
  unfold fleet. assert (R : forall x n, length (filter (Nat.eqb vt) (repeat x n)) = if vt =? x then n else 0).
  { intros x n. induction n as [|n IH]; cbn; [destruct (vt =? x); reflexivity|]. destruct (vt =? x); cbn; rewrite IH; reflexivity. }
  assert (G : forall n from, length (filter (Nat.eqb vt) (flat_map (fun t => repeat t (avail d t)) (seq from n))) = if (from <=? vt) && (vt <? from + n) then avail d vt else 0).
  { induction n as [|n IH]; intros from; cbn [seq flat_map].
    - destruct (Nat.leb_spec from vt), (Nat.ltb_spec vt (from + 0)); cbn; lia.
    - rewrite filter_app, app_length, R, IH. destruct (Nat.eqb_spec vt from) as [->|N].
      + destruct (Nat.leb_spec (S from) from); [lia|]. destruct (Nat.leb_spec from from); [|lia]. destruct (Nat.ltb_spec from (from + S n)); cbn; lia.
      + destruct (Nat.leb_spec (S from) vt), (Nat.leb_spec from vt), (Nat.ltb_spec vt (S from + n)), (Nat.ltb_spec vt (from + S n)); cbn; lia. }
  intros H. rewrite G. destruct (Nat.leb_spec 0 vt); [|lia]. destruct (Nat.ltb_spec vt (0 + p_numVehicleTypes d)); [reflexivity|lia].
Qed.
Lemma fleet_total : length (fleet d) = p_numVehicles d.
Proof.
  rewrite fleet_len, offset_sum by lia. unfold p_numVehicles, p_numVehicleTypes. rewrite firstn_all.
  assert (G : forall l n, fold_left (fun sum v => sum + v_numAvailable v) l n = n + fold_right Nat.add 0 (map v_numAvailable l)).
  { induction l as [|v l IH]; intros n; cbn; [lia|]. rewrite IH. lia. }
  rewrite G. lia.
Qed.

Lemma nodup_cnt l : (forall a, a_isDepot a = false -> cnt l a <= 1) -> NoDup (visits l).
Proof.
  induction l as [|x l IH]; intros H; [constructor|]. assert (IH' : NoDup (visits l)).
  { apply IH. intros a Ha. specialize (H a Ha). rewrite cnt_cons in H. lia. }
  unfold visits in *. cbn [filter]. destruct (a_isDepot x) eqn:Dx; cbn [negb]; [exact IH'|]. constructor; [|exact IH'].
  intros Hin. apply filter_In in Hin as [Hin _]. apply cnt_In in Hin. specialize (H x Dx). rewrite cnt_self in H. lia.
Qed.
Lemma nodup_ids l : NoDup (visits l) -> NoDup (client_ids l) /\ NoDup (pickup_ids l).
Proof.
  induction l as [|x l IH]; intros H; [split; constructor|]. unfold visits in H. cbn [filter] in H.
  assert (H' : NoDup (visits l)) by (destruct (negb (a_isDepot x)); [inversion H; assumption|exact H]). destruct (IH H') as [I1 I2].
  destruct x as [i|i|i|i]; cbn [client_ids pickup_ids flat_map app]; fold (client_ids l); fold (pickup_ids l).
  - split; assumption.
  - split; [constructor; [|assumption]|assumption]. cbn in H. inversion H as [|? ? N _]. intros Hin. apply N. apply in_visits. split; [apply in_client_ids, Hin|reflexivity].
  - split; [assumption|constructor; [|assumption]]. cbn in H. inversion H as [|? ? N _]. intros Hin. apply N. apply in_visits. split; [apply in_pickup_ids, Hin|reflexivity].
  - split; assumption.
Qed.
Lemma filter_le {A} (f : A -> bool) l : length (filter f l) <= length l.
Proof. induction l as [|x l IH]; cbn; [lia|]. destruct (f x); cbn; lia. Qed.
Lemma filter_fst_le (f : nat * list activity -> bool) g l : length (filter g (map fst (filter f l))) <= length (filter g (map fst l)).
Proof. induction l as [|x l IH]; cbn; [lia|]. destruct (f x); cbn; destruct (g (fst x)); cbn; lia. Qed.

(** *** Prizes *)
Lemma zsum_filter (f : nat -> bool) (g : nat -> Z) l : zsum (map (fun i => if f i then 0%Z else g i) l) = zsum (map g (filter (fun i => negb (f i)) l)).
Proof. induction l as [|x l IH]; [reflexivity|]. cbn [map zsum filter]. rewrite IH. destruct (f x); cbn [negb map zsum]; lia. Qed.
Lemma uncollected_sol p routes sol : Forall (built d) routes -> make_solution d routes = Ok sol ->
  (forall a, a_isDepot a = false -> In a (SolutionFacts.plan routes) <-> 1 <= tot p a) -> so_uncollected sol = uncollected d p.
Proof.
  intros B Es T. destruct (partition d routes B ND known_groups sol Es) as (_ & _ & _ & _ & _ & _ & _ & _ & _ & _ & _ & U & _). rewrite U.
  destruct (sol_inv d routes B ND known_groups sol Es) as (_ & cv & sv & E & Hc & Hs). rewrite E. cbn [so_unplanned the_solution]. rewrite unplanned_eq.
  unfold unplanned_list, uncollected. rewrite map_app, zsum_app, map_map. cbn [act_prize]. f_equal.
  - rewrite zsum_filter. f_equal. f_equal. unfold rest_of. apply filter_ext_in. intros i Hi. apply in_seq in Hi. f_equal.
    apply Bool.eq_iff_eq_true. rewrite (proj2 Hc i) by lia. rewrite in_client_ids, T by reflexivity. rewrite planned_tot. reflexivity.
  - rewrite zsum_filter. assert (F : forall l, zsum (map (act_prize d) (flat_map (fun i => [APickup i; ADelivery i]) l)) = zsum (map (fun i => s_prize (p_shipment d i)) l)).
    { induction l as [|x l IH]; [reflexivity|]. cbn [flat_map app map zsum act_prize]. rewrite IH. lia. }
    rewrite F. f_equal. f_equal. unfold rest_of. apply filter_ext_in. intros i Hi. apply in_seq in Hi. f_equal.
    apply Bool.eq_iff_eq_true. rewrite (proj2 Hs i) by lia. rewrite in_pickup_ids, T by reflexivity. rewrite planned_tot. reflexivity.
Qed.

(** *** Unloading a plan *)
Theorem plan_solution p : plan_ok d p -> group_once d p ->
  exists routes sol, plan_routes (combine (fleet d) p) = Ok routes /\ unload_sol d (sync d p) = Ok sol /\ make_solution d routes = Ok sol /\ Forall (built d) routes /\
    consistent d routes /\ (forall a, a_isDepot a = false -> In a (SolutionFacts.plan routes) <-> 1 <= tot p a) /\ solution_penalised ev sol = plan_cost d ev p.
Proof.
  intros P G. assert (L : length (fleet d) = length p) by (rewrite (pk_len d p P); unfold fleet_vehicles; rewrite map_length; reflexivity).
  destruct (plan_routes_ok (combine (fleet d) p)) as (routes & E & B & V & T & N & C).
  { intros vt mid H. destruct (combine_in _ _ _ _ 0 [] H) as (i & H1 & H2 & -> & ->). split; [apply fleet_type, H1|].
    rewrite <- rveh_type by exact H1. apply (pk_wf d p P). exact H2. }
  rewrite combine_snd in V by exact L.
  assert (In1 : forall a, a_isDepot a = false -> In a (SolutionFacts.plan routes) <-> 1 <= tot p a).
  { intros a Ha. unfold tot. rewrite <- cnt_In. assert (X : In a (visits (SolutionFacts.plan routes)) <-> In a (visits (concat p))) by (rewrite V; reflexivity).
    rewrite !in_visits in X. tauto. }
  assert (NV : NoDup (visits (SolutionFacts.plan routes))) by (rewrite V; apply nodup_cnt; apply (pk_once d p P)).
  assert (Cs : consistent d routes).
  { destruct (nodup_ids _ NV) as [N1 N2]. constructor.
    - rewrite <- (map_length r_vehicleType routes), T, map_length. rewrite <- fleet_total. apply (Nat.le_trans _ (length (combine (fleet d) p))); [apply filter_le|rewrite combine_length; lia].
    - exact N.
    - exact N1.
    - exact N2.
    - intros g i j Hg Hi Hj Pi Pj. apply In_nth with (d := dummy_group) in Hg as (n & Hn & <-).
      apply (G n i j Hn Hi Hj); apply In1; auto.
    - intros vt Hvt. unfold used_vehicles.
      assert (X : forall rs, length (filter (fun r => r_vehicleType r =? vt) rs) = length (filter (Nat.eqb vt) (map r_vehicleType rs))).
      { induction rs as [|r rs IH]; [reflexivity|]. cbn [filter map]. rewrite (Nat.eqb_sym vt). destruct (r_vehicleType r =? vt); cbn; rewrite IH; reflexivity. }
      rewrite X, T. fold (avail d vt). rewrite <- (fleet_count vt Hvt). eapply Nat.le_trans; [apply filter_fst_le|]. rewrite (combine_fst (fleet d) p L). lia. }
  destruct (make_solution_iff d routes B ND known_groups) as [[Hok _] _]. destruct (Hok Cs) as [sol Es].
  exists routes, sol. split; [exact E|]. split; [unfold unload_sol; rewrite unload_sync, E; exact Es|]. split; [exact Es|]. split; [exact B|]. split; [exact Cs|]. split; [exact In1|].
  unfold solution_penalised. rewrite (uncollected_sol p routes sol B Es In1), plan_cost_eq. f_equal.
  destruct (sol_inv d routes B ND known_groups sol Es) as (_ & cv & sv & Eq & _). rewrite Eq. cbn [so_routes the_solution]. rewrite C.
  rewrite (combine_seq (fun vt m => rcost d ev (p_vehicle d vt) m) 0 []) by exact L. unfold routes_cost. f_equal. apply map_ext_in.
  intros r Hr. apply in_seq in Hr. rewrite rveh_type by lia. reflexivity.
Qed.

(** *** Loading a solution *)
Section Loading.
Variable routes : list route.
Hypothesis B : Forall (built d) routes.
Variable sol : solution.
Hypothesis Es : make_solution d routes = Ok sol.

Lemma load_consistent : consistent d routes.
Proof. exact (proj1 (sol_inv d routes B ND known_groups sol Es)). Qed.
Lemma slots t : t < p_numVehicleTypes d -> length (map r_acts (of_type t routes) ++ repeat [] (avail d t - length (of_type t routes))) = avail d t.
Proof.
  intros Ht. rewrite app_length, map_length, repeat_length. pose proof (cs_types d routes load_consistent t Ht) as H. unfold used_vehicles in H.
  change (length (of_type t routes) <= avail d t) in H. lia.
Qed.
Lemma load_len : length (load_plan d routes) = length (fleet d).
Proof. unfold load_plan. rewrite (flat_len _ (avail d)); [symmetry; apply fleet_len|exact slots]. Qed.
Lemma load_pairs : combine (fleet d) (load_plan d routes) =
  flat_map (fun t => map (fun r => (t, r_acts r)) (of_type t routes) ++ repeat (t, []) (avail d t - length (of_type t routes))) (seq 0 (p_numVehicleTypes d)).
Proof.
  unfold fleet, load_plan. assert (H : forall t, In t (seq 0 (p_numVehicleTypes d)) -> t < p_numVehicleTypes d) by (intros t Ht; apply in_seq in Ht; lia).
  revert H. generalize (seq 0 (p_numVehicleTypes d)). induction l as [|t l IH]; intros H; [reflexivity|]. cbn [flat_map].
  assert (CA : forall {A C} (a a' : list A) (c c' : list C), length a = length c -> combine (a ++ a') (c ++ c') = combine a c ++ combine a' c').
  { intros A C. induction a as [|x a IHa]; intros a' [|y c] c' Hl; cbn in *; try lia; [reflexivity|]. rewrite IHa by lia. reflexivity. }
  rewrite CA by (rewrite repeat_length, slots by (apply H; left; reflexivity); reflexivity). rewrite IH by (intros x Hx; apply H; right; exact Hx). f_equal.
  pose proof (slots t (H t (or_introl eq_refl))) as S. rewrite <- S at 1. clear.
  generalize (avail d t - length (of_type t routes)). induction (of_type t routes) as [|r rs IHr]; intros n; cbn [map app length repeat combine].
  - rewrite repeat_length. induction n as [|n IHn]; cbn; [reflexivity|]. rewrite IHn. reflexivity.
  - rewrite IHr. reflexivity.
Qed.
Lemma route_has_visit r : In r routes -> has_visit (r_acts r) = true /\ make_route d (r_acts r) (r_vehicleType r) = Ok r.
Proof.
  intros Hr. pose proof (proj1 (Forall_forall _ _) B r Hr) as Br. destruct (built_mid d r Br) as (mid & Em & _ & W & -> & Ea). split; [|exact Em].
  destruct (cs_nonempty d routes load_consistent r Hr) as (a & Ha & Da). fold (sched_acts r) in Ha. rewrite Ea in Ha.
  apply in_app_or in Ha as [[<-|Ha]|[<-|[]]]; try discriminate. exact (has_visit_in mid a Ha Da (wf_ships d _ mid W)).
Qed.
Lemma plan_routes_app l m : plan_routes (l ++ m) = match plan_routes l, plan_routes m with Ok a, Ok b => Ok (a ++ b) | Ok _, Err e => Err e | Err e, _ => Err e end.
Proof.
  induction l as [|[vt mid] l IH]; cbn [app plan_routes]; [destruct (plan_routes m); reflexivity|].
  destruct (has_visit mid); [|exact IH]. destruct (make_route d mid vt); [|reflexivity]. rewrite IH. destruct (plan_routes l); [|reflexivity]. destruct (plan_routes m); reflexivity.
Qed.
Lemma load_routes_of : plan_routes (combine (fleet d) (load_plan d routes)) = Ok (by_type d routes).
Proof.
  rewrite load_pairs. unfold by_type. generalize (seq 0 (p_numVehicleTypes d)). induction l as [|t l IH]; [reflexivity|]. cbn [flat_map]. rewrite !plan_routes_app, IH.
  assert (E1 : plan_routes (map (fun r => (t, r_acts r)) (of_type t routes)) = Ok (of_type t routes)).
  { assert (H : forall r, In r (of_type t routes) -> In r routes /\ r_vehicleType r = t) by (intros r; apply in_of_type).
    revert H. induction (of_type t routes) as [|r rs IHr]; intros H; [reflexivity|]. cbn [map plan_routes].
    destruct (H r (or_introl eq_refl)) as [Hr Ht]. destruct (route_has_visit r Hr) as [-> Em]. rewrite Ht in Em. rewrite Em.
    rewrite IHr by (intros x Hx; apply H; right; exact Hx). reflexivity. }
  assert (E2 : forall n, plan_routes (repeat (t, []) n) = Ok []) by (induction n as [|n IHn]; [reflexivity|exact IHn]).
  rewrite E1, E2, app_nil_r. reflexivity.
Qed.
Lemma load_concat : concat (load_plan d routes) = flat_map r_acts (by_type d routes).
Proof.
  unfold load_plan, by_type. generalize (seq 0 (p_numVehicleTypes d)). induction l as [|t l IH]; [reflexivity|].
  cbn [flat_map]. rewrite concat_app, IH, flat_map_app, concat_app. f_equal. rewrite <- flat_map_concat_map.
  assert (E : forall n, concat (repeat (@nil activity) n) = []) by (induction n as [|n IHn]; [reflexivity|exact IHn]). rewrite E, app_nil_r. reflexivity.
Qed.
Lemma load_visits : Permutation (visits (concat (load_plan d routes))) (visits (SolutionFacts.plan routes)).
Proof.
  rewrite load_concat. assert (E : forall rs, Forall (built d) rs -> visits (flat_map r_acts rs) = visits (SolutionFacts.plan rs)).
  { induction rs as [|r rs IH]; intros H; [reflexivity|]. inversion H as [|? ? H1 H2]. subst. cbn [flat_map].
    change (SolutionFacts.plan (r :: rs)) with (sched_acts r ++ SolutionFacts.plan rs). rewrite !visits_app, IH, (visits_sched d r H1) by exact H2. reflexivity. }
  rewrite E by (apply by_type_built, B). apply filter_permut. apply perm_plan, by_type_perm, B.
Qed.
Lemma load_tot a : a_isDepot a = false -> In a (SolutionFacts.plan routes) <-> 1 <= tot (load_plan d routes) a.
Proof.
  intros Ha. unfold tot. rewrite <- cnt_In. assert (X : In a (visits (concat (load_plan d routes))) <-> In a (visits (SolutionFacts.plan routes))).
  { split; apply Permutation_in; [|symmetry]; apply load_visits. }
  rewrite !in_visits in X. tauto.
Qed.
Lemma load_at t k : t < p_numVehicleTypes d -> k < avail d t ->
  mid_at (load_plan d routes) (offset (avail d) t + k) = match nth_error (of_type t routes) k with Some r => r_acts r | None => [] end.
Proof.
  intros Ht Hk. unfold mid_at, load_plan. set (f := fun t => _). pose proof (flat_nth f (avail d) (p_numVehicleTypes d) t k slots Ht Hk) as E.
  assert (X : nth_error (f t) k = Some (match nth_error (of_type t routes) k with Some r => r_acts r | None => [] end)).
  { unfold f. destruct (nth_error (of_type t routes) k) as [r|] eqn:En.
    - rewrite nth_error_app1 by (rewrite map_length; apply nth_error_Some; congruence). rewrite nth_error_map, En. reflexivity.
    - apply nth_error_None in En. rewrite nth_error_app2 by (rewrite map_length; exact En). rewrite map_length.
      pose proof (slots t Ht) as S. rewrite app_length, map_length, repeat_length in S. rewrite (nth_error_nth' _ []); [rewrite nth_repeat; reflexivity|rewrite repeat_length; lia]. }
  rewrite X in E. apply nth_error_nth, E.
Qed.
Theorem load_ok : plan_ok d (load_plan d routes).
Proof.
  constructor.
  - rewrite load_len. unfold fleet_vehicles. rewrite map_length. reflexivity.
  - intros r Hr. rewrite load_len in Hr. pose proof Hr as Hr'. rewrite fleet_len in Hr'. destruct (slot_of (avail d) (p_numVehicleTypes d) r Hr') as (t & k & Ht & Hk & ->).
    rewrite rveh_type by exact Hr. rewrite fleet_nth, load_at by assumption. destruct (nth_error (of_type t routes) k) as [x|] eqn:En.
    + apply nth_error_In, in_of_type in En as [Hx Tx]. pose proof (proj1 (Forall_forall _ _) B x Hx) as Bx. destruct (built_mid d x Bx) as (mid & _ & _ & W & -> & _). rewrite Tx in W. exact W.
    + apply (ships_wf d _ []); [intros a []|intros a _; rewrite cnt_nil; lia|apply ships_nil|]. pose proof (Trips _ (veh_in t Ht)). cbn. lia.
  - intros a Ha. pose proof (plan_nodup d routes B load_consistent) as N. rewrite <- load_visits in N. unfold tot.
    assert (C : cnt (concat (load_plan d routes)) a = cnt (visits (concat (load_plan d routes))) a).
    { generalize (concat (load_plan d routes)). induction l as [|x l IH]; [reflexivity|]. unfold visits in *. cbn [filter]. rewrite cnt_cons. destruct (a_isDepot x) eqn:Dx; cbn [negb].
      - rewrite eqb_false by (intros ->; congruence). exact IH.
      - rewrite cnt_cons, IH. reflexivity. }
    rewrite C. clear - N. induction N as [|x l Hx _ IH]; [cbn; lia|]. rewrite cnt_cons. destruct (a_eqb a x) eqn:E; [|exact IH].
    apply a_eqb_eq in E. subst x. apply cnt_notIn in Hx. lia.
Qed.
Lemma load_once : group_once d (load_plan d routes).
Proof.
  intros g i j Hg Hi Hj Pi Pj. apply (cs_groups d routes load_consistent (p_group d g) i j); [apply nth_In, Hg|exact Hi|exact Hj| |]; apply load_tot; auto.
Qed.
Theorem load_cost : plan_cost d ev (load_plan d routes) = solution_penalised ev sol.
Proof.
  destruct (plan_solution (load_plan d routes) load_ok load_once) as (rs & sol' & E & _ & Es' & B' & _ & _ & <-).
  rewrite load_routes_of in E. injection E as <-. unfold solution_penalised.
  destruct (sol_inv d routes B ND known_groups sol Es) as (_ & cv & sv & -> & _). destruct (sol_inv d _ B' ND known_groups sol' Es') as (_ & cv' & sv' & -> & _).
  pose proof (by_type_perm d routes B) as P. cbn [so_uncollected so_routes the_solution]. unfold sum_of.
  rewrite (zsum_perm _ _ (Permutation_map r_prizes P)), (zsum_perm _ _ (Permutation_map (route_penalised ev) P)). reflexivity.
Qed.
Lemma load_structured : so_isComplete sol = true <-> structured d (load_plan d routes).
Proof.
  rewrite (complete_spec d routes B ND known_groups sol Es). split.
  - intros (C1 & C2 & C3). constructor.
    + intros i Hi Hr. apply load_tot; [reflexivity|]. apply C1; assumption.
    + intros i Hi Hr. apply load_tot; [reflexivity|]. apply (C2 i Hi Hr).
    + intros g Hg Hr. destruct (C3 (p_group d g) (nth_In _ _ Hg) Hr) as (i & Hi & Pi). exists i. split; [exact Hi|]. apply load_tot; auto.
    + exact load_once.
  - intros [S1 S2 S3 S4]. split; [|split].
    + intros i Hi Hr. apply load_tot; [reflexivity|]. apply S1; assumption.
    + intros i Hi Hr. split; apply load_tot; try reflexivity; [apply S2; assumption|]. rewrite (ship_tot d _ i load_ok). apply S2; assumption.
    + intros g Hg Hr. apply In_nth with (d := dummy_group) in Hg as (n & Hn & <-). destruct (S3 n Hn Hr) as (i & Hi & Pi). exists i. split; [exact Hi|]. apply load_tot; auto.
Qed.
End Loading.

Lemma plan_complete p routes sol : plan_ok d p -> structured d p -> Forall (built d) routes -> make_solution d routes = Ok sol ->
  (forall a, a_isDepot a = false -> In a (SolutionFacts.plan routes) <-> 1 <= tot p a) -> so_isComplete sol = true.
Proof.
  intros P [S1 S2 S3 S4] B Es T. apply (complete_spec d routes B ND known_groups sol Es). split; [|split].
  - intros i Hi Hr. apply T; [reflexivity|]. apply S1; assumption.
  - intros i Hi Hr. split; apply T; try reflexivity; [apply S2; assumption|]. rewrite (ship_tot d _ i P). apply S2; assumption.
  - intros g Hg Hr. apply In_nth with (d := dummy_group) in Hg as (n & Hn & <-). destruct (S3 n Hn Hr) as (i & Hi & Pi). exists i. split; [exact Hi|]. apply T; auto.
Qed.

(** ** A whole call *)
Variable uops : list unary.
Variable bops : list binary.
Hypothesis Ops : Forall op_ok bops.

Lemma none_ok o p : rc_ok d ev o p rc_none.
Proof. split; [reflexivity|]. destruct o; try exact I; intros u x E; discriminate. Qed.
Lemma start_inv sp routes sol : Forall (built d) routes -> make_solution d routes = Ok sol -> space_inv d sp -> pre_inv d ev bops (ls_start d bops sp sol).
Proof.
  intros B Es Si. assert (Er : so_routes sol = routes) by (destruct (sol_inv d routes B ND known_groups sol Es) as (_ & cv & sv & -> & _); reflexivity).
  unfold ls_start. rewrite Er. constructor; cbn [l_sol l_rcs l_space l_plan].
  - reflexivity.
  - apply (load_ok routes B sol Es).
  - clear Ops. induction bops as [|o os IH]; constructor; [apply none_ok|exact IH].
  - exact Si.
Qed.

(** The result of a call, as plans: [p] after loading, [q] after perturbing, [r] after making the plan
    complete, [s] after the search. *)
Theorem call_spec sp routes sol num exhaustive : Forall (built d) routes -> make_solution d routes = Ok sol -> space_inv d sp -> space_ok d sp ->
  exists n sol' sp' q r s X routes',
    (forall m, n <= m -> ls_call d ev uops bops m num exhaustive sp sol = Returns sol' sp') /\
    same_space sp sp' /\ space_inv d sp' /\ space_ok d sp' /\
    (exhaustive = true -> q = load_plan d routes /\ X = []) /\
    (exhaustive = false -> length X = Nat.min num (p_numClients d + p_numShipments d)) /\
    (exists x, perturbed d (load_plan d routes) sp X x /\ sp_mids (fst x) = q) /\
    effects d q r /\ structured d r /\ plan_ok d r /\ (structured d q -> r = q) /\
    (s = r \/ lower d ev s r) /\ plan_ok d s /\ structured d s /\
    Forall (built d) routes' /\ make_solution d routes' = Ok sol' /\
    (forall a, a_isDepot a = false -> In a (SolutionFacts.plan routes') <-> 1 <= tot s a) /\
    solution_penalised ev sol' = plan_cost d ev s.
Proof.
  intros B Es Si So. pose proof (start_inv sp routes sol B Es Si) as I0.
  assert (Er : so_routes sol = routes) by (destruct (sol_inv d routes B ND known_groups sol Es) as (_ & cv & sv & -> & _); reflexivity).
  set (st0 := ls_start d bops sp sol) in *. assert (E0 : l_plan st0 = load_plan d routes) by (unfold st0, ls_start, l_plan; rewrite Er; reflexivity).
  assert (Prep : exists st1 X, ls_prepare d ev num exhaustive st0 = Some st1 /\ pre_inv d ev bops st1 /\ same_space sp (l_space st1) /\
    (exhaustive = true -> l_plan st1 = load_plan d routes /\ X = []) /\ (exhaustive = false -> length X = Nat.min num (p_numClients d + p_numShipments d)) /\
    exists x, perturbed d (load_plan d routes) sp X x /\ sp_mids (fst x) = l_plan st1).
  { unfold ls_prepare. destruct exhaustive.
    - exists (with_space st0 (mark_all sp)), []. split; [reflexivity|]. split; [apply pre_space; [exact I0|apply mark_all_same]|]. split; [apply mark_all_same|].
      split; [intros _; split; [exact E0|reflexivity]|]. split; [discriminate|]. exists (sync d (load_plan d routes), sp). split; [|symmetry; exact E0].
      constructor; cbn [fst snd sp_mids sync]; auto; try (intros a []); [apply (load_ok routes B sol Es)|constructor|apply same_space_refl].
    - destruct (perturb_spec d h ev St num (load_plan d routes) sp (load_ok routes B sol Es) Si So) as ([s1 sp1] & X & E & Px & Lx).
      change (l_space st0) with sp. assert (Es0 : l_sol st0 = sync d (load_plan d routes)) by (rewrite <- E0; exact (pi_sync _ _ _ _ I0)). rewrite Es0, E.
      exists (with_space (with_sol st0 s1) sp1), X. split; [reflexivity|]. split; [|split; [exact (pt_space _ _ _ _ _ Px)|split; [discriminate|split; [auto|exists (s1, sp1); split; [exact Px|reflexivity]]]]].
      constructor.
      + exact (pt_sync _ _ _ _ _ Px).
      + exact (pt_ok _ _ _ _ _ Px).
      + cbn [l_rcs with_space with_sol]. unfold st0, ls_start. cbn [l_rcs]. clear Ops I0 st0 E0 Es0. induction bops as [|o os IH]; constructor; [apply none_ok|exact IH].
      + exact (same_space_inv d _ _ (pt_space _ _ _ _ _ Px) Si). }
  destruct Prep as (st1 & X & P1 & I1 & S1 & H1 & H2 & H3).
  destruct (ensure_spec d h ev St bops nodup_groups_of st1 I1) as (st2 & E2 & I2 & S2 & Ef).
  destruct (search_ends d h ev St uops bops Ops st2 I2) as (n & st3 & E3 & I3 & D3 & S3).
  destruct (plan_solution (l_plan st3) (li_ok _ _ _ _ I3) (sr_once _ _ (li_str _ _ _ _ I3))) as (routes' & sol' & _ & U & Es' & B' & _ & T & C).
  exists n, sol', (l_space st3), (l_plan st1), (l_plan st2), (l_plan st3), X, routes'.
  assert (SS : same_space sp (l_space st3)) by (eapply same_space_trans; [exact S1|eapply same_space_trans; eassumption]).
  split; [intros m Hm; unfold ls_call; fold st0; rewrite P1, E2, (E3 m Hm), (li_sync _ _ _ _ I3), U; reflexivity|].
  split; [exact SS|]. split; [exact (same_space_inv d _ _ SS Si)|]. split; [exact (same_space_ok d _ _ SS So)|]. split; [exact H1|]. split; [exact H2|]. split; [exact H3|].
  split; [exact Ef|]. split; [exact (li_str _ _ _ _ I2)|]. split; [exact (li_ok _ _ _ _ I2)|].
  split. { intros Sq. assert (I1x : ls_inv d ev bops st1) by (destruct I1; constructor; assumption). rewrite (ensure_nothing d h ev St bops nodup_groups_of st1 I1x) in E2. injection E2 as <-; reflexivity. }
  split; [destruct D3 as [D|D]; [left; exact D|right; exact D]|]. split; [exact (li_ok _ _ _ _ I3)|]. split; [exact (li_str _ _ _ _ I3)|]. split; [exact B'|]. split; [exact Es'|]. split; [exact T|exact C].
Qed.

(** ** The node bookkeeping *)
(** What the search routes hold when the plan is [p]. *)
Definition full_plan (p : plan) : list (list activity) :=
  map (fun x => ADepot (v_start (p_vehicle d (fst x))) :: snd x ++ [ADepot (v_end (p_vehicle d (fst x)))]) (combine (fleet d) p).

Lemma full_len p : length p = length (fleet d) -> length (full_plan p) = length p.
Proof. intros L. unfold full_plan. rewrite map_length, combine_length, L. apply Nat.min_id. Qed.
Lemma full_at p r : length p = length (fleet d) -> r < length p ->
  nth r (full_plan p) [] = ADepot (v_start (rveh d r)) :: mid_at p r ++ [ADepot (v_end (rveh d r))].
Proof.
  intros L Hr. apply nth_error_nth. unfold full_plan. rewrite nth_error_map.
  assert (E : nth_error (combine (fleet d) p) r = Some (nth r (fleet d) 0, mid_at p r)).
  { rewrite (nth_error_nth' _ (0, [])) by (rewrite combine_length; lia). rewrite combine_nth by (symmetry; exact L). reflexivity. }
  rewrite E. cbn [option_map fst snd]. rewrite rveh_type by lia. reflexivity.
Qed.
Lemma load_full routes sol : Forall (built d) routes -> make_solution d routes = Ok sol -> target d routes = full_plan (load_plan d routes).
Proof.
  intros B Es. unfold full_plan. rewrite (load_pairs routes B sol Es). unfold target. generalize (seq 0 (p_numVehicleTypes d)).
  induction l as [|t l IH]; [reflexivity|]. cbn [flat_map]. rewrite map_app, IH, map_app, map_map. f_equal. f_equal.
  - apply map_ext_in. intros r Hr. apply in_of_type in Hr as [Hr Ht]. pose proof (proj1 (Forall_forall _ _) B r Hr) as Br.
    destruct (built_mid d r Br) as (mid & _ & _ & _ & -> & ->). cbn [fst snd]. rewrite Ht. reflexivity.
  - clear. generalize (avail d t - length (of_type t routes)). induction n as [|n IH]; [reflexivity|]. cbn [repeat map]. rewrite IH. reflexivity.
Qed.
Lemma unload_heap s p : plan_ok d p -> ready d s (full_plan p) -> unload d s = unload_sol d (sync d p).
Proof.
  intros P [F Sy]. assert (L : length p = length (fleet d)) by (rewrite (pk_len d p P); unfold fleet_vehicles; apply map_length).
  assert (M : forall r, r < length p -> mid_of s r = mid_at p r).
  { intros r Hr. unfold mid_of. rewrite (fi_acts _ _ _ F r) by (rewrite full_len; assumption). rewrite full_at by assumption. cbn [List.tl]. apply removelast_last. }
  unfold unload, unload_sol. rewrite unload_sync by exact P. rewrite (fi_len _ _ _ F), full_len by exact L.
  assert (X : forall n k, k + n = length p -> unload_routes d s (seq k n) = plan_routes (skipn k (combine (fleet d) p))).
  { induction n as [|n IH]; intros k Hk.
    - cbn [seq unload_routes]. rewrite skipn_all2 by (rewrite combine_length; lia). reflexivity.
    - cbn [seq unload_routes]. rewrite IH by lia.
      assert (E : skipn k (combine (fleet d) p) = (nth k (fleet d) 0, mid_at p k) :: skipn (Datatypes.S k) (combine (fleet d) p)).
      { unfold mid_at. rewrite <- (combine_nth (fleet d) p k 0 []) by (symmetry; exact L).
        assert (Hl : k < length (combine (fleet d) p)) by (rewrite combine_length; lia). revert Hl. generalize (combine (fleet d) p) as l, (0, @nil activity) as z. clear.
        induction k as [|k IHk]; intros [|x l] z Hl; cbn in Hl; try lia; [reflexivity|]. cbn [skipn nth]. apply IHk. lia. }
      rewrite E. cbn [plan_routes]. rewrite (Sy k) by (rewrite full_len by exact L; lia). rewrite (fi_veh _ _ _ F k) by (rewrite full_len by exact L; lia).
      rewrite M by lia. change (nth k (fleet_vehicles d) dummy_vehicle) with (rveh d k).
      rewrite <- (cache_sync d p k) by lia. pose proof (isEmpty_at d p k) as Em. unfold isEmpty in Em. rewrite Em by lia.
      destruct (has_visit (mid_at p k)); reflexivity. }
  rewrite (X (length p) 0) by lia. reflexivity.
Qed.
End Facts.
Lemma trips_one v : (0 <= v_maxReloads v)%Z -> (1 <= v_maxTrips v)%Z.
Proof.
  intros H. unfold v_maxTrips. destruct (v_reload v); [lia|]. destruct (Z.eq_dec (v_maxReloads v) 0) as [E|E]; [|lia]. rewrite E. vm_compute. discriminate.
Qed.

(** ** The Python class, pyvrp/search/LocalSearch.py *)
(** What a local search object keeps between calls: the random number generator (shared with the
    caller), the search space, the operators and the perturbation manager. *)
Record searcher := mk_searcher {
  se_rng : rng; se_space : space; se_unary : list unary; se_binary : list binary; se_params : pparams; se_num : nat }.
(** LocalSearch.py:36-44; LocalSearch.cpp's constructor makes the search space, SearchSpace.cpp:11-32. *)
Definition make_searcher (d : pdata) (r : rng) (nb : neighbours) (pp : pparams) : res searcher :=
  match make_space d nb with
  | Ok sp => Ok (mk_searcher r sp [] [] pp (pm_init pp))
  | Err e => Err e
  end.
(** LocalSearch.py:46-56, add_operator *)
Definition add_unary (se : searcher) (o : unary) : searcher :=
  mk_searcher (se_rng se) (se_space se) (se_unary se ++ [o]) (se_binary se) (se_params se) (se_num se).
Definition add_binary (se : searcher) (o : binary) : searcher :=
  mk_searcher (se_rng se) (se_space se) (se_unary se) (se_binary se ++ [o]) (se_params se) (se_num se).
(** LocalSearch.cpp:110-117 *)
Definition se_shuffle (se : searcher) : searcher :=
  let '(r, num) := pm_shuffle (se_params se) (se_rng se) in
  let '(r, sp) := space_shuffle r (se_space se) in
  let '(r, us) := rng_shuffle r (se_unary se) in
  let '(r, bs) := rng_shuffle r (se_binary se) in
  mk_searcher r sp us bs (se_params se) num.
(** LocalSearch.py:92-121.  [n] bounds the number of rounds; [None] when it does not suffice or
    something goes wrong. *)
Definition py_call (d : pdata) (n : nat) (se : searcher) (sol : solution) (ev : evaluator) (exhaustive : bool) : option (solution * searcher) :=
  let se := se_shuffle se in
  match ls_call d ev (se_unary se) (se_binary se) n (se_num se) exhaustive (se_space se) sol with
  | Returns sol' sp' => Some (sol', mk_searcher (se_rng se) sp' (se_unary se) (se_binary se) (se_params se) (se_num se))
  | _ => None
  end.

(** The neighbourhoods cover the instance, the operators are ones that can be constructed. *)
Record usable (d : pdata) (se : searcher) : Prop := mk_usable {
  us_inv : space_inv d (se_space se);
  us_ok : space_ok d (se_space se);
  us_ops : Forall op_ok (se_binary se);
  us_params : pp_min (se_params se) <= pp_max (se_params se);
  us_num : pp_min (se_params se) <= se_num se <= pp_max (se_params se) }.
Lemma shuffle_usable d se : usable d se -> usable d (se_shuffle se).
Proof.
  intros [A B C D E]. unfold se_shuffle. pose proof (shuffle_range (se_params se) (se_rng se) D) as R.
  destruct (pm_shuffle (se_params se) (se_rng se)) as [r num]. cbn [snd] in R.
  destruct (shuffle_spec d r (se_space se) B) as (S1 & S2 & S3). destruct (space_shuffle r (se_space se)) as [r1 sp]. cbn [snd] in *.
  destruct (rng_shuffle r1 (se_unary se)) as [r2 us]. pose proof (rng_shuffle_perm r2 (se_binary se)) as Pb. destruct (rng_shuffle r2 (se_binary se)) as [r3 bs].
  cbn [snd] in *. constructor; cbn [se_space se_binary se_params se_num]; auto.
  - destruct A as [A1 A2 A3]. constructor; [exact (so_order _ _ S1)|exact (so_veh _ _ S1)|]. intros a Ha. unfold neighbours_of. rewrite S2. exact (A3 a Ha).
  - apply (Permutation_Forall Pb), C.
Qed.

(** A perturbation of nothing. *)
Lemma perturbed_nothing d p sp x : plan_ok d p -> perturbed d p sp [] x -> sp_mids (fst x) = p.
Proof.
  intros P Px. pose proof (pt_rest _ _ _ _ _ Px) as R. pose proof (pk_len _ _ (pt_ok _ _ _ _ _ Px)) as L. rewrite <- (pk_len _ _ P) in L.
  apply (nth_ext _ _ [] []); [exact L|]. intros r _. specialize (R r). unfold others, mid_at in R.
  assert (F : forall l, filter (fun a => negb (of_items [] a)) l = l) by (induction l as [|a l IH]; [reflexivity|]; cbn [filter]; change (of_items [] a) with false; cbn [negb]; rewrite IH; reflexivity).
  rewrite !F in R. exact R.
Qed.

Section Calls.
Variable d : pdata.
Variable h : Z.
Variable ev : evaluator.
Hypothesis St : setting d h ev.
Hypothesis ND : groups_nodup d.
Hypothesis Reloads : forall v, In v (p_vehicles d) -> (0 <= v_maxReloads v)%Z.

Lemma trips v : In v (p_vehicles d) -> (1 <= v_maxTrips v)%Z.
Proof. intros H. apply trips_one, Reloads, H. Qed.

Theorem py_call_spec se routes sol exhaustive : usable d se -> Forall (built d) routes -> make_solution d routes = Ok sol ->
  exists n sol' se' routes', (forall m, n <= m -> py_call d m se sol ev exhaustive = Some (sol', se')) /\ usable d se' /\
    Forall (built d) routes' /\ make_solution d routes' = Ok sol' /\ so_isComplete sol' = true /\
    (so_isComplete sol = true -> exhaustive = true \/ se_num (se_shuffle se) = 0 -> (solution_penalised ev sol' <= solution_penalised ev sol)%Z).
Proof.
  intros U B Es. pose proof (shuffle_usable d se U) as [A1 A2 A3 A4 A5]. set (s1 := se_shuffle se) in *.
  destruct (call_spec d h ev St ND trips (se_unary s1) (se_binary s1) A3 (se_space s1) routes sol (se_num s1) exhaustive B Es A1 A2)
    as (n & sol' & sp' & q & r & s & X & routes' & E & SS & Si & So & H1 & H2 & (x & Px & Ex) & Ef & Sr & Pr & Keep & Low & Ps & Ss & B' & Es' & T & C).
  exists n, sol', (mk_searcher (se_rng s1) sp' (se_unary s1) (se_binary s1) (se_params s1) (se_num s1)), routes'.
  split; [intros m Hm; unfold py_call; fold s1; rewrite (E m Hm); reflexivity|]. split; [constructor; assumption|]. split; [exact B'|]. split; [exact Es'|].
  split; [exact (plan_complete d h ev St ND s routes' sol' Ps Ss B' Es' T)|].
  intros Cs Ne. assert (Q : q = load_plan d routes).
  { destruct exhaustive; [exact (proj1 (H1 eq_refl))|]. destruct Ne as [|Ne]; [discriminate|]. specialize (H2 eq_refl). rewrite Ne in H2. destruct X; [|discriminate].
    rewrite <- Ex. apply (perturbed_nothing d _ (se_space s1)); [exact (load_ok d h ev St ND trips routes B sol Es)|exact Px]. }
  assert (Sq : structured d q) by (rewrite Q; apply (load_structured d h ev St ND trips routes B sol Es), Cs).
  rewrite (Keep Sq), Q in Low. rewrite C, <- (load_cost d h ev St ND trips routes B sol Es). destruct Low as [->|[L|[L _]]]; lia.
Qed.
End Calls.
(** *** The form in which the properties are stated *)
Lemma operators_usable d se u b : usable d se -> op_ok b -> usable d (add_unary se u) /\ usable d (add_binary se b).
Proof. intros [A B C D E] Hb. split; constructor; auto. apply Forall_app. split; [exact C|constructor; [exact Hb|constructor]]. Qed.
Lemma computed_usable d r np pp se : in_int64 d -> weight_ok (np_wait np) -> pp_min pp <= pp_max pp ->
  make_searcher d r (compute_neighbours d np) pp = Ok se -> usable d se.
Proof.
  intros Hd Hw Hp. unfold make_searcher. destruct (make_space d (compute_neighbours d np)) as [sp|] eqn:E; [|discriminate]. intros H. injection H as <-.
  destruct (make_space_ok d _ sp E) as (S1 & S2 & _). destruct (neighbourhoods_wf d np Hd Hw) as [W1 W2].
  constructor; cbn [se_space se_binary se_params se_num]; [|exact S1|constructor|exact Hp|unfold pm_init; lia].
  constructor; [exact (so_order _ _ S1)|exact (so_veh _ _ S1)|]. intros a Ha. unfold neighbours_of. rewrite S2.
  assert (X : forall nb, In a (map fst nb) -> exists l, nb_find nb a = Some l /\ In (a, l) nb).
  { induction nb as [|[b l] nb IH]; intros Hin; [destruct Hin|]. cbn [nb_find map fst] in *. destruct (a_eqb b a) eqn:Eb.
    - apply a_eqb_eq in Eb. subst b. exists l. split; [reflexivity|left; reflexivity].
    - destruct Hin as [->|Hin]; [rewrite a_eqb_refl in Eb; discriminate|]. destruct (IH Hin) as (l' & H1 & H2). exists l'. split; [exact H1|right; exact H2]. }
  destruct (X (compute_neighbours d np)) as (l & -> & Hl); [rewrite W1; exact Ha|]. exists l. split; [reflexivity|].
  destruct (W2 a l Hl) as (_ & _ & K). split; [intros Hin; exact (proj1 (proj2 (K a Hin)) eq_refl)|]. intros b Hb. exact (proj1 (K b Hb)).
Qed.
Lemma search_more d ev uops bops n st st' : search d ev uops bops n st = Finished st' -> forall m, n <= m -> search d ev uops bops m st = Finished st'.
Proof. intros H m Hm. unfold search in *. destruct uops; [destruct bops|]; auto; eapply loop_more; eassumption. Qed.
Lemma py_call_more d n se sol ev exhaustive x : py_call d n se sol ev exhaustive = Some x -> forall m, n <= m -> py_call d m se sol ev exhaustive = Some x.
Proof.
  intros H m Hm. unfold py_call, ls_call in *. destruct (ls_prepare _ _ _ _ _) as [st|]; [|discriminate]. destruct (ensure d ev st) as [st1|]; [|discriminate].
  destruct (search d ev _ _ n st1) as [st2| |] eqn:E; [|discriminate|discriminate]. rewrite (search_more _ _ _ _ _ _ _ E m Hm). exact H.
Qed.

Section Properties.
Variable d : pdata.
Variable h : Z.
Variable ev : evaluator.
Hypothesis St : setting d h ev.
Hypothesis ND : groups_nodup d.
Hypothesis Reloads : forall v, In v (p_vehicles d) -> (0 <= v_maxReloads v)%Z.

Lemma own_routes routes sol : Forall (built d) routes -> make_solution d routes = Ok sol -> so_routes sol = routes.
Proof. intros B Es. destruct (sol_inv d routes B ND (known_groups d h ev St) sol Es) as (_ & cv & sv & -> & _). reflexivity. Qed.
Lemma py_call_complete se routes sol exhaustive n sol' se' : usable d se -> Forall (built d) routes -> make_solution d routes = Ok sol ->
  py_call d n se sol ev exhaustive = Some (sol', se') ->
  usable d se' /\ Forall (built d) (so_routes sol') /\ make_solution d (so_routes sol') = Ok sol' /\ so_isComplete sol' = true /\
  (forall i, i < p_numClients d -> c_required (p_client d i) = true -> In (AClient i) (SolutionFacts.plan (so_routes sol'))) /\
  (forall i, i < p_numShipments d -> s_required (p_shipment d i) = true -> In (APickup i) (SolutionFacts.plan (so_routes sol')) /\ In (ADelivery i) (SolutionFacts.plan (so_routes sol'))) /\
  (forall g, In g (p_groups d) -> g_required g = true -> exists i, In i (g_clients g) /\ In (AClient i) (SolutionFacts.plan (so_routes sol'))) /\
  (forall g i j, In g (p_groups d) -> In i (g_clients g) -> In j (g_clients g) -> In (AClient i) (SolutionFacts.plan (so_routes sol')) -> In (AClient j) (SolutionFacts.plan (so_routes sol')) -> i = j).
Proof.
  intros U B Es E. destruct (py_call_spec d h ev St ND Reloads se routes sol exhaustive U B Es) as (n0 & sol0 & se0 & routes' & H & U' & B' & Es' & C & _).
  pose proof (py_call_more d n se sol ev exhaustive _ E (Nat.max n n0) ltac:(lia)) as E'. rewrite (H (Nat.max n n0)) in E' by lia. injection E' as -> ->.
  rewrite (own_routes routes' sol' B' Es'). split; [exact U'|]. split; [exact B'|]. split; [exact Es'|]. split; [exact C|].
  pose proof (proj1 (complete_spec d routes' B' ND (known_groups d h ev St) sol' Es') C) as (C1 & C2 & C3).
  split; [exact C1|]. split; [exact C2|]. split; [exact C3|]. destruct (sol_inv d routes' B' ND (known_groups d h ev St) sol' Es') as (Co & _).
  intros g i j Hg Hi Hj. exact (cs_groups d routes' Co g i j Hg Hi Hj).
Qed.
Lemma py_call_no_worse se routes sol exhaustive n sol' se' : usable d se -> Forall (built d) routes -> make_solution d routes = Ok sol ->
  py_call d n se sol ev exhaustive = Some (sol', se') -> so_isComplete sol = true ->
  exhaustive = true \/ se_num (se_shuffle se) = 0 -> (solution_penalised ev sol' <= solution_penalised ev sol)%Z.
Proof.
  intros U B Es E Cs Ne. destruct (py_call_spec d h ev St ND Reloads se routes sol exhaustive U B Es) as (n0 & sol0 & se0 & routes' & H & _ & _ & _ & _ & L).
  pose proof (py_call_more d n se sol ev exhaustive _ E (Nat.max n n0) ltac:(lia)) as E'. rewrite (H (Nat.max n n0)) in E' by lia. injection E' as -> ->.
  exact (L Cs Ne).
Qed.
Lemma load_as_plan s pl routes sol : ready d s pl -> length pl = length (fleet d) -> Forall (built d) routes -> make_solution d routes = Ok sol ->
  exists s', load d s (so_routes sol) = Some (s', false) /\ ready d s' (full_plan d (load_plan d (so_routes sol))) /\
    plan_ok d (load_plan d (so_routes sol)) /\ plan_cost d ev (load_plan d (so_routes sol)) = solution_penalised ev sol /\
    forall a, a_isDepot a = false -> In a (SolutionFacts.plan (so_routes sol)) <-> tot (load_plan d (so_routes sol)) a = 1.
Proof.
  intros R L B Es. rewrite (own_routes routes sol B Es). pose proof (trips d Reloads) as Tr. pose proof (load_ok d h ev St ND Tr routes B sol Es) as P.
  rewrite fleet_len in L. destruct (load_spec d s pl routes R L B (load_consistent d h ev St ND routes B sol Es)) as (s' & El & R').
  exists s'. split; [exact El|]. rewrite <- (load_full d h ev St ND routes sol B Es). split; [exact R'|]. split; [exact P|].
  split; [exact (load_cost d h ev St ND Tr routes B sol Es)|]. intros a Ha. rewrite (load_tot d routes B a Ha). pose proof (pk_once d _ P a Ha). lia.
Qed.
Lemma unload_as_plan s p : plan_ok d p -> group_once d p -> ready d s (full_plan d p) ->
  exists sol, unload d s = Ok sol /\ unload_sol d (sync d p) = Ok sol /\ Forall (built d) (so_routes sol) /\ make_solution d (so_routes sol) = Ok sol /\
    solution_penalised ev sol = plan_cost d ev p /\ forall a, a_isDepot a = false -> In a (SolutionFacts.plan (so_routes sol)) <-> tot p a = 1.
Proof.
  intros P G R. pose proof (trips d Reloads) as Tr. destruct (plan_solution d h ev St ND Tr p P G) as (routes & sol & _ & U & Es & B & _ & T & C).
  exists sol. rewrite (unload_heap d s p P R). rewrite (own_routes routes sol B Es). split; [exact U|]. split; [exact U|]. split; [exact B|]. split; [exact Es|]. split; [exact C|].
  intros a Ha. rewrite (T a Ha). pose proof (pk_once d p P a Ha). lia.
Qed.
End Properties.
