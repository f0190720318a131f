(** The model on the inputs of tests/search/test_SearchSpace.py, test_neighbourhood.py, test_PerturbationManager.py,
    test_Solution.py and test_LocalSearch.py; see TestData.v.
    Each example has the name of the test, and the values on the right are those that the test expects. *)
From Coq Require Import ZArith List String Bool Lia.
From Flocq Require Import IEEE754.BinarySingleNaN.
From Verif Require Import Base DurationSegment Data DataCtor LoadSegment Read SearchRoute Route Solution Cost Penalty Rng MakeRandom Equal Bitset SearchSpace Neighbourhood
  Perturb Ops LocalSearch LocalRun Counted Hang TestData TestRoute TestOps TestSolution.
Import ListNotations.
Local Open Scope Z_scope.

(** ** The proximities of a row computed once *)
Lemma insert_by_ext f g x l : (forall y, In y (x :: l) -> f y = g y) -> insert_by f x l = insert_by g x l.
Proof.
  induction l as [|y l IH]; intros H; [reflexivity|]. cbn. rewrite (H x), (H y), IH; cbn; auto.
  intros z [<-|Hz]; apply H; cbn; auto.
Qed.
Lemma insert_by_in f x l y : In y (insert_by f x l) -> In y (x :: l).
Proof. induction l as [|z l IH]; cbn; auto. destruct (Bltb (f x) (f z)); cbn; [tauto|]. intros [E|E]; [tauto|]. specialize (IH E). cbn in IH. tauto. Qed.
Lemma stable_sort_ext f g l : (forall y, In y l -> f y = g y) -> stable_sort f l = stable_sort g l.
Proof.
  unfold stable_sort. assert (G : forall l acc, (forall y, In y (l ++ acc) -> f y = g y) ->
    fold_left (fun acc x => insert_by f x acc) l acc = fold_left (fun acc x => insert_by g x acc) l acc).
  { clear l. induction l as [|x l IH]; intros acc H; [reflexivity|]. cbn. rewrite (insert_by_ext f g).
    - apply IH. intros y Hy. apply H. apply in_app_iff in Hy. destruct Hy as [Hy|Hy]; [right; apply in_app_iff; auto|].
      apply insert_by_in in Hy. destruct Hy as [<-|Hy]; [now left|right; apply in_app_iff; auto].
    - intros y [<-|Hy]; apply H; [now left|right; apply in_app_iff; auto]. }
  intros H. apply G. now rewrite app_nil_r.
Qed.
Definition nearest_fast (d : pdata) (p : nparams) (row : nat) : list activity :=
  let table := map (prox_final d p row) (seq 0 (num_cols d)) in
  map (col_activity d) (firstn (num_neighbours d p) (stable_sort (fun c => nth c table b64_inf) (seq 0 (num_cols d)))).
Lemma nearest_fast_eq d p row : nearest_fast d p row = nearest d p row.
Proof.
  unfold nearest_fast, nearest. f_equal. f_equal. apply stable_sort_ext. intros y Hy. apply in_seq in Hy.
  rewrite nth_indep with (d' := prox_final d p row 0) by (rewrite map_length, seq_length; lia). rewrite map_nth, seq_nth by lia. reflexivity.
Qed.
Definition neighbours_fast (d : pdata) (p : nparams) : neighbours :=
  map (fun i => (AClient i, nearest_fast d p i)) (seq 0 (p_numClients d))
  ++ map (fun i => (APickup i, nearest_fast d p (p_numClients d + i))) (seq 0 (p_numShipments d)).
Lemma neighbours_fast_eq d p : neighbours_fast d p = compute_neighbours d p.
Proof. unfold neighbours_fast, compute_neighbours. f_equal; apply map_ext; intros i; now rewrite nearest_fast_eq. Qed.

(** ** Instances *)
(** The distances that vrplib computes for EUC_2D, times ten and rounded down: read(..., round_func="dimacs"). *)
Definition euclid (coords : list (Z * Z)) : list Z :=
  flat_map (fun p => map (fun q => Z.sqrt (100 * ((fst p - fst q) ^ 2 + (snd p - snd q) ^ 2))) coords) coords.
Definition tens := map (Z.mul 10).
Definition tens2 := map (fun p : Z * Z => (10 * fst p, 10 * snd p)).
(** tests/data/p06-2-50.vrp *)
Definition coordPrizes : list (Z * Z) := [(30, 40); (37, 52); (49, 49); (52, 64); (20, 26); (40, 30); (21, 47); (17, 63); (31, 62); (52, 33); (51,
  21); (42, 41); (31, 32); (5, 25); (12, 42); (36, 16); (52, 41); (27, 23); (17, 33); (13, 13); (57, 58); (62, 42); (42, 57); (16, 57); (8, 52); (7,
  38); (27, 68); (30, 48); (43, 67); (58, 48); (58, 27); (37, 69); (38, 46); (46, 10); (61, 33); (62, 63); (63, 69); (32, 22); (45, 35); (59, 15); (5,
  6); (10, 17); (21, 10); (5, 64); (30, 15); (39, 10); (32, 39); (25, 32); (25, 55); (48, 28); (56, 37)].
Definition demPrizes : list Z := [0; 7; 30; 16; 9; 21; 15; 19; 23; 11; 5; 19; 29; 23; 21; 10; 15; 3; 41; 9; 28; 8; 8; 16; 10; 28; 7; 15; 14; 6; 19;
  11; 12; 23; 26; 17; 6; 9; 15; 14; 7; 27; 13; 11; 16; 10; 5; 25; 17; 18; 10].
Definition prizesPrizes : list Z := [0; 5; 23; 12; 6; 25; 15; 23; 30; 9; 3; 25; 16; 23; 24; 5; 18; 2; 31; 9; 33; 7; 4; 14; 14; 15; 9; 16; 9; 8; 16;
  15; 9; 32; 16; 17; 8; 10; 19; 18; 9; 34; 8; 13; 19; 6; 5; 32; 10; 19; 13].
Definition prizeCollecting : pdata := Eval vm_compute in
  load (mk_instance "CPTP" 51 (Some [0]) (Some 2%nat) (51%nat, 51%nat, euclid coordPrizes) None (Some (map (fun x => [10 * x]) demPrizes)) None
    (Some (tens2 coordPrizes)) None None None (Some (tens prizesPrizes)) (Some (Uniform [500])) None None None None None None None None None None).
(** tests/data/RC208.vrp *)
Definition coordRC : list (Z * Z) := [(40, 50); (25, 85); (22, 75); (22, 85); (20, 80); (20, 85); (18, 75); (15, 75); (15, 80); (10, 35); (10, 40);
  (8, 40); (8, 45); (5, 35); (5, 45); (2, 40); (0, 40); (0, 45); (44, 5); (42, 10); (42, 15); (40, 5); (40, 15); (38, 5); (38, 15); (35, 5); (95, 30);
  (95, 35); (92, 30); (90, 35); (88, 30); (88, 35); (87, 30); (85, 25); (85, 35); (67, 85); (65, 85); (65, 82); (62, 80); (60, 80); (60, 85); (58,
  75); (55, 80); (55, 85); (55, 82); (20, 82); (18, 80); (2, 45); (42, 5); (42, 12); (72, 35); (55, 20); (25, 30); (20, 50); (55, 60); (30, 60); (50,
  35); (30, 25); (15, 10); (10, 20); (15, 60); (45, 65); (65, 35); (65, 20); (45, 30); (35, 40); (41, 37); (64, 42); (40, 60); (31, 52); (35, 69);
  (65, 55); (63, 65); (2, 60); (20, 20); (5, 5); (60, 12); (23, 3); (8, 56); (6, 68); (47, 47); (49, 58); (27, 43); (37, 31); (57, 29); (63, 23); (21,
  24); (12, 24); (24, 58); (67, 5); (37, 47); (49, 42); (53, 43); (61, 52); (57, 48); (56, 37); (55, 54); (4, 18); (26, 52); (26, 35); (31, 67)].
Definition demRC : list Z := [0; 20; 30; 10; 40; 20; 20; 20; 10; 20; 30; 40; 20; 10; 10; 20; 20; 20; 20; 40; 10; 10; 40; 30; 10; 20; 30; 20; 10; 10;
  10; 20; 10; 10; 30; 20; 40; 10; 30; 10; 30; 20; 10; 20; 10; 10; 10; 10; 10; 10; 30; 19; 3; 5; 16; 16; 19; 23; 20; 19; 17; 9; 3; 6; 17; 16; 16; 9;
  21; 27; 23; 14; 8; 5; 8; 16; 31; 7; 27; 30; 13; 10; 9; 14; 18; 2; 28; 13; 19; 25; 6; 13; 14; 3; 23; 6; 26; 35; 9; 15; 3].
Definition winRC : list (Z * Z) := [(0, 960); (388, 911); (30, 546); (353, 708); (425, 913); (40, 630); (228, 667); (161, 558); (229, 624); (213,
  648); (404, 753); (33, 511); (46, 519); (395, 911); (35, 697); (39, 528); (94, 535); (394, 909); (218, 571); (85, 542); (391, 802); (45, 517); (229,
  640); (45, 523); (389, 914); (386, 904); (389, 788); (57, 600); (55, 575); (52, 536); (90, 521); (50, 534); (425, 898); (51, 602); (342, 751); (410,
  905); (43, 617); (410, 823); (114, 561); (36, 658); (191, 586); (201, 670); (33, 568); (429, 838); (49, 504); (37, 597); (315, 782); (38, 606);
  (396, 904); (341, 658); (351, 782); (161, 610); (25, 516); (239, 630); (448, 873); (420, 897); (390, 843); (227, 686); (401, 902); (42, 706); (401,
  923); (110, 525); (29, 548); (39, 593); (20, 498); (11, 530); (404, 847); (100, 555); (436, 907); (9, 510); (330, 930); (81, 520); (27, 622); (135,
  556); (430, 913); (63, 520); (125, 530); (390, 900); (190, 659); (215, 608); (444, 942); (249, 580); (14, 506); (19, 566); (259, 650); (198, 609);
  (212, 605); (272, 565); (90, 549); (325, 897); (204, 633); (442, 937); (14, 581); (373, 928); (265, 638); (20, 539); (418, 825); (426, 787); (14,
  499); (149, 586); (356, 930)].
Definition rc208 : pdata := Eval vm_compute in
  load (mk_instance "CVRPTW" 101 (Some [0]) (Some 25%nat) (101%nat, 101%nat, euclid coordRC) None (Some (map (fun x => [10 * x]) demRC)) None
    (Some (tens2 coordRC)) (Some (Uniform 100)) (Some (tens2 winRC)) None None (Some (Uniform [10000])) None None None None None None None None None None).
Example instances_read : (p_numClients prizeCollecting, p_numClients rc208, map v_numAvailable (p_vehicles prizeCollecting ++ p_vehicles rc208)) = (50, 100, [2; 25])%nat.
Proof. run. Qed.

Definition npDefault : nparams := mk_nparams (dec 2 10) (Z.to_nat 50) true.
Definition nb (d : pdata) : neighbours := neighbours_fast d npDefault.
Definition noNb (d : pdata) : neighbours := map (fun a => (a, [])) (activity_order d).
Definition no_space := mk_space [] [] [] (bs_make 0).
Definition spaceOf (d : pdata) (l : neighbours) : space := ok no_space (make_space d l).
Definition nbOf (l : neighbours) (a : activity) : list activity := match nb_find l a with Some x => x | None => [] end.

(** ** test_SearchSpace.py *)
Example test_raises_when_neighbourhood_dimensions_do_not_match :
  map (fun n => let l := map (fun i => (C i, [])) (seq 0 n) in (fails (make_space okSmall l), fails (set_neighbours (spaceOf okSmall (nb okSmall)) l))) [1; 2; 3; 5; 6; 7; 4]%nat =
  repeat (true, true) 6 ++ [(false, false)].
Proof. run. Qed.
Example test_raises_when_neighbourhood_contains_self : fails (make_space okSmall [(C 0, [C 0]); (C 1, [C 2]); (C 2, [C 3]); (C 3, [C 0])]) = true.
Proof. run. Qed.
Example test_get_neighbours :
  let l := [(C 0, [C 1; C 2]); (C 1, [C 2; C 3]); (C 2, [C 0; C 1]); (C 3, [C 1; C 2])] in let s := spaceOf okSmall l in
  (ss_neighbours s, map (fun i => neighbours_of s (C i)) [0; 1; 2; 3]%nat) = (l, map (fun e => Ok (snd e)) l).
Proof. run. Qed.
Example test_promising :
  map (fun i => let s := spaceOf okSmall (nb okSmall) in (is_promising s (C i), is_promising (mark s (C i)) (C i))) [0; 1; 2; 3]%nat = repeat (false, true) 4.
Proof. run. Qed.
Definition promising (s : space) : list nat := filter (fun i => is_promising s (C i)) [0; 1; 2; 3]%nat.
Example test_all_promising :
  let s := spaceOf okSmall (nb okSmall) in (promising s, promising (mark_all s), promising (unmark_all (mark_all s))) = ([], [0; 1; 2; 3], [])%nat.
Proof. run. Qed.
Example test_node_promising :
  map (fun i => promising (mark_node (spaceOf okSmall (nb okSmall)) [D 0; C 0; C 1; C 2; C 3; D 0] i)) [0; 1; 2; 3; 4; 5]%nat =
  [[0]; [0; 1]; [0; 1; 2]; [1; 2; 3]; [2; 3]; [3]]%nat.
Proof. run. Qed.
Example test_search_order_and_shuffle :
  let s := spaceOf okTwoProfiles (nb okTwoProfiles) in let '(r1, s1) := space_shuffle (rng_seed 1821) s in let '(r2, s2) := space_shuffle r1 s1 in
  (ss_order s, ss_vehOrder s, ss_order s1, ss_vehOrder s1, ss_order s2) =
  ([C 0; C 1; C 2; C 3], [(0, 0); (1, 3)]%nat, [C 0; C 2; C 1; C 3], [(1, 3); (0, 0)]%nat, [C 3; C 2; C 1; C 0]).
Proof. run. Qed.
Example test_small_shipments :
  let s := spaceOf smallShipments (nb smallShipments) in
  (existsb (a_eqb (L 0)) (ss_order s), is_promising s (L 0), is_promising (mark s (L 0)) (L 0)) = (true, false, true).
Proof. run. Qed.
Example test_raises_neighbourhood_keys_other_than_clients_pickups :
  let l := (U 0, []) :: List.tl (nb smallShipments) in (List.length l, fails (make_space smallShipments l)) = (4%nat, true).
Proof. run. Qed.

(** ** test_neighbourhood.py *)
Example test_neighbourhood_params_raises_for_empty_neighbourhoods : fails (make_nparams (dec 2 10) 0 true) = true.
Proof. run. Qed.
(** The neighbours as a set: the indices in increasing order. *)
Definition indices (n : nat) (l : list activity) : list nat := filter (fun i => existsb (a_eqb (C i)) l) (seq 0 n).
Definition rcNear (w : Z) (num row : nat) : list activity := nearest_fast rc208 (mk_nparams (b64_of_Z w) num true) row.
Example test_compute_neighbours :
  [indices 100 (rcNear 20 10 1); indices 100 (rcNear 18 34 0); indices 100 (rcNear 18 34 98)] =
  [[0; 2; 3; 4; 5; 6; 7; 44; 45; 99];
   [1; 2; 3; 4; 5; 6; 7; 35; 36; 37; 38; 39; 40; 41; 42; 43; 44; 45; 52; 53; 54; 59; 60; 67; 68; 69; 72; 77; 78; 80; 87; 89; 97; 99];
   [8; 9; 10; 11; 12; 13; 14; 15; 19; 21; 23; 46; 51; 52; 54; 55; 56; 57; 58; 59; 63; 64; 65; 68; 73; 79; 81; 82; 85; 86; 87; 89; 90; 97]]%nat.
Proof. run. Qed.
Example test_more_neighbours_than_instance_size : List.length (nearest_fast rc208 (mk_nparams (dec 2 10) 100 true) 0) = 99%nat.
Proof. run. Qed.
Example test_proximity_with_mutually_exclusive_groups :
  let l := neighbours_fast okGroups (mk_nparams (b64_of_Z 0) 1 true) in
  forallb (fun i => forallb (fun j => negb (existsb (a_eqb (C j)) (nbOf l (C i)))) [0; 1; 2]%nat) [0; 1; 2]%nat = true.
Proof. run. Qed.
Definition huge : matrix := mk_matrix 5 5 (map (fun k => if Nat.eqb (k / 5) (k mod 5) then 0 else 10000) (seq 0 25)).
Example test_multiple_routing_profiles :
  nb (with_vehicles (with_matrices okSmall (huge :: p_dists okSmall) (huge :: p_durs okSmall)) [v_prof 1 (veh 1 [10]); veh0 okSmall]) = nb okSmall.
Proof. run. Qed.
Example test_zero_clients_or_shipments : nb (data 1 [] [dep 0] [veh 1 []] [zeros 1] [zeros 1]) = [].
Proof. run. Qed.
Example test_shipments_exclude_either_activity_in_neighbourhood :
  map (fun i => let l := nb smallShipments in (nb_find l (U i), existsb (a_eqb (L i)) (nbOf l (L i)), existsb (a_eqb (U i)) (nbOf l (L i)), List.length (nbOf l (L i)))) [0; 1; 2; 3]%nat =
  repeat (None, false, false, 6%nat) 4.
Proof. run. Qed.
Example test_shipment_proximity_uses_pickup_and_delivery :
  let m := mat (map (fun i => map (fun j => if Nat.eqb i j then 0 else
    if Nat.eqb (i * j) 3 then 10 else if Nat.eqb (i * j) 8 then 1 else 100) (seq 0 5)) (seq 0 5)) in
  let d := ok no_data (make_pdata (locs 5) [cli 1; cli 2] [dep 0] [veh 1 []] [m] [m] [] [mk_shipment (mk_step 3 0 0 MAXV) (mk_step 4 0 0 MAXV) [] 0 true EmptyString]) in
  nbOf (neighbours_fast d (mk_nparams (b64_of_Z 0) 1 true)) (L 0) = [C 1].
Proof. run. Qed.
Example test_mixed_client_shipments :
  let l := nb (with_clients smallShipments [c_dem [0] [0] (cli 2); c_dem [1] [0] (cli 5)]) in
  (List.length l, nth 0 (nbOf l (C 0)) (D 9), nth 0 (nbOf l (L 0)) (D 9), List.length (nbOf l (C 0))) = (6%nat, L 0, C 0, 7%nat).
Proof. run. Qed.

(** ** test_PerturbationManager.py *)
Example test_raises_max_smaller_than_min : (fails (Perturb.make_pparams 1 0), fails (Perturb.make_pparams 0 0)) = (true, false).
Proof. run. Qed.
Fixpoint draws (n : nat) (pp : Perturb.pparams) (r : rng) : list nat := match n with O => [] | S n => let '(r, k) := Perturb.pm_shuffle pp r in k :: draws n pp r end.
(** One thousand draws: least, largest, and the mean within 0.05 of 5.5. *)
Example test_num_perturbations_randomness :
  let l := draws (Z.to_nat 1000) (Perturb.mk_pparams 1 10) (rng_seed 42) in let s := zsum (map Z.of_nat l) in
  (fold_left Nat.min l 99%nat, fold_left Nat.max l 0%nat, (5450 <=? s) && (s <=? 5550)) = (1%nat, 10%nat, true).
Proof. run. Qed.
Definition perturbed (d : pdata) (ev : evaluator) (num : nat) (l : neighbours) (p : plan) : plan :=
  match perturb d ev num (sync d p, spaceOf d l) with Some (s, _) => sp_mids s | None => [] end.
Definition visits (p : plan) : nat := List.length (concat p).
Example test_perturb_inserts_clients : visits (perturbed okSmall (evaluator_of [20] 6 0) 4 (nb okSmall) [[]; []; []]) = 4%nat.
Proof. run. Qed.
Example test_perturb_removes_clients : visits (perturbed okSmall (evaluator_of [20] 6 0) 4 (nb okSmall) [[C 0; C 1]; [C 2; C 3]; []]) = 0%nat.
Proof. run. Qed.
Example test_perturb_groups_neighbours_by_route :
  let p := perturbed smallShipments (evaluator_of [1] 1 0) 3 [(L 0, [U 2; U 3; U 1]); (L 1, []); (L 2, []); (L 3, [])] [[L 0; U 0; L 1; U 1]; [L 3; U 3]] in
  map (fun i => existsb (a_eqb (L i)) (concat p)) [0; 1; 2; 3]%nat = [false; false; true; true].
Proof. run. Qed.
Example test_perturb_inserts_into_new_routes :
  let d := with_vehicles okSmall [v_cap [5] (veh0 okSmall)] in
  map (fun l => Nat.ltb 0 (List.length l)) (perturbed d (evaluator_of [2000] 0 0) 3 (noNb d) [[]; []; []]) = [true; true; true].
Proof. run. Qed.
Example test_perturb_shipments_remove :
  let '(_, s) := make_random smallShipments (rng_seed 42) in let s := ok no_solution s in
  (so_isComplete s, visits (load_plan smallShipments (so_routes s)), visits (perturbed smallShipments (evaluator_of [1] 1 0) 1 (nb smallShipments) (load_plan smallShipments (so_routes s)))) =
  (true, 8, 6)%nat.
Proof. run. Qed.
Example test_perturb_shipments_insert :
  let p := perturbed smallShipments (evaluator_of [1] 1 0) 1 (nb smallShipments) [[L 1; U 1]; []] in
  (visits p, existsb (a_eqb (L 0)) (concat p), existsb (a_eqb (L 2)) (concat p)) = (4%nat, true, false).
Proof. run. Qed.
Example test_perturb_shipment_empty_route : visits (perturbed smallShipments (evaluator_of [1] 1 0) 4 (nb smallShipments) [[]; []]) = 8%nat.
Proof. run. Qed.

(** ** test_Solution.py (of the search) *)
Definition emptyPlan (d : pdata) : plan := repeat [] (List.length (SearchLoad.fleet d)).
Example test_load_unload :
  let s := sc okSmall [[0; 1]; [2; 3]]%nat in (match unload_sol okSmall (sync okSmall (load_plan okSmall (so_routes s))) with Ok t => solution_eqb s t | Err _ => false end) = true.
Proof. run. Qed.
Example test_clients_routes_access : load_plan okSmall (so_routes (sc okSmall [[0; 1]; [2; 3]]%nat)) = [[C 0; C 1]; [C 2; C 3]; []].
Proof. run. Qed.
Definition insC (d : pdata) (ev : evaluator) (l : neighbours) (p : plan) (i : nat) (required : bool) := insert_client d ev (spaceOf d l) (sync d p) i required.
Definition insS (d : pdata) (ev : evaluator) (l : neighbours) (p : plan) (i : nat) (required : bool) := insert_shipment d ev (spaceOf d l) (sync d p) i required.
Example test_insert_required :
  (insC okSmall ev0 (nb okSmall) (emptyPlan okSmall) 1 false, match insC okSmall ev0 (nb okSmall) (emptyPlan okSmall) 1 true with Some (Some p) => visits p | _ => 0%nat end) =
  (Some None, 1%nat).
Proof. run. Qed.
Example test_insert_shipment :
  (insS smallShipments ev0 (nb smallShipments) [[]; []] 0 false, insS smallShipments ev0 (nb smallShipments) [[]; []] 0 true) = (Some None, Some (Some [[L 0; U 0]; []])).
Proof. run. Qed.
Example test_insert_mixed_client_and_shipment :
  let d := with_clients smallShipments [c_dem [0] [0] (cli 2)] in
  match insS d ev0 (nb d) [[]; []] 1 true with
  | Some (Some p) => (insC d ev0 (nb d) p 0 false, match insC d ev0 (nb d) p 0 true with Some (Some q) => nth 0 q [] | _ => [] end)
  | _ => (None, []) end = (Some None, [L 1; U 1; C 0]).
Proof. run. Qed.
Example test_insert_pickup_delivery_non_adjacent :
  insS smallShipments ev0 (nb smallShipments) [[L 0; L 1; L 3; U 0; U 1; U 3]; []] 2 true = Some (Some [[L 0; L 1; L 3; U 0; L 2; U 1; U 3; U 2]; []]).
Proof. run. Qed.
Example test_insert_shipment_at_neighbour_predecessor :
  let q := insS smallShipments ev0 [(L 0, [L 1]); (L 1, []); (L 2, []); (L 3, [])] [[L 1; U 1]; []] 0 true in
  (dist smallShipments [[L 1; U 1]; []] 0, q, match q with Some (Some p) => dist smallShipments p 0 | _ => 0 end) = (27732, Some (Some [[L 0; U 0; L 1; U 1]; []]), 30857).
Proof. run. Qed.

(** ** test_LocalSearch.py *)
(** LocalSearch(data, rng, neighbours, PerturbationManager(PerturbationParams(lo, hi))) with operators. *)
Definition ls_pp (lo hi : nat) (d : pdata) (r : rng) (l : neighbours) (us : list unary) (bs : list binary) : searcher :=
  let pp := Perturb.mk_pparams lo hi in let se := ok (mk_searcher r no_space [] [] pp lo) (make_searcher d r l pp) in
  fold_left add_binary bs (fold_left add_unary us se).
Definition ls := ls_pp 1 25.
Definition quiet := ls_pp 0 0.
Definition call (d : pdata) (se : searcher) (s : solution) (ev : evaluator) (exhaustive : bool) : solution :=
  match py_call d (Z.to_nat 1000) se s ev exhaustive with Some (t, _) => t | None => no_solution end.
Definition call2 (d : pdata) (se : searcher) (s : solution) (ev : evaluator) (exhaustive : bool) : solution * searcher :=
  match py_call d (Z.to_nat 1000) se s ev exhaustive with Some x => x | None => (no_solution, se) end.
(** The call with its statistics. *)
Definition callStats (rounds : nat) (d : pdata) (se : searcher) (s : solution) (ev : evaluator) (exhaustive : bool) :=
  let se := se_shuffle se in counted_call d ev (se_unary se) (se_binary se) rounds (se_num se) exhaustive (se_space se) s.
Definition stats (x : ls_result * option (lstats * counted)) : option (nat * nat * Z) :=
  option_map (fun y => let t := fst y in (ls_moves t, ls_improving t, ls_updates t)) (snd x).
Definition eqs (s t : solution) : bool := solution_eqb s t.
Definition random42 (d : pdata) : rng * solution := let '(r, s) := make_random d (rng_seed 42) in (r, ok no_solution s).
Definition pcost (ev : evaluator) (s : solution) : Z := solution_penalised ev s.
Definition plan_of (s : solution) : list (list activity) := map (fun r => removelast (List.tl (TestRoute.acts r))) (so_routes s).

Example test_local_search_returns_same_solution_with_empty_neighbourhood :
  let '(r, s) := random42 okSmall in eqs (call okSmall (ls okSmall r (noNb okSmall) [] [BRelocate 1; BSwap 1 1]) s (evaluator_of [20] 6 0) true) s = true.
Proof. run. Qed.
Example test_local_search_call_perturbs_solution :
  let '(r, s) := random42 okSmall in eqs (call okSmall (ls okSmall r (nb okSmall) [] []) s (evaluator_of [1] 1 0) false) s = false.
Proof. run. Qed.
Example test_reoptimize_changed_objective_timewarp_OkSmall :
  let s := sc okSmall [[0; 1; 2; 3]]%nat in let l := [(C 0, [C 1]); (C 1, []); (C 2, []); (C 3, [])] in let e := evaluator_of [0] 1000 0 in
  let '(t, se) := call2 okSmall (ls okSmall (rng_seed 42) l [] [BRelocate 1]) s ev0 true in
  (eqs t s, pcost e (call okSmall se s e true) <? pcost e s) = (true, true).
Proof. run. Qed.
Definition nbPrizes : neighbours := Eval vm_compute in nb prizeCollecting.
Example test_bugfix_vehicle_type_offsets :
  let d := with_vehicles okSmall [veh 1 [10]; veh 2 [10]] in let e := evaluator_of [1] 1 0 in let s := ok no_solution (sr d [([0; 2]%nat, 1%nat); ([1; 3]%nat, 1%nat)]) in
  (match ls_call d e [] [BRelocate 1] 100 1 true (spaceOf d (nb d)) s with Returns t _ => pcost e t <=? pcost e s | _ => false end) = true.
Proof. run. Qed.
Example test_no_op_results_in_same_solution :
  let '(r, s) := random42 okSmall in let e := evaluator_of [1] 1 0 in let se := quiet okSmall r (nb okSmall) [] [] in
  let '(t, se') := call2 okSmall se s e false in (eqs t s, eqs (call okSmall se' s e true) s) = (true, true).
Proof. run. Qed.
Example test_local_search_completes_incomplete_solutions :
  let s := sc okPrizes [[1]; [2; 3]]%nat in
  (so_isComplete s, so_isComplete (call okPrizes (ls okPrizes (rng_seed 42) (nb okPrizes) [] [BRelocate 1]) s (evaluator_of [1] 1 0) true)) = (false, true).
Proof. run. Qed.
Example test_mutually_exclusive_group_not_in_solution :
  let s := sc okGroups [[3]]%nat in
  (so_missingGroups s, so_missingGroups (call okGroups (ls okGroups (rng_seed 42) (nb okGroups) [] [BInsertOptionalClient]) s (evaluator_of [20] 6 0) false)) = (1, 0)%nat.
Proof. run. Qed.
Example test_swap_if_improving_mutually_exclusive_group :
  let s := sc okGroups [[0; 3]]%nat in let e := evaluator_of [20] 6 0 in
  let t := call okGroups (quiet okGroups (rng_seed 42) (nb okGroups) [UReplaceGroup] []) s e true in
  (pcost e t <? pcost e s, plan_of t) = (true, [[C 2; C 3]]).
Proof. run. Qed.
Example test_no_op_multi_trip_instance :
  let s := ok no_solution (make_solution okTrips [rt okTrips [C 0; C 1; D 0; C 2; C 3] 0]) in
  eqs (call okTrips (quiet okTrips (rng_seed 42) (noNb okTrips) [] []) s (evaluator_of [20] 6 0) false) s = true.
Proof. run. Qed.
Example test_local_search_inserts_reload_depots :
  let s := sc okTrips [[0; 1; 2; 3]]%nat in let e := evaluator_of [1000] 0 0 in
  let t := call okTrips (ls okTrips (rng_seed 2) (nb okTrips) [] [BRelocateWithDepot]) s e false in
  (so_hasExcessLoad s, so_hasExcessLoad t, pcost e t <? pcost e s, so_numRoutes t, so_numTrips t) = (true, false, true, 1%nat, 2%nat).
Proof. run. Qed.
Example test_local_search_removes_useless_reload_depots :
  let s := ok no_solution (make_solution okTrips [rt okTrips [C 0; D 0; C 2] 0; rt okTrips [C 1; C 3] 0]) in let e := evaluator_of [1000] 0 0 in
  let t := call okTrips (quiet okTrips (rng_seed 2) (nb okTrips) [URemoveAdjacentDepot] []) s e true in
  (pcost e t <? pcost e s, plan_of t) = (true, [[C 0; C 2]; [C 1; C 3]]).
Proof. run. Qed.
Example test_search_statistics :
  let '(r, s) := random42 okSmall in let e := evaluator_of [1] 1 1 in let se := quiet okSmall r (nb okSmall) [] [BRelocate 1] in
  let '(t, se') := call2 okSmall se s e true in
  (match stats (callStats 100 okSmall se s e true) with Some (m, i, u) => Nat.ltb 0 m && Nat.ltb 0 i && (Z.of_nat i <=? u) | None => false end,
   match stats (callStats 100 okSmall se' t e true) with Some (m, i, u) => Nat.ltb 0 m && Nat.eqb 0 i && (u =? 0) | None => false end) = (true, true).
Proof. run. Qed.
Example test_inserts_required_missing :
  map (fun d => let t := call d (ls_pp 1 1 d (rng_seed 42) (nb d) [] [BRelocate 1]) (sc d []) (evaluator_of [20] 6 0) false in (so_isComplete t, indices 4 (concat (plan_of t))))
    [okSmall; okGroups] = [(true, [0; 1; 2; 3]%nat); (true, [2; 3]%nat)].
Proof. run. Qed.
Example test_local_search_inserts_into_empty_solutions :
  let d := data 1 [c_opt 1000 false None (cli 0); c_opt 1000 false None (cli 0)] [dep 0] [veh 1 []] [zeros 1] [zeros 1] in let s := sc d [] in
  let t := call d (ls d (rng_seed 2) (nb d) [] [BInsertOptionalClient]) s evn true in
  (so_numClients s, so_uncollected s, so_numClients t, so_uncollected t) = (0%nat, 2000, 2%nat, 0).
Proof. run. Qed.
Example test_does_not_insert_optional_groups :
  let d := ok no_data (make_pdata (locs 3) [c_opt 0 false (Some 0%nat) (cli 1); c_opt 0 false (Some 0%nat) (cli 2)] [dep 0] [veh 1 []] [ones 3] [ones 3]
    [mk_cgroup [0; 1]%nat false EmptyString] []) in let s := sc d [[1]]%nat in
  let t := call d (ls d (rng_seed 2) (nb d) [URemoveOptionalClient] [BInsertOptionalClient]) s evn true in (so_numClients s, so_numClients t) = (1, 0)%nat.
Proof. run. Qed.
Example test_removes_useless_consecutive_depots :
  let d := with_vehicles okTrips [v_rel [0%nat] 2 (veh0 okTrips)] in let s := ok no_solution (make_solution d [rt d [C 1; D 0; D 0; C 2] 0]) in
  let t := call d (ls d (rng_seed 2) (nb d) [URemoveAdjacentDepot] []) s (evaluator_of [1] 1 1) true in
  let double l := existsb (fun p => a_isDepot (fst p) && a_isDepot (snd p)) (combine l (List.tl l)) in (map double (plan_of s), existsb double (plan_of t)) = ([true], false).
Proof. run. Qed.
Example test_insert_missing_groups_and_clients :
  let s := sc okGroups [] in let t := call okGroups (ls okGroups (rng_seed 42) (nb okGroups) [] []) s ev0 false in
  (so_missingClients s, so_missingGroups s, so_isComplete t, so_missingClients t, so_missingGroups t) = (1, 1, true, 0, 0)%nat.
Proof. run. Qed.

(** The figures that the test expects in the log, from a random solution of 50 clients: after four passes over the clients
    the search has evaluated 5671 moves and applied 71. *)
Definition prizeStart := let '(r, s) := random42 prizeCollecting in (ls prizeCollecting r nbPrizes [] [BRelocate 1], s).
Definition prizeCall (rounds : nat) := callStats rounds prizeCollecting (fst prizeStart) (snd prizeStart) (evaluator_of [1000] 1000 0) true.
Example test_debug_operator_logs :
  match stats (prizeCall 4) with Some (m, i, u) => Some (Z.of_nat m, Z.of_nat i, u) | None => None end = Some (5671, 71, 71).
Proof. run. Qed.
