(** Property theorems C75: the text of routes, solutions and results. *)
From Coq Require Import Ascii.
From Coq Require Import String List ZArith Lia.
From Verif Require Import Base Data Route CostFacts RouteFacts2 Solution SolutionFacts ActivityText StatsCsv ResultPy LogText ResultText SolutionText Sample PSolution.
Import ListNotations.
Local Open Scope Z_scope.
Local Open Scope list_scope.
Notation length := List.length.

(** The text of a visit: a bar for a depot, and otherwise the activity's own text. *)
Definition shown (a : activity) : text := match a with ADepot _ => lit "|" | _ => print_activity a end.
Lemma shown_is l : map shown l = map visit_text l.
Proof. apply map_ext. intros []; reflexivity. Qed.
(** Indices are 64-bit numbers. *)
Definition word_sized (l : list activity) : Prop := forall a, In a l -> Z.of_nat (a_idx a) <= SIZE_MAX.
Lemma word_small l : word_sized l -> Forall small l.
Proof. intros H. apply Forall_forall. exact H. Qed.

(** The text of a route, split at spaces, is that of its visits in order. *)
Theorem C75_route : forall d mid vt r, make_route d mid vt = Ok r -> word_sized mid -> words (route_text r) = map shown mid.
Proof. intros d mid vt r H Hw. rewrite shown_is. exact (route_text_words d mid vt r H (word_small _ Hw)). Qed.

(** Two routes with the same text have the same visits in the same order, up to which depots they reload at. *)
Theorem C75_determines : forall d d' mid mid' vt vt' r r', make_route d mid vt = Ok r -> make_route d' mid' vt' = Ok r' -> word_sized mid -> word_sized mid' ->
  route_text r = route_text r' ->
  Forall2 (fun a b => a = b \/ exists i j, a = ADepot i /\ b = ADepot j) mid mid'.
Proof.
  intros d d' mid mid' vt vt' r r' H H' Hw Hw' E. apply (f_equal words) in E.
  rewrite (route_text_words _ _ _ _ H (word_small _ Hw)), (route_text_words _ _ _ _ H' (word_small _ Hw')) in E.
  apply map_visit_inj in E; [|apply word_small; assumption..]. clear - E. revert mid' E. induction mid as [|a l IH]; intros [|b l'] E; try discriminate; constructor.
  - assert (E1 : forget_depot a = forget_depot b) by (cbn [map] in E; congruence). unfold forget_depot in E1. destruct a, b; cbn in E1; try discriminate; try (left; congruence). right. eauto.
  - apply IH. cbn [map] in E. congruence.
Qed.
(** Which depots cannot be told from the text. *)
Theorem C75_depots_refuted : ~ (forall d mid mid' vt vt' r r', make_route d mid vt = Ok r -> make_route d mid' vt' = Ok r' -> route_text r = route_text r' -> mid = mid').
Proof.
  intros H. specialize (H sample [AClient 0; ADepot 0; AClient 1] [AClient 0; ADepot 1; AClient 1] 0%nat 0%nat). cbv zeta in H.
  destruct (make_route sample [AClient 0; ADepot 0; AClient 1] 0) as [r|e] eqn:E1; [|vm_compute in E1; discriminate].
  destruct (make_route sample [AClient 0; ADepot 1; AClient 1] 0) as [r'|e] eqn:E2; [|vm_compute in E2; discriminate].
  specialize (H r r' eq_refl eq_refl). discriminate H.
  rewrite <- (f_equal (fun x => match x with Ok y => route_text y | Err _ => [] end) E1), <- (f_equal (fun x => match x with Ok y => route_text y | Err _ => [] end) E2).
  vm_compute. reflexivity.
Qed.

Lemma route_acts_of d mid vt r : make_route d mid vt = Ok r -> exists A0 E0, map sa_act (r_schedule r) = A0 :: mid ++ [E0].
Proof. intros H. apply route_fields in H. cbv zeta in H.
  rewrite H. cbn [r_schedule]. eexists. eexists. eapply eq_trans; [apply schedule_acts|reflexivity]. Qed.
Lemma text_of_mid acts acts' A0 E0 A1 E1 mid : acts = A0 :: mid ++ [E0] -> acts' = A1 :: mid ++ [E1] ->
  flat_map (fun idx => visit_text (nth idx acts (ADepot 0)) ++ (if (idx <? length acts - 2)%nat then lit " " else [])) (seq 1 (length acts - 2)) =
  flat_map (fun idx => visit_text (nth idx acts' (ADepot 0)) ++ (if (idx <? length acts' - 2)%nat then lit " " else [])) (seq 1 (length acts' - 2)).
Proof.
  intros E E'. assert (L : length acts = (length mid + 2)%nat) by (subst; cbn [length]; rewrite app_length; cbn; lia).
  assert (L' : length acts' = (length mid + 2)%nat) by (subst; cbn [length]; rewrite app_length; cbn; lia). rewrite L, L'.
  rewrite !flat_map_concat_map. f_equal. apply map_ext_in. intros k Hk. apply in_seq in Hk. f_equal. f_equal. subst. clear - Hk.
  destruct k as [|k]; [lia|]. cbn [nth]. rewrite !app_nth1 by lia. reflexivity.
Qed.
(** The vehicle type does not appear at all: the text depends on the visits only. *)
Theorem C75_vehicle_hidden : forall d d' mid vt vt' r r', make_route d mid vt = Ok r -> make_route d' mid vt' = Ok r' -> route_text r = route_text r'.
Proof.
  intros d d' mid vt vt' r r' H H'. destruct (route_acts_of _ _ _ _ H) as (A0 & E0 & E). destruct (route_acts_of _ _ _ _ H') as (A1 & E1 & E').
  exact (text_of_mid _ _ A0 E0 A1 E1 mid E E').
Qed.
Example C75_case_hidden : exists r r', make_route sample [AClient 1] 0 = Ok r /\ make_route sample [AClient 1] 1 = Ok r' /\ route_text r = lit "C1".
Proof. eexists. eexists. split; [vm_compute; reflexivity|]. split; [vm_compute; reflexivity|]. vm_compute. reflexivity. Qed.

Lemma make_solution_routes d routes s : make_solution d routes = Ok s -> so_routes s = routes.
Proof.
  unfold make_solution. destruct (_ <? _)%nat; [discriminate|]. destruct (visit_routes _ _ _ _) as [[[cv sv] used]|]; [|discriminate].
  destruct (check_groups _ _ _); [|discriminate]. destruct (existsb _ _); [discriminate|]. intros [= <-]. reflexivity.
Qed.
(** The text of a solution has a line for each route in order, with its number from 1. *)
Theorem C75_solution : forall d routes s, make_solution d routes = Ok s ->
  length (solution_text s) = length routes /\
  forall k mid vt r, nth_error routes k = Some r -> make_route d mid vt = Ok r -> word_sized mid ->
  words (nth k (solution_text s) []) = [lit "Route"; lit "#" ++ print_int (Z.of_nat k + 1) ++ lit ":"] ++ map shown mid.
Proof.
  intros d routes s Hs. apply make_solution_routes in Hs. unfold solution_text. rewrite Hs. split; [rewrite map_length; apply seq_length|].
  intros k mid vt r Hk Hr Hw. assert (L : (k < length routes)%nat) by (apply nth_error_Some; congruence).
  match goal with |- context [map ?g _] => set (f := g) end.
  rewrite (nth_indep _ [] (f 0%nat)) by (rewrite map_length, seq_length; exact L).
  rewrite map_nth, seq_nth by exact L. unfold f. cbn [plus]. rewrite (nth_error_nth _ _ _ Hk).
  change (lit "Route #") with (lit "Route" ++ " "%char :: lit "#"). rewrite <- app_assoc. cbn [app]. rewrite words_next; [|split; [discriminate|cbn; intuition discriminate]].
  f_equal. change (lit ": ") with (lit ":" ++ [" "%char]). rewrite <- !app_assoc. cbn [app].
  change ("#"%char :: ?t) with (lit "#" ++ t).
  replace (lit "#" ++ print_count (k + 1) ++ lit ":" ++ " "%char :: route_text r) with ((lit "#" ++ print_count (k + 1) ++ lit ":") ++ " "%char :: route_text r) by (rewrite <- !app_assoc; reflexivity).
  rewrite words_next.
  - unfold print_count. rewrite Nat2Z.inj_add. f_equal. exact (C75_route d mid vt r Hr Hw).
  - split; [discriminate|]. intros X. apply in_app_or in X. destruct X as [[X|[]]|X]; [discriminate|]. apply in_app_or in X. destruct X as [X|[X|[]]]; [|discriminate].
    exact (proj2 (int_plain _) X).
Qed.
(** The text of a result is its summary, a title, and the text of its best solution. *)
Theorem C75_result : forall secs best iters runtime r, make_result best iters runtime = Ok r ->
  exists title, result_text secs r = summary secs r ++ title ++ solution_text best ++ [[]] /\ map words title = [[]; [lit "Routes"]; [lit "------"]].
Proof.
  intros secs best iters runtime r Hr. unfold make_result in Hr. destruct (iters <? 0); [discriminate|]. destruct (Penalty.b64_neg runtime); [discriminate|].
  apply (f_equal (fun x => match x with Ok y => y | Err _ => r end)) in Hr. subst r. eexists. split; reflexivity.
Qed.

Example C75_case : exists s, make_solution sample [ex_r1; ex_r2] = Ok s /\ nth 0 (solution_text s) [] = lit "Route #1: C0 L0 U0 | C1" /\
  word_sized [AClient 0; APickup 0; ADelivery 0; ADepot 1; AClient 1].
Proof.
  eexists. split; [vm_compute; reflexivity|]. split; [vm_compute; reflexivity|]. intros a H. cbn [In] in H.
  repeat match type of H with _ \/ _ => destruct H as [<-|H] end; try contradiction; vm_compute; discriminate.
Qed.

Print Assumptions C75_route.
Print Assumptions C75_determines.
Print Assumptions C75_depots_refuted.
Print Assumptions C75_vehicle_hidden.
Print Assumptions C75_solution.
Print Assumptions C75_result.
