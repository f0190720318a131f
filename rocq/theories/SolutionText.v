(** The text of routes, solutions and results: operator<< of Route.cpp and Solution.cpp, and Result.__str__. *)
From Coq Require Import Ascii.
From Coq Require Import String List ZArith Lia.
From Verif Require Import Base Data Route CostFacts RouteFacts2  Solution SolutionFacts ActivityText StatsCsv Table ResultPy LogText ResultText.
Import ListNotations.
Local Open Scope Z_scope.
Local Open Scope list_scope.
Notation length := List.length.

(** Route.cpp:641-645 *)
Definition visit_text (a : activity) : text := if a_isDepot a then lit "|" else print_activity a.
(** Route.cpp:637-652 *)
Definition route_text (r : route) : text :=
  let acts := map sa_act (r_schedule r) in
  flat_map (fun idx => visit_text (nth idx acts (ADepot 0)) ++ (if (idx <? length acts - 2)%nat then lit " " else [])) (seq 1 (length acts - 2)).
(** Solution.cpp:415-423: the lines, each of which is ended by a newline. *)
Definition solution_text (s : solution) : list text :=
  map (fun idx => lit "Route #" ++ print_count (idx + 1) ++ lit ": " ++ route_text (nth idx (so_routes s) (mk_route [] 0 0 0 [] [] [] 0 0 0 0 0 0 0 0 0 0 0 0 0)))
      (seq 0 (length (so_routes s))).
(** Result.py:81-90, line by line; a newline follows the last route. *)
Definition result_text (secs : text) (r : result) : list text :=
  summary secs r ++ [ []; lit "Routes"; lit "------" ] ++ solution_text (rs_best r) ++ [ [] ].

Definition small (a : activity) : Prop := Z.of_nat (a_idx a) <= SIZE_MAX.
Lemma visit_text_plain a : small a -> plain (visit_text a).
Proof.
  intros H. unfold visit_text. destruct (a_isDepot a) eqn:D; [split; [discriminate|intros [X|[]]; discriminate]|].
  unfold print_activity, print_size. split; [discriminate|].
  destruct (print_loop_spec 20 (Z.of_nat (a_idx a)) []) as (ds & -> & _ & Hd & _); [|lia|].
  { unfold small, SIZE_MAX in H. split; [lia|]. eapply Z.le_lt_trans; [exact H|]. reflexivity. }
  rewrite app_nil_r. intros [X|X]; [destruct a; discriminate|exact (digits_plain ds Hd X)].
Qed.
Lemma visits_walk l : Forall small l -> forall pre post, length post = 1%nat -> let acts := pre ++ l ++ post in
  words (flat_map (fun idx => visit_text (nth idx acts (ADepot 0)) ++ (if (idx <? length acts - 2)%nat then lit " " else [])) (seq (length pre) (length l))) = map visit_text l.
Proof.
  induction 1 as [|a l Ha Hl IH]; intros pre post Hp acts; [reflexivity|]. cbn [length seq flat_map map].
  assert (E : nth (length pre) acts (ADepot 0) = a) by (unfold acts; rewrite app_nth2, Nat.sub_diag by lia; reflexivity). rewrite E.
  assert (L : length acts = (length pre + length l + 2)%nat) by (unfold acts; rewrite !app_length; cbn [length]; lia).
  specialize (IH (pre ++ [a]) post Hp). cbv zeta in IH. rewrite <- app_assoc in IH. cbn [app] in IH. fold acts in IH. change (pre ++ a :: l ++ post) with acts in IH.
  replace (length (pre ++ [a])) with (Datatypes.S (length pre)) in IH by (rewrite app_length; cbn; lia).
  destruct l as [|b l].
  - rewrite L. cbn [length]. replace (length pre <? length pre + 0 + 2 - 2)%nat with false by (symmetry; apply Nat.ltb_ge; lia).
    cbn [seq flat_map]. rewrite !app_nil_r. apply words_plain, visit_text_plain, Ha.
  - replace (length pre <? length acts - 2)%nat with true by (symmetry; apply Nat.ltb_lt; rewrite L; cbn [length]; lia).
    rewrite <- app_assoc. cbn [lit list_ascii_of_string app]. rewrite words_next by (apply visit_text_plain, Ha). f_equal. exact IH.
Qed.
Theorem route_text_words d mid vt r : make_route d mid vt = Ok r -> Forall small mid -> words (route_text r) = map visit_text mid.
Proof.
  intros H Hs. unfold route_text. apply route_fields in H. cbv zeta in H.
  assert (A : exists A0 E0, map sa_act (r_schedule r) = A0 :: mid ++ [E0]).
  { rewrite H. cbn [r_schedule]. eexists. eexists. eapply eq_trans; [apply schedule_acts|reflexivity]. }
  destruct A as (A0 & E0 & ->). replace (length (A0 :: mid ++ [E0]) - 2)%nat with (length mid) by (cbn [length]; rewrite app_length; cbn [length]; lia).
  pose proof (visits_walk mid Hs [A0] [E0] eq_refl) as W. cbn [app] in W. cbv zeta in W.
  replace (length (A0 :: mid ++ [E0]) - 2)%nat with (length mid) in W by (cbn [length]; rewrite app_length; cbn [length]; lia). exact W.
Qed.
(** The index of a depot is not printed. *)
Definition forget_depot (a : activity) : activity := if a_isDepot a then ADepot 0 else a.
Lemma visit_text_inj a b : small a -> small b -> visit_text a = visit_text b -> forget_depot a = forget_depot b.
Proof.
  intros Ha Hb. unfold visit_text, forget_depot. pose proof (parse_print a Ha) as Pa. pose proof (parse_print b Hb) as Pb.
  destruct (a_isDepot a) eqn:A, (a_isDepot b) eqn:B; intros H; [reflexivity|..].
  - destruct b; discriminate.
  - destruct a; discriminate.
  - rewrite H, Pb in Pa. injection Pa as ->. reflexivity.
Qed.
Lemma map_visit_inj l : forall l', Forall small l -> Forall small l' -> map visit_text l = map visit_text l' -> map forget_depot l = map forget_depot l'.
Proof.
  induction l as [|a l IH]; intros [|b l'] Hl Hl' H; try discriminate; [reflexivity|]. cbn [map] in *.
  assert (H1 : visit_text a = visit_text b) by congruence. assert (H2 : map visit_text l = map visit_text l') by congruence.
  inversion Hl; inversion Hl'; subst. f_equal; [apply visit_text_inj; assumption|apply IH; assumption].
Qed.
