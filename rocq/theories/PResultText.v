(** Property theorems C74: the summary of a result and the closing lines of the progress log. *)
From Coq Require Import Ascii.
From Coq Require Import String List ZArith Lia.
From Verif Require Import Base DurationSegment Data LoadSegment Valid Route RouteSpec Cost CostFacts
  Penalty Solution SolutionFacts SolutionFacts2 SolutionFacts3 ActivityText StatsCsv ResultPy LogText ResultText Sample PSolution.
Import ListNotations.
Local Open Scope Z_scope.
Local Open Scope list_scope.
Notation length := List.length.

(** A sum over routes, as text. *)
Definition total (f : route -> Z) (routes : list route) : text := print_int (zsum (map f routes)).
Lemma total_count f routes : print_count (count_of f routes) = total (fun r => Z.of_nat (f r)) routes.
Proof. unfold print_count, total. f_equal. induction routes as [|r l IH]; [reflexivity|]. cbn. rewrite Nat2Z.inj_add. unfold count_of, zsum in *. rewrite IH. reflexivity. Qed.

(** What [summary] returns for the solution made of [routes], split at spaces: the figures are the sums over the routes, and the
    objective is that of the definition, or INFEASIBLE just if the solution is not feasible.  [secs] is the run time. *)
Theorem C74_summary : forall d h, valid_data d -> opens_by d h -> nonneg_durs d -> 2 * h <= MAXV ->
  forall routes, Forall (built d) routes -> groups_nodup d -> groups_known d -> forall s,
  make_solution d routes = Ok s -> forall iters runtime r, make_result s iters runtime = Ok r ->
  forall secs, secs <> [] -> ~ In " "%char secs ->
  map words (summary secs r) =
  [ [lit "Solution"; lit "results"]; [lit "================"];
    [lit "#"; lit "routes:"; total (fun _ => 1) routes]; [lit "#"; lit "trips:"; total (fun x => Z.of_nat (r_numTrips x)) routes];
    [lit "#"; lit "clients:"; total (fun x => Z.of_nat (r_numClients x)) routes];
    [lit "#"; lit "shipments:"; total (fun x => Z.of_nat (r_numShipments x)) routes];
    [lit "objective:"; if so_isFeasible s then print_int (objective d s) else lit "INFEASIBLE"];
    [lit "distance:"; total r_distance routes]; [lit "duration:"; total r_duration routes];
    [lit "#"; lit "iterations:"; print_int iters]; [lit "run-time:"; secs; lit "seconds"] ].
Proof.
  intros d h Hv Ho Hn Hh routes HB Hg Hk s Hs iters runtime r Hr secs S1 S2. rewrite summary_words by (split; assumption).
  destruct (result_spec d h Hv Ho Hn Hh routes HB Hg Hk s Hs iters runtime r Hr) as (_ & C & F & _).
  assert (R : rs_best r = s /\ rs_iters r = iters).
  { unfold make_result in Hr. destruct (iters <? 0); [discriminate|]. destruct (b64_neg runtime); [discriminate|].
    apply (f_equal (fun x => match x with Ok y => y | Err _ => r end)) in Hr. subst r. split; reflexivity. }
  destruct R as [-> ->]. unfold objective_text. rewrite F.
  assert (G : so_routes s = routes /\ so_numClients s = count_of r_numClients routes /\ so_numShipments s = count_of r_numShipments routes /\
    so_distance s = zsum (map r_distance routes) /\ so_duration s = zsum (map r_duration routes)).
  { clear - Hs. unfold make_solution in Hs. destruct (_ <? _)%nat; [discriminate|]. destruct (visit_routes _ _ _ _) as [[[cv sv] used]|]; [|discriminate].
    destruct (check_groups _ _ _); [|discriminate]. destruct (existsb _ _); [discriminate|]. injection Hs as <-. repeat split; reflexivity. }
  destruct G as (G1 & G2 & G3 & G4 & G5). unfold so_numRoutes, so_numTrips. rewrite G1, G2, G3, G4, G5, !total_count.
  replace (print_count (length routes)) with (total (fun _ => 1) routes).
  2:{ unfold print_count, total. f_equal. clear. induction routes as [|x l IH]; [reflexivity|]. cbn [map zsum length]. unfold zsum in *. cbn [fold_right]. lia. }
  destruct (so_isFeasible s) eqn:E; [|reflexivity]. rewrite F in C. destruct (C eq_refl) as [-> _]. reflexivity.
Qed.

(** The closing lines give the run time, the iterations, the cost (inf if the solution is not feasible) and the summary. *)
Theorem C74_end : forall d h, valid_data d -> opens_by d h -> nonneg_durs d -> 2 * h <= MAXV ->
  forall routes, Forall (built d) routes -> groups_nodup d -> groups_known d -> forall s,
  make_solution d routes = Ok s -> forall iters runtime r, make_result s iters runtime = Ok r ->
  forall secs, secs <> [] -> ~ In " "%char secs ->
  map words (log_end secs r) =
  [ []; [lit "Search"; lit "terminated"; lit "in"; secs ++ lit "s"; lit "after"; print_int iters; lit "iterations."];
    [lit "Best-found"; lit "solution"; lit "has"; lit "cost"; (if so_isFeasible s then print_int (objective d s) else lit "inf") ++ lit "."]; [] ] ++
  map words (summary secs r).
Proof.
  intros d h Hv Ho Hn Hh routes HB Hg Hk s Hs iters runtime r Hr secs S1 S2. rewrite log_end_words by (split; assumption).
  destruct (result_spec d h Hv Ho Hn Hh routes HB Hg Hk s Hs iters runtime r Hr) as (I & C & F & _).
  assert (R : rs_iters r = iters).
  { unfold make_result in Hr. destruct (iters <? 0); [discriminate|]. destruct (b64_neg runtime); [discriminate|].
    apply (f_equal (fun x => match x with Ok y => y | Err _ => r end)) in Hr. subst r. reflexivity. }
  rewrite R. rewrite F in I, C. destruct (so_isFeasible s).
  - destruct (C eq_refl) as [-> _]. reflexivity.
  - destruct (result_cost r); [|reflexivity]. destruct I as [_ I]. discriminate I. discriminate.
Qed.
(** The colons of the figures are below each other. *)
Theorem C74_aligned : forall secs r l, In l (skipn 2 (summary secs r)) -> nth_error l 12 = Some ":"%char.
Proof. intros secs r l. cbn [summary skipn In]. intros H. repeat match type of H with _ \/ _ => destruct H as [<-|H]; [reflexivity|] end. contradiction. Qed.

Example C74_case : exists s r, make_solution sample [ex_r1; ex_r2] = Ok s /\ make_result s 10 b64_zero = Ok r /\ so_isFeasible s = true /\
  nth 2 (summary (lit "0.00") r) [] = lit "    # routes: 2" /\ nth 10 (summary (lit "0.00") r) [] = lit "    run-time: 0.00 seconds" /\
  nth 1 (log_end (lit "0.00") r) [] = lit "Search terminated in 0.00s after 10 iterations.".
Proof. eexists. eexists. split; [vm_compute; reflexivity|]. split; [vm_compute; reflexivity|]. repeat split; vm_compute; reflexivity. Qed.

Print Assumptions C74_summary.
Print Assumptions C74_end.
Print Assumptions C74_aligned.
