(** The text of a result: Result.summary of pyvrp/Result.py, and the closing lines of pyvrp/ProgressPrinter.py. *)
From Coq Require Import Ascii.
From Coq Require Import String List ZArith Lia.
From Verif Require Import Base Data Route Solution ActivityText StatsCsv Table ResultPy LogText.
Import ListNotations.
Local Open Scope Z_scope.
Local Open Scope list_scope.
Notation length := List.length.

(** str of a count *)
Definition print_count (n : nat) : text := print_int (Z.of_nat n).
(** Result.py:64.  An infinite cost is not printed here. *)
Definition objective_text (r : result) : text :=
  if result_feasible r then match result_cost r with Some c => print_int c | None => lit "inf" end else lit "INFEASIBLE".
(** Result.py:60-79, line by line; [secs] is the run time with two decimals. *)
Definition summary (secs : text) (r : result) : list text :=
  let s := rs_best r in
  [ lit "Solution results"; lit "================";
    lit "    # routes: " ++ print_count (so_numRoutes s);
    lit "     # trips: " ++ print_count (so_numTrips s);
    lit "   # clients: " ++ print_count (so_numClients s);
    lit " # shipments: " ++ print_count (so_numShipments s);
    lit "   objective: " ++ objective_text r;
    lit "    distance: " ++ print_int (so_distance s);
    lit "    duration: " ++ print_int (so_duration s);
    lit "# iterations: " ++ print_int (rs_iters r);
    lit "    run-time: " ++ secs ++ lit " seconds" ].
(** str of a cost *)
Definition cost_text (c : option Z) : text := match c with Some z => print_int z | None => lit "inf" end.
(** ProgressPrinter.py:29-34 and 134-148, after splitlines. *)
Definition log_end (secs : text) (r : result) : list text :=
  [ []; lit "Search terminated in " ++ secs ++ lit "s after " ++ print_int (rs_iters r) ++ lit " iterations.";
    lit "Best-found solution has cost " ++ cost_text (result_cost r) ++ lit "."; [] ] ++ summary secs r.

Lemma objective_plain r : plain (objective_text r).
Proof.
  unfold objective_text. destruct (result_feasible r); [destruct (result_cost r); [apply int_plain|]|]; (split; [discriminate|cbn; intuition discriminate]).
Qed.
Lemma cost_plain c : plain (cost_text c).
Proof. destruct c; [apply int_plain|]. split; [discriminate|cbn; intuition discriminate]. Qed.
Lemma words_lit_space (s : string) t : words (lit s ++ " "%char :: t) = words (lit s) ++ words t.
Proof. apply words_space. Qed.
Lemma lit_app a b : lit a ++ lit b = lit (a ++ b).
Proof. induction a as [|c a IH]; [reflexivity|]. cbn. f_equal. apply IH. Qed.
(** A label that ends with a space is split off. *)
Lemma words_label (s : string) t : words (lit (s ++ " ") ++ t) = words (lit s) ++ words t.
Proof. rewrite <- lit_app, <- app_assoc. cbn [lit list_ascii_of_string app]. apply words_space. Qed.
Lemma words_label1 (s : string) t : plain t -> words (lit (s ++ " ") ++ t) = words (lit s) ++ [t].
Proof. intros H. rewrite words_label, (words_plain t H). reflexivity. Qed.

Theorem summary_words secs r : plain secs -> map words (summary secs r) =
  [ [lit "Solution"; lit "results"]; [lit "================"];
    [lit "#"; lit "routes:"; print_count (so_numRoutes (rs_best r))]; [lit "#"; lit "trips:"; print_count (so_numTrips (rs_best r))];
    [lit "#"; lit "clients:"; print_count (so_numClients (rs_best r))]; [lit "#"; lit "shipments:"; print_count (so_numShipments (rs_best r))];
    [lit "objective:"; objective_text r]; [lit "distance:"; print_int (so_distance (rs_best r))]; [lit "duration:"; print_int (so_duration (rs_best r))];
    [lit "#"; lit "iterations:"; print_int (rs_iters r)]; [lit "run-time:"; secs; lit "seconds"] ].
Proof.
  intros Hs. unfold summary. cbn [map].
  rewrite (words_label1 "    # routes:") by apply int_plain. rewrite (words_label1 "     # trips:") by apply int_plain.
  rewrite (words_label1 "   # clients:") by apply int_plain. rewrite (words_label1 " # shipments:") by apply int_plain.
  rewrite (words_label1 "   objective:") by apply objective_plain. rewrite (words_label1 "    distance:") by apply int_plain.
  rewrite (words_label1 "    duration:") by apply int_plain. rewrite (words_label1 "# iterations:") by apply int_plain.
  rewrite (words_label "    run-time:"). change (lit " seconds") with (" "%char :: lit "seconds"). rewrite words_next by exact Hs. reflexivity.
Qed.
Theorem log_end_words secs r : plain secs -> map words (log_end secs r) =
  [ []; [lit "Search"; lit "terminated"; lit "in"; secs ++ lit "s"; lit "after"; print_int (rs_iters r); lit "iterations."];
    [lit "Best-found"; lit "solution"; lit "has"; lit "cost"; cost_text (result_cost r) ++ lit "."]; [] ] ++ map words (summary secs r).
Proof.
  intros Hs. unfold log_end. rewrite map_app. f_equal. cbn [map].
  rewrite (words_label "Search terminated in"). change (lit "s after ") with (lit "s" ++ " "%char :: lit ("after" ++ " ")). rewrite <- (app_assoc (lit "s")), (app_assoc secs).
  cbn [app]. rewrite words_next; [|apply plain_app; [exact Hs|intros [X|[]]; discriminate]]. rewrite (words_label "after").
  change (lit " iterations.") with (" "%char :: lit "iterations."). rewrite words_next by apply int_plain.
  rewrite (words_label1 "Best-found solution has cost"); [reflexivity|]. apply plain_app; [apply cost_plain|intros [X|[]]; discriminate].
Qed.
