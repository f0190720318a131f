(** Property theorems C73: the text of the progress log. *)
From Coq Require Import Ascii.
From Coq Require Import String List ZArith Lia.
From Verif Require Import Base Data Ils ActivityText StatsCsv Table LogText Sample.
Import ListNotations.
Local Open Scope Z_scope.
Local Open Scope list_scope.
Notation length := List.length.

(** Split at spaces, the line of an iteration consists of an H if a new best solution was found, the number of iterations,
    the seconds, a bar, and for the current, candidate and best solution the cost and whether it is feasible. *)
Theorem C73_words : forall special iters elapsed x, words (log_line special iters elapsed x) =
  (if special then [lit "H"] else []) ++
  [ print_int iters; print_int elapsed ++ lit "s"; lit "|"; print_int (dt_curr x); lit (if dt_curr_feas x then "Y" else "N");
    print_int (dt_cand x); lit (if dt_cand_feas x then "Y" else "N"); print_int (dt_best x); lit (if dt_best_feas x then "Y" else "N") ].
Proof. intros. rewrite log_line_words. unfold yes_no. destruct (dt_curr_feas x), (dt_cand_feas x), (dt_best_feas x); reflexivity. Qed.

(** What a line says can be read back, for numbers of any size: no two iterations have the same line. *)
Theorem C73_faithful : forall special iters elapsed x special' iters' elapsed' x',
  log_line special iters elapsed x = log_line special' iters' elapsed' x' -> special = special' /\ iters = iters' /\ elapsed = elapsed' /\ x = x'.
Proof. exact log_line_inj. Qed.
(** The texts of the numbers are their decimal texts. *)
Theorem C73_numbers : forall z, read_int (print_int z) = Ok z.
Proof. exact int_roundtrip. Qed.

(** A column of a text: the [n] characters from index [k]. *)
Definition column (k n : nat) (s : text) : text := firstn n (skipn k s).
(** [t] is [s] after spaces. *)
Definition right_aligned (s t : text) : Prop := exists n, t = repeat " "%char n ++ s.
Lemma pad_aligned w s : right_aligned s (pad_right w s).
Proof. exists (w - length s)%nat. reflexivity. Qed.

(** With less than ten million iterations, a million seconds and costs of at most twelve characters, the lines are as long as
    the header, and every number ends where its title ends: the columns are those of the header. *)
Theorem C73_columns : forall special iters elapsed x, 0 <= iters < 10000000 -> 0 <= elapsed < 1000000 ->
  (forall c, In c [dt_curr x; dt_cand x; dt_best x] -> -100000000000 < c < 1000000000000) ->
  let l := log_line special iters elapsed x in
  length l = length log_header /\
  (forall k n title s, In (k, n, title, s)
     [ (2, 7, lit "Iters", print_int iters); (10, 7, lit "Time", print_int elapsed ++ lit "s"); (18, 1, lit "|", lit "|");
       (20, 12, lit "Current", print_int (dt_curr x)); (34, 1, lit "K", lit (if dt_curr_feas x then "Y" else "N"));
       (36, 12, lit "Candidate", print_int (dt_cand x)); (50, 1, lit "K", lit (if dt_cand_feas x then "Y" else "N"));
       (52, 12, lit "Best", print_int (dt_best x)); (66, 1, lit "K", lit (if dt_best_feas x then "Y" else "N")) ]%nat ->
     right_aligned s (column k n l) /\ right_aligned title (column k n log_header)).
Proof.
  intros special iters elapsed x Hi He Hc l.
  destruct (log_line_aligned special iters elapsed x) as (A0 & A1 & A2 & A3 & A4 & A5 & A6 & A7 & A8 & A9).
  { split; [|split]; [cbn; lia|cbn; lia|]. intros f Hf. cbn [Z.pow Z.pow_pos Pos.iter Z.mul Pos.mul Pos.add]. apply Hc. cbn in Hf |- *. intuition subst; auto. }
  split; [exact A0|]. intros k n title s Hin. fold l in A1, A2, A3, A4, A5, A6, A7, A8, A9. change piece with column in *.
  assert (Y : forall b : bool, right_aligned (lit (if b then "Y" else "N")) (yes_no b)) by (intros b; exists 0%nat; destruct b; reflexivity).
  cbn [In] in Hin. repeat match type of Hin with _ \/ _ => destruct Hin as [Hin|Hin] end; [..|contradiction]; injection Hin as <- <- <- <-; split.
  all: try (rewrite ?A1, ?A3, ?A4, ?A5, ?A6, ?A7, ?A8, ?A9; (apply pad_aligned || apply Y || (exists 0%nat; reflexivity))).
  all: try (rewrite A2; destruct (pad_aligned 6 (print_int elapsed)) as [m E]; exists m; rewrite E, <- app_assoc; reflexivity).
  - exists 2%nat; reflexivity.
  - exists 3%nat; reflexivity.
  - exists 5%nat; reflexivity.
  - exists 3%nat; reflexivity.
  - exists 8%nat; reflexivity.
Qed.
(** The bar of a restart is below that of the header. *)
Theorem C73_restart : words log_restart = [lit "R"; lit "|"; lit "restart"] /\ column 18 1 log_restart = column 18 1 log_header.
Proof. split; reflexivity. Qed.

(** The opening lines give the numbers of depots, clients, shipments, vehicles and vehicle types, in the singular just for
    one. *)
Theorem C73_start : forall version d, map words (log_start version d) =
  let some n one many := [print_int (Z.of_nat n); lit (if (n =? 1)%nat then one else many)] in
  [ words (lit "PyVRP v" ++ version); []; [lit "Solving"; lit "an"; lit "instance"; lit "with:"];
    some (length (p_depots d)) "depot"%string "depots"%string; some (length (p_clients d)) "client"%string "clients"%string; some (length (p_shipments d)) "shipment"%string "shipments"%string;
    some (p_numVehicles d) "vehicle"%string "vehicles"%string ++
      [lit "(" ++ print_int (Z.of_nat (length (p_vehicles d))); lit "vehicle"; lit (if (length (p_vehicles d) =? 1)%nat then "type)" else "types)")];
    []; [lit "Iters"; lit "Time"; lit "|"; lit "Current"; lit "OK"; lit "Candidate"; lit "OK"; lit "Best"; lit "OK"] ].
Proof.
  intros version d. unfold log_start. cbn [map]. rewrite words_vehicles, !words_count; [reflexivity|..]; (split; [discriminate|cbn; intuition discriminate]).
Qed.

(** tests/test_ProgressPrinter.py:92-118 *)
Example c73_iteration : exists x, x = mk_datum 28408 false 10012 true 9725 true /\
  log_line true 1 0 x = lit "H       1      0s |        28408  N        10012  Y         9725  Y".
Proof. eexists. split; [reflexivity|vm_compute; reflexivity]. Qed.
Example c73_columns_hypotheses : 0 <= 1 < 10000000 /\ 0 <= 0 < 1000000 /\ forall c, In c [28408; 10012; 9725] -> -100000000000 < c < 1000000000000.
Proof. split; [lia|split; [lia|]]. intros c [<-|[<-|[<-|[]]]]; lia. Qed.
(** Too long costs shift the columns after them, and are not cut. *)
Example c73_long : log_line false 12345678 5 (mk_datum 1000000000000 true (-7) false 1 true) =
  lit "  12345678      5s | 1000000000000  Y           -7  N            1  Y".
Proof. vm_compute. reflexivity. Qed.

Example c73_start : nth 3 (log_start (lit "1") sample) [] = lit "    2 depots" /\ nth 5 (log_start (lit "1") sample) [] = lit "    1 shipment".
Proof. split; vm_compute; reflexivity. Qed.

Print Assumptions C73_words.
Print Assumptions C73_faithful.
Print Assumptions C73_numbers.
Print Assumptions C73_columns.
Print Assumptions C73_restart.
Print Assumptions C73_start.
