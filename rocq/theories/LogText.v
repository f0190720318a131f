(** The text of the lines of pyvrp/ProgressPrinter.py; Callbacks.v says which lines there are and when. *)
From Coq Require Import Ascii.
From Coq Require Import String List ZArith Lia.
From Verif Require Import Base Data Ils ActivityText StatsCsv Table.
Import ListNotations.
Local Open Scope Z_scope.
Local Open Scope list_scope.
Notation length := List.length.

(** A literal text. *)
Definition lit (s : string) : text := list_ascii_of_string s.
(** ProgressPrinter.py:86, 88 and 90 *)
Definition yes_no (b : bool) : text := if b then lit "Y" else lit "N".
(** ProgressPrinter.py:14-17 and 79-89.  [elapsed] is the rounded sum of the run times. *)
Definition log_line (special : bool) (iters elapsed : Z) (x : datum) : text :=
  (if special then lit "H" else lit " ") ++ lit " " ++ pad_right 7 (print_int iters) ++ lit " " ++ pad_right 6 (print_int elapsed) ++ lit "s | " ++
  pad_right 12 (print_int (dt_curr x)) ++ lit "  " ++ yes_no (dt_curr_feas x) ++ lit " " ++
  pad_right 12 (print_int (dt_cand x)) ++ lit "  " ++ yes_no (dt_cand_feas x) ++ lit " " ++
  pad_right 12 (print_int (dt_best x)) ++ lit "  " ++ yes_no (dt_best_feas x).
(** ProgressPrinter.py:27 *)
Definition log_header : text := lit "    Iters    Time |      Current OK    Candidate OK         Best OK".
(** ProgressPrinter.py:36 *)
Definition log_restart : text := lit "R                 |                      restart".
(** ProgressPrinter.py:107-120 *)
Definition count_text (n : nat) (noun : string) : text := print_int (Z.of_nat n) ++ lit " " ++ lit noun ++ (if (n =? 1)%nat then [] else lit "s").
(** ProgressPrinter.py:19-27 and 122-132, line by line; [version] is on one line. *)
Definition log_start (version : text) (d : pdata) : list text :=
  [ lit "PyVRP v" ++ version; []; lit "Solving an instance with:";
    lit "    " ++ count_text (p_numDepots d) "depot"; lit "    " ++ count_text (p_numClients d) "client";
    lit "    " ++ count_text (p_numShipments d) "shipment";
    lit "    " ++ count_text (p_numVehicles d) "vehicle" ++ lit " (" ++ count_text (p_numVehicleTypes d) "vehicle type" ++ lit ")";
    []; log_header ].

(** ** Specification *)
(** The words of a text, as of str.split for spaces. *)
Fixpoint words_from (cur s : text) : list text :=
  match s with
  | [] => match cur with [] => [] | _ => [cur] end
  | c :: more => if Ascii.eqb c " " then match cur with [] => words_from [] more | _ => cur :: words_from [] more end
                 else words_from (cur ++ [c]) more
  end.
Definition words (s : text) : list text := words_from [] s.
(** The [n] characters from the one with index [k]. *)
Definition piece (k n : nat) (s : text) : text := firstn n (skipn k s).

(** ** Words *)
Lemma words_from_space cur a b : words_from cur (a ++ " "%char :: b) = words_from cur a ++ words_from [] b.
Proof.
  revert cur. induction a as [|c a IH]; intros cur; cbn [app words_from].
  - destruct cur; reflexivity.
  - destruct (Ascii.eqb c " "); [|apply IH]. destruct cur; rewrite IH; reflexivity.
Qed.
Lemma words_space a b : words (a ++ " "%char :: b) = words a ++ words b.
Proof. apply words_from_space. Qed.
Lemma words_blank n t : words (blank n ++ t) = words t.
Proof. induction n as [|n IH]; [reflexivity|]. exact IH. Qed.
Definition plain (t : text) : Prop := t <> [] /\ ~ In " "%char t.
Lemma words_from_plain t cur : ~ In " "%char t -> words_from cur t = match cur ++ t with [] => [] | _ => [cur ++ t] end.
Proof.
  revert cur. induction t as [|c t IH]; intros cur H; cbn [words_from]; [rewrite app_nil_r; reflexivity|].
  destruct (Ascii.eqb_spec c " ") as [->|_]; [exfalso; apply H; left; reflexivity|]. rewrite IH by (intros Hi; apply H; right; exact Hi).
  rewrite <- app_assoc. reflexivity.
Qed.
Lemma words_plain t : plain t -> words t = [t].
Proof. intros [Hn Hs]. unfold words. rewrite words_from_plain by exact Hs. destruct t; [congruence|reflexivity]. Qed.
Lemma digits_plain ds : all_digits ds -> ~ In " "%char ds.
Proof. intros H Hin. unfold all_digits in H. rewrite Forall_forall in H. specialize (H _ Hin). discriminate. Qed.
Lemma int_plain z : plain (print_int z).
Proof.
  split; [apply int_nonempty|]. unfold print_int. destruct (Z.ltb_spec z 0).
  - destruct (print_nat_spec (- z) ltac:(lia)) as (ds & -> & _ & H2 & _). intros [E|Hin]; [discriminate|exact (digits_plain ds H2 Hin)].
  - destruct (print_nat_spec z ltac:(lia)) as (ds & -> & _ & H2 & _). exact (digits_plain ds H2).
Qed.
Lemma plain_app a b : plain a -> ~ In " "%char b -> plain (a ++ b).
Proof. intros [A1 A2] B. split; [destruct a; [congruence|discriminate]|]. intros H. apply in_app_or in H. tauto. Qed.
Lemma words_pad w t rest : words (pad_right w t ++ rest) = words (t ++ rest).
Proof. unfold pad_right. rewrite <- app_assoc. apply words_blank. Qed.
Lemma words_next t rest : plain t -> words (t ++ " "%char :: rest) = t :: words rest.
Proof. intros H. rewrite words_space, (words_plain t H). reflexivity. Qed.
Lemma words_skip rest : words (" "%char :: rest) = words rest.
Proof. reflexivity. Qed.
Lemma yes_no_plain b : plain (yes_no b).
Proof. destruct b; split; try discriminate; intros [E|[]]; discriminate. Qed.

Theorem log_line_words special iters elapsed x : words (log_line special iters elapsed x) =
  (if special then [lit "H"] else []) ++
  [ print_int iters; print_int elapsed ++ lit "s"; lit "|"; print_int (dt_curr x); yes_no (dt_curr_feas x);
    print_int (dt_cand x); yes_no (dt_cand_feas x); print_int (dt_best x); yes_no (dt_best_feas x) ].
Proof.
  assert (G : forall rest, words ((if special then lit "H" else lit " ") ++ lit " " ++ rest) = (if special then [lit "H"] else []) ++ words rest) by (intros rest; destruct special; reflexivity).
  unfold log_line. rewrite G. f_equal. rewrite words_pad. change (lit " ") with [" "%char]. cbn [app]. rewrite words_next by apply int_plain. f_equal.
  rewrite words_pad. change (lit "s | ") with (lit "s" ++ " "%char :: "|"%char :: [" "%char]). rewrite <- app_assoc, app_assoc. cbn [app].
  rewrite words_next; [|apply plain_app; [apply int_plain|intros [E|[]]; discriminate]]. f_equal.
  change ("|"%char :: " "%char :: ?r) with (lit "|" ++ " "%char :: r). rewrite (words_next (lit "|")); [|split; [discriminate|intros [E|[]]; discriminate]]. f_equal.
  change (lit "  ") with [" "%char; " "%char]. cbn [app].
  do 2 (rewrite words_pad, words_next by apply int_plain; f_equal; rewrite words_skip, words_next by apply yes_no_plain; f_equal).
  rewrite words_pad, words_next by apply int_plain. f_equal. rewrite words_skip. apply words_plain, yes_no_plain.
Qed.

Lemma print_int_inj a b : print_int a = print_int b -> a = b.
Proof. intros H. pose proof (int_roundtrip a) as A. rewrite H, int_roundtrip in A. injection A as ->. reflexivity. Qed.
Lemma yes_no_inj a b : yes_no a = yes_no b -> a = b.
Proof. destruct a, b; intros H; try discriminate; reflexivity. Qed.
Theorem log_line_inj special iters elapsed x special' iters' elapsed' x' :
  log_line special iters elapsed x = log_line special' iters' elapsed' x' -> special = special' /\ iters = iters' /\ elapsed = elapsed' /\ x = x'.
Proof.
  intros H. apply (f_equal words) in H. rewrite !log_line_words in H.
  assert (E : special = special') by (apply (f_equal (@length text)) in H; rewrite !app_length in H; destruct special, special'; cbn in H; congruence || lia).
  subst special'. apply app_inv_head in H. split; [reflexivity|]. destruct x as [a b c d e f], x' as [a' b' c' d' e' f']. cbn [dt_curr dt_curr_feas dt_cand dt_cand_feas dt_best dt_best_feas] in H.
  remember (print_int iters) as w1. remember (print_int iters') as w1'. remember (print_int elapsed ++ lit "s") as w2. remember (print_int elapsed' ++ lit "s") as w2'.
  injection H as H1 H2 H3 H4 H5 H6 H7 H8. subst w1 w1' w2 w2'.
  apply app_inv_tail in H2. apply print_int_inj in H1, H2, H3, H5, H7. apply yes_no_inj in H4, H6, H8. subst. auto.
Qed.

(** ** Alignment *)
Lemma print_loop_length fuel : forall n acc w, 0 <= n < 10 ^ Z.of_nat w -> (1 <= w)%nat -> (length (print_loop fuel n acc) <= w + length acc)%nat.
Proof.
  induction fuel as [|f IH]; intros n acc w Hn Hw; cbn [print_loop]; [lia|]. destruct (Z.ltb_spec n 10) as [H|H]; [cbn; lia|].
  destruct w as [|w]; [lia|]. destruct w as [|w]; [cbn in Hn; lia|].
  specialize (IH (n / 10) (chr (48 + n mod 10) :: acc) (S w)). cbn [length] in IH. rewrite <- plus_n_Sm in IH.
  apply IH; [|lia]. split; [apply Z.div_pos; lia|]. apply Z.div_lt_upper_bound; [lia|]. rewrite <- Z.pow_succ_r by lia. rewrite <- Nat2Z.inj_succ. lia.
Qed.
Lemma print_int_length z w : (1 <= w)%nat -> - 10 ^ (Z.of_nat w - 1) < z < 10 ^ Z.of_nat w -> (length (print_int z) <= w)%nat.
Proof.
  intros Hw Hz. unfold print_int, print_nat. destruct (Z.ltb_spec z 0) as [H|H].
  - destruct w as [|w]; [lia|]. replace (Z.of_nat (S w) - 1) with (Z.of_nat w) in Hz by lia. destruct w as [|w]; [cbn in Hz; lia|].
    pose proof (print_loop_length (S (Z.to_nat (Z.log2 (- z)))) (- z) [] (S w) ltac:(lia) ltac:(lia)) as L. cbn [length] in *. lia.
  - pose proof (print_loop_length (S (Z.to_nat (Z.log2 z))) z [] w ltac:(lia) Hw) as L. cbn [length] in L. lia.
Qed.
Lemma pad_fits w z : (1 <= w)%nat -> - 10 ^ (Z.of_nat w - 1) < z < 10 ^ Z.of_nat w -> length (pad_right w (print_int z)) = w.
Proof. intros Hw Hz. apply pad_right_length, print_int_length; assumption. Qed.
Lemma yes_no_length b : length (yes_no b) = 1%nat. Proof. destruct b; reflexivity. Qed.
Lemma piece_app a n b c : length a = n -> forall k, length b = k -> piece n k (a ++ b ++ c) = b.
Proof.
  intros <- k <-. unfold piece. rewrite skipn_app, skipn_all, Nat.sub_diag. cbn [skipn app]. rewrite firstn_app, firstn_all, Nat.sub_diag. cbn [firstn]. apply app_nil_r.
Qed.
Definition fits_line (iters elapsed : Z) (x : datum) : Prop :=
  0 <= iters < 10 ^ 7 /\ 0 <= elapsed < 10 ^ 6 /\ forall f, In f [dt_curr; dt_cand; dt_best] -> - 10 ^ 11 < f x < 10 ^ 12.

Theorem log_line_aligned special iters elapsed x : fits_line iters elapsed x -> let l := log_line special iters elapsed x in
  length l = length log_header /\
  piece 2 7 l = pad_right 7 (print_int iters) /\ piece 10 7 l = pad_right 6 (print_int elapsed) ++ lit "s" /\ piece 18 1 l = lit "|" /\
  piece 20 12 l = pad_right 12 (print_int (dt_curr x)) /\ piece 34 1 l = yes_no (dt_curr_feas x) /\
  piece 36 12 l = pad_right 12 (print_int (dt_cand x)) /\ piece 50 1 l = yes_no (dt_cand_feas x) /\
  piece 52 12 l = pad_right 12 (print_int (dt_best x)) /\ piece 66 1 l = yes_no (dt_best_feas x).
Proof.
  intros (H1 & H2 & H3) l. unfold l, log_line. clear l.
  assert (L0 : length (if special then lit "H" else lit " ") = 1%nat) by (destruct special; reflexivity).
  assert (L1 : length (pad_right 7 (print_int iters)) = 7%nat) by (apply pad_fits; [lia|]; cbn in *; lia).
  assert (L2 : length (pad_right 6 (print_int elapsed)) = 6%nat) by (apply pad_fits; [lia|]; cbn in *; lia).
  assert (L3 : forall f, In f [dt_curr; dt_cand; dt_best] -> length (pad_right 12 (print_int (f x))) = 12%nat).
  { intros f Hf. specialize (H3 f Hf). apply pad_fits; [lia|]. cbn in *. lia. }
  pose proof (L3 dt_curr ltac:(cbn; tauto)) as L4. pose proof (L3 dt_cand ltac:(cbn; tauto)) as L5. pose proof (L3 dt_best ltac:(cbn; tauto)) as L6. clear H1 H2 H3 L3.
  pose proof (yes_no_length (dt_curr_feas x)) as Y1. pose proof (yes_no_length (dt_cand_feas x)) as Y2. pose proof (yes_no_length (dt_best_feas x)) as Y3.
  revert L0 L1 L2 L4 L5 L6 Y1 Y2 Y3. generalize (if special then lit "H" else lit " ") (pad_right 7 (print_int iters)) (pad_right 6 (print_int elapsed))
    (pad_right 12 (print_int (dt_curr x))) (pad_right 12 (print_int (dt_cand x))) (pad_right 12 (print_int (dt_best x)))
    (yes_no (dt_curr_feas x)) (yes_no (dt_cand_feas x)) (yes_no (dt_best_feas x)).
  intros s a b c d e y1 y2 y3 L0 L1 L2 L4 L5 L6 Y1 Y2 Y3.
  repeat match goal with H : length ?t = S _ |- _ => destruct t; [discriminate H|]; cbn [length] in H; apply Nat.succ_inj in H
    | H : length ?t = 0%nat |- _ => apply length_zero_iff_nil in H; subst t end.
  repeat split; reflexivity.
Qed.

(** ** The start *)
Definition counted (n : nat) (one many : string) : list text := [print_int (Z.of_nat n); lit (if (n =? 1)%nat then one else many)].
Lemma words_count n noun : plain (lit noun) -> words (lit "    " ++ count_text n noun) = counted n noun (noun ++ "s").
Proof.
  intros H. change (lit "    ") with (blank 4). rewrite words_blank. unfold count_text, counted. change (lit " ") with [" "%char]. cbn [app]. rewrite words_next by apply int_plain. f_equal.
  destruct (n =? 1)%nat; [rewrite app_nil_r; apply words_plain, H|].
  assert (E : forall a b, lit a ++ lit b = lit (a ++ b)) by (induction a as [|c a IH]; intros b; [reflexivity|cbn; f_equal; apply IH]).
  rewrite words_plain; [rewrite E; reflexivity|]. apply plain_app; [exact H|]. intros [X|[]]; discriminate.
Qed.
Lemma words_vehicles v t : words (lit "    " ++ count_text v "vehicle" ++ lit " (" ++ count_text t "vehicle type" ++ lit ")") =
  counted v "vehicle" "vehicles" ++ [lit "(" ++ print_int (Z.of_nat t); lit "vehicle"; lit (if (t =? 1)%nat then "type)" else "types)")].
Proof.
  change (lit "    ") with (blank 4). rewrite words_blank. unfold count_text, counted. change (lit " ") with [" "%char]. change (lit " (") with [" "%char; "("%char].
  rewrite <- !app_assoc. cbn [app]. rewrite words_next by apply int_plain. f_equal.
  set (rest := "("%char :: _). assert (R : words rest = [lit "(" ++ print_int (Z.of_nat t); lit "vehicle"; lit (if (t =? 1)%nat then "type)" else "types)")]).
  { subst rest. change ("("%char :: ?r) with (lit "(" ++ r). rewrite app_assoc, words_next; [|apply plain_app; [split; [discriminate|intros [X|[]]; discriminate]|apply int_plain]].
    f_equal. destruct (t =? 1)%nat; reflexivity. }
  destruct (v =? 1)%nat; cbn [app].
  - rewrite words_next; [rewrite R; reflexivity|]. split; [discriminate|]. cbn. intuition discriminate.
  - rewrite app_assoc, words_next; [rewrite R; reflexivity|]. split; [discriminate|]. cbn. intuition discriminate.
Qed.
