(** pyvrp/Statistics.py, with the csv module's writer and reader in their default dialect.

    The text file is written with the platform's line ends and read back with universal newlines; the model
    has the line feed that Python sees.  The clock's readings are an arbitrary type [F] with Python's
    [repr] and [float]. *)
From Coq Require Import Ascii.
From Coq Require Import String List.
From Verif Require Import Base Data Ils ActivityText.
Import ListNotations.

(** str(int) and int(str); Python also accepts surrounding whitespace and underscores, which are not
    modelled. *)
Definition print_nat (n : Z) : text := print_loop (S (Z.to_nat (Z.log2 n))) n [].
Definition print_int (z : Z) : text := if z <? 0 then "-"%char :: print_nat (- z) else print_nat z.
Definition read_int (s : text) : res Z :=
  let '(neg, s) := match s with c :: more => if Ascii.eqb c "-" then (true, more) else (false, s) | [] => (false, s) end%char in
  match s with
  | [] => Err InvalidArgument
  | _ => if forallb is_digit s then Ok (if neg : bool then - value s else value s) else Err InvalidArgument
  end.

(** *** The csv module: Modules/_csv.c of CPython, QUOTE_MINIMAL, doubled quotes, not strict. *)
Definition quote : ascii := """"%char.
Definition lf : ascii := "010"%char.
Definition cr : ascii := "013"%char.
(** A field is quoted if it contains a delimiter, a quote or a line end. *)
Definition special (delim c : ascii) : bool :=
  Ascii.eqb c delim || Ascii.eqb c quote || Ascii.eqb c lf || Ascii.eqb c cr.
Fixpoint double_quotes (s : text) : text :=
  match s with
  | [] => []
  | c :: more => if Ascii.eqb c quote then quote :: quote :: double_quotes more else c :: double_quotes more
  end.
Definition write_field (delim : ascii) (s : text) : text :=
  if existsb (special delim) s then quote :: double_quotes s ++ [quote] else s.
Fixpoint write_fields (delim : ascii) (fs : list text) : text :=
  match fs with
  | [] => []
  | [f] => write_field delim f
  | f :: more => write_field delim f ++ delim :: write_fields delim more
  end.
(** A single empty field is written as two quotes. *)
Definition write_row (delim : ascii) (fs : list text) : text :=
  (match fs with [[]] => [quote; quote] | _ => write_fields delim fs end) ++ [lf].

(** The reader's states. *)
Inductive rstate := StartField | InField | InQuoted | QuoteInQuoted.
(** One line without its line end; [cur] is the field being read and [acc] the finished fields. *)
Fixpoint read_line (delim : ascii) (st : rstate) (cur : text) (acc : list text) (s : text) : list text :=
  match s with
  | [] => acc ++ [cur]
  | c :: more =>
      match st with
      | StartField =>
          if Ascii.eqb c quote then read_line delim InQuoted cur acc more
          else if Ascii.eqb c delim then read_line delim StartField [] (acc ++ [cur]) more
          else read_line delim InField (cur ++ [c]) acc more
      | InField =>
          if Ascii.eqb c delim then read_line delim StartField [] (acc ++ [cur]) more
          else read_line delim InField (cur ++ [c]) acc more
      | InQuoted =>
          if Ascii.eqb c quote then read_line delim QuoteInQuoted cur acc more
          else read_line delim InQuoted (cur ++ [c]) acc more
      | QuoteInQuoted =>
          if Ascii.eqb c quote then read_line delim InQuoted (cur ++ [c]) acc more
          else if Ascii.eqb c delim then read_line delim StartField [] (acc ++ [cur]) more
          else read_line delim InField (cur ++ [c]) acc more
      end
  end.
Definition read_row (delim : ascii) (line : text) : list text :=
  match line with [] => [] | _ => read_line delim StartField [] [] line end.

(** readlines(): the lines without their line feed. *)
Fixpoint split_lines (cur : text) (s : text) : list text :=
  match s with
  | [] => match cur with [] => [] | _ => [cur] end
  | c :: more => if Ascii.eqb c lf then cur :: split_lines [] more else split_lines (cur ++ [c]) more
  end.

Section Stats.
Context {F : Type}.
Variables (repr : F -> text) (float : text -> res F).

(** Statistics.py:35-45 *)
Record stats := mk_stats { sc_runtimes : list F; sc_iterations : nat; sc_data : list datum; sc_collect : bool }.
Definition new_stats (collect : bool) : stats := mk_stats [] 0 [] collect.
(** Statistics.py:65-103; the elapsed time is an argument. *)
Definition stats_collect (s : stats) (elapsed : F) (x : datum) : stats :=
  if sc_collect s
  then mk_stats (sc_runtimes s ++ [elapsed]) (S (sc_iterations s)) (sc_data s ++ [x]) (sc_collect s)
  else s.

Definition str (s : String.string) : text := String.list_ascii_of_string s.
(** Statistics.py:16-21 and 176 *)
Definition header : list text :=
  Eval vm_compute in map str ["runtime"; "current_cost"; "current_feas"; "candidate_cost"; "candidate_feas";
                              "best_cost"; "best_feas"]%string.
Definition print_bool (b : bool) : text := print_int (if b then 1 else 0).
Definition row_of (x : datum) (runtime : F) : list text :=
  [repr runtime; print_int (dt_curr x); print_bool (dt_curr_feas x); print_int (dt_cand x); print_bool (dt_cand_feas x);
   print_int (dt_best x); print_bool (dt_best_feas x)].
(** Statistics.py:153-188 *)
Definition to_csv (delim : ascii) (s : stats) : text :=
  write_row delim header ++ concat (map (fun p => write_row delim (row_of (fst p) (snd p))) (combine (sc_data s) (sc_runtimes s))).

(** csv.DictReader: a row is a dictionary from the header's names; missing fields are None (a TypeError when
    converted, [RuntimeErr] here), a repeated name keeps the last value, and empty lines are skipped. *)
Definition dict := list (text * text).
Definition text_eqb (a b : text) : bool := if list_eq_dec ascii_dec a b then true else false.
Definition get (row : dict) (name : text) : res text :=
  match find (fun p => text_eqb (fst p) name) (rev row) with Some p => Ok (snd p) | None => Err RuntimeErr end.
Definition rbind {A B} (x : res A) (f : A -> res B) : res B := match x with Ok a => f a | Err e => Err e end.
Definition get_int (row : dict) (name : text) : res Z := rbind (get row name) read_int.
Definition get_bool (row : dict) (name : text) : res bool := rbind (get_int row name) (fun z => Ok (negb (z =? 0))).
(** Statistics.py:129-139: the fields of a data point are looked up by name. *)
Definition make_datum (row : dict) : res datum :=
  rbind (get_int row (str "current_cost")) (fun a => rbind (get_bool row (str "current_feas")) (fun b =>
  rbind (get_int row (str "candidate_cost")) (fun c => rbind (get_bool row (str "candidate_feas")) (fun d =>
  rbind (get_int row (str "best_cost")) (fun e => rbind (get_bool row (str "best_feas")) (fun f =>
  Ok (mk_datum a b c d e f))))))).
(** Statistics.py:141-149 *)
Fixpoint read_rows (names : list text) (rows : list (list text)) (s : stats) : res stats :=
  match rows with
  | [] => Ok s
  | row :: more =>
      let row := combine names row in
      rbind (get row (str "runtime")) (fun t => rbind (float t) (fun t => rbind (make_datum row) (fun x =>
      read_rows names more (mk_stats (sc_runtimes s ++ [t]) (S (sc_iterations s)) (sc_data s ++ [x]) (sc_collect s)))))
  end.
(** Statistics.py:105-151 *)
Definition from_csv (delim : ascii) (file : text) : res stats :=
  let rows := filter (fun r => match r with [] => false | _ => true end) (map (read_row delim) (split_lines [] file)) in
  match rows with
  | [] => Ok (new_stats true)
  | names :: rows => read_rows names rows (new_stats true)
  end.

(** ** Facts *)
Inductive collected (b : bool) : stats -> Prop :=
| co_new : collected b (new_stats b)
| co_collect s t x : collected b s -> collected b (stats_collect s t x).

Hypothesis float_repr : forall x, float (repr x) = Ok x.
Hypothesis repr_line : forall x, ~ In lf (repr x).

Lemma print_nat_spec n : 0 <= n -> exists ds, print_nat n = ds /\ ds <> [] /\ all_digits ds /\ value ds = n.
Proof.
  intros Hn. unfold print_nat.
  destruct (print_loop_spec (S (Z.to_nat (Z.log2 n))) n []) as (ds & E0 & H1 & H2 & H3).
  - split; [exact Hn|]. pose proof (Z.log2_nonneg n). destruct (Z.eq_dec n 0) as [->|]; [cbn; lia|].
    destruct (Z.log2_spec n ltac:(lia)) as [_ H0]. eapply Z.lt_le_trans; [exact H0|].
    rewrite Nat2Z.inj_succ, Z2Nat.id by lia. apply Z.pow_le_mono_l. lia.
  - lia.
  - exists ds. rewrite E0, app_nil_r. auto.
Qed.
Lemma digits_read ds : ds <> [] -> all_digits ds -> read_int ds = Ok (value ds) /\ read_int ("-"%char :: ds) = Ok (- value ds).
Proof.
  intros Hne Hd. assert (Hf : forallb is_digit ds = true) by (apply forallb_forall; apply Forall_forall; exact Hd).
  split.
  - unfold read_int. destruct ds as [|c ds]; [congruence|]. destruct (Ascii.eqb_spec c "-") as [->|]; [inversion Hd; discriminate|].
    rewrite Hf. reflexivity.
  - change (read_int ("-"%char :: ds)) with
      (match ds with [] => Err InvalidArgument | _ => if forallb is_digit ds then Ok (- value ds) else Err InvalidArgument end).
    rewrite Hf. destruct ds; [congruence|reflexivity].
Qed.
Lemma int_roundtrip z : read_int (print_int z) = Ok z.
Proof.
  unfold print_int. destruct (Z.ltb_spec z 0).
  - destruct (print_nat_spec (- z) ltac:(lia)) as (ds & -> & H1 & H2 & H3). rewrite (proj2 (digits_read ds H1 H2)). f_equal. lia.
  - destruct (print_nat_spec z ltac:(lia)) as (ds & -> & H1 & H2 & H3). rewrite (proj1 (digits_read ds H1 H2)). f_equal. lia.
Qed.
Lemma int_line z : ~ In lf (print_int z).
Proof.
  assert (G : forall ds, all_digits ds -> ~ In lf ds).
  { intros ds Hd Hin. unfold all_digits in Hd. rewrite Forall_forall in Hd. specialize (Hd _ Hin). discriminate. }
  unfold print_int. destruct (Z.ltb_spec z 0).
  - destruct (print_nat_spec (- z) ltac:(lia)) as (ds & -> & _ & H2 & _). intros [?|?]; [discriminate|]. eapply G; eassumption.
  - destruct (print_nat_spec z ltac:(lia)) as (ds & -> & _ & H2 & _). apply G. exact H2.
Qed.
Lemma int_nonempty z : print_int z <> [].
Proof.
  unfold print_int. destruct (Z.ltb_spec z 0); [discriminate|]. destruct (print_nat_spec z ltac:(lia)) as (ds & -> & H1 & _). exact H1.
Qed.

Lemma read_quoted delim s : forall cur acc rest, delim <> quote ->
  read_line delim InQuoted cur acc (double_quotes s ++ quote :: rest) =
  read_line delim QuoteInQuoted (cur ++ s) acc rest.
Proof.
  induction s as [|c s IH]; intros cur acc rest Hd; cbn [double_quotes app].
  - cbn [read_line]. rewrite Ascii.eqb_refl, app_nil_r. reflexivity.
  - destruct (Ascii.eqb_spec c quote) as [->|Hc].
    + cbn [app read_line]. rewrite !Ascii.eqb_refl. rewrite IH by exact Hd. rewrite <- app_assoc. reflexivity.
    + cbn [app read_line]. apply Ascii.eqb_neq in Hc. rewrite Hc. rewrite IH by exact Hd. rewrite <- app_assoc. reflexivity.
Qed.
Lemma read_plain delim s : forall cur acc rest, existsb (special delim) s = false ->
  read_line delim InField cur acc (s ++ rest) = read_line delim InField (cur ++ s) acc rest.
Proof.
  induction s as [|c s IH]; intros cur acc rest Hs; cbn [app]; [rewrite app_nil_r; reflexivity|].
  cbn [existsb] in Hs. apply Bool.orb_false_iff in Hs. destruct Hs as [Hc Hs]. cbn [read_line].
  unfold special in Hc. apply Bool.orb_false_iff in Hc. destruct Hc as [Hc _]. apply Bool.orb_false_iff in Hc. destruct Hc as [Hc _].
  apply Bool.orb_false_iff in Hc. destruct Hc as [-> _]. rewrite IH by exact Hs. rewrite <- app_assoc. reflexivity.
Qed.
(** A written field followed by a delimiter is read back. *)
Lemma read_field delim f acc rest : delim <> quote ->
  read_line delim StartField [] acc (write_field delim f ++ delim :: rest) = read_line delim StartField [] (acc ++ [f]) rest.
Proof.
  intros Hd. apply Ascii.eqb_neq in Hd as Hd'. unfold write_field. destruct (existsb (special delim) f) eqn:E0.
  - cbn [app read_line]. rewrite Ascii.eqb_refl. rewrite <- app_assoc. cbn [app]. rewrite read_quoted by exact Hd.
    cbn [app read_line]. rewrite Hd', Ascii.eqb_refl. reflexivity.
  - destruct f as [|c f]; cbn [app read_line].
    + rewrite Hd', Ascii.eqb_refl. reflexivity.
    + cbn [existsb] in E0. apply Bool.orb_false_iff in E0. destruct E0 as [Hc E0].
      unfold special in Hc. apply Bool.orb_false_iff in Hc. destruct Hc as [Hc _]. apply Bool.orb_false_iff in Hc. destruct Hc as [Hc _].
      apply Bool.orb_false_iff in Hc. destruct Hc as [-> ->]. rewrite read_plain by exact E0. cbn [app read_line].
      rewrite Ascii.eqb_refl. reflexivity.
Qed.
Lemma read_last delim f acc : delim <> quote ->
  read_line delim StartField [] acc (write_field delim f) = acc ++ [f].
Proof.
  intros Hd. unfold write_field. destruct (existsb (special delim) f) eqn:E0.
  - cbn [read_line]. rewrite Ascii.eqb_refl. rewrite read_quoted by exact Hd. reflexivity.
  - destruct f as [|c f]; cbn [read_line]; [reflexivity|].
    cbn [existsb] in E0. apply Bool.orb_false_iff in E0. destruct E0 as [Hc E0].
    unfold special in Hc. apply Bool.orb_false_iff in Hc. destruct Hc as [Hc _]. apply Bool.orb_false_iff in Hc. destruct Hc as [Hc _].
    apply Bool.orb_false_iff in Hc. destruct Hc as [-> ->].
    rewrite <- (app_nil_r f). rewrite read_plain by exact E0. cbn [read_line app]. rewrite app_nil_r. reflexivity.
Qed.
Lemma read_fields delim fs acc : delim <> quote -> fs <> [] ->
  read_line delim StartField [] acc (write_fields delim fs) = acc ++ fs.
Proof.
  intros Hd. revert acc. induction fs as [|f fs IH]; intros acc Hne; [congruence|]. destruct fs as [|g fs].
  - apply read_last. exact Hd.
  - change (write_fields delim (f :: g :: fs)) with (write_field delim f ++ delim :: write_fields delim (g :: fs)).
    rewrite read_field by exact Hd. rewrite IH by discriminate. rewrite <- app_assoc. reflexivity.
Qed.
Lemma write_fields_nonempty delim f g fs : write_fields delim (f :: g :: fs) <> [].
Proof. cbn. destruct (write_field delim f); discriminate. Qed.

Lemma write_row_two delim f g fs : write_row delim (f :: g :: fs) = write_fields delim (f :: g :: fs) ++ [lf].
Proof. destruct f; reflexivity. Qed.

Lemma split_line cur line rest : ~ In lf line -> split_lines cur (line ++ lf :: rest) = (cur ++ line) :: split_lines [] rest.
Proof.
  revert cur. induction line as [|c line IH]; intros cur Hl; cbn [app split_lines].
  - rewrite Ascii.eqb_refl, app_nil_r. reflexivity.
  - destruct (Ascii.eqb_spec c lf) as [->|_]; [exfalso; apply Hl; left; reflexivity|].
    rewrite IH by (intros H; apply Hl; right; exact H). rewrite <- app_assoc. reflexivity.
Qed.
Lemma in_double_quotes c s : In c (double_quotes s) -> c = quote \/ In c s.
Proof.
  induction s as [|x s IH]; cbn [double_quotes]; [intros []|]. destruct (Ascii.eqb_spec x quote) as [->|_].
  - intros [<-|[<-|H]]; [auto|auto|]. destruct (IH H); [auto|right; right; assumption].
  - intros [<-|H]; [right; left; reflexivity|]. destruct (IH H); [auto|right; right; assumption].
Qed.
Lemma write_field_line delim f : ~ In lf f -> ~ In lf (write_field delim f).
Proof.
  intros Hf. unfold write_field. destruct (existsb (special delim) f); [|exact Hf]. intros [H|H]; [discriminate|].
  apply in_app_or in H. destruct H as [H|[H|[]]]; [|discriminate]. apply in_double_quotes in H. destruct H as [H|H]; [discriminate|tauto].
Qed.
Lemma write_fields_line delim fs : delim <> lf -> Forall (fun f => ~ In lf f) fs -> ~ In lf (write_fields delim fs).
Proof.
  intros Hd HF. induction HF as [|f fs Hf HF IH]; [intros []|]. destruct fs as [|g fs]; [apply write_field_line; exact Hf|].
  change (write_fields delim (f :: g :: fs)) with (write_field delim f ++ delim :: write_fields delim (g :: fs)).
  intros H. apply in_app_or in H. destruct H as [H|[H|H]]; [exact (write_field_line delim f Hf H)|congruence|exact (IH H)].
Qed.

(** A row of at least two fields is read back, whatever follows it. *)
Lemma read_row_roundtrip delim f g fs : delim <> quote -> read_row delim (write_fields delim (f :: g :: fs)) = f :: g :: fs.
Proof.
  intros Hd. unfold read_row. destruct (write_fields delim (f :: g :: fs)) as [|c t] eqn:E0.
  - exfalso. exact (write_fields_nonempty delim f g fs E0).
  - rewrite <- E0. apply (read_fields delim (f :: g :: fs) [] Hd). discriminate.
Qed.

Lemma bool_roundtrip b : rbind (read_int (print_bool b)) (fun z => Ok (negb (z =? 0))) = Ok b.
Proof. unfold print_bool. rewrite int_roundtrip. destruct b; reflexivity. Qed.

Lemma make_datum_row x t : make_datum (combine header (row_of x t)) = Ok x /\ get (combine header (row_of x t)) (str "runtime") = Ok (repr t).
Proof.
  unfold make_datum, get_bool, get_int, get, row_of. cbn [combine header rev app].
  set (a := repr t). set (b := print_int (dt_curr x)). set (c := print_bool (dt_curr_feas x)). set (d := print_int (dt_cand x)).
  set (e := print_bool (dt_cand_feas x)). set (f := print_int (dt_best x)). set (g := print_bool (dt_best_feas x)).
  split; [|reflexivity].
  cbn -[read_int rbind]. cbn [rbind]. unfold b, c, d, e, f, g, print_bool.
  repeat (rewrite int_roundtrip; cbn [rbind]). destruct x as [x1 [] x2 [] x3 []]; reflexivity.
Qed.

Lemma split_concat (rows : list text) : Forall (fun r => ~ In lf r) rows -> split_lines [] (concat (map (fun r => r ++ [lf]) rows)) = rows.
Proof.
  intros HF. induction HF as [|r rows Hr HF IH]; [reflexivity|]. cbn [map concat]. rewrite <- app_assoc. cbn [app].
  rewrite split_line by exact Hr. cbn [app]. f_equal. exact IH.
Qed.

Lemma collected_lengths b s : collected b s ->
  sc_collect s = b /\ length (sc_data s) = sc_iterations s /\ length (sc_runtimes s) = sc_iterations s /\
  (b = false -> s = new_stats false).
Proof.
  induction 1 as [|s t x _ IH]; [cbn; intuition congruence|]. destruct IH as (I1 & I2 & I3 & I4).
  unfold stats_collect. rewrite I1. destruct b; [|auto]. cbn. rewrite !app_length. cbn. repeat split; try lia; congruence.
Qed.

Lemma read_rows_all rows : forall s, read_rows header (map (fun p => row_of (fst p) (snd p)) rows) s =
  Ok (mk_stats (sc_runtimes s ++ map snd rows) (sc_iterations s + length rows) (sc_data s ++ map fst rows) (sc_collect s)).
Proof.
  induction rows as [|[x t] rows IH]; intros s.
  - cbn. rewrite !app_nil_r, Nat.add_0_r. destruct s; reflexivity.
  - cbn [map fst snd read_rows]. destruct (make_datum_row x t) as [E1 E2]. rewrite E2. cbn [rbind]. rewrite float_repr. cbn [rbind].
    rewrite E1. cbn [rbind]. rewrite IH. cbn [sc_runtimes sc_iterations sc_data sc_collect length]. rewrite <- !app_assoc. cbn [app].
    do 2 f_equal. lia.
Qed.

Theorem csv_roundtrip delim s : delim <> quote -> delim <> lf -> collected true s -> from_csv delim (to_csv delim s) = Ok s.
Proof.
  intros Hd Hl Hc. destruct (collected_lengths true s Hc) as (C1 & C2 & C3 & _).
  unfold from_csv, to_csv.
  set (rows := combine (sc_data s) (sc_runtimes s)).
  assert (E1 : write_row delim header ++ concat (map (fun p => write_row delim (row_of (fst p) (snd p))) rows) =
    concat (map (fun r => r ++ [lf]) (map (write_fields delim) (header :: map (fun p => row_of (fst p) (snd p)) rows)))).
  { cbn [map concat]. rewrite !map_map. f_equal. f_equal. apply map_ext. intros p. apply write_row_two. }
  rewrite E1. rewrite split_concat.
  2: { rewrite Forall_map. constructor.
       - apply write_fields_line; [exact Hl|]. repeat (constructor; [intros H; vm_compute in H; intuition discriminate|]). constructor.
       - rewrite Forall_map. apply Forall_forall. intros p _. apply write_fields_line; [exact Hl|]. unfold row_of, print_bool.
         repeat (constructor; [first [apply repr_line|apply int_line]|]). constructor. }
  rewrite map_map.
  assert (E2 : map (fun x => read_row delim (write_fields delim x)) (header :: map (fun p => row_of (fst p) (snd p)) rows) =
               header :: map (fun p => row_of (fst p) (snd p)) rows).
  { cbn [map]. f_equal; [apply read_row_roundtrip; exact Hd|]. rewrite map_map. apply map_ext. intros p. apply read_row_roundtrip. exact Hd. }
  rewrite E2. cbn [filter header]. fold header.
  assert (E3 : forall l, filter (fun r : list text => match r with [] => false | _ => true end) (map (fun p => row_of (fst p) (snd p)) l) =
               map (fun p => row_of (fst p) (snd p)) l) by (induction l as [|p l IH]; cbn; [reflexivity|rewrite IH; reflexivity]).
  rewrite E3. rewrite read_rows_all. cbn [new_stats sc_runtimes sc_iterations sc_data sc_collect app].
  assert (G : forall (a : list datum) (b : list F), length a = length b -> map fst (combine a b) = a /\ map snd (combine a b) = b).
  { induction a as [|x a IH]; intros [|y b] H; cbn in H; try discriminate; [auto|]. injection H as H. destruct (IH b H) as [I1 I2].
    cbn. rewrite I1, I2. auto. }
  unfold rows. destruct (G (sc_data s) (sc_runtimes s) ltac:(congruence)) as [-> ->]. rewrite combine_length, C3, C2, Nat.min_id.
  destruct s as [r n x c]. cbn in *. subst c. reflexivity.
Qed.

(** Statistics that were not collecting come back as collecting ones, and so compare unequal. *)
Theorem csv_not_collecting delim s : delim <> quote -> delim <> lf -> collected false s ->
  from_csv delim (to_csv delim s) = Ok (new_stats true) /\ s = new_stats false.
Proof.
  intros Hd Hl Hc. destruct (collected_lengths false s Hc) as (_ & _ & _ & E0). rewrite (E0 eq_refl). split; [|reflexivity].
  apply (csv_roundtrip delim (new_stats true) Hd Hl). constructor.
Qed.
End Stats.
