(** Model of pyvrp/cli.py: solving several instance files with one command, the rows that are reported and the files that are written. *)
From Coq Require Import ZArith Reals Lia List String Permutation Sorted.
From Coq Require Import Ascii.
From Verif Require Import Base DurationSegment Data LoadSegment Valid Route RouteSpec Cost CostFacts Penalty Solution SolutionFacts SolutionFacts2 SolutionFacts3
  Equal Ils OpsBase StatsCsv ActivityText ModelPy Read ReadFacts ReadSpec ReadSol ReadData ReadVeh ReadMat ReadRoute ReadOk Stop ResultPy Solve Hang Config Cli.
Import ListNotations.
Local Open Scope Z_scope.
Notation length := List.length.

(** ** Paths *)
(** A path is the list of its components (pathlib, standard library). *)
Definition path := list text.
(** Python's order of lists and of strings: the first difference decides, and a prefix comes first. *)
Fixpoint lex {A} (lt : A -> A -> bool) (a b : list A) : bool :=
  match a, b with
  | [], [] => false
  | [], _ :: _ => true
  | _ :: _, [] => false
  | x :: a, y :: b => if lt x y then true else if lt y x then false else lex lt a b
  end.
Definition char_lt (a b : ascii) : bool := (nat_of_ascii a <? nat_of_ascii b)%nat.
Definition text_lt : text -> text -> bool := lex char_lt.
Definition path_lt : path -> path -> bool := lex text_lt.
(** sorted(instances) (cli.py:193): a stable sort. *)
Fixpoint insert (x : path) (l : list path) : list path :=
  match l with [] => [x] | y :: l' => if path_lt x y then x :: l else y :: insert x l' end.
Definition sort_paths (l : list path) : list path := fold_left (fun acc x => insert x acc) l [].

(** Path.stem (standard library): the last component up to its last dot, unless the dot is its first or last character. *)
Fixpoint last_dot (t : text) : option (text * text) :=
  match t with
  | [] => None
  | c :: t' => match last_dot t' with
               | Some (a, b) => Some (c :: a, b)
               | None => if Ascii.eqb c "."%char then Some ([], t') else None
               end
  end.
Definition stem (p : path) : text :=
  let name := last p [] in
  match last_dot name with Some ((_ :: _) as a, _ :: _) => a | _ => name end.

(** ** Files that are written *)
(** A directory with a name. *)
Definition key := (path * text)%type.
Inductive content := Csv (t : text) | Sol (lines : list (list nat)) (cost : option Z).
Definition disk := key -> option content.
Definition key_dec (a b : key) : {a = b} + {a <> b}.
Proof. repeat decide equality. Defined.
(** Writing replaces what a file of that name held. *)
Definition store (f : disk) (w : key * content) : disk := fun q => if key_dec q (fst w) then Some (snd w) else f q.
Definition is_some {A} (o : option A) : bool := match o with Some _ => true | None => false end.

Section Bench.
(** As for a single instance (Cli.v), for each position in the list of instances. *)
Context {Num F : Type}.
Variables (zero : Num) (repr : F -> text).
Variables (clock : nat -> nat -> Z) (elapsed : nat -> nat -> F) (runtime : nat -> b64).
Variables n k : nat.
(** What the instance files hold. *)
Variables (rf : Num -> Z) (contents : path -> instance Num).
(** The arguments of the command, and the directories of --stats_dir and --sol_dir. *)
Variables (a : cli_args) (stats_dir sol_dir : option path).

(** cli.py:135-159: statistics are collected if there is a directory for them. *)
Definition bench_args : cli_args :=
  mk_cli_args (ca_config a) (ca_seed a) (ca_runtime a) (ca_iterations a) (ca_improvement a) (ca_per_client a) (is_some stats_dir) (is_some sol_dir).
(** cli.py:96-176, for the instance at position [i] *)
Definition one (i : nat) (p : path) : option (res cli_out) :=
  cli_solve zero repr (clock i) (elapsed i) (runtime i) n k bench_args rf (contents p).
(** cli.py:162-168 *)
Definition writes (p : path) (o : cli_out) : list (key * content) :=
  match stats_dir, co_csv o with Some s, Some t => [((s, stem p ++ str ".csv"), Csv t)] | _, _ => [] end ++
  match sol_dir, co_lines o, co_final_cost o with Some s, Some l, Some c => [((s, stem p ++ str ".sol"), Sol l c)] | _, _, _ => [] end.
(** cli.py:170-176 and 201-209: the tuple as a row of the table, without the run time; the field for the name has 37 characters. *)
Record row := mk_row { ro_name : text; ro_ok : bool; ro_cost : option Z; ro_iters : nat }.
Definition row_of (p : path) (o : cli_out) : row := mk_row (firstn 37 (stem p)) (co_ok o) (co_cost o) (co_iters o).
(** cli.py:196-199: any error is raised. *)
Fixpoint run_all (i : nat) (ps : list path) : option (res (list cli_out)) :=
  match ps with
  | [] => Some (Ok [])
  | p :: ps' => match one i p with
                | None => None
                | Some (Err e) => Some (Err e)
                | Some (Ok o) => match run_all (S i) ps' with
                                 | None => None
                                 | Some (Err e) => Some (Err e)
                                 | Some (Ok os) => Some (Ok (o :: os))
                                 end
                end
  end.
(** cli.py:179-216: the rows, the number that is not feasible, and what is written, one list for each instance.  The processes
    of a pool may write in any order.  The averages that are printed are not modelled. *)
Record bench_out := mk_bench_out { bo_rows : list row; bo_not_ok : nat; bo_writes : list (key * content) }.
Definition benchmark (ps : list path) : option (res bench_out) :=
  let qs := sort_paths ps in
  match run_all 0 qs with
  | None => None
  | Some (Err e) => Some (Err e)
  | Some (Ok os) =>
    let rows := map (fun po => row_of (fst po) (snd po)) (combine qs os) in
    Some (Ok (mk_bench_out rows (length (filter (fun r => negb (ro_ok r)) rows)) (flat_map (fun po => writes (fst po) (snd po)) (combine qs os))))
  end.
End Bench.

(** ** The order of paths *)
Lemma lex_asym {A} (lt : A -> A -> bool) : (forall x y, lt x y = true -> lt y x = false) -> forall a b, lex lt a b = true -> lex lt b a = false.
Proof.
  intros H. induction a as [|x a IH]; intros [|y b]; cbn; try discriminate; [reflexivity|].
  destruct (lt x y) eqn:E1; destruct (lt y x) eqn:E2; try discriminate; try reflexivity; [rewrite (H _ _ E1) in E2; discriminate|]. apply IH.
Qed.
Lemma path_lt_asym a b : path_lt a b = true -> path_lt b a = false.
Proof.
  apply lex_asym. apply lex_asym. intros x y. unfold char_lt. destruct (Nat.ltb_spec (nat_of_ascii x) (nat_of_ascii y)); [|discriminate]. intros _. apply Nat.ltb_ge. lia.
Qed.
Definition path_le (a b : path) : Prop := path_lt b a = false.
Lemma insert_perm x l : Permutation (insert x l) (x :: l).
Proof. induction l as [|y l IH]; cbn; [reflexivity|]. destruct (path_lt x y); [reflexivity|]. rewrite IH. apply perm_swap. Qed.
Lemma insert_sorted x l : Sorted path_le l -> Sorted path_le (insert x l).
Proof.
  induction l as [|y l IH]; cbn; intros H; [constructor; constructor|]. destruct (path_lt x y) eqn:E.
  - constructor; [exact H|]. constructor. apply path_lt_asym. exact E.
  - apply Sorted_inv in H as [H1 H2]. constructor; [exact (IH H1)|]. destruct l as [|z l]; cbn; [constructor; exact E|].
    destruct (path_lt x z); constructor; [exact E|]. inversion H2. assumption.
Qed.
Lemma sort_paths_spec l : Permutation l (sort_paths l) /\ Sorted path_le (sort_paths l).
Proof.
  unfold sort_paths. assert (G : forall acc, Sorted path_le acc -> Permutation (acc ++ l) (fold_left (fun acc x => insert x acc) l acc) /\ Sorted path_le (fold_left (fun acc x => insert x acc) l acc)).
  { induction l as [|x l IH]; intros acc H; cbn; [rewrite app_nil_r; auto|]. destruct (IH (insert x acc) (insert_sorted x acc H)) as [P S]. split; [|exact S].
    rewrite <- P, insert_perm. cbn. symmetry. apply Permutation_middle. }
  apply (G []). constructor.
Qed.

(** ** Names *)
Lemma last_dot_none t : ~ In "."%char t -> last_dot t = None.
Proof. induction t as [|c t IH]; cbn; intros H; [reflexivity|]. rewrite IH by tauto. destruct (Ascii.eqb_spec c "."%char); [tauto|reflexivity]. Qed.
Lemma last_dot_some b : ~ In "."%char b -> forall a, last_dot (a ++ "."%char :: b) = Some (a, b).
Proof. intros H. induction a as [|c a IH]; cbn; [rewrite last_dot_none by exact H; reflexivity|]. rewrite IH. reflexivity. Qed.
Theorem stem_spec dir name ext : (~ In "."%char name -> stem (dir ++ [name]) = name) /\
  (name <> [] -> ext <> [] -> ~ In "."%char ext -> stem (dir ++ [name ++ "."%char :: ext]) = name).
Proof.
  unfold stem. rewrite !last_last. split; [intros H; rewrite last_dot_none by exact H; reflexivity|]. intros H1 H2 H3. rewrite last_dot_some by exact H3.
  destruct name; [congruence|]. destruct ext; [congruence|reflexivity].
Qed.

(** ** What a benchmark reports *)
Section BenchFacts.
Context {Num F : Type}.
Variables (zero : Num) (repr : F -> text).
Variables (clock : nat -> nat -> Z) (elapsed : nat -> nat -> F) (runtime : nat -> b64).
Variables n k : nat.
Variables (rf : Num -> Z) (contents : path -> instance Num).
Variables (a : cli_args) (stats_dir sol_dir : option path).
Notation one := (one zero repr clock elapsed runtime n k rf contents a stats_dir sol_dir).
Notation run_all := (run_all zero repr clock elapsed runtime n k rf contents a stats_dir sol_dir).
Notation benchmark := (benchmark zero repr clock elapsed runtime n k rf contents a stats_dir sol_dir).
Notation writes := (writes stats_dir sol_dir).

Lemma run_all_spec ps : forall i os, run_all i ps = Some (Ok os) -> length os = length ps /\
  forall j p, nth_error ps j = Some p -> exists o, nth_error os j = Some o /\ one (i + j)%nat p = Some (Ok o).
Proof.
  induction ps as [|p ps IH]; cbn [Bench.run_all]; intros i os H; [injection H as <-; split; [reflexivity|intros [|j] p E; discriminate]|].
  destruct (one i p) as [[o|e]|] eqn:Eo; try discriminate. destruct (run_all (S i) ps) as [[os'|e]|] eqn:Er; try discriminate.
  assert (os = o :: os') as -> by congruence. destruct (IH _ _ Er) as [L G]. split; [cbn; lia|]. intros [|j] q Eq; cbn [nth_error] in *.
  - exists o. split; [reflexivity|]. rewrite Nat.add_0_r. congruence.
  - destruct (G j q Eq) as (o' & E1 & E2). exists o'. split; [exact E1|]. replace (i + S j)%nat with (S i + j)%nat by lia. exact E2.
Qed.
Lemma combine_nth_error {A B} (l : list A) (m : list B) j x y : nth_error l j = Some x -> nth_error m j = Some y -> nth_error (combine l m) j = Some (x, y).
Proof. revert m j. induction l as [|u l IH]; intros [|v m] [|j]; cbn; try discriminate; [congruence|]. apply IH. Qed.
Lemma benchmark_inv ps out : benchmark ps = Some (Ok out) -> exists os,
  run_all 0 (sort_paths ps) = Some (Ok os) /\ bo_rows out = map (fun po => row_of (fst po) (snd po)) (combine (sort_paths ps) os) /\
  bo_not_ok out = length (filter (fun r => negb (ro_ok r)) (bo_rows out)) /\
  bo_writes out = flat_map (fun po => writes (fst po) (snd po)) (combine (sort_paths ps) os).
Proof.
  unfold Bench.benchmark. cbv zeta. destruct (run_all 0 (sort_paths ps)) as [[os|e]|] eqn:E; try discriminate. intros H. exists os.
  assert (H' := f_equal (fun x => match x with Some (Ok v) => v | _ => out end) H). cbn beta iota in H'. rewrite <- H'. cbn [bo_rows bo_not_ok bo_writes]. auto.
Qed.
(** One row for each instance, in the order of the sorted paths. *)
Theorem benchmark_rows ps out : benchmark ps = Some (Ok out) -> exists qs, Permutation ps qs /\ Sorted path_le qs /\ length (bo_rows out) = length ps /\
  (forall i p, nth_error qs i = Some p -> exists o, one i p = Some (Ok o) /\
     nth_error (bo_rows out) i = Some (mk_row (firstn 37 (stem p)) (co_ok o) (co_cost o) (co_iters o))) /\
  bo_not_ok out = length (filter (fun r => negb (ro_ok r)) (bo_rows out)).
Proof.
  intros H. destruct (benchmark_inv ps out H) as (os & R & E1 & E2 & _). destruct (sort_paths_spec ps) as [P S]. destruct (run_all_spec _ _ _ R) as [L G].
  exists (sort_paths ps). split; [exact P|]. split; [exact S|]. split; [rewrite E1, map_length, combine_length, L, Nat.min_id; symmetry; apply Permutation_length; exact P|].
  split; [|exact E2]. intros i p Hp. destruct (G i p Hp) as (o & Eo & Ho). exists o. split; [exact Ho|]. rewrite E1.
  exact (map_nth_error _ _ _ (combine_nth_error _ _ _ _ _ Hp Eo)).
Qed.

(** *** Files *)
Lemma store_other ws : forall (f : disk) q, ~ In q (map fst ws) -> fold_left store ws f q = f q.
Proof.
  induction ws as [|w ws IH]; intros f q H; cbn [fold_left]; [reflexivity|]. cbn [map In] in H. rewrite IH by tauto. unfold store. destruct (key_dec q (fst w)) as [E|E]; [|reflexivity].
  exfalso. apply H. left. congruence.
Qed.
Lemma store_in ws : forall (f : disk) q c, NoDup (map fst ws) -> In (q, c) ws -> fold_left store ws f q = Some c.
Proof.
  induction ws as [|w ws IH]; intros f q c N H; [destruct H|]. cbn [map] in N. apply NoDup_cons_iff in N as [N1 N2]. cbn [fold_left]. destruct H as [->|H].
  - rewrite store_other by exact N1. unfold store. cbn [fst snd]. destruct (key_dec q q); [reflexivity|congruence].
  - exact (IH _ q c N2 H).
Qed.
Lemma cli_files clock' elapsed' runtime' n' k' b inst o : cli_solve zero repr clock' elapsed' runtime' n' k' b rf inst = Some (Ok o) ->
  is_some (co_csv o) = ca_stats b /\ is_some (co_lines o) = ca_sol b /\ co_final_cost o = (if ca_sol b then Some (co_cost o) else None).
Proof.
  unfold cli_solve. destruct (match ca_config b with Some t => from_file t | None => Ok defaults end) as [p|]; try discriminate.
  destruct (read Num zero rf inst) as [d|]; try discriminate. cbv zeta. destruct (make_stop _ _ _) as [c|]; try discriminate.
  destruct (solve _ _ _ _ _ _ _ _ _ _) as [[x|]|]; try discriminate. destruct (make_result _ _ _) as [r|]; try discriminate. cbn [bind].
  intros H. destruct (ca_sol b).
  - destruct (write_solution d (o_best x)) as [l|]; try discriminate. cbn [bind] in H.
    assert (H' := f_equal (fun x => match x with Some (Ok v) => v | _ => o end) H). cbn beta iota in H'. rewrite <- H'. cbn. destruct (ca_stats b); auto.
  - cbn [bind] in H. assert (H' := f_equal (fun x => match x with Some (Ok v) => v | _ => o end) H). cbn beta iota in H'. rewrite <- H'. cbn. destruct (ca_stats b); auto.
Qed.
Lemma csv_sol s t : s ++ str ".csv" <> t ++ str ".sol".
Proof. intros H. apply (f_equal (fun l => hd "."%char (rev l))) in H. rewrite !rev_app_distr in H. discriminate. Qed.
Lemma writes_keys p o q : In q (map fst (writes p o)) ->
  (exists s, stats_dir = Some s /\ q = (s, stem p ++ str ".csv")) \/ (exists s, sol_dir = Some s /\ q = (s, stem p ++ str ".sol")).
Proof.
  unfold Bench.writes. rewrite map_app, in_app_iff. intros [H|H].
  - left. destruct stats_dir as [s|]; [|destruct H]. destruct (co_csv o); [|destruct H]. destruct H as [H|[]]. exists s. auto.
  - right. destruct sol_dir as [s|]; [|destruct H]. destruct (co_lines o); [|destruct H]. destruct (co_final_cost o); [|destruct H]. destruct H as [H|[]]. exists s. auto.
Qed.
Lemma writes_nodup p o : NoDup (map fst (writes p o)).
Proof.
  unfold Bench.writes. destruct stats_dir as [s|]; destruct sol_dir as [s'|]; destruct (co_csv o); destruct (co_lines o); destruct (co_final_cost o); cbn;
    repeat constructor; cbn; try tauto. intros [H|[]]. apply (csv_sol (stem p) (stem p)). injection H as _ H. symmetry. exact H.
Qed.
Lemma all_nodup ps : forall os, length os = length ps -> NoDup (map stem ps) -> NoDup (map fst (flat_map (fun po => writes (fst po) (snd po)) (combine ps os))).
Proof.
  induction ps as [|p ps IH]; intros [|o os] L N; cbn [combine flat_map map]; try constructor. cbn [map] in N. apply NoDup_cons_iff in N as [N1 N2]. injection L as L.
  rewrite map_app. cbn [fst snd]. specialize (IH os L N2). revert IH. generalize (writes_nodup p o).
  assert (D : forall q, In q (map fst (writes p o)) -> ~ In q (map fst (flat_map (fun po => writes (fst po) (snd po)) (combine ps os)))).
  { intros q H1 H2. apply in_map_iff in H2 as (w & Ew & H2). apply in_flat_map in H2 as ([p' o'] & H3 & H4). cbn [fst snd] in H4.
    assert (H5 : In q (map fst (writes p' o'))) by (rewrite <- Ew; apply in_map; exact H4). assert (Hs : stem p = stem p').
    { apply writes_keys in H1. apply writes_keys in H5. destruct H1 as [(s & _ & ->)|(s & _ & ->)], H5 as [(s' & _ & E)|(s' & _ & E)]; injection E as _ E.
      - exact (app_inv_tail _ _ _ E).
      - destruct (csv_sol _ _ E).
      - symmetry in E. destruct (csv_sol _ _ E).
      - exact (app_inv_tail _ _ _ E). }
    apply N1. rewrite Hs. apply in_map. exact (in_combine_l _ _ _ _ H3). }
  revert D. generalize (map fst (writes p o)) as l, (map fst (flat_map (fun po => writes (fst po) (snd po)) (combine ps os))) as m. clear.
  induction l as [|x l IH]; intros m D N1 N2; [exact N2|]. apply NoDup_cons_iff in N1 as [N0 N1]. cbn. constructor.
  - rewrite in_app_iff. intros [H|H]; [tauto|]. exact (D x (or_introl eq_refl) H).
  - apply IH; auto. intros q H. apply D. right. exact H.
Qed.
(** If the names differ, each instance has its own files afterwards, in whatever order they were written, and no other file changes. *)
Theorem benchmark_files ps out ws (before : disk) : benchmark ps = Some (Ok out) -> NoDup (map stem ps) -> Permutation ws (bo_writes out) ->
  let after := fold_left store ws before in
  (forall p, In p ps -> exists i o, one i p = Some (Ok o) /\
     (forall s, stats_dir = Some s -> exists t, co_csv o = Some t /\ after (s, stem p ++ str ".csv") = Some (Csv t)) /\
     (forall s, sol_dir = Some s -> exists l, co_lines o = Some l /\ after (s, stem p ++ str ".sol") = Some (Sol l (co_cost o)))) /\
  (forall q, after q = before q \/ exists p s, In p ps /\ (stats_dir = Some s /\ q = (s, stem p ++ str ".csv") \/ sol_dir = Some s /\ q = (s, stem p ++ str ".sol"))).
Proof.
  intros H N W after. destruct (benchmark_inv ps out H) as (os & R & _ & _ & E). destruct (sort_paths_spec ps) as [P _]. destruct (run_all_spec _ _ _ R) as [L G].
  assert (N' : NoDup (map fst ws)).
  { apply (Permutation_NoDup (l := map fst (bo_writes out))); [apply Permutation_map; symmetry; exact W|]. rewrite E. apply all_nodup; [exact L|].
    apply (Permutation_NoDup (l := map stem ps)); [apply Permutation_map; exact P|exact N]. }
  split.
  - intros p Hp. apply (Permutation_in _ P) in Hp. apply In_nth_error in Hp as [i Hi]. destruct (G i p Hi) as (o & Eo & Ho). cbn [Nat.add] in Ho. exists i, o. split; [exact Ho|].
    assert (I : forall w, In w (writes p o) -> In w ws).
    { intros w Hw. apply (Permutation_in _ (Permutation_sym W)). rewrite E. apply in_flat_map. exists (p, o). split; [|exact Hw]. exact (nth_error_In _ _ (combine_nth_error _ _ _ _ _ Hi Eo)). }
    destruct (cli_files _ _ _ _ _ _ _ _ Ho) as (F1 & F2 & F3). unfold bench_args in F1, F2, F3. cbn [ca_stats ca_sol] in F1, F2, F3. split.
    + intros s Hs. rewrite Hs in F1. destruct (co_csv o) as [t|] eqn:Et; [|discriminate]. exists t. split; [reflexivity|]. apply store_in; [exact N'|]. apply I.
      unfold Bench.writes. rewrite Hs, Et. left. reflexivity.
    + intros s Hs. rewrite Hs in F2, F3. cbn [is_some] in F2, F3. destruct (co_lines o) as [l|] eqn:El; [|discriminate]. exists l. split; [reflexivity|]. apply store_in; [exact N'|]. apply I.
      unfold Bench.writes. rewrite Hs, El, F3. apply in_or_app. right. left. reflexivity.
  - intros q. destruct (in_dec key_dec q (map fst ws)) as [I|I]; [right|left; apply store_other; exact I].
    apply (Permutation_in _ (Permutation_map fst W)) in I. apply in_map_iff in I as (w & <- & I). rewrite E in I. apply in_flat_map in I as ([p o] & I1 & I2). cbn [fst snd] in I2.
    assert (I3 : In p ps) by (apply (Permutation_in _ (Permutation_sym P)); exact (in_combine_l _ _ _ _ I1)).
    apply (in_map fst) in I2. apply writes_keys in I2. destruct I2 as [(s & S1 & S2)|(s & S1 & S2)]; exists p, s; auto.
Qed.
(** An instance that raises makes the command raise. *)
Lemma run_all_err ps : forall i, (forall j p, nth_error ps j = Some p -> one (i + j)%nat p <> None) ->
  (exists j p e, nth_error ps j = Some p /\ one (i + j)%nat p = Some (Err e)) -> exists e, run_all i ps = Some (Err e).
Proof.
  induction ps as [|p ps IH]; intros i T (j & q & e & Hj & He); [destruct j; discriminate|]. cbn [Bench.run_all].
  pose proof (T 0%nat p eq_refl) as T0. rewrite Nat.add_0_r in T0. destruct (one i p) as [[o|e']|] eqn:E; [|exists e'; reflexivity|congruence].
  destruct j as [|j]; [cbn in Hj; rewrite Nat.add_0_r in He; congruence|]. destruct (IH (S i)) as [e' He'].
  - intros j' p' Hp'. replace (S i + j')%nat with (i + S j')%nat by lia. apply T. exact Hp'.
  - exists j, q, e. split; [exact Hj|]. replace (S i + j)%nat with (i + S j)%nat by lia. exact He.
  - rewrite He'. exists e'. reflexivity.
Qed.
End BenchFacts.
