(** C69: solving several instance files with one command. *)
From Coq Require Import ZArith Reals Lia List String Permutation Sorted.
From Coq Require Import Ascii.
From Flocq Require Import IEEE754.BinarySingleNaN.
From Verif Require Import Base DurationSegment Data LoadSegment Valid Route RouteSpec Cost CostFacts Penalty Solution SolutionFacts SolutionFacts2 SolutionFacts3
  Equal Ils OpsBase StatsCsv ActivityText ModelPy Read ReadFacts ReadSpec ReadSol ReadData ReadVeh ReadMat ReadRoute ReadOk Stop ResultPy Solve Hang Config Cli FileSize Bench.
From Verif Require PRead PCli.
Import ListNotations.
Local Open Scope Z_scope.

(** The table has a row for each instance, in the order of the paths, with its name, whether its solution is feasible, its cost and its
    iterations; and the number of instances that are not OK is counted. *)
Theorem C69_rows : forall (Num F : Type) zero (repr : F -> text) clock elapsed runtime n k rf (contents : path -> instance Num) a stats_dir sol_dir ps out,
  benchmark zero repr clock elapsed runtime n k rf contents a stats_dir sol_dir ps = Some (Ok out) ->
  exists qs, Permutation ps qs /\ Sorted (fun p q => path_lt q p = false) qs /\ length (bo_rows out) = length ps /\
  (forall i p, nth_error qs i = Some p -> exists o,
     cli_solve zero repr (clock i) (elapsed i) (runtime i) n k (bench_args a stats_dir sol_dir) rf (contents p) = Some (Ok o) /\
     nth_error (bo_rows out) i = Some (mk_row (firstn 37 (stem p)) (co_ok o) (co_cost o) (co_iters o))) /\
  bo_not_ok out = length (filter (fun r => negb (ro_ok r)) (bo_rows out)).
Proof. intros Num F. exact benchmark_rows. Qed.
Print Assumptions C69_rows.
(** If no two instances have the same name, then in whatever order the processes write, each instance has its own statistics and
    its own solution in the directories asked for, and no other file has changed. *)
Theorem C69_files : forall (Num F : Type) zero (repr : F -> text) clock elapsed runtime n k rf (contents : path -> instance Num) a stats_dir sol_dir ps out ws (before : disk),
  benchmark zero repr clock elapsed runtime n k rf contents a stats_dir sol_dir ps = Some (Ok out) -> NoDup (map stem ps) -> Permutation ws (bo_writes out) ->
  let after := fold_left store ws before in
  (forall p, In p ps -> exists i o,
     cli_solve zero repr (clock i) (elapsed i) (runtime i) n k (bench_args a stats_dir sol_dir) rf (contents p) = Some (Ok o) /\
     (forall s, stats_dir = Some s -> exists t, co_csv o = Some t /\ after (s, stem p ++ str ".csv") = Some (Csv t)) /\
     (forall s, sol_dir = Some s -> exists l, co_lines o = Some l /\ after (s, stem p ++ str ".sol") = Some (Sol l (co_cost o)))) /\
  (forall q, after q = before q \/
     exists p s, In p ps /\ (stats_dir = Some s /\ q = (s, stem p ++ str ".csv") \/ sol_dir = Some s /\ q = (s, stem p ++ str ".sol"))).
Proof. intros Num F. exact benchmark_files. Qed.
Print Assumptions C69_files.
(** The name of an instance is that of its file, without the directories and the extension. *)
Theorem C69_stem : forall dir name ext, (~ In "."%char name -> stem (dir ++ [name]) = name) /\
  (name <> [] -> ext <> [] -> ~ In "."%char ext -> stem (dir ++ [name ++ "."%char :: ext]) = name).
Proof. exact stem_spec. Qed.
Print Assumptions C69_stem.

(** An instance that can be solved: a file with moderate numbers (C64). *)
Definition moderate {Num} (zero : Num) rf (inst : instance Num) : Prop :=
  file_ok Num zero rf inst /\ (exists h T M S G U P, modest_file Num zero rf inst h T M S G U P) /\
  match in_pd inst with None => True | Some rows => pairs_proper Num zero inst rows end.
(** With such files and some limit that is reached, all are solved, and the table and the files are right in the sense of C64. *)
Theorem C69_solves : forall (Num F : Type) zero (repr : F -> text) (float : text -> res F),
  (forall x, float (repr x) = Ok x) -> (forall x, ~ In lf (repr x)) ->
  forall clock elapsed runtime rf (contents : path -> instance Num) a params stats_dir sol_dir ps,
  (forall p, In p ps -> moderate zero rf (contents p)) ->
  chosen a params -> sensible (ca_runtime a) -> sensible (ca_iterations a) -> sensible (ca_improvement a) ->
  (forall i, bounded (clock i) a) -> (forall i, b64_neg (runtime i) = false) ->
  exists n0 k0, forall n k, (n0 <= n)%nat -> (k0 <= k)%nat -> exists out qs,
    benchmark zero repr clock elapsed runtime n k rf contents a stats_dir sol_dir ps = Some (Ok out) /\ Permutation ps qs /\
    forall i p, nth_error qs i = Some p -> exists d o c, nth_error (bo_rows out) i = Some (mk_row (firstn 37 (stem p)) (co_ok c) (co_cost c) (co_iters c)) /\
      read Num zero rf (contents p) = Ok d /\ cli_right float (bench_args a stats_dir sol_dir) d (clock i) (elapsed i) o c.
Proof.
  intros Num F zero repr float Hf Hl clock elapsed runtime rf contents a params stats_dir sol_dir ps Hm Hc S1 S2 S3 Hb Hr.
  set (b := bench_args a stats_dir sol_dir).
  assert (A : forall i p, In p ps -> exists n0 k0 d c, forall n k, (n0 <= n)%nat -> (k0 <= k)%nat ->
    cli_solve zero repr (clock i) (elapsed i) (runtime i) n k b rf (contents p) = Some (Ok c) /\
    exists o, read Num zero rf (contents p) = Ok d /\ cli_right float b d (clock i) (elapsed i) o c).
  { intros i p Hp. destruct (Hm p Hp) as (M1 & (h & T & M & S & G & U & P & M2) & M3).
    destruct (PCli.C64_solves Num F zero repr float Hf Hl (clock i) (elapsed i) (runtime i) b params rf (contents p) h T M S G U P) as (d & n0 & k0 & c & Hd & H); try assumption.
    - exact (Hb i).
    - exact (Hr i).
    - exists n0, k0, d, c. intros n k Hn Hk. destruct (H n k Hn Hk) as (H1 & c' & o & _ & _ & H2). split; [exact H1|]. exists o. auto. }
  assert (B : forall qs i, (forall p, In p qs -> In p ps) -> exists n0 k0, forall n k, (n0 <= n)%nat -> (k0 <= k)%nat -> exists os,
    run_all zero repr clock elapsed runtime n k rf contents a stats_dir sol_dir i qs = Some (Ok os)).
  { induction qs as [|p qs IH]; intros i Hq; [exists 0%nat, 0%nat; intros n k _ _; exists []; reflexivity|].
    destruct (A i p (Hq p (or_introl eq_refl))) as (n1 & k1 & d & c & H1). destruct (IH (S i)) as (n2 & k2 & H2); [intros q Hq'; apply Hq; right; exact Hq'|].
    exists (Nat.max n1 n2), (Nat.max k1 k2). intros n k Hn Hk. destruct (H1 n k ltac:(lia) ltac:(lia)) as [H3 _]. destruct (H2 n k ltac:(lia) ltac:(lia)) as [os H4].
    exists (c :: os). cbn [run_all]. unfold one. fold b. rewrite H3, H4. reflexivity. }
  assert (C : forall qs, (forall p, In p qs -> In p ps) -> exists n0 k0, forall n k, (n0 <= n)%nat -> (k0 <= k)%nat -> forall i p, nth_error qs i = Some p -> exists d c o,
    cli_solve zero repr (clock i) (elapsed i) (runtime i) n k b rf (contents p) = Some (Ok c) /\ read Num zero rf (contents p) = Ok d /\ cli_right float b d (clock i) (elapsed i) o c).
  { intros qs. induction qs as [|p qs IH] using rev_ind; intros Hq; [exists 0%nat, 0%nat; intros n k _ _ i p E; destruct i; discriminate|].
    destruct IH as (n2 & k2 & H2); [intros q Hq'; apply Hq; apply in_or_app; left; exact Hq'|].
    destruct (A (length qs) p) as (n1 & k1 & d & c & H1); [apply Hq; apply in_or_app; right; left; reflexivity|].
    exists (Nat.max n1 n2), (Nat.max k1 k2). intros n k Hn Hk i q Hi. destruct (Nat.lt_ge_cases i (length qs)) as [Li|Li].
    - rewrite nth_error_app1 in Hi by exact Li. exact (H2 n k ltac:(lia) ltac:(lia) i q Hi).
    - rewrite nth_error_app2 in Hi by exact Li. destruct (i - length qs)%nat as [|m] eqn:Em; [|destruct m; discriminate]. injection Hi as <-.
      replace i with (length qs) by lia. destruct (H1 n k ltac:(lia) ltac:(lia)) as (H3 & o & H4 & H5). exists d, c, o. auto. }
  destruct (sort_paths_spec ps) as [P _].
  assert (I : forall p, In p (sort_paths ps) -> In p ps) by (intros p; apply Permutation_in; symmetry; exact P).
  destruct (B (sort_paths ps) 0%nat I) as (n1 & k1 & H1). destruct (C (sort_paths ps) I) as (n2 & k2 & H2).
  exists (Nat.max n1 n2), (Nat.max k1 k2). intros n k Hn Hk. destruct (H1 n k ltac:(lia) ltac:(lia)) as [os Ho]. specialize (H2 n k ltac:(lia) ltac:(lia)).
  destruct (run_all_spec _ _ _ _ _ _ _ _ _ _ _ _ _ _ _ Ho) as [_ G].
  eexists _, (sort_paths ps). split; [unfold benchmark; cbv zeta; rewrite Ho; reflexivity|]. split; [exact P|]. intros i p Hp. destruct (H2 i p Hp) as (d & c & o & E1 & E2 & E3).
  exists d, o, c. split; [|auto]. destruct (G i p Hp) as (c' & Ec & E4). cbn [Nat.add] in E4. unfold one in E4. fold b in E4.
  assert (c' = c) as -> by congruence. cbn [bo_rows]. exact (map_nth_error _ _ _ (combine_nth_error _ _ _ _ _ Hp Ec)).
Qed.
Print Assumptions C69_solves.
(** If solving some instance raises, so does the command. *)
Theorem C69_raises : forall (Num F : Type) zero (repr : F -> text) clock elapsed runtime n k rf (contents : path -> instance Num) a stats_dir sol_dir ps p e,
  (forall i q, In q ps -> cli_solve zero repr (clock i) (elapsed i) (runtime i) n k (bench_args a stats_dir sol_dir) rf (contents q) <> None) ->
  In p ps -> (forall i, cli_solve zero repr (clock i) (elapsed i) (runtime i) n k (bench_args a stats_dir sol_dir) rf (contents p) = Some (Err e)) ->
  exists e', benchmark zero repr clock elapsed runtime n k rf contents a stats_dir sol_dir ps = Some (Err e').
Proof.
  intros Num F zero repr clock elapsed runtime n k rf contents a stats_dir sol_dir ps p e T Hp He. destruct (sort_paths_spec ps) as [P _].
  destruct (run_all_err zero repr clock elapsed runtime n k rf contents a stats_dir sol_dir (sort_paths ps) 0) as [e' E].
  - intros j q Hq. apply T. apply (Permutation_in _ (Permutation_sym P)). exact (nth_error_In _ _ Hq).
  - apply (Permutation_in _ P) in Hp. apply In_nth_error in Hp as [j Hj]. exists j, p, e. split; [exact Hj|apply He].
  - exists e'. unfold benchmark. cbv zeta. rewrite E. reflexivity.
Qed.
Print Assumptions C69_raises.

(** *** Examples *)
Definition tx (s : string) : text := list_ascii_of_string s.
(** Two files: the one of C64, and one with a shipment. *)
Definition ex_contents (p : path) : instance Z := if list_eq_dec (list_eq_dec ascii_dec) p [tx "b"; tx "X.vrp"] then PRead.ex_pd else PRead.ex_file.
Definition ex_bench (contents : path -> instance Z) (ps : list path) :=
  benchmark 0 print_int (fun _ _ => 0) (fun _ => Z.of_nat) (fun _ => b64_of_Z 1) 50 50 PRead.ident contents (PCli.ex_args false) None (Some [tx "sol"]) ps.
Example C69_case : stem [tx "b"; tx "X.vrp"] = tx "X" /\ stem [tx "X.tar.gz"] = tx "X.tar" /\ stem [tx ".vrp"] = tx ".vrp" /\ stem [tx "X."] = tx "X." /\
  moderate 0 PRead.ident PRead.ex_file /\
  ex_bench ex_contents [[tx "b"; tx "X.vrp"]; [tx "a"; tx "Y.vrp"]] =
    Some (Ok (mk_bench_out [mk_row (tx "Y") true (Some 21) 2%nat; mk_row (tx "X") true (Some 21) 2%nat] 0%nat
      [(([tx "sol"], tx "Y.sol"), Sol [[]; [1; 2]; []]%nat (Some 21)); (([tx "sol"], tx "X.sol"), Sol [[1; 2]]%nat (Some 21))])).
Proof.
  repeat (split; [reflexivity|]). split; [|vm_compute; reflexivity]. split; [exact PRead.ex_ok|]. split; [|exact I].
  eexists _, _, _, _, _, _, _. exact PCli.ex_modest.
Qed.
(** Two instances with the same name in different directories, or with different extensions, share one file for their solutions: only
    the solution of one of them is kept, although both are reported as solved. *)
Theorem C69_same_name_refuted : exists p q out l l' c c', NoDup [p; q] /\ ex_bench ex_contents [p; q] = Some (Ok out) /\ length (bo_rows out) = 2%nat /\
  bo_writes out = [(([tx "sol"], tx "X.sol"), Sol l c); (([tx "sol"], tx "X.sol"), Sol l' c')] /\ l <> l' /\
  let after := fold_left store (bo_writes out) (fun _ => None) in after ([tx "sol"], tx "X.sol") = Some (Sol l' c') /\ forall f, after f <> Some (Sol l c).
Proof.
  exists [tx "a"; tx "X.vrp"], [tx "b"; tx "X.vrp"]. eexists _, _, _, _, _. split; [|split; [vm_compute; reflexivity|]].
  - constructor; [intros [H|[]]; discriminate|]. constructor; [intros []|constructor].
  - split; [reflexivity|]. split; [reflexivity|]. split; [discriminate|]. cbv zeta. cbn [bo_writes]. split.
    + unfold store. cbn [fold_left fst snd]. destruct (key_dec _ _) as [E|E]; [reflexivity|]. exfalso. apply E. reflexivity.
    + intros f. unfold store. cbn [fold_left fst snd]. match goal with |- context [key_dec f ?x] => destruct (key_dec f x) as [E|E] end; discriminate.
Qed.
Print Assumptions C69_same_name_refuted.
(** Names are cut to 37 characters in the table, so that instances with different names can have the same name there. *)
Theorem C69_long_name_refuted : exists p q out name, NoDup (map stem [p; q]) /\ ex_bench ex_contents [p; q] = Some (Ok out) /\
  map ro_name (bo_rows out) = [name; name].
Proof.
  exists [tx "ORTEC-VRPTW-ASYM-0bdff870-d1-n458-k35-a.vrp"], [tx "ORTEC-VRPTW-ASYM-0bdff870-d1-n458-k35-b.vrp"]. eexists _, _. split; [|split; [vm_compute; reflexivity|reflexivity]].
  vm_compute. constructor; [intros [H|[]]; discriminate|]. constructor; [intros []|constructor].
Qed.
Print Assumptions C69_long_name_refuted.
