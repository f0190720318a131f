(** Model of pyvrp/cli.py: solving one instance file from the command line, and the table of results. *)
From Coq Require Import ZArith Reals Lia List String Permutation.
From Coq Require Import Ascii.
From Flocq Require Import IEEE754.BinarySingleNaN.
From Verif Require Import Base DurationSegment Data LoadSegment Valid Route RouteSpec Cost CostFacts Penalty Solution SolutionFacts SolutionFacts2 SolutionFacts3
  Equal Ils OpsBase StatsCsv ActivityText ModelPy Read ReadFacts ReadSpec ReadSol ReadData ReadVeh ReadMat ReadRoute ReadOk Stop ResultPy Solve Hang Config.
Import ListNotations.
Local Open Scope Z_scope.

(** ** Limits *)
(** --max_runtime, --max_iterations and --no_improvement (cli.py:265-278): a number, or float("inf") by default.  Multiplying infinity by
    zero gives not-a-number. *)
Inductive limit := Finite (z : Z) | Infinite | NaN.
(** cli.py:146-149; the product of a run time, a float, is taken as exact. *)
Definition scaled (n : nat) (l : limit) : limit :=
  match l with Finite z => Finite (z * Z.of_nat n) | Infinite => if (n =? 0)%nat then NaN else Infinite | NaN => NaN end.
(** The criterion of a limit: comparisons with infinity and not-a-number never stop the search and do not make the constructors raise, so
    these are left out. *)
Definition limited (make : Z -> res criterion) (l : limit) : res (list criterion) :=
  match l with Finite z => bind (make z) (fun c => Ok [c]) | _ => Ok [] end.
(** cli.py:151-157 *)
Definition make_stop (runtime iterations improvement : limit) : res criterion :=
  bind (limited make_max_runtime runtime) (fun a =>
  bind (limited make_max_iterations iterations) (fun b =>
  bind (limited make_no_improvement improvement) (fun c => Ok (MultipleCriteria (a ++ b ++ c))))).

Section Cli.
(** The numbers of instance files, floats in text form (StatsCsv.v), what perf_counter shows when criteria ask, the
    run times that are measured. *)
Context {Num F : Type}.
Variables (zero : Num) (repr : F -> text).
Variables (clock : nat -> Z) (elapsed : nat -> F) (runtime : b64).
(** Bounds on rounds and iterations, as in Solve.v. *)
Variables n k : nat.

Record cli_args := mk_cli_args {
  ca_config : option table; ca_seed : Z; ca_runtime : limit; ca_iterations : limit; ca_improvement : limit; ca_per_client : bool;
  ca_stats : bool; ca_sol : bool }.
(** The tuple that is returned, and the files; None is an infinite cost. *)
Record cli_out := mk_cli_out {
  co_ok : bool; co_cost : option Z; co_iters : nat; co_csv : option text; co_lines : option (list (list nat)); co_final_cost : option (option Z) }.

(** cli.py:96-176 *)
Definition cli_solve (a : cli_args) (rf : Num -> Z) (inst : instance Num) : option (res cli_out) :=
  match match ca_config a with Some t => from_file t | None => Ok defaults end with
  | Err e => Some (Err e)
  | Ok p =>
  match read Num zero rf inst with
  | Err e => Some (Err e)
  | Ok d =>
  let scale := fun l => if ca_per_client a then scaled (p_numClients d) l else l in
  match make_stop (scale (ca_runtime a)) (scale (ca_iterations a)) (scale (ca_improvement a)) with
  | Err e => Some (Err e)
  | Ok c =>
  match solve d (criterion * nat) (py_stop clock) p (ca_stats a) n k (ca_seed a) None (c, 0%nat) with
  | None => None
  | Some (Err e) => Some (Err e)
  | Some (Ok o) =>
    Some (bind (make_result (o_best o) (Z.of_nat (o_iters o)) runtime) (fun r =>
          bind (if ca_sol a then bind (write_solution d (o_best o)) (fun l => Ok (Some l)) else Ok None) (fun lines =>
          Ok (mk_cli_out (result_feasible r) (result_cost r) (Z.to_nat (rs_iters r))
                (if ca_stats a then Some (to_csv repr ","%char (mk_stats (map elapsed (seq 0 (o_iters o))) (o_iters o) (o_stats o) true)) else None)
                lines (if ca_sol a then Some (result_cost r) else None)))))
  end end end end.
End Cli.

(** ** When a combination of criteria stops *)
(** The questions: what the clock shows and the best cost, from the [i]-th on. *)
Fixpoint questions (clock : nat -> Z) (i : nat) (costs : list Z) : list (Z * Z) :=
  match costs with [] => [] | c :: more => (clock i, c) :: questions clock (S i) more end.
Lemma questions_costs clock costs : forall i, map snd (questions clock i costs) = costs.
Proof. induction costs as [|c costs IH]; intros i; cbn; [reflexivity|rewrite IH; reflexivity]. Qed.
Lemma questions_length clock costs : forall i, length (questions clock i costs) = length costs.
Proof. intros i. rewrite <- (questions_costs clock costs i) at 2. rewrite map_length. reflexivity. Qed.
Lemma asked_answers clock costs : forall c i, asked (criterion * nat) (py_stop clock) (c, i) costs ->
  exists pre last, costs = pre ++ [last] /\
    answer c (questions clock i pre) (clock (i + length pre)%nat) last = true /\
    forall a x b, pre = a ++ x :: b -> answer c (questions clock i a) (clock (i + length a)%nat) x = false.
Proof.
  induction costs as [|v costs IH]; intros c i H; [destruct H|]. destruct costs as [|w costs].
  - exists [], v. split; [reflexivity|]. split; [|intros [|? ?] ? ? E; discriminate].
    cbn [asked] in H. unfold py_stop in H. cbn [fst snd] in H. unfold answer, Stop.after. cbn [questions fold_left length]. rewrite Nat.add_0_r.
    destruct (call (clock i) v c) as [c' b]. exact H.
  - destruct H as [H1 H2]. unfold py_stop in H1, H2. cbn [fst snd] in H1, H2. destruct (call (clock i) v c) as [c' b] eqn:Ec. cbn [fst snd] in H1, H2. subst b.
    destruct (IH c' (S i) H2) as (pre & last & E & L & P). exists (v :: pre), last. split; [cbn; rewrite E; reflexivity|].
    assert (A : forall qs now best, answer c ((clock i, v) :: qs) now best = answer c' qs now best).
    { intros. unfold answer, Stop.after. cbn [fold_left fst snd]. rewrite Ec. reflexivity. }
    split.
    + cbn [questions length]. rewrite A. replace (i + S (length pre))%nat with (S i + length pre)%nat by lia. exact L.
    + intros [|y a] x b E2; cbn [app] in E2.
      * injection E2 as <- _. cbn [questions length]. rewrite Nat.add_0_r. unfold answer, Stop.after. cbn [fold_left]. rewrite Ec. reflexivity.
      * injection E2 as <- E2. cbn [questions length]. rewrite A. replace (i + S (length a))%nat with (S i + length a)%nat by lia. exact (P a x b E2).
Qed.
(** As long as it answers no, a combination asks all its criteria. *)
Lemma multiple_after clock cs costs : forall i,
  (forall a x b, costs = a ++ x :: b -> answer (MultipleCriteria cs) (questions clock i a) (clock (i + length a)%nat) x = false) ->
  Stop.after (MultipleCriteria cs) (questions clock i costs) = MultipleCriteria (map (fun c => Stop.after c (questions clock i costs)) cs).
Proof.
  induction costs as [|v costs IH] using rev_ind; intros i H; [unfold Stop.after; cbn; rewrite map_id; reflexivity|].
  assert (Q : questions clock i (costs ++ [v]) = questions clock i costs ++ [(clock (i + length costs)%nat, v)]).
  { clear. revert i. induction costs as [|w costs IH]; intros i; cbn [app questions length]; [rewrite Nat.add_0_r; reflexivity|]. rewrite IH. replace (S i + length costs)%nat with (i + S (length costs))%nat by lia. reflexivity. }
  rewrite Q, after_app. rewrite IH.
  2:{ intros a x b E. apply (H a x (b ++ [v])). rewrite E, <- app_assoc. reflexivity. }
  assert (N : snd (call (clock (i + length costs)%nat) v (MultipleCriteria (map (fun c => Stop.after c (questions clock i costs)) cs))) = false).
  { pose proof (H costs v [] eq_refl) as H0. unfold answer in H0. rewrite IH in H0; [exact H0|]. intros a x b E. apply (H a x (b ++ [v])). rewrite E, <- app_assoc. reflexivity. }
  unfold Stop.after at 1. cbn [fold_left fst snd].
  destruct (multiple_state (map (fun c => Stop.after c (questions clock i costs)) cs) (clock (i + length costs)%nat) v) as (pre & post & E1 & E2 & E3).
  rewrite multiple_spec in N.
  assert (post = []) as ->.
  { destruct E3 as [[E3 _]|(pre' & c & E3 & E4 & _)]; [exact E3|]. exfalso. rewrite E1, E3 in N. rewrite !existsb_app in N. cbn [existsb] in N. rewrite E4 in N.
    rewrite Bool.orb_true_r in N. cbn in N. discriminate. }
  rewrite E2, app_nil_r. rewrite app_nil_r in E1. rewrite <- E1, map_map. f_equal. apply map_ext. intros c. rewrite after_app. reflexivity.
Qed.

Lemma multiple_asked clock cs costs : asked (criterion * nat) (py_stop clock) (MultipleCriteria cs, 0%nat) costs ->
  exists pre last, costs = pre ++ [last] /\
    existsb (fun c => answer c (questions clock 0 pre) (clock (length pre)) last) cs = true /\
    forall a x b, pre = a ++ x :: b -> existsb (fun c => answer c (questions clock 0 a) (clock (length a)) x) cs = false.
Proof.
  intros H. destruct (asked_answers clock costs _ _ H) as (pre & last & E & L & P). exists pre, last. split; [exact E|]. cbn [Nat.add] in L, P.
  assert (G : forall a now x, (forall a' x' b', a = a' ++ x' :: b' -> answer (MultipleCriteria cs) (questions clock 0 a') (clock (length a')) x' = false) ->
    answer (MultipleCriteria cs) (questions clock 0 a) now x = existsb (fun c => answer c (questions clock 0 a) now x) cs).
  { intros a now x Ha. unfold answer. rewrite (multiple_after clock cs a 0%nat Ha). rewrite multiple_spec. clear. induction cs as [|c cs IH]; cbn; [reflexivity|]. rewrite IH. reflexivity. }
  split.
  - rewrite <- G; [exact L|]. exact P.
  - intros a x b Ep. rewrite <- G; [exact (P a x b Ep)|]. intros a' x' b' Ea. apply (P a' x' (b' ++ x :: b)). rewrite Ep, Ea, <- app_assoc. reflexivity.
Qed.

(** A limit has been reached after [j] iterations, with [costs] the best costs from the start: the time since the first question
    is longer than allowed, there have been as many iterations as allowed, or none of the last so many is below all earlier ones. *)
Definition due (clock : nat -> Z) (runtime iterations improvement : limit) (costs : list Z) (j : nat) : Prop :=
  (exists t, runtime = Finite t /\ t < clock j - clock 0%nat) \/
  (exists m, iterations = Finite m /\ m <= Z.of_nat j) \/
  (exists m a b, improvement = Finite m /\ firstn (S j) costs = a ++ b /\ a <> [] /\ Z.of_nat (length b) = m /\
     forall x, In x b -> exists y, In y a /\ y <= x).

Lemma due_answers clock rt it ni c : make_stop rt it ni = Ok c -> exists cs, c = MultipleCriteria cs /\
  forall pre x costs rest, costs = pre ++ x :: rest ->
    (existsb (fun c => answer c (questions clock 0 pre) (clock (length pre)) x) cs = true <-> due clock rt it ni costs (length pre)).
Proof.
  unfold make_stop. intros H. apply bind_ok in H as (A & HA & H). apply bind_ok in H as (B & HB & H). apply bind_ok in H as (C & HC & H). injection H as <-.
  exists (A ++ B ++ C). split; [reflexivity|]. intros pre x costs rest E. rewrite !existsb_app, !Bool.orb_true_iff. unfold due.
  assert (L : forall make l cs, limited make l = Ok cs -> forall now, existsb (fun c => answer c (questions clock 0 pre) now x) cs = true <->
    exists z c, l = Finite z /\ make z = Ok c /\ answer c (questions clock 0 pre) now x = true).
  { clear. intros make l cs Hl now. unfold limited in Hl. destruct l as [z| |].
    - apply bind_ok in Hl as (c & Hc & Hl). injection Hl as <-. cbn [existsb]. rewrite Bool.orb_false_r. split; [intros H; exists z, c; auto|].
      intros (z' & c' & [= ->] & Hc' & H). congruence.
    - injection Hl as <-. split; [discriminate|intros (? & ? & ? & _); discriminate].
    - injection Hl as <-. split; [discriminate|intros (? & ? & ? & _); discriminate]. }
  assert (F : firstn (S (length pre)) costs = pre ++ [x]).
  { rewrite E. replace (S (length pre)) with (length pre + 1)%nat by lia. rewrite firstn_app_2. reflexivity. }
  rewrite (L _ _ _ HA), (L _ _ _ HB), (L _ _ _ HC), F. repeat apply Morphisms_Prop.or_iff_morphism.
  - split.
    + intros (z & c & -> & Hc & Ha). exists z. split; [reflexivity|]. apply (max_runtime_spec z c) in Ha; [|exact Hc]. destruct pre; [exact Ha|exact Ha].
    + intros (z & -> & Hz). unfold limited in HA. apply bind_ok in HA as (c & Hc & _). exists z, c. split; [reflexivity|]. split; [exact Hc|]. apply (max_runtime_spec z c); [exact Hc|]. destruct pre; exact Hz.
  - split.
    + intros (z & c & -> & Hc & Ha). exists z. split; [reflexivity|]. apply (max_iterations_spec z c) in Ha; [|exact Hc]. rewrite questions_length in Ha. lia.
    + intros (z & -> & Hz). unfold limited in HB. apply bind_ok in HB as (c & Hc & _). exists z, c. split; [reflexivity|]. split; [exact Hc|]. apply (max_iterations_spec z c); [exact Hc|]. rewrite questions_length. lia.
  - split.
    + intros (z & c & -> & Hc & Ha). apply (no_improvement_spec z c) in Ha; [|exact Hc]. rewrite questions_costs in Ha. destruct Ha as (a & b & Ha). exists z, a, b. split; [reflexivity|exact Ha].
    + intros (z & a & b & -> & Hz). unfold limited in HC. apply bind_ok in HC as (c & Hc & _). exists z, c. split; [reflexivity|]. split; [exact Hc|].
      apply (no_improvement_spec z c); [exact Hc|]. rewrite questions_costs. exists a, b. exact Hz.
Qed.
Theorem stop_exact clock rt it ni c costs : make_stop rt it ni = Ok c -> asked (criterion * nat) (py_stop clock) (c, 0%nat) costs ->
  due clock rt it ni costs (length costs - 1) /\ forall j, (j < length costs - 1)%nat -> ~ due clock rt it ni costs j.
Proof.
  intros Hc H. destruct (due_answers clock _ _ _ _ Hc) as (cs & -> & D). destruct (multiple_asked clock cs costs H) as (pre & last & E & L & P).
  assert (Hl : (length costs - 1)%nat = length pre) by (rewrite E, app_length; cbn; lia). rewrite Hl. split; [apply (D pre last costs []); [exact E|exact L]|].
  intros j Hj Hd. assert (Sp : exists a x b, pre = a ++ x :: b /\ length a = j).
  { exists (firstn j pre). destruct (skipn j pre) as [|x b] eqn:Es; [apply (f_equal (@length Z)) in Es; rewrite skipn_length in Es; cbn in Es; lia|].
    exists x, b. split; [rewrite <- Es, firstn_skipn; reflexivity|]. rewrite firstn_length. lia. }
  destruct Sp as (a & x & b & Ep & <-). apply (D a x costs (b ++ [last])) in Hd; [|rewrite E, Ep, <- app_assoc; reflexivity]. rewrite (P a x b Ep) in Hd. discriminate.
Qed.

(** ** The command *)
Definition chosen (a : cli_args) (p : solve_params) : Prop :=
  match ca_config a with None => p = defaults | Some t => from_file t = Ok p /\ finite_entries p end.
Definition sensible (l : limit) : Prop := match l with Finite z => 0 <= z | _ => True end.
(** The limit in force. *)
Definition in_force (a : cli_args) (d : pdata) (l : limit) : limit := if ca_per_client a then scaled (p_numClients d) l else l.
(** Some limit is reached in the end. *)
Definition bounded (clock : nat -> Z) (a : cli_args) : Prop :=
  (exists m, ca_iterations a = Finite m) \/ (exists m, ca_improvement a = Finite m) \/
  (exists t, ca_runtime a = Finite t) /\ forall b, exists n, forall j, (n <= j)%nat -> b < clock j.

Lemma in_force_sensible a d l : sensible l -> sensible (in_force a d l).
Proof. unfold in_force, scaled. destruct (ca_per_client a); [|auto]. destruct l as [z| |]; cbn [sensible]; intros H; [nia|destruct (p_numClients d =? 0)%nat; exact I|exact I]. Qed.
Lemma in_force_finite a d z : exists z', in_force a d (Finite z) = Finite z'.
Proof. unfold in_force, scaled. destruct (ca_per_client a); eauto. Qed.
Lemma limited_ok make l : (forall z, 0 <= z -> exists c, make z = Ok c) -> sensible l -> exists cs, limited make l = Ok cs /\
  forall z, l = Finite z -> exists c, make z = Ok c /\ cs = [c].
Proof.
  intros Hm Hl. unfold limited. destruct l as [z| |]; [|exists []; split; [reflexivity|discriminate]..].
  destruct (Hm z Hl) as [c Hc]. rewrite Hc. cbn [bind]. exists [c]. split; [reflexivity|]. intros z' [= <-]. exists c. split; [exact Hc|reflexivity].
Qed.
Lemma make_stop_ok clock a d : sensible (ca_runtime a) -> sensible (ca_iterations a) -> sensible (ca_improvement a) -> exists c,
  make_stop (in_force a d (ca_runtime a)) (in_force a d (ca_iterations a)) (in_force a d (ca_improvement a)) = Ok c /\ (bounded clock a -> ends clock c).
Proof.
  intros S1 S2 S3.
  destruct (limited_ok make_max_runtime (in_force a d (ca_runtime a))) as (A & EA & FA);
    [intros z Hz; unfold make_max_runtime; destruct (Z.ltb_spec z 0); [lia|eauto]|apply in_force_sensible, S1|].
  destruct (limited_ok make_max_iterations (in_force a d (ca_iterations a))) as (B & EB & FB);
    [intros z Hz; unfold make_max_iterations; destruct (Z.ltb_spec z 0); [lia|eauto]|apply in_force_sensible, S2|].
  destruct (limited_ok make_no_improvement (in_force a d (ca_improvement a))) as (C & EC & FC);
    [intros z Hz; unfold make_no_improvement; destruct (Z.ltb_spec z 0); [lia|eauto]|apply in_force_sensible, S3|].
  exists (MultipleCriteria (A ++ B ++ C)). split; [unfold make_stop; rewrite EA, EB, EC; reflexivity|].
  intros [[m Hm]|[[m Hm]|[[t Ht] Hc]]].
  - rewrite Hm in FB. destruct (in_force_finite a d m) as [z Hz]. destruct (FB z Hz) as (c & Hcc & EBc). unfold make_max_iterations in Hcc. destruct (z <? 0); [discriminate|]. injection Hcc as <-.
    apply (ends_multiple clock (MaxIterations z 0)); [|constructor]. rewrite EBc. apply in_or_app. right. left. reflexivity.
  - rewrite Hm in FC. destruct (in_force_finite a d m) as [z Hz]. destruct (FC z Hz) as (c & Hcc & ECc). unfold make_no_improvement in Hcc. destruct (z <? 0); [discriminate|]. injection Hcc as <-.
    apply (ends_multiple clock (NoImprovement z None 0)); [|constructor; lia]. rewrite ECc. apply in_or_app. right. apply in_or_app. right. left. reflexivity.
  - rewrite Ht in FA. destruct (in_force_finite a d t) as [z Hz]. destruct (FA z Hz) as (c & Hcc & EAc). unfold make_max_runtime in Hcc. destruct (z <? 0); [discriminate|]. injection Hcc as <-.
    apply (ends_multiple clock (MaxRuntime z None)); [|constructor; exact Hc]. rewrite EAc. left. reflexivity.
Qed.
Lemma chosen_ok a p : chosen a p -> params_ok p /\ match ca_config a with Some t => from_file t | None => Ok defaults end = Ok p.
Proof. unfold chosen. destruct (ca_config a) as [t|]; [intros [H1 H2]; split; [exact (from_file_params_ok t p H1 H2)|exact H1]|intros ->; split; [exact defaults_ok|reflexivity]]. Qed.
Lemma collected_all {F : Type} (ts : list F) : forall data, length data = length ts -> collected true (mk_stats ts (length ts) data true).
Proof.
  induction ts as [|t ts IH] using rev_ind; intros data Hl; [destruct data; [|discriminate]; apply (co_new true)|].
  destruct data as [|x data] using rev_ind; [rewrite app_length in Hl; cbn in Hl; lia|]. clear IHdata. rewrite !app_length in Hl. cbn in Hl.
  replace (mk_stats (ts ++ [t]) (length (ts ++ [t])) (data ++ [x]) true) with (stats_collect (mk_stats ts (length ts) data true) t x)
    by (unfold stats_collect; cbn; rewrite app_length; cbn; f_equal; lia).
  constructor. apply IH. lia.
Qed.

Section Works.
Context {Num F : Type}.
Variables (zero : Num) (repr : F -> text) (float : text -> res F).
Hypothesis float_repr : forall x, float (repr x) = Ok x.
Hypothesis repr_line : forall x, ~ In lf (repr x).

(** What is returned and written, of a run with outcome [o]. *)
Record cli_right (a : cli_args) (d : pdata) (clock : nat -> Z) (elapsed : nat -> F) (o : outcome) (out : cli_out) : Prop := mk_cli_right {
  cr_solution : is_solution d (o_best o) /\ so_isComplete (o_best o) = true;
  cr_ok : co_ok out = so_isFeasible (o_best o);
  cr_cost : co_cost out = if so_isFeasible (o_best o) then Some (objective d (o_best o)) else None;
  cr_iters : co_iters out = length (o_trace o);
  (** The run stops as soon as a limit is reached. *)
  cr_due : let costs := map (Ils.value so_isFeasible (objective d)) (o_init o :: map t_best (o_trace o)) in
    let reached := due clock (in_force a d (ca_runtime a)) (in_force a d (ca_iterations a)) (in_force a d (ca_improvement a)) costs in
    reached (co_iters out) /\ forall j, (j < co_iters out)%nat -> ~ reached j;
  (** The statistics file can be read back, and has a row for each iteration. *)
  cr_csv : if ca_stats a
           then exists csv s, co_csv out = Some csv /\ from_csv float ","%char csv = Ok s /\ sc_iterations s = co_iters out /\
                  sc_data s = map (Ils.collect so_isFeasible solution_penalised) (o_trace o) /\ sc_runtimes s = map elapsed (seq 0 (co_iters out))
           else co_csv out = None;
  (** The solution file can be read back as the best solution. *)
  cr_sol : if ca_sol a
           then exists lines s, co_lines out = Some lines /\ read_solution d lines = Ok s /\ solution_eqb s (o_best o) = true /\
                  Permutation (so_routes s) (so_routes (o_best o)) /\ co_final_cost out = Some (co_cost out)
           else co_lines out = None }.

Theorem cli_works (clock : nat -> Z) (elapsed : nat -> F) (runtime : b64) a p rf (inst : instance Num) d h :
  chosen a p -> read Num zero rf inst = Ok d -> match in_pd inst with None => True | Some rows => pairs_proper Num zero inst rows end ->
  solvable d h -> sensible (ca_runtime a) -> sensible (ca_iterations a) -> sensible (ca_improvement a) -> bounded clock a -> b64_neg runtime = false ->
  exists n0 k0 out, forall n k, (n0 <= n)%nat -> (k0 <= k)%nat ->
    cli_solve zero repr clock elapsed runtime n k a rf inst = Some (Ok out) /\
    exists c o, make_stop (in_force a d (ca_runtime a)) (in_force a d (ca_iterations a)) (in_force a d (ca_improvement a)) = Ok c /\
      solve d (criterion * nat) (py_stop clock) p (ca_stats a) n k (ca_seed a) None (c, 0%nat) = Some (Ok o) /\ cli_right a d clock elapsed o out.
Proof.
  intros Hch Hr Hpd Hd S1 S2 S3 Hb Hrt. destruct (chosen_ok a p Hch) as [Hp Ep].
  destruct (make_stop_ok clock a d S1 S2 S3) as (c & Ec & Hc). specialize (Hc Hb).
  destruct (solve_returns d (criterion * nat) (py_stop clock) p (ca_stats a) h Hd Hp (ca_seed a) None (c, 0%nat)) as (n0 & k0 & o & R); [discriminate|intros L; apply ends_fires; exact Hc|].
  exists n0, k0. pose proof (R n0 k0 (le_n _) (le_n _)) as R0.
  destruct (solve_spec d (criterion * nat) (py_stop clock) p (ca_stats a) h Hd Hp n0 k0 (ca_seed a) None (c, 0%nat) (Ok o) ltac:(discriminate) R0)
    as (o' & Eo & Hbest & Hinit & _ & Hcomp & Hor & _ & _ & Hit & Hst & Hask). injection Eo as <-. specialize (Hcomp eq_refl).
  assert (Hcb : so_isComplete (o_best o) = true) by (destruct Hor as [->|H]; assumption).
  destruct Hbest as (routes & Hbuilt & Hmake). destruct (groups_read Num zero rf inst d Hr) as (_ & _ & _ & G1 & G2).
  assert (Em : make_result (o_best o) (Z.of_nat (o_iters o)) runtime = Ok (mk_result (o_best o) (Z.of_nat (o_iters o)) runtime)).
  { unfold make_result. destruct (Z.ltb_spec (Z.of_nat (o_iters o)) 0); [lia|]. rewrite Hrt. reflexivity. }
  destruct (result_spec d h (sb_valid _ _ Hd) (sb_opens _ _ Hd) (sb_durs _ _ Hd) (two_h d _ (py_stop clock) h Hd) routes Hbuilt G1 G2 (o_best o) Hmake _ _ _ Em) as (Q1 & Q2 & Q3 & _).
  set (r := mk_result (o_best o) (Z.of_nat (o_iters o)) runtime) in *.
  destruct (read_fleet_named Num zero rf inst d Hr) as [ms Hf].
  destruct (solution_file d ms routes (o_best o) G1 G2 Hf ltac:(apply (read_places Num zero rf inst d Hr); intros rows E; rewrite E in Hpd; exact Hpd) Hbuilt Hmake)
    as (lines & s' & W1 & W2 & W3 & W4 & _).
  eexists. intros n k Hn Hk. specialize (R n k Hn Hk). split.
  - unfold cli_solve. rewrite Ep, Hr. cbv zeta. change (fun l => if ca_per_client a then scaled (p_numClients d) l else l) with (in_force a d). cbv beta.
    fold (in_force a d (ca_runtime a)) (in_force a d (ca_iterations a)) (in_force a d (ca_improvement a)). rewrite Ec, R, Em. cbn [bind]. rewrite W1.
    instantiate (1 := mk_cli_out (result_feasible r) (result_cost r) (o_iters o)
      (if ca_stats a then Some (to_csv repr ","%char (mk_stats (map elapsed (seq 0 (o_iters o))) (o_iters o) (o_stats o) true)) else None)
      (if ca_sol a then Some lines else None) (if ca_sol a then Some (result_cost r) else None)).
    fold r. change (rs_iters r) with (Z.of_nat (o_iters o)). rewrite Nat2Z.id. destruct (ca_sol a); reflexivity.
  - exists c, o. split; [exact Ec|]. split; [exact R|]. constructor; cbn [co_ok co_cost co_iters co_csv co_lines co_final_cost].
    + split; [exists routes; auto|exact Hcb].
    + exact Q3.
    + destruct (so_isFeasible (o_best o)) eqn:Ef; [apply Q2; exact Ef|]. destruct (result_cost r) eqn:Er; [|reflexivity]. exfalso.
      assert (result_feasible r = true) by (apply Q1; discriminate). change (so_isFeasible (o_best o) = true) in H. congruence.
    + exact Hit.
    + cbv zeta. destruct (stop_exact clock _ _ _ _ _ Ec Hask) as [D1 D2]. rewrite map_length in D1, D2. cbn [length] in D1, D2. rewrite map_length, Nat.sub_succ, Nat.sub_0_r, <- Hit in D1, D2. split; assumption.
    + destruct (ca_stats a) eqn:Es; [|reflexivity]. eexists. exists (mk_stats (map elapsed (seq 0 (o_iters o))) (o_iters o) (o_stats o) true). split; [reflexivity|].
      split; [|split; [reflexivity|split; [exact Hst|reflexivity]]].
      apply (csv_roundtrip repr float float_repr repr_line); [discriminate|discriminate|].
      pose proof (collected_all (map elapsed (seq 0 (o_iters o))) (o_stats o)) as Q. rewrite map_length, seq_length in Q. apply Q. rewrite Hst, map_length. symmetry. exact Hit.
    + destruct (ca_sol a); [|reflexivity]. exists lines, s'. auto.
Qed.
End Works.
