(** Property theorems C61 and C62: the callbacks and the progress log of a run.  [E] are evaluators and [W] the state of the
    search method, the penalty manager and the stopping criterion, all of them arbitrary. *)
From Coq Require Import ZArith Lia List String.
From Verif Require Import Base Data Cost Solution SolutionFacts3 RingBuffer Ils Solve Callbacks CallbacksSolve.
Import ListNotations.
Local Open Scope Z_scope.

(** C61: callbacks see the run, and do not change it.  A run with callbacks [cb], whose state starts as [o0], a display and a
    clock returns what the run without them returns, and conversely; and the callbacks were called in this order: on_start;
    in each iteration on_restart if the search restarts, on_best if a new best solution is found, and on_iteration; then on_end. *)
Theorem C61_observers : forall S E W O feas (cost pcost : E -> S -> Z) (evaluator : W -> E) search register stop history noimp exhaustive collect
    (cb : @callbacks S E O) display interval clock init w0 o0 best stats iters trace,
  returns feas cost pcost evaluator search register stop history noimp exhaustive collect init w0 best stats iters trace <->
  exists lines, cb_returns feas cost pcost evaluator search register stop history noimp exhaustive collect cb display interval clock init w0 o0
    best stats iters trace (fold_left (handle cb) (events trace ++ [Ended best stats iters]) o0) lines.
Proof.
  intros. split.
  - intros H. destruct (observable feas cost pcost evaluator search register stop history noimp exhaustive collect cb display interval clock init w0 o0 _ _ _ _ H) as (o & lines & R).
    exists lines. rewrite <- (proj2 (observers _ _ _ _ _ _ _ _ _ _ _ _ _ _ _ _ _ _ _ _ _ _ _ _ R)). exact R.
  - intros [lines R]. exact (proj1 (observers _ _ _ _ _ _ _ _ _ _ _ _ _ _ _ _ _ _ _ _ _ _ _ _ R)).
Qed.
Print Assumptions C61_observers.

(** So the final state of the callbacks is that of these calls.  on_iteration is called once for each iteration, with the
    current, candidate and best solutions after it, and the evaluator used in it; on_restart is called, with the best solution
    so far, exactly when as many iterations as the parameter says have brought no improvement since the last one or restart. *)
Theorem C61_calls : forall S E W O feas (cost pcost : E -> S -> Z) (evaluator : W -> E) search register stop history noimp exhaustive collect
    (cb : @callbacks S E O) display interval clock init w0 o0 best stats iters trace o lines, (0 < history)%nat ->
  cb_returns feas cost pcost evaluator search register stop history noimp exhaustive collect cb display interval clock init w0 o0 best stats iters trace o lines ->
  o = fold_left (handle cb) (events trace ++ [Ended best stats iters]) o0 /\
  iteration_calls (events trace) = iters /\
  last (init :: best_calls (events trace)) init = best /\
  forall pre x post, trace = pre ++ x :: post ->
    events trace = events pre ++ iter_events x ++ flat_map iter_events post /\
    (forall s, In (Restarted s) (iter_events x) <-> s = last_best init pre /\ quiet (rev pre) = noimp) /\
    (forall s, In (Best s) (iter_events x) <-> s = t_best x /\ cost (t_eval x) (t_cand x) < cost (t_eval x) (last_best init pre)).
Proof.
  intros S E W O feas cost pcost evaluator search register stop history noimp exhaustive collect cb display interval clock init w0 o0 best stats iters trace o lines Hh R.
  destruct (observers _ _ _ _ _ _ _ _ _ _ _ _ _ _ _ _ _ _ _ _ _ _ _ _ R) as [(st & w & Q & _ & E1 & _ & E3 & E4) Eo].
  pose proof (reaches_inv _ _ _ _ _ _ _ _ _ _ _ _ _ _ Hh Q) as I. subst trace iters best.
  split; [exact Eo|]. split; [rewrite iteration_calls_events; symmetry; exact (iv_iters _ _ _ _ _ _ _ _ _ _ _ I)|].
  split; [rewrite best_calls_events, (iv_best _ _ _ _ _ _ _ _ _ _ _ I); apply (bests_last _ _ _ _ _ _ _ _ _ _ (iv_iter _ _ _ _ _ _ _ _ _ _ _ I))|].
  intros pre x post Hp. pose proof (iv_iter _ _ _ _ _ _ _ _ _ _ _ I pre x post Hp) as Hx. split; [|split].
  - rewrite Hp. unfold events. rewrite flat_map_app. reflexivity.
  - intros s. pose proof (io_restart _ _ _ _ _ _ _ _ _ _ _ Hx) as X1. pose proof (io_from _ _ _ _ _ _ _ _ _ _ _ Hx) as X2. unfold iter_events. rewrite in_app_iff, in_app_iff, X2.
    assert (N : ~ In (@Restarted S E s) (if t_improves x then [Best (t_best x)] else []) /\ ~ In (@Restarted S E s) [Iteration (t_curr x) (t_final x) (t_best x) (t_eval x)]).
    { split; [destruct (t_improves x); [intros [N|[]]; discriminate|intros []]|intros [N|[]]; discriminate]. }
    destruct (t_restart x).
    + pose proof (proj1 X1 eq_refl) as X1b. split; [|intros [-> _]; left; left; reflexivity]. intros [[[= <-]|[]]|H]; [split; [reflexivity|exact X1b]|tauto].
    + split; [|intros [_ H]; apply X1 in H; discriminate]. intros [[]|H]. tauto.
  - intros s. pose proof (io_improves _ _ _ _ _ _ _ _ _ _ _ Hx) as X4. rewrite <- X4. unfold iter_events. rewrite in_app_iff, in_app_iff.
    split.
    + intros [H|[H|[H|[]]]]; [|destruct (t_improves x); [|destruct H]|discriminate].
      * destruct (t_restart x); [destruct H as [H|[]]; discriminate|destruct H].
      * destruct H as [[= <-]|[]]. split; reflexivity.
    + intros [-> ->]. right. left. left. reflexivity.
Qed.
Print Assumptions C61_calls.

(** In solve(), the solutions given to on_best are feasible, each has a lower objective than the one before it, the first a lower one
    than the initial solution if that is feasible, and the last is the one that is returned. *)
Theorem C61_solve : forall d X stop p collect_stats h n k seed initial x o, solvable d h -> params_ok p ->
  (forall s, initial = Some s -> is_solution d s) ->
  solve d X stop p collect_stats n k seed initial x = Some (Ok o) ->
  (exists w0, forall O (cb : @callbacks solution evaluator O) display interval clock o0, exists u lines,
     solve_observed d X stop p collect_stats cb display interval clock n (o_init o) w0 o0 (o_best o) (o_stats o) (o_iters o) (o_trace o) u lines) /\
  last (o_init o :: best_calls (events (o_trace o))) (o_init o) = o_best o /\
  forall pre s post, best_calls (events (o_trace o)) = pre ++ s :: post -> so_isFeasible s = true /\
    forall t, In t (o_init o :: pre) -> so_isFeasible t = true -> objective d s < objective d t.
Proof.
  intros d X stop p cs h n k seed initial x o Hd Hp Hi H. destruct (solve_is_observed d X stop p cs h Hd Hp n k seed initial x o Hi H) as (w0 & A & B & C).
  split; [exists w0; exact A|]. rewrite best_calls_events. fold (bests (o_trace o)). split; [exact B|]. intros pre s post Hs.
  assert (G : forall l from pre, falling so_isFeasible (objective d) from l -> l = pre ++ s :: post ->
    so_isFeasible s = true /\ objective d s < from /\ forall t, In t pre -> so_isFeasible t = true /\ objective d s < objective d t).
  { clear. induction l as [|a l IH]; intros from pre Hl E; [destruct pre; discriminate|]. cbn [falling] in Hl. destruct Hl as (L1 & L2 & L3). unfold value in L2, L3. rewrite L1 in L2, L3.
    destruct pre as [|b pre]; cbn [app] in E; injection E as -> E.
    - split; [exact L1|]. split; [exact L2|]. intros t [].
    - destruct (IH _ pre L3 E) as (I1 & I2 & I3). split; [exact I1|]. split; [lia|]. intros t [<-|Ht]; [split; assumption|apply I3; exact Ht]. }
  destruct (G _ _ _ C Hs) as (G1 & G2 & G3). split; [exact G1|]. intros t [<-|Ht] Ft; [|apply G3; exact Ht].
  unfold value in G2. rewrite Ft in G2. exact G2.
Qed.
Print Assumptions C61_solve.

(** C62: the progress log.  Without display nothing is logged.  With it, there is one line at the start and one at the end, with
    the number of iterations and the best solution; in between lines for restarts, as many as there are, and for iterations.
    A line for iteration [n] has the statistics of iteration [n]; it comes at least the interval after the one before it; it is
    marked exactly when the best solution is feasible and costs less than in all lines marked before.  Iterations
    without a line came less than the interval after the last line. *)
Theorem C62_lines : forall S E W O feas (cost pcost : E -> S -> Z) (evaluator : W -> E) search register stop history noimp exhaustive collect
    (cb : @callbacks S E O) display interval clock init w0 o0 best stats iters trace o lines,
  cb_returns feas cost pcost evaluator search register stop history noimp exhaustive collect cb display interval clock init w0 o0 best stats iters trace o lines ->
  (display = false -> lines = []) /\
  (display = true -> exists middle, lines = LStart :: middle ++ [LEnd iters best] /\
     (forall l, In l middle -> l = LRestart \/ exists marked n x, l = LIteration marked n x) /\
     restarts middle = length (filter t_restart trace)) /\
  (forall pre marked n x post, lines = pre ++ LIteration marked n x :: post ->
     nth_error stats (n - 1) = Some x /\ (last (shown pre) 0 < n)%nat /\ interval <= clock n - clock (last (shown pre) 0%nat) /\
     (marked = true <-> dt_best_feas x = true /\ Forall (fun y => dt_best x < dt_best y) (starred pre))) /\
  (collect = false -> shown lines = []) /\
  (display = true -> collect = true -> forall m, (1 <= m <= iters)%nat ->
     In m (shown lines) \/ clock m - clock (last (filter (fun n => n <? m)%nat (shown lines)) 0%nat) < interval).
Proof.
  intros. destruct (lines_are _ _ _ _ _ _ _ _ _ _ _ _ _ _ _ _ _ _ _ _ _ _ _ _ H) as (_ & A1 & A2 & A3 & A4 & A5).
  split; [exact A1|]. split; [exact A2|]. split; [|split; assumption].
  intros pre marked n x post Hl. destruct (A3 _ _ _ _ _ Hl) as [B1 B2 B3 B4]. auto.
Qed.
Print Assumptions C62_lines.

Theorem C62_every_iteration : forall S E W O feas (cost pcost : E -> S -> Z) (evaluator : W -> E) search register stop history noimp exhaustive
    (cb : @callbacks S E O) clock init w0 o0 best stats iters trace o lines,
  cb_returns feas cost pcost evaluator search register stop history noimp exhaustive true cb true 0 clock init w0 o0 best stats iters trace o lines ->
  (forall m n, (m <= n)%nat -> clock m <= clock n) -> forall m, (1 <= m <= iters)%nat -> In m (shown lines).
Proof. intros. exact (every_line _ _ _ _ _ _ _ _ _ _ _ _ _ _ _ _ _ _ _ _ _ _ _ _ H eq_refl eq_refl eq_refl H0 m H1). Qed.
Print Assumptions C62_every_iteration.

(** A run on numbers: even ones are feasible, the search subtracts, restarts after two iterations without improvement, ten
    iterations, a line every two seconds.  The callbacks write down what they are called with. *)
Definition toy_cb : @callbacks Z Z (list string) := mk_callbacks (fun o => o ++ ["start"%string]) (fun _ _ _ o => o ++ ["end"%string])
  (fun _ _ _ _ o => o ++ ["iteration"%string]) (fun _ o => o ++ ["restart"%string]) (fun _ o => o ++ ["best"%string]).
Definition toy_search (w s e : Z) (b : bool) : Z * Z := (if b then s else if w <? 6 then s - 1 else s + 1, w + 1).
Definition toy_run := @cb_returns Z Z Z (list string) Z.even (fun _ s => if Z.even s then s else 1000) (fun _ s => s) (fun w => w)
  toy_search (fun w _ => w) (fun w _ => (12 <=? w, w)) 3 2 true true toy_cb true 2 Z.of_nat.
Ltac toy n := match n with 0%nat => apply cb_first | Datatypes.S ?m => eapply cb_step; [toy m|vm_compute; reflexivity] end.
Example C61_case : exists best stats trace lines,
  toy_run 10 0 [] best stats 10%nat trace
    ["start"; "iteration"; "best"; "iteration"; "iteration"; "best"; "iteration"; "iteration"; "iteration"; "restart"; "iteration"; "iteration";
     "restart"; "iteration"; "iteration"; "end"]%string lines /\
  best = 6 /\ shown lines = [2; 4; 6; 8; 10]%nat /\ restarts lines = 2%nat /\ map dt_best (starred lines) = [8; 6].
Proof.
  do 4 eexists. split.
  - unfold toy_run, cb_returns. do 2 eexists. split; [toy 10%nat|]. split; [vm_compute; reflexivity|].
    repeat (split; [vm_compute; reflexivity|]). vm_compute. reflexivity.
  - vm_compute. repeat split.
Qed.
(** The hypothesis of C62_every_iteration about the clock, with a line for every iteration. *)
Example C62_case : exists best stats trace o lines,
  cb_returns Z.even (fun _ s => if Z.even s then s else 1000) (fun _ s => s) (fun w => w) toy_search (fun w _ => w) (fun w _ => (12 <=? w, w)) 3 2 true true
    toy_cb true 0 Z.of_nat 10 0 [] best stats 10%nat trace o lines /\
  (forall m n, (m <= n)%nat -> Z.of_nat m <= Z.of_nat n) /\ shown lines = [1; 2; 3; 4; 5; 6; 7; 8; 9; 10]%nat.
Proof.
  do 5 eexists. split; [|split; [intros; lia|]].
  - unfold cb_returns. do 2 eexists. split; [toy 10%nat|]. split; [vm_compute; reflexivity|].
    repeat (split; [vm_compute; reflexivity|]). vm_compute. reflexivity.
  - vm_compute. reflexivity.
Qed.
