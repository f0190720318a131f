(** Model of pyvrp/IteratedLocalSearch.py: the main loop, over an arbitrary search method, penalty
    manager and stopping criterion. *)
From Verif Require Import Base Data RingBuffer.

Section Ils.
Context {S E W : Type}.
(** Solutions [S] with [is_feasible]; cost evaluators [E] with [cost] and [penalised_cost].  The state
    of everything else (search method, penalty manager, random numbers, stopping criterion, clock,
    callbacks) is a world [W]. *)
Variables (feas : S -> bool) (cost pcost : E -> S -> Z).
Variables (cost_evaluator : W -> E) (search : W -> S -> E -> bool -> S * W) (register : W -> S -> W)
  (stop : W -> Z -> bool * W).
(** IteratedLocalSearch.py:168-290: the parameters. *)
Variables (history_length : nat) (num_iters_no_improvement : nat) (exhaustive_on_best collect_stats : bool).

(** What happens in one iteration, for the callbacks (on_restart, on_best, on_iteration) and the
    statistics. *)
Record iter := mk_iter {
  t_eval : E;               (* the cost evaluator used *)
  t_restart : bool;         (* on_restart was called *)
  t_from : S;               (* the solution given to the search *)
  t_cand : S;               (* its answer *)
  t_improves : bool;        (* on_best was called *)
  t_exh : option S;         (* the exhaustive search's answer *)
  t_late : option S;        (* what was read from the history *)
  t_curr : S;               (* current solution after the iteration *)
  t_best : S }.             (* best solution after the iteration *)
(** Lines 241-251: the candidate after a possible exhaustive search. *)
Definition t_final (x : iter) : S := match t_exh x with Some c => c | None => t_cand x end.

(** Statistics.py:10-21, 86-103: one data point. *)
Record datum := mk_datum { dt_curr : Z; dt_curr_feas : bool; dt_cand : Z; dt_cand_feas : bool;
                           dt_best : Z; dt_best_feas : bool }.
Definition collect (x : iter) : datum :=
  mk_datum (pcost (t_eval x) (t_curr x)) (feas (t_curr x)) (pcost (t_eval x) (t_final x)) (feas (t_final x))
           (pcost (t_eval x) (t_best x)) (feas (t_best x)).

Record ils := mk_ils {
  i_world : W; i_iters : nat; i_noimp : nat; i_best : S; i_curr : S; i_history : @ring S; i_eval : E;
  i_stats : list datum; i_trace : list iter }.

(** Lines 212-222.  [i_trace] is the list of past iterations, the most recent one last. *)
Definition ils_init (init : S) (w : W) : ils :=
  mk_ils w 0 0 init init (rb_make history_length) (cost_evaluator w) [] [].

(** The body of the while loop, lines 224-282. *)
Definition ils_body (init : S) (st : ils) : ils :=
  let restart := (i_noimp st =? num_iters_no_improvement)%nat in
  let history := if restart then rb_clear (i_history st) else i_history st in
  let curr := if restart then i_best st else i_curr st in
  let noimp := if restart then O else i_noimp st in
  let ev := cost_evaluator (i_world st) in
  let '(cand, w) := search (i_world st) curr ev false in
  let w := register w cand in
  let noimp := Datatypes.S noimp in
  let improves := cost ev cand <? cost ev (i_best st) in
  let '(best, noimp, exh, cand', w) :=
    if improves then
      if exhaustive_on_best then
        let '(cand', w) := search w cand ev true in
        ((if feas cand' then cand' else cand), O, Some cand', cand', w)
      else (cand, O, None, cand, w)
    else (i_best st, noimp, None, cand, w) in
  let late := rb_peek history in
  let late_cost := match late with Some l => pcost ev l | None => pcost ev init end in
  let accept := (pcost ev cand' <? late_cost) || (pcost ev cand' <? pcost ev curr) in
  let curr' := if accept then cand' else curr in
  let append := (pcost ev curr' <? late_cost) || negb (is_some late) in
  let history := if append then rb_append history curr' else rb_skip history in
  let x := mk_iter ev restart curr cand improves exh late curr' best in
  mk_ils w (Datatypes.S (i_iters st)) noimp best curr' history ev
    (if collect_stats then i_stats st ++ [collect x] else i_stats st) (i_trace st ++ [x]).

(** The loop, line 223: the states at the loop head. *)
Definition set_world (st : ils) (w : W) : ils :=
  mk_ils w (i_iters st) (i_noimp st) (i_best st) (i_curr st) (i_history st) (i_eval st) (i_stats st) (i_trace st).
Inductive reaches (init : S) (w0 : W) : ils -> Prop :=
| reaches_init : reaches init w0 (ils_init init w0)
| reaches_step st w : reaches init w0 st -> stop (i_world st) (cost (i_eval st) (i_best st)) = (false, w) ->
    reaches init w0 (ils_body init (set_world st w)).
(** Lines 286-292: the result's best solution, statistics and number of iterations. *)
Definition returns (init : S) (w0 : W) (best : S) (stats : list datum) (iters : nat) (trace : list iter) : Prop :=
  exists st w, reaches init w0 st /\ stop (i_world st) (cost (i_eval st) (i_best st)) = (true, w) /\
    best = i_best st /\ stats = i_stats st /\ iters = i_iters st /\ trace = i_trace st.

(** ** Specification *)
(** Number of iterations since the last improvement or restart, most recent iteration first. *)
Fixpoint quiet (recent : list iter) : nat :=
  match recent with
  | [] => 0
  | x :: older => if t_improves x then O else if t_restart x then 1%nat else Datatypes.S (quiet older)
  end.
(** What the late acceptance history holds: one entry per iteration since the last restart. *)
Definition late_cost (init : S) (x : iter) : Z :=
  match t_late x with Some l => pcost (t_eval x) l | None => pcost (t_eval x) init end.
Definition next_entries (init : S) (w : list (option S)) (x : iter) : list (option S) :=
  let w := if t_restart x then [] else w in
  w ++ [if (pcost (t_eval x) (t_curr x) <? late_cost init x) || negb (is_some (ago history_length w))
        then Some (t_curr x) else ago history_length w].
Definition entries (init : S) (tr : list iter) : list (option S) := fold_left (next_entries init) tr [].

Definition last_best (init : S) (tr : list iter) : S := last (map t_best tr) init.
Definition last_curr (init : S) (tr : list iter) : S := last (map t_curr tr) init.

(** One iteration is right, given those before it. *)
Record iter_ok (init : S) (pre : list iter) (x : iter) : Prop := mk_iter_ok {
  io_restart : t_restart x = true <-> quiet (rev pre) = num_iters_no_improvement;
  io_from : t_from x = if t_restart x then last_best init pre else last_curr init pre;
  io_search : exists w, t_eval x = cost_evaluator w /\ t_cand x = fst (search w (t_from x) (t_eval x) false);
  io_improves : t_improves x = true <-> cost (t_eval x) (t_cand x) < cost (t_eval x) (last_best init pre);
  io_exh_when : t_exh x <> None <-> t_improves x = true /\ exhaustive_on_best = true;
  io_exh : forall c, t_exh x = Some c -> exists w, c = fst (search w (t_cand x) (t_eval x) true);
  io_best : t_best x = if t_improves x
                       then match t_exh x with Some c => if feas c then c else t_cand x | None => t_cand x end
                       else last_best init pre;
  io_late : t_late x = ago history_length (if t_restart x then [] else entries init pre);
  io_accept : t_curr x = if (pcost (t_eval x) (t_final x) <? late_cost init x)
                            || (pcost (t_eval x) (t_final x) <? pcost (t_eval x) (t_from x))
                         then t_final x else t_from x }.

Lemma last_map_app {A B} (f : A -> B) l x d : last (map f (l ++ [x])) d = f x.
Proof. rewrite map_app. cbn [map]. apply last_last. Qed.

Record inv (init : S) (st : ils) : Prop := mk_inv {
  iv_iters : i_iters st = length (i_trace st);
  iv_stats : i_stats st = if collect_stats then map collect (i_trace st) else [];
  iv_noimp : i_noimp st = quiet (rev (i_trace st));
  iv_best : i_best st = last_best init (i_trace st);
  iv_curr : i_curr st = last_curr init (i_trace st);
  iv_ring : exists ops, i_history st = rb_run (rb_make history_length) ops /\
                        written history_length ops = entries init (i_trace st);
  iv_iter : forall pre x post, i_trace st = pre ++ x :: post -> iter_ok init pre x }.

Lemma written_snoc n (ops : list (@ring_op S)) o : written n (ops ++ [o]) = spec_do n (written n ops) o.
Proof. unfold written. rewrite fold_left_app. reflexivity. Qed.
Lemma run_snoc (b : @ring S) ops o : rb_run b (ops ++ [o]) = rb_do (rb_run b ops) o.
Proof. unfold rb_run. rewrite fold_left_app. reflexivity. Qed.

Lemma split_snoc {A} (l pre post : list A) y x : l ++ [y] = pre ++ x :: post ->
  (pre = l /\ x = y /\ post = []) \/ exists post', l = pre ++ x :: post'.
Proof.
  destruct post as [|z post] using rev_ind; intros H.
  - apply app_inj_tail in H. destruct H as [-> ->]. left. auto.
  - right. exists post. replace (pre ++ x :: post ++ [z]) with ((pre ++ x :: post) ++ [z]) in H
      by (rewrite <- app_assoc; reflexivity).
    apply app_inj_tail in H. apply H.
Qed.

Lemma inv_init init w : inv init (ils_init init w).
Proof.
  constructor; cbn [ils_init i_iters i_trace i_stats i_noimp i_best i_curr i_history]; try reflexivity.
  - destruct collect_stats; reflexivity.
  - exists []. split; reflexivity.
  - intros pre x post H. destruct pre; discriminate.
Qed.

(** The trace element that one body adds. *)
Lemma body_inv init st : (0 < history_length)%nat -> inv init st -> inv init (ils_body init st).
Proof.
  intros HL [I1 I2 I3 I4 I5 (ops & I6 & I7) I8]. unfold ils_body.
  set (restart := (i_noimp st =? num_iters_no_improvement)%nat).
  set (hist := if restart then rb_clear (i_history st) else i_history st).
  set (curr := if restart then i_best st else i_curr st).
  set (noimp := if restart then O else i_noimp st).
  set (ev := cost_evaluator (i_world st)).
  destruct (search (i_world st) curr ev false) as [cand w1] eqn:Es.
  set (improves := cost ev cand <? cost ev (i_best st)).
  set (blk := if improves then _ else _).
  assert (Hblk : exists best noimp' exh cand' w2, blk = (best, noimp', exh, cand', w2) /\
      noimp' = (if improves then O else Datatypes.S noimp) /\
      (exh <> None <-> improves = true /\ exhaustive_on_best = true) /\
      (forall c, exh = Some c -> exists w, c = fst (search w cand ev true)) /\
      best = (if improves then match exh with Some c => if feas c then c else cand | None => cand end else i_best st) /\
      cand' = match exh with Some c => c | None => cand end).
  { subst blk. destruct improves.
    - destruct exhaustive_on_best.
      + destruct (search (register w1 cand) cand ev true) as [c w2] eqn:E2. do 5 eexists. split; [reflexivity|].
        split; [reflexivity|]. split; [split; [auto|discriminate]|]. split; [|split; reflexivity].
        intros c' [= <-]. exists (register w1 cand). rewrite E2. reflexivity.
      + do 5 eexists. split; [reflexivity|]. split; [reflexivity|].
        split; [split; [intros H; destruct H; reflexivity|intros [_ H]; discriminate]|].
        split; [discriminate|split; reflexivity].
    - do 5 eexists. split; [reflexivity|]. split; [reflexivity|].
      split; [split; [intros H; destruct H; reflexivity|intros [H _]; discriminate]|].
      split; [discriminate|split; reflexivity]. }
  clearbody blk. destruct Hblk as (best & noimp' & exh & cand' & w2 & -> & B1 & B2 & B3 & B4 & B5).
  (* the history *)
  set (w0 := if restart then [] else entries init (i_trace st)).
  assert (Hh : exists ops', hist = rb_run (rb_make history_length) ops' /\ written history_length ops' = w0).
  { subst hist w0. destruct restart; [|exists ops; split; assumption].
    exists (ops ++ [RClear]). rewrite run_snoc, written_snoc. cbn [rb_do spec_do]. rewrite I6. auto. }
  destruct Hh as (ops' & Hh & Hw). clearbody hist. clear ops I6 I7.
  assert (Hpeek : rb_peek hist = ago history_length w0) by (rewrite Hh, ring_peek, Hw; auto).
  set (late := rb_peek hist) in *.
  set (lc := match late with Some l => pcost ev l | None => pcost ev init end).
  set (accept := (pcost ev cand' <? lc) || (pcost ev cand' <? pcost ev curr)).
  set (curr' := if accept then cand' else curr).
  set (append := (pcost ev curr' <? lc) || negb (is_some late)).
  set (x := mk_iter ev restart curr cand improves exh late curr' best).
  assert (Hx : iter_ok init (i_trace st) x).
  { constructor; cbn [x t_eval t_restart t_from t_cand t_improves t_exh t_late t_curr t_best].
    - rewrite <- I3. apply Nat.eqb_eq.
    - rewrite <- I4, <- I5. reflexivity.
    - exists (i_world st). split; [reflexivity|]. fold ev. rewrite Es. reflexivity.
    - rewrite <- I4. apply Z.ltb_lt.
    - exact B2.
    - exact B3.
    - rewrite <- I4. exact B4.
    - exact Hpeek.
    - unfold t_final, late_cost. cbn [x t_eval t_exh t_late t_cand]. rewrite <- B5. reflexivity. }
  constructor; cbn [i_iters i_trace i_stats i_noimp i_best i_curr i_history].
  - rewrite app_length, I1. cbn. lia.
  - rewrite I2. destruct collect_stats; [rewrite map_app|]; reflexivity.
  - rewrite rev_app_distr. cbn [rev app quiet x t_improves t_restart]. rewrite B1. subst noimp.
    destruct improves; [reflexivity|]. destruct restart; [reflexivity|]. rewrite <- I3. reflexivity.
  - unfold last_best. rewrite last_map_app. reflexivity.
  - unfold last_curr. rewrite last_map_app. reflexivity.
  - exists (ops' ++ [if append then RAppend curr' else RSkip]). rewrite run_snoc, written_snoc, Hw, <- Hh.
    split; [destruct append; reflexivity|].
    unfold entries. rewrite fold_left_app. cbn [fold_left]. fold (entries init (i_trace st)).
    unfold next_entries, late_cost. cbn [x t_eval t_restart t_late t_curr]. fold w0 lc. rewrite <- Hpeek. fold append.
    destruct append; cbn [spec_do]; [reflexivity|]. rewrite <- Hpeek. reflexivity.
  - intros pre y post H. destruct (split_snoc _ _ _ _ _ H) as [(-> & -> & _)|(post' & Hp)]; [exact Hx|].
    exact (I8 _ _ _ Hp).
Qed.

Theorem reaches_inv init w0 st : (0 < history_length)%nat -> reaches init w0 st -> inv init st.
Proof.
  intros HL H. induction H as [|st w H IH Hs]; [apply inv_init|].
  apply body_inv; [exact HL|]. destruct IH as [I1 I2 I3 I4 I5 I6 I7]. constructor; assumption.
Qed.

(** ** The best solution *)
Variable good : S -> Prop.      (* solutions of the problem at hand *)
Variable good_ev : E -> Prop.
Variable obj : S -> Z.
(** The cost of a feasible solution does not depend on the evaluator, that of others is maximal. *)
Definition value (s : S) : Z := if feas s then obj s else MAXV.
Hypothesis Hcost : forall e s, good_ev e -> good s -> cost e s = value s.
Hypothesis Hfinite : forall s, good s -> feas s = true -> obj s < MAXV.
Variable okw : W -> Prop.       (* states of the rest that can occur *)
Hypothesis Heval : forall w, okw w -> good_ev (cost_evaluator w).
Hypothesis Hsearch : forall w s e b, okw w -> good s -> good_ev e ->
  good (fst (search w s e b)) /\ okw (snd (search w s e b)).
Hypothesis Hregister : forall w s, okw w -> good s -> okw (register w s).
Hypothesis Hstop : forall w c, okw w -> okw (snd (stop w c)).

(** All candidates of a trace. *)
Definition cands (x : iter) : list S := t_cand x :: match t_exh x with Some c => [c] | None => [] end.
Definition candidates (tr : list iter) : list S := flat_map cands tr.

Record best_inv (init : S) (st : ils) : Prop := mk_best_inv {
  bi_good_best : good (i_best st);
  bi_good_curr : good (i_curr st);
  bi_good_cands : Forall good (candidates (i_trace st));
  bi_world : okw (i_world st);
  bi_trace : Forall (fun x => good_ev (t_eval x) /\ forall c, t_exh x = Some c ->
    exists w, okw w /\ c = fst (search w (t_cand x) (t_eval x) true)) (i_trace st);
  bi_in : In (i_best st) (init :: candidates (i_trace st));
  bi_feasible : feas (i_best st) = true <-> exists c, In c (init :: candidates (i_trace st)) /\ feas c = true }.

Lemma value_feas s s' : good s -> good s' -> value s <= value s' -> feas s' = true -> feas s = true.
Proof.
  unfold value. intros Hs Hs' H Hf. rewrite Hf in H. pose proof (Hfinite s' Hs' Hf).
  destruct (feas s); [reflexivity|lia].
Qed.

Lemma best_step init st : best_inv init st -> best_inv init (ils_body init st).
Proof.
  intros [G1 G2 G3 Gw Gt G4 G5]. unfold ils_body.
  set (restart := (i_noimp st =? num_iters_no_improvement)%nat).
  set (hist := if restart then rb_clear (i_history st) else i_history st).
  set (curr := if restart then i_best st else i_curr st).
  set (noimp := if restart then O else i_noimp st).
  set (ev := cost_evaluator (i_world st)).
  assert (Hev : good_ev ev) by apply Heval, Gw.
  assert (Hcurr : good curr) by (subst curr; destruct restart; assumption).
  pose proof (Hsearch (i_world st) curr ev false Gw Hcurr Hev) as [Hcand Hw1].
  destruct (search (i_world st) curr ev false) as [cand w1]. cbn [fst snd] in Hcand, Hw1.
  pose proof (Hregister w1 cand Hw1 Hcand) as Hw1'.
  rewrite (Hcost ev cand Hev Hcand), (Hcost ev (i_best st) Hev G1).
  set (improves := value cand <? value (i_best st)).
  set (blk := if improves then _ else _).
  assert (Hblk : exists best noimp' exh cand' w2, blk = (best, noimp', exh, cand', w2) /\
      good best /\ good cand' /\ (forall c, exh = Some c -> good c) /\
      (improves = true -> best = match exh with Some c => if feas c then c else cand | None => cand end) /\
      (improves = false -> best = i_best st /\ exh = None) /\
      (exh = None \/ exh = Some cand') /\ okw w2 /\
      (forall c, exh = Some c -> exists w, okw w /\ c = fst (search w cand ev true))).
  { subst blk. destruct improves.
    - destruct exhaustive_on_best.
      + pose proof (Hsearch (register w1 cand) cand ev true Hw1' Hcand Hev) as [Hc2 Hw2].
        assert (Hex : forall c, Some (fst (search (register w1 cand) cand ev true)) = Some c -> exists w, okw w /\ c = fst (search w cand ev true))
          by (intros c [= <-]; exists (register w1 cand); auto).
        destruct (search (register w1 cand) cand ev true) as [c w2]. cbn [fst snd] in Hc2, Hw2, Hex. do 5 eexists. split; [reflexivity|].
        split; [destruct (feas c); assumption|]. split; [assumption|]. split; [intros c' [= <-]; assumption|].
        split; [reflexivity|]. split; [discriminate|]. split; [auto|]. split; [exact Hw2|exact Hex].
      + do 5 eexists. split; [reflexivity|]. split; [assumption|]. split; [assumption|].
        split; [discriminate|]. split; [reflexivity|]. split; [discriminate|]. split; [auto|]. split; [exact Hw1'|discriminate].
    - do 5 eexists. split; [reflexivity|]. split; [assumption|]. split; [assumption|].
      split; [discriminate|]. split; [discriminate|]. split; [auto|]. split; [auto|]. split; [exact Hw1'|discriminate]. }
  clearbody blk. destruct Hblk as (best & noimp' & exh & cand' & w2 & -> & B1 & B2 & B3 & B4 & B5 & B6 & B7 & B8).
  set (acc := _ || _). set (app' := _ || _).
  assert (Hcands : forall x, t_cand x = cand -> t_exh x = exh -> cands x = cand :: match exh with Some c => [c] | None => [] end).
  { intros x E1 E2. unfold cands. rewrite E1, E2. reflexivity. }
  match goal with |- context [i_trace st ++ [?y]] => set (x := y) end.
  assert (Ec : candidates (i_trace st ++ [x]) = candidates (i_trace st) ++ cands x).
  { unfold candidates. rewrite flat_map_app. cbn [flat_map]. rewrite app_nil_r. reflexivity. }
  constructor; cbn [i_best i_curr i_trace i_world].
  - exact B1.
  - destruct acc; assumption.
  - rewrite Ec. apply Forall_app. split; [exact G3|]. rewrite (Hcands x eq_refl eq_refl). constructor; [exact Hcand|].
    destruct exh; [|constructor]. constructor; [apply B3; reflexivity|constructor].
  - exact B7.
  - apply Forall_app. split; [exact Gt|]. constructor; [|constructor]. split; [exact Hev|exact B8].
  - rewrite Ec, app_comm_cons. apply in_or_app. rewrite (Hcands x eq_refl eq_refl).
    destruct improves eqn:Ei.
    + right. rewrite (B4 eq_refl). destruct exh as [c|]; [|left; reflexivity].
      destruct (feas c); [right; left; reflexivity|left; reflexivity].
    + left. rewrite (proj1 (B5 eq_refl)). exact G4.
  - rewrite Ec. destruct improves eqn:Ei.
    + assert (Hf : feas best = true).
      { assert (Hfc : feas cand = true).
        { apply Z.ltb_lt in Ei. unfold value in Ei. destruct (feas cand); [reflexivity|].
          destruct (feas (i_best st)) eqn:Eq0; [pose proof (Hfinite _ G1 Eq0); lia|lia]. }
        rewrite (B4 eq_refl). destruct exh as [c|]; [|exact Hfc]. destruct (feas c) eqn:Eq0; assumption. }
      split; [|intros _; exact Hf]. intros _. exists best. split; [|exact Hf].
      rewrite (B4 eq_refl), (Hcands x eq_refl eq_refl), app_comm_cons. apply in_or_app. right.
      destruct exh as [c|]; [|left; reflexivity]. destruct (feas c); [right; left; reflexivity|left; reflexivity].
    + destruct (B5 eq_refl) as [-> ->]. rewrite G5, (Hcands x eq_refl eq_refl). split.
      * intros (c & Hc & Hf). exists c. split; [|exact Hf]. rewrite app_comm_cons. apply in_or_app. left. exact Hc.
      * intros (c & Hc & Hf). rewrite app_comm_cons in Hc. apply in_app_or in Hc. destruct Hc as [Hc|[<-|[]]]; [eauto|].
        apply G5. apply (value_feas (i_best st) cand G1 Hcand); [apply Z.ltb_ge in Ei; exact Ei|exact Hf].
Qed.

Lemma best_init init w : good init -> okw w -> best_inv init (ils_init init w).
Proof.
  intros H Hw. constructor; cbn [ils_init i_best i_curr i_trace i_world candidates flat_map In]; auto.
  split; [intros Hf; exists init; split; [left; reflexivity|exact Hf]|intros (c & [<-|[]] & Hf); exact Hf].
Qed.

Lemma best_stop init st w : best_inv init st -> stop (i_world st) (cost (i_eval st) (i_best st)) = (false, w) -> best_inv init (set_world st w).
Proof.
  intros [G1 G2 G3 Gw Gt G4 G5] Hs. constructor; try assumption. cbn [set_world i_world].
  replace w with (snd (stop (i_world st) (cost (i_eval st) (i_best st)))) by (rewrite Hs; reflexivity). apply Hstop, Gw.
Qed.
Theorem reaches_best init w0 st : good init -> okw w0 -> reaches init w0 st -> best_inv init st.
Proof.
  intros Hg Hw H. induction H as [|st w H IH Hs]; [apply best_init; assumption|].
  apply best_step, best_stop; assumption.
Qed.

(** Exhaustive search does not make a feasible solution more expensive. *)
Definition exhaustive_sane : Prop := forall w s e, okw w -> good s -> good_ev e -> feas s = true ->
  let c := fst (search w s e true) in feas c = true -> obj c <= obj s.

Lemma best_minimal_step init st : (0 < history_length)%nat -> exhaustive_sane -> best_inv init st -> inv init st ->
  value (i_best (ils_body init st)) <= value (i_best st) /\
  ((forall c, In c (init :: candidates (i_trace st)) -> value (i_best st) <= value c) ->
   forall c, In c (init :: candidates (i_trace (ils_body init st))) -> value (i_best (ils_body init st)) <= value c).
Proof.
  intros HL Hex HB HI. pose proof (body_inv init st HL HI) as HI'. pose proof (best_step init st HB) as HB'.
  assert (Ht : exists x, i_trace (ils_body init st) = i_trace st ++ [x]).
  { unfold ils_body. destruct (search _ _ _ _) as [cand w1]. set (blk := if _ <? _ then _ else _).
    destruct blk as [[[[best noimp'] exh] cand'] w2]. eexists. reflexivity. }
  destruct Ht as [x Ht].
  pose proof (iv_iter _ _ HI' (i_trace st) x [] Ht) as Hx.
  assert (Ebest : i_best (ils_body init st) = t_best x).
  { rewrite (iv_best _ _ HI'), Ht. unfold last_best. apply last_map_app. }
  rewrite Ebest. pose proof (iv_best _ _ HI) as Eb.
  pose proof (bi_good_cands _ _ HB') as Hgc. rewrite Ht in Hgc. unfold candidates in Hgc. rewrite flat_map_app in Hgc.
  apply Forall_app in Hgc. destruct Hgc as [_ Hgc]. cbn [flat_map] in Hgc. rewrite app_nil_r in Hgc.
  assert (Hgcand : good (t_cand x)) by (inversion Hgc; assumption).
  pose proof (bi_trace _ _ HB') as Htr. rewrite Ht in Htr. apply Forall_app in Htr. destruct Htr as [_ Htr].
  inversion Htr as [|? ? [Hev Hexh] _]; subst. clear Htr.
  assert (Himp : t_improves x = true <-> value (t_cand x) < value (i_best st)).
  { rewrite (io_improves _ _ _ Hx), <- Eb, (Hcost _ _ Hev Hgcand), (Hcost _ _ Hev (bi_good_best _ _ HB)). reflexivity. }
  assert (Hmono : value (t_best x) <= value (i_best st) /\ forall c, In c (cands x) -> value (t_best x) <= value c).
  { rewrite (io_best _ _ _ Hx). destruct (t_improves x) eqn:Ei.
    - assert (Hlt : value (t_cand x) < value (i_best st)) by (apply Himp; reflexivity).
      assert (Hfc : feas (t_cand x) = true).
      { unfold value in Hlt. destruct (feas (t_cand x)); [reflexivity|].
        destruct (feas (i_best st)) eqn:Eq0; [pose proof (Hfinite _ (bi_good_best _ _ HB) Eq0); lia|lia]. }
      unfold cands. destruct (t_exh x) as [c|] eqn:Ee.
      + destruct (Hexh c eq_refl) as (w & Hw & Hc).
        assert (Hgood : good c) by (unfold cands in Hgc; rewrite Ee in Hgc; inversion Hgc as [|? ? ? Hl]; inversion Hl; assumption).
        destruct (feas c) eqn:Ef.
        * assert (Hle : obj c <= obj (t_cand x)) by (rewrite Hc; apply Hex; [assumption|assumption|assumption|assumption|rewrite <- Hc; exact Ef]).
          assert (Hv : value c <= value (t_cand x)) by (unfold value; rewrite Ef, Hfc; exact Hle).
          split; [lia|]. intros c' [<-|[<-|[]]]; lia.
        * assert (Hv : value (t_cand x) <= value c).
          { unfold value. rewrite Ef, Hfc. pose proof (Hfinite _ Hgcand Hfc). lia. }
          split; [lia|]. intros c' [<-|[<-|[]]]; lia.
      + split; [lia|]. intros c' [<-|[]]. lia.
    - assert (~ value (t_cand x) < value (i_best st)) by (rewrite <- Himp; discriminate).
      assert (Ee : t_exh x = None).
      { destruct (t_exh x) eqn:Eq0; [|reflexivity]. exfalso.
        assert (H1 : t_exh x <> None) by congruence. apply (io_exh_when _ _ _ Hx) in H1. destruct H1 as [H1 _]. congruence. }
      rewrite <- Eb. split; [lia|]. unfold cands. rewrite Ee. intros c [<-|[]]. lia. }
  destruct Hmono as [H1 H2]. split; [exact H1|].
  intros Hall c Hc. rewrite Ht in Hc. unfold candidates in Hc. rewrite flat_map_app in Hc. cbn [flat_map] in Hc.
  rewrite app_nil_r, app_comm_cons in Hc. apply in_app_or in Hc. destruct Hc as [Hc|Hc].
  - specialize (Hall c Hc). lia.
  - exact (H2 c Hc).
Qed.

Theorem best_is_minimal init w0 st : (0 < history_length)%nat -> exhaustive_sane -> good init -> okw w0 -> reaches init w0 st ->
  (forall c, In c (init :: candidates (i_trace st)) -> value (i_best st) <= value c) /\
  (forall pre x post, i_trace st = pre ++ x :: post -> value (t_best x) <= value (last_best init pre)).
Proof.
  intros HL Hex Hg Hw0 H. induction H as [|st w H IH Hs].
  - cbn [ils_init i_trace i_best candidates flat_map]. split; [intros c [<-|[]]; lia|]. intros [|? ?] x post; discriminate.
  - destruct IH as [IH1 IH2].
    pose proof (reaches_inv init w0 st HL H) as HI. pose proof (reaches_best init w0 st Hg Hw0 H) as HB.
    set (st' := set_world st w).
    assert (HI' : inv init st') by (destruct HI; constructor; assumption).
    assert (HB' : best_inv init st') by (apply best_stop; assumption).
    destruct (best_minimal_step init st' HL Hex HB' HI') as [M1 M2].
    split; [apply M2; exact IH1|].
    pose proof (body_inv init st' HL HI') as HI2.
    assert (Ht : exists x, i_trace (ils_body init st') = i_trace st ++ [x]).
    { unfold ils_body. destruct (search _ _ _ _) as [cand w1]. set (blk := if _ <? _ then _ else _).
      destruct blk as [[[[best noimp'] exh] cand'] w2]. eexists. reflexivity. }
    destruct Ht as [x Ht]. rewrite Ht. intros pre y post Eq0.
    destruct (split_snoc _ _ _ _ _ Eq0) as [(-> & -> & _)|(post' & Hp)]; [|exact (IH2 _ _ _ Hp)].
    rewrite (iv_best _ _ HI2), Ht, (iv_best _ _ HI') in M1. cbn [st' set_world i_trace] in M1.
    unfold last_best in M1 at 1. rewrite last_map_app in M1. exact M1.
Qed.
End Ils.
