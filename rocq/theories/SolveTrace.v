(** What happens during a call of solve(): the random numbers, the search method and the penalties go from one
    iteration to the next. *)
From Coq Require Import ZArith Lia List.
From Verif Require Import Base DurationSegment Data Route Cost DataCtor Solution Pm MakeRandom Ils SearchSpace Ops LocalSearch Perturb LocalRun Solve.
Import ListNotations.
Local Open Scope nat_scope.

Section Trace.
Variable d : pdata.
Variable X : Type.
Variable stop : X -> Z -> bool * X.
Variable p : solve_params.
Variable collect_stats : bool.
Variable n : nat.

(** One iteration: the evaluator is that of the penalty manager; the search method is called once, and once more if the
    candidate is a new best solution; the penalty manager is told about the first candidate. *)
Record step_of (se : searcher) (pm : pmanager) (t : @iter solution evaluator) (se' : searcher) (pm' : pmanager) : Prop := mk_step_of {
  so_eval : pm_evaluator pm = Ok (t_eval t);
  so_register : pm_register pm (violations (t_cand t)) = Ok pm';
  so_calls : exists se1, py_call d n se (t_from t) (t_eval t) false = Some (t_cand t, se1) /\
    match t_exh t with
    | None => se' = se1
    | Some c => py_call d n se1 (t_cand t) (t_eval t) true = Some (c, se')
    end }.
Inductive threaded (se0 : searcher) (pm0 : pmanager) : list (@iter solution evaluator) -> searcher -> pmanager -> Prop :=
| threaded_nil : threaded se0 pm0 [] se0 pm0
| threaded_snoc tr t se pm se' pm' : threaded se0 pm0 tr se pm -> step_of se pm t se' pm' -> threaded se0 pm0 (tr ++ [t]) se' pm'.

Notation state := (Solve.state X).
Notation body := (body d X p collect_stats n).
Lemma register_ok w s : w_ok X (w_register X w s) = true -> w_ok X w = true /\ pm_register (w_pm X w) (violations s) = Ok (w_pm X (w_register X w s)) /\
  w_search X (w_register X w s) = w_search X w.
Proof. unfold w_register. destruct (pm_register _ _); cbn; [auto|discriminate]. Qed.
Lemma find_call w s e b : w_ok X (snd (w_find d X n w s e b)) = true -> w_ok X w = true /\
  py_call d n (w_search X w) s e b = Some (fst (w_find d X n w s e b), w_search X (snd (w_find d X n w s e b))) /\
  w_pm X (snd (w_find d X n w s e b)) = w_pm X w /\ (b = false -> is_ok (pm_evaluator (w_pm X w)) = true).
Proof.
  unfold w_find. destruct (py_call _ _ _ _ _ _) as [[s' se']|]; cbn [fst snd w_ok w_search w_pm]; [|discriminate].
  intros H. apply Bool.andb_true_iff in H as [H1 H2]. split; [exact H1|]. split; [reflexivity|]. split; [reflexivity|]. intros ->. exact H2.
Qed.
Lemma body_step init st : w_ok X (i_world (body init st)) = true ->
  w_ok X (i_world st) = true /\ exists t, i_trace (body init st) = i_trace st ++ [t] /\
    step_of (w_search X (i_world st)) (w_pm X (i_world st)) t (w_search X (i_world (body init st))) (w_pm X (i_world (body init st))).
Proof.
  unfold Solve.body, ils_body. cbv zeta.
  set (curr := if _ =? _ then i_best st else i_curr st). set (ev := w_evaluator X (i_world st)).
  pose proof (find_call (i_world st) curr ev false) as C1. destruct (w_find d X n (i_world st) curr ev false) as [cand w1]. cbn [fst snd] in C1.
  pose proof (register_ok w1 cand) as R. set (w2 := w_register X w1 cand) in *.
  destruct (solution_cost ev cand <? solution_cost ev (i_best st))%Z.
  - destruct (ip_exhaustive (sv_ils p)).
    + pose proof (find_call w2 cand ev true) as C2. destruct (w_find d X n w2 cand ev true) as [cand' w3]. cbn [fst snd] in C2. cbn [i_world i_trace]. intros H.
      destruct (C2 H) as (H2 & E2 & P2 & _). destruct (R H2) as (H1 & E1 & P1). destruct (C1 H1) as (H0 & E0 & P0 & V). split; [exact H0|]. eexists. split; [reflexivity|].
      constructor; cbn [t_eval t_cand t_from t_exh].
      * unfold ev, w_evaluator. specialize (V eq_refl). destruct (pm_evaluator (w_pm X (i_world st))); [reflexivity|discriminate].
      * rewrite P2, <- P0. exact E1.
      * exists (w_search X w1). split; [exact E0|]. rewrite <- P1. exact E2.
    + cbn [i_world i_trace]. intros H2. destruct (R H2) as (H1 & E1 & P1). destruct (C1 H1) as (H0 & E0 & P0 & V). split; [exact H0|]. eexists. split; [reflexivity|].
      constructor; cbn [t_eval t_cand t_from t_exh].
      * unfold ev, w_evaluator. specialize (V eq_refl). destruct (pm_evaluator (w_pm X (i_world st))); [reflexivity|discriminate].
      * rewrite <- P0. exact E1.
      * exists (w_search X w1). split; [exact E0|]. exact P1.
  - cbn [i_world i_trace]. intros H2. destruct (R H2) as (H1 & E1 & P1). destruct (C1 H1) as (H0 & E0 & P0 & V). split; [exact H0|]. eexists. split; [reflexivity|].
    constructor; cbn [t_eval t_cand t_from t_exh].
    + unfold ev, w_evaluator. specialize (V eq_refl). destruct (pm_evaluator (w_pm X (i_world st))); [reflexivity|discriminate].
    + rewrite <- P0. exact E1.
    + exists (w_search X w1). split; [exact E0|]. exact P1.
Qed.
Lemma run_ok_start init : forall k st st', run d X stop p collect_stats n k init st = Some st' -> w_ok X (i_world st') = true -> w_ok X (i_world st) = true.
Proof.
  induction k as [|k IH]; intros st st' E H; [discriminate|]. cbn [run] in E. unfold w_stops in E. destruct (stop (w_stop X (i_world st)) (solution_cost (i_eval st) (i_best st))) as [b x]. destruct b.
  - injection E as <-. exact H.
  - apply IH in E; [|exact H]. apply body_step in E as [E _]. exact E.
Qed.
Lemma run_threaded init se0 pm0 : forall k st st', threaded se0 pm0 (i_trace st) (w_search X (i_world st)) (w_pm X (i_world st)) ->
  run d X stop p collect_stats n k init st = Some st' -> w_ok X (i_world st') = true ->
  threaded se0 pm0 (i_trace st') (w_search X (i_world st')) (w_pm X (i_world st')).
Proof.
  induction k as [|k IH]; intros st st' T E H; [discriminate|]. cbn [run] in E. unfold w_stops in E. destruct (stop (w_stop X (i_world st)) (solution_cost (i_eval st) (i_best st))) as [b x]. destruct b.
  - injection E as <-. exact T.
  - apply (IH _ _) in E as R; [exact R| |exact H]. pose proof (run_ok_start _ _ _ _ E H) as Hb. apply body_step in Hb as (_ & t & Et & St). rewrite Et.
    eapply threaded_snoc; [exact T|exact St].
Qed.

(** The solution to start from. *)
Definition starts (seed : Z) (initial : option solution) (init : solution) (se0 : searcher) : Prop :=
  exists se, solve_searcher d seed p = Ok se /\
    match initial with
    | Some s => init = s /\ se0 = se
    | None => exists r random ev, make_random d (se_rng se) = (r, Ok random) /\ pm_max_evaluator (midpoint_manager d (sv_penalty p)) = Ok ev /\
        py_call d n (set_rng se r) random ev true = Some (init, se0)
    end.
Theorem solve_trace k seed initial x o : 0 < ip_history (sv_ils p) -> solve d X stop p collect_stats n k seed initial x = Some (Ok o) ->
  exists se0, starts seed initial (o_init o) se0 /\
    (exists se pm, threaded se0 (midpoint_manager d (sv_penalty p)) (o_trace o) se pm) /\
    o_best o = last_best (o_init o) (o_trace o) /\
    forall pre t post, o_trace o = pre ++ t :: post ->
      iter_ok so_isFeasible solution_cost solution_penalised (w_evaluator X) (w_find d X n) (ip_history (sv_ils p)) (ip_noimp (sv_ils p)) (ip_exhaustive (sv_ils p)) (o_init o) pre t.
Proof.
  intros Hh E. unfold solve in E. destruct (solve_searcher d seed p) as [se|] eqn:Ese; [|discriminate].
  destruct (solve_init d n se (midpoint_manager d (sv_penalty p)) initial) as [[[init se0]|]|] eqn:Ei; try discriminate.
  destruct (pm_evaluator (midpoint_manager d (sv_penalty p))) as [e0|]; [|discriminate].
  set (w0 := mk_world X se0 (midpoint_manager d (sv_penalty p)) x true) in E. set (st0 := ils_init (w_evaluator X) (ip_history (sv_ils p)) init w0) in E.
  destruct (run d X stop p collect_stats n k init st0) as [st|] eqn:Er; [|discriminate]. destruct (w_ok X (i_world st)) eqn:Ew; [|discriminate]. injection E as <-.
  cbn [o_best o_init o_trace]. exists se0. split; [|split].
  - exists se. split; [exact Ese|]. unfold solve_init in Ei. destruct initial as [s|]; [injection Ei as <- <-; auto|].
    destruct (make_random d (se_rng se)) as [r [random|]] eqn:Em; [|discriminate]. destruct (pm_max_evaluator _) as [ev|]; [|discriminate].
    exists r, random, ev. split; [reflexivity|]. split; [reflexivity|]. destruct (py_call d n (set_rng se r) random ev true) as [[s' se']|]; [|discriminate]. cbn in Ei. injection Ei as <- <-. reflexivity.
  - do 2 eexists. apply (run_threaded init se0 _ k st0 st); [constructor|exact Er|exact Ew].
  - pose proof (run_reaches d X stop p collect_stats n init w0 k st0 st (reaches_init _ _ _ _ _ _ _ _ _ _ _ _ _) Er) as (st1 & w1 & R & _ & Q1 & _ & _ & Q4).
    pose proof (reaches_inv _ _ _ _ _ _ _ _ _ _ _ _ _ _ Hh R) as I. rewrite Q1, Q4. split; [exact (iv_best _ _ _ _ _ _ _ _ _ _ _ I)|exact (iv_iter _ _ _ _ _ _ _ _ _ _ _ I)].
Qed.
End Trace.
