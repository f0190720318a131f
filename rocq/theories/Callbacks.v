(** Model of the observers of pyvrp/IteratedLocalSearch.py: the callbacks that the main loop calls, and the lines that
    pyvrp/ProgressPrinter.py logs. *)
From Verif Require Import Base Data RingBuffer Ils.

Section Callbacks.
Context {S E W O : Type}.
Variables (feas : S -> bool) (cost pcost : E -> S -> Z).
Variables (cost_evaluator : W -> E) (search : W -> S -> E -> bool -> S * W) (register : W -> S -> W)
  (stop : W -> Z -> bool * W).
Variables (history_length num_iters_no_improvement : nat) (exhaustive_on_best collect_stats : bool).

(** IteratedLocalSearch.py:23-66: the callbacks, each with an effect on a state [O] of the user's.  [on_start] gets the
    algorithm itself, which the model takes not to be changed by it; [on_end] gets the result. *)
Record callbacks := mk_callbacks {
  on_start : O -> O;
  on_end : S -> list datum -> nat -> O -> O;
  on_iteration : S -> S -> S -> E -> O -> O;
  on_restart : S -> O -> O;
  on_best : S -> O -> O }.
Variable cb : callbacks.

(** ProgressPrinter.py:13-36: what a line says.  Elapsed times are left out; the text is in LogText.v and ResultText.v. *)
Inductive line :=
| LStart
| LIteration (special : bool) (iters : nat) (x : datum)
| LRestart
| LEnd (iters : nat) (best : S).
(** ProgressPrinter.py:53-60.  [clock] has the results of the printer's calls of perf_counter. *)
Record printer := mk_printer { p_reads : nat; p_last : Z; p_best : option Z; p_log : list line }.
Variables (display : bool) (interval : Z) (clock : nat -> Z).
Definition make_printer : printer := mk_printer 1 (clock 0%nat) None [].
Definition log (l : line) (pr : printer) : printer :=
  if display then mk_printer (p_reads pr) (p_last pr) (p_best pr) (p_log pr ++ [l]) else pr.
(** float("inf") is [None]. *)
Definition below (c : Z) (best : option Z) : bool := match best with Some b => c <? b | None => true end.
(** ProgressPrinter.py:62-97 *)
Definition print_iteration (stats : list datum) (pr : printer) : printer :=
  let now := clock (p_reads pr) in
  let reads := Datatypes.S (p_reads pr) in
  if display && collect_stats && (interval <=? now - p_last pr) then
    match rev stats with
    | [] => mk_printer reads (p_last pr) (p_best pr) (p_log pr)
    | x :: _ =>
        let new_best := dt_best_feas x && below (dt_best x) (p_best pr) in
        mk_printer reads now (if new_best then Some (dt_best x) else p_best pr) (p_log pr ++ [LIteration new_best (length stats) x])
    end
  else mk_printer reads (p_last pr) (p_best pr) (p_log pr).

Record observed := mk_observed { b_ils : @ils S E W; b_user : O; b_printer : printer }.

(** IteratedLocalSearch.py:208-222 *)
Definition cb_init (init : S) (w : W) (o : O) : observed :=
  mk_observed (ils_init cost_evaluator history_length init w) (on_start cb o) (log LStart make_printer).

(** Lines 224-284, with the calls that Ils.v leaves out.  *)
Definition cb_body (init : S) (b : observed) : observed :=
  let st := b_ils b in
  let '(history, curr, noimp, o, pr) :=
    if (i_noimp st =? num_iters_no_improvement)%nat
    then (rb_clear (i_history st), i_best st, 0%nat, on_restart cb (i_best st) (b_user b), log LRestart (b_printer b))
    else (i_history st, i_curr st, i_noimp st, b_user b, b_printer b) in
  let ev := cost_evaluator (i_world st) in
  let '(cand, w) := search (i_world st) curr ev false in
  let w := register w cand in
  let first := cand in
  let noimp := Datatypes.S noimp in
  let improves := cost ev cand <? cost ev (i_best st) in
  let '(best, noimp, exh, cand, w, o) :=
    if improves then
      let '(best, exh, cand, w) :=
        if exhaustive_on_best then
          let '(cand', w) := search w cand ev true in ((if feas cand' then cand' else cand), Some cand', cand', w)
        else (cand, None, cand, w) in
      (best, 0%nat, exh, cand, w, on_best cb best o)
    else (i_best st, noimp, None, cand, w, o) in
  let late := rb_peek history in
  let late_cost := match late with Some l => pcost ev l | None => pcost ev init end in
  let from := curr in
  let curr := if (pcost ev cand <? late_cost) || (pcost ev cand <? pcost ev curr) then cand else curr in
  let history := if (pcost ev curr <? late_cost) || negb (is_some late) then rb_append history curr else rb_skip history in
  let stats := if collect_stats
    then i_stats st ++ [mk_datum (pcost ev curr) (feas curr) (pcost ev cand) (feas cand) (pcost ev best) (feas best)] else i_stats st in
  let pr := print_iteration stats pr in
  let o := on_iteration cb curr cand best ev o in
  mk_observed (mk_ils w (Datatypes.S (i_iters st)) noimp best curr history ev stats
    (i_trace st ++ [mk_iter ev ((i_noimp st =? num_iters_no_improvement)%nat) from first improves exh late curr best])) o pr.

Definition cb_set_world (b : observed) (w : W) : observed := mk_observed (set_world (b_ils b) w) (b_user b) (b_printer b).
Inductive cb_reaches (init : S) (w0 : W) (o0 : O) : observed -> Prop :=
| cb_first : cb_reaches init w0 o0 (cb_init init w0 o0)
| cb_step b w : cb_reaches init w0 o0 b -> stop (i_world (b_ils b)) (cost (i_eval (b_ils b)) (i_best (b_ils b))) = (false, w) ->
    cb_reaches init w0 o0 (cb_body init (cb_set_world b w)).
(** Lines 286-292 *)
Definition cb_returns (init : S) (w0 : W) (o0 : O) (best : S) (stats : list datum) (iters : nat) (trace : list iter) (o : O) (lines : list line) : Prop :=
  exists b w, cb_reaches init w0 o0 b /\ stop (i_world (b_ils b)) (cost (i_eval (b_ils b)) (i_best (b_ils b))) = (true, w) /\
    best = i_best (b_ils b) /\ stats = i_stats (b_ils b) /\ iters = i_iters (b_ils b) /\ trace = i_trace (b_ils b) /\
    o = on_end cb best stats iters (b_user b) /\ lines = p_log (log (LEnd iters best) (b_printer b)).

(** ** The search is the one without observers *)
Notation body := (ils_body feas cost pcost cost_evaluator search register num_iters_no_improvement exhaustive_on_best collect_stats).
Lemma body_ils init b : b_ils (cb_body init b) = body init (b_ils b).
Proof.
  unfold cb_body, ils_body. destruct (i_noimp (b_ils b) =? num_iters_no_improvement)%nat;
  (destruct (search _ _ _ false) as [cand w]; destruct (_ <? _); [destruct exhaustive_on_best; [destruct (search _ _ _ true) as [cand' w']|]|]; reflexivity).
Qed.
Lemma observed_reaches init w0 o0 b : cb_reaches init w0 o0 b ->
  reaches feas cost pcost cost_evaluator search register stop history_length num_iters_no_improvement exhaustive_on_best collect_stats init w0 (b_ils b).
Proof.
  induction 1 as [|b w H IH Hs]; [apply reaches_init|]. rewrite body_ils. apply reaches_step; [exact IH|exact Hs].
Qed.
Lemma reaches_observed init w0 o0 st :
  reaches feas cost pcost cost_evaluator search register stop history_length num_iters_no_improvement exhaustive_on_best collect_stats init w0 st ->
  exists b, cb_reaches init w0 o0 b /\ b_ils b = st.
Proof.
  induction 1 as [|st w H (b & Hb & Eb) Hs]; [exists (cb_init init w0 o0); split; [apply cb_first|reflexivity]|].
  exists (cb_body init (cb_set_world b w)). split; [apply cb_step; [exact Hb|rewrite Eb; exact Hs]|]. rewrite body_ils. cbn [cb_set_world b_ils]. rewrite Eb. reflexivity.
Qed.

(** ** What is called *)
Inductive event := Started | Restarted (best : S) | Best (best : S) | Iteration (curr cand best : S) (ev : E) | Ended (best : S) (stats : list datum) (iters : nat).
Definition handle (o : O) (e : event) : O :=
  match e with
  | Started => on_start cb o
  | Restarted best => on_restart cb best o
  | Best best => on_best cb best o
  | Iteration curr cand best ev => on_iteration cb curr cand best ev o
  | Ended best stats iters => on_end cb best stats iters o
  end.
Definition iter_events (x : iter) : list event :=
  (if t_restart x then [Restarted (t_from x)] else []) ++ (if t_improves x then [Best (t_best x)] else []) ++
  [Iteration (t_curr x) (t_final x) (t_best x) (t_eval x)].
Definition events (tr : list iter) : list event := Started :: flat_map iter_events tr.

Lemma body_step init b : exists x, i_trace (b_ils (cb_body init b)) = i_trace (b_ils b) ++ [x] /\
  b_user (cb_body init b) = fold_left handle (iter_events x) (b_user b) /\
  i_stats (b_ils (cb_body init b)) = (if collect_stats then i_stats (b_ils b) ++ [collect feas pcost x] else i_stats (b_ils b)) /\
  b_printer (cb_body init b) = print_iteration (i_stats (b_ils (cb_body init b))) (if t_restart x then log LRestart (b_printer b) else b_printer b).
Proof.
  unfold cb_body. destruct (i_noimp (b_ils b) =? num_iters_no_improvement)%nat eqn:En;
  (destruct (search _ _ _ false) as [cand w]; destruct (_ <? _) eqn:Ei; [destruct exhaustive_on_best; [destruct (search _ _ _ true) as [cand' w']|]|];
   eexists; cbn [b_ils i_trace]; (split; [reflexivity|split; [reflexivity|split; reflexivity]])).
Qed.
Lemma user_is init w0 o0 b : cb_reaches init w0 o0 b -> b_user b = fold_left handle (events (i_trace (b_ils b))) o0.
Proof.
  induction 1 as [|b w H IH Hs]; [reflexivity|]. destruct (body_step init (cb_set_world b w)) as (x & E1 & E2 & _).
  rewrite E2, E1. cbn [cb_set_world b_user b_ils set_world i_trace]. rewrite IH. unfold events. rewrite flat_map_app. cbn [flat_map fold_left].
  rewrite app_nil_r, fold_left_app. reflexivity.
Qed.
Theorem observers init w0 o0 best stats iters trace o lines : cb_returns init w0 o0 best stats iters trace o lines ->
  returns feas cost pcost cost_evaluator search register stop history_length num_iters_no_improvement exhaustive_on_best collect_stats init w0 best stats iters trace /\
  o = fold_left handle (events trace ++ [Ended best stats iters]) o0.
Proof.
  intros (b & w & H & Hs & E1 & E2 & E3 & E4 & E5 & _). split.
  - exists (b_ils b), w. split; [exact (observed_reaches _ _ _ _ H)|]. auto.
  - rewrite fold_left_app, E4, <- (user_is _ _ _ _ H). exact E5.
Qed.
Theorem observable init w0 o0 best stats iters trace :
  returns feas cost pcost cost_evaluator search register stop history_length num_iters_no_improvement exhaustive_on_best collect_stats init w0 best stats iters trace ->
  exists o lines, cb_returns init w0 o0 best stats iters trace o lines.
Proof.
  intros (st & w & H & Hs & E1 & E2 & E3 & E4). destruct (reaches_observed init w0 o0 st H) as (b & Hb & Eb). subst st.
  do 2 eexists. exists b, w. repeat (split; [eassumption|]). split; reflexivity.
Qed.

(** ** The lines *)
Definition shown (ls : list line) : list nat := flat_map (fun l => match l with LIteration _ n _ => [n] | _ => [] end) ls.
Definition starred (ls : list line) : list datum := flat_map (fun l => match l with LIteration true _ x => [x] | _ => [] end) ls.
Definition restarts (ls : list line) : nat := length (filter (fun l => match l with LRestart => true | _ => false end) ls).
(** A line about an iteration is right, given those before it. *)
Record line_ok (stats : list datum) (pre : list line) (special : bool) (n : nat) (x : datum) : Prop := mk_line_ok {
  lo_data : nth_error stats (n - 1) = Some x;
  lo_order : (last (shown pre) 0 < n)%nat;
  lo_time : interval <= clock n - clock (last (shown pre) 0%nat);
  lo_special : special = true <-> dt_best_feas x = true /\ Forall (fun y => dt_best x < dt_best y) (starred pre) }.
Record log_ok (pr : printer) (k : nat) (tr : list (@iter S E)) (stats : list datum) : Prop := mk_log_ok {
  lg_reads : p_reads pr = Datatypes.S (k);
  lg_last : p_last pr = clock (last (shown (p_log pr)) 0%nat);
  lg_latest : (last (shown (p_log pr)) 0 <= k)%nat;
  lg_best : match p_best pr with
            | None => starred (p_log pr) = []
            | Some c => Forall (fun y => c <= dt_best y) (starred (p_log pr)) /\ exists y, In y (starred (p_log pr)) /\ dt_best y = c
            end;
  lg_stats : k = length tr /\ (collect_stats = true -> length stats = k);
  lg_lines : forall pre special n x post, p_log pr = pre ++ LIteration special n x :: post -> line_ok stats pre special n x;
  lg_sorted : forall n, In n (shown (p_log pr)) -> (n <= last (shown (p_log pr)) 0)%nat;
  lg_none : collect_stats = false -> shown (p_log pr) = [];
  lg_silent : display = true -> collect_stats = true -> forall m, (1 <= m <= k)%nat ->
     In m (shown (p_log pr)) \/ clock m - clock (last (filter (fun n => n <? m)%nat (shown (p_log pr))) 0%nat) < interval;
  lg_restarts : display = true -> restarts (p_log pr) = length (filter t_restart tr);
  lg_quiet : display = false -> p_log pr = [];
  lg_start : display = true -> exists more, p_log pr = LStart :: more /\ ~ In LStart more /\ forall n s, ~ In (LEnd n s) more }.

Lemma shown_app l l' : shown (l ++ l') = shown l ++ shown l'.
Proof. apply flat_map_app. Qed.
Lemma starred_app l l' : starred (l ++ l') = starred l ++ starred l'.
Proof. apply flat_map_app. Qed.
Lemma restarts_app l l' : restarts (l ++ l') = (restarts l + restarts l')%nat.
Proof. unfold restarts. rewrite filter_app, app_length. reflexivity. Qed.
Lemma iters_body init b : i_iters (b_ils (cb_body init b)) = Datatypes.S (i_iters (b_ils b)).
Proof.
  rewrite body_ils. unfold ils_body. destruct (search _ _ _ _) as [cand w1]. set (blk := if _ <? _ then _ else _).
  destruct blk as [[[[best noimp'] exh] cand'] w2]. reflexivity.
Qed.
Lemma last_snoc {A} (l : list A) x dft : last (l ++ [x]) dft = x.
Proof. apply last_last. Qed.
Lemma filter_last m l : (forall n, In n l -> (n < m)%nat) -> filter (fun n => n <? m)%nat l = l.
Proof. induction l as [|n l IH]; intros H; [reflexivity|]. cbn [filter]. destruct (Nat.ltb_spec n m); [f_equal; apply IH; intros; apply H; right; assumption|]. specialize (H n (or_introl eq_refl)). lia. Qed.
Lemma nth_error_kept {A} (l : list A) y n x : nth_error l n = Some x -> nth_error (l ++ [y]) n = Some x.
Proof. intros H. rewrite nth_error_app1; [exact H|]. apply nth_error_Some. congruence. Qed.


Lemma log_step pr k tr stats x y : log_ok pr k tr stats ->
  let stats' := if collect_stats then stats ++ [y] else stats in
  log_ok (print_iteration stats' (if t_restart x then log LRestart pr else pr)) (Datatypes.S k) (tr ++ [x]) stats'.
Proof.
  intros [H1 H2 H3 H4 [H5 H6] H7 H8 H9 H10 H11 H12 H13] stats'.
  set (pr0 := if t_restart x then log LRestart pr else pr).
  assert (G : exists R, (R = [] \/ R = [LRestart]) /\ p_log pr0 = p_log pr ++ R /\ p_reads pr0 = p_reads pr /\ p_last pr0 = p_last pr /\ p_best pr0 = p_best pr /\
    (display = false -> R = []) /\ (display = true -> restarts R = if t_restart x then 1%nat else 0%nat)).
  { subst pr0. unfold log. destruct (t_restart x); [destruct display|].
    - exists [LRestart]. cbn. repeat (split; auto). discriminate.
    - exists []. rewrite app_nil_r. repeat (split; auto). discriminate.
    - exists []. rewrite app_nil_r. repeat (split; auto). }
  destruct G as (R & GR & G1 & G2 & G3 & G4 & G5 & G6). clearbody pr0.
  assert (Sh : shown (p_log pr0) = shown (p_log pr)) by (rewrite G1, shown_app; destruct GR as [-> | ->]; apply app_nil_r).
  assert (St : starred (p_log pr0) = starred (p_log pr)) by (rewrite G1, starred_app; destruct GR as [-> | ->]; apply app_nil_r).
  assert (Li : forall pre sp n z post, p_log pr0 = pre ++ LIteration sp n z :: post -> line_ok stats' pre sp n z).
  { intros pre sp n z post E1. assert (E2 : exists post', p_log pr = pre ++ LIteration sp n z :: post').
    { rewrite G1 in E1. destruct GR as [-> | ->]; [rewrite app_nil_r in E1; eauto|].
      destruct (split_snoc _ _ _ _ _ E1) as [(_ & Ex & _)|Ex]; [discriminate|exact Ex]. }
    destruct E2 as [post' E2]. destruct (H7 _ _ _ _ _ E2) as [L1 L2 L3 L4]. constructor; try assumption.
    unfold stats'. destruct collect_stats; [apply nth_error_kept|]; exact L1. }
  assert (Re : display = true -> restarts (p_log pr0) = length (filter t_restart (tr ++ [x]))).
  { intros Hd. rewrite G1, restarts_app, (G6 Hd), (H11 Hd), filter_app, app_length. cbn [filter]. destruct (t_restart x); reflexivity. }
  assert (Qu : display = false -> p_log pr0 = []) by (intros Hd; rewrite G1, (G5 Hd), (H12 Hd); reflexivity).
  assert (Sa : display = true -> exists more, p_log pr0 = LStart :: more /\ ~ In LStart more /\ forall n s, ~ In (LEnd n s) more).
  { intros Hd. destruct (H13 Hd) as (more & M1 & M2 & M3). exists (more ++ R). rewrite G1, M1. split; [reflexivity|].
    split; [|intros n s]; rewrite in_app_iff; (intros [A|A]; [firstorder|destruct GR as [-> | ->]; cbn in A; [exact A|destruct A as [A|A]; [discriminate|exact A]]]). }
  assert (Ln : Datatypes.S k = length (tr ++ [x])) by (rewrite app_length; cbn; lia).
  assert (Le : collect_stats = true -> length stats' = Datatypes.S k).
  { intros Hc. unfold stats'. rewrite Hc, app_length, (H6 Hc). cbn. lia. }
  set (now := clock (p_reads pr0)). assert (Enow : now = clock (Datatypes.S k)) by (unfold now; rewrite G2, H1; reflexivity).
  unfold print_iteration. fold now.
  destruct (display && collect_stats && (interval <=? now - p_last pr0)) eqn:Ep.
  - apply andb_prop in Ep. destruct Ep as [Ep Et]. apply andb_prop in Ep. destruct Ep as [Ed Ec]. apply Z.leb_le in Et.
    assert (Erev : rev stats' = y :: rev stats) by (unfold stats'; rewrite Ec, rev_app_distr; reflexivity). rewrite Erev.
    set (nb := dt_best_feas y && below (dt_best y) (p_best pr0)). specialize (Le Ec). rewrite Le.
    assert (Snb : nb = true <-> dt_best_feas y = true /\ Forall (fun z => dt_best y < dt_best z) (starred (p_log pr0))).
    { unfold nb. rewrite andb_true_iff, St, G4. apply and_iff_compat_l. destruct (p_best pr) as [c|]; cbn [below].
      - destruct H4 as [F (z & Hz & Ez)]. rewrite Z.ltb_lt. split; [intros Hc; eapply Forall_impl; [|exact F]; cbn; intros; lia|].
        intros Ha. rewrite Forall_forall in Ha. specialize (Ha z Hz). lia.
      - rewrite H4. split; [constructor|reflexivity]. }
    constructor; cbn [p_reads p_last p_best p_log]; rewrite ?shown_app, ?starred_app; cbn [shown flat_map app]; rewrite ?last_snoc.
    + rewrite G2, H1. reflexivity.
    + exact Enow.
    + lia.
    + destruct nb eqn:En; cbn [starred flat_map app].
      * split; [|exists y; split; [apply in_or_app; right; left; reflexivity|reflexivity]]. apply Forall_app. split; [|constructor; [lia|constructor]].
        destruct (proj1 Snb eq_refl) as [_ F]. eapply Forall_impl; [|exact F]. cbn. intros; lia.
      * rewrite app_nil_r, G4, St. exact H4.
    + split; [exact Ln|intros _; exact Le].
    + intros pre sp n z post E1. destruct (split_snoc _ _ _ _ _ E1) as [(-> & Ex & _)|[post' Ex]]; [|exact (Li _ _ _ _ _ Ex)].
      injection Ex as -> -> ->. constructor.
      * replace (Datatypes.S k - 1)%nat with k by lia. unfold stats'. rewrite Ec, nth_error_app2; rewrite (H6 Ec); [|lia]. rewrite Nat.sub_diag. reflexivity.
      * rewrite Sh. lia.
      * rewrite Sh, <- H2, <- Enow, <- G3. exact Et.
      * exact Snb.
    + intros n Hn. apply in_app_or in Hn. destruct Hn as [Hn|[<-|[]]]; [|lia]. rewrite Sh in Hn. specialize (H8 n Hn). lia.
    + congruence.
    + intros _ _ m Hm. rewrite Sh. destruct (Nat.eq_dec m (Datatypes.S k)) as [-> |Nm]; [left; apply in_or_app; right; left; reflexivity|].
      destruct (H10 Ed Ec m ltac:(lia)) as [A|A]; [left; apply in_or_app; left; exact A|]. right. rewrite filter_app. cbn [filter].
      destruct (Nat.ltb_spec (Datatypes.S k) m); [lia|]. rewrite app_nil_r. exact A.
    + intros Hd. rewrite restarts_app. cbn. rewrite Nat.add_0_r. exact (Re Hd).
    + congruence.
    + intros Hd. destruct (Sa Hd) as (more & M1 & M2 & M3). exists (more ++ [LIteration nb (Datatypes.S k) y]). rewrite M1. split; [reflexivity|].
      split; [|intros n s]; rewrite in_app_iff; (intros [A|[A|[]]]; [firstorder|discriminate]).
  - constructor; cbn [p_reads p_last p_best p_log]; rewrite ?Sh, ?St, ?G4, ?G3.
    + rewrite G2, H1. reflexivity.
    + exact H2.
    + lia.
    + exact H4.
    + split; assumption.
    + exact Li.
    + exact H8.
    + exact H9.
    + intros Hd Hc m Hm. destruct (Nat.eq_dec m (Datatypes.S k)) as [-> |Nm]; [|apply (H10 Hd Hc m ltac:(lia))].
      right. rewrite Hd, Hc in Ep. cbn [andb] in Ep. apply Z.leb_gt in Ep. rewrite filter_last; [|intros n Hn; specialize (H8 n Hn); lia].
      rewrite <- H2, <- Enow, <- G3. exact Ep.
    + exact Re.
    + exact Qu.
    + exact Sa.
Qed.
Lemma log_reaches init w0 o0 b : cb_reaches init w0 o0 b -> log_ok (b_printer b) (i_iters (b_ils b)) (i_trace (b_ils b)) (i_stats (b_ils b)).
Proof.
  induction 1 as [|b w H IH Hs].
  - unfold cb_init, log, make_printer. cbn [b_printer b_ils ils_init i_iters i_trace i_stats]. destruct display eqn:Ed.
    + constructor; cbn; [reflexivity|reflexivity|lia|reflexivity|split; reflexivity| |intros n []|reflexivity|intros; lia|reflexivity|congruence|].
      * intros [|l pre] sp n x post E1; [discriminate|]. cbn in E1. injection E1 as _ E1. destruct pre; discriminate.
      * intros _. exists []. split; [reflexivity|]. split; [auto|intros n s []].
    + constructor; cbn; [reflexivity|reflexivity|lia|reflexivity|split; reflexivity| |intros n []|reflexivity|congruence|congruence|reflexivity|congruence].
      intros [|l pre] sp n x post E1; discriminate.
  - destruct (body_step init (cb_set_world b w)) as (x & E1 & _ & E3 & E4). rewrite E4, E1, E3, iters_body. exact (log_step _ _ _ _ x _ IH).
Qed.

Theorem lines_are init w0 o0 best stats iters trace o lines : cb_returns init w0 o0 best stats iters trace o lines ->
  iters = length trace /\
  (display = false -> lines = []) /\
  (display = true -> exists middle, lines = LStart :: middle ++ [LEnd iters best] /\ (forall l, In l middle -> l = LRestart \/ exists sp n x, l = LIteration sp n x) /\
     restarts middle = length (filter t_restart trace)) /\
  (forall pre sp n x post, lines = pre ++ LIteration sp n x :: post -> line_ok stats pre sp n x) /\
  (collect_stats = false -> shown lines = []) /\
  (display = true -> collect_stats = true -> forall m, (1 <= m <= iters)%nat ->
     In m (shown lines) \/ clock m - clock (last (filter (fun n => n <? m)%nat (shown lines)) 0%nat) < interval).
Proof.
  intros (b & w & H & _ & -> & -> & -> & -> & _ & ->). destruct (log_reaches _ _ _ _ H) as [_ _ _ _ [H5 H6] H7 H8 H9 H10 H11 H12 H13].
  split; [exact H5|]. unfold log. destruct display eqn:Ed; cbn [p_log].
  - assert (Sh : shown (p_log (b_printer b) ++ [LEnd (i_iters (b_ils b)) (i_best (b_ils b))]) = shown (p_log (b_printer b))) by (rewrite shown_app; apply app_nil_r).
    split; [discriminate|]. split; [|split; [|rewrite Sh; split; assumption]].
    + intros _. destruct (H13 eq_refl) as (more & M1 & M2 & M3). exists more. rewrite M1. split; [reflexivity|]. split.
      * intros [|sp n x| |n s] Hl; [contradiction|right; eauto|left; reflexivity|destruct (M3 n s Hl)].
      * rewrite <- (H11 eq_refl), M1. reflexivity.
    + intros pre sp n x post E1. destruct (split_snoc _ _ _ _ _ E1) as [(_ & Ex & _)|[post' Ex]]; [discriminate|exact (H7 _ _ _ _ _ Ex)].
  - split; [exact H12|]. split; [discriminate|]. split; [exact H7|]. split; [exact H9|discriminate].
Qed.
(** Without an interval, and with a clock that does not run backwards, each iteration has a line. *)
Theorem every_line init w0 o0 best stats iters trace o lines : cb_returns init w0 o0 best stats iters trace o lines ->
  display = true -> collect_stats = true -> interval = 0 -> (forall m n, (m <= n)%nat -> clock m <= clock n) -> forall m, (1 <= m <= iters)%nat -> In m (shown lines).
Proof.
  intros H Hd Hc Hi Hm m Hm'. destruct (lines_are _ _ _ _ _ _ _ _ _ H) as (_ & _ & _ & _ & _ & A). destruct (A Hd Hc m Hm') as [B|B]; [exact B|].
  exfalso. rewrite Hi in B. set (l := filter (fun n => n <? m)%nat (shown lines)) in B.
  assert (L : (last l 0 <= m)%nat).
  { assert (F : forall n, In n l -> (n <= m)%nat) by (intros n Hn; apply filter_In in Hn; destruct Hn as [_ Hn]; apply Nat.ltb_lt in Hn; lia).
    clearbody l. clear - F. induction l as [|a l IH]; [cbn; lia|]. destruct l as [|c l]; [apply F; left; reflexivity|]. apply IH. intros; apply F; right; assumption. }
  specialize (Hm _ _ L). lia.
Qed.

(** The arguments of on_best and on_restart. *)
Definition best_calls (es : list event) : list S := flat_map (fun e => match e with Best s => [s] | _ => [] end) es.
Definition restart_calls (es : list event) : list S := flat_map (fun e => match e with Restarted s => [s] | _ => [] end) es.
Definition iteration_calls (es : list event) : nat := length (filter (fun e => match e with Iteration _ _ _ _ => true | _ => false end) es).
Lemma best_calls_events tr : best_calls (events tr) = flat_map (fun x => if t_improves x then [t_best x] else []) tr.
Proof.
  unfold events, best_calls. cbn [flat_map app]. induction tr as [|x tr IH]; [reflexivity|]. cbn [flat_map]. rewrite flat_map_app, IH. f_equal.
  unfold iter_events. destruct (t_restart x), (t_improves x); reflexivity.
Qed.
Lemma iteration_calls_events tr : iteration_calls (events tr) = length tr.
Proof.
  unfold events, iteration_calls. cbn [filter]. induction tr as [|x tr IH]; [reflexivity|]. cbn [flat_map]. rewrite filter_app, app_length, IH.
  unfold iter_events. destruct (t_restart x), (t_improves x); reflexivity.
Qed.
End Callbacks.

(** ** The arguments of on_best *)
Section Bests.
Context {S E W : Type}.
Variables (feas : S -> bool) (cost pcost : E -> S -> Z).
Variables (cost_evaluator : W -> E) (search : W -> S -> E -> bool -> S * W) (register : W -> S -> W)
  (stop : W -> Z -> bool * W).
Variables (history_length num_iters_no_improvement : nat) (exhaustive_on_best collect_stats : bool).
Variables (good : S -> Prop) (good_ev : E -> Prop) (obj : S -> Z) (okw : W -> Prop).
Hypothesis Hcost : forall e s, good_ev e -> good s -> cost e s = value feas obj s.
Hypothesis Hfinite : forall s, good s -> feas s = true -> obj s < MAXV.
Hypothesis Heval : forall w, okw w -> good_ev (cost_evaluator w).
Hypothesis Hsearch : forall w s e b, okw w -> good s -> good_ev e -> good (fst (search w s e b)) /\ okw (snd (search w s e b)).
Hypothesis Hregister : forall w s, okw w -> good s -> okw (register w s).
Hypothesis Hstop : forall w c, okw w -> okw (snd (stop w c)).
Hypothesis Hlength : (0 < history_length)%nat.
Hypothesis Hexhaustive : exhaustive_sane feas search good good_ev obj okw.

Definition bests (tr : list (@iter S E)) : list S := flat_map (fun x => if t_improves x then [t_best x] else []) tr.
Lemma bests_last init tr : (forall pre x post, tr = pre ++ x :: post -> iter_ok feas cost pcost cost_evaluator search history_length num_iters_no_improvement exhaustive_on_best init pre x) ->
  last (init :: bests tr) init = last_best init tr.
Proof.
  induction tr as [|x tr IH] using rev_ind; intros H; [reflexivity|]. unfold bests, last_best. rewrite flat_map_app, last_map_app. cbn [flat_map].
  pose proof (io_best _ _ _ _ _ _ _ _ _ _ _ (H tr x [] eq_refl)) as Hb. fold (bests tr). rewrite app_nil_r.
  destruct (t_improves x) eqn:Ei; [rewrite app_comm_cons; apply last_last|]. rewrite app_nil_r, Hb. apply IH. intros pre y post Hp. apply (H pre y (post ++ [x])). rewrite Hp, <- app_assoc. reflexivity.
Qed.

Fixpoint falling (from : Z) (l : list S) : Prop :=
  match l with [] => True | s :: more => feas s = true /\ value feas obj s < from /\ falling (value feas obj s) more end.
Lemma last_any {A} (l : list A) x a b : last (x :: l) a = last (x :: l) b.
Proof. revert x. induction l as [|y l IH]; intros x; [reflexivity|]. exact (IH y). Qed.
Lemma falling_snoc s : feas s = true -> forall l from, falling from l -> value feas obj s < last (map (value feas obj) l) from -> falling from (l ++ [s]).
Proof.
  intros Hs. induction l as [|a l IH]; intros from Hl Hlast; cbn [app falling] in *; [auto|]. destruct Hl as (A1 & A2 & A3). split; [exact A1|]. split; [exact A2|].
  apply (IH _ A3). destruct l as [|c l]; [exact Hlast|]. cbn [map] in *. rewrite (last_any _ _ _ from). exact Hlast.
Qed.
Theorem bests_fall init w0 st : good init -> okw w0 ->
  reaches feas cost pcost cost_evaluator search register stop history_length num_iters_no_improvement exhaustive_on_best collect_stats init w0 st ->
  falling (value feas obj init) (bests (i_trace st)).
Proof.
  intros Hg Hw H. induction H as [|st w H IH Hs]; [exact I|].
  pose proof (reaches_inv _ _ _ _ _ _ _ _ _ _ _ init w0 st Hlength H) as HI.
  assert (H' := reaches_step _ _ _ _ _ _ _ _ _ _ _ init w0 st w H Hs).
  pose proof (reaches_inv _ _ _ _ _ _ _ _ _ _ _ init w0 _ Hlength H') as HI'.
  pose proof (reaches_best feas cost pcost cost_evaluator search register stop history_length num_iters_no_improvement exhaustive_on_best collect_stats
    good good_ev obj Hcost Hfinite okw Heval Hsearch Hregister Hstop init w0 _ Hg Hw H') as HB'.
  pose proof (reaches_best feas cost pcost cost_evaluator search register stop history_length num_iters_no_improvement exhaustive_on_best collect_stats
    good good_ev obj Hcost Hfinite okw Heval Hsearch Hregister Hstop init w0 _ Hg Hw H) as HB.
  destruct (best_is_minimal feas cost pcost cost_evaluator search register stop history_length num_iters_no_improvement exhaustive_on_best collect_stats
    good good_ev obj Hcost Hfinite okw Heval Hsearch Hregister Hstop init w0 _ Hlength Hexhaustive Hg Hw H') as [M _].
  set (st' := ils_body _ _ _ _ _ _ _ _ _ init (set_world st w)) in *.
  assert (Ht : exists x, i_trace st' = i_trace st ++ [x]).
  { unfold st', ils_body. destruct (search _ _ _ _) as [cand w1]. set (blk := if _ <? _ then _ else _).
    destruct blk as [[[[best noimp'] exh] cand'] w2]. eexists. reflexivity. }
  destruct Ht as [x Ht]. clearbody st'. pose proof (iv_iter _ _ _ _ _ _ _ _ _ _ _ HI' (i_trace st) x [] Ht) as Hx.
  rewrite Ht. unfold bests. rewrite flat_map_app. cbn [flat_map]. rewrite app_nil_r. fold (bests (i_trace st)).
  destruct (t_improves x) eqn:Ei; [|rewrite app_nil_r; exact IH].
  assert (Eb : i_best st' = t_best x) by (rewrite (iv_best _ _ _ _ _ _ _ _ _ _ _ HI'), Ht; apply last_map_app).
  pose proof (proj1 (io_improves _ _ _ _ _ _ _ _ _ _ _ Hx) Ei) as Hlt.
  pose proof (bi_trace _ _ _ _ _ _ _ HB') as Htr. rewrite Ht in Htr. apply Forall_app in Htr. destruct Htr as [_ Htr]. inversion Htr as [|? ? [Hev _] _]; subst. clear Htr.
  assert (Hin : In (t_cand x) (init :: candidates (i_trace st'))).
  { right. rewrite Ht. unfold candidates. rewrite flat_map_app. apply in_or_app. right. left. reflexivity. }
  assert (Hgc : good (t_cand x)) by (destruct Hin as [<-|Hin]; [exact Hg|]; exact (proj1 (Forall_forall _ _) (bi_good_cands _ _ _ _ _ _ _ HB') _ Hin)).
  rewrite <- (iv_best _ _ _ _ _ _ _ _ _ _ _ HI) in Hlt. pose proof (bi_good_best _ _ _ _ _ _ _ HB) as Hgb.
  rewrite (Hcost _ _ Hev Hgc), (Hcost _ _ Hev Hgb) in Hlt. specialize (M _ Hin). rewrite Eb in M.
  assert (Hf : feas (t_best x) = true).
  { assert (V : value feas obj (t_best x) < value feas obj (i_best st)) by lia. unfold value in V. destruct (feas (t_best x)); [reflexivity|].
    destruct (feas (i_best st)) eqn:Ef; [pose proof (Hfinite _ Hgb Ef); lia|lia]. }
  apply falling_snoc; [exact Hf|exact IH|].
  assert (El : last (map (value feas obj) (bests (i_trace st))) (value feas obj init) = value feas obj (i_best st)).
  { rewrite (iv_best _ _ _ _ _ _ _ _ _ _ _ HI), <- (bests_last init (i_trace st) (iv_iter _ _ _ _ _ _ _ _ _ _ _ HI)).
    generalize (bests (i_trace st)) as l. clear. intros l. revert init. induction l as [|a l IH]; intros init; [reflexivity|].
    change (last (init :: a :: l) init) with (last (a :: l) init). rewrite (last_any l a init a), <- (IH a). cbn [map]. destruct l as [|c l]; [reflexivity|].
    exact (last_any (map (value feas obj) l) (value feas obj c) (value feas obj init) (value feas obj a)). }
  rewrite El. lia.
Qed.
End Bests.
