(** Model of the statistics of the local search: LocalSearch::statistics() and the operators' own counts, LocalSearch.cpp:395-412 and
    LocalSearchOperator.h:26-80.  The functions follow those of LocalSearch.v and carry the counts along; [counted_call] below
    is a call of the search with its statistics. *)
From Coq Require Import Permutation.
From Verif Require Import Base DurationSegment Data LoadSegment SearchRoute Valid ProposalRest Route RouteSpec Cost CostFacts Solution SolutionFacts SolutionFacts2 SearchSpace Perturb
  SearchNodes SearchSeq SearchLoad Ops PlanFacts OpsBase OpsAll LocalSearch LocalFacts LocalTerm LocalInsert LocalEnsure LocalRun.
Local Open Scope nat_scope.

(** LocalSearchOperator.h:26-30 *)
Record ocount := mk_ocount { oc_evals : nat; oc_apps : nat }.
(** The search with the counts of its operators, in the order of the operators. *)
Record counted := mk_counted { co_st : lstate; co_unary : list ocount; co_binary : list ocount }.
Definition with_st (x : counted) (st : lstate) : counted := mk_counted st (co_unary x) (co_binary x).
(** evaluate() and apply() of every operator begin by counting: Relocate.h:89 and 158, SwapTails.cpp:27 and 103, and so on. *)
Definition evaluated (c : ocount) : ocount := mk_ocount (oc_evals c + 1) (oc_apps c).
Definition applied (c : ocount) : ocount := mk_ocount (oc_evals c) (oc_apps c + 1).

Section Counted.
Variable d : pdata.
Variable ev : evaluator.
Variable uops : list unary.
Variable bops : list binary.

(** LocalSearch.cpp:119-163: the operators are evaluated up to the first with a move to apply. *)
Fixpoint count_unary (s : sstate) (ops : list unary) (cs : list ocount) (u : activity) : list ocount :=
  match ops, cs with
  | o :: ops, c :: cs =>
      let '(delta, apply, m) := eval_unary d ev o s u in
      if apply then applied (evaluated c) :: cs else evaluated c :: count_unary s ops cs u
  | _, _ => cs
  end.
Definition c_unary_ops (x : counted) (u : activity) : counted :=
  mk_counted (apply_unary_ops d ev uops (co_st x) u) (count_unary (l_sol (co_st x)) uops (co_unary x) u) (co_binary x).
(** LocalSearch.cpp:165-209 *)
Fixpoint count_binary (s : sstate) (ops : list binary) (rcs : list rcache) (cs : list ocount) (u : activity) (v : vref) : list ocount :=
  match ops, rcs, cs with
  | o :: ops, rc :: rcs, c :: cs =>
      let '((delta, apply, m), rc) := eval_binary d ev o s rc u v in
      if apply then applied (evaluated c) :: cs else evaluated c :: count_binary s ops rcs cs u v
  | _, _, _ => cs
  end.
Definition c_binary_ops (x : counted) (u : activity) (v : vref) : bool * counted :=
  let '(b, st) := apply_binary_ops d ev bops (co_st x) u v in
  (b, mk_counted st (co_unary x) (count_binary (l_sol (co_st x)) bops (l_rcs (co_st x)) (co_binary x) u v)).

(** LocalSearch.cpp:211-228 *)
Fixpoint c_empty_moves (x : counted) (u : activity) (types : list (nat * nat)) : counted :=
  match types with
  | [] => x
  | (t, off) :: more =>
      match first_empty (l_sol (co_st x)) off (avail d t) with
      | None => c_empty_moves x u more
      | Some r =>
          let '(done, x) := c_binary_ops x u (VStart r) in
          if done then x else c_empty_moves x u more
      end
  end.
(** LocalSearch.cpp:81-103 *)
Definition c_test_neighbour (lastTest : Z) (u : activity) (x : counted) (v : activity) : option counted :=
  let st := co_st x in
  if has_node d v then
    match find_act v (l_plan st) with
    | None => Some x
    | Some (rv, pv) =>
        let uUpdate := match home (l_plan st) u with Some r => nth r (l_upd st) 0%Z | None => 0%Z end in
        if (lastTest <? uUpdate)%Z || (lastTest <? nth rv (l_upd st) 0)%Z then
          let '(done, x) := c_binary_ops x u (VAct v) in
          if negb done && (pv =? 1) then Some (snd (c_binary_ops x u (VStart rv))) else Some x
        else Some x
    end
  else None.
Fixpoint c_test_neighbours (lastTest : Z) (u : activity) (x : counted) (vs : list activity) : option counted :=
  match vs with
  | [] => Some x
  | v :: more => match c_test_neighbour lastTest u x v with Some x => c_test_neighbours lastTest u x more | None => None end
  end.
(** LocalSearch.cpp:65-106 *)
Definition c_visit_act (x : counted) (u : activity) : option counted :=
  let st := co_st x in
  if is_promising (l_space st) u then
    let lastTest := nth (test_index d u) (l_test st) 0%Z in
    let x := with_st x (with_test st (upd (l_test st) (test_index d u) (l_num st))) in
    let x := c_unary_ops x u in
    match neighbours_of (l_space (co_st x)) u with
    | Err _ => None
    | Ok vs =>
        match c_test_neighbours lastTest u x vs with
        | Some x => Some (c_empty_moves x u (ss_vehOrder (l_space (co_st x))))
        | None => None
        end
    end
  else Some x.
Fixpoint c_visit_all (x : counted) (us : list activity) : option counted :=
  match us with
  | [] => Some x
  | u :: more => match c_visit_act x u with Some x => c_visit_all x more | None => None end
  end.
(** LocalSearch.cpp:54-108; the counts stay as they are when the search ends. *)
Fixpoint c_search_loop (n : nat) (x : counted) : outcome * counted :=
  if l_done (co_st x) then (Finished (co_st x), x)
  else
    match n with
    | O => (Unfinished, x)
    | S n' =>
        match c_visit_all (with_st x (with_done (co_st x) true)) (ss_order (l_space (co_st x))) with
        | Some x => c_search_loop n' x
        | None => (Crashed, x)
        end
    end.
Definition c_search (n : nat) (x : counted) : outcome * counted :=
  match uops, bops with
  | [], [] => (Finished (co_st x), x)
  | _, _ => c_search_loop n (with_st x (with_done (co_st x) false))
  end.

(** LocalSearch.h:57-67 and LocalSearch.cpp:395-412, for operators that were added once. *)
Record lstats := mk_lstats { ls_moves : nat; ls_improving : nat; ls_updates : Z }.
Definition evals (x : counted) : nat := list_sum (map oc_evals (co_unary x ++ co_binary x)).
Definition apps (x : counted) : nat := list_sum (map oc_apps (co_unary x ++ co_binary x)).
Definition statistics (x : counted) : lstats := mk_lstats (evals x) (apps x) (l_num (co_st x)).
(** LocalSearch.cpp:17-52 with the statistics afterwards; init() has set the counts of the operators to zero
    (LocalSearchOperator.h:65-68). *)
Definition counted_call (n num : nat) (exhaustive : bool) (sp : space) (sol : solution) : ls_result * option (lstats * counted) :=
  match ls_prepare d ev num exhaustive (ls_start d bops sp sol) with
  | None => (Dies, None)
  | Some st =>
      match ensure d ev st with
      | None => (Dies, None)
      | Some st =>
          let zero := mk_ocount 0 0 in
          let '(r, x) := c_search n (mk_counted st (map (fun _ => zero) uops) (map (fun _ => zero) bops)) in
          match r with
          | Crashed => (Dies, None)
          | Unfinished => (Waits, None)
          | Finished st =>
              match unload_sol d (l_sol st) with
              | Ok sol => (Returns sol (l_space st), Some (statistics x, x))
              | Err e => (Throws e, None)
              end
          end
      end
  end.

(** ** Counting does not change the search *)
Lemma c_binary_st x u v : let '(b, x') := c_binary_ops x u v in apply_binary_ops d ev bops (co_st x) u v = (b, co_st x').
Proof. unfold c_binary_ops. destruct (apply_binary_ops d ev bops (co_st x) u v) as [b st]. reflexivity. Qed.
Lemma c_empty_st u types : forall x, co_st (c_empty_moves x u types) = empty_moves d ev bops (co_st x) u types.
Proof.
  induction types as [|[t o] types IH]; intros x; cbn [c_empty_moves empty_moves]; [reflexivity|]. destruct (first_empty _ _ _) as [r|]; [|apply IH].
  pose proof (c_binary_st x u (VStart r)) as E. destruct (c_binary_ops x u (VStart r)) as [b x']. rewrite E. destruct b; [reflexivity|apply IH].
Qed.
Lemma c_neighbour_st lt u x v : option_map co_st (c_test_neighbour lt u x v) = test_neighbour d ev bops lt u (co_st x) v.
Proof.
  unfold c_test_neighbour, test_neighbour. destruct (has_node d v); [|reflexivity]. destruct (find_act v (l_plan (co_st x))) as [[rv pv]|]; [|reflexivity].
  destruct (_ || _); [|reflexivity]. pose proof (c_binary_st x u (VAct v)) as E. destruct (c_binary_ops x u (VAct v)) as [b x']. rewrite E.
  destruct (negb b && (pv =? 1)); [|reflexivity]. pose proof (c_binary_st x' u (VStart rv)) as E'. destruct (c_binary_ops x' u (VStart rv)) as [b' x'']. rewrite E'. reflexivity.
Qed.
Lemma c_neighbours_st lt u vs : forall x, option_map co_st (c_test_neighbours lt u x vs) = test_neighbours d ev bops lt u (co_st x) vs.
Proof.
  induction vs as [|v vs IH]; intros x; cbn [c_test_neighbours test_neighbours]; [reflexivity|]. rewrite <- c_neighbour_st.
  destruct (c_test_neighbour lt u x v) as [x'|]; [apply IH|reflexivity].
Qed.
Lemma c_visit_st x u : option_map co_st (c_visit_act x u) = visit_act d ev uops bops (co_st x) u.
Proof.
  unfold c_visit_act, visit_act. destruct (is_promising (l_space (co_st x)) u); [|reflexivity]. cbn [co_st c_unary_ops with_st].
  destruct (neighbours_of _ u) as [vs|e]; [|reflexivity].
  match goal with |- context [c_test_neighbours ?lt u ?y vs] => pose proof (c_neighbours_st lt u vs y) as E; set (z := y) in * end.
  change (co_st z) with (apply_unary_ops d ev uops (with_test (co_st x) (upd (l_test (co_st x)) (test_index d u) (l_num (co_st x)))) u) in E.
  rewrite <- E. destruct (c_test_neighbours _ u z vs) as [x'|]; [|reflexivity]. cbn [option_map]. rewrite c_empty_st. reflexivity.
Qed.
Lemma c_visits_st us : forall x, option_map co_st (c_visit_all x us) = visit_all d ev uops bops (co_st x) us.
Proof.
  induction us as [|u us IH]; intros x; cbn [c_visit_all visit_all]; [reflexivity|]. rewrite <- c_visit_st. destruct (c_visit_act x u) as [x'|]; [apply IH|reflexivity].
Qed.
Lemma c_loop_st n : forall x, fst (c_search_loop n x) = search_loop d ev uops bops n (co_st x) /\ forall st, fst (c_search_loop n x) = Finished st -> co_st (snd (c_search_loop n x)) = st.
Proof.
  induction n as [|n IH]; intros x; cbn [c_search_loop search_loop]; destruct (l_done (co_st x)); cbn [fst snd].
  - split; [reflexivity|]. intros st [= <-]. reflexivity.
  - split; [reflexivity|discriminate].
  - split; [reflexivity|]. intros st [= <-]. reflexivity.
  - pose proof (c_visits_st (ss_order (l_space (co_st x))) (with_st x (with_done (co_st x) true))) as E. cbn [co_st with_st] in E. rewrite <- E.
    destruct (c_visit_all _ _) as [x'|]; [apply IH|]. split; [reflexivity|discriminate].
Qed.
Lemma c_search_st n x : fst (c_search n x) = search d ev uops bops n (co_st x) /\ forall st, fst (c_search n x) = Finished st -> co_st (snd (c_search n x)) = st.
Proof.
  unfold c_search, search. destruct uops eqn:Eu; [destruct bops eqn:Eb|]; cbn [fst snd].
  - split; [reflexivity|]. intros st [= <-]. reflexivity.
  - rewrite <- Eu, <- Eb. apply (c_loop_st n (with_st x (with_done (co_st x) false))).
  - rewrite <- Eu. apply (c_loop_st n (with_st x (with_done (co_st x) false))).
Qed.
Theorem counted_call_st n num exhaustive sp sol : fst (counted_call n num exhaustive sp sol) = ls_call d ev uops bops n num exhaustive sp sol.
Proof.
  unfold counted_call, ls_call. destruct (ls_prepare _ _ _ _ _) as [st|]; [|reflexivity]. destruct (ensure d ev st) as [st1|]; [|reflexivity]. cbv zeta.
  match goal with |- context [c_search n ?y] => pose proof (proj1 (c_search_st n y)) as E; destruct (c_search n y) as [r x] end. cbn [fst co_st] in E. rewrite <- E.
  destruct r as [st2| |]; try reflexivity. destruct (unload_sol d (l_sol st2)); reflexivity.
Qed.
End Counted.
