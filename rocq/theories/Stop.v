(** Model of pyvrp/stop/*.py and proof of when the criteria stop. *)
From Verif Require Import Base Data.

(** The criteria with their state.  Times (MaxRuntime.py) are readings of a clock in some fixed
    unit; the code uses floating point seconds. *)
Inductive criterion :=
| FirstFeasible                                              (* FirstFeasible.py:6-16 *)
| MaxIterations (max curr : Z)                               (* MaxIterations.py:6-11 *)
| MaxRuntime (max : Z) (start : option Z)                    (* MaxRuntime.py:9-14 *)
| NoImprovement (max : Z) (target : option Z) (counter : Z)  (* NoImprovement.py:12-18 *)
| MultipleCriteria (criteria : list criterion).              (* MultipleCriteria.py:9-13 *)

(** The constructors; they raise ValueError. *)
Definition make_max_iterations (n : Z) : res criterion :=
  if n <? 0 then Err InvalidArgument else Ok (MaxIterations n 0).
Definition make_max_runtime (t : Z) : res criterion :=
  if t <? 0 then Err InvalidArgument else Ok (MaxRuntime t None).
Definition make_no_improvement (n : Z) : res criterion :=
  if n <? 0 then Err InvalidArgument else Ok (NoImprovement n None 0).
Definition make_multiple (cs : list criterion) : res criterion :=
  match cs with [] => Err InvalidArgument | _ => Ok (MultipleCriteria cs) end.

(** One call; the clock shows [now] throughout the call (the code reads it up to twice per
    criterion).  [any] over a generator (MultipleCriteria.py:16) stops calling at the first
    criterion that answers [True]. *)
Fixpoint call (now best : Z) (c : criterion) : criterion * bool :=
  match c with
  | FirstFeasible => (FirstFeasible, best <? MAXV)
  | MaxIterations max curr => let curr := curr + 1 in (MaxIterations max curr, curr >? max)
  | MaxRuntime max start =>
      let start := match start with None => now | Some s => s end in
      (MaxRuntime max (Some start), now - start >? max)
  | NoImprovement max target counter =>
      let improved := match target with None => true | Some t => best <? t end in
      let '(target, counter) := if improved then (Some best, 0) else (target, counter + 1) in
      (NoImprovement max target counter, counter >=? max)
  | MultipleCriteria cs =>
      let fix any (cs : list criterion) : list criterion * bool :=
        match cs with
        | [] => ([], false)
        | c :: more =>
            let '(c, stop) := call now best c in
            if stop then (c :: more, true)
            else let '(more, stop) := any more in (c :: more, stop)
        end in
      let '(cs, stop) := any cs in (MultipleCriteria cs, stop)
  end.

(** A sequence of calls (clock, best cost): the answers. *)
Fixpoint answers (c : criterion) (calls : list (Z * Z)) : list bool :=
  match calls with
  | [] => []
  | (now, best) :: more => let '(c, stop) := call now best c in stop :: answers c more
  end.
Definition after (c : criterion) (calls : list (Z * Z)) : criterion :=
  fold_left (fun c x => fst (call (fst x) (snd x) c)) calls c.
(** The answer to the last of a non-empty sequence of calls. *)
Definition answer (c : criterion) (calls : list (Z * Z)) (now best : Z) : bool :=
  snd (call now best (after c calls)).

Lemma after_app c a b : after c (a ++ b) = after (after c a) b.
Proof. apply fold_left_app. Qed.

Theorem max_iterations_spec n c calls now best : make_max_iterations n = Ok c ->
  answer c calls now best = true <-> n < Z.of_nat (length calls) + 1.
Proof.
  unfold make_max_iterations. destruct (Z.ltb_spec n 0); [discriminate|]. intros [= <-].
  assert (G : forall calls k, after (MaxIterations n k) calls = MaxIterations n (k + Z.of_nat (length calls))).
  { clear. induction calls as [|x calls IH]; intros k; [cbn; f_equal; lia|].
    unfold after in *. cbn [fold_left call fst]. rewrite IH. cbn [length]. f_equal. lia. }
  unfold answer. rewrite G. cbn. lia.
Qed.

Theorem first_feasible_spec calls now best :
  answer FirstFeasible calls now best = true <-> best < MAXV.
Proof.
  assert (G : after FirstFeasible calls = FirstFeasible).
  { induction calls as [|x calls IH]; [reflexivity|]. exact IH. }
  unfold answer. rewrite G. cbn. lia.
Qed.

Theorem max_runtime_spec t c calls now best : make_max_runtime t = Ok c ->
  answer c calls now best = true <-> t < now - fst (hd (now, 0) calls).
Proof.
  unfold make_max_runtime. destruct (Z.ltb_spec t 0); [discriminate|]. intros [= <-].
  assert (G : forall calls s, after (MaxRuntime t (Some s)) calls = MaxRuntime t (Some s)).
  { clear. induction calls as [|x calls IH]; intros s; [reflexivity|]. apply IH. }
  unfold answer. destruct calls as [|x calls]; [cbn; lia|].
  unfold after. cbn [fold_left call fst]. fold (after (MaxRuntime t (Some (fst x))) calls).
  rewrite G. cbn. lia.
Qed.

(** NoImprovement stops at a call when none of the last [n] costs, the current one included, is
    below all earlier ones. *)
Lemma no_improvement_inv n costs : costs <> [] -> forall calls, map snd calls = costs ->
  exists t a b, after (NoImprovement n None 0) calls = NoImprovement n (Some t) (Z.of_nat (length b)) /\
    costs = a ++ b /\ (exists a', a = a' ++ [t] /\ forall x, In x a' -> t < x) /\
    (forall x, In x b -> t <= x).
Proof.
  induction costs as [|best costs IH] using rev_ind; [congruence|]. intros _ calls Hc.
  destruct calls as [|x calls] using rev_ind; [destruct costs; discriminate|]. clear IHcalls.
  rewrite map_app in Hc. cbn [map] in Hc. apply app_inj_tail in Hc. destruct Hc as [Hc Hx].
  rewrite after_app. unfold after at 1. cbn [fold_left].
  destruct costs as [|c0 costs].
  - apply map_eq_nil in Hc. subst calls. cbn. exists best, [best], []. rewrite <- Hx.
    split; [reflexivity|]. split; [reflexivity|]. split; [|intros ? []].
    exists []. split; [reflexivity|intros ? []].
  - destruct (IH ltac:(congruence) calls Hc) as (t & a & b & E & Hab & (a' & -> & Ha) & Hb).
    rewrite E. cbn [call fst]. rewrite Hx. destruct (Z.ltb_spec best t) as [Hlt|Hge]; cbn [fst].
    + exists best, (c0 :: costs ++ [best]), []. split; [reflexivity|].
      split; [rewrite app_nil_r; reflexivity|]. split; [|intros ? []].
      exists (c0 :: costs). split; [reflexivity|]. rewrite Hab. intros y Hy.
      apply in_app_iff in Hy. destruct Hy as [Hy|Hy]; [|specialize (Hb y Hy); lia].
      apply in_app_iff in Hy. destruct Hy as [Hy|[<-|[]]]; [specialize (Ha y Hy)|]; lia.
    + exists t, (a' ++ [t]), (b ++ [best]). rewrite app_length. cbn [length].
      split; [f_equal; lia|]. split; [rewrite Hab, <- app_assoc; reflexivity|].
      split; [exists a'; auto|]. intros y Hy. apply in_app_iff in Hy.
      destruct Hy as [Hy|[<-|[]]]; [auto|lia].
Qed.

Theorem no_improvement_spec n c calls now best : make_no_improvement n = Ok c ->
  answer c calls now best = true <->
  exists a b, map snd calls ++ [best] = a ++ b /\ a <> [] /\ Z.of_nat (length b) = n /\
              forall x, In x b -> exists y, In y a /\ y <= x.
Proof.
  unfold make_no_improvement. destruct (Z.ltb_spec n 0) as [|Hn]; [discriminate|]. intros [= <-].
  assert (E : answer (NoImprovement n None 0) calls now best =
     match after (NoImprovement n None 0) (calls ++ [(now, best)]) with
     | NoImprovement _ _ k => k >=? n | _ => false end).
  { unfold answer. rewrite after_app. unfold after at 2. cbn [fold_left fst snd].
    assert (G : forall calls t k, exists t' k', after (NoImprovement n t k) calls = NoImprovement n t' k').
    { clear. induction calls as [|x calls IH]; intros t k; [exists t, k; reflexivity|].
      unfold after in *. cbn [fold_left call].
      destruct (match t with None => true | Some t => snd x <? t end); cbn [fst]; apply IH. }
    destruct (G calls None 0) as (t & k & ->). cbn [call].
    destruct (match t with None => true | Some t => best <? t end); reflexivity. }
  rewrite E. clear E.
  assert (Hm : map snd (calls ++ [(now, best)]) = map snd calls ++ [best]) by (rewrite map_app; reflexivity).
  destruct (no_improvement_inv n (map snd calls ++ [best]) ltac:(intros H; destruct (map snd calls); discriminate)
              (calls ++ [(now, best)]) Hm) as (t & a & b & -> & Hab & (a' & -> & Ha) & Hb).
  rewrite Hab. clear Hm Hab. rewrite Z.geb_leb, Z.leb_le. split.
  - intros Hk. exists ((a' ++ [t]) ++ firstn (length b - Z.to_nat n) b), (skipn (length b - Z.to_nat n) b).
    split; [rewrite <- (app_assoc (a' ++ [t])), firstn_skipn; reflexivity|].
    split; [intros H; destruct a'; discriminate|]. split; [rewrite skipn_length; lia|].
    intros x Hx. exists t. split; [apply in_or_app; left; apply in_or_app; right; left; reflexivity|].
    apply Hb. rewrite <- (firstn_skipn (length b - Z.to_nat n) b). apply in_or_app. right. exact Hx.
  - intros (a2 & b2 & E & Hne & Hl & Hb2). destruct (Z.le_gt_cases n (Z.of_nat (length b))) as [|Hgt]; [assumption|exfalso].
    assert (Hin : In t b2 /\ forall y, In y a2 -> In y a').
    { assert (Hlen : (length a2 <= length a')%nat).
      { apply (f_equal (@length Z)) in E. rewrite !app_length in E. cbn in E. lia. }
      clear - E Hlen. revert a' E Hlen. induction a2 as [|x a2 IH]; intros a' E Hlen.
      - cbn in E. split; [|intros ? []]. rewrite <- E. apply in_or_app. left. apply in_or_app. right. left. reflexivity.
      - destruct a' as [|x' a']; cbn in Hlen; [lia|]. cbn in E. injection E as -> E.
        destruct (IH a' E ltac:(lia)) as [I1 I2]. split; [exact I1|].
        intros y [->|Hy]; [left; reflexivity|right; auto]. }
    destruct Hin as [Hin Hsub]. destruct (Hb2 t Hin) as (y & Hy & Hle).
    specialize (Ha y (Hsub y Hy)). lia.
Qed.

(** MultipleCriteria: answers [true] exactly when one of its criteria does. *)
Theorem multiple_spec cs now best :
  snd (call now best (MultipleCriteria cs)) = existsb (fun c => snd (call now best c)) cs.
Proof.
  cbn [call]. induction cs as [|c cs IH]; [reflexivity|]. cbn [existsb].
  destruct (call now best c) as [c' stop]. cbn [snd]. destruct stop; [reflexivity|].
  cbn [orb]. rewrite <- IH.
  match goal with |- context [let '(_, _) := ?f cs in _] => destruct (f cs) as [more stop] end. reflexivity.
Qed.

(** The criteria called by MultipleCriteria are those up to the first that answers [true]. *)
Theorem multiple_state cs now best :
  exists pre post, cs = pre ++ post /\
    fst (call now best (MultipleCriteria cs)) = MultipleCriteria (map (fun c => fst (call now best c)) pre ++ post) /\
    ((post = [] /\ forall c, In c pre -> snd (call now best c) = false) \/
     exists pre' c, pre = pre' ++ [c] /\ snd (call now best c) = true /\
                    forall c, In c pre' -> snd (call now best c) = false).
Proof.
  cbn [call]. induction cs as [|c cs IH].
  - exists [], []. cbn. split; [reflexivity|]. split; [reflexivity|]. left. split; [reflexivity|intros ? []].
  - destruct IH as (pre & post & -> & E & H).
    destruct (call now best c) as [c' stop] eqn:Ec. destruct stop.
    + exists [c], (pre ++ post). cbn. rewrite Ec. split; [reflexivity|]. split; [reflexivity|].
      right. exists [], c. rewrite Ec. split; [reflexivity|]. split; [reflexivity|intros ? []].
    + exists (c :: pre), post. split; [reflexivity|].
      match type of E with context [let '(_, _) := ?f (pre ++ post) in _] => destruct (f (pre ++ post)) as [more stop] end.
      cbn [fst] in *. split; [cbn; rewrite Ec; cbn; f_equal; injection E as ->; reflexivity|].
      destruct H as [[-> H]|(pre' & x & -> & Hx & H)].
      * left. split; [reflexivity|]. intros y [<-|Hy]; [rewrite Ec; reflexivity|auto].
      * right. exists (c :: pre'), x. split; [reflexivity|]. split; [exact Hx|].
        intros y [<-|Hy]; [rewrite Ec; reflexivity|auto].
Qed.

(** Criteria without NoImprovement. *)
Fixpoint lasting (c : criterion) : Prop :=
  match c with
  | NoImprovement _ _ _ => False
  | MultipleCriteria cs => (fix all cs := match cs with [] => True | c :: more => lasting c /\ all more end) cs
  | _ => True
  end.

(** Once such a criterion has stopped it goes on to stop, as long as the clock does not run
    backwards and the best cost does not increase. *)
Theorem stop_lasts c now best now' best' : lasting c -> now <= now' -> best' <= best ->
  snd (call now best c) = true -> snd (call now' best' (fst (call now best c))) = true.
Proof.
  intros Hl Hn Hb. revert c Hl. fix IH 1. intros c. destruct c as [|max curr|max start|max target counter|cs]; intros Hl.
  - cbn. lia.
  - cbn. lia.
  - cbn. destruct start; cbn; lia.
  - destruct Hl.
  - cbn [call lasting] in *. induction cs as [|c cs IHcs]; [cbn; auto|].
    destruct Hl as [Hc Hcs]. specialize (IH c Hc). specialize (IHcs Hcs).
    destruct (call now best c) as [c' stop] eqn:Ec. cbn [fst snd] in IH. destruct stop.
    + intros _. specialize (IH eq_refl). cbn [fst]. cbn [call].
      destruct (call now' best' c') as [c'' stop']. cbn [snd] in IH. subst stop'. reflexivity.
    + match type of IHcs with context [let '(_, _) := ?f cs in _] => destruct (f cs) as [more stop] end.
      cbn [fst snd] in *. intros Hs. specialize (IHcs Hs). cbn [call] in *.
      destruct (call now' best' c') as [c'' stop']. destruct stop'; [reflexivity|].
      match type of IHcs with context [let '(_, _) := ?f more in _] => destruct (f more) as [more' stop'] end.
      exact IHcs.
Qed.
