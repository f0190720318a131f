(** Property theorems C68: the warning of the penalty manager. *)
From Coq Require Import ZArith Reals Lia Lra List.
From Flocq Require Import Core.Core IEEE754.BinarySingleNaN.
From Verif Require Import Base Data Cost CostFacts Penalty RngFloat Solution Pm PmWarn Neighbourhood Ops Solve Hang.
Import ListNotations.
Local Open Scope R_scope.

(** The bookkeeping for warnings changes neither the penalties nor what is remembered for them: C32 is about the same
    numbers. *)
Theorem C68_same_penalties : forall loads tw dist p xss,
  match wm_run (make_wmanager loads tw dist p) xss with
  | Ok (m', _) => exists m, pm_run (make_pmanager loads tw dist p) xss = Ok m /\ pm_params m = wm_params m' /\
                    pm_penalties m = map wd_pen (wm_dims m') /\ pm_viols m = map wd_viols (wm_dims m')
  | Err e => pm_run (make_pmanager loads tw dist p) xss = Err e
  end.
Proof.
  intros loads tw dist p xss. rewrite <- forget_make, run_forget.
  destruct (wm_run (make_wmanager loads tw dist p) xss) as [[m' fl]|e]; [|reflexivity].
  exists (forget m'). repeat split.
Qed.
Print Assumptions C68_same_penalties.

(** Registering a solution warns about dimension i exactly if it completes a window that is not the first, the penalty
    was the largest allowed, the feasible share of the window fell short of the target by at least the tolerance, and
    the violations of the window add up to no less than those of the window before. *)
Theorem C68_warns_iff : forall loads tw dist p xss j i, pparams_ok p -> (pp_between p <= 2 ^ 53)%Z ->
  Forall (fun x => is_nan x = false) (loads ++ [tw; dist]) ->
  Forall (fun xs => length xs = (length loads + 2)%nat) xss ->
  Forall (Forall (Z.le 0)) xss ->
  (j < length xss)%nat -> (i < length loads + 2)%nat ->
  exists m flags, wm_run (make_wmanager loads tw dist p) xss = Ok (m, flags) /\
  let k := Z.to_nat (pp_between p) in
  let seen := map (fun xs => nth i xs 0%Z) (firstn (S j) xss) in
  let recent := skipn (S j - k) seen in
  let before := skipn (S j - 2 * k) (firstn (S j - k) seen) in
  let first := np_clip (nth i (loads ++ [tw; dist]) b64_zero) (pp_min p) (pp_max p) in
  let pen := pen_after p first (map (fun xs => nth i xs 0%Z) (firstn j xss)) in
  let share := b64_div (b64_of_Z (Z.of_nat (length (filter (Z.eqb 0) recent)))) (b64_of_Z (Z.of_nat k)) in
  ((zsum recent < 2 ^ 52)%Z -> (zsum before < 2 ^ 52)%Z ->
   nth i (nth j flags []) false = true <->
   (S j mod k = 0 /\ 2 * k <= S j)%nat /\ B2R pen = B2R (pp_max p) /\
   B2R (pp_tolerance p) <= rnd (B2R (pp_target p) - B2R share) /\ (zsum before <= zsum recent)%Z).
Proof.
  intros loads tw dist p xss j i K Hb Hn Hl H0 Hj Hi.
  destruct (wm_run_spec loads tw dist p xss Hl) as (m & flags & E & _ & _ & _ & _ & Hf).
  exists m, flags. split; [exact E|]. cbv zeta. rewrite (Hf j i Hj Hi). clear Hf E m flags.
  set (first := np_clip _ _ _). set (k := Z.to_nat (pp_between p)).
  assert (Hk : (0 < k)%nat) by (subst k; pose proof (ppo_between p K); lia).
  assert (Ef : firstn (S j) xss = firstn j xss ++ [nth j xss []]).
  { clear - Hj. revert j Hj. induction xss as [|x xss IH]; intros j Hj; [cbn in Hj; lia|].
    destruct j as [|j]; [reflexivity|]. cbn [firstn nth app]. f_equal. apply IH. cbn in Hj. lia. }
  rewrite Ef, map_app. cbn [map]. fold (column i (firstn j xss)).
  set (xs := column i (firstn j xss)). set (x := nth i (nth j xss []) 0%Z).
  assert (Hlx : length xs = j) by (unfold xs, column; rewrite map_length, firstn_length; lia).
  assert (Hin : in_bounds p first).
  { apply clip_bounds; [exact K|]. rewrite Forall_forall in Hn. apply Hn. apply nth_In. rewrite app_length. exact Hi. }
  assert (Hpos : Forall (Z.le 0) (xs ++ [x])).
  { assert (G : Forall (Z.le 0) (column i (firstn (S j) xss))).
    { apply Forall_forall. intros y Hy. apply in_map_iff in Hy. destruct Hy as (row & <- & Hr).
      assert (Hrow : In row xss) by (rewrite <- (firstn_skipn (S j) xss); apply in_or_app; left; exact Hr).
      rewrite Forall_forall in H0, Hl. specialize (H0 _ Hrow). specialize (Hl _ Hrow). rewrite Forall_forall in H0.
      apply H0. apply nth_In. lia. }
    rewrite Ef in G. unfold column in G. rewrite map_app in G. exact G. }
  pose proof (warn_spec p first xs x K Hb Hin Hpos) as W. cbv zeta in W. fold k in W.
  assert (Hlh : length (xs ++ [x]) = S j) by (rewrite app_length; cbn [length]; lia).
  unfold window_before, lasts in W. rewrite firstn_length, Hlh in W.
  replace (Nat.min (S j - k) (S j) - k)%nat with (S j - 2 * k)%nat in W by lia.
  intros S1 S2. rewrite (W S1 S2). unfold feas_percentage. rewrite skipn_length, Hlh.
  destruct (Nat.le_gt_cases k (S j)) as [Hge|Hlt].
  - replace (S j - (S j - k))%nat with k by lia. reflexivity.
  - split; intros ((_ & C) & _); lia.
Qed.
Print Assumptions C68_warns_iff.

(** Hence there is no warning while the violations keep decreasing from window to window, nor in a window with a
    sufficient share of feasible solutions (if the tolerance is positive). *)
Theorem C68_silent : forall loads tw dist p xss j i m flags, pparams_ok p -> (pp_between p <= 2 ^ 53)%Z ->
  Forall (fun x => is_nan x = false) (loads ++ [tw; dist]) ->
  Forall (fun xs => length xs = (length loads + 2)%nat) xss ->
  Forall (Forall (Z.le 0)) xss ->
  (j < length xss)%nat -> (i < length loads + 2)%nat ->
  wm_run (make_wmanager loads tw dist p) xss = Ok (m, flags) ->
  let k := Z.to_nat (pp_between p) in
  let seen := map (fun xs => nth i xs 0%Z) (firstn (S j) xss) in
  let recent := skipn (S j - k) seen in
  let before := skipn (S j - 2 * k) (firstn (S j - k) seen) in
  let share := b64_div (b64_of_Z (Z.of_nat (length (filter (Z.eqb 0) recent)))) (b64_of_Z (Z.of_nat k)) in
  (zsum recent < 2 ^ 52)%Z -> (zsum before < 2 ^ 52)%Z ->
  (zsum recent < zsum before)%Z \/ (0 < B2R (pp_tolerance p) /\ B2R (pp_target p) <= B2R share) ->
  nth i (nth j flags []) false = false.
Proof.
  intros loads tw dist p xss j i m flags K Hb Hn Hl H0 Hj Hi E k seen recent before share S1 S2 H.
  destruct (C68_warns_iff loads tw dist p xss j i K Hb Hn Hl H0 Hj Hi) as (m2 & f2 & E2 & W).
  rewrite E in E2. injection E2 as <- <-. cbv zeta in W. specialize (W S1 S2).
  destruct (nth i (nth j flags []) false); [|reflexivity]. exfalso.
  destruct (proj1 W eq_refl) as (_ & _ & W3 & W4). destruct H as [H|[Ht H]]; [unfold recent, before, seen, k in H; lia|].
  assert (C : rnd (B2R (pp_target p) - B2R share) <= rnd 0) by (apply rnd_le; lra).
  rewrite round_0 in C by apply valid_rnd_round_mode. unfold share, recent, seen, k in C. lra.
Qed.
Print Assumptions C68_silent.

(** A registration that warns leaves the penalty at the largest allowed value (if the tolerance is positive). *)
Theorem C68_stays : forall loads tw dist p xss j i m flags, pparams_ok p -> 0 < B2R (pp_tolerance p) ->
  Forall (fun x => is_nan x = false) (loads ++ [tw; dist]) ->
  Forall (fun xs => length xs = (length loads + 2)%nat) xss ->
  (j < length xss)%nat -> (i < length loads + 2)%nat ->
  wm_run (make_wmanager loads tw dist p) xss = Ok (m, flags) ->
  nth i (nth j flags []) false = true ->
  exists m', pm_run (make_pmanager loads tw dist p) (firstn (S j) xss) = Ok m' /\
             B2R (nth i (pm_penalties m') b64_zero) = B2R (pp_max p).
Proof.
  intros loads tw dist p xss j i m flags K Ht Hn Hl Hj Hi E Hw.
  destruct (wm_run_spec loads tw dist p xss Hl) as (m2 & f2 & E2 & _ & _ & _ & _ & Hf).
  rewrite E in E2. injection E2 as <- <-. rewrite (Hf j i Hj Hi) in Hw. clear Hf E.
  set (first := np_clip (nth i (loads ++ [tw; dist]) b64_zero) (pp_min p) (pp_max p)) in *.
  assert (Hin : in_bounds p first).
  { apply clip_bounds; [exact K|]. rewrite Forall_forall in Hn. apply Hn. apply nth_In. rewrite app_length. exact Hi. }
  assert (Hl' : Forall (fun xs => length xs = (length loads + 2)%nat) (firstn (S j) xss)).
  { rewrite <- (firstn_skipn (S j) xss) in Hl. apply Forall_app in Hl. apply Hl. }
  destruct (pm_run_spec loads tw dist p (firstn (S j) xss) Hl') as (m' & E' & _ & _ & _ & L).
  exists m'. split; [exact E'|]. specialize (L i Hi). fold first in L.
  replace (nth i (pm_penalties m') b64_zero) with (fst (nth i (pm_penalties m') b64_zero, nth i (pm_viols m') [])) by reflexivity.
  rewrite L. fold (pen_after p first (column i (firstn (S j) xss))).
  assert (Ef : firstn (S j) xss = firstn j xss ++ [nth j xss []]).
  { clear - Hj. revert j Hj. induction xss as [|x xss IH]; intros j Hj; [cbn in Hj; lia|].
    destruct j as [|j]; [reflexivity|]. cbn [firstn nth app]. f_equal. apply IH. cbn in Hj. lia. }
  rewrite Ef. unfold column. rewrite map_app. cbn [map]. apply (warn_stays p first _ _ K Hin Ht Hw).
Qed.
Print Assumptions C68_stays.

(** What the message says ("PyVRP struggles to find a feasible solution") need not be so: with the default parameters
    it is also given if three out of five solutions satisfy the constraint. *)
Definition often : list (list Z) :=
  concat (repeat [[0; 0; 0]; [0; 0; 0]; [0; 0; 0]; [7; 0; 0]; [7; 0; 0]]%Z (Z.to_nat 200)).
Theorem C68_struggles_refuted :
  exists loads tw dist xss m flags,
    Forall (fun xs => length xs = (length loads + 2)%nat) xss /\ Forall (Forall (Z.le 0)) xss /\
    wm_run (make_wmanager loads tw dist defPenalty) xss = Ok (m, flags) /\
    nth 0 (last flags []) false = true /\
    (5 * Z.of_nat (length (filter (fun xs => forallb (Z.eqb 0) xs) xss)) = 3 * Z.of_nat (length xss))%Z.
Proof.
  exists [b64_of_Z 100000], b64_one, b64_one, often.
  assert (Hl : Forall (fun xs => length xs = (length [b64_of_Z 100000] + 2)%nat) often).
  { apply Forall_forall. intros xs Hx. unfold often in Hx. apply in_concat in Hx. destruct Hx as (l & Hr & Hx).
    apply repeat_spec in Hr. subst l. cbn [In] in Hx. intuition (subst; reflexivity). }
  destruct (wm_run_spec [b64_of_Z 100000] b64_one b64_one defPenalty often Hl) as (m & flags & E & _).
  exists m, flags. split; [exact Hl|]. split.
  { apply Forall_forall. intros xs Hx. unfold often in Hx. apply in_concat in Hx. destruct Hx as (l & Hr & Hx).
    apply repeat_spec in Hr. subst l. cbn [In] in Hx. intuition (subst; repeat constructor; discriminate). }
  split; [exact E|]. split; [|vm_compute; reflexivity].
  assert (G : match wm_run (make_wmanager [b64_of_Z 100000] b64_one b64_one defPenalty) often with
              | Ok (_, fl) => nth 0 (last fl []) false | Err _ => false end = true) by (vm_compute; reflexivity).
  rewrite E in G. exact G.
Qed.
Print Assumptions C68_struggles_refuted.

(** With other parameters that PenaltyParams accepts, it is even given if all solutions satisfy all constraints. *)
Theorem C68_all_feasible_refuted :
  exists p loads tw dist xss m flags,
    make_pparams (pp_between p) (pp_increase p) (pp_decrease p) (pp_target p) (pp_tolerance p) (pp_min p) (pp_max p) = Ok p /\
    Forall (fun xs => xs = repeat 0%Z (length loads + 2)) xss /\
    wm_run (make_wmanager loads tw dist p) xss = Ok (m, flags) /\ nth 0 (last flags []) false = true.
Proof.
  set (p := mk_pparams 1 (dec 150 100) (dec 1 1) (dec 1 1) (b64_of_Z 0) (dec 1 10) (b64_of_Z 100000)).
  exists p, [b64_of_Z 100000], b64_one, b64_one, [[0; 0; 0]; [0; 0; 0]]%Z.
  assert (G : match wm_run (make_wmanager [b64_of_Z 100000] b64_one b64_one p) [[0; 0; 0]; [0; 0; 0]]%Z with
              | Ok (_, fl) => nth 0 (last fl []) false | Err _ => false end = true) by (vm_compute; reflexivity).
  destruct (wm_run (make_wmanager [b64_of_Z 100000] b64_one b64_one p) [[0; 0; 0]; [0; 0; 0]]%Z) as [[m flags]|] eqn:E; [|discriminate].
  exists m, flags. split.
  { unfold make_pparams.
    repeat match goal with |- (if ?b then _ else _) = _ =>
      let H := fresh in assert (H : b = false) by (vm_compute; reflexivity); rewrite H; clear H end. reflexivity. }
  split; [repeat constructor|]. split; [reflexivity|exact G].
Qed.
Print Assumptions C68_all_feasible_refuted.

(** Cases: tests/test_PenaltyManager.py, with the loads in excess there and windows of one solution. *)
Definition single (increase : b64) : pparams :=
  mk_pparams 1 increase (dec 90 100) (dec 65 100) (dec 5 100) (dec 1 10) (b64_of_Z 100000).
Definition flags_of (p : pparams) (xss : list (list Z)) : list (list bool) :=
  match wm_run (make_wmanager [b64_of_Z 100000] b64_one b64_one p) xss with Ok (_, fl) => fl | Err _ => [] end.
Example test_does_not_warn_while_violation_decreases :
  flags_of (single (b64_of_Z 2)) [[8; 0; 0]; [5; 0; 0]; [3; 0; 0]]%Z = repeat [false; false; false] 3.
Proof. vm_compute. reflexivity. Qed.
Example test_warn_when_violations_stuck :
  flags_of (single (dec 150 100)) [[8; 0; 0]; [8; 0; 0]]%Z = [[false; false; false]; [true; false; false]].
Proof. vm_compute. reflexivity. Qed.
(** The hypotheses of the theorems hold in a case with a warning (for the default parameters and [often]). *)
Example C68_case :
  pparams_ok defPenalty /\ (pp_between defPenalty <= 2 ^ 53)%Z /\ 0 < B2R (pp_tolerance defPenalty) /\
  Forall (fun x => is_nan x = false) ([b64_of_Z 100000] ++ [b64_one; b64_one]) /\
  Forall (fun xs => length xs = 3%nat) often /\ Forall (Forall (Z.le 0)) often /\ length often = Z.to_nat 1000 /\
  (zsum (map (fun xs => nth 0 xs 0%Z) often) < 2 ^ 52)%Z /\
  nth 0 (nth (Z.to_nat 999) (flags_of defPenalty often) []) false = true.
Proof.
  split; [exact defPenalty_ok|]. split; [vm_compute; discriminate|]. split.
  { rewrite <- B2R_b64_zero. apply ltb_R; [reflexivity|vm_compute; reflexivity|vm_compute; reflexivity]. }
  split; [repeat constructor|]. split.
  { apply Forall_forall. intros xs Hx. unfold often in Hx. apply in_concat in Hx. destruct Hx as (l & Hr & Hx).
    apply repeat_spec in Hr. subst l. cbn [In] in Hx. intuition (subst; reflexivity). }
  split.
  { apply Forall_forall. intros xs Hx. unfold often in Hx. apply in_concat in Hx. destruct Hx as (l & Hr & Hx).
    apply repeat_spec in Hr. subst l. cbn [In] in Hx. intuition (subst; repeat constructor; discriminate). }
  split; [vm_compute; reflexivity|]. split; vm_compute; reflexivity.
Qed.
