(** Property theorems C32: penalty management. *)
From Coq Require Import ZArith Reals Lia Lra List.
From Flocq Require Import Core.Core IEEE754.BinarySingleNaN.
From Verif Require Import Base Data Cost CostFacts Penalty RngFloat Solution Pm.
Import ListNotations.
Local Open Scope R_scope.

(** The parameters are accepted iff they are sane. *)
Theorem C32_parameters : forall between increase decrease target tolerance min max,
  is_finite (b64_of_Z between) = true ->
  is_finite increase = true -> is_finite decrease = true -> is_finite target = true ->
  is_finite tolerance = true -> is_finite min = true -> is_finite max = true ->
  let p := mk_pparams between increase decrease target tolerance min max in
  (pparams_ok p -> make_pparams between increase decrease target tolerance min max = Ok p) /\
  (~ pparams_ok p -> make_pparams between increase decrease target tolerance min max = Err InvalidArgument).
Proof. exact make_pparams_spec. Qed.
Print Assumptions C32_parameters.

(** Whatever is registered, all penalties stay within bounds and give valid cost evaluators. *)
Theorem C32_bounds : forall loads tw dist p xss m', pparams_ok p ->
  Forall (fun x => is_nan x = false) (loads ++ [tw; dist]) ->
  Forall (fun xs => length xs = (length loads + 2)%nat) xss ->
  pm_run (make_pmanager loads tw dist p) xss = Ok m' ->
  Forall (fun x => is_finite x = true /\ B2R (pp_min p) <= B2R x <= B2R (pp_max p)) (pm_penalties m') /\
  (exists ev, pm_evaluator m' = Ok ev /\ ev_ok ev /\ length (ev_load ev) = length loads) /\
  (exists ev, pm_max_evaluator m' = Ok ev /\ ev_ok ev /\ length (ev_load ev) = length loads).
Proof.
  intros loads tw dist p xss m' H1 H2 H3 H4. split; [exact (pm_bounds loads tw dist p xss m' H1 H2 H3 H4)|].
  exact (pm_evaluators loads tw dist p xss m' H1 H2 H3 H4).
Qed.
Print Assumptions C32_bounds.

(** Registering succeeds, and each penalty only depends on its own violations. *)
Theorem C32_independent : forall loads tw dist p xss,
  let m := make_pmanager loads tw dist p in
  Forall (fun xs => length xs = (length loads + 2)%nat) xss ->
  exists m', pm_run m xss = Ok m' /\ length (pm_penalties m') = (length loads + 2)%nat /\
  forall i, (i < length loads + 2)%nat ->
    nth i (pm_penalties m') b64_zero
      = pen_after p (np_clip (nth i (loads ++ [tw; dist]) b64_zero) (pp_min p) (pp_max p)) (map (fun xs => nth i xs 0%Z) xss).
Proof.
  intros loads tw dist p xss m H. destruct (pm_run_spec loads tw dist p xss H) as (m' & E1 & _ & E2 & _ & E3).
  exists m'. split; [exact E1|]. split; [exact E2|]. intros i Hi. unfold pen_after. fold (column i xss). rewrite <- (E3 i Hi). reflexivity.
Qed.
Print Assumptions C32_independent.

(** A penalty changes only every [solutions_between_updates] registrations, and then in the right
    direction with respect to the fraction of recent violations that are zero. *)
Theorem C32_direction : forall p pen xs x, pparams_ok p ->
  is_finite pen = true /\ B2R (pp_min p) <= B2R pen <= B2R (pp_max p) ->
  let k := Z.to_nat (pp_between p) in
  let old := pen_after p pen xs in let new := pen_after p pen (xs ++ [x]) in
  let recent := skipn (length (xs ++ [x]) - k) (xs ++ [x]) in
  let feas := b64_div (b64_of_Z (Z.of_nat (length (filter (Z.eqb 0) recent)))) (b64_of_Z (Z.of_nat k)) in
  ((length (xs ++ [x]) mod k <> 0)%nat -> new = old) /\
  ((length (xs ++ [x]) mod k = 0)%nat ->
     (B2R feas < B2R (pp_target p) -> B2R old <= B2R new) /\
     (B2R (pp_target p) <= B2R feas -> B2R new <= B2R old) /\
     (Rabs (rnd (B2R (pp_target p) - B2R feas)) < B2R (pp_tolerance p) -> new = old)).
Proof.
  intros p pen xs x Hp Hb k old new recent feas.
  destruct (one_spec p pen xs x Hp Hb) as (_ & H2 & H3). split; [exact H2|]. intros Hm. destruct (H3 Hm) as (E & H4).
  fold k in E, H4. unfold feas_percentage in H4. rewrite E in H4. exact H4.
Qed.
Print Assumptions C32_direction.

(** The hypotheses hold for the default parameters (0.65 is 5854679515581645 / 2^53). *)
Definition ex_target : b64 := b64_div (b64_of_Z 5854679515581645) (b64_of_Z 9007199254740992).
Definition ex_params : pparams :=
  mk_pparams 500 (b64_div (b64_of_Z 5) (b64_of_Z 4)) (b64_div (b64_of_Z 3) (b64_of_Z 4)) ex_target
    (b64_div (b64_of_Z 1) (b64_of_Z 16)) (b64_div (b64_of_Z 1) (b64_of_Z 8)) (b64_of_Z 100000).
Example C32_case : pparams_ok ex_params /\
  make_pparams 500 (pp_increase ex_params) (pp_decrease ex_params) ex_target (pp_tolerance ex_params) (pp_min ex_params) (pp_max ex_params) = Ok ex_params.
Proof.
  assert (H : make_pparams 500 (pp_increase ex_params) (pp_decrease ex_params) ex_target (pp_tolerance ex_params) (pp_min ex_params) (pp_max ex_params) = Ok ex_params).
  { unfold make_pparams.
    replace (negb (1 <=? 500)%Z) with false by reflexivity.
    replace (Bleb b64_one (pp_increase ex_params)) with true by (vm_compute; reflexivity).
    replace (Bleb b64_zero (pp_decrease ex_params)) with true by (vm_compute; reflexivity).
    replace (Bleb (pp_decrease ex_params) b64_one) with true by (vm_compute; reflexivity).
    replace (Bleb b64_zero ex_target) with true by (vm_compute; reflexivity).
    replace (Bleb ex_target b64_one) with true by (vm_compute; reflexivity).
    replace (Bleb b64_zero (pp_tolerance ex_params)) with true by (vm_compute; reflexivity).
    replace (Bleb (pp_tolerance ex_params) b64_one) with true by (vm_compute; reflexivity).
    replace (Bltb (pp_min ex_params) b64_zero) with false by (vm_compute; reflexivity).
    replace (Bltb (pp_max ex_params) (pp_min ex_params)) with false by (vm_compute; reflexivity). reflexivity. }
  split; [|exact H].
  destruct one_exact as [F1 E1]. pose proof B2R_b64_zero as E0.
  assert (X : forall a b : b64, is_finite a = true -> is_finite b = true -> Bleb a b = true -> B2R a <= B2R b)
    by (intros a b A B C; apply leb_R; assumption).
  assert (X0 : forall a : b64, is_finite a = true -> Bleb b64_zero a = true -> 0 <= B2R a)
    by (intros a A B; rewrite <- E0; apply X; [reflexivity|exact A|exact B]).
  assert (X1 : forall a : b64, is_finite a = true -> Bleb a b64_one = true -> B2R a <= 1)
    by (intros a A B; rewrite <- E1; apply X; [exact A|exact F1|exact B]).
  constructor.
  - cbn [pp_between ex_params]. lia.
  - vm_compute. reflexivity.
  - repeat split; vm_compute; reflexivity.
  - rewrite <- E1. apply X; vm_compute; reflexivity.
  - split; [apply X0|apply X1]; vm_compute; reflexivity.
  - split; [apply X0|apply X1]; vm_compute; reflexivity.
  - split; [apply X0|apply X1]; vm_compute; reflexivity.
  - split; [apply X0|apply X]; vm_compute; reflexivity.
Qed.
