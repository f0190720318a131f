(** C60: a Model built with ordinary numbers can be solved.  [modest_calls] (Ordinary.v) bounds the arguments of the
    calls; [complete] (ModelPy.v) says when data() accepts the model. *)
From Coq Require Import ZArith Lia List String.
From Verif Require Import Base DurationSegment Data DataCtor Valid ModelPy ModelSpec ModelHist Cost Solution SolutionFacts SolutionFacts3 Penalty Pm MakeRandom Ils Stop
  Neighbourhood OpsBase LocalRun Fits Finite Solve Hang Ordinary PModel PSolve PHang.
Import ListNotations.
Local Open Scope Z_scope.

(** Everything that is proved for [solvable] data (C48, C57, ...) holds for the data of such a model. *)
Theorem C60_solvable : forall ops m missing d h T M S F U, ModelSpec.after ops m -> model_data m missing = Ok d ->
  modest_calls ops missing h T M S F U -> solvable d h.
Proof. intros ops m missing d h T M S F U Ha Hd. exact (modest_calls_solvable ops m missing d Ha Hd h T M S F U). Qed.
Print Assumptions C60_solvable.

(** Model.solve() returns for every criterion that stops in the end: its result is a solution of what the calls
    described, and a complete one unless nothing better than an incomplete initial solution was found. *)
Theorem C60_returns : forall ops m missing h T M S F U p collect_stats clock seed c, ModelSpec.after ops m -> ModelPy.complete m ->
  modest_calls ops missing h T M S F U -> params_ok p -> ends clock c ->
  exists d, described ops missing d /\ forall initial, (forall s, initial = Some s -> is_solution d s) ->
  exists n0 k0 o, is_solution d (o_best o) /\ (so_isComplete (o_best o) = true \/ initial = Some (o_best o)) /\
    forall n k, (n0 <= n)%nat -> (k0 <= k)%nat ->
      model_solve m missing (criterion * nat) (py_stop clock) p collect_stats n k seed initial (c, 0%nat) = Some (Ok o).
Proof.
  intros ops m missing h T M S F U p cs clock seed c Ha Hc Hm Hp He.
  destruct (proj1 (model_data_complete m missing (model_of_calls ops m Ha)) Hc) as (d & Hd & _).
  exists d. split; [exact (calls_described ops m missing d Ha Hd)|]. intros initial Hi. pose proof (C60_solvable _ _ _ _ _ _ _ _ _ _ Ha Hd Hm) as Hs.
  destruct (C48_returns d p cs h Hs Hp clock seed initial c Hi He) as (n0 & k0 & o & H). exists n0, k0, o.
  destruct (C48_result d _ _ p cs h Hs Hp _ _ seed initial _ _ Hi (H n0 k0 (le_n _) (le_n _))) as (o' & E & A & B & _). assert (Eo : o = o') by congruence. clear E.
  unfold model_solve. rewrite Hd, Eo in *. auto.
Qed.
Print Assumptions C60_returns.

(** Otherwise it raises, before searching. *)
Theorem C60_incomplete : forall ops m missing, ModelSpec.after ops m -> ~ ModelPy.complete m ->
  exists e, forall X stop p collect_stats n k seed initial x, model_solve m missing X stop p collect_stats n k seed initial x = Some (Err e).
Proof.
  intros ops m missing Ha Hc. destruct (proj2 (model_data_complete m missing (model_of_calls ops m Ha)) Hc) as (e & He).
  exists e. intros. unfold model_solve. rewrite He. reflexivity.
Qed.
Print Assumptions C60_incomplete.

(** ** A case: the model of PModel.v, with a vehicle that reloads, an optional group and a shipment; the default parameters. *)
Lemma pm_modest : modest_calls pm_ops 99 5 4 99 5 0 1.
Proof.
  constructor.
  - unfold pm_ops. repeat (constructor; [cbn; unfold SIZE_MAX, MAXV; try lia|]). constructor.
  - unfold MAX_VALUE; lia.
  - right. unfold released_in_time, pm_ops. cbn [In]. intros. repeat match goal with
    | H : False |- _ => contradiction H
    | H : _ \/ _ |- _ => destruct H as [H|H]
    | H : _ = _ |- _ => first [discriminate H|injection H as; subst]
    end; lia.
  - unfold MAXV; lia.
  - vm_compute. discriminate.
  - vm_compute. reflexivity.
Qed.
Definition pm_run := match model_solve pm_model 99 (criterion * nat) (py_stop (fun _ => 0)) defaults false 50 20 0 None (MaxIterations 3 0, 0%nat) with
  | Some (Ok o) => Some (so_isFeasible (o_best o), so_isComplete (o_best o), map Route.r_acts (so_routes (o_best o)))
  | _ => None
  end.
Example C60_case : ModelSpec.after pm_ops pm_model /\ ModelPy.complete pm_model /\ modest_calls pm_ops 99 5 4 99 5 0 1 /\ params_ok defaults /\ ends (fun _ => 0) (MaxIterations 3 0) /\
  pm_run = Some (false, true, [[AClient 1; AClient 2]; [APickup 0; ADelivery 0]]).
Proof.
  split; [exact (proj1 C54_case)|]. split; [|split; [exact pm_modest|split; [exact defaults_ok|split; [constructor|vm_compute; reflexivity]]]].
  constructor.
  - unfold edges_known, pm_model. vm_compute. repeat (constructor; [split; auto|]); constructor.
  - vm_compute. discriminate.
  - vm_compute. discriminate.
  - vm_compute. repeat constructor; discriminate.
  - exists 1%nat. vm_compute. repeat constructor.
  - vm_compute. repeat constructor; exists 0; vm_compute; repeat split; discriminate.
Qed.
