(** Property theorem C54: the data of a Model. *)
From Coq Require Import String.
From Verif Require Import Base Data DataCtor ModelPy ModelSpec ModelHist.
Local Open Scope Z_scope.

(** C54: data() holds what the calls added, in their order; every reference is to the object that was passed. *)
Theorem C54_described : forall ops m missing d, after ops m -> model_data m missing = Ok d -> described ops missing d.
Proof. exact calls_described. Qed.
Print Assumptions C54_described.

(** A call that refers to an object that is not in the model raises ValueError. *)
Theorem C54_unknown : forall ops m o, after ops m -> unknown_reference ops o -> step m o = Err InvalidArgument.
Proof. exact unknown_rejected. Qed.
Print Assumptions C54_unknown.

(** Two depots, a group of two clients, a shipment, and a vehicle that reloads at the second depot. *)
Definition pm_ops : list op :=
  [ AddLocation 7 (mk_location 0 0 EmptyString); AddLocation 9 (mk_location 3 4 EmptyString); AddLocation 3 (mk_location 3 4 EmptyString);
    AddDepot 1 9 0 100 0 EmptyString; AddDepot 2 7 0 90 5 EmptyString; AddGroup 8 true EmptyString; AddProfile 6; AddProfile 4;
    AddClient 3 [2] [] 0 0 50 0 3 false (Some 8%nat) EmptyString; AddClient 7 [] [1] 2 0 50 0 0 true None EmptyString;
    AddClient 9 [4] [] 2 0 60 0 3 false (Some 8%nat) EmptyString; AddEdge 7 9 6 8 None; AddEdge 7 9 3 3 (Some 4%nat);
    AddShipment 3 9 0 40 1 5 45 1 [2] 0 true EmptyString;
    AddVehicle 2 [10] (Some 2%nat) None 0 0 100 MAXV MAXV 1 0 (Some 4%nat) None [] [2%nat] 3 0 0 EmptyString ].
Definition pm_model : pymodel := match fold_left (fun m o => bind m (fun m => step m o)) pm_ops (Ok empty_model) with Ok m => m | Err _ => empty_model end.
Example C54_case : after pm_ops pm_model /\ unknown_reference pm_ops (AddDepot 5 8 0 10 0 EmptyString) /\
  exists d, model_data pm_model 99 = Ok d /\ map c_loc (p_clients d) = [2; 0; 1]%nat /\ map g_clients (p_groups d) = [[0; 2]%nat] /\
    map d_loc (p_depots d) = [1; 0]%nat /\ map (fun v => (v_start v, v_end v, v_profile v, v_reload v)) (p_vehicles d) = [(1, 0, 1, [1])%nat] /\
    map (fun p => p_dist d p 0 1) [0; 1]%nat = [6; 3].
Proof.
  split; [|split; [cbn; lia|eexists; split; vm_compute; repeat split; reflexivity]].
  assert (G : forall ops, (forall pre o post m, ops = pre ++ o :: post -> fold_left (fun m o => bind m (fun m => step m o)) pre (Ok empty_model) = Ok m -> fresh m o /\ int64_late o) ->
    forall m, fold_left (fun m o => bind m (fun m => step m o)) ops (Ok empty_model) = Ok m -> after ops m).
  { induction ops as [|o ops IH] using rev_ind; intros Hf m E; [injection E as <-; constructor|].
    rewrite fold_left_app in E. cbn [fold_left] in E. destruct (fold_left _ ops (Ok empty_model)) as [m1|] eqn:E1; [|discriminate]. cbn [bind] in E.
    destruct (Hf ops o [] m1 eq_refl E1) as [F1 F2]. apply (af_call _ m1); try assumption. apply IH; [|reflexivity].
    intros pre o' post m2 Ep. apply (Hf pre o' (post ++ [o]) m2). rewrite Ep, <- app_assoc. reflexivity. }
  apply G; [|vm_compute; reflexivity]. intros pre o post m Ep Er.
  do 15 (destruct pre as [|? pre]; [injection Ep as <- _; vm_compute in Er; injection Er as <-; cbn; split; try tauto; try (vm_compute; congruence); try (split; vm_compute; congruence); lia|
    injection Ep as <- Ep]). destruct pre; discriminate.
Qed.
