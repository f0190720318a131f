(** Property theorems C22, C23, C24, C27 and C47: the local search. *)
From Coq Require Import ZArith Lia List Permutation.
From Verif Require Import Base DurationSegment Data LoadSegment SearchRoute RouteDur Valid Route RouteSpec RouteFacts2 Cost CostFacts DataCtor Solution SolutionFacts
  SolutionFacts2 SolutionFacts3 Penalty Pm Bitset Rng MakeRandom SearchSpace Neighbourhood SearchNodes SearchSeq SearchLoad SearchLoad2 Ops PlanFacts OpsBase OpsGen OpsOne OpsEdit OpsEdit2 OpsAll
  LocalSearch LocalFacts LocalTerm LocalInsert LocalEnsure Perturb LocalRun Fits Sample Sample2 POps.
Import ListNotations.
Local Open Scope nat_scope.

(** [usable]: the local search object has neighbourhoods for all clients and shipments of the
    instance, and operators that can be constructed.  One with computed neighbourhoods is usable, and
    it stays so after adding operators.  By the theorems below it stays so after each call. *)
Theorem C24_computed_usable : forall d r np pp se, in_int64 d -> weight_ok (np_wait np) -> pp_min pp <= pp_max pp ->
  make_searcher d r (compute_neighbours d np) pp = Ok se -> usable d se.
Proof. exact computed_usable. Qed.
Print Assumptions C24_computed_usable.
Theorem C24_operators_usable : forall d se u b, usable d se -> op_ok b -> usable d (add_unary se u) /\ usable d (add_binary se b).
Proof. exact operators_usable. Qed.
Print Assumptions C24_operators_usable.

(** C23.  Every call of the local search returns: there is a number of rounds after which the search
    loop has stopped, whatever the solution, operators, neighbourhoods and random numbers.  No
    exception, no missing node. *)
Theorem C23_terminates : forall d h ev, setting d h ev -> groups_nodup d -> (forall v, In v (p_vehicles d) -> (0 <= v_maxReloads v)%Z) ->
  forall se routes sol exhaustive, usable d se -> Forall (built d) routes -> make_solution d routes = Ok sol ->
  exists n sol' se', forall m, n <= m -> py_call d m se sol ev exhaustive = Some (sol', se').
Proof.
  intros d h ev St ND Re se routes sol exhaustive U B Es.
  destruct (py_call_spec d h ev St ND Re se routes sol exhaustive U B Es) as (n & sol' & se' & routes' & H & _). exists n, sol', se'. exact H.
Qed.
Print Assumptions C23_terminates.

(** C24.  What it returns is a solution (made from routes that pass all checks), in which all required
    clients and shipments are planned, every required group has a planned member, and no group has
    two.  This holds whether or not the given solution is like that. *)
Theorem C24_complete : forall d h ev, setting d h ev -> groups_nodup d -> (forall v, In v (p_vehicles d) -> (0 <= v_maxReloads v)%Z) ->
  forall se routes sol exhaustive n sol' se', usable d se -> Forall (built d) routes -> make_solution d routes = Ok sol ->
  py_call d n se sol ev exhaustive = Some (sol', se') ->
  usable d se' /\ Forall (built d) (so_routes sol') /\ make_solution d (so_routes sol') = Ok sol' /\ so_isComplete sol' = true /\
  (forall i, i < p_numClients d -> c_required (p_client d i) = true -> In (AClient i) (SolutionFacts.plan (so_routes sol'))) /\
  (forall i, i < p_numShipments d -> s_required (p_shipment d i) = true -> In (APickup i) (SolutionFacts.plan (so_routes sol')) /\ In (ADelivery i) (SolutionFacts.plan (so_routes sol'))) /\
  (forall g, In g (p_groups d) -> g_required g = true -> exists i, In i (g_clients g) /\ In (AClient i) (SolutionFacts.plan (so_routes sol'))) /\
  (forall g i j, In g (p_groups d) -> In i (g_clients g) -> In j (g_clients g) -> In (AClient i) (SolutionFacts.plan (so_routes sol')) -> In (AClient j) (SolutionFacts.plan (so_routes sol')) -> i = j).
Proof. exact py_call_complete. Qed.
Print Assumptions C24_complete.

(** C22.  Without perturbation (an exhaustive call, or no perturbations drawn), and starting from a
    complete solution, the result is not worse in penalised cost. *)
Theorem C22_no_worse : forall d h ev, setting d h ev -> groups_nodup d -> (forall v, In v (p_vehicles d) -> (0 <= v_maxReloads v)%Z) ->
  forall se routes sol exhaustive n sol' se', usable d se -> Forall (built d) routes -> make_solution d routes = Ok sol ->
  py_call d n se sol ev exhaustive = Some (sol', se') -> so_isComplete sol = true ->
  exhaustive = true \/ se_num (se_shuffle se) = 0 -> (solution_penalised ev sol' <= solution_penalised ev sol)%Z.
Proof. exact py_call_no_worse. Qed.
Print Assumptions C22_no_worse.

(** C27.  The number of perturbations drawn lies within the configured bounds. *)
Theorem C27_range : forall lo hi pp r, make_pparams lo hi = Ok pp ->
  lo <= pm_init pp <= hi /\ lo <= snd (pm_shuffle pp r) <= hi.
Proof.
  intros lo hi pp r. unfold make_pparams. destruct (hi <? lo) eqn:E; [discriminate|]. intros H. injection H as <-. apply Nat.ltb_ge in E.
  split; [unfold pm_init; cbn [pp_min]; lia|]. apply (shuffle_range (mk_pparams lo hi) r). exact E.
Qed.
Print Assumptions C27_range.

(** A perturbation with number [num] changes exactly [num] clients and shipments (all, if there are
    fewer), each once: those planned are taken out and those not planned are put in.  Everything else
    stays planned in the same routes and in the same order, and what is left is a plan.  Those changed
    are marked as promising. *)
Theorem C27_changes : forall d h ev, setting d h ev -> forall num p sp, plan_ok d p -> space_inv d sp -> space_ok d sp ->
  exists s' sp' X, perturb d ev num (sync d p, sp) = Some (s', sp') /\ s' = sync d (sp_mids s') /\ plan_ok d (sp_mids s') /\
    NoDup X /\ length X = Nat.min num (p_numClients d + p_numShipments d) /\
    (forall a, In a X -> In a (activity_order d) /\ tot (sp_mids s') a + tot p a = 1 /\ is_promising sp' a = true) /\
    (forall a, a_isDepot a = false -> ~ In (lead a) X -> tot (sp_mids s') a = tot p a) /\
    (forall r, others X (mid_at (sp_mids s') r) = others X (mid_at p r)).
Proof.
  intros d h ev St num p sp P Si So. destruct (perturb_spec d h ev St num p sp P Si So) as ([s' sp'] & X & E & [A1 A2 A3 A4 A5 A6 A7 A8 A9 A10] & L).
  cbn [fst snd] in *. exists s', sp', X. split; [exact E|]. split; [exact A1|]. split; [exact A2|]. split; [exact A3|]. split; [exact L|].
  split; [intros a Ha; auto|]. split; [exact A6|exact A7].
Qed.
Print Assumptions C27_changes.

(** C47.  Inserting an unplanned client puts it where the penalised cost rises the least, among: the
    start of the first route, after each planned neighbour, and an empty route of a vehicle type if one
    of those tried is better ([first_empty]; vehicle types are tried in order until one improves).  If
    the client is not required it is inserted only if the cost goes down. *)
Theorem C47_insert_client : forall d h ev, setting d h ev -> forall p i sp vs required, plan_ok d p -> i < p_numClients d -> tot p (AClient i) = 0 ->
  space_inv d sp -> neighbours_of sp (AClient i) = Ok vs -> (forall v, In v vs -> visit_known d v) ->
  exists delta p', insert_client d ev sp (sync d p) i required = Some (if required || (delta <? 0)%Z then Some p' else None) /\
    client_put p i p' /\ plan_ok d p' /\ plan_cost d ev p' = (plan_cost d ev p + delta)%Z /\
    (forall q, inserted p (AClient i) (VStart 0) q -> (plan_cost d ev p' <= plan_cost d ev q)%Z) /\
    (forall a q, In a vs -> inserted p (AClient i) (VAct a) q -> (plan_cost d ev p' <= plan_cost d ev q)%Z) /\
    ((exists r, has_visit (mid_at p r) = false /\ inserted p (AClient i) (VStart r) p') \/
     (forall t o r q, In (t, o) (ss_vehOrder sp) -> first_empty (sync d p) o (avail d t) = Some r -> inserted p (AClient i) (VStart r) q -> (plan_cost d ev p' <= plan_cost d ev q)%Z)).
Proof.
  intros d h ev St p i sp vs required P Hi Un Si Nb K.
  destruct (insert_client_spec d h ev St p P i Hi Un sp vs required Si Nb K) as (delta & p' & E & C & [P' D] & H1 & H2 & H3).
  exists delta, p'. split; [exact E|]. split; [exact C|]. split; [exact P'|]. split; [exact D|]. split; [exact H1|]. split; [|exact H3].
  intros a q Ha. exact (H2 a q Ha (K a Ha)).
Qed.
Print Assumptions C47_insert_client.

(** The same for shipments: around each planned neighbour the pickup goes before or after it and the
    delivery anywhere later in the same trip. *)
Theorem C47_insert_shipment : forall d h ev, setting d h ev -> forall p i sp vs required, plan_ok d p -> i < p_numShipments d -> tot p (APickup i) = 0 ->
  space_inv d sp -> neighbours_of sp (APickup i) = Ok vs -> (forall v, In v vs -> visit_known d v) ->
  exists res, insert_shipment d ev sp (sync d p) i required = Some res /\ (required = true -> res <> None) /\
    (forall p', res = Some p' -> ship_put p i p' /\ plan_ok d p' /\ (required = true \/ (plan_cost d ev p' < plan_cost d ev p)%Z)) /\
    forall v r A B C M D, In v vs -> r < length p -> mid_at p r = A ++ v :: B -> C ++ M ++ D = A ++ v :: B -> num_reloads M = 0 -> (C = A \/ C = A ++ [v]) ->
      (plan_cost d ev (match res with Some p' => p' | None => p end) <= plan_cost d ev (upd p r (C ++ APickup i :: M ++ ADelivery i :: D)))%Z.
Proof.
  intros d h ev St p i sp vs required P Hi Un Si Nb K.
  destruct (insert_shipment_spec d h ev St p P i Hi Un sp vs required Si Nb K) as (res & E & R & H1 & H2).
  exists res. split; [exact E|]. split; [exact R|]. split; [intros p' Hp; destruct (H1 p' Hp) as (A & B & C & _); auto|].
  destruct res as [p'|]; [exact (proj2 (proj2 (proj2 (H1 p' eq_refl))))|exact (H2 eq_refl)].
Qed.
Print Assumptions C47_insert_shipment.

(** The segment between pickup and delivery is grown node by node; it has the figures of the usual
    segment. *)
Theorem C47_incremental : forall d profile c s k, s + k < length (ca_items c) -> it_reload (ca_item c s) = false ->
  fst (grown d profile c s k) = sg_duration d profile (SBetween c s (s + k)) /\
  forall dim, snd (grown d profile c s k) dim = sg_load d dim (SBetween c s (s + k)).
Proof. exact grown_spec. Qed.
Print Assumptions C47_incremental.

(** C19.  The theorems above are about plans.  Loading a solution into search routes in any state
    gives search routes that hold the plan the search starts from, and unloading search routes
    that hold a plan gives what the search returns for that plan. *)
Theorem C19_load_plan : forall d h ev, setting d h ev -> groups_nodup d -> (forall v, In v (p_vehicles d) -> (0 <= v_maxReloads v)%Z) ->
  forall s pl routes sol, ready d s pl -> length pl = length (fleet d) -> Forall (built d) routes -> make_solution d routes = Ok sol ->
  exists s', load d s (so_routes sol) = Some (s', false) /\ ready d s' (full_plan d (load_plan d (so_routes sol))) /\
    plan_ok d (load_plan d (so_routes sol)) /\ plan_cost d ev (load_plan d (so_routes sol)) = solution_penalised ev sol /\
    forall a, a_isDepot a = false -> In a (SolutionFacts.plan (so_routes sol)) <-> tot (load_plan d (so_routes sol)) a = 1.
Proof. exact load_as_plan. Qed.
Print Assumptions C19_load_plan.
Theorem C19_unload_plan : forall d h ev, setting d h ev -> groups_nodup d -> (forall v, In v (p_vehicles d) -> (0 <= v_maxReloads v)%Z) ->
  forall s p, plan_ok d p -> group_once d p -> ready d s (full_plan d p) ->
  exists sol, unload d s = Ok sol /\ unload_sol d (sync d p) = Ok sol /\ Forall (built d) (so_routes sol) /\ make_solution d (so_routes sol) = Ok sol /\
    solution_penalised ev sol = plan_cost d ev p /\ forall a, a_isDepot a = false -> In a (SolutionFacts.plan (so_routes sol)) <-> tot p a = 1.
Proof. exact unload_as_plan. Qed.
Print Assumptions C19_unload_plan.

(** ** Cases *)
(** A local search object for the instance of Sample2.v, with its computed neighbourhoods (six
    neighbours each), all operators and two to four perturbations. *)
Definition oPar : nparams := mk_nparams (b64_of_Z 2) 6 true.
Definition oNb : neighbours :=
  [ (AClient 0, [AClient 1; AClient 4; APickup 1; ADelivery 0; ADelivery 2; AClient 2]);
    (AClient 1, [APickup 1; AClient 3; AClient 5; APickup 0; APickup 2; ADelivery 1]);
    (AClient 2, [AClient 5; APickup 0; APickup 2; AClient 0; APickup 1; AClient 3]);
    (AClient 3, [ADelivery 1; AClient 1; AClient 4; APickup 1; ADelivery 0; ADelivery 2]);
    (AClient 4, [ADelivery 0; ADelivery 2; AClient 3; ADelivery 1; AClient 1; APickup 1]);
    (AClient 5, [APickup 0; APickup 2; AClient 1; APickup 1; AClient 2; AClient 0]);
    (APickup 0, [AClient 4; AClient 5; APickup 2; ADelivery 2; AClient 1; AClient 3]);
    (APickup 1, [AClient 1; AClient 3; AClient 4; AClient 5; APickup 0; APickup 2]);
    (APickup 2, [AClient 4; AClient 5; APickup 0; ADelivery 0; AClient 1; AClient 3]) ].
Lemma oNb_computed : compute_neighbours osample oPar = oNb.
Proof. vm_compute. reflexivity. Qed.
Definition oUnary : list unary := [URelocateDelivery; URelocatePickup; URemoveAdjacentDepot; URemoveOptionalClient; URemoveOptionalShipment; UReplaceGroup].
Definition oBinary : list binary :=
  [BRelocate 1; BRelocate 2; BSwap 1 1; BSwap 2 1; BSwapTails; BInsertOptionalClient; BInsertOptionalShipment; BRelocateAlternative;
   BRelocateShipment; BRelocateWithDepot; BReplaceOptionalClient; BReplaceOptionalShipment].
Definition oSearcher0 : searcher :=
  match make_searcher osample (rng_seed 42) oNb (mk_pparams 2 4) with Ok se => se | Err _ => mk_searcher (rng_seed 0) (mk_space [] [] [] []) [] [] (mk_pparams 0 0) 0 end.
Definition oSearcher : searcher := fold_left add_binary oBinary (fold_left add_unary oUnary oSearcher0).
Lemma oSearcher0_made : make_searcher osample (rng_seed 42) oNb (mk_pparams 2 4) = Ok oSearcher0.
Proof. vm_compute. reflexivity. Qed.
Example oSearcher_usable : usable osample oSearcher.
Proof.
  assert (I : in_int64 osample).
  { constructor.
    - cbn [osample p_clients]. repeat (constructor; [cbn; unfold MAXV; lia|]). constructor.
    - cbn [osample p_shipments]. repeat (constructor; [intros x [-> | ->]; cbn; lia|]). constructor.
    - cbn [osample p_vehicles]. repeat (constructor; [cbn; lia|]). constructor.
    - intros profile a b. unfold p_dist, m_at. apply (Forall_nth_default (fun z => (Z.abs z <= 2 ^ 63)%Z)); [|lia].
      apply (Forall_nth_default (fun m => Forall (fun z => (Z.abs z <= 2 ^ 63)%Z) (m_data m))); [|constructor].
      repeat (constructor; [cbn; repeat (constructor; [lia|]); constructor|]). constructor.
    - intros profile a b. unfold p_dur, m_at. apply (Forall_nth_default (fun z => (Z.abs z <= 2 ^ 63)%Z)); [|lia].
      apply (Forall_nth_default (fun m => Forall (fun z => (Z.abs z <= 2 ^ 63)%Z) (m_data m))); [|constructor].
      repeat (constructor; [cbn; repeat (constructor; [lia|]); constructor|]). constructor. }
  assert (U : usable osample oSearcher0).
  { apply (C24_computed_usable osample (rng_seed 42) oPar (mk_pparams 2 4)); [exact I|vm_compute; reflexivity|cbn; lia|]. rewrite oNb_computed. exact oSearcher0_made. }
  unfold oSearcher, oBinary, oUnary. cbn [fold_left].
  repeat (match goal with
    | |- usable _ (add_unary ?s ?u) => apply (operators_usable osample s u (BRelocate 1)); [|cbn; lia]
    | |- usable _ (add_binary ?s ?b) => apply (operators_usable osample s UReplaceGroup b); [|cbn; lia] end). exact U.
Qed.
Lemma osample_groups : groups_nodup osample.
Proof. constructor; [|constructor]. repeat constructor; cbn; lia. Qed.
Lemma osample_reloads v : In v (p_vehicles osample) -> (0 <= v_maxReloads v)%Z.
Proof. intros [<-|[<-|[]]]; cbn; lia. Qed.
Definition oCall (p : plan) (exhaustive : bool) : option (bool * Z * (bool * Z)) :=
  match unload_sol osample (sync osample p) with
  | Ok sol => match py_call osample 50 oSearcher sol oEv exhaustive with
              | Some (s', _) => Some ((so_isComplete sol, solution_penalised oEv sol), (so_isComplete s', solution_penalised oEv s'))
              | None => None
              end
  | Err _ => None
  end.
(** An exhaustive call improves a complete solution of cost 440 to 91; a call with perturbation makes
    a solution without any routes complete. *)
Example C22_case :
  setting osample 20 oEv /\ groups_nodup osample /\ usable osample oSearcher /\
  (exists routes sol, Forall (built osample) routes /\ make_solution osample routes = Ok sol /\ unload_sol osample (sync osample oPlan2) = Ok sol) /\
  oCall oPlan2 true = Some ((true, 440%Z), (true, 91%Z)) /\
  (exists x, oCall [[]; []; []; []] false = Some ((false, 277%Z), (true, x))).
Proof.
  split; [exact osample_setting|]. split; [exact osample_groups|]. split; [exact oSearcher_usable|].
  split; [|split; [vm_compute; reflexivity|eexists; vm_compute; reflexivity]].
  destruct (plan_solution osample 20 oEv osample_setting osample_groups (trips osample osample_reloads) oPlan2) as (routes & sol & _ & U & Es & B & _).
  - apply plan_checked. vm_compute. reflexivity.
  - apply group_checked. vm_compute. reflexivity.
  - exists routes, sol. auto.
Qed.
(** A perturbation of size three: client 0, client 1 and shipment 0 are taken out. *)
Example C27_case : space_inv osample (se_space oSearcher) /\ space_ok osample (se_space oSearcher) /\ plan_ok osample oPlan1 /\
  option_map (fun x => sp_mids (fst x)) (perturb osample oEv 3 (sync osample oPlan1, se_space oSearcher)) =
    Some [[AClient 3; ADepot 1]; []; [AClient 5]; []].
Proof.
  split; [exact (us_inv _ _ oSearcher_usable)|]. split; [exact (us_ok _ _ oSearcher_usable)|]. split; [apply plan_checked; vm_compute; reflexivity|]. vm_compute. reflexivity.
Qed.
(** An optional client and an optional shipment that are worth it, and a client put in by force. *)
Example C47_case : plan_ok osample oPlan1 /\ plan_ok osample oPlan2 /\ tot oPlan1 (AClient 4) = 0 /\ tot oPlan1 (APickup 1) = 0 /\ tot oPlan2 (AClient 1) = 0 /\
  (exists vs, neighbours_of (se_space oSearcher) (AClient 4) = Ok vs) /\
  insert_client osample oEv (se_space oSearcher) (sync osample oPlan1) 4 false =
    Some (Some [[AClient 0; APickup 0; AClient 3; ADelivery 0; AClient 4; ADepot 1; AClient 1]; []; [AClient 5]; []]) /\
  insert_client osample oEv (se_space oSearcher) (sync osample oPlan2) 1 true =
    Some (Some [[AClient 5; ADepot 1; AClient 0]; [APickup 0; AClient 1; AClient 3; ADelivery 0]; [APickup 1; AClient 4; ADelivery 1; AClient 2]; []]) /\
  insert_shipment osample oEv (se_space oSearcher) (sync osample oPlan1) 1 false =
    Some (Some [[AClient 0; APickup 0; APickup 1; ADelivery 1; AClient 3; ADelivery 0; ADepot 1; AClient 1]; []; [AClient 5]; []]).
Proof.
  split; [apply plan_checked; vm_compute; reflexivity|]. split; [apply plan_checked; vm_compute; reflexivity|].
  split; [reflexivity|]. split; [reflexivity|]. split; [reflexivity|]. split; [eexists; vm_compute; reflexivity|]. repeat split; vm_compute; reflexivity.
Qed.
(** Search routes that hold nothing can be loaded. *)
Example C19_plan_case : ready osample (new_search osample) (full_plan osample [[]; []; []; []]) /\ length (full_plan osample [[]; []; []; []]) = length (fleet osample).
Proof.
  split; [|reflexivity]. destruct (new_ready osample) as [H _]; [|exact H].
  intros [|[|t]] Ht; [vm_compute; discriminate|vm_compute; discriminate|unfold p_numVehicleTypes in Ht; cbn in Ht; lia].
Qed.
