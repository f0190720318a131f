(** The whole solver: pyvrp/solve.py, with the operators' [supports] functions. *)
From Coq Require Import ZArith Lia List.
From Verif Require Import Base DurationSegment Data LoadSegment SearchRoute Valid Route RouteSpec Cost CostFacts DataCtor Solution SolutionFacts
  SolutionFacts2 SolutionFacts3 Penalty Rng RngFloat Pm MakeRandom RingBuffer Ils Stop SearchSpace Neighbourhood Ops PlanFacts OpsBase OpsAll
  LocalSearch LocalFacts Perturb LocalRun.
From Flocq Require Import IEEE754.BinarySingleNaN.
Import ListNotations.
Local Open Scope nat_scope.

(** ** Operators *)
Inductive operator := OUnary (o : unary) | OBinary (o : binary).
(** Some vehicle type can reload, RelocateWithDepot.cpp:197-205 and RemoveAdjacentDepot.cpp:70-78. *)
Definition some_reload (d : pdata) : bool :=
  existsb (fun v => negb (match v_reload v with [] => true | _ => false end) && negb (v_maxReloads v =? 0)%Z) (p_vehicles d).
(** Some client need not be visited, InsertOptionalClient.cpp:61-72 and RemoveOptionalClient.cpp:49-60. *)
Definition some_optional (d : pdata) : bool :=
  existsb (fun g => negb (g_required g)) (p_groups d) || existsb (fun c => negb (c_required c) && negb (is_some (c_group c))) (p_clients d).
Definition some_optional_shipment (d : pdata) : bool := existsb (fun s => negb (s_required s)) (p_shipments d).
Definition some_exclusive (d : pdata) : bool := existsb g_mutuallyExclusive (p_groups d).
(** Relocate.h:184-191 and Swap.h:186-193: an odd number of visits does not move if there are only shipments. *)
Definition only_shipments (d : pdata) : bool := (p_numClients d =? 0) && (0 <? p_numShipments d).
(** The operators' [supports]: RelocateDelivery.cpp:70-73, RelocatePickup.cpp:69-72, RemoveOptionalShipment.cpp:60-67,
    ReplaceGroup.cpp:68-75, SwapTails.cpp:128-134, InsertOptionalShipment.cpp:75-82, RelocateAlternative.cpp:156-163,
    RelocateShipment.cpp:112-117, ReplaceOptionalClient.cpp:48-55, ReplaceOptionalShipment.cpp:86-93. *)
Definition supports (d : pdata) (o : operator) : bool :=
  match o with
  | OUnary URelocateDelivery | OUnary URelocatePickup => 0 <? p_numShipments d
  | OUnary URemoveAdjacentDepot | OBinary BRelocateWithDepot => some_reload d
  | OUnary URemoveOptionalClient | OBinary BInsertOptionalClient => some_optional d
  | OUnary URemoveOptionalShipment | OBinary BInsertOptionalShipment | OBinary BReplaceOptionalShipment => some_optional_shipment d
  | OUnary UReplaceGroup | OBinary BRelocateAlternative => some_exclusive d
  | OBinary (BRelocate n) => negb (only_shipments d && Nat.odd n)
  | OBinary (BSwap n m) => negb (only_shipments d && (Nat.odd n || Nat.odd m))
  | OBinary BSwapTails => (1 <? p_numVehicles d) && (0 <? p_numClients d)
  | OBinary BRelocateShipment => (0 <? p_numShipments d) && (1 <? p_numVehicles d)
  | OBinary BReplaceOptionalClient => existsb (fun c => negb (c_required c) && negb (is_some (c_group c))) (p_clients d)
  end.
(** search/__init__.py:35-55 *)
Definition OPERATORS : list operator :=
  [OBinary (BRelocate 1); OBinary (BRelocate 2); OBinary (BSwap 1 1); OBinary (BSwap 2 1); OBinary (BSwap 2 2); OBinary BSwapTails;
   OBinary BRelocateAlternative; OUnary URelocatePickup; OUnary URelocateDelivery; OBinary BRelocateWithDepot; OUnary URemoveAdjacentDepot;
   OUnary URemoveOptionalClient; OBinary BInsertOptionalClient; OBinary BReplaceOptionalClient; OUnary URemoveOptionalShipment;
   OBinary BInsertOptionalShipment; OBinary BReplaceOptionalShipment; OUnary UReplaceGroup; OBinary BRelocateShipment].
(** The operator classes that exist: Relocate1 to Relocate3 and Swap11 to Swap33. *)
Definition operator_ok (o : operator) : Prop := match o with OUnary _ => True | OBinary b => op_ok b end.

(** IteratedLocalSearch.py:96-104 (the values are numbers, callbacks are left out) *)
Record ils_params := mk_ils_params { ip_noimp : nat; ip_history : nat; ip_exhaustive : bool }.
Definition make_ils_params (noimp history : Z) (exhaustive : bool) : res ils_params :=
  if (noimp <? 0)%Z then Err InvalidArgument
  else if (history <=? 0)%Z then Err InvalidArgument
  else Ok (mk_ils_params (Z.to_nat noimp) (Z.to_nat history) exhaustive).
(** solve.py:51-65 (the display interval is left out) *)
Record solve_params := mk_solve_params {
  sv_ils : ils_params; sv_penalty : Pm.pparams; sv_neighbourhood : nparams; sv_operators : list operator; sv_perturbation : Perturb.pparams }.

(** PenaltyManager.py:113-132 *)
Definition midpoint (p : Pm.pparams) : b64 :=
  b64_add (Pm.pp_min p) (b64_div (b64_sub (Pm.pp_max p) (Pm.pp_min p)) (b64_of_Z 2)).
Definition midpoint_manager (d : pdata) (p : Pm.pparams) : pmanager :=
  make_pmanager (repeat (midpoint p) (p_numLoadDimensions d)) (midpoint p) (midpoint p) p.

(** solve.py:163-170 *)
Definition add_operator (d : pdata) (se : searcher) (o : operator) : searcher :=
  if supports d o then match o with OUnary u => add_unary se u | OBinary b => add_binary se b end else se.
Definition solve_searcher (d : pdata) (seed : Z) (p : solve_params) : res searcher :=
  match make_searcher d (rng_seed seed) (compute_neighbours d (sv_neighbourhood p)) (sv_perturbation p) with
  | Ok se => Ok (fold_left (add_operator d) (sv_operators p) se)
  | Err e => Err e
  end.
(** The random number generator is shared. *)
Definition set_rng (se : searcher) (r : rng) : searcher :=
  mk_searcher r (se_space se) (se_unary se) (se_binary se) (se_params se) (se_num se).

Section Solve.
Variable d : pdata.
(** The stopping criterion: any function with a state. *)
Variable X : Type.
Variable stop : X -> Z -> bool * X.

(** What the main loop works with.  [w_ok] records that nothing went wrong so far, and that the
    number of rounds given to each local search was large enough. *)
Record world := mk_world { w_search : searcher; w_pm : pmanager; w_stop : X; w_ok : bool }.
Definition no_evaluator : evaluator := mk_evaluator [] (fun _ => 0%Z) (fun _ => 0%Z).
Definition w_evaluator (w : world) : evaluator := match pm_evaluator (w_pm w) with Ok e => e | Err _ => no_evaluator end.
Definition is_ok {A} (r : res A) : bool := match r with Ok _ => true | Err _ => false end.
(** One call of the local search with [n] rounds.  When it is not exhaustive the evaluator has just
    been made, so that an exception there is noticed here. *)
Definition w_find (n : nat) (w : world) (s : solution) (e : evaluator) (exhaustive : bool) : solution * world :=
  match py_call d n (w_search w) s e exhaustive with
  | Some (s', se') => (s', mk_world se' (w_pm w) (w_stop w) (w_ok w && (exhaustive || is_ok (pm_evaluator (w_pm w)))))
  | None => (s, mk_world (w_search w) (w_pm w) (w_stop w) false)
  end.
Definition w_register (w : world) (s : solution) : world :=
  match pm_register (w_pm w) (violations s) with
  | Ok m => mk_world (w_search w) m (w_stop w) (w_ok w)
  | Err _ => mk_world (w_search w) (w_pm w) (w_stop w) false
  end.
Definition w_stops (w : world) (c : Z) : bool * world :=
  let '(b, x) := stop (w_stop w) c in (b, mk_world (w_search w) (w_pm w) x (w_ok w)).

Definition state := @ils solution evaluator world.
Variable p : solve_params.
Variable collect_stats : bool.
(** IteratedLocalSearch.py:224-282 *)
Definition body (n : nat) (init : solution) : state -> state :=
  ils_body so_isFeasible solution_cost solution_penalised w_evaluator (w_find n) w_register
    (ip_noimp (sv_ils p)) (ip_exhaustive (sv_ils p)) collect_stats init.
(** The loop, line 223, at most [k] rounds. *)
Fixpoint run (n k : nat) (init : solution) (st : state) : option state :=
  match k with
  | O => None
  | Datatypes.S k =>
      let '(b, w) := w_stops (i_world st) (solution_cost (i_eval st) (i_best st)) in
      if b then Some (set_world st w) else run n k init (body n init (set_world st w))
  end.
(** solve.py:172-180: the solution to start from. *)
Definition solve_init (n : nat) (se : searcher) (pm : pmanager) (initial : option solution) : option (res (solution * searcher)) :=
  match initial with
  | Some s => Some (Ok (s, se))
  | None =>
      let '(r, random) := make_random d (se_rng se) in
      match random with
      | Err e => Some (Err e)
      | Ok random =>
          match pm_max_evaluator pm with
          | Err e => Some (Err e)
          | Ok ev => option_map Ok (py_call d n (set_rng se r) random ev true)
          end
      end
  end.
(** Result.py:31-41, without the runtime; [o_init] and [o_trace] say what happened. *)
Record outcome := mk_outcome { o_best : solution; o_stats : list datum; o_iters : nat; o_init : solution; o_trace : list (@iter solution evaluator) }.
(** solve.py:124-183.  [n] bounds the rounds of each local search and [k] the iterations; [None] when
    they do not suffice. *)
Definition solve (n k : nat) (seed : Z) (initial : option solution) (x : X) : option (res outcome) :=
  match solve_searcher d seed p with
  | Err e => Some (Err e)
  | Ok se =>
      let pm := midpoint_manager d (sv_penalty p) in
      match solve_init n se pm initial with
      | None => None
      | Some (Err e) => Some (Err e)
      | Some (Ok (init, se)) =>
          match pm_evaluator pm with
          | Err e => Some (Err e)
          | Ok _ =>
              match run n k init (ils_init w_evaluator (ip_history (sv_ils p)) init (mk_world se pm x true)) with
              | Some st => if w_ok (i_world st) then Some (Ok (mk_outcome (i_best st) (i_stats st) (i_iters st) init (i_trace st))) else None
              | None => None
              end
          end
      end
  end.

(** ** Facts *)
Variable h : Z.
Definition good_evaluator (e : evaluator) : Prop := ev_ok e /\ length (ev_load e) = p_numLoadDimensions d.
Definition is_solution (s : solution) : Prop := exists routes, Forall (built d) routes /\ make_solution d routes = Ok s.
(** Instances the theorems speak about. *)
Record solvable : Prop := mk_solvable {
  sb_valid : valid_data d;
  sb_data : data_ok d;
  sb_opens : opens_by d h;
  sb_durs : nonneg_durs d;
  sb_fits : fits d h;
  sb_groups : groups_nodup d;
  sb_int64 : in_int64 d;
  sb_reloads : Forall (fun v => 0 <= v_maxReloads v <= SIZE_MAX)%Z (p_vehicles d);
  sb_available : Forall (fun v => 0 < v_numAvailable v) (p_vehicles d);
  sb_finite : forall s, is_solution s -> so_isFeasible s = true -> (objective d s < MAXV)%Z }.
Record params_ok : Prop := mk_params_ok {
  po_penalty : pparams_ok (sv_penalty p);
  po_weight : weight_ok (np_wait (sv_neighbourhood p));
  po_ops : Forall operator_ok (sv_operators p);
  po_perturb : Perturb.pp_min (sv_perturbation p) <= Perturb.pp_max (sv_perturbation p);
  po_history : 0 < ip_history (sv_ils p) }.
Hypothesis Hd : solvable.
Hypothesis Hp : params_ok.

Lemma in_setting e : good_evaluator e -> setting d h e.
Proof. intros [H1 H2]. destruct Hd. constructor; assumption. Qed.
Lemma reloads_ok v : In v (p_vehicles d) -> (0 <= v_maxReloads v)%Z.
Proof. intros H. exact (proj1 (proj1 (Forall_forall _ _) (sb_reloads Hd) v H)). Qed.
Lemma groups_ok : groups_known d.
Proof.
  unfold groups_known. rewrite Forall_forall. intros g Hg. rewrite Forall_forall. intros i Hi.
  destruct (In_nth _ _ dummy_group Hg) as (k & Hk & <-). apply (do_groups d (sb_data Hd) k Hk). exact Hi.
Qed.
Lemma two_h : (2 * h <= MAXV)%Z.
Proof.
  pose proof (do_some_vehicle d (sb_data Hd)) as Hv. set (v := p_vehicle d 0).
  assert (Hin : In v (p_vehicles d)) by (apply nth_In; exact Hv).
  assert (W : well_formed d v []).
  { apply route_ok_wf; [apply route_ok_nil| | |].
    - intros a [].
    - constructor.
    - apply trips_one, reloads_ok, Hin. }
  destruct (sb_fits Hd v [] Hin W) as [(_ & F & _) _]; [intros; cbn; lia|].
  destruct (ProposalDur.fits_bounds d h (sb_valid Hd) (sb_opens Hd) (sb_durs Hd) v [] F) as (_ & F2 & _). exact F2.
Qed.
Lemma sol_cost e s : good_evaluator e -> is_solution s -> solution_cost e s = value so_isFeasible (objective d) s.
Proof.
  intros [He _] (routes & HB & Hs). unfold value.
  destruct (cost_spec d h (sb_valid Hd) (sb_opens Hd) (sb_durs Hd) two_h routes HB (sb_groups Hd) groups_ok s Hs e He) as (C1 & C2 & _).
  destruct (so_isFeasible s); [apply C1; reflexivity|auto].
Qed.
Lemma sol_violations s : is_solution s -> length (violations s) = p_numLoadDimensions d + 2.
Proof.
  intros (routes & HB & Hs). destruct (sol_inv d routes HB (sb_groups Hd) groups_ok s Hs) as (_ & cv & sv & -> & _).
  unfold violations. rewrite app_length. cbn [so_excessLoad the_solution length]. rewrite map_length, seq_length. reflexivity.
Qed.

(** The penalty manager. *)
Lemma nan_sub (x y : b64) : is_finite x = true -> is_finite y = true -> is_nan (b64_sub x y) = false.
Proof.
  intros Hx Hy. pose proof (Bminus_correct 53 1024 b64_prec b64_emax mode_NE x y Hx Hy) as H. unfold b64_sub.
  destruct (Raux.Rlt_bool _ _); [destruct H as (_ & H & _); destruct (Bminus mode_NE x y); [reflexivity|reflexivity|discriminate|reflexivity]|].
  destruct H as [H _]. destruct (Bminus mode_NE x y); [reflexivity|reflexivity|discriminate|reflexivity].
Qed.
Lemma nan_half (x : b64) : is_nan x = false -> is_nan (b64_div x (b64_of_Z 2)) = false.
Proof.
  intros Hx. destruct (is_finite x) eqn:Fx.
  - pose proof (Bdiv_correct 53 1024 b64_prec b64_emax mode_NE x (b64_of_Z 2)) as H.
    assert (N2 : BinarySingleNaN.B2R (b64_of_Z 2) <> Rdefinitions.IZR 0).
    { destruct (word_exact 2) as [_ ->]; [unfold word, W32; lia|]. apply RIneq.not_0_IZR. lia. }
    specialize (H N2). unfold b64_div.
    destruct (Raux.Rlt_bool _ _); [destruct H as (_ & H & _); rewrite Fx in H; destruct (Bdiv mode_NE x _); [reflexivity|reflexivity|discriminate|reflexivity]|].
    destruct (Bdiv mode_NE x (b64_of_Z 2)); [reflexivity|reflexivity|discriminate|reflexivity].
  - destruct x as [sx|sx| |sx mx ex Bx]; try discriminate. destruct sx; vm_compute; reflexivity.
Qed.
Lemma nan_midpoint q : pparams_ok q -> is_nan (midpoint q) = false.
Proof.
  intros K. destruct (ppo_fin q K) as (_ & _ & _ & _ & F5 & F6). unfold midpoint.
  apply add_not_nan; [exact F5|]. apply nan_half, nan_sub; assumption.
Qed.
Definition pm_reached (m : pmanager) : Prop := exists xss,
  Forall (fun xs => length xs = p_numLoadDimensions d + 2) xss /\ pm_run (midpoint_manager d (sv_penalty p)) xss = Ok m.
Lemma reached_start : pm_reached (midpoint_manager d (sv_penalty p)).
Proof. exists []. split; [constructor|reflexivity]. Qed.
Lemma reached_evaluators m : pm_reached m ->
  (exists e, pm_evaluator m = Ok e /\ good_evaluator e) /\ (exists e, pm_max_evaluator m = Ok e /\ good_evaluator e).
Proof.
  intros (xss & Hx & E). pose proof (po_penalty Hp) as K. pose proof (nan_midpoint _ K) as Nm. unfold midpoint_manager in E.
  destruct (pm_evaluators (repeat (midpoint (sv_penalty p)) (p_numLoadDimensions d)) (midpoint (sv_penalty p)) (midpoint (sv_penalty p)) (sv_penalty p) xss m K) as [H1 H2];
    [|rewrite repeat_length; exact Hx|exact E|].
  - apply Forall_app. split; [|repeat constructor; exact Nm]. apply Forall_forall. intros y Hy. apply repeat_spec in Hy. subst y. exact Nm.
  - rewrite repeat_length in H1, H2. destruct H1 as (e1 & A1 & A2 & A3), H2 as (e2 & B1 & B2 & B3).
    split; [exists e1|exists e2]; repeat (split; auto).
Qed.
Lemma reached_register m s : pm_reached m -> is_solution s -> exists m', pm_register m (violations s) = Ok m' /\ pm_reached m'.
Proof.
  intros (xss & Hx & E) Hs. set (xss' := xss ++ [violations s]).
  assert (Hx' : Forall (fun xs => length xs = p_numLoadDimensions d + 2) xss').
  { apply Forall_app. split; [exact Hx|]. constructor; [apply sol_violations, Hs|constructor]. }
  destruct (pm_run_spec (repeat (midpoint (sv_penalty p)) (p_numLoadDimensions d)) (midpoint (sv_penalty p)) (midpoint (sv_penalty p)) (sv_penalty p) xss') as (m' & E' & _);
    [rewrite repeat_length; exact Hx'|].
  exists m'. split; [|exists xss'; split; [exact Hx'|exact E']].
  unfold midpoint_manager, pm_run in E. unfold pm_run, xss' in E'. rewrite fold_left_app, E in E'. exact E'.
Qed.

(** The states of the world that occur. *)
Definition okw (w : world) : Prop := usable d (w_search w) /\ pm_reached (w_pm w).
Lemma okw_eval w : okw w -> pm_evaluator (w_pm w) = Ok (w_evaluator w) /\ good_evaluator (w_evaluator w).
Proof. intros [_ Hm]. destruct (reached_evaluators _ Hm) as [(e & E & G) _]. unfold w_evaluator. rewrite E. auto. Qed.
Lemma okw_register w s : okw w -> is_solution s -> okw (w_register w s) /\ w_ok (w_register w s) = w_ok w /\ w_stop (w_register w s) = w_stop w.
Proof.
  intros [U Hm] Hs. destruct (reached_register _ s Hm Hs) as (m' & E & Hm'). unfold w_register. rewrite E. split; [split; assumption|auto].
Qed.
Lemma okw_stop w c : okw w -> okw (snd (w_stops w c)).
Proof. intros H. unfold w_stops. destruct (stop (w_stop w) c) as [b x]. exact H. Qed.
Lemma find_stable w s e exhaustive : okw w -> is_solution s -> good_evaluator e ->
  exists n0 s' w', (forall n, n0 <= n -> w_find n w s e exhaustive = (s', w')) /\ okw w' /\ w_ok w' = w_ok w /\ w_stop w' = w_stop w /\
    is_solution s' /\ so_isComplete s' = true.
Proof.
  intros W (routes & HB & Hs) He. destruct (okw_eval w W) as [Ee _]. destruct W as [U Hm].
  destruct (py_call_spec d h e (in_setting e He) (sb_groups Hd) reloads_ok (w_search w) routes s exhaustive U HB Hs)
    as (n0 & s' & se' & routes' & E & U' & B' & Es' & C & _).
  exists n0, s', (mk_world se' (w_pm w) (w_stop w) (w_ok w)). split; [|split; [split; assumption|]].
  - intros n Hn. unfold w_find. rewrite (E n Hn), Ee. cbn [is_ok]. rewrite Bool.orb_true_r, Bool.andb_true_r. reflexivity.
  - cbn [w_ok w_stop]. split; [reflexivity|]. split; [reflexivity|]. split; [exists routes'; auto|exact C].
Qed.
(** Whatever the number of rounds. *)
Lemma find_ok n w s e exhaustive : okw w -> is_solution s -> good_evaluator e ->
  let s' := fst (w_find n w s e exhaustive) in let w' := snd (w_find n w s e exhaustive) in
  okw w' /\ w_stop w' = w_stop w /\ is_solution s' /\ (s' = s \/ so_isComplete s' = true) /\
  (exhaustive = true -> so_isFeasible s = true -> so_isFeasible s' = true -> (objective d s' <= objective d s)%Z).
Proof.
  intros W Hs He. pose proof Hs as (routes & HB & Es). unfold w_find. destruct (py_call d n (w_search w) s e exhaustive) as [[s1 se1]|] eqn:E; cbn [fst snd].
  - destruct W as [U Hm].
    destruct (py_call_complete d h e (in_setting e He) (sb_groups Hd) reloads_ok _ routes s exhaustive n s1 se1 U HB Es E) as (U' & B' & Es' & C & _).
    split; [split; assumption|]. split; [reflexivity|]. split; [exists (so_routes s1); auto|]. split; [right; exact C|].
    intros -> F F1. assert (Cs : so_isComplete s = true).
    { unfold so_isFeasible in F. apply Bool.andb_true_iff in F. destruct F as [_ F]. exact F. }
    pose proof (py_call_no_worse d h e (in_setting e He) (sb_groups Hd) reloads_ok _ routes s true n s1 se1 U HB Es E Cs (or_introl eq_refl)) as L.
    destruct He as [He _].
    destruct (cost_spec d h (sb_valid Hd) (sb_opens Hd) (sb_durs Hd) two_h routes HB (sb_groups Hd) groups_ok s Es e He) as (C1 & _).
    destruct (cost_spec d h (sb_valid Hd) (sb_opens Hd) (sb_durs Hd) two_h _ B' (sb_groups Hd) groups_ok s1 Es' e He) as (C2 & _).
    rewrite (proj2 (C1 F)), (proj2 (C2 F1)) in L. exact L.
  - split; [exact W|]. split; [reflexivity|]. split; [exact Hs|]. split; [left; reflexivity|]. lia.
Qed.

(** ** The main loop *)
Notation binv n init := (best_inv so_isFeasible (w_find n) (fun s => is_solution s /\ (s = init \/ so_isComplete s = true)) good_evaluator okw init).
Lemma good_cost init e s : good_evaluator e -> is_solution s /\ (s = init \/ so_isComplete s = true) -> solution_cost e s = value so_isFeasible (objective d) s.
Proof. intros He [Hs _]. apply sol_cost; assumption. Qed.
Lemma good_finite init s : is_solution s /\ (s = init \/ so_isComplete s = true) -> so_isFeasible s = true -> (objective d s < MAXV)%Z.
Proof. intros [Hs _]. apply (sb_finite Hd), Hs. Qed.
Lemma good_eval w : okw w -> good_evaluator (w_evaluator w).
Proof. intros H. apply okw_eval, H. Qed.
Lemma good_find n init w s e b : okw w -> is_solution s /\ (s = init \/ so_isComplete s = true) -> good_evaluator e ->
  (is_solution (fst (w_find n w s e b)) /\ (fst (w_find n w s e b) = init \/ so_isComplete (fst (w_find n w s e b)) = true)) /\ okw (snd (w_find n w s e b)).
Proof.
  intros W [Hs Hc] He. destruct (find_ok n w s e b W Hs He) as (A & _ & B & C & _). split; [|exact A]. split; [exact B|].
  destruct C as [->|C]; auto.
Qed.
Lemma good_register init w s : okw w -> is_solution s /\ (s = init \/ so_isComplete s = true) -> okw (w_register w s).
Proof. intros W [Hs _]. apply okw_register; assumption. Qed.
Lemma find_sane n init : exhaustive_sane so_isFeasible (w_find n) (fun s => is_solution s /\ (s = init \/ so_isComplete s = true)) good_evaluator (objective d) okw.
Proof. intros w s e W [Hs _] He F c Fc. apply (find_ok n w s e true W Hs He); auto. Qed.

Definition okst (n : nat) (init : solution) (st : state) : Prop := binv n init st /\ good_evaluator (i_eval st).
Lemma body_eval n init st : i_eval (body n init st) = w_evaluator (i_world st).
Proof.
  unfold body, ils_body. destruct (w_find _ _ _ _ _) as [c w1]. set (blk := if (_ <? _)%Z then _ else _).
  destruct blk as [[[[b' n'] e'] c'] w']. reflexivity.
Qed.
Lemma body_trace n init st : exists x, i_trace (body n init st) = i_trace st ++ [x] /\ t_best x = i_best (body n init st).
Proof.
  unfold body, ils_body. destruct (w_find _ _ _ _ _) as [c w1]. set (blk := if (_ <? _)%Z then _ else _).
  destruct blk as [[[[b' n'] e'] c'] w']. eexists. split; reflexivity.
Qed.
Lemma okst_body n init st : okst n init st -> okst n init (body n init st).
Proof.
  intros [B _]. split; [|rewrite body_eval; apply good_eval, (bi_world _ _ _ _ _ _ _ B)].
  exact (best_step _ _ solution_penalised _ _ _ w_stops _ _ collect_stats _ _ (objective d) (good_cost init) (good_finite init) okw good_eval
    (good_find n init) (good_register init) okw_stop init st B).
Qed.
Lemma okst_init n init w : is_solution init -> okw w -> okst n init (ils_init w_evaluator (ip_history (sv_ils p)) init w).
Proof. intros Hs W. split; [apply best_init; auto|]. apply good_eval, W. Qed.
Lemma okst_stop n init st w b : okst n init st -> w_stops (i_world st) (solution_cost (i_eval st) (i_best st)) = (b, w) -> okst n init (set_world st w).
Proof.
  intros [[G1 G2 G3 Gw Gt G4 G5] He] E. split; [constructor; try assumption|exact He].
  cbn [set_world i_world]. replace w with (snd (w_stops (i_world st) (solution_cost (i_eval st) (i_best st)))) by (rewrite E; reflexivity). apply okw_stop, Gw.
Qed.
(** The body leaves the stopping criterion alone. *)
Lemma body_stop n init st : okst n init st -> w_stop (i_world (body n init st)) = w_stop (i_world st).
Proof.
  intros [B _]. pose proof (bi_world _ _ _ _ _ _ _ B) as W. pose proof (good_eval _ W) as He. unfold body, ils_body.
  set (curr := if _ =? _ then i_best st else i_curr st).
  assert (Hc : is_solution curr) by (subst curr; destruct (_ =? _); [apply (bi_good_best _ _ _ _ _ _ _ B)|apply (bi_good_curr _ _ _ _ _ _ _ B)]).
  destruct (find_ok n (i_world st) curr (w_evaluator (i_world st)) false W Hc He) as (W1 & E1 & H1 & _).
  destruct (w_find n (i_world st) curr (w_evaluator (i_world st)) false) as [cand w1]. cbn [fst snd] in *.
  destruct (okw_register w1 cand W1 H1) as (W2 & _ & E2).
  set (blk := if (_ <? _)%Z then _ else _).
  assert (Hb : w_stop (snd blk) = w_stop (i_world st)).
  { subst blk. destruct (_ <? _)%Z; [|cbn [snd]; congruence]. destruct (ip_exhaustive (sv_ils p)); [|cbn [snd]; congruence].
    destruct (find_ok n (w_register w1 cand) cand (w_evaluator (i_world st)) true W2 H1 He) as (_ & E3 & _).
    destruct (w_find n (w_register w1 cand) cand (w_evaluator (i_world st)) true) as [c w2]. cbn [fst snd] in *. congruence. }
  destruct blk as [[[[b' n'] e'] c'] w']. cbn [snd] in Hb. cbn [i_world]. exact Hb.
Qed.
(** With enough rounds, the body does its work. *)
Lemma body_stable n1 init st : okst n1 init st -> exists n0 st', (forall n, n0 <= n -> body n init st = st') /\ w_ok (i_world st') = w_ok (i_world st).
Proof.
  intros [B _]. pose proof (bi_world _ _ _ _ _ _ _ B) as W. pose proof (good_eval _ W) as He.
  set (curr := if i_noimp st =? ip_noimp (sv_ils p) then i_best st else i_curr st).
  assert (Hc : is_solution curr) by (subst curr; destruct (_ =? _); [apply (bi_good_best _ _ _ _ _ _ _ B)|apply (bi_good_curr _ _ _ _ _ _ _ B)]).
  destruct (find_stable (i_world st) curr (w_evaluator (i_world st)) false W Hc He) as (m1 & cand & w1 & F1 & W1 & O1 & _ & H1 & _).
  destruct (okw_register w1 cand W1 H1) as (W2 & O2 & _).
  destruct (find_stable (w_register w1 cand) cand (w_evaluator (i_world st)) true W2 H1 He) as (m2 & cand2 & w2 & F2 & _ & O3 & _).
  exists (Nat.max m1 m2), (body (Nat.max m1 m2) init st). split.
  - intros n Hn. unfold body, ils_body. fold curr. rewrite !F1 by lia. rewrite !F2 by lia. reflexivity.
  - unfold body, ils_body. fold curr. rewrite !F1 by lia. rewrite !F2 by lia.
    set (blk := if (_ <? _)%Z then _ else _).
    assert (Hb : w_ok (snd blk) = w_ok (i_world st)).
    { subst blk. destruct (_ <? _)%Z; [|cbn [snd]; congruence]. destruct (ip_exhaustive (sv_ils p)); cbn [snd]; congruence. }
    destruct blk as [[[[b' n'] e'] c'] w']. cbn [snd] in Hb. cbn [i_world]. exact Hb.
Qed.

(** The answers of the stopping criterion to a sequence of questions: the last one is yes, and the
    others are no. *)
Fixpoint asked (x : X) (costs : list Z) : Prop :=
  match costs with
  | [] => False
  | [c] => fst (stop x c) = true
  | c :: more => fst (stop x c) = false /\ asked (snd (stop x c)) more
  end.
Lemma run_asked n init : forall k st st', okst n init st -> run n k init st = Some st' ->
  exists more, i_trace st' = i_trace st ++ more /\
    asked (w_stop (i_world st)) (map (value so_isFeasible (objective d)) (i_best st :: map t_best more)).
Proof.
  induction k as [|k IH]; intros st st' O E; [discriminate|]. cbn [run] in E.
  pose proof (proj1 (bi_good_best _ _ _ _ _ _ _ (proj1 O))) as Hb. pose proof (sol_cost (i_eval st) (i_best st) (proj2 O) Hb) as Ec.
  destruct (w_stops (i_world st) (solution_cost (i_eval st) (i_best st))) as [b w] eqn:Ew.
  pose proof (okst_stop n init st w b O Ew) as O2.
  unfold w_stops in Ew. rewrite Ec in Ew. destruct (stop (w_stop (i_world st)) _) as [b1 x1] eqn:Es. injection Ew as <- <-.
  destruct b1.
  - injection E as <-. exists []. rewrite app_nil_r. split; [reflexivity|]. cbn [map asked]. rewrite Es. reflexivity.
  - destruct (IH _ _ (okst_body n init _ O2) E) as (more & Et & A). rewrite (body_stop n init _ O2) in A. cbn [set_world i_world w_stop] in A.
    destruct (body_trace n init (set_world st (mk_world (w_search (i_world st)) (w_pm (i_world st)) x1 (w_ok (i_world st))))) as (y & Ey & Ebst).
    rewrite Ey in Et. cbn [set_world i_trace] in Et. exists (y :: more). split; [rewrite Et, <- app_assoc; reflexivity|].
    rewrite <- Ebst in A. cbn [map] in A |- *. change (asked (w_stop (i_world st)) (?a :: ?b :: ?l)) with (fst (stop (w_stop (i_world st)) a) = false /\ asked (snd (stop (w_stop (i_world st)) a)) (b :: l)).
    rewrite Es. cbn [fst snd]. split; [reflexivity|exact A].
Qed.
Lemma run_reaches n init w0 : forall k st st',
  reaches so_isFeasible solution_cost solution_penalised w_evaluator (w_find n) w_register w_stops
    (ip_history (sv_ils p)) (ip_noimp (sv_ils p)) (ip_exhaustive (sv_ils p)) collect_stats init w0 st ->
  run n k init st = Some st' ->
  returns so_isFeasible solution_cost solution_penalised w_evaluator (w_find n) w_register w_stops
    (ip_history (sv_ils p)) (ip_noimp (sv_ils p)) (ip_exhaustive (sv_ils p)) collect_stats init w0 (i_best st') (i_stats st') (i_iters st') (i_trace st').
Proof.
  induction k as [|k IH]; intros st st' R E; [discriminate|]. cbn [run] in E.
  destruct (w_stops (i_world st) (solution_cost (i_eval st) (i_best st))) as [b w] eqn:Ew. destruct b.
  - injection E as <-. exists st, w. repeat (split; auto).
  - apply (IH _ _ (reaches_step _ _ _ _ _ _ _ _ _ _ _ _ _ st w R Ew) E).
Qed.

(** The criterion stops, when asked about costs that do not increase and are at least [L]. *)
Inductive stops (L : Z) : Z -> X -> Prop :=
| stops_if c0 x : (forall c, (L <= c <= c0)%Z -> fst (stop x c) = false -> stops L c (snd (stop x c))) -> stops L c0 x.
Notation linv n init := (inv so_isFeasible solution_cost solution_penalised w_evaluator (w_find n)
  (ip_history (sv_ils p)) (ip_noimp (sv_ils p)) (ip_exhaustive (sv_ils p)) collect_stats init).
Lemma linv_set n init st w : linv n init st -> linv n init (set_world st w).
Proof. intros [I1 I2 I3 I4 I5 I6 I7]. constructor; assumption. Qed.
Lemma linv_body n init st : linv n init st -> linv n init (body n init st).
Proof. intros I. apply (body_inv _ _ _ _ _ w_register w_stops); [exact (po_history Hp)|exact I]. Qed.
Lemma body_value n init st : okst n init st -> linv n init st ->
  (value so_isFeasible (objective d) (i_best (body n init st)) <= value so_isFeasible (objective d) (i_best st))%Z.
Proof.
  intros [B _] I.
  exact (proj1 (best_minimal_step _ _ solution_penalised _ _ _ w_stops _ _ _ collect_stats _ _ (objective d) (good_cost init) (good_finite init) okw good_eval
    (good_find n init) (good_register init) okw_stop init st (po_history Hp) (find_sane n init) B I)).
Qed.
Lemma objective_bound : exists L, (L <= MAXV)%Z /\ forall s, is_solution s -> so_isFeasible s = true -> (L <= objective d s)%Z.
Proof.
  destruct (proj1 (reached_evaluators _ reached_start)) as (e & _ & He). pose proof (in_setting e He) as St.
  destruct (LocalTerm.cost_bound d e) as (L & HL). exists (Z.min L MAXV). split; [apply Z.le_min_r|]. intros s (routes & HB & Es) F.
  apply Z.le_trans with (1 := Z.le_min_l _ _).
  destruct (cost_spec d h (sb_valid Hd) (sb_opens Hd) (sb_durs Hd) two_h routes HB (sb_groups Hd) groups_ok s Es e (proj1 He)) as (C1 & _).
  rewrite <- (proj2 (C1 F)). pose proof (trips d reloads_ok) as Tr.
  rewrite <- (load_cost d h e St (sb_groups Hd) Tr routes HB s Es). apply HL, (load_ok d h e St (sb_groups Hd) Tr routes HB s Es).
Qed.
Lemma run_terminates L init : (L <= MAXV)%Z -> (forall s, is_solution s -> so_isFeasible s = true -> (L <= objective d s)%Z) ->
  forall c0 x, stops L c0 x -> forall st n1, w_stop (i_world st) = x -> (value so_isFeasible (objective d) (i_best st) <= c0)%Z ->
  (forall n, n1 <= n -> okst n init st /\ linv n init st) -> w_ok (i_world st) = true ->
  exists n0 k0 st', w_ok (i_world st') = true /\ forall n k, n0 <= n -> k0 <= k -> run n k init st = Some st'.
Proof.
  intros HL1 HL c0 x S. induction S as [c0 x _ IH]. intros st n1 Ex Ev Hst Hok.
  pose proof (proj1 (Hst n1 (Nat.le_refl _))) as O1.
  pose proof (proj1 (bi_good_best _ _ _ _ _ _ _ (proj1 O1))) as Hb. pose proof (sol_cost (i_eval st) (i_best st) (proj2 O1) Hb) as Ec.
  set (c := value so_isFeasible (objective d) (i_best st)) in *.
  assert (Hc : (L <= c <= c0)%Z).
  { split; [|exact Ev]. subst c. unfold value. destruct (so_isFeasible (i_best st)) eqn:F; [exact (HL _ Hb F)|exact HL1]. }
  specialize (IH c Hc).
  assert (Ew : w_stops (i_world st) (solution_cost (i_eval st) (i_best st)) =
    (fst (stop x c), mk_world (w_search (i_world st)) (w_pm (i_world st)) (snd (stop x c)) (w_ok (i_world st)))).
  { unfold w_stops. rewrite Ec, Ex. destruct (stop x c); reflexivity. }
  set (w := mk_world _ _ _ _) in Ew. destruct (fst (stop x c)) eqn:Eb.
  - exists 0, 1, (set_world st w). split; [exact Hok|]. intros n [|k] _ Hk; [lia|]. cbn [run]. rewrite Ew. reflexivity.
  - assert (Hst2 : forall n, n1 <= n -> okst n init (set_world st w) /\ linv n init (set_world st w)).
    { intros n Hn. destruct (Hst n Hn) as [A B]. split; [exact (okst_stop n init st w false A Ew)|apply linv_set, B]. }
    destruct (body_stable n1 init (set_world st w) (proj1 (Hst2 n1 (Nat.le_refl _)))) as (n2 & st2 & E2 & Ok2).
    assert (Hst3 : forall n, Nat.max n1 n2 <= n -> okst n init st2 /\ linv n init st2).
    { intros n Hn. rewrite <- (E2 n) by lia. destruct (Hst2 n) as [A B]; [lia|]. split; [apply okst_body, A|apply linv_body, B]. }
    destruct (Hst2 (Nat.max n1 n2) ltac:(lia)) as [A B].
    destruct (IH eq_refl st2 (Nat.max n1 n2)) as (n3 & k3 & st' & Ok' & R).
    + rewrite <- (E2 (Nat.max n1 n2)) by lia. rewrite (body_stop _ init _ A). reflexivity.
    + rewrite <- (E2 (Nat.max n1 n2)) by lia. exact (body_value _ init _ A B).
    + exact Hst3.
    + rewrite Ok2. exact Hok.
    + exists (Nat.max n2 n3), (Datatypes.S k3), st'. split; [exact Ok'|]. intros n [|k] Hn Hk; [lia|]. cbn [run]. rewrite Ew, (E2 n) by lia. apply R; lia.
Qed.

(** ** The whole *)
Lemma set_rng_usable se r : usable d se -> usable d (set_rng se r).
Proof. intros [A B C D E]. constructor; assumption. Qed.
Lemma add_operators_usable os : Forall operator_ok os -> forall se, usable d se -> usable d (fold_left (add_operator d) os se).
Proof.
  induction os as [|o os IH]; intros Ho se U; [exact U|]. inversion Ho as [|? ? H1 H2]; subst. cbn [fold_left]. apply IH; [exact H2|].
  unfold add_operator. destruct (supports d o); [|exact U]. destruct o as [u|b].
  - apply (operators_usable d se u BSwapTails U). exact I.
  - apply (operators_usable d se UReplaceGroup b U). exact H1.
Qed.
Lemma searcher_made seed : exists se, solve_searcher d seed p = Ok se /\ usable d se.
Proof.
  unfold solve_searcher. destruct (compute_accepted d (sv_neighbourhood p) (sb_int64 Hd) (po_weight Hp)) as (sp & E).
  assert (Em : exists se, make_searcher d (rng_seed seed) (compute_neighbours d (sv_neighbourhood p)) (sv_perturbation p) = Ok se)
    by (unfold make_searcher; rewrite E; eexists; reflexivity).
  destruct Em as (se & Em). rewrite Em. eexists. split; [reflexivity|]. apply add_operators_usable; [exact (po_ops Hp)|].
  exact (computed_usable d (rng_seed seed) _ _ se (sb_int64 Hd) (po_weight Hp) (po_perturb Hp) Em).
Qed.
Lemma init_stable se initial : usable d se -> (forall s, initial = Some s -> is_solution s) ->
  exists n0 init se', (forall n, n0 <= n -> solve_init n se (midpoint_manager d (sv_penalty p)) initial = Some (Ok (init, se'))) /\ usable d se' /\
    is_solution init /\ (initial = None -> so_isComplete init = true) /\ (forall s, initial = Some s -> init = s).
Proof.
  intros U Hi. destruct initial as [s|].
  - exists 0, s, se. split; [reflexivity|]. split; [exact U|]. split; [apply Hi; reflexivity|]. split; [discriminate|]. intros s' [= <-]. reflexivity.
  - unfold solve_init. destruct (make_random_spec d (se_rng se) (sb_data Hd) (sb_reloads Hd) (sb_available Hd) (sb_groups Hd)) as (routes & s & E & HB & Es & _).
    destruct (make_random d (se_rng se)) as [r random]. cbn [snd] in E. subst random.
    destruct (proj2 (reached_evaluators _ reached_start)) as (ev & -> & He).
    destruct (py_call_spec d h ev (in_setting ev He) (sb_groups Hd) reloads_ok (set_rng se r) routes s true (set_rng_usable se r U) HB Es)
      as (n0 & s' & se' & routes' & E & U' & B' & Es' & C & _).
    exists n0, s', se'. split; [intros n Hn; rewrite (E n Hn); reflexivity|]. split; [exact U'|]. split; [exists routes'; auto|]. split; [auto|discriminate].
Qed.
(** More rounds give the same. *)
Lemma init_some n se initial x : solve_init n se (midpoint_manager d (sv_penalty p)) initial = Some x -> forall m, n <= m ->
  solve_init m se (midpoint_manager d (sv_penalty p)) initial = Some x.
Proof.
  intros E m Hm. destruct initial as [s|]; [exact E|]. unfold solve_init in *. destruct (make_random d (se_rng se)) as [r random]. destruct random as [random|]; [|exact E].
  destruct (pm_max_evaluator _) as [ev|]; [|exact E]. destruct (py_call d n _ random ev true) as [y|] eqn:E1; [|discriminate].
  rewrite (py_call_more _ _ _ _ _ _ _ E1 m Hm). exact E.
Qed.

Theorem solve_returns seed initial x : (forall s, initial = Some s -> is_solution s) -> (forall L, stops L MAXV x) ->
  exists n0 k0 r, forall n k, n0 <= n -> k0 <= k -> solve n k seed initial x = Some (Ok r).
Proof.
  intros Hi Sx. destruct objective_bound as (L & HL1 & HL). pose proof (Sx L) as S. destruct (searcher_made seed) as (se & Ese & U). destruct (init_stable se initial U Hi) as (n1 & init & se' & E1 & U' & Hs & _).
  destruct (proj1 (reached_evaluators _ reached_start)) as (e0 & Ee & _).
  set (w0 := mk_world se' (midpoint_manager d (sv_penalty p)) x true).
  assert (W0 : okw w0) by (split; [exact U'|exact reached_start]).
  destruct (run_terminates L init HL1 HL MAXV x S (ils_init w_evaluator (ip_history (sv_ils p)) init w0) 0) as (n2 & k2 & st' & Ok' & R).
  - reflexivity.
  - cbn [ils_init i_best]. unfold value. destruct (so_isFeasible init) eqn:F; [|lia]. pose proof (sb_finite Hd init Hs F). lia.
  - intros n _. split; [apply okst_init; assumption|apply inv_init].
  - reflexivity.
  - exists (Nat.max n1 n2), k2. eexists. intros n k Hn Hk. unfold solve. rewrite Ese, (E1 n) by lia. rewrite Ee. fold w0. rewrite (R n k) by lia. rewrite Ok'. reflexivity.
Qed.

Theorem solve_spec n k seed initial x r : (forall s, initial = Some s -> is_solution s) -> solve n k seed initial x = Some r ->
  exists o, r = Ok o /\ is_solution (o_best o) /\ is_solution (o_init o) /\ (forall s, initial = Some s -> o_init o = s) /\ (initial = None -> so_isComplete (o_init o) = true) /\
    (o_best o = o_init o \/ so_isComplete (o_best o) = true) /\
    let seen := o_init o :: candidates (o_trace o) in
    In (o_best o) seen /\
    (forall c, In c seen -> so_isFeasible c = true -> so_isFeasible (o_best o) = true /\ (objective d (o_best o) <= objective d c)%Z) /\
    o_iters o = length (o_trace o) /\
    o_stats o = (if collect_stats then map (collect so_isFeasible solution_penalised) (o_trace o) else []) /\
    asked x (map (value so_isFeasible (objective d)) (o_init o :: map t_best (o_trace o))).
Proof.
  intros Hi E. unfold solve in E. destruct (searcher_made seed) as (se & Ese & U). rewrite Ese in E.
  destruct (init_stable se initial U Hi) as (n1 & init & se' & E1 & U' & Hs & Hc & Hsame).
  destruct (proj1 (reached_evaluators _ reached_start)) as (e0 & Ee & _).
  destruct (solve_init n se (midpoint_manager d (sv_penalty p)) initial) as [y|] eqn:E0; [|discriminate].
  pose proof (init_some _ _ _ _ E0 (Nat.max n n1) ltac:(lia)) as E2. rewrite (E1 (Nat.max n n1)) in E2 by lia. injection E2 as <-. rewrite Ee in E.
  set (w0 := mk_world se' (midpoint_manager d (sv_penalty p)) x true) in E.
  assert (W0 : okw w0) by (split; [exact U'|exact reached_start]).
  set (st0 := ils_init w_evaluator (ip_history (sv_ils p)) init w0) in E.
  destruct (run n k init st0) as [st|] eqn:Er; [|discriminate]. destruct (w_ok (i_world st)); [|discriminate]. injection E as <-.
  eexists. split; [reflexivity|]. cbn [o_best o_init o_trace o_iters o_stats].
  pose proof (run_reaches n init w0 k st0 st (reaches_init _ _ _ _ _ _ _ _ _ _ _ _ _) Er) as (st1 & w1 & R & _ & Q1 & Q2 & Q3 & Q4). rewrite Q1, Q2, Q3, Q4.
  assert (Hg : is_solution init /\ (init = init \/ so_isComplete init = true)) by auto.
  pose proof (reaches_best _ _ _ _ _ _ _ _ _ _ _ _ _ (objective d) (good_cost init) (good_finite init) okw good_eval
    (good_find n init) (good_register init) okw_stop init w0 st1 Hg W0 R) as B.
  destruct (best_is_minimal _ _ _ _ _ _ _ _ _ _ _ _ _ (objective d) (good_cost init) (good_finite init) okw good_eval
    (good_find n init) (good_register init) okw_stop init w0 st1 (po_history Hp) (find_sane n init) Hg W0 R) as [M _].
  pose proof (reaches_inv _ _ _ _ _ _ _ _ _ _ _ _ _ _ (po_history Hp) R) as I.
  pose proof (run_asked n init k st0 st (okst_init n init w0 Hs W0) Er) as (more & Et & A).
  split; [apply (bi_good_best _ _ _ _ _ _ _ B)|]. split; [exact Hs|]. split; [exact Hsame|]. split; [exact Hc|].
  split; [apply (bi_good_best _ _ _ _ _ _ _ B)|]. split; [exact (bi_in _ _ _ _ _ _ _ B)|]. split; [|split; [exact (iv_iters _ _ _ _ _ _ _ _ _ _ _ I)|split; [exact (iv_stats _ _ _ _ _ _ _ _ _ _ _ I)|]]].
  - intros c Hin Fc. specialize (M c Hin). unfold value in M. rewrite Fc in M.
    assert (Gc : is_solution c).
    { destruct Hin as [<-|Hin]; [exact Hs|]. exact (proj1 (proj1 (Forall_forall _ _) (bi_good_cands _ _ _ _ _ _ _ B) c Hin)). }
    pose proof (sb_finite Hd c Gc Fc). destruct (so_isFeasible (i_best st1)); [auto|lia].
  - rewrite Q4 in Et. cbn [st0 ils_init i_trace app] in Et. rewrite Et. exact A.
Qed.
End Solve.

(** ** The stopping criteria *)
(** The criteria of Stop.v, the clock showing [clock i] at the [i]-th question. *)
Definition py_stop (clock : nat -> Z) (x : criterion * nat) (best : Z) : bool * (criterion * nat) :=
  let '(c, b) := call (clock (snd x)) best (fst x) in (b, (c, Datatypes.S (snd x))).
Section Stops.
Variable clock : nat -> Z.
Notation fires := (stops (criterion * nat) (py_stop clock)).

Lemma max_iterations_fires L max : forall j curr c0 i, (Z.of_nat j = Z.max 0 (max + 1 - curr))%Z -> fires L c0 (MaxIterations max curr, i).
Proof.
  induction j as [|j IH]; intros curr c0 i Hj; constructor; intros c _; unfold py_stop; cbn [fst snd call]; intros Hf.
  - exfalso. cbn [fst snd] in Hf. lia.
  - apply IH. cbn [fst] in Hf. lia.
Qed.
Lemma max_runtime_fires L max start : (exists n, forall j, (n <= j)%nat -> max < clock j - start)%Z -> forall c0 i, fires L c0 (MaxRuntime max (Some start), i).
Proof.
  intros (n & Hn). assert (G : forall k i c0, n <= i + k -> fires L c0 (MaxRuntime max (Some start), i)).
  { induction k as [|k IH]; intros i c0 Hk; constructor; intros c _; unfold py_stop; cbn [fst snd call]; intros Hf.
    - exfalso. specialize (Hn i ltac:(lia)). lia.
    - apply IH. lia. }
  intros c0 i. apply (G n). lia.
Qed.
Lemma no_improvement_fires L max : forall c0 t i counter, (0 <= counter)%Z -> fires L c0 (NoImprovement max t counter, i).
Proof.
  (* once there is a target *)
  assert (G : forall a t i c0 b counter, (Z.of_nat a = Z.max 0 (t - L))%Z -> (0 <= counter)%Z -> (Z.of_nat b = Z.max 0 (max - counter))%Z -> fires L c0 (NoImprovement max (Some t) counter, i)).
  { induction a as [a IHa] using (well_founded_induction lt_wf). intros t i c0 b. revert i c0. induction b as [|b IHb]; intros i c0 counter Ha Hc Hb; constructor; intros c Hcr; unfold py_stop; cbn [fst snd call].
    - destruct (c <? t)%Z eqn:E; cbn [fst snd]; intros Hf.
      + apply (IHa (Z.to_nat (Z.max 0 (c - L))) ltac:(lia) c _ _ (Z.to_nat (Z.max 0 (max - 0)))); lia.
      + exfalso. lia.
    - destruct (c <? t)%Z eqn:E; cbn [fst snd]; intros Hf.
      + apply (IHa (Z.to_nat (Z.max 0 (c - L))) ltac:(lia) c _ _ (Z.to_nat (Z.max 0 (max - 0)))); lia.
      + apply IHb; lia. }
  intros c0 [t|] i counter Hc.
  - apply (G (Z.to_nat (Z.max 0 (t - L))) t i c0 (Z.to_nat (Z.max 0 (max - counter)))); lia.
  - constructor. intros c Hcr. unfold py_stop. cbn [fst snd call]. intros Hf. apply (G (Z.to_nat (Z.max 0 (c - L))) c _ _ (Z.to_nat (Z.max 0 (max - 0)))); lia.
Qed.
Lemma multiple_fires L : forall c0 x, fires L c0 x -> forall cs, In (fst x) cs -> fires L c0 (MultipleCriteria cs, snd x).
Proof.
  intros c0 x H. induction H as [c0 [c i] _ IH]. cbn [fst snd] in *. intros cs Hin. constructor. intros c1 Hc.
  specialize (IH c1 Hc). unfold py_stop in *. cbn [fst snd] in *.
  pose proof (multiple_spec cs (clock i) c1) as Ms. destruct (multiple_state cs (clock i) c1) as (pre & post & Ecs & Est & Hor).
  destruct (call (clock i) c1 (MultipleCriteria cs)) as [m b] eqn:Em. cbn [fst snd] in *. intros ->. subst m.
  assert (All : forall y, In y cs -> snd (call (clock i) c1 y) = false).
  { intros y Hy. destruct (snd (call (clock i) c1 y)) eqn:Ey; [|reflexivity]. exfalso.
    assert (X : existsb (fun c => snd (call (clock i) c1 c)) cs = true) by (apply existsb_exists; exists y; auto). congruence. }
  destruct Hor as [[-> _]|(pre' & y & -> & Hy & _)].
  - rewrite app_nil_r in *. subst pre. pose proof (All c Hin) as Ec. destruct (call (clock i) c1 c) as [c' bc] eqn:Ecc. cbn [fst snd] in *.
    apply (IH Ec). replace c' with (fst (call (clock i) c1 c)) by (rewrite Ecc; reflexivity). apply (in_map (fun y => fst (call (clock i) c1 y))), Hin.
  - exfalso. rewrite (All y) in Hy; [discriminate|]. rewrite Ecs. apply in_or_app. left. apply in_or_app. right. left. reflexivity.
Qed.
(** The criteria that stop whatever happens, as long as the clock advances: all but FirstFeasible,
    and several of which one is like that. *)
Inductive ends : criterion -> Prop :=
| ends_iterations max curr : ends (MaxIterations max curr)
| ends_runtime max start : (forall b, exists n, forall j, (n <= j)%nat -> (b < clock j)%Z) -> ends (MaxRuntime max start)
| ends_improvement max t counter : (0 <= counter)%Z -> ends (NoImprovement max t counter)
| ends_multiple c cs : In c cs -> ends c -> ends (MultipleCriteria cs).
Lemma ends_fires L c : ends c -> forall c0 i, fires L c0 (c, i).
Proof.
  induction 1 as [max curr|max start H|max t counter H|c cs Hin _ IH]; intros c0 i.
  - apply (max_iterations_fires L max (Z.to_nat (Z.max 0 (max + 1 - curr)))). lia.
  - assert (G : forall s c0 i, fires L c0 (MaxRuntime max (Some s), i)).
    { intros s. apply max_runtime_fires. destruct (H (s + max)%Z) as (n & Hn). exists n. intros j Hj. specialize (Hn j Hj). lia. }
    destruct start as [s|]; [apply G|]. constructor. intros c _. unfold py_stop. cbn [fst snd call]. intros _. apply G.
  - apply no_improvement_fires, H.
  - apply (multiple_fires L c0 (c, i) (IH c0 i) cs Hin).
Qed.
(** With MaxIterations the number of questions is the given one plus one. *)
Lemma max_iterations_asked max costs : (0 <= max)%Z -> forall curr i, (0 <= curr)%Z -> asked (criterion * nat) (py_stop clock) (MaxIterations max curr, i) costs ->
  (Z.of_nat (length costs) = Z.max 1 (max + 1 - curr))%Z.
Proof.
  intros Hm. induction costs as [|c costs IH]; intros curr i Hcu H; [destruct H|]. cbn [length].
  destruct costs as [|c1 costs].
  - cbn [asked] in H. unfold py_stop in H. cbn [fst snd call] in H. cbn [length]. lia.
  - change (fst (py_stop clock (MaxIterations max curr, i) c) = false /\ asked (criterion * nat) (py_stop clock) (snd (py_stop clock (MaxIterations max curr, i) c)) (c1 :: costs)) in H.
    destruct H as [H1 H2]. unfold py_stop in H1, H2. cbn [fst snd call] in H1, H2. specialize (IH (curr + 1)%Z _ ltac:(lia) H2). lia.
Qed.
End Stops.
