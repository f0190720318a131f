(** The moves the operators look for, in one place, and the plans of a solution. *)
From Verif Require Import Base DurationSegment Data LoadSegment SearchRoute Valid Route RouteSpec Cost CostFacts DataCtor
  SearchSpace SearchNodes SearchSeq SearchLoad Ops PlanFacts OpsBase OpsGen OpsRelocate OpsSwap OpsOne OpsEdit OpsEdit2 OpsAll
  LocalSearch LocalFacts LocalOpt OpsComplete OpsComplete2 OpsComplete3.
Local Open Scope nat_scope.

(** The moves that a binary operator considers for [u] and [v].  (Those of a unary operator are given by [unary_effect].) *)
Definition binary_move (d : pdata) (o : binary) (p : plan) (u : activity) (v : vref) (p' : plan) : Prop :=
  match o with
  | BRelocate n => can_relocate n p u v p'
  | BSwap n m => exists w, v = VAct w /\ can_swap n m p u w p'
  | BSwapTails => can_swap_tails p u v p'
  | BInsertOptionalClient =>
      exists i, u = AClient i /\ i < p_numClients d /\ tot p u = 0 /\
        (forall g, c_group (p_client d i) = Some g -> g_required (p_group d g) = false /\ forall j, In j (g_clients (p_group d g)) -> tot p (AClient j) = 0) /\
        inserted p u v p'
  | BInsertOptionalShipment => exists i, u = APickup i /\ i < p_numShipments d /\ tot p u = 0 /\ ship_inserted p i v p'
  | BRelocateAlternative => exists i, u = AClient i /\ can_alternate d p i v p'
  | BRelocateShipment =>
      exists i ru rv A M B C N D, u = APickup i /\ ru <> rv /\ ru < length p /\ rv < length p /\
        mid_at p ru = A ++ APickup i :: M ++ ADelivery i :: B /\ mid_at p rv = C ++ N ++ D /\ ends v rv C /\ num_reloads N = 0 /\
        p' = upd (upd p ru (A ++ M ++ B)) rv (C ++ APickup i :: N ++ ADelivery i :: D)
  | BRelocateWithDepot => exists i, u = AClient i /\ can_reload d p i v p'
  | BReplaceOptionalClient =>
      exists i j, u = AClient i /\ v = VAct (AClient j) /\ i < p_numClients d /\ tot p u = 0 /\ c_required (p_client d j) = false /\
        c_group (p_client d i) = None /\ c_group (p_client d j) = None /\ replaced p (AClient j) u p'
  | BReplaceOptionalShipment =>
      exists i j, u = APickup i /\ (v = VAct (APickup j) \/ v = VAct (ADelivery j)) /\ i < p_numShipments d /\ tot p u = 0 /\
        s_required (p_shipment d j) = false /\ ship_replaced p j i p'
  end.

(** Routes without visits: of each vehicle type the search looks at the first one. *)
Definition free_route (d : pdata) (p : plan) (r : nat) : Prop :=
  r < length p /\ has_visit (mid_at p r) = false /\
  forall r', r' < r -> nth r' (fleet d) 0 = nth r (fleet d) 0 -> has_visit (mid_at p r') = true.
(** The places that the search tries for a planned [u]: after a neighbour, before a neighbour that is the first of its route, and in
    an unused route. *)
Inductive target (d : pdata) (nb : neighbours) (p : plan) (u : activity) : vref -> Prop :=
| T_after w vs : nb_find nb u = Some vs -> In w vs -> target d nb p u (VAct w)
| T_before w vs r D : nb_find nb u = Some vs -> In w vs -> r < length p -> mid_at p r = w :: D -> target d nb p u (VStart r)
| T_free r : free_route d p r -> target d nb p u (VStart r).

(** A move that an exhaustive search has ruled out. *)
Inductive one_move (d : pdata) (uops : list unary) (bops : list binary) (nb : neighbours) (p : plan) : plan -> Prop :=
| Move1 o u p' : In o uops -> In u (activity_order d) -> unary_effect d o p u p' -> one_move d uops bops nb p p'
| Move2 o u v p' : In o bops -> In u (activity_order d) -> 1 <= tot p u -> target d nb p u v -> binary_move d o p u v p' ->
    one_move d uops bops nb p p'
| Move3 o u r p' : In o bops -> In u (activity_order d) -> tot p u = 0 -> free_route d p r -> binary_move d o p u (VStart r) p' ->
    one_move d uops bops nb p p'.

(** The plan of a solution: a list of activities for every vehicle, where the vehicles without visits do not show up in the
    solution. *)
Definition busy (mid : list activity) : bool := existsb (fun a => negb (a_isDepot a)) mid.
Definition represents (d : pdata) (p : plan) (routes : list route) : Prop :=
  length p = length (fleet d) /\
  map (fun r => (r_vehicleType r, r_acts r)) routes = filter (fun x => busy (snd x)) (combine (fleet d) p).

(** ** No operator overlooks a move *)
Section Moves.
Variable d : pdata.
Variable h : Z.
Variable ev : evaluator.
Hypothesis St : setting d h ev.

Theorem unary_complete o p u p' : plan_ok d p -> group_once d p -> known d u -> a_isDepot u = false -> unary_effect d o p u p' ->
  yes (eval_unary d ev o (sync d p) u) = false -> (plan_cost d ev p <= plan_cost d ev p')%Z.
Proof.
  intros P G K Du M H. destruct o; cbn [unary_effect eval_unary] in *.
  - destruct M as (i & -> & M). exact (delivery_complete d h ev St p i p' P M H).
  - destruct M as (i & -> & M). exact (pickup_complete d h ev St p i p' P M H).
  - pose proof (adjacent_complete d h ev St p u p' P Du M H). lia.
  - destruct M as (i & -> & R & Gr & M). exact (remove_client_complete d h ev St p i p' P (conj R Gr) M H).
  - destruct M as (i & -> & R & M). exact (remove_shipment_complete d h ev St p i p' P R M H).
  - destruct M as (i & j & g & -> & T & Hg & Hj & M). exact (replace_group_complete d h ev St p i j g p' P G K T Hg Hj M H).
Qed.
Theorem binary_complete o p u v p' : plan_ok d p -> group_once d p -> vref_ok p v -> binary_move d o p u v p' ->
  yes (fst (eval_binary d ev o (sync d p) rc_none u v)) = false -> (plan_cost d ev p <= plan_cost d ev p')%Z.
Proof.
  intros P G V M H. destruct o; cbn [binary_move eval_binary fst] in *.
  - exact (relocate_complete d h ev St n p u v p' P V M H).
  - destruct M as (w & -> & M). exact (swap_complete d h ev St n m p u w p' P M H).
  - exact (tails_complete d h ev St p u v p' P V M H).
  - destruct M as (i & -> & K & T & Gr & M). exact (insert_client_complete d h ev St p i v p' P V K T Gr M H).
  - destruct M as (i & -> & K & T & M). exact (insert_shipment_complete d h ev St p i v p' P V K T M H).
  - destruct M as (i & -> & M). exact (alternative_complete d h ev St p i v p' P G V M H).
  - destruct M as (i & ru & rv & A & M & B & C & N & D & -> & X). apply (shipment_complete d h ev St p i v p' P V); [|exact H].
    exists ru, rv, A, M, B, C, N, D. exact X.
  - destruct M as (i & -> & M). exact (with_depot_complete d h ev St p i v p' P V M H).
  - destruct M as (i & j & -> & -> & K & T & R & G1 & G2 & M). exact (replace_client_complete d h ev St p i j p' P K T R G1 G2 M H).
  - destruct M as (i & j & -> & V' & K & T & R & M). exact (replace_shipment_complete d h ev St p i j v p' P K T R V' M H).
Qed.
Theorem cached_complete o p rc u v p' : plan_ok d p -> group_once d p -> vref_ok p v -> rc_ok d ev o p rc -> binary_move d o p u v p' ->
  yes (fst (eval_binary d ev o (sync d p) rc u v)) = false -> (plan_cost d ev p <= plan_cost d ev p')%Z.
Proof. intros P G V R M H. rewrite (eval_fresh d ev o p rc u v R) in H. exact (binary_complete o p u v p' P G V M H). Qed.
(** A binary move names a place in the plan. *)
Lemma move_place o p u v p' : plan_ok d p -> vref_ok p v -> binary_move d o p u v p' -> exists r pos, locate p v = Some (r, pos).
Proof.
  intros P V M.
  assert (L : forall r C D, r < length p -> mid_at p r = C ++ D -> ends v r C -> exists r pos, locate p v = Some (r, pos)).
  { intros r C D Hr Hm He. exists r, (length C). apply (locate_at p v r C D); auto. apply (ref_once d p v P V). }
  destruct v as [w|r]; [|exists r, 0; reflexivity].
  assert (L' : forall r A D, r < length p -> mid_at p r = A ++ w :: D -> exists r pos, locate p (VAct w) = Some (r, pos)).
  { intros r A D Hr Hm. apply (L r (A ++ [w]) D Hr); [rewrite <- app_assoc; exact Hm|exists A; reflexivity]. }
  destruct o; cbn [binary_move] in M.
  - destruct M as [ru rv A S B C D Hne Hru Hrv Mu Hl Hmov Mv He|r A S M b D Hr Hm Hl Hmov RM E|r C M S B Hr Hm Hl Hmov RM He].
    + exact (L rv C D Hrv Mv He).
    + injection E as ->. apply (L' r (A ++ (u :: S) ++ M) D Hr). rewrite Hm, <- !app_assoc. reflexivity.
    + exact (L r C _ Hr Hm He).
  - destruct M as (w' & E & M). injection E as <-. destruct M as [ru rv A S B C T D Hne Hru Hrv Mu Mv|r A S M T B Hr Hm|r A T M S B Hr Hm].
    + exact (L' rv C _ Hrv Mv).
    + apply (L' r (A ++ (u :: S) ++ M) (T ++ B) Hr). rewrite Hm, <- !app_assoc. reflexivity.
    + exact (L' r A _ Hr Hm).
  - destruct M as [ru rv A B C D Hne Hru Hrv Mu Mv He]. exact (L rv C D Hrv Mv He).
  - destruct M as (i & _ & _ & _ & _ & M). destruct M as [r C D Hr Hm He]. exact (L r C D Hr Hm He).
  - destruct M as (i & _ & _ & _ & M). destruct M as [r C M D Hr Hm He]. exact (L r C _ Hr Hm He).
  - destruct M as (i & _ & M). destruct M as [g j ru rv A B C D _ _ _ _ _ Hrv _ Mv He|g j r A M D _ _ _ Hr Hm _ _ He|g j r C M B _ _ _ Hr Hm _ _ He].
    + exact (L rv C D Hrv Mv He).
    + apply (L r (A ++ AClient i :: M) D Hr); [rewrite <- app_assoc; exact Hm|exact He].
    + exact (L r C _ Hr Hm He).
  - destruct M as (i & ru & rv & A & M & B & C & N & D & _ & _ & _ & Hrv & _ & Mv & He & _). exact (L rv C _ Hrv Mv He).
  - destruct M as (i & _ & M). destruct M as [f x ru rv A B C D _ _ Hrv _ Mv He|f x r A M D Hr Hm _ _ He|f x r C M B Hr Hm _ _ He].
    + exact (L rv C D Hrv Mv He).
    + apply (L r (A ++ AClient i :: M) D Hr); [rewrite <- app_assoc; exact Hm|exact He].
    + exact (L r C _ Hr Hm He).
  - destruct M as (i & j & _ & E & _ & _ & _ & _ & _ & M). injection E as ->. destruct M as [r A B Hr Hm]. exact (L' r A B Hr Hm).
  - destruct M as (i & j & _ & E & _ & _ & _ & M). destruct M as [r A M B Hr Hm]. destruct E as [E|E]; injection E as ->.
    + exact (L' r A _ Hr Hm).
    + apply (L' r (A ++ APickup j :: M) B Hr). rewrite Hm, <- app_assoc. reflexivity.
Qed.
End Moves.
