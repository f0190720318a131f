(** Model of SolveParams.from_file in pyvrp/solve.py: from the dictionary of a TOML file to the parameters of solve(). *)
From Coq Require Import ZArith Reals Lia List String.
From Flocq Require Import IEEE754.BinarySingleNaN.
From Verif Require Import Base Data Penalty RngFloat Pm Neighbourhood Ops OpsAll Perturb ModelPy Solve Hang.
Import ListNotations.
Local Open Scope Z_scope.

(** What tomllib.load returns.  Dates and times are left out. *)
Inductive toml :=
| TInt (z : Z)
| TFloat (x : b64)
| TBool (b : bool)
| TText (s : string)
| TArray (l : list toml)
| TTable (t : list (string * toml)).
Definition table := list (string * toml).
Fixpoint lookup (k : string) (t : table) : option toml :=
  match t with [] => None | (k', v) :: t => if String.eqb k k' then Some v else lookup k t end.

(** Values of other types are rejected.  This is stricter than Python, which takes truth values for numbers, and floats where
    the data classes of the iterated local search and the penalties expect integers. *)
Definition as_int (x : toml) : res Z := match x with TInt z => Ok z | _ => Err RuntimeErr end.
Definition as_float (x : toml) : res b64 := match x with TFloat x => Ok x | TInt z => Ok (b64_of_Z z) | _ => Err RuntimeErr end.
Definition as_bool (x : toml) : res bool := match x with TBool b => Ok b | _ => Err RuntimeErr end.
(** A size_t argument: the caster rejects negative integers. *)
Definition as_size (x : toml) : res nat := match x with TInt z => if z <? 0 then Err RuntimeErr else Ok (Z.to_nat z) | _ => Err RuntimeErr end.
Definition as_table (x : toml) : res table := match x with TTable t => Ok t | _ => Err RuntimeErr end.
Definition get {A} (conv : toml -> res A) (k : string) (default : A) (t : table) : res A :=
  match lookup k t with Some x => conv x | None => Ok default end.
(** Keyword arguments: an unknown one is a TypeError. *)
Definition keywords (names : list string) (t : table) : bool := forallb (fun kv => existsb (String.eqb (fst kv)) names) t.
Definition guard (b : bool) : res unit := if b then Ok tt else Err RuntimeErr.

(** IteratedLocalSearch.py:88-107.  A file cannot hold callbacks, so the keyword for them is rejected here. *)
Definition ils_names : list string := ["num_iters_no_improvement"; "history_length"; "exhaustive_on_best"]%string.
Definition read_ils (t : table) : res ils_params :=
  bind (guard (keywords ils_names t)) (fun _ =>
  bind (get as_int "num_iters_no_improvement" 150000 t) (fun noimp =>
  bind (get as_int "history_length" 300 t) (fun history =>
  bind (get as_bool "exhaustive_on_best" true t) (fun exhaustive => make_ils_params noimp history exhaustive)))).
(** PenaltyManager.py:83-111 *)
Definition penalty_names : list string :=
  ["solutions_between_updates"; "penalty_increase"; "penalty_decrease"; "target_feasible"; "feas_tolerance"; "min_penalty"; "max_penalty"]%string.
Definition read_penalty (t : table) : res Pm.pparams :=
  bind (guard (keywords penalty_names t)) (fun _ =>
  bind (get as_int "solutions_between_updates" 500 t) (fun between =>
  bind (get as_float "penalty_increase" (dec 150 100) t) (fun increase =>
  bind (get as_float "penalty_decrease" (dec 90 100) t) (fun decrease =>
  bind (get as_float "target_feasible" (dec 65 100) t) (fun target =>
  bind (get as_float "feas_tolerance" (dec 5 100) t) (fun tolerance =>
  bind (get as_float "min_penalty" (dec 1 10) t) (fun min =>
  bind (get as_float "max_penalty" (b64_of_Z 100000) t) (fun max =>
  Pm.make_pparams between increase decrease target tolerance min max)))))))).
(** search/bindings.cpp:847-850 *)
Definition neighbourhood_names : list string := ["weight_wait_time"; "num_neighbours"; "symmetric_proximity"]%string.
Definition read_neighbourhood (t : table) : res nparams :=
  bind (guard (keywords neighbourhood_names t)) (fun _ =>
  bind (get as_float "weight_wait_time" (dec 2 10) t) (fun wait =>
  bind (get as_size "num_neighbours" (Z.to_nat 50) t) (fun num =>
  bind (get as_bool "symmetric_proximity" true t) (fun symmetric => make_nparams wait num symmetric)))).
(** search/bindings.cpp:540-542 *)
Definition perturbation_names : list string := ["min_perturbations"; "max_perturbations"]%string.
Definition read_perturbation (t : table) : res Perturb.pparams :=
  bind (guard (keywords perturbation_names t)) (fun _ =>
  bind (get as_size "min_perturbations" 1%nat t) (fun lo =>
  bind (get as_size "max_perturbations" 25%nat t) (fun hi => Perturb.make_pparams lo hi))).

(** search/__init__.py:3-33: the operator classes by name.  getattr also finds the other names of the module, which are rejected
    here; solve() fails with them. *)
Definition operators_by_name : list (string * operator) :=
  [("Relocate1", OBinary (BRelocate 1)); ("Relocate2", OBinary (BRelocate 2)); ("Relocate3", OBinary (BRelocate 3));
   ("Swap11", OBinary (BSwap 1 1)); ("Swap21", OBinary (BSwap 2 1)); ("Swap22", OBinary (BSwap 2 2)); ("Swap31", OBinary (BSwap 3 1));
   ("Swap32", OBinary (BSwap 3 2)); ("Swap33", OBinary (BSwap 3 3)); ("SwapTails", OBinary BSwapTails);
   ("RelocateAlternative", OBinary BRelocateAlternative); ("RelocatePickup", OUnary URelocatePickup); ("RelocateDelivery", OUnary URelocateDelivery);
   ("RelocateShipment", OBinary BRelocateShipment); ("RelocateWithDepot", OBinary BRelocateWithDepot); ("RemoveAdjacentDepot", OUnary URemoveAdjacentDepot);
   ("RemoveOptionalClient", OUnary URemoveOptionalClient); ("InsertOptionalClient", OBinary BInsertOptionalClient);
   ("ReplaceOptionalClient", OBinary BReplaceOptionalClient); ("RemoveOptionalShipment", OUnary URemoveOptionalShipment);
   ("InsertOptionalShipment", OBinary BInsertOptionalShipment); ("ReplaceOptionalShipment", OBinary BReplaceOptionalShipment);
   ("ReplaceGroup", OUnary UReplaceGroup)]%string.
Fixpoint named (k : string) (l : list (string * operator)) : option operator :=
  match l with [] => None | (k', o) :: l => if String.eqb k k' then Some o else named k l end.
Definition as_operator (x : toml) : res operator :=
  match x with TText s => match named s operators_by_name with Some o => Ok o | None => Err RuntimeErr end | _ => Err RuntimeErr end.
Fixpoint as_operators (l : list toml) : res (list operator) :=
  match l with [] => Ok [] | x :: l => bind (as_operator x) (fun o => bind (as_operators l) (fun os => Ok (o :: os))) end.
Definition as_operator_list (x : toml) : res (list operator) := match x with TArray l => as_operators l | _ => Err RuntimeErr end.

Definition section (k : string) (t : table) : res table := get as_table k [] t.
(** solve.py:102-121; the display interval is left out, like in Solve.v. *)
Definition from_file (t : table) : res solve_params :=
  bind (get as_operator_list "operators" OPERATORS t) (fun operators =>
  bind (bind (section "ils" t) read_ils) (fun ils =>
  bind (bind (section "penalty" t) read_penalty) (fun penalty =>
  bind (bind (section "neighbourhood" t) read_neighbourhood) (fun neighbourhood =>
  bind (bind (section "perturbation" t) read_perturbation) (fun perturbation =>
  Ok (mk_solve_params ils penalty neighbourhood operators perturbation)))))).

(** ** What a file says, without the order of reading *)
(** The entry [key] of the section [sec]. *)
Definition entry (t : table) (sec key : string) : option toml :=
  match lookup sec t with Some (TTable s) => lookup key s | _ => None end.
(** [v] is the value of an entry, or the default if there is none. *)
Definition is_set {A} (conv : toml -> res A) (default : A) (x : option toml) (v : A) : Prop :=
  match x with Some y => conv y = Ok v | None => v = default end.
(** A section, if present, is a table and has only entries with these names. *)
Definition section_ok (t : table) (sec : string) (names : list string) : Prop :=
  match lookup sec t with
  | None => True
  | Some (TTable s) => forall k v, In (k, v) s -> In k names
  | Some _ => False
  end.
Definition le (x y : b64) : Prop := Bleb x y = true.
Definition lt (x y : b64) : Prop := Bltb x y = true.
Record describes (t : table) (p : solve_params) : Prop := mk_describes {
  ds_ils : section_ok t "ils" ["num_iters_no_improvement"; "history_length"; "exhaustive_on_best"]%string;
  ds_penalty : section_ok t "penalty" ["solutions_between_updates"; "penalty_increase"; "penalty_decrease"; "target_feasible"; "feas_tolerance"; "min_penalty"; "max_penalty"]%string;
  ds_neighbourhood : section_ok t "neighbourhood" ["weight_wait_time"; "num_neighbours"; "symmetric_proximity"]%string;
  ds_perturbation : section_ok t "perturbation" ["min_perturbations"; "max_perturbations"]%string;
  ds_noimp : is_set as_int 150000 (entry t "ils" "num_iters_no_improvement") (Z.of_nat (ip_noimp (sv_ils p)));
  ds_history : is_set as_int 300 (entry t "ils" "history_length") (Z.of_nat (ip_history (sv_ils p)));
  ds_history_pos : (0 < ip_history (sv_ils p))%nat;
  ds_exhaustive : is_set as_bool true (entry t "ils" "exhaustive_on_best") (ip_exhaustive (sv_ils p));
  ds_between : is_set as_int 500 (entry t "penalty" "solutions_between_updates") (Pm.pp_between (sv_penalty p));
  ds_between_pos : 1 <= Pm.pp_between (sv_penalty p);
  ds_increase : is_set as_float (dec 150 100) (entry t "penalty" "penalty_increase") (Pm.pp_increase (sv_penalty p));
  ds_increase_ok : le b64_one (Pm.pp_increase (sv_penalty p));
  ds_decrease : is_set as_float (dec 90 100) (entry t "penalty" "penalty_decrease") (Pm.pp_decrease (sv_penalty p));
  ds_decrease_ok : le b64_zero (Pm.pp_decrease (sv_penalty p)) /\ le (Pm.pp_decrease (sv_penalty p)) b64_one;
  ds_target : is_set as_float (dec 65 100) (entry t "penalty" "target_feasible") (Pm.pp_target (sv_penalty p));
  ds_target_ok : le b64_zero (Pm.pp_target (sv_penalty p)) /\ le (Pm.pp_target (sv_penalty p)) b64_one;
  ds_tolerance : is_set as_float (dec 5 100) (entry t "penalty" "feas_tolerance") (Pm.pp_tolerance (sv_penalty p));
  ds_tolerance_ok : le b64_zero (Pm.pp_tolerance (sv_penalty p)) /\ le (Pm.pp_tolerance (sv_penalty p)) b64_one;
  ds_min : is_set as_float (dec 1 10) (entry t "penalty" "min_penalty") (Pm.pp_min (sv_penalty p));
  ds_max : is_set as_float (b64_of_Z 100000) (entry t "penalty" "max_penalty") (Pm.pp_max (sv_penalty p));
  ds_bounds_ok : ~ lt (Pm.pp_min (sv_penalty p)) b64_zero /\ ~ lt (Pm.pp_max (sv_penalty p)) (Pm.pp_min (sv_penalty p));
  ds_wait : is_set as_float (dec 2 10) (entry t "neighbourhood" "weight_wait_time") (np_wait (sv_neighbourhood p));
  ds_num : is_set as_size (Z.to_nat 50) (entry t "neighbourhood" "num_neighbours") (np_num (sv_neighbourhood p));
  ds_num_pos : (0 < np_num (sv_neighbourhood p))%nat;
  ds_symmetric : is_set as_bool true (entry t "neighbourhood" "symmetric_proximity") (np_symmetric (sv_neighbourhood p));
  ds_lo : is_set as_size 1%nat (entry t "perturbation" "min_perturbations") (Perturb.pp_min (sv_perturbation p));
  ds_hi : is_set as_size 25%nat (entry t "perturbation" "max_perturbations") (Perturb.pp_max (sv_perturbation p));
  ds_range : (Perturb.pp_min (sv_perturbation p) <= Perturb.pp_max (sv_perturbation p))%nat;
  ds_operators : match lookup "operators" t with
                 | None => sv_operators p = OPERATORS
                 | Some (TArray l) => Forall2 (fun x o => exists s, x = TText s /\ In (s, o) operators_by_name) l (sv_operators p)
                 | Some _ => False
                 end }.

Lemma bind_ok {A B} (x : res A) (f : A -> res B) b : bind x f = Ok b <-> exists a, x = Ok a /\ f a = Ok b.
Proof. destruct x as [a|e]; cbn [bind]; split; [intros H; exists a; auto|intros (a' & [= ->] & H); exact H|discriminate|intros (a' & H & _); discriminate]. Qed.
Lemma get_ok {A} (conv : toml -> res A) k default t v : get conv k default t = Ok v <-> is_set conv default (lookup k t) v.
Proof. unfold get, is_set. destruct (lookup k t); [reflexivity|]. split; [intros [= ->]; reflexivity|intros ->; reflexivity]. Qed.
Lemma guard_ok b u : guard b = Ok u <-> b = true.
Proof. destruct b, u; cbn; split; congruence. Qed.
Lemma keywords_ok names t : keywords names t = true <-> forall k v, In (k, v) t -> In k names.
Proof.
  unfold keywords. rewrite forallb_forall. split; intros H.
  - intros k v Hk. specialize (H _ Hk). apply existsb_exists in H as (x & Hx & Ex). cbn in Ex. apply String.eqb_eq in Ex. subst x. exact Hx.
  - intros [k v] Hk. apply existsb_exists. exists k. split; [exact (H k v Hk)|apply String.eqb_refl].
Qed.
Lemma section_is {A} (f : table -> res A) sec t v : bind (section sec t) f = Ok v <->
  exists s, f s = Ok v /\ match lookup sec t with None => s = [] | Some (TTable s') => s = s' | Some _ => False end.
Proof.
  rewrite bind_ok. unfold section. split.
  - intros (s & H & Hf). apply get_ok in H. exists s. split; [exact Hf|]. unfold is_set in H. destruct (lookup sec t) as [[]|]; cbn in H; try discriminate; [injection H as <-; reflexivity|exact H].
  - intros (s & Hf & H). exists s. split; [|exact Hf]. apply get_ok. unfold is_set. destruct (lookup sec t) as [[]|]; try destruct H; reflexivity.
Qed.
Lemma read_ils_ok t p : read_ils t = Ok p <-> (forall k v, In (k, v) t -> In k ils_names) /\
  is_set as_int 150000 (lookup "num_iters_no_improvement" t) (Z.of_nat (ip_noimp p)) /\ is_set as_int 300 (lookup "history_length" t) (Z.of_nat (ip_history p)) /\
  (0 < ip_history p)%nat /\ is_set as_bool true (lookup "exhaustive_on_best" t) (ip_exhaustive p).
Proof.
  unfold read_ils, make_ils_params. rewrite bind_ok. setoid_rewrite bind_ok. setoid_rewrite bind_ok. setoid_rewrite bind_ok.
  split.
  - intros (u & H0 & noimp & H1 & history & H2 & ex & H3 & H4). apply guard_ok in H0. pose proof (proj1 (keywords_ok _ _) H0) as H0k. clear H0. rename H0k into H0. apply get_ok in H1, H2, H3.
    destruct (Z.ltb_spec noimp 0); [discriminate|]. destruct (Z.leb_spec history 0); [discriminate|]. injection H4 as <-. cbn [ip_noimp ip_history ip_exhaustive].
    rewrite !Z2Nat.id by lia. split; [exact H0|]. split; [exact H1|]. split; [exact H2|]. split; [lia|exact H3].
  - intros (H0 & H1 & H2 & H3 & H4). exists tt. split; [apply guard_ok, keywords_ok; exact H0|]. exists (Z.of_nat (ip_noimp p)). split; [apply get_ok; exact H1|].
    exists (Z.of_nat (ip_history p)). split; [apply get_ok; exact H2|]. exists (ip_exhaustive p). split; [apply get_ok; exact H4|].
    destruct (Z.ltb_spec (Z.of_nat (ip_noimp p)) 0); [lia|]. destruct (Z.leb_spec (Z.of_nat (ip_history p)) 0); [lia|]. rewrite !Nat2Z.id. destruct p; reflexivity.
Qed.
Lemma read_neighbourhood_ok t p : read_neighbourhood t = Ok p <-> (forall k v, In (k, v) t -> In k neighbourhood_names) /\
  is_set as_float (dec 2 10) (lookup "weight_wait_time" t) (np_wait p) /\ is_set as_size (Z.to_nat 50) (lookup "num_neighbours" t) (np_num p) /\
  (0 < np_num p)%nat /\ is_set as_bool true (lookup "symmetric_proximity" t) (np_symmetric p).
Proof.
  unfold read_neighbourhood, make_nparams. rewrite bind_ok. setoid_rewrite bind_ok. setoid_rewrite bind_ok. setoid_rewrite bind_ok.
  split.
  - intros (u & H0 & w & H1 & n & H2 & sy & H3 & H4). apply guard_ok in H0. pose proof (proj1 (keywords_ok _ _) H0) as H0k. clear H0. rename H0k into H0. apply get_ok in H1, H2, H3.
    destruct (Nat.eqb_spec n 0); [discriminate|]. injection H4 as <-. cbn [np_wait np_num np_symmetric]. split; [exact H0|]. split; [exact H1|]. split; [exact H2|]. split; [lia|exact H3].
  - intros (H0 & H1 & H2 & H3 & H4). exists tt. split; [apply guard_ok, keywords_ok; exact H0|]. exists (np_wait p). split; [apply get_ok; exact H1|].
    exists (np_num p). split; [apply get_ok; exact H2|]. exists (np_symmetric p). split; [apply get_ok; exact H4|].
    destruct (Nat.eqb_spec (np_num p) 0); [lia|]. destruct p; reflexivity.
Qed.
Lemma read_perturbation_ok t p : read_perturbation t = Ok p <-> (forall k v, In (k, v) t -> In k perturbation_names) /\
  is_set as_size 1%nat (lookup "min_perturbations" t) (Perturb.pp_min p) /\ is_set as_size 25%nat (lookup "max_perturbations" t) (Perturb.pp_max p) /\
  (Perturb.pp_min p <= Perturb.pp_max p)%nat.
Proof.
  unfold read_perturbation, Perturb.make_pparams. rewrite bind_ok. setoid_rewrite bind_ok. setoid_rewrite bind_ok.
  split.
  - intros (u & H0 & lo & H1 & hi & H2 & H3). apply guard_ok in H0. pose proof (proj1 (keywords_ok _ _) H0) as H0k. clear H0. rename H0k into H0. apply get_ok in H1, H2.
    destruct (Nat.ltb_spec hi lo); [discriminate|]. injection H3 as <-. cbn. split; [exact H0|]. split; [exact H1|]. split; [exact H2|lia].
  - intros (H0 & H1 & H2 & H3). exists tt. split; [apply guard_ok, keywords_ok; exact H0|]. exists (Perturb.pp_min p). split; [apply get_ok; exact H1|].
    exists (Perturb.pp_max p). split; [apply get_ok; exact H2|]. destruct (Nat.ltb_spec (Perturb.pp_max p) (Perturb.pp_min p)); [lia|]. destruct p; reflexivity.
Qed.
Lemma read_penalty_ok t p : read_penalty t = Ok p <-> (forall k v, In (k, v) t -> In k penalty_names) /\
  is_set as_int 500 (lookup "solutions_between_updates" t) (Pm.pp_between p) /\ is_set as_float (dec 150 100) (lookup "penalty_increase" t) (Pm.pp_increase p) /\
  is_set as_float (dec 90 100) (lookup "penalty_decrease" t) (Pm.pp_decrease p) /\ is_set as_float (dec 65 100) (lookup "target_feasible" t) (Pm.pp_target p) /\
  is_set as_float (dec 5 100) (lookup "feas_tolerance" t) (Pm.pp_tolerance p) /\ is_set as_float (dec 1 10) (lookup "min_penalty" t) (Pm.pp_min p) /\
  is_set as_float (b64_of_Z 100000) (lookup "max_penalty" t) (Pm.pp_max p) /\
  1 <= Pm.pp_between p /\ le b64_one (Pm.pp_increase p) /\ (le b64_zero (Pm.pp_decrease p) /\ le (Pm.pp_decrease p) b64_one) /\
  (le b64_zero (Pm.pp_target p) /\ le (Pm.pp_target p) b64_one) /\ (le b64_zero (Pm.pp_tolerance p) /\ le (Pm.pp_tolerance p) b64_one) /\
  ~ lt (Pm.pp_min p) b64_zero /\ ~ lt (Pm.pp_max p) (Pm.pp_min p).
Proof.
  unfold read_penalty, Pm.make_pparams, le, lt. split.
  - intros H. apply bind_ok in H as (u & H0 & H). apply bind_ok in H as (a & H1 & H). apply bind_ok in H as (b & H2 & H). apply bind_ok in H as (c & H3 & H).
    apply bind_ok in H as (e & H4 & H). apply bind_ok in H as (f & H5 & H). apply bind_ok in H as (g & H6 & H). apply bind_ok in H as (m & H7 & H).
    apply guard_ok in H0. pose proof (proj1 (keywords_ok _ _) H0) as H0k. clear H0. rename H0k into H0. apply get_ok in H1, H2, H3, H4, H5, H6, H7.
    destruct (Z.leb_spec 1 a); cbn [negb] in H; [|discriminate].
    destruct (Bleb b64_one b) eqn:B1; cbn [negb] in H; [|discriminate].
    destruct (Bleb b64_zero c) eqn:B2; cbn [negb andb] in H; [|discriminate]. destruct (Bleb c b64_one) eqn:B3; cbn [negb andb] in H; [|discriminate].
    destruct (Bleb b64_zero e) eqn:B4; cbn [negb andb] in H; [|discriminate]. destruct (Bleb e b64_one) eqn:B5; cbn [negb andb] in H; [|discriminate].
    destruct (Bleb b64_zero f) eqn:B6; cbn [negb andb] in H; [|discriminate]. destruct (Bleb f b64_one) eqn:B7; cbn [negb andb] in H; [|discriminate].
    destruct (Bltb g b64_zero) eqn:B8; [discriminate|]. destruct (Bltb m g) eqn:B9; [discriminate|].
    apply (f_equal (fun x => match x with Ok y => y | Err _ => p end)) in H. subst p. cbn [Pm.pp_between Pm.pp_increase Pm.pp_decrease Pm.pp_target Pm.pp_tolerance Pm.pp_min Pm.pp_max].
    rewrite B8, B9. split; [exact H0|]. do 7 (split; [assumption|]). split; [lia|]. split; [exact B1|]. split; [auto|]. split; [auto|]. split; [auto|]. split; discriminate.
  - intros (H0 & H1 & H2 & H3 & H4 & H5 & H6 & H7 & B0 & B1 & (B2 & B3) & (B4 & B5) & (B6 & B7) & B8 & B9).
    apply bind_ok. exists tt. split; [apply guard_ok, keywords_ok; exact H0|].
    apply bind_ok. exists (Pm.pp_between p). split; [apply get_ok; exact H1|]. apply bind_ok. exists (Pm.pp_increase p). split; [apply get_ok; exact H2|].
    apply bind_ok. exists (Pm.pp_decrease p). split; [apply get_ok; exact H3|]. apply bind_ok. exists (Pm.pp_target p). split; [apply get_ok; exact H4|].
    apply bind_ok. exists (Pm.pp_tolerance p). split; [apply get_ok; exact H5|]. apply bind_ok. exists (Pm.pp_min p). split; [apply get_ok; exact H6|].
    apply bind_ok. exists (Pm.pp_max p). split; [apply get_ok; exact H7|].
    destruct (Z.leb_spec 1 (Pm.pp_between p)); [|lia]. rewrite B1, B2, B3, B4, B5, B6, B7. cbn [negb andb].
    destruct (Bltb (Pm.pp_min p) b64_zero); [destruct (B8 eq_refl)|]. destruct (Bltb (Pm.pp_max p) (Pm.pp_min p)); [destruct (B9 eq_refl)|]. destruct p; reflexivity.
Qed.

Lemma named_ok s o l : NoDup (map fst l) -> named s l = Some o <-> In (s, o) l.
Proof.
  induction l as [|[k x] l IH]; cbn [named map fst]; intros N; [split; [discriminate|intros []]|]. inversion N as [|? ? N1 N2]; subst.
  destruct (String.eqb_spec s k) as [->|Ne].
  - split; [intros [= ->]; left; reflexivity|]. intros [[= ->]|H]; [reflexivity|]. exfalso. apply N1. apply (in_map fst) in H. exact H.
  - rewrite IH by exact N2. split; [intros H; right; exact H|]. intros [[= -> _]|H]; [congruence|exact H].
Qed.
Lemma names_distinct : NoDup (map fst operators_by_name).
Proof. unfold operators_by_name. cbn [map fst]. repeat (constructor; [cbn [In]; intuition discriminate|]). constructor. Qed.
Lemma as_operators_ok l : forall os, as_operators l = Ok os <-> Forall2 (fun x o => exists s, x = TText s /\ In (s, o) operators_by_name) l os.
Proof.
  induction l as [|x l IH]; intros os; cbn [as_operators].
  - split; [intros [= <-]; constructor|intros H; inversion H; reflexivity].
  - rewrite bind_ok. setoid_rewrite bind_ok. split.
    + intros (o & Ho & os' & Hos & [= <-]). constructor; [|apply IH; exact Hos]. unfold as_operator in Ho. destruct x as [| | |s| |]; try discriminate.
      exists s. split; [reflexivity|]. apply named_ok; [exact names_distinct|]. destruct (named s operators_by_name); [injection Ho as ->; reflexivity|discriminate].
    + intros H. inversion H as [|? o ? os' (s & -> & Hs) Hf]; subst. apply named_ok in Hs; [|exact names_distinct]. exists o. split; [cbn [as_operator]; rewrite Hs; reflexivity|].
      exists os'. split; [apply IH; exact Hf|reflexivity].
Qed.

Lemma section_table {A} (f : table -> res A) sec names (P : (string -> option toml) -> A -> Prop) :
  (forall s v, f s = Ok v <-> (forall k x, In (k, x) s -> In k names) /\ P (fun key => lookup key s) v) ->
  (forall g g' v, (forall key, g key = g' key) -> P g v -> P g' v) ->
  forall t v, bind (section sec t) f = Ok v <-> section_ok t sec names /\ P (entry t sec) v.
Proof.
  intros Hf Hx t v. rewrite section_is. unfold section_ok, entry. split.
  - intros (s & Hs & E). apply Hf in Hs as [A1 A2]. destruct (lookup sec t) as [[]|]; try contradiction; subst s; split; [exact A1| |exact I|]; (eapply Hx; [|exact A2]; reflexivity).
  - intros [A1 A2]. destruct (lookup sec t) as [[]|]; try contradiction.
    + exists t0. split; [|reflexivity]. apply Hf. split; [exact A1|exact A2].
    + exists []. split; [|reflexivity]. apply Hf. split; [intros k x []|]. eapply Hx; [|exact A2]. reflexivity.
Qed.

Theorem from_file_spec t p : from_file t = Ok p <-> describes t p.
Proof.
  pose proof (section_table read_ils "ils" ils_names (fun g p => is_set as_int 150000 (g "num_iters_no_improvement"%string) (Z.of_nat (ip_noimp p)) /\
    is_set as_int 300 (g "history_length"%string) (Z.of_nat (ip_history p)) /\ (0 < ip_history p)%nat /\ is_set as_bool true (g "exhaustive_on_best"%string) (ip_exhaustive p))
    read_ils_ok) as Si. cbv beta in Si.
  pose proof (section_table read_neighbourhood "neighbourhood" neighbourhood_names (fun g p => is_set as_float (dec 2 10) (g "weight_wait_time"%string) (np_wait p) /\
    is_set as_size (Z.to_nat 50) (g "num_neighbours"%string) (np_num p) /\ (0 < np_num p)%nat /\ is_set as_bool true (g "symmetric_proximity"%string) (np_symmetric p))
    read_neighbourhood_ok) as Sn. cbv beta in Sn.
  pose proof (section_table read_perturbation "perturbation" perturbation_names (fun g p => is_set as_size 1%nat (g "min_perturbations"%string) (Perturb.pp_min p) /\
    is_set as_size 25%nat (g "max_perturbations"%string) (Perturb.pp_max p) /\ (Perturb.pp_min p <= Perturb.pp_max p)%nat) read_perturbation_ok) as Sr. cbv beta in Sr.
  pose proof (section_table read_penalty "penalty" penalty_names (fun g p => is_set as_int 500 (g "solutions_between_updates"%string) (Pm.pp_between p) /\
    is_set as_float (dec 150 100) (g "penalty_increase"%string) (Pm.pp_increase p) /\ is_set as_float (dec 90 100) (g "penalty_decrease"%string) (Pm.pp_decrease p) /\
    is_set as_float (dec 65 100) (g "target_feasible"%string) (Pm.pp_target p) /\ is_set as_float (dec 5 100) (g "feas_tolerance"%string) (Pm.pp_tolerance p) /\
    is_set as_float (dec 1 10) (g "min_penalty"%string) (Pm.pp_min p) /\ is_set as_float (b64_of_Z 100000) (g "max_penalty"%string) (Pm.pp_max p) /\
    1 <= Pm.pp_between p /\ le b64_one (Pm.pp_increase p) /\ (le b64_zero (Pm.pp_decrease p) /\ le (Pm.pp_decrease p) b64_one) /\
    (le b64_zero (Pm.pp_target p) /\ le (Pm.pp_target p) b64_one) /\ (le b64_zero (Pm.pp_tolerance p) /\ le (Pm.pp_tolerance p) b64_one) /\
    ~ lt (Pm.pp_min p) b64_zero /\ ~ lt (Pm.pp_max p) (Pm.pp_min p)) read_penalty_ok) as Sp. cbv beta in Sp.
  assert (X : forall A (conv : toml -> res A) dflt x y v, x = y -> is_set conv dflt x v -> is_set conv dflt y v) by (intros; subst; assumption).
  specialize (Si ltac:(intros g g' v E (A1 & A2 & A3 & A4); rewrite <- !E; auto)).
  specialize (Sn ltac:(intros g g' v E (A1 & A2 & A3 & A4); rewrite <- !E; auto)).
  specialize (Sr ltac:(intros g g' v E (A1 & A2 & A3); rewrite <- !E; auto)).
  specialize (Sp ltac:(intros g g' v E A; rewrite <- !E; exact A)).
  clear X. unfold from_file. split.
  - intros H. apply bind_ok in H as (os & H0 & H). apply bind_ok in H as (i & H1 & H). apply bind_ok in H as (pe & H2 & H). apply bind_ok in H as (n & H3 & H).
    apply bind_ok in H as (pt & H4 & H). apply (f_equal (fun x => match x with Ok y => y | Err _ => p end)) in H. subst p.
    apply Si in H1 as (I0 & I1 & I2 & I3 & I4). apply Sp in H2 as (P0 & P1 & P2 & P3 & P4 & P5 & P6 & P7 & P8 & P9 & P10 & P11 & P12 & P13).
    apply Sn in H3 as (N0 & N1 & N2 & N3 & N4). apply Sr in H4 as (R0 & R1 & R2 & R3).
    constructor; cbn [sv_ils sv_penalty sv_neighbourhood sv_operators sv_perturbation]; try assumption.
    apply get_ok in H0. unfold is_set in H0. destruct (lookup "operators" t) as [[]|]; try discriminate; [|exact H0]. apply as_operators_ok. exact H0.
  - intros []. apply bind_ok. exists (sv_operators p). split.
    { apply get_ok. unfold is_set. destruct (lookup "operators" t) as [[]|]; try contradiction; [|assumption]. apply as_operators_ok. assumption. }
    apply bind_ok. exists (sv_ils p). split; [apply Si; auto|]. apply bind_ok. exists (sv_penalty p). split; [apply Sp; split; [assumption|]; do 12 (split; [assumption|]); assumption|].
    apply bind_ok. exists (sv_neighbourhood p). split; [apply Sn; auto|]. apply bind_ok. exists (sv_perturbation p). split; [apply Sr; auto|]. destruct p; reflexivity.
Qed.

(** Parameters from a file whose numbers are finite are ones that solve() works with. *)
Definition finite_entries (p : solve_params) : Prop :=
  is_finite (b64_of_Z (Pm.pp_between (sv_penalty p))) = true /\ is_finite (Pm.pp_increase (sv_penalty p)) = true /\
  is_finite (Pm.pp_min (sv_penalty p)) = true /\ is_finite (Pm.pp_max (sv_penalty p)) = true /\ is_finite (np_wait (sv_neighbourhood p)) = true.
Lemma unit_finite (x : b64) : le b64_zero x -> le x b64_one -> is_finite x = true.
Proof.
  unfold le. intros H1 H2. destruct x as [s|s| |s m e b]; [reflexivity| |discriminate H1|reflexivity].
  destruct s; [discriminate H1|]. exfalso. revert H2. unfold b64_one. vm_compute. discriminate.
Qed.
Lemma by_name_ok s o : In (s, o) operators_by_name -> operator_ok o.
Proof.
  intros H. unfold operators_by_name in H. cbn [In] in H. repeat (destruct H as [[= <- <-]|H]; [cbn; lia|]). destruct H.
Qed.
Theorem from_file_params_ok t p : from_file t = Ok p -> finite_entries p -> params_ok p.
Proof.
  intros H (F1 & F2 & F3 & F4 & F5). apply from_file_spec in H. destruct H. destruct one_exact as [O1 O2]. pose proof B2R_b64_zero as Z0.
  constructor.
  - assert (G1 : is_finite (Pm.pp_decrease (sv_penalty p)) = true) by (apply unit_finite; apply ds_decrease_ok0).
    assert (G2 : is_finite (Pm.pp_target (sv_penalty p)) = true) by (apply unit_finite; apply ds_target_ok0).
    assert (G3 : is_finite (Pm.pp_tolerance (sv_penalty p)) = true) by (apply unit_finite; apply ds_tolerance_ok0).
    assert (U : forall x : b64, is_finite x = true -> le b64_zero x /\ le x b64_one -> (0 <= B2R x <= 1)%R).
    { intros x Hx [A B]. apply leb_R in A; [|reflexivity|exact Hx]. apply leb_R in B; [|exact Hx|exact O1]. rewrite Z0 in A. rewrite O2 in B. split; assumption. }
    constructor; try assumption; try (apply U; assumption).
    + auto 10.
    + rewrite <- O2. apply leb_R; assumption.
    + destruct ds_bounds_ok0 as [B1 B2]. unfold lt in B1, B2. rewrite ltb_R in B1, B2 by (assumption || reflexivity). rewrite Z0 in B1. split; [apply Rnot_lt_le; exact B1|apply Rnot_lt_le; exact B2].
  - exact F5.
  - destruct (lookup "operators" t) as [[]|]; try contradiction; [|rewrite ds_operators0; exact (po_ops _ defaults_ok)].
    clear - ds_operators0. induction ds_operators0 as [|x o l os (s & _ & Hs) _ IH]; constructor; [exact (by_name_ok s o Hs)|exact IH].
  - assumption.
  - assumption.
Qed.
Lemma from_empty : from_file [] = Ok defaults.
Proof. apply from_file_spec. constructor; try exact I; try reflexivity; try (split; reflexivity); try (vm_compute; reflexivity). - apply Nat.ltb_lt. vm_compute. reflexivity. - vm_compute. discriminate. - split; vm_compute; discriminate. - apply Nat.ltb_lt. vm_compute; reflexivity. - cbn. lia. Qed.
(** Sections that are not known are ignored. *)
Lemma from_file_ignores k v t : ~ In k ["operators"; "ils"; "penalty"; "neighbourhood"; "perturbation"]%string -> from_file ((k, v) :: t) = from_file t.
Proof.
  intros H. assert (L : forall j, In j ["operators"; "ils"; "penalty"; "neighbourhood"; "perturbation"]%string -> lookup j ((k, v) :: t) = lookup j t).
  { intros j Hj. cbn [lookup]. destruct (String.eqb_spec j k) as [->|]; [contradiction|reflexivity]. }
  unfold from_file, section, get. rewrite !L by (cbn [In]; auto 10). reflexivity.
Qed.
