(** C63-C65: parameter files, solving an instance file from the command line, and the table of results. *)
From Coq Require Import ZArith Reals Lia List String Permutation.
From Coq Require Import Ascii.
From Flocq Require Import IEEE754.BinarySingleNaN.
From Verif Require Import Base DurationSegment Data LoadSegment Valid Route RouteSpec Cost CostFacts Penalty Solution SolutionFacts SolutionFacts2 SolutionFacts3
  Equal Ils OpsBase Neighbourhood Ops OpsAll StatsCsv ActivityText ModelPy Read ReadFacts ReadSpec ReadSol ReadData ReadVeh ReadMat ReadRoute ReadOk Stop ResultPy Solve Hang
  Config Cli FileSize Table.
From Verif Require PRead.
Import ListNotations.
Local Open Scope Z_scope.
Notation length := List.length.

(** ** C63: parameter files *)
(** A file is accepted exactly if it describes parameters ([describes], Config.v, lists what each entry must be and mean). *)
Theorem C63_file : forall t p, from_file t = Ok p <-> describes t p.
Proof. exact from_file_spec. Qed.
Print Assumptions C63_file.
(** What the entries may be: [describes] takes integers, sizes, Booleans and numbers as written, and no others. *)
Theorem C63_values : (forall x z, as_int x = Ok z <-> x = TInt z) /\ (forall x m, as_size x = Ok m <-> x = TInt (Z.of_nat m)) /\
  (forall x b, as_bool x = Ok b <-> x = TBool b) /\ (forall x y, as_float x = Ok y <-> x = TFloat y \/ exists z, x = TInt z /\ y = b64_of_Z z).
Proof.
  repeat split.
  - destruct x; cbn; try discriminate. congruence.
  - intros ->. reflexivity.
  - destruct x; cbn; try discriminate. destruct (Z.ltb_spec z 0); [discriminate|]. intros [= <-]. rewrite Z2Nat.id by lia. reflexivity.
  - intros ->. cbn. destruct (Z.ltb_spec (Z.of_nat m) 0); [lia|]. rewrite Nat2Z.id. reflexivity.
  - destruct x; cbn; try discriminate. congruence.
  - intros ->. reflexivity.
  - destruct x; cbn; try discriminate; intros [= <-]; eauto.
  - intros [-> | (z & -> & ->)]; reflexivity.
Qed.
Print Assumptions C63_values.
Theorem C63_default : from_file [] = Ok defaults.
Proof. exact from_empty. Qed.
Print Assumptions C63_default.
(** With finite numbers, the parameters meet the conditions under which solve() is proved to work. *)
Theorem C63_usable : forall t p, from_file t = Ok p -> finite_entries p -> params_ok p.
Proof. exact from_file_params_ok. Qed.
Print Assumptions C63_usable.
(** A section or entry at the top of the file that has an unknown name is ignored. *)
Theorem C63_ignored : forall k v t, ~ In k ["operators"; "ils"; "penalty"; "neighbourhood"; "perturbation"]%string -> from_file ((k, v) :: t) = from_file t.
Proof. exact from_file_ignores. Qed.
Print Assumptions C63_ignored.

(** Three entries, of two sections, and a choice of operators. *)
Definition cf_table : table :=
  [("operators", TArray [TText "Swap11"; TText "ReplaceGroup"; TText "Relocate1"]);
   ("penalty", TTable [("target_feasible", TFloat (dec 43 100)); ("max_penalty", TInt 9000)]);
   ("ils", TTable [("history_length", TInt 7)])]%string.
Example C63_case : match from_file cf_table with
  | Ok p => finite_entries p /\ ip_history (sv_ils p) = 7%nat /\ ip_exhaustive (sv_ils p) = true /\
      sv_operators p = [OBinary (BSwap 1 1); OUnary UReplaceGroup; OBinary (BRelocate 1)] /\ Beqb (Pm.pp_max (sv_penalty p)) (b64_of_Z 9000) = true /\
      Beqb (Pm.pp_target (sv_penalty p)) (dec 43 100) = true /\ Beqb (Pm.pp_min (sv_penalty p)) (dec 1 10) = true
  | Err _ => False
  end.
Proof. unfold finite_entries. vm_compute. repeat split; reflexivity. Qed.
(** Unknown names within a section are rejected, and so are a history of length zero and an unknown operator. *)
Example C63_rejected : from_file [("ils", TTable [("history", TInt 7)])]%string = Err RuntimeErr /\
  (exists e, from_file [("ils", TTable [("history_length", TInt 0)])]%string = Err e) /\
  from_file [("operators", TArray [TText "Swap12"])]%string = Err RuntimeErr.
Proof. split; [vm_compute; reflexivity|]. split; [eexists; vm_compute; reflexivity|vm_compute; reflexivity]. Qed.

(** The largest penalty may be infinite, and the smallest not a number. *)
Theorem C63_finite_refuted : exists t p, from_file t = Ok p /\ is_finite (Pm.pp_max (sv_penalty p)) = false /\ Pm.pp_min (sv_penalty p) = B754_nan.
Proof.
  set (t := [("penalty", TTable [("min_penalty", TFloat B754_nan); ("max_penalty", TFloat (B754_infinity false))])]%string).
  assert (H : match from_file t with Ok p => is_finite (Pm.pp_max (sv_penalty p)) = false /\ Pm.pp_min (sv_penalty p) = B754_nan | Err _ => False end) by (vm_compute; split; reflexivity).
  exists t. destruct (from_file t) as [p|e]; [|destruct H]. exists p. split; [reflexivity|exact H].
Qed.
Print Assumptions C63_finite_refuted.

(** ** C64: solving a file from the command line *)
(** A complete and consistent file with numbers of a moderate size can be solved, with any parameters of a parameter file and any
    limits of which one is reached: [cli_right] (Cli.v) says what is returned and what the statistics and solution files hold. *)
Theorem C64_solves : forall (Num F : Type) zero (repr : F -> text) (float : text -> res F),
  (forall x, float (repr x) = Ok x) -> (forall x, ~ In lf (repr x)) ->
  forall clock elapsed runtime a p rf (inst : instance Num) h T M S G U P,
  chosen a p -> file_ok Num zero rf inst -> modest_file Num zero rf inst h T M S G U P ->
  match in_pd inst with None => True | Some rows => pairs_proper Num zero inst rows end ->
  sensible (ca_runtime a) -> sensible (ca_iterations a) -> sensible (ca_improvement a) -> bounded clock a -> b64_neg runtime = false ->
  exists d n0 k0 out, read Num zero rf inst = Ok d /\ forall n k, (n0 <= n)%nat -> (k0 <= k)%nat ->
    cli_solve zero repr clock elapsed runtime n k a rf inst = Some (Ok out) /\
    exists c o, make_stop (in_force a d (ca_runtime a)) (in_force a d (ca_iterations a)) (in_force a d (ca_improvement a)) = Ok c /\
      solve d (criterion * nat) (py_stop clock) p (ca_stats a) n k (ca_seed a) None (c, 0%nat) = Some (Ok o) /\ cli_right float a d clock elapsed o out.
Proof.
  intros Num F zero repr float Hf Hl clock elapsed runtime a p rf inst h T M S G U P Hc Hok Hm Hp S1 S2 S3 Hb Hr.
  destruct (read_ok Num zero rf inst Hok) as [d Hd].
  destruct (cli_works zero repr float Hf Hl clock elapsed runtime a p rf inst d h Hc Hd Hp (modest_file_solvable Num zero rf inst d Hd h T M S G U P Hm) S1 S2 S3 Hb Hr) as (n0 & k0 & out & H).
  exists d, n0, k0, out. split; [exact Hd|exact H].
Qed.
Print Assumptions C64_solves.
(** Reading a file that is accepted gives data that solve() is proved to work on (C48), if the numbers are of a moderate size. *)
Theorem C64_solvable : forall Num zero rf (inst : instance Num) d h T M S G U P,
  read Num zero rf inst = Ok d -> modest_file Num zero rf inst h T M S G U P -> solvable d h.
Proof. intros Num zero rf inst d h T M S G U P Hd. exact (modest_file_solvable Num zero rf inst d Hd h T M S G U P). Qed.
Print Assumptions C64_solvable.
(** The criteria together stop at the first question at which a limit is reached. *)
Theorem C64_stops : forall clock rt it ni c costs, make_stop rt it ni = Ok c -> asked (criterion * nat) (py_stop clock) (c, 0%nat) costs ->
  due clock rt it ni costs (length costs - 1) /\ forall j, (j < length costs - 1)%nat -> ~ due clock rt it ni costs j.
Proof. exact stop_exact. Qed.
Print Assumptions C64_stops.
(** A negative limit raises. *)
Theorem C64_negative : forall (Num F : Type) zero (repr : F -> text) clock elapsed runtime n k a p rf (inst : instance Num) d z,
  chosen a p -> read Num zero rf inst = Ok d -> z < 0 ->
  in_force a d (ca_runtime a) = Finite z \/ in_force a d (ca_iterations a) = Finite z \/ in_force a d (ca_improvement a) = Finite z ->
  exists e, cli_solve zero repr clock elapsed runtime n k a rf inst = Some (Err e).
Proof.
  intros Num F zero repr clock elapsed runtime n k a p rf inst d z Hc Hd Hz Hn. unfold cli_solve. destruct (chosen_ok a p Hc) as [_ ->]. rewrite Hd.
  change (if ca_per_client a then scaled (p_numClients d) (ca_runtime a) else ca_runtime a) with (in_force a d (ca_runtime a)).
  change (if ca_per_client a then scaled (p_numClients d) (ca_iterations a) else ca_iterations a) with (in_force a d (ca_iterations a)).
  change (if ca_per_client a then scaled (p_numClients d) (ca_improvement a) else ca_improvement a) with (in_force a d (ca_improvement a)). cbv zeta.
  assert (E : exists e, make_stop (in_force a d (ca_runtime a)) (in_force a d (ca_iterations a)) (in_force a d (ca_improvement a)) = Err e).
  { assert (N : forall make l, (forall y, y < 0 -> exists e, make y = Err e) -> l = Finite z -> exists e, limited make l = Err e).
    { intros make l Hm ->. destruct (Hm z Hz) as [e He]. exists e. cbn. rewrite He. reflexivity. }
    assert (N1 : forall y, y < 0 -> exists e, make_max_runtime y = Err e) by (intros y Hy; unfold make_max_runtime; destruct (Z.ltb_spec y 0); [eexists; reflexivity|lia]).
    assert (N2 : forall y, y < 0 -> exists e, make_max_iterations y = Err e) by (intros y Hy; unfold make_max_iterations; destruct (Z.ltb_spec y 0); [eexists; reflexivity|lia]).
    assert (N3 : forall y, y < 0 -> exists e, make_no_improvement y = Err e) by (intros y Hy; unfold make_no_improvement; destruct (Z.ltb_spec y 0); [eexists; reflexivity|lia]).
    unfold make_stop. destruct (limited make_max_runtime _) as [c1|e1] eqn:E1; [|eexists; reflexivity]. cbn [bind].
    destruct (limited make_max_iterations _) as [c2|e2] eqn:E2; [|eexists; reflexivity]. cbn [bind].
    destruct (limited make_no_improvement _) as [c3|e3] eqn:E3; [|eexists; reflexivity].
    destruct Hn as [Hn|[Hn|Hn]]; [destruct (N _ _ N1 Hn) as [e He]|destruct (N _ _ N2 Hn) as [e He]|destruct (N _ _ N3 Hn) as [e He]]; congruence. }
  destruct E as [e ->]. exists e. reflexivity.
Qed.
Print Assumptions C64_negative.
(** With limits per client and no clients, as in a file where all locations are of shipments, no iteration is made. *)
Theorem C64_no_clients : forall F (float : text -> res F) a d clock elapsed o out z, cli_right float a d clock elapsed o out ->
  ca_per_client a = true -> p_numClients d = 0%nat -> ca_iterations a = Finite z \/ ca_improvement a = Finite z -> co_iters out = 0%nat.
Proof.
  intros F float a d clock elapsed o out z R Hp Hn Hz. destruct (cr_due _ _ _ _ _ _ _ R) as [_ H]. destruct (co_iters out) as [|j]; [reflexivity|]. exfalso.
  apply (H 0%nat (Nat.lt_0_succ j)). unfold in_force. rewrite Hp, Hn. destruct Hz as [-> | ->]; cbn [scaled]; rewrite Z.mul_0_r.
  - right. left. exists 0. split; [reflexivity|cbn; lia].
  - right. right. eexists 0, _, []. split; [reflexivity|]. cbn [firstn map]. split; [symmetry; apply app_nil_r|]. split; [discriminate|]. split; [reflexivity|]. intros x [].
Qed.
Print Assumptions C64_no_clients.
(** With a limit on iterations alone, just so many are made; for each client, if asked. *)
Theorem C64_iterations : forall F (float : text -> res F) a d clock elapsed o out z, cli_right float a d clock elapsed o out ->
  ca_runtime a = Infinite -> ca_iterations a = Finite z -> ca_improvement a = Infinite -> 0 <= z ->
  Z.of_nat (co_iters out) = if ca_per_client a then z * Z.of_nat (p_numClients d) else z.
Proof.
  intros F float a d clock elapsed o out z R H1 H2 H3 Hz. destruct (cr_due _ _ _ _ _ _ _ R) as [D N]. rewrite H1, H2, H3 in D, N.
  assert (I : forall l, l = in_force a d Infinite -> forall x, l <> Finite x) by (intros l -> x; unfold in_force, scaled; destruct (ca_per_client a); [destruct (p_numClients d =? 0)%nat|]; discriminate).
  set (m := if ca_per_client a then z * Z.of_nat (p_numClients d) else z).
  assert (E : in_force a d (Finite z) = Finite m) by (unfold in_force, m, scaled; destruct (ca_per_client a); reflexivity).
  assert (Hm : 0 <= m) by (unfold m; destruct (ca_per_client a); [apply Z.mul_nonneg_nonneg; lia|exact Hz]). rewrite E in D, N.
  assert (L : m <= Z.of_nat (co_iters out)).
  { destruct D as [(t & Et & _)|[(x & Ex & Hx)|(x & b & b' & Ex & _)]]; [destruct (I _ eq_refl t Et)|injection Ex as <-; exact Hx|destruct (I _ eq_refl x Ex)]. }
  destruct (Z.eq_dec (Z.of_nat (co_iters out)) m) as [Q|Q]; [exact Q|]. exfalso. apply (N (Z.to_nat m)); [lia|]. right. left. exists m. split; [reflexivity|lia].
Qed.
Print Assumptions C64_iterations.

(** *** Examples *)
(** A file where two of three vehicles may not visit one client and the last two clients form a group (PRead.v). *)
Lemma ex_modest : modest_file Z 0 PRead.ident PRead.ex_file 0 1 MAX_VALUE 2 0 1 0.
Proof.
  constructor.
  - unfold MAXV. lia.
  - intros i j. split; [apply PRead.ex_edges|]. unfold file_edge. change (in_edge PRead.ex_file) with (4%nat, 4%nat, [0; 7; 7; 7; 7; 0; 7; 7; 7; 7; 0; 7; 7; 7; 7; 0]). cbv iota beta.
    generalize (4 * i + j)%nat. intros n. do 16 (destruct n as [|n]; [discriminate|]). destruct n; discriminate.
  - intros _. lia.
  - intros loc. cbn. unfold MAXV. lia.
  - intros loc. cbn. unfold PRead.ident. lia.
  - intros loc. cbn. unfold PRead.ident. split; [lia|exact I].
  - intros loc. cbn. lia.
  - intros v Hv. cbn. unfold PRead.ident. lia.
  - intros v Hv. cbn. lia.
  - intros v Hv. exact I.
  - intros H. contradiction H. reflexivity.
  - vm_compute. discriminate.
  - vm_compute. reflexivity.
Qed.
Definition ex_args (per_client : bool) : cli_args := mk_cli_args None 3 Infinite (Finite 2) Infinite per_client true true.
Definition ex_show (per_client : bool) (inst : instance Z) : option (bool * option Z * nat * option (list (list nat)) * option (option Z)) :=
  match cli_solve 0 print_int (fun _ => 0) Z.of_nat (b64_of_Z 1) 50 50 (ex_args per_client) PRead.ident inst with
  | Some (Ok out) => Some (co_ok out, co_cost out, co_iters out, co_lines out, co_final_cost out)
  | _ => None
  end.
(** Two iterations for each of three clients. *)
Example C64_case : file_ok Z 0 PRead.ident PRead.ex_file /\ modest_file Z 0 PRead.ident PRead.ex_file 0 1 MAX_VALUE 2 0 1 0 /\
  chosen (ex_args true) defaults /\ bounded (fun _ => 0) (ex_args true) /\ sensible (ca_iterations (ex_args true)) /\
  ex_show true PRead.ex_file = Some (true, Some 21, 6%nat, Some [[]; [1; 2]; []]%nat, Some (Some 21)).
Proof.
  split; [exact PRead.ex_ok|]. split; [exact ex_modest|]. split; [reflexivity|]. split; [left; exists 2; reflexivity|]. split; [cbn; lia|]. vm_compute. reflexivity.
Qed.
(** Two iterations for each client of a file with a shipment and no clients are none. *)
Theorem C64_per_client_refuted : exists (inst : instance Z) d, read Z 0 PRead.ident inst = Ok d /\ p_numShipments d = 1%nat /\
  ex_show false inst = Some (true, Some 21, 2%nat, Some [[1; 2]]%nat, Some (Some 21)) /\
  ex_show true inst = Some (true, Some 21, 0%nat, Some [[1; 2]]%nat, Some (Some 21)).
Proof.
  exists PRead.ex_pd, PRead.ex_pd_data. split; [exact (proj1 PRead.ex_pd_read)|]. split; [vm_compute; reflexivity|]. split; vm_compute; reflexivity.
Qed.
Print Assumptions C64_per_client_refuted.

(** ** C65: the table of results *)
(** All lines have the same length, the widths of the columns are those of their widest cells, and each cell is in its column. *)
Theorem C65_table : forall headers rows, (forall r, In r rows -> length r = length headers) -> exists lens header rule body,
  tabulate headers rows = Ok (header :: rule :: body) /\ length lens = length headers /\ length body = length rows /\
  (forall j, (j < length headers)%nat -> (length (nth j headers []) <= nth j lens 0)%nat /\ (forall r, In r rows -> (length (nth j r []) <= nth j lens 0)%nat) /\
     (nth j lens 0%nat = length (nth j headers []) \/ exists r, In r rows /\ nth j lens 0%nat = length (nth j r []))) /\
  (forall l, In l (header :: rule :: body) -> length l = total lens) /\
  (forall j, (j < length headers)%nat -> cell_at lens j header = pad_left (nth j lens 0%nat) (nth j headers []) /\
     cell_at lens j rule = dashes (nth j lens 0%nat) /\
     forall i, (i < length rows)%nat -> cell_at lens j (nth i body []) = pad_right (nth j lens 0%nat) (nth j (nth i rows []) [])).
Proof. exact tabulate_spec. Qed.
Print Assumptions C65_table.
Theorem C65_rejects : forall headers rows r, In r rows -> (length headers < length r)%nat -> tabulate headers rows = Err OutOfRange.
Proof. exact tabulate_rejects. Qed.
Print Assumptions C65_rejects.
Definition tx (s : string) : text := list_ascii_of_string s.
Example C65_case : tabulate [tx "Instance"; tx "OK"; tx "Obj."] [[tx "X-n101"; tx "Y"; tx "27591"]; [tx "RC208"; tx "N"; tx "7"]] =
  Ok [tx "Instance  OK  Obj. "; tx "--------  --  -----"; tx "  X-n101   Y  27591"; tx "   RC208   N      7"].
Proof. vm_compute. reflexivity. Qed.
