(** The text form of activities: pyvrp/cpp/Activity.cpp. *)
From Coq Require Import Ascii.
From Verif Require Import Base Data.

(** Strings as lists of characters. *)
Definition text := list ascii.
Definition code (c : ascii) : Z := Z.of_nat (nat_of_ascii c).
Definition chr (z : Z) : ascii := ascii_of_nat (Z.to_nat z).

Definition is_digit (c : ascii) : bool := (48 <=? code c) && (code c <=? 57).
(** isspace in the C locale. *)
Definition is_space (c : ascii) : bool := (code c =? 32) || ((9 <=? code c) && (code c <=? 13)).

(** Writing an integer in decimal; 20 digits are enough for a size_t. *)
Fixpoint print_loop (fuel : nat) (n : Z) (acc : text) : text :=
  match fuel with
  | O => acc
  | S f => let acc := chr (48 + n mod 10) :: acc in
           if n <? 10 then acc else print_loop f (n / 10) acc
  end.
Definition print_size (n : Z) : text := print_loop 20 n [].

(** std::stoul in base 10: leading whitespace, an optional sign, digits; what follows is
    ignored.  A minus sign negates modulo 2^64. *)
Fixpoint skip_space (s : text) : text :=
  match s with c :: more => if is_space c then skip_space more else s | [] => [] end.
Fixpoint read_digits (acc : Z) (s : text) : Z :=
  match s with
  | c :: more => if is_digit c then read_digits (acc * 10 + (code c - 48)) more else acc
  | [] => acc
  end.
Definition starts_digit (s : text) : bool := match s with c :: _ => is_digit c | [] => false end.
Definition split_sign (s : text) : bool * text :=
  match s with
  | c :: more => if code c =? 43 then (false, more)
                 else if code c =? 45 then (true, more) else (false, s)
  | [] => (false, s)
  end.
Definition stoul (s : text) : res Z :=
  let '(neg, s) := split_sign (skip_space s) in
  if negb (starts_digit s) then Err InvalidArgument
  else let v := read_digits 0 s in
       if v >? SIZE_MAX then Err OutOfRange
       else Ok (if neg : bool then (- v) mod (SIZE_MAX + 1) else v).

(** Activity.cpp:26-41 and 53-56; 'D', 'C', 'L' (load), 'U' (unload). *)
Definition type_char (a : activity) : ascii :=
  match a with
  | ADepot _ => "D" | AClient _ => "C" | APickup _ => "L" | ADelivery _ => "U"
  end%char.
Definition print_activity (a : activity) : text := type_char a :: print_size (Z.of_nat (a_idx a)).

(** Activity.cpp:9-24 *)
Definition char_type (c : ascii) : res (nat -> activity) :=
  if Ascii.eqb c "D" then Ok ADepot
  else if Ascii.eqb c "C" then Ok AClient
  else if Ascii.eqb c "L" then Ok APickup
  else if Ascii.eqb c "U" then Ok ADelivery
  else Err InvalidArgument.

(** Activity.cpp:46-51: the type is read before the index. *)
Definition parse_activity (s : text) : res activity :=
  match s with
  | [] => Err InvalidArgument
  | c :: more =>
      match char_type c with
      | Err e => Err e
      | Ok make => match stoul more with Err e => Err e | Ok v => Ok (make (Z.to_nat v)) end
      end
  end.

(** Activity.h:113-121 *)
Definition type_code (a : activity) : Z :=
  match a with ADepot _ => 0 | AClient _ => 1 | APickup _ => 2 | ADelivery _ => 3 end.
Definition hash_activity (a : activity) : Z :=
  (type_code a * 2 ^ 20 + Z.of_nat (a_idx a)) mod (SIZE_MAX + 1).

(** ** Facts *)
Lemma code_chr z : 0 <= z < 256 -> code (chr z) = z.
Proof. intros H. unfold code, chr. rewrite nat_ascii_embedding by lia. lia. Qed.

Lemma digit_chr r : 0 <= r < 10 -> is_digit (chr (48 + r)) = true /\ code (chr (48 + r)) - 48 = r.
Proof. intros H. unfold is_digit. rewrite code_chr by lia. lia. Qed.

Definition all_digits (s : text) : Prop := Forall (fun c => is_digit c = true) s.
Definition value (s : text) : Z := fold_left (fun v c => v * 10 + (code c - 48)) s 0.

Lemma print_loop_spec fuel : forall n acc, 0 <= n < 10 ^ Z.of_nat fuel -> (0 < fuel)%nat ->
  exists ds, print_loop fuel n acc = ds ++ acc /\ ds <> [] /\ all_digits ds /\ value ds = n.
Proof.
  induction fuel as [|f IH]; intros n acc Hn Hf; [lia|]. cbn [print_loop].
  assert (Hm : 0 <= n mod 10 < 10) by (apply Z.mod_pos_bound; lia).
  destruct (digit_chr _ Hm) as [Hd Hc].
  destruct (Z.ltb_spec n 10) as [Hlt|Hge].
  - exists [chr (48 + n mod 10)]. split; [reflexivity|]. split; [discriminate|].
    split; [constructor; [exact Hd|constructor]|]. unfold value. cbn [fold_left]. rewrite Hc. rewrite Z.mod_small by lia. lia.
  - assert (Hf' : (0 < f)%nat) by (destruct f; [cbn in Hn; lia|lia]).
    rewrite Nat2Z.inj_succ, Z.pow_succ_r in Hn by lia.
    destruct (IH (n / 10) (chr (48 + n mod 10) :: acc)) as (ds & E & Hne & Hall & Hv).
    { split; [apply Z.div_pos; lia|]. apply Z.div_lt_upper_bound; lia. }
    { exact Hf'. }
    exists (ds ++ [chr (48 + n mod 10)]). rewrite E, <- app_assoc. split; [reflexivity|].
    split; [destruct ds; discriminate|]. split; [apply Forall_app; split; [exact Hall|constructor; [exact Hd|constructor]]|].
    unfold value in *. rewrite fold_left_app, Hv. cbn [fold_left]. rewrite Hc.
    pose proof (Z.div_mod n 10 ltac:(lia)). lia.
Qed.

Lemma read_all ds rest : all_digits ds -> starts_digit rest = false -> forall v,
  read_digits v (ds ++ rest) = fold_left (fun v c => v * 10 + (code c - 48)) ds v.
Proof.
  intros Hd Hr. induction Hd as [|c ds Hc Hd IH]; intros v; cbn [app read_digits fold_left].
  - destruct rest as [|c rest]; [reflexivity|]. cbn in *. rewrite Hr. reflexivity.
  - rewrite Hc. apply IH.
Qed.

Lemma digit_not_space c : is_digit c = true -> is_space c = false /\ code c =? 43 = false /\ code c =? 45 = false.
Proof. unfold is_digit, is_space. lia. Qed.

(** The general shape of accepted indices. *)
Lemma stoul_digits ws ds rest : Forall (fun c => is_space c = true) ws -> all_digits ds -> ds <> [] ->
  starts_digit rest = false ->
  stoul (ws ++ ds ++ rest) = if value ds >? SIZE_MAX then Err OutOfRange else Ok (value ds).
Proof.
  intros Hw Hd Hne Hr. unfold stoul.
  assert (E : skip_space (ws ++ ds ++ rest) = ds ++ rest).
  { induction Hw as [|c ws Hc Hw IH]; cbn [app skip_space].
    - destruct Hd as [|c ds Hc Hd]; [congruence|]. cbn. destruct (digit_not_space c Hc) as [-> _]. reflexivity.
    - rewrite Hc. exact IH. }
  rewrite E. destruct ds as [|c ds]; [congruence|]. cbn [app split_sign].
  pose proof Hd as Hd'. inversion Hd' as [|c' ds' Hc Hds]; subst. destruct (digit_not_space c Hc) as (_ & -> & ->).
  cbn [starts_digit]. rewrite Hc. cbn [negb].
  change (c :: ds ++ rest) with ((c :: ds) ++ rest). rewrite (read_all (c :: ds) rest Hd Hr 0). reflexivity.
Qed.

Theorem parse_print a : Z.of_nat (a_idx a) <= SIZE_MAX -> parse_activity (print_activity a) = Ok a.
Proof.
  intros Ha. unfold parse_activity, print_activity, print_size.
  destruct (print_loop_spec 20 (Z.of_nat (a_idx a)) []) as (ds & E & Hne & Hd & Hv).
  { split; [lia|]. eapply Z.le_lt_trans; [exact Ha|]. reflexivity. }
  { lia. }
  rewrite app_nil_r in E. rewrite E.
  pose proof (stoul_digits [] ds [] ltac:(constructor) Hd Hne eq_refl) as Hs. cbn [app] in Hs.
  rewrite app_nil_r, Hv in Hs. destruct (Z.gtb_spec (Z.of_nat (a_idx a)) SIZE_MAX); [lia|].
  destruct a; cbn [type_char char_type Ascii.eqb Bool.eqb a_idx] in *; rewrite Hs, Nat2Z.id; reflexivity.
Qed.

(** What is accepted: a type letter and then, after optional whitespace and sign, digits whose
    value fits; anything may follow. *)
Definition sign_ok (sg : text) : Prop := sg = [] \/ (exists c, sg = [c] /\ (code c = 43 \/ code c = 45)).

Lemma span_digits s : exists ds rest, s = ds ++ rest /\ all_digits ds /\ starts_digit rest = false.
Proof.
  induction s as [|c s IH]; [exists [], []; repeat split; constructor|].
  destruct (is_digit c) eqn:E.
  - destruct IH as (ds & rest & -> & Hd & Hr). exists (c :: ds), rest. repeat split; [|exact Hr]. constructor; assumption.
  - exists [], (c :: s). repeat split; [constructor|exact E].
Qed.
Lemma span_space s : exists ws rest, s = ws ++ rest /\ Forall (fun c => is_space c = true) ws /\
  skip_space s = rest /\ (match rest with c :: _ => is_space c = false | [] => True end).
Proof.
  induction s as [|c s IH]; [exists [], []; repeat split; constructor|]. cbn [skip_space].
  destruct (is_space c) eqn:E.
  - destruct IH as (ws & rest & -> & Hw & Hs & Hr). exists (c :: ws), rest. repeat split; auto.
  - exists [], (c :: s). repeat split; auto.
Qed.

Lemma skip_app ws rest : Forall (fun c => is_space c = true) ws ->
  match rest with c :: _ => is_space c = false | [] => True end -> skip_space (ws ++ rest) = rest.
Proof.
  intros Hw Hr. induction Hw as [|c ws Hc Hw IH]; cbn [app skip_space].
  - destruct rest as [|c rest]; [reflexivity|]. cbn. rewrite Hr. reflexivity.
  - rewrite Hc. exact IH.
Qed.

Theorem stoul_accepts s v : stoul s = Ok v <->
  exists ws sg ds rest, s = ws ++ sg ++ ds ++ rest /\ Forall (fun c => is_space c = true) ws /\
    sign_ok sg /\ all_digits ds /\ ds <> [] /\ starts_digit rest = false /\ value ds <= SIZE_MAX /\
    v = if existsb (fun c => code c =? 45) sg then (- value ds) mod (SIZE_MAX + 1) else value ds.
Proof.
  split.
  - unfold stoul. destruct (span_space s) as (ws & r & -> & Hw & -> & Hr).
    remember (split_sign r) as p eqn:Ep.
    assert (Hp : exists sg, r = sg ++ snd p /\ sign_ok sg /\ existsb (fun c => code c =? 45) sg = fst p).
    { subst p. destruct r as [|c more]; [exists []; repeat split; left; reflexivity|]. unfold split_sign.
      destruct (Z.eqb_spec (code c) 43) as [E|E].
      - exists [c]. cbn. rewrite E. repeat split. right. exists c. auto.
      - destruct (Z.eqb_spec (code c) 45) as [E2|E2].
        + exists [c]. cbn. rewrite E2. repeat split. right. exists c. auto.
        + exists []. repeat split. left. reflexivity. }
    destruct p as [neg s2]. clear Ep. cbn [fst snd] in Hp. destruct Hp as (sg & -> & Hsg & Hneg).
    destruct (span_digits s2) as (ds & rest & -> & Hd & Hrest).
    destruct (starts_digit (ds ++ rest)) eqn:Es; cbn [negb]; [|discriminate].
    assert (Hne : ds <> []) by (intros ->; cbn in Es; congruence).
    rewrite (read_all ds rest Hd Hrest 0). fold (value ds).
    destruct (Z.gtb_spec (value ds) SIZE_MAX); [discriminate|]. intros Hok. inversion Hok. subst v.
    exists ws, sg, ds, rest. rewrite Hneg. repeat split; auto. 
  - intros (ws & sg & ds & rest & -> & Hw & Hsg & Hd & Hne & Hrest & Hle & ->). unfold stoul.
    assert (Hds : starts_digit (ds ++ rest) = true).
    { destruct Hd as [|c ds Hc Hd]; [congruence|]. exact Hc. }
    destruct Hsg as [->|(c & -> & Hc)].
    + pose proof (stoul_digits ws ds rest Hw Hd Hne Hrest) as H. unfold stoul in H. cbn [app]. rewrite H.
      destruct (Z.gtb_spec (value ds) SIZE_MAX); [lia|]. reflexivity.
    + rewrite skip_app; [|exact Hw|cbn; unfold is_space; lia]. cbn [app split_sign].
      destruct (Z.eqb_spec (code c) 43) as [E|E].
      * rewrite Hds. cbn [negb]. rewrite (read_all ds rest Hd Hrest 0). fold (value ds).
        destruct (Z.gtb_spec (value ds) SIZE_MAX); [lia|]. cbn [existsb]. destruct (Z.eqb_spec (code c) 45); [lia|]. reflexivity.
      * destruct (Z.eqb_spec (code c) 45) as [E2|E2]; [|lia].
        rewrite Hds. cbn [negb]. rewrite (read_all ds rest Hd Hrest 0). fold (value ds).
        destruct (Z.gtb_spec (value ds) SIZE_MAX); [lia|]. cbn [existsb]. rewrite E2. reflexivity.
Qed.

Theorem parse_accepts s a : parse_activity s = Ok a <->
  exists c make rest v, s = c :: rest /\ char_type c = Ok make /\ stoul rest = Ok v /\ a = make (Z.to_nat v).
Proof.
  unfold parse_activity. split.
  - destruct s as [|c rest]; [discriminate|]. destruct (char_type c) as [make|] eqn:Ec; [|discriminate].
    destruct (stoul rest) as [v|] eqn:Ev; [|discriminate]. intros Hok. inversion Hok. exists c, make, rest, v. auto.
  - intros (c & make & rest & v & -> & -> & -> & ->). reflexivity.
Qed.

(** Hashes of activities with indices below 2^20 differ. *)
Theorem hash_inj a b : Z.of_nat (a_idx a) < 2 ^ 20 -> Z.of_nat (a_idx b) < 2 ^ 20 ->
  hash_activity a = hash_activity b -> a = b.
Proof.
  unfold hash_activity. intros Ha Hb H.
  assert (Ht : forall x, 0 <= type_code x <= 3) by (intros []; cbn; lia).
  pose proof (Ht a). pose proof (Ht b). change (2 ^ 20) with 1048576 in *. unfold SIZE_MAX in *.
  rewrite !Z.mod_small in H by lia.
  assert (E1 : type_code a = type_code b) by lia. assert (E2 : a_idx a = a_idx b) by lia.
  clear - E1 E2. destruct a, b; cbn in E1, E2; try discriminate; congruence.
Qed.
