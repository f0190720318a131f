(** Model of the table of results of pyvrp/cli.py:18-38. *)
From Coq Require Import ZArith Lia List Ascii String.
From Verif Require Import Base Data ActivityText StatsCsv.
Import ListNotations.
Local Open Scope nat_scope.
Notation length := List.length.

Definition blank (n : nat) : text := repeat " "%char n.
Definition dashes (n : nat) : text := repeat "-"%char n.
(** Format specifications <n and >n *)
Definition pad_left (w : nat) (t : text) : text := t ++ blank (w - length t).
Definition pad_right (w : nat) (t : text) : text := blank (w - length t) ++ t.
(** "  ".join *)
Fixpoint join (l : list text) : text :=
  match l with [] => [] | [t] => t | t :: l => t ++ blank 2 ++ join l end.
(** zip with a function *)
Fixpoint zip_with (f : nat -> text -> text) (ws : list nat) (ts : list text) : list text :=
  match ws, ts with w :: ws, t :: ts => f w t :: zip_with f ws ts | _, _ => [] end.
(** cli.py:25-27: lens[idx] is an IndexError when a row has more cells than there are headers. *)
Fixpoint widen (lens : list nat) (row : list text) {struct row} : res (list nat) :=
  match row, lens with
  | [], _ => Ok lens
  | t :: row, n :: lens => match widen lens row with Ok l => Ok (Nat.max n (length t) :: l) | Err e => Err e end
  | _ :: _, [] => Err OutOfRange
  end.
Fixpoint widths (lens : list nat) (rows : list (list text)) : res (list nat) :=
  match rows with [] => Ok lens | r :: rows => match widen lens r with Ok l => widths l rows | Err e => Err e end end.
(** cli.py:18-38, as a list of lines *)
Definition tabulate (headers : list text) (rows : list (list text)) : res (list text) :=
  match widths (map (@length _) headers) rows with
  | Ok lens => Ok (join (zip_with pad_left lens headers) :: join (map dashes lens) :: map (fun r => join (zip_with pad_right lens r)) rows)
  | Err e => Err e
  end.

(** ** Facts *)
(** Where column [j] starts. *)
Definition offset (lens : list nat) (j : nat) : nat := list_sum (map (fun w => w + 2) (firstn j lens)).
Definition total (lens : list nat) : nat := list_sum lens + 2 * (length lens - 1).
Definition cell_at (lens : list nat) (j : nat) (line : text) : text := firstn (nth j lens 0) (skipn (offset lens j) line).

Lemma widen_spec row : forall lens lens', widen lens row = Ok lens' -> length lens' = length lens /\
  (forall j, nth j lens 0 <= nth j lens' 0) /\ (forall j, j < length row -> length (nth j row []) <= nth j lens' 0) /\
  (forall j, nth j lens' 0 = nth j lens 0 \/ j < length row /\ nth j lens' 0 = length (nth j row [])).
Proof.
  induction row as [|t row IH]; intros lens lens' H; cbn [widen] in H.
  - injection H as <-. split; [reflexivity|]. split; [auto|]. split; [cbn; intros; lia|auto].
  - destruct lens as [|n lens]; [discriminate|]. destruct (widen lens row) as [l|] eqn:E; [|discriminate]. injection H as <-. destruct (IH _ _ E) as (A & B & C & D).
    split; [cbn; rewrite A; reflexivity|]. split; [|split].
    + intros [|j]; cbn [nth]; [lia|apply B].
    + intros [|j] Hj; cbn [nth length] in *; [lia|apply C; lia].
    + intros [|j]; cbn [nth length]; [destruct (Nat.max_spec n (length t)) as [[_ ->]|[_ ->]]; [right; split; [lia|reflexivity]|left; reflexivity]|].
      destruct (D j) as [H|[H1 H2]]; [left; exact H|right; split; [lia|exact H2]].
Qed.
Lemma widen_ok row : forall lens, length row <= length lens -> exists l, widen lens row = Ok l.
Proof.
  induction row as [|t row IH]; intros lens H; cbn [widen]; [eauto|]. destruct lens as [|n lens]; cbn in H; [lia|]. destruct (IH lens ltac:(lia)) as [l ->]. eauto.
Qed.
Lemma widen_err row : forall lens, length lens < length row -> widen lens row = Err OutOfRange.
Proof. induction row as [|t row IH]; intros lens H; [cbn in H; lia|]. destruct lens as [|n lens]; cbn [widen]; [reflexivity|]. rewrite IH by (cbn in H; lia). reflexivity. Qed.
Lemma widths_spec rows : forall lens lens', widths lens rows = Ok lens' -> length lens' = length lens /\
  (forall j, nth j lens 0 <= nth j lens' 0) /\ (forall r j, In r rows -> j < length r -> length (nth j r []) <= nth j lens' 0) /\
  (forall j, nth j lens' 0 = nth j lens 0 \/ exists r, In r rows /\ j < length r /\ nth j lens' 0 = length (nth j r [])).
Proof.
  induction rows as [|r rows IH]; intros lens lens' H; cbn [widths] in H.
  - injection H as <-. split; [reflexivity|]. split; [auto|]. split; [intros r j []|auto].
  - destruct (widen lens r) as [l|] eqn:E; [|discriminate]. destruct (widen_spec _ _ _ E) as (A & B & C & D). destruct (IH _ _ H) as (A' & B' & C' & D').
    split; [congruence|]. split; [intros j; specialize (B j); specialize (B' j); lia|]. split.
    + intros r' j [<-|Hr] Hj; [specialize (C j Hj); specialize (B' j); lia|exact (C' r' j Hr Hj)].
    + intros j. destruct (D' j) as [D1|(r' & D1 & D2)]; [|right; exists r'; split; [right; exact D1|exact D2]]. rewrite D1.
      destruct (D j) as [D2|[D2 D3]]; [left; exact D2|right; exists r; split; [left; reflexivity|auto]].
Qed.
Lemma widths_ok rows : forall lens, (forall r, In r rows -> length r <= length lens) <-> exists l, widths lens rows = Ok l.
Proof.
  induction rows as [|r rows IH]; intros lens; cbn [widths]; [split; [eauto|intros _ r []]|]. split.
  - intros H. destruct (widen_ok r lens) as [l E]; [apply H; left; reflexivity|]. rewrite E. apply IH. destruct (widen_spec _ _ _ E) as (A & _). intros r' Hr. rewrite A. apply H. right. exact Hr.
  - intros [l H] r' [<-|Hr].
    + destruct (Nat.le_gt_cases (length r) (length lens)) as [|G]; [assumption|]. rewrite (widen_err _ _ G) in H. discriminate.
    + destruct (widen lens r) as [l'|] eqn:E; [|discriminate]. destruct (widen_spec _ _ _ E) as (A & _). rewrite <- A. apply (proj2 (IH l')); [eauto|exact Hr].
Qed.

Lemma pad_left_length w t : length t <= w -> length (pad_left w t) = w.
Proof. intros H. unfold pad_left, blank. rewrite app_length, repeat_length. lia. Qed.
Lemma pad_right_length w t : length t <= w -> length (pad_right w t) = w.
Proof. intros H. unfold pad_right, blank. rewrite app_length, repeat_length. lia. Qed.
Lemma join_spec cells : forall lens, Forall2 (fun w c => length c = w) lens cells ->
  length (join cells) = total lens /\ forall j, j < length cells -> cell_at lens j (join cells) = nth j cells [].
Proof.
  induction cells as [|c cells IH]; intros lens H; inversion H as [|w ? ws ? Hw Hs]; subst.
  - split; [reflexivity|cbn; intros; lia].
  - destruct cells as [|c2 cells].
    + inversion Hs; subst. unfold total, cell_at, offset. cbn [join list_sum fold_right length map firstn]. split; [lia|]. intros [|j] Hj; [|cbn in Hj; lia]. cbn [nth firstn map list_sum fold_right skipn]. apply firstn_all.
    + destruct (IH ws Hs) as [L C]. destruct ws as [|w2 ws]; [inversion Hs|]. change (join (c :: c2 :: cells)) with (c ++ blank 2 ++ join (c2 :: cells)).
      split.
      * rewrite !app_length, L. unfold total, blank. rewrite repeat_length. cbn [list_sum fold_right length]. lia.
      * intros [|j] Hj; unfold cell_at, offset.
        -- cbn [nth firstn map list_sum fold_right skipn]. rewrite firstn_app, Nat.sub_diag, firstn_all. cbn [firstn]. apply app_nil_r.
        -- specialize (C j ltac:(cbn [length] in *; lia)). unfold cell_at, offset in C.
           change (nth (S j) (c :: c2 :: cells) []) with (nth j (c2 :: cells) []). rewrite <- C.
           change (nth (S j) (length c :: w2 :: ws) 0) with (nth j (w2 :: ws) 0). f_equal.
           change (firstn (S j) (length c :: w2 :: ws)) with (length c :: firstn j (w2 :: ws)). cbn [map list_sum fold_right].
           set (o := fold_right _ _ _). change (list_sum (map (fun w => w + 2) (firstn j (w2 :: ws)))) with o.
           replace (length c + 2 + o) with (length (c ++ blank 2) + o) by (rewrite app_length; unfold blank; rewrite repeat_length; lia).
           rewrite app_assoc. rewrite skipn_app. rewrite (skipn_all2 (c ++ blank 2)) by lia. cbn [app]. f_equal. lia.
Qed.
Lemma zip_cells f lens : forall ts, length ts = length lens -> (forall w t, length t <= w -> length (f w t) = w) ->
  (forall j, j < length ts -> length (nth j ts []) <= nth j lens 0) ->
  Forall2 (fun w c => length c = w) lens (zip_with f lens ts) /\ length (zip_with f lens ts) = length ts /\ forall j, j < length ts -> nth j (zip_with f lens ts) [] = f (nth j lens 0) (nth j ts []).
Proof.
  induction lens as [|w lens IH]; intros ts Hl Hf Hw; destruct ts as [|t ts]; try discriminate; cbn [zip_with].
  - split; [constructor|]. split; [reflexivity|cbn; intros; lia].
  - destruct (IH ts ltac:(cbn in Hl; lia) Hf) as (A & B & C); [intros j Hj; exact (Hw (S j) ltac:(cbn; lia))|]. pose proof (Hw 0 ltac:(cbn; lia)) as H0. cbn [nth] in H0. split; [constructor; [apply Hf; exact H0|exact A]|].
    split; [cbn; rewrite B; reflexivity|]. intros [|j] Hj; [reflexivity|]. cbn [nth]. apply C. cbn in Hj. lia.
Qed.
(** The table: columns as wide as their widest entry, and every entry in its column. *)
Theorem tabulate_spec headers rows : (forall r, In r rows -> length r = length headers) -> exists lens header rule body,
  tabulate headers rows = Ok (header :: rule :: body) /\ length lens = length headers /\ length body = length rows /\
  (forall j, j < length headers -> length (nth j headers []) <= nth j lens 0 /\ (forall r, In r rows -> length (nth j r []) <= nth j lens 0) /\
     (nth j lens 0 = length (nth j headers []) \/ exists r, In r rows /\ nth j lens 0 = length (nth j r []))) /\
  (forall l, In l (header :: rule :: body) -> length l = total lens) /\
  (forall j, j < length headers -> cell_at lens j header = pad_left (nth j lens 0) (nth j headers []) /\
     cell_at lens j rule = dashes (nth j lens 0) /\
     forall i, i < length rows -> cell_at lens j (nth i body []) = pad_right (nth j lens 0) (nth j (nth i rows []) [])).
Proof.
  intros H. destruct (proj1 (widths_ok rows (map (@length _) headers))) as [lens E]; [intros r Hr; rewrite (map_length (@List.length ascii) headers), (H r Hr); apply le_n|].
  destruct (widths_spec _ _ _ E) as (A & B & C & D). rewrite map_length in A.
  assert (Nh : forall j, nth j (map (@length _) headers) 0 = length (nth j headers [])) by (intros j; change 0 with (@length ascii []) at 1; apply map_nth).
  exists lens. unfold tabulate. rewrite E. do 3 eexists. split; [reflexivity|]. split; [exact A|]. split; [apply map_length|].
  destruct (zip_cells pad_left lens headers (eq_sym A) pad_left_length) as (H1 & H1l & H2); [intros j Hj; rewrite <- Nh; apply B|]. destruct (join_spec _ _ H1) as [J1 J2].
  assert (Hd : Forall2 (fun w c => length c = w) lens (map dashes lens)) by (clear; induction lens; constructor; [apply repeat_length|assumption]). destruct (join_spec _ _ Hd) as [K1 K2].
  assert (Hr : forall r, In r rows -> length (join (zip_with pad_right lens r)) = total lens /\ forall j, j < length headers -> cell_at lens j (join (zip_with pad_right lens r)) = pad_right (nth j lens 0) (nth j r [])).
  { intros r Hr. destruct (zip_cells pad_right lens r (eq_trans (H r Hr) (eq_sym A)) pad_right_length) as (R1 & R2 & R3); [intros j Hj; exact (C r j Hr Hj)|].
    destruct (join_spec _ _ R1) as [L1 L2]. split; [exact L1|]. intros j Hj. rewrite L2 by exact (eq_ind_r (fun m => j < m) Hj (eq_trans R2 (H r Hr))). apply R3. exact (eq_ind_r (fun m => j < m) Hj (H r Hr)). }
  split; [|split].
  - intros j Hj. split; [rewrite <- Nh; apply B|]. split; [intros r Hin; apply (C r j Hin); rewrite (H r Hin); exact Hj|].
    destruct (D j) as [D1|(r & D1 & _ & D2)]; [left; rewrite D1; apply Nh|right; exists r; auto].
  - intros l [<-|[<-|Hl]]; [exact J1|exact K1|]. apply in_map_iff in Hl as (r & <- & Hl). apply Hr. exact Hl.
  - intros j Hj. split; [rewrite J2 by exact (eq_ind_r (fun m => j < m) Hj H1l); apply H2; exact Hj|]. split.
    + rewrite K2 by exact (eq_ind_r (fun m => j < m) Hj (eq_trans (map_length dashes lens) A)). change (@nil ascii) with (dashes 0). apply map_nth.
    + intros i Hi. rewrite (nth_indep _ [] (join (zip_with pad_right lens []))) by (rewrite map_length; exact Hi).
      rewrite (map_nth (fun r => join (zip_with pad_right lens r))). apply Hr; [apply nth_In; exact Hi|exact Hj].
Qed.
Theorem tabulate_rejects headers rows r : In r rows -> length headers < length r -> tabulate headers rows = Err OutOfRange.
Proof.
  intros Hr Hl. unfold tabulate. destruct (widths (map (@length _) headers) rows) as [l|e] eqn:E.
  - pose proof (proj2 (widths_ok rows (map (@length _) headers)) (ex_intro _ l E) r Hr) as G. rewrite map_length in G. destruct (Nat.lt_irrefl _ (Nat.lt_le_trans _ _ _ Hl G)).
  - f_equal. clear - E. revert E. generalize (map (@length _) headers). induction rows as [|r rows IH]; intros lens E; cbn [widths] in E; [discriminate|].
    destruct (widen lens r) as [l|e'] eqn:Ew; [exact (IH l E)|]. injection E as <-. destruct (Nat.le_gt_cases (length r) (length lens)) as [G|G].
    + destruct (widen_ok r lens G) as [l El]. congruence.
    + rewrite (widen_err _ _ G) in Ew. injection Ew as <-. reflexivity.
Qed.
