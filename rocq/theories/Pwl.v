(** Model of pyvrp/cpp/PiecewiseLinearFunction.h (with int64 domain and codomain, as bound in
    bindings.cpp:51-52). *)
From Verif Require Import Base Data.

(** PiecewiseLinearFunction.h:54-59: segments are (intercept, slope). *)
Record pwl := mk_pwl { pw_breaks : list Z; pw_segs : list (Z * Z) }.

(** PiecewiseLinearFunction.h:107-130: the loop over consecutive points; [first] is [idx == 0].
    C++ division truncates. *)
Fixpoint points_loop (first : bool) (points : list (Z * Z)) (bs : list Z) (ss : list (Z * Z)) : res pwl :=
  match points with
  | (x0, y0) :: (((x1, y1) :: _) as more) =>
      if x0 =? x1 then points_loop false more bs ss
      else
        let dy := y1 - y0 in
        let dx := x1 - x0 in
        if dx <? 0 then Err InvalidArgument
        else if negb (Z.rem dy dx =? 0) then Err InvalidArgument
        else
          let bs := if first then bs else bs ++ [x0] in
          let slope := Z.quot dy dx in
          let intercept := y0 - slope * x0 in
          points_loop false more bs (ss ++ [(intercept, slope)])
  | _ => Ok (mk_pwl bs ss)
  end.

(** PiecewiseLinearFunction.h:92-134 *)
Definition pwl_of_points (points : list (Z * Z)) : res pwl :=
  match points with
  | (x0, _) :: (x1, _) :: _ =>
      if x0 =? x1 then Err InvalidArgument
      else match rev points with
           | (xn, _) :: (xm, _) :: _ =>
               if xm =? xn then Err InvalidArgument else points_loop true points [] []
           | _ => Err InvalidArgument
           end
  | _ => Err InvalidArgument
  end.

(** PiecewiseLinearFunction.h:147-150 *)
Fixpoint increasing (bs : list Z) : bool :=
  match bs with
  | a :: ((b :: _) as more) => negb (a >=? b) && increasing more
  | _ => true
  end.

(** PiecewiseLinearFunction.h:136-151 *)
Definition pwl_of_breaks (bs : list Z) (ss : list (Z * Z)) : res pwl :=
  match ss with
  | [] => Err InvalidArgument
  | _ => if negb (length bs + 1 =? length ss)%nat then Err InvalidArgument
         else if increasing bs then Ok (mk_pwl bs ss) else Err InvalidArgument
  end.

(** std::upper_bound on sorted data: the number of breakpoints not above [x]. *)
Fixpoint upper (bs : list Z) (x : Z) : nat :=
  match bs with
  | [] => 0
  | b :: more => if x <? b then 0%nat else S (upper more x)
  end.

Definition seg_at (s : Z * Z) (x : Z) : Z := fst s + snd s * x.
(** PiecewiseLinearFunction.h:153-162 *)
Definition pwl_eval (f : pwl) (x : Z) : Z :=
  seg_at (nth (upper (pw_breaks f) x) (pw_segs f) (0, 0)) x.

(** PiecewiseLinearFunction.h:177-198 *)
Fixpoint jumps_up (bs : list Z) (ss : list (Z * Z)) : bool :=
  match bs, ss with
  | b :: bs', p :: ((q :: _) as ss') => negb (seg_at q b <? seg_at p b) && jumps_up bs' ss'
  | _, _ => true
  end.
Definition pwl_monotone (f : pwl) : bool :=
  forallb (fun s => negb (snd s <? 0)) (pw_segs f) && jumps_up (pw_breaks f) (pw_segs f).

(** ** Specification and facts *)
Fixpoint sorted_lt (bs : list Z) : Prop :=
  match bs with
  | a :: ((b :: _) as more) => a < b /\ sorted_lt more
  | _ => True
  end.
Definition pwl_ok (f : pwl) : Prop :=
  length (pw_segs f) = S (length (pw_breaks f)) /\ sorted_lt (pw_breaks f).

Lemma increasing_spec bs : increasing bs = true <-> sorted_lt bs.
Proof.
  induction bs as [|a [|b bs] IH]; [cbn; tauto|cbn; tauto|].
  change (increasing (a :: b :: bs)) with (negb (a >=? b) && increasing (b :: bs)).
  change (sorted_lt (a :: b :: bs)) with (a < b /\ sorted_lt (b :: bs)).
  rewrite andb_true_iff, negb_true_iff, IH, Z.geb_leb, Z.leb_gt. reflexivity.
Qed.

Theorem of_breaks_spec bs ss f :
  pwl_of_breaks bs ss = Ok f <-> f = mk_pwl bs ss /\ pwl_ok f.
Proof.
  unfold pwl_of_breaks, pwl_ok. destruct ss as [|s ss].
  - split; [discriminate|]. intros [-> [H _]]. discriminate.
  - destruct (Nat.eqb_spec (length bs + 1) (length (s :: ss))) as [E|E]; cbn [negb].
    + destruct (increasing bs) eqn:Ei.
      * apply increasing_spec in Ei. split; [intros [= <-]|intros [-> _]; reflexivity].
        cbn [pw_segs pw_breaks]. repeat split; [lia|exact Ei].
      * split; [discriminate|]. intros [-> [_ H]]. apply increasing_spec in H. cbn in H. congruence.
    + split; [discriminate|]. intros [-> [H _]]. cbn [pw_segs pw_breaks] in H. lia.
Qed.

Lemma sorted_tail a bs : sorted_lt (a :: bs) -> sorted_lt bs.
Proof. destruct bs; cbn; tauto. Qed.
Lemma sorted_lt_all a bs x : sorted_lt (a :: bs) -> In x bs -> a < x.
Proof.
  revert a. induction bs as [|b bs IH]; intros a Hs Hx; [destruct Hx|].
  destruct Hs as [Hab Hs]. destruct Hx as [<-|Hx]; [exact Hab|]. specialize (IH b Hs Hx). lia.
Qed.
Lemma upper_le bs x : (upper bs x <= length bs)%nat.
Proof. induction bs as [|b bs IH]; cbn; [lia|]. destruct (x <? b); lia. Qed.

(** The piece used: the one between the breakpoints around [x], the breakpoint itself belonging
    to the piece on its right. *)
Theorem eval_piece f i x : pwl_ok f -> (i <= length (pw_breaks f))%nat ->
  (i = 0%nat \/ nth (i - 1) (pw_breaks f) 0 <= x) ->
  (i = length (pw_breaks f) \/ x < nth i (pw_breaks f) 0) ->
  pwl_eval f x = seg_at (nth i (pw_segs f) (0, 0)) x.
Proof.
  intros [_ Hs] Hi Hlo Hhi. unfold pwl_eval. f_equal. f_equal. clear - Hs Hi Hlo Hhi.
  revert i Hi Hlo Hhi Hs. induction (pw_breaks f) as [|b bs IH]; intros i Hi Hlo Hhi Hs.
  - cbn in *. lia.
  - cbn [upper]. destruct i as [|i].
    + destruct Hhi as [Hhi|Hhi]; [discriminate|]. cbn in Hhi. destruct (Z.ltb_spec x b); [reflexivity|lia].
    + destruct Hlo as [Hlo|Hlo]; [discriminate|]. cbn in Hi, Hlo. rewrite Nat.sub_0_r in Hlo.
      assert (b <= x).
      { destruct i as [|i]; [exact Hlo|]. 
        assert (Hin : In (nth i bs 0) bs) by (apply nth_In; lia).
        pose proof (sorted_lt_all b bs _ Hs Hin). lia. }
      destruct (Z.ltb_spec x b); [lia|]. f_equal. apply IH; [lia| | |apply (sorted_tail _ _ Hs)].
      * destruct i as [|i]; [left; reflexivity|right]. cbn. rewrite Nat.sub_0_r. exact Hlo.
      * destruct Hhi as [Hhi|Hhi]; [left; cbn in Hhi; lia|right; exact Hhi].
Qed.

(** *** Functions from points *)
Definition slope_between (p q : Z * Z) : Z := Z.quot (snd q - snd p) (fst q - fst p).

(** What the constructor accepts: neighbouring points. *)
Fixpoint steps_ok (points : list (Z * Z)) : Prop :=
  match points with
  | p :: ((q :: _) as more) =>
      fst p <= fst q /\ (fst p < fst q -> (fst q - fst p | snd q - snd p)) /\ steps_ok more
  | _ => True
  end.
Definition points_ok (points : list (Z * Z)) : Prop :=
  (exists p q more, points = p :: q :: more /\ fst p <> fst q) /\
  (exists p q pre, points = pre ++ [p; q] /\ fst p <> fst q) /\
  steps_ok points.

(** The breakpoints and segments the loop appends. *)
Fixpoint loop_breaks (points : list (Z * Z)) : list Z :=
  match points with
  | p :: ((q :: _) as more) => if fst p =? fst q then loop_breaks more else fst p :: loop_breaks more
  | _ => []
  end.
Definition seg_between (p q : Z * Z) : Z * Z :=
  (snd p - slope_between p q * fst p, slope_between p q).
Fixpoint loop_segs (points : list (Z * Z)) : list (Z * Z) :=
  match points with
  | p :: ((q :: _) as more) => if fst p =? fst q then loop_segs more else seg_between p q :: loop_segs more
  | _ => []
  end.

Lemma rem_divides dy dx : dx <> 0 -> (Z.rem dy dx = 0 <-> (dx | dy)).
Proof. intros H. apply Z.rem_divide. exact H. Qed.

Lemma loop_spec points : forall bs ss,
  (steps_ok points /\ points_loop false points bs ss = Ok (mk_pwl (bs ++ loop_breaks points) (ss ++ loop_segs points))) \/
  (~ steps_ok points /\ points_loop false points bs ss = Err InvalidArgument).
Proof.
  induction points as [|[x0 y0] [|[x1 y1] more] IH]; intros bs ss.
  - left. cbn. rewrite !app_nil_r. auto.
  - left. cbn. rewrite !app_nil_r. auto.
  - remember ((x1, y1) :: more) as rest eqn:Er.
    assert (E1 : steps_ok ((x0, y0) :: rest) <-> x0 <= x1 /\ (x0 < x1 -> (x1 - x0 | y1 - y0)) /\ steps_ok rest)
      by (rewrite Er; reflexivity).
    assert (E2 : points_loop false ((x0, y0) :: rest) bs ss =
      if x0 =? x1 then points_loop false rest bs ss
      else if x1 - x0 <? 0 then Err InvalidArgument
      else if negb (Z.rem (y1 - y0) (x1 - x0) =? 0) then Err InvalidArgument
      else points_loop false rest (bs ++ [x0])
             (ss ++ [(y0 - Z.quot (y1 - y0) (x1 - x0) * x0, Z.quot (y1 - y0) (x1 - x0))]))
      by (rewrite Er; reflexivity).
    assert (E3 : loop_breaks ((x0, y0) :: rest) = if x0 =? x1 then loop_breaks rest else x0 :: loop_breaks rest)
      by (rewrite Er; reflexivity).
    assert (E4 : loop_segs ((x0, y0) :: rest) =
      if x0 =? x1 then loop_segs rest else seg_between (x0, y0) (x1, y1) :: loop_segs rest)
      by (rewrite Er; reflexivity).
    rewrite E2, E3, E4, E1. clear E1 E2 E3 E4 Er.
    destruct (Z.eqb_spec x0 x1) as [->|Hne].
    + destruct (IH bs ss) as [[H1 H2]|[H1 H2]]; [left|right]; (split; [|exact H2]).
      * split; [lia|]. split; [lia|exact H1].
      * tauto.
    + destruct (Z.ltb_spec (x1 - x0) 0); [right; split; [intros [? _]; lia|reflexivity]|].
      destruct (Z.eqb_spec (Z.rem (y1 - y0) (x1 - x0)) 0) as [Hr|Hr]; cbn [negb].
      * apply rem_divides in Hr; [|lia].
        destruct (IH (bs ++ [x0]) (ss ++ [(y0 - Z.quot (y1 - y0) (x1 - x0) * x0, Z.quot (y1 - y0) (x1 - x0))])) as [[H1 H2]|[H1 H2]].
        -- left. split; [split; [lia|]; split; [auto|exact H1]|]. rewrite H2, <- !app_assoc. reflexivity.
        -- right. split; [tauto|exact H2].
      * right. split; [|reflexivity]. intros (_ & H1 & _). apply Hr, rem_divides; [lia|]. apply H1. lia.
Qed.

Lemma steps_cons p q more : steps_ok (p :: q :: more) <->
  fst p <= fst q /\ (fst p < fst q -> (fst q - fst p | snd q - snd p)) /\ steps_ok (q :: more).
Proof. reflexivity. Qed.

Lemma rev_last2 {A} (l : list A) a b pre : l = pre ++ [a; b] <-> rev l = b :: a :: rev pre.
Proof.
  split.
  - intros ->. rewrite rev_app_distr. reflexivity.
  - intros H. rewrite <- (rev_involutive l), H. cbn. rewrite rev_involutive, <- app_assoc. reflexivity.
Qed.

Theorem of_points_spec points f :
  pwl_of_points points = Ok f <->
  points_ok points /\ exists p q more, points = p :: q :: more /\
    f = mk_pwl (loop_breaks (q :: more)) (seg_between p q :: loop_segs (q :: more)).
Proof.
  unfold pwl_of_points, points_ok.
  destruct points as [|[x0 y0] [|[x1 y1] more]].
  - split; [discriminate|]. intros [[(p & q & m & E & _) _] _]. discriminate.
  - split; [discriminate|]. intros [[(p & q & m & E & _) _] _]. discriminate.
  - destruct (Z.eqb_spec x0 x1) as [->|Hne].
    { split; [discriminate|]. intros [[(p & q & m & E & H) _] _]. injection E as <- <- <-. cbn in H. congruence. }
    destruct (rev ((x0, y0) :: (x1, y1) :: more)) as [|[xn yn] [|[xm ym] pre]] eqn:Er.
    { apply (f_equal (@length _)) in Er. rewrite rev_length in Er. discriminate. }
    { apply (f_equal (@length _)) in Er. rewrite rev_length in Er. discriminate. }
    assert (Hlast : (x0, y0) :: (x1, y1) :: more = rev pre ++ [(xm, ym); (xn, yn)]).
    { apply rev_last2. rewrite rev_involutive. exact Er. }
    destruct (Z.eqb_spec xm xn) as [->|Hne2].
    { split; [discriminate|]. intros [[_ [(p & q & m & E & H) _]] _].
      apply rev_last2 in E. rewrite E in Er. injection Er as Eq Ep _. subst. cbn in H. congruence. }
    assert (E2 : points_loop true ((x0, y0) :: (x1, y1) :: more) [] [] =
      if x1 - x0 <? 0 then Err InvalidArgument
      else if negb (Z.rem (y1 - y0) (x1 - x0) =? 0) then Err InvalidArgument
      else points_loop false ((x1, y1) :: more) [] [seg_between (x0, y0) (x1, y1)]).
    { cbn [points_loop]. destruct (Z.eqb_spec x0 x1); [contradiction|]. reflexivity. }
    rewrite E2. clear E2.
    set (rest := (x1, y1) :: more) in *.
    assert (HS : steps_ok ((x0, y0) :: rest) <-> x0 <= x1 /\ (x0 < x1 -> (x1 - x0 | y1 - y0)) /\ steps_ok rest) by reflexivity.
    destruct (Z.ltb_spec (x1 - x0) 0).
    { split; [discriminate|]. intros [[_ [_ HS']] _]. apply HS in HS'. destruct HS' as [HS' _]. cbn [fst] in HS'. lia. }
    destruct (Z.eqb_spec (Z.rem (y1 - y0) (x1 - x0)) 0) as [Hr|Hr]; cbn [negb].
    + apply rem_divides in Hr; [|lia].
      destruct (loop_spec rest [] [seg_between (x0, y0) (x1, y1)]) as [[H1 H2]|[H1 H2]]; rewrite H2.
      * split.
        -- intros [= <-]. split.
           ++ split; [exists (x0, y0), (x1, y1), more; auto|].
              split; [exists (xm, ym), (xn, yn), (rev pre); auto|]. apply HS. auto with zarith.
           ++ exists (x0, y0), (x1, y1), more. auto.
        -- intros [_ (p & q & m & E & ->)]. injection E as <- <- <-. reflexivity.
      * split; [discriminate|]. intros [[_ [_ HS']] _]. apply HS in HS'. tauto.
    + split; [discriminate|]. intros [[_ [_ HS']] _]. apply HS in HS'. exfalso.
      apply Hr, rem_divides; [lia|]. apply HS'. cbn [fst]. lia.
Qed.

(** Evaluation as a walk over the pieces. *)
Fixpoint walk (bs : list Z) (ss : list (Z * Z)) (x : Z) : Z :=
  match bs, ss with
  | b :: bs', s :: ss' => if x <? b then seg_at s x else walk bs' ss' x
  | _, s :: _ => seg_at s x
  | _, [] => 0
  end.
Lemma eval_walk f x : length (pw_segs f) = S (length (pw_breaks f)) ->
  pwl_eval f x = walk (pw_breaks f) (pw_segs f) x.
Proof.
  destruct f as [bs ss]. unfold pwl_eval. cbn [pw_breaks pw_segs]. revert ss.
  induction bs as [|b bs IH]; intros [|s ss] H; cbn in H; try discriminate.
  - reflexivity.
  - cbn [upper walk]. destruct (x <? b); [reflexivity|]. cbn [nth]. apply IH. lia.
Qed.

Lemma loop_lengths points : length (loop_segs points) = length (loop_breaks points).
Proof.
  induction points as [|p [|q more] IH]; [reflexivity|reflexivity|].
  change (loop_segs (p :: q :: more)) with
    (if fst p =? fst q then loop_segs (q :: more) else seg_between p q :: loop_segs (q :: more)).
  change (loop_breaks (p :: q :: more)) with
    (if fst p =? fst q then loop_breaks (q :: more) else fst p :: loop_breaks (q :: more)).
  destruct (fst p =? fst q); [exact IH|]. cbn [length]. rewrite IH. reflexivity.
Qed.

Lemma steps_from points : forall p x, steps_ok (p :: points) -> In x (loop_breaks (p :: points)) -> fst p <= x.
Proof.
  induction points as [|q more IH]; intros p x Hs Hx; [destruct Hx|].
  apply steps_cons in Hs. destruct Hs as (H1 & _ & H2).
  change (loop_breaks (p :: q :: more)) with
    (if fst p =? fst q then loop_breaks (q :: more) else fst p :: loop_breaks (q :: more)) in Hx.
  destruct (Z.eqb_spec (fst p) (fst q)) as [E|E].
  - rewrite E. apply IH; assumption.
  - destruct Hx as [<-|Hx]; [lia|]. specialize (IH q x H2 Hx). lia.
Qed.
Lemma loop_sorted points : steps_ok points -> sorted_lt (loop_breaks points).
Proof.
  induction points as [|p [|q more] IH]; intros Hs; [exact I|exact I|].
  apply steps_cons in Hs. destruct Hs as (H1 & _ & H2).
  change (loop_breaks (p :: q :: more)) with
    (if fst p =? fst q then loop_breaks (q :: more) else fst p :: loop_breaks (q :: more)).
  destruct (Z.eqb_spec (fst p) (fst q)) as [E|E]; [auto|].
  pose proof (IH H2) as Hso. destruct (loop_breaks (q :: more)) as [|b bs] eqn:Eb; [exact I|].
  split; [|exact Hso].
  assert (fst q <= b) by (apply (steps_from more); [exact H2|rewrite Eb; left; reflexivity]). lia.
Qed.

Theorem of_points_ok points f : pwl_of_points points = Ok f -> pwl_ok f.
Proof.
  intros H. apply of_points_spec in H. destruct H as [(_ & _ & Hs) (p & q & more & -> & ->)].
  split; cbn [pw_breaks pw_segs length]; [rewrite loop_lengths; reflexivity|].
  apply loop_sorted. apply steps_cons in Hs. apply Hs.
Qed.

Lemma walk_before points : forall s x, steps_ok points -> (forall p, In p points -> x < fst p) ->
  walk (loop_breaks points) (s :: loop_segs points) x = seg_at s x.
Proof.
  intros s x Hs Hx. destruct (loop_breaks points) as [|b bs] eqn:E; [reflexivity|]. cbn [walk].
  assert (x < b); [|destruct (Z.ltb_spec x b); [reflexivity|lia]].
  destruct points as [|p points]; [discriminate|].
  pose proof (steps_from points p b Hs ltac:(rewrite E; left; reflexivity)).
  specialize (Hx p (or_introl eq_refl)). lia.
Qed.

Lemma steps_ge points p y : steps_ok (p :: points) -> In y points -> fst p <= fst y.
Proof.
  revert p. induction points as [|q more IH]; intros p Hs Hy; [destruct Hy|].
  apply steps_cons in Hs. destruct Hs as (H1 & _ & H2).
  destruct Hy as [<-|Hy]; [exact H1|]. specialize (IH q H2 Hy). lia.
Qed.

Lemma walk_between points : forall s pre p q post x, steps_ok points -> points = pre ++ p :: q :: post ->
  fst p < fst q -> fst p <= x -> (post = [] \/ x < fst q) ->
  walk (loop_breaks points) (s :: loop_segs points) x = seg_at (seg_between p q) x.
Proof.
  intros s pre. revert s points. induction pre as [|p0 pre IH]; intros s points p q post x Hs -> Hpq Hpx Hq.
  - cbn [app] in *. apply steps_cons in Hs. destruct Hs as (_ & _ & Hs).
    change (loop_breaks (p :: q :: post)) with
      (if fst p =? fst q then loop_breaks (q :: post) else fst p :: loop_breaks (q :: post)).
    change (loop_segs (p :: q :: post)) with
      (if fst p =? fst q then loop_segs (q :: post) else seg_between p q :: loop_segs (q :: post)).
    destruct (Z.eqb_spec (fst p) (fst q)); [lia|]. cbn [walk]. destruct (Z.ltb_spec x (fst p)); [lia|].
    destruct Hq as [->|Hq]; [reflexivity|]. apply walk_before; [exact Hs|].
    intros y [<-|Hy]; [exact Hq|]. pose proof (steps_ge _ _ _ Hs Hy). lia.
  - cbn [app] in *. destruct (pre ++ p :: q :: post) as [|q0 more] eqn:E; [destruct pre; discriminate|].
    pose proof Hs as Hs'. apply steps_cons in Hs. destruct Hs as (H1 & H2 & Hs).
    change (loop_breaks (p0 :: q0 :: more)) with
      (if fst p0 =? fst q0 then loop_breaks (q0 :: more) else fst p0 :: loop_breaks (q0 :: more)).
    change (loop_segs (p0 :: q0 :: more)) with
      (if fst p0 =? fst q0 then loop_segs (q0 :: more) else seg_between p0 q0 :: loop_segs (q0 :: more)).
    assert (Hin : In p (q0 :: more)) by (rewrite <- E; apply in_or_app; right; left; reflexivity).
    pose proof (steps_ge _ _ _ Hs' Hin).
    destruct (Z.eqb_spec (fst p0) (fst q0)).
    + apply (IH s (q0 :: more) p q post); try assumption. symmetry. exact E.
    + cbn [walk]. destruct (Z.ltb_spec x (fst p0)); [lia|].
      apply (IH (seg_between p0 q0) (q0 :: more) p q post); try assumption. symmetry. exact E.
Qed.

Lemma on_line p q x : fst p < fst q -> (fst q - fst p | snd q - snd p) ->
  (seg_at (seg_between p q) x - snd p) * (fst q - fst p) = (snd q - snd p) * (x - fst p).
Proof.
  intros Hpq [k Hk]. unfold seg_at, seg_between, slope_between. cbn [fst snd].
  rewrite Hk, Z.quot_mul by lia. ring.
Qed.

Lemma steps_mid pre p q post : steps_ok (pre ++ p :: q :: post) ->
  fst p < fst q -> (fst q - fst p | snd q - snd p).
Proof.
  induction pre as [|p0 pre IH]; intros Hs Hpq; [apply Hs; exact Hpq|].
  cbn [app] in Hs. destruct (pre ++ p :: q :: post) as [|q0 more] eqn:E; [destruct pre; discriminate|].
  apply IH; [|exact Hpq]. apply steps_cons in Hs. apply Hs.
Qed.

(** Between neighbouring points [p] and [q] with different first coordinates the function is on
    the line through them, including [p] and excluding [q]; before the first and after the last
    pair it continues their lines. *)
Theorem of_points_eval points f pre p q post x : pwl_of_points points = Ok f ->
  points = pre ++ p :: q :: post -> fst p < fst q ->
  (pre = [] \/ fst p <= x) -> (post = [] \/ x < fst q) ->
  (pwl_eval f x - snd p) * (fst q - fst p) = (snd q - snd p) * (x - fst p).
Proof.
  intros Hf E Hpq Hlo Hhi. pose proof (of_points_ok _ _ Hf) as [Hl _].
  apply of_points_spec in Hf. destruct Hf as [((p1 & q1 & m1 & E1 & Hne) & _ & Hs) (p0 & q0 & more & E0 & ->)].
  rewrite eval_walk by exact Hl. cbn [pw_breaks pw_segs].
  assert (Hdiv : (fst q - fst p | snd q - snd p)) by (rewrite E in Hs; apply (steps_mid pre p q post); assumption).
  rewrite <- (on_line p q x Hpq Hdiv).
  f_equal. f_equal. rewrite E0 in E, E1, Hs. injection E1 as <- <- <-. clear E0. rename E into E0.
  apply steps_cons in Hs. destruct Hs as (H1 & H2 & Hs).
  destruct pre as [|p0' pre].
  - cbn [app] in E0. injection E0 as -> -> ->. destruct Hhi as [->|Hhi]; [reflexivity|].
    apply walk_before; [exact Hs|]. intros y [<-|Hy]; [exact Hhi|].
    pose proof (steps_ge _ _ _ Hs Hy). lia.
  - cbn [app] in E0. injection E0 as -> E0. destruct Hlo as [Hlo|Hlo]; [discriminate|].
    apply (walk_between (q0 :: more) _ pre p q post); assumption.
Qed.

(** *** Monotonicity, on the rationals [p / den] *)
Definition scale_seg (den : Z) (s : Z * Z) : Z * Z := (den * fst s, snd s).
(** [den] times the value at [p / den]. *)
Definition eval_frac (f : pwl) (den p : Z) : Z :=
  walk (map (Z.mul den) (pw_breaks f)) (map (scale_seg den) (pw_segs f)) p.
Lemma eval_frac_int f x : pwl_ok f -> eval_frac f 1 x = pwl_eval f x.
Proof.
  intros [Hl _]. rewrite (eval_walk _ _ Hl). unfold eval_frac. f_equal.
  - rewrite <- (map_id (pw_breaks f)) at 2. apply map_ext. intros b. lia.
  - rewrite <- (map_id (pw_segs f)) at 2. apply map_ext. intros [a b]. unfold scale_seg. cbn [fst snd]. f_equal. lia.
Qed.

Lemma seg_scale den s p : seg_at (scale_seg den s) (den * p) = den * seg_at s p.
Proof. unfold seg_at, scale_seg. cbn [fst snd]. ring. Qed.

(** All slopes and jumps are upwards. *)
Fixpoint ups (bs : list Z) (ss : list (Z * Z)) : Prop :=
  match bs, ss with
  | b :: bs', s :: ((s' :: _) as ss') => 0 <= snd s /\ seg_at s b <= seg_at s' b /\ ups bs' ss'
  | _, s :: _ => 0 <= snd s
  | _, _ => True
  end.
Lemma monotone_ups bs : forall ss, length ss = S (length bs) ->
  pwl_monotone (mk_pwl bs ss) = true <-> ups bs ss.
Proof.
  unfold pwl_monotone. cbn [pw_breaks pw_segs].
  induction bs as [|b bs IH]; intros [|s ss] H; cbn in H; try discriminate.
  - destruct ss; [|discriminate]. cbn. rewrite andb_true_r, andb_true_r. lia.
  - destruct ss as [|s' ss]; [discriminate|]. specialize (IH (s' :: ss) ltac:(cbn in *; lia)).
    remember (s' :: ss) as rest eqn:Er.
    assert (E : ups (b :: bs) (s :: rest) <-> 0 <= snd s /\ seg_at s b <= seg_at s' b /\ ups bs rest)
      by (rewrite Er; reflexivity).
    assert (E' : jumps_up (b :: bs) (s :: rest) = negb (seg_at s' b <? seg_at s b) && jumps_up bs rest)
      by (rewrite Er; reflexivity).
    rewrite E, E', <- IH. cbn [forallb]. rewrite !andb_true_iff, !negb_true_iff. lia.
Qed.

Lemma walk_mono bs : forall ss, length ss = S (length bs) -> sorted_lt bs -> ups bs ss ->
  forall p q, p <= q -> walk bs ss p <= walk bs ss q.
Proof.
  assert (G : forall s p q, 0 <= snd s -> p <= q -> seg_at s p <= seg_at s q)
    by (intros s p q Hs Hpq; unfold seg_at; nia).
  induction bs as [|b bs IH]; intros [|s ss] Hl Hso Hu p q Hpq; cbn in Hl; try discriminate.
  - cbn. apply G; [|exact Hpq]. cbn in Hu. destruct ss; exact Hu.
  - destruct ss as [|s' ss]; [discriminate|].
    change (0 <= snd s /\ seg_at s b <= seg_at s' b /\ ups bs (s' :: ss)) in Hu.
    destruct Hu as (Hs & Hj & Hu). cbn [walk].
    specialize (IH (s' :: ss) ltac:(cbn in *; lia) (sorted_tail _ _ Hso) Hu).
    destruct (Z.ltb_spec p b), (Z.ltb_spec q b); [apply G; lia| |lia|apply IH; lia].
    transitivity (seg_at s b); [apply G; lia|]. transitivity (seg_at s' b); [exact Hj|].
    replace (seg_at s' b) with (walk bs (s' :: ss) b); [apply IH; lia|].
    destruct bs as [|b' bs]; [reflexivity|]. cbn [walk]. destruct Hso. destruct (Z.ltb_spec b b'); [reflexivity|lia].
Qed.

Lemma scale_ups den bs : 0 < den -> forall ss, ups bs ss -> ups (map (Z.mul den) bs) (map (scale_seg den) ss).
Proof.
  intros Hd. induction bs as [|b bs IH]; intros [|s [|s' ss]] Hu; try exact Hu.
  change (0 <= snd s /\ seg_at s b <= seg_at s' b /\ ups bs (s' :: ss)) in Hu.
  destruct Hu as (Hs & Hj & Hu). specialize (IH (s' :: ss) Hu).
  change (0 <= snd (scale_seg den s) /\ seg_at (scale_seg den s) (den * b) <= seg_at (scale_seg den s') (den * b)
          /\ ups (map (Z.mul den) bs) (map (scale_seg den) (s' :: ss))).
  rewrite !seg_scale. split; [exact Hs|]. split; [nia|exact IH].
Qed.
Lemma scale_sorted den bs : 0 < den -> sorted_lt bs -> sorted_lt (map (Z.mul den) bs).
Proof.
  intros Hd. induction bs as [|a [|b bs] IH]; intros Hs; [exact I|exact I|].
  destruct Hs as [H1 H2]. split; [nia|]. apply IH. exact H2.
Qed.

Lemma mono_ups bs : forall lo ss, length ss = S (length bs) -> sorted_lt (lo :: bs) ->
  (forall den p q, 0 < den -> den * lo <= p -> p <= q ->
     walk (map (Z.mul den) bs) (map (scale_seg den) ss) p <= walk (map (Z.mul den) bs) (map (scale_seg den) ss) q) ->
  ups bs ss.
Proof.
  induction bs as [|b bs IH]; intros lo [|s ss] Hl Hso Hm; cbn in Hl; try discriminate.
  - destruct ss; [|discriminate]. specialize (Hm 1 (1 * lo) (1 * lo + 1) ltac:(lia) ltac:(lia) ltac:(lia)).
    cbn [map walk] in Hm. unfold seg_at, scale_seg in Hm. cbn [fst snd ups] in *. lia.
  - destruct ss as [|s' ss]; [discriminate|]. destruct Hso as [Hlb Hso].
    change (0 <= snd s /\ seg_at s b <= seg_at s' b /\ ups bs (s' :: ss)).
    assert (Hs : 0 <= snd s).
    { specialize (Hm 2 (2 * lo) (2 * lo + 1) ltac:(lia) ltac:(lia) ltac:(lia)).
      cbn [map walk] in Hm. destruct (Z.ltb_spec (2 * lo) (2 * b)); [|lia].
      destruct (Z.ltb_spec (2 * lo + 1) (2 * b)); [|lia].
      unfold seg_at, scale_seg in Hm. cbn [fst snd] in Hm. lia. }
    split; [exact Hs|]. split.
    + assert (Hat : forall den, 0 < den -> walk (map (Z.mul den) (b :: bs)) (map (scale_seg den) (s :: s' :: ss)) (den * b)
                     = den * seg_at s' b).
      { intros den Hd. cbn [map walk]. destruct (Z.ltb_spec (den * b) (den * b)); [lia|].
        rewrite <- seg_scale. destruct bs as [|b' bs]; [reflexivity|]. destruct Hso. cbn [map walk].
        destruct (Z.ltb_spec (den * b) (den * b')); [reflexivity|nia]. }
      set (den := snd s + 1). assert (Hd : 0 < den) by (unfold den; lia).
      specialize (Hm den (den * b - 1) (den * b) Hd ltac:(nia) ltac:(lia)).
      rewrite (Hat den Hd) in Hm. cbn [map walk] in Hm.
      destruct (Z.ltb_spec (den * b - 1) (den * b)); [|lia].
      assert (E : seg_at (scale_seg den s) (den * b - 1) = den * seg_at s b - snd s).
      { unfold seg_at, scale_seg. cbn [fst snd]. ring. }
      rewrite E in Hm. unfold den in Hm. nia.
    + apply (IH b); [cbn in *; lia|exact Hso|]. intros den p q Hd Hp Hpq.
      specialize (Hm den p q Hd ltac:(nia) Hpq). cbn [map walk] in Hm.
      destruct (Z.ltb_spec p (den * b)); [lia|]. destruct (Z.ltb_spec q (den * b)); [lia|]. exact Hm.
Qed.

Theorem monotone_spec f : pwl_ok f ->
  pwl_monotone f = true <-> forall den p q, 0 < den -> p <= q -> eval_frac f den p <= eval_frac f den q.
Proof.
  destruct f as [bs ss]. intros [Hl Hso]. cbn [pw_breaks pw_segs] in *.
  rewrite monotone_ups by exact Hl. unfold eval_frac. cbn [pw_breaks pw_segs]. split.
  - intros Hu den p q Hd Hpq. apply walk_mono; [rewrite !map_length; exact Hl|apply scale_sorted; assumption|apply scale_ups; assumption|exact Hpq].
  - intros Hm. apply (mono_ups bs (hd 0 bs - 1)); [exact Hl| |intros; apply Hm; assumption].
    destruct bs as [|b bs]; [exact I|]. split; [cbn; lia|exact Hso].
Qed.
