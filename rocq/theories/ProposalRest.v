(** Distance and load of a proposal are those of the rebuilt route. *)
From Verif Require Import Base DurationSegment Data LoadSegment SearchRoute RouteDur Valid ProposalDur.

(** ** Distance *)
Lemma dist_walk_app f a : forall p b,
  dist_walk f p (a ++ b) = dist_walk f p a + dist_walk f (lastof p a) b.
Proof. induction a as [|x a IH]; intros p b; cbn [app dist_walk lastof]; [lia|]. rewrite IH. lia. Qed.

Lemma dist_loop_nth f l : forall i prev acc, (i < length l)%nat ->
  nth i (dist_loop f prev acc l) 0 = acc + dist_walk f prev (firstn (S i) l).
Proof.
  induction l as [|x l IH]; intros i prev acc Hi; [cbn in Hi; lia|].
  cbn [dist_loop]. destruct i; [cbn; lia|].
  cbn [nth]. rewrite IH by (cbn in Hi; lia). cbn [firstn dist_walk]. lia.
Qed.

Lemma dist_array_nth f x l i : (i <= length l)%nat ->
  nth i (dist_array f (x :: l)) 0 = dist_walk f x (firstn i l).
Proof.
  intros Hi. cbn [dist_array]. destruct i; [reflexivity|].
  cbn [nth]. rewrite dist_loop_nth by lia. lia.
Qed.

Lemma dist_loop_length f l : forall prev acc, length (dist_loop f prev acc l) = length l.
Proof. induction l as [|x l IH]; intros; cbn; auto. Qed.

Lemma dist_array_length f l : length (dist_array f l) = length l.
Proof. destruct l; [reflexivity|]. cbn. rewrite dist_loop_length. reflexivity. Qed.

Lemma last_nth {A} (l : list A) dft : last l dft = nth (length l - 1) l dft.
Proof.
  induction l as [|x l IH]; [reflexivity|]. destruct l as [|y l]; [reflexivity|].
  change (last (x :: y :: l) dft) with (last (y :: l) dft). rewrite IH.
  cbn [length]. replace (S (S (length l)) - 1)%nat with (S (length l)) by lia.
  replace (S (length l) - 1)%nat with (length l) by lia. reflexivity.
Qed.

Lemma dist_array_last f x l : last (dist_array f (x :: l)) 0 = dist_walk f x l.
Proof.
  rewrite last_nth, dist_array_length. cbn [length]. rewrite dist_array_nth by lia.
  replace (S (length l) - 1)%nat with (length l) by lia. rewrite firstn_all. reflexivity.
Qed.

Lemma dist_walk_path f l : forall x,
  dist_walk f x l = path_sum f (it_loc x :: map it_loc l).
Proof.
  induction l as [|y l IH]; intros x; [reflexivity|].
  cbn [dist_walk map]. rewrite IH. reflexivity.
Qed.

(** What distance evaluation needs to know about a piece. *)
Record dist_ok (d : pdata) (profile : nat) (o : seg) (y : item) (ys : list item) : Prop := mk_dist_ok {
  do_items : seg_items d o = y :: ys;
  do_front : sg_front d o = y;
  do_back : sg_back d o = lastof y ys;
  do_dist : sg_distance d profile o = dist_walk (p_dist d profile) y ys }.

Lemma prop_dist_loop_spec d profile segs : forall acc x,
  Forall (fun o => exists y ys, dist_ok d profile o y ys) segs ->
  prop_dist_loop d profile acc (it_loc x) segs =
  acc + dist_walk (p_dist d profile) x (concat (map (seg_items d) segs)).
Proof.
  induction segs as [|o segs IH]; intros acc x H; cbn [prop_dist_loop map concat dist_walk]; [lia|].
  inversion H as [|? ? (y & ys & [H1 H2 H3 H4]) H']; subst. rewrite H3, IH by exact H'.
  rewrite H1, H4. cbn [app dist_walk]. rewrite dist_walk_app. lia.
Qed.

Lemma firstn_slice {A} (l : list A) s e : (s <= e)%nat ->
  firstn e (skipn 1 l) = firstn s (skipn 1 l) ++ slice l s e.
Proof.
  intros H. unfold slice. replace e with (s + (e - s))%nat at 1 by lia.
  generalize (e - s)%nat. intros k. rewrite Nat.add_1_r.
  destruct l as [|x l]; [cbn; rewrite !firstn_nil; reflexivity|].
  cbn [skipn]. clear H. revert l. induction s as [|s IH]; intros l; [reflexivity|].
  destruct l as [|y l]; [cbn; rewrite firstn_nil; reflexivity|].
  cbn [plus firstn skipn app]. rewrite IH. reflexivity.
Qed.

Lemma route_items_len d v mid : length (route_items d v mid) = (length mid + 2)%nat.
Proof. unfold route_items. cbn [length]. rewrite app_length, map_length. cbn [length]. lia. Qed.

Lemma before_dist d v mid e : (e < length mid + 2)%nat ->
  dist_ok d (v_profile v) (SBefore (update d v mid) e) (item_start d v)
    (firstn e (map (item_act d) mid ++ [item_end d v])).
Proof.
  intros He. constructor.
  - cbn [seg_items ca_items update]. unfold route_items. rewrite Nat.add_1_r. reflexivity.
  - reflexivity.
  - cbn [sg_back]. unfold ca_item. cbn [ca_items update].
    rewrite <- (nth_lastof _ 0 e) by (rewrite ?route_items_len; lia).
    unfold slice. rewrite Nat.sub_0_r. reflexivity.
  - cbn [sg_distance ca_cumDist update]. unfold route_items.
    apply dist_array_nth. rewrite app_length, map_length. cbn [length]. lia.
Qed.

Lemma between_dist_gen d v mid s e : (s <= e)%nat -> (e < length mid + 2)%nat ->
  let its := route_items d v mid in
  nth e (dist_array (p_dist d (v_profile v)) its) 0 - nth s (dist_array (p_dist d (v_profile v)) its) 0
  = dist_walk (p_dist d (v_profile v)) (nth s its dummy_item) (slice its s e).
Proof.
  intros Hs He its. subst its.
  pose proof (firstn_slice (route_items d v mid) s e Hs) as E.
  pose proof (nth_lastof (route_items d v mid) 0 s dummy_item ltac:(lia) ltac:(rewrite route_items_len; lia)) as Hl.
  unfold slice at 1 in Hl. rewrite Nat.sub_0_r in Hl.
  unfold route_items in *. cbn [skipn nth plus] in *.
  rewrite !dist_array_nth by (rewrite app_length, map_length; cbn [length]; lia).
  rewrite E, dist_walk_app. rewrite Hl. lia.
Qed.

Lemma mid_dist d profile o : wf_mid d o -> exists y ys, dist_ok d profile o y ys.
Proof.
  intros H; destruct H as [c s e Hc Hse He Hin|i|i|i|i].
  2-5: (eexists _, []; constructor; reflexivity).
  destruct Hc as (v & mid & Hv & ->). eexists _, _.
  constructor.
  - reflexivity.
  - reflexivity.
  - cbn [sg_back]. unfold ca_item. symmetry. apply nth_lastof; [lia|exact He].
  - cbn [sg_distance]. unfold ca_size in He.
    cbn [ca_items ca_veh ca_cumDist update] in *. rewrite route_items_len in He.
    destruct (Nat.eqb_spec profile (v_profile v)) as [->|_].
    + rewrite between_dist_gen by lia. reflexivity.
    + reflexivity.
Qed.

Lemma after_dist d v mid s : (s < length mid + 2)%nat ->
  exists y ys, dist_ok d (v_profile v) (SAfter (update d v mid) s) y ys.
Proof.
  intros Hs. exists (nth s (route_items d v mid) dummy_item), (slice (route_items d v mid) s (length mid + 1)).
  assert (Hsl : slice (route_items d v mid) s (length mid + 1) = skipn (s + 1) (route_items d v mid)).
  { unfold slice. apply firstn_all2. rewrite skipn_length, route_items_len. lia. }
  constructor.
  - cbn [seg_items ca_items update]. rewrite Hsl.
    assert (E : forall (l : list item) k, (k < length l)%nat -> skipn k l = nth k l dummy_item :: skipn (k + 1) l).
    { induction l as [|x l IH]; intros k Hk; [cbn in Hk; lia|]. destruct k; [reflexivity|].
      cbn [skipn nth plus]. apply IH. cbn in Hk. lia. }
    apply E. rewrite route_items_len. lia.
  - reflexivity.
  - cbn [sg_back ca_items update].
    rewrite nth_lastof by (rewrite ?route_items_len; lia).
    rewrite last_nth, route_items_len. f_equal. lia.
  - cbn [sg_distance ca_cumDist update].
    rewrite last_nth, dist_array_length, route_items_len.
    replace (length mid + 2 - 1)%nat with (length mid + 1)%nat by lia.
    apply between_dist_gen; lia.
Qed.

Theorem prop_distance_exact d v p mid' :
  wf_prop d v p -> prop_items d p = route_items d v mid' ->
  let c := update d v mid' in
  prop_distance d v p = (ca_distanceCost c, ca_excessDistance c).
Proof.
  intros Hwf Hit c. destruct Hwf as [mid e mids l He Hmids Hl].
  destruct (before_dist d v mid e He) as [H1 H2 H3 H4].
  unfold prop_distance. cbn [pr_first pr_rest]. rewrite H3, H4, prop_dist_loop_spec.
  - rewrite <- dist_walk_app.
    assert (E : firstn e (map (item_act d) mid ++ [item_end d v]) ++
                concat (map (seg_items d) (mids ++ [l])) = map (item_act d) mid' ++ [item_end d v]).
    { unfold prop_items in Hit. cbn [pr_first pr_rest] in Hit. rewrite map_cons in Hit.
      cbn [concat] in Hit. rewrite H1 in Hit. unfold route_items in Hit. cbn [app] in Hit.
      injection Hit. auto. }
    rewrite E. subst c. cbn [ca_distanceCost ca_excessDistance update]. unfold route_items.
    rewrite dist_array_last. reflexivity.
  - apply Forall_app. split.
    + eapply Forall_impl; [|exact Hmids]. intros o Ho. apply mid_dist. exact Ho.
    + constructor; [|constructor]. destruct Hl as [midl sl Hsl | o Ho].
      * apply after_dist. exact Hsl.
      * apply mid_dist. exact Ho.
Qed.

(** ** Load *)
Record lok (s : lseg) : Prop := mk_lok {
  lo_inc : 0 <= ls_increase s;
  lo_delta : ls_delta s <= ls_increase s }.

Lemma ls_merge_assoc a b c : ls_merge (ls_merge a b) c = ls_merge a (ls_merge b c).
Proof. unfold ls_merge; cbn [ls_initial ls_delta ls_increase ls_excess]. f_equal; lia. Qed.
Lemma ls_zero_l s : lok s -> ls_merge ls_zero s = s.
Proof. intros [H1 H2]. destruct s as [i0 d0 c0 e0]; unfold ls_merge, ls_zero in *; cbn [ls_initial ls_delta ls_increase ls_excess] in *. f_equal; lia. Qed.
Lemma ls_zero_r s : lok s -> ls_merge s ls_zero = s.
Proof. intros [H1 H2]. destruct s as [i0 d0 c0 e0]; unfold ls_merge, ls_zero in *; cbn [ls_initial ls_delta ls_increase ls_excess] in *. f_equal; lia. Qed.
Lemma lok_merge a b : lok a -> lok b -> lok (ls_merge a b).
Proof. intros [] []. constructor; unfold ls_merge; cbn [ls_delta ls_increase]; lia. Qed.
Lemma lok_zero : lok ls_zero.
Proof. constructor; cbn; lia. Qed.
Lemma lok_finalise cap s : lok (ls_finalise cap s).
Proof. constructor; cbn; lia. Qed.

Lemma item_load_ok d v mid dim : Forall (fun x => lok (it_load x dim)) (route_items d v mid).
Proof.
  unfold route_items. constructor; [constructor; cbn; lia|]. apply Forall_app. split.
  - apply Forall_map. apply Forall_forall. intros a _. destruct a; constructor; cbn; lia.
  - constructor; [constructor; cbn; lia | constructor].
Qed.

Definition zero_reload (dim : nat) (x : item) : Prop := it_reload x = true -> it_load x dim = ls_zero.

Lemma item_reload_zero d v mid dim : Forall (zero_reload dim) (route_items d v mid).
Proof.
  unfold route_items. constructor; [discriminate|]. apply Forall_app. split.
  - apply Forall_map. apply Forall_forall. intros a _. destruct a; try discriminate. intros _. reflexivity.
  - constructor; [discriminate | constructor].
Qed.

Section Load.
Variable cap : Z.
Variable dim : nat.

(** Reference: run over the nodes, settling the account at each reload depot. *)
Fixpoint lrun (acc : lseg) (l : list item) : lseg :=
  match l with
  | [] => acc
  | x :: xs => lrun (if it_reload x then ls_finalise cap acc else ls_merge acc (it_load x dim)) xs
  end.

Lemma lrun_app a : forall acc b, lrun acc (a ++ b) = lrun (lrun acc a) b.
Proof. induction a as [|x a IH]; intros acc b; [reflexivity|]. cbn [app lrun]. apply IH. Qed.

Definition iok (x : item) : Prop := lok (it_load x dim) /\ zero_reload dim x.

Lemma lrun_ok l : forall acc, lok acc -> Forall iok l -> lok (lrun acc l).
Proof.
  induction l as [|x l IH]; intros acc Ha Hl; [exact Ha|]. inversion Hl as [|? ? [H1 H2] Hl']; subst.
  cbn [lrun]. apply IH; [|exact Hl']. destruct (it_reload x); [apply lok_finalise | apply lok_merge; assumption].
Qed.

Fixpoint lbfold (prev : item) (acc : lseg) (l : list item) : lseg :=
  match l with
  | [] => acc
  | x :: xs => lbfold x (lbefore_step cap prev acc (it_load x dim)) xs
  end.

Lemma lbefore_loop_nth l : forall i prev acc, (i < length l)%nat ->
  nth i (lbefore_loop cap dim prev acc l) ls_zero = lbfold prev acc (firstn (S i) l).
Proof.
  induction l as [|x l IH]; intros i prev acc Hi; [cbn in Hi; lia|].
  cbn [lbefore_loop]. destruct i; [destruct l; reflexivity|].
  cbn [nth]. rewrite IH by (cbn in Hi; lia). reflexivity.
Qed.

Lemma lbefore_array_nth x l i : (i <= length l)%nat ->
  nth i (lbefore_array cap dim (x :: l)) ls_zero = lbfold x (it_load x dim) (firstn i l).
Proof.
  intros Hi. cbn [lbefore_array]. destruct i; [reflexivity|].
  cbn [nth]. apply lbefore_loop_nth. lia.
Qed.

Lemma lbefore_array_length l : length (lbefore_array cap dim l) = length l.
Proof.
  destruct l as [|x l]; [reflexivity|]. cbn. f_equal. generalize (it_load x dim). revert x.
  induction l as [|y l IH]; intros; cbn; auto.
Qed.

Definition lclose (x : item) (s : lseg) : lseg := if it_reload x then ls_finalise cap s else s.

Lemma lbfold_run l : forall prev acc, lok acc -> Forall iok l ->
  lclose (lastof prev l) (lbfold prev acc l) = lrun (lclose prev acc) l.
Proof.
  induction l as [|x l IH]; intros prev acc Ha Hl; [reflexivity|].
  inversion Hl as [|? ? [H1 H2] Hl']; subst. cbn [lastof lbfold lrun].
  assert (Hc : lok (lclose prev acc)) by (unfold lclose; destruct (it_reload prev); [apply lok_finalise | exact Ha]).
  rewrite IH; [|unfold lbefore_step; fold (lclose prev acc); apply lok_merge; assumption | exact Hl'].
  f_equal. unfold lbefore_step. fold (lclose prev acc). unfold lclose at 1.
  destruct (it_reload x) eqn:Ex; [|reflexivity]. rewrite (H2 Ex), ls_zero_r by exact Hc. reflexivity.
Qed.

(** A piece without reload depots inside. *)
Lemma lrun_fold l : forall acc, Forall (fun x => it_reload x = false) l ->
  lrun acc l = fold_left (fun s x => ls_merge s (it_load x dim)) l acc.
Proof.
  induction l as [|x l IH]; intros acc Hl; [reflexivity|]. inversion Hl as [|? ? H1 H2]; subst.
  cbn [lrun fold_left]. rewrite H1. apply IH. exact H2.
Qed.

Lemma fold_merge l : forall a b,
  ls_merge a (fold_left (fun s x => ls_merge s (it_load x dim)) l b) =
  fold_left (fun s x => ls_merge s (it_load x dim)) l (ls_merge a b).
Proof. induction l as [|x l IH]; intros a b; [reflexivity|]. cbn [fold_left]. rewrite IH, ls_merge_assoc. reflexivity. Qed.

Lemma piece_fold l : forall y acc, inner l -> iok y -> Forall iok l -> it_reload y = false -> lok acc ->
  lclose (lastof y l) (fold_left (fun s x => ls_merge s (it_load x dim)) l acc) = lrun acc l.
Proof.
  induction l as [|x l IH]; intros y acc Hin Hy Hl Ey Ha.
  - cbn [lastof fold_left lrun]. unfold lclose. rewrite Ey. reflexivity.
  - inversion Hl as [|? ? Hx Hl']; subst. destruct l as [|z l].
    + cbn [lastof fold_left lrun]. unfold lclose. destruct Hx as [Hx1 Hx2].
      destruct (it_reload x) eqn:Ex; [|reflexivity]. rewrite (Hx2 Ex), ls_zero_r by exact Ha. reflexivity.
    + destruct (inner_cons _ _ Hin ltac:(discriminate)) as [Ex Hin'].
      change (lastof y (x :: z :: l)) with (lastof x (z :: l)).
      change (fold_left (fun s x => ls_merge s (it_load x dim)) (x :: z :: l) acc) with
        (fold_left (fun s x => ls_merge s (it_load x dim)) (z :: l) (ls_merge acc (it_load x dim))).
      rewrite (IH x (ls_merge acc (it_load x dim)) Hin' Hx Hl' Ex).
      * cbn [lrun]. rewrite Ex. reflexivity.
      * destruct Hx. apply lok_merge; assumption.
Qed.

(** ** Suffixes *)
Lemma lafter_cons x xs : exists s rest, lafter_array cap dim (x :: xs) = s :: rest.
Proof.
  cbn [lafter_array]. destruct xs; [eexists; eexists; reflexivity|].
  destruct (lafter_array cap dim (i :: xs)); eexists; eexists; reflexivity.
Qed.
Lemma lafter_cons2 x y ys : lafter_array cap dim (x :: y :: ys) =
  ls_merge (it_load x dim) (lclose y (hd ls_zero (lafter_array cap dim (y :: ys))))
  :: lafter_array cap dim (y :: ys).
Proof.
  destruct (lafter_cons y ys) as (s & rest & E).
  change (lafter_array cap dim (x :: y :: ys)) with
    (match lafter_array cap dim (y :: ys) with
     | nextLoad :: _ => ls_merge (it_load x dim) (if it_reload y then ls_finalise cap nextLoad else nextLoad)
                        :: lafter_array cap dim (y :: ys)
     | [] => [it_load x dim] end).
  rewrite E. reflexivity.
Qed.
Lemma lafter_skipn l i : lafter_array cap dim (skipn i l) = skipn i (lafter_array cap dim l).
Proof.
  revert i; induction l as [|x l IH]; intros i; [destruct i; reflexivity|].
  destruct i; [reflexivity|]. cbn [skipn]. rewrite IH.
  destruct l as [|y l]; [destruct i; reflexivity|]. rewrite lafter_cons2. reflexivity.
Qed.

Lemma lafter_ok l : forall x, iok x -> Forall iok l -> lok (hd ls_zero (lafter_array cap dim (x :: l))).
Proof.
  induction l as [|y l IH]; intros x [Hx _] Hl; [exact Hx|].
  inversion Hl; subst. rewrite lafter_cons2. cbn [hd]. apply lok_merge; [exact Hx|].
  unfold lclose. destruct (it_reload y); [apply lok_finalise | apply IH; assumption].
Qed.

Lemma excess_finalise a b : lok b -> ls_excessLoad cap (ls_merge (ls_finalise cap a) b) =
  ls_excessLoad cap a + ls_excessLoad cap b.
Proof.
  intros []. unfold ls_excessLoad, ls_load, ls_merge, ls_finalise, ls_excessLoad, ls_load;
    cbn [ls_initial ls_delta ls_increase ls_excess]. lia.
Qed.
Lemma excess_merge_fin a b : lok a -> ls_excessLoad cap (ls_merge a (ls_finalise cap b)) =
  ls_excessLoad cap a + ls_excessLoad cap b.
Proof.
  intros []. unfold ls_excessLoad, ls_load, ls_merge, ls_finalise, ls_excessLoad, ls_load;
    cbn [ls_initial ls_delta ls_increase ls_excess]. lia.
Qed.

Lemma lafter_run l : forall x acc, lok acc -> iok x -> Forall iok l ->
  it_reload (lastof x l) = false ->
  ls_excessLoad cap (ls_merge (lclose x acc) (hd ls_zero (lafter_array cap dim (x :: l)))) =
  ls_excessLoad cap (lrun acc (x :: l)).
Proof.
  induction l as [|y l IH]; intros x acc Ha Hx Hl HL.
  - cbn [lastof] in HL. cbn [lafter_array hd lrun]. unfold lclose. rewrite HL. reflexivity.
  - inversion Hl as [|? ? Hy Hl']; subst. cbn [lastof] in HL.
    rewrite lafter_cons2. cbn [hd].
    set (acc' := if it_reload x then ls_finalise cap acc else ls_merge acc (it_load x dim)).
    change (lrun acc (x :: y :: l)) with (lrun acc' (y :: l)).
    destruct Hx as [Hx1 Hx2].
    assert (Hacc' : lok acc') by (unfold acc'; destruct (it_reload x); [apply lok_finalise | apply lok_merge; assumption]).
    assert (E : ls_merge (lclose x acc) (it_load x dim) = acc').
    { unfold lclose, acc'. destruct (it_reload x) eqn:Ex; [|reflexivity].
      rewrite (Hx2 Ex), ls_zero_r by apply lok_finalise. reflexivity. }
    rewrite <- (IH y acc' Hacc' Hy Hl' HL), <- ls_merge_assoc, E.
    unfold lclose. destruct (it_reload y); [|reflexivity].
    rewrite excess_merge_fin by exact Hacc'. rewrite excess_finalise by (apply lafter_ok; assumption). reflexivity.
Qed.
End Load.

(** ** Pieces *)
Section LoadProp.
Variable d : pdata.
Variable cap : Z.
Variable dim : nat.

Lemma act_iok a : iok dim (item_act d a).
Proof. split; [destruct a; constructor; cbn; lia | destruct a; try discriminate; intros _; reflexivity]. Qed.

Lemma route_iok v mid : Forall (iok dim) (route_items d v mid).
Proof.
  pose proof (item_load_ok d v mid dim) as H1. pose proof (item_reload_zero d v mid dim) as H2.
  rewrite Forall_forall in *. intros x Hx. split; auto.
Qed.

Definition step_load (ls : lseg) (o : seg) : lseg :=
  let ls := if sg_startsReload o then ls_finalise cap ls else ls in
  ls_merge ls (sg_load d dim o).

Lemma mid_load o ls : wf_mid d o -> lok ls -> Forall (iok dim) (seg_items d o) /\
  (if sg_endsReload o && (1 <? sg_size o)%nat then ls_finalise cap (step_load ls o) else step_load ls o)
  = lrun cap dim ls (seg_items d o) /\
  (sg_endsReload o = false -> step_load ls o = lrun cap dim ls (seg_items d o)) /\
  sg_endsReload o = it_reload (lastof dummy_item (seg_items d o)).
Proof.
  intros H Hls; destruct H as [c s e Hc Hse He Hin|i|i|i|i].
  2-4: (split; [constructor; [apply act_iok | constructor]|]; split; [reflexivity|]; split; reflexivity).
  2:{ split; [constructor; [apply act_iok | constructor]|]. unfold step_load.
      cbn [sg_endsReload sg_size sg_startsReload sg_load seg_items single lrun item_act it_reload andb Nat.ltb Nat.leb].
      rewrite ls_zero_r by apply lok_finalise. split; [reflexivity|]. split; [discriminate | reflexivity]. }
  destruct Hc as (v & mid & Hv & ->). unfold ca_size in He. cbn [ca_items update] in *.
  pose proof (route_iok v mid) as Hall.
  cbn [seg_items sg_endsReload sg_size]. unfold step_load. cbn [sg_startsReload sg_load].
  unfold ca_item. cbn [ca_items update].
  set (y := nth s (route_items d v mid) dummy_item).
  set (ys := slice (route_items d v mid) s e) in *.
  assert (Hlast : nth e (route_items d v mid) dummy_item = lastof y ys) by (symmetry; apply nth_lastof; lia).
  assert (Hlen : length ys = (e - s)%nat) by (apply slice_length; lia).
  assert (Hys : Forall (iok dim) ys) by (apply slice_Forall; exact Hall).
  assert (Hy : iok dim y) by (apply (proj1 (Forall_forall _ _) Hall); apply nth_In; lia).
  rewrite Hlast.
  assert (Hfold : ls_merge (lclose cap y ls) (it_load y dim) =
    (if it_reload y then ls_finalise cap ls else ls_merge ls (it_load y dim))).
  { unfold lclose. destruct Hy as [_ Hy2]. destruct (it_reload y) eqn:Ey; [|reflexivity].
    rewrite (Hy2 Ey), ls_zero_r by apply lok_finalise. reflexivity. }
  fold (lclose cap y ls). rewrite fold_merge, Hfold.
  set (acc := if it_reload y then ls_finalise cap ls else ls_merge ls (it_load y dim)).
  assert (Hacc : lok acc).
  { unfold acc. destruct Hy. destruct (it_reload y); [apply lok_finalise | apply lok_merge; assumption]. }
  split; [constructor; assumption|].
  cbn [lrun]. fold acc.
  assert (Hmain : ys <> [] -> lclose cap (lastof y ys) (fold_left (fun s x => ls_merge s (it_load x dim)) ys acc)
            = lrun cap dim acc ys).
  { intros Hne. destruct ys as [|x xs]; [congruence|].
    inversion Hys; subst.
    rewrite <- (piece_fold cap dim (x :: xs) dummy_item acc Hin); try assumption; try reflexivity.
    split; [apply lok_zero | discriminate]. }
  split; [|split].
  - destruct ys as [|x xs] eqn:Eys.
    + cbn [length] in Hlen. replace (1 <? e - s + 1)%nat with false by (symmetry; apply Nat.ltb_ge; lia).
      rewrite andb_false_r. reflexivity.
    + cbn [length] in Hlen. replace (1 <? e - s + 1)%nat with true by (symmetry; apply Nat.ltb_lt; lia).
      rewrite andb_true_r. rewrite <- Hmain by discriminate. unfold lclose. reflexivity.
  - intros Hend. destruct ys as [|x xs] eqn:Eys; [reflexivity|].
    rewrite <- Hmain by discriminate. unfold lclose. rewrite Hend. reflexivity.
  - reflexivity.
Qed.

Lemma load_mids mids : forall ls l, Forall (wf_mid d) mids -> lok ls ->
  prop_load_loop d cap dim ls (mids ++ [l]) =
  step_load (lrun cap dim ls (concat (map (seg_items d) mids))) l /\
  lok (lrun cap dim ls (concat (map (seg_items d) mids))).
Proof.
  induction mids as [|o mids IH]; intros ls l Hm Hls; [split; [reflexivity | exact Hls]|].
  inversion Hm as [|? ? Ho Hm']; subst.
  destruct (mid_load o ls Ho Hls) as (Hok & E & _ & _).
  cbn [app prop_load_loop]. cbv zeta. fold (step_load ls o).
  destruct (mids ++ [l]) as [|m ms] eqn:Em; [destruct mids; discriminate|]. rewrite <- Em.
  cbn [map concat]. rewrite lrun_app, E. apply IH; [exact Hm'|].
  apply lrun_ok; assumption.
Qed.
End LoadProp.

Lemma map_nth_seq {A} (f : nat -> A) n i dft : (i < n)%nat -> nth i (map f (seq 0 n)) dft = f i.
Proof.
  intros Hi. rewrite (nth_indep _ dft (f 0%nat)) by (rewrite map_length, seq_length; exact Hi).
  rewrite map_nth, seq_nth by exact Hi. reflexivity.
Qed.

Lemma update_excess d v mid dim : (dim < p_numLoadDimensions d)%nat ->
  nth dim (ca_excessLoad (update d v mid)) 0 =
  ls_excessLoad (dimv (v_capacity v) dim)
    (lrun (dimv (v_capacity v) dim) dim (ls_vehicle v dim) (map (item_act d) mid ++ [item_end d v])).
Proof.
  intros Hdim. cbn [ca_excessLoad update]. rewrite map_nth_seq by exact Hdim.
  rewrite last_nth, lbefore_array_length, route_items_len.
  f_equal. unfold route_items. rewrite lbefore_array_nth by (rewrite app_length, map_length; cbn [length]; lia).
  rewrite firstn_all2 by (rewrite app_length, map_length; cbn [length]; lia).
  pose proof (lbfold_run (dimv (v_capacity v) dim) dim (map (item_act d) mid ++ [item_end d v])
    (item_start d v) (it_load (item_start d v) dim)) as H.
  pose proof (route_iok d dim v mid) as Hall. unfold route_items in Hall. inversion Hall as [|? ? H1 H2]; subst.
  specialize (H (proj1 H1) H2). rewrite lastof_last in H. exact H.
Qed.

Theorem prop_excessLoad_exact d v p mid' dim :
  wf_prop d v p -> prop_items d p = route_items d v mid' -> (dim < p_numLoadDimensions d)%nat ->
  prop_excessLoad d v dim p = nth dim (ca_excessLoad (update d v mid')) 0.
Proof.
  intros Hwf Hit Hdim. rewrite update_excess by exact Hdim.
  destruct Hwf as [mid e mids l He Hmids Hl].
  unfold prop_excessLoad. cbn [pr_first pr_rest].
  set (cap := dimv (v_capacity v) dim).
  set (pre := firstn e (map (item_act d) mid ++ [item_end d v])).
  assert (Hall : Forall (iok dim) (route_items d v mid)) by apply route_iok.
  assert (H0 : iok dim (item_start d v)) by (inversion Hall; assumption).
  assert (Hpre : Forall (iok dim) pre).
  { inversion Hall as [|? ? _ H2]; subst. unfold pre. apply Forall_forall. intros x Hx.
    apply (proj1 (Forall_forall _ _) H2). rewrite <- (firstn_skipn e). apply in_or_app. left. exact Hx. }
  assert (Hfirst : (if sg_endsReload (SBefore (update d v mid) e)
                    then ls_finalise cap (sg_load d dim (SBefore (update d v mid) e))
                    else sg_load d dim (SBefore (update d v mid) e))
                   = lrun cap dim (ls_vehicle v dim) pre).
  { pose proof (before_dist d v mid e He) as [_ _ Hb _].
    cbn [sg_endsReload sg_load ca_loadBefore update]. rewrite map_nth_seq by exact Hdim.
    fold cap.
    assert (El : nth e (lbefore_array cap dim (route_items d v mid)) ls_zero =
                 lbfold cap dim (item_start d v) (it_load (item_start d v) dim) pre).
    { unfold route_items. rewrite lbefore_array_nth by (rewrite app_length, map_length; cbn [length]; lia).
      reflexivity. }
    rewrite El.
    cbn [sg_back] in Hb. unfold ca_item in *. cbn [ca_items update] in *. rewrite Hb.
    fold pre. apply (lbfold_run cap dim pre (item_start d v)); [exact (proj1 H0) | exact Hpre]. }
  rewrite Hfirst.
  assert (Hok : lok (lrun cap dim (ls_vehicle v dim) pre)).
  { apply lrun_ok; [constructor; cbn; lia | exact Hpre]. }
  destruct (load_mids d cap dim mids (lrun cap dim (ls_vehicle v dim) pre) l Hmids Hok) as [E Hok2].
  rewrite E. clear E.
  assert (Hrest : pre ++ concat (map (seg_items d) mids) ++ seg_items d l =
                  map (item_act d) mid' ++ [item_end d v]).
  { pose proof (before_dist d v mid e He) as [H1 _ _ _].
    unfold prop_items in Hit. cbn [pr_first pr_rest] in Hit. rewrite map_cons in Hit. cbn [concat] in Hit.
    rewrite H1, map_app, concat_app in Hit. cbn [map concat] in Hit. rewrite app_nil_r in Hit.
    unfold route_items in Hit. cbn [app] in Hit. injection Hit. auto. }
  rewrite <- Hrest, !lrun_app.
  assert (Hlast_end : forall z zs, seg_items d l = z :: zs -> lastof z zs = item_end d v).
  { intros z zs Hz. rewrite Hz in Hrest.
    assert (E : lastof z ((pre ++ concat (map (seg_items d) mids)) ++ z :: zs) =
                lastof z (map (item_act d) mid' ++ [item_end d v])).
    { rewrite <- Hrest, app_assoc. reflexivity. }
    rewrite lastof_last in E. rewrite (lastof_app z _ (z :: zs)) in E. exact E. }
  destruct Hl as [midl sl Hsl | o Ho].
  - destruct (after_dist d v midl sl Hsl) as (z & zs & [Hz Hf _ _]).
    rewrite Hz. unfold step_load. cbn [sg_startsReload sg_load ca_loadAfter update].
    cbn [sg_front] in Hf. rewrite Hf. rewrite map_nth_seq by exact Hdim. fold cap.
    rewrite nth_skipn_hd, <- lafter_skipn. cbn [seg_items ca_items update] in Hz. rewrite Hz.
    fold (lclose cap z (lrun cap dim (lrun cap dim (ls_vehicle v dim) pre) (concat (map (seg_items d) mids)))).
    pose proof (route_iok d dim v midl) as Ha.
    assert (Hzz : Forall (iok dim) (z :: zs)).
    { rewrite <- Hz. apply Forall_forall. intros x Hx. apply (proj1 (Forall_forall _ _) Ha).
      rewrite <- (firstn_skipn sl). apply in_or_app. right. exact Hx. }
    apply lafter_run; try assumption.
    + exact (Forall_inv Hzz).
    + exact (Forall_inv_tail Hzz).
    + rewrite (Hlast_end z zs Hz). reflexivity.
  - destruct (mid_load d cap dim o _ Ho Hok2) as (_ & _ & E & Eend).
    rewrite E; [reflexivity|]. rewrite Eend.
    destruct (seg_items d o) as [|z zs] eqn:Ez; [reflexivity|]. cbn [lastof].
    rewrite (Hlast_end z zs eq_refl). reflexivity.
Qed.
