(** Facts about Read.v: lists, matrices, and the grouping of vehicles into types. *)
From Coq Require Import Ascii.
From Coq Require Import String List Permutation.
From Verif Require Import Base DurationSegment Data DataCtor MatrixFacts ModelPy ActivityText StatsCsv Route Solution Read.
Import ListNotations.
Local Open Scope Z_scope.
Notation length := List.length.

(** ** The monad *)
Lemma bind_ok {A B} (x : res A) (f : A -> res B) y : bind x f = Ok y <-> exists a, x = Ok a /\ f a = Ok y.
Proof.
  destruct x as [a|e]; cbn; split.
  - intros H. exists a. auto.
  - intros (a' & E & H). injection E as <-. exact H.
  - discriminate.
  - intros (a' & E & _). discriminate.
Qed.
Lemma mapM_ok {A B} (f : A -> res B) l : forall ys, mapM f l = Ok ys <-> Forall2 (fun x y => f x = Ok y) l ys.
Proof.
  induction l as [|x l IH]; intros ys; cbn [mapM].
  - split; [intros [= <-]; constructor|intros H; inversion H; reflexivity].
  - rewrite bind_ok. split.
    + intros (y & Ey & H). apply bind_ok in H as (ys' & E & [= <-]). apply IH in E. constructor; assumption.
    + intros H. inversion H; subst. exists y. split; [assumption|]. apply bind_ok. exists l'. split; [apply IH; assumption|reflexivity].
Qed.
Lemma mapM_length {A B} (f : A -> res B) l ys : mapM f l = Ok ys -> length ys = length l.
Proof. intros H. apply mapM_ok in H. induction H; cbn; congruence. Qed.
Lemma Forall2_nth {A B} (R : A -> B -> Prop) l l' : Forall2 R l l' ->
  forall i a b, (i < length l)%nat -> R (nth i l a) (nth i l' b).
Proof.
  induction 1 as [|x y l l' H HF IH]; intros i a b Hi; [cbn in Hi; lia|].
  destruct i; [exact H|]. cbn. apply IH. cbn in Hi. lia.
Qed.
Lemma mapM_nth {A B} (f : A -> res B) l ys i a b : mapM f l = Ok ys -> (i < length l)%nat -> f (nth i l a) = Ok (nth i ys b).
Proof. intros H. apply mapM_ok in H. apply (Forall2_nth _ _ _ H). Qed.
Lemma mapM_total {A B} (f : A -> res B) l : (forall x, In x l -> exists y, f x = Ok y) -> exists ys, mapM f l = Ok ys.
Proof.
  induction l as [|x l IH]; intros H; [exists []; reflexivity|].
  destruct (H x (or_introl eq_refl)) as [y Ey]. destruct (IH (fun z Hz => H z (or_intror Hz))) as [ys E].
  exists (y :: ys). cbn [mapM]. rewrite Ey. cbn [bind]. rewrite E. reflexivity.
Qed.
Lemma get_ok {A} (l : list A) i x dft : get l i = Ok x <-> (i < length l)%nat /\ x = nth i l dft.
Proof.
  unfold get. destruct (nth_error l i) as [y|] eqn:E.
  - pose proof (nth_error_nth l i dft E) as En. assert ((i < length l)%nat) by (apply nth_error_Some; congruence).
    split; [intros [= <-]; split; [assumption|auto]|intros [_ ->]; rewrite En; reflexivity].
  - apply nth_error_None in E. split; [discriminate|intros [H _]; lia].
Qed.
Lemma to_size_ok i n : to_size i = Ok n <-> 0 <= i /\ n = Z.to_nat i.
Proof. unfold to_size. destruct (Z.ltb_spec i 0); split; [discriminate|intros [? _]; lia|intros [= <-]; auto|intros [_ ->]; reflexivity]. Qed.
Lemma mapM_to_size l ns : mapM to_size l = Ok ns <-> Forall (fun i => 0 <= i) l /\ ns = map Z.to_nat l.
Proof.
  rewrite mapM_ok. revert ns. induction l as [|i l IH]; intros ns; split.
  - intros H. inversion H. split; [constructor|reflexivity].
  - intros [_ ->]. constructor.
  - intros H. inversion H; subst. apply to_size_ok in H2 as [H2 ->]. apply IH in H4 as [H4 ->]. split; [constructor; assumption|reflexivity].
  - intros [H ->]. inversion H; subst. cbn. constructor; [apply to_size_ok; auto|apply IH; auto].
Qed.
Lemma py_index_pos n i k : 0 <= i -> py_index n i = Ok k <-> i < Z.of_nat n /\ k = Z.to_nat i.
Proof.
  intros H. unfold py_index. destruct (Z.leb_spec 0 i); [|lia]. destruct (Z.ltb_spec i (Z.of_nat n)); cbn [andb].
  - split; [intros [= <-]; auto|intros [_ ->]; reflexivity].
  - destruct (Z.ltb_spec i 0); [lia|]. rewrite Bool.andb_false_r. split; [discriminate|lia].
Qed.
Lemma py_index_lt n i k : py_index n i = Ok k -> (k < n)%nat.
Proof.
  unfold py_index. destruct ((0 <=? i) && (i <? Z.of_nat n)) eqn:E; [intros [= <-]; lia|].
  destruct ((- Z.of_nat n <=? i) && (i <? 0)) eqn:E'; [intros [= <-]; lia|discriminate].
Qed.

(** ** Values given once or one by one *)
Definition spec_at {A} (s : spec A) (v : nat) (dft : A) : A :=
  match s with Uniform x => x | Each [x] => x | Each l => nth v l dft end.
Definition spec_fits {A} (s : spec A) (n : nat) : Prop :=
  match s with Uniform _ => True | Each [x] => True | Each l => length l = n end.
Lemma broadcast_ok {A} (s : spec A) n l : broadcast s n = Ok l ->
  spec_fits s n /\ length l = n /\ forall v dft, (v < n)%nat -> nth v l dft = spec_at s v dft.
Proof.
  destruct s as [x|l0]; cbn [broadcast spec_fits spec_at].
  - intros [= <-]. rewrite repeat_length. repeat split; auto. intros v dft Hv.
    apply (repeat_spec n). apply nth_In. rewrite repeat_length. exact Hv.
  - destruct (Nat.eqb_spec (length l0) n) as [E|E].
    + intros [= <-]. destruct l0 as [|x [|y l0]]; cbn in E |- *; repeat split; auto.
      intros v dft Hv. destruct v; [reflexivity|lia].
    + destruct l0 as [|x [|y l0]]; try discriminate. intros [= <-]. rewrite repeat_length. repeat split; auto.
      intros v dft Hv. apply (repeat_spec n). apply nth_In. rewrite repeat_length. exact Hv.
Qed.
Lemma broadcast_total {A} (s : spec A) n : spec_fits s n -> exists l, broadcast s n = Ok l.
Proof.
  destruct s as [x|l0]; cbn [broadcast spec_fits]; [eauto|].
  destruct (Nat.eqb_spec (length l0) n); [eauto|]. destruct l0 as [|x [|y l0]]; [intros H; contradiction n0|eauto|intros H; contradiction n0].
Qed.
Lemma nth_repeat_lt {A} (x : A) n i dft : (i < n)%nat -> nth i (repeat x n) dft = x.
Proof. intros H. apply (repeat_spec n). apply nth_In. rewrite repeat_length. exact H. Qed.
Lemma nth_map {A B} (f : A -> B) l i a b : (i < length l)%nat -> nth i (map f l) b = f (nth i l a).
Proof. intros H. rewrite (nth_indep _ b (f a)) by (rewrite map_length; exact H). apply map_nth. Qed.

(** ** Matrices given by functions *)
Lemma m_tab_ok rows cols f : m_ok (m_tab rows cols f).
Proof.
  unfold m_ok, m_tab. cbn [m_data m_cols m_rows]. rewrite flat_map_concat_map, (concat_rect cols).
  - rewrite map_length, seq_length. lia.
  - unfold rect. apply Forall_forall. intros r Hr. apply in_map_iff in Hr as (i & <- & _). rewrite map_length, seq_length. reflexivity.
Qed.
Lemma m_tab_at rows cols f i j : (i < rows)%nat -> (j < cols)%nat -> m_at (m_tab rows cols f) i j = f i j.
Proof.
  intros Hi Hj. unfold m_at, m_tab. cbn [m_data m_cols]. rewrite flat_map_concat_map.
  rewrite (concat_nth cols).
  - rewrite (nth_map _ _ i 0%nat) by (rewrite seq_length; exact Hi). rewrite (nth_map _ _ j 0%nat) by (rewrite seq_length; exact Hj).
    rewrite !seq_nth by assumption. reflexivity.
  - unfold rect. apply Forall_forall. intros r Hr. apply in_map_iff in Hr as (i' & <- & _). rewrite map_length, seq_length. reflexivity.
  - exact Hj.
Qed.

(** ** Equality tests *)
Lemma zlist_eqb_eq a b : zlist_eqb a b = true <-> a = b.
Proof.
  unfold zlist_eqb. revert b. induction a as [|x a IH]; intros [|y b]; cbn [list_eqb]; try (split; congruence).
  rewrite Bool.andb_true_iff, IH, Z.eqb_eq. split; [intros [-> ->]; reflexivity|intros [= -> ->]; auto].
Qed.
Lemma vkey_eqb_eq a b : vkey_eqb a b = true <-> a = b.
Proof.
  unfold vkey_eqb. rewrite !Bool.andb_true_iff, !zlist_eqb_eq, !Z.eqb_eq. destruct a, b; cbn. split.
  - intros ((((((((? & ?) & ?) & ?) & ?) & ?) & ?) & ?) & ?). congruence.
  - intros [= -> -> -> -> -> -> -> -> ->]. repeat split.
Qed.

(** ** Grouping *)
Definition dummy_key := mk_vkey [] [] [] 0 0 0 0 0 0.
Definition members (ks : list vkey) (k : vkey) : list nat :=
  filter (fun v => vkey_eqb k (nth v ks dummy_key)) (seq 0 (length ks)).
Record grouped (ks : list vkey) (types : list (vkey * list nat)) : Prop := mk_grouped {
  gr_nodup : NoDup (map fst types);
  gr_members : forall k vs, In (k, vs) types -> vs = members ks k /\ vs <> [];
  gr_all : forall k, In k ks -> In k (map fst types) }.
Lemma members_snoc ks k k' : members (ks ++ [k']) k = members ks k ++ (if vkey_eqb k k' then [length ks] else []).
Proof.
  unfold members. rewrite app_length. cbn [length]. rewrite seq_app, filter_app. cbn [seq Nat.add filter].
  rewrite app_nth2, Nat.sub_diag by lia. cbn [nth]. f_equal.
  apply filter_ext_in. intros v Hv. apply in_seq in Hv. rewrite app_nth1 by lia. reflexivity.
Qed.
Lemma members_absent ks k : ~ In k ks -> members ks k = [].
Proof.
  intros H. unfold members. destruct (filter _ _) as [|v l] eqn:E; [reflexivity|].
  assert (Hin : In v (filter (fun v => vkey_eqb k (nth v ks dummy_key)) (seq 0 (length ks)))) by (rewrite E; left; reflexivity).
  apply filter_In in Hin as [Hv Hk]. apply in_seq in Hv. apply vkey_eqb_eq in Hk. subst k. exfalso. apply H. apply nth_In. lia.
Qed.
Lemma add_vehicle_keys v k types : map fst (add_vehicle v k types) = if existsb (fun x => vkey_eqb k (fst x)) types then map fst types else map fst types ++ [k].
Proof.
  induction types as [|[k' vs] more IH]; [reflexivity|]. cbn [add_vehicle existsb fst map].
  destruct (vkey_eqb k k'); [reflexivity|]. cbn [orb map fst]. rewrite IH. destruct (existsb _ more); reflexivity.
Qed.
Lemma existsb_key k types : existsb (fun x : vkey * list nat => vkey_eqb k (fst x)) types = true <-> In k (map fst types).
Proof.
  rewrite existsb_exists, in_map_iff. split.
  - intros (x & Hx & E). apply vkey_eqb_eq in E. subst k. eauto.
  - intros (x & <- & Hx). exists x. split; [exact Hx|]. apply vkey_eqb_eq. reflexivity.
Qed.
Lemma add_vehicle_in v k types : NoDup (map fst types) -> forall k' vs, In (k', vs) (add_vehicle v k types) ->
  (k' <> k /\ In (k', vs) types) \/ (k' = k /\ ~ In k (map fst types) /\ vs = [v]) \/
  (k' = k /\ exists vs', In (k, vs') types /\ vs = vs' ++ [v]).
Proof.
  induction types as [|[k0 vs0] more IH]; intros Hn k' vs Hin; cbn [add_vehicle] in Hin.
  - destruct Hin as [[= <- <-]|[]]. right. left. repeat split; auto.
  - inversion Hn as [|x l Hx Hl]; subst. destruct (vkey_eqb k k0) eqn:E.
    + apply vkey_eqb_eq in E. subst k0. cbn [In] in Hin. destruct Hin as [[= <- <-]|Hin].
      * right. right. split; [reflexivity|]. exists vs0. split; [left; reflexivity|reflexivity].
      * left. split; [|right; exact Hin]. intros ->. apply Hx. cbn. apply in_map_iff. exists (k, vs). auto.
    + assert (Ek : k0 <> k) by (intros ->; rewrite (proj2 (vkey_eqb_eq k k) eq_refl) in E; discriminate).
      destruct Hin as [[= <- <-]|Hin].
      * left. split; [exact Ek|left; reflexivity].
      * destruct (IH Hl k' vs Hin) as [(H1 & H2)|[(H1 & H2 & H3)|(H1 & vs' & H2 & H3)]].
        -- left. split; [exact H1|right; exact H2].
        -- right. left. repeat split; auto. cbn. intros [?|?]; [congruence|auto].
        -- right. right. split; [exact H1|]. exists vs'. split; [right; exact H2|exact H3].
Qed.
Lemma add_grouped ks k types : grouped ks types -> grouped (ks ++ [k]) (add_vehicle (length ks) k types).
Proof.
  intros [Hn Hm Ha]. constructor.
  - rewrite add_vehicle_keys. destruct (existsb _ types) eqn:E; [exact Hn|].
    apply (Permutation_NoDup (l := k :: map fst types)); [apply Permutation_cons_append|]. constructor; [|exact Hn].
    rewrite <- existsb_key, E. discriminate.
  - intros k' vs Hin. rewrite members_snoc. destruct (add_vehicle_in _ _ _ Hn _ _ Hin) as [(H1 & H2)|[(-> & H2 & ->)|(-> & vs' & H2 & ->)]].
    + destruct (Hm _ _ H2) as [-> Hne]. assert (E : vkey_eqb k' k = false).
      { apply Bool.not_true_iff_false. rewrite vkey_eqb_eq. exact H1. }
      rewrite E, app_nil_r. auto.
    + rewrite (proj2 (vkey_eqb_eq k k) eq_refl). rewrite members_absent by (intros H; apply H2, Ha, H). split; [reflexivity|discriminate].
    + destruct (Hm _ _ H2) as [-> Hne]. rewrite (proj2 (vkey_eqb_eq k k) eq_refl). split; [reflexivity|]. intros E. apply app_eq_nil in E as [_ E]. discriminate.
  - intros k' Hin. rewrite add_vehicle_keys. apply in_app_or in Hin. destruct (existsb _ types) eqn:E.
    + destruct Hin as [Hin|[<-|[]]]; [apply Ha, Hin|apply existsb_key, E].
    + apply in_or_app. destruct Hin as [Hin|[<-|[]]]; [left; apply Ha, Hin|right; left; reflexivity].
Qed.
Lemma group_grouped ks : forall ks0 types, grouped ks0 types -> grouped (ks0 ++ ks) (group_vehicles (length ks0) ks types).
Proof.
  induction ks as [|k ks IH]; intros ks0 types H; cbn [group_vehicles]; [rewrite app_nil_r; exact H|].
  specialize (IH (ks0 ++ [k]) _ (add_grouped ks0 k types H)). rewrite <- app_assoc in IH. rewrite app_length in IH. cbn [length app] in IH.
  replace (length ks0 + 1)%nat with (S (length ks0)) in IH by lia. exact IH.
Qed.
Lemma group_all ks : grouped ks (group_vehicles 0 ks []).
Proof.
  apply (group_grouped ks [] []). constructor; [constructor|intros k vs []|intros k []].
Qed.
(** The number of vehicles in all types. *)
Lemma flat_members_perm ks types : grouped ks types -> Permutation (flat_map snd types) (seq 0 (length ks)).
Proof.
  intros [Hn Hm Ha]. apply NoDup_Permutation.
  - clear Ha. induction types as [|[k vs] more IH]; [constructor|]. cbn [flat_map snd].
    inversion Hn; subst. assert (Hmore : forall k vs, In (k, vs) more -> vs = members ks k /\ vs <> []) by (intros; apply Hm; right; assumption).
    destruct (Hm k vs (or_introl eq_refl)) as [-> _].
    assert (G : forall v, In v (flat_map snd more) -> In (nth v ks dummy_key) (map fst more)).
    { intros v Hv. apply in_flat_map in Hv as ([k' vs'] & Hin & Hv). cbn [snd] in Hv. destruct (Hmore _ _ Hin) as [-> _].
      apply filter_In in Hv as [_ Hv]. apply vkey_eqb_eq in Hv. rewrite <- Hv. apply in_map_iff. eexists; split; [|exact Hin]. reflexivity. }
    assert (HN : NoDup (members ks k)) by (apply NoDup_filter, seq_NoDup).
    revert HN. intros HN. assert (HI := IH H2 Hmore). clear IH.
    assert (D : forall v, In v (members ks k) -> ~ In v (flat_map snd more)).
    { intros v Hv Hv'. apply filter_In in Hv as [_ Hv]. apply vkey_eqb_eq in Hv. apply G in Hv'. rewrite <- Hv in Hv'. auto. }
    clear - HN HI D. revert HN D. generalize (members ks k) as ms. induction ms as [|v vs IHv]; intros HN D; [exact HI|]. cbn [app]. inversion HN; subst. constructor.
    + intros Hin. apply in_app_or in Hin. destruct Hin as [Hin|Hin]; [auto|]. apply (D v); [left; reflexivity|exact Hin].
    + apply IHv; [assumption|]. intros w Hw. apply D. right. exact Hw.
  - apply seq_NoDup.
  - intros v. rewrite in_flat_map, in_seq. split.
    + intros ([k vs] & Hin & Hv). cbn [snd] in Hv. destruct (Hm _ _ Hin) as [-> _]. apply filter_In in Hv as [Hv _]. apply in_seq in Hv. lia.
    + intros Hv. pose proof (Ha (nth v ks dummy_key) ltac:(apply nth_In; lia)) as Hin. apply in_map_iff in Hin as ([k vs] & E & Hin). cbn [fst] in E. subst k.
      exists (nth v ks dummy_key, vs). split; [exact Hin|]. cbn [snd]. destruct (Hm _ _ Hin) as [-> _]. apply filter_In. split; [apply in_seq; lia|]. apply vkey_eqb_eq. reflexivity.
Qed.

(** ** Profiles *)
Lemma profiles_of_spec rows : forall seen, NoDup seen ->
  NoDup (profiles_of seen rows) /\ forall r, In r (profiles_of seen rows) <-> In r seen \/ In r rows.
Proof.
  induction rows as [|r rows IH]; intros seen Hn; cbn [profiles_of].
  - split; [exact Hn|]. intros r. cbn. tauto.
  - assert (Hex : existsb (zlist_eqb r) seen = true <-> In r seen).
    { rewrite existsb_exists. split; [intros (x & Hx & E); apply zlist_eqb_eq in E; subst; exact Hx|]. intros H. exists r. split; [exact H|]. apply zlist_eqb_eq. reflexivity. }
    destruct (existsb (zlist_eqb r) seen) eqn:E.
    + destruct (IH seen Hn) as [H1 H2]. split; [exact H1|]. intros x. rewrite H2. cbn [In]. assert (In r seen) by (apply Hex; reflexivity). intuition congruence.
    + assert (Hr : ~ In r seen) by (intros H; apply Hex in H; congruence).
      destruct (IH (seen ++ [r])) as [H1 H2].
      { apply (Permutation_NoDup (l := r :: seen)); [apply Permutation_cons_append|]. constructor; assumption. }
      split; [exact H1|]. intros x. rewrite H2, in_app_iff. cbn [In]. tauto.
Qed.
Lemma profile_idx_ok r l i : profile_idx r l = Ok i -> nth_error l i = Some r.
Proof.
  revert i. induction l as [|x l IH]; intros i; cbn [profile_idx]; [discriminate|].
  destruct (zlist_eqb r x) eqn:E; [intros [= <-]; apply zlist_eqb_eq in E; subst; reflexivity|].
  intros H. apply bind_ok in H as (j & Hj & [= <-]). cbn. apply IH, Hj.
Qed.
Lemma profile_idx_total r l : In r l -> exists i, profile_idx r l = Ok i.
Proof.
  induction l as [|x l IH]; intros []; cbn [profile_idx].
  - subst. rewrite (proj2 (zlist_eqb_eq r r) eq_refl). eauto.
  - destruct (zlist_eqb r x); [eauto|]. destruct (IH H) as [i ->]. cbn. eauto.
Qed.

(** ** Names *)
Lemma digits_no_comma ds : all_digits ds -> ~ In ","%char ds.
Proof. intros Hd Hin. unfold all_digits in Hd. rewrite Forall_forall in Hd. specialize (Hd _ Hin). discriminate. Qed.
Lemma print_nat_int v : print_int (Z.of_nat v) = print_nat (Z.of_nat v).
Proof. unfold print_int. destruct (Z.ltb_spec (Z.of_nat v) 0); [lia|reflexivity]. Qed.
Lemma split_comma cur s rest : ~ In ","%char s -> split_commas cur (s ++ ","%char :: rest) = (cur ++ s) :: split_commas [] rest.
Proof.
  revert cur. induction s as [|c s IH]; intros cur H; cbn [app split_commas].
  - rewrite Ascii.eqb_refl, app_nil_r. reflexivity.
  - destruct (Ascii.eqb_spec c ","); [subst; exfalso; apply H; left; reflexivity|].
    rewrite IH by (intros Hin; apply H; right; exact Hin). rewrite <- app_assoc. reflexivity.
Qed.
Lemma split_last cur s : ~ In ","%char s -> split_commas cur s = [cur ++ s].
Proof.
  revert cur. induction s as [|c s IH]; intros cur H; cbn [split_commas]; [rewrite app_nil_r; reflexivity|].
  destruct (Ascii.eqb_spec c ","); [subst; exfalso; apply H; left; reflexivity|].
  rewrite IH by (intros Hin; apply H; right; exact Hin). rewrite <- app_assoc. reflexivity.
Qed.
Lemma split_names vs : vs <> [] -> split_commas [] (join_names vs) = map (fun v => print_int (Z.of_nat v)) vs.
Proof.
  assert (P : forall v, ~ In ","%char (print_int (Z.of_nat v))).
  { intros v. rewrite print_nat_int. destruct (print_nat_spec (Z.of_nat v) ltac:(lia)) as (ds & -> & _ & Hd & _). apply digits_no_comma, Hd. }
  induction vs as [|v vs IH]; intros Hne; [congruence|]. destruct vs as [|w vs].
  - cbn [join_names map]. rewrite split_last by apply P. reflexivity.
  - cbn [join_names]. rewrite split_comma by apply P. cbn [app map]. f_equal. apply IH. discriminate.
Qed.
Lemma read_print v : read_int (print_int (Z.of_nat v)) = Ok (Z.of_nat v).
Proof.
  rewrite print_nat_int. destruct (print_nat_spec (Z.of_nat v) ltac:(lia)) as (ds & -> & H1 & H2 & <-). apply digits_read; assumption.
Qed.
Lemma mapM_map {A B C} (f : A -> B) (g : B -> res C) l : mapM g (map f l) = mapM (fun x => g (f x)) l.
Proof. induction l as [|x l IH]; [reflexivity|]. cbn [map mapM]. rewrite IH. reflexivity. Qed.
Lemma names_read v vs : vs <> [] -> v_name v = to_string (join_names vs) -> vehicles_of v = Ok (map Z.of_nat vs).
Proof.
  intros Hne E. unfold vehicles_of. rewrite E. unfold to_string. rewrite list_ascii_of_string_of_list_ascii, split_names by exact Hne.
  rewrite mapM_map. clear. induction vs as [|v vs IH]; [reflexivity|]. cbn [mapM map]. rewrite read_print, IH. reflexivity.
Qed.
