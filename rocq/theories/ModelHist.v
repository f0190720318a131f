(** The data that a sequence of calls on a model gives. *)
From Verif Require Import Base Data DataCtor ModelPy ModelSpec.

Record tracks (ops : list op) (m : pymodel) : Prop := mk_tracks {
  tk_location_ids : ids (mo_locations m) = location_ids ops;
  tk_depot_ids : ids (mo_depots m) = depot_ids ops;
  tk_group_ids : ids (mo_groups m) = group_ids ops;
  tk_profiles : mo_profiles m = map (fun id => (id, profile_edges id ops)) (profile_ids ops);
  tk_edges : mo_edges m = shared_edges ops;
  tk_locations : Forall2 location_added (location_calls ops) (map snd (mo_locations m));
  tk_clients : Forall2 (client_added ops) (client_calls ops) (mo_clients m);
  tk_shipments : Forall2 (shipment_added ops) (shipment_calls ops) (mo_shipments m);
  tk_depots : Forall2 (depot_added ops) (depot_calls ops) (map snd (mo_depots m));
  tk_groups : Forall2 (group_added ops) (group_calls ops) (map snd (mo_groups m));
  tk_groupids : map (fun o => match o with AddGroup id _ _ => id | _ => 0%nat end) (group_calls ops) = group_ids ops;
  tk_vehicles : Forall2 (vehicle_added ops) (vehicle_calls ops) (mo_vehicles m) }.

(** ** References stay *)
Lemma refers_app ids more i id : refers ids i id -> refers (ids ++ more) i id.
Proof. unfold refers. intros H. rewrite nth_error_app1; [exact H|]. apply nth_error_Some. congruence. Qed.
Lemma refers_first_app ids more i id : refers_or_first ids i id -> refers_or_first (ids ++ more) i id.
Proof. destruct id as [id|]; [apply refers_app|exact (fun H => H)]. Qed.
Lemma ids_app {A} (a b : list (nat * A)) : ids (a ++ b) = ids a ++ ids b.
Proof. apply map_app. Qed.
Lemma location_ids_app a b : location_ids (a ++ b) = location_ids a ++ location_ids b.
Proof. apply flat_map_app. Qed.
Lemma group_ids_app a b : group_ids (a ++ b) = group_ids a ++ group_ids b.
Proof. apply flat_map_app. Qed.
Lemma depot_ids_app a b : depot_ids (a ++ b) = depot_ids a ++ depot_ids b.
Proof. apply flat_map_app. Qed.
Lemma profile_ids_app a b : profile_ids (a ++ b) = profile_ids a ++ profile_ids b.
Proof. apply flat_map_app. Qed.
Lemma client_more ops more o c : client_added ops o c -> client_added (ops ++ more) o c.
Proof.
  destruct o; try exact (fun H => H). cbn [client_added]. rewrite location_ids_app, group_ids_app.
  intros (H1 & H2 & H3 & H4 & H5 & H6 & H7 & H8 & H9 & H10 & H11). repeat (split; [first [assumption|apply refers_app; assumption]|]).
  destruct group as [g|]; [|exact H11]. destruct H11 as (i & -> & Hi). exists i. split; [reflexivity|apply refers_app, Hi].
Qed.
Lemma shipment_more ops more o s : shipment_added ops o s -> shipment_added (ops ++ more) o s.
Proof.
  destruct o; try exact (fun H => H). cbn [shipment_added]. rewrite location_ids_app. intros (H1 & H2 & H3).
  split; [apply refers_app, H1|]. split; [apply refers_app, H2|exact H3].
Qed.
Lemma depot_more ops more o x : depot_added ops o x -> depot_added (ops ++ more) o x.
Proof. destruct o; try exact (fun H => H). cbn [depot_added]. rewrite location_ids_app. intros (H1 & H2). split; [apply refers_app, H1|exact H2]. Qed.
Lemma Forall2_imp {A B} (P Q : A -> B -> Prop) l l' : (forall a b, P a b -> Q a b) -> Forall2 P l l' -> Forall2 Q l l'.
Proof. intros H. induction 1; constructor; auto. Qed.
Lemma Forall2_len {A B} (P : A -> B -> Prop) l l' : Forall2 P l l' -> length l = length l'.
Proof. induction 1; cbn; congruence. Qed.
Lemma vehicle_more ops more o v : vehicle_added ops o v -> vehicle_added (ops ++ more) o v.
Proof.
  destruct o; try exact (fun H => H). cbn [vehicle_added]. rewrite depot_ids_app, profile_ids_app.
  intros (H1 & H2 & H3 & H4 & H5 & H6 & H7 & H8 & H9 & H10 & H11 & H12 & H13 & H14 & H15 & H16).
  repeat (split; [first [assumption|apply refers_first_app; assumption]|]).
  split; [|exact H16]. eapply Forall2_imp; [|exact H15]. intros a b. apply refers_app.
Qed.
(** Groups change only when a client is added. *)
Lemma client_calls_app a b : client_calls (a ++ b) = client_calls a ++ client_calls b.
Proof. apply filter_app. Qed.
Lemma group_more ops o' o g : client_calls [o'] = [] -> group_added ops o g -> group_added (ops ++ [o']) o g.
Proof.
  intros E. destruct o; try exact (fun H => H). cbn [group_added].
  unfold in_group. rewrite client_calls_app, E, app_nil_r. exact (fun H => H).
Qed.
Lemma in_group_old ops o' id i : (i < length (client_calls ops))%nat -> in_group (ops ++ [o']) id i = in_group ops id i.
Proof. intros H. unfold in_group. rewrite client_calls_app, nth_error_app1 by exact H. reflexivity. Qed.
Lemma members_more ops o' id : client_calls [o'] = [o'] ->
  filter (in_group (ops ++ [o']) id) (seq 0 (length (client_calls (ops ++ [o'])))) =
  filter (in_group ops id) (seq 0 (length (client_calls ops))) ++
  if match o' with AddClient _ _ _ _ _ _ _ _ _ (Some g) _ => (g =? id)%nat | _ => false end then [length (client_calls ops)] else [].
Proof.
  intros E. rewrite client_calls_app, E, app_length. cbn [length]. rewrite seq_app, filter_app. cbn [seq filter Nat.add]. f_equal.
  - apply filter_ext_in. intros i Hi. apply in_seq in Hi. apply in_group_old. lia.
  - unfold in_group. rewrite client_calls_app, E, nth_error_app2, Nat.sub_diag by lia. cbn [nth_error]. destruct o'; reflexivity.
Qed.

(** ** Profiles *)
Lemma own_app id a b : own_edges id (a ++ b) = own_edges id a ++ own_edges id b.
Proof. apply flat_map_app. Qed.
Lemma profile_edges_app id a b :
  profile_edges id (a ++ b) = if existsb (Nat.eqb id) (profile_ids a) then profile_edges id a ++ own_edges id b else profile_edges id b.
Proof.
  induction a as [|o a IH]; [reflexivity|]. destruct o; cbn [app profile_edges profile_ids flat_map]; try exact IH.
  fold (profile_ids a). cbn [existsb app]. rewrite (Nat.eqb_sym id id0). destruct (id0 =? id)%nat; [|exact IH]. apply own_app.
Qed.
Lemma profiles_same ops o : profile_ids [o] = [] -> (forall id, In id (profile_ids ops) -> own_edges id [o] = []) ->
  map (fun id => (id, profile_edges id (ops ++ [o]))) (profile_ids (ops ++ [o])) = map (fun id => (id, profile_edges id ops)) (profile_ids ops).
Proof.
  intros E Ho. rewrite profile_ids_app, E, app_nil_r. apply map_ext_in. intros id Hid. f_equal.
  rewrite profile_edges_app. assert (Ex : existsb (Nat.eqb id) (profile_ids ops) = true) by (apply existsb_exists; exists id; split; [exact Hid|apply Nat.eqb_refl]).
  rewrite Ex, (Ho id Hid), app_nil_r. reflexivity.
Qed.

(** ** Inversion of the constructors *)
Lemma bind_ok {A B} (x : res A) (f : A -> res B) y : bind x f = Ok y -> exists a, x = Ok a /\ f a = Ok y.
Proof. destruct x as [a|e]; [|discriminate]. intros H. exists a. split; [reflexivity|exact H]. Qed.
Lemma checked_ok {A} l (x y : A) : checked l x = Ok y -> y = x.
Proof. unfold checked. destruct (first_fail l); congruence. Qed.
Lemma known_refers {A} id (l : list (nat * A)) i : ModelPy.known id l = Ok i -> refers (ids l) i id.
Proof.
  unfold ModelPy.known. destruct (idx_by_id id l) as [j|] eqn:E; [|discriminate]. intros [= <-]. apply idx_by_id_some in E as [Hj <-].
  apply nth_error_nth'. unfold ids. rewrite map_length. exact Hj.
Qed.
Lemma known_first {A} id (l : list (nat * A)) i : known_or_first id l = Ok i -> refers_or_first (ids l) i id.
Proof. destruct id as [id|]; cbn; [apply known_refers|congruence]. Qed.
Lemma known_list {A} is (l : list (nat * A)) js : known_all is l = Ok js -> Forall2 (refers (ids l)) js is.
Proof.
  revert js. induction is as [|i is IH]; intros js H; cbn in H; [injection H as <-; constructor|].
  apply bind_ok in H as (j & Hj & H). apply bind_ok in H as (js' & Hs & H). injection H as <-. constructor; [apply known_refers, Hj|apply IH, Hs].
Qed.
Lemma pad_same a b : same_load (pad a b) a.
Proof. intros dim. apply pad_nth. Qed.

(** The group that a client joins. *)
Lemma groups_upd ops o' gs calls : client_calls [o'] = [o'] -> forall i g,
  Forall2 (group_added ops) calls (map snd gs) ->
  NoDup (map (fun o => match o with AddGroup id _ _ => id | _ => 0%nat end) calls) ->
  (i < length gs)%nat ->
  match o' with
  | AddClient _ _ _ _ _ _ _ _ _ (Some id) _ => nth i (map (fun o => match o with AddGroup id _ _ => id | _ => 0%nat end) calls) 0%nat = id
  | _ => False
  end ->
  g_required g = g_required (snd (nth i gs (0%nat, dummy_group))) -> g_name g = g_name (snd (nth i gs (0%nat, dummy_group))) ->
  g_clients g = g_clients (snd (nth i gs (0%nat, dummy_group))) ++ [length (client_calls ops)] ->
  Forall2 (group_added (ops ++ [o'])) calls (map snd (upd gs i (fst (nth i gs (0%nat, dummy_group)), g))).
Proof.
  intros E. revert gs. induction calls as [|o calls IH]; intros gs i g HF Hn Hi Ho' Hr Hm Hc.
  { destruct gs; [cbn in Hi; lia|inversion HF]. }
  destruct gs as [|[id0 g0] gs]; [inversion HF|]. cbn [map snd] in HF. inversion HF as [|? ? ? ? H0 HF']; subst. cbn [map] in Hn. inversion Hn as [|? ? Hnin Hn']; subst.
  destruct i as [|i]; cbn [upd map nth fst snd] in *.
  - constructor.
    + destruct o; try contradiction H0. cbn [group_added] in *. destruct H0 as (A1 & A2 & A3). rewrite Hr, Hm, Hc, A1, A2, A3, members_more by exact E.
      split; [reflexivity|]. split; [reflexivity|]. destruct o'; try contradiction. destruct group as [gid|]; [|contradiction]. subst gid. rewrite Nat.eqb_refl. reflexivity.
    + clear IH. clear - HF' E Ho' Hnin. revert HF'. generalize (map snd gs) as l. clear gs. intros l HF.
      assert (G : forall o g, In o calls -> group_added ops o g -> group_added (ops ++ [o']) o g).
      { intros o1 g1 Hin H1. destruct o1; try contradiction H1. cbn [group_added] in *. rewrite members_more by exact E. destruct H1 as (B1 & B2 & B3).
        split; [exact B1|]. split; [exact B2|]. rewrite B3. destruct o'; try contradiction. destruct group as [gid|]; [|contradiction].
        destruct (Nat.eqb_spec gid id) as [->|_]; [|rewrite app_nil_r; reflexivity]. exfalso. apply Hnin. rewrite Ho'. apply in_map_iff. exists (AddGroup id required name). split; [reflexivity|exact Hin]. }
      clear Hnin Ho' E. induction HF as [|o1 g1 os gs1 H1 HF IH]; constructor.
      * apply G; [left; reflexivity|exact H1].
      * apply IH. intros o2 g2 Hin. apply G. right. exact Hin.
  - constructor.
    + destruct o; try contradiction H0. cbn [group_added] in *. destruct H0 as (A1 & A2 & A3). split; [exact A1|]. split; [exact A2|].
      rewrite members_more, A3 by exact E. destruct o'; try contradiction. destruct group as [gid|]; [|contradiction].
      destruct (Nat.eqb_spec gid id) as [->|_]; [|rewrite app_nil_r; reflexivity]. exfalso. apply Hnin. rewrite <- Ho'. apply nth_In.
      rewrite map_length. pose proof (Forall2_len _ _ _ HF') as Hl. rewrite map_length in Hl. rewrite Hl. cbn in Hi. lia.
    + apply IH; try assumption. cbn in Hi. lia.
Qed.

Lemma model_of_calls ops m : after ops m -> model_built m.
Proof. induction 1 as [|ops m o m' H IH Hf Hi Hs]; [constructor|]. econstructor; eassumption. Qed.

Lemma location_calls_app a b : location_calls (a ++ b) = location_calls a ++ location_calls b. Proof. apply filter_app. Qed.
Lemma shipment_calls_app a b : shipment_calls (a ++ b) = shipment_calls a ++ shipment_calls b. Proof. apply filter_app. Qed.
Lemma depot_calls_app a b : depot_calls (a ++ b) = depot_calls a ++ depot_calls b. Proof. apply filter_app. Qed.
Lemma group_calls_app a b : group_calls (a ++ b) = group_calls a ++ group_calls b. Proof. apply filter_app. Qed.
Lemma vehicle_calls_app a b : vehicle_calls (a ++ b) = vehicle_calls a ++ vehicle_calls b. Proof. apply filter_app. Qed.
Lemma shared_edges_app a b : shared_edges (a ++ b) = shared_edges a ++ shared_edges b. Proof. apply flat_map_app. Qed.
Ltac fields :=
  constructor; cbn [mo_locations mo_clients mo_depots mo_edges mo_groups mo_shipments mo_profiles mo_vehicles];
  rewrite ?location_calls_app, ?shipment_calls_app, ?depot_calls_app, ?group_calls_app, ?vehicle_calls_app, ?shared_edges_app,
    ?client_calls_app, ?location_ids_app, ?group_ids_app, ?depot_ids_app, ?ids_app;
  cbn [location_calls shipment_calls depot_calls group_calls vehicle_calls shared_edges client_calls location_ids group_ids depot_ids ids filter flat_map app map fst snd];
  rewrite ?app_nil_r, ?map_app; cbn [map snd fst];
  try first [assumption | reflexivity | solve [auto] | solve [f_equal; auto]].
Lemma Forall2_snoc {A B} (P : A -> B -> Prop) l l' a b : Forall2 P l l' -> P a b -> Forall2 P (l ++ [a]) (l' ++ [b]).
Proof. intros H1 H2. apply Forall2_app; [exact H1|constructor; [exact H2|constructor]]. Qed.

(** No client was added to a group that is not there yet. *)
Lemma no_members ops o clients id : Forall2 (client_added ops) (client_calls ops) clients -> ~ In id (group_ids ops) -> client_calls [o] = [] ->
  filter (in_group (ops ++ [o]) id) (seq 0 (length (client_calls (ops ++ [o])))) = [].
Proof.
  intros HF Hid E. rewrite client_calls_app, E, app_nil_r.
  rewrite (filter_ext_in _ (fun _ => false)); [clear; generalize (seq 0 (length (client_calls ops))) as l; induction l as [|x l IH]; [reflexivity|exact IH]|].
  intros i Hi. apply in_seq in Hi. rewrite in_group_old by lia. unfold in_group. destruct (nth_error (client_calls ops) i) as [o0|] eqn:En; [|reflexivity].
  assert (Hc : exists c, client_added ops o0 c).
  { clear - HF En. revert i En. induction HF as [|a b l l' H HF IH]; intros [|i] En; cbn in En; try discriminate; [injection En as <-; eauto|eauto]. }
  destruct Hc as (c & Hc). destruct o0; try contradiction. destruct group as [g|]; [|reflexivity]. cbn [client_added] in Hc.
  destruct Hc as (_ & _ & _ & _ & _ & _ & _ & _ & _ & _ & (k & _ & Hk)). apply Nat.eqb_neq. intros ->. apply Hid. apply nth_error_In in Hk. exact Hk.
Qed.
Lemma profile_edges_none id ops : ~ In id (profile_ids ops) -> profile_edges id ops = [].
Proof.
  induction ops as [|o ops IH]; [reflexivity|]. destruct o; cbn [profile_edges]; try exact IH. cbn [profile_ids flat_map app]. fold (profile_ids ops). intros H.
  destruct (Nat.eqb_spec id0 id) as [->|Hne]; [exfalso; apply H; left; reflexivity|]. apply IH. intros Hin. apply H. right. exact Hin.
Qed.
Lemma profiles_new ops id : ~ In id (profile_ids ops) ->
  map (fun i => (i, profile_edges i (ops ++ [AddProfile id]))) (profile_ids (ops ++ [AddProfile id])) =
  map (fun i => (i, profile_edges i ops)) (profile_ids ops) ++ [(id, [])].
Proof.
  intros H. rewrite profile_ids_app. cbn [profile_ids flat_map app]. rewrite map_app. cbn [map]. f_equal.
  - apply map_ext_in. intros i Hi. f_equal. rewrite profile_edges_app.
    assert (Ex : existsb (Nat.eqb i) (profile_ids ops) = true) by (apply existsb_exists; exists i; split; [exact Hi|apply Nat.eqb_refl]).
    rewrite Ex. apply app_nil_r.
  - f_equal. f_equal. rewrite profile_edges_app. destruct (existsb (Nat.eqb id) (profile_ids ops)) eqn:Ex.
    + apply existsb_exists in Ex as (x & Hx & Ex). apply Nat.eqb_eq in Ex. subst x. contradiction.
    + cbn [profile_edges own_edges flat_map]. rewrite Nat.eqb_refl. reflexivity.
Qed.
Lemma profiles_edge ops a b x y p :
  map (fun i => (i, profile_edges i (ops ++ [AddEdge a b x y (Some p)]))) (profile_ids (ops ++ [AddEdge a b x y (Some p)])) =
  add_to_profile p (mk_edge a b x y) (map (fun i => (i, profile_edges i ops)) (profile_ids ops)).
Proof.
  rewrite profile_ids_app. cbn [profile_ids flat_map]. rewrite app_nil_r. unfold add_to_profile. rewrite map_map. apply map_ext_in. intros i Hi. cbn [fst snd].
  rewrite profile_edges_app.
  assert (Ex : existsb (Nat.eqb i) (profile_ids ops) = true) by (apply existsb_exists; exists i; split; [exact Hi|apply Nat.eqb_refl]).
  rewrite Ex. cbn [own_edges flat_map]. rewrite (Nat.eqb_sym i p). destruct (p =? i)%nat; rewrite ?app_nil_r; reflexivity.
Qed.

Theorem tracked ops m : after ops m -> tracks ops m.
Proof.
  induction 1 as [|ops m o m' H IH Hf Hi Hs]; [constructor; try reflexivity; constructor|].
  pose proof (model_built_ok m (model_of_calls ops m H)) as OK.
  assert (Hgn : NoDup (group_ids ops)) by (rewrite <- (tk_group_ids _ _ IH); apply (mk_group_ids _ OK)).
  assert (Hpn : NoDup (profile_ids ops)).
  { pose proof (mk_profile_ids _ OK) as Hp. rewrite (tk_profiles _ _ IH) in Hp. unfold ids in Hp. rewrite map_map, map_id in Hp. exact Hp. }
  clear OK H Hi. destruct m as [locs clients depots edges groups shipments profiles vehicles].
  destruct IH as [I1 I2 I3 I4 I5 I6 I7 I8 I9 I10 I11 I12]. cbn [mo_locations mo_clients mo_depots mo_edges mo_groups mo_shipments mo_profiles mo_vehicles] in *.
  pose proof (Forall2_imp _ _ _ _ (client_more ops [o]) I7) as J7.
  pose proof (Forall2_imp _ _ _ _ (shipment_more ops [o]) I8) as J8.
  pose proof (Forall2_imp _ _ _ _ (depot_more ops [o]) I9) as J9.
  pose proof (Forall2_imp _ _ _ _ (vehicle_more ops [o]) I12) as J12.
  assert (J10 : client_calls [o] = [] -> Forall2 (group_added (ops ++ [o])) (group_calls ops) (map snd groups)).
  { intros E. eapply Forall2_imp; [|exact I10]. intros a b. apply group_more, E. }
  unfold ModelPy.step in Hs. destruct o; cbn [fresh] in Hf.
  - injection Hs as <-. fields.
    + rewrite profiles_same by reflexivity. exact I4.
    + apply Forall2_snoc; [exact I6|reflexivity].
  - cbn in Hs. injection Hs as <-. fields.
    + rewrite profiles_same by reflexivity. exact I4.
    + apply Forall2_snoc; [apply J10; reflexivity|]. cbn [group_added g_required g_name g_clients]. split; [reflexivity|]. split; [reflexivity|].
      symmetry. apply (no_members ops _ clients); [exact I7| |reflexivity]. rewrite <- I3. exact Hf.
  - injection Hs as <-. fields. rewrite profiles_new, <- I4; [reflexivity|]. cbn [mo_profiles] in Hf. rewrite I4 in Hf. unfold ids in Hf. rewrite map_map, map_id in Hf. exact Hf.
  - apply bind_ok in Hs as (gi & Hg & Hs). apply bind_ok in Hs as (l & Hl & Hs).
    assert (Hrel : match group with None => gi = None | Some g => exists i, gi = Some i /\ refers (ids groups) i g end).
    { destruct group as [g|]; [|congruence]. apply bind_ok in Hg as (i & Hk & Hg). exists i. split; [congruence|apply known_refers, Hk]. }
    clear Hg. apply known_refers in Hl. destruct (required && match gi with Some _ => true | None => false end); [discriminate|].
    apply bind_ok in Hs as (c & Hc & Hs). unfold make_client in Hc. apply checked_ok in Hc.
    assert (Hadd : client_added (ops ++ [AddClient location delivery pickup service early late release prize required group name])
                     (AddClient location delivery pickup service early late release prize required group name) c).
    { subst c. cbn [client_added c_loc c_delivery c_pickup c_service c_early c_late c_release c_prize c_required c_name c_group].
      rewrite location_ids_app, group_ids_app, <- I1, <- I3.
      split; [apply refers_app, Hl|]. split; [intros dim; rewrite !pad_nth; reflexivity|]. split; [intros dim; rewrite !pad_nth; reflexivity|].
      repeat (split; [reflexivity|]). destruct group as [g|]; [|exact Hrel]. destruct Hrel as (i & -> & Hi). exists i. split; [reflexivity|apply refers_app, Hi]. }
    destruct gi as [i|].
    + apply bind_ok in Hs as (g & Hg & Hs). injection Hs as <-. destruct group as [gid|]; [|discriminate]. destruct Hrel as (i' & [= <-] & Hi).
      unfold add_client in Hg. destruct (existsb (Nat.eqb (length clients)) (g_clients (snd (nth i groups (0%nat, dummy_group))))); [discriminate|]. injection Hg as <-.
      assert (Hil : (i < length groups)%nat). { unfold refers in Hi. rewrite <- (map_length fst groups). apply nth_error_Some. unfold ids in Hi. congruence. }
      fields.
      * rewrite <- I3. clear - Hil. revert i Hil. induction groups as [|x gs IH]; intros [|i] Hi; cbn in Hi |- *; try lia; [reflexivity|]. f_equal. apply IH. lia.
      * rewrite profiles_same by reflexivity. exact I4.
      * apply Forall2_snoc; [exact J7|exact Hadd].
      * apply groups_upd; try reflexivity; try assumption.
        -- rewrite I11. exact Hgn.
        -- rewrite I11, <- I3. apply nth_error_nth. exact Hi.
        -- cbn [g_clients]. rewrite (Forall2_len _ _ _ I7). reflexivity.
    + injection Hs as <-. destruct group as [gid|]; [destruct Hrel as (? & [=] & _)|]. fields.
      * rewrite profiles_same by reflexivity. exact I4.
      * apply Forall2_snoc; [exact J7|exact Hadd].
      * eapply Forall2_imp; [|exact I10]. intros o g Ho. destruct o; try contradiction. cbn [group_added] in *. rewrite members_more by reflexivity. rewrite app_nil_r. exact Ho.
  - apply bind_ok in Hs as (p & Hp & Hs). apply bind_ok in Hs as (q & Hq & Hs). apply bind_ok in Hs as (x & Hx & Hs). injection Hs as <-.
    apply known_refers in Hp, Hq. unfold make_shipment, make_step in Hx.
    destruct (checked _ (mk_step p pearly plate pservice)) as [sp|] eqn:Ep; [|discriminate]. apply checked_ok in Ep.
    destruct (checked _ (mk_step q dearly dlate dservice)) as [sd|] eqn:Ed; [|discriminate]. apply checked_ok in Ed. apply checked_ok in Hx. subst sp sd x.
    fields.
    + rewrite profiles_same by reflexivity. exact I4.
    + apply Forall2_snoc; [exact J8|]. cbn [shipment_added s_pickup s_delivery st_loc st_early st_late st_service s_amount s_prize s_required s_name].
      rewrite location_ids_app, <- I1. repeat (split; [first [reflexivity|apply refers_app; assumption]|]). reflexivity.
  - apply bind_ok in Hs as (l & Hl & Hs). apply bind_ok in Hs as (x & Hx & Hs). injection Hs as <-. apply known_refers in Hl. apply checked_ok in Hx. subst x. fields.
    + rewrite profiles_same by reflexivity. exact I4.
    + apply Forall2_snoc; [exact J9|]. cbn [depot_added d_loc d_early d_late d_service d_name]. rewrite location_ids_app, <- I1.
      split; [apply refers_app, Hl|]. repeat (split; [reflexivity|]). reflexivity.
  - apply bind_ok in Hs as (e & He & Hs). apply make_edge_spec in He as [_ ->]. destruct profile as [p|]; injection Hs as <-; fields.
    + rewrite profiles_edge, <- I4. reflexivity.
    + rewrite profiles_same by reflexivity. exact I4.
  - apply bind_ok in Hs as (a & Ha & Hs). apply bind_ok in Hs as (b & Hb & Hs). apply bind_ok in Hs as (p & Hp & Hs). apply bind_ok in Hs as (rs & Hr & Hs).
    apply bind_ok in Hs as (v & Hv & Hs). injection Hs as <-. apply known_first in Ha, Hb, Hp. apply known_list in Hr. apply checked_ok in Hv. fields.
    + rewrite profiles_same by reflexivity. exact I4.
    + apply Forall2_snoc; [exact J12|]. subst v.
      cbn [vehicle_added v_numAvailable v_capacity v_start v_end v_fixedCost v_early v_late v_shift v_maxDistance v_unitDistance v_unitDuration v_profile v_startLate v_initialLoad v_reload v_maxReloads v_maxOvertime v_unitOvertime v_name].
      rewrite depot_ids_app, profile_ids_app, <- I2. rewrite I4 in Hp. unfold ids in Hp. rewrite map_map, map_id in Hp.
      split; [reflexivity|]. split; [intros dim; rewrite !pad_nth; reflexivity|].
      repeat (split; [first [reflexivity|apply refers_first_app; assumption]|]).
      split; [intros dim; rewrite !pad_nth; reflexivity|]. split; [eapply Forall2_imp; [|exact Hr]; intros ? ?; apply refers_app|].
      repeat (split; [reflexivity|]). reflexivity.
Qed.

Theorem calls_described ops m missing d : after ops m -> model_data m missing = Ok d -> described ops missing d.
Proof.
  intros H Hd. pose proof (tracked ops m H) as T. pose proof (model_of_calls ops m H) as B.
  destruct (model_data_edges m missing d B Hd) as [Hl He].
  assert (Hparts : p_locations d = map snd (mo_locations m) /\ p_clients d = mo_clients m /\ p_depots d = map snd (mo_depots m) /\
    p_vehicles d = mo_vehicles m /\ p_groups d = map snd (mo_groups m) /\ p_shipments d = mo_shipments m /\ length (p_durs d) = length (p_dists d)).
  { unfold model_data in Hd. apply bind_ok in Hd as (base & _ & Hd). apply bind_ok in Hd as (dds & _ & Hd).
    unfold make_pdata in Hd. apply checked_ok in Hd. subst d. cbn. rewrite !map_length. tauto. }
  destruct Hparts as (P1 & P2 & P3 & P4 & P5 & P6 & P7). destruct T as [I1 I2 I3 I4 I5 I6 I7 I8 I9 I10 I11 I12].
  assert (Hnp : length (mo_profiles m) = length (profile_ids ops)) by (rewrite I4, map_length; reflexivity).
  constructor; rewrite ?P1, ?P2, ?P3, ?P4, ?P5, ?P6; try assumption.
  - rewrite P7, Hl. unfold num_profiles. rewrite Hnp. split; reflexivity.
  - intros p i j a b Hp Ha Hb. cbv zeta. rewrite <- Hnp in Hp. unfold refers in Ha, Hb. rewrite <- I1 in Ha, Hb.
    assert (Hlt : forall i a, nth_error (ids (mo_locations m)) i = Some a -> (i < length (mo_locations m))%nat /\ id_at m i = a).
    { intros i0 a0 E. split; [rewrite <- (map_length fst (mo_locations m)); apply nth_error_Some; unfold ids in E; congruence|].
      unfold id_at. apply nth_error_nth. exact E. }
    destruct (Hlt i a Ha) as [Hi Ea], (Hlt j b Hb) as [Hj Eb]. specialize (He p i j Hp Hi Hj). cbv zeta in He. unfold last_or, edges_between, applicable_edges in He. rewrite Ea, Eb, I4, I5 in He.
    replace (snd (nth p (map (fun id => (id, profile_edges id ops)) (profile_ids ops)) (0%nat, []))) with
      (match nth_error (profile_ids ops) p with Some id => profile_edges id ops | None => [] end) in He; [exact He|].
    destruct (nth_error (profile_ids ops) p) as [id|] eqn:En.
    + rewrite (nth_error_nth (map _ _) p (0%nat, []) (map_nth_error _ _ _ En)). reflexivity.
    + apply nth_error_None in En. rewrite nth_overflow by (rewrite map_length; exact En). reflexivity.
Qed.

Lemma known_missing {A} id (l : list (nat * A)) : ~ In id (ids l) -> ModelPy.known id l = Err InvalidArgument.
Proof. intros H. unfold ModelPy.known. rewrite (proj2 (idx_by_id_none id l) H). reflexivity. Qed.
Lemma known_err {A} id (l : list (nat * A)) e : ModelPy.known id l = Err e -> e = InvalidArgument.
Proof. unfold ModelPy.known. destruct (idx_by_id id l); congruence. Qed.
Lemma bind_err {A B} (x : res A) (f : A -> res B) (e : exn) : (forall e', x = Err e' -> e' = e) -> (forall a, x = Ok a -> f a = Err e) -> bind x f = Err e.
Proof. destruct x as [a|e']; cbn; intros H1 H2; [apply H2; reflexivity|rewrite (H1 e' eq_refl); reflexivity]. Qed.
Lemma first_err {A} id (l : list (nat * A)) e : known_or_first id l = Err e -> e = InvalidArgument.
Proof. destruct id as [id|]; cbn; [apply known_err|discriminate]. Qed.
Lemma first_missing {A} id (l : list (nat * A)) : missing_ref (ids l) id -> known_or_first id l = Err InvalidArgument.
Proof. destruct id as [id|]; cbn; [apply known_missing|intros []]. Qed.
Lemma all_err {A} is (l : list (nat * A)) e : known_all is l = Err e -> e = InvalidArgument.
Proof.
  induction is as [|i is IH]; cbn; [discriminate|]. destruct (ModelPy.known i l) eqn:E; cbn; [|intros [= <-]; eapply known_err; exact E].
  destruct (known_all is l); cbn; [discriminate|exact IH].
Qed.
Lemma all_missing {A} is (l : list (nat * A)) r : In r is -> ~ In r (ids l) -> known_all is l = Err InvalidArgument.
Proof.
  induction is as [|i is IH]; intros []; intros Hr; cbn.
  - subst i. rewrite known_missing by exact Hr. reflexivity.
  - apply bind_err; [apply known_err|]. intros j _. rewrite IH by assumption. reflexivity.
Qed.
Theorem unknown_rejected ops m o : after ops m -> unknown_reference ops o -> ModelPy.step m o = Err InvalidArgument.
Proof.
  intros H Hu. destruct (tracked ops m H) as [I1 I2 I3 I4 _ _ _ _ _ _ _ _]. clear H.
  assert (I4' : ids (mo_profiles m) = profile_ids ops) by (rewrite I4; unfold ids; rewrite map_map, map_id; reflexivity). clear I4.
  destruct m as [locs clients depots edges groups shipments profiles vehicles]. cbn [mo_locations mo_depots mo_groups mo_profiles] in *.
  unfold ModelPy.step. destruct o; try (exfalso; exact Hu); cbn [unknown_reference] in Hu; rewrite <- ?I1, <- ?I2, <- ?I3, <- ?I4' in Hu.
  - apply bind_err.
    + intros e. destruct group as [g|]; [|discriminate]. destruct (ModelPy.known g groups) eqn:E; cbn; [discriminate|]. intros [= <-]. eapply known_err; exact E.
    + intros gi Hg. destruct Hu as [Hu|Hu]; [|rewrite known_missing by exact Hu; reflexivity].
      destruct group as [g|]; [|contradiction]. rewrite known_missing in Hg by exact Hu. discriminate.
  - apply bind_err; [apply known_err|]. intros p Hp. destruct Hu as [Hu|Hu]; [rewrite known_missing in Hp by exact Hu; discriminate|].
    rewrite known_missing by exact Hu. reflexivity.
  - cbn beta. rewrite known_missing by exact Hu. reflexivity.
  - apply bind_err; [apply first_err|]. intros a Ha. apply bind_err; [apply first_err|]. intros b Hb. apply bind_err; [apply first_err|]. intros p Hp.
    cbn beta. apply bind_err; [apply all_err|]. intros rs Hr. exfalso. destruct Hu as [Hu|[Hu|[Hu|(r & Hr1 & Hr2)]]].
    + rewrite first_missing in Ha by exact Hu. discriminate.
    + rewrite first_missing in Hb by exact Hu. discriminate.
    + rewrite first_missing in Hp by exact Hu. discriminate.
    + rewrite (all_missing reload depots r Hr1 Hr2) in Hr. discriminate.
Qed.
