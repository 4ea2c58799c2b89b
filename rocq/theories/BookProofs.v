From Verif Require Export BookSpans PagesProofs TableUtilsProofs.
From Verif Require Import T_Table SheetProofs.

(** ** Trees that stay *)
Lemma kids_in a (ks : list node) : Forall (fun k => forall z, z ∈ ids k -> z ∈ ids (T a ks)) ks.
Proof.
  apply Forall_forall. intros k Hk z Hz. rewrite ids_T. right. apply elem_of_list_In, in_flat_map. exists k. split; by apply elem_of_list_In.
Qed.
Lemma sub_ext w w' x t : wfs w -> wfs w' -> sub x w = Some t ->
  (forall z, z ∈ ids t -> z ∈ ids w' /\ children z w' = children z w /\ data z w' = data z w) -> sub x w' = Some t.
Proof.
  intros Hw Hw'. revert x. induction t as [a ks IH] using tree_ind'. intros x Hx H.
  pose proof (sub_nid _ _ _ Hx) as Hn. pose proof (nid_in (T a ks)) as Hin. rewrite Hn in Hin. destruct (H x Hin) as (H1 & H2 & H3).
  destruct (sub_total _ _ H1) as [[a' ks'] Ht']. pose proof (sub_nid _ _ _ Ht') as Hn'. rewrite Ht'. f_equal.
  unfold children in H2. unfold data in H3. rewrite Hx, Ht' in H2, H3. cbn in H2, H3, Hn, Hn'. injection H3 as H3.
  assert (Ea : a' = a) by (destruct a, a'; cbn in *; congruence). subst a'. f_equal.
  assert (Hk : Forall (fun k => sub (nid k) w = Some k) ks).
  { apply Forall_forall. intros k Hk. apply (el_kids_sub w x); [done|]. unfold el_kids. by rewrite Hx. }
  assert (Hk' : Forall (fun k => sub (nid k) w' = Some k) ks').
  { apply Forall_forall. intros k Hk2. apply (el_kids_sub w' x); [done|]. unfold el_kids. by rewrite Ht'. }
  clear Hx Ht' Hn Hin H1 Hn'. revert ks' H2 Hk'. induction IH as [|k ks I0 _ I1]; intros [|k' ks'] H2 Hk'; try done.
  cbn in H2. injection H2 as E1 E2. apply Forall_cons in Hk as [K0 K1], Hk' as [K0' K1']. pose proof (kids_in a (k :: ks)) as [S0 _]%Forall_cons.
  f_equal.
  - specialize (I0 (nid k) K0 (fun z Hz => H z (S0 z Hz))). rewrite E1, I0 in K0'. congruence.
  - assert (H' : forall z, z ∈ ids (T a ks) -> z ∈ ids w' /\ children z w' = children z w /\ data z w' = data z w).
    { intros z Hz. apply H. rewrite ids_T in *. cbn [flat_map]. apply elem_of_cons in Hz as [->|Hz]; [by left|right; apply elem_of_app; by right]. }
    by apply I1.
Qed.

Lemma frame_rows W W' (t t' : node) r : grow W W' -> NoDup (ids (plug W' [t'])) -> r ∈ view (plug W [t']) -> rid r <> nid_ (croot W) -> r ∈ view (plug W' [t']).
Proof.
  induction 1 as [|W' d Hg IH]; intros Hn Hr Hne; [done|]. rewrite <- add_root_plug in *. rewrite ids_add_root in Hn. apply NoDup_app in Hn as (Hn & _).
  apply add_root_rows; [done|]. right. split; [by apply IH|]. rewrite nid_plug. revert Hne. clear -Hg. induction Hg as [|W' d' Hg IH]; [done|]. by rewrite croot_cadd.
Qed.
Lemma grow_NoDup W W' (t : node) : grow W W' -> NoDup (ids (plug W' [t])) -> NoDup (ids (plug W [t])).
Proof.
  induction 1 as [|W' d Hg IH]; intros Hn; [done|]. rewrite <- add_root_plug, ids_add_root in Hn. apply NoDup_app in Hn as (Hn & _). by apply IH.
Qed.
(** What is not in the table stays. *)
Lemma frame W W' (t t' : node) z : grow W W' -> nid t' = nid t -> NoDup (ids (plug W [t])) -> NoDup (ids (plug W' [t'])) ->
  element z (plug W [t]) -> z ∉ ids t ->
  element z (plug W' [t']) /\ children z (plug W' [t']) = children z (plug W [t]) /\ data z (plug W' [t']) = data z (plug W [t]) /\ z ∉ ids t'.
Proof.
  intros Hg Hn Hd Hd' He Hz. pose proof (proj1 (element_ids _ _ Hd) He) as [Hi Hr].
  destruct (view_at _ _ Hi) as (d & Hv & Ed). rewrite view_plug in Hv. cbn [map flat_map] in Hv. rewrite app_nil_r in Hv.
  assert (Hv' : (z, d, children z (plug W [t])) ∈ vl W [nid t] \/ (z, d, children z (plug W [t])) ∈ vr W).
  { apply elem_of_app in Hv as [Hv|Hv]; [by left|]. apply elem_of_app in Hv as [Hv|Hv]; [|by right]. by apply row_in in Hv. }
  assert (Hw : (z, d, children z (plug W [t])) ∈ view (plug W [t'])).
  { rewrite view_plug. cbn [map flat_map]. rewrite app_nil_r, Hn. destruct Hv'; apply elem_of_app; [by left|right; apply elem_of_app; by right]. }
  assert (Hz' : z ∉ ids t').
  { pose proof (grow_NoDup _ _ _ Hg Hd') as H. rewrite ids_plug1 in H. apply NoDup_app in H as (_ & N1 & (_ & N2 & _)%NoDup_app). intros Hin.
    destruct Hv' as [H|H]; apply (elem_of_list_fmap_1 rid) in H; cbn in H.
    - rewrite vl_ids in H. apply (N1 _ H). apply elem_of_app. by left.
    - rewrite vr_ids in H. by apply (N2 _ Hin). }
  rewrite nid_plug in Hr. pose proof (frame_rows W W' t t' _ Hg Hd' Hw Hr) as H. pose proof (proj1 (view_spec _ _ _ _ Hd') H) as (_ & H2 & H3).
  split_and!; try done; [|congruence]. apply element_ids; [done|]. split; [by apply row_in in H|]. rewrite nid_plug.
  clear -Hg Hr. induction Hg as [|W' d' Hg IH]; [done|]. by rewrite croot_cadd.
Qed.

(** ** Tables side by side *)
Lemma upwards_meet w a b z : wfs w -> upwards w a z -> upwards w b z -> upwards w a b \/ upwards w b a.
Proof.
  intros Hw Ha. revert b. induction Ha as [a|a y c Ha IH Hc]; intros b Hb; [by right|].
  inversion Hb as [|? y' ? Hb' Hc']; subst; [left; by econstructor|]. rewrite (one_parent w y' y c Hw Hc' Hc) in Hb'. by apply IH.
Qed.
Lemma trees_apart w x1 x2 t1 t2 z : wfs w -> sub x1 w = Some t1 -> sub x2 w = Some t2 -> x1 ∉ ids t2 -> x2 ∉ ids t1 -> z ∈ ids t1 -> z ∉ ids t2.
Proof.
  intros Hw H1 H2 N1 N2 Z1 Z2. rewrite (sub_upwards w x1 t1) in Z1, N2 by done. rewrite (sub_upwards w x2 t2) in Z2, N1 by done.
  by destruct (upwards_meet w x1 x2 z Hw Z1 Z2).
Qed.
Lemma tree_elements w x t z : wfs w -> element x w -> sub x w = Some t -> z ∈ ids t -> element z w.
Proof.
  intros Hw Hx Hs Hz. rewrite (sub_upwards w x t) in Hz by done. inversion Hz; subst; [done|]. by eapply child_element.
Qed.
Lemma child_outside w x t y z : wfs w -> sub x w = Some t -> y ∉ ids t -> z ∈ children y w -> z <> x -> z ∉ ids t.
Proof.
  intros Hw Hs Hy Hz Hne Hin. rewrite (sub_upwards w x t) in Hin by done. inversion Hin as [|? y' ? Hu Hc]; subst; [done|].
  rewrite (one_parent w y' y z Hw Hc Hz) in Hu. apply Hy. by apply (sub_upwards w x t).
Qed.
Lemma pages_ext p w w' : children (pc_body p) w' = children (pc_body p) w ->
  (forall z, z ∈ children (pc_body p) w -> tagged (childtag p) w' z <-> tagged (childtag p) w z) ->
  pages p w' = pages p w /\ others p w' = others p w.
Proof.
  intros Hc H. unfold pages, others. rewrite Hc. revert H. generalize (children (pc_body p) w). intros l H.
  induction l as [|z l IH]; [done|]. destruct IH as [I1 I2]; [intros; apply H; by right|]. specialize (H z ltac:(left)).
  destruct (decide (tagged (childtag p) w z)) as [T|T].
  - rewrite !(filter_cons_True (tagged (childtag p) _)), I1 by tauto. split; [done|]. rewrite !filter_cons_False by tauto. done.
  - rewrite !(filter_cons_False (tagged (childtag p) _)), I1 by tauto. split; [done|]. rewrite !filter_cons_True by tauto. by f_equal.
Qed.

Section rep.
Context `{U : Unicode}.
Lemma pictures_tag o t c : pictures o t c -> ltag t = TABLE.
Proof.
  destruct c as [e|n g f]; [by intros (_ & ? & _)|]. intros (ob & _ & _ & _ & _ & Ht). destruct Ht as (Ht & _). by rewrite ltag_erase.
Qed.
Lemma tagged_sub w x t : sub x w = Some t -> tagged TABLE w x <-> ltag t = TABLE.
Proof. intros H. unfold tagged, data. rewrite H. cbn. unfold ltag. split; [by intros [= ->]|by intros ->]. Qed.

(** a table is changed *)
Lemma Rep_table y K b w x c c' (t t' : node) W W' n' ca' :
  Rep (sheets y) K b w -> w_tabs w !! x = Some c ->
  k_store b = plug W [t] -> nid t = x -> grow W W' -> nid t' = x -> NoDup (ids (plug W' [t'])) -> Forall (fun z => z < n')%N (ids (plug W' [t'])) ->
  pictures (ca' !! x) t' c' -> (forall z, z <> x -> ca' !! z = k_cache b !! z) ->
  Rep (sheets y) K (Bk (plug W' [t']) n' ca') (w_put x c' w).
Proof.
  intros R Hx E Nt Hg Nt' Hd Hf Hp Hca. pose proof (rp_nodup _ _ _ _ R) as Hw. rewrite E in Hw.
  destruct (rp_tab _ _ _ _ R x c Hx) as (t0 & Hel & Hsub & Hpic & Hdis & Hk). rewrite E in Hel, Hsub.
  rewrite <- Nt in Hsub. rewrite (sub_plug W t Hw) in Hsub. injection Hsub as <-.
  assert (Hsub : sub x (plug W [t]) = Some t) by (rewrite <- Nt; by apply sub_plug).
  assert (Hsub' : sub x (plug W' [t']) = Some t') by (rewrite <- Nt'; by apply sub_plug).
  assert (FR : forall z, element z (plug W [t]) -> z ∉ ids t -> element z (plug W' [t']) /\ children z (plug W' [t']) = children z (plug W [t]) /\ data z (plug W' [t']) = data z (plug W [t]) /\ z ∉ ids t').
  { intros z. apply frame; try done. congruence. }
  pose proof (rp_body _ _ _ _ R) as Hy. cbn [pc_body sheets] in Hy.
  assert (Hyt : y ∉ ids t) by by apply Hk.
  assert (Hye : element y (plug W [t])). { rewrite <- E. by apply (rp_keep _ _ _ _ R). }
  destruct (FR y Hye Hyt) as (Y1 & Y2 & Y3 & Y4).
  destruct (pages_ext (sheets y) (plug W [t]) (plug W' [t'])) as [P1 P2].
  { done. }
  { cbn [pc_body childtag sheets]. intros z Hz. destruct (decide (z = x)) as [->|Hne].
    - fold TABLE. rewrite (tagged_sub _ _ _ Hsub), (tagged_sub _ _ _ Hsub'). apply pictures_tag in Hp, Hpic. done.
    - destruct (FR z) as (_ & _ & Hz3 & _); [by eapply child_element|by eapply child_outside|]. unfold tagged. by rewrite Hz3. }
  assert (Hdom : forall z, is_Some (w_tabs (w_put x c' w) !! z) <-> is_Some (w_tabs w !! z)).
  { intros z. cbn. destruct (decide (z = x)) as [->|Hne]; [rewrite lookup_insert, Hx; split; eauto|by rewrite lookup_insert_ne]. }
  constructor; cbn [k_store k_nxt k_cache w_list w_tabs w_put].
  - done.
  - done.
  - rewrite P1, <- E. apply R.
  - eapply Forall_impl; [apply (rp_in _ _ _ _ R)|]. intros z. apply Hdom.
  - done.
  - intros x2 c2 H2. destruct (decide (x2 = x)) as [->|Hne].
    + rewrite lookup_insert in H2. injection H2 as <-. exists t'. split_and!; try done.
      * apply element_ids; [done|]. split; [rewrite <- Nt'; rewrite ids_plug1; apply elem_of_app; right; apply elem_of_app; left; apply nid_in|].
        pose proof (proj1 (element_ids _ _ Hw) Hel) as [_ Hr]. rewrite nid_plug in *. clear -Hr Hg. induction Hg as [|W' d' Hg IH]; [done|]. by rewrite croot_cadd.
      * intros x' Hx' Hne. apply (Hdom x') in Hx'. destruct Hx' as [cx Hx']. destruct (rp_tab _ _ _ _ R x' cx Hx') as (t2 & He2 & Hs2 & _ & Hdis2 & _).
        apply FR; [by rewrite <- E|]. by apply Hdis.
      * intros z Hz. apply FR; [rewrite <- E; by apply (rp_keep _ _ _ _ R)|by apply Hk].
    + rewrite lookup_insert_ne in H2 by done. destruct (rp_tab _ _ _ _ R x2 c2 H2) as (t2 & He2 & Hs2 & Hp2 & Hdis2 & Hk2). rewrite E in He2, Hs2.
      exists t2. assert (A : forall z, z ∈ ids t2 -> z ∉ ids t).
      { intros z. apply (trees_apart (plug W [t]) x2 x); try done; [apply Hdis|apply Hdis2]; try done; eauto. }
      assert (Hs2' : sub x2 (plug W' [t']) = Some t2).
      { apply (sub_ext (plug W [t])); try done. intros z Hz. destruct (FR z) as (F1 & F2 & F3 & F4); [by eapply tree_elements|by apply A|].
        split_and!; try done. by apply (element_ids _ _ Hd) in F1 as [? _]. }
      split_and!; try done.
      * apply FR; [done|]. apply A. rewrite <- (sub_nid _ _ _ Hs2). apply nid_in.
      * by rewrite Hca.
      * intros x' Hx'. apply (Hdom x') in Hx'. by apply Hdis2.
  - intros z Hz. destruct (rp_keep _ _ _ _ R z Hz) as (K1 & K2 & K3). rewrite E in K1, K2, K3. destruct (FR z K1 (Hk z Hz)) as (F1 & F2 & F3 & F4).
    split_and!; try done; [congruence|]. intros Hne. destruct (K3 Hne) as [K4 K5]. split; [congruence|]. intros x' Hx'. apply (Hdom x') in Hx'. by apply K5.
  - rewrite P2, <- E. apply R.
Qed.

(** a table is made *)
Lemma Rep_made y K b w x c' t' S' n' ca' :
  Rep (sheets y) K b w -> x ∉ ids (k_store b) ->
  NoDup (ids S') -> Forall (fun z => z < n')%N (ids S') -> sub x S' = Some t' -> element x S' ->
  (forall z, z ∈ ids t' -> z ∉ ids (k_store b)) ->
  (forall z, element z (k_store b) -> element z S' /\ children z S' = children z (k_store b) /\ data z S' = data z (k_store b)) ->
  pictures (ca' !! x) t' c' -> (forall z, z <> x -> ca' !! z = k_cache b !! z) ->
  Rep (sheets y) K (Bk S' n' ca') (w_put x c' w) /\ w_tabs w !! x = None.
Proof.
  intros R Hx Hd Hf Hs Hel Hnew FR Hp Hca. pose proof (rp_nodup _ _ _ _ R) as Hw.
  pose proof (rp_body _ _ _ _ R) as Hy. cbn [pc_body sheets] in Hy. destruct (rp_keep _ _ _ _ R y Hy) as (Hye & _).
  assert (Hnone : w_tabs w !! x = None).
  { destruct (w_tabs w !! x) as [c|] eqn:Ec; [|done]. destruct (rp_tab _ _ _ _ R x c Ec) as (t & He & _). by apply (element_ids _ _ Hw) in He as [? _]. }
  split; [|done].
  destruct (FR y Hye) as (Y1 & Y2 & Y3).
  destruct (pages_ext (sheets y) (k_store b) S') as [P1 P2].
  { done. }
  { cbn [pc_body childtag sheets]. intros z Hz. destruct (FR z) as (_ & _ & Hz3); [by eapply child_element|]. unfold tagged. by rewrite Hz3. }
  assert (Hdom : forall z, is_Some (w_tabs (w_put x c' w) !! z) -> z = x \/ is_Some (w_tabs w !! z)).
  { intros z. cbn. destruct (decide (z = x)) as [->|Hne]; [by left|right; by rewrite lookup_insert_ne in *]. }
  constructor; cbn [k_store k_nxt k_cache w_list w_tabs w_put].
  - done.
  - done.
  - rewrite P1. apply R.
  - eapply Forall_impl; [apply (rp_in _ _ _ _ R)|]. intros z Hz. cbn. destruct (decide (z = x)) as [->|Hne]; [rewrite lookup_insert; eauto|by rewrite lookup_insert_ne].
  - done.
  - intros x2 c2 H2. destruct (decide (x2 = x)) as [->|Hne].
    + rewrite lookup_insert in H2. injection H2 as <-. exists t'. split_and!; try done.
      * intros x' Hx' Hne Hin. apply (Hdom x') in Hx' as [?|[cx Hx']]; [done|]. destruct (rp_tab _ _ _ _ R x' cx Hx') as (t2 & He2 & _).
        apply (Hnew _ Hin). by apply (element_ids _ _ Hw) in He2 as [? _].
      * intros z Hz Hin. apply (Hnew _ Hin). destruct (rp_keep _ _ _ _ R z Hz) as (He2 & _). by apply (element_ids _ _ Hw) in He2 as [? _].
    + rewrite lookup_insert_ne in H2 by done. destruct (rp_tab _ _ _ _ R x2 c2 H2) as (t2 & He2 & Hs2 & Hp2 & Hdis2 & Hk2).
      exists t2. assert (Hs2' : sub x2 S' = Some t2).
      { apply (sub_ext (k_store b)); try done. intros z Hz. destruct (FR z) as (F1 & F2 & F3); [by eapply tree_elements|].
        split_and!; try done. by apply (element_ids _ _ Hd) in F1 as [? _]. }
      split_and!; try done.
      * by apply FR.
      * by rewrite Hca.
      * intros x' Hx' Hne'. apply (Hdom x') in Hx' as [->|Hx']; [|by apply Hdis2]. intros Hin. apply Hx. by eapply sub_ids.
  - intros z Hz. destruct (rp_keep _ _ _ _ R z Hz) as (K1 & K2 & K3). destruct (FR z K1) as (F1 & F2 & F3).
    split_and!; try done; [congruence|]. intros Hne. destruct (K3 Hne) as [K4 K5]. split; [congruence|]. intros x' Hx'. apply (Hdom x') in Hx' as [->|Hx']; [|by apply K5].
    rewrite <- K4. intros Hin. apply child_element in Hin. by apply (element_ids _ _ Hw) in Hin as [? _].
  - rewrite P2. apply R.
Qed.

(** the list of sheets is changed *)
Lemma Rep_list y K b w c l S' l' :
  Rep (sheets y) K b w -> is_Some (w_tabs w !! c) -> placed y c l (k_store b) S' -> pages (sheets y) S' = l' -> others (sheets y) S' = others (sheets y) (k_store b) ->
  Forall (fun x => is_Some (w_tabs w !! x)) l' ->
  Rep (sheets y) K (Bk S' (k_nxt b) (k_cache b)) (w_order l' w).
Proof.
  intros R [cc Hc] (Hw' & Hel & Hnid & Hch & Hch' & Hda) Hl Ho HF. pose proof (rp_nodup _ _ _ _ R) as Hw.
  constructor; cbn [k_store k_nxt k_cache w_list w_tabs w_order].
  - done.
  - apply Forall_forall. intros z Hz. pose proof (rp_fresh _ _ _ _ R) as Hfr. rewrite Forall_forall in Hfr. apply Hfr.
    destruct (decide (z = nid S')) as [->|Hne]; [rewrite Hnid; apply nid_in|]. assert (element z S') as He by by apply element_ids.
    apply Hel in He. by apply (element_ids _ _ Hw) in He as [? _].
  - done.
  - done.
  - apply R.
  - intros x c2 H2. destruct (rp_tab _ _ _ _ R x c2 H2) as (t & He & Hs & Hp & Hdis & Hk). exists t.
    assert (Hs' : sub x S' = Some t).
    { apply (sub_ext (k_store b)); try done. intros z Hz. assert (element z (k_store b)) as Hze by by eapply tree_elements. split_and!.
      - assert (element z S') as Hz' by by apply Hel. by apply (element_ids _ _ Hw') in Hz' as [? _].
      - rewrite Hch'; [|done|]. 2: { intros ->. by apply (Hk y); [apply (rp_body _ _ _ _ R)|]. }
        apply without_notin. intros Hin. destruct (below_children (k_store b) x t z c Hw He Hs Hz Hin) as [B1 B2]. by apply (Hdis c); eauto.
      - by apply Hda. }
    split_and!; try done. by apply Hel.
  - intros z Hz. destruct (rp_keep _ _ _ _ R z Hz) as (K1 & K2 & K3). split_and!; [by apply Hel|by rewrite Hda|].
    intros Hne. cbn [pc_body sheets] in Hne. destruct (K3 Hne) as [K4 K5]. rewrite Hch' by done. rewrite K4. split; [|done]. apply without_notin. apply K5. eauto.
  - rewrite Ho. apply R.
Qed.

(** names *)
Lemma Rep_name y K b w x : Rep (sheets y) K b w -> is_Some (w_tabs w !! x) -> name_of (sheets y) (k_store b) x = w_name w x.
Proof.
  intros R [c Hc]. destruct (rp_tab _ _ _ _ R x c Hc) as (t & _ & Hs & Hp & _). unfold name_of, data, w_name. rewrite Hs, Hc. cbn.
  destruct c as [e|n g f].
  - destruct Hp as (_ & _ & <-). by destruct t.
  - destruct Hp as (_ & _ & _ & _ & _ & Ht). apply tabular_parts in Ht as (_ & _ & _ & -> & _). done.
Qed.
Lemma Rep_find y K b w k : Rep (sheets y) K b w ->
  find_page (name_of (sheets y) (k_store b)) k (pages (sheets y) (k_store b)) = find_page (w_name w) k (w_list w).
Proof.
  intros R. rewrite (rp_list _ _ _ _ R). apply find_page_ext. intros c Hc. apply (Rep_name y K); [done|].
  pose proof (rp_in _ _ _ _ R) as H. rewrite Forall_forall in H. by apply H.
Qed.
End rep.

(** ** The operations *)
Section steps.
Context `{U : Unicode} `{F : PyFloat}.
Lemma made_ok s strat mc v nr nc : NoDup (ids (store s)) -> Forall (fun y => y < nxt s)%N (ids (store s)) ->
  normalize_sheet_name v <> [] -> (1 <= nr)%Z -> (1 <= nc)%Z -> max_ok strat mc ->
  exists s' W t, new_table strat mc v (nr, nc) s = (s', Ok tt) /\ Inv s' W t /\
    pl (root t) = Nd TABLE {["table:name" := normalize_sheet_name v]} None None /\
    is_grid (Z.to_nat nr) (Z.to_nat nc) t /\ nid t = nxt s /\ (nxt s <= nxt s')%N /\ W = Here (root (store s)) (kids (store s)) [].
Proof.
  intros Hnd Hfr Hv Hr Hc Hm. unfold new_table. unfold abind at 1, new_root. unfold abind at 1, alloc.
  destruct (label_facts (new_elem TABLE) (nxt s)) as (en & n' & -> & L1 & L2 & L3 & L4 & L5).
  unfold abind at 1, amod, aret. cbn [store set_nxt set_store]. unfold set_store. cbn [nxt obj set_nxt].
  set (V := Here (root (store s)) (kids (store s)) []).
  assert (Est : add_root en (store s) = plug V [en]). { destruct (store s). done. }
  assert (P : Permutation (ids (plug V [en])) (ids (store s) ++ ids en)). { by rewrite <- Est, ids_add_root. }
  unfold abind at 1.
  destruct (load_ok (St (add_root en (store s)) n' (obj s)) (nid en) V en (new_elem TABLE) (new_elem TABLE) strat mc)
    as (s1 & u & -> & HI & Eu & Nu & Ln); try done.
  - cbn. rewrite Est, P. apply NoDup_app. split_and!; try done. intros y Hy Hy'. rewrite Forall_forall in L4, Hfr.
    apply L4 in Hy'. apply Hfr in Hy. lia.
  - cbn. rewrite Est, P. apply Forall_app. split; [eapply Forall_impl; [exact Hfr|]|eapply Forall_impl; [exact L4|]]; cbn; lia.
  - rewrite L1. apply (normalize_normal strat mc (new_elem TABLE) 0); try done; by apply Forall_nil_2.
  - by destruct strat.
  - apply Forall_nil_2.
  - destruct (set_metrics_Fr s1 V u v nr nc) as (s2 & t2 & -> & HF2 & R2 & K2 & C1 & C2 & N2); try done.
    + by apply Inv_Fr.
    + apply (f_equal kids) in Eu. rewrite erase_kids in Eu. by destruct (kids u).
    + destruct (grid_is_grid _ _ _ K2) as [G1 G2]. exists s2, V, t2. split_and!; try done.
      * by apply Fr_Inv.
      * rewrite R2. destruct u as [[i a] ks]. cbn in *. injection Eu as -> _. done.
      * unfold nid. rewrite R2. change (nid (renamed (normalize_sheet_name v) u) = nxt s). rewrite renamed_nid. congruence.
      * cbn in Ln. lia.
Qed.

Lemma Inv_pictures s W t n g f : Inv s W t -> tabular (erase t) n g f -> pictures (Some (obj s)) t (Open n g f).
Proof. intros HI Ht. exists (obj s). split_and!; try done; apply HI. Qed.
(** the table object of an open sheet *)
Lemma Rep_Inv y K b w x n g f : Rep (sheets y) K b w -> w_tabs w !! x = Some (Open n g f) ->
  exists o W t, k_cache b !! x = Some o /\ Inv (St (k_store b) (k_nxt b) o) W t /\ nid t = x /\ tabular (erase t) n g f.
Proof.
  intros R Hx. destruct (rp_tab _ _ _ _ R x _ Hx) as (t & He & Hs & (o & Ho & O1 & O2 & O3 & Ht) & _).
  pose proof (rp_nodup _ _ _ _ R) as Hw. destruct (sub_Some _ _ _ Hs) as (Hn & [Et|[W HW]]).
  { exfalso. apply (element_ids _ _ Hw) in He as [_ He]. congruence. }
  exists o, W, t. split_and!; try done. constructor; try done; try apply R. by apply tabular_parts in Ht as (_ & _ & ? & _).
Qed.

Lemma table_rep y K b w x o n g f : Rep (sheets y) K b w -> w_tabs w !! x = Some (Open n g f) -> fine o (length g) (breadth g) ->
  exists b', on_table x (run_op o) b = (b', Ok tt) /\ Rep (sheets y) K b' (w_put x (Open (name_op o n) (grid_op o g) (fmt_op o f)) w).
Proof.
  intros R Hx Hf. destruct (Rep_Inv y K b w x n g f R Hx) as (ob & W & t & Ho & HI & Hn & Ht).
  destruct (table_step _ W t o n g f HI Ht Hf) as (s' & W' & t' & E & HI' & Hg & Hn' & Hl & Ht').
  unfold on_table. rewrite Ho, E. eexists. split; [done|]. rewrite (i_store _ _ _ HI').
  apply (Rep_table y K b w x (Open n g f) _ t t' W W'); try done.
  - exact (i_store _ _ _ HI).
  - congruence.
  - rewrite <- (i_store _ _ _ HI'). apply HI'.
  - rewrite <- (i_store _ _ _ HI'). apply HI'.
  - rewrite lookup_insert. by eapply Inv_pictures.
  - intros z Hz. by rewrite lookup_insert_ne.
Qed.

Lemma cells_at t i j row e : cells t !! i = Some row -> row !! j = Some e -> exists x, cell_at t i j = Some x /\ erase x = e.
Proof.
  unfold cells, cell_at. change (map ?f ?l) with (f <$> l). rewrite list_lookup_fmap. destruct (doc_rows t !! i) as [p|]; [|done]. cbn. intros [= <-].
  rewrite list_lookup_fmap. destruct (p_kids p !! j) as [x|]; [|done]. cbn. intros [= <-]. by exists x.
Qed.
Lemma alter_insert {A} (f : A -> A) (l : list A) i x : l !! i = Some x -> alter f i l = <[i := f x]> l.
Proof. revert i. induction l as [|a l IH]; intros [|i]; cbn; try done; [by intros [= ->]|]. intros H. f_equal. by apply IH. Qed.
Lemma value_rep y K b w x key c n g f i j row e : Rep (sheets y) K b w -> w_tabs w !! x = Some (Open n g f) ->
  at_cell (length g) (breadth g) key i j -> (forall p, c_val c = VWrap p -> plain p) -> g !! i = Some row -> row !! j = Some e ->
  exists b', on_table x (cell_set_value key (c_val c) (c_type c) (c_cur c)) b = (b', (set_value (c_val c) (c_type c) (c_cur c) e).2) /\
    Rep (sheets y) K b' (w_put x (Open n (<[i := <[j := run_call e c]> row]> g) f) w).
Proof.
  intros R Hx Hk Hp Hi Hj. destruct (Rep_Inv y K b w x n g f R Hx) as (ob & W & t & Ho & HI & Hn & Ht).
  pose proof Ht as (T1 & T2 & T3 & A1 & A2 & <- & L2 & P1 & P2 & Hr & ->)%tabular_parts.
  set (s := St (k_store b) (k_nxt b) ob) in *.
  destruct (Inv_sized s W t (length (cells t)) (breadth (cells t)) n HI) as (S1 & S2 & S3); try done; [by rewrite cells_length|].
  destruct (cells_at t i j row e Hi Hj) as (x0 & Hx0 & Ee).
  destruct (set_value_step s t _ _ key c i j x0 S1 S2 (Inv_table_node _ _ _ HI) eq_refl Hr) as (pos & t' & x' & E & I1 & I2 & _); try done.
  { by rewrite <- cells_length. }
  rewrite <- cells_length in I1. rewrite Ee in E.
  assert (Hf : fine (OWrite pos (fun e => run_call e c)) (length (cells t)) (breadth (cells t))).
  { split; [done|]. intros s0. split; [split; [by exists i, j|]|].
    - intros e0. by apply call_plain.
    - intros e0. apply call_single. }
  destruct (table_rep y K b w x _ n _ _ R Hx Hf) as (b' & E' & R'). exists b'. split.
  - unfold on_table in *. rewrite Ho in *. fold s in E' |- *. rewrite E. destruct (run_op _ s) as [s1 r1]. cbn [fst]. by injection E' as <- _.
  - cbn [name_op grid_op fmt_op] in R'. apply at_py, spot_at in I1, I2. rewrite I1, I2, (alter_insert _ _ _ row Hi), (alter_insert _ _ _ e Hj) in R'. done.
Qed.

Lemma refused_rep y K b w x o n g f e : Rep (sheets y) K b w -> w_tabs w !! x = Some (Open n g f) -> refuses (length g) (breadth g) o e ->
  exists b', on_table x (run_op o) b = (b', Err e) /\ Rep (sheets y) K b' w.
Proof.
  intros R Hx Hf. destruct (Rep_Inv y K b w x n g f R Hx) as (ob & W & t & Ho & HI & Hn & Ht).
  destruct (refuse_step _ W t n g f o e HI Ht Hf) as (s' & W' & E & HI' & Hg & Hob & Hl).
  unfold on_table. rewrite Ho, E. eexists. split; [done|]. rewrite (i_store _ _ _ HI').
  assert (Ew : w = w_put x (Open n g f) w). { destruct w as [l ts]. unfold w_put. cbn in *. by rewrite insert_id. }
  rewrite Ew. apply (Rep_table y K b w x (Open n g f) _ t t W W'); try done.
  - exact (i_store _ _ _ HI).
  - rewrite <- (i_store _ _ _ HI'). apply HI'.
  - rewrite <- (i_store _ _ _ HI'). apply HI'.
  - rewrite lookup_insert. by eapply Inv_pictures.
  - intros z Hz. by rewrite lookup_insert_ne.
Qed.
Lemma prop_rep y K b w x q p n g f k a u : Rep (sheets y) K b w -> w_tabs w !! x = Some (Open n g f) -> placed_at f q k a u -> key_of p <> k ->
  exists b', on_table x (write_prop q p) b = (b', (set_on p a).2) /\ Rep (sheets y) K b' (w_put x (Open n g (u (set_on p a).1)) w).
Proof.
  intros R Hx Hf Hk. destruct (Rep_Inv y K b w x n g f R Hx) as (ob & W & t & Ho & HI & Hn & Ht).
  destruct (prop_step _ W t n g f q p k a u HI Ht Hf Hk) as (s' & t' & E & HI' & Hn' & Hl & Ht').
  unfold on_table. rewrite Ho, E. eexists. split; [done|]. rewrite (i_store _ _ _ HI').
  apply (Rep_table y K b w x (Open n g f) _ t t' W W); try done.
  - exact (i_store _ _ _ HI).
  - congruence.
  - rewrite <- (i_store _ _ _ HI'). apply HI'.
  - rewrite <- (i_store _ _ _ HI'). apply HI'.
  - rewrite lookup_insert. by eapply Inv_pictures.
  - intros z Hz. by rewrite lookup_insert_ne.
Qed.

Lemma span_rep y K b w x o n g f r g' : Rep (sheets y) K b w -> w_tabs w !! x = Some (Open n g f) -> all_cells g -> spans_to g o r g' ->
  exists b', on_table x (do_span o) b = (b', r) /\ Rep (sheets y) K b' (w_put x (Open n g' f) w).
Proof.
  intros R Hx Ha Hs. destruct (Rep_Inv y K b w x n g f R Hx) as (ob & W & t & Ho & HI & Hn & Ht).
  destruct (span_step _ W t n g f o r g' HI Ht Ha Hs) as (s' & W' & t' & E & HI' & Hg & Hn' & Hl & Ht').
  unfold on_table. rewrite Ho, E. eexists. split; [done|]. rewrite (i_store _ _ _ HI').
  apply (Rep_table y K b w x (Open n g f) _ t t' W W'); try done.
  - exact (i_store _ _ _ HI).
  - congruence.
  - rewrite <- (i_store _ _ _ HI'). apply HI'.
  - rewrite <- (i_store _ _ _ HI'). apply HI'.
  - rewrite lookup_insert. by eapply Inv_pictures.
  - intros z Hz. by rewrite lookup_insert_ne.
Qed.
Lemma wrap_rep y K b w x strat mc w' : Rep (sheets y) K b w -> asked strat mc w x w' ->
  exists b', k_wrap strat mc x b = (b', Ok x) /\ Rep (sheets y) K b' w'.
Proof.
  intros R Ha. destruct Ha as [(n & g & f & Hx)|e n g f Hx (e1 & e2 & E1 & E2 & Ht)].
  - destruct (Rep_Inv y K b w x n g f R Hx) as (ob & _ & _ & Ho & _). unfold k_wrap. rewrite Ho. by exists b.
  - destruct (rp_tab _ _ _ _ R x _ Hx) as (t & He & Hs & (Ho & T1 & <-) & _). pose proof (rp_nodup _ _ _ _ R) as Hw.
    destruct (sub_Some _ _ _ Hs) as (Hn & [Et|[V HV]]).
    { exfalso. apply (element_ids _ _ Hw) in He as [_ He]. congruence. }
    destruct (load_ok (St (k_store b) (k_nxt b) (TObj 0 [] [])) x V t e1 e2 strat mc) as (s' & u' & El & HI & Eu & Nu & Ln); try done.
    { apply R. }
    { apply Ht. }
    unfold k_wrap. rewrite Ho. unfold make. rewrite El. rewrite (i_rt _ _ _ HI), Nu. eexists. split; [done|].
    rewrite (i_store _ _ _ HI). apply (Rep_table y K b w x (Stored (erase t)) _ t u' V V); try done.
    + rewrite <- (i_store _ _ _ HI). apply HI.
    + rewrite <- (i_store _ _ _ HI). apply HI.
    + rewrite lookup_insert. eapply Inv_pictures; [done|]. by rewrite Eu.
    + intros z Hz. by rewrite lookup_insert_ne.
Qed.
Lemma asked_is_open strat mc w x w' : asked strat mc w x w' -> is_open w' x /\ w_list w' = w_list w /\ (forall z, is_Some (w_tabs w !! z) <-> is_Some (w_tabs w' !! z)) /\
  (forall z, is_open w z -> is_open w' z).
Proof.
  intros [H|e n g f Hx Ho]; [done|]. split_and!; [exists n, g, f; apply lookup_insert|done| |].
  - intros z. cbn. destruct (decide (z = x)) as [->|Hne]; [rewrite lookup_insert, Hx; split; eauto|by rewrite lookup_insert_ne].
  - intros z (n' & g' & f' & Hz). exists n', g', f'. cbn. rewrite lookup_insert_ne; [done|]. congruence.
Qed.
Lemma get_rep y K b w k strat mc : Rep (sheets y) K b w ->
  match find_page (w_name w) k (w_list w) with
  | Ok x => forall w', asked strat mc w x w' -> exists b', k_get (sheets y) strat mc k b = (b', Ok x) /\ Rep (sheets y) K b' w'
  | Err e => k_get (sheets y) strat mc k b = (b, Err e)
  end.
Proof.
  intros R. unfold k_get, abind, on_tree. rewrite (pc_get_eq _ k (k_store b)) by apply R. rewrite (Rep_find y K b w k R).
  destruct (find_page (w_name w) k (w_list w)) as [x|e]; [|by destruct b].
  intros w' Ha. destruct (wrap_rep y K b w x strat mc w' R Ha) as (b' & E & R'). exists b'. split; [|done]. rewrite <- E. by destruct b.
Qed.

Lemma new_rep y K b w strat mc v nr nc : Rep (sheets y) K b w -> normalize_sheet_name v <> [] -> (1 <= nr)%Z -> (1 <= nc)%Z -> max_ok strat mc ->
  exists b' x, k_new strat mc v (nr, nc) b = (b', Ok x) /\ w_tabs w !! x = None /\
    Rep (sheets y) K b' (w_put x (Open (normalize_sheet_name v) (blank (Z.to_nat nr) (Z.to_nat nc)) (unformatted (Z.to_nat nr) (Z.to_nat nc))) w).
Proof.
  intros R Hv Hr Hc Hm. pose proof (rp_nodup _ _ _ _ R) as Hw. pose proof (rp_fresh _ _ _ _ R) as Hfr.
  destruct (made_ok (St (k_store b) (k_nxt b) (TObj 0 [] [])) strat mc v nr nc Hw Hfr Hv Hr Hc Hm) as (s' & W & t & E & HI & Hpl & Hgr & Hn & Hl & EW). cbn [store nxt] in *.
  assert (Es : store s' = add_root t (k_store b)) by (rewrite (i_store _ _ _ HI), EW; by destruct (k_store b)).
  unfold k_new, make. rewrite E, (i_rt _ _ _ HI), Hn. eexists _, (k_nxt b). split; [done|].
  assert (Hfresh : k_nxt b ∉ ids (k_store b)). { intros Hin. rewrite Forall_forall in Hfr. apply Hfr in Hin. lia. }
  pose proof (i_nodup _ _ _ HI) as Hnd. pose proof Hnd as Hnd2. rewrite Es, ids_add_root in Hnd2. apply NoDup_app in Hnd2 as (_ & Hdis & _).
  pose proof Hgr as (G1 & G2 & G3 & G4).
  assert (Hsub : sub (k_nxt b) (store s') = Some t) by (rewrite <- Hn, (i_store _ _ _ HI); apply sub_plug; rewrite <- (i_store _ _ _ HI); apply HI).
  apply and_comm. eapply (Rep_made y K b w (k_nxt b)); try done.
  - apply HI.
  - apply element_ids; [done|]. split; [rewrite <- Hn, Es, ids_add_root; apply elem_of_app; right; apply nid_in|]. rewrite Es, add_root_nid. intros Hx. apply Hfresh. rewrite Hx. apply nid_in.
  - intros z Hz Hin. by apply (Hdis z).
  - intros z Hz. destruct (proj1 (element_ids _ _ Hw) Hz) as [Hz1 Hz2]. destruct (view_at _ _ Hz1) as (d & Hv1 & Ed).
    assert (Hrow : (z, d, children z (k_store b)) ∈ WrapperProofs.view (store s')). { rewrite Es. apply add_root_rows; [done|]. right. done. }
    pose proof (proj1 (view_spec _ _ _ _ Hnd) Hrow) as (_ & H2 & H3). split_and!; [|done|congruence].
    apply element_ids; [done|]. split; [by apply row_in in Hrow|]. by rewrite Es, add_root_nid.
  - rewrite lookup_insert. apply (Inv_pictures _ W); [done|]. apply tabular_parts. rewrite (grid_cells _ _ _ Hgr). unfold blank. rewrite replicate_length.
    assert (Hb : breadth (replicate (Z.to_nat nr) (replicate (Z.to_nat nc) ECELL)) = Z.to_nat nc).
    { destruct (Z.to_nat nr) eqn:En; [lia|]. cbn. apply replicate_length. }
    rewrite Hb. split_and!; try done; try lia.
    + unfold ltag. by rewrite Hpl.
    + apply unrepeated_parts. split; [by eapply empty_rows_single|by apply empty_cols_single].
    + apply HI.
    + rewrite Hpl. apply lookup_singleton.
    + by rewrite normalize_idem.
    + unfold rect. by apply empty_rows_rect.
    + unfold fmts. rewrite Hpl. destruct (grid_fmts _ _ _ Hgr) as [-> ->]. cbn [attrs]. by rewrite delete_singleton.
  - intros z Hz. by rewrite lookup_insert_ne.
Qed.

Lemma renamed_tabular t u n g f m : tabular (erase t) n g f -> erase u = erase t -> normalize_sheet_name m <> [] -> tabular (erase (renamed m u)) m g f.
Proof.
  intros Ht E Hm. rewrite <- E in Ht. apply tabular_parts in Ht as (T1 & T2 & T3 & A1 & A2 & <- & L2 & P1 & P2 & Hr & ->).
  assert (Er : doc_rows (renamed m u) = doc_rows u) by (unfold doc_rows; fold ROW; by rewrite renamed_ldesc).
  assert (Ec : doc_cols (renamed m u) = doc_cols u) by (unfold doc_cols; fold COL; by rewrite renamed_ldesc).
  apply tabular_parts. unfold rect, cells in *. rewrite Er, Ec. split_and!; try done.
  - by rewrite renamed_tag.
  - apply unrepeated_parts. unfold all_single. rewrite Er, Ec. by apply unrepeated_parts.
  - unfold no_nesting in *. by rewrite !renamed_ldesc.
  - destruct u as [[? []] ?]. cbn. apply lookup_insert.
  - by rewrite renamed_fmts.
Qed.
Lemma copy_rep y K b w strat mc x v n g f : Rep (sheets y) K b w -> w_tabs w !! x = Some (Open n g f) ->
  normalize_sheet_name (default (lit "CopyOf" ++ n) v) <> [] -> max_ok strat mc ->
  exists b' x', k_copy strat mc x v b = (b', Ok x') /\ w_tabs w !! x' = None /\
    Rep (sheets y) K b' (w_put x' (Open (normalize_sheet_name (default (lit "CopyOf" ++ n) v)) g f) w).
Proof.
  intros R Hx Hv Hm. destruct (Rep_Inv y K b w x n g f R Hx) as (ob & W & t & Ho & HI & Hn & Ht).
  pose proof (rp_nodup _ _ _ _ R) as Hw. pose proof Ht as Ht0. apply tabular_parts in Ht0 as (T1 & T2 & T3 & A1 & A2 & Ec & L2 & P1 & P2 & Hr & ->).
  destruct (copy_ok _ W t strat mc (breadth g) v (default (lit "CopyOf" ++ n) v) HI Hm) as (s' & W' & V & u & u' & E & HI1 & HI2 & Hg & O1 & O2 & Eu & -> & Hfr & Hl); try done.
  { by apply unrepeated_normal. }
  { destruct v; cbn; [by left|right; split; [done|]; by exists n]. }
  unfold k_copy. rewrite Ho. unfold make. unfold abind at 1, amod, set_obj. cbn [store nxt]. rewrite E.
  set (u := renamed _ u') in *. rewrite (i_rt _ _ _ HI1). eexists _, (nid u). split; [done|].
  pose proof (i_nodup _ _ _ HI1) as Hnd. cbn [store] in Hfr.
  assert (Hsub : sub (nid u) (store s') = Some u) by (rewrite (i_store _ _ _ HI1); apply sub_plug; by rewrite <- (i_store _ _ _ HI1)).
  assert (E1 : k_store b = plug W [t]) by exact (i_store _ _ _ HI). assert (E2 : store s' = plug W' [t]) by exact (i_store _ _ _ HI2).
  assert (Hroot : nid (store s') = nid (k_store b)). { rewrite E1, E2, !nid_plug. clear -Hg. induction Hg as [|W' d' Hg IH]; [done|]. by rewrite croot_cadd. }
  apply and_comm. eapply (Rep_made y K b w (nid u)); try done.
  - apply Hfr, nid_in.
  - apply HI1.
  - apply element_ids; [done|]. split; [rewrite (i_store _ _ _ HI1), ids_plug1; apply elem_of_app; right; apply elem_of_app; left; apply nid_in|].
    rewrite Hroot. intros Hc. apply (Hfr (nid u)); [apply nid_in|]. rewrite Hc. apply nid_in.
  - intros z Hz. destruct (decide (z ∈ ids t)) as [Hin|Hin].
    + assert (S1 : sub (nid t) (k_store b) = Some t) by (rewrite E1; apply sub_plug; by rewrite <- E1).
      assert (S2 : sub (nid t) (store s') = Some t) by (rewrite E2; apply sub_plug; by rewrite <- E2).
      destruct (view_at _ _ Hin) as (d & Hv1 & _). pose proof (sub_view_incl _ _ _ _ S1 Hv1) as V1. pose proof (sub_view_incl _ _ _ _ S2 Hv1) as V2.
      apply (view_spec _ _ _ _ Hw) in V1 as (_ & -> & ->). pose proof (row_in _ _ V2) as Hi2. apply (view_spec _ _ _ _ Hnd) in V2 as (_ & -> & ->).
      split_and!; try done. apply element_ids; [done|]. split; [done|]. rewrite Hroot. by apply (element_ids _ _ Hw) in Hz as [_ ?].
    + rewrite E1 in Hz, Hw. rewrite E2 in Hnd. rewrite E1, E2. destruct (frame W W' t t z Hg eq_refl Hw Hnd Hz Hin) as (? & ? & ? & _). done.
  - rewrite lookup_insert. apply (Inv_pictures _ V); [done|]. apply (renamed_tabular t _ n); try done. by rewrite normalize_idem.
  - intros z Hz. by rewrite lookup_insert_ne.
Qed.

Lemma replace_page w p old c : wfs w -> element (pc_body p) w -> page p w c -> old ∈ pages p w ->
  exists w', el_replace (pc_body p) old c w = (w', Ok tt) /\
    placed (pc_body p) c (if decide (old = c) then children (pc_body p) w else instead old c (WrapperSpec.without c (children (pc_body p) w))) w w' /\
    pages p w' = put_page old c (pages p w) /\ others p w' = others p w.
Proof.
  intros Hw Hb (Hc & Ht & Hu) E. pose proof (page_in_pages p w old Hw E) as (Ho1 & Ho2 & _).
  destruct (el_replace_ok w (pc_body p) old c Hw Hb Hc Hu (pages_child _ _ _ E)) as (w' & He & Hp). exists w'.
  rewrite He. set (l := if decide (old = c) then _ else _) in *.
  assert (Hm : moved p w w' c l).
  { split; [done|]. intros y Hy. unfold l in Hy. case_decide; [by right|].
    apply instead_in in Hy as [?|Hy]; [by left|]. right. by apply without_in in Hy as [? _]. }
  destruct (moved_pages p w w' c l Hm Hc) as [H1 H2]. split_and!; [done|done| |].
  - rewrite H1. unfold l, put_page. case_decide; [done|].
    rewrite (filter_instead_page (tagged (childtag p) w)) by done. by rewrite (filter_without (tagged (childtag p) w)).
  - rewrite H2. unfold l. case_decide; [done|].
    rewrite (filter_instead_not (fun y => ~ tagged (childtag p) w y)) by tauto.
    rewrite (filter_without (fun y => ~ tagged (childtag p) w y)). apply (without_other (fun y => ~ tagged (childtag p) w y)). tauto.
Qed.
Lemma remove_page w p old : wfs w -> element (pc_body p) w -> old ∈ pages p w ->
  exists w', el_remove (pc_body p) old w = (w', Ok tt) /\ placed (pc_body p) old (WrapperSpec.without old (children (pc_body p) w)) w w' /\
    pages p w' = WrapperSpec.without old (pages p w) /\ others p w' = others p w.
Proof.
  intros Hw Hb E. pose proof (page_in_pages p w old Hw E) as (Ho1 & Ho2 & _).
  destruct (el_remove_ok w (pc_body p) old Hw Hb (pages_child _ _ _ E)) as (w' & He & Hp). exists w'.
  assert (Hm : moved p w w' old (WrapperSpec.without old (children (pc_body p) w))).
  { split; [done|]. intros y Hy. right. by apply without_in in Hy as [? _]. }
  destruct (moved_pages p w w' old _ Hm Ho1) as [H1 H2]. split_and!; [done|done| |].
  - rewrite H1. apply (filter_without (tagged (childtag p) w)).
  - rewrite H2. rewrite (filter_without (fun y => ~ tagged (childtag p) w y)).
    apply (without_other (fun y => ~ tagged (childtag p) w y)). tauto.
Qed.
Lemma Rep_page y K b w x : Rep (sheets y) K b w -> is_Some (w_tabs w !! x) -> page (sheets y) (k_store b) x.
Proof.
  intros R [c Hx]. destruct (rp_tab _ _ _ _ R x c Hx) as (t & He & Hs & Hp & _ & Hk). split_and!; [done| |].
  - cbn [childtag sheets]. fold TABLE. apply (tagged_sub _ _ _ Hs). by eapply pictures_tag.
  - rewrite <- (sub_upwards _ _ _ _ (rp_nodup _ _ _ _ R) Hs). apply Hk. apply (rp_body _ _ _ _ R).
Qed.
Lemma put_page_in old c l (P : N -> Prop) : Forall P l -> P c -> Forall P (put_page old c l).
Proof.
  intros H Hc. unfold put_page. case_decide; [done|]. apply Forall_forall. intros z Hz. rewrite Forall_forall in H.
  apply instead_in in Hz as [->|Hz]; [done|]. apply without_in in Hz as [Hz _]. by apply H.
Qed.
Lemma open_is w x : is_open w x -> is_Some (w_tabs w !! x).
Proof. intros (n & g & f & ->). eauto. Qed.

Lemma step_rep y K b w o : Rep (sheets y) K b w -> sensible o w ->
  exists w', wstep o w (do_book (sheets y) o b).2 w' /\ Rep (sheets y) K (do_book (sheets y) o b).1 w'.
Proof.
  intros R (r & w0 & Hs). pose proof (rp_nodup _ _ _ _ R) as Hw. assert (Hye : element y (k_store b)) by (apply (rp_keep _ _ _ _ R); apply (rp_body _ _ _ _ R)).
  destruct Hs as [x o w n g f Hx Hf|x o w n g f e Hx Hf|x q p w n g f k a u Hx Hp Hk|x o w n g f r g' Hx Ha Hs|x key c w n g f i j row e Hx Hat Hp Hi Hj|strat mc k w x w' Hk Ha|strat mc k w e Hk|strat mc v nr nc w x Hx Hv Hr Hc Hm|strat mc x v w n g f z Hx Hz Hv Hm|
                  strat mc k x w old w' Hx Hk Ha|strat mc k x w e Hx Hk|strat mc k w old w' Hk Ha|strat mc k w e Hk|x w Hx]; cbn [do_book]; unfold abind.
  - destruct (table_rep y K b w x o n g f R Hx Hf) as (b' & -> & R'). cbn. eexists. split; [by constructor|done].
  - destruct (refused_rep y K b w x o n g f e R Hx Hf) as (b' & -> & R'). cbn. eexists. split; [by econstructor|done].
  - destruct (prop_rep y K b w x q p n g f k a u R Hx Hp Hk) as (b' & -> & R'). exists (w_put x (Open n g (u (set_on p a).1)) w). split; [|destruct (set_on p a) as [? [|]]; exact R'].
    match goal with |- wstep _ _ ?r _ => assert (r = (do _ <- (set_on p a).2; Ok None)) as -> end.
    { by destruct (set_on p a) as [? [|]]. }
    by econstructor.
  - destruct (span_rep y K b w x o n g f r g' R Hx Ha Hs) as (b' & -> & R'). exists (w_put x (Open n g' f) w). split; [|destruct r; exact R'].
    match goal with |- wstep _ _ ?r0 _ => assert (r0 = (do _ <- r; Ok None)) as -> end.
    { by destruct r. }
    by econstructor.
  - destruct (value_rep y K b w x key c n g f i j row e R Hx Hat Hp Hi Hj) as (b' & -> & R'). eexists. split; [|destruct (set_value _ _ _ e) as [? [|]]; exact R'].
    match goal with |- wstep _ _ ?r _ => assert (r = (do _ <- (set_value (c_val c) (c_type c) (c_cur c) e).2; Ok None)) as -> end.
    { by destruct (set_value _ _ _ e) as [? [|]]. }
    by econstructor.
  - pose proof (get_rep y K b w k strat mc R) as H. rewrite Hk in H. destruct (H w' Ha) as (b' & -> & R'). cbn. exists w'. split; [by econstructor|done].
  - pose proof (get_rep y K b w k strat mc R) as H. rewrite Hk in H. rewrite H. cbn. exists w. split; [by constructor|done].
  - destruct (new_rep y K b w strat mc v nr nc R Hv Hr Hc Hm) as (b' & x' & -> & Hn & R'). cbn. eexists. split; [by constructor|done].
  - destruct (copy_rep y K b w strat mc x v n g f R Hx Hv Hm) as (b' & x' & -> & Hn & R'). cbn. eexists. split; [by econstructor|done].
  - pose proof (get_rep y K b w k strat mc R) as H. rewrite Hk in H. destruct (H w' Ha) as (b' & E & R').
    destruct (asked_is_open _ _ _ _ _ Ha) as (A1 & A2 & A3 & A4). unfold k_set, abind. rewrite is_valid_obj, E. cbn [w_node obj_of].
    assert (Hye' : element y (k_store b')) by (apply (rp_keep _ _ _ _ R'); apply (rp_body _ _ _ _ R')).
    destruct (replace_page (k_store b') (sheets y) old x) as (S' & E' & Hp & P1 & P2); try done.
    { apply R'. }
    { apply (Rep_page y K b' w'); [done|]. by apply open_is, A4. }
    { rewrite (rp_list _ _ _ _ R'), A2. by apply find_page_in in Hk. }
    unfold on_tree. rewrite E'. cbn [fst snd aret]. exists (w_order (put_page old x (w_list w)) w'). split; [by econstructor|].
    rewrite <- A2. cbn [pc_body sheets] in Hp. eapply (Rep_list y K b' w' x); try done.
    + by apply open_is, A4.
    + rewrite P1. by rewrite (rp_list _ _ _ _ R').
    + apply put_page_in; [apply (rp_in _ _ _ _ R')|]. by apply open_is, A4.
  - pose proof (get_rep y K b w k strat mc R) as H. rewrite Hk in H. unfold k_set, abind. rewrite is_valid_obj, H. cbn. exists w. split; [by constructor|done].
  - pose proof (get_rep y K b w k strat mc R) as H. rewrite Hk in H. destruct (H w' Ha) as (b' & E & R').
    destruct (asked_is_open _ _ _ _ _ Ha) as (A1 & A2 & A3 & A4). unfold k_del, abind. rewrite E.
    assert (Hye' : element y (k_store b')) by (apply (rp_keep _ _ _ _ R'); apply (rp_body _ _ _ _ R')).
    destruct (remove_page (k_store b') (sheets y) old) as (S' & E' & Hp & P1 & P2); try done.
    { apply R'. }
    { rewrite (rp_list _ _ _ _ R'), A2. by apply find_page_in in Hk. }
    unfold on_tree. rewrite E'. cbn [fst snd aret]. exists (w_order (WrapperSpec.without old (w_list w)) w'). split; [by econstructor|].
    rewrite <- A2. cbn [pc_body sheets] in Hp. eapply (Rep_list y K b' w' old); try done.
    + by apply open_is.
    + rewrite P1. by rewrite (rp_list _ _ _ _ R').
    + pose proof (rp_in _ _ _ _ R') as Hin. rewrite Forall_forall in *. intros z [Hz _]%without_in. by apply Hin.
  - pose proof (get_rep y K b w k strat mc R) as H. rewrite Hk in H. unfold k_del, abind. rewrite H. cbn. exists w. split; [by constructor|done].
  - destruct (append_page (k_store b) (sheets y) x) as (S' & E' & [Hp _] & P1 & P2); try done.
    { apply (Rep_page y K b w); [done|]. by apply open_is. }
    unfold k_append, on_tree. rewrite E'. cbn [fst snd aret]. exists (w_order (WrapperSpec.without x (w_list w) ++ [x]) w). split; [by constructor|].
    cbn [pc_body sheets] in Hp. eapply (Rep_list y K b w x); try done.
    + by apply open_is.
    + rewrite P1. by rewrite (rp_list _ _ _ _ R).
    + apply Forall_app. split; [|constructor; [by apply open_is|constructor]]. pose proof (rp_in _ _ _ _ R) as Hin. rewrite Forall_forall in *. intros z [Hz _]%without_in. by apply Hin.
Qed.

Lemma opens_det strat mc e n g f n' g' f' : opens strat mc e n g f -> opens strat mc e n' g' f' -> n = n' /\ g = g' /\ f = f'.
Proof.
  intros (e1 & e2 & E1 & E2 & T1) (e1' & e2' & E1' & E2' & T2). rewrite E1 in E1'. injection E1' as <-. rewrite E2 in E2'. injection E2' as <-.
  destruct T1 as (_ & _ & _ & N1 & _ & G1 & _ & _ & _ & _ & F1), T2 as (_ & _ & _ & N2 & _ & G2 & _ & _ & _ & _ & F2).
  rewrite N1 in N2. injection N2 as <-. by rewrite <- G1, <- G2, F1, F2.
Qed.
Lemma asked_det strat mc w x w1 w2 : asked strat mc w x w1 -> asked strat mc w x w2 -> w1 = w2.
Proof.
  intros [(n & g & f & H)|e n g f H Ho] [(n' & g' & f' & H')|e' n' g' f' H' Ho']; try congruence. rewrite H in H'. injection H' as <-.
  by destruct (opens_det _ _ _ _ _ _ _ _ _ Ho Ho') as (-> & -> & ->).
Qed.
Lemma at_index_inj n i k k' : at_index n i k -> at_index n i k' -> k = k'.
Proof. unfold at_index. lia. Qed.
Lemma at_row_inj n i k k' : at_row n i k -> at_row n i k' -> k = k'.
Proof.
  destruct i as [z|a]; cbn [at_row]; [apply at_index_inj|]. intros (w & c & Hw & -> & _) (w' & c' & Hw' & E & _).
  assert (H1 := address_name w c (Z.of_nat k) Hw ltac:(lia)). rewrite E, (address_name w' c' (Z.of_nat k') Hw') in H1 by lia. injection H1. lia.
Qed.
Lemma at_col_inj n i k k' : at_col n i k -> at_col n i k' -> k = k'.
Proof.
  destruct i as [z|a]; cbn [at_col]; [apply at_index_inj|]. intros (w & r & Hw & Hr & -> & _) (w' & r' & Hw' & Hr' & E & _).
  assert (H1 := address_name w (Z.of_nat k) r Hw Hr). rewrite E, (address_name w' (Z.of_nat k') r' Hw' Hr') in H1. injection H1. lia.
Qed.
Lemma placed_det f q k a u k' a' u' : placed_at f q k a u -> placed_at f q k' a' u' -> a = a' /\ u = u'.
Proof.
  intros H H'. destruct H as [|i n a H H0|i n a H H0]; inversion H' as [|i' n' a2 H2 H3|i' n' a2 H2 H3]; subst; [done| |].
  - rewrite (at_row_inj _ _ _ _ H H2) in *. by simplify_eq.
  - rewrite (at_col_inj _ _ _ _ H H2) in *. by simplify_eq.
Qed.
Lemma refuses_det nr nc o e e' : refuses nr nc o e -> refuses nr nc o e' -> e = e'.
Proof. intros H H'. destruct H; inversion H'; subst; try done; lia. Qed.
Lemma outside_not n i k : outside n i -> at_index n i k -> False.
Proof. unfold outside, at_index. lia. Qed.
Lemma refuses_fine nr nc o e : refuses nr nc o e -> fine o nr nc -> False.
Proof.
  intros H [_ Hf]. destruct (Hf (St (T (L 0 (Nd "" ∅ None None)) []) 0 (TObj 0 [] []))) as [Hf' _]. clear Hf. destruct H; cbn [fits] in Hf'; unfold outside, at_index in *; try lia.
  all: destruct_and?; destruct_or?; naive_solver lia.
Qed.
Lemma wstep_det o w r w1 w2 : wstep o w r w1 -> wstep o w r w2 -> w1 = w2.
Proof.
  intros H1 H2. destruct H1; inversion H2; subst; try congruence.
  all: try (match goal with A : at_cell _ _ _ _ _, B : at_cell _ _ _ _ _ |- _ => idtac end; simplify_eq;
    match goal with A : at_cell _ _ _ _ _, B : at_cell _ _ _ _ _ |- _ => destruct (at_cell_inj _ _ _ _ _ _ _ A B) as [-> ->] end; simplify_eq; done).
  all: try (match goal with A : placed_at _ _ _ _ _, B : placed_at _ _ _ _ _ |- _ => idtac end; simplify_eq;
    match goal with A : placed_at _ _ _ _ _, B : placed_at _ _ _ _ _ |- _ => destruct (placed_det _ _ _ _ _ _ _ _ A B) as [-> ->] end; simplify_eq; done).
  all: try (match goal with A : spans_to _ _ _ _, B : spans_to _ _ _ _ |- _ => idtac end; simplify_eq;
    match goal with A : spans_to _ _ _ _, B : spans_to _ _ _ _ |- _ => destruct (spans_to_det _ _ _ _ _ _ A B) as [_ ->] end; simplify_eq; done).
  all: try (match goal with A : find_page _ _ _ = Ok _, B : find_page _ _ _ = Ok _ |- _ => rewrite A in B; injection B as <- end).
  all: try (match goal with A : asked _ _ _ _ _, B : asked _ _ _ _ _ |- _ => by rewrite (asked_det _ _ _ _ _ _ A B) end).
Qed.
Lemma wstep_fun o w r1 w1 r2 w2 : ~ makes o -> wstep o w r1 w1 -> wstep o w r2 w2 -> r1 = r2 /\ w1 = w2.
Proof.
  intros Hm H1 H2. enough (r1 = r2) as -> by (split; [done|by eapply wstep_det]).
  destruct H1; inversion H2; subst; try congruence; try (by exfalso; apply Hm); simplify_eq.
  all: try (match goal with A : refuses _ _ _ _, B : fine _ _ _ |- _ => by destruct (refuses_fine _ _ _ _ A B) end).
  all: try (match goal with A : refuses _ _ _ _, B : refuses _ _ _ _ |- _ => by rewrite (refuses_det _ _ _ _ _ A B) end).
  all: try (match goal with A : spans_to _ _ _ _, B : spans_to _ _ _ _ |- _ => by destruct (spans_to_det _ _ _ _ _ _ A B) as [-> _] end).
  all: try (match goal with A : placed_at _ _ _ _ _, B : placed_at _ _ _ _ _ |- _ => by destruct (placed_det _ _ _ _ _ _ _ _ A B) as [-> ->] end).
  match goal with A : at_cell _ _ _ _ _, B : at_cell _ _ _ _ _ |- _ => destruct (at_cell_inj _ _ _ _ _ _ _ A B) as [-> ->] end. by simplify_eq.
Qed.
End steps.

(** ** A document that has just been opened *)
Lemma in_kids_ids (k ty : node) z : k ∈ kids ty -> z ∈ ids k -> z ∈ ids ty.
Proof.
  destruct ty as [a ks]. cbn [kids]. intros Hk Hz. pose proof (kids_in a ks) as H. rewrite Forall_forall in H. by apply (H k).
Qed.
Lemma sheets_in_kids ty k : k ∈ sheets_in ty -> k ∈ kids ty /\ ltag k = TABLE.
Proof. unfold sheets_in. rewrite elem_of_list_filter. tauto. Qed.
Lemma NoDup_kids (ty : node) : NoDup (ids ty) -> NoDup (map nid (kids ty)) /\ (forall k k', k ∈ kids ty -> k' ∈ kids ty -> nid k = nid k' -> k = k').
Proof.
  intros Hn. assert (H : NoDup (map nid (kids ty))). { rewrite <- children_root. by apply children_NoDup. }
  split; [done|]. intros k k' Hk Hk' E. apply elem_of_list_lookup in Hk as [i Hi], Hk' as [j Hj].
  assert (i = j) as ->; [|congruence]. eapply (NoDup_lookup _ i j (nid k) H); [|rewrite E]; change (map nid ?l) with (nid <$> l); rewrite list_lookup_fmap; [by rewrite Hi|by rewrite Hj].
Qed.
Lemma NoDup_map_filter {A B} (f : A -> B) (P : A -> Prop) `{!forall x, Decision (P x)} (l : list A) : NoDup (map f l) -> NoDup (map f (filter P l)).
Proof.
  induction l as [|a l IH]; [done|]. intros [Ha Hl]%NoDup_cons. rewrite filter_cons. case_decide; [|by apply IH]. apply NoDup_cons. split; [|by apply IH].
  intros Hin. apply Ha. apply elem_of_list_fmap in Hin as (b & -> & Hb). apply elem_of_list_filter in Hb as [_ Hb]. by apply (elem_of_list_fmap_1 f).
Qed.
Lemma book_of_lookup ty x c : NoDup (ids ty) -> w_tabs (book_of ty) !! x = Some c <-> exists k, k ∈ sheets_in ty /\ nid k = x /\ c = Stored (erase k).
Proof.
  intros Hn. cbn. rewrite <- elem_of_list_to_map.
  - rewrite elem_of_list_fmap. split; [intros (k & [= -> ->] & Hk); eauto|intros (k & Hk & <- & ->); eauto].
  - rewrite <- list_fmap_compose. change (NoDup (map nid (sheets_in ty))). apply NoDup_map_filter. by apply NoDup_kids.
Qed.
Lemma Rep_start `{U : Unicode} S n ca ty : NoDup (ids S) -> Forall (fun z => z < n)%N (ids S) -> element (nid ty) S -> sub (nid ty) S = Some ty ->
  Forall (fun k => ca !! nid k = None) (sheets_in ty) -> Rep (sheets (nid ty)) (rest_of S ty) (Bk S n ca) (book_of ty).
Proof.
  intros Hw Hf He Hs Hca. pose proof (sub_wfs _ _ _ Hw Hs) as Hwt.
  assert (Hk : forall k, k ∈ kids ty -> sub (nid k) S = Some k /\ nid k ∈ children (nid ty) S).
  { intros k Hk. split; [apply (el_kids_sub S (nid ty)); [done|]; unfold el_kids; by rewrite Hs|]. unfold children. rewrite Hs. by apply (elem_of_list_fmap_1 nid). }
  constructor; cbn [k_store k_nxt k_cache pc_body sheets kp kd kc oc rest_of].
  - done.
  - done.
  - rewrite <- xmlchildren_pages by done. unfold xmlchildren, el_kids. cbn [pc_body childtag sheets]. by rewrite Hs.
  - cbn [book_of w_list]. apply Forall_forall. intros x Hx. apply elem_of_list_fmap in Hx as (k & -> & Hx). exists (Stored (erase k)). apply book_of_lookup; eauto.
  - split; [done|]. apply Forall_forall. intros k [Hx _]%sheets_in_kids. destruct (Hk k Hx) as [K1 K2]. by apply (child_not_above S _ (nid k)).
  - intros x c Hx. apply book_of_lookup in Hx as (k & Hx & <- & ->); [|done]. rewrite Forall_forall in Hca. specialize (Hca k Hx). pose proof Hx as [Hx1 Hx2]%sheets_in_kids.
    destruct (Hk k Hx1) as [K1 K2]. exists k. split_and!; try done.
    + by eapply child_element.
    + intros x' [c' H'] Hne. apply book_of_lookup in H' as (k' & H' & <- & ->); [|done]. apply sheets_in_kids in H' as [H' _].
      apply (child_outside S (nid k) k (nid ty)); try done; [by apply (child_not_above S _ (nid k))|by apply Hk].
    + intros z [_ Hz]. rewrite Forall_forall in Hz. by apply Hz.
  - intros z [Hz1 Hz2]. split_and!; try done. intros Hne. split; [done|]. intros x [c Hx] Hin. apply book_of_lookup in Hx as (k & Hx & <- & ->); [|done].
    apply sheets_in_kids in Hx as [Hx _]. destruct (Hk k Hx) as [_ K2]. apply Hne. by apply (one_parent S z (nid ty) (nid k)).
  - done.
Qed.

(** ** The rest of the document *)
Lemma map_nid_ext (f : node -> node) l l' : map nid l' = map nid l ->
  (forall i k k', l !! i = Some k -> l' !! i = Some k' -> k' = f k) -> l' = map f l.
Proof.
  revert l'. induction l as [|k l IH]; intros [|k' l'] H Hf; try done. cbn in H. injection H as _ H. cbn. f_equal; [by apply (Hf 0)|].
  apply IH; [done|]. intros i a a' Ha Ha'. by apply (Hf (S i)).
Qed.
Lemma apart_kids (p k c : node) z : NoDup (ids p) -> k ∈ kids p -> c ∈ kids p -> nid c <> nid k -> z ∈ ids c -> z ∉ ids k.
Proof.
  intros Hn Hk Hc Hne Hz Hz'. apply Hne. f_equal. apply (elem_flat_pos ids (kids p) c k z); try done. by apply wfs_kids.
Qed.
