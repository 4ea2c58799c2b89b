(** The document around the sheets, and saving. *)
From Verif Require Export BookProofs TextDocProofs SheetSpec.
From Verif Require Import SheetProofs T_Table DocumentProofs.

Lemma regrow S S' (p k k' : node) : wfs S -> wfs S' -> sub (nid p) S = Some p -> k ∈ kids p -> sub (nid k) S' = Some k' ->
  (forall z, z ∈ ids p -> z ∉ ids k -> z ∈ ids S' /\ children z S' = children z S /\ data z S' = data z S) ->
  sub (nid p) S' = Some (T (root p) (map (fun c => if decide (nid c = nid k) then k' else c) (kids p))).
Proof.
  intros Hw Hw' Hs Hk Hk' H. pose proof (sub_wfs _ _ _ Hw Hs) as Hwp.
  assert (Hpk : nid p ∉ ids k). { intros Hin. apply (proj2 (wfs_kids p Hwp)). apply elem_of_flat_map. eauto. }
  destruct (H (nid p) (nid_in p) Hpk) as (H1 & H2 & H3). destruct (sub_total _ _ H1) as [p' Hp'].
  pose proof (sub_nid _ _ _ Hp') as Hn. unfold children in H2. unfold data in H3. rewrite Hs, Hp' in H2, H3. cbn in H2, H3. injection H3 as H3.
  rewrite Hp'. f_equal. destruct p' as [a' ks'], p as [a ks]. cbn [kids root] in *. f_equal; [destruct a, a'; cbn in *; congruence|].
  apply map_nid_ext; [done|]. intros i c c' Hc Hc'.
  assert (E : nid c' = nid c). { assert (X : map nid ks' !! i = map nid ks !! i) by (by rewrite H2). change (map nid ?l) with (nid <$> l) in X. rewrite !list_lookup_fmap, Hc, Hc' in X. cbn in X. congruence. }
  assert (Hs' : sub (nid c') S' = Some c'). { apply (el_kids_sub S' (nid (T a ks))); [done|]. unfold el_kids. rewrite Hp'. by eapply elem_of_list_lookup_2. }
  rewrite E in Hs'. destruct (decide (nid c = nid k)) as [Ek|Ek]; [rewrite Ek in Hs'; congruence|].
  apply elem_of_list_lookup_2 in Hc. enough (sub (nid c) S' = Some c) by congruence. apply (sub_ext S S'); [done|done| |].
  - apply (el_kids_sub S (nid (T a ks))); [done|]. unfold el_kids. by rewrite Hs.
  - intros z Hz. apply H; [by apply (in_kids_ids c)|]. by apply (apart_kids (T a ks) k c).
Qed.
Lemma in_first_map t (k k' : node) ks : NoDup (map nid ks) -> head (filter (fun c => ltag c = t) ks) = Some k ->
  map erase (map (fun c => if decide (nid c = nid k) then k' else c) ks) = in_first t (fun _ => erase k') (map erase ks).
Proof.
  intros Hn. rewrite map_map. induction ks as [|c ks IH]; [done|]. cbn in Hn. apply NoDup_cons in Hn as [Hc Hn]. rewrite filter_cons. cbn [map in_first].
  destruct (decide (e_tag (erase c) = t)) as [E'|E'], (decide (ltag c = t)) as [E|E]; try by rewrite ltag_erase in E.
  - intros [= ->]. rewrite decide_True by done. f_equal. clear -Hc. induction ks as [|x ks IH]; [done|]. cbn in *. apply not_elem_of_cons in Hc as [H1 H2].
    rewrite decide_False by congruence. f_equal. by apply IH.
  - intros Hk. rewrite decide_False; [f_equal; by apply IH|]. intros Ec. apply Hc. rewrite Ec. apply (elem_of_list_fmap_1 nid).
    assert (k ∈ filter (fun c => ltag c = t) ks) as Hin by (destruct (filter _ ks); [done|]; injection Hk as ->; by left). by apply elem_of_list_filter in Hin as [_ ?].
Qed.
Lemma head_replace t (k k' : node) ks : NoDup (map nid ks) -> head (filter (fun c => ltag c = t) ks) = Some k -> ltag k' = t ->
  head (filter (fun c => ltag c = t) (map (fun c => if decide (nid c = nid k) then k' else c) ks)) = Some k'.
Proof.
  intros Hn Hk Ht. induction ks as [|c ks IH]; [done|]. cbn in Hn. apply NoDup_cons in Hn as [Hc Hn]. rewrite filter_cons in Hk. cbn [map].
  destruct (decide (ltag c = t)) as [E|E].
  - injection Hk as ->. rewrite decide_True by done. rewrite filter_cons, decide_True by done. done.
  - rewrite (decide_False (P := nid c = nid k)).
    + rewrite filter_cons, decide_False by done. by apply IH.
    + intros Ec. apply Hc. rewrite Ec. apply (elem_of_list_fmap_1 nid).
    assert (k ∈ filter (fun c => ltag c = t) ks) as Hin by (destruct (filter _ ks); [done|]; injection Hk as ->; by left). by apply elem_of_list_filter in Hin as [_ ?].
Qed.
Lemma spreadsheet_parts r y : spreadsheet_of r = Some y -> exists b, head (filter (fun k => ltag k = "office:body"%string) (kids r)) = Some b /\
  b ∈ kids r /\ ltag b = "office:body"%string /\ head (filter (fun k => ltag k = "office:spreadsheet"%string) (kids b)) = Some y /\ y ∈ kids b /\ ltag y = "office:spreadsheet"%string.
Proof.
  unfold spreadsheet_of. destruct (head (filter _ (kids r))) as [b|] eqn:E; [|done]. cbn. intros H. exists b.
  assert (Hb : b ∈ filter (fun k => ltag k = "office:body"%string) (kids r)) by (destruct (filter _ (kids r)); [done|]; injection E as ->; by left).
  assert (Hy : y ∈ filter (fun k => ltag k = "office:spreadsheet"%string) (kids b)) by (destruct (filter _ (kids b)); [done|]; injection H as ->; by left).
  apply elem_of_list_filter in Hb as [? ?], Hy as [? ?]. done.
Qed.
Lemma tagged_root t w x k : sub x w = Some k -> PagesSpec.tagged t w x <-> ltag k = t.
Proof. intros Hs. unfold PagesSpec.tagged, data. rewrite Hs. cbn. split; [intros [= E]; exact E|intros <-; done]. Qed.
Lemma map_filter_tagged (P : node -> Prop) (Q : N -> Prop) `{!forall x, Decision (P x)} `{!forall x, Decision (Q x)} (l : list node) :
  (forall k, k ∈ l -> P k <-> Q (nid k)) -> map nid (filter P l) = filter Q (map nid l).
Proof.
  induction l as [|k l IH]; intros HPQ; [done|]. cbn [map]. rewrite !filter_cons. assert (E : P k <-> Q (nid k)) by (apply HPQ; by left).
  assert (IHl : map nid (filter P l) = filter Q (map nid l)). { apply IH. intros c Hc. apply HPQ. by right. }
  destruct (decide (P k)), (decide (Q (nid k))); cbn; rewrite ?IHl; tauto.
Qed.

Section rest.
Context `{U : Unicode}.
Lemma rest_tree S0 root0 y0 b w : wfs S0 -> element (nid root0) S0 -> sub (nid root0) S0 = Some root0 -> spreadsheet_of root0 = Some y0 ->
  Rep (sheets (nid y0)) (rest_of S0 y0) b w ->
  exists r y, sub (nid root0) (k_store b) = Some r /\ element (nid root0) (k_store b) /\ spreadsheet_of r = Some y /\ root y = root y0 /\ sub (nid y) (k_store b) = Some y /\
    erase r = with_body "office:spreadsheet" (erase y) (erase root0) /\
    filter (fun k => ~ ltag k = TABLE) (kids y) = filter (fun k => ~ ltag k = TABLE) (kids y0) /\
    map nid (sheets_in y) = w_list w /\
    Forall2 (fun x k => exists c, w_tabs w !! x = Some c /\ written_as c (erase k)) (w_list w) (sheets_in y).
Proof.
  intros Hw He Hs Hy R. pose proof (rp_nodup _ _ _ _ R) as Hw'. set (S' := k_store b) in *.
  destruct (spreadsheet_parts _ _ Hy) as (ob & Hob & Iob & Tob & Hy1 & Iy & Ty).
  assert (Sob : sub (nid ob) S0 = Some ob). { apply (el_kids_sub S0 (nid root0)); [done|]. unfold el_kids. by rewrite Hs. }
  assert (Sy : sub (nid y0) S0 = Some y0). { apply (el_kids_sub S0 (nid ob)); [done|]. unfold el_kids. by rewrite Sob. }
  pose proof (sub_wfs _ _ _ Hw Hs) as Wr. pose proof (sub_wfs _ _ _ Hw Sob) as Wob. pose proof (sub_wfs _ _ _ Hw Sy) as Wy.
  assert (Er : forall z, z ∈ ids root0 -> element z S0).
  { intros z Hz. by eapply tree_elements. }
  assert (Keep : forall z, z ∈ ids root0 -> Forall (fun k => z ∉ ids k) (sheets_in y0) -> z <> nid y0 ->
    z ∈ ids S' /\ children z S' = children z S0 /\ data z S' = data z S0).
  { intros z Hz Hk Hne. destruct (rp_keep _ _ _ _ R z) as (K1 & K2 & K3); [split; [by apply Er|done]|]. cbn [rest_of kd kc] in *. apply element_ids in K1 as [K1 _]; [|done].
    split_and!; [done|by apply K3|done]. }
  assert (Yob : forall z, z ∈ ids y0 -> z ∈ ids ob) by (intros z; by apply in_kids_ids).
  assert (Obr : forall z, z ∈ ids ob -> z ∈ ids root0) by (intros z; by apply in_kids_ids).
  assert (Outy : forall z, z ∉ ids y0 -> Forall (fun k => z ∉ ids k) (sheets_in y0) /\ z <> nid y0).
  { intros z Hz. split; [|intros ->; apply Hz, nid_in]. apply Forall_forall. intros k [Hk _]%sheets_in_kids Hin. apply Hz. by apply (in_kids_ids k). }
  (* the body *)
  assert (Hky : element (nid y0) S' /\ data (nid y0) S' = data (nid y0) S0).
  { destruct (rp_keep _ _ _ _ R (nid y0)) as (K1 & K2 & _); [exact (rp_body _ _ _ _ R)|]. done. }
  destruct Hky as [Ey Dy]. apply element_ids in Ey as [Ey Ey']; [|done]. destruct (sub_total _ _ Ey) as [y Sy']. pose proof (sub_nid _ _ _ Sy') as Ny.
  assert (Ry : root y = root y0). { unfold data in Dy. rewrite Sy, Sy' in Dy. cbn in Dy. injection Dy as Dy. destruct y as [[] ?], y0 as [[] ?]. cbn in *. congruence. }
  assert (Wy' := sub_wfs _ _ _ Hw' Sy').
  assert (Ky : forall k, k ∈ kids y -> sub (nid k) S' = Some k). { intros k Hk. apply (el_kids_sub S' (nid y0)); [done|]. unfold el_kids. by rewrite Sy'. }
  assert (Ky0 : forall k, k ∈ kids y0 -> sub (nid k) S0 = Some k). { intros k Hk. apply (el_kids_sub S0 (nid y0)); [done|]. unfold el_kids. by rewrite Sy. }
  assert (Hoth : filter (fun k => ~ ltag k = TABLE) (kids y) = filter (fun k => ~ ltag k = TABLE) (kids y0)).
  { assert (Hids : map nid (filter (fun k => ~ ltag k = TABLE) (kids y)) = map nid (filter (fun k => ~ ltag k = TABLE) (kids y0))).
    { pose proof (rp_others _ _ _ _ R) as H. cbn [rest_of oc] in H. unfold PagesSpec.others in H. cbn [pc_body childtag sheets] in H.
      unfold children in H. fold S' in H. rewrite Sy', Sy in H.
      rewrite (map_filter_tagged _ (fun c => ~ PagesSpec.tagged TABLE S' c)) by (intros k Hk; by rewrite (tagged_root _ _ _ _ (Ky k Hk))).
      rewrite (map_filter_tagged _ (fun c => ~ PagesSpec.tagged TABLE S0 c)) by (intros k Hk; by rewrite (tagged_root _ _ _ _ (Ky0 k Hk))). exact H. }
    rewrite <- (map_id (filter (fun k => ~ ltag k = TABLE) (kids y0))). apply (map_nid_ext id); [done|].
    intros i k k' Hi Hi'. assert (N : nid k' = nid k).
    { apply (f_equal (lookup i)) in Hids. change (map nid ?l) with (nid <$> l) in Hids. rewrite !list_lookup_fmap, Hi, Hi' in Hids. cbn in Hids. congruence. }
      apply elem_of_list_lookup_2, elem_of_list_filter in Hi as [Tk Hi]. apply elem_of_list_lookup_2, elem_of_list_filter in Hi' as [Tk' Hi'].
      pose proof (Ky k' Hi') as K1. rewrite N in K1. enough (sub (nid k) S' = Some k) by (cbn; congruence).
      apply (sub_ext S0 S'); [done|done|by apply Ky0|]. intros z Hz. apply Keep; [by apply Obr, Yob, (in_kids_ids k)| |].
      + apply Forall_forall. intros q [Hq Tq]%sheets_in_kids. apply (apart_kids y0 q k); try done. intros E. apply Tk. destruct (NoDup_kids y0 Wy) as [_ U1]. by rewrite (U1 k q Hi Hq E).
      + intros ->. apply (proj2 (wfs_kids y0 Wy)). apply elem_of_flat_map. eauto. }
  (* above *)
  assert (Gob := regrow S0 S' ob y0 y Hw Hw' Sob Iy Sy'). destruct (NoDup_kids ob Wob) as [Nob _]. destruct (NoDup_kids root0 Wr) as [Nr _].
  set (ob' := T (root ob) (map (fun c => if decide (nid c = nid y0) then y else c) (kids ob))) in Gob.
  assert (Sob' : sub (nid ob) S' = Some ob'). { apply Gob. intros z Hz1 Hz2. destruct (Outy z Hz2). apply Keep; [by apply Obr|done|done]. } clear Gob.
  assert (Gr := regrow S0 S' root0 ob ob' Hw Hw' Hs Iob Sob').
  set (r := T (root root0) (map (fun c => if decide (nid c = nid ob) then ob' else c) (kids root0))) in Gr.
  assert (Sr : sub (nid root0) S' = Some r). { apply Gr. intros z Hz1 Hz2. destruct (Outy z) as [? ?]; [intros ?; by apply Hz2, Yob|]. apply Keep; done. } clear Gr.
  assert (Ty' : ltag y = "office:spreadsheet"%string). { unfold ltag in *. by rewrite Ry. }
  assert (Kr : element (nid root0) S').
  { destruct (rp_keep _ _ _ _ R (nid root0)) as (K1 & _); [|done]. split; [done|]. apply Outy. intros Hin. apply Yob in Hin. apply (proj2 (wfs_kids root0 Wr)). apply elem_of_flat_map. eauto. }
  assert (Hmap : map nid (sheets_in y) = w_list w).
  { rewrite <- (rp_list _ _ _ _ R). unfold pages. cbn [pc_body childtag sheets]. unfold children. fold S'. rewrite Sy'. apply map_filter_tagged.
    intros k Hk. by rewrite (tagged_root _ _ _ _ (Ky k Hk)). }
  exists r, y. split_and!; [done|done| |done|by rewrite Ny| |done|done|].
  - unfold spreadsheet_of. cbn [r kids]. rewrite (head_replace "office:body" ob ob' _ Nr Hob) by done. cbn [mbind option_bind ob' kids].
    by apply head_replace.
  - assert (Eob : erase ob' = within "office:spreadsheet" (fun _ => erase y) (erase ob)).
    { unfold within, ob'. rewrite erase_T, erase_root, erase_kids. f_equal. by apply in_first_map. }
    assert (Er' : erase r = within "office:body" (fun _ => erase ob') (erase root0)).
    { unfold within, r. rewrite erase_T, erase_root, erase_kids. f_equal. by apply in_first_map. }
    rewrite Er'. unfold with_body. apply (within_ext _ _ _ _ (erase ob)); [|done]. unfold findall. rewrite erase_kids.
    etransitivity; [symmetry; apply head_erase|]. by rewrite Hob.
  - rewrite <- Hmap. apply Forall2_fmap_l. apply Forall_Forall2_diag. apply Forall_forall. intros k Hk. pose proof (rp_in _ _ _ _ R) as Hin. rewrite Forall_forall in Hin.
    assert (Hx : nid k ∈ w_list w) by (rewrite <- Hmap; by apply (elem_of_list_fmap_1 nid)). destruct (Hin _ Hx) as [c Hc]. exists c. split; [done|].
    destruct (rp_tab _ _ _ _ R _ _ Hc) as (t & _ & St & Pt & _). apply sheets_in_kids in Hk as [Hk _]. pose proof (Ky k Hk) as Hk'. fold S' in St. rewrite St in Hk'. injection Hk' as ->.
    destruct c; cbn in *; [by destruct Pt as (_ & _ & ?)|]. by destruct Pt as (? & _ & _ & _ & _ & ?).
Qed.
End rest.

(** ** Saving *)
Lemma filter_rest u (l l' : list elem) : u <> TABLE -> filter (fun k => ~ e_tag k = TABLE) l = filter (fun k => ~ e_tag k = TABLE) l' ->
  filter (fun k => e_tag k = u) l = filter (fun k => e_tag k = u) l'.
Proof.
  intros Hu H. assert (HF : forall q : list elem, filter (fun k => e_tag k = u) q = filter (fun k => e_tag k = u) (filter (fun k => ~ e_tag k = TABLE) q)).
  { intros q. induction q as [|k q IH]; [done|]. rewrite (filter_cons (fun k => ~ e_tag k = TABLE)). destruct (decide (~ e_tag k = TABLE)) as [Hk|Hk].
    - rewrite !filter_cons. destruct (decide (e_tag k = u)); by rewrite IH.
    - rewrite filter_cons, decide_False; [done|]. intros E. apply Hk. congruence. }
  by rewrite HF, H, <- HF.
Qed.
Lemma filter_not_erase l : map erase (filter (fun k => ~ ltag k = TABLE) l) = filter (fun k => ~ e_tag k = TABLE) (map erase l).
Proof.
  induction l as [|k l IH]; [done|]. cbn [map]. rewrite !filter_cons. destruct (decide (~ ltag k = TABLE)) as [H|H], (decide (~ e_tag (erase k) = TABLE)) as [H'|H']; rewrite ltag_erase in H; try done.
  cbn. by rewrite IH.
Qed.
Lemma complete_sheets `{B : Bytes} g y y' : let t := "office:spreadsheet"%string in
  complete t g -> body_of t (objects g 2) = Some y -> root y' = root y ->
  filter (fun k => ~ e_tag k = TABLE) (kids y') = filter (fun k => ~ e_tag k = TABLE) (kids y) ->
  complete t (set_object 2 (with_body t y' (objects g 2)) g).
Proof.
  intros t Hc Hy Hr Hk. assert (Ht : e_tag y = t) by (by eapply body_tag). assert (Ht' : e_tag y' = t) by (unfold e_tag in *; by rewrite Hr).
  assert (Hfa : forall u, u ∈ DECLS -> findall u y' = findall u y).
  { intros u Hu. unfold findall. apply filter_rest; [|done]. intros ->. revert Hu. dec_vm. }
  destruct (body_parts _ _ _ Hy) as (b & Hb & Hyb). pose proof Hc as (H0 & H1 & (H2 & H3 & b0 & y0 & Hb0 & Hy0 & H4) & H5 & H6).
  rewrite Hb in Hb0. injection Hb0 as <-. rewrite Hyb in Hy0. injection Hy0 as <-.
  pose proof (body_of_with t _ _ y' Hy Ht') as Hy'. destruct (body_parts _ _ _ Hy') as (b' & Hb' & Hyb').
  unfold complete. change (objects (set_object 2 (with_body t y' (objects g 2)) g) 0) with (objects g 0).
  change (objects (set_object 2 (with_body t y' (objects g 2)) g) 1) with (objects g 1). change (objects (set_object 2 (with_body t y' (objects g 2)) g) 2) with (with_body t y' (objects g 2)).
  change (manifest (set_object 2 (with_body t y' (objects g 2)) g)) with (manifest g).
  split; [done|]. split; [done|]. split; [|split].
  - split; [done|]. split; [apply (has_within _ _ _ _ b Hb); [|done]; rewrite within_tag; by apply findall_tag_head in Hb|]. exists b', y'. split_and!; try done.
    unfold has_children in *. rewrite Forall_forall in *. intros u Hu. rewrite (Hfa u Hu). by apply H4.
  - intros e1 b1 y1 u k [= <-] Hb1 Hy1 Hu Hk1. rewrite Hb' in Hb1. injection Hb1 as <-. rewrite Hyb' in Hy1. injection Hy1 as <-. rewrite (Hfa u Hu) in Hk1.
    by apply (H5 (objects g 2) b y u k).
  - apply Forall_cons in H6 as [T1 H6]. apply Forall_cons in H6 as [T2 H6]. apply Forall_cons in H6 as [T3 H6]. apply Forall_cons in H6 as [T4 H6].
    repeat (apply Forall_cons_2; [done|]). apply Forall_nil_2.
Qed.

Lemma parsed_descendants tg e : descendants tg (parsed e) = map parsed (descendants tg e).
Proof.
  induction e as [a ks IH] using tree_ind'. cbn [parsed descendants].
  induction IH as [|k ks Hk _ IH]; [done|]. cbn [map flat_map]. rewrite !map_app, Hk, IH. do 2 f_equal. rewrite parsed_tag. by destruct (decide (e_tag k = tg)).
Qed.
Section tab.
Context `{U : Unicode}.
Lemma parsed_no_repeat u e : no_repeat u e -> no_repeat u (parsed e).
Proof. unfold no_repeat. by rewrite parsed_get. Qed.
Lemma breadth_map g : breadth (map (map parsed) g) = breadth g.
Proof. destruct g as [|r g]; [done|]. cbn. by rewrite map_length. Qed.
Lemma parsed_attrs_of e : attrs_of (parsed e) = attrs_of e.
Proof. by destruct e. Qed.
Lemma parsed_tabular e n g f : tabular e n g f -> tabular (parsed e) n (map (map parsed) g) f.
Proof.
  intros (T1 & (T2 & T2') & T3 & A1 & A2 & G & L & P1 & P2 & Hr & ->). unfold tabular, unrepeated, flat. rewrite !parsed_descendants, breadth_map, !map_length. split_and!; try done.
  - by rewrite parsed_tag.
  - rewrite Forall_map. eapply Forall_impl; [exact T2|]. cbv beta. intros r [R1 R2]. split; [by apply parsed_no_repeat|]. rewrite parsed_kids, Forall_map.
    eapply Forall_impl; [exact R2|]. intros c. apply parsed_no_repeat.
  - rewrite Forall_map. eapply Forall_impl; [exact T2'|]. intros c. apply parsed_no_repeat.
  - rewrite <- map_app, Forall_map. eapply Forall_impl; [exact T3|]. cbv beta. intros r [R1 R2]. by rewrite !parsed_descendants, R1, R2.
  - by rewrite parsed_get.
  - rewrite <- G, !map_map. apply map_ext. intros r. by rewrite parsed_kids.
  - rewrite Forall_map. eapply Forall_impl; [exact Hr|]. cbv beta. intros r. by rewrite map_length.
  - rewrite parsed_attrs_of, !map_map. f_equal; apply map_ext; intros r; by rewrite parsed_attrs_of.
Qed.
Lemma tabular_opens e n g f strat mc : tabular e n g f -> max_ok strat mc -> opens strat mc e n g f.
Proof.
  intros Ht Hm. exists e, e. assert (Hl : exists t : node, erase t = e) by (exists (label e 0).1; apply label_ok). destruct Hl as [t <-].
  assert (Hfl : flat (erase t)) by apply Ht. pose proof Ht as (T1 & T2 & T3 & A1 & A2 & <- & L & P1 & P2 & Hr & ->)%tabular_parts.
  destruct (unrepeated_normal _ t T1 Hr T2) as (N1 & N2 & N3). split_and!; try done.
  - by apply (normalize_normal _ _ _ (breadth (cells t))).
  - apply expand_normal; try done. intros E. by apply Hm.
Qed.
End tab.

Lemma parsed_twice e : parsed (parsed e) = parsed e.
Proof.
  induction e as [a ks IH] using tree_ind'. cbn [parsed]. f_equal; [by destruct a as [? ? [[]|] [[]|]]|].
  rewrite map_map. induction IH as [|k ks Hk _ IH]; [done|]. cbn. by rewrite Hk, IH.
Qed.
Lemma body_of_spreadsheet r e : body_of "office:spreadsheet" (erase r) = Some e -> exists y, spreadsheet_of r = Some y /\ erase y = e.
Proof.
  unfold body_of, findall, spreadsheet_of. rewrite erase_kids. rewrite <- (head_erase "office:body"). destruct (head (filter _ (kids r))) as [b|]; [|done].
  cbn [option_map mbind option_bind]. rewrite erase_kids, <- (head_erase "office:spreadsheet"). destruct (head (filter _ (kids b))) as [y|]; [|done]. cbn. intros [= <-]. by exists y.
Qed.
Lemma spreadsheet_body_of r y : spreadsheet_of r = Some y -> body_of "office:spreadsheet" (erase r) = Some (erase y).
Proof.
  intros (q & Q1 & _ & _ & Q2 & _)%spreadsheet_parts. unfold body_of, findall. rewrite erase_kids.
  rewrite <- (head_erase "office:body"), Q1. cbn [option_map mbind option_bind]. rewrite erase_kids. rewrite <- (head_erase "office:spreadsheet"), Q2. done.
Qed.
Lemma map_Forall2 {A B C} (f : A -> C) (g : B -> C) l l' : map f l = map g l' -> Forall2 (fun a b => f a = g b) l l'.
Proof. revert l'. induction l as [|a l IH]; intros [|b l'] H; try done. injection H as H1 H2. constructor; [done|]. by apply IH. Qed.
Lemma reopened_body `{U : Unicode} `{F : PyFloat} (w : wb) (y' y2 : node) : NoDup (ids y2) -> erase y2 = parsed (erase y') ->
  Forall2 (fun x k => exists c, w_tabs w !! x = Some c /\ written_as c (erase k)) (w_list w) (sheets_in y') ->
  reopened w (book_of y2) /\ map erase (not_sheets y2) = map parsed (map erase (not_sheets y')).
Proof.
  intros Hn E H. assert (Ek : map erase (kids y2) = map parsed (map erase (kids y'))) by (by rewrite <- !erase_kids, E, parsed_kids). split.
  - assert (Hs : map erase (sheets_in y2) = map (fun k => parsed (erase k)) (sheets_in y')).
    { unfold sheets_in. rewrite filter_erase, Ek, <- (map_map erase parsed), filter_erase. apply parsed_filter. intros k. by rewrite parsed_tag. }
    apply map_Forall2 in Hs. unfold reopened. cbn [book_of w_list]. change (map nid ?l) with (nid <$> l). apply Forall2_fmap_r.
    apply Forall2_same_length_lookup. pose proof (Forall2_length _ _ _ Hs) as Hl1. pose proof (Forall2_length _ _ _ H) as Hl2. split; [congruence|].
    intros i x k2 Hx Hk2. destruct (Forall2_lookup_l _ _ _ _ _ H Hx) as (k & Hk1 & c & Hc & Hk).
    destruct (Forall2_lookup_l _ _ _ _ _ Hs Hk2) as (k' & Hk' & Ek2). rewrite Hk1 in Hk'. injection Hk' as <-.
    exists c, (erase k2). split_and!; try done.
    + apply book_of_lookup; [done|]. exists k2. split_and!; try done. by eapply elem_of_list_lookup_2.
    + rewrite Ek2. destruct c as [e|n g f]; cbn in *; [by rewrite Hk|]. pose proof (parsed_tabular _ _ _ _ Hk) as Hp. split; [apply Hp|]. split; [apply parsed_twice|]. intros strat mc Hm. by apply tabular_opens.
  - unfold not_sheets. fold TABLE. rewrite !filter_not_erase, Ek. apply parsed_filter. intros k. by rewrite parsed_tag.
Qed.
