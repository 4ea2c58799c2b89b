(** The document around the pages, and saving. *)
From Verif Require Export DrawingProofs TextDocProofs.
From Verif Require Import BookProofs BookSaved SheetProofs DocumentProofs TableReload.

Lemma head_nid l (k : node) : NoDup (map nid l) -> k ∈ l -> head (filter (fun q => nid q = nid k) l) = Some k.
Proof.
  induction l as [|q l IH]; intros Hn Hk; [by apply elem_of_nil in Hk|]. cbn in Hn. apply NoDup_cons in Hn as [Hq Hn]. rewrite filter_cons.
  destruct (decide (nid q = nid k)) as [E|E].
  - apply elem_of_cons in Hk as [->|Hk]; [done|]. exfalso. apply Hq. rewrite E. by apply (elem_of_list_fmap_1 nid).
  - apply IH; [done|]. apply elem_of_cons in Hk as [->|Hk]; done.
Qed.

Section rest.
Context `{U : Unicode}.
Lemma pages_tree t S n r y m d : drawing t S n r y -> DrawingProofs.Rep S (DrawingProofs.frame r y) (nid y) m d (map nid (other_kids y)) ->
  exists r' y', sub (nid r) (d_store m) = Some r' /\ element (nid r) (d_store m) /\ drawing_body t r' = Some y' /\ root y' = root y /\
    erase r' = with_body t (erase y') (erase r) /\ other_kids y' = other_kids y /\ map nid (kids y') = pd_list d /\
    map erase (kids y') = body_items y d /\ (forall k, k ∈ kids y' -> sub (nid k) (d_store m) = Some k) /\
    map (fun x => pd_trees d !! x) (pd_pages d) = map Some (map erase (page_kids y')).
Proof.
  intros HD HR. pose proof HD as (Hw & Hn & Hr & Ht & Hy). destruct (DrawingProofs.subs_of _ _ _ _ _ HD) as (Sr & Sy & Ey & Iy & Iyr).
  pose proof HR as [Hw' Hnew Hb Hdb Hlist Htree Hap Hpar Hkn Hfr Hot]. set (S' := d_store m) in *.
  destruct (DrawingProofs.body_parts t r y Hy) as (ob & Hob & Iob & Hy1 & Iy1 & Ty).
  assert (Sob : sub (nid ob) S = Some ob). { apply (el_kids_sub S (nid r)); [done|]. unfold el_kids. by rewrite Sr. }
  pose proof (sub_wfs _ _ _ Hw Sr) as Wr. pose proof (sub_wfs _ _ _ Hw Sob) as Wob. pose proof (sub_wfs _ _ _ Hw Sy) as Wy.
  assert (Keep : forall z, DrawingProofs.frame r y z -> z ∈ ids S' /\ children z S' = children z S /\ data z S' = data z S).
  { intros z Hz. destruct (Hfr z Hz) as (_ & F2 & F3 & F4). apply element_ids in F2 as [F2 _]; [|done]. done. }
  assert (Yob : forall z, z ∈ ids y -> z ∈ ids ob) by (intros z; by apply in_kids_ids).
  assert (Obr : forall z, z ∈ ids ob -> z ∈ ids r) by (intros z; by apply in_kids_ids).
  assert (Outy : forall z, z ∈ ids r -> z ∉ ids y -> DrawingProofs.frame r y z).
  { intros z Hz Hzy. split; [done|]. split; [intros ->; apply Hzy, nid_in|]. apply Forall_forall. intros k [Hk _]%page_kids_in Hin. apply Hzy. by apply (in_kids_ids k). }
  (* the body *)
  destruct (element_sub S' (nid y) Hw' Hb) as [y' Sy']. pose proof (sub_nid _ _ _ Sy') as Ny.
  assert (Ry : root y' = root y). { unfold data in Hdb. rewrite Sy, Sy' in Hdb. cbn in Hdb. injection Hdb as Dy. destruct y' as [[] ?], y as [[] ?]. cbn in *. congruence. }
  assert (Wy' := sub_wfs _ _ _ Hw' Sy').
  assert (Ky : forall k, k ∈ kids y' -> sub (nid k) S' = Some k). { intros k Hk. apply (el_kids_sub S' (nid y)); [done|]. unfold el_kids. by rewrite Sy'. }
  assert (Ky0 : forall k, k ∈ kids y -> sub (nid k) S = Some k). { intros k Hk. apply (el_kids_sub S (nid y)); [done|]. unfold el_kids. by rewrite Sy. }
  assert (Hl : map nid (kids y') = pd_list d). { rewrite <- Hlist. unfold children. by rewrite Sy'. }
  assert (Hok : forall k, k ∈ other_kids y -> sub (nid k) S' = Some k).
  { intros k [Tk Hk]%elem_of_list_filter. apply (sub_ext S S'); [done|done|by apply Ky0|]. intros z Hz. apply Keep.
    split; [apply Iy; by apply (in_kids_ids k)|]. split.
    - intros ->. apply (proj2 (wfs_kids y Wy)). apply elem_of_flat_map. eauto.
    - apply Forall_forall. intros q [Hq Tq]%page_kids_in. apply (apart_kids y q k); try done. intros E. apply Tk. destruct (NoDup_kids y Wy) as [_ U1]. by rewrite (U1 k q Hk Hq E). }
  assert (Hpg : forall k, k ∈ kids y' -> is_page d (nid k) <-> ltag k = PAGE).
  { intros k Hk. assert (Hin : nid k ∈ pd_list d) by (rewrite <- Hl; by apply (elem_of_list_fmap_1 nid)).
    rewrite <- (DrawingProofs.rep_child S (DrawingProofs.frame r y) (nid y) _ m d (nid k) HR Hin). fold S'. unfold tagged, data. rewrite (Ky k Hk). cbn. unfold ltag. split; [intros E; by injection E|by intros <-]. }
  assert (Hoth : other_kids y' = other_kids y).
  { assert (Hids : map nid (other_kids y') = map nid (other_kids y)).
    { rewrite <- Hot, <- Hl. unfold other_kids. apply (map_filter_tagged (fun k => ~ ltag k = PAGE) (fun x => ~ is_page d x)). intros k Hk. by rewrite (Hpg k Hk). }
    rewrite <- (map_id (other_kids y)). apply (map_nid_ext id); [done|]. intros i k k' Hi Hi'.
    assert (N : nid k' = nid k).
    { apply (f_equal (lookup i)) in Hids. change (map nid ?l) with (nid <$> l) in Hids. rewrite !list_lookup_fmap, Hi, Hi' in Hids. cbn in Hids. congruence. }
    apply elem_of_list_lookup_2 in Hi. apply elem_of_list_lookup_2 in Hi'. apply elem_of_list_filter in Hi' as [_ Hi'].
    pose proof (Ky k' Hi') as K1. rewrite N, (Hok k Hi) in K1. by injection K1. }
  (* above *)
  assert (Gob := regrow S S' ob y y' Hw Hw' Sob Iy1 Sy'). destruct (NoDup_kids ob Wob) as [Nob _]. destruct (NoDup_kids r Wr) as [Nr _].
  set (ob' := T (root ob) (map (fun c => if decide (nid c = nid y) then y' else c) (kids ob))) in Gob.
  assert (Sob' : sub (nid ob) S' = Some ob'). { apply Gob. intros z Hz1 Hz2. apply Keep, Outy; [by apply Obr|done]. } clear Gob.
  assert (Gr := regrow S S' r ob ob' Hw Hw' Sr Iob Sob').
  set (r' := T (root r) (map (fun c => if decide (nid c = nid ob) then ob' else c) (kids r))) in Gr.
  assert (Sr' : sub (nid r) S' = Some r'). { apply Gr. intros z Hz1 Hz2. apply Keep, Outy; [done|]. intros ?. by apply Hz2, Yob. } clear Gr.
  assert (Ty' : ltag y' = t). { unfold ltag in *. by rewrite Ry. }
  assert (Kr : element (nid r) S').
  { destruct (Hfr (nid r)) as (_ & K1 & _); [|done]. apply Outy; [apply nid_in|]. intros Hin. apply Yob in Hin. apply (proj2 (wfs_kids r Wr)). apply elem_of_flat_map. eauto. }
  exists r', y'. split; [done|]. split; [done|]. split.
  { unfold drawing_body. cbn [r' kids]. rewrite (head_replace "office:body" ob ob' _ Nr Hob).
    2:{ change (ltag ob = "office:body"%string). apply (elem_of_list_filter (fun k => ltag k = "office:body"%string) (kids r)). destruct (filter _ (kids r)); [done|]. injection Hob as ->. by left. }
    cbn [mbind option_bind ob' kids]. by apply head_replace. }
  split; [done|]. split.
  { assert (Eob : erase ob' = within t (fun _ => erase y') (erase ob)).
    { unfold within, ob'. rewrite erase_T, erase_root, erase_kids. f_equal. by apply in_first_map. }
    assert (Er' : erase r' = within "office:body" (fun _ => erase ob') (erase r)).
    { unfold within, r'. rewrite erase_T, erase_root, erase_kids. f_equal. by apply in_first_map. }
    rewrite Er'. unfold with_body. apply (within_ext _ _ _ _ (erase ob)); [|done]. unfold findall. rewrite erase_kids.
    etransitivity; [symmetry; apply head_erase|]. by rewrite Hob. }
  split; [done|]. split; [done|]. split; [|split; [done|]].
  2:{ unfold pd_pages. rewrite <- Hl. rewrite <- (map_filter_tagged (fun k => ltag k = PAGE) (is_page d) (kids y')).
      2:{ intros k Hk. by rewrite (Hpg k Hk). }
      fold (page_kids y'). rewrite !map_map. apply map_ext_in. intros k Hk%elem_of_list_In. apply page_kids_in in Hk as [Hk Tk].
      apply (Hpg k Hk) in Tk as [e Ek]. rewrite Ek. destruct (Htree _ _ Ek) as (_ & _ & q & Hq & Eq & _). rewrite (Ky k Hk) in Hq. injection Hq as <-. by rewrite Eq. }
  unfold body_items. rewrite <- Hl.
  assert (Hgen : forall l, (forall k, k ∈ l -> k ∈ kids y') -> map erase l = omap (fun x => match pd_trees d !! x with Some e => Some e | None => erase <$> head (filter (fun k => nid k = x) (kids y)) end) (map nid l)); [|by apply Hgen].
  induction l as [|k l IH]; intros Hkl; [done|]. cbn [map omap list_omap]. assert (Hk : k ∈ kids y') by (apply Hkl; left).
  assert (E : match pd_trees d !! nid k with Some e => Some e | None => erase <$> head (filter (fun q => nid q = nid k) (kids y)) end = Some (erase k)).
  { destruct (pd_trees d !! nid k) as [e|] eqn:Ek.
    - destruct (Htree _ _ Ek) as (_ & _ & q & Hq & Eq & _). rewrite (Ky k Hk) in Hq. injection Hq as <-. by f_equal.
    - assert (Hko : k ∈ other_kids y). { rewrite <- Hoth. apply elem_of_list_filter. split; [|done]. intros Tk. apply (Hpg k Hk) in Tk as [e Te]. congruence. }
      apply elem_of_list_filter in Hko as [_ Hko]. rewrite head_nid; [done|by apply (NoDup_kids y)|done]. }
  rewrite E. f_equal. apply IH. intros q Hq. apply Hkl. by right.
Qed.
End rest.

(** ** Saving *)
Lemma filter_rest_page u (l l' : list elem) : u <> PAGE -> filter (fun k => ~ e_tag k = PAGE) l = filter (fun k => ~ e_tag k = PAGE) l' ->
  filter (fun k => e_tag k = u) l = filter (fun k => e_tag k = u) l'.
Proof.
  intros Hu H. assert (HF : forall q : list elem, filter (fun k => e_tag k = u) q = filter (fun k => e_tag k = u) (filter (fun k => ~ e_tag k = PAGE) q)).
  { intros q. induction q as [|k q IH]; [done|]. rewrite (filter_cons (fun k => ~ e_tag k = PAGE)). destruct (decide (~ e_tag k = PAGE)) as [Hk|Hk].
    - rewrite !filter_cons. destruct (decide (e_tag k = u)); by rewrite IH.
    - rewrite filter_cons, decide_False; [done|]. intros E. apply Hk. congruence. }
  by rewrite HF, H, <- HF.
Qed.
Lemma others_erase l : map erase (filter (fun k => ~ ltag k = PAGE) l) = filter (fun k => ~ e_tag k = PAGE) (map erase l).
Proof.
  induction l as [|k l IH]; [done|]. cbn [map]. rewrite !filter_cons. destruct (decide (~ ltag k = PAGE)) as [H|H], (decide (~ e_tag (erase k) = PAGE)) as [H'|H']; rewrite ltag_erase in H; try done.
  cbn. by rewrite IH.
Qed.
Lemma complete_pages `{B : Bytes} t g y y' :
  complete t g -> body_of t (objects g 2) = Some y -> root y' = root y ->
  filter (fun k => ~ e_tag k = PAGE) (kids y') = filter (fun k => ~ e_tag k = PAGE) (kids y) ->
  complete t (set_object 2 (with_body t y' (objects g 2)) g).
Proof.
  intros Hc Hy Hr Hk. assert (Ht : e_tag y = t) by (by eapply body_tag). assert (Ht' : e_tag y' = t) by (unfold e_tag in *; by rewrite Hr).
  assert (Hfa : forall u, u ∈ DECLS -> findall u y' = findall u y).
  { intros u Hu. unfold findall. apply filter_rest_page; [|done]. intros ->. revert Hu. dec_vm. }
  destruct (TextDocProofs.body_parts _ _ _ Hy) as (b & Hb & Hyb). pose proof Hc as (H0 & H1 & (H2 & H3 & b0 & y0 & Hb0 & Hy0 & H4) & H5 & H6).
  rewrite Hb in Hb0. injection Hb0 as <-. rewrite Hyb in Hy0. injection Hy0 as <-.
  pose proof (body_of_with t _ _ y' Hy Ht') as Hy'. destruct (TextDocProofs.body_parts _ _ _ Hy') as (b' & Hb' & Hyb').
  unfold complete. change (objects (set_object 2 (with_body t y' (objects g 2)) g) 0) with (objects g 0).
  change (objects (set_object 2 (with_body t y' (objects g 2)) g) 1) with (objects g 1). change (objects (set_object 2 (with_body t y' (objects g 2)) g) 2) with (with_body t y' (objects g 2)).
  change (manifest (set_object 2 (with_body t y' (objects g 2)) g)) with (manifest g).
  split; [done|]. split; [done|]. split; [|split].
  - split; [done|]. split; [apply (has_within _ _ _ _ b Hb); [|done]; rewrite within_tag; by apply findall_tag_head in Hb|]. exists b', y'. split_and!; try done.
    unfold has_children in *. rewrite Forall_forall in *. intros u Hu. rewrite (Hfa u Hu). by apply H4.
  - intros e1 b1 y1 u k [= <-] Hb1 Hy1 Hu Hk1. rewrite Hb' in Hb1. injection Hb1 as <-. rewrite Hyb' in Hy1. injection Hy1 as <-. rewrite (Hfa u Hu) in Hk1.
    by apply (H5 (objects g 2) b y u k).
  - apply Forall_cons in H6 as [T1 H6]. apply Forall_cons in H6 as [T2 H6]. apply Forall_cons in H6 as [T3 H6]. apply Forall_cons in H6 as [T4 H6].
    repeat (apply Forall_cons_2; [done|]). apply Forall_nil_2.
Qed.
Lemma drawing_erase t r y : drawing_body t r = Some y -> body_of t (erase r) = Some (erase y).
Proof.
  intros (ob & H1 & _ & H2 & _)%DrawingProofs.body_parts. unfold body_of, findall. rewrite erase_kids, <- head_erase, H1. cbn. unfold findall. by rewrite erase_kids, <- head_erase, H2.
Qed.
Lemma erase_drawing t r e : body_of t (erase r) = Some e -> exists y, drawing_body t r = Some y /\ erase y = e.
Proof.
  unfold body_of, drawing_body, findall. rewrite erase_kids, <- head_erase. destruct (head (filter _ (kids r))) as [ob|]; [|done]. cbn.
  unfold findall. rewrite erase_kids, <- head_erase. destruct (head (filter _ (kids ob))) as [y|]; [|done]. cbn. intros [= <-]. by exists y.
Qed.
(** memory shows one document *)
Lemma shown_same S0 fr b m d ot y d' : DrawingProofs.Rep S0 fr b m d ot -> shows_pages b (d_store m) d' ->
  body_items y d' = body_items y d /\ map (pd_name d') (pd_pages d') = map (pd_name d) (pd_pages d).
Proof.
  intros HR (H1 & H2 & H3). assert (EL : pd_list d' = pd_list d) by (rewrite <- H1; apply (r_list _ _ _ _ _ _ HR)).
  assert (EP : pd_pages d' = pd_pages d) by (rewrite <- H2; eapply rep_pages; exact HR).
  assert (ET : forall x, x ∈ pd_list d -> pd_trees d' !! x = pd_trees d !! x).
  { intros x Hx. assert (Hiff : is_page d' x <-> is_page d x).
    { assert (Hin : x ∈ pd_pages d' <-> x ∈ pd_pages d) by (by rewrite EP). unfold pd_pages in Hin. rewrite !elem_of_list_filter, EL in Hin. tauto. }
    destruct (pd_trees d' !! x) as [e'|] eqn:E', (pd_trees d !! x) as [e|] eqn:E; [|exfalso..|done].
    - destruct (H3 _ _ E') as (k & K1 & <-). destruct (r_tree _ _ _ _ _ _ HR x e E) as (_ & _ & k' & K2 & <- & _). congruence.
    - assert (is_page d x) as [? ?] by (apply Hiff; eexists; done). congruence.
    - assert (is_page d' x) as [? ?] by (apply Hiff; eexists; done). congruence. }
  split.
  - unfold body_items. rewrite EL. assert (Hg : forall l : list N, (forall x, x ∈ l -> x ∈ pd_list d) ->
      omap (fun x => match pd_trees d' !! x with Some e => Some e | None => erase <$> head (filter (fun k => nid k = x) (kids y)) end) l =
      omap (fun x => match pd_trees d !! x with Some e => Some e | None => erase <$> head (filter (fun k => nid k = x) (kids y)) end) l); [|by apply Hg].
    induction l as [|x l IH]; intros Hl; [done|]. cbn [omap list_omap]. rewrite ET by (apply Hl; left). rewrite IH; [done|]. intros z Hz. apply Hl. by right.
  - rewrite EP. apply map_ext_in. intros x Hx%elem_of_list_In. apply elem_of_list_filter in Hx as [_ Hx]. unfold pd_name. by rewrite ET.
Qed.
Lemma name_map d ks : map (fun x => pd_trees d !! x) (pd_pages d) = map Some (map erase ks) -> map (pd_name d) (pd_pages d) = map (e_get "draw:name") (map erase ks).
Proof.
  intros E. assert (H : map (fun o => o ≫= e_get "draw:name") (map (fun x => pd_trees d !! x) (pd_pages d)) = map (fun o => o ≫= e_get "draw:name") (map Some (map erase ks))) by (by rewrite E).
  rewrite !map_map in H. rewrite map_map. exact H.
Qed.
Lemma names_of (ks2 ks : list node) d2 d : map (fun x => pd_trees d2 !! x) (pd_pages d2) = map Some (map erase ks2) ->
  map (fun x => pd_trees d !! x) (pd_pages d) = map Some (map erase ks) -> map erase ks2 = map parsed (map erase ks) ->
  map (pd_name d2) (pd_pages d2) = map (pd_name d) (pd_pages d).
Proof.
  intros H1 H2 H. rewrite (name_map _ _ H1), (name_map _ _ H2), H, map_map. apply map_ext. intros e. apply parsed_get.
Qed.
Lemma pages_erase l : map erase (filter (fun k => ltag k = PAGE) l) = filter (fun k => e_tag k = PAGE) (map erase l).
Proof.
  induction l as [|k l IH]; [done|]. cbn [map]. rewrite !filter_cons. destruct (decide (ltag k = PAGE)) as [H|H], (decide (e_tag (erase k) = PAGE)) as [H'|H']; rewrite ltag_erase in H; try done.
  cbn. by rewrite IH.
Qed.
Lemma page_kids_parsed y2 y : map erase (kids y2) = map parsed (map erase (kids y)) -> map erase (page_kids y2) = map parsed (map erase (page_kids y)).
Proof.
  intros H. unfold page_kids. rewrite !pages_erase, H. apply parsed_filter. intros e. by rewrite parsed_tag.
Qed.
