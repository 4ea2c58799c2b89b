From Verif Require Export DrawingSpec PageNamesProofs.
From Verif Require Import BookProofs InjectProofs TableProofs.

Notation PAGE := "draw:page"%string.

(** ** A subtree is replaced *)
Lemma swap_facts w c f k k' : wfs w -> element c w -> sub c w = Some k -> f k = [k'] -> nid k' = c -> NoDup (ids k') ->
  (forall z, z ∈ ids k' -> z ∈ ids k \/ z ∉ ids w) ->
  let w' := edit c f w in
  wfs w' /\ nid w' = nid w /\ sub c w' = Some k' /\ (forall z, z ∈ ids w' <-> (z ∈ ids w /\ z ∉ ids k) \/ z ∈ ids k') /\
  (forall z, z ∈ ids w -> z ∉ ids k -> children z w' = children z w /\ data z w' = data z w).
Proof.
  intros Hw Hc Hk Ef Hn Hd Hin w'. pose proof (sub_nid _ _ _ Hk) as Hnk.
  assert (Hnw : nid w' = nid w) by apply edit_nid.
  destruct (find_ctx c w Hc) as (C & k0 & EC & Hk0). assert (k0 = k) as ->. { rewrite EC, <- Hk0, sub_plug in Hk by (by rewrite <- EC). by injection Hk. }
  assert (Ew : w' = plug C [k']). { unfold w'. rewrite EC, <- Hk0. rewrite edit_plug by (by rewrite <- EC). by rewrite Ef. }
  assert (Hw' : wfs w').
  { unfold wfs in *. rewrite Ew, ids_plug1. rewrite EC, ids_plug1 in Hw. rewrite EC, ids_plug1 in Hin.
    apply NoDup_app in Hw as (H1 & H2 & H3). apply NoDup_app in H3 as (H3 & H4 & H5).
    apply NoDup_app. split; [done|]. split.
    - intros z Hz [H|H]%elem_of_app.
      + destruct (Hin z H) as [H6|H6]; [apply (H2 z Hz); apply elem_of_app; by left|apply H6; apply elem_of_app; by left].
      + apply (H2 z Hz). apply elem_of_app. by right.
    - apply NoDup_app. split; [done|]. split; [|done]. intros z Hz H.
      destruct (Hin z Hz) as [H6|H6]; [by apply (H4 z)|apply H6; rewrite !elem_of_app; tauto]. }
  split; [done|]. split; [done|]. split; [|split].
  - rewrite Ew, <- Hn. apply sub_plug. by rewrite <- Ew.
  - intros z. unfold wfs in *. rewrite Ew, EC, !ids_plug1, !elem_of_app. rewrite EC, ids_plug1 in Hw.
    apply NoDup_app in Hw as (_ & H2 & H3). apply NoDup_app in H3 as (_ & H4 & _).
    specialize (H2 z). specialize (H4 z). rewrite elem_of_app in H2. tauto.
  - intros z Hz Hzk. destruct (view_at w z Hz) as (d & Hv & Hdz).
    assert (Hr : (z, d, children z w) ∈ WrapperProofs.view w').
    { apply (edit_rows w c f k); [done..|]. right. split; [done|]. exists (children z w). split; [done|].
      rewrite Ef. cbn [map]. rewrite Hn. symmetry. apply for_self. }
    apply (view_spec w' _ _ _ Hw') in Hr as (_ & H1 & H2). split; [done|congruence].
Qed.

Section rep.
Context `{U : Unicode}.

Record Rep (S0 : node) (fr : N -> Prop) (b : N) (m : desk) (d : pdoc) (ot : list N) : Prop := {
  r_wf : wfs (d_store m);
  r_new : forall z, z ∈ ids (d_store m) -> (z < d_next m)%N;
  r_body : element b (d_store m);
  r_data : data b (d_store m) = data b S0;
  r_list : children b (d_store m) = pd_list d;
  r_tree : forall x e, pd_trees d !! x = Some e -> element x (d_store m) /\ e_tag e = PAGE /\
    exists k, sub x (d_store m) = Some k /\ erase k = e /\ b ∉ ids k /\ forall z, z ∈ ids k -> ~ fr z;
  r_apart : forall x x' k k' z, is_page d x -> is_page d x' -> x <> x' -> sub x (d_store m) = Some k -> sub x' (d_store m) = Some k' -> z ∈ ids k -> z ∉ ids k';
  r_parent : forall x z, is_page d x -> element z (d_store m) -> x ∈ children z (d_store m) -> z = b;
  r_known : forall c, known b (d_store m) c -> is_page d c;
  r_fr : forall z, fr z -> z <> b /\ element z (d_store m) /\ children z (d_store m) = children z S0 /\ data z (d_store m) = data z S0;
  r_oth : filter (fun x => ~ is_page d x) (pd_list d) = ot
}.

Section step.
Context (S0 : node) (fr : N -> Prop) (b : N) (ot : list N).
Notation R := (Rep S0 fr b).
Notation p := (pages_of b).

Lemma rep_tagged m d x : R m d ot -> is_page d x -> tagged PAGE (d_store m) x.
Proof.
  intros HR [e He]. destruct (r_tree _ _ _ _ _ _ HR x e He) as (_ & Ht & k & Hk & Ek & _).
  unfold tagged, data. rewrite Hk. cbn. f_equal. rewrite <- Ek, <- ltag_erase in Ht. done.
Qed.
Lemma rep_page m d x : R m d ot -> is_page d x -> page p (d_store m) x.
Proof.
  intros HR Hx. pose proof (rep_tagged m d x HR Hx) as Ht. destruct Hx as [e He]. destruct (r_tree _ _ _ _ _ _ HR x e He) as (Hel & _ & k & Hk & _ & Hb & _).
  split; [done|]. split; [done|]. intros Hu. apply Hb. by apply (sub_upwards (d_store m) x k b (r_wf _ _ _ _ _ _ HR) Hk).
Qed.
Lemma rep_child m d x : R m d ot -> x ∈ pd_list d -> tagged PAGE (d_store m) x <-> is_page d x.
Proof.
  intros HR Hx. split; [|by apply rep_tagged]. intros Ht. apply (r_known _ _ _ _ _ _ HR). rewrite <- (r_list _ _ _ _ _ _ HR) in Hx.
  split; [by eapply child_element|]. split; [done|by left].
Qed.
Lemma filter_iff (P Q : N -> Prop) {DP : forall x, Decision (P x)} {DQ : forall x, Decision (Q x)} (l : list N) :
  (forall x, x ∈ l -> P x <-> Q x) -> filter P l = filter Q l.
Proof.
  induction l as [|x l IH]; intros H; [done|]. rewrite !filter_cons. assert (E : P x <-> Q x) by (apply H; left).
  rewrite IH by (intros y Hy; apply H; by right). destruct (decide (P x)), (decide (Q x)); tauto.
Qed.
Lemma rep_pages m d : R m d ot -> pages p (d_store m) = pd_pages d.
Proof.
  intros HR. unfold pages, pd_pages. cbn [pc_body childtag pages_of]. rewrite (r_list _ _ _ _ _ _ HR). apply filter_iff.
  intros x Hx. by apply rep_child.
Qed.
Lemma rep_name m d x : R m d ot -> is_page d x -> PagesSpec.name_of p (d_store m) x = pd_name d x.
Proof.
  intros HR [e He]. destruct (r_tree _ _ _ _ _ _ HR x e He) as (_ & _ & k & Hk & <- & _). unfold PagesSpec.name_of, pd_name, data. rewrite Hk, He. cbn.
  unfold e_get, e_attrs. by rewrite erase_root.
Qed.
Lemma rep_find m d k : R m d ot -> find_page (PagesSpec.name_of p (d_store m)) k (pages p (d_store m)) = find_page (pd_name d) k (pd_pages d).
Proof.
  intros HR. rewrite (rep_pages m d HR). apply find_page_ext. intros c Hc. apply elem_of_list_filter in Hc as [Hc _]. by apply rep_name.
Qed.
Lemma find_is_page d k c : find_page (pd_name d) k (pd_pages d) = Ok c -> is_page d c.
Proof. intros H%find_page_in. by apply elem_of_list_filter in H as [? _]. Qed.

(** the children of the body change, a page may come or go *)
Lemma placed_rep m d w' c l : R m d ot -> is_page d c -> placed b c l (d_store m) w' -> (forall y, y ∈ l -> y = c \/ y ∈ pd_list d) ->
  filter (fun x => ~ is_page d x) l = filter (fun x => ~ is_page d x) (pd_list d) -> R (Dk w' (d_next m)) (pd_order l d) ot.
Proof.
  intros HR Hc Hp Hl Hfo. pose proof Hp as (Hw' & He & Hn & Hch & Hrest & Hdata). destruct HR as [Hw Hnew Hb Hdb Hlist Htree Hap Hpar Hkn Hfr Hot].
  assert (Hsame : forall z, element z (d_store m) -> z <> b -> children z w' = children z (d_store m)).
  { intros z Hz Hzb. rewrite (Hrest z Hz Hzb). apply without_notin. intros Hin. apply Hzb. by apply (Hpar c z). }
  assert (Hids : forall z, z ∈ ids w' <-> z ∈ ids (d_store m)).
  { intros z. destruct (decide (z = nid w')) as [->|Hz].
    - rewrite Hn at 2. split; intros _; apply nid_in.
    - assert (z <> nid (d_store m)) by congruence. pose proof (element_ids w' z Hw') as E1. pose proof (element_ids (d_store m) z Hw) as E2. specialize (He z). tauto. }
  assert (Hsub : forall x k, is_page d x -> sub x (d_store m) = Some k -> sub x w' = Some k).
  { intros x k [e Hx] Hk. destruct (Htree x e Hx) as (Hel & _ & k1 & Hk1 & _ & Hbk & _). rewrite Hk in Hk1. injection Hk1 as <-.
    apply (sub_ext (d_store m) w' x k Hw Hw' Hk). intros z Hz. assert (Hze : element z (d_store m)) by (by apply (tree_elements (d_store m) x k)).
    split; [apply Hids; by eapply sub_ids|]. split; [|by apply Hdata]. apply Hsame; [done|]. by intros ->. }
  split; cbn [d_store d_next pd_order pd_list pd_trees] in *.
  - done.
  - intros z Hz. apply Hnew. by apply Hids.
  - by apply He.
  - by rewrite Hdata.
  - done.
  - intros x e Hx. destruct (Htree x e Hx) as (Hel & Ht & k & Hk & E & Hbk & Hf). split; [by apply He|]. split; [done|]. exists k. split; [|done]. apply Hsub; [by exists e|done].
  - intros x x' k k' z Hx Hx' Hne Hk Hk' Hz. destruct Hx as [e Hx], Hx' as [e' Hx'].
    destruct (Htree x e Hx) as (_ & _ & k1 & Hk1 & _). destruct (Htree x' e' Hx') as (_ & _ & k2 & Hk2 & _).
    pose proof (Hsub x k1 ltac:(by exists e) Hk1) as E1. pose proof (Hsub x' k2 ltac:(by exists e') Hk2) as E2.
    rewrite Hk in E1. rewrite Hk' in E2. injection E1 as ->. injection E2 as ->.
    apply (Hap x x' k1 k2 z); try done; [by exists e|by exists e'].
  - intros x z Hx Hz Hin. destruct (decide (z = b)) as [?|Hzb]; [done|]. apply He in Hz. rewrite Hsame in Hin by done. by apply (Hpar x z).
  - intros c' (H1 & H2 & H3). apply He in H1. assert (H2' : tagged PAGE (d_store m) c') by (unfold tagged in *; by rewrite Hdata in H2).
    destruct (decide (c' = c)) as [->|Hcc]; [done|]. apply Hkn. split; [done|]. split; [done|].
    destruct H3 as [H3|H3].
    + left. rewrite Hlist. rewrite Hch in H3. by destruct (Hl c' H3).
    + destruct (decide (c' ∈ children b (d_store m))) as [?|Hnb]; [by left|]. right. intros z Hz Hin.
      destruct (decide (z = b)) as [->|Hzb]; [done|]. apply (H3 z); [by apply He|]. by rewrite Hsame.
  - intros z Hz. destruct (Hfr z Hz) as (F1 & F2 & F3 & F4). split; [done|]. split; [by apply He|]. rewrite Hsame, Hdata by done. done.
  - rewrite <- Hot. exact Hfo.
Qed.

Lemma put_is_page d c e x : is_page d c -> is_page (pd_put c e d) x <-> is_page d x.
Proof.
  intros Hc. unfold is_page, pd_put in *. cbn [pd_trees]. destruct (decide (x = c)) as [->|Hne]; [|by rewrite lookup_insert_ne].
  rewrite lookup_insert. split; intros _; [done|by eexists].
Qed.
Lemma in_parent w x k z : wfs w -> sub x w = Some k -> z ∈ ids k -> z <> x -> exists q, q ∈ ids k /\ z ∈ children q w.
Proof.
  intros Hw Hk Hz Hne. rewrite (sub_upwards w x k) in Hz by done. inversion Hz as [|? q ? Hu Hc]; subst; [done|].
  exists q. split; [|done]. by rewrite (sub_upwards w x k).
Qed.
Lemma child_in w x k q z : wfs w -> sub x w = Some k -> q ∈ ids k -> z ∈ children q w -> z ∈ ids k.
Proof. intros Hw Hk Hq Hz. rewrite (sub_upwards w x k) in * by done. by econstructor. Qed.

(** a page changes *)
Lemma swap_rep m d c f k k' n' : R m d ot -> is_page d c -> sub c (d_store m) = Some k -> f k = [k'] -> nid k' = c -> NoDup (ids k') ->
  (forall z, z ∈ ids k' -> (z ∈ ids k \/ d_next m <= z) /\ z < n')%N -> (d_next m <= n')%N -> ltag k' = PAGE ->
  R (Dk (edit c f (d_store m)) n') (pd_put c (erase k') d) ot.
Proof.
  intros HR Hc Hk Ef Hn Hd Hin Hle Ht. pose proof HR as [Hw Hnew Hb Hdb Hlist Htree Hap Hpar Hkn Hfr Hot]. set (w := d_store m) in *.
  pose proof Hc as [e He]. destruct (Htree c e He) as (Hce & _ & k0 & Hk0 & _ & Hbk & Hfk). rewrite Hk in Hk0. injection Hk0 as <-.
  assert (Hfresh : forall z, (d_next m <= z)%N -> z ∉ ids w). { intros z Hz Hz'. apply Hnew in Hz'. lia. }
  destruct (swap_facts w c f k k' Hw Hce Hk Ef Hn Hd) as (Hw' & Hnw & Hs & Hids & Hrest).
  { intros z Hz. destruct (Hin z Hz) as [[?|?] _]; [by left|right; by apply Hfresh]. }
  set (w' := edit c f w) in *.
  assert (Hel : forall z, element z w' <-> (element z w /\ z ∉ ids k) \/ z ∈ ids k').
  { intros z. rewrite (element_ids w' z Hw'), (element_ids w z Hw), Hids, Hnw. split; [tauto|]. intros [?|Hz]; [tauto|]. split; [by right|]. intros ->.
    destruct (Hin _ Hz) as [[H|H] _].
    - pose proof (tree_elements w c k _ Hw Hce Hk H) as Hx. by apply element_ids in Hx as [_ ?].
    - apply (Hfresh _ H), nid_in. }
  assert (Hbk' : b ∉ ids k'). { intros Hz. destruct (Hin _ Hz) as [[H|H] _]; [done|]. apply (Hfresh b); [done|]. by apply element_ids in Hb as [? _]. }
  assert (Hbi : b ∈ ids w) by (by apply element_ids in Hb as [? _]). destruct (Hrest b Hbi Hbk) as [Hcb Hdb'].
  assert (Hout : forall x kx z, is_page d x -> x <> c -> sub x w = Some kx -> z ∈ ids kx -> z ∈ ids w /\ z ∉ ids k).
  { intros x kx z Hx Hne Hkx Hz. split; [by eapply sub_ids|]. by apply (Hap x c kx k z). }
  assert (Hsub : forall x kx, is_page d x -> x <> c -> sub x w = Some kx -> sub x w' = Some kx).
  { intros x kx Hx Hne Hkx. apply (sub_ext w w' x kx Hw Hw' Hkx). intros z Hz. destruct (Hout x kx z Hx Hne Hkx Hz) as [H1 H2].
    split; [apply Hids; by left|by apply Hrest]. }
  assert (Hpages : forall x, is_page (pd_put c (erase k') d) x <-> is_page d x) by (intros x; by apply put_is_page).
  assert (Hdisj : forall x kx z, is_page d x -> x <> c -> sub x w = Some kx -> z ∈ ids kx -> z ∉ ids k').
  { intros x kx z Hx Hne Hkx Hz Hz'. destruct (Hout x kx z Hx Hne Hkx Hz) as [H1 H2]. destruct (Hin z Hz') as [[?|H] _]; [done|]. by apply (Hfresh z). }
  split; cbn [d_store d_next]; try done.
  - intros z [[Hz _]|Hz]%Hids; [apply Hnew in Hz; lia|]. by apply Hin.
  - apply Hel. by left.
  - congruence.
  - rewrite Hcb. done.
  - intros x e' Hx. cbn [pd_put pd_trees] in Hx. destruct (decide (x = c)) as [->|Hne].
    + rewrite lookup_insert in Hx. injection Hx as <-. split; [apply Hel; right; rewrite <- Hn; apply nid_in|]. split; [by rewrite <- ltag_erase|].
      exists k'. split; [done|]. split; [done|]. split; [done|]. intros z Hz Hfz. destruct (Hin z Hz) as [[H|H] _]; [by apply (Hfk z)|].
      apply (Hfresh z H). destruct (Hfr z Hfz) as (_ & F & _). by apply element_ids in F as [? _].
    + rewrite lookup_insert_ne in Hx by done. destruct (Htree x e' Hx) as (Hxe & Ht' & kx & Hkx & E & Hbx & Hfx).
      assert (Hx' : is_page d x) by (by exists e'). split.
      { apply Hel. left. split; [done|]. apply (Hout x kx); try done. rewrite <- (sub_nid _ _ _ Hkx). apply nid_in. }
      split; [done|]. exists kx. split; [by apply Hsub|done].
  - intros x x' kx kx' z Hx%Hpages Hx'%Hpages Hne Hkx Hkx' Hz. destruct Hx as [ex Hx], Hx' as [ex' Hx'].
    destruct (Htree x ex Hx) as (_ & _ & k1 & Hk1 & _). destruct (Htree x' ex' Hx') as (_ & _ & k2 & Hk2 & _).
    assert (Px : is_page d x) by (by exists ex). assert (Px' : is_page d x') by (by exists ex').
    destruct (decide (x = c)) as [->|Hxc].
    + rewrite Hs in Hkx. injection Hkx as <-. rewrite (Hsub x' k2) in Hkx' by done. injection Hkx' as <-. intros Hz'. by apply (Hdisj x' k2 z).
    + rewrite (Hsub x k1) in Hkx by done. injection Hkx as <-. destruct (decide (x' = c)) as [->|Hxc'].
      * rewrite Hs in Hkx'. injection Hkx' as <-. by apply (Hdisj x k1 z).
      * rewrite (Hsub x' k2) in Hkx' by done. injection Hkx' as <-. by apply (Hap x x' k1 k2 z).
  - intros x z Hx%Hpages Hz Hxz. apply Hel in Hz as [[Hz Hzk]|Hz].
    + apply (Hpar x z); try done. destruct (Hrest z) as [<- _]; [by apply element_ids in Hz as [? _]|done|done].
    + exfalso. destruct (decide (x = c)) as [->|Hne]; [by apply (child_not_above w' z c k')|].
      destruct Hx as [ex Hx]. destruct (Htree x ex Hx) as (_ & _ & kx & Hkx & _).
      apply (Hdisj x kx x); try done; [by exists ex|rewrite <- (sub_nid _ _ _ Hkx); apply nid_in|].
      by apply (child_in w' c k' z x).
  - intros c' (H1 & H2 & H3). apply Hpages. destruct (decide (c' = c)) as [->|Hne]; [done|].
    destruct (decide (c' ∈ ids k')) as [Hck|Hck].
    { exfalso. destruct (in_parent w' c k' c' Hw' Hs Hck Hne) as (q & Hq & Hqc). destruct H3 as [H3|H3].
      - apply Hbk'. by rewrite (one_parent w' b q c' Hw' H3 Hqc).
      - apply (H3 q); [|done]. apply Hel. by right. }
    apply Hel in H1 as [[H1 H1']|?]; [|done]. destruct (Hrest c') as [R1 R2]; [by apply element_ids in H1 as [? _]|done|].
    apply Hkn. split; [done|]. split; [unfold tagged in *; by rewrite R2 in H2|]. destruct H3 as [H3|H3]; [left; by rewrite Hcb in H3|].
    right. intros z Hz Hzc. destruct (decide (z ∈ ids k)) as [Hzk|Hzk]; [apply H1'; by apply (child_in w c k z c')|].
    apply (H3 z); [apply Hel; by left|]. destruct (Hrest z) as [-> _]; [by apply element_ids in Hz as [? _]|done|done].
  - intros z Hz. destruct (Hfr z Hz) as (F1 & F2 & F3 & F4). assert (Hzk : z ∉ ids k) by (intros H; by apply (Hfk z)).
    destruct (Hrest z) as [R1 R2]; [by apply element_ids in F2 as [? _]|done|]. split; [done|]. split; [apply Hel; by left|]. split; congruence.
  - rewrite <- Hot. cbn [pd_put pd_list]. apply filter_iff. intros x _. by rewrite Hpages.
Qed.

(** a new page *)
Lemma add_rep m d : R m d ot ->
  R (Dk (add_root (T (L (d_next m) (Nd PAGE ∅ None None)) []) (d_store m)) (d_next m + 1)) (pd_put (d_next m) (new_elem PAGE) d) ot /\ fresh_page (d_next m) d.
Proof.
  intros HR. pose proof HR as [Hw Hnew Hb Hdb Hlist Htree Hap Hpar Hkn Hfr Hot]. set (w := d_store m) in *. set (n := d_next m) in *.
  set (t := T (L n (Nd PAGE ∅ None None)) []). assert (Hn : n ∉ ids w) by (intros H%Hnew; lia).
  assert (Hit : forall y, y ∈ ids t <-> y = n). { intros y. unfold t. cbn. by rewrite elem_of_list_singleton. }
  destruct (add_root_facts t w Hw) as (A1 & A2 & A3 & A4).
  { unfold t. cbn. apply NoDup_singleton. } { intros y Hy%Hit. by subst y. }
  set (w' := add_root t w) in *.
  assert (Hsn : sub n w' = Some t) by (rewrite A3 by (by apply Hit); apply (sub_root t)).
  assert (Hold : forall z, element z w -> z <> n). { intros z [Hz _]%element_ids ->; done. }
  assert (Hc : forall z, element z w -> children z w' = children z w /\ data z w' = data z w). { intros z Hz. unfold children, data. by rewrite A2. }
  assert (Hnt : pd_trees d !! n = None). { destruct (pd_trees d !! n) as [e|] eqn:E; [|done]. destruct (Htree n e E) as (H & _). by destruct (Hold n H). }
  assert (Hnl : n ∉ pd_list d). { rewrite <- Hlist. intros H%child_element. by destruct (Hold n H). }
  assert (Hpg : forall x, is_page (pd_put n (new_elem PAGE) d) x <-> x = n \/ is_page d x).
  { intros x. unfold is_page, pd_put. cbn [pd_trees]. destruct (decide (x = n)) as [->|Hx]; [rewrite lookup_insert|rewrite lookup_insert_ne by done].
    - split; [by left|]. intros _. by eexists.
    - split; [by right|]. by intros [?|?]. }
  assert (Hkx : forall x e k, pd_trees d !! x = Some e -> sub x w = Some k -> sub x w' = Some k).
  { intros x e k Hx Hk. destruct (Htree x e Hx) as (H & _). by rewrite A2. }
  split; [|done]. split; cbn [d_store d_next]; try done.
  - intros z Hz. destruct (decide (z = nid w')) as [->|Hz'].
    + assert (nid w' = nid w) as -> by apply add_root_nid. pose proof (Hnew _ (nid_in w)). lia.
    + assert (element z w') as [H|H%Hit]%A4 by (by apply element_ids); [|lia]. apply element_ids in H as [H _]; [|done]. apply Hnew in H. lia.
  - apply A4. by left.
  - rewrite <- Hdb. by apply Hc.
  - cbn [pd_put pd_list]. rewrite <- Hlist. by apply Hc.
  - intros x e Hx. cbn [pd_put pd_trees] in Hx. destruct (decide (x = n)) as [->|Hxn].
    + rewrite lookup_insert in Hx. injection Hx as <-. split; [apply A4; right; by apply Hit|]. split; [done|]. exists t. split; [done|]. split; [done|]. split.
      * intros H%Hit. by apply (Hold b).
      * intros z Hz%Hit Hf. subst z. destruct (Hfr n Hf) as (_ & H & _). by apply (Hold n).
    + rewrite lookup_insert_ne in Hx by done. destruct (Htree x e Hx) as (H1 & H2 & k & H3 & H4). split; [apply A4; by left|]. split; [done|]. exists k. split; [by rewrite A2|done].
  - assert (Hd : forall x k z, is_page d x -> sub x w' = Some k -> z ∈ ids k -> z <> n).
    { intros x k z [e Hx] Hk Hz. destruct (Htree x e Hx) as (H1 & _ & k1 & H3 & _). rewrite (Hkx x e k1 Hx H3) in Hk. injection Hk as <-.
      intros ->. apply Hn. by apply (sub_ids _ _ _ H3). }
    intros x x' k k' z [->|Hx]%Hpg [->|Hx']%Hpg Hne Hk Hk' Hz; [done| | |].
    + rewrite Hsn in Hk. injection Hk as <-. apply Hit in Hz as ->. intros H. by apply (Hd x' k' n).
    + rewrite Hsn in Hk'. injection Hk' as <-. intros H%Hit. by apply (Hd x k z).
    + pose proof Hx as [e E]. pose proof Hx' as [e' E']. destruct (Htree x e E) as (_ & _ & k1 & H1 & _). destruct (Htree x' e' E') as (_ & _ & k2 & H2 & _).
      rewrite (Hkx x e k1 E H1) in Hk. rewrite (Hkx x' e' k2 E' H2) in Hk'. injection Hk as <-. injection Hk' as <-. by apply (Hap x x' k1 k2 z).
  - intros x z Hx Hz Hxz. apply A4 in Hz as [Hz|Hz%Hit].
    + destruct (Hc z Hz) as [E _]. rewrite E in Hxz. apply Hpg in Hx as [->|Hx]; [|by apply (Hpar x z)]. apply child_element in Hxz. by destruct (Hold n Hxz).
    + subst z. unfold children in Hxz. rewrite Hsn in Hxz. by apply elem_of_nil in Hxz.
  - intros c (H1 & H2 & H3). apply Hpg. apply A4 in H1 as [H1|H1%Hit]; [right|by left]. destruct (Hc c H1) as [_ E]. apply Hkn.
    split; [done|]. split; [unfold tagged in *; by rewrite E in H2|]. destruct (Hc b Hb) as [Eb _]. rewrite Eb in H3. destruct H3 as [H3|H3]; [by left|right].
    intros z Hz Hzc. apply (H3 z); [apply A4; by left|]. by destruct (Hc z Hz) as [-> _].
  - intros z Hz. destruct (Hfr z Hz) as (F1 & F2 & F3 & F4). split; [done|]. split; [apply A4; by left|]. destruct (Hc z F2) as [-> ->]. done.
  - rewrite <- Hot. cbn [pd_put pd_list]. apply filter_iff. intros x Hx. rewrite Hpg. split; [tauto|]. intros H [->|?]; done.
Qed.

Lemma filter_before (P : N -> Prop) {DP : forall x, Decision (P x)} t c l : ~ P c -> filter P (put_before t c l) = filter P l.
Proof.
  intros Hc. induction l as [|y l IH]; [done|]. cbn [put_before]. destruct (decide (y = t)) as [->|Hne].
  - by rewrite (filter_cons_False _ c).
  - rewrite !filter_cons. by rewrite IH.
Qed.
Lemma put_before_in t c l y : y ∈ put_before t c l -> y = c \/ y ∈ l.
Proof.
  induction l as [|z l IH]; cbn [put_before]; [by right|]. case_decide; rewrite !elem_of_cons; tauto.
Qed.
Lemma put_at_in i c l y : y ∈ put_at i c l -> y = c \/ y ∈ l.
Proof.
  unfold put_at. destruct (at_pos i l) as [t|]; [case_decide; [by right|]|].
  - intros [?|Hy]%put_before_in; [by left|]. right. by apply without_in in Hy as [? _].
  - intros [Hy|Hy]%elem_of_app; [right; by apply without_in in Hy as [? _]|left; by apply elem_of_list_singleton in Hy].
Qed.
Lemma put_page_in old c l y : y ∈ put_page old c l -> y = c \/ y ∈ l.
Proof.
  unfold put_page. case_decide; [by right|]. intros [?|Hy]%instead_in; [by left|]. right. by apply without_in in Hy as [? _].
Qed.
Lemma not_without (P : N -> Prop) {DP : forall x, Decision (P x)} c l : ~ P c -> filter P (WrapperSpec.without c l) = filter P l.
Proof. intros Hc. rewrite (filter_without P). by apply (without_other P). Qed.
Lemma obj_page c : page_obj c = obj_of p c.
Proof. done. Qed.
Lemma op_rep m d o : R m d ot -> stays_page o -> Forall (known b (d_store m)) (dop_pages o) ->
  exists m' d' r, d_op p o m = (m', r) /\ pstep d o d' r /\ R m' d' ot.
Proof.
  intros HR Hst Hkn. pose proof (r_wf _ _ _ _ _ _ HR) as Hw. pose proof (r_body _ _ _ _ _ _ HR) as Hb. pose proof (r_list _ _ _ _ _ _ HR) as Hlist.
  assert (Hpg : Forall (is_page d) (dop_pages o)). { eapply Forall_impl; [exact Hkn|]. intros c. apply (r_known _ _ _ _ _ _ HR). }
  assert (Hm : Dk (d_store m) (d_next m) = m) by (by destruct m). clear Hkn.
  destruct o as [k|k c|k|c|i c|c s|s|c f]; cbn [d_op dop_pages stays_page] in *; unfold on_store, abind; rewrite ?obj_page.
  - rewrite pc_get_eq, (rep_find m d k HR) by done. destruct (find_page (pd_name d) k (pd_pages d)) as [c|e] eqn:E.
    + exists m, d, (Ok (Some c)). cbn [aret]. rewrite Hm. split; [done|]. split; [by constructor|done].
    + exists m, d, (Err e). rewrite Hm. split; [done|]. split; [by constructor|done].
  - apply Forall_inv in Hpg. pose proof (set_page (d_store m) p k c Hw Hb (rep_page m d c HR Hpg)) as H. rewrite (rep_find m d k HR) in H.
    destruct (find_page (pd_name d) k (pd_pages d)) as [old|e] eqn:E.
    + destruct H as (w' & -> & [Hp _] & _). pose proof (find_is_page d k old E) as Ho.
      exists (Dk w' (d_next m)), (pd_order (put_page old c (pd_list d)) d), (Ok None). split; [done|]. split; [by constructor|].
      cbn [pc_body pages_of] in Hp. rewrite Hlist in Hp. apply (placed_rep m d w' c); [done|done|exact Hp|intros y; apply put_page_in|].
      unfold put_page. case_decide; [done|]. rewrite (filter_instead_not (fun x => ~ is_page d x)) by tauto. apply (not_without (fun x => ~ is_page d x)). tauto.
    + rewrite H. exists m, d, (Err e). rewrite Hm. split; [done|]. split; [by constructor|done].
  - pose proof (del_page (d_store m) p k Hw Hb) as H. rewrite (rep_find m d k HR) in H.
    destruct (find_page (pd_name d) k (pd_pages d)) as [old|e] eqn:E.
    + destruct H as (w' & -> & [Hp _] & _). pose proof (find_is_page d k old E) as Ho.
      exists (Dk w' (d_next m)), (pd_order (WrapperSpec.without old (pd_list d)) d), (Ok None). split; [done|]. split; [by constructor|].
      cbn [pc_body pages_of] in Hp. rewrite Hlist in Hp. apply (placed_rep m d w' old); [done|done|exact Hp| |].
      * intros y [H _]%without_in. by right.
      * apply (not_without (fun x => ~ is_page d x)). tauto.
    + rewrite H. exists m, d, (Err e). rewrite Hm. split; [done|]. split; [by constructor|done].
  - apply Forall_inv in Hpg. destruct (append_page (d_store m) p c Hw Hb (rep_page m d c HR Hpg)) as (w' & -> & [Hp _] & _).
    exists (Dk w' (d_next m)), (pd_order (WrapperSpec.without c (pd_list d) ++ [c]) d), (Ok (Some c)). split; [done|]. split; [by constructor|].
    cbn [pc_body pages_of] in Hp. rewrite Hlist in Hp. apply (placed_rep m d w' c); [done|done|exact Hp| |].
    + intros y [H|H]%elem_of_app; [right; by apply without_in in H as [? _]|left; by apply elem_of_list_singleton in H].
    + rewrite filter_app, (filter_cons_False _ c) by tauto. rewrite filter_nil, app_nil_r. apply (not_without (fun x => ~ is_page d x)). tauto.
  - apply Forall_inv in Hpg. destruct (rep_page m d c HR Hpg) as (P1 & P2 & P3). cbn [pc_body pages_of] in P3.
    destruct (el_insert_ok (d_store m) b i c Hw Hb P1 P3) as (w' & He & Hp). unfold pc_insert, abind. cbn [w_node obj_of pc_body pages_of]. rewrite He.
    exists (Dk w' (d_next m)), (pd_order (put_at i c (pd_list d)) d), (Ok (Some c)). split; [done|]. split; [by constructor|].
    rewrite Hlist in Hp. apply (placed_rep m d w' c); [done|done|exact Hp|intros y; apply put_at_in|].
    unfold put_at. destruct (at_pos i (pd_list d)) as [t|].
    + case_decide; [done|]. rewrite (filter_before (fun x => ~ is_page d x)) by tauto. apply (not_without (fun x => ~ is_page d x)). tauto.
    + rewrite filter_app, (filter_cons_False _ c) by tauto. rewrite filter_nil, app_nil_r. apply (not_without (fun x => ~ is_page d x)). tauto.
  - apply Forall_inv in Hpg. pose proof Hpg as [e He]. destruct (r_tree _ _ _ _ _ _ HR c e He) as (Hce & Ht & k & Hk & Ek & _).
    unfold pc_rename. change (clean_name p s) with s. destruct s as [|x s].
    + exists m, d, (Err ValueError). rewrite Hm. split; [done|]. split; [by constructor|done].
    + eexists _, _, _. split; [reflexivity|]. split; [apply (ps_name d c (x :: s) e He); done|]. cbn [fst snd].
      set (g := fun a => nd_set_attrs (<["draw:name"%string := x :: s]> (attrs a)) a).
      assert (Eg : e_set "draw:name" (x :: s) e = erase (lon_root g k)). { rewrite <- Ek. destruct k as [a ks]. reflexivity. }
      rewrite Eg. apply (swap_rep m d c _ k); try done.
      * rewrite <- (sub_nid _ _ _ Hk). by destruct k.
      * assert (ids (lon_root g k) = ids k) as -> by (by destruct k). by apply (sub_wfs (d_store m) c).
      * assert (ids (lon_root g k) = ids k) as -> by (by destruct k). intros z Hz. split; [by left|]. apply (r_new _ _ _ _ _ _ HR). by eapply sub_ids.
      * rewrite <- Ek, <- ltag_erase in Ht. by destruct k.
  - destruct (add_rep m d HR) as [HR1 Hf]. set (n := d_next m) in *. set (t := T (L n (Nd PAGE ∅ None None)) []) in *.
    unfold new_drawing_page. fold t. unfold pc_rename. change (clean_name (pages_of 0) s) with s. destruct s as [|x s].
    + eexists _, _, _. split; [reflexivity|]. split; [by apply ps_new_no|]. exact HR1.
    + eexists _, _, _. split; [reflexivity|]. split; [by apply (ps_new d (x :: s) n)|]. cbn [nametag pages_of].
      set (g := fun a => nd_set_attrs (<["draw:name"%string := x :: s]> (attrs a)) a).
      assert (Hsn : sub n (add_root t (d_store m)) = Some t).
      { destruct (r_tree _ _ _ _ _ _ HR1 n (new_elem PAGE)) as (_ & _ & k & Hk & Ek & _); [cbn [pd_put pd_trees]; by rewrite lookup_insert|]. cbn [d_store] in Hk. rewrite Hk. f_equal.
        pose proof (sub_nid _ _ _ Hk) as Nk. destruct k as [[i a] ks]. cbn in Nk. subst i. unfold new_elem in Ek. cbn in Ek. injection Ek as -> Eks. destruct ks; [done|done]. }
      assert (Hpn : is_page (pd_put n (new_elem PAGE) d) n) by (unfold is_page; cbn [pd_put pd_trees]; rewrite lookup_insert; by eexists).
      pose proof (swap_rep _ _ n (fun k => [lon_root g k]) t (lon_root g t) (n + 1) HR1 Hpn Hsn) as H. cbn [d_store d_next] in H.
      assert (Ep : pd_put n (erase (lon_root g t)) (pd_put n (new_elem PAGE) d) = pd_put n (e_set "draw:name" (x :: s) (new_elem PAGE)) d).
      { unfold pd_put. cbn [pd_list pd_trees]. rewrite insert_insert. reflexivity. }
      rewrite Ep in H. apply H; try done.
      * cbn. apply NoDup_singleton.
      * cbn. intros z ->%elem_of_list_singleton. split; [left; left|lia].
  - apply Forall_inv in Hpg. pose proof Hpg as [e He]. destruct (r_tree _ _ _ _ _ _ HR c e He) as (Hce & Ht & k & Hk & Ek & _).
    rewrite Hk, Ek. destruct (f e) as [e' r] eqn:Ef. pose proof (label_ok e' (d_next m)) as (L1 & L2 & L3 & L4). destruct (label e' (d_next m)) as [t n'] eqn:El. cbn [fst snd] in *.
    pose proof (Hst e Ht) as Ht'. rewrite Ef in Ht'. cbn [fst] in Ht'.
    assert (Ee : e' = (f e).1) by (by rewrite Ef). assert (Er : r = (f e).2) by (by rewrite Ef).
    set (k' := T (L c (pl (root t))) (kids t)).
    assert (Ek' : erase k' = e'). { rewrite <- L1. unfold k'. by destruct t. }
    assert (Hc : (c < d_next m)%N). { apply (r_new _ _ _ _ _ _ HR). by apply element_ids in Hce as [? _]. }
    assert (Hit : forall z, z ∈ flat_map ids (kids t) -> z ∈ ids t). { intros z Hz. rewrite ids_eq. by right. }
    assert (Hik : ids k' = c :: flat_map ids (kids t)) by apply ids_T. rewrite Forall_forall in L3.
    eexists _, (pd_put c e' d), _. split; [reflexivity|]. split.
    { destruct r as [[]|x]; cbn; rewrite Ee; [by apply ps_on|by apply (ps_on_no d c f e x)]. }
    rewrite <- Ek'. apply (swap_rep m d c _ k); try done.
    + rewrite Hik. apply NoDup_cons. split.
      * intros Hz%Hit%L3. lia.
      * rewrite ids_eq in L2. by apply NoDup_cons in L2 as [_ ?].
    + intros z Hz. rewrite Hik in Hz. apply elem_of_cons in Hz as [->|Hz%Hit%L3]; [|lia]. split; [|lia]. left. rewrite <- (sub_nid _ _ _ Hk). apply nid_in.
    + lia.
    + by rewrite ltag_erase, Ek'.
Qed.
Lemma run_rep os : forall m d, R m d ot -> DrawingSpec.fits b os m ->
  exists m' d' rs, d_run p os m = (m', rs) /\ psteps os d d' rs /\ R m' d' ot.
Proof.
  induction os as [|o os IH]; intros m d HR Hf.
  - exists m, d, []. split; [done|]. split; [constructor|done].
  - destruct Hf as (H1 & H2 & H3). destruct (op_rep m d o HR H1 H2) as (m1 & d1 & r & E & Hs & HR1). rewrite E in H3. cbn [fst] in H3.
    destruct (IH m1 d1 HR1 H3) as (m2 & d2 & rs & E2 & Hs2 & HR2). exists m2, d2, (r :: rs). cbn [d_run]. rewrite E, E2. split; [done|]. split; [by econstructor|done].
Qed.
End step.

(** ** The document as it was opened *)
Definition frame (r y : node) (z : N) : Prop := z ∈ ids r /\ z <> nid y /\ Forall (fun k => z ∉ ids k) (page_kids y).
Lemma body_parts t r y : drawing_body t r = Some y -> exists ob, head (filter (fun k => ltag k = "office:body"%string) (kids r)) = Some ob /\
  ob ∈ kids r /\ head (filter (fun k => ltag k = t) (kids ob)) = Some y /\ y ∈ kids ob /\ ltag y = t.
Proof.
  unfold drawing_body. destruct (head (filter _ (kids r))) as [ob|] eqn:E; [|done]. cbn. intros Hy. exists ob.
  assert (Hb : ob ∈ filter (fun k => ltag k = "office:body"%string) (kids r)) by (destruct (filter _ (kids r)); [done|]; injection E as ->; by left).
  assert (Hy' : y ∈ filter (fun k => ltag k = t) (kids ob)) by (destruct (filter _ (kids ob)); [done|]; injection Hy as ->; by left).
  apply elem_of_list_filter in Hb as [? ?], Hy' as [? ?]. done.
Qed.
Lemma page_kids_in y k : k ∈ page_kids y <-> k ∈ kids y /\ ltag k = PAGE.
Proof. unfold page_kids. rewrite elem_of_list_filter. tauto. Qed.
Lemma kid_here S k : wfs S -> k ∈ kids S -> sub (nid k) S = Some k.
Proof. intros Hw Hk. apply (el_kids_sub S (nid S)); [done|]. unfold el_kids. by rewrite sub_root. Qed.
Lemma subs_of t S n r y : drawing t S n r y -> sub (nid r) S = Some r /\ sub (nid y) S = Some y /\ element (nid y) S /\ (forall z, z ∈ ids y -> z ∈ ids r) /\ nid y ∈ ids r.
Proof.
  intros (Hw & Hn & Hr & Ht & Hy). pose proof (kid_here S r Hw Hr) as Sr. destruct (body_parts t r y Hy) as (ob & _ & Iob & _ & Iy & _).
  assert (Sob : sub (nid ob) S = Some ob) by (apply (el_kids_sub S (nid r)); [done|]; unfold el_kids; by rewrite Sr).
  assert (Sy : sub (nid y) S = Some y) by (apply (el_kids_sub S (nid ob)); [done|]; unfold el_kids; by rewrite Sob).
  assert (Hin : forall z, z ∈ ids y -> z ∈ ids r) by (intros z Hz; by apply (in_kids_ids ob), (in_kids_ids y)).
  assert (Hyr : nid y ∈ ids r) by apply Hin, nid_in.
  split; [done|]. split; [done|]. split; [|done]. unfold element. apply elem_of_flat_map. by exists r.
Qed.
Lemma trees_of t S n r y : drawing t S n r y -> forall x e, pd_trees (pdoc_of S y) !! x = Some e <->
  exists k, (k ∈ page_kids y \/ k ∈ page_kids S) /\ nid k = x /\ erase k = e.
Proof.
  intros HD. pose proof HD as (Hw & Hn & Hr & Ht & Hy). destruct (subs_of _ _ _ _ _ HD) as (Sr & Sy & Ey & Iy & Iyr).
  assert (Hnd : NoDup (map nid (page_kids y ++ page_kids S))).
  { rewrite map_app. apply NoDup_app. split; [|split].
    - apply NoDup_map_filter. apply (NoDup_kids y). by apply (sub_wfs S (nid y)).
    - intros x Hx Hx'. apply elem_of_list_fmap in Hx as (k & -> & Hk), Hx' as (k' & Ek & Hk'). apply page_kids_in in Hk as [Hk _], Hk' as [Hk' Tk'].
      assert (Hz : nid k ∈ ids r) by (apply Iy, (in_kids_ids k); [done|apply nid_in]).
      assert (E : k' = r) by (apply (elem_flat_pos ids (kids S) k' r (nid k')); try done; [by apply wfs_kids|apply nid_in|by rewrite <- Ek]). subst k'. done.
    - apply NoDup_map_filter. by apply (NoDup_kids S). }
  intros x e. cbn [pdoc_of pd_trees].
  assert (Hnd' : NoDup (map (fun k : node => (nid k, erase k)) (page_kids y ++ page_kids S)).*1).
  { change (fst <$> ?l) with (map fst l). rewrite map_map. exact Hnd. }
  rewrite <- (elem_of_list_to_map _ _ _ Hnd'). rewrite elem_of_list_fmap. split.
  - intros (k & E & Hk). injection E as -> ->. exists k. by rewrite <- elem_of_app.
  - intros (k & Hk & <- & <-). exists k. by rewrite elem_of_app.
Qed.
Lemma rep_init t S n r y : drawing t S n r y -> Rep S (frame r y) (nid y) (Dk S n) (pdoc_of S y) (map nid (other_kids y)).
Proof.
  intros HD. pose proof HD as (Hw & Hn & Hr & Ht & Hy). destruct (subs_of _ _ _ _ _ HD) as (Sr & Sy & Ey & Iy & Iyr).
  pose proof (trees_of _ _ _ _ _ HD) as Htr. pose proof (sub_wfs _ _ _ Hw Sy) as Wy.
  assert (Hpage : forall x, is_page (pdoc_of S y) x <-> exists k, (k ∈ page_kids y \/ k ∈ page_kids S) /\ nid k = x).
  { intros x. split.
    - intros [e He]. apply Htr in He as (k & ? & ? & _). by exists k.
    - intros (k & Hk & Hx). exists (erase k). apply Htr. by exists k. }
  assert (Hkid : forall k, k ∈ page_kids y \/ k ∈ page_kids S -> sub (nid k) S = Some k /\ ltag k = PAGE /\ element (nid k) S /\ nid y ∉ ids k /\ forall z, z ∈ ids k -> ~ frame r y z).
  { intros k [Hk|Hk]; pose proof Hk as [Hk1 Hk2]%page_kids_in.
    - assert (Sk : sub (nid k) S = Some k) by (apply (el_kids_sub S (nid y)); [done|]; unfold el_kids; by rewrite Sy). split; [done|]. split; [done|].
      assert (Hky : nid y ∉ ids k). { intros Hin. apply (proj2 (wfs_kids y Wy)). apply elem_of_flat_map. eauto. }
      split; [|split; [done|]].
      + apply (child_element S (nid y)). unfold children. rewrite Sy. by apply (elem_of_list_fmap_1 nid).
      + intros z Hz (_ & _ & Hf). rewrite Forall_forall in Hf. by apply (Hf k Hk).
    - assert (Hkr : k <> r) by (intros ->; done).
      assert (Hap : forall z, z ∈ ids k -> z ∉ ids r).
      { intros z Hz Hz'. apply Hkr. apply (elem_flat_pos ids (kids S) k r z); try done. by apply wfs_kids. }
      split; [by apply kid_here|]. split; [done|]. split; [unfold element; apply elem_of_flat_map; exists k; split; [done|apply nid_in]|]. split; [intros H; by apply (Hap _ H)|].
      intros z Hz (Hf & _). by apply (Hap z). }
  split; cbn [d_store d_next]; try done.
  - unfold children. by rewrite Sy.
  - intros x e (k & Hk & <- & <-)%Htr. destruct (Hkid k Hk) as (K1 & K2 & K3 & K4 & K5). split; [done|]. split; [by rewrite <- ltag_erase|]. by exists k.
  - intros x x' k k' z Hx Hx' Hne Hk Hk' Hz Hz'. apply Hpage in Hx as (q & Hq & <-). apply Hpage in Hx' as (q' & Hq' & <-).
    destruct (Hkid q Hq) as (K1 & K2 & K3 & K4 & K5). destruct (Hkid q' Hq') as (K1' & K2' & K3' & K4' & K5').
    rewrite K1 in Hk. rewrite K1' in Hk'. injection Hk as <-. injection Hk' as <-.
    assert (Hroot : forall a c, a ∈ page_kids y -> c ∈ page_kids S -> z ∈ ids a -> z ∈ ids c -> False).
    { intros a c [Ha _]%page_kids_in [Hc Tc]%page_kids_in Hza Hzc. assert (c = r) as ->; [|done].
      apply (elem_flat_pos ids (kids S) c r z); try done; [by apply wfs_kids|]. by apply Iy, (in_kids_ids a). }
    destruct Hq as [Hq|Hq], Hq' as [Hq'|Hq'].
    + apply page_kids_in in Hq as [Hq _], Hq' as [Hq' _]. apply (apart_kids y q' q z); try done.
    + by apply (Hroot q q').
    + by apply (Hroot q' q).
    + apply page_kids_in in Hq as [Hq _], Hq' as [Hq' _]. by apply (apart_kids S q' q z).
  - intros x z (k & Hk & <-)%Hpage Hz Hin. destruct Hk as [Hk|Hk]; apply page_kids_in in Hk as [Hk _].
    + apply (one_parent S z (nid y) (nid k) Hw Hin). unfold children. rewrite Sy. by apply (elem_of_list_fmap_1 nid).
    + exfalso. assert (z = nid S) as ->.
      { apply (one_parent S z (nid S) (nid k) Hw Hin). rewrite children_root. by apply (elem_of_list_fmap_1 nid). }
      by apply element_ids in Hz as [_ ?].
  - intros c (H1 & H2 & H3). apply Hpage. destruct (element_sub S c Hw H1) as [k Hk]. pose proof (sub_nid _ _ _ Hk) as Nk.
    assert (Tk : ltag k = PAGE). { unfold tagged, data in H2. rewrite Hk in H2. cbn in H2. by injection H2. }
    exists k. split; [|done]. destruct H3 as [H3|H3].
    + left. apply page_kids_in. split; [|done]. unfold children in H3. rewrite Sy in H3. apply elem_of_list_fmap in H3 as (k' & E & Hk').
      assert (Sk' : sub (nid k') S = Some k') by (apply (el_kids_sub S (nid y)); [done|]; unfold el_kids; by rewrite Sy). rewrite <- E, Hk in Sk'. by injection Sk' as ->.
    + right. apply page_kids_in. split; [|done]. apply element_ids in H1 as [H1 H1']; [|done].
      destruct (in_parent S (nid S) S c Hw (sub_root S) H1 H1') as (q & Hq & Hqc).
      destruct (decide (q = nid S)) as [->|Hne]; [|exfalso; apply (H3 q); [by apply element_ids|done]].
      rewrite children_root in Hqc. apply elem_of_list_fmap in Hqc as (k' & E & Hk'). pose proof (kid_here S k' Hw Hk') as Sk'. rewrite <- E, Hk in Sk'. by injection Sk' as ->.
  - intros z (F1 & F2 & F3). split; [done|]. split; [|done]. unfold element. apply elem_of_flat_map. by exists r.
  - cbn [pdoc_of pd_list]. unfold other_kids.
    assert (Hgen : forall l, (forall k, k ∈ l -> k ∈ kids y) -> filter (fun x => ~ is_page (pdoc_of S y) x) (map nid l) = map nid (filter (fun k => ~ ltag k = PAGE) l)); [|by apply Hgen].
    induction l as [|k l IH]; intros Hl; [done|]. cbn [map]. rewrite !filter_cons. rewrite IH by (intros q Hq; apply Hl; by right).
    assert (Hk : k ∈ kids y) by (apply Hl; left).
    assert (E : is_page (pdoc_of S y) (nid k) <-> ltag k = PAGE).
    { rewrite Hpage. split.
      - intros (q & Hq & Eq). destruct (Hkid q Hq) as (K1 & K2 & _). assert (Sk : sub (nid k) S = Some k) by (apply (el_kids_sub S (nid y)); [done|]; unfold el_kids; by rewrite Sy).
        rewrite Eq, Sk in K1. by injection K1 as ->.
      - intros Tk. exists k. split; [left; by apply page_kids_in|done]. }
    destruct (decide (~ is_page (pdoc_of S y) (nid k))), (decide (~ ltag k = PAGE)); tauto || done.
Qed.
End rep.
