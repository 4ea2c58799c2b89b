(** Injected styles and saving. *)
From Verif Require Export InjectSavedSpec StylesSaved InjectProofs.
From Verif Require Import BookProofs DocumentProofs SheetProofs SpanLayoutProofs.

Section Inject.
Context `{XmlParser}.

(** what is in [w'] of the document that was [S] *)
Record kept_but (x : N) (S : node) (es : list elem) (w' : node) : Prop := KB {
  kb_el : forall y, element y S -> element y w' /\ data y w' = data y S /\ (y <> x -> children y w' = children y S);
  kb_kids : map erase (el_kids x w') = map erase (el_kids x S) ++ es }.

Lemma el_kids_map x w : el_kids x w = default [] (kids <$> sub x w).
Proof. unfold el_kids. by destruct (sub x w). Qed.
Lemma omap_sub w l : Forall (fun q => sub (nid q) w = Some q) l -> omap (fun y => sub y w) (map nid l) = l.
Proof. induction 1 as [|q l Hq _ IH]; [done|]. cbn. rewrite Hq. by f_equal. Qed.
Lemma kids_from x w : wfs w -> el_kids x w = omap (fun y => sub y w) (children x w).
Proof.
  intros Hw. rewrite <- el_kids_children. symmetry. apply omap_sub. apply Forall_forall. intros q Hq. by apply (el_kids_sub w x).
Qed.
Lemma omap_same w w' l : Forall (fun y => sub y w' = sub y w) l -> omap (fun y => sub y w') l = omap (fun y => sub y w) l.
Proof. induction 1 as [|y l Hy _ IH]; [done|]. cbn. rewrite Hy. destruct (sub y w); [f_equal|]; exact IH. Qed.
Lemma inject_kids x c e w w' : wfs w -> element x w -> injected x c e w w' -> map erase (el_kids x w') = map erase (el_kids x w) ++ [e].
Proof.
  intros Hw Hx (J1 & J2 & J3 & J4 & J5). rewrite !kids_from, J3 by done. rewrite omap_app, map_app. f_equal.
  - apply (f_equal (map erase)). assert (HF : Forall (fun y => sub y w' = sub y w) (children x w)); [|by apply omap_same].
    apply Forall_forall. intros y Hy. pose proof (child_element _ _ _ Hy) as Hye. destruct (element_sub w y Hw Hye) as [k Hk]. rewrite Hk.
    apply (sub_ext w); [done|done|done|]. intros z Hz.
    assert (Hze : element z w).
    { apply element_ids; [done|]. split; [by apply (sub_ids _ _ _ Hk)|]. intros ->.
      pose proof (proj1 (sub_upwards w y k (nid w) Hw Hk) Hz) as Hu. inversion Hu as [|? q ? _ Hq]; subst.
      - by apply (element_ids w _ Hw) in Hye as [_ ?].
      - apply child_element in Hq. by apply (element_ids w _ Hw) in Hq as [_ Hq]. }
    destruct (J5 z Hze) as [D1 D2]. assert (Hzx : z <> x) by (intros ->; by apply (child_not_above w x y k)).
    split_and!; [|by apply D2|done]. destruct (element_sub w z Hw Hze) as [kz Hkz]. destruct (sub_data _ _ _ Hkz) as [Dz _]. rewrite Dz in D1.
    unfold data in D1. destruct (sub z w') as [kz'|] eqn:Ez; [|done]. rewrite <- (sub_nid _ _ _ Ez). apply (sub_ids _ _ _ Ez), nid_in.
  - cbn. destruct (sub c w') as [k|]; [|done]. cbn in *. by injection J4 as ->.
Qed.
Lemma data_element w w' y : wfs w -> wfs w' -> nid w' = nid w -> element y w -> data y w' = data y w -> element y w'.
Proof.
  intros Hw Hw' E Hy Hd. apply (element_ids w y Hw) in Hy as Hy'. destruct Hy' as [_ Hne]. apply element_ids; [done|]. split; [|by rewrite E].
  destruct (element_sub w y Hw Hy) as [k Hk]. destruct (sub_data _ _ _ Hk) as [D _]. rewrite D in Hd. unfold data in Hd.
  destruct (sub y w') as [k'|] eqn:Ek; [|done]. rewrite <- (sub_nid _ _ _ Ek). apply (sub_ids _ _ _ Ek), nid_in.
Qed.
Lemma append_nid x c w : nid (el_append x c w).1 = nid w.
Proof. unfold el_append, cut. destruct (above c x w); [done|]. destruct (sub c w); [|done]. cbn [fst]. by rewrite !edit_nid. Qed.
Lemma inject_nid x text wh s : nid (tree_of (cont (inject_style x text wh s).1)) = nid (tree_of (cont s)).
Proof.
  unfold inject_style, fake_element, Inject.f_parse, abind. destruct (xml_parts text) as [es|e]; [|done]. destruct (label _ _) as [t n]. destruct (py_get (kids t) 0) as [k|e]; cbn [cont tree_of fst]; [|apply add_root_nid].
  destruct (s_wrap _ _) as [c|e]; cbn [cont tree_of fst]; [|apply add_root_nid]. unfold on_cont, Styles.on_tree. cbn [cont tree_of fst]. transitivity (nid (add_root t (tree_of (cont s)))); [|apply add_root_nid].
  pose proof (append_nid x c (add_root t (tree_of (cont s)))) as E. rewrite <- E. clear E. by destruct (el_append x c (add_root t (tree_of (cont s)))).
Qed.
Lemma inject_step x S n es s a : starts x S n -> reached x S n [] s -> kept_but x S es (tree_of (cont s)) ->
  kept_but x S (es ++ option_list (brought a.1)) (tree_of (cont (inject_style x a.1 a.2 s).1)).
Proof.
  intros HS HR [K1 K2]. pose proof (reached_inv x S n [] s HS HR) as Hi. pose proof Hi as [I1 I2 _ _ _]. destruct a as [text wh]. cbn [fst snd] in *.
  pose proof (inject_nid x text wh s) as Hnid.
  assert (Hnew : forall l, inject_style x text wh s = (with_new l s, (inject_style x text wh s).2) -> kept_but x S (es ++ []) (tree_of (cont (inject_style x text wh s).1))).
  { intros l E. rewrite app_nil_r. rewrite E in *. cbn [fst] in *. destruct (with_new_inv x [] s l Hi) as [[Hw' Hk] _]. split.
    - intros y Hy. destruct (K1 y Hy) as (E1 & E2 & E3). rewrite <- E2.
      assert (Ed : data y (tree_of (cont (with_new l s))) = data y (tree_of (cont s))) by (unfold data; by rewrite Hk).
      assert (Ec : children y (tree_of (cont (with_new l s))) = children y (tree_of (cont s))) by (unfold children; by rewrite Hk).
      split_and!; [by apply (data_element (tree_of (cont s)))|done|by rewrite Ec].
    - rewrite <- K2. unfold el_kids. by rewrite Hk. }
  unfold brought. destruct (xml_parts text) as [[|e l]|ex] eqn:E.
  - apply (Hnew []). by rewrite inject_empty.
  - destruct (inject_first x [] s text wh e l Hi E) as [[Ht Ej]|(Ht & c & s' & Ej & Hin & _)].
    + rewrite decide_True by done. apply (Hnew (e :: l)). by rewrite Ej.
    + rewrite decide_False by done. rewrite Ej in *. cbn [fst option_list] in *. pose proof Hin as (J1 & _ & _ & _ & J5). split.
      * intros y Hy. destruct (K1 y Hy) as (E1 & E2 & E3). destruct (J5 y E1) as [D1 D2]. rewrite D1. split_and!; [|done|intros Hne; rewrite D2 by done; by apply E3].
        by apply (data_element (tree_of (cont s))).
      * rewrite (inject_kids x c e (tree_of (cont s))) by done. by rewrite K2, app_assoc.
  - rewrite (inject_err x [] s text wh ex Hi E). cbn. by rewrite app_nil_r.
Qed.
Lemma inject_run x S n texts : starts x S n -> Forall (fun a => style_text a.1) texts ->
  reached x S n [] (inject_all x texts (ISt (CSt S ∅) n)) /\
  kept_but x S (omap (fun a => brought a.1) texts) (tree_of (cont (inject_all x texts (ISt (CSt S ∅) n)))).
Proof.
  intros HS. induction texts as [|a texts IH] using rev_ind; intros HF.
  - split; [constructor|]. cbn. split; [done|]. by rewrite app_nil_r.
  - apply Forall_app in HF as [HF Ha]. apply Forall_cons in Ha as [Ha _]. destruct (IH HF) as [I1 I2]. unfold inject_all. rewrite foldl_app. cbn [foldl]. fold (inject_all x texts (ISt (CSt S ∅) n)).
    split; [by constructor|]. rewrite omap_app. pose proof (inject_step x S n _ _ a HS I1 I2) as K. cbn. by destruct (brought a.1).
Qed.
End Inject.

Lemma head_split t (l : list node) k : head (filter (fun q => ltag q = t) l) = Some k -> exists a b, l = a ++ k :: b /\ ltag k = t /\ Forall (fun q => ltag q <> t) a.
Proof.
  induction l as [|q l IH]; [done|]. rewrite filter_cons. destruct (decide (ltag q = t)) as [E|E].
  - intros [= ->]. by exists [], l.
  - intros H. destruct (IH H) as (a & b & -> & H1 & H2). exists (q :: a), b. split_and!; [done|done|by constructor].
Qed.
Lemma below_element w y k z : wfs w -> element y w -> sub y w = Some k -> z ∈ ids k -> element z w.
Proof.
  intros Hw Hye Hk Hz. apply element_ids; [done|]. split; [by apply (sub_ids _ _ _ Hk)|]. intros ->.
  pose proof (proj1 (sub_upwards w y k (nid w) Hw Hk) Hz) as Hu. inversion Hu as [|? q ? _ Hq]; subst.
  - by apply (element_ids w _ Hw) in Hye as [_ ?].
  - apply child_element in Hq. by apply (element_ids w _ Hw) in Hq as [_ Hq].
Qed.
Lemma flat_disjoint (l : list node) a k b q z : l = a ++ k :: b -> NoDup (flat_map ids l) -> q ∈ a \/ q ∈ b -> z ∈ ids q -> z ∉ ids k.
Proof.
  intros -> Hn Hq Hz Hzk. rewrite flat_map_app in Hn. cbn in Hn. apply NoDup_app in Hn as (_ & Hd & Hn). apply NoDup_app in Hn as (_ & Hd' & _).
  assert (HI : forall c, q ∈ c -> z ∈ flat_map ids c) by (intros c Hc; apply elem_of_list_In, in_flat_map; exists q; split; by apply elem_of_list_In).
  destruct Hq as [Hq|Hq]; [apply (Hd z (HI a Hq)); apply elem_of_app; by left|apply (Hd' z Hzk), HI, Hq].
Qed.
Lemma tree_frame t S r k W : style_container t S r k -> wfs W ->
  (forall y, element y S -> element y W /\ data y W = data y S /\ (y <> nid k -> children y W = children y S)) ->
  exists r' k' a b, sub (nid r) W = Some r' /\ sub (nid k) W = Some k' /\ root r' = root r /\ root k' = root k /\
    kids r = a ++ k :: b /\ kids r' = a ++ k' :: b /\ ltag k = t /\ Forall (fun q => ltag q <> t) a.
Proof.
  intros HC HW HF. pose proof HC as (Hw & _ & _ & Hh). destruct (container_in _ _ _ _ HC) as (Er & Ek & Sr & Sk & Hin & Hne).
  destruct (head_split _ _ _ Hh) as (a & b & Ekr & Ht & Ha).
  destruct (HF _ Er) as (Er' & Dr & Cr). destruct (HF _ Ek) as (Ek' & Dk & _). specialize (Cr Hne).
  destruct (element_sub W _ HW Er') as [r' Sr']. destruct (element_sub W _ HW Ek') as [k' Sk'].
  assert (HR : forall q q', sub (nid q) S = Some q -> sub (nid q) W = Some q' -> data (nid q) W = data (nid q) S -> root q' = root q).
  { intros q q' H1 H2 H3. apply node_eq; [by apply (sub_nid _ _ _ H2)|]. destruct (sub_data _ _ _ H1) as [D1 _]. destruct (sub_data _ _ _ H2) as [D2 _]. congruence. }
  exists r', k', a, b. split; [done|]. split; [done|]. split; [by apply HR|]. split; [by apply HR|]. split; [done|]. split; [|done].
  assert (Hk1 : kids r' = omap (fun y => sub y W) (children (nid r) W)). { rewrite <- kids_from by done. unfold el_kids. by rewrite Sr'. }
  assert (HQ : forall q, q ∈ a \/ q ∈ b -> sub (nid q) W = Some q).
  { intros q Hq. assert (Hqr : q ∈ kids r) by (rewrite Ekr; apply elem_of_app; destruct Hq; [by left|right; by right]).
    pose proof (proj1 (Forall_forall _ _) (kids_subs _ _ _ Hw Sr) q Hqr) as Sq. cbn in Sq.
    assert (Hqe : element (nid q) S). { apply (child_element S (nid r)). destruct (sub_data _ _ _ Sr) as [_ ->]. by apply (elem_of_list_fmap_1 nid). }
    apply (sub_ext S); [done|done|done|]. intros z Hz. pose proof (below_element _ _ _ _ Hw Hqe Sq Hz) as Hze. destruct (HF z Hze) as (F1 & F2 & F3).
    split_and!; [by apply element_ids in F1 as [? _]| |done]. apply F3. intros ->.
    apply (flat_disjoint (kids r) a k b q (nid k) Ekr); [|done|done|apply nid_in].
    pose proof (sub_wfs _ _ _ Hw Sr) as Hwr. by apply wfs_kids in Hwr as [? _]. }
  rewrite Hk1, Cr. destruct (sub_data _ _ _ Sr) as [_ ->]. rewrite Ekr, map_app, omap_app. cbn [map]. change (nid k :: map nid b) with ([nid k] ++ map nid b). rewrite omap_app. change (omap (fun y => sub y W) [nid k]) with (match sub (nid k) W with Some q => [q] | None => [] end). rewrite Sk'.
  assert (HO : forall l, (forall q, q ∈ l -> sub (nid q) W = Some q) -> omap (fun y => sub y W) (map nid l) = l).
  { intros l Hl. apply omap_sub. by apply Forall_forall. }
  rewrite HO by (intros q Hq; apply HQ; by left). by rewrite HO by (intros q Hq; apply HQ; by right).
Qed.
Lemma add_to_split t es (a b : list elem) k : Forall (fun q => e_tag q <> t) a -> e_tag k = t -> add_to t es (a ++ k :: b) = a ++ T (root k) (kids k ++ es) :: b.
Proof. intros Ha Hk. induction Ha as [|q a Hq _ IH]; cbn; [by rewrite decide_True|]. rewrite decide_False by done. by rewrite IH. Qed.
Lemma elem_eta (e : elem) : e = T (root e) (kids e).
Proof. by destruct e. Qed.
Lemma injected_tree t S r k W es : style_container t S r k -> wfs W -> kept_but (nid k) S es W ->
  exists r', sub (nid r) W = Some r' /\ erase r' = with_styles t es (erase r).
Proof.
  intros HC HW [K1 K2]. destruct (tree_frame t S r k W HC HW K1) as (r' & k' & a & b & S1 & S2 & R1 & R2 & Ea & Eb & Ht & Ha).
  destruct (container_in _ _ _ _ HC) as (_ & _ & _ & Sk & _). unfold el_kids in K2. rewrite S2, Sk in K2.
  exists r'. split; [done|]. unfold with_styles. rewrite (elem_eta (erase r')), !erase_kids, !erase_root, R1. f_equal. rewrite Ea, Eb, !map_app. cbn [map].
  rewrite add_to_split; [|apply Forall_map; eapply Forall_impl; [exact Ha|]; intros q Hq; by rewrite erase_tag|by rewrite erase_tag].
  f_equal. f_equal. rewrite (elem_eta (erase k')), !erase_kids, !erase_root, R2. by rewrite K2.
Qed.
