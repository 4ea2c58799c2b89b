(** C66: page layouts. *)
From Verif Require Import PageLayoutSpec AttrsProofs.

Lemma find_child_split t e :
  match find_child t e with
  | Some k => exists l r, kids e = l ++ k :: r /\ e_tag k = t /\ Forall (fun x => e_tag x <> t) l
  | None => Forall (fun x => e_tag x <> t) (kids e)
  end.
Proof.
  unfold find_child, findall. induction (kids e) as [|k ks IH]; [constructor|]. rewrite filter_cons.
  case_decide as E.
  - cbn. by exists [], ks.
  - destruct (head (filter _ ks)) as [k'|].
    + destruct IH as (l & r & -> & H1 & H2). exists (k :: l), r. split; [done|]. split; [done|]. by constructor.
    + by constructor.
Qed.
Lemma on_first_split t f l k r : Forall (fun x => e_tag x <> t) l -> e_tag k = t ->
  on_first t f (l ++ k :: r) = l ++ f k :: r.
Proof.
  intros Hl Hk. induction Hl as [|x l Hx Hl IH]; cbn [app on_first]; [by rewrite decide_True|].
  rewrite decide_False by done. by rewrite IH.
Qed.
Lemma find_child_at t e l k r : kids e = l ++ k :: r -> Forall (fun x => e_tag x <> t) l -> e_tag k = t ->
  find_child t e = Some k.
Proof.
  intros He Hl Hk. unfold find_child, findall. rewrite He. clear He. induction Hl as [|x l Hx Hl IH]; cbn [app].
  - by rewrite filter_cons_True.
  - by rewrite filter_cons_False.
Qed.
Lemma find_child_none t e : Forall (fun x => e_tag x <> t) (kids e) -> find_child t e = None.
Proof.
  unfold find_child, findall. induction (kids e) as [|x l IH]; intros H; [done|]. apply Forall_cons in H as [H1 H2].
  rewrite filter_cons_False by done. by apply IH.
Qed.
Lemma subelement_cases t e :
  (exists q, q ∈ kids e /\ e_tag q = t /\ subelement t e = e) \/
  (Forall (fun x => e_tag x <> t) (kids e) /\ root (subelement t e) = root e /\ kids (subelement t e) = kids e ++ [new_elem t]).
Proof.
  unfold subelement. pose proof (find_child_split t e) as H. destruct (find_child t e) as [k|].
  - destruct H as (l & r & He & Ht & _). left. exists k. rewrite He. split; [|done]. apply elem_of_app. right. left.
  - right. by destruct e.
Qed.

(** [_properties]: what is missing is added at the end, nothing else changes; if nothing may be added,
    a missing element is an error. *)
Theorem C66_properties (key : string) (new : bool) (e : elem) :
  (new = false -> Forall (fun x => e_tag x <> key) (kids e) -> properties key new e = (e, Err KeyError)) /\
  ((new = true \/ exists x, x ∈ kids e /\ e_tag x = key) ->
   exists e' q, properties key new e = (e', Ok tt) /\ completed key (properties_name key) e e' /\
     properties_node key e' = Some q /\ e_tag q = properties_name key).
Proof.
  set (props := properties_name key). split.
  - intros -> H. unfold properties. by rewrite find_child_none.
  - intros Hn. unfold properties.
    assert (Hs : forall k0, exists q, find_child props (subelement props k0) = Some q /\ e_tag q = props).
    { intros k0. unfold subelement. pose proof (find_child_split props k0) as H. destruct (find_child props k0) as [q|] eqn:E.
      - rewrite E. exists q. split; [done|]. by destruct H as (l & r & _ & ? & _).
      - exists (new_elem props). split; [|done]. destruct k0 as [a ks]. cbn [kids] in H.
        by apply (find_child_at _ _ ks _ []). }
    assert (Hcase : forall (e1 : elem) l k0 r, kids e1 = l ++ k0 :: r -> e_tag k0 = key -> Forall (fun x => e_tag x <> key) l ->
      find_child key e1 = Some k0 /\
      kids (on_kids (on_first key (subelement props)) e1) = l ++ subelement props k0 :: r /\
      root (on_kids (on_first key (subelement props)) e1) = root e1 /\
      e_tag (subelement props k0) = key).
    { intros e1 l k0 r He Hk Hl. split; [by apply (find_child_at _ _ l _ r)|]. destruct e1 as [a ks]. cbn [kids] in He. subst ks.
      cbn [on_kids kids root]. rewrite on_first_split by done. split; [done|]. split; [done|].
      destruct (subelement_cases props k0) as [(q & _ & _ & ->)|(_ & Hr & _)]; [done|]. unfold e_tag in *. by rewrite Hr. }
    pose proof (find_child_split key e) as Hf. destruct (find_child key e) as [k0|] eqn:Ef.
    + destruct Hf as (l & r & He & Hk & Hl).
      assert (E1 : (if new then subelement key e else e) = e).
      { destruct new; [|done]. unfold subelement. by rewrite Ef. }
      rewrite E1, Ef. destruct (Hcase e l k0 r He Hk Hl) as (_ & Hkids & Hroot & Htag).
      destruct (Hs k0) as (q & Hq & Hqt). eexists _, q. split; [reflexivity|]. split; [|split; [|done]].
      * split; [done|]. exists l, (subelement props k0), r. split; [done|]. split; [done|]. split; [done|].
        destruct (subelement_cases props k0) as [(q' & Hq' & Hqt' & E)|(Hno & Hr & Hks)].
        -- left. rewrite E. split; [done|]. by exists q'.
        -- right. left. exists k0. done.
      * unfold properties_node. rewrite (find_child_at key _ l (subelement props k0) r) by done. exact Hq.
    + destruct Hn as [-> |(x & Hx & Hxt)].
      2: { exfalso. rewrite Forall_forall in Hf. by apply (Hf x). }
      assert (E1 : kids (subelement key e) = kids e ++ [new_elem key] /\ root (subelement key e) = root e).
      { unfold subelement. rewrite Ef. by destruct e. }
      destruct E1 as [E1 E2].
      destruct (Hcase (subelement key e) (kids e) (new_elem key) [] E1 eq_refl Hf) as (Hc & Hkids & Hroot & Htag).
      rewrite Hc. destruct (Hs (new_elem key)) as (q & Hq & Hqt). eexists _, q. split; [reflexivity|]. split; [|split; [|done]].
      * split; [etrans; [exact Hroot|exact E2]|]. exists (kids e), (subelement props (new_elem key)), []. split; [done|]. split; [done|]. split; [done|].
        right. right. split; [done|]. split; [done|]. done.
      * unfold properties_node. rewrite (find_child_at key _ (kids e) (subelement props (new_elem key)) []) by done. exact Hq.
Qed.
Print Assumptions C66_properties.

Lemma completed_other key props e e' (P : elem -> Prop) `{!forall x, Decision (P x)} :
  completed key props e e' -> (forall x, e_tag x = key -> ~ P x) -> filter P (kids e') = filter P (kids e).
Proof.
  intros (_ & l & k & r & -> & Hk & _ & Hx) HP. rewrite filter_app, filter_cons_False by (by apply HP).
  destruct Hx as [[-> _]|[(k0 & -> & _ & Hr & _)|(-> & -> & _)]].
  - by rewrite filter_app, filter_cons_False by (by apply HP).
  - rewrite filter_app, filter_cons_False; [done|]. apply HP. unfold e_tag in *. by rewrite <- Hr.
  - cbn. by rewrite app_nil_r.
Qed.
Lemma completed_fix key e e' : completed key (properties_name key) e e' -> properties key true e' = (e', Ok tt).
Proof.
  intros (_ & l & k & r & He & Hk & Hl & H). unfold properties.
  pose proof (find_child_at key e' l k r He Hl Hk) as Hf.
  assert (E : subelement key e' = e') by (unfold subelement; by rewrite Hf). rewrite E, Hf. f_equal.
  destruct e' as [a ks]. cbn [kids] in He. subst ks. cbn [on_kids]. rewrite on_first_split by done. f_equal. f_equal. f_equal.
  assert (Hin : exists q, q ∈ kids k /\ e_tag q = properties_name key).
  { destruct H as [[_ H]|[(k0 & _ & _ & _ & ->)|(_ & _ & ->)]]; [done| |].
    - exists (new_elem (properties_name key)). split; [|done]. apply elem_of_app. right. left.
    - exists (new_elem (properties_name key)). split; [left|done]. }
  destruct Hin as (q & Hq & Hqt). destruct (subelement_cases (properties_name key) k) as [(? & _ & _ & ?)|(Hno & _)]; [done|].
  exfalso. rewrite Forall_forall in Hno. by apply (Hno q).
Qed.
(** a step for another key keeps what is there *)
Lemma completed_keeps key key' props e e' : key <> key' -> completed key' props e e' ->
  (forall x, x ∈ kids e -> e_tag x = key -> x ∈ kids e') /\ find_child key e' = find_child key e.
Proof.
  intros Hne H. assert (E : filter (fun x => e_tag x = key) (kids e') = filter (fun x => e_tag x = key) (kids e)).
  { eapply completed_other; [exact H|]. cbn. intros x -> . congruence. }
  split.
  - intros x Hx Ht. assert (Hi : x ∈ filter (fun x => e_tag x = key) (kids e')) by (rewrite E; by apply elem_of_list_filter).
    by apply elem_of_list_filter in Hi as [_ ?].
  - unfold find_child, findall. by rewrite E.
Qed.

(** PageLayout(element): header and footer get their properties; everything else stays; doing it again
    changes nothing. *)
Theorem C66_layout (e : elem) :
  exists e' h f, page_layout e = (e', Ok tt) /\
    (exists e1, completed HEADER_STYLE "style:header-style-properties" e e1 /\
                completed FOOTER_STYLE "style:footer-style-properties" e1 e') /\
    properties_node HEADER_STYLE e' = Some h /\ e_tag h = "style:header-style-properties"%string /\
    properties_node FOOTER_STYLE e' = Some f /\ e_tag f = "style:footer-style-properties"%string /\
    root e' = root e /\
    filter (fun x => e_tag x <> HEADER_STYLE /\ e_tag x <> FOOTER_STYLE) (kids e') =
      filter (fun x => e_tag x <> HEADER_STYLE /\ e_tag x <> FOOTER_STYLE) (kids e) /\
    page_layout e' = (e', Ok tt) /\
    (forall k, layout_get k e' = layout_get k e).
Proof.
  destruct (C66_properties HEADER_STYLE true e) as [_ H]. destruct H as (e1 & h & E1 & C1 & H1 & T1); [by left|].
  destruct (C66_properties FOOTER_STYLE true e1) as [_ H]. destruct H as (e2 & f & E2 & C2 & H2 & T2); [by left|].
  assert (Hne : HEADER_STYLE <> FOOTER_STYLE) by done.
  destruct (completed_keeps HEADER_STYLE FOOTER_STYLE _ e1 e2 Hne C2) as [_ Hk].
  assert (Hr : root e2 = root e) by (destruct C1 as [R1 _], C2 as [R2 _]; congruence).
  exists e2, h, f. split. { unfold page_layout, abind. by rewrite E1, E2. }
  split; [by exists e1|]. split; [unfold properties_node in *; by rewrite Hk|]. split; [done|]. split; [done|]. split; [done|].
  split; [done|]. split.
  { rewrite (completed_other FOOTER_STYLE _ e1 e2) by (done || (intros x ->; tauto)).
    apply (completed_other HEADER_STYLE (properties_name HEADER_STYLE) e e1); [done|intros x ->; tauto]. }
  split.
  - unfold page_layout, abind. assert (Hp : properties HEADER_STYLE true e2 = (e2, Ok tt)).
    { assert (C3 : completed HEADER_STYLE (properties_name HEADER_STYLE) e2 e2).
      { split; [done|]. pose proof (find_child_split HEADER_STYLE e2) as Hs. unfold properties_node in H1. rewrite <- Hk in H1.
        destruct (find_child HEADER_STYLE e2) as [k|]; [|done]. destruct Hs as (l & r & He & Ht & Hl). exists l, k, r.
        split; [done|]. split; [done|]. split; [done|]. left. split; [done|]. cbn in H1.
        pose proof (find_child_split (properties_name HEADER_STYLE) k) as Hq. rewrite H1 in Hq.
        destruct Hq as (l' & r' & Hkk & _). exists h. split; [rewrite Hkk; apply elem_of_app; right; left|done]. }
      by apply (completed_fix _ _ _ C3). }
    rewrite Hp. by apply (completed_fix _ e1).
  - intros k. unfold layout_get, e_get, e_attrs. by rewrite Hr.
Qed.
Print Assumptions C66_layout.

(** The keys: the name and the usage of a layout; header and footer have none. *)
Theorem C66_keys (k : string) (e : elem) :
  (k = "name"%string -> layout_get k e = Ok (e_get "style:name" e)) /\
  (k = "page-usage"%string -> layout_get k e = Ok (e_get "style:page-usage" e)) /\
  (k <> "name"%string -> k <> "page-usage"%string -> layout_get k e = Err KeyError) /\
  header_get k e = Err KeyError.
Proof.
  unfold layout_get. split; [by intros ->|]. split; [by intros ->|]. split; [|done]. intros H1 H2.
  rewrite decide_False; [done|]. intros H. repeat (apply elem_of_cons in H as [-> |H]; [done|]). by apply elem_of_nil in H.
Qed.
Print Assumptions C66_keys.

(** ** Cases: the layout of an ODF file *)
Definition hfp : elem := T (Nd "style:header-footer-properties" {["fo:min-height" := lit "1cm"]} None None) [].
Definition e66 : elem := T (Nd "style:page-layout" {["style:name" := lit "pm1"]} None None)
  [T (Nd "style:page-layout-properties" ∅ None None) []; T (Nd HEADER_STYLE ∅ None None) [hfp]; T (Nd FOOTER_STYLE ∅ None None) []].
Example C66_properties_case :
  properties "style:header-style" false e66 = ((properties "style:header-style" false e66).1, Ok tt) /\
  (properties "style:nothing" false e66).2 = Err KeyError /\
  map (fun k => length (kids k)) (kids (properties "style:header-style" false e66).1) = [0; 2; 0].
Proof. split; [apply pair_by; by_vm|]. split; by_vm. Qed.
Example C66_layout_case :
  map (fun k => length (kids k)) (kids (page_layout e66).1) = [0; 2; 1] /\
  map e_tag (kids (page_layout (new_elem "style:page-layout")).1) = [HEADER_STYLE; FOOTER_STYLE].
Proof. split; by_vm. Qed.
Example C66_keys_case : layout_get "name" e66 = Ok (Some (lit "pm1")) /\ layout_get "page-usage" e66 = Ok None.
Proof. split; by_vm. Qed.

(** The element ODF has for these properties is not the one that is used: looking at a layout adds an
    element that ODF does not know, in every layout without it. *)
Theorem C66_counterexample :
  exists e, find_child HEADER_STYLE e ≫= find_child "style:header-footer-properties" = Some hfp /\
    (page_layout e).1 <> e /\ properties_node HEADER_STYLE (page_layout e).1 <> Some hfp.
Proof.
  exists e66. split; [by_vm|]. split.
  - intros E. assert (H : map (fun k => length (kids k)) (kids (page_layout e66).1) = [0; 2; 1]) by by_vm. rewrite E in H. done.
  - destruct (C66_layout e66) as (e' & h & f & E & _ & Hh & Ht & _). rewrite E. cbn [fst]. rewrite Hh. by intros [= ->].
Qed.
Print Assumptions C66_counterexample.
