(** Changing tags, attributes and texts of nodes, the tree staying as it is. *)
From Verif Require Export NodeStoreFacts WrapperProofs.

Fixpoint relab (g : N -> nd -> nd) (t : node) : node :=
  match t with T a ks => T (L (nid_ a) (g (nid_ a) (pl a))) (map (relab g) ks) end.

Lemma relab_T g a ks : relab g (T a ks) = T (L (nid_ a) (g (nid_ a) (pl a))) (map (relab g) ks).
Proof. done. Qed.
Lemma relab_nid g t : nid (relab g t) = nid t.
Proof. by destruct t. Qed.
Lemma relab_nids g l : map nid (map (relab g) l) = map nid l.
Proof. rewrite map_map. apply map_ext. apply relab_nid. Qed.
Lemma relab_kids g t : kids (relab g t) = map (relab g) (kids t).
Proof. by destruct t. Qed.
Lemma relab_pl g t : pl (root (relab g t)) = g (nid t) (pl (root t)).
Proof. by destruct t. Qed.
Lemma relab_ids g t : ids (relab g t) = ids t.
Proof.
  induction t as [a ks IH] using tree_ind'. rewrite relab_T, !ids_T. cbn. f_equal.
  induction IH as [|k ks Hk _ IHks]; [done|]. cbn. by rewrite Hk, IHks.
Qed.
Lemma relab_idsl g l : flat_map ids (map (relab g) l) = flat_map ids l.
Proof. induction l as [|k l IH]; [done|]. cbn. by rewrite relab_ids, IH. Qed.
Lemma relab_relab g h t : relab g (relab h t) = relab (fun y d => g y (h y d)) t.
Proof.
  induction t as [a ks IH] using tree_ind'. rewrite !relab_T. cbn. f_equal.
  induction IH as [|k ks Hk _ IHks]; [done|]. cbn. by rewrite Hk, IHks.
Qed.
Lemma relab_ext g h t : (forall y d, y ∈ ids t -> g y d = h y d) -> relab g t = relab h t.
Proof.
  induction t as [a ks IH] using tree_ind'. rewrite ids_T. intros H. rewrite !relab_T. f_equal.
  - f_equal. apply H. left.
  - apply map_ext_in. intros k Hk%elem_of_list_In. rewrite Forall_forall in IH. apply IH; [done|].
    intros y d Hy. apply H. right. apply elem_of_flat_map. eauto.
Qed.
Lemma relab_id t : relab (fun _ d => d) t = t.
Proof.
  induction t as [a ks IH] using tree_ind'. rewrite relab_T. f_equal; [by destruct a|].
  induction IH as [|k ks Hk _ IHks]; [done|]. cbn. by rewrite Hk, IHks.
Qed.
Lemma relab_sub g x t : sub x (relab g t) = relab g <$> sub x t.
Proof.
  induction t as [a ks IH] using tree_ind'. rewrite relab_T, !sub_T. cbn [nid_]. case_decide; [done|].
  induction IH as [|k ks Hk _ IHks]; [done|]. cbn. rewrite Hk. destruct (sub x k); [done|]. apply IHks.
Qed.
Lemma relab_children g x w : children x (relab g w) = children x w.
Proof. unfold children. rewrite relab_sub. destruct (sub x w) as [t|]; [|done]. cbn. by rewrite relab_kids, relab_nids. Qed.
Lemma relab_data g x w : data x (relab g w) = g x <$> data x w.
Proof.
  unfold data. rewrite relab_sub. destruct (sub x w) as [t|] eqn:E; [|done]. cbn.
  rewrite relab_pl. by rewrite (sub_nid w x t).
Qed.
Lemma relab_wfs g w : wfs w -> wfs (relab g w).
Proof. unfold wfs. by rewrite relab_ids. Qed.
Lemma relab_element g x w : element x (relab g w) <-> element x w.
Proof. unfold element. by rewrite relab_kids, relab_idsl. Qed.
Lemma relab_owner g x t : owner x (relab g t) = owner x t.
Proof.
  induction t as [a ks IH] using tree_ind'. rewrite relab_T, !owner_T. rewrite relab_nids. case_decide; [done|].
  induction IH as [|k ks Hk _ IHks]; [done|]. cbn [map]. rewrite Hk. destruct (owner x k); [done|].
  apply IHks. intros Hx. apply H. cbn. by right.
Qed.
Lemma relab_getparent g x w : getparent x (relab g w) = getparent x w.
Proof. unfold getparent. by rewrite relab_owner, relab_nid. Qed.
Lemma relab_root g x w : get_xmlroot x (relab g w) = get_xmlroot x w.
Proof.
  unfold get_xmlroot. rewrite relab_ids. generalize (length (ids w)) as n. intros n. revert x.
  induction n as [|n IH]; intros x; [done|]. cbn. rewrite relab_getparent. by destruct (getparent x w).
Qed.
Lemma relab_upwards g w a b : upwards (relab g w) a b <-> upwards w a b.
Proof.
  split.
  - induction 1 as [|x y c H IH Hc]; [constructor|]. rewrite relab_children in Hc. by econstructor.
  - induction 1 as [|x y c H IH Hc]; [constructor|]. econstructor; [done|]. by rewrite relab_children.
Qed.
Lemma relab_ldesc g tg t : (forall y d, tag (g y d) = tag d) -> ldesc tg (relab g t) = map (relab g) (ldesc tg t).
Proof.
  intros Hg. induction t as [a ks IH] using tree_ind'. rewrite relab_T, !ldesc_T.
  induction IH as [|k ks Hk _ IHks]; [done|]. cbn [map flat_map]. rewrite IHks, map_app. f_equal.
  unfold lself. rewrite Hk, map_app. f_equal. unfold ltag. rewrite relab_pl, Hg. by case_decide.
Qed.

(** one node *)
Definition at_node (x : N) (f : nd -> nd) (y : N) (d : nd) : nd := if decide (y = x) then f d else d.
Lemma edit_relab x f w : wfs w -> x <> nid w -> edit x (fun k => [lon_root f k]) w = relab (at_node x f) w.
Proof.
  unfold wfs. induction w as [a ks IH] using tree_ind'. unfold nid. cbn [root]. intros Hn Hx.
  rewrite edit_T, relab_T. unfold at_node at 1. rewrite decide_False by done. f_equal; [by destruct a|].
  rewrite ids_T in Hn. apply NoDup_cons in Hn as [_ Hn].
  induction IH as [|k ks Hk _ IHks]; [done|]. cbn [flat_map map] in *. apply NoDup_app in Hn as (H1 & H2 & H3).
  rewrite IHks by done. unfold ed. case_decide as E; cbn [app]; f_equal; [|by apply Hk].
  destruct k as [b l]. cbn [lon_root]. rewrite relab_T. unfold nid in E. cbn in E. unfold at_node at 1.
  rewrite decide_True by done. f_equal. rewrite ids_T in H1. apply NoDup_cons in H1 as [H1 _].
  transitivity (map (relab (fun _ d => d)) l).
  - rewrite <- (map_id l) at 1. apply map_ext. intros k. by rewrite relab_id.
  - apply map_ext_in. intros k Hk'%elem_of_list_In. apply relab_ext. intros y d Hy. unfold at_node.
    rewrite decide_False; [done|]. intros ->. apply H1. rewrite E. apply elem_of_flat_map. eauto.
Qed.

(** ** Searching *)
Lemma ldesc_elem tg t y : wfs t ->
  y ∈ map nid (ldesc tg t) <-> y ∈ flat_map ids (kids t) /\ exists d, data y t = Some d /\ tag d = tg.
Proof.
  intros Hw.
  assert (H : forall y, y ∈ map nid (ldesc tg t) <-> exists d l, (y, d, l) ∈ flat_map view (kids t) /\ tag d = tg).
  { clear Hw y. induction t as [a ks IH] using tree_ind'. intros y. rewrite ldesc_T. cbn [kids].
    induction IH as [|k ks Hk _ IHks]; [cbn; split; [intros []%elem_of_nil|by intros (? & ? & []%elem_of_nil & _)]|].
    cbn [flat_map]. rewrite map_app, elem_of_app, IHks. unfold lself. rewrite map_app, elem_of_app, Hk. split.
    - intros [[H|(d & l & H1 & H2)]|(d & l & H1 & H2)].
      + exists (pl (root k)), (map nid (kids k)). case_decide as E; [|by apply elem_of_nil in H].
        apply elem_of_list_singleton in H as ->. split; [|done]. apply elem_of_app. left. rewrite view_eq. left.
      + exists d, l. split; [|done]. apply elem_of_app. left. rewrite view_eq. by right.
      + exists d, l. split; [|done]. apply elem_of_app. by right.
    - intros (d & l & H1 & H2). apply elem_of_app in H1 as [H1|H1]; [left|right; by exists d, l].
      rewrite view_eq in H1. apply elem_of_cons in H1 as [[= -> -> ->]|H1]; [left|right; by exists d, l].
      rewrite decide_True by done. left. }
  rewrite H. split.
  - intros (d & l & H1 & H2). pose proof H1 as H3. apply (elem_of_list_fmap_1 rid) in H3. rewrite views_ids in H3. cbn in H3.
    split; [done|]. exists d. split; [|done].
    assert (Hv : (y, d, l) ∈ view t) by (rewrite view_eq; by right).
    by apply view_spec in Hv as (_ & _ & ?).
  - intros [H1 (d & H2 & H3)]. exists d, (children y t). split; [|done].
    destruct (view_at t y) as (d' & Hd & E); [rewrite ids_eq; by right|]. rewrite H2 in E. injection E as <-.
    rewrite view_eq in Hd. apply elem_of_cons in Hd as [[= E _ _]|Hd]; [|done].
    exfalso. destruct (wfs_kids t Hw) as [_ Hn]. by rewrite E in H1.
Qed.
Lemma sub_data w r t y : wfs w -> sub r w = Some t -> y ∈ ids t -> data y t = data y w.
Proof.
  intros Hw Ht Hy. pose proof (sub_wfs _ _ _ Hw Ht) as Hwt.
  destruct (view_at w y) as (d & H & E); [by apply (sub_ids w r t)|].
  pose proof (sub_view _ _ _ _ Hw Ht H Hy) as H'. apply view_spec in H' as (_ & _ & ->); done.
Qed.
Lemma below_elem w r t y : wfs w -> sub r w = Some t -> y ∈ flat_map ids (kids t) <-> upwards w r y /\ y <> r.
Proof.
  intros Hw Ht. rewrite <- (sub_upwards w r t) by done. rewrite ids_eq, elem_of_cons.
  destruct (wfs_kids t) as [_ Hn]; [by apply (sub_wfs w r)|]. rewrite (sub_nid w r t) in * by done. split.
  - intros H. split; [by right|]. intros ->. done.
  - intros [[?|?] ?]; done.
Qed.
Lemma top_unique w r r' x : wfs w ->
  upwards w r x -> (forall p, element p w -> r ∉ children p w) -> element r w ->
  upwards w r' x -> (forall p, element p w -> r' ∉ children p w) -> element r' w -> r = r'.
Proof.
  intros Hw H1 Hr He. revert r'. induction H1 as [r|r y c H IH Hc]; intros r' H2 Hr' He'.
  - inversion H2 as [|? y c Hy Hc]; subst; [done|]. exfalso. refine (Hr y _ Hc).
    clear -Hw Hy He'. induction Hy as [|? ? ? ? ? Hc]; [done|]. by apply child_element in Hc.
  - inversion H2 as [|? y' c' Hy Hc']; subst.
    + exfalso. refine (Hr' y _ Hc). clear -Hw H He. induction H as [|? ? ? ? ? Hc]; [done|]. by apply child_element in Hc.
    + rewrite <- (one_parent w y y' c) in Hy by done. by apply IH.
Qed.
