(** Proofs about variables.py. *)
From Verif Require Export VariablesSpec Relabel AttrsProofs.

Section proofs.
Context `{U : Unicode} `{F : PyFloat}.
Context (odd : N -> string -> pystr -> node -> res (list N)).

Lemma self_data x w : self x w = match data x w with Some d => T d [] | None => new_elem "" end.
Proof. unfold self, data. by destruct (sub x w). Qed.
Lemma element_data w x : wfs w -> element x w -> exists d, data x w = Some d.
Proof. intros Hw Hx. destruct (element_sub w x Hw Hx) as [k Hk]. unfold data. rewrite Hk. by eexists. Qed.
Lemma on_self_eq {A} x (m : act elem A) w d : wfs w -> element x w -> data x w = Some d ->
  on_self x m w = (relab (at_node x (fun _ => root (m (T d [])).1)) w, (m (T d [])).2).
Proof.
  intros Hw Hx Hd. unfold on_self. destruct (element_sub w x Hw Hx) as [k Hk]. rewrite Hk. rewrite self_data, Hd.
  destruct (m (T d [])) as [e r]. cbn. rewrite edit_relab; [done|done|]. by apply element_ids in Hx as [_ ?].
Qed.
Lemma at_node_ext x f g w d : wfs w -> data x w = Some d -> f d = g d -> relab (at_node x f) w = relab (at_node x g) w.
Proof.
  intros Hw Hd E.
  assert (H : forall t, wfs t -> (forall y d, data y t = Some d -> y = x -> f d = g d) -> relab (at_node x f) t = relab (at_node x g) t).
  { clear w d Hw Hd E. intros t. induction t as [a ks IH] using tree_ind'. intros Hw H. rewrite !relab_T. f_equal.
    - f_equal. unfold at_node. case_decide as E; [|done]. apply (H (nid_ a)); [|done]. unfold data. by rewrite sub_T, decide_True.
    - apply map_ext_in. intros k Hk%elem_of_list_In. rewrite Forall_forall in IH.
      assert (Hs : sub (nid k) (T a ks) = Some k).
      { apply (el_kids_sub (T a ks) (nid (T a ks))); [done|]. unfold el_kids. by rewrite sub_root. }
      apply IH; [done|by apply (sub_wfs (T a ks) (nid k))|]. intros y d Hy. apply H.
      rewrite <- (sub_data (T a ks) (nid k) k); [done|done|done|]. unfold data in Hy. destruct (sub y k) as [z|] eqn:Ez; [|done].
      apply view_sub in Ez. by apply (row_in _ _ Ez). }
  apply H; [done|]. intros y d' Hy ->. congruence.
Qed.
Lemma on_put_text x s w : wfs w -> element x w ->
  on_self x (put_text s) w = (relab (at_node x (set_text_of s)) w, Ok tt).
Proof.
  intros Hw Hx. destruct (element_data w x Hw Hx) as [d Hd]. rewrite (on_self_eq _ _ _ d) by done. cbn. f_equal.
  by apply (at_node_ext _ _ _ _ d).
Qed.
Lemma at_node_id x w d (f : nd -> nd) : wfs w -> data x w = Some d -> f d = d -> relab (at_node x f) w = w.
Proof.
  intros Hw Hd E. rewrite (at_node_ext x f (fun d => d) w d) by done. rewrite <- (relab_id w) at 2. apply relab_ext.
  intros y e _. unfold at_node. by case_decide.
Qed.
Lemma on_put_attr x k v w : wfs w -> element x w ->
  on_self x (put_attr k v) w =
    if truth v then (relab (at_node x (set_attr_of k (tostr v))) w, Ok tt) else (w, Err ValueError).
Proof.
  intros Hw Hx. destruct (element_data w x Hw Hx) as [d Hd]. rewrite (on_self_eq _ _ _ d) by done. unfold put_attr.
  destruct (truth v); cbn [fst snd]; f_equal.
  - apply (at_node_ext _ _ _ _ d); done.
  - by apply (at_node_id _ _ d).
Qed.
Lemma on_set_bool x k v w : wfs w -> element x w ->
  on_self x (set_bool_attr k v) w =
    (relab (at_node x (set_attr_of k (if truth v then lit "true" else lit "false"))) w, Ok tt).
Proof.
  intros Hw Hx. destruct (element_data w x Hw Hx) as [d Hd]. rewrite (on_self_eq _ _ _ d) by done. cbn. f_equal.
  by apply (at_node_ext _ _ _ _ d).
Qed.

(** ** Instances *)
Definition keeps (g : N -> nd -> nd) : Prop :=
  forall y d, tag (g y d) = tag d /\ attrs (g y d) !! "text:name"%string = attrs d !! "text:name"%string.
Lemma found_relab g r tg nm w : keeps g -> 39%N ∉ nm -> found odd r tg nm (relab g w) = found odd r tg nm w.
Proof.
  intros Hg Hq. unfold found. rewrite !decide_False by done. f_equal. rewrite relab_sub. destruct (sub r w) as [t|]; [|done].
  cbn. rewrite relab_ldesc by (intros; apply Hg). generalize (ldesc tg t) as l. intros l.
  induction l as [|k l IH]; [done|]. cbn [map]. rewrite !filter_cons, relab_pl. destruct (Hg (nid k) (pl (root k))) as [_ ->].
  case_decide; [|done]. cbn. by rewrite relab_nid, IH.
Qed.
Lemma found_spec r tg nm w : wfs w -> element r w -> 39%N ∉ nm ->
  exists l, found odd r tg nm w = Ok l /\
    forall y, y ∈ l <-> upwards w r y /\ y <> r /\
      exists d, data y w = Some d /\ attrs d !! "text:name"%string = Some nm /\ tag d = tg.
Proof.
  intros Hw Hr Hq. unfold found. rewrite decide_False by done. destruct (element_sub w r Hw Hr) as [t Ht]. rewrite Ht.
  eexists. split; [reflexivity|]. intros y. pose proof (sub_wfs _ _ _ Hw Ht) as Hwt.
  assert (Hin : forall k, k ∈ ldesc tg t -> sub (nid k) t = Some k).
  { intros k Hk. clear -Hwt Hk. induction t as [a ks IH] using tree_ind'. rewrite ldesc_T in Hk.
    apply elem_of_flat_map in Hk as (z & Hz & Hk). rewrite Forall_forall in IH.
    assert (Hs : sub (nid z) (T a ks) = Some z).
    { apply (el_kids_sub (T a ks) (nid (T a ks))); [done|]. unfold el_kids. by rewrite sub_root. }
    unfold lself in Hk. apply elem_of_app in Hk as [Hk|Hk].
    - case_decide; [|by apply elem_of_nil in Hk]. apply elem_of_list_singleton in Hk as ->. done.
    - pose proof (sub_wfs _ _ _ Hwt Hs) as Hwz. specialize (IH z Hz Hwz Hk).
      apply sub_Some in IH as [_ [<-|[c ->]]]; [done|]. apply sub_Some in Hs as [_ [Hs|[c' Hs]]].
      + rewrite <- Hs, sub_plug; [done|]. exact Hwz.
      + rewrite Hs. rewrite <- plug_ccomp. apply sub_plug. rewrite plug_ccomp, <- Hs. exact Hwt. }
  split.
  - intros (k & -> & Hk)%elem_of_list_fmap. apply elem_of_list_filter in Hk as [Hn Hk].
    assert (H : nid k ∈ map nid (ldesc tg t)) by (by apply elem_of_list_fmap_1).
    apply ldesc_elem in H as [H1 (d & H2 & H3)]; [|done].
    apply (below_elem w r t) in H1 as H4; [|done|done]. destruct H4. split_and!; [done|done|]. exists d.
    rewrite <- (sub_data w r t) by (try done; rewrite ids_eq; by right). split_and!; [done| |done].
    unfold data in H2. rewrite (Hin k Hk) in H2. cbn in H2. injection H2 as <-. done.
  - intros (H1 & H2 & d & H3 & H4 & H5).
    assert (Hy : y ∈ flat_map ids (kids t)) by (by apply (below_elem w r t)).
    assert (Hd : data y t = Some d) by (rewrite (sub_data w r t); [done|done|done|rewrite ids_eq; by right]).
    assert (H : y ∈ map nid (ldesc tg t)) by (apply ldesc_elem; eauto).
    apply elem_of_list_fmap in H as (k & -> & Hk). apply elem_of_list_fmap_1. apply elem_of_list_filter. split; [|done].
    unfold data in Hd. rewrite (Hin k Hk) in Hd. cbn in Hd. by injection Hd as ->.
Qed.

Lemma ldesc_sublist tg t : sublist (map nid (ldesc tg t)) (flat_map ids (kids t)).
Proof.
  induction t as [a ks IH] using tree_ind'. rewrite ldesc_T. cbn [kids]. induction IH as [|k ks Hk _ IH]; [constructor|].
  cbn [flat_map]. rewrite map_app. apply sublist_app; [|exact IH]. unfold lself. rewrite map_app, ids_eq.
  case_decide; cbn [map app]; by constructor.
Qed.
Lemma found_sublist r tg nm w l : wfs w -> 39%N ∉ nm -> found odd r tg nm w = Ok l -> sublist l (ids w).
Proof.
  intros Hw Hq. unfold found. rewrite decide_False by done. intros [= <-]. destruct (sub r w) as [t|] eqn:Ht; [|apply sublist_nil_l].
  assert (H1 : sublist (map nid (ldesc tg t)) (ids w)).
  { etrans; [apply ldesc_sublist|]. etrans; [|assert (sublist (ids t) (ids w)) as H; [|exact H]].
    - rewrite (ids_eq t). by constructor.
    - apply sub_Some in Ht as [_ [->|[c ->]]]; [done|]. rewrite ids_plug1. apply sublist_inserts_l, sublist_inserts_r. done. }
  etrans; [|exact H1]. clear. induction (ldesc tg t) as [|k l IH]; [done|]. rewrite filter_cons.
  case_decide; cbn [map]; by constructor.
Qed.
Lemma sublist_not_after (y : N) l L : NoDup L -> sublist (y :: l) L -> forall z, z ∈ y :: l ->
  exists i j, L !! i = Some y /\ L !! j = Some z /\ i <= j.
Proof.
  intros Hn Hs z Hz. apply sublist_cons_l in Hs as (L1 & L2 & -> & Hs).
  exists (length L1). rewrite elem_of_cons in Hz. destruct Hz as [->|Hz].
  - exists (length L1). split_and!; [by apply list_lookup_middle|by apply list_lookup_middle|done].
  - assert (Hz2 : z ∈ L2) by (eapply elem_of_submseteq; [done|by apply sublist_submseteq]).
    apply elem_of_list_lookup in Hz2 as [j Hj]. exists (length L1 + S j). split_and!; [by apply list_lookup_middle| |lia].
    rewrite lookup_app_r by lia. by replace (length L1 + S j - length L1) with (S j) by lia.
Qed.
Lemma root_topmost w r x : wfs w -> element x w -> topmost w r x -> get_xmlroot x w = r.
Proof.
  intros Hw Hx (H1 & H2 & H3). destruct (get_xmlroot_spec w x Hw Hx) as (H4 & H5 & H6).
  by apply (top_unique w _ _ x).
Qed.
Lemma instances_relab g v w : keeps g -> 39%N ∉ default (lit "None") (v_name v) ->
  instances odd v (relab g w) = instances odd v w.
Proof. intros Hg Hq. unfold instances. rewrite relab_root. by rewrite !found_relab. Qed.
Lemma instances_spec k x nmo nm r w : wfs w -> element x w -> topmost w r x ->
  nm = default (lit "None") nmo -> 39%N ∉ nm ->
  exists l, instances odd (Var k x nmo) w = Ok l /\ forall y, y ∈ l <-> instance w r nm y.
Proof.
  intros Hw Hx Hr -> Hq. unfold instances. cbn [v_node v_name]. rewrite (root_topmost w r) by done.
  destruct Hr as (_ & Hr & _).
  destruct (found_spec r "text:variable-set" _ w Hw Hr Hq) as (l1 & -> & H1).
  destruct (found_spec r "text:variable-get" _ w Hw Hr Hq) as (l2 & -> & H2).
  destruct (found_spec r "text:variable-input" _ w Hw Hr Hq) as (l3 & -> & H3).
  eexists. split; [reflexivity|]. intros y. rewrite !elem_of_app, H1, H2, H3. unfold instance. naive_solver.
Qed.
Lemma instances_first k x nmo nm r w : wfs w -> element x w -> topmost w r x ->
  nm = default (lit "None") nmo -> 39%N ∉ nm ->
  exists l, instances odd (Var k x nmo) w = Ok l /\ (forall y, y ∈ l <-> instance w r nm y) /\
    forall y, head l = Some y -> first_instance w r nm y.
Proof.
  intros Hw Hx Hr Hnm Hq. destruct (instances_spec k x nmo nm r w Hw Hx Hr Hnm Hq) as (l & E & Hl).
  exists l. split_and!; [done|done|]. intros y Hy. split; [apply Hl; by destruct l; [|injection Hy as ->; left]|].
  intros z dy dz Hz Hdy Hdz. apply Hl in Hz. revert E. unfold instances. cbn [v_node v_name]. rewrite (root_topmost w r) by done.
  destruct Hr as (_ & Hr & _). rewrite <- Hnm.
  destruct (found_spec r "text:variable-set" _ w Hw Hr Hq) as (l1 & E1 & H1). rewrite E1.
  destruct (found_spec r "text:variable-get" _ w Hw Hr Hq) as (l2 & E2 & H2). rewrite E2.
  destruct (found_spec r "text:variable-input" _ w Hw Hr Hq) as (l3 & E3 & H3). rewrite E3.
  apply found_sublist in E1, E2, E3; [|done..]. intros [= <-].
  assert (K1 : forall a d, a ∈ l1 -> data a w = Some d -> rank d = 0).
  { intros a d Ha Hd. apply H1 in Ha as (_ & _ & d' & Hd' & _ & Ht). rewrite Hd in Hd'. injection Hd' as <-. unfold rank. by rewrite Ht. }
  assert (K2 : forall a d, a ∈ l2 -> data a w = Some d -> rank d = 1).
  { intros a d Ha Hd. apply H2 in Ha as (_ & _ & d' & Hd' & _ & Ht). rewrite Hd in Hd'. injection Hd' as <-. unfold rank. by rewrite Ht. }
  assert (K3 : forall a d, a ∈ l3 -> data a w = Some d -> rank d = 2).
  { intros a d Ha Hd. apply H3 in Ha as (_ & _ & d' & Hd' & _ & Ht). rewrite Hd in Hd'. injection Hd' as <-. unfold rank. by rewrite Ht. }
  clear H1 H2 H3. rewrite !elem_of_app in Hz.
  destruct l1 as [|y1 l1].
  - destruct l2 as [|y2 l2].
    + destruct l3 as [|y3 l3]; [done|]. cbn in Hy. injection Hy as ->. destruct Hz as [Hz|[Hz|Hz]]; [by apply elem_of_nil in Hz..|].
      right. rewrite (K3 y dy), (K3 z dz) by (first [done|left]). split; [done|]. by apply (sublist_not_after y l3).
    + cbn in Hy. injection Hy as ->. rewrite (K2 y dy) by (first [done|left]). destruct Hz as [Hz|[Hz|Hz]]; [by apply elem_of_nil in Hz| |].
      * right. rewrite (K2 z dz) by done. split; [done|]. by apply (sublist_not_after y l2).
      * left. rewrite (K3 z dz) by done. lia.
  - cbn in Hy. injection Hy as ->. rewrite (K1 y dy) by (first [done|left]). destruct Hz as [Hz|[Hz|Hz]].
    + right. rewrite (K1 z dz) by done. split; [done|]. by apply (sublist_not_after y l1).
    + left. rewrite (K2 z dz) by done. lia.
    + left. rewrite (K3 z dz) by done. lia.
Qed.
Lemma instance_element w r nm y : wfs w -> element r w -> instance w r nm y -> element y w.
Proof.
  intros Hw Hr (H & _). induction H as [|? ? ? ? ? Hc]; [done|]. by apply child_element in Hc.
Qed.

(** ** Writing to several nodes *)
Definition at_nodes (l : list N) (f : nd -> nd) (y : N) (d : nd) : nd := if decide (y ∈ l) then f d else d.
Lemma iter_relab (l : list N) (m : N -> act node unit) (f : nd -> nd) (w : node) :
  (forall d, f (f d) = f d) ->
  (forall x w, wfs w -> element x w -> m x w = (relab (at_node x f) w, Ok tt)) ->
  wfs w -> Forall (fun x => element x w) l ->
  aiter l m w = (relab (at_nodes l f) w, Ok tt).
Proof.
  intros Hf Hm. revert w. induction l as [|x l IH]; intros w Hw Hl.
  - cbn. unfold aret. f_equal. rewrite <- (relab_id w) at 1. apply relab_ext. done.
  - apply Forall_cons in Hl as [Hx Hl]. cbn [aiter]. unfold abind. rewrite Hm by done.
    rewrite IH; [|by apply relab_wfs|].
    + rewrite relab_relab. f_equal. apply relab_ext. intros y d _. unfold at_node, at_nodes.
      destruct (decide (y = x)) as [->|Hne].
      * rewrite (decide_True (P := x ∈ x :: l)) by left. case_decide; by rewrite ?Hf.
      * destruct (decide (y ∈ l)); [rewrite decide_True by (by right)|rewrite decide_False by (by intros [|]%elem_of_cons)]; done.
    + eapply Forall_impl; [exact Hl|]. cbn. intros y. by rewrite relab_element.
Qed.
Lemma set_attr_idem k s d : set_attr_of k s (set_attr_of k s d) = set_attr_of k s d.
Proof. unfold set_attr_of. cbn. by rewrite insert_insert. Qed.
Lemma shows_idem u s d : shows u s (shows u s d) = shows u s d.
Proof. unfold shows, set_attr_of, set_text_of. cbn. by rewrite insert_insert. Qed.

Lemma type_for_str u : tostr (type_for u) = office_type u.
Proof. by destruct u. Qed.
Lemma office_type_ne u : office_type u <> [].
Proof. by destruct u. Qed.
Lemma shown_tostr u s : shown u s -> tostr u = s.
Proof. destruct u as [|[]|z|f|t|t b|e]; intros H; try (by destruct H); by rewrite H. Qed.
Lemma inst_value_set u x w : wfs w -> element x w ->
  set_inst_value u x w = (relab (at_node x (shows u (tostr u))) w, Ok tt).
Proof.
  intros Hw Hx. unfold set_inst_value, abind. rewrite on_put_text by done. unfold set_inst_type.
  rewrite on_put_attr; [|by apply relab_wfs|by rewrite relab_element]. rewrite type_for_str.
  replace (truth (VStr (office_type u))) with true by (destruct u; done). rewrite relab_relab. f_equal.
  apply relab_ext. intros y d _. unfold at_node. case_decide; done.
Qed.
Lemma inst_type_set t x w : wfs w -> element x w ->
  set_inst_type t x w = if decide (tostr t = []) then (w, Err ValueError)
                        else (relab (at_node x (set_attr_of VALUE_TYPE (tostr t))) w, Ok tt).
Proof.
  intros Hw Hx. unfold set_inst_type. rewrite on_put_attr by done. cbn. case_decide as E.
  - rewrite bool_decide_eq_false_2; [done|]. intros H. done.
  - by rewrite bool_decide_eq_true_2.
Qed.

Lemma at_nodes_keeps l f : (forall d, tag (f d) = tag d /\ attrs (f d) !! "text:name"%string = attrs d !! "text:name"%string) ->
  keeps (at_nodes l f).
Proof. intros H y d. unfold at_nodes. by case_decide. Qed.
Lemma at_node_keeps x f : (forall d, tag (f d) = tag d /\ attrs (f d) !! "text:name"%string = attrs d !! "text:name"%string) ->
  keeps (at_node x f).
Proof. intros H y d. unfold at_node. by case_decide. Qed.
Lemma keeps_attr k s d : k <> "text:name"%string ->
  tag (set_attr_of k s d) = tag d /\ attrs (set_attr_of k s d) !! "text:name"%string = attrs d !! "text:name"%string.
Proof. intros H. cbn. by rewrite lookup_insert_ne by done. Qed.
Lemma keeps_shows u s d :
  tag (shows u s d) = tag d /\ attrs (shows u s d) !! "text:name"%string = attrs d !! "text:name"%string.
Proof. cbn. by rewrite lookup_insert_ne by done. Qed.

Section one.
Context (k : vkind) (x : N) (nmo : option pystr) (w0 : node) (l : list N).
Context (Hw : wfs w0) (Hx : element x w0).
Context (Hq : 39%N ∉ default (lit "None") nmo) (Hl : instances odd (Var k x nmo) w0 = Ok l).
Context (He : Forall (fun y => element y w0) l).
Notation v := (Var k x nmo).

Lemma each_relab (g : N -> nd -> nd) (m : N -> act node unit) (f : nd -> nd) :
  keeps g -> (forall d, f (f d) = f d) ->
  (forall x w, wfs w -> element x w -> m x w = (relab (at_node x f) w, Ok tt)) ->
  each_instance odd v m (relab g w0) = (relab (fun y d => at_nodes l f y (g y d)) w0, Ok tt).
Proof.
  intros Hg Hf Hm. unfold each_instance. rewrite instances_relab by done. rewrite Hl.
  rewrite (iter_relab l m f); [by rewrite relab_relab|done|done|by apply relab_wfs|].
  eapply Forall_impl; [exact He|]. cbn. intros y. by rewrite relab_element.
Qed.
Lemma each_relab0 (m : N -> act node unit) (f : nd -> nd) :
  (forall d, f (f d) = f d) ->
  (forall x w, wfs w -> element x w -> m x w = (relab (at_node x f) w, Ok tt)) ->
  each_instance odd v m w0 = (relab (at_nodes l f) w0, Ok tt).
Proof.
  intros Hf Hm. rewrite <- (relab_id w0) at 1. rewrite (each_relab (fun _ d => d) m f); [|by intros y d|done|done].
  by apply (f_equal (fun z => (z, Ok tt))), relab_ext.
Qed.
Lemma decl_type_relab (g : N -> nd -> nd) t :
  keeps g -> tostr t <> [] ->
  set_decl_type odd t v (relab g w0) =
    (relab (fun y d => at_nodes l (set_attr_of VALUE_TYPE (tostr t)) y (at_node x (set_attr_of VALUE_TYPE (tostr t)) y (g y d))) w0, Ok tt).
Proof.
  intros Hg Ht. unfold set_decl_type, abind. cbn [v_node].
  rewrite on_put_attr; [|by apply relab_wfs|by rewrite relab_element].
  replace (truth (VStr (tostr t))) with true by (cbn; by rewrite bool_decide_eq_true_2). cbn [tostr].
  rewrite relab_relab. apply each_relab.
  - intros y d. destruct (Hg y d). unfold at_node. case_decide; [|done]. cbn. by rewrite lookup_insert_ne.
  - intros d. apply set_attr_idem.
  - intros y w' ? ?. rewrite inst_type_set by done. by rewrite decide_False.
Qed.

(** decl [x] by [f], instances by [h] *)
Definition final (f h : nd -> nd) (y : N) (d : nd) : nd :=
  if decide (y ∈ l) then h d else if decide (y = x) then f d else d.

Context (Hxl : x ∉ l).
Lemma set_simple_eq u :
  set_simple_value odd u v w0 =
    (relab (final (set_attr_of VALUE_TYPE (office_type u)) (shows u (tostr u))) w0, Ok tt).
Proof.
  unfold set_simple_value, abind. rewrite (each_relab0 _ (shows u (tostr u))); [|apply shows_idem|intros; by apply inst_value_set].
  rewrite decl_type_relab; [|apply at_nodes_keeps; apply keeps_shows|rewrite type_for_str; apply office_type_ne].
  rewrite type_for_str. f_equal. apply relab_ext. intros y d _. unfold at_nodes, at_node, final.
  destruct (decide (y ∈ l)) as [Hy|Hy].
  - rewrite decide_False by congruence. unfold shows. apply set_attr_idem.
  - done.
Qed.
Lemma set_user_eq u :
  let inst := relab (final (fun d => d) (shows u (tostr u))) w0 in
  let done_ := fun k s => relab (final (fun d => set_attr_of VALUE_TYPE (office_type u) (set_attr_of k s d)) (shows u (tostr u))) w0 in
  set_user_value odd u v w0 =
    match u with
    | VBool b => (done_ "office:boolean-value"%string (if b then lit "true" else lit "false"), Ok tt)
    | VInt _ | VFloat _ => if truth u then (done_ "office:value"%string (tostr u), Ok tt) else (inst, Err ValueError)
    | _ => if truth u then (done_ "office:string-value"%string (tostr u), Ok tt) else (inst, Err ValueError)
    end.
Proof.
  intros inst done_. unfold set_user_value, abind.
  rewrite (each_relab0 _ (shows u (tostr u))); [|apply shows_idem|intros; by apply inst_value_set].
  assert (Hi : relab (at_nodes l (shows u (tostr u))) w0 = inst).
  { apply relab_ext. intros y d _. unfold at_nodes, final. destruct (decide (y ∈ l)); [done|]. by destruct (decide (y = x)). }
  assert (Hk : forall key s, key <> "text:name"%string ->
    set_decl_type odd (VStr (office_type u)) v (relab (at_node x (set_attr_of key s)) (relab (at_nodes l (shows u (tostr u))) w0)) =
    (done_ key s, Ok tt)).
  { intros key s Hne. rewrite relab_relab. rewrite decl_type_relab; [|intros y d|apply office_type_ne].
    - cbn [tostr]. f_equal. apply relab_ext. intros y d _. unfold at_nodes, at_node, final.
      destruct (decide (y ∈ l)) as [Hy|Hy].
      + rewrite !(decide_False (P := y = x)) by congruence. unfold shows. apply set_attr_idem.
      + by destruct (decide (y = x)).
    - unfold at_node, at_nodes. destruct (decide (y = x)), (decide (y ∈ l)); cbn; by rewrite ?lookup_insert_ne by done. }
  assert (Hp : forall key, key <> "text:name"%string ->
    (let! _ := on_self x (put_attr key u) in set_decl_type odd (VStr (office_type u)) v) (relab (at_nodes l (shows u (tostr u))) w0) =
    if truth u then (done_ key (tostr u), Ok tt) else (inst, Err ValueError)).
  { intros key Hne. unfold abind. rewrite on_put_attr; [|by apply relab_wfs|by rewrite relab_element].
    destruct (truth u); [by apply Hk|]. by rewrite Hi. }
  destruct u as [|b|z|f|s|s b|e]; try (apply Hp; done).
  cbn [v_node]. rewrite decl_type_relab; [|apply at_nodes_keeps; apply keeps_shows|done].
  rewrite on_set_bool; [|by apply relab_wfs|by rewrite relab_element]. rewrite relab_relab. cbn [truth]. unfold done_. f_equal.
  apply relab_ext. intros y d _. unfold at_nodes, at_node, final.
  destruct (decide (y ∈ l)) as [Hy|Hy].
  - rewrite !(decide_False (P := y = x)) by congruence. unfold shows. apply set_attr_idem.
  - destruct (decide (y = x)); [|done]. unfold set_attr_of. cbn. f_equal. by rewrite insert_commute.
Qed.
Lemma set_decl_type_eq t :
  set_decl_type odd t v w0 =
    if decide (tostr t = []) then (w0, Err ValueError)
    else (relab (final (set_attr_of VALUE_TYPE (tostr t)) (set_attr_of VALUE_TYPE (tostr t))) w0, Ok tt).
Proof.
  case_decide as E.
  - unfold set_decl_type, abind. cbn [v_node]. rewrite on_put_attr by done. rewrite E. done.
  - rewrite <- (relab_id w0) at 1. rewrite decl_type_relab by done. f_equal. apply relab_ext. intros y d _.
    unfold at_nodes, at_node, final. destruct (decide (y ∈ l)) as [Hy|Hy]; [|done]. by rewrite decide_False by congruence.
Qed.
End one.

(** ** Conclusions *)
Lemma final_data x l f h y w : data y (relab (final x l f h) w) =
  if decide (y ∈ l) then h <$> data y w else if decide (y = x) then f <$> data y w else data y w.
Proof. clear odd. rewrite relab_data. unfold final. destruct (data y w) as [d|]; cbn; repeat case_decide; done. Qed.
Lemma relab_same g w : wfs w -> same_places w (relab g w).
Proof. clear odd.
  intros Hw. split_and!; [by apply relab_wfs|intros y; apply relab_element|apply relab_nid|intros y; apply relab_children].
Qed.
Lemma setup k x nmo nm r w : wfs w -> element x w -> declaration w x -> topmost w r x ->
  nm = default (lit "None") nmo -> 39%N ∉ nm ->
  exists l, instances odd (Var k x nmo) w = Ok l /\ (forall y, y ∈ l <-> instance w r nm y) /\
    Forall (fun y => element y w) l /\ x ∉ l.
Proof.
  intros Hw Hx (d & Hd & Ht) Hr Hnm Hq. destruct (instances_spec k x nmo nm r w Hw Hx Hr Hnm Hq) as (l & H1 & H2).
  exists l. split_and!; [done|done| |].
  - apply Forall_forall. intros y Hy. apply H2 in Hy. destruct Hr as (_ & Hr & _). by apply (instance_element w r nm).
  - intros H. apply H2 in H as (_ & _ & d' & Hd' & _ & Ht'). rewrite Hd in Hd'. injection Hd' as <-.
    destruct Ht as [Ht|Ht]; rewrite Ht in Ht'; naive_solver.
Qed.
Lemma inst_value_data x w d : data x w = Some d ->
  inst_value x w = match attrs d !! VALUE_TYPE with
    | Some t => if decide (t = lit "boolean") then Ok (VBool (bool_decide (text d = Some (lit "true"))))
                else if decide (t = lit "float") then
                  match text d with None => Err TypeError
                  | Some s => match f_parse s with Some f => Ok (VFloat f) | None => Err ValueError end end
                else Ok (match text d with Some s => VStr s | None => VNone end)
    | None => Ok (match text d with Some s => VStr s | None => VNone end)
    end.
Proof. clear odd.
  intros Hd. unfold inst_value, var_type, get_attr. rewrite self_data, Hd. unfold e_get, e_text, e_attrs. cbn [root].
  destruct (attrs d !! VALUE_TYPE) as [t|]; [|done]. unfold is_str.
  destruct (decide (t = lit "string")) as [->|H1]; [done|]. rewrite (bool_decide_eq_false_2 (t = lit "string")) by done.
  destruct (decide (t = lit "boolean")) as [->|H2]; [done|]. rewrite (bool_decide_eq_false_2 (t = lit "boolean")) by done.
  destruct (decide (t = lit "float")) as [->|H3]; [|by rewrite (bool_decide_eq_false_2 (t = lit "float"))].
  rewrite bool_decide_eq_true_2 by done. by destruct (text d).
Qed.
Lemma inst_value_shows u s x w d : shown u s -> data x w = Some (shows u s d) ->
  exists r, inst_value x w = Ok r /\ inst_reads_as u r.
Proof. clear odd.
  intros Hs Hd. rewrite (inst_value_data x w _ Hd). unfold shows. cbn [attrs set_attr_of]. rewrite lookup_insert. cbn [text set_text_of].
  destruct u as [|b|z|f|t|t b|e]; cbn in Hs; try done; subst s; cbn [office_type].
  - exists (VStr (lit "None")). split; [done|]. by exists (lit "None").
  - exists (VBool false). split; [|done]. by destruct b.
  - destruct (f_parse_int z) as [f Hf]. exists (VFloat f). split; [|by exists f]. by cbn; rewrite Hf.
  - exists (VFloat f). split; [|done]. cbn. by rewrite f_parse_repr.
  - exists (VStr t). split; [done|]. by exists t.
  - exists (VStr t). split; [done|]. by exists t.
Qed.
Lemma user_value_data k x nmo w d : data x w = Some d ->
  user_value (Var k x nmo) w = match attrs d !! VALUE_TYPE with
    | Some t => if decide (t = lit "boolean") then Ok (VBool (bool_decide (attrs d !! "office:boolean-value"%string = Some (lit "true"))))
                else if decide (t = lit "string") then Ok (match attrs d !! "office:string-value"%string with Some s => VStr s | None => VNone end)
                else match attrs d !! "office:value"%string with None => Err TypeError
                  | Some s => match f_parse s with Some f => Ok (VFloat f) | None => Err ValueError end end
    | None => Ok (match attrs d !! "office:string-value"%string with Some s => VStr s | None => VNone end)
    end.
Proof. clear odd.
  intros Hd. unfold user_value, var_type, get_attr, get_bool_attr. cbn [v_node]. rewrite self_data, Hd. unfold e_get, e_attrs. cbn [root].
  destruct (attrs d !! VALUE_TYPE) as [t|]; [|done]. unfold is_str.
  destruct (decide (t = lit "boolean")) as [->|H2].
  - rewrite bool_decide_eq_true_2 by done. do 2 f_equal.
    destruct (attrs d !! "office:boolean-value"%string) as [[|c s]|]; [done| |done]. cbn [truth].
    rewrite bool_decide_eq_true_2 by done. by rewrite (bool_decide_ext _ (Some (c :: s) = Some (lit "true"))) by naive_solver.
  - rewrite (bool_decide_eq_false_2 (t = lit "boolean")) by done.
    destruct (decide (t = lit "string")) as [->|H3]; [done|]. rewrite bool_decide_eq_false_2 by done.
    by destruct (attrs d !! "office:value"%string).
Qed.

(** every assignment changes the declaration and the instances only *)
Lemma put_effect k x nmo nm r w u : k <> Inst -> wfs w -> element x w -> declaration w x -> topmost w r x ->
  nm = default (lit "None") nmo -> 39%N ∉ nm ->
  exists g, (put_value odd u (Var k x nmo) w).1 = relab g w /\ keeps g /\
    forall y d, ~ instance w r nm y -> y <> x -> g y d = d.
Proof.
  intros Hk Hw Hx Hd Hr Hnm Hq. destruct (setup k x nmo nm r w Hw Hx Hd Hr Hnm Hq) as (l & H1 & H2 & H3 & H4).
  assert (Hq' : 39%N ∉ default (lit "None") nmo) by (by rewrite <- Hnm).
  assert (Hfin : forall f h, (forall d, tag (f d) = tag d /\ attrs (f d) !! "text:name"%string = attrs d !! "text:name"%string) ->
     (forall d, tag (h d) = tag d /\ attrs (h d) !! "text:name"%string = attrs d !! "text:name"%string) ->
     keeps (final x l f h) /\ forall y d, ~ instance w r nm y -> y <> x -> final x l f h y d = d).
  { intros f h Hf Hh. split.
    - intros y d. unfold final. case_decide; [apply Hh|]. case_decide; [apply Hf|done].
    - intros y d Hy Hyx. unfold final. rewrite <- H2 in Hy. by rewrite !decide_False. }
  destruct k; [| |done]; unfold put_value; cbn [v_kind].
  - rewrite (set_simple_eq Simple x nmo w l) by done. cbn [fst]. eexists. split; [reflexivity|].
    apply Hfin; intros d; [by apply keeps_attr|apply keeps_shows].
  - rewrite (set_user_eq User x nmo w l) by done. cbv zeta.
    assert (Hd2 : forall key s d, key <> "text:name"%string ->
      tag (set_attr_of VALUE_TYPE (office_type u) (set_attr_of key s d)) = tag d /\
      attrs (set_attr_of VALUE_TYPE (office_type u) (set_attr_of key s d)) !! "text:name"%string = attrs d !! "text:name"%string).
    { intros key s d Hne. cbn. by rewrite !lookup_insert_ne by done. }
    destruct u as [|b|z|f|s|s b|e]; try destruct (truth _); cbn [fst]; eexists; (split; [reflexivity|]);
      apply Hfin; intros d; try apply keeps_shows; try (by apply Hd2); done.
Qed.
Lemma instance_relab g w r nm y : keeps g -> instance (relab g w) r nm y <-> instance w r nm y.
Proof. clear odd.
  intros Hg. unfold instance. rewrite relab_upwards, relab_data. split.
  - intros (H1 & H2 & d & H3 & H4 & H5). destruct (data y w) as [d'|]; [|done]. cbn in H3. injection H3 as <-.
    destruct (Hg y d') as [E1 E2]. rewrite E1 in H5. rewrite E2 in H4. split_and!; try done. by exists d'.
  - intros (H1 & H2 & d & H3 & H4 & H5). split_and!; try done. rewrite H3. exists (g y d). destruct (Hg y d) as [-> ->].
    split_and!; done.
Qed.
Lemma topmost_relab g w r x : topmost (relab g w) r x <-> topmost w r x.
Proof. clear odd.
  unfold topmost. rewrite relab_upwards, relab_element. split; intros (H1 & H2 & H3); split_and!; try done; intros p Hp.
  - rewrite <- (relab_children g). apply H3. by rewrite relab_element.
  - rewrite relab_children. apply H3. by rewrite <- (relab_element g).
Qed.
Lemma declaration_relab g w x : keeps g -> declaration (relab g w) x <-> declaration w x.
Proof. clear odd.
  intros Hg. unfold declaration. rewrite relab_data. split.
  - intros (d & H1 & H2). destruct (data x w) as [d'|]; [|done]. cbn in H1. injection H1 as <-. destruct (Hg x d') as [E _].
    rewrite E in H2. by exists d'.
  - intros (d & -> & H2). exists (g x d). destruct (Hg x d) as [-> _]. done.
Qed.
(** reading one variable, other elements being changed *)
Lemma get_value_frame k x nmo nm r w g : k <> Inst -> wfs w -> element x w -> declaration w x -> topmost w r x ->
  nm = default (lit "None") nmo -> 39%N ∉ nm -> keeps g ->
  (forall y d, y = x \/ instance w r nm y -> g y d = d) ->
  get_value odd (Var k x nmo) (relab g w) = get_value odd (Var k x nmo) w.
Proof.
  intros Hk Hw Hx Hd Hr Hnm Hq Hg Hgx. destruct (setup k x nmo nm r w Hw Hx Hd Hr Hnm Hq) as (l & H1 & H2 & H3 & H4).
  assert (Hq' : 39%N ∉ default (lit "None") nmo) by (by rewrite <- Hnm).
  destruct k; [| |done]; unfold get_value; cbn [v_kind].
  - unfold simple_value. rewrite instances_relab by done. rewrite H1. cbn [rbind]. destruct l as [|y l]; [done|].
    replace (py_get (y :: l) 0) with (Ok y) by (rewrite py_get_pos; done). cbn [rbind].
    assert (Hy : instance w r nm y) by (apply H2; left). apply Forall_cons in H3 as [Hye _].
    destruct (element_data w y Hw Hye) as [d E]. rewrite !(inst_value_data y _ d); [done|done|].
    rewrite relab_data, E. cbn. f_equal. apply Hgx. by right.
  - destruct (element_data w x Hw Hx) as [d E]. rewrite !(user_value_data User x nmo _ d); [done|done|].
    rewrite relab_data, E. cbn. f_equal. apply Hgx. by left.
Qed.
Lemma instance_name w r r' nm nm' y : instance w r nm y -> instance w r' nm' y -> nm = nm'.
Proof. clear odd. intros (_ & _ & d & H1 & H2 & _) (_ & _ & d' & H3 & H4 & _). congruence. Qed.
Lemma instance_not_decl w r nm y : instance w r nm y -> ~ declaration w y.
Proof. clear odd.
  intros (_ & _ & d & H1 & _ & H2) (d' & H3 & H4). rewrite H1 in H3. injection H3 as <-.
  destruct H4 as [H4|H4]; rewrite H4 in H2; naive_solver.
Qed.

(** ** The container *)
Lemma new_variable_ok x w k : vkind_of (e_tag (self x w)) = Some k -> new_variable x w = Ok (Var k x (e_get "text:name" (self x w))).
Proof. intros H. unfold new_variable. by rewrite H. Qed.
Definition child_var (x : N) (w : node) : option variable :=
  match new_variable x w with Ok v => Some v | Err _ => None end.
Lemma collect_spec l w d :
  match collect l w d with
  | Ok d' => Forall (fun x => is_Some (vkind_of (e_tag (self x w)))) l /\
      forall n, d' !! n = match last (filter (fun x => e_get "text:name" (self x w) = n) l) with
                          | Some x => child_var x w | None => d !! n end
  | Err e => e = AttributeError /\ ~ Forall (fun x => is_Some (vkind_of (e_tag (self x w)))) l
  end.
Proof. clear odd.
  revert d. induction l as [|x l IH]; intros d; cbn [collect]; [split; [constructor|done]|].
  destruct (vkind_of (e_tag (self x w))) as [k|] eqn:E.
  - rewrite (new_variable_ok x w k) by done. cbn [rbind v_name]. specialize (IH (<[e_get "text:name" (self x w):=Var k x (e_get "text:name" (self x w))]> d)).
    destruct (collect l w _) as [d'|e].
    + destruct IH as [H1 H2]. split; [constructor; [by eexists|done]|]. intros n. rewrite H2, filter_cons.
      destruct (decide (e_get "text:name" (self x w) = n)) as [<-|Hne].
      * destruct (filter _ l) as [|y l'] eqn:El; [|
          rewrite last_cons_cons; destruct (last (y :: l')) eqn:El2; [done|by apply last_None in El2]]. cbn. rewrite lookup_insert. unfold child_var.
        by rewrite (new_variable_ok x w k).
      * by rewrite lookup_insert_ne.
    + destruct IH as [H1 H2]. split; [done|]. by intros [_ H]%Forall_cons.
  - unfold new_variable. rewrite E. cbn. split; [done|]. intros [H _]%Forall_cons. rewrite E in H. by destruct H.
Qed.
End proofs.
