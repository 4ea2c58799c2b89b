From Verif Require Export PagesSpec WrapperProofs.

Lemma xmlchildren_pages p w : wfs w -> map nid (xmlchildren p w) = pages p w.
Proof.
  intros Hw. unfold xmlchildren, pages. rewrite <- el_kids_children.
  assert (H : forall k, k ∈ el_kids (pc_body p) w -> (tagged (childtag p) w (nid k) <-> ltag k = childtag p)).
  { intros k Hk. unfold tagged, data. rewrite (el_kids_sub w (pc_body p)) by done. unfold ltag. cbn. split; [by intros [= ?]|by intros ->]. }
  revert H. generalize (el_kids (pc_body p) w) as l. induction l as [|k l IH]; intros H; [done|]. cbn [map]. rewrite !filter_cons.
  assert (Hk := H k ltac:(left)).
  assert (IH' : map nid (filter (fun k => ltag k = childtag p) l) = filter (tagged (childtag p) w) (map nid l)).
  { apply IH. intros k' Hk'. apply H. by right. }
  destruct (decide (ltag k = childtag p)) as [E|E].
  - rewrite decide_True by (by apply Hk). cbn. by rewrite IH'.
  - rewrite decide_False by (intros ?; by apply E, Hk). done.
Qed.
Lemma xmlchildren_sub p w k : wfs w -> k ∈ xmlchildren p w -> sub (nid k) w = Some k.
Proof. intros Hw [_ Hk]%elem_of_list_filter. by apply (el_kids_sub w (pc_body p)). Qed.
Lemma name_xmlchild p w k : wfs w -> k ∈ xmlchildren p w -> pc_name p k = name_of p w (nid k).
Proof. intros Hw Hk. unfold name_of, data. rewrite (xmlchildren_sub p w) by done. done. Qed.
Lemma names_pages p w : wfs w -> pc_names p w = map (name_of p w) (pages p w).
Proof.
  intros Hw. rewrite <- xmlchildren_pages by done. unfold pc_names. rewrite map_map. apply map_ext_in.
  intros k Hk. apply elem_of_list_In in Hk. by apply name_xmlchild.
Qed.
Lemma pc_get_eq p k w : wfs w -> pc_get p k w = (w, find_page (name_of p w) k (pages p w)).
Proof.
  intros Hw. destruct k as [i|s|]; cbn [pc_get find_page]; [| |done].
  - unfold child_by_index. rewrite py_get_pos, <- xmlchildren_pages, at_pos_map by done.
    by destruct (at_pos i (xmlchildren p w)).
  - unfold child_by_name. f_equal. rewrite <- xmlchildren_pages by done.
    assert (H : forall k, k ∈ xmlchildren p w -> pc_name p k = name_of p w (nid k)) by (intros; by apply name_xmlchild).
    revert H. generalize (xmlchildren p w) as l. induction l as [|k l IH]; intros H; [done|]. cbn. rewrite <- H by left.
    case_decide; [done|]. rewrite <- IH by (intros; apply H; by right).
    by destruct (list_find (fun k => pc_name p k = Some s) l) as [[? ?]|].
Qed.
Lemma first_named_in nm s l c : first_named nm s l = Some c -> c ∈ l.
Proof.
  induction l as [|x l IH]; [done|]. cbn. case_decide; [intros [= ->]; left|]. intros H'. right. by apply IH.
Qed.
Lemma find_page_in nm k l c : find_page nm k l = Ok c -> c ∈ l.
Proof.
  destruct k as [i|s|]; cbn; [| |done].
  - destruct (at_pos i l) eqn:E; [|done]. intros [= ->]. by eapply at_pos_in.
  - destruct (first_named nm s l) eqn:E; [|done]. intros [= ->]. by eapply first_named_in.
Qed.
Lemma pages_child p w c : c ∈ pages p w -> c ∈ children (pc_body p) w.
Proof. intros H. by apply elem_of_list_filter in H as [_ H]. Qed.

(** ** Filters *)
Lemma filter_without (P : N -> Prop) `{!forall x, Decision (P x)} c l : filter P (without c l) = without c (filter P l).
Proof.
  unfold without. rewrite !list_filter_filter. apply list_filter_iff. intros y. tauto.
Qed.
Lemma filter_instead_page (P : N -> Prop) `{!forall x, Decision (P x)} o n l :
  P o -> P n -> filter P (instead o n l) = instead o n (filter P l).
Proof.
  intros Ho Hn. induction l as [|y l IH]; [done|]. cbn [instead map]. fold (instead o n l). rewrite !filter_cons.
  destruct (decide (y = o)) as [->|E].
  - rewrite !decide_True by done. cbn [instead map]. rewrite decide_True by done. by rewrite IH.
  - case_decide; [|done]. cbn [instead map]. rewrite decide_False by done. by rewrite IH.
Qed.
Lemma filter_instead_not (P : N -> Prop) `{!forall x, Decision (P x)} o n l :
  ~ P o -> ~ P n -> filter P (instead o n l) = filter P l.
Proof.
  intros Ho Hn. induction l as [|y l IH]; [done|]. cbn [instead map]. fold (instead o n l). rewrite !filter_cons.
  destruct (decide (y = o)) as [->|E].
  - rewrite !decide_False by done. done.
  - by rewrite IH.
Qed.
Lemma without_other (P : N -> Prop) `{!forall x, Decision (P x)} c l : ~ P c -> without c (filter P l) = filter P l.
Proof. intros Hc. apply without_notin. by intros [? _]%elem_of_list_filter. Qed.

(** ** The effect of placing *)
Lemma placed_data x c l w w' y : placed x c l w w' -> element y w -> data y w' = data y w.
Proof. intros (_ & _ & _ & _ & _ & H) Hy. by apply H. Qed.
Lemma placed_children x c l w w' : placed x c l w w' -> children x w' = l.
Proof. intros (_ & _ & _ & H & _). done. Qed.
Lemma placed_wfs x c l w w' : placed x c l w w' -> wfs w'.
Proof. by intros (H & _). Qed.
Lemma placed_filter p c l w w' :
  placed (pc_body p) c l w w' -> (forall y, y ∈ l -> element y w) ->
  filter (tagged (childtag p) w') l = filter (tagged (childtag p) w) l /\
  filter (fun y => ~ tagged (childtag p) w' y) l = filter (fun y => ~ tagged (childtag p) w y) l.
Proof.
  intros Hp Hl. assert (H : forall y, y ∈ l -> (tagged (childtag p) w' y <-> tagged (childtag p) w y)).
  { intros y Hy. unfold tagged. by rewrite (placed_data _ _ _ _ _ _ Hp (Hl y Hy)). }
  clear Hl Hp. induction l as [|y l IH]; [done|]. rewrite !filter_cons.
  destruct IH as [-> ->]; [intros z Hz; apply H; by right|]. specialize (H y ltac:(left)).
  destruct (decide (tagged (childtag p) w y)) as [E|E].
  - rewrite decide_True by (by apply H). split; [done|]. by rewrite !decide_False by tauto.
  - rewrite decide_False by (intros ?; by apply E, H). split; [done|]. by rewrite !decide_True by tauto.
Qed.

Lemma upwards_trans w a b c : upwards w a b -> upwards w b c -> upwards w a c.
Proof. intros H1 H2. induction H2 as [|x y z H2 IH Hz]; [done|]. apply U_child with y; [by apply IH|done]. Qed.
(** a node that is not above [b] is moved: nothing new gets above [b] *)
Lemma placed_upwards b c l w w' a :
  placed b c l w w' -> wfs w -> element b w -> ~ upwards w c b -> (forall y, y ∈ l -> y = c \/ y ∈ children b w) ->
  element a w -> upwards w' a b -> upwards w a b.
Proof.
  intros Hp Hw Hb Hc Hl Ha Hu. destruct Hp as (Hw' & He & Hn & Hcl & Hco & _).
  assert (H : forall z, upwards w' a z -> element a w -> upwards w z b -> upwards w a z).
  { intros z Hz. induction Hz as [a|a y z Hy IH Hz]; intros Ha' Hzb; [constructor|].
    assert (Hey : element y w).
    { apply He. apply element_ids; [done|]. split; [by apply children_ids in Hz|]. intros ->.
      apply He in Ha'. inversion Hy as [|? y' ? H1 H2]; subst.
      - by apply element_ids in Ha' as [_ ?].
      - apply child_element in H2. by apply element_ids in H2 as [_ ?]. }
    assert (Hzy : z ∈ children y w).
    { destruct (decide (y = b)) as [->|Hne].
      - rewrite Hcl in Hz. apply Hl in Hz as [->|Hz]; [done|done].
      - rewrite Hco in Hz by done. by apply without_in in Hz as [? _]. }
    apply U_child with y; [|done]. apply IH; [done|done|done|]. apply upwards_trans with z; [|done].
    apply U_child with y; [constructor|done]. }
  apply (H b); [done|done|constructor].
Qed.

(** ** Operations *)
Lemma is_valid_obj p c : is_valid_child p (obj_of p c) = true.
Proof. unfold is_valid_child. cbn. by apply bool_decide_eq_true. Qed.
Lemma instead_in o n l y : y ∈ instead o n l -> y = n \/ y ∈ l.
Proof. intros H. apply elem_of_list_fmap in H as (z & -> & Hz). case_decide; [by left|by right]. Qed.

(** what an operation has done *)
Definition moved (p : container) (w w' : node) (c : N) (l : list N) : Prop :=
  placed (pc_body p) c l w w' /\ forall y, y ∈ l -> y = c \/ y ∈ children (pc_body p) w.
Lemma moved_pages p w w' c l :
  moved p w w' c l -> element c w ->
  pages p w' = filter (tagged (childtag p) w) l /\ others p w' = filter (fun y => ~ tagged (childtag p) w y) l.
Proof.
  intros [Hp Hl] Hc. unfold pages, others. rewrite (placed_children _ _ _ _ _ Hp).
  apply (placed_filter p c); [done|]. intros y Hy. destruct (Hl y Hy) as [->|H]; [done|by apply child_element in H].
Qed.
Lemma moved_page p w w' c l d :
  moved p w w' c l -> wfs w -> element (pc_body p) w -> element c w -> ~ upwards w c (pc_body p) ->
  page p w d -> page p w' d.
Proof.
  intros [Hp Hl] Hw Hb Hc Hu (H1 & H2 & H3). pose proof Hp as (Hw' & He & _). split_and!.
  - by apply He.
  - unfold tagged. by rewrite (placed_data _ _ _ _ _ _ Hp H1).
  - intros H. apply H3. by apply (placed_upwards (pc_body p) c l w w').
Qed.

Lemma page_in_pages p w c : wfs w -> c ∈ pages p w -> element c w /\ tagged (childtag p) w c /\ ~ upwards w c (pc_body p).
Proof.
  intros Hw Hc. apply elem_of_list_filter in Hc as [H1 H2]. pose proof (child_element _ _ _ H2) as H3.
  split_and!; [done|done|]. destruct (element_sub w c Hw H3) as [k Hk]. rewrite <- (sub_upwards w c k) by done.
  by apply (child_not_above w _ c).
Qed.

Lemma append_page w p c :
  wfs w -> element (pc_body p) w -> page p w c ->
  exists w', pc_append p (obj_of p c) w = (w', Ok c) /\ moved p w w' c (without c (children (pc_body p) w) ++ [c]) /\
    pages p w' = without c (pages p w) ++ [c] /\ others p w' = others p w.
Proof.
  intros Hw Hb (Hc & Ht & Hu). destruct (el_append_ok w (pc_body p) c Hw Hb Hc Hu) as (w' & He & Hp).
  exists w'. unfold pc_append, abind. rewrite is_valid_obj. cbn [w_node obj_of]. rewrite He.
  assert (Hm : moved p w w' c (without c (children (pc_body p) w) ++ [c])).
  { split; [done|]. intros y [H|H]%elem_of_app; [right; by apply without_in in H as [? _]|left; by apply elem_of_list_singleton in H]. }
  destruct (moved_pages p w w' c _ Hm Hc) as [H1 H2]. split_and!; [done|done| |].
  - rewrite H1, filter_app, filter_without. f_equal. by rewrite filter_cons_True, filter_nil.
  - rewrite H2, filter_app, filter_without. rewrite filter_cons_False by (intros H; by apply H).
    rewrite filter_nil, app_nil_r. apply (without_other (fun y => ~ tagged (childtag p) w y)). intros H. by apply H.
Qed.
Lemma set_page w p k c :
  wfs w -> element (pc_body p) w -> page p w c ->
  match find_page (name_of p w) k (pages p w) with
  | Ok old => exists w', pc_set p k (obj_of p c) w = (w', Ok tt) /\
      moved p w w' c (if decide (old = c) then children (pc_body p) w else instead old c (without c (children (pc_body p) w))) /\
      pages p w' = put_page old c (pages p w) /\ others p w' = others p w
  | Err e => pc_set p k (obj_of p c) w = (w, Err e)
  end.
Proof.
  intros Hw Hb (Hc & Ht & Hu). unfold pc_set, abind. rewrite is_valid_obj, pc_get_eq by done. cbn [w_node obj_of].
  destruct (find_page (name_of p w) k (pages p w)) as [old|e] eqn:E; [|done].
  apply find_page_in in E. pose proof (page_in_pages p w old Hw E) as (Ho1 & Ho2 & _).
  destruct (el_replace_ok w (pc_body p) old c Hw Hb Hc Hu (pages_child _ _ _ E)) as (w' & He & Hp). exists w'.
  rewrite He. set (l := if decide (old = c) then _ else _) in *.
  assert (Hm : moved p w w' c l).
  { split; [done|]. intros y Hy. unfold l in Hy. case_decide; [by right|].
    apply instead_in in Hy as [?|Hy]; [by left|]. right. by apply without_in in Hy as [? _]. }
  destruct (moved_pages p w w' c l Hm Hc) as [H1 H2]. split_and!; [done|done| |].
  - rewrite H1. unfold l, put_page. case_decide; [done|].
    rewrite (filter_instead_page (tagged (childtag p) w)) by done. by rewrite (filter_without (tagged (childtag p) w)).
  - rewrite H2. unfold l. case_decide; [done|].
    rewrite (filter_instead_not (fun y => ~ tagged (childtag p) w y)) by tauto.
    rewrite (filter_without (fun y => ~ tagged (childtag p) w y)). apply (without_other (fun y => ~ tagged (childtag p) w y)). tauto.
Qed.
Lemma del_page w p k :
  wfs w -> element (pc_body p) w ->
  match find_page (name_of p w) k (pages p w) with
  | Ok old => exists w', pc_del p k w = (w', Ok tt) /\ moved p w w' old (without old (children (pc_body p) w)) /\
      pages p w' = without old (pages p w) /\ others p w' = others p w
  | Err e => pc_del p k w = (w, Err e)
  end.
Proof.
  intros Hw Hb. unfold pc_del, abind. rewrite pc_get_eq by done.
  destruct (find_page (name_of p w) k (pages p w)) as [old|e] eqn:E; [|done].
  apply find_page_in in E. pose proof (page_in_pages p w old Hw E) as (Ho1 & Ho2 & _).
  destruct (el_remove_ok w (pc_body p) old Hw Hb (pages_child _ _ _ E)) as (w' & He & Hp). exists w'.
  assert (Hm : moved p w w' old (without old (children (pc_body p) w))).
  { split; [done|]. intros y Hy. right. by apply without_in in Hy as [? _]. }
  destruct (moved_pages p w w' old _ Hm Ho1) as [H1 H2]. split_and!; [done|done| |].
  - rewrite H1. apply (filter_without (tagged (childtag p) w)).
  - rewrite H2. rewrite (filter_without (fun y => ~ tagged (childtag p) w y)).
    apply (without_other (fun y => ~ tagged (childtag p) w y)). tauto.
Qed.

(** ** Histories *)
(** what stays: the store, the body, names, the other children *)
Definition pinv (p : container) (w0 w : node) : Prop :=
  wfs w /\ element (pc_body p) w /\ (forall y, element y w0 -> element y w /\ data y w = data y w0) /\
  (forall y, element y w -> element y w0) /\
  (forall d, page p w0 d -> page p w d) /\ others p w = others p w0.
Lemma pinv_moved p w0 w w' c l :
  pinv p w0 w -> moved p w w' c l -> page p w c -> others p w' = others p w -> pinv p w0 w'.
Proof.
  intros (H1 & H2 & H3 & H4 & H5 & H6) Hm (Hc1 & Hc2 & Hc3) Ho. pose proof (proj1 Hm) as Hp. pose proof Hp as (Hw' & He & _).
  split_and!; [done|by apply He| | | |congruence].
  - intros y Hy. destruct (H3 y Hy) as [H7 H8]. split; [by apply He|].
    by rewrite (placed_data _ _ _ _ _ _ Hp H7).
  - intros y Hy. apply H4. by apply He.
  - intros d Hd. apply (moved_page p w w' c l d); try done. by apply H5.
Qed.
Lemma first_named_ext nm nm' s l : (forall c, c ∈ l -> nm c = nm' c) -> first_named nm s l = first_named nm' s l.
Proof.
  induction l as [|c l IH]; intros H; [done|]. cbn. rewrite (H c) by left. case_decide; [done|].
  apply IH. intros d Hd. apply H. by right.
Qed.
Lemma find_page_ext nm nm' k l : (forall c, c ∈ l -> nm c = nm' c) -> find_page nm k l = find_page nm' k l.
Proof. intros H. destruct k; cbn; [done| |done]. by rewrite (first_named_ext nm nm'). Qed.

Lemma pc_op_ref p w0 w o :
  pinv p w0 w -> Forall (page p w0) (pop_page o) ->
  exists w', pc_op p o w = (w', (list_op (name_of p w0) o (pages p w)).2) /\ pinv p w0 w' /\
    pages p w' = (list_op (name_of p w0) o (pages p w)).1.
Proof.
  intros Hi Hpg. pose proof Hi as (Hw & Hb & Hd & He & Hp & Ho).
  assert (Hf : forall k, find_page (name_of p w0) k (pages p w) = find_page (name_of p w) k (pages p w)).
  { intros k. apply find_page_ext. intros c Hc. unfold name_of.
    destruct (page_in_pages p w c Hw Hc) as (Hc1 & _). destruct (Hd c (He c Hc1)) as [_ ->]. done. }
  destruct o as [k|k c|k|c]; cbn [pc_op list_op pop_page] in *; unfold abind; rewrite ?Hf.
  - rewrite pc_get_eq by done. exists w. by destruct (find_page (name_of p w) k (pages p w)).
  - apply Forall_inv, Hp in Hpg. pose proof (set_page w p k c Hw Hb Hpg) as H.
    destruct (find_page (name_of p w) k (pages p w)) as [old|e]; [|rewrite H; by exists w].
    destruct H as (w' & -> & Hm & H1 & H2). exists w'. split_and!; [done|by eapply pinv_moved|done].
  - pose proof (del_page w p k Hw Hb) as H.
    destruct (find_page (name_of p w) k (pages p w)) as [old|e] eqn:E; [|rewrite H; by exists w].
    destruct H as (w' & -> & Hm & H1 & H2). exists w'. split_and!; [done| |done].
    eapply pinv_moved; [done|done| |done]. apply find_page_in in E. by apply page_in_pages.
  - apply Forall_inv, Hp in Hpg. destruct (append_page w p c Hw Hb Hpg) as (w' & -> & Hm & H1 & H2).
    exists w'. split_and!; [done|by eapply pinv_moved|done].
Qed.
Lemma pc_run_ref p w0 os w :
  pinv p w0 w -> Forall (fun o => Forall (page p w0) (pop_page o)) os ->
  exists w', pc_run p os w = (w', (list_run (name_of p w0) os (pages p w)).2) /\ pinv p w0 w' /\
    pages p w' = (list_run (name_of p w0) os (pages p w)).1.
Proof.
  revert w. induction os as [|o os IH]; intros w Hi H; [by exists w|]. apply Forall_cons in H as [H1 H2].
  destruct (pc_op_ref p w0 w o Hi H1) as (w1 & E1 & Hi1 & Hp1). cbn [pc_run list_run]. rewrite E1.
  destruct (list_op (name_of p w0) o (pages p w)) as [l1 r] eqn:El. cbn [fst snd] in *.
  destruct (IH w1 Hi1 H2) as (w2 & E2 & Hi2 & Hp2). rewrite E2. rewrite Hp1 in *. exists w2.
  destruct (list_run (name_of p w0) os l1) as [l2 rs]. cbn [fst snd] in *. done.
Qed.
Lemma pinv_refl p w : wfs w -> element (pc_body p) w -> pinv p w w.
Proof. intros Hw Hb. split_and!; try done. Qed.
