(** C71: a cell that is assigned to a second place leaves the first. *)
From Verif Require T_Table.
From Verif Require Export MoveSpec.
From Verif Require Import TableUtilsProofs TableAccess WrapperProofs.

Local Arguments label : simpl never.
Local Arguments edit : simpl never.
Local Arguments sub : simpl never.

(** ** Lists *)
Lemma without_lookup (L : list N) x j q : NoDup L -> L !! j = Some x -> WrapperSpec.without x L !! q = L !! shifted j q.
Proof.
  intros Hn Hj. rewrite <- (take_drop_middle L j x Hj) at 1. rewrite <- (take_drop_middle L j x Hj) in Hn. apply NoDup_app in Hn as (N1 & N2 & N3).
  apply NoDup_cons in N3 as [N3 _]. unfold WrapperSpec.without. rewrite filter_app, filter_cons_False by (by intros H; apply H).
  assert (F : forall l : list N, x ∉ l -> filter (fun y => y <> x) l = l).
  { intros l. induction l as [|a l IH]; [done|]. intros [Ha Hl]%not_elem_of_cons. rewrite filter_cons_True by done. by rewrite IH. }
  rewrite !F; [|done|]. 2: { intros H. apply (N2 x H). left. }
  pose proof (lookup_lt_Some _ _ _ Hj) as Hl. unfold shifted. case_decide as Hq.
  - rewrite lookup_app_l by (rewrite take_length; lia). by rewrite lookup_take.
  - rewrite lookup_app_r by (rewrite take_length; lia). rewrite take_length, lookup_drop. f_equal. lia.
Qed.
Lemma without_not_in (L : list N) x : x ∉ L -> WrapperSpec.without x L = L.
Proof.
  unfold WrapperSpec.without. induction L as [|a l IH]; [done|]. intros [Ha Hl]%not_elem_of_cons. rewrite filter_cons_True by done. by rewrite IH.
Qed.

Section move.
Context `{U : Unicode}.
(** ** Reading *)
Lemma seen_children s i r q : rowc (obj s) !! i = Some r -> element r (store s) -> wfs (store s) -> seen s i q = children r (store s) !! q.
Proof.
  intros Hi Hr Hw. unfold seen, table_getitem, abind, alift. cbn [get_cell_index]. unfold ctl_get_cell, abind, adjust_negative_indices.
  rewrite decide_False by lia. unfold abind, aret. rewrite decide_False by lia. unfold row_ref, abind, aget, alift, py_get.
  assert (P : forall n k, py_index n (Z.of_nat k) = if decide (k < n) then Some k else None).
  { intros n k. unfold py_index. repeat case_decide; try lia; try done. f_equal. lia. }
  rewrite P, decide_True by (by eapply lookup_lt_Some). rewrite Hi. destruct (element_sub _ _ Hw Hr) as [t Ht]. unfold deref. rewrite Ht. rewrite P.
  unfold children. rewrite Ht. change (map nid (kids t)) with (nid <$> kids t). rewrite list_lookup_fmap. case_decide as Hq.
  - apply lookup_lt_is_Some_2 in Hq as [k ->]. done.
  - by rewrite lookup_ge_None_2 by lia.
Qed.

(** ** The assignment *)
Lemma set_item_replace s x i e r k : wfs (store s) -> sub x (store s) = Some r -> element x (store s) -> element e (store s) -> ~ upwards (store s) e x ->
  py_get (kids r) i = Ok k ->
  exists w', set_item x i e s = (set_store w' s, Ok tt) /\
    placed x e (if decide (nid k = e) then children x (store s) else instead (nid k) e (WrapperSpec.without e (children x (store s)))) (store s) w'.
Proof.
  intros Hw Hr Hx He Hu Hk. assert (Hold : nid k ∈ children x (store s)).
  { unfold children. rewrite Hr. unfold py_get in Hk. destruct (py_index _ _) as [q|]; [|done]. destruct (kids r !! q) as [k'|] eqn:E; [|done]. injection Hk as ->.
    apply (elem_of_list_fmap_1 nid). by eapply elem_of_list_lookup_2. }
  destruct (el_replace_ok (store s) x (nid k) e Hw Hx He Hu Hold) as (w' & E & Hp). exists w'. split; [|done].
  unfold el_replace in E. rewrite el_kids_children in E. rewrite decide_False in E by (intros H; by apply H).
  unfold set_item, abind. unfold deref at 1. rewrite Hr. unfold alift. rewrite Hk.
  destruct (above e x (store s)); [done|]. case_decide as Hd.
  - injection E as <-. by destruct s.
  - destruct (element_sub _ _ Hw He) as [en Hen]. unfold deref at 1. rewrite Hen in E |- *. cbn [amod]. unfold amod. cbn [store set_store].
    unfold deref, set_store. cbn [store nxt obj]. fold (cut e (store s)).
    assert (Hxe : x ∉ ids en).
    { intros H. apply Hu. by apply (sub_upwards (store s) e en x Hw Hen). }
    destruct (cut_facts (store s) e en Hw He Hen) as (Hw1 & _ & _ & _ & _).
    destruct (cut_children (store s) e en x Hw He Hen) as [Hcx _]; [by apply element_ids|done|].
    assert (Ht1 : nid k ∈ children x (cut e (store s))) by (rewrite Hcx; by apply without_in).
    destruct (sub_total (cut e (store s)) (nid k)) as [k' Ek]; [by apply child_element, element_ids in Ht1 as [? _]|].
    rewrite Ek in E |- *. cbn [drop_to_root] in E. injection E as <-. done.
Qed.

Lemma tree_elements' w x t z : wfs w -> element x w -> sub x w = Some t -> z ∈ ids t -> element z w.
Proof.
  intros Hw He Hs Hz. apply (sub_upwards w x t z Hw Hs) in Hz. induction Hz as [|y c Hy IH Hc]; [done|]. by eapply child_element.
Qed.

End move.

(** C71.  [table[key] = cell] for a cell that is anywhere in the document, in this table, in
    another one or in none. *)
Theorem C71_move `{U : Unicode} :
  forall s t nc key r c i j x d p old, sane s -> in_step s -> table_node s = Some t -> rect nc t ->
    denotes key r c -> at_index (length (doc_rows t)) r i -> at_index nc c j ->
    doc_rows t !! i = Some p -> p_kids p !! j = Some old ->
    element x (store s) -> data x (store s) = Some d -> is_cell_tag (tag d) -> ~ upwards (store s) x (p_id p) ->
    exists s', table_setitem key x s = (s', Ok tt) /\ obj s' = obj s /\ wfs (store s') /\ moved (p_id p) x (nid old) (store s) (store s').
Proof.
  intros s t nc key r c i j x d p old H1 H2 H3 Hr Hd Hi Hj Hp Hold He Hx Ht Hu. destruct (to_Inv s t H1 H2 H3) as [W HI].
  apply at_py in Hi, Hj. pose proof (py_index_lt _ _ _ Hi) as Li. pose proof (py_index_lt _ _ _ Hj) as Lj.
  assert (Hne : doc_rows t <> []) by (by destruct (doc_rows t); cbn in Li; [lia|]).
  assert (Hrow : exists rw, ldesc ROW t !! i = Some rw /\ p = part_of rw).
  { unfold doc_rows in Hp. fold ROW in Hp. apply list_lookup_fmap_inv in Hp as (rw & -> & E). eauto. }
  destruct Hrow as (rw & Erw & ->). cbn [part_of p_id p_kids] in *.
  pose proof (deref_row _ _ _ _ _ HI Erw) as Hdr. unfold deref in Hdr. destruct (sub (nid rw) (store s)) as [rw'|] eqn:Esub; [|done]. injection Hdr as ->.
  assert (Hw : wfs (store s)) by apply H1.
  assert (Hel : element (nid rw) (store s)).
  { assert (Ht0 : element (rt (obj s)) (store s)). { destruct H1 as (_ & _ & Hrt & _). apply element_ids; [done|]. split; [|done]. unfold table_node in H3. rewrite <- (sub_nid _ _ _ H3). apply (sub_ids _ _ _ H3), nid_in. }
    apply (tree_elements' _ (rt (obj s)) t); [done|done|done|]. 
    destruct t as [a ks]. rewrite ids_T. right. eapply elem_of_submseteq; [|apply sublist_submseteq, (ldesc_ids ROW (T a ks))]. apply (elem_of_list_fmap_1 nid). by eapply elem_of_list_lookup_2. }
  assert (Hk : py_get (kids rw) (adj (wid t) c) = Ok old).
  { unfold py_get. assert (Hl : length (kids rw) = nc). { unfold rect in Hr. rewrite Forall_lookup in Hr. apply (Hr i (part_of rw)). by apply doc_rows_of. }
    rewrite Hl, (rect_wid nc t Hr Hne). rewrite (py_index_adj _ _ _ Hj), py_index_nat by done. by rewrite Hold. }
  destruct (set_item_replace s (nid rw) (adj (wid t) c) x rw old Hw Esub Hel He Hu Hk) as (w' & E & Hpl).
  exists (set_store w' s). split_and!.
  - unfold table_setitem, abind, alift. rewrite (T_Table.denotes_index _ _ _ Hd). unfold set_cell, abind.
    unfold data in Hx. unfold deref at 1. destruct (sub x (store s)) as [en|]; [|done]. injection Hx as <-.
    rewrite decide_True by done. unfold ctl_set_cell, abind. rewrite (adjust_eq s W t r c HI). rewrite (row_ref_eq _ _ _ _ HI).
    assert (Hg : py_get (ldesc ROW t) (adj (length (doc_rows t)) r) = Ok rw).
    { unfold py_get. assert (Hl : length (ldesc ROW t) = length (doc_rows t)) by (unfold doc_rows; by rewrite map_length). rewrite Hl, (py_index_adj _ _ _ Hi), py_index_nat by done. by rewrite Erw. }
    rewrite Hg. exact E.
  - done.
  - cbn [store set_store]. apply Hpl.
  - cbn [store set_store]. destruct Hpl as (_ & P2 & _ & P3 & P4 & P5). by split_and!.
Qed.
Print Assumptions C71_move.

Lemma instead_lookup o n (l : list N) q : instead o n l !! q = (fun y => if decide (y = o) then n else y) <$> l !! q.
Proof. unfold instead. change (map ?f l) with (f <$> l). by rewrite list_lookup_fmap. Qed.

(** What every table object on the document shows then, in each of its rows: the cell comes
    to the place of the old one; where it was, the cells behind it move up; nothing else. *)
Theorem C71_places `{U : Unicode} :
  forall s s' r x old ob i r', wfs (store s) -> wfs (store s') -> element r (store s) -> old ∈ children r (store s) ->
    moved r x old (store s) (store s') -> rowc ob !! i = Some r' -> element r' (store s) ->
    let before q := seen (through ob s) i q in
    let after q := seen (through ob s') i q in
    let here y := if decide (y = Some old) then Some x else y in
    (old = x -> forall q, after q = before q) /\
    ((forall q, before q <> Some x) -> forall q, after q = here (before q)) /\
    (forall j, old <> x -> before j = Some x -> forall q, after q = here (before (shifted j q))).
Proof.
  intros s s' r x old ob i r' Hw Hw' Hre Ho (M1 & M2 & M3 & M4) Hi He before after here.
  assert (Eb : forall q, before q = children r' (store s) !! q) by (intros q; by apply (seen_children (through ob s) i r' q)).
  assert (Ea : forall q, after q = children r' (store s') !! q).
  { intros q. apply (seen_children (through ob s') i r' q); [done| |done]. by apply M1. }
  assert (Hone : forall z, z ∈ children r' (store s) -> z ∈ children r (store s) -> r' = r).
  { intros z Hz Hz'. by apply (one_parent (store s) r' r z). }
  assert (Hnd : NoDup (children r' (store s))) by (by apply children_NoDup).
  assert (Hhere : forall q, r' <> r -> here (before q) = before q).
  { intros q Hne. unfold here. destruct (decide (before q = Some old)) as [E|]; [|done]. exfalso. apply Hne, (Hone old); [|done]. rewrite Eb in E. by eapply elem_of_list_lookup_2. }
  split_and!.
  - intros E q. subst old. rewrite Ea, Eb. destruct (decide (r' = r)) as [->|Hne].
    + by rewrite M2, decide_True.
    + rewrite M3 by done. rewrite without_not_in; [done|]. intros Hx. apply Hne. by apply (Hone x).
  - intros Hx q. assert (Hn : x ∉ children r' (store s)).
    { intros [q' Hq]%elem_of_list_lookup. apply (Hx q'). by rewrite Eb. }
    destruct (decide (r' = r)) as [->|Hne].
    + rewrite Ea, M2, decide_False by (by intros <-). rewrite instead_lookup, without_not_in by done. rewrite <- Eb. unfold here.
      destruct (before q) as [y|]; cbn; [|done]. destruct (decide (y = old)), (decide (Some y = Some old)); congruence.
    + rewrite Hhere by done. rewrite Ea, M3, without_not_in by done. by rewrite Eb.
  - intros j Hox Hj q. rewrite Eb in Hj. destruct (decide (r' = r)) as [->|Hne].
    + rewrite Ea, M2, decide_False by done. rewrite instead_lookup, (without_lookup _ x j) by done. rewrite <- Eb. unfold here.
      destruct (before (shifted j q)) as [y|]; cbn; [|done]. destruct (decide (y = old)), (decide (Some y = Some old)); congruence.
    + rewrite Hhere by done. rewrite Ea, M3, (without_lookup _ x j) by done. by rewrite Eb.
Qed.
Print Assumptions C71_places.

(** So a cell of the table that is assigned to another place of it leaves its row one cell
    short: the last place of that row raises, and of no other row. *)
Theorem C71_short `{U : Unicode} :
  forall s t nc key r c i j x d p old i0 j0, sane s -> in_step s -> table_node s = Some t -> rect nc t ->
    denotes key r c -> at_index (length (doc_rows t)) r i -> at_index nc c j ->
    doc_rows t !! i = Some p -> p_kids p !! j = Some old ->
    element x (store s) -> data x (store s) = Some d -> is_cell_tag (tag d) -> ~ upwards (store s) x (p_id p) ->
    seen s i0 j0 = Some x -> (i0, j0) <> (i, j) ->
    exists s', table_setitem key x s = (s', Ok tt) /\ nrows s' = (s', Ok (Z.of_nat (length (doc_rows t)))) /\
      forall i', i' < length (doc_rows t) -> (seen s' i' (nc - 1) = None <-> i' = i0).
Proof.
  intros s t nc key r c i j x d p old i0 j0 H1 H2 H3 Hr Hd Hi Hj Hp Hold He Hx Ht Hu Hs Hne.
  destruct (C71_move s t nc key r c i j x d p old H1 H2 H3 Hr Hd Hi Hj Hp Hold He Hx Ht Hu) as (s' & E & Eo & Hw' & HM).
  exists s'. split; [done|]. assert (Hw : wfs (store s)) by apply H1. destruct (to_Inv s t H1 H2 H3) as [W HI].
  assert (Hlen : length (rowc (obj s)) = length (doc_rows t)).
  { rewrite (i_rows _ _ _ HI). unfold doc_rows. by rewrite !map_length. }
  split. { unfold nrows, abind, aget, aret. by rewrite Eo, Hlen. }
  (* rows by position *)
  assert (Hrow : forall i' p', doc_rows t !! i' = Some p' -> rowc (obj s) !! i' = Some (p_id p') /\ element (p_id p') (store s) /\
    children (p_id p') (store s) = map nid (p_kids p') /\ length (p_kids p') = nc).
  { intros i' p' Hp'. unfold doc_rows in Hp'. fold ROW in Hp'. apply list_lookup_fmap_inv in Hp' as (rw & -> & Erw). cbn [part_of p_id p_kids].
    pose proof (deref_row _ _ _ _ _ HI Erw) as Hdr. unfold deref in Hdr. destruct (sub (nid rw) (store s)) as [rw'|] eqn:Esub; [|done]. injection Hdr as ->.
    split_and!.
    - rewrite (i_rows _ _ _ HI). change (map nid ?l) with (nid <$> l). by rewrite list_lookup_fmap, Erw.
    - assert (Ht0 : element (rt (obj s)) (store s)). { destruct H1 as (_ & _ & Hrt & _). apply element_ids; [done|]. split; [|done]. unfold table_node in H3. rewrite <- (sub_nid _ _ _ H3). apply (sub_ids _ _ _ H3), nid_in. }
      apply (tree_elements' _ (rt (obj s)) t); [done|done|done|].
      destruct t as [a ks]. rewrite ids_T. right. eapply elem_of_submseteq; [|apply sublist_submseteq, (ldesc_ids ROW (T a ks))]. apply (elem_of_list_fmap_1 nid). by eapply elem_of_list_lookup_2.
    - unfold children. by rewrite Esub.
    - unfold rect in Hr. rewrite Forall_lookup in Hr. apply (Hr i' (part_of rw)). by apply doc_rows_of. }
  destruct (Hrow i p Hp) as (R1 & R2 & R3 & R4).
  assert (Hin : nid old ∈ children (p_id p) (store s)). { rewrite R3. apply (elem_of_list_fmap_1 nid). by eapply elem_of_list_lookup_2. }
  assert (Hseen : forall i' p' q, doc_rows t !! i' = Some p' -> seen s i' q = nid <$> p_kids p' !! q).
  { intros i' p' q Hp'. destruct (Hrow i' p' Hp') as (Q1 & Q2 & Q3 & Q4). rewrite (seen_children s i' (p_id p') q Q1 Q2 Hw), Q3. change (map nid ?l) with (nid <$> l). by rewrite list_lookup_fmap. }
  assert (L0 : i0 < length (doc_rows t)).
  { destruct (decide (i0 < length (doc_rows t))) as [|Hge]; [done|]. exfalso. revert Hs. unfold seen, table_getitem, abind, alift. cbn [get_cell_index].
    unfold ctl_get_cell, abind, adjust_negative_indices. rewrite decide_False by lia. unfold abind, aret. rewrite decide_False by lia. unfold row_ref, abind, aget, alift, py_get, py_index.
    rewrite Hlen. rewrite decide_False by lia. rewrite decide_False by lia. done. }
  destruct (lookup_lt_is_Some_2 _ _ L0) as [p0 Hp0]. pose proof (Hrow i0 p0 Hp0) as (Q1 & Q2 & Q3 & Q4).
  assert (Hx0 : x ∈ children (p_id p0) (store s)). { rewrite (Hseen i0 p0 j0 Hp0) in Hs. rewrite Q3. apply (elem_of_list_lookup_2 _ j0). change (map nid ?l) with (nid <$> l). by rewrite list_lookup_fmap. }
  assert (Hox : nid old <> x).
  { intros Hox. assert (Hpp : p_id p0 = p_id p) by (apply (one_parent (store s) _ _ x); [done|done|by rewrite <- Hox]).
    assert (i0 = i) as ->.
    { eapply (NoDup_lookup (rowc (obj s)) i0 i (p_id p0)); [|done|by rewrite Hpp]. rewrite (i_rows _ _ _ HI).
      assert (Hwt : wfs t) by (by apply (sub_wfs (store s) (rt (obj s)) t)). destruct t as [a ks]. unfold wfs in Hwt. rewrite ids_T in Hwt. apply NoDup_cons in Hwt as [_ Hwt].
      eapply sublist_NoDup; [apply ldesc_ids|exact Hwt]. }
    simplify_eq. apply Hne. f_equal. rewrite (Hseen i p j0 Hp) in Hs. assert (Hnk : NoDup (map nid (p_kids p))) by (rewrite <- R3; by apply children_NoDup).
    eapply (NoDup_lookup _ j0 j (nid old) Hnk); change (map nid ?l) with (nid <$> l); rewrite list_lookup_fmap; [by rewrite Hs|by rewrite Hold]. }
  assert (T1 : through (obj s) s = s) by (by destruct s).
  assert (T2 : through (obj s) s' = s') by (rewrite <- Eo; by destruct s').
  intros i' Li'. destruct (lookup_lt_is_Some_2 _ _ Li') as [p' Hp']. destruct (Hrow i' p' Hp') as (S1 & S2 & S3 & S4).
  destruct (C71_places s s' (p_id p) x (nid old) (obj s) i' (p_id p') Hw Hw' R2 Hin HM S1 S2) as (_ & A2 & A3). rewrite T1, T2 in A2, A3.
  assert (Hnc : j < nc). { apply at_py in Hj. by apply py_index_lt in Hj. }
  split.
  - intros Hnone. destruct (decide (i' = i0)) as [|Hii]; [done|]. exfalso. rewrite A2 in Hnone.
    + rewrite (Hseen i' p' _ Hp') in Hnone. destruct (lookup_lt_is_Some_2 (p_kids p') (nc - 1) ltac:(lia)) as [z Hz]. rewrite Hz in Hnone. cbn in Hnone. destruct (decide (Some (nid z) = Some (nid old))); done.
    + intros q Hq. apply Hii. assert (Hxp : x ∈ children (p_id p') (store s)). { rewrite (Hseen i' p' q Hp') in Hq. rewrite S3. apply (elem_of_list_lookup_2 _ q). change (map nid ?l) with (nid <$> l). by rewrite list_lookup_fmap. }
      assert (Hpp : p_id p' = p_id p0) by (by apply (one_parent (store s) _ _ x)).
      eapply (NoDup_lookup (rowc (obj s)) i' i0 (p_id p')); [|done|by rewrite Hpp]. rewrite (i_rows _ _ _ HI).
      assert (Hwt : wfs t) by (by apply (sub_wfs (store s) (rt (obj s)) t)). destruct t as [a ks]. unfold wfs in Hwt. rewrite ids_T in Hwt. apply NoDup_cons in Hwt as [_ Hwt].
      eapply sublist_NoDup; [apply ldesc_ids|exact Hwt].
  - intros ->. rewrite (A3 j0 Hox Hs). assert (Hj0 : j0 < nc). { rewrite (Hseen i0 p0 j0 Hp0) in Hs. destruct (p_kids p0 !! j0) eqn:Ek; [|done]. apply lookup_lt_Some in Ek. lia. }
    assert (E2 : shifted j0 (nc - 1) = nc) by (unfold shifted; rewrite decide_False by lia; lia). rewrite E2, (Hseen i0 p0 _ Hp0). rewrite lookup_ge_None_2 by lia. cbn. by rewrite decide_False.
Qed.
Print Assumptions C71_short.

(** ** a case: B2 is assigned to A1 *)
Section case.
Local Existing Instance ascii_unicode.
Local Notation demo := T_Table.demo.
Example C71_case : exists t p old x d, sane demo /\ in_step demo /\ table_node demo = Some t /\ rect 3 t /\
  denotes (RTuple (0, 0)%Z) 0 0 /\ at_index (length (doc_rows t)) 0 0 /\ at_index 3 0 0 /\
  doc_rows t !! 0 = Some p /\ p_kids p !! 0 = Some old /\ element x (store demo) /\ data x (store demo) = Some d /\ is_cell_tag (tag d) /\
  ~ upwards (store demo) x (p_id p) /\ seen demo 1 1 = Some x /\
  (seen (table_setitem (RTuple (0, 0)%Z) x demo).1 0 0 = Some x /\
   seen (table_setitem (RTuple (0, 0)%Z) x demo).1 1 1 = seen demo 1 2 /\ seen (table_setitem (RTuple (0, 0)%Z) x demo).1 1 2 = None).
Proof.
  destruct T_Table.demo_ok as (t & H1 & H2 & H3 & H4 & _). pose proof (T_Table.grid_rect _ _ _ H4) as Hr. destruct H4 as (L1 & _).
  destruct (lookup_lt_is_Some_2 (doc_rows t) 0) as [p Hp]; [lia|].
  assert (Hk : length (p_kids p) = 3) by (unfold rect in Hr; rewrite Forall_lookup in Hr; by apply (Hr 0 p)).
  destruct (lookup_lt_is_Some_2 (p_kids p) 0) as [old Hold]; [lia|].
  assert (Hw : wfs (store demo)) by apply H1.
  assert (Hsub : sub 9 (store demo) = Some (T (L 9 (Nd "table:table-cell" ∅ None None)) [])) by by_vm.
  assert (He : element 9 (store demo)).
  { apply element_ids; [exact Hw|]. split; [apply (sub_ids _ _ _ Hsub); left|]. apply not_eq_sym, (ne_by _ _ 0%N); [by_vm|done]. }
  assert (Hrow : p_id p = 3%N).
  { destruct H2 as (t' & E & Ht & _). rewrite H3 in E. injection E as <-. apply (f_equal (.!! 0)) in Ht. change (map nid ?l) with (nid <$> l) in Ht. rewrite list_lookup_fmap in Ht.
    unfold doc_rows in Hp. apply list_lookup_fmap_inv in Hp as (rw & -> & E). rewrite E in Ht. cbn in Ht |- *.
    assert (E0 : rowc (obj demo) !! 0 = Some 3%N) by by_vm. rewrite E0 in Ht. by injection Ht. }
  exists t, p, old, 9%N, (Nd "table:table-cell" ∅ None None).
  split; [exact H1|]. split; [exact H2|]. split; [exact H3|]. split; [exact Hr|]. split; [by left|].
  split; [left; rewrite L1; split; lia|]. split; [left; split; lia|]. split; [exact Hp|]. split; [exact Hold|]. split; [exact He|].
  split; [unfold data; by rewrite Hsub|]. split; [by left|].
  split; [rewrite <- (sub_upwards _ _ _ _ Hw Hsub), Hrow, ids_T; cbn; intros H; apply elem_of_cons in H as [H|H]; [done|by apply elem_of_nil in H]|].
  split; [by_vm|]. split; [by_vm|]. split; [by_vm|by_vm].
Qed.
End case.
