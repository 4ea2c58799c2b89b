(** Properties of sheets, rows and columns; refused operations. *)
From Verif Require Export BookTable.
From Verif Require Import SheetProofs TableUtilsProofs TableMain.

Local Arguments edit : simpl never.
Local Arguments sub : simpl never.
Local Arguments ldesc : simpl never.
Local Arguments ids : simpl never.

Section props.
Context `{U : Unicode} `{F : PyFloat}.

(** ** The setters *)
Lemma truth_lit c s : truth (VStr (c :: s)) = true.
Proof. done. Qed.
Lemma do_setting_on p e : do_setting p e = (T (nd_set_attrs (set_on p (attrs (root e))).1 (root e)) (kids e), (set_on p (attrs (root e))).2).
Proof.
  destruct e as [[tg a tx tl] ks]. cbn [root kids attrs].
  destruct p as [k v|k v|v|k v|k v|k|key v]; cbn [do_setting set_on].
  - unfold str_set. destruct v; done.
  - done.
  - unfold set_visibility, VISIBILITY, araise. destruct v as [| | | |s| |]; try done. case_decide as Hs; [|done].
    unfold put_attr. assert (Ht : truth (VStr s) = true). { rewrite !elem_of_cons in Hs. destruct Hs as [->|[->|[->|Hs]]]; try done. by apply elem_of_nil in Hs. }
    rewrite Ht. done.
  - unfold put_attr. by destruct (truth v).
  - done.
  - unfold attr_del, e_get, e_attrs. cbn [root attrs]. by destruct (a !! k).
  - unfold set_table_protected, set_bool_attr, abind. unfold table_protected, get_bool_attr, e_get, e_attrs. cbn. rewrite lookup_insert. unfold yes_no.
    destruct (truth v); cbn.
    + unfold put_attr. destruct (truth key); done.
    + done.
Qed.

(** ** One row or column gets other attributes *)
Lemma write_part p q s W t i k d : other p q -> Inv s W t -> ldesc p t !! i = Some k -> tag d = p ->
  exists t', edit (nid k) (fun k => [T (L (nid k) d) (kids k)]) (store s) = plug W [t'] /\ root t' = root t /\
    ldesc p t' = <[i := T (L (nid k) d) (kids k)]> (ldesc p t) /\ ldesc q t' = ldesc q t /\ Inv (St (plug W [t']) (nxt s) (obj s)) W t'.
Proof.
  intros Hpq HI Hi Hd. assert (Hp : p = ROW \/ p = COL) by (destruct Hpq as [[? ?]|[? ?]]; auto).
  assert (Hk : NoDup (ids k) /\ Forall (fun x => x ∈ ids (store s)) (ids k)).
  { pose proof (sub_hole s W t p q i k Hpq HI Hi) as Es. apply sub_Some in Es as [_ [->|[c Es]]].
    - split; [apply HI|by apply Forall_forall].
    - pose proof (i_nodup _ _ _ HI) as Hn. rewrite Es, ids_plug1 in Hn |- *. split.
      + apply NoDup_app in Hn as (_ & _ & Hn). by apply NoDup_app in Hn as (? & _).
      + apply Forall_forall. intros x Hx. apply elem_of_app. right. apply elem_of_app. by left. }
  destruct Hk as [Hk1 Hk2].
  assert (Hkl : leafy p k).
  { pose proof (desc_leafy p t Hp (i_flat _ _ _ HI)) as H. rewrite Forall_forall in H. apply H. by eapply elem_of_list_lookup_2. }
  assert (Hids : ids (T (L (nid k) d) (kids k)) = ids k) by (destruct k as [[] ?]; by rewrite !ids_T).
  set (k' := T (L (nid k) d) (kids k)) in *.
  destruct (edit_hole s W t p q i k [k'] (nxt s) Hpq HI Hi) as (t' & H1 & H2 & H3 & H4 & H5 & H6 & H7 & H8 & H9 & _).
  - constructor; [|constructor]. apply leafy_kids. apply leafy_kids in Hkl as [_ Hkl]. split; [exact Hd|exact Hkl].
  - cbn [flat_map]. by rewrite app_nil_r, Hids.
  - cbn [flat_map]. rewrite app_nil_r, Hids. apply Forall_forall. intros x Hx. split; [by left|]. pose proof (i_fresh _ _ _ HI) as Hf.
    rewrite Forall_forall in Hf, Hk2. by apply Hf, Hk2.
  - lia.
  - assert (E3 : ldesc p t' = <[i := k']> (ldesc p t)).
    { rewrite H3. rewrite insert_take_drop by (by eapply lookup_lt_Some). done. }
    assert (N3 : map nid (ldesc p t') = map nid (ldesc p t)).
    { rewrite E3. change (map nid (<[i := k']> (ldesc p t))) with (nid <$> <[i := k']> (ldesc p t)). rewrite list_fmap_insert. apply list_insert_id.
      rewrite list_lookup_fmap, Hi. done. }
    exists t'. split_and!; [by apply H1|done|done|done|]. constructor; cbn [store nxt obj]; try done.
    + rewrite (i_rt _ _ _ HI). unfold nid. by rewrite H2.
    + rewrite (i_rows _ _ _ HI). destruct Hpq as [[-> ->]|[-> ->]]; congruence.
    + rewrite (i_cols _ _ _ HI). destruct Hpq as [[-> ->]|[-> ->]]; congruence.
Qed.

Lemma set_on_other p a k : key_of p <> k -> k <> "table:protection-key" -> (set_on p a).1 !! k = a !! k.
Proof.
  intros H H2. destruct p as [k' v|k' v|v|k' v|k' v|k'|key v]; cbn [key_of set_on] in *; repeat (case_match; cbn [fst]); try done; cbn [fst];
    repeat rewrite lookup_insert_ne by done; rewrite ?lookup_delete_ne by done; done.
Qed.
(** the name stays, and is no part of the properties *)
Lemma set_on_own p (a : attrib) k : key_of p <> k -> k <> "table:protection-key" -> set_on p (delete k a) = (delete k (set_on p a).1, (set_on p a).2).
Proof.
  intros H H2. destruct p as [k' v|k' v|v|k' v|k' v|k'|key v]; cbn [key_of set_on] in *; rewrite ?lookup_delete_ne by done;
    repeat (case_match; cbn [fst snd]); try done; cbn [fst snd]; repeat rewrite delete_insert_ne by done; try done; by rewrite delete_commute.
Qed.

(** ** Properties *)
Lemma row_index_at s n i k : at_row n i k -> exists z, row_index i s = (s, Ok z) /\ at_index n z k.
Proof.
  destruct i as [z|a]; cbn [at_row row_index]; [by exists z|]. intros (w & c & Hw & -> & Hk). exists (Z.of_nat k). split.
  - unfold abind, alift. rewrite (address_name w c (Z.of_nat k)) by (done || lia). done.
  - left. split; lia.
Qed.
Lemma col_index_at s n i k : at_col n i k -> exists z, column_index i s = (s, Ok z) /\ at_index n z k.
Proof.
  destruct i as [z|a]; cbn [at_col column_index]; [by exists z|]. intros (w & r & Hw & Hr & -> & Hk). exists (Z.of_nat k). split.
  - unfold abind, alift. rewrite (address_name w (Z.of_nat k) r) by (done || lia). done.
  - left. split; lia.
Qed.
Lemma row_place s W t i k : Inv s W t -> at_row (length (doc_rows t)) i k -> exists r, ldesc ROW t !! k = Some r /\ place_node (PRow i) s = (s, Ok r).
Proof.
  intros HI Hk. destruct (row_index_at s _ i k Hk) as (z & E & Hz%at_py). pose proof (py_index_lt _ _ _ Hz) as Hl.
  unfold doc_rows in Hz, Hl. fold ROW in Hz, Hl. rewrite map_length in Hz, Hl. destruct (lookup_lt_is_Some_2 _ _ Hl) as [r Hr]. exists r. split; [done|].
  cbn [place_node]. unfold row_info, abind. rewrite E. unfold ctl_row, abind. rewrite (row_ref_eq _ _ _ _ HI). unfold py_get. rewrite Hz, Hr. by rewrite (deref_row _ _ _ _ _ HI Hr).
Qed.
Lemma col_place s W t i k : Inv s W t -> at_col (length (doc_cols t)) i k -> exists r, ldesc COL t !! k = Some r /\ place_node (PCol i) s = (s, Ok r).
Proof.
  intros HI Hk. destruct (col_index_at s _ i k Hk) as (z & E & Hz%at_py). pose proof (py_index_lt _ _ _ Hz) as Hl.
  unfold doc_cols in Hz, Hl. fold COL in Hz, Hl. rewrite map_length in Hz, Hl. destruct (lookup_lt_is_Some_2 _ _ Hl) as [r Hr]. exists r. split; [done|].
  cbn [place_node]. unfold column_info, abind. rewrite E. rewrite (col_ref_eq _ _ _ _ HI). unfold py_get. rewrite Hz, Hr. by rewrite (deref_col _ _ _ _ _ HI Hr).
Qed.

Definition with_attrs (A : attrib) (k : node) : node := T (L (nid k) (nd_set_attrs A (pl (root k)))) (kids k).
Lemma with_attrs_ids A k : ids (with_attrs A k) = ids k.
Proof. destruct k as [[] ?]. unfold with_attrs. by rewrite !ids_T. Qed.
Lemma with_attrs_ldesc A k x : ldesc x (with_attrs A k) = ldesc x k.
Proof. by destruct k. Qed.
Lemma with_attrs_part A k : part_of (with_attrs A k) = Part (nid k) (nd_set_attrs A (p_nd (part_of k))) (kids k).
Proof. by destruct k as [[? []] ?]. Qed.
Lemma write_attrs_on k p s : write_attrs k (do_setting p) s =
  (set_store (edit (nid k) (fun x => [T (L (nid x) (nd_set_attrs (set_on p (attrs (pl (root k)))).1 (pl (root k)))) (kids x)]) (store s)) s, (set_on p (attrs (pl (root k)))).2).
Proof. unfold write_attrs. rewrite do_setting_on. rewrite erase_root. done. Qed.
Lemma map_insert_same {A B} (h : A -> B) (l : list A) k x x' : l !! k = Some x -> h x' = h x -> map h (<[k := x']> l) = map h l.
Proof. intros H E. change (map h ?m) with (h <$> m). rewrite list_fmap_insert, E. apply list_insert_id. by rewrite list_lookup_fmap, H. Qed.
Lemma map_insert {A B} (h : A -> B) (l : list A) k x : map h (<[k := x]> l) = <[k := h x]> (map h l).
Proof. apply (list_fmap_insert h). Qed.

Lemma prop_step s W t n g f q p key a u : Inv s W t -> tabular (erase t) n g f -> placed_at f q key a u -> key_of p <> key ->
  exists s' t', write_prop q p s = (s', (set_on p a).2) /\ Inv s' W t' /\ nid t' = nid t /\ nxt s' = nxt s /\ tabular (erase t') n g (u (set_on p a).1).
Proof.
  intros HI Ht Hp Hk. apply tabular_parts in Ht as (T1 & T2 & T3 & A1 & A2 & <- & L2 & P1 & P2 & Hr & ->). pose proof T2 as T2'. apply unrepeated_parts in T2' as [S1 S2].
  destruct Hp as [|i k a Hi Ha|i k a Hi Ha].
  - unfold write_prop, abind. cbn [place_node]. unfold abind, aget. rewrite (deref_table _ _ _ HI), write_attrs_on.
    cbn [fmts f_own]. rewrite (set_on_own p _ "table:name") by done. cbn [fst snd].
    set (A := (set_on p (attrs (pl (root t)))).1). set (t' := with_attrs A t).
    destruct (Fr_replace s W t t' (nxt s) (obj s) (Inv_Fr _ _ _ HI)) as [E HF]; [done| | |lia|apply HI|].
    { unfold t'. rewrite with_attrs_ids. apply (Fr_ids s W). by apply Inv_Fr. }
    { unfold t'. rewrite with_attrs_ids. destruct (Fr_ids s W t (Inv_Fr _ _ _ HI)) as [_ H2]. apply Forall_forall. intros x Hx. rewrite Forall_forall in H2. split; [by left|by apply H2]. }
    rewrite E by done. eexists _, t'. split; [done|].
    assert (Er : doc_rows t' = doc_rows t) by (unfold doc_rows; unfold t'; by rewrite with_attrs_ldesc).
    assert (Ec : doc_cols t' = doc_cols t) by (unfold doc_cols; unfold t'; by rewrite with_attrs_ldesc).
    assert (Nn : no_nesting t') by (unfold no_nesting, t' in *; by rewrite !with_attrs_ldesc).
    split_and!; try done.
    + apply Fr_Inv; try done; unfold t'; rewrite with_attrs_ldesc; apply HI.
    + apply tabular_parts. unfold rect, cells in *. rewrite Er, Ec. split_and!; try done.
      * apply unrepeated_parts. unfold all_single. by rewrite Er, Ec.
      * cbn. rewrite <- A1. by apply set_on_other.
      * unfold fmts. by rewrite Er, Ec.
  - cbn [fmts f_rows] in Hi, Ha. rewrite map_length in Hi. destruct (row_place s W t i k HI Hi) as (r & Er & Ep).
    unfold write_prop, abind. rewrite Ep, write_attrs_on.
    assert (a = attrs (pl (root r))) as ->.
    { change (map ?h ?l) with (h <$> l) in Ha. rewrite list_lookup_fmap in Ha. rewrite (doc_rows_of _ _ _ Er) in Ha. cbn in Ha. by injection Ha as <-. }
    set (A := (set_on p (attrs (pl (root r)))).1).
    assert (Htg : tag (pl (root r)) = ROW). { assert (Hf : Forall (leafy ROW) (ldesc ROW t)) by (apply desc_leafy; [by left|apply HI]). rewrite Forall_forall in Hf. apply (Hf r). by eapply elem_of_list_lookup_2. }
    destruct (write_part ROW COL s W t k r (nd_set_attrs A (pl (root r))) other_RC HI Er Htg) as (t' & E & R & D1 & D2 & HI').
    rewrite E. eexists _, t'. split; [done|]. change (T (L (nid r) (nd_set_attrs A (pl (root r)))) (kids r)) with (with_attrs A r) in D1.
    assert (Hnd : doc_rows t' = <[k := part_of (with_attrs A r)]> (doc_rows t)) by (unfold doc_rows; fold ROW; rewrite D1; apply map_insert).
    assert (Ec : doc_cols t' = doc_cols t) by (unfold doc_cols; fold COL; by rewrite D2).
    pose proof (doc_rows_of _ _ _ Er) as Hd.
    assert (Hc : cells t' = cells t) by (unfold cells; rewrite Hnd; by apply (map_insert_same _ _ _ (part_of r))).
    split_and!; [exact HI'|unfold nid; by rewrite R|done|]. apply tabular_parts. rewrite Hc, Ec. split_and!; try done.
    + unfold ltag. by rewrite R.
    + apply unrepeated_parts. split; [|by rewrite Ec]. rewrite Hnd. apply Forall_insert; [done|]. rewrite Forall_forall in S1.
      destruct (S1 (part_of r)) as [R1 R2]; [by eapply elem_of_list_lookup_2|]. rewrite with_attrs_part. split; [|exact R2]. cbn [p_nd]. intros v. cbn. unfold A. rewrite set_on_other by done. apply R1.
    + apply HI'.
    + by rewrite R.
    + apply cells_rect. rewrite Hc. by apply cells_rect.
    + unfold fmts. rewrite R, Ec, Hnd, map_insert, with_attrs_part. done.
  - cbn [fmts f_cols] in Hi, Ha. rewrite map_length in Hi. destruct (col_place s W t i k HI Hi) as (r & Er & Ep).
    unfold write_prop, abind. rewrite Ep, write_attrs_on.
    assert (Hd : doc_cols t !! k = Some (part_of r)) by (unfold doc_cols; fold COL; change (map ?h ?l) with (h <$> l); by rewrite list_lookup_fmap, Er).
    assert (a = attrs (pl (root r))) as ->.
    { change (map ?h ?l) with (h <$> l) in Ha. rewrite list_lookup_fmap, Hd in Ha. cbn in Ha. by injection Ha as <-. }
    set (A := (set_on p (attrs (pl (root r)))).1).
    assert (Htg : tag (pl (root r)) = COL). { assert (Hf : Forall (leafy COL) (ldesc COL t)) by (apply desc_leafy; [by right|apply HI]). rewrite Forall_forall in Hf. apply (Hf r). by eapply elem_of_list_lookup_2. }
    destruct (write_part COL ROW s W t k r (nd_set_attrs A (pl (root r))) other_CR HI Er Htg) as (t' & E & R & D1 & D2 & HI').
    rewrite E. eexists _, t'. split; [done|]. change (T (L (nid r) (nd_set_attrs A (pl (root r)))) (kids r)) with (with_attrs A r) in D1.
    assert (Hnd : doc_cols t' = <[k := part_of (with_attrs A r)]> (doc_cols t)) by (unfold doc_cols; fold COL; rewrite D1; apply map_insert).
    assert (Ec : doc_rows t' = doc_rows t) by (unfold doc_rows; fold ROW; by rewrite D2).
    assert (Hc : cells t' = cells t) by (unfold cells; by rewrite Ec).
    split_and!; [exact HI'|unfold nid; by rewrite R|done|]. apply tabular_parts. rewrite Hc. split_and!; try done.
    + unfold ltag. by rewrite R.
    + apply unrepeated_parts. split; [by rewrite Ec|]. rewrite Hnd. apply Forall_insert; [done|]. rewrite Forall_forall in S2.
      specialize (S2 (part_of r) ltac:(by eapply elem_of_list_lookup_2)). rewrite with_attrs_part. intros v. cbn. unfold A. rewrite set_on_other by done. apply S2.
    + apply HI'.
    + by rewrite R.
    + by rewrite Hnd, insert_length.
    + apply cells_rect. rewrite Hc. by apply cells_rect.
    + unfold fmts. rewrite R, Ec, Hnd, map_insert, with_attrs_part. done.
Qed.

Lemma placed_node s W t q key a u : Inv s W t -> placed_at (fmts t) q key a u ->
  exists k, place_node q s = (s, Ok k) /\ forall h, h <> key -> e_get h (erase k) = a !! h.
Proof.
  intros HI Hp. destruct Hp as [|i k a Hi Ha|i k a Hi Ha].
  - exists t. cbn [place_node]. unfold abind, aget. rewrite (deref_table _ _ _ HI). split; [done|]. intros h Hh. cbn [fmts f_own].
    rewrite lookup_delete_ne by done. by destruct t as [[? []] ?].
  - cbn [fmts f_rows] in Hi, Ha. rewrite map_length in Hi. destruct (row_place s W t i k HI Hi) as (r & Hr & E). exists r. split; [done|]. intros h _.
    apply list_lookup_fmap_inv in Ha as (p & -> & Hp). rewrite (doc_rows_of _ _ _ Hr) in Hp. injection Hp as <-. by destruct r as [[? []] ?].
  - cbn [fmts f_cols] in Hi, Ha. rewrite map_length in Hi. destruct (col_place s W t i k HI Hi) as (r & Hr & E). exists r. split; [done|]. intros h _.
    apply list_lookup_fmap_inv in Ha as (p & -> & Hp). unfold doc_cols in Hp. fold COL in Hp. change (map ?f ?l) with (f <$> l) in Hp. rewrite list_lookup_fmap, Hr in Hp. injection Hp as <-. by destruct r as [[? []] ?].
Qed.

(** ** Refused operations *)
Lemma out_of_row s W t nr nc row col : Inv s W t -> length (doc_rows t) = nr -> wid t = nc -> rect nc t ->
  outside nr row \/ (exists i, at_index nr row i) /\ outside nc col ->
  ctl_get_cell (row, col) s = (s, Err IndexError) /\ forall x, ctl_set_cell (row, col) x s = (s, Err IndexError).
Proof.
  intros HI <- <- Hr [Ho|[[i Hi%at_py] Ho]]; unfold ctl_get_cell, ctl_set_cell, abind; rewrite (adjust_eq _ _ _ _ _ HI).
  - destruct (row_ref_any s W t (adj (length (doc_rows t)) row) HI) as [(k & r & Hk & _)|[_ ->]]; [by rewrite adj_out in Hk|done].
  - destruct (row_ref_any s W t (adj (length (doc_rows t)) row) HI) as [(k & r & _ & Hk & ->)|[_ ->]]; [|done]. rewrite (deref_row _ _ _ _ _ HI Hk).
    assert (Hl : length (kids r) = wid t). { unfold rect in Hr. rewrite Forall_forall in Hr. apply (Hr (part_of r)). apply doc_rows_of in Hk. by eapply elem_of_list_lookup_2. }
    unfold alift, py_get. rewrite Hl, adj_out by done. split; [done|]. intros x. unfold set_item, abind. rewrite (deref_row _ _ _ _ _ HI Hk). unfold alift, py_get. by rewrite Hl, adj_out.
Qed.
Lemma refuse_step s W t n g f o e : Inv s W t -> tabular (erase t) n g f -> refuses (length g) (breadth g) o e ->
  exists s' W', run_op o s = (s', Err e) /\ Inv s' W' t /\ grow W W' /\ obj s' = obj s /\ (nxt s <= nxt s')%N.
Proof.
  intros HI Ht Hf. apply tabular_parts in Ht as (T1 & T2 & T3 & A1 & A2 & <- & L2 & P1 & P2 & Hr & ->).
  rewrite cells_length in Hf, P1. assert (Hne : doc_rows t <> []) by (destruct (doc_rows t); cbn in *; [lia|done]).
  assert (Hw : wid t = breadth (cells t)) by (by apply rect_wid). rewrite <- Hw in Hf, P2, Hr.
  assert (Hsame : forall r, run_op o s = (s, Err r) -> r = e -> exists s' W', run_op o s = (s', Err e) /\ Inv s' W' t /\ grow W W' /\ obj s' = obj s /\ (nxt s <= nxt s')%N).
  { intros r E ->. exists s, W. split_and!; try done. }
  destruct Hf as [n0 H|i n0 H|i n0 H H2|i n0 H|i n0 H H2|n0 H|i n0 H|i n0 H|i n0 H H2|pos x Hp H|pos x Hp H H2|pos h H|v H]; cbn [run_op] in *.
  - eapply Hsame; [|done]. unfold append_rows, ctl_append_rows. by rewrite decide_True.
  - eapply Hsame; [|done]. unfold insert_rows, ctl_insert_rows. by rewrite decide_True.
  - clear Hsame. unfold insert_rows, ctl_insert_rows. rewrite decide_False by lia.
    destruct (label_facts (build_new_row (Z.of_nat (wid t))) (nxt s)) as (x & n' & E3 & _ & _ & _ & _ & Hn').
    assert (HI2 : Inv (set_nxt n' s) W t) by (apply Inv_nxt; [done|lia]).
    exists (set_nxt n' s), W. split_and!; [|done|constructor|done|cbn; lia].
    apply arepeat_first; [lia|]. unfold abind at 1. rewrite (ncols_eq _ _ _ HI). unfold abind at 1, alloc. rewrite E3.
    unfold abind at 1. destruct (row_ref_any (set_nxt n' s) W t i HI2) as [(k & r & Hk' & _)|[_ ->]]; [|done].
    apply at_py in Hk'. exfalso. destruct Hk'; lia.
  - eapply Hsame; [|done]. unfold delete_rows, ctl_delete_rows. unfold abind at 1. rewrite (nrows_eq _ _ _ HI). rewrite <- parts_length, parts_rows. rewrite decide_True by lia. done.
  - eapply Hsame; [|done]. unfold delete_rows, ctl_delete_rows. unfold abind at 1. rewrite (nrows_eq _ _ _ HI). rewrite <- parts_length, parts_rows. rewrite decide_False by lia.
    change (if decide (i < 0)%Z then (i + Z.of_nat (length (doc_rows t)))%Z else i) with (adj (length (doc_rows t)) i).
    apply arepeat_first; [lia|]. unfold abind at 1, pop_row, abind at 1, aget. rewrite (rowc_length _ _ _ HI), adj_out by done. done.
  - eapply Hsame; [|done]. by apply (count_fail s n0 0).
  - eapply Hsame; [|done]. by apply (count_fail s n0 i).
  - eapply Hsame; [|done]. unfold delete_columns, ctl_delete_columns. unfold abind at 1. unfold abind at 1. rewrite (ncols_eq _ _ _ HI). rewrite decide_True by lia. done.
  - eapply Hsame; [|done]. unfold delete_columns, ctl_delete_columns. unfold abind at 1. unfold abind at 1. rewrite (ncols_eq _ _ _ HI). rewrite decide_False by lia.
    change (if decide (i < 0)%Z then (i + Z.of_nat (wid t))%Z else i) with (adj (wid t) i).
    unfold abind at 1, aget. rewrite (i_rows _ _ _ HI).
    assert (Hrr : exists r l, ldesc ROW t = r :: l).
    { unfold doc_rows in Hne. fold ROW in Hne. destruct (ldesc ROW t) as [|r l]; [done|]. eauto. }
    destruct Hrr as (r & l & Hrr). rewrite Hrr. cbn [map aiter]. unfold abind at 1.
    assert (Hw2 : wid t = length (kids r)) by (unfold wid; by rewrite Hrr).
    rewrite (arepeat_first _ _ s s IndexError); [done|lia|].
    unfold delete_child. unfold abind at 1. rewrite (deref_row s W t 0 r HI) by (by rewrite Hrr).
    unfold abind at 1, alift, py_get. rewrite <- Hw2, adj_out by done. done.
  - clear Hsame. destruct (new_root_step s W t x HI) as (en & n' & E0 & Ee & Hid & Hlt & HI1 & Hsub & Hfr & Hed).
    exists (St (plug (cadd en W) [t]) n' (obj s)), (cadd en W). split_and!; [|done|constructor; constructor|done|cbn; lia].
    unfold set_new, abind. rewrite E0. unfold set_cell, abind, deref. cbn [store]. rewrite Hsub. rewrite decide_False; [done|]. by rewrite ltag_erase, Ee.
  - clear Hsame. destruct (new_root_step s W t x HI) as (en & n' & E0 & Ee & Hid & Hlt & HI1 & Hsub & Hfr & Hed).
    exists (St (plug (cadd en W) [t]) n' (obj s)), (cadd en W). split_and!; [|done|constructor; constructor|done|cbn; lia].
    unfold set_new, abind. rewrite E0. unfold set_cell, abind, deref. cbn [store]. rewrite Hsub. rewrite decide_True by (by rewrite ltag_erase, Ee).
    destruct pos as [row col]. by apply (out_of_row _ (cadd en W) t (length (doc_rows t)) (wid t)).
  - eapply Hsame; [|done]. unfold write_cell, abind. destruct pos as [row col]. destruct (out_of_row s W t _ _ row col HI eq_refl eq_refl Hr H) as [-> _]. done.
  - eapply Hsame; [|done]. by apply set_name_bad.
Qed.
End props.
