(** The operations of one table, on its cells and its properties. *)
From Verif Require Export BookSpec TableReload.
From Verif Require Import T_Table SheetProofs.

(** ** One table *)
Definition cells (t : node) : list (list elem) := map (fun p => map erase (p_kids p)) (doc_rows t).
Lemma cells_erase t : map kids (descendants "table:table-row" (erase t)) = cells t.
Proof. unfold cells, doc_rows. rewrite <- erase_ldesc, !map_map. apply map_ext. intros k. by rewrite erase_kids. Qed.
Lemma cols_erase t : length (descendants "table:table-column" (erase t)) = length (doc_cols t).
Proof. unfold doc_cols. by rewrite <- erase_ldesc, !map_length. Qed.
Lemma cells_width n t : rect n t -> doc_rows t <> [] -> breadth (cells t) = n.
Proof.
  unfold rect, cells. destruct (doc_rows t) as [|p l]; [done|]. intros [H _]%Forall_cons _. cbn. by rewrite map_length.
Qed.
Lemma cells_rect n t : rect n t <-> Forall (fun r => length r = n) (cells t).
Proof.
  unfold rect, cells. rewrite Forall_map. split; intros H; (eapply Forall_impl; [exact H|]); cbn; intros p; by rewrite map_length.
Qed.
Lemma cells_length t : length (cells t) = length (doc_rows t).
Proof. apply map_length. Qed.

Lemma empty_rows_cells n l : Forall (is_empty_row n) l -> map (fun p => map erase (p_kids p)) l = blank (length l) n.
Proof. induction 1 as [|p l Hp _ IH]; [done|]. cbn. rewrite IH. unfold is_empty_row, part_erase in Hp. injection Hp as _ ->. done. Qed.
Lemma empty_cells l : Forall empty_cell l -> map erase l = replicate (length l) ECELL.
Proof. induction 1 as [|p l Hp _ IH]; [done|]. cbn. by rewrite IH, Hp. Qed.
Lemma inserted_cells k n l l' : Forall2 (cells_inserted k n) l l' ->
  map (fun p => map erase (p_kids p)) l' = map (fun r => take k r ++ replicate n ECELL ++ drop k r) (map (fun p => map erase (p_kids p)) l).
Proof.
  induction 1 as [|p p' l l' (cs & <- & H & ->) _ IH]; [done|]. cbn. rewrite IH. f_equal.
  by rewrite !map_app, (empty_cells _ H), firstn_map, skipn_map.
Qed.
Lemma deleted_cells k n l l' : Forall2 (cells_deleted k n) l l' ->
  map (fun p => map erase (p_kids p)) l' = map (fun r => take k r ++ drop (k + n) r) (map (fun p => map erase (p_kids p)) l).
Proof.
  induction 1 as [|p p' l l' -> _ IH]; [done|]. cbn. rewrite IH. f_equal. by rewrite !map_app, firstn_map, skipn_map.
Qed.
Lemma put_cells t i j c e c0 : cell_at t i j = Some c0 -> erase c = e ->
  map (fun p => map erase (p_kids p)) (put_cell t i j c) = alter (fun r => <[j := e]> r) i (cells t).
Proof.
  unfold cell_at, put_cell, cells. destruct (doc_rows t !! i) as [p|] eqn:E; [|done]. intros _ <-. apply list_eq. intros k.
  destruct (decide (k = i)) as [->|Hk].
  - rewrite list_lookup_alter, !list_lookup_fmap, E, list_lookup_insert by (by eapply lookup_lt_Some). cbn. f_equal. apply list_eq. intros m.
    destruct (decide (m = j)) as [->|Hm]; [|by rewrite list_lookup_fmap, !list_lookup_insert_ne, list_lookup_fmap by done].
    rewrite list_lookup_fmap. destruct (decide (j < length (p_kids p))).
    + rewrite !list_lookup_insert by (rewrite ?map_length; done). done.
    + rewrite !lookup_ge_None_2 by (rewrite insert_length, ?map_length; lia). done.
  - rewrite list_lookup_alter_ne, !list_lookup_fmap, list_lookup_insert_ne by done. done.
Qed.
Lemma spot_at n i k : py_index n i = Some k -> spot n i = k.
Proof.
  intros [[H ->]|[H ->]]%at_py; unfold spot; case_decide; lia.
Qed.

(** properties *)
Definition p_attrs (p : part) : attrib := attrs (p_nd p).
Definition fmts (t : node) : fmt := Fmt (delete "table:name" (attrs (pl (root t)))) (map p_attrs (doc_rows t)) (map p_attrs (doc_cols t)).
Lemma fmts_erase t : Fmt (delete "table:name" (attrs_of (erase t))) (map attrs_of (descendants "table:table-row" (erase t)))
  (map attrs_of (descendants "table:table-column" (erase t))) = fmts t.
Proof.
  unfold fmts, doc_rows, doc_cols. rewrite <- !erase_ldesc, !map_map. f_equal; [by destruct t| |]; apply map_ext; intros k; by destruct k as [[? []] ?].
Qed.
Lemma empty_rows_fmt n l : Forall (is_empty_row n) l -> map p_attrs l = replicate (length l) ∅.
Proof. induction 1 as [|p l Hp _ IH]; [done|]. cbn. rewrite IH. unfold p_attrs. unfold is_empty_row, part_erase in Hp. injection Hp as -> _. done. Qed.
Lemma empty_cols_fmt l : Forall is_empty_col l -> map p_attrs l = replicate (length l) ∅.
Proof. induction 1 as [|p l Hp _ IH]; [done|]. cbn. rewrite IH. unfold p_attrs. unfold is_empty_col, part_erase in Hp. injection Hp as -> _. done. Qed.
Lemma appended_fmt n l l' : Forall2 (fun p p' => cells_inserted (length (p_kids p)) n p p') l l' -> map p_attrs l' = map p_attrs l.
Proof. induction 1 as [|p p' l l' (cs & _ & _ & ->) _ IH]; [done|]. cbn. by rewrite IH. Qed.
Lemma inserted_fmt k n l l' : Forall2 (cells_inserted k n) l l' -> map p_attrs l' = map p_attrs l.
Proof. induction 1 as [|p p' l l' (cs & _ & _ & ->) _ IH]; [done|]. cbn. by rewrite IH. Qed.
Lemma deleted_fmt k n l l' : Forall2 (cells_deleted k n) l l' -> map p_attrs l' = map p_attrs l.
Proof. induction 1 as [|p p' l l' -> _ IH]; [done|]. cbn. by rewrite IH. Qed.
Lemma insert_fmt i p p' l : l !! i = Some p -> p_nd p' = p_nd p -> map p_attrs (<[i := p']> l) = map p_attrs l.
Proof. revert i. induction l as [|q l IH]; intros [|i]; cbn; try done; [intros [= ->] E; unfold p_attrs at 1; by rewrite E|]. intros H E. f_equal. by apply IH. Qed.
Lemma put_fmt t i j c : map p_attrs (put_cell t i j c) = map p_attrs (doc_rows t).
Proof.
  unfold put_cell. destruct (doc_rows t !! i) as [p|] eqn:E; [|done]. by apply (insert_fmt i p).
Qed.
Lemma fmts_eq (t t' : node) : pl (root t') = pl (root t) ->
  fmts t' = Fmt (f_own (fmts t)) (map p_attrs (doc_rows t')) (map p_attrs (doc_cols t')).
Proof. intros E. unfold fmts. by rewrite E. Qed.

Section book.
Context `{U : Unicode}.
Lemma tabular_parts t n g f : tabular (erase t) n g f <->
  ltag t = TABLE /\ unrepeated (erase t) /\ no_nesting t /\ attrs (pl (root t)) !! "table:name" = Some n /\ normalize_sheet_name n <> [] /\
  cells t = g /\ length (doc_cols t) = breadth g /\ 1 <= length g /\ 1 <= breadth g /\ rect (breadth g) t /\ f = fmts t.
Proof.
  unfold tabular. rewrite fmts_erase, cells_erase, cols_erase, <- ltag_erase.
  assert (E : e_get "table:name" (erase t) = attrs (pl (root t)) !! "table:name") by (by destruct t). rewrite E.
  split; intros (H1 & H2 & H3 & H4 & H5 & H6 & H7 & H8 & H9 & H10 & ->); subst g; split_and!; try done.
  - by apply no_nesting_flat.
  - by apply cells_rect.
  - by apply flat_no_nesting.
  - by apply cells_rect.
Qed.
Lemma grid_cells nr nc t : is_grid nr nc t -> cells t = blank nr nc.
Proof. intros (<- & _ & H & _). unfold cells. by apply empty_rows_cells. Qed.

Lemma grid_fmts nr nc t : is_grid nr nc t -> map p_attrs (doc_rows t) = replicate nr ∅ /\ map p_attrs (doc_cols t) = replicate nc ∅.
Proof. intros (<- & <- & H1 & H2). split; [by eapply empty_rows_fmt|by apply empty_cols_fmt]. Qed.
Lemma renamed_fmts n t : fmts (renamed n t) = fmts t.
Proof.
  unfold fmts, doc_rows, doc_cols. fold ROW COL. rewrite !renamed_ldesc. f_equal. destruct t as [[? []] ?]. cbn. apply delete_insert_delete.
Qed.
Lemma op_grid s W t o n g f : Inv s W t -> tabular (erase t) n g f -> fine o (length g) (breadth g) ->
  exists s' W' t', run_op o s = (s', Ok tt) /\ Inv s' W' t' /\ grow W W' /\ nid t' = nid t /\ (nxt s <= nxt s')%N /\
    cells t' = grid_op o g /\ attrs (pl (root t')) !! "table:name" = Some (name_op o n) /\ fmts t' = fmt_op o f.
Proof.
  intros HI Ht [Ho Hf]. destruct (Hf s) as [Hs Hcl]. clear Hf. apply tabular_parts in Ht as (T1 & T2 & T3 & A1 & A2 & <- & L2 & P1 & P2 & Hr & ->).
  set (nc := breadth (cells t)) in *. set (nr := length (cells t)) in *. assert (L1 : length (doc_rows t) = nr) by (symmetry; apply cells_length).
  assert (Hne : doc_rows t <> []) by (destruct (doc_rows t); cbn in *; [lia|done]).
  assert (Hnc : doc_cols t <> []) by (destruct (doc_cols t); cbn in *; [lia|done]).
  assert (Hw : wid t = nc) by (by apply rect_wid).
  assert (HN : forall t', nid t' = nid t /\ pl (root t') = pl (root t) <-> root t' = root t).
  { intros [[] ?]. destruct t as [[] ?]. cbn. split; [intros [-> ->]; done|by intros [= -> ->]]. }
  assert (HR0 : forall (Q : node -> Prop) s', Rch s W t Q s' -> (forall t', Q t' -> cells t' = grid_op o (cells t)) ->
    (forall t', Q t' -> Fmt (f_own (fmts t)) (map p_attrs (doc_rows t')) (map p_attrs (doc_cols t')) = fmt_op o (fmts t)) -> name_op o n = n ->
    exists W' t', Inv s' W' t' /\ grow W W' /\ nid t' = nid t /\ (nxt s <= nxt s')%N /\ cells t' = grid_op o (cells t) /\ attrs (pl (root t')) !! "table:name" = Some (name_op o n) /\ fmts t' = fmt_op o (fmts t)).
  { intros Q s' (W' & t' & H1 & H2 & H3 & H4 & H5) HQ HQ2 ->. exists W', t'. apply HN in H3 as [H3 H3']. pose proof (fmts_eq t t' H3') as Hfe. rewrite H3', Hfe. split_and!; auto. }
  destruct o; cbn [fits run_op fst snd] in *.
  - destruct (append_rows_ok s W t n0 HI) as (s' & E & HR); [|done|].
    { intros E. apply Hne. rewrite <- parts_rows. unfold parts. by rewrite E. }
    exists s'. edestruct (HR0 _ _ HR) as (W' & t' & H); [|intros t' (ps & Q1 & Q2 & _ & Q3 & Q4); rewrite Q3, Q4, map_app, (empty_rows_fmt _ _ Q2), Q1; done|done|by exists W', t']. intros t' (ps & Q1 & Q2 & _ & Q3 & Q4).
    unfold cells at 1. rewrite Q3, map_app. cbn [grid_op]. f_equal. rewrite (empty_rows_cells (wid t)) by done. by rewrite Q1, Hw.
  - destruct Hs as (Hn & k & Hk%at_py). rewrite <- L1 in Hk. destruct (insert_rows_ok s W t i n0 k HI Hk Hn) as (s' & E & HR).
    exists s'. edestruct (HR0 _ _ HR) as (W' & t' & H); [|intros t' (ps & Q1 & Q2 & _ & Q3 & Q4); cbn [fmt_op fmts f_own]; rewrite Q3, Q4, !map_app, (empty_rows_fmt _ _ Q2), Q1, <- firstn_map, <- skipn_map, map_length, (spot_at _ _ _ Hk); done|done|by exists W', t']. intros t' (ps & Q1 & Q2 & _ & Q3 & Q4).
    cbn [grid_op]. rewrite cells_length. apply spot_at in Hk as ->.
    unfold cells at 1. rewrite Q3, !map_app, <- firstn_map, <- skipn_map. cbn [grid_op]. do 2 f_equal. rewrite (empty_rows_cells (wid t)) by done. by rewrite Q1, Hw.
  - destruct Hs as (Hn & k & Hk%at_py & Hkn). rewrite <- L1 in Hk, Hkn, Hn. destruct (delete_rows_ok s W t i n0 k HI Hk Hn Hkn) as (s' & E & HR).
    exists s'. edestruct (HR0 _ _ HR) as (W' & t' & H); [|intros t' (Q3 & Q4); cbn [fmt_op fmts f_own]; rewrite Q3, Q4, !map_app, <- firstn_map, <- skipn_map, map_length, (spot_at _ _ _ Hk); done|done|by exists W', t']. intros t' (Q3 & Q4).
    cbn [grid_op]. rewrite cells_length. apply spot_at in Hk as ->. unfold cells at 1. by rewrite Q3, !map_app, <- firstn_map, <- skipn_map.
  - destruct (append_columns_ok s W t n0 HI Hnc Hs) as (s' & E & HR).
    exists s'. edestruct (HR0 _ _ HR) as (W' & t' & H); [|intros t' (Q1 & ps & Q2 & Q3 & Q4); cbn [fmt_op fmts f_own]; rewrite (appended_fmt _ _ _ Q1), Q4, map_app, (empty_cols_fmt _ Q3), Q2; done|done|by exists W', t']. intros t' (Q1 & ps & Q2 & Q3 & Q4).
    cbn [grid_op]. unfold cells at 1. revert Q1. unfold cells. generalize (doc_rows t'). clear.
    induction (doc_rows t) as [|p l IH]; intros l' H; inversion H as [|? p' ? l2 (cs & Hl & Hc & E') H2]; [done|]. cbn. rewrite (IH _ H2). f_equal.
    rewrite E'. cbn. by rewrite !map_app, (empty_cells _ Hc), firstn_all, skipn_all, app_nil_r, Hl.
  - destruct Hs as (Hn & k & Hk%at_py). fold nc in Hk. rewrite <- L2 in Hk. destruct (insert_columns_ok s W t i n0 k HI) as (s' & E & HR); try done; [by rewrite L2|].
    exists s'. edestruct (HR0 _ _ HR) as (W' & t' & H); [|intros t' (Q1 & ps & Q2 & Q3 & Q4); cbn [fmt_op fmts f_own]; rewrite (inserted_fmt _ _ _ _ Q1), Q4, !map_app, (empty_cols_fmt _ Q3), Q2, <- firstn_map, <- skipn_map, map_length, (spot_at _ _ _ Hk); done|done|by exists W', t']. intros t' (Q1 & ps & Q2 & Q3 & Q4).
    cbn [grid_op]. fold nc. rewrite <- L2. apply spot_at in Hk as ->. by apply inserted_cells.
  - destruct Hs as (Hn & k & Hk%at_py & Hkn). rewrite <- L2 in Hk, Hkn, Hn. destruct (delete_columns_ok s W t i n0 k HI) as (s' & E & HR); try done; [by rewrite L2|].
    exists s'. edestruct (HR0 _ _ HR) as (W' & t' & H); [|intros t' (Q1 & Q4); cbn [fmt_op fmts f_own]; rewrite (deleted_fmt _ _ _ _ Q1), Q4, !map_app, <- firstn_map, <- skipn_map, map_length, (spot_at _ _ _ Hk); done|done|by exists W', t']. intros t' (Q1 & Q4).
    cbn [grid_op]. fold nc. rewrite <- L2. apply spot_at in Hk as ->. by apply deleted_cells.
  - destruct Hs as ((i & j & Hi1%at_py & Hj%at_py) & Hp & Hct). destruct pos as [row col]. cbn in Hi1, Hj.
    destruct (cell_at_rect nc t i j Hr) as [c Hc]; [rewrite L1; by eapply py_index_lt|by eapply py_index_lt|].
    destruct (set_new_pos s W t row col i j e c HI) as (s' & en & E & Ee & _ & HR); try done; [by rewrite L1|by rewrite Hw|].
    exists s'. edestruct (HR0 _ _ HR) as (W' & t' & H); [|intros t' [Q1 Q2]; rewrite Q1, Q2, put_fmt; done|done|by exists W', t']. intros t' [Q1 Q2].
    cbn [grid_op fst snd]. fold nc nr. rewrite (spot_at _ _ _ Hi1), (spot_at _ _ _ Hj). unfold cells at 1. rewrite Q1. by apply (put_cells t i j en e c).
  - done.
  - destruct Hs as ((i & j & Hi1%at_py & Hj%at_py) & Hp). destruct pos as [row col]. cbn in Hi1, Hj.
    destruct (cell_at_rect nc t i j Hr) as [c Hc]; [rewrite L1; by eapply py_index_lt|by eapply py_index_lt|].
    destruct (cell_at_row _ _ _ _ Hc) as (r & Hr1 & Hr2).
    destruct (write_cell_step s W t i r j c (row, col) f HI Hr1 Hr2) as (s' & c' & E & _ & Ec & HR).
    + rewrite (get_cell_eq s W t row col i j HI); [by rewrite Hc|by rewrite L1|by rewrite Hw].
    + apply Hp. apply cellish_plain. pose proof (row_cellish s W t i r HI Hr1) as Hcc. rewrite Forall_forall in Hcc. apply Hcc.
      by eapply elem_of_list_lookup_2.
    + exists s'. edestruct (HR0 _ _ HR) as (W' & t' & H); [|intros t' [Q1 Q2]; rewrite Q1, Q2, put_fmt; done|done|by exists W', t']. intros t' [Q1 Q2].
      cbn [grid_op fst snd]. fold nc nr. rewrite (spot_at _ _ _ Hi1), (spot_at _ _ _ Hj). unfold cells at 1. rewrite Q1.
      rewrite (put_cells t i j c' _ c Hc Ec). unfold cells. apply doc_rows_of in Hr1. apply list_eq. intros k. destruct (decide (k = i)) as [->|Hk].
      * rewrite !list_lookup_alter, list_lookup_fmap, Hr1. cbn. f_equal. apply list_eq. intros m. destruct (decide (m = j)) as [->|Hm].
        -- rewrite list_lookup_alter, list_lookup_insert by (rewrite map_length; by eapply lookup_lt_Some). by rewrite list_lookup_fmap, Hr2.
        -- by rewrite list_lookup_alter_ne, list_lookup_insert_ne by done.
      * by rewrite !list_lookup_alter_ne by done.
  - destruct size as [r c]. cbn in Hs. destruct Hs as [F1 F2].
    destruct (reset_ok s W t n r c HI A1 A2 F1 F2) as (s' & W' & t' & E & HI' & Hg & R & G & N).
    exists s', W', t'. split_and!; try done; [unfold nid at 1; by rewrite R|by apply grid_cells| |].
    + rewrite R. cbn [root pl attrs reset_nd name_op]. apply lookup_singleton.
    + unfold fmts. rewrite R. destruct (grid_fmts _ _ _ G) as [-> ->]. cbn [root pl attrs reset_nd]. by rewrite delete_singleton.
  - rewrite (clear_eq s W t HI).
    destruct (reset_ok s W t n (Z.of_nat (length (doc_rows t))) (Z.of_nat (wid t)) HI A1 A2) as (s' & W' & t' & E & HI' & Hg & R & G & N); [lia|lia|].
    exists s', W', t'. split_and!; try done; [unfold nid at 1; by rewrite R| |rewrite R; cbn [root pl attrs reset_nd name_op]; apply lookup_singleton|].
    2: { unfold fmts. rewrite R. destruct (grid_fmts _ _ _ G) as [-> ->]. cbn [root pl attrs reset_nd fmt_op]. rewrite delete_singleton, !map_length, !Nat2Z.id. unfold unformatted. by rewrite L2, Hw. }
    cbn [grid_op]. rewrite (grid_cells _ _ _ G), !Nat2Z.id, cells_length. by rewrite Hw.
  - destruct (set_name_ok s W t v HI Hs) as (s' & E & HI' & O & N).
    exists s', W, (renamed (normalize_sheet_name v) t). split_and!; try done.
    + apply renamed_nid.
    + by rewrite N.
    + cbn [grid_op]. unfold cells, doc_rows. fold ROW. by rewrite renamed_ldesc.
    + cbn [name_op]. destruct t as [[? []] ?]. cbn. apply lookup_insert.
    + apply renamed_fmts.
Qed.

Lemma table_step s W t o n g f : Inv s W t -> tabular (erase t) n g f -> fine o (length g) (breadth g) ->
  exists s' W' t', run_op o s = (s', Ok tt) /\ Inv s' W' t' /\ grow W W' /\ nid t' = nid t /\ (nxt s <= nxt s')%N /\
    tabular (erase t') (name_op o n) (grid_op o g) (fmt_op o f).
Proof.
  intros HI Ht Hf. destruct (op_grid s W t o n g f HI Ht Hf) as (s' & W' & t' & E & HI' & Hg & Hn & Hx & Hc & Ha & Hfm).
  exists s', W', t'. split_and!; try done. destruct Hf as [_ Hf]. destruct (Hf s) as [Hs Hcl].
  apply tabular_parts in Ht as (T1 & T2 & T3 & A1 & A2 & <- & L2 & P1 & P2 & Hr & ->).
  destruct (Inv_sized s W t (length (cells t)) (breadth (cells t)) n HI) as (S1 & S2 & S3); try done; [by rewrite cells_length|].
  assert (S4 : expanded s) by (exists t; split_and!; try done; by eapply Inv_table_node).
  destruct (fits_run o s _ _ S1 S2 S3 Hs) as (s2 & E2 & _ & _ & (t2 & n2 & Z1 & Z2 & Z3 & Z4 & Z5 & Z6 & Z7 & Z8)).
  pose proof (fits_clean o s _ _ S1 S2 S3 S4 Hs Hcl) as (t3 & Y1 & Y2 & Y3). rewrite E in E2, Y1. injection E2 as <-. cbn [fst] in Y1.
  rewrite (Inv_table_node _ _ _ HI') in Z1, Y1. injection Z1 as <-. injection Y1 as <-.
  assert (Hb : breadth (cells t') = (size_after o (length (cells t), breadth (cells t))).2).
  { apply cells_width; [done|]. intros En. rewrite En in Z2. cbn [length] in Z2. rewrite <- Z2 in Z5. lia. }
  apply tabular_parts. rewrite <- Hc, Hb. split_and!; try done; try (by apply HI').
  - rewrite Ha in Z7. by injection Z7 as ->.
  - rewrite (cells_length t'). by rewrite Z2.
Qed.
End book.
