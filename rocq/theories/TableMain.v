(** Facts for the theorems about tables. *)
From Verif Require Export TableHist.

Local Arguments label : simpl never.
Local Arguments edit : simpl never.
Local Arguments sub : simpl never.
Local Arguments ldesc : simpl never.
Local Arguments ids : simpl never.

Section main.
Context `{U : Unicode}.

(** ** names *)
Lemma lstrip_split s : exists p, s = p ++ lstrip s /\ Forall (fun c => u_space c = true) p.
Proof.
  induction s as [|c s (p & E & H)]; [by exists []|]. cbn. destruct (u_space c) eqn:Ec.
  - exists (c :: p). cbn. rewrite <- E. split; [done|]. by constructor.
  - by exists [].
Qed.
Lemma lstrip_head s c : head (lstrip s) = Some c -> u_space c = false.
Proof. induction s as [|d s IH]; [done|]. cbn. destruct (u_space d) eqn:E; [done|]. by intros [= <-]. Qed.
Lemma head_reverse {A} (l : list A) : head (reverse l) = last l.
Proof. induction l as [|x l _] using rev_ind; [done|]. by rewrite reverse_snoc, last_snoc. Qed.
Lemma last_app_ne {A} (l r : list A) : r <> [] -> last (l ++ r) = last r.
Proof. induction r as [|x r _] using rev_ind; [done|]. intros _. by rewrite app_assoc, !last_snoc. Qed.
Lemma strip_split s : exists p q, s = p ++ py_strip s ++ q /\
  Forall (fun c => u_space c = true) p /\ Forall (fun c => u_space c = true) q /\
  (forall c, head (py_strip s) = Some c -> u_space c = false) /\
  (forall c, last (py_strip s) = Some c -> u_space c = false).
Proof.
  unfold py_strip. destruct (lstrip_split s) as (p & E1 & H1).
  destruct (lstrip_split (reverse (lstrip s))) as (q & E2 & H2).
  set (m := lstrip (reverse (lstrip s))) in *.
  assert (E3 : lstrip s = reverse m ++ reverse q).
  { rewrite <- reverse_app, <- E2. by rewrite reverse_involutive. }
  exists p, (reverse q). split_and!.
  - by rewrite <- E3.
  - done.
  - by rewrite Forall_reverse.
  - intros c Hc. apply (lstrip_head s). rewrite E3. destruct (reverse m); [done|]. exact Hc.
  - intros c Hc. rewrite <- head_reverse, reverse_involutive in Hc. by eapply lstrip_head.
Qed.
Lemma strip_strip s : py_strip (py_strip s) = py_strip s.
Proof. destruct (strip_split s) as (p & q & _ & _ & _ & H1 & H2). by apply py_strip_id. Qed.

(** the characters that are replaced *)
Definition broken : list N := [9; 13; 39; 34]%N.
Definition subst1 (c : N) : N := if decide (c ∈ broken) then 32%N else c.
Lemma subst_all s : foldl (fun s subst => replace_char subst 32%N s) s broken = map subst1 s.
Proof.
  unfold broken. cbn [foldl]. unfold replace_char. rewrite !map_map. apply map_ext. intros c. unfold subst1, broken.
  destruct (decide (c = 9%N)) as [->|H1]; [reflexivity|]. destruct (decide (c = 13%N)) as [->|H2]; [reflexivity|].
  destruct (decide (c = 39%N)) as [->|H3]; [reflexivity|]. destruct (decide (c = 34%N)) as [->|H4]; [reflexivity|].
  rewrite decide_False; [done|]. rewrite !elem_of_cons, elem_of_nil. naive_solver.
Qed.
Lemma subst1_clean c : c ∉ broken -> subst1 c = c.
Proof. intros H. unfold subst1. by rewrite decide_False. Qed.
Lemma subst1_not c : subst1 c ∉ broken.
Proof. unfold subst1. case_decide; [|done]. by apply (bool_decide_unpack _). Qed.
Lemma normalize_clean v : Forall (fun c => c ∉ broken) (normalize_sheet_name v).
Proof.
  unfold normalize_sheet_name. fold broken. rewrite subst_all. destruct (strip_split (map subst1 v)) as (p & q & E & _).
  assert (H : Forall (fun c => c ∉ broken) (map subst1 v)). { apply Forall_fmap, Forall_true. intros c. apply subst1_not. }
  rewrite E in H. apply Forall_app in H as [_ H]. by apply Forall_app in H as [H _].
Qed.
Lemma normalize_id v : Forall (fun c => c ∉ broken) v ->
  (forall c, head v = Some c -> u_space c = false) -> (forall c, last v = Some c -> u_space c = false) ->
  normalize_sheet_name v = v.
Proof.
  intros H H1 H2. unfold normalize_sheet_name. fold broken. rewrite subst_all.
  assert (map subst1 v = v) as ->; [|by apply py_strip_id].
  clear H1 H2. induction H as [|c v Hc _ IH]; [done|]. cbn. by rewrite IH, subst1_clean.
Qed.
Lemma normalize_idem v : normalize_sheet_name (normalize_sheet_name v) = normalize_sheet_name v.
Proof.
  destruct (strip_split (foldl (fun s subst => replace_char subst 32%N s) v broken)) as (p & q & _ & _ & _ & H1 & H2).
  by apply normalize_id; [apply normalize_clean|..].
Qed.

(** ** index positions *)
Lemma at_py n i k : at_index n i k <-> py_index n i = Some k.
Proof.
  unfold at_index, py_index. split.
  - intros [[H ->]|[H ->]]; [by rewrite decide_True|]. rewrite decide_False by lia. rewrite decide_True by done. f_equal. lia.
  - case_decide as H; [intros [= <-]; by left|]. case_decide as H2; [|done]. intros [= <-]. right. split; [done|]. f_equal. lia.
Qed.

(** ** whole columns *)
Lemma rect_wid n t : rect n t -> doc_rows t <> [] -> wid t = n.
Proof. intros H Hne. rewrite wid_parts. unfold rect in H. destruct (doc_rows t); [done|]. by apply Forall_cons in H as [? _]. Qed.
Lemma rect_inserted n k m l l' : Forall (fun p => length (p_kids p) = n) l -> k <= n ->
  Forall2 (cells_inserted k m) l l' -> Forall (fun p => length (p_kids p) = n + m) l'.
Proof.
  intros H Hk H2. revert H. induction H2 as [|p p' l l' (cs & Hc & _ & ->) _ IH]; intros H; [constructor|].
  apply Forall_cons in H as [H0 H]. constructor; [|by apply IH]. cbn. rewrite !app_length, take_length, drop_length. lia.
Qed.
Lemma rect_deleted n k m l l' : Forall (fun p => length (p_kids p) = n) l -> k + m <= n ->
  Forall2 (cells_deleted k m) l l' -> Forall (fun p => length (p_kids p) = n - m) l'.
Proof.
  intros H Hk H2. revert H. induction H2 as [|p p' l l' -> _ IH]; intros H; [constructor|].
  apply Forall_cons in H as [H0 H]. constructor; [|by apply IH]. cbn. rewrite !app_length, take_length, drop_length. lia.
Qed.

Lemma append_columns_ok s W t n : Inv s W t -> doc_cols t <> [] -> (1 <= n)%Z ->
  exists s', append_columns n s = (s', Ok tt) /\
    Rch s W t (fun t' => Forall2 (fun p p' => cells_inserted (length (p_kids p)) (Z.to_nat n) p p') (doc_rows t) (doc_rows t') /\
      exists ps, length ps = Z.to_nat n /\ Forall is_empty_col ps /\ doc_cols t' = doc_cols t ++ ps) s'.
Proof.
  intros HI Hc Hn. destruct (append_cells_ok s W t n HI Hn) as (s1 & E1 & HR1).
  unfold append_columns, abind. rewrite E1. pose proof HR1 as (W1 & t1 & HI1 & G1 & R1 & N1 & D1 & D2).
  destruct (append_cols_ok s1 W1 t1 n HI1) as (s2 & E2 & HR2).
  - intros E. apply Hc. rewrite <- D2, <- parts_cols. unfold parts. by rewrite E.
  - done.
  - exists s2. split; [done|]. destruct HR2 as (W2 & t2 & HI2 & G2 & R2 & N2 & ps & P1 & P2 & _ & P4 & P5).
    exists W2, t2. split_and!; try done; [by eapply grow_trans|congruence|lia|congruence|].
    exists ps. by rewrite P4, D2.
Qed.
Lemma insert_columns_ok s W t i n k : Inv s W t -> rect (length (doc_cols t)) t -> doc_rows t <> [] ->
  py_index (length (doc_cols t)) i = Some k -> (1 <= n)%Z ->
  exists s', insert_columns i n s = (s', Ok tt) /\
    Rch s W t (fun t' => Forall2 (cells_inserted k (Z.to_nat n)) (doc_rows t) (doc_rows t') /\
      exists ps, length ps = Z.to_nat n /\ Forall is_empty_col ps /\
        doc_cols t' = take k (doc_cols t) ++ ps ++ drop k (doc_cols t)) s'.
Proof.
  intros HI Hr Hne Hk Hn. pose proof (py_index_lt _ _ _ Hk) as Hkl.
  destruct (insert_cells_ok s W t i n k HI Hn) as (s1 & E1 & HR1).
  { by rewrite (rect_wid _ _ Hr Hne). }
  { eapply Forall_impl; [exact Hr|]. cbn. intros p ->. lia. }
  unfold insert_columns, abind. rewrite E1. pose proof HR1 as (W1 & t1 & HI1 & G1 & R1 & N1 & D1 & D2).
  destruct (insert_cols_ok s1 W1 t1 i n k HI1) as (s2 & E2 & HR2); [by rewrite D2|done|].
  exists s2. split; [done|]. destruct HR2 as (W2 & t2 & HI2 & G2 & R2 & N2 & ps & P1 & P2 & _ & P4 & P5).
  exists W2, t2. split_and!; try done; [by eapply grow_trans|congruence|lia|congruence|].
  exists ps. by rewrite P4, D2.
Qed.
Lemma delete_columns_ok s W t i n k : Inv s W t -> rect (length (doc_cols t)) t -> doc_rows t <> [] ->
  py_index (length (doc_cols t)) i = Some k -> (1 <= n < Z.of_nat (length (doc_cols t)))%Z -> k + Z.to_nat n <= length (doc_cols t) ->
  exists s', delete_columns i n s = (s', Ok tt) /\
    Rch s W t (fun t' => Forall2 (cells_deleted k (Z.to_nat n)) (doc_rows t) (doc_rows t') /\
      doc_cols t' = take k (doc_cols t) ++ drop (k + Z.to_nat n) (doc_cols t)) s'.
Proof.
  intros HI Hr Hne Hk Hn Hkn. pose proof (rect_wid _ _ Hr Hne) as Hw.
  destruct (delete_cells_ok s W t i n k HI) as (s1 & E1 & HR1); [by rewrite Hw|by rewrite Hw| |].
  { eapply Forall_impl; [exact Hr|]. cbn. intros p ->. lia. }
  unfold delete_columns, abind. rewrite E1. pose proof HR1 as (W1 & t1 & HI1 & G1 & R1 & N1 & D1 & D2).
  destruct (delete_cols_ok s1 W1 t1 i n k HI1) as (s2 & E2 & HR2); [by rewrite D2|lia|by rewrite D2|].
  exists s2. split; [done|]. destruct HR2 as (W2 & t2 & HI2 & G2 & R2 & N2 & P4 & P5).
  exists W2, t2. split_and!; try done; [by eapply grow_trans|congruence|lia|congruence|].
  by rewrite P4, D2.
Qed.

(** ** put_cell *)
Lemma put_cell_length t i j c : length (put_cell t i j c) = length (doc_rows t).
Proof. unfold put_cell. destruct (doc_rows t !! i); [|done]. apply insert_length. Qed.
Lemma put_cell_rect t i j c n : rect n t -> Forall (fun p => length (p_kids p) = n) (put_cell t i j c).
Proof.
  intros H. unfold put_cell. destruct (doc_rows t !! i) as [p|] eqn:E; [|done].
  apply Forall_insert; [done|]. cbn. rewrite insert_length. unfold rect in H. rewrite Forall_forall in H. apply H. by eapply elem_of_list_lookup_2.
Qed.
Lemma cell_at_rows t t' i j : doc_rows t' = doc_rows t -> cell_at t' i j = cell_at t i j.
Proof. unfold cell_at. by intros ->. Qed.
Lemma cell_at_put t t' i j c c0 : doc_rows t' = put_cell t i j c -> cell_at t i j = Some c0 -> cell_at t' i j = Some c.
Proof.
  unfold cell_at, put_cell. destruct (doc_rows t !! i) as [p|] eqn:E; [|done]. intros -> Hc.
  rewrite list_lookup_insert by (by eapply lookup_lt_Some). cbn. apply list_lookup_insert. by eapply lookup_lt_Some.
Qed.
Lemma cell_at_other t t' i j c i' j' : doc_rows t' = put_cell t i j c -> (i', j') <> (i, j) -> cell_at t' i' j' = cell_at t i' j'.
Proof.
  unfold cell_at, put_cell. destruct (doc_rows t !! i) as [p|] eqn:E; [|by intros ->]. intros -> Hne.
  destruct (decide (i' = i)) as [->|Hi].
  - rewrite list_lookup_insert by (by eapply lookup_lt_Some). rewrite E. cbn. apply list_lookup_insert_ne. congruence.
  - by rewrite list_lookup_insert_ne by done.
Qed.
Lemma cell_at_rect n t i j : rect n t -> i < length (doc_rows t) -> j < n -> exists c, cell_at t i j = Some c.
Proof.
  intros H Hi Hj. unfold cell_at. destruct (lookup_lt_is_Some_2 _ _ Hi) as [p Hp]. rewrite Hp.
  unfold rect in H. rewrite Forall_forall in H. apply lookup_lt_is_Some_2. rewrite H; [done|]. by eapply elem_of_list_lookup_2.
Qed.

(** ** sizes *)
Lemma sized_Inv s nr nc : sane s -> in_step s -> sized s nr nc -> exists W t o, Inv s W t /\
  length (doc_rows t) = nr /\ length (doc_cols t) = nc /\ rect nc t /\ 1 <= nr /\ 1 <= nc /\
  attrs (pl (root t)) !! "table:name" = Some o /\ normalize_sheet_name o <> [].
Proof.
  intros Hs Hi (t & o & Ht & H). destruct (sane_Inv s Hs Hi) as (W & t' & HI & Ht'). rewrite Ht in Ht'. injection Ht' as <-.
  by exists W, t, o.
Qed.
Lemma Inv_sized s W t nr nc o : Inv s W t -> length (doc_rows t) = nr -> length (doc_cols t) = nc -> rect nc t -> 1 <= nr -> 1 <= nc ->
  attrs (pl (root t)) !! "table:name" = Some o -> normalize_sheet_name o <> [] -> sane s /\ in_step s /\ sized s nr nc.
Proof.
  intros HI H1 H2 H3 H4 H5 H6 H7. destruct (Inv_sane s W t HI). split_and!; try done.
  exists t, o. split_and!; try done. by eapply Inv_table_node.
Qed.
Lemma Rch_sized s W t (Q : node -> Prop) s' nr nc o : Rch s W t Q s' ->
  attrs (pl (root t)) !! "table:name" = Some o -> normalize_sheet_name o <> [] -> 1 <= nr -> 1 <= nc ->
  (forall t', Q t' -> length (doc_rows t') = nr /\ length (doc_cols t') = nc /\ rect nc t') ->
  sane s' /\ in_step s' /\ sized s' nr nc.
Proof.
  intros (W' & t' & HI & G & R & N & HQ) Ho Hn H1 H2 H. destruct (H t' HQ) as (? & ? & ?).
  eapply (Inv_sized s' W' t' nr nc o); try done. by rewrite R.
Qed.
Lemma empty_rows_rect n l : Forall (is_empty_row n) l -> Forall (fun p => length (p_kids p) = n) l.
Proof. intros H. eapply Forall_impl; [exact H|]. intros p. apply is_empty_row_len. Qed.

Lemma fits_run o s nr nc : sane s -> in_step s -> sized s nr nc -> fits o s nr nc ->
  exists s', run_op o s = (s', Ok tt) /\ sane s' /\ in_step s' /\ sized s' (size_after o (nr, nc)).1 (size_after o (nr, nc)).2.
Proof.
  intros Hs Hi Hz Hf. destruct (sized_Inv s nr nc Hs Hi Hz) as (W & t & nm & HI & L1 & L2 & Hr & P1 & P2 & A1 & A2).
  assert (Hne : doc_rows t <> []) by (destruct (doc_rows t); cbn in *; [lia|done]).
  assert (Hnc : doc_cols t <> []) by (destruct (doc_cols t); cbn in *; [lia|done]).
  assert (Hw : wid t = nc) by (by apply rect_wid).
  destruct o; cbn [fits run_op size_after fst snd] in *.
  - destruct (append_rows_ok s W t n HI) as (s' & E & HR); [|done|].
    { intros E. apply Hne. rewrite <- parts_rows. unfold parts. by rewrite E. }
    exists s'. split; [done|]. eapply Rch_sized; try done; [lia|]. intros t' (ps & Q1 & Q2 & _ & Q3 & Q4).
    unfold rect. rewrite Q3, Q4, app_length, Q1, L1. split_and!; try done. apply Forall_app. split; [done|].
    apply empty_rows_rect. by rewrite <- Hw.
  - destruct Hf as (Hn & k & Hk%at_py). rewrite <- L1 in Hk. destruct (insert_rows_ok s W t i n k HI Hk Hn) as (s' & E & HR).
    exists s'. split; [done|]. eapply Rch_sized; try done; [lia|]. intros t' (ps & Q1 & Q2 & _ & Q3 & Q4).
    apply py_index_lt in Hk. unfold rect. rewrite Q3, Q4, !app_length, Q1, take_length, drop_length. split_and!; try done; [lia|].
    apply Forall_app. split; [by apply Forall_take|]. apply Forall_app. split; [|by apply Forall_drop].
    apply empty_rows_rect. by rewrite <- Hw.
  - destruct Hf as (Hn & k & Hk%at_py & Hkn). rewrite <- L1 in Hk, Hkn, Hn. destruct (delete_rows_ok s W t i n k HI Hk Hn Hkn) as (s' & E & HR).
    exists s'. split; [done|]. eapply Rch_sized; try done; [lia|]. intros t' (Q3 & Q4).
    unfold rect. rewrite Q3, Q4, !app_length, take_length, drop_length. split_and!; try done; [lia|].
    apply Forall_app. split; [by apply Forall_take|by apply Forall_drop].
  - destruct (append_columns_ok s W t n HI Hnc Hf) as (s' & E & HR).
    exists s'. split; [done|]. eapply Rch_sized; try done; [lia|]. intros t' (Q1 & ps & Q2 & Q3 & Q4).
    split_and!.
    + by rewrite <- (Forall2_length _ _ _ Q1).
    + rewrite Q4, app_length. lia.
    + apply (rect_inserted nc nc (Z.to_nat n) (doc_rows t)); [done|done|].
      eapply Forall2_impl; [|by intros ? ? H]. apply Forall2_same_length_lookup. split; [by eapply Forall2_length|].
      intros a p p' Hp Hp'. pose proof (Forall2_lookup_lr _ _ _ _ _ _ Q1 Hp Hp') as Hq. cbn in Hq.
      unfold rect in Hr. rewrite Forall_forall in Hr. rewrite (Hr p) in Hq; [done|by eapply elem_of_list_lookup_2].
  - destruct Hf as (Hn & k & Hk%at_py). rewrite <- L2 in Hk. destruct (insert_columns_ok s W t i n k HI) as (s' & E & HR); try done; [by rewrite L2|].
    exists s'. split; [done|]. apply py_index_lt in Hk. eapply Rch_sized; try done; [lia|]. intros t' (Q1 & ps & Q2 & Q3 & Q4).
    split_and!.
    + by rewrite <- (Forall2_length _ _ _ Q1).
    + rewrite Q4, !app_length, take_length, drop_length. lia.
    + eapply rect_inserted; [done| |done]. lia.
  - destruct Hf as (Hn & k & Hk%at_py & Hkn). rewrite <- L2 in Hk, Hkn, Hn. destruct (delete_columns_ok s W t i n k HI) as (s' & E & HR); try done; [by rewrite L2|].
    exists s'. split; [done|]. eapply Rch_sized; try done; [lia|]. intros t' (Q1 & Q4).
    split_and!.
    + by rewrite <- (Forall2_length _ _ _ Q1).
    + rewrite Q4, !app_length, take_length, drop_length. lia.
    + eapply rect_deleted; [done| |done]. lia.
  - destruct Hf as ((i & j & Hi1%at_py & Hj%at_py) & Hp & Htag). destruct pos as [row col]. cbn in Hi1, Hj.
    destruct (cell_at_rect nc t i j Hr) as [c Hc]; [rewrite L1; by eapply py_index_lt|by eapply py_index_lt|].
    destruct (set_new_pos s W t row col i j e c HI) as (s' & en & E & _ & _ & HR); try done; [by rewrite L1|by rewrite Hw|].
    exists s'. split; [done|]. eapply Rch_sized; try done. intros t' [Q1 Q2]. unfold rect. rewrite Q1, Q2, put_cell_length.
    split_and!; try done. by apply put_cell_rect.
  - destruct Hf as ((i & j & Hi1%at_py & Hj%at_py) & t0 & en & Ht0 & Hsub & Hp & Htag & Hx & Hnt). destruct pos as [row col]. cbn in Hi1, Hj.
    rewrite (Inv_table_node _ _ _ HI) in Ht0. injection Ht0 as <-.
    destruct (cell_at_rect nc t i j Hr) as [c Hc]; [rewrite L1; by eapply py_index_lt|by eapply py_index_lt|].
    destruct (set_cell_pos s W t row col i j x en c HI) as (s' & W1 & t' & E & HI' & _ & R & _ & Q1 & Q2); try done; [by rewrite L1|by rewrite Hw|].
    exists s'. split; [done|]. eapply (Inv_sized s' _ t' nr nc nm HI'); try done.
    + by rewrite Q1, put_cell_length.
    + by rewrite Q2.
    + unfold rect. rewrite Q1. by apply put_cell_rect.
    + by rewrite R.
  - destruct Hf as ((i & j & Hi1%at_py & Hj%at_py) & Hp). destruct pos as [row col]. cbn in Hi1, Hj.
    destruct (cell_at_rect nc t i j Hr) as [c Hc]; [rewrite L1; by eapply py_index_lt|by eapply py_index_lt|].
    destruct (cell_at_row _ _ _ _ Hc) as (r & Hr1 & Hr2).
    destruct (write_cell_step s W t i r j c (row, col) f HI Hr1 Hr2) as (s' & c' & E & _ & _ & HR).
    + rewrite (get_cell_eq s W t row col i j HI); [by rewrite Hc|by rewrite L1|by rewrite Hw].
    + apply Hp. apply cellish_plain. pose proof (row_cellish s W t i r HI Hr1) as Hcc. rewrite Forall_forall in Hcc. apply Hcc.
      by eapply elem_of_list_lookup_2.
    + exists s'. split; [done|]. eapply Rch_sized; try done. intros t' [Q1 Q2]. unfold rect. rewrite Q1, Q2, put_cell_length.
      split_and!; try done. by apply put_cell_rect.
  - destruct size as [r c]. cbn in Hf. destruct Hf as [F1 F2].
    destruct (reset_ok s W t nm r c HI A1 A2 F1 F2) as (s' & W' & t' & E & HI' & _ & R & (G1 & G2 & G3 & _) & _).
    exists s'. split; [done|]. cbn. eapply (Inv_sized s' W' t' _ _ (normalize_sheet_name nm)); try done; try lia.
    + by apply empty_rows_rect.
    + rewrite R. cbn. apply lookup_singleton.
    + by rewrite normalize_idem.
  - rewrite (clear_eq s W t HI).
    destruct (reset_ok s W t nm (Z.of_nat (length (doc_rows t))) (Z.of_nat (wid t)) HI A1 A2) as (s' & W' & t' & E & HI' & _ & R & (G1 & G2 & G3 & _) & _); [lia|lia|].
    rewrite !Nat2Z.id, Hw in *.
    exists s'. split; [done|]. cbn. eapply (Inv_sized s' W' t' _ _ (normalize_sheet_name nm)); try done; try lia.
    + by apply empty_rows_rect.
    + rewrite R. cbn. apply lookup_singleton.
    + by rewrite normalize_idem.
  - destruct (set_name_ok s W t v HI Hf) as (s' & E & HI' & _).
    exists s'. split; [done|]. eapply (Inv_sized s' W _ nr nc (normalize_sheet_name v) HI'); try done.
    + unfold doc_rows. fold ROW. by rewrite renamed_ldesc.
    + unfold doc_cols. fold COL. by rewrite renamed_ldesc.
    + unfold rect, doc_rows. fold ROW. by rewrite renamed_ldesc.
    + destruct t. cbn. apply lookup_insert.
    + by rewrite normalize_idem.
Qed.
End main.
