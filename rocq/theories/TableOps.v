(** Whole operations: any arguments, then columns and cells by position. *)
From Verif Require Export TableCellProofs.

Local Arguments label : simpl never.
Local Arguments edit : simpl never.
Local Arguments sub : simpl never.
Local Arguments ldesc : simpl never.
Local Arguments ids : simpl never.

(** ** any arguments, any outcome *)
Definition Any {A} (m : act st A) : Prop :=
  forall s W t, Inv s W t -> Rch s W t (fun _ => True) (m s).1.
Definition T_ : node -> Prop := fun _ => True.

Lemma Any_bind {A B} (m : act st A) (f : A -> act st B) : Any m -> (forall a, Any (f a)) -> Any (abind m f).
Proof.
  intros Hm Hf s W t HI. unfold abind. pose proof (Hm s W t HI) as H. destruct (m s) as [s1 [a|e]]; cbn in *; [|done].
  eapply Rch_trans; [done|]. intros W1 t1 HI1 _ _. by apply Hf.
Qed.
Lemma Any_same {A} (m : act st A) : (forall s W t, Inv s W t -> (m s).1 = s) -> Any m.
Proof. intros H s W t HI. rewrite (H s W t HI). by apply Rch_refl. Qed.
Lemma Any_ret {A} (a : A) : Any (aret a). Proof. by apply Any_same. Qed.
Lemma Any_raise {A} e : Any (araise (A := A) e). Proof. by apply Any_same. Qed.
Lemma Any_repeat n body : Any body -> Any (arepeat n body).
Proof. intros H. induction n as [|n IH]; [apply Any_ret|]. cbn. by apply Any_bind. Qed.
Lemma Any_ncols : Any ncols.
Proof. apply Any_same. intros s W t HI. by rewrite (ncols_eq s W t HI). Qed.
Lemma Any_nrows : Any nrows.
Proof. by apply Any_same. Qed.
Lemma Rch_nxt s W t n : Inv s W t -> (nxt s <= n)%N -> Rch s W t (fun _ => True) (set_nxt n s).
Proof. intros HI Hn. exists W, t. split_and!; try done. by apply Inv_nxt. Qed.
Lemma Rch_True s W t Q s' : Rch s W t Q s' -> Rch s W t (fun _ => True) s'.
Proof. intros H. by eapply Rch_impl. Qed.

Lemma Any_append_row : Any append_rows_body.
Proof.
  intros s W t HI. destruct (decide (ldesc ROW t = [])) as [E|E].
  - unfold append_rows_body, abind. rewrite (ncols_eq _ _ _ HI).
    destruct (label_facts (build_new_row (Z.of_nat (wid t))) (nxt s)) as (new & n' & El & _ & _ & _ & _ & Hlt).
    unfold alloc. rewrite El. rewrite (row_ref_eq _ W t) by (apply Inv_nxt; [done|lia]). rewrite E. cbn.
    apply Rch_nxt; [done|lia].
  - destruct (append_row_step s W t HI E) as (s' & -> & HR). by eapply Rch_True.
Qed.
Lemma Any_append_rows n : Any (append_rows n).
Proof. unfold append_rows, ctl_append_rows. case_decide; [apply Any_raise|]. apply Any_repeat, Any_append_row. Qed.

Lemma Any_insert_row i : Any (insert_rows_body i).
Proof.
  intros s W t HI. destruct (py_index (length (doc_rows t)) i) as [k|] eqn:E.
  - destruct (insert_row_step s W t i k HI E) as (s' & -> & HR). by eapply Rch_True.
  - unfold insert_rows_body, abind. rewrite (ncols_eq _ _ _ HI).
    destruct (label_facts (build_new_row (Z.of_nat (wid t))) (nxt s)) as (new & n' & El & _ & _ & _ & _ & Hlt).
    unfold alloc. rewrite El. rewrite (row_ref_eq _ W t) by (apply Inv_nxt; [done|lia]).
    unfold doc_rows in E. fold ROW in E. rewrite map_length in E. unfold py_get. rewrite E. cbn.
    apply Rch_nxt; [done|lia].
Qed.
Lemma Any_insert_rows i n : Any (insert_rows i n).
Proof. unfold insert_rows, ctl_insert_rows. case_decide; [apply Any_raise|]. apply Any_repeat, Any_insert_row. Qed.

Lemma pop_row_index index s k : py_index (length (rowc (obj s))) index = Some k ->
  pop_row index s = pop_row (Z.of_nat k) s.
Proof.
  intros E. pose proof (py_index_lt _ _ _ E) as Hk. pose proof (py_index_nat _ _ Hk) as E2.
  unfold pop_row, abind, aget. rewrite E, E2. unfold alift, py_get. rewrite E, E2. done.
Qed.
Lemma Any_delete_row i : Any (delete_rows_body i).
Proof.
  intros s W t HI. destruct (py_index (length (doc_rows t)) i) as [k|] eqn:E.
  - destruct (delete_row_step s W t k HI) as (s' & E2 & HR); [by eapply py_index_lt|].
    unfold delete_rows_body, abind in *. rewrite (pop_row_index i s k) by (by rewrite (rowc_length _ _ _ HI)).
    rewrite E2. by eapply Rch_True.
  - unfold delete_rows_body, pop_row, abind, aget. rewrite (rowc_length _ _ _ HI), E. by apply Rch_refl.
Qed.
Lemma Any_delete_rows i n : Any (delete_rows i n).
Proof.
  unfold delete_rows, ctl_delete_rows. apply Any_bind; [apply Any_nrows|]. intros m. case_decide; [apply Any_raise|].
  apply Any_repeat. apply Any_delete_row.
Qed.

Lemma Any_append_col : Any append_cols_body.
Proof.
  intros s W t HI. destruct (decide (ldesc COL t = [])) as [E|E].
  - unfold append_cols_body, abind.
    destruct (label_facts new_empty_column (nxt s)) as (new & n' & El & _ & _ & _ & _ & Hlt).
    unfold alloc. rewrite El. rewrite (col_ref_eq _ W t) by (apply Inv_nxt; [done|lia]). rewrite E. cbn.
    apply Rch_nxt; [done|lia].
  - destruct (append_col_step s W t HI E) as (s' & -> & HR). by eapply Rch_True.
Qed.
Lemma Any_insert_col i : Any (insert_cols_body i).
Proof.
  intros s W t HI. destruct (py_index (length (doc_cols t)) i) as [k|] eqn:E.
  - destruct (insert_col_step s W t i k HI E) as (s' & -> & HR). by eapply Rch_True.
  - unfold insert_cols_body, abind.
    destruct (label_facts new_empty_column (nxt s)) as (new & n' & El & _ & _ & _ & _ & Hlt).
    unfold alloc. rewrite El. rewrite (col_ref_eq _ W t) by (apply Inv_nxt; [done|lia]).
    unfold doc_cols in E. fold COL in E. rewrite map_length in E. unfold py_get. rewrite E. cbn.
    apply Rch_nxt; [done|lia].
Qed.
Lemma delete_cols_index s W t i k : Inv s W t -> py_index (length (doc_cols t)) i = Some k ->
  delete_cols_body i s = delete_cols_body (Z.of_nat k) s.
Proof.
  intros HI E. pose proof (py_index_lt _ _ _ E) as Hk. pose proof (py_index_nat _ _ Hk) as E2.
  rewrite <- (colc_length _ _ _ HI) in E, E2.
  unfold delete_cols_body, abind. assert (Ec : col_ref i s = col_ref (Z.of_nat k) s).
  { unfold col_ref, abind, aget, alift, py_get. by rewrite E, E2. }
  rewrite Ec. destruct (col_ref (Z.of_nat k) s) as [s1 [c|e]] eqn:E1; [|done].
  assert (s1 = s) as -> by (unfold col_ref, abind, aget, alift in E1; by injection E1).
  destruct (remove_node c s) as [s2 [u|e]] eqn:E3; [|done].
  assert (Eo : obj s2 = obj s).
  { unfold remove_node in E3. case_decide; [by injection E3 as <-|]. destruct (sub c (store s)); [|done]. by injection E3 as <-. }
  unfold aget. rewrite Eo, E, E2. done.
Qed.
Lemma Any_delete_col i : Any (delete_cols_body i).
Proof.
  intros s W t HI. destruct (py_index (length (doc_cols t)) i) as [k|] eqn:E.
  - destruct (delete_col_step s W t k HI) as (s' & E2 & HR); [by eapply py_index_lt|].
    rewrite (delete_cols_index s W t i k) by done. rewrite E2. by eapply Rch_True.
  - unfold delete_cols_body, abind. rewrite (col_ref_eq _ _ _ _ HI).
    unfold doc_cols in E. fold COL in E. rewrite map_length in E. unfold py_get. rewrite E. by apply Rch_refl.
Qed.
Lemma Any_append_cols n : Any (ctl_append_cols n).
Proof. unfold ctl_append_cols. case_decide; [apply Any_raise|]. apply Any_repeat, Any_append_col. Qed.
Lemma Any_insert_cols i n : Any (ctl_insert_cols i n).
Proof.
  unfold ctl_insert_cols. case_decide; [apply Any_raise|]. apply Any_bind; [by apply Any_same|]. intros s0.
  apply Any_repeat, Any_insert_col.
Qed.
Lemma Any_delete_cols i n : Any (ctl_delete_cols i n).
Proof.
  unfold ctl_delete_cols. case_decide; [apply Any_raise|]. apply Any_bind; [by apply Any_same|]. intros s0.
  apply Any_repeat, Any_delete_col.
Qed.

(** ** the same for the cells of all rows *)
Definition same_rows (t t' : node) : Prop := map p_id (doc_rows t') = map p_id (doc_rows t).
Definition AnyR (x : N) {A} (m : act st A) : Prop :=
  forall s W t, Inv s W t -> x ∈ map p_id (doc_rows t) -> Rch s W t (same_rows t) (m s).1.

Lemma AnyR_repeat x n body : AnyR x body -> AnyR x (arepeat n body).
Proof.
  intros H. induction n as [|n IH]; intros s W t HI Hx; [by apply Rch_refl|].
  cbn. unfold abind. pose proof (H s W t HI Hx) as HR. destruct (body s) as [s1 [a|e]]; cbn in *; [|done].
  eapply Rch_trans; [done|]. intros W1 t1 HI1 Hs _. cbn in Hs. eapply Rch_impl; [apply IH|]; [done|by rewrite Hs|].
  intros t2 H2. unfold same_rows in *. congruence.
Qed.
Lemma AnyR_iter s W t body : Inv s W t -> (forall x, AnyR x (body x)) ->
  Rch s W t (fun _ => True) (aiter (rowc (obj s)) body s).1.
Proof.
  intros HI Hb. assert (El : rowc (obj s) = map p_id (doc_rows t)) by (rewrite (i_rows _ _ _ HI); symmetry; apply parts_ids).
  rewrite El. assert (Hsub : forall x, x ∈ map p_id (doc_rows t) -> x ∈ map p_id (doc_rows t)) by done.
  revert Hsub. generalize (map p_id (doc_rows t)) at 1 3 as l. clear El.
  intros l Hsub. enough (Rch s W t (same_rows t) (aiter l body s).1) by (by eapply Rch_True).
  revert s W t HI Hsub. induction l as [|x l IH]; intros s W t HI Hsub; [by apply Rch_refl|].
  cbn. unfold abind. pose proof (Hb x s W t HI (Hsub x (elem_of_list_here _ _))) as HR.
  destruct (body x s) as [s1 [a|e]]; cbn in *; [|done].
  eapply Rch_trans; [done|]. intros W1 t1 HI1 Hs _. cbn in Hs. eapply Rch_impl; [apply IH|].
  - done.
  - intros y Hy. rewrite Hs. apply Hsub. by right.
  - intros t2 H2. unfold same_rows in *. congruence.
Qed.
Lemma Any_iter_rows body : (forall x, AnyR x (body x)) -> Any (let! s := aget in aiter (rowc (obj s)) body).
Proof. intros H s W t HI. unfold abind, aget. by apply AnyR_iter. Qed.

Lemma row_by_id t x : x ∈ map p_id (doc_rows t) -> exists i r, ldesc ROW t !! i = Some r /\ nid r = x.
Proof.
  intros Hx. change (map p_id (doc_rows t)) with (p_id <$> doc_rows t) in Hx.
  apply elem_of_list_fmap in Hx as (p & -> & Hp). apply elem_of_list_lookup in Hp as [i Hi].
  destruct (doc_rows_lookup _ _ _ Hi) as (r & Hr & ->). by exists i, r.
Qed.
Lemma map_p_id_insert t t' i p : ldesc ROW t !! i = Some p ->
  forall ks, doc_rows t' = <[i := with_kids (part_of p) ks]> (doc_rows t) -> same_rows t t'.
Proof.
  intros Hi ks E. unfold same_rows. rewrite E. change (map p_id (<[i:=with_kids (part_of p) ks]> (doc_rows t))) with (p_id <$> (<[i:=with_kids (part_of p) ks]> (doc_rows t))).
  rewrite list_fmap_insert. apply list_insert_id. rewrite list_lookup_fmap. unfold doc_rows. fold ROW.
  rewrite list_lookup_fmap, Hi. done.
Qed.

Lemma AnyR_new_cell x (g : node -> list node -> list node) :
  (forall c l, Permutation (g c l) (c :: l)) ->
  AnyR x (let! c := alloc new_empty_cell in mod_kids x (g c)).
Proof.
  intros Hg s W t HI Hx. destruct (row_by_id _ _ Hx) as (i & r & Hi & <-).
  destruct (new_cell_step s W t i r g HI Hi) as (c & s' & E & _ & _ & HR); [auto|]. rewrite E.
  eapply Rch_impl; [done|]. cbn. intros t' [R _]. by eapply map_p_id_insert.
Qed.
Lemma insert_at_perm {A} k (c : A) l : Permutation (insert_at k c l) (c :: l).
Proof. unfold insert_at. rewrite <- Permutation_middle. by rewrite take_drop. Qed.

Lemma Any_append_columns_cells n : Any (ctl_append_columns n).
Proof.
  unfold ctl_append_columns. case_decide; [apply Any_raise|]. apply Any_iter_rows. intros x. apply AnyR_repeat.
  apply (AnyR_new_cell x (fun c ks => ks ++ [c])). intros c l. solve_Permutation.
Qed.
Lemma Any_insert_columns_cells i n : Any (ctl_insert_columns i n).
Proof.
  unfold ctl_insert_columns. case_decide; [apply Any_raise|]. apply Any_bind; [apply Any_ncols|]. intros m.
  apply Any_iter_rows. intros x. apply AnyR_repeat.
  apply (AnyR_new_cell x (fun c ks => insert_at _ c ks)). intros c l. apply insert_at_perm.
Qed.
Lemma delete_child_index s W t i r col j : Inv s W t -> ldesc ROW t !! i = Some r -> py_index (length (kids r)) col = Some j ->
  delete_child (nid r) col s = delete_child (nid r) (Z.of_nat j) s.
Proof.
  intros HI Hi E. pose proof (py_index_lt _ _ _ E) as Hk. pose proof (py_index_nat _ _ Hk) as E2.
  unfold delete_child, abind. rewrite (deref_row _ _ _ _ _ HI Hi). unfold alift, py_get. by rewrite E, E2.
Qed.
Lemma AnyR_delete_child x col : AnyR x (delete_child x col).
Proof.
  intros s W t HI Hx. destruct (row_by_id _ _ Hx) as (i & r & Hi & <-).
  destruct (py_index (length (kids r)) col) as [j|] eqn:E.
  - rewrite (delete_child_index _ _ _ _ _ _ _ HI Hi E).
    destruct (delete_cell_step s W t i r j HI Hi) as (s' & E2 & HR); [by eapply py_index_lt|]. rewrite E2.
    eapply Rch_impl; [done|]. cbn. intros t' [R _]. by eapply map_p_id_insert.
  - unfold delete_child, abind. rewrite (deref_row _ _ _ _ _ HI Hi). unfold alift, py_get. rewrite E. by apply Rch_refl.
Qed.
Lemma Any_delete_columns_cells i n : Any (ctl_delete_columns i n).
Proof.
  unfold ctl_delete_columns. apply Any_bind; [apply Any_ncols|]. intros m. case_decide; [apply Any_raise|].
  apply Any_iter_rows. intros x. apply AnyR_repeat, AnyR_delete_child.
Qed.
Lemma Any_append_columns n : Any (append_columns n).
Proof. apply Any_bind; [apply Any_append_columns_cells|]. intros _. apply Any_append_cols. Qed.
Lemma Any_insert_columns i n : Any (insert_columns i n).
Proof. apply Any_bind; [apply Any_insert_columns_cells|]. intros _. apply Any_insert_cols. Qed.
Lemma Any_delete_columns i n : Any (delete_columns i n).
Proof. apply Any_bind; [apply Any_delete_columns_cells|]. intros _. apply Any_delete_cols. Qed.

(** ** cells *)
Lemma row_ref_any s W t i : Inv s W t ->
  (exists k r, py_index (length (doc_rows t)) i = Some k /\ ldesc ROW t !! k = Some r /\ row_ref i s = (s, Ok (nid r))) \/
  (py_index (length (doc_rows t)) i = None /\ row_ref i s = (s, Err IndexError)).
Proof.
  intros HI. rewrite (row_ref_eq _ _ _ _ HI). unfold doc_rows. fold ROW. rewrite map_length.
  destruct (py_index (length (ldesc ROW t)) i) as [k|] eqn:E.
  - left. destruct (py_get_index _ _ _ E) as (r & Hr & Hg). exists k, r. by rewrite Hg.
  - right. split; [done|]. unfold py_get. by rewrite E.
Qed.
Lemma get_cell_any s W t pos : Inv s W t ->
  (exists i r j c, ldesc ROW t !! i = Some r /\ kids r !! j = Some c /\ ctl_get_cell pos s = (s, Ok c)) \/
  ctl_get_cell pos s = (s, Err IndexError).
Proof.
  intros HI. destruct pos as [row col]. unfold ctl_get_cell. unfold abind. rewrite (adjust_eq _ _ _ _ _ HI).
  destruct (row_ref_any s W t (adj (length (doc_rows t)) row) HI) as [(k & r & _ & Hr & ->)|[_ ->]]; [|by right].
  rewrite (deref_row _ _ _ _ _ HI Hr). unfold alift. destruct (py_get (kids r) (adj (wid t) col)) as [c|e] eqn:Hg.
  - apply py_get_Ok in Hg as (j & _ & Hj). left. by exists k, r, j, c.
  - right. by apply py_get_Err in Hg as [_ ->].
Qed.

Lemma set_cell_any s W t pos x : Inv s W t ->
  (forall en, sub x (store s) = Some en -> nid t ∉ ids en /\ plain (erase en)) ->
  exists s' q W' t', set_cell pos x s = (s', q) /\ Inv s' W' t' /\ root t' = root t /\ nxt s' = nxt s /\
    (q = Ok tt \/ s' = s).
Proof.
  intros HI Hx. unfold set_cell, abind, deref. destruct (sub x (store s)) as [en|] eqn:E; [|eexists _, _, W, t; split_and!; auto].
  destruct (Hx en eq_refl) as [Hnt Hp]. apply cellish_plain in Hp.
  case_decide; [|eexists _, _, W, t; split_and!; auto]. destruct pos as [row col]. unfold ctl_set_cell, abind.
  rewrite (adjust_eq _ _ _ _ _ HI).
  destruct (row_ref_any s W t (adj (length (doc_rows t)) row) HI) as [(k & r & _ & Hr & ->)|[_ ->]]; [|eexists _, _, W, t; split_and!; auto].
  by apply (set_item_any s W t k r _ x en).
Qed.

(** a new cell without parent *)
Lemma new_root_step s W t e : Inv s W t ->
  exists en n', new_root e s = (St (plug (cadd en W) [t]) n' (obj s), Ok (nid en)) /\ erase en = e /\
    nid en = nxt s /\ (nxt s < n')%N /\ Inv (St (plug (cadd en W) [t]) n' (obj s)) (cadd en W) t /\
    sub (nid en) (plug (cadd en W) [t]) = Some en /\ (forall y, y ∈ ids en -> y ∉ ids (store s)) /\
    edit (nid en) (fun _ => []) (plug (cadd en W) [t]) = plug W [t].
Proof.
  intros HI. destruct (label_facts e (nxt s)) as (en & n' & El & E1 & E2 & N & F & Hlt).
  assert (Hfr : forall y, y ∈ ids en -> y ∉ ids (store s)).
  { intros y Hy. rewrite Forall_forall in F. apply F in Hy. eapply fresh_notin; [done|lia]. }
  assert (Hst : store s = plug W [t]) by apply HI.
  assert (HI' : Inv (St (plug (cadd en W) [t]) n' (obj s)) (cadd en W) t).
  { constructor; cbn; try apply HI; try done.
    - rewrite <- add_root_plug, ids_add_root, <- Hst. apply NoDup_app. split_and!; [apply HI| |done].
      intros y Hy Hy'. by apply (Hfr y).
    - rewrite <- add_root_plug, ids_add_root, <- Hst. apply Forall_app. split.
      + eapply Forall_impl; [apply HI|]. cbn. lia.
      + eapply Forall_impl; [exact F|]. cbn. lia. }
  assert (Epl : plug (cadd en W) [t] = plug (Here (croot W) (kids (plug W [t])) []) [en]).
  { rewrite <- add_root_plug. cbn. destruct W; cbn; done. }
  exists en, n'. unfold new_root, abind, alloc. rewrite El. unfold amod, aret. split_and!; try done.
  - cbn. unfold set_store. cbn. by rewrite Hst, add_root_plug.
  - rewrite Epl. apply sub_plug. rewrite <- Epl. apply HI'.
  - rewrite Epl. rewrite edit_plug by (rewrite <- Epl; apply HI'). cbn. rewrite app_nil_r. by destruct W.
Qed.


Definition put_cell (t : node) (i j : nat) (c : node) : list part :=
  match doc_rows t !! i with
  | Some p => <[i := with_kids p (<[j := c]> (p_kids p))]> (doc_rows t)
  | None => doc_rows t
  end.

Lemma doc_rows_of t i r : ldesc ROW t !! i = Some r -> doc_rows t !! i = Some (part_of r).
Proof. intros H. unfold doc_rows. fold ROW. rewrite list_lookup_fmap, H. done. Qed.
Lemma cell_at_row t i j c : cell_at t i j = Some c -> exists r, ldesc ROW t !! i = Some r /\ kids r !! j = Some c.
Proof.
  unfold cell_at. destruct (doc_rows t !! i) as [p|] eqn:E; [|done]. intros Hj.
  destruct (doc_rows_lookup _ _ _ E) as (r & Hr & ->). by exists r.
Qed.

Lemma set_cell_pos s W t row col i j x en c :
  Inv s W t -> py_index (length (doc_rows t)) row = Some i -> py_index (wid t) col = Some j -> cell_at t i j = Some c ->
  sub x (store s) = Some en -> nid t ∉ ids en -> plain (erase en) -> is_cell_tag (ltag en) -> x ∉ ids t ->
  exists s' W1 t', set_cell (row, col) x s = (s', Ok tt) /\ Inv s' (cadd c W1) t' /\
    edit x (fun _ => []) (store s) = plug W1 [t] /\ root t' = root t /\ nxt s' = nxt s /\
    doc_rows t' = put_cell t i j en /\ doc_cols t' = doc_cols t.
Proof.
  intros HI Hi Hj Hc Hs Hnt Hp Htag Hx. apply cellish_plain in Hp.
  destruct (cell_at_row _ _ _ _ Hc) as (r & Hr & Hrc).
  unfold set_cell, abind. unfold deref at 1. rewrite Hs. rewrite decide_True by done. unfold ctl_set_cell, abind.
  rewrite (adjust_eq _ _ _ _ _ HI), (py_index_adj _ _ _ Hi), (py_index_adj _ _ _ Hj).
  rewrite (row_ref_eq _ _ _ _ HI). pose proof (lookup_lt_Some _ _ _ Hr) as Hl.
  unfold py_get. rewrite (py_index_nat _ _ Hl), Hr.
  unfold put_cell. rewrite (doc_rows_of _ _ _ Hr).
  by apply (set_item_ok s W t i r j c x en).
Qed.

(** writing through the wrapper of a cell *)
Lemma write_cell_step s W t i r j c pos f :
  Inv s W t -> ldesc ROW t !! i = Some r -> kids r !! j = Some c -> ctl_get_cell pos s = (s, Ok c) -> plain (f (erase c)) ->
  exists s' c', write_cell pos f s = (s', Ok tt) /\ nid c' = nid c /\ erase c' = f (erase c) /\
    Rch s W t (fun t' => doc_rows t' = put_cell t i j c' /\ doc_cols t' = doc_cols t) s'.
Proof.
  intros HI Hi Hj Hg Hp. unfold write_cell, abind. rewrite Hg.
  destruct (label_facts (f (erase c)) (nxt s)) as (u & n' & El & E1 & E2 & N & F & Hlt).
  unfold alloc. rewrite El. unfold amod. cbn [store set_nxt].
  set (c' := T (L (nid c) (root (f (erase c)))) (kids u)).
  assert (Ec' : erase c' = f (erase c)).
  { rewrite <- E1. subst c'. rewrite <- E1. destruct u. done. }
  pose proof (lookup_lt_Some _ _ _ Hj) as Hjl.
  pose proof (take_drop_middle _ _ _ Hj) as Hm. symmetry in Hm.
  pose proof (sub_hole s W t ROW COL i r other_RC HI Hi) as Hsr.
  pose proof (row_not_store s W t i r HI Hi) as Hnr. pose proof (i_nodup _ _ _ HI) as Hnd.
  assert (Eins : <[j:=c']> (kids r) = take j (kids r) ++ [c'] ++ drop (S j) (kids r)) by (by rewrite insert_take_drop).
  destruct (row_ids_in s W t i r HI Hi) as [Hkn Hkin].
  rewrite (ids_eq r) in Hkn, Hkin. apply NoDup_cons in Hkn as [Hkn0 Hkn]. apply Forall_cons in Hkin as [_ Hkin].
  pose proof (row_cellish s W t i r HI Hi) as Hcell.
  rewrite (ids_eq u) in N, F. apply NoDup_cons in N as [_ N]. apply Forall_cons in F as [_ F].
  set (rest := flat_map ids (take j (kids r)) ++ flat_map ids (drop (S j) (kids r))).
  assert (Hp1 : Permutation (flat_map ids (kids r)) (ids c ++ rest)).
  { rewrite Hm at 1. subst rest. rewrite !flat_map_app. cbn. solve_Permutation. }
  assert (Hp2 : Permutation (flat_map ids (<[j:=c']> (kids r))) (flat_map ids (kids u) ++ nid c :: rest)).
  { rewrite Eins. subst rest. rewrite !flat_map_app. cbn. rewrite app_nil_r. rewrite (ids_eq c'). cbn. solve_Permutation. }
  assert (Hrest : Forall (fun x => x ∈ flat_map ids (kids r)) (nid c :: rest)).
  { apply Forall_forall. intros y Hy. rewrite Hp1. apply elem_of_cons in Hy as [->|Hy]; apply elem_of_app; [left; apply nid_in|by right]. }
  destruct (row_kids_step s W t i r (<[j:=c']> (kids r)) n' HI Hi) as (t' & H1 & H2 & H3 & H4 & H5).
  - rewrite Eins. rewrite Hm in Hcell. apply Forall_app in Hcell as [C1 C2]. apply Forall_cons in C2 as [_ C2].
    apply Forall_app. split; [done|]. constructor; [|done]. apply cellish_plain. by rewrite Ec'.
  - rewrite Hp2. rewrite Hp1 in Hkn. apply NoDup_app in Hkn as (K1 & K2 & K3). apply NoDup_app. split_and!; [done| |].
    + intros y Hy Hy'. rewrite Forall_forall in F. apply F in Hy. rewrite Forall_forall in Hrest. apply Hrest in Hy'.
      rewrite Forall_forall in Hkin. apply Hkin in Hy'. eapply fresh_notin; [done| |done]. lia.
    + apply NoDup_cons. split; [|done]. apply K2, nid_in.
  - rewrite Hp2. apply Forall_app. split.
    + apply Forall_forall. intros y Hy. rewrite Forall_forall in F. apply F in Hy. split; [|lia]. right. eapply fresh_notin; [done|lia].
    + apply Forall_forall. intros y Hy. rewrite Forall_forall in Hrest. apply Hrest in Hy. split; [by left|].
      rewrite Forall_forall in Hkin. apply Hkin in Hy. pose proof (i_fresh _ _ _ HI) as Hfr. rewrite Forall_forall in Hfr. apply Hfr in Hy. lia.
  - lia.
  - rewrite (edit_child (store s) r _ _ _ (fun k => [T (L (nid k) (root (f (erase k)))) (kids u)]) Hnd Hsr Hnr Hm).
    change [T (L (nid c) (root (f (erase c)))) (kids u)] with [c']. rewrite H1 by (by rewrite Eins).
    eexists. exists c'. split; [done|]. split_and!; [done|done|]. exists W, t'. split_and!; try done.
    + cbn. lia.
    + unfold put_cell. rewrite (doc_rows_of _ _ _ Hi). done.
Qed.
Lemma Any_write_cell pos f : (forall e, plain e -> plain (f e)) -> Any (write_cell pos f).
Proof.
  intros Hf s W t HI. destruct (get_cell_any s W t pos HI) as [(i & r & j & c & Hi & Hj & Hg)|Hg].
  - destruct (write_cell_step s W t i r j c pos f HI Hi Hj Hg) as (s' & c' & E & _ & _ & HR).
    + apply Hf. apply cellish_plain. pose proof (row_cellish s W t i r HI Hi) as Hc. rewrite Forall_forall in Hc. apply Hc.
      by eapply elem_of_list_lookup_2.
    + rewrite E. by eapply Rch_True.
  - unfold write_cell, abind. rewrite Hg. by apply Rch_refl.
Qed.
