(** Reading a table, and calls that fail. *)
From Verif Require Export TableMain.

Local Arguments label : simpl never.
Local Arguments edit : simpl never.
Local Arguments sub : simpl never.
Local Arguments ldesc : simpl never.
Local Arguments ids : simpl never.

Section access.
Context `{U : Unicode}.

(** ** reading *)
Lemma amap_ok {A B} (f : A -> act st B) l ys s :
  Forall2 (fun x y => f x s = (s, Ok y)) l ys -> amap f l s = (s, Ok ys).
Proof. induction 1 as [|x y l ys Hx _ IH]; [done|]. cbn. unfold abind. by rewrite Hx, IH. Qed.

Lemma ctl_row_ok s W t i k p : Inv s W t -> py_index (length (doc_rows t)) i = Some k -> doc_rows t !! k = Some p ->
  exists r, ctl_row i s = (s, Ok r) /\ part_of r = p.
Proof.
  intros HI Hk Hp. destruct (doc_rows_lookup _ _ _ Hp) as (r & Hr & ->). exists r. split; [|done].
  unfold ctl_row, abind. destruct (row_ref_any s W t i HI) as [(k' & r' & Hk' & Hr' & ->)|[Hn _]]; [|congruence].
  rewrite Hk in Hk'. injection Hk' as <-. rewrite Hr in Hr'. injection Hr' as <-. by rewrite (deref_row _ _ _ _ _ HI Hr).
Qed.
Lemma row_ok s W t i k p : Inv s W t -> py_index (length (doc_rows t)) i = Some k -> doc_rows t !! k = Some p ->
  row (INum i) s = (s, Ok (p_kids p)).
Proof.
  intros HI Hk Hp. destruct (ctl_row_ok s W t i k p HI Hk Hp) as (r & E & <-). unfold row, abind, row_index, aret. by rewrite E.
Qed.
Lemma row_ids_list s W t : Inv s W t -> rowc (obj s) = map nid (ldesc ROW t).
Proof. intros HI. apply HI. Qed.

Definition col_go (index : Z) : list N -> act st (list node) :=
  fix go (l : list N) : act st (list node) :=
     match l with
     | [] => aret []
     | r :: l' =>
         let! t := deref r in
         let! c := alift (py_get (kids t) index) in
         let! cs := go l' in
         aret (c :: cs)
     end.
Lemma col_go_ok s index l cs :
  Forall2 (fun r c => exists k, deref r s = (s, Ok k) /\ py_get (kids k) index = Ok c) l cs -> col_go index l s = (s, Ok cs).
Proof.
  induction 1 as [|r c l cs (k & H1 & H2) _ IH]; [done|]. cbn. unfold abind, alift. by rewrite H1, H2, IH.
Qed.
Lemma column_ok s W t n j k : Inv s W t -> rect n t -> py_index n j = Some k ->
  exists l, column (INum j) s = (s, Ok l) /\ length l = length (doc_rows t) /\
    forall i, l !! i = cell_at t i k.
Proof.
  intros HI Hr Hk. pose proof (py_index_lt _ _ _ Hk) as Hkl.
  assert (Hc : exists l, Forall2 (fun p c => p_kids p !! k = Some c) (doc_rows t) l).
  { unfold rect in Hr. induction Hr as [|p ps Hp _ [l IH]]; [by exists []|].
    destruct (lookup_lt_is_Some_2 (p_kids p) k) as [c Hc]; [lia|]. exists (c :: l). by constructor. }
  destruct Hc as [l Hl]. exists l. split_and!.
  - unfold column, column_index, abind, aret, ctl_column, abind, aget. fold (col_go j). rewrite (row_ids_list _ _ _ HI).
    apply col_go_ok. apply Forall2_same_length_lookup. split.
    + rewrite map_length, <- (Forall2_length _ _ _ Hl). unfold doc_rows. fold ROW. by rewrite map_length.
    + intros a x c Hx Hc. change (map nid (ldesc ROW t)) with (nid <$> ldesc ROW t) in Hx. rewrite list_lookup_fmap in Hx.
      destruct (ldesc ROW t !! a) as [r|] eqn:Er; [|done]. injection Hx as <-. exists r. split; [by eapply deref_row|].
      pose proof (doc_rows_of _ _ _ Er) as Hd. pose proof (Forall2_lookup_lr _ _ _ _ _ _ Hl Hd Hc) as Hkc. cbn in Hkc.
      unfold rect in Hr. rewrite Forall_forall in Hr. pose proof (Hr _ (elem_of_list_lookup_2 _ _ _ Hd)) as Hlen. cbn in Hlen.
      unfold py_get. by rewrite Hlen, Hk, Hkc.
  - by rewrite <- (Forall2_length _ _ _ Hl).
  - intros a. unfold cell_at. destruct (doc_rows t !! a) as [p|] eqn:Ep.
    + destruct (Forall2_lookup_l _ _ _ _ _ Hl Ep) as (c & Hc & Hpc). by rewrite Hc, Hpc.
    + apply lookup_ge_None in Ep. apply lookup_ge_None. by rewrite <- (Forall2_length _ _ _ Hl).
Qed.

Lemma zrange_lookup a n k x : zrange a n !! k = Some x -> x = (a + Z.of_nat k)%Z /\ k < n.
Proof.
  unfold zrange. change (map ?f ?l) with (f <$> l). rewrite list_lookup_fmap. destruct (seq 0 n !! k) as [y|] eqn:E; [|done].
  apply lookup_seq in E as [-> ?]. by intros [= <-].
Qed.
Lemma zrange_length a n : length (zrange a n) = n.
Proof. unfold zrange. by rewrite map_length, seq_length. Qed.

Lemma rows_ok s W t : Inv s W t -> rows s = (s, Ok (map p_kids (doc_rows t))).
Proof.
  intros HI. unfold rows. unfold abind at 1. rewrite (nrows_eq _ _ _ HI), Nat2Z.id.
  assert (El : length (ldesc ROW t) = length (doc_rows t)) by (unfold doc_rows; fold ROW; by rewrite map_length).
  apply amap_ok. apply Forall2_same_length_lookup. split; [by rewrite zrange_length, map_length|].
  intros k x y [-> Hk]%zrange_lookup Hy. change (map ?f ?l) with (f <$> l) in Hy. rewrite list_lookup_fmap in Hy.
  destruct (doc_rows t !! k) as [p|] eqn:Ep; [|done]. injection Hy as <-.
  apply (row_ok s W t _ k); [done| |done]. rewrite py_index_nonneg by lia. f_equal. lia.
Qed.
Lemma columns_ok s W t n : Inv s W t -> rect n t -> doc_rows t <> [] ->
  exists ls, columns s = (s, Ok ls) /\ length ls = n /\
    forall j l, ls !! j = Some l -> length l = length (doc_rows t) /\ forall i, l !! i = cell_at t i j.
Proof.
  intros HI Hr Hne. unfold columns. unfold abind at 1. rewrite (ncols_eq _ _ _ HI), Nat2Z.id, (rect_wid _ _ Hr Hne).
  assert (Hcol : forall m, m <= n -> exists ls, length ls = m /\ amap (fun i => column (INum i)) (zrange 0 m) s = (s, Ok ls) /\
    Forall2 (fun x y => column (INum x) s = (s, Ok y)) (zrange 0 m) ls).
  { intros m. induction m as [|m IH]; intros Hm; [exists []; split_and!; try done; constructor|]. destruct IH as (ls & L1 & L2 & L3); [lia|].
    destruct (column_ok s W t n (Z.of_nat m) m HI Hr) as (l & Hl & _); [rewrite py_index_nonneg by lia; f_equal; lia|].
    exists (ls ++ [l]). rewrite app_length, L1. cbn [length]. split; [lia|].
    assert (H2 : Forall2 (fun x y => column (INum x) s = (s, Ok y)) (zrange 0 (S m)) (ls ++ [l])).
    { unfold zrange. rewrite seq_S, map_app. apply Forall2_app; [exact L3|]. by constructor. }
    split; [by apply amap_ok|done]. }
  destruct (Hcol n ltac:(lia)) as (ls & L1 & L2 & L3). exists ls. split_and!; try done.
  intros j l Hl. destruct (Forall2_lookup_r _ _ _ _ _ L3 Hl) as (x & [-> Hx]%zrange_lookup & Hc).
  destruct (column_ok s W t n (0 + Z.of_nat j) j HI Hr) as (l' & Hc' & H1 & H2); [rewrite py_index_nonneg by lia; f_equal; lia|].
  rewrite Hc in Hc'. injection Hc' as <-. done.
Qed.
Lemma column_info_ok s W t j k p : Inv s W t -> py_index (length (doc_cols t)) j = Some k -> doc_cols t !! k = Some p ->
  exists c, column_info (INum j) s = (s, Ok c) /\ part_of c = p.
Proof.
  intros HI Hk Hp. unfold doc_cols in *. fold COL in *. rewrite map_length in Hk.
  change (map ?f ?l) with (f <$> l) in Hp. rewrite list_lookup_fmap in Hp.
  destruct (ldesc COL t !! k) as [c|] eqn:Ec; [|done]. injection Hp as <-. exists c. split; [|done].
  unfold column_info, column_index, abind, aret. rewrite (col_ref_eq _ _ _ _ HI). unfold py_get. rewrite Hk, Ec.
  by rewrite (deref_col _ _ _ _ _ HI Ec).
Qed.

(** ** failing calls *)
Lemma unchanged_refl s : unchanged s s. Proof. done. Qed.
Lemma unchanged_nxt s n : unchanged s (set_nxt n s). Proof. done. Qed.
Lemma arepeat_first {S0} n (body : act S0 unit) s s' e : 1 <= n -> body s = (s', Err e) -> arepeat n body s = (s', Err e).
Proof. intros Hn Hb. destruct n; [lia|]. cbn. unfold abind. by rewrite Hb. Qed.

Lemma append_rows_fail s W t n s' e : Inv s W t -> append_rows n s = (s', Err e) -> unchanged s s'.
Proof.
  intros HI E. destruct (decide (n < 1)%Z) as [Hn|Hn].
  { unfold append_rows, ctl_append_rows in E. rewrite decide_True in E by done. by injection E as <- _. }
  destruct (decide (ldesc ROW t = [])) as [Hr|Hr].
  - unfold append_rows, ctl_append_rows in E. rewrite decide_False in E by done.
    rewrite (arepeat_first _ _ s (set_nxt (label (build_new_row (Z.of_nat (wid t))) (nxt s)).2 s) IndexError) in E; [|lia|].
    + by injection E as <- _.
    + unfold abind at 1. rewrite (ncols_eq _ _ _ HI). unfold abind at 1, alloc. destruct (label _ _) as [t' n'] eqn:El.
      unfold abind at 1. rewrite (row_ref_eq (set_nxt n' s) W t); [by rewrite Hr|]. apply Inv_nxt; [done|].
      destruct (label_facts (build_new_row (Z.of_nat (wid t))) (nxt s)) as (? & ? & E3 & _ & _ & _ & _ & ?). rewrite El in E3. injection E3 as <- <-. lia.
  - destruct (append_rows_ok s W t n HI Hr ltac:(lia)) as (s1 & E1 & _). congruence.
Qed.
Lemma insert_rows_fail s W t i n s' e : Inv s W t -> insert_rows i n s = (s', Err e) -> unchanged s s'.
Proof.
  intros HI E. destruct (decide (n < 1)%Z) as [Hn|Hn].
  { unfold insert_rows, ctl_insert_rows in E. rewrite decide_True in E by done. by injection E as <- _. }
  destruct (py_index (length (doc_rows t)) i) as [k|] eqn:Hk.
  - destruct (insert_rows_ok s W t i n k HI Hk ltac:(lia)) as (s1 & E1 & _). congruence.
  - unfold insert_rows, ctl_insert_rows in E. rewrite decide_False in E by done.
    rewrite (arepeat_first _ _ s (set_nxt (label (build_new_row (Z.of_nat (wid t))) (nxt s)).2 s) IndexError) in E; [|lia|].
    + by injection E as <- _.
    + unfold abind at 1. rewrite (ncols_eq _ _ _ HI). unfold abind at 1, alloc. destruct (label _ _) as [t' n'] eqn:El.
      unfold abind at 1. destruct (row_ref_any (set_nxt n' s) W t i) as [(k & r & Hk' & _)|[_ ->]]; [|congruence|done].
      apply Inv_nxt; [done|].
      destruct (label_facts (build_new_row (Z.of_nat (wid t))) (nxt s)) as (? & ? & E3 & _ & _ & _ & _ & ?). rewrite El in E3. injection E3 as <- <-. lia.
Qed.
Lemma adj_out n i : (Z.of_nat n <= i \/ i < - 2 * Z.of_nat n)%Z -> py_index n (adj n i) = None.
Proof. unfold py_index, adj. intros H. repeat case_decide; try done; lia. Qed.
Lemma delete_rows_fail s W t i n : Inv s W t ->
  (n < 1 \/ Z.of_nat (length (doc_rows t)) <= n \/ Z.of_nat (length (doc_rows t)) <= i \/ i < - 2 * Z.of_nat (length (doc_rows t)))%Z ->
  exists e, delete_rows i n s = (s, Err e).
Proof.
  intros HI H. unfold delete_rows, ctl_delete_rows. unfold abind at 1. rewrite (nrows_eq _ _ _ HI). rewrite <- parts_length, parts_rows.
  case_decide as Hn; [by eexists|].
  change (if decide (i < 0)%Z then (i + Z.of_nat (length (doc_rows t)))%Z else i) with (adj (length (doc_rows t)) i).
  exists IndexError. apply arepeat_first; [lia|]. unfold abind at 1, pop_row, abind at 1, aget.
  rewrite (rowc_length _ _ _ HI), adj_out by lia. done.
Qed.
Lemma delete_columns_fail s W t i n : Inv s W t -> doc_rows t <> [] ->
  (n < 1 \/ Z.of_nat (wid t) <= n \/ Z.of_nat (wid t) <= i \/ i < - 2 * Z.of_nat (wid t))%Z ->
  exists e, delete_columns i n s = (s, Err e).
Proof.
  intros HI Hne H. unfold delete_columns, ctl_delete_columns. unfold abind at 1. unfold abind at 1. rewrite (ncols_eq _ _ _ HI).
  case_decide as Hn; [by eexists|].
  change (if decide (i < 0)%Z then (i + Z.of_nat (wid t))%Z else i) with (adj (wid t) i).
  exists IndexError. unfold abind at 1, aget. rewrite (i_rows _ _ _ HI).
  assert (Hr : exists r l, ldesc ROW t = r :: l).
  { unfold doc_rows in Hne. fold ROW in Hne. destruct (ldesc ROW t) as [|r l]; [done|]. eauto. }
  destruct Hr as (r & l & Hr). rewrite Hr. cbn [map aiter]. unfold abind at 1.
  assert (Hw : wid t = length (kids r)) by (unfold wid; by rewrite Hr).
  rewrite (arepeat_first _ _ s s IndexError); [done|lia|].
  unfold delete_child. unfold abind at 1. rewrite (deref_row s W t 0 r HI) by (by rewrite Hr).
  unfold abind at 1, alift, py_get. rewrite <- Hw, adj_out by lia. done.
Qed.
Lemma count_fail s n i : (n < 1)%Z ->
  append_columns n s = (s, Err ValueError) /\ insert_columns i n s = (s, Err ValueError).
Proof.
  intros Hn. unfold append_columns, insert_columns, ctl_append_columns, ctl_insert_columns, abind.
  by rewrite !decide_True.
Qed.
Lemma write_cell_fail s W t pos f s' e : Inv s W t -> (forall x, plain x -> plain (f x)) -> write_cell pos f s = (s', Err e) -> s' = s.
Proof.
  intros HI Hf E. destruct (get_cell_any s W t pos HI) as [(i & r & j & c & Hi & Hj & Hg)|Hg].
  - destruct (write_cell_step s W t i r j c pos f HI Hi Hj Hg) as (s1 & c' & E1 & _); [|congruence].
    apply Hf, cellish_plain. pose proof (row_cellish s W t i r HI Hi) as Hc. rewrite Forall_forall in Hc. apply Hc.
    by eapply elem_of_list_lookup_2.
  - unfold write_cell, abind in E. rewrite Hg in E. by injection E as <- _.
Qed.
Lemma set_name_fail s v s' e : set_name v s = (s', Err e) -> s' = s.
Proof. unfold set_name, abind, aget. destruct (normalize_sheet_name v); [|done]. by intros [= <- _]. Qed.
Lemma set_new_fail s W t pos x s' e : Inv s W t -> plain x -> set_new pos x s = (s', Err e) -> unchanged s s'.
Proof.
  intros HI Hp E. destruct (new_root_step s W t x HI) as (en & n' & E0 & Ee & Hid & Hlt & HI1 & Hsub & Hfr & Hed).
  unfold set_new in E. unfold abind at 1 in E. rewrite E0 in E. set (s1 := St (plug (cadd en W) [t]) n' (obj s)) in *.
  destruct (set_cell_any s1 _ t pos (nid en) HI1) as (s2 & q & W' & t' & E2 & HI2 & _ & _ & Hq).
  { intros en' Hen'. cbn [store s1] in Hen'. rewrite Hsub in Hen'. injection Hen' as <-. split; [|by rewrite Ee].
    intros Hin. apply (Hfr _ Hin). rewrite (i_store _ _ _ HI), ids_plug1. apply elem_of_app. right. apply elem_of_app. left. apply nid_in. }
  rewrite E in E2. injection E2 as <- <-. destruct Hq as [Hq| ->]; [done|].
  split; [|done]. rewrite (Inv_table_node _ _ _ HI1). by rewrite (Inv_table_node _ _ _ HI).
Qed.

(** ** outside the table *)
Lemma grow_kids_root W W' m : grow W W' -> exists ks, plug W' m = T (root (plug W m)) (kids (plug W m) ++ ks).
Proof.
  induction 1 as [|W' d H [ks IH]]; [exists []; rewrite app_nil_r; by destruct (plug W m)|].
  exists (ks ++ [d]). rewrite <- add_root_plug, IH. cbn. by rewrite <- app_assoc.
Qed.
Lemma around_eq m s W t : Inv s W t -> around m s = plug W m.
Proof.
  intros HI. unfold around. rewrite (i_rt _ _ _ HI), (i_store _ _ _ HI). apply (edit_plug W (fun _ => m) t).
  rewrite <- (i_store _ _ _ HI). apply HI.
Qed.
Lemma Rch_out s W t Q s' : Rch s W t Q s' -> exists t', sane s' /\ in_step s' /\ table_node s' = Some t' /\ root t' = root t /\ Q t'.
Proof.
  intros (W' & t' & HI & _ & Hr & _ & HQ). exists t'. destruct (Inv_sane _ _ _ HI). split_and!; try done. by eapply Inv_table_node.
Qed.
Lemma to_Inv s t : sane s -> in_step s -> table_node s = Some t -> exists W, Inv s W t.
Proof. intros H1 H2 H3. destruct (sane_Inv s H1 H2) as (W & t' & HI & E). rewrite H3 in E. injection E as <-. by exists W. Qed.

Lemma no_repeat_rep k e : no_repeat k e -> rep k e = Ok 1%Z.
Proof. intros Hn. unfold rep. destruct (e_get k e) as [v|] eqn:Eg; [|done]. by apply Hn. Qed.
Lemma unrepeated_normal nc t : ltag t = TABLE -> rect nc t -> unrepeated (erase t) -> normal_table nc (erase t).
Proof.
  intros Htg Hr [Hu Hc]. split_and!; [by rewrite <- ltag_erase| |].
  - rewrite <- erase_ldesc in *. change (map ?f ?l) with (f <$> l) in *. rewrite Forall_fmap in *.
    unfold rect, doc_rows in Hr. fold ROW in Hr. change (map ?f ?l) with (f <$> l) in Hr. rewrite Forall_fmap in Hr.
    rewrite Forall_forall in *. intros r Hin. specialize (Hu r Hin). specialize (Hr r Hin). cbn in Hr.
    destruct Hu as [Hu1 Hu2]. split_and!.
    + by apply no_repeat_rep.
    + eapply Forall_impl; [exact Hu2|]. intros c0 Hc0. by apply no_repeat_rep.
    + destruct r as [a ks]. cbn in *. by rewrite map_length.
  - eapply Forall_impl; [exact Hc|]. intros c0 Hc0. by apply no_repeat_rep.
Qed.
End access.
