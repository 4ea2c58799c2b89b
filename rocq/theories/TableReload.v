(** Histories keep tables without repetitions. *)
From Verif Require Export TableReloadSpec TableAccess.

Section reload.
Context `{U : Unicode}.

Definition no_rep (k : string) (d : nd) : Prop := forall s, attrs d !! k = Some s -> py_int s = Ok 1%Z.
Definition row_single (p : part) : Prop := no_rep REPR (p_nd p) /\ Forall (fun c => single (erase c)) (p_kids p).
Definition col_single (p : part) : Prop := no_rep REPC (p_nd p).
Definition all_single (t : node) : Prop := Forall row_single (doc_rows t) /\ Forall col_single (doc_cols t).

Lemma no_repeat_erase k c : no_repeat k (erase c) <-> no_rep k (nd_set_tail None (pl (root c))).
Proof. by destruct c as [[? d] ?]. Qed.
Lemma unrepeated_parts t : unrepeated (erase t) <-> all_single t.
Proof.
  unfold unrepeated, all_single, doc_rows, doc_cols. fold ROW COL REPR REPC. rewrite <- !erase_ldesc.
  change (map ?f ?l) with (f <$> l). rewrite !Forall_fmap. f_equiv.
  - apply Forall_proper; [|done]. intros r. cbn. unfold row_single, part_of. cbn [p_nd p_kids].
    rewrite no_repeat_erase, erase_kids. change (map ?f ?l) with (f <$> l). by rewrite Forall_fmap.
  - apply Forall_proper; [|done]. intros r. cbn. by rewrite no_repeat_erase.
Qed.
Lemma empty_row_single n p : is_empty_row n p -> row_single p.
Proof.
  intros E. injection E as E1 E2. split; [rewrite E1; by intros s|].
  apply Forall_forall. intros c Hc. apply (elem_of_list_fmap_1 erase) in Hc. change (erase <$> p_kids p) with (map erase (p_kids p)) in Hc.
  rewrite E2 in Hc. apply elem_of_replicate in Hc as [-> _]. by intros s.
Qed.
Lemma empty_col_single p : is_empty_col p -> col_single p.
Proof. intros E. injection E as E1 E2. unfold col_single. rewrite E1. by intros s. Qed.
Lemma empty_rows_single n l : Forall (is_empty_row n) l -> Forall row_single l.
Proof. intros H. eapply Forall_impl; [exact H|]. apply empty_row_single. Qed.
Lemma empty_cols_single l : Forall is_empty_col l -> Forall col_single l.
Proof. intros H. eapply Forall_impl; [exact H|]. apply empty_col_single. Qed.
Lemma inserted_single k n l l' : Forall row_single l -> Forall2 (cells_inserted k n) l l' -> Forall row_single l'.
Proof.
  intros H H2. induction H2 as [|p p' l l' (cs & _ & Hcs & ->) _ IH]; [constructor|]. apply Forall_cons in H as [[Ha Hb] H].
  constructor; [|by apply IH]. split; [done|]. cbn [p_kids]. apply Forall_app. split; [by apply Forall_take|].
  apply Forall_app. split; [|by apply Forall_drop]. eapply Forall_impl; [exact Hcs|]. intros c E. rewrite E. by intros s.
Qed.
Lemma deleted_single k n l l' : Forall row_single l -> Forall2 (cells_deleted k n) l l' -> Forall row_single l'.
Proof.
  intros H H2. induction H2 as [|p p' l l' -> _ IH]; [constructor|]. apply Forall_cons in H as [[Ha Hb] H].
  constructor; [|by apply IH]. split; [done|]. cbn [p_kids]. apply Forall_app. split; [by apply Forall_take|by apply Forall_drop].
Qed.
Lemma put_cell_single t i j c : Forall row_single (doc_rows t) -> single (erase c) -> Forall row_single (put_cell t i j c).
Proof.
  intros H Hc. unfold put_cell. destruct (doc_rows t !! i) as [p|] eqn:E; [|done]. apply Forall_insert; [done|].
  rewrite Forall_forall in H. destruct (H p) as [Ha Hb]; [by eapply elem_of_list_lookup_2|]. split; [done|].
  cbn. by apply Forall_insert.
Qed.

Lemma Rch_expanded s W t (Q : node -> Prop) s' : Rch s W t Q s' -> ltag t = TABLE ->
  (forall t', Q t' -> all_single t') -> expanded s'.
Proof.
  intros (W' & t' & HI & _ & R & _ & HQ) Ht H. exists t'. split; [by eapply Inv_table_node|]. split.
  - unfold ltag in *. by rewrite R.
  - apply unrepeated_parts. by apply H.
Qed.

Lemma fits_clean o s nr nc : sane s -> in_step s -> sized s nr nc -> expanded s -> fits o s nr nc -> clean o s ->
  expanded (run_op o s).1.
Proof.
  intros Hs Hi Hz He Hf Hcl. destruct (sized_Inv s nr nc Hs Hi Hz) as (W & t & nm & HI & L1 & L2 & Hr & P1 & P2 & A1 & A2).
  assert (Hne : doc_rows t <> []) by (destruct (doc_rows t); cbn in *; [lia|done]).
  assert (Hnc : doc_cols t <> []) by (destruct (doc_cols t); cbn in *; [lia|done]).
  assert (Hw : wid t = nc) by (by apply rect_wid).
  destruct He as (t0 & Ht0 & Htag & Hun). rewrite (Inv_table_node _ _ _ HI) in Ht0. injection Ht0 as <-.
  fold TABLE in Htag. pose proof Hun as Hun0. apply unrepeated_parts in Hun as [U1 U2].
  destruct o; cbn [fits run_op clean fst snd] in *.
  - destruct (append_rows_ok s W t n HI) as (s' & -> & HR); [|done|].
    { intros E. apply Hne. rewrite <- parts_rows. unfold parts. by rewrite E. }
    apply (Rch_expanded _ _ _ _ _ HR); [done|]. intros t' (ps & Q1 & Q2 & _ & Q3 & Q4). unfold all_single. rewrite Q3, Q4. split; [|done].
    apply Forall_app. split; [done|]. by eapply empty_rows_single.
  - destruct Hf as (Hn & k & Hk%at_py). rewrite <- L1 in Hk. destruct (insert_rows_ok s W t i n k HI Hk Hn) as (s' & -> & HR).
    apply (Rch_expanded _ _ _ _ _ HR); [done|]. intros t' (ps & Q1 & Q2 & _ & Q3 & Q4). unfold all_single. rewrite Q3, Q4. split; [|done].
    apply Forall_app. split; [by apply Forall_take|]. apply Forall_app. split; [|by apply Forall_drop]. by eapply empty_rows_single.
  - destruct Hf as (Hn & k & Hk%at_py & Hkn). rewrite <- L1 in Hk, Hkn, Hn. destruct (delete_rows_ok s W t i n k HI Hk Hn Hkn) as (s' & -> & HR).
    apply (Rch_expanded _ _ _ _ _ HR); [done|]. intros t' (Q3 & Q4). unfold all_single. rewrite Q3, Q4. split; [|done].
    apply Forall_app. split; [by apply Forall_take|by apply Forall_drop].
  - destruct (append_columns_ok s W t n HI Hnc Hf) as (s' & -> & HR).
    apply (Rch_expanded _ _ _ _ _ HR); [done|]. intros t' (Q1 & ps & Q2 & Q3 & Q4). unfold all_single. rewrite Q4. split.
    + apply (inserted_single nc (Z.to_nat n) (doc_rows t)); [done|].
      apply Forall2_same_length_lookup. split; [by eapply Forall2_length|].
      intros a p p' Hp Hp'. pose proof (Forall2_lookup_lr _ _ _ _ _ _ Q1 Hp Hp') as Hq. cbn in Hq.
      unfold rect in Hr. rewrite Forall_forall in Hr. rewrite (Hr p) in Hq; [done|by eapply elem_of_list_lookup_2].
    + apply Forall_app. split; [done|by apply empty_cols_single].
  - destruct Hf as (Hn & k & Hk%at_py). rewrite <- L2 in Hk. destruct (insert_columns_ok s W t i n k HI) as (s' & -> & HR); try done; [by rewrite L2|].
    apply (Rch_expanded _ _ _ _ _ HR); [done|]. intros t' (Q1 & ps & Q2 & Q3 & Q4). unfold all_single. rewrite Q4. split.
    + by eapply inserted_single.
    + apply Forall_app. split; [by apply Forall_take|]. apply Forall_app. split; [by apply empty_cols_single|by apply Forall_drop].
  - destruct Hf as (Hn & k & Hk%at_py & Hkn). rewrite <- L2 in Hk, Hkn, Hn. destruct (delete_columns_ok s W t i n k HI) as (s' & -> & HR); try done; [by rewrite L2|].
    apply (Rch_expanded _ _ _ _ _ HR); [done|]. intros t' (Q1 & Q4). unfold all_single. rewrite Q4. split.
    + by eapply deleted_single.
    + apply Forall_app. split; [by apply Forall_take|by apply Forall_drop].
  - destruct Hf as ((i & j & Hi1%at_py & Hj%at_py) & Hp & Hct). destruct pos as [row col]. cbn in Hi1, Hj.
    destruct (cell_at_rect nc t i j Hr) as [c Hc]; [rewrite L1; by eapply py_index_lt|by eapply py_index_lt|].
    destruct (set_new_pos s W t row col i j e c HI) as (s' & en & -> & Ee & _ & HR); try done; [by rewrite L1|by rewrite Hw|].
    apply (Rch_expanded _ _ _ _ _ HR); [done|]. intros t' [Q1 Q2]. unfold all_single. rewrite Q1, Q2. split; [|done].
    apply put_cell_single; [done|]. by rewrite Ee.
  - destruct Hf as ((i & j & Hi1%at_py & Hj%at_py) & t0 & en & Ht0 & Hsub & Hp & Hct & Hx & Hnt). destruct pos as [row col]. cbn in Hi1, Hj.
    rewrite (Inv_table_node _ _ _ HI) in Ht0. injection Ht0 as <-.
    destruct (cell_at_rect nc t i j Hr) as [c Hc]; [rewrite L1; by eapply py_index_lt|by eapply py_index_lt|].
    destruct (set_cell_pos s W t row col i j x en c HI) as (s' & W1 & t' & -> & HI' & _ & R & _ & Q1 & Q2); try done; [by rewrite L1|by rewrite Hw|].
    exists t'. split; [by eapply Inv_table_node|]. split; [unfold ltag in *; by rewrite R|]. apply unrepeated_parts.
    unfold all_single. rewrite Q1, Q2. split; [|done]. apply put_cell_single; [done|]. by apply Hcl.
  - destruct Hf as ((i & j & Hi1%at_py & Hj%at_py) & Hp). destruct pos as [row col]. cbn in Hi1, Hj.
    destruct (cell_at_rect nc t i j Hr) as [c Hc]; [rewrite L1; by eapply py_index_lt|by eapply py_index_lt|].
    destruct (cell_at_row _ _ _ _ Hc) as (r & Hr1 & Hr2).
    destruct (write_cell_step s W t i r j c (row, col) f HI Hr1 Hr2) as (s' & c' & -> & _ & Ec & HR).
    + rewrite (get_cell_eq s W t row col i j HI); [by rewrite Hc|by rewrite L1|by rewrite Hw].
    + apply Hp. apply cellish_plain. pose proof (row_cellish s W t i r HI Hr1) as Hcc. rewrite Forall_forall in Hcc. apply Hcc.
      by eapply elem_of_list_lookup_2.
    + apply (Rch_expanded _ _ _ _ _ HR); [done|]. intros t' [Q1 Q2]. unfold all_single. rewrite Q1, Q2. split; [|done].
      apply put_cell_single; [done|]. rewrite Ec. apply Hcl. apply doc_rows_of in Hr1. rewrite Forall_forall in U1.
      destruct (U1 (part_of r)) as [_ Hk]; [by eapply elem_of_list_lookup_2|]. rewrite Forall_forall in Hk. apply Hk.
      by eapply elem_of_list_lookup_2.
  - destruct size as [r c]. cbn in Hf. destruct Hf as [F1 F2].
    destruct (reset_ok s W t nm r c HI A1 A2 F1 F2) as (s' & W' & t' & -> & HI' & _ & R & (G1 & G2 & G3 & G4) & _).
    exists t'. split; [by eapply Inv_table_node|]. split; [unfold ltag in *; by rewrite R|]. apply unrepeated_parts.
    split; [by eapply empty_rows_single|by apply empty_cols_single].
  - rewrite (clear_eq s W t HI).
    destruct (reset_ok s W t nm (Z.of_nat (length (doc_rows t))) (Z.of_nat (wid t)) HI A1 A2) as (s' & W' & t' & -> & HI' & _ & R & (G1 & G2 & G3 & G4) & _); [lia|lia|].
    exists t'. split; [by eapply Inv_table_node|]. split; [unfold ltag in *; by rewrite R|]. apply unrepeated_parts.
    split; [by eapply empty_rows_single|by apply empty_cols_single].
  - destruct (set_name_ok s W t v HI Hf) as (s' & -> & HI' & _).
    eexists. split; [by eapply Inv_table_node|]. split; [by rewrite renamed_tag|]. apply unrepeated_parts.
    unfold all_single, doc_rows, doc_cols. fold ROW COL. by rewrite !renamed_ldesc.
Qed.

Lemma clean_history_ok s z s' z' : clean_history s z s' z' -> sane s -> in_step s -> sized s z.1 z.2 -> expanded s ->
  sized_history s z s' z' /\ sane s' /\ in_step s' /\ sized s' z'.1 z'.2 /\ expanded s'.
Proof.
  intros Hh H1 H2 H3 H4. induction Hh as [s z|s z s1 nr nc o Hh IH Hf Hc]; [by split_and!; [constructor|..]|].
  destruct (IH H1 H2 H3 H4) as (I0 & I1 & I2 & I3 & I4). destruct (fits_run o s1 nr nc I1 I2 I3 Hf) as (s2 & E & J1 & J2 & J3).
  split; [by constructor|]. pose proof (fits_clean o s1 nr nc I1 I2 I3 I4 Hf Hc) as J4. by rewrite E in *.
Qed.

Lemma rep_no_repeat k e : rep k e = Ok 1%Z -> no_repeat k e.
Proof. unfold rep, no_repeat. intros H v E. by rewrite E in H. Qed.
Lemma show_runs_single st max l : Forall (good_rep REPC) l ->
  Forall (no_repeat REPC) (concat (map (show_run REPC) (shown st max (runs REPC l)))).
Proof.
  intros Hg. apply Forall_forall. intros c Hc. apply elem_of_list_In, in_concat in Hc as (m & Hm & Hc).
  apply in_map_iff in Hm as ([n x] & <- & Hx). apply elem_of_list_In in Hx, Hc. unfold show_run in Hc. cbn in Hc.
  apply elem_of_replicate in Hc as [-> _]. apply shown_in in Hx as [_ [m Hm]]. unfold runs in Hm.
  apply elem_of_list_fmap in Hm as (y & E & Hy). injection E as -> ->. apply rep_no_repeat, norm1_rep.
  rewrite Forall_forall in Hg. by apply Hg.
Qed.

Lemma part_erase_of l : map part_erase (map part_of l) = map (fun e => (nd_set_tail None (root e), kids e)) (map erase l).
Proof. rewrite !map_map. apply map_ext. intros r. unfold part_erase, part_of. cbn. by rewrite erase_root, erase_kids. Qed.
Lemma erase_doc_rows t t' : erase t = erase t' -> map part_erase (doc_rows t) = map part_erase (doc_rows t').
Proof. intros E. unfold doc_rows. by rewrite !part_erase_of, !erase_ldesc, E. Qed.
Lemma erase_doc_cols t t' : erase t = erase t' -> map part_erase (doc_cols t) = map part_erase (doc_cols t').
Proof. intros E. unfold doc_cols. by rewrite !part_erase_of, !erase_ldesc, E. Qed.
Lemma erase_T a ks : erase (T a ks) = T (pl a) (map erase ks).
Proof. done. Qed.
Lemma erase_plug1 V t t' : erase t = erase t' -> erase (plug V [t]) = erase (plug V [t']).
Proof.
  intros E. induction V as [a l r|a l V IH r]; cbn [plug]; rewrite !erase_T; f_equal; rewrite !map_app; cbn [map app]; by rewrite ?E, ?IH.
Qed.

Lemma ldesc_plugged tg t k : k ∈ ldesc tg t -> exists c, t = plug c [k].
Proof.
  induction t as [a ks IH] using tree_ind'. rewrite ldesc_T. intros (z & Hz & Hk)%elem_of_flat_map.
  apply elem_of_list_split in Hz as (l & r & ->). apply Forall_app in IH as [_ IH]. apply Forall_cons in IH as [IH _].
  unfold lself in Hk. apply elem_of_app in Hk as [Hk|Hk].
  - case_decide; [|by apply elem_of_nil in Hk]. apply elem_of_list_singleton in Hk as ->. by exists (Here a l r).
  - destruct (IH Hk) as [c ->]. by exists (Deep a l c r).
Qed.
Lemma plug_root_id c (k : node) : NoDup (ids (plug c [k])) -> nid k <> nid (plug c [k]).
Proof.
  intros Hn E. destruct (NoDup_plug_hole c k (nid k) Hn (nid_in k)) as [H1 _]. apply H1. rewrite E.
  destruct c; cbn; left.
Qed.
Lemma desc_sub m r u tg : ordered m -> sub (nid r) (store m) = Some r -> u ∈ ldesc tg r ->
  nid u <> nid (store m) /\ sub (nid u) (store m) = Some u.
Proof.
  intros [Hn _] Hr Hu. apply ldesc_plugged in Hu as [c ->]. apply sub_Some in Hr as [_ [Hr|[V Hr]]].
  - rewrite <- Hr in *. split; [by apply plug_root_id|by apply sub_plug].
  - rewrite Hr, <- plug_ccomp in *. split; [by apply plug_root_id|by apply sub_plug].
Qed.

Lemma reload_ok s t nc s2 x u strat mc : sane s -> table_node s = Some t -> ltag t = TABLE -> unrepeated (erase t) -> rect nc t ->
  max_ok strat mc -> ordered s2 -> x <> nid (store s2) -> sub x (store s2) = Some u -> erase u = erase t ->
  exists s' u' V, load strat mc x s2 = (s', Ok tt) /\ Inv s' V u' /\ store s2 = plug V [u] /\ erase u' = erase t /\ nid u' = x.
Proof.
  intros Hs Ht Htag Hun Hr Hm [O1 O2] Hx Hu Eu. destruct (sub_Some _ _ _ Hu) as (Hid & [->|[V HV]]); [congruence|].
  assert (Hfl : flat (erase t)).
  { apply flat_no_nesting. destruct Hs as (_ & _ & _ & t' & Ht' & Hn). rewrite Ht in Ht'. by injection Ht' as <-. }
  destruct (unrepeated_normal nc t Htag Hr Hun) as (N1 & N2 & N3).
  destruct (load_ok s2 x V u (erase t) (erase t) strat mc HV Hid O1 O2) as (s' & u' & E & HI & E' & Hid' & _).
  - rewrite Eu. by eapply normalize_normal.
  - apply expand_normal; try done. intros Es. by apply Hm in Es as [? ?].
  - done.
  - exists s', u', V. by split_and!.
Qed.
End reload.
