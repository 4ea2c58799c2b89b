(** Theorems C12-C18, C20, C21 and C51: the table object. *)
From Verif Require Import TableUtilsProofs TableAccess.

Local Arguments label : simpl never.
Local Arguments edit : simpl never.
Local Arguments sub : simpl never.
Local Arguments ldesc : simpl never.
Local Arguments ids : simpl never.

(** ** C12 *)

(** Whatever operations follow each other, successful or failing (a reset has to
    succeed): the cached rows and columns are those found in the document. *)
Theorem C12_view_follows_document `{Unicode} :
  forall s s', sane s -> in_step s -> reach s s' -> sane s' /\ in_step s'.
Proof.
  intros s s' H1 H2 Hr. destruct (sane_Inv s H1 H2) as (W & t & HI & _).
  destruct (reach_Inv s s' W t HI Hr) as (W' & t' & HI' & _). by eapply Inv_sane.
Qed.
Print Assumptions C12_view_follows_document.

(** It starts that way: a loaded table and a new table. *)
Theorem C12_loaded `{Unicode} :
  forall s x u strat mc,
    NoDup (ids (store s)) -> Forall (fun y => y < nxt s)%N (ids (store s)) ->
    x <> nid (store s) -> sub x (store s) = Some u -> max_ok strat mc -> good_table (erase u) ->
    Forall (good_rep "table:number-columns-repeated") (descendants "table:table-column" (erase u)) ->
    exists s' t, load strat mc x s = (s', Ok tt) /\ sane s' /\ in_step s' /\ table_node s' = Some t /\
      nid t = x /\ rect (width strat mc (erase u)) t /\ length (doc_rows t) = height strat mc (erase u).
Proof.
  intros s x u strat mc Hnd Hfr Hx Hs Hm Hg Hc.
  destruct (sub_Some _ _ _ Hs) as (Hid & [->|[V HV]]); [congruence|].
  destruct (normalize_table_ok strat mc (erase u) Hm Hg) as (e1 & E1 & R1 & D1 & C1 & F1).
  destruct (expand_columns_ok strat mc.2 e1) as (e & E2 & R2 & C2 & D2 & F2); [intros Hst; by apply Hm|done|by rewrite C1|].
  destruct (load_ok s x V u e1 e strat mc HV Hid Hnd Hfr E1 E2 F2) as (s' & u' & E & HI & Eu & Hid' & _).
  exists s', u'. destruct (Inv_sane _ _ _ HI). split_and!; try done; [by eapply Inv_table_node| |].
  - pose proof (normal_rows_out strat mc _ _ Hg D1) as Hn. rewrite <- D2, <- Eu, <- erase_ldesc in Hn.
    unfold rect, doc_rows. fold ROW. change (map ?f ?l) with (f <$> l). apply Forall_fmap.
    change (map ?f ?l) with (f <$> l) in Hn. rewrite Forall_fmap in Hn. eapply Forall_impl; [exact Hn|].
    intros r (_ & _ & Hl). cbn in *. rewrite <- Hl. destruct r as [a ks]. cbn. by rewrite map_length.
  - unfold doc_rows. fold ROW. rewrite map_length, <- (map_length erase), erase_ldesc, Eu, D2, D1.
    apply (rle_concat_length (fun r => pad (width strat mc (erase u)) (RO strat mc r))).
Qed.
Print Assumptions C12_loaded.

Theorem C12_new `{Unicode} :
  forall s strat mc v nr nc,
    NoDup (ids (store s)) -> Forall (fun y => y < nxt s)%N (ids (store s)) -> max_ok strat mc ->
    normalize_sheet_name v <> [] -> (1 <= nr)%Z -> (1 <= nc)%Z ->
    exists s' t, new_table strat mc v (nr, nc) s = (s', Ok tt) /\ sane s' /\ in_step s' /\ table_node s' = Some t /\
      is_grid (Z.to_nat nr) (Z.to_nat nc) t /\
      pl (root t) = Nd "table:table" {["table:name" := normalize_sheet_name v]} None None.
Proof.
  intros s strat mc v nr nc H1 H2 H3 H4 H5 H6.
  destruct (new_table_ok s strat mc v nr nc H1 H2 H4 H5 H6 H3) as (s' & W & t & E & HI & R & G & _).
  exists s', t. destruct (Inv_sane _ _ _ HI). split_and!; try done. by eapply Inv_table_node.
Qed.
Print Assumptions C12_new.

(** What a caller sees then: the rows of the document, in document order. *)
Theorem C12_rows_read `{Unicode} :
  forall s t, sane s -> in_step s -> table_node s = Some t ->
    nrows s = (s, Ok (Z.of_nat (length (doc_rows t)))) /\
    rows s = (s, Ok (map p_kids (doc_rows t))) /\
    (forall i k p, at_index (length (doc_rows t)) i k -> doc_rows t !! k = Some p ->
       exists r, row_info (INum i) s = (s, Ok r) /\ part_of r = p) /\
    (forall i k p, at_index (length (doc_cols t)) i k -> doc_cols t !! k = Some p ->
       exists c, column_info (INum i) s = (s, Ok c) /\ part_of c = p).
Proof.
  intros s t H1 H2 H3. destruct (to_Inv s t H1 H2 H3) as [W HI]. split_and!.
  - rewrite (nrows_eq _ _ _ HI). by rewrite <- parts_length, parts_rows.
  - by eapply rows_ok.
  - intros i k p Hk%at_py Hp. destruct (ctl_row_ok s W t i k p HI Hk Hp) as (r & E & Er). exists r. split; [|done].
    unfold row_info, row_index, abind, aret. by rewrite E.
  - intros i k p Hk%at_py Hp. by eapply column_info_ok.
Qed.
Print Assumptions C12_rows_read.

(** ** a table to try things on *)
Definition s0 : st := St (T (L 0%N (Nd "store" ∅ None None)) []) 1 (TObj 0%N [] []).
Definition demo : st := (new_table (U := ascii_unicode) ExpandAll (32, 32)%Z (lit "t") (3, 3)%Z s0).1.

Lemma demo_ok : exists t,  sane demo /\ in_step demo /\ table_node demo = Some t /\ is_grid 3 3 t /\
  pl (root t) = Nd "table:table" {["table:name" := lit "t"]} None None /\
  new_table (U := ascii_unicode) ExpandAll (32, 32)%Z (lit "t") (3, 3)%Z s0 = (demo, Ok tt).
Proof.
  destruct (C12_new (H := ascii_unicode) s0 ExpandAll (32, 32)%Z (lit "t") 3 3) as (s' & t & E & H1 & H2 & H3 & H4 & H5).
  1-6: try done; try (apply (bool_decide_unpack _); vm_compute; exact I).
  assert (Ed : demo = s') by (unfold demo; by rewrite E).
  rewrite Ed. exists t. split; [exact H1|]. split; [exact H2|]. split; [exact H3|]. split; [exact H4|]. split; [exact H5|exact E].
Qed.
Global Opaque demo.
Lemma grid_rect nr nc t : is_grid nr nc t -> rect nc t.
Proof. intros (_ & _ & Hr & _). by apply empty_rows_rect. Qed.
Lemma demo_sized : sized (U := ascii_unicode) demo 3 3.
Proof.
  destruct demo_ok as (t & H1 & H2 & H3 & H4 & H5 & _). exists t, (lit "t"). pose proof H4 as (L1 & L2 & _).
  split; [exact H3|]. split; [exact L1|]. split; [exact L2|]. split; [by eapply grid_rect|]. split; [lia|]. split; [lia|].
  split; [by rewrite H5|]. apply (bool_decide_unpack _). vm_compute. exact I.
Qed.

(** The hypotheses of C12 hold of a new table, and failing calls are allowed. *)
Example C12_case : sane demo /\ in_step demo /\
  reach (U := ascii_unicode) demo (run_op (U := ascii_unicode) (ODeleteRows 2 2) demo).1 /\
  (run_op (U := ascii_unicode) (ODeleteRows 2 2) demo).2 = Err IndexError.
Proof.
  destruct demo_ok as (t & H1 & H2 & _). split; [exact H1|]. split; [exact H2|]. split; [|vm_compute; reflexivity].
  eapply reach_step; [apply reach_refl|done].
Qed.

(** A reset that fails has already removed the rows from the document, while the table
    object still has its old row list. *)
Theorem C12_failed_reset_counterexample :
  exists s s', sane s /\ in_step s /\ reset (U := ascii_unicode) (0, 3)%Z s = (s', Err ValueError) /\ ~ in_step s'.
Proof.
  exists demo. destruct demo_ok as (t & H1 & H2 & _). eexists. split; [exact H1|]. split; [exact H2|]. split; [vm_compute; reflexivity|].
  intros (t' & Ht & Hr & _). vm_compute in Ht. injection Ht as <-. vm_compute in Hr. done.
Qed.
Print Assumptions C12_failed_reset_counterexample.

(** ** C13 *)

(** After every history of calls with arguments in range, the number of rows and columns
    is the one computed from the arguments alone, and all rows have that many cells. *)
Theorem C13_sizes `{Unicode} :
  forall s nr nc s' z, sane s -> in_step s -> sized s nr nc -> sized_history s (nr, nc) s' z ->
    sane s' /\ in_step s' /\ sized s' z.1 z.2 /\
    nrows s' = (s', Ok (Z.of_nat z.1)) /\ ncols s' = (s', Ok (Z.of_nat z.2)).
Proof.
  intros s nr nc s' z H1 H2 H3 Hh.
  assert (HG : sane s' /\ in_step s' /\ sized s' z.1 z.2).
  { remember (nr, nc) as z0 eqn:Ez. induction Hh as [s z0|s z0 s1 nr1 nc1 o Hh IH Hf]; [by subst|].
    destruct (IH H1 H2 H3 Ez) as (I1 & I2 & I3).
    destruct (fits_run o s1 nr1 nc1 I1 I2 I3 Hf) as (s2 & E & R). by rewrite E. }
  destruct HG as (I1 & I2 & I3). split_and!; try done.
  - destruct (sized_Inv _ _ _ I1 I2 I3) as (W & t & o & HI & L1 & _). rewrite (nrows_eq _ _ _ HI).
    by rewrite <- parts_length, parts_rows, L1.
  - destruct (sized_Inv _ _ _ I1 I2 I3) as (W & t & o & HI & L1 & _ & Hr & L2 & _). rewrite (ncols_eq _ _ _ HI).
    rewrite (rect_wid _ _ Hr); [done|]. intros E. rewrite E in L1. cbn in L1. lia.
Qed.
Print Assumptions C13_sizes.

(** None of these calls fails. *)
Theorem C13_calls_succeed `{Unicode} :
  forall o s nr nc, sane s -> in_step s -> sized s nr nc -> fits o s nr nc -> (run_op o s).2 = Ok tt.
Proof. intros o s nr nc H1 H2 H3 H4. destruct (fits_run o s nr nc H1 H2 H3 H4) as (s' & -> & _). done. Qed.
Print Assumptions C13_calls_succeed.

(** A call that moves a cell of the table to another place takes it away from its row:
    the rows then differ in length.  Hence the condition on [OSetOld]. *)
Theorem C13_moved_cell_counterexample :
  exists s s' x t, sane s /\ in_step s /\ sized (U := ascii_unicode) s 3 3 /\
    set_cell (0, 0)%Z x s = (s', Ok tt) /\ table_node s' = Some t /\
    map (fun p => length (p_kids p)) (doc_rows t) = [3; 2; 3].
Proof.
  exists demo. destruct demo_ok as (t & H1 & H2 & H3 & _).
  eexists _, 9%N, _. split; [exact H1|]. split; [exact H2|]. split; [apply demo_sized|].
  split; [vm_compute; reflexivity|]. split; [vm_compute; reflexivity|]. vm_compute. reflexivity.
Qed.
Print Assumptions C13_moved_cell_counterexample.

Example C13_case : exists s', sized_history (U := ascii_unicode) demo (3, 3) s' (4, 2) /\
  nrows s' = (s', Ok 4%Z) /\ ncols s' = (s', Ok 2%Z).
Proof.
  exists (run_op (U := ascii_unicode) (ODeleteCols (-2) 1) (run_op (U := ascii_unicode) (OInsertRows 1 1) demo).1).1. split.
  - apply (sh_step _ _ _ 4 3 (ODeleteCols (-2) 1)).
    + apply (sh_step _ _ _ 3 3 (OInsertRows 1 1)); [apply sh_refl|]. split; [lia|]. exists 1. left. lia.
    + split; [lia|]. exists 1. split; [right|]; lia.
  - vm_compute. split; reflexivity.
Qed.

(** ** C14 *)
Theorem C14_append_rows `{Unicode} :
  forall s t nc n, sane s -> in_step s -> table_node s = Some t -> rect nc t -> doc_rows t <> [] -> (1 <= n)%Z ->
    exists s' t' ps, append_rows n s = (s', Ok tt) /\ sane s' /\ in_step s' /\ table_node s' = Some t' /\
      root t' = root t /\ length ps = Z.to_nat n /\ Forall (is_empty_row nc) ps /\
      doc_rows t' = doc_rows t ++ ps /\ doc_cols t' = doc_cols t.
Proof.
  intros s t nc n H1 H2 H3 Hr Hne Hn. destruct (to_Inv s t H1 H2 H3) as [W HI].
  destruct (append_rows_ok s W t n HI) as (s' & E & HR); [|done|].
  { intros E. apply Hne. unfold doc_rows. fold ROW. by rewrite E. }
  destruct (Rch_out _ _ _ _ _ HR) as (t' & I1 & I2 & I3 & I4 & ps & L1 & L2 & _ & L3 & L4).
  rewrite (rect_wid _ _ Hr Hne) in L2. by exists s', t', ps.
Qed.
Print Assumptions C14_append_rows.

Theorem C14_insert_rows `{Unicode} :
  forall s t nc i k n, sane s -> in_step s -> table_node s = Some t -> rect nc t ->
    at_index (length (doc_rows t)) i k -> (1 <= n)%Z ->
    exists s' t' ps, insert_rows i n s = (s', Ok tt) /\ sane s' /\ in_step s' /\ table_node s' = Some t' /\
      root t' = root t /\ length ps = Z.to_nat n /\ Forall (is_empty_row nc) ps /\
      doc_rows t' = take k (doc_rows t) ++ ps ++ drop k (doc_rows t) /\ doc_cols t' = doc_cols t.
Proof.
  intros s t nc i k n H1 H2 H3 Hr Hk%at_py Hn. destruct (to_Inv s t H1 H2 H3) as [W HI].
  destruct (insert_rows_ok s W t i n k HI Hk Hn) as (s' & E & HR).
  destruct (Rch_out _ _ _ _ _ HR) as (t' & I1 & I2 & I3 & I4 & ps & L1 & L2 & _ & L3 & L4).
  rewrite (rect_wid _ _ Hr) in L2; [by exists s', t', ps|]. apply py_index_lt in Hk. by destruct (doc_rows t); cbn in Hk; [lia|].
Qed.
Print Assumptions C14_insert_rows.

Theorem C14_delete_rows `{Unicode} :
  forall s t i k n, sane s -> in_step s -> table_node s = Some t ->
    at_index (length (doc_rows t)) i k -> (1 <= n < Z.of_nat (length (doc_rows t)))%Z ->
    k + Z.to_nat n <= length (doc_rows t) ->
    exists s' t', delete_rows i n s = (s', Ok tt) /\ sane s' /\ in_step s' /\ table_node s' = Some t' /\
      root t' = root t /\
      doc_rows t' = take k (doc_rows t) ++ drop (k + Z.to_nat n) (doc_rows t) /\ doc_cols t' = doc_cols t.
Proof.
  intros s t i k n H1 H2 H3 Hk%at_py Hn Hkn. destruct (to_Inv s t H1 H2 H3) as [W HI].
  destruct (delete_rows_ok s W t i n k HI Hk Hn Hkn) as (s' & E & HR).
  destruct (Rch_out _ _ _ _ _ HR) as (t' & I1 & I2 & I3 & I4 & L1 & L2). by exists s', t'.
Qed.
Print Assumptions C14_delete_rows.

Example C14_case : exists t, sane demo /\ in_step demo /\ table_node demo = Some t /\ rect 3 t /\
  at_index (length (doc_rows t)) (-1) 2 /\ at_index (length (doc_rows t)) 1 1 /\ 1 + Z.to_nat 2 <= length (doc_rows t).
Proof.
  destruct demo_ok as (t & H1 & H2 & H3 & H4 & _). exists t. pose proof (grid_rect _ _ _ H4). destruct H4 as (L & _).
  rewrite L. split; [exact H1|]. split; [exact H2|]. split; [exact H3|]. split; [assumption|].
  split; [right; lia|]. split; [left; lia|lia].
Qed.

(** ** C15 *)
Theorem C15_append_columns `{Unicode} :
  forall s t n, sane s -> in_step s -> table_node s = Some t -> doc_cols t <> [] -> (1 <= n)%Z ->
    exists s' t' ps, append_columns n s = (s', Ok tt) /\ sane s' /\ in_step s' /\ table_node s' = Some t' /\
      root t' = root t /\
      Forall2 (fun p p' => cells_inserted (length (p_kids p)) (Z.to_nat n) p p') (doc_rows t) (doc_rows t') /\
      length ps = Z.to_nat n /\ Forall is_empty_col ps /\ doc_cols t' = doc_cols t ++ ps.
Proof.
  intros s t n H1 H2 H3 Hne Hn. destruct (to_Inv s t H1 H2 H3) as [W HI].
  destruct (append_columns_ok s W t n HI Hne Hn) as (s' & E & HR).
  destruct (Rch_out _ _ _ _ _ HR) as (t' & I1 & I2 & I3 & I4 & L1 & ps & L2 & L3 & L4). by exists s', t', ps.
Qed.
Print Assumptions C15_append_columns.

Theorem C15_insert_columns `{Unicode} :
  forall s t i k n, sane s -> in_step s -> table_node s = Some t -> rect (length (doc_cols t)) t -> doc_rows t <> [] ->
    at_index (length (doc_cols t)) i k -> (1 <= n)%Z ->
    exists s' t' ps, insert_columns i n s = (s', Ok tt) /\ sane s' /\ in_step s' /\ table_node s' = Some t' /\
      root t' = root t /\
      Forall2 (cells_inserted k (Z.to_nat n)) (doc_rows t) (doc_rows t') /\
      length ps = Z.to_nat n /\ Forall is_empty_col ps /\
      doc_cols t' = take k (doc_cols t) ++ ps ++ drop k (doc_cols t).
Proof.
  intros s t i k n H1 H2 H3 Hr Hne Hk%at_py Hn. destruct (to_Inv s t H1 H2 H3) as [W HI].
  destruct (insert_columns_ok s W t i n k HI Hr Hne Hk Hn) as (s' & E & HR).
  destruct (Rch_out _ _ _ _ _ HR) as (t' & I1 & I2 & I3 & I4 & L1 & ps & L2 & L3 & L4). by exists s', t', ps.
Qed.
Print Assumptions C15_insert_columns.

Theorem C15_delete_columns `{Unicode} :
  forall s t i k n, sane s -> in_step s -> table_node s = Some t -> rect (length (doc_cols t)) t -> doc_rows t <> [] ->
    at_index (length (doc_cols t)) i k -> (1 <= n < Z.of_nat (length (doc_cols t)))%Z ->
    k + Z.to_nat n <= length (doc_cols t) ->
    exists s' t', delete_columns i n s = (s', Ok tt) /\ sane s' /\ in_step s' /\ table_node s' = Some t' /\
      root t' = root t /\
      Forall2 (cells_deleted k (Z.to_nat n)) (doc_rows t) (doc_rows t') /\
      doc_cols t' = take k (doc_cols t) ++ drop (k + Z.to_nat n) (doc_cols t).
Proof.
  intros s t i k n H1 H2 H3 Hr Hne Hk%at_py Hn Hkn. destruct (to_Inv s t H1 H2 H3) as [W HI].
  destruct (delete_columns_ok s W t i n k HI Hr Hne Hk Hn Hkn) as (s' & E & HR).
  destruct (Rch_out _ _ _ _ _ HR) as (t' & I1 & I2 & I3 & I4 & L1 & L2). by exists s', t'.
Qed.
Print Assumptions C15_delete_columns.

Example C15_case : exists t, sane demo /\ in_step demo /\ table_node demo = Some t /\
  rect (length (doc_cols t)) t /\ doc_rows t <> [] /\ doc_cols t <> [] /\
  at_index (length (doc_cols t)) (-2) 1 /\ 1 + Z.to_nat 2 <= length (doc_cols t).
Proof.
  destruct demo_ok as (t & H1 & H2 & H3 & H4 & _). exists t. pose proof (grid_rect _ _ _ H4). destruct H4 as (L & L' & _).
  rewrite L'. split; [exact H1|]. split; [exact H2|]. split; [exact H3|]. split; [assumption|].
  split; [intros E; by rewrite E in L|]. split; [intros E; by rewrite E in L'|]. split; [right; lia|lia].
Qed.

(** ** C16 *)
Lemma denotes_index `{Unicode} key r c : denotes key r c -> get_cell_index key = Ok (r, c).
Proof. intros [->|(w & Hw & Hr & ->)]; [done|]. cbn. by apply address_name. Qed.

(** Reading a position gives the cell there. *)
Theorem C16_get `{Unicode} :
  forall s t nc key r c i j x, sane s -> in_step s -> table_node s = Some t -> rect nc t ->
    denotes key r c -> at_index (length (doc_rows t)) r i -> at_index nc c j ->
    cell_at t i j = Some x -> table_getitem key s = (s, Ok x).
Proof.
  intros s t nc key r c i j x H1 H2 H3 Hr Hd Hi%at_py Hj%at_py Hx. destruct (to_Inv s t H1 H2 H3) as [W HI].
  unfold table_getitem, abind, alift. rewrite (denotes_index _ _ _ Hd).
  rewrite (get_cell_eq s W t r c i j HI Hi), Hx; [done|]. rewrite (rect_wid nc); try done.
  apply py_index_lt in Hi. by destruct (doc_rows t); cbn in Hi; [lia|].
Qed.
Print Assumptions C16_get.

(** Writing a cell: it is read back, every other position keeps its cell. *)
Theorem C16_set_get `{Unicode} :
  forall s t nc key r c i j x en, sane s -> in_step s -> table_node s = Some t -> rect nc t ->
    denotes key r c -> at_index (length (doc_rows t)) r i -> at_index nc c j ->
    sub x (store s) = Some en -> plain (erase en) -> is_cell_tag (ltag en) -> x ∉ ids t -> nid t ∉ ids en ->
    exists s' t', table_setitem key x s = (s', Ok tt) /\ sane s' /\ in_step s' /\ table_node s' = Some t' /\
      root t' = root t /\ table_getitem key s' = (s', Ok en) /\ cell_at t' i j = Some en /\
      (forall i' j', (i', j') <> (i, j) -> cell_at t' i' j' = cell_at t i' j') /\
      length (doc_rows t') = length (doc_rows t) /\ rect nc t' /\
      map (fun p => (p_id p, p_nd p)) (doc_rows t') = map (fun p => (p_id p, p_nd p)) (doc_rows t) /\
      doc_cols t' = doc_cols t.
Proof.
  intros s t nc key r c i j x en H1 H2 H3 Hr Hd Hi Hj Hs Hp Htg Hx Hnt. destruct (to_Inv s t H1 H2 H3) as [W HI].
  pose proof Hi as Hi'. pose proof Hj as Hj'. apply at_py in Hi, Hj.
  pose proof (py_index_lt _ _ _ Hi) as Li. pose proof (py_index_lt _ _ _ Hj) as Lj.
  assert (Hne : doc_rows t <> []) by (by destruct (doc_rows t); cbn in Li; [lia|]).
  destruct (cell_at_rect nc t i j Hr Li Lj) as [c0 Hc0].
  destruct (set_cell_pos s W t r c i j x en c0) as (s' & W1 & t' & E & HI' & _ & Hrt & _ & Hrows & Hcols); try done.
  { by rewrite (rect_wid nc). }
  destruct (Inv_sane _ _ _ HI') as [I1 I2]. pose proof (Inv_table_node _ _ _ HI') as I3.
  assert (Hlen : length (doc_rows t') = length (doc_rows t)) by (by rewrite Hrows, put_cell_length).
  assert (Hr' : rect nc t') by (unfold rect; rewrite Hrows; by apply put_cell_rect).
  exists s', t'. split_and!; try done.
  - unfold table_setitem, abind, alift. by rewrite (denotes_index _ _ _ Hd).
  - apply (C16_get s' t' nc key r c i j); try done; [by rewrite Hlen|]. by eapply cell_at_put.
  - by eapply cell_at_put.
  - intros i' j' Hij. by eapply cell_at_other.
  - rewrite Hrows. unfold put_cell. destruct (doc_rows t !! i) as [p|] eqn:Ep; [|done].
    change (map ?f ?l) with (f <$> l). rewrite list_fmap_insert. cbn. rewrite list_insert_id; [done|].
    by rewrite list_lookup_fmap, Ep.
Qed.
Print Assumptions C16_set_get.

(** Changing a cell in place (its value, its text): the same. *)
Theorem C16_write `{Unicode} :
  forall s t nc r c i j x f, sane s -> in_step s -> table_node s = Some t -> rect nc t ->
    at_index (length (doc_rows t)) r i -> at_index nc c j -> cell_at t i j = Some x -> plain (f (erase x)) ->
    exists s' t' x', write_cell (r, c) f s = (s', Ok tt) /\ sane s' /\ in_step s' /\ table_node s' = Some t' /\
      root t' = root t /\ cell_at t' i j = Some x' /\ nid x' = nid x /\ erase x' = f (erase x) /\
      (forall i' j', (i', j') <> (i, j) -> cell_at t' i' j' = cell_at t i' j') /\
      length (doc_rows t') = length (doc_rows t) /\ rect nc t' /\ doc_cols t' = doc_cols t.
Proof.
  intros s t nc r c i j x f H1 H2 H3 Hr Hi%at_py Hj%at_py Hx Hp. destruct (to_Inv s t H1 H2 H3) as [W HI].
  pose proof (py_index_lt _ _ _ Hi) as Li. pose proof (py_index_lt _ _ _ Hj) as Lj.
  assert (Hne : doc_rows t <> []) by (by destruct (doc_rows t); cbn in Li; [lia|]).
  destruct (cell_at_row _ _ _ _ Hx) as (rw & Hrw & Hc).
  destruct (write_cell_step s W t i rw j x (r, c) f HI Hrw Hc) as (s' & x' & E & Hn & He & HR); [|done|].
  { rewrite (get_cell_eq s W t r c i j HI Hi), Hx; [done|]. by rewrite (rect_wid nc). }
  destruct (Rch_out _ _ _ _ _ HR) as (t' & I1 & I2 & I3 & I4 & Hrows & Hcols).
  exists s', t', x'. split_and!; try done.
  - by eapply cell_at_put.
  - intros i' j' Hij. by eapply cell_at_other.
  - by rewrite Hrows, put_cell_length.
  - unfold rect. rewrite Hrows. by apply put_cell_rect.
Qed.
Print Assumptions C16_write.

(** the address 'B3' in a 3x3 table, and a new cell without parent *)
Example C16_case : exists t en s, new_root (e_set "office:value" (lit "1") (new_elem "table:table-cell")) demo = (s, Ok 18%N) /\
  sane s /\ in_step s /\ table_node s = Some t /\ rect 3 t /\ denotes (RStr (lit "B3")) 2 1 /\ at_index (length (doc_rows t)) 2 2 /\
  at_index 3 1 1 /\ sub 18%N (store s) = Some en /\ plain (erase en) /\ is_cell_tag (ltag en) /\ 18%N ∉ ids t /\ nid t ∉ ids en.
Proof.
  destruct demo_ok as (t & H1 & H2 & H3 & H4 & _). pose proof (grid_rect _ _ _ H4) as Hr. destruct H4 as (L & _).
  destruct (to_Inv _ _ H1 H2 H3) as [W HI].
  destruct (new_root_step demo W t (e_set "office:value" (lit "1") (new_elem "table:table-cell")) HI)
    as (en & n' & E & Ee & En & _ & HI1 & Hs & Hfr & _).
  assert (E18 : nxt demo = 18%N) by (vm_compute; reflexivity).
  rewrite En, E18 in *. eexists t, en, _. split; [exact E|]. destruct (Inv_sane _ _ _ HI1) as [I1 I2].
  split; [exact I1|]. split; [exact I2|]. split; [by eapply Inv_table_node|]. split; [exact Hr|]. split.
  { right. exists (lit "B"). split; [|split; [lia|vm_compute; reflexivity]].
    change (lit "B") with [66%N]. change 1%Z with (Z.of_N 66 - 65)%Z. constructor. lia. }
  split; [rewrite L; left; lia|]. split; [left; lia|]. split; [exact Hs|].
  rewrite Ee. split; [clear; done|]. split.
  { rewrite (ltag_erase en), Ee. clear. by left. }
  assert (Hin : nid en ∈ ids en) by apply nid_in. split.
  - intros Hx. rewrite En in Hin. apply (Hfr _ Hin). rewrite (i_store _ _ _ HI), ids_plug1. apply elem_of_app. right. apply elem_of_app. by left.
  - intros Hx. apply (Hfr _ Hx). rewrite (i_store _ _ _ HI), ids_plug1. apply elem_of_app. right. apply elem_of_app. left. apply nid_in.
Qed.

(** ** C17 *)

(** Appending and inserting rows, placing a cell, changing a cell and renaming either
    succeed or leave the table as it was. *)
Theorem C17_one_step_calls `{Unicode} :
  forall o s s' e, sane s -> in_step s -> one_step o -> allowed o s -> run_op o s = (s', Err e) -> unchanged s s'.
Proof.
  intros o s s' e H1 H2 Ho Ha E. destruct (sane_Inv s H1 H2) as (W & t & HI & _).
  destruct o; try done; cbn [run_op] in E.
  - by eapply append_rows_fail.
  - by eapply insert_rows_fail.
  - by eapply set_new_fail.
  - destruct (set_cell_any s W t pos x HI) as (s1 & q & W' & t' & E1 & _ & _ & _ & Hq).
    { intros en Hen. cbn in Ha. rewrite <- (i_rt _ _ _ HI). by apply Ha. }
    rewrite E in E1. injection E1 as <- <-. by destruct Hq as [Hq| ->].
  - apply (write_cell_fail s W t) in E as ->; [done|done|exact Ha].
  - by apply set_name_fail in E as ->.
Qed.
Print Assumptions C17_one_step_calls.

(** Deleting rows or columns with a count or a start that is out of range, and adding
    fewer than one column: the call fails and nothing at all has changed. *)
Theorem C17_bad_arguments `{Unicode} :
  forall s t nc i n, sane s -> in_step s -> table_node s = Some t -> rect nc t -> doc_rows t <> [] ->
    ((n < 1 \/ Z.of_nat (length (doc_rows t)) <= n \/ Z.of_nat (length (doc_rows t)) <= i \/
      i < - 2 * Z.of_nat (length (doc_rows t)))%Z -> exists e, delete_rows i n s = (s, Err e)) /\
    ((n < 1 \/ Z.of_nat nc <= n \/ Z.of_nat nc <= i \/ i < - 2 * Z.of_nat nc)%Z ->
      exists e, delete_columns i n s = (s, Err e)) /\
    ((n < 1)%Z -> append_columns n s = (s, Err ValueError) /\ insert_columns i n s = (s, Err ValueError)).
Proof.
  intros s t nc i n H1 H2 H3 Hr Hne. destruct (to_Inv s t H1 H2 H3) as [W HI]. split_and!.
  - by eapply delete_rows_fail.
  - rewrite <- (rect_wid _ _ Hr Hne). by eapply delete_columns_fail.
  - by apply count_fail.
Qed.
Print Assumptions C17_bad_arguments.

(** The remaining calls are not all-or-nothing.  Deleting past the end removes the rows
    up to the end before it fails. *)
Theorem C17_delete_rows_past_end_counterexample :
  exists s s' t t', sane s /\ in_step s /\ delete_rows 2 2 s = (s', Err IndexError) /\
    table_node s = Some t /\ table_node s' = Some t' /\
    length (doc_rows t) = 3 /\ length (doc_rows t') = 2.
Proof.
  exists demo. destruct demo_ok as (t & H1 & H2 & H3 & _). vm_compute in H3.
  eexists _, t, _. split; [exact H1|]. split; [exact H2|]. split; [vm_compute; reflexivity|].
  split; [vm_compute; exact H3|]. injection H3 as <-. split; [vm_compute; reflexivity|].
  split; vm_compute; reflexivity.
Qed.
Print Assumptions C17_delete_rows_past_end_counterexample.

(** Deleting columns past the end shortens the first row only. *)
Theorem C17_delete_columns_past_end_counterexample :
  exists s s' t', sane s /\ in_step s /\ sized (U := ascii_unicode) s 3 3 /\
    delete_columns 2 2 s = (s', Err IndexError) /\ table_node s' = Some t' /\
    map (fun p => length (p_kids p)) (doc_rows t') = [2; 3; 3].
Proof.
  exists demo. destruct demo_ok as (t & H1 & H2 & _).
  eexists _, _. split; [exact H1|]. split; [exact H2|]. split; [apply demo_sized|]. split; [vm_compute; reflexivity|].
  split; [vm_compute; reflexivity|]. vm_compute; reflexivity.
Qed.
Print Assumptions C17_delete_columns_past_end_counterexample.

(** Inserting columns past the end adds a cell to each row before it fails. *)
Theorem C17_insert_columns_past_end_counterexample :
  exists s s' t', sane s /\ in_step s /\ sized (U := ascii_unicode) s 3 3 /\
    insert_columns 3 1 s = (s', Err IndexError) /\ table_node s' = Some t' /\
    map (fun p => length (p_kids p)) (doc_rows t') = [4; 4; 4] /\ length (doc_cols t') = 3.
Proof.
  exists demo. destruct demo_ok as (t & H1 & H2 & _).
  eexists _, _. split; [exact H1|]. split; [exact H2|]. split; [apply demo_sized|]. split; [vm_compute; reflexivity|].
  split; [vm_compute; reflexivity|]. split; vm_compute; reflexivity.
Qed.
Print Assumptions C17_insert_columns_past_end_counterexample.

(** A reset with a size below one empties the table and then fails. *)
Theorem C17_reset_counterexample :
  exists s s' t', sane s /\ in_step s /\ sized (U := ascii_unicode) s 3 3 /\
    reset (U := ascii_unicode) (0, 3)%Z s = (s', Err ValueError) /\ table_node s' = Some t' /\ doc_rows t' = [].
Proof.
  exists demo. destruct demo_ok as (t & H1 & H2 & _).
  eexists _, _. split; [exact H1|]. split; [exact H2|]. split; [apply demo_sized|]. split; [vm_compute; reflexivity|].
  split; vm_compute; reflexivity.
Qed.
Print Assumptions C17_reset_counterexample.

Example C17_case : sane demo /\ in_step demo /\
  (run_op (U := ascii_unicode) (OInsertRows 3 1) demo).2 = Err IndexError /\
  (run_op (U := ascii_unicode) (OSetNew (3, 0)%Z (new_elem "table:table-cell")) demo).2 = Err IndexError /\
  (run_op (U := ascii_unicode) (OSetName (lit " ")) demo).2 = Err ValueError.
Proof.
  destruct demo_ok as (t & H1 & H2 & _). split; [exact H1|]. split; [exact H2|].
  split; [vm_compute; reflexivity|]. split; vm_compute; reflexivity.
Qed.

(** ** C18 *)
Theorem C18_same_cells `{Unicode} :
  forall s t nc r c i j, sane s -> in_step s -> table_node s = Some t -> rect nc t ->
    at_index (length (doc_rows t)) r i -> at_index nc c j ->
    exists x rw cl, cell_at t i j = Some x /\
      table_getitem (RTuple (r, c)) s = (s, Ok x) /\
      row (INum r) s = (s, Ok rw) /\ rw !! j = Some x /\ length rw = nc /\
      column (INum c) s = (s, Ok cl) /\ cl !! i = Some x /\ length cl = length (doc_rows t).
Proof.
  intros s t nc r c i j H1 H2 H3 Hr Hi Hj. destruct (to_Inv s t H1 H2 H3) as [W HI].
  pose proof Hi as Hi'. pose proof Hj as Hj'. apply at_py in Hi', Hj'.
  pose proof (py_index_lt _ _ _ Hi') as Li. pose proof (py_index_lt _ _ _ Hj') as Lj.
  destruct (cell_at_rect nc t i j Hr Li Lj) as [x Hx].
  destruct (lookup_lt_is_Some_2 _ _ Li) as [p Hp].
  destruct (column_ok s W t nc c j HI Hr Hj') as (cl & E & L & Hc).
  exists x, (p_kids p), cl. split_and!; try done.
  - apply (C16_get s t nc _ r c i j); try done. by left.
  - by apply (row_ok s W t r i p).
  - unfold cell_at in Hx. by rewrite Hp in Hx.
  - unfold rect in Hr. rewrite Forall_forall in Hr. apply Hr. by eapply elem_of_list_lookup_2.
  - by rewrite Hc.
Qed.
Print Assumptions C18_same_cells.

(** rows() and columns() list all cells, by row and by column. *)
Theorem C18_rows_columns `{Unicode} :
  forall s t nc, sane s -> in_step s -> table_node s = Some t -> rect nc t -> doc_rows t <> [] ->
    exists rs cs, rows s = (s, Ok rs) /\ columns s = (s, Ok cs) /\
      length rs = length (doc_rows t) /\ length cs = nc /\
      (forall i j, i < length (doc_rows t) -> j < nc -> exists rw cl x, cell_at t i j = Some x /\
         rs !! i = Some rw /\ rw !! j = Some x /\ cs !! j = Some cl /\ cl !! i = Some x).
Proof.
  intros s t nc H1 H2 H3 Hr Hne. destruct (to_Inv s t H1 H2 H3) as [W HI].
  destruct (columns_ok s W t nc HI Hr Hne) as (cs & E & L & Hcs).
  exists (map p_kids (doc_rows t)), cs. split_and!; try done; [by eapply rows_ok|by rewrite map_length|].
  intros i j Li Lj. destruct (cell_at_rect nc t i j Hr Li Lj) as [x Hx].
  destruct (lookup_lt_is_Some_2 _ _ Li) as [p Hp]. destruct (lookup_lt_is_Some_2 cs j) as [cl Hcl]; [lia|].
  exists (p_kids p), cl, x. split_and!; try done.
  - change (map ?f ?l) with (f <$> l). by rewrite list_lookup_fmap, Hp.
  - unfold cell_at in Hx. by rewrite Hp in Hx.
  - destruct (Hcs _ _ Hcl) as [_ Hc]. by rewrite Hc.
Qed.
Print Assumptions C18_rows_columns.

Example C18_case : exists t, sane demo /\ in_step demo /\ table_node demo = Some t /\ rect 3 t /\
  at_index (length (doc_rows t)) (-1) 2 /\ at_index 3 (-3) 0.
Proof.
  destruct demo_ok as (t & H1 & H2 & H3 & H4 & _). exists t. pose proof (grid_rect _ _ _ H4). destruct H4 as (L & _).
  rewrite L. split; [exact H1|]. split; [exact H2|]. split; [exact H3|]. split; [assumption|]. split; right; lia.
Qed.

(** ** C20 *)

(** The copy has the same content, except the name; the original is as before. *)
Theorem C20_copy `{Unicode} :
  forall s t nc strat mc n, sane s -> in_step s -> table_node s = Some t -> ltag t = "table:table" -> rect nc t ->
    unrepeated (erase t) -> max_ok strat mc -> normalize_sheet_name n <> [] ->
    exists s' u, copy strat mc (Some n) s = (s', Ok tt) /\
      sane s' /\ in_step s' /\ table_node s' = Some u /\
      sane (set_obj (obj s) s') /\ in_step (set_obj (obj s) s') /\ table_node (set_obj (obj s) s') = Some t /\
      erase u = e_set "table:name" (normalize_sheet_name n) (erase t) /\
      (forall x, x ∈ ids u -> x ∉ ids (store s)).
Proof.
  intros s t nc strat mc n H1 H2 H3 Htg Hr Hu Hm Hn. destruct (to_Inv s t H1 H2 H3) as [W HI].
  destruct (copy_ok s W t strat mc nc (Some n) n HI Hm) as (s' & W' & V & u & u' & E & HI1 & HI2 & _ & _ & _ & Eu & -> & Hfr & _).
  - by apply unrepeated_normal.
  - by left.
  - done.
  - destruct (Inv_sane _ _ _ HI1). destruct (Inv_sane _ _ _ HI2).
    exists s', (renamed (normalize_sheet_name n) u'). split_and!; try done.
    + by eapply Inv_table_node.
    + by eapply Inv_table_node.
    + rewrite <- Eu. by destruct u' as [[? ?] ?].
Qed.
Print Assumptions C20_copy.

Lemma reach2_Two `{Unicode} p q t u : reach2 p q -> Two p.1 p.2 t u -> exists t' u', Two q.1 q.2 t' u'.
Proof.
  induction 1 as [p|p q b o Hr IH Ha Ho]; intros HT; [by eauto|]. destruct (IH HT) as (t1 & u1 & HT1).
  assert (Ho' : forall pos x, o <> OSetOld pos x) by (by destruct o).
  destruct q as [s o2]. destruct b; cbn in Ha |- *.
  - destruct (Two_step _ _ _ _ o (Two_sym _ _ _ _ HT1) Ha Ho') as (u2 & HT2).
    exists t1, u2. by apply Two_sym in HT2.
  - destruct (Two_step _ _ _ _ o HT1 Ha Ho') as (t2 & HT2). by exists t2, u1.
Qed.

(** Whatever is done to the two tables after the copy: a call on one of them leaves the
    other one, its elements and its table object, as they are. *)
Theorem C20_independent `{Unicode} :
  forall s t nc strat mc n s' q b o, sane s -> in_step s -> table_node s = Some t -> ltag t = "table:table" -> rect nc t ->
    unrepeated (erase t) -> max_ok strat mc -> normalize_sheet_name n <> [] ->
    copy strat mc (Some n) s = (s', Ok tt) ->
    reach2 (s', obj s) q -> allowed o (view b q) -> not_old o ->
    unchanged (view (negb b) q) (view (negb b) (run2 b o q)) /\
    sane (view b (run2 b o q)) /\ in_step (view b (run2 b o q)) /\
    sane (view (negb b) (run2 b o q)) /\ in_step (view (negb b) (run2 b o q)).
Proof.
  intros s t nc strat mc n s' q b o H1 H2 H3 Htg Hr Hu Hm Hn Ec Hq Ha Ho.
  destruct (to_Inv s t H1 H2 H3) as [W HI].
  assert (HT0 : exists u, Two s' (obj s) u t).
  { destruct (copy_ok s W t strat mc nc (Some n) n HI Hm) as (s1 & W' & V & u & u' & E & HI1 & HI2 & _ & HO1 & HO2 & _).
    - by apply unrepeated_normal.
    - by left.
    - done.
    - rewrite Ec in E. injection E as <-. exists u, V, W'. by split_and!. }
  destruct HT0 as [u HT0]. destruct (reach2_Two (s', obj s) q u t Hq HT0) as (u1 & t1 & HT1).
  assert (Ho' : forall pos x, o <> OSetOld pos x) by (by destruct o).
  destruct q as [s2 o2]. cbn [fst snd] in HT1. destruct (Two_nodes _ _ _ _ HT1) as [N1 N2]. destruct b; cbn in Ha |- *.
  - destruct (Two_step _ _ _ _ o (Two_sym _ _ _ _ HT1) Ha Ho') as (t2 & HT2).
    apply Two_sym in HT2. destruct (Two_nodes _ _ _ _ HT2) as [N3 N4].
    destruct HT2 as (W1 & V1 & A1 & A2 & _). cbn in *. destruct (Inv_sane _ _ _ A1), (Inv_sane _ _ _ A2).
    split_and!; try done. split; [|done]. by rewrite N1.
  - destruct (Two_step _ _ _ _ o HT1 Ha Ho') as (u2 & HT2). destruct (Two_nodes _ _ _ _ HT2) as [N3 N4].
    destruct HT2 as (W1 & V1 & A1 & A2 & _). destruct (Inv_sane _ _ _ A1), (Inv_sane _ _ _ A2).
    split_and!; try done. split; [|done]. by rewrite N2.
Qed.
Print Assumptions C20_independent.

(** Without a new name the copy is called after the original. *)
Theorem C20_copy_default_name `{Unicode} :
  forall s t nc strat mc old, sane s -> in_step s -> table_node s = Some t -> ltag t = "table:table" -> rect nc t ->
    unrepeated (erase t) -> max_ok strat mc -> attrs (pl (root t)) !! "table:name" = Some old ->
    exists s' u, copy strat mc None s = (s', Ok tt) /\ sane s' /\ in_step s' /\ table_node s' = Some u /\
      erase u = e_set "table:name" (normalize_sheet_name (lit "CopyOf" ++ old)) (erase t).
Proof.
  intros s t nc strat mc old H1 H2 H3 Htg Hr Hu Hm Ho. destruct (to_Inv s t H1 H2 H3) as [W HI].
  destruct (copy_ok s W t strat mc nc None (lit "CopyOf" ++ old) HI Hm) as (s' & W' & V & u & u' & E & HI1 & _ & _ & _ & _ & Eu & -> & _).
  - by apply unrepeated_normal.
  - right. by eauto.
  - change (lit "CopyOf") with (67 :: lit "opyOf")%N. intros Hs. unfold normalize_sheet_name in Hs.
    change [9; 13; 39; 34]%N with broken in Hs. rewrite subst_all in Hs. cbn [app map] in Hs.
    destruct (strip_split (subst1 67 :: map subst1 (lit "opyOf" ++ old))) as (p & q & Es & Hp & Hq & _).
    rewrite Hs in Es. cbn in Es. change (subst1 67) with 67%N in Es.
    assert (H67 : u_space 67 = true).
    { destruct p as [|c p]; cbn in Es.
      - destruct q as [|c q]; [done|]. injection Es as <- _. by apply Forall_cons in Hq as [? _].
      - injection Es as <- _. by apply Forall_cons in Hp as [? _]. }
    by rewrite u_space_ascii in H67.
  - destruct (Inv_sane _ _ _ HI1). exists s', (renamed (normalize_sheet_name (lit "CopyOf" ++ old)) u'). split_and!; try done.
    + by eapply Inv_table_node.
    + rewrite <- Eu. by destruct u' as [[? ?] ?].
Qed.
Print Assumptions C20_copy_default_name.

Example C20_case : exists t, sane demo /\ in_step demo /\ table_node demo = Some t /\ ltag t = "table:table" /\ rect 3 t /\
  unrepeated (U := ascii_unicode) (erase t) /\ normalize_sheet_name (U := ascii_unicode) (lit "new 'name'") <> [].
Proof.
  destruct demo_ok as (t & H1 & H2 & H3 & H4 & H5 & _). exists t. pose proof (grid_rect _ _ _ H4) as Hr.
  split; [exact H1|]. split; [exact H2|]. split; [exact H3|]. split; [unfold ltag; by rewrite H5|]. split; [exact Hr|].
  split; [|apply (bool_decide_unpack _); vm_compute; exact I].
  vm_compute in H3. injection H3 as <-. clear. split.
  - repeat (constructor; [split; [by intros s E; vm_compute in E|]; repeat (constructor; [by intros s E; vm_compute in E|]); constructor|]). constructor.
  - repeat (constructor; [by intros s E; vm_compute in E|]). constructor.
Qed.

(** ** C21 *)

(** tab, carriage return and the two quotes *)
Definition breaking (c : N) : Prop := c ∈ [9; 13; 39; 34]%N.

Theorem C21_normal_form `{Unicode} :
  forall v, Forall (fun c => ~ breaking c) (normalize_sheet_name v) /\
    (forall c, head (normalize_sheet_name v) = Some c -> u_space c = false) /\
    (forall c, last (normalize_sheet_name v) = Some c -> u_space c = false) /\
    normalize_sheet_name (normalize_sheet_name v) = normalize_sheet_name v.
Proof.
  intros v. split_and!; [exact (normalize_clean v)| | |exact (normalize_idem v)].
  all: unfold normalize_sheet_name; by edestruct strip_split as (? & ? & _ & _ & _ & H1 & H2).
Qed.
Print Assumptions C21_normal_form.

Theorem C21_keeps_clean_names `{Unicode} :
  forall v, Forall (fun c => ~ breaking c) v ->
    (forall c, head v = Some c -> u_space c = false) -> (forall c, last v = Some c -> u_space c = false) ->
    normalize_sheet_name v = v.
Proof. exact normalize_id. Qed.
Print Assumptions C21_keeps_clean_names.

(** The characters are replaced one for one by spaces, then white space at both ends goes. *)
Theorem C21_what_is_stored `{Unicode} :
  forall v, exists p q, map (fun c => if decide (breaking c) then 32%N else c) v = p ++ normalize_sheet_name v ++ q /\
    Forall (fun c => u_space c = true) p /\ Forall (fun c => u_space c = true) q.
Proof.
  intros v. unfold normalize_sheet_name. change [9; 13; 39; 34]%N with broken. rewrite subst_all.
  destruct (strip_split (map subst1 v)) as (p & q & E & Hp & Hq & _). exists p, q. split_and!; try done.
Qed.
Print Assumptions C21_what_is_stored.

(** Renaming a table stores the normalised name and changes nothing else in the table;
    a name of which nothing is left is refused. *)
Theorem C21_rename `{Unicode} :
  forall s t v, sane s -> in_step s -> table_node s = Some t ->
    (normalize_sheet_name v = [] /\ set_name v s = (s, Err ValueError)) \/
    (normalize_sheet_name v <> [] /\ exists s' t', set_name v s = (s', Ok tt) /\ sane s' /\ in_step s' /\
       table_node s' = Some t' /\ kids t' = kids t /\ nid t' = nid t /\ obj s' = obj s /\
       erase t' = e_set "table:name" (normalize_sheet_name v) (erase t) /\
       get_name s' = (s', Ok (Some (normalize_sheet_name v)))).
Proof.
  intros s t v H1 H2 H3. destruct (to_Inv s t H1 H2 H3) as [W HI].
  destruct (decide (normalize_sheet_name v = [])) as [Hv|Hv]; [left; split; [done|by apply set_name_bad]|].
  right. split; [done|]. destruct (set_name_ok s W t v HI Hv) as (s' & E & HI' & Ho & _).
  destruct (Inv_sane _ _ _ HI'). exists s', (renamed (normalize_sheet_name v) t). split_and!; try done.
  - by eapply Inv_table_node.
  - by apply renamed_kids.
  - by apply renamed_nid.
  - by destruct t as [[? ?] ?].
  - unfold get_name, abind, aget. rewrite (deref_table _ _ _ HI'). unfold aret. do 3 f_equal.
    destruct t as [[? a] ?]. cbn. by rewrite lookup_insert.
Qed.
Print Assumptions C21_rename.

Example C21_case : normalize_sheet_name (U := ascii_unicode) ([9]%N ++ lit "it's 1") = lit "it s 1".
Proof. vm_compute. reflexivity. Qed.

(** ** C51 *)

(** Everything around the table stays as it is; nodes that were taken out of the table
    are added to the list of nodes without parent. *)
Theorem C51_rest_untouched `{Unicode} :
  forall o s m, sane s -> in_step s -> allowed o s -> not_old o ->
    rt (obj (run_op o s).1) = rt (obj s) /\
    exists ks, around m (run_op o s).1 = T (root (around m s)) (kids (around m s) ++ ks).
Proof.
  intros o s m H1 H2 Ha Ho. destruct (sane_Inv s H1 H2) as (W & t & HI & _).
  destruct (op_Keep s W t o HI Ha) as (W' & t' & HI' & Hg & Hid & _); [by destruct o|].
  split; [by rewrite (i_rt _ _ _ HI), (i_rt _ _ _ HI'), Hid|].
  rewrite (around_eq _ _ _ _ HI), (around_eq _ _ _ _ HI'). by apply grow_kids_root.
Qed.
Print Assumptions C51_rest_untouched.

Example C51_case : allowed (U := ascii_unicode) (ODeleteRows 0 1) demo /\ not_old (ODeleteRows 0 1) /\
  (run_op (U := ascii_unicode) (ODeleteRows 0 1) demo).2 = Ok tt.
Proof. split; [exact I|]. split; [exact I|]. vm_compute. reflexivity. Qed.
