(** Spans in the sheets of a workbook. *)
From Verif Require Export BookProps.
From Verif Require Import T_CellSpan CellSpanProofs SheetProofs TableUtilsProofs TableMain.

Local Arguments edit : simpl never.
Local Arguments sub : simpl never.
Local Arguments ldesc : simpl never.
Local Arguments ids : simpl never.

Section spans.
Context `{U : Unicode}.

(** ** Cells and grid *)
Lemma g_cell_at t i j : g_cell (cells t) i j = erase <$> cell_at t i j.
Proof.
  unfold g_cell, cells, cell_at. change (map ?h (doc_rows t)) with (h <$> doc_rows t). rewrite list_lookup_fmap.
  destruct (doc_rows t !! i) as [p|]; [|done]. cbn. change (map erase (p_kids p)) with (erase <$> p_kids p). by rewrite list_lookup_fmap.
Qed.
Lemma all_cells_only t : all_cells (cells t) -> cells_only t.
Proof. intros H i j x Hx. rewrite ltag_erase. apply (H i j). by rewrite g_cell_at, Hx. Qed.
Lemma span_says_at (x : node) h w : span_says (erase x) h w <-> cell_spans x h w.
Proof. unfold span_says, cell_spans. by destruct x. Qed.
Lemma g_cell_inv t i j e : g_cell (cells t) i j = Some e -> exists x, cell_at t i j = Some x /\ e = erase x.
Proof. rewrite g_cell_at. destruct (cell_at t i j) as [x|]; [|done]. intros [= <-]. eauto. Qed.

Lemma changed_cells F h t t' : cells_changed F t t' -> (forall i j x, erase (F i j x) = h i j (erase x)) -> cells t' = recell h (cells t).
Proof.
  intros HC He. pose proof (cc_length _ _ _ HC) as HL. apply list_eq. intros i. unfold recell. rewrite list_lookup_imap.
  unfold cells. change (map ?h (doc_rows ?t)) with (h <$> doc_rows t). rewrite !list_lookup_fmap.
  destruct (doc_rows t' !! i) as [p'|] eqn:E'; destruct (doc_rows t !! i) as [p|] eqn:E; cbn; [|exfalso|exfalso|done].
  2: { apply lookup_lt_Some in E'. apply lookup_ge_None in E. lia. }
  2: { apply lookup_lt_Some in E. apply lookup_ge_None in E'. lia. }
  f_equal. apply list_eq. intros j. rewrite list_lookup_imap. change (map erase ?l) with (erase <$> l). rewrite !list_lookup_fmap.
  destruct HC as (_ & _ & _ & HC). specialize (HC i j). unfold cell_at in HC. rewrite E, E' in HC. cbn in HC. rewrite HC.
  destruct (p_kids p !! j) as [x|]; [|done]. cbn. by rewrite He.
Qed.
Lemma recell_length h g : length (recell h g) = length g.
Proof. apply imap_length. Qed.
Lemma recell_breadth h g : breadth (recell h g) = breadth g.
Proof. destruct g; [done|]. cbn. apply imap_length. Qed.

Lemma erase_span r c h w i j x : erase (span_effect r c h w i j x) =
  (if decide ((i, j) = (r, c)) then e_master h w (erase x) else if decide (in_rect r c h w i j) then e_cover (erase x) else erase x).
Proof.
  unfold span_effect. repeat case_decide; try done; [by destruct x|]. unfold cover, e_cover. pose proof (ltag_erase x) as E. repeat case_decide; try congruence. by destruct x.
Qed.
Lemma erase_unspan r c h w i j x : erase (unspan_effect r c h w i j x) =
  (if decide ((i, j) = (r, c)) then e_unspan (erase x) else if decide (in_rect r c h w i j) then e_uncover (erase x) else erase x).
Proof. unfold unspan_effect. repeat case_decide; try done; by destruct x. Qed.

(** a changed table is a table *)
Lemma changed_tabular F h s s' W t n g f : Inv s W t -> tabular (erase t) n g f -> Rch s W t (cells_changed F t) s' ->
  (forall i j x, erase (F i j x) = h i j (erase x)) ->
  (forall i j x, attrs (pl (root (F i j x))) !! "table:number-columns-repeated" = attrs (pl (root x)) !! "table:number-columns-repeated") ->
  exists W' t', Inv s' W' t' /\ grow W W' /\ nid t' = nid t /\ (nxt s <= nxt s')%N /\ tabular (erase t') n (recell h g) f.
Proof.
  intros HI Ht (W' & t' & HI' & Hg & Hrt & Hnx & HC) He Hrep. exists W', t'. split_and!; try done; [unfold nid; by rewrite Hrt|].
  apply tabular_parts in Ht as (T1 & T2 & T3 & A1 & A2 & <- & L2 & P1 & P2 & Hr & ->). pose proof (changed_cells F h t t' HC He) as Hc.
  apply unrepeated_parts in T2 as [S1 S2]. destruct HC as (C1 & C2 & C3 & C4).
  assert (Hcc : cells_changed F t t') by (by split_and!).
  apply tabular_parts. rewrite recell_length, recell_breadth, C2. split_and!; try done.
  - unfold ltag. by rewrite C1.
  - apply unrepeated_parts. split; [|by rewrite C2]. apply Forall_lookup. intros i p' Hp'.
    destruct (cc_row F t t' i p' Hcc Hp') as (p & Hp & Q1 & Q2 & Q3). rewrite Forall_lookup in S1. destruct (S1 i p Hp) as [R1 R2]. split; [by rewrite Q2|].
    apply Forall_lookup. intros j x' Hx'. rewrite Forall_lookup in R2.
    assert (Hx : cell_at t' i j = Some x') by (unfold cell_at; by rewrite Hp').
    rewrite C4 in Hx. unfold cell_at in Hx. rewrite Hp in Hx. cbn in Hx. destruct (p_kids p !! j) as [x|] eqn:Ex; [|done]. injection Hx as <-.
    specialize (R2 j x Ex). cbn beta in R2 |- *. unfold single in *. intros v. specialize (R2 v). revert R2. unfold e_get, e_attrs. rewrite !erase_root.
    change (attrs (nd_set_tail ?a ?b)) with (attrs b). fold REPC in Hrep. by rewrite Hrep.
  - apply HI'.
  - by rewrite C1.
  - by eapply cc_rect.
  - unfold fmts. rewrite C1, C2. f_equal. apply (f_equal (map (fun q : N * nd * nat => attrs (q.1.2)))) in C3. rewrite !map_map in C3. by cbn in C3.
Qed.

Lemma denotes_fun key r c r' c' : denotes key r c -> denotes key r' c' -> r = r' /\ c = c'.
Proof. intros H H'. apply denotes_idx in H, H'. rewrite H in H'. by injection H' as -> ->. Qed.

Lemma span_step s W t n g f o r g' : Inv s W t -> tabular (erase t) n g f -> all_cells g -> spans_to g o r g' ->
  exists s' W' t', do_span o s = (s', r) /\ Inv s' W' t' /\ grow W W' /\ nid t' = nid t /\ (nxt s <= nxt s')%N /\ tabular (erase t') n g' f.
Proof.
  intros HI Ht Hall Hs. pose proof Ht as Ht'. apply tabular_parts in Ht' as (T1 & T2 & T3 & A1 & A2 & <- & L2 & P1 & P2 & Hr & ->).
  pose proof (all_cells_only t Hall) as Hco.
  assert (Hsame : do_span o s = (s, r) -> g' = cells t -> exists s' W' t', do_span o s = (s', r) /\ Inv s' W' t' /\ grow W W' /\ nid t' = nid t /\ (nxt s <= nxt s')%N /\ tabular (erase t') n g' (fmts t)).
  { intros E ->. exists s, W, t. split_and!; try done; constructor. }
  destruct Hs as [key r c h w Hd Hh Hw Hne H1 H2 Hsp|key r c h w Hd Hb|key r c h w Hd Hh Hw Hout|key r c h w i j e Hd Hh Hw H1 H2 Hij Hc Hsp|key r c h w e Hd Hc Hsp Hne Ha1 Ha2 H1 H2|key r c e Hd Hc Hsp];
    cbn [do_span] in *; unfold set_cell_span, remove_cell_span in *; unfold abind at 1, alift; unfold abind at 1 in Hsame; unfold alift in Hsame;
    rewrite (denotes_idx _ _ _ Hd) in *; rewrite ?cells_length in *.
  - destruct (set_span_ok s W t (breadth (cells t)) r c h w HI Hr Hco Hh Hw Hne H1 H2) as (s' & E & HR).
    { intros i j x Hij Hx. apply span_says_at. apply (Hsp i j); [done|]. by rewrite g_cell_at, Hx. }
    exists s'. edestruct (changed_tabular (span_effect r c h w) (fun i j e => if decide ((i, j) = (r, c)) then e_master h w e else if decide (in_rect r c h w i j) then e_cover e else e) s s' W t n (cells t) (fmts t) HI Ht HR (erase_span r c h w)) as (W' & t' & H); [|by exists W', t'].
    intros i j x. unfold span_effect. repeat case_decide; try done; [|unfold cover; case_decide; [done|]]; destruct x as [[? []] ?]; cbn; simplify_map_eq; done.
  - apply Hsame; [|done]. unfold set_span, check_pos_and_size, abind. case_decide; [done|]. by rewrite decide_True by lia.
  - apply Hsame; [|done]. unfold set_span, abind. rewrite (check_ok s W t _ _ _ _ _ HI Hr Hh Hw). by rewrite decide_False by lia.
  - apply Hsame; [|done]. apply (set_span_spanned s W t (breadth (cells t))); try done. apply g_cell_inv in Hc as (x & Hx & ->). exists i, j, x. split_and!; try done.
    by rewrite <- span_says_at.
  - apply g_cell_inv in Hc as (x & Hx & ->). apply span_says_at in Hsp. unfold attrs_of in Ha1, Ha2. rewrite erase_root in Ha1, Ha2. 
    destruct (remove_span_ok s W t (breadth (cells t)) r c h w x HI Hr Hco Hx Hsp Hne Ha1 Ha2 H1 H2) as (s' & E & HR).
    exists s'. edestruct (changed_tabular (unspan_effect r c h w) (fun i j e => if decide ((i, j) = (r, c)) then e_unspan e else if decide (in_rect r c h w i j) then e_uncover e else e) s s' W t n (cells t) (fmts t) HI Ht HR (erase_unspan r c h w)) as (W' & t' & H); [|by exists W', t'].
    intros i j y. unfold unspan_effect. repeat case_decide; try done; destruct y as [[? []] ?]; cbn; simplify_map_eq; done.
  - apply Hsame; [|done]. apply g_cell_inv in Hc as (x & Hx & ->). apply span_says_at in Hsp. by apply (remove_span_none s W t (breadth (cells t)) r c x).
Qed.

(** ** One outcome *)
Lemma spans_fun k a n m : spans k a n -> spans k a m -> n = m.
Proof. intros H%span_attr_spans H'%span_attr_spans. congruence. Qed.
Lemma span_says_fun e h w h' w' : span_says e h w -> span_says e h' w' -> h = h' /\ w = w'.
Proof. intros [A B] [A' B']. split; by eapply spans_fun. Qed.
Lemma spans_to_det g o r1 g1 r2 g2 : spans_to g o r1 g1 -> spans_to g o r2 g2 -> r1 = r2 /\ g1 = g2.
Proof.
  intros H1 H2. destruct H1; inversion H2; subst; try done;
    repeat match goal with A : denotes ?k _ _, B : denotes ?k _ _ |- _ => destruct (denotes_fun _ _ _ _ _ A B) as [? ?]; clear A end;
    simplify_eq; repeat match goal with H : Z.of_nat _ = Z.of_nat _ |- _ => apply Nat2Z.inj in H end; subst; try done; try lia.
  all: try (exfalso; match goal with A : ~ span_says ?e 1 1, B : forall i j e, _ |- _ => apply A; by eapply B end).
  - simplify_eq. match goal with A : span_says ?e _ _, B : span_says ?e _ _ |- _ => destruct (span_says_fun _ _ _ _ _ A B) as [? ?] end.
    repeat match goal with H : Z.of_nat _ = Z.of_nat _ |- _ => apply Nat2Z.inj in H end. by subst.
  - exfalso. simplify_eq. match goal with A : span_says ?e _ _, B : span_says ?e _ _ |- _ => destruct (span_says_fun _ _ _ _ _ A B) as [? ?] end.
    match goal with H : (_, _) <> _ |- _ => apply H end. f_equal; lia.
  - exfalso. simplify_eq. match goal with A : span_says ?e _ _, B : span_says ?e _ _ |- _ => destruct (span_says_fun _ _ _ _ _ A B) as [? ?] end.
    match goal with H : (_, _) <> _ |- _ => apply H end. f_equal; lia.
Qed.
End spans.
