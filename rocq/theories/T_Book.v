(** C69: workbooks: any number of sheets, edited in any order, saved and opened again. *)
From Verif Require T_Document T_Table T_TableSaved.
From Verif Require Import BookSaved SheetProofs DocumentProofs TableMain SpanLayout.

(** C69.  An opened document is a workbook nobody has asked for a sheet of. *)
Theorem C69_start `{U : Unicode} S n ca (r y : node) : opened_book S n ca r y ->
  Rep (sheets (nid y)) (rest_of S y) (Bk S n ca) (book_of y).
Proof.
  intros (Hw & Hf & He & Hs & Hy & Hca). destruct (spreadsheet_parts _ _ Hy) as (ob & _ & Iob & _ & _ & Iy & _).
  assert (Sob : sub (nid ob) S = Some ob). { apply (el_kids_sub S (nid r)); [done|]. unfold el_kids. by rewrite Hs. }
  assert (Sy : sub (nid y) S = Some y). { apply (el_kids_sub S (nid ob)); [done|]. unfold el_kids. by rewrite Sob. }
  apply Rep_start; try done. eapply (tree_elements S (nid r) r); try done. eapply in_kids_ids; [exact Iob|]. eapply in_kids_ids; [exact Iy|]. apply nid_in.
Qed.
Print Assumptions C69_start.

(** C69.  Every operation that is used as it is meant does to the sheets what [wstep] says,
    and with this result it can only be this. *)
Theorem C69_step `{U : Unicode} `{F : PyFloat} y K b w (o : kop) : Rep (sheets y) K b w -> sensible o w ->
  exists w', wstep o w (do_book (sheets y) o b).2 w' /\ Rep (sheets y) K (do_book (sheets y) o b).1 w' /\
    (forall w2, wstep o w (do_book (sheets y) o b).2 w2 -> w2 = w').
Proof.
  intros R Hs. destruct (step_rep y K b w o R Hs) as (w' & H1 & H2). exists w'. split_and!; try done. intros w2 H3. by eapply wstep_det.
Qed.
Print Assumptions C69_step.

(** C69.  The result is determined, too, but for the identity of a new sheet. *)
Theorem C69_result `{U : Unicode} `{F : PyFloat} y K b w (o : kop) r w' : Rep (sheets y) K b w -> ~ makes o -> wstep o w r w' ->
  (do_book (sheets y) o b).2 = r /\ Rep (sheets y) K (do_book (sheets y) o b).1 w'.
Proof.
  intros R Hm Hs. destruct (C69_step y K b w o R) as (w2 & H1 & H2 & _); [by eexists _, _|]. by destruct (wstep_fun o w _ _ _ _ Hm Hs H1) as [-> ->].
Qed.
Print Assumptions C69_result.

(** C69.  So after any program the document pictures the workbook. *)
Theorem C69_works `{U : Unicode} `{F : PyFloat} S n ca (r y : node) rs b w : opened_book S n ca r y ->
  works (sheets (nid y)) (Bk S n ca) (book_of y) rs b w -> Rep (sheets (nid y)) (rest_of S y) b w.
Proof.
  intros Ho Hw. apply C69_start in Ho. remember (Bk S n ca) as b0 eqn:Eb. remember (book_of y) as w0 eqn:Ew. induction Hw as [b w|b w rs b1 w1 o w2 Hw IH Hs]; subst; [done|].
  destruct (C69_step _ _ _ _ o (IH eq_refl eq_refl Ho)) as (w' & _ & R & Hd); [by eexists _, _|]. by rewrite (Hd w2 Hs).
Qed.
Print Assumptions C69_works.

(** C69.  What can be read of it: the sheets in their order with their names, and of every
    sheet that is open its name, its size, every cell and every attribute of the sheet, of its
    rows and of its columns. *)
Theorem C69_reads `{U : Unicode} y K b w : Rep (sheets y) K b w ->
  pc_len (sheets y) (k_store b) = length (w_list w) /\ pc_iter (sheets y) (k_store b) = w_list w /\
  pc_names (sheets y) (k_store b) = map (w_name w) (w_list w) /\
  forall x n g f, w_tabs w !! x = Some (Open n g f) ->
    on_table x get_name b = (b, Ok (Some n)) /\
    on_table x nrows b = (b, Ok (Z.of_nat (length g))) /\ on_table x ncols b = (b, Ok (Z.of_nat (breadth g))) /\
    (forall key i j, at_cell (length g) (breadth g) key i j ->
      exists row e k, g !! i = Some row /\ row !! j = Some e /\ on_table x (table_getitem key) b = (b, Ok k) /\ erase k = e) /\
    forall q key a u, placed_at f q key a u ->
      exists k, on_table x (place_node q) b = (b, Ok k) /\ forall h, h <> key -> e_get h (erase k) = a !! h.
Proof.
  intros R. pose proof (rp_nodup _ _ _ _ R) as Hw. rewrite <- (rp_list _ _ _ _ R). split_and!.
  - rewrite <- xmlchildren_pages by done. unfold pc_len. by rewrite map_length.
  - by apply xmlchildren_pages.
  - rewrite names_pages by done. apply map_ext_in. intros x Hx. apply (Rep_name y K); [done|]. apply elem_of_list_In in Hx. rewrite (rp_list _ _ _ _ R) in Hx.
    pose proof (rp_in _ _ _ _ R) as Hin. rewrite Forall_forall in Hin. by apply Hin.
  - intros x n g f Hx. destruct (Rep_Inv y K b w x n g f R Hx) as (ob & W & t & Ho & HI & Hn & Ht).
    pose proof Ht as (T1 & T2 & T3 & A1 & A2 & <- & L2 & P1 & P2 & Hr & ->)%tabular_parts. set (s := St (k_store b) (k_nxt b) ob) in *.
    destruct (Inv_sized s W t (length (cells t)) (breadth (cells t)) n HI) as (S1 & S2 & S3); try done; [by rewrite cells_length|].
    assert (Hb : forall A (m : act st A) v, m s = (s, Ok v) -> on_table x m b = (b, Ok v)).
    { intros A m v E. unfold on_table. rewrite Ho. fold s. rewrite E. cbn [s store nxt obj]. rewrite insert_id by done. by destruct b. }
    destruct (T_Table.C13_sizes s _ _ s _ S1 S2 S3 (sh_refl s _)) as (_ & _ & _ & N1 & N2). cbn [fst snd] in *. split_and!.
    + apply Hb. unfold get_name, abind, aget, deref. rewrite <- A1. pose proof (Inv_table_node _ _ _ HI) as HT. unfold table_node in HT. rewrite HT. done.
    + by apply Hb.
    + by apply Hb.
    + intros key i j Hk. destruct (read_cell s _ _ key i j S1 S2 S3 Hk) as (t' & k & T' & Hc & G & _). rewrite (Inv_table_node _ _ _ HI) in T'. injection T' as <-.
      unfold cell_at in Hc. destruct (doc_rows t !! i) as [q|] eqn:Eq; [|done]. exists (map erase (p_kids q)), (erase k), k. split_and!; try done.
      * unfold cells. change (map ?f ?l) with (f <$> l). by rewrite list_lookup_fmap, Eq.
      * change (map ?f ?l) with (f <$> l). by rewrite list_lookup_fmap, Hc.
      * by apply Hb.
    + intros q key a u Hp. destruct (placed_node s W t q key a u HI Hp) as (k & E & Hk). exists k. split; [by apply Hb|done].
Qed.
Print Assumptions C69_reads.

(** The span of a cell and whether it is covered, read through the sheet. *)
Theorem C69_spans `{U : Unicode} y K b w x n g f key i j e : Rep (sheets y) K b w ->
  w_tabs w !! x = Some (Open n g f) -> at_cell (length g) (breadth g) key i j -> g_cell g i j = Some e ->
  e_tag e = "table:table-cell" \/ e_tag e = "table:covered-table-cell" ->
  (forall h v, span_says e h v -> on_table x (cell_span_of key) b = (b, Ok (h, v))) /\
  on_table x (cell_covered key) b = (b, Ok (bool_decide (e_tag e = "table:covered-table-cell"))).
Proof.
  intros R Hx Hk Hc Ht. destruct (C69_reads y K b w R) as (_ & _ & _ & H). destruct (H x n g f Hx) as (_ & _ & _ & Hcell & _).
  destruct (Hcell key i j Hk) as (row & e' & k & Hi & Hj & E & He). unfold g_cell in Hc. rewrite Hi in Hc. cbn in Hc. rewrite Hj in Hc. injection Hc as ->.
  clear H Hcell. unfold on_table in *. destruct (k_cache b !! x) as [ob|]; [|done]. unfold cell_span_of, cell_covered, abind.
  destruct (table_getitem key (St (k_store b) (k_nxt b) ob)) as [s1 r1]. cbn in E. injection E as E1 ->.
  assert (Ht' : is_cell_tag (ltag k)) by (by rewrite ltag_erase, He). rewrite !decide_True by done. split.
  - intros h v Hs. unfold alift. cbn. rewrite <- He in Hs. apply span_says_at, CellSpanProofs.cell_span_spans in Hs. rewrite Hs. by rewrite E1.
  - cbn. rewrite E1. do 2 f_equal. apply bool_decide_ext. unfold is_covered. by rewrite ltag_erase, He.
Qed.
Print Assumptions C69_spans.

(** C69.  The rest of the content, and what the sheets are in it: the tree is the old one with
    another spreadsheet element, which has the same attributes and the same other children. *)
Theorem C69_tree `{U : Unicode} `{F : PyFloat} S n ca (r y : node) rs b w : opened_book S n ca r y ->
  works (sheets (nid y)) (Bk S n ca) (book_of y) rs b w ->
  exists r' y', sub (nid r) (k_store b) = Some r' /\ spreadsheet_of r' = Some y' /\ root y' = root y /\
    erase r' = with_body "office:spreadsheet" (erase y') (erase r) /\ not_sheets y' = not_sheets y /\
    map nid (sheets_in y') = w_list w /\
    Forall2 (fun x k => exists c, w_tabs w !! x = Some c /\ written_as c (erase k)) (w_list w) (sheets_in y').
Proof.
  intros Ho Hw. pose proof (C69_works S n ca r y rs b w Ho Hw) as R. destruct Ho as (H1 & _ & H2 & H3 & H4 & _).
  destruct (rest_tree S r y b w H1 H2 H3 H4 R) as (r' & y' & A1 & A2 & A3 & A4 & A5 & A6 & A7 & A8 & A9). by exists r', y'.
Qed.
Print Assumptions C69_tree.

(** C69.  The document is saved and opened again: it has the same sheets in the same order.
    The sheets that were open are read, by any strategy, with the same name and the same cells,
    the others are as they were in the first file; empty texts have become none.  All else in
    the body is as before, and the next session can begin. *)
Theorem C69_saved `{U : Unicode} `{F : PyFloat} `{B : Bytes} now gen c D f (s s' s2 : FileManager.st) S n ca (r y r' : node) rs b w :
  opened_book S n ca r y -> objects (mgr s) 2 = erase r ->
  works (sheets (nid y)) (Bk S n ca) (book_of y) rs b w -> sub (nid r) (k_store b) = Some r' ->
  docname D = Some f -> is_type (mimetype D) "ods" "office:spreadsheet" -> document (mimetype D) (mgr s) -> complete "office:spreadsheet" (mgr s) ->
  plain_name f -> (forall p, source (mgr s) = SFile p -> plain_name p) ->
  doc_save now gen D (FileManager.St (mach s) (set_object 2 (erase r') (mgr s))) = (s', Done (Ok tt)) ->
  files (mach s2) !! f = files (mach s') !! f -> no_failure s2 -> 10 <= length (env (mach s2)) ->
  exists s3, opendoc c (FromFile f) s2 = (s3, Done (Ok (Doc (Some f) (mimetype D) "ods" true))) /\
    document (mimetype D) (mgr s3) /\ complete "office:spreadsheet" (mgr s3) /\ source (mgr s3) = SFile f /\
    objects (mgr s3) 2 = parsed (erase r') /\
    forall S2 n2 r2, NoDup (ids S2) -> Forall (fun z => z < n2)%N (ids S2) -> element (nid r2) S2 -> sub (nid r2) S2 = Some r2 -> erase r2 = objects (mgr s3) 2 ->
      exists y2, opened_book S2 n2 ∅ r2 y2 /\ reopened w (book_of y2) /\
        map erase (not_sheets y2) = map parsed (map erase (not_sheets y)).
Proof.
  intros Ho Er Hw Hr' Hf HT Hd Hc Hp Hps E Hfile Hn Hk.
  destruct (C69_tree S n ca r y rs b w Ho Hw) as (r1 & y' & A1 & A2 & A3 & A4 & A5 & A6 & A7). rewrite Hr' in A1. injection A1 as <-.
  pose proof Ho as (_ & _ & _ & _ & Hy & _).
  pose proof (spreadsheet_body_of r y Hy) as Hby. rewrite <- Er in Hby, A4.
  set (s1 := FileManager.St (mach s) (set_object 2 (erase r') (mgr s))) in *.
  assert (Hc1 : complete "office:spreadsheet" (mgr s1)).
  { cbn [s1 mgr]. rewrite A4. apply (complete_sheets (mgr s) (erase y)); try done; [by rewrite !erase_root, A3|]. rewrite !erase_kids, <- !filter_not_erase. by f_equal. }
  destruct (T_Document.C52_save now gen c D f "ods" "office:spreadsheet" s1 s' s2 Hf HT Hd Hc1 Hp Hps E Hfile Hn Hk) as (s3 & E3 & _ & _ & E2 & _ & Es).
  change (objects (mgr s1) 2) with (erase r') in E2. exists s3. split; [done|].
  destruct (T_Document.C52_opened c (FromFile f) "ods" [] None s2 s3 _ Hn (or_introl E3)) as (t' & HT' & Hd' & Hc' & _). cbn [mimetype doctype] in HT', Hd'.
  assert (t' = "office:spreadsheet"%string) as ->. { apply type_tables in HT as [_ HT1]. apply type_tables in HT' as [_ HT2]. rewrite HT1 in HT2. by injection HT2. }
  split_and!; try done. intros S2 n2 r2 G1 G2 G3 G4 G5. rewrite E2 in G5.
  pose proof (parsed_body_of _ _ _ (spreadsheet_body_of r' y' A2)) as Hb2. rewrite <- G5 in Hb2. apply body_of_spreadsheet in Hb2 as (y2 & Hy2 & Ey2).
  exists y2. assert (Ho2 : opened_book S2 n2 ∅ r2 y2). { split_and!; try done. by apply Forall_forall. }
  split; [done|]. rewrite <- A5. apply reopened_body; try done.
  destruct (spreadsheet_sub (NodeStore.St S2 n2 (TObj 0 [] [])) r2 y2) as [_ Sy2]; try done. by eapply sub_wfs.
Qed.
Print Assumptions C69_saved.

(** C69.  In the opened document every key gives the sheet at the same place as before. *)
Theorem C69_names `{U : Unicode} `{F : PyFloat} (w w2 : wb) : reopened w w2 ->
  map (w_name w2) (w_list w2) = map (w_name w) (w_list w) /\
  forall k, match find_page (w_name w) k (w_list w), find_page (w_name w2) k (w_list w2) with
            | Ok x, Ok x2 => exists i, w_list w !! i = Some x /\ w_list w2 !! i = Some x2
            | Err e, Err e2 => e = e2
            | _, _ => False
            end.
Proof.
  intros H. assert (HN : Forall2 (fun x x2 => w_name w x = w_name w2 x2) (w_list w) (w_list w2)).
  { eapply Forall2_impl; [exact H|]. intros x x2 (c & e & Hc & He & Hf). unfold w_name. rewrite Hc, He. cbn. destruct c as [e0|n g f]; cbn in *; [|symmetry; apply Hf]. by rewrite Hf, parsed_get. }
  clear H. split.
  - induction HN as [|x x2 l l2 Hx HN IH]; [done|]. cbn. by rewrite Hx, IH.
  - intros [i|v|]; cbn [find_page]; [| |done].
    + assert (HL : forall n, match (match w_list w !! n with Some c => Ok c | None => Err IndexError end), (match w_list w2 !! n with Some c => Ok c | None => Err IndexError end) with
        | Ok x, Ok x2 => exists i, w_list w !! i = Some x /\ w_list w2 !! i = Some x2 | Err e, Err e2 => e = e2 | _, _ => False end).
      { intros n. destruct (w_list w2 !! n) as [x2|] eqn:E2.
        - destruct (Forall2_lookup_r _ _ _ _ _ HN E2) as (x & E1 & _). rewrite E1. by exists n.
        - assert (E1 : w_list w !! n = None) by (apply lookup_ge_None_2; apply lookup_ge_None_1 in E2; by rewrite (Forall2_length _ _ _ HN)). by rewrite E1. }
      unfold at_pos. rewrite (Forall2_length _ _ _ HN). repeat case_decide; [apply HL|apply HL|done].
    + induction HN as [|x x2 l l2 Hx HN IH]; [done|]. cbn. rewrite <- Hx. destruct (decide (w_name w x = Some v)); [by exists 0|].
      destruct (first_named (w_name w) v l), (first_named (w_name w2) v l2); try done. destruct IH as (i & H1 & H2). by exists (Datatypes.S i).
Qed.
Print Assumptions C69_names.

(** ** A case: in the document of [T_TableSaved] the sheet A gets a value and its row a style, a sheet B
    is made, renamed to C, asked in vain to delete all of its rows and appended, a copy of A is appended, A is deleted; it is saved. *)
Lemma works_by `{U : Unicode} `{F : PyFloat} S n ca (r y : node) rs b w o res w' : opened_book S n ca r y ->
  works (sheets (nid y)) (Bk S n ca) (book_of y) rs b w -> ~ makes o -> wstep o w res w' ->
  works (sheets (nid y)) (Bk S n ca) (book_of y) (rs ++ [res]) (do_book (sheets (nid y)) o b).1 w'.
Proof.
  intros Ho Hw Hm Hs. destruct (C69_result _ _ _ _ o _ _ (C69_works _ _ _ _ _ _ _ _ Ho Hw) Hm Hs) as [E _]. rewrite <- E. eapply wk_step; [done|]. by rewrite E.
Qed.
Lemma works_new `{U : Unicode} `{F : PyFloat} S n ca (r y : node) rs b w strat mc v nr nc x : opened_book S n ca r y ->
  works (sheets (nid y)) (Bk S n ca) (book_of y) rs b w ->
  normalize_sheet_name v <> [] -> (1 <= nr)%Z -> (1 <= nc)%Z -> max_ok strat mc -> (do_book (sheets (nid y)) (KNew strat mc v (nr, nc)) b).2 = Ok (Some x) ->
  w_tabs w !! x = None /\
  works (sheets (nid y)) (Bk S n ca) (book_of y) (rs ++ [Ok (Some x)]) (do_book (sheets (nid y)) (KNew strat mc v (nr, nc)) b).1
    (w_put x (Open (normalize_sheet_name v) (blank (Z.to_nat nr) (Z.to_nat nc)) (unformatted (Z.to_nat nr) (Z.to_nat nc))) w).
Proof.
  intros Ho Hw Hv Hr Hc Hm Ex. destruct (C69_step _ _ _ _ (KNew strat mc v (nr, nc)) (C69_works _ _ _ _ _ _ _ _ Ho Hw)) as (w' & E & _).
  { eexists (Ok (Some (fresh (dom (w_tabs w))))), _. apply ws_new; try done. apply not_elem_of_dom, is_fresh. }
  pose proof (wk_step _ _ _ _ _ _ _ w' Hw E) as H. rewrite Ex in *. inversion E; subst. done.
Qed.
Lemma works_copy `{U : Unicode} `{F : PyFloat} S n ca (r y : node) rs b w strat mc x v m g f z : opened_book S n ca r y ->
  works (sheets (nid y)) (Bk S n ca) (book_of y) rs b w -> w_tabs w !! x = Some (Open m g f) ->
  normalize_sheet_name (default (lit "CopyOf" ++ m) v) <> [] -> max_ok strat mc -> (do_book (sheets (nid y)) (KCopy strat mc x v) b).2 = Ok (Some z) ->
  w_tabs w !! z = None /\
  works (sheets (nid y)) (Bk S n ca) (book_of y) (rs ++ [Ok (Some z)]) (do_book (sheets (nid y)) (KCopy strat mc x v) b).1
    (w_put z (Open (normalize_sheet_name (default (lit "CopyOf" ++ m) v)) g f) w).
Proof.
  intros Ho Hw Hx Hv Hm Ex. destruct (C69_step _ _ _ _ (KCopy strat mc x v) (C69_works _ _ _ _ _ _ _ _ Ho Hw)) as (w' & E & _).
  { eexists (Ok (Some (fresh (dom (w_tabs w))))), _. eapply ws_copy; try done. apply not_elem_of_dom, is_fresh. }
  pose proof (wk_step _ _ _ _ _ _ _ w' Hw E) as H. rewrite Ex in *. inversion E; subst. by simplify_eq.
Qed.
Section case.
Local Existing Instance ascii_unicode.
Local Existing Instance int_float.
Local Existing Instance tree_bytes.
Import T_TableSaved.
Definition mem69 : bk := Bk (store store56) (nxt store56) ∅.
Definition r69 : node := default (store store56) (sub 1 (store store56)).
Definition y69 : node := default r69 (spreadsheet_of r69).
Definition p69 : container := sheets (nid y69).
Definition do69 (o : kop) (b : bk) : bk := (do_book p69 o b).1.
Definition seven : call := Call (VInt 7) None None.
Definition style69 : kop := KProp id56 (PRow (IStr (lit "A1"))) (AStr "table:style-name" (VStr (lit "ro1"))).
Definition plain69 : fmt := Fmt ∅ [∅] [∅].
Definition fmt69 : fmt := Fmt ∅ [<["table:style-name" := lit "ro1"]> ∅] [∅].
Definition a69 : bk := do69 style69 (do69 (KValue id56 (RStr (lit "A1")) seven) (do69 (KGet ExpandAll (32, 32)%Z (KStr (lit "A"))) mem69)).
Definition new69 : kop := KNew ExpandAll (32, 32)%Z (lit "B") (2, 2)%Z.
Definition z69 : N := k_nxt a69.
Definition b69 : bk := do69 (KAppend z69) (do69 (KTable z69 (ODeleteRows 0 2)) (do69 (KTable z69 (OSetName (lit "C"))) (do69 new69 a69))).
Definition copy69 : kop := KCopy ExpandAll (32, 32)%Z id56 None.
Definition q69 : N := match (do_book p69 copy69 b69).2 with Ok (Some x) => x | _ => 0%N end.
Definition e69 : bk := do69 (KDel ExpandAll (32, 32)%Z (KInt 0)) (do69 (KAppend q69) (do69 copy69 b69)).
Local Opaque store56 r69 y69 id56.
Lemma opened69 : opened_book (store store56) (nxt store56) ∅ r69 y69.
Proof. split_and!; [dec_vm|dec_vm|unfold element; dec_vm|by_vm|by_vm|]. apply Forall_forall. done. Qed.
Lemma sheet69 : w_list (book_of y69) = [id56] /\ w_tabs (book_of y69) !! id56 = Some (Stored grid56).
Proof.
  split; [by_vm|]. by_vm.
Qed.
Lemma grid69 : tabular grid56 (lit "A") [[new_elem "table:table-cell"]] plain69.
Proof.
  split; [done|]. split; [split; repeat constructor; by intros v E; vm_compute in E|]. split; [repeat constructor|]. split; [by_vm|].
  split; [apply (ne_by _ _ (lit "A")); [by_vm|done]|]. split; [by_vm|]. split; [by_vm|]. split; [cbn; lia|]. split; [cbn; lia|]. split; [repeat constructor|]. unfold plain69. f_equal; dec_vm.
Qed.
Lemma A1_in (g : list (list elem)) : length g = 1 -> breadth g = 1 -> at_cell (length g) (breadth g) (RStr (lit "A1")) 0 0.
Proof.
  intros -> ->. exists 0%Z, 0%Z. split; [right; exists (lit "A"); split_and!; [exact (CN_one 65 ltac:(lia))|lia|done]|split; left; lia].
Qed.
Lemma row69 : at_row 1 (IStr (lit "A1")) 0.
Proof. exists (lit "A"), 0%Z. split_and!; [exact (CN_one 65 ltac:(lia))|done|lia]. Qed.
Lemma style_key : key_of (AStr "table:style-name" (VStr (lit "ro1"))) <> "table:number-rows-repeated"%string.
Proof. done. Qed.
Lemma program69 : exists rs w, works p69 mem69 (book_of y69) rs e69 w /\ w_list w = [z69; q69] /\
  w_tabs w !! z69 = Some (Open (lit "C") (blank 2 2) (unformatted 2 2)) /\
  w_tabs w !! q69 = Some (Open (lit "CopyOfA") [[run_call (new_elem "table:table-cell") seven]] fmt69).
Proof.
  destruct sheet69 as [L0 T0]. assert (Hm : max_ok ExpandAll (32, 32)%Z) by (intros E; discriminate E).
  pose proof (wk_refl p69 mem69 (book_of y69)) as W0.
  (* doc.sheets['A'] *)
  assert (F1 : find_page (w_name (book_of y69)) (KStr (lit "A")) (w_list (book_of y69)) = Ok id56) by by_vm.
  pose proof (works_by _ _ _ _ _ _ _ _ (KGet ExpandAll (32, 32)%Z (KStr (lit "A"))) _ _ opened69 W0 (fun H => H)
    (ws_get _ _ _ _ _ _ F1 (asked_first _ _ _ _ _ _ _ _ T0 (tabular_opens _ _ _ _ _ _ grid69 Hm)))) as W1. clear W0.
  set (w1 := w_put id56 _ _) in W1.
  (* .set_value(7) *)
  assert (T1 : w_tabs w1 !! id56 = Some (Open (lit "A") [[new_elem "table:table-cell"]] plain69)) by apply lookup_insert.
  pose proof (works_by _ _ _ _ _ _ _ _ (KValue id56 (RStr (lit "A1")) seven) _ _ opened69 W1 (fun H => H)
    (ws_value id56 _ seven w1 _ _ _ 0 0 _ _ T1 (A1_in [[new_elem "table:table-cell"]] eq_refl eq_refl) (fun p (H : VInt 7 = VWrap p) => ltac:(discriminate H)) eq_refl eq_refl)) as W2. clear W1.
  set (w1' := w_put id56 _ _) in W2. fold p69 in W2.
  assert (T1' : w_tabs w1' !! id56 = Some (Open (lit "A") [[run_call (new_elem "table:table-cell") seven]] plain69)) by apply lookup_insert.
  (* .row_info('A1').style_name = 'ro1' *)
  pose proof (works_by _ _ _ _ _ _ _ _ style69 _ _ opened69 W2 (fun H => H) (ws_prop id56 _ _ w1' _ _ plain69 _ ∅ _ T1' (pa_row plain69 _ 0 ∅ row69 eq_refl) style_key)) as W2'. clear W2.
  set (w2 := w_put id56 _ _) in W2'.
  assert (T2 : w_tabs w2 !! id56 = Some (Open (lit "A") [[run_call (new_elem "table:table-cell") seven]] fmt69)) by apply lookup_insert.
  assert (W2 : works p69 mem69 (book_of y69) [Ok (Some id56); Ok None; Ok None] a69 w2) by exact W2'. clear W2'.
  (* Table('B', (2, 2)) *)
  assert (R3 : (do_book p69 new69 a69).2 = Ok (Some z69)) by by_vm.
  destruct (works_new _ _ _ _ _ _ _ _ ExpandAll (32, 32)%Z (lit "B") 2 2 z69 opened69 W2) as [N3 W3]; [apply (ne_by _ _ (lit "B")); [by_vm|done]|lia|lia|done|exact R3|].
  clear W2 R3. set (w3 := w_put z69 _ _) in W3.
  assert (T3 : w_tabs w3 !! z69 = Some (Open (lit "B") (blank 2 2) (unformatted 2 2))) by apply lookup_insert.
  assert (Z3 : id56 <> z69) by (intros E; rewrite E in T2; congruence).
  assert (X3 : w_tabs w3 !! id56 = Some (Open (lit "A") [[run_call (new_elem "table:table-cell") seven]] fmt69)) by (unfold w3; cbn [w_put w_tabs]; by rewrite lookup_insert_ne).
  (* .name = 'C' *)
  assert (F4 : fine (OSetName (lit "C")) (length (blank 2 2)) (breadth (blank 2 2))).
  { split; [done|]. intros s. split; [apply (ne_by _ _ (lit "C")); [by_vm|done]|done]. }
  pose proof (works_by _ _ _ _ _ _ _ _ (KTable z69 (OSetName (lit "C"))) _ _ opened69 W3 (fun H => H) (ws_table _ _ _ _ _ _ T3 F4)) as W4. clear W3.
  set (w4 := w_put z69 _ _) in W4.
  assert (T4 : w_tabs w4 !! z69 = Some (Open (lit "C") (blank 2 2) (unformatted 2 2))) by apply lookup_insert.
  assert (X4 : w_tabs w4 !! id56 = Some (Open (lit "A") [[run_call (new_elem "table:table-cell") seven]] fmt69)) by (unfold w4; cbn [w_put w_tabs]; by rewrite lookup_insert_ne).
  (* .delete_rows(0, 2) *)
  assert (F4' : refuses (length (blank 2 2)) (breadth (blank 2 2)) (ODeleteRows 0 2) ValueError) by (apply rf_delete_rows; right; cbn; lia).
  pose proof (works_by _ _ _ _ _ _ _ _ (KTable z69 (ODeleteRows 0 2)) _ _ opened69 W4 (fun H => H) (ws_refused _ _ _ _ _ _ _ T4 F4')) as W4'. clear W4.
  (* doc.sheets += *)
  pose proof (works_by _ _ _ _ _ _ _ _ (KAppend z69) _ _ opened69 W4' (fun H => H) (ws_append _ _ (ex_intro _ _ (ex_intro _ _ (ex_intro _ _ T4))))) as W5. clear W4'.
  set (w5 := w_order _ _) in W5.
  (* .copy() *)
  assert (R6 : (do_book p69 copy69 b69).2 = Ok (Some q69)) by by_vm.
  destruct (works_copy _ _ _ _ _ _ _ _ ExpandAll (32, 32)%Z id56 None _ _ _ q69 opened69 W5 X4) as [N6 W6]; [apply (ne_by _ _ (lit "CopyOfA")); [by_vm|done]|done|exact R6|].
  clear W5 R6. set (w6 := w_put q69 _ _) in W6. change (w_tabs w5) with (w_tabs w4) in N6.
  assert (T6 : w_tabs w6 !! q69 = Some (Open (lit "CopyOfA") [[run_call (new_elem "table:table-cell") seven]] fmt69)).
  { unfold w6. cbn [w_put w_tabs]. rewrite lookup_insert. by_vm. }
  assert (Z6 : z69 <> q69 /\ id56 <> q69) by (split; intros E; [rewrite E in T4|rewrite E in X4]; congruence). destruct Z6 as [Z6 Z6'].
  (* doc.sheets += *)
  pose proof (works_by _ _ _ _ _ _ _ _ (KAppend q69) _ _ opened69 W6 (fun H => H) (ws_append _ _ (ex_intro _ _ (ex_intro _ _ (ex_intro _ _ T6))))) as W7. clear W6.
  set (w7 := w_order _ _) in W7.
  assert (L7 : w_list w7 = [id56; z69; q69]). { change (w_list w7) with (WrapperSpec.without q69 (WrapperSpec.without z69 (w_list (book_of y69)) ++ [z69]) ++ [q69]). by_vm. }
  assert (X7 : w_tabs w7 !! id56 = Some (Open (lit "A") [[run_call (new_elem "table:table-cell") seven]] fmt69)) by (unfold w7, w6; cbn [w_order w_put w_tabs]; by rewrite lookup_insert_ne).
  (* del doc.sheets[0] *)
  assert (F8 : find_page (w_name w7) (KInt 0) (w_list w7) = Ok id56) by (by rewrite L7).
  pose proof (works_by _ _ _ _ _ _ _ _ (KDel ExpandAll (32, 32)%Z (KInt 0)) _ _ opened69 W7 (fun H => H)
    (ws_del ExpandAll (32, 32)%Z _ _ _ _ F8 (asked_again _ _ _ _ (ex_intro _ _ (ex_intro _ _ (ex_intro _ _ X7)))))) as W8. clear W7.
  eexists _, _. split; [exact W8|]. cbn [w_order w_list w_tabs]. split; [rewrite L7; by_vm|]. split.
  - unfold w7, w6. cbn [w_order w_put w_tabs]. by rewrite lookup_insert_ne.
  - exact T6.
Qed.
Definition done69 : node := default r69 (sub (nid r69) (k_store e69)).
Definition s69 : FileManager.st := FileManager.St (mach opened56.1) (set_object 2 (erase done69) (mgr opened56.1)).
Local Opaque opened56 e69 done69.
Example C69_case :
  opened_book (store store56) (nxt store56) ∅ r69 y69 /\ objects (mgr opened56.1) 2 = erase r69 /\
  (exists rs w, works p69 mem69 (book_of y69) rs e69 w /\ w_list w = [z69; q69] /\
     w_tabs w !! z69 = Some (Open (lit "C") (blank 2 2) (unformatted 2 2)) /\
     w_tabs w !! q69 = Some (Open (lit "CopyOfA") [[run_call (new_elem "table:table-cell") seven]] fmt69)) /\
  sub (nid r69) (k_store e69) = Some done69 /\
  docname doc56 = Some T_Document.file_a /\ is_type (mimetype doc56) "ods" "office:spreadsheet" /\
  document (mimetype doc56) (mgr opened56.1) /\ complete "office:spreadsheet" (mgr opened56.1) /\
  (doc_save (lit "2020-01-02T12:00:00") (lit "G") doc56 s69).2 = Done (Ok tt).
Proof.
  split; [exact opened69|]. split; [by_vm|]. split; [exact program69|]. split; [by_vm|]. split; [done|].
  assert (HT : is_type (full_type "spreadsheet") "ods" "office:spreadsheet") by (exists "spreadsheet"%string; split; [do 6 right; by left|done]).
  split; [exact HT|].
  destruct (T_Document.C52_opened T_Document.noon (FromFile T_Document.file_a) "odt" [] None (T_Document.desk pkg56 (replicate 40 Go)) opened56.1 doc56
    (T_Document.go_fine 40 pkg56) (or_introl opened56_eq)) as (body & HT' & Hd & Hc & _). cbn [mimetype doctype doc56] in HT'.
  assert (body = "office:spreadsheet"%string) as ->. { apply type_tables in HT as [_ HT1]. apply type_tables in HT' as [_ HT2]. rewrite HT1 in HT2. by injection HT2. }
  split; [exact Hd|]. split; [exact Hc|]. by_vm.
Qed.

(** A merged area: made, refused where one is, removed again. *)
Definition merged69 : list (list elem) := [[e_master 2 2 ECELL; e_cover ECELL]; [e_cover ECELL; e_cover ECELL]].
Example C69_spans_case : all_cells (blank 2 2) /\ all_cells merged69 /\
  spans_to (U := ascii_unicode) (blank 2 2) (SSpan (RStr (lit "A1")) (2, 2)%Z) (Ok tt) merged69 /\
  span_says (U := ascii_unicode) (e_master 2 2 ECELL) 2 2 /\ e_tag (e_cover ECELL) = "table:covered-table-cell"%string /\
  spans_to (U := ascii_unicode) merged69 (SSpan (RTuple (0, 0)%Z) (1, 2)%Z) (Err ValueError) merged69 /\
  spans_to (U := ascii_unicode) merged69 (SSpan (RTuple (0, -1)%Z) (1, 2)%Z) (Err NameError) merged69 /\
  spans_to (U := ascii_unicode) merged69 (SSpan (RTuple (1, 1)%Z) (2, 1)%Z) (Err ValueError) merged69 /\
  spans_to (U := ascii_unicode) merged69 (SUnspan (RTuple (0, 0)%Z)) (Ok tt) (blank 2 2).
Proof.
  assert (Hm : span_says (U := ascii_unicode) (e_master 2 2 ECELL) 2 2).
  { split; right; exists (lit "2"), 2%Z; split_and!; try done; by_vm. }
  assert (Hb : forall i j e, g_cell (blank 2 2) i j = Some e -> e = ECELL).
  { intros i j e. unfold g_cell, blank. destruct (replicate 2 (replicate 2 ECELL) !! i) as [row|] eqn:E; [|done]. apply lookup_replicate in E as [-> _]. cbn.
    destruct j as [|[|j]]; cbn; intros E; by simplify_eq. }
  assert (Ha : all_cells (blank 2 2)). { intros i j e ->%Hb. by left. }
  split; [done|]. split.
  { intros [|[|i]] [|[|j]] e; unfold g_cell; cbn; intros He; simplify_eq; try (by left); by right. }
  assert (Hd : denotes (RStr (lit "A1")) (Z.of_nat 0) (Z.of_nat 0)).
  { right. exists (lit "A"). split; [|split; [lia|vm_compute; reflexivity]].
    change (lit "A") with [65%N]. change (Z.of_nat 0) with (Z.of_N 65 - 65)%Z. constructor. clear. lia. }
  split.
  { assert (E : merged69 = recell (fun i j e => if decide ((i, j) = (0, 0)) then e_master 2 2 e else if decide (in_rect 0 0 2 2 i j) then e_cover e else e) (blank 2 2)) by by_vm.
    rewrite E. apply (sp_set (U := ascii_unicode) (blank 2 2) (RStr (lit "A1")) 0 0 2 2); try done; try (cbn; lia).
    intros i j e _ ->%Hb. split; by left. }
  split; [done|]. split; [done|]. split.
  { apply (sp_taken (U := ascii_unicode) merged69 _ 0 0 1 2 0 0 (e_master 2 2 ECELL)); try done; try (cbn; lia); [by left|unfold in_rect; lia|].
    intros H. by destruct (span_says_fun _ _ _ _ _ H Hm). }
  split; [apply (sp_negative (U := ascii_unicode) merged69 _ 0 (-1)); [by left|lia]|].
  split; [apply (sp_outside (U := ascii_unicode) merged69 _ 1 1 2 1); [by left|lia|lia|cbn; lia]|].
  assert (E1 : e_unspan (e_master 2 2 ECELL) = ECELL). { unfold e_unspan, e_master, retag, ECELL, new_elem. cbn [root kids text tail attrs_of attrs]. do 2 f_equal. dec_vm. }
  assert (E2 : e_uncover (e_cover ECELL) = ECELL). { unfold e_uncover, e_cover. rewrite decide_False by done. unfold retag, ECELL, new_elem. cbn [root kids text tail attrs_of attrs]. do 2 f_equal. dec_vm. }
  assert (E : blank 2 2 = recell (fun i j e => if decide ((i, j) = (0, 0)) then e_unspan e else if decide (in_rect 0 0 2 2 i j) then e_uncover e else e) merged69).
  { transitivity [[e_unspan (e_master 2 2 ECELL); e_uncover (e_cover ECELL)]; [e_uncover (e_cover ECELL); e_uncover (e_cover ECELL)]]; [by rewrite E1, E2|by_vm]. }
  rewrite E. apply (sp_unset (U := ascii_unicode) merged69 _ 0 0 2 2 (e_master 2 2 ECELL)); [by left|by_vm|exact Hm|done|exists (lit "2"); by_vm|exists (lit "2"); by_vm|cbn; lia|cbn; lia].
Qed.
End case.
