(** Theorems C59: sheets with merged areas. *)
From Verif Require Import Document DocumentSpec T_Table T_CellSpan T_TableReload T_TableSaved T_Sheet.
From Verif Require Import SpanLayoutProofs.

(** C59.  What a program reads: the span at the first cell of each area, all other cells of
    an area covered, the rest neither. *)
Theorem C59_read `{U : Unicode} (s : NodeStore.st) (nr nc : nat) (L : list area) key i j r :
  merged s nr nc L -> at_cell nr nc key i j -> role_at L i j r ->
  cell_span_of key s = (s, Ok (span_read r)) /\ cell_covered key s = (s, Ok (covered_read r)).
Proof.
  intros (H1 & H2 & H3 & _ & Hg & t & Ht & HL) Hk Hr. destruct (read_cell s nr nc key i j H1 H2 H3 Hk) as (t0 & x & T1 & Hx & G1 & _).
  rewrite Ht in T1. injection T1 as <-. specialize (HL i j x r Hx Hr). destruct (plays_read nr nc L i j r x Hg Hr HL) as [E1 E2].
  pose proof (plays_cell _ _ HL) as Hc. rewrite erase_tag in Hc. assert (is_cell_tag (ltag x)) as Hct by exact Hc.
  unfold cell_span_of, cell_covered, abind, alift, aret. rewrite G1, !decide_True by done. rewrite E1. split; [done|]. do 2 f_equal.
  destruct (covered_read r); [by apply bool_decide_eq_true, E2|apply bool_decide_eq_false; by intros ?%E2].
Qed.
Print Assumptions C59_read.

(** C59.  Each call does what the areas say: merging and splitting areas, inserting and
    deleting rows and columns that do not cut an area succeed; setting values changes no area. *)
Theorem C59_call `{U : Unicode} `{F : PyFloat} (s : NodeStore.st) (nr nc : nat) (L : list area) c z' L' :
  merged s nr nc L -> mstep s (nr, nc) L c z' L' ->
  ((forall key v, c <> MSet key v) -> (run_mcall c s).2 = Ok tt) /\ merged (run_mcall c s).1 z'.1 z'.2 L'.
Proof.
  intros HM Hs. inversion Hs as [? ? ? a key Hd Hg|? ? l a r key Hd|? ? ? key v Hu|? ? ? o Hf Hu]; subst; cbn [run_mcall].
  - destruct (span_ok s nr nc L a key HM Hd Hg) as (s' & _ & _ & -> & K & _). by split.
  - destruct (unspan_ok s nr nc l a r key HM Hd) as (s' & _ & _ & -> & K & _). by split.
  - split; [by intros H; destruct (H key v)|]. by apply set_ok.
  - destruct (op_ok s nr nc L o HM Hf Hu) as (s' & -> & K). by split.
Qed.
Print Assumptions C59_call.

(** C59.  So after any history of such calls the merged areas are those computed from the
    arguments alone. *)
Theorem C59_history `{U : Unicode} `{F : PyFloat} (s s' : NodeStore.st) (z z' : nat * nat) (L L' : list area) :
  merged s z.1 z.2 L -> mhistory s z L s' z' L' ->
  merged s' z'.1 z'.2 L' /\
  forall key i j r, at_cell z'.1 z'.2 key i j -> role_at L' i j r ->
    cell_span_of key s' = (s', Ok (span_read r)) /\ cell_covered key s' = (s', Ok (covered_read r)).
Proof.
  intros HM Hh. assert (HM' : merged s' z'.1 z'.2 L').
  { induction Hh as [|s z L s1 z1 L1 c z2 L2 Hh IH Hs]; [done|]. destruct z1 as [nr nc]. by apply (C59_call s1 nr nc L1 c z2 L2 (IH HM)). }
  split; [done|]. intros key i j r. by apply (C59_read s' z'.1 z'.2 L').
Qed.
Print Assumptions C59_history.

(** C59.  A new table has no merged areas. *)
Theorem C59_new `{U : Unicode} (s : NodeStore.st) strat mc v nr nc :
  ordered s -> max_ok strat mc -> normalize_sheet_name v <> [] -> (1 <= nr)%Z -> (1 <= nc)%Z ->
  exists s', new_table strat mc v (nr, nc) s = (s', Ok tt) /\ merged s' (Z.to_nat nr) (Z.to_nat nc) [].
Proof.
  intros Ho Hm Hv Hr Hc. destruct (C56_new s strat mc v nr nc Ho Hm Hv Hr Hc) as (s' & E & H1 & H2 & H3 & H4). destruct Ho as [Ho1 Ho2].
  destruct (C12_new s strat mc v nr nc Ho1 Ho2 Hm Hv Hr Hc) as (s1 & t & E1 & _ & _ & Ht & G & _). rewrite E in E1. injection E1 as <-.
  exists s'. split; [done|]. split_and!; try done; [apply good_nil|]. exists t. split; [done|by eapply grid_laid].
Qed.
Print Assumptions C59_new.

(** C59.  Merging and splitting an area keeps the values of all cells, covered ones too. *)
Theorem C59_values `{U : Unicode} `{F : PyFloat} (s : NodeStore.st) (nr nc : nat) (L : list area) c z' L' key i j :
  merged s nr nc L -> mstep s (nr, nc) L c z' L' -> (exists k size, c = MSpan k size) \/ (exists k, c = MUnspan k) -> at_cell nr nc key i j ->
  let s' := (run_mcall c s).1 in
  (cell_value key s').2 = (cell_value key s).2 /\ (cell_value_type key s').2 = (cell_value_type key s).2 /\ (cell_currency key s').2 = (cell_currency key s).2.
Proof.
  intros HM Hs Hc Hk. inversion Hs as [? ? ? a k Hd Hg|? ? l a r k Hd|? ? ? k v Hu|? ? ? o Hf Hu]; subst; cbn [run_mcall]; cbv zeta.
  - destruct (span_ok s nr nc L a k HM Hd Hg) as (s' & t & t' & -> & K & _ & T1 & T2 & C). cbn [fst].
    apply (changed_values _ s s' t t' nr nc L (a :: L) key i j HM K T1 T2 C); [|done]. intros i' j' x. cbn beta. repeat case_decide; [apply master_value|apply cover_value|done].
  - destruct (unspan_ok s nr nc l a r k HM Hd) as (s' & t & t' & -> & K & _ & T1 & T2 & C). cbn [fst].
    apply (changed_values _ s s' t t' nr nc (l ++ a :: r) (l ++ r) key i j HM K T1 T2 C); [|done]. intros i' j' x. cbn beta. repeat case_decide; [apply unspan_value|apply uncover_value|done].
  - by destruct Hc as [(? & ? & ?)|(? & ?)].
  - by destruct Hc as [(? & ? & ?)|(? & ?)].
Qed.
Print Assumptions C59_values.

(** C59.  An area with the first cell of another one in it is refused; there is nothing to split
    at a cell which is not the first one of an area.  Neither changes anything. *)
Theorem C59_refused `{U : Unicode} (s : NodeStore.st) (nr nc : nat) (L : list area) a b key :
  merged s nr nc L -> denotes key (Z.of_nat (a_row a)) (Z.of_nat (a_col a)) -> good_area nr nc a ->
  (b ∈ L -> in_area a (a_row b) (a_col b) -> set_cell_span key (Z.of_nat (a_rows a), Z.of_nat (a_cols a)) s = (s, Err ValueError)) /\
  ((forall c, c ∈ L -> ~ corner c (a_row a) (a_col a)) -> remove_cell_span key s = (s, Ok tt)).
Proof.
  intros HM Hd (G1 & G2 & G3 & G4 & G5). destruct (merged_sheet _ _ _ _ HM) as (t & nm & Hs & L1 & L2 & HL & _). pose proof Hs as (_ & _ & Ht & Hr & _).
  pose proof HM as (_ & _ & _ & _ & Hg & _).
  destruct (C19_rejected s t nc key _ _ (Z.of_nat (a_rows a)) (Z.of_nat (a_cols a)) Hs Hd) as (_ & _ & R3 & R4). rewrite !Nat2Z.id in R3, R4. split.
  - intros Hb Hi. apply R3; [lia|]. destruct (good_in _ _ _ _ Hg Hb) as (B1 & B2 & B3 & B4 & B5).
    destruct (cell_at_rect nc t (a_row b) (a_col b) Hr) as [x Hx]; [lia|lia|]. exists (a_row b), (a_col b), x. split; [unfold in_rect; rewrite !Nat2Z.id; exact Hi|]. split; [done|].
    intros [S1 S2]. destruct (HL _ _ _ _ Hx (ra_corner _ _ _ b Hb (conj eq_refl eq_refl))) as (_ & Q1 & Q2).
    apply says_spans in Q1 as [Q1 _], Q2 as [Q2 _]; try done. apply span_attr_spans in S1, S2, Q1, Q2. rewrite S1 in Q1. rewrite S2 in Q2. injection Q1 as Q1. injection Q2 as Q2.
    apply B3. f_equal; lia.
  - intros Hn. destruct (cell_at_rect nc t (a_row a) (a_col a) Hr) as [x Hx]; [lia|lia|]. apply (R4 x); [lia|done|].
    destruct (role_ex L (a_row a) (a_col a)) as [r Hro]. pose proof (HL _ _ _ _ Hx Hro) as Hp. destruct Hro as [c Hc Hco| |]; [by destruct (Hn c)|..];
      destruct Hp as (_ & Q1 & Q2); apply one_spans in Q1, Q2; by split.
Qed.
Print Assumptions C59_refused.

(** C59.  The document with the sheet saved, opened again and the sheet loaded: the same areas
    are merged. *)
Theorem C59_reopened `{U : Unicode} `{B : Bytes} now gen c D f (s s' s2 : FileManager.st)
    (b m : NodeStore.st) (nr nc : nat) (L : list area) (k : pkey) (root y root2 : node) strat mc :
  merged b nr nc L ->
  sub (nid root) (store b) = Some root -> spreadsheet_of root = Some y -> pc_get (sheets (nid y)) k (store b) = (store b, Ok (rt (obj b))) ->
  objects (mgr s) 2 = erase root -> solid (erase root) ->
  docname D = Some f -> is_type (mimetype D) "ods" "office:spreadsheet" -> document (mimetype D) (mgr s) -> complete "office:spreadsheet" (mgr s) ->
  plain_name f -> (forall p, source (mgr s) = SFile p -> plain_name p) ->
  doc_save now gen D s = (s', Done (Ok tt)) ->
  files (mach s2) !! f = files (mach s') !! f -> no_failure s2 -> 10 <= length (env (mach s2)) ->
  exists s3, opendoc c (FromFile f) s2 = (s3, Done (Ok (Doc (Some f) (mimetype D) "ods" true))) /\
    (ordered m -> sub (nid root2) (store m) = Some root2 -> erase root2 = objects (mgr s3) 2 -> max_ok strat mc ->
     exists y2 x2 m', spreadsheet_of root2 = Some y2 /\ pc_get (sheets (nid y2)) k (store m) = (store m, Ok x2) /\ load strat mc x2 m = (m', Ok tt) /\
       merged m' nr nc L).
Proof.
  intros HM Hsub Hy Hg Er Hso Hf HT Hd Hc Hp Hps E Hfile Hn Hk. pose proof HM as (H1 & H2 & H3 & H4 & HG & t & Ht & HL).
  destruct (C58_reopened now gen c D f s s' s2 b b m (nr, nc) (nr, nc) k root y root2 strat mc H1 H2 H3 H4 (ch_refl b (nr, nc)) Hsub Hy Hg Er Hso Hf HT Hd Hc Hp Hps E Hfile Hn Hk) as (s3 & E1 & E2 & H).
  exists s3. split; [done|]. intros Ho Hs2 Er2 Hm. destruct (H Ho Hs2 Er2 Hm) as (y2 & x2 & m' & Y1 & _ & Y2 & Y3 & Y4 & Y5 & Y6 & Y7 & Y8). cbn [fst snd] in *.
  exists y2, x2, m'. do 3 (split; [done|]). do 5 (split; [done|]). pose proof Y6 as (t' & nm & T1 & L1 & L2 & R1 & _). exists t'. split; [done|]. intros i j x' r Hx' Hr.
  assert (Hij : i < nr /\ j < nc).
  { unfold cell_at in Hx'. destruct (doc_rows t' !! i) as [p|] eqn:Ep; [|done]. split; [rewrite <- L1; by eapply lookup_lt_Some|].
    unfold rect in R1. rewrite Forall_lookup in R1. rewrite <- (R1 _ _ Ep). by eapply lookup_lt_Some. }
  assert (Hk' : at_cell nr nc (RTuple (Z.of_nat i, Z.of_nat j)) i j) by (exists (Z.of_nat i), (Z.of_nat j); split; [by left|]; split; left; lia).
  destruct (Y8 _ i j Hk') as (x & x1 & G1 & G2 & Ex).
  destruct (read_cell b nr nc _ i j H1 H2 H3 Hk') as (t0 & x0 & T0 & Hx0 & G0 & _). rewrite Ht in T0. injection T0 as <-. rewrite G1 in G0. injection G0 as <-.
  destruct (read_cell m' nr nc _ i j Y4 Y5 Y6 Hk') as (t0 & x2' & T0 & Hx2 & G0 & _). rewrite T1 in T0. injection T0 as <-. rewrite G2 in G0. injection G0 as <-.
  rewrite Hx' in Hx2. injection Hx2 as <-. rewrite Ex. by apply (HL i j).
Qed.
Print Assumptions C59_reopened.

(** ** Cases *)
Section case.
Local Existing Instance ascii_unicode.
Local Existing Instance int_float.
Local Existing Instance tree_bytes.
Lemma demo_merged : merged demo 3 3 [].
Proof.
  destruct demo_ok as (t & H1 & H2 & H3 & H4 & _). split; [exact H1|]. split; [exact H2|]. split; [exact demo_sized|]. split; [exact demo_expanded|].
  split; [apply good_nil|]. exists t. split; [exact H3|by eapply grid_laid].
Qed.
Lemma good_one nr nc a : good_area nr nc a -> good_areas nr nc [a].
Proof. intros H. split; [by constructor|]. constructor; constructor. Qed.
Lemma apart_cons nr nc a L : good_area nr nc a -> Forall (fun b => a_row a + a_rows a <= a_row b \/ a_row b + a_rows b <= a_row a \/
  a_col a + a_cols a <= a_col b \/ a_col b + a_cols b <= a_col a) L -> good_areas nr nc L -> good_areas nr nc (a :: L).
Proof.
  intros Ha HF [H1 H2]. split; [by constructor|]. constructor; [|done]. eapply Forall_impl; [exact HF|]. intros b Hb i j Hi Hj. unfold in_area in *. lia.
Qed.
(** merge B1:C1 and A2:B3, set the value of a covered cell, insert a row on top, split the first
    area, delete the last column and the first two rows *)
Definition calls59 : list mcall :=
  [MSpan (RStr (lit "B1")) (1, 2)%Z; MSpan (RTuple (1, 0)%Z) (2, 2)%Z; MSet (RStr (lit "B3")) (Call (VInt 7) None None);
   MOp (OInsertRows 0 1); MUnspan (RStr (lit "B2")); MOp (ODeleteCols (-1) 1); MOp (ODeleteRows 0 2)].
Definition s59 : NodeStore.st := foldl (fun s c => (run_mcall c s).1) demo calls59.
Example C59_history_case : mhistory demo (3, 3) [] s59 (2, 2) [Area 0 0 2 2].
Proof.
  unfold s59, calls59. cbn [foldl].
  apply (mh_step _ _ _ _ (4, 2) [Area 2 0 2 2] (MOp (ODeleteRows 0 2)) _ [Area 0 0 2 2]);
    [|apply (ms_op _ 4 2 [Area 2 0 2 2] (ODeleteRows 0 2)); [split; [lia|]; exists 0; split; [left; lia|cbn; lia]|repeat constructor; vm_compute; lia]].
  apply (mh_step _ _ _ _ (4, 3) [Area 2 0 2 2] (MOp (ODeleteCols (-1) 1)) _ [Area 2 0 2 2]);
    [|apply (ms_op _ 4 3 [Area 2 0 2 2] (ODeleteCols (-1) 1)); [split; [lia|]; exists 2; split; [right; lia|cbn; lia]|repeat constructor; vm_compute; lia]].
  apply (mh_step _ _ _ _ (4, 3) [Area 2 0 2 2; Area 1 1 1 2] (MUnspan (RStr (lit "B2"))) _ [Area 2 0 2 2]);
    [|apply (ms_unspan _ 4 3 [Area 2 0 2 2] (Area 1 1 1 2) []); right; exists (lit "B"); split_and!; [exact (CN_one 66 ltac:(lia))|cbn; lia|done]].
  apply (mh_step _ _ _ _ (3, 3) [Area 1 0 2 2; Area 0 1 1 2] (MOp (OInsertRows 0 1)) _ [Area 2 0 2 2; Area 1 1 1 2]);
    [|apply (ms_op _ 3 3 [Area 1 0 2 2; Area 0 1 1 2] (OInsertRows 0 1)); [split; [lia|]; exists 0; left; lia|repeat constructor; vm_compute; lia]].
  apply (mh_step _ _ _ _ (3, 3) [Area 1 0 2 2; Area 0 1 1 2] (MSet (RStr (lit "B3")) (Call (VInt 7) None None)) _ [Area 1 0 2 2; Area 0 1 1 2]);
    [|constructor; split; [exists 2, 1; exists 2%Z, 1%Z; split; [right; exists (lit "B"); split_and!; [exact (CN_one 66 ltac:(lia))|lia|done]|split; left; lia]|done]].
  apply (mh_step _ _ _ _ (3, 3) [Area 0 1 1 2] (MSpan (RTuple (1, 0)%Z) (2, 2)%Z) _ [Area 1 0 2 2; Area 0 1 1 2]);
    [|apply (ms_span _ 3 3 [Area 0 1 1 2] (Area 1 0 2 2)); [by left|apply apart_cons; [split_and!; cbn; try lia; done|constructor; [cbn; lia|constructor]|apply good_one; split_and!; cbn; try lia; done]]].
  apply (mh_step _ _ _ _ (3, 3) [] (MSpan (RStr (lit "B1")) (1, 2)%Z) _ [Area 0 1 1 2]); [constructor|].
  apply (ms_span _ 3 3 [] (Area 0 1 1 2)); [right; exists (lit "B"); split_and!; [exact (CN_one 66 ltac:(lia))|cbn; lia|done]|apply good_one; split_and!; cbn; try lia; done].
Qed.
(** so the covered cell with the value is the last one now *)
Example C59_read_case : merged s59 2 2 [Area 0 0 2 2] /\ at_cell 2 2 (RTuple (-1, -1)%Z) 1 1 /\ role_at [Area 0 0 2 2] 1 1 RCovered /\
  (cell_covered (RTuple (-1, -1)%Z) s59).2 = Ok true /\ (cell_span_of (RStr (lit "A1")) s59).2 = Ok (2, 2)%Z /\ (cell_value_type (RTuple (-1, -1)%Z) s59).2 = Ok (Some (lit "float")).
Proof.
  split; [exact (proj1 (C59_history demo s59 (3, 3) (2, 2) [] _ demo_merged C59_history_case))|].
  split; [exists (-1)%Z, (-1)%Z; split; [by left|split; right; lia]|]. split; [apply (ra_covered _ _ _ (Area 0 0 2 2)); [left|unfold in_area; cbn; lia|by intros [[=] _]]|].
  split; [by_vm|]. split; by_vm.
Qed.

(** ** a document with a sheet of two merged cells *)
Definition calls59b : list mcall := [MOp (OAppendCols 1); MSpan (RStr (lit "A1")) (1, 2)%Z].
Definition b59 : NodeStore.st := foldl (fun s c => (run_mcall c s).1) a56 calls59b.
Definition root59 : node := default (T (L 0 (Nd "" ∅ None None)) []) (sub 1 (store b59)).
Definition y59 : node := default root59 (spreadsheet_of root59).
Definition f59 : FileManager.st := FileManager.St (mach opened56.1) (set_object 2 (erase root59) (mgr opened56.1)).
Definition erased59 : elem := Eval vm_compute in erase root59.
Local Opaque a56 b59 root59 y59 opened56.
Lemma a56_merged : merged a56 1 1 [].
Proof.
  destruct a56_ok as (H1 & H2 & H3 & H4). split; [exact H1|]. split; [exact H2|]. split; [exact H3|]. split; [exact H4|]. split; [apply good_nil|].
  pose proof H3 as (t & nm & Ht & _ & _ & R1 & _). exists t. split; [exact Ht|].
  assert (Hl : map (fun p => map erase (p_kids p)) (doc_rows t) = [[new_elem "table:table-cell"]]) by (vm_compute in Ht; injection Ht as <-; by_vm).
  intros i j x r Hx Hr. destruct Hr as [a Ha _|a Ha _ _|_]; [by apply elem_of_nil in Ha..|]. apply empty_plays. unfold cell_at in Hx. destruct (doc_rows t !! i) as [p|] eqn:Ep; [|done].
  apply (f_equal (.!! i)) in Hl. change (map ?f (doc_rows t)) with (f <$> doc_rows t) in Hl. rewrite list_lookup_fmap, Ep in Hl. destruct i as [|i]; [|by destruct i]. cbn in Hl. injection Hl as Hl.
  apply (f_equal (.!! j)) in Hl. change (map ?f (p_kids p)) with (f <$> p_kids p) in Hl. rewrite list_lookup_fmap, Hx in Hl. destruct j as [|j]; [|by destruct j]. by injection Hl.
Qed.
Example C59_reopened_case :
  merged b59 1 2 [Area 0 0 1 2] /\
  sub (nid root59) (store b59) = Some root59 /\ spreadsheet_of root59 = Some y59 /\
  pc_get (sheets (nid y59)) (KStr (lit "A")) (store b59) = (store b59, Ok (rt (obj b59))) /\
  objects (mgr f59) 2 = erase root59 /\ solid (erase root59) /\ docname doc56 = Some T_Document.file_a /\ is_type (mimetype doc56) "ods" "office:spreadsheet" /\
  document (mimetype doc56) (mgr f59) /\ complete "office:spreadsheet" (mgr f59) /\
  (doc_save (lit "2020-01-02T12:00:00") (lit "G") doc56 f59).2 = Done (Ok tt).
Proof.
  split.
  { assert (Hh : mhistory a56 (1, 1) [] b59 (1, 2) [Area 0 0 1 2]).
    { change b59 with (run_mcall (MSpan (RStr (lit "A1")) (1, 2)%Z) (run_mcall (MOp (OAppendCols 1)) a56).1).1.
      apply (mh_step _ _ _ _ (1, 2) [] (MSpan (RStr (lit "A1")) (1, 2)%Z) _ [Area 0 0 1 2]);
        [|apply (ms_span _ 1 2 [] (Area 0 0 1 2)); [right; exists (lit "A"); split_and!; [exact (CN_one 65 ltac:(lia))|cbn; lia|done]|apply good_one; split_and!; cbn; try lia; done]].
      apply (mh_step _ _ _ _ (1, 1) [] (MOp (OAppendCols 1)) _ []); [constructor|]. apply (ms_op _ 1 1 [] (OAppendCols 1)); [cbn; lia|done]. }
    exact (proj1 (C59_history a56 b59 (1, 1) (1, 2) [] _ a56_merged Hh)). }
  split; [by_vm|]. split; [by_vm|]. split; [apply (pair_by (pc_get (sheets (nid y59)) (KStr (lit "A")) (store b59))); by_vm|].
  split; [by_vm|]. split; [apply SolidProofs.solid_by; by_vm|]. split; [done|].
  assert (HT : is_type (full_type "spreadsheet") "ods" "office:spreadsheet") by (exists "spreadsheet"%string; split; [do 6 right; by left|done]).
  split; [exact HT|].
  destruct (T_Document.C52_opened T_Document.noon (FromFile T_Document.file_a) "odt" [] None (T_Document.desk pkg56 (replicate 40 Go)) opened56.1 doc56
    (T_Document.go_fine 40 pkg56) (or_introl opened56_eq)) as (body & _ & Hd & Hc & _).
  change (mgr f59) with (set_object 2 (erase root59) (mgr opened56.1)).
  split; [apply replaced_document; exact Hd|]. split; [|by_vm].
  apply (replaced_complete _ body); [exact Hc| | |by_vm].
  - split; [by_vm|]. split; [repeat (constructor; [vm_compute; done|]); constructor|].
    exists (hd grid56 (findall "office:body" (erase root59))), (hd grid56 (findall "office:spreadsheet" (hd grid56 (findall "office:body" (erase root59))))).
    split; [by_vm|]. split; [by_vm|]. repeat (constructor; [vm_compute; done|]); constructor.
  - assert (erase root59 = erased59) as -> by by_vm. intros e b y t k [= <-] Hb Hy Ht Hk. vm_compute in Hb. injection Hb as <-. vm_compute in Hy. injection Hy as <-.
    apply elem_of_cons in Ht as [->|Ht]; [vm_compute in Hk; injection Hk as <-; constructor|]. apply elem_of_list_singleton in Ht as ->. vm_compute in Hk. injection Hk as <-; constructor.
Qed.

(** ** What fails *)
Lemma one_area : merged (run_mcall (MSpan (RTuple (0, 0)%Z) (2, 2)%Z) demo).1 3 3 [Area 0 0 2 2].
Proof.
  apply (C59_call demo 3 3 [] _ (3, 3) [Area 0 0 2 2] demo_merged). apply (ms_span _ 3 3 [] (Area 0 0 2 2)); [by left|apply good_one; split_and!; cbn; try lia; done].
Qed.
End case.

(** A row inserted inside of an area is not covered, and the span still says two rows. *)
Theorem C59_insert_counterexample : exists (U : Unicode) s, merged s 3 3 [Area 0 0 2 2] /\
  (insert_rows 1 1 s).2 = Ok tt /\
  (cell_span_of (RTuple (0, 0)%Z) (insert_rows 1 1 s).1).2 = Ok (2, 2)%Z /\
  (cell_covered (RTuple (1, 0)%Z) (insert_rows 1 1 s).1).2 = Ok false /\
  (cell_covered (RTuple (2, 0)%Z) (insert_rows 1 1 s).1).2 = Ok true.
Proof.
  exists ascii_unicode, (run_mcall (U := ascii_unicode) (F := int_float) (MSpan (RTuple (0, 0)%Z) (2, 2)%Z) demo).1. split; [exact one_area|].
  split; [by_vm|]. split; [by_vm|]. split; by_vm.
Qed.
Print Assumptions C59_insert_counterexample.
(** With the first row of an area deleted, its other cells stay covered, by no cell. *)
Theorem C59_delete_counterexample : exists (U : Unicode) s, merged s 3 3 [Area 0 0 2 2] /\
  (delete_rows 0 1 s).2 = Ok tt /\
  (cell_covered (RTuple (0, 0)%Z) (delete_rows 0 1 s).1).2 = Ok true /\
  (cell_covered (RTuple (0, 1)%Z) (delete_rows 0 1 s).1).2 = Ok true /\
  Forall (fun p => (cell_span_of (RTuple p) (delete_rows 0 1 s).1).2 = Ok (1, 1)%Z) [(0, 0); (0, 1); (0, 2); (1, 0); (1, 1); (1, 2)]%Z.
Proof.
  exists ascii_unicode, (run_mcall (U := ascii_unicode) (F := int_float) (MSpan (RTuple (0, 0)%Z) (2, 2)%Z) demo).1. split; [exact one_area|].
  split; [by_vm|]. split; [by_vm|]. split; [by_vm|]. repeat (constructor; [by_vm|]). constructor.
Qed.
Print Assumptions C59_delete_counterexample.
(** An area that reaches into another one, but not to its first cell, is accepted; splitting it
    uncovers the cell they share. *)
Theorem C59_overlap_counterexample : exists (U : Unicode) s, merged s 3 3 [Area 0 0 2 2] /\
  let s1 := (set_cell_span (RTuple (1, 1)%Z) (2, 2)%Z s).1 in
  (set_cell_span (RTuple (1, 1)%Z) (2, 2)%Z s).2 = Ok tt /\
  (remove_cell_span (RTuple (1, 1)%Z) s1).2 = Ok tt /\
  (cell_span_of (RTuple (0, 0)%Z) (remove_cell_span (RTuple (1, 1)%Z) s1).1).2 = Ok (2, 2)%Z /\
  (cell_covered (RTuple (1, 1)%Z) (remove_cell_span (RTuple (1, 1)%Z) s1).1).2 = Ok false.
Proof.
  exists ascii_unicode, (run_mcall (U := ascii_unicode) (F := int_float) (MSpan (RTuple (0, 0)%Z) (2, 2)%Z) demo).1. split; [exact one_area|]. cbv zeta.
  split; [by_vm|]. split; [by_vm|]. split; by_vm.
Qed.
Print Assumptions C59_overlap_counterexample.
