(** C58: values written to the cells of a spreadsheet, also after saving and opening. *)
From Verif Require T_Document.
From Verif Require Import Document DocumentSpec SheetProofs SolidCells T_Cells T_TableReload T_TableSaved.

(** C58.  Any number of set_value() calls on any cells, by position or by address: each is
    accepted exactly if the value is acceptable; each cell gets its calls in order. *)
Theorem C58_cells `{U : Unicode} `{F : PyFloat} (s : st) (nr nc : nat) (ws : list (reference * call)) :
  sane s -> in_step s -> sized s nr nc -> expanded s -> Forall (usable nr nc) ws ->
  let s' := set_values ws s in
  sane s' /\ in_step s' /\ sized s' nr nc /\ expanded s' /\
  (forall w, usable nr nc w -> (cell_set_value w.1 (c_val w.2) (c_type w.2) (c_cur w.2) s').2 = Ok tt <-> acceptable (c_val w.2) (c_type w.2) (c_cur w.2)) /\
  forall key i j cs, at_cell nr nc key i j -> calls_at nr nc i j ws cs ->
    exists x x', table_getitem key s = (s, Ok x) /\ table_getitem key s' = (s', Ok x') /\ erase x' = foldl run_call (erase x) cs.
Proof.
  intros H1 H2 H3 H4 Hw s'. destruct (set_values_ok s nr nc ws H1 H2 H3 H4 Hw) as (_ & K1 & K2 & K3 & K4 & HK). fold s' in K1, K2, K3, K4, HK.
  split_and!; try done.
  - intros w [(i & j & Hc) Hp]. destruct (read_cell s' nr nc w.1 i j K1 K2 K3 Hc) as (t & x & T1 & Hx & _).
    destruct K3 as (t0 & nm & T0 & L1 & L2 & R1 & _). rewrite T1 in T0. injection T0 as <-.
    destruct (set_value_step s' t nr nc w.1 w.2 i j x K1 K2 T1 L1 R1 Hc Hp Hx) as (pos & t' & x' & -> & _). cbn [snd]. apply C22_accepted.
  - intros key i j cs Hk Hc. destruct (read_cell s nr nc key i j H1 H2 H3 Hk) as (t & x & T1 & Hx & G1 & Li & Lj).
    destruct (HK t i j x cs T1 Hx Li Lj Hc) as (t' & x' & T2 & Hx' & E). exists x, x'. split_and!; try done.
    destruct (read_cell s' nr nc key i j K1 K2 K3 Hk) as (t2 & x2 & T3 & Hx2 & G2 & _). rewrite T2 in T3. injection T3 as <-. rewrite Hx' in Hx2. by injection Hx2 as <-.
Qed.
Print Assumptions C58_cells.

(** C58.  So every cell has the value that was set last, whatever was set elsewhere before and
    after, and cells that were not written keep everything. *)
Theorem C58_last `{U : Unicode} `{F : PyFloat} (s : st) (nr nc : nat) (ws : list (reference * call)) key i j :
  sane s -> in_step s -> sized s nr nc -> expanded s -> Forall (usable nr nc) ws -> at_cell nr nc key i j ->
  let s' := set_values ws s in
  (forall before k c after r, ws = before ++ (k, c) :: after -> at_cell nr nc k i j -> Forall (leaves nr nc i j) after ->
     acceptable (c_val c) (c_type c) (c_cur c) -> read_back (type_of (c_val c) (c_type c) (c_cur c)) (c_val c) r ->
     cell_value key s' = (s', Ok r) /\ cell_value_type key s' = (s', Ok (Some (type_of (c_val c) (c_type c) (c_cur c))))) /\
  (Forall (leaves nr nc i j) ws ->
     exists x x', table_getitem key s = (s, Ok x) /\ table_getitem key s' = (s', Ok x') /\ erase x' = erase x).
Proof.
  intros H1 H2 H3 H4 Hw Hk s'. destruct (calls_at_ex nr nc i j ws Hw) as [cs Hcs].
  destruct (C58_cells s nr nc ws H1 H2 H3 H4 Hw) as (_ & _ & _ & _ & _ & H). destruct (H key i j cs Hk Hcs) as (x & x' & G1 & G2 & E). fold s' in G2. split.
  - intros before k c after r -> Hkc Hl Ha Hr. apply Forall_app in Hw as [Hw1 Hw2]. apply Forall_cons in Hw2 as [_ Hw2].
    destruct (calls_at_ex nr nc i j before Hw1) as [cs1 C1]. destruct (calls_at_ex nr nc i j after Hw2) as [cs2 C2].
    assert (C3 : calls_at nr nc i j (before ++ (k, c) :: after) (cs1 ++ c :: cs2)) by (apply calls_at_app; [done|by apply (ca_here _ _ _ _ (k, c))]).
    rewrite (calls_at_fun _ _ _ _ _ _ _ Hcs C3), foldl_app in E. cbn [foldl] in E. rewrite (leaves_calls _ _ _ _ _ _ Hl C2) in E.
    destruct (C22_set_value (foldl run_call (erase x) cs1) _ _ _ r Ha Hr) as (e' & E1 & E2 & E3). unfold run_call at 1 in E. rewrite E1 in E. cbn [fst] in E.
    unfold cell_value, cell_value_type, abind, alift, aret. rewrite G2, E, E2, E3. done.
  - intros Hl. exists x, x'. split_and!; try done. by rewrite E, (leaves_calls _ _ _ _ _ _ Hl Hcs).
Qed.
Print Assumptions C58_last.

(** C58.  A sheet of a spreadsheet, reached as doc.sheets[k], any history of calls, the document
    saved and opened again: doc.sheets has the same names, doc.sheets[k] is loaded, under any
    strategy, and every cell is as it was. *)
Theorem C58_reopened `{U : Unicode} `{B : Bytes} now gen c D f (s s' s2 : FileManager.st)
    (a b m : NodeStore.st) (z z' : nat * nat) (k : pkey) (root y root2 : node) strat mc :
  sane a -> in_step a -> sized a z.1 z.2 -> expanded a -> clean_history a z b z' ->
  sub (nid root) (store b) = Some root -> spreadsheet_of root = Some y -> pc_get (sheets (nid y)) k (store b) = (store b, Ok (rt (obj b))) ->
  objects (mgr s) 2 = erase root -> solid (erase root) ->
  docname D = Some f -> is_type (mimetype D) "ods" "office:spreadsheet" -> document (mimetype D) (mgr s) -> complete "office:spreadsheet" (mgr s) ->
  plain_name f -> (forall p, source (mgr s) = SFile p -> plain_name p) ->
  doc_save now gen D s = (s', Done (Ok tt)) ->
  files (mach s2) !! f = files (mach s') !! f -> no_failure s2 -> 10 <= length (env (mach s2)) ->
  exists s3, opendoc c (FromFile f) s2 = (s3, Done (Ok (Doc (Some f) (mimetype D) "ods" true))) /\ objects (mgr s3) 2 = erase root /\
    (ordered m -> sub (nid root2) (store m) = Some root2 -> erase root2 = objects (mgr s3) 2 -> max_ok strat mc ->
     exists y2 x2 m', spreadsheet_of root2 = Some y2 /\ pc_names (sheets (nid y2)) (store m) = pc_names (sheets (nid y)) (store b) /\
       pc_get (sheets (nid y2)) k (store m) = (store m, Ok x2) /\ load strat mc x2 m = (m', Ok tt) /\
       sane m' /\ in_step m' /\ sized m' z'.1 z'.2 /\ expanded m' /\
       forall key i j, at_cell z'.1 z'.2 key i j ->
         exists x x', table_getitem key b = (b, Ok x) /\ table_getitem key m' = (m', Ok x') /\ erase x' = erase x).
Proof.
  intros H1 H2 H3 H4 Hh Hsub Hy Hg Er Hso Hf HT Hd Hc Hp Hps E Hfile Hn Hk.
  destruct (T_Document.C52_same now gen c D f "ods" "office:spreadsheet" s s' s2 Hf HT Hd Hc Hp Hps E Hfile Hn Hk) as (s3 & E3 & _ & _ & E2).
  exists s3. split; [done|]. rewrite E2, Er by (by rewrite Er). split; [done|]. intros Ho Hsub2 Er2 Hm.
  destruct (clean_history_ok _ _ _ _ Hh H1 H2 H3 H4) as (_ & J1 & J2 & J3 & J4).
  assert (Hob : ordered b) by (destruct J1 as (? & ? & _); by split).
  destruct (spreadsheet_sub b root y Hob Hsub Hy) as [_ Sy]. destruct (spreadsheet_erase root root2 y Er2 Hy) as (y2 & Hy2 & Ey).
  destruct (spreadsheet_sub m root2 y2 Ho Hsub2 Hy2) as [_ Sy2].
  destruct (pc_get_erase b m y y2 k _ Sy Sy2 Ey Hg) as (t1 & t2 & M1 & M2 & N1 & Et & G2).
  apply elem_of_list_filter in M1 as [T1 M1], M2 as [T2 M2].
  destruct (desc_sub b y t1 "table:table" Hob Sy) as [_ S1]; [by apply kid_ldesc|]. destruct (desc_sub m y2 t2 "table:table" Ho Sy2) as [Hne S2]; [by apply kid_ldesc|].
  assert (Ht : table_node b = Some t1) by (unfold table_node; by rewrite <- N1).
  destruct (C56_reload a b m z z' t1 t2 (nid t2) strat mc H1 H2 H3 H4 Hh Ht Ho Hne S2 Et Hm) as (m' & u' & L1 & L2 & L3 & L4 & L5 & L6 & L8 & _ & _ & L7 & _).
  exists y2, (nid t2), m'. split_and!; try done; [by apply pc_names_erase|].
  intros key i j Hkey. destruct (read_cell b _ _ key i j J1 J2 J3 Hkey) as (t & x & Tt & Hx & Gx & _). rewrite Ht in Tt. injection Tt as <-.
  destruct (read_cell m' _ _ key i j L2 L3 L6 Hkey) as (u & x' & Tu & Hx' & Gx' & _). rewrite L4 in Tu. injection Tu as <-.
  exists x, x'. split_and!; try done. specialize (L7 i j). rewrite Hx, Hx' in L7. by injection L7.
Qed.
Print Assumptions C58_reopened.

(** C58.  So the values that were set last are in the cells of the opened document. *)
Theorem C58_saved `{U : Unicode} `{F : PyFloat} `{B : Bytes} now gen c D f (s s' s2 : FileManager.st)
    (a m : NodeStore.st) (nr nc : nat) (ws : list (reference * call)) (k : pkey) (root y root2 : node) strat mc :
  sane a -> in_step a -> sized a nr nc -> expanded a -> Forall (usable nr nc) ws ->
  solid (erase (store a)) -> Forall (fun w => forall p, c_val w.2 = VWrap p -> solid p) ws ->
  let b := set_values ws a in
  sub (nid root) (store b) = Some root -> spreadsheet_of root = Some y -> pc_get (sheets (nid y)) k (store b) = (store b, Ok (rt (obj b))) ->
  objects (mgr s) 2 = erase root ->
  docname D = Some f -> is_type (mimetype D) "ods" "office:spreadsheet" -> document (mimetype D) (mgr s) -> complete "office:spreadsheet" (mgr s) ->
  plain_name f -> (forall p, source (mgr s) = SFile p -> plain_name p) ->
  doc_save now gen D s = (s', Done (Ok tt)) ->
  files (mach s2) !! f = files (mach s') !! f -> no_failure s2 -> 10 <= length (env (mach s2)) ->
  exists s3, opendoc c (FromFile f) s2 = (s3, Done (Ok (Doc (Some f) (mimetype D) "ods" true))) /\ objects (mgr s3) 2 = erase root /\
    (ordered m -> sub (nid root2) (store m) = Some root2 -> erase root2 = objects (mgr s3) 2 -> max_ok strat mc ->
     exists y2 x2 m', spreadsheet_of root2 = Some y2 /\ pc_get (sheets (nid y2)) k (store m) = (store m, Ok x2) /\ load strat mc x2 m = (m', Ok tt) /\
       (forall key i j before k c after r, at_cell nr nc key i j -> ws = before ++ (k, c) :: after -> at_cell nr nc k i j -> Forall (leaves nr nc i j) after ->
          acceptable (c_val c) (c_type c) (c_cur c) -> read_back (type_of (c_val c) (c_type c) (c_cur c)) (c_val c) r ->
          cell_value key m' = (m', Ok r) /\ cell_value_type key m' = (m', Ok (Some (type_of (c_val c) (c_type c) (c_cur c))))) /\
       (forall key i j, at_cell nr nc key i j -> Forall (leaves nr nc i j) ws ->
          exists x x', table_getitem key a = (a, Ok x) /\ table_getitem key m' = (m', Ok x') /\ erase x' = erase x)).
Proof.
  intros H1 H2 H3 H4 Hw Hs0 Hps0 b Hsub Hy Hg Er Hf HT Hd Hc Hp Hps E Hfile Hn Hk.
  destruct (set_values_ok a nr nc ws H1 H2 H3 H4 Hw) as (Hh & _). fold b in Hh.
  assert (Hso : solid (erase root)) by (eapply solid_sub; [|exact Hsub]; by apply (solid_set_values a nr nc ws)).
  destruct (C58_reopened now gen c D f s s' s2 a b m (nr, nc) (nr, nc) k root y root2 strat mc H1 H2 H3 H4 Hh Hsub Hy Hg Er Hso Hf HT Hd Hc Hp Hps E Hfile Hn Hk) as (s3 & E1 & E2 & H).
  exists s3. split_and!; try done. intros Ho Hs2 Er2 Hm. destruct (H Ho Hs2 Er2 Hm) as (y2 & x2 & m' & Y1 & _ & Y2 & Y3 & _ & _ & Y4 & _ & Y5). cbn [fst snd] in *.
  exists y2, x2, m'. split_and!; try done.
  - intros key i j before k0 c0 after r Hkey Hws Hk0 Hl Ha Hr. destruct (Y5 key i j Hkey) as (x & x' & G1 & G2 & Ex).
    destruct (C58_last a nr nc ws key i j H1 H2 H3 H4 Hw Hkey) as [HL _]. fold b in HL. destruct (HL before k0 c0 after r Hws Hk0 Hl Ha Hr) as [V1 V2].
    unfold cell_value, cell_value_type, abind, alift, aret in *. rewrite G1 in V1, V2. injection V1 as V1. injection V2 as V2. rewrite G2, Ex, V1, V2. done.
  - intros key i j Hkey Hl. destruct (Y5 key i j Hkey) as (x & x' & G1 & G2 & Ex).
    destruct (C58_last a nr nc ws key i j H1 H2 H3 H4 Hw Hkey) as [_ HL]. destruct (HL Hl) as (x0 & x1 & G3 & G4 & Ex1). fold b in G4. rewrite G1 in G4. injection G4 as <-.
    exists x0, x'. split_and!; try done. by rewrite Ex, Ex1.
Qed.
Print Assumptions C58_saved.

(** ** A case: the cell of the table of [T_TableSaved] is written three times, the last time
    in vain, and the document is saved. *)
Section case.
Local Existing Instance ascii_unicode.
Local Existing Instance int_float.
Local Existing Instance tree_bytes.
Definition ws58 : list (reference * call) :=
  [(RStr (lit "A1"), Call (VInt 5) None (Some (lit "EUR"))); (RTuple (-1, -1)%Z, Call (VStr (lit "a  b")) None None); (RStr (lit "A1"), Call VNone None None)].
(** the [b] of C58_saved *)
Definition b58 : NodeStore.st := set_values ws58 a56.
Definition root58 : node := default (T (L 0 (Nd "" ∅ None None)) []) (sub 1 (store b58)).
Definition y58 : node := default root58 (spreadsheet_of root58).
Definition s58 : FileManager.st := FileManager.St (mach opened56.1) (set_object 2 (erase root58) (mgr opened56.1)).
Definition erased58 : elem := Eval vm_compute in erase root58.
Local Opaque a56 b58 root58 y58 opened56.
Lemma A1_at : at_cell 1 1 (RStr (lit "A1")) 0 0.
Proof. exists 0%Z, 0%Z. split; [right; exists (lit "A"); split_and!; [exact (CN_one 65 ltac:(lia))|lia|done]|split; left; lia]. Qed.
Lemma last_at : at_cell 1 1 (RTuple (-1, -1)%Z) 0 0.
Proof. exists (-1)%Z, (-1)%Z. split; [by left|split; right; lia]. Qed.
Example C58_case :
  sane a56 /\ in_step a56 /\ sized a56 1 1 /\ expanded a56 /\ Forall (usable 1 1) ws58 /\
  solid (erase (store a56)) /\ Forall (fun w => forall p, c_val w.2 = VWrap p -> solid p) ws58 /\
  sub (nid root58) (store b58) = Some root58 /\ spreadsheet_of root58 = Some y58 /\
  pc_get (sheets (nid y58)) (KStr (lit "A")) (store b58) = (store b58, Ok (rt (obj b58))) /\
  objects (mgr s58) 2 = erase root58 /\ docname doc56 = Some T_Document.file_a /\ is_type (mimetype doc56) "ods" "office:spreadsheet" /\
  document (mimetype doc56) (mgr s58) /\ complete "office:spreadsheet" (mgr s58) /\
  (doc_save (lit "2020-01-02T12:00:00") (lit "G") doc56 s58).2 = Done (Ok tt) /\
  at_cell 1 1 (RStr (lit "A1")) 0 0 /\ (exists before after, ws58 = before ++ (RTuple (-1, -1)%Z, Call (VStr (lit "a  b")) None None) :: after /\ Forall (leaves 1 1 0 0) after) /\
  acceptable (VStr (lit "a  b")) None None /\ read_back (type_of (VStr (lit "a  b")) None None) (VStr (lit "a  b")) (VStr (lit "a  b")).
Proof.
  destruct a56_ok as (H1 & H2 & H3 & H4). split; [exact H1|]. split; [exact H2|]. split; [exact H3|]. split; [exact H4|].
  split. { constructor; [split; [exists 0, 0; exact A1_at|done]|]. constructor; [split; [exists 0, 0; exact last_at|done]|]. constructor; [split; [exists 0, 0; exact A1_at|done]|constructor]. }
  split; [apply SolidProofs.solid_by; by_vm|]. split; [apply Forall_cons_2; [done|]; apply Forall_cons_2; [done|]; apply Forall_cons_2; [done|]; by apply Forall_nil_2|].
  split; [by_vm|]. split; [by_vm|]. split; [apply (pair_by (pc_get (sheets (nid y58)) (KStr (lit "A")) (store b58))); by_vm|].
  split; [by_vm|]. split; [done|].
  assert (HT : is_type (full_type "spreadsheet") "ods" "office:spreadsheet") by (exists "spreadsheet"%string; split; [do 6 right; by left|done]).
  split; [exact HT|].
  destruct (T_Document.C52_opened T_Document.noon (FromFile T_Document.file_a) "odt" [] None (T_Document.desk pkg56 (replicate 40 Go)) opened56.1 doc56
    (T_Document.go_fine 40 pkg56) (or_introl opened56_eq)) as (body & _ & Hd & Hc & _).
  change (mgr s58) with (set_object 2 (erase root58) (mgr opened56.1)).
  split; [apply replaced_document; exact Hd|]. split; [|split; [by_vm|]].
  - apply (replaced_complete _ body); [exact Hc| | |by_vm].
    + split; [by_vm|]. split; [repeat (constructor; [vm_compute; done|]); constructor|].
      exists (hd grid56 (findall "office:body" (erase root58))), (hd grid56 (findall "office:spreadsheet" (hd grid56 (findall "office:body" (erase root58))))).
      split; [by_vm|]. split; [by_vm|]. repeat (constructor; [vm_compute; done|]); constructor.
    + assert (erase root58 = erased58) as -> by by_vm. intros e b y t k [= <-] Hb Hy Ht Hk. vm_compute in Hb. injection Hb as <-. vm_compute in Hy. injection Hy as <-.
      apply elem_of_cons in Ht as [->|Ht]; [vm_compute in Hk; injection Hk as <-; constructor|]. apply elem_of_list_singleton in Ht as ->. vm_compute in Hk. injection Hk as <-; constructor.
  - split; [exact A1_at|]. split. { exists [(RStr (lit "A1"), Call (VInt 5) None (Some (lit "EUR")))], [(RStr (lit "A1"), Call VNone None None)]. split; [done|].
      constructor; [|constructor]. right. split; [by intros []|by intros _ []]. }
    split; [split; [dec_vm|]; intros _; by left|]. by apply RB_string.
Qed.
End case.
