(** C70: workbooks over any number of sessions. *)
From Verif Require T_Document T_Book.
From Verif Require Import BookLifeSpec BookSaved DocumentProofs T_Sessions.

Section life.
Context `{U : Unicode} `{F : PyFloat} `{B : Bytes}.
Lemma same_spreadsheet (S : node) n ca (r y : node) y2 : opened_book S n ca r y -> spreadsheet_of r = Some y2 -> y2 = y.
Proof. intros (_ & _ & _ & _ & E & _) E2. congruence. Qed.
(** one session *)
Lemma book_session c x D s S n (r y r' : node) rs b w D1 s1 s2 m :
  is_type (mimetype D) "ods" "office:spreadsheet" -> document (mimetype D) (mgr s) -> complete "office:spreadsheet" (mgr s) ->
  (forall p, source (mgr s) = SFile p -> plain_name p) -> plain_name (sn_file x) -> meta_of (objects (mgr s) 0) = Some m ->
  opened_book S n ∅ r y -> erase r = objects (mgr s) 2 ->
  works (sheets (nid y)) (Bk S n ∅) (book_of y) rs b w -> sub (nid r) (k_store b) = Some r' ->
  book_work x (erase r') D s = (s1, Done (Ok D1)) ->
  files (mach s2) !! sn_file x = files (mach s1) !! sn_file x -> no_failure s2 -> 10 <= length (env (mach s2)) ->
  exists s3, opendoc c (FromFile (sn_file x)) s2 = (s3, Done (Ok (Doc (Some (sn_file x)) (mimetype D) "ods" true))) /\
    document (mimetype D) (mgr s3) /\ complete "office:spreadsheet" (mgr s3) /\ source (mgr s3) = SFile (sn_file x) /\
    has_stats m /\ meta_of (objects (mgr s3) 0) = Some (parsed (play (all_ops x) m)) /\
    objects (mgr s3) 1 = parsed (objects (mgr s) 1) /\
    reads_as (objects (mgr s3) 2) (finds (Day x (book_of y) rs w (map erase (not_sheets y)))).
Proof.
  intros HT Hd Hc Hps Hp Hm Ho Er Hw Hr' E Hfile Hn Hk. set (sM := edit_meta (sn_meta x) s).
  pose proof Hc as Hcc. apply complete_iff in Hcc as [Hr Hu]. destruct (rooted_play _ (mgr s) (sn_meta x) m Hr Hm) as (Hr1 & Hst & Hm1).
  assert (Hc1 : complete "office:spreadsheet" (mgr sM)) by (apply complete_iff; by split).
  set (D' := Doc (Some (sn_file x)) (mimetype D) (doctype D) (backup D)).
  set (s0 := FileManager.St (mach sM) (set_object 2 (erase r') (mgr sM))).
  assert (Ew : doc_save (sn_now x) (sn_gen x) D' s0 = (s1, Done (Ok tt))).
  { unfold book_work, doc_saveas, pbind in E. change (FileManager.St _ _) with s0 in E. fold D' in E.
    destruct (doc_save (sn_now x) (sn_gen x) _ s0) as [q [|[[]|e]]]; try done. by injection E as -> _. }
  destruct (T_Book.C69_saved (sn_now x) (sn_gen x) c D' (sn_file x) sM s1 s2 S n ∅ r y r' rs b w Ho (eq_sym Er) Hw Hr' eq_refl HT Hd Hc1 Hp Hps Ew Hfile Hn Hk)
    as (s3 & E3 & Hd3 & Hc3 & S3 & O2 & HR). cbn [D' mimetype] in *. exists s3. split; [done|]. split; [done|]. split; [done|]. split; [done|]. split; [done|].
  (* the other trees *)
  destruct (T_Book.C69_tree S n ∅ r y rs b w Ho Hw) as (r1 & y' & A1 & A2 & A3 & A4 & A5 & _). rewrite Hr' in A1. injection A1 as <-.
  assert (Hc0 : complete "office:spreadsheet" (mgr s0)).
  { cbn [s0 mgr]. rewrite A4, Er. change (objects (mgr s) 2) with (objects (mgr sM) 2). apply (complete_sheets (mgr sM) (erase y)); try done.
    - change (objects (mgr sM) 2) with (objects (mgr s) 2). rewrite <- Er. apply spreadsheet_body_of. by destruct Ho as (_ & _ & _ & _ & ? & _).
    - by rewrite !erase_root, A3.
    - rewrite !erase_kids, <- !filter_not_erase. by f_equal. }
  destruct (T_Document.C52_save (sn_now x) (sn_gen x) c D' (sn_file x) "ods" "office:spreadsheet" s0 s1 s2 eq_refl HT Hd Hc0 Hp Hps Ew Hfile Hn Hk) as (s3' & E3' & O0 & O1 & _).
  cbn [D' mimetype] in E3'. rewrite E3 in E3'. injection E3' as <-. split.
  { rewrite O0. unfold meta_of. rewrite parsed_head. change (objects (mgr s0) 0) with (play_doc (sn_meta x) (objects (mgr s) 0)).
    destruct (rooted_play _ (mgr s) (all_ops x) m Hr Hm) as (_ & _ & H). unfold all_ops at 1 in H. unfold play_doc in H |- *. rewrite foldl_app in H. unfold meta_of in H. by rewrite H. }
  split; [done|]. intros S2 n2 r2 G1 G2 G3 G4 G5. destruct (HR S2 n2 r2 G1 G2 G3 G4 G5) as (y2 & H1 & H2 & H3). exists y2. split; [done|]. split; [done|]. by rewrite H3.
Qed.
End life.

(** C70.  Each session finds the workbook of the session before: the same sheets in the same order
    with the same names, cells and properties (empty texts have become none), and the same rest;
    so does whoever opens the document after the last session. *)
Theorem C70_life `{U : Unicode} `{F : PyFloat} `{B : Bytes} c (l : list day) D s D' s' :
  is_type (mimetype D) "ods" "office:spreadsheet" -> document (mimetype D) (mgr s) -> complete "office:spreadsheet" (mgr s) ->
  (forall p, source (mgr s) = SFile p -> plain_name p) -> Forall (fun a => plain_name (sn_file (d_sit a))) l ->
  book_life c l D s D' s' ->
  mimetype D' = mimetype D /\ document (mimetype D) (mgr s') /\ complete "office:spreadsheet" (mgr s') /\
  (forall i a a', l !! i = Some a -> l !! S i = Some a' -> finds a (d_start a') (d_rest a')) /\
  (forall a, last l = Some a -> reads_as (objects (mgr s') 2) (finds a)).
Proof.
  intros HT Hd Hc Hps Hp HL. revert HT Hd Hc Hps Hp.
  induction HL as [D s|x rs w l D s S n r y r' b D1 s1 s2 D3 s3 D4 s4 Ho Er Hw Hr' Ew Hfile Hn Hk Eo HL IH]; intros HT Hd Hc Hps Hp; [done|].
  apply Forall_cons in Hp as [Hp1 Hp]. cbn [d_sit] in Hp1.
  assert (Hm : exists m, meta_of (objects (mgr s) 0) = Some m) by (destruct Hc as ((_ & m & Hm & _) & _); by exists m). destruct Hm as [m Hm].
  destruct (book_session c x D s S n r y r' rs b w D1 s1 s2 m HT Hd Hc Hps Hp1 Hm Ho Er Hw Hr' Ew Hfile Hn Hk) as (s3' & E3 & Hd3 & Hc3 & S3 & _ & _ & _ & HR).
  rewrite E3 in Eo. injection Eo as -> <-. cbn [mimetype] in IH.
  destruct IH as (M1 & Hd4 & Hc4 & Hch & Hla); try done.
  { intros p. rewrite S3. by intros [= <-]. }
  split_and!; try done.
  - intros [|i] a a'; cbn [lookup list_lookup]; [|apply Hch]. intros [= <-] Ha'. destruct HL as [|x2 rs2 w2 l2 D2 s2' S2 n2 r2 y2 r2' b2 D12 s12 s22 D32 s32 D42 s42 Ho2 Er2]; [done|].
    injection Ha' as <-. cbn [d_start d_rest]. pose proof Ho2 as (N1 & N2 & N3 & N4 & N5 & _). destruct (HR S2 n2 r2 N1 N2 N3 N4 Er2) as (y3 & Hy3 & Hf).
    by rewrite (same_spreadsheet _ _ _ _ _ _ Hy3 N5).
  - intros a Ha. destruct l as [|a2 l]; [|apply Hla; by cbn in *]. injection Ha as <-. inversion HL; subst. done.
Qed.
Print Assumptions C70_life.

(** C70.  The meta data are what the calls of all sessions make of what was there at first (C68),
    the styles stay. *)
Theorem C70_meta `{U : Unicode} `{F : PyFloat} `{B : Bytes} c (l : list day) D s D' s' (m : elem) :
  is_type (mimetype D) "ods" "office:spreadsheet" -> document (mimetype D) (mgr s) -> complete "office:spreadsheet" (mgr s) ->
  (forall p, source (mgr s) = SFile p -> plain_name p) -> Forall (fun a => plain_name (sn_file (d_sit a))) l ->
  meta_of (objects (mgr s) 0) = Some m -> book_life c l D s D' s' ->
  exists m', meta_of (objects (mgr s') 0) = Some m' /\
    (forall key, alookup key META_TAGS <> None -> field key m' = field_life key (map d_sit l) (field key m)) /\
    words m' = words_life (map d_sit l) (words m) /\ users m' = users_life (map d_sit l) (users m) /\
    (forall key, key ∈ STAT_TYPES -> stat key m' = stat_life key (map d_sit l) (stat key m)) /\
    parsed (objects (mgr s') 1) = parsed (objects (mgr s) 1).
Proof.
  intros HT Hd Hc Hps Hp Hm HL. revert m HT Hd Hc Hps Hp Hm.
  induction HL as [D s|x rs w l D s S n r y r' b D1 s1 s2 D3 s3 D4 s4 Ho Er Hw Hr' Ew Hfile Hn Hk Eo HL IH]; intros m HT Hd Hc Hps Hp Hm; [by exists m|].
  apply Forall_cons in Hp as [Hp1 Hp]. cbn [d_sit] in Hp1.
  destruct (book_session c x D s S n r y r' rs b w D1 s1 s2 m HT Hd Hc Hps Hp1 Hm Ho Er Hw Hr' Ew Hfile Hn Hk) as (s3' & E3 & Hd3 & Hc3 & S3 & Hst & Hm3 & O1 & _).
  rewrite E3 in Eo. injection Eo as -> <-. cbn [mimetype] in IH. set (m3 := parsed (play (all_ops x) m)) in *.
  destruct (IH m3) as (m' & Hm4 & F1 & F2 & F3 & F4 & O4); try done.
  { intros p. rewrite S3. by intros [= <-]. }
  exists m'. cbn [map d_sit]. split_and!; try done.
  - intros key Hkey. rewrite (F1 key Hkey). unfold m3. rewrite parsed_field. unfold field_life at 2. cbn [foldl].
    rewrite (run_fold (field key) (entry_after key)); [done|done|]. intros. by apply step_entry.
  - rewrite F2. unfold m3. rewrite parsed_words. unfold words_life at 2. cbn [foldl]. rewrite (run_fold words words_after); [|done|exact step_words]. unfold all_ops. by rewrite words_end.
  - rewrite F3. unfold m3. rewrite parsed_users. unfold users_life at 2. cbn [foldl]. rewrite (run_fold users users_after); [|done|exact step_users]. unfold all_ops. by rewrite users_end.
  - intros key Hkey. rewrite (F4 key Hkey). unfold m3. rewrite parsed_stat. unfold stat_life at 2. cbn [foldl]. rewrite (run_fold (stat key) (stat_after key)); [|done|intros; by apply step_stat]. unfold all_ops. by rewrite stat_end.
  - by rewrite O4, O1, parsed_again.
Qed.
Print Assumptions C70_meta.

(** ** What was saved can be opened *)
Section life.
Context `{U : Unicode} `{F : PyFloat} `{B : Bytes}.
Lemma book_life_snoc c l a D s D' s' D3 s3 : book_life c l D s D' s' -> book_life c [a] D' s' D3 s3 -> book_life c (l ++ [a]) D s D3 s3.
Proof. intros H H2. induction H as [D s|]; [exact H2|]. cbn [app]. eapply bk_cons; eauto. Qed.
Lemma book_life_source c l D s D' s' : book_life c l D s D' s' -> Forall (fun a => plain_name (sn_file (d_sit a))) l ->
  (forall p, source (mgr s) = SFile p -> plain_name p) -> forall p, source (mgr s') = SFile p -> plain_name p.
Proof.
  induction 1 as [D s|x rs w l D s S n r y r' b D1 s1 s2 D3 s3 D4 s4 Ho Er Hw Hr' Ew Hfile Hn Hk Eo HL IH]; intros Hp Hps; [done|]. apply Forall_cons in Hp as [Hz Hp]. apply (IH Hp).
  destruct (T_Document.C33_detect c _ s2 s3 D3 Hn Eo) as (? & ? & ? & ? & ? & H). decompose [and] H. match goal with H : source (mgr s3) = _ |- _ => rewrite H end. by intros p [= <-].
Qed.
(** Operations make and change open sheets only. *)
Lemma asked_stored strat mc w x w' z e : asked strat mc w x w' -> w_tabs w' !! z = Some (Stored e) -> w_tabs w !! z = Some (Stored e).
Proof. intros [|e0 n g f H H2]; [done|]. cbn [w_put w_tabs]. destruct (decide (z = x)) as [->|Hz]; [by rewrite lookup_insert|by rewrite lookup_insert_ne]. Qed.
Lemma put_stored w x n g f z e : w_tabs (w_put x (Open n g f) w) !! z = Some (Stored e) -> w_tabs w !! z = Some (Stored e).
Proof. cbn [w_put w_tabs]. destruct (decide (z = x)) as [->|Hz]; [by rewrite lookup_insert|by rewrite lookup_insert_ne]. Qed.
Lemma wstep_stored o w r w' z e : wstep o w r w' -> w_tabs w' !! z = Some (Stored e) -> w_tabs w !! z = Some (Stored e).
Proof. destruct 1; try done; try apply put_stored; cbn [w_order w_tabs]; try done; by eapply asked_stored. Qed.
Lemma works_stored p b w rs b' w' z e : works p b w rs b' w' -> w_tabs w' !! z = Some (Stored e) -> w_tabs w !! z = Some (Stored e).
Proof. induction 1 as [|b w rs b1 w1 o w2 _ IH Hs]; [done|]. intros H. apply IH. by eapply wstep_stored. Qed.
Lemma day_stored c l D s D' s' i a z e : book_life c l D s D' s' -> l !! i = Some a -> w_tabs (d_end a) !! z = Some (Stored e) ->
  w_tabs (d_start a) !! z = Some (Stored e) /\ z ∈ w_list (d_start a).
Proof.
  intros HL. revert i. induction HL as [D s|x rs w l D s S n r y r' b D1 s1 s2 D3 s3 D4 s4 Ho Er Hw Hr' Ew Hfile Hn Hk Eo HL IH]; intros i Ha Hz; [done|].
  destruct i as [|i]; [|by apply (IH i)]. injection Ha as <-. cbn [d_start d_end] in *. apply (works_stored _ _ _ _ _ _ _ _ Hw) in Hz. split; [done|].
  destruct Ho as (N1 & N2 & _ & N4 & N5 & _). apply book_of_lookup in Hz as (k & Hk1 & <- & _).
  - cbn [book_of w_list]. apply elem_of_list_fmap. by exists k.
  - destruct (SheetProofs.spreadsheet_sub (NodeStore.St S n (TObj 0 [] [])) r y) as [_ Sy]; try done. by eapply sub_wfs.
Qed.
Lemma found_parsed c e : found c e -> parsed e = e.
Proof. destruct c; cbn [found]; [intros ->; apply parsed_twice|by intros (_ & ? & _)]. Qed.
End life.

(** C70.  What was saved can be opened, after any number of sessions: a session that saved the
    workbook prolongs the life of the document. *)
Theorem C70_opens `{U : Unicode} `{F : PyFloat} `{B : Bytes} c (l : list day) x D s D' s' S n (r y r' : node) rs b w D1 s1 s2 :
  is_type (mimetype D) "ods" "office:spreadsheet" -> document (mimetype D) (mgr s) -> complete "office:spreadsheet" (mgr s) ->
  (forall p, source (mgr s) = SFile p -> plain_name p) -> Forall (fun a => plain_name (sn_file (d_sit a))) l -> plain_name (sn_file x) ->
  book_life c l D s D' s' ->
  opened_book S n ∅ r y -> erase r = objects (mgr s') 2 ->
  works (sheets (nid y)) (Bk S n ∅) (book_of y) rs b w -> sub (nid r) (k_store b) = Some r' ->
  book_work x (erase r') D' s' = (s1, Done (Ok D1)) ->
  files (mach s2) !! sn_file x = files (mach s1) !! sn_file x -> no_failure s2 -> 10 <= length (env (mach s2)) ->
  exists s3, opendoc c (FromFile (sn_file x)) s2 = (s3, Done (Ok (Doc (Some (sn_file x)) (mimetype D) "ods" true))) /\
    book_life c (l ++ [Day x (book_of y) rs w (map erase (not_sheets y))]) D s (Doc (Some (sn_file x)) (mimetype D) "ods" true) s3.
Proof.
  intros HT Hd Hc Hps Hp Hpx HL Ho Er Hw Hr' Ew Hfile Hn Hk.
  destruct (C70_life c l D s D' s' HT Hd Hc Hps Hp HL) as (M1 & Hd' & Hc' & _). pose proof (book_life_source _ _ _ _ _ _ HL Hp Hps) as Hps'.
  assert (Hm : exists m, meta_of (objects (mgr s') 0) = Some m) by (destruct Hc' as ((_ & m & Hm & _) & _); by exists m). destruct Hm as [m Hm].
  rewrite <- M1 in HT, Hd'. destruct (book_session c x D' s' S n r y r' rs b w D1 s1 s2 m HT Hd' Hc' Hps' Hpx Hm Ho Er Hw Hr' Ew Hfile Hn Hk) as (s3 & E3 & _). rewrite M1 in E3.
  exists s3. split; [done|]. eapply book_life_snoc; [exact HL|]. eapply bk_cons; eauto. constructor.
Qed.
Print Assumptions C70_opens.

(** C70.  A sheet nobody asked for in a session is, for the next session, what it was at the
    start; from the second session on to the letter. *)
Theorem C70_unasked `{U : Unicode} `{F : PyFloat} `{B : Bytes} c (l : list day) D s D' s' i a a' j z e :
  is_type (mimetype D) "ods" "office:spreadsheet" -> document (mimetype D) (mgr s) -> complete "office:spreadsheet" (mgr s) ->
  (forall p, source (mgr s) = SFile p -> plain_name p) -> Forall (fun a => plain_name (sn_file (d_sit a))) l ->
  book_life c l D s D' s' -> l !! i = Some a -> l !! S i = Some a' ->
  w_list (d_end a) !! j = Some z -> w_tabs (d_end a) !! z = Some (Stored e) ->
  w_tabs (d_start a) !! z = Some (Stored e) /\
  (exists z', w_list (d_start a') !! j = Some z' /\ w_tabs (d_start a') !! z' = Some (Stored (parsed e))) /\
  (0 < i -> parsed e = e).
Proof.
  intros HT Hd Hc Hps Hp HL Ha Ha' Hj Hz. destruct (C70_life c l D s D' s' HT Hd Hc Hps Hp HL) as (_ & _ & _ & Hch & _).
  destruct (day_stored _ _ _ _ _ _ _ _ _ _ HL Ha Hz) as [Hz0 Hin]. split; [done|]. split.
  - destruct (Hch i a a' Ha Ha') as [Hr _]. unfold reopened in Hr. destruct (Forall2_lookup_l _ _ _ _ _ Hr Hj) as (z' & Hz' & cc & e' & E1 & E2 & Hf).
    exists z'. split; [done|]. rewrite Hz in E1. injection E1 as <-. cbn [found] in Hf. by rewrite Hf in E2.
  - destruct i as [|i]; [lia|]. intros _. assert (Hi : i < length l) by (apply lookup_lt_Some in Ha; lia). apply lookup_lt_is_Some in Hi as [a0 Ha0].
    destruct (Hch i a0 a Ha0 Ha) as [Hr _]. apply elem_of_list_lookup in Hin as [q Hq]. destruct (Forall2_lookup_r _ _ _ _ _ Hr Hq) as (z1 & _ & cc & e' & _ & E2 & Hf).
    rewrite Hz0 in E2. injection E2 as <-. by eapply found_parsed.
Qed.
Print Assumptions C70_unasked.

(** ** A case: the workbook of C69_case is saved and opened; a sheet is asked for; it is saved and
    opened again. *)
Section case.
Local Existing Instance ascii_unicode.
Local Existing Instance tree_bytes.
Local Existing Instance int_float.
Import T_Book T_TableSaved.
Definition sit70 : sitting := Sitting [MSet "title" (TStr (lit "T")); KAdd (Some (lit "k"))] [] (lit "2020") (lit "G") T_Document.file_a.
Definition sit70b : sitting := Sitting [KAdd (Some (lit "j"))] [] (lit "2021") (lit "G") T_Document.file_b.
Definition saved70 := book_work sit70 (erase done69) doc56 opened56.1.
Definition next70 := opendoc T_Document.noon (FromFile T_Document.file_a) (refuel saved70.1).
(** the content in memory *)
Definition mem70 : node := T (L 0 (Nd "" ∅ None None)) [(label (objects (mgr next70.1) 2) 1).1].
Definition nxt70 : N := (label (objects (mgr next70.1) 2) 1).2.
Definition r70 : node := default mem70 (sub 1 mem70).
Definition y70 : node := default mem70 (spreadsheet_of r70).
Definition ask70 : kop := KGet ExpandAll (32, 32)%Z (KStr (lit "C")).
Definition b70 : bk := (do_book (sheets (nid y70)) ask70 (Bk mem70 nxt70 ∅)).1.
Definition done70 : node := default mem70 (sub (nid r70) (k_store b70)).
Definition saved70b := book_work sit70b (erase done70) doc56 next70.1.
Definition next70b := opendoc T_Document.noon (FromFile T_Document.file_b) (refuel saved70b.1).
Definition docB70 : doc := Doc (Some T_Document.file_b) (full_type "spreadsheet") "ods" true.
Lemma saved70_eq : book_work sit70 (erase done69) doc56 opened56.1 = (saved70.1, Done (Ok doc56)).
Proof. exact (pair_by saved70 _ ltac:(by_vm)). Qed.
Local Opaque opened56 e69 done69 saved70.
Lemma next70_eq : opendoc T_Document.noon (FromFile T_Document.file_a) (refuel saved70.1) = (next70.1, Done (Ok doc56)).
Proof. exact (pair_by next70 _ ltac:(by_vm)). Qed.
Lemma b70_eq : (do_book (sheets (nid y70)) ask70 (Bk mem70 nxt70 ∅)).1 = b70.
Proof. exact eq_refl. Qed.
Local Opaque next70 mem70 r70 y70 b70 done70.
Lemma saved70b_eq : book_work sit70b (erase done70) doc56 next70.1 = (saved70b.1, Done (Ok docB70)).
Proof. exact (pair_by saved70b _ ltac:(by_vm)). Qed.
Local Opaque saved70b.
Lemma next70b_eq : opendoc T_Document.noon (FromFile T_Document.file_b) (refuel saved70b.1) = (next70b.1, Done (Ok docB70)).
Proof. exact (pair_by next70b _ ltac:(by_vm)). Qed.
Local Opaque next70b.
Lemma opened_by (S : node) n (r y : node) : NoDup (ids S) -> Forall (fun z => z < n)%N (ids S) -> element (nid r) S -> sub (nid r) S = Some r -> spreadsheet_of r = Some y -> opened_book S n ∅ r y.
Proof. intros. unfold opened_book. split_and!; try assumption. apply Forall_forall. intros k _. apply lookup_empty. Qed.
Lemma opened70 : opened_book mem70 nxt70 ∅ r70 y70.
Proof.
  apply opened_by; [dec_vm|dec_vm|apply (elem_of_list_lookup_2 _ 0); by_vm|by_vm|by_vm].
Qed.
Lemma erase70 : erase r70 = objects (mgr next70.1) 2.
Proof. by_vm. Qed.
Lemma sub70 : sub (nid r70) (k_store b70) = Some done70.
Proof. by_vm. Qed.
Lemma type70 : is_type (full_type "spreadsheet") "ods" "office:spreadsheet".
Proof. exists "spreadsheet"%string. split; [do 6 right; by left|done]. Qed.
Lemma desk70 : document (mimetype doc56) (mgr opened56.1) /\ complete "office:spreadsheet" (mgr opened56.1).
Proof. destruct C69_case as (_ & _ & _ & _ & _ & _ & H1 & H2 & _). by split. Qed.
Lemma source70 p : source (mgr opened56.1) = SFile p -> plain_name p.
Proof. assert (E : source (mgr opened56.1) = SFile T_Document.file_a) by by_vm. rewrite E. intros [= <-]. exact T_Document.plain_a. Qed.
Lemma book_step c x rs w l D s S n (r y r' : node) b D1 s1 D3 s3 D4 s4 :
  opened_book S n ∅ r y -> erase r = objects (mgr s) 2 ->
  works (sheets (nid y)) (Bk S n ∅) (book_of y) rs b w -> sub (nid r) (k_store b) = Some r' ->
  book_work x (erase r') D s = (s1, Done (Ok D1)) -> opendoc c (FromFile (sn_file x)) (refuel s1) = (s3, Done (Ok D3)) ->
  book_life c l D3 s3 D4 s4 -> book_life c (Day x (book_of y) rs w (map erase (not_sheets y)) :: l) D s D4 s4.
Proof. intros. eapply bk_cons; [eassumption..| | | |eassumption|eassumption]; [done|apply refuel_fine|apply refuel_fine]. Qed.
(** [q]: a sheet nobody asked for in the second session *)
Lemma life70 : exists a1 a2 q e, book_life T_Document.noon [a1; a2] doc56 opened56.1 docB70 next70b.1 /\
  d_sit a1 = sit70 /\ d_sit a2 = sit70b /\ w_list (d_end a2) !! 1 = Some q /\ w_tabs (d_end a2) !! q = Some (Stored e).
Proof.
  destruct desk70 as [Hd Hc]. destruct program69 as (rs & w & Hw & Lw & T1 & T2). unfold p69, mem69 in Hw.
  assert (Hr : sub (nid r69) (k_store e69) = Some done69) by by_vm. assert (Er : erase r69 = objects (mgr opened56.1) 2) by by_vm.
  pose proof (fun l D s => book_step T_Document.noon sit70 rs w l _ _ _ _ _ _ _ _ _ _ _ _ D s opened69 Er Hw Hr saved70_eq next70_eq) as L1.
  assert (Hp : Forall (fun a => plain_name (sn_file (d_sit a))) [Day sit70 (book_of y69) rs w (map erase (not_sheets y69))]) by (apply Forall_cons_2; [exact T_Document.plain_a|apply Forall_nil_2]).
  destruct (C70_life _ _ doc56 opened56.1 _ _ type70 Hd Hc source70 Hp (L1 [] _ _ (bk_nil _ _ _))) as (_ & _ & _ & _ & HR).
  pose proof opened70 as (N1 & N2 & N3 & N4 & N5 & _). destruct (HR _ eq_refl mem70 nxt70 r70 N1 N2 N3 N4 erase70) as (y & Hy & Hf & _).
  rewrite <- (same_spreadsheet _ _ _ _ _ _ Hy N5) in Hf. clear Hy. cbn [d_end] in Hf. unfold reopened in Hf. rewrite Lw in Hf.
  apply Forall2_cons_inv_l in Hf as (z & l1 & (c1 & e1 & C1 & Z1 & F1) & Hf & El1). apply Forall2_cons_inv_l in Hf as (q & l2 & (c2 & e2 & C2 & Z2 & F2) & Hf & El2).
  apply Forall2_nil_inv_l in Hf. subst l2 l1. rewrite T1 in C1. injection C1 as <-. destruct F1 as (_ & _ & F1).
  assert (Hz : find_page (w_name (book_of y70)) (KStr (lit "C")) (w_list (book_of y70)) = Ok (default 0%N (head (w_list (book_of y70))))) by by_vm.
  rewrite El1 in Hz. cbn [head default] in Hz. rewrite <- El1 in Hz.
  assert (Hm : max_ok ExpandAll (32, 32)%Z) by (intros E; discriminate E).
  pose proof (works_by _ _ _ _ _ _ _ _ ask70 _ _ opened70 (wk_refl _ _ _) (fun H => H) (ws_get _ _ _ _ _ _ Hz (asked_first _ _ _ _ _ _ _ _ Z1 (F1 _ _ Hm)))) as W. rewrite b70_eq in W.
  pose proof (book_step T_Document.noon sit70b _ _ [] doc56 next70.1 mem70 nxt70 r70 y70 done70 b70 docB70 saved70b.1 docB70 next70b.1 docB70 next70b.1 opened70 erase70 W sub70 saved70b_eq next70b_eq (bk_nil _ _ _)) as L2.
  eexists _, _, q, e2. split; [apply L1; exact L2|]. cbn [d_sit d_end]. split; [done|]. split; [done|]. cbn [w_put w_list w_tabs]. rewrite El1. split; [done|].
  rewrite lookup_insert_ne; [done|]. intros ->.
  assert (Hn : NoDup (w_list (book_of y70))) by dec_vm. rewrite El1 in Hn. apply NoDup_cons in Hn as [Hn _]. apply Hn. by left.
Qed.
(** the hypotheses of the theorems above *)
Example C70_case :
  is_type (mimetype doc56) "ods" "office:spreadsheet" /\ document (mimetype doc56) (mgr opened56.1) /\ complete "office:spreadsheet" (mgr opened56.1) /\
  (forall p, source (mgr opened56.1) = SFile p -> plain_name p) /\ (exists m, meta_of (objects (mgr opened56.1) 0) = Some m) /\
  exists a1 a2 q e, Forall (fun a => plain_name (sn_file (d_sit a))) [a1; a2] /\
    book_life T_Document.noon [a1; a2] doc56 opened56.1 docB70 next70b.1 /\
    w_list (d_end a2) !! 1 = Some q /\ w_tabs (d_end a2) !! q = Some (Stored e) /\
    words_life (map d_sit [a1; a2]) [] = [Some (lit "k"); Some (lit "j")].
Proof.
  split; [exact type70|]. split; [apply desk70|]. split; [apply desk70|]. split; [exact source70|].
  split; [destruct desk70 as [_ ((_ & m & Hm & _) & _)]; by exists m|].
  destruct life70 as (a1 & a2 & q & e & HL & E1 & E2 & H1 & H2). exists a1, a2, q, e. cbn [map]. rewrite E1, E2.
  split; [apply Forall_cons_2; [rewrite E1; exact T_Document.plain_a|apply Forall_cons_2; [rewrite E2; exact plain_b|by apply Forall_nil_2]]|].
  split; [exact HL|]. split; [exact H1|]. split; [exact H2|]. by_vm.
Qed.
End case.
