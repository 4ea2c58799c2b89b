(** C74: drawings and presentations over any number of sessions. *)
From Verif Require T_Document T_Drawing.
From Verif Require Import DrawingLifeSpec DrawingSaved DocumentProofs T_Sessions.

Section life.
Context `{U : Unicode} `{B : Bytes}.
Lemma same_drawing t (S : node) n (r y y2 : node) : drawing t S n r y -> drawing t S n r y2 -> y2 = y.
Proof. intros (_ & _ & _ & _ & E) (_ & _ & _ & _ & E2). congruence. Qed.
(** one session *)
Lemma page_session c ext t x D s S n (r y r' : node) os rs m d D1 s1 s2 me :
  is_type (mimetype D) ext t -> document (mimetype D) (mgr s) -> complete t (mgr s) ->
  (forall p, source (mgr s) = SFile p -> plain_name p) -> plain_name (sn_file x) -> meta_of (objects (mgr s) 0) = Some me ->
  drawing t S n r y -> erase r = objects (mgr s) 2 -> fits (nid y) os (Dk S n) ->
  d_run (pages_of (nid y)) os (Dk S n) = (m, rs) -> shows_pages (nid y) (d_store m) d -> sub (nid r) (d_store m) = Some r' ->
  page_work x (erase r') D s = (s1, Done (Ok D1)) ->
  files (mach s2) !! sn_file x = files (mach s1) !! sn_file x -> no_failure s2 -> 10 <= length (env (mach s2)) ->
  exists s3, opendoc c (FromFile (sn_file x)) s2 = (s3, Done (Ok (Doc (Some (sn_file x)) (mimetype D) ext true))) /\
    document (mimetype D) (mgr s3) /\ complete t (mgr s3) /\ source (mgr s3) = SFile (sn_file x) /\
    has_stats me /\ meta_of (objects (mgr s3) 0) = Some (parsed (play (all_ops x) me)) /\
    objects (mgr s3) 1 = parsed (objects (mgr s) 1) /\
    shown_as t (objects (mgr s3) 2) (found_after (show_of y d)).
Proof.
  intros HT Hd Hc Hps Hp Hm HD Er Hf Erun Hsh Hr' E Hfile Hn Hk. set (sM := edit_meta (sn_meta x) s).
  pose proof Hc as Hcc. apply complete_iff in Hcc as [Hr Hu]. destruct (rooted_play _ (mgr s) (sn_meta x) me Hr Hm) as (Hr1 & Hst & Hm1).
  assert (Hc1 : complete t (mgr sM)) by (apply complete_iff; by split).
  set (D' := Doc (Some (sn_file x)) (mimetype D) (doctype D) (backup D)).
  set (s0 := FileManager.St (mach sM) (set_object 2 (erase r') (mgr sM))).
  assert (Ew : doc_save (sn_now x) (sn_gen x) D' s0 = (s1, Done (Ok tt))).
  { unfold page_work, doc_saveas, pbind in E. change (FileManager.St _ _) with s0 in E. fold D' in E.
    destruct (doc_save (sn_now x) (sn_gen x) _ s0) as [q [|[[]|e]]]; try done. by injection E as -> _. }
  destruct (T_Drawing.C73_saved (sn_now x) (sn_gen x) c D' (sn_file x) ext t sM s1 s2 S n r y r' os m d rs HD (eq_sym Er) Hf Erun Hsh Hr' eq_refl HT Hd Hc1 Hp Hps Ew Hfile Hn Hk)
    as (s3 & E3 & Hd3 & Hc3 & S3 & O2 & HR). cbn [D' mimetype] in *. exists s3. split; [done|]. split; [done|]. split; [done|]. split; [done|]. split; [done|].
  (* the other trees *)
  destruct (T_Drawing.C73_works t S n r y os HD Hf) as (m1 & d1 & rs1 & E1 & _ & _ & r1 & y' & A1 & A2 & _ & A3 & A4 & _ & _ & A5).
  rewrite Erun in E1. injection E1 as <- <-. rewrite Hr' in A1. injection A1 as <-.
  assert (Hc0 : complete t (mgr s0)).
  { cbn [s0 mgr]. rewrite A4, Er. change (objects (mgr s) 2) with (objects (mgr sM) 2). apply (complete_pages t (mgr sM) (erase y)); try done.
    - change (objects (mgr sM) 2) with (objects (mgr s) 2). rewrite <- Er. apply drawing_erase. by destruct HD as (_ & _ & _ & _ & ?).
    - by rewrite !erase_root, A3.
    - rewrite !erase_kids, <- !others_erase. f_equal. exact A5. }
  destruct (T_Document.C52_save (sn_now x) (sn_gen x) c D' (sn_file x) ext t s0 s1 s2 eq_refl HT Hd Hc0 Hp Hps Ew Hfile Hn Hk) as (s3' & E3' & O0 & O1 & _).
  cbn [D' mimetype] in E3'. rewrite E3 in E3'. injection E3' as <-. split.
  { rewrite O0. unfold meta_of. rewrite parsed_head. change (objects (mgr s0) 0) with (play_doc (sn_meta x) (objects (mgr s) 0)).
    destruct (rooted_play _ (mgr s) (all_ops x) me Hr Hm) as (_ & _ & H). unfold all_ops at 1 in H. unfold play_doc in H |- *. rewrite foldl_app in H. unfold meta_of in H. by rewrite H. }
  split; [done|]. intros S2 n2 r2 G1 G2 G3 G4. destruct (HR S2 n2 r2 G1 G2 G3 G4) as (y2 & H1 & H2 & H3). exists y2. split; [done|]. by split.
Qed.
Lemma page_life_snoc c t l a D s D' s' D3 s3 : page_life c t l D s D' s' -> page_life c t [a] D' s' D3 s3 -> page_life c t (l ++ [a]) D s D3 s3.
Proof. intros H H2. induction H as [D s|]; [exact H2|]. cbn [app]. eapply pl_cons; eauto. Qed.
Lemma page_life_source c t l D s D' s' : page_life c t l D s D' s' -> Forall (fun a => plain_name (sn_file (p_sit a))) l ->
  (forall p, source (mgr s) = SFile p -> plain_name p) -> forall p, source (mgr s') = SFile p -> plain_name p.
Proof.
  induction 1 as [D s|x os rs d l D s S n r y r' m D1 s1 s2 D3 s3 D4 s4 HD Er Hf Erun Hss Hsh Hr' Ew Hfile Hn Hk Eo HL IH]; intros Hp Hps; [done|]. apply Forall_cons in Hp as [Hz Hp]. apply (IH Hp).
  destruct (T_Document.C33_detect c _ s2 s3 D3 Hn Eo) as (? & ? & ? & ? & ? & H). decompose [and] H. match goal with H : source (mgr s3) = _ |- _ => rewrite H end. by intros p [= <-].
Qed.
End life.

(** C74.  Each session finds what the session before left: the same pages with the same names and
    content in the same order, and between them what is no page (empty texts have become none);
    so does whoever opens the document after the last session. *)
Theorem C74_life `{U : Unicode} `{B : Bytes} c ext t (l : list pday) D s D' s' :
  is_type (mimetype D) ext t -> document (mimetype D) (mgr s) -> complete t (mgr s) ->
  (forall p, source (mgr s) = SFile p -> plain_name p) -> Forall (fun a => plain_name (sn_file (p_sit a))) l ->
  page_life c t l D s D' s' ->
  mimetype D' = mimetype D /\ document (mimetype D) (mgr s') /\ complete t (mgr s') /\
  (forall i a a', l !! i = Some a -> l !! S i = Some a' -> found_after (p_end a) (p_start a')) /\
  (forall a, last l = Some a -> shown_as t (objects (mgr s') 2) (found_after (p_end a))).
Proof.
  intros HT Hd Hc Hps Hp HL. revert HT Hd Hc Hps Hp.
  induction HL as [D s|x os rs d l D s S n r y r' m D1 s1 s2 D3 s3 D4 s4 HD Er Hf Erun Hss Hsh Hr' Ew Hfile Hn Hk Eo HL IH]; intros HT Hd Hc Hps Hp; [done|].
  apply Forall_cons in Hp as [Hp1 Hp]. cbn [p_sit] in Hp1.
  assert (Hm : exists m, meta_of (objects (mgr s) 0) = Some m) by (destruct Hc as ((_ & me & Hm & _) & _); by exists me). destruct Hm as [me Hm].
  destruct (page_session c ext t x D s S n r y r' os rs m d D1 s1 s2 me HT Hd Hc Hps Hp1 Hm HD Er Hf Erun Hsh Hr' Ew Hfile Hn Hk) as (s3' & E3 & Hd3 & Hc3 & S3 & _ & _ & _ & HR).
  rewrite E3 in Eo. injection Eo as -> <-. cbn [mimetype] in IH.
  destruct IH as (M1 & Hd4 & Hc4 & Hch & Hla); try done.
  { intros p. rewrite S3. by intros [= <-]. }
  split_and!; try done.
  - intros [|i] a a'; cbn [lookup list_lookup]; [|apply Hch]. intros [= <-] Ha'. destruct HL as [|x2 os2 rs2 d2 l2 D2 s2' S2 n2 r2 y2 r2' m2 D12 s12 s22 D32 s32 D42 s42 HD2 Er2]; [done|].
    injection Ha' as <-. cbn [p_start p_end]. pose proof HD2 as (N1 & N2 & N3 & _). destruct (HR S2 n2 r2 N1 N2 N3 Er2) as (y3 & Hy3 & Hf3).
    by rewrite (same_drawing _ _ _ _ _ _ HD2 Hy3) in Hf3.
  - intros a Ha. destruct l as [|a2 l]; [|apply Hla; by cbn in *]. injection Ha as <-. inversion HL; subst. done.
Qed.
Print Assumptions C74_life.

(** C74.  The meta data are what the calls of all sessions make of what was there at first (C68),
    the styles stay. *)
Theorem C74_meta `{U : Unicode} `{B : Bytes} c ext t (l : list pday) D s D' s' (m : elem) :
  is_type (mimetype D) ext t -> document (mimetype D) (mgr s) -> complete t (mgr s) ->
  (forall p, source (mgr s) = SFile p -> plain_name p) -> Forall (fun a => plain_name (sn_file (p_sit a))) l ->
  meta_of (objects (mgr s) 0) = Some m -> page_life c t l D s D' s' ->
  exists m', meta_of (objects (mgr s') 0) = Some m' /\
    (forall key, alookup key META_TAGS <> None -> field key m' = field_life key (map p_sit l) (field key m)) /\
    words m' = words_life (map p_sit l) (words m) /\ users m' = users_life (map p_sit l) (users m) /\
    (forall key, key ∈ STAT_TYPES -> stat key m' = stat_life key (map p_sit l) (stat key m)) /\
    parsed (objects (mgr s') 1) = parsed (objects (mgr s) 1).
Proof.
  intros HT Hd Hc Hps Hp Hm HL. revert m HT Hd Hc Hps Hp Hm.
  induction HL as [D s|x os rs d l D s S n r y r' mm D1 s1 s2 D3 s3 D4 s4 HD Er Hf Erun Hss Hsh Hr' Ew Hfile Hn Hk Eo HL IH]; intros m HT Hd Hc Hps Hp Hm; [by exists m|].
  apply Forall_cons in Hp as [Hp1 Hp]. cbn [p_sit] in Hp1.
  destruct (page_session c ext t x D s S n r y r' os rs mm d D1 s1 s2 m HT Hd Hc Hps Hp1 Hm HD Er Hf Erun Hsh Hr' Ew Hfile Hn Hk) as (s3' & E3 & Hd3 & Hc3 & S3 & Hst & Hm3 & O1 & _).
  rewrite E3 in Eo. injection Eo as -> <-. cbn [mimetype] in IH. set (m3 := parsed (play (all_ops x) m)) in *.
  destruct (IH m3) as (m' & Hm4 & F1 & F2 & F3 & F4 & O4); try done.
  { intros p. rewrite S3. by intros [= <-]. }
  exists m'. cbn [map p_sit]. split_and!; try done.
  - intros key Hkey. rewrite (F1 key Hkey). unfold m3. rewrite parsed_field. unfold field_life at 2. cbn [foldl].
    rewrite (run_fold (field key) (entry_after key)); [done|done|]. intros. by apply step_entry.
  - rewrite F2. unfold m3. rewrite parsed_words. unfold words_life at 2. cbn [foldl]. rewrite (run_fold words words_after); [|done|exact step_words]. unfold all_ops. by rewrite words_end.
  - rewrite F3. unfold m3. rewrite parsed_users. unfold users_life at 2. cbn [foldl]. rewrite (run_fold users users_after); [|done|exact step_users]. unfold all_ops. by rewrite users_end.
  - intros key Hkey. rewrite (F4 key Hkey). unfold m3. rewrite parsed_stat. unfold stat_life at 2. cbn [foldl]. rewrite (run_fold (stat key) (stat_after key)); [|done|intros; by apply step_stat]. unfold all_ops. by rewrite stat_end.
  - by rewrite O4, O1, parsed_again.
Qed.
Print Assumptions C74_meta.

(** C74.  What was saved can be opened, after any number of sessions: any program of calls that is
    run and saved prolongs the life of the document. *)
Theorem C74_opens `{U : Unicode} `{B : Bytes} c ext t (l : list pday) x D s D' s' S n (r y : node) os :
  is_type (mimetype D) ext t -> document (mimetype D) (mgr s) -> complete t (mgr s) ->
  (forall p, source (mgr s) = SFile p -> plain_name p) -> Forall (fun a => plain_name (sn_file (p_sit a))) l -> plain_name (sn_file x) ->
  page_life c t l D s D' s' ->
  drawing t S n r y -> erase r = objects (mgr s') 2 -> fits (nid y) os (Dk S n) ->
  exists r' d rs, sub (nid r) (d_store (d_run (pages_of (nid y)) os (Dk S n)).1) = Some r' /\ psteps os (pdoc_of S y) d rs /\
  forall D1 s1 s2, page_work x (erase r') D' s' = (s1, Done (Ok D1)) ->
    files (mach s2) !! sn_file x = files (mach s1) !! sn_file x -> no_failure s2 -> 10 <= length (env (mach s2)) ->
    exists s3, opendoc c (FromFile (sn_file x)) s2 = (s3, Done (Ok (Doc (Some (sn_file x)) (mimetype D) ext true))) /\
      page_life c t (l ++ [PDay x (show_at S y) os rs (show_of y d)]) D s (Doc (Some (sn_file x)) (mimetype D) ext true) s3.
Proof.
  intros HT Hd Hc Hps Hp Hpx HL HD Er Hf.
  destruct (T_Drawing.C73_works t S n r y os HD Hf) as (m & d & rs & Erun & Hss & Hsh & r' & y' & Hr' & _). exists r', d, rs. rewrite Erun. split; [done|]. split; [done|].
  intros D1 s1 s2 Ew Hfile Hn Hk.
  destruct (C74_life c ext t l D s D' s' HT Hd Hc Hps Hp HL) as (M1 & Hd' & Hc' & _). pose proof (page_life_source _ _ _ _ _ _ _ HL Hp Hps) as Hps'.
  assert (Hm : exists m, meta_of (objects (mgr s') 0) = Some m) by (destruct Hc' as ((_ & me & Hm & _) & _); by exists me). destruct Hm as [me Hm].
  rewrite <- M1 in HT, Hd'. destruct (page_session c ext t x D' s' S n r y r' os rs m d D1 s1 s2 me HT Hd' Hc' Hps' Hpx Hm HD Er Hf Erun Hsh Hr' Ew Hfile Hn Hk) as (s3 & E3 & _). rewrite M1 in E3.
  exists s3. split; [done|]. eapply page_life_snoc; [exact HL|]. eapply pl_cons; eauto. constructor.
Qed.
Print Assumptions C74_opens.

(** ** A case: the presentation of C73_case is changed, saved and opened; then its last page is
    named, put first and saved again. *)
Section case.
Local Existing Instance ascii_unicode.
Local Existing Instance tree_bytes.
Import T_Drawing.
Definition sit74 : sitting := Sitting [MSet "title" (TStr (lit "T")); KAdd (Some (lit "k"))] [] (lit "2020") (lit "G") T_Document.file_a.
Definition sit74b : sitting := Sitting [KAdd (Some (lit "j"))] [] (lit "2021") (lit "G") T_Document.file_b.
Definition saved74 := page_work sit74 (erase r73') doc73 opened73.1.
Definition next74 := opendoc T_Document.noon (FromFile T_Document.file_a) (refuel saved74.1).
Definition r74 : node := (label (objects (mgr next74.1) 2) 1).1.
Definition nxt74 : N := (label (objects (mgr next74.1) 2) 1).2.
Definition mem74 : node := T (L 0 (Nd "" ∅ None None)) [r74].
Definition y74 : node := default mem74 (drawing_body "office:presentation" r74).
Definition last74 : N := default 0%N (last (pages (pages_of (nid y74)) mem74)).
Definition os74 : list dop := [DName last74 (lit "Z"); DInsert 0 last74; DGet (KStr (lit "Z")); DDel (KInt 7)].
Definition done74 := d_run (pages_of (nid y74)) os74 (Dk mem74 nxt74).
Definition r74' : node := default mem74 (sub (nid r74) (d_store done74.1)).
Definition saved74b := page_work sit74b (erase r74') doc73 next74.1.
Definition next74b := opendoc T_Document.noon (FromFile T_Document.file_b) (refuel saved74b.1).
Definition doc74 : doc := Doc (Some T_Document.file_b) (full_type "presentation") "odp" true.
Lemma done73_eq : d_run (pages_of (nid y73)) os73 (Dk mem73 next73) = (done73.1, done73.2).
Proof. exact (surjective_pairing _). Qed.
Lemma saved74_eq : page_work sit74 (erase r73') doc73 opened73.1 = (saved74.1, Done (Ok doc73)).
Proof. exact (pair_by saved74 _ ltac:(by_vm)). Qed.
Local Opaque opened73 done73 saved74 r73'.
Lemma next74_eq : opendoc T_Document.noon (FromFile T_Document.file_a) (refuel saved74.1) = (next74.1, Done (Ok doc73)).
Proof. exact (pair_by next74 _ ltac:(by_vm)). Qed.
Local Opaque next74 r74 nxt74 mem74 y74 last74.
Lemma done74_eq : d_run (pages_of (nid y74)) os74 (Dk mem74 nxt74) = (done74.1, done74.2).
Proof. exact (surjective_pairing _). Qed.
Lemma results74 : done74.2 = [Ok None; Ok (Some last74); Ok (Some last74); Err IndexError].
Proof. by_vm. Qed.
Local Opaque done74 r74'.
Lemma saved74b_eq : page_work sit74b (erase r74') doc73 next74.1 = (saved74b.1, Done (Ok doc74)).
Proof. exact (pair_by saved74b _ ltac:(by_vm)). Qed.
Local Opaque saved74b.
Lemma next74b_eq : opendoc T_Document.noon (FromFile T_Document.file_b) (refuel saved74b.1) = (next74b.1, Done (Ok doc74)).
Proof. exact (pair_by next74b _ ltac:(by_vm)). Qed.
Local Opaque next74b.
Lemma drawing74 : drawing "office:presentation" mem74 nxt74 r74 y74.
Proof. split; [unfold wfs; dec_vm|]. split; [apply Forall_forall; dec_vm|]. split; [apply (elem_of_list_lookup_2 _ 0); by_vm|].
  split; [apply (ne_by _ _ "office:document-content"%string); [by_vm|discriminate]|by_vm].
Qed.
Lemma erase74 : erase r74 = objects (mgr next74.1) 2.
Proof. by_vm. Qed.
Lemma sub74 : sub (nid r74) (d_store done74.1) = Some r74'.
Proof. by_vm. Qed.
Lemma fits74 : fits (nid y74) os74 (Dk mem74 nxt74).
Proof.
  assert (HI : forall (w : node) c, bool_decide (c ∈ flat_map ids (kids w)) = true -> tag <$> data c w = Some "draw:page"%string -> bool_decide (c ∈ children (nid y74) w) = true -> known (nid y74) w c).
  { intros w c H1%bool_decide_eq_true H2 H3%bool_decide_eq_true. split; [exact H1|]. split; [exact H2|]. by left. }
  unfold os74. cbn [fits dop_pages stays_page].
  split; [exact I|]. split; [apply Forall_cons_2; [apply HI; by_vm|apply Forall_nil_2]|].
  split; [exact I|]. split; [apply Forall_cons_2; [apply HI; by_vm|apply Forall_nil_2]|].
  split; [exact I|]. split; [apply Forall_nil_2|]. split; [exact I|]. split; [apply Forall_nil_2|]. exact I.
Qed.
Lemma page_step c t x os rs d l D s S n (r y r' : node) m D1 s1 D3 s3 D4 s4 :
  drawing t S n r y -> erase r = objects (mgr s) 2 -> fits (nid y) os (Dk S n) ->
  d_run (pages_of (nid y)) os (Dk S n) = (m, rs) -> psteps os (pdoc_of S y) d rs -> shows_pages (nid y) (d_store m) d ->
  sub (nid r) (d_store m) = Some r' ->
  page_work x (erase r') D s = (s1, Done (Ok D1)) -> opendoc c (FromFile (sn_file x)) (refuel s1) = (s3, Done (Ok D3)) ->
  page_life c t l D3 s3 D4 s4 -> page_life c t (PDay x (show_at S y) os rs (show_of y d) :: l) D s D4 s4.
Proof. intros. eapply pl_cons; [eassumption..| | | |eassumption|eassumption]; [done|apply refuel_fine|apply refuel_fine]. Qed.
Lemma run_shown t S n (r y : node) os m rs : drawing t S n r y -> fits (nid y) os (Dk S n) -> d_run (pages_of (nid y)) os (Dk S n) = (m, rs) ->
  exists d, psteps os (pdoc_of S y) d rs /\ shows_pages (nid y) (d_store m) d.
Proof. intros HD Hf E. destruct (C73_works _ _ _ _ _ _ HD Hf) as (m1 & d & rs1 & E1 & Hss & Hsh & _). rewrite E in E1. injection E1 as <- <-. by exists d. Qed.
Lemma life74 : exists a1 a2, page_life T_Document.noon "office:presentation" [a1; a2] doc73 opened73.1 doc74 next74b.1 /\
  p_sit a1 = sit74 /\ p_sit a2 = sit74b /\ p_ops a1 = os73 /\ p_ops a2 = os74 /\ p_results a2 = done74.2.
Proof.
  destruct C73_case as (HD & Er & Hf & Hr' & _).
  destruct (run_shown _ _ _ _ _ _ _ _ HD Hf done73_eq) as (d & Hss & Hsh).
  destruct (run_shown _ _ _ _ _ _ _ _ drawing74 fits74 done74_eq) as (d2 & Hss2 & Hsh2).
  eexists _, _. split.
  - eapply (page_step T_Document.noon _ sit74); [exact HD|exact (eq_sym Er)|exact Hf|exact done73_eq|exact Hss|exact Hsh|exact Hr'|exact saved74_eq|exact next74_eq|].
    eapply (page_step T_Document.noon _ sit74b); [exact drawing74|exact erase74|exact fits74|exact done74_eq|exact Hss2|exact Hsh2|exact sub74|exact saved74b_eq|exact next74b_eq|apply pl_nil].
  - cbn [p_sit p_ops p_results]. split_and!; exact eq_refl.
Qed.
(** the hypotheses of the theorems above *)
Example C74_case :
  is_type (mimetype doc73) "odp" "office:presentation" /\ document (mimetype doc73) (mgr opened73.1) /\ complete "office:presentation" (mgr opened73.1) /\
  (forall p, source (mgr opened73.1) = SFile p -> plain_name p) /\ (exists m, meta_of (objects (mgr opened73.1) 0) = Some m) /\
  exists a1 a2, Forall (fun a => plain_name (sn_file (p_sit a))) [a1; a2] /\
    page_life T_Document.noon "office:presentation" [a1; a2] doc73 opened73.1 doc74 next74b.1 /\
    p_results a2 = [Ok None; Ok (Some last74); Ok (Some last74); Err IndexError] /\
    words_life (map p_sit [a1; a2]) [] = [Some (lit "k"); Some (lit "j")].
Proof.
  destruct C73_case as (_ & _ & _ & _ & _ & _ & _ & HT & Hd & Hc & Hps & _).
  split; [exact HT|]. split; [exact Hd|]. split; [exact Hc|]. split; [exact Hps|].
  split; [destruct Hc as ((_ & m & Hm & _) & _); by exists m|].
  destruct life74 as (a1 & a2 & HL & E1 & E2 & _ & _ & E3). exists a1, a2. cbn [map]. rewrite E1, E2.
  split; [apply Forall_cons_2; [rewrite E1; exact T_Document.plain_a|apply Forall_cons_2; [rewrite E2; exact plain_b|by apply Forall_nil_2]]|].
  split; [exact HL|]. split; [rewrite E3; exact results74|]. by_vm.
Qed.
End case.
