(** Drawings and presentations: programs over doc.body.pages, saved and opened again. *)
From Verif Require T_Document.
From Verif Require Import DrawingSaved DocumentProofs.

(** C73.  A program of calls on the pages of an opened drawing or presentation does what the
    document of names and trees says, call by call, with its results and exceptions; memory shows
    the new document, and everything in the body that is no page is there as before, in the same
    order. *)
Theorem C73_works `{U : Unicode} (t : string) (S : node) (n : N) (r y : node) (os : list dop) :
  drawing t S n r y -> fits (nid y) os (Dk S n) ->
  exists m' d' rs, d_run (pages_of (nid y)) os (Dk S n) = (m', rs) /\
    psteps os (pdoc_of S y) d' rs /\ shows_pages (nid y) (d_store m') d' /\
    exists r' y', sub (nid r) (d_store m') = Some r' /\ drawing_body t r' = Some y' /\ nid y' = nid y /\ root y' = root y /\
      erase r' = with_body t (erase y') (erase r) /\ map nid (kids y') = pd_list d' /\
      map erase (kids y') = body_items y d' /\ other_kids y' = other_kids y.
Proof.
  intros HD Hf. destruct (run_rep S (frame r y) (nid y) (map nid (other_kids y)) os (Dk S n) (pdoc_of S y) (rep_init t S n r y HD) Hf) as (m' & d' & rs & E & Hs & HR).
  exists m', d', rs. split; [done|]. split; [done|]. split.
  - split; [apply (r_list _ _ _ _ _ _ HR)|]. split; [eapply rep_pages; exact HR|]. intros x e Hx. destruct (r_tree _ _ _ _ _ _ HR x e Hx) as (_ & _ & k & Hk & Ek & _). by exists k.
  - destruct (pages_tree t S n r y m' d' HD HR) as (r' & y' & A1 & _ & A2 & A3 & A4 & A5 & A6 & A7 & _). exists r', y'. split_and!; try done.
    unfold nid. by rewrite A3.
Qed.
Print Assumptions C73_works.

(** C73.  What a call does is determined; only a new page can be any page there was not. *)
Theorem C73_determined (d : pdoc) (o : dop) d1 r1 d2 r2 : (forall s, o <> DNew s) ->
  pstep d o d1 r1 -> pstep d o d2 r2 -> d1 = d2 /\ r1 = r2.
Proof.
  intros Ho H1 H2. destruct H1; inversion H2; subst; try (exfalso; exact (Ho _ eq_refl)); simplify_eq; try done; try (split; congruence).
Qed.
Print Assumptions C73_determined.

(** C73.  A page neither named nor worked on stays as it is, whatever is done to the others and
    wherever it is moved. *)
Theorem C73_spared (os : list dop) (d d' : pdoc) rs (x : N) (e : elem) :
  psteps os d d' rs -> Forall (spares x) os -> pd_trees d !! x = Some e -> pd_trees d' !! x = Some e.
Proof.
  induction 1 as [d|o os d d1 d2 r rs Hs _ IH]; [done|]. intros [Ho Hos]%Forall_cons Hx. apply IH; [done|]. clear IH Hos.
  destruct Hs as [| | | | | | | |c s e0 Hc Hs| |s z Hs [Hz _]|z [Hz _]|c f e0 Hc Hf|c f e0 z Hc Hf]; try done; cbn [pd_put pd_trees spares] in *; (rewrite lookup_insert_ne; [done|congruence]).
Qed.
Print Assumptions C73_spared.

(** C73.  The document is saved and opened again: its body has the same pages with the same
    names and content in the same order, and between them what was there before; empty texts
    have become none.  The next program can begin. *)
Theorem C73_saved `{U : Unicode} `{B : Bytes} now gen c D f ext t (s s' s2 : FileManager.st) (S : node) (n : N) (r y r' : node) (os : list dop) m' d' rs :
  drawing t S n r y -> objects (mgr s) 2 = erase r -> fits (nid y) os (Dk S n) ->
  d_run (pages_of (nid y)) os (Dk S n) = (m', rs) -> shows_pages (nid y) (d_store m') d' ->
  sub (nid r) (d_store m') = Some r' ->
  docname D = Some f -> is_type (mimetype D) ext t -> document (mimetype D) (mgr s) -> complete t (mgr s) ->
  plain_name f -> (forall p, source (mgr s) = SFile p -> plain_name p) ->
  doc_save now gen D (FileManager.St (mach s) (set_object 2 (erase r') (mgr s))) = (s', Done (Ok tt)) ->
  files (mach s2) !! f = files (mach s') !! f -> no_failure s2 -> 10 <= length (env (mach s2)) ->
  exists s3, opendoc c (FromFile f) s2 = (s3, Done (Ok (Doc (Some f) (mimetype D) ext true))) /\
    document (mimetype D) (mgr s3) /\ complete t (mgr s3) /\ source (mgr s3) = SFile f /\
    objects (mgr s3) 2 = parsed (erase r') /\
    forall S2 n2 r2, wfs S2 -> (forall z, z ∈ ids S2 -> z < n2)%N -> r2 ∈ kids S2 -> erase r2 = objects (mgr s3) 2 ->
      exists y2, drawing t S2 n2 r2 y2 /\ map erase (kids y2) = map parsed (body_items y d') /\
        map (pd_name (pdoc_of S2 y2)) (pd_pages (pdoc_of S2 y2)) = map (pd_name d') (pd_pages d').
Proof.
  intros HD Er Hf Erun Hsh Hr' Hfn HT Hd Hc Hp Hps E Hfile Hn Hk.
  destruct (run_rep S (frame r y) (nid y) (map nid (other_kids y)) os (Dk S n) (pdoc_of S y) (rep_init t S n r y HD) Hf) as (m1 & d1 & rs1 & E1 & _ & HR).
  rewrite Erun in E1. injection E1 as <- <-. destruct (shown_same _ _ _ _ _ _ y d' HR Hsh) as [I1 I2].
  destruct (pages_tree t S n r y m' d1 HD HR) as (r1 & y' & A1 & _ & A2 & A3 & A4 & A5 & A6 & A7 & _ & A8). rewrite Hr' in A1. injection A1 as <-.
  pose proof HD as (_ & _ & _ & _ & Hy). pose proof (drawing_erase t r y Hy) as Hby. rewrite <- Er in Hby, A4.
  set (s1 := FileManager.St (mach s) (set_object 2 (erase r') (mgr s))) in *.
  assert (Hc1 : complete t (mgr s1)).
  { cbn [s1 mgr]. rewrite A4. apply (complete_pages t (mgr s) (erase y)); try done; [by rewrite !erase_root, A3|]. rewrite !erase_kids, <- !others_erase. f_equal. exact A5. }
  destruct (T_Document.C52_save now gen c D f ext t s1 s' s2 Hfn HT Hd Hc1 Hp Hps E Hfile Hn Hk) as (s3 & E3 & _ & _ & E2 & _ & Es).
  change (objects (mgr s1) 2) with (erase r') in E2. exists s3. split; [done|].
  destruct (T_Document.C52_opened c (FromFile f) ext [] None s2 s3 _ Hn (or_introl E3)) as (t' & HT' & Hd' & Hc' & _). cbn [mimetype doctype] in HT', Hd'.
  assert (t' = t) as ->. { apply type_tables in HT as [_ HT1]. apply type_tables in HT' as [_ HT2]. rewrite HT1 in HT2. by injection HT2. }
  split; [done|]. split; [done|]. split; [done|]. split; [done|]. intros S2 n2 r2 G1 G2 G3 G4.
  assert (Ht2 : ltag r2 <> PAGE). { rewrite ltag_erase, G4. destruct Hc' as (_ & _ & (Hct & _) & _). rewrite Hct. discriminate. }
  rewrite E2 in G4.
  pose proof (parsed_body_of _ _ _ (drawing_erase t r' y' A2)) as Hb2. rewrite <- G4 in Hb2. apply erase_drawing in Hb2 as (y2 & Hy2 & Ey2).
  exists y2. assert (HD2 : drawing t S2 n2 r2 y2) by (split_and!; done). split; [done|].
  assert (K2 : map erase (kids y2) = map parsed (map erase (kids y'))). { rewrite <- !erase_kids, Ey2. apply parsed_kids. }
  split; [rewrite K2, A7; by rewrite I1|].
  destruct (pages_tree t S2 n2 r2 y2 (Dk S2 n2) _ HD2 (rep_init t S2 n2 r2 y2 HD2)) as (r3 & y3 & B1 & _ & B2 & _ & _ & _ & _ & _ & _ & B8). cbn [d_store] in B1.
  destruct (subs_of _ _ _ _ _ HD2) as (Sr2 & _). rewrite Sr2 in B1. injection B1 as <-. rewrite Hy2 in B2. injection B2 as <-.
  rewrite I2. apply (names_of (page_kids y2) (page_kids y')); [done|done|].
  by apply page_kids_parsed.
Qed.
Print Assumptions C73_saved.

Example C73_spared_case (e : elem) : exists d' rs, psteps [DDel (KInt 0); DAppend 7] (PD [7%N] {[7%N := e]}) d' rs /\
  Forall (spares 7) [DDel (KInt 0); DAppend 7] /\ pd_list d' = [7%N].
Proof.
  eexists _, _. split; [eapply pss_cons; [apply (ps_del _ (KInt 0) 7%N); by_vm|eapply pss_cons; [apply ps_append; by exists e|apply pss_nil]]|].
  split; [by repeat constructor|by_vm].
Qed.

(** ** A case: a presentation with two pages and a declaration between them *)
Lemma parentless_ids w c : Forall (fun z => c ∉ children z w) (flat_map ids (kids w)) -> parentless w c.
Proof.
  intros H z Hz. by apply (proj1 (Forall_forall _ _) H).
Qed.
Section case.
Local Existing Instance ascii_unicode.
Local Existing Instance tree_bytes.
Definition el73 (t : string) (nm : option string) (ks : list elem) : elem :=
  T (Nd t (match nm with Some n => {["draw:name"%string := lit n]} | None => ∅ end) None None) ks.
Definition content73 : elem :=
  el73 "office:document-content" None [el73 "office:body" None [el73 "office:presentation" None
    [el73 "draw:page" (Some "A") [el73 "draw:frame" None []]; el73 "presentation:settings" None []; el73 "draw:page" (Some "B") []]]].
Definition pkg73 : list (entry (bytes (Bytes := tree_bytes))) :=
  [Entry (B := tbytes) (lit "mimetype") true (Some (BText (full_type "presentation"))); Entry (lit "content.xml") false (Some (BXml true content73))].
Definition opened73 := opendoc T_Document.noon (FromFile T_Document.file_a) (T_Document.desk pkg73 (replicate 40 Go)).
Definition doc73 : doc := Doc (Some T_Document.file_a) (full_type "presentation") "odp" true.
Definition r73 : node := (label (objects (mgr opened73.1) 2) 1).1.
Definition next73 : N := (label (objects (mgr opened73.1) 2) 1).2.
Definition mem73 : node := T (L 0 (Nd "" ∅ None None)) [r73].
Definition y73 : node := default mem73 (drawing_body "office:presentation" r73).
Definition frame73 (e : elem) : elem * res unit := (T (root e) (kids e ++ [el73 "draw:frame" None []]), Ok tt).
Definition os73 : list dop :=
  [DGet (KStr (lit "B")); DNew (lit "C"); DInsert 1 13; DSet (KStr (lit "A")) 7; DName 13 (lit "D"); DOn 7 frame73;
   DDel (KStr (lit "A")); DNew []; DAppend 4].
Definition done73 := d_run (pages_of (nid y73)) os73 (Dk mem73 next73).
Definition r73' : node := default mem73 (sub (nid r73) (d_store done73.1)).
Definition saved73 := doc_save (lit "2020") (lit "G") doc73 (FileManager.St (mach opened73.1) (set_object 2 (erase r73') (mgr opened73.1))).
Lemma opened73_eq : opened73 = (opened73.1, Done (Ok doc73)).
Proof. apply pair_by. by_vm. Qed.
Lemma fits73 : fits (nid y73) os73 (Dk mem73 next73).
Proof.
  assert (HI : forall (w : node) c, bool_decide (c ∈ flat_map ids (kids w)) = true -> tag <$> data c w = Some "draw:page"%string -> bool_decide (c ∈ children (nid y73) w) = true -> known (nid y73) w c).
  { intros w c H1%bool_decide_eq_true H2 H3%bool_decide_eq_true. split; [exact H1|]. split; [exact H2|]. by left. }
  assert (HF : forall (w : node) c, bool_decide (c ∈ flat_map ids (kids w)) = true -> tag <$> data c w = Some "draw:page"%string -> bool_decide (Forall (fun z => c ∉ children z w) (flat_map ids (kids w))) = true -> known (nid y73) w c).
  { intros w c H1%bool_decide_eq_true H2 H3%bool_decide_eq_true. split; [exact H1|]. split; [exact H2|]. right. by apply parentless_ids. }
  unfold os73. cbn [fits dop_pages stays_page].
  split; [exact I|]. split; [apply Forall_nil_2|]. split; [exact I|]. split; [apply Forall_nil_2|].
  split; [exact I|]. split; [apply Forall_cons_2; [apply HF; by_vm|apply Forall_nil_2]|].
  split; [exact I|]. split; [apply Forall_cons_2; [apply HI; by_vm|apply Forall_nil_2]|].
  split; [exact I|]. split; [apply Forall_cons_2; [apply HI; by_vm|apply Forall_nil_2]|].
  split; [intros e He; exact He|]. split; [apply Forall_cons_2; [apply HI; by_vm|apply Forall_nil_2]|].
  split; [exact I|]. split; [apply Forall_nil_2|]. split; [exact I|]. split; [apply Forall_nil_2|].
  split; [exact I|]. split; [apply Forall_cons_2; [apply HF; by_vm|apply Forall_nil_2]|]. exact I.
Qed.
Example C73_case :
  drawing "office:presentation" mem73 next73 r73 y73 /\ objects (mgr opened73.1) 2 = erase r73 /\ fits (nid y73) os73 (Dk mem73 next73) /\
  sub (nid r73) (d_store done73.1) = Some r73' /\
  done73.2 = [Ok (Some 7%N); Ok (Some 13%N); Ok (Some 13%N); Ok None; Ok None; Ok None; Err KeyError; Err ValueError; Ok (Some 4%N)] /\
  children (nid y73) (d_store done73.1) = [7; 13; 6; 8; 9; 4]%N /\
  docname doc73 = Some T_Document.file_a /\ is_type (mimetype doc73) "odp" "office:presentation" /\ document (mimetype doc73) (mgr opened73.1) /\
  complete "office:presentation" (mgr opened73.1) /\ (forall p, source (mgr opened73.1) = SFile p -> plain_name p) /\ saved73.2 = Done (Ok tt).
Proof.
  split. { split; [unfold wfs; dec_vm|]. split; [apply Forall_forall; dec_vm|]. split; [by left|]. split; [dec_vm|by_vm]. }
  split; [by_vm|]. split; [exact fits73|]. split; [by_vm|]. split; [by_vm|]. split; [by_vm|]. split; [exact eq_refl|].
  assert (HT : is_type (full_type "presentation") "odp" "office:presentation") by (exists "presentation"%string; split; [dec_vm|done]).
  split; [exact HT|].
  destruct (T_Document.C52_opened T_Document.noon (FromFile T_Document.file_a) "odp" [] None (T_Document.desk pkg73 (replicate 40 Go)) opened73.1 doc73
    (T_Document.go_fine 40 pkg73) (or_introl opened73_eq)) as (body & HT1 & Hd & Hc & _).
  assert (body = "office:presentation"%string) as ->. { apply type_tables in HT1 as [_ HT1]. destruct (proj2 (type_tables _ _ _) HT) as [_ HT2]. change (mimetype doc73) with (full_type "presentation") in HT1. rewrite HT2 in HT1. by injection HT1. }
  split; [exact Hd|]. split; [exact Hc|].
  split. { assert (E : source (mgr opened73.1) = SFile T_Document.file_a) by by_vm. rewrite E. intros p [= <-]. exact T_Document.plain_a. }
  by_vm.
Qed.
End case.
