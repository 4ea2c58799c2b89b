(** C77: named styles, saved and opened again. *)
From Verif Require T_Document.
From Verif Require Import InjectSaved DocumentProofs SheetProofs TextDocProofs SpanLayoutProofs StylesSpec.

Lemma complete_styles `{B : Bytes} t g r r' : complete t g -> objects g 1 = erase r -> root r' = root r -> map root (kids r') = map root (kids r) ->
  complete t (set_object 1 (erase r') g).
Proof.
  intros (C0 & (C1 & C2) & C3 & C4 & C5) E Er Ek. apply Forall_cons in C5 as [T0 C5]. apply Forall_cons in C5 as [T1 C5]. apply Forall_cons in C5 as [T2 C5].
  assert (Et : e_tag (erase r') = e_tag (erase r)) by (unfold e_tag; by rewrite !erase_root, Er).
  assert (El : e_tail (erase r') = e_tail (erase r)) by (unfold e_tail; by rewrite !erase_root, Er).
  assert (Ht : map e_tag (kids (erase r')) = map e_tag (kids (erase r))).
  { rewrite !erase_kids, !map_map. transitivity (map (fun a : lnd => tag (pl a)) (map root (kids r'))); [rewrite map_map; apply map_ext; intros a; unfold e_tag; by rewrite erase_root|].
    rewrite Ek, map_map. apply map_ext. intros a. unfold e_tag. by rewrite erase_root. }
  rewrite E in C1, C2, T2. split; [exact C0|]. split.
  - change (objects (set_object 1 (erase r') g) 1) with (erase r'). split; [by rewrite Et|]. unfold has_children in *.
    eapply Forall_impl; [exact C2|]. intros tg H. cbn in H |- *. by rewrite findall_missing, Ht, <- findall_missing.
  - split; [exact C3|]. split; [exact C4|]. apply Forall_cons; split; [exact T0|]. apply Forall_cons; split; [exact T1|]. apply Forall_cons; split; [|exact C5].
    change (objects (set_object 1 (erase r') g) 1) with (erase r'). by rewrite El.
Qed.

(** Any program of lookups and assignments (of styles that are in no tree yet, under the names
    they have) on a container of styles of a document, which is then saved under its name and
    opened again: the container is there again, and finds under every name the style assigned
    first, with all that is in it, else the one that was there; under the other names there is
    nothing.  (Empty texts of elements are not kept: [parsed].) *)
Theorem C77_saved `{U : Unicode} `{B : Bytes} now gen c D f ext body t (s s' s2 : FileManager.st) (S r k r' : node) (os : list sop) :
  style_container t S r k -> objects (mgr s) 1 = erase r ->
  Forall (fun p => fresh_style S (nid k) p.1 p.2) (sets os) -> NoDup (map snd (sets os)) ->
  sub (nid r) (tree_of (s_run (nid k) os (CSt S ∅))) = Some r' ->
  docname D = Some f -> is_type (mimetype D) ext body -> document (mimetype D) (mgr s) -> complete body (mgr s) ->
  plain_name f -> (forall p, source (mgr s) = SFile p -> plain_name p) ->
  doc_save now gen D (FileManager.St (mach s) (set_object 1 (erase r') (mgr s))) = (s', Done (Ok tt)) ->
  files (mach s2) !! f = files (mach s') !! f -> no_failure s2 -> 10 <= length (env (mach s2)) ->
  exists s3, opendoc c (FromFile f) s2 = (s3, Done (Ok (Doc (Some f) (mimetype D) ext true))) /\
    objects (mgr s3) 1 = parsed (erase r') /\ objects (mgr s3) 2 = parsed (objects (mgr s) 2) /\
    forall S2 r2, wfs S2 -> r2 ∈ kids S2 -> erase r2 = objects (mgr s3) 1 ->
      exists k2, style_container t S2 r2 k2 /\ forall n,
        finds S2 (nid k2) n (s_get (nid k2) n (CSt S2 ∅)).2 /\
        match first_set n (sets os) with
        | Some c => exists y2, first_named S2 (nid k2) n y2 /\ whole S2 y2 = parsed <$> whole S c
        | None => found_again S (nid k) S2 (nid k2) n
        end.
Proof.
  intros HC Eo Hst Hnd Hr' Hfn HT Hd Hc Hp Hps E Hfile Hn Hk. pose proof HC as (Hw & _ & Ht & _).
  destruct (run_tree t S r k os HC Hst Hnd) as (r1 & k' & A1 & A2 & A3 & A4 & A5). rewrite Hr' in A1. injection A1 as <-.
  destruct (container_in _ _ _ _ HC) as (Er & Ek & Sr & Sk & Hin & Hne).
  assert (Hst' : Forall (fun p => storable S (nid k) p.1 p.2) (sets os)) by (eapply Forall_impl; [exact Hst|by intros p [? _]]).
  destruct (s_run_inv (nid k) S os Hw Ek Hst' Hnd) as [I1 I2 I3 _ _ I6 I7 I8 _ _].
  pose proof (fun z q => run_whole (nid k) S os z q Hw Ek Hst Hnd) as HW.
  set (W := tree_of (s_run (nid k) os (CSt S ∅))) in *. clearbody W.
  set (s1 := FileManager.St (mach s) (set_object 1 (erase r') (mgr s))) in *.
  assert (Hc1 : complete body (mgr s1)) by exact (complete_styles body (mgr s) r r' Hc Eo A3 A4).
  destruct (T_Document.C52_save now gen c D f ext body s1 s' s2 Hfn HT Hd Hc1 Hp Hps E Hfile Hn Hk) as (s3 & E3 & _ & E1 & E2 & _).
  change (objects (mgr s1) 1) with (erase r') in E1. change (objects (mgr s1) 2) with (objects (mgr s) 2) in E2.
  exists s3. split; [exact E3|]. split; [exact E1|]. split; [exact E2|]. intros S2 r2 G1 G2 G3. rewrite E1 in G3.
  assert (Hh : erase <$> head (filter (fun q => ltag q = t) (kids r2)) = Some (parsed (erase k'))).
  { transitivity (head (findall t (erase r2))); [unfold findall; rewrite erase_kids; apply head_erase|]. rewrite G3, parsed_head. unfold findall. rewrite erase_kids.
    pose proof (head_erase t (kids r')) as Hx. rewrite A5 in Hx. cbn [option_map] in Hx. by rewrite <- Hx. }
  destruct (head (filter _ (kids r2))) as [k2|] eqn:Ek2; [|done]. cbn in Hh. injection Hh as Hh.
  assert (HC2 : style_container t S2 r2 k2) by (split_and!; done). exists k2. split; [exact HC2|]. intros n.
  destruct (container_in _ _ _ _ HC2) as (_ & Eke2 & _ & Sk2 & _).
  pose proof (sub_nid _ _ _ A2) as Nk.
  assert (HF : found_again W (nid k) S2 (nid k2) n).
  { rewrite <- Nk. apply same_found; [done|done|by rewrite Nk|done|]. rewrite <- !erase_kids, Hh. apply parsed_kids. }
  split.
  - destruct (s_get_ok (nid k2) n S2 ∅ G1) as (c' & q & -> & H & _); [intros m y; by rewrite lookup_empty|intros o; by rewrite lookup_empty|done].
  - destruct (first_set n (sets os)) as [x|] eqn:En.
    + destruct (proj1 HF x (I6 n x En)) as (y2 & H1 & H2). exists y2. split; [exact H1|]. rewrite H2. f_equal.
      apply first_set_in in En. pose proof (proj1 (Forall_forall _ _) Hst _ En) as [(Hx1 & _ & Hx2 & _) _]. cbn [snd] in Hx1, Hx2.
      destruct (element_sub S x Hw Hx1) as [q Hq]. unfold whole. rewrite Hq, (HW x q Hx1 Hq); [done|].
      intros H. by apply Hx2, (sub_upwards S x q (nid k) Hw Hq).
    + split.
      * intros y Hy. destruct (proj1 HF y) as (y2 & H1 & H2); [by apply I7|]. exists y2. split; [exact H1|]. rewrite H2. f_equal.
        apply first_in in Hy. pose proof (child_element _ _ _ Hy) as Hye. destruct (element_sub S y Hw Hye) as [q Hq]. unfold whole. rewrite Hq, (HW y q Hye Hq); [done|].
        by apply (child_not_above S (nid k) y).
      * intros Hu. apply (proj2 HF). by apply I8.
Qed.
Print Assumptions C77_saved.

(** Everything else in the styles of the document comes back as it was. *)
Theorem C77_others `{U : Unicode} `{B : Bytes} now gen c D f ext body t (s s' s2 : FileManager.st) (S r k r' : node) (os : list sop) :
  style_container t S r k -> objects (mgr s) 1 = erase r ->
  Forall (fun p => fresh_style S (nid k) p.1 p.2) (sets os) -> NoDup (map snd (sets os)) ->
  sub (nid r) (tree_of (s_run (nid k) os (CSt S ∅))) = Some r' ->
  docname D = Some f -> is_type (mimetype D) ext body -> document (mimetype D) (mgr s) -> complete body (mgr s) ->
  plain_name f -> (forall p, source (mgr s) = SFile p -> plain_name p) ->
  doc_save now gen D (FileManager.St (mach s) (set_object 1 (erase r') (mgr s))) = (s', Done (Ok tt)) ->
  files (mach s2) !! f = files (mach s') !! f -> no_failure s2 -> 10 <= length (env (mach s2)) ->
  exists s3, opendoc c (FromFile f) s2 = (s3, Done (Ok (Doc (Some f) (mimetype D) ext true))) /\
    map e_tag (kids (objects (mgr s3) 1)) = map e_tag (kids (objects (mgr s) 1)) /\
    forall u, u <> t -> findall u (objects (mgr s3) 1) = map parsed (findall u (objects (mgr s) 1)).
Proof.
  intros HC Eo Hst Hnd Hr' Hfn HT Hd Hc Hp Hps E Hfile Hn Hk. pose proof HC as (Hw & _ & Ht & _).
  destruct (C77_saved now gen c D f ext body t s s' s2 S r k r' os HC Eo Hst Hnd Hr' Hfn HT Hd Hc Hp Hps E Hfile Hn Hk) as (s3 & E3 & E1 & _). exists s3. split; [exact E3|].
  destruct (container_in _ _ _ _ HC) as (Er & Ek & Sr & Sk & Hin & Hne).
  assert (Hst' : Forall (fun p => storable S (nid k) p.1 p.2) (sets os)) by (eapply Forall_impl; [exact Hst|by intros p [? _]]).
  destruct (s_run_inv (nid k) S os Hw Ek Hst' Hnd) as [I1 I2 I3 _ _ _ _ _ _ _].
  destruct (tree_frame t S r k _ HC I1) as (r1 & k1 & a & b & S1 & _ & _ & R2 & Ea & Eb & Hkt & _).
  { intros y Hy. split; [by apply I2|]. split; [by apply I3|]. intros Hyk. by apply run_frame. }
  rewrite Hr' in S1. injection S1 as <-.
  assert (Htg : e_tag (erase k1) = e_tag (erase k)) by (unfold e_tag; by rewrite !erase_root, R2).
  rewrite E1, Eo, parsed_kids, !erase_kids, Ea, Eb. split.
  - rewrite !map_app. cbn [map]. rewrite !map_map, parsed_tag, Htg. f_equal; [apply map_ext; intros x; apply parsed_tag|]. f_equal. apply map_ext. intros x. apply parsed_tag.
  - intros u Hu. rewrite parsed_findall. f_equal. unfold findall. rewrite !erase_kids, Ea, Eb, !map_app. cbn [map]. rewrite !filter_app. f_equal. rewrite !filter_cons.
    rewrite !decide_False; [done| |]; rewrite ?Htg, erase_tag, Hkt; congruence.
Qed.
Print Assumptions C77_others.

(** ** A case: a text document with three styles, one of which is replaced and one is added *)
Lemma parentless_ids w c : Forall (fun z => c ∉ children z w) (flat_map ids (kids w)) -> forall y, element y w -> c ∉ children y w.
Proof. intros H z Hz. by apply (proj1 (Forall_forall _ _) H). Qed.
Section case.
Local Existing Instance ascii_unicode.
Local Existing Instance tree_bytes.
Definition el77 (t : string) (nm : option string) (ks : list elem) : elem :=
  T (Nd t (match nm with Some n => {["style:name"%string := lit n]} | None => ∅ end) None None) ks.
Definition styles77 : elem :=
  el77 "office:document-styles" None [el77 "office:styles" None
    [el77 "style:style" (Some "a") [el77 "style:text-properties" None []]; el77 "style:default-style" None []; el77 "style:style" (Some "b") []]].
Definition pkg77 : list (entry (bytes (Bytes := tree_bytes))) :=
  [Entry (B := tbytes) (lit "mimetype") true (Some (BText (full_type "text"))); Entry (lit "styles.xml") false (Some (BXml true styles77))].
Definition opened77 := opendoc T_Document.noon (FromFile T_Document.file_a) (T_Document.desk pkg77 (replicate 40 Go)).
Definition doc77 : doc := Doc (Some T_Document.file_a) (full_type "text") "odt" true.
Definition r77 : node := (label (objects (mgr opened77.1) 1) 1).1.
Definition new77 (x : N) (nm : string) : node :=
  T (L x (Nd "style:style" {["style:name"%string := lit nm]} None None)) [T (L (x + 1) (Nd "style:paragraph-properties" ∅ None None)) []].
Definition mem77 : node := T (L 0 (Nd "" ∅ None None)) [r77; new77 100 "a"; new77 102 "c"; new77 104 "a"].
Definition k77 : node := default mem77 (head (filter (fun k => ltag k = "office:styles"%string) (kids r77))).
Definition sn77 (s : string) : option pystr := Some (lit s).
Definition os77 : list sop := [SGet (sn77 "b"); SSet (sn77 "a") 100; SGet (sn77 "z"); SSet (sn77 "c") 102; SSet (sn77 "a") 104].
Definition r77' : node := default mem77 (sub (nid r77) (tree_of (s_run (nid k77) os77 (CSt mem77 ∅)))).
Definition saved77 := doc_save (lit "2020") (lit "G") doc77 (FileManager.St (mach opened77.1) (set_object 1 (erase r77') (mgr opened77.1))).
Lemma opened77_eq : opened77 = (opened77.1, Done (Ok doc77)).
Proof. apply pair_by. by_vm. Qed.
Lemma mem77_wfs : wfs mem77.
Proof. unfold wfs. dec_vm. Qed.
Lemma fresh77 n c : bool_decide (c ∈ flat_map ids (kids mem77)) = true -> bool_decide (StylesSpec.name_of mem77 c = n) = true -> above c (nid k77) mem77 = false ->
  bool_decide (Forall (fun z => c ∉ children z mem77) (flat_map ids (kids mem77))) = true -> bool_decide (c ∉ children (nid k77) mem77) = true -> fresh_style mem77 (nid k77) n c.
Proof.
  intros H1%bool_decide_eq_true H2%bool_decide_eq_true H3 H4%bool_decide_eq_true H5%bool_decide_eq_true.
  split; [|by apply parentless_ids]. split; [exact H1|]. split; [exact H2|]. split; [|exact H5].
  intros Hu. apply (above_spec mem77 c (nid k77) mem77_wfs H1) in Hu. rewrite H3 in Hu. discriminate.
Qed.
Example C77_case :
  style_container "office:styles" mem77 r77 k77 /\ objects (mgr opened77.1) 1 = erase r77 /\
  Forall (fun p => fresh_style mem77 (nid k77) p.1 p.2) (sets os77) /\ NoDup (map snd (sets os77)) /\
  sub (nid r77) (tree_of (s_run (nid k77) os77 (CSt mem77 ∅))) = Some r77' /\
  first_set (sn77 "a") (sets os77) = Some 100%N /\ first_set (sn77 "b") (sets os77) = None /\
  map e_tag (default [] (kids <$> whole mem77 100)) = ["style:paragraph-properties"%string] /\
  docname doc77 = Some T_Document.file_a /\ is_type (mimetype doc77) "odt" "office:text" /\ document (mimetype doc77) (mgr opened77.1) /\
  complete "office:text" (mgr opened77.1) /\ (forall p, source (mgr opened77.1) = SFile p -> plain_name p) /\ saved77.2 = Done (Ok tt).
Proof.
  split. { split; [exact mem77_wfs|]. split; [by left|]. split; [dec_vm|by_vm]. }
  split; [by_vm|].
  split. { unfold os77. change (sets _) with [(sn77 "a", 100%N); (sn77 "c", 102%N); (sn77 "a", 104%N)].
    apply Forall_cons_2; [cbn [fst snd]; apply fresh77; by_vm|]. apply Forall_cons_2; [cbn [fst snd]; apply fresh77; by_vm|]. apply Forall_cons_2; [cbn [fst snd]; apply fresh77; by_vm|]. apply Forall_nil_2. }
  split; [dec_vm|]. split; [by_vm|]. split; [by_vm|]. split; [by_vm|]. split; [by_vm|]. split; [exact eq_refl|].
  assert (HT : is_type (full_type "text") "odt" "office:text") by (exists "text"%string; split; [dec_vm|done]).
  split; [exact HT|].
  destruct (T_Document.C52_opened T_Document.noon (FromFile T_Document.file_a) "odt" [] None (T_Document.desk pkg77 (replicate 40 Go)) opened77.1 doc77
    (T_Document.go_fine 40 pkg77) (or_introl opened77_eq)) as (body & HT1 & Hd & Hc & _).
  assert (body = "office:text"%string) as ->. { apply type_tables in HT1 as [_ HT1]. destruct (proj2 (type_tables _ _ _) HT) as [_ HT2]. change (mimetype doc77) with (full_type "text") in HT1. rewrite HT2 in HT1. by injection HT1. }
  split; [exact Hd|]. split; [exact Hc|].
  split. { assert (E : source (mgr opened77.1) = SFile T_Document.file_a) by by_vm. rewrite E. intros p [= <-]. exact T_Document.plain_a. }
  by_vm.
Qed.
End case.
