(** C78: injected styles, saved and opened again. *)
From Verif Require T_Document T_StylesSaved T_Inject.
From Verif Require Import InjectSaved DocumentProofs SheetProofs TextDocProofs SpanLayoutProofs StylesSpec.

Lemma add_tags t es l : map root (add_to t es l) = map root l.
Proof. induction l as [|k l IH]; [done|]. cbn. case_decide; [done|]. cbn. by rewrite IH. Qed.
Lemma complete_with `{B : Bytes} body t es g : complete body g -> complete body (set_object 1 (with_styles t es (objects g 1)) g).
Proof.
  intros (C0 & (C1 & C2) & C3 & C4 & C5). apply Forall_cons in C5 as [T0 C5]. apply Forall_cons in C5 as [T1 C5]. apply Forall_cons in C5 as [T2 C5].
  assert (Ht : map e_tag (add_to t es (kids (objects g 1))) = map e_tag (kids (objects g 1))).
  { transitivity (map tag (map root (add_to t es (kids (objects g 1))))); [by rewrite map_map|]. by rewrite add_tags, map_map. }
  split; [exact C0|]. split.
  - change (objects (set_object 1 (with_styles t es (objects g 1)) g) 1) with (with_styles t es (objects g 1)). split; [exact C1|]. unfold has_children in *.
    eapply Forall_impl; [exact C2|]. intros tg H. cbv beta in H |- *. rewrite findall_missing. cbn [with_styles kids]. by rewrite Ht, <- findall_missing.
  - split; [exact C3|]. split; [exact C4|]. apply Forall_cons; split; [exact T0|]. apply Forall_cons; split; [exact T1|]. apply Forall_cons; split; [exact T2|exact C5].
Qed.

(** Whatever texts are injected into a document, one after the other, of which some may raise
    exceptions: the styles tree is the old one with the first elements of the texts (but page
    layouts) at the end of its container office:styles, in the order of the calls; saved and
    opened again it is this tree (without empty texts), and the rest of the content as it was. *)
Theorem C78_saved `{U : Unicode} `{B : Bytes} `{X : XmlParser} now gen c D f ext body (s s' s2 : FileManager.st) (S r k r' : node) (n : N) (texts : list (pystr * pystr)) :
  style_container "office:styles" S r k -> starts (nid k) S n -> objects (mgr s) 1 = erase r ->
  Forall (fun a => style_text a.1) texts ->
  sub (nid r) (tree_of (cont (inject_all (nid k) texts (ISt (CSt S ∅) n)))) = Some r' ->
  docname D = Some f -> is_type (mimetype D) ext body -> document (mimetype D) (mgr s) -> complete body (mgr s) ->
  plain_name f -> (forall p, source (mgr s) = SFile p -> plain_name p) ->
  doc_save now gen D (FileManager.St (mach s) (set_object 1 (erase r') (mgr s))) = (s', Done (Ok tt)) ->
  files (mach s2) !! f = files (mach s') !! f -> no_failure s2 -> 10 <= length (env (mach s2)) ->
  let new := with_styles "office:styles" (omap (fun a => brought a.1) texts) (objects (mgr s) 1) in
  erase r' = new /\
  exists s3, opendoc c (FromFile f) s2 = (s3, Done (Ok (Doc (Some f) (mimetype D) ext true))) /\
    objects (mgr s3) 1 = parsed new /\ objects (mgr s3) 2 = parsed (objects (mgr s) 2).
Proof.
  intros HC HS Eo HF Hr' Hfn HT Hd Hc Hp Hps E Hfile Hn Hk new.
  destruct (inject_run (nid k) S n texts HS HF) as [HR HK]. destruct (reached_inv _ _ _ _ _ HS HR) as [I1 _ _ _ _].
  destruct (injected_tree _ S r k _ _ HC I1 HK) as (r1 & S1 & En). rewrite Hr' in S1. injection S1 as <-. rewrite <- Eo in En. fold new in En. split; [exact En|].
  rewrite En in E. set (s1 := FileManager.St (mach s) (set_object 1 new (mgr s))) in *.
  assert (Hc1 : complete body (mgr s1)) by (by apply complete_with).
  destruct (T_Document.C52_save now gen c D f ext body s1 s' s2 Hfn HT Hd Hc1 Hp Hps E Hfile Hn Hk) as (s3 & E3 & _ & E1 & E2 & _).
  exists s3. split; [exact E3|]. split; [exact E1|exact E2].
Qed.
Print Assumptions C78_saved.

Lemma head_find t (l : list elem) k : head (filter (fun q => e_tag q = t) l) = Some k -> exists a b, l = a ++ k :: b /\ e_tag k = t /\ Forall (fun q => e_tag q <> t) a.
Proof.
  induction l as [|q l IH]; [done|]. rewrite filter_cons. destruct (decide (e_tag q = t)) as [E|E].
  - intros [= ->]. by exists [], l.
  - intros H. destruct (IH H) as (a & b & -> & H1 & H2). exists (q :: a), b. split_and!; [done|done|by constructor].
Qed.
Lemma filter_head t (a b : list elem) k : Forall (fun q => e_tag q <> t) a -> e_tag k = t -> head (filter (fun q => e_tag q = t) (a ++ k :: b)) = Some k.
Proof. intros Ha Hk. induction Ha as [|q a Hq _ IH]; cbn [app]; rewrite filter_cons; [by rewrite decide_True|]. by rewrite decide_False. Qed.
Lemma named_split m (l : list elem) : forall (l2 : list node), map erase l2 = map parsed l ->
  match head (filter (fun q => e_get "style:name" q = m) l) with
  | Some x => exists a q b, l2 = a ++ q :: b /\ erase q = parsed x /\ style_name q = m /\ Forall (fun z => style_name z <> m) a
  | None => Forall (fun z => style_name z <> m) l2
  end.
Proof.
  induction l as [|x l IH]; intros [|q l2] E; try done; [by apply Forall_nil_2|]. injection E as E1 E2. rewrite filter_cons.
  assert (Hn : style_name q = e_get "style:name" x). { unfold style_name. rewrite <- erase_get, E1. apply parsed_get. }
  destruct (decide (e_get "style:name" x = m)) as [Em|Em]; cbn [head].
  - exists [], q, l2. split_and!; [done|done|by rewrite Hn|done].
  - specialize (IH l2 E2). destruct (head _) as [x'|].
    + destruct IH as (a & q' & b & -> & H1 & H2 & H3). exists (q :: a), q', b. split_and!; [done|done|done|]. constructor; [by rewrite Hn|done].
    + constructor; [by rewrite Hn|done].
Qed.

(** So a document opened again finds under each name the style it had, else the first one that
    was injected. *)
Theorem C78_found `{X : XmlParser} (e : elem) (texts : list (pystr * pystr)) (S2 r2 : node) (m : option pystr) :
  has_children STYLES_PARTS e -> wfs S2 -> r2 ∈ kids S2 ->
  erase r2 = parsed (with_styles "office:styles" (omap (fun a => brought a.1) texts) e) ->
  exists k2 k, style_container "office:styles" S2 r2 k2 /\ head (findall "office:styles" e) = Some k /\
    map erase (kids k2) = map parsed (kids k ++ omap (fun a => brought a.1) texts) /\
    match head (filter (fun q => e_get "style:name" q = m) (kids k ++ omap (fun a => brought a.1) texts)) with
    | Some x => exists y, first_named S2 (nid k2) m y /\ whole S2 y = Some (parsed x) /\
        (s_get (nid k2) m (CSt S2 ∅)).2 = if decide (e_tag x = "style:page-layout"%string) then Err TypeError else Ok y
    | None => (s_get (nid k2) m (CSt S2 ∅)).2 = Err KeyError
    end.
Proof.
  intros Hc Hw Hr E. set (es := omap (fun a => brought a.1) texts) in *. clearbody es.
  assert (Hf : findall "office:styles" e <> []) by (apply (proj1 (Forall_forall _ _) Hc); dec_vm).
  destruct (head (findall "office:styles" e)) as [k|] eqn:Ek; [|by destruct (findall "office:styles" e)].
  destruct (head_find _ _ _ Ek) as (a & b & Ee & Ht & Ha).
  assert (Hh : erase <$> head (filter (fun q => ltag q = "office:styles"%string) (kids r2)) = Some (parsed (T (root k) (kids k ++ es)))).
  { transitivity (head (findall "office:styles" (erase r2))); [unfold findall; rewrite erase_kids; apply head_erase|]. rewrite E, parsed_head. unfold findall, with_styles. cbn [kids].
    rewrite Ee, add_to_split by done. by rewrite filter_head. }
  destruct (head (filter _ (kids r2))) as [k2|] eqn:Ek2; [|done]. cbn [fmap option_fmap option_map] in Hh. apply (inj Some) in Hh.
  assert (HC2 : style_container "office:styles" S2 r2 k2) by (split; [done|]; split; [done|]; split; [dec_vm|done]). exists k2, k. split; [exact HC2|]. split; [done|].
  destruct (container_in _ _ _ _ HC2) as (_ & Eke2 & _ & Sk2 & _).
  assert (EK : map erase (kids k2) = map parsed (kids k ++ es)). { rewrite <- erase_kids, Hh. by rewrite parsed_kids. }
  split; [exact EK|]. destruct (sub_data _ _ _ Sk2) as [_ C2]. pose proof (kids_subs _ _ _ Hw Sk2) as F2.
  assert (HN : forall l, Forall (fun q => sub (nid q) S2 = Some q) l -> Forall (fun z => style_name z <> m) l -> Forall (fun z => StylesSpec.name_of S2 z <> m) (map nid l)).
  { intros l G. induction G as [|q l Hq _ IH]; intros HF; [constructor|]. apply Forall_cons in HF as [H0 HF]. cbn [map]. constructor; [by rewrite name_sub|by apply IH]. }
  destruct (s_get_ok (nid k2) m S2 ∅ Hw) as (c' & v & -> & HG & _); [intros n y; by rewrite lookup_empty|intros o; by rewrite lookup_empty|]. cbn [snd].
  pose proof (named_split m (kids k ++ es) (kids k2) EK) as HS. destruct (head (filter _ (kids k ++ es))) as [x|].
  - destruct HS as (a2 & q & b2 & E2 & H1 & H2 & H3). rewrite E2 in F2, C2. apply Forall_app in F2 as [Fa Fb]. apply Forall_cons in Fb as [Fq _].
    assert (Hy : first_named S2 (nid k2) m (nid q)). { exists (map nid a2), (map nid b2). split_and!; [by rewrite C2, map_app|by rewrite name_sub|by apply HN]. }
    exists (nid q). split; [done|]. split; [unfold whole; rewrite Fq; cbn; by rewrite H1|].
    assert (HP : is_page_layout S2 (nid q) <-> e_tag x = "style:page-layout"%string).
    { unfold is_page_layout. destruct (sub_data _ _ _ Fq) as [-> _]. cbn [fmap option_fmap option_map]. rewrite <- (parsed_tag x), <- H1, erase_tag. unfold ltag. split; [by intros [= ?]|by intros ->]. }
    destruct HG as [(y & Hy' & HG)|[Hu _]]; [|by destruct (first_not_unnamed S2 (nid k2) m (nid q))].
    rewrite (first_unique _ _ _ _ _ Hy' Hy) in HG. destruct HG as [[H4 ->]|[H4 ->]]; rewrite HP in H4; [by rewrite decide_False|by rewrite decide_True].
  - assert (Hu : unnamed S2 (nid k2) m) by (unfold unnamed; rewrite C2; by apply HN).
    destruct HG as [(y & Hy & _)|[_ ->]]; [by destruct (first_not_unnamed S2 (nid k2) m y)|done].
Qed.
Print Assumptions C78_found.

(** ** A case: four texts, of which one holds two styles and two are refused *)
Section case.
Local Existing Instance ascii_unicode.
Local Existing Instance tree_bytes.
Local Existing Instance T_Inject.parser61.
Definition mem78 : node := T (L 0 (Nd "" ∅ None None)) [T_StylesSaved.r77].
Definition k78 : node := default mem78 (head (filter (fun k => ltag k = "office:styles"%string) (kids T_StylesSaved.r77))).
Definition texts78 : list (pystr * pystr) := [(lit "new", lit "styles.xml"); (lit "page", []); (lit "<", []); (lit "old", [])].
Definition r78' : node := default mem78 (sub (nid T_StylesSaved.r77) (tree_of (cont (inject_all (nid k78) texts78 (ISt (CSt mem78 ∅) 50))))).
Definition saved78 := doc_save (lit "2020") (lit "G") T_StylesSaved.doc77 (FileManager.St (mach T_StylesSaved.opened77.1) (set_object 1 (erase r78') (mgr T_StylesSaved.opened77.1))).
Example C78_case :
  style_container "office:styles" mem78 T_StylesSaved.r77 k78 /\ starts (nid k78) mem78 50 /\ objects (mgr T_StylesSaved.opened77.1) 1 = erase T_StylesSaved.r77 /\
  Forall (fun a => style_text a.1) texts78 /\
  sub (nid T_StylesSaved.r77) (tree_of (cont (inject_all (nid k78) texts78 (ISt (CSt mem78 ∅) 50)))) = Some r78' /\
  map (e_get "style:name") (omap (fun a => brought a.1) texts78) = [Some (lit "c"); Some (lit "a")] /\
  is_type (mimetype T_StylesSaved.doc77) "odt" "office:text" /\ document (mimetype T_StylesSaved.doc77) (mgr T_StylesSaved.opened77.1) /\
  complete "office:text" (mgr T_StylesSaved.opened77.1) /\ has_children STYLES_PARTS (objects (mgr T_StylesSaved.opened77.1) 1) /\ saved78.2 = Done (Ok tt).
Proof.
  assert (Hw : wfs mem78) by (unfold wfs; dec_vm).
  split. { split; [exact Hw|]. split; [by left|]. split; [dec_vm|by_vm]. }
  split. { split; [exact Hw|]. split; [unfold element; dec_vm|dec_vm]. }
  split; [by_vm|].
  split. { assert (HA : forall t, match xml_parts t with Ok (e :: _) => bool_decide (e_tag e ∉ other_classes) | _ => true end = true -> style_text t).
    { intros t H e es E. rewrite E in H. by apply bool_decide_eq_true in H. }
    apply Forall_cons_2; [apply HA; by_vm|]. apply Forall_cons_2; [apply HA; by_vm|]. apply Forall_cons_2; [apply HA; by_vm|]. apply Forall_cons_2; [apply HA; by_vm|]. apply Forall_nil_2. }
  split; [by_vm|]. split; [by_vm|].
  destruct T_StylesSaved.C77_case as (_ & _ & _ & _ & _ & _ & _ & _ & _ & HT & Hd & Hc & _).
  split; [exact HT|]. split; [exact Hd|]. split; [exact Hc|]. split; [exact (proj2 (proj1 (proj2 Hc)))|]. by_vm.
Qed.
End case.
