(** C67: text documents edited by way of doc.body, also after saving and opening. *)
From Verif Require T_Document.
From Verif Require Import TextDocProofs DocumentProofs NodeOrganizerProofs TextProofs T_NodeOrganizer.

(** C67.  Every call on the body does to the list of children what is described, and to the
    body nothing else, but for clear(). *)
Theorem C67_call (o : bop) (y : elem) :
  edited o (kids y) (kids (body_step o y).1) (body_step o y).2 /\ root (body_step o y).1 = body_node [o] (root y).
Proof. exact (step_edited o y). Qed.
Print Assumptions C67_call.

(** The description leaves nothing open. *)
Theorem C67_determined (o : bop) l l1 l2 r1 r2 : edited o l l1 r1 -> edited o l l2 r2 -> l1 = l2 /\ r1 = r2.
Proof.
  assert (HP : forall i (a b a' b' : list elem) k k', item_place i a b -> item_place i a' b' -> a ++ k :: b = a' ++ k' :: b' -> a = a' /\ k = k' /\ b = b').
  { intros i a b a' b' k k' H1 H2 E. pose proof (f_equal length E) as El. rewrite !app_length in El. cbn in El. assert (length a = length a') by (unfold item_place in *; lia).
    apply app_inj_1 in E as [-> E]; [|done]. by injection E as -> ->. }
  assert (HN : forall i (a b : list elem) k, item_place i a b -> no_place i (a ++ k :: b) -> False).
  { intros i a b k H1 H2. unfold item_place, no_place in *. rewrite app_length in H2. cbn in H2. lia. }
  intros H1 H2. destruct H1; inversion H2; subst; try done; try (by exfalso; eapply HN).
  - match goal with H : _ ++ _ = _ ++ _ |- _ => rename H into E end. match goal with H : longest_suffix _ (map e_tag (content ++ epi)) _ |- _ => rename H into L1 end.
    match goal with H : longest_suffix _ _ (length epi0) |- _ => rename H into L2 end. rewrite E in L2.
    destruct L1 as (A1 & A2 & A3), L2 as (B1 & B2 & B3). assert (Hl : length epi0 = length epi).
    { destruct (Nat.lt_trichotomy (length epi0) (length epi)) as [H|[H|H]]; [exfalso; by apply (B3 (length epi))|done|exfalso; by apply (A3 (length epi0))]. }
    apply app_inj_2 in E as [-> ->]; done.
  - match goal with H : _ ++ _ :: _ = _ ++ _ :: _ |- _ => apply (HP i) in H as (-> & -> & ->); done end.
  - match goal with H : _ ++ _ :: _ = _ ++ _ :: _ |- _ => apply (HP i) in H as (-> & -> & ->); done end.
  - match goal with H : _ ++ _ :: _ = _ ++ _ :: _ |- _ => apply (HP i) in H as (-> & -> & ->); done end.
  - match goal with H : _ ++ _ :: _ = _ ++ _ :: _ |- _ => apply (HP i) in H as (-> & -> & ->); done end.
Qed.
Print Assumptions C67_determined.

(** C67.  Any history of calls on doc.body changes the children of the body, one call after the
    other, and nothing else in the content. *)
Theorem C67_history (t : string) (ops : list bop) (e y : elem) : body_of t e = Some y ->
  exists y', play_body t ops e = with_body t y' e /\ body_of t (play_body t ops e) = Some y' /\
    edits ops (kids y) (kids y') /\ root y' = body_node ops (root y).
Proof.
  intros Hy. exists (body_play ops y). destruct (play_edits ops y) as [H1 H2]. assert (H3 := play_body_eq t ops e y Hy). split_and!; try done.
  rewrite H3. apply (body_of_with t e y); [done|]. rewrite body_play_tag. by eapply body_tag.
Qed.
Print Assumptions C67_history.

(** C67.  After save() and opendoc() the children are those of the document in memory; only
    missing declarations are added at the end.  The rest of the content is as before. *)
Theorem C67_saved `{U : Unicode} `{B : Bytes} now gen c D f ext t (ops : list bop) (s s' s2 : FileManager.st) (y : elem) :
  docname D = Some f -> is_type (mimetype D) ext t -> document (mimetype D) (mgr s) -> complete t (mgr s) ->
  plain_name f -> (forall p, source (mgr s) = SFile p -> plain_name p) ->
  body_of t (objects (mgr s) 2) = Some y -> Forall good_decl (kids y) -> Forall safe ops ->
  doc_save now gen D (edit_body t ops s) = (s', Done (Ok tt)) ->
  files (mach s2) !! f = files (mach s') !! f -> no_failure s2 -> 10 <= length (env (mach s2)) ->
  exists s3 l, opendoc c (FromFile f) s2 = (s3, Done (Ok (Doc (Some f) (mimetype D) ext true))) /\
    edits ops (kids y) l /\
    let y3 := parsed (T (body_node ops (root y)) (l ++ missing l)) in
    body_of t (objects (mgr s3) 2) = Some y3 /\ objects (mgr s3) 2 = with_body t y3 (parsed (objects (mgr s) 2)).
Proof.
  intros Hf HT Hd Hc Hp Hps Hy Hg Hs E Hfile Hn Hk. set (e := objects (mgr s) 2) in *.
  destruct (C67_history t ops e y Hy) as (y' & P1 & P2 & P3 & P4). assert (Ht : e_tag y' = t) by (by eapply body_tag).
  assert (Hgd := edits_good _ _ _ P3 Hs Hg). pose proof Hc as Hcc. apply complete_iff in Hc as [Hr Hu].
  assert (Hch := body_of_complete t _ y Hcc Hy).
  assert (Hr1 : rooted t (mgr (edit_body t ops s))).
  { unfold edit_body. cbn [mgr upd_mgr]. fold e. rewrite P1. apply (rooted_replaced _ t); [done| | |].
    - by destruct Hr as (_ & _ & Hr & _).
    - by apply (good_with t e y).
    - destruct Hr as (_ & _ & _ & _ & Htl). by repeat (apply Forall_cons in Htl as [? Htl]). }
  destruct (T_Document.C52_any now gen c D f ext t (edit_body t ops s) s' s2 Hf HT) as (s3 & E3 & _ & _ & E2 & _); try done.
  exists s3, (kids y'). split; [done|]. split; [done|]. cbv zeta.
  assert (Ey : parsed (T (body_node ops (root y)) (kids y' ++ missing (kids y'))) = fill DECLS (parsed y')).
  { rewrite fill_missing. rewrite <- P4. destruct y' as [a ks]. cbn [parsed root kids]. rewrite map_app, missing_parsed. do 2 f_equal. unfold missing. rewrite map_map. by apply map_ext. }
  assert (E4 : objects (mgr s3) 2 = with_body t (fill DECLS (parsed y')) (parsed e)).
  { rewrite E2. unfold edit_body. cbn [mgr upd_mgr]. fold e. change (objects (set_object 2 (play_body t ops e) (mgr s)) 2) with (play_body t ops e). rewrite P1, (parsed_with t e y y' Hy).
    apply (content_from_with t (parsed e) (parsed y)); [by apply parsed_children|by apply parsed_body_of|by rewrite parsed_tag]. }
  rewrite Ey. split; [|done]. rewrite E4. apply (body_of_with t _ (parsed y)); [by apply parsed_body_of|]. rewrite <- Ey. cbn [parsed]. unfold e_tag. cbn. rewrite <- P4. exact Ht.
Qed.
Print Assumptions C67_saved.

Lemma edits_determined ops l l1 l2 : edits ops l l1 -> edits ops l l2 -> l1 = l2.
Proof.
  intros H. revert l2. induction H as [|o ops l l1 l3 r H _ IH]; intros l2 H2; inversion H2 as [|? ? ? l1' ? r' H3 H4]; subst; [done|].
  destruct (C67_determined _ _ _ _ _ _ H H3) as [<- _]. by apply IH.
Qed.
Lemma play_appends cs y e' : aiter cs body_append y = (e', Ok tt) -> body_play (map BAppend cs) y = e'.
Proof.
  revert y. induction cs as [|c cs IH]; intros y; cbn [aiter map].
  - by intros [= <-].
  - unfold abind. destruct (body_append_eq c y) as (content & epi & _ & _ & E). rewrite E. intros H. unfold body_play. cbn [foldl body_step]. rewrite E. cbn [fst]. by apply IH.
Qed.
Lemma chunk_safe `{U : Unicode} bs : Forall safe (map BAppend (map make_chunk bs)).
Proof.
  induction bs as [|b bs IH]; [by apply Forall_nil_2|]. cbn [map]. apply Forall_cons_2; [|done]. cbn. intros H. exfalso. pose proof (chunk_tag b) as H'.
  revert H H'. generalize (e_tag (make_chunk b)). intros t H. rewrite !elem_of_cons, elem_of_nil. unfold DECLS in H. rewrite !elem_of_cons, elem_of_nil in H. destruct H as [->|[->|[]]]; naive_solver.
Qed.
Lemma chunk_stream `{U : Unicode} bs : Forall (fun c => e_tag c ∈ TEXT_CONTENT_STREAM) (map make_chunk bs).
Proof.
  apply Forall_map. apply Forall_forall. intros b _. pose proof (chunk_tag b) as H. revert H. cbn. generalize (e_tag (make_chunk b)). intros t H.
  apply (proj1 (Forall_forall (fun t => t ∈ TEXT_CONTENT_STREAM) ["text:p"; "text:h"; "text:list"]%string)); [dec_vm|done].
Qed.
Lemma shows_all `{U : Unicode} bs : Forall2 shows bs (map make_chunk bs) /\ map parsed (map make_chunk bs) = map make_chunk bs.
Proof.
  induction bs as [|b bs [IH1 IH2]]; [by split; [constructor|]|]. split; [constructor; [apply chunk_shows|done]|]. cbn [map]. rewrite IH2. f_equal. apply parsed_solid, solid_chunk.
Qed.
Lemma missing_none l : Forall (fun t => t ∈ map e_tag l) DECLS -> missing l = [].
Proof. unfold missing. induction 1 as [|t ts H _ IH]; [done|]. rewrite filter_cons_False; [done|]. by intros []. Qed.

Lemma parsed_tags l : map e_tag (map parsed l) = map e_tag l.
Proof. rewrite map_map. apply map_ext. intros k. apply parsed_tag. Qed.

(** C67.  Paragraphs, headings and lists appended to a well structured text document are, in this
    order, in the opened one, after what was there and before the epilogue, each with its
    text, style, level, items; and the document is well structured. *)
Theorem C67_blocks `{U : Unicode} `{B : Bytes} now gen c D f ext (bs : list chunk) (s s' s2 : FileManager.st) (y : elem) :
  docname D = Some f -> is_type (mimetype D) ext "office:text" -> document (mimetype D) (mgr s) -> complete "office:text" (mgr s) ->
  plain_name f -> (forall p, source (mgr s) = SFile p -> plain_name p) ->
  body_of "office:text" (objects (mgr s) 2) = Some y -> Forall good_decl (kids y) ->
  well_structured TEXT_PRELUDE TEXT_CONTENT_STREAM TEXT_EPILOGUE (map e_tag (kids y)) ->
  doc_save now gen D (edit_body "office:text" (map BAppend (map make_chunk bs)) s) = (s', Done (Ok tt)) ->
  files (mach s2) !! f = files (mach s') !! f -> no_failure s2 -> 10 <= length (env (mach s2)) ->
  exists s3 content epi new y3, opendoc c (FromFile f) s2 = (s3, Done (Ok (Doc (Some f) (mimetype D) ext true))) /\
    kids y = content ++ epi /\ in_order TEXT_EPILOGUE (map e_tag epi) /\ Forall (fun k => e_tag k ∉ TEXT_EPILOGUE) content /\
    body_of "office:text" (objects (mgr s3) 2) = Some y3 /\ root y3 = root (parsed y) /\
    kids y3 = map parsed content ++ new ++ map parsed epi /\ Forall2 shows bs new /\
    is_valid TEXT_PRELUDE TEXT_CONTENT_STREAM TEXT_EPILOGUE (map e_tag (kids y3)) = Ok true.
Proof.
  intros Hf HT Hd Hc Hp Hps Hy Hg Hw E Hfile Hn Hk.
  destruct (C67_saved now gen c D f ext "office:text" _ s s' s2 y Hf HT Hd Hc Hp Hps Hy Hg (chunk_safe bs) E Hfile Hn Hk) as (s3 & l & E3 & Hl & Hb & _).
  destruct (C42_history TEXT_CONTENT_STREAM (map make_chunk bs) y (or_introl eq_refl) (chunk_stream bs) Hw) as (content & epi & e' & K1 & K2 & K3 & K4 & K5 & K6).
  apply play_appends in K4. destruct (play_edits (map BAppend (map make_chunk bs)) y) as [P1 P2]. rewrite K4, K5 in P1. cbn [kids] in P1. rewrite (edits_determined _ _ _ _ Hl P1) in Hb.
  assert (Hm : missing (content ++ map make_chunk bs ++ epi) = []).
  { apply missing_none. destruct Hc as (_ & _ & (_ & _ & b & y0 & Hb0 & Hy0 & Hd0) & _). unfold body_of in Hy. rewrite Hb0 in Hy. cbn [mbind option_bind] in Hy. rewrite Hy0 in Hy. injection Hy as ->.
    eapply Forall_impl; [exact Hd0|]. intros t Ht. cbv beta in *. destruct (decide (t ∈ map e_tag (kids y))) as [Hin|Hin]; [|by apply findall_missing in Hin].
    rewrite K1, map_app in Hin. rewrite !map_app. set_solver. }
  rewrite Hm, app_nil_r in Hb. destruct (shows_all bs) as [S1 S2].
  exists s3, content, epi, (map make_chunk bs), (parsed (T (body_node (map BAppend (map make_chunk bs)) (root y)) (content ++ map make_chunk bs ++ epi))).
  split; [exact E3|]. split; [exact K1|]. split; [exact K2|]. split; [exact K3|]. split; [exact Hb|].
  assert (Hr : body_node (map BAppend (map make_chunk bs)) (root y) = root y).
  { unfold body_node. assert (existsb is_clear (map BAppend (map make_chunk bs)) = false) as ->; [|done]. clear. induction bs; [done|]. done. }
  rewrite Hr. split; [by destruct y|]. cbn [parsed kids]. rewrite !map_app, S2. split; [done|]. split; [done|].
  rewrite <- K6, K5. cbn [kids]. rewrite !map_app, !parsed_tags. done.
Qed.
Print Assumptions C67_blocks.

Lemma not_structured t l u : t ∉ TEXT_PRELUDE -> u ∉ TEXT_CONTENT_STREAM -> u ∉ TEXT_EPILOGUE ->
  ~ well_structured TEXT_PRELUDE TEXT_CONTENT_STREAM TEXT_EPILOGUE ((t :: l) ++ [u]).
Proof.
  intros Ht Hu1 Hu2 (pre & mid & epi & Eq & O1%in_order_tags & O2 & O3%in_order_tags).
  destruct epi as [|x epi _] using rev_ind.
  - rewrite app_nil_r in Eq. destruct mid as [|x mid _] using rev_ind.
    + rewrite app_nil_r in Eq. rewrite <- Eq in O1. cbn in O1. by apply Forall_cons in O1 as [? _].
    + rewrite (assoc_L (++)) in Eq. apply app_inj_2 in Eq as [_ [= ->]]; [|done]. apply Forall_app in O2 as [_ O2]. by apply Forall_cons in O2 as [? _].
  - rewrite !(assoc_L (++)) in Eq. apply app_inj_2 in Eq as [_ [= ->]]; [|done]. apply Forall_app in O3 as [_ O3]. by apply Forall_cons in O3 as [? _].
Qed.
Lemma chunk_not_prelude `{U : Unicode} b : e_tag (make_chunk b) ∉ TEXT_PRELUDE.
Proof.
  pose proof (chunk_tag b) as H. revert H. generalize (e_tag (make_chunk b)). intros t H.
  apply (proj1 (Forall_forall (fun t => t ∉ TEXT_PRELUDE) ["text:p"; "text:h"; "text:list"]%string)); [dec_vm|done].
Qed.

(** C67.  After clear() the blocks are all there is in the opened document, but for new
    declarations behind them: this is not a well structured text. *)
Theorem C67_cleared_counterexample `{U : Unicode} `{B : Bytes} now gen c D f ext (bs : list chunk) (s s' s2 : FileManager.st) :
  docname D = Some f -> is_type (mimetype D) ext "office:text" -> document (mimetype D) (mgr s) -> complete "office:text" (mgr s) ->
  plain_name f -> (forall p, source (mgr s) = SFile p -> plain_name p) ->
  (forall y, body_of "office:text" (objects (mgr s) 2) = Some y -> Forall good_decl (kids y)) ->
  doc_save now gen D (edit_body "office:text" (BClear :: map BAppend (map make_chunk bs)) s) = (s', Done (Ok tt)) ->
  files (mach s2) !! f = files (mach s') !! f -> no_failure s2 -> 10 <= length (env (mach s2)) ->
  exists s3 new y3, opendoc c (FromFile f) s2 = (s3, Done (Ok (Doc (Some f) (mimetype D) ext true))) /\
    body_of "office:text" (objects (mgr s3) 2) = Some y3 /\ e_attrs y3 = ∅ /\ e_text y3 = None /\
    kids y3 = new ++ [new_elem "text:variable-decls"; new_elem "text:user-field-decls"] /\ Forall2 shows bs new /\
    (bs <> [] -> is_valid TEXT_PRELUDE TEXT_CONTENT_STREAM TEXT_EPILOGUE (map e_tag (kids y3)) = Ok false).
Proof.
  intros Hf HT Hd Hc Hp Hps Hg E Hfile Hn Hk. destruct (complete_body _ _ Hc) as [y Hy].
  destruct (C67_saved now gen c D f ext "office:text" _ s s' s2 y Hf HT Hd Hc Hp Hps Hy (Hg y Hy) (Forall_cons_2 safe BClear _ I (chunk_safe bs)) E Hfile Hn Hk) as (s3 & l & E3 & Hl & Hb & _).
  inversion Hl as [|? ? ? l1 ? r H1 H2]; subst. inversion H1; subst. clear H1.
  assert (Ew : well_structured TEXT_PRELUDE TEXT_CONTENT_STREAM TEXT_EPILOGUE (map e_tag (kids (new_elem "office:text")))) by (exists [], [], []; split; [done|]; split; [constructor|]; split; [by apply Forall_nil_2|constructor]).
  destruct (C42_history TEXT_CONTENT_STREAM (map make_chunk bs) (new_elem "office:text") (or_introl eq_refl) (chunk_stream bs) Ew) as (content & epi & e' & K1 & K2 & K3 & K4 & K5 & K6).
  cbn [kids new_elem] in K1. symmetry in K1. apply app_eq_nil in K1 as [-> ->]. rewrite app_nil_r in K5. cbn [app] in K5.
  apply play_appends in K4. destruct (play_edits (map BAppend (map make_chunk bs)) (new_elem "office:text")) as [P1 P2]. rewrite K4, K5 in P1. cbn [kids new_elem] in P1. rewrite (edits_determined _ _ _ _ H2 P1) in Hb.
  destruct (shows_all bs) as [S1 S2].
  assert (Hm : missing (map make_chunk bs) = [new_elem "text:variable-decls"; new_elem "text:user-field-decls"]).
  { assert (Hni : forall t, t ∈ DECLS -> t ∉ map e_tag (map make_chunk bs)).
    { intros t Ht Hin. rewrite map_map in Hin. apply elem_of_list_In, in_map_iff in Hin as (b & <- & _). pose proof (chunk_tag b) as Hb'. revert Ht Hb'. generalize (e_tag (make_chunk b)). clear. intros t H.
      rewrite !elem_of_cons, elem_of_nil. unfold DECLS in H. rewrite !elem_of_cons, elem_of_nil in H. destruct H as [->|[->|[]]]; naive_solver. }
    unfold missing. change DECLS with ["text:variable-decls"; "text:user-field-decls"]%string in *. rewrite !filter_cons_True by (apply Hni; set_solver). done. }
  rewrite Hm in Hb. eexists s3, (map make_chunk bs), _. split; [exact E3|]. split; [exact Hb|]. split; [done|]. split; [done|]. cbn [parsed kids].
  rewrite map_app, S2. split; [done|]. split; [done|]. intros Hne. destruct bs as [|b bs]; [done|].
  destruct text_prelude_ok as [Hp1 Hp2], text_epilogue_ok as [Hq1 Hq2].
  destruct (is_valid_ok TEXT_PRELUDE TEXT_CONTENT_STREAM TEXT_EPILOGUE (map e_tag (map make_chunk (b :: bs) ++ map parsed [new_elem "text:variable-decls"; new_elem "text:user-field-decls"]))) as (v & Ev & Hv); try done.
  rewrite Ev. f_equal. destruct v; [|done]. exfalso. assert (Hw := proj1 Hv eq_refl). rewrite map_app in Hw. cbn [map] in Hw.
  change [e_tag (parsed (new_elem "text:variable-decls")); e_tag (parsed (new_elem "text:user-field-decls"))] with (["text:variable-decls"%string] ++ ["text:user-field-decls"%string]) in Hw.
  rewrite (assoc_L (++)) in Hw. revert Hw. apply not_structured; [apply chunk_not_prelude|dec_vm|dec_vm].
Qed.
Print Assumptions C67_cleared_counterexample.

(** C67.  append_text() of a paragraph, heading, span or link in the body: the text is at the end
    of its text in the opened document, everything else is as it was. *)
Theorem C67_append_text `{U : Unicode} `{B : Bytes} now gen c D f ext (i : Z) (t p : pystr) (a b : list elem) (k : elem) (s s' s2 : FileManager.st) (y : elem) :
  docname D = Some f -> is_type (mimetype D) ext "office:text" -> document (mimetype D) (mgr s) -> complete "office:text" (mgr s) ->
  plain_name f -> (forall p, source (mgr s) = SFile p -> plain_name p) ->
  body_of "office:text" (objects (mgr s) 2) = Some y -> Forall good_decl (kids y) ->
  kids y = a ++ k :: b -> item_place i a b -> e_tag k ∈ ["text:span"; "text:p"; "text:h"; "text:a"]%string -> plaintext k = Ok p ->
  doc_save now gen D (edit_body "office:text" [BOn i (child_append_text t)] s) = (s', Done (Ok tt)) ->
  files (mach s2) !! f = files (mach s') !! f -> no_failure s2 -> 10 <= length (env (mach s2)) ->
  exists s3 y3 k3, opendoc c (FromFile f) s2 = (s3, Done (Ok (Doc (Some f) (mimetype D) ext true))) /\
    body_of "office:text" (objects (mgr s3) 2) = Some y3 /\ root y3 = root (parsed y) /\
    kids y3 = map parsed a ++ k3 :: map parsed b /\ plaintext k3 = Ok (p ++ t) /\ e_tag k3 = e_tag k /\ e_attrs k3 = e_attrs k.
Proof.
  intros Hf HT Hd Hc Hp Hps Hy Hg Hab Hi Hk Hpl E Hfile Hn Hkk.
  assert (Hs : Forall safe [BOn i (child_append_text t)]).
  { apply Forall_cons_2; [|by apply Forall_nil_2]. cbn. intros x Hx. unfold child_append_text. destruct (decide (e_tag x ∈ span_tags)) as [Hin|Hin]; [|done]. intros Hin'. exfalso. cbn in Hin'.
    rewrite append_text_tag in Hin'. revert Hin Hin'. generalize (e_tag x). clear. intros u Hu Hu'. revert u Hu' Hu. apply (Forall_forall (fun u => u ∈ span_tags -> False)). unfold DECLS. repeat (apply Forall_cons_2; [dec_vm|]). by apply Forall_nil_2. }
  destruct (C67_saved now gen c D f ext "office:text" _ s s' s2 y Hf HT Hd Hc Hp Hps Hy Hg Hs E Hfile Hn Hkk) as (s3 & l & E3 & Hl & Hb & _).
  assert (Hl2 : edits [BOn i (child_append_text t)] (kids y) (a ++ append_text k t :: b)).
  { rewrite Hab. eapply eds_cons; [|apply eds_nil]. pose proof (ed_on i (child_append_text t) a k b Hi) as H. unfold child_append_text in H at 2. rewrite decide_True in H by done. exact H. }
  rewrite (edits_determined _ _ _ _ Hl Hl2) in Hb.
  assert (Hm : missing (a ++ append_text k t :: b) = []).
  { apply missing_none. destruct Hc as (_ & _ & (_ & _ & b0 & y0 & Hb0 & Hy0 & Hd0) & _). unfold body_of in Hy. rewrite Hb0 in Hy. cbn [mbind option_bind] in Hy. rewrite Hy0 in Hy. injection Hy as ->.
    eapply Forall_impl; [exact Hd0|]. intros u Hu. cbv beta in *. destruct (decide (u ∈ map e_tag (kids y))) as [Hin|Hin]; [|by apply findall_missing in Hin].
    rewrite Hab, map_app in Hin. cbn [map] in Hin. rewrite map_app. cbn [map]. by rewrite append_text_tag. }
  rewrite Hm, app_nil_r in Hb. eexists s3, _, (parsed (append_text k t)). split; [exact E3|]. split; [exact Hb|].
  split; [by destruct y|]. cbn [parsed kids]. rewrite map_app. split; [done|]. split_and!.
  - rewrite parsed_plaintext. by apply append_text_plaintext.
  - by rewrite parsed_tag, append_text_tag.
  - rewrite <- (append_text_attrs k t). by destruct (append_text k t).
Qed.
Print Assumptions C67_append_text.

(** ** A case: a text document with a paragraph and links behind it is opened, a heading and a list
    are appended, text is added to the paragraph, and it is saved. *)
Section case.
Local Existing Instance ascii_unicode.
Local Existing Instance tree_bytes.
Definition tag67 (t : string) (ks : list elem) : elem := T (Nd t ∅ None None) ks.
Definition text67 : elem := tag67 "office:text" [tag67 "text:variable-decls" [tag67 "text:variable-decl" []]; tag67 "text:user-field-decls" []; new_span "text:p" (lit "one") []; tag67 "table:dde-links" []].
Definition pkg67 : list (entry (bytes (Bytes := tree_bytes))) :=
  [Entry (B := tbytes) (lit "mimetype") true (Some (BText (full_type "text")));
   Entry (lit "content.xml") false (Some (BXml true (tag67 "office:document-content" [tag67 "office:body" [text67]])))].
Definition opened67 := opendoc T_Document.noon (FromFile T_Document.file_a) (T_Document.desk pkg67 (replicate 40 Go)).
Definition doc67 : doc := Doc (Some T_Document.file_a) (full_type "text") "odt" true.
Definition chunks67 : list chunk := [Head (lit "two  words") 0 (lit "S"); Bullets [lit "a"; lit "b"] [] []].
Lemma opened67_eq : opened67 = (opened67.1, Done (Ok doc67)).
Proof. apply pair_by. by_vm. Qed.
Lemma type67 : is_type (full_type "text") "odt" "office:text".
Proof. exists "text"%string. split; [by left|done]. Qed.
Example C67_case :
  is_type (mimetype doc67) "odt" "office:text" /\ document (mimetype doc67) (mgr opened67.1) /\ complete "office:text" (mgr opened67.1) /\
  body_of "office:text" (objects (mgr opened67.1) 2) = Some text67 /\ Forall good_decl (kids text67) /\
  well_structured TEXT_PRELUDE TEXT_CONTENT_STREAM TEXT_EPILOGUE (map e_tag (kids text67)) /\
  (exists a k b, kids text67 = a ++ k :: b /\ item_place (-2) a b /\ e_tag k ∈ ["text:span"; "text:p"; "text:h"; "text:a"]%string /\ plaintext k = Ok (lit "one")) /\
  (doc_save (lit "2020-01-02T12:00:00") (lit "G") doc67 (edit_body "office:text" (map BAppend (map make_chunk chunks67)) opened67.1)).2 = Done (Ok tt) /\
  (doc_save (lit "2020-01-02T12:00:00") (lit "G") doc67 (edit_body "office:text" [BOn (-2) (child_append_text (lit " more"))] opened67.1)).2 = Done (Ok tt) /\
  (doc_save (lit "2020-01-02T12:00:00") (lit "G") doc67 (edit_body "office:text" (BClear :: map BAppend (map make_chunk chunks67)) opened67.1)).2 = Done (Ok tt) /\
  Forall safe [BInsert 2 (tag67 "text:section" []); BDel (-1); BSet 9 (tag67 "text:p" [])].
Proof.
  split; [exact type67|]. destruct (T_Document.C52_opened T_Document.noon (FromFile T_Document.file_a) "odt" [] None (T_Document.desk pkg67 (replicate 40 Go)) opened67.1 doc67
    (T_Document.go_fine 40 pkg67) (or_introl opened67_eq)) as (body & HT & Hd & Hc & _).
  assert (body = "office:text"%string) as ->. { apply type_tables in HT as [_ HT]. destruct (proj2 (type_tables _ _ _) type67) as [_ HT2]. change (mimetype doc67) with (full_type "text") in HT. rewrite HT2 in HT. by injection HT. }
  split; [exact Hd|]. split; [exact Hc|]. split; [by_vm|]. split.
  { unfold text67. cbn [kids tag67]. apply Forall_cons_2; [intros _; cbn [kids tag67]; apply Forall_cons_2; [by left|by apply Forall_nil_2]|]. apply Forall_cons_2; [intros _; by apply Forall_nil_2|].
    apply Forall_cons_2; [unfold good_decl; intros H; exfalso; revert H; dec_vm|]. apply Forall_cons_2; [intros _; by apply Forall_nil_2|by apply Forall_nil_2]. }
  split. { exists ["text:variable-decls"; "text:user-field-decls"]%string, ["text:p"]%string, ["table:dde-links"]%string. split; [by_vm|]. split; [|split; [apply Forall_singleton; right; by left|]].
    - apply IO_next, IO_next, IO_here, IO_next, IO_next, IO_here, IO_nil.
    - repeat first [apply IO_here; apply IO_nil|apply IO_next]. }
  split. { exists [tag67 "text:variable-decls" [tag67 "text:variable-decl" []]; tag67 "text:user-field-decls" []], (new_span "text:p" (lit "one") []), [tag67 "table:dde-links" []].
    split; [done|]. split; [by right|]. split; [right; by left|by_vm]. }
  split; [by_vm|]. split; [by_vm|]. split; [by_vm|].
  apply Forall_cons_2; [intros H; exfalso; revert H; dec_vm|]. apply Forall_cons_2; [done|]. apply Forall_cons_2; [intros H; exfalso; revert H; dec_vm|by apply Forall_nil_2].
Qed.
End case.
