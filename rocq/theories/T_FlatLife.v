(** C76: flat documents over any number of sessions. *)
From Verif Require T_Document.
From Verif Require Import FlatLifeSpec FlatProofs DocumentProofs T_FlatDocument T_Sessions.

Section life.
Context `{U : Unicode} `{B : Bytes}.
Lemma in_first_tags t f l : (forall k, k ∈ l -> e_tag k = t -> e_tag (f k) = t) -> map e_tag (in_first t f l) = map e_tag l.
Proof.
  induction l as [|k l IH]; intros Hf; [done|]. cbn [in_first]. case_decide as Hk; cbn [map].
  - rewrite (Hf k) by (done || by left). by rewrite Hk.
  - rewrite IH; [done|]. intros q Hq. apply Hf. by right.
Qed.
Lemma saved_tags body now gen e : flat_complete body e -> map e_tag (kids (saved_tree now gen e)) = map e_tag (kids e).
Proof.
  intros Hc. pose proof Hc as (_ & Hh & (m & Hm & Hs) & _). apply Forall_inv in Hs. apply Forall_inv in Hh.
  assert (Ek : head (findall "office:document-meta" e) = Some (meta_part e)) by (unfold meta_part; by destruct (findall "office:document-meta" e)).
  unfold saved_tree. rewrite (within_ext _ _ (fun _ => play_doc [MTouch now gen; MInc] (meta_part e)) _ _ Ek) by done. cbn [within kids]. apply in_first_tags.
  intros k _ _. pose proof Hm as Hm'. rewrite <- first_kid_tag in Hm'. destruct (first_kid (has_tag "office:meta") (meta_part e)) as [[i m1]|] eqn:E; [|done]. injection Hm' as ->.
  destruct (run_doc_eq [MTouch now gen; MInc] _ _ _ E Hs) as [E1 _]. rewrite E1. unfold e_tag. cbn [root]. apply meta_part_tag.
Qed.
(** one session *)
Lemma flat_session c ext ext0 body mt x t e D s s1 s2 b p :
  known_ext ext -> e_get "office:mimetype" t = Some mt -> is_type mt ext0 body -> e_tail t = None ->
  flat_complete body e -> root e = root t -> meta_part e = play_doc (sn_meta x) (meta_part t) ->
  objects (mgr s) 0 = e -> docname D = Some (sn_file x) ->
  flat_save (sn_now x) (sn_gen x) D s = (s1, Done (Ok tt)) ->
  files (mach s2) !! sn_file x = files (mach s1) !! sn_file x ->
  (files (mach s2) !! sn_file x = Some b -> b_parse b = Some p -> p = parsed (saved_tree (sn_now x) (sn_gen x) e)) /\
  (exists b', files (mach s2) !! sn_file x = Some b' /\ b_parse b' = Some (parsed (saved_tree (sn_now x) (sn_gen x) e))) /\
  exists t3, t3 = parsed (saved_tree (sn_now x) (sn_gen x) e) /\
    flat_open c ext (Some (sn_file x)) (Some t3) = Ok (Doc (Some (sn_file x)) mt ext true, t3) /\
    flat_complete body t3 /\ e_get "office:mimetype" t3 = Some mt /\ e_tail t3 = None /\ found_flat e t3 /\
    meta_part t3 = parsed (play_doc (all_ops x) (meta_part t)).
Proof.
  intros He Hm HT Htl Hc Hr Hme Hs Hd Esave Hf. subst e. set (e := objects (mgr s) 0) in *. set (t' := saved_tree (sn_now x) (sn_gen x) e).
  assert (Htl' : e_tail e = None) by (unfold e_tail in *; by rewrite Hr). assert (Hm' : e_get "office:mimetype" e = Some mt) by (unfold e_get, e_attrs in *; by rewrite Hr).
  destruct (C57_save (sn_now x) (sn_gen x) D (sn_file x) body s s1 Hd Hc Esave) as (_ & H2 & H3 & H4 & H5 & H6 & _ & H8 & H9 & _). fold e t' in H2, H3, H4, H5, H6, H8, H9.
  specialize (H8 Htl'). split. { intros Hb Hp. rewrite Hf, H2 in Hb. injection Hb as <-. rewrite H8 in Hp. by injection Hp. }
  split. { exists (b_xml true t'). by rewrite Hf. }
  exists (parsed t'). split; [done|]. split; [by apply (H9 c ext _ mt ext0)|]. split; [by apply flat_parsed|]. split; [rewrite parsed_get; unfold e_get, e_attrs in *; by rewrite H4|].
  split; [apply parsed_tail; unfold e_tail in *; by rewrite H4|]. split.
  - split; [|split].
    + clear -H4. destruct t' as [q ks], e as [q2 ks2]. cbn [root] in H4. subst q2. done.
    + rewrite parsed_kids, map_map. rewrite (map_ext (fun k => e_tag (parsed k)) e_tag) by apply parsed_tag. by apply (saved_tags body).
    + intros u Hu. by rewrite parsed_findall, H6.
  - assert (Ep : meta_part (parsed t') = parsed (meta_part t')).
    { destruct H3 as (_ & Hh & _). apply Forall_inv in Hh. unfold meta_part. rewrite parsed_head. by destruct (findall "office:document-meta" t'). }
    rewrite Ep, H5, Hme. unfold all_ops, play_doc. by rewrite foldl_app.
Qed.
End life.

(** C76.  Each session finds the tree of the session before, but for the meta data (below) and
    empty texts, which are none; so does whoever opens the file after the last session. *)
Theorem C76_life `{U : Unicode} `{B : Bytes} c ext ext0 body mt (l : list xday) t t' :
  known_ext ext -> e_get "office:mimetype" t = Some mt -> is_type mt ext0 body -> e_tail t = None -> flat_life c ext body l t t' ->
  e_get "office:mimetype" t' = Some mt /\ (l <> [] -> flat_complete body t') /\
  (forall i a a', l !! i = Some a -> l !! S i = Some a' -> found_flat (x_left a) (x_found a')) /\
  (forall a, last l = Some a -> found_flat (x_left a) t').
Proof.
  intros He Hm HT Htl HL. revert Hm Htl.
  induction HL as [t|x t e l D s s1 s2 b p D3 t3 t4 Hc Hr Hme Hs Hd Es Hf Hb Hp Eo HL IH]; intros Hm Htl; [by split_and!|].
  destruct (flat_session c ext ext0 body mt x t e D s s1 s2 b p He Hm HT Htl Hc Hr Hme Hs Hd Es Hf) as (Hpp & _ & t3' & -> & E3 & Hc3 & Hm3 & Htl3 & Hf3 & _).
  rewrite (Hpp Hb Hp) in Eo. rewrite E3 in Eo. injection Eo as _ <-. destruct (IH Hm3 Htl3) as (I1 & I2 & I3 & I4). split_and!; try done.
  - intros _. destruct l as [|a l]; [inversion HL; by subst|by apply I2].
  - intros [|i] a a'; cbn [lookup list_lookup]; [|apply I3]. intros [= <-] Ha'. inversion HL; subst; [done|]. injection Ha' as <-. exact Hf3.
  - intros a Ha. destruct l as [|a2 l]; [|by apply I4]. injection Ha as <-. inversion HL; by subst.
Qed.
Print Assumptions C76_life.

(** C76.  The meta data are what the calls of all sessions make of what was there at first. *)
Theorem C76_meta `{U : Unicode} `{B : Bytes} c ext ext0 body mt (l : list xday) t t' (m : elem) :
  known_ext ext -> e_get "office:mimetype" t = Some mt -> is_type mt ext0 body -> e_tail t = None -> flat_complete body t -> flat_life c ext body l t t' ->
  meta_of (meta_part t) = Some m ->
  exists m', meta_of (meta_part t') = Some m' /\
    (forall key, alookup key META_TAGS <> None -> field key m' = field_life key (map x_sit l) (field key m)) /\
    words m' = words_life (map x_sit l) (words m) /\ users m' = users_life (map x_sit l) (users m) /\
    (forall key, key ∈ STAT_TYPES -> stat key m' = stat_life key (map x_sit l) (stat key m)).
Proof.
  intros He Hm HT Htl Hc0 HL. revert m Hm Htl Hc0.
  induction HL as [t|x t e l D s s1 s2 b p D3 t3 t4 Hc Hr Hme Hs Hd Es Hf Hb Hp Eo HL IH]; intros m Hm Htl Hc0 Hmm; [by exists m|].
  destruct (flat_session c ext ext0 body mt x t e D s s1 s2 b p He Hm HT Htl Hc Hr Hme Hs Hd Es Hf) as (Hpp & _ & t3' & -> & E3 & Hc3 & Hm3 & Htl3 & _ & Hme3).
  rewrite (Hpp Hb Hp) in Eo. rewrite E3 in Eo. injection Eo as _ <-.
  assert (Hst : has_stats m). { destruct Hc0 as (_ & _ & (m0 & Hm0 & Hs0) & _). unfold meta_of in Hmm. rewrite Hmm in Hm0. injection Hm0 as <-. by apply Forall_inv in Hs0. }
  set (m3 := parsed (play (all_ops x) m)).
  assert (Hm3' : meta_of (meta_part (parsed (saved_tree (sn_now x) (sn_gen x) e))) = Some m3).
  { rewrite Hme3. unfold meta_of in *. rewrite parsed_head. rewrite <- first_kid_tag in Hmm. destruct (first_kid (has_tag "office:meta") (meta_part t)) as [[i m1]|] eqn:E; [|done]. injection Hmm as ->.
    destruct (run_doc_eq (all_ops x) _ _ _ E Hst) as [_ E2]. rewrite <- first_kid_tag, E2. done. }
  destruct (IH m3 Hm3 Htl3 Hc3 Hm3') as (m' & Hm4 & F1 & F2 & F3 & F4).
  exists m'. cbn [map x_sit]. split_and!; try done.
  - intros key Hkey. rewrite (F1 key Hkey). unfold m3. rewrite parsed_field. unfold field_life at 2. cbn [foldl].
    rewrite (run_fold (field key) (entry_after key)); [done|done|]. intros. by apply step_entry.
  - rewrite F2. unfold m3. rewrite parsed_words. unfold words_life at 2. cbn [foldl]. rewrite (run_fold words words_after); [|done|exact step_words]. unfold all_ops. by rewrite words_end.
  - rewrite F3. unfold m3. rewrite parsed_users. unfold users_life at 2. cbn [foldl]. rewrite (run_fold users users_after); [|done|exact step_users]. unfold all_ops. by rewrite users_end.
  - intros key Hkey. rewrite (F4 key Hkey). unfold m3. rewrite parsed_stat. unfold stat_life at 2. cbn [foldl]. rewrite (run_fold (stat key) (stat_after key)); [|done|intros; by apply step_stat]. unfold all_ops. by rewrite stat_end.
Qed.
Print Assumptions C76_meta.

(** C76.  What was saved can be opened, after any number of sessions. *)
Theorem C76_opens `{U : Unicode} `{B : Bytes} c ext ext0 body mt (l : list xday) t t' x e D s s1 s2 :
  known_ext ext -> e_get "office:mimetype" t = Some mt -> is_type mt ext0 body -> e_tail t = None -> flat_life c ext body l t t' ->
  flat_complete body e -> root e = root t' -> meta_part e = play_doc (sn_meta x) (meta_part t') ->
  objects (mgr s) 0 = e -> docname D = Some (sn_file x) ->
  flat_save (sn_now x) (sn_gen x) D s = (s1, Done (Ok tt)) -> files (mach s2) !! sn_file x = files (mach s1) !! sn_file x ->
  exists b p t3, files (mach s2) !! sn_file x = Some b /\ b_parse b = Some p /\
    flat_open c ext (Some (sn_file x)) (Some p) = Ok (Doc (Some (sn_file x)) mt ext true, t3) /\
    flat_life c ext body (l ++ [XDay x t' e]) t t3.
Proof.
  intros He Hm HT Htl HL. revert Hm Htl.
  induction HL as [t|x0 t e0 l D0 s0 s10 s20 b p D3 t3 t4 Hc Hr Hme Hs Hd Es Hf Hb Hp Eo HL IH]; intros Hm Htl Hc1 Hr1 Hme1 Hs1 Hd1 Es1 Hf1.
  - destruct (flat_session c ext ext0 body mt x t e D s s1 s2 (b_xml true e) e He Hm HT Htl Hc1 Hr1 Hme1 Hs1 Hd1 Es1 Hf1) as (_ & (b' & Hb' & Hp') & t3 & -> & E3 & _).
    exists b'. eexists _, _. split; [exact Hb'|]. split; [exact Hp'|]. split; [exact E3|]. cbn [app]. eapply xl_cons; eauto. constructor.
  - destruct (flat_session c ext ext0 body mt x0 t e0 D0 s0 s10 s20 b p He Hm HT Htl Hc Hr Hme Hs Hd Es Hf) as (Hpp & _ & t3' & -> & E3 & Hc3 & Hm3 & Htl3 & _).
    pose proof Eo as Eo'. rewrite (Hpp Hb Hp) in Eo'. rewrite E3 in Eo'. injection Eo' as _ <-.
    destruct (IH Hm3 Htl3 Hc1 Hr1 Hme1 Hs1 Hd1 Es1 Hf1) as (b1 & p1 & t5 & B1 & B2 & B3 & B4). exists b1, p1, t5. split_and!; try done. cbn [app]. eapply xl_cons; eauto.
Qed.
Print Assumptions C76_opens.

(** ** A case: the flat spreadsheet of C57, with a title and changed settings, then with another keyword *)
Section case.
Local Existing Instance ascii_unicode.
Local Existing Instance tree_bytes.
Definition sit76 : sitting := Sitting [MSet "title" (TStr (lit "T")); KAdd (Some (lit "k"))] [] (lit "2020") (lit "G") file_f.
Definition sit76b : sitting := Sitting [KAdd (Some (lit "j"))] [] (lit "2021") (lit "G") file_f.
Definition with_meta (ops : list mop) (t : elem) : elem := within "office:document-meta" (play_doc ops) t.
(** the calls of a session; the settings get an attribute *)
Definition edit76 (ops : list mop) (t : elem) : elem := within "office:settings" (e_set "office:version" (lit "1.2")) (with_meta ops t).
Definition e76 : elem := edit76 (sn_meta sit76) flat_opened.
Definition saved76 := flat_save (lit "2020") (lit "G") (flat_doc true) (flat_state e76 (replicate 40 Go)).
Definition t76 : elem := parsed (saved_tree (lit "2020") (lit "G") e76).
Definition e76b : elem := with_meta (sn_meta sit76b) t76.
Definition saved76b := flat_save (lit "2021") (lit "G") (flat_doc true) (flat_state e76b (replicate 40 Go)).
Definition t76b : elem := parsed (saved_tree (lit "2021") (lit "G") e76b).
Lemma edit_complete body t : flat_complete body t -> body <> "office:settings"%string ->
  flat_complete body (within "office:settings" (e_set "office:version" (lit "1.2")) t) /\ meta_part (within "office:settings" (e_set "office:version" (lit "1.2")) t) = meta_part t.
Proof.
  intros (C1 & C2 & C3 & C4 & C5) Hb. set (t' := within _ _ t).
  assert (Hf : forall u, u <> "office:settings"%string -> findall u t' = findall u t) by (intros u Hu; apply findall_within_other; [by intros [? ?] ?|done]).
  assert (Hm : meta_part t' = meta_part t) by (unfold meta_part; by rewrite Hf).
  split; [|done]. split; [done|]. split; [|split; [by rewrite Hm|split]].
  - unfold has_children in *. rewrite Forall_forall in C2 |- *. intros u Hu. destruct (decide (u = "office:settings"%string)) as [->|Hn]; [|rewrite Hf by done; by apply C2].
    specialize (C2 _ Hu). unfold t'. clear -C2. unfold findall, within in *. cbn [kids]. induction (kids t) as [|k l IH]; [done|]. cbn [in_first].
    case_decide as Hk.
    + rewrite filter_cons_True; [done|]. by destruct k.
    + rewrite filter_cons_False in C2 |- * by done. by apply IH.
  - by rewrite Hf.
  - intros e b y u z [= <-]. rewrite Hf by done. by apply (C5 t b y u z).
Qed.
Lemma e76_ok : flat_complete "office:spreadsheet" e76 /\ root e76 = root flat_opened /\ meta_part e76 = play_doc (sn_meta sit76) (meta_part flat_opened).
Proof.
  destruct (play_complete "office:spreadsheet" (sn_meta sit76) flat_opened (proj2 flat_opened_eq)) as (P1 & P2 & P3 & _).
  destruct (edit_complete "office:spreadsheet" (with_meta (sn_meta sit76) flat_opened) P1) as [Q1 Q2]; [done|].
  split; [exact Q1|]. split; [exact P2|]. unfold e76, edit76. by rewrite Q2.
Qed.
Lemma saved76_eq : saved76 = (saved76.1, Done (Ok tt)).
Proof. apply pair_by. by_vm. Qed.
Lemma t76_complete : flat_complete "office:spreadsheet" t76.
Proof. apply flat_parsed. by destruct (play_complete "office:spreadsheet" [MTouch (lit "2020") (lit "G"); MInc] e76 (proj1 e76_ok)) as (P1 & _). Qed.
Lemma saved76b_eq : saved76b = (saved76b.1, Done (Ok tt)).
Proof. apply pair_by. by_vm. Qed.
Lemma life76 : flat_life T_Document.noon "ods" "office:spreadsheet" [XDay sit76 flat_opened e76; XDay sit76b t76 e76b] flat_opened t76b.
Proof.
  destruct e76_ok as (A1 & A2 & A3).
  eapply (xl_cons _ _ _ sit76 _ _ _ (flat_doc true) _ saved76.1 saved76.1 (BXml true (saved_tree (lit "2020") (lit "G") e76)) t76 (flat_doc true) t76); [exact A1|exact A2|exact A3| | |exact saved76_eq| | | | |]; [exact eq_refl|exact eq_refl|exact eq_refl|by_vm|by_vm|by_vm|].
  destruct (play_complete "office:spreadsheet" (sn_meta sit76b) t76 t76_complete) as (P1 & P2 & P3 & _).
  eapply (xl_cons _ _ _ sit76b _ _ _ (flat_doc true) _ saved76b.1 saved76b.1 (BXml true (saved_tree (lit "2021") (lit "G") e76b)) t76b (flat_doc true) t76b); [exact P1|exact P2|exact P3| | |exact saved76b_eq| | | | |]; [exact eq_refl|exact eq_refl|exact eq_refl|by_vm|by_vm|by_vm|].
  apply xl_nil.
Qed.
Example C76_case :
  known_ext "ods" /\ e_get "office:mimetype" flat_opened = Some (full_type "spreadsheet") /\ is_type (full_type "spreadsheet") "ods" "office:spreadsheet" /\
  e_tail flat_opened = None /\ flat_complete "office:spreadsheet" flat_opened /\
  flat_life T_Document.noon "ods" "office:spreadsheet" [XDay sit76 flat_opened e76; XDay sit76b t76 e76b] flat_opened t76b /\
  (exists m, meta_of (meta_part flat_opened) = Some m) /\
  (words <$> meta_of (meta_part t76b)) = Some [Some (lit "k"); Some (lit "j")] /\
  map (e_get "office:version") (findall "office:settings" t76b) = [Some (lit "1.2")].
Proof.
  split; [dec_vm|]. split; [by_vm|]. split; [exact flat_tree_type|]. split; [by_vm|]. split; [apply flat_opened_eq|]. split; [exact life76|].
  split; [destruct (proj2 flat_opened_eq) as (_ & _ & (m & Hm & _) & _); by exists m|]. split; by_vm.
Qed.
End case.
