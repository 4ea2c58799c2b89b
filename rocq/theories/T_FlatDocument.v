(** C57: documents in a single XML file. *)
From Verif Require Import FlatProofs T_Files T_Document T_Meta.

(** C57.  A tree with the root office:document opens as the type written in it, whatever the
    file type given; missing elements are made, all else stays. *)
Theorem C57_open `{U : Unicode} c ext name (e : elem) m ext0 body :
  known_ext ext -> e_tag e = "office:document"%string -> e_get "office:mimetype" e = Some m -> is_type m ext0 body -> good_decls body (Some e) ->
  exists k t, open_meta (created c) (touched c) (generator c) (Some (meta_part e)) = Ok k /\ t = flat_from body k e /\
    flat_open c ext name (Some e) = Ok (Doc name m ext true, t) /\ flat_complete body t /\ root t = root e /\ meta_part t = k.
Proof.
  intros He Ht Hm HT Hg. destruct (flat_core_ok c e m ext0 body HT) as (k & Hk & [[E _]|[_ Hn]]); [|done]. exists k, (flat_from body k e). split; [done|]. split; [done|].
  destruct (type_body _ _ _ HT) as [Htb _]. destruct (open_meta_tag _ _ _ _ _ Hk) as [Hkt Hks].
  destruct (flat_from_complete body k e Hkt Htb Hks Ht Hg) as (C1 & C2 & C3). split_and!; try done.
  - rewrite flat_open_core. apply known_exts in He. destruct (mimetype_of ext); [|done]. cbn [default id]. rewrite decide_True, Hm by done.
    rewrite decide_True; [by rewrite E|]. destruct HT as (sfx & Hin & ->). unfold known_type. apply elem_of_list_fmap. exists sfx. split; [done|]. clear -Hin.
    assert (H : Forall (fun q => q.1.2 ∈ ["text"; "text-template"; "graphics"; "graphics-template"; "presentation"; "presentation-template";
                     "spreadsheet"; "spreadsheet-template"; "chart"; "chart-template"; "image"; "image-template"; "formula"; "formula-template"; "text-master"; "text-web"]%string) supported) by dec_vm.
    rewrite Forall_forall in H. by apply (H _ Hin).
  - unfold meta_part. by rewrite C3.
Qed.
Print Assumptions C57_open.

(** C57.  Nothing else opens. *)
Theorem C57_refused `{U : Unicode} c ext name (e : elem) :
  (~ known_ext ext -> forall x, flat_open c ext name x = Err KeyError) /\
  (known_ext ext -> e_tag e <> "office:document"%string -> flat_open c ext name (Some e) = Err AttributeError) /\
  (known_ext ext -> e_tag e = "office:document"%string -> (forall m, e_get "office:mimetype" e = Some m -> ~ known_type m) -> flat_open c ext name (Some e) = Err TypeError) /\
  (forall m, known_ext ext -> e_tag e = "office:document"%string -> e_get "office:mimetype" e = Some m -> known_type m -> (~ exists ext0 body, is_type m ext0 body) ->
     flat_open c ext name (Some e) = Err KeyError) /\
  (forall m ext0 body, known_ext ext -> e_tag e = "office:document"%string -> e_get "office:mimetype" e = Some m -> is_type m ext0 body -> ~ good_decls body (Some e) ->
     flat_open c ext name (Some e) = Err AttributeError).
Proof.
  split_and!.
  - intros He x. rewrite flat_open_core. destruct (mimetype_of ext) eqn:Em; [|done]. exfalso. apply He. apply known_exts. by rewrite Em.
  - intros He Ht. rewrite flat_open_core. apply known_exts in He. destruct (mimetype_of ext); [|done]. by rewrite decide_False.
  - intros He Ht Hm. rewrite flat_open_core. apply known_exts in He. destruct (mimetype_of ext); [|done]. rewrite decide_True by done. destruct (e_get _ e) as [m|]; [|done]. rewrite decide_False; [done|]. by apply Hm.
  - intros m He Ht Hm Hk HT. rewrite flat_open_core. apply known_exts in He. destruct (mimetype_of ext); [|done]. rewrite decide_True, Hm, decide_True by done. cbn [default id].
    destruct (flat_core_eq c e m) as (k & _ & E). rewrite E. destruct (bodytag_for m) as [t|] eqn:Et; [|done]. destruct (ext_of_known m Hk) as [x Hx]. exfalso. apply HT. exists x, t. by apply type_tables.
  - intros m ext0 body He Ht Hm HT Hg. rewrite flat_open_core. apply known_exts in He. destruct (mimetype_of ext); [|done]. rewrite decide_True, Hm by done. cbn [default id].
    destruct (flat_core_ok c e m ext0 body HT) as (k & _ & [[_ Hn]|[E _]]); [done|]. rewrite decide_True; [by rewrite E|].
    destruct HT as (sfx & Hin & ->). unfold known_type. apply elem_of_list_fmap. exists sfx. split; [done|]. clear -Hin.
    assert (H : Forall (fun q => q.1.2 ∈ ["text"; "text-template"; "graphics"; "graphics-template"; "presentation"; "presentation-template";
                     "spreadsheet"; "spreadsheet-template"; "chart"; "chart-template"; "image"; "image-template"; "formula"; "formula-template"; "text-master"; "text-web"]%string) supported) by dec_vm.
    rewrite Forall_forall in H. by apply (H _ Hin).
Qed.
Print Assumptions C57_refused.

(** C57.  New documents: the types of C33 are made, the others refused. *)
Theorem C57_new `{U : Unicode} c ext name :
  (forall suffix body, (ext, suffix, body) ∈ supported ->
     exists k t, open_meta (created c) (touched c) (generator c) None = Ok k /\ t = flat_from body k (new_elem "office:document") /\
       flat_open c ext name None = Ok (Doc name (full_type suffix) ext true, t) /\ flat_complete body t /\ meta_part t = k) /\
  (ext ∉ map (fun q => q.1.1) supported -> flat_open c ext name None = Err KeyError).
Proof.
  split.
  - intros suffix body Hin. assert (HT : is_type (full_type suffix) ext body) by (by exists suffix).
    assert (Hm : mimetype_of ext = Some (full_type suffix) /\ known_type (full_type suffix)).
    { clear -Hin. revert Hin. assert (H : Forall (fun q => mimetype_of q.1.1 = Some (full_type q.1.2) /\ known_type (full_type q.1.2)) supported).
      { repeat (apply Forall_cons_2; [split; [vm_compute; reflexivity|dec_vm]|]). apply Forall_nil_2. }
      rewrite Forall_forall in H. intros Hin. by apply (H _ Hin). }
    destruct Hm as [Hm Hk]. assert (Hg : good_decls body (Some (new_elem "office:document"))) by (by intros e b y u z [= <-]).
    destruct (flat_core_ok c (new_elem "office:document") _ ext body HT) as (k & Ho & [[E _]|[_ Hn]]); [|done].
    destruct (type_body _ _ _ HT) as [Htb _]. destruct (open_meta_tag _ _ _ _ _ Ho) as [Hkt Hks].
    destruct (flat_from_complete body k (new_elem "office:document") Hkt Htb Hks eq_refl Hg) as (C1 & C2 & C3).
    exists k, (flat_from body k (new_elem "office:document")). split_and!; try done.
    + rewrite flat_open_core, Hm. cbn [default]. rewrite decide_True, decide_True by done. by rewrite E.
    + unfold meta_part. by rewrite C3.
  - intros Hout. rewrite flat_open_core. destruct (mimetype_of ext) as [m|] eqn:Hm; [|done]. cbn [default]. rewrite decide_True by done.
    assert (H : known_type m /\ bodytag_for m = None).
    { unfold mimetype_of in Hm. destruct (alookup ext MIMETYPES) as [y|] eqn:Ea; [|done]. injection Hm as <-.
      assert (El : (ext, y) ∈ MIMETYPES). { revert Ea. generalize MIMETYPES as l. induction l as [|[k v] l IH]; [done|]. cbn [alookup]. case_decide as Hd; [intros [= ->]; subst k; by left|]. right. by apply IH. }
      assert (H : Forall (fun q => q.1 ∈ map (fun q => q.1.1) supported \/ (known_type (lit q.2) /\ bodytag_for (lit q.2) = None)) MIMETYPES) by dec_vm.
      rewrite Forall_forall in H. by destruct (H _ El). }
    destruct H as [Hk Ht]. rewrite decide_True by done. destruct (flat_core_eq c (new_elem "office:document") m) as (k & _ & E). by rewrite E, Ht.
Qed.
Print Assumptions C57_new.

(** the tree as it is read again is as complete *)
Lemma flat_parsed `{U : Unicode} body t : flat_complete body t -> flat_complete body (parsed t).
Proof.
  intros (A1 & A2 & (m & A3 & A4) & (b & y & A5 & A6 & A7) & A8). split; [by rewrite parsed_tag|]. split; [by apply parsed_children|]. split.
  - exists (parsed m). split; [|by apply parsed_children]. unfold meta_part in *. rewrite parsed_head. destruct (head (findall "office:document-meta" t)); [|done]. cbn in *. by rewrite parsed_head, A3.
  - split; [|by apply parsed_decls]. exists (parsed b), (parsed y). rewrite !parsed_head, A5, A6. split_and!; try done. by apply parsed_children.
Qed.
(** C57.  Saving, as it ends successfully: the file is the document, with date, generator and
    number of editing cycles renewed; it opens again as the same tree, except that empty texts
    are no texts. *)
Theorem C57_save `{U : Unicode} `{B : Bytes} now gen D f body (s s' : st) :
  let t := objects (mgr s) 0 in
  docname D = Some f -> flat_complete body t -> flat_save now gen D s = (s', Done (Ok tt)) ->
  let t' := saved_tree now gen t in
  objects (mgr s') 0 = t' /\ files (mach s') !! f = Some (b_xml true t') /\ flat_complete body t' /\ root t' = root t /\
  meta_part t' = play_doc [MTouch now gen; MInc] (meta_part t) /\
  (forall u, u <> "office:document-meta"%string -> findall u t' = findall u t) /\
  (forall old, files (mach s) !! f = Some old -> backup D = true -> files (mach s') !! (f ++ lit ".bak") = Some old) /\
  (e_tail t = None -> b_parse (b_xml true t') = Some (parsed t')) /\
  (forall c ext name m ext0, known_ext ext -> e_get "office:mimetype" t = Some m -> is_type m ext0 body ->
     flat_open c ext name (Some (parsed t')) = Ok (Doc name m ext true, parsed t')) /\
  (solid t -> now <> [] -> gen <> [] -> parsed t' = t').
Proof.
  intros t Hd Hc E t'. destruct (play_complete body [MTouch now gen; MInc] t Hc) as (P1 & P2 & P3 & P4). fold (saved_tree now gen t) in *. fold t' in P1, P2, P3, P4.
  assert (HS : objects (mgr s') 0 = t' /\ files (mach s') !! f = Some (b_xml true t') /\ (forall old, files (mach s) !! f = Some old -> backup D = true -> files (mach s') !! (f ++ lit ".bak") = Some old)).
  { unfold flat_save in E. rewrite Hd in E. unfold pbind at 1 in E. destruct (flat_meta (meta_touch now gen) s) as [s1 o1] eqn:E1.
    destruct (flat_meta_step body (MTouch now gen) _ _ _ Hc E1) as [S1 _]. destruct o1 as [|[[]|x]]; [done| |done].
    destruct (play_complete body [MTouch now gen] t Hc) as (Q1 & Q2 & Q3 & Q4). unfold pbind at 1 in E. destruct (flat_meta meta_inc s1) as [s2 o2] eqn:E2.
    assert (Q5 : objects (mgr s1) 0 = within "office:document-meta" (play_doc [MTouch now gen]) t) by (by rewrite S1).
    destruct (flat_meta_step body MInc s1 s2 o2 ltac:(by rewrite Q5) E2) as [S2 _]. destruct o2 as [|[[]|x]]; [done| |done].
    assert (Et : objects (mgr s2) 0 = t').
    { rewrite S2. cbn [mgr upd_mgr objects set_object]. change (within "office:document-meta" (play_doc [MInc]) (objects (mgr s1) 0) = t'). rewrite Q5. destruct Hc as (_ & Hc & _). apply Forall_inv in Hc.
      destruct (head_some _ Hc) as [k Hk]. rewrite (within_within _ _ _ _ _ Hk); [done|]. 
      assert (meta_part t = k) as Ek by (unfold meta_part; by rewrite Hk). rewrite <- Ek, <- Q3. apply meta_part_tag. }
    assert (Ef : files (mach s2) = files (mach s)) by (by rewrite S2, S1).
    destruct (flat_routine_spec _ _ _ _ _ E) as (R1 & _ & _ & R4 & _ & _ & R7). rewrite R1, Et. split; [done|]. split; [rewrite <- Et; by apply R4|].
    intros old Ho Hb. apply R7; [done|done|]. by rewrite Ef. }
  destruct HS as (H1 & H2 & H3). split_and!; try done.
  - intros Htl. apply b_parse_xml. unfold e_tail in *. by rewrite P2.
  - intros c ext name m ext0 He Hm HT. assert (P5 := flat_parsed body t' P1). destruct (C57_open c ext name (parsed t') m ext0 body) as (k & t1 & K1 & -> & K2 & _); try done.
    + apply P5.
    + apply P5.
    + rewrite K2. do 2 f_equal. assert (k = meta_part (parsed t')) as ->; [|by apply flat_again].
      destruct P5 as (_ & _ & (mm & M1 & M2) & _). apply Forall_inv in M2. rewrite (open_meta_again _ _ _ _ mm (meta_part_tag _) M1 M2) in K1. by injection K1.
  - intros Hs N1 N2. apply parsed_solid. apply SolidProofs.solid_within; [|done]. intros k Hk. apply SolidProofs.solid_play_doc; [|done]. apply Forall_cons_2; [by split|]. by apply Forall_singleton.
Qed.
Print Assumptions C57_save.

(** C57.  Whatever happens during saving: no other file changes; with a backup the previous
    version is in the file or in the backup. *)
Theorem C57_safe `{U : Unicode} `{B : Bytes} now gen D f (s s' : st) o :
  docname D = Some f -> flat_save now gen D s = (s', o) ->
  (forall q, q <> f -> q <> f ++ lit ".bak" -> files (mach s') !! q = files (mach s) !! q) /\
  (backup D = true -> forall old, files (mach s) !! f = Some old -> files (mach s') !! f = Some old \/ files (mach s') !! (f ++ lit ".bak") = Some old) /\
  (backup D = false \/ files (mach s) !! f = None -> files (mach s') !! (f ++ lit ".bak") = files (mach s) !! (f ++ lit ".bak")).
Proof.
  intros Hd. unfold flat_save. rewrite Hd. unfold pbind at 1. destruct (flat_meta (meta_touch now gen) s) as [s1 o1] eqn:E1.
  assert (Hm : forall g (s0 s1 : st) o, flat_meta g s0 = (s1, o) -> files (mach s1) = files (mach s0)).
  { intros g s0 s3 o3. unfold flat_meta. destruct (first_kid _ _) as [[i k]|]; [|by intros [= <- _]]. destruct (on_meta g k). by intros [= <- _]. }
  assert (F1 := Hm _ _ _ _ E1). assert (HF : forall s2, files (mach s2) = files (mach s) ->
    (forall q, q <> f -> q <> f ++ lit ".bak" -> files (mach s2) !! q = files (mach s) !! q) /\
    (backup D = true -> forall old, files (mach s) !! f = Some old -> files (mach s2) !! f = Some old \/ files (mach s2) !! (f ++ lit ".bak") = Some old) /\
    (backup D = false \/ files (mach s) !! f = None -> files (mach s2) !! (f ++ lit ".bak") = files (mach s) !! (f ++ lit ".bak"))).
  { intros s2 ->. split_and!; try done. intros _ old Ho. by left. }
  destruct o1 as [|[[]|x]]; [intros [= <- <-]; by apply HF| |intros [= <- <-]; by apply HF].
  unfold pbind at 1. destruct (flat_meta meta_inc s1) as [s2 o2] eqn:E2. assert (F2 := Hm _ _ _ _ E2). rewrite F1 in F2.
  destruct o2 as [|[[]|x]]; [intros [= <- <-]; by apply HF| |intros [= <- <-]; by apply HF].
  intros E. destruct (flat_routine_spec _ _ _ _ _ E) as (_ & R2 & _ & _ & R5 & R6 & _). rewrite F2 in *. split_and!; try done.
  - intros Hb. by rewrite Hb in R5.
  - intros [Hb|Hb]; [by rewrite Hb in R5|by apply R6].
Qed.
Print Assumptions C57_safe.

(** C57.  Without failures saving succeeds, unless the number of editing cycles is an element
    without text. *)
Theorem C57_saves `{U : Unicode} `{B : Bytes} now gen D f body (s : st) :
  let t := objects (mgr s) 0 in
  docname D = Some f -> flat_complete body t -> Forall (fun e => e = Go) (env (mach s)) -> 4 <= length (env (mach s)) ->
  exists s' r, flat_save now gen D s = (s', Done r) /\
    match meta_of (meta_part t) with
    | Some m => r = if decide (field "editing-cycles" m = Some None) then Err TypeError else Ok tt
    | None => False
    end /\ (r <> Ok tt -> files (mach s') = files (mach s)).
Proof.
  intros t Hd Hc Hgo Hl. unfold flat_save. rewrite Hd. unfold pbind at 1. destruct (flat_meta (meta_touch now gen) s) as [s1 o1] eqn:E1.
  destruct (flat_meta_step body (MTouch now gen) _ _ _ Hc E1) as [S1 (m & Hm & ->)]. fold t in Hm.
  assert (Hst : has_stats m). { destruct Hc as (_ & _ & (m' & Hm' & Hs) & _). fold t in Hm'. rewrite Hm in Hm'. injection Hm' as <-. by apply Forall_inv in Hs. }
  assert (E1t : (step (MTouch now gen) m).2 = Ok tt).
  { cbn [step]. unfold meta_touch, abind. destruct (meta_set "date" (TStr now) m) as [m1 r1] eqn:Em1. destruct (meta_set_only "date" (TStr now) m _ eq_refl) as (H & _). rewrite Em1 in H. cbn in H. subst r1.
    by destruct (meta_set_only "generator" (TStr gen) m1 _ eq_refl) as (H & _). }
  rewrite E1t. destruct (play_complete body [MTouch now gen] t Hc) as (Q1 & Q2 & Q3 & Q4).
  assert (Q5 : objects (mgr s1) 0 = within "office:document-meta" (play_doc [MTouch now gen]) t) by (by rewrite S1).
  unfold pbind at 1. destruct (flat_meta meta_inc s1) as [s2 o2] eqn:E2. destruct (flat_meta_step body MInc s1 s2 o2 ltac:(by rewrite Q5) E2) as [S2 (m1 & Hm1 & ->)].
  assert (Em1 : m1 = (step (MTouch now gen) m).1).
  { rewrite Q5, Q3 in Hm1. destruct (doc_step (MTouch now gen) (meta_part t) m Hm Hst) as (_ & _ & m' & Hm' & _ & ->). cbn [play_doc foldl] in Hm1. rewrite Hm1 in Hm'. by injection Hm'. }
  assert (Ef1 : field "editing-cycles" m1 = field "editing-cycles" m). { rewrite Em1. rewrite step_entry by done. done. }
  assert (E2t : (step MInc m1).2 = if decide (field "editing-cycles" m = Some None) then Err TypeError else Ok tt).
  { rewrite <- Ef1. cbn [step]. destruct (meta_inc_cases m1) as [(H1 & H2)|(n & _ & H2 & _ & H3)]; [by rewrite decide_True, H2|by rewrite decide_False]. }
  rewrite E2t. unfold meta_of. rewrite Hm.
  assert (Ff : files (mach s2) = files (mach s)) by (by rewrite S2, S1). assert (Fe : env (mach s2) = env (mach s)) by (by rewrite S2, S1).
  destruct (decide (field "editing-cycles" m = Some None)) as [Hx|Hx]; [by exists s2, (Err TypeError)|].
  assert (HL : live 4 (flat_routine f (backup D)) s2).
  { unfold flat_routine. apply (live_bind 0 4); [intros ? ?; done|]. intros s3 ex Hex. apply (live_bind 2 2).
    - destruct (ex && backup D); [|eapply live_weak; [|apply live_pret]; lia]. unfold backup_file. apply (live_bind 0 2); [intros ? ?; done|]. intros s4 eb _. apply (live_bind 1 1); [|intros; apply live_syscall].
      destruct eb; [apply live_syscall|]. eapply live_weak; [|apply live_pret]. lia.
    - intros s4 [] _. unfold write_flat. apply (live_bind 1 1); [apply live_syscall|]. intros s5 [] _. apply (live_bind 0 1); [intros ? ?; done|]. intros s6 b _. unfold sys_close, close_write.
      apply (live_bind 1 0); [apply (live_writing (Some f))|]. intros s7 [] _. intros ? ?. done. }
  destruct HL as (L1 & _); [unfold all_go; by rewrite Fe|by rewrite Fe|]. destruct (flat_routine f (backup D) s2) as [s3 o3] eqn:E3. destruct (flat_routine_spec _ _ _ _ _ E3) as (_ & _ & R3 & _).
  cbn in L1. destruct o3 as [|[[]|x]]; [done|by exists s3, (Ok tt)|]. exfalso. destruct (R3 x eq_refl) as [_ Hn]. apply Hn. unfold no_failure. rewrite Fe. intros Hin. rewrite Forall_forall in Hgo. by specialize (Hgo _ Hin).
Qed.
Print Assumptions C57_saves.

(** C57.  saveas() is saving under the new name, which the document keeps; a document without
    a name is not saved. *)
Theorem C57_saveas `{U : Unicode} `{B : Bytes} now gen D (s : st) :
  (docname D = None -> flat_save now gen D s = (s, Done (Err IOError))) /\
  (forall f s' o, let D' := Doc (Some f) (mimetype D) (doctype D) (backup D) in
     flat_saveas now gen f D s = (s', o) ->
     flat_save now gen D' s = (s', match o with Stop => Stop | Done (Ok _) => Done (Ok tt) | Done (Err x) => Done (Err x) end) /\ (forall d, o = Done (Ok d) -> d = D')).
Proof.
  split; [intros Hd; unfold flat_save; by rewrite Hd|]. intros f s' o D'. unfold flat_saveas, pbind, D'. destruct (flat_save now gen (Doc (Some f) (mimetype D) (doctype D) (backup D)) s) as [s1 [|[[]|x]]].
  - intros [= -> <-]. by split.
  - intros [= -> <-]. split; [done|]. by intros d [= <-].
  - intros [= -> <-]. by split.
Qed.
Print Assumptions C57_saveas.

(** C57.  A new document does not say its type: written to a file it cannot be opened. *)
Theorem C57_new_counterexample `{U : Unicode} c ext name D t now gen :
  flat_open c ext name None = Ok (D, t) ->
  forall c' ext' name', known_ext ext' -> flat_open c' ext' name' (Some (saved_tree now gen t)) = Err TypeError.
Proof.
  intros E c' ext' name' He. destruct (C57_new c ext name) as [N1 N2]. destruct (decide (ext ∈ map (fun q => q.1.1) supported)) as [Hin|Hout]; [|by rewrite N2 in E].
  apply elem_of_list_fmap in Hin as ([[x suffix] body] & -> & Hin). cbn [fst] in *. destruct (N1 suffix body Hin) as (k & t0 & _ & -> & E0 & C & _). rewrite E in E0. injection E0 as -> ->.
  destruct (play_complete body [MTouch now gen; MInc] _ C) as (P1 & P2 & _). fold (saved_tree now gen (flat_from body k (new_elem "office:document"))) in P1, P2.
  destruct (C57_refused c' ext' name' (saved_tree now gen (flat_from body k (new_elem "office:document")))) as (_ & _ & H & _). apply H; [done|apply P1|].
  intros m. unfold e_get, e_attrs. rewrite P2. done.
Qed.
Print Assumptions C57_new_counterexample.

(** C57.  Meta data where OpenDocument puts them in flat files, in office:meta, are not seen:
    the meta data of such a document are new ones. *)
Theorem C57_meta_counterexample `{U : Unicode} c ext name (e : elem) m ext0 body :
  known_ext ext -> e_tag e = "office:document"%string -> e_get "office:mimetype" e = Some m -> is_type m ext0 body -> good_decls body (Some e) ->
  findall "office:document-meta" e = [] ->
  exists t mm, flat_open c ext name (Some e) = Ok (Doc name m ext true, t) /\ findall "office:meta" t = findall "office:meta" e /\
    meta_of (meta_part t) = Some mm /\ new_data (created c) (touched c) (generator c) mm.
Proof.
  intros He Ht Hm HT Hg Hn. destruct (C57_open c ext name e m ext0 body He Ht Hm HT Hg) as (k & t & Hk & -> & E & C & R & Mk).
  assert (Ep : meta_part e = new_elem "office:document-meta") by (unfold meta_part; by rewrite Hn). rewrite Ep in Hk.
  assert (H := C34_open (created c) (touched c) (generator c) (Some (new_elem "office:document-meta"))). cbn [default id] in H. rewrite decide_True in H by done.
  destruct H as (r & m' & H1 & H2 & _ & H3 & _). rewrite Hk in H1. injection H1 as <-. exists (flat_from body k e), m'. rewrite Mk. split_and!; try done.
  destruct (type_body _ _ _ HT) as [Htb _]. unfold flat_from. rewrite findall_within_other; [|by intros ? ?|done]. rewrite findall_fill_other by (left; dec_vm).
  rewrite findall_within_other; [|intros _ _; by apply (open_meta_tag _ _ _ _ _ Hk)|done]. apply findall_fill_other. left. dec_vm.
Qed.
Print Assumptions C57_meta_counterexample.

(** C57.  opendoc() never opens a flat document. *)
Theorem C57_opendoc `{U : Unicode} `{B : Bytes} c p (s : st) b :
  no_failure s -> 10 <= length (env (mach s)) -> files (mach s) !! p = Some b -> zip_unpack b = None ->
  exists s', opendoc c (FromFile p) s = (s', Done (Err KeyError)).
Proof.
  intros Hn Hk Hf Hz. apply (C33_extension_counterexample c (FromFile p) s (new_elem "manifest:manifest")); try done.
  - cbn [origin_of part]. by rewrite Hf, Hz.
  - unfold manifest_part. cbn [origin_of part]. by rewrite Hf, Hz.
Qed.
Print Assumptions C57_opendoc.

(** ** A flat spreadsheet in a file *)
Definition flat_tree : elem :=
  T (Nd "office:document" {["office:mimetype" := full_type "spreadsheet"]} None None)
    [T (Nd "office:meta" ∅ None None) [e_set_text (Some (lit "Title")) (new_elem "dc:title")];
     T (Nd "office:body" ∅ None None) [T (Nd "office:spreadsheet" ∅ None None) [T (Nd "table:table" {["table:name" := lit "A"]} None None) []]]].
Definition file_f : pystr := lit "/d/a.fods".
Definition flat_state (t : elem) (ev : list (event (B := tree_bytes))) : st (B := tree_bytes) :=
  St (B := tree_bytes) (Machine tree_bytes {[file_f := BXml true flat_tree]} ev []) (set_object (B := tree_bytes) 0 t idle).
Definition flat_opened : elem := match flat_open noon "ods" (Some file_f) (Some flat_tree) with Ok (_, t) => t | Err _ => flat_tree end.
Definition flat_doc (bk : bool) : doc := Doc (Some file_f) (full_type "spreadsheet") "ods" bk.
Lemma flat_tree_type : is_type (full_type "spreadsheet") "ods" "office:spreadsheet".
Proof. exists "spreadsheet"%string. split; [|done]. unfold supported. do 6 right. by left. Qed.
Lemma flat_tree_decls : good_decls "office:spreadsheet" (Some flat_tree).
Proof.
  intros e b y t k [= <-] Hb Hy Ht Hk. unfold flat_tree in Hb. vm_compute in Hb. injection Hb as <-. vm_compute in Hy. injection Hy as <-. exfalso.
  apply elem_of_cons in Ht as [->|Ht]; [vm_compute in Hk; done|]. apply elem_of_list_singleton in Ht as ->. vm_compute in Hk. done.
Qed.
Example C57_open_case : known_ext "odt" /\ e_tag flat_tree = "office:document"%string /\ e_get "office:mimetype" flat_tree = Some (full_type "spreadsheet") /\
  is_type (full_type "spreadsheet") "ods" "office:spreadsheet" /\ good_decls "office:spreadsheet" (Some flat_tree) /\ findall "office:document-meta" flat_tree = [].
Proof. split_and!; try by_vm; [dec_vm|exact flat_tree_type|exact flat_tree_decls]. Qed.
Example C57_refused_case : ~ known_ext "fods" /\ known_type (full_type "formula") /\ ~ known_type (lit "text/plain") /\
  flat_open noon "ods" None (Some (e_set "office:mimetype" (full_type "formula") flat_tree)) = Err KeyError /\
  flat_open noon "ods" None (Some (new_elem "office:document")) = Err TypeError /\
  flat_open noon "ods" None (Some sheet_tree) = Err AttributeError.
Proof. split_and!; [dec_vm|dec_vm|dec_vm|by_vm|by_vm|by_vm]. Qed.
Lemma flat_opened_eq : flat_open noon "ods" (Some file_f) (Some flat_tree) = Ok (flat_doc true, flat_opened) /\ flat_complete "office:spreadsheet" flat_opened.
Proof.
  destruct (C57_open (U := ascii_unicode) noon "ods" (Some file_f) flat_tree (full_type "spreadsheet") "ods" "office:spreadsheet") as (k & t & _ & _ & E & C & _);
    [dec_vm|by_vm|by_vm|exact flat_tree_type|exact flat_tree_decls|]. unfold flat_opened. rewrite E. by split.
Qed.
Example C57_save_case : let s := flat_state flat_opened (replicate 4 Go) in
  docname (flat_doc true) = Some file_f /\ flat_complete "office:spreadsheet" (objects (mgr s) 0) /\ e_tail flat_opened = None /\
  (flat_save (U := ascii_unicode) (lit "now") (lit "G") (flat_doc true) s).2 = Done (Ok tt) /\
  files (mach (flat_save (U := ascii_unicode) (lit "now") (lit "G") (flat_doc true) s).1) !! (file_f ++ lit ".bak") = Some (BXml true flat_tree).
Proof. intros s. split; [done|]. split; [apply flat_opened_eq|]. split; [by_vm|]. split; by_vm. Qed.
Example C57_new_case : exists D t, flat_open noon "odt" None None = Ok (D, t).
Proof. destruct (C57_new (U := ascii_unicode) noon "odt" None) as [H _]. destruct (H "text"%string "office:text"%string) as (k & t & _ & _ & E & _); [by left|]. by eexists _, t. Qed.
Example C57_opendoc_case : let s := flat_state flat_opened (replicate 10 Go) in
  no_failure s /\ 10 <= length (env (mach s)) /\ files (mach s) !! file_f = Some (BXml true flat_tree) /\ zip_unpack (Bytes := tree_bytes) (BXml true flat_tree) = None.
Proof. intros s. split; [apply go_no_failure|]. split; [cbn; lia|]. split; by_vm. Qed.

(** C57.  Without a backup the previous version can be lost; and with one the file can be
    missing, if the process is stopped. *)
Theorem C57_lost_counterexample :
  exists (s : st (B := tree_bytes)) D f body, docname D = Some f /\ flat_complete body (objects (mgr s) 0) /\
    (exists s' old, flat_save (U := ascii_unicode) (lit "now") (lit "G") (Doc (docname D) (mimetype D) (doctype D) false) s = (s', Stop) /\
       files (mach s) !! f = Some old /\ forall q, files (mach s') !! q <> Some old) /\
    (exists s', flat_save (U := ascii_unicode) (lit "now") (lit "G") (Doc (docname D) (mimetype D) (doctype D) true) s = (s', Stop) /\ files (mach s') !! f = None).
Proof.
  exists (flat_state flat_opened [Go]), (flat_doc true), file_f, "office:spreadsheet"%string. split; [done|]. split; [apply flat_opened_eq|]. split.
  - exists (flat_save (U := ascii_unicode) (lit "now") (lit "G") (flat_doc false) (flat_state flat_opened [Go])).1, (BXml true flat_tree). split; [|split; [by_vm|]].
    + apply pair_by; by_vm.
    + intros q H. apply elem_of_map_to_list in H.
      match type of H with _ ∈ ?l => assert (E : l = [(file_f, BText [])]) by by_vm end.
      rewrite E in H. apply elem_of_list_singleton in H. discriminate H.
  - exists (flat_save (U := ascii_unicode) (lit "now") (lit "G") (flat_doc true) (flat_state flat_opened [Go])).1. split; [|by_vm].
    apply pair_by; by_vm.
Qed.
Print Assumptions C57_lost_counterexample.
