(** Variables and user fields of a document: assigned by name, saved and read again. *)
From Verif Require T_Document T_Variables.
From Verif Require Import VarLifeProofs.

Section values.
Context `{U : Unicode} `{F : PyFloat} (odd : N -> string -> pystr -> node -> res (list N)).
Lemma field_value_eq S r f t vs nm w k : loaded S r -> plain_fields t r -> doc_fields f t r S = Ok vs -> field_decl f t r nm = Some k ->
  field_value odd vs nm w = get_value odd (Var (vk f) (nid k) (Some nm)) w.
Proof.
  intros HL Hp Hvs Hk. unfold field_value, vs_get. rewrite (fields_lookup S r f t vs HL Hp Hvs nm), Hk. done.
Qed.
Lemma contains_decl S r f t vs nm : loaded S r -> plain_fields t r -> doc_fields f t r S = Ok vs ->
  vs_contains vs (KStr nm) = bool_decide (is_Some (field_decl f t r nm)).
Proof.
  intros HL Hp Hvs. unfold vs_contains. rewrite (fields_lookup S r f t vs HL Hp Hvs nm). apply bool_decide_ext. by rewrite fmap_is_Some.
Qed.
(** declarations and instances of other names are spared *)
Lemma other_spared S r t ps f nm k y : loaded S r -> plain_fields t r -> field_decl f t r nm = Some k -> Forall plain_field ps -> 39%N ∉ nm ->
  Forall (fun a => a.1.2 <> nm) ps -> y = nid k \/ instance S (nid r) nm y -> spared t S r ps y.
Proof.
  intros HL Hp Hk Hq Hq' Hn Hy a Ha. rewrite Forall_forall in Hn, Hq. specialize (Hn a Ha). specialize (Hq a Ha).
  destruct (decl_declared S r f t nm k HL Hp Hk Hq') as (_ & _ & Dk & _). cbn [v_node] in Dk.
  split.
  - intros k' Hk' ->. destruct Hy as [E|Hy].
    + destruct (decl_sub S _ t r _ k' HL Hk') as (S1 & _). destruct (decl_sub S _ t r _ k HL Hk) as (S2 & _). rewrite E, S2 in S1. injection S1 as <-.
      destruct (decl_facts _ t r _ k Hk) as (_ & _ & _ & N1), (decl_facts _ t r _ k Hk') as (_ & _ & _ & N2). rewrite N1 in N2. injection N2 as ->. done.
    + destruct (decl_declared S r _ t _ k' HL Hp Hk' Hq) as (_ & _ & Dk' & _). by apply (instance_not_decl S (nid r) nm (nid k')).
  - intros _ Hi. destruct Hy as [->|Hy]; [by apply (instance_not_decl S (nid r) a.1.2 (nid k))|]. apply Hn. by apply (instance_name S (nid r) (nid r) _ _ y).
Qed.
End values.

(** In memory: a program of assignments by name leaves every element where it is and changes
    nothing but the declarations and instances of the names assigned; a name that is not assigned
    has the value it had, a name that is has the value assigned last. *)
Theorem C72_values `{U : Unicode} `{F : PyFloat} (odd : N -> string -> pystr -> node -> res (list N)) (t : string) (S r : node)
    (vs : family -> variables) (ps : list (family * pystr * pyval)) :
  loaded S r -> plain_fields t r -> (forall f, doc_fields f t r S = Ok (vs f)) -> Forall plain_field ps ->
  let S' := foldl (set_field odd vs) S ps in
  same_places S S' /\
  (forall y, (forall f nm u k, (f, nm, u) ∈ ps -> field_decl f t r nm = Some k -> y <> nid k /\ ~ instance S (nid r) nm y) -> data y S' = data y S) /\
  (forall f nm, vs_contains (vs f) (KStr nm) = true -> 39%N ∉ nm -> Forall (fun a => a.1.2 <> nm) ps ->
     field_value odd (vs f) nm S' = field_value odd (vs f) nm S) /\
  forall before f nm u after s, ps = before ++ (f, nm, u) :: after -> vs_contains (vs f) (KStr nm) = true -> Forall (fun a => a.1.2 <> nm) after -> shown u s ->
    (f = FUser -> ~ falsy u -> exists z, field_value odd (vs f) nm S' = Ok z /\ reads_as u z) /\
    (f = FVar -> (exists y, instance S (nid r) nm y) -> exists z, field_value odd (vs f) nm S' = Ok z /\ inst_reads_as u z).
Proof.
  intros HL Hp Hvs Hq S'. pose proof HL as [Hw _]. destruct (run_relab odd S r t vs ps HL Hp Hvs Hq) as (g & E & Hg & Hi). fold S' in E. split_and!.
  - rewrite E. by apply relab_same.
  - intros y Hy. rewrite E, relab_data. destruct (data y S) as [d|]; [|done]. cbn. f_equal. apply Hi. intros [[f nm] u] Ha. split.
    + intros k Hk. by apply (Hy f nm u k).
    + intros [k Hk]. by apply (Hy f nm u k).
  - intros f nm Hc Hnm Hn. rewrite (contains_decl S r f t (vs f) nm HL Hp (Hvs f)) in Hc. apply bool_decide_eq_true in Hc as [k Hk].
    rewrite !(field_value_eq odd S r f t (vs f) nm _ k HL Hp (Hvs f) Hk), E.
    destruct (decl_declared S r f t nm k HL Hp Hk Hnm) as (_ & D1 & D2 & D3 & _). cbn [v_node] in *.
    apply (get_value_frame odd (vk f) (nid k) (Some nm) nm (nid r) S g); try done; [by destruct f|].
    intros y d Hy. apply Hi. by apply (other_spared S r t ps f nm k y).
  - intros before f nm u after s -> Hc Hn Hs. rewrite (contains_decl S r f t (vs f) nm HL Hp (Hvs f)) in Hc. apply bool_decide_eq_true in Hc as [k Hk].
    rewrite !(field_value_eq odd S r f t (vs f) nm _ k HL Hp (Hvs f) Hk).
    apply Forall_app in Hq as [Hq1 [Hq2 Hq3]%Forall_cons]. unfold plain_field in Hq2. cbn [fst snd] in Hq2.
    pose proof (decl_declared S r f t nm k HL Hp Hk Hq2) as Hd.
    set (tr := fun a : family * pystr * pyval => match lookup_key (vs a.1.1) (KStr a.1.2) with Some v => [(v, a.2)] | None => [] end).
    assert (Htr : forall l, Forall plain_field l -> Forall (fun a : variable * pyval => v_kind a.1 <> Inst /\ exists r' nm', VariablesSpec.declared S a.1 r' nm') (flat_map tr l)).
    { intros l Hl. apply Forall_forall. intros [v u'] (a & Ha & Hv)%elem_of_flat_map. rewrite Forall_forall in Hl. specialize (Hl a Ha). unfold tr in Hv.
      rewrite (fields_lookup S r a.1.1 t (vs a.1.1) HL Hp (Hvs _)) in Hv. destruct (field_decl a.1.1 t r a.1.2) as [k'|] eqn:Ek'; [|by apply elem_of_nil in Hv].
      cbn in Hv. apply elem_of_list_singleton in Hv. injection Hv as -> ->. cbn [fst v_kind]. split; [by destruct a.1.1|]. exists (nid r), a.1.2. by apply (decl_declared S r _ t). }
    assert (Haft : Forall (fun a : variable * pyval => v_node a.1 <> nid k /\ v_name a.1 <> Some nm) (flat_map tr after)).
    { apply Forall_forall. intros [v u'] (a & Ha & Hv)%elem_of_flat_map. rewrite Forall_forall in Hn, Hq3. specialize (Hn a Ha). unfold tr in Hv.
      rewrite (fields_lookup S r a.1.1 t (vs a.1.1) HL Hp (Hvs _)) in Hv. destruct (field_decl a.1.1 t r a.1.2) as [k'|] eqn:Ek'; [|by apply elem_of_nil in Hv].
      cbn in Hv. apply elem_of_list_singleton in Hv. injection Hv as -> ->. cbn [fst v_node v_name]. split; [|congruence]. intros En.
      destruct (decl_sub S _ t r _ k' HL Ek') as (S1 & _). destruct (decl_sub S _ t r _ k HL Hk) as (S2 & _). rewrite En, S2 in S1. injection S1 as <-.
      destruct (decl_facts _ t r _ k Hk) as (_ & _ & _ & N1), (decl_facts _ t r _ k Ek') as (_ & _ & _ & N2). rewrite N1 in N2. injection N2 as ->. done. }
    destruct (T_Variables.C48_history odd S (flat_map tr before) (flat_map tr after) (Var (vk f) (nid k) (Some nm)) (nid r) nm u s) as (_ & H2 & H3);
      [by destruct f|done|done|by apply Forall_app; split; apply Htr|done|].
    assert (ES : S' = foldl (assign odd) S (flat_map tr before ++ (Var (vk f) (nid k) (Some nm), u) :: flat_map tr after)).
    { unfold S'. rewrite run_assign. f_equal. rewrite flat_map_app. f_equal. cbn [flat_map]. fold tr. unfold tr at 1. cbn [fst snd].
      rewrite (fields_lookup S r f t (vs f) HL Hp (Hvs f)), Hk. done. }
    rewrite <- ES in H2, H3. split; intros ->; [by apply H2|by apply H3].
Qed.
Print Assumptions C72_values.

Lemma complete_relab `{B : Bytes} t m h r : keeps h -> (forall d, h (nid r) d = d) -> objects m 2 = erase r -> complete t m -> complete t (set_object 2 (erase (relab h r)) m).
Proof.
  intros Hh Hroot Er (C0 & C1 & (C2 & C3 & b & y & Hb & Hy & Hdy) & C4 & C5). rewrite Er in *.
  assert (Hf : forall tg (k : node), findall tg (erase k) <> [] -> findall tg (erase (relab h k)) <> []).
  { intros tg k H1 H2. apply H1. pose proof (head_filter_erase tg k) as A. pose proof (head_filter_erase tg (relab h k)) as Q. rewrite H2 in Q. cbn in Q.
    rewrite head_relab in Q by done. destruct (head (filter (fun k => ltag k = tg) (kids k))); [done|]. cbn in A. by destruct (findall tg (erase k)). }
  assert (Hhd : forall tg (k : node) e, head (findall tg (erase k)) = Some e -> exists c, e = erase c /\ head (filter (fun k => ltag k = tg) (kids k)) = Some c /\ head (findall tg (erase (relab h k))) = Some (erase (relab h c))).
  { intros tg k e He. rewrite <- head_filter_erase in He. destruct (head (filter _ (kids k))) as [c|] eqn:Ec; [|done]. injection He as <-. exists c. split_and!; [done|done|].
    by rewrite <- head_filter_erase, head_relab, Ec. }
  destruct (Hhd _ _ _ Hb) as (b0 & -> & B1 & B2). destruct (Hhd _ _ _ Hy) as (y0 & -> & Y1 & Y2).
  assert (Ert : root (erase (relab h r)) = root (erase r)) by (by rewrite !erase_root, relab_pl, Hroot).
  split; [exact C0|]. split; [exact C1|]. split; [|split].
  - change (objects (set_object 2 (erase (relab h r)) m) 2) with (erase (relab h r)). split; [unfold e_tag in *; by rewrite Ert|]. split; [|exists (erase (relab h b0)), (erase (relab h y0)); split_and!; [done|done|]].
    + eapply Forall_impl; [exact C3|]. cbn. intros tg. apply Hf.
    + eapply Forall_impl; [exact Hdy|]. cbn. intros tg. apply Hf.
  - change (objects (set_object 2 (erase (relab h r)) m) 2) with (erase (relab h r)). intros e b' y' tg k [= <-] Hb' Hy' Htg Hk.
    rewrite B2 in Hb'. injection Hb' as <-. rewrite Y2 in Hy'. injection Hy' as <-.
    rewrite <- head_filter_erase, head_relab in Hk by done. destruct (head (filter (fun k => ltag k = tg) (kids y0))) as [c|] eqn:Ec; [|done]. cbn in Hk. injection Hk as <-.
    assert (Hc : head (findall tg (erase y0)) = Some (erase c)) by (by rewrite <- head_filter_erase, Ec).
    specialize (C4 (erase r) (erase b0) (erase y0) tg (erase c) eq_refl Hb Hy Htg Hc). rewrite erase_kids in *. rewrite relab_kids, map_map. rewrite Forall_map in C4 |- *.
    eapply Forall_impl; [exact C4|]. cbn. intros x. rewrite <- !ltag_erase. unfold ltag. rewrite relab_pl. destruct (Hh (nid x) (pl (root x))) as [-> _]. done.
  - change (objects (set_object 2 (erase (relab h r)) m) 2) with (erase (relab h r)). apply Forall_cons in C5 as [F1 C5]. apply Forall_cons in C5 as [F2 C5]. apply Forall_cons in C5 as [F3 C5]. apply Forall_cons in C5 as [F4 _].
    apply Forall_cons_2; [exact F1|]. apply Forall_cons_2; [exact F2|]. apply Forall_cons_2; [exact F3|]. apply Forall_cons_2; [|by apply Forall_nil_2]. unfold e_tail in *. by rewrite Ert.
Qed.

(** The document is saved after the assignments and opened again: it has the same variables and
    user fields, and each has the value it had when the document was saved (a variable that was
    set to the empty text has the value None). *)
Theorem C72_saved `{U : Unicode} `{F : PyFloat} `{B : Bytes} (odd : N -> string -> pystr -> node -> res (list N)) now gen c D f ext t
    (s s' s2 : FileManager.st) (S r : node) (vs : family -> variables) (ps : list (family * pystr * pyval)) :
  loaded S r -> objects (mgr s) 2 = erase r -> plain_fields t r -> (forall k, doc_fields k t r S = Ok (vs k)) -> Forall plain_field ps ->
  let S' := foldl (set_field odd vs) S ps in
  exists r', loaded S' r' /\ nid r' = nid r /\
  (docname D = Some f -> is_type (mimetype D) ext t -> document (mimetype D) (mgr s) -> complete t (mgr s) ->
   plain_name f -> (forall p, source (mgr s) = SFile p -> plain_name p) ->
   doc_save now gen D (FileManager.St (mach s) (set_object 2 (erase r') (mgr s))) = (s', Done (Ok tt)) ->
   files (mach s2) !! f = files (mach s') !! f -> no_failure s2 -> 10 <= length (env (mach s2)) ->
   exists s3, opendoc c (FromFile f) s2 = (s3, Done (Ok (Doc (Some f) (mimetype D) ext true))) /\
     document (mimetype D) (mgr s3) /\ complete t (mgr s3) /\ source (mgr s3) = SFile f /\
     objects (mgr s3) 2 = parsed (erase r') /\
     forall S2 r2, loaded S2 r2 -> objects (mgr s3) 2 = erase r2 -> plain_fields t r2 /\
       exists vs2 : family -> variables, (forall k, doc_fields k t r2 S2 = Ok (vs2 k)) /\
         forall k nm, vs_contains (vs2 k) (KStr nm) = vs_contains (vs k) (KStr nm) /\
           forall z odd2, vs_contains (vs k) (KStr nm) = true -> 39%N ∉ nm -> field_value odd (vs k) nm S' = Ok z -> field_value odd2 (vs2 k) nm S2 = Ok (after_saving k z)).
Proof.
  intros HL Er Hp Hvs Hq S'. pose proof HL as [Hw _]. destruct (run_relab odd S r t vs ps HL Hp Hvs Hq) as (g & E & Hg & Hi). fold S' in E.
  exists (relab g r). assert (HL' : loaded S' (relab g r)) by (rewrite E; by apply loaded_relab). split; [done|]. split; [apply relab_nid|].
  intros Hf HT Hd Hc Hpn Hps Es Hfile Hn Hk.
  assert (Hroot : forall d, g (nid r) d = d).
  { intros d. apply Hi. intros a Ha. split.
    - intros k Hka. destruct (decl_sub S _ t r _ k HL Hka) as (_ & _ & Hne). congruence.
    - intros _ (_ & Hne & _). done. }
  assert (Hc1 : complete t (set_object 2 (erase (relab g r)) (mgr s))) by (by apply complete_relab).
  set (s1 := FileManager.St (mach s) (set_object 2 (erase (relab g r)) (mgr s))) in *.
  destruct (T_Document.C52_save now gen c D f ext t s1 s' s2 Hf HT Hd Hc1 Hpn Hps Es Hfile Hn Hk) as (s3 & E3 & _ & _ & E2 & _ & Esrc).
  change (objects (mgr s1) 2) with (erase (relab g r)) in E2. exists s3. split; [done|].
  assert (Hop : document (mimetype D) (mgr s3) /\ complete t (mgr s3)).
  { destruct (T_Document.C52_opened c (FromFile f) ext [] None s2 s3 _ Hn (or_introl E3)) as (body & HT' & Hd' & Hc' & _). cbn [mimetype] in *.
    assert (body = t) as ->. { apply type_tables in HT as [_ HT], HT' as [_ HT']. rewrite HT in HT'. by injection HT'. } done. }
  destruct Hop as [Hd3 Hc3]. split; [done|]. split; [done|]. split; [done|]. split; [done|].
  intros S2 r2 HL2 Er2. rewrite E2 in Er2. symmetry in Er2.
  assert (Hp' : plain_fields t (relab g r)) by (by apply plain_relab).
  assert (Hp2 : plain_fields t r2) by (by apply (plain_again t (relab g r))).
  split; [done|].
  assert (Hdec : forall k nm, erase <$> field_decl k t r2 nm = parsed <$> (erase <$> (relab g <$> field_decl k t r nm))).
  { intros k nm. by rewrite decl_erase, Er2, e_decl_parsed, <- decl_erase, decl_relab. }
  assert (Hex : forall k, exists d2, decls_in k t r2 = Some d2).
  { intros k. assert (H : erase <$> decls_in k t r2 = parsed <$> (erase <$> (relab g <$> decls_in k t r))) by (by rewrite decls_erase, Er2, e_decls_parsed, <- decls_erase, decls_relab).
    specialize (Hvs k). unfold doc_fields in Hvs. destruct (decls_in k t r) as [d|]; [|done]. destruct (decls_in k t r2) as [d2|]; [by exists d2|done]. }
  destruct (Hex FVar) as [d1 Hd1]. destruct (Hex FUser) as [d2 Hd2].
  destruct (fields_open S2 r2 FVar t d1 HL2 Hp2 Hd1) as [v1 V1]. destruct (fields_open S2 r2 FUser t d2 HL2 Hp2 Hd2) as [v2 V2].
  exists (fun k => match k with FVar => v1 | FUser => v2 end).
  assert (Hv2 : forall k, doc_fields k t r2 S2 = Ok (match k with FVar => v1 | FUser => v2 end)) by (by intros []).
  split; [done|]. intros k nm. specialize (Hdec k nm). split.
  - rewrite (contains_decl S2 r2 k t _ nm HL2 Hp2 (Hv2 k)), (contains_decl S r k t _ nm HL Hp (Hvs k)). apply bool_decide_ext.
    destruct (field_decl k t r2 nm), (field_decl k t r nm); try done.
  - intros z odd2 Hin Hnm Hz. rewrite (contains_decl S r k t _ nm HL Hp (Hvs k)) in Hin. apply bool_decide_eq_true in Hin as [x Hx]. rewrite Hx in Hdec. cbn in Hdec.
    destruct (field_decl k t r2 nm) as [x2|] eqn:Hx2; [|done]. cbn in Hdec. injection Hdec as Hdec.
    rewrite (field_value_eq odd S r k t (vs k) nm _ x HL Hp (Hvs k) Hx) in Hz.
    rewrite (field_value_eq odd2 S2 r2 k t _ nm S2 x2 HL2 Hp2 (Hv2 k) Hx2).
    assert (Hx' : field_decl k t (relab g r) nm = Some (relab g x)) by (by rewrite decl_relab, Hx).
    rewrite <- (relab_nid g x) in Hz. rewrite (value_erased odd S' (relab g r) k t nm (relab g x) HL' Hp' Hx' Hnm) in Hz.
    rewrite (value_erased odd2 S2 r2 k t nm x2 HL2 Hp2 Hx2 Hnm), Er2, Hdec. by apply value_parsed.
Qed.
Print Assumptions C72_saved.

(** An opened document has its variables and its user fields, each kind with the names declared
    for it and no other. *)
Theorem C72_found `{U : Unicode} `{F : PyFloat} `{B : Bytes} t (g : manager) (S r : node) :
  complete t g -> loaded S r -> objects g 2 = erase r -> plain_fields t r ->
  exists vs : family -> variables, (forall k, doc_fields k t r S = Ok (vs k)) /\
    forall k nm, vs_contains (vs k) (KStr nm) = true <-> declared_as k t (erase r) nm.
Proof.
  intros (_ & _ & (_ & _ & b & y & Hb & Hy & Hdy) & _) HL Er Hp. rewrite Er in Hb.
  assert (Hex : forall k, exists d, decls_in k t r = Some d /\ head (findall (match k with FVar => "text:variable-decls" | FUser => "text:user-field-decls" end) y) = Some (erase d)).
  { intros k. pose proof (decls_erase k t r) as E. unfold e_decls in E. rewrite Hb in E. cbn [mbind option_bind] in E. rewrite Hy in E. cbn [mbind option_bind] in E.
    assert (Hh : is_Some (head (findall (match k with FVar => "text:variable-decls" | FUser => "text:user-field-decls" end) y))).
    { apply Forall_cons in Hdy as [H1 Hdy]. apply Forall_cons in Hdy as [H2 _]. destruct k; [destruct (findall _ y) eqn:E1 in H1|destruct (findall _ y) eqn:E1 in H2]; (done || (rewrite E1; by eexists)). }
    destruct Hh as [e He]. destruct k; cbn [container] in E; rewrite He in *; (destruct (decls_in _ t r) as [d|]; [|done]); injection E as <-; by exists d. }
  destruct (Hex FVar) as (d1 & Hd1 & _). destruct (Hex FUser) as (d2 & Hd2 & _).
  destruct (fields_open S r FVar t d1 HL Hp Hd1) as [v1 V1]. destruct (fields_open S r FUser t d2 HL Hp Hd2) as [v2 V2].
  exists (fun k => match k with FVar => v1 | FUser => v2 end).
  assert (Hv : forall k, doc_fields k t r S = Ok (match k with FVar => v1 | FUser => v2 end)) by (by intros []).
  split; [done|]. intros k nm. rewrite (contains_decl S r k t _ nm HL Hp (Hv k)), bool_decide_eq_true. destruct (Hex k) as (d & Hd & Hhd).
  rewrite <- (fmap_is_Some erase), decl_erase. unfold e_decl. rewrite <- decls_erase, Hd. cbn [fmap option_fmap option_map mbind option_bind]. split.
  - intros [x Hx]. exists b, y, (erase d), x. split_and!; try done; apply last_Some_elem_of in Hx; by apply elem_of_list_filter in Hx as [? ?].
  - intros (b' & y' & d' & x & H1 & H2 & H3 & H4 & H5). rewrite Hb in H1. injection H1 as <-. rewrite Hy in H2. injection H2 as <-. rewrite Hhd in H3. injection H3 as <-.
    apply last_is_Some. intros E. apply (not_elem_of_nil x). rewrite <- E. by apply elem_of_list_filter.
Qed.
Print Assumptions C72_found.

(** ** A case: the variable "a" is shown twice, "b" is a user field; both are assigned, the
    document is saved and opened. *)
Section case.
Local Existing Instance ascii_unicode.
Local Existing Instance tree_bytes.
Local Existing Instance int_float.
Definition el72 (t : string) (nm : option string) (ks : list elem) : elem :=
  T (Nd t (match nm with Some n => {["text:name"%string := lit n]} | None => ∅ end) None None) ks.
Definition content72 : elem :=
  el72 "office:document-content" None [el72 "office:body" None [el72 "office:text" None
    [el72 "text:variable-decls" None [el72 "text:variable-decl" (Some "c") []; el72 "text:variable-decl" (Some "a") []];
     el72 "text:user-field-decls" None [el72 "text:user-field-decl" (Some "b") []];
     el72 "text:p" None [el72 "text:variable-get" (Some "a") []; el72 "text:variable-set" (Some "a") []]]]].
Definition pkg72 : list (entry (bytes (Bytes := tree_bytes))) :=
  [Entry (B := tbytes) (lit "mimetype") true (Some (BText (full_type "text"))); Entry (lit "content.xml") false (Some (BXml true content72))].
Definition opened72 := opendoc T_Document.noon (FromFile T_Document.file_a) (T_Document.desk pkg72 (replicate 40 Go)).
Definition doc72 : doc := Doc (Some T_Document.file_a) (full_type "text") "odt" true.
Definition r72 : node := (label (objects (mgr opened72.1) 2) 1).1.
Definition mem72 : node := T (L 0 (Nd "" ∅ None None)) [r72].
Definition vs72 (f : family) : variables := match doc_fields f "office:text" r72 mem72 with Ok v => v | Err _ => Vars 0 ∅ end.
Definition ps72 : list (family * pystr * pyval) :=
  [(FVar, lit "a", VStr (lit "x")); (FUser, lit "b", VInt 7); (FVar, lit "none", VInt 1); (FVar, lit "a", VStr [])].
Definition done72 : node := foldl (set_field T_Variables.odd48 vs72) mem72 ps72.
Definition saved72 := doc_save (lit "2020") (lit "G") doc72 (FileManager.St (mach opened72.1) (set_object 2 (erase (default mem72 (head (kids done72)))) (mgr opened72.1))).
Lemma opened72_eq : opened72 = (opened72.1, Done (Ok doc72)).
Proof. apply pair_by. by_vm. Qed.
Example C72_case :
  loaded mem72 r72 /\ objects (mgr opened72.1) 2 = erase r72 /\ plain_fields "office:text" r72 /\ (forall f, doc_fields f "office:text" r72 mem72 = Ok (vs72 f)) /\ Forall plain_field ps72 /\
  docname doc72 = Some T_Document.file_a /\ is_type (mimetype doc72) "odt" "office:text" /\ document (mimetype doc72) (mgr opened72.1) /\ complete "office:text" (mgr opened72.1) /\
  (forall p, source (mgr opened72.1) = SFile p -> plain_name p) /\ saved72.2 = Done (Ok tt) /\
  map (fun f => vs_contains (vs72 f) (KStr (lit "a"))) [FVar; FUser] = [true; false] /\ vs_contains (vs72 FUser) (KStr (lit "b")) = true /\
  (exists y, instance mem72 (nid r72) (lit "a") y) /\
  field_value T_Variables.odd48 (vs72 FVar) (lit "a") done72 = Ok (VStr []) /\ after_saving FVar (VStr []) = VNone /\
  field_value T_Variables.odd48 (vs72 FUser) (lit "b") done72 = Ok (VFloat (7%Z : pfloat (PyFloat := int_float))).
Proof.
  assert (HL : loaded mem72 r72) by (split; [unfold wfs; dec_vm|left]).
  split; [exact HL|]. split; [by_vm|]. split.
  { assert (E1 : (fun d => map ltag (kids d)) <$> decls_in FVar "office:text" r72 = Some ["text:variable-decl"; "text:variable-decl"]%string) by by_vm.
    assert (E2 : (fun d => map ltag (kids d)) <$> decls_in FUser "office:text" r72 = Some ["text:user-field-decl"]%string) by by_vm.
    intros [] d Hd; rewrite Hd in *; [injection E1 as E|injection E2 as E]; apply (Forall_map ltag (fun x => x = _)); rewrite E; repeat apply Forall_cons_2; done || apply Forall_nil_2. }
  split. { intros []; by_vm. }
  split. { unfold ps72, plain_field. repeat apply Forall_cons_2; [dec_vm..|apply Forall_nil_2]. }
  split; [exact eq_refl|]. assert (HT : is_type (full_type "text") "odt" "office:text") by (exists "text"%string; split; [by left|done]).
  split; [exact HT|].
  destruct (T_Document.C52_opened T_Document.noon (FromFile T_Document.file_a) "odt" [] None (T_Document.desk pkg72 (replicate 40 Go)) opened72.1 doc72
    (T_Document.go_fine 40 pkg72) (or_introl opened72_eq)) as (body & HT1 & Hd & Hc & _).
  assert (body = "office:text"%string) as ->. { apply type_tables in HT1 as [_ HT1]. destruct (proj2 (type_tables _ _ _) HT) as [_ HT2]. change (mimetype doc72) with (full_type "text") in HT1. rewrite HT2 in HT1. by injection HT1. }
  split; [exact Hd|]. split; [exact Hc|].
  split. { assert (E : source (mgr opened72.1) = SFile T_Document.file_a) by by_vm. rewrite E. intros p [= <-]. exact T_Document.plain_a. }
  split; [by_vm|]. split; [by_vm|]. split; [by_vm|].
  split. { destruct (instances_spec T_Variables.odd48 Simple 5 (Some (lit "a")) (lit "a") (nid r72) mem72) as (l & E & Hl).
    - apply HL.
    - apply (loaded_ids mem72 r72); [exact HL|]. dec_vm.
    - apply loaded_top; [exact HL|]. dec_vm.
    - exact eq_refl.
    - dec_vm.
    - assert (E2 : (fun l => length l) <$> (match instances T_Variables.odd48 (Var Simple 5 (Some (lit "a"))) mem72 with Ok l => Some l | Err _ => None end) = Some 2) by by_vm.
      rewrite E in E2. destruct l as [|y l]; [by injection E2|]. exists y. apply Hl. left. }
  split; [by_vm|]. split; [by_vm|by_vm].
Qed.
End case.
