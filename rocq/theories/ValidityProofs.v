(** The validity check. *)
From Verif Require Import T_Document.
From Verif Require Export DocumentProofs ValiditySpec.

Section proofs.
Context `{Z : ZipLayout}.
Notation P := (prog st).

Definition verdict (f m : pystr) (fs : gmap pystr bytes) : res bool :=
  match fs !! f with
  | Some b => match zip_unpack b with
              | Some l => if at_30 b m then check_archive m l else Ok false
              | None => Ok false
              end
  | None => Ok false
  end.
Lemma expect_probe f s : no_failure s ->
  expect 1 s (pcatch (run b := sys_read f in pret (is_zip b)) (fun _ => pret false) s) (Ok (match files (mach s) !! f with Some b => is_zip b | None => false end)) (mgr s).
Proof.
  intros Hn. unfold pcatch, pbind. assert (H := expect_read f s Hn). unfold expect in *. destruct (sys_read f s) as [s1 [|r1]]; cbn in *; [done|].
  destruct H as (-> & H). by destruct (files (mach s) !! f) as [b|].
Qed.
Lemma expect_check f m s : no_failure s -> expect 3 s (check_validity f m s) (verdict f m (files (mach s))) (mgr s).
Proof.
  intros Hn. unfold check_validity. eapply (expect_bind 1 2); [by apply expect_probe|]. intros s1 M1 F1 N1. rewrite <- M1, <- F1. unfold verdict.
  destruct (files (mach s1) !! f) as [b|] eqn:Eb; cbn beta; [|cbn [negb]; by apply expect_ret].
  unfold is_zip. destruct (zip_unpack b) as [l|] eqn:Ez; cbn [negb]; [|by apply expect_ret].
  assert (H1 := expect_read f s1 N1). rewrite Eb in H1. eapply (expect_bind 1 1); [exact H1|]. intros s2 M2 F2 N2. rewrite <- M2. cbn beta.
  destruct (at_30 b m); cbn [negb]; [|by apply expect_ret].
  assert (H2 := expect_read f s2 N2). rewrite F2, Eb in H2. eapply (expect_bind 1 0); [exact H2|]. intros s3 M3 F3 N3. rewrite <- M3. cbn beta.
  unfold zip_open. rewrite Ez. eapply (expect_bind 0 0); [by apply expect_ret|]. intros s4 M4 F4 N4. cbn beta. rewrite <- M4. by apply expect_lift.
Qed.

Lemma last_app {A} (l : list A) k : last l = Some k <-> exists l', l = l' ++ [k].
Proof.
  split.
  - destruct l as [|x l _] using rev_ind; [done|]. rewrite last_snoc. intros [= ->]. by exists l.
  - intros [l' ->]. apply last_snoc.
Qed.
Lemma last_entry_eq p e : last_entry p e = last (file_entries p e).
Proof.
  unfold last_entry, file_entries, findall. rewrite list_filter_filter. f_equal. apply list_filter_iff. intros k. unfold ENTRY, PATH. tauto.
Qed.
Lemma check_manifest_true m b : check_manifest m b = Ok true <->
  exists e, b_parse b = Some e /\ Forall (fun p => file_entries p e <> []) (map lit ["content.xml"; "meta.xml"; "styles.xml"; "/"]%string) /\ media_says (lit "/") e m.
Proof.
  unfold check_manifest. destruct (b_parse b) as [e|]; [|split; [done|by intros (? & ? & _)]].
  change (map lit _) with [CONTENT_XML; META_XML; STYLES_XML; ROOT_PATH].
  assert (Hf : Forall (fun name => last_entry name e <> None) [CONTENT_XML; META_XML; STYLES_XML; ROOT_PATH] <-> Forall (fun p => file_entries p e <> []) [CONTENT_XML; META_XML; STYLES_XML; ROOT_PATH]).
  { apply Forall_proper; [|done]. intros p. cbn. by rewrite last_entry_eq, last_None. }
  assert (Hm : (last_entry ROOT_PATH e ≫= e_get MEDIA) = Some m <-> media_says (lit "/") e m).
  { rewrite last_entry_eq. unfold media_says. change (lit "/") with ROOT_PATH. rewrite bind_Some. split.
    - intros (k & [l Hl]%last_app & Hk). by exists l, k.
    - intros (l & k & Hl & Hk). exists k. split; [|done]. apply last_app. by exists l. }
  destruct (decide _) as [H|H].
  - split.
    + intros [= E%bool_decide_eq_true_1]. exists e. split; [done|]. split; [by apply Hf|by apply Hm].
    + intros (e' & [= <-] & _ & H2). do 2 f_equal. apply bool_decide_eq_true_2. by apply Hm.
  - split; [done|]. intros (e' & [= <-] & H1 & _). by apply Hf in H1.
Qed.
Lemma zip_read_names n l b : zip_read n l = Ok b -> n ∈ map en_name l.
Proof.
  unfold zip_read, zip_find. destruct (last _) as [e|] eqn:E; [|done]. intros _. apply last_app in E as [l' E].
  assert (He : e ∈ filter (fun e => en_name e = n) l) by (rewrite E; apply elem_of_app; right; by left).
  apply elem_of_list_filter in He as [<- He]. by apply (elem_of_list_fmap_1 en_name) in He.
Qed.
Lemma check_archive_true m l : check_archive m l = Ok true <->
  exists mb e, Forall (fun n => n ∈ map en_name l) (map lit ["META-INF/manifest.xml"; "content.xml"; "meta.xml"; "styles.xml"; "mimetype"]%string) /\
    zip_read (lit "META-INF/manifest.xml") l = Ok mb /\ b_parse mb = Some e /\
    Forall (fun p => file_entries p e <> []) (map lit ["content.xml"; "meta.xml"; "styles.xml"; "/"]%string) /\ media_says (lit "/") e m.
Proof.
  unfold check_archive. change (map lit ["META-INF/manifest.xml"; _; _; _; _]%string) with [MANIFEST_XML; CONTENT_XML; META_XML; STYLES_XML; MIMETYPE].
  change (lit "META-INF/manifest.xml") with MANIFEST_XML. destruct (decide (MANIFEST_XML ∈ _)) as [Hin|Hin].
  - destruct (zip_read MANIFEST_XML l) as [b|x] eqn:Eb; cbn [rbind]; [|split; [done|by intros (? & ? & _ & ? & _)]].
    destruct (decide _) as [Hall|Hall].
    + rewrite check_manifest_true. split.
      * intros (e & H). exists b, e. split; [by constructor|]. tauto.
      * intros (mb & e & _ & [= <-] & H). by exists e.
    + split; [done|]. intros (? & ? & [_ ?]%Forall_cons & _). done.
  - cbn [rbind]. split; [done|]. intros (? & ? & [? _]%Forall_cons & _). done.
Qed.
Lemma verdict_true f m fs : verdict f m fs = Ok true <-> exists b, fs !! f = Some b /\ valid_package m b.
Proof.
  unfold verdict. destruct (fs !! f) as [b|]; [|split; [done|by intros (? & ? & _)]].
  destruct (zip_unpack b) as [l|] eqn:Ez.
  - destruct (at_30 b m) eqn:E30.
    + rewrite check_archive_true. split.
      * intros (mb & e & H). exists b. split; [done|]. exists l, mb, e. tauto.
      * intros (b' & [= <-] & es & mb & e & E & _ & H). rewrite Ez in E. injection E as <-. by exists mb, e.
    + split; [done|]. intros (b' & [= <-] & es & mb & e & _ & E & _). congruence.
  - split; [done|]. intros (b' & [= <-] & es & mb & e & E & _). congruence.
Qed.
Lemma verdict_err f m fs x : verdict f m fs = Err x ->
  exists b es, fs !! f = Some b /\ zip_unpack b = Some es /\
   ((exists y, zip_read (lit "META-INF/manifest.xml") es = Err y /\ y <> KeyError /\ x = y) \/
    exists mb, zip_read (lit "META-INF/manifest.xml") es = Ok mb /\ b_parse mb = None /\ x = ValueError).
Proof.
  unfold verdict. destruct (fs !! f) as [b|]; [|done]. destruct (zip_unpack b) as [l|] eqn:Ez; [|done]. destruct (at_30 b m); [|done].
  intros E. exists b, l. split; [done|]. split; [done|]. change (lit "META-INF/manifest.xml") with MANIFEST_XML. unfold check_archive in E.
  destruct (decide (MANIFEST_XML ∈ _)) as [Hin|]; [|done].
  destruct (zip_read MANIFEST_XML l) as [mb|y] eqn:Eb; cbn [rbind] in E.
  - right. exists mb. split; [done|]. destruct (decide _); [|done]. unfold check_manifest in E. destruct (b_parse mb); [by destruct (decide _)|]. by injection E as <-.
  - left. injection E as <-. exists y. split; [done|]. split; [|done]. intros ->. unfold zip_read in Eb. destruct (zip_find MANIFEST_XML l) as [e|] eqn:Ef.
    + by destruct (en_data e).
    + unfold zip_find in Ef. apply last_None in Ef. apply elem_of_list_fmap in Hin as (e & He & Hin).
      assert (Hf : e ∈ filter (fun e => en_name e = MANIFEST_XML) l) by (apply elem_of_list_filter; by split). rewrite Ef in Hf. by apply elem_of_nil in Hf.
Qed.

(** ** Manifests *)
Lemma listed_tag p md l : Forall (fun k => e_tag k = ENTRY) l -> Forall (fun k => e_tag k = ENTRY) (listed p md l).
Proof. intros H. destruct l as [|[a ks] l]; cbn [listed]; [by repeat constructor|]. apply Forall_cons in H as [H1 H]. by constructor. Qed.
Lemma orderly_add p md e : orderly e -> orderly (manifest_add p md None e).
Proof.
  intros [H1 H2]. split.
  - intros q k Hq Hk. rewrite manifest_add_entries in Hk. destruct (decide _); [|by apply (H1 q)].
    assert (H := listed_tag p md (entries_of q e)). rewrite !Forall_forall in H. by apply H; [intros y Hy; apply (H1 q)|].
  - rewrite manifest_add_entries. destruct (decide _); [|done]. destruct (entries_of (lit "/") e) as [|? [|]]; cbn in *; lia.
Qed.
Lemma orderly_new : orderly (new_elem "manifest:manifest").
Proof. split; [intros p k _ Hk; by apply elem_of_nil in Hk|cbn; lia]. Qed.
Lemma orderly_opened m e0 e1 e2' e2 g : orderly (manifest g) -> orderly (manifest (opened_manager m e0 e1 e2' e2 g)).
Proof.
  intros H. change (manifest (opened_manager m e0 e1 e2' e2 g)) with
    (manifest_add CONTENT_XML XML_MEDIA None (manifest_add STYLES_XML XML_MEDIA None (manifest_add META_XML XML_MEDIA None (manifest_add MIMETYPE [] None (manifest_add ROOT_PATH m None (manifest g)))))).
  by repeat apply orderly_add.
Qed.
Lemma orderly_file_entries p e : orderly e -> p ∈ map lit ["content.xml"; "meta.xml"; "styles.xml"; "/"]%string -> file_entries p e = entries_of p e.
Proof.
  intros [H _] Hp. specialize (H p). unfold file_entries, entries_of in *. assert (Hk : forall k, k ∈ kids e -> e_get PATH k = Some p -> e_tag k = ENTRY).
  { intros k Hk Hg. apply H; [done|]. by apply elem_of_list_filter. }
  clear H. induction (kids e) as [|k l IH]; [done|]. rewrite !filter_cons. rewrite IH by (intros y Hy; apply Hk; by right).
  destruct (decide (e_get PATH k = Some p)) as [E|E].
  - rewrite decide_True; [done|]. split; [|done]. apply Hk; [by left|done].
  - rewrite decide_False; [done|]. by intros [_ ?].
Qed.
Lemma media_of_entries p e m : media_of p e = Some m -> exists k l, entries_of p e = k :: l /\ e_get MEDIA k = Some m.
Proof. unfold media_of. destruct (entries_of p e) as [|k l]; [done|]. cbn. intros H. by exists k, l. Qed.
Lemma orderly_says m e : orderly e -> media_of (lit "/") e = Some m -> forall m', media_says (lit "/") e m' <-> m' = m.
Proof.
  intros Ho Hm m'. unfold media_says. rewrite orderly_file_entries by (done || by vm_compute; set_solver).
  apply media_of_entries in Hm as (k & l & E & Hk). destruct Ho as [_ Ho]. rewrite E in *. destruct l as [|]; [|cbn in Ho; lia]. split.
  - intros (l & k' & E' & Hk'). destruct l as [|? []]; [|done|done]. injection E' as ->. unfold MEDIA in Hk. congruence.
  - intros ->. by exists [], k.
Qed.

(** ** Saved packages *)
Lemma orderly_parsed e : orderly e -> orderly (parsed e).
Proof.
  assert (He : forall p, entries_of p (parsed e) = map parsed (entries_of p e)).
  { intros p. unfold entries_of. rewrite parsed_kids. apply parsed_filter. intros k. by rewrite parsed_get. }
  intros [H1 H2]. split; [|by rewrite He, map_length].
  intros p k Hp. rewrite He. intros (k0 & -> & Hk)%elem_of_list_fmap. rewrite parsed_tag. by apply (H1 p).
Qed.
Lemma package_verdict m g src rest es f fs : document m g -> lists m g -> orderly (manifest g) -> e_tail (manifest g) = None ->
  package g src rest es -> fs !! f = Some (zip_pack es) -> forall m', verdict f m' fs = Ok (bool_decide (m' = m)).
Proof.
  intros Hd Hl Ho Ht Hp Hf m'. destruct (document_bytes m g Hd) as (P1 & P2 & P3 & P4 & P5).
  assert (Q1 := package_part _ _ _ _ _ _ Hp P1). assert (Q2 := package_part _ _ _ _ _ _ Hp P2). assert (Q3 := package_part _ _ _ _ _ _ Hp P3).
  assert (Q4 := package_part _ _ _ _ _ _ Hp P4). assert (Q5 := package_part _ _ _ _ _ _ Hp P5).
  assert (Hes : exists es', es = Entry MIMETYPE true (Some (b_enc m)) :: es').
  { destruct Hp as ((b & Hb & Hh) & _). rewrite P1 in Hb. injection Hb as <-. destruct es as [|e es']; [done|]. injection Hh as ->. by exists es'. }
  assert (Hv : at_30 (zip_pack es) m' = true -> check_archive m' es = Ok (bool_decide (m' = m))).
  { intros _. unfold check_archive. rewrite decide_True by (by eapply zip_read_names). rewrite Q2. cbn [rbind].
    rewrite decide_True by (repeat (apply Forall_cons_2; [by eapply zip_read_names|]); by apply Forall_nil_2).
    unfold check_manifest. rewrite b_parse_xml by done. apply orderly_parsed in Ho. unfold lists in Hl.
    apply Forall_cons in Hl as [L1 Hl]. apply Forall_cons in Hl as [L2 Hl]. apply Forall_cons in Hl as [L3 Hl]. apply Forall_cons in Hl as [L4 Hl]. apply Forall_cons in Hl as [L5 _]. cbn [fst snd] in *. rewrite <- parsed_media in L1, L3, L4, L5.
    assert (HN : forall p md, p ∈ map lit ["content.xml"; "meta.xml"; "styles.xml"; "/"]%string -> media_of p (parsed (manifest g)) = Some md -> last_entry p (parsed (manifest g)) <> None).
    { intros p md Hp' H. rewrite last_entry_eq, orderly_file_entries by done. apply media_of_entries in H as (k & l & -> & _). by rewrite last_None. }
    rewrite decide_True.
    2: { apply Forall_cons_2; [eapply HN; [by left|exact L5]|]. apply Forall_cons_2; [eapply HN; [by right; left|exact L3]|].
         apply Forall_cons_2; [eapply HN; [by right; right; left|exact L4]|]. apply Forall_cons_2; [eapply HN; [by right; right; right; left|exact L1]|by apply Forall_nil_2]. }
    f_equal. apply bool_decide_ext. rewrite <- (orderly_says m (parsed (manifest g)) Ho L1 m'). rewrite last_entry_eq. unfold media_says. rewrite bind_Some. split.
    - intros (k & [l E]%last_app & Hk). by exists l, k.
    - intros (l & k & E & Hk). exists k. split; [|done]. apply last_app. by exists l. }
  unfold verdict. rewrite Hf, zip_unpack_pack. destruct (at_30 (zip_pack es) m') eqn:E30; [by apply Hv|].
  rewrite bool_decide_eq_false_2; [done|]. intros ->. destruct Hes as [es' ->]. by rewrite at_30_pack in E30.
Qed.
End proofs.
