(** C33, C52, C53: opening, making, saving and reopening documents. *)
From Verif Require Import DocumentProofs SolidProofs T_Files.

(** What an expected outcome means. *)
Lemma expect_done `{B : Bytes} {A} k (s : st) (p : st * out A) r g : expect k s p r g -> k <= length (env (mach s)) ->
  exists s', p = (s', Done r) /\ mgr s' = g /\ files (mach s') = files (mach s) /\ no_failure s'.
Proof. unfold expect. destruct p as [s' [|r']]; cbn; [lia|]. intros (-> & H1 & H2 & H3 & H4 & H5 & H6) _. by exists s'. Qed.
Lemma expect_result `{B : Bytes} {A} k (s s' : st) r' (r : res A) g : expect k s (s', Done r') r g -> r' = r /\ mgr s' = g /\ files (mach s') = files (mach s).
Proof. unfold expect. cbn. by intros (-> & H1 & H2 & H3 & H4 & H5 & H6). Qed.
Lemma cost_le `{B : Bytes} o n : (forall p, o = SFile p -> 10 <= n) -> 10 * cost o <= n.
Proof. destruct o as [|p|b]; cbn; [lia| |lia]. intros H. specialize (H p eq_refl). lia. Qed.

(** ** C33 *)
(** C33.  A document that opens has the type its package declares, which is one of the ten
    supported ones, and its trees are those of the package. *)
Theorem C33_detect `{B : Bytes} c d (s s' : st) D : no_failure s -> opendoc c d s = (s', Done (Ok D)) ->
  let fs := files (mach s) in let o := origin_of d in
  exists body x0 x1 x2 em,
    declared fs o (Some (mimetype D)) /\ is_type (mimetype D) (doctype D) body /\
    docname D = match d with FromFile p => Some p | FromBytes _ => None end /\ backup D = true /\
    manifest_part fs o = Ok em /\ tree_part (lit "meta.xml") fs o = Ok x0 /\ tree_part (lit "styles.xml") fs o = Ok x1 /\ tree_part (lit "content.xml") fs o = Ok x2 /\
    has_root "office:document-meta" x0 /\ has_root "office:document-styles" x1 /\ has_root "office:document-content" x2 /\ good_decls body x2 /\
    open_meta (created c) (touched c) (generator c) x0 = Ok (objects (mgr s') 0) /\
    objects (mgr s') 1 = styles_from x1 /\ objects (mgr s') 2 = content_from body x2 /\
    source (mgr s') = o /\ files (mach s') = fs /\
    document (mimetype D) (mgr s') /\ complete body (mgr s') /\ lists (mimetype D) (mgr s').
Proof.
  intros Hn E fs o. assert (H := expect_opendoc c d s Hn). rewrite E in H. apply expect_result in H as (Er & Eg & Ef).
  fold o fs in Er, Eg. destruct (q_opendoc c o fs (mgr s)) as [g r] eqn:Eq. cbn [fst snd] in Er, Eg. subst r g.
  apply q_opendoc_ok in Eq as (em & m & ext & t & x1 & x2 & e0 & H1 & H2 & H3 & -> & Eg). pose proof H3 as (HT & (x0 & A0 & B0) & A1 & A2 & R1 & R2 & Hg).
  exists t, x0, x1, x2, em. cbn [mimetype doctype docname backup]. rewrite Eg. split_and!; try done.
  - unfold o. by destruct d.
  - intros e ->. destruct (decide (e_tag e = "office:document-meta"%string)) as [|Hne]; [done|]. by rewrite open_wrong in B0.
  - apply opened_document; apply fresh_tidy.
  - eapply opened_complete; [exact H3|]. by eapply manifest_part_tail.
  - apply opened_lists.
Qed.
Print Assumptions C33_detect.

(** C33.  A package with a supported type, a manifest and readable parts opens, missing
    parts or children of them are made. *)
Theorem C33_opens `{B : Bytes} c d (s : st) m ext body em x0 x1 x2 :
  let fs := files (mach s) in let o := origin_of d in
  no_failure s -> (forall p, d = FromFile p -> 10 <= length (env (mach s))) ->
  declared fs o (Some m) -> is_type m ext body -> manifest_part fs o = Ok em ->
  tree_part (lit "meta.xml") fs o = Ok x0 -> tree_part (lit "styles.xml") fs o = Ok x1 -> tree_part (lit "content.xml") fs o = Ok x2 ->
  has_root "office:document-meta" x0 -> has_root "office:document-styles" x1 -> has_root "office:document-content" x2 -> good_decls body x2 ->
  exists s', opendoc c d s = (s', Done (Ok (Doc (match d with FromFile p => Some p | FromBytes _ => None end) m ext true))) /\
    open_meta (created c) (touched c) (generator c) x0 = Ok (objects (mgr s') 0) /\
    objects (mgr s') 1 = styles_from x1 /\ objects (mgr s') 2 = content_from body x2.
Proof.
  intros fs o Hn Hk Hd HT Hm A0 A1 A2 R0 R1 R2 Hg.
  assert (B0 := meta_opens (created c) (touched c) (generator c) x0 R0).
  destruct B0 as [e0 B0].
  assert (Hq := proj2 (q_opendoc_ok c o fs (mgr s) _ _) (ex_intro _ em (ex_intro _ m (ex_intro _ ext (ex_intro _ body (ex_intro _ x1 (ex_intro _ x2 (ex_intro _ e0
     (conj Hm (conj Hd (conj (conj HT (conj (ex_intro _ x0 (conj A0 B0)) (conj A1 (conj A2 (conj R1 (conj R2 Hg)))))) (conj eq_refl eq_refl)))))))))))).
  assert (H := expect_opendoc c d s Hn). fold o fs in H. rewrite Hq in H. cbn [fst snd] in H. apply expect_done in H as (s' & -> & Eg & _).
  - exists s'. rewrite Eg. split; [|done]. unfold o. by destruct d.
  - apply cost_le. intros p Ep. apply (Hk p). unfold o in Ep. destruct d; [done|]. by injection Ep as ->.
Qed.
Print Assumptions C33_opens.

(** C33.  Nothing else opens: if the declared type is not supported there is an exception,
    KeyError if there is nothing wrong with the parts. *)
Theorem C33_unsupported `{B : Bytes} c d (s : st) m :
  let fs := files (mach s) in let o := origin_of d in
  no_failure s -> (forall p, d = FromFile p -> 10 <= length (env (mach s))) ->
  declared fs o (Some m) -> (~ exists ext body, is_type m ext body) ->
  exists s' x, opendoc c d s = (s', Done (Err x)) /\ files (mach s') = fs /\
    (forall em x0 x1 x2, manifest_part fs o = Ok em ->
       tree_part (lit "meta.xml") fs o = Ok x0 -> tree_part (lit "styles.xml") fs o = Ok x1 -> tree_part (lit "content.xml") fs o = Ok x2 ->
       has_root "office:document-meta" x0 -> has_root "office:document-styles" x1 -> has_root "office:document-content" x2 -> x = KeyError).
Proof.
  intros fs o Hn Hk Hd HT. assert (H := expect_opendoc c d s Hn). fold o fs in H. destruct (q_opendoc c o fs (mgr s)) as [g r] eqn:Eq. cbn [fst snd] in H.
  apply expect_done in H as (s' & E & Eg & Ef & _); [|apply cost_le; intros p Ep; apply (Hk p); unfold o in Ep; destruct d; [done|]; by injection Ep as ->].
  assert (Hdet : forall em m', manifest_part fs o = Ok em -> declared fs o (Some m') -> m' = m).
  { intros em m' Hm Hd'. assert (H1 := proj2 (detect_eq _ _ _ (objects (mgr s)) _ Hm) Hd). assert (H2 := proj2 (detect_eq _ _ _ (objects (mgr s)) _ Hm) Hd'). congruence. }
  destruct r as [D|x].
  - exfalso. apply q_opendoc_ok in Eq as (em & m' & ext & t & x1 & x2 & e0 & H1 & H2 & (HT' & _) & _). apply HT. rewrite <- (Hdet _ _ H1 H2). by exists ext, t.
  - exists s', x. split; [done|]. split; [done|]. intros em x0 x1 x2 Hm A0 A1 A2 R0 R1 R2. unfold q_opendoc, abind in Eq. unfold q_manager in Eq. rewrite Hm in Eq. fold (fresh o em (objects (mgr s))) in Eq.
    apply (proj2 (detect_eq _ _ _ (objects (mgr s)) _ Hm)) in Hd. assert (Hst := q_detect_state fs (fresh o em (objects (mgr s)))). destruct (q_detect fs (fresh o em (objects (mgr s)))) as [g1 r1] eqn:Ed. cbn [fst snd] in Hd, Hst. subst r1 g1.
    assert (Hq := q_packaged_unsupported c m fs (fresh o em (objects (mgr s))) x0 x1 x2 HT (conj A0 (conj A1 (conj A2 (conj R0 (conj R1 R2)))))). rewrite Eq in Hq. cbn [snd] in Hq. by injection Hq as ->.
Qed.
Print Assumptions C33_unsupported.

(** C33.  Without mimetype part and without an entry for the package in the manifest
    nothing opens: the extension of the file name is never used. *)
Theorem C33_extension_counterexample `{B : Bytes} c d (s : st) em :
  let fs := files (mach s) in let o := origin_of d in
  no_failure s -> (forall p, d = FromFile p -> 10 <= length (env (mach s))) ->
  part (lit "mimetype") fs o = Ok None -> manifest_part fs o = Ok em -> entries_of (lit "/") em = [] ->
  exists s', opendoc c d s = (s', Done (Err (match d with FromFile _ => KeyError | FromBytes _ => TypeError end))).
Proof.
  intros fs o Hn Hk Hp Hm He. assert (H := expect_opendoc c d s Hn). fold o fs in H.
  apply expect_done in H as (s' & E & _); [|apply cost_le; intros p Ep; apply (Hk p); unfold o in Ep; destruct d; [done|]; by injection Ep as ->].
  exists s'. rewrite E. do 2 f_equal. unfold q_opendoc, abind, q_manager. rewrite Hm. unfold q_detect, text_part. cbn [source register with_manifest with_directory]. change MIMETYPE with (lit "mimetype"). rewrite Hp. cbn [rbind].
  match goal with |- context [manifest_find ROOT_PATH (manifest ?g)] => change (manifest g) with em end.
  assert (Hf := manifest_find_media ROOT_PATH em). destruct (manifest_find ROOT_PATH em) as [[i k]|] eqn:Ef.
  - exfalso. unfold manifest_find in Ef. apply list_find_Some in Ef as (Ei & Ek & _). apply elem_of_list_lookup_2 in Ei. unfold entries_of in He.
    assert (Hin : k ∈ filter (fun k => e_get PATH k = Some (lit "/")) (kids em)) by (apply elem_of_list_filter; by split). rewrite He in Hin. by apply elem_of_nil in Hin.
  - unfold o. destruct d as [b|p]; cbn [origin_of zipname]; [done|]. by rewrite extension_never.
Qed.
Print Assumptions C33_extension_counterexample.

(** C33.  newdoc(ext) makes a document of the type with this extension, for the ten supported
    ones and no others. *)
Theorem C33_newdoc `{B : Bytes} c ext name (s : st) : no_failure s ->
  (forall suffix body, (ext, suffix, body) ∈ supported ->
     exists s', newdoc c ext name None s = (s', Done (Ok (Doc (Some name) (full_type suffix) ext true))) /\
       objects (mgr s') 1 = styles_from None /\ objects (mgr s') 2 = content_from body None /\
       open_meta (created c) (touched c) (generator c) None = Ok (objects (mgr s') 0) /\
       source (mgr s') = NoSource /\ files (mach s') = files (mach s) /\
       document (full_type suffix) (mgr s') /\ complete body (mgr s') /\ lists (full_type suffix) (mgr s')) /\
  (ext ∉ map (fun q => q.1.1) supported -> exists s', newdoc c ext name None s = (s', Done (Err KeyError)) /\ files (mach s') = files (mach s)).
Proof.
  intros Hn. assert (Hx : forall m, mimetype_of ext = Some m -> expect 0 s (newdoc c ext name None s) (q_new c m name (files (mach s)) (mgr s)).2 (q_new c m name (files (mach s)) (mgr s)).1).
  { intros m Hm. unfold newdoc. rewrite Hm. by apply (mirrors_new c m name s Hn). }
  split.
  - intros suffix body Hin. assert (HT : is_type (full_type suffix) ext body) by (by exists suffix).
    assert (Hm : mimetype_of ext = Some (full_type suffix)).
    { clear -Hin. revert Hin. assert (H : Forall (fun q => mimetype_of q.1.1 = Some (full_type q.1.2)) supported).
      { repeat (apply Forall_cons_2; [vm_compute; reflexivity|]). apply Forall_nil_2. }
      rewrite Forall_forall in H. intros Hin. by apply (H _ Hin). }
    destruct (meta_opens (created c) (touched c) (generator c) None) as [e0 B0]; [done|].
    assert (Hu : usable c (full_type suffix) (files (mach s)) NoSource ext body None None e0). { split_and!; try done. by exists None. }
    assert (Hq := proj2 (q_new_ok c (full_type suffix) name (files (mach s)) (mgr s) _ _) (ex_intro _ ext (ex_intro _ body (ex_intro _ None (ex_intro _ None (ex_intro _ e0 (conj Hu (conj eq_refl eq_refl)))))))).
    specialize (Hx _ Hm). rewrite Hq in Hx. cbn [fst snd] in Hx. apply expect_done in Hx as (s' & -> & Eg & Ef & _); [|lia]. exists s'. rewrite Eg. split_and!; try done.
    + apply opened_document; apply fresh_tidy.
    + eapply opened_complete; [exact Hu|done].
    + apply opened_lists.
  - intros Hout. destruct (mimetype_of ext) as [m|] eqn:Hm; [|exists s; unfold newdoc; by rewrite Hm].
    specialize (Hx m eq_refl). assert (HT : ~ exists e t, is_type m e t).
    { intros (e & t & HT). apply Hout. clear -Hm HT. unfold mimetype_of in Hm. destruct (alookup ext MIMETYPES) as [y|] eqn:Ea; [|done]. injection Hm as <-.
      assert (El : (ext, y) ∈ MIMETYPES). { revert Ea. generalize MIMETYPES as l. induction l as [|[k v] l IH]; [done|]. cbn [alookup]. case_decide as Hd; [intros [= ->]; subst k; by left|]. right. by apply IH. }
      assert (H : Forall (fun q => (exists e t, is_type (lit q.2) e t) -> q.1 ∈ map (fun q => q.1.1) supported) MIMETYPES).
      { repeat (apply Forall_cons_2; [intros (e' & t' & HT'); first [exfalso; apply type_tables in HT' as [_ HT']; vm_compute in HT'; discriminate HT'|dec_vm]|]). apply Forall_nil_2. }
      rewrite Forall_forall in H. apply (H _ El). by exists e, t. }
    assert (Hq := q_packaged_unsupported c m (files (mach s)) (fresh NoSource (new_elem "manifest:manifest") (objects (mgr s))) None None None HT ltac:(split_and!; done)).
    unfold q_new, abind in Hx. cbn [q_manager manifest_part part rbind] in Hx. fold (fresh NoSource (new_elem "manifest:manifest") (objects (mgr s))) in Hx.
    destruct (q_packaged _ _ _ _) as [g r]. cbn [snd] in Hq. subst r. cbn [fst snd] in Hx. apply expect_done in Hx as (s' & -> & _ & Ef & _); [|lia]. by exists s'.
Qed.
Print Assumptions C33_newdoc.

(** C33.  newdoc with a template: the type is the one in the mimetype part without the ending
    "-template", the trees are those of the template. *)
Theorem C33_template `{B : Bytes} c ext d name (s s' : st) D : no_failure s -> newdoc c ext name (Some d) s = (s', Done (Ok D)) ->
  let fs := files (mach s) in let o := origin_of d in
  exists b mt body x0 x1 x2 em,
    part (lit "mimetype") fs o = Ok (Some b) /\ b_dec b = Some mt /\
    (mt = mimetype D ++ lit "-template" \/ mt = mimetype D /\ ~ exists a, mt = a ++ lit "-template") /\ is_type (mimetype D) (doctype D) body /\
    docname D = Some name /\ backup D = true /\
    manifest_part fs o = Ok em /\ tree_part (lit "meta.xml") fs o = Ok x0 /\ tree_part (lit "styles.xml") fs o = Ok x1 /\ tree_part (lit "content.xml") fs o = Ok x2 /\
    open_meta (created c) (touched c) (generator c) x0 = Ok (objects (mgr s') 0) /\
    objects (mgr s') 1 = styles_from x1 /\ objects (mgr s') 2 = content_from body x2 /\
    source (mgr s') = o /\ files (mach s') = fs /\
    document (mimetype D) (mgr s') /\ complete body (mgr s') /\ lists (mimetype D) (mgr s').
Proof.
  intros Hn E fs o. assert (H := expect_template c name d s Hn). cbn [newdoc] in E. cbn zeta in H. rewrite E in H. apply expect_result in H as (Er & Eg & Ef).
  fold fs in Er, Eg. fold o in Er, Eg. destruct (match d with FromBytes _ => true | FromFile p => _ end) in Er, Eg; [|done].
  destruct (q_template c name o fs (mgr s)) as [g r] eqn:Eq. cbn [fst snd] in Er, Eg. subst r g.
  apply q_template_ok in Eq as (em & mt & ext' & t & x1 & x2 & e0 & H1 & H2 & H3 & -> & Eg). pose proof H3 as (HT & (x0 & A0 & B0) & A1 & A2 & R1 & R2 & Hg).
  unfold text_part in H2. change MIMETYPE with (lit "mimetype") in H2. destruct (part (lit "mimetype") fs o) as [[b|]|] eqn:Eb; [|done|done]. cbn [rbind] in H2. destruct (b_dec b) as [mt'|] eqn:Ed; [|done]. injection H2 as ->.
  exists b, mt, t, x0, x1, x2, em. cbn [mimetype doctype docname backup]. rewrite Eg. split_and!; try done.
  - destruct (strip_template_spec mt) as [(a & -> & ->)|[Ha ->]]; [by left|by right].
  - apply opened_document; apply fresh_tidy.
  - eapply opened_complete; [exact H3|]. by eapply manifest_part_tail.
  - apply opened_lists.
Qed.
Print Assumptions C33_template.
(** C33.  With a readable template it succeeds for the supported types, and for the others
    there is InvalidFiletypeError. *)
Theorem C33_template_outcome `{B : Bytes} c ext0 d name (s : st) b mt m em x0 x1 x2 :
  let fs := files (mach s) in let o := origin_of d in
  no_failure s -> (forall p, d = FromFile p -> 11 <= length (env (mach s))) ->
  part (lit "mimetype") fs o = Ok (Some b) -> b_dec b = Some mt -> (mt = m ++ lit "-template" \/ mt = m /\ ~ exists a, mt = a ++ lit "-template") ->
  manifest_part fs o = Ok em ->
  tree_part (lit "meta.xml") fs o = Ok x0 -> tree_part (lit "styles.xml") fs o = Ok x1 -> tree_part (lit "content.xml") fs o = Ok x2 ->
  has_root "office:document-meta" x0 -> has_root "office:document-styles" x1 -> has_root "office:document-content" x2 ->
  (forall ext body, is_type m ext body -> good_decls body x2 -> exists s', newdoc c ext0 name (Some d) s = (s', Done (Ok (Doc (Some name) m ext true)))) /\
  ((~ exists ext body, is_type m ext body) -> exists s', newdoc c ext0 name (Some d) s = (s', Done (Err InvalidFiletypeError))).
Proof.
  intros fs o Hn Hk Hp Hb Hm Hem A0 A1 A2 R0 R1 R2. assert (H := expect_template c name d s Hn). cbn zeta in H. fold fs in H. fold o in H.
  assert (Hz : match d with FromBytes _ => true | FromFile p => match fs !! p with Some b => is_zip b | None => false end end = true).
  { destruct d as [|p]; [done|]. unfold o in Hp. cbn [origin_of part] in Hp. destruct (fs !! p) as [b'|]; [|done]. unfold is_zip. by destruct (zip_unpack b'). }
  rewrite Hz in H. assert (Hs : strip_template mt = m).
  { destruct (strip_template_spec mt) as [(a & Ea & ->)|[Ha ->]].
    - destruct Hm as [Hm|[_ Hm]]; [|exfalso; apply Hm; by exists a]. rewrite Hm in Ea. by apply (inj (fun x => x ++ lit "-template")) in Ea.
    - destruct Hm as [Hm|[Hm _]]; [|done]. exfalso. apply Ha. by exists m. }
  assert (Ht : text_part MIMETYPE fs o = Ok (Some mt)). { unfold text_part. change MIMETYPE with (lit "mimetype"). rewrite Hp. cbn [rbind]. by rewrite Hb. }
  assert (Hl : 11 * cost o <= length (env (mach s))). { unfold o. destruct d as [|p]; cbn [origin_of cost]; [lia|]. specialize (Hk p eq_refl). lia. }
  destruct (q_template c name o fs (mgr s)) as [g r] eqn:Eq. cbn [fst snd] in H. apply expect_done in H as (s' & E & Eg & Ef & _); [|done]. split.
  - intros ext body HT Hg. exists s'. cbn [newdoc]. rewrite E. do 2 f_equal. destruct (meta_opens (created c) (touched c) (generator c) x0 R0) as [e0 B0].
    assert (Hu : usable c m fs o ext body x1 x2 e0). { split_and!; try done. by exists x0. }
    assert (Hq : exists g', q_template c name o fs (mgr s) = (g', Ok (Doc (Some name) m ext true))).
    { eexists. apply q_template_ok. exists em, mt, ext, body, x1, x2, e0. cbn zeta. rewrite Hs. split; [done|]. split; [done|]. split; [done|]. split; [done|]. reflexivity. }
    destruct Hq as [g' Hq]. rewrite Eq in Hq. by injection Hq as _ ->.
  - intros HT. exists s'. cbn [newdoc]. rewrite E. do 2 f_equal. rewrite <- Hs in HT.
    assert (Hq := q_template_unsupported c name o fs (mgr s) mt em x0 x1 x2 Hem Ht HT (conj A0 (conj A1 (conj A2 (conj R0 (conj R1 R2)))))). rewrite Eq in Hq. done.
Qed.
Print Assumptions C33_template_outcome.

(** ** A spreadsheet in a file, and one whose picture cannot be read *)
Definition sheet_tree : elem :=
  T (Nd "office:document-content" ∅ None None)
    [T (Nd "office:body" ∅ None None) [T (Nd "office:spreadsheet" ∅ None None) [T (Nd "table:table" {["table:name" := lit "A"]} None None) []]]].
Definition sheet_pkg : list (entry (bytes (Bytes := tree_bytes))) :=
  [Entry (B := tbytes) (lit "mimetype") true (Some (BText (full_type "spreadsheet"))); Entry (lit "content.xml") false (Some (BXml true sheet_tree))].
Definition broken_pkg : list (entry (bytes (Bytes := tree_bytes))) := sheet_pkg ++ [Entry (B := tbytes) (lit "Pictures/1.png") true None].
Definition file_a : pystr := lit "/d/a.ods".
Definition file_b : pystr := lit "/d/b.ods".
Definition noon : clock := Clock (lit "2020-01-01T12:00:00") (lit "2020-01-01T12:00:01") (lit "G").
Definition idle : manager (B := tree_bytes) := Manager (B := tree_bytes) [] NoSource (new_elem "manifest:manifest") (fun _ => new_elem "x").
Definition desk (pkg : list (entry tbytes)) (ev : list (event (B := tree_bytes))) : st (B := tree_bytes) :=
  St (B := tree_bytes) (Machine tree_bytes {[file_a := BZip pkg]} ev [lit "Ab3"]) idle.
Lemma go_fine (n : nat) pkg : no_failure (desk pkg (replicate n Go)).
Proof. apply go_no_failure. Qed.

(** The hypotheses of C33_opens hold for it. *)
Example C33_case : let s := desk sheet_pkg (replicate 10 Go) in
  declared (files (mach s)) (SFile file_a) (Some (full_type "spreadsheet")) /\ is_type (full_type "spreadsheet") "ods" "office:spreadsheet" /\
  tree_part (lit "content.xml") (files (mach s)) (SFile file_a) = Ok (Some sheet_tree) /\ good_decls "office:spreadsheet" (Some sheet_tree) /\
  (opendoc noon (FromFile file_a) s).2 = Done (Ok (Doc (Some file_a) (full_type "spreadsheet") "ods" true)).
Proof.
  intros s. split; [unfold declared|split_and!].
  - assert (E : part (B := tree_bytes) (lit "mimetype") (files (mach s)) (SFile file_a) = Ok (Some (BText (full_type "spreadsheet")))) by by_vm. rewrite E. by_vm.
  - exists "spreadsheet"%string. split; [|done]. unfold supported. do 6 right. by left.
  - by_vm.
  - intros e b y t k [= <-] Hb Hy Ht Hk. unfold sheet_tree in Hb. vm_compute in Hb. injection Hb as <-. vm_compute in Hy. injection Hy as <-. exfalso. 
    apply elem_of_cons in Ht as [->|Ht]; [vm_compute in Hk; done|]. apply elem_of_list_singleton in Ht as ->. vm_compute in Hk. done.
  - by_vm.
Qed.
(** An unsupported type, a template of that type, and an extension. *)
Definition kind_pkg (k : string) : list (entry tbytes) := [Entry (B := tbytes) (lit "mimetype") true (Some (BText (full_type k)))].
Example C33_unsupported_case :
  (opendoc noon (FromFile file_a) (desk (kind_pkg "formula") (replicate 10 Go))).2 = Done (Err KeyError) /\
  (newdoc noon "odt" file_b (Some (FromFile file_a)) (desk (kind_pkg "formula-template") (replicate 11 Go))).2 = Done (Err InvalidFiletypeError) /\
  (newdoc noon "odt" file_b (Some (FromFile file_a)) (desk (kind_pkg "spreadsheet-template") (replicate 11 Go))).2 = Done (Ok (Doc (Some file_b) (full_type "spreadsheet") "ods" true)) /\
  (newdoc noon "odt" file_b None (desk [] [])).2 = Done (Ok (Doc (Some file_b) (full_type "text") "odt" true)) /\
  (newdoc noon "odf" file_b None (desk [] [])).2 = Done (Err KeyError) /\
  (opendoc noon (FromFile file_a) (desk [] (replicate 10 Go))).2 = Done (Err KeyError).
Proof. split_and!; by_vm. Qed.

(** One read error while the content is read, and an empty document is opened instead of
    the stored one: there is no exception. *)
Theorem C33_read_error_counterexample :
  exists (B : Bytes) c (s s' : st) p x D, tree_part (lit "content.xml") (files (mach s)) (SFile p) = Ok (Some x) /\
    opendoc c (FromFile p) s = (s', Done (Ok D)) /\ mimetype D = full_type "spreadsheet" /\
    objects (mgr s') 2 = content_from "office:spreadsheet" None /\ objects (mgr s') 2 <> content_from "office:spreadsheet" (Some x).
Proof.
  exists tree_bytes, noon. set (s := desk sheet_pkg (replicate 8 Go ++ [Fail])).
  exists s, (opendoc noon (FromFile file_a) s).1, file_a, sheet_tree, (Doc (Some file_a) (full_type "spreadsheet") "ods" true).
  split; [by_vm|]. split; [apply pair_by; by_vm|]. split; [done|]. split; [by_vm|]. 
  intros H. apply (f_equal (fun e : elem => match find_child "office:body" e with Some b => match find_child "office:spreadsheet" b with Some y => length (findall "table:table" y) | None => 0 end | None => 0 end)) in H.
  revert H. apply (ne_by _ _ 0); [by_vm|]. intros H. symmetry in H. revert H. apply (ne_by _ _ 1); [by_vm|done].
Qed.
Print Assumptions C33_read_error_counterexample.

(** A line break after the type, which many programs would ignore, is not accepted. *)
Theorem C33_newline_counterexample :
  exists (B : Bytes) c (s s' : st) p b, no_failure s /\ part (lit "mimetype") (files (mach s)) (SFile p) = Ok (Some b) /\
    b_dec b = Some (full_type "spreadsheet" ++ [10%N]) /\ opendoc c (FromFile p) s = (s', Done (Err KeyError)).
Proof.
  exists tree_bytes, noon. set (s := desk [Entry (B := tbytes) (lit "mimetype") true (Some (BText (full_type "spreadsheet" ++ [10%N])))] (replicate 10 Go)).
  exists s, (opendoc noon (FromFile file_a) s).1, file_a, (BText (full_type "spreadsheet" ++ [10%N])).
  split; [apply go_fine|]. split; [by_vm|]. split; [by_vm|]. apply pair_by; by_vm.
Qed.
Print Assumptions C33_newline_counterexample.

(** ** C52 *)
(** Opening and newdoc give complete documents. *)
Theorem C52_opened `{B : Bytes} c d ext name template (s s' : st) D : no_failure s ->
  opendoc c d s = (s', Done (Ok D)) \/ newdoc c ext name template s = (s', Done (Ok D)) ->
  exists body, is_type (mimetype D) (doctype D) body /\ document (mimetype D) (mgr s') /\ complete body (mgr s') /\ lists (mimetype D) (mgr s').
Proof.
  intros Hn [E|E].
  - destruct (C33_detect c d s s' D Hn E) as (body & x0 & x1 & x2 & em & H). exists body. split_and!; apply H.
  - destruct template as [t|].
    + destruct (C33_template c ext t name s s' D Hn E) as (b & mt & body & x0 & x1 & x2 & em & H). exists body. split_and!; apply H.
    + destruct (C33_newdoc c ext name s Hn) as [H1 H2]. destruct (decide (ext ∈ map (fun q => q.1.1) supported)) as [Hin|Hin].
      * apply elem_of_list_fmap in Hin as ([[e' sfx] body] & -> & Hin). cbn [fst] in *. destruct (H1 sfx body Hin) as (s1 & E1 & H). rewrite E in E1. injection E1 as <- ->.
        exists body. cbn [mimetype doctype]. split; [by exists sfx|]. split_and!; apply H.
      * destruct (H2 Hin) as (s1 & E1 & _). by rewrite E in E1.
Qed.
Print Assumptions C52_opened.

(** A saved file, opened again at any later time, gives the same document: type, styles and
    content as they were, the meta data with date, generator and the counted editing cycle.
    What was removed from styles or content and has to be there is made anew. *)
Theorem C52_any `{U : Unicode} `{B : Bytes} now gen c D f ext body (s s' s2 : st) :
  docname D = Some f -> is_type (mimetype D) ext body -> document (mimetype D) (mgr s) -> rooted body (mgr s) ->
  plain_name f -> (forall p, source (mgr s) = SFile p -> plain_name p) ->
  doc_save now gen D s = (s', Done (Ok tt)) ->
  files (mach s2) !! f = files (mach s') !! f -> no_failure s2 -> 10 <= length (env (mach s2)) ->
  exists s3, opendoc c (FromFile f) s2 = (s3, Done (Ok (Doc (Some f) (mimetype D) ext true))) /\
    objects (mgr s3) 0 = parsed (play_doc [MTouch now gen; MInc] (objects (mgr s) 0)) /\
    objects (mgr s3) 1 = styles_from (Some (parsed (objects (mgr s) 1))) /\ objects (mgr s3) 2 = content_from body (Some (parsed (objects (mgr s) 2))) /\
    (lists (mimetype D) (mgr s) -> manifest (mgr s3) = parsed (manifest (mgr s))) /\ source (mgr s3) = SFile f.
Proof.
  intros Hf HT Hd Hc Hp Hps E Hfile Hn Hk. destruct (doc_save_spec now gen D f body s s' Hf Hd Hc Hp Hps E) as (es & src & rest & g1 & G0 & Gn & Gm & F & Pk & D1 & C1 & _).
  assert (Hst : stored_parts (mimetype D) g1 (files (mach s2)) (SFile f)). { apply (package_stored _ _ _ _ _ _ _ D1 Pk). intros n. cbn [part]. by rewrite Hfile, F, zip_unpack_pack. }
  destruct (q_reopen_any c _ ext body g1 _ _ (mgr s2) HT C1 Hst) as (g' & Eq & O0 & O1 & O2 & Gl & Gs).
  assert (H := expect_opendoc c (FromFile f) s2 Hn). cbn [origin_of] in H. rewrite Eq in H. cbn [fst snd] in H. apply expect_done in H as (s3 & -> & Eg & _); [|cbn; lia].
  exists s3. rewrite Eg. split; [done|]. rewrite O0, O1, O2, G0, !Gn by done. split_and!; try done. intros Hl. rewrite <- Gm. apply Gl. unfold lists. by rewrite Gm.
Qed.
Print Assumptions C52_any.

(** So a complete document comes back as it was. *)
Theorem C52_save `{U : Unicode} `{B : Bytes} now gen c D f ext body (s s' s2 : st) :
  docname D = Some f -> is_type (mimetype D) ext body -> document (mimetype D) (mgr s) -> complete body (mgr s) ->
  plain_name f -> (forall p, source (mgr s) = SFile p -> plain_name p) ->
  doc_save now gen D s = (s', Done (Ok tt)) ->
  files (mach s2) !! f = files (mach s') !! f -> no_failure s2 -> 10 <= length (env (mach s2)) ->
  exists s3, opendoc c (FromFile f) s2 = (s3, Done (Ok (Doc (Some f) (mimetype D) ext true))) /\
    objects (mgr s3) 0 = parsed (play_doc [MTouch now gen; MInc] (objects (mgr s) 0)) /\
    objects (mgr s3) 1 = parsed (objects (mgr s) 1) /\ objects (mgr s3) 2 = parsed (objects (mgr s) 2) /\
    (lists (mimetype D) (mgr s) -> manifest (mgr s3) = parsed (manifest (mgr s))) /\ source (mgr s3) = SFile f.
Proof.
  intros Hf HT Hd Hc Hp Hps E Hfile Hn Hk. apply complete_iff in Hc as [Hr Hu]. destruct (C52_any now gen c D f ext body s s' s2 Hf HT Hd Hr Hp Hps E Hfile Hn Hk) as (s3 & E3 & E0 & E1 & E2 & H).
  exists s3. apply parsed_furnished, furnished_again in Hu as [U1 U2]. cbn [parsed_manager objects] in U1, U2. rewrite U1 in E1. rewrite U2 in E2. exact (conj E3 (conj E0 (conj E1 (conj E2 H)))).
Qed.
Print Assumptions C52_save.
(** Opened and new documents have no empty texts, and saving brings none in. *)
Theorem C52_solid `{B : Bytes} c d ext name template (s s' : st) D : no_failure s ->
  opendoc c d s = (s', Done (Ok D)) \/ newdoc c ext name template s = (s', Done (Ok D)) ->
  solid (objects (mgr s') 1) /\ solid (objects (mgr s') 2) /\
  (created c <> [] -> touched c <> [] -> generator c <> [] -> solid (objects (mgr s') 0)).
Proof.
  intros Hn H. assert (HS : exists body x0 x1 x2, (forall e, x0 = Some e -> solid e) /\ (forall e, x1 = Some e -> solid e) /\ (forall e, x2 = Some e -> solid e) /\
    open_meta (created c) (touched c) (generator c) x0 = Ok (objects (mgr s') 0) /\ objects (mgr s') 1 = styles_from x1 /\ objects (mgr s') 2 = content_from body x2).
  { destruct H as [E|E].
    - destruct (C33_detect c d s s' D Hn E) as (body & x0 & x1 & x2 & em & _ & _ & _ & _ & _ & P0 & P1 & P2 & _ & _ & _ & _ & E0 & E1 & E2 & _).
      exists body, x0, x1, x2. split_and!; try done; by eapply solid_tree_part.
    - destruct template as [t|].
      + destruct (C33_template c ext t name s s' D Hn E) as (b & mt & body & x0 & x1 & x2 & em & _ & _ & _ & _ & _ & _ & _ & P0 & P1 & P2 & E0 & E1 & E2 & _).
        exists body, x0, x1, x2. split_and!; try done; by eapply solid_tree_part.
      + destruct (C33_newdoc c ext name s Hn) as [H1 H2]. destruct (decide (ext ∈ map (fun q => q.1.1) supported)) as [Hin|Hin].
        * apply elem_of_list_fmap in Hin as ([[e' sfx] body] & -> & Hin). cbn [fst] in *. destruct (H1 sfx body Hin) as (s1 & F & E1 & E2 & E0 & _). rewrite E in F. injection F as <- ->.
          by exists body, None, None, None.
        * destruct (H2 Hin) as (s1 & E1 & _). by rewrite E in E1. }
  destruct HS as (body & x0 & x1 & x2 & X0 & X1 & X2 & E0 & -> & ->). split_and!; [by apply solid_styles_from|by apply solid_content_from|].
  intros N1 N2 N3. exact (solid_open_meta _ _ _ _ _ N1 N2 N3 X0 E0).
Qed.
Print Assumptions C52_solid.
(** So a document without empty texts is the same in every element when it is opened again. *)
Theorem C52_same `{U : Unicode} `{B : Bytes} now gen c D f ext body (s s' s2 : st) :
  docname D = Some f -> is_type (mimetype D) ext body -> document (mimetype D) (mgr s) -> complete body (mgr s) ->
  plain_name f -> (forall p, source (mgr s) = SFile p -> plain_name p) ->
  doc_save now gen D s = (s', Done (Ok tt)) ->
  files (mach s2) !! f = files (mach s') !! f -> no_failure s2 -> 10 <= length (env (mach s2)) ->
  exists s3, opendoc c (FromFile f) s2 = (s3, Done (Ok (Doc (Some f) (mimetype D) ext true))) /\
    (solid (objects (mgr s) 0) -> now <> [] -> gen <> [] ->
       objects (mgr s3) 0 = play_doc [MTouch now gen; MInc] (objects (mgr s) 0) /\ solid (objects (mgr s3) 0)) /\
    (solid (objects (mgr s) 1) -> objects (mgr s3) 1 = objects (mgr s) 1) /\
    (solid (objects (mgr s) 2) -> objects (mgr s3) 2 = objects (mgr s) 2).
Proof.
  intros Hf HT Hd Hc Hp Hps E Hfile Hn Hk. destruct (C52_save now gen c D f ext body s s' s2 Hf HT Hd Hc Hp Hps E Hfile Hn Hk) as (s3 & E3 & E0 & E1 & E2 & _).
  exists s3. rewrite E0, E1, E2. split_and!; try done.
  - intros Hs N1 N2. assert (Hp2 : solid (play_doc [MTouch now gen; MInc] (objects (mgr s) 0))).
    { apply solid_play_doc; [|done]. apply Forall_cons_2; [by split|]. by apply Forall_singleton. }
    by rewrite parsed_solid.
  - by apply parsed_solid.
  - by apply parsed_solid.
Qed.
Print Assumptions C52_same.

(** After saving the document is as complete as before, so all this can be repeated. *)
Theorem C52_keeps `{U : Unicode} `{B : Bytes} now gen D f body (s s' : st) :
  docname D = Some f -> document (mimetype D) (mgr s) -> complete body (mgr s) -> lists (mimetype D) (mgr s) ->
  plain_name f -> (forall p, source (mgr s) = SFile p -> plain_name p) ->
  doc_save now gen D s = (s', Done (Ok tt)) ->
  document (mimetype D) (mgr s') /\ complete body (mgr s') /\ lists (mimetype D) (mgr s') /\
  objects (mgr s') 0 = play_doc [MTouch now gen; MInc] (objects (mgr s) 0) /\ objects (mgr s') 1 = objects (mgr s) 1 /\ objects (mgr s') 2 = objects (mgr s) 2 /\
  manifest (mgr s') = manifest (mgr s) /\ (forall p, source (mgr s') = SFile p -> plain_name p).
Proof.
  intros Hf Hd Hc Hl Hp Hps E. apply complete_iff in Hc as [Hc Hu]. destruct (doc_save_spec now gen D f body s s' Hf Hd Hc Hp Hps E) as (es & src & rest & g1 & G0 & Gn & Gm & F & Pk & D1 & C1 & D2 & C2 & O2 & M2 & S2).
  assert (C3 : complete body (mgr s')) by (apply complete_iff; split; [done|]; apply (furnished_objects _ (mgr s)); [|done]; intros n Hn; by rewrite O2, Gn).
  rewrite O2, M2, G0, !Gn, Gm by done. split_and!; try done.
  - unfold lists. by rewrite M2, Gm.
  - rewrite S2. intros p. destruct (source (mgr s)); [intros [= <-]; done|intros [= <-]; done|done].
Qed.
Print Assumptions C52_keeps.

(** The same for tobytes(), where the meta data stay as they are. *)
Theorem C52_tobytes `{B : Bytes} c m ext body b (s s' s2 : st) :
  is_type m ext body -> document m (mgr s) -> complete body (mgr s) -> no_failure s ->
  doc_tobytes s = (s', Done (Ok b)) -> no_failure s2 ->
  exists s3, opendoc c (FromBytes b) s2 = (s3, Done (Ok (Doc None m ext true))) /\
    objects (mgr s3) 0 = parsed (objects (mgr s) 0) /\ objects (mgr s3) 1 = parsed (objects (mgr s) 1) /\ objects (mgr s3) 2 = parsed (objects (mgr s) 2) /\
    (lists m (mgr s) -> manifest (mgr s3) = parsed (manifest (mgr s))) /\ source (mgr s3) = SBytes b /\ objects (mgr s') = objects (mgr s) /\ files (mach s') = files (mach s).
Proof.
  intros HT Hd Hc Hn E Hn2. destruct (C27_tobytes s s' b (proj1 Hd) Hn E) as (es & Hz & Pk & (_ & Ho & _) & _ & _ & Hfs).
  assert (Hst : stored_parts m (mgr s) (files (mach s2)) (SBytes b)). { apply (package_stored _ _ _ _ _ _ _ Hd Pk). intros n. cbn [part]. by rewrite Hz. }
  apply complete_iff in Hc as [Hc Hu]. destruct (q_reopen_any c _ ext body (mgr s) _ _ (mgr s2) HT Hc Hst) as (g' & Eq & O0 & O1 & O2 & Gl & Gs).
  apply parsed_furnished, furnished_again in Hu as [U1 U2]. cbn [parsed_manager objects] in U1, U2. rewrite U1 in O1. rewrite U2 in O2.
  assert (H := expect_opendoc c (FromBytes b) s2 Hn2). cbn [origin_of] in H. rewrite Eq in H. cbn [fst snd] in H. apply expect_done in H as (s3 & -> & Eg & _); [|cbn; lia].
  exists s3. rewrite Eg. split; [done|]. split_and!; done.
Qed.
Print Assumptions C52_tobytes.

Lemma plain_a : plain_name file_a.
Proof. intros [a E]. apply (f_equal last) in E. change (lit ".tmp") with (lit ".tm" ++ [112%N]) in E. rewrite (assoc_L (++)), last_snoc in E. vm_compute in E. done. Qed.
(** The spreadsheet is opened and saved. *)
Example C52_case : let r := opendoc noon (FromFile file_a) (desk sheet_pkg (replicate 40 Go)) in
  exists D s', r.2 = Done (Ok D) /\ docname D = Some file_a /\ plain_name file_a /\
    doc_save (U := ascii_unicode) (lit "2020-01-02T12:00:00") (lit "G") D r.1 = (s', Done (Ok tt)).
Proof.
  intros r. exists (Doc (Some file_a) (full_type "spreadsheet") "ods" true). eexists (doc_save (U := ascii_unicode) (lit "2020-01-02T12:00:00") (lit "G") _ r.1).1.
  split; [by_vm|]. split; [done|]. split; [apply plain_a|]. apply pair_by. by_vm.
Qed.

(** All children of the content are removed before saving; the opened file has them again. *)
Definition emptied (s : st (B := tree_bytes)) : st := St (mach s) (set_object 2 (T (root (objects (mgr s) 2)) []) (mgr s)).
Example C52_any_case : let r := opendoc noon (FromFile file_a) (desk sheet_pkg (replicate 40 Go)) in
  let D := Doc (Some file_a) (full_type "spreadsheet") "ods" true in
  let s := emptied r.1 in let r1 := doc_save (U := ascii_unicode) (lit "2020-01-02T12:00:00") (lit "G") D s in
  r.2 = Done (Ok D) /\ rooted "office:spreadsheet" (mgr s) /\ kids (objects (mgr s) 2) = [] /\ r1.2 = Done (Ok tt) /\
  (e_tag <$> kids (objects (mgr (opendoc noon (FromFile file_a) r1.1).1) 2)) = CONTENT_PARTS.
Proof.
  intros r D s r1. assert (E : r.2 = Done (Ok D)) by by_vm. split; [exact E|].
  destruct (C52_opened noon (FromFile file_a) "odt" [] None (desk sheet_pkg (replicate 40 Go)) r.1 D (go_fine 40 sheet_pkg)) as (body & _ & _ & Hc & _).
  { left. apply pair_by. exact E. }
  split; [|split; [done|split; by_vm]]. change (mgr s) with (set_object 2 (T (root (objects (mgr r.1) 2)) []) (mgr r.1)). apply complete_iff in Hc as [Hc _].
  apply (rooted_replaced _ body); [exact Hc| | |].
  - by destruct Hc as (_ & _ & Hc & _).
  - by intros e b y t k [= <-].
  - destruct Hc as (_ & _ & _ & _ & Htl). by repeat (apply Forall_cons in Htl as [? Htl]).
Qed.

(** An empty text is lost: meta['title'] is '' before saving, and None in the opened document. *)
Definition title (s : st (B := tree_bytes)) : option (res (option pystr)) :=
  meta_get "title" <$> head (findall "office:meta" (objects (mgr s) 0)).
Theorem C52_empty_text_counterexample :
  let r0 := opendoc noon (FromFile file_a) (desk sheet_pkg (replicate 40 Go)) in
  let r1 := on_meta_xml (meta_set "title" (TStr [])) r0.1 in
  let D := Doc (Some file_a) (full_type "spreadsheet") "ods" true in
  let r2 := doc_save (U := ascii_unicode) (lit "2020-01-02T12:00:00") (lit "G") D r1.1 in
  let r3 := opendoc noon (FromFile file_a) r2.1 in
  r0.2 = Done (Ok D) /\ r1.2 = Done (Ok tt) /\ title r1.1 = Some (Ok (Some [])) /\
  r2.2 = Done (Ok tt) /\ r3.2 = Done (Ok D) /\ title r3.1 = Some (Ok None).
Proof. intros r0 r1 D r2 r3. split; [by_vm|]. split; [by_vm|]. split; [by_vm|]. split; [by_vm|]. split; by_vm. Qed.
Print Assumptions C52_empty_text_counterexample.

(** ** C53 *)
(** Saving a document opened from bytes: the file has the package, no other file is touched
    in any case. *)
Theorem C53_save `{B : Bytes} f (s s' : st) r : save_bytes f s = (s', r) ->
  (forall q, q <> f -> files (mach s') !! q = files (mach s) !! q) /\
  (forall b, tidy (mgr s) -> no_failure s -> source (mgr s) = SBytes b -> r = Done (Ok tt) ->
     exists es, files (mach s') = <[f := zip_pack es]> (files (mach s)) /\
       package (mgr s) (default [] (zip_unpack b)) (default [] (zip_unpack b)) es /\ same_manager (mgr s) (mgr s') /\ source (mgr s') = SBytes b).
Proof.
  intros E. destruct (save_bytes_spec _ _ _ _ E) as [H1 H2]. split; [done|]. intros b Ht Hn Hs Hr. destruct (H2 Ht Hr) as (es & rest & mt & b' & Hmt & M & F & -> & Pk & Hrest).
  exists es. rewrite M, Hs in *. cbn [source_entries source pushed] in *. destruct Hrest as [-> |[? _]]; [|done]. split_and!; try done. by apply pushed_same.
Qed.
Print Assumptions C53_save.
(** But the file is emptied first: when the document cannot be saved the old file is gone. *)
Theorem C53_lost_counterexample :
  exists (U : Unicode) (B : Bytes) c now gen (s s1 s2 : st) b D f old x, no_failure s /\ opendoc c (FromBytes b) s = (s1, Done (Ok D)) /\
    files (mach s) !! f = Some old /\ doc_saveas now gen f D s1 = (s2, Done (Err x)) /\ no_failure s1 /\
    files (mach s2) !! f = Some b_empty /\ old <> b_empty.
Proof.
  exists ascii_unicode, tree_bytes, noon, (lit "2020-01-02T12:00:00"), (lit "G"). set (s := desk sheet_pkg (replicate 40 Go)). exists s.
  set (r := opendoc (B := tree_bytes) noon (FromBytes (B := tree_bytes) (BZip broken_pkg)) s). exists r.1.
  set (D := Doc None (full_type "spreadsheet") "ods" true). exists (doc_saveas (U := ascii_unicode) (lit "2020-01-02T12:00:00") (lit "G") file_a D r.1).1, (BZip broken_pkg), D, file_a, (BZip sheet_pkg), IOError.
  split; [apply go_fine|]. split; [apply pair_by; by_vm|]. split; [by_vm|]. split; [apply pair_by; by_vm|]. split; [|split; [by_vm|done]].
  unfold no_failure. assert (E : env (mach r.1) = replicate 40 Go) by by_vm. rewrite E. apply go_no_failure.
Qed.
Print Assumptions C53_lost_counterexample.
Example C53_case : let r := opendoc (B := tree_bytes) noon (FromBytes (B := tree_bytes) (BZip sheet_pkg)) (desk sheet_pkg (replicate 40 Go)) in
  exists s', tidy (mgr r.1) /\ save_bytes file_b r.1 = (s', Done (Ok tt)).
Proof.
  intros r. exists (save_bytes file_b r.1).1. split; [|apply pair_by; by_vm].
  destruct (C52_opened (B := tree_bytes) noon (FromBytes (B := tree_bytes) (BZip sheet_pkg)) "odt" [] None (desk sheet_pkg (replicate 40 Go)) r.1 (Doc None (full_type "spreadsheet") "ods" true)) as (body & _ & (Ht & _) & _); [apply go_fine| |exact Ht].
  left. apply (pair_by r). by_vm.
Qed.
