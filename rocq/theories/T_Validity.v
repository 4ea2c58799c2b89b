(** C60: saved documents pass the validity check. *)
From Verif Require Import T_Files T_Document ValidityProofs.

(** The check says True exactly for valid packages, and changes nothing.  It raises an exception
    only if the stored manifest cannot be read or is no XML. *)
Theorem C60_check `{Z : ZipLayout} (f m : pystr) (s : st) : no_failure s -> 3 <= length (env (mach s)) ->
  exists s' r, check_validity f m s = (s', Done r) /\ mgr s' = mgr s /\ files (mach s') = files (mach s) /\
    (r = Ok true <-> exists b, files (mach s) !! f = Some b /\ valid_package m b) /\
    (forall x, r = Err x -> exists b es, files (mach s) !! f = Some b /\ zip_unpack b = Some es /\
       ((exists y, zip_read (lit "META-INF/manifest.xml") es = Err y /\ y <> KeyError /\ x = y) \/
        exists mb, zip_read (lit "META-INF/manifest.xml") es = Ok mb /\ b_parse mb = None /\ x = ValueError)).
Proof.
  intros Hn Hk. assert (H := expect_check f m s Hn). apply expect_done in H as (s' & E & M & F & _); [|done].
  exists s', (verdict f m (files (mach s))). split_and!; [done|done|done|apply verdict_true|apply verdict_err].
Qed.
Print Assumptions C60_check.

(** The manifests of documents are orderly: of new ones in any case, of opened ones and of those
    made from templates if the stored manifest is. *)
Theorem C60_opened `{B : Bytes} c d ext name template (s s' : st) D : no_failure s ->
  (opendoc c d s = (s', Done (Ok D)) -> forall em, manifest_part (files (mach s)) (origin_of d) = Ok em -> orderly em -> orderly (manifest (mgr s'))) /\
  (newdoc c ext name template s = (s', Done (Ok D)) ->
     (forall t em, template = Some t -> manifest_part (files (mach s)) (origin_of t) = Ok em -> orderly em) -> orderly (manifest (mgr s'))).
Proof.
  intros Hn. split.
  - intros E em Hm Ho. assert (H := expect_opendoc c d s Hn). rewrite E in H. apply expect_result in H as (Er & Eg & Ef).
    destruct (q_opendoc c (origin_of d) (files (mach s)) (mgr s)) as [g r] eqn:Eq. cbn [fst snd] in Er, Eg. subst r g.
    apply q_opendoc_ok in Eq as (em' & m & ext' & t & x1 & x2 & e0 & H1 & H2 & H3 & -> & ->). apply orderly_opened. rewrite Hm in H1. by injection H1 as <-.
  - intros E Ho. destruct template as [t|].
    + assert (H := expect_template c name t s Hn). cbn [newdoc] in E. cbn zeta in H. rewrite E in H. apply expect_result in H as (Er & Eg & Ef).
      destruct (match t with FromBytes _ => true | FromFile p => _ end) in Er, Eg; [|done].
      destruct (q_template c name (origin_of t) (files (mach s)) (mgr s)) as [g r] eqn:Eq. cbn [fst snd] in Er, Eg. subst r g.
      apply q_template_ok in Eq as (em & mt & ext' & bt & x1 & x2 & e0 & H1 & H2 & H3 & -> & ->). apply orderly_opened. by apply (Ho t em).
    + unfold newdoc in E. destruct (mimetype_of ext) as [m|]; [|done]. destruct (mirrors_new c m name s Hn) as [H _]; [done|].
      change (run _ := new_manager NoSource in run d := packaged c (Some m) in pret (Doc (Some name) (mimetype d) (doctype d) (backup d)))
        with (run _ := new_manager NoSource in run d := packaged c (Some m) in pret (DocumentProofs.named name d)) in E.
      rewrite E in H. apply expect_result in H as (Er & Eg & Ef).
      destruct (q_new c m name (files (mach s)) (mgr s)) as [g r] eqn:Eq. cbn [fst snd] in Er, Eg. subst r g.
      apply q_new_ok in Eq as (ext' & bt & x1 & x2 & e0 & _ & -> & ->). apply orderly_opened. apply orderly_new.
Qed.
Print Assumptions C60_opened.

(** A saved document passes the check for its own type, and for no other; and its manifest stays
    orderly, so the same holds for every later save. *)
Theorem C60_saved `{U : Unicode} `{Z : ZipLayout} now gen D f body (s s' s2 : st) (m : pystr) :
  docname D = Some f -> document (mimetype D) (mgr s) -> rooted body (mgr s) -> lists (mimetype D) (mgr s) -> orderly (manifest (mgr s)) ->
  plain_name f -> (forall p, source (mgr s) = SFile p -> plain_name p) ->
  doc_save now gen D s = (s', Done (Ok tt)) ->
  files (mach s2) !! f = files (mach s') !! f -> no_failure s2 -> 3 <= length (env (mach s2)) ->
  orderly (manifest (mgr s')) /\
  exists s3, check_validity f m s2 = (s3, Done (Ok (bool_decide (m = mimetype D)))).
Proof.
  intros Hf Hd Hc Hl Ho Hp Hps E Hfile Hn Hk.
  destruct (doc_save_spec now gen D f body s s' Hf Hd Hc Hp Hps E) as (es & src & rest & g1 & G0 & Gn & Gm & F & Pk & D1 & C1 & D2 & C2 & O2 & M2 & S2). split.
  - by rewrite M2, Gm.
  - assert (H := expect_check f m s2 Hn). apply expect_done in H as (s3 & -> & _); [|done]. exists s3. do 2 f_equal.
    rewrite (package_verdict (mimetype D) g1 src rest es); try done.
    + unfold lists. by rewrite Gm.
    + by rewrite Gm.
    + destruct C1 as (_ & _ & _ & _ & Ht). by apply Forall_cons in Ht as [Ht _].
    + by rewrite Hfile.
Qed.
Print Assumptions C60_saved.

(** The same for the bytes of a document, written to any file. *)
Theorem C60_tobytes `{Z : ZipLayout} (mt : pystr) body b f (s s' s2 : st) (m : pystr) :
  document mt (mgr s) -> rooted body (mgr s) -> lists mt (mgr s) -> orderly (manifest (mgr s)) -> no_failure s ->
  doc_tobytes s = (s', Done (Ok b)) -> files (mach s2) !! f = Some b -> no_failure s2 -> 3 <= length (env (mach s2)) ->
  exists s3, check_validity f m s2 = (s3, Done (Ok (bool_decide (m = mt)))).
Proof.
  intros Hd Hc Hl Ho Hn E Hfile Hn2 Hk. assert (Eb : exists es, b = zip_pack es /\ to_zip None s = (s', Done (Ok es))).
  { unfold doc_tobytes, to_bytes, pbind in E. destruct (to_zip None s) as [s1 [|[es|x]]]; try done. injection E as <- <-. by exists es. }
  destruct Eb as (es & -> & _). destruct (C27_tobytes s s' _ (proj1 Hd) Hn E) as (es' & Hz & Pk & _). rewrite zip_unpack_pack in Hz. injection Hz as <-.
  assert (H := expect_check f m s2 Hn2). apply expect_done in H as (s3 & -> & _); [|done]. exists s3. do 2 f_equal.
  eapply (package_verdict mt (mgr s)); try done. destruct Hc as (_ & _ & _ & _ & Ht). by apply Forall_cons in Ht as [Ht _].
Qed.
Print Assumptions C60_tobytes.

(** Whenever writing is interrupted or fails, the file holds what it held before, or is missing,
    or holds a package that passes the check. *)
Theorem C60_interrupted `{Z : ZipLayout} (mt : pystr) body f backup (s s' s2 : st) o (m : pystr) :
  document mt (mgr s) -> rooted body (mgr s) -> lists mt (mgr s) -> orderly (manifest (mgr s)) ->
  plain_name f -> (forall p, source (mgr s) = SFile p -> plain_name p) ->
  save f backup s = (s', o) ->
  files (mach s2) !! f = files (mach s') !! f -> no_failure s2 -> 3 <= length (env (mach s2)) ->
  files (mach s') !! f = files (mach s) !! f \/ files (mach s') !! f = None \/
  exists s3, check_validity f m s2 = (s3, Done (Ok (bool_decide (m = mt)))).
Proof.
  intros Hd Hc Hl Ho Hp Hps E Hfile Hn Hk.
  assert (Hnew : forall new failing, files (mach s') !! f = Some new -> new_version (mgr s) (files (mach s)) failing new -> exists s3, check_validity f m s2 = (s3, Done (Ok (bool_decide (m = mt))))).
  { intros new failing Ef (es & rest & -> & Pk & _). specialize (Pk (proj1 Hd)). assert (H := expect_check f m s2 Hn). apply expect_done in H as (s3 & -> & _); [|done]. exists s3. do 2 f_equal.
    eapply (package_verdict mt (mgr s)); try done; [|by rewrite Hfile]. destruct Hc as (_ & _ & _ & _ & Ht). by apply Forall_cons in Ht as [Ht _]. }
  destruct (files (mach s) !! f) as [old|] eqn:Eo.
  - destruct backup.
    + destruct (C29_backup s s' f old o (proj1 Hd) Eo Hps E) as (_ & [H|[H|(new & H1 & H2)]] & _); [by left|by right; left|right; right; by eapply Hnew].
    + destruct (C30_no_backup s s' f old o (proj1 Hd) Eo Hps E) as ([H|(new & H1 & [H|[H _]])] & _); [by left|right; right; by eapply Hnew|by right; left].
  - destruct (C29_new_name s s' f backup o (proj1 Hd) Eo Hp Hps E) as ([H|(new & H1 & H2)] & _); [by left|right; right; by eapply Hnew].
Qed.
Print Assumptions C60_interrupted.

(** ** Cases *)
(** The spreadsheet of C52 is opened, saved and checked, for its type and for another. *)
Example C60_case : let r := opendoc noon (FromFile file_a) (desk sheet_pkg (replicate 40 Go)) in
  let D := Doc (Some file_a) (full_type "spreadsheet") "ods" true in
  let w := doc_save (U := ascii_unicode) (lit "2020-01-02T12:00:00") (lit "G") D r.1 in
  r.2 = Done (Ok D) /\ w.2 = Done (Ok tt) /\ 3 <= length (env (mach w.1)) /\
  (exists em, manifest_part (files (mach (desk sheet_pkg (replicate 40 Go)))) (SFile file_a) = Ok em /\ orderly em) /\
  (check_validity (Z := tree_layout) file_a (full_type "spreadsheet") w.1).2 = Done (Ok true) /\
  (check_validity (Z := tree_layout) file_a (full_type "text") w.1).2 = Done (Ok false).
Proof.
  intros r D w. split; [by_vm|]. split; [by_vm|]. split; [apply Nat.leb_le; by_vm|]. split; [|split; by_vm].
  exists (new_elem "manifest:manifest"). split; [by_vm|apply orderly_new].
Qed.

(** With two entries for the package in the stored manifest the saved file is refused. *)
Definition entry60 (p m : string) : elem := T (Nd "manifest:file-entry" {["manifest:full-path" := lit p; "manifest:media-type" := lit m]} None None) [].
Definition double_manifest : elem := T (Nd "manifest:manifest" ∅ None None) [entry60 "/" "a"; entry60 "/" "b"].
Definition double_pkg : list (entry tbytes) := sheet_pkg ++ [Entry (B := tbytes) (lit "META-INF/manifest.xml") false (Some (BXml true double_manifest))].
Theorem C60_double_counterexample :
  exists (U : Unicode) (B : Bytes) (Z : ZipLayout) c now gen (s s1 s2 s3 : st) D f, no_failure s /\ opendoc c (FromFile f) s = (s1, Done (Ok D)) /\
    doc_save now gen D s1 = (s2, Done (Ok tt)) /\ check_validity f (mimetype D) s2 = (s3, Done (Ok false)).
Proof.
  exists ascii_unicode, tree_bytes, tree_layout, noon, (lit "2020-01-02T12:00:00"), (lit "G"). set (s := desk double_pkg (replicate 60 Go)).
  set (D := Doc (Some file_a) (full_type "spreadsheet") "ods" true). set (r := opendoc noon (FromFile file_a) s).
  set (w := doc_save (U := ascii_unicode) (lit "2020-01-02T12:00:00") (lit "G") D r.1).
  exists s, r.1, w.1, (check_validity (Z := tree_layout) file_a (full_type "spreadsheet") w.1).1, D, file_a.
  split; [apply go_fine|]. split; [apply pair_by; by_vm|]. split; [apply pair_by; by_vm|]. apply pair_by; by_vm.
Qed.
Print Assumptions C60_double_counterexample.

(** The check looks at the beginning of the mimetype part only: a package that passes it for one
    type may be opened as a document of another. *)
Definition two_types_pkg : list (entry tbytes) :=
  [Entry (B := tbytes) (lit "mimetype") true (Some (BText (full_type "text-template")));
   Entry (lit "content.xml") false (Some (BText [])); Entry (lit "meta.xml") false (Some (BText [])); Entry (lit "styles.xml") false (Some (BText []));
   Entry (lit "META-INF/manifest.xml") false (Some (BXml true (T (Nd "manifest:manifest" ∅ None None)
     [entry60 "/" "application/vnd.oasis.opendocument.text"; entry60 "content.xml" "text/xml"; entry60 "meta.xml" "text/xml"; entry60 "styles.xml" "text/xml"])))].
Theorem C60_type_counterexample :
  exists (B : Bytes) (Z : ZipLayout) c (s s1 s2 : st) D f m, no_failure s /\ check_validity f m s = (s1, Done (Ok true)) /\
    opendoc c (FromFile f) s = (s2, Done (Ok D)) /\ mimetype D <> m.
Proof.
  exists tree_bytes, tree_layout, noon. set (s := desk two_types_pkg (replicate 20 Go)). exists s, (check_validity (Z := tree_layout) file_a (full_type "text") s).1, (opendoc noon (FromFile file_a) s).1.
  exists (Doc (Some file_a) (full_type "text-template") "ott" true), file_a, (full_type "text").
  split; [apply go_fine|]. split; [apply pair_by; by_vm|]. split; [apply pair_by; by_vm|]. cbn [mimetype]. dec_vm.
Qed.
Print Assumptions C60_type_counterexample.
