(** Theorems C27-C32: packages, manifests, saving. *)
From Verif Require Import FileProofs.

(** ** C27 *)

(** tobytes(): the bytes are a correct package, the manager is the same as before. *)
Theorem C27_tobytes `{Bytes} :
  forall (s s' : st) (b : bytes), tidy (mgr s) -> no_failure s -> to_bytes s = (s', Done (Ok b)) ->
    exists es, zip_unpack b = Some es /\
      (let src := source_entries (files (mach s)) (source (mgr s)) in package (mgr s) src src es) /\
      same_manager (mgr s) (mgr s') /\ source (mgr s') = source (mgr s) /\ tidy (mgr s') /\ files (mach s') = files (mach s).
Proof.
  intros s s' b Ht Hn E. unfold to_bytes, pbind in E. destruct (to_zip None s) as [s1 o1] eqn:Ez. destruct o1 as [|[es|x]]; try done. injection E as <- <-.
  destruct (to_zip_spec _ _ _ _ Ez) as (K1 & _ & _ & K4 & _). destruct (K4 es eq_refl) as (f & b & parts & rest & copies & s2 & L1 & L2 & L3 & -> & L5 & L6 & L7 & L8).
  assert (F2 : files (mach s2) = files (mach s)) by (apply map_eq; intros q; by apply (q_files _ _ _ L6)).
  eexists. split; [apply zip_unpack_pack|]. cbn zeta in *. rewrite F2 in *. split_and!.
  - destruct L8 as [-> |[? _]]; [|done]. by apply package_ok.
  - rewrite L2. by apply pushed_same.
  - by rewrite L2.
  - rewrite L2. by apply pushed_tidy.
  - apply map_eq. intros q. by apply (q_files _ _ _ K1).
Qed.
Print Assumptions C27_tobytes.

(** save(name): the same for the file that is there afterwards.  The name is not one that
    a temporary file could have, and neither is that of the opened package. *)
Theorem C27_save `{Bytes} :
  forall (s s' : st) (f : pystr) (backup : bool), tidy (mgr s) -> no_failure s ->
    plain_name f -> (forall p, source (mgr s) = SFile p -> plain_name p) ->
    save f backup s = (s', Done (Ok tt)) ->
    exists es, files (mach s') !! f = Some (zip_pack es) /\
      (let src := source_entries (files (mach s)) (source (mgr s)) in package (mgr s) src src es) /\
      same_manager (mgr s) (mgr s') /\ source (mgr s') = SFile f /\ tidy (mgr s').
Proof.
  intros s s' f backup Ht Hn Hf Hp E.
  destruct (save_spec f backup s s' (Done (Ok tt))) as [(? & _)|(tmp & r & _ & _ & _ & _ & [(? & _)|(new & mt & (es & rest & En & Hpk & Hr) & Hmt & [(? & _)|(_ & M & F)])])]; try done.
  - right. intros r _. by apply plain_tmp.
  - intros p Hs. right. intros r _. apply plain_tmp. by apply Hp.
  - exists es. rewrite F, M. unfold saved. rewrite lookup_insert, En. cbn zeta in *. split_and!; try done.
    + destruct Hr as [-> |[? _]]; [by apply Hpk|done].
    + destruct (pushed_same mt (mgr s) Hmt) as (A1 & A2 & A3 & A4). by split_and!.
    + destruct (pushed_tidy mt (mgr s) Hmt Ht). by split.
Qed.
Print Assumptions C27_save.

(** Under favourable conditions saving succeeds. *)
Theorem C27_save_succeeds `{Bytes} :
  forall (s : st) (f : pystr) (backup : bool), tidy (mgr s) -> favourable f s ->
    plain_name f -> (forall p, source (mgr s) = SFile p -> plain_name p) ->
    exists s', save f backup s = (s', Done (Ok tt)).
Proof.
  intros s f backup Ht Hfav Hf Hp. pose proof (live_save f backup s Hfav (or_introl Hf) (fun p Hs => or_introl (Hp p Hs))) as Hl.
  destruct (save f backup s) as [s' o] eqn:E. cbn in Hl. destruct Hfav as (F1 & F2 & F3 & F4 & F5 & F6 & F7).
  assert (Hn : no_failure s). { unfold no_failure. intros Hin. rewrite Forall_forall in F1. by apply F1 in Hin. }
  destruct (save_spec f backup s s' o) as [(-> & _)|(tmp & r & _ & _ & _ & _ & [(Hno & _ & _ & He)|(new & mt & _ & _ & [(Hno & _ & _ & He)|(-> & _)])])]; try done.
  - right. intros r _. by apply plain_tmp.
  - intros p Hs. right. intros r _. apply plain_tmp. by apply Hp.
  - exfalso. destruct o as [|[[]|x]]; try done. destruct (He x eq_refl) as [?|[Hm|[([k y] & Hy & Hb)|[(b & Hb & Hb2)|(e & mt & He1 & Hmt & He2 & He3)]]]].
    + done.
    + apply registered_get in F4. rewrite Hm in F4. by destruct F4.
    + assert (Hg : dict_get k (directory (mgr s)) = Some y) by (by apply dict_get_nodup; [apply Ht|]).
      destruct (F5 k) as [b Eb]; [apply registered_get; by eexists|]. rewrite part_bytes_get, Hg in Eb. cbn in Eb, Hb. congruence.
    + destruct (F7 b Hb). congruence.
    + destruct (F6 e He1) as [b Eb]; [|cbn zeta in *; congruence]. intros Hr. apply He2. rewrite (tidy_get _ _ _ Ht Hmt).
      destruct (decide (en_name e = MIMETYPE)) as [Em|Em]; [rewrite Em; by left|]. right.
      apply registered_get in Hr as [g Hg]. apply elem_of_list_fmap. exists (en_name e, g). split; [symmetry; by apply (tidy_get (mgr s))|].
      unfold dict_del. apply elem_of_list_filter. split; [done|by apply dict_get_in].
  - exfalso. destruct o as [|[[]|x]]; try done. by destruct (He x eq_refl).
  - by exists s'.
Qed.
Print Assumptions C27_save_succeeds.

(** Managers are tidy: new ones, and then whatever is registered and however saving ends. *)
Theorem C27_tidy `{Bytes} :
  (forall (s s' : st) (o : origin), new_manager o s = (s', Done (Ok tt)) -> tidy (mgr s') /\ source (mgr s') = o /\ registered (mgr s') MANIFEST_XML) /\
  (forall (m : manager) name c media, tidy m -> tidy (register name c media m) /\
     (forall x, registered (register name c media m) x <-> x = name \/ registered m x)) /\
  (forall (s : st) f backup, tidy (mgr s) -> plain_name f -> (forall p, source (mgr s) = SFile p -> plain_name p) -> tidy (mgr (save f backup s).1)).
Proof.
  split_and!.
  - intros s s' o E. unfold new_manager in E. unfold pbind at 1 in E. cbn beta in E. unfold pbind in E.
    set (s0 := upd_mgr _ s) in E. assert (Hm : forall s1 o1, get_bytes MANIFEST_XML s0 = (s1, o1) -> mgr s1 = mgr s0).
    { intros s1 o1. unfold get_bytes, pbind. destruct (has_zip s0) as [s2 o2] eqn:E2. destruct (has_zip_spec _ _ _ E2) as (_ & M2 & _).
      destruct o2 as [|[[]|x]]; [by intros [= <- _]| | by intros [= <- _]|by intros [= <- _]].
      destruct (open_bytestream s2) as [s3 o3] eqn:E3.
      assert (M3 : mgr s3 = mgr s2). { unfold open_bytestream in E3. destruct (source (mgr s2)); [by injection E3 as <- _| |by injection E3 as <- _]. by apply read_spec in E3 as (_ & ? & _). }
      rewrite <- M2, <- M3. clear. destruct o3 as [|[b|x]]; [by intros [= <- _]| |by intros [= <- _]]. unfold zip_open. destruct (zip_unpack b); cbn [pret praise]; [|by intros [= <- _]].
      destruct (zip_read _ _) as [|[]]; by intros [= <- _]. }
    destruct (get_bytes MANIFEST_XML s0) as [s1 o1]. specialize (Hm _ _ eq_refl). destruct o1 as [|[b|x]]; try done.
    destruct (new_manifest b) as [e|x]; [|done]. injection E as <-. cbn [mgr upd_mgr]. rewrite Hm. split_and!; [|done|].
    + apply register_tidy. split; [constructor|constructor].
    + apply register_registered. by left.
  - intros m name c media Ht. split; [by apply register_tidy|]. intros x. apply register_registered.
  - intros s f backup Ht Hf Hp. destruct (save f backup s) as [s' o] eqn:E. cbn [fst].
    assert (Hpop : tidy (popped (mgr s))).
    { destruct Ht as [H1 H2]. split; cbn; [rewrite dict_del_keys; by apply NoDup_filter|]. apply Forall_forall. intros x Hx. rewrite Forall_forall in H2. apply H2. by eapply dict_del_in. }
    destruct (save_spec f backup s s' o) as [(_ & _ & M)|(tmp & r & _ & _ & _ & _ & [(_ & _ & M & _)|(new & mt & _ & Hmt & [(_ & M & _)|(_ & M & _)])])]; try done.
    + right. intros r _. by apply plain_tmp.
    + intros p Hs. right. intros r _. apply plain_tmp. by apply Hp.
    + by rewrite M.
    + destruct M as [M|[M|(mt & Hmt & M)]]; rewrite M; [done|done|by apply pushed_tidy].
    + rewrite M. by apply pushed_tidy.
    + rewrite M. destruct (pushed_tidy mt (mgr s) Hmt Ht). by split.
Qed.
Print Assumptions C27_tidy.

(** A document with a picture, opened from "/d/a.odt". *)
Definition demo_pkg : list (entry (bytes (Bytes := tree_bytes))) :=
  [Entry (B := tbytes) (lit "mimetype") true (Some (BText (lit "M")));
   Entry (lit "content.xml") false (Some (BText (lit "old content")));
   Entry (lit "Pictures/1.png") true (Some (BText (lit "png")))].
Definition demo_mgr : manager (B := tree_bytes) :=
  register (lit "content.xml") (CObject 0) (lit "text/xml")
    (register MIMETYPE (CBytes (B := tree_bytes) (BText (lit "M"))) []
      (register MANIFEST_XML CManifest (lit "text/xml")
        (Manager (B := tree_bytes) [] (SFile (lit "/d/a.odt")) (new_elem "manifest:manifest") (fun _ => new_elem "office:document-content")))).
Definition demo_st (env : list (event (B := tree_bytes))) : st :=
  St (B := tree_bytes) (Machine tree_bytes {[lit "/d/a.odt" := BZip demo_pkg]} env [lit "Ab3"]) demo_mgr.
Lemma demo_tidy : tidy (B := tree_bytes) demo_mgr.
Proof. repeat apply register_tidy. split; constructor. Qed.
Lemma demo_plain : plain_name (lit "/d/a.odt").
Proof. intros [a E]. apply (f_equal last) in E. change (lit ".tmp") with (lit ".tm" ++ [112%N]) in E. rewrite (assoc_L (++)), last_snoc in E. vm_compute in E. done. Qed.
Lemma demo_favourable : favourable (B := tree_bytes) (lit "/d/a.odt") (demo_st (replicate 40 Go)).
Proof.
  split_and!.
  - apply Forall_replicate. done.
  - vm_compute. lia.
  - exists (lit "Ab3"). split; [by left|]. vm_compute. done.
  - apply (bool_decide_unpack _). vm_compute. exact I.
  - intros name Hr. apply elem_of_list_fmap in Hr as ([k f] & -> & Hin). cbn. 
    repeat (apply elem_of_cons in Hin as [[= -> ->]|Hin]; [eexists; vm_compute; reflexivity|]). by apply elem_of_nil in Hin.
  - intros e He Hr. repeat (apply elem_of_cons in He as [->|He]; [eexists; vm_compute; reflexivity|]). by apply elem_of_nil in He.
  - intros b Hb. vm_compute in Hb. done.
Qed.
Example C27_case : exists s', tidy (mgr (demo_st (replicate 40 Go))) /\ save (B := tree_bytes) (lit "/d/a.odt") true (demo_st (replicate 40 Go)) = (s', Done (Ok tt)).
Proof.
  destruct (C27_save_succeeds (H := tree_bytes) (demo_st (replicate 40 Go)) (lit "/d/a.odt") true demo_tidy demo_favourable demo_plain) as [s' E].
  - intros p [= <-]. exact demo_plain.
  - exists s'. split; [exact demo_tidy|exact E].
Qed.

(** Two entries with one name, as an opened package may have: the copy of the first has
    the data of the second. *)
Theorem C27_duplicate_names_counterexample :
  exists (B : Bytes) (s s' : st) (b : bytes) es e, to_bytes s = (s', Done (Ok b)) /\ zip_unpack b = Some es /\
    e ∈ source_entries (files (mach s)) (source (mgr s)) /\ ~ registered (mgr s) (en_name e) /\ e ∉ es.
Proof.
  exists tree_bytes.
  set (m := Manager (B := tree_bytes) (directory demo_mgr) (SBytes (B := tree_bytes) (BZip [Entry (lit "a") true (Some (BText (lit "1"))); Entry (lit "a") true (Some (BText (lit "2")))])) (manifest demo_mgr) (objects demo_mgr)).
  set (s := St (Machine tree_bytes ∅ [] []) m). set (b := match (to_bytes s).2 with Done (Ok b) => b | _ => b_empty end).
  exists s, (to_bytes s).1, b, (default [] (zip_unpack b)), (Entry (lit "a") true (Some (BText (lit "1")))).
  split; [apply pair_by; by_vm|]. split; [by_vm|]. split; [by left|]. split; [dec_vm|].
  intros Hin. assert (Hf : Entry (lit "a") true (Some (BText (lit "1"))) ∈ filter (fun e => en_name e = lit "a") (default [] (zip_unpack b))) by (by apply elem_of_list_filter).
  assert (E : filter (fun e => en_name e = lit "a") (default [] (zip_unpack b)) = [Entry (lit "a") true (Some (BText (lit "2"))); Entry (lit "a") true (Some (BText (lit "2")))]) by by_vm.
  rewrite E in Hf. repeat (apply elem_of_cons in Hf as [Hf|Hf]; [done|]). by apply elem_of_nil in Hf.
Qed.
Print Assumptions C27_duplicate_names_counterexample.

(** A read error while looking at the opened package: the save succeeds and the picture
    is gone. *)
Theorem C27_read_error_counterexample :
  exists (B : Bytes) (s s' : st) (f name : pystr) es, save f false s = (s', Done (Ok tt)) /\ files (mach s') !! f = Some (zip_pack es) /\
    (exists e, e ∈ source_entries (files (mach s)) (source (mgr s)) /\ en_name e = name /\ is_Some (en_data e)) /\ 
    ~ registered (mgr s) name /\ forall e, e ∈ es -> en_name e <> name.
Proof.
  exists tree_bytes. set (s := demo_st ([Go; Go; Go; Go; Fail] ++ replicate 9 Go)). set (s' := (save (lit "/d/a.odt") false s).1).
  exists s, s', (lit "/d/a.odt"), (lit "Pictures/1.png"), (source_entries (files (mach s')) (SFile (lit "/d/a.odt"))).
  split; [apply pair_by; by_vm|]. split; [by_vm|]. split; [|split; [dec_vm|]].
  - exists (Entry (lit "Pictures/1.png") true (Some (BText (lit "png")))). split; [by right; right; left|]. split; [done|by eexists].
  - apply Forall_forall. dec_vm.
Qed.
Print Assumptions C27_read_error_counterexample.

Lemma save_mimetype `{Bytes} f backup (s s' : st) : save f backup s = (s', Done (Ok tt)) -> registered (mgr s) MIMETYPE.
Proof.
  unfold save, pbind at 1. destruct (tmpfilename f s) as [s2 [|[tmp|x]]] eqn:E1; [done| |done].
  apply tmp_search_spec in E1 as (_ & _ & M1 & _). unfold pbind at 1.
  destruct (write_package tmp s2) as [s3 o3] eqn:E3. destruct o3 as [|[[]|x]]; [done| |done]. intros _.
  destruct (write_package_spec _ _ _ _ E3) as (_ & _ & W & _). destruct (W eq_refl) as (mt & _ & _ & _ & _ & _ & _ & Hmt & _).
  apply registered_get. rewrite <- M1. by eexists.
Qed.

Lemma not_elem_of_mimetype `{Bytes} (m : manager) : bool_decide (registered m MIMETYPE) = false -> ~ registered m MIMETYPE.
Proof. apply bool_decide_eq_false. Qed.
(** A save that fails half-way (here the disk is full for a moment) makes every later save
    fail: the mimetype is no longer registered. *)
Theorem C27_failed_save_counterexample :
  exists (B : Bytes) (s s1 : st) (f : pystr), save f true s = (s1, Done (Err IOError)) /\ registered (mgr s) MIMETYPE /\
    forall m, (save f true (set_machine m s1)).2 = Stop \/ exists x, (save f true (set_machine m s1)).2 = Done (Err x).
Proof.
  exists tree_bytes. set (s := demo_st [Go; Fail; Go]). exists s, (save (lit "/d/a.odt") true s).1, (lit "/d/a.odt").
  split; [apply pair_by; by_vm|]. split; [dec_vm|].
  intros m. destruct (save (lit "/d/a.odt") true (set_machine m _)) as [s2 [|[[]|x]]] eqn:E; [by left| |right; by exists x]. exfalso. apply save_mimetype in E. revert E.
  apply not_elem_of_mimetype. by_vm.
Qed.
Print Assumptions C27_failed_save_counterexample.

Lemma go_no_failure `{Bytes} (n : nat) : Fail ∉ replicate n Go.
Proof. intros Hin. apply elem_of_replicate in Hin as [? _]. done. Qed.

(** ** C28 *)
Theorem C28_registered `{Bytes} :
  forall (regs : list (pystr * content * pystr)) (m0 : manager),
    let m := manifest (register_all regs m0) in let paths := map (fun r => r.1.1) regs in
    (forall path, path <> MANIFEST_XML -> path ∈ paths -> exists r, last (filter (fun r => r.1.1 = path) regs) = Some r /\
       entries_of path m = listed path r.2 (entries_of path (manifest m0)) /\
       media_of path m = Some r.2 /\ length (entries_of path m) = Nat.max 1 (length (entries_of path (manifest m0)))) /\
    entries_of MANIFEST_XML m = entries_of MANIFEST_XML (manifest m0) /\
    others paths m = others paths (manifest m0) /\
    (exists fresh, map (e_get PATH) (kids m) = map (e_get PATH) (kids (manifest m0)) ++ fresh) /\
    root m = root (manifest m0).
Proof.
  intros regs m0. assert (H1 : forall regs m0 path, entries_of path (manifest (register_all regs m0)) =
    match last (filter (fun r => r.1.1 = path) regs) with
    | Some r => if decide (path = MANIFEST_XML) then entries_of path (manifest m0) else listed path r.2 (entries_of path (manifest m0))
    | None => entries_of path (manifest m0)
    end).
  { clear. intros regs m0 path. induction regs as [|[[name c] md] regs IH] using rev_ind; [done|].
    unfold register_all in *. rewrite foldl_app. cbn [foldl fst snd]. cbn [register with_manifest with_directory manifest].
    rewrite manifest_add_entries, IH. rewrite filter_app. destruct (decide (path = name)) as [<-|Hn].
    - rewrite (filter_cons_True _ (path, c, md)) by done. cbn [filter list_filter]. rewrite last_snoc. cbn [snd].
      destruct (decide (path = MANIFEST_XML)) as [E|E].
      + rewrite decide_False by tauto. by destruct (last _).
      + rewrite decide_True by done. destruct (last _) as [r|]; [|done]. destruct (entries_of path (manifest m0)) as [|k l]; cbn [listed].
        * f_equal. unfold e_set, on_root, nd_set_attrs. cbn [attrs tag text tail].
          rewrite (insert_commute _ "manifest:media-type" "manifest:full-path") by done. unfold singletonM, map_singleton. by rewrite insert_insert.
        * f_equal. apply set_media_twice.
    - rewrite decide_False by tauto. rewrite (filter_cons_False _ (name, c, md)) by (cbn; congruence). cbn [filter list_filter]. by rewrite app_nil_r. }
  cbn zeta. split_and!.
  - intros path Hp Hin. destruct (last (filter (fun r => r.1.1 = path) regs)) as [r|] eqn:E.
    + exists r. split; [done|]. specialize (H1 regs m0 path). rewrite E, decide_False in H1 by done. unfold media_of. rewrite H1. split; [done|].
      destruct (entries_of path (manifest m0)) as [|[a ks] l]; cbn [listed lookup list_lookup option_bind mbind length]; (split; [|lia]).
      * unfold e_get. cbn. unfold MEDIA. by rewrite lookup_insert_ne, lookup_singleton by done.
      * unfold e_get, e_set. cbn. by rewrite lookup_insert.
    + exfalso. apply last_None in E. apply elem_of_list_fmap in Hin as (r & -> & Hr). 
      assert (r ∈ filter (fun r0 => r0.1.1 = r.1.1) regs) as Hf by (by apply elem_of_list_filter). rewrite E in Hf. by apply elem_of_nil in Hf.
  - rewrite H1. destruct (last _); [by rewrite decide_True by done|done].
  - clear H1. assert (Hsub : forall regs', (forall r, r ∈ regs' -> r.1.1 ∈ map (fun r => r.1.1) regs) -> 
      others (map (fun r => r.1.1) regs) (manifest (register_all regs' m0)) = others (map (fun r => r.1.1) regs) (manifest m0)).
    { intros regs'. induction regs' as [|[[name c] md] regs' IH] using rev_ind; [done|]. intros Hr.
      unfold register_all in *. rewrite foldl_app. cbn [foldl fst snd]. cbn [register with_manifest with_directory manifest].
      rewrite manifest_add_others; [apply IH; intros r Hin; apply Hr; set_solver|]. apply (Hr (name, c, md)). set_solver. }
    apply Hsub. intros r Hr. apply elem_of_list_fmap. by exists r.
  - clear H1. induction regs as [|[[name c] md] regs [fresh IH]] using rev_ind; [exists []; by rewrite app_nil_r|].
    unfold register_all in *. rewrite foldl_app. cbn [foldl fst snd]. cbn [register with_manifest with_directory manifest].
    destruct (manifest_add_paths name md (manifest (foldl (fun m r => register r.1.1 r.1.2 r.2 m) m0 regs))) as [fr ->]. rewrite IH, <- (assoc_L (++)). by eexists.
  - clear H1. induction regs as [|[[name c] md] regs IH] using rev_ind; [done|].
    unfold register_all in *. rewrite foldl_app. cbn [foldl fst snd]. cbn [register with_manifest with_directory manifest]. by rewrite manifest_add_root.
Qed.
Print Assumptions C28_registered.

(** remove(path) takes away the first entry of the path and nothing else. *)
Theorem C28_remove :
  forall (m : elem) (path : pystr),
    (entries_of path m = [] /\ manifest_remove path m = m) \/
    exists l1 k l2, m = T (root m) (l1 ++ k :: l2) /\ entries_of path m = k :: entries_of path (manifest_remove path m) /\
      manifest_remove path m = T (root m) (l1 ++ l2).
Proof.
  intros [a l] path. unfold manifest_remove, manifest_find, entries_of. cbn [kids root]. destruct (list_find _ _) as [[i k]|] eqn:E.
  - right. apply list_find_Some in E as (E1 & E2 & E3). exists (take i l), k, (drop (S i) l). cbn [on_kids kids].
    assert (El : l = take i l ++ k :: drop (S i) l) by (symmetry; by apply take_drop_middle).
    assert (Ed : delete_at i l = take i l ++ drop (S i) l) by done. split_and!.
    + f_equal. exact El.
    + rewrite Ed. rewrite El at 1. rewrite !filter_app. rewrite !(filter_all_not _ (take i l)).
      * cbn [app]. by rewrite filter_cons_True.
      * apply Forall_forall. intros x Hx. apply elem_of_list_lookup in Hx as [j Hj]. apply lookup_take_Some in Hj as [Hj Hl]. by eapply E3.
    + by rewrite Ed.
  - left. apply list_find_None in E. split; [by apply filter_all_not|done].
Qed.
Print Assumptions C28_remove.

Example C28_case :
  let m0 := T (Nd "manifest:manifest" ∅ None None)
    [T (Nd ENTRY {[PATH := lit "/"; MEDIA := lit "old"; VERSION := lit "1.2"]} None None) [];
     T (Nd ENTRY {[PATH := lit "Pictures/1.png"; MEDIA := lit "image/png"]} None None) []] in
  let m := manifest (register_all (B := tree_bytes) [(lit "content.xml", CObject 0, lit "a"); (lit "/", CObject 1, lit "new"); (MANIFEST_XML, CManifest, lit "m"); (lit "content.xml", CObject 0, lit "text/xml")]
    (Manager (B := tree_bytes) [] NoSource m0 (fun _ => new_elem "x"))) in
  media_of (lit "content.xml") m = Some (lit "text/xml") /\ media_of (lit "/") m = Some (lit "new") /\ length (kids m) = 3 /\
  (exists k, entries_of (lit "/") m = [k] /\ e_get VERSION k = Some (lit "1.2")).
Proof. cbn zeta. split_and!; [vm_compute; reflexivity..|]. eexists. split; vm_compute; reflexivity. Qed.

(** ** C29 *)
(** Wherever save() stops or fails, the old document is there under its name or as the
    backup; under its name is never something incomplete. *)
Theorem C29_backup `{Bytes} :
  forall (s s' : st) (f : pystr) (old : bytes) o, tidy (mgr s) -> files (mach s) !! f = Some old ->
    (forall p, source (mgr s) = SFile p -> plain_name p) ->
    save f true s = (s', o) ->
    (files (mach s') !! f = Some old \/ files (mach s') !! (f ++ lit ".bak") = Some old) /\
    (files (mach s') !! f = Some old \/ files (mach s') !! f = None \/
       exists new, files (mach s') !! f = Some new /\ new_version (mgr s) (files (mach s)) (~ no_failure s) new) /\
    (exists tmp, (temporary f tmp /\ files (mach s) !! tmp = None \/ tmp = f) /\
       forall q, q <> tmp -> q <> f -> q <> f ++ lit ".bak" -> files (mach s') !! q = files (mach s) !! q) /\
    (o = Done (Ok tt) -> files (mach s') !! (f ++ lit ".bak") = Some old /\
       exists new, files (mach s') !! f = Some new /\ new_version (mgr s) (files (mach s)) (~ no_failure s) new).
Proof.
  intros s s' f old o Ht Hold Hp E.
  destruct (save_spec f true s s' o) as [(-> & F & M)|(tmp & r & Hr & Etmp & Hfree & Hft & Hc)]; [left; by eexists| |done| |].
  - intros p Hs. right. intros r _. apply plain_tmp. by apply Hp.
  - rewrite F. split_and!; [by left|by left|exists f; split; [by right|done]|done].
  - pose proof (bak_not_self f) as Hbs. pose proof (bak_not_tmp f r) as Hbt. rewrite <- Etmp in Hbt. change (f ++ BAK) with (f ++ lit ".bak") in *.
    assert (Hex : forall fs' : gmap pystr bytes, (forall q, q <> tmp -> q <> f -> q <> f ++ lit ".bak" -> fs' !! q = files (mach s) !! q) -> 
      exists tmp, (temporary f tmp /\ files (mach s) !! tmp = None \/ tmp = f) /\
       forall q, q <> tmp -> q <> f -> q <> f ++ lit ".bak" -> fs' !! q = files (mach s) !! q).
    { intros fs' Hq. exists tmp. split; [left; split; [by exists r|done]|done]. }
    destruct Hc as [(Ho & F & _)|(new & mt & Hnew & _ & [(Ho & _ & F & _)|(Ho & _ & F)])].
    + rewrite F by done. split_and!; [by left|by left| |by intros]. apply Hex. intros q Hq _ _. by apply F.
    + destruct F as [|old' _ Ho'|old' _ Ho'|]; [| | |done].
      * rewrite (lookup_insert_ne _ tmp f) by done. split_and!; [by left|by left| |by intros]. apply Hex. intros q Hq _ _. by rewrite lookup_insert_ne.
      * rewrite (lookup_delete_ne _ _ f), (lookup_insert_ne _ tmp f) by done. split_and!; [by left|by left| |by intros]. apply Hex.
        intros q Hq _ Hb. by rewrite lookup_delete_ne, lookup_insert_ne by done.
      * assert (old' = old) by congruence. subst old'. change (f ++ BAK) with (f ++ lit ".bak"). rewrite lookup_insert.
        rewrite (lookup_insert_ne _ _ f), lookup_delete by done. split_and!; [by right|by right; left| |by intros]. apply Hex.
        intros q Hq Hf Hb. by rewrite lookup_insert_ne, lookup_delete_ne, lookup_insert_ne by done.
    + rewrite F. unfold saved. rewrite Hold, lookup_insert, (lookup_insert_ne _ f), lookup_insert by done. split_and!; [by right|right; right; by exists new| |].
      * apply Hex. intros q Hq Hf Hb. by rewrite !lookup_insert_ne by done.
      * intros _. split; [done|]. by exists new.
Qed.
Print Assumptions C29_backup.

(** Saving under a new name: there is nothing or the complete document under it. *)
Theorem C29_new_name `{Bytes} :
  forall (s s' : st) (f : pystr) (backup : bool) o, tidy (mgr s) -> files (mach s) !! f = None -> plain_name f ->
    (forall p, source (mgr s) = SFile p -> plain_name p) ->
    save f backup s = (s', o) ->
    (files (mach s') !! f = None \/ exists new, files (mach s') !! f = Some new /\ new_version (mgr s) (files (mach s)) (~ no_failure s) new) /\
    (exists tmp, (temporary f tmp /\ files (mach s) !! tmp = None \/ tmp = f) /\
       forall q, q <> tmp -> q <> f -> files (mach s') !! q = files (mach s) !! q) /\
    (o = Done (Ok tt) -> is_Some (files (mach s') !! f)).
Proof.
  intros s s' f backup o Ht Hold Hpl Hp E.
  destruct (save_spec f backup s s' o) as [(-> & F & M)|(tmp & r & Hr & Etmp & Hfree & Hft & Hc)]; [| |done| |].
  - right. intros r _. by apply plain_tmp.
  - intros p Hs. right. intros r _. apply plain_tmp. by apply Hp.
  - rewrite F. split_and!; [by left|exists f; split; [by right|done]|done].
  - assert (Hex : forall fs' : gmap pystr bytes, (forall q, q <> tmp -> q <> f -> fs' !! q = files (mach s) !! q) -> 
      exists tmp, (temporary f tmp /\ files (mach s) !! tmp = None \/ tmp = f) /\
       forall q, q <> tmp -> q <> f -> fs' !! q = files (mach s) !! q).
    { intros fs' Hq. exists tmp. split; [left; split; [by exists r|done]|done]. }
    destruct Hc as [(Ho & F & _)|(new & mt & Hnew & _ & [(Ho & _ & F & _)|(Ho & _ & F)])].
    + rewrite F by done. split_and!; [by left| |by intros]. apply Hex. intros q Hq _. by apply F.
    + destruct F as [|old' _ Ho'|old' _ Ho'|old' _ Ho']; [|congruence..].
      rewrite (lookup_insert_ne _ tmp f) by done. split_and!; [by left| |by intros]. apply Hex. intros q Hq _. by rewrite lookup_insert_ne.
    + rewrite F. unfold saved. rewrite Hold, lookup_insert. split_and!; [right; by exists new| |by eexists].
      apply Hex. intros q Hq Hf. by rewrite !lookup_insert_ne by done.
Qed.
Print Assumptions C29_new_name.

(** The process stops after the old file was moved away: the backup has it. *)
Example C29_case : exists s', tidy (B := tree_bytes) (mgr (demo_st (replicate 9 Go))) /\ save (lit "/d/a.odt") true (demo_st (replicate 9 Go)) = (s', Stop) /\
  files (mach (demo_st (replicate 9 Go))) !! lit "/d/a.odt" = Some (BZip demo_pkg) /\
  files (mach s') !! lit "/d/a.odt" = None /\ files (mach s') !! lit "/d/a.odt.bak" = Some (BZip demo_pkg).
Proof.
  exists (save (lit "/d/a.odt") true (demo_st (replicate 9 Go))).1. split; [exact demo_tidy|]. split; [apply pair_by; by_vm|]. split; [by_vm|]. split; by_vm.
Qed.

(** ** C30 *)
Theorem C30_no_backup `{Bytes} :
  forall (s s' : st) (f : pystr) (old : bytes) o, tidy (mgr s) -> files (mach s) !! f = Some old ->
    (forall p, source (mgr s) = SFile p -> plain_name p) ->
    save f false s = (s', o) ->
    (files (mach s') !! f = Some old \/
       exists new, new_version (mgr s) (files (mach s)) (~ no_failure s) new /\
         (files (mach s') !! f = Some new \/ files (mach s') !! f = None /\ exists tmp, temporary f tmp /\ files (mach s') !! tmp = Some new)) /\
    (exists tmp, (temporary f tmp /\ files (mach s) !! tmp = None \/ tmp = f) /\
       forall q, q <> tmp -> q <> f -> files (mach s') !! q = files (mach s) !! q) /\
    (o = Done (Ok tt) -> exists new, files (mach s') !! f = Some new /\ new_version (mgr s) (files (mach s)) (~ no_failure s) new).
Proof.
  intros s s' f old o Ht Hold Hp E.
  destruct (save_spec f false s s' o) as [(-> & F & M)|(tmp & r & Hr & Etmp & Hfree & Hft & Hc)]; [left; by eexists| |done| |].
  - intros p Hs. right. intros r _. apply plain_tmp. by apply Hp.
  - rewrite F. split_and!; [by left|exists f; split; [by right|done]|done].
  - assert (Hex : forall fs' : gmap pystr bytes, (forall q, q <> tmp -> q <> f -> fs' !! q = files (mach s) !! q) -> 
      exists tmp, (temporary f tmp /\ files (mach s) !! tmp = None \/ tmp = f) /\
       forall q, q <> tmp -> q <> f -> fs' !! q = files (mach s) !! q).
    { intros fs' Hq. exists tmp. split; [left; split; [by exists r|done]|done]. }
    destruct Hc as [(Ho & F & _)|(new & mt & Hnew & _ & [(Ho & _ & F & _)|(Ho & _ & F)])].
    + rewrite F by done. split_and!; [by left| |by intros]. apply Hex. intros q Hq _. by apply F.
    + destruct F as [|old' ? Ho'|old' ? Ho'|old' _ Ho']; [|done|done|].
      * rewrite (lookup_insert_ne _ tmp f) by done. split_and!; [by left| |by intros]. apply Hex. intros q Hq _. by rewrite lookup_insert_ne.
      * rewrite lookup_delete. split_and!; [|apply Hex; intros q Hq Hf; by rewrite lookup_delete_ne, lookup_insert_ne by done|by intros].
        right. exists new. split; [done|]. right. split; [done|]. exists tmp. split; [by exists r|]. by rewrite lookup_delete_ne, lookup_insert by done.
    + rewrite F. unfold saved. rewrite Hold, lookup_insert. split_and!; [right; exists new; split; [done|by left]| |by exists new].
      apply Hex. intros q Hq Hf. by rewrite !lookup_insert_ne by done.
Qed.
Print Assumptions C30_no_backup.

(** There is a moment when nothing is under the name. *)
Theorem C30_window_counterexample :
  exists (B : Bytes) (s s' : st) f old, no_failure s /\ files (mach s) !! f = Some old /\ save f false s = (s', Stop) /\
    files (mach s') !! f = None /\ files (mach s') !! (f ++ lit ".bak") = None.
Proof.
  exists tree_bytes. set (s := demo_st (replicate 9 Go)). exists s, (save (lit "/d/a.odt") false s).1, (lit "/d/a.odt"), (BZip demo_pkg).
  split; [apply go_no_failure|]. split; [by_vm|]. split; [apply pair_by; by_vm|]. split; by_vm.
Qed.
Print Assumptions C30_window_counterexample.
Example C30_case : exists s', tidy (B := tree_bytes) (mgr (demo_st (replicate 10 Go))) /\ save (lit "/d/a.odt") false (demo_st (replicate 10 Go)) = (s', Done (Ok tt)) /\
  files (mach (demo_st (replicate 10 Go))) !! lit "/d/a.odt" = Some (BZip demo_pkg).
Proof.
  exists (save (lit "/d/a.odt") false (demo_st (replicate 10 Go))).1. split; [exact demo_tidy|]. split; [apply pair_by; by_vm|by_vm].
Qed.

(** ** C31 *)
Theorem C31_save `{Bytes} :
  forall (s s' : st) (f : pystr) (backup : bool), plain_name f -> (forall p, source (mgr s) = SFile p -> plain_name p) ->
    save f backup s = (s', Done (Ok tt)) ->
    exists new, files (mach s') = saved f backup new (files (mach s)) /\ new_version (mgr s) (files (mach s)) (~ no_failure s) new.
Proof.
  intros s s' f backup Hf Hp E.
  destruct (save_spec f backup s s' (Done (Ok tt))) as [(? & _)|(tmp & r & _ & _ & _ & _ & [(? & _)|(new & mt & Hnew & Hmt & [(? & _)|(_ & M & F)])])]; try done.
  - right. intros r _. by apply plain_tmp.
  - intros p Hs. right. intros r _. apply plain_tmp. by apply Hp.
  - by exists new.
Qed.
Print Assumptions C31_save.

Theorem C31_session `{Bytes} :
  forall (s s' : st) l, session s l s' -> files (mach s') = foldl (fun fs x => saved x.1.1 x.1.2 x.2 fs) (files (mach s)) l.
Proof.
  intros s s' l Hs. induction Hs as [|s l s1 m e r Hs IH|s l s1 s2 f backup new Hs IH Hf Hp E Hnew]; [done|exact IH|].
  destruct (C31_save _ _ _ _ Hf Hp E) as (new' & F & _). rewrite foldl_app. cbn [foldl fst snd]. rewrite <- IH, F.
  rewrite F in Hnew. unfold saved in Hnew. rewrite lookup_insert in Hnew. congruence.
Qed.
Print Assumptions C31_session.

(** No other file changes, none is left over. *)
Theorem C31_other_files `{Bytes} :
  forall (s s' : st) l q, session s l s' -> (forall f b new, (f, b, new) ∈ l -> q <> f /\ q <> f ++ lit ".bak") ->
    files (mach s') !! q = files (mach s) !! q.
Proof.
  intros s s' l q Hs Hq. rewrite (C31_session _ _ _ Hs). clear Hs. generalize (files (mach s)). induction l as [|[[f b] new] l IH]; intros fs; [done|].
  cbn [foldl fst snd]. rewrite IH by (intros f' b' n' Hin; apply (Hq f' b' n'); by right). destruct (Hq f b new) as [H1 H2]; [by left|].
  unfold saved. rewrite lookup_insert_ne by done. destruct (fs !! f); [|done]. destruct b; [|done]. by rewrite lookup_insert_ne.
Qed.
Print Assumptions C31_other_files.

(** After two saves with backup under one name, and saves under unrelated names in
    between and afterwards, the name has the last version and the backup the one before. *)
Theorem C31_backup `{Bytes} :
  forall (s s' : st) l1 l2 l3 f b v1 v2, session s (l1 ++ (f, b, v1) :: l2 ++ (f, true, v2) :: l3) s' ->
    (forall g c w, (g, c, w) ∈ l2 -> g <> f /\ g ++ lit ".bak" <> f) ->
    (forall g c w, (g, c, w) ∈ l3 -> g <> f /\ g ++ lit ".bak" <> f /\ g <> f ++ lit ".bak") ->
    files (mach s') !! f = Some v2 /\ files (mach s') !! (f ++ lit ".bak") = Some v1.
Proof.
  intros s s' l1 l2 l3 f b v1 v2 Hs H2 H3. rewrite (C31_session _ _ _ Hs). clear Hs. rewrite foldl_app. cbn [foldl fst snd].
  set (fs := foldl _ _ l1). clearbody fs. rewrite foldl_app. cbn [foldl fst snd].
  assert (K : forall (g : pystr) l fs, (forall f' c w, (f', c, w) ∈ l -> f' <> g /\ f' ++ lit ".bak" <> g) -> foldl (fun fs (x : pystr * bool * bytes) => saved x.1.1 x.1.2 x.2 fs) fs l !! g = fs !! g).
  { clear. intros g l. induction l as [|[[f b] new] l IH]; intros fs Hl; [done|]. cbn [foldl fst snd].
    rewrite IH by (intros f' c w Hin; apply (Hl f' c w); by right). destruct (Hl f b new) as [K1 K2]; [by left|].
    unfold saved. rewrite lookup_insert_ne by done. destruct (fs !! f); [|done]. destruct b; [|done]. by rewrite lookup_insert_ne. }
  pose proof (bak_not_self f) as Hb. change (f ++ BAK) with (f ++ lit ".bak") in Hb.
  set (fs1 := foldl _ (saved f b v1 fs) l2).
  assert (E1 : fs1 !! f = Some v1). { subst fs1. rewrite K by done. unfold saved. by rewrite lookup_insert. }
  clearbody fs1. rewrite !K.
  - unfold saved. rewrite E1, lookup_insert, (lookup_insert_ne _ f), lookup_insert by done. done.
  - intros g c w Hin. destruct (H3 g c w Hin) as (K1 & K2 & K3). split; [done|]. intros E. apply app_inj_2 in E as [? _]; done.
  - intros g c w Hin. destruct (H3 g c w Hin) as (K1 & K2 & K3). done.
Qed.
Print Assumptions C31_backup.

Definition demo_saved1 := (save (B := tree_bytes) (lit "/d/b.odt") true (demo_st (replicate 40 Go))).1.
Definition demo_edited := St (B := tree_bytes) (Machine tree_bytes (files (mach demo_saved1)) (replicate 40 Go) [lit "xyz"]) demo_mgr.
Definition demo_saved2 := (save (B := tree_bytes) (lit "/d/b.odt") true demo_edited).1.
Example C31_case : exists v1 v2, session (B := tree_bytes) (demo_st (replicate 40 Go)) [(lit "/d/b.odt", true, v1); (lit "/d/b.odt", true, v2)] demo_saved2.
Proof.
  assert (Hb : plain_name (lit "/d/b.odt")).
  { intros [a E]. apply (f_equal last) in E. change (lit ".tmp") with (lit ".tm" ++ [112%N]) in E. rewrite (assoc_L (++)), last_snoc in E. vm_compute in E. done. }
  exists (default (BText []) (files (mach demo_saved1) !! lit "/d/b.odt")), (default (BText []) (files (mach demo_saved2) !! lit "/d/b.odt")).
  apply (S_save _ [_] demo_edited _ (lit "/d/b.odt") true).
  - apply (S_work _ [_] demo_saved1). apply (S_save _ [] (demo_st (replicate 40 Go)) _ (lit "/d/b.odt") true).
    + apply S_start.
    + exact Hb.
    + intros p [= <-]. exact demo_plain.
    + apply (pair_by (save (lit "/d/b.odt") true (demo_st (replicate 40 Go)))). by_vm.
    + by_vm.
  - exact Hb.
  - intros p [= <-]. exact demo_plain.
  - apply (pair_by (save (lit "/d/b.odt") true demo_edited)). by_vm.
  - by_vm.
Qed.

(** A free name that ends with ".tmp" may be drawn as the temporary name: then saving
    fails although nothing goes wrong, and the document is only in the backup. *)
Theorem C31_tmp_name_counterexample :
  exists (B : Bytes) (s s' : st) f, no_failure s /\ files (mach s) !! f = None /\ save f true s = (s', Done (Err IOError)) /\
    files (mach s') !! f = None /\ is_Some (files (mach s') !! (f ++ lit ".bak")).
Proof.
  exists tree_bytes. set (s := St (B := tree_bytes) (Machine tree_bytes ∅ (replicate 40 Go) [lit "Ab3dEf7h"]) demo_mgr).
  exists s, (save (lit "/d/Ab3dEf7h.tmp") true s).1, (lit "/d/Ab3dEf7h.tmp").
  split; [apply go_no_failure|]. split; [by_vm|]. split; [apply pair_by; by_vm|]. split; [by_vm|dec_vm].
Qed.
Print Assumptions C31_tmp_name_counterexample.

(** ** C32 *)
Lemma package_read `{Bytes} (m : manager) src es name : package m src src es -> ~ registered m name -> zip_read name es = zip_read name src.
Proof.
  intros (_ & _ & Hc) Hn. unfold zip_read, zip_find.
  assert (K : forall l l' : list (entry bytes), Forall2 (copy_of src) l l' -> Forall2 (copy_of src) (filter (fun e => en_name e = name) l) (filter (fun e => en_name e = name) l')).
  { clear. induction 1 as [|x y l l' Hxy Hl IH]; [cbn; constructor|]. destruct (decide (en_name x = name)) as [E|E].
    - rewrite !filter_cons_True; [by constructor|destruct Hxy; congruence|done].
    - rewrite !filter_cons_False; [done|destruct Hxy; congruence|done]. }
  apply K in Hc. 
  assert (K2 : forall l : list (entry bytes), filter (fun e => en_name e = name) (filter (fun e => ~ registered m (en_name e)) l) = filter (fun e => en_name e = name) l).
  { clear -Hn. induction l as [|x l IH]; [done|]. destruct (decide (en_name x = name)) as [E|E].
    - rewrite (filter_cons_True (fun e => ~ registered m (en_name e))) by congruence. rewrite !filter_cons_True by done. by rewrite IH.
    - rewrite (filter_cons_False (fun e => en_name e = name)) by done. rewrite <- IH. destruct (decide (~ registered m (en_name x))).
      + rewrite (filter_cons_True (fun e => ~ registered m (en_name e))) by done. by rewrite filter_cons_False.
      + by rewrite (filter_cons_False (fun e => ~ registered m (en_name e))). }
  rewrite !K2 in Hc. clear K K2. 
  assert (K3 : forall l l' : list (entry bytes), Forall2 (copy_of src) l l' -> option_Forall2 (copy_of src) (last l) (last l')).
  { clear. induction 1 as [|x y l l' Hxy Hl IH]; [constructor|]. destruct Hl as [|x2 y2 l l' H2 Hl]; [by constructor|exact IH]. }
  apply K3 in Hc. destruct (last (filter (fun e => en_name e = name) src)) as [x|] eqn:Ex.
  - inversion Hc as [x' y Hxy E1 E2|]. subst x'. destruct Hxy as (A1 & A2 & e1 & A3 & A4 & A5).
    assert (Hx : en_name x = name). { apply last_Some in Ex as [l' El]. assert (x ∈ filter (fun e => en_name e = name) src) as Hin by (rewrite El; set_solver). by apply elem_of_list_filter in Hin as [? _]. }
    rewrite Hx, Ex in A3. injection A3 as <-. by rewrite A4.
  - by inversion Hc.
Qed.

(** Whatever is not managed at the end of a history can be read as at its beginning. *)
Theorem C32_unmanaged_parts `{Bytes} :
  forall (s s' : st), history s s' -> tidy (mgr s) -> (forall p, source (mgr s) = SFile p -> plain_name p) ->
    let now s := source_entries (files (mach s)) (source (mgr s)) in
    (forall name, ~ registered (mgr s') name -> zip_read name (now s') = zip_read name (now s)) /\
    unmanaged (mgr s') (now s') = unmanaged (mgr s') (now s).
Proof.
  intros s s' Hh Ht Hp now.
  assert (K : tidy (mgr s') /\ (forall p, source (mgr s') = SFile p -> plain_name p) /\
    (forall name, ~ registered (mgr s') name -> zip_read name (now s') = zip_read name (now s)) /\
    (forall P : pystr -> Prop, forall D : (forall n, Decision (P n)), (forall name, P name -> ~ registered (mgr s') name) -> 
       map (fun e => (en_name e, en_stored e)) (filter (fun e => P (en_name e)) (now s')) = map (fun e => (en_name e, en_stored e)) (filter (fun e => P (en_name e)) (now s)))).
  { subst now. cbn beta. induction Hh as [s|s s1 name c media Hh IH|s s1 o Hh IH|s s1 e Hh IH|s s1 m Hh IH Hm|s s1 s2 f backup Hh IH Hf Hn E|s s1 s2 b Hh IH Hn E].
    - done.
    - destruct (IH Ht Hp) as (I1 & I2 & I3 & I4). cbn [upd_mgr mgr mach register with_manifest with_directory source]. split_and!; [by apply register_tidy|done| |].
      + intros x Hx. apply I3. intros Hr. apply Hx. apply register_registered. by right.
      + intros P D HP. apply I4. intros x Hx Hr. apply (HP x Hx). apply register_registered. by right.
    - destruct (IH Ht Hp) as (I1 & I2 & I3 & I4). done.
    - destruct (IH Ht Hp) as (I1 & I2 & I3 & I4). done.
    - destruct (IH Ht Hp) as (I1 & I2 & I3 & I4). cbn [set_machine upd_mach mgr mach].
      assert (Es : source_entries (files m) (source (mgr s1)) = source_entries (files (mach s1)) (source (mgr s1))).
      { unfold source_entries. destruct (source (mgr s1)); [done| |done]. by rewrite Hm. }
      rewrite Es. done.
    - destruct (IH Ht Hp) as (I1 & I2 & I3 & I4). destruct (C27_save _ _ _ _ I1 Hn Hf I2 E) as (es & F & Hpk & Hs & Hsrc & Ht2). cbn zeta in Hpk.
      assert (Es : source_entries (files (mach s2)) (source (mgr s2)) = es). { rewrite Hsrc. cbn. by rewrite F, zip_unpack_pack. }
      rewrite Es. destruct Hs as (_ & _ & Hreg & _). split_and!; [done|intros p Ep; rewrite Hsrc in Ep; by injection Ep as <-| |].
      + intros x Hx. rewrite <- I3 by (by rewrite <- Hreg). apply (package_read (mgr s1)); [done|]. by rewrite <- Hreg.
      + intros P D HP. rewrite <- I4 by (intros x Hx; rewrite <- Hreg; by apply HP). destruct Hpk as (_ & _ & Hc).
        assert (K2 : forall l : list (entry bytes), filter (fun e => P (en_name e)) l = filter (fun e => P (en_name e)) (filter (fun e => ~ registered (mgr s1) (en_name e)) l)).
        { induction l as [|x l IHl]; [done|]. destruct (decide (P (en_name x))) as [Px|Px].
          - rewrite (filter_cons_True (fun e => ~ registered (mgr s1) (en_name e))) by (rewrite <- Hreg; by apply HP). rewrite !filter_cons_True by done. by rewrite IHl.
          - rewrite filter_cons_False by done. rewrite IHl. destruct (decide (~ registered (mgr s1) (en_name x))).
            + rewrite (filter_cons_True (fun e => ~ registered (mgr s1) (en_name e))) by done. by rewrite filter_cons_False.
            + by rewrite (filter_cons_False (fun e => ~ registered (mgr s1) (en_name e))). }
        rewrite (K2 es), (K2 (source_entries (files (mach s1)) (source (mgr s1)))). clear K2. induction Hc as [|x y l l' (A1 & A2 & _) Hl IHl]; [done|].
        destruct (decide (P (en_name x))) as [Px|Px].
        * rewrite !filter_cons_True by congruence. cbn [map]. by rewrite IHl, A1, A2.
        * rewrite !filter_cons_False by congruence. done.
    - destruct (IH Ht Hp) as (I1 & I2 & I3 & I4). destruct (C27_tobytes _ _ _ I1 Hn E) as (es & _ & _ & (_ & _ & Hreg & _) & Hsrc & Ht2 & F). rewrite Hsrc, F. split_and!; try done.
      + intros x Hx. apply I3. by rewrite <- Hreg.
      + intros P D HP. apply I4. intros x Hx. rewrite <- Hreg. by apply HP. }
  destruct K as (_ & _ & K3 & K4). split; [exact K3|]. unfold unmanaged.
  assert (Km : forall l1 : list (entry bytes), map (fun e => (en_name e, en_stored e, zip_read (en_name e) (now s'))) (filter (fun e => ~ registered (mgr s') (en_name e)) l1) =
    map (fun x => (x, zip_read x.1 (now s))) (map (fun e => (en_name e, en_stored e)) (filter (fun e => ~ registered (mgr s') (en_name e)) l1))).
  { intros l1. rewrite map_map. apply map_ext_in. intros e He. apply elem_of_list_In, elem_of_list_filter in He as [He _]. cbn [fst snd]. by rewrite K3. }
  rewrite Km. specialize (K4 (fun n => ~ registered (mgr s') n) _ (fun _ Hx => Hx)). cbn beta in K4. etrans; [exact (f_equal _ K4)|]. by rewrite map_map.
Qed.
Print Assumptions C32_unmanaged_parts.

Definition demo_edited2 := set_objects (B := tree_bytes) (fun _ => new_elem "office:other") (demo_st (replicate 40 Go)).
Definition demo_saved3 := (save (B := tree_bytes) (lit "/d/b.odt") true demo_edited2).1.
Example C32_case : history (B := tree_bytes) (demo_st (replicate 40 Go)) demo_saved3 /\ source (mgr demo_saved3) = SFile (lit "/d/b.odt") /\
  unmanaged (B := tree_bytes) (mgr demo_saved3) (source_entries (files (mach demo_saved3)) (source (mgr demo_saved3))) = [(lit "Pictures/1.png", true, Ok (BText (lit "png")))].
Proof.
  assert (Hb : plain_name (lit "/d/b.odt")).
  { intros [a E]. apply (f_equal last) in E. change (lit ".tmp") with (lit ".tm" ++ [112%N]) in E. rewrite (assoc_L (++)), last_snoc in E. vm_compute in E. done. }
  split.
  - apply (H_save _ demo_edited2 _ (lit "/d/b.odt") true).
    + apply (H_edit _ _ (fun _ => new_elem "office:other")). apply H_start.
    + exact Hb.
    + apply go_no_failure.
    + apply (pair_by (save (lit "/d/b.odt") true demo_edited2)). by_vm.
  - split; by_vm.
Qed.

(** With a read error during the save a picture gets lost silently. *)
Theorem C32_read_error_counterexample :
  exists (B : Bytes) (s s' : st) f name b, tidy (mgr s) /\ save f true s = (s', Done (Ok tt)) /\ ~ registered (mgr s') name /\
    zip_read name (source_entries (files (mach s)) (source (mgr s))) = Ok b /\
    zip_read name (source_entries (files (mach s')) (source (mgr s'))) = Err KeyError.
Proof.
  exists tree_bytes. set (s := demo_st ([Go; Go; Go; Go; Fail] ++ replicate 9 Go)).
  exists s, (save (lit "/d/a.odt") true s).1, (lit "/d/a.odt"), (lit "Pictures/1.png"), (BText (lit "png")).
  split; [exact demo_tidy|]. split; [apply pair_by; by_vm|]. split; [dec_vm|]. split; by_vm.
Qed.
Print Assumptions C32_read_error_counterexample.
