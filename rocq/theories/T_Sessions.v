(** C68: documents edited, saved and opened any number of times. *)
From Verif Require T_Document T_TextDoc T_Files.
From Verif Require Import NodeOrganizerProofs SessionsSpec TextDocProofs DocumentProofs MetaProofs.

Lemma kept_nonempty v : nonempty_text v = kept v.
Proof. destruct v as [[|]|]; done. Qed.
Lemma has_stats_iff m : has_children ["meta:document-statistic"%string] m <-> has_stats m.
Proof. unfold has_children. rewrite Forall_singleton. done. Qed.
Lemma parsed_field key m : field key (parsed m) = kept <$> field key m.
Proof.
  unfold field. destruct (alookup key META_TAGS) as [t|]; [|done]. rewrite parsed_head. destruct (head (findall t m)) as [k|]; [|done].
  cbn. rewrite <- kept_nonempty. by destruct k.
Qed.
Lemma parsed_text e : e_text (parsed e) = kept (e_text e).
Proof. destruct e as [a ks]. rewrite <- kept_nonempty. done. Qed.
Lemma parsed_words m : words (parsed m) = map kept (words m).
Proof. unfold words. rewrite parsed_findall, !map_map. apply map_ext. intros k. apply parsed_text. Qed.
Lemma parsed_users m : users (parsed m) = map kept_user (users m).
Proof. unfold users. rewrite parsed_findall, !map_map. apply map_ext. intros k. unfold kept_user. cbn [fst snd]. by rewrite parsed_text, !parsed_get. Qed.
Lemma parsed_stat key m : stat key (parsed m) = stat key m.
Proof. unfold stat. rewrite parsed_head. destruct (head _) as [k|]; [|done]. cbn. apply parsed_get. Qed.
Lemma parsed_again e : parsed (parsed e) = parsed e.
Proof. apply parsed_solid, solid_parsed. Qed.

Section sessions.
Context `{U : Unicode} `{B : Bytes}.
Lemma words_end now gen l ops : foldl words_after l (ops ++ [MTouch now gen; MInc]) = foldl words_after l ops.
Proof. by rewrite foldl_app. Qed.
Lemma users_end now gen l ops : foldl users_after l (ops ++ [MTouch now gen; MInc]) = foldl users_after l ops.
Proof. by rewrite foldl_app. Qed.
Lemma stat_end key now gen l ops : foldl (stat_after key) l (ops ++ [MTouch now gen; MInc]) = foldl (stat_after key) l ops.
Proof. by rewrite foldl_app. Qed.

Lemma rooted_play t g ops m : rooted t g -> meta_of (objects g 0) = Some m ->
  rooted t (set_object 0 (play_doc ops (objects g 0)) g) /\ has_stats m /\ meta_of (play_doc ops (objects g 0)) = Some (play ops m).
Proof.
  intros Hr Hm. pose proof Hr as ((_ & m0 & A2 & A3) & _). unfold meta_of in *. rewrite Hm in A2. injection A2 as <-. apply has_stats_iff in A3.
  rewrite <- first_kid_tag in Hm. destruct (first_kid (has_tag "office:meta") (objects g 0)) as [[i m1]|] eqn:E; [|done]. injection Hm as ->.
  destruct (run_doc_eq ops _ _ _ E A3) as [E1 E2]. assert (Hf : head (findall "office:meta" (play_doc ops (objects g 0))) = Some (play ops m)) by (rewrite <- first_kid_tag, E2; done).
  split; [|by split]. apply (rooted_meta t g _ (play ops m)); [done|by rewrite E1|done|by apply run_stats].
Qed.
End sessions.

(** the document after the calls of one session *)
Definition worked `{U : Unicode} `{B : Bytes} (t : string) (x : sitting) (s : FileManager.st) : FileManager.st := edit_body t (sn_body x) (edit_meta (sn_meta x) s).
Lemma session_opens `{U : Unicode} `{B : Bytes} c t x D ext s s1 D1 s2 m y :
  is_type (mimetype D) ext t -> document (mimetype D) (mgr s) -> complete t (mgr s) ->
  (forall p, source (mgr s) = SFile p -> plain_name p) -> plain_name (sn_file x) ->
  meta_of (objects (mgr s) 0) = Some m -> body_of t (objects (mgr s) 2) = Some y -> Forall good_decl (kids y) -> Forall safe (sn_body x) ->
  work t x D s = (s1, Done (Ok D1)) ->
  files (mach s2) !! sn_file x = files (mach s1) !! sn_file x -> no_failure s2 -> 10 <= length (env (mach s2)) ->
  exists s3 m3 l, opendoc c (FromFile (sn_file x)) s2 = (s3, Done (Ok (Doc (Some (sn_file x)) (mimetype D) ext true))) /\
    source (mgr s3) = SFile (sn_file x) /\
    has_stats m /\ meta_of (objects (mgr s3) 0) = Some m3 /\ m3 = parsed (play (all_ops x) m) /\
    objects (mgr s3) 1 = parsed (objects (mgr s) 1) /\
    edits (sn_body x) (kids y) l /\ Forall good_decl l /\
    let y3 := parsed (T (body_node (sn_body x) (root y)) (l ++ missing l)) in
    body_of t (objects (mgr s3) 2) = Some y3 /\ objects (mgr s3) 2 = with_body t y3 (parsed (objects (mgr s) 2)).
Proof.
  intros HT Hd Hc Hps Hp Hm Hy Hg Hs E Hfile Hn Hk. set (sM := edit_meta (sn_meta x) s).
  assert (Ew : exists D', D' = Doc (Some (sn_file x)) (mimetype D) (doctype D) (backup D) /\ doc_save (sn_now x) (sn_gen x) D' (worked t x s) = (s1, Done (Ok tt))).
  { eexists. split; [done|]. unfold work, doc_saveas, pbind in E. fold (worked t x s) in E.
    destruct (doc_save (sn_now x) (sn_gen x) _ (worked t x s)) as [s0 [|[[]|e]]]; try done. by injection E as -> _. }
  destruct Ew as (D' & HD' & Ew). pose proof Hc as Hcc. apply complete_iff in Hc as [Hr Hu].
  destruct (rooted_play t (mgr s) (sn_meta x) m Hr Hm) as (Hr1 & Hst & Hm1).
  assert (Hc1 : complete t (mgr sM)) by (apply complete_iff; by split).
  assert (Hmt : mimetype D' = mimetype D) by (by rewrite HD').
  destruct (T_TextDoc.C67_saved (sn_now x) (sn_gen x) c D' (sn_file x) ext t (sn_body x) sM s1 s2 y) as (s3 & l & E3 & Hl & Hb & Ho); try done; try (by rewrite Hmt); [by rewrite HD'|].
  assert (Hgl := edits_good _ _ _ Hl Hs Hg).
  (* the other trees *)
  destruct (T_TextDoc.C67_history t (sn_body x) (objects (mgr s) 2) y Hy) as (y' & P1 & P2 & P3 & P4).
  assert (Hty : e_tag y' = t) by (by eapply body_tag).
  assert (HrE : rooted t (mgr (worked t x s))).
  { unfold worked, edit_body. cbn [mgr upd_mgr]. change (objects (mgr (edit_meta (sn_meta x) s)) 2) with (objects (mgr s) 2). rewrite P1. apply (rooted_replaced _ t); [done| | |].
    - by destruct Hr as (_ & _ & Hr & _).
    - apply (good_with t _ y); try done. by eapply edits_good.
    - destruct Hr as (_ & _ & _ & _ & Htl). by repeat (apply Forall_cons in Htl as [? Htl]). }
  destruct (T_Document.C52_any (sn_now x) (sn_gen x) c D' (sn_file x) ext t (worked t x s) s1 s2) as (s3' & E3' & O0 & O1 & _ & _ & S3); try done; try (by rewrite Hmt); [by rewrite HD'|].
  rewrite E3 in E3'. injection E3' as <-. rewrite Hmt in E3.
  exists s3, (parsed (play (all_ops x) m)), l. split; [done|]. split; [done|]. split; [done|]. split.
  { rewrite O0. unfold meta_of. rewrite parsed_head. change (objects (mgr (worked t x s)) 0) with (play_doc (sn_meta x) (objects (mgr s) 0)).
    destruct (rooted_play t (mgr s) (all_ops x) m Hr Hm) as (_ & _ & H). unfold all_ops at 1 in H. unfold play_doc in H |- *. rewrite foldl_app in H. unfold meta_of in H. by rewrite H. }
  split; [done|]. split.
  { rewrite O1. change (objects (mgr (worked t x s)) 1) with (objects (mgr s) 1). apply parsed_furnished, furnished_again in Hu as [U1 _]. exact U1. }
  split; [done|]. split; [done|]. cbv zeta. by split.
Qed.

(** C68.  After any number of sessions the meta data, the styles and the body are what the calls
    of all sessions make of what was there at first, but for empty texts. *)
Theorem C68_life `{U : Unicode} `{B : Bytes} c t ext (xs : list sitting) D s D' s' (m y : elem) :
  is_type (mimetype D) ext t -> document (mimetype D) (mgr s) -> complete t (mgr s) ->
  (forall p, source (mgr s) = SFile p -> plain_name p) -> Forall (fun x => plain_name (sn_file x)) xs ->
  meta_of (objects (mgr s) 0) = Some m -> body_of t (objects (mgr s) 2) = Some y -> Forall good_decl (kids y) ->
  Forall (fun x => Forall safe (sn_body x)) xs ->
  life c t xs D s D' s' ->
  exists m' y', mimetype D' = mimetype D /\ document (mimetype D) (mgr s') /\ complete t (mgr s') /\
    meta_of (objects (mgr s') 0) = Some m' /\
    (forall key, alookup key META_TAGS <> None -> field key m' = field_life key xs (field key m)) /\
    words m' = words_life xs (words m) /\ users m' = users_life xs (users m) /\
    (forall key, key ∈ STAT_TYPES -> stat key m' = stat_life key xs (stat key m)) /\
    body_of t (objects (mgr s') 2) = Some y' /\ body_life xs y y' /\ Forall good_decl (kids y') /\
    parsed (objects (mgr s') 1) = parsed (objects (mgr s) 1) /\
    parsed (objects (mgr s') 2) = with_body t (parsed y') (parsed (objects (mgr s) 2)).
Proof.
  intros HT Hd Hc Hps Hp Hm Hy Hg Hs HL. revert m y HT Hd Hc Hps Hp Hm Hy Hg Hs.
  induction HL as [D s|x xs D s D1 s1 s2 D3 s3 D4 s4 Ew Hfile Hn Hk Eo HL IH]; intros m y HT Hd Hc Hps Hp Hm Hy Hg Hs.
  - exists m, y. split_and!; try done; [constructor|]. symmetry. rewrite <- (parsed_with t _ y y Hy). f_equal. by apply with_same.
  - apply Forall_cons in Hp as [Hp1 Hp]. apply Forall_cons in Hs as [Hs1 Hs].
    destruct (session_opens c t x D ext s s1 D1 s2 m y HT Hd Hc Hps Hp1 Hm Hy Hg Hs1 Ew Hfile Hn Hk) as (s3' & m3 & l & E3 & S3 & Hst & Hm3 & Em3 & O1 & Hl & Hgl & Hb & O2).
    rewrite E3 in Eo. injection Eo as -> <-. cbn [mimetype] in IH.
    destruct (T_Document.C52_opened c (FromFile (sn_file x)) ext [] None s2 s3 _ Hn (or_introl E3)) as (t' & HT' & Hd' & Hc' & _). cbn [mimetype doctype] in HT', Hd'.
    assert (t' = t) as ->. { apply type_tables in HT as [_ HT1]. apply type_tables in HT' as [_ HT2]. rewrite HT1 in HT2. by injection HT2. }
    set (y3 := parsed (T (body_node (sn_body x) (root y)) (l ++ missing l))) in *.
    assert (Hg3 : Forall good_decl (kids y3)).
    { unfold y3. rewrite parsed_kids. cbn [kids]. apply Forall_map. apply Forall_app. split.
      - eapply Forall_impl; [exact Hgl|]. intros k Hgk. cbv beta. unfold good_decl in *. rewrite parsed_tag, parsed_kids. intros H. apply Forall_map. eapply Forall_impl; [exact (Hgk H)|]. intros n. cbn. by rewrite parsed_tag.
      - unfold missing. apply Forall_map. apply Forall_forall. intros u _. unfold good_decl. intros _. by apply Forall_nil_2. }
    destruct (IH m3 y3) as (m' & y' & M1 & Hd4 & Hc4 & Hm4 & F1 & F2 & F3 & F4 & Hb4 & HB & Hg4 & O4 & O5); try done.
    { intros p. rewrite S3. by intros [= <-]. }
    exists m', y'. cbn [mimetype] in *. split_and!; try done.
    + intros key Hkey. rewrite (F1 key Hkey), Em3, parsed_field. unfold field_life at 2. cbn [foldl].
      rewrite (run_fold (field key) (entry_after key)); [done|done|]. intros. by apply step_entry.
    + rewrite F2, Em3, parsed_words. unfold words_life at 2. cbn [foldl]. rewrite (run_fold words words_after); [|done|exact step_words]. unfold all_ops. by rewrite words_end.
    + rewrite F3, Em3, parsed_users. unfold users_life at 2. cbn [foldl]. rewrite (run_fold users users_after); [|done|exact step_users]. unfold all_ops. by rewrite users_end.
    + intros key Hkey. rewrite (F4 key Hkey), Em3, parsed_stat. unfold stat_life at 2. cbn [foldl]. rewrite (run_fold (stat key) (stat_after key)); [|done|intros; by apply step_stat]. unfold all_ops. by rewrite stat_end.
    + by econstructor.
    + by rewrite O4, O1, parsed_again.
    + rewrite O5, O2. rewrite (parsed_with t (parsed (objects (mgr s) 2)) (parsed y) y3) by (by apply parsed_body_of). rewrite parsed_again.
      apply (with_with t _ (parsed y)); [by apply parsed_body_of|]. rewrite parsed_tag; by eapply body_tag.
Qed.
Print Assumptions C68_life.

Lemma life_snoc `{U : Unicode} `{B : Bytes} c t xs x D s D' s' D1 s1 s2 D3 s3 : life c t xs D s D' s' -> work t x D' s' = (s1, Done (Ok D1)) ->
  files (mach s2) !! sn_file x = files (mach s1) !! sn_file x -> no_failure s2 -> 10 <= length (env (mach s2)) ->
  opendoc c (FromFile (sn_file x)) s2 = (s3, Done (Ok D3)) -> life c t (xs ++ [x]) D s D3 s3.
Proof.
  intros HL Ew Hfile Hn Hk E3. induction HL as [D0 s|z xs D0 s Dx sx sy D2 sz D4 s4 H1 H2 H3 H4 H5 HL IH].
  - eapply life_cons; try done. constructor.
  - eapply life_cons; try done. by apply IH.
Qed.
(** C68.  What was saved can be opened, after any number of sessions. *)
Theorem C68_opens `{U : Unicode} `{B : Bytes} c t ext (xs : list sitting) x D s D' s' D1 s1 s2 (y : elem) :
  is_type (mimetype D) ext t -> document (mimetype D) (mgr s) -> complete t (mgr s) ->
  (forall p, source (mgr s) = SFile p -> plain_name p) -> Forall (fun x => plain_name (sn_file x)) (xs ++ [x]) ->
  body_of t (objects (mgr s) 2) = Some y -> Forall good_decl (kids y) -> Forall (fun x => Forall safe (sn_body x)) (xs ++ [x]) ->
  life c t xs D s D' s' -> work t x D' s' = (s1, Done (Ok D1)) ->
  files (mach s2) !! sn_file x = files (mach s1) !! sn_file x -> no_failure s2 -> 10 <= length (env (mach s2)) ->
  exists s3, opendoc c (FromFile (sn_file x)) s2 = (s3, Done (Ok (Doc (Some (sn_file x)) (mimetype D) ext true))) /\
    life c t (xs ++ [x]) D s (Doc (Some (sn_file x)) (mimetype D) ext true) s3.
Proof.
  intros HT Hd Hc Hps Hp Hy Hg Hs HL Ew Hfile Hn Hk. apply Forall_app in Hp as [Hp1 Hp2]. apply Forall_cons in Hp2 as [Hp2 _]. apply Forall_app in Hs as [Hs1 Hs2]. apply Forall_cons in Hs2 as [Hs2 _].
  assert (Hm : exists m, meta_of (objects (mgr s) 0) = Some m) by (destruct Hc as ((_ & m & Hm & _) & _); by exists m). destruct Hm as [m Hm].
  destruct (C68_life c t ext xs D s D' s' m y HT Hd Hc Hps Hp1 Hm Hy Hg Hs1 HL) as (m' & y' & M1 & Hd' & Hc' & Hm' & _ & _ & _ & _ & Hy' & _ & Hg' & _).
  assert (Hps' : forall p, source (mgr s') = SFile p -> plain_name p).
  { clear -HL Hps Hp1 U. revert Hps. induction HL as [D s|z xs D s D1 s1 s2 D3 s3 D4 s4 Ew Hfile Hn Hk Eo HL IH]; intros Hps; [done|]. apply Forall_cons in Hp1 as [Hz Hp1]. apply (IH Hp1).
    destruct (T_Document.C33_detect c _ s2 s3 D3 Hn Eo) as (? & ? & ? & ? & ? & H). decompose [and] H. match goal with H : source (mgr s3) = _ |- _ => rewrite H end. by intros p [= <-]. }
  rewrite <- M1 in HT, Hd'. destruct (session_opens c t x D' ext s' s1 D1 s2 m' y' HT Hd' Hc' Hps' Hp2 Hm' Hy' Hg' Hs2 Ew Hfile Hn Hk) as (s3 & m3 & l & E3 & _). rewrite M1 in E3.
  exists s3. split; [done|]. by eapply life_snoc.
Qed.
Print Assumptions C68_opens.

Lemma kept_full v : v <> Some [] -> kept v = v.
Proof. unfold kept. intros H. by rewrite decide_False. Qed.
Lemma show_Z_full z : show_Z z <> [].
Proof. intros H. pose proof (py_int_show_Z (U := ascii_unicode) z) as P. rewrite H in P. by vm_compute in P. Qed.

Section life.
Context `{U : Unicode}.
(** what is never an empty text *)
Lemma entry_full key o v : writes_text o -> v <> Some (Some []) -> entry_after key v o <> Some (Some []).
Proof.
  intros Ho Hv. destruct o; cbn [entry_after] in *; try done.
  - case_decide; [|done]. destruct v0 as [s| |]; [by intros [= ->]|done|]. destruct v as [[|]|]; done.
  - destruct Ho. case_decide; [by intros [= ->]|]. case_decide; [by intros [= ->]|done].
  - case_decide; [|done]. destruct v as [[s|]|]; [|done|]; intros [= HZ]; by apply show_Z_full in HZ.
Qed.
Lemma entries_full key ops v : Forall writes_text ops -> v <> Some (Some []) -> foldl (entry_after key) v ops <> Some (Some []).
Proof. intros H. revert v. induction H as [|o ops Ho _ IH]; intros v Hv; [done|]. cbn. apply IH. by apply entry_full. Qed.
Lemma without_first_forall (P : option pystr -> Prop) w l : Forall P l -> Forall P (without_first w l).
Proof. induction 1; [by constructor|]. cbn. by case_decide; [|constructor]. Qed.
Lemma words_full ops l : Forall writes_text ops -> Forall (fun w => w <> Some []) l -> Forall (fun w => w <> Some []) (foldl words_after l ops).
Proof.
  intros H. revert l. induction H as [|o ops Ho _ IH]; intros l Hl; [done|]. cbn. apply IH. destruct o; cbn; try done.
  - case_decide; [done|]. apply Forall_app. split; [done|]. apply Forall_cons_2; [|by apply Forall_nil_2]. destruct w; [|done]. by intros [= ->].
  - by apply without_first_forall.
Qed.
Lemma users_full ops l : Forall writes_text ops -> Forall (fun u : usertag => u.1.2 <> Some []) l -> Forall (fun u : usertag => u.1.2 <> Some []) (foldl users_after l ops).
Proof.
  intros H. revert l. induction H as [|o ops Ho _ IH]; intros l Hl; [done|]. cbn. apply IH. destruct o; cbn in *; try done.
  - induction Hl as [|u l Hu Hl IHl]; cbn.
    + apply Forall_cons_2; [cbn; by intros [= ->]|by apply Forall_nil_2].
    + case_decide; (apply Forall_cons_2; [|done]); [cbn; by intros [= ->]|done].
  - induction Hl as [|u l Hu Hl IHl]; cbn; [by apply Forall_nil_2|]. case_decide; [done|by apply Forall_cons_2].
Qed.
Lemma map_same {A} (f : A -> A) l : Forall (fun x => f x = x) l -> map f l = l.
Proof. induction 1 as [|x l H _ IH]; [done|]. cbn. by rewrite H, IH. Qed.
End life.

(** C68.  The same for what doc.meta gives. *)
Theorem C68_reads `{U : Unicode} `{B : Bytes} c t ext (xs : list sitting) D s D' s' (m y : elem) :
  is_type (mimetype D) ext t -> document (mimetype D) (mgr s) -> complete t (mgr s) ->
  (forall p, source (mgr s) = SFile p -> plain_name p) -> Forall (fun x => plain_name (sn_file x)) xs ->
  meta_of (objects (mgr s) 0) = Some m -> body_of t (objects (mgr s) 2) = Some y -> Forall good_decl (kids y) ->
  Forall (fun x => Forall safe (sn_body x)) xs ->
  life c t xs D s D' s' ->
  exists m', meta_of (objects (mgr s') 0) = Some m' /\
    (forall key, alookup key META_TAGS <> None ->
       meta_get key m' = match field_life key xs (field key m) with Some v => Ok v | None => Err KeyError end) /\
    kw_list m' = words_life xs (kw_list m) /\ ut_list m' = map fst (users_life xs (users m)) /\
    (forall key, key ∈ STAT_TYPES ->
       st_get key m' = match stat_life key xs (stat key m) with Some v => match py_int v with Ok n => Ok n | Err _ => Ok 0%Z end | None => Ok 0%Z end).
Proof.
  intros HT Hd Hc Hps Hp Hm Hy Hg Hs HL.
  destruct (C68_life c t ext xs D s D' s' m y HT Hd Hc Hps Hp Hm Hy Hg Hs HL) as (m' & y' & _ & _ & Hc' & Hm' & F1 & F2 & F3 & F4 & _).
  exists m'. split; [done|]. split; [|split; [exact F2|split]].
  - intros key Hk. by rewrite meta_get_eq, F1.
  - rewrite <- F3. unfold ut_list, users. rewrite map_map. done.
  - intros key Hk. rewrite <- F4 by done. destruct Hc' as ((_ & m0 & A2 & A3) & _). unfold meta_of in Hm'. rewrite A2 in Hm'. injection Hm' as ->. apply has_stats_iff in A3. rewrite st_get_eq by done.
    destruct (stat key m') as [v|]; [|done]. by destruct (py_int v).
Qed.
Print Assumptions C68_reads.

(** C68.  When nothing empty is written, saving and opening play no part: the sessions are as
    one session without end. *)
Theorem C68_texts `{U : Unicode} (xs : list sitting) : Forall (fun x => Forall writes_text (all_ops x)) xs ->
  (forall key v, v <> Some (Some []) -> field_life key xs v = foldl (entry_after key) v (concat (map all_ops xs))) /\
  (forall l, Forall (fun w => w <> Some []) l -> words_life xs l = foldl words_after l (concat (map sn_meta xs))) /\
  (forall l, Forall (fun u : usertag => u.1.2 <> Some []) l -> users_life xs l = foldl users_after l (concat (map sn_meta xs))) /\
  (forall key v, stat_life key xs v = foldl (stat_after key) v (concat (map sn_meta xs))).
Proof.
  intros H. split_and!.
  - intros key. unfold field_life. induction H as [|x xs Hx _ IH]; intros v Hv; [done|]. cbn [map concat foldl]. rewrite foldl_app. assert (F := entries_full key _ v Hx Hv).
    rewrite IH; destruct (foldl (entry_after key) v (all_ops x)) as [w|] eqn:E; try done; cbn; rewrite ?kept_full; try done; by intros ->.
  - unfold words_life. induction H as [|x xs Hx _ IH]; intros l Hl; [done|]. cbn [map concat foldl]. rewrite foldl_app. apply Forall_app in Hx as [Hx _]. assert (F := words_full _ _ Hx Hl).
    rewrite (map_same kept) by (eapply Forall_impl; [exact F|]; intros w; apply kept_full). by apply IH.
  - unfold users_life. induction H as [|x xs Hx _ IH]; intros l Hl; [done|]. cbn [map concat foldl]. rewrite foldl_app. apply Forall_app in Hx as [Hx _]. assert (F := users_full _ _ Hx Hl).
    rewrite (map_same kept_user) by (eapply Forall_impl; [exact F|]; intros [[a b] d] Hw; unfold kept_user; cbn in *; by rewrite kept_full). by apply IH.
  - intros key. unfold stat_life. clear H. induction xs as [|x xs IH]; intros v; [done|]. cbn [map concat foldl]. by rewrite foldl_app, IH.
Qed.
Print Assumptions C68_texts.

(** C68.  The counter of saves counts the sessions. *)
Theorem C68_cycles `{U : Unicode} (xs : list sitting) v n : Forall (fun x => Forall leaves_cycles (sn_meta x)) xs ->
  v = None /\ n = 0%Z \/ v = Some (Some (show_Z n)) -> xs <> [] ->
  field_life "editing-cycles" xs v = Some (Some (show_Z (n + Z.of_nat (length xs)))).
Proof.
  intros H Hv Hx. assert (HO : forall ops w, Forall leaves_cycles ops -> foldl (entry_after "editing-cycles") w ops = w).
  { intros ops w Ho. revert w. induction Ho as [|o ops Ho _ IH]; intros w; [done|]. cbn. rewrite IH. destruct o; try done. cbn in *. by rewrite decide_False. }
  assert (HF : forall xs, Forall (fun x => Forall leaves_cycles (sn_meta x)) xs -> forall k, field_life "editing-cycles" xs (Some (Some (show_Z k))) = Some (Some (show_Z (k + Z.of_nat (length xs))))).
  { clear -HO U. induction 1 as [|x xs Hx _ IH]; intros k; [cbn; do 3 f_equal; lia|]. unfold field_life in *. cbn [foldl length]. unfold all_ops. rewrite foldl_app, (HO (sn_meta x)) by done.
    assert (E : foldl (entry_after "editing-cycles") (Some (Some (show_Z k))) [MTouch (sn_now x) (sn_gen x); MInc] = Some (Some (show_Z (k + 1)))).
    { transitivity (entry_after "editing-cycles" (Some (Some (show_Z k))) MInc); [done|]. unfold entry_after. rewrite decide_True by done. unfold next_cycle. by rewrite py_int_show_Z. }
    rewrite E. cbn [fmap option_fmap option_map]. rewrite kept_full by (intros [= F]; by apply show_Z_full in F). rewrite IH. do 3 f_equal. lia. }
  destruct Hv as [[-> ->]| ->]; [|by apply HF]. destruct xs as [|x xs]; [done|]. apply Forall_cons in H as [H1 H]. unfold field_life. cbn [foldl length]. unfold all_ops. rewrite foldl_app, (HO (sn_meta x)) by done.
  assert (E : foldl (entry_after "editing-cycles") None [MTouch (sn_now x) (sn_gen x); MInc] = Some (Some (show_Z 1))).
  { done. }
  rewrite E. cbn [fmap option_fmap option_map]. rewrite kept_full by (intros [= F]; by apply show_Z_full in F). change (field_life "editing-cycles" xs (Some (Some (show_Z 1))) = Some (Some (show_Z (0 + Z.of_nat (S (length xs)))))).
  rewrite HF by done. do 3 f_equal. lia.
Qed.
Print Assumptions C68_cycles.

(** C68.  keywords.add of an empty keyword adds it once per session, not once. *)
Theorem C68_keyword_counterexample `{U : Unicode} (xs : list sitting) : Forall (fun x => sn_meta x = [KAdd (Some []); KAdd (Some [])]) xs ->
  words_life xs [] = replicate (length xs) None.
Proof.
  intros H. assert (HF : forall n, words_life xs (replicate n None) = replicate (n + length xs) None).
  { induction H as [|x xs Hx _ IH]; intros n; [by rewrite Nat.add_0_r|]. unfold words_life in *. cbn [foldl length]. rewrite Hx. cbn [foldl words_after].
    assert (Some [] ∉ replicate n (None : option pystr)) as Hn by (rewrite elem_of_replicate; by intros [? _]).
    rewrite (decide_False (P := Some [] ∈ replicate n None)) by done. rewrite decide_True by (apply elem_of_app; right; by apply elem_of_list_singleton).
    rewrite map_app. assert (map kept (replicate n None) ++ map kept [Some []] = replicate (S n) None) as ->.
    { clear. induction n as [|n IH]; [done|]. cbn [replicate map app] in *. by rewrite IH. }
    rewrite IH. f_equal. lia. }
  exact (HF 0).
Qed.
Print Assumptions C68_keyword_counterexample.

Lemma split_unique {A} (P : A -> Prop) (a b a' b' : list A) : a ++ b = a' ++ b' ->
  Forall (fun x => ~ P x) a -> Forall P b -> Forall (fun x => ~ P x) a' -> Forall P b' -> a = a' /\ b = b'.
Proof.
  revert a'. induction a as [|x a IH]; intros [|x' a']; cbn; intros E Ha Hb Ha' Hb'.
  - done.
  - subst b. apply Forall_cons in Hb as [Hb _]. by apply Forall_cons in Ha' as [? _].
  - subst b'. apply Forall_cons in Hb' as [Hb' _]. by apply Forall_cons in Ha as [? _].
  - injection E as -> E. apply Forall_cons in Ha as [_ Ha]. apply Forall_cons in Ha' as [_ Ha']. by destruct (IH a' E Ha Hb Ha' Hb') as [-> ->].
Qed.
Lemma order_tags l (ks : list elem) : in_order l (map e_tag ks) -> Forall (fun k => e_tag k ∈ l) ks.
Proof. intros H. apply in_order_tags in H. by apply Forall_map in H. Qed.
(** C68.  Blocks of text appended in any number of sessions are all there, in order. *)
Theorem C68_blocks `{U : Unicode} (xs : list sitting) (bss : list (list chunk)) (y y' : elem) :
  Forall2 appends xs bss -> has_children DECLS y ->
  well_structured TEXT_PRELUDE TEXT_CONTENT_STREAM TEXT_EPILOGUE (map e_tag (kids y)) -> body_life xs y y' ->
  exists content epi, kids y = content ++ epi /\ in_order TEXT_EPILOGUE (map e_tag epi) /\ Forall (fun k => e_tag k ∉ TEXT_EPILOGUE) content /\
    exists new, parsed y' = T (root (parsed y)) (map parsed content ++ new ++ map parsed epi) /\ Forall2 shows (concat bss) new.
Proof.
  intros HA Hdc Hw HB. revert bss HA Hdc Hw. induction HB as [y|x xs y l y' Hl HB IH]; intros bss HA Hdc Hw.
  - inversion HA; subst. destruct (T_NodeOrganizer.C42_history TEXT_CONTENT_STREAM [] y (or_introl eq_refl) (Forall_nil_2 _) Hw) as (content & epi & e' & K1 & K2 & K3 & _).
    exists content, epi. split; [done|]. split; [done|]. split; [done|]. exists []. split; [|constructor]. cbn [app]. rewrite <- map_app, <- K1, <- parsed_kids. by destruct (parsed y).
  - inversion HA as [|? bs ? bss' Hx HA']; subst. clear HA.
    destruct (T_NodeOrganizer.C42_history TEXT_CONTENT_STREAM (map make_chunk bs) y (or_introl eq_refl) (T_TextDoc.chunk_stream bs) Hw) as (content & epi & e' & K1 & K2 & K3 & K4 & K5 & K6).
    apply T_TextDoc.play_appends in K4. destruct (play_edits (map BAppend (map make_chunk bs)) y) as [P1 P2]. rewrite K4, K5 in P1. cbn [kids] in P1.
    unfold appends in Hx. rewrite Hx in *. assert (l = content ++ map make_chunk bs ++ epi) as -> by (by eapply T_TextDoc.edits_determined).
    assert (Hr : body_node (map BAppend (map make_chunk bs)) (root y) = root y).
    { unfold body_node. assert (existsb is_clear (map BAppend (map make_chunk bs)) = false) as ->; [|done]. clear. induction bs; [done|]. done. }
    assert (Hm : missing (content ++ map make_chunk bs ++ epi) = []).
    { apply T_TextDoc.missing_none. eapply Forall_impl; [exact Hdc|]. intros t Ht. cbv beta in *. destruct (decide (t ∈ map e_tag (kids y))) as [Hin|Hin]; [|by apply findall_missing in Hin].
      rewrite K1, map_app in Hin. rewrite !map_app. apply elem_of_app in Hin as [Hin|Hin]; apply elem_of_app; [by left|right; apply elem_of_app; by right]. }
    rewrite Hr, Hm, app_nil_r in *. set (y3 := parsed (T (root y) (content ++ map make_chunk bs ++ epi))) in *.
    destruct (T_TextDoc.shows_all bs) as [S1 S2].
    assert (Ek : kids y3 = (map parsed content ++ map make_chunk bs) ++ map parsed epi) by (unfold y3; rewrite parsed_kids; cbn [kids]; by rewrite !map_app, S2, app_assoc).
    assert (Hd3 : has_children DECLS y3).
    { eapply Forall_impl; [exact Hdc|]. intros t Ht Hf. cbv beta in *. destruct (decide (t ∈ map e_tag (kids y))) as [Hin|Hin]; [|by apply findall_missing in Hin].
      assert (Hin3 : t ∈ map e_tag (kids y3)).
      { rewrite Ek, !map_app, !T_TextDoc.parsed_tags. rewrite K1, map_app in Hin. apply elem_of_app in Hin as [Hin|Hin]; apply elem_of_app; [left; apply elem_of_app; by left|by right]. }
      apply findall_missing in Hf. contradiction. }
    assert (Hw3 : well_structured TEXT_PRELUDE TEXT_CONTENT_STREAM TEXT_EPILOGUE (map e_tag (kids y3))).
    { destruct text_epilogue_ok, text_prelude_ok. destruct (is_valid_ok TEXT_PRELUDE TEXT_CONTENT_STREAM TEXT_EPILOGUE (map e_tag (kids e'))) as (b & Eb & Hb); try done.
      rewrite K6 in Eb. injection Eb as <-. assert (W := proj1 Hb eq_refl). rewrite K5 in W. cbn [kids] in W. rewrite Ek, !map_app, !T_TextDoc.parsed_tags. by rewrite !map_app, app_assoc in W. }
    destruct (IH bss' HA' Hd3 Hw3) as (content3 & epi3 & J1 & J2 & J3 & new & J4 & J5).
    assert (HS : content3 = map parsed content ++ map make_chunk bs /\ epi3 = map parsed epi).
    { rewrite Ek in J1. symmetry in J1. apply (split_unique (fun k => e_tag k ∈ TEXT_EPILOGUE)) in J1; [done|done| | |].
      - by apply order_tags.
      - apply Forall_app. split; [apply Forall_map; eapply Forall_impl; [exact K3|]; intros k; cbn; by rewrite parsed_tag|].
        eapply Forall_impl; [exact (T_TextDoc.chunk_stream bs)|]. cbv beta. intros k Hk. apply (proj1 (Forall_forall (fun t => t ∉ TEXT_EPILOGUE) TEXT_CONTENT_STREAM)); [dec_vm|done].
      - apply order_tags. by rewrite T_TextDoc.parsed_tags. }
    destruct HS as [-> ->]. exists content, epi. split; [done|]. split; [done|]. split; [done|]. exists (map make_chunk bs ++ new). split.
    + rewrite J4. f_equal; [unfold y3; rewrite parsed_again; clear; by destruct y|]. rewrite map_app, S2, !map_map. rewrite (map_ext (fun x => parsed (parsed x)) parsed) by apply parsed_again.
      rewrite (map_ext (fun x => parsed (parsed x)) parsed) by apply parsed_again. by rewrite <- !app_assoc.
    + cbn [concat]. by apply Forall2_app.
Qed.
Print Assumptions C68_blocks.

(** ** Cases *)
Section case.
Local Existing Instance ascii_unicode.
Local Existing Instance tree_bytes.
Import T_TextDoc.
(** the next day *)
Definition refuel (s : FileManager.st (B := tree_bytes)) : FileManager.st := St (Machine tree_bytes (files (mach s)) (replicate 40 Go) [lit "Ab3"]) (mgr s).
Definition sit1 : sitting := Sitting [MSet "title" (TStr (lit "T")); KAdd (Some []); USet (lit "n") (lit "v") None; SSet "page" (lit "7")] (map BAppend (map make_chunk chunks67)) (lit "2020") (lit "G") T_Document.file_a.
Definition sit2 : sitting := Sitting [KAdd (Some []); KAdd (Some (lit "k")); UDel (lit "n")] (map BAppend (map make_chunk [Para (lit "x") []])) (lit "2021") (lit "G") T_Document.file_b.
Definition docB : doc := Doc (Some T_Document.file_b) (full_type "text") "odt" true.
Lemma plain_b : plain_name T_Document.file_b.
Proof. intros [a E]. apply (f_equal last) in E. change (lit ".tmp") with (lit ".tm" ++ [112%N]) in E. rewrite (assoc_L (++)), last_snoc in E. vm_compute in E. done. Qed.
Lemma refuel_fine s : no_failure (refuel s) /\ 10 <= length (env (mach (refuel s))).
Proof. split; [apply T_Files.go_no_failure|]. cbn. lia. Qed.
Lemma life_step c t x xs D s D1 D3 : (work t x D s).2 = Done (Ok D1) -> (opendoc c (FromFile (sn_file x)) (refuel (work t x D s).1)).2 = Done (Ok D3) ->
  (exists D4 s4, life c t xs D3 (opendoc c (FromFile (sn_file x)) (refuel (work t x D s).1)).1 D4 s4) -> exists D4 s4, life c t (x :: xs) D s D4 s4.
Proof.
  intros H1%pair_by H2%pair_by (D4 & s4 & H). exists D4, s4. eapply life_cons; [exact H1| |apply refuel_fine|apply refuel_fine|exact H2|exact H]. done.
Qed.
(** two sessions *)
Lemma life68 : exists D4 s4, life T_Document.noon "office:text" [sit1; sit2] doc67 opened67.1 D4 s4.
Proof.
  apply (life_step _ _ _ _ _ _ doc67 doc67); [by_vm|by_vm|].
  apply (life_step _ _ _ _ _ _ docB docB); [by_vm|by_vm|].
  eexists _, _. exact (life_nil _ _ _ _).
Qed.
(** the hypotheses of the theorems above; see C67_case for the document *)
Example C68_case :
  (exists D4 s4, life T_Document.noon "office:text" [sit1; sit2] doc67 opened67.1 D4 s4) /\
  (forall p, source (mgr opened67.1) = SFile p -> plain_name p) /\ Forall (fun x => plain_name (sn_file x)) [sit1; sit2] /\
  Forall (fun x => Forall safe (sn_body x)) [sit1; sit2] /\ Forall2 appends [sit1; sit2] [chunks67; [Para (lit "x") []]] /\ has_children DECLS text67 /\
  Forall (fun x => Forall leaves_cycles (sn_meta x)) [sit1; sit2] /\
  (exists m, meta_of (objects (mgr opened67.1) 0) = Some m /\ field "editing-cycles" m = None /\ words m = []) /\
  words_life [sit1; sit2] [] = [None; None; Some (lit "k")] /\ field_life "title" [sit1; sit2] None = Some (Some (lit "T")) /\
  Forall writes_text (all_ops (Sitting [KAdd (Some (lit "k")); KAdd None; MSet "title" TNone] [] (lit "2021") (lit "G") [])).
Proof.
  split; [exact life68|]. split. { assert (E : source (mgr opened67.1) = SFile T_Document.file_a) by by_vm. rewrite E. intros p [= <-]. exact T_Document.plain_a. }
  split; [apply Forall_cons_2; [exact T_Document.plain_a|apply Forall_cons_2; [exact plain_b|by apply Forall_nil_2]]|].
  split; [apply Forall_cons_2; [apply chunk_safe|apply Forall_cons_2; [apply chunk_safe|by apply Forall_nil_2]]|].
  split; [constructor; [exact eq_refl|constructor; [exact eq_refl|constructor]]|].
  split; [unfold has_children; dec_vm|].
  split; [repeat (apply Forall_cons_2; [repeat (apply Forall_cons_2; [done|]); by apply Forall_nil_2|]); by apply Forall_nil_2|].
  split; [exists (default (new_elem "") (meta_of (objects (mgr opened67.1) 0))); split; [by_vm|]; split; by_vm|].
  split; [by_vm|]. split; [by_vm|]. repeat (apply Forall_cons_2; [by repeat split|]). by apply Forall_nil_2.
Qed.
End case.
