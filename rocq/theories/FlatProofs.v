(** Proofs about flat documents. *)
From Verif Require Export FlatDocumentSpec DocumentProofs.

Lemma flat_setup_fill e : subelement "office:body" (flat_setup e) = fill FLAT_PARTS e.
Proof. unfold flat_setup. rewrite !subelement_fill. unfold FLAT_PARTS. rewrite !fill_cons; [done|..]; repeat (apply not_elem_of_cons; split; [done|]); apply not_elem_of_nil. Qed.
Lemma findall_within_other t t' f e : (forall k, e_tag k = t -> e_tag (f k) = t) -> t' <> t -> findall t' (within t f e) = findall t' e.
Proof. intros Hf Ht. unfold findall, within. cbn [kids]. by apply filter_in_first_other. Qed.
Lemma flat_parts_nodup : NoDup ("office:document-meta"%string :: FLAT_PARTS).
Proof. dec_vm. Qed.
Lemma meta_part_tag e : e_tag (meta_part e) = "office:document-meta"%string.
Proof. unfold meta_part. destruct (head _) as [k|] eqn:E; [|done]. by eapply findall_tag_head. Qed.
Lemma meta_part_head e : head (findall "office:document-meta" (fill ["office:document-meta"%string] e)) = Some (meta_part e).
Proof.
  destruct (filled_head "office:document-meta" ["office:document-meta"%string] e) as [k Hk]; [by left|apply NoDup_singleton|]. rewrite Hk. unfold meta_part.
  destruct (filled_head_cases _ _ _ _ (NoDup_singleton _) Hk) as [H|[H ->]]; by rewrite H.
Qed.

Section flat.
Variables (body : string) (k e : elem).
Hypothesis (Hk : e_tag k = "office:document-meta"%string).
Let X := fill FLAT_PARTS (within "office:document-meta" (fun _ => k) (fill ["office:document-meta"%string] e)).
Lemma flat_x_other t : t ∈ FLAT_PARTS -> head (findall t X) = Some (default (new_elem t) (head (findall t e))).
Proof.
  intros Ht. assert (Hn := flat_parts_nodup). apply NoDup_cons in Hn as [Hm Hn]. assert (Htm : t <> "office:document-meta"%string) by (by intros ->).
  destruct (filled_head t FLAT_PARTS (within "office:document-meta" (fun _ => k) (fill ["office:document-meta"%string] e)) Ht Hn) as [y Hy]. fold X in Hy. rewrite Hy.
  assert (Ee : findall t (within "office:document-meta" (fun _ => k) (fill ["office:document-meta"%string] e)) = findall t e).
  { rewrite findall_within_other by done. apply findall_fill_other. left. by apply not_elem_of_cons; split; [|apply not_elem_of_nil]. }
  destruct (filled_head_cases _ _ _ _ Hn Hy) as [H|[H ->]]; rewrite Ee in H; by rewrite H.
Qed.
Lemma flat_x_meta : head (findall "office:document-meta" X) = Some k.
Proof.
  assert (Hn := flat_parts_nodup). apply NoDup_cons in Hn as [Hm Hn]. unfold X. rewrite findall_fill_other by (by left). rewrite findall_within by done.
  pose proof (meta_part_head e) as H. by destruct (findall _ (fill _ e)).
Qed.
Lemma flat_x_decls : good_decls body (Some X) <-> good_decls body (Some e).
Proof.
  assert (Hb := flat_x_other "office:body" ltac:(unfold FLAT_PARTS; set_solver)).
  split; intros H e' b y u z [= <-] Hb1 Hy Hu Hz.
  - apply (H X b y u z eq_refl); [|done..]. by rewrite Hb, Hb1.
  - rewrite Hb in Hb1. injection Hb1 as <-. destruct (head (findall "office:body" e)) as [b|] eqn:Eb; [|done]. by apply (H e b y u z eq_refl).
Qed.
Lemma flat_from_complete : body <> "office:body"%string -> (exists m, head (findall "office:meta" k) = Some m /\ has_stats m) -> e_tag e = "office:document"%string ->
  good_decls body (Some e) -> let t := flat_from body k e in flat_complete body t /\ root t = root e /\ head (findall "office:document-meta" t) = Some k.
Proof.
  intros Htb (m & Hm & Hs) Ht Hg. cbn zeta. unfold flat_from. fold X. set (f := fun b => within body (fill DECLS) (fill [body] b)).
  assert (Hf : forall k, e_tag k = "office:body"%string -> e_tag (f k) = "office:body"%string) by (by intros ? ?).
  assert (Hd2 : NoDup DECLS) by dec_vm. assert (Hb := flat_x_other "office:body" ltac:(unfold FLAT_PARTS; set_solver)). set (b := default _ _) in Hb.
  destruct (filled_head body [body] b) as [y Hy]; [by left|apply NoDup_singleton|].
  assert (Hb' : head (findall "office:body" (within "office:body" f X)) = Some (f b)).
  { rewrite findall_within by done. destruct (findall "office:body" X); [done|]. by injection Hb as ->. }
  assert (Hy' : head (findall body (f b)) = Some (fill DECLS y)).
  { unfold f. rewrite findall_within by done. destruct (findall body (fill [body] b)); [done|]. by injection Hy as ->. }
  assert (Hmm : head (findall "office:document-meta" (within "office:body" f X)) = Some k) by (rewrite findall_within_other by done; apply flat_x_meta).
  split; [|done]. split_and!; try done.
  - unfold has_children. apply Forall_cons_2; [by intros E; rewrite E in Hmm|]. apply Forall_forall. intros u Hu. destruct (decide (u = "office:body"%string)) as [->|Hn]; [by intros E; rewrite E in Hb'|].
    rewrite findall_within_other by done. assert (H := flat_x_other u Hu). intros E. by rewrite E in H.
  - exists m. split; [|by apply Forall_singleton]. unfold meta_part. by rewrite Hmm.
  - exists (f b), (fill DECLS y). split; [done|]. split; [done|]. by apply fill_children.
  - intros e' b1 y1 u z [= <-] Hb1 Hy1 Hu Hz. rewrite Hb' in Hb1. injection Hb1 as <-. rewrite Hy' in Hy1. injection Hy1 as <-.
    destruct (filled_head_cases _ _ _ _ Hd2 Hz) as [Hz'| [_ ->]]; [|apply Forall_nil_2].
    destruct (filled_head_cases _ _ _ _ (NoDup_singleton body) Hy) as [Hy2| [_ ->]]; [|done].
    unfold b in Hy2. destruct (head (findall "office:body" e)) as [b0|] eqn:Eb; [|done]. by apply (Hg e b0 y u z).
Qed.
End flat.
Lemma flat_again body t : flat_complete body t -> flat_from body (meta_part t) t = t.
Proof.
  intros (Ht & Hc & _ & (b & y & Hb & Hy & Hd) & _). unfold flat_from. apply Forall_cons in Hc as [Hm Hc]. rewrite (fill_same ["office:document-meta"%string]) by (by apply Forall_singleton).
  assert (Ek : head (findall "office:document-meta" t) = Some (meta_part t)) by (unfold meta_part; by destruct (findall "office:document-meta" t)).
  rewrite (within_id _ _ _ _ Ek) by done. rewrite fill_same by done.
  apply (within_id _ _ _ _ Hb). rewrite (fill_same [body]) by (apply Forall_singleton; by destruct (findall body b)). apply (within_id _ _ _ _ Hy). by apply fill_same.
Qed.

Lemma open_body_error y x : open_body y = Err x -> x = AttributeError.
Proof.
  unfold open_body. rewrite open_decls_of_eq. assert (H : forall z, open_decls_of "text:user-field-decls" z = Err x -> x = AttributeError).
  { intros z. rewrite open_decls_of_eq. destruct (head _); [|done]. destruct (decide _); [done|]. by intros [= <-]. }
  destruct (head _) as [z|]; cbn [rbind]; [|apply H]. destruct (decide _); [apply H|]. by intros [= <-].
Qed.
Lemma open_application_body_error t c x : findall "office:body" c <> [] -> open_application_body t c = Err x -> x = AttributeError.
Proof.
  intros Hc. unfold open_application_body. destruct (head_some _ Hc) as [b Hb]. rewrite (on_child_eq _ _ _ _ Hb). rewrite subelement_fill.
  destruct (filled_head t [t] b) as [y Hy]; [by left|apply NoDup_singleton|]. rewrite (on_child_eq _ _ _ _ Hy).
  destruct (open_body y) eqn:E; [done|]. intros [= <-]. by eapply open_body_error.
Qed.
Global Instance known_type_dec m : Decision (known_type m).
Proof. unfold known_type. apply _. Defined.
Lemma known_types m : known_type m <-> m ∈ map (fun q => lit q.2) MIMETYPES.
Proof. assert (E : map (fun q => lit q.2) MIMETYPES = map full_type ["text"; "text-template"; "graphics"; "graphics-template"; "presentation"; "presentation-template";
                     "spreadsheet"; "spreadsheet-template"; "chart"; "chart-template"; "image"; "image-template";
                     "formula"; "formula-template"; "text-master"; "text-web"]%string) by (vm_compute; reflexivity). unfold known_type. by rewrite E. Qed.
Lemma known_exts ext : known_ext ext <-> mimetype_of ext <> None.
Proof.
  unfold mimetype_of, known_ext, MIMETYPES. cbn [map fst snd alookup]. repeat (match goal with |- context [decide (ext = ?a)] => destruct (decide (ext = a)) as [->|] end; [split; [done|intros _; dec_vm]|]).
  split; [|done]. intros H. exfalso. repeat (apply elem_of_cons in H as [H|H]; [done|]). by apply elem_of_nil in H.
Qed.
Lemma ext_of_known m : known_type m -> exists ext, ext_for m = Some ext.
Proof.
  intros H. apply (proj1 (known_types m)) in H. unfold ext_for. apply elem_of_list_fmap in H as (q & -> & Hq). destruct (list_find _ MIMETYPES) as [[i p]|] eqn:E; [by eexists|].
  apply list_find_None in E. rewrite Forall_forall in E. by destruct (E q Hq).
Qed.

Section proofs.
Context `{U : Unicode} `{B : Bytes}.
Notation P := (prog st).

(** ** The constructor *)
Definition flat_core (c : clock) (e : elem) (m : pystr) : res elem :=
  do e <- on_child FLAT_META (fun k => open_meta (created c) (touched c) (generator c) (Some k)) (subelement FLAT_META e);
  match bodytag_for m with
  | None => Err KeyError
  | Some t => open_application_body t (subelement "office:body" (flat_setup e))
  end.
Lemma flat_core_eq c e m : exists k, open_meta (created c) (touched c) (generator c) (Some (meta_part e)) = Ok k /\
  flat_core c e m = match bodytag_for m with
                    | None => Err KeyError
                    | Some t => open_application_body t (fill FLAT_PARTS (within "office:document-meta" (fun _ => k) (fill ["office:document-meta"%string] e)))
                    end.
Proof.
  destruct (meta_opens (created c) (touched c) (generator c) (Some (meta_part e))) as [k Hk]; [by intros z [= <-]; apply meta_part_tag|].
  exists k. split; [done|]. unfold flat_core. rewrite subelement_fill. change FLAT_META with "office:document-meta"%string. rewrite (on_child_eq _ _ _ _ (meta_part_head e)), Hk. cbn [rbind].
  by destruct (bodytag_for m); rewrite ?flat_setup_fill.
Qed.
Lemma open_meta_tag now0 now gen x k : open_meta now0 now gen x = Ok k -> e_tag k = "office:document-meta"%string /\ exists m, head (findall "office:meta" k) = Some m /\ has_stats m.
Proof. intros H. destruct (open_stats _ _ _ _ _ H) as (H1 & i & m & H2 & H3). split; [done|]. exists m. by rewrite <- first_kid_tag, H2. Qed.
Lemma flat_core_ok c e m ext body : is_type m ext body -> exists k, open_meta (created c) (touched c) (generator c) (Some (meta_part e)) = Ok k /\
  ((flat_core c e m = Ok (flat_from body k e) /\ good_decls body (Some e)) \/ (flat_core c e m = Err AttributeError /\ ~ good_decls body (Some e))).
Proof.
  intros HT. destruct (proj2 (type_tables _ _ _) HT) as [_ Et]. destruct (type_body _ _ _ HT) as [Htb _]. destruct (flat_core_eq c e m) as (k & Hk & E). exists k. split; [done|]. rewrite E, Et.
  destruct (open_meta_tag _ _ _ _ _ Hk) as [Hkt _]. set (X := fill _ _).
  assert (HX : findall "office:body" X <> []). { assert (H := flat_x_other k e Hkt "office:body" ltac:(unfold FLAT_PARTS; set_solver)). intros E0. fold X in H. by rewrite E0 in H. }
  destruct (open_application_body_eq body X Htb HX) as [[E1 Hg]|[[x E1] Hg]].
  - left. split; [exact E1|]. by apply (flat_x_decls body k e Hkt).
  - right. rewrite (open_application_body_error _ _ _ HX E1) in E1. split; [done|]. intros H. apply Hg. by apply (flat_x_decls body k e Hkt).
Qed.
Lemma flat_open_core c ext name x : flat_open c ext name x =
  match mimetype_of ext with
  | None => Err KeyError
  | Some m0 =>
      if decide (e_tag (default (new_elem "office:document") x) = "office:document"%string) then
        match match x with Some e => e_get "office:mimetype" e | None => Some m0 end with
        | Some m => if decide (known_type m) then (do t <- flat_core c (default (new_elem "office:document") x) m; Ok (Doc name m ext true, t)) else Err TypeError
        | None => Err TypeError
        end
      else Err AttributeError
  end.
Proof.
  unfold flat_open. destruct (mimetype_of ext) as [m0|]; [|done].
  assert (Hm : forall e m, (if decide (m ∈ map (fun q => lit q.2) MIMETYPES) then
            do e <- on_child FLAT_META (fun k => open_meta (created c) (touched c) (generator c) (Some k)) (subelement FLAT_META e);
            match bodytag_for m with
            | None => Err KeyError
            | Some t => do e <- open_application_body t (subelement "office:body" (flat_setup e)); Ok (Doc name m ext true, e)
            end
          else Err TypeError) = if decide (known_type m) then (do t <- flat_core c e m; Ok (Doc name m ext true, t)) else Err TypeError).
  { intros e m. destruct (decide (known_type m)) as [Hk|Hk].
    - rewrite decide_True by (by apply known_types). unfold flat_core. destruct (on_child _ _ _) as [e1|]; [|done]. cbn [rbind]. destruct (bodytag_for m) as [t|]; [|done]. by destruct (open_application_body _ _).
    - rewrite decide_False; [done|]. intros H. apply Hk. by apply known_types. }
  destruct x as [e|]; cbn [rbind default id].
  - change FLAT_TAG with "office:document"%string. destruct (decide _); [|done]. cbn [rbind fst snd]. destruct (e_get _ e); [apply Hm|done].
  - rewrite decide_True by done. cbn [rbind fst snd]. apply Hm.
Qed.

(** ** Saving *)
Lemma flat_meta_eq (o : mop) s : flat_meta (step o) s =
  match head (findall "office:document-meta" (objects (mgr s) 0)) with
  | Some k => (upd_mgr (set_object 0 (within "office:document-meta" (fun k => (on_meta (step o) k).1) (objects (mgr s) 0))) s, Done (on_meta (step o) k).2)
  | None => (s, Done (Err AttributeError))
  end.
Proof.
  unfold flat_meta. assert (Hh := first_kid_tag "office:document-meta" (objects (mgr s) 0)). change FLAT_META with "office:document-meta"%string.
  destruct (first_kid _ _) as [[i k]|] eqn:E; cbn in Hh; rewrite <- Hh; [|done]. destruct (on_meta (step o) k) as [k' r] eqn:Ek. do 3 f_equal.
  unfold first_kid in E. apply (in_first_insert _ (fun k => (on_meta (step o) k).1)) in E. unfold within. rewrite E, Ek. unfold replace_kid. by destruct (objects (mgr s) 0).
Qed.
Lemma doc_step (o : mop) r m : head (findall "office:meta" r) = Some m -> has_stats m -> root (on_meta (step o) r).1 = root r /\
  (on_meta (step o) r).2 = (step o m).2 /\ exists m', head (findall "office:meta" (on_meta (step o) r).1) = Some m' /\ has_stats m' /\ m' = (step o m).1.
Proof. intros Hm Hs. destruct (meta_step o r m Hm Hs) as (m' & E1 & E2 & E3 & E4 & E5 & E6). split; [by rewrite E1|]. split; [done|]. by exists m'. Qed.
Lemma play_complete body ops t : flat_complete body t ->
  let t' := within "office:document-meta" (play_doc ops) t in
  flat_complete body t' /\ root t' = root t /\ meta_part t' = play_doc ops (meta_part t) /\ (forall u, u <> "office:document-meta"%string -> findall u t' = findall u t).
Proof.
  intros (Ht & Hc & (m & Hm & Hs) & (b & y & Hb & Hy & Hd) & Hg). cbn zeta. set (t' := within _ _ t). apply Forall_inv in Hs.
  apply Forall_cons in Hc as [Hm1 Hc].
  assert (Ek : head (findall "office:document-meta" t) = Some (meta_part t)) by (unfold meta_part; by destruct (findall "office:document-meta" t)).
  assert (Hp : root (play_doc ops (meta_part t)) = root (meta_part t) /\ exists m', head (findall "office:meta" (play_doc ops (meta_part t))) = Some m' /\ has_stats m').
  { revert Hm Hs. generalize (meta_part t) as r. clear. revert m. induction ops as [|o ops IH]; intros m r Hm Hs; [split; [done|by exists m]|]. cbn [play_doc foldl].
    destruct (doc_step o r m Hm Hs) as (E1 & _ & m1 & E2 & E3 & _). destruct (IH m1 _ E2 E3) as [I1 I2]. split; [by rewrite <- E1, <- I1|]. exact I2. }
  destruct Hp as (Hr & m' & Hm' & Hs').
  assert (Et : t' = within "office:document-meta" (fun _ => play_doc ops (meta_part t)) t) by (by apply (within_ext _ _ _ _ _ Ek)).
  assert (Hkt : e_tag (play_doc ops (meta_part t)) = "office:document-meta"%string) by (unfold e_tag; rewrite Hr; apply meta_part_tag).
  assert (Hf : forall u, u <> "office:document-meta"%string -> findall u t' = findall u t) by (intros u Hu; rewrite Et; by apply findall_within_other).
  assert (Hmp : head (findall "office:document-meta" t') = Some (play_doc ops (meta_part t))). { rewrite Et, findall_within by done. by destruct (findall "office:document-meta" t). }
  assert (Hmp' : meta_part t' = play_doc ops (meta_part t)) by (unfold meta_part at 1; by rewrite Hmp).
  split; [|by split_and!]. split_and!; try done.
  - apply Forall_cons_2; [by intros E; rewrite E in Hmp|]. unfold has_children in *. rewrite Forall_forall in Hc |- *. intros u Hu. rewrite Hf; [by apply Hc|]. intros ->. assert (Hn := flat_parts_nodup). by apply NoDup_cons in Hn as [Hn _].
  - exists m'. rewrite Hmp'. split; [done|]. by apply Forall_singleton.
  - exists b, y. by rewrite Hf.
  - intros e b1 y1 u z [= <-]. rewrite Hf by done. by apply (Hg t b1 y1 u z).
Qed.
Lemma flat_meta_step body (o : mop) s s' r : flat_complete body (objects (mgr s) 0) -> flat_meta (step o) s = (s', r) ->
  s' = upd_mgr (set_object 0 (within "office:document-meta" (play_doc [o]) (objects (mgr s) 0))) s /\
  exists m, head (findall "office:meta" (meta_part (objects (mgr s) 0))) = Some m /\ r = Done (step o m).2.
Proof.
  intros (_ & Hc & (m & Hm & Hs) & _). apply Forall_inv in Hc. apply Forall_inv in Hs. rewrite flat_meta_eq.
  assert (Ek : head (findall "office:document-meta" (objects (mgr s) 0)) = Some (meta_part (objects (mgr s) 0))) by (unfold meta_part; by destruct (findall "office:document-meta" _)).
  rewrite Ek. intros [= <- <-]. split; [done|]. exists m. split; [done|]. f_equal. by apply (doc_step o _ m).
Qed.

(** The file operations. *)
Lemma write_flat_spec f s s' o : write_flat f s = (s', o) ->
  mgr s' = mgr s /\ (forall q, q <> f -> files (mach s') !! q = files (mach s) !! q) /\
  (forall x, o = Done (Err x) -> x = IOError /\ ~ no_failure s) /\
  (o = Done (Ok tt) -> files (mach s') !! f = Some (b_xml true (objects (mgr s) 0))).
Proof.
  unfold write_flat, pbind. destruct (sys_open f s) as [s1 o1] eqn:E1. unfold sys_open, open_write in E1.
  destruct (syscall_spec _ _ _ _ E1) as (M1 & R1 & (u1 & Eu1) & C1).
  assert (F1 : forall q, q <> f -> files (mach s1) !! q = files (mach s) !! q).
  { destruct C1 as [(_ & -> & _)|[(_ & -> & _)|(-> & _)]]; [done|done|]. cbn. intros q Hq. by rewrite lookup_insert_ne. }
  assert (N1 : no_failure s -> no_failure s1) by (unfold no_failure; rewrite Eu1; set_solver).
  destruct o1 as [|[[]|x]].
  - intros [= <- <-]. split_and!; done.
  - unfold sys_abandon, abandon, flat_bytes, pcatch. destruct (sys_close f _ s1) as [s2 o2] eqn:E2. intros [= <- <-].
    unfold sys_close, close_write, pbind in E2. destruct (writing mach upd_mach f s1) as [s3 o3] eqn:E3. destruct (writing_spec (Some f) s1 s3 o3 E3) as ([Q1 Q2 Q3] & M3 & X3 & _).
    assert (F3 : forall q, q <> f -> files (mach s3) !! q = files (mach s) !! q) by (intros q Hq; rewrite Q1 by congruence; by apply F1).
    destruct o3 as [|[[]|x]]; injection E2 as <- <-; cbn [mgr mach set_files upd_mach].
    + split_and!; try done; congruence.
    + split_and!; try done; [congruence| |].
      * intros q Hq. cbn. rewrite lookup_insert_ne by done. by apply F3.
      * intros _. cbn. rewrite lookup_insert. by rewrite M1.
    + split_and!; try done; [congruence|]. intros y Hy. destruct (X3 y Hy) as [-> H]. split; [done|]. intros H0. by apply H, N1.
  - intros [= <- <-]. split_and!; try done. intros y [= <-]. destruct C1 as [(? & _)|[(H & _ & Hn)|(_ & H)]]; try done. injection H as ->. done.
Qed.
Lemma backup_file_spec f s s' o old : files (mach s) !! f = Some old -> backup_file f s = (s', o) ->
  mgr s' = mgr s /\ (forall q, q <> f -> q <> f ++ BAK -> files (mach s') !! q = files (mach s) !! q) /\
  (no_failure s -> no_failure s') /\ (forall x, o = Done (Err x) -> x = IOError /\ ~ no_failure s) /\
  (o = Done (Ok tt) -> files (mach s') !! (f ++ BAK) = Some old /\ files (mach s') !! f = None) /\
  (o <> Done (Ok tt) -> files (mach s') !! f = Some old).
Proof.
  intros Hf. assert (Hne := bak_not_self f). unfold backup_file. unfold pbind at 1. unfold sys_exists, exists_file at 1.
  unfold pbind at 1. set (d := bool_decide _).
  destruct ((if d then sys_remove (f ++ BAK) else pret tt) s) as [s1 o1] eqn:E1.
  assert (H1 : mgr s1 = mgr s /\ (forall q, q <> f ++ BAK -> files (mach s1) !! q = files (mach s) !! q) /\ (no_failure s -> no_failure s1) /\ (forall x, o1 = Done (Err x) -> x = IOError /\ ~ no_failure s)).
  { unfold d in E1. case_bool_decide as Hd; [|injection E1 as <- <-; by split_and!]. unfold sys_remove, remove_file in E1. destruct (syscall_spec _ _ _ _ E1) as (M1 & R1 & (u1 & Eu1) & C1).
    destruct Hd as [b Hd]. rewrite Hd in C1. cbn [fst snd] in C1. split_and!; try done.
    - destruct C1 as [(_ & -> & _)|[(_ & -> & _)|(-> & _)]]; [done|done|]. intros q Hq. by rewrite lookup_delete_ne.
    - unfold no_failure. rewrite Eu1. set_solver.
    - intros x ->. destruct C1 as [(? & _)|[(H & _ & ?)|(_ & ?)]]; try done. by injection H as ->. }
  destruct H1 as (M1 & F1 & N1 & X1). assert (Hf1 : files (mach s1) !! f = Some old) by (rewrite F1 by done; done).
  destruct o1 as [|[[]|x]].
  - intros [= <- <-]. split_and!; try done. intros q _ Hq. by apply F1.
  - intros E2. unfold sys_rename, rename_file in E2. destruct (syscall_spec _ _ _ _ E2) as (M2 & R2 & (u2 & Eu2) & C2). rewrite Hf1 in C2. cbn [fst snd] in C2. split_and!.
    + congruence.
    + intros q Hq Hb. destruct C2 as [(_ & -> & _)|[(_ & -> & _)|(-> & _)]]; [by apply F1|by apply F1|]. rewrite lookup_insert_ne, lookup_delete_ne by done. by apply F1.
    + intros Hn. specialize (N1 Hn). unfold no_failure in *. rewrite Eu2 in N1. set_solver.
    + intros x ->. destruct C2 as [(? & _)|[(H & _ & Hn)|(_ & ?)]]; try done. injection H as ->. split; [done|]. intros Hs. by apply Hn, N1.
    + intros ->. destruct C2 as [(? & _)|[(? & _)|(-> & _)]]; try done. rewrite lookup_insert, lookup_insert_ne, lookup_delete by done. done.
    + intros Ho. destruct C2 as [(_ & -> & _)|[(_ & -> & _)|(_ & ->)]]; done.
  - intros [= <- <-]. split_and!; try done. intros q _ Hq. by apply F1.
Qed.
Lemma flat_routine_spec f bk s s' o : flat_routine f bk s = (s', o) ->
  mgr s' = mgr s /\ (forall q, q <> f -> q <> f ++ BAK -> files (mach s') !! q = files (mach s) !! q) /\
  (forall x, o = Done (Err x) -> x = IOError /\ ~ no_failure s) /\
  (o = Done (Ok tt) -> files (mach s') !! f = Some (b_xml true (objects (mgr s) 0))) /\
  (if bk then forall old, files (mach s) !! f = Some old -> files (mach s') !! f = Some old \/ files (mach s') !! (f ++ BAK) = Some old
   else files (mach s') !! (f ++ BAK) = files (mach s) !! (f ++ BAK)) /\
  (files (mach s) !! f = None -> files (mach s') !! (f ++ BAK) = files (mach s) !! (f ++ BAK)) /\
  (bk = true -> o = Done (Ok tt) -> forall old, files (mach s) !! f = Some old -> files (mach s') !! (f ++ BAK) = Some old).
Proof.
  assert (Hne := bak_not_self f). unfold flat_routine. unfold pbind at 1. unfold sys_exists, exists_file at 1. case_bool_decide as Hd.
  - destruct Hd as [old Hold]. destruct bk; cbn [andb].
    + unfold pbind at 1. destruct (backup_file f s) as [s1 o1] eqn:E1. destruct (backup_file_spec f s s1 o1 old Hold E1) as (M1 & F1 & N1 & X1 & O1 & O2). destruct o1 as [|[[]|x]].
      * intros [= <- <-]. split_and!; try done; [intros old' Ho; rewrite Hold in Ho; injection Ho as <-; left; by apply O2|congruence].
      * intros E2. destruct (write_flat_spec _ _ _ _ E2) as (M2 & F2 & X2 & O3). destruct (O1 eq_refl) as [B1 B2]. split_and!.
        -- congruence.
        -- intros q Hq Hb. rewrite F2 by done. by apply F1.
        -- intros x Hx. destruct (X2 x Hx) as [-> Hn]. split; [done|]. intros Hs. by apply Hn, N1.
        -- intros Ho. rewrite <- M1. by apply O3.
        -- intros old' Ho. rewrite Hold in Ho. injection Ho as <-. right. by rewrite F2.
        -- congruence.
        -- intros _ _ old' Ho. rewrite Hold in Ho. injection Ho as <-. by rewrite F2.
      * intros [= <- <-]. split_and!; try done; [intros old' Ho; rewrite Hold in Ho; injection Ho as <-; left; by apply O2|congruence].
    + unfold pbind, pret. intros E2. destruct (write_flat_spec _ _ _ _ E2) as (M2 & F2 & X2 & O3). split_and!; try done; try (by apply F2); [intros q Hq _; by apply F2|]. intros _. by apply F2.
  - cbn [andb]. unfold pbind, pret. intros E2. destruct (write_flat_spec _ _ _ _ E2) as (M2 & F2 & X2 & O3). assert (Hn : files (mach s) !! f = None) by (by apply eq_None_not_Some). split_and!; try done.
    + intros q Hq _. by apply F2.
    + destruct bk; [by intros old Ho; rewrite Hn in Ho|by apply F2].
    + intros _. by apply F2.
    + intros _ _ old Ho. by rewrite Hn in Ho.
Qed.
End proofs.
