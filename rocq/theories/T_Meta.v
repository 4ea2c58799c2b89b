(** Theorems about meta data (C34-C38). *)
From Verif Require Import MetaSpec MetaProofs.

(** ** Documents *)
Lemma opened `{U : Unicode} now0 now gen x r ops : open_meta now0 now gen x = Ok r ->
  exists m, has_stats m /\ meta_of r = Some m /\ meta_of (play_doc ops r) = Some (play ops m).
Proof.
  intros H. destruct (open_stats _ _ _ _ _ H) as (_ & i & m & E & Hs). exists m. split; [done|].
  destruct (run_doc_eq ops r i m E Hs) as [_ E']. unfold meta_of. rewrite <- !first_kid_tag. by rewrite E, E'.
Qed.
Lemma fresh_new `{U : Unicode} now0 now gen : new_data now0 now gen (fresh_meta now0 now gen).
Proof.
  unfold new_data. split_and!; try done.
  intros key K1 K2 K3. destruct (tag_for key) as [t|] eqn:Et; [|by apply entry_unknown]. apply alookup_elem in Et as Et'. unfold META_TAGS in Et'.
  repeat (apply elem_of_cons in Et' as [[= -> ->]|Et']; [done|]). by apply elem_of_nil in Et'.
Qed.

(** C34.  Opening an existing meta document keeps all its data, opening one without meta
    data gives creation date, date and generator; only a wrong root element is refused. *)
Theorem C34_open `{U : Unicode} now0 now gen x :
  let e := default (new_elem "office:document-meta") x in
  if decide (e_tag e = "office:document-meta"%string) then
    exists r m', open_meta now0 now gen x = Ok r /\ meta_of r = Some m' /\
      filter (fun k => e_tag k <> "office:meta"%string) (kids r) = filter (fun k => e_tag k <> "office:meta"%string) (kids e) /\
      match meta_of e with
      | Some m => same_data m m' /\ root r = root e /\ length (kids r) = length (kids e)
      | None => new_data now0 now gen m' /\ length (kids r) = S (length (kids e))
      end
  else open_meta now0 now gen x = Err ValueError.
Proof.
  assert (Hx : open_meta now0 now gen x = open_meta now0 now gen (Some (default (new_elem "office:document-meta") x))) by (by destruct x).
  rewrite Hx. clear Hx. cbn zeta. generalize (default (new_elem "office:document-meta") x). clear x. intros e.
  destruct (decide _) as [Ht|Ht]; [|by apply open_wrong]. unfold meta_of. rewrite <- (first_kid_tag "office:meta" e). destruct (first_kid (has_tag "office:meta") e) as [[i m]|] eqn:E.
  - rewrite (open_existing _ _ _ _ _ _ Ht E). eexists _, (with_stats m). split; [done|]. destruct (with_stats_ok m) as (H1 & H2 & H3 & H4 & H5).
    assert (Hm : e_tag m = "office:meta"%string) by (by apply list_find_Some in E as (_ & E & _)).
    assert (Hw : e_tag (with_stats m) = "office:meta"%string) by (unfold e_tag; by rewrite H2).
    split; [rewrite <- first_kid_tag; unfold first_kid in *; cbn [kids]; by rewrite (find_insert _ _ _ _ _ E Hw)|]. cbn [kids]. split.
    + apply list_find_Some in E as (E & _). assert (Hlt := lookup_lt_Some _ _ _ E). rewrite insert_take_drop by done.
      rewrite <- (take_drop_middle _ _ _ E) at 3. rewrite !filter_app, !filter_cons_False by (intros F; by apply F). done.
    + cbn [fmap option_fmap option_map snd]. split; [|split; [done|by rewrite insert_length]]. split; [|split_and!].
      * intros key. destruct (tag_for key) as [t|] eqn:Et; [|by rewrite !entry_unknown]. rewrite !(entry_tag key t) by done. rewrite H3; [done|]. by apply (tag_other key).
      * unfold words. by rewrite H3.
      * unfold users. by rewrite H3.
      * done.
  - rewrite (open_without _ _ _ _ Ht E). eexists _, (fresh_meta now0 now gen). split; [done|]. cbn [kids fmap option_fmap option_map]. split; [|split].
    + unfold findall. cbn [kids]. rewrite filter_app. apply list_find_None in E.
      assert (HN : forall l : list elem, Forall (fun k => ~ has_tag "office:meta" k) l -> filter (fun k : elem => e_tag k = "office:meta"%string) l = []).
      { clear. induction 1 as [|k l Hk Hl IH]; [done|]. by rewrite filter_cons_False. }
      by rewrite HN.
    + rewrite filter_app, filter_cons_False by (intros F; by apply F). by rewrite app_nil_r.
    + split; [apply fresh_new|]. rewrite app_length. cbn. lia.
Qed.
Print Assumptions C34_open.

(** C34.  Setting a known key. *)
Theorem C34_set `{U : Unicode} key v m : alookup key META_TAGS <> None -> v <> TOther ->
  let m' := (meta_set key v m).1 in
  (meta_set key v m).2 = Ok tt /\
  meta_get key m' = Ok (match v with TStr s => Some s | _ => None end) /\
  (forall key', key' <> key -> meta_get key' m' = meta_get key' m) /\
  words m' = words m /\ users m' = users m /\ (forall k, stat k m' = stat k m) /\ root m' = root m.
Proof.
  intros Hk Hv m'. change (alookup key META_TAGS) with (tag_for key) in Hk. destruct (tag_for key) as [t|] eqn:Et; [|done].
  assert (HF := meta_set_frame key v m). fold m' in HF. cbn zeta in HF. destruct HF as (H1 & H2 & H3 & H4 & _).
  split_and!; try done.
  - destruct (meta_set_only key v m t Et) as (H & _). rewrite H. by destruct v.
  - rewrite meta_get_eq. unfold m'. rewrite (entry_set key v m t Et). by destruct v.
  - intros key' Hn. rewrite !meta_get_eq. destruct (tag_for key') as [t'|] eqn:Et'; [|by rewrite !entry_unknown]. unfold m'. rewrite entry_meta_set, Et', decide_False by (by apply not_eq_sym). done.
Qed.
Print Assumptions C34_set.

(** C34.  Unknown keys. *)
Theorem C34_unknown `{U : Unicode} key v m : alookup key META_TAGS = None -> meta_set key v m = (m, Err KeyError) /\ meta_get key m = Err KeyError.
Proof. intros Hk. unfold meta_set, meta_get, tag_for. by rewrite Hk. Qed.
Print Assumptions C34_unknown.

(** C34.  After any history every key reads what was last set. *)
Theorem C34_history `{U : Unicode} now0 now gen x r ops key : open_meta now0 now gen x = Ok r -> alookup key META_TAGS <> None ->
  exists m m', meta_of r = Some m /\ meta_of (play_doc ops r) = Some m' /\
    meta_get key m' = match foldl (entry_after key) (field key m) ops with Some t => Ok t | None => Err KeyError end.
Proof.
  intros H Hk. destruct (opened _ _ _ _ _ ops H) as (m & Hs & E & E'). exists m, (play ops m). split; [done|]. split; [done|].
  rewrite meta_get_eq. change (alookup key META_TAGS) with (tag_for key) in Hk. destruct (tag_for key) as [t|] eqn:Et; [|done].
  rewrite (run_fold (field key) (entry_after key)) by (intros; try apply step_entry; congruence || done). done.
Qed.
Print Assumptions C34_history.

(** C34.  A history changes the office:meta element and nothing else of the document. *)
Theorem C34_document `{U : Unicode} now0 now gen x r ops : open_meta now0 now gen x = Ok r ->
  root (play_doc ops r) = root r /\
  exists i m, kids r !! i = Some m /\ meta_of r = Some m /\ meta_of (play_doc ops r) = kids (play_doc ops r) !! i /\
    length (kids (play_doc ops r)) = length (kids r) /\ forall j, j <> i -> kids (play_doc ops r) !! j = kids r !! j.
Proof.
  intros H. destruct (open_stats _ _ _ _ _ H) as (_ & i & m & E & Hs). destruct (run_doc_eq ops r i m E Hs) as [E1 E2].
  unfold meta_of. rewrite <- !first_kid_tag, E, E2, E1. cbn [root kids]. split; [done|]. apply list_find_Some in E as (E & _). exists i, m. split_and!; try done.
  - rewrite list_lookup_insert; [done|]. by apply lookup_lt_Some in E.
  - apply insert_length.
  - intros j Hj. by rewrite list_lookup_insert_ne.
Qed.
Print Assumptions C34_document.

(** C34.  A value that is no string is refused, but the field is created. *)
Theorem C34_refused_counterexample : exists key m,
  (meta_set key TOther m).2 = Err TypeError /\ meta_get key m = Err KeyError /\ meta_get key (meta_set key TOther m).1 = Ok None.
Proof. exists "title"%string, (new_elem "office:meta"). done. Qed.
Print Assumptions C34_refused_counterexample.

(** ** Keywords *)
(** C35.  The list of keywords after any history. *)
Theorem C35_list `{U : Unicode} now0 now gen x r ops : open_meta now0 now gen x = Ok r ->
  exists m m', meta_of r = Some m /\ meta_of (play_doc ops r) = Some m' /\ kw_list m' = foldl words_after (kw_list m) ops.
Proof.
  intros H. destruct (opened _ _ _ _ _ ops H) as (m & Hs & E & E'). exists m, (play ops m). split; [done|]. split; [done|].
  exact (run_fold words words_after ops m Hs step_words).
Qed.
Print Assumptions C35_list.
(** C35.  Without duplicates at the start the keywords are a set. *)
Theorem C35_set `{U : Unicode} now0 now gen x r ops m : open_meta now0 now gen x = Ok r -> meta_of r = Some m -> NoDup (kw_list m) ->
  exists m', meta_of (play_doc ops r) = Some m' /\ NoDup (kw_list m') /\
    (forall w, kw_contains w m' = foldl (word_in_after w) (kw_contains w m) ops) /\
    forall w, kw_contains w m' = true <-> w ∈ kw_list m'.
Proof.
  intros H Em Hd. destruct (opened _ _ _ _ _ ops H) as (m1 & Hs & E & E'). rewrite Em in E. injection E as <-. exists (play ops m). split; [done|].
  assert (HW := run_fold words words_after ops m Hs step_words). change (kw_list (play ops m)) with (words (play ops m)). rewrite HW.
  split; [by apply (words_in_fold ops None)|]. split; intros w; rewrite !kw_contains_eq, HW.
  - by apply words_in_fold.
  - by rewrite bool_decide_eq_true.
Qed.
Print Assumptions C35_set.
(** C35.  Everything else is untouched. *)
Theorem C35_frame `{U : Unicode} o m : match o with KAdd _ | KRemove _ | KClear => True | _ => False end ->
  let m' := (step o m).1 in
  root m' = root m /\ (forall t, t <> "meta:keyword"%string -> findall t m' = findall t m) /\
  (forall key, field key m' = field key m) /\ users m' = users m /\ forall key, stat key m' = stat key m.
Proof.
  intros Ho m'. assert (H : exists g, only KEYWORD g m m').
  { destruct o; try done; unfold m'; cbn [step fst]; eexists; [apply kw_add_only|apply kw_remove_only|apply clear_tag_only]. }
  destruct H as [g H]. split; [apply H|]. split; [apply H|]. split; [|split].
  - intros key. eapply entry_only; [exact H|]. intros E. by apply tag_other in E as (? & _).
  - by eapply users_only.
  - intros key. by eapply stat_only.
Qed.
Print Assumptions C35_frame.
(** C35.  A document may hold a keyword twice, then removing it once is not enough. *)
Theorem C35_duplicate_counterexample : exists m w, kw_contains w (kw_remove w m) = true.
Proof. exists (T (Nd "office:meta" ∅ None None) [new_elem KEYWORD; new_elem KEYWORD]), None. done. Qed.
Print Assumptions C35_duplicate_counterexample.

(** ** User tags *)
(** C36.  The list of user tags after any history. *)
Theorem C36_list `{U : Unicode} now0 now gen x r ops : open_meta now0 now gen x = Ok r ->
  exists m m', meta_of r = Some m /\ meta_of (play_doc ops r) = Some m' /\
    users m' = foldl users_after (users m) ops /\ ut_list m' = map fst (users m').
Proof.
  intros H. destruct (opened _ _ _ _ _ ops H) as (m & Hs & E & E'). exists m, (play ops m). split; [done|]. split; [done|]. split; [exact (run_fold users users_after ops m Hs step_users)|].
  unfold ut_list, users. rewrite map_map. done.
Qed.
Print Assumptions C36_list.
(** C36.  With distinct names at the start the user tags are a dictionary. *)
Theorem C36_dict `{U : Unicode} now0 now gen x r ops m n : open_meta now0 now gen x = Ok r -> meta_of r = Some m -> NoDup (map fst (ut_list m)) ->
  exists m', meta_of (play_doc ops r) = Some m' /\ NoDup (map fst (ut_list m')) /\
    match foldl (user_after n) (user n m) ops with
    | Some (v, ty) => ut_get n m' = Ok v /\ ut_typeof n m' = Ok (default (lit "string") ty) /\ ut_contains n m' = true
    | None => ut_get n m' = Err KeyError /\ ut_typeof n m' = Err KeyError /\ ut_contains n m' = false /\ ut_del n m' = (m', Err KeyError)
    end.
Proof.
  intros H Em Hd. destruct (opened _ _ _ _ _ ops H) as (m1 & Hs & E & E'). rewrite Em in E. injection E as <-. exists (play ops m). split; [done|].
  assert (HN : forall m, map fst (ut_list m) = names (users m)) by (intros m0; unfold ut_list, names, users; by rewrite !map_map).
  rewrite HN in *. assert (HU := run_fold users users_after ops m Hs step_users). destruct (users_fold ops n (users m) Hd) as [F1 F2]. rewrite HU. split; [done|].
  change (user n m) with (lookup_user n (users m)). rewrite <- F2, <- HU. change (lookup_user n (users (play ops m))) with (user n (play ops m)).
  rewrite ut_get_eq, ut_typeof_eq, ut_contains_eq. destruct (user n (play ops m)) as [[v ty]|] eqn:Eu; [done|]. split_and!; try done.
  unfold ut_del. rewrite <- user_first in Eu. by destruct (first_kid (is_user n) (play ops m)).
Qed.
Print Assumptions C36_dict.
(** C36.  update is setting one by one. *)
Theorem C36_update `{U : Unicode} d m : ut_update d m = play (map (fun p => USet p.1 p.2 None) d) m.
Proof. unfold ut_update, play. revert m. induction d as [|p d IH]; intros m; [done|]. cbn. apply IH. Qed.
Print Assumptions C36_update.
(** C36.  Everything else is untouched. *)
Theorem C36_frame `{U : Unicode} o m : match o with USet _ _ _ | UDel _ | UClear => True | _ => False end ->
  let m' := (step o m).1 in
  root m' = root m /\ (forall t, t <> "meta:user-defined"%string -> findall t m' = findall t m) /\
  (forall key, field key m' = field key m) /\ words m' = words m /\ forall key, stat key m' = stat key m.
Proof.
  intros Ho m'. assert (H : exists g, only USER g m m').
  { destruct o; try done; unfold m'; cbn [step fst]; eexists; [apply ut_set_only|apply ut_del_only|apply clear_tag_only]. }
  destruct H as [g H]. split; [apply H|]. split; [apply H|]. split; [|split].
  - intros key. eapply entry_only; [exact H|]. intros E. by apply tag_other in E as (_ & ? & _).
  - by eapply words_only.
  - intros key. by eapply stat_only.
Qed.
Print Assumptions C36_frame.
(** C36.  With two tags of one name, deleting does not make reading fail. *)
Theorem C36_duplicate_counterexample : exists m n, (ut_del n m).2 = Ok tt /\ ut_get n (ut_del n m).1 <> Err KeyError.
Proof. exists (T (Nd "office:meta" ∅ None None) [e_set NAME (lit "a") (new_elem USER); e_set NAME (lit "a") (new_elem USER)]), (lit "a"). split; [by_vm|]. vm_compute. done. Qed.
Print Assumptions C36_duplicate_counterexample.

(** ** Statistics *)
(** C37.  What a statistic reads after any history. *)
Theorem C37_get `{U : Unicode} now0 now gen x r ops key : open_meta now0 now gen x = Ok r ->
  exists m m', meta_of r = Some m /\ meta_of (play_doc ops r) = Some m' /\
    st_get key m' = if decide (key ∈ STAT_TYPES) then
                      match foldl (stat_after key) (stat key m) ops with
                      | None => Ok 0%Z
                      | Some s => match py_int s with Ok n => Ok n | Err _ => Ok 0%Z end
                      end
                    else Err KeyError.
Proof.
  intros H. destruct (opened _ _ _ _ _ ops H) as (m & Hs & E & E'). exists m, (play ops m). split; [done|]. split; [done|].
  destruct (decide _) as [Hk|Hk]; [|unfold st_get; by rewrite decide_False].
  rewrite <- (run_fold (stat key) (stat_after key)) by (intros; try apply step_stat; done). rewrite st_get_eq by (done || by apply run_stats).
  destruct (stat key (play ops m)) as [v|]; [|done]. by destruct (py_int v).
Qed.
Print Assumptions C37_get.
(** C37.  The last integer set is read, and nothing else changes. *)
Theorem C37_set `{U : Unicode} now0 now gen x r ops key n : open_meta now0 now gen x = Ok r -> key ∈ STAT_TYPES ->
  exists m m', meta_of (play_doc ops r) = Some m /\ meta_of (play_doc (ops ++ [SSet key (show_Z n)]) r) = Some m' /\
    st_get key m' = Ok n /\ (forall key', key' <> key -> st_get key' m' = st_get key' m) /\
    (forall k, field k m' = field k m) /\ words m' = words m /\ users m' = users m /\
    forall t, t <> "meta:document-statistic"%string -> findall t m' = findall t m.
Proof.
  intros H Hk. destruct (opened _ _ _ _ _ ops H) as (m & Hs & E & E'). destruct (opened _ _ _ _ _ (ops ++ [SSet key (show_Z n)]) H) as (m1 & Hs1 & E1 & E1').
  rewrite E in E1. injection E1 as <-. exists (play ops m). eexists. split; [done|]. split; [done|].
  unfold play. rewrite foldl_app. cbn [foldl]. fold (play ops m). assert (Hr := run_stats ops m Hs). set (a := play ops m) in *. set (b := (step (SSet key (show_Z n)) a).1).
  assert (Hb : has_stats b) by (by apply step_stats). destruct (st_set_only key (show_Z n) a Hk Hr) as [_ HO].
  split_and!.
  - rewrite st_get_eq by done. unfold b. rewrite step_stat by done. cbn [stat_after]. rewrite decide_True by done. by rewrite py_int_show_Z.
  - intros key' Hn. destruct (decide (key' ∈ STAT_TYPES)) as [Hk'|Hk']; [|unfold st_get; by rewrite !decide_False by done]. rewrite !st_get_eq by done. unfold b. rewrite step_stat by done. cbn [stat_after]. by rewrite decide_False by (by apply not_eq_sym).
  - intros k. eapply entry_only; [exact HO|]. intros F. by apply tag_other in F as (_ & _ & ?).
  - by eapply words_only.
  - by eapply users_only.
  - apply HO.
Qed.
Print Assumptions C37_set.
(** C37.  Unknown keys. *)
Theorem C37_unknown `{U : Unicode} key v m : key ∉ STAT_TYPES -> st_get key m = Err KeyError /\ st_set key v m = (m, Err KeyError).
Proof. intros Hk. unfold st_get, st_set. by rewrite !decide_False. Qed.
Print Assumptions C37_unknown.
(** C37.  Iterating lists exactly the counts that are set. *)
Theorem C37_items `{U : Unicode} m s : head (findall "meta:document-statistic" m) = Some s ->
  (forall a v, e_attrs s !! a = Some v -> exists key n, key ∈ STAT_TYPES /\ a = ("meta:" ++ key ++ "-count")%string /\ py_int v = Ok n) ->
  exists l, st_items m = Ok l /\ NoDup (map fst l) /\ forall key n, (key, n) ∈ l <-> is_Some (stat key m) /\ st_get key m = Ok n /\ key ∈ STAT_TYPES.
Proof.
  intros Hs HA. destruct (st_items_ok m s Hs HA) as (l & H1 & H2 & H3). exists l. split; [done|]. split; [done|]. intros key n. rewrite H3.
  assert (Hst : has_stats m) by (unfold has_stats; intros F; change STATISTIC with "meta:document-statistic"%string in F; by rewrite F in Hs).
  split.
  - intros (Hk & v & Hv & Hn). rewrite st_get_eq, Hv, Hn by done. by split; [eexists|].
  - intros ([v Hv] & Hg & Hk). rewrite st_get_eq in Hg by done. split; [done|]. exists v. split; [done|]. rewrite Hv in Hg.
    unfold stat in Hv. rewrite Hs in Hv. destruct (HA _ _ Hv) as (_ & n' & _ & _ & Hn). rewrite Hn in Hg |- *. congruence.
Qed.
Print Assumptions C37_items.

(** ** Editing cycles *)
(** C38.  n saves; every save calls touch and inc_editing_cycles (document.py). *)
Definition saves (l : list (pystr * pystr)) : list mop := concat (map (fun p => [MTouch p.1 p.2; MInc]) l).
Lemma saves_fold `{U : Unicode} x l : foldl (entry_after "editing-cycles") x (saves l) = foldl (entry_after "editing-cycles") x (replicate (length l) MInc).
Proof. revert x. induction l as [|p l IH]; intros x; [done|]. unfold saves in *. cbn [map concat app foldl length replicate]. by rewrite IH. Qed.
(** what the counter stands for *)
Definition counter `{U : Unicode} (x : res (option pystr)) : Z := match x with Ok (Some k) => match py_int k with Ok n => n | Err _ => 0 end | _ => 0 end.
Theorem C38_count `{U : Unicode} now0 now gen x r ops l m : open_meta now0 now gen x = Ok r -> meta_of (play_doc ops r) = Some m ->
  meta_get "editing-cycles" m <> Ok None -> l <> [] ->
  exists m', meta_of (play_doc (ops ++ saves l) r) = Some m' /\
    meta_get "editing-cycles" m' = Ok (Some (show_Z (counter (meta_get "editing-cycles" m) + Z.of_nat (length l)))).
Proof.
  intros H Em Hk Hl. destruct (opened _ _ _ _ _ ops H) as (m0 & Hs & E & E'). destruct (opened _ _ _ _ _ (ops ++ saves l) H) as (m1 & Hs1 & E1 & E1').
  rewrite E in E1. injection E1 as <-. rewrite E' in Em. injection Em as <-. eexists. split; [done|]. destruct l as [|[nw gn] l]; [done|].
  rewrite meta_get_eq in Hk |- *. rewrite meta_get_eq. unfold play at 1. rewrite foldl_app. fold (play ops m0). change (foldl _ (play ops m0) ?z) with (play z (play ops m0)).
  rewrite (run_fold (field "editing-cycles") (entry_after "editing-cycles")) by (by apply run_stats || (intros; by apply step_entry)).
  rewrite saves_fold. cbn [length replicate foldl].
  destruct (field "editing-cycles" (play ops m0)) as [[k|]|]; [|done|].
  - replace (entry_after "editing-cycles" (Some (Some k)) MInc) with (Some (Some (show_Z (next_cycle k)))) by done. rewrite cycles_fold. cbn. unfold next_cycle. do 3 f_equal. destruct (py_int k); lia.
  - replace (entry_after "editing-cycles" None MInc) with (Some (Some (show_Z 1))) by done. rewrite cycles_fold. unfold counter. do 3 f_equal. lia.
Qed.
Print Assumptions C38_count.
(** C38.  One save: no exception, one more, nothing changed but date and generator. *)
Theorem C38_save `{U : Unicode} now gen m : meta_get "editing-cycles" m <> Ok None ->
  exists m', (let! _ := meta_touch now gen in meta_inc) m = (m', Ok tt) /\
    meta_get "editing-cycles" m' = Ok (Some (show_Z (counter (meta_get "editing-cycles" m) + 1))) /\
    meta_get "date" m' = Ok (Some now) /\ meta_get "generator" m' = Ok (Some gen) /\
    (forall key, key <> "editing-cycles"%string -> key <> "date"%string -> key <> "generator"%string -> meta_get key m' = meta_get key m) /\
    words m' = words m /\ users m' = users m /\ (forall key, stat key m' = stat key m) /\ root m' = root m.
Proof.
  intros Hk. rewrite meta_get_eq in Hk |- *. unfold abind. destruct (meta_touch_eq now gen m) as [E1 E2]. destruct (meta_touch now gen m) as [m1 x] eqn:Et. cbn in E2. subst x.
  assert (EE : forall key, field key m1 = match tag_for key with None => None | Some _ => if decide ("generator"%string = key) then Some (Some gen) else if decide ("date"%string = key) then Some (Some now) else field key m end).
  { intros key. change m1 with ((m1, Ok tt : res unit).1). rewrite E1, !entry_meta_set. destruct (tag_for key); [|done]. done. }
  assert (HF : words m1 = words m /\ users m1 = users m /\ (forall key, stat key m1 = stat key m) /\ root m1 = root m).
  { change m1 with ((m1, Ok tt : res unit).1). rewrite E1. destruct (meta_set_frame "generator" (TStr gen) (meta_set "date" (TStr now) m).1) as (A1 & A2 & A3 & A4 & _).
    destruct (meta_set_frame "date" (TStr now) m) as (B1 & B2 & B3 & B4 & _). cbn zeta in *. rewrite A1, A2, A3, B1, B2, B3. split_and!; try done. intros key. by rewrite A4, B4. }
  assert (EC : field "editing-cycles" m1 = field "editing-cycles" m) by (by rewrite EE).
  destruct (meta_inc_cases m1) as [[F _]|(n & F1 & F2 & F3 & F4)]; [rewrite EC in F; by rewrite F in Hk|].
  exists (meta_inc m1).1. split; [by rewrite <- F2; destruct (meta_inc m1)|]. rewrite F1.
  destruct (meta_set_frame "editing-cycles" (TStr (show_Z n)) m1) as (A1 & A2 & A3 & A4 & _). cbn zeta in *. destruct HF as (B2 & B3 & B4 & B1). rewrite !meta_get_eq, !entry_meta_set. cbn [tag_for].
  split_and!; try done.
  - rewrite decide_True by done. cbn. do 3 f_equal. rewrite F3, EC. destruct (field "editing-cycles" m) as [[k|]|]; [|done|done]. cbn. unfold next_cycle. destruct (py_int k); lia.
  - rewrite (EE "date"%string). done.
  - rewrite (EE "generator"%string). done.
  - intros key K1 K2 K3. rewrite !meta_get_eq, entry_meta_set, EE. destruct (tag_for key) as [t|] eqn:Ek; [|by rewrite (entry_unknown key m)].
    rewrite (decide_False (P := "editing-cycles"%string = key)) by (by apply not_eq_sym). rewrite (decide_False (P := "generator"%string = key)) by (by apply not_eq_sym).
    by rewrite (decide_False (P := "date"%string = key)) by (by apply not_eq_sym).
  - congruence.
  - congruence.
  - intros key. by rewrite A4, B4.
  - congruence.
Qed.
Print Assumptions C38_save.
(** C38.  With an empty counter element the exception escapes and saving fails for ever. *)
Theorem C38_empty_counterexample `{U : Unicode} : exists m, meta_get "editing-cycles" m = Ok None /\
  forall l, Forall (fun o => exists now gen, o = MTouch now gen \/ o = MInc) l -> (meta_inc (play l m)).2 = Err TypeError.
Proof.
  exists (T (Nd "office:meta" ∅ None None) [new_elem "meta:editing-cycles"; new_elem STATISTIC]). split; [done|]. intros l Hl.
  assert (Hs : has_stats (T (Nd "office:meta" ∅ None None) [new_elem "meta:editing-cycles"; new_elem STATISTIC])) by done. revert Hs.
  assert (He : field "editing-cycles" (T (Nd "office:meta" ∅ None None) [new_elem "meta:editing-cycles"; new_elem STATISTIC]) = Some None) by done. revert He.
  generalize (T (Nd "office:meta" ∅ None None) [new_elem "meta:editing-cycles"; new_elem STATISTIC]). intros m He Hs.
  assert (HE : field "editing-cycles" (play l m) = Some None).
  { rewrite (run_fold (field "editing-cycles") (entry_after "editing-cycles")) by (done || (intros; by apply step_entry)). rewrite He. clear -Hl. induction Hl as [|o l (nw & gn & [-> | ->]) Hl IH]; [done| |]; exact IH. }
  destruct (meta_inc_cases (play l m)) as [[_ ->]|(n & _ & _ & _ & F)]; [done|]. by rewrite HE in F.
Qed.
Print Assumptions C38_empty_counterexample.

(** ** Cases *)
(** A stored document: title, two keywords, a user tag, a statistic and a counter. *)
Definition sample_meta : elem :=
  T (Nd "office:meta" ∅ None None)
    [e_set_text (Some (lit "Report")) (new_elem "dc:title"); e_set_text (Some (lit "a")) (new_elem "meta:keyword");
     e_set "meta:name" (lit "owner") (e_set_text (Some (lit "me")) (new_elem "meta:user-defined"));
     e_set_text (Some (lit "b")) (new_elem "meta:keyword"); e_set_text (Some (lit "7")) (new_elem "meta:editing-cycles");
     e_set "meta:page-count" (lit "3") (e_set "meta:word-count" (lit "120") (new_elem "meta:document-statistic"))].
Definition sample_doc : elem := T (Nd "office:document-meta" ∅ None None) [new_elem "other"; sample_meta; new_elem "other"].
Definition t1 : pystr := lit "2011-01-01T00:00:00".
Definition t2 : pystr := lit "2011-01-02T00:00:00".
Definition g1 : pystr := lit "ezodf/0.2".
Definition sample_ops : list mop :=
  [MSet "title" (TStr (lit "New")); KAdd (Some (lit "c")); KRemove (Some (lit "a")); KAdd (Some (lit "b"));
   USet (lit "owner") (lit "you") (Some (lit "float")); USet (lit "x") (lit "1") None; UDel (lit "y"); SSet "page" (lit "5"); SSet "word" (lit "many")].

Example C34_case : open_meta t1 t1 g1 (Some sample_doc) = Ok sample_doc /\ meta_of sample_doc = Some sample_meta.
Proof. split; [exact (open_existing t1 t1 g1 sample_doc 1 sample_meta eq_refl eq_refl)|done]. Qed.
Example C34_open_case : is_Some (meta_of sample_doc) /\ meta_of (new_elem "office:document-meta") = None /\ e_tag sample_meta <> "office:document-meta"%string.
Proof. by split. Qed.
Example C34_set_case : alookup "title" META_TAGS <> None /\ alookup "editor" META_TAGS = None /\
  meta_get "title" sample_meta = Ok (Some (lit "Report")) /\ meta_get "title" (meta_set "title" (TStr (lit "New")) sample_meta).1 = Ok (Some (lit "New")).
Proof. by split_and!. Qed.
Example C34_history_case : foldl (entry_after (U := ascii_unicode) "title") (field "title" sample_meta) sample_ops = Some (Some (lit "New")) /\
  foldl (entry_after (U := ascii_unicode) "title") (field "title" sample_meta) (sample_ops ++ [MClear]) = None.
Proof. split; by_vm. Qed.
Example C35_case : NoDup (kw_list sample_meta) /\ foldl words_after (kw_list sample_meta) sample_ops = [Some (lit "b"); Some (lit "c")].
Proof. split; [dec_vm|by_vm]. Qed.
Example C36_case : NoDup (map fst (ut_list sample_meta)) /\
  foldl (user_after (lit "owner")) (user (lit "owner") sample_meta) sample_ops = Some (Some (lit "you"), Some (lit "float")) /\
  foldl (user_after (lit "y")) (user (lit "y") sample_meta) sample_ops = None.
Proof. split; [dec_vm|split; by_vm]. Qed.
Example C37_case : ("page"%string ∈ STAT_TYPES) /\ ("pages"%string ∉ STAT_TYPES) /\
  foldl (stat_after "page") (stat "page" sample_meta) sample_ops = Some (lit "5") /\
  foldl (stat_after "word") (stat "word" sample_meta) sample_ops = Some (lit "many") /\ py_int (U := ascii_unicode) (lit "many") = Err ValueError.
Proof. split; [dec_vm|]. split; [dec_vm|]. split; [by_vm|split; by_vm]. Qed.
Example C37_items_case : exists s, head (findall "meta:document-statistic" sample_meta) = Some s /\
  forall a v, e_attrs s !! a = Some v -> exists key n, key ∈ STAT_TYPES /\ a = ("meta:" ++ key ++ "-count")%string /\ py_int (U := ascii_unicode) v = Ok n.
Proof.
  exists (e_set "meta:page-count" (lit "3") (e_set "meta:word-count" (lit "120") (new_elem "meta:document-statistic"))). split; [done|].
  intros a v H. unfold e_attrs, e_set in H. cbn in H. apply lookup_insert_Some in H as [[<- <-]|[_ H]].
  - exists "page"%string, 3%Z. split; [dec_vm|split; [done|by_vm]].
  - apply lookup_insert_Some in H as [[<- <-]|[_ H]]; [|by rewrite lookup_empty in H]. exists "word"%string, 120%Z. split; [dec_vm|split; [done|by_vm]].
Qed.
Example C38_case : meta_get "editing-cycles" sample_meta = Ok (Some (lit "7")) /\ counter (U := ascii_unicode) (meta_get "editing-cycles" sample_meta) = 7%Z /\
  saves [(t1, g1); (t2, g1)] = [MTouch t1 g1; MInc; MTouch t2 g1; MInc].
Proof. split; [done|]. split; [by_vm|done]. Qed.
