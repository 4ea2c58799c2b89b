From Verif Require Export ConfigSpec.
From Verif Require Import TableNormProofs TableHist TableReload T_TableNorm.

Section config.
Context `{U : Unicode}.

Lemma strategy_refused c x : refused c x ->
  (strategy_of (c_strategy c) = Err TypeError /\ x = TypeError) \/
  (exists st, strategy_of (c_strategy c) = Ok st /\ st <> ExpandAllButLast /\ length (c_maxcount c) < 2 /\ x = IndexError).
Proof.
  intros [[H ->]|(H & Hl & ->)]; unfold strategy_of.
  - left. rewrite !not_elem_of_cons in H. destruct H as (H1 & H2 & H3 & _). rewrite !decide_False by done. done.
  - right. rewrite !elem_of_cons in H. destruct H as [H|[H|H]]; [| |by apply elem_of_nil in H].
    + rewrite decide_True by done. by eexists.
    + rewrite H. cbn. by eexists.
Qed.
Lemma short_maxcount c : length (c_maxcount c) < 2 ->
  (do r <- get_maxrows c; do k <- get_maxcols c; Ok (r, k)) = Err IndexError.
Proof. unfold get_maxrows, get_maxcols. destruct (c_maxcount c) as [|a [|b l]]; cbn; [done|done|lia]. Qed.
Lemma open_refused c x e : refused c x -> e_tag e = TABLE -> open_table c e = (e, Err x).
Proof.
  intros H Ht. unfold open_table, abind, row_controller, is_table. rewrite bool_decide_true by done.
  destruct (strategy_refused c x H) as [[-> ->]|(st & -> & Hst & Hl & ->)]; [done|].
  unfold set_maxcount. destruct st; [|done|]; by rewrite short_maxcount.
Qed.
Lemma py_get_0 {A} (a : A) l : py_get (a :: l) 0 = Ok a.
Proof. unfold py_get, py_index. repeat case_decide; cbn in *; try done; lia. Qed.
Lemma py_get_1 {A} (a b : A) l : py_get (a :: b :: l) 1 = Ok b.
Proof. unfold py_get, py_index. repeat case_decide; cbn in *; try done; lia. Qed.
Lemma means_facts c st mc : means c st mc ->
  strategy_of (c_strategy c) = Ok st /\ get_maxrows c = Ok mc.1 /\ get_maxcols c = Ok mc.2 /\ max_ok st mc.
Proof.
  intros [[l Hl] Hst]. unfold get_maxrows, get_maxcols. rewrite Hl, py_get_0, py_get_1. unfold max_ok. destruct st.
  - rewrite Hst. by split_and!.
  - rewrite Hst. by split_and!.
  - destruct Hst as (-> & H1 & H2). by split_and!.
Qed.
Lemma all_but_last_max mc mc' e : normalize_table ExpandAllButLast mc e = normalize_table ExpandAllButLast mc' e.
Proof. done. Qed.
Lemma open_means c st mc e : means c st mc ->
  open_table c e = (let! _ := (fun e => if is_table e then match normalize_table st mc e with Ok e' => (e', Ok tt) | Err x => (e, Err x) end else (e, Err ValueError)) in
                    fun e => match expand_columns st mc.2 e with Ok e' => (e', Ok tt) | Err x => (e, Err x) end) e.
Proof.
  intros H. destruct (means_facts c st mc H) as (E1 & E2 & E3 & _).
  unfold open_table, row_controller, column_controller. rewrite E1, E3. unfold set_maxcount. rewrite E2, E3. cbn [rbind].
  unfold abind. destruct (is_table e); [|done]. destruct st; cbn; [|rewrite (all_but_last_max (0, 0)%Z mc)|]; by destruct mc.
Qed.
Lemma rep_of_no_repeat k e : no_repeat k e -> rep k e = Ok 1%Z.
Proof. unfold rep, no_repeat. destruct (e_get k e) as [s|]; [|done]. intros H. by apply H. Qed.

Lemma open_ok c st mc e : means c st mc -> good_sheet e ->
  exists e', open_table c e = (e', Ok tt) /\ expands st mc e e' /\ tidy e'.
Proof.
  intros Hc [Hg Hcol]. rewrite (open_means c st mc e Hc). destruct (means_facts c st mc Hc) as (_ & _ & _ & Hm).
  destruct (normalize_table_ok st mc e Hm Hg) as (e1 & E1 & R1 & D1 & C1 & F1).
  destruct (expand_columns_ok st mc.2 e1) as (e2 & E2 & R2 & C2 & D2 & F2); [intros Hst; by apply Hm|done|by rewrite C1|].
  exists e2. unfold abind, is_table. rewrite bool_decide_true by apply Hg. rewrite E1, E2. split; [done|].
  pose proof (normal_rows_out st mc _ _ Hg D1) as Hn.
  split.
  - split_and!.
    + by rewrite R2.
    + destruct (C09_rectangular st mc e Hm Hg) as (e1' & E1' & Hl & _). rewrite E1 in E1'. injection E1' as <-. change "table:table-row"%string with ROW. by rewrite D2.
    + intros i j. destruct (C11_logical_grid st mc e Hm Hg) as (e1' & E1' & _ & Hgr). rewrite E1 in E1'. injection E1' as <-.
      unfold plain_cell, plain_row in *. change "table:table-row"%string with ROW. rewrite D2. apply Hgr.
    + intros j. destruct (C11_columns st mc.2 e1) as (e2' & E2' & Hgc & _); [intros Hst; by apply Hm|done|fold COL; by rewrite C1|].
      rewrite E2 in E2'. injection E2' as <-. fold COL in Hgc |- *. rewrite C1 in Hgc. apply Hgc.
  - split_and!.
    + unfold e_tag. rewrite R2, R1. apply Hg.
    + done.
    + split.
      * change "table:table-row"%string with ROW. rewrite D2. eapply Forall_impl; [exact Hn|].
        intros r (N1 & N2 & _). split; [by apply rep_no_repeat|]. eapply Forall_impl; [exact N2|]. intros x. apply rep_no_repeat.
      * change "table:table-column"%string with COL. rewrite C2, C1. by apply show_runs_single.
    + exists (width st mc e). change "table:table-row"%string with ROW. rewrite D2. eapply Forall_impl; [exact Hn|]. by intros r (_ & _ & ?).
Qed.
Lemma open_tidy c st mc e : means c st mc -> tidy e -> open_table c e = (e, Ok tt).
Proof.
  intros Hc (T1 & T2 & [T3 T4] & w & T5). rewrite (open_means c st mc e Hc). destruct (means_facts c st mc Hc) as (_ & _ & _ & Hm).
  unfold abind, is_table. rewrite bool_decide_true by done. rewrite (normalize_normal st mc e w); [|done|done|done|].
  - rewrite expand_normal; [done|intros Hst; by apply Hm|done|]. eapply Forall_impl; [exact T4|]. intros x. apply rep_of_no_repeat.
  - change "table:table-row"%string with ROW in *. rewrite Forall_forall in T3, T5 |- *. intros r Hr. destruct (T3 r Hr) as [H1 H2].
    split_and!; [by apply rep_of_no_repeat| |by apply T5]. eapply Forall_impl; [exact H2|]. intros x. apply rep_of_no_repeat.
Qed.

(** ** Histories *)
Lemma setting_app c h h' : setting c (h ++ h') = setting (setting c h) h'.
Proof. revert c. induction h as [|[] h IH]; intros c; cbn; auto. Qed.
Lemma setting_sensible c h : proper c h -> sensible (setting c h).
Proof.
  intros (H1 & H2 & _). revert c H1. induction h as [|o h IH]; intros c H1; [done|].
  assert (H2' : forall st mc, CSet st mc ∈ h -> sensible (Conf st mc)) by (intros st mc Hin; apply H2; by right).
  destruct o as [st mc| | | |]; cbn; apply IH; try done.
  - apply H2. left.
  - left. exists ExpandAllLessMaxCount, (32, 32)%Z. split; [by exists []|]. cbn. split; [done|lia].
Qed.
Lemma access_conf i b : b_conf (access i b).1 = b_conf b.
Proof. unfold access. destruct (b_sheets b !! i); [|done]. destruct (s_cached s); [done|]. by destruct (open_table _ _). Qed.
Lemma run_conf h b : b_conf (c_run h b) = setting (b_conf b) h.
Proof.
  revert b. induction h as [|o h IH]; intros b; [done|]. unfold c_run in *. cbn [foldl]. rewrite IH.
  destruct o; cbn; try done; [by rewrite access_conf|]. unfold change. by destruct (b_sheets b !! i).
Qed.
Lemma access_other i j b : i <> j -> b_sheets (access i b).1 !! j = b_sheets b !! j.
Proof.
  intros Hne. unfold access. destruct (b_sheets b !! i); [|done]. destruct (s_cached s); [done|].
  destruct (open_table _ _). cbn. by rewrite list_lookup_insert_ne.
Qed.

(** A sheet before its first access. *)
Lemma run_unused i c h es e : proper c h -> unused_sheet i c h -> es !! i = Some e -> e_tag e = TABLE ->
  b_sheets (c_run h (opened c es)) !! i = Some (Sh e false).
Proof.
  intros Hp [Hu1 Hu2] He Ht. induction h as [|o h IH] using rev_ind.
  - cbn. by rewrite list_lookup_fmap, He.
  - assert (Hp' : proper c h).
    { destruct Hp as (P1 & P2 & P3). split_and!; [done|intros; apply P2; apply elem_of_app; by left|]. intros j f Hj. apply (P3 j). apply elem_of_app. by left. }
    assert (IH' : b_sheets (c_run h (opened c es)) !! i = Some (Sh e false)).
    { apply IH; [done| |]; [intros f Hf; apply (Hu1 f); apply elem_of_app; by left|].
      intros h1 h2 ->. apply (Hu2 h1 (h2 ++ [o])). by rewrite <- app_assoc. }
    unfold c_run. rewrite foldl_app. cbn [foldl]. fold (c_run h (opened c es)). destruct o as [| |j|j f|]; cbn [c_step].
    + done.
    + done.
    + destruct (decide (j = i)) as [->|Hne]; [|by rewrite access_other].
      destruct (Hu2 h []) as [x Hx]; [done|]. unfold access. rewrite IH'. cbn [s_cached s_elem].
      rewrite run_conf. cbn [b_conf opened]. rewrite (open_refused _ x e Hx Ht). cbn.
      rewrite list_lookup_insert; [done|]. by eapply lookup_lt_Some.
    + destruct (decide (j = i)) as [->|Hne]; [destruct (Hu1 f); apply elem_of_app; right; left|].
      unfold change. destruct (_ !! j); [|done]. cbn. by rewrite list_lookup_insert_ne.
    + cbn. by rewrite list_lookup_fmap, IH'.
Qed.
(** A sheet after its first access. *)
Lemma run_used i h b e k : sensible (b_conf b) ->
  (forall st mc, CSet st mc ∈ h -> sensible (Conf st mc)) ->
  (forall f, CChange i f ∈ h -> forall e, tidy e -> tidy (f e)) ->
  b_sheets b !! i = Some (Sh e k) -> tidy e ->
  exists k', b_sheets (c_run h b) !! i = Some (Sh (changes i h e) k') /\ tidy (changes i h e).
Proof.
  revert b e k. induction h as [|o h IH]; intros b e k Hc H2 H3 Hb Ht; [by exists k|].
  unfold c_run, changes. cbn [foldl]. fold (c_run h (c_step o b)).
  assert (H2' : forall st mc, CSet st mc ∈ h -> sensible (Conf st mc)) by (intros st mc Hin; apply H2; by right).
  assert (H3' : forall f, CChange i f ∈ h -> forall e, tidy e -> tidy (f e)) by (intros f Hin; apply H3; by right).
  destruct o as [st mc| |j|j f|]; cbn [c_step].
  - apply (IH _ e k); try done. cbn. apply H2. left.
  - apply (IH _ e k); try done. left. exists ExpandAllLessMaxCount, (32, 32)%Z. split; [by exists []|]. cbn. split; [done|lia].
  - destruct (decide (j = i)) as [->|Hne].
    + assert (H : exists k', b_sheets (access i b).1 !! i = Some (Sh e k')).
      { unfold access. rewrite Hb. cbn [s_cached s_elem]. destruct k; [by exists true|].
        assert (Ho : exists r, open_table (b_conf b) e = (e, r)).
        { destruct Hc as [(st & mc & Hm)|[x Hx]]; [exists (Ok tt); by apply (open_tidy _ st mc)|exists (Err x)].
          apply open_refused; [done|]. apply Ht. }
        destruct Ho as [r ->]. cbn. eexists. rewrite list_lookup_insert; [done|]. by eapply lookup_lt_Some. }
      destruct H as [k' Hk']. apply (IH _ e k'); try done. by rewrite access_conf.
    + apply (IH _ e k); try done; [by rewrite access_conf|by rewrite access_other].
  - destruct (decide (j = i)) as [->|Hne].
    + apply (IH _ (f e) k); try done.
      * unfold change. by rewrite Hb.
      * unfold change. rewrite Hb. cbn. rewrite list_lookup_insert; [done|]. by eapply lookup_lt_Some.
      * by apply H3; [left|].
    + apply (IH _ e k); try done; unfold change; destruct (b_sheets b !! j); try done. cbn. by rewrite list_lookup_insert_ne.
  - apply (IH _ e false); try done. cbn. by rewrite list_lookup_fmap, Hb.
Qed.
(** While the cache is kept. *)
Lemma run_cached i h b e : b_sheets b !! i = Some (Sh e true) -> CForget ∉ h ->
  exists e', b_sheets (c_run h b) !! i = Some (Sh e' true).
Proof.
  revert b e. induction h as [|o h IH]; intros b e Hb Hf; [by exists e|]. apply not_elem_of_cons in Hf as [Ho Hf].
  unfold c_run. cbn [foldl]. fold (c_run h (c_step o b)). destruct o as [st mc| |j|j f|]; cbn [c_step].
  - by apply (IH _ e).
  - by apply (IH _ e).
  - apply (IH _ e); [|done]. destruct (decide (j = i)) as [->|Hne]; [|by rewrite access_other].
    unfold access. by rewrite Hb.
  - unfold change. destruct (decide (j = i)) as [->|Hne].
    + rewrite Hb. apply (IH _ (f e)); [|done]. cbn. rewrite list_lookup_insert; [done|]. by eapply lookup_lt_Some.
    + apply (IH _ e); [|done]. destruct (b_sheets b !! j); [|done]. cbn. by rewrite list_lookup_insert_ne.
  - done.
Qed.
End config.
