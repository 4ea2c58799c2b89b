From Verif Require Export PageNamesSpec PagesProofs.

Lemma mod_data w c f : wfs w -> element c w ->
  let w' := edit c (fun k => [lon_root f k]) w in
  wfs w' /\ (forall y, element y w' <-> element y w) /\ (forall y, children y w' = children y w) /\
  (forall y, y <> c -> data y w' = data y w) /\ data c w' = f <$> data c w.
Proof.
  intros Hw Hc. cbv zeta. destruct (element_sub w c Hw Hc) as [k Hk]. pose proof (sub_nid _ _ _ Hk) as Hn.
  set (w' := edit c (fun k => [lon_root f k]) w).
  assert (Hik : ids (lon_root f k) = ids k) by (by destruct k).
  assert (Hperm : ids w' ≡ₚ ids w).
  { pose proof (edit_ids w c (fun k => [lon_root f k]) k Hw Hc Hk) as H. cbn [flat_map] in H.
    rewrite app_nil_r, Hik in H. by apply (inj (fun l => l ++ ids k)) in H. }
  assert (Hw' : wfs w') by (unfold wfs; by rewrite Hperm).
  assert (He : forall y, element y w' <-> element y w).
  { intros y. rewrite !element_ids by done. unfold w' at 2. rewrite edit_nid. by rewrite Hperm. }
  assert (Hfor : forall l0, for_ c (map nid [lon_root f k]) l0 = l0).
  { intros l0. assert (map nid [lon_root f k] = [c]) as -> by (rewrite <- Hn; by destruct k). apply for_self. }
  assert (Hrows : forall y d l, (y, d, l) ∈ view w -> (y, if decide (y = c) then f d else d, l) ∈ view w').
  { intros y d l Hr. apply (edit_rows w c (fun k => [lon_root f k]) k); [done..|].
    destruct (decide (y ∈ ids k)) as [Hy|Hy].
    - left. cbn [flat_map]. rewrite app_nil_r. pose proof (sub_view _ _ _ _ Hw Hk Hr Hy) as Hv.
      rewrite view_eq in Hv. apply elem_of_cons in Hv as [Hv|Hv].
      + injection Hv as -> -> ->. rewrite decide_True by done. rewrite view_eq. destruct k. left.
      + rewrite decide_False; [rewrite view_eq; destruct k; cbn; by right|]. intros ->.
        pose proof (sub_wfs _ _ _ Hw Hk) as Hkw. apply wfs_kids in Hkw as [_ Hkn]. apply Hkn. rewrite Hn.
        rewrite <- views_ids. by apply (elem_of_list_fmap_1 rid) in Hv.
    - right. split; [done|]. exists l. rewrite decide_False by (intros ->; apply Hy; rewrite <- Hn; apply nid_in).
      split; [done|]. by rewrite Hfor. }
  assert (Hall : forall y, children y w' = children y w /\ data y w' = if decide (y = c) then f <$> data y w else data y w).
  { intros y. destruct (decide (y ∈ ids w)) as [Hy|Hy].
    - destruct (view_at w y Hy) as (d & Hv & Hd). apply Hrows in Hv. apply (view_spec w' _ _ _ Hw') in Hv as (_ & H1 & H2).
      split; [done|]. rewrite H2, Hd. by case_decide.
    - assert (Hs : forall v, y ∉ ids v -> sub y v = None).
      { intros v Hv. destruct (sub y v) as [z|] eqn:E; [|done]. exfalso. apply Hv. apply (sub_ids _ _ _ E).
        rewrite <- (sub_nid _ _ _ E). apply nid_in. }
      unfold children, data. rewrite !Hs; [|done|by rewrite Hperm]. by case_decide. }
  split; [done|]. split; [done|]. split; [intros y; apply Hall|]. split.
  - intros y Ny. destruct (Hall y) as [_ H]. by rewrite decide_False in H.
  - destruct (Hall c) as [_ H]. by rewrite decide_True in H.
Qed.

Section proofs.
Context `{U : Unicode}.

Lemma upwards_ext w w' : (forall y, children y w' = children y w) -> forall a b, upwards w' a b -> upwards w a b.
Proof. intros H a b. induction 1; [constructor|]. econstructor; [done|]. by rewrite <- H. Qed.

Lemma rename_ok p c s n w : wfs w -> element c w -> clean_name p s = n -> n <> [] ->
  exists w', pc_rename p c s w = (w', Ok tt) /\ only_name p c n w w'.
Proof.
  intros Hw Hc <- Hn. unfold pc_rename. destruct (clean_name p s) as [|x n] eqn:E; [done|]. eexists. split; [reflexivity|].
  destruct (mod_data w c (fun a => nd_set_attrs (<[nametag p := x :: n]> (attrs a)) a) Hw Hc) as (H1 & H2 & H3 & H4 & H5).
  split; [done|]. split; [done|]. split; [done|]. split; [done|].
  destruct (element_sub w c Hw Hc) as [k Hk]. unfold data in H5 at 2. rewrite Hk in H5. exists (pl (root k)).
  split; [unfold data; by rewrite Hk|]. done.
Qed.
Lemma rename_empty p c s w : clean_name p s = [] -> pc_rename p c s w = (w, Err ValueError).
Proof. unfold pc_rename. by intros ->. Qed.

Lemma only_name_tagged p c n w w' t y : only_name p c n w w' -> tagged t w' y <-> tagged t w y.
Proof.
  intros (_ & _ & _ & H4 & d & H5 & H6). unfold tagged. destruct (decide (y = c)) as [-> |Ny].
  - by rewrite H5, H6.
  - by rewrite H4.
Qed.
Lemma only_name_pages p c n w w' : only_name p c n w w' -> pages p w' = pages p w /\ others p w' = others p w.
Proof.
  intros H. pose proof H as (_ & _ & H3 & _). unfold pages, others. rewrite H3. split.
  - apply list_filter_iff. intros y. by apply (only_name_tagged p c n w w').
  - apply list_filter_iff. intros y. by rewrite (only_name_tagged p c n w w').
Qed.
Lemma only_name_name p c n w w' y : only_name p c n w w' ->
  name_of p w' y = if decide (y = c) then Some n else name_of p w y.
Proof.
  intros (_ & _ & _ & H4 & d & H5 & H6). unfold name_of. case_decide as E.
  - subst y. rewrite H6. cbn. apply lookup_insert.
  - by rewrite H4.
Qed.
Lemma only_name_page p c n w w' d : only_name p c n w w' -> page p w d -> page p w' d.
Proof.
  intros H (P1 & P2 & P3). pose proof H as (_ & H2 & H3 & _). split; [by apply H2|]. split.
  - by apply (only_name_tagged p c n w w').
  - intros Hu. apply P3. by apply (upwards_ext w w').
Qed.

(** the invariant of histories: [P] are the pages the program may use *)
Definition ninv (p : container) (P : list N) (ot : list N) (nm : N -> option pystr) (w : node) : Prop :=
  wfs w /\ element (pc_body p) w /\ Forall (page p w) P /\ others p w = ot /\
  (forall c, c ∈ P \/ c ∈ pages p w -> name_of p w c = nm c).

Lemma list_op_in nm o l c : c ∈ (list_op nm o l).1 -> c ∈ l \/ c ∈ pop_page o.
Proof.
  destruct o as [k|k d|k|d]; cbn [list_op pop_page fst].
  - auto.
  - destruct (find_page nm k l) as [old|]; cbn [fst]; [|auto]. unfold put_page. case_decide; [auto|].
    intros Hc%instead_in. destruct Hc as [-> |Hc]; [right; left|]. apply without_in in Hc as [Hc _]. auto.
  - destruct (find_page nm k l) as [old|]; cbn [fst]; [|auto]. intros [Hc _]%without_in. auto.
  - intros Hc%elem_of_app. destruct Hc as [[Hc _]%without_in|Hc]; auto.
Qed.

Lemma pn_op_ref p P ot nm w o : ninv p P ot nm w -> Forall (fun c => c ∈ P) (nop_page o) ->
  exists w', pn_op p o w = (w', (named_op (clean_name p) o (pages p w, nm)).2) /\
    ninv p P ot (named_op (clean_name p) o (pages p w, nm)).1.2 w' /\
    pages p w' = (named_op (clean_name p) o (pages p w, nm)).1.1.
Proof.
  intros (Hw & Hb & HP & Ho & Hnm) Hpg. destruct o as [o|c s]; cbn [pn_op named_op nop_page] in *.
  - destruct (pc_op_ref p w w o (pinv_refl p w Hw Hb)) as (w' & E & Hi & Hp).
    { rewrite Forall_forall in HP, Hpg. apply Forall_forall. auto. }
    assert (Hl : list_op (name_of p w) o (pages p w) = list_op nm o (pages p w)).
    { assert (Hf : forall k, find_page (name_of p w) k (pages p w) = find_page nm k (pages p w))
        by (intros k; apply find_page_ext; intros c Hc; apply Hnm; by right).
      destruct o; cbn [list_op]; by rewrite ?Hf. }
    rewrite Hl in *. pose proof (list_op_in nm o (pages p w)) as Hin.
    destruct (list_op nm o (pages p w)) as [l r]. cbn [fst snd] in *.
    exists w'. split; [done|]. split; [|done]. destruct Hi as (I1 & I2 & I3 & I4 & I5 & I6). split; [done|]. split; [done|].
    split; [eapply Forall_impl; [exact HP|]; apply I5|]. split; [congruence|].
    assert (Hsame : forall c, element c w -> name_of p w' c = name_of p w c).
    { intros c Hc. unfold name_of. by destruct (I3 c Hc) as [_ ->]. }
    rewrite Forall_forall in HP, Hpg.
    intros c [Hc|Hc].
    + rewrite Hsame; [apply Hnm; by left|]. by apply HP.
    + rewrite Hp in Hc. apply Hin in Hc as [Hc|Hc].
      * rewrite Hsame; [apply Hnm; by right|]. by apply page_in_pages with p.
      * rewrite Hsame; [apply Hnm; left; by apply Hpg|]. by apply HP, Hpg.
  - apply Forall_inv in Hpg. unfold abind. destruct (clean_name p s) as [|x n] eqn:E.
    + rewrite rename_empty by done. exists w. cbn [fst snd]. done.
    + destruct (rename_ok p c s (x :: n) w Hw) as (w' & -> & Hr); [|done|done|].
      { rewrite Forall_forall in HP. by apply HP. }
      destruct (only_name_pages _ _ _ _ _ Hr) as [Hpp Hoo]. exists w'. cbn [fst snd]. split; [done|]. split; [|done].
      pose proof Hr as (R1 & R2 & _). split; [done|]. split; [by apply R2|]. split.
      { eapply Forall_impl; [exact HP|]. intros d. by apply (only_name_page p c (x :: n)). }
      split; [congruence|]. intros d Hd. rewrite (only_name_name _ _ _ _ _ _ Hr). case_decide; [done|]. apply Hnm. by rewrite <- Hpp.
Qed.
Lemma pn_run_ref p P ot os : forall nm w, ninv p P ot nm w -> Forall (fun o => Forall (fun c => c ∈ P) (nop_page o)) os ->
  exists w', pn_run p os w = (w', (named_run (clean_name p) os (pages p w, nm)).2) /\
    ninv p P ot (named_run (clean_name p) os (pages p w, nm)).1.2 w' /\
    pages p w' = (named_run (clean_name p) os (pages p w, nm)).1.1.
Proof.
  induction os as [|o os IH]; intros nm w Hi H; [by exists w|]. apply Forall_cons in H as [H1 H2].
  destruct (pn_op_ref p P ot nm w o Hi H1) as (w1 & E1 & I1 & P1). cbn [pn_run named_run]. rewrite E1.
  destruct (named_op (clean_name p) o (pages p w, nm)) as [[l1 nm1] r1]. cbn [fst snd] in *. subst l1.
  destruct (IH nm1 w1 I1 H2) as (w2 & E2 & I2 & P2). rewrite E2. exists w2.
  destruct (named_run (clean_name p) os (pages p w1, nm1)) as [[l2 nm2] r2]. cbn [fst snd] in *. done.
Qed.
End proofs.
