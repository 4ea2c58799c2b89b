(** Naming, resetting, loading and copying tables. *)
From Verif Require Export TableOps.

Local Arguments label : simpl never.
Local Arguments edit : simpl never.
Local Arguments sub : simpl never.
Local Arguments ldesc : simpl never.
Local Arguments ids : simpl never.

(** [t] is the table and [W] its surroundings; nothing about the caches *)
Record Fr (s : st) (W : ctx) (t : node) : Prop := {
  f_store : store s = plug W [t];
  f_rt : rt (obj s) = nid t;
  f_nodup : NoDup (ids (store s));
  f_fresh : Forall (fun x => x < nxt s)%N (ids (store s))
}.
Lemma Inv_Fr s W t : Inv s W t -> Fr s W t.
Proof. intros []. by constructor. Qed.
Lemma Fr_Inv s W t : Fr s W t -> no_nesting t ->
  rowc (obj s) = map nid (ldesc ROW t) -> colc (obj s) = map nid (ldesc COL t) -> Inv s W t.
Proof. intros []. by constructor. Qed.
Lemma Fr_deref s W t : Fr s W t -> deref (rt (obj s)) s = (s, Ok t).
Proof. intros [H1 H2 H3 H4]. unfold deref. rewrite H2, H1. rewrite sub_plug; [done|]. by rewrite <- H1. Qed.
Lemma Fr_deref' s W t : Fr s W t -> deref (nid t) s = (s, Ok t).
Proof. intros H. rewrite <- (f_rt _ _ _ H). by eapply Fr_deref. Qed.
Lemma Fr_fresh s W t x : Fr s W t -> (nxt s <= x)%N -> x ∉ ids (store s).
Proof. intros HI Hx Hin. pose proof (f_fresh _ _ _ HI) as H. rewrite Forall_forall in H. apply H in Hin. lia. Qed.

Lemma Fr_replace s W t t' n' o :
  Fr s W t -> nid t' = nid t -> NoDup (ids t') ->
  Forall (fun x => (x ∈ ids t \/ (nxt s <= x)%N) /\ x < n')%N (ids t') -> (nxt s <= n')%N -> rt o = nid t ->
  (forall f, f t = [t'] -> edit (nid t) f (store s) = plug W [t']) /\ Fr (St (plug W [t']) n' o) W t'.
Proof.
  intros HF Hid Hnd Hx Hn Ho. pose proof HF as [H1 H2 H3 H4]. split.
  - intros f Hf. rewrite H1 in *. rewrite edit_plug by done. by rewrite Hf.
  - assert (P1 : Permutation (ids (store s)) (ids t ++ (il W ++ ir W))) by (rewrite H1, ids_plug1; solve_Permutation).
    assert (P2 : Permutation (ids (plug W [t'])) (ids t' ++ (il W ++ ir W))) by (rewrite ids_plug1; solve_Permutation).
    constructor; cbn; try done.
    + congruence.
    + rewrite P2. pose proof H3 as H3'. rewrite P1 in H3'. apply NoDup_app in H3' as (N1 & N2 & N3). apply NoDup_app. split_and!; [done| |done].
      intros y Hy Hy'. rewrite Forall_forall in Hx. destruct (Hx y Hy) as [[H|H] _]; [by apply (N2 y)|].
      apply (Fr_fresh _ _ _ _ HF H). rewrite P1. apply elem_of_app. by right.
    + rewrite P2. apply Forall_app. split; [eapply Forall_impl; [exact Hx|]; by intros ? [_ ?]|].
      rewrite P1 in H4. apply Forall_app in H4 as [_ H4]. eapply Forall_impl; [exact H4|]. cbn. lia.
Qed.
Lemma Fr_ids s W t : Fr s W t -> NoDup (ids t) /\ Forall (fun x => x < nxt s)%N (ids t).
Proof.
  intros [H1 H2 H3 H4]. rewrite H1, ids_plug1 in H3, H4. split.
  - apply NoDup_app in H3 as (_ & _ & H3). by apply NoDup_app in H3 as (? & _).
  - apply Forall_app in H4 as [_ H4]. by apply Forall_app in H4 as [? _].
Qed.
Lemma Fr_obj s W t o : Fr s W t -> rt o = nid t -> Fr (set_obj o s) W t.
Proof. intros [H1 H2 H3 H4] H. by constructor. Qed.

(** ** the name *)
Section life.
Context `{U : Unicode}.
Definition renamed (n : pystr) (t : node) : node :=
  lon_root (fun a => nd_set_attrs (<["table:name" := n]> (attrs a)) a) t.
Lemma renamed_nid n t : nid (renamed n t) = nid t. Proof. by destruct t. Qed.
Lemma renamed_ids n t : ids (renamed n t) = ids t. Proof. by destruct t. Qed.
Lemma renamed_ldesc n t p : ldesc p (renamed n t) = ldesc p t. Proof. by destruct t. Qed.
Lemma renamed_kids n t : kids (renamed n t) = kids t. Proof. by destruct t. Qed.
Lemma renamed_tag n t : ltag (renamed n t) = ltag t. Proof. by destruct t. Qed.

Lemma set_name_Fr s W t v : Fr s W t -> normalize_sheet_name v <> [] ->
  exists s', set_name v s = (s', Ok tt) /\ Fr s' W (renamed (normalize_sheet_name v) t) /\
    obj s' = obj s /\ nxt s' = nxt s.
Proof.
  intros HF Hv. unfold set_name, abind, aget. destruct (normalize_sheet_name v) as [|c n] eqn:En; [done|].
  unfold amod. rewrite (f_rt _ _ _ HF). destruct (Fr_ids _ _ _ HF) as [H1 H2].
  destruct (Fr_replace s W t (renamed (c :: n) t) (nxt s) (obj s) HF) as [E HF'].
  - apply renamed_nid.
  - by rewrite renamed_ids.
  - rewrite renamed_ids. apply Forall_forall. intros x Hx. rewrite Forall_forall in H2. specialize (H2 x Hx). cbn in H2. split; [by left|done].
  - lia.
  - apply HF.
  - eexists. split; [done|]. rewrite E by done. done.
Qed.
Lemma set_name_ok s W t v : Inv s W t -> normalize_sheet_name v <> [] ->
  exists s', set_name v s = (s', Ok tt) /\ Inv s' W (renamed (normalize_sheet_name v) t) /\
    obj s' = obj s /\ nxt s' = nxt s.
Proof.
  intros HI Hv. destruct (set_name_Fr s W t v (Inv_Fr _ _ _ HI) Hv) as (s' & E & HF & H1 & H2).
  exists s'. split_and!; try done. apply Fr_Inv; [done| | |]; rewrite ?H1, ?renamed_ldesc; try apply HI.
  pose proof (i_flat _ _ _ HI) as Hf. unfold no_nesting in *. fold ROW COL in *. by rewrite !renamed_ldesc.
Qed.
Lemma set_name_bad s v : normalize_sheet_name v = [] -> set_name v s = (s, Err ValueError).
Proof. intros H. unfold set_name, abind, aget. by rewrite H. Qed.

(** ** clearing *)
Definition caddl (ks : list node) (W : ctx) : ctx := foldl (fun W k => cadd k W) W ks.
Lemma grow_caddl ks W : grow W (caddl ks W).
Proof.
  unfold caddl. assert (H : forall V, grow W V -> grow W (foldl (fun W k => cadd k W) V ks)).
  { induction ks as [|k ks IH]; cbn; [done|]. intros V HV. apply IH. by constructor. }
  by apply H.
Qed.
Lemma foldl_add_root ks W m : foldl (fun w k => add_root k w) (plug W m) ks = plug (caddl ks W) m.
Proof. unfold caddl. revert W. induction ks as [|k ks IH]; intros W; cbn; [done|]. by rewrite add_root_plug, IH. Qed.
Lemma ids_caddl ks W m : Permutation (ids (plug (caddl ks W) m)) (ids (plug W m) ++ flat_map ids ks).
Proof.
  rewrite <- foldl_add_root. generalize (plug W m). induction ks as [|k ks IH]; intros w; cbn; [by rewrite app_nil_r|].
  rewrite IH, ids_add_root. by rewrite app_assoc.
Qed.

Definition emptied (t : node) : node := T (L (nid t) (Nd (ltag t) ∅ None None)) [].
Lemma clear_node_Fr s W t : Fr s W t ->
  exists s', clear_node (rt (obj s)) s = (s', Ok tt) /\ Fr s' (caddl (kids t) W) (emptied t) /\ obj s' = obj s /\ nxt s' = nxt s.
Proof.
  intros HF. unfold clear_node, abind. rewrite (Fr_deref _ _ _ HF). unfold amod.
  pose proof (Fr_ids _ _ _ HF) as [Hi1 Hi2].
  destruct (Fr_replace s W t (emptied t) (nxt s) (obj s) HF) as [E HF'].
  - done.
  - unfold emptied. rewrite ids_T. apply NoDup_singleton.
  - unfold emptied. rewrite ids_T. cbn. constructor; [|constructor]. split; [left; apply nid_in|].
    rewrite Forall_forall in Hi2. apply Hi2, nid_in.
  - lia.
  - apply HF.
  - eexists. split; [done|]. rewrite (f_rt _ _ _ HF), E by done. split_and!; try done.
    unfold set_store. rewrite foldl_add_root.
    assert (P : Permutation (ids (plug (caddl (kids t) W) [emptied t])) (ids (store s))).
    { rewrite ids_caddl, (f_store _ _ _ HF), !ids_plug1. unfold emptied. rewrite ids_T. cbn. rewrite (ids_eq t). cbn. solve_Permutation. }
    constructor; cbn; try done.
    + apply HF.
    + rewrite P. apply HF.
    + rewrite P. apply HF.
Qed.

Definition more_kids (f : list node -> list node) (t : node) : node := lon_kids f t.
Lemma mod_kids_Fr s W t new n' f :
  Fr s W t -> NoDup (flat_map ids (f (kids t))) ->
  Forall (fun x => (x ∈ flat_map ids (kids t) \/ (nxt s <= x)%N) /\ x < n')%N (flat_map ids (f (kids t))) -> (nxt s <= n')%N ->
  (new = lon_kids f t) ->
  mod_kids (nid t) f (set_nxt n' s) = (St (plug W [new]) n' (obj s), Ok tt) /\ Fr (St (plug W [new]) n' (obj s)) W new.
Proof.
  intros HF Hnd Hx Hn ->. destruct (Fr_ids _ _ _ HF) as [H1 H2]. rewrite (ids_eq t) in H1, H2.
  apply NoDup_cons in H1 as [H1 H1']. apply Forall_cons in H2 as [H2 H2'].
  assert (Ei : ids (lon_kids f t) = nid t :: flat_map ids (f (kids t))) by (by destruct t).
  destruct (Fr_replace s W t (lon_kids f t) n' (obj s) HF) as [E HF'].
  - by destruct t.
  - rewrite Ei. apply NoDup_cons. split; [|done]. intros Hin. rewrite Forall_forall in Hx. destruct (Hx _ Hin) as [[H|H] _]; [done|lia].
  - rewrite Ei. constructor; [split; [left; apply nid_in|lia]|]. eapply Forall_impl; [exact Hx|]. cbn.
    intros x [[H|H] H']; split; try done; [|by right]. left. rewrite ids_eq. by right.
  - done.
  - apply HF.
  - split; [|done]. unfold mod_kids, amod. cbn [store set_nxt]. rewrite E by done. done.
Qed.

Lemma grow_kids s W t x e n (g : nat -> nat) (pre post : list node) :
  (forall k, g k = length pre) -> Fr s W t -> x = nid t -> kids t = pre ++ post ->
  forall body, (forall s1, body s1 = (let! r := alloc e in mod_kids x (fun ks => insert_at (g (length ks)) r ks)) s1) \/
    (post = [] /\ forall s1, body s1 = (let! r := alloc e in mod_kids x (fun ks => ks ++ [r])) s1) ->
  exists s' new t', arepeat n body s = (s', Ok tt) /\ Fr s' W t' /\ root t' = root t /\
    kids t' = pre ++ new ++ post /\ map erase new = replicate n e /\ obj s' = obj s /\ (nxt s <= nxt s')%N.
Proof.
  intros Hg HF -> Hk body Hb.
  destruct (arepeat_ind (fun i s' => exists new t', Fr s' W t' /\ root t' = root t /\
    kids t' = pre ++ new ++ post /\ map erase new = replicate i e /\ obj s' = obj s /\ (nxt s <= nxt s')%N) body n s)
    as (s' & E & new & t' & H).
  - exists [], t. split_and!; try done.
  - intros i s1 _ (new & t1 & HF1 & R1 & K1 & E1 & O1 & N1).
    destruct (label_facts e (nxt s1)) as (r & n' & El & L1 & L2 & L3 & L4 & L5).
    assert (Hid : nid t1 = nid t) by (unfold nid; by rewrite R1).
    destruct (Fr_ids _ _ _ HF1) as [I1 I2]. rewrite (ids_eq t1) in I1, I2.
    apply NoDup_cons in I1 as [_ I1]. apply Forall_cons in I2 as [_ I2].
    assert (Hstep : forall f, Permutation (f (kids t1)) (r :: kids t1) ->
      mod_kids (nid t1) f (set_nxt n' s1) = (St (plug W [lon_kids f t1]) n' (obj s1), Ok tt) /\
      Fr (St (plug W [lon_kids f t1]) n' (obj s1)) W (lon_kids f t1)).
    { intros f Pf. assert (P : Permutation (flat_map ids (f (kids t1))) (ids r ++ flat_map ids (kids t1))).
      { rewrite Pf. done. }
      apply mod_kids_Fr; [done| | |lia|done].
      - rewrite P. apply NoDup_app. split_and!; [done| |done]. intros y Hy Hy'. rewrite Forall_forall in L4, I2.
        apply L4 in Hy. apply I2 in Hy'. lia.
      - rewrite P. apply Forall_app. split.
        + eapply Forall_impl; [exact L4|]. cbn. intros y Hy. split; [right|]; lia.
        + apply Forall_forall. intros y Hy. split; [by left|]. rewrite Forall_forall in I2. apply I2 in Hy. lia. }
    destruct Hb as [Hb|[-> Hb]].
    + set (f := fun ks => insert_at (g (length ks)) r ks).
      assert (Ef : f (kids t1) = pre ++ (r :: new) ++ post).
      { unfold f, insert_at. rewrite Hg, K1. by rewrite take_app, drop_app. }
      destruct (Hstep f) as [S1 S2]. { rewrite Ef, K1. cbn. solve_Permutation. }
      eexists. split.
      * rewrite Hb. unfold abind, alloc. rewrite El. rewrite <- Hid. exact S1.
      * exists (r :: new), (lon_kids f t1). split_and!; try done.
        -- by destruct t1.
        -- destruct t1. exact Ef.
        -- cbn. rewrite L1, E1, Nat.add_1_r. done.
        -- cbn. lia.
    + set (f := fun ks => ks ++ [r]).
      assert (Ef : f (kids t1) = pre ++ (new ++ [r]) ++ []).
      { unfold f. rewrite K1. rewrite !app_nil_r. by rewrite <- app_assoc. }
      destruct (Hstep f) as [S1 S2]. { unfold f. solve_Permutation. }
      eexists. split.
      * rewrite Hb. unfold abind, alloc. rewrite El. rewrite <- Hid. exact S1.
      * exists (new ++ [r]), (lon_kids f t1). split_and!; try done.
        -- by destruct t1.
        -- destruct t1. exact Ef.
        -- rewrite map_app, E1. cbn. rewrite L1. by rewrite Nat.add_1_r, replicate_S_end.
        -- cbn. lia.
  - exists s', new, t'. split; [done|]. exact H.
Qed.

Lemma aiter_skip {A} (l : list A) (body : A -> act st unit) s :
  Forall (fun x => body x s = (s, Ok tt)) l -> aiter l body s = (s, Ok tt).
Proof. induction 1 as [|x l Hx _ IH]; [done|]. cbn. unfold abind. by rewrite Hx. Qed.
Lemma remove_children_none s W t tags : Fr s W t -> Forall (fun k => ltag k ∉ tags) (kids t) ->
  remove_children tags s = (s, Ok tt).
Proof.
  intros HF Hk. unfold remove_children, abind, aget. rewrite (Fr_deref _ _ _ HF). apply aiter_skip.
  eapply Forall_impl; [exact Hk|]. cbn. intros k H. by rewrite decide_False.
Qed.

Lemma update_rows_Fr s W t : Fr s W t ->
  update_rows s = (set_rowc (map nid (ldesc ROW t)) s, Ok tt).
Proof. intros HF. unfold update_rows, table_rows, abind, aget. rewrite (Fr_deref _ _ _ HF). done. Qed.
Lemma update_cols_Fr s W t : Fr s W t ->
  update_cols s = (set_colc (map nid (ldesc COL t)) s, Ok tt).
Proof. intros HF. unfold update_cols, table_cols, abind, aget. rewrite (Fr_deref _ _ _ HF). done. Qed.

Lemma erase_tags l e n : map erase l = replicate n e -> Forall (fun k => ltag k = e_tag e) l.
Proof.
  intros H. apply Forall_forall. intros k Hk. rewrite ltag_erase. f_equal.
  assert (Hin : erase k ∈ replicate n e). { rewrite <- H. apply elem_of_list_fmap. by exists k. }
  by apply elem_of_replicate in Hin as [? _].
Qed.
Lemma count_tags_none tags l : Forall (fun k => k ∉ tags) l -> count_tags_in_block tags l = 0.
Proof.
  intros H. destruct l as [|c l]; [done|]. apply Forall_cons in H as [H _]. cbn.
  rewrite decide_False.
  - assert (tags_from c tags = None) as ->; [|done]. induction tags as [|y tags IH]; [done|]. cbn.
    apply not_elem_of_cons in H as [H1 H2]. rewrite decide_False by done. by apply IH.
  - destruct tags; [done|]. cbn. intros [= ->]. apply H. by left.
Qed.

Lemma lxml_pos0 k : lxml_insert_pos k 0 = 0.
Proof. unfold lxml_insert_pos, py_index. case_decide; [done|]. by destruct k; [|case_decide; lia]. Qed.

(** the element a table is after a reset *)
Definition grid (nr nc : nat) : list elem := replicate nc (new_elem COL) ++ replicate nr (build_new_row (Z.of_nat nc)).

Lemma set_metrics_Fr s W t v nr nc : Fr s W t -> kids t = [] -> normalize_sheet_name v <> [] ->
  (1 <= nr)%Z -> (1 <= nc)%Z ->
  exists s' t', set_metrics (Some v) (nr, nc) s = (s', Ok tt) /\ Fr s' W t' /\
    root t' = root (renamed (normalize_sheet_name v) t) /\ map erase (kids t') = grid (Z.to_nat nr) (Z.to_nat nc) /\
    rowc (obj s') = map nid (ldesc ROW t') /\ colc (obj s') = map nid (ldesc COL t') /\ (nxt s <= nxt s')%N.
Proof.
  intros HF Hk Hv Hr Hc. unfold set_metrics. unfold abind at 1.
  destruct (set_name_Fr s W t v HF Hv) as (s1 & -> & HF1 & O1 & N1).
  set (t1 := renamed (normalize_sheet_name v) t) in *.
  assert (K1 : kids t1 = []) by (unfold t1; by rewrite renamed_kids).
  unfold abind at 1. unfold ctl_reset. unfold abind at 1.
  rewrite (remove_children_none s1 W t1) by (done || by rewrite K1).
  rewrite decide_False by lia. rewrite decide_False by lia.
  unfold abind at 1, aget. unfold abind at 1.
  destruct (grow_kids s1 W t1 (rt (obj s1)) (build_new_row nc) (Z.to_nat nr) (fun _ => 0) [] []
    ltac:(done) HF1 (f_rt _ _ _ HF1) K1
    (let! row := alloc (build_new_row nc) in append_child (rt (obj s1)) row)) as (s2 & new & t2 & -> & HF2 & R2 & K2 & E2 & O2 & N2).
  { right. done. }
  rewrite (update_rows_Fr s2 W t2 HF2).
  cbn in K2. rewrite app_nil_r in K2.
  assert (T2 : Forall (fun k => ltag k = ROW) (kids t2)).
  { rewrite K2. by apply (erase_tags _ _ _ E2). }
  set (s3 := set_rowc (map nid (ldesc ROW t2)) s2).
  assert (HF3 : Fr s3 W t2). { apply Fr_obj; [done|]. cbn. apply HF2. }
  unfold ctl_reset_columns. cbn [snd]. rewrite decide_False by lia. unfold abind at 1.
  rewrite (remove_children_none s3 W t2 _ HF3).
  2:{ eapply Forall_impl; [exact T2|]. cbn. intros k ->. by apply (bool_decide_unpack _). }
  unfold abind at 1, aget. unfold abind at 1. rewrite (Fr_deref _ _ _ HF3). unfold abind at 1.
  rewrite count_tags_none.
  2:{ apply Forall_fmap. eapply Forall_impl; [exact T2|]. cbn. intros k ->. by apply (bool_decide_unpack _). }
  destruct (grow_kids s3 W t2 (rt (obj s3)) new_empty_column (Z.to_nat nc) (fun k => lxml_insert_pos k 0) [] (kids t2)
    lxml_pos0 HF3 (f_rt _ _ _ HF3) eq_refl
    (let! c := alloc new_empty_column in insert_child (rt (obj s3)) (Z.of_nat 0) c)) as (s4 & cnew & t4 & -> & HF4 & R4 & K4 & E4 & O4 & N4).
  { left. done. }
  rewrite (update_cols_Fr s4 W t4 HF4). cbn in K4.
  eexists. exists t4. split; [done|].
  assert (D2 : ldesc ROW t4 = ldesc ROW t2).
  { destruct t4 as [a4 k4], t2 as [a2 k2]. cbn in K4. subst k4. rewrite !ldesc_T, flat_map_app.
    assert (flat_map (lself ROW) cnew = []) as ->; [|done].
    clear -E4. revert E4. generalize (Z.to_nat nc). induction cnew as [|c l IH]; intros n; [done|].
    destruct n as [|n]; [done|]. cbn. intros E. injection E as E E'. rewrite (IH n) by done.
    rewrite app_nil_r. apply lself_nil. rewrite ltag_erase, ldesc_nil, E. done. }
  split_and!.
  - apply Fr_obj; [done|]. cbn. apply HF4.
  - congruence.
  - rewrite K4, K2, map_app, E2, E4. unfold grid. by rewrite Z2Nat.id by lia.
  - cbn. rewrite O4. cbn. by rewrite D2.
  - done.
  - cbn. cbn in N4. lia.
Qed.

(** ** the table after a reset *)
Lemma desc_T_app tg a l r : descendants tg (T a (l ++ r)) = descendants tg (T a l) ++ descendants tg (T a r).
Proof. rewrite !descendants_T. apply flat_map_app. Qed.
Lemma desc_repl tg a n e : descendants tg e = [] -> descendants tg (T a (replicate n e)) = (if decide (e_tag e = tg) then replicate n e else []).
Proof.
  intros He. rewrite descendants_T. induction n as [|n IH]; cbn; [by case_decide|]. rewrite IH. unfold selfdesc.
  rewrite He. by case_decide.
Qed.
Lemma row_no_desc n tg : tg <> CELL -> descendants tg (build_new_row n) = [].
Proof. intros. by apply desc_replicate. Qed.
Lemma grid_desc a nr nc :
  descendants ROW (T a (grid nr nc)) = replicate nr (build_new_row (Z.of_nat nc)) /\
  descendants COL (T a (grid nr nc)) = replicate nc (new_elem COL).
Proof.
  unfold grid. rewrite !desc_T_app. rewrite !desc_repl; try done; try (by apply row_no_desc).
  split; cbn; done || by rewrite app_nil_r.
Qed.
Lemma map_erase_Forall (P : elem -> Prop) l : Forall P (map erase l) <-> Forall (fun k => P (erase k)) l.
Proof. apply Forall_fmap. Qed.
Lemma no_nesting_flat t : flat (erase t) -> no_nesting t.
Proof.
  unfold flat, no_nesting. fold ROW COL. rewrite <- !erase_ldesc, <- map_app, map_erase_Forall.
  intros H. eapply Forall_impl; [exact H|]. cbn. intros k [H1 H2]. by rewrite !ldesc_nil.
Qed.
Lemma flat_no_nesting t : no_nesting t -> flat (erase t).
Proof.
  unfold flat, no_nesting. fold ROW COL. rewrite <- !erase_ldesc, <- map_app, map_erase_Forall.
  intros H. eapply Forall_impl; [exact H|]. cbn. intros k. by rewrite !ldesc_nil.
Qed.

Lemma grid_is_grid t nr nc : map erase (kids t) = grid nr nc -> is_grid nr nc t /\ no_nesting t.
Proof.
  intros H. assert (E : erase t = T (pl (root t)) (grid nr nc)). { destruct t. cbn in *. by rewrite H. }
  destruct (grid_desc (pl (root t)) nr nc) as [D1 D2]. rewrite <- E, <- erase_ldesc in D1, D2. split.
  - unfold is_grid, doc_rows, doc_cols. fold ROW COL. rewrite !map_length. split_and!.
    + by rewrite <- (map_length erase), D1, replicate_length.
    + by rewrite <- (map_length erase), D2, replicate_length.
    + apply Forall_fmap. apply Forall_forall. intros k Hk. cbn. apply is_empty_new.
      assert (Hin : erase k ∈ map erase (ldesc ROW t)) by (apply elem_of_list_fmap; by exists k).
      rewrite D1 in Hin. apply elem_of_replicate in Hin as [-> _]. unfold build_new_row. by rewrite Nat2Z.id.
    + apply Forall_fmap. apply Forall_forall. intros k Hk. cbn. apply (is_empty_new 0).
      assert (Hin : erase k ∈ map erase (ldesc COL t)) by (apply elem_of_list_fmap; by exists k).
      rewrite D2 in Hin. by apply elem_of_replicate in Hin as [-> _].
  - apply no_nesting_flat. apply flat_of; rewrite <- erase_ldesc, ?D1, ?D2; apply Forall_replicate; split; try done; by apply row_no_desc.
Qed.

Definition reset_nd (t : node) (n : pystr) : nd := Nd (ltag t) {["table:name" := n]} None None.
Lemma reset_ok s W t o nr nc : Inv s W t -> attrs (pl (root t)) !! "table:name" = Some o -> normalize_sheet_name o <> [] ->
  (1 <= nr)%Z -> (1 <= nc)%Z ->
  exists s' W' t', reset (nr, nc) s = (s', Ok tt) /\ Inv s' W' t' /\ grow W W' /\
    root t' = L (nid t) (reset_nd t (normalize_sheet_name o)) /\ is_grid (Z.to_nat nr) (Z.to_nat nc) t' /\ (nxt s <= nxt s')%N.
Proof.
  intros HI Hn Ho Hr Hc. unfold reset. unfold abind at 1. unfold get_name. unfold abind at 1, aget.
  unfold abind at 1. rewrite (deref_table _ _ _ HI). unfold aret. rewrite Hn.
  unfold abind at 1. unfold abind at 1.
  destruct (clear_node_Fr s W t (Inv_Fr _ _ _ HI)) as (s1 & -> & HF1 & O1 & N1).
  destruct (set_metrics_Fr s1 _ _ o nr nc HF1 eq_refl Ho Hr Hc) as (s2 & t2 & E2 & HF2 & R2 & K2 & C1 & C2 & N2).
  rewrite E2. destruct (grid_is_grid _ _ _ K2) as [G1 G2].
  exists s2, (caddl (kids t) W), t2. split_and!; try done.
  - by apply Fr_Inv.
  - apply grow_caddl.
  - rewrite N1 in N2. lia.
Qed.
Lemma reset_Ok_inv s W t nr nc s' : Inv s W t -> reset (nr, nc) s = (s', Ok tt) ->
  exists o, attrs (pl (root t)) !! "table:name" = Some o /\ normalize_sheet_name o <> [] /\ (1 <= nr)%Z /\ (1 <= nc)%Z.
Proof.
  intros HI. unfold reset. unfold abind at 1. unfold get_name. unfold abind at 1, aget.
  unfold abind at 1. rewrite (deref_table _ _ _ HI). unfold aret.
  unfold abind at 1. unfold abind at 1.
  destruct (clear_node_Fr s W t (Inv_Fr _ _ _ HI)) as (s1 & -> & HF1 & O1 & N1).
  unfold set_metrics. unfold abind at 1.
  destruct (attrs (pl (root t)) !! "table:name") as [o|]; [|done].
  destruct (decide (normalize_sheet_name o = [])) as [E|E]; [by rewrite set_name_bad|].
  destruct (set_name_Fr s1 _ _ o HF1 E) as (s2 & -> & HF2 & _ & _).
  unfold abind at 1, ctl_reset. unfold abind at 1.
  rewrite (remove_children_none s2 _ _ _ HF2) by (rewrite renamed_kids; constructor).
  case_decide; [done|]. case_decide; [done|]. intros _. exists o. split_and!; try done; lia.
Qed.
End life.
