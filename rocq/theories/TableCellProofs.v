(** Changes of the cells of one row, and of all rows. *)
From Verif Require Export TableProofs.

Local Arguments label : simpl never.
Local Arguments edit : simpl never.
Local Arguments sub : simpl never.
Local Arguments ldesc : simpl never.
Local Arguments ids : simpl never.

(** ** an edit of a child is an edit of its parent *)
Lemma edit_child w k l c r f :
  NoDup (ids w) -> sub (nid k) w = Some k -> nid k <> nid w -> kids k = l ++ c :: r ->
  edit (nid c) f w = edit (nid k) (fun _ => [T (root k) (l ++ f c ++ r)]) w.
Proof.
  intros Hn Hs Hne Hk. apply sub_Some in Hs as [_ [->|[C ->]]]; [done|].
  destruct k as [a ks]. cbn in Hk. subst ks. change (T a (l ++ c :: r)) with (plug (Here a l r) [c]) in *.
  rewrite (edit_plug C) by done. rewrite <- plug_ccomp. rewrite edit_plug by (by rewrite plug_ccomp).
  by rewrite plug_ccomp.
Qed.
Lemma sub_child w k l c r :
  NoDup (ids w) -> sub (nid k) w = Some k -> nid k <> nid w -> kids k = l ++ c :: r ->
  sub (nid c) w = Some c /\ ~ no_parent (nid c) w.
Proof.
  intros Hn Hs Hne Hk. apply sub_Some in Hs as [_ [->|[C ->]]]; [done|].
  destruct k as [a ks]. cbn in Hk. subst ks. change (T a (l ++ c :: r)) with (plug (Here a l r) [c]) in *. split.
  - rewrite <- plug_ccomp. apply sub_plug. by rewrite plug_ccomp.
  - by apply not_no_parent.
Qed.

Lemma row_not_store s W t i k : Inv s W t -> ldesc ROW t !! i = Some k -> nid k <> nid (store s).
Proof.
  intros HI Hi E. pose proof (sub_hole s W t ROW COL i k other_RC HI Hi) as Hs.
  rewrite E, sub_root in Hs. injection Hs as Hs.
  pose proof (ldesc_ids ROW t) as Hsub. apply sublist_submseteq in Hsub.
  assert (Hin : nid k ∈ flat_map ids (kids t)).
  { eapply elem_of_submseteq; [|exact Hsub]. apply elem_of_list_fmap. exists k. split; [done|]. by eapply elem_of_list_lookup_2. }
  pose proof (i_nodup _ _ _ HI) as Hn. rewrite (i_store _ _ _ HI), ids_plug1 in Hn. rewrite (i_store _ _ _ HI) in E.
  rewrite nid_plug in E. apply NoDup_app in Hn as (_ & Hn & _). apply (Hn (nid k)).
  - rewrite E. destruct W; left.
  - apply elem_of_app. left. rewrite ids_eq. by right.
Qed.

Lemma row_ids_in s W t i k : Inv s W t -> ldesc ROW t !! i = Some k -> NoDup (ids k) /\ Forall (fun x => x ∈ ids (store s)) (ids k).
Proof.
  intros HI Hi. pose proof (sub_hole s W t ROW COL i k other_RC HI Hi) as Es. apply sub_Some in Es as [_ [->|[c Es]]].
  - split; [apply HI|by apply Forall_forall].
  - pose proof (i_nodup _ _ _ HI) as Hn. rewrite Es, ids_plug1 in Hn |- *. split.
    + apply NoDup_app in Hn as (_ & _ & Hn). by apply NoDup_app in Hn as (? & _).
    + apply Forall_forall. intros x Hx. apply elem_of_app. right. apply elem_of_app. by left.
Qed.

(** ** new children for one row *)
Definition with_kids (p : part) (ks : list node) : part := Part (p_id p) (p_nd p) ks.

Lemma row_kids_step s W t i k ks n' :
  Inv s W t -> ldesc ROW t !! i = Some k -> Forall cellish ks -> NoDup (flat_map ids ks) ->
  Forall (fun x => (x ∈ flat_map ids (kids k) \/ x ∉ ids (store s)) /\ x < n')%N (flat_map ids ks) -> (nxt s <= n')%N ->
  exists t', (forall f, f k = [T (root k) ks] -> edit (nid k) f (store s) = plug W [t']) /\
    root t' = root t /\
    doc_rows t' = <[i := with_kids (part_of k) ks]> (doc_rows t) /\ doc_cols t' = doc_cols t /\
    Inv (St (plug W [t']) n' (obj s)) W t'.
Proof.
  intros HI Hi Hc Hn Hx Hn'.
  destruct (row_ids_in s W t i k HI Hi) as [Hkn Hkin].
  assert (Hkl : leafy ROW k).
  { pose proof (desc_leafy ROW t (or_introl eq_refl) (i_flat _ _ _ HI)) as H.
    rewrite Forall_forall in H. apply H. by eapply elem_of_list_lookup_2. }
  rewrite ids_eq in Hkn. apply NoDup_cons in Hkn as [Hkn0 Hkn].
  assert (Hkk : nid k ∈ ids (store s)).
  { rewrite Forall_forall in Hkin. apply Hkin, nid_in. }
  destruct (edit_hole s W t ROW COL i k [T (root k) ks] n' other_RC HI Hi) as (t' & H1 & H2 & H3 & H4 & H5 & H6 & H7 & H8 & H9 & _).
  - constructor; [|constructor]. apply leafy_kids. cbn. split; [|done]. by destruct Hkl.
  - cbn. rewrite app_nil_r, ids_T. apply NoDup_cons. split; [|done].
    intros Hin. rewrite Forall_forall in Hx. destruct (Hx _ Hin) as [[H|H] _]; done.
  - cbn. rewrite app_nil_r, ids_T. constructor.
    + split; [left; apply nid_in|]. pose proof (i_fresh _ _ _ HI) as Hf. rewrite Forall_forall in Hf. apply Hf in Hkk.
      unfold nid in Hkk. lia.
    + eapply Forall_impl; [exact Hx|]. cbn. intros x [[H|H] ?]; split; try done; [left|by right].
      rewrite ids_eq. by right.
  - done.
  - assert (R1 : doc_rows t' = <[i := with_kids (part_of k) ks]> (doc_rows t)).
    { unfold doc_rows. fold ROW. rewrite H3. cbn. rewrite map_app. cbn.
      rewrite insert_take_drop by (rewrite map_length; by eapply lookup_lt_Some).
      rewrite firstn_map, skipn_map. done. }
    assert (R2 : doc_cols t' = doc_cols t) by (unfold doc_cols; fold COL; by rewrite H4).
    exists t'. split_and!; try done. eapply (Inv_intro s); try done; cbn.
    + rewrite R1, (i_rows _ _ _ HI), <- parts_ids. change (parts ROW t) with (doc_rows t).
      rewrite <- (list_insert_id (map p_id (doc_rows t)) i (nid k)).
      * change (map p_id (<[i:=with_kids (part_of k) ks]> (doc_rows t))) with (p_id <$> (<[i:=with_kids (part_of k) ks]> (doc_rows t))).
        rewrite list_fmap_insert. done.
      * change (map p_id (doc_rows t)) with (p_id <$> map part_of (ldesc ROW t)).
        rewrite list_lookup_fmap, list_lookup_fmap, Hi. done.
    + rewrite R2, (i_cols _ _ _ HI), <- parts_ids. done.
Qed.

Lemma empty_cellish c : empty_cell c -> cellish c.
Proof. intros E. apply cellish_plain. rewrite E. done. Qed.

Lemma row_cellish s W t i k : Inv s W t -> ldesc ROW t !! i = Some k -> Forall cellish (kids k).
Proof.
  intros HI Hi. pose proof (desc_leafy ROW t (or_introl eq_refl) (i_flat _ _ _ HI)) as H.
  rewrite Forall_forall in H. specialize (H k (elem_of_list_lookup_2 _ _ _ Hi)). by apply leafy_kids in H as [_ H].
Qed.

(** a new empty cell, placed by [g] *)
Lemma new_cell_step s W t i k g :
  Inv s W t -> ldesc ROW t !! i = Some k ->
  (forall c, Permutation (g c (kids k)) (c :: kids k)) ->
  exists c s', (let! c := alloc new_empty_cell in mod_kids (nid k) (g c)) s = (s', Ok tt) /\ empty_cell c /\ (nxt s <= nid c)%N /\
    Rch s W t (fun t' => doc_rows t' = <[i := with_kids (part_of k) (g c (kids k))]> (doc_rows t) /\ doc_cols t' = doc_cols t) s'.
Proof.
  intros HI Hi Hg. destruct (label_facts new_empty_cell (nxt s)) as (c & n' & El & E1 & E2 & N & F & Hlt).
  destruct (row_ids_in s W t i k HI Hi) as [Hkn Hkin].
  rewrite (ids_eq k) in Hkn, Hkin. apply NoDup_cons in Hkn as [Hkn0 Hkn]. apply Forall_cons in Hkin as [_ Hkin].
  assert (Hp : Permutation (flat_map ids (g c (kids k))) (ids c ++ flat_map ids (kids k))).
  { by rewrite (Hg c). }
  destruct (row_kids_step s W t i k (g c (kids k)) n' HI Hi) as (t' & H1 & H2 & H3 & H4 & H5).
  - rewrite (Hg c). constructor; [by apply empty_cellish|]. by eapply row_cellish.
  - rewrite Hp. apply NoDup_app. split_and!; [done| |done]. intros x Hx Hx'.
    rewrite Forall_forall in F, Hkin. apply F in Hx. apply Hkin in Hx'. eapply fresh_notin; [done| |done]. lia.
  - rewrite Hp. apply Forall_forall. intros x [Hx|Hx]%elem_of_app.
    + rewrite Forall_forall in F. apply F in Hx. split; [|lia]. right. eapply fresh_notin; [done|lia].
    + split; [by left|]. pose proof (i_fresh _ _ _ HI) as Hfr. rewrite Forall_forall in Hfr, Hkin.
      apply Hkin, Hfr in Hx. lia.
  - lia.
  - exists c. unfold abind, alloc. rewrite El. unfold mod_kids, amod. cbn [store set_nxt]. eexists. split; [done|].
    rewrite H1 by (by destruct k). split_and!; [done|lia|]. exists W, t'. split_and!; try done. cbn. lia.
Qed.

(** a cell is taken out *)
Lemma delete_cell_step s W t i k j :
  Inv s W t -> ldesc ROW t !! i = Some k -> j < length (kids k) ->
  exists s', delete_child (nid k) (Z.of_nat j) s = (s', Ok tt) /\
    Rch s W t (fun t' => doc_rows t' = <[i := with_kids (part_of k) (delete_at j (kids k))]> (doc_rows t) /\ doc_cols t' = doc_cols t) s'.
Proof.
  intros HI Hi Hj. pose proof (py_index_nat _ _ Hj) as Hp. destruct (py_get_index _ _ _ Hp) as (c & Hc & Hg).
  pose proof (take_drop_middle _ _ _ Hc) as Hm. symmetry in Hm.
  pose proof (sub_hole s W t ROW COL i k other_RC HI Hi) as Hs.
  pose proof (row_not_store s W t i k HI Hi) as Hne. pose proof (i_nodup _ _ _ HI) as Hnd.
  destruct (sub_child _ _ _ _ _ Hnd Hs Hne Hm) as [Hsc Hnp].
  destruct (row_ids_in s W t i k HI Hi) as [Hkn Hkin].
  rewrite (ids_eq k) in Hkn, Hkin. apply NoDup_cons in Hkn as [Hkn0 Hkn]. apply Forall_cons in Hkin as [_ Hkin].
  pose proof (row_cellish s W t i k HI Hi) as Hcell.
  assert (Hperm : Permutation (flat_map ids (kids k)) (ids c ++ flat_map ids (delete_at j (kids k)))).
  { rewrite Hm at 1. unfold delete_at. rewrite !flat_map_app. cbn. solve_Permutation. }
  destruct (row_kids_step s W t i k (delete_at j (kids k)) (nxt s) HI Hi) as (t' & H1 & H2 & H3 & H4 & H5).
  - rewrite Hm in Hcell. unfold delete_at. apply Forall_app in Hcell as [C1 C2]. apply Forall_cons in C2 as [_ C2].
    by apply Forall_app.
  - rewrite Hperm in Hkn. by apply NoDup_app in Hkn as (_ & _ & ?).
  - apply Forall_forall. intros x Hx.
    assert (Hin : x ∈ flat_map ids (kids k)) by (rewrite Hperm; apply elem_of_app; by right).
    split; [by left|]. pose proof (i_fresh _ _ _ HI) as Hfr. rewrite Forall_forall in Hfr, Hkin. by apply Hfr, Hkin.
  - lia.
  - unfold delete_child, abind. rewrite (deref_row s W t i k HI Hi). unfold alift. rewrite Hg.
    unfold remove_node. rewrite decide_False by done. rewrite Hsc.
    rewrite (edit_child (store s) k _ _ _ (fun _ => []) Hnd Hs Hne Hm).
    rewrite H1 by done. eexists. split; [done|].
    exists (cadd c W), t'. split_and!; [|auto|done|cbn; lia|done|done].
    assert (Hstore : Permutation (ids (store s)) (ids (plug W [t']) ++ ids c)).
    { rewrite <- (H1 (fun _ => [T (root k) (delete_at j (kids k))]) eq_refl).
      apply sub_Some in Hs as [_ [->|[C Es]]]; [done|]. rewrite Es. rewrite edit_plug by (by rewrite <- Es).
      rewrite !ids_plug1. rewrite (ids_eq k), Hperm. change (T (root k) (delete_at j (kids k))) with (T (root k) (delete_at j (kids k))).
      rewrite ids_T. change (nid_ (root k)) with (nid k). solve_Permutation. }
    constructor; cbn; rewrite ?add_root_plug; try apply H5; try done.
    + rewrite <- add_root_plug, ids_add_root, <- Hstore. done.
    + rewrite <- add_root_plug, ids_add_root, <- Hstore. apply HI.
Qed.

(** ** several cells of one row *)
Lemma doc_rows_lookup t i p : doc_rows t !! i = Some p -> exists k, ldesc ROW t !! i = Some k /\ p = part_of k.
Proof. unfold doc_rows. fold ROW. rewrite list_lookup_fmap. destruct (ldesc ROW t !! i) as [k|]; [|done]. intros [= <-]. eauto. Qed.
Lemma part_with_kids p : p = with_kids p (p_kids p).
Proof. by destruct p. Qed.
Lemma nid_with k p : part_of k = p -> nid k = p_id p /\ kids k = p_kids p.
Proof. by intros <-. Qed.

Lemma new_cells_row s W t i p k n (g : node -> list node -> list node) :
  Inv s W t -> doc_rows t !! i = Some p -> k <= length (p_kids p) ->
  (forall c cs, exists cs', Permutation cs' (c :: cs) /\
     g c (take k (p_kids p) ++ cs ++ drop k (p_kids p)) = take k (p_kids p) ++ cs' ++ drop k (p_kids p)) ->
  exists s', arepeat n (let! c := alloc new_empty_cell in mod_kids (p_id p) (g c)) s = (s', Ok tt) /\
    Rch s W t (fun t' => exists p', cells_inserted k n p p' /\ doc_rows t' = <[i := p']> (doc_rows t) /\ doc_cols t' = doc_cols t) s'.
Proof.
  intros HI Hi Hk Hg. assert (Hil : i < length (doc_rows t)) by (by eapply lookup_lt_Some).
  apply (loop_repeat n _ s W t (fun j t' => exists p', cells_inserted k j p p' /\ doc_rows t' = <[i := p']> (doc_rows t) /\ doc_cols t' = doc_cols t)).
  - done.
  - exists p. split_and!; [|by rewrite list_insert_id|done]. exists []. split_and!; [done|constructor|]. cbn. rewrite take_drop. by destruct p.
  - intros j s1 W1 t1 _ HI1 _ (p1 & (cs & L1 & F1 & P1) & R1 & C1).
    assert (Hi1 : doc_rows t1 !! i = Some p1) by (rewrite R1; by apply list_lookup_insert).
    destruct (doc_rows_lookup _ _ _ Hi1) as (r & Hr & Er). symmetry in Er. pose proof (nid_with r p1 Er) as [En Ek].
    rewrite P1 in En, Ek. cbn in En, Ek.
    destruct (new_cell_step s1 W1 t1 i r g HI1 Hr) as (c & s2 & E & Hc & _ & HR).
    { intros c. rewrite Ek. destruct (Hg c cs) as (cs' & Hp & ->). rewrite Hp. solve_Permutation. }
    rewrite En in E. exists s2. split; [done|]. eapply Rch_impl; [done|]. cbn. intros t2 [R2 C2].
    destruct (Hg c cs) as (cs' & Hp & Hgc). rewrite Ek, Hgc, Er in R2.
    exists (with_kids p (take k (p_kids p) ++ cs' ++ drop k (p_kids p))). split_and!.
    + exists cs'. split_and!; [rewrite Hp; cbn; lia|rewrite Hp; by constructor|done].
    + rewrite R2, R1, list_insert_insert. by rewrite P1.
    + congruence.
Qed.

Lemma delete_cells_row s W t i p k n :
  Inv s W t -> doc_rows t !! i = Some p -> k + n <= length (p_kids p) ->
  exists s', arepeat n (delete_child (p_id p) (Z.of_nat k)) s = (s', Ok tt) /\
    Rch s W t (fun t' => exists p', cells_deleted k n p p' /\ doc_rows t' = <[i := p']> (doc_rows t) /\ doc_cols t' = doc_cols t) s'.
Proof.
  intros HI Hi Hk. assert (Hil : i < length (doc_rows t)) by (by eapply lookup_lt_Some).
  apply (loop_repeat n _ s W t (fun j t' => exists p', cells_deleted k j p p' /\ doc_rows t' = <[i := p']> (doc_rows t) /\ doc_cols t' = doc_cols t)).
  - done.
  - exists p. split_and!; [|by rewrite list_insert_id|done]. unfold cells_deleted. rewrite Nat.add_0_r, take_drop. by destruct p.
  - intros j s1 W1 t1 Hj HI1 _ (p1 & P1 & R1 & C1). unfold cells_deleted in P1.
    assert (Hi1 : doc_rows t1 !! i = Some p1) by (rewrite R1; by apply list_lookup_insert).
    destruct (doc_rows_lookup _ _ _ Hi1) as (r & Hr & Er). symmetry in Er. pose proof (nid_with r p1 Er) as [En Ek].
    rewrite P1 in En, Ek. cbn in En, Ek.
    destruct (delete_cell_step s1 W1 t1 i r k HI1 Hr) as (s2 & E & HR).
    { rewrite Ek, app_length, take_length, drop_length. lia. }
    rewrite En in E. exists s2. split; [done|]. eapply Rch_impl; [done|]. cbn. intros t2 [R2 C2].
    rewrite Ek, delete_at_more, Er in R2.
    exists (with_kids p (take k (p_kids p) ++ drop (k + (j + 1)) (p_kids p))). split_and!.
    + done.
    + rewrite R2, R1, list_insert_insert. by rewrite P1.
    + congruence.
Qed.

(** ** the same in every row *)
Lemma all_rows s W t (rel : part -> part -> Prop) body :
  Inv s W t ->
  (forall i p s1 W1 t1, doc_rows t !! i = Some p -> Inv s1 W1 t1 -> doc_rows t1 !! i = Some p ->
     exists s2, body (p_id p) s1 = (s2, Ok tt) /\
       Rch s1 W1 t1 (fun t2 => exists p', rel p p' /\ doc_rows t2 = <[i := p']> (doc_rows t1) /\ doc_cols t2 = doc_cols t1) s2) ->
  exists s', aiter (rowc (obj s)) body s = (s', Ok tt) /\
    Rch s W t (fun t' => Forall2 rel (doc_rows t) (doc_rows t') /\ doc_cols t' = doc_cols t) s'.
Proof.
  intros HI Hb. assert (El : rowc (obj s) = map p_id (doc_rows t)) by (rewrite (i_rows _ _ _ HI); symmetry; apply parts_ids).
  destruct (loop_iter (rowc (obj s)) body s W t (fun i t' =>
    exists ps, Forall2 rel (take i (doc_rows t)) ps /\ doc_rows t' = ps ++ drop i (doc_rows t) /\ doc_cols t' = doc_cols t)) as (s' & E & HR).
  - done.
  - exists []. split_and!; [constructor|done|done].
  - intros i x s1 W1 t1 Hx HI1 _ (ps & F & R & C). rewrite El in Hx.
    change (map p_id (doc_rows t)) with (p_id <$> doc_rows t) in Hx.
    rewrite list_lookup_fmap in Hx. destruct (doc_rows t !! i) as [p|] eqn:Hp; [|done]. injection Hx as <-.
    pose proof (lookup_lt_Some _ _ _ Hp) as Hil.
    pose proof (Forall2_length _ _ _ F) as Fl. rewrite take_length, Nat.min_l in Fl by lia.
    destruct (Hb i p s1 W1 t1 Hp HI1) as (s2 & E & HR).
    { rewrite R, lookup_app_r by lia. rewrite lookup_drop. by replace (i + (i - length ps)) with i by lia. }
    exists s2. split; [done|]. eapply Rch_impl; [done|]. cbn. intros t2 (p' & Hr & R2 & C2).
    exists (ps ++ [p']). split_and!.
    + rewrite Nat.add_1_r, (take_S_r _ _ _ Hp). apply Forall2_app; [done|]. by repeat constructor.
    + rewrite R2, R. rewrite insert_app_r_alt by lia. replace (i - length ps) with 0 by lia.
      rewrite (drop_S _ _ _ Hp). cbn. by rewrite Nat.add_1_r, <- app_assoc.
    + congruence.
  - exists s'. split; [done|]. eapply Rch_impl; [done|]. cbn. intros t' (ps & F & R & C).
    rewrite El, map_length in F, R. rewrite drop_all, app_nil_r in R. rewrite firstn_all in F. by rewrite R.
Qed.

(** ** columns *)
Lemma insert_at_0_mid {A} (l cs : list A) k c : k <= length l ->
  insert_at k c (take k l ++ cs ++ drop k l) = take k l ++ (c :: cs) ++ drop k l.
Proof. intros H. rewrite insert_at_mid by lia. by rewrite Nat.sub_diag. Qed.

Lemma append_cells_ok s W t n : Inv s W t -> (1 <= n)%Z ->
  exists s', ctl_append_columns n s = (s', Ok tt) /\
    Rch s W t (fun t' => Forall2 (fun p p' => cells_inserted (length (p_kids p)) (Z.to_nat n) p p') (doc_rows t) (doc_rows t') /\
                         doc_cols t' = doc_cols t) s'.
Proof.
  intros HI Hn. unfold ctl_append_columns. rewrite decide_False by lia. unfold abind at 1, aget.
  apply (all_rows s W t (fun p p' => cells_inserted (length (p_kids p)) (Z.to_nat n) p p')
    (fun row => arepeat (Z.to_nat n) (let! c := alloc new_empty_cell in append_child row c))); [done|].
  intros i p s1 W1 t1 Hp HI1 Hi.
  apply (new_cells_row s1 W1 t1 i p (length (p_kids p)) (Z.to_nat n) (fun c ks => ks ++ [c])); [done|done|done|].
  intros c cs. exists (cs ++ [c]). split; [solve_Permutation|]. rewrite drop_all, !app_nil_r. by rewrite app_assoc.
Qed.

Lemma lxml_insert_pos_nat n k : k <= n -> lxml_insert_pos n (Z.of_nat k) = k.
Proof.
  intros H. unfold lxml_insert_pos, py_index. case_decide as H1; [by rewrite Nat2Z.id|].
  rewrite decide_False by lia. lia.
Qed.

Lemma insert_cells_ok s W t i n k : Inv s W t -> (1 <= n)%Z -> py_index (wid t) i = Some k ->
  Forall (fun p => k <= length (p_kids p)) (doc_rows t) ->
  exists s', ctl_insert_columns i n s = (s', Ok tt) /\
    Rch s W t (fun t' => Forall2 (cells_inserted k (Z.to_nat n)) (doc_rows t) (doc_rows t') /\
                         doc_cols t' = doc_cols t) s'.
Proof.
  intros HI Hn Hk Hw. unfold ctl_insert_columns. rewrite decide_False by lia. unfold abind at 1. rewrite (ncols_eq _ _ _ HI).
  change (if decide (i < 0)%Z then (i + Z.of_nat (wid t))%Z else i) with (adj (wid t) i).
  rewrite (py_index_adj _ _ _ Hk). unfold abind at 1, aget.
  apply (all_rows s W t (cells_inserted k (Z.to_nat n))
    (fun row => arepeat (Z.to_nat n) (let! c := alloc new_empty_cell in insert_child row (Z.of_nat k) c))); [done|].
  intros j p s1 W1 t1 Hp HI1 Hi. rewrite Forall_forall in Hw. pose proof (Hw p (elem_of_list_lookup_2 _ _ _ Hp)) as Hkp.
  apply (new_cells_row s1 W1 t1 j p k (Z.to_nat n) (fun c ks => insert_at (lxml_insert_pos (length ks) (Z.of_nat k)) c ks)); [done|done|done|].
  intros c cs. exists (c :: cs). split; [done|]. rewrite lxml_insert_pos_nat.
  - by apply insert_at_0_mid.
  - rewrite !app_length, take_length, drop_length. lia.
Qed.

Lemma delete_cells_ok s W t i n k : Inv s W t -> (1 <= n < Z.of_nat (wid t))%Z -> py_index (wid t) i = Some k ->
  Forall (fun p => k + Z.to_nat n <= length (p_kids p)) (doc_rows t) ->
  exists s', ctl_delete_columns i n s = (s', Ok tt) /\
    Rch s W t (fun t' => Forall2 (cells_deleted k (Z.to_nat n)) (doc_rows t) (doc_rows t') /\
                         doc_cols t' = doc_cols t) s'.
Proof.
  intros HI Hn Hk Hw. unfold ctl_delete_columns. unfold abind at 1. rewrite (ncols_eq _ _ _ HI). rewrite decide_False by lia.
  change (if decide (i < 0)%Z then (i + Z.of_nat (wid t))%Z else i) with (adj (wid t) i).
  rewrite (py_index_adj _ _ _ Hk). unfold abind at 1, aget.
  apply (all_rows s W t (cells_deleted k (Z.to_nat n))
    (fun row => arepeat (Z.to_nat n) (delete_child row (Z.of_nat k)))); [done|].
  intros j p s1 W1 t1 Hp HI1 Hi. rewrite Forall_forall in Hw. pose proof (Hw p (elem_of_list_lookup_2 _ _ _ Hp)) as Hkp.
  by apply (delete_cells_row s1 W1 t1 j p k (Z.to_nat n)).
Qed.

(** ** changes below a row *)
Definition alike (r r' : node) : Prop :=
  nid r = nid r' /\ ltag r = ltag r' /\ forall tg, tg = ROW \/ tg = COL -> map nid (ldesc tg r) = map nid (ldesc tg r').
Lemma alike_refl r : alike r r. Proof. done. Qed.
Lemma alike_refls l : Forall2 alike l l.
Proof. induction l; constructor; [apply alike_refl|done]. Qed.
Lemma cellish_selfs m tg : tg = ROW \/ tg = COL -> Forall cellish m -> flat_map (lself tg) m = [].
Proof. intros H. induction 1 as [|x m [H1 H2] _ IH]; [done|]. cbn. rewrite IH. destruct H as [-> | ->]; by rewrite ?H1, ?H2. Qed.

Lemma plug_alike C m m' : Forall cellish m -> Forall cellish m' ->
  alike (plug C m) (plug C m') /\ forall tg, tg = ROW \/ tg = COL -> Forall2 alike (ldesc tg (plug C m)) (ldesc tg (plug C m')).
Proof.
  intros Hm Hm'.
  assert (H : forall tg, tg = ROW \/ tg = COL -> Forall2 alike (ldesc tg (plug C m)) (ldesc tg (plug C m'))).
  { induction C as [a l r|a l C IH r]; intros tg Htg; cbn [plug]; rewrite !ldesc_T, !flat_map_app; cbn [flat_map].
    - rewrite (cellish_selfs m tg), (cellish_selfs m' tg) by done. apply Forall2_app; apply alike_refls.
    - apply Forall2_app; [apply alike_refls|]. apply Forall2_app; [|apply alike_refls].
      unfold lself. apply Forall2_app; [|by apply IH].
      assert (Et : ltag (plug C m) = ltag (plug C m')) by (unfold ltag; by rewrite !root_plug).
      rewrite <- Et. case_decide; [|constructor]. constructor; [|constructor].
      split_and!; [by rewrite !nid_plug|done|]. intros tg' Htg'. specialize (IH tg' Htg').
      clear -IH. induction IH as [|x y l l' (Hxy & _) _ IH]; [done|]. cbn. by rewrite IH, Hxy. }
  split; [|done]. split_and!; [by rewrite !nid_plug|unfold ltag; by rewrite !root_plug|].
  intros tg Htg. specialize (H tg Htg). induction H as [|x y l l' (Hxy & _) _ IH]; [done|]. cbn. by rewrite IH, Hxy.
Qed.
Lemma alike_nested r r' : alike r r' -> ldesc ROW r = [] /\ ldesc COL r = [] -> ldesc ROW r' = [] /\ ldesc COL r' = [].
Proof.
  intros (_ & _ & H) [H1 H2]. pose proof (H ROW (or_introl eq_refl)) as E1. pose proof (H COL (or_intror eq_refl)) as E2.
  rewrite H1 in E1. rewrite H2 in E2. symmetry in E1, E2. apply map_eq_nil in E1, E2. done.
Qed.
Lemma no_nesting_alike C m m' : Forall cellish m -> Forall cellish m' -> no_nesting (plug C m) -> no_nesting (plug C m').
Proof.
  intros Hm Hm' Hn. destruct (plug_alike C m m' Hm Hm') as [_ H]. unfold no_nesting in Hn. apply Forall_app in Hn as [N1 N2].
  apply no_nesting_of.
  - specialize (H ROW (or_introl eq_refl)). clear -H N1. fold ROW COL in N1.
    induction H as [|x y l l' Hxy _ IH]; [constructor|]. apply Forall_cons in N1 as [? ?]. constructor; [|by apply IH]. by eapply alike_nested.
  - specialize (H COL (or_intror eq_refl)). clear -H N2. fold ROW COL in N2.
    induction H as [|x y l l' Hxy _ IH]; [constructor|]. apply Forall_cons in N2 as [? ?]. constructor; [|by apply IH]. by eapply alike_nested.
Qed.

Lemma Inv_cellish_edit s W C m m' n' :
  Inv s W (plug C m) -> Forall cellish m -> Forall cellish m' ->
  NoDup (ids (plug W [plug C m'])) -> Forall (fun x => x < n')%N (ids (plug W [plug C m'])) ->
  Inv (St (plug W [plug C m']) n' (obj s)) W (plug C m').
Proof.
  intros HI Hm Hm' Hn Hf. destruct (plug_alike C m m' Hm Hm') as [(A1 & A2 & A3) _]. constructor; cbn; try done.
  - rewrite (i_rt _ _ _ HI). done.
  - eapply no_nesting_alike; [exact Hm|done|apply HI].
  - rewrite (i_rows _ _ _ HI). apply A3. by left.
  - rewrite (i_cols _ _ _ HI). apply A3. by right.
Qed.

(** ** reading a cell *)
Lemma adjust_eq s W t row col : Inv s W t ->
  adjust_negative_indices (row, col) s = (s, Ok (adj (length (doc_rows t)) row, adj (wid t) col)).
Proof.
  intros HI. unfold adjust_negative_indices, adj, abind.
  case_decide as H1; case_decide as H2; unfold aret;
    rewrite ?(nrows_eq _ _ _ HI), ?(ncols_eq _ _ _ HI), <- ?parts_length, ?parts_rows; done.
Qed.

Lemma get_cell_eq s W t row col i j : Inv s W t ->
  py_index (length (doc_rows t)) row = Some i -> py_index (wid t) col = Some j ->
  ctl_get_cell (row, col) s = (s, match cell_at t i j with Some c => Ok c | None => Err IndexError end).
Proof.
  intros HI Hi Hj. unfold ctl_get_cell. unfold abind at 1. rewrite (adjust_eq _ _ _ _ _ HI).
  rewrite (py_index_adj _ _ _ Hi), (py_index_adj _ _ _ Hj). unfold abind. rewrite (row_ref_eq _ _ _ _ HI).
  pose proof (py_index_lt _ _ _ Hi) as Hil. rewrite <- parts_rows, parts_length in Hil.
  pose proof (py_index_nat _ _ Hil) as Hp. destruct (py_get_index _ _ _ Hp) as (r & Hr & Hg).
  rewrite Hg. rewrite (deref_row _ _ _ _ _ HI Hr). unfold alift. f_equal. unfold cell_at.
  assert (Hd : doc_rows t !! i = Some (part_of r)) by (rewrite <- parts_rows, parts_lookup, Hr; done). rewrite Hd. cbn.
  unfold py_get, py_index. destruct (decide (j < length (kids r))) as [Hl|Hl].
  - rewrite decide_True by lia. by rewrite Nat2Z.id.
  - rewrite decide_False by lia. rewrite decide_False by lia. by rewrite lookup_ge_None_2 by lia.
Qed.

(** ** two places in one tree *)
Lemma app_cons_cases {A} (l r l' r' : list A) x y : l ++ x :: r = l' ++ y :: r' ->
  (l = l' /\ x = y /\ r = r') \/
  (exists z, l' = l ++ x :: z /\ r = z ++ y :: r') \/
  (exists z, l = l' ++ y :: z /\ r' = z ++ x :: r).
Proof.
  revert l'. induction l as [|a l IH]; intros [|b l'] E; cbn in E.
  - injection E as -> ->. by left.
  - injection E as -> E. right. left. exists l'. by rewrite <- E.
  - injection E as -> E. right. right. exists l. by rewrite E.
  - injection E as -> E. destruct (IH _ E) as [(-> & -> & ->)|[(z & -> & ->)|(z & -> & ->)]].
    + by left.
    + right. left. by exists z.
    + right. right. by exists z.
Qed.

Lemma nid_in_plug c k : nid k ∈ ids (plug c [k]).
Proof. rewrite ids_plug1. apply elem_of_app. right. apply elem_of_app. left. apply nid_in. Qed.

Lemma two_holes W c t u : plug W [t] = plug c [u] -> nid t ∉ ids u -> nid u ∉ ids t ->
  forall m, exists W', plug c m = plug W' [t].
Proof.
  intros E H1 H2 m. revert c E. induction W as [a l r|a l W IH r]; intros [a' l' r'|a' l' c' r'] E; cbn in E;
    injection E as -> E; apply app_cons_cases in E as [(-> & E & ->)|[(z & -> & ->)|(z & -> & ->)]]; cbn [plug].
  - subst. exfalso. apply H1, nid_in.
  - exists (Here a' l (z ++ m ++ r')). cbn. by rewrite <- app_assoc.
  - exists (Here a' (l' ++ m ++ z) r). cbn. by rewrite <- !app_assoc.
  - subst. exfalso. apply H2, nid_in_plug.
  - exists (Here a' l (z ++ plug c' m :: r')). cbn. by rewrite <- app_assoc.
  - exists (Here a' (l' ++ plug c' m :: z) r). cbn. by rewrite <- app_assoc.
  - subst. exfalso. apply H1, nid_in_plug.
  - exists (Deep a' l W (z ++ m ++ r')). cbn. by rewrite <- app_assoc.
  - exists (Deep a' (l' ++ m ++ z) W r). cbn. by rewrite <- !app_assoc.
  - destruct (IH _ E) as [W' ->]. by exists (Deep a' l' W' r').
  - exists (Deep a' l W (z ++ plug c' m :: r')). cbn. by rewrite <- app_assoc.
  - exists (Deep a' (l' ++ plug c' m :: z) W r). cbn. by rewrite <- app_assoc.
Qed.

Lemma ids_take_out c u : Permutation (ids (plug c [u])) (ids (plug c []) ++ ids u).
Proof. rewrite ids_plug1, ids_plug. cbn. solve_Permutation. Qed.

(** a node seen before and after a change elsewhere *)
Lemma sub_plug_change C m m' y k :
  y ∉ flat_map ids m -> y ∉ flat_map ids m' -> sub y (plug C m) = Some k ->
  exists k', sub y (plug C m') = Some k' /\ (k' = k \/ exists C2, k = plug C2 m /\ k' = plug C2 m').
Proof.
  intros H1 H2. revert k. induction C as [a l r|a l C IH r]; intros k; cbn [plug]; rewrite !sub_T.
  - case_decide.
    + intros [= <-]. eexists. split; [done|]. right. by exists (Here a l r).
    + rewrite !subl_app, (subl_notin y m), (subl_notin y m') by done. intros E. exists k. split; [done|by left].
  - case_decide.
    + intros [= <-]. eexists. split; [done|]. right. by exists (Deep a l C r).
    + rewrite !subl_app. destruct (subl y l) as [z|].
      * intros [= <-]. exists z. split; [done|by left].
      * cbn. destruct (sub y (plug C m)) as [z|] eqn:E.
        -- intros [= <-]. destruct (IH z eq_refl) as (k' & -> & Hk'). exists k'. by split.
        -- intros E2. destruct (sub y (plug C m')) as [z|] eqn:E3; [|exists k; split; [done|by left]].
           assert (Hx : y ∈ ids (plug C m)).
           { apply sub_Some in E3 as [En [Ez|[c Ez]]].
             - rewrite Ez in En. rewrite ids_eq, !nid_plug in *. rewrite <- En. left.
             - assert (Hin : y ∈ ids (plug C m')) by (rewrite Ez, <- En; apply nid_in_plug).
               rewrite ids_plug in Hin |- *. apply elem_of_app in Hin as [Hin|Hin]; [apply elem_of_app; by left|].
               apply elem_of_app in Hin as [Hin|Hin]; [done|]. apply elem_of_app. right. apply elem_of_app. by right. }
           exfalso. assert (Hs : exists z', sub y (plug C m) = Some z'); [|destruct Hs as [? Hs]; congruence].
           clear -Hx. induction (plug C m) as [b ks IHk] using tree_ind'. rewrite sub_T. case_decide; [eauto|].
           rewrite ids_T in Hx. apply elem_of_cons in Hx as [?|Hx]; [done|].
           induction IHk as [|k ks Hk _ IHks]; cbn in *; [by apply elem_of_nil in Hx|].
           destruct (sub y k) as [z'|] eqn:Ek; [eauto|]. apply elem_of_app in Hx as [Hx|Hx].
           ++ destruct (Hk Hx). congruence.
           ++ by apply IHks.
Qed.

(** rows and a cell *)
Lemma rows_vs_cell C en r : cellish en -> r ∈ ldesc ROW (plug C [en]) ->
  (exists C', r = plug C' [en]) \/ (forall x, x ∈ ids r -> x ∈ il C \/ x ∈ ir C).
Proof.
  intros Hc. assert (Hl : forall l : list node, r ∈ flat_map (lself ROW) l -> forall x, x ∈ ids r -> x ∈ flat_map ids l).
  { intros l (k & Hk & Hr)%elem_of_flat_map x Hx. apply elem_of_flat_map. exists k. split; [done|].
    unfold lself in Hr. apply elem_of_app in Hr as [Hr|Hr].
    - case_decide; [|by apply elem_of_nil in Hr]. apply elem_of_list_singleton in Hr as ->. done.
    - clear -Hr Hx. induction k as [b ks IH] using tree_ind'. rewrite ldesc_T in Hr. rewrite ids_T. right.
      apply elem_of_flat_map in Hr as (k & Hk & Hr). apply elem_of_flat_map. exists k. split; [done|].
      rewrite Forall_forall in IH. specialize (IH k Hk). unfold lself in Hr. apply elem_of_app in Hr as [Hr|Hr]; [|by apply IH].
      case_decide; [|by apply elem_of_nil in Hr]. apply elem_of_list_singleton in Hr as ->. done. }
  induction C as [a l rr|a l C IH rr]; cbn [plug il ir]; rewrite ldesc_T, flat_map_app; cbn [flat_map app]; intros [H|H]%elem_of_app.
  - right. intros x Hx. left. right. by eapply Hl.
  - destruct Hc as [Hc _]. rewrite Hc in H. cbn in H. right. intros x Hx. right. by eapply Hl.
  - right. intros x Hx. left. right. apply elem_of_app. left. by eapply Hl.
  - apply elem_of_app in H as [H|H].
    + unfold lself in H. apply elem_of_app in H as [H|H].
      * case_decide; [|by apply elem_of_nil in H]. apply elem_of_list_singleton in H as ->. left. by exists C.
      * destruct (IH H) as [?|IH']; [by left|]. right. intros x Hx. destruct (IH' x Hx) as [?|?].
        -- left. right. apply elem_of_app. by right.
        -- right. apply elem_of_app. by left.
    + right. intros x Hx. right. apply elem_of_app. right. by eapply Hl.
Qed.

Lemma kid_disjoint (k u : node) (C : ctx) :
  NoDup (ids (plug C [u])) -> k ∈ kids (plug C [u]) -> nid k <> nid u -> nid k ∉ ids u.
Proof.
  intros Hn Hk Hne Hx. rewrite ids_plug1 in Hn.
  assert (Hd : forall x, x ∈ il C \/ x ∈ ir C -> x ∈ ids u -> False).
  { intros x Hx1 Hx2. apply NoDup_app in Hn as (_ & N2 & N3). apply NoDup_app in N3 as (_ & N4 & _). destruct Hx1 as [H|H].
    - apply (N2 x H). apply elem_of_app. by left.
    - by apply (N4 x). }
  destruct C as [a l r|a l C r]; cbn [plug kids il ir] in *; apply elem_of_app in Hk as [Hk|Hk].
  - apply (Hd (nid k)); [|done]. left. right. apply elem_of_flat_map. exists k. split; [done|apply nid_in].
  - cbn in Hk. apply elem_of_cons in Hk as [->|Hk]; [done|]. apply (Hd (nid k)); [|done]. right. apply elem_of_flat_map.
    exists k. split; [done|apply nid_in].
  - apply (Hd (nid k)); [|done]. left. right. apply elem_of_app. left. apply elem_of_flat_map. exists k. split; [done|apply nid_in].
  - apply elem_of_cons in Hk as [->|Hk].
    + apply (Hd (nid (plug C [u]))); [|done]. left. right. apply elem_of_app. right. rewrite nid_plug. destruct C; left.
    + apply (Hd (nid k)); [|done]. right. apply elem_of_app. right. apply elem_of_flat_map. exists k. split; [done|apply nid_in].
Qed.

Lemma NoDup_hole c (k : node) : NoDup (ids (plug c [k])) -> NoDup (ids k).
Proof. rewrite ids_plug1. intros (_ & _ & H)%NoDup_app. by apply NoDup_app in H as (? & _). Qed.

Lemma Inv_NoDup_t s W t : Inv s W t -> NoDup (ids t).
Proof. intros HI. pose proof (i_nodup _ _ _ HI) as H. rewrite (i_store _ _ _ HI) in H. by apply NoDup_hole in H. Qed.

(** ** taking a cell out of where it is *)
Lemma take_out s W t x en :
  Inv s W t -> sub x (store s) = Some en -> nid t ∉ ids en -> cellish en ->
  exists W1 t1, Inv (set_store (edit x (fun _ => []) (store s)) s) W1 t1 /\ root t1 = root t /\
    Permutation (ids (store s)) (ids (plug W1 [t1]) ++ ids en) /\ (x ∉ ids t -> t1 = t) /\
    (forall y k, sub y t = Some k -> y ∉ ids en -> cellish k -> exists k', sub y t1 = Some k' /\ cellish k').
Proof.
  intros HI Hs Hnt Hc. pose proof (i_nodup _ _ _ HI) as Hnd. pose proof (i_fresh _ _ _ HI) as Hfr.
  assert (Hen : nid en = x) by (by apply sub_Some in Hs as [? _]).
  assert (Hst : store s = plug W [t]) by apply HI.
  destruct (decide (x ∈ ids t)) as [Hx|Hx].
  - assert (Hne : x <> nid t). { intros ->. apply Hnt. rewrite <- Hen. apply nid_in. }
    destruct (find_ctx' x t Hx Hne) as (C & k & Et & Ek).
    assert (k = en) as ->.
    { rewrite Hst, Et, <- plug_ccomp in Hs, Hnd. rewrite <- Ek, sub_plug in Hs by done. by injection Hs. }
    assert (Ee : edit x (fun _ => []) (store s) = plug W [plug C []]).
    { rewrite Hst, Et, <- plug_ccomp in Hnd |- *. rewrite <- Hen. rewrite edit_plug by done. by rewrite plug_ccomp. }
    assert (Hp : Permutation (ids (store s)) (ids (plug W [plug C []]) ++ ids en)).
    { rewrite Hst, Et. rewrite <- !plug_ccomp. apply ids_take_out. }
    exists W, (plug C []). rewrite Hp in Hnd, Hfr. apply NoDup_app in Hnd as (N1 & _). apply Forall_app in Hfr as [F1 _].
    split_and!; [|by rewrite Et, !root_plug|done|done|].
    + rewrite Ee. unfold set_store. apply (Inv_cellish_edit s W C [en] []); try done.
      * by rewrite <- Et.
      * by constructor.
    + intros y k Hy Hyn Hck. rewrite Et in Hy.
      destruct (sub_plug_change C [en] [] y k) as (k' & Hk' & H); [cbn; by rewrite app_nil_r|by apply not_elem_of_nil|done|].
      exists k'. split; [done|]. destruct H as [->|(C2 & -> & ->)]; [done|].
      destruct (plug_alike C2 [en] [] ltac:(by constructor) ltac:(constructor)) as [(A1 & A2 & A3) _].
      destruct Hck as [K1 K2]. rewrite !lself_nil in K1, K2. destruct K1 as [T1 D1], K2 as [T2 D2].
      pose proof (A3 ROW (or_introl eq_refl)) as E1. pose proof (A3 COL (or_intror eq_refl)) as E2.
      rewrite D1 in E1. rewrite D2 in E2. symmetry in E1, E2. apply map_eq_nil in E1, E2.
      split; apply lself_nil; by rewrite <- A2.
  - destruct (decide (x = nid (store s))) as [Hr|Hr].
    { exfalso. rewrite Hr, sub_root in Hs. injection Hs as Hs. apply Hnt. rewrite <- Hs, Hst. apply nid_in_plug. }
    apply sub_Some in Hs as [_ [->|[c Es]]]; [done|].
    destruct (two_holes W c t en) with (m := @nil node) as [W1 E1]; [by rewrite <- Hst|done|by rewrite Hen|].
    assert (Ee : edit x (fun _ => []) (store s) = plug W1 [t]).
    { rewrite Es in Hnd |- *. rewrite <- Hen. rewrite edit_plug by done. done. }
    assert (Hp : Permutation (ids (store s)) (ids (plug W1 [t]) ++ ids en)).
    { rewrite Es, <- E1. apply ids_take_out. }
    exists W1, t. rewrite Hp in Hnd, Hfr. apply NoDup_app in Hnd as (N1 & _). apply Forall_app in Hfr as [F1 _].
    split_and!; try done.
    + rewrite Ee. destruct HI. by constructor.
    + intros y k Hy _ Hck. by exists k.
Qed.

Lemma row_kid_apart s W t i r c x en :
  Inv s W t -> ldesc ROW t !! i = Some r -> c ∈ kids r -> sub x (store s) = Some en -> nid t ∉ ids en -> cellish en ->
  nid c <> x -> nid c ∉ ids en /\ sub (nid c) t = Some c /\ nid c <> nid t.
Proof.
  intros HI Hi Hc Hs Hnt Hce Hne.
  assert (Hen : nid en = x) by (by apply sub_Some in Hs as [? _]).
  pose proof (Inv_NoDup_t s W t HI) as Hndt. pose proof (i_nodup _ _ _ HI) as Hnd.
  assert (Hst : store s = plug W [t]) by apply HI.
  destruct (hole_at ROW t i r) as (D & Et & _ & _); [by apply no_nesting_lflat, HI|done|].
  pose proof Hc as Hsplit. apply elem_of_list_split in Hsplit as (l & rr & Hk).
  assert (Er : r = plug (Here (root r) l rr) [c]) by (destruct r; cbn in *; by rewrite Hk).
  assert (Et2 : t = plug (ccomp D (Here (root r) l rr)) [c]) by (by rewrite plug_ccomp, <- Er).
  assert (Hsc : sub (nid c) t = Some c).
  { rewrite Et2. apply sub_plug. by rewrite <- Et2. }
  assert (Hct : nid c <> nid t).
  { intros E. rewrite E, sub_root in Hsc. injection Hsc as Hsc.
    rewrite Et2 in Hndt at 1. rewrite ids_plug1 in Hndt. apply NoDup_app in Hndt as (_ & Hd & _).
    apply (Hd (nid c)); [|apply elem_of_app; left; apply nid_in].
    rewrite E. rewrite Et2 at 1. rewrite nid_plug. destruct D; left. }
  split_and!; [|done|done]. destruct (decide (x ∈ ids t)) as [Hx|Hx].
  - assert (Hxt : x <> nid t). { intros ->. apply Hnt. rewrite <- Hen. apply nid_in. }
    destruct (find_ctx' x t Hx Hxt) as (C & k & Et' & Ek).
    assert (k = en) as ->.
    { rewrite Hst, Et', <- plug_ccomp in Hs, Hnd. rewrite <- Ek, sub_plug in Hs by done. by injection Hs. }
    rewrite Et' in Hi. destruct (rows_vs_cell C en r Hce (elem_of_list_lookup_2 _ _ _ Hi)) as [[C' ->]|Hd].
    + apply (kid_disjoint c en C'); [|done|congruence]. rewrite Et in Hndt. by apply NoDup_hole in Hndt.
    + intros Hin. rewrite Et' in Hndt. rewrite ids_plug1 in Hndt.
      apply NoDup_app in Hndt as (_ & N2 & N3). apply NoDup_app in N3 as (_ & N4 & _).
      destruct (Hd (nid c)) as [H|H].
      * rewrite ids_eq. right. apply elem_of_flat_map. exists c. split; [done|apply nid_in].
      * apply (N2 _ H). apply elem_of_app. by left.
      * by apply (N4 (nid c)).
  - intros Hin.
    destruct (decide (x = nid (store s))) as [Hr|Hr].
    { rewrite Hr, sub_root in Hs. injection Hs as Hs. apply Hnt. rewrite <- Hs, Hst. apply nid_in_plug. }
    apply sub_Some in Hs as [_ [->|[c' Es]]]; [done|].
    destruct (two_holes W c' t en) with (m := @nil node) as [W1 E1]; [by rewrite <- Hst|done|by rewrite Hen|].
    pose proof (ids_take_out c' en) as Hp. rewrite <- Es, E1 in Hp. rewrite Hp in Hnd.
    apply NoDup_app in Hnd as (_ & N2 & _). apply (N2 (nid c)); [|done].
    rewrite ids_plug1. apply elem_of_app. right. apply elem_of_app. left. rewrite Et2. apply nid_in_plug.
Qed.

Lemma set_item_any s W t i r col x en :
  Inv s W t -> ldesc ROW t !! i = Some r -> sub x (store s) = Some en -> nid t ∉ ids en -> cellish en ->
  exists s' q W' t', set_item (nid r) col x s = (s', q) /\ Inv s' W' t' /\ root t' = root t /\ nxt s' = nxt s /\
    (q = Ok tt \/ s' = s).
Proof.
  intros HI Hi Hs Hnt Hce. unfold set_item, abind at 1. rewrite (deref_row _ _ _ _ _ HI Hi).
  unfold abind at 1, alift. destruct (py_get (kids r) col) as [c|] eqn:Hg; [|exists s, (Err e), W, t; split_and!; auto].
  case_decide as Hcx; [exists s, (Ok tt), W, t; split_and!; auto|].
  apply py_get_Ok in Hg as (j & _ & Hj). pose proof (elem_of_list_lookup_2 _ _ _ Hj) as Hc.
  destruct (row_kid_apart s W t i r c x en HI Hi Hc Hs Hnt Hce Hcx) as (Hca & Hsc & Hct).
  destruct (take_out s W t x en HI Hs Hnt Hce) as (W1 & t1 & HI1 & Hr1 & Hp1 & _ & Hk).
  pose proof (row_cellish s W t i r HI Hi) as Hcc. rewrite Forall_forall in Hcc.
  destruct (Hk (nid c) c Hsc Hca (Hcc c Hc)) as (k' & Hk' & Hkc).
  pose proof Hk' as Hk2. apply sub_Some in Hk2 as [Hkn Hk2]. destruct Hk2 as [->|[C Et1]].
  { exfalso. apply Hct. rewrite <- Hkn. unfold nid. by rewrite Hr1. }
  unfold abind. assert (Hd : deref x s = (s, Ok en)) by (unfold deref; by rewrite Hs). rewrite Hd. unfold amod.
  set (s1 := set_store _ s) in *. pose proof (i_store _ _ _ HI1) as Hst1. pose proof (i_nodup _ _ _ HI1) as Hnd1.
  assert (E1 : store s1 = plug (ccomp W1 C) [k']) by (by rewrite plug_ccomp, <- Et1).
  assert (Hd1 : deref (nid c) s1 = (s1, Ok k')).
  { unfold deref. rewrite E1, <- Hkn. rewrite sub_plug; [done|by rewrite <- E1]. }
  rewrite Hd1.
  assert (Ee : edit (nid c) (fun _ => [en]) (store s1) = plug W1 [plug C [en]]).
  { rewrite E1, <- Hkn. rewrite edit_plug by (by rewrite <- E1). by rewrite plug_ccomp. }
  rewrite Ee. eexists _, _, (cadd k' W1), (plug C [en]). split; [done|].
  assert (Hp2 : Permutation (ids (plug W1 [plug C [en]]) ++ ids k') (ids (store s))).
  { rewrite Hp1, Et1, <- !plug_ccomp. rewrite !ids_plug1. solve_Permutation. }
  pose proof (i_nodup _ _ _ HI) as Hnd. pose proof (i_fresh _ _ _ HI) as Hfr. rewrite <- Hp2 in Hnd, Hfr.
  assert (HI2 : Inv (St (plug W1 [plug C [en]]) (nxt s) (obj s)) W1 (plug C [en])).
  { apply (Inv_cellish_edit s1 W1 C [k'] [en]).
    - by rewrite <- Et1.
    - by constructor.
    - by constructor.
    - by apply NoDup_app in Hnd as (? & _).
    - by apply Forall_app in Hfr as [? _]. }
  split_and!.
  - constructor; cbn; rewrite ?add_root_plug; try apply HI2; try done.
    + rewrite <- add_root_plug, ids_add_root. done.
    + rewrite <- add_root_plug, ids_add_root. done.
  - rewrite <- Hr1, Et1. by rewrite !root_plug.
  - done.
  - by left.
Qed.

Lemma set_item_ok s W t i r j c x en :
  Inv s W t -> ldesc ROW t !! i = Some r -> kids r !! j = Some c ->
  sub x (store s) = Some en -> nid t ∉ ids en -> cellish en -> x ∉ ids t ->
  exists s' W1 t', set_item (nid r) (Z.of_nat j) x s = (s', Ok tt) /\ Inv s' (cadd c W1) t' /\
    edit x (fun _ => []) (store s) = plug W1 [t] /\ root t' = root t /\ nxt s' = nxt s /\
    doc_rows t' = <[i := with_kids (part_of r) (<[j := en]> (kids r))]> (doc_rows t) /\ doc_cols t' = doc_cols t.
Proof.
  intros HI Hi Hj Hs Hnt Hce Hx.
  assert (Hen : nid en = x) by (by apply sub_Some in Hs as [? _]).
  pose proof (lookup_lt_Some _ _ _ Hj) as Hjl. pose proof (elem_of_list_lookup_2 _ _ _ Hj) as Hc.
  unfold set_item, abind at 1. rewrite (deref_row _ _ _ _ _ HI Hi).
  unfold abind at 1, alift. unfold py_get. rewrite (py_index_nat _ _ Hjl), Hj.
  assert (Hcx : nid c <> x).
  { intros E. apply Hx. destruct (hole_at ROW t i r) as (D & Et & _ & _); [by apply no_nesting_lflat, HI|done|].
    rewrite Et, ids_plug1. apply elem_of_app. right. apply elem_of_app. left. rewrite ids_eq. right.
    rewrite <- E. apply elem_of_flat_map. exists c. split; [done|apply nid_in]. }
  rewrite decide_False by done.
  destruct (row_kid_apart s W t i r c x en HI Hi Hc Hs Hnt Hce Hcx) as (Hca & Hsc & Hct).
  destruct (take_out s W t x en HI Hs Hnt Hce) as (W1 & t1 & HI1 & Hr1 & Hp1 & Ht1 & Hk). specialize (Ht1 Hx). subst t1.
  unfold abind. assert (Hd : deref x s = (s, Ok en)) by (unfold deref; by rewrite Hs). rewrite Hd. unfold amod.
  assert (Hst1 : edit x (fun _ => []) (store s) = plug W1 [t]) by apply (i_store _ _ _ HI1).
  set (s1 := set_store _ s) in *.
  pose proof (take_drop_middle _ _ _ Hj) as Hm. symmetry in Hm.
  pose proof (sub_hole s1 W1 t ROW COL i r other_RC HI1 Hi) as Hsr.
  pose proof (row_not_store s1 W1 t i r HI1 Hi) as Hnr. pose proof (i_nodup _ _ _ HI1) as Hnd1.
  destruct (sub_child _ _ _ _ _ Hnd1 Hsr Hnr Hm) as [Hsc1 _].
  assert (Hd1 : deref (nid c) s1 = (s1, Ok c)) by (unfold deref; by rewrite Hsc1).
  rewrite Hd1.
  assert (Eins : <[j:=en]> (kids r) = take j (kids r) ++ [en] ++ drop (S j) (kids r)) by (by rewrite insert_take_drop).
  destruct (row_ids_in s1 W1 t i r HI1 Hi) as [Hkn Hkin].
  rewrite (ids_eq r) in Hkn, Hkin. apply NoDup_cons in Hkn as [Hkn0 Hkn]. apply Forall_cons in Hkin as [_ Hkin].
  pose proof (row_cellish s W t i r HI Hi) as Hcell.
  assert (Hperm : Permutation (flat_map ids (kids r) ++ ids en) (flat_map ids (<[j:=en]> (kids r)) ++ ids c)).
  { rewrite Eins. rewrite Hm at 1. rewrite !flat_map_app. cbn. rewrite app_nil_r. solve_Permutation. }
  pose proof (i_nodup _ _ _ HI) as Hnd. pose proof (i_fresh _ _ _ HI) as Hfr. rewrite Hp1 in Hnd, Hfr.
  apply NoDup_app in Hnd as (N1 & N2 & N3). apply Forall_app in Hfr as [F1 F2].
  assert (Hin1 : forall y, y ∈ flat_map ids (kids r) -> y ∈ ids (plug W1 [t])).
  { intros y Hy. rewrite Forall_forall in Hkin. apply Hkin in Hy. by rewrite (i_store _ _ _ HI1) in Hy. }
  assert (Hnn : NoDup (flat_map ids (kids r) ++ ids en)).
  { apply NoDup_app. split_and!; [done| |done]. intros y Hy Hy'. apply Hin1 in Hy. by apply (N2 y). }
  destruct (row_kids_step s1 W1 t i r (<[j:=en]> (kids r)) (nxt s) HI1 Hi) as (t' & H1 & H2 & H3 & H4 & H5).
  - rewrite Eins. rewrite Hm in Hcell. apply Forall_app in Hcell as [C1 C2]. apply Forall_cons in C2 as [_ C2].
    apply Forall_app. split; [done|]. by constructor.
  - rewrite Hperm in Hnn. by apply NoDup_app in Hnn as (? & _).
  - apply Forall_forall. intros y Hy.
    assert (Hy2 : y ∈ flat_map ids (kids r) ++ ids en) by (rewrite Hperm; apply elem_of_app; by left).
    apply elem_of_app in Hy2 as [Hy2|Hy2].
    + split; [by left|]. apply Hin1 in Hy2. rewrite Forall_forall in F1. by apply F1.
    + split; [right|rewrite Forall_forall in F2; by apply F2]. intros Hy3. rewrite (i_store _ _ _ HI1) in Hy3. by apply (N2 y).
  - cbn. lia.
  - rewrite (edit_child (store s1) r _ _ _ (fun _ => [en]) Hnd1 Hsr Hnr Hm). rewrite H1 by (by rewrite Eins).
    eexists. exists W1, t'. split; [done|]. split_and!; try done.
    assert (Hstore : Permutation (ids (plug W1 [t']) ++ ids c) (ids (store s))).
    { rewrite Hp1, <- (i_store _ _ _ HI1).
      rewrite <- (H1 (fun _ => [T (root r) (<[j:=en]> (kids r))]) eq_refl).
      apply sub_Some in Hsr as [_ [->|[D Es]]]; [done|]. rewrite Es. rewrite edit_plug by (by rewrite <- Es).
      rewrite !ids_plug1. rewrite (ids_eq r), ids_T. change (nid_ (root r)) with (nid r).
      transitivity (il D ++ [nid r] ++ (flat_map ids (kids r) ++ ids en) ++ ir D); [rewrite Hperm; solve_Permutation|solve_Permutation]. }
    constructor; cbn; rewrite ?add_root_plug; try apply H5; try done.
    + rewrite <- add_root_plug, ids_add_root, Hstore. apply HI.
    + rewrite <- add_root_plug, ids_add_root, Hstore. apply HI.
Qed.
