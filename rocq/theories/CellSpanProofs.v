From Verif Require Export CellSpanSpec TableAccess TableUtilsProofs.
Local Arguments label : simpl never.
Local Arguments edit : simpl never.
Local Arguments sub : simpl never.
Local Arguments ldesc : simpl never.
Local Arguments ids : simpl never.

Section proofs.
Context `{U : Unicode}.

(** ** one cell *)
Lemma ids_lon_root f c : ids (lon_root f c) = ids c.
Proof. by destruct c. Qed.
Lemma mod_cell_step s W t i j c f :
  Inv s W t -> cell_at t i j = Some c -> plain (erase (lon_root f c)) ->
  exists s', mod_nd (nid c) f s = (s', Ok tt) /\
    Rch s W t (fun t' => doc_rows t' = put_cell t i j (lon_root f c) /\ doc_cols t' = doc_cols t) s'.
Proof.
  intros HI Hc Hp. destruct (cell_at_row _ _ _ _ Hc) as (r & Hi & Hj).
  unfold mod_nd, amod. set (c' := lon_root f c).
  pose proof (lookup_lt_Some _ _ _ Hj) as Hjl.
  pose proof (take_drop_middle _ _ _ Hj) as Hm. symmetry in Hm.
  pose proof (sub_hole s W t ROW COL i r other_RC HI Hi) as Hsr.
  pose proof (row_not_store s W t i r HI Hi) as Hnr. pose proof (i_nodup _ _ _ HI) as Hnd.
  assert (Eins : <[j:=c']> (kids r) = take j (kids r) ++ [c'] ++ drop (S j) (kids r)) by (by rewrite insert_take_drop).
  destruct (row_ids_in s W t i r HI Hi) as [Hkn Hkin].
  rewrite (ids_eq r) in Hkn, Hkin. apply NoDup_cons in Hkn as [Hkn0 Hkn]. apply Forall_cons in Hkin as [_ Hkin].
  pose proof (row_cellish s W t i r HI Hi) as Hcell.
  assert (Hids : flat_map ids (<[j:=c']> (kids r)) = flat_map ids (kids r)).
  { rewrite Eins. rewrite Hm at 3. rewrite !flat_map_app. cbn. subst c'. by rewrite ids_lon_root, app_nil_r. }
  destruct (row_kids_step s W t i r (<[j:=c']> (kids r)) (nxt s) HI Hi) as (t' & H1 & H2 & H3 & H4 & H5).
  - rewrite Eins. rewrite Hm in Hcell. apply Forall_app in Hcell as [C1 C2]. apply Forall_cons in C2 as [_ C2].
    apply Forall_app. split; [done|]. constructor; [|done]. by apply cellish_plain.
  - by rewrite Hids.
  - rewrite Hids. apply Forall_forall. intros y Hy. split; [by left|].
    rewrite Forall_forall in Hkin. apply Hkin in Hy. pose proof (i_fresh _ _ _ HI) as Hfr. rewrite Forall_forall in Hfr. by apply Hfr in Hy.
  - lia.
  - rewrite (edit_child (store s) r _ _ _ (fun k => [lon_root f k]) Hnd Hsr Hnr Hm).
    change [lon_root f c] with [c']. rewrite H1 by (by rewrite Eins).
    eexists. split; [done|]. exists W, t'. split_and!; try done.
    unfold put_cell. by rewrite (doc_rows_of _ _ _ Hi).
Qed.

(** ** changes of cells *)
Definition one (i j : nat) (g : node -> node) (i' j' : nat) (x : node) : node :=
  if decide ((i', j') = (i, j)) then g x else x.
Lemma cc_refl t : cells_changed (fun _ _ x => x) t t.
Proof. split_and!; try done. intros i j. by destruct (cell_at t i j). Qed.
Lemma cc_trans F G t1 t2 t3 : cells_changed F t1 t2 -> cells_changed G t2 t3 -> cells_changed (fun i j x => G i j (F i j x)) t1 t3.
Proof.
  intros (A1 & A2 & A3 & A4) (B1 & B2 & B3 & B4). split_and!; [congruence|congruence|congruence|].
  intros i j. rewrite B4, A4. by destruct (cell_at t1 i j).
Qed.
Lemma cc_ext F G t t' : cells_changed F t t' -> (forall i j x, cell_at t i j = Some x -> F i j x = G i j x) -> cells_changed G t t'.
Proof.
  intros (A1 & A2 & A3 & A4) H. split_and!; try done. intros i j. rewrite A4.
  destruct (cell_at t i j) as [x|] eqn:E; [|done]. cbn. by rewrite (H _ _ _ E).
Qed.
Lemma cc_put t t' i j c g : root t' = root t -> doc_cols t' = doc_cols t ->
  cell_at t i j = Some c -> doc_rows t' = put_cell t i j (g c) -> cells_changed (one i j g) t t'.
Proof.
  intros H1 H2 H3 H4. split_and!; try done.
  - rewrite H4. unfold put_cell. destruct (doc_rows t !! i) as [p|] eqn:E; [|done].
    change (map ?f ?l) with (f <$> l). rewrite list_fmap_insert. cbn. rewrite insert_length. rewrite list_insert_id; [done|].
    by rewrite list_lookup_fmap, E.
  - intros i' j'. unfold one. case_decide as Hd.
    + injection Hd as -> ->. rewrite H3. cbn. by eapply cell_at_put.
    + rewrite (cell_at_other _ _ _ _ _ _ _ H4 Hd). by destruct (cell_at t i' j').
Qed.
Lemma cc_length F t t' : cells_changed F t t' -> length (doc_rows t') = length (doc_rows t).
Proof. intros (_ & _ & A & _). apply (f_equal length) in A. by rewrite !map_length in A. Qed.
Lemma cc_row F t t' i p' : cells_changed F t t' -> doc_rows t' !! i = Some p' ->
  exists p, doc_rows t !! i = Some p /\ p_id p' = p_id p /\ p_nd p' = p_nd p /\ length (p_kids p') = length (p_kids p).
Proof.
  intros (_ & _ & A & _) Hp. apply (f_equal (.!! i)) in A. change (map ?f ?l) with (f <$> l) in A.
  rewrite !list_lookup_fmap, Hp in A. cbn in A. destruct (doc_rows t !! i) as [p|]; [|done]. injection A as -> -> ->. by exists p.
Qed.
Lemma cc_rect F t t' n : cells_changed F t t' -> rect n t -> rect n t'.
Proof.
  intros A H. apply Forall_lookup. intros i p' Hp. destruct (cc_row _ _ _ _ _ A Hp) as (p & Hp' & _ & _ & ->).
  unfold rect in H. rewrite Forall_lookup in H. by eapply H.
Qed.
Lemma cc_same F t t' : cells_changed F t t' -> (forall i j x, cell_at t i j = Some x -> F i j x = x) -> doc_rows t' = doc_rows t.
Proof.
  intros A H. pose proof (cc_length _ _ _ A) as L. apply list_eq_same_length with (n := length (doc_rows t)); try done.
  intros i p' p _ Hp' Hp. destruct (cc_row _ _ _ _ _ A Hp') as (p0 & Hp0 & E1 & E2 & E3). simplify_eq.
  destruct A as (_ & _ & _ & A). destruct p as [pi pn pk], p' as [pi' pn' pk']. cbn in *. subst. f_equal.
  apply list_eq. intros j. specialize (A i j). unfold cell_at in A. rewrite Hp, Hp' in A. cbn in A. rewrite A.
  destruct (pk !! j) as [x|] eqn:Ex; [|done]. cbn. f_equal. apply (H i j). unfold cell_at. by rewrite Hp.
Qed.
Lemma cc_cell F t t' i j x : cells_changed F t t' -> cell_at t i j = Some x -> cell_at t' i j = Some (F i j x).
Proof. intros (_ & _ & _ & A) Hx. by rewrite A, Hx. Qed.

(** ** cells at positions *)
Lemma row_pos t i j c : cell_at t i j = Some c -> i < length (doc_rows t).
Proof. unfold cell_at. destruct (doc_rows t !! i) eqn:E; [|done]. intros _. by eapply lookup_lt_Some. Qed.
Lemma col_pos t i j c n : rect n t -> cell_at t i j = Some c -> j < n.
Proof.
  unfold cell_at. destruct (doc_rows t !! i) eqn:E; [|done]. intros H Hj. apply lookup_lt_Some in Hj.
  unfold rect in H. rewrite Forall_lookup in H. by rewrite (H _ _ E) in Hj.
Qed.
Lemma get_at s W t n i j c : Inv s W t -> rect n t -> cell_at t i j = Some c -> ctl_get_cell (Z.of_nat i, Z.of_nat j) s = (s, Ok c).
Proof.
  intros HI Hr Hc. pose proof (row_pos _ _ _ _ Hc) as Hi. pose proof (col_pos _ _ _ _ _ Hr Hc) as Hj.
  rewrite (get_cell_eq s W t _ _ i j HI), Hc; [done|by apply py_index_nat|].
  rewrite (rect_wid n); [by apply py_index_nat|done|]. intros E. rewrite E in Hi. cbn in Hi. lia.
Qed.
Lemma span_get_at s W t n i j c : Inv s W t -> rect n t -> cell_at t i j = Some c -> is_cell_tag (ltag c) ->
  span_get_cell (Z.of_nat i, Z.of_nat j) s = (s, Ok c).
Proof. intros HI Hr Hc Ht. unfold span_get_cell, abind. rewrite (get_at _ _ _ _ _ _ _ HI Hr Hc). by rewrite decide_True. Qed.

Lemma plain_lon s W t i j c f : Inv s W t -> cell_at t i j = Some c -> is_cell_tag (tag (f (pl (root c)))) -> plain (erase (lon_root f c)).
Proof.
  intros HI Hc Ht. destruct (cell_at_row _ _ _ _ Hc) as (r & Hi & Hj). pose proof (row_cellish s W t i r HI Hi) as Hk.
  rewrite Forall_lookup in Hk. specialize (Hk _ _ Hj). apply cellish_plain. unfold cellish in *. rewrite !lself_nil in *.
  destruct c as [[x a] ks]. unfold lon_root in *. unfold ltag in *. cbn in *. rewrite !ldesc_T in *. destruct Hk as [[_ H1] [_ H2]].
  split; (split; [|done]); destruct Ht as [-> | ->]; done.
Qed.
Lemma mod_step s W t i j c f : Inv s W t -> cell_at t i j = Some c -> is_cell_tag (tag (f (pl (root c)))) ->
  exists s', mod_nd (nid c) f s = (s', Ok tt) /\ Rch s W t (cells_changed (one i j (lon_root f)) t) s'.
Proof.
  intros HI Hc Ht. destruct (mod_cell_step s W t i j c f HI Hc) as (s' & E & HR); [by eapply plain_lon|].
  exists s'. split; [done|]. destruct HR as (W' & t' & H1 & H2 & H3 & H4 & H5 & H6). exists W', t'. split_and!; try done.
  by apply cc_put with c.
Qed.

Lemma lon_root_tag f c : ltag (lon_root f c) = tag (f (pl (root c))).
Proof. by destruct c as [[x a] ks]. Qed.
Lemma lon_root_comp f g c : lon_root f (lon_root g c) = lon_root (fun a => f (g a)) c.
Proof. by destruct c as [[x a] ks]. Qed.
Lemma lon_root_pl f c : pl (root (lon_root f c)) = f (pl (root c)).
Proof. by destruct c as [[x a] ks]. Qed.
Lemma lon_root_id f c : f (pl (root c)) = pl (root c) -> lon_root f c = c.
Proof. destruct c as [[x a] ks]. cbn. by intros ->. Qed.
Lemma lon_root_ext f g c : f (pl (root c)) = g (pl (root c)) -> lon_root f c = lon_root g c.
Proof. destruct c as [[x a] ks]. cbn. by intros ->. Qed.

Lemma cover_tag x : ltag (cover x) = COVERED.
Proof. unfold cover. case_decide; [done|]. by rewrite lon_root_tag. Qed.
Lemma cover_idem x : cover (cover x) = cover x.
Proof. unfold cover at 1. by rewrite decide_True by apply cover_tag. Qed.
Lemma uncover_idem x : uncover (uncover x) = uncover x.
Proof. unfold uncover. by rewrite lon_root_comp. Qed.
Lemma uncover_tag x : ltag (uncover x) = CELL.
Proof. unfold uncover. by rewrite lon_root_tag. Qed.
Lemma uncover_cell_id x : ltag x = CELL -> uncover x = x.
Proof. intros H. apply lon_root_id. unfold ltag in H. destruct (pl (root x)). cbn in *. by rewrite H. Qed.

Lemma one_same t i j g c : cell_at t i j = Some c -> g c = c -> cells_changed (one i j g) t t.
Proof.
  intros Hc Hg. apply (cc_ext (fun _ _ x => x)); [apply cc_refl|]. intros i' j' x Hx. unfold one. case_decide as E; [|done].
  injection E as -> ->. rewrite Hc in Hx. injection Hx as <-. done.
Qed.
Lemma one_ext t t' i j g h c : cell_at t i j = Some c -> g c = h c -> cells_changed (one i j g) t t' -> cells_changed (one i j h) t t'.
Proof.
  intros Hc Hg H. apply (cc_ext _ _ _ _ H). intros i' j' x Hx. unfold one. case_decide as E; [|done].
  injection E as -> ->. rewrite Hc in Hx. by injection Hx as <-.
Qed.

Lemma cover_step s W t n i j c : Inv s W t -> rect n t -> cell_at t i j = Some c -> is_cell_tag (ltag c) ->
  exists s', cover_cell (Z.of_nat i, Z.of_nat j) s = (s', Ok tt) /\ Rch s W t (cells_changed (one i j cover) t) s'.
Proof.
  intros HI Hr Hc Ht. unfold cover_cell, abind. rewrite (span_get_at _ _ _ _ _ _ _ HI Hr Hc Ht). unfold is_covered. case_decide as Hd.
  - exists s. split; [done|]. apply Rch_refl; [done|]. apply (one_same _ _ _ _ c); [done|]. unfold cover. by rewrite decide_True.
  - unfold set_covered. cbn [negb]. match goal with |- context [mod_nd _ ?f] =>
      destruct (mod_step s W t i j c f HI Hc) as (s' & E & HR); [by right|] end.
    exists s'. split; [exact E|]. eapply Rch_impl; [exact HR|]. intros t' Hcc. eapply one_ext; [exact Hc| |exact Hcc].
    unfold cover. by rewrite decide_False.
Qed.
Lemma uncover_step s W t n i j c : Inv s W t -> rect n t -> cell_at t i j = Some c -> is_cell_tag (ltag c) ->
  exists s', uncover_cell (Z.of_nat i, Z.of_nat j) s = (s', Ok tt) /\ Rch s W t (cells_changed (one i j uncover) t) s'.
Proof.
  intros HI Hr Hc Ht. unfold uncover_cell, abind. rewrite (span_get_at _ _ _ _ _ _ _ HI Hr Hc Ht). unfold is_covered. case_decide as Hd.
  - unfold set_covered. apply (mod_step s W t i j c); try done. by left.
  - exists s. split; [done|]. apply Rch_refl; [done|]. apply (one_same _ _ _ _ c); [done|]. apply uncover_cell_id.
    destruct Ht as [Ht|Ht]; [done|]. by destruct Hd.
Qed.

(** ** a loop over positions *)
Definition in_ps (ps : list (Z * Z)) (i j : nat) : Prop := (Z.of_nat i, Z.of_nat j) ∈ ps.
Global Instance in_ps_dec ps i j : Decision (in_ps ps i j).
Proof. unfold in_ps. apply _. Defined.
Definition many (ps : list (Z * Z)) (g : node -> node) (i j : nat) (x : node) : node := if decide (in_ps ps i j) then g x else x.

Lemma loop_cells body g n ps s W t :
  (forall s W t i j c, Inv s W t -> rect n t -> cell_at t i j = Some c -> is_cell_tag (ltag c) ->
     exists s', body (Z.of_nat i, Z.of_nat j) s = (s', Ok tt) /\ Rch s W t (cells_changed (one i j g) t) s') ->
  (forall x, g (g x) = g x) -> (forall x, is_cell_tag (ltag (g x))) ->
  Inv s W t -> rect n t ->
  (forall p, p ∈ ps -> exists i j c, p = (Z.of_nat i, Z.of_nat j) /\ cell_at t i j = Some c /\ is_cell_tag (ltag c)) ->
  exists s', aiter ps body s = (s', Ok tt) /\ Rch s W t (cells_changed (many ps g) t) s'.
Proof.
  intros Hb Hg Hgt HI Hr Hps.
  destruct (loop_iter ps body s W t (fun k t1 => cells_changed (many (take k ps) g) t t1) HI) as (s' & E & HR).
  - apply (cc_ext (fun _ _ x => x)); [apply cc_refl|]. intros i j x _. unfold many. case_decide as Hd; [|done]. by apply elem_of_nil in Hd.
  - intros k p s1 W1 t1 Hk HI1 _ Hcc. destruct (Hps p) as (i & j & c & -> & Hc & Ht); [by eapply elem_of_list_lookup_2|].
    pose proof (cc_cell _ _ _ _ _ _ Hcc Hc) as Hc1.
    destruct (Hb s1 W1 t1 i j _ HI1 (cc_rect _ _ _ _ Hcc Hr) Hc1) as (s2 & E & HR).
    { unfold many. case_decide; [apply Hgt|done]. }
    exists s2. split; [done|]. eapply Rch_impl; [exact HR|]. intros t2 H2. cbn beta.
    eapply cc_ext; [eapply cc_trans; [exact Hcc|exact H2]|]. intros i' j' x _. cbn. unfold one, many.
    replace (k + 1) with (S k) by lia. rewrite (take_S_r _ _ _ Hk).
    case_decide as H1; [injection H1 as -> ->|].
    + rewrite (decide_True (P := in_ps (take k ps ++ _) i j)); [|unfold in_ps; apply elem_of_app; right; by apply elem_of_list_singleton].
      case_decide; [apply Hg|done].
    + apply decide_ext. unfold in_ps. rewrite elem_of_app, elem_of_list_singleton. split; [by left|].
      intros [H|H]; [done|]. destruct H1. injection H as H3 H4. apply Nat2Z.inj in H3, H4. congruence.
  - exists s'. split; [done|]. eapply Rch_impl; [exact HR|]. cbn beta. intros t1. by rewrite firstn_all.
Qed.

(** ** spans *)
Lemma py_int_err v x : py_int v = Err x -> x = ValueError.
Proof. unfold py_int. repeat case_match; naive_solver. Qed.
Lemma span_attr_spans k a n : span_attr k a = Ok n <-> spans k a n.
Proof.
  unfold span_attr, spans. destruct (attrs a !! k) as [v|].
  - destruct (py_int v) as [m|e] eqn:E; cbn; split.
    + intros [= <-]. right. by exists v, m.
    + intros [[? _]|(v' & m' & [= <-] & E' & ->)]; [done|]. rewrite E in E'. by injection E' as ->.
    + done.
    + intros [[? _]|(v' & m' & [= <-] & E' & ->)]; [done|]. by rewrite E in E'.
  - split; [intros [= <-]; by left|]. by intros [[_ ->]|(v' & m' & ? & _)].
Qed.
Lemma span_attr_err k a e : span_attr k a = Err e -> e = ValueError.
Proof.
  unfold span_attr. destruct (attrs a !! k) as [v|]; [|done]. destruct (py_int v) eqn:E; cbn; [done|]. intros [= <-]. by eapply py_int_err.
Qed.
Lemma cell_span_spans x h w : cell_span (pl (root x)) = Ok (h, w) <-> cell_spans x h w.
Proof.
  unfold cell_span, cell_spans. change "table:number-rows-spanned" with RSPAN. change "table:number-columns-spanned" with CSPAN.
  rewrite <- !span_attr_spans. destruct (span_attr RSPAN _); cbn; [|by split; [done|intros [? _]]].
  destruct (span_attr CSPAN _); cbn; split; try done; [by intros [= <- <-]|by intros [[= ->] [= ->]]|by intros [_ ?]].
Qed.
Lemma cell_span_err a e : cell_span a = Err e -> e = ValueError.
Proof.
  unfold cell_span. destruct (span_attr RSPAN a) eqn:E1; cbn; [|intros [= <-]; by eapply span_attr_err].
  destruct (span_attr CSPAN a) eqn:E2; cbn; [done|intros [= <-]; by eapply span_attr_err].
Qed.


Lemma spanning_at s W t n i j c : Inv s W t -> rect n t -> cells_only t -> cell_at t i j = Some c ->
  is_cell_spanning (Z.of_nat i, Z.of_nat j) s =
    (s, match cell_span (pl (root c)) with Ok sp => Ok (bool_decide (sp <> (1, 1)%Z)) | Err e => Err e end).
Proof.
  intros HI Hr Hco Hc. unfold is_cell_spanning, abind. rewrite (span_get_at _ _ _ _ _ _ _ HI Hr Hc (Hco _ _ _ Hc)).
  unfold alift. by destruct (cell_span _).
Qed.
Lemma any_spanning_no s W t n ps : Inv s W t -> rect n t -> cells_only t ->
  (forall p, p ∈ ps -> exists i j c, p = (Z.of_nat i, Z.of_nat j) /\ cell_at t i j = Some c /\ cell_spans c 1 1) ->
  any_spanning ps s = (s, Ok false).
Proof.
  intros HI Hr Hco Hps. induction ps as [|p ps IH]; [done|]. cbn [any_spanning]. unfold abind.
  destruct (Hps p) as (i & j & c & -> & Hc & Hs); [by left|]. rewrite (spanning_at _ _ _ _ _ _ _ HI Hr Hco Hc).
  apply cell_span_spans in Hs. rewrite Hs. rewrite bool_decide_eq_false_2 by (intros H; by apply H). apply IH. intros p Hp. apply Hps. by right.
Qed.
Lemma any_spanning_yes s W t n ps : Inv s W t -> rect n t -> cells_only t ->
  (forall p, p ∈ ps -> exists i j c, p = (Z.of_nat i, Z.of_nat j) /\ cell_at t i j = Some c) ->
  (exists i j c, (Z.of_nat i, Z.of_nat j) ∈ ps /\ cell_at t i j = Some c /\ ~ cell_spans c 1 1) ->
  any_spanning ps s = (s, Ok true) \/ any_spanning ps s = (s, Err ValueError).
Proof.
  intros HI Hr Hco Hps Hex. induction ps as [|p ps IH].
  { destruct Hex as (i & j & c & H & _). by apply elem_of_nil in H. }
  cbn [any_spanning]. unfold abind.
  destruct (Hps p) as (i & j & c & -> & Hc); [by left|]. rewrite (spanning_at _ _ _ _ _ _ _ HI Hr Hco Hc).
  destruct (cell_span _) as [sp|e] eqn:E; [|right; by rewrite (cell_span_err _ _ E)].
  case_bool_decide as Hb; [by left|]. apply IH.
  - intros p Hp. apply Hps. by right.
  - destruct Hex as (i' & j' & c' & Hin & Hc' & Hs). exists i', j', c'. split_and!; try done.
    apply elem_of_cons in Hin as [Hin|Hin]; [|done]. exfalso. injection Hin as E1 E2. apply Nat2Z.inj in E1, E2. subst.
    rewrite Hc in Hc'. injection Hc' as <-. apply Hs. apply cell_span_spans. exact E.
Qed.

(** ** set_span *)
Lemma range_in r c h w l i j : iter_cell_range (Z.of_nat r, Z.of_nat c) (Z.of_nat h, Z.of_nat w) = Ok l ->
  in_ps l i j <-> in_rect r c h w i j.
Proof. intros E. unfold in_ps, in_rect. rewrite (range_elem _ _ _ _ E). cbn. lia. Qed.
Lemma range_get r c h w l p : iter_cell_range (Z.of_nat r, Z.of_nat c) (Z.of_nat h, Z.of_nat w) = Ok l ->
  p ∈ l -> exists i j, p = (Z.of_nat i, Z.of_nat j) /\ in_rect r c h w i j.
Proof.
  intros E Hp. apply (range_elem _ _ _ _ E) in Hp. destruct p as [a b]. cbn in Hp. exists (Z.to_nat a), (Z.to_nat b).
  unfold in_rect. split; [f_equal; lia|lia].
Qed.
Lemma range_ok r c h w : 1 <= h -> 1 <= w -> exists l, iter_cell_range (Z.of_nat r, Z.of_nat c) (Z.of_nat h, Z.of_nat w) = Ok l.
Proof. intros H1 H2. unfold iter_cell_range. rewrite decide_False by lia. rewrite decide_False by lia. by eexists. Qed.
Lemma rect_cell n t r c h w i j : rect n t -> r + h <= length (doc_rows t) -> c + w <= n -> in_rect r c h w i j ->
  exists x, cell_at t i j = Some x.
Proof. intros Hr H1 H2 [H3 H4]. apply (cell_at_rect n); [done|lia|lia]. Qed.
Lemma check_ok s W t n r c h w : Inv s W t -> rect n t -> 1 <= h -> 1 <= w ->
  check_pos_and_size (Z.of_nat r, Z.of_nat c) (Z.of_nat h, Z.of_nat w) s =
   (s, if decide (r + h <= length (doc_rows t) /\ c + w <= n) then Ok tt else Err ValueError).
Proof.
  intros HI Hr H1 H2. unfold check_pos_and_size. rewrite decide_False by lia. rewrite decide_False by lia. unfold abind.
  rewrite (nrows_eq _ _ _ HI).
  assert (L : length (ldesc ROW t) = length (doc_rows t)) by (unfold doc_rows; by rewrite map_length). rewrite L.
  case_decide as Ha; [rewrite decide_False by lia; done|].
  assert (Hw : wid t = n). { apply rect_wid; [done|]. intros E. rewrite E in Ha. cbn in Ha. lia. }
  rewrite (ncols_eq _ _ _ HI), Hw. case_decide as Hb; [rewrite decide_False by lia; done|]. by rewrite decide_True by lia.
Qed.

Lemma head_drop {A} (l : list A) x : head l = Some x -> l = x :: drop 1 l.
Proof. destruct l; cbn; [done|]. intros [= ->]. by rewrite drop_0. Qed.

Definition span_effect (r c h w : nat) (i j : nat) (x : node) : node :=
  if decide ((i, j) = (r, c)) then master h w x else if decide (in_rect r c h w i j) then cover x else x.

Lemma set_span_ok s W t n r c h w : Inv s W t -> rect n t -> cells_only t -> 1 <= h -> 1 <= w -> (h, w) <> (1, 1) ->
  r + h <= length (doc_rows t) -> c + w <= n ->
  (forall i j x, in_rect r c h w i j -> cell_at t i j = Some x -> cell_spans x 1 1) ->
  exists s', set_span (Z.of_nat r, Z.of_nat c) (Z.of_nat h, Z.of_nat w) s = (s', Ok tt) /\ Rch s W t (cells_changed (span_effect r c h w) t) s'.
Proof.
  intros HI Hr Hco Hh Hw Hne Hrh Hcw Hsp. unfold set_span. unfold abind at 1.
  rewrite (check_ok _ _ _ _ _ _ _ _ HI Hr Hh Hw), decide_True by done.
  destruct (range_ok r c h w Hh Hw) as [l El]. pose proof (range_head _ _ _ El) as Hhd. apply head_drop in Hhd.
  pose proof (sorted_NoDup _ (range_sorted _ _ _ El)) as Hnd.
  assert (Hl : forall p, p ∈ l -> exists i j x, p = (Z.of_nat i, Z.of_nat j) /\ in_rect r c h w i j /\ cell_at t i j = Some x).
  { intros p Hp. destruct (range_get _ _ _ _ _ _ El Hp) as (i & j & -> & Hij).
    destruct (rect_cell _ _ _ _ _ _ _ _ Hr Hrh Hcw Hij) as [x Hx]. by exists i, j, x. }
  unfold has_cell_range_spanned_cells. unfold abind at 1. unfold abind at 1. unfold alift at 1. rewrite El.
  rewrite (any_spanning_no s W t n l HI Hr Hco); [|intros p Hp; destruct (Hl p Hp) as (i & j & x & -> & Hij & Hx); exists i, j, x; eauto].
  unfold iter_cell_range_without_start_pos. rewrite El. cbn [rbind]. unfold alift. unfold abind at 1. unfold abind at 1.
  destruct (loop_cells cover_cell cover n (drop 1 l) s W t) as (s1 & E1 & HR1); try done.
  { intros. by eapply cover_step. } { apply cover_idem. } { intros x. rewrite cover_tag. by right. }
  { intros p Hp. destruct (Hl p) as (i & j & x & -> & Hij & Hx); [rewrite Hhd; by right|]. exists i, j, x. split_and!; try done. by eapply Hco. }
  rewrite E1. destruct HR1 as (W1 & t1 & HI1 & G1 & R1 & N1 & C1).
  assert (Hrc : in_rect r c h w r c) by (unfold in_rect; lia).
  destruct (rect_cell _ _ _ _ _ _ _ _ Hr Hrh Hcw Hrc) as [x Hx].
  assert (Hnin : ~ in_ps (drop 1 l) r c). { unfold in_ps. rewrite Hhd in Hnd. by apply NoDup_cons in Hnd as [? _]. }
  assert (Hx1 : cell_at t1 r c = Some x).
  { rewrite (cc_cell _ _ _ _ _ _ C1 Hx). unfold many. by rewrite decide_False. }
  pose proof (Hco _ _ _ Hx) as Hxt. unfold abind at 1.
  rewrite (span_get_at s1 W1 t1 n r c x HI1 (cc_rect _ _ _ _ C1 Hr) Hx1 Hxt).
  unfold abind. unfold cell_set_span. rewrite !Z.max_r by lia.
  rewrite decide_False by (intros [? ?]; apply Hne; f_equal; lia).
  match goal with |- context [mod_nd _ ?f] => destruct (mod_step s1 W1 t1 r c x f HI1 Hx1) as (s2 & E2 & HR2); [exact Hxt|]; set (f0 := f) in * end.
  rewrite E2. destruct HR2 as (W2 & t2 & HI2 & G2 & R2 & N2 & C2).
  pose proof (cc_cell _ _ _ _ _ _ C2 Hx1) as Hx2. unfold one in Hx2. rewrite decide_True in Hx2 by done.
  destruct (uncover_step s2 W2 t2 n r c _ HI2 (cc_rect _ _ _ _ C2 (cc_rect _ _ _ _ C1 Hr)) Hx2) as (s3 & E3 & HR3).
  { rewrite lon_root_tag. done. }
  exists s3. split; [exact E3|]. destruct HR3 as (W3 & t3 & HI3 & G3 & R3 & N3 & C3). exists W3, t3. split_and!; try done.
  { eapply grow_trans; [done|]. by eapply grow_trans. } { congruence. } { lia. }
  eapply cc_ext; [eapply cc_trans; [eapply cc_trans; [exact C1|exact C2]|exact C3]|].
  intros i j y Hy. cbn beta. unfold one, span_effect, many. case_decide as Hd.
  - injection Hd as -> ->. rewrite (decide_False (P := in_ps _ _ _)) by done. unfold uncover, master. by rewrite lon_root_comp.
  - apply decide_ext. rewrite <- (range_in _ _ _ _ _ _ _ El). unfold in_ps. rewrite Hhd at 2. rewrite elem_of_cons.
    split; [by right|]. intros [H|H]; [|done]. injection H as H3 H4. apply Nat2Z.inj in H3, H4. destruct Hd. congruence.
Qed.

Lemma set_span_spanned s W t n r c h w : Inv s W t -> rect n t -> cells_only t -> 1 <= h -> 1 <= w ->
  r + h <= length (doc_rows t) -> c + w <= n ->
  (exists i j x, in_rect r c h w i j /\ cell_at t i j = Some x /\ ~ cell_spans x 1 1) ->
  set_span (Z.of_nat r, Z.of_nat c) (Z.of_nat h, Z.of_nat w) s = (s, Err ValueError).
Proof.
  intros HI Hr Hco Hh Hw Hrh Hcw (i & j & x & Hij & Hx & Hs). unfold set_span. unfold abind at 1.
  rewrite (check_ok _ _ _ _ _ _ _ _ HI Hr Hh Hw), decide_True by done.
  destruct (range_ok r c h w Hh Hw) as [l El]. unfold has_cell_range_spanned_cells. unfold abind at 1. unfold abind at 1. unfold alift at 1. rewrite El.
  destruct (any_spanning_yes s W t n l HI Hr Hco) as [-> | ->]; try done.
  - intros p Hp. destruct (range_get _ _ _ _ _ _ El Hp) as (i' & j' & -> & Hij').
    destruct (rect_cell _ _ _ _ _ _ _ _ Hr Hrh Hcw Hij') as [x' Hx']. by exists i', j', x'.
  - exists i, j, x. split_and!; try done. by apply (range_in _ _ _ _ _ _ _ El).
Qed.

(** ** remove_span *)
Definition unspan_effect (r c h w : nat) (i j : nat) (x : node) : node :=
  if decide ((i, j) = (r, c)) then unspan x else if decide (in_rect r c h w i j) then uncover x else x.

Lemma remove_span_ok s W t n r c h w x : Inv s W t -> rect n t -> cells_only t ->
  cell_at t r c = Some x -> cell_spans x (Z.of_nat h) (Z.of_nat w) -> (h, w) <> (1, 1) ->
  is_Some (attrs (pl (root x)) !! RSPAN) -> is_Some (attrs (pl (root x)) !! CSPAN) ->
  r + h <= length (doc_rows t) -> c + w <= n ->
  exists s', remove_span (Z.of_nat r, Z.of_nat c) s = (s', Ok tt) /\ Rch s W t (cells_changed (unspan_effect r c h w) t) s'.
Proof.
  intros HI Hr Hco Hx Hsp Hne [v1 Hv1] [v2 Hv2] Hrh Hcw.
  assert (1 <= h /\ 1 <= w) as [Hh Hw].
  { destruct Hsp as [[[_ H1]|(? & ? & _ & _ & H1)] [[_ H2]|(? & ? & _ & _ & H2)]]; lia. }
  apply cell_span_spans in Hsp. unfold remove_span. unfold abind at 1. rewrite (spanning_at _ _ _ _ _ _ _ HI Hr Hco Hx), Hsp.
  rewrite bool_decide_eq_true_2 by (intros [= ? ?]; apply Hne; f_equal; lia).
  unfold abind at 1. pose proof (Hco _ _ _ Hx) as Hxt. rewrite (span_get_at s W t n r c x HI Hr Hx Hxt).
  unfold abind at 1. unfold alift at 1. rewrite Hsp. unfold abind at 1. unfold alift at 1.
  destruct (range_ok r c h w Hh Hw) as [l El]. rewrite El. unfold abind at 1.
  destruct (loop_cells uncover_cell uncover n l s W t) as (s1 & E1 & HR1); try done.
  { intros. by eapply uncover_step. } { apply uncover_idem. } { intros y. rewrite uncover_tag. by left. }
  { intros p Hp. destruct (range_get _ _ _ _ _ _ El Hp) as (i & j & -> & Hij).
    destruct (rect_cell _ _ _ _ _ _ _ _ Hr Hrh Hcw Hij) as [y Hy]. exists i, j, y. split_and!; try done. by eapply Hco. }
  rewrite E1. destruct HR1 as (W1 & t1 & HI1 & G1 & R1 & N1 & C1).
  assert (Hin : in_ps l r c) by (apply (range_in _ _ _ _ _ _ _ El); unfold in_rect; lia).
  assert (Hx1 : cell_at t1 r c = Some (uncover x)).
  { rewrite (cc_cell _ _ _ _ _ _ C1 Hx). unfold many. by rewrite decide_True. }
  assert (Hr1 : rect n t1) by (by eapply cc_rect).
  unfold abind at 1. rewrite (span_get_at s1 W1 t1 n r c _ HI1 Hr1 Hx1) by (rewrite uncover_tag; by left).
  unfold abind at 1. unfold del_span_attributes. unfold abind at 1. unfold del_attrib at 1. unfold abind at 1.
  assert (Hd : forall s W t i j y, Inv s W t -> cell_at t i j = Some y -> deref (nid y) s = (s, Ok y)).
  { clear. intros s W t i j y HI Hy. destruct (cell_at_row _ _ _ _ Hy) as (rr & Hi & Hj). unfold deref.
    pose proof (sub_hole s W t ROW COL i rr other_RC HI Hi) as Hs.
    pose proof (take_drop_middle _ _ _ Hj) as Hm. symmetry in Hm.
    destruct (sub_child (store s) rr _ y _ (i_nodup _ _ _ HI) Hs (row_not_store _ _ _ _ _ HI Hi) Hm) as [-> _]. done. }
  rewrite (Hd _ _ _ _ _ _ HI1 Hx1).
  assert (A1 : attrs (pl (root (uncover x))) = attrs (pl (root x))) by (unfold uncover; by rewrite lon_root_pl).
  rewrite A1, Hv1.
  match goal with |- context [mod_nd _ ?f] => destruct (mod_step s1 W1 t1 r c _ f HI1 Hx1) as (s2 & E2 & HR2);
    [cbn; unfold uncover; rewrite lon_root_pl; by left|]; set (f1 := f) in * end.
  rewrite E2. destruct HR2 as (W2 & t2 & HI2 & G2 & R2 & N2 & C2).
  pose proof (cc_cell _ _ _ _ _ _ C2 Hx1) as Hx2. unfold one in Hx2. rewrite decide_True in Hx2 by done.
  assert (Hr2 : rect n t2) by (by eapply cc_rect).
  unfold del_attrib. unfold abind at 1.
  replace (nid (uncover x)) with (nid (lon_root f1 (uncover x))) by (by destruct (uncover x)).
  rewrite (Hd _ _ _ _ _ _ HI2 Hx2).
  assert (A2 : attrs (pl (root (lon_root f1 (uncover x)))) = delete RSPAN (attrs (pl (root x)))).
  { rewrite lon_root_pl. subst f1. cbn. by rewrite A1. }
  rewrite A2, lookup_delete_ne, Hv2 by done.
  match goal with |- context [mod_nd _ ?f] => destruct (mod_step s2 W2 t2 r c _ f HI2 Hx2) as (s3 & E3 & HR3);
    [cbn; rewrite lon_root_pl; unfold uncover; rewrite lon_root_pl; by left|]; set (f2 := f) in * end.
  rewrite E3. destruct HR3 as (W3 & t3 & HI3 & G3 & R3 & N3 & C3).
  pose proof (cc_cell _ _ _ _ _ _ C3 Hx2) as Hx3. unfold one in Hx3. rewrite decide_True in Hx3 by done.
  assert (Hr3 : rect n t3) by (by eapply cc_rect).
  destruct (uncover_step s3 W3 t3 n r c _ HI3 Hr3 Hx3) as (s4 & E4 & HR4).
  { rewrite lon_root_tag. cbn. rewrite lon_root_pl. cbn. unfold uncover. rewrite lon_root_pl. by left. }
  exists s4. split; [exact E4|]. destruct HR4 as (W4 & t4 & HI4 & G4 & R4 & N4 & C4). exists W4, t4. split_and!; try done.
  { eapply grow_trans; [done|]. eapply grow_trans; [done|]. by eapply grow_trans. } { congruence. } { lia. }
  eapply cc_ext; [eapply cc_trans; [eapply cc_trans; [eapply cc_trans; [exact C1|exact C2]|exact C3]|exact C4]|].
  intros i j y Hy. cbn beta. unfold one, unspan_effect, many. case_decide as Hd'.
  - injection Hd' as -> ->. rewrite (decide_True (P := in_ps _ _ _)) by done. unfold uncover, unspan. by rewrite !lon_root_comp.
  - apply decide_ext. apply (range_in _ _ _ _ _ _ _ El).
Qed.
Lemma remove_span_none s W t n r c x : Inv s W t -> rect n t -> cells_only t ->
  cell_at t r c = Some x -> cell_spans x 1 1 -> remove_span (Z.of_nat r, Z.of_nat c) s = (s, Ok tt).
Proof.
  intros HI Hr Hco Hx Hsp. apply cell_span_spans in Hsp. unfold remove_span, abind. rewrite (spanning_at _ _ _ _ _ _ _ HI Hr Hco Hx), Hsp.
  by rewrite bool_decide_eq_false_2 by (intros H; by apply H).
Qed.
End proofs.
