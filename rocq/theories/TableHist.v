(** Histories of table operations, copies. *)
From Verif Require Export TableLife.

Local Arguments label : simpl never.
Local Arguments edit : simpl never.
Local Arguments sub : simpl never.
Local Arguments ldesc : simpl never.
Local Arguments ids : simpl never.

(** ** contexts *)
Lemma plug_inj W V t : NoDup (ids (plug W [t])) -> plug W [t] = plug V [t] -> W = V.
Proof.
  revert V. induction W as [a l r|a l W IH r]; intros V Hn E.
  - assert (Hx : nid t ∉ flat_map ids l /\ nid t ∉ flat_map ids r).
    { destruct (NoDup_plug_hole (Here a l r) t (nid t) Hn (nid_in t)) as [H1 H2]. cbn in H1, H2.
      apply not_elem_of_cons in H1 as [_ H1]. done. }
    destruct Hx as [X1 X2]. destruct V as [a' l' r'|a' l' V r']; cbn in E; injection E as -> E;
      apply app_cons_cases in E as [(-> & E & ->)|[(z & -> & ->)|(z & -> & ->)]].
    + done.
    + exfalso. apply X2. rewrite flat_map_app. cbn. apply elem_of_app. right. apply elem_of_app. left. apply nid_in.
    + exfalso. apply X1. rewrite flat_map_app. cbn. apply elem_of_app. right. apply elem_of_app. left. apply nid_in.
    + exfalso. cbn in Hn. pose proof Hn as Hn'. rewrite ids_T, flat_map_app in Hn'. cbn in Hn'.
      assert (Hl : length (ids t) = length (ids (plug V [t]))) by (by rewrite <- E).
      rewrite ids_plug1, !app_length in Hl. destruct V; cbn in Hl; lia.
    + exfalso. apply X2. rewrite flat_map_app. cbn. apply elem_of_app. right. apply elem_of_app. left.
      rewrite ids_plug1. apply elem_of_app. right. apply elem_of_app. left. apply nid_in.
    + exfalso. apply X1. rewrite flat_map_app. cbn. apply elem_of_app. right. apply elem_of_app. left.
      rewrite ids_plug1. apply elem_of_app. right. apply elem_of_app. left. apply nid_in.
  - assert (Hx : nid t ∉ flat_map ids l /\ nid t ∉ flat_map ids r /\ NoDup (ids (plug W [t]))).
    { destruct (NoDup_plug_hole (Deep a l W r) t (nid t) Hn (nid_in t)) as [H1 H2]. cbn in H1, H2.
      apply not_elem_of_cons in H1 as [_ H1]. apply not_elem_of_app in H1 as [H1 _]. apply not_elem_of_app in H2 as [_ H2].
      split_and!; try done. cbn in Hn. rewrite ids_T, flat_map_app in Hn. apply NoDup_cons in Hn as [_ Hn].
      apply NoDup_app in Hn as (_ & _ & Hn). cbn in Hn. by apply NoDup_app in Hn as (? & _). }
    destruct Hx as (X1 & X2 & X3). destruct V as [a' l' r'|a' l' V r']; cbn in E; injection E as -> E;
      apply app_cons_cases in E as [(-> & E & ->)|[(z & -> & ->)|(z & -> & ->)]].
    + exfalso. assert (Hl : length (ids t) = length (ids (plug W [t]))) by (by rewrite E).
      rewrite ids_plug1, !app_length in Hl. destruct W; cbn in Hl; lia.
    + exfalso. apply X2. rewrite flat_map_app. cbn. apply elem_of_app. right. apply elem_of_app. left. apply nid_in.
    + exfalso. apply X1. rewrite flat_map_app. cbn. apply elem_of_app. right. apply elem_of_app. left. apply nid_in.
    + by rewrite (IH V).
    + exfalso. apply X2. rewrite flat_map_app. cbn. apply elem_of_app. right. apply elem_of_app. left.
      rewrite ids_plug1. apply elem_of_app. right. apply elem_of_app. left. apply nid_in.
    + exfalso. apply X1. rewrite flat_map_app. cbn. apply elem_of_app. right. apply elem_of_app. left.
      rewrite ids_plug1. apply elem_of_app. right. apply elem_of_app. left. apply nid_in.
Qed.

(** [u] lies outside the hole *)
Definition Outside (W : ctx) (u : node) : Prop := forall m, exists V, plug W m = plug V [u].
Lemma Outside_cadd W u d : Outside W u -> Outside (cadd d W) u.
Proof. intros H m. destruct (H m) as [V E]. exists (cadd d V). by rewrite <- !add_root_plug, E. Qed.
Lemma Outside_grow W W' u : grow W W' -> Outside W u -> Outside W' u.
Proof. induction 1; [done|]. intros. by apply Outside_cadd, IHgrow. Qed.
Lemma Outside_apart W u t : Outside W u -> NoDup (ids (plug W [t])) -> nid u ∉ ids t /\ nid t ∉ ids u.
Proof.
  intros H Hn. destruct (H []) as [V E].
  assert (P : Permutation (ids (plug W [t])) (ids (plug V [u]) ++ ids t)).
  { rewrite <- E, !ids_plug. cbn. rewrite app_nil_r. solve_Permutation. }
  rewrite P, ids_plug1 in Hn. apply NoDup_app in Hn as (_ & Hn & _). split.
  - apply Hn. apply elem_of_app. right. apply elem_of_app. left. apply nid_in.
  - intros Hx. apply (Hn (nid t)); [|apply nid_in]. apply elem_of_app. right. apply elem_of_app. by left.
Qed.

Section hist.
Context `{U : Unicode}.

(** the state still belongs to the table [t]; its surroundings only gained trees *)
Definition Keep (s : st) (W : ctx) (t : node) (s' : st) : Prop :=
  exists W' t', Inv s' W' t' /\ grow W W' /\ nid t' = nid t /\ (nxt s <= nxt s')%N.
Lemma Rch_Keep s W t Q s' : Rch s W t Q s' -> Keep s W t s'.
Proof. intros (W' & t' & H1 & H2 & H3 & H4 & _). exists W', t'. split_and!; try done. unfold nid. by rewrite H3. Qed.

Lemma set_item_py s W t i r col j x : Inv s W t -> ldesc ROW t !! i = Some r ->
  py_index (length (kids r)) col = Some j -> set_item (nid r) col x s = set_item (nid r) (Z.of_nat j) x s.
Proof.
  intros HI Hr Hj. unfold set_item, abind. rewrite (deref_row _ _ _ _ _ HI Hr). unfold alift, py_get.
  rewrite Hj. rewrite py_index_nat by (by eapply py_index_lt). done.
Qed.

Lemma set_new_any s W t pos e : Inv s W t -> plain e -> Rch s W t (fun _ => True) (set_new pos e s).1.
Proof.
  intros HI Hp. destruct (new_root_step s W t e HI) as (en & n' & E & Ee & Hid & Hlt & HI1 & Hsub & Hfr & Hed).
  unfold set_new. unfold abind at 1. rewrite E. set (s1 := St (plug (cadd en W) [t]) n' (obj s)) in *.
  assert (HR1 : Rch s W t (fun _ => True) s1).
  { exists (cadd en W), t. split_and!; try done; [by constructor|]. cbn. lia. }
  unfold set_cell. unfold abind at 1. unfold deref at 1. cbn [store s1] in *. rewrite Hsub.
  case_decide; [|done]. destruct pos as [row col]. unfold ctl_set_cell. unfold abind at 1.
  rewrite (adjust_eq _ _ _ _ _ HI1). unfold abind at 1.
  destruct (row_ref_any s1 (cadd en W) t (adj (length (doc_rows t)) row) HI1) as [(k & r & _ & Hr & ->)|[_ ->]]; [|done].
  destruct (py_index (length (kids r)) (adj (wid t) col)) as [j|] eqn:Ej.
  - rewrite (set_item_py s1 _ t k r _ j _ HI1 Hr Ej).
    destruct (py_get_index _ _ _ Ej) as (c & Hc & _).
    assert (Hx : nid en ∉ ids t).
    { intros Hin. apply (Hfr (nid en)); [apply nid_in|]. rewrite (i_store _ _ _ HI), ids_plug1. apply elem_of_app. right. apply elem_of_app. by left. }
    assert (Hnt : nid t ∉ ids en).
    { intros Hin. apply (Hfr _ Hin). rewrite (i_store _ _ _ HI), ids_plug1. apply elem_of_app. right. apply elem_of_app. left. apply nid_in. }
    destruct (set_item_ok s1 (cadd en W) t k r j c (nid en) en HI1 Hr Hc Hsub Hnt) as (s' & W1 & t' & E2 & HI2 & Hed2 & R2 & N2 & _); [apply cellish_plain; by rewrite Ee|done|].
    rewrite E2. cbn [fst]. cbn [store s1] in Hed2. rewrite Hed in Hed2.
    apply plug_inj in Hed2; [|rewrite <- (i_store _ _ _ HI); apply HI]. subst W1.
    exists (cadd c W), t'. split_and!; try done; [by constructor|]. rewrite N2. cbn. lia.
  - unfold set_item. unfold abind at 1. rewrite (deref_row _ _ _ _ _ HI1 Hr). unfold abind at 1, alift, py_get. by rewrite Ej.
Qed.

Lemma set_new_pos s W t row col i j e c :
  Inv s W t -> py_index (length (doc_rows t)) row = Some i -> py_index (wid t) col = Some j -> cell_at t i j = Some c ->
  plain e -> is_cell_tag (e_tag e) ->
  exists s' en, set_new (row, col) e s = (s', Ok tt) /\ erase en = e /\ nid en = nxt s /\
    Rch s W t (fun t' => doc_rows t' = put_cell t i j en /\ doc_cols t' = doc_cols t) s'.
Proof.
  intros HI Hi Hj Hc Hp Htag. destruct (new_root_step s W t e HI) as (en & n' & E & Ee & Hid & Hlt & HI1 & Hsub & Hfr & Hed).
  unfold set_new. unfold abind at 1. rewrite E. set (s1 := St (plug (cadd en W) [t]) n' (obj s)) in *.
  assert (Hx : nid en ∉ ids t).
  { intros Hin. apply (Hfr (nid en)); [apply nid_in|]. rewrite (i_store _ _ _ HI), ids_plug1. apply elem_of_app. right. apply elem_of_app. by left. }
  assert (Hnt : nid t ∉ ids en).
  { intros Hin. apply (Hfr _ Hin). rewrite (i_store _ _ _ HI), ids_plug1. apply elem_of_app. right. apply elem_of_app. left. apply nid_in. }
  destruct (set_cell_pos s1 (cadd en W) t row col i j (nid en) en c HI1 Hi Hj Hc Hsub Hnt) as (s' & W1 & t' & E2 & HI2 & Hed2 & R2 & N2 & D1 & D2).
  - by rewrite Ee.
  - by rewrite ltag_erase, Ee.
  - done.
  - cbn [store s1] in Hed2. rewrite Hed in Hed2.
    apply plug_inj in Hed2; [|rewrite <- (i_store _ _ _ HI); apply HI]. subst W1.
    exists s', en. split_and!; try done. exists (cadd c W), t'. split_and!; try done; [by constructor|]. rewrite N2. cbn. lia.
Qed.

(** clear *)
Lemma clear_Ok_inv s W t s' : Inv s W t -> clear s = (s', Ok tt) ->
  reset (Z.of_nat (length (doc_rows t)), Z.of_nat (wid t)) s = (s', Ok tt).
Proof.
  intros HI. unfold clear. unfold abind at 1. rewrite (nrows_eq _ _ _ HI). unfold abind at 1. rewrite (ncols_eq _ _ _ HI).
  by rewrite <- parts_length, parts_rows.
Qed.
Lemma clear_eq s W t : Inv s W t -> clear s = reset (Z.of_nat (length (doc_rows t)), Z.of_nat (wid t)) s.
Proof.
  intros HI. unfold clear. unfold abind at 1. rewrite (nrows_eq _ _ _ HI). unfold abind at 1. rewrite (ncols_eq _ _ _ HI).
  by rewrite <- parts_length, parts_rows.
Qed.
Lemma reset_Keep s W t size s' : Inv s W t -> reset size s = (s', Ok tt) -> Keep s W t s'.
Proof.
  intros HI E. destruct size as [nr nc]. destruct (reset_Ok_inv s W t nr nc s' HI E) as (o & H1 & H2 & H3 & H4).
  destruct (reset_ok s W t o nr nc HI H1 H2 H3 H4) as (s2 & W' & t' & E2 & HI' & Hg & R & _ & N).
  rewrite E in E2. injection E2 as <-. exists W', t'. split_and!; try done. unfold nid at 1. by rewrite R.
Qed.
Lemma set_name_Keep s W t v : Inv s W t -> Keep s W t (set_name v s).1.
Proof.
  intros HI. destruct (decide (normalize_sheet_name v = [])) as [E|E].
  - rewrite set_name_bad by done. exists W, t. split_and!; try done.
  - destruct (set_name_ok s W t v HI E) as (s' & -> & HI' & _ & N). exists W, (renamed (normalize_sheet_name v) t).
    split_and!; try done; [apply renamed_nid|]. cbn. rewrite N. done.
Qed.

Lemma op_Keep s W t o : Inv s W t -> allowed o s -> (forall pos x, o <> OSetOld pos x) -> Keep s W t (run_op o s).1.
Proof.
  intros HI Ha Ho. destruct o; cbn [run_op].
  - eapply Rch_Keep. by apply Any_append_rows.
  - eapply Rch_Keep. by apply Any_insert_rows.
  - eapply Rch_Keep. by apply Any_delete_rows.
  - eapply Rch_Keep. by apply Any_append_columns.
  - eapply Rch_Keep. by apply Any_insert_columns.
  - eapply Rch_Keep. by apply Any_delete_columns.
  - eapply Rch_Keep. by apply set_new_any.
  - by destruct (Ho pos x).
  - eapply Rch_Keep. by apply Any_write_cell.
  - destruct Ha as [s' E]. cbn [run_op] in E. rewrite E. by eapply reset_Keep.
  - destruct Ha as [s' E]. cbn [run_op] in E. rewrite E. eapply reset_Keep; [done|]. by apply (clear_Ok_inv s W t).
  - by apply set_name_Keep.
Qed.
Lemma op_Inv s W t o : Inv s W t -> allowed o s -> exists W' t', Inv (run_op o s).1 W' t' /\ nid t' = nid t.
Proof.
  intros HI Ha. assert (Hd : (exists pos x, o = OSetOld pos x) \/ (forall pos x, o <> OSetOld pos x)).
  { destruct o; try (by right). left. by eexists _, _. }
  destruct Hd as [(pos & x & ->)|Ho].
  - cbn in Ha |- *. rewrite (i_rt _ _ _ HI) in Ha. destruct (set_cell_any s W t pos x HI Ha) as (s' & q & W' & t' & -> & HI' & R & _).
    exists W', t'. split; [done|]. unfold nid. by rewrite R.
  - destruct (op_Keep s W t o HI Ha Ho) as (W' & t' & H1 & _ & H2 & _). eauto.
Qed.

Lemma reach_Inv s s' W t : Inv s W t -> reach s s' -> exists W' t', Inv s' W' t' /\ nid t' = nid t.
Proof.
  intros HI. induction 1 as [s|s1 s2 o _ IH Ha]; [by exists W, t|].
  destruct (IH HI) as (W' & t' & HI' & E). destruct (op_Inv _ _ _ o HI' Ha) as (W2 & t2 & ? & ?).
  exists W2, t2. split; [done|congruence].
Qed.

(** ** loading *)
Lemma load_ok s x V u e1 e strat mc :
  store s = plug V [u] -> nid u = x -> NoDup (ids (store s)) -> Forall (fun y => y < nxt s)%N (ids (store s)) ->
  normalize_table strat mc (erase u) = Ok e1 -> expand_columns strat mc.2 e1 = Ok e -> flat e ->
  exists s' u', load strat mc x s = (s', Ok tt) /\ Inv s' V u' /\ erase u' = e /\ nid u' = x /\ (nxt s <= nxt s')%N.
Proof.
  intros Hst Hx Hnd Hfr E1 E2 Hfl. unfold load. unfold abind at 1. unfold deref. rewrite Hst, <- Hx.
  rewrite sub_plug by (by rewrite <- Hst). unfold abind at 1, alift. rewrite E1. cbn [rbind]. rewrite E2.
  unfold abind at 1, alloc. destruct (label_facts e (nxt s)) as (t' & n' & -> & L1 & L2 & L3 & L4 & L5).
  unfold abind at 1, amod. cbn [store set_nxt].
  set (u' := T (L (nid u) (root e)) (kids t')).
  assert (Eu : erase u' = e). { subst u'. rewrite <- L1. by destruct t'. }
  assert (HF0 : Fr (set_obj (TObj x [] []) s) V u). { constructor; cbn; try done. }
  rewrite (ids_eq t') in L3, L4. apply NoDup_cons in L3 as [_ L3]. apply Forall_cons in L4 as [_ L4].
  destruct (Fr_ids _ _ _ HF0) as [I1 I2]. cbn in I2.
  destruct (Fr_replace (set_obj (TObj x [] []) s) V u u' n' (TObj x [] []) HF0) as [Ed HF1].
  - done.
  - subst u'. rewrite ids_T. apply NoDup_cons. split; [|done]. cbn. intros Hin. rewrite Forall_forall in L4, I2.
    apply L4 in Hin. specialize (I2 _ (nid_in u)). cbn in I2. lia.
  - subst u'. rewrite ids_T. cbn. constructor.
    + split; [left; apply nid_in|]. rewrite Forall_forall in I2. specialize (I2 _ (nid_in u)). cbn in I2. lia.
    + eapply Forall_impl; [exact L4|]. cbn. intros y Hy. split; [right|]; lia.
  - cbn. lia.
  - done.
  - cbn [store set_obj] in Ed. unfold abind at 1, set_store. cbn [nxt set_nxt obj]. rewrite Ed by done.
    unfold set_obj at 1. cbn [store nxt obj].
    rewrite Hx. unfold abind. rewrite (update_rows_Fr _ V u' HF1).
    assert (HF2 : Fr (set_rowc (map nid (ldesc ROW u')) (St (plug V [u']) n' (TObj x [] []))) V u').
    { apply Fr_obj; [done|]. cbn. by rewrite <- Hx. }
    rewrite (update_cols_Fr _ V u' HF2). eexists. exists u'. split; [done|]. split_and!; try done.
    + apply Fr_Inv; [|apply no_nesting_flat; by rewrite Eu|done|done]. apply Fr_obj; [done|]. cbn. by rewrite <- Hx.
    + cbn. lia.
Qed.

Lemma new_table_ok s strat mc v nr nc : NoDup (ids (store s)) -> Forall (fun y => y < nxt s)%N (ids (store s)) ->
  normalize_sheet_name v <> [] -> (1 <= nr)%Z -> (1 <= nc)%Z -> max_ok strat mc ->
  exists s' W t, new_table strat mc v (nr, nc) s = (s', Ok tt) /\ Inv s' W t /\
    pl (root t) = Nd TABLE {["table:name" := normalize_sheet_name v]} None None /\
    is_grid (Z.to_nat nr) (Z.to_nat nc) t /\ nid t = nxt s /\ (nxt s <= nxt s')%N.
Proof.
  intros Hnd Hfr Hv Hr Hc Hm. unfold new_table. unfold abind at 1, new_root. unfold abind at 1, alloc.
  destruct (label_facts (new_elem TABLE) (nxt s)) as (en & n' & -> & L1 & L2 & L3 & L4 & L5).
  unfold abind at 1, amod, aret. cbn [store set_nxt set_store]. unfold set_store. cbn [nxt obj set_nxt].
  set (V := Here (root (store s)) (kids (store s)) []).
  assert (Est : add_root en (store s) = plug V [en]). { destruct (store s). done. }
  assert (P : Permutation (ids (plug V [en])) (ids (store s) ++ ids en)). { by rewrite <- Est, ids_add_root. }
  unfold abind at 1.
  destruct (load_ok (St (add_root en (store s)) n' (obj s)) (nid en) V en (new_elem TABLE) (new_elem TABLE) strat mc)
    as (s1 & u & -> & HI & Eu & Nu & Ln); try done.
  - cbn. rewrite Est, P. apply NoDup_app. split_and!; try done. intros y Hy Hy'. rewrite Forall_forall in L4, Hfr.
    apply L4 in Hy'. apply Hfr in Hy. lia.
  - cbn. rewrite Est, P. apply Forall_app. split; [eapply Forall_impl; [exact Hfr|]|eapply Forall_impl; [exact L4|]]; cbn; lia.
  - rewrite L1. apply (normalize_normal strat mc (new_elem TABLE) 0); try done; by apply Forall_nil_2.
  - by destruct strat.
  - apply Forall_nil_2.
  - destruct (set_metrics_Fr s1 V u v nr nc) as (s2 & t2 & -> & HF2 & R2 & K2 & C1 & C2 & N2); try done.
    + by apply Inv_Fr.
    + apply (f_equal kids) in Eu. rewrite erase_kids in Eu. by destruct (kids u).
    + destruct (grid_is_grid _ _ _ K2) as [G1 G2]. exists s2, V, t2. split_and!; try done.
      * by apply Fr_Inv.
      * rewrite R2. destruct u as [[i a] ks]. cbn in *. injection Eu as -> _. done.
      * unfold nid. rewrite R2. change (nid (renamed (normalize_sheet_name v) u) = nxt s). rewrite renamed_nid. congruence.
      * cbn in Ln. lia.
Qed.

(** a table as the normaliser leaves it *)
Definition normal_table (w : nat) (e : elem) : Prop :=
  e_tag e = TABLE /\ Forall (normal_row w) (descendants ROW e) /\
  Forall (fun c => rep REPC c = Ok 1%Z) (descendants COL e).

Lemma expand_normal strat maxcols e : (strat = ExpandAllLessMaxCount -> (1 < maxcols)%Z) -> flat e ->
  Forall (fun c => rep REPC c = Ok 1%Z) (descendants COL e) -> expand_columns strat maxcols e = Ok e.
Proof.
  intros Hm Hf Hc. destruct (runs_ones _ _ Hc) as (R1 & R2 & R3). unfold expand_columns. rewrite expand_list_ok by done. cbn [rbind].
  rewrite shown_ones by done.
  assert (map (show_run REPC) (runs REPC (descendants COL e)) = map (fun r => [r]) (descendants COL e)) as ->.
  { unfold runs. rewrite map_map. apply map_ext_in. intros c Hin. apply elem_of_list_In in Hin.
    rewrite Forall_forall in Hc. apply Hc in Hin. apply rep_one in Hin as (_ & H1 & H2). unfold show_run. cbn. by rewrite H1, H2. }
  pose proof (rebuild_same COL e []) as Hs. rewrite app_nil_r in Hs. rewrite Hs by by apply flat_flat1. done.
Qed.

Lemma copy_ok s W t strat mc w v n :
  Inv s W t -> max_ok strat mc -> normal_table w (erase t) ->
  (v = Some n \/ v = None /\ exists o, attrs (pl (root t)) !! "table:name" = Some o /\ n = lit "CopyOf" ++ o) ->
  normalize_sheet_name n <> [] ->
  exists s' W' V u u', copy strat mc v s = (s', Ok tt) /\ Inv s' V u /\ Inv (set_obj (obj s) s') W' t /\
    grow W W' /\ Outside W' u /\ Outside V t /\ erase u' = erase t /\ u = renamed (normalize_sheet_name n) u' /\
    (forall x, x ∈ ids u -> x ∉ ids (store s)) /\ (nxt s <= nxt s')%N.
Proof.
  intros HI Hm (Ht & Hr & Hc) Hv Hn.
  assert (Hfl : flat (erase t)) by (apply flat_no_nesting, HI).
  unfold copy. unfold abind at 1, aget. unfold abind at 1. unfold get_name. unfold abind at 1, aget. unfold abind at 1.
  rewrite (deref_table _ _ _ HI). unfold aret. unfold abind at 1. rewrite (deref_table _ _ _ HI). unfold abind at 1.
  destruct (new_root_step s W t (erase t) HI) as (en & n' & -> & Ee & Hid & Hlt & HI1 & Hsub & Hfr & Hed).
  set (V := Here (croot W) (kids (plug W [t])) []).
  assert (EV : forall y, plug (cadd y W) [t] = plug V [y]).
  { intros y. rewrite <- add_root_plug. destruct W; done. }
  unfold abind at 1.
  destruct (load_ok (St (plug (cadd en W) [t]) n' (obj s)) (nid en) V en (erase t) (erase t) strat mc) as (s1 & u1 & -> & HI2 & Eu & Nu & Ln); try done.
  - cbn. apply EV.
  - apply HI1.
  - apply HI1.
  - rewrite Ee. by eapply normalize_normal.
  - apply expand_normal; try done. intros E. by apply Hm in E as [? ?].
  - destruct (set_name_ok s1 V u1 n HI2 Hn) as (s2 & E2 & HI3 & O3 & N3).
    assert (Es : match v with
      | Some n0 => set_name n0
      | None => match attrs (pl (root t)) !! "table:name" with Some o => set_name (lit "CopyOf" ++ o) | None => araise TypeError end
      end s1 = (s2, Ok tt)).
    { destruct Hv as [->|[-> (o & -> & ->)]]; done. }
    exists s2, (cadd (renamed (normalize_sheet_name n) u1) W), V, (renamed (normalize_sheet_name n) u1), u1.
    assert (HI4 : Inv (set_obj (obj s) s2) (cadd (renamed (normalize_sheet_name n) u1) W) t).
    { destruct HI3. constructor; cbn; try apply HI; try done. rewrite EV. done. }
    split; [destruct v as [n0|]; [exact Es|]; destruct (attrs (pl (root t)) !! "table:name"); exact Es|].
    split_and!; try done.
    + by constructor.
    + intros m. exists (Here (croot W) (kids (plug W m)) []). rewrite <- add_root_plug. destruct W; done.
    + intros m. exists (caddl m W). unfold V. cbn. rewrite <- foldl_add_root. rewrite app_nil_r.
      assert (H : forall w : node, T (root w) (kids w ++ m) = foldl (fun w k => add_root k w) w m).
      { clear. induction m as [|k m IH]; intros [a ks]; cbn; [by rewrite app_nil_r|]. rewrite <- IH. cbn. by rewrite <- app_assoc. }
      rewrite <- H. by rewrite root_plug.
    + intros x Hx. rewrite renamed_ids in Hx. pose proof (i_nodup _ _ _ HI2) as Hnd. rewrite (i_store _ _ _ HI2), <- EV, <- add_root_plug, ids_add_root in Hnd.
      apply NoDup_app in Hnd as (_ & Hnd & _). intros Hin. apply (Hnd x); [|done]. by rewrite <- (i_store _ _ _ HI).
    + cbn in Ln. rewrite N3. lia.
Qed.

(** ** two tables *)
Definition Two (s : st) (o2 : tobj) (t u : node) : Prop :=
  exists W V, Inv s W t /\ Inv (set_obj o2 s) V u /\ Outside W u /\ Outside V t.
Lemma Two_sym s o2 t u : Two s o2 t u -> Two (set_obj o2 s) (obj s) u t.
Proof. intros (W & V & H1 & H2 & H3 & H4). exists V, W. split_and!; try done. by destruct s. Qed.
Lemma Two_step s o2 t u o : Two s o2 t u -> allowed o s -> (forall pos x, o <> OSetOld pos x) ->
  exists t', Two (run_op o s).1 o2 t' u.
Proof.
  intros (W & V & H1 & H2 & H3 & H4) Ha Ho. destruct (op_Keep s W t o H1 Ha Ho) as (W' & t' & H5 & H6 & H7 & H8).
  pose proof (Outside_grow _ _ _ H6 H3) as H9. destruct (H9 [t']) as [V' EV].
  exists t', W', V'. split_and!; try done.
  - destruct H2 as [A1 A2 A3 A4 A5 A6 A7], H5 as [B1 B2 B3 B4 B5 B6 B7]. constructor; cbn in *; try done. congruence.
  - intros m. destruct (Outside_apart W' u t' H9) as [X1 X2]; [rewrite <- (i_store _ _ _ H5); apply H5|].
    by apply (two_holes W' V' t' u).
Qed.
Lemma Two_nodes s o2 t u : Two s o2 t u -> table_node s = Some t /\ table_node (set_obj o2 s) = Some u.
Proof. intros (W & V & H1 & H2 & _ & _). split; by eapply Inv_table_node. Qed.
End hist.
