From Verif Require Export SheetSpec CellsProofs TableReload PagesProofs.
From Verif Require Import T_Table T_Cells T_TableReload.

(** ** cells stay cells *)
Definition leaf (k : elem) : Prop := kids k = [] /\ e_tag k <> "table:table-row" /\ e_tag k <> "table:table-column".
Lemma leaf_tail t k : leaf k -> leaf (e_set_tail t k).
Proof. by destruct k. Qed.
Lemma append_item_leaf e i : ok_item i -> Forall leaf (kids e) -> Forall leaf (kids (append_item e i)).
Proof.
  destruct e as [a ks]. cbn [kids]. intros Hi Hk. destruct i as [s|c]; cbn [append_item].
  - destruct (last ks) as [k|] eqn:El; [|done]. cbn [kids]. apply Forall_app. split; [by apply Forall_take|]. constructor; [|done].
    apply leaf_tail. rewrite Forall_forall in Hk. apply Hk. by apply last_Some_elem_of.
  - cbn [e_append on_kids kids]. apply Forall_app. split; [done|]. constructor; [|done]. cbn in Hi.
    destruct Hi as [[= ->]|[[= ->]|(n & _ & [= ->])]]; unfold leaf, Spaces; try case_decide; split_and!; done.
Qed.
Lemma append_item_tag e i : e_tag (append_item e i) = e_tag e.
Proof. destruct e as [a ks], i as [s|c]; cbn; [destruct (last ks)|]; done. Qed.
Lemma leaves_plain e : Forall leaf (kids e) -> e_tag e <> "table:table-row" -> e_tag e <> "table:table-column" -> plain e.
Proof.
  intros H H1 H2. destruct e as [a ks]. cbn [kids] in H. split_and!; try done;
    (cbn [descendants]; induction H as [|k l (K1 & K2 & K3) _ IH]; [done|]; cbn [flat_map]; rewrite IH;
     [|done|done]; rewrite decide_False by done; destruct k as [b ks']; cbn in K1; subst ks'; done).
Qed.
Lemma para_rowfree `{Unicode} t : plain (new_span "text:p" t []).
Proof.
  apply leaves_plain; [|by rewrite new_span_tag|by rewrite new_span_tag].
  unfold new_span. destruct t as [|x t]; [exact (Forall_nil_2 _)|]. unfold append_text. destruct (encode_canonical (x :: t)) as [Hc _].
  assert (Forall leaf (kids (new_elem "text:p"))) as Hl by exact (Forall_nil_2 _). revert Hl. generalize (new_elem "text:p") as e. induction Hc as [|i l Hi _ IH]; intros e He; [done|].
  cbn [foldl]. apply IH. by apply append_item_leaf.
Qed.
Lemma descendants_kids tg e : descendants tg e = flat_map (fun k => (if decide (e_tag k = tg) then [k] else []) ++ descendants tg k) (kids e).
Proof. by destruct e. Qed.
Section cells.
Context `{U : Unicode} `{F : PyFloat}.
Lemma call_plain (c : call) e : (forall p, c_val c = VWrap p -> plain p) -> plain e -> plain (run_call e c).
Proof.
  destruct c as [v vt cur]. cbn [c_val]. intros Hp He. unfold run_call. cbn [c_val c_type c_cur]. rewrite set_value_eq.
  assert (HE : forall e', e_tag e' = e_tag e -> kids e' = [] -> plain e').
  { intros e' Ht Hk. destruct He as (? & ? & _). unfold plain. rewrite !descendants_kids, Hk, Ht. done. }
  assert (HT : forall p, plain p -> plain (with_text p e)).
  { intros p (P1 & P2 & P3 & P4). destruct He as (? & ? & _). destruct (with_text_shell p e) as (S1 & _). unfold plain. rewrite !descendants_kids, with_text_kids, S1. cbn [flat_map].
    rewrite !decide_False by done. rewrite P3, P4. done. }
  destruct (is_valid_value v) eqn:Ev; [|done]. case_decide as Ht; [|done]. destruct (TVM_valid _ Ht) as [k Hk].
  destruct (convert v (call_type v vt cur)) as [p|s] eqn:Ec.
  - rewrite new_inl. apply HT. destruct v; try (cbn [convert] in Ec; repeat case_decide; try done; injection Ec as <-; apply para_rowfree). cbn in Ec. injection Ec as <-. by apply Hp.
  - rewrite (new_inr _ _ k) by done. destruct s as [|x s]; cbn [fst]; apply HE; [apply cleared_shell|apply cleared_kids|apply with_attr_shell|apply with_attr_kids].
Qed.
Lemma call_single (c : call) e : single e -> single (run_call e c).
Proof.
  unfold single, no_repeat. destruct c as [v vt cur]. unfold run_call. cbn [c_val c_type c_cur].
  assert (K1 : "table:number-columns-repeated" ∉ VKEYS) by dec_vm.
  assert (E : e_get "table:number-columns-repeated" (set_value v vt cur e).1 = e_get "table:number-columns-repeated" e).
  { destruct (set_value_outcome v vt cur e) as [p|k s t Hw Ht Hv Hs Hk| |]; cbn [fst]; [by apply with_text_other| |by apply cleared_get|done].
    apply with_attr_other; try done. by eapply TVM_keys. }
  by rewrite E.
Qed.
Lemma call_refused (c : call) e : ~ acceptable (c_val c) (c_type c) (c_cur c) -> ((forall p, c_val c <> VWrap p) -> ~ written (c_val c) []) -> run_call e c = e.
Proof.
  intros Ha Hw. unfold run_call. destruct (set_value (c_val c) (c_type c) (c_cur c) e) as [e' [[]|x]] eqn:E.
  - destruct Ha. apply (C22_accepted e). by rewrite E.
  - by destruct (C26_rejected e e' _ _ _ x E Hw) as [-> _].
Qed.

(** ** positions *)
Lemma at_cell_inj nr nc key i j i' j' : at_cell nr nc key i j -> at_cell nr nc key i' j' -> i = i' /\ j = j'.
Proof.
  intros (r & c & D & I & J) (r' & c' & D' & I' & J'). apply denotes_index in D, D'. rewrite D in D'. injection D' as <- <-.
  apply at_py in I, J, I', J'. rewrite I in I'. rewrite J in J'. by injection I'; injection J'.
Qed.

(** ** one call *)
Lemma set_value_step s t nr nc key c i j x :
  sane s -> in_step s -> table_node s = Some t -> length (doc_rows t) = nr -> rect nc t -> at_cell nr nc key i j -> (forall p, c_val c = VWrap p -> plain p) ->
  cell_at t i j = Some x ->
  exists pos t' x', cell_set_value key (c_val c) (c_type c) (c_cur c) s = ((run_op (OWrite pos (fun e => run_call e c)) s).1, (set_value (c_val c) (c_type c) (c_cur c) (erase x)).2) /\
    at_index nr pos.1 i /\ at_index nc pos.2 j /\
    table_node (run_op (OWrite pos (fun e => run_call e c)) s).1 = Some t' /\ cell_at t' i j = Some x' /\ erase x' = run_call (erase x) c /\
    (forall i' j', (i', j') <> (i, j) -> cell_at t' i' j' = cell_at t i' j').
Proof.
  intros H1 H2 H3 Hn Hr (r & cc & D & I & J) Hp Hx. subst nr.
  destruct (to_Inv s t H1 H2 H3) as [W HI]. pose proof I as I0. pose proof J as J0. apply at_py in I0, J0.
  assert (Hpl : plain (run_call (erase x) c)).
  { apply call_plain; [done|]. apply cellish_plain. destruct (cell_at_row _ _ _ _ Hx) as (rw & Hrw & Hc). pose proof (row_cellish s W t i rw HI Hrw) as Hcc. rewrite Forall_forall in Hcc. apply Hcc. by eapply elem_of_list_lookup_2. }
  destruct (C16_write s t nc r cc i j x (fun e => run_call e c) H1 H2 H3 Hr I J Hx Hpl) as (s' & t' & x' & E & _ & _ & T1 & _ & T2 & _ & T3 & T4 & _).
  exists (r, cc), t', x'. cbn [run_op]. rewrite E. cbn [fst snd]. split_and!; try done.
  unfold cell_set_value, abind, alift. rewrite (denotes_index _ _ _ D). 
  rewrite (get_cell_eq s W t r cc i j HI I0), Hx.
  - change (fun e => (set_value (c_val c) (c_type c) (c_cur c) e).1) with (fun e => run_call e c). rewrite E. done.
  - rewrite (rect_wid nc); try done. apply py_index_lt in I0. by destruct (doc_rows t); cbn in I0; [lia|].
Qed.

(** ** all calls *)
Lemma calls_at_app nr nc i j ws ws' cs cs' : calls_at nr nc i j ws cs -> calls_at nr nc i j ws' cs' -> calls_at nr nc i j (ws ++ ws') (cs ++ cs').
Proof. induction 1; intros; cbn; [done|constructor; by auto..]. Qed.
Lemma calls_at_fun nr nc i j ws cs cs' : calls_at nr nc i j ws cs -> calls_at nr nc i j ws cs' -> cs = cs'.
Proof. intros H. revert cs'. induction H; inversion 1; subst; try done; f_equal; by auto. Qed.
Lemma calls_at_ex nr nc i j ws : Forall (usable nr nc) ws -> exists cs, calls_at nr nc i j ws cs.
Proof.
  induction 1 as [|w ws [(i' & j' & Hw) _] _ [cs IH]]; [exists []; constructor|].
  destruct (decide ((i', j') = (i, j))) as [[= -> ->]|Hne]; [exists (w.2 :: cs); by constructor|].
  exists cs. constructor; [|done]. intros H. destruct (at_cell_inj _ _ _ _ _ _ _ H Hw) as [-> ->]. done.
Qed.
Lemma set_values_snoc ws w s : set_values (ws ++ [w]) s = (cell_set_value w.1 (c_val w.2) (c_type w.2) (c_cur w.2) (set_values ws s)).1.
Proof. unfold set_values. by rewrite foldl_app. Qed.
Lemma set_values_ok s nr nc ws :
  sane s -> in_step s -> sized s nr nc -> expanded s -> Forall (usable nr nc) ws ->
  let s' := set_values ws s in
  clean_history s (nr, nc) s' (nr, nc) /\ sane s' /\ in_step s' /\ sized s' nr nc /\ expanded s' /\
  forall t i j x cs, table_node s = Some t -> cell_at t i j = Some x -> i < nr -> j < nc -> calls_at nr nc i j ws cs ->
    exists t' x', table_node s' = Some t' /\ cell_at t' i j = Some x' /\ erase x' = foldl run_call (erase x) cs.
Proof.
  intros H1 H2 H3 H4 Hw. cbv zeta. induction ws as [|w ws IH] using rev_ind.
  - split; [constructor|]. split_and!; try done. intros t i j x cs Ht Hx _ _ Hc. inversion Hc; subst. by exists t, x.
  - apply Forall_app in Hw as [Hws Hw]. apply Forall_inv in Hw. destruct (IH Hws) as (I0 & I1 & I2 & I3 & I4 & IH').
    rewrite set_values_snoc. set (s1 := set_values ws s) in *.
    destruct I3 as (t1 & nm & T1 & L1 & L2 & R1 & P1 & P2 & A1 & A2). destruct Hw as [(i0 & j0 & Hw) Hp].
    assert (Hb : i0 < nr /\ j0 < nc). { destruct Hw as (r & c & _ & I & J). apply at_py, py_index_lt in I. by apply at_py, py_index_lt in J. }
    destruct (cell_at_rect nc t1 i0 j0 R1) as [x0 Hx0]; [lia|lia|].
    destruct (set_value_step s1 t1 nr nc w.1 w.2 i0 j0 x0 I1 I2 T1 L1 R1 Hw Hp Hx0) as (pos & t' & x' & E & J1 & J2 & T2 & C1 & C2 & C3).
    rewrite E. cbn [fst]. set (o := OWrite pos (fun e => run_call e w.2)) in *.
    assert (Hf : fits o s1 nr nc). { split; [by exists i0, j0|]. intros e. by apply call_plain. }
    assert (Hcl : clean o s1). { intros e. apply call_single. }
    assert (Hh : clean_history s (nr, nc) (run_op o s1).1 (nr, nc)) by exact (ch_step _ _ _ _ _ o I0 Hf Hcl).
    destruct (clean_history_ok _ _ _ _ Hh H1 H2 H3 H4) as (_ & K1 & K2 & K3 & K4). cbn [fst snd] in K3. split_and!; try done.
    intros t i j x cs Ht Hx Hi Hj Hc. destruct (calls_at_ex nr nc i j ws Hws) as [cs1 Hc1].
    destruct (IH' t i j x cs1 Ht Hx Hi Hj Hc1) as (t1' & x1 & T1' & Hx1 & Ex1). rewrite T1 in T1'. injection T1' as <-.
    exists t'. destruct (decide ((i0, j0) = (i, j))) as [[= -> ->]|Hne].
    + exists x'. split_and!; try done. rewrite Hx0 in Hx1. injection Hx1 as <-.
      assert (Hc2 : calls_at nr nc i j (ws ++ [w]) (cs1 ++ [w.2])) by (apply calls_at_app; [done|constructor; [done|constructor]]).
      rewrite (calls_at_fun _ _ _ _ _ _ _ Hc Hc2), foldl_app. cbn. by rewrite C2, Ex1.
    + exists x1. rewrite C3 by congruence. split_and!; try done.
      assert (Hc2 : calls_at nr nc i j (ws ++ [w]) (cs1 ++ [])). { apply calls_at_app; [done|]. constructor; [|constructor]. intros H. destruct (at_cell_inj _ _ _ _ _ _ _ H Hw) as [-> ->]. done. }
      by rewrite (calls_at_fun _ _ _ _ _ _ _ Hc Hc2), app_nil_r.
Qed.
Lemma read_cell s nr nc key i j : sane s -> in_step s -> sized s nr nc -> at_cell nr nc key i j ->
  exists t x, table_node s = Some t /\ cell_at t i j = Some x /\ table_getitem key s = (s, Ok x) /\ i < nr /\ j < nc.
Proof.
  intros H1 H2 (t & nm & T1 & L1 & L2 & R1 & _) (r & c & D & I & J).
  assert (Hb : i < nr /\ j < nc). { split; [by apply at_py, py_index_lt in I|by apply at_py, py_index_lt in J]. }
  destruct (cell_at_rect nc t i j R1) as [x Hx]; [lia|lia|]. exists t, x. split_and!; try done; try lia. subst nr. by apply (C16_get s t nc key r c i j x).
Qed.
Lemma leaves_calls nr nc i j ws cs : Forall (leaves nr nc i j) ws -> calls_at nr nc i j ws cs -> forall e, foldl run_call e cs = e.
Proof.
  intros H Hc. induction Hc as [|w ws cs Hw Hc IH|w ws cs Hw Hc IH]; intros e; [done| |].
  - apply Forall_cons in H as [Hl H]. cbn [foldl]. destruct Hl as [?|[Ha He]]; [done|]. rewrite call_refused by done. by apply IH.
  - apply Forall_cons in H as [_ H]. by apply IH.
Qed.
End cells.

(** ** the sheets *)
Lemma head_erase tg l : option_map erase (head (filter (fun k => ltag k = tg) l)) = head (filter (fun k => e_tag k = tg) (map erase l)).
Proof.
  induction l as [|k l IH]; [done|]. cbn [map]. rewrite !filter_cons, ltag_erase. by case_decide.
Qed.
Lemma filter_erase tg l : map erase (filter (fun k => ltag k = tg) l) = filter (fun k => e_tag k = tg) (map erase l).
Proof. induction l as [|k l IH]; [done|]. cbn [map]. rewrite !filter_cons, ltag_erase. case_decide; cbn; by rewrite IH. Qed.
Lemma spreadsheet_erase r r2 y : erase r2 = erase r -> spreadsheet_of r = Some y -> exists y2, spreadsheet_of r2 = Some y2 /\ erase y2 = erase y.
Proof.
  intros E. unfold spreadsheet_of. pose proof (head_erase "office:body" (kids r)) as H1. pose proof (head_erase "office:body" (kids r2)) as H2.
  rewrite <- !erase_kids, E in H2. rewrite <- erase_kids, <- H2 in H1.
  destruct (head (filter (fun k => ltag k = "office:body") (kids r))) as [b|]; [|done]. destruct (head (filter (fun k => ltag k = "office:body") (kids r2))) as [b2|]; [|done].
  injection H1 as H1. cbn [mbind option_bind]. intros Hy. pose proof (head_erase "office:spreadsheet" (kids b)) as H3. pose proof (head_erase "office:spreadsheet" (kids b2)) as H4.
  rewrite <- !erase_kids, <- H1 in H4. rewrite <- erase_kids, <- H4, Hy in H3. destruct (head (filter (fun k => ltag k = "office:spreadsheet") (kids b2))) as [y2|]; [|done].
  exists y2. split; [done|]. by injection H3.
Qed.
Lemma kid_ldesc tg k c : c ∈ kids k -> ltag c = tg -> c ∈ ldesc tg k.
Proof.
  intros Hc Ht. destruct k as [a ks]. cbn [kids] in Hc. rewrite ldesc_T. apply elem_of_flat_map. exists c. split; [done|].
  unfold lself. rewrite decide_True by done. by left.
Qed.
Lemma spreadsheet_sub m r y : ordered m -> sub (nid r) (store m) = Some r -> spreadsheet_of r = Some y -> nid y <> nid (store m) /\ sub (nid y) (store m) = Some y.
Proof.
  intros Hn Hr. unfold spreadsheet_of. destruct (head (filter (fun k => ltag k = "office:body") (kids r))) as [b|] eqn:Eb; [|done]. cbn [mbind option_bind]. intros Ey.
  apply head_Some_elem_of, elem_of_list_filter in Eb as [Tb Eb], Ey as [Ty Ey].
  destruct (desc_sub m r b "office:body" Hn Hr) as [_ Hb]; [by apply kid_ldesc|]. apply (desc_sub m b y "office:spreadsheet" Hn Hb). by apply kid_ldesc.
Qed.
Lemma sheets_kids m y : sub (nid y) (store m) = Some y -> xmlchildren (sheets (nid y)) (store m) = filter (fun k => ltag k = "table:table") (kids y).
Proof. intros H. unfold xmlchildren, el_kids. cbn [pc_body sheets childtag]. by rewrite H. Qed.
Lemma name_erase p k k2 : erase k = erase k2 -> pc_name p k = pc_name p k2.
Proof. intros E. unfold pc_name. by rewrite <- !erase_root, E. Qed.
Lemma pc_get_erase (m1 m2 : st) y1 y2 k x1 :
  sub (nid y1) (store m1) = Some y1 -> sub (nid y2) (store m2) = Some y2 -> erase y2 = erase y1 ->
  pc_get (sheets (nid y1)) k (store m1) = (store m1, Ok x1) ->
  exists t1 t2, t1 ∈ filter (fun k => ltag k = "table:table") (kids y1) /\ t2 ∈ filter (fun k => ltag k = "table:table") (kids y2) /\
    nid t1 = x1 /\ erase t2 = erase t1 /\ pc_get (sheets (nid y2)) k (store m2) = (store m2, Ok (nid t2)).
Proof.
  intros H1 H2 E. pose proof (sheets_kids m1 y1 H1) as K1. pose proof (sheets_kids m2 y2 H2) as K2.
  set (l1 := filter (fun k => ltag k = "table:table") (kids y1)) in *. set (l2 := filter (fun k => ltag k = "table:table") (kids y2)) in *.
  assert (El : map erase l2 = map erase l1) by (unfold l1, l2; by rewrite !filter_erase, <- !erase_kids, E).
  assert (Hlk : forall i a, l1 !! i = Some a -> exists b, l2 !! i = Some b /\ erase b = erase a).
  { intros i a Ha. assert (Hb : (erase <$> l2) !! i = Some (erase a)) by (change (map erase l2 !! i = Some (erase a)); rewrite El; change ((erase <$> l1) !! i = Some (erase a)); by rewrite list_lookup_fmap, Ha).
    rewrite list_lookup_fmap in Hb. destruct (l2 !! i) as [b|]; [|done]. exists b. split; [done|]. by injection Hb. }
  assert (Hlen : length l2 = length l1) by (by rewrite <- (map_length erase l2), El, map_length).
  destruct k as [i|s|]; cbn [pc_get]; [| |done].
  - unfold child_by_index. rewrite K1, K2. intros [= Eg]. rewrite py_get_pos in Eg |- *.
    assert (Hpos : forall a, at_pos i l1 = Some a -> exists b, at_pos i l2 = Some b /\ erase b = erase a /\ a ∈ l1 /\ b ∈ l2).
    { intros a. unfold at_pos. rewrite Hlen. repeat case_decide; try done; intros Ea; destruct (Hlk _ _ Ea) as (b & Eb & Ee); exists b;
        (split_and!; [done|done|by eapply elem_of_list_lookup_2|by eapply elem_of_list_lookup_2]). }
    destruct (at_pos i l1) as [a|]; [|done]. destruct (Hpos a eq_refl) as (b & -> & Ee & Ha & Hb). cbn in Eg |- *. injection Eg as <-. exists a, b. by split_and!.
  - unfold child_by_name. rewrite K1, K2. intros [= Eg].
    assert (Hf : match list_find (fun k => pc_name (sheets (nid y1)) k = Some s) l1 with
                 | Some (i, a) => exists b, list_find (fun k => pc_name (sheets (nid y2)) k = Some s) l2 = Some (i, b) /\ a ∈ l1 /\ b ∈ l2 /\ erase b = erase a
                 | None => True end).
    { destruct (list_find (fun k => pc_name (sheets (nid y1)) k = Some s) l1) as [[i a]|] eqn:Ef; [|done]. apply list_find_Some in Ef as (Ea & Pa & Ha).
      destruct (Hlk _ _ Ea) as (b & Eb & Ee). exists b. split_and!; try done; [|by eapply elem_of_list_lookup_2..]. apply list_find_Some. split_and!; [done| |].
      - unfold pc_name in *. cbn [nametag sheets] in *. by rewrite <- erase_root, Ee, erase_root.
      - intros q z Hz Hq. destruct (l1 !! q) as [z1|] eqn:Ez; [|apply lookup_ge_None in Ez; apply lookup_lt_Some in Hz; lia].
        destruct (Hlk _ _ Ez) as (z2 & Ez2 & Ee2). rewrite Hz in Ez2. injection Ez2 as <-. specialize (Ha q z1 Ez Hq).
        unfold pc_name in *. cbn [nametag sheets] in *. by rewrite <- erase_root, Ee2, erase_root. }
    destruct (list_find (fun k => pc_name (sheets (nid y1)) k = Some s) l1) as [[i a]|]; [|done]. destruct Hf as (b & Hf & Ha & Hb & Ee). injection Eg as <-.
    exists a, b. rewrite Hf. by split_and!.
Qed.
Lemma pc_names_erase (m1 m2 : st) y1 y2 : sub (nid y1) (store m1) = Some y1 -> sub (nid y2) (store m2) = Some y2 -> erase y2 = erase y1 ->
  pc_names (sheets (nid y2)) (store m2) = pc_names (sheets (nid y1)) (store m1).
Proof.
  intros H1 H2 E. unfold pc_names. rewrite (sheets_kids m1 y1 H1), (sheets_kids m2 y2 H2).
  assert (El : map erase (filter (fun k => ltag k = "table:table") (kids y2)) = map erase (filter (fun k => ltag k = "table:table") (kids y1))) by (by rewrite !filter_erase, <- !erase_kids, E).
  revert El. generalize (filter (fun k => ltag k = "table:table") (kids y1)) as l1, (filter (fun k => ltag k = "table:table") (kids y2)) as l2.
  induction l1 as [|a l1 IH]; intros [|b l2] El; try done. injection El as E1 E2. cbn [map]. f_equal; [|by apply IH].
  unfold pc_name. cbn [nametag sheets]. by rewrite <- !erase_root, E1.
Qed.
