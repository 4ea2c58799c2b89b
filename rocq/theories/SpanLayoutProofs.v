From Verif Require Export SheetProofs CellSpanProofs SpanLayoutSpec.
From Verif Require Import T_Table T_CellSpan T_TableReload.

(** ** areas *)
Lemma corner_in a i j nr nc : good_area nr nc a -> corner a i j -> in_area a i j.
Proof. intros (? & ? & _) [-> ->]. unfold in_area. lia. Qed.
Global Instance corner_dec a i j : Decision (corner a i j).
Proof. unfold corner. apply _. Defined.
Global Instance in_area_dec a i j : Decision (in_area a i j).
Proof. unfold in_area. apply _. Defined.
Lemma role_ex L i j : exists r, role_at L i j r.
Proof.
  destruct (decide (Exists (fun a => corner a i j) L)) as [H|H].
  { apply Exists_exists in H as (a & Ha & Hc). eexists. by apply (ra_corner _ _ _ a). }
  destruct (decide (Exists (fun a => in_area a i j) L)) as [H'|H'].
  - apply Exists_exists in H' as (a & Ha & Hc). exists RCovered. apply (ra_covered _ _ _ a); try done. intros Hd. apply H, Exists_exists. by exists a.
  - exists RFree. constructor. intros a Ha Hi. apply H', Exists_exists. by exists a.
Qed.
Lemma apart_sym a b : apart a b -> apart b a.
Proof. intros H i j Hb Ha. by apply (H i j). Qed.
Lemma good_sub nr nc l a r : good_areas nr nc (l ++ a :: r) -> good_areas nr nc (a :: l ++ r).
Proof.
  intros [H1 H2]. split.
  - apply Forall_app in H1 as [H1 H3]. apply Forall_cons in H3 as [H3 H4]. constructor; [done|]. by apply Forall_app.
  - clear H1. induction l as [|b l IH]; [done|]. inversion H2 as [|? ? Hb Hl]; subst. specialize (IH Hl). inversion IH as [|? ? Ha Hlr]; subst.
    apply Forall_app in Hb as [Hb1 Hb2]. apply Forall_cons in Hb2 as [Hb2 Hb3].
    constructor; [constructor; [by apply apart_sym|done]|]. cbn. constructor; [by apply Forall_app|done].
Qed.
Lemma good_cons nr nc a L : good_areas nr nc (a :: L) -> good_area nr nc a /\ good_areas nr nc L /\ forall b, b ∈ L -> apart a b.
Proof.
  intros [H1 H2]. apply Forall_cons in H1 as [H1 H3]. inversion H2 as [|? ? H4 H5]; subst. split; [done|]. split; [done|]. intros b Hb. rewrite Forall_forall in H4. by apply H4.
Qed.
Lemma good_in nr nc L a : good_areas nr nc L -> a ∈ L -> good_area nr nc a.
Proof. intros [H _] Ha. rewrite Forall_forall in H. by apply H. Qed.
Lemma role_ends L L' i j r : (forall a, a ∈ L <-> a ∈ L') -> role_at L i j r -> role_at L' i j r.
Proof.
  intros H Hr. destruct Hr as [a Ha Hc|a Ha Hi Hc|Hf]; [apply (ra_corner _ _ _ a); [by apply H|done]|apply (ra_covered _ _ _ a); [by apply H|done|done]|].
  constructor. intros a Ha. apply Hf. by apply H.
Qed.

(** ** elements and nodes *)
Lemma erase_tag (x : node) : e_tag (erase x) = ltag x.
Proof. by destruct x as [[? ?] ?]. Qed.
Lemma erase_get k (x : node) : e_get k (erase x) = attrs (pl (root x)) !! k.
Proof. by destruct x as [[? ?] ?]. Qed.
Lemma erase_lon f (x : node) : erase (lon_root f x) = T (f (pl (root x))) (map erase (kids x)).
Proof. by destruct x as [[? ?] ?]. Qed.

Section proofs.
Context `{U : Unicode} `{F : PyFloat}.

Lemma one_spans k (x : node) : says_one k (erase x) <-> spans k (pl (root x)) 1.
Proof.
  unfold says_one, spans. rewrite erase_get. split.
  - intros [H|(v & m & H1 & H2 & H3)]; [by left|right]. exists v, m. split_and!; try done. lia.
  - intros [[H _]|(v & m & H1 & H2 & H3)]; [by left|right]. exists v, m. split_and!; try done. lia.
Qed.
Lemma says_spans k (x : node) n : 1 <= n -> says k (erase x) n -> spans k (pl (root x)) (Z.of_nat n) /\ is_Some (attrs (pl (root x)) !! k).
Proof.
  intros Hn (v & H1 & H2). rewrite erase_get in H1. split; [right|by eexists]. exists v, (Z.of_nat n). split_and!; try done. lia.
Qed.
Lemma plays_cell r e : plays r e -> e_tag e = "table:table-cell" \/ e_tag e = "table:covered-table-cell".
Proof. destruct r; intros [H _]; by auto. Qed.
Lemma span_attr_spans k a n : spans k a n -> span_attr k a = Ok n.
Proof. unfold span_attr. intros [[-> ->]|(v & m & -> & -> & ->)]; done. Qed.
Lemma plays_read nr nc L i j r (x : node) : good_areas nr nc L -> role_at L i j r -> plays r (erase x) ->
  cell_span (pl (root x)) = Ok (span_read r) /\ (is_covered x <-> covered_read r = true).
Proof.
  intros Hg Hr Hp. unfold is_covered, cell_span. destruct r as [h w| |]; destruct Hp as (Ht & H1 & H2); rewrite erase_tag in Ht; rewrite Ht.
  - inversion Hr as [a Ha Hc E1| |]; subst. pose proof (good_in _ _ _ _ Hg Ha) as (G1 & G2 & _).
    apply says_spans in H1 as [H1 _]; [|done]. apply says_spans in H2 as [H2 _]; [|done].
    unfold RSPAN, CSPAN. rewrite (span_attr_spans _ _ _ H1), (span_attr_spans _ _ _ H2). cbn. split; [done|]. by split.
  - apply one_spans in H1, H2. unfold RSPAN, CSPAN. rewrite (span_attr_spans _ _ _ H1), (span_attr_spans _ _ _ H2). by split.
  - apply one_spans in H1, H2. unfold RSPAN, CSPAN. rewrite (span_attr_spans _ _ _ H1), (span_attr_spans _ _ _ H2). split; [done|]. by split.
Qed.

(** ** the whole table *)
Definition laid (L : list area) (t : node) : Prop := forall i j x r, cell_at t i j = Some x -> role_at L i j r -> plays r (erase x).
Lemma merged_sheet s nr nc L : merged s nr nc L -> exists t nm, sheet s t nc /\ length (doc_rows t) = nr /\ length (doc_cols t) = nc /\ laid L t /\
  1 <= nr /\ 1 <= nc /\ ltag t = TABLE /\ all_single t /\ attrs (pl (root t)) !! "table:name" = Some nm /\ normalize_sheet_name nm <> [].
Proof.
  intros (H1 & H2 & (t & nm & T1 & L1 & L2 & R1 & P1 & P2 & A1 & A2) & (t1 & T2 & Tg & Un) & Hg & t2 & T3 & HL).
  rewrite T1 in T2, T3. injection T2 as <-. injection T3 as <-. exists t, nm. apply unrepeated_parts in Un. split; [|by split_and!]. split_and!; try done.
  intros i j x Hx. destruct (role_ex L i j) as [r Hr]. specialize (HL i j x r Hx Hr). apply plays_cell in HL. by rewrite erase_tag in HL.
Qed.
Lemma sheet_merged s t nr nc L nm : sheet s t nc -> length (doc_rows t) = nr -> length (doc_cols t) = nc -> laid L t -> good_areas nr nc L ->
  1 <= nr -> 1 <= nc -> ltag t = TABLE -> all_single t -> attrs (pl (root t)) !! "table:name" = Some nm -> normalize_sheet_name nm <> [] -> merged s nr nc L.
Proof.
  intros (H1 & H2 & H3 & H4 & H5) L1 L2 HL Hg P1 P2 Tg Un A1 A2. split_and!; try done.
  - exists t, nm. by split_and!.
  - exists t. split_and!; try done. by apply unrepeated_parts.
  - by exists t.
Qed.
Lemma changed_single FF t t' : cells_changed FF t t' -> (forall i j x, cell_at t i j = Some x -> single (erase x) -> single (erase (FF i j x))) ->
  all_single t -> all_single t'.
Proof.
  intros C HF [U1 U2]. pose proof C as (_ & C2 & C3 & C4). split; [|by rewrite C2]. apply Forall_lookup. intros i p' Hp'.
  assert (Hl : i < length (doc_rows t)). { rewrite <- (cc_length _ _ _ C). by eapply lookup_lt_Some. }
  apply lookup_lt_is_Some in Hl as [p Hp]. rewrite Forall_lookup in U1. specialize (U1 _ _ Hp) as [S1 S2].
  apply (f_equal (.!! i)) in C3. change (map ?f ?l) with (f <$> l) in C3. rewrite !list_lookup_fmap, Hp, Hp' in C3. cbn in C3. injection C3 as E1 E2 E3.
  split; [by rewrite E2|]. apply Forall_lookup. intros j x' Hx'. specialize (C4 i j). unfold cell_at in C4. rewrite Hp, Hp', Hx' in C4.
  destruct (p_kids p !! j) as [x|] eqn:Ex; [|done]. cbn in C4. injection C4 as ->. apply HF; [unfold cell_at; by rewrite Hp|].
  rewrite Forall_lookup in S2. by eapply S2.
Qed.
Lemma changed_merged FF s s' t t' nr nc L L' : merged s nr nc L -> table_node s = Some t -> sheet s' t' nc -> cells_changed FF t t' -> good_areas nr nc L' ->
  (forall i j x, cell_at t i j = Some x -> single (erase x) -> single (erase (FF i j x))) ->
  (forall i j x r, cell_at t i j = Some x -> role_at L' i j r -> plays r (erase (FF i j x))) -> merged s' nr nc L'.
Proof.
  intros HM Ht Hs' C Hg HS HP. destruct (merged_sheet _ _ _ _ HM) as (t0 & nm & Hs & L1 & L2 & HL & P1 & P2 & Tg & Un & A1 & A2).
  assert (t0 = t) as -> by (destruct Hs as (_ & _ & E & _); rewrite Ht in E; by injection E).
  pose proof C as (C1 & C2 & _ & C4). apply (sheet_merged s' t' nr nc L' nm); try done.
  - by rewrite (cc_length _ _ _ C).
  - by rewrite C2.
  - intros i j x r Hx Hr. rewrite C4 in Hx. destruct (cell_at t i j) as [y|] eqn:Ey; [|done]. cbn in Hx. injection Hx as <-. by apply HP.
  - unfold ltag in *. by rewrite C1.
  - by apply (changed_single FF t).
  - by rewrite C1.
Qed.

(** ** merging and splitting *)
Lemma single_lon f (x : node) : attrs (f (pl (root x))) !! REPC = attrs (pl (root x)) !! REPC -> single (erase x) -> single (erase (lon_root f x)).
Proof. unfold single, no_repeat. intros E H v Hv. apply H. rewrite !erase_get in *. rewrite <- Hv, lon_root_pl. fold REPC. by rewrite E. Qed.
Lemma master_single h w (x : node) : single (erase x) -> single (erase (master h w x)).
Proof. apply single_lon. cbn. by rewrite !lookup_insert_ne. Qed.
Lemma cover_single (x : node) : single (erase x) -> single (erase (cover x)).
Proof. unfold cover. case_decide; [done|]. apply single_lon. cbn. by rewrite !lookup_delete_ne. Qed.
Lemma uncover_single (x : node) : single (erase x) -> single (erase (uncover x)).
Proof. by apply single_lon. Qed.
Lemma unspan_single (x : node) : single (erase x) -> single (erase (unspan x)).
Proof. apply single_lon. cbn. by rewrite !lookup_delete_ne. Qed.

Lemma get_lon k f (x : node) : e_get k (erase (lon_root f x)) = attrs (f (pl (root x))) !! k.
Proof. by rewrite erase_get, lon_root_pl. Qed.
Lemma master_plays h w (x : node) : plays (RCorner h w) (erase (master h w x)).
Proof.
  split; [by rewrite erase_tag; unfold master; rewrite lon_root_tag|]. unfold says, master. rewrite !get_lon. cbn [attrs]. split.
  - rewrite lookup_insert_ne, lookup_insert by done. eexists. split; [done|apply py_int_show_Z].
  - rewrite lookup_insert. eexists. split; [done|apply py_int_show_Z].
Qed.
Lemma cover_plays (x : node) : plays RFree (erase x) -> plays RCovered (erase (cover x)).
Proof.
  intros (Ht & _). rewrite erase_tag in Ht. unfold cover. rewrite decide_False by (rewrite Ht; done).
  split; [by rewrite erase_tag, lon_root_tag|]. unfold says_one. rewrite !get_lon. cbn [attrs]. split; left.
  - do 3 (rewrite lookup_delete_ne by done). by rewrite lookup_delete.
  - do 2 (rewrite lookup_delete_ne by done). by rewrite lookup_delete.
Qed.
Lemma uncover_plays (x : node) : plays RCovered (erase x) -> plays RFree (erase (uncover x)).
Proof.
  intros (Ht & H1 & H2). split; [by rewrite erase_tag; unfold uncover; rewrite lon_root_tag|]. revert H1 H2. unfold says_one, uncover. by rewrite !get_lon, !erase_get.
Qed.
Lemma unspan_plays (x : node) : plays RFree (erase (unspan x)).
Proof.
  split; [by rewrite erase_tag; unfold unspan; rewrite lon_root_tag|]. unfold says_one, unspan. rewrite !get_lon. cbn [attrs]. split; left.
  - rewrite lookup_delete_ne by done. by rewrite lookup_delete.
  - by rewrite lookup_delete.
Qed.

Lemma span_ok s nr nc L a key : merged s nr nc L -> denotes key (Z.of_nat (a_row a)) (Z.of_nat (a_col a)) -> good_areas nr nc (a :: L) ->
  exists s' t t', set_cell_span key (Z.of_nat (a_rows a), Z.of_nat (a_cols a)) s = (s', Ok tt) /\ merged s' nr nc (a :: L) /\ rest_kept s s' /\
    table_node s = Some t /\ table_node s' = Some t' /\
    cells_changed (fun i j x => if decide ((i, j) = (a_row a, a_col a)) then master (a_rows a) (a_cols a) x
                                else if decide (in_rect (a_row a) (a_col a) (a_rows a) (a_cols a) i j) then cover x else x) t t'.
Proof.
  intros HM Hd Hg. destruct (merged_sheet _ _ _ _ HM) as (t & nm & Hs & L1 & L2 & HL & _). pose proof Hs as (_ & _ & Ht & _).
  pose proof (good_cons _ _ _ _ Hg) as ((G1 & G2 & G3 & G4 & G5) & HgL & Hap).
  assert (Hfree : forall i j x, in_area a i j -> cell_at t i j = Some x -> plays RFree (erase x)).
  { intros i j x Hi Hx. apply (HL i j x RFree Hx). constructor. intros b Hb Hbi. by apply (Hap b Hb i j). }
  destruct (C19_set_span s t nc key (a_row a) (a_col a) (a_rows a) (a_cols a) Hs Hd G1 G2 G3) as (s' & t' & E & Hs' & Hk & C & _); [by rewrite L1|done| |].
  { intros i j x Hi Hx. destruct (Hfree i j x Hi Hx) as (_ & H1 & H2). apply one_spans in H1, H2. by split. }
  exists s', t, t'. pose proof Hs' as (_ & _ & Ht' & _). split_and!; try done. eapply (changed_merged _ s s' t t'); try done.
  - intros i j x _ Hx. cbn beta. repeat case_decide; [by apply master_single|by apply cover_single|done].
  - intros i j x r Hx Hr. cbn beta. assert (Hca : corner a i j <-> (i, j) = (a_row a, a_col a)) by (unfold corner; split; [by intros [-> ->]|by intros [= -> ->]]).
    destruct Hr as [b Hb Hc|b Hb Hi Hc|Hf].
    + apply elem_of_cons in Hb as [->|Hb]; [rewrite decide_True by (by apply Hca); apply master_plays|].
      pose proof (corner_in b i j _ _ (good_in _ _ _ _ HgL Hb) Hc) as Hi.
      assert (Hna : ~ in_area a i j) by (intros Ha; by apply (Hap b Hb i j)).
      rewrite decide_False by (intros Ha; apply Hna; apply Hca in Ha; eapply (corner_in a i j nr nc); [by split_and!|done]).
      rewrite decide_False by done. apply (HL i j x _ Hx). by apply ra_corner.
    + apply elem_of_cons in Hb as [->|Hb].
      * rewrite decide_False by (by rewrite <- Hca). rewrite decide_True by done. apply cover_plays. by apply (Hfree i j).
      * assert (Hna : ~ in_area a i j) by (intros Ha; by apply (Hap b Hb i j)).
        rewrite decide_False by (intros Ha; apply Hna; apply Hca in Ha; eapply (corner_in a i j nr nc); [by split_and!|done]).
        rewrite decide_False by done. apply (HL i j x _ Hx). by apply (ra_covered _ _ _ b).
    + assert (Hna : ~ in_area a i j) by (apply Hf; left).
      rewrite decide_False by (intros Ha; apply Hna; apply Hca in Ha; eapply (corner_in a i j nr nc); [by split_and!|done]).
      rewrite decide_False by done. apply (HL i j x _ Hx). constructor. intros b Hb. apply Hf. by right.
Qed.

Lemma unspan_ok s nr nc l a r key : merged s nr nc (l ++ a :: r) -> denotes key (Z.of_nat (a_row a)) (Z.of_nat (a_col a)) ->
  exists s' t t', remove_cell_span key s = (s', Ok tt) /\ merged s' nr nc (l ++ r) /\ rest_kept s s' /\
    table_node s = Some t /\ table_node s' = Some t' /\
    cells_changed (fun i j x => if decide ((i, j) = (a_row a, a_col a)) then unspan x
                                else if decide (in_rect (a_row a) (a_col a) (a_rows a) (a_cols a) i j) then uncover x else x) t t'.
Proof.
  intros HM Hd. destruct (merged_sheet _ _ _ _ HM) as (t & nm & Hs & L1 & L2 & HL & _). pose proof Hs as (_ & _ & Ht & Hrect & _).
  pose proof HM as (_ & _ & _ & _ & Hg & _). pose proof (good_sub _ _ _ _ _ Hg) as Hg1.
  pose proof (good_cons _ _ _ _ Hg1) as ((G1 & G2 & G3 & G4 & G5) & HgL & Hap).
  assert (Hin : a ∈ l ++ a :: r) by (apply elem_of_app; right; left).
  destruct (cell_at_rect nc t (a_row a) (a_col a) Hrect) as [x Hx]; [lia|lia|].
  pose proof (HL _ _ _ _ Hx (ra_corner _ _ _ a Hin (conj eq_refl eq_refl))) as (_ & S1 & S2).
  apply says_spans in S1 as [S1 S3]; [|done]. apply says_spans in S2 as [S2 S4]; [|done].
  destruct (C19_remove_span s t nc key (a_row a) (a_col a) (a_rows a) (a_cols a) x Hs Hd Hx) as (s' & t' & E & Hs' & Hk & C); try done; [by rewrite L1|].
  exists s', t, t'. pose proof Hs' as (_ & _ & Ht' & _). split_and!; try done. eapply (changed_merged _ s s' t t'); try done.
  - intros i j y _ Hy. cbn beta. repeat case_decide; [by apply unspan_single|by apply uncover_single|done].
  - intros i j y ro Hy Hr. cbn beta. assert (Hca : corner a i j <-> (i, j) = (a_row a, a_col a)) by (unfold corner; split; [by intros [-> ->]|by intros [= -> ->]]).
    assert (Hmem : forall b, b ∈ l ++ a :: r <-> b = a \/ b ∈ l ++ r).
    { intros b. rewrite !elem_of_app, elem_of_cons. tauto. }
    destruct (decide (in_area a i j)) as [Hi|Hi].
    + assert (ro = RFree) as ->.
      { destruct Hr as [b Hb Hc|b Hb Hbi Hc|Hf]; [..|done]; exfalso; apply (Hap b Hb i j Hi); [|done].
        apply (corner_in b i j _ _ (good_in _ _ _ _ HgL Hb) Hc). }
      case_decide as D; [apply unspan_plays|]. rewrite decide_True by done. apply uncover_plays. apply (HL i j y _ Hy).
      apply (ra_covered _ _ _ a); try done. by rewrite Hca.
    + rewrite decide_False by (intros Ha; apply Hi; apply Hca in Ha; eapply (corner_in a i j nr nc); [by split_and!|done]).
      rewrite decide_False by done. apply (HL i j y _ Hy). destruct Hr as [b Hb Hc|b Hb Hbi Hc|Hf].
      * apply ra_corner; [|done]. apply Hmem. by right.
      * apply (ra_covered _ _ _ b); try done. apply Hmem. by right.
      * constructor. intros b [->|Hb]%Hmem; [done|by apply Hf].
Qed.

(** ** values *)
Lemma value_ext e e' : kids e = kids e' -> (forall k, k ∈ "office:value-type" :: VKEYS -> e_get k e = e_get k e') -> value e = value e'.
Proof.
  intros Hk Hg. unfold value, value_type. rewrite (Hg "office:value-type") by left. destruct (e_get "office:value-type" e') as [t|]; [|done].
  assert (cell_plaintext e = cell_plaintext e') as -> by (unfold cell_plaintext; by rewrite Hk).
  case_decide; [done|]. destruct (TYPE_VALUE_MAP t) as [k|] eqn:E; [|done]. rewrite (Hg k); [done|]. right. by eapply TVM_keys.
Qed.
Definition same_value (e e' : elem) : Prop := value e' = value e /\ value_type e' = value_type e /\ currency e' = currency e.
Lemma lon_value f (x : node) : (forall k, k ∈ "office:currency" :: "office:value-type" :: VKEYS -> attrs (f (pl (root x))) !! k = attrs (pl (root x)) !! k) ->
  same_value (erase x) (erase (lon_root f x)).
Proof.
  intros H. assert (Hg : forall k, k ∈ "office:currency" :: "office:value-type" :: VKEYS -> e_get k (erase (lon_root f x)) = e_get k (erase x)).
  { intros k Hk. rewrite get_lon, erase_get. by apply H. }
  split; [|split; [apply (Hg "office:value-type"); right; left|apply (Hg "office:currency"); left]].
  apply value_ext; [|intros k Hk; apply Hg; by right]. rewrite erase_lon. by destruct x.
Qed.
Lemma vkey_ne k : k ∈ "office:currency" :: "office:value-type" :: VKEYS ->
  k <> "table:number-rows-spanned" /\ k <> "table:number-columns-spanned" /\ k <> "table:number-matrix-rows-spanned" /\ k <> "table:number-matrix-columns-spanned".
Proof.
  unfold VKEYS. rewrite !elem_of_cons, elem_of_nil. intros [->|[->|[->|[->|[->|[->|[->|[]]]]]]]]; done.
Qed.
Lemma master_value h w (x : node) : same_value (erase x) (erase (master h w x)).
Proof. apply lon_value. intros k (? & ? & ? & ?)%vkey_ne. cbn. by rewrite !lookup_insert_ne. Qed.
Lemma cover_value (x : node) : same_value (erase x) (erase (cover x)).
Proof. unfold cover. case_decide; [done|]. apply lon_value. intros k (? & ? & ? & ?)%vkey_ne. cbn. by rewrite !lookup_delete_ne. Qed.
Lemma uncover_value (x : node) : same_value (erase x) (erase (uncover x)).
Proof. by apply lon_value. Qed.
Lemma unspan_value (x : node) : same_value (erase x) (erase (unspan x)).
Proof. apply lon_value. intros k (? & ? & ? & ?)%vkey_ne. cbn. by rewrite !lookup_delete_ne. Qed.
Lemma changed_values FF s s' t t' nr nc L L' key i j : merged s nr nc L -> merged s' nr nc L' -> table_node s = Some t -> table_node s' = Some t' -> cells_changed FF t t' ->
  (forall i j x, same_value (erase x) (erase (FF i j x))) -> at_cell nr nc key i j ->
  (cell_value key s').2 = (cell_value key s).2 /\ (cell_value_type key s').2 = (cell_value_type key s).2 /\ (cell_currency key s').2 = (cell_currency key s).2.
Proof.
  intros (A1 & A2 & A3 & _) (B1 & B2 & B3 & _) Ht Ht' (_ & _ & _ & C) HF Hk.
  destruct (read_cell s nr nc key i j A1 A2 A3 Hk) as (t0 & x & T1 & Hx & G1 & _). destruct (read_cell s' nr nc key i j B1 B2 B3 Hk) as (t1 & x' & T2 & Hx' & G2 & _).
  rewrite Ht in T1. rewrite Ht' in T2. injection T1 as <-. injection T2 as <-. rewrite C, Hx in Hx'. cbn in Hx'. injection Hx' as <-.
  destruct (HF i j x) as (V1 & V2 & V3). unfold cell_value, cell_value_type, cell_currency, abind, alift, aret. rewrite G1, G2. cbn. by rewrite V1, V2, V3.
Qed.

(** ** writing a value *)
Lemma call_role r (c : call) e : plays r e -> plays r (run_call e c).
Proof.
  destruct c as [v vt cur]. unfold run_call. cbn [c_val c_type c_cur].
  assert (E : e_tag (set_value v vt cur e).1 = e_tag e /\ forall k, k = "table:number-rows-spanned" \/ k = "table:number-columns-spanned" -> e_get k (set_value v vt cur e).1 = e_get k e).
  { assert (HV : forall k, k = "table:number-rows-spanned" \/ k = "table:number-columns-spanned" -> k ∉ VKEYS /\ k <> "office:value-type" /\ k <> "office:currency").
    { intros k [-> | ->]; split_and!; try done; unfold VKEYS; rewrite !elem_of_cons, elem_of_nil; intros H; repeat (destruct H as [H|H]; [done|]); done. }
    destruct (set_value_outcome v vt cur e) as [p|k s t Hw Ht Hv Hs Hk| |]; cbn [fst].
    - split; [apply with_text_shell|]. intros k' (? & ? & ?)%HV. by apply with_text_other.
    - split; [apply with_attr_shell|]. intros k' (? & ? & ?)%HV. apply with_attr_other; try done. by eapply TVM_keys.
    - split; [apply cleared_shell|]. intros k' (? & ? & ?)%HV. by apply cleared_get.
    - done. }
  destruct E as [E1 E2]. unfold plays, says, says_one. by rewrite E1, !E2 by auto.
Qed.
Lemma set_ok s nr nc L key c : merged s nr nc L -> usable nr nc (key, c) -> merged (cell_set_value key (c_val c) (c_type c) (c_cur c) s).1 nr nc L.
Proof.
  intros HM Hu. pose proof HM as (H1 & H2 & H3 & H4 & Hg & t & Ht & HL). pose proof Hu as [(i & j & Hk) Hp]. cbn [fst snd] in Hk, Hp.
  destruct (set_values_ok s nr nc [(key, c)] H1 H2 H3 H4) as (_ & K1 & K2 & K3 & K4 & _); [by constructor|]. cbn [set_values foldl fst snd] in *.
  destruct (read_cell s nr nc key i j H1 H2 H3 Hk) as (t0 & x & T1 & Hx & _). rewrite Ht in T1. injection T1 as <-.
  destruct H3 as (t0 & nm & T0 & L1 & L2 & R1 & _). rewrite Ht in T0. injection T0 as <-.
  destruct (set_value_step s t nr nc key c i j x H1 H2 Ht L1 R1 Hk Hp Hx) as (pos & t' & x' & E & _ & _ & T2 & Hx' & Ex & Ho).
  split_and!; try done. exists t'. rewrite E. cbn [fst]. split; [done|]. intros i' j' y r Hy Hr.
  destruct (decide ((i', j') = (i, j))) as [[= -> ->]|Hne].
  - rewrite Hx' in Hy. injection Hy as <-. rewrite Ex. apply call_role. by apply (HL i j).
  - rewrite Ho in Hy by done. by apply (HL i' j').
Qed.

(** ** rows and columns *)
Definition row_in k n a := Area (later k n (a_row a)) (a_col a) (a_rows a) (a_cols a).
Definition col_in k n a := Area (a_row a) (later k n (a_col a)) (a_rows a) (a_cols a).
Definition row_out k n a := Area (earlier k n (a_row a)) (a_col a) (a_rows a) (a_cols a).
Definition col_out k n a := Area (a_row a) (earlier k n (a_col a)) (a_rows a) (a_cols a).
Ltac areas := unfold in_area, corner, whole_in, whole_out, row_in, col_in, row_out, col_out, later, earlier in *; cbn [a_row a_col a_rows a_cols] in *; repeat case_decide; lia.
(** [g] takes a position in the new table to the old one *)
Lemma role_map (P : area -> Prop) `{!forall a, Decision (P a)} f L i j i' j' r : (forall a, a ∈ L -> P a -> a_rows (f a) = a_rows a /\ a_cols (f a) = a_cols a) ->
  (forall a, a ∈ L -> P a -> in_area (f a) i j <-> in_area a i' j') -> (forall a, a ∈ L -> P a -> corner (f a) i j <-> corner a i' j') ->
  (forall a, a ∈ L -> ~ P a -> ~ in_area a i' j') ->
  role_at (map f (filter P L)) i j r -> role_at L i' j' r.
Proof.
  intros Hs Hi Hc Hn Hr. change (map f) with (fmap (M := list) f) in Hr. destruct Hr as [b Hb Hbc|b Hb Hbi Hbc|Hf].
  - apply elem_of_list_fmap in Hb as (a & -> & [HP Ha]%elem_of_list_filter). destruct (Hs a Ha HP) as [-> ->]. apply ra_corner; [done|]. by apply Hc.
  - apply elem_of_list_fmap in Hb as (a & -> & [HP Ha]%elem_of_list_filter). apply (ra_covered _ _ _ a); [done|by apply Hi|]. by rewrite <- Hc.
  - constructor. intros a Ha Hin. destruct (decide (P a)) as [HP|HP]; [|by apply (Hn a)]. apply (Hf (f a)); [|by apply Hi].
    apply elem_of_list_fmap. exists a. split; [done|]. by apply elem_of_list_filter.
Qed.
Lemma filter_all (L : list area) : filter (fun _ => True) L = L.
Proof. induction L as [|a L IH]; [done|]. by rewrite filter_cons_True, IH. Qed.
Lemma FOP_map_filter (P : area -> Prop) `{!forall a, Decision (P a)} f L : (forall a b, a ∈ L -> b ∈ L -> P a -> P b -> apart a b -> apart (f a) (f b)) ->
  ForallOrdPairs apart L -> ForallOrdPairs apart (map f (filter P L)).
Proof.
  intros Hf HL. induction HL as [|a L Ha _ IH]; [constructor|].
  assert (IH' : ForallOrdPairs apart (map f (filter P L))) by (apply IH; intros x y Hx Hy; apply Hf; by right).
  destruct (decide (P a)) as [HP|HP]; [rewrite filter_cons_True by done|by rewrite filter_cons_False by done]. cbn [map]. constructor; [|done].
  change (map f) with (fmap (M := list) f). apply Forall_fmap, Forall_forall. intros b [HPb Hb]%elem_of_list_filter. cbn.
  apply Hf; try done; [by left|by right|]. rewrite Forall_forall in Ha. by apply Ha.
Qed.
Lemma good_map (P : area -> Prop) `{!forall a, Decision (P a)} f nr nc nr' nc' L : good_areas nr nc L ->
  (forall a, a ∈ L -> P a -> good_area nr nc a -> good_area nr' nc' (f a)) ->
  (forall a b, a ∈ L -> b ∈ L -> P a -> P b -> apart a b -> apart (f a) (f b)) -> good_areas nr' nc' (map f (filter P L)).
Proof.
  intros [H1 H2] Hf Ha. split; [|by apply FOP_map_filter]. change (map f) with (fmap (M := list) f). apply Forall_fmap, Forall_forall.
  intros a [HP Hin]%elem_of_list_filter. cbn. apply Hf; try done. rewrite Forall_forall in H1. by apply H1.
Qed.

Lemma whole_both k x len n : 1 <= len -> whole_in k x len -> forall y, k + n <= y -> later k n x <= y < later k n x + len <-> x <= y - n < x + len.
Proof. intros. areas. Qed.
Section in_out.
Context (nr nc k n : nat) (L : list area) (HG : good_areas nr nc L).
Lemma row_in_good : Forall (fun a => whole_in k (a_row a) (a_rows a)) L -> good_areas (nr + n) nc (map (row_in k n) L).
Proof.
  intros HF. rewrite Forall_forall in HF. rewrite <- (filter_all L) at 1. apply (good_map (fun _ => True) _ nr nc); [done| |].
  - intros a Ha _ (G1 & G2 & G3 & G4 & G5). specialize (HF _ Ha). unfold good_area. split_and!; try done; areas.
  - intros a b Ha Hb _ _ Hap i j Hi Hj. pose proof (HF _ Ha). pose proof (HF _ Hb).
    destruct (decide (i < k)); [apply (Hap i j)|apply (Hap (i - n) j)]; areas.
Qed.
Lemma row_in_role i j r : Forall (fun a => whole_in k (a_row a) (a_rows a)) L -> role_at (map (row_in k n) L) i j r ->
  (i < k -> role_at L i j r) /\ (k + n <= i -> role_at L (i - n) j r) /\ (k <= i < k + n -> r = RFree).
Proof.
  intros HF Hr. rewrite <- (filter_all L) in Hr at 1. rewrite Forall_forall in HF.
  assert (HP : forall a, a ∈ L -> 1 <= a_rows a) by (intros a Ha; by destruct (good_in _ _ _ _ HG Ha)).
  split_and!.
  - intros Hk. eapply (role_map (fun _ => True)); [| | | |exact Hr]; intros a Ha Hp; try done; specialize (HF _ Ha); specialize (HP _ Ha); areas.
  - intros Hk. eapply (role_map (fun _ => True)); [| | | |exact Hr]; intros a Ha Hp; try done; specialize (HF _ Ha); specialize (HP _ Ha); areas.
  - intros Hk. rewrite filter_all in Hr. change (map (row_in k n)) with (fmap (M := list) (row_in k n)) in Hr.
    destruct Hr as [b Hb Hbc|b Hb Hbi Hbc|Hf]; [..|done]; exfalso; apply elem_of_list_fmap in Hb as (a & -> & Ha); specialize (HF _ Ha); specialize (HP _ Ha); areas.
Qed.
Lemma col_in_good : Forall (fun a => whole_in k (a_col a) (a_cols a)) L -> good_areas nr (nc + n) (map (col_in k n) L).
Proof.
  intros HF. rewrite Forall_forall in HF. rewrite <- (filter_all L) at 1. apply (good_map (fun _ => True) _ nr nc); [done| |].
  - intros a Ha _ (G1 & G2 & G3 & G4 & G5). specialize (HF _ Ha). unfold good_area. split_and!; try done; areas.
  - intros a b Ha Hb _ _ Hap i j Hi Hj. pose proof (HF _ Ha). pose proof (HF _ Hb).
    destruct (decide (j < k)); [apply (Hap i j)|apply (Hap i (j - n))]; areas.
Qed.
Lemma col_in_role i j r : Forall (fun a => whole_in k (a_col a) (a_cols a)) L -> role_at (map (col_in k n) L) i j r ->
  (j < k -> role_at L i j r) /\ (k + n <= j -> role_at L i (j - n) r) /\ (k <= j < k + n -> r = RFree).
Proof.
  intros HF Hr. rewrite <- (filter_all L) in Hr at 1. rewrite Forall_forall in HF.
  assert (HP : forall a, a ∈ L -> 1 <= a_cols a) by (intros a Ha; by destruct (good_in _ _ _ _ HG Ha) as (_ & ? & _)).
  split_and!.
  - intros Hk. eapply (role_map (fun _ => True)); [| | | |exact Hr]; intros a Ha Hp; try done; specialize (HF _ Ha); specialize (HP _ Ha); areas.
  - intros Hk. eapply (role_map (fun _ => True)); [| | | |exact Hr]; intros a Ha Hp; try done; specialize (HF _ Ha); specialize (HP _ Ha); areas.
  - intros Hk. rewrite filter_all in Hr. change (map (col_in k n)) with (fmap (M := list) (col_in k n)) in Hr.
    destruct Hr as [b Hb Hbc|b Hb Hbi Hbc|Hf]; [..|done]; exfalso; apply elem_of_list_fmap in Hb as (a & -> & Ha); specialize (HF _ Ha); specialize (HP _ Ha); areas.
Qed.
Lemma row_out_good : Forall (fun a => whole_out k n (a_row a) (a_rows a)) L -> k + n <= nr ->
  good_areas (nr - n) nc (map (row_out k n) (filter (fun a => ~ k <= a_row a < k + n) L)).
Proof.
  intros HF Hkn. rewrite Forall_forall in HF. apply (good_map _ _ nr nc); [done| |].
  - intros a Ha HP (G1 & G2 & G3 & G4 & G5). specialize (HF _ Ha). unfold good_area. split_and!; try done; areas.
  - intros a b Ha Hb HPa HPb Hap i j Hi Hj. pose proof (HF _ Ha). pose proof (HF _ Hb).
    destruct (good_in _ _ _ _ HG Ha) as (? & _). destruct (good_in _ _ _ _ HG Hb) as (? & _).
    destruct (decide (i < k)); [apply (Hap i j)|apply (Hap (i + n) j)]; areas.
Qed.
Lemma row_out_role i j r : Forall (fun a => whole_out k n (a_row a) (a_rows a)) L ->
  role_at (map (row_out k n) (filter (fun a => ~ k <= a_row a < k + n) L)) i j r -> role_at L (if decide (i < k) then i else i + n) j r.
Proof.
  intros HF Hr. rewrite Forall_forall in HF.
  assert (HP : forall a, a ∈ L -> 1 <= a_rows a) by (intros a Ha; by destruct (good_in _ _ _ _ HG Ha)).
  eapply role_map; [| | | |exact Hr]; intros a Ha Hp; try done; specialize (HF _ Ha); specialize (HP _ Ha); areas.
Qed.
Lemma col_out_good : Forall (fun a => whole_out k n (a_col a) (a_cols a)) L -> k + n <= nc ->
  good_areas nr (nc - n) (map (col_out k n) (filter (fun a => ~ k <= a_col a < k + n) L)).
Proof.
  intros HF Hkn. rewrite Forall_forall in HF. apply (good_map _ _ nr nc); [done| |].
  - intros a Ha HP (G1 & G2 & G3 & G4 & G5). specialize (HF _ Ha). unfold good_area. split_and!; try done; areas.
  - intros a b Ha Hb HPa HPb Hap i j Hi Hj. pose proof (HF _ Ha). pose proof (HF _ Hb).
    destruct (good_in _ _ _ _ HG Ha) as (_ & ? & _). destruct (good_in _ _ _ _ HG Hb) as (_ & ? & _).
    destruct (decide (j < k)); [apply (Hap i j)|apply (Hap i (j + n))]; areas.
Qed.
Lemma col_out_role i j r : Forall (fun a => whole_out k n (a_col a) (a_cols a)) L ->
  role_at (map (col_out k n) (filter (fun a => ~ k <= a_col a < k + n) L)) i j r -> role_at L i (if decide (j < k) then j else j + n) r.
Proof.
  intros HF Hr. rewrite Forall_forall in HF.
  assert (HP : forall a, a ∈ L -> 1 <= a_cols a) by (intros a Ha; by destruct (good_in _ _ _ _ HG Ha) as (_ & ? & _)).
  eapply role_map; [| | | |exact Hr]; intros a Ha Hp; try done; specialize (HF _ Ha); specialize (HP _ Ha); areas.
Qed.
End in_out.

Lemma at_place n i k : at_index n i k -> place n i = k /\ k < n.
Proof. unfold at_index, place. intros [[H ->]|[H ->]]; case_decide; lia. Qed.
Lemma empty_plays (x : node) : erase x = new_elem "table:table-cell" -> plays RFree (erase x).
Proof. intros ->. split; [done|]. by split; left. Qed.
Lemma empty_row_cell n p j x : is_empty_row n p -> p_kids p !! j = Some x -> erase x = new_elem "table:table-cell".
Proof.
  intros G Hx. unfold is_empty_row, part_erase in G. injection G as _ G. apply (f_equal (.!! j)) in G. change (map ?f ?l) with (f <$> l) in G.
  rewrite list_lookup_fmap, Hx in G. cbn in G. symmetry in G. by apply lookup_replicate in G as [G _].
Qed.
Lemma rows_in_cell t t' k ps i j x : k <= length (doc_rows t) -> doc_rows t' = take k (doc_rows t) ++ ps ++ drop k (doc_rows t) -> cell_at t' i j = Some x ->
  (i < k /\ cell_at t i j = Some x) \/ (k + length ps <= i /\ cell_at t (i - length ps) j = Some x) \/ (k <= i < k + length ps /\ exists p, p ∈ ps /\ p_kids p !! j = Some x).
Proof.
  intros Hk E Hx. unfold cell_at in Hx. destruct (doc_rows t' !! i) as [p|] eqn:Ep; [|done]. rewrite E in Ep. apply lookup_app_Some in Ep as [Ep|[Hl Ep]].
  - left. apply lookup_take_Some in Ep as [Ep Hi]. split; [done|]. unfold cell_at. by rewrite Ep.
  - rewrite take_length, min_l in Hl, Ep by done. right. apply lookup_app_Some in Ep as [Ep|[Hl2 Ep]].
    + right. split; [split; [done|]; apply lookup_lt_Some in Ep; lia|]. exists p. split; [by eapply elem_of_list_lookup_2|done].
    + left. split; [lia|]. rewrite lookup_drop in Ep. unfold cell_at. replace (i - length ps) with (k + (i - k - length ps)) by lia. by rewrite Ep.
Qed.
Lemma cols_in_cell t t' k n i j x : rect (length (doc_cols t)) t -> k <= length (doc_cols t) -> Forall2 (cells_inserted k n) (doc_rows t) (doc_rows t') -> cell_at t' i j = Some x ->
  (j < k /\ cell_at t i j = Some x) \/ (k + n <= j /\ cell_at t i (j - n) = Some x) \/ (k <= j < k + n /\ erase x = new_elem "table:table-cell").
Proof.
  intros Hr Hk E Hx. unfold cell_at in *. destruct (doc_rows t' !! i) as [p'|] eqn:Ep; [|done].
  destruct (Forall2_lookup_r _ _ _ _ _ E Ep) as (p & Hp & cs & L1 & L2 & ->). rewrite Hp. cbn [p_kids] in Hx.
  assert (Hw : length (p_kids p) = length (doc_cols t)) by (unfold rect in Hr; rewrite Forall_lookup in Hr; by eapply Hr).
  apply lookup_app_Some in Hx as [Hx|[Hl Hx]].
  - left. by apply lookup_take_Some in Hx as [? ?].
  - rewrite take_length, min_l in Hl, Hx by lia. right. apply lookup_app_Some in Hx as [Hx|[Hl2 Hx]].
    + right. split; [split; [done|]; apply lookup_lt_Some in Hx; lia|]. rewrite Forall_lookup in L2. by eapply L2.
    + left. split; [lia|]. rewrite lookup_drop in Hx. rewrite <- Hx. f_equal. lia.
Qed.
Lemma rows_out_cell t t' k n i j x : k + n <= length (doc_rows t) -> doc_rows t' = take k (doc_rows t) ++ drop (k + n) (doc_rows t) -> cell_at t' i j = Some x ->
  cell_at t (if decide (i < k) then i else i + n) j = Some x.
Proof.
  intros Hk E Hx. unfold cell_at in *. destruct (doc_rows t' !! i) as [p|] eqn:Ep; [|done]. rewrite E in Ep. apply lookup_app_Some in Ep as [Ep|[Hl Ep]].
  - apply lookup_take_Some in Ep as [Ep Hi]. rewrite decide_True by done. by rewrite Ep.
  - rewrite take_length, min_l in Hl, Ep by lia. rewrite decide_False by lia. rewrite lookup_drop in Ep. replace (k + n + (i - k)) with (i + n) in Ep by lia. by rewrite Ep.
Qed.
Lemma cols_out_cell t t' k n i j x : rect (length (doc_cols t)) t -> k + n <= length (doc_cols t) -> Forall2 (cells_deleted k n) (doc_rows t) (doc_rows t') -> cell_at t' i j = Some x ->
  cell_at t i (if decide (j < k) then j else j + n) = Some x.
Proof.
  intros Hr Hk E Hx. unfold cell_at in *. destruct (doc_rows t' !! i) as [p'|] eqn:Ep; [|done].
  destruct (Forall2_lookup_r _ _ _ _ _ E Ep) as (p & Hp & ->). rewrite Hp. cbn [p_kids] in Hx.
  assert (Hw : length (p_kids p) = length (doc_cols t)) by (unfold rect in Hr; rewrite Forall_lookup in Hr; by eapply Hr).
  apply lookup_app_Some in Hx as [Hx|[Hl Hx]].
  - apply lookup_take_Some in Hx as [Hx ?]. by rewrite decide_True.
  - rewrite take_length, min_l in Hl, Hx by lia. rewrite decide_False by lia. rewrite lookup_drop in Hx. rewrite <- Hx. f_equal. lia.
Qed.
Lemma grid_laid nr nc t : is_grid nr nc t -> laid [] t.
Proof.
  intros G i j x r Hx Hr. assert (r = RFree) as -> by (destruct Hr as [a Ha|a Ha|]; [by apply elem_of_nil in Ha..|done]).
  apply empty_plays. by eapply grid_cell.
Qed.
Lemma good_nil nr nc : good_areas nr nc []. Proof. split; constructor. Qed.
Lemma good_more nr nc nr' nc' L : good_areas nr nc L -> nr <= nr' -> nc <= nc' -> good_areas nr' nc' L.
Proof. intros [H1 H2] ? ?. split; [|done]. eapply Forall_impl; [exact H1|]. intros a (? & ? & ? & ? & ?). unfold good_area. split_and!; try done; lia. Qed.
Lemma outside_free nr nc L i j r : good_areas nr nc L -> role_at L i j r -> nr <= i \/ nc <= j -> r = RFree.
Proof.
  intros HG Hr Hij. destruct Hr as [a Ha [-> ->]|a Ha Hi _|]; [..|done]; destruct (good_in _ _ _ _ HG Ha) as (? & ? & _ & ? & ?); unfold in_area in *; lia.
Qed.

Lemma op_ok s nr nc L o : merged s nr nc L -> fits o s nr nc -> uncut o nr nc L ->
  exists s', run_op o s = (s', Ok tt) /\ merged s' (size_after o (nr, nc)).1 (size_after o (nr, nc)).2 (areas_after o nr nc L).
Proof.
  intros HM Hf Hu. destruct (merged_sheet _ _ _ _ HM) as (t & nm & (H1 & H2 & Ht & Hr & _) & L1 & L2 & HL & P1 & P2 & Tg & Un & A1 & A2).
  pose proof HM as (_ & _ & H3 & H4 & HG & _).
  destruct (fits_run o s nr nc H1 H2 H3 Hf) as (s' & E & J1 & J2 & J3).
  assert (J4 : expanded s'). { replace s' with (run_op o s).1 by (by rewrite E). apply (fits_clean o s nr nc); try done. by destruct o. }
  assert (Hne : doc_rows t <> []) by (destruct (doc_rows t); cbn in *; [lia|done]).
  assert (Hnc : doc_cols t <> []) by (destruct (doc_cols t); cbn in *; [lia|done]).
  exists s'. split; [done|]. cut (good_areas (size_after o (nr, nc)).1 (size_after o (nr, nc)).2 (areas_after o nr nc L) /\ exists t', table_node s' = Some t' /\ laid (areas_after o nr nc L) t').
  { intros (K1 & K2). by split_and!. }
  destruct o; cbn [fits run_op size_after areas_after uncut fst snd] in *; try done.
  - destruct (C14_append_rows s t nc n H1 H2 Ht Hr Hne Hf) as (s1 & t' & ps & E1 & _ & _ & T1 & _ & N1 & N2 & N3 & N4).
    rewrite E in E1. injection E1 as <-. split; [apply (good_more nr nc); by try lia|]. exists t'. split; [done|]. intros i j x r Hx Hro.
    destruct (rows_in_cell t t' (length (doc_rows t)) ps i j x) as [[K1 K2]|[[K1 K2]|(K1 & p & K2 & K3)]]; try done.
    + by rewrite N3, take_ge, drop_ge, app_nil_r by done.
    + by apply (HL i j).
    + rewrite L1 in K1. unfold cell_at in K2. destruct (doc_rows t !! (i - length ps)) eqn:Ei; [|done]. apply lookup_lt_Some in Ei. lia.
    + assert (r = RFree) as -> by (eapply (outside_free nr nc); try done; lia). apply empty_plays. rewrite Forall_forall in N2. eapply empty_row_cell; [by apply N2|done].
  - destruct Hf as (Hn & k & Hk). destruct (at_place _ _ _ Hk) as [Ep Hkn]. rewrite Ep in *. rewrite <- L1 in Hk.
    destruct (C14_insert_rows s t nc i k n H1 H2 Ht Hr Hk Hn) as (s1 & t' & ps & E1 & _ & _ & T1 & _ & N1 & N2 & N3 & N4).
    rewrite E in E1. injection E1 as <-. split; [by apply row_in_good|]. exists t'. split; [done|]. intros a j x r Hx Hro.
    destruct (row_in_role nr nc k (Z.to_nat n) L HG a j r Hu Hro) as (Q1 & Q2 & Q3). rewrite <- N1 in Q2, Q3.
    destruct (rows_in_cell t t' k ps a j x) as [[K1 K2]|[[K1 K2]|(K1 & p & K2 & K3)]]; try done; [lia| | |].
    + apply (HL _ _ _ _ K2). by apply Q1.
    + apply (HL _ _ _ _ K2). by apply Q2.
    + rewrite (Q3 K1). apply empty_plays. rewrite Forall_forall in N2. eapply empty_row_cell; [by apply N2|done].
  - destruct Hf as (Hn & k & Hk & Hkn). destruct (at_place _ _ _ Hk) as [Ep _]. rewrite Ep in *. rewrite <- L1 in Hk, Hn, Hkn.
    destruct (C14_delete_rows s t i k n H1 H2 Ht Hk Hn Hkn) as (s1 & t' & E1 & _ & _ & T1 & _ & N3 & N4).
    rewrite E in E1. injection E1 as <-. rewrite L1 in Hkn. split; [by apply row_out_good|]. exists t'. split; [done|]. intros a j x r Hx Hro.
    apply (row_out_role nr nc k (Z.to_nat n) L HG a j r Hu) in Hro. apply (rows_out_cell t t' k (Z.to_nat n) a j x) in Hx; try done; [|by rewrite L1]. by apply (HL _ _ _ _ Hx).
  - destruct (C15_append_columns s t n H1 H2 Ht Hnc Hf) as (s1 & t' & ps & E1 & _ & _ & T1 & _ & N1 & _).
    rewrite E in E1. injection E1 as <-. split; [apply (good_more nr nc); by try lia|]. exists t'. split; [done|]. intros i j x r Hx Hro.
    assert (N2 : Forall2 (cells_inserted (length (doc_cols t)) (Z.to_nat n)) (doc_rows t) (doc_rows t')).
    { apply Forall2_same_length_lookup. split; [by eapply Forall2_length|]. intros b p p' Hp Hp'. pose proof (Forall2_lookup_lr _ _ _ _ _ _ N1 Hp Hp') as Hq. cbn in Hq.
      unfold rect in Hr. rewrite Forall_lookup in Hr. rewrite (Hr _ _ Hp), <- L2 in Hq. done. }
    destruct (cols_in_cell t t' (length (doc_cols t)) (Z.to_nat n) i j x) as [[K1 K2]|[[K1 K2]|(K1 & K2)]]; try done; [by rewrite L2| | |].
    + by apply (HL i j).
    + unfold cell_at in K2. destruct (doc_rows t !! i) as [p|] eqn:Ei; [|done]. unfold rect in Hr. rewrite Forall_lookup in Hr. apply lookup_lt_Some in K2. rewrite (Hr _ _ Ei) in K2. lia.
    + assert (r = RFree) as -> by (eapply (outside_free nr nc); try done; lia). by apply empty_plays.
  - destruct Hf as (Hn & k & Hk). destruct (at_place _ _ _ Hk) as [Ep Hkn]. rewrite Ep in *. rewrite <- L2 in Hk, Hr, Hkn.
    destruct (C15_insert_columns s t i k n H1 H2 Ht Hr Hne Hk Hn) as (s1 & t' & ps & E1 & _ & _ & T1 & _ & N1 & _).
    rewrite E in E1. injection E1 as <-. split; [by apply col_in_good|]. exists t'. split; [done|]. intros a j x r Hx Hro.
    destruct (col_in_role nr nc k (Z.to_nat n) L HG a j r Hu Hro) as (Q1 & Q2 & Q3).
    destruct (cols_in_cell t t' k (Z.to_nat n) a j x) as [[K1 K2]|[[K1 K2]|(K1 & K2)]]; try done; [lia| | |].
    + apply (HL _ _ _ _ K2). by apply Q1.
    + apply (HL _ _ _ _ K2). by apply Q2.
    + rewrite (Q3 K1). by apply empty_plays.
  - destruct Hf as (Hn & k & Hk & Hkn). destruct (at_place _ _ _ Hk) as [Ep _]. rewrite Ep in *. rewrite <- L2 in Hk, Hr, Hn, Hkn.
    destruct (C15_delete_columns s t i k n H1 H2 Ht Hr Hne Hk Hn Hkn) as (s1 & t' & E1 & _ & _ & T1 & _ & N1 & _).
    rewrite E in E1. injection E1 as <-. split; [apply col_out_good; [done..|by rewrite <- L2]|]. exists t'. split; [done|]. intros a j x r Hx Hro.
    apply (col_out_role nr nc k (Z.to_nat n) L HG a j r Hu) in Hro. apply (cols_out_cell t t' k (Z.to_nat n) a j x) in Hx; try done. by apply (HL _ _ _ _ Hx).
  - destruct size as [r c]. cbn in Hf. destruct Hf as [F1 F2]. destruct (to_Inv s t H1 H2 Ht) as [W HI].
    destruct (reset_ok s W t nm r c HI A1 A2 F1 F2) as (s1 & W' & t' & E1 & HI' & _ & _ & G & _). rewrite E in E1. injection E1 as <-.
    split; [apply good_nil|]. exists t'. split; [by eapply Inv_table_node|by eapply grid_laid].
  - destruct (to_Inv s t H1 H2 Ht) as [W HI]. rewrite (clear_eq s W t HI) in E.
    destruct (reset_ok s W t nm (Z.of_nat (length (doc_rows t))) (Z.of_nat (wid t)) HI A1 A2) as (s1 & W' & t' & E1 & HI' & _ & _ & G & _); [lia|rewrite (rect_wid nc) by done; lia|]. rewrite E in E1. injection E1 as <-.
    split; [apply good_nil|]. exists t'. split; [by eapply Inv_table_node|by eapply grid_laid].
  - destruct (to_Inv s t H1 H2 Ht) as [W HI]. destruct (set_name_ok s W t v HI Hf) as (s1 & E1 & HI' & _). rewrite E in E1. injection E1 as <-.
    split; [done|]. eexists. split; [by eapply Inv_table_node|]. intros i j x r Hx. apply (HL i j x). unfold cell_at, doc_rows in *. fold ROW in *. by rewrite renamed_ldesc in Hx.
Qed.
End proofs.
