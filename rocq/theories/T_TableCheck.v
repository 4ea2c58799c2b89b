(** C12, C18: is_consistent, itercells, and columns as items. *)
From Coq Require Import Sorting.Sorted.
From Verif Require Import TableCheck TableMain TableAccess TableReload T_Table.

Lemma same_nodes_eq l xs : length xs = length l -> same_nodes l xs = true <-> l = map nid xs.
Proof.
  revert xs. induction l as [|a l IH]; intros [|x xs] H; try done. cbn. destruct (decide (a <> nid x)) as [E|E].
  - split; [done|]. intros [= ? _]. done.
  - destruct (decide (a = nid x)) as [->|]; [|done]. rewrite IH by (by injection H). split; [by intros ->|by intros [= ?]].
Qed.

(** C12.  The checks of the library say whether the table object is in step. *)
Theorem C12_is_consistent `{Unicode} :
  forall s, is_Some (table_node s) -> exists a b, rows_consistent s = (s, Ok a) /\ cols_consistent s = (s, Ok b) /\ (a && b = true <-> in_step s).
Proof.
  intros s [t Ht]. unfold rows_consistent, cols_consistent, table_rows, table_cols, abind, aget, deref. unfold table_node in Ht. rewrite Ht. eexists _, _. split; [done|]. split; [done|].
  fold ROW COL. set (rs := ldesc ROW t). set (cs := ldesc COL t). unfold in_step, table_node. rewrite Ht. split.
  - destruct (decide (length rs <> _)) as [E|E]; [done|]. destruct (decide (length cs <> _)) as [E'|E']; [by rewrite andb_false_r|]. intros [H1 H2]%andb_prop.
    exists t. split; [done|]. split; (apply same_nodes_eq; [by apply dec_stable|done]).
  - intros (t' & [= <-] & E1 & E2). fold ROW in E1. fold COL in E2. fold rs in E1. fold cs in E2.
    assert (L1 : length rs = length (rowc (obj s))) by (by rewrite E1, map_length). assert (L2 : length cs = length (colc (obj s))) by (by rewrite E2, map_length).
    destruct (decide (length rs <> _)); [done|]. destruct (decide (length cs <> _)); [done|]. apply andb_true_intro. split; by apply same_nodes_eq.
Qed.
Print Assumptions C12_is_consistent.
(** So they always say yes. *)
Theorem C12_always_consistent `{Unicode} :
  forall s s', sane s -> in_step s -> reach s s' -> rows_consistent s' = (s', Ok true) /\ cols_consistent s' = (s', Ok true).
Proof.
  intros s s' H1 H2 Hr. destruct (C12_view_follows_document s s' H1 H2 Hr) as [S' I']. pose proof I' as (t & Ht & _).
  destruct (C12_is_consistent s') as (a & b & -> & -> & E); [by rewrite Ht|]. apply E in I'. apply andb_prop in I' as [-> ->]. done.
Qed.
Print Assumptions C12_always_consistent.

Lemma enumerate_lookup {A} (l : list A) n k x : (k, x) ∈ enumerate n l <-> exists i, k = (n + Z.of_nat i)%Z /\ l !! i = Some x.
Proof.
  revert n. induction l as [|a l IH]; intros n; cbn [enumerate].
  - rewrite elem_of_nil. split; [done|]. intros (i & _ & Hi). done.
  - rewrite elem_of_cons, IH. split.
    + intros [[= -> ->]|(i & -> & Hi)]; [exists 0; split; [lia|done]|exists (S i); split; [lia|done]].
    + intros ([|i] & -> & Hi); [left; injection Hi as ->; f_equal; lia|right; exists i; split; [lia|done]].
Qed.
Definition before (p q : Z * Z) : Prop := (p.1 < q.1 \/ p.1 = q.1 /\ p.2 < q.2)%Z.
Lemma sorted_app {A} (R : A -> A -> Prop) l1 l2 : StronglySorted R l1 -> StronglySorted R l2 -> (forall a b, a ∈ l1 -> b ∈ l2 -> R a b) -> StronglySorted R (l1 ++ l2).
Proof.
  intros H1 H2. induction H1 as [|a l1 H1 IH Ha]; intros H; [done|]. cbn. constructor.
  - apply IH. intros x b Hx Hb. apply H; [by right|done].
  - apply Forall_app. split; [done|]. apply Forall_forall. intros b Hb. apply H; [left|done].
Qed.

(** C18.  itercells gives every position with the cell there, each once, row by row. *)
Theorem C18_itercells `{Unicode} :
  forall s t, sane s -> in_step s -> table_node s = Some t ->
    exists l, itercells s = (s, Ok l) /\ StronglySorted before (map fst l) /\
      forall r c x, (r, c, x) ∈ l <-> exists i j, r = Z.of_nat i /\ c = Z.of_nat j /\ cell_at t i j = Some x.
Proof.
  intros s t H1 H2 Ht. destruct (C12_rows_read s t H1 H2 Ht) as (_ & Hr & _). unfold itercells, abind. rewrite Hr. eexists. split; [done|].
  set (rs := map p_kids (doc_rows t)). split.
  - clearbody rs. clear. generalize 0%Z at 2 as n. induction rs as [|r rs IH]; intros n; cbn [enumerate flat_map map]; [constructor|]. rewrite map_app. apply sorted_app.
    + rewrite map_map. generalize 0%Z as m. induction r as [|x r IHr]; intros m; cbn [enumerate map]; [constructor|]. constructor; [apply IHr|].
      apply Forall_forall. intros q Hq. apply elem_of_list_fmap in Hq as ([k y] & -> & Hk). apply enumerate_lookup in Hk as (i & -> & _). right. cbn. lia.
    + apply IH.
    + intros a b Ha Hb. rewrite map_map in Ha. apply elem_of_list_fmap in Ha as ([k y] & -> & _). apply elem_of_list_fmap in Hb as ([q y'] & -> & Hb).
      apply elem_of_list_In, in_flat_map in Hb as ([k' r'] & Hb & Hq). apply elem_of_list_In in Hb. apply enumerate_lookup in Hb as (i & -> & _).
      apply in_map_iff in Hq as ([k2 y2] & [= <- _] & _). left. cbn. lia.
  - intros r c x. rewrite elem_of_list_In, in_flat_map. split.
    + intros ([k row] & Hk & Hx). apply elem_of_list_In, enumerate_lookup in Hk as (i & -> & Hi). apply in_map_iff in Hx as ([k2 y2] & [= <- <- <-] & Hj).
      apply elem_of_list_In, enumerate_lookup in Hj as (j & -> & Hj). exists i, j. split_and!; [lia|lia|]. unfold cell_at. unfold rs in Hi.
      change (map ?f ?l) with (f <$> l) in Hi. rewrite list_lookup_fmap in Hi. destruct (doc_rows t !! i) as [p|]; [|done]. injection Hi as <-. done.
    + intros (i & j & -> & -> & Hc). unfold cell_at in Hc. destruct (doc_rows t !! i) as [p|] eqn:Ep; [|done]. exists (Z.of_nat i, p_kids p). split.
      * apply elem_of_list_In, enumerate_lookup. exists i. split; [lia|]. unfold rs. change (map ?f ?l) with (f <$> l). by rewrite list_lookup_fmap, Ep.
      * apply in_map_iff. exists (Z.of_nat j, x). split; [done|]. apply elem_of_list_In, enumerate_lookup. exists j. split; [lia|done].
Qed.
Print Assumptions C18_itercells.

(** A row made by the user: that many empty cells. *)
Theorem C18_new_row : forall n, kids (new_table_row n) = replicate (Z.to_nat n) (new_elem "table:table-cell") /\ root (new_table_row n) = Nd "table:table-row" ∅ None None.
Proof.
  intros n. unfold new_table_row. generalize (Z.to_nat n) as k. intros k.
  assert (H : forall l (e : elem), kids (foldl (fun e (_ : nat) => e_append (new_elem CELL) e) e l) = kids e ++ replicate (length l) (new_elem CELL) /\
    root (foldl (fun e (_ : nat) => e_append (new_elem CELL) e) e l) = root e).
  { induction l as [|a l IH]; intros e; cbn [foldl length replicate]; [by rewrite app_nil_r|]. destruct (IH (e_append (new_elem CELL) e)) as [-> ->].
    destruct e as [d ks]. cbn. by rewrite <- app_assoc. }
  destruct (H (seq 0 k) (new_elem ROW)) as [-> ->]. rewrite seq_length. done.
Qed.
Print Assumptions C18_new_row.

(** C12.  Assigning to an item of the column controller: the element that is assigned is copied
    to the place of the column, view and document stay in step, and nothing else changes.  A wrong
    element or index changes nothing. *)
Theorem C12_column_setitem `{Unicode} :
  forall s t pos e, sane s -> in_step s -> table_node s = Some t ->
    (e_tag e <> "table:table-column"%string -> column_setitem pos e s = (s, Err TypeError)) /\
    (e_tag e = "table:table-column"%string -> (forall k, ~ at_index (length (doc_cols t)) pos k) -> column_setitem pos e s = (s, Err IndexError)) /\
    (forall k, e_tag e = "table:table-column"%string -> descendants "table:table-row" e = [] -> descendants "table:table-column" e = [] ->
       at_index (length (doc_cols t)) pos k ->
       exists s' t' new, column_setitem pos e s = (s', Ok tt) /\ sane s' /\ in_step s' /\ table_node s' = Some t' /\ root t' = root t /\
         erase new = e /\ column_getitem pos s' = (s', Ok new) /\
         doc_cols t' = <[k := part_of new]> (doc_cols t) /\ doc_rows t' = doc_rows t /\
         rt (obj s') = rt (obj s) /\ forall m, exists ks, around m s' = T (root (around m s)) (kids (around m s) ++ ks)).
Proof.
  intros s t pos e H1 H2 Ht. destruct (to_Inv s t H1 H2 Ht) as [W HI]. unfold column_setitem. split; [|split].
  - intros He. by rewrite decide_True by done.
  - intros He Hk. rewrite decide_False by (intros Hn; by apply Hn). unfold abind at 1. rewrite (col_ref_eq _ _ _ _ HI).
    destruct (py_get (ldesc COL t) pos) as [c|x] eqn:Eg; [|by apply py_get_Err in Eg as [_ ->]].
    exfalso. apply py_get_Ok in Eg as (k & Ek & _). apply (Hk k). apply at_py. unfold doc_cols. by rewrite map_length.
  - intros k He D1 D2 Hk. rewrite decide_False by (intros Hn; by apply Hn). apply at_py in Hk. unfold doc_cols in Hk. rewrite map_length in Hk. fold COL in Hk.
    destruct (py_get_index _ _ _ Hk) as (old & Ho & Hg).
    destruct (label_facts e (nxt s)) as (new & n' & El & E1 & E2 & N & F & Hlt).
    assert (Hnew : leafy COL new). { pose proof (label_leafy COL e (nxt s) He D1 D2) as Hn. by rewrite El in Hn. }
    destruct (edit_hole s W t COL ROW k old [new] n' other_CR HI Ho) as (t' & A1 & A2 & A3 & A4 & A5 & _ & _ & A8 & A9 & _).
    { by constructor. } { cbn. by rewrite app_nil_r. }
    { cbn. rewrite app_nil_r. apply Forall_forall. intros x Hx. rewrite Forall_forall in F. apply F in Hx. split; [|lia]. right. eapply fresh_notin; [exact HI|lia]. } { lia. }
    specialize (A1 (fun _ => [new]) eq_refl).
    assert (Hp : Permutation (ids (add_root old (edit (nid old) (fun _ => [new]) (store s)))) (ids new ++ ids (store s))).
    { destruct (ldesc_plugged COL t old) as [c Et]; [by eapply elem_of_list_lookup_2|].
      assert (Es : store s = plug (ccomp W c) [old]) by (by rewrite plug_ccomp, <- Et, (i_store _ _ _ HI)). pose proof (i_nodup _ _ _ HI) as Hn. rewrite Es in Hn |- *.
      rewrite edit_plug by done. rewrite ids_add_root, !ids_plug. cbn. rewrite !app_nil_r. solve_Permutation. }
    rewrite A1, add_root_plug in Hp.
    set (s' := St (plug (cadd old W) [t']) n' (set_colc (<[k := nid new]> (colc (obj s))) s).(obj)).
    assert (HI' : Inv s' (cadd old W) t').
    { eapply (Inv_intro s); try done.
      - rewrite Hp. apply NoDup_app. split; [done|]. split; [|apply HI]. intros x Hx. rewrite Forall_forall in F. apply F in Hx. eapply fresh_notin; [exact HI|lia].
      - rewrite Hp. apply Forall_app. split; [eapply Forall_impl; [exact F|]; cbn; lia|]. eapply Forall_impl; [apply HI|]. cbn. lia.
      - cbn. rewrite (i_rows _ _ _ HI), <- parts_rows, parts_ids. by rewrite A4.
      - cbn. rewrite (i_cols _ _ _ HI), <- parts_cols, parts_ids, A3. cbn.
        rewrite <- (insert_take_drop (ldesc COL t) k new) by (by eapply lookup_lt_Some). by rewrite list_fmap_insert. }
    exists s', t', new. destruct (Inv_sane _ _ _ HI') as [S1 S2].
    assert (Hcols : ldesc COL t' = <[k := new]> (ldesc COL t)). { rewrite A3. symmetry. apply insert_take_drop. by eapply lookup_lt_Some. }
    split_and!; try done.
    + unfold abind at 1. rewrite (col_ref_eq _ _ _ _ HI), Hg. unfold abind at 1. unfold alloc. rewrite El. unfold abind at 1, replace_node. cbn [store set_nxt].
      rewrite decide_False by done. rewrite A9. unfold abind, aget. cbn [set_store obj set_nxt]. rewrite (i_cols _ _ _ HI), map_length, Hk. rewrite A1, add_root_plug.
      unfold amod, s'. cbn. by rewrite (i_cols _ _ _ HI).
    + by eapply Inv_table_node.
    + unfold column_getitem, abind. rewrite (col_ref_eq _ _ _ _ HI').
      destruct (py_get_index (ldesc COL t') pos k) as (x & Hx & Hgx). { by rewrite Hcols, insert_length. }
      rewrite Hgx. rewrite (deref_col _ _ _ k x HI' Hx). rewrite Hcols, list_lookup_insert in Hx by (by eapply lookup_lt_Some). by injection Hx as <-.
    + unfold doc_cols. fold COL. rewrite Hcols. by rewrite list_fmap_insert.
    + unfold doc_rows. fold ROW. by rewrite A4.
    + intros m. rewrite (around_eq _ _ _ _ HI), (around_eq _ _ _ _ HI'). apply grow_kids_root. do 2 constructor.
Qed.
Print Assumptions C12_column_setitem.

(** ** A case: the 3 by 3 table of C12. *)
Example C12_check_case : exists t, sane demo /\ in_step demo /\ table_node demo = Some t.
Proof. destruct demo_ok as (t & H1 & H2 & H3 & _). exists t. exact (conj H1 (conj H2 H3)). Qed.
Example C18_iter_case : (let '(_, r) := itercells (U := ascii_unicode) demo in match r with Ok l => map fst l | Err _ => [] end) =
  [(0, 0); (0, 1); (0, 2); (1, 0); (1, 1); (1, 2); (2, 0); (2, 1); (2, 2)]%Z.
Proof. by_vm. Qed.
Definition styled12 : elem := T (Nd "table:table-column" {["table:style-name"%string := lit "co1"]} None None) [].
Example C12_column_case : e_tag styled12 = "table:table-column"%string /\ descendants "table:table-row" styled12 = [] /\ descendants "table:table-column" styled12 = [] /\
  (forall t, table_node demo = Some t -> at_index (length (doc_cols t)) (-1) 2) /\ (column_setitem (-1) styled12 demo).2 = Ok tt /\
  (column_setitem 3 styled12 demo).2 = Err IndexError /\ (column_setitem 0 (new_elem "table:table-row") demo).2 = Err TypeError.
Proof.
  split; [by_vm|]. split; [by_vm|]. split; [by_vm|]. split; [|split; [by_vm|split; by_vm]].
  intros t Ht. assert (E : option_map (fun t => length (doc_cols t)) (table_node demo) = Some 3) by by_vm. rewrite Ht in E. injection E as ->. right. split; [lia|done].
Qed.

(** C12.  The check of the element looks at its tag only: with a column inside the column, view and
    document are no longer in step. *)
Theorem C12_nested_column_counterexample :
  exists (s s' : st) e, sane s /\ in_step s /\ e_tag e = "table:table-column"%string /\ column_setitem 0 e s = (s', Ok tt) /\
    ~ in_step s' /\ cols_consistent s' = (s', Ok false).
Proof.
  set (e := T (Nd "table:table-column" ∅ None None) [styled12]).
  exists demo, (column_setitem 0 e demo).1, e. destruct demo_ok as (t & H1 & H2 & _). split; [exact H1|]. split; [exact H2|]. split; [exact eq_refl|].
  split; [apply pair_by; by_vm|].
  assert (E : (cols_consistent (column_setitem 0 e demo).1).2 = Ok false) by by_vm.
  assert (T1 : is_Some (table_node (column_setitem 0 e demo).1)) by dec_vm.
  destruct (C12_is_consistent (H := ascii_unicode) _ T1) as (a & b & _ & E2 & E3). rewrite E2 in E |- *. injection E as ->. split; [|done].
  intros Hi. apply E3 in Hi. by rewrite andb_false_r in Hi.
Qed.
Print Assumptions C12_nested_column_counterexample.
