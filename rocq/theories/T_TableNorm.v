(** Theorems C09-C11: loading tables with repetition attributes. *)
From Verif Require Import TableNormProofs.

(** C09, for tables with positive repetition counts and without tables inside cells:
    loading succeeds and every row has as many cells as the longest row.  For
    counts below one and nested tables, see the counterexamples. *)
Theorem C09_rectangular `{Unicode} :
  forall st maxcount e, max_ok st maxcount -> good_table e ->
    exists e', normalize_table st maxcount e = Ok e' /\
      length (descendants "table:table-row" e') = height st maxcount e /\
      Forall (fun row => length (kids row) = width st maxcount e) (descendants "table:table-row" e').
Proof.
  intros st mc e Hm Hg. destruct (normalize_table_ok st mc e Hm Hg) as (e' & E & _ & D & _).
  exists e'. split_and!; [done| |].
  - change "table:table-row" with ROW. rewrite D.
    apply (rle_concat_length (fun r => pad (width st mc e) (RO st mc r))).
  - eapply Forall_impl; [exact (normal_rows_out _ _ _ _ Hg D)|]. by intros r (_ & _ & ?).
Qed.
Print Assumptions C09_rectangular.

(** C09 is false for a repetition count of zero: the cell is kept, but counted as none. *)
Definition rep_cell (n : string) : elem := e_set REPC (lit n) new_empty_cell.
Theorem C09_zero_repetition_counterexample :
  exists e e', normalize_table (U := ascii_unicode) ExpandAll (32, 32)%Z e = Ok e' /\
    exists r1 r2, descendants "table:table-row" e' = [r1; r2] /\
      length (kids r1) = 3 /\ length (kids r2) = 2.
Proof.
  exists (T (Nd TABLE ∅ None None)
    [T (Nd ROW ∅ None None) [rep_cell "0"; new_empty_cell];
     T (Nd ROW ∅ None None) [new_empty_cell; new_empty_cell]]).
  eexists. split; [vm_compute; reflexivity|]. eexists _, _. split; [reflexivity|]. done.
Qed.
Print Assumptions C09_zero_repetition_counterexample.

(** C09 is false for tables inside cells: the inner rows count as rows of the outer
    table, so an outer 1x1 table with an inner 1x1 table is seen as two rows. *)
Theorem C09_nested_table_counterexample :
  exists e, normalize_table (U := ascii_unicode) ExpandAll (32, 32)%Z e = Ok e /\
    length (findall "table:table-row" e) = 1 /\ length (get_table_rows e) = 2.
Proof.
  exists (T (Nd TABLE ∅ None None) [T (Nd ROW ∅ None None)
    [T (Nd CELL ∅ None None) [T (Nd TABLE ∅ None None) [T (Nd ROW ∅ None None) [new_empty_cell]]]]]).
  split; [vm_compute; reflexivity|]. done.
Qed.
Print Assumptions C09_nested_table_counterexample.

(** C09: outside that domain loading can also fail: a maximum count of one meets cells
    without the attribute, and a count that is no number is not accepted. *)
Theorem C09_maxcount_one_counterexample :
  exists e, good_table (U := ascii_unicode) e /\
    normalize_table (U := ascii_unicode) ExpandAllLessMaxCount (1, 1)%Z e = Err KeyError.
Proof.
  exists (T (Nd TABLE ∅ None None) [T (Nd ROW ∅ None None) [new_empty_cell]]).
  split; [|vm_compute; reflexivity]. split_and!; [done| |].
  - repeat constructor.
  - constructor; [|constructor]. split; [by intros s ?|]. constructor; [by intros s ?|constructor].
Qed.
Print Assumptions C09_maxcount_one_counterexample.

Theorem C09_bad_number_counterexample :
  exists e, normalize_table (U := ascii_unicode) ExpandAll (32, 32)%Z e = Err ValueError /\
    is_table e = true.
Proof.
  exists (T (Nd TABLE ∅ None None) [T (Nd ROW ∅ None None) [rep_cell "many"]]).
  split; vm_compute; reflexivity.
Qed.
Print Assumptions C09_bad_number_counterexample.

Lemma bare_empty_cell : bare REPC new_empty_cell = new_elem "table:table-cell".
Proof.
  unfold bare, new_empty_cell, new_elem, e_del, on_root, nd_set_attrs. cbn [attrs tag text tail].
  by rewrite delete_empty.
Qed.

(** C10: with strategy 'all', position (i, j) holds the cell that the run-length
    encoding puts there (without its repetition attribute); missing cells of short
    rows are empty; outside height and width there is nothing. *)
Theorem C10_logical_grid `{Unicode} :
  forall maxcount e, good_table e ->
    exists e', normalize_table ExpandAll maxcount e = Ok e' /\
    forall i j, bare "table:number-columns-repeated" <$> plain_cell e' i j =
      match logical_cell ExpandAll maxcount e i j with
      | Some c => Some (bare "table:number-columns-repeated" c)
      | None => if decide (i < height ExpandAll maxcount e /\ j < width ExpandAll maxcount e)
                then Some (new_elem "table:table-cell") else None
      end.
Proof.
  intros mc e Hg. destruct (normalize_table_ok ExpandAll mc e ltac:(done) Hg) as (e' & E & _ & D & _).
  exists e'. split; [done|]. intros i j. etransitivity; [exact (norm_cell _ _ _ _ i j D)|].
  destruct (logical_cell ExpandAll mc e i j); [done|]. by rewrite bare_empty_cell.
Qed.
Print Assumptions C10_logical_grid.

(** C10: the rows keep their attributes, the rest of the table (columns, header
    groups, attributes, text) is unchanged, and no count other than one is left. *)
Theorem C10_frame `{Unicode} :
  forall maxcount e e', good_table e -> normalize_table ExpandAll maxcount e = Ok e' ->
    root e' = root e /\
    without "table:table-row" e' = without "table:table-row" e /\
    descendants "table:table-column" e' = descendants "table:table-column" e /\
    (forall i, (fun r => root (bare "table:number-rows-repeated" r)) <$> plain_row e' i =
               (fun r => root (bare "table:number-rows-repeated" r)) <$> logical_row ExpandAll maxcount e i) /\
    Forall (fun row => rep "table:number-rows-repeated" row = Ok 1%Z /\
              Forall (fun c => rep "table:number-columns-repeated" c = Ok 1%Z) (kids row))
           (descendants "table:table-row" e').
Proof.
  intros mc e e' Hg E. destruct (normalize_table_ok ExpandAll mc e ltac:(done) Hg) as (e1 & E1 & R & D & C & F).
  rewrite E in E1. injection E1 as <-. split_and!; [done| |done| |].
  - by apply (normalize_table_without ExpandAll mc).
  - intros i. rewrite (norm_lookup _ _ _ _ i D). destruct (logical_row ExpandAll mc e i) as [r|]; [|done].
    cbn [fmap option_fmap option_map]. f_equal.
    assert (Hr : forall x y : elem, root x = root y -> root (bare REPR x) = root (bare REPR y)).
    { intros [] []. cbn. by intros ->. }
    transitivity (root (bare REPR (RO ExpandAll mc r))); [by apply Hr|].
    unfold RO, bare. rewrite norm1_bare. by destruct r.
  - eapply Forall_impl; [exact (normal_rows_out _ _ _ _ Hg D)|]. by intros r (? & ? & ?).
Qed.
Print Assumptions C10_frame.

(** C10: a normalised table is left alone, so saving and loading again with any
    strategy changes nothing. *)
Theorem C10_idempotent `{Unicode} :
  forall st st' maxcount maxcount' e e', max_ok st maxcount -> max_ok st' maxcount' -> good_table e ->
    normalize_table st maxcount e = Ok e' -> normalize_table st' maxcount' e' = Ok e'.
Proof.
  intros st st' mc mc' e e' Hm Hm' Hg E.
  destruct (normalize_table_ok st mc e Hm Hg) as (e1 & E1 & R & D & C & F).
  rewrite E in E1. injection E1 as <-. apply (normalize_normal _ _ _ (width st mc e)); [done| |done|].
  - destruct Hg as [Ht _]. unfold e_tag. rewrite R. exact Ht.
  - exact (normal_rows_out _ _ _ _ Hg D).
Qed.
Print Assumptions C10_idempotent.

(** C11: the same for the shortcut strategies, where [logical_cell] reads the runs in
    which the last one (of the row, and of the rows), or the long ones, occur once. *)
Theorem C11_logical_grid `{Unicode} :
  forall st maxcount e, max_ok st maxcount -> good_table e ->
    exists e', normalize_table st maxcount e = Ok e' /\
    without "table:table-row" e' = without "table:table-row" e /\
    forall i j, bare "table:number-columns-repeated" <$> plain_cell e' i j =
      match logical_cell st maxcount e i j with
      | Some c => Some (bare "table:number-columns-repeated" c)
      | None => if decide (i < height st maxcount e /\ j < width st maxcount e)
                then Some (new_elem "table:table-cell") else None
      end.
Proof.
  intros st mc e Hm Hg. destruct (normalize_table_ok st mc e Hm Hg) as (e' & E & _ & D & _).
  exists e'. split_and!; [done|by apply (normalize_table_without st mc)|]. intros i j.
  etransitivity; [exact (norm_cell _ _ _ _ i j D)|]. destruct (logical_cell st mc e i j); [done|]. by rewrite bare_empty_cell.
Qed.
Print Assumptions C11_logical_grid.

(** C11: what the shortcut strategies show of a sequence of runs: counts are one for
    the last run (all_but_last), or for the long runs (all_less_maxcount), and kept
    otherwise; the contents and their order are kept. *)
Theorem C11_runs_shown {A} :
  forall st max (l : list (nat * A)),
    map snd (shown st max l) = map snd l /\
    forall i n x, l !! i = Some (n, x) ->
      shown st max l !! i =
        Some (match st with
              | ExpandAll => n
              | ExpandAllButLast => if decide (S i = length l) then 1 else n
              | ExpandAllLessMaxCount => if decide (max <= Z.of_nat n)%Z then 1 else n
              end, x).
Proof.
  intros st max l. destruct st; cbn.
  - done.
  - split.
    + induction l as [|[n x] [|y l] IH]; [done|done|]. cbn in *. by rewrite IH.
    + induction l as [|[n x] [|y l] IH]; intros i m z H; [done| |].
      * destruct i; [|done]. cbn in *. by simplify_eq.
      * destruct i as [|i]; [cbn in *; by simplify_eq|]. change ((y :: l) !! i = Some (m, z)) in H.
        change (last_once (y :: l) !! i = Some (if decide (S (S i) = S (length (y :: l))) then 1 else m, z)).
        rewrite (IH _ _ _ H). do 2 f_equal. repeat case_decide; lia.
  - split.
    + unfold long_once. rewrite map_map. apply map_ext. intros [n x]. cbn. by case_decide.
    + intros i n x H. unfold long_once. rewrite list_lookup_fmap, H. cbn. by case_decide.
Qed.
Print Assumptions C11_runs_shown.

(** C11: the number of shown column descriptions, and that rows are not touched. *)
Theorem C11_columns `{Unicode} :
  forall st maxcols e, (st = ExpandAllLessMaxCount -> (1 < maxcols)%Z) -> flat e ->
    Forall (good_rep "table:number-columns-repeated") (descendants "table:table-column" e) ->
    exists e', expand_columns st maxcols e = Ok e' /\
      (forall j, bare "table:number-columns-repeated" <$> descendants "table:table-column" e' !! j =
         bare "table:number-columns-repeated" <$>
           rle_lookup (shown st maxcols (runs "table:number-columns-repeated" (descendants "table:table-column" e))) j) /\
      descendants "table:table-row" e' = descendants "table:table-row" e.
Proof.
  intros st mc e Hm Hf Hg. destruct (expand_columns_ok st mc e Hm Hf Hg) as (e' & E & _ & D & R & _).
  exists e'. split_and!; [done| |done]. intros j. change "table:table-column" with COL. rewrite D.
  unfold show_run. rewrite (rle_concat (norm1 REPC)). rewrite <- option_fmap_compose.
  apply option_fmap_ext. intros x. apply norm1_bare.
Qed.
Print Assumptions C11_columns.

(** A table with a repeated row, repeated cells, a short row and a repeated column. *)
Definition example_table : elem :=
  T (Nd TABLE ∅ None None)
    [e_set REPC (lit "3") (new_elem COL);
     T (Nd "table:table-header-rows" ∅ None None)
       [T (Nd ROW {[REPR := lit "2"]} None None) [rep_cell "3"; e_set "x" (lit "a") (rep_cell "1")]];
     T (Nd ROW {[REPR := lit "1000"]} None None) [e_set "x" (lit "b") (rep_cell "2")]].

Lemma good_rep_lit k e s n :
  e_get k e = Some s -> py_int (U := ascii_unicode) s = Ok n -> (1 <= n)%Z ->
  good_rep (U := ascii_unicode) k e.
Proof. intros E Hn Hp s' E'. rewrite E in E'. injection E' as <-. eauto. Qed.

Example C09_C10_C11_case : good_table (U := ascii_unicode) example_table /\
  height (U := ascii_unicode) ExpandAllButLast (32, 32)%Z example_table = 3 /\
  width (U := ascii_unicode) ExpandAll (32, 32)%Z example_table = 4 /\
  logical_cell (U := ascii_unicode) ExpandAllLessMaxCount (32, 32)%Z example_table 2 1 =
    Some (e_set "x" (lit "b") (rep_cell "2")) /\
  logical_cell (U := ascii_unicode) ExpandAllButLast (32, 32)%Z example_table 2 1 = None.
Proof.
  split_and!; try (vm_compute; reflexivity). split_and!; [done| |].
  - repeat constructor.
  - repeat constructor; cbn; (eapply good_rep_lit; [reflexivity|vm_compute; reflexivity|lia]).
Qed.

(** end to end on that table *)
Example C11_case_run :
  (do e' <- normalize_table (U := ascii_unicode) ExpandAllButLast (32, 32)%Z example_table;
   Ok (map (fun r => length (kids r)) (descendants ROW e'))) = Ok [4; 4; 4].
Proof. vm_compute. reflexivity. Qed.
