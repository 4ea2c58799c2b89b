(** Vocabulary for tables, independent of the operations. *)
From Verif Require Export Table TableUtilsSpec.

(** ** What a reader of the document finds *)

(** The subtree of the table object. *)
Definition table_node (s : st) : option node := sub (rt (obj s)) (store s).

(** A row or a column: its identity, its tag, attributes and text, and its children.
    The text behind it (white space between rows) is left out. *)
Record part := Part { p_id : N; p_nd : nd; p_kids : list node }.
Definition part_of (r : node) : part := Part (nid r) (nd_set_tail None (pl (root r))) (kids r).
Definition part_erase (p : part) : nd * list elem := (p_nd p, map erase (p_kids p)).

(** rows and columns in document order *)
Definition doc_rows (t : node) : list part := map part_of (ldesc "table:table-row" t).
Definition doc_cols (t : node) : list part := map part_of (ldesc "table:table-column" t).

(** the cell in row [i], column [j] *)
Definition cell_at (t : node) (i j : nat) : option node :=
  match doc_rows t !! i with Some p => p_kids p !! j | None => None end.

(** an empty row of [n] cells, an empty column, as created by the library *)
Definition is_empty_row (n : nat) (p : part) : Prop :=
  part_erase p = (Nd "table:table-row" ∅ None None, replicate n (new_elem "table:table-cell")).
Definition is_empty_col (p : part) : Prop :=
  part_erase p = (Nd "table:table-column" ∅ None None, []).

(** an empty cell, as created by the library *)
Definition empty_cell (c : node) : Prop := erase c = new_elem "table:table-cell".

(** The row [p'] is the row [p] with [n] empty cells before position [k]. *)
Definition cells_inserted (k n : nat) (p p' : part) : Prop :=
  exists cs, length cs = n /\ Forall empty_cell cs /\
    p' = Part (p_id p) (p_nd p) (take k (p_kids p) ++ cs ++ drop k (p_kids p)).
(** The row [p'] is the row [p] without the [n] cells from position [k] on. *)
Definition cells_deleted (k n : nat) (p p' : part) : Prop :=
  p' = Part (p_id p) (p_nd p) (take k (p_kids p) ++ drop (k + n) (p_kids p)).

(** ** Sanity of a store *)

(** no rows and columns inside rows and columns *)
Definition no_nesting (t : node) : Prop :=
  Forall (fun r => ldesc "table:table-row" r = [] /\ ldesc "table:table-column" r = [])
         (ldesc "table:table-row" t ++ ldesc "table:table-column" t).

(** Every node occurs once, ids are below the next one, and the table object refers to
    an element (not to the store itself). *)
Definition sane (s : st) : Prop :=
  NoDup (ids (store s)) /\ Forall (fun x => x < nxt s)%N (ids (store s)) /\
  rt (obj s) <> nid (store s) /\
  exists t, table_node s = Some t /\ no_nesting t.

(** The rows and columns the table object works with are those in the document. *)
Definition in_step (s : st) : Prop :=
  exists t, table_node s = Some t /\
    rowc (obj s) = map nid (ldesc "table:table-row" t) /\
    colc (obj s) = map nid (ldesc "table:table-column" t).

(** all rows have [n] cells *)
Definition rect (n : nat) (t : node) : Prop :=
  Forall (fun p => length (p_kids p) = n) (doc_rows t).

(** neither a row nor a column, and containing none *)
Definition plain (e : elem) : Prop :=
  e_tag e <> "table:table-row" /\ e_tag e <> "table:table-column" /\
  descendants "table:table-row" e = [] /\ descendants "table:table-column" e = [].

(** [k] is the position denoted by the Python index [i] in a sequence of length [n] *)
Definition at_index (n : nat) (i : Z) (k : nat) : Prop :=
  (0 <= i < Z.of_nat n /\ k = Z.to_nat i)%Z \/ (- Z.of_nat n <= i < 0 /\ k = Z.to_nat (i + Z.of_nat n))%Z.

(** an empty table with [nr] rows and [nc] columns *)
Definition is_grid (nr nc : nat) (t : node) : Prop :=
  length (doc_rows t) = nr /\ length (doc_cols t) = nc /\
  Forall (is_empty_row nc) (doc_rows t) /\ Forall is_empty_col (doc_cols t).

(** The store with [m] in the place of the table. *)
Definition around (m : list node) (s : st) : node := edit (rt (obj s)) (fun _ => m) (store s).

(** The table and the table object are as before. *)
Definition unchanged (s s' : st) : Prop := table_node s' = table_node s /\ obj s' = obj s.

Section ops.
Context `{U : Unicode}.

(** placing a new cell *)
Definition set_new (pos : Z * Z) (e : elem) : act st unit := let! x := new_root e in set_cell pos x.

(** The position a cell reference stands for: a pair, or an address such as 'B7'. *)
Definition denotes (key : reference) (r c : Z) : Prop :=
  key = RTuple (r, c) \/ exists w, is_col_name w c /\ (0 <= r)%Z /\ key = RStr (w ++ show_Z (r + 1)).

(** ** operations *)
Inductive op :=
  | OAppendRows (n : Z) | OInsertRows (i n : Z) | ODeleteRows (i n : Z)
  | OAppendCols (n : Z) | OInsertCols (i n : Z) | ODeleteCols (i n : Z)
  | OSetNew (pos : Z * Z) (e : elem) | OSetOld (pos : Z * Z) (x : N)
  | OWrite (pos : Z * Z) (f : elem -> elem)
  | OReset (size : Z * Z) | OClear | OSetName (v : pystr).
Definition run_op (o : op) : act st unit :=
  match o with
  | OAppendRows n => append_rows n | OInsertRows i n => insert_rows i n | ODeleteRows i n => delete_rows i n
  | OAppendCols n => append_columns n | OInsertCols i n => insert_columns i n | ODeleteCols i n => delete_columns i n
  | OSetNew pos e => set_new pos e | OSetOld pos x => set_cell pos x
  | OWrite pos f => write_cell pos f
  | OReset size => reset size | OClear => clear | OSetName v => set_name v
  end.

(** What a cell may be and what a write may do; a reset has to succeed. *)
Definition allowed (o : op) (s : st) : Prop :=
  match o with
  | OSetNew _ e => plain e
  | OSetOld _ x => forall en, sub x (store s) = Some en -> rt (obj s) ∉ ids en /\ plain (erase en)
  | OWrite _ f => forall e, plain e -> plain (f e)
  | OReset _ | OClear => exists s', run_op o s = (s', Ok tt)
  | _ => True
  end.

(** Operations that change one thing at one place. *)
Definition one_step (o : op) : Prop :=
  match o with
  | OAppendRows _ | OInsertRows _ _ | OSetNew _ _ | OSetOld _ _ | OWrite _ _ | OSetName _ => True
  | _ => False
  end.

(** one state after the other *)
Inductive reach : st -> st -> Prop :=
  | reach_refl s : reach s s
  | reach_step s1 s2 o : reach s1 s2 -> allowed o s2 -> reach s1 (run_op o s2).1.

(** ** Sizes *)

(** A table of [nr] rows and [nc] columns with a usable name. *)
Definition sized (s : st) (nr nc : nat) : Prop :=
  exists t o, table_node s = Some t /\ length (doc_rows t) = nr /\ length (doc_cols t) = nc /\ rect nc t /\
    1 <= nr /\ 1 <= nc /\ attrs (pl (root t)) !! "table:name" = Some o /\ normalize_sheet_name o <> [].

(** The arguments of [o] are in range for a table of this size. *)
Definition fits (o : op) (s : st) (nr nc : nat) : Prop :=
  match o with
  | OAppendRows n | OAppendCols n => (1 <= n)%Z
  | OInsertRows i n => (1 <= n)%Z /\ exists k, at_index nr i k
  | OInsertCols i n => (1 <= n)%Z /\ exists k, at_index nc i k
  | ODeleteRows i n => (1 <= n < Z.of_nat nr)%Z /\ exists k, at_index nr i k /\ k + Z.to_nat n <= nr
  | ODeleteCols i n => (1 <= n < Z.of_nat nc)%Z /\ exists k, at_index nc i k /\ k + Z.to_nat n <= nc
  | OSetNew pos e => (exists i j, at_index nr pos.1 i /\ at_index nc pos.2 j) /\ plain e /\ is_cell_tag (e_tag e)
  | OSetOld pos x => (exists i j, at_index nr pos.1 i /\ at_index nc pos.2 j) /\
      exists t en, table_node s = Some t /\ sub x (store s) = Some en /\ plain (erase en) /\ is_cell_tag (ltag en) /\
        x ∉ ids t /\ nid t ∉ ids en
  | OWrite pos f => (exists i j, at_index nr pos.1 i /\ at_index nc pos.2 j) /\ forall e, plain e -> plain (f e)
  | OReset size => (1 <= size.1)%Z /\ (1 <= size.2)%Z
  | OClear => True
  | OSetName v => normalize_sheet_name v <> []
  end.
(** the size afterwards *)
Definition size_after (o : op) (z : nat * nat) : nat * nat :=
  let '(nr, nc) := z in
  match o with
  | OAppendRows n | OInsertRows _ n => (nr + Z.to_nat n, nc)
  | ODeleteRows _ n => (nr - Z.to_nat n, nc)
  | OAppendCols n | OInsertCols _ n => (nr, nc + Z.to_nat n)
  | ODeleteCols _ n => (nr, nc - Z.to_nat n)
  | OReset size => (Z.to_nat size.1, Z.to_nat size.2)
  | _ => (nr, nc)
  end.
Inductive sized_history : st -> nat * nat -> st -> nat * nat -> Prop :=
  | sh_refl s z : sized_history s z s z
  | sh_step s z s1 nr nc o : sized_history s z s1 (nr, nc) -> fits o s1 nr nc ->
      sized_history s z (run_op o s1).1 (size_after o (nr, nc)).

(** No repetition attributes other than '1': what loading leaves. *)
Definition no_repeat (k : string) (e : elem) : Prop := forall s, e_get k e = Some s -> py_int s = Ok 1%Z.
Definition unrepeated (e : elem) : Prop :=
  Forall (fun r => no_repeat "table:number-rows-repeated" r /\
                   Forall (no_repeat "table:number-columns-repeated") (kids r)) (descendants "table:table-row" e) /\
  Forall (no_repeat "table:number-columns-repeated") (descendants "table:table-column" e).

(** Two tables: one object in the state, one beside it; each operation names its table. *)
Definition run2 (b : bool) (o : op) (p : st * tobj) : st * tobj :=
  let '(s, o2) := p in
  if b then (set_obj (obj s) (run_op o (set_obj o2 s)).1, obj (run_op o (set_obj o2 s)).1)
  else ((run_op o s).1, o2).
(** the state seen by the first ([false]) or second ([true]) table object *)
Definition view (b : bool) (p : st * tobj) : st := if b then set_obj p.2 p.1 else p.1.
Definition not_old (o : op) : Prop := match o with OSetOld _ _ => False | _ => True end.
Inductive reach2 : st * tobj -> st * tobj -> Prop :=
  | reach2_refl p : reach2 p p
  | reach2_step p q b o : reach2 p q -> allowed o (view b q) -> not_old o -> reach2 p (run2 b o q).
End ops.
