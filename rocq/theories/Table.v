(** Model of /repo/ezodf/table.py, tablerowcontroller.py, tablecolumncontroller.py.

    A table object refers to its nodes by identity (NodeStore.v).  Simplifications:
    loading gives the nodes below the table new ids (references taken before loading
    are not followed); a normaliser that raises leaves the tree unchanged; the style
    and protection properties are in PropertyMixins. *)
From Verif Require Export NodeStore NodeOrganizer TableUtils TableNorm.

Section table.
Context `{U : Unicode}.

(** *** tablerowcontroller.py *)

(** tableutils.py:65-66 on the store *)
Definition table_rows : act st (list node) :=
  let! s := aget in let! t := deref (rt (obj s)) in aret (ldesc ROW t).
Definition table_cols : act st (list node) :=
  let! s := aget in let! t := deref (rt (obj s)) in aret (ldesc COL t).

(** tablerowcontroller.py:26-27 update *)
Definition update_rows : act st unit :=
  let! l := table_rows in amod (set_rowc (map nid l)).
(** tablecolumncontroller.py:75-76 update *)
Definition update_cols : act st unit :=
  let! l := table_cols in amod (set_colc (map nid l)).

(** tablerowcontroller.py:29-30 nrows *)
Definition nrows : act st Z := let! s := aget in aret (Z.of_nat (length (rowc (obj s)))).
(** tablerowcontroller.py:32-36 ncols *)
Definition ncols : act st Z :=
  let! s := aget in
  match rowc (obj s) with
  | [] => aret 0%Z
  | r :: _ => let! t := deref r in aret (Z.of_nat (length (kids t)))
  end.

(** [self._rows[index]], [self._columns[index]] *)
Definition row_ref (index : Z) : act st N := let! s := aget in alift (py_get (rowc (obj s)) index).
Definition col_ref (index : Z) : act st N := let! s := aget in alift (py_get (colc (obj s)) index).

(** tablerowcontroller.py:46-52 _adjust_negative_indices *)
Definition adjust_negative_indices (pos : Z * Z) : act st (Z * Z) :=
  let '(row, col) := pos in
  let! row := if decide (row < 0)%Z then (let! n := nrows in aret (row + n)%Z) else aret row in
  let! col := if decide (col < 0)%Z then (let! n := ncols in aret (col + n)%Z) else aret col in
  aret (row, col).

(** tablerowcontroller.py:38-40 get_cell *)
Definition ctl_get_cell (pos : Z * Z) : act st node :=
  let! p := adjust_negative_indices pos in let '(row, col) := p in
  let! r := row_ref row in
  let! t := deref r in
  alift (py_get (kids t) col).
(** tablerowcontroller.py:42-44 set_cell *)
Definition ctl_set_cell (pos : Z * Z) (element : N) : act st unit :=
  let! p := adjust_negative_indices pos in let '(row, col) := p in
  let! r := row_ref row in
  set_item r col element.
(** tablerowcontroller.py:54-55 row *)
Definition ctl_row (index : Z) : act st node := let! r := row_ref index in deref r.
(** tablerowcontroller.py:57-58 column *)
Definition ctl_column (index : Z) : act st (list node) :=
  let! s := aget in
  (fix go (l : list N) : act st (list node) :=
     match l with
     | [] => aret []
     | r :: l' =>
         let! t := deref r in
         let! c := alift (py_get (kids t) index) in
         let! cs := go l' in
         aret (c :: cs)
     end) (rowc (obj s)).

(** tablerowcontroller.py:80-84 _build_new_row *)
Definition build_new_row (n : Z) : elem :=
  T (Nd ROW ∅ None None) (replicate (Z.to_nat n) new_empty_cell).

(** nodestructuretags.py:89-103 *)
Definition TABLE_COLUMNS : list string :=
  ["table:table-column-group"; "table:table-columns"; COL; "table:table-header-columns"].
Definition TABLE_ROWS : list string :=
  ["table:table-row-group"; "table:table-rows"; ROW; "table:table-header-rows"; "text:soft-page-break"].
(** nodestructuretags.py:105-111 *)
Definition TABLE_PRELUDE : list string :=
  ["table:table-source"; "office:dde-source"; "table:scenario"; "office:forms"; "table:shapes"].

(** tablerowcontroller.py:86-89 _remove_existing_rows,
    tablecolumncontroller.py:87-90 _remove_existing_columns *)
Definition remove_children (tags : list string) : act st unit :=
  let! s := aget in
  let! t := deref (rt (obj s)) in
  aiter (kids t) (fun child => if decide (ltag child ∈ tags) then remove_node (nid child) else aret tt).

(** tablerowcontroller.py:67-78 reset *)
Definition ctl_reset (size : Z * Z) : act st unit :=
  let! _ := remove_children TABLE_ROWS in
  let '(nr, nc) := size in
  if decide (nr < 1)%Z then araise ValueError
  else if decide (nc < 1)%Z then araise ValueError
  else
    let! s := aget in
    let! _ := arepeat (Z.to_nat nr)
                (let! row := alloc (build_new_row nc) in append_child (rt (obj s)) row) in
    update_rows.

(** tablerowcontroller.py:101-108 append_rows *)
Definition ctl_append_rows (count : Z) : act st unit :=
  if decide (count < 1)%Z then araise ValueError
  else arepeat (Z.to_nat count)
    (let! n := ncols in
     let! newrow := alloc (build_new_row n) in
     let! last_row := row_ref (-1) in
     let! _ := addnext last_row newrow in
     amod (fun s => set_rowc (rowc (obj s) ++ [nid newrow]) s)).

(** tablerowcontroller.py:110-117 insert_rows *)
Definition ctl_insert_rows (index count : Z) : act st unit :=
  if decide (count < 1)%Z then araise ValueError
  else arepeat (Z.to_nat count)
    (let! n := ncols in
     let! newrow := alloc (build_new_row n) in
     let! insert_row := row_ref index in
     let! _ := addprevious insert_row newrow in
     amod (fun s => set_rowc (insert_at (py_insert_pos (length (rowc (obj s))) index) (nid newrow) (rowc (obj s))) s)).

(** [self._rows.pop(index)] *)
Definition pop_row (index : Z) : act st N :=
  let! s := aget in
  match py_index (length (rowc (obj s))) index with
  | None => araise IndexError
  | Some k =>
      let! r := alift (py_get (rowc (obj s)) index) in
      let! _ := amod (set_rowc (delete_at k (rowc (obj s)))) in
      aret r
  end.

(** tablerowcontroller.py:119-127 delete_rows *)
Definition ctl_delete_rows (index count : Z) : act st unit :=
  let! n := nrows in
  if decide (count < 1 \/ count >= n)%Z then araise ValueError
  else
    let index := if decide (index < 0)%Z then (index + n)%Z else index in
    arepeat (Z.to_nat count) (let! delete_row := pop_row index in remove_node delete_row).

(** tablerowcontroller.py:129-134 append_columns *)
Definition ctl_append_columns (count : Z) : act st unit :=
  if decide (count < 1)%Z then araise ValueError
  else
    let! s := aget in
    aiter (rowc (obj s)) (fun row =>
      arepeat (Z.to_nat count) (let! c := alloc new_empty_cell in append_child row c)).

(** tablerowcontroller.py:136-144 insert_columns *)
Definition ctl_insert_columns (index count : Z) : act st unit :=
  if decide (count < 1)%Z then araise ValueError
  else
    let! n := ncols in
    let index := if decide (index < 0)%Z then (index + n)%Z else index in
    let! s := aget in
    aiter (rowc (obj s)) (fun row =>
      arepeat (Z.to_nat count) (let! c := alloc new_empty_cell in insert_child row index c)).

(** tablerowcontroller.py:146-154 delete_columns *)
Definition ctl_delete_columns (index count : Z) : act st unit :=
  let! n := ncols in
  if decide (count < 1 \/ count >= n)%Z then araise ValueError
  else
    let index := if decide (index < 0)%Z then (index + n)%Z else index in
    let! s := aget in
    aiter (rowc (obj s)) (fun row => arepeat (Z.to_nat count) (delete_child row index)).

(** *** tablecolumncontroller.py *)

(** tablecolumncontroller.py:18-19 new_empty_column *)
Definition new_empty_column : elem := new_elem COL.

(** tablecolumncontroller.py:78-85 reset; nodeorganizer.py:128-135 with no tag is the
    count of the prelude block *)
Definition ctl_reset_columns (n : Z) : act st unit :=
  if decide (n < 1)%Z then araise ValueError
  else
    let! _ := remove_children TABLE_COLUMNS in
    let! s := aget in
    let! t := deref (rt (obj s)) in
    let insert_position := count_tags_in_block TABLE_PRELUDE (map ltag (kids t)) in
    let! _ := arepeat (Z.to_nat n)
                (let! c := alloc new_empty_column in
                 insert_child (rt (obj s)) (Z.of_nat insert_position) c) in
    update_cols.

(** tablecolumncontroller.py:131-137 append *)
Definition ctl_append_cols (count : Z) : act st unit :=
  if decide (count < 1)%Z then araise ValueError
  else arepeat (Z.to_nat count)
    (let! column := alloc new_empty_column in
     let! last_column := col_ref (-1) in
     let! _ := addnext last_column column in
     amod (fun s => set_colc (colc (obj s) ++ [nid column]) s)).

(** tablecolumncontroller.py:139-148 insert *)
Definition ctl_insert_cols (index count : Z) : act st unit :=
  if decide (count < 1)%Z then araise ValueError
  else
    let! s := aget in
    let index := if decide (index < 0)%Z then (index + Z.of_nat (length (colc (obj s))))%Z else index in
    arepeat (Z.to_nat count)
      (let! column := alloc new_empty_column in
       let! insertpos := col_ref index in
       let! _ := addprevious insertpos column in
       amod (fun s => set_colc (insert_at (py_insert_pos (length (colc (obj s))) index) (nid column) (colc (obj s))) s)).

(** tablecolumncontroller.py:150-158 delete *)
Definition ctl_delete_cols (index count : Z) : act st unit :=
  if decide (count < 1)%Z then araise ValueError
  else
    let! s := aget in
    let index := if decide (index < 0)%Z then (index + Z.of_nat (length (colc (obj s))))%Z else index in
    arepeat (Z.to_nat count)
      (let! column := col_ref index in
       let! _ := remove_node column in
       let! s := aget in
       match py_index (length (colc (obj s))) index with
       | Some k => amod (set_colc (delete_at k (colc (obj s))))
       | None => araise IndexError
       end).

(** *** table.py *)

(** table.py:66-70 _normalize_sheet_name: tab, carriage return and both quotes *)
Definition normalize_sheet_name (name : pystr) : pystr :=
  py_strip (foldl (fun s subst => replace_char subst 32%N s) name [9; 13; 39; 34]%N).

(** table.py:62-64 name setter with base.py:120-125 set_attr *)
Definition set_name (value : pystr) : act st unit :=
  let! s := aget in
  match normalize_sheet_name value with
  | [] => araise ValueError
  | n => amod (fun s => set_store (edit (rt (obj s))
            (fun k => [lon_root (fun a => nd_set_attrs (<["table:name" := n]> (attrs a)) a) k]) (store s)) s)
  end.
(** table.py:59-61 name *)
Definition get_name : act st (option pystr) :=
  let! s := aget in
  let! t := deref (rt (obj s)) in aret (attrs (pl (root t)) !! "table:name").

(** table.py:30-45 Table(xmlnode=...): normalise, build the caches *)
Definition load (strat : strategy) (maxcount : Z * Z) (x : N) : act st unit :=
  let! t := deref x in
  let! e := alift (do e1 <- normalize_table strat maxcount (erase t); expand_columns strat maxcount.2 e1) in
  let! t' := alloc e in
  let! _ := amod (fun s => set_store (edit x (fun _ => [T (L x (root e)) (kids t')]) (store s)) s) in
  let! _ := amod (set_obj (TObj x [] [])) in
  let! _ := update_rows in
  update_cols.

(** base.py:150-152 clear, lxml [clear()]: the children lose their parent, attributes,
    text and tail are dropped *)
Definition clear_node (x : N) : act st unit :=
  let! t := deref x in
  amod (fun s => set_store
    (foldl (fun w k => add_root k w)
       (edit x (fun k => [T (L (nid k) (Nd (ltag k) ∅ None None)) []]) (store s)) (kids t)) s).

(** table.py:93-95, 36-39: the common part of reset and of the constructor *)
Definition set_metrics (name : option pystr) (size : Z * Z) : act st unit :=
  let! _ := match name with Some n => set_name n | None => araise AttributeError end in
  let! _ := ctl_reset size in
  ctl_reset_columns size.2.

(** table.py:89-95 reset *)
Definition reset (size : Z * Z) : act st unit :=
  let! preserve_name := get_name in
  let! s := aget in
  let! _ := clear_node (rt (obj s)) in
  set_metrics preserve_name size.
(** table.py:97-99 clear *)
Definition clear : act st unit :=
  let! nr := nrows in let! nc := ncols in reset (nr, nc).

(** table.py:30-45 Table(name, size) *)
Definition new_table (strat : strategy) (maxcount : Z * Z) (name : pystr) (size : Z * Z) : act st unit :=
  let! x := new_root (new_elem TABLE) in
  let! _ := load strat maxcount x in
  set_metrics (Some name) size.

(** table.py:101-106 copy; the object of the result is the copy *)
Definition copy (strat : strategy) (maxcount : Z * Z) (newname : option pystr) : act st unit :=
  let! s := aget in
  let! oldname := get_name in
  let! t := deref (rt (obj s)) in
  let! x := new_root (erase t) in
  let! _ := load strat maxcount x in
  match newname, oldname with
  | Some n, _ => set_name n
  | None, Some o => set_name (lit "CopyOf" ++ o)
  | None, None => araise TypeError
  end.

(** cells.py:41,238,240-242: wrappers of these tags have kind 'Cell' *)
Definition is_cell_tag (t : string) : Prop := t = CELL \/ t = "table:covered-table-cell".
Global Instance is_cell_tag_dec t : Decision (is_cell_tag t).
Proof. unfold is_cell_tag. apply _. Defined.

(** table.py:112-116 set_cell *)
Definition set_cell (pos : Z * Z) (cell : N) : act st unit :=
  let! c := deref cell in
  if decide (is_cell_tag (ltag c)) then ctl_set_cell pos cell else araise TypeError.

(** table.py:53-57 __setitem__ with a cell reference *)
Definition table_setitem (key : reference) (cell : N) : act st unit :=
  let! pos := alift (get_cell_index key) in set_cell pos cell.
(** table.py:47-51 __getitem__ with a cell reference *)
Definition table_getitem (key : reference) : act st node :=
  let! pos := alift (get_cell_index key) in ctl_get_cell pos.

(** An index given as a number or as an address. *)
Inductive index := INum (i : Z) | IStr (s : pystr).
(** table.py:124-127 row, 133-136 column, 142-145 row_info, 147-150 column_info *)
Definition row_index (i : index) : act st Z :=
  match i with INum i => aret i | IStr a => let! p := alift (address_to_index a) in aret p.1 end.
Definition column_index (i : index) : act st Z :=
  match i with INum i => aret i | IStr a => let! p := alift (address_to_index a) in aret p.2 end.
Definition row (i : index) : act st (list node) :=
  let! k := row_index i in let! t := ctl_row k in aret (kids t).
Definition column (i : index) : act st (list node) := let! k := column_index i in ctl_column k.
Definition row_info (i : index) : act st node := let! k := row_index i in ctl_row k.
Definition column_info (i : index) : act st node :=
  let! k := column_index i in let! c := col_ref k in deref c.

(** [for x in l: f x] collecting the results *)
Fixpoint amap {A B} (f : A -> act st B) (l : list A) : act st (list B) :=
  match l with
  | [] => aret []
  | x :: r => let! y := f x in let! ys := amap f r in aret (y :: ys)
  end.
(** table.py:129-131 rows, 138-140 columns (generators, run to the end) *)
Definition rows : act st (list (list node)) :=
  let! n := nrows in amap (fun i => row (INum i)) (zrange 0 (Z.to_nat n)).
Definition columns : act st (list (list node)) :=
  let! n := ncols in amap (fun i => column (INum i)) (zrange 0 (Z.to_nat n)).

(** table.py:152-175 *)
Definition append_rows (count : Z) : act st unit := ctl_append_rows count.
Definition insert_rows (index count : Z) : act st unit := ctl_insert_rows index count.
Definition delete_rows (index count : Z) : act st unit := ctl_delete_rows index count.
Definition append_columns (count : Z) : act st unit :=
  let! _ := ctl_append_columns count in ctl_append_cols count.
Definition insert_columns (index count : Z) : act st unit :=
  let! _ := ctl_insert_columns index count in ctl_insert_cols index count.
Definition delete_columns (index count : Z) : act st unit :=
  let! _ := ctl_delete_columns index count in ctl_delete_cols index count.

(** A write through the wrapper of a cell (cells.py set_value, append_text, ...): the
    node stays, its attributes and content become those of [f]. *)
Definition write_cell (pos : Z * Z) (f : elem -> elem) : act st unit :=
  let! c := ctl_get_cell pos in
  let! t := alloc (f (erase c)) in
  amod (fun s => set_store (edit (nid c) (fun k => [T (L (nid k) (root (f (erase k)))) (kids t)]) (store s)) s).
End table.
