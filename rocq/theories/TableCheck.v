(** Model of itercells of /repo/ezodf/table.py, of is_consistent of tablerowcontroller.py and
    tablecolumncontroller.py, of the columns as items of their controller, and of TableRow(ncols). *)
From Verif Require Export Table.

Section check.
Context `{U : Unicode}.
(** [enumerate] *)
Fixpoint enumerate {A} (n : Z) (l : list A) : list (Z * A) :=
  match l with [] => [] | x :: r => (n, x) :: enumerate (n + 1) r end.
(** table.py:118-122 itercells (a generator, run to the end) *)
Definition itercells : act st (list (Z * Z * node)) :=
  let! rs := rows in
  aret (flat_map (fun '(irow, row) => map (fun '(icol, cell) => (irow, icol, cell)) (enumerate 0 row)) (enumerate 0 rs)).

(** the loop of both checks: tablerowcontroller.py:96-99, tablecolumncontroller.py:126-129 *)
Fixpoint same_nodes (l : list N) (xs : list node) : bool :=
  match l, xs with
  | a :: l, x :: xs => if decide (a <> nid x) then false else same_nodes l xs
  | _, _ => true
  end.
(** tablerowcontroller.py:91-99 is_consistent *)
Definition rows_consistent : act st bool :=
  let! xmlrows := table_rows in let! s := aget in
  aret (if decide (length xmlrows <> length (rowc (obj s))) then false else same_nodes (rowc (obj s)) xmlrows).
(** tablecolumncontroller.py:101-102 __len__, 121-129 is_consistent *)
Definition cols_consistent : act st bool :=
  let! xmlcols := table_cols in let! s := aget in
  aret (if decide (length xmlcols <> length (colc (obj s))) then false else same_nodes (colc (obj s)) xmlcols).

(** table.py:193-196 TableRow(ncols), 198-200 _setup *)
Definition new_table_row (ncols : Z) : elem := foldl (fun e _ => e_append (new_elem CELL) e) (new_elem ROW) (seq 0 (Z.to_nat ncols)).

(** tablecolumncontroller.py:104-105 __getitem__, 118-119 get_table_column *)
Definition column_getitem (pos : Z) : act st node := let! c := col_ref pos in deref c.
(** [x.getparent().replace(x, new)] for a new node; the tails go with their elements *)
Definition replace_node (x : N) (new : node) : act st unit := fun s =>
  if decide (no_parent x (store s)) then (s, Err AttributeError)
  else match sub x (store s) with
       | Some k => (set_store (add_root k (edit x (fun _ => [new]) (store s))) s, Ok tt)
       | None => (s, Err AttributeError)
       end.
(** tablecolumncontroller.py:107-112 __setitem__, 114-116 _check_column_type; [e] is what the element
    that is assigned looks like: the column gets a copy *)
Definition column_setitem (pos : Z) (e : elem) : act st unit :=
  if decide (e_tag e <> COL) then araise TypeError
  else
    let! oldcolumn := col_ref pos in
    let! newcolumn := alloc e in
    let! _ := replace_node oldcolumn newcolumn in
    let! s := aget in
    match py_index (length (colc (obj s))) pos with
    | Some k => amod (set_colc (<[k := nid newcolumn]> (colc (obj s))))
    | None => araise IndexError
    end.
End check.
