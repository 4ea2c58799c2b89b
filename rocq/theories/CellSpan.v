(** Model of /repo/ezodf/cellspancontroller.py and the span part of /repo/ezodf/cells.py. *)
From Verif Require Export Table.

Definition RSPAN : string := "table:number-rows-spanned".
Definition CSPAN : string := "table:number-columns-spanned".
Definition COVERED : string := "table:covered-table-cell".
(** cells.py:36-39 CELL_ONLY_ATTRIBS *)
Definition CELL_ONLY : list string :=
  [RSPAN; CSPAN; "table:number-matrix-columns-spanned"; "table:number-matrix-rows-spanned"].

Section span.
Context `{U : Unicode}.

(** cells.py:194-199 span *)
Definition span_attr (k : string) (a : nd) : res Z :=
  match attrs a !! k with None => Ok 1%Z | Some v => do n <- py_int v; Ok (Z.max 1 n) end.
Definition cell_span (a : nd) : res (Z * Z) :=
  do rows <- span_attr RSPAN a; do cols <- span_attr CSPAN a; Ok (rows, cols).

(** [del xmlnode.attrib[k]] *)
Definition del_attrib (x : N) (k : string) : act st unit :=
  let! c := deref x in
  match attrs (pl (root c)) !! k with
  | None => araise KeyError
  | Some _ => mod_nd x (fun a => nd_set_attrs (delete k (attrs a)) a)
  end.
(** cells.py:210-212 _del_span_attributes *)
Definition del_span_attributes (x : N) : act st unit :=
  let! _ := del_attrib x RSPAN in del_attrib x CSPAN.
(** cells.py:201-208, 214-216 _set_span *)
Definition cell_set_span (x : N) (size : Z * Z) : act st unit :=
  let '(rows, cols) := size in
  let rows := Z.max 1 rows in
  let cols := Z.max 1 cols in
  if decide (rows = 1 /\ cols = 1)%Z then del_span_attributes x
  else mod_nd x (fun a => nd_set_attrs (<[CSPAN := show_Z cols]> (<[RSPAN := show_Z rows]> (attrs a))) a).
(** cells.py:222-234 _set_covered *)
Definition set_covered (x : N) (value : bool) : act st unit :=
  if value
  then mod_nd x (fun a => nd_set_attrs (foldl (fun m k => delete k m) (attrs a) CELL_ONLY) (nd_set_tag COVERED a))
  else mod_nd x (nd_set_tag CELL).

(** cellspancontroller.py:21-22 _get_cell.  Only the classes of cells (cells.py:33, 236)
    have [span], [covered] and [_set_span], which all callers use next. *)
Definition span_get_cell (pos : Z * Z) : act st node :=
  let! c := ctl_get_cell pos in
  if decide (is_cell_tag (ltag c)) then aret c else araise AttributeError.
(** cells.py:219-220 covered *)
Definition is_covered (c : node) : Prop := ltag c = COVERED.
Global Instance is_covered_dec c : Decision (is_covered c).
Proof. unfold is_covered. apply _. Defined.

(** cellspancontroller.py:24-25 is_cell_spanning *)
Definition is_cell_spanning (pos : Z * Z) : act st bool :=
  let! c := span_get_cell pos in
  let! sp := alift (cell_span (pl (root c))) in
  aret (bool_decide (sp <> (1, 1)%Z)).

(** cellspancontroller.py:35-44 _check_pos_and_size.  [tostr] is not imported in the
    module, so the first two checks raise NameError. *)
Definition check_pos_and_size (pos size : Z * Z) : act st unit :=
  let '(start_row, start_column) := pos in
  if decide (start_row < 0 \/ start_column < 0)%Z then araise NameError else
  let '(nr, nc) := size in
  if decide (nr < 1 \/ nc < 1)%Z then araise NameError else
  let! rows := nrows in
  if decide (start_row + nr > rows)%Z then araise ValueError else
  let! cols := ncols in
  if decide (start_column + nc > cols)%Z then araise ValueError else aret tt.

(** cellspancontroller.py:46-50 _has_cell_range_spanned_cells *)
Fixpoint any_spanning (l : list (Z * Z)) : act st bool :=
  match l with
  | [] => aret false
  | p :: l' => let! b := is_cell_spanning p in if b : bool then aret true else any_spanning l'
  end.
Definition has_cell_range_spanned_cells (pos size : Z * Z) : act st bool :=
  let! l := alift (iter_cell_range pos size) in any_spanning l.

(** cellspancontroller.py:52-55 _cover_cell, 57-60 _uncover_cell *)
Definition cover_cell (pos : Z * Z) : act st unit :=
  let! c := span_get_cell pos in if decide (is_covered c) then aret tt else set_covered (nid c) true.
Definition uncover_cell (pos : Z * Z) : act st unit :=
  let! c := span_get_cell pos in if decide (is_covered c) then set_covered (nid c) false else aret tt.

(** cellspancontroller.py:27-33, 62-65 set_span *)
Definition set_span (pos size : Z * Z) : act st unit :=
  let! _ := check_pos_and_size pos size in
  let! b := has_cell_range_spanned_cells pos size in
  if b : bool then araise ValueError
  else
    let! l := alift (iter_cell_range_without_start_pos pos size) in
    let! _ := aiter l cover_cell in
    let! c := span_get_cell pos in
    let! _ := cell_set_span (nid c) size in
    uncover_cell pos.

(** cellspancontroller.py:67-78 remove_span *)
Definition remove_span (pos : Z * Z) : act st unit :=
  let! b := is_cell_spanning pos in
  if b : bool then
    let! c := span_get_cell pos in
    let! size := alift (cell_span (pl (root c))) in
    let! l := alift (iter_cell_range pos size) in
    let! _ := aiter l uncover_cell in
    let! c := span_get_cell pos in
    let! _ := del_span_attributes (nid c) in
    uncover_cell pos
  else aret tt.

(** table.py:177-181 set_cell_span, remove_cell_span *)
Definition set_cell_span (pos : reference) (size : Z * Z) : act st unit :=
  let! p := alift (get_cell_index pos) in set_span p size.
Definition remove_cell_span (pos : reference) : act st unit :=
  let! p := alift (get_cell_index pos) in remove_span p.
End span.
