(** Model of reading spans through a sheet: /repo/ezodf/table.py and /repo/ezodf/cells.py. *)
From Verif Require Export Sheet CellSpan.

Section layout.
Context `{U : Unicode}.
(** [table[key].span]: table.py:47-51 __getitem__, cells.py:194-199 span.  Other nodes than cells
    in the place of a cell have no such attribute. *)
Definition cell_span_of (key : reference) : act st (Z * Z) :=
  let! x := table_getitem key in
  if decide (is_cell_tag (ltag x)) then alift (cell_span (pl (root x))) else araise AttributeError.
(** [table[key].covered]: table.py:47-51, cells.py:218-220 *)
Definition cell_covered (key : reference) : act st bool :=
  let! x := table_getitem key in
  if decide (is_cell_tag (ltag x)) then aret (bool_decide (is_covered x)) else araise AttributeError.
End layout.
