(** Model of what programs do with the cells of a sheet: the functions of /repo/ezodf/table.py
    and /repo/ezodf/cells.py one after the other. *)
From Verif Require Export Table Cells Pages.

Section sheet.
Context `{U : Unicode} `{F : PyFloat}.

(** [table[key].set_value(v, vt, cur)]: table.py:47-51 __getitem__, cells.py:82-126 set_value.
    A paragraph given as value is one that is in no document. *)
Definition cell_set_value (key : reference) (v : pyval) (vt cur : option pystr) : act st unit :=
  let! pos := alift (get_cell_index key) in
  let! x := ctl_get_cell pos in
  let! _ := write_cell pos (fun e => (set_value v vt cur e).1) in
  alift (set_value v vt cur (erase x)).2.
(** [table[key].value], [.value_type], [.currency]: table.py:47-51, cells.py:62-80, 58-60, 189-191 *)
Definition cell_value (key : reference) : act st pyval := let! x := table_getitem key in alift (value (erase x)).
Definition cell_value_type (key : reference) : act st (option pystr) := let! x := table_getitem key in aret (value_type (erase x)).
Definition cell_currency (key : reference) : act st (option pystr) := let! x := table_getitem key in aret (currency (erase x)).
End sheet.
