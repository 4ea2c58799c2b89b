(** Vocabulary for the values in a sheet. *)
From Verif Require Export Sheet CellsSpec TableReloadSpec PagesSpec.

Section spec.
Context `{U : Unicode} `{F : PyFloat}.

(** [key] stands for row [i], column [j] in a table with [nr] rows and [nc] columns. *)
Definition at_cell (nr nc : nat) (key : reference) (i j : nat) : Prop :=
  exists r c, denotes key r c /\ at_index nr r i /\ at_index nc c j.

(** Calls of set_value for some cells, one after the other, exceptions are caught. *)
Definition set_values (ws : list (reference * call)) (s : st) : st :=
  foldl (fun s w => (cell_set_value w.1 (c_val w.2) (c_type w.2) (c_cur w.2) s).1) s ws.
(** Each goes to a cell of the table; paragraphs given as value have no table in them. *)
Definition usable (nr nc : nat) (w : reference * call) : Prop :=
  (exists i j, at_cell nr nc w.1 i j) /\ (forall p, c_val w.2 = VWrap p -> plain p).
(** The call [w] does nothing to the cell in row [i], column [j]: it goes to another one or is
    refused (empty text for a number is refused too late). *)
Definition leaves (nr nc i j : nat) (w : reference * call) : Prop :=
  ~ at_cell nr nc w.1 i j \/
  ~ acceptable (c_val w.2) (c_type w.2) (c_cur w.2) /\ ((forall p, c_val w.2 <> VWrap p) -> ~ written (c_val w.2) []).
(** the calls that go to the cell in row [i], column [j] *)
Inductive calls_at (nr nc i j : nat) : list (reference * call) -> list call -> Prop :=
  | ca_nil : calls_at nr nc i j [] []
  | ca_here w ws cs : at_cell nr nc w.1 i j -> calls_at nr nc i j ws cs -> calls_at nr nc i j (w :: ws) (w.2 :: cs)
  | ca_other w ws cs : ~ at_cell nr nc w.1 i j -> calls_at nr nc i j ws cs -> calls_at nr nc i j (w :: ws) cs.

(** The element with the sheets: content.py:34-41 *)
Definition spreadsheet_of (r : node) : option node :=
  head (filter (fun k => ltag k = "office:body") (kids r)) ≫= fun b =>
  head (filter (fun k => ltag k = "office:spreadsheet") (kids b)).
End spec.
