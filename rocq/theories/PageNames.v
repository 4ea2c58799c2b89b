(** Model of the names of pages and sheets: DrawingPage (/repo/ezodf/drawingpage.py), and the name
    setters of DrawingPage and Table (table.py), in the store of all trees. *)
From Verif Require Export Pages Table.

Section names.
Context `{U : Unicode}.
(** what the setter makes of the name: table.py:62-70 for a sheet, drawingpage.py:29-31 for a page *)
Definition clean_name (p : container) (s : pystr) : pystr :=
  if decide (nametag p = "table:name"%string) then normalize_sheet_name s else s.
(** [page.name = s]: table.py:62-64, drawingpage.py:29-31, base.py:120-125 set_attr *)
Definition pc_rename (p : container) (c : N) (s : pystr) : act node unit := fun w =>
  match clean_name p s with
  | [] => (w, Err ValueError)
  | n => (edit c (fun k => [lon_root (fun a => nd_set_attrs (<[nametag p := n]> (attrs a)) a) k]) w, Ok tt)
  end.
(** drawingpage.py:17-21 DrawingPage(name), 23-24 _setup_new_page; presentationpage.py adds nothing;
    [n]: the id of the new node *)
Definition new_drawing_page (n : N) (s : pystr) : act node N := fun w =>
  let w := add_root (T (L n (Nd "draw:page" ∅ None None)) []) w in
  match pc_rename (pages_of 0) n s w with
  | (w, Ok _) => (w, Ok n)
  | (w, Err e) => (w, Err e)
  end.
End names.
