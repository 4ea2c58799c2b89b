(** Model of a text document edited by way of doc.body (/repo/ezodf/body.py, base.py): the calls
    change the content tree of the document. *)
From Verif Require Export Document EzList.

(** content.py:35-40, document.py:228: doc.body is the first application body in the first
    office:body; both are there since the document was made. *)
Definition on_body (t : string) (f : act elem unit) : act elem unit := fun e =>
  match first_kid (has_tag "office:body") e with
  | Some (i, b) =>
      match first_kid (has_tag t) b with
      | Some (j, y) => let '(y', r) := f y in (replace_kid i (replace_kid j y' b) e, r)
      | None => (e, Err AttributeError)
      end
  | None => (e, Err AttributeError)
  end.

(** Calls on the body of a text document; all new children are nodes without parent.
    [BOn i f]: body[i] gets the call [f] *)
Inductive bop :=
  | BAppend (c : elem) | BInsert (i : Z) (c : elem) | BSet (i : Z) (c : elem) | BDel (i : Z) | BClear
  | BOn (i : Z) (f : act elem unit).
Definition body_step (o : bop) : act elem unit := fun y =>
  match o with
  | BAppend c => body_append c y                       (* body.py:34-36 *)
  | BInsert i c => (e_insert i c y, Ok tt)             (* base.py:76-79 *)
  | BSet i c =>                                        (* base.py:62-63, 86-89 *)
      match py_index (length (kids y)) i with
      | Some n => (replace_kid n c y, Ok tt)
      | None => (y, Err IndexError)
      end
  | BDel i =>                                          (* base.py:65-66, 91-93 *)
      match py_index (length (kids y)) i with
      | Some n => (on_kids (delete_at n) y, Ok tt)
      | None => (y, Err IndexError)
      end
  | BClear => (e_clear y, Ok tt)                       (* base.py:150-152 *)
  | BOn i f =>                                         (* base.py:59-60, 81-84 *)
      match py_index (length (kids y)) i with
      | Some n =>
          match kids y !! n with
          | Some k => let '(k', r) := f k in (replace_kid n k' y, r)
          | None => (y, Err IndexError)
          end
      | None => (y, Err IndexError)
      end
  end.
(** text.py:50-62: append_text of a child; only the classes of [span_tags] have it, and cells,
    which do not occur in a text body *)
Definition child_append_text `{U : Unicode} (t : pystr) : act elem unit := fun k =>
  if decide (e_tag k ∈ span_tags) then (append_text k t, Ok tt) else (k, Err AttributeError).
(** a history: what a call changed stays if it raises *)
Definition play_body (t : string) (ops : list bop) (e : elem) : elem :=
  foldl (fun e o => (on_body t (body_step o) e).1) e ops.
(** the same on the state of the document *)
Definition edit_body `{B : Bytes} (t : string) (ops : list bop) (s : FileManager.st) : FileManager.st :=
  upd_mgr (set_object 2 (play_body t ops (objects (mgr s) 2))) s.
(** Paragraph(…), Heading(…), ezlist(…) for one block of text *)
Inductive chunk :=
  | Para (t style : pystr) | Head (t : pystr) (level : Z) (style : pystr) | Bullets (items : list pystr) (header style : pystr).
Definition make_chunk `{U : Unicode} (b : chunk) : elem :=
  match b with
  | Para t style => new_span "text:p" t style              (* text.py:24-30, 66-69 *)
  | Head t level style => new_heading t level style         (* text.py:99-102 *)
  | Bullets items header style => ezlist items header style (* __init__.py:40-53 *)
  end.
