(** Model of doc.body.pages of a drawing or presentation in memory (/repo/ezodf/body.py, pages.py,
    drawingpage.py, presentationpage.py), on top of PageNames.v. *)
From Verif Require Export PageNames.

Section model.
Context `{U : Unicode}.
(** the trees in memory and the next free identity *)
Record desk := Dk { d_store : node; d_next : N }.
(** content.py:34-41 get_application_body: the body of type [t] of the content with root [r] *)
Definition drawing_body (t : string) (r : node) : option node :=
  head (filter (fun k => ltag k = "office:body"%string) (kids r)) ≫= fun b => head (filter (fun k => ltag k = t) (kids b)).
(** calls on doc.body.pages and on its pages; a page stands for its object *)
Inductive dop :=
  | DGet (k : pkey) | DSet (k : pkey) (c : N) | DDel (k : pkey) | DAppend (c : N) | DInsert (i : Z) (c : N)
  | DName (c : N) (s : pystr) | DNew (s : pystr) | DOn (c : N) (f : elem -> elem * res unit).
Definition on_store {A} (m : act node A) : act desk A := fun b => let '(w, r) := m (d_store b) in (Dk w (d_next b), r).
(** drawingpage.py:13-14, presentationpage.py:12: the class attribute TAG *)
Definition page_obj (c : N) : wobj := WObj c (Some "draw:page").
(** body.py:46-50 DrawingBody, 52-54 PresentationBody: the pages of the body are pages.py:12-15 Pages,
    document.py:131-135: also as doc.pages; drawingpage.py:26-31 name.
    [DOn] is any work on what is in a page (base.py: append, insert, set_attr and others on the page and
    its children); the identities of the elements in the page are not kept. *)
Definition d_op (p : container) (o : dop) : act desk (option N) :=
  match o with
  | DGet k => on_store (let! c := pc_get p k in aret (Some c))
  | DSet k c => on_store (let! _ := pc_set p k (page_obj c) in aret None)
  | DDel k => on_store (let! _ := pc_del p k in aret None)
  | DAppend c => on_store (let! x := pc_append p (page_obj c) in aret (Some x))
  | DInsert i c => on_store (let! x := pc_insert p i (page_obj c) in aret (Some x))
  | DName c s => on_store (let! _ := pc_rename p c s in aret None)
  | DNew s => fun b => let '(w, r) := new_drawing_page (d_next b) s (d_store b) in (Dk w (d_next b + 1), do x <- r; Ok (Some x))
  | DOn c f => fun b =>
      match sub c (d_store b) with
      | Some k => let '(e, r) := f (erase k) in
                  let '(t, n) := label e (d_next b) in
                  (Dk (edit c (fun _ => [T (L c (pl (root t))) (kids t)]) (d_store b)) n, do _ <- r; Ok None)
      | None => (b, Err AttributeError)
      end
  end.
(** a program; exceptions are caught *)
Fixpoint d_run (p : container) (os : list dop) (b : desk) : desk * list (res (option N)) :=
  match os with
  | [] => (b, [])
  | o :: os => let '(b, r) := d_op p o b in let '(b, rs) := d_run p os b in (b, r :: rs)
  end.
End model.
