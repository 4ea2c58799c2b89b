(** Model of /repo/ezodf/document.py:137-139 (inject_style) and /repo/ezodf/xmlns.py:99-111
    (fake_element), for the container of Styles.v.  The state is the state of the container
    and the next unused id. *)
From Verif Require Export Styles.

(** What lxml makes of [WRAPNS % text] (xmlns.py:99-108): the children of the element root, or
    an exception.  (Comments and processing instructions are not modelled.) *)
Class XmlParser := { xml_parts : pystr -> res (list elem) }.
Record ist := ISt { cont : cst; unused : N }.

Section Inject.
Context `{XmlParser}.

(** etree.XML: a new tree *)
Definition f_parse (text : pystr) : act ist node := fun s =>
  match xml_parts text with
  | Err e => (s, Err e)
  | Ok es =>
      let '(t, n) := label (T (Nd "root" ∅ None None) es) (unused s) in
      (ISt (CSt (add_root t (tree_of (cont s))) (cache (cont s))) n, Ok t)
  end.
(** an operation on the container, or on its trees *)
Definition on_cont {A} (m : act cst A) : act ist A := fun s =>
  let '(c, r) := m (cont s) in (ISt c (unused s), r).
(** xmlns.py:109-111 fake_element: the node of the wrapper made for the first child *)
Definition fake_element (text : pystr) : act ist N :=
  let! t := f_parse text in
  match py_get (kids t) 0 with
  | Err e => araise e
  | Ok k => fun s => (s, s_wrap (RNode (nid k)) (tree_of (cont s)))
  end.
(** document.py:137-139 inject_style: [x] is the node of self.styles.styles, [wh] is not used *)
Definition inject_style (x : N) (text wh : pystr) : act ist unit :=
  let! c := fake_element text in
  on_cont (on_tree (el_append x c)).
End Inject.
