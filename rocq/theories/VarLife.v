(** Model of doc.body.variables and doc.body.userfields of a document in memory
    (/repo/ezodf/body.py, content.py), on top of Variables.v. *)
From Verif Require Export Variables.

Section model.
Context `{U : Unicode} `{F : PyFloat}.
(** body.py:20-23: variables and userfields *)
Inductive family := FVar | FUser.
Definition container (f : family) : string := match f with FVar => "text:variable-decls" | FUser => "text:user-field-decls" end.
(** content.py:34-41 get_application_body: the body of type [t] of the content with root [r] *)
Definition body_in (t : string) (r : node) : option node :=
  head (filter (fun k => ltag k = "office:body"%string) (kids r)) ≫= fun b => head (filter (fun k => ltag k = t) (kids b)).
(** body.py:20-23, xmlns.py subelement: the first child with the tag, which is there after opening (C33) *)
Definition decls_in (f : family) (t : string) (r : node) : option node :=
  body_in t r ≫= fun y => head (filter (fun k => ltag k = container f) (kids y)).
(** body.py:20-23: the wrappers, made when the document is opened *)
Definition doc_fields (f : family) (t : string) (r w : node) : res variables :=
  match decls_in f t r with Some d => new_variables (nid d) w | None => Err AttributeError end.

Context (odd : N -> string -> pystr -> node -> res (list N)).
(** [doc.body.variables[nm].value], [doc.body.userfields[nm].value] (variables.py:28-32, 94-100, 124-135, 165-175) *)
Definition field_value (vs : variables) (nm : pystr) (w : node) : res pyval :=
  do x <- vs_get vs (KStr nm) w;
  match x with
  | inl v => get_value odd v w
  | inr c => do v <- new_variable c w; get_value odd v w
  end.
(** [doc.body.variables[nm] = u], [doc.body.userfields[nm] = u] (variables.py:34-38); an exception
    does not end the program *)
Definition set_field (vs : family -> variables) (w : node) (a : family * pystr * pyval) : node :=
  (vs_set odd (vs a.1.1) (KStr a.1.2) a.2 w).1.
End model.
