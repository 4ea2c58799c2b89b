(** Model of the lists, sections and numbered paragraphs of /repo/ezodf/text.py. *)
From Verif Require Export Wrapper Attrs.

Section text.
Context `{U : Unicode} `{F : PyFloat}.

(** ** Constructors *)
(** text.py:129-134 ListHeader(text), 141-142 ListItem(text) *)
Definition new_list_part (tg : string) (t : pystr) : elem :=
  match t with [] => new_elem tg | _ => e_append (new_span "text:p" t []) (new_elem tg) end.
(** text.py:151-155 List(style_name) *)
Definition new_list (style : pystr) : elem :=
  match style with [] => new_elem "text:list" | _ => e_set "text:style-name" style (new_elem "text:list") end.
(** text.py:178-184 Section(name, style_name) *)
Definition new_section (name style : pystr) : elem :=
  let e := new_elem "text:section" in
  let e := match style with [] => e | _ => e_set "text:style-name" style e end in
  match name with [] => e | _ => e_set "text:name" name e end.
(** text.py:76-83 NumberedParagraph(paragraph); [VWrap e]: a wrapper of a node without parent *)
Definition new_numbered (v : pyval) : res elem :=
  match v with
  | VNone => Ok (new_elem "text:numbered-paragraph")
  | VWrap e => Ok (e_append e (new_elem "text:numbered-paragraph"))
  | _ => Err TypeError
  end.
(** text.py:85-90 NumberedParagraph.content: the position of the child *)
Definition position (t : string) (e : elem) : option nat := fst <$> list_find (fun k => e_tag k = t) (kids e).
Definition numbered_content : act elem (option nat) := fun e =>
  match position "text:h" e with
  | Some i => (e, Ok (Some i))
  | None => let e := subelement "text:p" e in (e, Ok (position "text:p" e))
  end.
(** text.py:136-137 ListHeader.plaintext (also ListItem) is part of [plaintext], Whitespace.v *)
End text.

(** ** List.header.  The state is the store of all trees. *)
Definition LIST_HEADER : string := "text:list-header".
(** a wrapper: the name of its class (base.py:46-48 kind), and its node *)
Record wrapper := Wr { kind : string; xmlnode : N }.
(** text.py:157-160 header; the class of the result is ListHeader (by the tag) *)
Definition get_header (x : N) (w : node) : option N := wr_find LIST_HEADER x w.
(** text.py:161-168 *)
Definition set_header (x : N) (h : wrapper) : act node unit :=
  if decide (kind h <> "ListHeader"%string) then araise TypeError
  else
    let! _ := (fun w => match get_header x w with Some old => el_remove x old w | None => (w, Ok tt) end) in
    let! _ := wr_insert x 0 (xmlnode h) in aret tt.
(** text.py:170-171 iteritems *)
Definition iteritems (x : N) (w : node) : list N := wr_findall "text:list-item" x w.
