(** Model of PageLayout and BaseStyle._properties in /repo/ezodf/styles.py.  The state is the element
    of the layout; an object for properties is given by its place. *)
From Verif Require Export Attrs.

Definition HEADER_STYLE : string := "style:header-style".
Definition FOOTER_STYLE : string := "style:footer-style".
(** styles.py:105: the name of the properties element *)
Definition properties_name (key : string) : string := (key ++ "-properties")%string.
(** styles.py:100-109 BaseStyle._properties, with xmlns.py:14-20 subelement(parent, tag, new) *)
Definition properties (key : string) (new : bool) : act elem unit := fun e =>
  let e := if new then subelement key e else e in
  match find_child key e with
  | None => (e, Err KeyError)
  | Some _ => (on_kids (on_first key (subelement (properties_name key))) e, Ok tt)
  end.
(** the element the object of the result is for *)
Definition properties_node (key : string) (e : elem) : option elem :=
  find_child key e ≫= find_child (properties_name key).
(** styles.py:143-146 PageLayout(xmlelement) *)
Definition page_layout : act elem unit :=
  let! _ := properties HEADER_STYLE true in properties FOOTER_STYLE true.
(** styles.py:93-95 __getitem__ with styles.py:138-141 ATTRIBUTEMAP *)
Definition layout_get (k : string) (e : elem) : res (option pystr) :=
  if decide (k ∈ ["name"; "page-usage"]%string) then Ok (e_get ("style:" ++ k) e) else Err KeyError.
(** the same of header and footer: styles.py:111-115, ATTRIBUTEMAP is empty *)
Definition header_get (k : string) (e : elem) : res (option pystr) := Err KeyError.
