(** Programs that inject styles into a document. *)
From Verif Require Export InjectSpec StylesSavedSpec.

(** document.inject_style for one text after the other; exceptions are caught *)
Definition inject_all `{XmlParser} (x : N) (texts : list (pystr * pystr)) (s : ist) : ist :=
  foldl (fun s a => (inject_style x a.1 a.2 s).1) s texts.
(** the style a text brings: its first element, if this is not a page layout *)
Definition brought `{XmlParser} (text : pystr) : option elem :=
  match xml_parts text with
  | Ok (e :: _) => if decide (e_tag e = "style:page-layout"%string) then None else Some e
  | _ => None
  end.
(** the texts start with styles *)
Definition style_text `{XmlParser} (text : pystr) : Prop := forall e es, xml_parts text = Ok (e :: es) -> style_like e.
(** the element [e] with [es] behind the children of its first child with the tag [t] *)
Fixpoint add_to (t : string) (es : list elem) (l : list elem) : list elem :=
  match l with
  | [] => []
  | k :: l => if decide (e_tag k = t) then T (root k) (kids k ++ es) :: l else k :: add_to t es l
  end.
Definition with_styles (t : string) (es : list elem) (e : elem) : elem := T (root e) (add_to t es (kids e)).
