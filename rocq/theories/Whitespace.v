(** Model of /repo/ezodf/whitespaces.py and of the text classes of
    /repo/ezodf/text.py and /repo/ezodf/base.py that hold character data. *)
From Verif Require Export PyBase Dom.

(** ** whitespaces.py *)

(** whitespaces.py:14-16, xmlns.py CN: tag of Tabulator. *)
Definition TAB := "text:tab".
(** whitespaces.py:28-30: tag of LineBreak. *)
Definition BRK := "text:line-break".
(** whitespaces.py:35-37: tag of Spaces. *)
Definition SPC := "text:s".
(** whitespaces.py:59-61: tag of SoftPageBreak. *)
Definition SPB := "text:soft-page-break".

(** whitespaces.py:14 Tabulator() *)
Definition Tabulator : elem := new_elem TAB.
(** whitespaces.py:29 LineBreak() *)
Definition LineBreak : elem := new_elem BRK.
(** whitespaces.py:38-50 Spaces(count): the attribute is written only for counts
    above 1 (count setter, 47-50). *)
Definition Spaces (count : Z) : elem :=
  if decide (1 < count)%Z then e_set "text:c" (show_Z count) (new_elem SPC) else new_elem SPC.

Section ws.
Context `{U : Unicode}.

(** whitespaces.py:43-46 Spaces.count getter *)
Definition spaces_count (e : elem) : res Z :=
  match e_get "text:c" e with
  | None => Ok 1%Z
  | Some s => py_int s
  end.

(** Items of the encoder's result list: strings and elements. *)
Definition item := (pystr + elem)%type.

(** State of _WhitespaceEncoder: result, stack, space_counter (whitespaces.py:69-77).
    The class attributes are reset at the start of every [encode]. *)
Record enc := Enc { result : list item; stack : pystr; space_counter : nat }.

(** whitespaces.py:97-102 append_stack *)
Definition append_stack (s : enc) : enc :=
  match stack s with
  | [] => s
  | _ => Enc (result s ++ [inl (stack s)]) [] (space_counter s)
  end.

(** whitespaces.py:104-110 append_space.  [self.stack[:-spaces]] with
    [spaces = space_counter - 1]; callers guarantee [space_counter > 1]. *)
Definition append_space (s : enc) : enc :=
  let spaces := space_counter s - 1 in
  let s := Enc (result s) (drop_last spaces (stack s)) (space_counter s) in
  let s := append_stack s in
  Enc (result s ++ [inr (Spaces (Z.of_nat spaces))]) (stack s) 0.

(** common prefix of add_brk (112-116), add_tab (120-124) and the end of encode (87-90) *)
Definition flush (s : enc) : enc :=
  if decide (1 < space_counter s) then append_space s else append_stack s.

(** whitespaces.py:112-118 add_brk *)
Definition add_brk (s : enc) : enc :=
  let s := flush s in Enc (result s ++ [inr LineBreak]) (stack s) 0.

(** whitespaces.py:120-126 add_tab *)
Definition add_tab (s : enc) : enc :=
  let s := flush s in Enc (result s ++ [inr Tabulator]) (stack s) 0.

(** whitespaces.py:132-138 add_char *)
Definition add_char (c : N) (s : enc) : enc :=
  let s := if decide (c <> 32%N) then
             if decide (1 < space_counter s) then append_space s
             else Enc (result s) (stack s) 0
           else s in
  Enc (result s) (stack s ++ [c]) (space_counter s).

(** whitespaces.py:128-130 add_spc *)
Definition add_spc (s : enc) : enc :=
  let s := add_char 32%N s in Enc (result s) (stack s) (S (space_counter s)).

(** whitespaces.py:78-86, one round of the loop of encode *)
Definition enc_step (s : enc) (c : N) : enc :=
  if decide (c = 10%N) then add_brk s
  else if decide (c = 9%N) then add_tab s
  else if decide (c = 32%N) then add_spc s
  else add_char c s.

(** whitespaces.py:74-91 encode *)
Definition encode (plaintext : pystr) : list item :=
  result (flush (foldl enc_step (Enc [] [] 0) plaintext)).

(** ** Wrapper dispatch: xmlns.py:86-93 [wrap] selects the class by tag.
    text.py:20,66,93,105: Span, Paragraph, Heading and Hyperlink share the Span methods. *)
Definition span_tags : list string := ["text:span"; "text:p"; "text:h"; "text:a"].
(** text.py:126-142: ListHeader and ListItem *)
Definition list_tags : list string := ["text:list-header"; "text:list-item"].
(** cells.py:41,238 *)
Definition cell_tags : list string := ["table:table-cell"; "table:covered-table-cell"].
(** cells.py:32 SUPPORTED_CELL_CONTENT by kind: Paragraph, Heading *)
Definition cell_content_tags : list string := ["text:p"; "text:h"].

(** [plaintext()] of the wrapper of an element:
    whitespaces.py:25-26,32-33,56-57,66-67; text.py:41-48 (Span family);
    text.py:136-137 (ListHeader, ListItem); cells.py:173-175 (Cell);
    base.py:161-164 (every other wrapper).
    Simplification: classes that are registered but have no plaintext method
    (styles.py, meta.py) never occur in text content and are treated as generic;
    wrapping a nested table also normalises it, an effect on the tree that is not
    part of this function. *)
Fixpoint plaintext (e : elem) : res pystr :=
  match e with
  | T a ks =>
    if decide (tag a ∈ span_tags) then
      do l <- rmap (fun k => do p <- plaintext k; Ok (p ++ str_of (e_tail k))) ks;
      Ok (str_of (text a) ++ concat l)
    else if decide (tag a = TAB) then Ok [9%N]
    else if decide (tag a = BRK) then Ok [10%N]
    else if decide (tag a = SPC) then do c <- spaces_count (T a ks); Ok (blanks c)
    else if decide (tag a = SPB) then Ok []
    else if decide (tag a ∈ list_tags) then
      do l <- rmap plaintext ks; Ok (py_join [10%N] l)
    else if decide (tag a ∈ cell_tags) then
      do l <- rmap (fun k => if decide (e_tag k ∈ cell_content_tags)
                             then do p <- plaintext k; Ok [p] else Ok []) ks;
      Ok (py_join [10%N] (concat l))
    else Ok (str_of (text a))
  end.

(** [textlen] of the wrapper of an element: whitespaces.py:21-23,52-54,62-64;
    text.py:32-39 (Span family); base.py:13-14,156-159 (every other wrapper,
    including list items and cells). *)
Fixpoint textlen (e : elem) : res Z :=
  match e with
  | T a ks =>
    if decide (tag a ∈ span_tags) then
      do l <- rmap (fun k => do p <- textlen k; Ok (p + Z.of_nat (length (str_of (e_tail k))))%Z) ks;
      Ok (Z.of_nat (length (str_of (text a))) + foldr Z.add 0 l)%Z
    else if decide (tag a = TAB) then Ok 1%Z
    else if decide (tag a = BRK) then Ok 1%Z
    else if decide (tag a = SPC) then spaces_count (T a ks)
    else if decide (tag a = SPB) then Ok 0%Z
    else Ok (Z.of_nat (length (str_of (text a))))
  end.

(** [tostr(tag)] in decode: strings stay, whitespace elements give their plaintext
    (whitespaces.py:18-19). *)
Definition item_str (i : item) : res pystr :=
  match i with inl s => Ok s | inr e => plaintext e end.

(** whitespaces.py:93-95 decode *)
Definition decode (l : list item) : res pystr :=
  do ss <- rmap item_str l; Ok (concat ss).

(** text.py:51-52 inner [append] *)
Definition text_append (old : option pystr) (new : pystr) : option pystr :=
  Some (if truthy old then str_of old ++ new else new).

(** text.py:54-62, one round of the loop: a string goes to the tail of the last
    child, or to the text when there is no child; an element is appended. *)
Definition append_item (e : elem) (i : item) : elem :=
  match i with
  | inl s =>
      match e with
      | T a ks =>
          match last ks with
          | Some k => T a (take (length ks - 1) ks ++ [e_set_tail (text_append (e_tail k) s) k])
          | None => e_set_text (text_append (text a) s) e
          end
      end
  | inr c => e_append c e
  end.

(** text.py:50-62 Span.append_text *)
Definition append_text (e : elem) (t : pystr) : elem := foldl append_item e (encode t).

(** text.py:24-30 Span(text, style_name), Paragraph(text, style_name) *)
Definition new_span (tg : string) (t style : pystr) : elem :=
  let e := new_elem tg in
  let e := match style with [] => e | _ => e_set "text:style-name" style e end in
  match t with [] => e | _ => append_text e t end.

(** text.py:99-102 Heading(text, outline_level, style_name);
    propertymixins.py:66-68 clamps the level at 1. *)
Definition new_heading (t : pystr) (level : Z) (style : pystr) : elem :=
  e_set "text:outline-level" (show_Z (Z.max 1 level)) (new_span "text:h" t style).

(** text.py:110-123 Hyperlink(href, text, style_name) *)
Definition new_hyperlink (href t style : pystr) : elem :=
  let e := new_span "text:a" t style in
  let e := match href with [] => e | _ => e_set "xlink:href" href e end in
  e_set "xlink:show" (lit "new") (e_set "office:target-frame-name" (lit "_blank") e).
End ws.
