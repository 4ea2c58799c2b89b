(** Model of attribute access: base.py (get_attr … set_bool_attr, text, plaintext),
    propertymixins.py, and the special properties of text.py.  The state is the element of the
    wrapper. *)
From Verif Require Export Cells NodeOrganizer.

Section attrs.
Context `{U : Unicode} `{F : PyFloat}.

(** ** base.py *)
(** base.py:32-44 text, tail; 156-164 textlen, plaintext of GenericWrapper *)
Definition gw_textlen (e : elem) : nat := match e_text e with Some s => length s | None => 0 end.
Definition gw_plaintext (e : elem) : pystr := match e_text e with Some (c :: s) => c :: s | _ => [] end.
(** base.py:106-111 get_attr *)
Definition get_attr (k : string) (d : pyval) (e : elem) : pyval :=
  match e_get k e with Some v => VStr v | None => d end.
(** base.py:113-118 get_bool_attr *)
Definition get_bool_attr (k : string) (e : elem) : bool :=
  match e_get k e with
  | Some v => if truth (VStr v) then bool_decide (v = lit "true") else false
  | None => false
  end.
(** base.py:120-125 set_attr *)
Definition put_attr (k : string) (v : pyval) : act elem unit := fun e =>
  if truth v then (e_set k (tostr v) e, Ok tt) else (e, Err ValueError).
(** base.py:127-128 set_bool_attr *)
Definition set_bool_attr (k : string) (v : pyval) : act elem unit := fun e =>
  (e_set k (if truth v then lit "true" else lit "false") e, Ok tt).

(** ** propertymixins.py *)
(** the deleter of all of them, propertymixins.py:19-20 *)
Definition attr_del (n : string) : act elem unit := fun e =>
  match e_get n e with Some _ => (e_del n e, Ok tt) | None => (e, Err KeyError) end.
(** propertymixins.py:14-21 StringProperty; lxml refuses other values *)
Definition str_get (n : string) (e : elem) : option pystr := e_get n e.
Definition str_set (n : string) (v : pyval) : act elem unit := fun e =>
  match v with VStr s => (e_set n s e, Ok tt) | _ => (e, Err TypeError) end.
(** propertymixins.py:23-31 BooleanProperty *)
Definition bool_get (n : string) (e : elem) : bool := bool_decide (e_get n e = Some (lit "true")).
Definition bool_set (n : string) (v : pyval) : act elem unit := fun e =>
  (e_set n (if truth v then lit "true" else lit "false") e, Ok tt).
(** propertymixins.py:33-44 FloatProperty *)
Definition float_get (n : string) (e : elem) : res (option pfloat) :=
  match e_get n e with
  | None => Ok None
  | Some v => match f_parse v with Some f => Ok (Some f) | None => Err ValueError end
  end.
Definition num_set (n : string) (v : pyval) : act elem unit := fun e => (e_set n (tostr v) e, Ok tt).
(** propertymixins.py:46-57 IntegerProperty *)
Definition int_get (n : string) (e : elem) : res (option Z) :=
  match e_get n e with None => Ok None | Some v => do z <- py_int v; Ok (Some z) end.
(** propertymixins.py:59-71 IntegerWithLowerLimitProperty; [iv]: the result of int(value) *)
Definition limit_get (n : string) (lim : Z) (e : elem) : res Z :=
  match e_get n e with None => Ok lim | Some v => do z <- py_int v; Ok (Z.max lim z) end.
Definition limit_set (n : string) (lim : Z) (iv : res Z) : act elem unit := fun e =>
  match iv with Ok z => (e_set n (show_Z (Z.max lim z)) e, Ok tt) | Err x => (e, Err x) end.
(** propertymixins.py:74-81 start_value *)
Definition start_value (e : elem) : res (option Z) := int_get "text:start-value" e.
Definition set_start_value (iv : res Z) : act elem unit := fun e =>
  match iv with Ok z => put_attr "text:start-value" (VStr (show_Z (Z.max z 1))) e | Err x => (e, Err x) end.
(** propertymixins.py:83-90 formatted_number *)
Definition formatted_number (e : elem) : option pystr := find_child "text:number" e ≫= e_text.
Fixpoint on_first (t : string) (f : elem -> elem) (ks : list elem) : list elem :=
  match ks with [] => [] | k :: r => if decide (e_tag k = t) then f k :: r else k :: on_first t f r end.
Definition set_formatted_number (v : pyval) (e : elem) : elem :=
  on_kids (on_first "text:number" (e_set_text (Some (tostr v)))) (subelement "text:number" e).
(** propertymixins.py:92-104 visibility *)
Definition VISIBILITY : list pystr := [lit "visible"; lit "collapse"; lit "filter"].
Definition visibility (e : elem) : pyval :=
  match get_attr "table:visibility" VNone e with VNone => VStr (lit "visible") | v => v end.
Definition set_visibility (v : pyval) : act elem unit :=
  match v with
  | VStr s => if decide (s ∈ VISIBILITY) then put_attr "table:visibility" v else araise ValueError
  | _ => araise ValueError
  end.

(** ** text.py *)
(** text.py:117-124 Hyperlink.target_frame *)
Definition target_frame (e : elem) : pyval := get_attr "office:target-frame-name" VNone e.
Definition set_target_frame (v : pyval) : act elem unit :=
  let! _ := put_attr "office:target-frame-name" v in
  let show := match v with VStr s => bool_decide (s = lit "_blank") | _ => false end in
  put_attr "xlink:show" (VStr (if show then lit "new" else lit "replace")).
(** text.py:189-196 Section.protected; [key]: the text of the random key *)
Definition protected (e : elem) : bool := get_bool_attr "text:protected" e.
Definition set_protected (key : pyval) (v : pyval) : act elem unit :=
  let! _ := set_bool_attr "text:protected" v in
  fun e => if protected e then put_attr "text:protection-key" key e else (e, Ok tt).
End attrs.
