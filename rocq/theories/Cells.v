(** Model of the value part of /repo/ezodf/cells.py. *)
From Verif Require Export Whitespace PyFloat.

Section cells.
Context `{U : Unicode} `{F : PyFloat}.

(** Values handed to and returned by a cell.  [VObj s b]: any other object, with its
    [str()] and its truth value; [VWrap e]: a wrapper object around [e]. *)
Inductive pyval :=
  | VNone | VBool (b : bool) | VInt (z : Z) | VFloat (f : pfloat) | VStr (s : pystr)
  | VObj (s : pystr) (b : bool) | VWrap (e : elem).

(** [tostr(value)]; of a wrapper object it is never used *)
Definition tostr (v : pyval) : pystr :=
  match v with
  | VNone => lit "None" | VBool true => lit "True" | VBool false => lit "False"
  | VInt z => show_Z z | VFloat f => f_repr f | VStr s => s | VObj s _ => s | VWrap _ => []
  end.
(** truth value; [len] of a wrapper is its number of children (base.py:29-30) *)
Definition truth (v : pyval) : bool :=
  match v with
  | VNone => false | VBool b => b | VInt z => bool_decide (z <> 0%Z) | VFloat f => f_truth f
  | VStr s => bool_decide (s <> []) | VObj _ b => b | VWrap e => bool_decide (kids e <> [])
  end.

(** cells.py:16-17 VALID_VALUE_TYPES *)
Definition VALID_VALUE_TYPES : list pystr :=
  [lit "float"; lit "percentage"; lit "currency"; lit "date"; lit "time"; lit "boolean"; lit "string"].
(** cells.py:18 NUMERIC_TYPES *)
Definition NUMERIC_TYPES : list pystr := [lit "float"; lit "percentage"; lit "currency"].
(** cells.py:20-28 TYPE_VALUE_MAP *)
Definition TYPE_VALUE_MAP (t : pystr) : option string :=
  if decide (t = lit "string") then Some "office:string-value"
  else if decide (t ∈ NUMERIC_TYPES) then Some "office:value"
  else if decide (t = lit "date") then Some "office:date-value"
  else if decide (t = lit "time") then Some "office:time-value"
  else if decide (t = lit "boolean") then Some "office:boolean-value"
  else None.

(** cells.py:58-60 value_type, 189-191 currency *)
Definition value_type (e : elem) : option pystr := e_get "office:value-type" e.
Definition currency (e : elem) : option pystr := e_get "office:currency" e.

(** cells.py:173-175 plaintext *)
Definition cell_plaintext (e : elem) : res pystr :=
  do l <- rmap (fun k => if decide (e_tag k ∈ cell_content_tags)
                         then do p <- plaintext k; Ok [p] else Ok []) (kids e);
  Ok (py_join [10%N] (concat l)).

(** cells.py:62-80 value *)
Definition value (e : elem) : res pyval :=
  match value_type e with
  | None => Ok VNone
  | Some t =>
      if decide (t = lit "string") then do s <- cell_plaintext e; Ok (VStr s)
      else match TYPE_VALUE_MAP t with
           | None => Err KeyError
           | Some k =>
               match e_get k e with
               | None => Ok VNone
               | Some v =>
                   if decide (t ∈ NUMERIC_TYPES) then
                     match f_parse v with Some f => Ok (VFloat f) | None => Err ValueError end
                   else if decide (t = lit "boolean") then Ok (VBool (bool_decide (v = lit "true")))
                   else Ok (VStr v)
               end
           end
  end.

(** base.py:112-117 set_attr *)
Definition set_attr (k : string) (v : pystr) : act elem unit :=
  fun e => match v with [] => (e, Err ValueError) | _ => (e_set k v e, Ok tt) end.

(** cells.py:148-153 _clear_value_attribute of the present type: a KeyError of the map
    or of the attributes is caught *)
Definition clear_value_attribute (e : elem) : elem :=
  match value_type e with
  | Some t => match TYPE_VALUE_MAP t with Some k => e_del k e | None => e end
  | None => e
  end.
(** cells.py:139-146 _clear_old_value, _clear_content *)
Definition clear_old_value (e : elem) : elem := on_kids (fun _ => []) (clear_value_attribute e).

(** cells.py:84-91 is_valid_value; the kind of a wrapper is given by the tag *)
Definition is_valid_value (v : pyval) : bool :=
  match v with
  | VNone => false
  | VWrap e => bool_decide (e_tag e ∈ cell_content_tags)
  | _ => true
  end.
(** cells.py:96-103 determine_value_type *)
Definition determine_value_type (v : pyval) : pystr :=
  match v with VBool _ => lit "boolean" | VFloat _ | VInt _ => lit "float" | _ => lit "string" end.
(** cells.py:105-114 convert: an element or a string *)
Definition convert (v : pyval) (t : pystr) : elem + pystr :=
  match v with
  | VWrap e => inl e
  | _ => if decide (t = lit "string") then inl (new_span "text:p" (tostr v) [])
         else if decide (t = lit "boolean") then inr (if truth v then lit "true" else lit "false")
         else inr (tostr v)
  end.
(** cells.py:128-137 _set_new_value, _set_value_type *)
Definition set_new_value (v : elem + pystr) (t : pystr) (cur : option pystr) : act elem unit :=
  let! t := match v with
            | inl p => fun e => (e_append p e, Ok (lit "string"))
            | inr s => match TYPE_VALUE_MAP t with
                       | Some k => let! _ := set_attr k s in aret t
                       | None => araise KeyError
                       end
            end in
  let! _ := set_attr "office:value-type" t in
  if truthy cur && bool_decide (t = lit "currency") then set_attr "office:currency" (str_of cur) else aret tt.

(** cells.py:82-126 set_value.  The type is a string or None, the currency a string or None. *)
Definition set_value (v : pyval) (vt cur : option pystr) : act elem unit :=
  if is_valid_value v then
    let vt := match cur with Some _ => Some (lit "currency") | None => vt end in
    let t := match vt with Some t => t | None => determine_value_type v end in
    if decide (t ∈ VALID_VALUE_TYPES) then
      let new := convert v t in
      let! _ := (fun e => (clear_old_value e, Ok tt)) in
      set_new_value new t cur
    else araise TypeError
  else araise ValueError.

(** cells.py:48-56 Cell(value, value_type, currency, style_name) *)
Definition new_cell (tg : string) (v : pyval) (vt cur style : option pystr) : elem * res unit :=
  let e := new_elem tg in
  let e := match style with Some st => e_set "table:style-name" st e | None => e end in
  match v with
  | VNone => match vt with Some t => set_attr "office:value-type" t e | None => (e, Ok tt) end
  | _ => set_value v vt cur e
  end.

(** cells.py:155-171 display_form: replaces the first paragraph, or appends one *)
Fixpoint replace_first (p : elem) (l : list elem) : list elem :=
  match l with
  | [] => [p]
  | k :: r => if decide (e_tag k = "text:p") then p :: r else k :: replace_first p r
  end.
Definition set_display_form (t : pystr) : act elem unit :=
  fun e => match value_type e with
           | None => (e, Err TypeError)
           | Some ty => if decide (ty = lit "string") then (e, Err TypeError)
                        else (on_kids (replace_first (new_span "text:p" t [])) e, Ok tt)
           end.

(** cells.py:177-187 append_text *)
Definition cell_append_text (t : pystr) (style : pystr) : act elem unit :=
  fun e => if decide (value_type e = Some (lit "string")) then
    match last (kids e) with
    | Some k => if decide (e_tag k ∈ cell_content_tags)
                then (on_kids (fun ks => take (length ks - 1) ks ++ [e_append (new_span "text:span" t style) k]) e, Ok tt)
                else (e_append (new_span "text:p" t style) e, Ok tt)
    | None => (e_append (new_span "text:p" t style) e, Ok tt)
    end
  else (e, Err TypeError).

(** cells.py:42-45 style_name, formula, protected, content_validation_name
    (propertymixins.py:14-31) *)
Definition set_string (k : string) (v : pystr) : act elem unit := fun e => (e_set k v e, Ok tt).
Definition set_bool (k : string) (b : bool) : act elem unit :=
  fun e => (e_set k (if b then lit "true" else lit "false") e, Ok tt).
End cells.
Global Arguments pyval {F}.
