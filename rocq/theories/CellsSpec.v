(** Vocabulary for cell values. *)
From Verif Require Export Cells.

Section spec.
Context `{U : Unicode} `{F : PyFloat}.

(** The type a cell has after [set_value v vt cur]. *)
Definition type_of (v : pyval) (vt cur : option pystr) : pystr :=
  match v, cur, vt with
  | VWrap _, _, _ => lit "string"
  | _, Some _, _ => lit "currency"
  | _, None, Some t => t
  | VBool _, None, None => lit "boolean"
  | VInt _, None, None | VFloat _, None, None => lit "float"
  | _, None, None => lit "string"
  end.

(** How a value is stored when it is text. *)
Definition written (v : pyval) (s : pystr) : Prop :=
  match v with
  | VBool b => s = if b then lit "True" else lit "False"
  | VInt z => s = show_Z z
  | VFloat f => s = f_repr f
  | VStr s' => s = s'
  | VObj s' _ => s = s'
  | VWrap e => plaintext e = Ok s
  | VNone => False
  end.

(** [read_back t v r]: a cell of type [t] set to [v] returns [r]. *)
Inductive read_back : pystr -> pyval -> pyval -> Prop :=
  | RB_string v s : written v s -> read_back (lit "string") v (VStr s)
  | RB_boolean v : read_back (lit "boolean") v (VBool (truth v))
  | RB_float t f : t ∈ [lit "float"; lit "percentage"; lit "currency"] -> read_back t (VFloat f) (VFloat f)
  | RB_int t z f : t ∈ [lit "float"; lit "percentage"; lit "currency"] ->
      f_parse (show_Z z) = Some f -> read_back t (VInt z) (VFloat f)
  | RB_number t s f : t ∈ [lit "float"; lit "percentage"; lit "currency"] ->
      f_parse s = Some f -> read_back t (VStr s) (VFloat f)
  | RB_date t v s : t = lit "date" \/ t = lit "time" -> written v s -> read_back t v (VStr s).

(** The calls that are accepted. *)
Definition acceptable (v : pyval) (vt cur : option pystr) : Prop :=
  match v with
  | VNone => False
  | VWrap e => (e_tag e = "text:p" \/ e_tag e = "text:h") /\
      (cur = None -> forall t, vt = Some t -> t ∈ VALID_VALUE_TYPES)
  | _ => type_of v vt cur ∈ VALID_VALUE_TYPES /\
      (written v [] -> type_of v vt cur = lit "string" \/ type_of v vt cur = lit "boolean")
  end.

(** a call of [set_value] and its effect *)
Record call := Call { c_val : pyval; c_type : option pystr; c_cur : option pystr }.
Definition run_call (e : elem) (c : call) : elem := (set_value (c_val c) (c_type c) (c_cur c) e).1.
(** The currency a call leaves: of its own, if it stores one, else the former. *)
Definition cur_after (old : option pystr) (c : call) : option pystr :=
  match c_cur c, c_val c with
  | _, VNone | _, VWrap _ => old
  | Some (x :: s), VStr [] | Some (x :: s), VObj [] _ => old
  | Some (x :: s), _ => Some (x :: s)
  | _, _ => old
  end.

(** plain texts of the paragraphs and headings in a cell *)
Definition is_text (k : elem) : Prop := e_tag k = "text:p" \/ e_tag k = "text:h".
Global Instance is_text_dec k : Decision (is_text k).
Proof. unfold is_text. apply _. Defined.
End spec.
