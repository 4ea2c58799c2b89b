(** Model of /repo/ezodf/variables.py.  The state is the store of all trees; a wrapper is its
    node together with what its constructor remembers. *)
From Verif Require Export Wrapper Attrs.

Section variables.
Context `{U : Unicode} `{F : PyFloat}.
(** [root.findall(".//tag[@text:name='name']")] for a name with an apostrophe, which ends the
    quoted text too early: whatever lxml makes of it *)
Context (odd : N -> string -> pystr -> node -> res (list N)).

(** ** Access to the element of a wrapper *)
(** tag, attributes, text and tail of the node [x] (children play no part here) *)
Definition self (x : N) (w : node) : elem :=
  match sub x w with Some t => T (pl (root t)) [] | None => new_elem "" end.
(** change them by one of the functions of base.py *)
Definition on_self {A} (x : N) (m : act elem A) : act node A := fun w =>
  match sub x w with
  | Some t => let '(e, r) := m (self x w) in (edit x (fun k => [lon_root (fun _ => root e) k]) w, r)
  | None => (w, Err AttributeError)
  end.
(** base.py:36-38 text *)
Definition put_text (s : pystr) : act elem unit := fun e => (e_set_text (Some s) e, Ok tt).

(** Objects of variables.py: SimpleVariable (90-117), UserField (120-156) and the six instance
    classes (159-273), which all behave as SimpleVariableInstance. *)
Inductive vkind := Simple | User | Inst.
(** the class xmlns.wrap uses, by tag; other objects are taken as having no name *)
Definition vkind_of (t : string) : option vkind :=
  if decide (t = "text:variable-decl"%string) then Some Simple
  else if decide (t = "text:user-field-decl"%string) then Some User
  else if decide (t ∈ ["text:variable-set"; "text:variable-get"; "text:variable-input";
                       "text:user-field-set"; "text:user-field-get"; "text:user-field-input"]%string) then Some Inst
  else None.
(** variables.py:54-57, 161-163: the name is remembered *)
Record variable := Var { v_kind : vkind; v_node : N; v_name : option pystr }.
Definition new_variable (x : N) (w : node) : res variable :=
  match vkind_of (e_tag (self x w)) with
  | Some k => Ok (Var k x (e_get "text:name" (self x w)))
  | None => Err AttributeError
  end.

(** ** Instances *)
Definition VALUE_TYPE : string := "office:value-type".
Definition found (r : N) (tg : string) (nm : pystr) (w : node) : res (list N) :=
  if decide (39%N ∈ nm) then odd r tg nm w
  else Ok (match sub r w with
           | Some t => map nid (filter (fun k => attrs (pl (root k)) !! "text:name"%string = Some nm) (ldesc tg t))
           | None => []
           end).
(** variables.py:59-73 instances; ['%s' % None] is 'None' *)
Definition instances (v : variable) (w : node) : res (list N) :=
  let r := get_xmlroot (v_node v) w in
  let nm := default (lit "None") (v_name v) in
  do vs <- found r "text:variable-set" nm w;
  do vg <- found r "text:variable-get" nm w;
  do vi <- found r "text:variable-input" nm w;
  Ok (vs ++ vg ++ vi).
Definition each_instance (v : variable) (f : N -> act node unit) : act node unit := fun w =>
  match instances v w with Ok l => aiter l f w | Err e => (w, Err e) end.

(** ** Types *)
(** variables.py:75-78, 190-193 type *)
Definition var_type (x : N) (w : node) : pyval := get_attr VALUE_TYPE (VStr (lit "string")) (self x w).
(** variables.py:195-198 type of an instance *)
Definition set_inst_type (t : pyval) (x : N) : act node unit := on_self x (put_attr VALUE_TYPE (VStr (tostr t))).
(** variables.py:80-85 type of a variable *)
Definition set_decl_type (t : pyval) (v : variable) : act node unit :=
  let! _ := on_self (v_node v) (put_attr VALUE_TYPE (VStr (tostr t))) in
  each_instance v (set_inst_type t).
Definition set_type (t : pyval) (v : variable) : act node unit :=
  match v_kind v with Inst => set_inst_type t (v_node v) | _ => set_decl_type t v end.
(** the tests on type(v) in the setters of value *)
Definition type_for (v : pyval) : pyval :=
  match v with VBool _ => VStr (lit "boolean") | VInt _ | VFloat _ => VStr (lit "float") | _ => VStr (lit "string") end.

(** ** Values *)
Definition is_str (v : pyval) (s : string) : bool := match v with VStr t => bool_decide (t = lit s) | _ => false end.
Definition opt_str (s : option pystr) : pyval := match s with Some s => VStr s | None => VNone end.
(** [float(v)] of a string or None *)
Definition py_float (v : pyval) : res pyval :=
  match v with
  | VStr s => match f_parse s with Some f => Ok (VFloat f) | None => Err ValueError end
  | _ => Err TypeError
  end.
(** variables.py:165-175 value of an instance *)
Definition inst_value (x : N) (w : node) : res pyval :=
  let t := var_type x w in
  let s := e_text (self x w) in
  if is_str t "string" then Ok (opt_str s)
  else if is_str t "boolean" then Ok (VBool (bool_decide (s = Some (lit "true"))))
  else if is_str t "float" then py_float (opt_str s)
  else Ok (opt_str s).
(** variables.py:177-188 *)
Definition set_inst_value (v : pyval) (x : N) : act node unit :=
  let! _ := on_self x (put_text (tostr v)) in
  set_inst_type (type_for v) x.
(** variables.py:94-100 SimpleVariable.value *)
Definition simple_value (v : variable) (w : node) : res pyval :=
  do l <- instances v w;
  do x <- py_get l 0;
  inst_value x w.
(** variables.py:102-117 *)
Definition set_simple_value (u : pyval) (v : variable) : act node unit :=
  let! _ := each_instance v (set_inst_value u) in
  set_decl_type (type_for u) v.
(** variables.py:124-135 UserField.value *)
Definition user_value (v : variable) (w : node) : res pyval :=
  let e := self (v_node v) w in
  let t := var_type (v_node v) w in
  if is_str t "boolean" then Ok (VBool (get_bool_attr "office:boolean-value" e))
  else if is_str t "string" then Ok (get_attr "office:string-value" VNone e)
  else py_float (get_attr "office:value" VNone e).
(** variables.py:137-156 *)
Definition set_user_value (u : pyval) (v : variable) : act node unit :=
  let! _ := each_instance v (set_inst_value u) in
  match u with
  | VBool _ =>
      let! _ := set_decl_type (VStr (lit "boolean")) v in
      on_self (v_node v) (set_bool_attr "office:boolean-value" u)
  | VInt _ | VFloat _ =>
      let! _ := on_self (v_node v) (put_attr "office:value" u) in
      set_decl_type (VStr (lit "float")) v
  | _ =>
      let! _ := on_self (v_node v) (put_attr "office:string-value" u) in
      set_decl_type (VStr (lit "string")) v
  end.
Definition get_value (v : variable) (w : node) : res pyval :=
  match v_kind v with Simple => simple_value v w | User => user_value v w | Inst => inst_value (v_node v) w end.
Definition put_value (u : pyval) (v : variable) : act node unit :=
  match v_kind v with
  | Simple => set_simple_value u v
  | User => set_user_value u v
  | Inst => set_inst_value u (v_node v)
  end.

(** ** Variables: the container *)
Record variables := Vars { vs_node : N; vs_dict : gmap (option pystr) variable }.
(** variables.py:17-22 *)
Fixpoint collect (l : list N) (w : node) (d : gmap (option pystr) variable) : res (gmap (option pystr) variable) :=
  match l with
  | [] => Ok d
  | x :: l => do v <- new_variable x w; collect l w (<[v_name v := v]> d)
  end.
Definition new_variables (x : N) (w : node) : res variables :=
  do d <- collect (wr_iter x w) w ∅; Ok (Vars x d).
(** keys: a name, None or a number *)
Inductive key := KStr (s : pystr) | KNone | KInt (z : Z).
Definition lookup_key (vs : variables) (k : key) : option variable :=
  match k with KStr s => vs_dict vs !! Some s | KNone => vs_dict vs !! None | KInt _ => None end.
Definition int_key (k : key) : res Z :=
  match k with KStr s => py_int s | KNone => Err TypeError | KInt z => Ok z end.
(** variables.py:24-26 __contains__ *)
Definition vs_contains (vs : variables) (k : key) : bool := bool_decide (is_Some (lookup_key vs k)).
(** variables.py:28-32 __getitem__: the variable, or (base.py:81-84) the child at a position *)
Definition vs_get (vs : variables) (k : key) (w : node) : res (variable + N) :=
  match lookup_key vs k with
  | Some v => Ok (inl v)
  | None => do i <- int_key k; do c <- (get_child (vs_node vs) i w).2; Ok (inr c)
  end.
(** variables.py:34-38 __setitem__ of a value that is no wrapper (base.py:86-89: it has no xmlnode) *)
Definition vs_set (vs : variables) (k : key) (u : pyval) : act node unit := fun w =>
  match lookup_key vs k with
  | Some v => put_value u v w
  | None => (w, do i <- int_key k; do c <- (get_child (vs_node vs) i w).2; Err AttributeError)
  end.
End variables.
