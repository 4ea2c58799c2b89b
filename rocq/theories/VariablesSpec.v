(** What variables and user fields say about the document. *)
From Verif Require Export Variables WrapperSpec.

Section spec.
Context `{U : Unicode} `{F : PyFloat}.

(** [r] is the topmost element above [x]. *)
Definition topmost (w : node) (r x : N) : Prop :=
  upwards w r x /\ element r w /\ forall p, element p w -> r ∉ children p w.
(** The elements below [r] that show the variable [nm]. *)
Definition instance (w : node) (r : N) (nm : pystr) (y : N) : Prop :=
  upwards w r y /\ y <> r /\
  exists d, data y w = Some d /\ attrs d !! "text:name"%string = Some nm /\
    (tag d = "text:variable-set" \/ tag d = "text:variable-get" \/ tag d = "text:variable-input")%string.
(** [y] starts before [z] in the document, or is [z]. *)
Definition not_after (w : node) (y z : N) : Prop := exists i j, ids w !! i = Some y /\ ids w !! j = Some z /\ i <= j.
(** elements that set a variable come first, those that ask the user for it last *)
Definition rank (d : nd) : nat :=
  if decide (tag d = "text:variable-set"%string) then 0 else if decide (tag d = "text:variable-get"%string) then 1 else 2.
Definition first_instance (w : node) (r : N) (nm : pystr) (y : N) : Prop :=
  instance w r nm y /\
  forall z dy dz, instance w r nm z -> data y w = Some dy -> data z w = Some dz ->
    rank dy < rank dz \/ (rank dy = rank dz /\ not_after w y z).
(** A declaration of a variable or user field *)
Definition declaration (w : node) (x : N) : Prop :=
  exists d, data x w = Some d /\ (tag d = "text:variable-decl" \/ tag d = "text:user-field-decl")%string.

(** The same elements in the same places. *)
Definition same_places (w w' : node) : Prop :=
  wfs w' /\ (forall y, element y w' <-> element y w) /\ nid w' = nid w /\ (forall y, children y w' = children y w).
(** tag, name, tail and all attributes but [ks] are the same *)
Definition set_attr_of (k : string) (s : pystr) (d : nd) : nd := Nd (tag d) (<[k := s]> (attrs d)) (text d) (tail d).
Definition set_text_of (s : pystr) (d : nd) : nd := Nd (tag d) (attrs d) (Some s) (tail d).

(** str(v), and the type of the value *)
Definition shown (v : pyval) (s : pystr) : Prop :=
  match v with
  | VNone => s = lit "None"
  | VBool b => s = if b then lit "True" else lit "False"
  | VInt z => s = show_Z z
  | VFloat f => s = f_repr f
  | VStr s' => s = s'
  | VObj s' _ => s = s'
  | VWrap _ => False
  end.
Definition office_type (v : pyval) : pystr :=
  match v with VBool _ => lit "boolean" | VInt _ | VFloat _ => lit "float" | _ => lit "string" end.
(** An instance that was set to [v] *)
Definition shows (v : pyval) (s : pystr) (d : nd) : nd :=
  set_attr_of "office:value-type" (office_type v) (set_text_of s d).
(** What reading [v] back gives: str(v), or float(str(v)) for numbers. *)
Definition reads_as (v r : pyval) : Prop :=
  match v with
  | VBool b => r = VBool b
  | VInt z => exists f, f_parse (show_Z z) = Some f /\ r = VFloat f
  | VFloat f => r = VFloat f
  | _ => exists s, shown v s /\ r = VStr s
  end.
(** what an instance makes of it: a boolean is always read as False *)
Definition inst_reads_as (v r : pyval) : Prop :=
  match v with VBool _ => r = VBool false | _ => reads_as v r end.

(** The values UserField does not store *)
Definition falsy (v : pyval) : Prop :=
  match v with
  | VNone => True | VInt z => z = 0%Z | VFloat f => f_truth f = false | VStr s => s = [] | VObj _ b => b = false
  | VBool _ | VWrap _ => False
  end.
(** the attribute of a user field and its text *)
Definition value_attr (v : pyval) : string :=
  match v with VBool _ => "office:boolean-value" | VInt _ | VFloat _ => "office:value" | _ => "office:string-value" end.
Definition attr_text (v : pyval) (s : pystr) : Prop :=
  match v with VBool b => s = if b then lit "true" else lit "false" | _ => shown v s end.

(** [v] is the variable or user field [nm], declared in the document with the topmost element
    [r]; the name has no apostrophe. *)
Definition declared (w : node) (v : variable) (r : N) (nm : pystr) : Prop :=
  wfs w /\ element (v_node v) w /\ declaration w (v_node v) /\ topmost w r (v_node v) /\
  v_name v = Some nm /\ 39%N ∉ nm.

(** ** Histories of assignments to variables *)
Definition assign (odd : N -> string -> pystr -> node -> res (list N)) (w : node) (a : variable * pyval) : node :=
  (put_value odd a.2 a.1 w).1.
End spec.
