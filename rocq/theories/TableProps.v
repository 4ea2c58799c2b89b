(** Model of the properties of sheets, rows and columns: /repo/ezodf/table.py:26-28, 72-80,
    142-150, 184-190 with propertymixins.py and base.py:106-128, at work on the tree.

    A wrapper of a row or a column is its element (wrapcache.py:16-23); a property writes
    attributes of this one element. *)
From Verif Require Export Attrs Table.

Section props.
Context `{U : Unicode} `{F : PyFloat}.

(** The setters and deleters (Attrs.v).  table.py:27, 186, 187 style_name and
    default_cell_style_name are [AStr], 28 print_ is [ABool], propertymixins.py:92-104 visibility
    is [AVis], base.py:120-128 set_attr and set_bool_attr are [AAttr] and [AFlag];
    propertymixins.py:19-20 [del] is [ADel]. *)
Inductive setting :=
  | AStr (k : string) (v : pyval) | ABool (k : string) (v : pyval) | AVis (v : pyval)
  | AAttr (k : string) (v : pyval) | AFlag (k : string) (v : pyval) | ADel (k : string)
  (** table.py:73-80 protected; [key]: the text of random_protection_key() (C63) *)
  | AProtect (key v : pyval).
(** the element the property belongs to: the table, row_info(i), column_info(i) *)
Inductive place := PSheet | PRow (i : index) | PCol (i : index).

(** table.py:72-80 *)
Definition table_protected (e : elem) : bool := get_bool_attr "table:protected" e.
Definition set_table_protected (key v : pyval) : act elem unit :=
  let! _ := set_bool_attr "table:protected" v in
  fun e => if table_protected e then put_attr "table:protection-key" key e else (e, Ok tt).

Definition do_setting (p : setting) : act elem unit :=
  match p with
  | AStr k v => str_set k v | ABool k v => bool_set k v | AVis v => set_visibility v
  | AAttr k v => put_attr k v | AFlag k v => set_bool_attr k v | ADel k => attr_del k
  | AProtect key v => set_table_protected key v
  end.

(** A property of the element [k]: what [m] does to its attributes; children stay. *)
Definition write_attrs (k : node) (m : act elem unit) : act st unit := fun s =>
  let '(e, r) := m (erase k) in
  (set_store (edit (nid k) (fun k => [T (L (nid k) (root e)) (kids k)]) (store s)) s, r).
(** table.py:142-150 row_info, column_info *)
Definition place_node (q : place) : act st node :=
  match q with
  | PSheet => let! s := aget in deref (rt (obj s))
  | PRow i => row_info i
  | PCol i => column_info i
  end.
Definition write_prop (q : place) (p : setting) : act st unit :=
  let! k := place_node q in write_attrs k (do_setting p).
End props.
