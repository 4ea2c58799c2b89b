(** Model of /repo/ezodf/pagecontainer.py, sheets.py and pages.py: the pages of a body. *)
From Verif Require Export Wrapper.

(** pagecontainer.py:14-17 __init__ (sheets.py:12-15, pages.py:12-15) *)
Record container := PC { pc_body : N; childtag : string; nametag : string }.
Definition sheets (b : N) : container := PC b "table:table" "table:name".
Definition pages_of (b : N) : container := PC b "draw:page" "draw:name".
(** an argument: the node, and the class attribute TAG, if there is one *)
Record wobj := WObj { w_node : N; w_TAG : option string }.
(** a key; [True] and [False] are integers *)
Inductive pkey := KInt (i : Z) | KStr (s : pystr) | KOther.

(** pagecontainer.py:25-26 _xmlchildren *)
Definition xmlchildren (p : container) (w : node) : list node :=
  filter (fun k => ltag k = childtag p) (el_kids (pc_body p) w).
Definition pc_name (p : container) (k : node) : option pystr := attrs (pl (root k)) !! nametag p.
(** pagecontainer.py:19-23 __len__, __iter__; 83-84 names *)
Definition pc_len (p : container) (w : node) : nat := length (xmlchildren p w).
Definition pc_iter (p : container) (w : node) : list N := map nid (xmlchildren p w).
Definition pc_names (p : container) (w : node) : list (option pystr) := map (pc_name p) (xmlchildren p w).
(** pagecontainer.py:60-64 _is_valid_child *)
Definition is_valid_child (p : container) (c : wobj) : bool :=
  match w_TAG c with Some t => bool_decide (t = childtag p) | None => false end.
(** pagecontainer.py:66-70 _child_by_name, 72-74 _child_by_index *)
Definition child_by_name (p : container) (s : pystr) : act node N := fun w =>
  (w, match list_find (fun k => pc_name p k = Some s) (xmlchildren p w) with
      | Some (_, k) => Ok (nid k)
      | None => Err KeyError
      end).
Definition child_by_index (p : container) (i : Z) : act node N := fun w =>
  (w, do k <- py_get (xmlchildren p w) i; Ok (nid k)).
(** pagecontainer.py:28-34 __getitem__ *)
Definition pc_get (p : container) (k : pkey) : act node N :=
  match k with
  | KInt i => child_by_index p i
  | KStr s => child_by_name p s
  | KOther => araise TypeError
  end.
(** pagecontainer.py:36-45 __setitem__ *)
Definition pc_set (p : container) (k : pkey) (c : wobj) : act node unit :=
  if is_valid_child p c
  then let! old := pc_get p k in el_replace (pc_body p) old (w_node c)
  else araise TypeError.
(** pagecontainer.py:47-54 __delitem__ *)
Definition pc_del (p : container) (k : pkey) : act node unit :=
  let! old := pc_get p k in el_remove (pc_body p) old.
(** pagecontainer.py:56-58 __iadd__, 76-81 append *)
Definition pc_append (p : container) (c : wobj) : act node N :=
  if is_valid_child p c
  then let! _ := el_append (pc_body p) (w_node c) in aret (w_node c)
  else araise TypeError.
(** pagecontainer.py:86-91 index, insert: positions in the body *)
Definition pc_index (p : container) (c : N) : act node Z := el_index (pc_body p) c.
Definition pc_insert (p : container) (i : Z) (c : wobj) : act node N :=
  let! _ := el_insert (pc_body p) i (w_node c) in aret (w_node c).
