(** Model of ezlist in /repo/ezodf/__init__.py.  The list and all its parts are new nodes, so the
    state is the element of the list. *)
From Verif Require Export TextLists.

(** drop the first child with the tag *)
Fixpoint drop_first (t : string) (ks : list elem) : list elem :=
  match ks with [] => [] | k :: r => if decide (e_tag k = t) then r else k :: drop_first t r end.
(** text.py:161-168 List.header = ListHeader(…) with a new header; its [kind] is ListHeader *)
Definition put_header (h : elem) (e : elem) : elem := e_insert 0 h (on_kids (drop_first LIST_HEADER) e).
(** __init__.py:40-53 ezlist *)
Definition ezlist (items : list pystr) (header style : pystr) : elem :=
  let slist := new_list style in
  let slist := match header with [] => slist | _ => put_header (new_list_part LIST_HEADER header) slist end in
  foldl (fun l t => e_append (new_list_part "text:list-item" t) l) slist items.
