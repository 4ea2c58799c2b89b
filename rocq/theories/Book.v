(** Model of the sheets of a spreadsheet together with the table objects the library hands
    out for them: /repo/ezodf/sheets.py, pagecontainer.py, wrapcache.py and table.py at work on
    one tree. *)
From Verif Require Export Table Pages.

(** The tree with everything that ever was in it, the next identity, and the table objects
    that are kept: wrapcache.py:11 the dictionary, keyed by the element (C54). *)
Record bk := Bk { k_store : node; k_nxt : N; k_cache : gmap N tobj }.

Section book.
Context `{U : Unicode}.

(** A method of the table object of [x] (Python keeps the object alive, wrapcache.py:16-23
    gives the same one every time). *)
Definition on_table {A} (x : N) (m : act st A) : act bk A := fun b =>
  match k_cache b !! x with
  | Some o => let '(s, r) := m (St (k_store b) (k_nxt b) o) in (Bk (store s) (nxt s) (<[x := obj s]> (k_cache b)), r)
  | None => (b, Err AttributeError)
  end.
(** An operation on the tree that makes no table object. *)
Definition on_tree {A} (m : act node A) : act bk A := fun b =>
  let '(w, r) := m (k_store b) in (Bk w (k_nxt b) (k_cache b), r).
(** Making a table object (table.py:29-45): [m] runs the constructor, the object is kept when it
    is done (table.py:45 wrapcache.add). *)
Definition make (m : act st unit) : act bk N := fun b =>
  let '(s, r) := m (St (k_store b) (k_nxt b) (TObj 0 [] [])) in
  match r with
  | Ok _ => (Bk (store s) (nxt s) (<[rt (obj s) := obj s]> (k_cache b)), Ok (rt (obj s)))
  | Err e => (Bk (store s) (nxt s) (k_cache b), Err e)
  end.
(** wrapcache.py:16-23 wrap: the object that is there, or Table(xmlnode=x) *)
Definition k_wrap (strat : strategy) (mc : Z * Z) (x : N) : act bk N := fun b =>
  match k_cache b !! x with
  | Some _ => (b, Ok x)
  | None => make (load strat mc x) b
  end.
(** table.py:29-45 Table(name, size) *)
Definition k_new (strat : strategy) (mc : Z * Z) (name : pystr) (size : Z * Z) : act bk N := make (new_table strat mc name size).
(** table.py:101-106 copy: the object of [x] stays as it is, the copy gets its own *)
Definition k_copy (strat : strategy) (mc : Z * Z) (x : N) (newname : option pystr) : act bk N := fun b =>
  match k_cache b !! x with
  | Some o => make (let! _ := amod (set_obj o) in copy strat mc newname) b
  | None => (b, Err AttributeError)
  end.
(** pagecontainer.py:28-34 __getitem__, 66-74 *)
Definition k_get (p : container) (strat : strategy) (mc : Z * Z) (k : pkey) : act bk N :=
  let! x := on_tree (pc_get p k) in k_wrap strat mc x.
(** pagecontainer.py:36-45 __setitem__: the old sheet is wrapped first *)
Definition k_set (p : container) (strat : strategy) (mc : Z * Z) (k : pkey) (c : wobj) : act bk unit :=
  if is_valid_child p c
  then let! old := k_get p strat mc k in on_tree (el_replace (pc_body p) old (w_node c))
  else araise TypeError.
(** pagecontainer.py:47-54 __delitem__: likewise *)
Definition k_del (p : container) (strat : strategy) (mc : Z * Z) (k : pkey) : act bk unit :=
  let! old := k_get p strat mc k in on_tree (el_remove (pc_body p) old).
(** pagecontainer.py:76-81 append *)
Definition k_append (p : container) (c : wobj) : act bk N := on_tree (pc_append p c).
End book.
