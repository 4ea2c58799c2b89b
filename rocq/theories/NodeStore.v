(** Element trees with node identity, and the store of all trees of a program.

    Not part of /repo: models lxml.etree where the library keeps references to nodes
    (row cache, column cache, wrappers).  Every node carries an id; the store is one
    tree whose root is not an element: its children are the trees without parent.
    Taking a node out of its tree makes it such a tree, nothing is ever freed. *)
From Verif Require Export PyBase Dom.

(** Node label: identity and payload. *)
Record lnd := L { nid_ : N; pl : nd }.
Notation node := (tree lnd).
Definition nid (t : node) : N := nid_ (root t).
Definition ltag (t : node) : string := tag (pl (root t)).

(** The tree as a reader sees it. *)
Fixpoint erase (t : node) : elem :=
  match t with T a ks => T (pl a) (map erase ks) end.

(** ids of all nodes of a tree, document order *)
Fixpoint ids (t : node) : list N :=
  match t with T a ks => nid_ a :: flat_map ids ks end.

(** [el.findall('.//' + tag)] *)
Fixpoint ldesc (tg : string) (t : node) : list node :=
  match t with
  | T _ ks => flat_map (fun k => (if decide (ltag k = tg) then [k] else []) ++ ldesc tg k) ks
  end.

(** New nodes for the elements of a tree; [n] is the next unused id. *)
Fixpoint label (e : elem) (n : N) : node * N :=
  match e with
  | T a ks =>
      let '(ks', n') :=
        (fix go (ks : list elem) (n : N) : list node * N :=
           match ks with
           | [] => ([], n)
           | k :: r => let '(k', n1) := label k n in let '(r', n2) := go r n1 in (k' :: r', n2)
           end) ks (n + 1)%N in
      (T (L n a) ks', n')
  end.

(** the node with id [x] *)
Fixpoint sub (x : N) (t : node) : option node :=
  match t with
  | T a ks =>
      if decide (nid_ a = x) then Some t
      else (fix go (ks : list node) : option node :=
              match ks with
              | [] => None
              | k :: r => match sub x k with Some y => Some y | None => go r end
              end) ks
  end.

(** Replace the node [x] (not the root) by a list of nodes. *)
Fixpoint edit (x : N) (f : node -> list node) (t : node) : node :=
  match t with
  | T a ks => T a (flat_map (fun k => if decide (nid k = x) then f k else [edit x f k]) ks)
  end.

(** one more tree without parent *)
Definition add_root (d w : node) : node :=
  match w with T a ks => T a (ks ++ [d]) end.
(** the node [x] has no parent *)
Definition no_parent (x : N) (w : node) : Prop := x ∈ map nid (kids w).
Global Instance no_parent_dec x w : Decision (no_parent x w).
Proof. unfold no_parent. apply _. Defined.

Definition lon_root (f : nd -> nd) (t : node) : node :=
  match t with T a ks => T (L (nid_ a) (f (pl a))) ks end.
Definition lon_kids (f : list node -> list node) (t : node) : node :=
  match t with T a ks => T a (f ks) end.
Definition lset_tail (s : option pystr) : node -> node := lon_root (nd_set_tail s).
Definition ltail (t : node) : option pystr := tail (pl (root t)).

(** State of a program that holds one table object: the store, the next unused id, and
    the Python object: node of the table, row cache, column cache. *)
Record tobj := TObj { rt : N; rowc : list N; colc : list N }.
Record st := St { store : node; nxt : N; obj : tobj }.
Definition set_store (w : node) (s : st) : st := St w (nxt s) (obj s).
Definition set_nxt (n : N) (s : st) : st := St (store s) n (obj s).
Definition set_obj (o : tobj) (s : st) : st := St (store s) (nxt s) o.
Definition set_rowc (l : list N) (s : st) : st := set_obj (TObj (rt (obj s)) l (colc (obj s))) s.
Definition set_colc (l : list N) (s : st) : st := set_obj (TObj (rt (obj s)) (rowc (obj s)) l) s.

Definition aget : act st st := fun s => (s, Ok s).
Definition amod (f : st -> st) : act st unit := fun s => (f s, Ok tt).
Definition alift {A} (r : res A) : act st A := fun s => (s, r).

(** Follow a reference.  Every id ever given out stays in the store, so the last case
    does not occur. *)
Definition deref (x : N) : act st node := fun s =>
  match sub x (store s) with Some t => (s, Ok t) | None => (s, Err AttributeError) end.

(** [etree.Element(...)] with its children: new nodes, not yet placed *)
Definition alloc (e : elem) : act st node := fun s =>
  let '(t, n) := label e (nxt s) in (set_nxt n s, Ok t).

(** [x.addnext(new)]: the text after [x] ends up after [new]; a node without parent
    cannot have sibling elements. *)
Definition addnext (x : N) (new : node) : act st unit := fun s =>
  if decide (no_parent x (store s)) then (s, Err TypeError)
  else (set_store (edit x (fun k => [lset_tail None k; lset_tail (ltail k) new]) (store s)) s, Ok tt).
(** [x.addprevious(new)] *)
Definition addprevious (x : N) (new : node) : act st unit := fun s =>
  if decide (no_parent x (store s)) then (s, Err TypeError)
  else (set_store (edit x (fun k => [new; k]) (store s)) s, Ok tt).
(** [x.getparent().remove(x)]; [getparent()] is None for a node without parent *)
Definition remove_node (x : N) : act st unit := fun s =>
  if decide (no_parent x (store s)) then (s, Err AttributeError)
  else match sub x (store s) with
       | Some k => (set_store (add_root k (edit x (fun _ => []) (store s))) s, Ok tt)
       | None => (s, Err AttributeError)
       end.
(** change of the children list of [x] *)
Definition mod_kids (x : N) (f : list node -> list node) : act st unit :=
  amod (fun s => set_store (edit x (fun k => [lon_kids f k]) (store s)) s).
(** change of tag, attributes or text of [x] *)
Definition mod_nd (x : N) (f : nd -> nd) : act st unit :=
  amod (fun s => set_store (edit x (fun k => [lon_root f k]) (store s)) s).
(** [x.append(new)], [x.insert(i, new)] for a new node *)
Definition append_child (x : N) (new : node) : act st unit := mod_kids x (fun ks => ks ++ [new]).
Definition insert_child (x : N) (i : Z) (new : node) : act st unit :=
  mod_kids x (fun ks => insert_at (lxml_insert_pos (length ks) i) new ks).
(** [del x[i]] *)
Definition delete_child (x : N) (i : Z) : act st unit :=
  let! t := deref x in
  let! k := alift (py_get (kids t) i) in
  remove_node (nid k).
(** [x[i] = e]: the node [e] is taken from where it is and replaces the child; the
    replaced child is left without parent.  [e] must not contain [x]. *)
Definition set_item (x : N) (i : Z) (e : N) : act st unit :=
  let! t := deref x in
  let! k := alift (py_get (kids t) i) in
  if decide (nid k = e) then aret tt
  else
    let! en := deref e in
    let! _ := amod (fun s => set_store (edit e (fun _ => []) (store s)) s) in
    let! k' := deref (nid k) in
    amod (fun s => set_store (add_root k' (edit (nid k) (fun _ => [en]) (store s))) s).
(** a new element without parent *)
Definition new_root (e : elem) : act st N :=
  let! t := alloc e in
  let! _ := amod (fun s => set_store (add_root t (store s)) s) in
  aret (nid t).
