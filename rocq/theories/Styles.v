(** Model of /repo/ezodf/styles.py: containers of styles, and style objects.  The state is the
    store of all trees and the cache of the container. *)
From Verif Require Export Wrapper.

(** ** Container *)
(** styles.py:39-41, 52, 60: an entry of the cache is a node found by [_find], or the object
    that was assigned (given by its xmlnode) *)
Inductive ref := RNode (x : N) | RObj (xmlnode : N).
Global Instance ref_eq_dec : EqDecision ref.
Proof. solve_decision. Defined.
(** a name, or None, the name of elements without style:name *)
Notation sname := (option pystr).
Record cst := CSt { tree_of : node; cache : gmap (option pystr) ref }.
Definition STYLE_NAME : string := "style:name".
(** [style.get(CN('style:name'))] *)
Definition style_name (k : node) : sname := attrs (pl (root k)) !! STYLE_NAME.
(** styles.py:54-63 _find *)
Definition s_find (x : N) (n : sname) : act cst (option ref) := fun s =>
  match cache s !! n with
  | Some r => (s, Ok (Some r))
  | None =>
      match list_find (fun k => style_name k = n) (el_kids x (tree_of s)) with
      | Some (_, k) => (CSt (tree_of s) (<[n := RNode (nid k)]> (cache s)), Ok (Some (RNode (nid k))))
      | None => (s, Ok None)
      end
  end.
(** xmlns.py:87-93 wrap: PageLayout.__init__ (styles.py:143) has no parameter xmlnode; a wrapper
    has no tag.  The result is given by the node of the new wrapper. *)
Definition s_wrap (r : ref) (w : node) : res N :=
  match r with
  | RObj _ => Err AttributeError
  | RNode x =>
      match sub x w with
      | Some t => if decide (ltag t = "style:page-layout"%string) then Err TypeError else Ok x
      | None => Err AttributeError
      end
  end.
(** styles.py:43-48 __getitem__ *)
Definition s_get (x : N) (n : sname) : act cst N :=
  let! r := s_find x n in
  match r with
  | Some r => fun s => (s, s_wrap r (tree_of s))
  | None => araise KeyError
  end.
(** an operation on the trees *)
Definition on_tree {A} (m : act node A) : act cst A := fun s =>
  let '(w, r) := m (tree_of s) in (CSt w (cache s), r).
(** styles.py:50-56 __setitem__ with a wrapper of the node [c]; lxml takes no wrapper for a node *)
Definition s_set (x : N) (n : sname) (c : N) : act cst unit :=
  let! r := s_find x n in
  let! _ := match r with
            | None => on_tree (el_append x c)
            | Some (RNode y) => on_tree (el_replace x y c)
            | Some (RObj _) => araise TypeError
            end in
  fun s => (CSt (tree_of s) (<[n := RObj c]> (cache s)), Ok tt).

(** ** Style objects *)
(** styles.py:88, 114-126, 131-133, 138-141, 149: ATTRIBUTEMAP of the class used for a tag *)
Definition STYLE_KEYS : list string :=
  ["name"; "display-name"; "family"; "parent-style-name"; "next-style-name"; "list-style-name";
   "master-page-name"; "auto-update"; "data-style-name"; "class"; "default-outline-level"]%string.
Definition style_keys (t : string) : list string :=
  if decide (t = "style:style"%string) then STYLE_KEYS
  else if decide (t = "style:default-style"%string) then ["family"%string]
  else [].
(** styles.py:93-95 BaseStyle.__getitem__: the keys are local names of style attributes *)
Definition st_get (k : string) (e : elem) : res (option pystr) :=
  if decide (k ∈ style_keys (e_tag e)) then Ok (e_get ("style:" ++ k) e) else Err KeyError.
(** styles.py:97-98 BaseStyle.__setitem__: only a docstring *)
Definition st_set (k : string) (v : pystr) : act elem unit := fun e => (e, Ok tt).
