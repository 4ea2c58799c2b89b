(** Model of /repo/ezodf/base.py (list operations of GenericWrapper) and of the lxml calls
    behind it.  A wrapper is the id of its node; the state is the store of all trees, so
    that taking a child from another parent is visible. *)
From Verif Require Export NodeStore.

(** ** lxml *)
Definition el_kids (x : N) (w : node) : list node := match sub x w with Some t => kids t | None => [] end.
(** [_isAncestorOrSame]: putting [c] into [x] would make a cycle *)
Definition above (c x : N) (w : node) : bool :=
  match sub c w with Some t => bool_decide (x ∈ ids t) | None => true end.
Definition cut (c : N) (w : node) : node := edit c (fun _ => []) w.
(** the node [c], already taken out of [w], becomes a tree of its own *)
Definition drop_to_root (t : option node) (w : node) : node :=
  match t with Some t => add_root t w | None => w end.
(** [x.append(c)]: [c] is taken from where it is *)
Definition el_append (x c : N) : act node unit := fun w =>
  if above c x w then (w, Err ValueError)
  else match sub c w with
       | Some t => (edit x (fun k => [lon_kids (fun ks => ks ++ [t]) k]) (cut c w), Ok tt)
       | None => (w, Err ValueError)
       end.
(** [x.insert(i, c)]: before the child that is at [i] now, else at the end *)
Definition el_insert (x : N) (i : Z) (c : N) : act node unit := fun w =>
  match py_get (el_kids x w) i with
  | Err _ => el_append x c w
  | Ok k =>
      if above c x w then (w, Err ValueError)
      else if decide (nid k = c) then (w, Ok tt)
      else match sub c w with
           | Some t => (edit (nid k) (fun k => [t; k]) (cut c w), Ok tt)
           | None => (w, Err ValueError)
           end
  end.
(** [x.replace(old, new)] *)
Definition el_replace (x old new : N) : act node unit := fun w =>
  if decide (old ∉ map nid (el_kids x w)) then (w, Err ValueError)
  else if above new x w then (w, Err ValueError)
  else if decide (old = new) then (w, Ok tt)
  else match sub new w with
       | Some t => let w1 := cut new w in (drop_to_root (sub old w1) (edit old (fun _ => [t]) w1), Ok tt)
       | None => (w, Err ValueError)
       end.
(** [x.remove(c)] *)
Definition el_remove (x c : N) : act node unit := fun w =>
  if decide (c ∉ map nid (el_kids x w)) then (w, Err ValueError)
  else (drop_to_root (sub c w) (cut c w), Ok tt).
(** [x[i]], [del x[i]] (the text after the child goes, too), [x.index(c)] *)
Definition el_get (x : N) (i : Z) : act node N := fun w =>
  (w, do k <- py_get (el_kids x w) i; Ok (nid k)).
Definition el_delete (x : N) (i : Z) : act node unit := fun w =>
  match py_get (el_kids x w) i with
  | Ok k => (drop_to_root (Some (lset_tail None k)) (cut (nid k) w), Ok tt)
  | Err e => (w, Err e)
  end.
Definition el_index (x c : N) : act node Z := fun w =>
  (w, match list_find (fun k => nid k = c) (el_kids x w) with Some (i, _) => Ok (Z.of_nat i) | None => Err ValueError end).
(** [x.clear()] *)
Definition el_clear (x : N) : act node unit := fun w =>
  (foldl (fun w k => add_root k w) (edit x (fun k => [T (L (nid_ (root k)) (Nd (ltag k) ∅ None None)) []]) w) (el_kids x w), Ok tt).
(** [x.getparent()] *)
Definition owner (x : N) : node -> option N :=
  fix go (t : node) : option N :=
    match t with
    | T a ks => if decide (x ∈ map nid ks) then Some (nid_ a)
                else (fix first (ks : list node) : option N :=
                        match ks with
                        | [] => None
                        | k :: r => match go k with Some p => Some p | None => first r end
                        end) ks
    end.
Definition getparent (x : N) (w : node) : option N :=
  match owner x w with
  | Some p => if decide (p = nid w) then None else Some p
  | None => None
  end.

(** ** base.py *)
(** base.py:26-30 __iter__, __len__ *)
Definition wr_iter (x : N) (w : node) : list N := map nid (el_kids x w).
Definition wr_len (x : N) (w : node) : nat := length (el_kids x w).
(** base.py:50-56 get_xmlroot: goes up as long as there is a parent; no path is longer than
    the number of nodes *)
Fixpoint climb (n : nat) (x : N) (w : node) : N :=
  match n with
  | O => x
  | S n => match getparent x w with Some p => climb n p w | None => x end
  end.
Definition get_xmlroot (x : N) (w : node) : N := climb (length (ids w)) x w.
(** base.py:59-66 item access, 81-93 get_child, set_child, del_child *)
Definition get_child (x : N) (i : Z) : act node N := el_get x i.
Definition set_child (x : N) (i : Z) (c : N) : act node unit :=
  let! found := el_get x i in el_replace x found c.
Definition del_child (x : N) (i : Z) : act node unit := el_delete x i.
(** base.py:68-70 __iadd__, 132-135 append *)
Definition wr_append (x c : N) : act node N := let! _ := el_append x c in aret c.
(** base.py:72-74 index, 76-79 insert *)
Definition wr_index (x c : N) : act node Z := el_index x c.
Definition wr_insert (x : N) (i : Z) (c : N) : act node N := let! _ := el_insert x i c in aret c.
(** base.py:95-102 findall, find: only direct children *)
Definition wr_findall (t : string) (x : N) (w : node) : list N := map nid (filter (fun k => ltag k = t) (el_kids x w)).
Definition wr_find (t : string) (x : N) (w : node) : option N := head (wr_findall t x w).
(** base.py:137-141 insert_before *)
Definition insert_before (x t c : N) : act node N :=
  let! pos := wr_index x t in let! _ := wr_insert x pos c in aret c.
(** base.py:143-152 remove, replace, clear *)
Definition wr_remove (x c : N) : act node unit := el_remove x c.
Definition wr_replace (x old new : N) : act node unit := el_replace x old new.
Definition wr_clear (x : N) : act node unit := el_clear x.
