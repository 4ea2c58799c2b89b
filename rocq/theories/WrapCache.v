(** Model of the class registry (xmlns.py) and of the wrapper cache (wrapcache.py), with the
    memory they depend on: the cache is keyed by id(element). *)
From Verif Require Export PyBase.

(** ** Class registry *)
(** xmlns.py:78-85 _ClassRegistry.register: TAG -> class (by name) *)
Notation registry := (gmap string string).
Definition register_class (tag cls : string) (r : registry) : registry := <[tag := cls]> r.
(** xmlns.py:87-93 wrap: the class used for an element with this tag; KeyError without GenericWrapper *)
Definition class_of (r : registry) (tag : string) : res string :=
  match r !! tag with
  | Some c => Ok c
  | None => match r !! "GenericWrapper"%string with Some c => Ok c | None => Err KeyError end
  end.

(** ** Memory *)
(** Python objects by address (their id): lxml elements, standing for one XML node each,
    and wrappers, which refer to an element ([xmlnode], never assigned again after __init__,
    base.py:20-24). *)
Notation addr := N.
Inductive obj := Elem (node : nat) | Wrap (xmlnode : addr) (cls : string).
Global Instance obj_eq_dec : EqDecision obj.
Proof. solve_decision. Defined.
(** objects; addresses the program refers to; wrapcache.py:14 _cache *)
Record mem := Mem { heap : gmap addr obj; held : gset addr; wcache : gmap addr addr }.
Definition mem_new : mem := Mem ∅ ∅ ∅.

Section wrapcache.
Context (reg : registry).
Context (tag_of : nat -> string). (* element.tag of a node *)
Context (adds_itself : string -> bool). (* the class calls wrapcache.add(self), table.py:45 *)

(** xmlns.py:87-93 wrap on the element at [x], the new wrapper at address [a] *)
Definition new_wrapper (x a : addr) : act mem addr := fun m =>
  match heap m !! x with
  | Some (Elem n) =>
      match class_of reg (tag_of n) with
      | Ok c => (Mem (<[a := Wrap x c]> (heap m)) ({[a]} ∪ held m)
                     (if adds_itself c then <[x := a]> (wcache m) else wcache m), Ok a)
      | Err e => (m, Err e)
      end
  | _ => (m, Err AttributeError)
  end.
(** wrapcache.py:25-26 add *)
Definition wc_add (w : addr) : act mem unit := fun m =>
  match heap m !! w with
  | Some (Wrap x _) => (Mem (heap m) (held m) (<[x := w]> (wcache m)), Ok tt)
  | _ => (m, Err AttributeError)
  end.
(** wrapcache.py:28-29 remove *)
Definition wc_remove (w : addr) : act mem unit := fun m =>
  match heap m !! w with
  | Some (Wrap x _) =>
      match wcache m !! x with
      | Some _ => (Mem (heap m) (held m) (delete x (wcache m)), Ok tt)
      | None => (m, Err KeyError)
      end
  | _ => (m, Err AttributeError)
  end.
(** wrapcache.py:31-32 clear *)
Definition wc_clear (m : mem) : mem := Mem (heap m) (held m) ∅.
(** wrapcache.py:16-23 wrap; [a]: the address of the wrapper if one is made *)
Definition wc_wrap (x a : addr) : act mem addr := fun m =>
  match wcache m !! x with
  | Some w => (Mem (heap m) ({[w]} ∪ held m) (wcache m), Ok w)
  | None => (let! w := new_wrapper x a in let! _ := wc_add w in aret w) m
  end.
(** lxml: the one element object of a node; made at address [a] when there is none *)
Definition elem_at (m : mem) (n : nat) : option addr :=
  match filter (fun p => p.2 = Elem n) (map_to_list (heap m)) with p :: _ => Some p.1 | [] => None end.
Definition get_elem (n : nat) (a : addr) (m : mem) : mem * addr :=
  match elem_at m n with
  | Some x => (Mem (heap m) ({[x]} ∪ held m) (wcache m), x)
  | None => (Mem (<[a := Elem n]> (heap m)) ({[a]} ∪ held m) (wcache m), a)
  end.
End wrapcache.
