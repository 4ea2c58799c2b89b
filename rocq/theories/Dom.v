(** Element trees: the part of lxml the library uses.
    Not part of /repo; models lxml.etree._Element. *)
From Verif Require Export PyBase.

(** Rose trees. *)
Inductive tree (A : Type) := T (a : A) (ks : list (tree A)).
Global Arguments T {A} a ks.

Definition root {A} (t : tree A) : A := match t with T a _ => a end.
Definition kids {A} (t : tree A) : list (tree A) := match t with T _ ks => ks end.

(** Nested induction principle. *)
Lemma tree_ind' {A} (P : tree A -> Prop) :
  (forall a ks, Forall P ks -> P (T a ks)) -> forall t, P t.
Proof.
  intros H. fix IH 1. intros [a ks]. apply H.
  induction ks as [|k ks IHks]; constructor; [apply IH | exact IHks].
Qed.

(** Payload of an element: tag, attributes, [.text] and [.tail]. *)
Record nd := Nd {
  tag : string;
  attrs : gmap string pystr;
  text : option pystr;
  tail : option pystr
}.

Notation elem := (tree nd).

Definition e_tag (e : elem) : string := tag (root e).
Definition e_attrs (e : elem) : gmap string pystr := attrs (root e).
Definition e_text (e : elem) : option pystr := text (root e).
Definition e_tail (e : elem) : option pystr := tail (root e).

(** [etree.Element(tag)] *)
Definition new_elem (t : string) : elem := T (Nd t ∅ None None) [].

Definition on_root (f : nd -> nd) (e : elem) : elem :=
  match e with T a ks => T (f a) ks end.
Definition on_kids (f : list elem -> list elem) (e : elem) : elem :=
  match e with T a ks => T a (f ks) end.

Definition nd_set_tag (t : string) (a : nd) : nd := Nd t (attrs a) (text a) (tail a).
Definition nd_set_attrs (m : gmap string pystr) (a : nd) : nd := Nd (tag a) m (text a) (tail a).
Definition nd_set_text (s : option pystr) (a : nd) : nd := Nd (tag a) (attrs a) s (tail a).
Definition nd_set_tail (s : option pystr) (a : nd) : nd := Nd (tag a) (attrs a) (text a) s.

(** [el.get(k)] *)
Definition e_get (k : string) (e : elem) : option pystr := e_attrs e !! k.
(** [el.set(k, v)] *)
Definition e_set (k : string) (v : pystr) : elem -> elem :=
  on_root (fun a => nd_set_attrs (<[k := v]> (attrs a)) a).
(** [del el.attrib[k]] (raises KeyError when absent, see callers) *)
Definition e_del (k : string) : elem -> elem :=
  on_root (fun a => nd_set_attrs (delete k (attrs a)) a).
(** [el.text = s], [el.tail = s] *)
Definition e_set_text (s : option pystr) : elem -> elem := on_root (nd_set_text s).
Definition e_set_tail (s : option pystr) : elem -> elem := on_root (nd_set_tail s).
Definition e_set_tag (t : string) : elem -> elem := on_root (nd_set_tag t).
(** [el.append(child)] of a detached child *)
Definition e_append (c : elem) : elem -> elem := on_kids (fun ks => ks ++ [c]).
(** [el.clear()]: drops attributes, text, tail and children *)
Definition e_clear (e : elem) : elem := T (Nd (e_tag e) ∅ None None) [].

(** [el.findall(tag)]: direct children with that tag. *)
Definition findall (t : string) (e : elem) : list elem :=
  filter (fun k => e_tag k = t) (kids e).
(** [el.find(tag)]: first direct child with that tag. *)
Definition find_child (t : string) (e : elem) : option elem := head (findall t e).

(** [el.findall('.//' + tag)]: all proper descendants with that tag, document order. *)
Fixpoint descendants (t : string) (e : elem) : list elem :=
  match e with
  | T _ ks => flat_map (fun k => (if decide (e_tag k = t) then [k] else []) ++ descendants t k) ks
  end.

(** Python truth value of an optional string: [None] and [''] are false. *)
Definition truthy (s : option pystr) : bool :=
  match s with Some (_ :: _) => true | _ => false end.
(** [text if text else ""] *)
Definition str_of (s : option pystr) : pystr := default [] s.
