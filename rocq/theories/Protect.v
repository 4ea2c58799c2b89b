(** Model of /repo/ezodf/protection.py and of the two users of it: Table.protected (table.py) and
    Section.protected (text.py).  The state is the element and the state of the random generator. *)
From Verif Require Export Attrs.

(** The module random of Python: [sample population k] and the next state of the generator. *)
Class Random := {
  rnd : Type;
  sample : list N -> nat -> rnd -> list N * rnd;
  (** documentation of random.sample: k unique elements of the population *)
  sample_law : forall s k r, NoDup s -> k <= length s ->
    length (sample s k r).1 = k /\ NoDup (sample s k r).1 /\ (sample s k r).1 ⊆ s;
}.

Section protect.
Context `{U : Unicode} `{F : PyFloat} `{R : Random}.

(** protection.py:12 FNCHARS *)
Definition FNCHARS : pystr := lit "ABCDEFGHIJKLMNOPQRSTUVWXYZabcdefghijklmnopqrstuvwxyz0123456789".
(** [repr] of a list of strings of one character each; none of them is a quote or needs an escape *)
Definition repr_chars (l : list N) : pystr :=
  lit "[" ++ py_join (lit ", ") (map (fun c => lit "'" ++ [c] ++ lit "'") l) ++ lit "]".
(** protection.py:14-15 random_protection_key(): the value is a list, [tostr] of it is its repr *)
Definition random_protection_key (count : nat) : rnd -> pyval * rnd := fun r =>
  let '(l, r) := sample FNCHARS count r in (VObj (repr_chars l) (bool_decide (l <> [])), r).

(** the two classes: Table (table.py:73-80), Section (text.py:189-196) *)
Inductive holder := HTable | HSection.
Definition flag_attr (h : holder) : string :=
  match h with HTable => "table:protected" | HSection => "text:protected" end.
Definition key_attr (h : holder) : string :=
  match h with HTable => "table:protection-key" | HSection => "text:protection-key" end.
(** table.py:73-75, text.py:189-191 *)
Definition is_protected (h : holder) (e : elem) : bool := get_bool_attr (flag_attr h) e.
(** table.py:76-80, text.py:192-196 *)
Definition protect (h : holder) (v : pyval) : act (elem * rnd) unit := fun '(e, r) =>
  match set_bool_attr (flag_attr h) v e with
  | (e, Ok _) =>
      if is_protected h e
      then let '(key, r) := random_protection_key 12 r in
           let '(e, x) := put_attr (key_attr h) key e in ((e, r), x)
      else ((e, r), Ok tt)
  | (e, Err x) => ((e, r), Err x)
  end.
End protect.
