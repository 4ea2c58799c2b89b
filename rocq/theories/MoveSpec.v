(** Cells that are put into a second place. *)
From Verif Require Export TableSpec WrapperSpec.

Section spec.
Context `{U : Unicode}.
(** which cell [table[i, q]] is; [None] if it raises *)
Definition seen (s : st) (i q : nat) : option N :=
  match (table_getitem (RTuple (Z.of_nat i, Z.of_nat q)) s).2 with Ok k => Some (nid k) | Err _ => None end.
(** the same document seen through another table object *)
Definition through (ob : tobj) (s : st) : st := St (store s) (nxt s) ob.
End spec.
(** the place before, of what comes to place [q] of a row that lost its cell [j] *)
Definition shifted (j q : nat) : nat := if decide (q < j) then q else S q.

(** what the call does to the document: the row gets the cell in the place of the old one, every
    other element loses the cell from its children, nothing else *)
Definition moved (r x old : N) (w w' : node) : Prop :=
  (forall y, element y w' <-> element y w) /\
  children r w' = (if decide (old = x) then children r w else instead old x (WrapperSpec.without x (children r w))) /\
  (forall y, element y w -> y <> r -> children y w' = WrapperSpec.without x (children y w)) /\
  (forall y, element y w -> data y w' = data y w).
