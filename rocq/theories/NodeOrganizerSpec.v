(** Vocabulary for the order of child elements. *)
From Verif Require Export NodeOrganizer.

(** [l] follows the order of [tags]: t1* t2* ... tn* *)
Inductive in_order : list string -> list string -> Prop :=
  | IO_nil ts : in_order ts []
  | IO_here t ts l : in_order (t :: ts) l -> in_order (t :: ts) (t :: l)
  | IO_next t ts l : in_order ts l -> in_order (t :: ts) l.

(** [n] is the length of the longest prefix (suffix) of [l] in the order of [tags]. *)
Definition longest_prefix (tags l : list string) (n : nat) : Prop :=
  n <= length l /\ in_order tags (take n l) /\ forall m, n < m <= length l -> ~ in_order tags (take m l).
Definition longest_suffix (tags l : list string) (n : nat) : Prop :=
  n <= length l /\ in_order tags (drop (length l - n) l) /\
  forall m, n < m <= length l -> ~ in_order tags (drop (length l - m) l).

(** The [t]s at the positions [from .. till-1] of [l] are exactly those at [pos .. pos+count-1];
    (-1, 0) when there are none. *)
Definition run_of (t : string) (l : list string) (from till : nat) (pos count : Z) : Prop :=
  (pos = (-1)%Z /\ count = 0%Z /\ forall i, from <= i < till -> l !! i <> Some t) \/
  (count > 0 /\ pos >= 0)%Z /\ forall i, from <= i < till -> (l !! i = Some t <-> pos <= Z.of_nat i < pos + count)%Z.

(** Prelude, middle, epilogue. *)
Definition well_structured (prelude midrange epilogue l : list string) : Prop :=
  exists pre mid epi, l = pre ++ mid ++ epi /\ in_order prelude pre /\ Forall (fun t => t ∈ midrange) mid /\ in_order epilogue epi.

(** [l'] is [l] with the prelude tags in front and the epilogue tags at the end. *)
Section reordered.
Context {A : Type} (tag_of : A -> string).
Definition reordered (prelude epilogue : list string) (l l' : list A) : Prop :=
  l' ≡ₚ l /\
  (exists pre mid epi, l' = pre ++ mid ++ epi /\
    in_order prelude (map tag_of pre) /\ in_order epilogue (map tag_of epi) /\
    Forall (fun x => tag_of x ∉ prelude) (mid ++ epi) /\ Forall (fun x => tag_of x ∉ epilogue) mid /\
    mid = filter (fun x => tag_of x ∉ prelude /\ tag_of x ∉ epilogue) l) /\
  forall t, filter (fun x => tag_of x = t) l' = filter (fun x => tag_of x = t) l.
End reordered.
