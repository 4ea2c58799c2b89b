(** What the store says about nodes, and lists of children. *)
From Verif Require Export Wrapper.

(** No id is used twice. *)
Definition wfs (w : node) : Prop := NoDup (ids w).
(** [x] is a node of some tree (the root of the store is none). *)
Definition element (x : N) (w : node) : Prop := x ∈ flat_map ids (kids w).
(** children, and tag, attributes, text and tail *)
Definition children (x : N) (w : node) : list N := match sub x w with Some t => map nid (kids t) | None => [] end.
Definition data (x : N) (w : node) : option nd := pl ∘ root <$> sub x w.
(** [upwards w a b]: [a] is [b] or above it. *)
Inductive upwards (w : node) : N -> N -> Prop :=
  | U_same x : upwards w x x
  | U_child x y c : upwards w x y -> c ∈ children y w -> upwards w x c.

(** position [i] of a list, negative positions count from the end *)
Definition at_pos {A} (i : Z) (l : list A) : option A :=
  if decide (0 <= i)%Z then l !! Z.to_nat i
  else if decide (0 <= Z.of_nat (length l) + i)%Z then l !! Z.to_nat (Z.of_nat (length l) + i) else None.

(** ** Lists without duplicates *)
Definition without (c : N) (l : list N) : list N := filter (fun y => y <> c) l.
(** [c] comes before [t], wherever it was *)
Fixpoint put_before (t c : N) (l : list N) : list N :=
  match l with
  | [] => []
  | y :: r => if decide (y = t) then c :: y :: r else y :: put_before t c r
  end.
(** [new] for [old] *)
Definition instead (old new : N) (l : list N) : list N := map (fun y => if decide (y = old) then new else y) l.

(** [c] comes before the child that is at position [i] now; without such a child, to the end *)
Definition put_at (i : Z) (c : N) (l : list N) : list N :=
  match at_pos i l with
  | Some t => if decide (t = c) then l else put_before t c (without c l)
  | None => without c l ++ [c]
  end.

(** The children of [x] are now [l], [c] is no child of any other node; nothing else has
    changed. *)
Definition placed (x c : N) (l : list N) (w w' : node) : Prop :=
  wfs w' /\ (forall y, element y w' <-> element y w) /\ nid w' = nid w /\
  children x w' = l /\
  (forall y, element y w -> y <> x -> children y w' = without c (children y w)) /\
  (forall y, element y w -> data y w' = data y w).

(** The same for a child that loses its parent and the text after it. *)
Definition deleted (x c : N) (w w' : node) : Prop :=
  wfs w' /\ (forall y, element y w' <-> element y w) /\ nid w' = nid w /\
  (forall y, element y w -> children y w' = without c (children y w)) /\
  (forall y, element y w -> y <> c -> data y w' = data y w) /\
  data c w' = nd_set_tail None <$> data c w.
(** [x] has lost children, attributes, text and the text after it. *)
Definition cleared (x : N) (w w' : node) : Prop :=
  wfs w' /\ (forall y, element y w' <-> element y w) /\ nid w' = nid w /\
  children x w' = [] /\ data x w' = (fun d => Nd (tag d) ∅ None None) <$> data x w /\
  (forall y, element y w -> y <> x -> children y w' = children y w /\ data y w' = data y w).

(** ** Histories *)
Inductive wop :=
  | OAppend (x c : N) | OInsert (x : N) (i : Z) (c : N) | OSet (x : N) (i : Z) (c : N) | ODel (x : N) (i : Z)
  | OBefore (x t c : N) | ORemove (x c : N) | OReplace (x old new : N) | OClear (x : N).
Definition quiet {A} (m : act node A) : act node unit := let! _ := m in aret tt.
Definition do_op (o : wop) : act node unit :=
  match o with
  | OAppend x c => quiet (wr_append x c)
  | OInsert x i c => quiet (wr_insert x i c)
  | OSet x i c => set_child x i c
  | ODel x i => del_child x i
  | OBefore x t c => quiet (insert_before x t c)
  | ORemove x c => wr_remove x c
  | OReplace x o n => wr_replace x o n
  | OClear x => wr_clear x
  end.
Definition op_nodes (o : wop) : list N :=
  match o with
  | OAppend x c | OInsert x _ c | OSet x _ c | ORemove x c => [x; c]
  | ODel x _ | OClear x => [x]
  | OBefore x t c => [x; t; c]
  | OReplace x o n => [x; o; n]
  end.
(** every operation, exceptions are caught *)
Definition run_ops (l : list wop) (w : node) : node := foldl (fun w o => (do_op o w).1) w l.
