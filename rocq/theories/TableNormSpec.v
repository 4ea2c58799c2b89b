(** Vocabulary for table loading, independent of the normaliser. *)
From Verif Require Export TableNorm.

(** No rows or columns inside rows or columns (no nested tables). *)
Definition flat (e : elem) : Prop :=
  Forall (fun r => descendants "table:table-row" r = [] /\ descendants "table:table-column" r = [])
    (descendants "table:table-row" e ++ descendants "table:table-column" e).

Section spec.
Context `{U : Unicode}.

(** How often a run-length encoded node occurs. *)
Definition count_of (k : string) (e : elem) : nat :=
  match e_get k e with
  | None => 1
  | Some s => match py_int s with Ok n => Z.to_nat n | Err _ => 0 end
  end.
(** The repetition attribute, if present, is a positive number. *)
Definition good_rep (k : string) (e : elem) : Prop :=
  forall s, e_get k e = Some s -> exists n, (1 <= n)%Z /\ py_int s = Ok n.

Definition good_table (e : elem) : Prop :=
  e_tag e = "table:table" /\ flat e /\
  Forall (fun row => good_rep "table:number-rows-repeated" row /\
                     Forall (good_rep "table:number-columns-repeated") (kids row))
         (descendants "table:table-row" e).

(** Element [j] of a run-length encoded sequence. *)
Fixpoint rle_lookup {A} (runs : list (nat * A)) (j : nat) : option A :=
  match runs with
  | [] => None
  | (n, x) :: r => if decide (j < n) then Some x else rle_lookup r (j - n)
  end.
Definition rle_length {A} (runs : list (nat * A)) : nat := foldr (fun r n => r.1 + n) 0 runs.

Definition runs (k : string) (l : list elem) : list (nat * elem) :=
  map (fun e => (count_of k e, e)) l.

(** The runs as shown by a strategy: all; the last one once; the long ones once. *)
Fixpoint last_once {A} (l : list (nat * A)) : list (nat * A) :=
  match l with
  | [] => []
  | [(_, x)] => [(1, x)]
  | r :: l' => r :: last_once l'
  end.
Definition long_once {A} (max : Z) (l : list (nat * A)) : list (nat * A) :=
  map (fun r => if decide (max <= Z.of_nat r.1)%Z then (1, r.2) else r) l.
Definition shown {A} (st : strategy) (max : Z) (l : list (nat * A)) : list (nat * A) :=
  match st with
  | ExpandAll => l
  | ExpandAllButLast => last_once l
  | ExpandAllLessMaxCount => long_once max l
  end.

(** rows and cells of a run-length encoded table under a strategy *)
Definition row_runs (st : strategy) (maxcount : Z * Z) (e : elem) : list (nat * elem) :=
  shown st maxcount.1 (runs "table:number-rows-repeated" (descendants "table:table-row" e)).
Definition cell_runs (st : strategy) (maxcount : Z * Z) (row : elem) : list (nat * elem) :=
  shown st maxcount.2 (runs "table:number-columns-repeated" (kids row)).

Definition logical_row st maxcount (e : elem) (i : nat) : option elem :=
  rle_lookup (row_runs st maxcount e) i.
Definition logical_cell st maxcount (e : elem) (i j : nat) : option elem :=
  logical_row st maxcount e i ≫= fun row => rle_lookup (cell_runs st maxcount row) j.
Definition height st maxcount (e : elem) : nat := rle_length (row_runs st maxcount e).
(** cells of the longest row *)
Definition width st maxcount (e : elem) : nat :=
  foldr (fun row n => Nat.max (rle_length (cell_runs st maxcount row)) n) 0
        (descendants "table:table-row" e).
End spec.

(** A node without its repetition attribute. *)
Definition bare (k : string) (e : elem) : elem := e_del k e.

(** Row [i] and cell [i, j] of a tree without run-length encoding. *)
Definition plain_row (e : elem) (i : nat) : option elem := descendants "table:table-row" e !! i.
Definition plain_cell (e : elem) (i j : nat) : option elem :=
  plain_row e i ≫= fun r => kids r !! j.

(** The tree without its [t] nodes. *)
Fixpoint without (t : string) (e : elem) : elem :=
  match e with
  | T a ks => T a (flat_map (fun k => if decide (e_tag k = t) then [] else [without t k]) ks)
  end.

(** The maximum counts are only used by one strategy. *)
Definition max_ok (st : strategy) (mc : Z * Z) : Prop :=
  st = ExpandAllLessMaxCount -> (1 < mc.1)%Z /\ (1 < mc.2)%Z.
