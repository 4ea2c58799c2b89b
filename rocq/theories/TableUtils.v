(** Model of /repo/ezodf/tableutils.py (cell ranges and cell addresses). *)
From Verif Require Export PyBase Dom.

(** Python [range(a, a + n)] *)
Definition zrange (a : Z) (n : nat) : list Z := map (fun k => (a + Z.of_nat k)%Z) (seq 0 n).

(** tableutils.py:14-24 iter_cell_range.  A generator: the checks run at the first
    [next]; modelled by the list of all yielded values. *)
Definition iter_cell_range (pos size : Z * Z) : res (list (Z * Z)) :=
  let '(start_row, start_column) := pos in
  if decide (start_row < 0 \/ start_column < 0)%Z then Err ValueError else
  let '(nrows, ncolumns) := size in
  if decide (nrows < 1 \/ ncolumns < 1)%Z then Err ValueError else
  Ok (flat_map (fun row => map (fun column => (row, column))
                               (zrange start_column (Z.to_nat ncolumns)))
               (zrange start_row (Z.to_nat nrows))).

(** tableutils.py:26-29 iter_cell_range_without_start_pos; [next] on an empty
    generator cannot happen after the checks. *)
Definition iter_cell_range_without_start_pos (pos size : Z * Z) : res (list (Z * Z)) :=
  do l <- iter_cell_range pos size; Ok (drop 1 l).

Section addr.
Context `{U : Unicode}.

(** longest prefix of characters with property [p], and the rest *)
Fixpoint span (p : N -> bool) (s : pystr) : pystr * pystr :=
  match s with
  | [] => ([], [])
  | c :: r => if p c then let '(a, b) := span p r in (c :: a, b) else ([], s)
  end.

(** [A-Z] *)
Definition is_AZ (c : N) : bool := bool_decide (65 <= c <= 90)%N.
(** \d *)
Definition is_dig (c : N) : bool := bool_decide (is_Some (u_digit c)).

(** tableutils.py:31 CELL_ADDRESS.match: '^([A-Z]+)(\d+)$'.  The two classes are
    disjoint, so the greedy split is the only one; '$' also matches in front of a
    final newline. *)
Definition cell_address_match (s : pystr) : option (pystr * pystr) :=
  let '(w, r) := span is_AZ s in
  let '(d, t) := span is_dig r in
  match w, d with
  | _ :: _, _ :: _ => if decide (t = [] \/ t = [10%N]) then Some (w, d) else None
  | _, _ => None
  end.

(** tableutils.py:34-41 column_name_to_index *)
Definition column_name_to_index (colname : pystr) : Z :=
  let '(index, _) :=
    foldl (fun '(index, power) char => (index + (Z.of_N char - 64) * power, power * 26)%Z)
          (0, 1)%Z (rev colname) in
  (index - 1)%Z.

(** tableutils.py:33-48 address_to_index *)
Definition address_to_index (address : pystr) : res (Z * Z) :=
  match cell_address_match (py_upper address) with
  | Some (column_name, row_name) =>
      do r <- py_int row_name; Ok ((r - 1)%Z, column_name_to_index column_name)
  | None => Err ValueError
  end.

(** A cell reference as the caller passes it: a tuple, a string or anything else. *)
Inductive reference := RTuple (p : Z * Z) | RStr (s : pystr) | ROther.

(** tableutils.py:50-56 get_cell_index; the last branch mentions an unbound name. *)
Definition get_cell_index (r : reference) : res (Z * Z) :=
  match r with
  | RTuple p => Ok p
  | RStr s => address_to_index s
  | ROther => Err NameError
  end.
End addr.
