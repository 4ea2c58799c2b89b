(** Model of /repo/ezodf/tablenormalizer.py, of the repetition helpers of
    /repo/ezodf/tableutils.py and of the column expansion of
    /repo/ezodf/tablecolumncontroller.py.

    Trees without node identity.  Simplifications: the white space between rows and
    cells ([.tail]) is kept with the node, the exact text position used by lxml's
    [addnext] is not modelled; rows nested inside a row (tables inside cells) are
    outside the domain of [rebuild], the theorems ask for [flat] tables. *)
From Verif Require Export PyBase Dom.

Definition TABLE := "table:table".
Definition ROW := "table:table-row".
Definition COL := "table:table-column".
Definition CELL := "table:table-cell".
Definition REPC := "table:number-columns-repeated".
Definition REPR := "table:number-rows-repeated".

(** tableutils.py:71-72 new_empty_cell *)
Definition new_empty_cell : elem := new_elem CELL.

(** tableutils.py:74-78 is_table *)
Definition is_table (e : elem) : bool := bool_decide (e_tag e = TABLE).

(** tableutils.py:65-66 get_table_rows: [findall('.//table:table-row')] *)
Definition get_table_rows (e : elem) : list elem := descendants ROW e.

(** In-place change of a list of nodes found by [findall('.//tg')]: the i-th of them
    is replaced by the i-th list (the node itself after its changes, followed by the
    clones put next to it).  Does not look for [tg] inside [tg]. *)
Fixpoint rebuild (tg : string) (e : elem) (ls : list (list elem)) {struct e}
  : elem * list (list elem) :=
  match e with
  | T a ks =>
      let fix go ks ls :=
        match ks with
        | [] => ([], ls)
        | k :: r =>
            if decide (e_tag k = tg) then
              match ls with
              | l :: ls' => let '(r', ls'') := go r ls' in (l ++ r', ls'')
              | [] => let '(r', ls'') := go r [] in (k :: r', ls'')
              end
            else
              let '(k', ls') := rebuild tg k ls in
              let '(r', ls'') := go r ls' in (k' :: r', ls'')
        end in
      let '(ks', ls') := go ks ls in (T a ks', ls')
  end.

(** The strategies, tablenormalizer.py:109-113; [maxcount] is (rows, columns). *)
Inductive strategy := ExpandAll | ExpandAllButLast | ExpandAllLessMaxCount.
(** tablenormalizer.py:130-133 *)
Definition strategy_of (name : string) : res strategy :=
  if decide (name = "all") then Ok ExpandAll
  else if decide (name = "all_but_last") then Ok ExpandAllButLast
  else if decide (name = "all_less_maxcount") then Ok ExpandAllLessMaxCount
  else Err TypeError.

Section norm.
Context `{U : Unicode}.

(** tableutils.py:84-92 RepetitionAttribute.cols / .rows *)
Definition rep (k : string) (e : elem) : res Z :=
  match e_get k e with None => Ok 1%Z | Some s => py_int s end.

(** tableutils.py:94-100 deleters: KeyError when the attribute is absent *)
Definition del_rep (k : string) (e : elem) : res elem :=
  match e_get k e with None => Err KeyError | Some _ => Ok (e_del k e) end.

(** tableutils.py:68-69 count_cells_in_row *)
Definition count_cells_in_row (row : elem) : res Z :=
  do l <- rmap (rep REPC) (kids row); Ok (foldr Z.add 0%Z l).

(** tablenormalizer.py:26-30 expand_element (also tablecolumncontroller.py:22-26):
    the node and its clones *)
Definition expand_element (e : elem) (count : Z) : list elem :=
  e :: replicate (Z.to_nat (count - 1)) e.

(** tablenormalizer.py:32-37 and 43-48 (_ExpandAll.expand_cell, expand_row),
    tablecolumncontroller.py:28-33 *)
Definition expand_all (k : string) (e : elem) : res (list elem) :=
  do count <- rep k e;
  if decide (1 < count)%Z then do e' <- del_rep k e; Ok (expand_element e' count)
  else Ok [e].

(** tablenormalizer.py:59-67 (expand_last_cell, expand_last_row),
    tablecolumncontroller.py:40-43 *)
Definition expand_last (k : string) (e : elem) : res (list elem) :=
  do count <- rep k e;
  if decide (1 < count)%Z then do e' <- del_rep k e; Ok [e'] else Ok [e].

(** tablenormalizer.py:91-107 (_ExpandAllLessMaxCount.expand_cell, expand_row),
    tablecolumncontroller.py:52-59 *)
Definition expand_less (k : string) (max : Z) (e : elem) : res (list elem) :=
  do count <- rep k e;
  if decide (1 < count < max)%Z then do e' <- del_rep k e; Ok (expand_element e' count)
  else if decide (max <= count)%Z then do e' <- del_rep k e; Ok [e']
  else Ok [e].

(** [for x in l[:-1]: f x; if len(l): g l[-1]] *)
Fixpoint all_but_last {A B} (f g : A -> res B) (l : list A) : res (list B) :=
  match l with
  | [] => Ok []
  | [x] => do y <- g x; Ok [y]
  | x :: r => do y <- f x; do ys <- all_but_last f g r; Ok (y :: ys)
  end.

(** the loop over a list of repeated nodes, by strategy *)
Definition expand_list (st : strategy) (k : string) (max : Z) (l : list elem) : res (list (list elem)) :=
  match st with
  | ExpandAll => rmap (expand_all k) l
  | ExpandAllButLast => all_but_last (expand_all k) (expand_last k) l
  | ExpandAllLessMaxCount => rmap (expand_less k max) l
  end.

(** tablenormalizer.py:39-41, 69-73 expand_cells *)
Definition expand_cells (st : strategy) (maxcols : Z) (row : elem) : res elem :=
  do ls <- expand_list st REPC maxcols (kids row);
  Ok (T (root row) (concat ls)).

(** tablenormalizer.py:43-48, 100-107 expand_row *)
Definition expand_row (st : strategy) (maxrows : Z) (row : elem) : res (list elem) :=
  match st with
  | ExpandAllLessMaxCount => expand_less REPR maxrows row
  | _ => expand_all REPR row
  end.

(** tablenormalizer.py:50-54 and 75-84 normalize; the all-but-last strategy runs over
    the rows twice *)
Definition normalize (st : strategy) (maxcount : Z * Z) (rows : list elem) : res (list (list elem)) :=
  match st with
  | ExpandAllButLast =>
      do rows1 <- rmap (expand_cells st maxcount.2) rows;
      all_but_last (expand_row st maxcount.1) (expand_last REPR) rows1
  | _ => rmap (fun row => do row1 <- expand_cells st maxcount.2 row;
                          expand_row st maxcount.1 row1) rows
  end.

(** tablenormalizer.py:121-134 expand_repeated_table_content *)
Definition expand_repeated_table_content (st : strategy) (maxcount : Z * Z) (e : elem) : res elem :=
  do ls <- normalize st maxcount (get_table_rows e);
  Ok (rebuild ROW e ls).1.

(** tableutils.py:58-63 get_min_max_cell_count *)
Definition list_min (l : list Z) : Z := match l with [] => 0 | x :: r => foldr Z.min x r end.
Definition list_max (l : list Z) : Z := match l with [] => 0 | x :: r => foldr Z.max x r end.

(** tablenormalizer.py:137-150 align_table_columns *)
Definition align_table_columns (e : elem) : res elem :=
  let rows := get_table_rows e in
  do count <- rmap count_cells_in_row rows;
  let cmin := list_min count in
  let cmax := list_max count in
  if decide (cmin = cmax) then Ok e
  else Ok (rebuild ROW e
             (zip_with (fun row c =>
                [if decide (c < cmax)%Z
                 then T (root row) (kids row ++ replicate (Z.to_nat (cmax - c)) new_empty_cell)
                 else row]) rows count)).1.

(** tablenormalizer.py:115-119, 152-157 normalize_table *)
Definition normalize_table (st : strategy) (maxcount : Z * Z) (e : elem) : res elem :=
  if is_table e then
    do e1 <- expand_repeated_table_content st maxcount e;
    align_table_columns e1
  else Err ValueError.

(** tablecolumncontroller.py:92-99 _expand_repeated_content *)
Definition expand_columns (st : strategy) (maxcols : Z) (e : elem) : res elem :=
  do ls <- expand_list st REPC maxcols (descendants COL e);
  Ok (rebuild COL e ls).1.
End norm.
