(** Vocabulary for sheets with merged areas. *)
From Verif Require Export SpanLayout SheetSpec CellSpanSpec.

(** An area: its first row and column, and how many rows and columns. *)
Record area := Area { a_row : nat; a_col : nat; a_rows : nat; a_cols : nat }.
Definition in_area (a : area) (i j : nat) : Prop := a_row a <= i < a_row a + a_rows a /\ a_col a <= j < a_col a + a_cols a.
Definition corner (a : area) (i j : nat) : Prop := i = a_row a /\ j = a_col a.
Definition apart (a b : area) : Prop := forall i j, in_area a i j -> in_area b i j -> False.
(** Areas of more than one cell, inside of a table of this size, none touching another. *)
Definition good_area (nr nc : nat) (a : area) : Prop :=
  1 <= a_rows a /\ 1 <= a_cols a /\ (a_rows a, a_cols a) <> (1, 1) /\ a_row a + a_rows a <= nr /\ a_col a + a_cols a <= nc.
Definition good_areas (nr nc : nat) (L : list area) : Prop :=
  Forall (good_area nr nc) L /\ ForallOrdPairs apart L.

(** What a cell is: with a span, covered, or neither. *)
Inductive role := RCorner (h w : nat) | RCovered | RFree.
(** The role the areas give to the cell in row [i], column [j]. *)
Inductive role_at (L : list area) (i j : nat) : role -> Prop :=
  | ra_corner a : a ∈ L -> corner a i j -> role_at L i j (RCorner (a_rows a) (a_cols a))
  | ra_covered a : a ∈ L -> in_area a i j -> ~ corner a i j -> role_at L i j RCovered
  | ra_free : (forall a, a ∈ L -> ~ in_area a i j) -> role_at L i j RFree.

Section spec.
Context `{U : Unicode} `{F : PyFloat}.
(** the attribute [k] of the element is a numeral of [n] *)
Definition says (k : string) (e : elem) (n : nat) : Prop := exists v, e_get k e = Some v /\ py_int v = Ok (Z.of_nat n).
(** no span of more than one row or column *)
Definition says_one (k : string) (e : elem) : Prop :=
  e_get k e = None \/ exists v m, e_get k e = Some v /\ py_int v = Ok m /\ (m <= 1)%Z.
Definition plays (r : role) (e : elem) : Prop :=
  match r with
  | RCorner h w => e_tag e = "table:table-cell" /\
      says "table:number-rows-spanned" e h /\ says "table:number-columns-spanned" e w
  | RCovered => e_tag e = "table:covered-table-cell" /\
      says_one "table:number-rows-spanned" e /\ says_one "table:number-columns-spanned" e
  | RFree => e_tag e = "table:table-cell" /\
      says_one "table:number-rows-spanned" e /\ says_one "table:number-columns-spanned" e
  end.

(** A sheet of this size whose merged areas are [L]. *)
Definition merged (s : st) (nr nc : nat) (L : list area) : Prop :=
  sane s /\ in_step s /\ sized s nr nc /\ expanded s /\ good_areas nr nc L /\
  exists t, table_node s = Some t /\ forall i j x r, cell_at t i j = Some x -> role_at L i j r -> plays r (erase x).

(** What a program reads: [table[key].span] and [table[key].covered]. *)
Definition span_read (r : role) : Z * Z := match r with RCorner h w => (Z.of_nat h, Z.of_nat w) | _ => (1, 1)%Z end.
Definition covered_read (r : role) : bool := match r with RCovered => true | _ => false end.

(** ** rows and columns inserted and deleted *)
(** the position a Python index stands for *)
Definition place (n : nat) (i : Z) : nat := Z.to_nat (if decide (i < 0)%Z then i + Z.of_nat n else i).
Definition later (k n x : nat) : nat := if decide (k <= x) then x + n else x.
Definition earlier (k n x : nat) : nat := if decide (k + n <= x) then x - n else x.
(** The areas are not cut by inserting at [k] or by deleting [n] from [k] on. *)
Definition whole_in (k x len : nat) : Prop := k <= x \/ x + len <= k.
Definition whole_out (k n x len : nat) : Prop := x + len <= k \/ k + n <= x \/ (k <= x /\ x + len <= k + n).
Definition uncut (o : op) (nr nc : nat) (L : list area) : Prop :=
  match o with
  | OAppendRows _ | OAppendCols _ | OReset _ | OClear | OSetName _ => True
  | OInsertRows i _ => Forall (fun a => whole_in (place nr i) (a_row a) (a_rows a)) L
  | OInsertCols i _ => Forall (fun a => whole_in (place nc i) (a_col a) (a_cols a)) L
  | ODeleteRows i n => Forall (fun a => whole_out (place nr i) (Z.to_nat n) (a_row a) (a_rows a)) L
  | ODeleteCols i n => Forall (fun a => whole_out (place nc i) (Z.to_nat n) (a_col a) (a_cols a)) L
  | OSetNew _ _ | OSetOld _ _ | OWrite _ _ => False
  end.
Definition areas_after (o : op) (nr nc : nat) (L : list area) : list area :=
  match o with
  | OInsertRows i n =>
      map (fun a => Area (later (place nr i) (Z.to_nat n) (a_row a)) (a_col a) (a_rows a) (a_cols a)) L
  | OInsertCols i n =>
      map (fun a => Area (a_row a) (later (place nc i) (Z.to_nat n) (a_col a)) (a_rows a) (a_cols a)) L
  | ODeleteRows i n =>
      map (fun a => Area (earlier (place nr i) (Z.to_nat n) (a_row a)) (a_col a) (a_rows a) (a_cols a))
        (filter (fun a => ~ place nr i <= a_row a < place nr i + Z.to_nat n) L)
  | ODeleteCols i n =>
      map (fun a => Area (a_row a) (earlier (place nc i) (Z.to_nat n) (a_col a)) (a_rows a) (a_cols a))
        (filter (fun a => ~ place nc i <= a_col a < place nc i + Z.to_nat n) L)
  | OReset _ | OClear => []
  | _ => L
  end.

(** Calls that merge areas, split them, set values, and insert and delete rows and columns;
    with the size of the table and the merged areas before and after. *)
Inductive mcall := MSpan (key : reference) (size : Z * Z) | MUnspan (key : reference) | MSet (key : reference) (c : call) | MOp (o : op).
Definition run_mcall (c : mcall) : act st unit :=
  match c with
  | MSpan key size => set_cell_span key size
  | MUnspan key => remove_cell_span key
  | MSet key c => cell_set_value key (c_val c) (c_type c) (c_cur c)
  | MOp o => run_op o
  end.
Inductive mstep (s : st) : nat * nat -> list area -> mcall -> nat * nat -> list area -> Prop :=
  | ms_span nr nc L a key : denotes key (Z.of_nat (a_row a)) (Z.of_nat (a_col a)) -> good_areas nr nc (a :: L) ->
      mstep s (nr, nc) L (MSpan key (Z.of_nat (a_rows a), Z.of_nat (a_cols a))) (nr, nc) (a :: L)
  | ms_unspan nr nc l a r key : denotes key (Z.of_nat (a_row a)) (Z.of_nat (a_col a)) ->
      mstep s (nr, nc) (l ++ a :: r) (MUnspan key) (nr, nc) (l ++ r)
  | ms_set nr nc L key c : usable nr nc (key, c) -> mstep s (nr, nc) L (MSet key c) (nr, nc) L
  | ms_op nr nc L o : fits o s nr nc -> uncut o nr nc L -> mstep s (nr, nc) L (MOp o) (size_after o (nr, nc)) (areas_after o nr nc L).
Inductive mhistory : st -> nat * nat -> list area -> st -> nat * nat -> list area -> Prop :=
  | mh_refl s z L : mhistory s z L s z L
  | mh_step s z L s1 z1 L1 c z2 L2 : mhistory s z L s1 z1 L1 -> mstep s1 z1 L1 c z2 L2 -> mhistory s z L (run_mcall c s1).1 z2 L2.
End spec.
