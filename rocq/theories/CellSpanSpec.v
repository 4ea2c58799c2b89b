(** Vocabulary for cell spans. *)
From Verif Require Export TableSpec CellSpan.

(** row [i], column [j] is in the rectangle of size [h] x [w] at (r, c) *)
Definition in_rect (r c h w i j : nat) : Prop := r <= i < r + h /\ c <= j < c + w.
Global Instance in_rect_dec r c h w i j : Decision (in_rect r c h w i j).
Proof. unfold in_rect. apply _. Defined.

Section spec.
Context `{U : Unicode}.
(** the number of rows or columns spanned according to the attribute [k] *)
Definition spans (k : string) (a : nd) (n : Z) : Prop :=
  (attrs a !! k = None /\ n = 1%Z) \/ exists v m, attrs a !! k = Some v /\ py_int v = Ok m /\ n = Z.max 1 m.
(** a cell with a span of [h] rows and [w] columns *)
Definition cell_spans (x : node) (h w : Z) : Prop :=
  spans "table:number-rows-spanned" (pl (root x)) h /\ spans "table:number-columns-spanned" (pl (root x)) w.
End spec.

(** What becomes of a cell; identity and content stay. *)
Definition master (h w : nat) (x : node) : node :=
  lon_root (fun a => Nd "table:table-cell"
    (<["table:number-columns-spanned" := show_Z (Z.of_nat w)]>
       (<["table:number-rows-spanned" := show_Z (Z.of_nat h)]> (attrs a))) (text a) (tail a)) x.
(** a normal cell becomes covered and loses what only normal cells have *)
Definition cover (x : node) : node :=
  if decide (ltag x = "table:covered-table-cell") then x
  else lon_root (fun a => Nd "table:covered-table-cell"
    (delete "table:number-matrix-rows-spanned" (delete "table:number-matrix-columns-spanned"
      (delete "table:number-columns-spanned" (delete "table:number-rows-spanned" (attrs a))))) (text a) (tail a)) x.
Definition uncover (x : node) : node :=
  lon_root (fun a => Nd "table:table-cell" (attrs a) (text a) (tail a)) x.
Definition unspan (x : node) : node :=
  lon_root (fun a => Nd "table:table-cell"
    (delete "table:number-columns-spanned" (delete "table:number-rows-spanned" (attrs a))) (text a) (tail a)) x.

(** The table [t'] is the table [t] with each cell changed by [F]; nothing else. *)
Definition cells_changed (F : nat -> nat -> node -> node) (t t' : node) : Prop :=
  root t' = root t /\ doc_cols t' = doc_cols t /\
  map (fun p => (p_id p, p_nd p, length (p_kids p))) (doc_rows t') =
    map (fun p => (p_id p, p_nd p, length (p_kids p))) (doc_rows t) /\
  forall i j, cell_at t' i j = F i j <$> cell_at t i j.

(** a normal cell without any span attribute *)
Definition unmarked (x : node) : Prop :=
  ltag x = "table:table-cell" /\
  Forall (fun k => attrs (pl (root x)) !! k = None)
    ["table:number-rows-spanned"; "table:number-columns-spanned";
     "table:number-matrix-columns-spanned"; "table:number-matrix-rows-spanned"].

(** only (normal or covered) cells in the rows *)
Definition cells_only (t : node) : Prop :=
  forall i j x, cell_at t i j = Some x -> ltag x = "table:table-cell" \/ ltag x = "table:covered-table-cell".
(** A table of cells, [nc] in each row, and its table object. *)
Definition sheet (s : st) (t : node) (nc : nat) : Prop :=
  sane s /\ in_step s /\ table_node s = Some t /\ rect nc t /\ cells_only t.
(** Outside of the table nothing changed (nodes without parent may have been added). *)
Definition rest_kept (s s' : st) : Prop :=
  rt (obj s') = rt (obj s) /\ forall m, exists ks, around m s' = T (root (around m s)) (kids (around m s) ++ ks).
