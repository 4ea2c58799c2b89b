(** A workbook: named sheets in an order, each a grid of cells whose rows and columns have
    properties. *)
From Verif Require Export TableProps Book PagesSpec TableReloadSpec TableNormSpec FileSys SheetSpec CellSpanSpec.

(** ** What a sheet is to the user *)
Definition ECELL : elem := new_elem "table:table-cell".
Definition breadth (g : list (list elem)) : nat := match g with r :: _ => length r | [] => 0 end.
Definition blank (nr nc : nat) : list (list elem) := replicate nr (replicate nc ECELL).
(** Properties (styles, visibility, print, protection, ...): the attributes of the sheet but for
    its name, of its rows and of its columns. *)
Notation attrib := (gmap string pystr).
Record fmt := Fmt { f_own : attrib; f_rows : list attrib; f_cols : list attrib }.
Definition unformatted (nr nc : nat) : fmt := Fmt ∅ (replicate nr ∅) (replicate nc ∅).
(** position [i] of [n]; negative positions count from the end *)
Definition spot (n : nat) (i : Z) : nat := Z.to_nat (if decide (i < 0)%Z then i + Z.of_nat n else i)%Z.

Section spec.
Context `{U : Unicode} `{F : PyFloat}.

(** The operations of a table, on the grid of its cells and on its name. *)
Definition grid_op (o : op) (g : list (list elem)) : list (list elem) :=
  match o with
  | OAppendRows n => g ++ blank (Z.to_nat n) (breadth g)
  | OInsertRows i n => let k := spot (length g) i in take k g ++ blank (Z.to_nat n) (breadth g) ++ drop k g
  | ODeleteRows i n => let k := spot (length g) i in take k g ++ drop (k + Z.to_nat n) g
  | OAppendCols n => map (fun r => r ++ replicate (Z.to_nat n) ECELL) g
  | OInsertCols i n => let k := spot (breadth g) i in map (fun r => take k r ++ replicate (Z.to_nat n) ECELL ++ drop k r) g
  | ODeleteCols i n => let k := spot (breadth g) i in map (fun r => take k r ++ drop (k + Z.to_nat n) r) g
  | OSetNew pos e => alter (fun r => <[spot (breadth g) pos.2 := e]> r) (spot (length g) pos.1) g
  | OWrite pos f => alter (fun r => alter f (spot (breadth g) pos.2) r) (spot (length g) pos.1) g
  | OReset size => blank (Z.to_nat size.1) (Z.to_nat size.2)
  | TableSpec.OClear => blank (length g) (breadth g)
  | OSetName _ | OSetOld _ _ => g
  end.
(** on the properties: new rows and columns have none, a reset sheet has none *)
Definition fmt_op (o : op) (f : fmt) : fmt :=
  let '(Fmt a rs cs) := f in
  match o with
  | OAppendRows n => Fmt a (rs ++ replicate (Z.to_nat n) ∅) cs
  | OInsertRows i n => let k := spot (length rs) i in Fmt a (take k rs ++ replicate (Z.to_nat n) ∅ ++ drop k rs) cs
  | ODeleteRows i n => let k := spot (length rs) i in Fmt a (take k rs ++ drop (k + Z.to_nat n) rs) cs
  | OAppendCols n => Fmt a rs (cs ++ replicate (Z.to_nat n) ∅)
  | OInsertCols i n => let k := spot (length cs) i in Fmt a rs (take k cs ++ replicate (Z.to_nat n) ∅ ++ drop k cs)
  | ODeleteCols i n => let k := spot (length cs) i in Fmt a rs (take k cs ++ drop (k + Z.to_nat n) cs)
  | OReset size => unformatted (Z.to_nat size.1) (Z.to_nat size.2)
  | TableSpec.OClear => unformatted (length rs) (length cs)
  | OSetNew _ _ | OWrite _ _ | OSetName _ | OSetOld _ _ => f
  end.
Definition name_op (o : op) (n : pystr) : pystr :=
  match o with
  | OSetName v => normalize_sheet_name v
  | OReset _ | TableSpec.OClear => normalize_sheet_name n
  | _ => n
  end.
(** Arguments in range; nothing repeated is put into the table, and no cell of another sheet. *)
Definition fine (o : op) (nr nc : nat) : Prop := not_old o /\ forall s, fits o s nr nc /\ clean o s.

(** Arguments that are refused, with the exception: a count below one or (deleting) of all rows or
    columns, a place outside of the table, something that is no cell, no name. *)
Definition outside (n : nat) (i : Z) : Prop := (Z.of_nat n <= i \/ i < - 2 * Z.of_nat n)%Z.
Inductive refuses (nr nc : nat) : op -> exn -> Prop :=
  | rf_append_rows n : (n < 1)%Z -> refuses nr nc (OAppendRows n) ValueError
  | rf_insert_rows i n : (n < 1)%Z -> refuses nr nc (OInsertRows i n) ValueError
  | rf_insert_rows_at i n : (1 <= n)%Z -> (i < - Z.of_nat nr \/ Z.of_nat nr <= i)%Z -> refuses nr nc (OInsertRows i n) IndexError
  | rf_delete_rows i n : (n < 1 \/ Z.of_nat nr <= n)%Z -> refuses nr nc (ODeleteRows i n) ValueError
  | rf_delete_rows_at i n : (1 <= n < Z.of_nat nr)%Z -> outside nr i -> refuses nr nc (ODeleteRows i n) IndexError
  | rf_append_cols n : (n < 1)%Z -> refuses nr nc (OAppendCols n) ValueError
  | rf_insert_cols i n : (n < 1)%Z -> refuses nr nc (OInsertCols i n) ValueError
  | rf_delete_cols i n : (n < 1 \/ Z.of_nat nc <= n)%Z -> refuses nr nc (ODeleteCols i n) ValueError
  | rf_delete_cols_at i n : (1 <= n < Z.of_nat nc)%Z -> outside nc i -> refuses nr nc (ODeleteCols i n) IndexError
  | rf_set pos e : plain e -> ~ is_cell_tag (e_tag e) -> refuses nr nc (OSetNew pos e) TypeError
  | rf_set_at pos e : plain e -> is_cell_tag (e_tag e) -> outside nr pos.1 \/ (exists i, at_index nr pos.1 i) /\ outside nc pos.2 ->
      refuses nr nc (OSetNew pos e) IndexError
  | rf_write_at pos f : outside nr pos.1 \/ (exists i, at_index nr pos.1 i) /\ outside nc pos.2 -> refuses nr nc (OWrite pos f) IndexError
  | rf_name v : normalize_sheet_name v = [] -> refuses nr nc (OSetName v) ValueError.

(** What a setter or deleter does to the attributes of its element, and its result. *)
Definition yes_no (v : pyval) : pystr := if truth v then lit "true" else lit "false".
Definition set_on (p : setting) (a : attrib) : attrib * res unit :=
  match p with
  | AStr k (VStr s) => (<[k := s]> a, Ok tt)
  | AStr _ _ => (a, Err TypeError)
  | ABool k v | AFlag k v => (<[k := yes_no v]> a, Ok tt)
  | AVis (VStr s) => if decide (s ∈ [lit "visible"; lit "collapse"; lit "filter"]) then (<["table:visibility" := s]> a, Ok tt) else (a, Err ValueError)
  | AVis _ => (a, Err ValueError)
  | AAttr k v => if truth v then (<[k := tostr v]> a, Ok tt) else (a, Err ValueError)
  | ADel k => match a !! k with Some _ => (delete k a, Ok tt) | None => (a, Err KeyError) end
  | AProtect key v =>
      let a := <["table:protected" := yes_no v]> a in
      if truth v then if truth key then (<["table:protection-key" := tostr key]> a, Ok tt) else (a, Err ValueError) else (a, Ok tt)
  end.
Definition key_of (p : setting) : string :=
  match p with AStr k _ | ABool k _ | AAttr k _ | AFlag k _ | ADel k => k | AVis _ => "table:visibility" | AProtect _ _ => "table:protected" end.
(** A row or a column: by its number or by the address of a cell in it. *)
Definition at_row (n : nat) (i : Table.index) (k : nat) : Prop :=
  match i with
  | INum z => at_index n z k
  | IStr a => exists w c, is_col_name w c /\ a = w ++ show_Z (Z.of_nat k + 1) /\ k < n
  end.
Definition at_col (n : nat) (i : Table.index) (k : nat) : Prop :=
  match i with
  | INum z => at_index n z k
  | IStr a => exists w r, is_col_name w (Z.of_nat k) /\ (0 <= r)%Z /\ a = w ++ show_Z (r + 1) /\ k < n
  end.
(** The attributes at a place, and with others there; the name of the sheet and the repetition
    counts are not set as a property. *)
Inductive placed_at (f : fmt) : place -> string -> attrib -> (attrib -> fmt) -> Prop :=
  | pa_sheet : placed_at f PSheet "table:name" (f_own f) (fun a => Fmt a (f_rows f) (f_cols f))
  | pa_row i k a : at_row (length (f_rows f)) i k -> f_rows f !! k = Some a ->
      placed_at f (PRow i) "table:number-rows-repeated" a (fun a => Fmt (f_own f) (<[k := a]> (f_rows f)) (f_cols f))
  | pa_col i k a : at_col (length (f_cols f)) i k -> f_cols f !! k = Some a ->
      placed_at f (PCol i) "table:number-columns-repeated" a (fun a => Fmt (f_own f) (f_rows f) (<[k := a]> (f_cols f))).

Definition attrs_of (e : elem) : attrib := attrs (root e).
(** Spans: a cell becomes the first of a merged area, is covered by it, and back. *)
Definition g_cell (g : list (list elem)) (i j : nat) : option elem := g !! i ≫= (.!! j).
Definition recell (h : nat -> nat -> elem -> elem) (g : list (list elem)) : list (list elem) := imap (fun i row => imap (fun j e => h i j e) row) g.
Definition retag (tg : string) (a : attrib -> attrib) (e : elem) : elem := T (Nd tg (a (attrs_of e)) (text (root e)) (tail (root e))) (kids e).
Definition e_master (h w : nat) : elem -> elem :=
  retag "table:table-cell" (fun a => <["table:number-columns-spanned" := show_Z (Z.of_nat w)]> (<["table:number-rows-spanned" := show_Z (Z.of_nat h)]> a)).
Definition e_cover (e : elem) : elem :=
  if decide (e_tag e = "table:covered-table-cell") then e
  else retag "table:covered-table-cell" (fun a => delete "table:number-matrix-rows-spanned" (delete "table:number-matrix-columns-spanned"
         (delete "table:number-columns-spanned" (delete "table:number-rows-spanned" a)))) e.
Definition e_uncover : elem -> elem := retag "table:table-cell" id.
Definition e_unspan : elem -> elem := retag "table:table-cell" (fun a => delete "table:number-columns-spanned" (delete "table:number-rows-spanned" a)).
Definition span_says (e : elem) (h w : Z) : Prop := spans "table:number-rows-spanned" (root e) h /\ spans "table:number-columns-spanned" (root e) w.
(** set_cell_span and remove_cell_span *)
Inductive sop := SSpan (key : reference) (size : Z * Z) | SUnspan (key : reference).
Inductive spans_to (g : list (list elem)) : sop -> res unit -> list (list elem) -> Prop :=
  | sp_set key r c h w : denotes key (Z.of_nat r) (Z.of_nat c) -> 1 <= h -> 1 <= w -> (h, w) <> (1, 1) -> r + h <= length g -> c + w <= breadth g ->
      (forall i j e, in_rect r c h w i j -> g_cell g i j = Some e -> span_says e 1 1) ->
      spans_to g (SSpan key (Z.of_nat h, Z.of_nat w)) (Ok tt)
        (recell (fun i j e => if decide ((i, j) = (r, c)) then e_master h w e else if decide (in_rect r c h w i j) then e_cover e else e) g)
  | sp_negative key r c h w : denotes key r c -> (r < 0 \/ c < 0 \/ h < 1 \/ w < 1)%Z -> spans_to g (SSpan key (h, w)) (Err NameError) g
  | sp_outside key r c h w : denotes key (Z.of_nat r) (Z.of_nat c) -> 1 <= h -> 1 <= w -> length g < r + h \/ breadth g < c + w ->
      spans_to g (SSpan key (Z.of_nat h, Z.of_nat w)) (Err ValueError) g
  | sp_taken key r c h w i j e : denotes key (Z.of_nat r) (Z.of_nat c) -> 1 <= h -> 1 <= w -> r + h <= length g -> c + w <= breadth g ->
      in_rect r c h w i j -> g_cell g i j = Some e -> ~ span_says e 1 1 -> spans_to g (SSpan key (Z.of_nat h, Z.of_nat w)) (Err ValueError) g
  | sp_unset key r c h w e : denotes key (Z.of_nat r) (Z.of_nat c) -> g_cell g r c = Some e -> span_says e (Z.of_nat h) (Z.of_nat w) -> (h, w) <> (1, 1) ->
      is_Some (attrs_of e !! "table:number-rows-spanned") -> is_Some (attrs_of e !! "table:number-columns-spanned") -> r + h <= length g -> c + w <= breadth g ->
      spans_to g (SUnspan key) (Ok tt)
        (recell (fun i j e => if decide ((i, j) = (r, c)) then e_unspan e else if decide (in_rect r c h w i j) then e_uncover e else e) g)
  | sp_none key r c e : denotes key (Z.of_nat r) (Z.of_nat c) -> g_cell g r c = Some e -> span_says e 1 1 -> spans_to g (SUnspan key) (Ok tt) g.
Definition do_span (o : sop) : act st unit := match o with SSpan key size => set_cell_span key size | SUnspan key => remove_cell_span key end.
(** there are cells only *)
Definition all_cells (g : list (list elem)) : Prop :=
  forall i j e, g_cell g i j = Some e -> e_tag e = "table:table-cell" \/ e_tag e = "table:covered-table-cell".

(** [e] is a table element without repetitions: its name, its cells, its properties. *)
Definition tabular (e : elem) (n : pystr) (g : list (list elem)) (f : fmt) : Prop :=
  e_tag e = "table:table" /\ unrepeated e /\ flat e /\
  e_get "table:name" e = Some n /\ normalize_sheet_name n <> [] /\
  map kids (descendants "table:table-row" e) = g /\ length (descendants "table:table-column" e) = breadth g /\
  1 <= length g /\ 1 <= breadth g /\ Forall (fun r => length r = breadth g) g /\
  f = Fmt (delete "table:name" (attrs_of e)) (map attrs_of (descendants "table:table-row" e)) (map attrs_of (descendants "table:table-column" e)).
(** The stored table [e] is read as name [n], grid [g] and properties [f] (C09 to C11 say what the
    loader does). *)
Definition opens (strat : strategy) (mc : Z * Z) (e : elem) (n : pystr) (g : list (list elem)) (f : fmt) : Prop :=
  exists e1 e2, normalize_table strat mc e = Ok e1 /\ expand_columns strat mc.2 e1 = Ok e2 /\ tabular e2 n g f.

(** ** The workbook: a sheet nobody has asked for is as it is in the file *)
Inductive content := Stored (e : elem) | Open (n : pystr) (g : list (list elem)) (f : fmt).
Record wb := Wb { w_list : list N; w_tabs : gmap N content }.
Definition c_name (c : content) : option pystr := match c with Stored e => e_get "table:name" e | Open n _ _ => Some n end.
Definition w_name (w : wb) (x : N) : option pystr := w_tabs w !! x ≫= c_name.
Definition w_put (x : N) (c : content) (w : wb) : wb := Wb (w_list w) (<[x := c]> (w_tabs w)).
Definition w_order (l : list N) (w : wb) : wb := Wb l (w_tabs w).
(** there is an object for the sheet *)
Definition is_open (w : wb) (x : N) : Prop := exists n g f, w_tabs w !! x = Some (Open n g f).

Inductive kop :=
  | KTable (x : N) (o : op)
  | KValue (x : N) (key : reference) (c : call)
  | KProp (x : N) (q : place) (p : setting)
  | KSpan (x : N) (o : sop)
  | KGet (strat : strategy) (mc : Z * Z) (k : pkey)
  | KNew (strat : strategy) (mc : Z * Z) (name : pystr) (size : Z * Z)
  | KCopy (strat : strategy) (mc : Z * Z) (x : N) (newname : option pystr)
  | KSet (strat : strategy) (mc : Z * Z) (k : pkey) (x : N)
  | KDel (strat : strategy) (mc : Z * Z) (k : pkey)
  | KAppend (x : N).
(** the result is the sheet, if there is one *)
Definition do_book (p : container) (o : kop) : act bk (option N) :=
  match o with
  | KTable x o => let! _ := on_table x (run_op o) in aret None
  | KValue x key c => let! _ := on_table x (cell_set_value key (c_val c) (c_type c) (c_cur c)) in aret None
  | KProp x q p => let! _ := on_table x (write_prop q p) in aret None
  | KSpan x o => let! _ := on_table x (do_span o) in aret None
  | KGet strat mc k => let! x := k_get p strat mc k in aret (Some x)
  | KNew strat mc v size => let! x := k_new strat mc v size in aret (Some x)
  | KCopy strat mc x v => let! y := k_copy strat mc x v in aret (Some y)
  | KSet strat mc k x => let! _ := k_set p strat mc k (obj_of p x) in aret None
  | KDel strat mc k => let! _ := k_del p strat mc k in aret None
  | KAppend x => let! x := k_append p (obj_of p x) in aret (Some x)
  end.

(** Asking for the sheet [x]. *)
Inductive asked (strat : strategy) (mc : Z * Z) (w : wb) (x : N) : wb -> Prop :=
  | asked_again : is_open w x -> asked strat mc w x w
  | asked_first e n g f : w_tabs w !! x = Some (Stored e) -> opens strat mc e n g f -> asked strat mc w x (w_put x (Open n g f) w).

(** What each operation does to a workbook. *)
Inductive wstep : kop -> wb -> res (option N) -> wb -> Prop :=
  | ws_table x o w n g f : w_tabs w !! x = Some (Open n g f) -> fine o (length g) (breadth g) ->
      wstep (KTable x o) w (Ok None) (w_put x (Open (name_op o n) (grid_op o g) (fmt_op o f)) w)
  | ws_refused x o w n g f e : w_tabs w !! x = Some (Open n g f) -> refuses (length g) (breadth g) o e -> wstep (KTable x o) w (Err e) w
  | ws_prop x q p w n g f k a u : w_tabs w !! x = Some (Open n g f) -> placed_at f q k a u -> key_of p <> k ->
      wstep (KProp x q p) w (do _ <- (set_on p a).2; Ok None) (w_put x (Open n g (u (set_on p a).1)) w)
  | ws_span x o w n g f r g' : w_tabs w !! x = Some (Open n g f) -> all_cells g -> spans_to g o r g' ->
      wstep (KSpan x o) w (do _ <- r; Ok None) (w_put x (Open n g' f) w)
  | ws_value x key c w n g f i j row e : w_tabs w !! x = Some (Open n g f) -> at_cell (length g) (breadth g) key i j -> (forall p, c_val c = VWrap p -> plain p) ->
      g !! i = Some row -> row !! j = Some e ->
      wstep (KValue x key c) w (do _ <- (set_value (c_val c) (c_type c) (c_cur c) e).2; Ok None) (w_put x (Open n (<[i := <[j := run_call e c]> row]> g) f) w)
  | ws_get strat mc k w x w' : find_page (w_name w) k (w_list w) = Ok x -> asked strat mc w x w' ->
      wstep (KGet strat mc k) w (Ok (Some x)) w'
  | ws_get_err strat mc k w e : find_page (w_name w) k (w_list w) = Err e -> wstep (KGet strat mc k) w (Err e) w
  | ws_new strat mc v nr nc w x : w_tabs w !! x = None -> normalize_sheet_name v <> [] -> (1 <= nr)%Z -> (1 <= nc)%Z -> max_ok strat mc ->
      wstep (KNew strat mc v (nr, nc)) w (Ok (Some x)) (w_put x (Open (normalize_sheet_name v) (blank (Z.to_nat nr) (Z.to_nat nc)) (unformatted (Z.to_nat nr) (Z.to_nat nc))) w)
  | ws_copy strat mc x v w n g f y : w_tabs w !! x = Some (Open n g f) -> w_tabs w !! y = None ->
      normalize_sheet_name (default (lit "CopyOf" ++ n) v) <> [] -> max_ok strat mc ->
      wstep (KCopy strat mc x v) w (Ok (Some y)) (w_put y (Open (normalize_sheet_name (default (lit "CopyOf" ++ n) v)) g f) w)
  | ws_set strat mc k x w old w' : is_open w x -> find_page (w_name w) k (w_list w) = Ok old -> asked strat mc w old w' ->
      wstep (KSet strat mc k x) w (Ok None) (w_order (put_page old x (w_list w)) w')
  | ws_set_err strat mc k x w e : is_open w x -> find_page (w_name w) k (w_list w) = Err e -> wstep (KSet strat mc k x) w (Err e) w
  | ws_del strat mc k w old w' : find_page (w_name w) k (w_list w) = Ok old -> asked strat mc w old w' ->
      wstep (KDel strat mc k) w (Ok None) (w_order (WrapperSpec.without old (w_list w)) w')
  | ws_del_err strat mc k w e : find_page (w_name w) k (w_list w) = Err e -> wstep (KDel strat mc k) w (Err e) w
  | ws_append x w : is_open w x -> wstep (KAppend x) w (Ok (Some x)) (w_order (WrapperSpec.without x (w_list w) ++ [x]) w).
(** Operations that make a sheet: which identity it gets is not said. *)
Definition makes (o : kop) : Prop := match o with KNew _ _ _ _ | KCopy _ _ _ _ => True | _ => False end.
(** The operation is used as it is meant. *)
Definition sensible (o : kop) (w : wb) : Prop := exists r w', wstep o w r w'.

(** A program: each operation may depend on the results before it. *)
Inductive works (p : container) : bk -> wb -> list (res (option N)) -> bk -> wb -> Prop :=
  | wk_refl b w : works p b w [] b w
  | wk_step b w rs b1 w1 o w2 : works p b w rs b1 w1 -> wstep o w1 (do_book p o b1).2 w2 ->
      works p b w (rs ++ [(do_book p o b1).2]) (do_book p o b1).1 w2.

(** ** The document pictures the workbook *)
(** the object and the element of a sheet with content [c] *)
Definition pictures (o : option tobj) (t : node) (c : content) : Prop :=
  match c with
  | Stored e => o = None /\ ltag t = "table:table" /\ erase t = e
  | Open n g f => exists ob, o = Some ob /\ rt ob = nid t /\
      rowc ob = map nid (ldesc "table:table-row" t) /\ colc ob = map nid (ldesc "table:table-column" t) /\ tabular (erase t) n g f
  end.
(** [K]: nodes outside of all sheets, which keep their data [kd] and, but for the body of the
    sheets, their children [kc]; [oc]: the children of the body that are no sheets. *)
Record kept := Kept { kp : N -> Prop; kd : N -> option nd; kc : N -> list N; oc : list N }.
Record Rep (p : container) (K : kept) (b : bk) (w : wb) : Prop := {
  rp_nodup : NoDup (ids (k_store b));
  rp_fresh : Forall (fun x => x < k_nxt b)%N (ids (k_store b));
  rp_list : pages p (k_store b) = w_list w;
  rp_in : Forall (fun x => is_Some (w_tabs w !! x)) (w_list w);
  rp_body : kp K (pc_body p);
  rp_tab x c : w_tabs w !! x = Some c -> exists t, element x (k_store b) /\ sub x (k_store b) = Some t /\ pictures (k_cache b !! x) t c /\
    (forall x', is_Some (w_tabs w !! x') -> x' <> x -> x' ∉ ids t) /\ (forall z, kp K z -> z ∉ ids t);
  rp_keep z : kp K z -> element z (k_store b) /\ data z (k_store b) = kd K z /\
    (z <> pc_body p -> children z (k_store b) = kc K z /\ forall x, is_Some (w_tabs w !! x) -> x ∉ kc K z);
  rp_others : others p (k_store b) = oc K
}.

(** ** A document that has just been opened: nobody has asked for a sheet *)
Definition sheets_in (ty : node) : list node := filter (fun k => ltag k = "table:table") (kids ty).
Definition book_of (ty : node) : wb := Wb (map nid (sheets_in ty)) (list_to_map (map (fun k => (nid k, Stored (erase k))) (sheets_in ty))).
(** everything outside of the sheets is kept *)
Definition rest_of (S : node) (ty : node) : kept :=
  Kept (fun z => element z S /\ Forall (fun k => z ∉ ids k) (sheets_in ty)) (fun z => data z S) (fun z => children z S) (others (sheets (nid ty)) S).

(** the content of the document is [r] in the tree in memory (there may be anything else); no
    table objects have been made for its sheets *)
Definition opened_book (S : node) (n : N) (ca : gmap N tobj) (r y : node) : Prop :=
  NoDup (ids S) /\ Forall (fun z => z < n)%N (ids S) /\ element (nid r) S /\ sub (nid r) S = Some r /\ spreadsheet_of r = Some y /\
  Forall (fun k => ca !! nid k = None) (sheets_in y).
(** all children of the body that are no sheets *)
Definition not_sheets (y : node) : list node := filter (fun k => ~ ltag k = "table:table") (kids y).

(** ** A workbook that was saved *)
(** the element of a sheet *)
Definition written_as (c : content) (e : elem) : Prop := match c with Stored e0 => e = e0 | Open n g f => tabular e n g f end.
(** what is found in the file for a sheet: empty texts are none (C52) *)
Definition found (c : content) (e : elem) : Prop :=
  match c with
  | Stored e0 => e = parsed e0
  | Open n g f => e_get "table:name" e = Some n /\ parsed e = e /\ forall strat mc, max_ok strat mc -> opens strat mc e n (map (map parsed) g) f
  end.
Definition reopened (w w2 : wb) : Prop :=
  Forall2 (fun x x2 => exists c e, w_tabs w !! x = Some c /\ w_tabs w2 !! x2 = Some (Stored e) /\ found c e) (w_list w) (w_list w2).
End spec.
