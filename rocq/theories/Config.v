(** Model of /repo/ezodf/conf.py (the global expand strategy) and of its use when the sheets of a
    document are accessed.  Trees without node identity; the list of sheets is fixed (it is the
    subject of Pages.v). *)
From Verif Require Export TableNorm.

(** conf.py:13-22: _strategy and _maxcount; const.py:215-216 defaults *)
Record conf := Conf { c_strategy : string; c_maxcount : list Z }.
Definition DEFAULT_TABLE_EXPAND_STRATEGY : string := "all_less_maxcount".
Definition DEFAULT_MAXCOUNT : list Z := [32; 32]%Z.
(** conf.py:20-22 set_strategy, 43-55 Config.set_table_expand_strategy *)
Definition set_strategy (st : string) (mc : list Z) (c : conf) : conf := Conf st mc.
(** conf.py:17-18 reset, 57-62 Config.reset_table_expand_strategy; 14-15 __init__ *)
Definition reset_strategy (c : conf) : conf := set_strategy DEFAULT_TABLE_EXPAND_STRATEGY DEFAULT_MAXCOUNT c.
Definition conf_new : conf := Conf DEFAULT_TABLE_EXPAND_STRATEGY DEFAULT_MAXCOUNT.
(** conf.py:24-34 get_strategy, get_maxcount, get_maxrows, get_maxcols *)
Definition get_maxrows (c : conf) : res Z := py_get (c_maxcount c) 0.
Definition get_maxcols (c : conf) : res Z := py_get (c_maxcount c) 1.

Section config.
Context `{U : Unicode}.

(** tablenormalizer.py:22-24, 50-51, 75: two strategies look at maxcount first, the third never *)
Definition set_maxcount (st : strategy) (c : conf) : res (Z * Z) :=
  match st with
  | ExpandAllButLast => Ok (0, 0)%Z
  | _ => do r <- get_maxrows c; do k <- get_maxcols c; Ok (r, k)
  end.
(** tablerowcontroller.py:18-25: the table after TableCellAccessor.__init__.  (If a repetition
    count is no number the table is changed up to there; not modelled.) *)
Definition row_controller (c : conf) : act elem unit := fun e =>
  if is_table e then
    match strategy_of (c_strategy c) with
    | Err x => (e, Err x)
    | Ok st =>
        match set_maxcount st c with
        | Err x => (e, Err x)
        | Ok mc => match normalize_table st mc e with Ok e' => (e', Ok tt) | Err x => (e, Err x) end
        end
    end
  else (e, Err ValueError).
(** tablecolumncontroller.py:67-72, 92-99 *)
Definition column_controller (c : conf) : act elem unit := fun e =>
  match get_maxcols c with
  | Err x => (e, Err x)
  | Ok mc =>
      match strategy_of (c_strategy c) with
      | Err x => (e, Err x)
      | Ok st => match expand_columns st mc e with Ok e' => (e', Ok tt) | Err x => (e, Err x) end
      end
  end.
(** table.py:31-45 Table(xmlnode=e) *)
Definition open_table (c : conf) : act elem unit :=
  let! _ := row_controller c in column_controller c.

(** ** A document *)
(** the element of a sheet, and if the wrapper cache has a Table for it *)
Record sheet := Sh { s_elem : elem; s_cached : bool }.
Record book := Book { b_conf : conf; b_sheets : list sheet }.
(** pagecontainer.py:72-74 doc.sheets[i], wrapcache.py:16-23 wrap (table.py:45 adds it as well) *)
Definition access (i : nat) : act book unit := fun b =>
  match b_sheets b !! i with
  | None => (b, Err IndexError)
  | Some s =>
      if s_cached s then (b, Ok tt)
      else
        let '(e, r) := open_table (b_conf b) (s_elem s) in
        let ok := match r with Ok _ => true | Err _ => false end in
        (Book (b_conf b) (<[i := Sh e ok]> (b_sheets b)), r)
  end.
(** a change of the table by means of a Table object *)
Definition change (i : nat) (f : elem -> elem) (b : book) : book :=
  match b_sheets b !! i with
  | Some s => Book (b_conf b) (<[i := Sh (f (s_elem s)) (s_cached s)]> (b_sheets b))
  | None => b
  end.
(** wrapcache.py:31-32 clear *)
Definition forget (b : book) : book := Book (b_conf b) (map (fun s => Sh (s_elem s) false) (b_sheets b)).
End config.
