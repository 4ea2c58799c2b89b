(** Settings, and histories of a program that uses several sheets. *)
From Verif Require Export Config TableNormSpec TableSpec.

Section spec.
Context `{U : Unicode}.

(** What a setting says: the strategy of that name, and the first two numbers.  Only
    'all_less_maxcount' makes use of the numbers, which have to be greater than one. *)
Definition means (c : conf) (st : strategy) (mc : Z * Z) : Prop :=
  (exists l, c_maxcount c = mc.1 :: mc.2 :: l) /\
  match st with
  | ExpandAll => c_strategy c = "all"
  | ExpandAllButLast => c_strategy c = "all_but_last"
  | ExpandAllLessMaxCount => c_strategy c = "all_less_maxcount" /\ (1 < mc.1)%Z /\ (1 < mc.2)%Z
  end%string.
(** A setting that is refused: no such strategy, or numbers are missing. *)
Definition refused (c : conf) (x : exn) : Prop :=
  (c_strategy c ∉ ["all"; "all_but_last"; "all_less_maxcount"]%string /\ x = TypeError) \/
  (c_strategy c ∈ ["all"; "all_less_maxcount"]%string /\ length (c_maxcount c) < 2 /\ x = IndexError).
Definition sensible (c : conf) : Prop := (exists st mc, means c st mc) \/ exists x, refused c x.

(** A sheet of a document: no tables in tables, all counts positive numbers. *)
Definition good_sheet (e : elem) : Prop :=
  good_table e /\ Forall (good_rep "table:number-columns-repeated") (descendants "table:table-column" e).
(** A sheet without repetitions, all rows of the same length. *)
Definition tidy (e : elem) : Prop :=
  e_tag e = "table:table"%string /\ flat e /\ unrepeated e /\
  exists w, Forall (fun r => length (kids r) = w) (descendants "table:table-row" e).
(** [e'] shows [e] in the manner of the strategy (C09, C11). *)
Definition expands (st : strategy) (mc : Z * Z) (e e' : elem) : Prop :=
  root e' = root e /\
  length (descendants "table:table-row" e') = height st mc e /\
  (forall i j, bare "table:number-columns-repeated" <$> plain_cell e' i j =
     match logical_cell st mc e i j with
     | Some c => Some (bare "table:number-columns-repeated" c)
     | None => if decide (i < height st mc e /\ j < width st mc e) then Some (new_elem "table:table-cell") else None
     end) /\
  (forall j, bare "table:number-columns-repeated" <$> descendants "table:table-column" e' !! j =
     bare "table:number-columns-repeated" <$>
       rle_lookup (shown st mc.2 (runs "table:number-columns-repeated" (descendants "table:table-column" e))) j).

(** ** Histories *)
Inductive cop := CSet (st : string) (mc : list Z) | CReset | CAccess (i : nat) | CChange (i : nat) (f : elem -> elem) | CForget.
Definition c_step (o : cop) (b : book) : book :=
  match o with
  | CSet st mc => Book (set_strategy st mc (b_conf b)) (b_sheets b)
  | CReset => Book (reset_strategy (b_conf b)) (b_sheets b)
  | CAccess i => (access i b).1
  | CChange i f => change i f b
  | CForget => forget b
  end.
Definition c_run (h : list cop) (b : book) : book := foldl (fun b o => c_step o b) b h.
(** a document that was opened: no sheet has been accessed *)
Definition opened (c : conf) (es : list elem) : book := Book c (map (fun e => Sh e false) es).

(** the setting that was made last *)
Fixpoint setting (c : conf) (h : list cop) : conf :=
  match h with
  | [] => c
  | CSet st mc :: r => setting (Conf st mc) r
  | CReset :: r => setting (Conf "all_less_maxcount" [32; 32]%Z) r
  | _ :: r => setting c r
  end.
(** the changes of sheet [i], in order *)
Definition changes (i : nat) (h : list cop) (e : elem) : elem :=
  foldl (fun e o => match o with CChange j f => if decide (j = i) then f e else e | _ => e end) e h.
(** Whenever sheet [i] is accessed the setting is refused; it is not changed. *)
Definition unused_sheet (i : nat) (c : conf) (h : list cop) : Prop :=
  (forall f, CChange i f ∉ h) /\
  forall h1 h2, h = h1 ++ CAccess i :: h2 -> exists x, refused (setting c h1) x.
(** All settings are sensible, and changes keep tables tidy. *)
Definition proper (c : conf) (h : list cop) : Prop :=
  sensible c /\
  (forall st mc, CSet st mc ∈ h -> sensible (Conf st mc)) /\
  (forall i f, CChange i f ∈ h -> forall e, tidy e -> tidy (f e)).
End spec.
