(** Model of /repo/ezodf/meta.py.  The state of the operations is the office:meta element
    ([self.meta], also held by Keywords and Usertags).  The element held by Statistic is
    its first meta:document-statistic child: meta.py:46-49 takes or creates that one,
    meta.py:62 replaces it after all children were removed, and nothing else removes
    or adds such a child. *)
From Verif Require Export PyBaseFacts Dom.

(** meta.py:16-27 TAGS *)
Definition META_TAGS : list (string * string) :=
  [("generator", "meta:generator"); ("title", "dc:title"); ("description", "dc:description"); ("subject", "dc:subject");
   ("initial-creator", "meta:initial-creator"); ("creator", "dc:creator"); ("creation-date", "meta:creation-date");
   ("date", "dc:date"); ("editing-cycles", "meta:editing-cycles"); ("language", "dc:language")]%string.
Fixpoint alookup (k : string) (l : list (string * string)) : option string :=
  match l with [] => None | (k', v) :: r => if decide (k = k') then Some v else alookup k r end.
Definition tag_for (key : string) : option string := alookup key META_TAGS.

Definition KEYWORD : string := "meta:keyword".
Definition USER : string := "meta:user-defined".
Definition STATISTIC : string := "meta:document-statistic".
Definition NAME : string := "meta:name".
Definition VALUE_TYPE : string := "meta:value-type".

(** What is assigned to [element.text]: a string, None, or something lxml refuses. *)
Inductive textval := TStr (s : pystr) | TNone | TOther.
Definition assign_text (v : textval) (k : elem) : elem * res unit :=
  match v with
  | TStr s => (e_set_text (Some s) k, Ok tt)
  | TNone => (e_set_text None k, Ok tt)
  | TOther => (k, Err TypeError)
  end.

(** the first child for which [P] holds is changed by [f]; [None] if there is none *)
Definition first_kid (P : elem -> Prop) `{forall k, Decision (P k)} (e : elem) : option (nat * elem) := list_find P (kids e).
Definition replace_kid (i : nat) (k : elem) : elem -> elem := on_kids <[i := k]>.
Definition remove_kid (i : nat) : elem -> elem := on_kids (delete_at i).
Definition has_tag (t : string) (k : elem) : Prop := e_tag k = t.
Global Instance has_tag_dec t k : Decision (has_tag t k).
Proof. unfold has_tag. apply _. Defined.

Section meta.
Context `{U : Unicode}.

(** meta.py:68-71 __setitem__ *)
Definition meta_set (key : string) (v : textval) : act elem unit := fun m =>
  match tag_for key with
  | None => (m, Err KeyError)
  | Some t =>
      match first_kid (has_tag t) m with
      | Some (i, k) => let '(k', r) := assign_text v k in (replace_kid i k' m, r)
      | None => let '(k', r) := assign_text v (new_elem t) in (e_append k' m, r)
      end
  end.
(** meta.py:73-78 __getitem__ *)
Definition meta_get (key : string) (m : elem) : res (option pystr) :=
  match tag_for key with
  | None => Err KeyError
  | Some t => match first_kid (has_tag t) m with Some (_, k) => Ok (e_text k) | None => Err KeyError end
  end.
(** meta.py:64-66 touch; [now]: datetime.now().isoformat(), [gen]: the generator string *)
Definition meta_touch (now gen : pystr) : act elem unit :=
  let! _ := meta_set "date" (TStr now) in meta_set "generator" (TStr gen).
(** meta.py:80-89 inc_editing_cycles *)
Definition meta_inc : act elem unit := fun m =>
  match meta_get "editing-cycles" m with
  | Err KeyError => meta_set "editing-cycles" (TStr (show_Z 1)) m
  | Err x => (m, Err x)
  | Ok None => (m, Err TypeError)
  | Ok (Some s) =>
      match py_int s with
      | Ok n => meta_set "editing-cycles" (TStr (show_Z (n + 1))) m
      | Err ValueError => meta_set "editing-cycles" (TStr (show_Z 1)) m
      | Err x => (m, Err x)
      end
  end.
(** meta.py:59-62 clear *)
Definition meta_clear (m : elem) : elem := e_append (new_elem STATISTIC) (e_clear m).

(** ** Keywords *)
(** meta.py:122-127 Keywords._find; None finds an element without text *)
Definition is_keyword (w : option pystr) (k : elem) : Prop := e_tag k = KEYWORD /\ e_text k = w.
Global Instance is_keyword_dec w k : Decision (is_keyword w k).
Proof. unfold is_keyword. apply _. Defined.
(** meta.py:95-98 __iter__ *)
Definition kw_list (m : elem) : list (option pystr) := map e_text (findall KEYWORD m).
(** meta.py:100-102 __contains__ *)
Definition kw_contains (w : option pystr) (m : elem) : bool :=
  match first_kid (is_keyword w) m with Some _ => true | None => false end.
(** meta.py:104-109 add *)
Definition kw_add (w : option pystr) (m : elem) : elem :=
  match first_kid (is_keyword w) m with
  | Some _ => m
  | None => e_append (e_set_text w (new_elem KEYWORD)) m
  end.
(** meta.py:111-115 remove *)
Definition kw_remove (w : option pystr) (m : elem) : elem :=
  match first_kid (is_keyword w) m with Some (i, _) => remove_kid i m | None => m end.
(** meta.py:117-120 Keywords.clear, 191-194 Usertags.clear *)
Definition clear_tag (t : string) : elem -> elem := on_kids (filter (fun k => ~ has_tag t k)).
Definition kw_clear : elem -> elem := clear_tag KEYWORD.

(** ** Usertags *)
(** meta.py:196-200 Usertags._find, of a string *)
Definition is_user (n : pystr) (k : elem) : Prop := e_tag k = USER /\ e_get NAME k = Some n.
Global Instance is_user_dec n k : Decision (is_user n k).
Proof. unfold is_user. apply _. Defined.
(** meta.py:133-139 __iter__ *)
Definition ut_list (m : elem) : list (option pystr * option pystr) := map (fun k => (e_get NAME k, e_text k)) (findall USER m).
(** meta.py:141-142 __contains__ *)
Definition ut_contains (n : pystr) (m : elem) : bool :=
  match first_kid (is_user n) m with Some _ => true | None => false end.
(** meta.py:144-153 set; [v]: tostr(value) *)
Definition ut_fill (v : pystr) (ty : option pystr) (k : elem) : elem :=
  let k := e_set_text (Some v) k in
  match ty with Some t => e_set VALUE_TYPE t k | None => k end.
Definition ut_set (n v : pystr) (ty : option pystr) (m : elem) : elem :=
  match first_kid (is_user n) m with
  | Some (i, k) => replace_kid i (ut_fill v ty k) m
  | None => e_append (ut_fill v ty (e_set NAME n (new_elem USER))) m
  end.
(** meta.py:158-166 __getitem__ *)
Definition ut_get (n : pystr) (m : elem) : res (option pystr) :=
  match first_kid (is_user n) m with Some (_, k) => Ok (e_text k) | None => Err KeyError end.
(** meta.py:168-177 __delitem__ *)
Definition ut_del (n : pystr) : act elem unit := fun m =>
  match first_kid (is_user n) m with Some (i, _) => (remove_kid i m, Ok tt) | None => (m, Err KeyError) end.
(** meta.py:179-184 typeof *)
Definition ut_typeof (n : pystr) (m : elem) : res pystr :=
  match first_kid (is_user n) m with Some (_, k) => Ok (default (lit "string") (e_get VALUE_TYPE k)) | None => Err KeyError end.
(** meta.py:191-194 clear *)
Definition ut_clear : elem -> elem := clear_tag USER.
(** meta.py:155-156, 186-189 update; [d]: the items of the dict, values after tostr *)
Definition ut_update (d : list (pystr * pystr)) (m : elem) : elem := foldl (fun m p => ut_set p.1 p.2 None m) m d.

(** ** Statistic *)
(** meta.py:203-206 TYPES *)
Definition STAT_TYPES : list string :=
  ["page"; "table"; "draw"; "image"; "object"; "ole-object"; "paragraph"; "word"; "character"; "row"; "frame";
   "sentence"; "syllable"; "non-whitespace-character"; "cell"]%string.
(** meta.py:207 NS: the attribute name *)
Definition stat_attr (key : string) : string := ("meta:" ++ key ++ "-count")%string.
Definition stats_of (m : elem) : option (nat * elem) := first_kid (has_tag STATISTIC) m.
(** meta.py:212-224 __getitem__ *)
Definition st_get (key : string) (m : elem) : res Z :=
  if decide (key ∈ STAT_TYPES) then
    match stats_of m with
    | None => Err AttributeError
    | Some (_, s) =>
        match e_get (stat_attr key) s with
        | None => Ok 0%Z
        | Some v => match py_int v with Ok n => Ok n | Err _ => Ok 0%Z end
        end
    end
  else Err KeyError.
(** meta.py:226-230 __setitem__; [v]: tostr(value) *)
Definition st_set (key : string) (v : pystr) : act elem unit := fun m =>
  if decide (key ∈ STAT_TYPES) then
    match stats_of m with
    | None => (m, Err AttributeError)
    | Some (i, s) => (replace_kid i (e_set (stat_attr key) v s) m, Ok tt)
    end
  else (m, Err KeyError).
(** meta.py:241-244 update *)
Definition st_update (d : list (string * pystr)) : act elem unit := aiter d (fun p => st_set p.1 p.2).
(** meta.py:246-248 clear *)
Definition st_clear (m : elem) : elem :=
  match stats_of m with Some (i, s) => replace_kid i (e_clear s) m | None => m end.
(** meta.py:232-239 __iter__: attribute names without namespace and the last six
    characters; the order of attributes is not modelled *)
Definition st_items (m : elem) : res (list (string * Z)) :=
  match stats_of m with
  | None => Err AttributeError
  | Some (_, s) =>
      foldr (fun p r => do l <- r; do n <- py_int p.2;
                        Ok ((String.substring 5 (String.length p.1 - 5 - 6) p.1, n) :: l)) (Ok []) (map_to_list (e_attrs s))
  end.

(** ** The document *)
(** [self.xmlnode.find('office:meta')] is changed by an operation *)
Definition on_meta {A} (f : act elem A) : act elem A := fun r =>
  match first_kid (has_tag "office:meta") r with
  | Some (i, m) => let '(m', x) := f m in (replace_kid i m' r, x)
  | None => (r, Err AttributeError)
  end.
(** meta.py:51-57 _setup; [now0], [now]: two results of datetime.now().isoformat() *)
Definition meta_setup (now0 now gen : pystr) : act elem unit := fun r =>
  match first_kid (has_tag "office:meta") r with
  | Some _ => (r, Ok tt)
  | None =>
      let r := e_append (new_elem "office:meta") r in
      let r := e_set "grddl:transformation" (lit "http://docs.oasis-open.org/office/1.2/xslt/odf2rdf.xsl") r in
      on_meta (let! _ := meta_set "creation-date" (TStr now0) in meta_touch now gen) r
  end.
(** meta.py:34-49 OfficeDocumentMeta(xmlnode) *)
Definition open_meta (now0 now gen : pystr) (x : option elem) : res elem :=
  do r <- match x with
          | None => Ok (new_elem "office:document-meta")
          | Some e => if decide (e_tag e = "office:document-meta"%string) then Ok e else Err ValueError
          end;
  let '(r, x) := meta_setup now0 now gen r in
  do _ <- x;
  let '(r, x) := on_meta (fun m => (match stats_of m with Some _ => m | None => e_append (new_elem STATISTIC) m end, Ok tt)) r in
  do _ <- x; Ok r.
End meta.
