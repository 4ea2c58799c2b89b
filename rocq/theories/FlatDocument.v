(** Model of FlatXMLDocument, /repo/ezodf/document.py:141-202: a document in a single XML
    file.  The file operations are those of FileManager.v; the tree of the document is kept
    as object 0 of the state, the rest of the file manager is not used. *)
From Verif Require Export Document.

Definition FLAT_TAG : string := "office:document".
Definition FLAT_META : string := "office:document-meta".
(** document.py:168-173: what _setup makes after the meta data *)
Definition flat_setup (e : elem) : elem :=
  subelement "office:master-styles" (subelement "office:automatic-styles" (subelement "office:styles"
    (subelement "office:font-face-decls" (subelement "office:scripts" (subelement "office:settings" e))))).

Section flat.
Context `{U : Unicode} `{B : Bytes}.
Notation P := (prog st).

(** document.py:145-164, 166-181 FlatXMLDocument(filetype, filename, xmlnode); line 157 asks for an
    attribute which does not exist yet *)
Definition flat_open (c : clock) (ext : string) (name : option pystr) (x : option elem) : res (doc * elem) :=
  match mimetype_of ext with
  | None => Err KeyError
  | Some m0 =>
      do p <- match x with
              | None => Ok (new_elem FLAT_TAG, Some m0)
              | Some e => if decide (e_tag e = FLAT_TAG) then Ok (e, e_get "office:mimetype" e) else Err AttributeError
              end;
      match p.2 with
      | None => Err TypeError
      | Some m =>
          if decide (m ∈ map (fun q => lit q.2) MIMETYPES) then
            do e <- on_child FLAT_META (fun k => open_meta (created c) (touched c) (generator c) (Some k)) (subelement FLAT_META p.1);
            match bodytag_for m with
            | None => Err KeyError
            | Some t => do e <- open_application_body t (subelement "office:body" (flat_setup e)); Ok (Doc name m ext true, e)
            end
          else Err TypeError
      end
  end.

(** document.py:118-125 save: the meta data *)
Definition flat_meta (f : act elem unit) : P unit := fun s =>
  match first_kid (has_tag FLAT_META) (objects (mgr s) 0) with
  | Some (i, k) => let '(k', r) := on_meta f k in (upd_mgr (set_object 0 (replace_kid i k' (objects (mgr s) 0))) s, Done r)
  | None => (s, Done (Err AttributeError))
  end.
(** document.py:188-193 _backupfile *)
Definition backup_file (f : pystr) : P unit :=
  let bak := f ++ BAK in
  run eb := sys_exists bak in
  run _ := (if eb : bool then sys_remove bak else pret tt) in
  sys_rename f bak.
(** document.py:199-202 tobytes *)
Definition flat_bytes : P bytes := fun s => (s, Done (Ok (b_xml true (objects (mgr s) 0)))).
(** document.py:195-197 _writefile *)
Definition write_flat (f : pystr) : P unit :=
  run _ := sys_open f in
  run b := sys_abandon f flat_bytes in
  sys_close f b.
(** document.py:183-186 _saving_routine *)
Definition flat_routine (f : pystr) (backup : bool) : P unit :=
  run e := sys_exists f in
  run _ := (if e && backup then backup_file f else pret tt) in
  write_flat f.
(** document.py:118-125 save *)
Definition flat_save (now gen : pystr) (d : doc) : P unit :=
  match docname d with
  | None => praise IOError
  | Some f =>
      run _ := flat_meta (meta_touch now gen) in
      run _ := flat_meta meta_inc in
      flat_routine f (backup d)
  end.
(** document.py:114-116 saveas *)
Definition flat_saveas (now gen : pystr) (f : pystr) (d : doc) : P doc :=
  let d := Doc (Some f) (mimetype d) (doctype d) (backup d) in
  run _ := flat_save now gen d in pret d.
End flat.
