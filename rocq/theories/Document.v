(** Model of /repo/ezodf/document.py (packaged documents), content.py, the document level of
    styles.py and body.py, and the tables of const.py they use.  The trees of meta.xml,
    styles.xml and content.xml are the objects 0, 1 and 2 of the file manager. *)
From Verif Require Export FileManager Meta NodeOrganizer.

(** const.py:15-32 MIMETYPES *)
Definition ODF : string := "application/vnd.oasis.opendocument.".
Definition MIMETYPES : list (string * string) :=
  map (fun p => (p.1, (ODF ++ p.2)%string))
    [("odt", "text"); ("ott", "text-template"); ("odg", "graphics"); ("otg", "graphics-template");
     ("odp", "presentation"); ("otp", "presentation-template"); ("ods", "spreadsheet"); ("ots", "spreadsheet-template");
     ("odc", "chart"); ("otc", "chart-template"); ("odi", "image"); ("oti", "image-template");
     ("odf", "formula"); ("otf", "formula-template"); ("odm", "text-master"); ("oth", "text-web")]%string.
(** const.py:188-200 MIMETYPE_NSMAP: its keys *)
Definition NSMAP_TYPES : list string :=
  map (fun s => (ODF ++ s)%string)
    ["text"; "text-template"; "graphics"; "graphics-template"; "presentation"; "presentation-template";
     "spreadsheet"; "spreadsheet-template"; "chart"; "image"; "formula"]%string.
(** const.py:202-213 MIMETYPE_BODYTAG_MAP *)
Definition BODYTAGS : list (string * string) :=
  map (fun p => ((ODF ++ p.1)%string, p.2))
    [("text", "office:text"); ("text-template", "office:text"); ("graphics", "office:drawing"); ("graphics-template", "office:drawing");
     ("presentation", "office:presentation"); ("presentation-template", "office:presentation");
     ("spreadsheet", "office:spreadsheet"); ("spreadsheet-template", "office:spreadsheet");
     ("chart", "office:chart"); ("image", "office:image")]%string.
Definition mimetype_of (ext : string) : option pystr := lit <$> alookup ext MIMETYPES.
(** const.py:34 FILE_EXT_FOR_MIMETYPE *)
Definition ext_for (m : pystr) : option string := fst <$> (snd <$> list_find (fun p => lit p.2 = m) MIMETYPES).
Definition bodytag_for (m : pystr) : option string := snd <$> (snd <$> list_find (fun p => lit p.1 = m) BODYTAGS).
Definition has_nsmap (m : pystr) : bool := bool_decide (m ∈ map lit NSMAP_TYPES).

(** ** Trees *)
(** the first child with a tag is changed *)
Definition on_child (t : string) (f : elem -> res elem) (e : elem) : res elem :=
  match first_kid (has_tag t) e with
  | Some (i, k) => do k <- f k; Ok (replace_kid i k e)
  | None => Err AttributeError
  end.
(** styles.py:20-33 OfficeDocumentStyles(xmlnode); a wrong root: styles.py:26 uses an
    undefined name *)
Definition styles_setup (e : elem) : elem :=
  subelement "office:master-styles" (subelement "office:automatic-styles" (subelement "office:styles" (subelement "office:font-face-decls" e))).
Definition open_styles (x : option elem) : res elem :=
  do e <- match x with
          | None => Ok (new_elem "office:document-styles")
          | Some e => if decide (e_tag e = "office:document-styles"%string) then Ok e else Err NameError
          end;
  Ok (styles_setup e).
(** content.py:19-35 OfficeDocumentContent(mimetype, xmlnode) *)
Definition content_setup (e : elem) : elem :=
  subelement "office:body" (subelement "office:automatic-styles" (subelement "office:font-face-decls" (subelement "office:scripts" e))).
Definition open_content (m : pystr) (x : option elem) : res elem :=
  do e <- match x with
          | None => if has_nsmap m then Ok (new_elem "office:document-content") else Err KeyError
          | Some e => if decide (e_tag e = "office:document-content"%string) then Ok e else Err ValueError
          end;
  Ok (content_setup e).
(** variables.py:17-22: Variables asks every child for its name.  Only the classes of
    variables.py are taken as having one; tables, sections and pages, which have names too
    but do not occur there, are not. *)
Definition NAMED : list string :=
  ["text:variable-decl"; "text:user-field-decl"; "text:variable-set"; "text:variable-get"; "text:variable-input";
   "text:user-field-set"; "text:user-field-get"; "text:user-field-input"]%string.
Definition open_decls (k : elem) : res elem :=
  if decide (Forall (fun t => t ∈ NAMED) (map e_tag (kids k))) then Ok k else Err AttributeError.
(** body.py:17-23 GenericBody; the constructors of the other bodies change nothing more *)
Definition open_decls_of (t : string) (e : elem) : res elem := on_child t open_decls (subelement t e).
Definition open_body (e : elem) : res elem :=
  do e <- open_decls_of "text:variable-decls" e; open_decls_of "text:user-field-decls" e.
(** content.py:37-40 get_application_body *)
Definition open_application_body (bodytag : string) (c : elem) : res elem :=
  on_child "office:body" (fun b => on_child bodytag open_body (subelement bodytag b)) c.

Section doc.
Context `{U : Unicode} `{B : Bytes}.
Notation P := (prog st).

(** document.py:204-212 PackagedDocument; [docname]: None or a file name *)
Record doc := Doc { docname : option pystr; mimetype : pystr; doctype : string; backup : bool }.
Definition META_XML : pystr := lit "meta.xml".
Definition STYLES_XML : pystr := lit "styles.xml".
Definition CONTENT_XML : pystr := lit "content.xml".
Definition ROOT_PATH : pystr := lit "/".
Definition set_object (n : N) (e : elem) (m : manager) : manager :=
  Manager (directory m) (source m) (manifest m) (fun k => if decide (k = n) then e else objects m k).
Definition lift {A} (r : res A) : P A := fun s => (s, Done r).
Definition change (f : manager -> manager) : P unit := fun s => (upd_mgr f s, Done (Ok tt)).
(** filemanager.py:47 zipname *)
Definition zipname (o : origin) : option pystr := match o with SFile p => Some p | _ => None end.
(** what the clock says during the construction *)
Record clock := Clock { created : pystr; touched : pystr; generator : pystr }.
(** document.py:207-229 PackagedDocument.__init__; [m]: None is refused by lxml *)
Definition packaged (c : clock) (m : option pystr) : P doc :=
  run name := (fun s => (s, Done (Ok (zipname (source (mgr s)))))) in
  match m with
  | None => praise TypeError
  | Some m =>
      run _ := change (fun x => with_manifest (manifest_add ROOT_PATH m None (manifest x)) x) in
      match ext_for m with
      | None => praise KeyError
      | Some ext =>
          run _ := change (register MIMETYPE (CBytes (b_enc m)) []) in
          run x := get_xml_element META_XML in
          run e := lift (open_meta (created c) (touched c) (generator c) x) in
          run _ := change (fun x => register META_XML (CObject 0) XML_MEDIA (set_object 0 e x)) in
          run x := get_xml_element STYLES_XML in
          run e := lift (open_styles x) in
          run _ := change (fun x => register STYLES_XML (CObject 1) XML_MEDIA (set_object 1 e x)) in
          run x := get_xml_element CONTENT_XML in
          run e := lift (open_content m x) in
          run _ := change (fun x => register CONTENT_XML (CObject 2) XML_MEDIA (set_object 2 e x)) in
          match bodytag_for m with
          | None => praise KeyError
          | Some t =>
              run e := (fun s => (s, Done (open_application_body t (objects (mgr s) 2)))) in
              run _ := change (set_object 2 e) in
              pret (Doc name m ext true)
          end
      end
  end.

(** [os.path.splitext(p)[1]] *)
Fixpoint till_dot (r : pystr) : option (pystr * pystr) :=
  match r with
  | [] => None
  | c :: r' => if decide (c = 46%N) then Some ([c], r')
               else if decide (c = 47%N) then None
               else match till_dot r' with Some (e, b) => Some (c :: e, b) | None => None end
  end.
Fixpoint only_dots (r : pystr) : bool :=
  match r with [] => true | c :: r' => if decide (c = 47%N) then true else if decide (c = 46%N) then only_dots r' else false end.
Definition splitext (p : pystr) : pystr :=
  match till_dot (reverse p) with
  | Some (e, b) => if only_dots b then [] else reverse e
  | None => []
  end.
(** document.py:56-68 __detect_mime_type *)
Definition detect_mime_type : P (option pystr) :=
  run t := get_text MIMETYPE in
  match t with
  | Some t => pret (Some t)
  | None => fun s =>
      match manifest_find ROOT_PATH (manifest (mgr s)) with
      | Some (_, k) => (s, Done (Ok (e_get MEDIA k)))
      | None =>
          match zipname (source (mgr s)) with
          | None => (s, Done (Err TypeError))
          | Some p =>
              match list_find (fun q => lit q.1 = splitext p) MIMETYPES with
              | Some (_, q) => (s, Done (Ok (Some (lit q.2))))
              | None => (s, Done (Err KeyError))
              end
          end
      end
  end.
(** document.py:39-53 opendoc(filename): a stream with bytes, or a name *)
Inductive document_source := FromBytes (b : bytes) | FromFile (p : pystr).
Definition origin_of (d : document_source) : origin := match d with FromBytes b => SBytes b | FromFile p => SFile p end.
Definition opendoc (c : clock) (d : document_source) : P doc :=
  run _ := new_manager (origin_of d) in
  run m := detect_mime_type in
  packaged c m.

(** document.py:83-91 get_filemanager.  Bytes that are no package would be taken as a file
    name, which is not modelled. *)
Definition template_source (d : document_source) : P unit :=
  match d with
  | FromBytes _ => pret tt
  | FromFile p =>
      run z := pcatch (run b := sys_read p in pret (is_zip b)) (fun _ => pret false) in
      if z : bool then pret tt else praise IOError
  end.
(** [s.endswith('-template')], [s[:-9]] *)
Definition TEMPLATE : pystr := lit "-template".
Definition strip_template (m : pystr) : pystr :=
  if decide (drop (length m - 9) m = TEMPLATE) then take (length m - 9) m else m.
(** document.py:81-102 _new_doc_from_template *)
Definition from_template (c : clock) (filename : pystr) (d : document_source) : P doc :=
  run _ := template_source d in
  run _ := new_manager (origin_of d) in
  run m := get_text MIMETYPE in
  match m with
  | None => praise AttributeError
  | Some m =>
      run d := pcatch (packaged c (Some (strip_template m))) (fun x => praise (if decide (x = KeyError) then InvalidFiletypeError else x)) in
      pret (Doc (Some filename) (mimetype d) (doctype d) (backup d))
  end.
(** document.py:71-78 newdoc(doctype, filename, template) *)
Definition newdoc (c : clock) (ext : string) (filename : pystr) (template : option document_source) : P doc :=
  match template with
  | None =>
      match mimetype_of ext with
      | None => praise KeyError
      | Some m =>
          run _ := new_manager NoSource in
          run d := packaged c (Some m) in
          pret (Doc (Some filename) (mimetype d) (doctype d) (backup d))
      end
  | Some t => from_template c filename t
  end.

(** document.py:118-125, 231-232 save.  Nothing in the library listens to the broadcasts.
    The manager of a document opened from bytes is a ByteStreamManager. *)
Definition on_meta_xml (f : act elem unit) : P unit := fun s =>
  let '(e, r) := on_meta f (objects (mgr s) 0) in (upd_mgr (set_object 0 e) s, Done r).
Definition doc_save (now gen : pystr) (d : doc) : P unit :=
  match docname d with
  | None => praise IOError
  | Some f =>
      run _ := on_meta_xml (meta_touch now gen) in
      run _ := on_meta_xml meta_inc in
      fun s => match source (mgr s) with
               | SBytes _ => save_bytes f s
               | _ => save f (backup d) s
               end
  end.
(** document.py:114-116 saveas *)
Definition doc_saveas (now gen : pystr) (f : pystr) (d : doc) : P doc :=
  let d := Doc (Some f) (mimetype d) (doctype d) (backup d) in
  run _ := doc_save now gen d in pret d.
(** document.py:234-235 tobytes *)
Definition doc_tobytes : P bytes := to_bytes.
End doc.
