(** Model of /repo/ezodf/filemanager.py, manifest.py and bytestreammanager.py. *)
From Verif Require Export FileSys.

Section fm.
Context `{B : Bytes}.

(** What can be registered: bytes or a string, the manifest of the manager, another
    object with [tobytes] (its number), or something without bytes. *)
Inductive content := CBytes (b : bytes) | CManifest | CObject (n : N) | CBad.

(** filemanager.py:22-30 FileObject *)
Record fobject := FObject { fo_name : pystr; fo_element : content; fo_media : pystr; fo_stored : bool }.

(** filemanager.py:45-50 FileManager; [source]: where the opened package is.  A name is
    the [zipname] of a FileManager, bytes are the buffer of a ByteStreamManager
    (bytestreammanager.py:16-21).  [objects]: the XML trees of the registered objects at
    this time. *)
Inductive origin := NoSource | SFile (p : pystr) | SBytes (b : bytes).
Record manager := Manager {
  directory : list (pystr * fobject);   (* a dict, in insertion order *)
  source : origin;
  manifest : elem;
  objects : N -> elem
}.
Record st := St { mach : machine B; mgr : manager }.
Definition upd_mach (m : machine B) (s : st) : st := St m (mgr s).
Definition upd_mgr (f : manager -> manager) (s : st) : st := St (mach s) (f (mgr s)).
Notation P := (prog st).
Definition with_directory (d : list (pystr * fobject)) (m : manager) : manager :=
  Manager d (source m) (manifest m) (objects m).
Definition with_source (o : origin) (m : manager) : manager :=
  Manager (directory m) o (manifest m) (objects m).
Definition with_manifest (e : elem) (m : manager) : manager :=
  Manager (directory m) (source m) e (objects m).

(** ** Manifest *)
Definition PATH : string := "manifest:full-path".
Definition MEDIA : string := "manifest:media-type".
Definition VERSION : string := "manifest:version".
Definition ENTRY : string := "manifest:file-entry".
Definition MANIFEST_XML : pystr := lit "META-INF/manifest.xml".
Definition MIMETYPE : pystr := lit "mimetype".

(** manifest.py:16-20 Manifest(content) *)
Definition new_manifest (content : option bytes) : res elem :=
  match content with
  | None => Ok (new_elem "manifest:manifest")
  | Some b => match b_parse b with Some e => Ok e | None => Err ValueError end
  end.
(** manifest.py:47-51 find: position of the first child with that path *)
Definition is_entry (path : pystr) (k : elem) : Prop := e_get PATH k = Some path.
Global Instance is_entry_dec p k : Decision (is_entry p k).
Proof. unfold is_entry. apply _. Defined.
Definition manifest_find (path : pystr) (m : elem) : option (nat * elem) := list_find (is_entry path) (kids m).
(** manifest.py:31-34 set_media_type_and_version *)
Definition set_media (media : pystr) (version : option pystr) (k : elem) : elem :=
  let k := e_set MEDIA media k in
  match version with Some v => e_set VERSION v k | None => k end.
(** manifest.py:22-40 add *)
Definition manifest_add (path media : pystr) (version : option pystr) (m : elem) : elem :=
  if decide (path = MANIFEST_XML) then m
  else match manifest_find path m with
       | Some (i, k) => on_kids <[i := set_media media version k]> m
       | None => e_append (set_media media version (e_set PATH path (new_elem ENTRY))) m
       end.
(** manifest.py:42-45 remove *)
Definition manifest_remove (path : pystr) (m : elem) : elem :=
  match manifest_find path m with
  | Some (i, _) => on_kids (delete_at i) m
  | None => m
  end.

(** ** Dictionaries in insertion order *)
Fixpoint dict_set {A} (k : pystr) (v : A) (d : list (pystr * A)) : list (pystr * A) :=
  match d with
  | [] => [(k, v)]
  | (k', v') :: r => if decide (k' = k) then (k, v) :: r else (k', v') :: dict_set k v r
  end.
Fixpoint dict_get {A} (k : pystr) (d : list (pystr * A)) : option A :=
  match d with
  | [] => None
  | (k', v') :: r => if decide (k' = k) then Some v' else dict_get k r
  end.
Definition dict_del {A} (k : pystr) (d : list (pystr * A)) : list (pystr * A) :=
  filter (fun p => p.1 <> k) d.

(** filemanager.py:70-76 register *)
Definition register (name : pystr) (c : content) (media : pystr) (m : manager) : manager :=
  with_manifest (manifest_add name media None (manifest m))
    (with_directory (dict_set name (FObject name c media false) (directory m)) m).

(** filemanager.py:32-39 FileObject.tobytes *)
Definition XML_MEDIA : pystr := lit "text/xml".
Definition fo_bytes (m : manager) (f : fobject) : res bytes :=
  match fo_element f with
  | CBytes b => Ok b
  | CManifest => Ok (b_xml (bool_decide (fo_media f = XML_MEDIA)) (manifest m))
  | CObject n => Ok (b_xml (bool_decide (fo_media f = XML_MEDIA)) (objects m n))
  | CBad => Err TypeError
  end.

(** ** Reading packages *)

(** [zipfile.is_zipfile(name)]: errors count as no *)
Definition is_zip (b : bytes) : bool := match zip_unpack b with Some _ => true | None => false end.
Definition sys_read := read_file mach upd_mach.
(** filemanager.py:52-55, bytestreammanager.py:30-31 has_zip *)
Definition has_zip : P bool := fun s =>
  match source (mgr s) with
  | NoSource => (s, Done (Ok false))
  | SFile p => pcatch (run b := sys_read p in pret (is_zip b)) (fun _ => pret false) s
  | SBytes b => (s, Done (Ok true))
  end.
(** filemanager.py:57-58, bytestreammanager.py:33-34 _open_bytestream *)
Definition open_bytestream : P bytes := fun s =>
  match source (mgr s) with
  | NoSource => (s, Done (Err TypeError))
  | SFile p => sys_read p s
  | SBytes b => (s, Done (Ok b))
  end.
(** [zipfile.ZipFile(bytestream)] *)
Definition zip_open (b : bytes) : P (list (entry bytes)) :=
  match zip_unpack b with Some l => pret l | None => praise IOError end.
(** [zf.read(name)]: of several entries with one name the last counts *)
Definition zip_find (name : pystr) (l : list (entry bytes)) : option (entry bytes) :=
  last (filter (fun e => en_name e = name) l).
Definition zip_read (name : pystr) (l : list (entry bytes)) : res bytes :=
  match zip_find name l with
  | None => Err KeyError
  | Some e => match en_data e with Some b => Ok b | None => Err IOError end
  end.
(** filemanager.py:111-123 get_bytes *)
Definition get_bytes (name : pystr) : P (option bytes) :=
  run z := has_zip in
  if z : bool then
    run b := open_bytestream in
    run l := zip_open b in
    match zip_read name l with
    | Ok d => pret (Some d)
    | Err KeyError => pret None
    | Err x => praise x
    end
  else pret None.
(** filemanager.py:125-131 get_text(name) *)
Definition get_text (name : pystr) : P (option pystr) :=
  run b := get_bytes name in
  match b with
  | None => pret None
  | Some b => match b_dec b with Some s => pret (Some s) | None => praise ValueError end
  end.
(** filemanager.py:133-138 get_xml_element *)
Definition get_xml_element (name : pystr) : P (option elem) :=
  run b := get_bytes name in
  match b with
  | None => pret None
  | Some b => if b_null b then pret None
              else match b_parse b with Some e => pret (Some e) | None => praise ValueError end
  end.
(** filemanager.py:46-50, bytestreammanager.py:16-21 the constructors *)
Definition new_manager (o : origin) : P unit :=
  run _ := (fun s => (upd_mgr (fun m => Manager [] o (new_elem "manifest:manifest") (objects m)) s, Done (Ok tt))) in
  run b := get_bytes MANIFEST_XML in
  match new_manifest b with
  | Err x => praise x
  | Ok e => fun s => (upd_mgr (fun m => register MANIFEST_XML CManifest XML_MEDIA (with_manifest e m)) s, Done (Ok tt))
  end.

(** ** Writing packages *)

(** A zip file being written: to memory ([None]) or to the named file.  The entries
    written so far are passed along. *)
Definition sys_writing (p : option pystr) : P unit :=
  match p with Some p => writing mach upd_mach p | None => pret tt end.
(** [zippo.writestr(info, data)] *)
Definition writestr (p : option pystr) (e : entry bytes) (z : list (entry bytes)) : P (list (entry bytes)) :=
  run _ := sys_writing p in pret (z ++ [e]).
Definition part_entry (stored : bool) (f : fobject) (b : bytes) : entry bytes := Entry (fo_name f) stored (Some b).
(** filemanager.py:147-149 *)
Fixpoint write_parts (p : option pystr) (l : list (pystr * fobject)) (z : list (entry bytes)) : P (list (entry bytes)) :=
  match l with
  | [] => pret z
  | (_, f) :: r => fun s =>
      match fo_bytes (mgr s) f with
      | Err x => (s, Done (Err x))
      | Ok b => (run z := writestr p (part_entry (fo_stored f) f b) z in write_parts p r z) s
      end
  end.
(** filemanager.py:172-176 _copy_from_zip_to_zip; [all] is the opened package, of which
    [l] remains to be copied *)
Fixpoint copy_entries (p : option pystr) (ignore : list pystr) (all l : list (entry bytes)) (z : list (entry bytes)) : P (list (entry bytes)) :=
  match l with
  | [] => pret z
  | e :: r =>
      if decide (en_name e ∈ ignore) then copy_entries p ignore all r z
      else match zip_read (en_name e) all with
           | Err x => praise x
           | Ok b => run z := writestr p (Entry (en_name e) (en_stored e) (Some b)) z in copy_entries p ignore all r z
           end
  end.
(** filemanager.py:155-170 _copy_zip_to *)
Definition copy_zip_to (p : option pystr) (ignore : list pystr) (z : list (entry bytes)) : P (list (entry bytes)) :=
  run h := has_zip in
  if h : bool then
    run b := pcatch (run b := open_bytestream in pret (Some b)) (fun x => if decide (x = IOError) then pret None else praise x) in
    match b with
    | None => pret z
    | Some b => run l := zip_open b in copy_entries p ignore l l z
    end
  else pret z.
(** filemanager.py:140-153 _tozip *)
Definition to_zip (p : option pystr) : P (list (entry bytes)) := fun s =>
  match dict_get MIMETYPE (directory (mgr s)) with
  | None => (s, Done (Err KeyError))
  | Some f =>
      (run _ := (fun s => (upd_mgr (fun m => with_directory (dict_del MIMETYPE (directory m)) m) s, Done (Ok tt))) in
       let f := FObject (fo_name f) (fo_element f) (fo_media f) true in
       fun s => match fo_bytes (mgr s) f with
       | Err x => (s, Done (Err x))
       | Ok b =>
           (run z := writestr p (part_entry true f b) [] in
            run z := (fun s => write_parts p (directory (mgr s)) z s) in
            run ignore := (fun s => (s, Done (Ok (fo_name f :: map (fun x => fo_name x.2) (directory (mgr s)))))) in
            run _ := (fun s => (upd_mgr (fun m => with_directory (dict_set MIMETYPE f (directory m)) m) s, Done (Ok tt))) in
            copy_zip_to p ignore z) s
       end) s
  end.
(** filemanager.py:178-185 tobytes *)
Definition to_bytes : P bytes := run z := to_zip None in pret (zip_pack z).

(** filemanager.py:60-68 tmpfilename: in the folder of [basefile] *)
Fixpoint from_slash (r : pystr) : pystr :=
  match r with [] => [] | c :: r' => if decide (c = 47%N) then r else from_slash r' end.
Definition folder (p : pystr) : pystr := reverse (from_slash (reverse p)).
Definition tmp_name (base r : pystr) : pystr := folder base ++ r ++ lit ".tmp".
Definition FNCHARS : pystr := lit "ABCDEFGHIJKLMNOPQRSTUVWXYZabcdefghijklmnopqrstuvwxyz0123456789".
Definition set_rnd (r : list pystr) (s : st) : st :=
  upd_mach (Machine _ (files (mach s)) (env (mach s)) r) s.
Fixpoint tmp_search (base : pystr) (l : list pystr) (s : st) : st * out pystr :=
  match l with
  | [] => (set_rnd [] s, Stop)
  | r :: l' => if decide (is_Some (files (mach s) !! tmp_name base r)) then tmp_search base l' s
               else (set_rnd l' s, Done (Ok (tmp_name base r)))
  end.
Definition tmpfilename (base : pystr) : P pystr := fun s => tmp_search base (rnd (mach s)) s.

Definition sys_exists := exists_file mach.
Definition sys_remove := remove_file mach upd_mach.
Definition sys_rename := rename_file mach upd_mach.
Definition sys_open := open_write mach upd_mach.
Definition sys_close := close_write mach upd_mach.
Definition sys_abandon {A} := @abandon B st mach upd_mach A.

Definition BAK : pystr := lit ".bak".
(** filemanager.py:86-89: the new package is written to [tmp] *)
Definition write_package (tmp : pystr) : P unit :=
  run _ := sys_open tmp in
  run z := sys_abandon tmp (to_zip (Some tmp)) in
  sys_close tmp (zip_pack z).
(** filemanager.py:95-105: an existing file is moved out of the way *)
Definition make_room (filename : pystr) (backup : bool) : P unit :=
  run e := sys_exists filename in
  if e : bool then
    if backup then
      let bak := filename ++ BAK in
      run eb := sys_exists bak in
      run _ := (if eb : bool then sys_remove bak else pret tt) in
      sys_rename filename bak
    else sys_remove filename
  else pret tt.
(** filemanager.py:78-109 save(filename, backup), to a file *)
Definition save (filename : pystr) (backup : bool) : P unit :=
  run tmp := tmpfilename filename in
  run _ := write_package tmp in
  run _ := make_room filename backup in
  run _ := sys_rename tmp filename in
  fun s => (upd_mgr (with_source (SFile filename)) s, Done (Ok tt)).
(** filemanager.py:78-93 save(stream): the bytes written to it *)
Definition save_stream : P bytes := to_bytes.

(** bytestreammanager.py:23-28 ByteStreamManager.save, to a file: opened before the bytes
    are made *)
Definition save_bytes (filename : pystr) : P unit :=
  run _ := sys_open filename in
  run b := sys_abandon filename to_bytes in
  sys_close filename b.
End fm.
