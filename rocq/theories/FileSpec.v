(** Vocabulary for packages, manifests and saving. *)
From Verif Require Export FileManager.

Section spec.
Context `{B : Bytes}.

(** The registered names, and the bytes a part has now. *)
Definition registered (m : manager) (name : pystr) : Prop := name ∈ map fst (directory m).
Global Instance registered_dec m name : Decision (registered m name).
Proof. unfold registered. apply _. Defined.
Definition part_bytes (m : manager) (name : pystr) : option (res bytes) :=
  match list_find (fun x => x.1 = name) (directory m) with
  | Some (_, (_, f)) => Some (fo_bytes m f)
  | None => None
  end.

(** What register() keeps true: names are unique and the parts carry their names. *)
Definition tidy (m : manager) : Prop :=
  NoDup (map fst (directory m)) /\ Forall (fun x => fo_name x.2 = x.1) (directory m).

(** The entries of the package the document was opened from. *)
Definition source_entries (fs : gmap pystr bytes) (o : origin) : list (entry bytes) :=
  match o with
  | NoSource => []
  | SFile p => match fs !! p with Some b => default [] (zip_unpack b) | None => [] end
  | SBytes b => default [] (zip_unpack b)
  end.

(** [e] is a copy of an entry of the package [src]: same name and compression, and the
    data one gets when reading that name. *)
Definition copy_of (src : list (entry bytes)) (e0 e : entry bytes) : Prop :=
  en_name e = en_name e0 /\ en_stored e = en_stored e0 /\
  exists e1, last (filter (fun x => en_name x = en_name e0) src) = Some e1 /\ en_data e = en_data e1 /\ is_Some (en_data e1).

(** [es] is a correct package for the manager [m]: the mimetype comes first and is not
    compressed, every registered part is there exactly once with its bytes, and the rest
    are copies of [rest], in order. *)
Definition package (m : manager) (src rest es : list (entry bytes)) : Prop :=
  (exists b, part_bytes m MIMETYPE = Some (Ok b) /\ head es = Some (Entry MIMETYPE true (Some b))) /\
  (forall name, registered m name -> exists b stored,
     part_bytes m name = Some (Ok b) /\ filter (fun e => en_name e = name) es = [Entry name stored (Some b)]) /\
  Forall2 (copy_of src) (filter (fun e => ~ registered m (en_name e)) rest) (filter (fun e => ~ registered m (en_name e)) es).

(** [new] is such a package for [m] with the files [fs]; only when system calls fail the
    unknown parts may be missing. *)
Definition new_version (m : manager) (fs : gmap pystr bytes) (failing : Prop) (new : bytes) : Prop :=
  exists es rest, let src := source_entries fs (source m) in
    new = zip_pack es /\ (tidy m -> package m src rest es) /\ (rest = src \/ failing /\ rest = []).

(** The same manager, up to the order in which the parts were registered and their
    compression. *)
Definition same_manager (m m' : manager) : Prop :=
  manifest m' = manifest m /\ objects m' = objects m /\
  (forall name, registered m' name <-> registered m name) /\
  (forall name, part_bytes m' name = part_bytes m name).

(** The entries of a package that are not registered, with the data one gets for them. *)
Definition unmanaged (m : manager) (l : list (entry bytes)) : list (pystr * bool * res bytes) :=
  map (fun e => (en_name e, en_stored e, zip_read (en_name e) l)) (filter (fun e => ~ registered m (en_name e)) l).

(** No system call fails. *)
Definition no_failure (s : st) : Prop := Fail ∉ env (mach s).

(** ** Manifests *)
Definition entries_of (path : pystr) (m : elem) : list elem := filter (fun k => e_get PATH k = Some path) (kids m).
Definition media_of (path : pystr) (m : elem) : option pystr := entries_of path m !! 0 ≫= e_get MEDIA.
Definition others (ps : list pystr) (m : elem) : list elem :=
  filter (fun k => e_get PATH k ∉ map Some ps) (kids m).

(** The entries of a path after it was registered with a media type: the first one has
    got the media type, or there is a new one. *)
Definition listed (path media : pystr) (l : list elem) : list elem :=
  match l with
  | [] => [T (Nd "manifest:file-entry" {["manifest:full-path" := path; "manifest:media-type" := media]} None None) []]
  | k :: r => e_set "manifest:media-type" media k :: r
  end.
Definition register_all (regs : list (pystr * content * pystr)) (m : manager) : manager :=
  foldl (fun m r => register r.1.1 r.1.2 r.2 m) m regs.

(** ** File systems *)
(** What a successful save of [new] under the name [f] does to the files. *)
Definition saved (f : pystr) (backup : bool) (new : bytes) (fs : gmap pystr bytes) : gmap pystr bytes :=
  <[f := new]> (match fs !! f with
                | Some old => if backup then <[f ++ lit ".bak" := old]> fs else fs
                | None => fs
                end).
(** Names that no temporary file has. *)
Definition plain_name (f : pystr) : Prop := ~ exists a, f = a ++ lit ".tmp".
(** Files that save() makes on the way. *)
Definition temporary (f tmp : pystr) : Prop := exists r, tmp = tmp_name f r.

(** ** Histories of one document: registrations, changes of the content, successful
    saves without read errors, and changes of other files by others. *)
Definition set_objects (o : N -> elem) (s : st) : st :=
  upd_mgr (fun m => Manager (directory m) (source m) (manifest m) o) s.
Definition set_machine (m : machine B) (s : st) : st := upd_mach m s.
Inductive history : st -> st -> Prop :=
  | H_start s : history s s
  | H_register s s1 name c media : history s s1 -> history s (upd_mgr (register name c media) s1)
  | H_edit s s1 o : history s s1 -> history s (set_objects o s1)
  | H_manifest s s1 e : history s s1 -> history s (upd_mgr (with_manifest e) s1)
  | H_elsewhere s s1 m : history s s1 ->
      (forall p, source (mgr s1) = SFile p -> files m !! p = files (mach s1) !! p) -> history s (set_machine m s1)
  | H_save s s1 s2 f backup : history s s1 -> plain_name f -> no_failure s1 -> save f backup s1 = (s2, Done (Ok tt)) -> history s s2
  | H_stream s s1 s2 b : history s s1 -> no_failure s1 -> save_stream s1 = (s2, Done (Ok b)) -> history s s2.

(** Sessions: any changes of the document, the clock and the dice, and successful saves,
    listed with what is in the file afterwards. *)
Inductive session : st -> list (pystr * bool * bytes) -> st -> Prop :=
  | S_start s : session s [] s
  | S_work s l s1 m e r : session s l s1 -> session s l (St (Machine _ (files (mach s1)) e r) m)
  | S_save s l s1 s2 f backup new : session s l s1 -> plain_name f -> (forall p, source (mgr s1) = SFile p -> plain_name p) ->
      save f backup s1 = (s2, Done (Ok tt)) -> files (mach s2) !! f = Some new -> session s (l ++ [(f, backup, new)]) s2.

(** ** Saving goes well: nothing fails, a temporary name is free, everything can be
    turned into bytes and read, and the process is left alone long enough. *)
Definition favourable (f : pystr) (s : st) : Prop :=
  let src := source_entries (files (mach s)) (source (mgr s)) in
  Forall (fun e => e = Go) (env (mach s)) /\
  12 + length (directory (mgr s)) + length src <= length (env (mach s)) /\
  (exists r, r ∈ rnd (mach s) /\ files (mach s) !! tmp_name f r = None) /\
  registered (mgr s) MIMETYPE /\
  (forall name, registered (mgr s) name -> exists b, part_bytes (mgr s) name = Some (Ok b)) /\
  (forall e, e ∈ src -> ~ registered (mgr s) (en_name e) -> exists b, zip_read (en_name e) src = Ok b) /\
  (forall b, source (mgr s) = SBytes b -> is_Some (zip_unpack b)).
End spec.
