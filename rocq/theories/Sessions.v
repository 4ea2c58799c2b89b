(** Model of working with a document again and again: opened, edited by way of doc.meta and
    doc.body, saved under a name, opened from it, … (/repo/ezodf/document.py). *)
From Verif Require Export MetaSpec TextDoc.

Section sessions.
Context `{U : Unicode} `{B : Bytes}.
(** document.py:218-219: doc.meta is the tree of meta.xml; exceptions of the calls are caught *)
Definition edit_meta (ops : list mop) (s : FileManager.st) : FileManager.st :=
  upd_mgr (set_object 0 (play_doc ops (objects (mgr s) 0))) s.
(** One session: the calls, and the save.  Calls on the meta data and on the body work on
    different trees, so their order among each other plays no part. *)
Record sitting := Sitting { sn_meta : list mop; sn_body : list bop; sn_now : pystr; sn_gen : pystr; sn_file : pystr }.
(** document.py:114-125 saveas(filename); save() is saveas of the name the document has *)
Definition work (t : string) (x : sitting) (D : doc) : prog FileManager.st doc := fun s =>
  doc_saveas (sn_now x) (sn_gen x) (sn_file x) D (edit_body t (sn_body x) (edit_meta (sn_meta x) s)).
End sessions.
