(** Model of check_zipfile_for_oasis_validity in /repo/ezodf/filemanager.py. *)
From Verif Require Export Document.

(** Where zipfile puts the first entry: an entry that is not compressed and has no extra
    field starts with 30 bytes, its name and its data. *)
Class ZipLayout `{B : Bytes} := {
  at_30 : bytes -> pystr -> bool;     (* buffer[30:38+len(m)] == b'mimetype' + m, m in UTF-8 *)
  at_30_pack : forall m l, at_30 (zip_pack (Entry MIMETYPE true (Some (b_enc m)) :: l)) m = true
}.
(** The law can be satisfied. *)
Fixpoint is_prefix (a b : pystr) : bool :=
  match a, b with
  | [], _ => true
  | x :: a, y :: b => bool_decide (x = y) && is_prefix a b
  | _ :: _, [] => false
  end.
Lemma is_prefix_refl a : is_prefix a a = true.
Proof. induction a as [|x a IH]; [done|]. cbn. by rewrite bool_decide_eq_true_2. Qed.
Definition tree_at_30 (b : tbytes) (m : pystr) : bool :=
  match b with
  | BZip (Entry n true (Some (BText t)) :: _) => bool_decide (n = MIMETYPE) && is_prefix m t
  | _ => false
  end.
Definition tree_layout : ZipLayout (B := tree_bytes).
Proof. refine {| at_30 := tree_at_30 : @bytes tree_bytes -> pystr -> bool |}. intros m l. exact (is_prefix_refl m). Defined.

Section check.
Context `{Z : ZipLayout}.
Notation P := (prog st).

(** filemanager.py:193 the dictionary: of several entries with one path the last counts *)
Definition last_entry (path : pystr) (e : elem) : option elem :=
  last (filter (fun k => e_get PATH k = Some path) (findall ENTRY e)).
(** filemanager.py:191-199 check_manifest *)
Definition check_manifest (m : pystr) (stream : bytes) : res bool :=
  match b_parse stream with
  | None => Err ValueError
  | Some e =>
      if decide (Forall (fun name => last_entry name e <> None) [CONTENT_XML; META_XML; STYLES_XML; ROOT_PATH])
      then Ok (bool_decide ((last_entry ROOT_PATH e ≫= e_get MEDIA) = Some m))
      else Ok false
  end.
(** filemanager.py:212-229: the open archive *)
Definition check_archive (m : pystr) (l : list (entry bytes)) : res bool :=
  let names := map en_name l in
  do manifest <- (if decide (MANIFEST_XML ∈ names) then do b <- zip_read MANIFEST_XML l; Ok (Some b) else Ok None);
  match manifest with
  | None => Ok false
  | Some b =>
      if decide (Forall (fun name => name ∈ names) [CONTENT_XML; META_XML; STYLES_XML; MIMETYPE])
      then check_manifest m b
      else Ok false
  end.
(** filemanager.py:187-229 check_zipfile_for_oasis_validity(filename, mimetype); [m]: the text
    of the bytes given.  Bytes that are no UTF-8 are not modelled. *)
Definition check_validity (f m : pystr) : P bool :=
  run z := pcatch (run b := sys_read f in pret (is_zip b)) (fun _ => pret false) in
  if negb z then pret false
  else
    run b := sys_read f in
    if negb (at_30 b m) then pret false
    else
      run b := sys_read f in
      run l := zip_open b in
      lift (check_archive m l).
End check.
