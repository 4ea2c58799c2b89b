(** Workbooks over any number of sessions. *)
From Verif Require Export BookSpec SessionsSpec.

Section life.
Context `{U : Unicode} `{F : PyFloat} `{B : Bytes}.
(** document.py:114-125 saveas(filename) of a document whose content has become [e] and whose meta
    data were edited *)
Definition book_work (x : sitting) (e : elem) (D : doc) : prog FileManager.st doc := fun s =>
  doc_saveas (sn_now x) (sn_gen x) (sn_file x) D (FileManager.St (mach s) (set_object 2 e (mgr (edit_meta (sn_meta x) s)))).

(** What happened in a session: the calls on the meta data and the save, the workbook that was
    opened, what the program on it gave, the workbook that was saved; and the rest of the body. *)
Record day := Day { d_sit : sitting; d_start : wb; d_results : list (res (option N)); d_end : wb; d_rest : list elem }.

(** Sessions in a row.  In each the content is parsed into memory; between a save and the next
    opendoc anything may happen, but the saved file is as it was left, and the machine can read
    it. *)
Inductive book_life (c : clock) : list day -> doc -> FileManager.st -> doc -> FileManager.st -> Prop :=
  | bk_nil D s : book_life c [] D s D s
  | bk_cons x rs w l D s S n (r y r' : node) b D1 s1 s2 D3 s3 D4 s4 :
      opened_book S n ∅ r y -> erase r = objects (mgr s) 2 ->
      works (sheets (nid y)) (Bk S n ∅) (book_of y) rs b w -> sub (nid r) (k_store b) = Some r' ->
      book_work x (erase r') D s = (s1, Done (Ok D1)) ->
      files (mach s2) !! sn_file x = files (mach s1) !! sn_file x -> no_failure s2 -> 10 <= length (env (mach s2)) ->
      opendoc c (FromFile (sn_file x)) s2 = (s3, Done (Ok D3)) ->
      book_life c l D3 s3 D4 s4 -> book_life c (Day x (book_of y) rs w (map erase (not_sheets y)) :: l) D s D4 s4.

(** The content [e] is a spreadsheet with these sheets, wherever it is parsed to. *)
Definition reads_as (e : elem) (P : wb -> list elem -> Prop) : Prop :=
  forall S n r, NoDup (ids S) -> Forall (fun z => z < n)%N (ids S) -> element (nid r) S -> sub (nid r) S = Some r -> erase r = e ->
    exists y, opened_book S n ∅ r y /\ P (book_of y) (map erase (not_sheets y)).
(** what the next session finds after the session [a] *)
Definition finds (a : day) (w : wb) (l : list elem) : Prop := reopened (d_end a) w /\ l = map parsed (d_rest a).
End life.
