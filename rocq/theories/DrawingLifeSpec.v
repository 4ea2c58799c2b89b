(** Drawings and presentations over any number of sessions. *)
From Verif Require Export DrawingSpec SessionsSpec.

Section life.
Context `{U : Unicode} `{B : Bytes}.
(** document.py:114-125 saveas(filename) of a document whose content has become [e] and whose meta
    data were edited *)
Definition page_work (x : sitting) (e : elem) (D : doc) : prog FileManager.st doc := fun s =>
  doc_saveas (sn_now x) (sn_gen x) (sn_file x) D (FileManager.St (mach s) (set_object 2 e (mgr (edit_meta (sn_meta x) s)))).

(** What is in a body, in order, and the names of its pages. *)
Record show := Show { sh_items : list elem; sh_names : list (option pystr) }.
Definition show_of (y : node) (d : pdoc) : show := Show (body_items y d) (map (pd_name d) (pd_pages d)).
Definition show_at (S y : node) : show :=
  Show (map erase (kids y)) (map (pd_name (pdoc_of S y)) (pd_pages (pdoc_of S y))).
(** What happened in a session: the calls on the meta data and the save, what was found, what the
    calls on the pages gave, what was left. *)
Record pday := PDay { p_sit : sitting; p_start : show; p_ops : list dop; p_results : list (res (option N)); p_end : show }.

(** Sessions in a row.  In each the content is parsed into memory; the calls do to the pages what
    the document of names and trees says; between a save and the next opendoc anything may happen,
    but the saved file is as it was left, and the machine can read it. *)
Inductive page_life (c : clock) (t : string) : list pday -> doc -> FileManager.st -> doc -> FileManager.st -> Prop :=
  | pl_nil D s : page_life c t [] D s D s
  | pl_cons x os rs d l D s S n (r y r' : node) m D1 s1 s2 D3 s3 D4 s4 :
      drawing t S n r y -> erase r = objects (mgr s) 2 -> fits (nid y) os (Dk S n) ->
      d_run (pages_of (nid y)) os (Dk S n) = (m, rs) -> psteps os (pdoc_of S y) d rs -> shows_pages (nid y) (d_store m) d ->
      sub (nid r) (d_store m) = Some r' ->
      page_work x (erase r') D s = (s1, Done (Ok D1)) ->
      files (mach s2) !! sn_file x = files (mach s1) !! sn_file x -> no_failure s2 -> 10 <= length (env (mach s2)) ->
      opendoc c (FromFile (sn_file x)) s2 = (s3, Done (Ok D3)) ->
      page_life c t l D3 s3 D4 s4 ->
      page_life c t (PDay x (show_at S y) os rs (show_of y d) :: l) D s D4 s4.

(** The content [e] is such a document, wherever it is parsed to. *)
Definition shown_as (t : string) (e : elem) (P : show -> Prop) : Prop :=
  forall S n r, wfs S -> (forall z, z ∈ ids S -> z < n)%N -> r ∈ kids S -> erase r = e ->
    exists y, drawing t S n r y /\ P (show_at S y).
(** what the next session finds after a session that left [a]: the same, but empty texts are none *)
Definition found_after (a a' : show) : Prop :=
  sh_items a' = map parsed (sh_items a) /\ sh_names a' = sh_names a.
End life.
