(** Variables and user fields over any number of sessions. *)
From Verif Require Export VarLifeSpec SessionsSpec.

Section life.
Context `{U : Unicode} `{F : PyFloat} `{B : Bytes}.
(** document.py:114-125 saveas(filename) of a document whose content has become [e] and whose meta
    data were edited *)
Definition field_work (x : sitting) (e : elem) (D : doc) : prog FileManager.st doc := fun s =>
  doc_saveas (sn_now x) (sn_gen x) (sn_file x) D (FileManager.St (mach s) (set_object 2 e (mgr (edit_meta (sn_meta x) s)))).

(** What is read: nothing for a name that is not declared. *)
Definition reading := family -> pystr -> option (res pyval).
Definition read_fields (odd : N -> string -> pystr -> node -> res (list N)) (vs : family -> variables) (w : node) : reading :=
  fun k nm => if vs_contains (vs k) (KStr nm) then Some (field_value odd (vs k) nm w) else None.
(** What happened in a session: the calls on the meta data and the save, what could be read, the
    names that are shown somewhere in the document, the assignments, what could be read after them. *)
Record fday := FDay { f_sit : sitting; f_start : reading; f_inst : pystr -> Prop; f_sets : list (family * pystr * pyval); f_end : reading }.

(** Sessions in a row.  In each the content is parsed into memory; between a save and the next
    opendoc anything may happen, but the saved file is as it was left, and the machine can read it. *)
Inductive var_life (c : clock) (t : string) : list fday -> doc -> FileManager.st -> doc -> FileManager.st -> Prop :=
  | vl_nil D s : var_life c t [] D s D s
  | vl_cons x odd vs ps l D s S (r r' : node) D1 s1 s2 D3 s3 D4 s4 :
      loaded S r -> erase r = objects (mgr s) 2 -> (forall k, doc_fields k t r S = Ok (vs k)) -> Forall plain_field ps ->
      sub (nid r) (foldl (set_field odd vs) S ps) = Some r' ->
      field_work x (erase r') D s = (s1, Done (Ok D1)) ->
      files (mach s2) !! sn_file x = files (mach s1) !! sn_file x -> no_failure s2 -> 10 <= length (env (mach s2)) ->
      opendoc c (FromFile (sn_file x)) s2 = (s3, Done (Ok D3)) ->
      var_life c t l D3 s3 D4 s4 ->
      var_life c t (FDay x (read_fields odd vs S) (fun nm => exists y, instance S (nid r) nm y) ps
                      (read_fields odd vs (foldl (set_field odd vs) S ps)) :: l) D s D4 s4.

(** declarations of a content are of the right kind *)
Definition plain_content (t : string) (e : elem) : Prop := forall r, erase r = e -> plain_fields t r.
(** The content [e] gives the readings [P], wherever it is parsed to. *)
Definition reads_fields (t : string) (e : elem) (P : reading -> Prop) : Prop :=
  forall S r odd, loaded S r -> erase r = e -> exists vs, (forall k, doc_fields k t r S = Ok (vs k)) /\ P (read_fields odd vs S).
(** what is read after saving and opening *)
Definition read_again (a a' : reading) : Prop := forall k nm,
  (is_Some (a' k nm) <-> is_Some (a k nm)) /\ forall z, 39%N ∉ nm -> a k nm = Some (Ok z) -> a' k nm = Some (Ok (after_saving k z)).
(** the name is not assigned in the session *)
Definition not_set (nm : pystr) (a : fday) : Prop := Forall (fun b => b.1.2 <> nm) (f_sets a).
End life.
