(** Flat documents over any number of sessions. *)
From Verif Require Export FlatDocumentSpec SessionsSpec.

Section life.
Context `{U : Unicode} `{B : Bytes}.
(** What happened in a session: the calls on the meta data and the save; the tree that was found
    and the tree the document had when it was saved. *)
Record xday := XDay { x_sit : sitting; x_found : elem; x_left : elem }.

(** Sessions in a row, each on a FlatXMLDocument made of the parsed file.  The meta data change by
    calls; the rest of the tree may be changed in any way that leaves the document complete and its
    root alone.  Between a save and the next opening anything may happen, but the saved file is as
    it was left. *)
Inductive flat_life (c : clock) (ext body : string) : list xday -> elem -> elem -> Prop :=
  | xl_nil t : flat_life c ext body [] t t
  | xl_cons x t e l D s s1 s2 b p D3 t3 t4 :
      flat_complete body e -> root e = root t -> meta_part e = play_doc (sn_meta x) (meta_part t) ->
      objects (mgr s) 0 = e -> docname D = Some (sn_file x) ->
      flat_save (sn_now x) (sn_gen x) D s = (s1, Done (Ok tt)) ->
      files (mach s2) !! sn_file x = files (mach s1) !! sn_file x -> files (mach s2) !! sn_file x = Some b -> b_parse b = Some p ->
      flat_open c ext (Some (sn_file x)) (Some p) = Ok (D3, t3) ->
      flat_life c ext body l t3 t4 -> flat_life c ext body (XDay x t e :: l) t t4.

(** What is found after a session that left [e]: the same kinds of elements in the same order, and
    all but the meta data the same; empty texts are none. *)
Definition found_flat (e t : elem) : Prop :=
  root t = root (parsed e) /\ map e_tag (kids t) = map e_tag (kids e) /\
  forall u, u <> "office:document-meta"%string -> findall u t = map parsed (findall u e).
End life.
