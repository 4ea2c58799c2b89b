(** Variables and user fields of documents in memory. *)
From Verif Require Export VarLife VariablesSpec.

(** The tree [r] is one of the trees in memory. *)
Definition loaded (S r : node) : Prop := wfs S /\ r ∈ kids S.
Definition decl_tag (f : family) : string := match f with FVar => "text:variable-decl" | FUser => "text:user-field-decl" end.
(** variable-decls has variable-decl as children, user-field-decls has user-field-decl *)
Definition plain_fields (t : string) (r : node) : Prop :=
  forall f d, decls_in f t r = Some d -> Forall (fun k => ltag k = decl_tag f) (kids d).
(** [nm] is declared; its declaration is the last one with the name *)
Definition field_decl (f : family) (t : string) (r : node) (nm : pystr) : option node :=
  decls_in f t r ≫= fun d => last (filter (fun k => attrs (pl (root k)) !! "text:name"%string = Some nm) (kids d)).
(** what assignments are about: names without apostrophes *)
Definition plain_field {A} (a : family * pystr * A) : Prop := 39%N ∉ a.1.2.
(** what is read after saving and opening: an instance without text has the value None *)
Definition after_saving `{F : PyFloat} (f : family) (z : pyval) : pyval :=
  match f, z with FVar, VStr [] => VNone | _, _ => z end.
(** [nm] is declared as a variable or as a user field in the body of type [t] of a content *)
Definition declared_as (f : family) (t : string) (e : elem) (nm : pystr) : Prop :=
  exists b y d x, head (findall "office:body" e) = Some b /\ head (findall t b) = Some y /\
    head (findall (match f with FVar => "text:variable-decls" | FUser => "text:user-field-decls" end) y) = Some d /\
    x ∈ kids d /\ attrs (root x) !! "text:name"%string = Some nm.
