(** Packages that the validity check must accept. *)
From Verif Require Export Validity DocumentSpec.

Section spec.
Context `{Z : ZipLayout}.

(** The manifest [e] lists the path [p]: it has a file entry with it.  Its media type is what
    the last of these says. *)
Definition file_entries (p : pystr) (e : elem) : list elem :=
  filter (fun k => e_tag k = "manifest:file-entry"%string /\ e_get "manifest:full-path" k = Some p) (kids e).
Definition media_says (p : pystr) (e : elem) (m : pystr) : Prop :=
  exists l k, file_entries p e = l ++ [k] /\ e_get "manifest:media-type" k = Some m.

(** The bytes [b] are a valid package of type [m]. *)
Definition valid_package (m : pystr) (b : bytes) : Prop :=
  exists es mb e, zip_unpack b = Some es /\ at_30 b m = true /\
    Forall (fun n => n ∈ map en_name es) (map lit ["META-INF/manifest.xml"; "content.xml"; "meta.xml"; "styles.xml"; "mimetype"]%string) /\
    zip_read (lit "META-INF/manifest.xml") es = Ok mb /\ b_parse mb = Some e /\
    Forall (fun p => file_entries p e <> []) (map lit ["content.xml"; "meta.xml"; "styles.xml"; "/"]%string) /\
    media_says (lit "/") e m.

(** In an orderly manifest what has one of the four paths is a file entry, and the path of the
    package occurs at most once. *)
Definition orderly (e : elem) : Prop :=
  (forall p k, p ∈ map lit ["content.xml"; "meta.xml"; "styles.xml"; "/"]%string -> k ∈ entries_of p e -> e_tag k = "manifest:file-entry"%string) /\
  length (entries_of (lit "/") e) <= 1.
End spec.
