(** What flat documents look like. *)
From Verif Require Export FlatDocument DocumentSpec.

Definition FLAT_PARTS : list string :=
  ["office:settings"; "office:scripts"; "office:font-face-decls"; "office:styles"; "office:automatic-styles";
   "office:master-styles"; "office:body"]%string.
(** all types there are *)
Definition known_type (m : pystr) : Prop :=
  m ∈ map full_type ["text"; "text-template"; "graphics"; "graphics-template"; "presentation"; "presentation-template";
                     "spreadsheet"; "spreadsheet-template"; "chart"; "chart-template"; "image"; "image-template";
                     "formula"; "formula-template"; "text-master"; "text-web"]%string.
Definition known_ext (ext : string) : Prop :=
  ext ∈ ["odt"; "ott"; "odg"; "otg"; "odp"; "otp"; "ods"; "ots"; "odc"; "otc"; "odi"; "oti"; "odf"; "otf"; "odm"; "oth"]%string.

Section spec.
Context `{U : Unicode} `{B : Bytes}.
(** The tree of an opened document, made from [e]: [k] is its element with the meta data;
    all other elements that are missing are made. *)
Definition flat_from (body : string) (k e : elem) : elem :=
  within "office:body" (fun b => within body (fill DECLS) (fill [body] b))
    (fill FLAT_PARTS (within "office:document-meta" (fun _ => k) (fill ["office:document-meta"%string] e))).
(** the meta data element of [e], or a new one *)
Definition meta_part (e : elem) : elem := default (new_elem "office:document-meta") (head (findall "office:document-meta" e)).
(** everything a document has is there *)
Definition flat_complete (body : string) (t : elem) : Prop :=
  e_tag t = "office:document"%string /\ has_children ("office:document-meta"%string :: FLAT_PARTS) t /\
  (exists m, head (findall "office:meta" (meta_part t)) = Some m /\ has_children ["meta:document-statistic"%string] m) /\
  (exists b y, head (findall "office:body" t) = Some b /\ head (findall body b) = Some y /\ has_children DECLS y) /\
  good_decls body (Some t).
(** saving counts and dates *)
Definition saved_tree (now gen : pystr) (t : elem) : elem :=
  within "office:document-meta" (play_doc [MTouch now gen; MInc]) t.
End spec.
