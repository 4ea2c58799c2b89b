(** What a package says about the document in it. *)
From Verif Require Export Document FileSpec MetaSpec.

Section spec.
Context `{U : Unicode} `{B : Bytes}.

(** The bytes of a part of the package a document is opened from: [Ok None] if there is no
    such part or no package. *)
Definition part (name : pystr) (fs : gmap pystr bytes) (o : origin) : res (option bytes) :=
  let look l := match zip_read name l with Ok b => Ok (Some b) | Err KeyError => Ok None | Err x => Err x end in
  match o with
  | NoSource => Ok None
  | SFile p => match fs !! p with
               | Some b => match zip_unpack b with Some l => look l | None => Ok None end
               | None => Ok None
               end
  | SBytes b => match zip_unpack b with Some l => look l | None => Err IOError end
  end.
(** A part as XML tree; an empty part counts as missing. *)
Definition tree_part (name : pystr) (fs : gmap pystr bytes) (o : origin) : res (option elem) :=
  do b <- part name fs o;
  match b with
  | None => Ok None
  | Some b => if b_null b then Ok None else match b_parse b with Some e => Ok (Some e) | None => Err ValueError end
  end.
Definition manifest_part (fs : gmap pystr bytes) (o : origin) : res elem :=
  do b <- part (lit "META-INF/manifest.xml") fs o;
  match b with
  | None => Ok (new_elem "manifest:manifest")
  | Some b => match b_parse b with Some e => Ok e | None => Err ValueError end
  end.
(** The type: what the mimetype part says, else the manifest. *)
Definition declared (fs : gmap pystr bytes) (o : origin) (m : option pystr) : Prop :=
  match part (lit "mimetype") fs o with
  | Ok (Some b) => b_dec b = m
  | Ok None => exists e, manifest_part fs o = Ok e /\ media_of (lit "/") e = m
  | Err _ => False
  end.

(** The types a document can have: file name extension, end of the mimetype, body element. *)
Definition supported : list (string * string * string) :=
  [("odt", "text", "office:text"); ("ott", "text-template", "office:text");
   ("odg", "graphics", "office:drawing"); ("otg", "graphics-template", "office:drawing");
   ("odp", "presentation", "office:presentation"); ("otp", "presentation-template", "office:presentation");
   ("ods", "spreadsheet", "office:spreadsheet"); ("ots", "spreadsheet-template", "office:spreadsheet");
   ("odc", "chart", "office:chart"); ("odi", "image", "office:image")]%string.
Definition full_type (s : string) : pystr := lit ("application/vnd.oasis.opendocument." ++ s).
(** [m] is a supported type with this extension and body element. *)
Definition is_type (m : pystr) (ext body : string) : Prop := exists s, (ext, s, body) ∈ supported /\ m = full_type s.

(** ** Trees *)
(** the children with the tags [l] that are missing are added at the end *)
Definition fill (l : list string) (e : elem) : elem :=
  T (root e) (kids e ++ map new_elem (filter (fun t => findall t e = []) l)).
(** the first child with the tag [t] is changed *)
Fixpoint in_first (t : string) (f : elem -> elem) (l : list elem) : list elem :=
  match l with
  | [] => []
  | k :: r => if decide (e_tag k = t) then f k :: r else k :: in_first t f r
  end.
Definition within (t : string) (f : elem -> elem) (e : elem) : elem := T (root e) (in_first t f (kids e)).
Definition STYLES_PARTS : list string := ["office:font-face-decls"; "office:styles"; "office:automatic-styles"; "office:master-styles"]%string.
Definition CONTENT_PARTS : list string := ["office:scripts"; "office:font-face-decls"; "office:automatic-styles"; "office:body"]%string.
Definition DECLS : list string := ["text:variable-decls"; "text:user-field-decls"]%string.
Definition VARIABLES : list string :=
  ["text:variable-decl"; "text:user-field-decl"; "text:variable-set"; "text:variable-get"; "text:variable-input";
   "text:user-field-set"; "text:user-field-get"; "text:user-field-input"]%string.
(** the trees of styles.xml and content.xml of an opened document, made from what is stored *)
Definition styles_from (x : option elem) : elem := fill STYLES_PARTS (default (new_elem "office:document-styles") x).
Definition content_from (body : string) (x : option elem) : elem :=
  within "office:body" (fun b => within body (fill DECLS) (fill [body] b)) (fill CONTENT_PARTS (default (new_elem "office:document-content") x)).
(** what is stored can be used *)
Definition has_root (t : string) (x : option elem) : Prop := forall e, x = Some e -> e_tag e = t.
Definition good_decls (body : string) (x : option elem) : Prop :=
  forall e b y t k, x = Some e -> head (findall "office:body" e) = Some b -> head (findall body b) = Some y ->
    t ∈ DECLS -> head (findall t y) = Some k -> Forall (fun n => e_tag n ∈ VARIABLES) (kids k).

(** ** Managers of documents *)
(** the part [name] is [c] *)
Definition part_is (g : manager) (name : pystr) (c : content) (media : pystr) : Prop :=
  exists f, (name, f) ∈ directory g /\ fo_element f = c /\ fo_media f = media.
(** the manager of a document of type [m]: the trees are its objects 0, 1 and 2 *)
Definition document (m : pystr) (g : manager) : Prop :=
  tidy g /\
  part_is g (lit "mimetype") (CBytes (b_enc m)) [] /\
  part_is g (lit "META-INF/manifest.xml") CManifest (lit "text/xml") /\
  part_is g (lit "meta.xml") (CObject 0) (lit "text/xml") /\
  part_is g (lit "styles.xml") (CObject 1) (lit "text/xml") /\
  part_is g (lit "content.xml") (CObject 2) (lit "text/xml").
(** the parts a document has in any case are in its trees *)
Definition has_children (l : list string) (e : elem) : Prop := Forall (fun t => findall t e <> []) l.
Definition complete (body : string) (g : manager) : Prop :=
  (e_tag (objects g 0) = "office:document-meta"%string /\
   exists m, head (findall "office:meta" (objects g 0)) = Some m /\ has_children ["meta:document-statistic"%string] m) /\
  (e_tag (objects g 1) = "office:document-styles"%string /\ has_children STYLES_PARTS (objects g 1)) /\
  (e_tag (objects g 2) = "office:document-content"%string /\ has_children CONTENT_PARTS (objects g 2) /\
   exists b y, head (findall "office:body" (objects g 2)) = Some b /\ head (findall body b) = Some y /\ has_children DECLS y) /\
  good_decls body (Some (objects g 2)) /\
  Forall (fun e => e_tail e = None) [manifest g; objects g 0; objects g 1; objects g 2].
(** less: the trees have the right roots, whatever else was removed from styles and content *)
Definition rooted (body : string) (g : manager) : Prop :=
  (e_tag (objects g 0) = "office:document-meta"%string /\
   exists m, head (findall "office:meta" (objects g 0)) = Some m /\ has_children ["meta:document-statistic"%string] m) /\
  e_tag (objects g 1) = "office:document-styles"%string /\ e_tag (objects g 2) = "office:document-content"%string /\
  good_decls body (Some (objects g 2)) /\
  Forall (fun e => e_tail e = None) [manifest g; objects g 0; objects g 1; objects g 2].
(** the manifest lists the document and its parts *)
Definition lists (m : pystr) (g : manager) : Prop :=
  Forall (fun p => media_of p.1 (manifest g) = Some p.2)
    [(lit "/", m); (lit "mimetype", []); (lit "meta.xml", lit "text/xml"); (lit "styles.xml", lit "text/xml"); (lit "content.xml", lit "text/xml")].
End spec.
