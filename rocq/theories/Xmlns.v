(** Model of the namespace handling: const.py (namespace maps), xmlns.py (_XMLNamespaces, CN). *)
From Verif Require Export PyBase.

(** ** const.py *)
(** const.py:36-77 *)
Definition ANIM_NS : pystr := lit "urn:oasis:names:tc:opendocument:xmlns:animation:1.0".
Definition CHART_NS : pystr := lit "urn:oasis:names:tc:opendocument:xmlns:chart:1.0".
Definition CONFIG_NS : pystr := lit "urn:oasis:names:tc:opendocument:xmlns:config:1.0".
Definition CSS3T_NS : pystr := lit "http://www.w3.org/TR/css3-text/".
Definition DC_NS : pystr := lit "http://purl.org/dc/elements/1.1/".
Definition DOM_NS : pystr := lit "http://www.w3.org/2001/xml-events".
Definition DR3D_NS : pystr := lit "urn:oasis:names:tc:opendocument:xmlns:dr3d:1.0".
Definition DRAWOOO_NS : pystr := lit "http://openoffice.org/2010/draw".
Definition DRAW_NS : pystr := lit "urn:oasis:names:tc:opendocument:xmlns:drawing:1.0".
Definition FIELD_NS : pystr := lit "urn:openoffice:names:experimental:ooo-ms-interop:xmlns:field:1.0".
Definition FORMX_NS : pystr := lit "urn:openoffice:names:experimental:ooxml-odf-interop:xmlns:form:1.0".
Definition FORM_NS : pystr := lit "urn:oasis:names:tc:opendocument:xmlns:form:1.0".
Definition FO_NS : pystr := lit "urn:oasis:names:tc:opendocument:xmlns:xsl-fo-compatible:1.0".
Definition GRDDL_NS : pystr := lit "http://www.w3.org/2003/g/data-view#".
Definition MANIFEST_NS : pystr := lit "urn:oasis:names:tc:opendocument:xmlns:manifest:1.0".
Definition MATH_NS : pystr := lit "http://www.w3.org/1998/Math/MathML".
Definition META_NS : pystr := lit "urn:oasis:names:tc:opendocument:xmlns:meta:1.0".
Definition NUMBERS_NS : pystr := lit "urn:oasis:names:tc:opendocument:xmlns:datastyle:1.0".
Definition OFFICEOOO_NS : pystr := lit "http://openoffice.org/2009/office".
Definition OFFICE_NS : pystr := lit "urn:oasis:names:tc:opendocument:xmlns:office:1.0".
Definition OF_NS : pystr := lit "urn:oasis:names:tc:opendocument:xmlns:of:1.2".
Definition OOOC_NS : pystr := lit "http://openoffice.org/2004/calc".
Definition OOOW_NS : pystr := lit "http://openoffice.org/2004/writer".
Definition OOO_NS : pystr := lit "http://openoffice.org/2004/office".
Definition PRESENTATION_NS : pystr := lit "urn:oasis:names:tc:opendocument:xmlns:presentation:1.0".
Definition RPT_NS : pystr := lit "http://openoffice.org/2005/report".
Definition SCRIPT_NS : pystr := lit "urn:oasis:names:tc:opendocument:xmlns:script:1.0".
Definition SMIL_NS : pystr := lit "urn:oasis:names:tc:opendocument:xmlns:smil-compatible:1.0".
Definition STYLE_NS : pystr := lit "urn:oasis:names:tc:opendocument:xmlns:style:1.0".
Definition SVG_NS : pystr := lit "urn:oasis:names:tc:opendocument:xmlns:svg-compatible:1.0".
Definition TABLEOOO_NS : pystr := lit "http://openoffice.org/2009/table".
Definition TABLE_NS : pystr := lit "urn:oasis:names:tc:opendocument:xmlns:table:1.0".
Definition TEXT_NS : pystr := lit "urn:oasis:names:tc:opendocument:xmlns:text:1.0".
Definition XFORMS_NS : pystr := lit "http://www.w3.org/2002/xforms".
Definition XHTML_NS : pystr := lit "http://www.w3.org/1999/xhtml".
Definition XLINKS_NS : pystr := lit "http://www.w3.org/1999/xlink".
Definition XSD_NS : pystr := lit "http://www.w3.org/2001/XMLSchema".
Definition XSI_NS : pystr := lit "http://www.w3.org/2001/XMLSchema-instance".
(** const.py:79-86 *)
Definition META_NSMAP : list (pystr * pystr) :=
  [(lit "office", OFFICE_NS);
   (lit "xlink", XLINKS_NS);
   (lit "dc", DC_NS);
   (lit "meta", META_NS);
   (lit "ooo", OOO_NS);
   (lit "grddl", GRDDL_NS)].
(** const.py:88-90 *)
Definition MANIFEST_NSMAP : list (pystr * pystr) :=
  [(lit "manifest", MANIFEST_NS)].
(** const.py:92-119 *)
Definition STYLES_NSMAP : list (pystr * pystr) :=
  [(lit "style", STYLE_NS);
   (lit "text", TEXT_NS);
   (lit "table", TABLE_NS);
   (lit "draw", DRAW_NS);
   (lit "fo", FO_NS);
   (lit "xlink", XLINKS_NS);
   (lit "dc", DC_NS);
   (lit "meta", META_NS);
   (lit "number", NUMBERS_NS);
   (lit "svg", SVG_NS);
   (lit "chart", CHART_NS);
   (lit "dr3d", DR3D_NS);
   (lit "math", MATH_NS);
   (lit "form", FORM_NS);
   (lit "script", SCRIPT_NS);
   (lit "ooo", OOO_NS);
   (lit "ooow", OOOW_NS);
   (lit "oooc", OOOC_NS);
   (lit "office", OFFICE_NS);
   (lit "dom", DOM_NS);
   (lit "rpt", RPT_NS);
   (lit "of", OF_NS);
   (lit "xhtml", XHTML_NS);
   (lit "grddl", GRDDL_NS);
   (lit "tableooo", TABLEOOO_NS);
   (lit "css3t", CSS3T_NS)].
(** const.py:121-126 *)
Definition SETTINGS_NSMAP : list (pystr * pystr) :=
  [(lit "office", OFFICE_NS);
   (lit "xlink", XLINKS_NS);
   (lit "config", CONFIG_NS);
   (lit "ooo", OOO_NS)].
(** const.py:128-161 *)
Definition TEXT_NSMAP : list (pystr * pystr) :=
  [(lit "office", OFFICE_NS);
   (lit "style", STYLE_NS);
   (lit "text", TEXT_NS);
   (lit "table", TABLE_NS);
   (lit "draw", DRAW_NS);
   (lit "fo", FO_NS);
   (lit "xlink", XLINKS_NS);
   (lit "dc", DC_NS);
   (lit "meta", META_NS);
   (lit "number", NUMBERS_NS);
   (lit "presentation", PRESENTATION_NS);
   (lit "svg", SVG_NS);
   (lit "chart", CHART_NS);
   (lit "dr3d", DR3D_NS);
   (lit "math", MATH_NS);
   (lit "form", FORM_NS);
   (lit "script", SCRIPT_NS);
   (lit "ooo", OOO_NS);
   (lit "ooow", OOOW_NS);
   (lit "oooc", OOOC_NS);
   (lit "dom", DOM_NS);
   (lit "xforms", XFORMS_NS);
   (lit "xsd", XSD_NS);
   (lit "xsi", XSI_NS);
   (lit "rpt", RPT_NS);
   (lit "of", OF_NS);
   (lit "xhtml", XHTML_NS);
   (lit "grddl", GRDDL_NS);
   (lit "field", FIELD_NS);
   (lit "formx", FORMX_NS);
   (lit "tableooo", TABLEOOO_NS);
   (lit "css3t", CSS3T_NS)].
(** const.py:163-166 *)
Definition SPREADSHEET_NSMAP : list (pystr * pystr) :=
  [(lit "presentation", PRESENTATION_NS)] ++ TEXT_NSMAP.
(** const.py:168-174 *)
Definition PRESENTATION_NSMAP : list (pystr * pystr) :=
  [(lit "smil", SMIL_NS);
   (lit "anim", ANIM_NS);
   (lit "officeooo", OFFICEOOO_NS);
   (lit "drawooo", DRAWOOO_NS)] ++ SPREADSHEET_NSMAP.
(** const.py:178-186; as the sequence of updates, a later pair wins *)
Definition ALL_NSMAP : list (pystr * pystr) :=
  META_NSMAP ++ MANIFEST_NSMAP ++ STYLES_NSMAP ++ SETTINGS_NSMAP ++ TEXT_NSMAP ++ SPREADSHEET_NSMAP ++
  PRESENTATION_NSMAP ++ PRESENTATION_NSMAP.

(** ** xmlns.py *)
(** xmlns.py:22-27 the dictionaries of _XMLNamespaces *)
Record nsreg := NS { prefix2uri : gmap pystr pystr; uri2prefix : gmap pystr pystr; ns_cache : gmap pystr pystr }.
Definition ns_empty : nsreg := NS ∅ ∅ ∅.
(** xmlns.py:33-36 register_namespace *)
Definition register_namespace (p u : pystr) (r : nsreg) : nsreg :=
  NS (<[p := u]> (prefix2uri r)) (<[u := p]> (uri2prefix r)) ∅.
(** xmlns.py:29-31 update *)
Definition ns_update (l : list (pystr * pystr)) (r : nsreg) : nsreg :=
  foldl (fun r pu => register_namespace pu.1 pu.2 r) r l.
(** xmlns.py:22-27 __init__ *)
Definition ns_new (l : list (pystr * pystr)) : nsreg := ns_update l ns_empty.

(** str.count(c) and str.split(c) for one character *)
Definition str_count (c : N) (s : pystr) : nat := length (filter (fun x => x = c) s).
Fixpoint str_split (c : N) (s : pystr) : list pystr :=
  match s with
  | [] => [[]]
  | x :: r => if decide (x = c) then [] :: str_split c r
              else match str_split c r with h :: t => (x :: h) :: t | [] => [[x]] end
  end.
(** xmlns.py:57-61 _split_prefix *)
Definition split_prefix (tag : pystr) : res (list pystr) :=
  if decide (str_count 58 tag = 1) then Ok (str_split 58 tag) else Err ValueError.
(** xmlns.py:51-55 _prefix2clark *)
Definition prefix2clark (tag : pystr) (r : nsreg) : res pystr :=
  do pl <- split_prefix tag;
  match pl with
  | [p; l] => match prefix2uri r !! p with Some u => Ok (lit "{" ++ u ++ lit "}" ++ l) | None => Err KeyError end
  | _ => Err ValueError
  end.
(** xmlns.py:38-49 _prefix2clark_cached, 65 CN *)
Definition cn (tag : pystr) : act nsreg pystr := fun r =>
  match ns_cache r !! tag with
  | Some v => (r, Ok v)
  | None =>
      match tag with
      | [] => (r, Err IndexError)
      | c :: _ =>
          if decide (c = 123%N) then (r, Ok tag)
          else match prefix2clark tag r with
               | Ok v => (NS (prefix2uri r) (uri2prefix r) (<[tag := v]> (ns_cache r)), Ok v)
               | Err e => (r, Err e)
               end
      end
  end.
(** xmlns.py:64 XML *)
Definition XML : nsreg := ns_new ALL_NSMAP.
