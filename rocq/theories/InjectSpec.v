(** Documents into which styles are injected. *)
From Verif Require Export Inject StylesSpec.

(** Tags of registered classes that are not styles: their constructors may change the element. *)
Definition other_classes : list string :=
  ["draw:page"; "office:chart"; "office:document"; "office:document-content"; "office:document-meta";
   "office:document-styles"; "office:drawing"; "office:image"; "office:presentation"; "office:spreadsheet"; "office:text";
   "table:covered-table-cell"; "table:table"; "table:table-cell"; "table:table-column"; "table:table-row";
   "text:a"; "text:h"; "text:line-break"; "text:list"; "text:list-header"; "text:list-item"; "text:numbered-paragraph";
   "text:p"; "text:s"; "text:section"; "text:soft-page-break"; "text:span"; "text:tab"; "text:user-field-decl";
   "text:user-field-decls"; "text:user-field-get"; "text:user-field-input"; "text:user-field-set"; "text:variable-decl";
   "text:variable-decls"; "text:variable-get"; "text:variable-input"; "text:variable-set"]%string.
Definition style_like (e : elem) : Prop := e_tag e ∉ other_classes.

(** The trees [w], where all ids from [n] on are unused. *)
Definition starts (x : N) (w : node) (n : N) : Prop :=
  wfs w /\ element x w /\ Forall (fun y => y < n)%N (ids w).

(** The states a program gets to with lookups, assignments and injections; the list holds the
    names that were assigned. *)
Inductive reached `{XmlParser} (x : N) (w : node) (n : N) : list (option pystr) -> ist -> Prop :=
  | R_start : reached x w n [] (ISt (CSt w ∅) n)
  | R_get l s m : reached x w n l s -> reached x w n l (on_cont (s_get x m) s).1
  | R_set l s m c : reached x w n l s -> storable (tree_of (cont s)) x m c ->
      reached x w n (m :: l) (on_cont (s_set x m c) s).1
  | R_inject l s text wh : reached x w n l s ->
      (forall e es, xml_parts text = Ok (e :: es) -> style_like e) ->
      reached x w n l (inject_style x text wh s).1.

(** The new node [c] is the last child of [x], and with all below it it is [e]; everything that
    was there before is as it was. *)
Definition injected (x c : N) (e : elem) (w w' : node) : Prop :=
  wfs w' /\ ~ element c w /\ children x w' = children x w ++ [c] /\
  erase <$> sub c w' = Some e /\
  forall y, element y w -> data y w' = data y w /\ (y <> x -> children y w' = children y w).
(** What was there before is as it was. *)
Definition kept_all (w w' : node) : Prop :=
  wfs w' /\ forall y, element y w -> sub y w' = sub y w.
