(** Model of /repo/ezodf/nodeorganizer.py. *)
From Verif Require Export PyBase Dom.

(** nodeorganizer.py:82 [tags[tags.index(tag):]], None for ValueError *)
Fixpoint tags_from (c : string) (tags : list string) : option (list string) :=
  match tags with
  | [] => None
  | t :: r => if decide (c = t) then Some tags else tags_from c r
  end.

(** nodeorganizer.py:75-86, the loop of PreludeTagBlock._count_tags_in_block over the
    tags of the children (the early exit of lines 72-73 gives the same result; [tags] is
    never empty, __init__ lines 57-58) *)
Fixpoint count_tags_in_block (tags children : list string) : nat :=
  match children with
  | [] => 0
  | c :: r =>
      if decide (Some c = head tags) then S (count_tags_in_block tags r)
      else match tags_from c tags with
           | Some tags' => S (count_tags_in_block tags' r)
           | None => 0
           end
  end.

(** ** Tag blocks.  [children]: the tags of the child elements, in order. *)

(** nodeorganizer.py:52-60 PreludeTagBlock(xmlnode, tags): the stored tags *)
Definition prelude_block (tags : list string) : res (list string) :=
  if decide (length tags = 0) then Err ValueError
  else if decide (length tags <> length (remove_dups tags)) then Err ValueError
  else Ok tags.
(** nodeorganizer.py:139-141 EpilogueTagBlock(xmlnode, tags): the stored tags *)
Definition epilogue_block (tags : list string) : res (list string) := prelude_block (reverse tags).

(** nodeorganizer.py:71-86 _count_tags_in_block, __len__; for an EpilogueTagBlock the
    children are iterated backwards (lines 143-147) *)
Definition prelude_count (tags children : list string) : nat := count_tags_in_block tags children.
Definition epilogue_count (tags children : list string) : nat := count_tags_in_block tags (reverse children).

(** nodeorganizer.py:91-101 get_pos_and_count, the loop: position, count, last position *)
Fixpoint pos_and_count (t : string) (pos : Z) (count last_pos : Z) (l : list string) : Z * Z :=
  match l with
  | [] => if decide (count > 0)%Z then (last_pos - count + 1, count)%Z else (-1, 0)%Z
  | c :: r => if decide (c = t) then pos_and_count t (pos + 1)%Z (count + 1)%Z pos r
              else pos_and_count t (pos + 1)%Z count last_pos r
  end.
(** nodeorganizer.py:107-109 _check_for_valid_tag *)
Definition check_tag (t : string) (tags : list string) : res unit :=
  if decide (t ∈ tags) then Ok tt else Err ValueError.
(** nodeorganizer.py:88-105 PreludeTagBlock.tag_info *)
Definition tag_info (tags children : list string) (t : string) : res (Z * Z) :=
  do _ <- check_tag t tags;
  Ok (pos_and_count t 0 0 (-1) (take (count_tags_in_block tags children) children)).
(** nodeorganizer.py:111-113 _get_tag_and_successors *)
Definition tag_and_successors (t : string) (tags : list string) : list string := default [] (tags_from t tags).
(** nodeorganizer.py:115-122 insert_position_before of a prelude block *)
Fixpoint first_position (tags children : list string) (ts : list string) : option Z :=
  match ts with
  | [] => None
  | t :: r => match tag_info tags children t with
              | Ok (pos, count) => if decide (count > 0)%Z then Some pos else first_position tags children r
              | Err _ => None
              end
  end.
Definition prelude_insert_before (tags children : list string) (t : string) : res Z :=
  do _ <- check_tag t tags;
  Ok (default 0%Z (first_position tags children (tag_and_successors t tags))).
(** nodeorganizer.py:124-126 _successor_tag *)
Definition successor_tag (t : string) (tags : list string) : res string :=
  match tag_and_successors t tags with
  | _ :: s :: _ => Ok s
  | _ => Err IndexError
  end.
(** nodeorganizer.py:128-137 insert_position_after of a prelude block *)
Definition prelude_insert_after (tags children : list string) (t : option string) : res Z :=
  match last tags with
  | None => Err IndexError
  | Some lt =>
      let t := default lt t in
      do _ <- check_tag t tags;
      if decide (t = lt) then Ok (Z.of_nat (count_tags_in_block tags children))
      else do s <- successor_tag t tags; prelude_insert_before tags children s
  end.

(** nodeorganizer.py:149-153 EpilogueTagBlock.tag_info; [tags]: as stored (reversed) *)
Definition epilogue_tag_info (tags children : list string) (t : string) : res (Z * Z) :=
  do pc <- tag_info tags (reverse children) t;
  let '(pos, count) := pc in
  Ok (if decide (count > 0)%Z then (Z.of_nat (length children) - pos - count)%Z else pos, count).
(** nodeorganizer.py:166-176 EpilogueTagBlock.insert_position_after *)
Definition epilogue_insert_after (tags children : list string) (t : string) : res Z :=
  do _ <- check_tag t tags;
  Ok (Z.of_nat (length children) -
      default 0 (first_position tags (reverse children) (tag_and_successors t tags)))%Z.
(** nodeorganizer.py:155-164 EpilogueTagBlock.insert_position_before *)
Definition epilogue_insert_before (tags children : list string) (t : option string) : res Z :=
  match last tags with
  | None => Err IndexError
  | Some lt =>
      let t := default lt t in
      do _ <- check_tag t tags;
      if decide (t = lt) then Ok (Z.of_nat (length children) - Z.of_nat (epilogue_count tags children))%Z
      else do s <- successor_tag t tags; epilogue_insert_after tags children s
  end.

(** nodestructurechecker.py:27-41 is_valid *)
Definition is_valid (prelude midrange epilogue children : list string) : res bool :=
  do p <- prelude_block prelude;
  do e <- epilogue_block epilogue;
  let pc := prelude_count p children in
  let ec := epilogue_count e children in
  let mid := if decide (ec = 0) then drop pc children else drop pc (drop_last ec children) in
  Ok (forallb (fun t => bool_decide (t ∈ midrange)) mid).

(** ** Reordering.  [A]: the child nodes, compared by identity. *)
Section reorder.
Context {A : Type} `{EqDecision A} (tag_of : A -> string).

(** [xmlnode.remove(child)]: ValueError when it is no child *)
Fixpoint drop_child (x : A) (l : list A) : option (list A) :=
  match l with
  | [] => None
  | y :: r => if decide (y = x) then Some r else cons y <$> drop_child x r
  end.
(** nodeorganizer.py:45-48 _remove_children_from_node *)
Fixpoint drop_children (xs : list A) : act (list A) unit :=
  match xs with
  | [] => aret tt
  | x :: r => fun l => match drop_child x l with
                       | Some l' => drop_children r l'
                       | None => (l, Err ValueError)
                       end
  end.
(** nodeorganizer.py:37-43 _extract_nodes *)
Definition extract_nodes (tags : list string) : act (list A) (list A) := fun l =>
  let xs := flat_map (fun t => filter (fun x => tag_of x = t) l) tags in
  (let! _ := drop_children xs in aret xs) l.
(** nodeorganizer.py:22-35 reorder *)
Definition reorder (prelude epilogue : list string) : act (list A) unit := fun l =>
  if decide (length l < 2) then (l, Ok tt)
  else
    (let! p := extract_nodes prelude in
     let! e := extract_nodes epilogue in
     let! _ := (fun l => (foldl (fun l x => x :: l) l (reverse p), Ok tt)) in
     (fun l => (l ++ e, Ok tt))) l.
End reorder.

(** nodestructuretags.py:12-86 the tag lists of text documents *)
Definition OFFICE_FORMS := ["office:forms"]%string.
Definition TABLE_TRACKED_CHANGES := ["table:tracked-changes"]%string.
Definition TEXT_DECL := ["text:variable-decls"; "text:sequence-decls"; "text:user-field-decls";
  "text:dde-connection-decls"; "text:alphabetical-index-auto-mark-file"]%string.
Definition TABLE_DECL := ["table:calculation-settings"; "table:content-validations"; "table:label-ranges"]%string.
Definition SHAPE := ["draw:rect"; "draw:line"; "draw:polyline"; "draw:polygon"; "draw:regular-polygon"; "draw:path";
  "draw:circle"; "draw:ellipse"; "draw:g"; "draw:page-thumbnail"; "draw:frame"; "draw:measure"; "draw:caption";
  "draw:connector"; "draw:control"; "dr3d:scene"; "draw:custom-shape"]%string.
Definition CHANGE_MARKS := ["text:change"; "text:change-start"; "text:change-end"]%string.
Definition PAGE_SEQUENCE := ["text:page-sequence"; "draw:a"]%string ++ SHAPE.
Definition TABLE_FUNCTIONS := ["table:named-expressions"; "table:database-ranges"; "table:data-pilot-tables";
  "table:consolidation"; "table:dde-links"]%string.
Definition TEXT_CONTENT_ELEMENTS := ["text:h"; "text:p"; "text:list"; "text:numbered-paragraph"; "table:table"; "draw:a";
  "text:section"; "text:soft-page-break"; "text:table-of-content"; "text:illustration-index"; "text:table-index";
  "text:object-index"; "text:user-index"; "text:alphabetical-index"; "text:bibliography"]%string.
Definition TEXT_PRELUDE := OFFICE_FORMS ++ TABLE_TRACKED_CHANGES ++ TEXT_DECL ++ TABLE_DECL.
Definition TEXT_CONTENT_STREAM := TEXT_CONTENT_ELEMENTS ++ SHAPE ++ CHANGE_MARKS.
Definition TEXT_CONTENT_PAGED := PAGE_SEQUENCE.
Definition TEXT_EPILOGUE := TABLE_FUNCTIONS.

(** ** Text bodies *)
(** xmlns.py:14-20 subelement(parent, tag) *)
Definition subelement (t : string) (e : elem) : elem :=
  match find_child t e with Some _ => e | None => e_append (new_elem t) e end.
(** body.py:18-24, 30-32 TextBody(xmlnode): the declarations are added *)
Definition text_body (e : elem) : elem := subelement "text:user-field-decls" (subelement "text:variable-decls" e).
(** [xmlnode.insert(int(index), child)] of a detached child (base.py:76-79) *)
Definition e_insert (i : Z) (c : elem) (e : elem) : elem :=
  on_kids (fun ks => insert_at (lxml_insert_pos (length ks) i) c ks) e.
(** body.py:34-36 TextBody.append of a detached child *)
Definition body_append (c e : elem) : elem * res unit :=
  match (do tags <- epilogue_block TEXT_EPILOGUE; epilogue_insert_before tags (map e_tag (kids e)) None) with
  | Ok i => (e_insert i c e, Ok tt)
  | Err x => (e, Err x)
  end.
