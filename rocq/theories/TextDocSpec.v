(** What editing the body of a text document means. *)
From Verif Require Export TextDoc DocumentSpec EzListSpec NodeOrganizerSpec.

(** the application body of a content tree *)
Definition body_of (t : string) (e : elem) : option elem := head (findall "office:body" e) ≫= fun b => head (findall t b).
(** the tree with another body *)
Definition with_body (t : string) (y e : elem) : elem := within "office:body" (within t (fun _ => y)) e.

(** ** The list of children *)
(** [i] is the position of the item between [a] and [b] *)
Definition item_place {A} (i : Z) (a b : list A) : Prop := i = Z.of_nat (length a) \/ i = (- Z.of_nat (S (length b)))%Z.
(** there is no item at [i] *)
Definition no_place {A} (i : Z) (l : list A) : Prop := (i < - Z.of_nat (length l) \/ Z.of_nat (length l) <= i)%Z.
(** what a call does to the children, and its result *)
Inductive edited : bop -> list elem -> list elem -> res unit -> Prop :=
  | ed_append c content epi : longest_suffix TEXT_EPILOGUE (map e_tag (content ++ epi)) (length epi) ->
      edited (BAppend c) (content ++ epi) (content ++ c :: epi) (Ok tt)
  | ed_insert i c a k b : item_place i a b -> edited (BInsert i c) (a ++ k :: b) (a ++ c :: k :: b) (Ok tt)
  | ed_insert_end i c l : no_place i l -> edited (BInsert i c) l (l ++ [c]) (Ok tt)
  | ed_set i c a k b : item_place i a b -> edited (BSet i c) (a ++ k :: b) (a ++ c :: b) (Ok tt)
  | ed_set_no i c l : no_place i l -> edited (BSet i c) l l (Err IndexError)
  | ed_del i a k b : item_place i a b -> edited (BDel i) (a ++ k :: b) (a ++ b) (Ok tt)
  | ed_del_no i l : no_place i l -> edited (BDel i) l l (Err IndexError)
  | ed_clear l : edited BClear l [] (Ok tt)
  | ed_on i f a k b : item_place i a b -> edited (BOn i f) (a ++ k :: b) (a ++ (f k).1 :: b) (f k).2
  | ed_on_no i f l : no_place i l -> edited (BOn i f) l l (Err IndexError).
Inductive edits : list bop -> list elem -> list elem -> Prop :=
  | eds_nil l : edits [] l l
  | eds_cons o ops l l1 l2 r : edited o l l1 r -> edits ops l1 l2 -> edits (o :: ops) l l2.
(** clear() also drops the attributes and the text of the body itself *)
Definition is_clear (o : bop) : bool := match o with BClear => true | _ => false end.
Definition body_node (ops : list bop) (a : nd) : nd := if existsb is_clear ops then Nd (tag a) ∅ None None else a.

(** ** Documents that can be opened again: only variables are among the declarations *)
Definition good_decl (k : elem) : Prop := e_tag k ∈ DECLS -> Forall (fun n => e_tag n ∈ VARIABLES) (kids k).
Definition safe (o : bop) : Prop :=
  match o with
  | BAppend c | BInsert _ c | BSet _ c => good_decl c
  | BDel _ | BClear => True
  | BOn _ f => forall k, good_decl k -> good_decl (f k).1
  end.
(** the declarations that are not among the children *)
Definition missing (l : list elem) : list elem := map new_elem (filter (fun t => t ∉ map e_tag l) DECLS).

(** ** What a reader sees of a block *)
Definition shows `{U : Unicode} (b : chunk) (e : elem) : Prop :=
  match b with
  | Para t style => e_tag e = "text:p"%string /\ plaintext e = Ok t /\ e_get "text:style-name" e = given style
  | Head t level style => e_tag e = "text:h"%string /\ plaintext e = Ok t /\ e_get "text:style-name" e = given style /\
      limit_get "text:outline-level" 1 e = Ok (Z.max 1 level)
  | Bullets items header style => e_tag e = "text:list"%string /\ item_texts e = Ok items /\
      header_text e = (if decide (header = []) then None else Some (Ok header)) /\ e_get "text:style-name" e = given style
  end.
