(** What a list is. *)
From Verif Require Export EzList TextListsSpec.

(** header and items of a list as texts *)
Definition header_text `{U : Unicode} (e : elem) : option (res pystr) := plaintext <$> find_child "text:list-header" e.
Definition item_texts `{U : Unicode} (e : elem) : res (list pystr) := rmap plaintext (findall "text:list-item" e).
(** a part with one paragraph, or without content *)
Definition simple_part (e : elem) : Prop :=
  e_attrs e = ∅ /\ e_text e = None /\ e_tail e = None /\
  (kids e = [] \/ exists p, kids e = [p] /\ e_tag p = "text:p"%string /\ e_attrs p = ∅).
