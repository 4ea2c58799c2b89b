(** Containers of styles in a document. *)
From Verif Require Export StylesSpec DocumentSpec NodeStoreFacts.

(** [k] is the container that the document with the styles tree [r] has for the tag [t]:
    the first child with this tag. *)
Definition style_container (t : string) (S r k : node) : Prop :=
  wfs S /\ r ∈ kids S /\ t ∈ STYLES_PARTS /\ head (filter (fun k => ltag k = t) (kids r)) = Some k.
(** an element with all that is in it *)
Definition whole (S : node) (y : N) : option elem := erase <$> sub y S.
(** A style for the name [n] that is in no tree yet. *)
Definition fresh_style (S : node) (x : N) (n : option pystr) (c : N) : Prop :=
  storable S x n c /\ forall y, element y S -> c ∉ children y S.
(** What is found under the name [n] in [k2] of [S2] is what was found in [k] of [S], as it is
    after parsing. *)
Definition found_again (S : node) (x : N) (S2 : node) (x2 : N) (n : option pystr) : Prop :=
  (forall y, first_named S x n y -> exists y2, first_named S2 x2 n y2 /\ whole S2 y2 = parsed <$> whole S y) /\
  (unnamed S x n -> unnamed S2 x2 n).
