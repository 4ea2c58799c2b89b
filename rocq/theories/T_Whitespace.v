(** Theorems C01-C05: whitespace encoding, paragraph text, text length, rendering. *)
From Verif Require Import TextProofs.

(** C01: encoding then decoding any string gives the string back. *)
Theorem C01_whitespace_lossless `{Unicode} :
  forall t : pystr, decode (encode t) = Ok t.
Proof. exact encode_decode. Qed.
Print Assumptions C01_whitespace_lossless.

(** C01: encoding is injective: two different strings never share an encoding. *)
Theorem C01_encode_injective `{Unicode} :
  forall t t' : pystr, encode t = encode t' -> t = t'.
Proof.
  intros t t' E. assert (Ok t = Ok t') as [= ->]; [|done].
  by rewrite <- (encode_decode t), <- (encode_decode t'), E.
Qed.
Print Assumptions C01_encode_injective.

Example C01_case : encode (lit "a   b") =
  [inl (lit "a "); inr (Spaces 2); inl (lit "b")].
Proof. vm_compute. reflexivity. Qed.

(** C02: the result list is in canonical form ([WhitespaceSpec.canonical]): no empty
    strings, no raw tab or newline, no two raw blanks in a row, no two neighbouring
    strings, a space element only behind a string that ends with a blank. *)
Theorem C02_encode_canonical `{Unicode} :
  forall t : pystr, canonical (encode t).
Proof. exact encode_canonical. Qed.
Print Assumptions C02_encode_canonical.

(** C02: it is the only list in canonical form that stands for the string. *)
Theorem C02_canonical_unique `{Unicode} :
  forall (l : list item) (t : pystr), canonical l -> decode l = Ok t -> l = encode t.
Proof. exact encode_unique. Qed.
Print Assumptions C02_canonical_unique.

(** C02: hence decoding then encoding a canonical list changes nothing. *)
Theorem C02_canonical_round_trip `{Unicode} :
  forall l : list item, canonical l -> exists t, decode l = Ok t /\ encode t = l.
Proof.
  intros l Hl. exists (concat (map istr l)).
  assert (decode l = Ok (concat (map istr l))) by (apply decode_canonical, Hl).
  split; [done|]. symmetry. by apply encode_unique.
Qed.
Print Assumptions C02_canonical_round_trip.

Example C02_case : canonical [inr Tabulator; inl (lit "x "); inr (Spaces 3); inr LineBreak].
Proof.
  replace [inr Tabulator; inl (lit "x "); inr (Spaces 3); inr LineBreak]
    with (encode (9%N :: lit "x    " ++ [10%N])) by (vm_compute; reflexivity).
  apply (encode_canonical (U := ascii_unicode)).
Qed.
Example C02_case_not : ~ canonical [inl (lit "a"); inl (lit "b")].
Proof. intros (_ & Ha & _). apply (proj1 (Ha 0 _ _ eq_refl eq_refl)). eauto. Qed.

(** C03: a paragraph, span, heading or hyperlink built from a text reads back that
    text, whatever the style. *)
Theorem C03_constructor_text `{Unicode} :
  forall (t style href : pystr) (level : Z),
    plaintext (new_span "text:p" t style) = Ok t /\
    plaintext (new_span "text:span" t style) = Ok t /\
    plaintext (new_heading t level style) = Ok t /\
    plaintext (new_hyperlink href t style) = Ok t.
Proof.
  intros t st href lv. split_and!;
    [apply new_span_plaintext; apply elem_of_list_In; cbn; auto..| |].
  - apply new_heading_plaintext.
  - apply new_hyperlink_plaintext.
Qed.
Print Assumptions C03_constructor_text.

(** C03: appending texts, in any number, to an element with any mixed content
    concatenates; tag and attributes stay. *)
Theorem C03_append_text `{Unicode} :
  forall (e : elem) (s : pystr) (ts : list pystr),
    e_tag e ∈ ["text:span"; "text:p"; "text:h"; "text:a"] ->
    plaintext e = Ok s ->
    plaintext (foldl append_text e ts) = Ok (s ++ concat ts).
Proof. intros e s ts. exact (append_texts_plaintext ts e s). Qed.
Print Assumptions C03_append_text.

Theorem C03_append_text_frame `{Unicode} :
  forall (e : elem) (t : pystr),
    e_tag (append_text e t) = e_tag e /\ e_attrs (append_text e t) = e_attrs e.
Proof. intros e t. split; [apply append_text_tag|apply append_text_attrs]. Qed.
Print Assumptions C03_append_text_frame.

(** a paragraph with text, a span with tail, a tab *)
Definition mixed : elem :=
  T (Nd "text:p" ∅ (Some (lit "ab")) None)
    [T (Nd "text:span" ∅ (Some (lit "c")) (Some (lit "d"))) []; Tabulator].
Example C03_case :
  e_tag mixed ∈ ["text:span"; "text:p"; "text:h"; "text:a"] /\
  plaintext (U := ascii_unicode) mixed = Ok (lit "abcd" ++ [9%N]).
Proof. split; [apply elem_of_list_In; cbn; auto|vm_compute; reflexivity]. Qed.

(** C04: for text trees (paragraphs, spans, headings, links, whitespace elements with
    a non-negative count and any other element without list items and cells) the
    reported length is the length of the plain text.
    For list items and cells, see the counterexamples. *)
Theorem C04_textlen `{Unicode} :
  forall e : elem, text_tree e ->
    exists s, plaintext e = Ok s /\ textlen e = Ok (Z.of_nat (length s)).
Proof. exact textlen_spec. Qed.
Print Assumptions C04_textlen.

Example C04_case : text_tree (H := ascii_unicode) mixed.
Proof.
  apply TT_span; [apply elem_of_list_In; cbn; auto|].
  apply Forall_cons; split; [|apply Forall_cons; split; [|done]].
  - apply TT_span; [apply elem_of_list_In; cbn; auto|done].
  - apply TT_other; [done|apply (bool_decide_unpack _); vm_compute; exact I..].
Qed.

(** C04 fails for a list item: its paragraphs count for the text, not for the length. *)
Theorem C04_textlen_list_item_counterexample :
  exists (e : elem) (s : pystr), e_tag e = "text:list-item" /\
    plaintext (U := ascii_unicode) e = Ok s /\
    textlen (U := ascii_unicode) e <> Ok (Z.of_nat (length s)).
Proof.
  exists (T (Nd "text:list-item" ∅ None None) [new_span "text:p" (lit "abc") []]), (lit "abc").
  split_and!; [done|vm_compute; reflexivity|vm_compute; discriminate].
Qed.
Print Assumptions C04_textlen_list_item_counterexample.

(** ... for a table cell ... *)
Theorem C04_textlen_cell_counterexample :
  exists (e : elem) (s : pystr), e_tag e = "table:table-cell" /\
    plaintext (U := ascii_unicode) e = Ok s /\
    textlen (U := ascii_unicode) e <> Ok (Z.of_nat (length s)).
Proof.
  exists (T (Nd "table:table-cell" ∅ None None) [new_span "text:p" (lit "abc") []]), (lit "abc").
  split_and!; [done|vm_compute; reflexivity|vm_compute; discriminate].
Qed.
Print Assumptions C04_textlen_cell_counterexample.

(** ... and for a space element with a negative count in a loaded file. *)
Theorem C04_textlen_negative_counterexample :
  exists (e : elem) (s : pystr), e_tag e = "text:p" /\
    plaintext (U := ascii_unicode) e = Ok s /\
    textlen (U := ascii_unicode) e <> Ok (Z.of_nat (length s)).
Proof.
  exists (T (Nd "text:p" ∅ None None) [e_set "text:c" (lit "-3") (new_elem "text:s")]), [].
  split_and!; [done|vm_compute; reflexivity|vm_compute; discriminate].
Qed.
Print Assumptions C04_textlen_negative_counterexample.

(** C05: a consumer that applies the ODF white-space rules to the content of a new
    paragraph shows the text exactly when it has no carriage return, no leading blank
    and does not end in one single blank.  It is false
    for the others. *)
Theorem C05_rendering `{Unicode} :
  forall (t style : pystr),
    rendered (content_items (new_span "text:p" t style)) = t <-> renderable t.
Proof. intros t st. rewrite new_span_content. apply encode_rendered. Qed.
Print Assumptions C05_rendering.

Example C05_case : renderable (lit "a   b  ").
Proof.
  split_and!; [|done|].
  - apply (bool_decide_unpack _). vm_compute. exact I.
  - intros (p & E & Hp). change (lit "a   b  ") with (lit "a   b " ++ [32%N]) in E.
    apply app_inj_tail in E as [<- _]. apply Hp. reflexivity.
Qed.

Theorem C05_leading_blank_counterexample :
  exists t, rendered (H := ascii_unicode)
              (content_items (new_span "text:p" t [])) <> t.
Proof. exists (lit " x"). vm_compute. discriminate. Qed.
Print Assumptions C05_leading_blank_counterexample.

(** C05 also fails across calls: a blank at the end of one text and one at the start of
    the next become two raw blanks, although each text alone and the joined text
    would be shown unchanged. *)
Theorem C05_append_counterexample :
  exists t u : pystr,
    rendered (H := ascii_unicode) (content_items (new_span "text:p" (t ++ u) [])) = t ++ u /\
    rendered (H := ascii_unicode)
      (content_items (append_text (new_span "text:p" t []) u)) <> t ++ u.
Proof.
  exists (lit "a "), (lit " b"). split; [vm_compute; reflexivity|vm_compute; discriminate].
Qed.
Print Assumptions C05_append_counterexample.
