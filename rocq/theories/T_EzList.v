(** C64: ezlist. *)
From Verif Require Import EzListSpec TextListsProofs.

Lemma ez_kids `{U : Unicode} (items : list pystr) (header style : pystr) :
  kids (ezlist items header style) =
    (if decide (header = []) then [] else [new_list_part "text:list-header" header]) ++
    map (new_list_part "text:list-item") items /\
  root (ezlist items header style) = root (new_list style).
Proof.
  assert (H : forall e, kids (foldl (fun l t => e_append (new_list_part "text:list-item" t) l) e items) =
    kids e ++ map (new_list_part "text:list-item") items /\
    root (foldl (fun l t => e_append (new_list_part "text:list-item" t) l) e items) = root e).
  { induction items as [|t ts IH]; intros e; cbn [foldl map]; [by rewrite app_nil_r|].
    destruct (IH (e_append (new_list_part "text:list-item" t) e)) as [H1 H2]. rewrite H1, H2.
    destruct e as [a ks]. cbn [e_append on_kids kids root]. by rewrite <- app_assoc. }
  unfold ezlist. destruct header as [|c s].
  - destruct (H (new_list style)) as [H1 H2]. rewrite H1, H2. split; [|done]. rewrite decide_True by done.
    by destruct style.
  - destruct (H (put_header (new_list_part LIST_HEADER (c :: s)) (new_list style))) as [H1 H2].
    rewrite H1, H2. rewrite decide_False by done. split; by destruct style.
Qed.
Lemma part_tag `{U : Unicode} tg t : e_tag (new_list_part tg t) = tg.
Proof. by destruct t. Qed.
Lemma append_attrs `{U : Unicode} t e : e_attrs (append_text e t) = e_attrs e.
Proof.
  assert (Ha : forall l e, e_attrs (foldl append_item e l) = e_attrs e).
  { induction l as [|i l IH]; intros e'; [done|]. cbn. rewrite IH. destruct e' as [a ks]. destruct i; cbn; [|done]. by destruct (last ks). }
  unfold append_text. by rewrite Ha.
Qed.
Lemma part_simple `{U : Unicode} tg t : simple_part (new_list_part tg t).
Proof.
  destruct t as [|c t]; [by repeat split; auto|]. unfold simple_part. split; [done|]. split; [done|]. split; [done|].
  right. exists (new_span "text:p" (c :: t) []). split; [done|].
  split; [apply new_span_tag|]. unfold new_span. by rewrite append_attrs.
Qed.

(** The list has the texts asked for, in order, each in a paragraph of its own; the header comes first;
    an empty header and an empty style are left out. *)
Theorem C64_ezlist `{U : Unicode} (items : list pystr) (header style : pystr) :
  let e := ezlist items header style in
  item_texts e = Ok items /\
  header_text e = (if decide (header = []) then None else Some (Ok header)) /\
  map e_tag (kids e) = (if decide (header = []) then [] else ["text:list-header"%string]) ++
    replicate (length items) "text:list-item"%string /\
  Forall simple_part (kids e) /\
  e_tag e = "text:list"%string /\ e_text e = None /\ e_tail e = None /\
  forall k, e_get k e = if decide (k = "text:style-name"%string) then given style else None.
Proof.
  cbv zeta. destruct (ez_kids items header style) as [Hk Hr].
  assert (Hi : forall (t : string), t <> "text:list-item"%string ->
    filter (fun k => e_tag k = t) (map (new_list_part "text:list-item") items) = []).
  { intros t Nt. clear Hk Hr. induction items as [|x l IH]; [done|]. cbn [map].
    rewrite filter_cons_False; [done|]. rewrite part_tag. by intros E; apply Nt. }
  assert (Ha : filter (fun k => e_tag k = "text:list-item"%string) (map (new_list_part "text:list-item") items)
               = map (new_list_part "text:list-item") items).
  { clear Hk Hr Hi. induction items as [|x l IH]; [done|]. cbn [map]. rewrite filter_cons_True by apply part_tag. by rewrite IH. }
  assert (Hn : length (map (new_list_part "text:list-item") items) = length items) by apply map_length.
  split; [|split; [|split; [|split]]].
  - unfold item_texts, findall. rewrite Hk, filter_app, Ha.
    assert (E : filter (fun k => e_tag k = "text:list-item"%string)
      (if decide (header = []) then [] else [new_list_part "text:list-header" header]) = []).
    { case_decide; [done|]. rewrite filter_cons_False; [done|]. by rewrite part_tag. }
    rewrite E. apply rmap_texts. right; left.
  - unfold header_text, find_child, findall. rewrite Hk, filter_app, Hi by done. rewrite app_nil_r.
    case_decide; [done|]. rewrite filter_cons_True by apply part_tag. cbn [head fmap option_fmap option_map filter].
    f_equal. apply new_list_part_plaintext. left.
  - rewrite Hk, map_app. f_equal.
    + case_decide; [done|]. cbn [map]. by rewrite part_tag.
    + clear Hk Hr Hi Ha Hn. induction items as [|x l IH]; [done|]. cbn [map length replicate]. by rewrite part_tag, IH.
  - rewrite Hk. apply Forall_app. split.
    + case_decide; [constructor|]. constructor; [apply part_simple|constructor].
    + apply Forall_forall. intros k [t [-> _]]%elem_of_list_fmap. apply part_simple.
  - unfold e_tag, e_text, e_tail, e_get, e_attrs. rewrite Hr. split; [by destruct style|]. split; [by destruct style|].
    split; [by destruct style|]. intros k. destruct style as [|c s]; [cbn [new_list new_elem root attrs given]; rewrite lookup_empty; by destruct (decide (k = "text:style-name"%string))|].
    cbn [new_list e_set on_root root attrs nd_set_attrs given new_elem].
    clear Hk; case_decide as E; [subst k; by rewrite lookup_insert|by rewrite lookup_insert_ne].
Qed.
Print Assumptions C64_ezlist.

(** Different arguments give different lists. *)
Theorem C64_injective `{U : Unicode} (items items' : list pystr) (header header' style style' : pystr) :
  ezlist items header style = ezlist items' header' style' -> items = items' /\ header = header' /\ style = style'.
Proof.
  intros E. destruct (C64_ezlist items header style) as (H1 & H2 & _ & _ & _ & _ & _ & H3).
  destruct (C64_ezlist items' header' style') as (I1 & I2 & _ & _ & _ & _ & _ & I3).
  rewrite E in H1, H2, H3. split; [|split].
  - rewrite H1 in I1. by injection I1.
  - rewrite H2 in I2. destruct (decide (header = [])) as [->|], (decide (header' = [])) as [->|]; try done.
    by injection I2.
  - specialize (H3 "text:style-name"%string). specialize (I3 "text:style-name"%string).
    rewrite decide_True in H3, I3 by done. rewrite H3 in I3. destruct style, style'; try done. by injection I3 as -> ->.
Qed.
Print Assumptions C64_injective.

(** A list that gets further items, and another header, is the one made at once. *)
Theorem C64_grow `{U : Unicode} (items more : list pystr) (header header' style : pystr) :
  foldl (fun l t => e_append (new_list_part "text:list-item" t) l) (ezlist items header style) more =
    ezlist (items ++ more) header style /\
  (header' <> [] ->
   put_header (new_list_part "text:list-header" header') (ezlist items header style) = ezlist items header' style).
Proof.
  split; [unfold ezlist; by rewrite foldl_app|]. intros Nh.
  destruct (ez_kids items header style) as [Hk Hr]. destruct (ez_kids items header' style) as [Hk' Hr'].
  destruct (ezlist items header style) as [a ks], (ezlist items header' style) as [a' ks']. cbn [kids root] in *.
  subst a a'. rewrite decide_False in Hk' by done. unfold put_header, e_insert. cbn [on_kids]. f_equal. rewrite Hk'.
  assert (E : drop_first LIST_HEADER ks = map (new_list_part "text:list-item") items).
  { rewrite Hk. assert (D : drop_first LIST_HEADER (map (new_list_part "text:list-item") items) = map (new_list_part "text:list-item") items).
    { clear Hk Hk'. induction items as [|x l IH]; [done|]. cbn [map drop_first].
      rewrite decide_False; [by rewrite IH|]. rewrite part_tag. done. }
    case_decide; [done|]. cbn [app drop_first]. by rewrite decide_True by apply part_tag. }
  rewrite E. destruct items as [|i items]; [done|]. unfold lxml_insert_pos, py_index. cbn [map length]. rewrite decide_True by lia. done.
Qed.
Print Assumptions C64_grow.

(** A list inside an item is found, but its texts are not in the plain text of the item: it counts as
    an empty line. *)
Theorem C64_nested `{U : Unicode} (t : pystr) (items : list pystr) (header style : pystr) :
  let item := e_append (ezlist items header style) (new_list_part "text:list-item" t) in
  find_child "text:list" item = Some (ezlist items header style) /\
  plaintext item = Ok (if decide (t = []) then [] else t ++ [10%N]).
Proof.
  cbv zeta. destruct (C64_ezlist items header style) as (_ & _ & _ & _ & Ht & Hx & _).
  assert (Hl : plaintext (ezlist items header style) = Ok []).
  { destruct (ezlist items header style) as [a ks]. unfold e_tag, e_text in Ht, Hx. cbn [root] in Ht, Hx.
    cbn [plaintext]. rewrite Ht, Hx.
    rewrite !decide_False; [done|..]; first [done|intros Hi; by repeat (apply elem_of_cons in Hi as [Hi|Hi]; [done|]); apply elem_of_nil in Hi]. }
  split.
  - unfold find_child, findall. destruct t as [|c t].
    + cbn [new_list_part new_elem e_append on_kids kids app]. by rewrite filter_cons_True.
    + cbn [new_list_part new_elem e_append on_kids kids app].
      rewrite filter_cons_False by (by rewrite new_span_tag). by rewrite filter_cons_True.
  - assert (H : forall ks l, rmap plaintext ks = Ok l ->
      plaintext (T (Nd "text:list-item" ∅ None None) ks) = Ok (py_join [10%N] l)).
    { intros ks l E. cbn [plaintext tag]. rewrite decide_False by dec_vm. rewrite !decide_False by done.
      rewrite decide_True by (right; left). by rewrite E. }
    destruct t as [|c t].
    + cbn [new_list_part new_elem e_append on_kids app]. rewrite (H _ [[]]); [done|]. cbn [rmap]. by rewrite Hl.
    + cbn [new_list_part new_elem e_append on_kids app]. rewrite (H _ [c :: t; []]).
      * rewrite decide_False by done. cbn [py_join]. by rewrite app_nil_r.
      * cbn [rmap]. rewrite new_span_plaintext by dec_vm. by rewrite Hl.
Qed.
Print Assumptions C64_nested.

(** ** Cases *)
Local Existing Instance ascii_unicode.
Definition l64 : elem := ezlist [lit "a  b"; []; lit "c"] (lit "Head") (lit "L1").
Example C64_ezlist_case : l64 = T (Nd "text:list" {["text:style-name" := lit "L1"]} None None)
  (kids l64) /\
  item_texts l64 = Ok [lit "a  b"; []; lit "c"] /\
  map (fun k => length (kids k)) (kids l64) = [1; 1; 0; 1].
Proof. split; [by_vm|]. split; by_vm. Qed.
Example C64_injective_case : ezlist [lit "a"] [] [] <> ezlist [] (lit "a") [].
Proof. intros E. by destruct (C64_injective (U := ascii_unicode) _ _ _ _ _ _ E) as [H _]. Qed.
Example C64_grow_case : lit "New" <> [].
Proof. done. Qed.
Example C64_nested_case : plaintext (e_append l64 (new_list_part "text:list-item" (lit "x")))
  = Ok (lit "x" ++ [10%N]).
Proof. by_vm. Qed.
