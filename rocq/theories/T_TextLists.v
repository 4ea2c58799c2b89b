(** C55: lists, sections and numbered paragraphs. *)
From Verif Require Import TextListsProofs.

(** ** List.header *)
(** Reading: the first child that is a list header, and all list items. *)
Theorem C55_read (x : N) (w : node) : wfs w ->
  get_header x w = head (headers x w) /\ iteritems x w = items x w.
Proof. intros Hw. split; [by apply get_header_eq|by apply findall_tagged]. Qed.
Print Assumptions C55_read.

(** Assigning a list header makes it the first child in place of the old header; all other
    children stay, in their order, and so do the items. *)
Theorem C55_header_set (x h : N) (w : node) : wfs w -> element x w -> element h w -> ~ upwards w h x ->
  exists w', set_header x (Wr "ListHeader" h) w = (w', Ok tt) /\ header_placed x h w w' /\
    (tag <$> data h w = Some "text:list-header"%string ->
       get_header x w' = Some h /\ iteritems x w' = iteritems x w).
Proof.
  intros Hw Hx Hh Hu. destruct (set_header_ok x h w Hw Hx Hh Hu) as (w' & E & HP). exists w'. split_and!; [done|done|].
  intros Ht. destruct (header_placed_headers x h w w' Hw Hx Hh HP Ht) as [E1 E2].
  destruct HP as (H1 & _). split; [by rewrite get_header_eq, E1|]. unfold iteritems. by rewrite !findall_tagged.
Qed.
Print Assumptions C55_header_set.

(** Other objects are refused, and nothing changes. *)
Theorem C55_header_kind (x : N) (h : wrapper) (w : node) : kind h <> "ListHeader"%string -> set_header x h w = (w, Err TypeError).
Proof. apply set_header_kind. Qed.
Print Assumptions C55_header_kind.

(** A header that contains the list is refused with ValueError, when the old header has been
    taken out already. *)
Theorem C55_header_cycle (x h : N) (w : node) : wfs w -> element x w -> element h w -> upwards w h x ->
  exists w', set_header x (Wr "ListHeader" h) w = (w', Err ValueError) /\
    match head (headers x w) with
    | Some old => placed x old (without old (children x w)) w w'
    | None => w' = w
    end.
Proof. apply set_header_cycle. Qed.
Print Assumptions C55_header_cycle.

(** After any sequence of assigned headers, appended and removed items the header is the one
    assigned last, and the items are those of a list on which the same was done. *)
Theorem C55_history (x : N) (ops : list list_op) (w : node) :
  wfs w -> element x w -> Forall (list_op_ok x w) ops ->
  let w' := run_list_ops x ops w in
  wfs w' /\ (forall y, element y w' <-> element y w) /\ (forall y, element y w -> data y w' = data y w) /\
  get_header x w' = last_header ops (get_header x w) /\
  iteritems x w' = foldl (fun l o => items_after o l) (iteritems x w) ops.
Proof. apply list_history. Qed.
Print Assumptions C55_history.

(** ** Texts *)
(** A header or an item made with a text has this text, in one paragraph or none. *)
Theorem C55_part_text `{U : Unicode} (tg : string) (t : pystr) :
  tg = "text:list-header"%string \/ tg = "text:list-item"%string ->
  plaintext (new_list_part tg t) = Ok t /\ e_tag (new_list_part tg t) = tg /\ e_attrs (new_list_part tg t) = ∅ /\
  length (findall "text:p" (new_list_part tg t)) = length (kids (new_list_part tg t)) /\
  length (kids (new_list_part tg t)) = (if decide (t = []) then 0 else 1).
Proof.
  intros Ht. split_and!.
  - apply new_list_part_plaintext. unfold list_tags. destruct Ht as [->| ->]; [left|right; left].
  - by destruct t.
  - by destruct t.
  - destruct t as [|c t]; [done|]. unfold new_list_part, e_append, new_elem, findall. cbn [on_kids kids app].
    rewrite filter_cons_True by apply new_span_tag. done.
  - by destruct t.
Qed.
Print Assumptions C55_part_text.

(** A list filled with items made from texts gives the texts back in order, behind the items it
    had, whatever else is in the list. *)
Theorem C55_list_texts `{U : Unicode} (e : elem) (old ts : list pystr) :
  rmap plaintext (findall "text:list-item" e) = Ok old ->
  let e' := foldl (fun e t => e_append (new_list_part "text:list-item" t) e) e ts in
  rmap plaintext (findall "text:list-item" e') = Ok (old ++ ts) /\
  find_child "text:list-header" e' = find_child "text:list-header" e.
Proof.
  intros Ho. cbv zeta.
  destruct (list_texts "text:list-item" ts e) as [H1 H2]; [right; left|]. split.
  - rewrite H1. pose proof (rmap_texts "text:list-item" ts ltac:(right; left)) as Ht.
    clear H1 H2. revert old Ho. induction (findall "text:list-item" e) as [|k l IH]; intros old; cbn [rmap app].
    + intros [= <-]. done.
    + destruct (plaintext k) as [p|x]; [|done]. cbn. destruct (rmap plaintext l) as [ps|x] eqn:El; [|done].
      cbn. intros [= <-]. by rewrite (IH ps).
  - unfold find_child. by rewrite H2.
Qed.
Print Assumptions C55_list_texts.

(** ** Constructors *)
Theorem C55_constructors (style name : pystr) :
  (forall k, e_get k (new_list style) = if decide (k = "text:style-name"%string) then given style else None) /\
  (forall k, e_get k (new_section name style) =
     if decide (k = "text:style-name"%string) then given style
     else if decide (k = "text:name"%string) then given name else None) /\
  e_tag (new_list style) = "text:list"%string /\ kids (new_list style) = [] /\
  e_tag (new_section name style) = "text:section"%string /\ kids (new_section name style) = [].
Proof.
  split_and!.
  - intros k. destruct style as [|c s]; [by case_decide|]. unfold e_get, new_list, e_attrs, e_set, new_elem.
    cbn [on_root root attrs nd_set_attrs given]. case_decide as E; [subst k; by rewrite lookup_insert|by rewrite lookup_insert_ne].
  - intros k. unfold e_get, new_section, e_attrs, e_set, new_elem.
    destruct style as [|c s], name as [|c' n]; cbn [on_root root attrs nd_set_attrs given];
      repeat case_decide; subst;
      repeat (first [rewrite lookup_insert|rewrite lookup_insert_ne by done|rewrite lookup_empty]); done.
  - by destruct style.
  - by destruct style.
  - by destruct style, name.
  - by destruct style, name.
Qed.
Print Assumptions C55_constructors.

(** A numbered paragraph takes None or a wrapper, whose element becomes its only child. *)
Theorem C55_numbered_new `{F : PyFloat} (v : pyval) :
  (exists e, new_numbered v = Ok e /\ root e = Nd "text:numbered-paragraph" ∅ None None /\
     kids e = match v with VWrap p => [p] | _ => [] end /\ (v = VNone \/ exists p, v = VWrap p)) \/
  (new_numbered v = Err TypeError /\ v <> VNone /\ forall p, v <> VWrap p).
Proof. destruct v; try (by right); left; eexists; split; [done| |done|]; (split_and!; [done|done|eauto]). Qed.
Print Assumptions C55_numbered_new.

(** content is the first heading, else the first paragraph, else a new empty paragraph at the
    end; apart from that nothing changes, and asking again gives the same child. *)
Theorem C55_numbered_content (e : elem) :
  exists e' i k, numbered_content e = (e', Ok (Some i)) /\ root e' = root e /\ kids e' !! i = Some k /\
    numbered_content e' = (e', Ok (Some i)) /\
    ((e' = e /\ e_tag k = "text:h"%string /\ Forall (fun c => e_tag c <> "text:h"%string) (take i (kids e))) \/
     (Forall (fun c => e_tag c <> "text:h"%string) (kids e) /\ e' = e /\ e_tag k = "text:p"%string /\
        Forall (fun c => e_tag c <> "text:p"%string) (take i (kids e))) \/
     (Forall (fun c => e_tag c <> "text:h"%string /\ e_tag c <> "text:p"%string) (kids e) /\
        k = new_elem "text:p" /\ kids e' = kids e ++ [k])).
Proof.
  rewrite numbered_content_eq.
  destruct (position "text:h" e) as [i|] eqn:Eh; [|destruct (position "text:p" e) as [i|] eqn:Ep].
  - pose proof Eh as Eh'. apply list_find_position in Eh' as [(k & Hk & Ht) Hb].
    exists e, i, k. split_and!; try done; [by rewrite numbered_content_eq, Eh|]. left. split_and!; try done.
    apply Forall_lookup. intros j c Hc. apply lookup_take_Some in Hc as [Hc Hj]. by apply (Hb j).
  - pose proof Ep as Ep'. apply list_find_position in Ep' as [(k & Hk & Ht) Hb]. pose proof Eh as Eh'. apply position_None in Eh'.
    exists e, i, k. split_and!; try done; [by rewrite numbered_content_eq, Eh, Ep|]. right; left. split_and!; try done.
    apply Forall_lookup. intros j c Hc. apply lookup_take_Some in Hc as [Hc Hj]. by apply (Hb j).
  - apply position_None in Eh, Ep. exists (e_append (new_elem "text:p") e), (length (kids e)), (new_elem "text:p").
    assert (El : kids (e_append (new_elem "text:p") e) = kids e ++ [new_elem "text:p"]) by (by destruct e).
    split_and!; [done|by destruct e| | |].
    + rewrite El, lookup_app_r by lia. by rewrite Nat.sub_diag.
    + rewrite numbered_content_eq.
      assert (position "text:h" (e_append (new_elem "text:p") e) = None) as ->.
      { apply position_None. rewrite El. apply Forall_app. split; [done|]. by repeat constructor. }
      assert (position "text:p" (e_append (new_elem "text:p") e) = Some (length (kids e))) as ->; [|done].
      apply list_find_position. rewrite El. split.
      * exists (new_elem "text:p"). split; [|done]. rewrite lookup_app_r by lia. by rewrite Nat.sub_diag.
      * intros j k Hj Hk. rewrite lookup_app_l in Hk by done. rewrite Forall_lookup in Ep. by apply (Ep j).
    + right; right. split_and!; [|done|done]. apply Forall_and. done.
Qed.
Print Assumptions C55_numbered_content.

(** ** Cases *)
Definition n55 (x : N) (t : string) (ks : list node) : node := T (L x (Nd t ∅ None None)) ks.
(** a list (1) with an item (2), two headers (3, 4) and an item (5) that holds a header (6); a
    header (7) that holds a list (8) with a header (9); an item (10) *)
Definition w55 : node :=
  n55 0 "" [n55 1 "text:list" [n55 2 "text:list-item" []; n55 3 "text:list-header" []; n55 4 "text:list-header" [];
                               n55 5 "text:list-item" [n55 6 "text:list-header" []]];
            n55 7 "text:list-header" [n55 8 "text:list" [n55 9 "text:list-header" []]]; n55 10 "text:list-item" []].
Lemma w55_wfs : wfs w55.
Proof. unfold wfs. dec_vm. Qed.
Lemma w55_element x : x ∈ [1; 2; 3; 4; 5; 6; 7; 8; 9; 10]%N -> element x w55.
Proof. intros H. unfold element. by change (flat_map ids (kids w55)) with [1; 2; 3; 4; 5; 6; 7; 8; 9; 10]%N. Qed.
Lemma w55_up (c x : N) : c ∈ [1; 2; 3; 4; 5; 6; 7; 8; 9; 10]%N -> above c x w55 = false -> ~ upwards w55 c x.
Proof. intros Hc Ha Hu. apply (above_spec w55 c x w55_wfs) in Hu; [congruence|by apply w55_element]. Qed.
Ltac el55 := apply w55_element; dec_vm.
Ltac up55 := apply w55_up; [dec_vm|by_vm].

Example C55_read_case : wfs w55 /\ get_header 1 w55 = Some 3%N /\ iteritems 1 w55 = [2; 5]%N.
Proof. split_and!; [apply w55_wfs|by_vm|by_vm]. Qed.
Example C55_header_set_case :
  wfs w55 /\ element 1 w55 /\ element 6 w55 /\ ~ upwards w55 6 1 /\ tag <$> data 6 w55 = Some "text:list-header"%string /\
  children 1 (set_header 1 (Wr "ListHeader" 6) w55).1 = [6; 2; 4; 5]%N.
Proof. split_and!; [apply w55_wfs|el55|el55|up55|by_vm|by_vm]. Qed.
Example C55_header_kind_case : kind (Wr "ListItem" 10) <> "ListHeader"%string.
Proof. done. Qed.
Example C55_header_cycle_case : wfs w55 /\ element 8 w55 /\ element 7 w55 /\ upwards w55 7 8 /\ head (headers 8 w55) = Some 9%N.
Proof. split_and!; [apply w55_wfs|el55|el55| |by_vm]. apply (above_spec w55 7 8 w55_wfs); [el55|by_vm]. Qed.
Definition ops55 : list list_op := [LHeader 7; LAppend 10; LRemove 2; LAppend 5; LHeader 6; LRemove 2].
Example C55_history_case :
  wfs w55 /\ element 1 w55 /\ Forall (list_op_ok 1 w55) ops55 /\
  get_header 1 (run_list_ops 1 ops55 w55) = Some 6%N /\ iteritems 1 (run_list_ops 1 ops55 w55) = [10; 5]%N /\
  children 1 (run_list_ops 1 ops55 w55) = [6; 4; 10; 5]%N.
Proof.
  split_and!; [apply w55_wfs|el55| |by_vm|by_vm|by_vm].
  repeat constructor; first [el55|up55|by_vm].
Qed.
Example C55_part_text_case : plaintext (U := ascii_unicode) (new_list_part "text:list-item" (lit "a  b")) = Ok (lit "a  b").
Proof. by_vm. Qed.
Definition list55 : elem :=
  e_append (new_list_part "text:list-item" (lit "one")) (e_append (new_list_part "text:list-header" (lit "h")) (new_list [])).
Example C55_list_texts_case :
  rmap (plaintext (U := ascii_unicode)) (findall "text:list-item" list55) = Ok [lit "one"] /\
  find_child "text:list-header" list55 <> None.
Proof. split; [by_vm|done]. Qed.
Example C55_constructors_case : e_get "text:name" (new_section (lit "n") []) = Some (lit "n") /\ given [] = None.
Proof. done. Qed.
Example C55_numbered_new_case : new_numbered (VInt (F := int_float) 1) = Err TypeError.
Proof. done. Qed.
Example C55_numbered_content_case :
  (numbered_content (T (Nd "text:numbered-paragraph" ∅ None None) [new_elem "text:p"; new_elem "text:h"])).2 = Ok (Some 1) /\
  (numbered_content (T (Nd "text:numbered-paragraph" ∅ None None) [new_elem "text:span"])).2 = Ok (Some 1).
Proof. split; by_vm. Qed.

(** An assignment that raises is not without effect: the old header is gone. *)
Theorem C55_header_counterexample :
  exists (x h : N) (w w' : node), wfs w /\ element x w /\ element h w /\
    set_header x (Wr "ListHeader" h) w = (w', Err ValueError) /\ get_header x w = Some 9%N /\ get_header x w' = None.
Proof.
  exists 8%N, 7%N, w55, (set_header 8 (Wr "ListHeader" 7) w55).1.
  split_and!; [apply w55_wfs|el55|el55|apply pair_by; by_vm|by_vm|by_vm].
Qed.
Print Assumptions C55_header_counterexample.
(** Asking a numbered paragraph for its content adds a paragraph when the child is something
    else. *)
Theorem C55_numbered_counterexample `{F : PyFloat} :
  exists (p e e' : elem) (i : nat), new_numbered (VWrap p) = Ok e /\ numbered_content e = (e', Ok (Some i)) /\ i <> 0 /\ e' <> e.
Proof. exists (new_elem "text:span"). eexists _, _, _. split_and!; [done|done|done|done]. Qed.
Print Assumptions C55_numbered_counterexample.
