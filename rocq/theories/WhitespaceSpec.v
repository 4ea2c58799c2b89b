(** Vocabulary for the text properties, independent of the encoder. *)
From Verif Require Export Whitespace.

(** No two neighbouring blanks. *)
Definition no_double (s : pystr) : Prop :=
  forall i, ~ (s !! i = Some 32%N /\ s !! S i = Some 32%N).

(** A string that may stand as raw character data. *)
Definition ok_text (s : pystr) : Prop :=
  s <> [] /\ 9%N ∉ s /\ 10%N ∉ s /\ no_double s.

Definition is_spaces (i : item) : Prop := exists n, (1 <= n)%Z /\ i = inr (Spaces n).

(** Items allowed in an encoded text. *)
Definition ok_item (i : item) : Prop :=
  match i with
  | inl s => ok_text s
  | inr _ => i = inr Tabulator \/ i = inr LineBreak \/ is_spaces i
  end.

(** Neighbours allowed in an encoded text: never two strings; a space element only
    after a string that ends with a blank; a string after a space element does not
    start with a blank. *)
Definition ok_adj (x y : item) : Prop :=
  ~ ((exists s, x = inl s) /\ (exists t, y = inl t)) /\
  (is_spaces y -> exists s, x = inl s /\ last s = Some 32%N) /\
  (forall t, is_spaces x -> y = inl t -> head t <> Some 32%N).

Definition canonical (l : list item) : Prop :=
  Forall ok_item l /\
  (forall i x y, l !! i = Some x -> l !! S i = Some y -> ok_adj x y) /\
  (forall x, head l = Some x -> ~ is_spaces x).

(** ** The consumer: ODF 1.2 part 1, 6.1.2, white-space processing.
    Raw blanks (and raw tab, LF, CR, which count as blanks) at the start and at the
    end of the paragraph are dropped, runs of raw blanks become one; whitespace
    elements stand for themselves and end a run. *)
Inductive atom := AC (c : N) | AE (s : pystr).

Definition raw_blank (c : N) : bool :=
  bool_decide (c = 32 \/ c = 9 \/ c = 10 \/ c = 13)%N.

Inductive cstate := Start | Pending | Normal.

Fixpoint collapse (st : cstate) (l : list atom) : pystr :=
  match l with
  | [] => []
  | AC c :: r =>
      if raw_blank c then
        collapse (match st with Start => Start | _ => Pending end) r
      else (match st with Pending => [32%N] | _ => [] end) ++ c :: collapse Normal r
  | AE s :: r =>
      (match st with Pending => [32%N] | _ => [] end) ++ s ++ collapse Normal r
  end.

(** What the whitespace elements mean to the consumer. *)
Definition elem_means `{Unicode} (e : elem) : pystr :=
  if decide (e_tag e = "text:tab") then [9%N]
  else if decide (e_tag e = "text:line-break") then [10%N]
  else if decide (e_tag e = "text:s") then
    match e_get "text:c" e with
    | None => [32%N]
    | Some c => match py_int c with Ok n => replicate (Z.to_nat n) 32%N | Err _ => [] end
    end
  else [].

Definition atoms `{Unicode} (l : list item) : list atom :=
  flat_map (fun i => match i with inl s => map AC s | inr e => [AE (elem_means e)] end) l.

Definition rendered `{Unicode} (l : list item) : pystr := collapse Start (atoms l).

(** Strings a consumer can show unchanged: no carriage return, no leading blank, not
    ending in exactly one blank. *)
Definition renderable (s : pystr) : Prop :=
  13%N ∉ s /\ head s <> Some 32%N /\
  ~ (exists p, s = p ++ [32%N] /\ last p <> Some 32%N).

(** ** Text trees: every node that contributes through the span rule, whitespace
    elements with a readable non-negative count, or any other element (which
    contributes its own text only); no list items and no cells. *)
Inductive text_tree `{Unicode} : elem -> Prop :=
  | TT_span a ks : tag a ∈ ["text:span"; "text:p"; "text:h"; "text:a"] ->
      Forall text_tree ks -> text_tree (T a ks)
  | TT_spaces a ks : tag a = "text:s" ->
      (forall c, attrs a !! "text:c" = Some c -> exists n, (0 <= n)%Z /\ py_int c = Ok n) ->
      text_tree (T a ks)
  | TT_other a ks : tag a <> "text:s" ->
      tag a ∉ ["text:list-header"; "text:list-item"; "table:table-cell"; "table:covered-table-cell"] ->
      (tag a ∉ ["text:span"; "text:p"; "text:h"; "text:a"]) ->
      text_tree (T a ks).

(** The mixed content of an element as a list of strings and elements. *)
Definition opt_str (s : option pystr) : list item :=
  match s with Some (c :: r) => [inl (c :: r)] | _ => [] end.
Definition content_items (e : elem) : list item :=
  opt_str (e_text e) ++
  flat_map (fun k => inr (e_set_tail None k) :: opt_str (e_tail k)) (kids e).
