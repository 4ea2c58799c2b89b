(** Theorems C22-C26: cell values. *)
From Verif Require Import CellsProofs.

(** ** C22 *)

(** Whatever the cell held before: an accepted value is read back, with its type. *)
Theorem C22_set_value `{Unicode} `{PyFloat} :
  forall (e : elem) (v : pyval) (vt cur : option pystr) (r : pyval),
    acceptable v vt cur -> read_back (type_of v vt cur) v r ->
    exists e', set_value v vt cur e = (e', Ok tt) /\ value_type e' = Some (type_of v vt cur) /\ value e' = Ok r.
Proof. intros e v vt cur r. apply set_value_reads. Qed.
Print Assumptions C22_set_value.

(** Every accepted number, boolean, date and string can be read back: [read_back] is not
    empty for the types that values get by default, nor for strings in any type. *)
Theorem C22_defaults `{Unicode} `{PyFloat} :
  forall (e : elem), 
    (forall f, exists e', set_value (VFloat f) None None e = (e', Ok tt) /\ value_type e' = Some (lit "float") /\ value e' = Ok (VFloat f)) /\
    (forall z, exists e' f, f_parse (show_Z z) = Some f /\ set_value (VInt z) None None e = (e', Ok tt) /\ value_type e' = Some (lit "float") /\ value e' = Ok (VFloat f)) /\
    (forall b, exists e', set_value (VBool b) None None e = (e', Ok tt) /\ value_type e' = Some (lit "boolean") /\ value e' = Ok (VBool b)) /\
    (forall s, exists e', set_value (VStr s) None None e = (e', Ok tt) /\ value_type e' = Some (lit "string") /\ value e' = Ok (VStr s)) /\
    (forall f c, exists e', set_value (VFloat f) None (Some c) e = (e', Ok tt) /\ value_type e' = Some (lit "currency") /\ value e' = Ok (VFloat f)).
Proof.
  assert (Hn : lit "float" ∈ [lit "float"; lit "percentage"; lit "currency"]) by (apply (bool_decide_unpack _); vm_compute; exact I).
  assert (Hc : lit "currency" ∈ [lit "float"; lit "percentage"; lit "currency"]) by (apply (bool_decide_unpack _); vm_compute; exact I).
  assert (Hv : forall t, t ∈ [lit "float"; lit "percentage"; lit "currency"] \/ t = lit "boolean" \/ t = lit "string" -> t ∈ VALID_VALUE_TYPES).
  { intros t. rewrite !elem_of_cons, elem_of_nil. intros [[->|[->|[->|[]]]]|[->| ->]]; apply (bool_decide_unpack _); vm_compute; exact I. }
  intros e. split_and!.
  - intros f. apply (C22_set_value e (VFloat f) None None (VFloat f)); [|by apply RB_float].
    split; [apply Hv; by left|]. cbn. intros E. symmetry in E. by apply f_repr_ne in E.
  - intros z. destruct (f_parse_int z) as [f Hf].
    destruct (C22_set_value e (VInt z) None None (VFloat f)) as (e' & E); [|by apply RB_int|by exists e', f].
    split; [apply Hv; by left|]. cbn. intros E. symmetry in E. by apply show_Z_ne in E.
  - intros b. apply (C22_set_value e (VBool b) None None (VBool b)); [|apply (RB_boolean (VBool b))].
    split; [apply Hv; by right; left|]. by right.
  - intros s. apply (C22_set_value e (VStr s) None None (VStr s)); [|by apply RB_string].
    split; [apply Hv; by right; right|]. by left.
  - intros f c. apply (C22_set_value e (VFloat f) None (Some c) (VFloat f)); [|by apply RB_float].
    split; [apply Hv; by left|]. cbn. intros E. symmetry in E. by apply f_repr_ne in E.
Qed.
Print Assumptions C22_defaults.

(** Which calls succeed does not depend on the cell. *)
Theorem C22_accepted `{Unicode} `{PyFloat} :
  forall (e : elem) (v : pyval) (vt cur : option pystr), (set_value v vt cur e).2 = Ok tt <-> acceptable v vt cur.
Proof. intros e v vt cur. destruct (set_value_outcome v vt cur e); cbn; split; done. Qed.
Print Assumptions C22_accepted.

(** The rest of the cell: tag, text, tail and all attributes that do not describe the
    value stay.  The old content goes. *)
Theorem C22_frame `{Unicode} `{PyFloat} :
  forall (e e' : elem) (v : pyval) (vt cur : option pystr), set_value v vt cur e = (e', Ok tt) ->
    e_tag e' = e_tag e /\ e_text e' = e_text e /\ e_tail e' = e_tail e /\ length (kids e') <= 1 /\
    forall k, k ∉ ["office:value-type"; "office:currency"; "office:string-value"; "office:value";
                   "office:date-value"; "office:time-value"; "office:boolean-value"] -> e_get k e' = e_get k e.
Proof.
  intros e e' v vt cur E. assert (Hk : forall k, k ∉ ["office:value-type"; "office:currency"; "office:string-value"; "office:value";
                   "office:date-value"; "office:time-value"; "office:boolean-value"] -> k <> "office:value-type" /\ k <> "office:currency" /\ k ∉ VKEYS).
  { intros k. unfold VKEYS. rewrite !elem_of_cons, elem_of_nil. tauto. }
  destruct (set_value_outcome v vt cur e) as [p|k s t Hw Ht Hv Hs Hk'| |]; [| |done|done]; injection E as <-.
  - destruct (with_text_shell p e) as (? & ? & ?). split_and!; try done; [by rewrite with_text_kids|].
    intros k (? & ? & ?)%Hk. by apply with_text_other.
  - destruct (with_attr_shell k s t cur e) as (? & ? & ?). split_and!; try done; [rewrite with_attr_kids; cbn; lia|].
    intros k' (? & ? & ?)%Hk. apply with_attr_other; try done. by eapply TVM_keys.
Qed.
Print Assumptions C22_frame.

(** The constructor: the same as setting the value of an empty cell that has the style. *)
Theorem C22_constructor `{Unicode} `{PyFloat} :
  forall tg v vt cur (style : pystr) r, acceptable v vt cur -> read_back (type_of v vt cur) v r ->
    exists e, new_cell tg v vt cur (Some style) = (e, Ok tt) /\ e_tag e = tg /\ e_get "table:style-name" e = Some style /\
      value_type e = Some (type_of v vt cur) /\ value e = Ok r.
Proof.
  intros tg v vt cur style r Ha Hr.
  destruct (C22_set_value (e_set "table:style-name" style (new_elem tg)) v vt cur r Ha Hr) as (e & E & E1 & E2).
  exists e. destruct (C22_frame _ _ _ _ _ E) as (F1 & _ & _ & _ & F2). split_and!; try done.
  - unfold new_cell. by destruct v.
  - rewrite F2 by (apply (bool_decide_unpack _); vm_compute; exact I). apply get_set.
Qed.
Print Assumptions C22_constructor.

(** A cell as it comes from a file: what is read depends on the type and on one attribute only
    (strings are read from the text, C24). *)
Theorem C22_read `{Unicode} `{PyFloat} :
  forall (e : elem) (v : pystr),
    (e_get "office:value-type" e = None -> value e = Ok VNone) /\
    (e_get "office:value-type" e = Some (lit "boolean") -> e_get "office:boolean-value" e = Some v ->
       value e = Ok (VBool true) /\ v = lit "true" \/ value e = Ok (VBool false) /\ v <> lit "true") /\
    (forall t, t ∈ ["float"; "percentage"; "currency"]%string -> e_get "office:value-type" e = Some (lit t) -> e_get "office:value" e = Some v ->
       (forall f, f_parse v = Some f -> value e = Ok (VFloat f)) /\ (f_parse v = None -> value e = Err ValueError)) /\
    (e_get "office:value-type" e = Some (lit "date") -> e_get "office:date-value" e = Some v -> value e = Ok (VStr v)) /\
    (e_get "office:value-type" e = Some (lit "time") -> e_get "office:time-value" e = Some v -> value e = Ok (VStr v)) /\
    (forall t k, (t, k) ∈ [("float", "office:value"); ("percentage", "office:value"); ("currency", "office:value"); ("date", "office:date-value");
                           ("time", "office:time-value"); ("boolean", "office:boolean-value")]%string ->
       e_get "office:value-type" e = Some (lit t) -> e_get k e = None -> value e = Ok VNone) /\
    (forall t, t ∉ map lit ["float"; "percentage"; "currency"; "date"; "time"; "boolean"; "string"]%string -> e_get "office:value-type" e = Some t -> value e = Err KeyError).
Proof.
  intros e v. unfold value, value_type. split; [by intros ->|]. split.
  { intros -> E. rewrite decide_False by dec_vm. replace (TYPE_VALUE_MAP (lit "boolean")) with (Some "office:boolean-value"%string) by by_vm.
    rewrite E, decide_False by dec_vm. rewrite decide_True by done. case_bool_decide; [by left|by right]. }
  split.
  { intros t Ht -> E. assert (H1 : lit t <> lit "string" /\ TYPE_VALUE_MAP (lit t) = Some "office:value"%string /\ lit t ∈ NUMERIC_TYPES).
    { apply elem_of_cons in Ht as [->|Ht]; [split; [dec_vm|split; [by_vm|dec_vm]]|]. apply elem_of_cons in Ht as [->|Ht]; [split; [dec_vm|split; [by_vm|dec_vm]]|].
      apply elem_of_list_singleton in Ht as ->. split; [dec_vm|split; [by_vm|dec_vm]]. }
    destruct H1 as (H1 & H2 & H3). rewrite decide_False, H2, E, decide_True by done. split; [by intros f ->|by intros ->]. }
  split. { intros -> E. rewrite decide_False by dec_vm. replace (TYPE_VALUE_MAP (lit "date")) with (Some "office:date-value"%string) by by_vm. rewrite E, decide_False by dec_vm. by rewrite decide_False by dec_vm. }
  split. { intros -> E. rewrite decide_False by dec_vm. replace (TYPE_VALUE_MAP (lit "time")) with (Some "office:time-value"%string) by by_vm. rewrite E, decide_False by dec_vm. by rewrite decide_False by dec_vm. }
  split.
  { intros t k Htk -> E. assert (H1 : lit t <> lit "string" /\ TYPE_VALUE_MAP (lit t) = Some k).
    { repeat (apply elem_of_cons in Htk as [[= -> ->]|Htk]; [split; [dec_vm|by_vm]|]). by apply elem_of_nil in Htk. }
    destruct H1 as [H1 H2]. by rewrite decide_False, H2, E by done. }
  intros t Ht ->. cbn [map] in Ht. rewrite !not_elem_of_cons in Ht. destruct Ht as (T1 & T2 & T3 & T4 & T5 & T6 & T7 & _).
  rewrite decide_False by done. unfold TYPE_VALUE_MAP. rewrite decide_False by done. rewrite decide_False; [by rewrite !decide_False by done|].
  unfold NUMERIC_TYPES. rewrite !elem_of_cons, elem_of_nil. tauto.
Qed.
Print Assumptions C22_read.
Example C22_read_case : let e := T (Nd "table:table-cell" (<["office:boolean-value"%string := lit "1"]> {["office:value-type"%string := lit "boolean"]}) None None) [] : elem in
  e_get "office:value-type" e = Some (lit "boolean") /\ e_get "office:boolean-value" e = Some (lit "1") /\ lit "1" <> lit "true".
Proof. split; [by_vm|]. split; [by_vm|dec_vm]. Qed.

(** a cell with a date and a note, then a currency value *)
Definition dated : elem :=
  T (Nd "table:table-cell" {["office:value-type" := lit "date"; "office:date-value" := lit "2011-01-03"]} None None)
    [new_span "text:p" (lit "3. Jan") []].
Example C22_case : acceptable (U := ascii_unicode) (F := int_float) (VInt 12) None (Some (lit "EUR")) /\
  read_back (U := ascii_unicode) (F := int_float) (type_of (F := int_float) (VInt 12) None (Some (lit "EUR"))) (VInt 12) (VFloat (F := int_float) 12%Z) /\
  value (U := ascii_unicode) (F := int_float) dated = Ok (VStr (lit "2011-01-03")).
Proof.
  split_and!.
  - split; [apply (bool_decide_unpack _); vm_compute; exact I|]. intros E. vm_compute in E. done.
  - apply RB_int; [apply (bool_decide_unpack _); vm_compute; exact I|]. vm_compute. done.
  - by_vm.
Qed.

(** [True] as a number is stored as text that cannot be read. *)
Theorem C22_true_as_float_counterexample :
  exists (U : Unicode) (F : PyFloat) (e e' : elem), set_value (VBool true) (Some (lit "float")) None e = (e', Ok tt) /\ value e' = Err ValueError.
Proof.
  exists ascii_unicode, int_float, (new_elem "table:table-cell"). eexists. split; [apply pair_by; by_vm|]. by_vm.
Qed.
Print Assumptions C22_true_as_float_counterexample.

(** ** C23 *)
Lemma currency_after `{Unicode} `{PyFloat} e c : currency (run_call e c) = cur_after (currency e) c.
Proof.
  destruct c as [v vt cur]. unfold run_call, cur_after. cbn [c_val c_type c_cur].
  assert (Hck : "office:currency" ∉ VKEYS) by (apply (bool_decide_unpack _); vm_compute; exact I).
  assert (Hcr : forall v x s, written v [] -> match v with VNone | VWrap _ => currency e | VStr [] | VObj [] _ => currency e | _ => Some (x :: s) end = currency e).
  { intros v0 x s. destruct v0 as [|[]|z|f|[]|[]|]; cbn; try done; intros E; symmetry in E; [by apply show_Z_ne in E|by apply f_repr_ne in E]. }
  destruct (set_value_outcome v vt cur e) as [p Ht Hp Hw1 Hw2 Ha|k s t Hw Ht Hv Hs Hk Hne Hval Ha|Hw Ht _ _ He _|x Ha Hx Hx2]; cbn [fst].
  - unfold currency. rewrite with_text_other by done. destruct v; destruct cur as [[|]|]; try done; by vm_compute in Ht.
  - destruct cur as [[|x c]|]; unfold currency, with_attr; cbn [truthy andb].
    + rewrite !get_set_ne, cleared_get by (done || apply TVM_keys in Hk; set_solver). by destruct v.
    + assert (Et : t = lit "currency") by (subst t; destruct v; try done; destruct Hw; by eexists).
      rewrite bool_decide_eq_true_2 by done. rewrite get_set. cbn [str_of default]. rewrite decide_False in Hval by (by rewrite Et).
      destruct v as [|[]|z|f|[]|[]|]; try done; cbn in Hval; by rewrite Hval in Hne.
    + rewrite !get_set_ne, cleared_get by (done || apply TVM_keys in Hk; set_solver). by destruct v.
  - unfold currency. rewrite cleared_get by done. fold (currency e). destruct cur as [[|x c]|]; [by destruct v| |by destruct v].
    rewrite <- (Hcr v x c He) at 1. by destruct v as [| | | |[]|[]|].
  - destruct cur as [[|y c]|]; [by destruct v| |by destruct v].
    assert (Hcv : lit "currency" ∈ VALID_VALUE_TYPES) by (apply (bool_decide_unpack _); vm_compute; exact I).
    destruct v as [|[]|z|f|[]|[]|p]; try done; destruct Ha; (split; [exact Hcv|]); cbn; intros E; symmetry in E; try done;
      [by apply show_Z_ne in E|by apply f_repr_ne in E].
Qed.

(** After any history of [set_value] calls, the currency is the one most recently stored:
    by a call with a non-empty currency and a value that is neither None, empty text nor a
    wrapper object.  Calls without currency do not touch it. *)
Theorem C23_last_stored `{Unicode} `{PyFloat} :
  forall (cs : list call) (e : elem), currency (foldl run_call e cs) = foldl cur_after (currency e) cs.
Proof. induction cs as [|c cs IH]; intros e; [done|]. cbn. by rewrite IH, currency_after. Qed.
Print Assumptions C23_last_stored.

(** In particular a cell that never got a currency has none, and one set to a currency
    value has that currency. *)
Theorem C23_currency_value `{Unicode} `{PyFloat} :
  forall (e e' : elem) (v : pyval) (vt : option pystr) (cur : pystr), cur <> [] -> (forall p, v <> VWrap p) ->
    set_value v vt (Some cur) e = (e', Ok tt) -> currency e' = Some cur /\ value_type e' = Some (lit "currency").
Proof.
  intros e e' v vt cur Hc Hw E.
  assert (Ha : acceptable v vt (Some cur)) by (apply (C22_accepted e); by rewrite E).
  pose proof (currency_after e (Call v vt (Some cur))) as Hcur. unfold run_call in Hcur. cbn [c_val c_type c_cur] in Hcur. rewrite E in Hcur. cbn [fst] in Hcur.
  assert (Hty : type_of v vt (Some cur) = lit "currency") by (destruct v as [| | | | | |p]; try done; by destruct (Hw p)).
  split.
  - rewrite Hcur. unfold cur_after. cbn [c_val c_cur]. destruct cur as [|x c]; [done|].
    destruct v as [|[]|z|f|[]|[]|p]; try done; try (by destruct (Hw p));
      destruct Ha as [_ Ha]; destruct (Ha eq_refl) as [Hx|Hx]; by vm_compute in Hx.
  - destruct (set_value_outcome v vt (Some cur) e) as [p Ht|k s t Hwr Ht Hv Hs Hk| |]; [| |done|done]; injection E as <-.
    + by rewrite Hty in Ht.
    + rewrite with_attr_type by (by eapply TVM_keys). by rewrite <- Ht, Hty.
Qed.
Print Assumptions C23_currency_value.
Theorem C23_never_set `{Unicode} `{PyFloat} :
  forall (cs : list call) (e : elem), currency e = None -> Forall (fun c => c_cur c = None \/ c_cur c = Some []) cs ->
    currency (foldl run_call e cs) = None.
Proof.
  intros cs e He Hcs. rewrite C23_last_stored, He. induction Hcs as [|c cs Hc _ IH]; [done|]. cbn.
  assert (Ec : cur_after None c = None) by (unfold cur_after; destruct Hc as [-> | ->]; by destruct (c_val c)). by rewrite Ec.
Qed.
Print Assumptions C23_never_set.
Example C23_case : let cs := [Call (F := int_float) (VInt 5) None (Some (lit "EUR")); Call (VStr []) None (Some (lit "USD")); Call (VInt 7) None None] in
  currency (foldl (run_call (F := int_float)) (new_elem "table:table-cell") cs) = Some (lit "EUR").
Proof. vm_compute. done. Qed.

(** The currency outlives a change of type. *)
Theorem C23_stale_counterexample :
  exists (U : Unicode) (F : PyFloat) (e e1 e2 : elem),
    set_value (VInt 5) None (Some (lit "EUR")) e = (e1, Ok tt) /\ set_value (VStr (lit "x")) None None e1 = (e2, Ok tt) /\
    value_type e2 = Some (lit "string") /\ currency e2 = Some (lit "EUR").
Proof.
  exists ascii_unicode, int_float, (new_elem "table:table-cell"). eexists _, _. split; [vm_compute; reflexivity|].
  split; [vm_compute; reflexivity|]. split; vm_compute; done.
Qed.
Print Assumptions C23_stale_counterexample.

(** ** C24 *)
Lemma replace_first_spec p l : (Forall (fun k => e_tag k <> "text:p") l /\ replace_first p l = l ++ [p]) \/
  (exists l1 k l2, l = l1 ++ k :: l2 /\ Forall (fun k => e_tag k <> "text:p") l1 /\ e_tag k = "text:p" /\ replace_first p l = l1 ++ p :: l2).
Proof.
  induction l as [|x l IH]; [by left|]. cbn. case_decide as Hx.
  - right. exists [], x, l. by split_and!; try constructor.
  - destruct IH as [[H1 ->]|(l1 & k & l2 & -> & H1 & H2 & ->)].
    + left. split; [by constructor|done].
    + right. exists (x :: l1), k, l2. split_and!; try done. by constructor.
Qed.

(** A cell with a value that is not text: the first paragraph becomes one with the given
    text, or one is appended.  Type, value and all attributes stay. *)
Theorem C24_display_form `{Unicode} `{PyFloat} :
  forall (e : elem) (t ty : pystr), value_type e = Some ty -> ty <> lit "string" ->
    exists e' p, set_display_form t e = (e', Ok tt) /\ e_tag p = "text:p" /\ plaintext p = Ok t /\
      root e' = root e /\ value e' = value e /\
      ((Forall (fun k => e_tag k <> "text:p") (kids e) /\ kids e' = kids e ++ [p]) \/
       (exists l1 k l2, kids e = l1 ++ k :: l2 /\ Forall (fun k => e_tag k <> "text:p") l1 /\ e_tag k = "text:p" /\
          kids e' = l1 ++ p :: l2)).
Proof.
  intros e t ty Ht Hs. unfold set_display_form. rewrite Ht, decide_False by done. eexists _, (new_span "text:p" t []). split; [done|].
  split_and!; [apply new_span_tag|apply para_plain|by destruct e| |destruct e; apply replace_first_spec].
  unfold value. replace (value_type (on_kids _ e)) with (value_type e) by (by destruct e). rewrite Ht. rewrite !decide_False by done.
  destruct (TYPE_VALUE_MAP ty); [|done]. by rewrite get_kids.
Qed.
Print Assumptions C24_display_form.

(** With at most one paragraph and no headings, plaintext() is then the text. *)
Theorem C24_plaintext `{Unicode} `{PyFloat} :
  forall (e e' : elem) (t : pystr), set_display_form t e = (e', Ok tt) ->
    (filter is_text (kids e) = [] \/ exists p, filter is_text (kids e) = [p] /\ e_tag p = "text:p") ->
    cell_plaintext e' = Ok t /\ exists p, filter is_text (kids e') = [p] /\ e_tag p = "text:p".
Proof.
  intros e e' t E Hk. assert (Hty : exists ty, value_type e = Some ty /\ ty <> lit "string").
  { unfold set_display_form in E. destruct (value_type e) as [ty|]; [|done]. case_decide; [done|]. by exists ty. }
  destruct Hty as (ty & H1 & H2). destruct (C24_display_form e t ty H1 H2) as (e1 & p & E1 & Hp & Hpt & _ & _ & Hc).
  rewrite E in E1. injection E1 as <-. rewrite cell_plaintext_eq.
  assert (Hip : is_text p) by (by left).
  assert (Hf : filter is_text (kids e') = [p]).
  { destruct Hc as [[Hn ->]|(l1 & k & l2 & Ek & Hn & Hkt & ->)].
    - rewrite filter_app, filter_cons_True, filter_nil by done. destruct Hk as [-> | (q & Eq & Hq)]; [done|].
      exfalso. assert (q ∈ kids e). { apply (elem_of_list_filter is_text). rewrite Eq. by left. }
      rewrite Forall_forall in Hn. by apply (Hn q).
    - rewrite Ek in Hk. rewrite filter_app, filter_cons_True in * by (done || by left). destruct Hk as [Hk|(q & Hk & _)].
      + by destruct (filter is_text l1).
      + destruct (filter is_text l1) as [|z zs]; [cbn in *; by injection Hk as _ ->|]. injection Hk as _ Hk. by destruct zs. }
  rewrite Hf. split; [cbn; by rewrite Hpt|]. by exists p.
Qed.
Print Assumptions C24_plaintext.

(** So for every value that is not text, set on any cell: the display forms assigned
    afterwards do not change value and type, and plaintext() is the last of them. *)
Theorem C24_value_then_forms `{Unicode} `{PyFloat} :
  forall (e e1 : elem) (v : pyval) (vt cur : option pystr) (ts : list pystr) (t : pystr),
    set_value v vt cur e = (e1, Ok tt) -> type_of v vt cur <> lit "string" ->
    let e2 := foldl (fun e t => (set_display_form t e).1) e1 (ts ++ [t]) in
    value e2 = value e1 /\ value_type e2 = value_type e1 /\ root e2 = root e1 /\ cell_plaintext e2 = Ok t.
Proof.
  intros e e1 v vt cur ts t E Hty e2.
  assert (Hv1 : value_type e1 = Some (type_of v vt cur) /\ filter is_text (kids e1) = []).
  { destruct (set_value_outcome v vt cur e) as [p Ht|k s t' Hw Ht Hv Hs Hk| |]; [done| |done|done]. injection E as <-.
    rewrite with_attr_kids. split; [|done]. rewrite with_attr_type by (by eapply TVM_keys). by rewrite Ht. }
  destruct Hv1 as [Ht1 Hk1].
  assert (Hind : forall ts, let e2 := foldl (fun e t => (set_display_form t e).1) e1 ts in
    value e2 = value e1 /\ value_type e2 = value_type e1 /\ root e2 = root e1 /\
    (filter is_text (kids e2) = [] \/ exists p, filter is_text (kids e2) = [p] /\ e_tag p = "text:p")).
  { induction ts0 as [|t0 ts0 IH] using rev_ind; intros e3; [split_and!; try done; by left|].
    subst e3. rewrite foldl_app. cbn. set (e4 := foldl _ e1 ts0) in *. destruct IH as (I1 & I2 & I3 & I4).
    rewrite Ht1 in I2. destruct (C24_display_form e4 t0 _ I2 Hty) as (e5 & p & E5 & _ & _ & R5 & V5 & _). rewrite E5. cbn [fst].
    destruct (C24_plaintext e4 e5 t0 E5 I4) as [_ Hp5]. split_and!; [congruence| |congruence|by right].
    rewrite <- I2 in Ht1. unfold value_type, e_get, e_attrs in *. by rewrite R5, I3. }
  subst e2. rewrite foldl_app. cbn. specialize (Hind ts). set (e4 := foldl _ e1 ts) in *. destruct Hind as (I1 & I2 & I3 & I4).
  pose proof I2 as I2'. rewrite Ht1 in I2'. destruct (C24_display_form e4 t _ I2' Hty) as (e5 & p & E5 & _ & _ & R5 & V5 & _). rewrite E5. cbn [fst].
  destruct (C24_plaintext e4 e5 t E5 I4) as [Hp4 Hp5]. split_and!; [congruence| |congruence|done].
  unfold value_type, e_get, e_attrs in *. by rewrite R5, I3.
Qed.
Print Assumptions C24_value_then_forms.

(** Refused for text and untyped cells, without change. *)
Theorem C24_refused `{Unicode} `{PyFloat} :
  forall (e : elem) (t : pystr), value_type e = None \/ value_type e = Some (lit "string") -> set_display_form t e = (e, Err TypeError).
Proof. intros e t [E|E]; unfold set_display_form; by rewrite E. Qed.
Print Assumptions C24_refused.
Example C24_case : value_type dated = Some (lit "date") /\ lit "date" <> lit "string" /\ exists p, filter is_text (kids dated) = [p] /\ e_tag p = "text:p".
Proof. split_and!; [vm_compute; done|vm_compute; done|]. eexists. split; vm_compute; reflexivity. Qed.

(** With two paragraphs only the first is replaced. *)
Theorem C24_two_paragraphs_counterexample :
  exists (U : Unicode) (e e' : elem) (t : pystr), set_display_form t e = (e', Ok tt) /\ cell_plaintext e' <> Ok t.
Proof.
  exists ascii_unicode, (e_append (new_span "text:p" (lit "b") []) dated). eexists _, (lit "x"). split; [reflexivity|]. vm_compute. done.
Qed.
Print Assumptions C24_two_paragraphs_counterexample.

(** ** C25 *)
Definition text_ends (e : elem) : Prop :=
  filter is_text (kids e) = [] \/ exists k, last (kids e) = Some k /\ is_text k.

Lemma rmap_app {A B} (f : A -> res B) l1 l2 : rmap f (l1 ++ l2) = do a <- rmap f l1; do b <- rmap f l2; Ok (a ++ b).
Proof.
  induction l1 as [|x l1 IH]; cbn; [by destruct (rmap f l2)|]. destruct (f x); cbn; [|done]. rewrite IH.
  destruct (rmap f l1); cbn; [|done]. by destruct (rmap f l2).
Qed.
Lemma rmap_length {A B} (f : A -> res B) l r : rmap f l = Ok r -> length r = length l.
Proof. revert r. induction l as [|x l IH]; cbn; intros r; [by intros [= <-]|]. destruct (f x); cbn; [|done]. destruct (rmap f l); cbn; [|done]. intros [= <-]. cbn. by rewrite (IH a0). Qed.
Lemma py_join_snoc sep l x : py_join sep (l ++ [x]) = match l with [] => x | _ => py_join sep l ++ sep ++ x end.
Proof.
  induction l as [|a l IH]; [done|]. cbn [app py_join]. destruct l as [|b l]; cbn [app] in *; [done|]. rewrite IH. 
  change (py_join sep (a :: b :: l)) with (a ++ sep ++ py_join sep (b :: l)). by rewrite !(assoc_L (++)).
Qed.
Lemma append_child_plain `{Unicode} k c s : is_text k -> plaintext k = Ok s -> forall t, plaintext c = Ok t -> e_tail c = None ->
  plaintext (e_append c k) = Ok (s ++ t).
Proof.
  intros Hk Hs t Hc Htl. destruct k as [a ks].
  assert (Ht : tag a ∈ span_tags).
  { unfold is_text, e_tag in Hk. cbn in Hk. destruct Hk as [-> | ->]; apply (bool_decide_unpack _); vm_compute; exact I. }
  cbn [e_append on_kids]. cbn [plaintext] in *. rewrite decide_True in * by done. rewrite rmap_app. cbn [rmap].
  destruct (rmap _ ks) as [l|]; cbn in *; [|done]. injection Hs as <-. rewrite Hc, Htl. cbn. rewrite concat_app. cbn. by rewrite !app_nil_r, (assoc_L (++)).
Qed.
Lemma new_span_tail `{Unicode} tg t st : e_tail (new_span tg t st) = None.
Proof.
  assert (Ha : forall l e, e_tail (foldl append_item e l) = e_tail e).
  { induction l as [|i l IH]; intros e; [done|]. cbn. rewrite IH. destruct e as [a ks]. destruct i; cbn; [|done]. by destruct (last ks). }
  unfold new_span. destruct t; destruct st; unfold append_text; rewrite ?Ha; done.
Qed.

Lemma append_step `{Unicode} `{PyFloat} e s t style : value_type e = Some (lit "string") -> value e = Ok (VStr s) -> text_ends e ->
  exists e', cell_append_text t style e = (e', Ok tt) /\ value e' = Ok (VStr (s ++ t)) /\ text_ends e' /\ root e' = root e.
Proof.
  intros Ht Hv He. unfold cell_append_text. rewrite decide_True by done.
  assert (Hval : forall e', root e' = root e -> value e' = do s <- cell_plaintext e'; Ok (VStr s)).
  { intros e' R. unfold value. replace (value_type e') with (Some (lit "string")). { by rewrite decide_True. }
    rewrite <- Ht. unfold value_type, e_get, e_attrs. by rewrite R. }
  rewrite (Hval e eq_refl) in Hv. rewrite cell_plaintext_eq in Hv.
  destruct (rmap plaintext (filter is_text (kids e))) as [l|] eqn:El; cbn in Hv; [|done]. injection Hv as <-.
  assert (Hp : filter is_text (kids e) = [] -> exists e', (e_append (new_span "text:p" t style) e, Ok tt) = (e', @Ok unit tt) /\
     value e' = Ok (VStr (py_join [10%N] l ++ t)) /\ text_ends e' /\ root e' = root e).
  { intros Hf. eexists. split; [done|]. assert (R : root (e_append (new_span "text:p" t style) e) = root e) by (by destruct e).
    assert (Hk : kids (e_append (new_span "text:p" t style) e) = kids e ++ [new_span "text:p" t style]) by (by destruct e).
    split_and!; [|right; exists (new_span "text:p" t style); rewrite Hk, last_snoc; split; [done|apply para_text]|done].
    rewrite (Hval _ R), cell_plaintext_eq, Hk, filter_app, Hf, filter_cons_True, filter_nil by apply para_text.
    rewrite Hf in El. injection El as <-. cbn [app rmap]. rewrite para_plain. done. }
  destruct (last (kids e)) as [k|] eqn:Elast.
  - case_decide as Hk; rewrite content_is_text in Hk.
    + eexists. split; [done|]. apply last_Some in Elast as [r Er].
      assert (Htk : take (length (kids e) - 1) (kids e) = r).
      { rewrite Er, app_length. cbn. rewrite Nat.add_sub. by rewrite take_app. }
      set (k' := e_append (new_span "text:span" t style) k).
      assert (Hk' : is_text k') by (by destruct k).
      assert (R : forall f, root (on_kids f e) = root e) by (by destruct e).
      assert (Hks : kids (on_kids (fun ks => take (length ks - 1) ks ++ [k']) e) = r ++ [k']) by (rewrite <- Htk; by destruct e).
      split_and!; [|right; exists k'; rewrite Hks, last_snoc; done|done].
      rewrite (Hval _ (R _)), cell_plaintext_eq, Hks. rewrite Er in El. rewrite filter_app, filter_cons_True, filter_nil in El by done.
      rewrite filter_app, filter_cons_True, filter_nil by done. rewrite rmap_app in *. cbn [rmap] in *.
      destruct (rmap plaintext (filter is_text r)) as [lr|]; cbn in El |- *; [|done].
      destruct (plaintext k) as [sk|] eqn:Esk; cbn in El; [|done]. injection El as <-.
      subst k'. rewrite (append_child_plain k _ sk Hk Esk t); [cbn|apply new_span_plaintext; apply (bool_decide_unpack _); vm_compute; exact I|apply new_span_tail].
      rewrite !py_join_snoc. destruct lr; [done|]. by rewrite !(assoc_L (++)).
    + apply Hp. destruct He as [?|(k' & Hk' & ?)]; [done|]. by simplify_eq.
  - apply Hp. apply last_None in Elast. by rewrite Elast.
Qed.

(** For a string cell whose last child is a paragraph or heading (or which has none of
    them), any sequence of append_text calls appends the texts to the value. *)
Theorem C25_append_text `{Unicode} `{PyFloat} :
  forall (ts : list (pystr * pystr)) (e : elem) (s : pystr),
    value_type e = Some (lit "string") -> value e = Ok (VStr s) -> text_ends e ->
    let e' := foldl (fun e p => (cell_append_text p.1 p.2 e).1) e ts in
    value e' = Ok (VStr (s ++ concat (map fst ts))) /\ root e' = root e.
Proof.
  induction ts as [|[t st] ts IH]; intros e s Ht Hv He; cbn; [by rewrite app_nil_r|].
  destruct (append_step e s t st Ht Hv He) as (e1 & -> & V1 & T1 & R1). cbn.
  assert (Ht1 : value_type e1 = Some (lit "string")) by (rewrite <- Ht; unfold value_type, e_get, e_attrs; by rewrite R1).
  destruct (IH e1 (s ++ t) Ht1 V1 T1) as [V2 R2]. split; [by rewrite V2, (assoc_L (++))|congruence].
Qed.
Print Assumptions C25_append_text.
(** In particular after [set_value] of a string or a text object. *)
Theorem C25_after_set_value `{Unicode} `{PyFloat} :
  forall (ts : list (pystr * pystr)) (e e1 : elem) (v : pyval) (s : pystr) (vt cur : option pystr),
    set_value v vt cur e = (e1, Ok tt) -> type_of v vt cur = lit "string" -> written v s ->
    value (foldl (fun e p => (cell_append_text p.1 p.2 e).1) e1 ts) = Ok (VStr (s ++ concat (map fst ts))).
Proof.
  intros ts e e1 v s vt cur E Hty Hw.
  destruct (set_value_outcome v vt cur e) as [p Ht Hp Hw1 Hw2|k s' t' _ Ht _ Hs| |]; [|congruence|done|done]. injection E as <-.
  apply (C25_append_text ts (with_text p e) s); [apply with_text_type|apply with_text_value; [done|by apply Hw1]|].
  right. exists p. rewrite with_text_kids. done.
Qed.
Print Assumptions C25_after_set_value.
Theorem C25_refused `{Unicode} `{PyFloat} :
  forall (e : elem) (t style : pystr), value_type e <> Some (lit "string") -> cell_append_text t style e = (e, Err TypeError).
Proof. intros e t style Ht. unfold cell_append_text. by rewrite decide_False. Qed.
Print Assumptions C25_refused.
Example C25_case : let e := (set_value (F := int_float) (VStr (lit "a b")) None None dated).1 in
  value_type e = Some (lit "string") /\ value (U := ascii_unicode) (F := int_float) e = Ok (VStr (lit "a b")) /\ text_ends e.
Proof.
  split_and!; [by_vm|by_vm|]. right. eexists. split; [vm_compute; reflexivity|]. left. vm_compute. done.
Qed.
(** With another last child (a shape, say), a new paragraph starts: a newline comes in. *)
Theorem C25_other_last_child_counterexample :
  exists (U : Unicode) (F : PyFloat) (e : elem) (s t : pystr), value_type e = Some (lit "string") /\ value e = Ok (VStr s) /\
    value (cell_append_text t [] e).1 <> Ok (VStr (s ++ t)).
Proof.
  exists ascii_unicode, int_float,
    (e_append (new_elem "draw:frame") (set_value (F := int_float) (VStr (lit "a")) None None (new_elem "table:table-cell")).1), (lit "a"), (lit "b").
  split; [by_vm|]. split; [by_vm|]. apply (ne_by _ _ (Ok (VStr (F := int_float) (lit "a" ++ [10%N] ++ lit "b")))); [by_vm|done].
Qed.
Print Assumptions C25_other_last_child_counterexample.

(** ** C26 *)

(** A refused call leaves the cell as it was, if the value is not empty text. *)
Theorem C26_rejected `{Unicode} `{PyFloat} :
  forall (e e' : elem) (v : pyval) (vt cur : option pystr) (x : exn), set_value v vt cur e = (e', Err x) ->
    ((forall p, v <> VWrap p) -> ~ written v []) -> e' = e /\ (x = ValueError \/ x = TypeError).
Proof.
  intros e e' v vt cur x E Hw. destruct (set_value_outcome v vt cur e) as [| |Hn _ _ _ He _|x' Ha Hx]; try done.
  - destruct Hw; [|done]. intros p ->. apply Hn. by exists p.
  - injection E as <- <-. done.
Qed.
Print Assumptions C26_rejected.
(** Empty text for a number, date or time: the type stays, the old value and content are lost. *)
Theorem C26_empty_text `{Unicode} `{PyFloat} :
  forall (e : elem) (v : pyval) (vt cur : option pystr), (v = VStr [] \/ exists b, v = VObj [] b) ->
    type_of v vt cur ∈ VALID_VALUE_TYPES -> type_of v vt cur <> lit "string" -> type_of v vt cur <> lit "boolean" ->
    exists e', set_value v vt cur e = (e', Err ValueError) /\ value_type e' = value_type e /\ kids e' = [] /\
      (forall k, value_type e = None \/ (forall t, value_type e = Some t -> TYPE_VALUE_MAP t <> Some k) -> e_get k e' = e_get k e).
Proof.
  intros e v vt cur Hv H1 H2 H3. exists (clear_old_value e). split_and!.
  - destruct (set_value_outcome v vt cur e) as [p Ht|k s t Hw Ht Hvv Hs Hk Hne Hval _| |x Ha Hx Hx2 Hx3]; try done.
    + exfalso. rewrite decide_False in Hval by congruence. destruct Hv as [-> | [b ->]]; cbn in Hval; congruence.
    + exfalso. destruct Hx as [-> | ->].
      * destruct (Hx2 eq_refl) as [-> | (p & -> & _)]; destruct Hv as [? | [b ?]]; done.
      * apply Hx3; try done. intros [p ->]. destruct Hv as [? | [b ?]]; done.
  - apply cleared_get. apply (bool_decide_unpack _). vm_compute. exact I.
  - apply cleared_kids.
  - intros k Hk. unfold clear_old_value, clear_value_attribute. rewrite get_kids. destruct (value_type e) as [t|]; [|done].
    destruct (TYPE_VALUE_MAP t) as [k'|] eqn:Ek; [|done]. apply get_del_ne. intros ->. destruct Hk as [?|Hk]; [done|]. by apply (Hk t).
Qed.
Print Assumptions C26_empty_text.
Example C26_case : (set_value (F := int_float) (VInt 5) (Some (lit "int")) None dated) = (dated, Err TypeError) /\
  ~ written (U := ascii_unicode) (F := int_float) (VInt 5) [].
Proof. split; [reflexivity|]. intros E. vm_compute in E. done. Qed.
Theorem C26_empty_text_counterexample :
  exists (U : Unicode) (F : PyFloat) (e e' : elem), set_value (VStr []) (Some (lit "date")) None e = (e', Err ValueError) /\
    value e = Ok (VStr (lit "2011-01-03")) /\ value e' = Ok VNone.
Proof.
  exists ascii_unicode, int_float, dated, (clear_old_value dated). split; [by_vm|]. split; by_vm.
Qed.
Print Assumptions C26_empty_text_counterexample.
