From Verif Require Export CellsSpec TextProofs.

Section proofs.
Context `{U : Unicode} `{F : PyFloat}.

Lemma not_nil {A} (l : list A) : l <> [] -> exists x r, l = x :: r.
Proof. destruct l; [done|]. by eexists _, _. Qed.
Lemma set_attr_ok k v e : v <> [] -> set_attr k v e = (e_set k v e, Ok tt).
Proof. by destruct v. Qed.
Lemma get_set k v e : e_get k (e_set k v e) = Some v.
Proof. destruct e. unfold e_get, e_set, e_attrs. cbn. by rewrite lookup_insert. Qed.
Lemma get_set_ne k k' v e : k <> k' -> e_get k (e_set k' v e) = e_get k e.
Proof. intros. destruct e. unfold e_get, e_set, e_attrs. cbn. by rewrite lookup_insert_ne. Qed.
Lemma get_del_ne k k' e : k <> k' -> e_get k (e_del k' e) = e_get k e.
Proof. intros. destruct e. unfold e_get, e_del, e_attrs. cbn. by rewrite lookup_delete_ne. Qed.
Lemma get_kids f k e : e_get k (on_kids f e) = e_get k e.
Proof. by destruct e. Qed.
Lemma kids_set k v e : kids (e_set k v e) = kids e.
Proof. by destruct e. Qed.

Definition VKEYS : list string := ["office:string-value"; "office:value"; "office:date-value"; "office:time-value"; "office:boolean-value"].
Lemma TVM_keys t k : TYPE_VALUE_MAP t = Some k -> k ∈ VKEYS.
Proof. unfold TYPE_VALUE_MAP. repeat case_decide; intros [= <-]; apply (bool_decide_unpack _); vm_compute; exact I. Qed.
Lemma TVM_valid t : t ∈ VALID_VALUE_TYPES -> is_Some (TYPE_VALUE_MAP t).
Proof. unfold VALID_VALUE_TYPES. rewrite !elem_of_cons, elem_of_nil. intros [->|[->|[->|[->|[->|[->|[->|[]]]]]]]]; vm_compute; by eexists. Qed.
Lemma valid_ne t : t ∈ VALID_VALUE_TYPES -> t <> [].
Proof. unfold VALID_VALUE_TYPES. rewrite !elem_of_cons, elem_of_nil. intros [->|[->|[->|[->|[->|[->|[->|[]]]]]]]]; done. Qed.
Lemma key_ne k : k ∈ VKEYS -> k <> "office:value-type" /\ k <> "office:currency".
Proof. unfold VKEYS. rewrite !elem_of_cons, elem_of_nil. intros [->|[->|[->|[->|[->|[]]]]]]; done. Qed.

Lemma cleared_get k e : k ∉ VKEYS -> e_get k (clear_old_value e) = e_get k e.
Proof.
  intros Hk. unfold clear_old_value, clear_value_attribute. rewrite get_kids.
  destruct (value_type e) as [t|]; [|done]. destruct (TYPE_VALUE_MAP t) as [k'|] eqn:E; [|done].
  apply get_del_ne. intros ->. by apply TVM_keys in E.
Qed.
Lemma cleared_kids e : kids (clear_old_value e) = [].
Proof. unfold clear_old_value. by destruct (clear_value_attribute e). Qed.
Definition same_shell (e e' : elem) : Prop := e_tag e' = e_tag e /\ e_text e' = e_text e /\ e_tail e' = e_tail e.
Lemma cleared_shell e : same_shell e (clear_old_value e).
Proof.
  unfold clear_old_value, clear_value_attribute. destruct e as [a ks].
  destruct (value_type _) as [t|]; [|done]. destruct (TYPE_VALUE_MAP t); done.
Qed.
Lemma set_shell k v e : same_shell e (e_set k v e).
Proof. by destruct e. Qed.
Lemma app_shell c e : same_shell e (e_append c e).
Proof. by destruct e. Qed.
Lemma shell_trans a b c : same_shell a b -> same_shell b c -> same_shell a c.
Proof. intros (?&?&?) (?&?&?). unfold same_shell. split_and!; congruence. Qed.

(** ** the plain text of a cell *)
Lemma content_is_text k : e_tag k ∈ cell_content_tags <-> is_text k.
Proof. unfold cell_content_tags, is_text. rewrite !elem_of_cons, elem_of_nil. tauto. Qed.
Lemma cell_plaintext_eq e : cell_plaintext e = do l <- rmap plaintext (filter is_text (kids e)); Ok (py_join [10%N] l).
Proof.
  unfold cell_plaintext.
  assert (H : forall l, (do r <- rmap (fun k => if decide (e_tag k ∈ cell_content_tags) then do p <- plaintext k; Ok [p] else Ok []) l; Ok (concat r))
                        = rmap plaintext (filter is_text l)).
  { induction l as [|k l IH]; [done|]. cbn [rmap]. rewrite filter_cons. destruct (decide (is_text k)) as [Hk|Hk].
    - rewrite decide_True by (by apply content_is_text). cbn [rmap]. destruct (plaintext k); cbn; [|done]. rewrite <- IH.
      by destruct (rmap _ l).
    - rewrite decide_False by (by rewrite content_is_text). cbn. rewrite <- IH. by destruct (rmap _ l). }
  specialize (H (kids e)). destruct (rmap _ (kids e)); cbn in *; by rewrite <- H.
Qed.

Lemma para_text t st : is_text (new_span "text:p" t st).
Proof. left. apply new_span_tag. Qed.
Lemma para_plain t st : plaintext (new_span "text:p" t st) = Ok t.
Proof. apply new_span_plaintext. apply (bool_decide_unpack _). vm_compute. exact I. Qed.

(** ** set_value *)
Definition call_type (v : pyval) (vt cur : option pystr) : pystr :=
  match cur with Some _ => lit "currency" | None => match vt with Some t => t | None => determine_value_type v end end.
Lemma set_value_eq v vt cur e : set_value v vt cur e =
  if is_valid_value v then
    if decide (call_type v vt cur ∈ VALID_VALUE_TYPES)
    then set_new_value (convert v (call_type v vt cur)) (call_type v vt cur) cur (clear_old_value e)
    else (e, Err TypeError)
  else (e, Err ValueError).
Proof.
  unfold set_value, call_type. destruct (is_valid_value v); [|done].
  destruct cur, vt; cbn; case_decide; done.
Qed.
Lemma type_of_eq v vt cur : (forall p, v <> VWrap p) -> v <> VNone -> type_of v vt cur = call_type v vt cur.
Proof. intros H1 H2. destruct v, cur, vt; try done; exfalso; by eapply H1. Qed.

Definition with_text (p : elem) (e : elem) : elem := e_set "office:value-type" (lit "string") (e_append p (clear_old_value e)).
Definition with_attr (k : string) (s t : pystr) (cur : option pystr) (e : elem) : elem :=
  let e := e_set "office:value-type" t (e_set k s (clear_old_value e)) in
  if truthy cur && bool_decide (t = lit "currency") then e_set "office:currency" (str_of cur) e else e.

Lemma new_inl p t cur e : set_new_value (inl p) t cur (clear_old_value e) = (with_text p e, Ok tt).
Proof.
  unfold set_new_value, abind. rewrite set_attr_ok by done. rewrite bool_decide_eq_false_2 by done. by rewrite andb_false_r.
Qed.
Lemma new_inr s t k cur e : t ∈ VALID_VALUE_TYPES -> TYPE_VALUE_MAP t = Some k ->
  set_new_value (inr s) t cur (clear_old_value e) =
    match s with [] => (clear_old_value e, Err ValueError) | _ => (with_attr k s t cur e, Ok tt) end.
Proof.
  intros Ht Hk. unfold set_new_value, abind. rewrite Hk. destruct s as [|x s]; [done|].
  rewrite set_attr_ok by done. unfold aret. rewrite set_attr_ok by (by apply valid_ne). unfold with_attr.
  destruct cur as [[|y cr]|]; try done. cbn [truthy andb]. case_bool_decide; done.
Qed.

Definition is_wrap (v : pyval) : Prop := exists p, v = VWrap p.
(** the three outcomes *)
Inductive outcome (v : pyval) (vt cur : option pystr) (e : elem) : elem * res unit -> Prop :=
  | O_text p : type_of v vt cur = lit "string" -> is_text p -> (forall s, written v s -> plaintext p = Ok s) ->
      (forall s, plaintext p = Ok s -> written v s) -> acceptable v vt cur ->
      outcome v vt cur e (with_text p e, Ok tt)
  | O_attr k s t : ~ is_wrap v -> type_of v vt cur = t -> t ∈ VALID_VALUE_TYPES -> t <> lit "string" -> TYPE_VALUE_MAP t = Some k -> s <> [] ->
      (if decide (t = lit "boolean") then s = (if truth v then lit "true" else lit "false") else written v s) ->
      acceptable v vt cur -> outcome v vt cur e (with_attr k s t cur e, Ok tt)
  | O_empty : ~ is_wrap v -> type_of v vt cur ∈ VALID_VALUE_TYPES -> type_of v vt cur <> lit "string" -> type_of v vt cur <> lit "boolean" -> written v [] ->
      ~ acceptable v vt cur -> outcome v vt cur e (clear_old_value e, Err ValueError)
  | O_refused x : ~ acceptable v vt cur -> (x = ValueError \/ x = TypeError) ->
      (x = ValueError -> v = VNone \/ exists p, v = VWrap p /\ ~ is_text p) ->
      (x = TypeError -> ~ is_wrap v -> type_of v vt cur ∉ VALID_VALUE_TYPES) -> outcome v vt cur e (e, Err x).

Lemma written_tostr v s : ~ is_wrap v -> v <> VNone -> written v s <-> s = tostr v.
Proof. intros Hw Hn. destruct v as [| [] | | | | |p]; cbn; try done. destruct Hw. by exists p. Qed.
Lemma written_inj v s s' : written v s -> written v s' -> s = s'.
Proof. destruct v; cbn; try congruence; done. Qed.

Lemma set_value_outcome v vt cur e : outcome v vt cur e (set_value v vt cur e).
Proof.
  rewrite set_value_eq.
  assert (Hv : v = VNone \/ is_wrap v \/ (~ is_wrap v /\ v <> VNone)).
  { destruct v; try (right; right; split; [intros [? ?]; done|done]); [by left|right; left; by eexists]. }
  destruct Hv as [->|[[p ->]|[Hw Hn]]].
  - cbn. apply O_refused; [by intros []|by left| |done]. intros _. by left.
  - cbn [is_valid_value convert]. case_bool_decide as Hp; rewrite content_is_text in Hp.
    + case_decide as Ht.
      * rewrite new_inl. apply O_text; try done. cbn. split; [done|]. intros -> t ->. done.
      * apply O_refused; [|by right|done|intros _ H; destruct H; by eexists]. cbn. intros [_ H]. apply Ht. unfold call_type. destruct cur as [c|].
        { apply (bool_decide_unpack _). vm_compute. exact I. }
        destruct vt as [t|]; [by apply H|]. apply (bool_decide_unpack _). vm_compute. exact I.
    + apply O_refused; [|by left| |done]. { by intros [? _]. } intros _. right. by exists p.
  - assert (Hval : is_valid_value v = true) by (destruct v; try done; destruct Hw; by eexists). rewrite Hval.
    assert (Hty : type_of v vt cur = call_type v vt cur) by (apply type_of_eq; [intros p ->; apply Hw; by eexists|done]).
    assert (Hacc : acceptable v vt cur <-> type_of v vt cur ∈ VALID_VALUE_TYPES /\
      (written v [] -> type_of v vt cur = lit "string" \/ type_of v vt cur = lit "boolean")).
    { destruct v; try done. destruct Hw; by eexists. }
    rewrite <- Hty. set (t := type_of v vt cur) in *. case_decide as Ht.
    + destruct (TVM_valid t Ht) as [k Hk].
      assert (Hcv : convert v t = if decide (t = lit "string") then inl (new_span "text:p" (tostr v) [])
         else if decide (t = lit "boolean") then inr (if truth v then lit "true" else lit "false") else inr (tostr v)).
      { destruct v; try done. destruct Hw; by eexists. }
      rewrite Hcv. case_decide as Hs; [|case_decide as Hb].
      * rewrite new_inl. apply O_text; try done; [apply para_text| | |].
        -- intros s ->%written_tostr; try done. apply para_plain.
        -- intros s. rewrite para_plain. intros [= <-]. by apply written_tostr.
        -- apply Hacc. split; [done|]. by left.
      * rewrite (new_inr _ _ k) by done. destruct (truth v) eqn:Etr; cbn [lit];
          (eapply O_attr; try done; [rewrite decide_True by done; by rewrite Etr|]; apply Hacc; split; [done|by right]).
      * rewrite (new_inr _ _ k) by done. destruct (tostr v) as [|x s] eqn:Es.
        -- apply O_empty; try done; [by apply written_tostr|]. intros [_ H]%Hacc. destruct H; [by apply written_tostr|done|done].
        -- apply O_attr; try done; [rewrite decide_False by done; by apply written_tostr|]. apply Hacc. split; [done|].
           intros H. apply written_tostr in H; try done. by rewrite Es in H.
    + apply O_refused; [|by right|done|done]. by intros [? _]%Hacc.
Qed.

Lemma with_text_type p e : value_type (with_text p e) = Some (lit "string").
Proof. apply get_set. Qed.
Lemma with_text_kids p e : kids (with_text p e) = [p].
Proof. unfold with_text. rewrite kids_set. unfold e_append. pose proof (cleared_kids e) as H. destruct (clear_old_value e). cbn in *. by rewrite H. Qed.
Lemma with_attr_type k s t cur e : k ∈ VKEYS -> value_type (with_attr k s t cur e) = Some t.
Proof. intros Hk. unfold with_attr, value_type. case_match; rewrite ?get_set_ne by done; apply get_set. Qed.
Lemma with_attr_val k s t cur e : k ∈ VKEYS -> e_get k (with_attr k s t cur e) = Some s.
Proof. intros [? ?]%key_ne. unfold with_attr. case_match; rewrite ?get_set_ne by done; apply get_set. Qed.
Lemma with_attr_kids k s t cur e : kids (with_attr k s t cur e) = [].
Proof. unfold with_attr. case_match; rewrite !kids_set; apply cleared_kids. Qed.
Lemma with_text_other p e k : k ∉ VKEYS -> k <> "office:value-type" -> e_get k (with_text p e) = e_get k e.
Proof. intros H1 H2. unfold with_text. rewrite get_set_ne by done. unfold e_append. rewrite get_kids. by apply cleared_get. Qed.
Lemma with_attr_other k s t cur e k' : k ∈ VKEYS -> k' ∉ VKEYS -> k' <> "office:value-type" -> k' <> "office:currency" ->
  e_get k' (with_attr k s t cur e) = e_get k' e.
Proof.
  intros H0 H1 H2 H3. assert (k' <> k) by (by intros ->). unfold with_attr. case_match; rewrite !get_set_ne by done; by apply cleared_get.
Qed.
Lemma with_text_value p e s : is_text p -> plaintext p = Ok s -> value (with_text p e) = Ok (VStr s).
Proof.
  intros Hp Hs. unfold value. rewrite with_text_type, decide_True by done. rewrite cell_plaintext_eq, with_text_kids.
  rewrite filter_cons_True, filter_nil by done. cbn. rewrite Hs. done.
Qed.
Lemma with_text_shell p e : same_shell e (with_text p e).
Proof. unfold with_text. eapply shell_trans; [|apply set_shell]. eapply shell_trans; [apply cleared_shell|apply app_shell]. Qed.
Lemma with_attr_shell k s t cur e : same_shell e (with_attr k s t cur e).
Proof.
  unfold with_attr. assert (same_shell e (e_set "office:value-type" t (e_set k s (clear_old_value e)))).
  { eapply shell_trans; [|apply set_shell]. eapply shell_trans; [apply cleared_shell|apply set_shell]. }
  case_match; [|done]. eapply shell_trans; [done|apply set_shell].
Qed.

Lemma numeric_TVM t k : t ∈ NUMERIC_TYPES -> TYPE_VALUE_MAP t = Some k -> t <> lit "string" /\ t <> lit "boolean".
Proof. unfold NUMERIC_TYPES. rewrite !elem_of_cons, elem_of_nil. intros [->|[->|[->|[]]]] _; done. Qed.

Lemma set_value_reads v vt cur e r : acceptable v vt cur -> read_back (type_of v vt cur) v r ->
  exists e', set_value v vt cur e = (e', Ok tt) /\ value_type e' = Some (type_of v vt cur) /\ value e' = Ok r.
Proof.
  intros Ha Hr. destruct (set_value_outcome v vt cur e) as [p Ht Hp Hw1 Hw2 _|k s t Hw Ht Hv Hs Hk Hne Hval _| |]; [| |done|done].
  - exists (with_text p e). rewrite Ht in *. split; [done|]. split; [apply with_text_type|].
    inversion Hr; subst; try done;
      repeat match goal with H : _ ∈ _ |- _ => apply (bool_decide_pack _) in H; by vm_compute in H | H : _ \/ _ |- _ => by destruct H end.
    apply with_text_value; [done|]. by apply Hw1.
  - exists (with_attr k s t cur e). split; [done|]. pose proof (TVM_keys _ _ Hk) as Hkk. rewrite Ht in *.
    split; [by apply with_attr_type|]. unfold value. rewrite with_attr_type by done. rewrite decide_False by done. rewrite Hk, with_attr_val by done.
    inversion Hr as [v0 s0 Hw0|v0|t0 f Hin|t0 z f Hin Hf|t0 s0 f Hin Hf|t0 v0 s0 Hdt Hw0]; subst.
    + done.
    + rewrite decide_False by (intros Hq; apply (bool_decide_pack _) in Hq; by vm_compute in Hq). rewrite !decide_True in * by done.
      rewrite Hval. by destruct (truth v).
    + destruct (numeric_TVM _ _ Hin Hk) as [_ Hnb]. rewrite decide_False in Hval by done. cbn in Hval. subst s.
      rewrite decide_True by done. by rewrite f_parse_repr.
    + destruct (numeric_TVM _ _ Hin Hk) as [_ Hnb]. rewrite decide_False in Hval by done. cbn in Hval. subst s.
      rewrite decide_True by done. by rewrite Hf.
    + destruct (numeric_TVM _ _ Hin Hk) as [_ Hnb]. rewrite decide_False in Hval by done. cbn in Hval. subst s.
      rewrite decide_True by done. by rewrite Hf.
    + assert (type_of v vt cur ∉ NUMERIC_TYPES /\ type_of v vt cur <> lit "boolean") as [Hn Hb].
      { destruct Hdt as [-> | ->]; (split; [intros Hq; apply (bool_decide_pack _) in Hq; by vm_compute in Hq|done]). }
      rewrite decide_False in Hval by done. rewrite !decide_False by done. by rewrite (written_inj _ _ _ Hval Hw0).
Qed.
End proofs.
