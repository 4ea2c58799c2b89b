(** C47: typed attribute properties round trip. *)
From Verif Require Import AttrsProofs.

(** StringProperty *)
Theorem C47_string `{U : Unicode} `{F : PyFloat} (n : string) (e : elem) :
  (forall s, exists e', str_set n (VStr s) e = (e', Ok tt) /\ str_get n e' = Some s /\ only_attrs [n] e e') /\
  (forall v, (forall s, v <> VStr s) -> str_set n v e = (e, Err TypeError)) /\
  (str_get n e <> None -> exists e', attr_del n e = (e', Ok tt) /\ str_get n e' = None /\ only_attrs [n] e e') /\
  (str_get n e = None -> attr_del n e = (e, Err KeyError)).
Proof.
  split_and!.
  - intros s. exists (e_set n s e). split_and!; [done| |apply only_set; by left].
    unfold str_get. rewrite get_set. by rewrite decide_True.
  - intros v H. destruct v; try done. exfalso. by apply (H s).
  - unfold str_get, attr_del. destruct (e_get n e); [|done]. intros _. exists (e_del n e).
    split_and!; [done| |apply only_del; by left]. rewrite get_del. by rewrite decide_True.
  - unfold str_get, attr_del. by intros ->.
Qed.
Print Assumptions C47_string.

(** BooleanProperty, set_bool_attr and get_bool_attr: any value counts by its truth *)
Theorem C47_bool `{U : Unicode} `{F : PyFloat} (n : string) (v : pyval) (e : elem) :
  (exists e', bool_set n v e = (e', Ok tt) /\ bool_get n e' = truth v /\ get_bool_attr n e' = truth v /\ only_attrs [n] e e') /\
  set_bool_attr n v e = bool_set n v e /\
  bool_get n e = get_bool_attr n e /\
  (bool_get n e = true <-> e_get n e = Some (lit "true")).
Proof.
  split_and!.
  - eexists. split_and!; [reflexivity| | |apply only_set; by left].
    + unfold bool_get. rewrite get_set, decide_True by done. by destruct (truth v).
    + unfold get_bool_attr. rewrite get_set, decide_True by done. by destruct (truth v).
  - done.
  - unfold bool_get, get_bool_attr. destruct (e_get n e) as [s|]; [|done]. cbn [truth].
    destruct (bool_decide (s <> [])) eqn:Hs; [apply bool_decide_eq_true in Hs|apply bool_decide_eq_false in Hs].
    + apply bool_decide_ext. split; [by intros [= ->]|by intros ->].
    + destruct s as [|c s]; [done|by exfalso; apply Hs].
  - unfold bool_get. by rewrite bool_decide_eq_true.
Qed.
Print Assumptions C47_bool.

(** FloatProperty and IntegerProperty *)
Theorem C47_number `{U : Unicode} `{F : PyFloat} (n : string) (e : elem) :
  (forall f, exists e', num_set n (VFloat f) e = (e', Ok tt) /\ float_get n e' = Ok (Some f) /\ only_attrs [n] e e') /\
  (forall z, exists e', num_set n (VInt z) e = (e', Ok tt) /\ int_get n e' = Ok (Some z) /\ only_attrs [n] e e' /\
     exists f, float_get n e' = Ok (Some f)).
Proof.
  split.
  - intros f. eexists. split_and!; [reflexivity| |apply only_set; by left].
    unfold float_get. rewrite get_set, decide_True by done. cbn. by rewrite f_parse_repr.
  - intros z. eexists. split_and!; [reflexivity| |apply only_set; by left|].
    + unfold int_get. rewrite get_set, decide_True by done. cbn. by rewrite py_int_show_Z.
    + unfold float_get. rewrite get_set, decide_True by done. cbn. destruct (f_parse_int z) as [f ->]. eauto.
Qed.
Print Assumptions C47_number.

(** IntegerWithLowerLimitProperty, start_value; [iv] is the result of int(value) *)
Theorem C47_limit `{U : Unicode} `{F : PyFloat} (n : string) (lim : Z) (e : elem) :
  (forall z, exists e', limit_set n lim (Ok z) e = (e', Ok tt) /\ limit_get n lim e' = Ok (Z.max lim z) /\ only_attrs [n] e e') /\
  (forall x, limit_set n lim (Err x) e = (e, Err x)) /\
  (** never below the limit, whatever is in the file *)
  (forall z, limit_get n lim e = Ok z -> (lim <= z)%Z) /\
  (e_get n e = None -> limit_get n lim e = Ok lim) /\
  (forall z, exists e', set_start_value (Ok z) e = (e', Ok tt) /\ start_value e' = Ok (Some (Z.max z 1)) /\
     only_attrs ["text:start-value"%string] e e') /\
  (forall x, set_start_value (Err x) e = (e, Err x)).
Proof.
  assert (Hs : forall z, show_Z z <> []).
  { intros z Hz. pose proof (py_int_show_Z z) as H. rewrite Hz in H. done. }
  split_and!.
  - intros z. eexists. split_and!; [reflexivity| |apply only_set; by left].
    unfold limit_get. rewrite get_set, decide_True by done. rewrite py_int_show_Z. cbn. f_equal. lia.
  - done.
  - intros z. unfold limit_get. destruct (e_get n e) as [v|]; [|intros [= ->]; lia].
    destruct (py_int v); [|done]. cbn. intros [= <-]. lia.
  - unfold limit_get. by intros ->.
  - intros z. unfold set_start_value, put_attr. cbn [truth tostr]. rewrite bool_decide_eq_true_2 by done.
    eexists. split_and!; [reflexivity| |apply only_set; by left].
    unfold start_value, int_get. rewrite get_set, decide_True by done. by rewrite py_int_show_Z.
  - done.
Qed.
Print Assumptions C47_limit.

(** set_attr and get_attr: false values are refused *)
Theorem C47_attr `{U : Unicode} `{F : PyFloat} (k : string) (v : pyval) (e : elem) :
  (truth v = true -> exists e', put_attr k v e = (e', Ok tt) /\ only_attrs [k] e e' /\
     forall d, get_attr k d e' = VStr (tostr v)) /\
  (truth v = false -> put_attr k v e = (e, Err ValueError)) /\
  (forall d, e_get k e = None -> get_attr k d e = d).
Proof.
  unfold put_attr. split_and!.
  - intros ->. eexists. split_and!; [reflexivity|apply only_set; by left|]. intros d. unfold get_attr.
    rewrite get_set. by rewrite decide_True.
  - by intros ->.
  - intros d H. unfold get_attr. by rewrite H.
Qed.
Print Assumptions C47_attr.

(** visibility, Hyperlink.target_frame, Section.protected *)
Theorem C47_visibility `{U : Unicode} `{F : PyFloat} (v : pyval) (e : elem) :
  ((exists s, v = VStr s /\ s ∈ VISIBILITY) ->
     exists e', set_visibility v e = (e', Ok tt) /\ visibility e' = v /\ only_attrs ["table:visibility"%string] e e') /\
  ((forall s, v = VStr s -> s ∉ VISIBILITY) -> set_visibility v e = (e, Err ValueError)) /\
  (e_get "table:visibility" e = None -> visibility e = VStr (lit "visible")).
Proof.
  split_and!.
  - intros (s & -> & Hs). unfold set_visibility, put_attr. rewrite decide_True by done.
    assert (truth (VStr s) = true) as -> by (repeat (apply elem_of_cons in Hs as [->|Hs]; [done|]); by apply elem_of_nil in Hs).
    eexists. split_and!; [reflexivity| |apply only_set; by left]. unfold visibility, get_attr.
    rewrite get_set, decide_True by done. done.
  - intros H. destruct v; try done. cbn. rewrite decide_False by (by apply H). done.
  - unfold visibility, get_attr. by intros ->.
Qed.
Print Assumptions C47_visibility.
Theorem C47_target_frame `{U : Unicode} `{F : PyFloat} (v : pyval) (e : elem) :
  (truth v = true -> exists e', set_target_frame v e = (e', Ok tt) /\ target_frame e' = VStr (tostr v) /\
     only_attrs ["office:target-frame-name"; "xlink:show"]%string e e' /\
     (v = VStr (lit "_blank") -> e_get "xlink:show" e' = Some (lit "new")) /\
     (v <> VStr (lit "_blank") -> e_get "xlink:show" e' = Some (lit "replace"))) /\
  (truth v = false -> set_target_frame v e = (e, Err ValueError)).
Proof.
  unfold set_target_frame, abind, put_attr. split; [|by intros ->]. intros Hv. rewrite Hv.
  set (b := match v with VStr s => bool_decide (s = lit "_blank") | _ => false end).
  assert (truth (VStr (if b then lit "new" else lit "replace")) = true) as -> by (by destruct b).
  eexists. split_and!; [reflexivity| | | |].
  - unfold target_frame, get_attr. rewrite get_set, decide_False by done. rewrite get_set. by rewrite decide_True.
  - eapply only_trans; apply only_set; set_solver.
  - intros Eb. rewrite get_set, decide_True by done. unfold b. rewrite Eb. by rewrite bool_decide_eq_true_2.
  - intros Nb. rewrite get_set, decide_True by done. unfold b. destruct v; try done.
    rewrite bool_decide_eq_false_2; [done|]. intros ->. by apply Nb.
Qed.
Print Assumptions C47_target_frame.
Theorem C47_protected `{U : Unicode} `{F : PyFloat} (key v : pyval) (e : elem) :
  truth key = true ->
  exists e', set_protected key v e = (e', Ok tt) /\ protected e' = truth v /\
    only_attrs ["text:protected"; "text:protection-key"]%string e e' /\
    (truth v = true -> e_get "text:protection-key" e' = Some (tostr key)) /\
    (truth v = false -> e_get "text:protection-key" e' = e_get "text:protection-key" e).
Proof.
  intros Hk. unfold set_protected, abind, set_bool_attr, protected, put_attr.
  assert (Hp : forall s e1, get_bool_attr "text:protected" (e_set "text:protected" (if s : bool then lit "true" else lit "false") e1) = s).
  { intros s e1. unfold get_bool_attr. rewrite get_set, decide_True by done. by destruct s. }
  rewrite Hp. destruct (truth v) eqn:Hv.
  - rewrite Hk. eexists. split_and!; [reflexivity| | | |done].
    + unfold get_bool_attr. rewrite get_set, decide_False by done. by rewrite get_set, decide_True by done.
    + eapply only_trans; apply only_set; set_solver.
    + intros _. rewrite get_set. by rewrite decide_True.
  - eexists. split_and!; [reflexivity|apply (Hp false)|apply only_set; set_solver|done|].
    intros _. rewrite get_set. by rewrite decide_False.
Qed.
Print Assumptions C47_protected.

(** formatted_number: the text of the first text:number child, made if missing *)
Theorem C47_formatted_number `{U : Unicode} `{F : PyFloat} (v : pyval) (e : elem) :
  let e' := set_formatted_number v e in
  formatted_number e' = Some (tostr v) /\ root e' = root e /\
  (forall t, t <> "text:number"%string -> findall t e' = findall t e) /\
  length (kids e') = length (kids e) + (if decide (find_child "text:number" e = None) then 1 else 0) /\
  (** of several such children only the first is written *)
  (forall l k l', kids e = l ++ k :: l' -> e_tag k = "text:number"%string -> Forall (fun x => e_tag x <> "text:number"%string) l ->
     kids e' = l ++ e_set_text (Some (tostr v)) k :: l') /\
  (Forall (fun x => e_tag x <> "text:number"%string) (kids e) -> kids e' = kids e ++ [e_set_text (Some (tostr v)) (new_elem "text:number")]).
Proof.
  destruct e as [a ks]. cbn zeta. unfold set_formatted_number.
  assert (Htag : forall s x, e_tag (e_set_text s x) = e_tag x) by (by intros s [? ?]).
  assert (Hlen : forall t f l, length (on_first t f l) = length l).
  { intros t f l. induction l as [|x l IH]; [done|]. cbn. case_decide; cbn; by rewrite ?IH. }
  assert (Hof : forall f l k l', e_tag k = "text:number"%string -> Forall (fun x => e_tag x <> "text:number"%string) l ->
    on_first "text:number" f (l ++ k :: l') = l ++ f k :: l').
  { intros f l k l' Hk. induction 1 as [|x l Hx _ IH]; cbn [app on_first]; [by rewrite decide_True|]. rewrite decide_False by done. by rewrite IH. }
  assert (Hno : Forall (fun x => e_tag x <> "text:number"%string) ks <-> find_child "text:number" (T a ks) = None).
  { unfold find_child, findall. cbn [kids]. clear. induction ks as [|x l IH]; [done|]. rewrite Forall_cons, filter_cons. case_decide; cbn; [naive_solver|]. rewrite IH. naive_solver. }
  unfold subelement. destruct (find_child "text:number" (T a ks)) as [k|] eqn:E; cbn [on_kids e_append].
  - split_and!.
    5:{ intros l k0 l' El Hk Hl. cbn [kids] in *. rewrite El. by apply Hof. }
    5:{ intros H. apply Hno in H. done. }
    + unfold formatted_number. rewrite (find_child_on_first _ _ _ _ k) by (done || apply Htag). by destruct k.
    + done.
    + intros t Ht. unfold findall. cbn [kids]. by apply on_first_others.
    + cbn [kids]. rewrite Hlen. rewrite decide_False by done. lia.
  - assert (E' : find_child "text:number" (T a (ks ++ [new_elem "text:number"])) = Some (new_elem "text:number")).
    { unfold find_child, findall in *. cbn [kids] in *. rewrite filter_app.
      destruct (filter (fun k => e_tag k = "text:number"%string) ks); [done|done]. }
    split_and!.
    5:{ intros l k l' Hl Hk _. exfalso. destruct Hno as [_ Hno]. specialize (Hno eq_refl). cbn [kids] in Hl. rewrite Hl in Hno.
        apply Forall_app in Hno as [_ Hno]. apply Forall_cons in Hno as [Hno _]. done. }
    5:{ intros H. cbn [kids]. by apply Hof. }
    + unfold formatted_number. by rewrite (find_child_on_first _ _ _ _ _ (Htag _) E').
    + done.
    + intros t Ht. unfold findall. cbn [kids]. rewrite on_first_others by (done || apply Htag).
      rewrite filter_app. rewrite (filter_cons_False _ (new_elem "text:number")) by (cbn; congruence).
      by rewrite filter_nil, app_nil_r.
    + cbn [kids]. rewrite Hlen, app_length. by rewrite decide_True.
Qed.
Print Assumptions C47_formatted_number.

(** All histories of writes and deletions: reading gives what the last write of the attribute
    stored, or the default after a deletion; attributes never written keep their value. *)
Theorem C47_history `{U : Unicode} `{F : PyFloat} (before after : list aop) (o : aop) (e : elem) :
  (forall o', o' ∈ after -> aop_name o' <> aop_name o) ->
  reads o (aop_run (before ++ o :: after) e) /\
  only_attrs (map aop_name (before ++ o :: after)) e (aop_run (before ++ o :: after) e).
Proof.
  intros H. split; [|apply aop_run_only]. rewrite aop_run_app. change (aop_run (o :: after)) with (fun e => aop_run after (aop_do o e).1). cbn beta.
  eapply reads_ext; [|apply (aop_reads o (aop_run before e))].
  destruct (aop_run_only after (aop_do o (aop_run before e)).1) as (_ & _ & _ & _ & Hk). symmetry. apply Hk.
  intros (o' & E & Ho')%elem_of_list_fmap. by apply (H o' Ho').
Qed.
Print Assumptions C47_history.

(** ** Cases *)
Local Existing Instance ascii_unicode.
Local Existing Instance int_float.
Definition e47 : elem := T (Nd "text:p" (<["a" := lit "x"]> ∅)%string (Some (lit "t")) None) [new_elem "text:number"; new_elem "text:s"].
Example C47_string_case : str_get "a" e47 <> None /\ str_get "b" e47 = None.
Proof. split; [done|done]. Qed.
Example C47_bool_case : bool_get "a" e47 = false /\ (bool_set "a" (VInt 3) e47).2 = Ok tt /\ truth (VStr []) = false.
Proof. done. Qed.
Example C47_number_case : int_get "a" (num_set "a" (VInt (-12)) e47).1 = Ok (Some (-12)%Z).
Proof. by_vm. Qed.
Example C47_limit_case :
  limit_get "a" 1 (limit_set "a" 1 (Ok (-5)%Z) e47).1 = Ok 1%Z /\ limit_get "b" 1 e47 = Ok 1%Z /\ limit_get "a" 1 e47 = Err ValueError.
Proof. split_and!; by_vm. Qed.
Example C47_attr_case : truth (VInt 2) = true /\ truth VNone = false /\ e_get "b" e47 = None.
Proof. done. Qed.
Example C47_visibility_case : lit "filter" ∈ VISIBILITY /\ lit "hidden" ∉ VISIBILITY.
Proof. split; dec_vm. Qed.
Example C47_target_frame_case : truth (VStr (lit "_blank")) = true /\ truth (VStr []) = false.
Proof. done. Qed.
Example C47_protected_case : truth (VObj (lit "['a', 'b']") true) = true.
Proof. done. Qed.
Example C47_formatted_number_case : formatted_number (set_formatted_number (VInt 7) e47) = Some (lit "7") /\ formatted_number e47 = None.
Proof. split; by_vm. Qed.
Definition aops47 : list aop := [AStr "a" (lit "y"); ALimit "b" 1 7; ABool "c" true; AStr "d" (lit "z")].
Example C47_history_case :
  (forall o', o' ∈ drop 2 aops47 -> aop_name o' <> aop_name (ALimit "b" 1 7)) /\
  aops47 = take 1 aops47 ++ ALimit "b" 1 7 :: drop 2 aops47.
Proof. split; [|done]. intros o' Ho. repeat (apply elem_of_cons in Ho as [->|Ho]; [done|]). by apply elem_of_nil in Ho. Qed.

(** A number property accepts values it cannot read. *)
Theorem C47_number_counterexample `{U : Unicode} `{F : PyFloat} :
  exists (v : pyval) (n : string) (e : elem), (num_set n v e).2 = Ok tt /\ float_get n (num_set n v e).1 = Err ValueError.
Proof.
  exists (VBool true), "a"%string, e47. split; [done|]. unfold float_get, num_set. cbn [fst].
  rewrite get_set, decide_True by done. cbn [tostr]. by rewrite f_parse_True.
Qed.
Print Assumptions C47_number_counterexample.
(** A number 0 cannot be written with set_attr. *)
Theorem C47_attr_counterexample `{U : Unicode} `{F : PyFloat} :
  exists (k : string) (e : elem), put_attr k (VInt 0) e = (e, Err ValueError).
Proof. by exists "a"%string, e47. Qed.
Print Assumptions C47_attr_counterexample.
