(** Writing values to cells leaves no empty text behind. *)
From Verif Require Import FileSys SolidProofs SheetProofs T_Table.

(** ** texts *)
Lemma solid_append_item e i : ok_item i -> solid e -> solid (append_item e i).
Proof.
  destruct e as [a ks]. intros Hi (H1 & H2 & H3)%solid_iff. destruct i as [s|c]; cbn [append_item].
  - destruct Hi as [Hs _]. assert (Ht : forall o, text_append o s <> Some []).
    { intros o. unfold text_append. destruct (truthy o); [|congruence]. intros [= E]. by apply app_eq_nil in E as [_ ->]. }
    destruct (last ks) as [k|] eqn:El; apply solid_iff; split_and!; try done; try (by apply Ht).
    apply Forall_app. split; [by apply Forall_take|]. apply Forall_singleton. apply solid_tail; [done|].
    rewrite Forall_forall in H3. apply H3. by apply last_Some_elem_of.
  - apply solid_append; [|by apply solid_iff]. destruct Hi as [[= ->]|[[= ->]|(n & _ & [= ->])]]; [apply solid_new|apply solid_new|].
    unfold Spaces. case_decide; [apply solid_set|]; apply solid_new.
Qed.
Lemma solid_append_text `{U : Unicode} e t : solid e -> solid (append_text e t).
Proof.
  unfold append_text. destruct (encode_canonical t) as [Hc _]. revert e. induction Hc as [|i l Hi _ IH]; intros e He; [done|]. cbn [foldl]. by apply IH, solid_append_item.
Qed.
Lemma solid_new_span `{U : Unicode} tg t style : solid (new_span tg t style).
Proof.
  unfold new_span. assert (H : solid (match style with [] => new_elem tg | _ => e_set "text:style-name" style (new_elem tg) end)) by (destruct style; [|apply solid_set]; apply solid_new).
  destruct t; [done|by apply solid_append_text].
Qed.

(** ** cells *)
Section cells.
Context `{U : Unicode} `{F : PyFloat}.
Lemma solid_clear_old e : solid e -> solid (clear_old_value e).
Proof.
  intros He. apply solid_on_kids; [|by apply Forall_nil_2]. unfold clear_value_attribute. destruct (value_type e) as [t|]; [|done]. destruct (TYPE_VALUE_MAP t); [by apply solid_del|done].
Qed.
Lemma solid_call (c : call) e : (forall p, c_val c = VWrap p -> solid p) -> solid e -> solid (run_call e c).
Proof.
  destruct c as [v vt cur]. cbn [c_val]. intros Hp He. unfold run_call. cbn [c_val c_type c_cur]. rewrite set_value_eq.
  destruct (is_valid_value v) eqn:Ev; [|done]. case_decide as Ht; [|done]. destruct (TVM_valid _ Ht) as [k Hk]. apply solid_clear_old in He.
  destruct (convert v (call_type v vt cur)) as [p|s] eqn:Ec.
  - rewrite new_inl. unfold with_text. cbn [fst]. apply solid_set, solid_append; [|done].
    destruct v; try (cbn [convert] in Ec; repeat case_decide; try done; injection Ec as <-; apply solid_new_span). cbn in Ec. injection Ec as <-. by apply Hp.
  - rewrite (new_inr _ _ k) by done. destruct s as [|x s]; cbn [fst]; [done|]. unfold with_attr. destruct (_ && _); repeat apply solid_set; done.
Qed.
End cells.

(** ** the store *)
Lemma solid_sub x w t : solid (erase w) -> sub x w = Some t -> solid (erase t).
Proof.
  revert t. induction w as [a ks IH] using tree_ind'. intros t Hw. rewrite sub_T. case_decide; [by intros [= <-]|]. cbn in Hw. apply solid_iff in Hw as (_ & _ & Hk).
  induction IH as [|k ks Hi _ IHks]; [done|]. cbn in Hk. apply Forall_cons in Hk as [Hk Hks]. cbn. destruct (sub x k) as [y|] eqn:E; [intros [= <-]; by apply Hi|by apply IHks].
Qed.
Lemma solid_edit x f w : (forall k, solid (erase k) -> Forall solid (map erase (f k))) -> solid (erase w) -> solid (erase (edit x f w)).
Proof.
  intros Hf. induction w as [a ks IH] using tree_ind'. intros Hw. rewrite edit_T. cbn in *. apply solid_iff in Hw as (H1 & H2 & Hk). apply solid_iff. split_and!; try done.
  induction IH as [|k ks Hi _ IHks]; [by apply Forall_nil_2|]. cbn in *. apply Forall_cons in Hk as [Hk Hks]. rewrite map_app. apply Forall_app. split; [|by apply IHks].
  unfold ed. case_decide; [by apply Hf|]. apply Forall_singleton. by apply Hi.
Qed.
Lemma solid_desc tg w : solid (erase w) -> Forall (fun k => solid (erase k)) (ldesc tg w).
Proof.
  induction w as [a ks IH] using tree_ind'. cbn. intros (_ & _ & Hk)%solid_iff. induction IH as [|k ks Hi _ IHks]; [by apply Forall_nil_2|]. cbn in *. apply Forall_cons in Hk as [Hk Hks].
  repeat apply Forall_app_2; [|by apply Hi|by apply IHks]. case_decide; [by apply Forall_singleton|by apply Forall_nil_2].
Qed.
Lemma solid_cell s t i j x : solid (erase (store s)) -> table_node s = Some t -> cell_at t i j = Some x -> solid (erase x).
Proof.
  intros Hs Ht Hx. pose proof (solid_sub _ _ _ Hs Ht) as H. destruct (cell_at_row _ _ _ _ Hx) as (r & Hi & Hj). apply (solid_desc ROW) in H.
  rewrite Forall_lookup in H. apply H, solid_kids in Hi. rewrite erase_kids in Hi. rewrite Forall_lookup in Hi. apply (Hi j). by rewrite list_lookup_fmap, Hj.
Qed.
Lemma solid_write s pos x f : (forall e, solid e -> solid (f e)) -> ctl_get_cell pos s = (s, Ok x) -> solid (erase x) -> solid (erase (store s)) ->
  solid (erase (store (write_cell pos f s).1)).
Proof.
  intros Hf Hg Hx Hs. unfold write_cell, abind. rewrite Hg. unfold alloc. destruct (label_ok (f (erase x)) (nxt s)) as (El & _). destruct (label (f (erase x)) (nxt s)) as [u n]. cbn [fst] in El.
  unfold amod. cbn [fst store set_store set_nxt]. apply solid_edit; [|done]. intros k Hk. apply Forall_singleton. apply Hf in Hk. apply Hf in Hx. rewrite <- El in Hx.
  destruct (f (erase k)) as [b ks']. apply solid_iff in Hk as (K1 & K2 & _). apply solid_kids in Hx. rewrite erase_kids in Hx. cbn. by apply solid_iff.
Qed.
Lemma solid_set_values `{U : Unicode} `{F : PyFloat} s nr nc ws :
  sane s -> in_step s -> sized s nr nc -> expanded s -> Forall (usable nr nc) ws -> Forall (fun w => forall p, c_val w.2 = VWrap p -> solid p) ws ->
  solid (erase (store s)) -> solid (erase (store (set_values ws s))).
Proof.
  intros H1 H2 H3 H4 Hw Hp Hs. induction ws as [|w ws IH] using rev_ind; [done|]. apply Forall_app in Hw as [Hws Hw]. apply Forall_inv in Hw. apply Forall_app in Hp as [Hps Hp]. apply Forall_inv in Hp.
  specialize (IH Hws Hps). destruct (set_values_ok s nr nc ws H1 H2 H3 H4 Hws) as (_ & I1 & I2 & I3 & I4 & _). rewrite set_values_snoc. set (s1 := set_values ws s) in *. destruct Hw as [(i & j & Hw) _].
  destruct (read_cell s1 nr nc w.1 i j I1 I2 I3 Hw) as (t & x & T1 & Hx & G & _). pose proof (solid_cell _ _ _ _ _ IH T1 Hx) as Hsx. destruct Hw as (r & c & D & _).
  unfold cell_set_value, abind, alift. unfold table_getitem, abind, alift in G. rewrite (denotes_index _ _ _ D) in *. rewrite G.
  pose proof (solid_write s1 (r, c) x (fun e => (set_value (c_val w.2) (c_type w.2) (c_cur w.2) e).1) (fun e => solid_call w.2 e Hp) G Hsx IH) as HW.
  destruct (write_cell _ _ s1) as [s2 [[]|]]; done.
Qed.
