From Verif Require Export AttrsSpec.

Section proofs.
Context `{U : Unicode} `{F : PyFloat}.

Lemma get_set k k' v e : e_get k' (e_set k v e) = if decide (k = k') then Some v else e_get k' e.
Proof.
  destruct e as [a ks]. unfold e_get, e_attrs, e_set. cbn. case_decide; subst.
  - apply lookup_insert.
  - by apply lookup_insert_ne.
Qed.
Lemma get_del k k' e : e_get k' (e_del k e) = if decide (k = k') then None else e_get k' e.
Proof.
  destruct e as [a ks]. unfold e_get, e_attrs, e_del. cbn. case_decide; subst.
  - apply lookup_delete.
  - by apply lookup_delete_ne.
Qed.
Lemma only_set k v e ks : k ∈ ks -> only_attrs ks e (e_set k v e).
Proof.
  intros Hk. destruct e as [a l]. split_and!; try done. intros k' Hk'. rewrite get_set.
  rewrite decide_False; [done|]. intros ->. done.
Qed.
Lemma only_del k e ks : k ∈ ks -> only_attrs ks e (e_del k e).
Proof.
  intros Hk. destruct e as [a l]. split_and!; try done. intros k' Hk'. rewrite get_del.
  rewrite decide_False; [done|]. intros ->. done.
Qed.
Lemma only_refl ks e : only_attrs ks e e.
Proof. split_and!; try done. Qed.
Lemma only_trans ks e1 e2 e3 : only_attrs ks e1 e2 -> only_attrs ks e2 e3 -> only_attrs ks e1 e3.
Proof.
  intros (A1 & A2 & A3 & A4 & A5) (B1 & B2 & B3 & B4 & B5). split_and!; try congruence.
  intros k Hk. by rewrite B5, A5.
Qed.
Lemma only_mono ks ks' e e' : (forall k, k ∈ ks -> k ∈ ks') -> only_attrs ks e e' -> only_attrs ks' e e'.
Proof. intros H (A1 & A2 & A3 & A4 & A5). split_and!; try done. intros k Hk. apply A5. intros ?. by apply Hk, H. Qed.

(** ** Histories *)
Lemma aop_only o e : only_attrs [aop_name o] e (aop_do o e).1.
Proof.
  destruct o; cbn; try (apply only_set; by left). unfold attr_del. destruct (e_get n e); cbn; [apply only_del; by left|apply only_refl].
Qed.
Lemma reads_ext o e e' : e_get (aop_name o) e = e_get (aop_name o) e' -> reads o e -> reads o e'.
Proof.
  destruct o; cbn [aop_name reads]; unfold str_get, bool_get, float_get, int_get, limit_get; intros E; rewrite E; done.
Qed.
Lemma aop_reads o e : reads o (aop_do o e).1.
Proof.
  destruct o as [n s|n b|n f|n z|n lim z|n]; cbn [aop_do reads fst]; unfold str_set, bool_set, num_set, limit_set; cbn [fst]; unfold str_get, bool_get, float_get, int_get, limit_get; rewrite ?get_set, ?decide_True by done.
  - done.
  - by destruct b.
  - cbn. by rewrite f_parse_repr.
  - cbn. by rewrite py_int_show_Z.
  - rewrite py_int_show_Z. cbn. f_equal. lia.
  - assert (E : e_get n (attr_del n e).1 = None).
    { unfold attr_del. destruct (e_get n e) eqn:E; cbn; [|done]. rewrite get_del. by rewrite decide_True. }
    rewrite E. done.
Qed.
Lemma aop_run_only os e : only_attrs (map aop_name os) e (aop_run os e).
Proof.
  revert e. induction os as [|o os IH]; intros e; [apply only_refl|]. unfold aop_run. cbn [foldl map].
  eapply only_trans; [eapply only_mono; [|apply aop_only]; intros k; rewrite elem_of_list_singleton; intros ->; left|].
  eapply only_mono; [|apply IH]. intros k Hk. by right.
Qed.
Lemma aop_run_app os os' e : aop_run (os ++ os') e = aop_run os' (aop_run os e).
Proof. apply foldl_app. Qed.

(** ** formatted_number *)
Lemma find_child_on_first t f ks a k :
  (forall x, e_tag (f x) = e_tag x) -> find_child t (T a ks) = Some k ->
  find_child t (T a (on_first t f ks)) = Some (f k).
Proof.
  intros Hf. unfold find_child, findall. cbn [kids]. induction ks as [|x ks IH]; [done|]. cbn [on_first].
  rewrite filter_cons. destruct (decide (e_tag x = t)) as [E|E].
  - intros [= ->]. rewrite filter_cons. rewrite decide_True by (by rewrite Hf). done.
  - intros H. rewrite filter_cons. rewrite decide_False by done. by apply IH.
Qed.
Lemma on_first_others t t' f ks : t' <> t -> (forall x, e_tag (f x) = e_tag x) ->
  filter (fun k => e_tag k = t') (on_first t f ks) = filter (fun k => e_tag k = t') ks.
Proof.
  intros Hne Hf. induction ks as [|x ks IH]; [done|]. cbn [on_first]. destruct (decide (e_tag x = t)) as [E|E].
  - rewrite !filter_cons. rewrite !decide_False; [done|congruence|rewrite Hf; congruence].
  - rewrite !filter_cons. by rewrite IH.
Qed.
End proofs.
