(** Proofs about the observer. *)
From Verif Require Export ObserverSpec.

Definition listeners (s : observers) (e : pystr) : gset lid := match s !! e with Some l => l | None => ∅ end.

Section proofs.
Context (handler : pystr -> lid -> option (res unit)).

Lemma in_subscribe e x s e' y : y ∈ listeners (subscribe handler e x s).1 e' <->
  (e' = e /\ y = x /\ handler e x <> None) \/ y ∈ listeners s e'.
Proof.
  unfold subscribe, listeners. destruct (handler e x); [|naive_solver]. cbn.
  destruct (decide (e' = e)) as [->|N].
  - rewrite lookup_insert. destruct (s !! e); set_solver.
  - rewrite lookup_insert_ne by done. naive_solver.
Qed.
Lemma in_unsubscribe e x s e' y : y ∈ listeners (unsubscribe e x s).1 e' <->
  y ∈ listeners s e' /\ ¬ (e' = e /\ y = x).
Proof.
  unfold unsubscribe, listeners. destruct (s !! e) as [l|] eqn:E.
  - case_decide as Hx; cbn.
    + destruct (decide (e' = e)) as [->|N].
      * rewrite lookup_insert, E. set_solver.
      * rewrite lookup_insert_ne by done. naive_solver.
    + destruct (decide (e' = e)) as [->|N]; [rewrite E; set_solver|]. naive_solver.
  - cbn. destruct (decide (e' = e)) as [->|N]; [rewrite E; set_solver|]. naive_solver.
Qed.
Lemma in_forget x s e' y : y ∈ listeners (forget x s) e' <-> y ∈ listeners s e' /\ y <> x.
Proof. unfold forget, listeners. rewrite lookup_fmap. destruct (s !! e'); cbn; set_solver. Qed.

Lemma run_subscribed os e x : x ∈ listeners (o_run handler os) e <-> subscribed handler os e x.
Proof.
  unfold o_run. induction os as [|o os IH] using rev_ind.
  - split; [cbn; set_solver|]. intros (os1 & os2 & E & _). by destruct os1.
  - rewrite foldl_snoc. set (s := foldl (o_do handler) ∅ os) in *.
    assert (Hsplit : subscribed handler (os ++ [o]) e x <->
      (o = OSub e x /\ handler e x <> None) \/ (subscribed handler os e x /\ o <> OUnsub e x /\ o <> OFree x)).
    { split.
      - intros (os1 & os2 & E & Hh & H1 & H2). destruct os2 as [|o' os2 _] using rev_ind.
        + apply app_inj_tail in E as [-> ->]. by left.
        + rewrite app_comm_cons, app_assoc in E. apply app_inj_tail in E as [E Eo]. subst o'. right.
          split; [|split; intros ->; set_solver]. exists os1, os2. split_and!; set_solver.
      - intros [[-> Hh]|[(os1 & os2 & -> & Hh & H1 & H2) [N1 N2]]].
        + exists os, []. split_and!; [done|done|apply not_elem_of_nil|apply not_elem_of_nil].
        + exists os1, (os2 ++ [o]). split_and!; [by rewrite <- app_assoc|done| |].
          * intros [?|Ho%elem_of_list_singleton]%elem_of_app; [done|congruence].
          * intros [?|Ho%elem_of_list_singleton]%elem_of_app; [done|congruence]. }
    rewrite Hsplit. destruct o as [e' y|e' y|y]; cbn [o_do].
    + rewrite in_subscribe, IH. naive_solver.
    + rewrite in_unsubscribe, IH. naive_solver.
    + rewrite in_forget, IH. naive_solver.
Qed.
Lemma run_known os e : is_Some (o_run handler os !! e) <-> known handler os e.
Proof.
  unfold o_run. induction os as [|o os IH] using rev_ind.
  - cbn. split; [intros [? H]; by rewrite lookup_empty in H|]. intros (x & H & _). by apply elem_of_nil in H.
  - rewrite foldl_snoc. set (s := foldl (o_do handler) ∅ os) in *.
    assert (Hk : known handler (os ++ [o]) e <-> known handler os e \/ exists x, o = OSub e x /\ handler e x <> None).
    { unfold known. split.
      - intros (x & [Hx|Hx%elem_of_list_singleton]%elem_of_app & Hh); [left; eauto|right; eauto].
      - intros [(x & Hx & Hh)|(x & -> & Hh)]; exists x; split; try done; apply elem_of_app; [by left|right; by apply elem_of_list_singleton]. }
    rewrite Hk, <- IH. destruct o as [e' y|e' y|y]; cbn [o_do].
    + unfold subscribe. destruct (handler e' y) eqn:Eh; cbn.
      * destruct (decide (e' = e)) as [->|N]; [rewrite lookup_insert; split; [|eauto]; intros _; right; exists y; by rewrite Eh|].
        rewrite lookup_insert_ne by done. naive_solver.
      * naive_solver.
    + unfold unsubscribe. destruct (s !! e') as [l|] eqn:E; [case_decide|]; cbn.
      * destruct (decide (e' = e)) as [->|N]; [rewrite lookup_insert, E; naive_solver|]. rewrite lookup_insert_ne by done. naive_solver.
      * naive_solver.
      * naive_solver.
    + unfold forget. rewrite lookup_fmap, fmap_is_Some. naive_solver.
Qed.

(** ** Sending *)
Context (get_xmlroot : lid -> option rid).
Definition wanted (root : option (rid * bool)) (x : lid) : Prop :=
  match root with Some (r, true) => get_xmlroot x = Some r | _ => True end.
Global Instance wanted_dec root x : Decision (wanted root x).
Proof. unfold wanted. destruct root as [[r []]|]; apply _. Defined.
Definition sender (e : pystr) (root : option (rid * bool)) : lid -> act (list lid) unit :=
  match root with Some (r, true) => send_to_root handler get_xmlroot e r | _ => send_to_all handler e end.
Lemma sender_eq e root x calls : sender e root x calls = if decide (wanted root x) then send_to_all handler e x calls else (calls, Ok tt).
Proof.
  unfold sender. destruct root as [[r []]|]; [|by rewrite decide_True..]. unfold send_to_root.
  case_decide as H; unfold wanted in H; [rewrite H; by rewrite decide_True|].
  destruct (get_xmlroot x) as [r'|]; [|done]. rewrite decide_False by congruence. done.
Qed.
Lemma sent_all e root l calls : (forall x, x ∈ l -> wanted root x -> handler e x = Some (Ok tt)) ->
  aiter l (sender e root) calls = (calls ++ filter (wanted root) l, Ok tt).
Proof.
  revert calls. induction l as [|x l IH]; intros calls H; [by rewrite filter_nil, app_nil_r|]. cbn [aiter]. unfold abind. rewrite sender_eq.
  rewrite filter_cons. case_decide as Hw.
  - unfold send_to_all. rewrite (H x) by (done || by left). rewrite IH; [by rewrite <- app_assoc|]. intros y Hy. apply H. by right.
  - apply IH. intros y Hy. apply H. by right.
Qed.
Lemma sent_stop e root l1 x l2 calls err : (forall y, y ∈ l1 -> wanted root y -> handler e y = Some (Ok tt)) ->
  wanted root x -> handler e x = Some (Err err) ->
  aiter (l1 ++ x :: l2) (sender e root) calls = (calls ++ filter (wanted root) l1 ++ [x], Err err).
Proof.
  revert calls. induction l1 as [|y l1 IH]; intros calls H Hx He; cbn [aiter app]; unfold abind; rewrite sender_eq.
  - rewrite decide_True by done. unfold send_to_all. by rewrite He, filter_nil.
  - rewrite filter_cons. case_decide as Hw.
    + unfold send_to_all. rewrite (H y) by (done || by left). rewrite IH; [by rewrite <- !app_assoc| |done|done]. intros z Hz. apply H. by right.
    + apply IH; [|done|done]. intros z Hz. apply H. by right.
Qed.
End proofs.
