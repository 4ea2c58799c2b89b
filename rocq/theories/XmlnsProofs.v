(** Proofs about namespaces. *)
From Verif Require Export XmlnsSpec.

(** ** Splitting *)
Lemma str_split_none c s : c ∉ s -> str_split c s = [s].
Proof.
  induction s as [|x s IH]; [done|]. intros H. apply not_elem_of_cons in H as [Hx Hs]. cbn.
  rewrite decide_False by done. by rewrite IH.
Qed.
Lemma str_split_one c p l : c ∉ p -> c ∉ l -> str_split c (p ++ c :: l) = [p; l].
Proof.
  intros Hp Hl. induction p as [|x p IH]; cbn.
  - rewrite decide_True by done. by rewrite str_split_none.
  - apply not_elem_of_cons in Hp as [Hx Hp]. rewrite decide_False by done. by rewrite IH.
Qed.
Lemma str_count_none c s : c ∉ s -> str_count c s = 0.
Proof.
  intros H. unfold str_count. induction s as [|x s IH]; [done|]. apply not_elem_of_cons in H as [Hx Hs].
  rewrite filter_cons_False by done. auto.
Qed.
Lemma str_count_app c s t : str_count c (s ++ t) = str_count c s + str_count c t.
Proof. unfold str_count. by rewrite filter_app, app_length. Qed.
Lemma str_count_cons c s : str_count c (c :: s) = S (str_count c s).
Proof. unfold str_count. by rewrite filter_cons_True. Qed.
Lemma str_count_zero c s : str_count c s = 0 -> c ∉ s.
Proof.
  unfold str_count. intros H Hc. destruct (elem_of_list_split _ _ Hc) as (a & b & ->).
  rewrite filter_app, filter_cons_True, app_length in H by done. cbn in H. lia.
Qed.
Lemma str_count_one c s : str_count c s = 1 <-> exists p l, s = p ++ c :: l /\ c ∉ p /\ c ∉ l.
Proof.
  split.
  - intros H. destruct (decide (c ∈ s)) as [Hc|Hc]; [|by rewrite str_count_none in H].
    destruct (elem_of_list_split _ _ Hc) as (a & b & ->). rewrite str_count_app, str_count_cons in H.
    exists a, b. split_and!; [done|apply str_count_zero; lia|apply str_count_zero; lia].
  - intros (p & l & -> & Hp & Hl). by rewrite str_count_app, str_count_cons, !str_count_none.
Qed.

(** ** The dictionaries *)
Lemma update_cache l r : l <> [] -> ns_cache (ns_update l r) = ∅.
Proof.
  destruct l as [|x l _] using rev_ind; [done|]. intros _. unfold ns_update. by rewrite foldl_snoc.
Qed.
Lemma cn_keeps t r : prefix2uri (cn t r).1 = prefix2uri r /\ uri2prefix (cn t r).1 = uri2prefix r.
Proof.
  unfold cn. destruct (ns_cache r !! t); [done|]. destruct t; [done|]. case_decide; [done|].
  by destruct (prefix2clark _ _).
Qed.
(** cached entries are what the uncached call gives *)
Definition cache_ok (r : nsreg) : Prop :=
  forall t v, ns_cache r !! t = Some v -> prefix2clark t r = Ok v /\ head t <> Some 123%N.
Lemma prefix2clark_ext t r r' : prefix2uri r = prefix2uri r' -> prefix2clark t r = prefix2clark t r'.
Proof. unfold prefix2clark. by intros ->. Qed.
Lemma cn_ok t r : cache_ok r -> cache_ok (cn t r).1.
Proof.
  intros H. unfold cn. destruct (ns_cache r !! t) eqn:E; [done|]. destruct t as [|c t']; [done|].
  case_decide as Hc; [done|]. destruct (prefix2clark (c :: t') r) eqn:E2; [|done]. intros t v. cbn [fst ns_cache].
  destruct (decide (t = c :: t')) as [->|N].
  - rewrite lookup_insert. intros [= <-]. split; [|by intros [= ->]]. by rewrite <- E2.
  - rewrite lookup_insert_ne by done. intros Hv. by destruct (H t v Hv).
Qed.
Lemma register_ok p u r : cache_ok (register_namespace p u r).
Proof. intros t v. cbn. by rewrite lookup_empty. Qed.
Lemma update_ok l r : cache_ok r -> cache_ok (ns_update l r).
Proof.
  intros H. destruct (decide (l = [])) as [->|N]; [done|]. intros t v. rewrite update_cache by done.
  by rewrite lookup_empty.
Qed.
Lemma run_ok os r : cache_ok r -> cache_ok (ns_run os r).
Proof.
  revert r. induction os as [|o os IH]; [done|]. intros r H. apply IH. destruct o; cbn.
  - apply register_ok.
  - by apply update_ok.
  - by apply cn_ok.
Qed.
Lemma run_update os r : exists c, ns_run os r = NS (prefix2uri (ns_update (registrations os) r)) (uri2prefix (ns_update (registrations os) r)) c.
Proof.
  assert (Hext : forall l r r', prefix2uri r = prefix2uri r' -> uri2prefix r = uri2prefix r' ->
    prefix2uri (ns_update l r) = prefix2uri (ns_update l r') /\ uri2prefix (ns_update l r) = uri2prefix (ns_update l r')).
  { intros l. induction l as [|x l IH]; [done|]. intros r1 r2 E1 E2. apply IH; cbn; by rewrite ?E1, ?E2. }
  revert r. induction os as [|o os IH]; intros r; [exists (ns_cache r); by destruct r|].
  change (ns_run (o :: os) r) with (ns_run os (ns_do r o)). destruct (IH (ns_do r o)) as [c ->]. exists c.
  destruct o as [p u|l|t]; cbn [registrations flat_map app ns_do].
  - done.
  - unfold ns_update. by rewrite foldl_app.
  - destruct (cn_keeps t r) as [E1 E2]. destruct (Hext (registrations os) _ _ E1 E2) as [-> ->]. done.
Qed.
Lemma update_lookup l p : prefix2uri (ns_new l) !! p =
  match list_find (fun pu => pu.1 = p) (reverse l) with Some (_, pu) => Some pu.2 | None => None end.
Proof.
  unfold ns_new, ns_update. induction l as [|[q u] l IH] using rev_ind; [done|].
  rewrite foldl_snoc, reverse_snoc. cbn [list_find fst snd register_namespace prefix2uri].
  destruct (decide (q = p)) as [->|N]; [by rewrite lookup_insert|].
  rewrite lookup_insert_ne, IH by done. by destruct (list_find _ _) as [[]|].
Qed.
Lemma bound_lookup l p u : bound l p u <-> prefix2uri (ns_new l) !! p = Some u.
Proof.
  unfold ns_new, ns_update. induction l as [|[q w] l IH] using rev_ind.
  - split; [|done]. intros (l1 & l2 & E & _). by destruct l1.
  - rewrite foldl_snoc. cbn [fst snd register_namespace prefix2uri]. split.
    + intros (l1 & l2 & E & H). destruct l2 as [|y l2 _] using rev_ind.
      * apply app_inj_tail in E as [-> [= -> ->]]. by rewrite lookup_insert.
      * rewrite app_comm_cons, app_assoc in E. apply app_inj_tail in E as [E Ey]. subst y.
        destruct (decide (q = p)) as [Eq|N]; [exfalso; subst q; apply (H w); set_solver|].
        rewrite lookup_insert_ne by done. apply IH. exists l1, l2. split; [done|]. intros u' Hu. apply (H u'). set_solver.
    + destruct (decide (q = p)) as [->|N].
      * rewrite lookup_insert. intros [= ->]. exists l, []. split; [done|]. intros u' Hu. by apply elem_of_nil in Hu.
      * rewrite lookup_insert_ne by done. intros (l1 & l2 & -> & H)%IH. exists l1, (l2 ++ [(q, w)]).
        split; [by rewrite <- app_assoc|]. intros u' [Hu|Hu]%elem_of_app; [by apply (H u')|].
        apply elem_of_list_singleton in Hu. congruence.
Qed.

(** ** One call *)
Lemma cn_prefixed r p l tag : cache_ok r -> prefixed p l tag ->
  (cn tag r).2 = match prefix2uri r !! p with Some u => Ok (clark u l) | None => Err KeyError end.
Proof.
  intros H (-> & Hp & Hl & Hh).
  assert (E : prefix2clark (p ++ lit ":" ++ l) r = match prefix2uri r !! p with Some u => Ok (clark u l) | None => Err KeyError end).
  { unfold prefix2clark, split_prefix. change (lit ":" ++ l) with (58%N :: l).
    rewrite decide_True by (apply str_count_one; eauto). rewrite str_split_one by done. done. }
  unfold cn. destruct (ns_cache r !! _) as [v|] eqn:Ec; [destruct (H _ _ Ec) as [<- _]; done|].
  destruct (p ++ lit ":" ++ l) as [|c t] eqn:Et; [by destruct p|]. rewrite decide_False by (by intros ->).
  rewrite E. by destruct (prefix2uri r !! p).
Qed.
Lemma cn_clark r t : cache_ok r -> head t = Some 123%N -> cn t r = (r, Ok t).
Proof.
  intros H Ht. unfold cn. destruct (ns_cache r !! t) eqn:E; [by destruct (H _ _ E)|]. destruct t; [done|].
  cbn in Ht. simplify_eq. by rewrite decide_True.
Qed.
Lemma cn_bad r t : cache_ok r -> head t <> Some 123%N -> str_count 58 t <> 1 -> cn t r = (r, Err (if decide (t = []) then IndexError else ValueError)).
Proof.
  intros H Ht Hc. assert (E : prefix2clark t r = Err ValueError).
  { unfold prefix2clark, split_prefix. by rewrite decide_False. }
  unfold cn. destruct (ns_cache r !! t) eqn:Ec; [destruct (H _ _ Ec); congruence|]. destruct t; [done|].
  rewrite decide_False by (by intros ->). by rewrite E.
Qed.
Lemma clark_inj u1 u2 l1 l2 : 125%N ∉ u1 -> 125%N ∉ u2 -> clark u1 l1 = clark u2 l2 -> u1 = u2 /\ l1 = l2.
Proof.
  intros H1 H2. change (123%N :: u1 ++ 125%N :: l1 = 123%N :: u2 ++ 125%N :: l2 -> u1 = u2 /\ l1 = l2). intros E. injection E as E. revert u2 H2 E. induction u1 as [|c u1 IH]; intros [|d u2] H2 E; cbn in *.
  - by injection E.
  - injection E as E _. subst d. exfalso. apply H2. by left.
  - injection E as E _. subst c. exfalso. apply H1. by left.
  - injection E as -> E. apply not_elem_of_cons in H1 as [_ H1]. apply not_elem_of_cons in H2 as [_ H2].
    destruct (IH H1 u2 H2 E) as [-> ->]. done.
Qed.
