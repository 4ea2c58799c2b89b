(** Invariant of table objects and the effect of single node operations. *)
From Verif Require Export TableSpec NodeStoreFacts TableNormProofs.

Definition other (p q : string) : Prop := (p = ROW /\ q = COL) \/ (p = COL /\ q = ROW).

(** [t] is the table, [W] its surroundings *)
Record Inv (s : st) (W : ctx) (t : node) : Prop := {
  i_store : store s = plug W [t];
  i_rt : rt (obj s) = nid t;
  i_nodup : NoDup (ids (store s));
  i_fresh : Forall (fun x => x < nxt s)%N (ids (store s));
  i_flat : no_nesting t;
  i_rows : rowc (obj s) = map nid (ldesc ROW t);
  i_cols : colc (obj s) = map nid (ldesc COL t)
}.

Lemma no_nesting_lflat t : no_nesting t ->
  lflat ROW ROW t /\ lflat ROW COL t /\ lflat COL ROW t /\ lflat COL COL t.
Proof.
  unfold no_nesting, lflat. intros [H1 H2]%Forall_app.
  split_and!; eapply Forall_impl; try done; by intros ? [? ?].
Qed.
Lemma no_nesting_of t :
  Forall (fun r => ldesc ROW r = [] /\ ldesc COL r = []) (ldesc ROW t) ->
  Forall (fun r => ldesc ROW r = [] /\ ldesc COL r = []) (ldesc COL t) -> no_nesting t.
Proof. intros. by apply Forall_app. Qed.

Lemma Inv_sane s W t : Inv s W t -> sane s /\ in_step s.
Proof.
  intros [H1 H2 H3 H4 H5 H6 H7].
  assert (Ht : table_node s = Some t).
  { unfold table_node. rewrite H2, H1. apply sub_plug. by rewrite <- H1. }
  split; [split_and!; try done|].
  - rewrite H2. rewrite H1 in *. intros E. rewrite ids_plug1 in H3.
    apply NoDup_app in H3 as (_ & H3 & _). apply (H3 (nid t)).
    + rewrite E. rewrite nid_plug. destruct W; left.
    + apply elem_of_app. left. apply nid_in.
  - eauto.
  - exists t. done.
Qed.
Lemma sane_Inv s : sane s -> in_step s -> exists W t, Inv s W t /\ table_node s = Some t.
Proof.
  intros (H1 & H2 & H3 & t & H4 & H5) (t' & H4' & H6 & H7). rewrite H4 in H4'. injection H4' as <-.
  pose proof H4 as E. unfold table_node in E. apply sub_Some in E as [E [E2|[W E2]]].
  - rewrite E2 in E. done.
  - exists W, t. split; [|done]. constructor; try done.
Qed.
Lemma Inv_table_node s W t : Inv s W t -> table_node s = Some t.
Proof. intros [H1 H2 H3 _ _ _ _]. unfold table_node. rewrite H2, H1. apply sub_plug. by rewrite <- H1. Qed.
Lemma Inv_det s W t W' t' : Inv s W t -> Inv s W' t' -> t = t'.
Proof. intros H1%Inv_table_node H2%Inv_table_node. congruence. Qed.
Lemma Inv_nxt s W t n : Inv s W t -> (nxt s <= n)%N -> Inv (set_nxt n s) W t.
Proof.
  intros [H1 H2 H3 H4 H5 H6 H7] Hn. constructor; try done. cbn. eapply Forall_impl; [done|]. cbn. lia.
Qed.

(** a node of kind [p] without rows and columns inside *)
Definition leafy (p : string) (y : node) : Prop := ltag y = p /\ ldesc ROW y = [] /\ ldesc COL y = [].
Lemma leafy_self p y : p = ROW \/ p = COL -> leafy p y -> lself p y = [y].
Proof. intros Hp (H1 & H2 & H3). unfold lself. rewrite decide_True by done. by destruct Hp as [-> | ->]; rewrite ?H2, ?H3. Qed.
Lemma leafy_other p q y : other p q -> leafy p y -> lself q y = [].
Proof.
  intros [[-> ->]|[-> ->]] (H1 & H2 & H3); unfold lself; rewrite H1; rewrite decide_False by done; done.
Qed.
Lemma leafy_selfs p m : p = ROW \/ p = COL -> Forall (leafy p) m -> flat_map (lself p) m = m.
Proof. intros Hp. induction 1 as [|y m Hy _ IH]; [done|]. cbn. rewrite IH, leafy_self by done. done. Qed.
Lemma leafy_others p q m : other p q -> Forall (leafy p) m -> flat_map (lself q) m = [].
Proof. intros Hp. induction 1 as [|y m Hy _ IH]; [done|]. cbn. by rewrite IH, (leafy_other p q). Qed.

Lemma desc_leafy p t : p = ROW \/ p = COL -> no_nesting t -> Forall (leafy p) (ldesc p t).
Proof.
  intros Hp Hn. pose proof (ldesc_tag p t) as Ht. unfold no_nesting in Hn. apply Forall_app in Hn as [Hn1 Hn2].
  apply Forall_forall. intros y Hy. rewrite Forall_forall in Ht. specialize (Ht y Hy).
  destruct Hp as [-> | ->].
  - rewrite Forall_forall in Hn1. destruct (Hn1 y Hy). done.
  - rewrite Forall_forall in Hn2. destruct (Hn2 y Hy). done.
Qed.

(** a node that is no row or column and contains none *)
Definition cellish (c : node) : Prop := lself ROW c = [] /\ lself COL c = [].
Lemma lself_nil tg k : lself tg k = [] <-> ltag k <> tg /\ ldesc tg k = [].
Proof. unfold lself. case_decide; split; try done; by intros [? ?]. Qed.
Lemma cellish_plain c : cellish c <-> plain (erase c).
Proof.
  unfold cellish, plain. rewrite !lself_nil. rewrite ltag_erase, !ldesc_nil. change ROW with "table:table-row". change COL with "table:table-column". tauto.
Qed.
Lemma ldesc_nil_kids tg t : ldesc tg t = [] <-> Forall (fun k => lself tg k = []) (kids t).
Proof.
  destruct t as [a ks]. rewrite ldesc_T. cbn. induction ks as [|k ks IH]; [done|]. cbn.
  rewrite Forall_cons, <- IH. split; [by intros [? ?]%app_nil|]. by intros [-> ->].
Qed.
Lemma leafy_kids p y : leafy p y <-> ltag y = p /\ Forall cellish (kids y).
Proof.
  unfold leafy, cellish. rewrite !ldesc_nil_kids, Forall_and. tauto.
Qed.

(** ** Replacing a row or a column by a list of them *)
Lemma edit_hole s W t p q i k m n' :
  other p q -> Inv s W t -> ldesc p t !! i = Some k ->
  Forall (leafy p) m -> NoDup (flat_map ids m) ->
  Forall (fun x => (x ∈ ids k \/ x ∉ ids (store s)) /\ x < n')%N (flat_map ids m) -> (nxt s <= n')%N ->
  exists t', (forall f, f k = m -> edit (nid k) f (store s) = plug W [t']) /\
    root t' = root t /\
    ldesc p t' = take i (ldesc p t) ++ m ++ drop (S i) (ldesc p t) /\
    ldesc q t' = ldesc q t /\ no_nesting t' /\
    NoDup (ids (plug W [t'])) /\ Forall (fun x => x < n')%N (ids (plug W [t'])) /\
    ~ no_parent (nid k) (store s) /\ sub (nid k) (store s) = Some k /\
    (m = [] -> Permutation (ids (store s)) (ids (plug W [t']) ++ ids k)).
Proof.
  intros Hpq [Hst Hrt Hnd Hfr Hfl Hr Hc] Hi Hm Hmn Hmx Hn.
  assert (Hp : p = ROW \/ p = COL) by (destruct Hpq as [[? ?]|[? ?]]; auto).
  assert (Hq : q = ROW \/ q = COL) by (destruct Hpq as [[? ?]|[? ?]]; auto).
  pose proof (no_nesting_lflat t Hfl) as (F1 & F2 & F3 & F4).
  assert (Fpp : lflat p p t) by (destruct Hpq as [[-> ->]|[-> ->]]; done).
  assert (Fqp : lflat q p t) by (destruct Hpq as [[-> ->]|[-> ->]]; done).
  destruct (hole_at p t i k Fpp Hi) as (c & Et & Ha & Hl).
  pose proof (desc_leafy p t Hp Hfl) as Hleaf.
  assert (Hk : leafy p k) by (rewrite Forall_forall in Hleaf; apply Hleaf; by eapply elem_of_list_lookup_2).
  assert (Ha' : Forall (fun a => tag (pl a) <> q) (anc c)).
  { apply (anc_not p q c k); [by rewrite <- Et|]. by destruct Hk. }
  assert (Hnd2 : NoDup (ids (plug W [plug c [k]]))) by (by rewrite <- Et, <- Hst).
  exists (plug c m).
  assert (Ep : ldesc p t = dl p c ++ [k] ++ dr p c).
  { rewrite Et at 1. rewrite ldesc_plug by done. cbn. rewrite app_nil_r. by rewrite leafy_self. }
  assert (Ei : ids (store s) = il W ++ (il c ++ ids k ++ ir c) ++ ir W).
  { by rewrite Hst, Et, !ids_plug1. }
  assert (Ei' : ids (plug W [plug c m]) = il W ++ (il c ++ flat_map ids m ++ ir c) ++ ir W).
  { by rewrite ids_plug1, ids_plug. }
  assert (Hperm : Permutation (ids (store s)) (ids k ++ (il W ++ il c ++ ir c ++ ir W))).
  { rewrite Ei. solve_Permutation. }
  assert (Hperm' : Permutation (ids (plug W [plug c m])) (flat_map ids m ++ (il W ++ il c ++ ir c ++ ir W))).
  { rewrite Ei'. solve_Permutation. }
  split_and!.
  - intros f Hf. rewrite Hst, Et, <- plug_ccomp. rewrite edit_plug.
    + by rewrite plug_ccomp, Hf.
    + by rewrite plug_ccomp.
  - rewrite Et. by rewrite !root_plug.
  - rewrite ldesc_plug by done. rewrite leafy_selfs by done. rewrite Ep.
    rewrite take_app_alt by done. rewrite drop_app_ge by lia.
    replace (S i - length (dl p c)) with 1 by lia. done.
  - rewrite ldesc_plug by done. rewrite Et. rewrite ldesc_plug by done.
    rewrite (leafy_others p q m) by done. cbn. by rewrite (leafy_other p q).
  - assert (D1 : Forall (fun r => ldesc ROW r = [] /\ ldesc COL r = []) (ldesc p (plug c m))).
    { rewrite ldesc_plug by done. rewrite leafy_selfs by done. rewrite Ep in Hleaf.
      apply Forall_app in Hleaf as [H1 H2]. apply Forall_app in H2 as [_ H2].
      rewrite !Forall_app. split_and!; eapply Forall_impl; try done; by intros ? (? & ? & ?). }
    assert (D2 : Forall (fun r => ldesc ROW r = [] /\ ldesc COL r = []) (ldesc q (plug c m))).
    { rewrite ldesc_plug by done. rewrite (leafy_others p q m) by done. cbn.
      pose proof (desc_leafy q t Hq Hfl) as Hl2. rewrite Et, ldesc_plug in Hl2 by done. cbn in Hl2.
      rewrite (leafy_other p q) in Hl2 by done. eapply Forall_impl; [exact Hl2|]. by intros ? (? & ? & ?). }
    destruct Hpq as [[-> ->]|[-> ->]]; by apply no_nesting_of.
  - rewrite Hperm'. apply NoDup_app. rewrite Hperm in Hnd. apply NoDup_app in Hnd as (N1 & N2 & N3).
    split_and!; [done| |done]. intros x Hx Hx'. rewrite Forall_forall in Hmx. destruct (Hmx x Hx) as [[H|H] _].
    + by apply (N2 x).
    + apply H. rewrite Hperm. apply elem_of_app. by right.
  - rewrite Hperm'. apply Forall_app. split.
    + eapply Forall_impl; [done|]. by intros ? [_ ?].
    + rewrite Hperm in Hfr. apply Forall_app in Hfr as [_ Hfr]. eapply Forall_impl; [done|]. cbn. lia.
  - rewrite Hst, Et. apply not_no_parent. done.
  - rewrite Hst, Et, <- plug_ccomp. apply sub_plug. by rewrite plug_ccomp.
  - intros ->. rewrite Ei, Ei'. cbn. solve_Permutation.
Qed.
