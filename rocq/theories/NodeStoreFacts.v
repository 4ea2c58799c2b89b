(** Facts about trees with identity: contexts, editing, labelling. *)
From Verif Require Export NodeStore PyBaseFacts.

Definition lself (tg : string) (k : node) : list node :=
  (if decide (ltag k = tg) then [k] else []) ++ ldesc tg k.
Lemma ldesc_T tg a ks : ldesc tg (T a ks) = flat_map (lself tg) ks.
Proof. done. Qed.
Lemma ids_T a ks : ids (T a ks) = nid_ a :: flat_map ids ks.
Proof. done. Qed.
Lemma ids_eq t : ids t = nid t :: flat_map ids (kids t).
Proof. by destruct t. Qed.
Lemma nid_in t : nid t ∈ ids t.
Proof. rewrite ids_eq. left. Qed.

Lemma elem_of_flat_map {A B} (f : A -> list B) (l : list A) y :
  y ∈ flat_map f l <-> exists x, x ∈ l /\ y ∈ f x.
Proof.
  rewrite elem_of_list_In, in_flat_map. split; intros (x & H1 & H2); exists x;
    by rewrite ?elem_of_list_In in *.
Qed.

(** ** contexts *)
Inductive ctx :=
  | Here (a : lnd) (l r : list node)
  | Deep (a : lnd) (l : list node) (c : ctx) (r : list node).
Fixpoint plug (c : ctx) (m : list node) : node :=
  match c with
  | Here a l r => T a (l ++ m ++ r)
  | Deep a l c r => T a (l ++ plug c m :: r)
  end.
Definition croot (c : ctx) : lnd := match c with Here a _ _ | Deep a _ _ _ => a end.
(** labels strictly between the root and the hole *)
Fixpoint anc (c : ctx) : list lnd :=
  match c with Here _ _ _ => [] | Deep _ _ c _ => croot c :: anc c end.
Fixpoint il (c : ctx) : list N :=
  match c with
  | Here a l r => nid_ a :: flat_map ids l
  | Deep a l c r => nid_ a :: flat_map ids l ++ il c
  end.
Fixpoint ir (c : ctx) : list N :=
  match c with Here a l r => flat_map ids r | Deep a l c r => ir c ++ flat_map ids r end.
Fixpoint dl (tg : string) (c : ctx) : list node :=
  match c with
  | Here a l r => flat_map (lself tg) l
  | Deep a l c r => flat_map (lself tg) l ++ dl tg c
  end.
Fixpoint dr (tg : string) (c : ctx) : list node :=
  match c with
  | Here a l r => flat_map (lself tg) r
  | Deep a l c r => dr tg c ++ flat_map (lself tg) r
  end.

Lemma root_plug c m : root (plug c m) = croot c.
Proof. by destruct c. Qed.
Lemma nid_plug c m : nid (plug c m) = nid_ (croot c).
Proof. by destruct c. Qed.

Lemma ids_plug c m : ids (plug c m) = il c ++ flat_map ids m ++ ir c.
Proof.
  induction c as [a l r|a l c IH r]; cbn [plug il ir]; rewrite ids_T.
  - by rewrite !flat_map_app.
  - rewrite flat_map_app. cbn [flat_map]. rewrite IH. cbn. by rewrite <- !app_assoc.
Qed.
Lemma ids_plug1 c k : ids (plug c [k]) = il c ++ ids k ++ ir c.
Proof. rewrite ids_plug. cbn. by rewrite app_nil_r. Qed.

Lemma ldesc_plug tg c m :
  Forall (fun a => tag (pl a) <> tg) (anc c) ->
  ldesc tg (plug c m) = dl tg c ++ flat_map (lself tg) m ++ dr tg c.
Proof.
  induction c as [a l r|a l c IH r]; cbn [plug dl dr anc]; intros Ha; rewrite ldesc_T.
  - by rewrite !flat_map_app.
  - apply Forall_cons in Ha as [Ha1 Ha2]. rewrite flat_map_app. cbn [flat_map].
    unfold lself at 2. rewrite IH by done.
    rewrite decide_False by (unfold ltag; by rewrite root_plug). cbn. by rewrite <- !app_assoc.
Qed.

(** contexts compose *)
Fixpoint ccomp (c d : ctx) : ctx :=
  match c with
  | Here a l r => Deep a l d r
  | Deep a l c r => Deep a l (ccomp c d) r
  end.
Lemma plug_ccomp c d m : plug (ccomp c d) m = plug c [plug d m].
Proof. induction c as [|a l c IH r]; cbn; [done|]. by rewrite IH. Qed.

Lemma find_ctx x t : x ∈ flat_map ids (kids t) -> exists c k, t = plug c [k] /\ nid k = x.
Proof.
  induction t as [a ks IH] using tree_ind'. cbn. intros (k & Hk & Hx)%elem_of_flat_map.
  apply elem_of_list_split in Hk as (l & r & ->).
  rewrite ids_eq in Hx. apply elem_of_cons in Hx as [->|Hx].
  - exists (Here a l r), k. done.
  - apply Forall_app in IH as [_ IH]. apply Forall_cons in IH as [IH _].
    destruct (IH Hx) as (c & k' & -> & <-). exists (Deep a l c r), k'. done.
Qed.
Lemma find_ctx' x t : x ∈ ids t -> x <> nid t -> exists c k, t = plug c [k] /\ nid k = x.
Proof. rewrite ids_eq, elem_of_cons. intros [?|?] ?; [done|]. by apply find_ctx. Qed.

(** ** edit *)
Definition ed (x : N) (f : node -> list node) (k : node) : list node :=
  if decide (nid k = x) then f k else [edit x f k].
Lemma edit_T x f a ks : edit x f (T a ks) = T a (flat_map (ed x f) ks).
Proof. done. Qed.
Lemma edit_notin x f t : x ∉ flat_map ids (kids t) -> edit x f t = t.
Proof.
  induction t as [a ks IH] using tree_ind'. cbn [kids]. intros Hx. rewrite edit_T. f_equal.
  induction IH as [|k ks Hk _ IHks]; [done|]. cbn [flat_map] in *. apply not_elem_of_app in Hx as [H1 H2].
  rewrite IHks by done. rewrite ids_eq in H1. apply not_elem_of_cons in H1 as [H0 H1].
  unfold ed. rewrite decide_False by done. by rewrite Hk.
Qed.
Lemma ed_notin x f l : x ∉ flat_map ids l -> flat_map (ed x f) l = l.
Proof.
  intros H. pose proof (edit_notin x f (T (L 0%N (Nd "" ∅ None None)) l) H) as E.
  rewrite edit_T in E. by injection E.
Qed.

Lemma edit_plug_in c x f k :
  x ∉ il c -> x ∉ ir c -> edit x f (plug c [k]) = plug c (ed x f k).
Proof.
  induction c as [a l r|a l c IH r]; cbn [plug il ir]; intros H1 H2; rewrite edit_T; f_equal;
    apply not_elem_of_cons in H1 as [H0 H1].
  - rewrite !flat_map_app. cbn [flat_map]. rewrite app_nil_r. by rewrite !ed_notin.
  - apply not_elem_of_app in H1 as [H1 H1']. apply not_elem_of_app in H2 as [H2 H2'].
    rewrite flat_map_app. cbn [flat_map]. rewrite !ed_notin by done. f_equal. unfold ed at 1.
    rewrite decide_False; [by rewrite IH|]. rewrite nid_plug. intros E.
    apply H1'. rewrite <- E. destruct c; cbn; left.
Qed.

Lemma NoDup_plug_hole c k x :
  NoDup (ids (plug c [k])) -> x ∈ ids k -> x ∉ il c /\ x ∉ ir c.
Proof.
  rewrite ids_plug1. intros (H1 & H2 & H3)%NoDup_app Hx.
  apply NoDup_app in H3 as (H3 & H4 & H5). split.
  - intros H. apply (H2 x H), elem_of_app. by left.
  - intros H. by apply (H4 x).
Qed.

Lemma edit_plug c f k :
  NoDup (ids (plug c [k])) -> edit (nid k) f (plug c [k]) = plug c (f k).
Proof.
  intros H. destruct (NoDup_plug_hole _ _ _ H (nid_in k)). rewrite edit_plug_in by done.
  unfold ed. by rewrite decide_True.
Qed.
Lemma edit_plug_deep c x f k :
  NoDup (ids (plug c [k])) -> x ∈ ids k -> x <> nid k -> edit x f (plug c [k]) = plug c [edit x f k].
Proof.
  intros H Hx Hne. destruct (NoDup_plug_hole _ _ _ H Hx). rewrite edit_plug_in by done.
  unfold ed. by rewrite decide_False.
Qed.

(** ** sub *)
Definition subl (x : N) : list node -> option node :=
  fix go (ks : list node) : option node :=
    match ks with
    | [] => None
    | k :: r => match sub x k with Some y => Some y | None => go r end
    end.
Lemma sub_T x a ks : sub x (T a ks) = if decide (nid_ a = x) then Some (T a ks) else subl x ks.
Proof. done. Qed.
Lemma sub_root t : sub (nid t) t = Some t.
Proof. destruct t as [a ks]. rewrite sub_T. by rewrite decide_True. Qed.
Lemma subl_app x l r : subl x (l ++ r) = match subl x l with Some y => Some y | None => subl x r end.
Proof. induction l as [|k l IH]; [done|]. cbn. destruct (sub x k); [done|]. apply IH. Qed.
Lemma sub_notin x t : x ∉ ids t -> sub x t = None.
Proof.
  induction t as [a ks IH] using tree_ind'. rewrite ids_T, sub_T. intros [H1 H2]%not_elem_of_cons.
  rewrite decide_False by done. induction IH as [|k ks Hk _ IHks]; [done|].
  cbn in *. apply not_elem_of_app in H2 as [H2 H3]. rewrite Hk by done. by apply IHks.
Qed.
Lemma subl_notin x l : x ∉ flat_map ids l -> subl x l = None.
Proof.
  induction l as [|k l IH]; [done|]. cbn. intros [H1 H2]%not_elem_of_app.
  rewrite sub_notin by done. by apply IH.
Qed.
Lemma sub_Some x t y : sub x t = Some y -> nid y = x /\ (y = t \/ exists c, t = plug c [y]).
Proof.
  induction t as [a ks IH] using tree_ind'. rewrite sub_T. case_decide as Ha.
  - intros [= <-]. split; [done|by left].
  - intros H. assert (nid y = x /\ exists l k r, ks = l ++ k :: r /\ (y = k \/ exists c, k = plug c [y])) as (H1 & l & k & r & -> & H2).
    { induction IH as [|k ks Hk _ IHks]; [done|]. cbn in H. destruct (sub x k) as [z|] eqn:E.
      - injection H as ->. destruct (Hk eq_refl) as [H1 H2]. split; [done|]. exists [], k, ks. done.
      - destruct (IHks H) as (H1 & l & k' & r & -> & H2). split; [done|]. exists (k :: l), k', r. done. }
    split; [done|]. right. destruct H2 as [->|[c ->]].
    + by exists (Here a l r).
    + by exists (Deep a l c r).
Qed.
Lemma sub_plug_in c x k :
  x ∉ il c -> x ∈ ids k -> sub x (plug c [k]) = sub x k.
Proof.
  intros H1 Hx.
  assert (Hs : exists y, sub x k = Some y).
  { clear -Hx. induction k as [a ks IH] using tree_ind'. rewrite sub_T. case_decide; [eauto|].
    rewrite ids_T in Hx. apply elem_of_cons in Hx as [?|Hx]; [done|].
    induction IH as [|k ks Hk _ IHks]; [by apply elem_of_nil in Hx|]. cbn in *.
    apply elem_of_app in Hx as [Hx|Hx].
    - destruct (Hk Hx) as [y ->]. eauto.
    - destruct (sub x k); [eauto|]. by apply IHks. }
  destruct Hs as [y Hy]. rewrite Hy.
  induction c as [a l r|a l c IH r]; cbn [plug il] in *; rewrite sub_T;
    apply not_elem_of_cons in H1 as [H0 H1]; rewrite decide_False by done; rewrite subl_app.
  - rewrite subl_notin by done. cbn. by rewrite Hy.
  - apply not_elem_of_app in H1 as [H1 H1']. rewrite subl_notin by done. cbn. by rewrite IH.
Qed.
Lemma sub_plug c k : NoDup (ids (plug c [k])) -> sub (nid k) (plug c [k]) = Some k.
Proof.
  intros H. destruct (NoDup_plug_hole _ _ _ H (nid_in k)). rewrite sub_plug_in by (done || apply nid_in).
  apply sub_root.
Qed.

(** ** trees without parent *)
Definition cadd (d : node) (c : ctx) : ctx :=
  match c with
  | Here a l r => Here a l (r ++ [d])
  | Deep a l c r => Deep a l c (r ++ [d])
  end.
Lemma add_root_plug d c m : add_root d (plug c m) = plug (cadd d c) m.
Proof. destruct c; cbn; by rewrite <- ?app_assoc, ?app_comm_cons. Qed.
Lemma ids_add_root d w : ids (add_root d w) = ids w ++ ids d.
Proof. destruct w as [a ks]. cbn. rewrite flat_map_app. cbn. by rewrite app_nil_r. Qed.
Lemma croot_cadd d c : croot (cadd d c) = croot c.
Proof. by destruct c. Qed.

Lemma not_no_parent W c k :
  NoDup (ids (plug W [plug c [k]])) -> ~ no_parent (nid k) (plug W [plug c [k]]).
Proof.
  intros H. unfold no_parent. intros Hin.
  assert (Hx : nid k ∈ flat_map ids (kids (plug c [k]))).
  { destruct c; cbn; apply elem_of_flat_map.
    - exists k. split; [|apply nid_in]. apply elem_of_app. right. by left.
    - exists (plug c [k]). split; [apply elem_of_app; right; by left|].
      rewrite ids_plug1. apply elem_of_app. right. apply elem_of_app. left. apply nid_in. }
  revert H Hin Hx. generalize (plug c [k]) as t, (nid k) as x. clear c k. intros t x H Hin Hx.
  assert (Hsep : forall l r (y : node), NoDup (flat_map ids (l ++ y :: r)) -> x ∈ flat_map ids (kids y) ->
     x ∉ map nid (l ++ y :: r)).
  { intros l r y Hn Hy. rewrite flat_map_app in Hn. cbn in Hn.
    apply NoDup_app in Hn as (N1 & N2 & N3). apply NoDup_app in N3 as (N3 & N4 & N5).
    assert (Hxy : x ∈ ids y) by (rewrite ids_eq; by right).
    intros Hm. apply elem_of_list_fmap in Hm as (z & -> & Hz). apply elem_of_app in Hz as [Hz|Hz].
    - apply (N2 (nid z)); [|apply elem_of_app; by left]. apply elem_of_flat_map. exists z. split; [done|apply nid_in].
    - apply elem_of_cons in Hz as [->|Hz].
      + rewrite ids_eq in N3. apply NoDup_cons in N3 as [N3 _]. done.
      + apply (N4 (nid z)); [done|]. apply elem_of_flat_map. exists z. split; [done|apply nid_in]. }
  destruct W as [a l r|a l W r]; cbn [plug kids] in Hin; rewrite ids_eq in H; apply NoDup_cons in H as [_ H].
  - by apply (Hsep l r t).
  - apply (Hsep l r (plug W [t])); [done| |done].
    apply elem_of_flat_map. destruct W; cbn.
    + exists t. split; [apply elem_of_app; right; by left|]. rewrite ids_eq. by right.
    + eexists. split; [apply elem_of_app; right; by left|]. rewrite ids_plug1.
      apply elem_of_app. right. apply elem_of_app. left. rewrite ids_eq. by right.
Qed.

(** ** labelling *)
Definition labels : list elem -> N -> list node * N :=
  fix go (ks : list elem) (n : N) : list node * N :=
    match ks with
    | [] => ([], n)
    | k :: r => let '(k', n1) := label k n in let '(r', n2) := go r n1 in (k' :: r', n2)
    end.
Lemma label_T a ks n : label (T a ks) n = (T (L n a) (labels ks (n + 1)%N).1, (labels ks (n + 1)%N).2).
Proof. cbn. change ((fix go (ks : list elem) (n : N) : list node * N :=
    match ks with
    | [] => ([], n)
    | k :: r => let '(k', n1) := label k n in let '(r', n2) := go r n1 in (k' :: r', n2)
    end)) with labels. by destruct (labels ks (n + 1)%N). Qed.

Definition labelled (e : elem) : Prop := forall n,
  erase (label e n).1 = e /\ NoDup (ids (label e n).1) /\
  Forall (fun x => n <= x < (label e n).2)%N (ids (label e n).1) /\ (n < (label e n).2)%N.
Lemma labels_ok l n : Forall labelled l ->
  map erase (labels l n).1 = l /\ NoDup (flat_map ids (labels l n).1) /\
  Forall (fun x => n <= x < (labels l n).2)%N (flat_map ids (labels l n).1) /\ (n <= (labels l n).2)%N.
Proof.
  intros H. revert n. induction H as [|e l He _ IH]; intros n; cbn.
  - split_and!; [done|constructor|constructor|lia].
  - specialize (He n). destruct (label e n) as [e' n1]. cbn in He. destruct He as (H1 & H2 & H3 & H4).
    specialize (IH n1). destruct (labels l n1) as [l' n2]. cbn in *. destruct IH as (I1 & I2 & I3 & I4).
    split_and!.
    + by rewrite H1, I1.
    + apply NoDup_app. split_and!; [done| |done]. intros x Hx Hx'.
      rewrite Forall_forall in H3, I3. apply H3 in Hx. apply I3 in Hx'. lia.
    + apply Forall_app. split; eapply Forall_impl; try done; cbn; lia.
    + lia.
Qed.
Lemma label_ok e : labelled e.
Proof.
  induction e as [a ks IH] using tree_ind'. intros n. rewrite label_T. cbn [fst snd].
  destruct (labels_ok ks (n + 1)%N IH) as (H1 & H2 & H3 & H4). split_and!.
  - cbn. by rewrite H1.
  - rewrite ids_T. apply NoDup_cons. split; [|done]. intros Hin. rewrite Forall_forall in H3.
    apply H3 in Hin. cbn in Hin. lia.
  - rewrite ids_T. constructor; [cbn; lia|]. eapply Forall_impl; [done|]. cbn. lia.
  - lia.
Qed.
Lemma nid_label e n : nid (label e n).1 = n.
Proof. destruct e. by rewrite label_T. Qed.

Lemma ltag_erase t : ltag t = e_tag (erase t).
Proof. by destruct t. Qed.
Lemma erase_kids t : kids (erase t) = map erase (kids t).
Proof. by destruct t. Qed.
Lemma erase_root t : root (erase t) = pl (root t).
Proof. by destruct t. Qed.
Lemma erase_ldesc tg t : map erase (ldesc tg t) = descendants tg (erase t).
Proof.
  induction t as [a ks IH] using tree_ind'. rewrite ldesc_T. cbn.
  induction IH as [|k ks Hk _ IHks]; [done|]. cbn. rewrite map_app, IHks. f_equal.
  unfold lself. rewrite map_app, Hk. f_equal. rewrite ltag_erase. by case_decide.
Qed.
Lemma ldesc_nil tg t : ldesc tg t = [] <-> descendants tg (erase t) = [].
Proof. rewrite <- erase_ldesc. destruct (ldesc tg t); done. Qed.

(** ** finding the hole of a searched node *)
Lemma ldesc_tag tg t : Forall (fun k => ltag k = tg) (ldesc tg t).
Proof.
  induction t as [a ks IH] using tree_ind'. rewrite ldesc_T.
  induction IH as [|k ks Hk _ IHks]; [constructor|]. cbn. apply Forall_app. split; [|done].
  unfold lself. apply Forall_app. split; [|done]. case_decide; [by constructor|constructor].
Qed.
Lemma ldesc_ids tg t : map nid (ldesc tg t) `sublist_of` flat_map ids (kids t).
Proof.
  induction t as [a ks IH] using tree_ind'. rewrite ldesc_T. cbn [kids].
  induction IH as [|k ks Hk _ IHks]; [constructor|]. cbn. rewrite map_app.
  apply sublist_app; [|done]. unfold lself. rewrite map_app, (ids_eq k). case_decide; cbn.
  - by apply sublist_skip.
  - by apply sublist_cons.
Qed.
Lemma sublist_NoDup {A} (l k : list A) : l `sublist_of` k -> NoDup k -> NoDup l.
Proof.
  induction 1 as [|x l k Hs IH|x l k Hs IH]; intros Hn; [constructor| |].
  - apply NoDup_cons in Hn as [H1 H2]. apply NoDup_cons. split; [|by apply IH].
    intros Hx. apply H1. apply sublist_submseteq in Hs. by eapply elem_of_submseteq.
  - apply NoDup_cons in Hn as [_ Hn]. by apply IH.
Qed.
Lemma ldesc_NoDup tg t : NoDup (ids t) -> NoDup (map nid (ldesc tg t)).
Proof.
  intros H. rewrite ids_eq in H. apply NoDup_cons in H as [_ H].
  eapply sublist_NoDup; [apply ldesc_ids|exact H].
Qed.

Lemma app_lookup_cases {A} (l r : list A) i x :
  (l ++ r) !! i = Some x -> (i < length l /\ l !! i = Some x) \/ (length l <= i /\ r !! (i - length l) = Some x).
Proof. intros H. apply lookup_app_Some in H as [H|[H1 H2]]; [left; split; [by eapply lookup_lt_Some|done]|by right]. Qed.

(** [tg] nodes do not contain [tg'] nodes *)
Definition lflat (tg tg' : string) (t : node) : Prop := Forall (fun r => ldesc tg' r = []) (ldesc tg t).

Lemma lflat_kid tg tg' a l k r : lflat tg tg' (T a (l ++ k :: r)) -> lflat tg tg' k /\ (ltag k = tg -> ldesc tg' k = []).
Proof.
  unfold lflat. rewrite ldesc_T, flat_map_app. cbn. rewrite !Forall_app. intros (_ & H & _).
  unfold lself in H. apply Forall_app in H as [H1 H2]. split; [done|]. intros Ht.
  rewrite decide_True in H1 by done. by rewrite Forall_singleton in H1.
Qed.

Lemma hole_at tg t i k :
  lflat tg tg t -> ldesc tg t !! i = Some k ->
  exists c, t = plug c [k] /\ Forall (fun a => tag (pl a) <> tg) (anc c) /\ length (dl tg c) = i.
Proof.
  revert i. induction t as [a ks IH] using tree_ind'. intros i Hf Hi. rewrite ldesc_T in Hi.
  assert (exists l x r j, ks = l ++ x :: r /\ i = length (flat_map (lself tg) l) + j /\ lself tg x !! j = Some k)
    as (l & x & r & j & -> & -> & Hj).
  { clear IH Hf. revert i Hi. induction ks as [|x ks IHks]; intros i Hi; [done|]. cbn in Hi.
    apply app_lookup_cases in Hi as [[H1 H2]|[H1 H2]].
    - exists [], x, ks, i. done.
    - destruct (IHks _ H2) as (l & y & r & j & -> & E & Hj).
      exists (x :: l), y, r, j. split_and!; [done| |done]. cbn. rewrite app_length. lia. }
  destruct (lflat_kid _ _ _ _ _ _ Hf) as [Hf1 Hf2]. unfold lself in Hj.
  destruct (decide (ltag x = tg)) as [Ht|Ht].
  - rewrite Hf2 in Hj by done. destruct j; [|done]. cbn in Hj. injection Hj as ->.
    exists (Here a l r). cbn. split_and!; [done|constructor|lia].
  - cbn in Hj. apply Forall_app in IH as [_ IH]. apply Forall_cons in IH as [IH _].
    destruct (IH j Hf1 Hj) as (c & -> & Ha & Hl). exists (Deep a l c r). cbn. split_and!.
    + done.
    + constructor; [|done]. unfold ltag in Ht. by rewrite root_plug in Ht.
    + by rewrite app_length, Hl.
Qed.

Lemma ldesc_plug_in tg c k : ltag k = tg -> k ∈ ldesc tg (plug c [k]).
Proof.
  intros Ht. assert (Hk : k ∈ lself tg k) by (unfold lself; rewrite decide_True by done; by left).
  induction c as [a l r|a l c IH r]; cbn [plug]; rewrite ldesc_T; apply elem_of_flat_map.
  - exists k. split; [apply elem_of_app; right; by left|done].
  - exists (plug c [k]). split; [apply elem_of_app; right; by left|]. unfold lself. apply elem_of_app. by right.
Qed.
Lemma anc_not tg tg' c k :
  lflat tg' tg (plug c [k]) -> ltag k = tg -> Forall (fun a => tag (pl a) <> tg') (anc c).
Proof.
  intros Hf Ht. induction c as [a l r|a l c IH r]; cbn; [constructor|]. cbn in Hf.
  apply lflat_kid in Hf as [Hf1 Hf2]. constructor; [|by apply IH]. intros E.
  unfold ltag in Hf2. rewrite root_plug in Hf2. specialize (Hf2 E).
  pose proof (ldesc_plug_in tg c k Ht) as Hin. rewrite Hf2 in Hin. by apply elem_of_nil in Hin.
Qed.
