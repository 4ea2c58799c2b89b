(** The table operations on the document. *)
From Verif Require Export TableFacts.

Local Arguments label : simpl never.
Local Arguments edit : simpl never.
Local Arguments sub : simpl never.
Local Arguments ldesc : simpl never.
Local Arguments ids : simpl never.

(** ** loops *)
Lemma arepeat_ind {S} (P : nat -> S -> Prop) body n s :
  P 0 s -> (forall i s, i < n -> P i s -> exists s', body s = (s', Ok tt) /\ P (i + 1) s') ->
  exists s', arepeat n body s = (s', Ok tt) /\ P n s'.
Proof.
  revert P s. induction n as [|n IH]; intros P s H0 Hs; [by exists s|].
  destruct (Hs 0 s ltac:(lia) H0) as (s1 & E1 & H1). cbn. unfold abind. rewrite E1.
  destruct (IH (fun i => P (i + 1)) s1) as (s' & E' & H').
  - done.
  - intros i s2 Hi H2. destruct (Hs (i + 1) s2 ltac:(lia) H2) as (s3 & E3 & H3). eauto.
  - exists s'. split; [done|]. by rewrite Nat.add_1_r in H'.
Qed.
Lemma aiter_ind {S A} (P : nat -> S -> Prop) (body : A -> act S unit) l s :
  P 0 s -> (forall i x s, l !! i = Some x -> P i s -> exists s', body x s = (s', Ok tt) /\ P (i + 1) s') ->
  exists s', aiter l body s = (s', Ok tt) /\ P (length l) s'.
Proof.
  revert P s. induction l as [|x l IH]; intros P s H0 Hs; [by exists s|].
  destruct (Hs 0 x s eq_refl H0) as (s1 & E1 & H1). cbn. unfold abind. rewrite E1.
  destruct (IH (fun i => P (i + 1)) s1) as (s' & E' & H').
  - done.
  - intros i y s2 Hi H2. destruct (Hs (i + 1) y s2) as (s3 & E3 & H3); [by rewrite Nat.add_1_r|done|eauto].
  - exists s'. split; [done|]. by rewrite Nat.add_1_r in H'.
Qed.

(** preservation, whatever the outcome *)
Definition pres {S A} (P : S -> Prop) (m : act S A) : Prop := forall s, P s -> P (m s).1.
Lemma pres_bind {S A B} (P : S -> Prop) (m : act S A) (f : A -> act S B) :
  pres P m -> (forall a, pres P (f a)) -> pres P (abind m f).
Proof.
  intros Hm Hf s Hs. unfold abind. specialize (Hm s Hs). destruct (m s) as [s1 [a|e]]; cbn in *; [|done].
  by apply Hf.
Qed.
Lemma pres_arepeat {S} (P : S -> Prop) n body : pres P body -> pres P (arepeat n body).
Proof. intros H. induction n as [|n IH]; [by intros s|]. cbn. by apply pres_bind. Qed.
Lemma pres_aiter {S A} (P : S -> Prop) (l : list A) body : (forall x, x ∈ l -> pres P (body x)) -> pres P (aiter l body).
Proof.
  intros H. induction l as [|x l IH]; [by intros s|]. cbn. apply pres_bind; [apply H; by left|].
  intros _. apply IH. intros y Hy. apply H. by right.
Qed.

(** ** reading *)
Definition wid (t : node) : nat := match ldesc ROW t with [] => 0 | r :: _ => length (kids r) end.

Lemma sub_hole s W t p q i k :
  other p q -> Inv s W t -> ldesc p t !! i = Some k -> sub (nid k) (store s) = Some k.
Proof.
  intros Hpq HI Hi. destruct (edit_hole s W t p q i k [] (nxt s) Hpq HI Hi) as (t' & _ & _ & _ & _ & _ & _ & _ & _ & E & _);
    [by constructor|by apply NoDup_nil_2|by apply Forall_nil_2|lia|done].
Qed.
Lemma other_RC : other ROW COL. Proof. by left. Qed.
Lemma other_CR : other COL ROW. Proof. by right. Qed.
Global Hint Resolve other_RC other_CR : core.

Lemma deref_row s W t i k : Inv s W t -> ldesc ROW t !! i = Some k -> deref (nid k) s = (s, Ok k).
Proof. intros HI Hi. unfold deref. by rewrite (sub_hole s W t ROW COL i k). Qed.
Lemma deref_col s W t i k : Inv s W t -> ldesc COL t !! i = Some k -> deref (nid k) s = (s, Ok k).
Proof. intros HI Hi. unfold deref. by rewrite (sub_hole s W t COL ROW i k). Qed.
Lemma deref_table s W t : Inv s W t -> deref (rt (obj s)) s = (s, Ok t).
Proof. intros HI. unfold deref. pose proof (Inv_table_node _ _ _ HI) as E. unfold table_node in E. by rewrite E. Qed.

Lemma ncols_eq s W t : Inv s W t -> ncols s = (s, Ok (Z.of_nat (wid t))).
Proof.
  intros HI. unfold ncols, abind, aget. rewrite (i_rows _ _ _ HI). unfold wid.
  destruct (ldesc ROW t) as [|r l] eqn:E; [done|]. cbn [map].
  rewrite (deref_row s W t 0 r); [done|done|by rewrite E].
Qed.
Lemma nrows_eq s W t : Inv s W t -> nrows s = (s, Ok (Z.of_nat (length (ldesc ROW t)))).
Proof. intros HI. unfold nrows, abind, aget, aret. rewrite (i_rows _ _ _ HI). by rewrite map_length. Qed.

Lemma py_get_map {A B} (f : A -> B) l i :
  py_get (map f l) i = match py_get l i with Ok x => Ok (f x) | Err e => Err e end.
Proof.
  unfold py_get. rewrite map_length. destruct (py_index (length l) i); [|done].
  rewrite list_lookup_fmap. by destruct (l !! n).
Qed.
Lemma py_get_Ok {A} (l : list A) i x :
  py_get l i = Ok x -> exists k, py_index (length l) i = Some k /\ l !! k = Some x.
Proof. unfold py_get. destruct (py_index (length l) i) as [k|]; [|done]. destruct (l !! k) eqn:E; [|done]. intros [= ->]. eauto. Qed.
Lemma py_get_Err {A} (l : list A) i e : py_get l i = Err e -> py_index (length l) i = None /\ e = IndexError.
Proof.
  unfold py_get. destruct (py_index (length l) i) as [k|] eqn:Ek; [|by intros [= <-]].
  destruct (l !! k) eqn:E; [done|]. apply lookup_ge_None in E. apply py_index_lt in Ek. lia.
Qed.
Lemma row_ref_eq s W t i : Inv s W t ->
  row_ref i s = (s, match py_get (ldesc ROW t) i with Ok k => Ok (nid k) | Err e => Err e end).
Proof. intros HI. unfold row_ref, abind, aget, alift. by rewrite (i_rows _ _ _ HI), py_get_map. Qed.
Lemma col_ref_eq s W t i : Inv s W t ->
  col_ref i s = (s, match py_get (ldesc COL t) i with Ok k => Ok (nid k) | Err e => Err e end).
Proof. intros HI. unfold col_ref, abind, aget, alift. by rewrite (i_cols _ _ _ HI), py_get_map. Qed.

(** ** parts *)
Lemma part_of_set_tail x k : part_of (lset_tail x k) = part_of k.
Proof. by destruct k as [[i [tg at' tx tl]] ks]. Qed.
Lemma nid_set_tail x k : nid (lset_tail x k) = nid k.
Proof. by destruct k. Qed.
Lemma ids_set_tail x k : ids (lset_tail x k) = ids k.
Proof. by destruct k. Qed.
Lemma kids_set_tail x k : kids (lset_tail x k) = kids k.
Proof. by destruct k. Qed.
Lemma leafy_set_tail p x k : leafy p (lset_tail x k) <-> leafy p k.
Proof. rewrite !leafy_kids, kids_set_tail. by destruct k. Qed.
Lemma nid_part k : p_id (part_of k) = nid k.
Proof. done. Qed.

Lemma label_leafy p e n : e_tag e = p -> descendants ROW e = [] -> descendants COL e = [] -> leafy p (label e n).1.
Proof.
  intros H1 H2 H3. destruct (label_ok e n) as (E & _). unfold leafy. rewrite ltag_erase, !ldesc_nil, E. done.
Qed.

Lemma label_facts e n : exists t n', label e n = (t, n') /\ erase t = e /\ nid t = n /\ NoDup (ids t) /\
  Forall (fun x => n <= x < n')%N (ids t) /\ (n < n')%N.
Proof.
  destruct (label_ok e n) as (E1 & E2 & E3 & E4). pose proof (nid_label e n) as E5.
  destruct (label e n) as [t n']. cbn in *. exists t, n'. done.
Qed.

Lemma fresh_notin s W t x : Inv s W t -> (nxt s <= x)%N -> x ∉ ids (store s).
Proof. intros HI Hx Hin. pose proof (i_fresh _ _ _ HI) as H. rewrite Forall_forall in H. apply H in Hin. lia. Qed.

(** ** a new row or column next to an existing one *)
Lemma alloc_edit p q s W t i k e new n' f :
  other p q -> Inv s W t -> ldesc p t !! i = Some k -> label e (nxt s) = (new, n') ->
  Forall (leafy p) (f k) -> Permutation (flat_map ids (f k)) (ids new ++ ids k) ->
  exists t', edit (nid k) f (store s) = plug W [t'] /\ root t' = root t /\
    ldesc p t' = take i (ldesc p t) ++ f k ++ drop (S i) (ldesc p t) /\
    ldesc q t' = ldesc q t /\ no_nesting t' /\
    NoDup (ids (plug W [t'])) /\ Forall (fun x => x < n')%N (ids (plug W [t'])) /\
    ~ no_parent (nid k) (store s).
Proof.
  intros Hpq HI Hi Hl Hf Hp. destruct (label_facts e (nxt s)) as (new2 & n2 & E & _ & _ & N & F & Hlt).
  rewrite Hl in E. injection E as <- <-.
  assert (Hk : Forall (fun x => x ∈ ids (store s)) (ids k) /\ NoDup (ids k)).
  { pose proof (sub_hole s W t p q i k Hpq HI Hi) as Es. apply sub_Some in Es as [_ [->|[c Es]]].
    - split; [by apply Forall_forall|apply HI].
    - pose proof (i_nodup _ _ _ HI) as Hn. rewrite Es, ids_plug1 in Hn |- *. split.
      + apply Forall_forall. intros x Hx. apply elem_of_app. right. apply elem_of_app. by left.
      + apply NoDup_app in Hn as (_ & _ & Hn). by apply NoDup_app in Hn as (? & _). }
  destruct Hk as [Hk1 Hk2].
  destruct (edit_hole s W t p q i k (f k) n' Hpq HI Hi) as (t' & E1 & E2 & E3 & E4 & E5 & E6 & E7 & E8 & _).
  - done.
  - rewrite Hp. apply NoDup_app. split_and!; [done| |done]. intros x Hx Hx'.
    rewrite Forall_forall in F, Hk1. apply F in Hx. apply Hk1 in Hx'. eapply fresh_notin; [done| |done]. lia.
  - rewrite Hp. apply Forall_forall. intros x [Hx|Hx]%elem_of_app.
    + rewrite Forall_forall in F. apply F in Hx. split; [|lia]. right. eapply fresh_notin; [done|lia].
    + split; [by left|]. pose proof (i_fresh _ _ _ HI) as Hfr. rewrite Forall_forall in Hfr, Hk1.
      apply Hk1, Hfr in Hx. lia.
  - lia.
  - exists t'. split_and!; try done. by apply E1.
Qed.

(** ** one new row or column *)
Definition parts (p : string) (t : node) : list part := map part_of (ldesc p t).
Lemma parts_rows t : parts ROW t = doc_rows t. Proof. done. Qed.
Lemma parts_cols t : parts COL t = doc_cols t. Proof. done. Qed.
Lemma map_p_id l : map p_id (map part_of l) = map nid l.
Proof. rewrite map_map. done. Qed.
Lemma parts_ids p t : map p_id (parts p t) = map nid (ldesc p t).
Proof. apply map_p_id. Qed.
Lemma parts_length p t : length (parts p t) = length (ldesc p t).
Proof. apply map_length. Qed.
Lemma parts_lookup p t i : parts p t !! i = part_of <$> (ldesc p t !! i).
Proof. apply list_lookup_fmap. Qed.

(** The context has only gained trees without parent. *)
Inductive grow (W : ctx) : ctx -> Prop :=
  | grow_refl : grow W W
  | grow_add W' d : grow W W' -> grow W (cadd d W').
Lemma grow_trans W1 W2 W3 : grow W1 W2 -> grow W2 W3 -> grow W1 W3.
Proof. intros H. induction 1; [done|]. by constructor. Qed.
Global Hint Constructors grow : core.

Lemma Inv_intro s s' W W' t t' :
  store s' = plug W' [t'] -> rt (obj s') = rt (obj s) -> Inv s W t -> root t' = root t ->
  NoDup (ids (plug W' [t'])) -> Forall (fun x => x < nxt s')%N (ids (plug W' [t'])) ->
  no_nesting t' -> rowc (obj s') = map p_id (doc_rows t') -> colc (obj s') = map p_id (doc_cols t') ->
  Inv s' W' t'.
Proof.
  intros E1 E2 HI E3 H1 H2 H3 H4 H5. constructor; rewrite ?E1; try done.
  - rewrite E2, (i_rt _ _ _ HI). unfold nid. by rewrite E3.
  - rewrite H4. apply parts_ids.
  - rewrite H5. apply parts_ids.
Qed.

Lemma no_tail_part x : part_of x = part_of (lset_tail None x).
Proof. by rewrite part_of_set_tail. Qed.

Lemma addnext_step p q s W t k e :
  other p q -> Inv s W t -> last (ldesc p t) = Some k -> e_tag e = p -> descendants ROW e = [] -> descendants COL e = [] ->
  exists new n' t',
    alloc e s = (set_nxt n' s, Ok new) /\ (nxt s < n')%N /\ nid new = nxt s /\ erase new = e /\
    addnext (nid k) new (set_nxt n' s) = (St (plug W [t']) n' (obj s), Ok tt) /\
    root t' = root t /\ parts p t' = parts p t ++ [part_of new] /\ parts q t' = parts q t /\ no_nesting t' /\
    NoDup (ids (plug W [t'])) /\ Forall (fun x => x < n')%N (ids (plug W [t'])).
Proof.
  intros Hpq HI Hi He1 He2 He3.
  destruct (label_facts e (nxt s)) as (new & n' & El & E1 & E2 & N & F & Hlt).
  rewrite last_lookup in Hi.
  assert (Hkl : leafy p k).
  { pose proof (desc_leafy p t ltac:(destruct Hpq as [[? ?]|[? ?]]; auto) (i_flat _ _ _ HI)) as H.
    rewrite Forall_forall in H. apply H. by eapply elem_of_list_lookup_2. }
  destruct (alloc_edit p q s W t _ k e new n' (fun k => [lset_tail None k; lset_tail (ltail k) new]) Hpq HI Hi El)
    as (t' & H1 & H2 & H3 & H4 & H5 & H6 & H7 & H8).
  - constructor; [by apply leafy_set_tail|]. constructor; [|constructor]. apply leafy_set_tail.
    pose proof (label_leafy p e (nxt s) He1 He2 He3) as Hn. by rewrite El in Hn.
  - cbn. rewrite !ids_set_tail, app_nil_r. apply Permutation_app_comm.
  - exists new, n', t'. unfold alloc. rewrite El. split_and!; try done.
    + unfold addnext. cbn [store set_nxt]. rewrite decide_False by done. rewrite H1. done.
    + unfold parts. rewrite H3. pose proof (lookup_lt_Some _ _ _ Hi) as Hl.
      assert (Hd : drop (S (pred (length (ldesc p t)))) (ldesc p t) = []) by (apply drop_ge; lia).
      pose proof (take_drop_middle _ _ _ Hi) as Hm. rewrite Hd in Hm |- *.
      rewrite <- Hm at 3. rewrite !map_app. cbn. rewrite !part_of_set_tail. by rewrite <- app_assoc.
    + unfold parts. by rewrite H4.
Qed.

Lemma addprevious_step p q s W t i k e :
  other p q -> Inv s W t -> ldesc p t !! i = Some k -> e_tag e = p -> descendants ROW e = [] -> descendants COL e = [] ->
  exists new n' t',
    alloc e s = (set_nxt n' s, Ok new) /\ (nxt s < n')%N /\ nid new = nxt s /\ erase new = e /\
    addprevious (nid k) new (set_nxt n' s) = (St (plug W [t']) n' (obj s), Ok tt) /\
    root t' = root t /\ parts p t' = insert_at i (part_of new) (parts p t) /\ parts q t' = parts q t /\ no_nesting t' /\
    NoDup (ids (plug W [t'])) /\ Forall (fun x => x < n')%N (ids (plug W [t'])).
Proof.
  intros Hpq HI Hi He1 He2 He3.
  destruct (label_facts e (nxt s)) as (new & n' & El & E1 & E2 & N & F & Hlt).
  assert (Hkl : leafy p k).
  { pose proof (desc_leafy p t ltac:(destruct Hpq as [[? ?]|[? ?]]; auto) (i_flat _ _ _ HI)) as H.
    rewrite Forall_forall in H. apply H. by eapply elem_of_list_lookup_2. }
  destruct (alloc_edit p q s W t _ k e new n' (fun k => [new; k]) Hpq HI Hi El)
    as (t' & H1 & H2 & H3 & H4 & H5 & H6 & H7 & H8).
  - constructor; [|by constructor].
    pose proof (label_leafy p e (nxt s) He1 He2 He3) as Hn. by rewrite El in Hn.
  - cbn. by rewrite app_nil_r.
  - exists new, n', t'. unfold alloc. rewrite El. split_and!; try done.
    + unfold addprevious. cbn [store set_nxt]. rewrite decide_False by done. rewrite H1. done.
    + unfold parts, insert_at. rewrite H3, map_app. cbn. rewrite firstn_map.
      f_equal. f_equal. rewrite (drop_S _ (part_of k) i); [by rewrite skipn_map|].
      by rewrite list_lookup_fmap, Hi.
    + unfold parts. by rewrite H4.
Qed.

Lemma remove_step p q s W t i k :
  other p q -> Inv s W t -> ldesc p t !! i = Some k ->
  exists t', remove_node (nid k) s = (St (plug (cadd k W) [t']) (nxt s) (obj s), Ok tt) /\
    root t' = root t /\ parts p t' = delete_at i (parts p t) /\ parts q t' = parts q t /\ no_nesting t' /\
    NoDup (ids (plug (cadd k W) [t'])) /\ Forall (fun x => x < nxt s)%N (ids (plug (cadd k W) [t'])).
Proof.
  intros Hpq HI Hi.
  destruct (edit_hole s W t p q i k [] (nxt s) Hpq HI Hi) as (t' & H1 & H2 & H3 & H4 & H5 & H6 & H7 & H8 & H9 & H10);
    [by constructor|by apply NoDup_nil_2|by apply Forall_nil_2|lia|].
  specialize (H10 eq_refl).
  assert (Hp : Permutation (ids (plug (cadd k W) [t'])) (ids (store s))).
  { rewrite <- add_root_plug, ids_add_root. by rewrite H10. }
  exists t'. unfold remove_node. rewrite decide_False by done. rewrite H9, H1 by done. split_and!; try done.
  - unfold set_store. by rewrite add_root_plug.
  - unfold parts, delete_at. rewrite H3. cbn. rewrite map_app, firstn_map, skipn_map. done.
  - unfold parts. by rewrite H4.
  - rewrite Hp. apply HI.
  - rewrite Hp. apply HI.
Qed.

(** ** states reached *)
Definition Rch (s : st) (W : ctx) (t : node) (Q : node -> Prop) (s' : st) : Prop :=
  exists W' t', Inv s' W' t' /\ grow W W' /\ root t' = root t /\ (nxt s <= nxt s')%N /\ Q t'.

Lemma Rch_refl s W t (Q : node -> Prop) : Inv s W t -> Q t -> Rch s W t Q s.
Proof. intros. exists W, t. split_and!; auto; lia. Qed.
Lemma Rch_trans s W t (Q Q' : node -> Prop) s1 s2 :
  Rch s W t Q s1 -> (forall W1 t1, Inv s1 W1 t1 -> Q t1 -> (nxt s <= nxt s1)%N -> Rch s1 W1 t1 Q' s2) -> Rch s W t Q' s2.
Proof.
  intros (W1 & t1 & H1 & H2 & H3 & H4 & H5) H. destruct (H W1 t1 H1 H5 H4) as (W2 & t2 & ? & ? & ? & ? & ?).
  exists W2, t2. split_and!; try done; [by eapply grow_trans|congruence|lia].
Qed.
Lemma Rch_impl s W t (Q Q' : node -> Prop) s1 : Rch s W t Q s1 -> (forall t1, Q t1 -> Q' t1) -> Rch s W t Q' s1.
Proof. intros (W1 & t1 & H1 & H2 & H3 & H4 & H5) H. exists W1, t1. split_and!; auto. Qed.

Lemma loop_repeat n body s W t (Q : nat -> node -> Prop) :
  Inv s W t -> Q 0 t ->
  (forall i s1 W1 t1, i < n -> Inv s1 W1 t1 -> (nxt s <= nxt s1)%N -> Q i t1 ->
     exists s2, body s1 = (s2, Ok tt) /\ Rch s1 W1 t1 (Q (i + 1)) s2) ->
  exists s', arepeat n body s = (s', Ok tt) /\ Rch s W t (Q n) s'.
Proof.
  intros HI H0 Hb. apply (arepeat_ind (fun i s' => Rch s W t (Q i) s')).
  - by apply Rch_refl.
  - intros i s1 Hi HR. pose proof HR as (W1 & t1 & H1 & H2 & H3 & H4 & H5).
    destruct (Hb i s1 W1 t1) as (s2 & E & HR2); try done. exists s2. split; [done|].
    destruct HR2 as (W2 & t2 & ? & ? & ? & ? & ?). exists W2, t2.
    split_and!; try done; [by eapply grow_trans|congruence|lia].
Qed.
Lemma loop_iter {A} (l : list A) body s W t (Q : nat -> node -> Prop) :
  Inv s W t -> Q 0 t ->
  (forall i x s1 W1 t1, l !! i = Some x -> Inv s1 W1 t1 -> (nxt s <= nxt s1)%N -> Q i t1 ->
     exists s2, body x s1 = (s2, Ok tt) /\ Rch s1 W1 t1 (Q (i + 1)) s2) ->
  exists s', aiter l body s = (s', Ok tt) /\ Rch s W t (Q (length l)) s'.
Proof.
  intros HI H0 Hb. apply (aiter_ind (fun i s' => Rch s W t (Q i) s')).
  - by apply Rch_refl.
  - intros i x s1 Hi HR. pose proof HR as (W1 & t1 & H1 & H2 & H3 & H4 & H5).
    destruct (Hb i x s1 W1 t1) as (s2 & E & HR2); try done. exists s2. split; [done|].
    destruct HR2 as (W2 & t2 & ? & ? & ? & ? & ?). exists W2, t2.
    split_and!; try done; [by eapply grow_trans|congruence|lia].
Qed.

Lemma wid_parts t : wid t = match doc_rows t with [] => 0 | p :: _ => length (p_kids p) end.
Proof. unfold wid, doc_rows. fold ROW. by destruct (ldesc ROW t). Qed.

(** ** rows *)
Lemma is_empty_new n x tg : erase x = T (Nd tg ∅ None None) (replicate n new_empty_cell) ->
  part_erase (part_of x) = (Nd tg ∅ None None, replicate n new_empty_cell).
Proof. destruct x as [[i a] ks]. cbn. intros E. injection E as -> E. unfold part_erase. cbn. by rewrite E. Qed.

Lemma desc_replicate tg n : tg <> CELL -> descendants tg (T (Nd ROW ∅ None None) (replicate n new_empty_cell)) = [].
Proof. intros H. cbn. induction n as [|n IH]; [done|]. cbn in *. rewrite decide_False by done. done. Qed.
Lemma CELL_ROW : ROW <> CELL. Proof. done. Qed.
Lemma CELL_COL : COL <> CELL. Proof. done. Qed.

Lemma py_get_last {A} (l : list A) x : last l = Some x -> py_get l (-1) = Ok x.
Proof.
  rewrite last_lookup. intros H. pose proof (lookup_lt_Some _ _ _ H) as Hl. unfold py_get, py_index.
  rewrite decide_False by lia. rewrite decide_True by lia.
  replace (Z.to_nat (Z.of_nat (length l) + -1)) with (pred (length l)) by lia. by rewrite H.
Qed.
Lemma last_some {A} (l : list A) : l <> [] -> exists x, last l = Some x.
Proof. intros H. destruct (last l) eqn:E; [eauto|]. by apply last_None in E. Qed.

Definition append_rows_body : act st unit :=
  let! n := ncols in
  let! newrow := alloc (build_new_row n) in
  let! last_row := row_ref (-1) in
  let! _ := addnext last_row newrow in
  amod (fun s => set_rowc (rowc (obj s) ++ [nid newrow]) s).

Lemma append_row_step s W t : Inv s W t -> ldesc ROW t <> [] ->
  exists s', append_rows_body s = (s', Ok tt) /\
    Rch s W t (fun t' => exists p, is_empty_row (wid t) p /\ (nxt s <= p_id p)%N /\
                 doc_rows t' = doc_rows t ++ [p] /\ doc_cols t' = doc_cols t) s'.
Proof.
  intros HI Hne. destruct (last_some _ Hne) as [k Hk].
  destruct (addnext_step ROW COL s W t k (build_new_row (Z.of_nat (wid t))) other_RC HI Hk)
    as (new & n' & t' & H1 & H2 & H3 & H4 & H5 & H6 & H7 & H8 & H9 & H10 & H11);
    [done|by apply desc_replicate|by apply desc_replicate|].
  unfold append_rows_body, abind. rewrite (ncols_eq _ _ _ HI), H1.
  rewrite (row_ref_eq _ W t) by (apply Inv_nxt; [done|lia]).
  rewrite (py_get_last _ _ Hk), H5. eexists. split; [done|].
  exists W, t'. split_and!; [|done|done|cbn; lia|].
  - eapply (Inv_intro s); try done.
    + cbn. rewrite <- parts_rows, H7, map_app, parts_ids. cbn. by rewrite (i_rows _ _ _ HI).
    + cbn. by rewrite <- parts_cols, H8, parts_ids, (i_cols _ _ _ HI).
  - exists (part_of new). split_and!; try done.
    + apply is_empty_new. unfold build_new_row in H4. by rewrite Nat2Z.id in H4.
    + rewrite nid_part. lia.
Qed.

Lemma append_rows_ok s W t n : Inv s W t -> ldesc ROW t <> [] -> (1 <= n)%Z ->
  exists s', append_rows n s = (s', Ok tt) /\
    Rch s W t (fun t' => exists ps, length ps = Z.to_nat n /\ Forall (is_empty_row (wid t)) ps /\
                 Forall (fun p => nxt s <= p_id p)%N ps /\
                 doc_rows t' = doc_rows t ++ ps /\ doc_cols t' = doc_cols t) s'.
Proof.
  intros HI Hne Hn. unfold append_rows, ctl_append_rows. rewrite decide_False by lia.
  apply (loop_repeat (Z.to_nat n) append_rows_body s W t (fun i t' => exists ps, length ps = i /\ Forall (is_empty_row (wid t)) ps /\
                 Forall (fun p => nxt s <= p_id p)%N ps /\
                 doc_rows t' = doc_rows t ++ ps /\ doc_cols t' = doc_cols t)).
  - done.
  - exists []. rewrite app_nil_r. split_and!; try done; constructor.
  - intros i s1 W1 t1 Hi HI1 Hx (ps & P1 & P2 & P3 & P4 & P5).
    assert (Hd : doc_rows t <> []) by (unfold doc_rows; fold ROW; by destruct (ldesc ROW t)).
    assert (Hne1 : ldesc ROW t1 <> []).
    { intros E. apply (f_equal (map part_of)) in E. change (doc_rows t1 = []) in E. rewrite P4 in E. by destruct (doc_rows t). }
    destruct (append_row_step s1 W1 t1 HI1 Hne1) as (s2 & E & HR). exists s2. split; [done|].
    eapply Rch_impl; [done|]. cbn. intros t2 (p & Q1 & Q2 & Q3 & Q4).
    assert (Ew : wid t1 = wid t). { rewrite !wid_parts, P4. by destruct (doc_rows t). }
    exists (ps ++ [p]). split_and!.
    + rewrite app_length. cbn. lia.
    + apply Forall_app. split; [done|]. constructor; [by rewrite <- Ew|constructor].
    + apply Forall_app. split; [done|]. constructor; [lia|constructor].
    + by rewrite Q3, P4, app_assoc.
    + congruence.
Qed.

Lemma is_empty_row_len n p : is_empty_row n p -> length (p_kids p) = n.
Proof.
  unfold is_empty_row, part_erase. intros E. injection E as _ E. apply (f_equal length) in E.
  by rewrite map_length, replicate_length in E.
Qed.

(** the position meant by an index moves with the inserted items or stays *)
Lemma py_index_grow n m i k : py_index n i = Some k ->
  exists k', py_index (n + m) i = Some k' /\ k <= k' <= k + m /\ k' < n + m /\ k < n.
Proof.
  unfold py_index. intros H. case_decide as H1.
  - injection H as <-. exists (Z.to_nat i). rewrite decide_True by lia. split; [done|lia].
  - case_decide as H2; [|done]. injection H as <-. exists (Z.to_nat (Z.of_nat (n + m) + i)).
    rewrite decide_False by lia. rewrite decide_True by lia. split; [done|lia].
Qed.
Lemma py_insert_pos_index n i k : py_index n i = Some k -> py_insert_pos n i = k.
Proof.
  unfold py_index, py_insert_pos. intros H. case_decide as H1.
  - injection H as <-. rewrite decide_False by lia. lia.
  - case_decide as H2; [|done]. injection H as <-. rewrite decide_True by lia. done.
Qed.
Lemma insert_at_mid {A} (l ps : list A) k k' p : k <= k' <= k + length ps -> k <= length l ->
  insert_at k' p (take k l ++ ps ++ drop k l) = take k l ++ insert_at (k' - k) p ps ++ drop k l.
Proof.
  intros H1 H2. unfold insert_at. rewrite take_app_ge by (rewrite take_length; lia).
  rewrite drop_app_ge by (rewrite take_length; lia). rewrite take_length, Nat.min_l by lia.
  rewrite take_app_le by lia. rewrite drop_app_le by lia. by rewrite <- !app_assoc, <- app_comm_cons.
Qed.
Lemma insert_at_length {A} k (p : A) l : k <= length l -> length (insert_at k p l) = S (length l).
Proof. intros H. unfold insert_at. rewrite app_length, take_length. cbn. rewrite drop_length. lia. Qed.
Lemma insert_at_Forall {A} (P : A -> Prop) k p l : P p -> Forall P l -> Forall P (insert_at k p l).
Proof.
  intros H1 H2. unfold insert_at. apply Forall_app. split; [by apply Forall_take|].
  constructor; [done|by apply Forall_drop].
Qed.

Definition insert_rows_body (index : Z) : act st unit :=
  let! n := ncols in
  let! newrow := alloc (build_new_row n) in
  let! insert_row := row_ref index in
  let! _ := addprevious insert_row newrow in
  amod (fun s => set_rowc (insert_at (py_insert_pos (length (rowc (obj s))) index) (nid newrow) (rowc (obj s))) s).

Lemma map_insert_at {A B} (f : A -> B) k x l : map f (insert_at k x l) = insert_at k (f x) (map f l).
Proof. unfold insert_at. rewrite map_app. cbn [map]. by rewrite firstn_map, skipn_map. Qed.
Lemma map_delete_at {A B} (f : A -> B) k l : map f (delete_at k l) = delete_at k (map f l).
Proof. unfold delete_at. rewrite map_app. cbn [map]. by rewrite firstn_map, skipn_map. Qed.

Lemma py_get_index {A} (l : list A) i k : py_index (length l) i = Some k -> exists x, l !! k = Some x /\ py_get l i = Ok x.
Proof.
  intros H. pose proof (py_index_lt _ _ _ H) as Hl. destruct (lookup_lt_is_Some_2 l k Hl) as [x Hx].
  exists x. split; [done|]. unfold py_get. by rewrite H, Hx.
Qed.

Lemma insert_row_step s W t i k : Inv s W t -> py_index (length (doc_rows t)) i = Some k ->
  exists s', insert_rows_body i s = (s', Ok tt) /\
    Rch s W t (fun t' => exists p, is_empty_row (wid t) p /\ (nxt s <= p_id p)%N /\
                 doc_rows t' = insert_at k p (doc_rows t) /\ doc_cols t' = doc_cols t) s'.
Proof.
  intros HI Hk. unfold doc_rows in Hk. rewrite map_length in Hk. fold ROW in Hk. destruct (py_get_index _ _ _ Hk) as (r & Hr & Hg).
  destruct (addprevious_step ROW COL s W t k r (build_new_row (Z.of_nat (wid t))) other_RC HI Hr)
    as (new & n' & t' & H1 & H2 & H3 & H4 & H5 & H6 & H7 & H8 & H9 & H10 & H11);
    [done|by apply desc_replicate|by apply desc_replicate|].
  unfold insert_rows_body, abind. rewrite (ncols_eq _ _ _ HI), H1.
  rewrite (row_ref_eq _ W t) by (apply Inv_nxt; [done|lia]).
  rewrite Hg, H5. eexists. split; [done|].
  exists W, t'. split_and!; [|done|done|cbn; lia|].
  - eapply (Inv_intro s); try done.
    + cbn. rewrite <- parts_rows, H7, map_insert_at, parts_ids. cbn. rewrite (i_rows _ _ _ HI), map_length.
      by rewrite (py_insert_pos_index _ _ _ Hk).
    + cbn. by rewrite <- parts_cols, H8, parts_ids, (i_cols _ _ _ HI).
  - exists (part_of new). split_and!; try done.
    + apply is_empty_new. unfold build_new_row in H4. by rewrite Nat2Z.id in H4.
    + rewrite nid_part. lia.
Qed.

Lemma wid_mid t t1 ps k : k < length (doc_rows t) -> doc_rows t1 = take k (doc_rows t) ++ ps ++ drop k (doc_rows t) ->
  Forall (is_empty_row (wid t)) ps -> wid t1 = wid t.
Proof.
  intros Hk E HF. rewrite (wid_parts t1), E. destruct k as [|k].
  - cbn [take app]. destruct HF as [|p ps Hp _]; cbn [app].
    + by rewrite wid_parts.
    + by apply is_empty_row_len.
  - rewrite wid_parts. destruct (doc_rows t); [cbn in Hk; lia|done].
Qed.

Lemma insert_rows_ok s W t i n k : Inv s W t -> py_index (length (doc_rows t)) i = Some k -> (1 <= n)%Z ->
  exists s', insert_rows i n s = (s', Ok tt) /\
    Rch s W t (fun t' => exists ps, length ps = Z.to_nat n /\ Forall (is_empty_row (wid t)) ps /\
                 Forall (fun p => nxt s <= p_id p)%N ps /\
                 doc_rows t' = take k (doc_rows t) ++ ps ++ drop k (doc_rows t) /\ doc_cols t' = doc_cols t) s'.
Proof.
  intros HI Hk Hn. unfold insert_rows, ctl_insert_rows. rewrite decide_False by lia.
  pose proof (py_index_lt _ _ _ Hk) as Hkl.
  apply (loop_repeat (Z.to_nat n) (insert_rows_body i) s W t (fun i t' => exists ps, length ps = i /\ Forall (is_empty_row (wid t)) ps /\
                 Forall (fun p => nxt s <= p_id p)%N ps /\
                 doc_rows t' = take k (doc_rows t) ++ ps ++ drop k (doc_rows t) /\ doc_cols t' = doc_cols t)).
  - done.
  - exists []. cbn. rewrite take_drop. split_and!; try done; constructor.
  - intros j s1 W1 t1 Hi HI1 Hx (ps & P1 & P2 & P3 & P4 & P5).
    assert (El : length (doc_rows t1) = length (doc_rows t) + length ps).
    { rewrite P4, !app_length, take_length, drop_length. lia. }
    destruct (py_index_grow _ (length ps) _ _ Hk) as (k' & Hk' & Hr & _). rewrite <- El in Hk'.
    destruct (insert_row_step s1 W1 t1 i k' HI1 Hk') as (s2 & E & HR). exists s2. split; [done|].
    eapply Rch_impl; [done|]. cbn. intros t2 (p & Q1 & Q2 & Q3 & Q4).
    assert (Ew : wid t1 = wid t) by (by eapply wid_mid).
    exists (insert_at (k' - k) p ps). split_and!.
    + rewrite insert_at_length; lia.
    + apply insert_at_Forall; [by rewrite <- Ew|done].
    + apply insert_at_Forall; [lia|done].
    + rewrite Q3, P4. apply insert_at_mid; lia.
    + congruence.
Qed.

Definition delete_rows_body (index : Z) : act st unit := let! delete_row := pop_row index in remove_node delete_row.

Lemma delete_row_step s W t i : Inv s W t -> i < length (doc_rows t) ->
  exists s', delete_rows_body (Z.of_nat i) s = (s', Ok tt) /\
    Rch s W t (fun t' => doc_rows t' = delete_at i (doc_rows t) /\ doc_cols t' = doc_cols t) s'.
Proof.
  intros HI Hi. unfold doc_rows in Hi. rewrite map_length in Hi. fold ROW in Hi.
  destruct (lookup_lt_is_Some_2 _ _ Hi) as [r Hr].
  assert (Hp : py_index (length (ldesc ROW t)) (Z.of_nat i) = Some i).
  { unfold py_index. rewrite decide_True by lia. by rewrite Nat2Z.id. }
  unfold delete_rows_body, pop_row, abind, aget. rewrite (i_rows _ _ _ HI). rewrite map_length, Hp.
  unfold alift. rewrite py_get_map. unfold py_get. rewrite Hp, Hr. unfold amod, aret.
  set (s1 := set_rowc _ s).
  destruct (remove_step ROW COL s W t i r other_RC HI Hr) as (t' & H1 & H2 & H3 & H4 & H5 & H6 & H7).
  assert (E : remove_node (nid r) s1 = (set_rowc (delete_at i (map nid (ldesc ROW t))) (St (plug (cadd r W) [t']) (nxt s) (obj s)), Ok tt)).
  { unfold remove_node in *. subst s1. cbn [store set_rowc set_obj]. case_decide; [done|].
    destruct (sub (nid r) (store s)); [|done]. injection H1 as H1. unfold set_store, set_rowc, set_obj. cbn. by rewrite H1. }
  rewrite E. eexists. split; [done|]. exists (cadd r W), t'. split_and!; [|auto|done|cbn; lia|done|done].
  eapply (Inv_intro s); try done.
  - cbn. by rewrite <- parts_rows, H3, map_delete_at, parts_ids.
  - cbn. by rewrite <- parts_cols, H4, parts_ids, (i_cols _ _ _ HI).
Qed.

Lemma delete_at_more {A} (l : list A) k i : delete_at k (take k l ++ drop (k + i) l) = take k l ++ drop (k + (i + 1)) l.
Proof.
  unfold delete_at. destruct (decide (k <= length l)) as [H|H].
  - rewrite take_app_alt by (rewrite take_length; lia). f_equal.
    rewrite drop_app_ge by (rewrite take_length; lia). rewrite take_length, drop_drop. f_equal. lia.
  - rewrite !(drop_ge l) by lia. rewrite !app_nil_r, take_take, Nat.min_id. rewrite drop_ge; [by rewrite app_nil_r|].
    rewrite take_length. lia.
Qed.

(** the position an index means when it is adjusted first *)
Definition adj (n : nat) (i : Z) : Z := if decide (i < 0)%Z then (i + Z.of_nat n)%Z else i.
Lemma py_index_adj n i k : py_index n i = Some k -> adj n i = Z.of_nat k.
Proof.
  unfold py_index, adj. intros H. case_decide as H1.
  - injection H as <-. rewrite decide_False by lia. lia.
  - case_decide as H2; [|done]. injection H as <-. rewrite decide_True by lia. lia.
Qed.

Lemma delete_rows_ok s W t i n k : Inv s W t -> py_index (length (doc_rows t)) i = Some k ->
  (1 <= n < Z.of_nat (length (doc_rows t)))%Z -> k + Z.to_nat n <= length (doc_rows t) ->
  exists s', delete_rows i n s = (s', Ok tt) /\
    Rch s W t (fun t' => doc_rows t' = take k (doc_rows t) ++ drop (k + Z.to_nat n) (doc_rows t) /\ doc_cols t' = doc_cols t) s'.
Proof.
  intros HI Hk Hn Hkn. unfold delete_rows, ctl_delete_rows. unfold abind at 1. rewrite (nrows_eq _ _ _ HI).
  rewrite <- parts_length, parts_rows. rewrite decide_False by lia.
  change (if decide (i < 0)%Z then (i + Z.of_nat (length (doc_rows t)))%Z else i) with (adj (length (doc_rows t)) i).
  rewrite (py_index_adj _ _ _ Hk).
  apply (loop_repeat (Z.to_nat n) (delete_rows_body (Z.of_nat k)) s W t
    (fun i t' => doc_rows t' = take k (doc_rows t) ++ drop (k + i) (doc_rows t) /\ doc_cols t' = doc_cols t)).
  - done.
  - by rewrite Nat.add_0_r, take_drop.
  - intros j s1 W1 t1 Hi HI1 Hx (P4 & P5).
    destruct (delete_row_step s1 W1 t1 k HI1) as (s2 & E & HR).
    { rewrite P4, app_length, take_length, drop_length. lia. }
    exists s2. split; [done|]. eapply Rch_impl; [done|]. cbn. intros t2 (Q3 & Q4).
    rewrite Q3, Q4, P4, P5. split; [|done]. apply delete_at_more.
Qed.

(** ** columns: the column elements *)
Definition append_cols_body : act st unit :=
  let! column := alloc new_empty_column in
  let! last_column := col_ref (-1) in
  let! _ := addnext last_column column in
  amod (fun s => set_colc (colc (obj s) ++ [nid column]) s).

Lemma is_empty_col_new x : erase x = new_empty_column -> is_empty_col (part_of x).
Proof. intros E. unfold is_empty_col. apply (is_empty_new 0). exact E. Qed.

Lemma append_col_step s W t : Inv s W t -> ldesc COL t <> [] ->
  exists s', append_cols_body s = (s', Ok tt) /\
    Rch s W t (fun t' => exists p, is_empty_col p /\ (nxt s <= p_id p)%N /\
                 doc_cols t' = doc_cols t ++ [p] /\ doc_rows t' = doc_rows t) s'.
Proof.
  intros HI Hne. destruct (last_some _ Hne) as [k Hk].
  destruct (addnext_step COL ROW s W t k new_empty_column other_CR HI Hk)
    as (new & n' & t' & H1 & H2 & H3 & H4 & H5 & H6 & H7 & H8 & H9 & H10 & H11); [done|done|done|].
  unfold append_cols_body, abind. rewrite H1.
  rewrite (col_ref_eq _ W t) by (apply Inv_nxt; [done|lia]).
  rewrite (py_get_last _ _ Hk), H5. eexists. split; [done|].
  exists W, t'. split_and!; [|done|done|cbn; lia|].
  - eapply (Inv_intro s); try done.
    + cbn. by rewrite <- parts_rows, H8, parts_ids, (i_rows _ _ _ HI).
    + cbn. rewrite <- parts_cols, H7, map_app, parts_ids. cbn. by rewrite (i_cols _ _ _ HI).
  - exists (part_of new). split_and!; try done.
    + by apply is_empty_col_new.
    + rewrite nid_part. lia.
Qed.

Lemma append_cols_ok s W t n : Inv s W t -> ldesc COL t <> [] -> (1 <= n)%Z ->
  exists s', ctl_append_cols n s = (s', Ok tt) /\
    Rch s W t (fun t' => exists ps, length ps = Z.to_nat n /\ Forall is_empty_col ps /\
                 Forall (fun p => nxt s <= p_id p)%N ps /\
                 doc_cols t' = doc_cols t ++ ps /\ doc_rows t' = doc_rows t) s'.
Proof.
  intros HI Hne Hn. unfold ctl_append_cols. rewrite decide_False by lia.
  apply (loop_repeat (Z.to_nat n) append_cols_body s W t (fun i t' => exists ps, length ps = i /\ Forall is_empty_col ps /\
                 Forall (fun p => nxt s <= p_id p)%N ps /\
                 doc_cols t' = doc_cols t ++ ps /\ doc_rows t' = doc_rows t)).
  - done.
  - exists []. rewrite app_nil_r. split_and!; try done; constructor.
  - intros i s1 W1 t1 Hi HI1 Hx (ps & P1 & P2 & P3 & P4 & P5).
    assert (Hd : doc_cols t <> []) by (unfold doc_cols; fold COL; by destruct (ldesc COL t)).
    assert (Hne1 : ldesc COL t1 <> []).
    { intros E. apply (f_equal (map part_of)) in E. change (doc_cols t1 = []) in E. rewrite P4 in E. by destruct (doc_cols t). }
    destruct (append_col_step s1 W1 t1 HI1 Hne1) as (s2 & E & HR). exists s2. split; [done|].
    eapply Rch_impl; [done|]. cbn. intros t2 (p & Q1 & Q2 & Q3 & Q4).
    exists (ps ++ [p]). split_and!.
    + rewrite app_length. cbn. lia.
    + apply Forall_app. split; [done|]. by constructor.
    + apply Forall_app. split; [done|]. constructor; [lia|constructor].
    + by rewrite Q3, P4, app_assoc.
    + congruence.
Qed.

Definition insert_cols_body (index : Z) : act st unit :=
  let! column := alloc new_empty_column in
  let! insertpos := col_ref index in
  let! _ := addprevious insertpos column in
  amod (fun s => set_colc (insert_at (py_insert_pos (length (colc (obj s))) index) (nid column) (colc (obj s))) s).

Lemma insert_col_step s W t i k : Inv s W t -> py_index (length (doc_cols t)) i = Some k ->
  exists s', insert_cols_body i s = (s', Ok tt) /\
    Rch s W t (fun t' => exists p, is_empty_col p /\ (nxt s <= p_id p)%N /\
                 doc_cols t' = insert_at k p (doc_cols t) /\ doc_rows t' = doc_rows t) s'.
Proof.
  intros HI Hk. unfold doc_cols in Hk. rewrite map_length in Hk. fold COL in Hk. destruct (py_get_index _ _ _ Hk) as (r & Hr & Hg).
  destruct (addprevious_step COL ROW s W t k r new_empty_column other_CR HI Hr)
    as (new & n' & t' & H1 & H2 & H3 & H4 & H5 & H6 & H7 & H8 & H9 & H10 & H11); [done|done|done|].
  unfold insert_cols_body, abind. rewrite H1.
  rewrite (col_ref_eq _ W t) by (apply Inv_nxt; [done|lia]).
  rewrite Hg, H5. eexists. split; [done|].
  exists W, t'. split_and!; [|done|done|cbn; lia|].
  - eapply (Inv_intro s); try done.
    + cbn. by rewrite <- parts_rows, H8, parts_ids, (i_rows _ _ _ HI).
    + cbn. rewrite <- parts_cols, H7, map_insert_at, parts_ids. cbn. rewrite (i_cols _ _ _ HI), map_length.
      by rewrite (py_insert_pos_index _ _ _ Hk).
  - exists (part_of new). split_and!; try done.
    + by apply is_empty_col_new.
    + rewrite nid_part. lia.
Qed.

Lemma colc_length s W t : Inv s W t -> length (colc (obj s)) = length (doc_cols t).
Proof. intros HI. by rewrite (i_cols _ _ _ HI), map_length, <- parts_cols, parts_length. Qed.
Lemma rowc_length s W t : Inv s W t -> length (rowc (obj s)) = length (doc_rows t).
Proof. intros HI. by rewrite (i_rows _ _ _ HI), map_length, <- parts_rows, parts_length. Qed.
Lemma py_index_nat n k : k < n -> py_index n (Z.of_nat k) = Some k.
Proof. intros H. unfold py_index. rewrite decide_True by lia. by rewrite Nat2Z.id. Qed.

Lemma insert_cols_ok s W t i n k : Inv s W t -> py_index (length (doc_cols t)) i = Some k -> (1 <= n)%Z ->
  exists s', ctl_insert_cols i n s = (s', Ok tt) /\
    Rch s W t (fun t' => exists ps, length ps = Z.to_nat n /\ Forall is_empty_col ps /\
                 Forall (fun p => nxt s <= p_id p)%N ps /\
                 doc_cols t' = take k (doc_cols t) ++ ps ++ drop k (doc_cols t) /\ doc_rows t' = doc_rows t) s'.
Proof.
  intros HI Hk Hn. unfold ctl_insert_cols. rewrite decide_False by lia. unfold abind at 1, aget.
  rewrite (colc_length _ _ _ HI).
  change (if decide (i < 0)%Z then (i + Z.of_nat (length (doc_cols t)))%Z else i) with (adj (length (doc_cols t)) i).
  rewrite (py_index_adj _ _ _ Hk). pose proof (py_index_lt _ _ _ Hk) as Hkl.
  apply (loop_repeat (Z.to_nat n) (insert_cols_body (Z.of_nat k)) s W t (fun i t' => exists ps, length ps = i /\ Forall is_empty_col ps /\
                 Forall (fun p => nxt s <= p_id p)%N ps /\
                 doc_cols t' = take k (doc_cols t) ++ ps ++ drop k (doc_cols t) /\ doc_rows t' = doc_rows t)).
  - done.
  - exists []. cbn. rewrite take_drop. split_and!; try done; constructor.
  - intros j s1 W1 t1 Hi HI1 Hx (ps & P1 & P2 & P3 & P4 & P5).
    assert (El : length (doc_cols t1) = length (doc_cols t) + length ps).
    { rewrite P4, !app_length, take_length, drop_length. lia. }
    destruct (insert_col_step s1 W1 t1 (Z.of_nat k) k HI1) as (s2 & E & HR); [apply py_index_nat; lia|]. exists s2. split; [done|].
    eapply Rch_impl; [done|]. cbn. intros t2 (p & Q1 & Q2 & Q3 & Q4).
    exists (insert_at (k - k) p ps). split_and!.
    + rewrite insert_at_length; lia.
    + by apply insert_at_Forall.
    + apply insert_at_Forall; [lia|done].
    + rewrite Q3, P4. apply insert_at_mid; lia.
    + congruence.
Qed.

Definition delete_cols_body (index : Z) : act st unit :=
  let! column := col_ref index in
  let! _ := remove_node column in
  let! s := aget in
  match py_index (length (colc (obj s))) index with
  | Some k => amod (set_colc (delete_at k (colc (obj s))))
  | None => araise IndexError
  end.

Lemma delete_col_step s W t i : Inv s W t -> i < length (doc_cols t) ->
  exists s', delete_cols_body (Z.of_nat i) s = (s', Ok tt) /\
    Rch s W t (fun t' => doc_cols t' = delete_at i (doc_cols t) /\ doc_rows t' = doc_rows t) s'.
Proof.
  intros HI Hi. unfold doc_cols in Hi. rewrite map_length in Hi. fold COL in Hi.
  pose proof (py_index_nat _ _ Hi) as Hp. destruct (py_get_index _ _ _ Hp) as (r & Hr & Hg).
  destruct (remove_step COL ROW s W t i r other_CR HI Hr) as (t' & H1 & H2 & H3 & H4 & H5 & H6 & H7).
  unfold delete_cols_body, abind. rewrite (col_ref_eq _ _ _ _ HI). rewrite Hg, H1. unfold aget. cbn [obj].
  rewrite (i_cols _ _ _ HI), map_length, Hp. eexists. split; [done|].
  exists (cadd r W), t'. split_and!; [|auto|done|cbn; lia|done|done].
  eapply (Inv_intro s); try done.
  - cbn. by rewrite <- parts_rows, H4, parts_ids, (i_rows _ _ _ HI).
  - cbn. by rewrite <- parts_cols, H3, map_delete_at, parts_ids.
Qed.

Lemma delete_cols_ok s W t i n k : Inv s W t -> py_index (length (doc_cols t)) i = Some k ->
  (1 <= n)%Z -> k + Z.to_nat n <= length (doc_cols t) ->
  exists s', ctl_delete_cols i n s = (s', Ok tt) /\
    Rch s W t (fun t' => doc_cols t' = take k (doc_cols t) ++ drop (k + Z.to_nat n) (doc_cols t) /\ doc_rows t' = doc_rows t) s'.
Proof.
  intros HI Hk Hn Hkn. unfold ctl_delete_cols. rewrite decide_False by lia. unfold abind at 1, aget.
  rewrite (colc_length _ _ _ HI).
  change (if decide (i < 0)%Z then (i + Z.of_nat (length (doc_cols t)))%Z else i) with (adj (length (doc_cols t)) i).
  rewrite (py_index_adj _ _ _ Hk).
  apply (loop_repeat (Z.to_nat n) (delete_cols_body (Z.of_nat k)) s W t
    (fun i t' => doc_cols t' = take k (doc_cols t) ++ drop (k + i) (doc_cols t) /\ doc_rows t' = doc_rows t)).
  - done.
  - by rewrite Nat.add_0_r, take_drop.
  - intros j s1 W1 t1 Hi HI1 Hx (P4 & P5).
    destruct (delete_col_step s1 W1 t1 k HI1) as (s2 & E & HR).
    { rewrite P4, app_length, take_length, drop_length. lia. }
    exists s2. split; [done|]. eapply Rch_impl; [done|]. cbn. intros t2 (Q3 & Q4).
    rewrite Q3, Q4, P4, P5. split; [|done]. apply delete_at_more.
Qed.
