(** Proofs about lists. *)
From Verif Require Export TextListsSpec WrapperProofs Relabel TextProofs AttrsProofs.

Lemma child_not_up w x c : wfs w -> c ∈ children x w -> ~ upwards w c x.
Proof.
  intros Hw Hc Hu. destruct (element_sub w c Hw (child_element _ _ _ Hc)) as [k Hk].
  apply (child_not_above w x c k Hw Hk Hc). by apply (sub_upwards w c k x Hw Hk).
Qed.
Lemma upwards_trans w a b c : upwards w a b -> upwards w b c -> upwards w a c.
Proof. intros H1 H2. induction H2 as [|x y z H2 IH Hc]; [done|]. econstructor; [by apply IH|done]. Qed.
Lemma up_element w a b : element a w -> upwards w a b -> element b w.
Proof. intros Ha H. destruct H as [|x y z H Hc]; [done|]. by eapply child_element. Qed.

(** Moving a node to or from [x] changes nothing above [x]. *)
Lemma placed_up_to x c l w w' a b : wfs w -> placed x c l w w' -> ~ upwards w c x ->
  element a w -> upwards w b x -> upwards w a b -> upwards w' a b.
Proof.
  intros Hw (Hw' & He & Hn & Hl & Hc & Hd) Hu Hea Hb Ha. induction Ha as [|a y b Ha IH Hy]; [constructor|].
  assert (Hyx : upwards w y x) by (apply (upwards_trans w y b x); [econstructor; [constructor|done]|done]).
  econstructor; [by apply IH|].
  destruct (decide (y = x)) as [E|Hne].
  - subst y. exfalso. by apply (child_not_up w x b).
  - rewrite Hc; [|by apply (up_element w a)|done]. apply without_in. split; [done|]. intros E. subst b. done.
Qed.
Lemma placed_up_from x c l w w' a b : wfs w -> placed x c l w w' -> ~ upwards w c x ->
  element a w -> element b w -> upwards w b x -> upwards w' a b -> upwards w a b.
Proof.
  intros Hw HP Hu Hea Heb Hb Ha. induction Ha as [|a y b Ha IH Hy]; [constructor|].
  pose proof HP as (Hw' & He & Hn & Hl & Hc & Hd).
  assert (Hey : element y w) by (apply He, (up_element w' a); [by apply He|done]).
  destruct (decide (y = x)) as [E|Hne].
  - subst y. exfalso. apply (child_not_up w' x b Hw' Hy). apply (placed_up_to x c l w w'); try done; constructor.
  - rewrite Hc in Hy by done. apply without_in in Hy as [Hy _].
    econstructor; [|done]. apply IH; [done|done|]. apply (upwards_trans w y b x); [|done].
    econstructor; [constructor|done].
Qed.
Lemma placed_up x c l w w' a : wfs w -> element x w -> placed x c l w w' -> ~ upwards w c x ->
  element a w -> upwards w' a x <-> upwards w a x.
Proof.
  intros Hw Hx HP Hu Ha. split.
  - apply (placed_up_from x c l w w' a x); try done. constructor.
  - apply (placed_up_to x c l w w' a x); try done. constructor.
Qed.

(** ** headers *)
Lemma findall_tagged t x w : wfs w -> wr_findall t x w = tagged t w (children x w).
Proof.
  intros Hw. unfold wr_findall, tagged. rewrite <- el_kids_children.
  assert (H : forall k, k ∈ el_kids x w -> data (nid k) w = Some (pl (root k))).
  { intros k Hk. unfold data. by rewrite (el_kids_sub w x) by done. }
  induction (el_kids x w) as [|k l IH]; [done|]. specialize (IH ltac:(intros; apply H; by right)).
  specialize (H k ltac:(left)). cbn [map]. destruct (decide (ltag k = t)) as [E|E].
  - rewrite filter_cons_True by done. rewrite filter_cons_True by (rewrite H; cbn; by f_equal). cbn [map]. by f_equal.
  - rewrite filter_cons_False by done. rewrite filter_cons_False; [done|]. rewrite H. cbn. unfold ltag in E. congruence.
Qed.
Lemma get_header_eq x w : wfs w -> get_header x w = head (headers x w).
Proof. intros Hw. unfold get_header, wr_find. by rewrite findall_tagged. Qed.
Lemma tagged_in t w l c : c ∈ tagged t w l <-> c ∈ l /\ tag <$> data c w = Some t.
Proof. unfold tagged. rewrite elem_of_list_filter. tauto. Qed.
Lemma tagged_ext t w w' l : (forall c, c ∈ l -> data c w' = data c w) -> tagged t w' l = tagged t w l.
Proof.
  intros H. unfold tagged. induction l as [|c l IH]; [done|]. rewrite !filter_cons, (H c) by left.
  by rewrite IH by (intros; apply H; by right).
Qed.
Lemma tagged_without t w l c : tagged t w (without c l) = without c (tagged t w l).
Proof. unfold tagged, without. rewrite !list_filter_filter. apply list_filter_iff. naive_solver. Qed.
Lemma tagged_app t w l l' : tagged t w (l ++ l') = tagged t w l ++ tagged t w l'.
Proof. apply filter_app. Qed.

Lemma put_at_0 h l : NoDup l -> put_at 0 h l = h :: without h l.
Proof.
  intros Hn. unfold put_at, at_pos. rewrite decide_True by done. change (Z.to_nat 0) with 0.
  destruct l as [|t l]; [done|]. cbn [lookup list_lookup]. apply NoDup_cons in Hn as [H1 H2].
  destruct (decide (t = h)) as [E|E].
  - subst t. unfold without. rewrite filter_cons_False by (by intros ?). f_equal.
    symmetry. by apply without_notin.
  - unfold without. rewrite filter_cons_True by done. cbn [put_before]. by rewrite decide_True.
Qed.

(** the first header has been taken out *)
Definition unheaded (x : N) (w w1 : node) : Prop :=
  match head (headers x w) with
  | Some old => placed x old (without old (children x w)) w w1
  | None => w1 = w
  end.
Lemma head_in {A} (l : list A) a : head l = Some a -> a ∈ l.
Proof. destruct l; [done|]. intros [= ->]. left. Qed.
Lemma unhead_ok x w : wfs w -> element x w -> exists w1,
  (match get_header x w with Some old => el_remove x old w | None => (w, Ok tt) end) = (w1, Ok tt) /\ unheaded x w w1.
Proof.
  intros Hw Hx. rewrite get_header_eq by done. unfold unheaded.
  destruct (head (headers x w)) as [old|] eqn:E; [|by exists w].
  apply el_remove_ok; [done|done|]. apply head_in, tagged_in in E. by destruct E.
Qed.
Lemma unheaded_facts x w w1 : wfs w -> element x w -> unheaded x w w1 ->
  wfs w1 /\ (forall y, element y w1 <-> element y w) /\
  children x w1 = (match head (headers x w) with Some old => without old (children x w) | None => children x w end) /\
  (forall y, element y w -> y <> x -> children y w1 = children y w) /\
  (forall y, element y w -> data y w1 = data y w) /\
  (forall a, element a w -> upwards w1 a x <-> upwards w a x).
Proof.
  intros Hw Hx H. unfold unheaded in H. destruct (head (headers x w)) as [old|] eqn:E; [|by subst w1].
  apply head_in, tagged_in in E as [E _]. pose proof H as (H1 & H2 & H3 & H4 & H5 & H6). split_and!; try done.
  - intros y Hy Hne. rewrite H5 by done. apply without_notin. intros Hin. apply Hne.
    by apply (one_parent w y x old).
  - intros a Ha. apply (placed_up x old (without old (children x w))); try done. by apply child_not_up.
Qed.

Lemma set_header_kind x h w : kind h <> "ListHeader"%string -> set_header x h w = (w, Err TypeError).
Proof. intros H. unfold set_header. by rewrite decide_True. Qed.
Lemma set_header_ok x h w : wfs w -> element x w -> element h w -> ~ upwards w h x ->
  exists w', set_header x (Wr "ListHeader" h) w = (w', Ok tt) /\ header_placed x h w w'.
Proof.
  intros Hw Hx Hh Hu. unfold set_header. rewrite decide_False by (by intros []). unfold abind at 1.
  destruct (unhead_ok x w Hw Hx) as (w1 & -> & H1).
  destruct (unheaded_facts x w w1 Hw Hx H1) as (A1 & A2 & A3 & A4 & A5 & A6). cbn [xmlnode].
  destruct (el_insert_ok w1 x 0 h) as (w2 & E & HP); [done|by apply A2|by apply A2|by rewrite A6|].
  exists w2. unfold abind. rewrite wr_insert_eq, E. cbn. split; [done|].
  destruct HP as (B1 & B2 & B3 & B4 & B5 & B6). unfold header_placed. split_and!.
  - done.
  - intros y. by rewrite B2, A2.
  - rewrite B4, put_at_0 by (by apply children_NoDup). by rewrite A3.
  - intros y Hy Hne. rewrite B5 by (try apply A2; done). by rewrite A4.
  - intros y Hy. rewrite B6 by (by apply A2). by apply A5.
Qed.
Lemma set_header_cycle x h w : wfs w -> element x w -> element h w -> upwards w h x ->
  exists w', set_header x (Wr "ListHeader" h) w = (w', Err ValueError) /\ unheaded x w w'.
Proof.
  intros Hw Hx Hh Hu. unfold set_header. rewrite decide_False by (by intros []). unfold abind at 1.
  destruct (unhead_ok x w Hw Hx) as (w1 & -> & H1).
  destruct (unheaded_facts x w w1 Hw Hx H1) as (A1 & A2 & A3 & A4 & A5 & A6). cbn [xmlnode].
  exists w1. unfold abind. rewrite wr_insert_eq, el_insert_cycle; [done|done|by apply A2|by apply A6].
Qed.

(** ** what it means for header and items *)
Lemma header_placed_headers x h w w' : wfs w -> element x w -> element h w -> header_placed x h w w' ->
  tag <$> data h w = Some "text:list-header"%string ->
  headers x w' = h :: without h (drop 1 (headers x w)) /\ items x w' = items x w.
Proof.
  intros Hw Hx Hh (H1 & H2 & H3 & H4 & H5) Ht.
  assert (Hd : forall c, c ∈ children x w' -> data c w' = data c w).
  { intros c Hc. apply H5, H2. by eapply child_element. }
  assert (Hnd : NoDup (headers x w)) by (apply NoDup_filter, children_NoDup; done).
  unfold headers, items. rewrite !(tagged_ext _ w w') by done. rewrite H3. unfold tagged at 1 3.
  rewrite filter_cons_True by done. rewrite filter_cons_False by (rewrite Ht; by intros [=]).
  fold (headers x w) in *. fold (items x w).
  change (filter ?P ?l) with (tagged "text:list-header" w l) at 1.
  split.
  - f_equal. rewrite tagged_without. f_equal. destruct (headers x w) as [|o r] eqn:E.
    + cbn. done.
    + cbn [head drop]. rewrite tagged_without. fold (headers x w). rewrite E. unfold without.
      rewrite filter_cons_False by (by intros ?). apply NoDup_cons in Hnd as [Hnd _]. by apply without_notin.
  - change (filter ?P ?l) with (tagged "text:list-item" w l) at 1. rewrite tagged_without.
    assert (He : forall c, tag <$> data c w = Some "text:list-header"%string ->
      forall l, without c (tagged "text:list-item" w l) = tagged "text:list-item" w l).
    { intros c Hc l. apply without_notin. intros [_ Hc']%tagged_in. congruence. }
    rewrite He by done. destruct (head (headers x w)) as [o|] eqn:E; [|done].
    apply head_in, tagged_in in E as [_ E]. by rewrite tagged_without, He.
Qed.

(** ** histories *)
Lemma list_op_step x o w : wfs w -> element x w -> list_op_ok x w o ->
  let w' := (do_list_op x o w).1 in
  wfs w' /\ (forall y, element y w' <-> element y w) /\ (forall y, element y w -> data y w' = data y w) /\
  (forall a, element a w -> upwards w' a x <-> upwards w a x) /\
  head (headers x w') = last_header [o] (head (headers x w)) /\ items x w' = items_after o (items x w).
Proof.
  intros Hw Hx Ho. cbv zeta. destruct o as [h|c|c]; destruct Ho as (Hc & Ht & Hu); cbn [do_list_op].
  - destruct (set_header_ok x h w Hw Hx Hc Hu) as (w' & E & HP). rewrite E. cbn [fst].
    destruct (header_placed_headers x h w w' Hw Hx Hc HP Ht) as [E1 E2].
    pose proof HP as (H1 & H2 & H3 & H4 & H5). split_and!; try done; [|by rewrite E1].
    (* above [x] nothing changes: two moves *)
    unfold set_header in E. rewrite decide_False in E by (by intros []). unfold abind at 1 in E.
    destruct (unhead_ok x w Hw Hx) as (w1 & Eh & HU). rewrite Eh in E.
    destruct (unheaded_facts x w w1 Hw Hx HU) as (A1 & A2 & A3 & A4 & A5 & A6).
    destruct (el_insert_ok w1 x 0 h) as (w2 & E' & HP'); [done|by apply A2|by apply A2|by rewrite A6|].
    unfold abind in E. cbn [xmlnode] in E. rewrite wr_insert_eq, E' in E. cbn in E. injection E as ->.
    intros a Ha. rewrite <- A6 by done. apply (placed_up x h (put_at 0 h (children x w1))); try done; [by apply A2|by rewrite A6|by apply A2].
  - rewrite quiet_eq, wr_append_eq. cbn [fst].
    destruct (el_append_ok w x c Hw Hx Hc Hu) as (w' & E & HP). rewrite E. cbn [fst].
    pose proof HP as (H1 & H2 & H3 & H4 & H5 & H6). split_and!; try done.
    + intros a Ha. by apply (placed_up x c (without c (children x w) ++ [c])).
    + unfold headers. rewrite (tagged_ext _ w w') by (intros y Hy; apply H6, H2; by eapply child_element).
      rewrite H4, tagged_app. unfold tagged at 2. rewrite filter_cons_False by (rewrite Ht; by intros [=]).
      rewrite filter_nil, app_nil_r, tagged_without, without_notin; [done|].
      intros [_ H']%tagged_in. congruence.
    + unfold items. rewrite (tagged_ext _ w w') by (intros y Hy; apply H6, H2; by eapply child_element).
      rewrite H4, tagged_app. unfold tagged at 2. rewrite filter_cons_True by done.
      by rewrite filter_nil, tagged_without.
  - destruct (decide (c ∈ children x w)) as [Hin|Hni].
    + destruct (el_remove_ok w x c Hw Hx Hin) as (w' & E & HP). unfold wr_remove. rewrite E. cbn [fst].
      pose proof HP as (H1 & H2 & H3 & H4 & H5 & H6). split_and!; try done.
      * intros a Ha. by apply (placed_up x c (without c (children x w))).
      * unfold headers. rewrite (tagged_ext _ w w') by (intros y Hy; apply H6, H2; by eapply child_element).
        rewrite H4, tagged_without, without_notin; [done|]. intros [_ H']%tagged_in. congruence.
      * unfold items. rewrite (tagged_ext _ w w') by (intros y Hy; apply H6, H2; by eapply child_element).
        by rewrite H4, tagged_without.
    + unfold wr_remove. rewrite el_remove_err by done. cbn [fst]. split_and!; try done.
      cbn [items_after]. rewrite without_notin; [done|]. intros [H' _]%tagged_in. done.
Qed.
Lemma last_header_cons o l d : last_header (o :: l) d = last_header l (last_header [o] d).
Proof. by destruct o. Qed.
Lemma list_history x l w : wfs w -> element x w -> Forall (list_op_ok x w) l ->
  let w' := run_list_ops x l w in
  wfs w' /\ (forall y, element y w' <-> element y w) /\ (forall y, element y w -> data y w' = data y w) /\
  get_header x w' = last_header l (get_header x w) /\ iteritems x w' = foldl (fun l o => items_after o l) (iteritems x w) l.
Proof.
  intros Hw Hx Hl. cbv zeta. unfold iteritems.
  enough (wfs (run_list_ops x l w) /\ (forall y, element y (run_list_ops x l w) <-> element y w) /\
    (forall y, element y w -> data y (run_list_ops x l w) = data y w) /\
    head (headers x (run_list_ops x l w)) = last_header l (head (headers x w)) /\
    items x (run_list_ops x l w) = foldl (fun l o => items_after o l) (items x w) l) as (H1 & H2 & H3 & H4 & H5).
  { rewrite !get_header_eq, !findall_tagged by done. by split_and!. }
  revert w Hw Hx Hl. induction l as [|o l IH]; intros w Hw Hx Hl; [done|]. apply Forall_cons in Hl as [Ho Hl].
  destruct (list_op_step x o w Hw Hx Ho) as (H1 & H2 & H3 & H4 & H5 & H6).
  change (run_list_ops x (o :: l) w) with (run_list_ops x l (do_list_op x o w).1).
  destruct (IH _ H1) as (I1 & I2 & I3 & I4 & I5); [by apply H2| |].
  { eapply Forall_impl; [exact Hl|]. intros o' Ho'.
    assert (Hstep : forall c t, element c w /\ tag <$> data c w = Some t /\ ~ upwards w c x ->
      element c (do_list_op x o w).1 /\ tag <$> data c (do_list_op x o w).1 = Some t /\ ~ upwards (do_list_op x o w).1 c x).
    { intros c t (A1 & A2 & A3). split_and!; [by apply H2|by rewrite H3|by rewrite H4]. }
    destruct o'; by apply Hstep. }
  split_and!.
  - done.
  - intros y. by rewrite I2, H2.
  - intros y Hy. rewrite I3 by (by apply H2). by apply H3.
  - by rewrite last_header_cons, I4, H5.
  - cbn [foldl]. by rewrite I5, H6.
Qed.

(** ** elements *)
Section elements.
Context `{U : Unicode} `{F : PyFloat}.

Lemma new_list_part_plaintext tg t : tg ∈ list_tags -> plaintext (new_list_part tg t) = Ok t.
Proof.
  intros Htg.
  assert (H : forall ks l, rmap plaintext ks = Ok l -> plaintext (T (Nd tg ∅ None None) ks) = Ok (py_join [10%N] l)).
  { intros ks l E. cbn [plaintext tag].
    assert (tg ∉ span_tags /\ tg <> TAB /\ tg <> BRK /\ tg <> SPC /\ tg <> SPB) as (N1 & N2 & N3 & N4 & N5).
    { unfold list_tags in Htg. apply elem_of_cons in Htg as [->|Htg]; [split_and!; dec_vm|].
      apply elem_of_list_singleton in Htg as ->. split_and!; dec_vm. }
    rewrite !decide_False by done. rewrite decide_True by done. by rewrite E. }
  unfold new_list_part. destruct t as [|c t]; [by apply (H [] [])|]. unfold new_elem, e_append. cbn [on_kids app].
  rewrite (H _ [c :: t]); [done|]. cbn [rmap]. rewrite new_span_plaintext; [done|]. right; left.
Qed.
Lemma list_find_position t e i : position t e = Some i <->
  (exists k, kids e !! i = Some k /\ e_tag k = t) /\ forall j k, j < i -> kids e !! j = Some k -> e_tag k <> t.
Proof.
  unfold position. destruct (list_find (fun k => e_tag k = t) (kids e)) as [[n k]|] eqn:E; cbn.
  - apply list_find_Some in E as (H1 & H2 & H3). split.
    + intros [= <-]. split; [by eauto|]. intros j y Hj Hy. by apply (H3 j y).
    + intros [(y & Hy & Hyt) Hi]. f_equal. destruct (Nat.lt_trichotomy n i) as [Hl|[Hl|Hl]]; [|done|].
      * exfalso. by apply (Hi n k).
      * exfalso. by apply (H3 i y).
  - apply list_find_None in E. split; [done|]. intros [(y & Hy & Hyt) _]. rewrite Forall_forall in E.
    exfalso. apply (E y); [by eapply elem_of_list_lookup_2|done].
Qed.
Lemma position_None t e : position t e = None <-> Forall (fun k => e_tag k <> t) (kids e).
Proof.
  unfold position. destruct (list_find (fun k => e_tag k = t) (kids e)) as [[n k]|] eqn:E; cbn.
  - split; [done|]. intros H. apply list_find_Some in E as (H1 & H2 & _). rewrite Forall_forall in H.
    exfalso. apply (H k); [by eapply elem_of_list_lookup_2|done].
  - apply list_find_None in E. done.
Qed.
Lemma find_child_None t e : find_child t e = None <-> Forall (fun k => e_tag k <> t) (kids e).
Proof.
  unfold find_child, findall. induction (kids e) as [|k l IH]; [done|]. rewrite Forall_cons.
  destruct (decide (e_tag k = t)).
  - rewrite filter_cons_True by done. cbn. naive_solver.
  - rewrite filter_cons_False by done. rewrite IH. tauto.
Qed.
Lemma numbered_content_eq e :
  numbered_content e =
    match position "text:h" e, position "text:p" e with
    | Some i, _ => (e, Ok (Some i))
    | None, Some i => (e, Ok (Some i))
    | None, None => (e_append (new_elem "text:p") e, Ok (Some (length (kids e))))
    end.
Proof.
  unfold numbered_content. destruct (position "text:h" e); [done|]. unfold subelement.
  destruct (position "text:p" e) as [i|] eqn:E.
  - destruct (find_child "text:p" e) eqn:E'; [by rewrite E|]. exfalso.
    apply find_child_None, position_None in E'. congruence.
  - pose proof E as E'. apply position_None in E'. pose proof E' as E2. apply find_child_None in E2. rewrite E2.
    f_equal. f_equal. apply list_find_position. destruct e as [a ks]. cbn [e_append on_kids kids] in *. split.
    + exists (new_elem "text:p"). split; [|done]. rewrite lookup_app_r by lia. by rewrite Nat.sub_diag.
    + intros j k Hj Hk. rewrite lookup_app_l in Hk by done. rewrite Forall_lookup in E'. by apply (E' j).
Qed.

Lemma list_texts tg ts e : tg ∈ list_tags -> findall tg (foldl (fun e t => e_append (new_list_part tg t) e) e ts)
  = findall tg e ++ map (new_list_part tg) ts /\
  forall tg', tg' <> tg -> findall tg' (foldl (fun e t => e_append (new_list_part tg t) e) e ts) = findall tg' e.
Proof.
  intros Htg. revert e. induction ts as [|t ts IH]; intros e; [by rewrite app_nil_r|]. cbn [foldl].
  destruct (IH (e_append (new_list_part tg t) e)) as [H1 H2].
  assert (Ht : e_tag (new_list_part tg t) = tg) by (by destruct t).
  split.
  - rewrite H1. destruct e as [a ks]. unfold findall. cbn [e_append on_kids kids]. rewrite filter_app.
    rewrite filter_cons_True by done. by rewrite filter_nil, <- app_assoc.
  - intros tg' Hne. rewrite H2 by done. destruct e as [a ks]. unfold findall. cbn [e_append on_kids kids].
    rewrite filter_app. rewrite filter_cons_False by congruence. by rewrite filter_nil, app_nil_r.
Qed.
Lemma rmap_texts tg ts : tg ∈ list_tags -> rmap plaintext (map (new_list_part tg) ts) = Ok ts.
Proof.
  intros Htg. induction ts as [|t ts IH]; [done|]. cbn [map rmap]. rewrite new_list_part_plaintext by done.
  cbn. by rewrite IH.
Qed.
End elements.
