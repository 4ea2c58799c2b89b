From Verif Require Export InjectSpec StylesProofs.
From Verif Require Import NodeStoreFacts.

(** ** One more tree *)
Lemma add_root_facts t w : wfs w -> NoDup (ids t) -> (forall y, y ∈ ids t -> y ∉ ids w) ->
  wfs (add_root t w) /\ (forall y, element y w -> sub y (add_root t w) = sub y w) /\
  (forall y, y ∈ ids t -> sub y (add_root t w) = sub y t) /\
  (forall y, element y (add_root t w) <-> element y w \/ y ∈ ids t).
Proof.
  intros Hw Ht Hd. destruct w as [a ks]. cbn [add_root]. split_and!.
  - unfold wfs in *. change (T a (ks ++ [t])) with (add_root t (T a ks)). rewrite ids_add_root. apply NoDup_app. split_and!; [done| |done].
    intros y Hy Hy'. by apply (Hd y).
  - intros y Hy. pose proof (proj1 (element_ids _ y Hw) Hy) as [Hy1 Hy2]. rewrite !sub_T. cbn in Hy2. rewrite decide_False by done.
    rewrite decide_False by done. rewrite subl_app. destruct (subl y ks) eqn:E; [done|]. exfalso.
    destruct (sub_total (T a ks) y Hy1) as [k Hk]. rewrite sub_T, decide_False in Hk by done. congruence.
  - intros y Hy. pose proof (Hd y Hy) as Hn. rewrite ids_T in Hn. apply not_elem_of_cons in Hn as [Hn1 Hn2].
    rewrite sub_T, decide_False by done. rewrite subl_app, subl_notin by done. cbn. by destruct (sub y t).
  - intros y. unfold element. cbn [kids]. rewrite flat_map_app. cbn. rewrite app_nil_r. by rewrite elem_of_app.
Qed.
(** A tree is what its nodes say. *)
Lemma rebuild w t : wfs w -> wfs t -> (forall y, y ∈ ids t -> children y w = children y t /\ data y w = data y t) ->
  sub (nid t) w = Some t.
Proof.
  intros Hw. induction t as [a ks IH] using tree_ind'. intros Ht Hy.
  destruct (Hy (nid (T a ks)) (nid_in _)) as [Hc Hd]. unfold data, children in Hc, Hd. rewrite sub_root in Hc, Hd.
  destruct (sub (nid (T a ks)) w) as [k|] eqn:E; [|done]. f_equal. cbn in Hc. injection Hd as Hd.
  pose proof (sub_nid _ _ _ E) as Hn. destruct k as [b js]. destruct a as [i d], b as [j d']. cbn in Hn, Hc, Hd, E. subst.
  f_equal. assert (Hk : forall k, k ∈ ks -> sub (nid k) w = Some k).
  { intros k Hk. rewrite Forall_forall in IH. apply IH; [done| |].
    - unfold wfs in *. rewrite ids_T in Ht. apply NoDup_cons in Ht as [_ Ht]. by apply (NoDup_flat_in ids ks k).
    - intros y Hyk. assert (Hs : sub (nid k) (T (L i d) ks) = Some k).
      { apply (el_kids_sub _ i); [done|]. unfold el_kids. rewrite sub_T, decide_True by done. done. }
      destruct (Hy y) as [Hy1 Hy2]; [by apply (sub_ids _ _ _ Hs)|]. rewrite Hy1, Hy2.
      split; [by apply (sub_children _ (nid k))|].
      destruct (view_at _ _ (sub_ids _ _ _ Hs y Hyk)) as (e & Hv & He). rewrite He.
      pose proof (sub_view _ _ _ _ Ht Hs Hv Hyk) as Hv'.
      apply view_spec in Hv' as (_ & _ & ->); [done|by apply (sub_wfs _ _ _ Ht Hs)]. }
  assert (Hj : forall k, k ∈ js -> sub (nid k) w = Some k).
  { intros k Hk'. apply (el_kids_sub _ i); [done|]. unfold el_kids. by rewrite E. }
  clear - Hc Hk Hj. revert ks Hc Hk. induction js as [|k js IH]; intros [|k' ks] Hc Hk; [done|done|done|].
  cbn in Hc. injection Hc as Hn Hc. f_equal.
  - assert (H1 := Hj k ltac:(left)). assert (H2 := Hk k' ltac:(left)). rewrite Hn in H1. congruence.
  - apply IH; [intros z Hz; apply Hj; by right|done|intros z Hz; apply Hk; by right].
Qed.

(** ** States *)
Record iinv (x : N) (l : list (option pystr)) (s : ist) : Prop := IInv {
  ii_wfs : wfs (tree_of (cont s));
  ii_x : element x (tree_of (cont s));
  ii_ids : Forall (fun y => y < unused s)%N (ids (tree_of (cont s)));
  ii_cache : cache_ok x (tree_of (cont s)) (cache (cont s));
  ii_obj : forall m o, cache (cont s) !! m = Some (RObj o) -> m ∈ l
}.
Lemma first_same w w' x l : children x w' = children x w ++ l ->
  (forall y, element y w -> data y w' = data y w) ->
  forall n y, first_named w x n y -> first_named w' x n y.
Proof.
  intros Hc Hd n y (a & b & E & Hn & Hf). exists a, (b ++ l). rewrite Hc, E, <- app_assoc.
  assert (Hnm : forall z, z ∈ children x w -> name_of w' z = name_of w z).
  { intros z Hz. unfold name_of. rewrite Hd; [done|]. by apply (child_element w x). }
  split_and!; [done| |].
  - rewrite Hnm; [done|]. rewrite E. apply elem_of_app. right. left.
  - rewrite (Forall_name w w'); [done|]. intros z Hz. apply Hnm. rewrite E. apply elem_of_app. by left.
Qed.
Lemma unnamed_same w w' x n : children x w' = children x w ->
  (forall y, element y w -> data y w' = data y w) -> unnamed w x n -> unnamed w' x n.
Proof.
  intros Hc Hd. unfold unnamed. rewrite Hc. apply (Forall_name w w').
  intros z Hz. unfold name_of. rewrite Hd; [done|]. by apply (child_element w x).
Qed.
Lemma wrap_label w y t : sub y w = Some t ->
  s_wrap (RNode y) w = if decide (e_tag (erase t) = "style:page-layout"%string) then Err TypeError else Ok y.
Proof. intros E. unfold s_wrap. rewrite E. by destruct t. Qed.

Section Inject.
Context `{XmlParser}.

Definition with_new (es : list elem) (s : ist) : ist :=
  let '(t, n) := label (T (Nd "root" ∅ None None) es) (unused s) in
  ISt (CSt (add_root t (tree_of (cont s))) (cache (cont s))) n.

Lemma with_new_inv x l s es : iinv x l s ->
  kept_all (tree_of (cont s)) (tree_of (cont (with_new es s))) /\ iinv x l (with_new es s).
Proof.
  intros [I1 I2 I3 I4 I5]. unfold with_new. destruct (label_ok (T (Nd "root" ∅ None None) es) (unused s)) as (E1 & E2 & E3 & E4).
  destruct (label _ _) as [t n]. cbn [fst snd] in *. destruct s as [[w ca] u]. cbn [cont tree_of cache unused] in *.
  destruct (add_root_facts t w I1 E2) as (A1 & A2 & A3 & A4).
  { intros y Hy Hy'. rewrite Forall_forall in I3, E3. specialize (I3 y Hy'). specialize (E3 y Hy). lia. }
  assert (Hd : forall y, element y w -> data y (add_root t w) = data y w) by (intros y Hy; unfold data; by rewrite A2).
  split; [by split|]. split; cbn [cont tree_of cache unused].
  - done.
  - apply A4. by left.
  - rewrite ids_add_root. apply Forall_app. split; [|eapply Forall_impl; [exact E3|]; cbn; intros; lia].
    eapply Forall_impl; [exact I3|]. cbn. intros. lia.
  - intros m y Hm. apply (first_same w _ x []); [|done|by apply I4]. unfold children. rewrite A2 by done. by rewrite app_nil_r.
  - done.
Qed.

(** what injecting does *)
Lemma inject_err x l s text wh e : iinv x l s -> xml_parts text = Err e -> inject_style x text wh s = (s, Err e).
Proof. intros _ E. unfold inject_style, fake_element, f_parse, abind. by rewrite E. Qed.
Lemma inject_empty x s text wh : xml_parts text = Ok [] ->
  inject_style x text wh s = (with_new [] s, Err IndexError).
Proof. intros E. unfold inject_style, fake_element, f_parse, abind. rewrite E. done. Qed.
Lemma inject_first x l s text wh e es : iinv x l s -> xml_parts text = Ok (e :: es) ->
  (e_tag e = "style:page-layout"%string /\ inject_style x text wh s = (with_new (e :: es) s, Err TypeError)) \/
  (e_tag e <> "style:page-layout"%string /\ exists c s', inject_style x text wh s = (s', Ok tt) /\
     injected x c e (tree_of (cont s)) (tree_of (cont s')) /\ iinv x l s' /\ cache (cont s') = cache (cont s)).
Proof.
  intros Hi E. destruct (with_new_inv x l s (e :: es) Hi) as [Hk Hi']. unfold inject_style, fake_element, f_parse, abind. rewrite E.
  unfold with_new in *. destruct (label_ok (T (Nd "root" ∅ None None) (e :: es)) (unused s)) as (E1 & E2 & E3 & E4).
  destruct (label _ _) as [t n]. cbn [fst snd] in *. destruct s as [[w ca] u]. destruct Hi as [I1 I2 I3 I4 I5]. cbn [cont tree_of cache unused] in *.
  assert (Hdis : forall y, y ∈ ids t -> y ∉ ids w).
  { intros y Hy Hy'. rewrite Forall_forall in I3, E3. specialize (I3 y Hy'). specialize (E3 y Hy). lia. }
  destruct (add_root_facts t w I1 E2 Hdis) as (A1 & A2 & A3 & A4).
  destruct t as [a [|k ks]]; [done|]. cbn [erase map] in E1. injection E1 as _ Ek Eks.
  change (py_get (kids (T a (k :: ks))) 0) with (Ok k). cbv beta iota.
  assert (Hkt : sub (nid k) (T a (k :: ks)) = Some k).
  { apply (el_kids_sub _ (nid (T a (k :: ks)))); [done|]. unfold el_kids. rewrite sub_root. left. }
  assert (Hkin : forall y, y ∈ ids k -> y ∈ ids (T a (k :: ks))) by (intros y; by apply (sub_ids _ _ _ Hkt)).
  assert (Hkw : sub (nid k) (add_root (T a (k :: ks)) w) = Some k).
  { rewrite A3; [done|]. apply Hkin, nid_in. }
  cbn [tree_of cont]. rewrite (wrap_label _ _ _ Hkw), Ek. case_decide as Hp; [left; by split|]. right. split; [done|].
  unfold on_cont, on_tree. cbn [cont tree_of cache].
  destruct Hi' as [J1 J2 J3 J4 J5]. cbn [cont tree_of cache unused] in *. set (w1 := add_root (T a (k :: ks)) w) in *.
  assert (Hce : element (nid k) w1) by (apply A4; right; apply Hkin, nid_in).
  assert (Hxk : forall y, element y w -> y ∉ ids k).
  { intros y Hy Hy'. apply Hkin in Hy'. apply (Hdis y Hy'). by apply element_ids in Hy as [? _]. }
  assert (Hnu : ~ upwards w1 (nid k) x).
  { intros Hu. apply (sub_upwards w1 (nid k) k x A1 Hkw) in Hu. by apply (Hxk x). }
  destruct (el_append_ok w1 x (nid k) J1 J2 Hce Hnu) as (w' & -> & P1 & P2 & P3 & P4 & P5 & P6).
  assert (Hcw : forall y, element y w -> children y w1 = children y w) by (intros y Hy; unfold children; by rewrite A2).
  assert (Hdw : forall y, element y w -> data y w1 = data y w) by (intros y Hy; unfold data; by rewrite A2).
  assert (Hnk : forall y, element y w -> nid k ∉ children y w).
  { intros y Hy Hk'. apply child_element in Hk'. apply (Hxk _ Hk'), nid_in. }
  assert (Hin : injected x (nid k) e w w').
  { split_and!.
    - done.
    - intros Hk'. apply (Hxk _ Hk'), nid_in.
    - rewrite P4, Hcw by done. by rewrite without_notin by (by apply Hnk).
    - rewrite (rebuild w' k P1); [cbn; by rewrite Ek|by apply (sub_wfs _ _ _ A1 Hkw)|].
      intros y Hy. assert (Hye : element y w1) by (apply A4; right; by apply Hkin).
      assert (Hyx : y <> x) by (intros ->; by apply (Hxk x)). rewrite P5, P6 by done.
      destruct (sub_total k y Hy) as [ky Hky].
      assert (Hch : children y w1 = children y k) by (by apply (sub_children w1 (nid k))).
      split.
      + rewrite Hch. apply without_notin. rewrite <- Hch. intros Hz. by destruct (below_children w1 (nid k) k y (nid k) A1 Hce Hkw Hy Hz).
      + destruct (view_at _ _ (sub_ids _ _ _ Hkw y Hy)) as (d & Hv & ->).
        pose proof (sub_view _ _ _ _ A1 Hkw Hv Hy) as Hv'. apply view_spec in Hv' as (_ & _ & ->); [done|by apply (sub_wfs _ _ _ A1 Hkw)].
    - intros y Hy. rewrite P6, Hdw by (try done; apply A4; by left). split; [done|].
      intros Hne. rewrite P5, Hcw by (try done; apply A4; by left). by rewrite without_notin by (by apply Hnk). }
  exists (nid k), (ISt (CSt w' ca) n). cbn [cont tree_of cache unused]. split_and!; [done|done| |done].
  split; cbn [cont tree_of cache unused].
  - done.
  - by apply P2.
  - rewrite Forall_forall in J3 |- *. intros y Hy. destruct (decide (y = nid w')) as [->|Hne].
    + rewrite P3. apply J3, nid_in.
    + apply J3. assert (He : element y w') by (by apply element_ids). apply P2 in He. by apply element_ids in He as [? _].
  - intros m y Hm. destruct Hin as (_ & _ & Hc' & _ & Hd'). apply (first_same w w' x [nid k]); [done| |by apply I4].
    intros z Hz. by destruct (Hd' z Hz).
  - done.
Qed.

Lemma reached_inv x w n l s : starts x w n -> reached x w n l s -> iinv x l s.
Proof.
  intros (H1 & H2 & H3). induction 1 as [|l s m _ IH|l s m c _ IH Hst|l s text wh _ IH _].
  - split; cbn; try done; intros; by rewrite lookup_empty in *.
  - destruct s as [[w1 ca] u]. destruct IH as [I1 I2 I3 I4 I5]. unfold on_cont. cbn [cont tree_of cache unused] in *.
    destruct (ca !! m) as [[y|o]|] eqn:Em.
    2:{ rewrite (s_get_obj x m w1 ca o Em). by split. }
    all: destruct (s_get_ok x m w1 ca I1 I4) as (c' & r & -> & _ & Hc' & Hm & Hn'); [intros o; by rewrite Em|]; split; cbn [cont tree_of cache unused fst]; try done;
      intros q o; (destruct (decide (q = m)) as [->|Hne]; [by intros ?%Hn'|]); rewrite Hm by done; apply I5.
  - destruct s as [[w1 ca] u]. destruct IH as [I1 I2 I3 I4 I5]. unfold on_cont. cbn [cont tree_of cache unused] in *.
    destruct (ca !! m) as [[y|o]|] eqn:Em.
    2:{ rewrite (s_set_obj x m w1 ca o c Em). cbn [fst]. split; cbn [cont tree_of cache unused]; try done. intros q p Hq. right. by apply (I5 q p). }
    all: destruct (s_set_ok x m c w1 ca I1 I2 I4) as (w' & -> & Hp); [intros o; by rewrite Em|done|]; cbn [fst];
      destruct Hst as (Hce & Hcn & _);
      destruct (first_after x m c w1 w' I1 Hce Hcn Hp) as (Hf1 & Hf2 & Hf3);
      (assert (Hpl : wfs w' /\ (forall y, element y w' <-> element y w1) /\ nid w' = nid w1)
        by (destruct Hp as [(? & ? & ? & _ & _ & P1 & P2 & P3 & _)|(_ & P1 & P2 & P3 & _)]; done));
      destruct Hpl as (P1 & P2 & P3); split; cbn [cont tree_of cache unused];
      [ done | by apply P2
      | rewrite Forall_forall in I3 |- *; intros z Hz; destruct (decide (z = nid w')) as [->|Hne];
        [rewrite P3; apply I3, nid_in|apply I3; assert (He : element z w') by (by apply element_ids); apply P2 in He; by apply element_ids in He as [? _]]
      | intros q z; destruct (decide (m = q)) as [<-|Hne]; [by rewrite lookup_insert|]; rewrite lookup_insert_ne by done;
        intros Hq; apply Hf2; [done|]; by apply I4
      | intros q o; destruct (decide (m = q)) as [<-|Hne]; [intros _; left|]; rewrite lookup_insert_ne by done; intros Hq; right; by apply (I5 q o) ].
  - destruct (xml_parts text) as [[|e es]|e] eqn:E.
    + rewrite inject_empty by done. by apply with_new_inv.
    + destruct (inject_first x l s text wh e es IH E) as [[_ ->]|(_ & c & s' & -> & _ & Hi & _)]; [by apply with_new_inv|done].
    + by rewrite (inject_err x l s text wh e IH E).
Qed.
End Inject.
