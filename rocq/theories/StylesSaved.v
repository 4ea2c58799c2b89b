(** Containers of styles and saving. *)
From Verif Require Export StylesSavedSpec StylesProofs.
From Verif Require Import BookProofs DocumentProofs SheetProofs SpanLayoutProofs.

Lemma get_tree x n s : tree_of (s_get x n s).1 = tree_of s.
Proof.
  destruct s as [w ca]. unfold s_get, abind, s_find. cbn [cache tree_of]. destruct (ca !! n) as [r|]; [done|].
  destruct (list_find _ (el_kids x w)) as [[i k]|]; done.
Qed.
Lemma run_frame x w0 os : wfs w0 -> element x w0 ->
  Forall (fun p => fresh_style w0 x p.1 p.2) (sets os) -> NoDup (map snd (sets os)) ->
  forall y, element y w0 -> y <> x -> children y (tree_of (s_run x os (CSt w0 ∅))) = children y w0.
Proof.
  intros Hw0 Hx. induction os as [|o os IH] using rev_ind; intros Hst Hnd y Hy Hyx; [done|].
  rewrite sets_app, map_app in Hnd. rewrite sets_app in Hst. apply Forall_app in Hst as [Hst1 Hst2].
  apply NoDup_app in Hnd as (Hnd1 & Hnd2 & _). specialize (IH Hst1 Hnd1 y Hy Hyx).
  assert (Hst1' : Forall (fun p => storable w0 x p.1 p.2) (sets os)) by (eapply Forall_impl; [exact Hst1|by intros p [? _]]).
  destruct (s_run_inv x w0 os Hw0 Hx Hst1' Hnd1) as [I1 I2 I3 I4 I5 I6 I7 I8 I9 I10].
  unfold s_run. rewrite foldl_app. cbn [foldl]. fold (s_run x os (CSt w0 ∅)). destruct (s_run x os (CSt w0 ∅)) as [w ca]. cbn [tree_of cache] in *.
  destruct o as [n|n c]; cbn [s_do].
  - by rewrite get_tree.
  - cbn in Hst2, Hnd2. apply Forall_cons in Hst2 as [[(Hce & Hcn & Hcu & Hck) Hfree] _]. cbn [fst snd] in *.
    assert (Hc' : c ∉ map snd (sets os)) by (intros H; apply (Hnd2 c H); left).
    destruct (first_set n (sets os)) as [o|] eqn:En.
    + assert (Eo : ca !! n = Some (RObj o)) by (by apply I5). by rewrite (s_set_obj x n w ca o c Eo).
    + assert (Hno : forall o, ca !! n <> Some (RObj o)) by (intros o H; apply I5 in H; congruence).
      assert (Hst : storable w x n c).
      { split_and!; [by apply I2|unfold StylesSpec.name_of; by rewrite I3| |].
        - intros H. by apply Hcu, I10.
        - intros H. by destruct (I9 c H). }
      destruct (s_set_ok x n c w ca I1) as (w' & -> & Hp); [by apply I2|done|done|done|]. cbn [fst tree_of].
      assert (Hpl : exists l, placed x c l w w') by (destruct Hp as [(l & o & l' & _ & _ & Hp)|[_ Hp]]; by eexists).
      destruct Hpl as (l & _ & _ & _ & _ & P5 & _). rewrite P5 by (try apply I2; done). rewrite IH. apply without_notin. by apply Hfree.
Qed.
(** subtrees without the container stay *)
Lemma run_whole x w0 os z k : wfs w0 -> element x w0 ->
  Forall (fun p => fresh_style w0 x p.1 p.2) (sets os) -> NoDup (map snd (sets os)) ->
  element z w0 -> sub z w0 = Some k -> x ∉ ids k -> sub z (tree_of (s_run x os (CSt w0 ∅))) = Some k.
Proof.
  intros Hw0 Hx Hst Hnd Hz Hk Hxk.
  assert (Hst' : Forall (fun p => storable w0 x p.1 p.2) (sets os)) by (eapply Forall_impl; [exact Hst|by intros p [? _]]).
  destruct (s_run_inv x w0 os Hw0 Hx Hst' Hnd) as [I1 I2 I3 _ _ _ _ _ _ _].
  apply (sub_ext w0); [done|done|done|]. intros q Hq.
  assert (Hqe : element q w0).
  { apply element_ids; [done|]. split; [by apply (sub_ids _ _ _ Hk)|]. intros ->.
    apply (element_ids w0 z Hw0) in Hz as [Hz Hne]. apply Hne.
    pose proof (proj1 (sub_upwards w0 z k (nid w0) Hw0 Hk) Hq) as Hu. revert Hu. clear -Hw0 Hne. intros Hu. inversion Hu as [|? ? ? H1]; subst; [done|]. exfalso.
    apply child_element in H. apply (element_ids w0 _ Hw0) in H as [_ H]. done. }
  split_and!; [by apply I2, element_ids in Hqe as [? _]|by apply run_frame; [| | | | |intros ->]|by apply I3].
Qed.

Lemma sub_data w x k : sub x w = Some k -> data x w = Some (pl (root k)) /\ children x w = map nid (kids k).
Proof. intros H. unfold data, children. by rewrite H. Qed.
Lemma node_eq (a b : node) : nid a = nid b -> pl (root a) = pl (root b) -> root a = root b.
Proof. destruct a as [[? ?] ?], b as [[? ?] ?]. cbn. congruence. Qed.
Lemma kids_subs w x k : wfs w -> sub x w = Some k -> Forall (fun q => sub (nid q) w = Some q) (kids k).
Proof. intros Hw H. apply Forall_forall. intros q Hq. apply (el_kids_sub w x); [done|]. unfold el_kids. by rewrite H. Qed.
Lemma roots_same (w w' : node) l : forall l', map nid l' = map nid l ->
  Forall (fun q => sub (nid q) w = Some q) l -> Forall (fun q => sub (nid q) w' = Some q) l' ->
  (forall q, q ∈ l -> data (nid q) w' = data (nid q) w) -> map root l' = map root l.
Proof.
  induction l as [|a l IH]; intros [|b l']; intros E F F' Hd; try done. cbn in E. injection E as E1 E2.
  apply Forall_cons in F as [F0 F], F' as [F0' F']. cbn [map]. f_equal.
  - apply node_eq; [done|]. specialize (Hd a ltac:(left)). destruct (sub_data _ _ _ F0) as [Ea _]. destruct (sub_data _ _ _ F0') as [Eb _]. rewrite E1 in Eb. congruence.
  - apply IH; try done. intros q Hq. apply Hd. by right.
Qed.
Lemma head_roots t l : forall l' k, map root l' = map root l -> head (filter (fun q : node => ltag q = t) l) = Some k ->
  exists k', head (filter (fun q : node => ltag q = t) l') = Some k' /\ root k' = root k.
Proof.
  induction l as [|a l IH]; intros [|b l'] k E H; try done. cbn in E. injection E as E1 E2. rewrite filter_cons in *.
  assert (Et : ltag b = ltag a) by (unfold ltag; by rewrite E1). rewrite Et. destruct (decide (ltag a = t)); [|by apply IH].
  cbn in H. injection H as <-. by exists b.
Qed.
Lemma container_in t S r k : style_container t S r k -> element (nid r) S /\ element (nid k) S /\ sub (nid r) S = Some r /\ sub (nid k) S = Some k /\ k ∈ kids r /\ nid r <> nid k.
Proof.
  intros (Hw & Hr & _ & Hk). assert (Hin : k ∈ kids r).
  { destruct (filter _ (kids r)) as [|q l] eqn:E; [done|]. cbn in Hk. injection Hk as ->. assert (H : k ∈ k :: l) by left. rewrite <- E in H. by apply elem_of_list_filter in H as [_ ?]. }
  assert (Sr : sub (nid r) S = Some r).
  { apply (el_kids_sub S (nid S)); [done|]. unfold el_kids. assert (sub (nid S) S = Some S) as ->; [|done]. destruct S as [[a p] ks]. cbn. by rewrite decide_True. }
  pose proof (proj1 (Forall_forall _ _) (kids_subs _ _ _ Hw Sr) k Hin) as Sk. cbn in Sk.
  assert (Er : nid r ∈ children (nid S) S) by (rewrite children_root; by apply (elem_of_list_fmap_1 nid)).
  assert (Ek : nid k ∈ children (nid r) S) by (destruct (sub_data _ _ _ Sr) as [_ ->]; by apply (elem_of_list_fmap_1 nid)).
  split_and!; [by eapply child_element|by eapply child_element|done|done|done|].
  intros E. rewrite <- E in Ek. apply (child_not_above S (nid r) (nid r) r Hw Sr Ek). apply nid_in.
Qed.
Lemma run_tree t S r k os : style_container t S r k ->
  Forall (fun p => fresh_style S (nid k) p.1 p.2) (sets os) -> NoDup (map snd (sets os)) ->
  let W := tree_of (s_run (nid k) os (CSt S ∅)) in
  exists r' k', sub (nid r) W = Some r' /\ sub (nid k) W = Some k' /\ root r' = root r /\ map root (kids r') = map root (kids r) /\
    head (filter (fun q => ltag q = t) (kids r')) = Some k'.
Proof.
  intros HC Hst Hnd W. pose proof HC as (Hw & _ & _ & Hk). destruct (container_in _ _ _ _ HC) as (Er & Ek & Sr & Sk & Hin & Hne).
  assert (Hst' : Forall (fun p => storable S (nid k) p.1 p.2) (sets os)) by (eapply Forall_impl; [exact Hst|by intros p [? _]]).
  destruct (s_run_inv (nid k) S os Hw Ek Hst' Hnd) as [I1 I2 I3 _ _ _ _ _ _ _].
  pose proof (run_frame (nid k) S os Hw Ek Hst Hnd (nid r) Er Hne) as Ef. fold W in I1, I2, I3, Ef.
  destruct (element_sub W (nid r) I1) as [r' Sr']; [by apply I2|].
  destruct (sub_data _ _ _ Sr) as [D1 C1]. destruct (sub_data _ _ _ Sr') as [D2 C2]. rewrite C1, C2 in Ef.
  pose proof (sub_nid _ _ _ Sr') as Nr. pose proof (I3 _ Er) as Dr. rewrite D1, D2 in Dr. injection Dr as Dr.
  assert (Hro : map root (kids r') = map root (kids r)).
  { apply (roots_same S W); [done|by apply (kids_subs S (nid r))|by apply (kids_subs W (nid r))|]. intros q Hq. apply I3.
    apply (child_element S (nid r)). rewrite C1. by apply (elem_of_list_fmap_1 nid). }
  destruct (head_roots t _ _ _ Hro Hk) as (k' & Hk' & Ek').
  exists r', k'. split_and!; try done; [|by apply node_eq].
  assert (Hin' : k' ∈ kids r').
  { destruct (filter _ (kids r')) as [|q l] eqn:E; [done|]. cbn in Hk'. injection Hk' as ->. assert (H : k' ∈ k' :: l) by left. rewrite <- E in H. by apply elem_of_list_filter in H as [_ ?]. }
  pose proof (proj1 (Forall_forall _ _) (kids_subs _ _ _ I1 Sr') k' Hin') as Sk'. cbn in Sk'.
  assert (nid k' = nid k) as <-; [|done]. unfold nid. by rewrite Ek'.
Qed.

Lemma names_erased (l : list node) : forall (l2 : list node), map erase l2 = map parsed (map erase l) -> Forall2 (fun q2 q => style_name q2 = style_name q /\ erase q2 = parsed (erase q)) l2 l.
Proof.
  induction l as [|q l IH]; intros [|q2 l2] E; try done. cbn in E. injection E as E1 E2. constructor; [|by apply IH]. split; [|done].
  unfold style_name. rewrite <- !erase_get, E1. apply parsed_get.
Qed.
Lemma name_sub w q : sub (nid q) w = Some q -> StylesSpec.name_of w (nid q) = style_name q.
Proof. intros H. unfold StylesSpec.name_of. destruct (sub_data _ _ _ H) as [-> _]. done. Qed.
Lemma same_found S k S2 k2 n : wfs S -> wfs S2 -> sub (nid k) S = Some k -> sub (nid k2) S2 = Some k2 ->
  map erase (kids k2) = map parsed (map erase (kids k)) -> found_again S (nid k) S2 (nid k2) n.
Proof.
  intros Hw Hw2 Sk Sk2 E. destruct (sub_data _ _ _ Sk) as [_ C]. destruct (sub_data _ _ _ Sk2) as [_ C2].
  pose proof (kids_subs _ _ _ Hw Sk) as F. pose proof (kids_subs _ _ _ Hw2 Sk2) as F2. apply names_erased in E.
  assert (HN : forall (l l2 : list node), Forall (fun q => sub (nid q) S = Some q) l -> Forall (fun q => sub (nid q) S2 = Some q) l2 ->
    Forall2 (fun q2 q => style_name q2 = style_name q /\ erase q2 = parsed (erase q)) l2 l ->
    Forall (fun z => StylesSpec.name_of S z <> n) (map nid l) -> Forall (fun z => StylesSpec.name_of S2 z <> n) (map nid l2)).
  { intros l l2 G G2 H. induction H as [|q2 q l2 l [H _] _ IH]; intros HF; [constructor|]. cbn [map] in *. apply Forall_cons in G as [G0 G], G2 as [G20 G2], HF as [HF0 HF].
    constructor; [|by apply IH]. rewrite (name_sub _ _ G0) in HF0. by rewrite (name_sub _ _ G20), H. }
  split.
  - intros y (l & l' & El & Hy & Hl). rewrite C in El. apply fmap_app_inv in El as (a & b & -> & Eb & Ekk); rewrite Ekk in E, F. destruct b as [|q b]; [done|]. cbn in Eb. injection Eb as -> ->.
    apply Forall2_app_inv_r in E as (a2 & b2 & H1 & H2 & Ek2). rewrite Ek2 in F2, C2. apply Forall2_cons_inv_r in H2 as (q2 & b2' & [H2 H3] & H4 & Eb2); subst b2.
    apply Forall_app in F as [Fa Fb]. apply Forall_cons in Fb as [Fq _]. apply Forall_app in F2 as [Fa2 Fb2]. apply Forall_cons in Fb2 as [Fq2 _].
    exists (nid q2). split.
    + exists (map nid a2), (map nid b2'). split_and!; [by rewrite C2, map_app| |by apply (HN a)]. rewrite (name_sub _ _ Fq2), H2. by rewrite <- (name_sub _ _ Fq).
    + unfold whole. rewrite Fq, Fq2. cbn. by rewrite H3.
  - unfold unnamed. rewrite C, C2. by apply HN.
Qed.
