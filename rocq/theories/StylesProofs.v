(** Proofs about containers of styles. *)
From Verif Require Export StylesSpec WrapperProofs.

Lemma kid_name w x k : wfs w -> k ∈ el_kids x w -> name_of w (nid k) = style_name k.
Proof. intros Hw Hk. unfold name_of, data. by rewrite (el_kids_sub w x k) by done. Qed.
Lemma list_find_first w x n : wfs w ->
  match list_find (fun k => style_name k = n) (el_kids x w) with
  | Some (_, k) => first_named w x n (nid k)
  | None => unnamed w x n
  end.
Proof.
  intros Hw. unfold first_named, unnamed. rewrite <- el_kids_children.
  assert (H : forall l, (forall k, k ∈ l -> name_of w (nid k) = style_name k) ->
    match list_find (fun k => style_name k = n) l with
    | Some (_, k) => exists l1 l2, map nid l = l1 ++ nid k :: l2 /\ name_of w (nid k) = n /\ Forall (fun z => name_of w z <> n) l1
    | None => Forall (fun z => name_of w z <> n) (map nid l)
    end).
  { induction l as [|k l IH]; intros Hl; [constructor|]. cbn [list_find]. pose proof (Hl k) as Hk.
    case_decide as E.
    - exists [], (map nid l). split_and!; [done| |constructor]. rewrite Hk; [done|left].
    - assert (IH' := IH (fun k' H => Hl k' (elem_of_list_further _ _ _ H))).
      destruct (list_find (fun k => style_name k = n) l) as [[i k']|]; cbn.
      + destruct IH' as (l1 & l2 & E1 & E2 & E3). exists (nid k :: l1), l2. split_and!; [by rewrite E1|done|].
        constructor; [|done]. rewrite Hk; [done|left].
      + constructor; [|done]. rewrite Hk; [done|left]. }
  apply H. intros k Hk. by apply (kid_name w x).
Qed.
Lemma first_unique w x n y z : first_named w x n y -> first_named w x n z -> y = z.
Proof.
  intros (l1 & l2 & E1 & N1 & F1) (m1 & m2 & E2 & N2 & F2). rewrite E1 in E2. clear E1. revert m1 E2 F2.
  induction F1 as [|a l1 Ha F1 IH]; intros m1 E2 F2.
  - destruct m1 as [|b m1]; cbn in E2; [by injection E2|]. injection E2 as -> _. by apply Forall_cons in F2 as [? _].
  - destruct m1 as [|b m1]; cbn in E2; injection E2 as -> E2; [done|]. apply Forall_cons in F2 as [_ F2]. by apply (IH m1).
Qed.
Lemma first_not_unnamed w x n y : first_named w x n y -> ~ unnamed w x n.
Proof.
  intros (l1 & l2 & E1 & N1 & F1). unfold unnamed. rewrite E1. intros [_ H]%Forall_app. by apply Forall_cons in H as [? _].
Qed.
Lemma first_in w x n y : first_named w x n y -> y ∈ children x w.
Proof. intros (l1 & l2 & -> & _). apply elem_of_app. right. left. Qed.

Lemma s_find_fresh x n w c : wfs w -> c !! n = None ->
  (exists y, first_named w x n y /\ s_find x n (CSt w c) = (CSt w (<[n := RNode y]> c), Ok (Some (RNode y)))) \/
  (unnamed w x n /\ s_find x n (CSt w c) = (CSt w c, Ok None)).
Proof.
  intros Hw Hc. unfold s_find. cbn [cache tree_of]. rewrite Hc. pose proof (list_find_first w x n Hw) as H.
  destruct (list_find _ _) as [[i k]|]; [left; by exists (nid k)|by right].
Qed.
Lemma s_wrap_spec w y : wfs w -> element y w ->
  (~ is_page_layout w y /\ s_wrap (RNode y) w = Ok y) \/ (is_page_layout w y /\ s_wrap (RNode y) w = Err TypeError).
Proof.
  intros Hw Hy. destruct (element_sub w y Hw Hy) as [t Ht]. unfold is_page_layout, data, s_wrap. rewrite Ht. cbn.
  fold (ltag t). destruct (decide (ltag t = "style:page-layout"%string)) as [E|E].
  - right. split; [|done]. change (Some (ltag t) = Some "style:page-layout"%string). by rewrite E.
  - left. split; [|done]. intros [= H]. done.
Qed.

(** The entries that are nodes are right. *)
Definition cache_ok (x : N) (w : node) (c : gmap (option pystr) ref) : Prop :=
  forall n y, c !! n = Some (RNode y) -> first_named w x n y.
Lemma s_find_ok x n w c : wfs w -> cache_ok x w c -> (forall o, c !! n <> Some (RObj o)) ->
  (exists y, first_named w x n y /\ s_find x n (CSt w c) = (CSt w (<[n := RNode y]> c), Ok (Some (RNode y)))) \/
  (unnamed w x n /\ c !! n = None /\ s_find x n (CSt w c) = (CSt w c, Ok None)).
Proof.
  intros Hw Hc Hn. destruct (c !! n) as [[y|o]|] eqn:E; [|by destruct (Hn o)|].
  - left. exists y. split; [by apply Hc|]. unfold s_find. cbn [cache]. rewrite E. by rewrite insert_id.
  - destruct (s_find_fresh x n w c Hw E) as [?|[? ?]]; [by left|by right].
Qed.
Lemma s_get_ok x n w c : wfs w -> cache_ok x w c -> (forall o, c !! n <> Some (RObj o)) ->
  exists c' r, s_get x n (CSt w c) = (CSt w c', r) /\ finds w x n r /\ cache_ok x w c' /\
    (forall m, m <> n -> c' !! m = c !! m) /\ (forall o, c' !! n <> Some (RObj o)).
Proof.
  intros Hw Hc Hn. unfold s_get, abind. destruct (s_find_ok x n w c Hw Hc Hn) as [(y & Hy & ->)|(Hu & Hcn & ->)].
  - eexists _, _. split; [reflexivity|]. split_and!.
    + left. exists y. split; [done|]. apply s_wrap_spec; [done|]. apply first_in in Hy. by apply (child_element w x).
    + intros m z. destruct (decide (n = m)) as [->|Hne]; [rewrite lookup_insert; by intros [= <-]|].
      rewrite lookup_insert_ne by done. apply Hc.
    + intros m Hm. by rewrite lookup_insert_ne.
    + intros o. by rewrite lookup_insert.
  - eexists _, _. split; [reflexivity|]. split_and!; [by right|done|done|done].
Qed.
Lemma s_get_obj x n w c o : c !! n = Some (RObj o) -> s_get x n (CSt w c) = (CSt w c, Err AttributeError).
Proof. intros E. unfold s_get, abind, s_find. cbn [cache]. by rewrite E. Qed.
Lemma s_set_obj x n w c o y : c !! n = Some (RObj o) -> s_set x n y (CSt w c) = (CSt w c, Err TypeError).
Proof. intros E. unfold s_set, abind, s_find. cbn [cache]. by rewrite E. Qed.

(** replacing and appending among named children *)
Lemma instead_split (o c : N) (l l' : list N) : o ∉ l -> o ∉ l' -> instead o c (l ++ o :: l') = l ++ c :: l'.
Proof.
  intros H1 H2. unfold instead. rewrite map_app. cbn. rewrite decide_True by done.
  fold (instead o c l). fold (instead o c l'). by rewrite !instead_notin.
Qed.
Lemma s_set_ok x n c w ca : wfs w -> element x w -> cache_ok x w ca -> (forall o, ca !! n <> Some (RObj o)) -> storable w x n c ->
  exists w', s_set x n c (CSt w ca) = (CSt w' (<[n := RObj c]> ca), Ok tt) /\
    ((exists l o l', children x w = l ++ o :: l' /\ first_named w x n o /\ placed x c (l ++ c :: l') w w') \/
     (unnamed w x n /\ placed x c (children x w ++ [c]) w w')).
Proof.
  intros Hw Hx Hc Hn (Hce & Hcn & Hu & Hnc). unfold s_set, abind.
  destruct (s_find_ok x n w ca Hw Hc Hn) as [(y & Hy & ->)|(Hun & Hcn' & ->)].
  - unfold on_tree. cbn [tree_of cache]. pose proof (first_in w x n y Hy) as Hyx.
    destruct (el_replace_ok w x y c Hw Hx Hce Hu Hyx) as (w' & -> & Hp). cbn [tree_of cache].
    exists w'. rewrite insert_insert. split; [done|]. left. destruct Hy as (l & l' & E & Hy2 & Hy3). exists l, y, l'.
    split_and!; [done|by exists l, l'|].
    rewrite decide_False in Hp by (intros ->; done). rewrite without_notin in Hp by done.
    pose proof (children_NoDup w x Hw) as Hnd. rewrite E in Hnd, Hp. apply NoDup_app in Hnd as (_ & Hnd & Hnd').
    apply NoDup_cons in Hnd' as [Hnd' _]. rewrite instead_split in Hp; [done| |done]. intros H. apply (Hnd y H). left.
  - unfold on_tree. cbn [tree_of cache]. destruct (el_append_ok w x c Hw Hx Hce Hu) as (w' & -> & Hp). cbn [tree_of cache].
    exists w'. split; [done|]. right. rewrite without_notin in Hp by done. done.
Qed.
Lemma placed_name x c l w w' y : placed x c l w w' -> element y w -> name_of w' y = name_of w y.
Proof. intros (_ & _ & _ & _ & _ & H) Hy. unfold name_of. by rewrite H. Qed.
Lemma first_named_list w x n y : (exists l l', children x w = l ++ y :: l' /\ name_of w y = n /\ Forall (fun z => name_of w z <> n) l) <-> first_named w x n y.
Proof. done. Qed.
Lemma Forall_name w w' n l : (forall z, z ∈ l -> name_of w' z = name_of w z) ->
  Forall (fun z => name_of w' z <> n) l <-> Forall (fun z => name_of w z <> n) l.
Proof. intros H. rewrite !Forall_forall. split; intros Hf z Hz; [rewrite <- H by done|rewrite H by done]; by apply Hf. Qed.

(** first children with a name after an assignment *)
Lemma first_after x n c w w' : wfs w -> element c w -> name_of w c = n ->
  ((exists l o l', children x w = l ++ o :: l' /\ first_named w x n o /\ placed x c (l ++ c :: l') w w') \/
   (unnamed w x n /\ placed x c (children x w ++ [c]) w w')) ->
  first_named w' x n c /\
  (forall m y, m <> n -> first_named w' x m y <-> first_named w x m y) /\
  (forall m, m <> n -> unnamed w' x m <-> unnamed w x m).
Proof.
  intros Hw Hce Hcn H.
  assert (Hch : exists l l', children x w' = l ++ c :: l' /\ Forall (fun z => name_of w z <> n) l /\
    (exists om, children x w = l ++ om ++ l' /\ Forall (fun o => name_of w o = n) om) /\
    (forall z, element z w -> name_of w' z = name_of w z)).
  { destruct H as [(l & o & l' & E & Hf & Hp)|[Hu Hp]].
    - destruct Hf as (m & m' & E2 & Ho & Hm). exists l, l'. split_and!.
      + by destruct Hp as (_ & _ & _ & -> & _).
      + assert (Hnd := children_NoDup w x Hw). rewrite E in E2.
        enough (l = m) as -> by done.
        rewrite E in Hnd. clear -E2 Hnd. revert m E2. induction l as [|a l IH]; intros m E2.
        * destruct m as [|b m]; [done|]. cbn in E2. injection E2 as <- E2. rewrite E2 in Hnd. apply NoDup_cons in Hnd as [Hnd _].
          exfalso. apply Hnd. apply elem_of_app. right. left.
        * cbn in Hnd. apply NoDup_cons in Hnd as [Hna Hnd]. destruct m as [|b m]; cbn in E2; injection E2 as Ea E2.
          -- exfalso. apply Hna. subst a. apply elem_of_app. right. left.
          -- subst b. f_equal. by apply IH.
      + exists [o]. split; [done|]. constructor; [done|constructor].
      + intros z Hz. by apply (placed_name x c _ w w' z Hp).
    - exists (children x w), []. split_and!.
      + by destruct Hp as (_ & _ & _ & -> & _).
      + done.
      + exists []. split; [by rewrite app_nil_r|constructor].
      + intros z Hz. by apply (placed_name x c _ w w' z Hp). }
  clear H. destruct Hch as (l & l' & E & Hl & (om & E0 & Hom) & Hnm).
  assert (Hel : forall z, z ∈ children x w -> name_of w' z = name_of w z) by (intros z Hz; apply Hnm; by apply (child_element w x)).
  assert (Hl1 : forall z, z ∈ l -> name_of w' z = name_of w z) by (intros z Hz; apply Hel; rewrite E0; set_solver).
  assert (Hl2 : forall z, z ∈ l' -> name_of w' z = name_of w z) by (intros z Hz; apply Hel; rewrite E0; set_solver).
  pose proof (Hnm c Hce) as Hcn'.
  split; [|split].
  - exists l, l'. split_and!; [done|congruence|]. by apply (Forall_name w w').
  - intros m y Hm. unfold first_named. split.
    + intros (a & b & Ea & Hy & Ha). rewrite E in Ea. destruct (decide (y ∈ l)) as [Hyl|Hyl].
      * (* in front of c *)
        assert (exists r, l = a ++ y :: r) as [r ->].
        { clear -Ea Hyl Ha Hy Hl1. revert a Ea Ha. induction l as [|z l IH]; intros a Ea Ha; [by apply elem_of_nil in Hyl|].
          destruct a as [|q a]; cbn in Ea; injection Ea as Ez Ea; [subst z; by exists l|].
          subst q. apply Forall_cons in Ha as [Hz Ha]. apply elem_of_cons in Hyl as [->|Hyl]; [done|].
          destruct (IH ltac:(set_solver) Hyl a Ea Ha) as [r ->]. by exists r. }
        exists a, (r ++ om ++ l'). rewrite E0, <- app_assoc. split_and!; [done|rewrite <- Hl1; [done|set_solver]|].
        apply (Forall_name w w'); [|done]. intros z Hz. apply Hl1. set_solver.
      * assert (exists a', a = l ++ c :: a' /\ l' = a' ++ y :: b) as (a' & -> & ->).
        { assert (Hyc : y <> c) by (intros ->; apply Hm; congruence). clear -Ea Hyl Hyc. revert a Ea.
          induction l as [|z l IH]; intros a Ea; destruct a as [|q a]; cbn in Ea; injection Ea as E1 E2.
          - by subst.
          - subst. by exists a.
          - subst. exfalso. apply Hyl. left.
          - subst. destruct (IH ltac:(set_solver) a E2) as (a' & -> & ->). by exists a'. }
        exists (l ++ om ++ a'), b. split_and!; [rewrite E0; by rewrite <- !app_assoc|rewrite <- Hl2; [done|set_solver]|].
        apply Forall_app in Ha as [Ha1 Ha2]. apply Forall_cons in Ha2 as [_ Ha2].
        apply Forall_app. split; [by apply (Forall_name w w')|]. apply Forall_app. split.
        -- eapply Forall_impl; [exact Hom|]. cbn. congruence.
        -- apply (Forall_name w w'); [|done]. intros z Hz. apply Hl2. set_solver.
    + intros (a & b & Ea & Hy & Ha). rewrite E0 in Ea. destruct (decide (y ∈ l)) as [Hyl|Hyl].
      * assert (exists r, l = a ++ y :: r) as [r ->].
        { clear -Ea Hyl Ha Hy. revert a Ea Ha. induction l as [|z l IH]; intros a Ea Ha; [by apply elem_of_nil in Hyl|].
          destruct a as [|q a]; cbn in Ea; injection Ea as Ez Ea; [subst z; by exists l|].
          subst q. apply Forall_cons in Ha as [Hz Ha]. apply elem_of_cons in Hyl as [->|Hyl]; [done|].
          destruct (IH Hyl a Ea Ha) as [r ->]. by exists r. }
        exists a, (r ++ c :: l'). rewrite E, <- app_assoc. split_and!; [done|rewrite Hl1; [done|set_solver]|].
        apply (Forall_name w w'); [|done]. intros z Hz. apply Hl1. set_solver.
      * assert (exists a', a = l ++ om ++ a' /\ l' = a' ++ y :: b) as (a' & -> & ->).
        { assert (Hyo : y ∉ l ++ om).
          { intros [?|Hyo]%elem_of_app; [done|]. rewrite Forall_forall in Hom. apply Hm. rewrite <- Hy. by apply Hom. }
          rewrite app_assoc in Ea. setoid_rewrite app_assoc. clear -Ea Hyo. revert a Ea. generalize dependent (l ++ om). intros k Hyk a Ea. revert a Ea.
          induction k as [|z k IH]; intros a Ea; [by exists a|]. destruct a as [|q a]; cbn in Ea; injection Ea as E1 E2.
          - subst. exfalso. apply Hyk. left.
          - subst. destruct (IH ltac:(set_solver) a E2) as (a' & -> & ->). by exists a'. }
        apply Forall_app in Ha as [Ha1 Ha2]. apply Forall_app in Ha2 as [_ Ha2].
        exists (l ++ c :: a'), b. split_and!; [rewrite E; by rewrite <- app_assoc|rewrite Hl2; [done|set_solver]|].
        apply Forall_app. split; [by apply (Forall_name w w')|]. constructor; [congruence|].
        apply (Forall_name w w'); [|done]. intros z Hz. apply Hl2. set_solver.
  - intros m Hm. unfold unnamed. rewrite E, E0, !Forall_app, Forall_cons. rewrite !(Forall_name w w') by done. split.
    + intros (H1 & H2 & H3). split_and!; [done| |done]. eapply Forall_impl; [exact Hom|]. cbn. congruence.
    + intros (H1 & H2 & H3). split_and!; [done|congruence|done].
Qed.

(** ** Histories *)
Lemma placed_upwards x c l w w' a : placed x c l w w' -> element x w -> element a w ->
  (forall z, z ∈ l -> z = c \/ z ∈ children x w) -> upwards w' a x -> upwards w a x.
Proof.
  intros (Hw' & He & _ & Hx & Hr & _) Hxe Ha Hl H.
  assert (Hg : forall b, upwards w' a b -> element b w /\ (upwards w a b \/ upwards w a x)).
  { intros b Hb. induction Hb as [|a y z Hb IH Hz]; [split; [done|left; constructor]|]. destruct (IH Ha) as [Hye IH2]; [done|].
    split; [apply He; by apply (child_element w' y)|]. destruct (decide (y = x)) as [->|Hne]; [right; by destruct IH2|].
    rewrite Hr in Hz by done. apply without_in in Hz as [Hz _]. destruct IH2 as [IH2|?]; [left|by right]. by econstructor. }
  by destruct (Hg x H) as [_ [?|?]].
Qed.
Lemma first_set_app n l r : first_set n (l ++ r) = match first_set n l with Some c => Some c | None => first_set n r end.
Proof. induction l as [|[m c] l IH]; [done|]. cbn. case_decide; [done|apply IH]. Qed.
Lemma first_set_in n l c : first_set n l = Some c -> (n, c) ∈ l.
Proof.
  induction l as [|[m d] l IH]; [done|]. cbn. case_decide as E; [intros [= ->]; subst; left|]. intros H. right. by apply IH.
Qed.
Lemma sets_app l r : sets (l ++ r) = sets l ++ sets r.
Proof. apply omap_app. Qed.

Record sinv (x : N) (w0 : node) (os : list sop) (s : cst) : Prop := SInv {
  si_wfs : wfs (tree_of s);
  si_el : forall y, element y (tree_of s) <-> element y w0;
  si_data : forall y, element y w0 -> data y (tree_of s) = data y w0;
  si_cache : cache_ok x (tree_of s) (cache s);
  si_obj : forall n o, cache s !! n = Some (RObj o) <-> first_set n (sets os) = Some o;
  si_set : forall n c, first_set n (sets os) = Some c -> first_named (tree_of s) x n c;
  si_first : forall n y, first_set n (sets os) = None -> first_named (tree_of s) x n y <-> first_named w0 x n y;
  si_none : forall n, first_set n (sets os) = None -> unnamed (tree_of s) x n <-> unnamed w0 x n;
  si_kids : forall c, c ∈ children x (tree_of s) -> c ∈ children x w0 \/ c ∈ map snd (sets os);
  si_up : forall c, element c w0 -> upwards (tree_of s) c x -> upwards w0 c x
}.
Lemma s_run_inv x w0 os : wfs w0 -> element x w0 ->
  Forall (fun p => storable w0 x p.1 p.2) (sets os) -> NoDup (map snd (sets os)) ->
  sinv x w0 os (s_run x os (CSt w0 ∅)).
Proof.
  intros Hw0 Hx. induction os as [|o os IH] using rev_ind; intros Hst Hnd.
  - split; cbn; try done; intros; rewrite ?lookup_empty in *; try done; by left.
  - rewrite sets_app, map_app in Hnd. rewrite sets_app in Hst. apply Forall_app in Hst as [Hst1 Hst2].
    apply NoDup_app in Hnd as (Hnd1 & Hnd2 & _). specialize (IH Hst1 Hnd1). unfold s_run. rewrite foldl_app. cbn [foldl].
    fold (s_run x os (CSt w0 ∅)). destruct (s_run x os (CSt w0 ∅)) as [w ca]. destruct IH as [I1 I2 I3 I4 I5 I6 I7 I8 I9 I10].
    cbn [tree_of cache] in *. destruct o as [n|n c].
    + (* get *)
      assert (E : sets (os ++ [SGet n]) = sets os) by (rewrite sets_app; cbn; by rewrite app_nil_r).
      cbn [s_do]. destruct (ca !! n) as [[y|o]|] eqn:En.
      * destruct (s_get_ok x n w ca I1 I4) as (c' & r & -> & _ & Hc' & Hm & Hn'); [intros o; by rewrite En|]. cbn [fst].
        split; cbn [tree_of cache]; rewrite ?E; try done. intros m o. destruct (decide (m = n)) as [->|Hne].
        -- rewrite <- I5, En. split; [by intros ?%Hn'|done].
        -- by rewrite Hm.
      * rewrite (s_get_obj x n w ca o En). cbn [fst]. split; cbn [tree_of cache]; rewrite ?E; done.
      * destruct (s_get_ok x n w ca I1 I4) as (c' & r & -> & _ & Hc' & Hm & Hn'); [intros o; by rewrite En|]. cbn [fst].
        split; cbn [tree_of cache]; rewrite ?E; try done. intros m o. destruct (decide (m = n)) as [->|Hne].
        -- rewrite <- I5, En. split; [by intros ?%Hn'|done].
        -- by rewrite Hm.
    + (* set *)
      cbn in Hst2, Hnd2. apply Forall_cons in Hst2 as [(Hce & Hcn & Hcu & Hck) _]. cbn [fst snd] in *.
      assert (Hc' : c ∉ map snd (sets os)) by (intros H; apply (Hnd2 c H); left).
      cbn [s_do]. destruct (first_set n (sets os)) as [o|] eqn:En.
      * assert (Eo : ca !! n = Some (RObj o)) by (by apply I5). rewrite (s_set_obj x n w ca o c Eo). cbn [fst].
        assert (Ef : forall m, first_set m (sets (os ++ [SSet n c])) = first_set m (sets os)).
        { intros m. rewrite sets_app, first_set_app. destruct (first_set m (sets os)) eqn:Em; [done|]. cbn.
          rewrite decide_False; [done|]. intros ->. congruence. }
        split; cbn [tree_of cache]; try done; intros *; rewrite ?Ef; auto.
        intros H. destruct (I9 _ H) as [?|?]; [by left|right]. rewrite sets_app, map_app. apply elem_of_app. by left.
      * assert (Hno : forall o, ca !! n <> Some (RObj o)) by (intros o H; apply I5 in H; congruence).
        assert (Hnm : forall y, element y w0 -> name_of w y = name_of w0 y) by (intros y Hy; unfold name_of; by rewrite I3).
        assert (Hst : storable w x n c).
        { split_and!; [by apply I2|by rewrite Hnm| |].
          - intros H. by apply Hcu, I10.
          - intros H. by destruct (I9 c H). }
        destruct (s_set_ok x n c w ca I1) as (w' & -> & Hp); [by apply I2|done|done|done|]. cbn [fst].
        destruct (first_after x n c w w' I1) as (Hf1 & Hf2 & Hf3); [by apply I2|by rewrite Hnm|done|].
        assert (Hpl : exists l, placed x c l w w' /\ forall z, z ∈ l -> z = c \/ z ∈ children x w).
        { destruct Hp as [(l & o & l' & E & _ & Hp)|[_ Hp]]; eexists; (split; [exact Hp|]); [rewrite E|]; set_solver. }
        clear Hp. destruct Hpl as (l & Hp & Hl).
        assert (Hup := placed_upwards x c l w w').
        destruct Hp as (P1 & P2 & P3 & P4 & P5 & P6).
        assert (Ef : forall m, first_set m (sets (os ++ [SSet n c])) = match first_set m (sets os) with Some d => Some d | None => if decide (n = m) then Some c else None end).
        { intros m. rewrite sets_app, first_set_app. done. }
        split; cbn [tree_of cache].
        -- done.
        -- intros y. by rewrite P2.
        -- intros y Hy. rewrite P6 by (by apply I2). by apply I3.
        -- intros m y. destruct (decide (n = m)) as [<-|Hne]; [by rewrite lookup_insert|]. rewrite lookup_insert_ne by done.
           intros H. apply Hf2; [done|]. by apply I4.
        -- intros m o. rewrite Ef. destruct (decide (n = m)) as [<-|Hne].
           ++ rewrite lookup_insert, En. split; intros [= ->]; done.
           ++ rewrite lookup_insert_ne by done. rewrite I5. by destruct (first_set m (sets os)).
        -- intros m d. rewrite Ef. destruct (first_set m (sets os)) as [d'|] eqn:Em.
           ++ intros [= ->]. apply Hf2; [congruence|]. by apply I6.
           ++ case_decide; [|done]. intros [= <-]. by subst.
        -- intros m y. rewrite Ef. destruct (first_set m (sets os)) as [d'|] eqn:Em; [done|]. case_decide; [done|].
           intros _. rewrite Hf2 by done. by apply I7.
        -- intros m. rewrite Ef. destruct (first_set m (sets os)) as [d'|] eqn:Em; [done|]. case_decide; [done|].
           intros _. rewrite Hf3 by done. by apply I8.
        -- intros d. rewrite P4. intros H. rewrite sets_app, map_app. cbn. destruct (Hl d H) as [->|Hd].
           ++ right. apply elem_of_app. right. left.
           ++ destruct (I9 d Hd) as [?|?]; [by left|]. right. apply elem_of_app. by left.
        -- intros d Hd Hdx. apply I10; [done|]. apply Hup; [by split_and!|by apply I2|by apply I2|done|done].
Qed.
