From Verif Require Export WrapperSpec NodeStoreFacts.

(** ** All nodes with their data and children *)
Notation row := (N * nd * list N)%type.
Fixpoint view (t : node) : list row :=
  match t with T a ks => (nid_ a, pl a, map nid ks) :: flat_map view ks end.
Definition rid (r : row) : N := r.1.1.
Lemma view_T a ks : view (T a ks) = (nid_ a, pl a, map nid ks) :: flat_map view ks.
Proof. done. Qed.
Lemma view_eq t : view t = (nid t, pl (root t), map nid (kids t)) :: flat_map view (kids t).
Proof. by destruct t. Qed.
Lemma view_ids t : map rid (view t) = ids t.
Proof.
  induction t as [a ks IH] using tree_ind'. rewrite view_T, ids_T. cbn. f_equal.
  induction IH as [|k ks Hk _ IHks]; [done|]. cbn. by rewrite map_app, Hk, IHks.
Qed.
Lemma views_ids l : map rid (flat_map view l) = flat_map ids l.
Proof. induction l as [|k l IH]; [done|]. cbn. by rewrite map_app, view_ids, IH. Qed.
Lemma row_in r t : r ∈ view t -> rid r ∈ ids t.
Proof. intros H. rewrite <- view_ids. by apply elem_of_list_fmap_1. Qed.
Lemma row_kids y d l t : (y, d, l) ∈ view t -> forall z, z ∈ l -> z ∈ flat_map ids (kids t).
Proof.
  induction t as [a ks IH] using tree_ind'. rewrite view_T, elem_of_cons. intros [[= -> -> ->]|H] z Hz.
  - apply elem_of_list_fmap in Hz as (k & -> & Hk). apply elem_of_flat_map. exists k. split; [done|apply nid_in].
  - apply elem_of_flat_map in H as (k & Hk & H). rewrite Forall_forall in IH. cbn [kids].
    specialize (IH k Hk H z Hz). apply elem_of_flat_map. exists k. split; [done|]. rewrite ids_eq. by right.
Qed.
Lemma row_kids' y d l ks : (y, d, l) ∈ flat_map view ks -> forall z, z ∈ l -> z ∈ flat_map ids ks.
Proof.
  intros (k & Hk & H)%elem_of_flat_map z Hz. pose proof (row_kids _ _ _ _ H z Hz) as Hi.
  apply elem_of_flat_map. exists k. split; [done|]. rewrite ids_eq. by right.
Qed.

Lemma view_sub t y k : sub y t = Some k -> (y, pl (root k), map nid (kids k)) ∈ view t.
Proof.
  intros H. apply sub_Some in H as [<- H]. destruct H as [<- |[c ->]].
  - rewrite view_eq. left.
  - induction c as [a l r|a l c IH r]; cbn [plug]; rewrite view_T; right; apply elem_of_flat_map.
    + exists k. split; [apply elem_of_app; right; by left|]. rewrite view_eq. left.
    + exists (plug c [k]). split; [apply elem_of_app; right; by left|]. done.
Qed.
Lemma sub_total t y : y ∈ ids t -> exists k, sub y t = Some k.
Proof.
  intros Hy. rewrite ids_eq in Hy. apply elem_of_cons in Hy as [->|Hy]; [rewrite sub_root; eauto|].
  destruct (sub y t) eqn:E; [eauto|]. exfalso.
  assert (H : forall c k, sub (nid k) (plug c [k]) <> None).
  { clear. intros c k. induction c as [a l r|a l c IH r]; cbn [plug]; rewrite sub_T; case_decide; [done| |done|];
      rewrite subl_app; destruct (subl (nid k) l); [done| |done|]; cbn.
    - by rewrite sub_root.
    - destruct (sub (nid k) (plug c [k])); done. }
  destruct (find_ctx y t Hy) as (c & k & -> & <-). by apply (H c k).
Qed.
Lemma NoDup_rid (l : list row) r r' : NoDup (map rid l) -> r ∈ l -> r' ∈ l -> rid r = rid r' -> r = r'.
Proof.
  induction l as [|x l IH]; [intros _ []%elem_of_nil|]. cbn. intros [H1 H2]%NoDup_cons.
  rewrite !elem_of_cons. intros [->|H] [->|H'] E; [done| | |by apply IH].
  - exfalso. apply H1. rewrite E. by apply elem_of_list_fmap_1.
  - exfalso. apply H1. rewrite <- E. by apply elem_of_list_fmap_1.
Qed.
Lemma view_unique t y d l d' l' : NoDup (ids t) -> (y, d, l) ∈ view t -> (y, d', l') ∈ view t -> d = d' /\ l = l'.
Proof.
  rewrite <- view_ids. intros Hn H H'. pose proof (NoDup_rid _ _ _ Hn H H' eq_refl) as E. by injection E.
Qed.
Lemma view_spec w y d l : wfs w -> (y, d, l) ∈ view w <-> sub y w <> None /\ children y w = l /\ data y w = Some d.
Proof.
  intros Hw. unfold children, data. split.
  - intros H. destruct (sub_total w y) as [k Hk]; [by apply (row_in _ _ H)|].
    pose proof (view_sub _ _ _ Hk) as H'. destruct (view_unique _ _ _ _ _ _ Hw H H') as [-> ->].
    rewrite Hk. done.
  - intros (H & <- & H'). destruct (sub y w) as [k|] eqn:E; [|done]. injection H' as <-. by apply view_sub.
Qed.
Lemma view_at w y : y ∈ ids w -> exists d, (y, d, children y w) ∈ view w /\ data y w = Some d.
Proof.
  intros Hy. destruct (sub_total _ _ Hy) as [k Hk]. exists (pl (root k)). unfold children, data. rewrite Hk.
  split; [by apply view_sub|done].
Qed.

(** ** Contexts *)
Fixpoint vl (c : ctx) (ns : list N) : list row :=
  match c with
  | Here a l r => (nid_ a, pl a, map nid l ++ ns ++ map nid r) :: flat_map view l
  | Deep a l c r => (nid_ a, pl a, map nid l ++ nid_ (croot c) :: map nid r) :: flat_map view l ++ vl c ns
  end.
Fixpoint vr (c : ctx) : list row :=
  match c with Here a l r => flat_map view r | Deep a l c r => vr c ++ flat_map view r end.
Lemma view_plug c m : view (plug c m) = vl c (map nid m) ++ flat_map view m ++ vr c.
Proof.
  induction c as [a l r|a l c IH r]; cbn [plug vl vr]; rewrite view_T.
  - by rewrite !map_app, !flat_map_app.
  - rewrite map_app, flat_map_app. cbn [flat_map map]. rewrite IH, nid_plug. cbn. by rewrite <- !app_assoc.
Qed.
Lemma vl_ids c ns : map rid (vl c ns) = il c.
Proof.
  induction c as [a l r|a l c IH r]; cbn; f_equal; [by rewrite views_ids|]. by rewrite map_app, views_ids, IH.
Qed.
Lemma vr_ids c : map rid (vr c) = ir c.
Proof. induction c as [a l r|a l c IH r]; cbn; [by rewrite views_ids|]. by rewrite map_app, views_ids, IH. Qed.

(** [ns] for [x] in a list of children *)
Definition for_ (x : N) (ns l : list N) : list N := flat_map (fun z => if decide (z = x) then ns else [z]) l.
Lemma for_notin x ns l : x ∉ l -> for_ x ns l = l.
Proof.
  induction l as [|z l IH]; [done|]. intros [H1 H2]%not_elem_of_cons. cbn. rewrite decide_False by done.
  f_equal. by apply IH.
Qed.
Lemma for_app x ns l r : for_ x ns (l ++ r) = for_ x ns l ++ for_ x ns r.
Proof. apply flat_map_app. Qed.
Lemma for_nil x l : for_ x [] l = without x l.
Proof.
  unfold without. induction l as [|z l IH]; [done|]. cbn -[filter]. rewrite filter_cons.
  case_decide as H; [rewrite decide_False by (intros ?; done); done|]. rewrite decide_True by done. cbn.
  f_equal. apply IH.
Qed.
Lemma for_self x l : for_ x [x] l = l.
Proof. induction l as [|z l IH]; [done|]. cbn. case_decide; cbn; [subst|]; f_equal; apply IH. Qed.
Lemma for_before t c l : NoDup l -> for_ t [c; t] l = put_before t c l.
Proof.
  induction l as [|z l IH]; [done|]. intros [H1 H2]%NoDup_cons. cbn. case_decide as E.
  - subst z. cbn. do 2 f_equal. by apply for_notin.
  - cbn. f_equal. by apply IH.
Qed.
Lemma for_instead o n l : for_ o [n] l = instead o n l.
Proof. induction l as [|z l IH]; [done|]. cbn. case_decide; cbn; f_equal; apply IH. Qed.

Definition for_row (x : N) (ns : list N) (r : row) : row := (r.1, for_ x ns r.2).
Lemma for_rows x ns l : x ∉ flat_map ids l -> map (for_row x ns) (flat_map view l) = flat_map view l.
Proof.
  intros Hx. rewrite <- (map_id (flat_map view l)) at 2. apply map_ext_in. intros [[y d] k] H.
  apply elem_of_list_In in H. unfold for_row. cbn [fst snd]. rewrite for_notin; [done|].
  intros Hk. apply Hx. by apply (row_kids' _ _ _ _ H).
Qed.
Lemma map_nid_in x (l : list node) : x ∉ flat_map ids l -> x ∉ map nid l.
Proof.
  intros H Hx. apply H. apply elem_of_list_fmap in Hx as (k & -> & Hk).
  apply elem_of_flat_map. exists k. split; [done|apply nid_in].
Qed.
Lemma vl_for c x ns : x ∉ il c -> x ∉ ir c -> vl c ns = map (for_row x ns) (vl c [x]).
Proof.
  induction c as [a l r|a l c IH r]; cbn [vl il ir map]; intros [H0 H1]%not_elem_of_cons H2.
  - rewrite for_rows by done. f_equal. unfold for_row. cbn [fst snd]. rewrite !for_app.
    rewrite (for_notin x ns (map nid l)), (for_notin x ns (map nid r)) by (by apply map_nid_in).
    unfold for_. cbn. by rewrite decide_True, app_nil_r.
  - apply not_elem_of_app in H1 as [H1 H1']. apply not_elem_of_app in H2 as [H2 H2'].
    rewrite map_app, <- IH, for_rows by done. f_equal. unfold for_row. cbn [fst snd]. rewrite for_app.
    assert (nid_ (croot c) <> x) by (intros <-; apply H1'; destruct c; cbn; left).
    rewrite !for_notin; [done| |by apply map_nid_in].
    apply not_elem_of_cons. split; [done|by apply map_nid_in].
Qed.
Lemma vr_for c x ns : x ∉ ir c -> vr c = map (for_row x ns) (vr c).
Proof.
  induction c as [a l r|a l c IH r]; cbn [vr ir]; intros H.
  - by rewrite for_rows.
  - apply not_elem_of_app in H as [H1 H2]. by rewrite map_app, <- IH, for_rows.
Qed.

(** ** Editing *)
Lemma edit_rows w x f k y d l :
  wfs w -> element x w -> sub x w = Some k ->
  (y, d, l) ∈ flat_map view (f k) \/ (y ∉ ids k /\ exists l0, (y, d, l0) ∈ view w /\ l = for_ x (map nid (f k)) l0) ->
  (y, d, l) ∈ view (edit x f w).
Proof.
  intros Hw Hx Hk H. destruct (find_ctx x w Hx) as (c & k' & -> & <-).
  rewrite sub_plug in Hk by done. injection Hk as ->. rewrite edit_plug by done. rewrite view_plug.
  destruct (NoDup_plug_hole _ _ _ Hw (nid_in k)) as [H1 H2].
  destruct H as [H|(Hy & l0 & H & ->)]; [apply elem_of_app; right; apply elem_of_app; by left|].
  rewrite view_plug in H. cbn [map flat_map] in H. rewrite app_nil_r in H.
  rewrite (vl_for c (nid k)) by done. rewrite (vr_for c (nid k) (map nid (f k))) by done.
  apply elem_of_app in H as [H|H]; [|apply elem_of_app in H as [H|H]].
  - apply elem_of_app. left. by apply (elem_of_list_fmap_1 (for_row (nid k) (map nid (f k)))) in H.
  - exfalso. apply Hy. by apply (row_in _ _ H).
  - apply elem_of_app. right. apply elem_of_app. right.
    by apply (elem_of_list_fmap_1 (for_row (nid k) (map nid (f k)))) in H.
Qed.
Lemma edit_ids w x f k :
  wfs w -> element x w -> sub x w = Some k -> ids (edit x f w) ++ ids k ≡ₚ ids w ++ flat_map ids (f k).
Proof.
  intros Hw Hx Hk. destruct (find_ctx x w Hx) as (c & k' & -> & <-).
  rewrite sub_plug in Hk by done. injection Hk as ->. rewrite edit_plug by done.
  rewrite ids_plug1, ids_plug. solve_Permutation.
Qed.
Lemma edit_nid x f w : nid (edit x f w) = nid w.
Proof. by destruct w. Qed.

(** ** One parent *)
Lemma view_kids t : flat_map snd (view t) ≡ₚ flat_map ids (kids t).
Proof.
  induction t as [a ks IH] using tree_ind'. rewrite view_T. cbn [flat_map snd kids].
  induction IH as [|k ks Hk _ IHks]; [done|]. cbn [map flat_map]. rewrite flat_map_app, Hk, ids_eq.
  rewrite <- IHks. cbn. solve_Permutation.
Qed.
Lemma elem_flat_pos {A B} (f : A -> list B) (l : list A) a b z :
  NoDup (flat_map f l) -> a ∈ l -> b ∈ l -> z ∈ f a -> z ∈ f b -> a = b.
Proof.
  induction l as [|x l IH]; [intros _ []%elem_of_nil|]. cbn. intros (H1 & H2 & H3)%NoDup_app.
  rewrite !elem_of_cons. intros [->|Ha] [->|Hb] Hz Hz'; [done| | |by apply IH].
  - exfalso. apply (H2 z Hz). apply elem_of_flat_map. eauto.
  - exfalso. apply (H2 z Hz'). apply elem_of_flat_map. eauto.
Qed.
Lemma wfs_kids w : wfs w -> NoDup (flat_map ids (kids w)) /\ nid w ∉ flat_map ids (kids w).
Proof. unfold wfs. rewrite ids_eq. intros [H1 H2]%NoDup_cons. done. Qed.
Lemma element_ids w x : wfs w -> element x w <-> x ∈ ids w /\ x <> nid w.
Proof.
  intros Hw. destruct (wfs_kids w Hw) as [_ H]. unfold element. rewrite ids_eq, elem_of_cons. split.
  - intros Hx. split; [by right|]. intros ->. done.
  - intros [[?|?] ?]; done.
Qed.
Lemma children_ids w y z : z ∈ children y w -> y ∈ ids w.
Proof.
  unfold children. destruct (sub y w) as [k|] eqn:E; [|by intros ?%elem_of_nil]. intros _.
  apply view_sub in E. by apply (row_in _ _ E).
Qed.
Lemma one_parent w x y z : wfs w -> z ∈ children x w -> z ∈ children y w -> x = y.
Proof.
  intros Hw Hx Hy. destruct (view_at w x (children_ids _ _ _ Hx)) as (d & H & _).
  destruct (view_at w y (children_ids _ _ _ Hy)) as (d' & H' & _).
  assert (Hn : NoDup (flat_map snd (view w))) by (rewrite view_kids; by apply wfs_kids).
  pose proof (elem_flat_pos snd (view w) _ _ z Hn H H' Hx Hy) as E. by injection E.
Qed.
Lemma NoDup_flat_in {A B} (f : A -> list B) (l : list A) a : NoDup (flat_map f l) -> a ∈ l -> NoDup (f a).
Proof.
  induction l as [|x l IH]; [intros _ []%elem_of_nil|]. cbn. intros (H1 & H2 & H3)%NoDup_app.
  rewrite elem_of_cons. intros [->|H]; [done|by apply IH].
Qed.
Lemma children_NoDup w x : wfs w -> NoDup (children x w).
Proof.
  intros Hw. destruct (sub x w) as [k|] eqn:E.
  - assert (Hx : x ∈ ids w) by (apply view_sub in E; by apply (row_in _ _ E)).
    destruct (view_at w x Hx) as (d & H & _).
    assert (Hn : NoDup (flat_map snd (view w))) by (rewrite view_kids; by apply wfs_kids).
    by apply (NoDup_flat_in snd (view w) _ Hn H).
  - unfold children. rewrite E. constructor.
Qed.
Lemma child_element w x z : z ∈ children x w -> element z w.
Proof.
  intros Hz. destruct (view_at w x (children_ids _ _ _ Hz)) as (d & H & _).
  by apply (row_kids _ _ _ _ H).
Qed.

(** ** Subtrees *)
Lemma sub_view w x k r : wfs w -> sub x w = Some k -> r ∈ view w -> rid r ∈ ids k -> r ∈ view k.
Proof.
  intros Hw Hk Hr Hi. rewrite <- view_ids in Hi. apply elem_of_list_fmap in Hi as (r' & E & Hr').
  assert (Hin : r' ∈ view w).
  { apply sub_Some in Hk as [_ [-> |[c ->]]]; [done|]. rewrite view_plug. cbn. rewrite app_nil_r.
    apply elem_of_app. right. apply elem_of_app. by left. }
  unfold wfs in Hw. rewrite <- view_ids in Hw. by rewrite (NoDup_rid _ _ _ Hw Hr Hin E).
Qed.
Lemma sub_view_incl w x k r : sub x w = Some k -> r ∈ view k -> r ∈ view w.
Proof.
  intros Hk Hr. apply sub_Some in Hk as [_ [-> |[c ->]]]; [done|]. rewrite view_plug. cbn. rewrite app_nil_r.
  apply elem_of_app. right. apply elem_of_app. by left.
Qed.
Lemma sub_ids w x k : sub x w = Some k -> forall y, y ∈ ids k -> y ∈ ids w.
Proof.
  intros Hk y Hy. rewrite <- view_ids in *. apply elem_of_list_fmap in Hy as (r & -> & Hr).
  apply elem_of_list_fmap_1. by apply (sub_view_incl w x k).
Qed.
Lemma sub_wfs w x k : wfs w -> sub x w = Some k -> wfs k.
Proof.
  intros Hw Hk. apply sub_Some in Hk as [_ [-> |[c ->]]]; [done|]. unfold wfs in *. rewrite ids_plug1 in Hw.
  apply NoDup_app in Hw as (_ & _ & Hw). by apply NoDup_app in Hw as (Hw & _ & _).
Qed.
Lemma sub_nid w x k : sub x w = Some k -> nid k = x.
Proof. intros H. by apply sub_Some in H as [H _]. Qed.
Lemma sub_children w x k y : wfs w -> sub x w = Some k -> y ∈ ids k -> children y w = children y k.
Proof.
  intros Hw Hk Hy. pose proof (sub_wfs _ _ _ Hw Hk) as Hwk.
  destruct (view_at w y) as (d & H & _); [by apply (sub_ids w x k)|].
  pose proof (sub_view _ _ _ _ Hw Hk H Hy) as H'. by apply (view_spec k y d _ Hwk) in H' as (_ & -> & _).
Qed.
Lemma children_root k : children (nid k) k = map nid (kids k).
Proof. unfold children. by rewrite sub_root. Qed.

Lemma sub_upwards w x k y : wfs w -> sub x w = Some k -> y ∈ ids k <-> upwards w x y.
Proof.
  intros Hw Hk. split.
  - pose proof (sub_wfs _ _ _ Hw Hk) as Hwk. pose proof (sub_nid _ _ _ Hk) as Hn.
    (* every node below [x] *)
    assert (H : forall t, (forall z, z ∈ ids t -> z ∈ ids k) -> (forall z, z ∈ ids t -> children z k = children z t) ->
       wfs t -> upwards w x (nid t) -> forall z, z ∈ ids t -> upwards w x z).
    { induction t as [a ks IH] using tree_ind'. intros H1 H2 H3 H4 z Hz.
      rewrite ids_eq in Hz. apply elem_of_cons in Hz as [->|Hz]; [done|]. cbn [kids] in Hz.
      apply elem_of_flat_map in Hz as (t & Ht & Hz). rewrite Forall_forall in IH.
      assert (Hsub : sub (nid t) (T a ks) = Some t).
      { destruct (elem_of_list_split _ _ Ht) as (l & r & ->).
        change (T a (l ++ t :: r)) with (plug (Here a l r) [t]) in *. by apply sub_plug. }
      apply (IH t Ht); [| | | |done].
      - intros u Hu. apply H1. by apply (sub_ids _ _ _ Hsub).
      - intros u Hu. rewrite H2 by (by apply (sub_ids _ _ _ Hsub)). by apply (sub_children _ _ _ _ H3 Hsub).
      - by apply (sub_wfs _ _ _ H3 Hsub).
      - apply U_child with (nid (T a ks)); [done|]. rewrite (sub_children w x k) by (try apply H1; try apply nid_in; done).
        rewrite H2 by apply nid_in. rewrite children_root. cbn [kids]. by apply elem_of_list_fmap_1. }
    apply (H k); try done. rewrite Hn. constructor.
  - induction 1 as [x|x z c H IH Hc].
    + rewrite <- (sub_nid _ _ _ Hk). apply nid_in.
    + specialize (IH Hk). rewrite (sub_children w x k) in Hc by done.
      rewrite ids_eq. right. by apply (child_element k z).
Qed.
Lemma above_spec w c x : wfs w -> element c w -> above c x w = true <-> upwards w c x.
Proof.
  intros Hw Hc. apply element_ids in Hc as [Hc _]; [|done]. destruct (sub_total _ _ Hc) as [k Hk].
  unfold above. rewrite Hk, bool_decide_eq_true. by apply sub_upwards.
Qed.

(** ** Results *)
Lemma placed_intro x c l w w' :
  wfs w -> ids w' ≡ₚ ids w -> nid w' = nid w -> element x w ->
  (forall y d, element y w -> (y, d, children y w) ∈ view w ->
     (y, d, if decide (y = x) then l else without c (children y w)) ∈ view w') ->
  placed x c l w w'.
Proof.
  intros Hw Hi Hn Hx H. assert (Hw' : wfs w') by (unfold wfs in *; by rewrite Hi).
  assert (He : forall y, element y w' <-> element y w).
  { intros y. rewrite !element_ids by done. by rewrite Hi, Hn. }
  assert (Hr : forall y, element y w -> children y w' = (if decide (y = x) then l else without c (children y w)) /\ data y w' = data y w).
  { intros y Hy. destruct (view_at w y) as (d & Hd & E); [by apply element_ids|].
    specialize (H y d Hy Hd). apply view_spec in H as (_ & H1 & H2); [|done]. split; [done|congruence]. }
  split_and!; [done|done|done| | |].
  - destruct (Hr x Hx) as [-> _]. by rewrite decide_True.
  - intros y Hy Hne. destruct (Hr y Hy) as [-> _]. by rewrite decide_False.
  - intros y Hy. by apply Hr.
Qed.

Lemma without_notin c l : c ∉ l -> without c l = l.
Proof. intros H. rewrite <- for_nil. by apply for_notin. Qed.
Lemma below_children w c k y z : wfs w -> element c w -> sub c w = Some k -> y ∈ ids k -> z ∈ children y w -> z ∈ ids k /\ z <> c.
Proof.
  intros Hw Hc Hk Hy Hz. rewrite (sub_children w c k) in Hz by done. apply child_element in Hz.
  apply element_ids in Hz as [H1 H2]; [|by apply (sub_wfs w c)]. by rewrite (sub_nid w c k) in H2.
Qed.

(** the store without [c] *)
Lemma cut_facts w c k :
  wfs w -> element c w -> sub c w = Some k ->
  wfs (cut c w) /\ nid (cut c w) = nid w /\ ids (cut c w) ++ ids k ≡ₚ ids w /\
  (forall y, y ∈ ids (cut c w) <-> y ∈ ids w /\ y ∉ ids k) /\
  (forall y d l, y ∉ ids k -> (y, d, l) ∈ view w -> (y, d, without c l) ∈ view (cut c w)).
Proof.
  intros Hw Hc Hk. pose proof (edit_ids w c (fun _ => []) k Hw Hc Hk) as Hi. cbn in Hi. rewrite app_nil_r in Hi.
  fold (cut c w) in Hi.
  assert (Hn : NoDup (ids (cut c w) ++ ids k)) by (unfold wfs in Hw; by rewrite Hi).
  apply NoDup_app in Hn as (H1 & H2 & H3). split_and!; [done|apply edit_nid|done| |].
  - intros y. rewrite <- Hi, elem_of_app. split; [intros Hy; split; [by left|by apply H2]|]. intros [[?|?] ?]; done.
  - intros y d l Hy H. apply (edit_rows w c (fun _ => []) k); [done|done|done|]. right. split; [done|].
    exists l. split; [done|]. by rewrite for_nil.
Qed.

Lemma without_in c l y : y ∈ without c l <-> y ∈ l /\ y <> c.
Proof. unfold without. rewrite elem_of_list_filter. tauto. Qed.
Lemma without_NoDup c l : NoDup l -> NoDup (without c l).
Proof. apply NoDup_filter. Qed.

Lemma append_spec w x c kc :
  wfs w -> element x w -> element c w -> sub c w = Some kc -> x ∉ ids kc ->
  placed x c (without c (children x w) ++ [c]) w (edit x (fun k => [lon_kids (fun ks => ks ++ [kc]) k]) (cut c w)).
Proof.
  intros Hw Hx Hc Hkc Hxc. destruct (cut_facts w c kc Hw Hc Hkc) as (Hw1 & Hn1 & Hp1 & Hi1 & Hr1).
  set (w1 := cut c w) in *.
  assert (Hx1 : element x w1).
  { apply element_ids; [done|]. apply element_ids in Hx as [? ?]; [|done]. rewrite Hn1, Hi1. done. }
  destruct (sub_total w1 x) as [kx Hkx]; [by apply element_ids in Hx1 as [? _]|].
  pose proof (edit_ids w1 x (fun k => [lon_kids (fun ks => ks ++ [kc]) k]) kx Hw1 Hx1 Hkx) as Hp2.
  pose proof (sub_nid _ _ _ Hkx) as Hnx. pose proof (sub_nid _ _ _ Hkc) as Hnc.
  destruct kx as [a ks]. change (nid_ a = x) in Hnx. cbn [lon_kids flat_map] in Hp2.
  rewrite app_nil_r, !ids_T, flat_map_app in Hp2. cbn [flat_map] in Hp2. rewrite app_nil_r in Hp2.
  assert (Hp : ids (edit x (fun k => [lon_kids (fun ks => ks ++ [kc]) k]) w1) ≡ₚ ids w).
  { apply (Permutation_app_inv_r (ids (T a ks))). rewrite ids_T, Hp2, <- Hp1. solve_Permutation. }
  apply placed_intro; [done|done|by rewrite edit_nid|done|].
  intros y d Hy Hrow. apply (edit_rows w1 x _ (T a ks)); [done|done|done|].
  cbn [lon_kids flat_map map]. rewrite app_nil_r, view_T, map_app, flat_map_app. cbn [map flat_map].
  rewrite app_nil_r, Hnc. destruct (decide (y ∈ ids kc)) as [Hyc|Hyc].
  - left. rewrite decide_False by (intros ->; done). right. apply elem_of_app. right.
    rewrite without_notin; [by apply (sub_view w c)|].
    intros Hz. by destruct (below_children w c kc y c Hw Hc Hkc Hyc Hz).
  - specialize (Hr1 y d (children y w) Hyc Hrow). destruct (decide (y ∈ ids (T a ks))) as [Hyx|Hyx].
    + left. pose proof (sub_view w1 x _ _ Hw1 Hkx Hr1 Hyx) as H. rewrite view_T in H.
      assert (Hnk : NoDup (ids (T a ks))) by (apply (sub_wfs w1 x); done).
      apply elem_of_cons in H as [[= E1 E2 E3]|H].
      * assert (y = x) as -> by congruence. rewrite decide_True by done. rewrite E3, E2, Hnx. left.
      * rewrite decide_False; [right; apply elem_of_app; by left|]. intros ->.
        rewrite ids_T in Hnk. apply NoDup_cons in Hnk as [Hnk _]. apply Hnk.
        rewrite <- Hnx in H. assert (nid_ a ∈ map rid (flat_map view ks)) as H' by (apply (elem_of_list_fmap_1 rid) in H; done).
        by rewrite views_ids in H'.
    + right. split; [done|]. exists (without c (children y w)). split; [done|].
      rewrite decide_False; [unfold nid; cbn; rewrite Hnx; by rewrite for_self|].
      intros ->. apply Hyx. rewrite <- Hnx. apply (nid_in (T a ks)).
Qed.

Lemma child_not_above w x t k : wfs w -> sub t w = Some k -> t ∈ children x w -> x ∉ ids k.
Proof.
  intros Hw Hk Ht Hx. pose proof (child_element _ _ _ Ht) as He.
  by destruct (below_children w t k x t Hw He Hk Hx Ht).
Qed.
Lemma cut_children w c kc y : wfs w -> element c w -> sub c w = Some kc -> y ∈ ids w -> y ∉ ids kc ->
  children y (cut c w) = without c (children y w) /\ data y (cut c w) = data y w.
Proof.
  intros Hw Hc Hkc Hy Hyc. destruct (cut_facts w c kc Hw Hc Hkc) as (Hw1 & _ & _ & _ & Hr).
  destruct (view_at w y Hy) as (d & Hd & E). specialize (Hr y d _ Hyc Hd).
  apply view_spec in Hr as (_ & H1 & H2); [|done]. split; [done|congruence].
Qed.

Lemma put_before_notin t c l : t ∉ l -> put_before t c l = l.
Proof.
  induction l as [|y l IH]; [done|]. intros [H1 H2]%not_elem_of_cons. cbn. rewrite decide_False by done.
  by rewrite IH.
Qed.
Lemma before_spec w x c t kc :
  wfs w -> element x w -> element c w -> sub c w = Some kc -> x ∉ ids kc -> t ∈ children x w -> t <> c ->
  placed x c (put_before t c (without c (children x w))) w (edit t (fun k => [kc; k]) (cut c w)).
Proof.
  intros Hw Hx Hc Hkc Hxc Ht Htc. destruct (cut_facts w c kc Hw Hc Hkc) as (Hw1 & Hn1 & Hp1 & Hi1 & Hr1).
  destruct (cut_children w c kc x Hw Hc Hkc) as [Hcx _]; [by apply element_ids|done|].
  set (w1 := cut c w) in *. pose proof (sub_nid _ _ _ Hkc) as Hnc.
  assert (Ht1 : t ∈ children x w1) by (rewrite Hcx; by apply without_in).
  pose proof (child_element _ _ _ Ht1) as He1.
  destruct (sub_total w1 t) as [kt Hkt]; [by apply element_ids in He1 as [? _]|].
  pose proof (sub_nid _ _ _ Hkt) as Hnt.
  pose proof (edit_ids w1 t (fun k => [kc; k]) kt Hw1 He1 Hkt) as Hp2. cbn in Hp2. rewrite app_nil_r in Hp2.
  assert (Hp : ids (edit t (fun k => [kc; k]) w1) ≡ₚ ids w).
  { apply (Permutation_app_inv_r (ids kt)). rewrite Hp2, <- Hp1. solve_Permutation. }
  apply placed_intro; [done|done|by rewrite edit_nid|done|].
  intros y d Hy Hrow. apply (edit_rows w1 t _ kt); [done|done|done|].
  cbn [flat_map map]. rewrite app_nil_r, Hnc, Hnt. destruct (decide (y ∈ ids kc)) as [Hyc|Hyc].
  - left. rewrite decide_False by (intros ->; done). apply elem_of_app. left.
    rewrite without_notin; [by apply (sub_view w c)|].
    intros Hz. by destruct (below_children w c kc y c Hw Hc Hkc Hyc Hz).
  - specialize (Hr1 y d (children y w) Hyc Hrow). destruct (decide (y ∈ ids kt)) as [Hyt|Hyt].
    + left. apply elem_of_app. right. rewrite decide_False; [by apply (sub_view w1 t)|]. intros ->.
      by apply (child_not_above w1 x t kt).
    + right. split; [done|]. exists (without c (children y w)). split; [done|].
      rewrite for_before by (by apply without_NoDup, children_NoDup). case_decide as E; [by subst|].
      rewrite put_before_notin; [done|]. intros [H1 _]%without_in. apply E. by apply (one_parent w y x t).
Qed.

(** ** One more tree *)
Lemma add_root_rows t w r : wfs w -> r ∈ view t \/ (r ∈ view w /\ rid r <> nid w) -> r ∈ view (add_root t w).
Proof.
  destruct w as [a ks]. intros Hw H. cbn [add_root]. rewrite view_T, flat_map_app. cbn [flat_map]. rewrite app_nil_r.
  right. destruct H as [H|[H Hne]]; [apply elem_of_app; by right|]. apply elem_of_app. left. rewrite view_T in H.
  apply elem_of_cons in H as [->|H]; [done|done].
Qed.
Lemma add_root_nid t w : nid (add_root t w) = nid w.
Proof. by destruct w. Qed.

Lemma instead_notin o n l : o ∉ l -> instead o n l = l.
Proof. intros H. rewrite <- for_instead. by apply for_notin. Qed.

Lemma replace_spec w x old new kn :
  wfs w -> element x w -> element new w -> sub new w = Some kn -> x ∉ ids kn -> old ∈ children x w -> old <> new ->
  placed x new (instead old new (without new (children x w))) w
    (drop_to_root (sub old (cut new w)) (edit old (fun _ => [kn]) (cut new w))).
Proof.
  intros Hw Hx Hc Hkc Hxc Ht Htc. destruct (cut_facts w new kn Hw Hc Hkc) as (Hw1 & Hn1 & Hp1 & Hi1 & Hr1).
  destruct (cut_children w new kn x Hw Hc Hkc) as [Hcx _]; [by apply element_ids|done|].
  set (w1 := cut new w) in *. pose proof (sub_nid _ _ _ Hkc) as Hnc.
  assert (Ht1 : old ∈ children x w1) by (rewrite Hcx; by apply without_in).
  pose proof (child_element _ _ _ Ht1) as He1.
  destruct (sub_total w1 old) as [kt Hkt]; [by apply element_ids in He1 as [? _]|].
  pose proof (sub_nid _ _ _ Hkt) as Hnt. rewrite Hkt. cbn [drop_to_root].
  pose proof (edit_ids w1 old (fun _ => [kn]) kt Hw1 He1 Hkt) as Hp2. cbn in Hp2. rewrite app_nil_r in Hp2.
  set (w2 := edit old (fun _ => [kn]) w1) in *.
  assert (Hp : ids (add_root kt w2) ≡ₚ ids w) by (rewrite ids_add_root, Hp2, <- Hp1; done).
  assert (Hw2 : wfs w2).
  { assert (H : NoDup (ids (add_root kt w2))) by (rewrite Hp; exact Hw). rewrite ids_add_root in H.
    by apply NoDup_app in H as (H & _ & _). }
  assert (Hn2 : nid w2 = nid w) by (unfold w2; by rewrite edit_nid).
  apply placed_intro; [done|done|by rewrite add_root_nid|done|].
  intros y d Hy Hrow. apply add_root_rows; [done|].
  assert (Hyn : y <> nid w2) by (rewrite Hn2; by apply element_ids in Hy as [_ ?]).
  destruct (decide (y ∈ ids kn)) as [Hyc|Hyc].
  - right. split; [|done]. apply (edit_rows w1 old _ kt); [done|done|done|]. left. cbn. rewrite app_nil_r.
    rewrite decide_False by (intros ->; done).
    rewrite without_notin; [by apply (sub_view w new)|].
    intros Hz. by destruct (below_children w new kn y new Hw Hc Hkc Hyc Hz).
  - specialize (Hr1 y d (children y w) Hyc Hrow). destruct (decide (y ∈ ids kt)) as [Hyt|Hyt].
    + left. rewrite decide_False; [by apply (sub_view w1 old)|]. intros ->.
      by apply (child_not_above w1 x old kt).
    + right. split; [|done]. apply (edit_rows w1 old _ kt); [done|done|done|]. right. split; [done|].
      exists (without new (children y w)). split; [done|]. cbn [map]. rewrite Hnc, for_instead.
      case_decide as E; [by subst|].
      rewrite instead_notin; [done|]. intros [H1 _]%without_in. apply E. by apply (one_parent w y x old).
Qed.

Lemma remove_spec w x c kc :
  wfs w -> element x w -> sub c w = Some kc -> c ∈ children x w ->
  placed x c (without c (children x w)) w (add_root kc (cut c w)).
Proof.
  intros Hw Hx Hkc Hin. pose proof (child_element _ _ _ Hin) as Hc.
  destruct (cut_facts w c kc Hw Hc Hkc) as (Hw1 & Hn1 & Hp1 & Hi1 & Hr1).
  apply placed_intro; [done|by rewrite ids_add_root|by rewrite add_root_nid|done|].
  intros y d Hy Hrow. apply add_root_rows; [done|]. cbn [rid fst].
  assert (Hyn : y <> nid (cut c w)) by (rewrite Hn1; by apply element_ids in Hy as [_ ?]).
  assert (E : (if decide (y = x) then without c (children x w) else without c (children y w)) = without c (children y w))
    by (case_decide; by subst).
  rewrite E. destruct (decide (y ∈ ids kc)) as [Hyc|Hyc].
  - left. rewrite without_notin; [by apply (sub_view w c)|].
    intros Hz. by destruct (below_children w c kc y c Hw Hc Hkc Hyc Hz).
  - right. split; [by apply Hr1|done].
Qed.

(** ** Positions *)
Lemma py_get_pos {A} (l : list A) i :
  py_get l i = match at_pos i l with Some x => Ok x | None => Err IndexError end.
Proof.
  unfold py_get, py_index, at_pos. repeat case_decide; try lia; try done.
  by rewrite lookup_ge_None_2 by lia.
Qed.
Lemma at_pos_map {A B} (f : A -> B) l i : at_pos i (map f l) = f <$> at_pos i l.
Proof.
  unfold at_pos. rewrite map_length. repeat case_decide; try done; apply list_lookup_fmap.
Qed.
Lemma at_pos_in {A} (l : list A) i x : at_pos i l = Some x -> x ∈ l.
Proof. unfold at_pos. repeat case_decide; try done; apply elem_of_list_lookup_2. Qed.
Lemma el_kids_children x w : map nid (el_kids x w) = children x w.
Proof. unfold el_kids, children. by destruct (sub x w). Qed.
Lemma el_get_eq x i w :
  el_get x i w = (w, match at_pos i (children x w) with Some c => Ok c | None => Err IndexError end).
Proof.
  unfold el_get. rewrite py_get_pos, <- el_kids_children, at_pos_map. by destruct (at_pos i (el_kids x w)).
Qed.
Lemma el_kids_sub w x k : wfs w -> k ∈ el_kids x w -> sub (nid k) w = Some k.
Proof.
  intros Hw. unfold el_kids. destruct (sub x w) as [t|] eqn:E; [|by intros ?%elem_of_nil]. intros Hk.
  destruct t as [a ks]. cbn in Hk. apply elem_of_list_split in Hk as (l & r & ->).
  apply sub_Some in E as [_ [<-|[c ->]]].
  - by apply (sub_plug (Here a l r)).
  - change (T a (l ++ k :: r)) with (plug (Here a l r) [k]) in *. rewrite <- plug_ccomp in *. by apply sub_plug.
Qed.

(** ** lxml operations *)
Lemma element_sub w c : wfs w -> element c w -> exists k, sub c w = Some k.
Proof. intros Hw Hc. apply sub_total. by apply element_ids in Hc as [? _]. Qed.
Lemma above_false w c k x : wfs w -> element c w -> sub c w = Some k -> ~ upwards w c x -> above c x w = false /\ x ∉ ids k.
Proof.
  intros Hw Hc Hk Hu. split; [|by rewrite (sub_upwards w c)].
  destruct (above c x w) eqn:E; [|done]. apply above_spec in E; done.
Qed.
Lemma el_append_cycle w x c : wfs w -> element c w -> upwards w c x -> el_append x c w = (w, Err ValueError).
Proof. intros Hw Hc Hu. unfold el_append. by rewrite (proj2 (above_spec w c x Hw Hc) Hu). Qed.
Lemma el_append_ok w x c : wfs w -> element x w -> element c w -> ~ upwards w c x ->
  exists w', el_append x c w = (w', Ok tt) /\ placed x c (without c (children x w) ++ [c]) w w'.
Proof.
  intros Hw Hx Hc Hu. destruct (element_sub w c Hw Hc) as [k Hk].
  destruct (above_false w c k x Hw Hc Hk Hu) as [Ha Hk']. unfold el_append. rewrite Ha, Hk.
  eexists. split; [reflexivity|]. by apply append_spec.
Qed.
Lemma placed_same w x c : wfs w -> c ∈ children x w -> placed x c (children x w) w w.
Proof.
  intros Hw Hc. split_and!; try done. intros y Hy Hne. rewrite without_notin; [done|].
  intros H. apply Hne. by apply (one_parent w y x c).
Qed.
Lemma el_insert_ok w x i c : wfs w -> element x w -> element c w -> ~ upwards w c x ->
  exists w', el_insert x i c w = (w', Ok tt) /\ placed x c (put_at i c (children x w)) w w'.
Proof.
  intros Hw Hx Hc Hu. unfold el_insert, put_at. rewrite py_get_pos, <- el_kids_children, at_pos_map.
  destruct (at_pos i (el_kids x w)) as [k|] eqn:E; cbn; rewrite el_kids_children; [|by apply el_append_ok].
  destruct (element_sub w c Hw Hc) as [kc Hkc]. destruct (above_false w c kc x Hw Hc Hkc Hu) as [-> Hk'].
  assert (Ht : nid k ∈ children x w) by (rewrite <- el_kids_children; apply elem_of_list_fmap_1; by eapply at_pos_in).
  case_decide as En.
  - exists w. split; [done|]. subst c. by apply placed_same.
  - rewrite Hkc. eexists. split; [reflexivity|]. by apply before_spec.
Qed.
Lemma el_insert_cycle w x i c : wfs w -> element c w -> upwards w c x -> el_insert x i c w = (w, Err ValueError).
Proof.
  intros Hw Hc Hu. unfold el_insert. destruct (py_get _ _); [|by apply el_append_cycle].
  by rewrite (proj2 (above_spec w c x Hw Hc) Hu).
Qed.
Lemma el_replace_ok w x old new :
  wfs w -> element x w -> element new w -> ~ upwards w new x -> old ∈ children x w ->
  exists w', el_replace x old new w = (w', Ok tt) /\
    placed x new (if decide (old = new) then children x w else instead old new (without new (children x w))) w w'.
Proof.
  intros Hw Hx Hc Hu Ho. unfold el_replace. rewrite el_kids_children. rewrite decide_False by (intros H; by apply H).
  destruct (element_sub w new Hw Hc) as [kc Hkc]. destruct (above_false w new kc x Hw Hc Hkc Hu) as [-> Hk'].
  case_decide as E.
  - exists w. split; [done|]. subst. by apply placed_same.
  - rewrite Hkc. eexists. split; [reflexivity|]. by apply replace_spec.
Qed.
Lemma el_replace_err w x old new :
  wfs w -> element new w -> upwards w new x \/ old ∉ children x w -> el_replace x old new w = (w, Err ValueError).
Proof.
  intros Hw Hc H. unfold el_replace. rewrite el_kids_children. case_decide; [done|].
  destruct H as [H|?]; [|done]. by rewrite (proj2 (above_spec w new x Hw Hc) H).
Qed.
Lemma el_remove_ok w x c : wfs w -> element x w -> c ∈ children x w ->
  exists w', el_remove x c w = (w', Ok tt) /\ placed x c (without c (children x w)) w w'.
Proof.
  intros Hw Hx Hc. unfold el_remove. rewrite el_kids_children. rewrite decide_False by (intros H; by apply H).
  pose proof (child_element _ _ _ Hc) as He. destruct (element_sub w c Hw He) as [kc Hkc]. rewrite Hkc.
  eexists. split; [reflexivity|]. by apply remove_spec.
Qed.
Lemma el_remove_err w x c : c ∉ children x w -> el_remove x c w = (w, Err ValueError).
Proof. intros H. unfold el_remove. rewrite el_kids_children. by rewrite decide_True. Qed.
Lemma el_index_eq w x c :
  el_index x c w = (w, match list_find (fun y => y = c) (children x w) with Some (i, _) => Ok (Z.of_nat i) | None => Err ValueError end).
Proof.
  unfold el_index. f_equal. rewrite <- el_kids_children.
  generalize (el_kids x w) as l. intros l.
  induction l as [|k l IH]; [done|]. cbn. case_decide; [done|].
  destruct (list_find (fun k => nid k = c) l) as [[? ?]|], (list_find (fun y => y = c) (map nid l)) as [[? ?]|];
    cbn in *; try done. injection IH as IH. f_equal. lia.
Qed.

(** deleting *)
Lemma view_lset_tail s k : view (lset_tail s k) = (nid k, nd_set_tail s (pl (root k)), map nid (kids k)) :: flat_map view (kids k).
Proof. by destruct k. Qed.
Lemma delete_spec w x c kc :
  wfs w -> sub c w = Some kc -> c ∈ children x w -> deleted x c w (add_root (lset_tail None kc) (cut c w)).
Proof.
  intros Hw Hkc Hin. pose proof (child_element _ _ _ Hin) as Hc.
  destruct (cut_facts w c kc Hw Hc Hkc) as (Hw1 & Hn1 & Hp1 & Hi1 & Hr1).
  assert (Hi : ids (add_root (lset_tail None kc) (cut c w)) ≡ₚ ids w).
  { rewrite ids_add_root. replace (ids (lset_tail None kc)) with (ids kc); [done|by destruct kc]. }
  assert (Hn : nid (add_root (lset_tail None kc) (cut c w)) = nid w) by (by rewrite add_root_nid).
  set (w' := add_root _ _) in *.
  assert (Hw' : wfs w') by (unfold wfs in *; by rewrite Hi).
  assert (H : forall y d, element y w -> (y, d, children y w) ∈ view w ->
    (y, if decide (y = c) then nd_set_tail None d else d, without c (children y w)) ∈ view w').
  { intros y d Hy Hrow. apply add_root_rows; [done|]. cbn [rid fst].
    assert (Hyn : y <> nid (cut c w)) by (rewrite Hn1; by apply element_ids in Hy as [_ ?]).
    destruct (decide (y ∈ ids kc)) as [Hyc|Hyc].
    - left. rewrite without_notin; [|intros Hz; by destruct (below_children w c kc y c Hw Hc Hkc Hyc Hz)].
      pose proof (sub_view w c _ _ Hw Hkc Hrow Hyc) as H. rewrite view_lset_tail. rewrite view_eq in H.
      pose proof (sub_nid _ _ _ Hkc) as Hnk.
      apply elem_of_cons in H as [[= E1 -> E3]|H].
      + rewrite decide_True by congruence. rewrite E3, E1. left.
      + right. rewrite decide_False; [done|]. intros ->.
        destruct (wfs_kids kc) as [_ Hn']; [by apply (sub_wfs w c)|]. apply Hn'. rewrite Hnk.
        rewrite <- views_ids. by apply (elem_of_list_fmap_1 rid) in H.
    - right. split; [|done]. rewrite decide_False; [by apply Hr1|]. intros ->. apply Hyc.
      rewrite <- (sub_nid _ _ _ Hkc). apply nid_in. }
  assert (Hr : forall y, element y w -> children y w' = without c (children y w) /\
     data y w' = (if decide (y = c) then nd_set_tail None <$> data y w else data y w)).
  { intros y Hy. destruct (view_at w y) as (d & Hd & E); [by apply element_ids|].
    specialize (H y d Hy Hd). apply view_spec in H as (_ & H1 & H2); [|done]. split; [done|].
    rewrite H2, E. by case_decide. }
  split_and!; [done| |done| | |].
  - intros y. rewrite !element_ids by done. by rewrite Hi, Hn.
  - intros y Hy. by apply Hr.
  - intros y Hy Hne. destruct (Hr y Hy) as [_ ->]. by rewrite decide_False.
  - destruct (Hr c Hc) as [_ ->]. by rewrite decide_True.
Qed.
Lemma el_delete_ok w x i c : wfs w -> at_pos i (children x w) = Some c ->
  exists w', el_delete x i w = (w', Ok tt) /\ deleted x c w w'.
Proof.
  intros Hw. unfold el_delete. rewrite py_get_pos, <- el_kids_children, at_pos_map.
  destruct (at_pos i (el_kids x w)) as [k|] eqn:E; [|done]. cbn. intros [= <-].
  apply at_pos_in in E. eexists. split; [reflexivity|]. apply delete_spec; [done|by apply (el_kids_sub w x)|].
  rewrite <- el_kids_children. by apply elem_of_list_fmap_1.
Qed.
Lemma el_delete_err w x i : at_pos i (children x w) = None -> el_delete x i w = (w, Err IndexError).
Proof.
  unfold el_delete. rewrite py_get_pos, <- el_kids_children, at_pos_map.
  by destruct (at_pos i (el_kids x w)).
Qed.

(** clearing *)
Lemma foldl_add_root ks w : foldl (fun w k => add_root k w) w ks = T (root w) (kids w ++ ks).
Proof.
  revert w. induction ks as [|k ks IH]; intros [a l]; cbn; [by rewrite app_nil_r|]. rewrite IH. cbn. by rewrite <- app_assoc.
Qed.
Lemma el_clear_ok w x : wfs w -> element x w -> exists w', el_clear x w = (w', Ok tt) /\ cleared x w w'.
Proof.
  intros Hw Hx. unfold el_clear. eexists. split; [reflexivity|]. rewrite foldl_add_root.
  destruct (element_sub w x Hw Hx) as [k Hk]. unfold el_kids. rewrite Hk.
  set (f := fun k : node => [T (L (nid_ (root k)) (Nd (ltag k) ∅ None None)) []]).
  pose proof (edit_ids w x f k Hw Hx Hk) as Hi.
  pose proof (sub_nid _ _ _ Hk) as Hnk.
  destruct (edit x f w) as [a l] eqn:Ee. cbn [root kids].
  assert (Hp : ids (T a (l ++ kids k)) ≡ₚ ids w).
  { rewrite ids_T, flat_map_app. rewrite ids_T in Hi. cbn [f flat_map] in Hi. rewrite ids_T in Hi. cbn [flat_map app] in Hi.
    rewrite (ids_eq k) in Hi. apply (Permutation_app_inv_r [nid k]). unfold nid at 2. rewrite <- Hi. unfold nid. solve_Permutation. }
  assert (Hn : nid (T a (l ++ kids k)) = nid w).
  { pose proof (edit_nid x f w) as H. rewrite Ee in H. done. }
  set (w' := T a (l ++ kids k)) in *.
  assert (Hw' : wfs w') by (unfold wfs in *; by rewrite Hp).
  assert (Hrow : forall y d, element y w -> (y, d, children y w) ∈ view w ->
    (y, if decide (y = x) then Nd (tag d) ∅ None None else d, if decide (y = x) then [] else children y w) ∈ view w').
  { intros y d Hy Hrow. unfold w'. rewrite view_T, flat_map_app. right.
    destruct (decide (y ∈ ids k)) as [Hyk|Hyk].
    - pose proof (sub_view w x _ _ Hw Hk Hrow Hyk) as H. rewrite view_eq in H. apply elem_of_cons in H as [[= E1 -> E3]|H].
      + apply elem_of_app. left. rewrite !decide_True by congruence.
        assert (H' : (y, Nd (tag (pl (root k))) ∅ None None, []) ∈ view (T a l)).
        { rewrite <- Ee. apply (edit_rows w x f k); [done|done|done|]. left. cbn. rewrite E1. left. }
        rewrite view_T in H'. apply elem_of_cons in H' as [[= E4 _ _]|H']; [|done].
        exfalso. apply element_ids in Hy as [_ Hy]; [|done]. apply Hy. rewrite <- Hn. unfold w', nid. cbn. done.
      + apply elem_of_app. right. rewrite !decide_False; [done| |];
          (intros ->; destruct (wfs_kids k) as [_ Hn']; [by apply (sub_wfs w x)|]; apply Hn'; rewrite Hnk;
           rewrite <- views_ids; by apply (elem_of_list_fmap_1 rid) in H).
    - apply elem_of_app. left.
      assert (y <> x) by (intros ->; apply Hyk; rewrite <- Hnk; apply nid_in). rewrite !decide_False by done.
      assert (H' : (y, d, children y w) ∈ view (T a l)).
      { rewrite <- Ee. apply (edit_rows w x f k); [done|done|done|]. right. split; [done|].
        exists (children y w). split; [done|]. unfold f. cbn [map]. unfold nid. cbn [root nid_].
        fold (nid k). rewrite Hnk. by rewrite for_self. }
      rewrite view_T in H'. apply elem_of_cons in H' as [[= E4 _ _]|H']; [|done].
      exfalso. apply element_ids in Hy as [_ Hy]; [|done]. apply Hy. rewrite <- Hn. unfold w', nid. cbn. done. }
  assert (Hr : forall y, element y w -> children y w' = (if decide (y = x) then [] else children y w) /\
     data y w' = (if decide (y = x) then (fun d => Nd (tag d) ∅ None None) <$> data y w else data y w)).
  { intros y Hy. destruct (view_at w y) as (d & Hd & E); [by apply element_ids|].
    specialize (Hrow y d Hy Hd). apply view_spec in Hrow as (_ & H1 & H2); [|done]. split; [done|].
    rewrite H2, E. by case_decide. }
  split_and!; [done| |done| | |].
  - intros y. rewrite !element_ids by done. by rewrite Hp, Hn.
  - destruct (Hr x Hx) as [-> _]. by rewrite decide_True.
  - destruct (Hr x Hx) as [_ ->]. by rewrite decide_True.
  - intros y Hy Hne. destruct (Hr y Hy) as [-> ->]. by rewrite !decide_False.
Qed.

(** ** Going up *)
Lemma owner_T x a ks : owner x (T a ks) = if decide (x ∈ map nid ks) then Some (nid_ a)
  else (fix first (ks : list node) : option N :=
     match ks with [] => None | k :: r => match owner x k with Some p => Some p | None => first r end end) ks.
Proof. done. Qed.
Lemma owner_Some x t p : owner x t = Some p -> exists d l, (p, d, l) ∈ view t /\ x ∈ l.
Proof.
  induction t as [a ks IH] using tree_ind'. rewrite owner_T, view_T. case_decide as H.
  - intros [= <-]. exists (pl a), (map nid ks). split; [left|done].
  - intros Ho. assert (exists k, k ∈ ks /\ owner x k = Some p) as (k & Hk & Hp).
    { clear H IH. induction ks as [|k ks IH]; [done|]. destruct (owner x k) as [q|] eqn:E.
      - exists k. split; [left|congruence].
      - destruct (IH Ho) as (k' & H1 & H2). exists k'. split; [by right|done]. }
    rewrite Forall_forall in IH. destruct (IH k Hk Hp) as (d & l & H1 & H2). exists d, l.
    split; [right; apply elem_of_flat_map; eauto|done].
Qed.
Lemma owner_None x t : owner x t = None -> x ∉ flat_map ids (kids t).
Proof.
  induction t as [a ks IH] using tree_ind'. rewrite owner_T. case_decide as H; [done|]. cbn [kids]. intros Ho.
  intros (k & Hk & Hx)%elem_of_flat_map.
  assert (Hn : owner x k = None).
  { clear H IH Hx. induction ks as [|k' ks IH]; [by apply elem_of_nil in Hk|]. destruct (owner x k') as [q|] eqn:E; [done|].
    apply elem_of_cons in Hk as [->|Hk]; [done|]. by apply IH. }
  rewrite Forall_forall in IH. rewrite ids_eq in Hx. apply elem_of_cons in Hx as [->|Hx].
  - apply H. by apply elem_of_list_fmap_1.
  - by apply (IH k Hk Hn).
Qed.
Lemma getparent_spec w x p : wfs w -> getparent x w = Some p <-> element p w /\ x ∈ children p w.
Proof.
  intros Hw. unfold getparent. split.
  - destruct (owner x w) as [q|] eqn:E; [|done]. case_decide as Hq; [done|]. intros [= ->].
    apply owner_Some in E as (d & l & H & Hx). split.
    + apply element_ids; [done|]. split; [by apply (row_in _ _ H)|done].
    + by apply view_spec in H as (_ & -> & _).
  - intros [Hp Hx]. destruct (owner x w) as [q|] eqn:E.
    + apply owner_Some in E as (d & l & H & Hx'). apply view_spec in H as (_ & <- & _); [|done].
      rewrite (one_parent w p q x) by done. rewrite decide_False; [done|].
      rewrite <- (one_parent w p q x) by done. by apply element_ids in Hp as [_ ?].
    + exfalso. apply (owner_None _ _ E). by apply (child_element w p).
Qed.
Lemma child_smaller w p x kp kx : wfs w -> sub p w = Some kp -> sub x w = Some kx -> x ∈ children p w ->
  length (ids kx) < length (ids kp).
Proof.
  intros Hw Hp Hx Hin. rewrite <- el_kids_children in Hin. apply elem_of_list_fmap in Hin as (k & -> & Hk).
  rewrite (el_kids_sub w p) in Hx by done. injection Hx as ->. unfold el_kids in Hk. rewrite Hp in Hk.
  rewrite (ids_eq kp). cbn. apply elem_of_list_split in Hk as (l & r & ->). rewrite flat_map_app. cbn.
  rewrite !app_length. lia.
Qed.
Lemma climb_spec w n x k :
  wfs w -> element x w -> sub x w = Some k -> length (ids w) < n + length (ids k) ->
  upwards w (climb n x w) x /\ element (climb n x w) w /\ getparent (climb n x w) w = None.
Proof.
  intros Hw. revert x k. induction n as [|n IH]; intros x k Hx Hk Hl.
  - exfalso. apply sub_Some in Hk as [_ [-> |[c ->]]]; [cbn in Hl; lia|]. rewrite ids_plug1, !app_length in Hl. lia.
  - cbn [climb]. destruct (getparent x w) as [p|] eqn:E; [|split_and!; [constructor|done|done]].
    apply getparent_spec in E as [Hp Hin]; [|done]. destruct (element_sub w p Hw Hp) as [kp Hkp].
    pose proof (child_smaller w p x kp k Hw Hkp Hk Hin).
    destruct (IH p kp Hp Hkp) as (H1 & H2 & H3); [lia|]. split_and!; [|done|done]. by apply U_child with p.
Qed.
Lemma get_xmlroot_spec w x : wfs w -> element x w ->
  upwards w (get_xmlroot x w) x /\ element (get_xmlroot x w) w /\
  (forall p, element p w -> get_xmlroot x w ∉ children p w).
Proof.
  intros Hw Hx. destruct (element_sub w x Hw Hx) as [k Hk].
  destruct (climb_spec w (length (ids w)) x k Hw Hx Hk) as (H1 & H2 & H3).
  { rewrite (ids_eq k). cbn. lia. }
  split_and!; [done|done|]. intros p Hp Hin. unfold get_xmlroot in Hin.
  rewrite (proj2 (getparent_spec w (climb (length (ids w)) x w) p Hw)) in H3; done.
Qed.

(** ** Wrapper operations *)
Lemma quiet_eq {A} (m : act node A) w : quiet m w = ((m w).1, match (m w).2 with Ok _ => Ok tt | Err e => Err e end).
Proof. unfold quiet, abind. by destruct (m w) as [? [?|?]]. Qed.
Lemma wr_append_eq x c w : wr_append x c w = ((el_append x c w).1, do _ <- (el_append x c w).2; Ok c).
Proof. unfold wr_append, abind. by destruct (el_append x c w) as [? [?|?]]. Qed.
Lemma wr_insert_eq x i c w : wr_insert x i c w = ((el_insert x i c w).1, do _ <- (el_insert x i c w).2; Ok c).
Proof. unfold wr_insert, abind. by destruct (el_insert x i c w) as [? [?|?]]. Qed.

Lemma list_find_pos (c : N) (l : list N) i y : list_find (fun y => y = c) l = Some (i, y) -> y = c /\ l !! i = Some c.
Proof. intros H. apply list_find_Some in H as (H1 & H2 & _). subst. done. Qed.
Lemma insert_before_ok w x t c : wfs w -> element x w -> element c w -> ~ upwards w c x -> t ∈ children x w ->
  exists w', insert_before x t c w = (w', Ok c) /\
    placed x c (if decide (t = c) then children x w else put_before t c (without c (children x w))) w w'.
Proof.
  intros Hw Hx Hc Hu Ht. unfold insert_before, wr_index, abind. rewrite el_index_eq.
  destruct (list_find (fun y => y = t) (children x w)) as [[i y]|] eqn:E.
  - apply list_find_pos in E as [-> Hi].
    assert (Hp : at_pos (Z.of_nat i) (children x w) = Some t).
    { unfold at_pos. rewrite decide_True by lia. by rewrite Nat2Z.id. }
    destruct (el_insert_ok w x (Z.of_nat i) c Hw Hx Hc Hu) as (w' & Hi' & Hpl). unfold put_at in Hpl. rewrite Hp in Hpl.
    rewrite wr_insert_eq, Hi'. cbn. eauto.
  - exfalso. apply list_find_None in E. rewrite Forall_forall in E. by apply (E t Ht).
Qed.
Lemma insert_before_err w x t c : wfs w -> element c w -> upwards w c x \/ t ∉ children x w ->
  insert_before x t c w = (w, Err ValueError).
Proof.
  intros Hw Hc H. unfold insert_before, wr_index, abind. rewrite el_index_eq.
  destruct (list_find (fun y => y = t) (children x w)) as [[i y]|] eqn:E; [|done].
  apply list_find_pos in E as [-> Hi]. destruct H as [H|H]; [|by apply elem_of_list_lookup_2 in Hi].
  rewrite wr_insert_eq, el_insert_cycle by done. done.
Qed.
Lemma set_child_eq w x i c : set_child x i c w =
  match at_pos i (children x w) with Some t => el_replace x t c w | None => (w, Err IndexError) end.
Proof. unfold set_child, abind. rewrite el_get_eq. by destruct (at_pos i (children x w)). Qed.

(** ** Histories *)
Definition keeps (w w' : node) : Prop := wfs w' /\ (forall y, element y w' <-> element y w).
Lemma placed_keeps x c l w w' : placed x c l w w' -> keeps w w'.
Proof. intros (H1 & H2 & _). done. Qed.
Lemma upwards_cases w c x : wfs w -> element c w -> upwards w c x \/ ~ upwards w c x.
Proof.
  intros Hw Hc. rewrite <- (above_spec w c x) by done. destruct (above c x w); [by left|by right].
Qed.
Lemma do_op_keeps w o :
  wfs w -> Forall (fun x => element x w) (op_nodes o) ->
  (exists w', do_op o w = (w', Ok tt) /\ keeps w w') \/
  (exists e, do_op o w = (w, Err e) /\ (e = ValueError \/ e = IndexError)).
Proof.
  intros Hw Hn. destruct o as [x c|x i c|x i c|x i|x t c|x c|x o n|x]; cbn [op_nodes do_op] in *;
    rewrite ?Forall_cons in Hn.
  - destruct Hn as (Hx & Hc & _). rewrite quiet_eq, wr_append_eq.
    destruct (upwards_cases w c x Hw Hc) as [Hu|Hu].
    + rewrite el_append_cycle by done. right. exists ValueError. split; [done|by left].
    + destruct (el_append_ok w x c Hw Hx Hc Hu) as (w' & -> & H). left. exists w'. split; [done|by eapply placed_keeps].
  - destruct Hn as (Hx & Hc & _). rewrite quiet_eq, wr_insert_eq.
    destruct (upwards_cases w c x Hw Hc) as [Hu|Hu].
    + rewrite el_insert_cycle by done. right. exists ValueError. split; [done|by left].
    + destruct (el_insert_ok w x i c Hw Hx Hc Hu) as (w' & -> & H). left. exists w'. split; [done|by eapply placed_keeps].
  - destruct Hn as (Hx & Hc & _). rewrite set_child_eq. destruct (at_pos i (children x w)) as [t|] eqn:E.
    + destruct (upwards_cases w c x Hw Hc) as [Hu|Hu].
      * rewrite el_replace_err by auto. right. exists ValueError. split; [done|by left].
      * destruct (el_replace_ok w x t c Hw Hx Hc Hu) as (w' & -> & H); [by eapply at_pos_in|].
        left. exists w'. split; [done|by eapply placed_keeps].
    + right. exists IndexError. split; [done|by right].
  - unfold del_child. destruct (at_pos i (children x w)) as [c|] eqn:E.
    + destruct (el_delete_ok w x i c Hw E) as (w' & -> & H1 & H2 & _). left. by exists w'.
    + rewrite el_delete_err by done. right. exists IndexError. split; [done|by right].
  - destruct Hn as (Hx & Ht & Hc & _). rewrite quiet_eq.
    destruct (decide (t ∈ children x w)) as [Hi|Hi]; [destruct (upwards_cases w c x Hw Hc) as [Hu|Hu]|].
    + rewrite insert_before_err by auto. right. exists ValueError. split; [done|by left].
    + destruct (insert_before_ok w x t c Hw Hx Hc Hu Hi) as (w' & -> & H). left. exists w'. split; [done|by eapply placed_keeps].
    + rewrite insert_before_err by auto. right. exists ValueError. split; [done|by left].
  - destruct Hn as (Hx & Hc & _). unfold wr_remove. destruct (decide (c ∈ children x w)) as [Hi|Hi].
    + destruct (el_remove_ok w x c Hw Hx Hi) as (w' & -> & H). left. exists w'. split; [done|by eapply placed_keeps].
    + rewrite el_remove_err by done. right. exists ValueError. split; [done|by left].
  - destruct Hn as (Hx & Ho & Hc & _). unfold wr_replace.
    destruct (decide (o ∈ children x w)) as [Hi|Hi]; [destruct (upwards_cases w n x Hw Hc) as [Hu|Hu]|].
    + rewrite el_replace_err by auto. right. exists ValueError. split; [done|by left].
    + destruct (el_replace_ok w x o n Hw Hx Hc Hu Hi) as (w' & -> & H). left. exists w'. split; [done|by eapply placed_keeps].
    + rewrite el_replace_err by auto. right. exists ValueError. split; [done|by left].
  - destruct Hn as (Hx & _). unfold wr_clear. destruct (el_clear_ok w x Hw Hx) as (w' & -> & H1 & H2 & _).
    left. by exists w'.
Qed.
Lemma run_ops_keeps ops w :
  wfs w -> Forall (fun o => Forall (fun x => element x w) (op_nodes o)) ops -> keeps w (run_ops ops w).
Proof.
  revert w. induction ops as [|o ops IH]; intros w Hw H; [split; done|]. apply Forall_cons in H as [H1 H2].
  unfold run_ops. cbn [foldl]. fold (run_ops ops (do_op o w).1).
  destruct (do_op_keeps w o Hw H1) as [(w' & -> & Hw' & He)|(e & -> & _)]; cbn [fst]; [|by apply IH].
  destruct (IH w' Hw') as [H3 H4].
  - eapply Forall_impl; [exact H2|]. intros o' Ho. eapply Forall_impl; [exact Ho|]. intros y. by apply He.
  - split; [done|]. intros y. by rewrite H4.
Qed.

(** ** Lists *)
Lemma put_before_at (i : nat) (t c : N) l : NoDup l -> l !! i = Some t -> put_before t c l = take i l ++ c :: drop i l.
Proof.
  revert i. induction l as [|y l IH]; intros i Hn Hi; [done|]. apply NoDup_cons in Hn as [H1 H2]. destruct i as [|i]; cbn in *.
  - injection Hi as ->. by rewrite decide_True.
  - rewrite decide_False; [by rewrite (IH i)|]. intros ->. apply H1. by apply elem_of_list_lookup_2 in Hi.
Qed.
Lemma instead_at (i : nat) (t c : N) l : NoDup l -> l !! i = Some t -> instead t c l = <[i := c]> l.
Proof.
  revert i. induction l as [|y l IH]; intros i Hn Hi; [done|]. apply NoDup_cons in Hn as [H1 H2]. destruct i as [|i]; cbn in *.
  - injection Hi as ->. rewrite decide_True by done. f_equal. by apply instead_notin.
  - rewrite decide_False; [f_equal; by apply IH|]. intros ->. apply H1. by apply elem_of_list_lookup_2 in Hi.
Qed.
Lemma without_at (i : nat) (t : N) l : NoDup l -> l !! i = Some t -> without t l = take i l ++ drop (S i) l.
Proof.
  revert i. induction l as [|y l IH]; intros i Hn Hi; [done|]. apply NoDup_cons in Hn as [H1 H2]. destruct i as [|i]; cbn in Hi; cbn [take drop app].
  - injection Hi as ->. unfold without. rewrite filter_cons_False by (intros H; by apply H). by apply without_notin.
  - unfold without. rewrite filter_cons_True; [f_equal; by apply IH|]. intros ->. apply H1. by apply elem_of_list_lookup_2 in Hi.
Qed.
Lemma at_pos_nat {A} i (l : list A) x : at_pos i l = Some x ->
  exists n, n < length l /\ l !! n = Some x /\ (Z.of_nat n = i \/ Z.of_nat n = Z.of_nat (length l) + i)%Z.
Proof.
  unfold at_pos. repeat case_decide; [| |done]; intros H'; eexists; split_and!; try exact H';
    (apply lookup_lt_Some in H'; lia).
Qed.
