(** C45: Clark notation and its cache. *)
From Verif Require Import XmlnsProofs.

(** After every history, CN depends on the registrations only. *)
Theorem C45_expand (os : list nsop) (tag : pystr) :
  let r := ns_run os ns_empty in
  (forall p l u, prefixed p l tag -> bound (registrations os) p u -> (cn tag r).2 = Ok (clark u l)) /\
  (forall p l, prefixed p l tag -> (forall u, ¬ bound (registrations os) p u) -> (cn tag r).2 = Err KeyError) /\
  (head tag = Some 123%N -> (cn tag r).2 = Ok tag) /\
  (tag = [] -> (cn tag r).2 = Err IndexError) /\
  (tag <> [] -> head tag <> Some 123%N -> (forall p l, ¬ prefixed p l tag) -> (cn tag r).2 = Err ValueError).
Proof.
  intros r. assert (Hok : cache_ok r) by (apply run_ok; intros t v; cbn; by rewrite lookup_empty).
  assert (Hp2u : forall p u, prefix2uri r !! p = Some u <-> bound (registrations os) p u).
  { intros p u. rewrite bound_lookup. unfold r. by destruct (run_update os ns_empty) as [c ->]. }
  split_and!.
  - intros p l u Hp Hb. rewrite (cn_prefixed r p l) by done. by apply Hp2u in Hb as ->.
  - intros p l Hp Hb. rewrite (cn_prefixed r p l) by done. destruct (prefix2uri r !! p) as [u|] eqn:E; [|done].
    exfalso. by apply (Hb u), Hp2u.
  - intros H. by rewrite cn_clark.
  - intros ->. rewrite cn_bad; [by rewrite decide_True|done..].
  - intros Hn Hh Hp. rewrite cn_bad; [by rewrite decide_False|done|done|].
    intros (p & l & -> & H1 & H2)%str_count_one. by apply (Hp p l).
Qed.
Print Assumptions C45_expand.

(** The cache is invisible: a call changes no later answer; a converted name stays as it is. *)
Theorem C45_cache (os os' : list nsop) (t tag : pystr) :
  (cn tag (ns_run (os ++ NCn t :: os') ns_empty)).2 = (cn tag (ns_run (os ++ os') ns_empty)).2 /\
  (forall c, (cn tag (ns_run os ns_empty)).2 = Ok c -> (cn c (ns_run os ns_empty)).2 = Ok c).
Proof.
  split.
  - assert (E : registrations (os ++ NCn t :: os') = registrations (os ++ os')) by (unfold registrations; by rewrite !flat_map_app).
    destruct (C45_expand (os ++ NCn t :: os') tag) as (A1 & A2 & A3 & A4 & A5).
    destruct (C45_expand (os ++ os') tag) as (B1 & B2 & B3 & B4 & B5). rewrite E in A1, A2.
    destruct (decide (head tag = Some 123%N)) as [H|H]; [by rewrite A3, B3|].
    destruct (decide (tag = [])) as [H0|H0]; [by rewrite A4, B4|].
    destruct (decide (str_count 58 tag = 1)) as [H1|H1].
    + apply str_count_one in H1 as (p & l & Et & H1 & H2). assert (Hp : prefixed p l tag) by (by rewrite Et in H |- *).
      destruct (prefix2uri (ns_new (registrations (os ++ os'))) !! p) as [u|] eqn:Eu.
      * apply bound_lookup in Eu. by rewrite (A1 p l u), (B1 p l u).
      * assert (Hn : forall u, ¬ bound (registrations (os ++ os')) p u) by (intros u Hb; apply bound_lookup in Hb; congruence).
        by rewrite (A2 p l), (B2 p l).
    + assert (Hn : forall p l, ¬ prefixed p l tag).
      { intros p l (Et & Hp & Hl & _). apply H1, str_count_one. exists p, l. by rewrite Et. }
      by rewrite A5, B5.
  - intros c Hc. destruct (C45_expand os c) as (_ & _ & A3 & _). apply A3. clear A3.
    destruct (C45_expand os tag) as (B1 & B2 & B3 & B4 & B5).
    destruct (decide (head tag = Some 123%N)) as [H|H]; [rewrite B3 in Hc by done; by simplify_eq|].
    destruct (decide (tag = [])) as [H0|H0]; [by rewrite B4 in Hc|].
    destruct (decide (str_count 58 tag = 1)) as [H1|H1].
    + apply str_count_one in H1 as (p & l & Et & H1 & H2). assert (Hp : prefixed p l tag) by (by rewrite Et in H |- *).
      destruct (prefix2uri (ns_new (registrations os)) !! p) as [u|] eqn:Eu.
      * apply bound_lookup in Eu. rewrite (B1 p l u) in Hc by done. by injection Hc as <-.
      * rewrite (B2 p l) in Hc; [done|done|]. intros u Hb. apply bound_lookup in Hb. congruence.
    + rewrite B5 in Hc; [done|done|done|]. intros p l (Et & Hp & Hl & _). apply H1, str_count_one. exists p, l. by rewrite Et.
Qed.
Print Assumptions C45_cache.

(** Different names are expanded differently when no two prefixes share a uri. *)
Theorem C45_injective (os : list nsop) :
  (forall p u, bound (registrations os) p u -> 125%N ∉ u) ->
  (forall p p' u, bound (registrations os) p u -> bound (registrations os) p' u -> p = p') ->
  forall t t' c, head t <> Some 123%N -> head t' <> Some 123%N ->
  (cn t (ns_run os ns_empty)).2 = Ok c -> (cn t' (ns_run os ns_empty)).2 = Ok c -> t = t'.
Proof.
  intros Hb Hi t t' c Ht Ht' Hc Hc'.
  assert (G : forall t, head t <> Some 123%N -> (cn t (ns_run os ns_empty)).2 = Ok c ->
    exists p l u, prefixed p l t /\ bound (registrations os) p u /\ c = clark u l).
  { clear t t' Ht Ht' Hc Hc'. intros t Ht Hc. destruct (C45_expand os t) as (B1 & B2 & _ & B4 & B5).
    destruct (decide (t = [])) as [H0|H0]; [by rewrite B4 in Hc|].
    destruct (decide (str_count 58 t = 1)) as [H1|H1].
    - apply str_count_one in H1 as (p & l & Et & H1 & H2). assert (Hp : prefixed p l t) by (by rewrite Et in Ht |- *).
      destruct (prefix2uri (ns_new (registrations os)) !! p) as [u|] eqn:Eu.
      + apply bound_lookup in Eu. rewrite (B1 p l u) in Hc by done. injection Hc as <-. eauto 10.
      + rewrite (B2 p l) in Hc; [done|done|]. intros u Hu. apply bound_lookup in Hu. congruence.
    - rewrite B5 in Hc; [done|done|done|]. intros p l (Et & Hp & Hl & _). apply H1, str_count_one. exists p, l. by rewrite Et. }
  destruct (G t Ht Hc) as (p & l & u & (Et & _) & Hbu & E). destruct (G t' Ht' Hc') as (p' & l' & u' & (Et' & _) & Hbu' & E').
  rewrite E in E'. apply clark_inj in E' as [-> ->]; [|by eapply Hb..]. by rewrite Et, Et', (Hi p p' u').
Qed.
Print Assumptions C45_injective.

(** What the registry of the package holds, computed once. *)
Lemma ns_run_cons o os r : ns_run (o :: os) r = ns_run os (ns_run [o] r).
Proof. done. Qed.
Lemma XML_update : ns_run [NUpd ALL_NSMAP] ns_empty = XML.
Proof. exact eq_refl. Qed.
Lemma XML_all : Forall (fun pu => 125%N ∉ pu.2 /\ uri2prefix XML !! pu.2 = Some pu.1 /\ pu ∈ ALL_NSMAP) (map_to_list (prefix2uri XML)).
Proof. dec_vm. Qed.
Lemma XML_all2 : Forall (fun up => prefix2uri XML !! up.2 = Some up.1) (map_to_list (uri2prefix XML)).
Proof. dec_vm. Qed.
Lemma XML_dom : Forall (fun p => is_Some (prefix2uri XML !! p)) (map fst ALL_NSMAP).
Proof. dec_vm. Qed.
Lemma XML_maps : Forall (Forall (fun pu : pystr * pystr => prefix2uri XML !! pu.1 = Some pu.2 /\ uri2prefix XML !! pu.2 = Some pu.1 /\ pu ∈ ALL_NSMAP))
  [META_NSMAP; MANIFEST_NSMAP; STYLES_NSMAP; SETTINGS_NSMAP; TEXT_NSMAP; SPREADSHEET_NSMAP; PRESENTATION_NSMAP; ALL_NSMAP].
Proof. dec_vm. Qed.
Lemma XML_each : Forall (fun pu : pystr * pystr => prefix2uri XML !! pu.1 = Some pu.2) ALL_NSMAP.
Proof. dec_vm. Qed.
Local Opaque XML ALL_NSMAP META_NSMAP MANIFEST_NSMAP STYLES_NSMAP SETTINGS_NSMAP TEXT_NSMAP SPREADSHEET_NSMAP PRESENTATION_NSMAP.

(** The registry of the package: every known prefix has its own uri, so prefixed names can be
    used in place of expanded names (as the other models do), after any calls of CN. *)
Theorem C45_odf (ts : list pystr) :
  let r := ns_run (map NCn ts) XML in
  (forall p u, p ∈ map fst ALL_NSMAP -> (prefix2uri r !! p = Some u <-> uri2prefix r !! u = Some p)) /\
  (forall p, p ∈ map fst ALL_NSMAP -> exists u, (p, u) ∈ ALL_NSMAP /\ forall l t, prefixed p l t -> (cn t r).2 = Ok (clark u l)) /\
  (forall t t' c, head t <> Some 123%N -> head t' <> Some 123%N -> (cn t r).2 = Ok c -> (cn t' r).2 = Ok c -> t = t').
Proof.
  set (os := NUpd ALL_NSMAP :: map NCn ts).
  assert (Er : ns_run (map NCn ts) XML = ns_run os ns_empty) by (unfold os; rewrite <- XML_update; symmetry; apply ns_run_cons). rewrite Er. cbn zeta.
  assert (Hreg : registrations os = ALL_NSMAP).
  { unfold os, registrations. cbn [flat_map].
    assert (flat_map (fun o => match o with NReg p u => [(p, u)] | NUpd l => l | NCn _ => [] end) (map NCn ts) = []) as ->
      by (clear; induction ts as [|t ts IH]; [done|apply IH]). apply app_nil_r. }
  assert (Hb : forall p u, bound ALL_NSMAP p u <-> (p, u) ∈ map_to_list (prefix2uri XML)).
  { intros p u. rewrite elem_of_map_to_list. apply bound_lookup. }
  pose proof XML_all as Hall. pose proof XML_all2 as Hall2. pose proof XML_dom as Hdom.
  pose proof (proj1 (@Forall_forall (pystr * pystr) _ _) Hall) as Hall'. clear Hall. rename Hall' into Hall.
  pose proof (proj1 (@Forall_forall (pystr * pystr) _ _) Hall2) as Hall'. clear Hall2. rename Hall' into Hall2.
  pose proof (proj1 (@Forall_forall pystr _ _) Hdom) as Hall'. clear Hdom. rename Hall' into Hdom.
  destruct (run_update os ns_empty) as [c Ec].
  assert (E1 : prefix2uri (ns_run os ns_empty) = prefix2uri XML) by (rewrite Ec, Hreg; done).
  assert (E2 : uri2prefix (ns_run os ns_empty) = uri2prefix XML) by (rewrite Ec, Hreg; done).
  split_and!.
  - intros p u Hp. rewrite E1, E2. split.
    + intros H. by apply elem_of_map_to_list, Hall in H as (_ & ? & _).
    + intros H. by apply elem_of_map_to_list, Hall2 in H.
  - intros p Hp. destruct (Hdom p Hp) as [u Hu]. exists u. apply elem_of_map_to_list in Hu. split; [by apply Hall in Hu as (_ & _ & ?)|].
    intros l t Ht. destruct (C45_expand os t) as (A1 & _). apply (A1 p); [done|]. rewrite Hreg. by apply Hb.
  - apply C45_injective; rewrite Hreg.
    + intros p u H%Hb. by apply Hall in H as [? _].
    + intros p p' u H%Hb H'%Hb. apply Hall in H as (_ & H & _). apply Hall in H' as (_ & H' & _). cbn in H, H'. congruence.
Qed.
Print Assumptions C45_odf.

(** The maps a new part is made with (its namespace declarations) and the registry agree: a
    declared prefix has the uri that CN gives it, and no map has two prefixes for one uri. *)
Theorem C45_declared (m : list (pystr * pystr)) :
  m ∈ [META_NSMAP; MANIFEST_NSMAP; STYLES_NSMAP; SETTINGS_NSMAP; TEXT_NSMAP; SPREADSHEET_NSMAP; PRESENTATION_NSMAP; ALL_NSMAP] ->
  forall (ts : list pystr) p u, (p, u) ∈ m ->
    (forall l t, prefixed p l t -> (cn t (ns_run (map NCn ts) XML)).2 = Ok (clark u l)) /\
    forall p', (p', u) ∈ m -> p' = p.
Proof.
  intros Hm ts p u Hin.
  pose proof (proj1 (@Forall_forall (list (pystr * pystr)) _ _) XML_maps m Hm) as Hall.
  pose proof (proj1 (@Forall_forall (pystr * pystr) _ _) Hall) as Hall'. clear Hall. rename Hall' into Hall.
  pose proof (proj1 (@Forall_forall (pystr * pystr) _ _) XML_each) as Heach.
  destruct (Hall _ Hin) as (H1 & H2 & Hsub). cbn in H1, H2. split.
  - intros l t Ht. destruct (C45_odf ts) as (_ & H & _). destruct (H p) as (u' & Hu' & Hcn).
    { apply (elem_of_list_fmap_1 fst ALL_NSMAP (p, u)). done. }
    apply Heach in Hu'. cbn in Hu'. assert (u' = u) as -> by congruence. by apply Hcn.
  - intros p' Hp'. destruct (Hall _ Hp') as (_ & H3 & _). cbn in H3. congruence.
Qed.
Print Assumptions C45_declared.

(** ** Cases *)
Definition os45 : list nsop := [NReg (lit "a") (lit "u"); NCn (lit "a:x"); NUpd [(lit "a", lit "v"); (lit "b", lit "u")]].
Example C45_expand_case :
  prefixed (lit "a") (lit "x") (lit "a:x") /\ bound (registrations os45) (lit "a") (lit "v") /\
  (cn (lit "a:x") (ns_run os45 ns_empty)).2 = Ok (lit "{v}x").
Proof.
  split_and!.
  - split_and!; [done|dec_vm|dec_vm|done].
  - exists [(lit "a", lit "u")], [(lit "b", lit "u")]. split; [done|]. intros u' H. by apply elem_of_list_singleton in H.
  - by_vm.
Qed.
Example C45_cache_case :
  (cn (lit "a:x") (ns_run (take 1 os45) ns_empty)).2 = Ok (lit "{u}x") /\ (cn (lit "{u}x") (ns_run os45 ns_empty)).2 = Ok (lit "{u}x").
Proof. split; by_vm. Qed.
Example C45_injective_case :
  (forall p u, bound (registrations os45) p u -> 125%N ∉ u) /\
  (forall p p' u, bound (registrations os45) p u -> bound (registrations os45) p' u -> p = p').
Proof.
  assert (Hb : forall p u, bound (registrations os45) p u <-> (p, u) ∈ map_to_list (prefix2uri (ns_new (registrations os45)))).
  { intros p u. rewrite elem_of_map_to_list. apply bound_lookup. }
  assert (H1 : Forall (fun pu => 125%N ∉ pu.2 /\ uri2prefix (ns_new (registrations os45)) !! pu.2 = Some pu.1) (map_to_list (prefix2uri (ns_new (registrations os45))))) by dec_vm.
  pose proof (proj1 (@Forall_forall (pystr * pystr) _ _) H1) as H1'. clear H1. rename H1' into H1. split.
  - intros p u H%Hb. by apply H1 in H as [? _].
  - intros p p' u H%Hb H'%Hb. apply H1 in H as (_ & H). apply H1 in H' as (_ & H'). cbn in H, H'. congruence.
Qed.
Local Transparent XML ALL_NSMAP STYLES_NSMAP.
Example C45_odf_case :
  lit "table" ∈ map fst ALL_NSMAP /\
  (cn (lit "table:table-cell") XML).2 = Ok (lit "{urn:oasis:names:tc:opendocument:xmlns:table:1.0}table-cell").
Proof. split; [dec_vm|by_vm]. Qed.

Example C45_declared_case : (lit "svg", lit "urn:oasis:names:tc:opendocument:xmlns:svg-compatible:1.0") ∈ STYLES_NSMAP /\
  prefixed (lit "svg") (lit "width") (lit "svg:width").
Proof. split; [dec_vm|split_and!; [done|dec_vm|dec_vm|done]]. Qed.
(** Two prefixes with one uri: different names get the same expansion. *)
Theorem C45_injective_counterexample :
  exists (os : list nsop) (t t' c : pystr), t <> t' /\ head t <> Some 123%N /\ head t' <> Some 123%N /\
    (cn t (ns_run os ns_empty)).2 = Ok c /\ (cn t' (ns_run os ns_empty)).2 = Ok c.
Proof.
  exists [NReg (lit "a") (lit "u"); NReg (lit "b") (lit "u")], (lit "a:x"), (lit "b:x"), (lit "{u}x").
  split_and!; [done|done|done|by_vm|by_vm].
Qed.
Print Assumptions C45_injective_counterexample.
