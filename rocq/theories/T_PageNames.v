(** C65: renaming pages and sheets. *)
From Verif Require Import InjectProofs PageNamesProofs.

(** [page.name = s] changes the name of this page and nothing else; a name of which nothing is left
    is refused. *)
Theorem C65_rename `{U : Unicode} (p : container) (c : N) (s : pystr) (w : node) :
  wfs w -> element c w ->
  (clean_name p s = [] -> pc_rename p c s w = (w, Err ValueError)) /\
  (clean_name p s <> [] -> exists w', pc_rename p c s w = (w', Ok tt) /\ only_name p c (clean_name p s) w w' /\
     pages p w' = pages p w /\ others p w' = others p w /\
     pc_names p w' = map (fun d => if decide (d = c) then Some (clean_name p s) else name_of p w d) (pages p w)).
Proof.
  intros Hw Hc. split; [apply rename_empty|]. intros Hn.
  destruct (rename_ok p c s _ w Hw Hc eq_refl Hn) as (w' & H1 & H2). exists w'.
  destruct (only_name_pages _ _ _ _ _ H2) as [H3 H4]. split; [done|]. split; [done|]. split; [done|]. split; [done|].
  rewrite names_pages by apply H2. rewrite H3. apply map_ext. intros d. by apply only_name_name.
Qed.
Print Assumptions C65_rename.

(** A page of a drawing takes any name but the empty one as it is. *)
Theorem C65_names `{U : Unicode} (b : N) (s : pystr) :
  clean_name (pages_of b) s = s /\ clean_name (sheets b) s = normalize_sheet_name s.
Proof. done. Qed.
Print Assumptions C65_names.

(** All histories of lookup, assignment, deletion, append and renaming agree with a list of pages and
    a table of names. *)
Theorem C65_history `{U : Unicode} (p : container) (os : list nop) (w : node) :
  wfs w -> element (pc_body p) w -> Forall (fun o => Forall (page p w) (nop_page o)) os ->
  exists w' l nm rs, named_run (clean_name p) os (pages p w, name_of p w) = ((l, nm), rs) /\
    pn_run p os w = (w', rs) /\ pages p w' = l /\ pc_names p w' = map nm l /\ others p w' = others p w /\ wfs w'.
Proof.
  intros Hw Hb H. set (P := flat_map nop_page os).
  destruct (pn_run_ref p P (others p w) os (name_of p w) w) as (w' & E & I & Hp).
  - split; [done|]. split; [done|]. split; [|done]. apply Forall_forall. intros c Hc.
    apply elem_of_list_In, in_flat_map in Hc as (o & Ho & Hc). rewrite Forall_forall in H.
    specialize (H o ltac:(by apply elem_of_list_In)). rewrite Forall_forall in H. apply H. by apply elem_of_list_In.
  - apply Forall_forall. intros o Ho. apply Forall_forall. intros c Hc. apply elem_of_list_In, in_flat_map.
    exists o. by rewrite <- !elem_of_list_In.
  - exists w'. destruct (named_run (clean_name p) os (pages p w, name_of p w)) as [[l nm] rs]. cbn [fst snd] in *.
    exists l, nm, rs. destruct I as (I1 & I2 & I3 & I4 & I5). split; [done|]. split; [done|]. split; [done|].
    split; [|done]. rewrite names_pages by done. rewrite Hp. apply map_ext_in. intros c Hc. apply I5. right. rewrite Hp.
    by apply elem_of_list_In.
Qed.
Print Assumptions C65_history.

(** After renaming, the page is found under the cleaned name, unless a page before it has this name,
    and under no name that no page has. *)
Theorem C65_lookup `{U : Unicode} (p : container) (c : N) (s : pystr) (w w' : node) (n : nat) :
  wfs w -> pages p w !! n = Some c -> pc_rename p c s w = (w', Ok tt) ->
  ((forall m d, m < n -> pages p w !! m = Some d -> name_of p w d <> Some (clean_name p s)) ->
    pc_get p (KStr (clean_name p s)) w' = (w', Ok c)) /\
  (forall t, t <> clean_name p s -> (forall d, d ∈ pages p w -> d <> c -> name_of p w d <> Some t) ->
    pc_get p (KStr t) w' = (w', Err KeyError)).
Proof.
  intros Hw Hn Hr. pose proof (elem_of_list_lookup_2 _ _ _ Hn) as Hin.
  assert (Hc : element c w) by (by destruct (page_in_pages p w c Hw Hin)).
  destruct (C65_rename p c s w Hw Hc) as [He Ho]. destruct (decide (clean_name p s = [])) as [E|E].
  { rewrite (He E) in Hr. discriminate. }
  destruct (Ho E) as (w1 & Hr1 & H1 & H2 & H3 & _). rewrite Hr in Hr1. injection Hr1 as <-.
  pose proof H1 as (Hw' & _). rewrite (pc_get_eq p _ w' Hw').
  assert (Hnd : NoDup (pages p w)) by (apply NoDup_filter, children_NoDup; done). rewrite H2. split.
  - intros Hf. f_equal. cbn [find_page].
    assert (HF : first_named (name_of p w') (clean_name p s) (pages p w) = Some c); [|by rewrite HF].
    revert n Hn Hf. clear Hin Ho H2. induction (pages p w) as [|d l IH]; intros n Hn Hf; [done|]. cbn [first_named].
    apply NoDup_cons in Hnd as [Hd Hnd]. rewrite (only_name_name _ _ _ _ _ d H1). destruct n as [|n].
    + injection Hn as ->. rewrite (decide_True (P := c = c)) by done. by rewrite decide_True by done.
    + cbn in Hn. rewrite (decide_False (P := d = c)) by (intros ->; apply Hd; by apply elem_of_list_lookup_2 in Hn).
      rewrite decide_False by (apply (Hf 0 d); [lia|done]). apply (IH Hnd n Hn).
      intros m x Hm Hx. apply (Hf (S m)); [lia|done].
  - intros t Nt Hf. rewrite (pc_get_eq p _ w' Hw'), H2. f_equal. cbn [find_page].
    assert (HF : first_named (name_of p w') t (pages p w) = None); [|by rewrite HF].
    clear Hn Hin Hnd Ho H2. induction (pages p w) as [|d l IH]; [done|]. cbn [first_named]. rewrite decide_False.
    + apply IH. intros x Hx. apply Hf. by right.
    + rewrite (only_name_name _ _ _ _ _ d H1). case_decide; [congruence|]. apply Hf; [left|done].
Qed.
Print Assumptions C65_lookup.

(** DrawingPage(name): a page without parent, with this name; without a name there is none. *)
Theorem C65_new_page `{U : Unicode} (n b : N) (s : pystr) (w : node) :
  wfs w -> n ∉ ids w -> element b w ->
  let p := pages_of b in
  (new_drawing_page n s w).2 = (if decide (s = []) then Err ValueError else Ok n) /\
  (s <> [] -> exists w', new_drawing_page n s w = (w', Ok n) /\ wfs w' /\ page p w' n /\ name_of p w' n = Some s /\
     children n w' = [] /\ pages p w' = pages p w /\ others p w' = others p w /\
     (forall y, element y w -> sub y w' = sub y w)).
Proof.
  intros Hw Hn Hb p. unfold new_drawing_page. set (t := T (L n (Nd "draw:page" ∅ None None)) []).
  destruct (add_root_facts t w Hw) as (A1 & A2 & A3 & A4).
  { unfold t. cbn. apply NoDup_singleton. } { unfold t. cbn. intros y Hy. apply elem_of_list_singleton in Hy as ->. done. }
  assert (Hnt : n ∈ ids t) by (unfold t; cbn; left).
  assert (Hne : element n (add_root t w)) by (apply A4; by right).
  destruct s as [|x s].
  { rewrite rename_empty by done. split; [done|]. done. }
  destruct (rename_ok (pages_of 0) n (x :: s) (x :: s) (add_root t w) A1 Hne eq_refl ltac:(done)) as (w' & Hr & Ho).
  rewrite Hr. rewrite decide_False by done. split; [done|]. intros _. exists w'. split; [done|].
  assert (Ho' : only_name p n (x :: s) (add_root t w) w') by exact Ho. clear Ho Hr. rename Ho' into Ho.
  pose proof Ho as (O1 & O2 & O3 & O4 & O5).
  assert (Hcn : children n w' = []) by (rewrite O3; unfold children; rewrite A3 by done; unfold t; cbn; by rewrite decide_True by done).
  assert (Hbn : b <> n). { intros ->. apply Hn. by apply element_ids in Hb as [? _]. }
  assert (Hdat : forall y, element y w -> children y w' = children y w /\ data y w' = data y w).
  { intros y Hy. assert (y <> n) by (intros ->; apply Hn; by apply element_ids in Hy as [? _]).
    rewrite O3, O4 by done. unfold children, data. by rewrite A2. }
  assert (Htag : forall y, y ∈ children b w -> tagged "draw:page" w' y <-> tagged "draw:page" w y).
  { intros y Hy. unfold tagged. destruct (Hdat y) as [_ ->]; [|done]. by apply (child_element w b). }
  assert (Hpages : pages p w' = pages p w /\ others p w' = others p w).
  { destruct (Hdat b Hb) as [Hcb _]. unfold pages, others. cbn [pc_body childtag p pages_of]. rewrite Hcb. clear -Htag.
    induction (children b w) as [|y l IH]; [done|]. destruct IH as [I1 I2]; [intros z Hz; apply Htag; by right|].
    rewrite !filter_cons. pose proof (Htag y ltac:(left)) as Hy.
    destruct (decide (tagged "draw:page" w' y)) as [D|D], (decide (tagged "draw:page" w y)) as [D'|D']; try tauto;
      repeat case_decide; try tauto; split; congruence. }
  split; [done|]. split.
  { split; [by apply O2|]. split.
    - unfold tagged. destruct O5 as (d & D1 & D2). rewrite D2. cbn. f_equal. unfold data in D1. rewrite A3 in D1 by done.
      unfold t in D1. cbn in D1. rewrite decide_True in D1 by done. by injection D1 as <-.
    - intros Hu. assert (Hx : b = n); [|done]. cbn [pc_body p pages_of] in Hu. clear -Hu Hcn.
      remember n as m eqn:E in Hu. induction Hu as [y|a y z Hu IH Hz]; [done|]. subst. rewrite (IH eq_refl) in Hz by done.
      rewrite Hcn in Hz. by apply elem_of_nil in Hz. }
  split. { rewrite (only_name_name _ _ _ _ _ n Ho). by rewrite decide_True. }
  split; [done|]. split; [apply Hpages|]. split; [apply Hpages|].
  intros y Hy. destruct (element_sub w y Hw Hy) as [k Hk]. rewrite Hk, <- (sub_nid _ _ _ Hk). apply InjectProofs.rebuild.
  - done.
  - by apply (sub_wfs w y).
  - intros z Hz. assert (He : element z w).
    { apply element_ids; [done|]. pose proof (sub_ids _ _ _ Hk z Hz) as Hzi. split; [done|]. intros ->.
      apply (sub_upwards w y k) in Hz; [|done|done]. apply element_ids in Hy as [_ Hy]; [|done].
      inversion Hz as [|? ? ? _ Hch]; subst; [done|]. apply child_element in Hch. by apply element_ids in Hch as [_ ?]. }
    destruct (Hdat z He) as [-> ->]. split; [by apply (sub_children w y k)|].
    destruct (view_at k z Hz) as (d & Hv & ->). apply (view_spec w z d (children z k) Hw).
    by apply (sub_view_incl w y k).
Qed.
Print Assumptions C65_new_page.

(** ** Cases: a body with a declaration and two sheets, one sheet outside; a drawing with a page *)
Local Existing Instance ascii_unicode.
Definition page65 (x : N) (tg at_ s : string) : node := T (L x (Nd tg {[at_ := lit s]} None None)) [].
Definition sheet65 (x : N) (s : string) : node := page65 x "table:table" "table:name" s.
Definition w65 : node :=
  T (L 0 (Nd "" ∅ None None)) [
    T (L 2 (Nd "office:spreadsheet" ∅ None None)) [
      T (L 3 (Nd "table:calculation-settings" ∅ None None)) []; sheet65 4 "A"; sheet65 5 "B"];
    sheet65 6 "C";
    T (L 7 (Nd "office:drawing" ∅ None None)) [page65 8 "draw:page" "draw:name" "P"]].
Definition p65 : container := sheets 2.
Lemma w65_wfs : wfs w65.
Proof. unfold wfs. dec_vm. Qed.
Lemma w65_element c : c ∈ [2; 3; 4; 5; 6; 7; 8]%N -> element c w65.
Proof. done. Qed.
Lemma w65_page c : c ∈ [4; 5; 6]%N -> page p65 w65 c.
Proof.
  intros Hc. assert (He : element c w65).
  { apply w65_element. repeat (apply elem_of_cons in Hc as [-> |Hc]; [set_solver|]). by apply elem_of_nil in Hc. }
  split; [done|]. split.
  - unfold tagged. repeat (apply elem_of_cons in Hc as [-> |Hc]; [by_vm|]). by apply elem_of_nil in Hc.
  - rewrite <- (above_spec w65 c (pc_body p65) w65_wfs He).
    repeat (apply elem_of_cons in Hc as [-> |Hc]; [done|]). by apply elem_of_nil in Hc.
Qed.
Example C65_rename_case : wfs w65 /\ element 4 w65 /\ clean_name p65 (lit " it's ") = lit "it s" /\ clean_name p65 (lit "' '") = [].
Proof. split; [apply w65_wfs|]. split; [apply w65_element; set_solver|]. split; by_vm. Qed.
Definition os65 : list nop :=
  [NName 6 (lit "A"); NList (PAppend 6); NList (PGet (KStr (lit "A"))); NName 4 (lit "D'E"); NList (PGet (KStr (lit "A")));
   NList (PGet (KStr (lit "D'E"))); NList (PDel (KStr (lit "D E"))); NName 5 (lit "  ")].
Example C65_history_case : wfs w65 /\ element (pc_body p65) w65 /\ Forall (fun o => Forall (page p65 w65) (nop_page o)) os65 /\
  (pn_run p65 os65 w65).2 = [Ok None; Ok (Some 6%N); Ok (Some 4%N); Ok None; Ok (Some 6%N); Err KeyError; Ok None; Err ValueError] /\
  pc_names p65 (pn_run p65 os65 w65).1 = [Some (lit "B"); Some (lit "A")].
Proof.
  split; [apply w65_wfs|]. split; [apply w65_element; cbn; set_solver|]. split; [|split; by_vm].
  unfold os65. repeat constructor; apply w65_page; set_solver.
Qed.
Example C65_lookup_case :
  pages p65 w65 !! 1 = Some 5%N /\ pc_rename p65 5 (lit "X'Y") w65 = ((pc_rename p65 5 (lit "X'Y") w65).1, Ok tt) /\
  name_of p65 w65 4 <> Some (clean_name p65 (lit "X'Y")) /\ clean_name p65 (lit "X'Y") <> lit "X'Y".
Proof. split; [by_vm|]. split; [apply pair_by; by_vm|]. split; dec_vm. Qed.
Example C65_new_page_case : wfs w65 /\ 9%N ∉ ids w65 /\ element 7 w65 /\ pages (pages_of 7) w65 = [8%N].
Proof. split; [apply w65_wfs|]. split; [dec_vm|]. split; [apply w65_element; set_solver|by_vm]. Qed.

(** Renaming does not check whether the name is taken; the later page cannot be found by its name. *)
Theorem C65_duplicate_counterexample :
  exists p w w', wfs w /\ pages p w = [4; 5]%N /\ pc_rename p 5 (lit "A") w = (w', Ok tt) /\
    pc_names p w' = [Some (lit "A"); Some (lit "A")] /\ pc_get p (KStr (lit "A")) w' = (w', Ok 4%N) /\
    pc_get p (KStr (lit "B")) w' = (w', Err KeyError).
Proof.
  exists p65, w65, (pc_rename p65 5 (lit "A") w65).1. split; [apply w65_wfs|]. split; [by_vm|].
  split; [apply pair_by; by_vm|]. split; [by_vm|]. split; apply injective_projections; by_vm.
Qed.
Print Assumptions C65_duplicate_counterexample.
(** A sheet is not found under the name that was assigned if the setter has changed the name. *)
Theorem C65_cleaned_counterexample :
  exists p w w' c s, wfs w /\ pc_rename p c s w = (w', Ok tt) /\ c ∈ pages p w' /\ (pc_get p (KStr s) w').2 = Err KeyError.
Proof.
  exists p65, w65, (pc_rename p65 5 (lit "it's") w65).1, 5%N, (lit "it's"). split; [apply w65_wfs|].
  split; [apply pair_by; by_vm|]. split; [|by_vm].
  assert (E : pages p65 (pc_rename p65 5 (lit "it's") w65).1 = [4; 5]%N) by by_vm. rewrite E. set_solver.
Qed.
Print Assumptions C65_cleaned_counterexample.
