(** C56: tables that are written and read again. *)
From Verif Require Import TableReload T_Table.

(** A loaded table has no repetitions, whatever the strategy; neither has a new one. *)
Theorem C56_loaded `{U : Unicode} (s : st) (x : N) (u : node) strat mc :
  ordered s -> x <> nid (store s) -> sub x (store s) = Some u -> max_ok strat mc -> good_table (erase u) ->
  Forall (good_rep "table:number-columns-repeated") (descendants "table:table-column" (erase u)) ->
  exists s', load strat mc x s = (s', Ok tt) /\ expanded s'.
Proof.
  intros [Hnd Hfr] Hx Hs Hm Hg Hc. destruct (sub_Some _ _ _ Hs) as (Hid & [->|[V HV]]); [congruence|].
  destruct (normalize_table_ok strat mc (erase u) Hm Hg) as (e1 & E1 & R1 & D1 & C1 & F1).
  destruct (expand_columns_ok strat mc.2 e1) as (e & E2 & R2 & C2 & D2 & F2); [intros Hst; by apply Hm|done|by rewrite C1|].
  destruct (load_ok s x V u e1 e strat mc HV Hid Hnd Hfr E1 E2 F2) as (s' & u' & E & HI & Eu & Hid' & _).
  exists s'. split; [done|]. exists u'. split; [by eapply Inv_table_node|]. split.
  - rewrite ltag_erase, Eu. unfold e_tag. rewrite R2, R1. apply Hg.
  - rewrite Eu. split.
    + pose proof (normal_rows_out strat mc _ _ Hg D1) as Hn. rewrite <- D2 in Hn. eapply Forall_impl; [exact Hn|].
      intros r (N1 & N2 & _). split; [by apply rep_no_repeat|]. eapply Forall_impl; [exact N2|]. intros c. apply rep_no_repeat.
    + fold COL REPC. rewrite C2, C1. by apply show_runs_single.
Qed.
Print Assumptions C56_loaded.

Theorem C56_new `{U : Unicode} (s : st) strat mc v nr nc :
  ordered s -> max_ok strat mc -> normalize_sheet_name v <> [] -> (1 <= nr)%Z -> (1 <= nc)%Z ->
  exists s', new_table strat mc v (nr, nc) s = (s', Ok tt) /\ sane s' /\ in_step s' /\
    sized s' (Z.to_nat nr) (Z.to_nat nc) /\ expanded s'.
Proof.
  intros [H1 H2] H3 H4 H5 H6. destruct (new_table_ok s strat mc v nr nc H1 H2 H4 H5 H6 H3) as (s' & W & t & E & HI & R & G & _).
  destruct (Inv_sane _ _ _ HI). pose proof (Inv_table_node _ _ _ HI) as Ht. exists s'. split_and!; try done.
  - exists t, (normalize_sheet_name v). destruct G as (G1 & G2 & G3 & G4). split_and!; try done; try lia.
    + by apply empty_rows_rect.
    + by rewrite R.
    + by rewrite normalize_idem.
  - exists t. split_and!; [done|unfold ltag; by rewrite R|]. apply unrepeated_parts.
    destruct G as (_ & _ & G3 & G4). split; [by eapply empty_rows_single|by apply empty_cols_single].
Qed.
Print Assumptions C56_new.

(** Calls with arguments in range that put nothing repeated into the table leave nothing
    repeated in it. *)
Theorem C56_history `{U : Unicode} (s s' : st) (z z' : nat * nat) :
  sane s -> in_step s -> sized s z.1 z.2 -> expanded s -> clean_history s z s' z' ->
  sane s' /\ in_step s' /\ sized s' z'.1 z'.2 /\ expanded s'.
Proof. intros H1 H2 H3 H4 Hh. by apply (clean_history_ok s z s' z' Hh). Qed.
Print Assumptions C56_history.

(** Such a table, found anywhere in another document, is loaded as it is under every strategy:
    the same size and the same elements, rows, cells and all else. *)
Theorem C56_reload `{U : Unicode} (s s' s2 : st) (z z' : nat * nat) (t u : node) (x : N) strat mc :
  sane s -> in_step s -> sized s z.1 z.2 -> expanded s -> clean_history s z s' z' -> table_node s' = Some t ->
  ordered s2 -> x <> nid (store s2) -> sub x (store s2) = Some u -> erase u = erase t -> max_ok strat mc ->
  exists s3 u', load strat mc x s2 = (s3, Ok tt) /\ sane s3 /\ in_step s3 /\ table_node s3 = Some u' /\
    erase u' = erase t /\ sized s3 z'.1 z'.2 /\ expanded s3 /\
    nrows s3 = (s3, Ok (Z.of_nat z'.1)) /\ ncols s3 = (s3, Ok (Z.of_nat z'.2)) /\
    (forall i j, option_map erase (cell_at u' i j) = option_map erase (cell_at t i j)) /\
    erase (store s3) = erase (store s2).
Proof.
  intros H1 H2 H3 H4 Hh Ht Ho Hx Hu Eu Hm.
  destruct (clean_history_ok s z s' z' Hh H1 H2 H3 H4) as (_ & J1 & J2 & J3 & J4).
  destruct J4 as (t0 & Ht0 & Htag & Hun). rewrite Ht in Ht0. injection Ht0 as <-.
  destruct J3 as (t0 & nm & Ht0 & L1 & L2 & Hr & P1 & P2 & A1 & A2). rewrite Ht in Ht0. injection Ht0 as <-.
  destruct (reload_ok s' t z'.2 s2 x u strat mc J1 Ht Htag Hun Hr Hm Ho Hx Hu Eu) as (s3 & u' & V & E & HI & HV & Eu' & Hid).
  destruct (Inv_sane _ _ _ HI) as [S1 S2]. pose proof (Inv_table_node _ _ _ HI) as Hn3.
  assert (Hrows : map part_erase (doc_rows u') = map part_erase (doc_rows t)) by (by apply erase_doc_rows).
  assert (Hsz : sized s3 z'.1 z'.2).
  { exists u', nm. split_and!; try done.
    - rewrite <- L1. by rewrite <- (map_length part_erase), Hrows, map_length.
    - rewrite <- L2. by rewrite <- (map_length part_erase), (erase_doc_cols u' t Eu'), map_length.
    - unfold rect in *. apply Forall_lookup. intros i p Hp. assert (Hp2 : map part_erase (doc_rows u') !! i = Some (part_erase p)) by (by rewrite list_lookup_fmap, Hp).
      rewrite Hrows, list_lookup_fmap in Hp2. destruct (doc_rows t !! i) as [q|] eqn:Eq; [|done]. injection Hp2 as _ E2.
      apply (f_equal length) in E2. rewrite !map_length in E2. rewrite <- E2. rewrite Forall_lookup in Hr. by apply (Hr i).
    - by rewrite <- erase_root, Eu', erase_root. }
  exists s3, u'. destruct (C13_sizes s3 z'.1 z'.2 s3 (z'.1, z'.2) S1 S2 Hsz (sh_refl _ _)) as (_ & _ & _ & N1 & N2).
  split_and!; try done.
  - exists u'. rewrite Eu'. split_and!; [done| |done]. by rewrite ltag_erase, Eu', <- ltag_erase.
  - intros i j. unfold cell_at. assert (Hl : map part_erase (doc_rows u') !! i = map part_erase (doc_rows t) !! i) by (by rewrite Hrows).
    rewrite !list_lookup_fmap in Hl. destruct (doc_rows u' !! i) as [p|], (doc_rows t !! i) as [q|]; try done.
    injection Hl as _ E2. apply (f_equal (fun l => l !! j)) in E2. change (map erase ?l) with (erase <$> l) in E2. by rewrite !list_lookup_fmap in E2.
  - destruct HI as [HS]. rewrite HV, HS. apply erase_plug1. by rewrite Eu.
Qed.
Print Assumptions C56_reload.

(** Not so after a cell with a repetition attribute has been put into the table: it counts as
    one cell until the table is read again. *)
Theorem C56_repeated_counterexample :
  exists (s s' s3 : st) (o : op) (t : node) (x : N),
    sane s /\ in_step s /\ sized (U := ascii_unicode) s 3 3 /\ expanded (U := ascii_unicode) s /\
    fits (U := ascii_unicode) o s 3 3 /\ run_op (U := ascii_unicode) o s = (s', Ok tt) /\
    table_node s' = Some t /\ nid t = x /\ ordered s' /\
    load (U := ascii_unicode) ExpandAll (32, 32)%Z x s' = (s3, Ok tt) /\
    ncols s' = (s', Ok 3%Z) /\ ncols s3 = (s3, Ok 4%Z).
Proof.
  destruct demo_ok as (t & H1 & H2 & H3 & H4 & H5 & _). pose proof demo_sized as H6.
  set (o := OSetNew (0, 1)%Z (e_set "table:number-columns-repeated" (lit "2") (new_elem "table:table-cell"))).
  assert (Hf : fits (U := ascii_unicode) o demo 3 3).
  { split; [exists 0, 1; split; left; cbn; lia|]. split; [split_and!; done|by left]. }
  destruct (fits_run (U := ascii_unicode) o demo 3 3 H1 H2 H6 Hf) as (s' & E & S1 & S2 & S3).
  assert (Es : s' = (run_op (U := ascii_unicode) o demo).1) by (by rewrite E).
  pose proof S1 as S1'. destruct S1' as (O1 & O2 & _ & t' & Ht' & _).
  exists demo, s', (load (U := ascii_unicode) ExpandAll (32, 32)%Z (nid t') s').1, o, t', (nid t').
  split; [exact H1|]. split; [exact H2|]. split; [exact H6|].
  split. { exists t. split; [exact H3|]. split; [unfold ltag; by rewrite H5|]. apply (unrepeated_parts (U := ascii_unicode)).
    destruct H4 as (_ & _ & G3 & G4). split; [by eapply (empty_rows_single (U := ascii_unicode))|by apply (empty_cols_single (U := ascii_unicode))]. }
  split; [exact Hf|]. split; [exact E|]. split; [exact Ht'|]. split; [done|]. split; [by split|].
  subst s'. clear -Ht'. vm_compute in Ht'. injection Ht' as <-. split; [apply pair_by; vm_compute; reflexivity|]. split; vm_compute; reflexivity.
Qed.
Print Assumptions C56_repeated_counterexample.

(** ** Cases *)
(** rows and columns come and go, a cell is placed and written *)
Definition text_cell : elem := e_set "office:value-type" (lit "string") (new_elem "table:table-cell").
Definition ops56 : list (op * (nat * nat)) :=
  [(OAppendCols 2, (3, 3)); (OSetNew (0, 4)%Z text_cell, (3, 5)); (ODeleteRows 1 1, (3, 5));
   (OWrite (-1, -1)%Z (e_set "office:value" (lit "7")), (2, 5))].
Lemma demo_expanded : expanded (U := ascii_unicode) demo.
Proof.
  destruct demo_ok as (t & H1 & H2 & H3 & H4 & H5 & _). exists t. split; [exact H3|]. split; [unfold ltag; by rewrite H5|].
  apply (unrepeated_parts (U := ascii_unicode)).
  destruct H4 as (_ & _ & G3 & G4). split; [by eapply (empty_rows_single (U := ascii_unicode))|by apply (empty_cols_single (U := ascii_unicode))].
Qed.
Example C56_history_case :
  sane demo /\ in_step demo /\ sized (U := ascii_unicode) demo 3 3 /\ expanded (U := ascii_unicode) demo /\
  clean_history (U := ascii_unicode) demo (3, 3) (foldl (fun s o => (run_op (U := ascii_unicode) o.1 s).1) demo ops56) (2, 5).
Proof.
  destruct demo_ok as (t & H1 & H2 & _). split; [exact H1|]. split; [exact H2|]. split; [exact demo_sized|]. split; [exact demo_expanded|].
  cbn [foldl ops56 fst].
  eapply (ch_step _ _ _ 2 5); [eapply (ch_step _ _ _ 3 5); [eapply (ch_step _ _ _ 3 5); [eapply (ch_step _ _ _ 3 3); [constructor| |]| |]| |]| |]; cbn [fits clean].
  - lia.
  - done.
  - split; [exists 0, 4; split; left; cbn; lia|]. split; [by split_and!|by left].
  - intros s E. vm_compute in E. done.
  - split; [lia|]. exists 1. split; [left; lia|lia].
  - done.
  - split; [exists 1, 4; split; right; cbn; lia|]. intros [[tg at' tx tl] ks] He. exact He.
  - intros [[tg at' tx tl] ks] He s E. apply (He s). unfold e_get, e_set in *. cbn in *. by rewrite lookup_insert_ne in E.
Qed.
Example C56_reload_case : ordered demo /\ max_ok ExpandAllLessMaxCount (32, 32)%Z /\ rt (obj demo) <> nid (store demo).
Proof. destruct demo_ok as (t & H1 & _). pose proof H1 as (O1 & O2 & O3 & _). split; [by split|]. split; [done|exact O3]. Qed.
Example C56_loaded_case : exists t, sub (rt (obj demo)) (store demo) = Some t /\ good_table (U := ascii_unicode) (erase t).
Proof.
  destruct demo_ok as (t & H1 & H2 & H3 & H4 & H5 & _). exists t. split; [exact H3|].
  destruct H1 as (_ & _ & _ & t' & Ht' & Hn). rewrite H3 in Ht'. injection Ht' as <-.
  destruct demo_expanded as (t' & Ht' & T1 & T2 & _). rewrite H3 in Ht'. injection Ht' as <-.
  split_and!; [by rewrite <- ltag_erase|by apply flat_no_nesting|]. eapply Forall_impl; [exact T2|].
  intros r [R1 R2]. split; [intros s E; exists 1%Z; by split; [|apply R1]|].
  eapply Forall_impl; [exact R2|]. intros c R s E. exists 1%Z. by split; [|apply R].
Qed.
Example C56_new_case : ordered s0 /\ normalize_sheet_name (U := ascii_unicode) (lit "t") <> [].
Proof. split; [split; dec_vm|by_vm || (apply (bool_decide_unpack _); vm_compute; exact I)]. Qed.
