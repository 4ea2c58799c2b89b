(** Theorem C19: cell spans. *)
From Verif Require Import CellSpanProofs T_Table.

Local Arguments label : simpl never.
Local Arguments edit : simpl never.
Local Arguments sub : simpl never.
Local Arguments ldesc : simpl never.
Local Arguments ids : simpl never.

Lemma denotes_idx `{Unicode} key r c : denotes key r c -> get_cell_index key = Ok (r, c).
Proof. intros [->|(w & Hw & Hr & ->)]; [done|]. cbn. by apply address_name. Qed.
Lemma Rch_rest `{Unicode} s W t Q s' : Inv s W t -> Rch s W t Q s' -> rest_kept s s'.
Proof.
  intros HI (W' & t' & HI' & G & R & _ & _). split; [rewrite (i_rt _ _ _ HI), (i_rt _ _ _ HI'); unfold nid; by rewrite R|].
  intros m. rewrite (around_eq _ _ _ _ HI), (around_eq _ _ _ _ HI'). by apply grow_kids_root.
Qed.

(** [set_cell_span] gives the cell at the position the span, covers the others of the
    rectangle, and changes no other cell, row, column or anything outside of the table. *)
Theorem C19_set_span `{Unicode} :
  forall s t nc key r c h w, sheet s t nc -> denotes key (Z.of_nat r) (Z.of_nat c) ->
    1 <= h -> 1 <= w -> (h, w) <> (1, 1) -> r + h <= length (doc_rows t) -> c + w <= nc ->
    (forall i j x, in_rect r c h w i j -> cell_at t i j = Some x -> cell_spans x 1 1) ->
    exists s' t', set_cell_span key (Z.of_nat h, Z.of_nat w) s = (s', Ok tt) /\ sheet s' t' nc /\ rest_kept s s' /\
      cells_changed (fun i j x => if decide ((i, j) = (r, c)) then master h w x
                                  else if decide (in_rect r c h w i j) then cover x else x) t t' /\
      (exists x', cell_at t' r c = Some x' /\ cell_spans x' (Z.of_nat h) (Z.of_nat w)).
Proof.
  intros s t nc key r c h w (H1 & H2 & H3 & Hr & Hco) Hd Hh Hw Hne Hrh Hcw Hsp. destruct (to_Inv s t H1 H2 H3) as [W HI].
  destruct (set_span_ok s W t nc r c h w HI Hr Hco Hh Hw Hne Hrh Hcw Hsp) as (s' & E & HR).
  destruct (Rch_out _ _ _ _ _ HR) as (t' & I1 & I2 & I3 & I4 & C).
  exists s', t'. unfold sheet. split_and!; try done.
  - unfold set_cell_span, abind, alift. by rewrite (denotes_idx _ _ _ Hd).
  - by eapply cc_rect.
  - intros i j x Hx. destruct C as (_ & _ & _ & C). rewrite C in Hx.
    destruct (cell_at t i j) as [y|] eqn:Ey; [|done]. cbn in Hx. injection Hx as <-. unfold span_effect. case_decide; [left; unfold master; by rewrite lon_root_tag|].
    case_decide; [right; apply cover_tag|by eapply Hco].
  - by eapply Rch_rest.
  - destruct (cell_at_rect nc t r c) as [x Hx]; [done|lia|lia|]. exists (master h w x). split.
    + rewrite (cc_cell _ _ _ _ _ _ C Hx). unfold span_effect. by rewrite decide_True.
    + unfold cell_spans, spans, master. rewrite lon_root_pl. cbn [attrs]. split; right.
      * rewrite lookup_insert_ne, lookup_insert by done. eexists _, _. split; [done|]. split; [apply py_int_show_Z|lia].
      * rewrite lookup_insert. eexists _, _. split; [done|]. split; [apply py_int_show_Z|lia].
Qed.
Print Assumptions C19_set_span.

(** [remove_cell_span] makes all cells of the rectangle normal cells, takes the span from
    the one at the position, and changes nothing else. *)
Theorem C19_remove_span `{Unicode} :
  forall s t nc key r c h w x, sheet s t nc -> denotes key (Z.of_nat r) (Z.of_nat c) ->
    cell_at t r c = Some x -> cell_spans x (Z.of_nat h) (Z.of_nat w) -> (h, w) <> (1, 1) ->
    is_Some (attrs (pl (root x)) !! "table:number-rows-spanned") ->
    is_Some (attrs (pl (root x)) !! "table:number-columns-spanned") ->
    r + h <= length (doc_rows t) -> c + w <= nc ->
    exists s' t', remove_cell_span key s = (s', Ok tt) /\ sheet s' t' nc /\ rest_kept s s' /\
      cells_changed (fun i j x => if decide ((i, j) = (r, c)) then unspan x
                                  else if decide (in_rect r c h w i j) then uncover x else x) t t'.
Proof.
  intros s t nc key r c h w x (H1 & H2 & H3 & Hr & Hco) Hd Hx Hsp Hne Ha Hb Hrh Hcw. destruct (to_Inv s t H1 H2 H3) as [W HI].
  destruct (remove_span_ok s W t nc r c h w x HI Hr Hco Hx Hsp Hne Ha Hb Hrh Hcw) as (s' & E & HR).
  destruct (Rch_out _ _ _ _ _ HR) as (t' & I1 & I2 & I3 & I4 & C).
  exists s', t'. unfold sheet. split_and!; try done.
  - unfold remove_cell_span, abind, alift. by rewrite (denotes_idx _ _ _ Hd).
  - by eapply cc_rect.
  - intros i j y Hy. destruct C as (_ & _ & _ & C). rewrite C in Hy.
    destruct (cell_at t i j) as [z|] eqn:Ez; [|done]. cbn in Hy. injection Hy as <-. unfold unspan_effect. case_decide; [left; unfold unspan; by rewrite lon_root_tag|].
    case_decide; [left; apply uncover_tag|by eapply Hco].
  - by eapply Rch_rest.
Qed.
Print Assumptions C19_remove_span.

Lemma unmarked_cell x : unmarked x -> ltag x = CELL /\ attrs (pl (root x)) !! RSPAN = None /\ attrs (pl (root x)) !! CSPAN = None /\
  attrs (pl (root x)) !! "table:number-matrix-columns-spanned" = None /\ attrs (pl (root x)) !! "table:number-matrix-rows-spanned" = None.
Proof. intros [H1 H2]. repeat (apply Forall_cons in H2 as [? H2]). done. Qed.
Lemma unmarked_span `{Unicode} x : unmarked x -> cell_spans x 1 1.
Proof. intros (_ & H1 & H2 & _)%unmarked_cell. by split; left. Qed.

(** Removing the span just set brings back rows, columns and cells. *)
Theorem C19_inverse `{Unicode} :
  forall s t nc key r c h w, sheet s t nc -> denotes key (Z.of_nat r) (Z.of_nat c) ->
    1 <= h -> 1 <= w -> (h, w) <> (1, 1) -> r + h <= length (doc_rows t) -> c + w <= nc ->
    (forall i j x, in_rect r c h w i j -> cell_at t i j = Some x -> unmarked x) ->
    exists s1 s2 t2, set_cell_span key (Z.of_nat h, Z.of_nat w) s = (s1, Ok tt) /\
      remove_cell_span key s1 = (s2, Ok tt) /\ sheet s2 t2 nc /\ rest_kept s1 s2 /\
      root t2 = root t /\ doc_rows t2 = doc_rows t /\ doc_cols t2 = doc_cols t.
Proof.
  intros s t nc key r c h w Hsh Hd Hh Hw Hne Hrh Hcw Hum.
  destruct (C19_set_span s t nc key r c h w Hsh Hd Hh Hw Hne Hrh Hcw) as (s1 & t1 & E1 & Hsh1 & _ & C1 & x1 & Hx1 & Hs1).
  { intros. by eapply unmarked_span, Hum. }
  pose proof (cc_length _ _ _ C1) as L1.
  destruct (cell_at_rect nc t r c) as [x Hx]; [apply Hsh|lia|lia|].
  assert (Ex1 : x1 = master h w x).
  { rewrite (cc_cell _ _ _ _ _ _ C1 Hx) in Hx1. rewrite decide_True in Hx1 by done. by injection Hx1. }
  destruct (C19_remove_span s1 t1 nc key r c h w x1 Hsh1 Hd Hx1 Hs1 Hne) as (s2 & t2 & E2 & Hsh2 & Hk & C2); try (rewrite ?L1; done).
  { rewrite Ex1. unfold master. rewrite lon_root_pl. cbn. rewrite lookup_insert_ne, lookup_insert by done. done. }
  { rewrite Ex1. unfold master. rewrite lon_root_pl. cbn. rewrite lookup_insert. done. }
  exists s1, s2, t2. pose proof (cc_trans _ _ _ _ _ C1 C2) as C. split_and!; try done; [apply C| |apply C].
  eapply cc_same; [exact C|]. intros i j y Hy. cbn beta. destruct Hsh as (_ & _ & _ & _ & Hco).
  assert (Hrc : in_rect r c h w r c) by (unfold in_rect; lia).
  case_decide as Hij.
  - injection Hij as -> ->. destruct (unmarked_cell y) as (Ht & A1 & A2 & _); [by eapply Hum|].
    unfold unspan, master. rewrite lon_root_comp. apply lon_root_id. unfold ltag in Ht.
    destruct (pl (root y)) as [tg at_ tx tl]. cbn in *. rewrite Ht. f_equal. unfold RSPAN, CSPAN in *.
    rewrite insert_commute, delete_insert_delete by done. rewrite delete_insert_ne by done. rewrite delete_insert by (by rewrite lookup_delete_ne).
    by apply delete_notin.
  - case_decide as Hin; [|done]. destruct (unmarked_cell y) as (Ht & A1 & A2 & A3 & A4); [by eapply Hum|].
    unfold uncover, cover. rewrite decide_False by (rewrite Ht; done). rewrite lon_root_comp. apply lon_root_id. unfold ltag in Ht.
    destruct (pl (root y)) as [tg at_ tx tl]. cbn in *. rewrite Ht. f_equal. unfold RSPAN, CSPAN in *. rewrite !delete_notin; try done; rewrite ?lookup_delete_ne; done.
Qed.
Print Assumptions C19_inverse.

(** Refused spans: a negative position, a size below 1, a rectangle that leaves the table,
    one with a cell that has a span.  Nothing changes.  A cell without span has none to
    remove. *)
Theorem C19_rejected `{Unicode} :
  forall s t nc key r c h w, sheet s t nc -> denotes key r c ->
    ((r < 0 \/ c < 0 \/ h < 1 \/ w < 1)%Z -> set_cell_span key (h, w) s = (s, Err NameError)) /\
    ((0 <= r /\ 0 <= c /\ 1 <= h /\ 1 <= w)%Z -> (r + h > Z.of_nat (length (doc_rows t)) \/ c + w > Z.of_nat nc)%Z ->
       set_cell_span key (h, w) s = (s, Err ValueError)) /\
    ((0 <= r /\ 0 <= c /\ 1 <= h /\ 1 <= w)%Z ->
       (exists i j x, in_rect (Z.to_nat r) (Z.to_nat c) (Z.to_nat h) (Z.to_nat w) i j /\ cell_at t i j = Some x /\ ~ cell_spans x 1 1) ->
       set_cell_span key (h, w) s = (s, Err ValueError)) /\
    (forall x, (0 <= r /\ 0 <= c)%Z -> cell_at t (Z.to_nat r) (Z.to_nat c) = Some x -> cell_spans x 1 1 ->
       remove_cell_span key s = (s, Ok tt)).
Proof.
  intros s t nc key r c h w (H1 & H2 & H3 & Hr & Hco) Hd. destruct (to_Inv s t H1 H2 H3) as [W HI].
  unfold set_cell_span, remove_cell_span, abind, alift. rewrite (denotes_idx _ _ _ Hd).
  assert (Hout : (0 <= r /\ 0 <= c /\ 1 <= h /\ 1 <= w)%Z -> (r + h > Z.of_nat (length (doc_rows t)) \/ c + w > Z.of_nat nc)%Z ->
    set_span (r, c) (h, w) s = (s, Err ValueError)).
  { intros (Pr & Pc & Ph & Pw) Ho. unfold set_span, abind.
    rewrite <- (Z2Nat.id r), <- (Z2Nat.id c), <- (Z2Nat.id h), <- (Z2Nat.id w) by lia.
    rewrite (check_ok s W t nc _ _ _ _ HI Hr) by lia. by rewrite decide_False by lia. }
  split_and!.
  - intros Hb. unfold set_span, check_pos_and_size, abind. case_decide; [done|]. by rewrite decide_True by lia.
  - exact Hout.
  - intros Hb Hex. destruct (decide (r + h > Z.of_nat (length (doc_rows t)) \/ c + w > Z.of_nat nc)%Z) as [Ho|Ho]; [by apply Hout|].
    rewrite <- (Z2Nat.id r), <- (Z2Nat.id c), <- (Z2Nat.id h), <- (Z2Nat.id w) by lia.
    eapply set_span_spanned; try done; lia.
  - intros x Hb Hx Hs. rewrite <- (Z2Nat.id r), <- (Z2Nat.id c) by lia. by eapply remove_span_none.
Qed.
Print Assumptions C19_rejected.

(** ** a case *)
Lemma grid_cell nr nc t i j x : is_grid nr nc t -> cell_at t i j = Some x -> erase x = new_elem "table:table-cell".
Proof.
  intros (_ & _ & G & _) Hx. unfold cell_at in Hx. destruct (doc_rows t !! i) as [p|] eqn:E; [|done].
  rewrite Forall_lookup in G. specialize (G _ _ E). unfold is_empty_row, part_erase in G. injection G as _ G.
  apply (f_equal (.!! j)) in G. change (map ?f ?l) with (f <$> l) in G. rewrite list_lookup_fmap, Hx in G. cbn in G.
  symmetry in G. apply lookup_replicate in G as [G _]. done.
Qed.
Lemma grid_unmarked nr nc t i j x : is_grid nr nc t -> cell_at t i j = Some x -> unmarked x.
Proof.
  intros G Hx. pose proof (grid_cell _ _ _ _ _ _ G Hx) as E. destruct x as [[y a] ks]. unfold new_elem in E. cbn in E. injection E as -> _.
  split; [done|]. repeat constructor.
Qed.

Example C19_case : exists t, sheet demo t 3 /\ denotes (RStr (lit "B2")) (Z.of_nat 1) (Z.of_nat 1) /\
  1 + 2 <= length (doc_rows t) /\ 1 + 2 <= 3 /\
  (forall i j x, in_rect 1 1 2 2 i j -> cell_at t i j = Some x -> unmarked x /\ cell_spans (U := ascii_unicode) x 1 1).
Proof.
  destruct demo_ok as (t & H1 & H2 & H3 & H4 & _). exists t. pose proof (grid_rect _ _ _ H4) as Hr. split.
  { split; [exact H1|]. split; [exact H2|]. split; [exact H3|]. split; [exact Hr|]. intros i j x Hx.
    destruct (grid_unmarked _ _ _ _ _ _ H4 Hx) as [Hu _]. left. exact Hu. }
  split.
  { right. exists (lit "B"). split; [|split; [clear; lia|vm_compute; reflexivity]].
    change (lit "B") with [66%N]. change (Z.of_nat 1) with (Z.of_N 66 - 65)%Z. constructor. clear. lia. }
  split; [destruct H4 as (L & _); rewrite L; clear; lia|]. split; [clear; lia|].
  intros i j x _ Hx. pose proof (grid_unmarked _ _ _ _ _ _ H4 Hx) as Hu. split; [exact Hu|]. apply unmarked_span. exact Hu.
Qed.
(** what [C19_remove_span] asks for *)
Example C19_case_remove : exists s t x, sheet s t 3 /\ cell_at t 1 1 = Some x /\ cell_spans (U := ascii_unicode) x (Z.of_nat 2) (Z.of_nat 2) /\
  is_Some (attrs (pl (root x)) !! "table:number-rows-spanned") /\ is_Some (attrs (pl (root x)) !! "table:number-columns-spanned").
Proof.
  destruct C19_case as (t & H1 & H2 & H3 & H4 & H5).
  destruct (C19_set_span (H := ascii_unicode) demo t 3 _ 1 1 2 2 H1 H2) as (s' & t' & _ & H6 & _ & C & x & Hx & Hs).
  { clear; lia. } { clear; lia. } { clear; congruence. } { exact H3. } { exact H4. } { intros i j x Hi Hx. by apply (H5 i j x). }
  exists s', t', x. split; [exact H6|]. split; [exact Hx|]. split; [exact Hs|]. destruct (cell_at_rect 3 t 1 1) as [y Hy]; [apply H1|clear -H3; lia|clear; lia|].
  rewrite (cc_cell _ _ _ _ _ _ C Hy) in Hx. rewrite decide_True in Hx by (clear; done). injection Hx as <-. clear.
  unfold master. rewrite lon_root_pl. cbn [attrs]. rewrite lookup_insert_ne, !lookup_insert by done. by split.
Qed.

(** ** What fails *)

(** A span of one cell cannot be set on a cell without the attributes: KeyError. *)
Theorem C19_single_cell_counterexample : exists (U : Unicode) s t, sheet s t 3 /\
  (set_cell_span (RTuple (0, 0)%Z) (1, 1)%Z s).2 = Err KeyError.
Proof. exists ascii_unicode, demo. destruct C19_case as (t & H1 & _). exists t. split; [exact H1|]. vm_compute. reflexivity. Qed.
Print Assumptions C19_single_cell_counterexample.
(** A cell covered by one span can become the corner of another. *)
Theorem C19_overlap_counterexample : exists (U : Unicode) s t, sheet s t 3 /\
  (set_cell_span (RTuple (0, 0)%Z) (2, 2)%Z s).2 = Ok tt /\
  (set_cell_span (RTuple (1, 1)%Z) (2, 2)%Z (set_cell_span (RTuple (0, 0)%Z) (2, 2)%Z s).1).2 = Ok tt.
Proof.
  exists ascii_unicode, demo. destruct C19_case as (t & H1 & _). exists t. split; [exact H1|]. split; vm_compute; reflexivity.
Qed.
Print Assumptions C19_overlap_counterexample.
(** With only one of the attributes, [remove_cell_span] raises KeyError. *)
Theorem C19_one_attribute_counterexample : exists (U : Unicode) s t, sheet s t 3 /\
  (remove_cell_span (RTuple (0, 0)%Z)
     (write_cell (0, 0)%Z (e_set "table:number-rows-spanned" (lit "2")) s).1).2 = Err KeyError.
Proof. exists ascii_unicode, demo. destruct C19_case as (t & H1 & _). exists t. split; [exact H1|]. vm_compute. reflexivity. Qed.
Print Assumptions C19_one_attribute_counterexample.
