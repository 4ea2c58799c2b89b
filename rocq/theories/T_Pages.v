(** C43: sheets and pages behave like a list with names. *)
From Verif Require Import PagesProofs.

(** len, iteration, names, [[i]], [['name']] *)
Theorem C43_read (p : container) (w : node) :
  wfs w ->
  pc_len p w = length (pages p w) /\
  pc_iter p w = pages p w /\
  pc_names p w = map (name_of p w) (pages p w) /\
  (forall k, pc_get p k w = (w, find_page (name_of p w) k (pages p w))) /\
  (** a page found by its name is the first one with it *)
  (forall s c, first_named (name_of p w) s (pages p w) = Some c <->
     exists n, pages p w !! n = Some c /\ name_of p w c = Some s /\
       forall m d, m < n -> pages p w !! m = Some d -> name_of p w d <> Some s).
Proof.
  intros Hw. split_and!.
  - rewrite <- xmlchildren_pages by done. unfold pc_len. by rewrite map_length.
  - by apply xmlchildren_pages.
  - by apply names_pages.
  - intros k. by apply pc_get_eq.
  - intros s c. generalize (pages p w) as l. induction l as [|x l IH]; cbn.
    + split; [done|]. by intros (n & ? & _).
    + case_decide as E; split.
      * intros [= <-]. exists 0. split_and!; [done|done|lia].
      * intros (n & H1 & H2 & H3). destruct n as [|n]; [done|]. exfalso. by apply (H3 0 x ltac:(lia) eq_refl).
      * intros H. apply IH in H as (n & H1 & H2 & H3). exists (S n). split_and!; [done|done|].
        intros [|m] d Hm Hd; [injection Hd as <-; done|]. apply (H3 m); [lia|done].
      * intros (n & H1 & H2 & H3). apply IH. destruct n as [|n]; [cbn in H1; congruence|].
        exists n. split_and!; [done|done|]. intros m d Hm Hd. apply (H3 (S m)); [lia|done].
Qed.
Print Assumptions C43_read.

(** append and [+=]: at the end of the list; the other children of the body stay *)
Theorem C43_append (p : container) (w : node) (c : wobj) :
  wfs w -> element (pc_body p) w ->
  (w_TAG c <> Some (childtag p) -> pc_append p c w = (w, Err TypeError)) /\
  (w_TAG c = Some (childtag p) -> page p w (w_node c) ->
   exists w', pc_append p c w = (w', Ok (w_node c)) /\ wfs w' /\
     pages p w' = without (w_node c) (pages p w) ++ [w_node c] /\ others p w' = others p w).
Proof.
  intros Hw Hb. destruct c as [c t]. cbn [w_TAG w_node]. split.
  - intros H. unfold pc_append, is_valid_child. cbn. destruct t as [t|]; [|done].
    by rewrite bool_decide_eq_false_2 by (intros ->; done).
  - intros -> Hc. destruct (append_page w p c Hw Hb Hc) as (w' & H1 & H2 & H3 & H4). exists w'.
    split_and!; [done| |done|done]. destruct H2 as [H2 _]. by eapply placed_wfs.
Qed.
Print Assumptions C43_append.

(** [[key] = page] *)
Theorem C43_set (p : container) (w : node) (k : pkey) (c : wobj) :
  wfs w -> element (pc_body p) w ->
  (w_TAG c <> Some (childtag p) -> pc_set p k c w = (w, Err TypeError)) /\
  (w_TAG c = Some (childtag p) -> page p w (w_node c) ->
   match find_page (name_of p w) k (pages p w) with
   | Ok old => exists w', pc_set p k c w = (w', Ok tt) /\ wfs w' /\
       pages p w' = put_page old (w_node c) (pages p w) /\ others p w' = others p w
   | Err e => pc_set p k c w = (w, Err e)
   end).
Proof.
  intros Hw Hb. destruct c as [c t]. cbn [w_TAG w_node]. split.
  - intros H. unfold pc_set, is_valid_child. cbn. destruct t as [t|]; [|done].
    by rewrite bool_decide_eq_false_2 by (intros ->; done).
  - intros -> Hc. pose proof (set_page w p k c Hw Hb Hc) as H.
    destruct (find_page (name_of p w) k (pages p w)) as [old|e]; [|done].
    destruct H as (w' & H1 & H2 & H3 & H4). exists w'.
    split_and!; [done| |done|done]. destruct H2 as [H2 _]. by eapply placed_wfs.
Qed.
Print Assumptions C43_set.

(** [del [key]] *)
Theorem C43_del (p : container) (w : node) (k : pkey) :
  wfs w -> element (pc_body p) w ->
  match find_page (name_of p w) k (pages p w) with
  | Ok old => exists w', pc_del p k w = (w', Ok tt) /\ wfs w' /\
      pages p w' = without old (pages p w) /\ others p w' = others p w
  | Err e => pc_del p k w = (w, Err e)
  end.
Proof.
  intros Hw Hb. pose proof (del_page w p k Hw Hb) as H.
  destruct (find_page (name_of p w) k (pages p w)) as [old|e]; [|done].
  destruct H as (w' & H1 & H2 & H3 & H4). exists w'.
  split_and!; [done| |done|done]. destruct H2 as [H2 _]. by eapply placed_wfs.
Qed.
Print Assumptions C43_del.

(** All histories of lookup, assignment, deletion and append: results and exceptions are
    those of the list with names, and the pages are the list. *)
Theorem C43_history (p : container) (os : list pop) (w : node) :
  wfs w -> element (pc_body p) w -> Forall (fun o => Forall (page p w) (pop_page o)) os ->
  exists w', pc_run p os w = (w', (list_run (name_of p w) os (pages p w)).2) /\
    pages p w' = (list_run (name_of p w) os (pages p w)).1 /\
    pc_names p w' = map (name_of p w) (pages p w') /\ others p w' = others p w /\ wfs w'.
Proof.
  intros Hw Hb H. destruct (pc_run_ref p w os w (pinv_refl p w Hw Hb) H) as (w' & H1 & H2 & H3).
  exists w'. destruct H2 as (Hw' & _ & Hd & He & _ & Ho). split_and!; [done|done| |done|done].
  rewrite names_pages by done. apply map_ext_in. intros c Hc. apply elem_of_list_In in Hc.
  unfold name_of. destruct (page_in_pages p w' c Hw' Hc) as (Hc1 & _). by destruct (Hd c (He c Hc1)) as [_ ->].
Qed.
Print Assumptions C43_history.

(** index: other children of the body before the page are counted, too *)
Theorem C43_index (p : container) (w : node) (n : nat) (c : N) :
  wfs w -> pages p w !! n = Some c ->
  exists i, pc_index p c w = (w, Ok (Z.of_nat i)) /\ children (pc_body p) w !! i = Some c /\
    i = n + length (filter (fun d => ~ tagged (childtag p) w d) (take i (children (pc_body p) w))) /\
    (others p w = [] -> i = n).
Proof.
  intros Hw Hn. unfold pc_index. rewrite el_index_eq.
  destruct (list_find (fun y => y = c) (children (pc_body p) w)) as [[i y]|] eqn:E.
  - apply list_find_pos in E as [_ Hi]. exists i.
    assert (Hcount : i = n + length (filter (fun d => ~ tagged (childtag p) w d) (take i (children (pc_body p) w)))).
    { unfold pages in Hn. pose proof (children_NoDup w (pc_body p) Hw) as Hnd. revert n i Hn Hi Hnd.
      generalize (children (pc_body p) w) as l. induction l as [|x l IH]; intros n i Hn Hi Hnd; [done|].
      apply NoDup_cons in Hnd as [Hx Hnd]. rewrite filter_cons in Hn. destruct i as [|i].
      - injection Hi as ->. rewrite take_0. cbn [length]. rewrite filter_nil. cbn [length].
        destruct (decide (tagged (childtag p) w c)) as [Ht|Ht].
        + destruct n; [lia|]. exfalso. apply Hx. cbn in Hn. apply elem_of_list_lookup_2 in Hn.
          by apply elem_of_list_filter in Hn as [_ ?].
        + exfalso. apply elem_of_list_lookup_2 in Hn. by apply elem_of_list_filter in Hn as [? _].
      - cbn in Hi. cbn [take]. rewrite filter_cons. destruct (decide (tagged (childtag p) w x)) as [Ht|Ht].
        + rewrite decide_False by tauto. destruct n as [|n].
          * exfalso. injection Hn as ->. apply Hx. by apply elem_of_list_lookup_2 in Hi.
          * rewrite (IH n i) at 1; [lia|done|done|done].
        + rewrite decide_True by done. cbn [length]. rewrite (IH n i) at 1; [lia|done|done|done]. }
    split_and!; [done|done|done|]. intros Ho. rewrite Hcount.
    assert (filter (fun d => ~ tagged (childtag p) w d) (take i (children (pc_body p) w)) = []) as ->; [|cbn; lia].
    apply elem_of_nil_inv. intros y' Hy. apply elem_of_list_filter in Hy as [Hy1 Hy2].
    apply elem_of_take in Hy2 as (j & Hj & _). apply elem_of_list_lookup_2 in Hj.
    assert (Hin : y' ∈ others p w) by (by apply elem_of_list_filter). rewrite Ho in Hin. by apply elem_of_nil in Hin.
  - exfalso. apply list_find_None in E. rewrite Forall_forall in E. apply elem_of_list_lookup_2, pages_child in Hn.
    by apply (E c Hn).
Qed.
Print Assumptions C43_index.

(** insert: a position in the body; a list position if the body has no other children *)
Theorem C43_insert (p : container) (w : node) (i : Z) (c : wobj) :
  wfs w -> element (pc_body p) w -> page p w (w_node c) ->
  exists w', pc_insert p i c w = (w', Ok (w_node c)) /\ wfs w' /\
    children (pc_body p) w' = put_at i (w_node c) (children (pc_body p) w) /\
    (others p w = [] -> pages p w' = put_at i (w_node c) (pages p w)).
Proof.
  intros Hw Hb (Hc & Ht & Hu). destruct c as [c t]. cbn [w_node] in *.
  destruct (el_insert_ok w (pc_body p) i c Hw Hb Hc Hu) as (w' & He & Hp). exists w'.
  unfold pc_insert, abind. cbn [w_node]. rewrite He. split_and!; [done|by eapply placed_wfs|by eapply placed_children|].
  intros Ho. assert (Hall : forall y, y ∈ children (pc_body p) w -> tagged (childtag p) w y).
  { intros y Hy. destruct (decide (tagged (childtag p) w y)) as [?|H]; [done|]. exfalso.
    assert (Hin : y ∈ others p w) by (by apply elem_of_list_filter). rewrite Ho in Hin. by apply elem_of_nil in Hin. }
  assert (Hpg : forall (l : list N) w1, (forall y, y ∈ l -> tagged (childtag p) w1 y) -> filter (tagged (childtag p) w1) l = l).
  { clear. intros l w1. induction l as [|y l IH]; intros H; [done|]. rewrite filter_cons_True by (apply H; left).
    f_equal. apply IH. intros z Hz. apply H. by right. }
  unfold pages at 2. rewrite (Hpg _ w Hall). unfold pages. rewrite (placed_children _ _ _ _ _ Hp). apply Hpg.
  intros y Hy. assert (y = c \/ y ∈ children (pc_body p) w) as [->|H].
  { unfold put_at in Hy. destruct (at_pos i (children (pc_body p) w)) as [t'|].
    - case_decide; [by right|]. clear -Hy. assert (y = c \/ y ∈ without c (children (pc_body p) w)) as [?|H].
      + revert Hy. generalize (without c (children (pc_body p) w)) as l. induction l as [|z l IH]; [by right|]. cbn.
        case_decide; rewrite !elem_of_cons; [tauto|]. intros [?|H']; [tauto|]. destruct (IH H'); tauto.
      + by left.
      + right. by apply without_in in H as [? _].
    - apply elem_of_app in Hy as [Hy|Hy]; [right; by apply without_in in Hy as [? _]|left; by apply elem_of_list_singleton in Hy]. }
  - unfold tagged. by rewrite (placed_data _ _ _ _ _ _ Hp Hc).
  - unfold tagged. rewrite (placed_data _ _ _ _ _ _ Hp) by (by apply child_element in H). by apply Hall.
Qed.
Print Assumptions C43_insert.

(** ** Cases: a body with a declaration and two sheets, and one sheet outside *)
Definition sheet43 (x : N) (s : string) : node :=
  T (L x (Nd "table:table" (<["table:name" := lit s]> ∅) None None)) [].
Definition w43 : node :=
  T (L 0 (Nd "" ∅ None None)) [
    T (L 1 (Nd "office:body" ∅ None None)) [
      T (L 2 (Nd "office:spreadsheet" ∅ None None)) [
        T (L 3 (Nd "table:calculation-settings" ∅ None None)) []; sheet43 4 "A"; sheet43 5 "B"]];
    sheet43 6 "C"; T (L 7 (Nd "text:p" ∅ None None)) []].
Definition p43 : container := sheets 2.
Lemma w43_wfs : wfs w43.
Proof. unfold wfs. dec_vm. Qed.
Lemma w43_page c : c ∈ [4; 5; 6]%N -> page p43 w43 c.
Proof.
  intros Hc. assert (He : element c w43).
  { unfold element. change (flat_map ids (kids w43)) with [1; 2; 3; 4; 5; 6; 7]%N. set_solver. }
  split_and!; [done| |].
  - unfold tagged. repeat (apply elem_of_cons in Hc as [->|Hc]; [by_vm|]). by apply elem_of_nil in Hc.
  - rewrite <- (above_spec w43 c (pc_body p43) w43_wfs He).
    repeat (apply elem_of_cons in Hc as [->|Hc]; [done|]). by apply elem_of_nil in Hc.
Qed.
Lemma w43_body : element (pc_body p43) w43.
Proof. unfold element. change (flat_map ids (kids w43)) with [1; 2; 3; 4; 5; 6; 7]%N. cbn. set_solver. Qed.

Example C43_read_case : wfs w43 /\ pages p43 w43 = [4; 5]%N /\ pc_names p43 w43 = [Some (lit "A"); Some (lit "B")] /\
  find_page (name_of p43 w43) (KStr (lit "B")) (pages p43 w43) = Ok 5%N /\
  find_page (name_of p43 w43) (KInt (-1)) (pages p43 w43) = Ok 5%N.
Proof. split_and!; [apply w43_wfs|by_vm..]. Qed.
Example C43_append_case : wfs w43 /\ element (pc_body p43) w43 /\ w_TAG (obj_of p43 6) = Some (childtag p43) /\ page p43 w43 6.
Proof. split_and!; [apply w43_wfs|apply w43_body|done|apply w43_page; set_solver]. Qed.
Example C43_set_case : wfs w43 /\ element (pc_body p43) w43 /\ page p43 w43 6 /\
  pages p43 (pc_set p43 (KStr (lit "A")) (obj_of p43 6) w43).1 = [6; 5]%N.
Proof. split_and!; [apply w43_wfs|apply w43_body|apply w43_page; set_solver|by_vm]. Qed.
Example C43_del_case : wfs w43 /\ element (pc_body p43) w43 /\ pages p43 (pc_del p43 (KInt 0) w43).1 = [5%N].
Proof. split_and!; [apply w43_wfs|apply w43_body|by_vm]. Qed.
Definition os43 : list pop := [PAppend 6; PGet (KStr (lit "C")); PSet (KInt 0) 6; PDel (KStr (lit "A")); PDel (KInt 0); PGet (KInt 1)].
Example C43_history_case : wfs w43 /\ element (pc_body p43) w43 /\ Forall (fun o => Forall (page p43 w43) (pop_page o)) os43 /\
  (pc_run p43 os43 w43).2 = [Ok (Some 6%N); Ok (Some 6%N); Ok None; Err KeyError; Ok None; Err IndexError].
Proof.
  split_and!; [apply w43_wfs|apply w43_body| |by_vm].
  unfold os43. repeat constructor; apply w43_page; set_solver.
Qed.
(** without the declaration *)
Definition w43' : node :=
  T (L 0 (Nd "" ∅ None None)) [T (L 2 (Nd "office:spreadsheet" ∅ None None)) [sheet43 4 "A"; sheet43 5 "B"]; sheet43 6 "C"].
Example C43_index_case : wfs w43 /\ pages p43 w43 !! 1 = Some 5%N /\ wfs w43' /\ pages p43 w43' !! 1 = Some 5%N /\ others p43 w43' = [].
Proof. split_and!; [apply w43_wfs|by_vm|unfold wfs; dec_vm|by_vm|by_vm]. Qed.
Example C43_insert_case :
  wfs w43' /\ element (pc_body p43) w43' /\ page p43 w43' 6 /\ others p43 w43' = [] /\
  pages p43 (pc_insert p43 1 (obj_of p43 6) w43').1 = [4; 6; 5]%N.
Proof.
  assert (Hw : wfs w43') by (unfold wfs; dec_vm).
  assert (He : forall x, x ∈ [2; 4; 5; 6]%N -> element x w43') by done.
  split_and!; [done|apply He; cbn; set_solver| |by_vm|by_vm]. split_and!; [apply He; set_solver|unfold tagged; by_vm|].
  rewrite <- (above_spec w43' 6 (pc_body p43) Hw); [done|apply He; set_solver].
Qed.

(** The index of the first sheet is not 0 if a declaration precedes it. *)
Theorem C43_index_counterexample :
  exists p w c, wfs w /\ pc_get p (KInt 0) w = (w, Ok c) /\ pc_index p c w = (w, Ok 1%Z).
Proof.
  exists p43, w43, 4%N. split_and!; [apply w43_wfs| |];
    (apply pair_by; by_vm) || by_vm.
Qed.
Print Assumptions C43_index_counterexample.
(** A sheet inserted at 1 becomes the first sheet. *)
Theorem C43_insert_counterexample :
  exists p w c, wfs w /\ page p w (w_node c) /\ pages p w = [4; 5]%N /\
    pages p (pc_insert p 1 c w).1 = w_node c :: pages p w.
Proof.
  exists p43, w43, (obj_of p43 6). split_and!; [apply w43_wfs|apply w43_page; cbn; set_solver|by_vm|by_vm].
Qed.
Print Assumptions C43_insert_counterexample.
(** insert does not check the object: a node that is no sheet gets into the body. *)
Theorem C43_insert_check_counterexample :
  exists p w c, wfs w /\ pc_append p c w = (w, Err TypeError) /\
    (pc_insert p 0 c w).2 = Ok (w_node c) /\ others p (pc_insert p 0 c w).1 = w_node c :: others p w.
Proof.
  exists p43, w43, (WObj 7 (Some "text:p")). split_and!; [apply w43_wfs|done|by_vm|by_vm].
Qed.
Print Assumptions C43_insert_check_counterexample.
