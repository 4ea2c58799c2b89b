(** C46: wrapped nodes behave like a list of children. *)
From Verif Require Import WrapperProofs.

(** Reading. *)
Theorem C46_read (x : N) (w : node) :
  wr_iter x w = children x w /\
  wr_len x w = length (children x w) /\
  (forall i, get_child x i w = (w, match at_pos i (children x w) with Some c => Ok c | None => Err IndexError end)) /\
  (forall c, exists r, wr_index x c w = (w, r) /\
     match r with
     | Ok i => exists n, i = Z.of_nat n /\ children x w !! n = Some c /\ c ∉ take n (children x w)
     | Err e => e = ValueError /\ c ∉ children x w
     end) /\
  (wfs w -> forall t c, c ∈ wr_findall t x w <-> c ∈ children x w /\ tag <$> data c w = Some t).
Proof.
  split_and!.
  - apply el_kids_children.
  - rewrite <- el_kids_children. unfold wr_len. by rewrite map_length.
  - intros i. apply el_get_eq.
  - intros c. unfold wr_index. rewrite el_index_eq. eexists. split; [reflexivity|].
    destruct (list_find (fun y => y = c) (children x w)) as [[n y]|] eqn:E.
    + apply list_find_Some in E as (H1 & -> & H2). exists n. split_and!; [done|done|].
      intros H. apply elem_of_take in H as (j & Hj & Hlt). by apply (H2 j c).
    + split; [done|]. apply list_find_None in E. rewrite Forall_forall in E. intros H. by apply (E c H).
  - intros Hw t c. unfold wr_findall, data. rewrite <- el_kids_children, !elem_of_list_fmap. split.
    + intros (k & -> & Hk). apply elem_of_list_filter in Hk as [Ht Hk]. split; [by exists k|].
      rewrite (el_kids_sub w x) by done. cbn. by rewrite <- Ht.
    + intros [(k & -> & Hk) Ht]. rewrite (el_kids_sub w x) in Ht by done. injection Ht as Ht.
      exists k. split; [done|]. by apply elem_of_list_filter.
Qed.
Print Assumptions C46_read.

(** append, [+=] *)
Theorem C46_append (x c : N) (w : node) :
  wfs w -> element x w -> element c w ->
  (upwards w c x -> wr_append x c w = (w, Err ValueError)) /\
  (~ upwards w c x -> exists w', wr_append x c w = (w', Ok c) /\ placed x c (without c (children x w) ++ [c]) w w').
Proof.
  intros Hw Hx Hc. rewrite wr_append_eq. split; intros Hu.
  - by rewrite el_append_cycle.
  - destruct (el_append_ok w x c Hw Hx Hc Hu) as (w' & -> & H). by exists w'.
Qed.
Print Assumptions C46_append.

(** insert *)
Theorem C46_insert (x : N) (i : Z) (c : N) (w : node) :
  wfs w -> element x w -> element c w ->
  (upwards w c x -> wr_insert x i c w = (w, Err ValueError)) /\
  (~ upwards w c x -> exists w', wr_insert x i c w = (w', Ok c) /\ placed x c (put_at i c (children x w)) w w') /\
  (** a new child at a position from the list *)
  (c ∉ children x w -> forall n, n < length (children x w) -> (Z.of_nat n = i \/ Z.of_nat n = Z.of_nat (length (children x w)) + i)%Z ->
     put_at i c (children x w) = take n (children x w) ++ c :: drop n (children x w)) /\
  (** behind the list *)
  (c ∉ children x w -> (Z.of_nat (length (children x w)) <= i)%Z -> put_at i c (children x w) = children x w ++ [c]).
Proof.
  intros Hw Hx Hc. rewrite wr_insert_eq. split_and!.
  - intros Hu. by rewrite el_insert_cycle.
  - intros Hu. destruct (el_insert_ok w x i c Hw Hx Hc Hu) as (w' & -> & H). by exists w'.
  - intros Hn n Hl Hi. unfold put_at. destruct (lookup_lt_is_Some_2 _ _ Hl) as [t Ht].
    assert (at_pos i (children x w) = Some t) as ->.
    { unfold at_pos. repeat case_decide; try lia; (rewrite <- Ht; f_equal; lia). }
    rewrite decide_False by (intros ->; by apply Hn, elem_of_list_lookup_2 with n).
    rewrite without_notin by done. apply put_before_at; [by apply children_NoDup|done].
  - intros Hn Hi. unfold put_at, at_pos. rewrite decide_True by lia. rewrite lookup_ge_None_2 by lia.
    by rewrite without_notin.
Qed.
Print Assumptions C46_insert.

(** insert_before *)
Theorem C46_insert_before (x t c : N) (w : node) :
  wfs w -> element x w -> element c w ->
  (upwards w c x \/ t ∉ children x w -> insert_before x t c w = (w, Err ValueError)) /\
  (~ upwards w c x -> t ∈ children x w -> exists w', insert_before x t c w = (w', Ok c) /\
     placed x c (if decide (t = c) then children x w else put_before t c (without c (children x w))) w w').
Proof.
  intros Hw Hx Hc. split; [by apply insert_before_err|]. intros Hu Ht. by apply insert_before_ok.
Qed.
Print Assumptions C46_insert_before.

(** [x[i] = c] *)
Theorem C46_set (x : N) (i : Z) (c : N) (w : node) :
  wfs w -> element x w -> element c w ->
  (at_pos i (children x w) = None -> set_child x i c w = (w, Err IndexError)) /\
  (forall t, at_pos i (children x w) = Some t ->
     (upwards w c x -> set_child x i c w = (w, Err ValueError)) /\
     (~ upwards w c x -> exists w', set_child x i c w = (w', Ok tt) /\
        placed x c (if decide (t = c) then children x w else instead t c (without c (children x w))) w w') /\
     (c ∉ children x w -> exists n, (Z.of_nat n = i \/ Z.of_nat n = Z.of_nat (length (children x w)) + i)%Z /\
        instead t c (without c (children x w)) = <[n := c]> (children x w))).
Proof.
  intros Hw Hx Hc. rewrite set_child_eq. split; [by intros ->|]. intros t Ht. rewrite Ht. split_and!.
  - intros Hu. apply el_replace_err; auto.
  - intros Hu. apply el_replace_ok; try done. by eapply at_pos_in.
  - intros Hn. apply at_pos_nat in Ht as (n & Hl & Ht & Hi). exists n. split; [done|]. rewrite without_notin by done.
    apply instead_at; [by apply children_NoDup|done].
Qed.
Print Assumptions C46_set.

(** [del x[i]] *)
Theorem C46_del (x : N) (i : Z) (w : node) :
  wfs w -> element x w ->
  (at_pos i (children x w) = None -> del_child x i w = (w, Err IndexError)) /\
  (forall c, at_pos i (children x w) = Some c ->
     (exists w', del_child x i w = (w', Ok tt) /\ deleted x c w w') /\
     exists n, (Z.of_nat n = i \/ Z.of_nat n = Z.of_nat (length (children x w)) + i)%Z /\
       without c (children x w) = take n (children x w) ++ drop (S n) (children x w)).
Proof.
  intros Hw Hx. split; [apply el_delete_err|]. intros c Hc. split; [by apply el_delete_ok|].
  apply at_pos_nat in Hc as (n & Hl & Ht & Hi). exists n. split; [done|]. apply without_at; [by apply children_NoDup|done].
Qed.
Print Assumptions C46_del.

(** remove, replace, clear *)
Theorem C46_remove (x c : N) (w : node) :
  wfs w -> element x w ->
  (c ∉ children x w -> wr_remove x c w = (w, Err ValueError)) /\
  (c ∈ children x w -> exists w', wr_remove x c w = (w', Ok tt) /\ placed x c (without c (children x w)) w w').
Proof. intros Hw Hx. split; [apply el_remove_err|by apply el_remove_ok]. Qed.
Print Assumptions C46_remove.
Theorem C46_replace (x old new : N) (w : node) :
  wfs w -> element x w -> element new w ->
  (upwards w new x \/ old ∉ children x w -> wr_replace x old new w = (w, Err ValueError)) /\
  (~ upwards w new x -> old ∈ children x w -> exists w', wr_replace x old new w = (w', Ok tt) /\
     placed x new (if decide (old = new) then children x w else instead old new (without new (children x w))) w w').
Proof. intros Hw Hx Hn. split; [by apply el_replace_err|]. intros Hu Ho. by apply el_replace_ok. Qed.
Print Assumptions C46_replace.
Theorem C46_clear (x : N) (w : node) :
  wfs w -> element x w -> exists w', wr_clear x w = (w', Ok tt) /\ cleared x w w'.
Proof. apply el_clear_ok. Qed.
Print Assumptions C46_clear.

(** get_xmlroot: above the node, and a child of no node *)
Theorem C46_root (x : N) (w : node) :
  wfs w -> element x w ->
  upwards w (get_xmlroot x w) x /\ element (get_xmlroot x w) w /\
  forall p, element p w -> get_xmlroot x w ∉ children p w.
Proof. apply get_xmlroot_spec. Qed.
Print Assumptions C46_root.

(** All histories: an operation works or raises and changes nothing; every node stays in the
    store, and stays at most once a child of at most one node. *)
Theorem C46_history (ops : list wop) (w : node) :
  wfs w -> Forall (fun o => Forall (fun x => element x w) (op_nodes o)) ops ->
  wfs (run_ops ops w) /\ (forall y, element y (run_ops ops w) <-> element y w) /\
  (forall y, NoDup (children y (run_ops ops w))) /\
  (forall x y c, c ∈ children x (run_ops ops w) -> c ∈ children y (run_ops ops w) -> x = y) /\
  (forall o, Forall (fun x => element x w) (op_nodes o) ->
     (do_op o (run_ops ops w)).2 = Ok tt \/
     exists e, do_op o (run_ops ops w) = (run_ops ops w, Err e) /\ (e = ValueError \/ e = IndexError)).
Proof.
  intros Hw Hv. destruct (run_ops_keeps ops w Hw Hv) as [H1 H2]. split_and!; [done|done| | |].
  - intros y. by apply children_NoDup.
  - intros x y c. by apply one_parent.
  - intros o Ho. destruct (do_op_keeps (run_ops ops w) o H1) as [(w' & -> & _)|H]; [|by left|by right].
    eapply Forall_impl; [exact Ho|]. intros y. by apply H2.
Qed.
Print Assumptions C46_history.

(** ** Cases: two trees *)
Definition nd0 (t : string) (tl : option pystr) : nd := Nd t ∅ None tl.
Definition fig (x : N) (t : string) (ks : list node) : node := T (L x (nd0 t (Some [43%N]))) ks.
Definition w46 : node :=
  fig 0 "" [fig 1 "a" [fig 2 "b" [fig 3 "c" []]; fig 4 "b" []; fig 5 "d" []]; fig 6 "a" [fig 7 "b" []]].
Lemma w46_wfs : wfs w46.
Proof. unfold wfs. dec_vm. Qed.
Lemma w46_element x : x ∈ [1; 2; 3; 4; 5; 6; 7]%N -> element x w46.
Proof.
  intros H. unfold element. change (flat_map ids (kids w46)) with [1; 2; 3; 4; 5; 6; 7]%N. done.
Qed.
Lemma w46_up (c x : N) : c ∈ [1; 2; 3; 4; 5; 6; 7]%N -> above c x w46 = false -> ~ upwards w46 c x.
Proof.
  intros Hc Ha Hu. apply (above_spec w46 c x w46_wfs) in Hu; [congruence|by apply w46_element].
Qed.
Ltac el46 := apply w46_element; dec_vm.
Ltac up46 := apply w46_up; [dec_vm|by_vm].

Example C46_read_case : children 1 w46 = [2; 4; 5]%N /\ wr_findall "b" 1 w46 = [2; 4]%N /\ at_pos (-1) (children 1 w46) = Some 5%N.
Proof. done. Qed.
Example C46_append_case :
  wfs w46 /\ element 1 w46 /\ element 7 w46 /\ ~ upwards w46 7 1 /\ upwards w46 1 3 /\
  children 1 (wr_append 1 7 w46).1 = [2; 4; 5; 7]%N /\ children 6 (wr_append 1 7 w46).1 = [].
Proof.
  split_and!; [apply w46_wfs|el46|el46|up46| |done|done].
  apply (above_spec w46 1 3 w46_wfs); [el46|by_vm].
Qed.
Example C46_insert_case :
  wfs w46 /\ element 1 w46 /\ element 7 w46 /\ ~ upwards w46 7 1 /\ (7%N : N) ∉ children 1 w46 /\
  children 1 (wr_insert 1 (-2) 7 w46).1 = [2; 7; 4; 5]%N /\ children 1 (wr_insert 1 0 4 w46).1 = [4; 2; 5]%N.
Proof. split_and!; [apply w46_wfs|el46|el46|up46|dec_vm|done|done]. Qed.
Example C46_insert_before_case :
  wfs w46 /\ element 1 w46 /\ element 2 w46 /\ ~ upwards w46 2 1 /\ (5%N : N) ∈ children 1 w46 /\
  children 1 (insert_before 1 5 2 w46).1 = [4; 2; 5]%N.
Proof. split_and!; [apply w46_wfs|el46|el46|up46|dec_vm|done]. Qed.
Example C46_set_case :
  wfs w46 /\ element 1 w46 /\ element 3 w46 /\ ~ upwards w46 3 1 /\ at_pos (-3) (children 1 w46) = Some 2%N /\
  children 1 (set_child 1 (-3) 3 w46).1 = [3; 4; 5]%N /\ children 2 (set_child 1 (-3) 3 w46).1 = [] /\
  at_pos 3 (children 1 w46) = None.
Proof. split_and!; [apply w46_wfs|el46|el46|up46|done|done|done|done]. Qed.
Example C46_del_case :
  wfs w46 /\ element 1 w46 /\ at_pos 1 (children 1 w46) = Some 4%N /\ children 1 (del_child 1 1 w46).1 = [2; 5]%N /\
  at_pos (-4) (children 1 w46) = None.
Proof. split_and!; [apply w46_wfs|el46|done|done|done]. Qed.
Example C46_remove_case : wfs w46 /\ element 1 w46 /\ (2%N : N) ∈ children 1 w46 /\ (3%N : N) ∉ children 1 w46.
Proof. split_and!; [apply w46_wfs|el46|dec_vm|dec_vm]. Qed.
Example C46_replace_case :
  wfs w46 /\ element 1 w46 /\ element 7 w46 /\ ~ upwards w46 7 1 /\ (4%N : N) ∈ children 1 w46 /\
  children 1 (wr_replace 1 4 7 w46).1 = [2; 7; 5]%N.
Proof. split_and!; [apply w46_wfs|el46|el46|up46|dec_vm|done]. Qed.
Example C46_clear_case : wfs w46 /\ element 1 w46 /\ children 1 (wr_clear 1 w46).1 = [] /\ children 2 (wr_clear 1 w46).1 = [3%N].
Proof. split_and!; [apply w46_wfs|el46|done|done]. Qed.
Example C46_root_case : wfs w46 /\ element 3 w46 /\ get_xmlroot 3 w46 = 1%N.
Proof. split_and!; [apply w46_wfs|el46|done]. Qed.
Definition ops46 : list wop := [OAppend 6 1; OAppend 3 1; OSet 2 0 5; ODel 1 7; OBefore 1 4 7; OClear 6].
Example C46_history_case :
  wfs w46 /\ Forall (fun o => Forall (fun x => element x w46) (op_nodes o)) ops46 /\
  children 1 (run_ops ops46 w46) = [2; 7; 4]%N /\ children 2 (run_ops ops46 w46) = [5%N].
Proof.
  split_and!; [apply w46_wfs| |done|done]. unfold ops46. repeat constructor; el46.
Qed.

(** A list puts a new item that is inserted before its start to the start, the wrapper to the
    end. *)
Theorem C46_insert_counterexample :
  exists (x : N) (i : Z) (c : N) (w : node), wfs w /\ element x w /\ element c w /\ ~ upwards w c x /\ c ∉ children x w /\
    (i < - Z.of_nat (length (children x w)))%Z /\ children x (wr_insert x i c w).1 = children x w ++ [c] /\
    children x w ++ [c] <> c :: children x w.
Proof.
  exists 1%N, (-4)%Z, 7%N, w46. split_and!; [apply w46_wfs|el46|el46|up46|dec_vm|done|done|done].
Qed.
Print Assumptions C46_insert_counterexample.
