(** Proofs about the wrapper cache. *)
From Verif Require Export WrapCacheSpec.

Record mem_ok (m : mem) : Prop := {
  ok_held : forall a, a ∈ held m -> is_Some (heap m !! a);
  ok_wrap : forall w x c, heap m !! w = Some (Wrap x c) -> exists n, heap m !! x = Some (Elem n);
  ok_cache : forall x w, wcache m !! x = Some w -> exists c, heap m !! w = Some (Wrap x c);
  ok_uniq : forall a b n, heap m !! a = Some (Elem n) -> heap m !! b = Some (Elem n) -> a = b }.

Lemma mem_new_ok : mem_ok mem_new.
Proof. split; cbn; intros *; rewrite ?lookup_empty; done. Qed.

Lemma elem_at_Some m n x : elem_at m n = Some x -> heap m !! x = Some (Elem n).
Proof.
  unfold elem_at. destruct (filter _ _) as [|p l] eqn:E; [done|]. intros [= <-].
  assert (H : p ∈ filter (fun p => p.2 = Elem n) (map_to_list (heap m))) by (rewrite E; by left).
  apply elem_of_list_filter in H as [H1 H2]. destruct p as [a o]. cbn in *. subst o. by apply elem_of_map_to_list.
Qed.
Lemma elem_at_None m n x : elem_at m n = None -> heap m !! x <> Some (Elem n).
Proof.
  unfold elem_at. destruct (filter _ _) as [|p l] eqn:E; [|done]. intros _ H.
  assert (H' : (x, Elem n) ∈ filter (fun p => p.2 = Elem n) (map_to_list (heap m))).
  { apply elem_of_list_filter. split; [done|]. by apply elem_of_map_to_list. }
  rewrite E in H'. by apply elem_of_nil in H'.
Qed.
Lemma elem_at_uniq m n x : mem_ok m -> heap m !! x = Some (Elem n) -> elem_at m n = Some x.
Proof.
  intros H Hx. destruct (elem_at m n) as [y|] eqn:E; [|by apply (elem_at_None m n x) in E].
  apply elem_at_Some in E. by rewrite (ok_uniq m H x y n).
Qed.

(** keeping the other references of a larger memory *)
Lemma ok_insert_wrap m a x n c h wc :
  mem_ok m -> heap m !! x = Some (Elem n) -> heap m !! a = None ->
  (forall b, b ∈ h -> b = a \/ b ∈ held m) ->
  (forall y w, wc !! y = Some w -> (y = x /\ w = a) \/ wcache m !! y = Some w) ->
  mem_ok (Mem (<[a := Wrap x c]> (heap m)) h wc).
Proof.
  intros [H1 H2 H3 H4] Hx Ha Hh Hw.
  assert (Hxa : x <> a) by congruence.
  assert (He : forall y n, heap m !! y = Some (Elem n) -> <[a := Wrap x c]> (heap m) !! y = Some (Elem n)).
  { intros y k Hy. rewrite lookup_insert_ne; [done|congruence]. }
  split; cbn.
  - intros b [->|Hb]%Hh; [rewrite lookup_insert; eauto|]. destruct (decide (b = a)) as [->|N]; [rewrite lookup_insert; eauto|].
    rewrite lookup_insert_ne by done. by apply H1.
  - intros w y d. destruct (decide (w = a)) as [->|N].
    + rewrite lookup_insert. intros [= <- <-]. eauto.
    + rewrite lookup_insert_ne by done. intros (k & Hk)%H2. eauto.
  - intros y w [[-> ->]|Hy]%Hw; [rewrite lookup_insert; eauto|]. destruct (H3 _ _ Hy) as [d Hd]. exists d.
    rewrite lookup_insert_ne; [done|congruence].
  - intros b d k. destruct (decide (b = a)) as [->|N1]; [by rewrite lookup_insert|].
    destruct (decide (d = a)) as [->|N2]; [by rewrite (lookup_insert _ a)|]. rewrite !lookup_insert_ne by done. apply H4.
Qed.

Section proofs.
Context (reg : registry) (tag_of : nat -> string) (adds_itself : string -> bool).
Notation stp := (steps_to reg tag_of adds_itself).

Lemma ok_same m h wc : mem_ok m -> (forall b, b ∈ h -> b ∈ held m \/ is_Some (heap m !! b)) ->
  (forall y w, wc !! y = Some w -> exists c, heap m !! w = Some (Wrap y c)) -> mem_ok (Mem (heap m) h wc).
Proof. intros [H1 H2 H3 H4] Hh Hw. split; cbn; [|done|done|done]. intros a [Ha|Ha]%Hh; eauto. Qed.

Lemma add_ok m w : mem_ok m -> mem_ok (wc_add w m).1.
Proof.
  intros H. unfold wc_add. destruct (heap m !! w) as [[n|x c]|] eqn:E; try done. apply ok_same; [done|by left|].
  intros y v. cbn. destruct (decide (y = x)) as [->|N]; [rewrite lookup_insert; intros [= <-]; eauto|].
  rewrite lookup_insert_ne by done. apply (ok_cache m H).
Qed.
Lemma new_ok m x a : mem_ok m -> heap m !! a = None -> mem_ok (new_wrapper reg tag_of adds_itself x a m).1.
Proof.
  intros H Ha. unfold new_wrapper. destruct (heap m !! x) as [[n|]|] eqn:E; try done.
  destruct (class_of reg (tag_of n)) as [c|]; [|done]. cbn [fst]. eapply ok_insert_wrap; [done|done|done|set_solver|].
  intros y w. destruct (adds_itself c); [|by right]. destruct (decide (y = x)) as [->|N].
  - rewrite lookup_insert. intros [= <-]. by left.
  - rewrite lookup_insert_ne by done. by right.
Qed.
Lemma step_ok m s m' : mem_ok m -> stp m s m' -> mem_ok m'.
Proof.
  intros H S. destruct S as [n a Ha|x a Hx Ha|x n c add a Hx Hn Ha|x a Hx Ha|w Hw|w Hw| |a|a Ha].
  - unfold get_elem. destruct (elem_at m n) as [x|] eqn:E; cbn.
    + apply ok_same; [done| |apply (ok_cache m H)]. intros b [->%elem_of_singleton|Hb]%elem_of_union; [|by left].
      right. apply elem_at_Some in E. eauto.
    + destruct H as [H1 H2 H3 H4]. split; cbn.
      * intros b Hb. destruct (decide (b = a)) as [->|N]; [rewrite lookup_insert; eauto|]. rewrite lookup_insert_ne by done.
        apply H1. set_solver.
      * intros w x c. destruct (decide (w = a)) as [->|N]; [by rewrite lookup_insert|]. rewrite lookup_insert_ne by done.
        intros (k & Hk)%H2. exists k. rewrite lookup_insert_ne; [done|congruence].
      * intros x w (c & Hc)%H3. exists c. rewrite lookup_insert_ne; [done|congruence].
      * intros b d k. destruct (decide (b = a)) as [->|N1], (decide (d = a)) as [->|N2]; rewrite ?lookup_insert, ?lookup_insert_ne by done; try done.
        -- intros [= ->] Hd. by apply (elem_at_None m k d) in E.
        -- intros Hb [= ->]. by apply (elem_at_None m k b) in E.
        -- apply H4.
  - by apply new_ok.
  - eapply ok_insert_wrap; [done|done|done|set_solver|]. intros y w. destruct add; [|by right].
    destruct (decide (y = x)) as [->|N]; [rewrite lookup_insert; intros [= <-]; by left|]. rewrite lookup_insert_ne by done. by right.
  - unfold wc_wrap. destruct (wcache m !! x) as [w|] eqn:E; cbn.
    + apply ok_same; [done| |apply (ok_cache m H)]. intros b [->%elem_of_singleton|Hb]%elem_of_union; [|by left].
      right. destruct (ok_cache m H _ _ E) as [c ->]. eauto.
    + unfold abind. pose proof (new_ok m x a H Ha) as Hm. destruct (new_wrapper _ _ _ x a m) as [m1 [w|e]]; [|done]. cbn in Hm.
      pose proof (add_ok m1 w Hm). by destruct (wc_add w m1) as [m2 [[]|e]].
  - by apply add_ok.
  - unfold wc_remove. destruct (heap m !! w) as [[n|x c]|]; try done. destruct (wcache m !! x); [|done]. cbn.
    apply ok_same; [done|by left|]. intros y v. cbn. intros [_ Hv]%lookup_delete_Some. by apply (ok_cache m H).
  - apply ok_same; [done|by left|]. intros y v. by rewrite lookup_empty.
  - apply ok_same; [done| |apply (ok_cache m H)]. intros b. left. set_solver.
  - destruct Ha as (G1 & G2 & G3). destruct H as [H1 H2 H3 H4]. split; cbn.
    + intros b Hb. destruct (decide (b = a)) as [->|N]; [done|]. rewrite lookup_delete_ne by done. by apply H1.
    + intros w x c [Hwa Hw]%lookup_delete_Some. destruct (H2 _ _ _ Hw) as [n Hn]. exists n. rewrite lookup_delete_ne; [done|].
      intros <-. by apply (G3 w c).
    + intros x w Hx. destruct (H3 _ _ Hx) as [c Hc]. exists c. rewrite lookup_delete_ne; [done|]. intros <-. by apply (G2 x).
    + intros b d n [_ Hb]%lookup_delete_Some [_ Hd]%lookup_delete_Some. by apply (H4 b d n).
Qed.
Lemma run_mem_ok m l m' : mem_ok m -> wrun reg tag_of adds_itself m l m' -> mem_ok m'.
Proof. intros H R. induction R as [|l s m1 m2 R IH S]; [done|]. by eapply step_ok. Qed.

(** ** One wrap *)
Lemma wrap_result m x a n c : mem_ok m -> heap m !! x = Some (Elem n) -> heap m !! a = None ->
  class_of reg (tag_of n) = Ok c ->
  exists m' w, wc_wrap reg tag_of adds_itself x a m = (m', Ok w) /\ w ∈ held m' /\
    wcache m' !! x = Some w /\ (exists d, heap m' !! w = Some (Wrap x d)) /\
    (wcache m !! x = None -> heap m' !! w = Some (Wrap x c)) /\
    (forall b o, heap m !! b = Some o -> heap m' !! b = Some o) /\
    (forall y, y <> x -> wcache m' !! y = wcache m !! y) /\
    (forall v, wcache m !! x = Some v -> w = v).
Proof.
  intros H Hx Ha Hc. unfold wc_wrap. destruct (wcache m !! x) as [w|] eqn:E.
  - exists (Mem (heap m) ({[w]} ∪ held m) (wcache m)), w. split_and!; cbn; [done|set_solver|done|by eapply ok_cache|done|done|done|].
    by intros v [= ->].
  - unfold abind, new_wrapper. rewrite Hx, Hc. unfold wc_add. cbn [heap]. rewrite lookup_insert.
    eexists _, a. split_and!; [reflexivity|cbn; set_solver|cbn; by rewrite lookup_insert|cbn; rewrite lookup_insert; eauto|cbn; by rewrite lookup_insert| | |done].
    + intros b o Hb. cbn. rewrite lookup_insert_ne; [done|congruence].
    + intros y Hy. cbn. rewrite lookup_insert_ne by done. destruct (adds_itself c); [|done]. by rewrite lookup_insert_ne.
Qed.

(** ** Cached wrappers stay *)
Definition cached (m : mem) (n : nat) (w : addr) : Prop :=
  exists x, heap m !! x = Some (Elem n) /\ wcache m !! x = Some w.
Lemma step_cached m s m' n w : mem_ok m -> stp m s m' -> rebinds s = false -> cached m n w -> cached m' n w.
Proof.
  intros H S Hs (x & Hx & Hw). destruct S as [k a Ha|y a Hy Ha|y k c add a Hy Hn Ha|y a Hy Ha|v Hv|v Hv| |a|a Ha]; try done.
  - unfold get_elem. destruct (elem_at m k) as [z|]; exists x; [done|]. cbn. rewrite lookup_insert_ne; [done|congruence].
  - destruct add; [done|]. exists x. cbn. rewrite lookup_insert_ne; [done|congruence].
  - unfold wc_wrap. destruct (wcache m !! y) as [v|] eqn:E; [by exists x|].
    assert (Hyx : y <> x) by congruence.
    unfold abind, new_wrapper. destruct (heap m !! y) as [[k|]|] eqn:Ey; [|by exists x..].
    destruct (class_of reg (tag_of k)) as [c|]; [|by exists x]. unfold wc_add. cbn [heap]. rewrite lookup_insert. exists x. cbn.
    rewrite lookup_insert_ne by congruence. rewrite lookup_insert_ne by done.
    split; [done|]. destruct (adds_itself c); [|done]. by rewrite lookup_insert_ne.
  - by exists x.
  - exists x. cbn. destruct Ha as (G1 & G2 & G3). destruct (ok_cache m H _ _ Hw) as [c Hc].
    rewrite lookup_delete_ne; [done|]. intros ->. by apply (G3 w c).
Qed.
Lemma run_cached m l m' n w : mem_ok m -> wrun reg tag_of adds_itself m l m' ->
  (forall s, s ∈ l -> rebinds s = false) -> cached m n w -> cached m' n w /\ mem_ok m'.
Proof.
  intros H R. induction R as [|l s m1 m2 R IH S]; [done|]. intros Hl Hc.
  destruct (IH ltac:(intros; apply Hl; set_solver) Hc) as [IH1 IH2]. split; [|by eapply step_ok].
  eapply step_cached; [done..| |done]. apply Hl. set_solver.
Qed.
End proofs.
