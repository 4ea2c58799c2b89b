(** C54: cached wrappers belong to their element, although ids are used again. *)
From Verif Require Import WrapCacheProofs.

(** Whatever happened before, wrapping an element gives a wrapper of this element. *)
Theorem C54_wrap (reg : registry) (tag_of : nat -> string) (adds_itself : string -> bool) (l : list wstep) (m : mem) (x a : addr) (n : nat) (c : string) :
  wrun reg tag_of adds_itself mem_new l m ->
  heap m !! x = Some (Elem n) -> heap m !! a = None -> class_of reg (tag_of n) = Ok c ->
  exists m' w, wc_wrap reg tag_of adds_itself x a m = (m', Ok w) /\ w ∈ held m' /\
    (exists d, heap m' !! w = Some (Wrap x d)) /\ heap m' !! x = Some (Elem n) /\
    (* made by the class of the tag unless there is one already *)
    (wcache m !! x = None -> w = a /\ heap m' !! w = Some (Wrap x c)) /\
    (forall b o, heap m !! b = Some o -> heap m' !! b = Some o).
Proof.
  intros R Hx Ha Hc. assert (H : mem_ok m) by (eapply run_mem_ok; [apply mem_new_ok|done]).
  destruct (wrap_result reg tag_of adds_itself m x a n c H Hx Ha Hc) as (m' & w & E & Hw & _ & Hd & Hn & Hk & _ & _).
  exists m', w. split_and!; try done.
  - by apply Hk.
  - intros Hnone. split; [|by apply Hn]. unfold wc_wrap in E. rewrite Hnone in E.
    unfold abind, new_wrapper in E. rewrite Hx, Hc in E. unfold wc_add in E. cbn [heap] in E. rewrite lookup_insert in E.
    by injection E.
Qed.
Print Assumptions C54_wrap.

(** The same node gives the same wrapper, until something is put into or removed from the
    cache: also when the program and the garbage collector do other things in between. *)
Theorem C54_same (reg : registry) (tag_of : nat -> string) (adds_itself : string -> bool) (l l' : list wstep) (m m1 m2 : mem) (x a w : addr) (n : nat) :
  wrun reg tag_of adds_itself mem_new l m ->
  heap m !! x = Some (Elem n) -> x ∈ held m -> heap m !! a = None ->
  wc_wrap reg tag_of adds_itself x a m = (m1, Ok w) ->
  wrun reg tag_of adds_itself m1 l' m2 -> (forall s, s ∈ l' -> rebinds s = false) ->
  heap m2 !! x = Some (Elem n) /\
  (forall b, (get_elem n b m2).2 = x) /\
  (forall y b, heap m2 !! y = Some (Elem n) -> exists m3, wc_wrap reg tag_of adds_itself y b m2 = (m3, Ok w)) /\
  exists d, heap m2 !! w = Some (Wrap x d).
Proof.
  intros R Hx Hh Ha Hw R2 Hl. assert (H : mem_ok m) by (eapply run_mem_ok; [apply mem_new_ok|done]).
  assert (Hc : exists c, class_of reg (tag_of n) = Ok c \/ wcache m !! x <> None).
  { destruct (class_of reg (tag_of n)) as [c|e] eqn:E; [eauto|]. exists ""%string. right. intros Hn.
    unfold wc_wrap in Hw. rewrite Hn in Hw. unfold abind, new_wrapper in Hw. by rewrite Hx, E in Hw. }
  assert (Hc1 : cached m1 n w).
  { destruct Hc as [c [Hc|Hc]].
    - destruct (wrap_result reg tag_of adds_itself m x a n c H Hx Ha Hc) as (m' & w' & E & _ & Hcw & _ & _ & Hk & _ & _).
      rewrite Hw in E. simplify_eq. exists x. split; [by apply Hk|done].
    - unfold wc_wrap in Hw. destruct (wcache m !! x) as [v|] eqn:E; [|done]. injection Hw as <- ->. by exists x. }
  assert (H1 : mem_ok m1).
  { assert (Hm : mem_ok (wc_wrap reg tag_of adds_itself x a m).1) by (eapply step_ok; [done|by apply to_wrap]). by rewrite Hw in Hm. }
  destruct (run_cached reg tag_of adds_itself m1 l' m2 n w H1 R2 Hl Hc1) as [(y & Hy & Hyw) H2].
  assert (y = x) as ->.
  { destruct (ok_cache m2 H2 _ _ Hyw) as [d Hd].
    (* the wrapper refers to x in m1 and is never freed *)
    assert (G : forall l m', wrun reg tag_of adds_itself m1 l m' -> (forall s, s ∈ l -> rebinds s = false) ->
      mem_ok m' /\ heap m' !! x = Some (Elem n) /\ wcache m' !! x = Some w).
    { intros l0 m' R'. induction R' as [|l0 s m3 m4 R3 IH S].
      - intros _. split; [done|]. destruct Hc1 as (z & Hz & Hzw). assert (z = x) as ->; [|done].
        destruct Hc as [c [Hc|Hc]].
        + destruct (wrap_result reg tag_of adds_itself m x a n c H Hx Ha Hc) as (m' & w' & E & _ & _ & _ & _ & Hk & _ & _).
          rewrite Hw in E. simplify_eq. apply (ok_uniq m' H1 z x n); [done|by apply Hk].
        + unfold wc_wrap in Hw. destruct (wcache m !! x) as [v|] eqn:E; [|done]. injection Hw as <- ->. by apply (ok_uniq _ H1 z x n).
      - intros Hl'. destruct IH as (I1 & I2 & I3); [intros; apply Hl'; set_solver|].
        assert (Hs : rebinds s = false) by (apply Hl'; set_solver).
        split; [by eapply step_ok|].
        destruct S as [k b Hb|z b Hz Hb|z k c add b Hz Hn Hb|z b Hz Hb|v Hv|v Hv| |b|b Hb]; try done.
        + unfold get_elem. destruct (elem_at m3 k); [done|]. cbn. rewrite lookup_insert_ne; [done|congruence].
        + destruct add; [done|]. cbn. rewrite lookup_insert_ne; [done|congruence].
        + unfold wc_wrap. destruct (wcache m3 !! z) as [v|] eqn:E; [done|]. assert (z <> x) by congruence.
          unfold abind, new_wrapper. destruct (heap m3 !! z) as [[k|]|] eqn:Ez; try done.
          destruct (class_of reg (tag_of k)) as [c|]; [|done]. unfold wc_add. cbn [heap]. rewrite lookup_insert. cbn.
          rewrite lookup_insert_ne by congruence. rewrite lookup_insert_ne by done. split; [done|].
          destruct (adds_itself c); [|done]. by rewrite lookup_insert_ne.
        + destruct Hb as (G1 & G2 & G3). destruct (ok_cache m3 I1 _ _ I3) as [d' Hd']. cbn.
          rewrite lookup_delete_ne; [done|]. intros ->. by apply (G3 w d'). }
    destruct (G l' m2 R2 Hl) as (_ & Hx2 & _). by apply (ok_uniq m2 H2 y x n). }
  split_and!.
  - done.
  - intros b. unfold get_elem. by rewrite (elem_at_uniq m2 n x).
  - intros z b Hz. assert (z = x) as -> by (by apply (ok_uniq m2 H2 z x n)). unfold wc_wrap. rewrite Hyw. eauto.
  - by apply (ok_cache m2 H2).
Qed.
Print Assumptions C54_same.

(** After remove or clear a new wrapper is made; remove of an element that is not cached raises KeyError. *)
Theorem C54_forget (reg : registry) (tag_of : nat -> string) (adds_itself : string -> bool) (m : mem) (w x : addr) (d : string) :
  heap m !! w = Some (Wrap x d) ->
  (wcache m !! x <> None -> exists m', wc_remove w m = (m', Ok tt) /\ wcache m' !! x = None /\ heap m' = heap m /\ held m' = held m /\
     forall y, y <> x -> wcache m' !! y = wcache m !! y) /\
  (wcache m !! x = None -> wc_remove w m = (m, Err KeyError)) /\
  (forall y, wcache (wc_clear m) !! y = None) /\ heap (wc_clear m) = heap m /\ held (wc_clear m) = held m.
Proof.
  intros Hw. unfold wc_remove. rewrite Hw. split_and!.
  - destruct (wcache m !! x) eqn:E; [|done]. intros _. eexists. split_and!; [reflexivity|cbn; apply lookup_delete|done|done|].
    intros y Hy. cbn. by rewrite lookup_delete_ne.
  - by intros ->.
  - intros y. apply lookup_empty.
  - done.
  - done.
Qed.
Print Assumptions C54_forget.

(** The class registered last for a tag is used; other tags get the generic wrapper. *)
Theorem C54_class (l : list (string * string)) (r0 : registry) (tag : string) :
  let r := foldl (fun r tc => register_class tc.1 tc.2 r) r0 l in
  (forall l1 l2 c, l = l1 ++ (tag, c) :: l2 -> tag ∉ map fst l2 -> class_of r tag = Ok c) /\
  (forall g, r0 !! tag = None -> tag ∉ map fst l -> r !! "GenericWrapper"%string = Some g -> class_of r tag = Ok g).
Proof.
  intros r.
  assert (G : forall l2 r1, tag ∉ map fst l2 -> foldl (fun r tc => register_class tc.1 tc.2 r) r1 l2 !! tag = r1 !! tag).
  { intros l2. induction l2 as [|[t c] l2 IH]; intros r1 H; [done|]. apply not_elem_of_cons in H as [H1 H2]. cbn [foldl].
    rewrite IH by done. cbn [fst] in H1. unfold register_class. cbn [fst snd]. by rewrite lookup_insert_ne. }
  split.
  - intros l1 l2 c -> Hn. unfold class_of, r. rewrite foldl_app. cbn [foldl]. rewrite G by done. unfold register_class.
    cbn [fst snd]. by rewrite lookup_insert.
  - intros g H0 Hn Hg. unfold class_of. rewrite Hg. unfold r. by rewrite G, H0.
Qed.
Print Assumptions C54_class.

(** ** Cases *)
Definition reg54 : registry := {["GenericWrapper" := "GenericWrapper"; "table:table" := "Table"]}%string.
Definition tag54 (n : nat) : string := match n with 0 | 1 => "table:table" | _ => "text:p" end.
Definition self54 (c : string) : bool := bool_decide (c = "Table"%string).
(** an element is wrapped without the cache, forgotten and freed; its address serves another node *)
Definition run54 : list wstep := [SElem 2; SMake 1 "Paragraph" false; SDrop 2; SCollect 2; SDrop 1; SCollect 1; SElem 0].
Definition m54 : mem := Mem {[1%N := Elem 0]} {[1%N]} ∅.
Local Instance mem_eq_dec : EqDecision mem.
Proof. solve_decision. Defined.
Lemma run_then reg tag_of self m l s m1 m2 m3 :
  wrun reg tag_of self m l m1 -> steps_to reg tag_of self m1 s m2 -> m2 = m3 -> wrun reg tag_of self m (l ++ [s]) m3.
Proof. intros R S <-. by eapply run_snoc. Qed.
Definition m54a : mem := Mem {[1%N := Elem 2]} {[1%N]} ∅.
Definition m54b : mem := Mem {[1%N := Elem 2; 2%N := Wrap 1 "Paragraph"]} {[1%N; 2%N]} ∅.
Definition m54c : mem := Mem {[1%N := Elem 2; 2%N := Wrap 1 "Paragraph"]} {[1%N]} ∅.
Definition m54d : mem := Mem {[1%N := Elem 2]} ∅ ∅.
Example C54_wrap_case : wrun reg54 tag54 self54 mem_new run54 m54 /\ heap m54 !! 1%N = Some (Elem 0) /\
  heap m54 !! 2%N = None /\ class_of reg54 (tag54 0) = Ok "Table"%string.
Proof.
  split_and!; [|done|done|done].
  assert (S1 : wrun reg54 tag54 self54 mem_new [SElem 2] m54a).
  { apply (run_then _ _ _ _ [] (SElem 2) mem_new (get_elem 2 1 mem_new).1); [apply run_nil|by apply to_elem|dec_vm]. }
  assert (S2 : wrun reg54 tag54 self54 mem_new ([SElem 2] ++ [SMake 1 "Paragraph" false]) m54b).
  { eapply run_then; [exact S1|apply (to_make _ _ _ m54a 1 2 "Paragraph" false 2); [dec_vm|done|done]|dec_vm]. }
  assert (S3 : wrun reg54 tag54 self54 mem_new (([SElem 2] ++ [SMake 1 "Paragraph" false]) ++ [SDrop 2]) m54c).
  { eapply run_then; [exact S2|apply to_drop|dec_vm]. }
  assert (S4 : wrun reg54 tag54 self54 mem_new ((([SElem 2] ++ [SMake 1 "Paragraph" false]) ++ [SDrop 2]) ++ [SCollect 2]) m54a).
  { eapply run_then; [exact S3|apply to_collect|dec_vm]. split_and!.
    - dec_vm.
    - intros x. cbn. by rewrite lookup_empty.
    - intros w c H. unfold m54c in H. cbn [heap] in H. apply lookup_insert_Some in H as [[_ H]|[_ H]]; [done|]. apply lookup_singleton_Some in H as [_ H]. done. }
  assert (S5 : wrun reg54 tag54 self54 mem_new (((([SElem 2] ++ [SMake 1 "Paragraph" false]) ++ [SDrop 2]) ++ [SCollect 2]) ++ [SDrop 1]) m54d).
  { eapply run_then; [exact S4|apply to_drop|dec_vm]. }
  assert (S6 : wrun reg54 tag54 self54 mem_new ((((([SElem 2] ++ [SMake 1 "Paragraph" false]) ++ [SDrop 2]) ++ [SCollect 2]) ++ [SDrop 1]) ++ [SCollect 1]) mem_new).
  { eapply run_then; [exact S5|apply to_collect|dec_vm]. split_and!.
    - dec_vm.
    - intros x. cbn. by rewrite lookup_empty.
    - intros w c H. unfold m54d in H. cbn [heap] in H. apply lookup_singleton_Some in H as [_ H]. done. }
  apply (run_then _ _ _ _ (take 6 run54) (SElem 0) mem_new (get_elem 0 1 mem_new).1); [exact S6|by apply to_elem|dec_vm].
Qed.
Definition m54' : mem := (wc_wrap reg54 tag54 self54 1 2 m54).1.
Example C54_same_case :
  1%N ∈ held m54 /\ wc_wrap reg54 tag54 self54 1 2 m54 = (m54', Ok 2%N) /\
  wrun reg54 tag54 self54 m54' ([SDrop 1; SDrop 2] ++ [SElem 1]) (get_elem 1 3 (Mem (heap m54') ∅ (wcache m54'))).1 /\
  (forall s, s ∈ [SDrop 1; SDrop 2; SElem 1] -> rebinds s = false).
Proof.
  split_and!; [dec_vm|apply pair_by; by_vm| |].
  - assert (S1 : wrun reg54 tag54 self54 m54' [SDrop 1] (Mem (heap m54') {[2%N]} (wcache m54'))).
    { eapply (run_then _ _ _ _ []); [apply run_nil|apply to_drop|dec_vm]. }
    assert (S2 : wrun reg54 tag54 self54 m54' [SDrop 1; SDrop 2] (Mem (heap m54') ∅ (wcache m54'))).
    { eapply (run_then _ _ _ _ [SDrop 1%N]); [exact S1|apply to_drop|dec_vm]. }
    eapply run_snoc; [exact S2|]. apply to_elem. by_vm.
  - intros s Hs. repeat (apply elem_of_cons in Hs as [->|Hs]; [done|]). by apply elem_of_nil in Hs.
Qed.
Example C54_forget_case : heap m54' !! 2%N = Some (Wrap 1 "Table") /\ wcache m54' !! 1%N <> None.
Proof. split; [by_vm|]. apply (ne_by _ _ (Some 2%N)); [by_vm|done]. Qed.
Example C54_class_case : class_of reg54 "text:p" = Ok "GenericWrapper"%string /\ "text:p"%string ∉ ["table:table"%string].
Proof. split; [by_vm|dec_vm]. Qed.

(** Wrapping a sheet without the cache replaces the cached wrapper: a sheet taken from the
    document before is then a different object from the one taken after. *)
Theorem C54_same_counterexample :
  exists (reg : registry) (tag_of : nat -> string) (adds_itself : string -> bool) (m m1 m2 m3 : mem) (x w w' : addr),
    wc_wrap reg tag_of adds_itself x 2 m = (m1, Ok w) /\ steps_to reg tag_of adds_itself m1 (SNew x) m2 /\
    wc_wrap reg tag_of adds_itself x 4 m2 = (m3, Ok w') /\ w <> w'.
Proof.
  exists reg54, tag54, self54, m54, m54', (new_wrapper reg54 tag54 self54 1 3 m54').1,
    (wc_wrap reg54 tag54 self54 1 4 (new_wrapper reg54 tag54 self54 1 3 m54').1).1, 1%N, 2%N, 3%N.
  split_and!; [apply pair_by; by_vm| |apply pair_by; by_vm|done]. apply to_new; [dec_vm|by_vm].
Qed.
Print Assumptions C54_same_counterexample.
