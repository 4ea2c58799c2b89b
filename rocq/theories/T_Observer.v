(** C44: a broadcast reaches exactly the listeners of the document. *)
From Verif Require Import ObserverProofs.

(** Which listeners are called, when the handlers return; in whatever order. *)
Theorem C44_broadcast (handler : pystr -> lid -> option (res unit)) (get_xmlroot : lid -> option rid) (order : gset lid -> list lid)
    (os : list oop) (e : pystr) :
  (forall l, order l ≡ₚ elements l) ->
  (forall x, subscribed handler os e x -> handler e x = Some (Ok tt)) ->
  let s := o_run handler os in
  (forall r, exists calls, broadcast handler get_xmlroot order e (Some (r, true)) s = (calls, Ok tt) /\ NoDup calls /\
     forall x, x ∈ calls <-> subscribed handler os e x /\ get_xmlroot x = Some r) /\
  (exists calls, broadcast handler get_xmlroot order e None s = (calls, Ok tt) /\ NoDup calls /\
     forall x, x ∈ calls <-> subscribed handler os e x).
Proof.
  intros Hord Hh s.
  assert (G : forall root, exists calls, broadcast handler get_xmlroot order e root s = (calls, Ok tt) /\ NoDup calls /\
    forall x, x ∈ calls <-> subscribed handler os e x /\ wanted get_xmlroot root x).
  { intros root. assert (Hl : forall x, x ∈ listeners s e <-> subscribed handler os e x) by (intros; apply run_subscribed).
    unfold broadcast, listeners in *. destruct (s !! e) as [l|] eqn:E.
    - exists (filter (wanted get_xmlroot root) (order l)). split_and!.
      + etrans; [apply (sent_all handler get_xmlroot e root (order l) [])|done].
        intros x Hx _. apply Hh, Hl. rewrite Hord in Hx. by apply elem_of_elements.
      + apply NoDup_filter. rewrite Hord. apply NoDup_elements.
      + intros x. rewrite elem_of_list_filter, Hord, elem_of_elements, Hl. tauto.
    - exists []. split_and!; [done|apply NoDup_nil_2|]. intros x. rewrite <- Hl. set_solver. }
  split.
  - intros r. apply (G (Some (r, true))).
  - destruct (G None) as (calls & E & Hd & Hc). exists calls. split_and!; [done|done|]. intros x. rewrite Hc. cbn. tauto.
Qed.
Print Assumptions C44_broadcast.

(** A handler that raises ends the broadcast with its exception: the listeners before it in
    the order have been called, those after it have not. *)
Theorem C44_exception (handler : pystr -> lid -> option (res unit)) (get_xmlroot : lid -> option rid) (order : gset lid -> list lid)
    (e : pystr) (r : rid) (s : observers) (l : gset lid) (l1 l2 : list lid) (x : lid) (err : exn) :
  s !! e = Some l -> order l = l1 ++ x :: l2 -> get_xmlroot x = Some r -> handler e x = Some (Err err) ->
  (forall y, y ∈ l1 -> get_xmlroot y = Some r -> handler e y = Some (Ok tt)) ->
  exists calls, broadcast handler get_xmlroot order e (Some (r, true)) s = (calls ++ [x], Err err) /\
    (forall y, y ∈ calls <-> y ∈ l1 /\ get_xmlroot y = Some r).
Proof.
  intros E Eo Hx He H1. exists (filter (wanted get_xmlroot (Some (r, true))) l1). split.
  - unfold broadcast. rewrite E, Eo. etrans; [by apply (sent_stop handler get_xmlroot e (Some (r, true)) l1 x l2 [] err)|done].
  - intros y. rewrite elem_of_list_filter. unfold wanted. tauto.
Qed.
Print Assumptions C44_exception.

(** subscribe and unsubscribe: when they raise, nothing changes; subscribing twice is the same as once. *)
Theorem C44_subscribe (handler : pystr -> lid -> option (res unit)) (os : list oop) (e : pystr) (x : lid) :
  let s := o_run handler os in
  (handler e x = None -> subscribe handler e x s = (s, Err AttributeError)) /\
  (handler e x <> None -> (subscribe handler e x s).2 = Ok tt) /\
  (subscribe handler e x (subscribe handler e x s).1).1 = (subscribe handler e x s).1 /\
  (subscribed handler os e x -> (unsubscribe e x s).2 = Ok tt) /\
  (¬ subscribed handler os e x -> unsubscribe e x s = (s, Err KeyError)) /\
  (forall e', (forall y, ¬ subscribed handler os e' y) <-> has_listener e' s = false).
Proof.
  intros s. assert (Hl : forall e x, x ∈ listeners s e <-> subscribed handler os e x) by (intros; apply run_subscribed).
  split_and!.
  - unfold subscribe. by intros ->.
  - unfold subscribe. by destruct (handler e x).
  - unfold subscribe. destruct (handler e x); [|done]. cbn. rewrite lookup_insert. rewrite insert_insert. f_equal. set_solver.
  - rewrite <- Hl. unfold unsubscribe, listeners. destruct (s !! e) as [l|]; [|set_solver]. intros H. by rewrite decide_True.
  - rewrite <- Hl. unfold unsubscribe, listeners. destruct (s !! e) as [l|]; [|done]. intros H. by rewrite decide_False.
  - intros e'. setoid_rewrite <- Hl. unfold has_listener, count_listeners, listeners. rewrite bool_decide_eq_false.
    destruct (s !! e') as [l|].
    + split.
      * intros H. assert (l ≡ ∅) as H' by set_solver. apply size_empty_iff in H'. lia.
      * intros H y Hy. assert (size l <> 0) by (apply size_non_empty_iff; set_solver). lia.
    + split; [lia|]. intros _ y. set_solver.
Qed.
Print Assumptions C44_subscribe.

(** ** Cases *)
Definition h44 (e : pystr) (x : lid) : option (res unit) := if decide (x < 3) then Some (Ok tt) else if decide (x = 4) then Some (Err ValueError) else None.
Definition r44 (x : lid) : option rid := match x with 0 | 4 => Some 7 | 1 => Some 8 | _ => None end.
Definition os44 : list oop := [OSub (lit "e") 0; OSub (lit "e") 1; OSub (lit "e") 2; OSub (lit "e") 0; OUnsub (lit "e") 2; OSub (lit "e") 3].
Lemma h44_ok x : subscribed h44 os44 (lit "e") x -> h44 (lit "e") x = Some (Ok tt).
Proof.
  intros (os1 & os2 & E & Hh & _). assert (H : OSub (lit "e") x ∈ os44) by (rewrite E; set_solver).
  unfold os44 in H. repeat (apply elem_of_cons in H as [H|H]; [first [discriminate H|injection H as ->; first [reflexivity|by exfalso; apply Hh]]|]). by apply elem_of_nil in H.
Qed.
Example C44_broadcast_case :
  (forall l : gset lid, elements l ≡ₚ elements l) /\
  (forall x, subscribed h44 os44 (lit "e") x -> h44 (lit "e") x = Some (Ok tt)) /\
  broadcast h44 r44 elements (lit "e") (Some (7, true)) (o_run h44 os44) = ([0], Ok tt).
Proof. split_and!; [done|apply h44_ok|by_vm]. Qed.
Example C44_exception_case :
  let s := o_run h44 (os44 ++ [OSub (lit "e") 4]) in
  s !! lit "e" = Some {[0; 1; 4]} /\ elements ({[0; 1; 4]} : gset lid) = [0; 1] ++ 4 :: [] /\ r44 4 = Some 7 /\
  h44 (lit "e") 4 = Some (Err ValueError).
Proof. split_and!; [dec_vm|by_vm|done|done]. Qed.
Example C44_subscribe_case :
  h44 (lit "e") 3 = None /\ h44 (lit "e") 0 <> None /\ (unsubscribe (lit "e") 1 (o_run h44 os44)).2 = Ok tt /\
  (unsubscribe (lit "e") 2 (o_run h44 os44)).2 = Err KeyError.
Proof. split_and!; [done|done|by_vm|by_vm]. Qed.

(** A root without children counts as no root: listeners of other documents are called. *)
Theorem C44_broadcast_counterexample :
  exists (handler : pystr -> lid -> option (res unit)) (get_xmlroot : lid -> option rid) (os : list oop) (e : pystr) (r : rid) (x : lid),
    x ∈ (broadcast handler get_xmlroot elements e (Some (r, false)) (o_run handler os)).1 /\ get_xmlroot x <> Some r.
Proof. exists h44, r44, os44, (lit "e"), 7, 1. split; [dec_vm|done]. Qed.
Print Assumptions C44_broadcast_counterexample.
