(** C63: protecting sheets and sections. *)
From Verif Require Import ProtectProofs.

(** One assignment: the flag reads back; a protected holder gets a fresh key, an unprotected one
    keeps the key it has; nothing else changes. *)
Theorem C63_assign `{U : Unicode} `{F : PyFloat} `{R : Random} (h : holder) (v : pyval) (e : elem) (r : rnd) :
  exists e' r', protect h v (e, r) = ((e', r'), Ok tt) /\ is_protected h e' = truth v /\
    only_attrs [flag_attr h; key_attr h] e e' /\
    if truth v
    then exists l, sample FNCHARS 12 r = (l, r') /\ good_key l /\ e_get (key_attr h) e' = Some (key_text l)
    else r' = r /\ e_get (key_attr h) e' = e_get (key_attr h) e.
Proof.
  destruct (protect_step h v e r) as (e' & r' & H1 & H2 & H3 & H4). exists e', r'. split_and!; [done..|].
  destruct (truth v); [|done]. destruct H4 as (l & Hs & Hl). exists l. split; [done|]. split; [|done].
  pose proof (drawn_good r) as H. by rewrite Hs in H.
Qed.
Print Assumptions C63_assign.

(** The text of a key is the list of its characters: 60 characters; different keys have different texts. *)
Theorem C63_key_text `{U : Unicode} `{F : PyFloat} `{R : Random} (l l' : list N) :
  (good_key l -> length (key_text l) = 60) /\ (key_text l = key_text l' -> l = l') /\ key_text l <> l.
Proof.
  split; [|split].
  - apply key_text_len.
  - apply key_text_inj.
  - intros E. apply (f_equal length) in E. unfold key_text in E. rewrite !app_length in E.
    destruct l as [|c l]; [done|]. rewrite quoted_len in E. cbn [length] in E. lia.
Qed.
Print Assumptions C63_key_text.

(** All histories: the flag is that of the last assignment, the key is the last one drawn, and one is
    drawn for every assignment of a true value. *)
Theorem C63_history `{U : Unicode} `{F : PyFloat} `{R : Random} (h : holder) (vs : list pyval) (e : elem) (r : rnd) :
  let e' := (protect_run h vs (e, r)).1 in
  is_protected h e' = default (is_protected h e) (truth <$> last vs) /\
  only_attrs [flag_attr h; key_attr h] e e' /\
  e_get (key_attr h) e' =
    match last (draws (trues vs) r) with Some l => Some (key_text l) | None => e_get (key_attr h) e end /\
  Forall good_key (draws (trues vs) r) /\ length (draws (trues vs) r) = trues vs.
Proof.
  destruct (history h vs e r) as (H1 & H2 & H3). split; [done|]. split; [done|]. split; [done|].
  generalize (trues vs) as n. intros n. clear. revert r. induction n as [|n IH]; intros r; [by split; [constructor|]|]. cbn [draws].
  pose proof (drawn_good r) as Hg. destruct (sample FNCHARS 12 r) as [l r'].
  destruct (IH r') as [I1 I2]. split; [by constructor|]. cbn [length]. by rewrite I2.
Qed.
Print Assumptions C63_history.

(** Reading: only the text "true" protects. *)
Theorem C63_read `{U : Unicode} `{F : PyFloat} (h : holder) (e : elem) :
  is_protected h e = true <-> e_get (flag_attr h) e = Some (lit "true").
Proof.
  unfold is_protected, get_bool_attr. destruct (e_get (flag_attr h) e) as [s|]; [|done].
  destruct (truth (VStr s)) eqn:Et.
  - rewrite bool_decide_eq_true. split; [by intros ->|by intros [= ->]].
  - split; [done|]. by intros [= ->].
Qed.
Print Assumptions C63_read.

(** ** Cases *)
Lemma rotate_perm {A} (n : nat) (l : list A) : rotate n l ≡ₚ l.
Proof. unfold rotate. rewrite Permutation_app_comm. by rewrite take_drop. Qed.
Lemma rotating_law (s : list N) (k r : nat) : NoDup s -> k <= length s ->
  length (take k (rotate r s)) = k /\ NoDup (take k (rotate r s)) /\ take k (rotate r s) ⊆ s.
Proof.
  intros Hs Hk. pose proof (rotate_perm r s) as Hp.
  assert (Hn : NoDup (rotate r s)) by by rewrite Hp.
  split; [|split].
  - rewrite take_length, rotate_length. lia.
  - rewrite <- (take_drop k (rotate r s)) in Hn. by apply NoDup_app in Hn as [Hn _].
  - intros c Hc. apply (elem_of_rotate s r). rewrite <- (take_drop k (rotate r s)). apply elem_of_app. by left.
Qed.
(** a generator that deals the characters one after the other *)
Definition rotating : Random :=
  {| rnd := nat; sample := fun s k r => (take k (rotate r s), S r); sample_law := rotating_law |}.
Local Existing Instance int_float.
Local Existing Instance ascii_unicode.
Definition e63 : elem := e_set "table:name" (lit "Sheet1") (new_elem "table:table").
Example C63_assign_case :
  let p := protect (F := int_float) (R := rotating) HTable (VInt 1) (e63, 1) in
  let e1 := p.1.1 in
  p.2 = Ok tt /\ p.1.2 = 2 /\ is_protected HTable e1 = true /\ is_protected HTable e63 = false /\
  e_get "table:protection-key" e1 = Some (lit "['B', 'C', 'D', 'E', 'F', 'G', 'H', 'I', 'J', 'K', 'L', 'M']").
Proof. cbv zeta. repeat lazymatch goal with |- _ /\ _ => split end; by_vm. Qed.
Example C63_key_text_case : good_key (lit "ABCDEFGHIJKL") /\ key_text (lit "Ab") = lit "['A', 'b']".
Proof.
  split; [|by_vm]. split; [by_vm|]. split; [dec_vm|]. exact (proj2 (proj2 (drawn_good (R := rotating) 0))).
Qed.
(** unprotecting leaves the key; protecting again draws a new one *)
Example C63_history_case :
  let e1 := (protect_run (F := int_float) (R := rotating) HTable [VBool true; VBool false] (e63, 0)).1 in
  let e2 := (protect_run (F := int_float) (R := rotating) HTable [VBool true; VBool false; VBool true] (e63, 0)).1 in
  is_protected HTable e1 = false /\ is_protected HTable e2 = true /\
  e_get "table:protection-key" e1 = Some (lit "['A', 'B', 'C', 'D', 'E', 'F', 'G', 'H', 'I', 'J', 'K', 'L']") /\
  e_get "table:protection-key" e2 = Some (lit "['B', 'C', 'D', 'E', 'F', 'G', 'H', 'I', 'J', 'K', 'L', 'M']") /\
  e_get "table:name" e2 = Some (lit "Sheet1").
Proof. cbv zeta. repeat lazymatch goal with |- _ /\ _ => split end; by_vm. Qed.
Example C63_read_case :
  is_protected (F := int_float) HSection (e_set "text:protected" (lit "True") (new_elem "text:section")) = false /\
  is_protected (F := int_float) HSection (e_set "text:protected" (lit "true") (new_elem "text:section")) = true.
Proof. split; by_vm. Qed.

(** The key is not the sequence of characters that was drawn, and it survives unprotecting. *)
Theorem C63_counterexample `{U : Unicode} `{F : PyFloat} `{R : Random} (h : holder) (e : elem) (r : rnd) :
  exists e1 e2 r1, protect h (VBool true) (e, r) = ((e1, r1), Ok tt) /\ protect h (VBool false) (e1, r1) = ((e2, r1), Ok tt) /\
    e_get (key_attr h) e1 <> Some (sample FNCHARS 12 r).1 /\ is_protected h e2 = false /\
    e_get (key_attr h) e2 = e_get (key_attr h) e1 /\ e_get (key_attr h) e2 <> None.
Proof.
  destruct (C63_assign h (VBool true) e r) as (e1 & r1 & H1 & _ & _ & l & Hs & _ & Hl).
  destruct (C63_assign h (VBool false) e1 r1) as (e2 & r2 & H2 & Hp & _ & -> & Hk).
  exists e1, e2, r1. split; [done|]. split; [done|]. rewrite Hs, Hl. cbn [fst]. split.
  - intros [= E]. by apply (C63_key_text l l).
  - split; [done|]. split; [by rewrite Hk|]. by rewrite Hk, Hl.
Qed.
Print Assumptions C63_counterexample.
