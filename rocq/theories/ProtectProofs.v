From Verif Require Export ProtectSpec AttrsProofs.
Section proofs.
Context `{U : Unicode} `{F : PyFloat} `{R : Random}.

Lemma repr_key l : repr_chars l = key_text l.
Proof.
  unfold repr_chars, key_text. f_equal. f_equal.
  induction l as [|c l IH]; [done|]. destruct l as [|c' l]; [done|].
  change (quoted (c :: c' :: l)) with ([39; c; 39; 44; 32]%N ++ quoted (c' :: l)). by rewrite <- IH.
Qed.
Lemma fnchars_nodup : NoDup FNCHARS.
Proof. dec_vm. Qed.
Lemma fnchars_letters : Forall letter_or_digit FNCHARS.
Proof. unfold letter_or_digit. apply Forall_forall. intros c Hc. unfold FNCHARS in Hc.
  assert (H : forallb (fun c => ((65 <=? c) && (c <=? 90) || (97 <=? c) && (c <=? 122) || (48 <=? c) && (c <=? 57))%N)
    (lit "ABCDEFGHIJKLMNOPQRSTUVWXYZabcdefghijklmnopqrstuvwxyz0123456789") = true) by by_vm.
  rewrite forallb_forall in H. apply elem_of_list_In in Hc. apply H in Hc.
  apply orb_prop in Hc as [Hc|Hc]; [apply orb_prop in Hc as [Hc|Hc]|];
    apply andb_prop in Hc as [H1 H2]; apply N.leb_le in H1, H2; auto.
Qed.
Lemma drawn_good r : good_key (sample FNCHARS 12 r).1.
Proof.
  destruct (sample_law FNCHARS 12 r) as (H1 & H2 & H3); [apply fnchars_nodup|cbn; lia|].
  split_and!; [done..|]. apply Forall_forall. intros c Hc. apply H3 in Hc.
  pose proof fnchars_letters as Hf. rewrite Forall_forall in Hf. by apply Hf.
Qed.
Lemma get_set_flag h s e : is_protected h (e_set (flag_attr h) (if s : bool then lit "true" else lit "false") e) = s.
Proof. unfold is_protected, get_bool_attr. rewrite get_set, decide_True by done. by destruct s. Qed.
Lemma flag_key h : flag_attr h <> key_attr h.
Proof. by destruct h. Qed.
Lemma get_bool_other k k' s e : k <> k' -> get_bool_attr k (e_set k' s e) = get_bool_attr k e.
Proof. intros. unfold get_bool_attr. rewrite get_set. by rewrite decide_False. Qed.

Lemma protect_step h v e r :
  exists e' r', protect h v (e, r) = ((e', r'), Ok tt) /\ is_protected h e' = truth v /\
    only_attrs [flag_attr h; key_attr h] e e' /\
    if truth v
    then exists l, sample FNCHARS 12 r = (l, r') /\ e_get (key_attr h) e' = Some (key_text l)
    else r' = r /\ e_get (key_attr h) e' = e_get (key_attr h) e.
Proof.
  unfold protect, set_bool_attr. rewrite get_set_flag. destruct (truth v) eqn:Hv.
  - unfold random_protection_key. pose proof (drawn_good r) as (Hl & _ & _).
    destruct (sample FNCHARS 12 r) as [l r'] eqn:Es. cbn [fst] in Hl.
    unfold put_attr. cbn [truth tostr]. rewrite bool_decide_eq_true_2 by (by intros ->).
    rewrite repr_key. eexists _, _. split_and!; [reflexivity| | |].
    + unfold is_protected. rewrite get_bool_other by apply flag_key. apply (get_set_flag h true).
    + eapply only_trans; apply only_set; set_solver.
    + exists l. split; [done|]. rewrite get_set. by rewrite decide_True.
  - eexists _, _. split_and!; [reflexivity|apply (get_set_flag h false)|apply only_set; set_solver|done|].
    rewrite get_set. rewrite decide_False; [done|]. intros E. by apply (flag_key h).
Qed.

Lemma quoted_inj l1 l2 : quoted l1 = quoted l2 -> l1 = l2.
Proof.
  revert l2. induction l1 as [|c l IH]; intros [|c2 l2].
  - done.
  - by destruct l2.
  - by destruct l.
  - destruct l as [|d l], l2 as [|d2 l2].
    + by intros [= ->].
    + cbn. discriminate.
    + cbn. discriminate.
    + change (quoted (c :: d :: l)) with ([39; c; 39; 44; 32]%N ++ quoted (d :: l)).
      change (quoted (c2 :: d2 :: l2)) with ([39; c2; 39; 44; 32]%N ++ quoted (d2 :: l2)).
      intros H. injection H as -> H. f_equal. by apply IH.
Qed.
Lemma key_text_inj l1 l2 : key_text l1 = key_text l2 -> l1 = l2.
Proof. unfold key_text. intros H. apply app_inv_head, app_inv_tail in H. by apply quoted_inj. Qed.
Lemma quoted_len c l : length (quoted (c :: l)) = 5 * length l + 3.
Proof.
  revert c. induction l as [|d l IH]; intros c; [done|].
  change (quoted (c :: d :: l)) with ([39; c; 39; 44; 32]%N ++ quoted (d :: l)).
  rewrite app_length, IH. cbn [length]. lia.
Qed.
Lemma key_text_len l : good_key l -> length (key_text l) = 60.
Proof.
  intros [H _]. unfold key_text. rewrite !app_length. destruct l as [|c l]; [done|].
  rewrite quoted_len. cbn [length] in *. lia.
Qed.

Lemma history h vs : forall e r,
  let s' := protect_run h vs (e, r) in
  is_protected h s'.1 = default (is_protected h e) (truth <$> last vs) /\
  only_attrs [flag_attr h; key_attr h] e s'.1 /\
  e_get (key_attr h) s'.1 =
    match last (draws (trues vs) r) with Some l => Some (key_text l) | None => e_get (key_attr h) e end.
Proof.
  induction vs as [|v vs IH]; intros e r; cbv zeta.
  { split; [done|]. split; [|done]. unfold only_attrs. by split_and!. }
  cbn [protect_run]. destruct (protect_step h v e r) as (e1 & r1 & E & Hp & Ho & Hk). rewrite E. cbn [fst].
  destruct (IH e1 r1) as (I1 & I2 & I3). split; [|split].
  - rewrite I1. destruct vs as [|v' vs]; [done|]. rewrite last_cons_cons.
    destruct (last (v' :: vs)) eqn:El; [done|]. by apply last_None in El.
  - by eapply only_trans.
  - rewrite I3. unfold trues. rewrite filter_cons. destruct (truth v) eqn:Hv.
    + rewrite decide_True by done. destruct Hk as (l & Es & Hk). cbn [length draws]. rewrite Es.
      rewrite last_cons. by destruct (last (draws _ r1)).
    + rewrite decide_False by done. destruct Hk as [-> Hk]. by rewrite Hk.
Qed.
End proofs.
