(** Lemmas about the base layer. *)
From Verif Require Export PyBase Dom.
From Coq Require Import ZifyBool ZifyNat ZifyN.
Ltac Zify.zify_post_hook ::= Z.div_mod_to_equations.

Definition horner (acc : N) (ds : list N) : N := foldl (fun a d => 10 * a + d)%N acc ds.

Lemma digits_fuel_lt f n : Forall (fun d => (d < 10)%N) (digits_fuel f n).
Proof.
  revert n. induction f as [|f IH]; intros n; cbn; [constructor|].
  case_decide; [repeat constructor; done|].
  apply Forall_app; split; [apply IH|]. repeat constructor. lia.
Qed.

Lemma digits_fuel_horner f n :
  (n < 2 ^ N.of_nat f)%N -> horner 0 (digits_fuel (S f) n) = n.
Proof.
  revert n. induction f as [|f IH]; intros n Hn.
  - cbn in Hn. assert (n = 0)%N as -> by lia. reflexivity.
  - remember (S f) as g. cbn [digits_fuel]. case_decide as Hd; [cbn; lia|]. subst g.
    unfold horner. rewrite foldl_app. cbn [foldl].
    fold (horner 0 (digits_fuel (S f) (n / 10)%N)). rewrite IH; [lia|].
    rewrite Nat2N.inj_succ, N.pow_succ_r' in Hn. lia.
Qed.

Lemma digits_fuel_ne f n : digits_fuel (S f) n <> [].
Proof. cbn [digits_fuel]. case_decide; [done|]. intros E. by apply app_eq_nil in E as [_ ?]. Qed.

Lemma size_nat_bound n : (n < 2 ^ N.of_nat (N.size_nat n))%N.
Proof.
  destruct n as [|p]; [cbn; lia|].
  assert (N.of_nat (N.size_nat (Npos p)) = N.size (Npos p)) as ->.
  { cbn. induction p as [p IH|p IH|]; cbn; lia. }
  apply N.size_gt.
Qed.

Lemma digits_horner n : horner 0 (digits_fuel (S (N.size_nat n)) n) = n.
Proof. apply digits_fuel_horner, size_nat_bound. Qed.

Section facts.
Context `{U : Unicode}.

Lemma u_digit_code d : (d < 10)%N -> u_digit (48 + d) = Some d.
Proof.
  intros H. rewrite u_digit_ascii by lia. unfold ascii_digit.
  rewrite decide_True by lia. f_equal. lia.
Qed.

Lemma int_digits_codes acc us ds :
  Forall (fun d => (d < 10)%N) ds -> (us = true -> ds <> []) ->
  int_digits acc us (map (fun d => (48 + d)%N) ds) = Some (horner acc ds).
Proof.
  revert acc us. induction ds as [|d ds IH]; intros acc us Hf Hus; cbn [map int_digits].
  - destruct us; [by destruct Hus|done].
  - apply Forall_cons in Hf as [Hd Hf]. rewrite decide_False by lia.
    rewrite u_digit_code by done. rewrite IH; done.
Qed.

Lemma lstrip_nospace c s : u_space c = false -> lstrip (c :: s) = c :: s.
Proof. intros H. cbn. by rewrite H. Qed.

Lemma lstrip_id s : head s ≫= (fun c => if u_space c then Some tt else None) = None -> lstrip s = s.
Proof. destruct s as [|c s]; cbn; [done|]. by destruct (u_space c). Qed.

Lemma py_strip_id s :
  (forall c, head s = Some c -> u_space c = false) ->
  (forall c, last s = Some c -> u_space c = false) -> py_strip s = s.
Proof.
  intros H1 H2. unfold py_strip. rewrite (lstrip_id s).
  - rewrite lstrip_id; [apply reverse_involutive|].
    rewrite head_reverse. destruct (last s) as [c|] eqn:E; [|done]. cbn. by rewrite H2.
  - destruct (head s) as [c|] eqn:E; [|done]. cbn. by rewrite H1.
Qed.

Lemma u_space_digit d : (d < 10)%N -> u_space (48 + d) = false.
Proof. intros H. eapply u_digit_space. by apply u_digit_code. Qed.

Lemma last_map {A B} (f : A -> B) (l : list A) : last (map f l) = option_map f (last l).
Proof.
  destruct l as [|x l] using rev_ind; [done|]. rewrite map_app, last_snoc. cbn.
  by rewrite last_snoc.
Qed.

Lemma show_N_last n c : last (show_N n) = Some c -> u_space c = false.
Proof.
  unfold show_N. rewrite last_map. intros H.
  pose proof (digits_fuel_lt (S (N.size_nat n)) n) as Hf.
  destruct (last (digits_fuel _ _)) as [d|] eqn:E; [|done]. cbn in H. injection H as <-.
  apply u_space_digit. apply last_Some in E as [l' E]. rewrite E in Hf.
  apply Forall_app in Hf as [_ Hf]. by apply Forall_inv in Hf.
Qed.

Lemma show_N_cons n : exists c r, show_N n = c :: r /\ (48 <= c <= 57)%N.
Proof.
  unfold show_N. pose proof (digits_fuel_ne (N.size_nat n) n) as Hne.
  pose proof (digits_fuel_lt (S (N.size_nat n)) n) as Hf.
  destruct (digits_fuel _ _) as [|d ds]; [done|].
  apply Forall_inv in Hf. eexists _, _. split; [reflexivity|]. lia.
Qed.

Lemma py_int_show_Z z : py_int (show_Z z) = Ok z.
Proof.
  assert (Hd : forall n, int_digits 0 true (show_N n) = Some n).
  { intros n. unfold show_N. rewrite int_digits_codes.
    - by rewrite digits_horner.
    - apply digits_fuel_lt.
    - intros _. apply digits_fuel_ne. }
  assert (Hsp : forall c, (48 <= c <= 57)%N -> u_space c = false).
  { intros c Hc. replace c with (48 + (c - 48))%N by lia. apply u_space_digit. lia. }
  unfold py_int, show_Z. case_decide as Hz.
  - destruct (show_N_cons (Z.to_N (- z))) as (c & r & E & Hc).
    rewrite py_strip_id.
    + rewrite decide_True by done. rewrite Hd. cbn. f_equal. lia.
    + intros c' [= <-]. rewrite u_space_ascii by lia. done.
    + intros c' Hl. eapply (show_N_last (Z.to_N (- z))). rewrite E in Hl |- *. exact Hl.
  - destruct (show_N_cons (Z.to_N z)) as (c & r & E & Hc).
    rewrite py_strip_id.
    + rewrite E. rewrite !decide_False by lia. rewrite <- E, Hd. cbn. f_equal. lia.
    + rewrite E. intros c' [= <-]. by apply Hsp.
    + apply show_N_last.
Qed.

Lemma show_Z_ne z : show_Z z <> [].
Proof.
  unfold show_Z. case_decide; [done|].
  destruct (show_N_cons (Z.to_N z)) as (c & r & -> & _). done.
Qed.
End facts.

Lemma show_Z_ascii z : Forall (fun c => (c < 128)%N) (show_Z z).
Proof.
  assert (H : forall n, Forall (fun c => (c < 128)%N) (show_N n)).
  { intros n. unfold show_N. rewrite Forall_fmap.
    eapply Forall_impl; [apply digits_fuel_lt|]. cbn. intros. lia. }
  unfold show_Z. case_decide; [constructor; [lia|]|]; apply H.
Qed.

(** Indexing facts *)
Lemma py_index_lt n i k : py_index n i = Some k -> k < n.
Proof. unfold py_index. repeat case_decide; intros [= <-]; lia. Qed.

Lemma py_index_nonneg n i : (0 <= i < Z.of_nat n)%Z -> py_index n i = Some (Z.to_nat i).
Proof. intros H. unfold py_index. by rewrite decide_True. Qed.

Lemma py_index_neg n i : (- Z.of_nat n <= i < 0)%Z -> py_index n i = Some (Z.to_nat (Z.of_nat n + i)).
Proof. intros H. unfold py_index. rewrite decide_False by lia. by rewrite decide_True. Qed.

Lemma py_get_lookup {A} (l : list A) i x :
  py_get l i = Ok x <-> exists k, py_index (length l) i = Some k /\ l !! k = Some x.
Proof.
  unfold py_get. destruct (py_index _ _) as [k|] eqn:E.
  - destruct (l !! k) as [y|] eqn:E2; split.
    + intros [= ->]. eauto.
    + intros (k' & [= <-] & ?). congruence.
    + done.
    + intros (k' & [= <-] & ?). congruence.
  - split; [done|]. by intros (? & ? & ?).
Qed.

Lemma py_get_err {A} (l : list A) i e :
  py_get l i = Err e -> e = IndexError /\ py_index (length l) i = None.
Proof.
  unfold py_get. destruct (py_index _ _) as [k|] eqn:E.
  - destruct (l !! k) as [y|] eqn:E2; [done|]. apply py_index_lt in E.
    apply lookup_ge_None_1 in E2. lia.
  - by intros [= <-].
Qed.

Lemma rmap_app {A B} (f : A -> res B) l1 l2 :
  rmap f (l1 ++ l2) = do a <- rmap f l1; do b <- rmap f l2; Ok (a ++ b).
Proof.
  induction l1 as [|x l1 IH]; cbn.
  - by destruct (rmap f l2).
  - destruct (f x); cbn; [|done]. rewrite IH. destruct (rmap f l1); cbn; [|done].
    by destruct (rmap f l2).
Qed.

Lemma rmap_ext_Forall {A B} (f g : A -> res B) l :
  Forall (fun x => f x = g x) l -> rmap f l = rmap g l.
Proof. induction 1 as [|x l Hx _ IH]; cbn; [done|]. by rewrite Hx, IH. Qed.

Lemma rmap_map {A B C} (f : B -> res C) (g : A -> B) l :
  rmap f (map g l) = rmap (fun x => f (g x)) l.
Proof. induction l as [|x l IH]; cbn; [done|]. by rewrite IH. Qed.

Lemma rmap_Ok {A B} (f : A -> B) l : rmap (fun x => Ok (f x)) l = Ok (map f l).
Proof. induction l as [|x l IH]; cbn; [done|]. by rewrite IH. Qed.

Lemma rmap_length {A B} (f : A -> res B) l r : rmap f l = Ok r -> length r = length l.
Proof.
  revert r. induction l as [|x l IH]; cbn; intros r; [by intros [= <-]|].
  destruct (f x); cbn; [|done]. destruct (rmap f l); cbn; [|done]. intros [= <-].
  cbn. f_equal. by apply IH.
Qed.

Lemma rmap_Ok_Forall2 {A B} (f : A -> res B) l r :
  rmap f l = Ok r <-> Forall2 (fun x y => f x = Ok y) l r.
Proof.
  revert r. induction l as [|x l IH]; intros r; cbn.
  - split; [intros [= <-]; constructor|]. by inversion 1.
  - split.
    + destruct (f x) eqn:E; cbn; [|done]. destruct (rmap f l); cbn; [|done].
      intros [= <-]. constructor; [done|]. by apply IH.
    + inversion 1 as [|? y ? r' H1 H2]; subst. rewrite H1. cbn.
      apply IH in H2. by rewrite H2.
Qed.
