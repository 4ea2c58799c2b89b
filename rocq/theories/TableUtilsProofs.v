From Verif Require Export PyBaseFacts TableUtilsSpec.
From Coq Require Import Sorting.Sorted.
From Coq Require Import ZifyBool ZifyNat ZifyN.
Ltac Zify.zify_post_hook ::= Z.div_mod_to_equations.

(** ** Ranges *)
Lemma elem_of_zrange a n x : x ∈ zrange a n <-> (a <= x < a + Z.of_nat n)%Z.
Proof.
  unfold zrange. rewrite elem_of_list_fmap. split.
  - intros (k & -> & Hk). apply elem_of_seq in Hk. lia.
  - intros H. exists (Z.to_nat (x - a)). split; [lia|]. apply elem_of_seq. lia.
Qed.

Lemma zrange_S a n : zrange a (S n) = a :: zrange (a + 1) n.
Proof.
  unfold zrange. cbn. f_equal; [lia|]. rewrite <- seq_shift, map_map.
  apply map_ext. intros k. lia.
Qed.

Lemma zrange_length a n : length (zrange a n) = n.
Proof. unfold zrange. by rewrite map_length, seq_length. Qed.

Lemma range_elem pos size l p :
  iter_cell_range pos size = Ok l ->
  p ∈ l <-> (pos.1 <= p.1 < pos.1 + size.1 /\ pos.2 <= p.2 < pos.2 + size.2)%Z.
Proof.
  destruct pos as [r0 c0], size as [nr nc], p as [r c]. unfold iter_cell_range.
  case_decide; [done|]. case_decide; [done|]. intros [= <-]. cbn.
  rewrite elem_of_list_In, in_flat_map. split.
  - intros (x & Hx & Hp). apply in_map_iff in Hp as (y & [= -> ->] & Hy).
    apply elem_of_list_In, elem_of_zrange in Hx, Hy. lia.
  - intros Hp. exists r. split; [apply elem_of_list_In, elem_of_zrange; lia|].
    apply in_map_iff. exists c. split; [done|]. apply elem_of_list_In, elem_of_zrange. lia.
Qed.

Lemma zrange_sorted a n : StronglySorted Z.lt (zrange a n).
Proof.
  revert a. induction n as [|n IH]; intros a; [constructor|]. rewrite zrange_S.
  constructor; [apply IH|]. apply Forall_forall. intros x Hx. apply elem_of_zrange in Hx. lia.
Qed.

Lemma StronglySorted_app' {A} (R : A -> A -> Prop) l1 l2 :
  StronglySorted R l1 -> StronglySorted R l2 ->
  (forall x y, x ∈ l1 -> y ∈ l2 -> R x y) -> StronglySorted R (l1 ++ l2).
Proof.
  induction 1 as [|x l1 H1 IH H2]; intros Hs HR; cbn; [done|]. constructor.
  - apply IH; [done|]. intros a b Ha Hb. apply HR; [by right|done].
  - apply Forall_app. split; [done|]. apply Forall_forall. intros y Hy. apply HR; [by left|done].
Qed.

Lemma rows_sorted (rs cs : list Z) :
  StronglySorted Z.lt rs -> StronglySorted Z.lt cs ->
  StronglySorted pos_lt (flat_map (fun r => map (fun c => (r, c)) cs) rs).
Proof.
  intros Hr Hc. induction Hr as [|r rs Hr IH Hlt]; cbn; [constructor|].
  apply StronglySorted_app'; [|done|].
  - clear IH. induction Hc as [|c cs Hc IHc Hltc]; cbn; [constructor|]. constructor; [done|].
    apply Forall_forall. intros p Hp. apply elem_of_list_In, in_map_iff in Hp as (y & <- & Hy).
    right. cbn. split; [done|]. rewrite Forall_forall in Hltc. apply Hltc. by apply elem_of_list_In.
  - intros x y Hx Hy. apply elem_of_list_In, in_map_iff in Hx as (a & <- & _).
    apply elem_of_list_In, in_flat_map in Hy as (b & Hb & Hy). apply in_map_iff in Hy as (d & <- & _).
    left. cbn. rewrite Forall_forall in Hlt. apply Hlt. by apply elem_of_list_In.
Qed.

Lemma range_sorted pos size l : iter_cell_range pos size = Ok l -> StronglySorted pos_lt l.
Proof.
  destruct pos as [r0 c0], size as [nr nc]. unfold iter_cell_range.
  case_decide; [done|]. case_decide; [done|]. intros [= <-].
  apply rows_sorted; apply zrange_sorted.
Qed.

Lemma sorted_NoDup l : StronglySorted pos_lt l -> NoDup l.
Proof.
  induction 1 as [|x l Hs IH Hf]; constructor; [|done].
  intros Hx. rewrite Forall_forall in Hf. apply Hf in Hx. unfold pos_lt in Hx. lia.
Qed.

Lemma range_length pos size l :
  iter_cell_range pos size = Ok l -> Z.of_nat (length l) = (size.1 * size.2)%Z.
Proof.
  destruct pos as [r0 c0], size as [nr nc]. unfold iter_cell_range.
  case_decide; [done|]. case_decide as Hs; [done|]. intros [= <-]. cbn.
  assert (H' : forall rs : list Z, length (flat_map (fun r => map (fun c => (r, c)) (zrange c0 (Z.to_nat nc))) rs)
     = length rs * Z.to_nat nc).
  { induction rs as [|r rs IH]; [done|]. cbn. rewrite app_length, map_length, zrange_length, IH. done. }
  rewrite H', zrange_length. nia.
Qed.

Lemma range_head pos size l : iter_cell_range pos size = Ok l -> head l = Some pos.
Proof.
  destruct pos as [r0 c0], size as [nr nc]. unfold iter_cell_range.
  case_decide; [done|]. case_decide as Hs; [done|]. intros [= <-].
  destruct (Z.to_nat nr) as [|k] eqn:E1; [lia|]. destruct (Z.to_nat nc) as [|m] eqn:E2; [lia|].
  rewrite !zrange_S. done.
Qed.

Lemma range_err pos size :
  iter_cell_range pos size = Err ValueError <-> (pos.1 < 0 \/ pos.2 < 0 \/ size.1 < 1 \/ size.2 < 1)%Z.
Proof.
  destruct pos as [r0 c0], size as [nr nc]. unfold iter_cell_range. cbn.
  case_decide; [split; [lia|done]|]. case_decide; [split; [lia|done]|]. split; [done|lia].
Qed.

(** ** Column names *)
Definition cstep : Z * Z -> N -> Z * Z :=
  fun '(index, power) char => (index + (Z.of_N char - 64) * power, power * 26)%Z.

Lemma cstep_lin l i p :
  foldl cstep (i, p) l =
    ((i + p * fst (foldl cstep (0, 1) l))%Z, (p * snd (foldl cstep (0, 1) l))%Z).
Proof.
  revert i p. induction l as [|c l IH]; intros i p; cbn [foldl cstep].
  - cbn. f_equal; lia.
  - rewrite (IH (i + _)%Z), (IH (0 + _)%Z). cbn [fst snd]. f_equal; lia.
Qed.

Lemma column_index_snoc w c :
  column_name_to_index (w ++ [c]) = (26 * (column_name_to_index w + 1) + (Z.of_N c - 65))%Z.
Proof.
  unfold column_name_to_index. fold cstep. rewrite rev_app_distr. cbn [rev app foldl].
  change (cstep (0, 1)%Z c) with ((0 + (Z.of_N c - 64) * 1)%Z, (1 * 26)%Z). rewrite cstep_lin.
  destruct (foldl cstep (0, 1)%Z (rev w)) as [a b]. cbn [fst snd]. lia.
Qed.

Lemma column_index_name w n : is_col_name w n -> column_name_to_index w = n.
Proof.
  induction 1 as [c Hc|w n c Hw IH Hc].
  - unfold column_name_to_index. cbn. lia.
  - by rewrite column_index_snoc, IH.
Qed.

Lemma letters_name w :
  w <> [] -> Forall (fun c => 65 <= c <= 90)%N w -> is_col_name w (column_name_to_index w).
Proof.
  intros Hne Hf. induction w as [|c w IH] using rev_ind; [done|].
  apply Forall_app in Hf as [Hf Hc]. rewrite Forall_singleton in Hc.
  destruct w as [|c' w].
  - cbn [app]. replace (column_name_to_index [c]) with (Z.of_N c - 65)%Z; [by constructor|].
    unfold column_name_to_index. cbn. lia.
  - rewrite column_index_snoc. constructor; [|done]. by apply IH.
Qed.

Lemma name_letters w n : is_col_name w n -> w <> [] /\ Forall (fun c => 65 <= c <= 90)%N w /\ (0 <= n)%Z.
Proof.
  induction 1 as [c Hc|w n c Hw (IH1 & IH2 & IH3) Hc].
  - split_and!; [done|by apply Forall_singleton|lia].
  - split_and!; [by destruct w|apply Forall_app; split; [done|by apply Forall_singleton]|lia].
Qed.

Lemma name_inj w w' n : is_col_name w n -> is_col_name w' n -> w = w'.
Proof.
  intros H. revert w'. induction H as [c Hc|w n c Hw IH Hc]; intros w' H'.
  - inversion H' as [c' Hc' E1 E2|v m c' Hv Hc' E1 E2]; subst.
    + f_equal. lia.
    + apply name_letters in Hv as (_ & _ & Hm). lia.
  - pose proof (name_letters _ _ Hw) as (_ & _ & Hn).
    inversion H' as [c' Hc' E1 E2|v m c' Hv Hc' E1 E2]; subst.
    + lia.
    + assert (m = n /\ c = c') as [-> ->] by lia. f_equal. by apply IH.
Qed.

Lemma name_exists n : (0 <= n)%Z -> exists w, is_col_name w n.
Proof.
  intros Hn. remember (Z.to_nat n) as k eqn:Ek. revert n Hn Ek.
  induction (lt_wf k) as [k _ IH]. intros n Hn ->.
  destruct (decide (n < 26)%Z) as [H|H].
  - exists [Z.to_N (n + 65)]. replace n with (Z.of_N (Z.to_N (n + 65)) - 65)%Z at 2 by lia.
    constructor. lia.
  - destruct (IH (Z.to_nat (n / 26 - 1))) with (n := (n / 26 - 1)%Z) as [w Hw]; [lia..|].
    exists (w ++ [Z.to_N (n mod 26 + 65)]).
    replace n with (26 * ((n / 26 - 1) + 1) + (Z.of_N (Z.to_N (n mod 26 + 65)) - 65))%Z at 2 by lia.
    constructor; [done|lia].
Qed.

(** ** The parser *)
Section addr.
Context `{U : Unicode}.

Lemma span_spec p s a b :
  span p s = (a, b) ->
  s = a ++ b /\ Forall (fun c => p c = true) a /\ (forall c, head b = Some c -> p c = false).
Proof.
  revert a b. induction s as [|c s IH]; intros a b; cbn.
  - intros [= <- <-]. done.
  - destruct (p c) eqn:Ep.
    + destruct (span p s) as [a' b']. intros [= <- <-]. destruct (IH a' b' eq_refl) as (-> & H1 & H2).
      split_and!; [done|by constructor|done].
    + intros [= <- <-]. split_and!; [done|done|]. cbn. by intros c' [= <-].
Qed.

Lemma span_app p a b :
  Forall (fun c => p c = true) a -> (forall c, head b = Some c -> p c = false) ->
  span p (a ++ b) = (a, b).
Proof.
  induction 1 as [|c a Hc Ha IH]; intros Hb; cbn.
  - destruct b as [|c b]; [done|]. cbn. by rewrite Hb.
  - rewrite Hc, IH by done. done.
Qed.

Lemma is_AZ_true c : is_AZ c = true <-> (65 <= c <= 90)%N.
Proof. unfold is_AZ. by rewrite bool_decide_eq_true. Qed.
Lemma is_dig_true c : is_dig c = true <-> is_Some (u_digit c).
Proof. unfold is_dig. by rewrite bool_decide_eq_true. Qed.
Lemma AZ_not_dig c : (65 <= c <= 90)%N -> is_dig c = false.
Proof.
  intros H. unfold is_dig. apply bool_decide_eq_false_2. rewrite u_digit_ascii by lia.
  unfold ascii_digit. rewrite decide_False by lia. by intros [? ?].
Qed.
Lemma dig_not_AZ c : is_Some (u_digit c) -> is_AZ c = false.
Proof.
  intros H. apply is_dig_true in H. destruct (is_AZ c) eqn:E; [|done].
  apply is_AZ_true, AZ_not_dig in E. congruence.
Qed.

Lemma match_iff t w d : cell_address_match t = Some (w, d) <-> is_address t w d.
Proof.
  unfold cell_address_match. split.
  - destruct (span is_AZ t) as [w' r] eqn:E1. destruct (span is_dig r) as [d' nl] eqn:E2.
    apply span_spec in E1 as (-> & Hw & _). apply span_spec in E2 as (-> & Hd & _).
    destruct w' as [|c w']; [done|]. destruct d' as [|c' d']; [done|].
    case_decide as Hn; [|done]. intros [= <- <-]. exists nl.
    split_and!; [done|done|done| |done|].
    + eapply Forall_impl; [exact Hw|]. intros ? ?%is_AZ_true. done.
    + eapply Forall_impl; [exact Hd|]. intros ? ?%is_dig_true. done.
  - intros (nl & -> & Hn & Hw & Hwf & Hd & Hdf).
    rewrite (span_app is_AZ).
    + rewrite (span_app is_dig).
      * destruct w; [done|]. destruct d; [done|]. by rewrite decide_True.
      * eapply Forall_impl; [exact Hdf|]. intros ? ?. by apply is_dig_true.
      * destruct Hn as [-> | ->]; cbn; [done|]. intros c [= <-]. unfold is_dig.
        apply bool_decide_eq_false_2. rewrite u_digit_ascii by lia. cbn. by intros [? ?].
    + eapply Forall_impl; [exact Hwf|]. intros ? ?. by apply is_AZ_true.
    + destruct d as [|c d]; [done|]. cbn. intros c' [= <-]. apply dig_not_AZ.
      by apply Forall_cons in Hdf as [? _].
Qed.

Lemma int_digits_dec acc us d :
  (us = true -> d <> []) -> Forall (fun c => is_Some (u_digit c)) d ->
  exists n, int_digits acc us d = Some n /\ Z.of_N n = dec_value (Z.of_N acc) d.
Proof.
  revert acc us. induction d as [|c d IH]; intros acc us Hus Hd; cbn [int_digits dec_value].
  - destruct us; [by destruct Hus|]. eauto.
  - apply Forall_cons in Hd as [[v Hv] Hd]. rewrite decide_False.
    + rewrite Hv. destruct (IH (10 * acc + v)%N false) as (n & -> & E); [done..|].
      eexists. split; [done|]. rewrite E. f_equal. lia.
    + intros ->. rewrite u_digit_ascii in Hv by lia. done.
Qed.

Lemma py_int_digits d :
  d <> [] -> Forall (fun c => is_Some (u_digit c)) d -> py_int d = Ok (dec_value 0 d).
Proof.
  intros Hne Hd. unfold py_int.
  assert (Hsp : forall c, is_Some (u_digit c) -> u_space c = false).
  { intros c [v Hv]. by eapply u_digit_space. }
  rewrite py_strip_id.
  - destruct d as [|c d]; [done|].
    pose proof (proj1 (Forall_cons _ _ _) Hd) as [Hc _].
    rewrite decide_False by (intros ->; destruct Hc as [v Hv]; by rewrite u_digit_ascii in Hv by lia).
    rewrite decide_False by (intros ->; destruct Hc as [v Hv]; by rewrite u_digit_ascii in Hv by lia).
    destruct (int_digits_dec 0 true (c :: d)) as (n & -> & E); [done..|]. cbn [option_map].
    by rewrite E.
  - intros c Hc. destruct d as [|c' d]; [done|]. injection Hc as ->. apply Hsp.
    by apply Forall_cons in Hd as [? _].
  - intros c Hc. apply last_Some in Hc as [d' ->]. apply Hsp. apply Forall_app in Hd as [_ Hd].
    by rewrite Forall_singleton in Hd.
Qed.

Lemma address_ok s w d :
  is_address (py_upper s) w d ->
  address_to_index s = Ok ((dec_value 0 d - 1)%Z, column_name_to_index w).
Proof.
  intros H. unfold address_to_index. pose proof H as (nl & _ & _ & _ & _ & Hne & Hd).
  apply match_iff in H as ->. by rewrite py_int_digits.
Qed.

Lemma address_err s :
  (forall w d, ~ is_address (py_upper s) w d) -> address_to_index s = Err ValueError.
Proof.
  intros H. unfold address_to_index. destruct (cell_address_match _) as [[w d]|] eqn:E; [|done].
  apply match_iff in E. by apply H in E.
Qed.

Lemma address_cases s :
  (exists w d, is_address (py_upper s) w d) \/ (forall w d, ~ is_address (py_upper s) w d).
Proof.
  destruct (cell_address_match (py_upper s)) as [[w d]|] eqn:E.
  - left. exists w, d. by apply match_iff.
  - right. intros w d H. apply match_iff in H. congruence.
Qed.

Lemma py_upper_ascii s :
  Forall (fun c => c < 128)%N s -> py_upper s = map ascii_upper s.
Proof.
  induction 1 as [|c s Hc Hs IH]; [done|]. cbn. rewrite u_upc_ascii by done. cbn. by f_equal.
Qed.

Lemma upper_lower c : ascii_upper (ascii_lower c) = ascii_upper c.
Proof. unfold ascii_upper, ascii_lower. repeat case_decide; lia. Qed.

Lemma address_lower s :
  Forall (fun c => c < 128)%N s -> address_to_index (map ascii_lower s) = address_to_index s.
Proof.
  intros Hs. unfold address_to_index. rewrite !py_upper_ascii; [|done|].
  - rewrite map_map. by erewrite map_ext by apply upper_lower.
  - rewrite Forall_fmap. eapply Forall_impl; [done|]. cbn. intros c Hc. unfold ascii_lower.
    case_decide; lia.
Qed.

Lemma show_Z_digits r : (0 <= r)%Z -> Forall (fun c => 48 <= c <= 57)%N (show_Z r).
Proof.
  intros Hr. unfold show_Z. rewrite decide_False by lia. unfold show_N. rewrite Forall_fmap.
  eapply Forall_impl; [apply digits_fuel_lt|]. cbn. intros. lia.
Qed.

Lemma address_name w c r :
  is_col_name w c -> (0 <= r)%Z -> address_to_index (w ++ show_Z (r + 1)) = Ok (r, c).
Proof.
  intros Hw Hr. pose proof (name_letters _ _ Hw) as (Hne & Hf & _).
  pose proof (show_Z_digits (r + 1) ltac:(lia)) as Hd.
  assert (Ha : Forall (fun c => c < 128)%N (w ++ show_Z (r + 1))).
  { apply Forall_app; split; eapply Forall_impl; [exact Hf|cbn; lia|exact Hd|cbn; lia]. }
  assert (Hdig : Forall (fun c => is_Some (u_digit c)) (show_Z (r + 1))).
  { eapply Forall_impl; [exact Hd|]. cbn. intros x Hx. rewrite u_digit_ascii by lia.
    unfold ascii_digit. rewrite decide_True by lia. eauto. }
  rewrite (address_ok _ w (show_Z (r + 1))).
  - rewrite (column_index_name _ _ Hw).
    pose proof (py_int_show_Z (r + 1)) as E. rewrite py_int_digits in E by (done || apply show_Z_ne).
    injection E as ->. do 2 f_equal. lia.
  - exists []. rewrite app_nil_r. split_and!; [|by left|done|done|apply show_Z_ne|done].
    rewrite py_upper_ascii by done. rewrite map_app. f_equal.
    + rewrite <- (map_id w) at 2. apply map_ext_in. intros x Hx. apply elem_of_list_In in Hx.
      rewrite Forall_forall in Hf. apply Hf in Hx. unfold ascii_upper. rewrite decide_False by lia. done.
    + rewrite <- (map_id (show_Z _)) at 2. apply map_ext_in. intros x Hx. apply elem_of_list_In in Hx.
      rewrite Forall_forall in Hd. apply Hd in Hx. unfold ascii_upper. rewrite decide_False by lia. done.
Qed.
End addr.
