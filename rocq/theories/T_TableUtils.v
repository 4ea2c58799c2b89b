(** Theorems C06-C08: cell addresses and cell ranges. *)
From Verif Require Import TableUtilsProofs.
From Coq Require Import Sorting.Sorted.

(** C06: the name of column [c] followed by the 1-based row number denotes (r, c). *)
Theorem C06_address_of_cell `{Unicode} :
  forall (w : pystr) (r c : Z),
    is_col_name w c -> (0 <= r)%Z -> address_to_index (w ++ show_Z (r + 1)) = Ok (r, c).
Proof. intros w r c. exact (address_name w c r). Qed.
Print Assumptions C06_address_of_cell.

(** C06: column names and non-negative column numbers are in bijection. *)
Theorem C06_column_names_bijective :
  (forall c, (0 <= c)%Z -> exists w, is_col_name w c) /\
  (forall w w' c, is_col_name w c -> is_col_name w' c -> w = w') /\
  (forall w c c', is_col_name w c -> is_col_name w c' -> c = c') /\
  (forall w, w <> [] -> Forall (fun l => 65 <= l <= 90)%N w -> exists c, is_col_name w c /\ (0 <= c)%Z).
Proof.
  split_and!.
  - exact name_exists.
  - exact name_inj.
  - intros w c c' H1 H2. by rewrite <- (column_index_name _ _ H1), <- (column_index_name _ _ H2).
  - intros w Hne Hf. exists (column_name_to_index w).
    pose proof (letters_name w Hne Hf) as Hn. split; [done|]. apply (name_letters _ _ Hn).
Qed.
Print Assumptions C06_column_names_bijective.

(** C06: two cells with the same address are the same cell. *)
Theorem C06_addresses_distinct `{Unicode} :
  forall w w' r r' c c',
    is_col_name w c -> is_col_name w' c' -> (0 <= r)%Z -> (0 <= r')%Z ->
    w ++ show_Z (r + 1) = w' ++ show_Z (r' + 1) -> r = r' /\ c = c'.
Proof.
  intros w w' r r' c c' Hw Hw' Hr Hr' E.
  pose proof (address_name _ _ _ Hw Hr) as H1. pose proof (address_name _ _ _ Hw' Hr') as H2.
  rewrite E, H2 in H1. by injection H1.
Qed.
Print Assumptions C06_addresses_distinct.

(** C06: the case of ASCII letters does not matter. *)
Theorem C06_case_insensitive `{Unicode} :
  forall s : pystr, Forall (fun c => c < 128)%N s ->
    address_to_index (map ascii_lower s) = address_to_index s.
Proof. exact address_lower. Qed.
Print Assumptions C06_case_insensitive.

Example C06_case : is_col_name (lit "AMJ") 1023 /\
  address_to_index (U := ascii_unicode) (lit "amj1048576") = Ok (1048575, 1023)%Z.
Proof.
  split; [|vm_compute; reflexivity].
  change (lit "AMJ") with (([65%N] ++ [77%N]) ++ [74%N]).
  change 1023%Z with (26 * ((26 * ((Z.of_N 65 - 65) + 1) + (Z.of_N 77 - 65)) + 1) + (Z.of_N 74 - 65))%Z.
  repeat constructor; lia.
Qed.

(** C07: the accepted language and the value, for every string: if the upper-case form
    is letters A-Z, decimal digits and at most one final newline, the result is
    (number - 1, column); otherwise ValueError. *)
Theorem C07_accepted_language `{Unicode} :
  forall s : pystr,
    (exists w d c, is_address (py_upper s) w d /\ is_col_name w c /\
       address_to_index s = Ok (dec_value 0 d - 1, c)%Z) \/
    ((forall w d, ~ is_address (py_upper s) w d) /\ address_to_index s = Err ValueError).
Proof.
  intros s. destruct (address_cases s) as [(w & d & Ha)|Hn].
  - left. exists w, d, (column_name_to_index w). split_and!; [done| |by apply address_ok].
    destruct Ha as (nl & _ & _ & Hne & Hf & _). by apply letters_name.
  - right. split; [done|]. by apply address_err.
Qed.
Print Assumptions C07_accepted_language.

(** C07: the decomposition is unique, so the value above is the only one. *)
Theorem C07_decomposition_unique `{Unicode} :
  forall t w d w' d', is_address t w d -> is_address t w' d' -> w = w' /\ d = d'.
Proof.
  intros t w d w' d' H1 H2. apply match_iff in H1, H2. rewrite H1 in H2. by injection H2.
Qed.
Print Assumptions C07_decomposition_unique.

Example C07_case :
  address_to_index (U := ascii_unicode) (lit "b07") = Ok (6, 1)%Z /\
  address_to_index (U := ascii_unicode) (lit "A0") = Ok (-1, 0)%Z /\
  address_to_index (U := ascii_unicode) (lit "A1" ++ [10%N]) = Ok (0, 0)%Z /\
  address_to_index (U := ascii_unicode) (lit "A1 ") = Err ValueError /\
  address_to_index (U := ascii_unicode) (lit "1A") = Err ValueError.
Proof. vm_compute. done. Qed.

(** a Unicode table with one full case mapping outside ASCII: U+00DF to "SS" *)
Program Definition sharp_s_unicode : Unicode := {|
  u_upc := fun c => if decide (c = 223%N) then [83%N; 83%N] else [ascii_upper c];
  u_digit := ascii_digit;
  u_space := ascii_space
|}.
Next Obligation. intros c Hc. cbv beta. rewrite decide_False by lia. done. Qed.
Next Obligation. done. Qed.
Next Obligation. apply (@u_digit_lt ascii_unicode). Qed.
Next Obligation. done. Qed.
Next Obligation. apply (@u_digit_space ascii_unicode). Qed.

(** C07: a character that is not a letter A-Z in either case can name a column. *)
Theorem C07_non_ascii_letter_accepted :
  exists (U : Unicode) (s : pystr) v,
    address_to_index s = Ok v /\ ~ Forall (fun c => c < 128)%N s.
Proof.
  exists sharp_s_unicode, [223%N; 49%N], (0, 512)%Z. split; [vm_compute; reflexivity|].
  intros H. apply Forall_cons in H as [H _]. lia.
Qed.
Print Assumptions C07_non_ascii_letter_accepted.

(** C08: exactly the rectangle, once, in row-major order. *)
Theorem C08_range_is_rectangle :
  forall (pos size : Z * Z) l, iter_cell_range pos size = Ok l ->
    (forall p, p ∈ l <-> (pos.1 <= p.1 < pos.1 + size.1 /\ pos.2 <= p.2 < pos.2 + size.2)%Z) /\
    NoDup l /\ StronglySorted pos_lt l /\ Z.of_nat (length l) = (size.1 * size.2)%Z.
Proof.
  intros pos size l Hl. split_and!.
  - intros p. by apply range_elem.
  - eapply sorted_NoDup, range_sorted, Hl.
  - by eapply range_sorted.
  - by apply (range_length pos).
Qed.
Print Assumptions C08_range_is_rectangle.

(** C08: it fails exactly for negative start positions and sizes below one. *)
Theorem C08_range_errors :
  forall pos size : Z * Z,
    ((pos.1 < 0 \/ pos.2 < 0 \/ size.1 < 1 \/ size.2 < 1)%Z /\ iter_cell_range pos size = Err ValueError) \/
    (~ (pos.1 < 0 \/ pos.2 < 0 \/ size.1 < 1 \/ size.2 < 1)%Z /\ exists l, iter_cell_range pos size = Ok l).
Proof.
  intros pos size. pose proof (range_err pos size) as H.
  destruct (iter_cell_range pos size) as [l|e] eqn:E.
  - right. split; [|eauto]. intros H'. apply H in H'. done.
  - left. assert (e = ValueError) as ->.
    { revert E. unfold iter_cell_range. destruct pos, size. repeat case_decide; congruence. }
    split; [by apply H|done].
Qed.
Print Assumptions C08_range_errors.

(** C08: without the start position: the same list without its first element, which
    is the start position. *)
Theorem C08_range_without_start :
  forall (pos size : Z * Z) l, iter_cell_range pos size = Ok l ->
    exists l', iter_cell_range_without_start_pos pos size = Ok l' /\ l = pos :: l'.
Proof.
  intros pos size l Hl. pose proof (range_head _ _ _ Hl) as Hh.
  exists (drop 1 l). unfold iter_cell_range_without_start_pos. rewrite Hl. split; [done|].
  destruct l; [done|]. by injection Hh as ->.
Qed.
Print Assumptions C08_range_without_start.

Example C08_case : iter_cell_range (1, 2)%Z (2, 2)%Z = Ok [(1, 2); (1, 3); (2, 2); (2, 3)]%Z.
Proof. vm_compute. reflexivity. Qed.
