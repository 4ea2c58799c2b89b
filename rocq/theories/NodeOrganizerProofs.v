(** Proofs about tag blocks. *)
From Verif Require Export NodeOrganizerSpec.

Lemma in_order_skip ts1 ts2 l : in_order ts2 l -> in_order (ts1 ++ ts2) l.
Proof. induction ts1 as [|t ts1 IH]; [done|]. intros H. apply IO_next. auto. Qed.
Lemma in_order_tags ts l : in_order ts l -> Forall (fun t => t ∈ ts) l.
Proof.
  induction 1 as [|t ts l H IH|t ts l H IH]; [constructor|constructor; [by left|done]|].
  eapply Forall_impl; [exact IH|]. intros x Hx. by right.
Qed.
Lemma in_order_prefix ts l l' : in_order ts (l ++ l') -> in_order ts l.
Proof.
  intros H. remember (l ++ l') as k eqn:E. revert l E. induction H as [ts|t ts k H IH|t ts k H IH]; intros l E.
  - symmetry in E. apply app_nil in E as [-> _]. apply IO_nil.
  - destruct l as [|x l]; [apply IO_nil|]. injection E as <- E. apply IO_here. by apply IH.
  - apply IO_next. by apply IH.
Qed.
Lemma in_order_suffix ts l l' : in_order ts (l ++ l') -> in_order ts l'.
Proof.
  intros H. remember (l ++ l') as k eqn:E. revert l E. induction H as [ts|t ts k H IH|t ts k H IH]; intros l E.
  - symmetry in E. apply app_nil in E as [_ ->]. apply IO_nil.
  - destruct l as [|x l]; [cbn in E; subst l'; by apply IO_here|]. injection E as <- E. by apply (IH l).
  - apply IO_next. by apply (IH l).
Qed.
Lemma tags_from_Some c ts ts' : tags_from c ts = Some ts' -> exists a b, ts = a ++ c :: b /\ ts' = c :: b /\ c ∉ a.
Proof.
  induction ts as [|t ts IH]; [done|]. cbn. destruct (decide (c = t)) as [->|Hn].
  - intros [= <-]. exists [], ts. split_and!; [done|done|set_solver].
  - intros E. destruct (IH E) as (a & b & -> & -> & Ha). exists (t :: a), b. split_and!; [done|done|set_solver].
Qed.
Lemma tags_from_None c ts : tags_from c ts = None <-> c ∉ ts.
Proof.
  induction ts as [|t ts IH]; [split; [set_solver|done]|]. cbn. destruct (decide (c = t)) as [->|Hn].
  - split; [done|set_solver].
  - rewrite IH. set_solver.
Qed.
Lemma tags_from_split c a b : c ∉ a -> tags_from c (a ++ c :: b) = Some (c :: b).
Proof.
  induction a as [|t a IH]; cbn; [by rewrite decide_True|]. intros H. rewrite decide_False by set_solver. apply IH. set_solver.
Qed.
(** the first tag fixes where the rest may come from *)
Lemma in_order_cons_inv c a b l : NoDup (a ++ c :: b) -> in_order (a ++ c :: b) (c :: l) -> in_order (c :: b) l.
Proof.
  induction a as [|t a IH]; cbn; intros Hd H.
  - inversion H as [|? ? ? H1|? ? ? H1]; subst; [done|]. apply in_order_tags in H1. inversion Hd; subst. inversion H1; subst. done.
  - apply NoDup_cons in Hd as [Ht Hd]. inversion H as [|? ? ? H1|? ? ? H1]; subst; [set_solver|]. by apply IH.
Qed.

Lemma count_le tags l : count_tags_in_block tags l <= length l.
Proof.
  revert tags. induction l as [|c l IH]; intros tags; cbn; [lia|]. destruct (decide _); [specialize (IH tags); lia|].
  destruct (tags_from c tags) as [ts|]; [specialize (IH ts); lia|lia].
Qed.
Lemma count_step tags c l : count_tags_in_block tags (c :: l) =
  match tags_from c tags with Some ts => S (count_tags_in_block ts l) | None => 0 end.
Proof.
  cbn. destruct (decide (Some c = head tags)) as [E|E]; [|done]. destruct tags as [|t ts]; [done|]. injection E as <-. cbn. by rewrite decide_True.
Qed.
Lemma count_longest tags l : NoDup tags -> longest_prefix tags l (count_tags_in_block tags l).
Proof.
  revert tags. induction l as [|c l IH]; intros tags Hd.
  - split; [done|]. split; [apply IO_nil|]. cbn. lia.
  - rewrite count_step. destruct (tags_from c tags) as [ts|] eqn:E.
    + destruct (tags_from_Some _ _ _ E) as (a & b & -> & -> & Ha).
      assert (Hd' : NoDup (c :: b)) by (by apply NoDup_app in Hd as (_ & _ & ?)).
      destruct (IH (c :: b) Hd') as (I1 & I2 & I3). split; [cbn; lia|]. split.
      * cbn [take]. apply in_order_skip. by apply IO_here.
      * intros m Hm Ho. destruct m as [|m]; [lia|]. cbn [take] in Ho. apply in_order_cons_inv in Ho; [|done]. apply (I3 m); [cbn in Hm; lia|done].
    + apply tags_from_None in E. split; [lia|]. split; [apply IO_nil|]. intros m Hm Ho. destruct m as [|m]; [lia|]. cbn in Ho.
      apply in_order_tags in Ho. inversion Ho; subst. done.
Qed.
Lemma longest_prefix_unique tags l n m : longest_prefix tags l n -> longest_prefix tags l m -> n = m.
Proof.
  intros (A1 & A2 & A3) (B1 & B2 & B3). destruct (decide (n < m)); [by destruct (A3 m); [lia|]|]. destruct (decide (m < n)); [by destruct (B3 n); [lia|]|]. lia.
Qed.

(** ** Reversal *)
Lemma in_order_app ts1 ts2 l1 l2 : in_order ts1 l1 -> in_order ts2 l2 -> in_order (ts1 ++ ts2) (l1 ++ l2).
Proof.
  intros H1 H2. induction H1 as [ts|t ts l H IH|t ts l H IH]; cbn; [by apply in_order_skip|by apply IO_here|by apply IO_next].
Qed.
Lemma in_order_weaken ts1 ts2 l : in_order ts1 l -> in_order (ts1 ++ ts2) l.
Proof. intros H. rewrite <- (app_nil_r l). apply in_order_app; [done|apply IO_nil]. Qed.
Lemma in_order_again t ts l : in_order (ts ++ [t]) l -> in_order (ts ++ [t]) (l ++ [t]).
Proof.
  intros H. remember (ts ++ [t]) as k eqn:E. revert ts E. induction H as [k|x k l H IH|x k l H IH]; intros ts E.
  - subst k. cbn. apply in_order_skip, IO_here, IO_nil.
  - cbn. apply IO_here. by apply (IH ts).
  - destruct ts as [|y ts]; injection E as -> ->.
    + inversion H; subst. cbn. apply IO_here, IO_nil.
    + apply IO_next. by apply (IH ts).
Qed.
Lemma in_order_reverse ts l : in_order ts l -> in_order (reverse ts) (reverse l).
Proof.
  induction 1 as [ts|t ts l H IH|t ts l H IH].
  - apply IO_nil.
  - rewrite reverse_cons in *. rewrite reverse_cons. by apply in_order_again.
  - rewrite reverse_cons. by apply in_order_weaken.
Qed.
Lemma in_order_reverse_iff ts l : in_order (reverse ts) (reverse l) <-> in_order ts l.
Proof. split; [|apply in_order_reverse]. intros H. apply in_order_reverse in H. by rewrite !reverse_involutive in H. Qed.
Lemma take_reverse {A} n (l : list A) : n <= length l -> take n (reverse l) = reverse (drop (length l - n) l).
Proof.
  intros H. rewrite <- (take_drop (length l - n) l) at 1. rewrite reverse_app, take_app_alt; [done|]. rewrite reverse_length, drop_length. lia.
Qed.
Lemma epilogue_longest tags l : NoDup tags -> longest_suffix tags l (epilogue_count (reverse tags) l).
Proof.
  intros Hd. unfold epilogue_count. destruct (count_longest (reverse tags) (reverse l)) as (I1 & I2 & I3).
  { by rewrite reverse_Permutation. }
  rewrite reverse_length in *. split; [done|]. rewrite take_reverse, in_order_reverse_iff in I2 by done. split; [done|].
  intros m Hm Ho. apply (I3 m Hm). rewrite take_reverse, in_order_reverse_iff by lia. done.
Qed.

(** ** tag_info *)
Lemma pos_and_count_none t l : forall p last, t ∉ l -> pos_and_count t p 0 last l = (-1, 0)%Z.
Proof. induction l as [|c l IH]; intros p lst H; cbn; [done|]. rewrite decide_False by set_solver. apply IH. set_solver. Qed.
Lemma pos_and_count_skip t l r : forall p c last, t ∉ l -> pos_and_count t p c last (l ++ r) = pos_and_count t (p + Z.of_nat (length l))%Z c last r.
Proof.
  induction l as [|x l IH]; intros p c lst H; cbn; [f_equal; lia|]. rewrite decide_False by set_solver. rewrite IH by set_solver. f_equal. lia.
Qed.
Lemma pos_and_count_run t n r : forall p c last, t ∉ r ->
  pos_and_count t p c last (replicate n t ++ r) =
  if decide (c + Z.of_nat n > 0)%Z then (((if decide (n = 0%nat) then last else p + Z.of_nat n - 1) - (c + Z.of_nat n) + 1)%Z, (c + Z.of_nat n)%Z) else (-1, 0)%Z.
Proof.
  induction n as [|n IH]; intros p c lst H.
  - cbn [replicate app]. replace (c + Z.of_nat 0)%Z with c by lia. rewrite (decide_True _ _ (eq_refl : 0 = 0)).
    revert p. induction r as [|x r IHr]; intros p; [done|]. cbn. rewrite decide_False by set_solver. apply IHr. set_solver.
  - cbn [replicate app pos_and_count]. rewrite decide_True by done. rewrite IH by done. replace (c + 1 + Z.of_nat n)%Z with (c + Z.of_nat (S n))%Z by lia.
    destruct (decide (c + Z.of_nat (S n) > 0)%Z); [|done]. f_equal. destruct (decide (n = 0)) as [->|]; destruct (decide _); lia.
Qed.
Lemma in_order_split t a b l : NoDup (a ++ t :: b) -> in_order (a ++ t :: b) l ->
  exists l1 n l2, l = l1 ++ replicate n t ++ l2 /\ in_order a l1 /\ in_order b l2.
Proof.
  intros Hd H. remember (a ++ t :: b) as k eqn:E. revert a E Hd. induction H as [k|x k l H IH|x k l H IH]; intros a E Hd.
  - exists [], 0, []. split_and!; [done|apply IO_nil|apply IO_nil].
  - destruct (IH a E Hd) as (l1 & n & l2 & -> & H1 & H2). destruct a as [|y a]; injection E as -> ->.
    + inversion H1; subst. exists [], (S n), l2. split_and!; [done|apply IO_nil|done].
    + exists (y :: l1), n, l2. split_and!; [done|by apply IO_here|done].
  - destruct a as [|y a]; injection E as -> ->.
    + exists [], 0, l. split_and!; [done|apply IO_nil|done].
    + destruct (IH a eq_refl) as (l1 & n & l2 & -> & H1 & H2); [by apply NoDup_cons in Hd as [_ ?]|]. exists l1, n, l2. split_and!; [done|by apply IO_next|done].
Qed.
Lemma tag_split t (ts : list string) : t ∈ ts -> exists a b, ts = a ++ t :: b /\ t ∉ a.
Proof.
  intros H. destruct (tags_from t ts) as [ts'|] eqn:E; [|by apply tags_from_None in E].
  destruct (tags_from_Some _ _ _ E) as (a & b & -> & _ & Ha). by exists a, b.
Qed.
(** the block around a tag *)
Lemma block_split tags l a t b : NoDup tags -> tags = a ++ t :: b ->
  exists l1 n l2, take (count_tags_in_block tags l) l = l1 ++ replicate n t ++ l2 /\ in_order a l1 /\ in_order b l2 /\ t ∉ l1 /\ t ∉ l2.
Proof.
  intros Hd ->. destruct (count_longest _ l Hd) as (_ & Ho & _). destruct (in_order_split _ _ _ _ Hd Ho) as (l1 & n & l2 & E & H1 & H2).
  exists l1, n, l2. apply NoDup_app in Hd as (D1 & D2 & D3). apply NoDup_cons in D3 as [D3 D4]. split_and!; try done.
  - intros Hin. apply in_order_tags in H1. rewrite Forall_forall in H1. apply H1 in Hin. by apply (D2 t Hin); left.
  - intros Hin. apply in_order_tags in H2. rewrite Forall_forall in H2. by apply H2 in Hin.
Qed.
Lemma tag_info_eq tags l t a b l1 n l2 : t ∈ tags ->
  take (count_tags_in_block tags l) l = l1 ++ replicate n t ++ l2 -> t ∉ l1 -> t ∉ l2 -> tags = a ++ t :: b ->
  tag_info tags l t = Ok (if decide (n = 0) then (-1, 0)%Z else (Z.of_nat (length l1), Z.of_nat n)).
Proof.
  intros Ht E H1 H2 _. unfold tag_info, check_tag. rewrite decide_True by done. cbn [rbind]. f_equal. rewrite E, pos_and_count_skip by done.
  rewrite pos_and_count_run by done. destruct (decide (n = 0)) as [->|Hn]; [done|]. rewrite decide_True by lia. f_equal; lia.
Qed.

(** ** Order of subsequences, positions *)
Lemma in_order_sublist ts l l' : l' `sublist_of` l -> in_order ts l -> in_order ts l'.
Proof.
  intros Hs H. revert l' Hs. induction H as [ts|t ts l H IH|t ts l H IH]; intros l' Hs.
  - apply sublist_nil_r in Hs as ->. apply IO_nil.
  - apply sublist_cons_r in Hs as [Hs|(k & -> & Hs)]; [by apply IH|]. apply IO_here. by apply IH.
  - apply IO_next. by apply IH.
Qed.
Lemma longest_prefix_max tags l n pre rest : longest_prefix tags l n -> l = pre ++ rest -> in_order tags pre -> length pre <= n.
Proof.
  intros (_ & _ & H) -> Hp. destruct (decide (length pre <= n)); [done|]. destruct (H (length pre)).
  - rewrite app_length. lia.
  - by rewrite take_app.
Qed.
Lemma longest_suffix_max tags l n pre rest : longest_suffix tags l n -> l = pre ++ rest -> in_order tags rest -> length rest <= n.
Proof.
  intros (_ & _ & H) -> Hp. destruct (decide (length rest <= n)); [done|]. destruct (H (length rest)).
  - rewrite app_length. lia.
  - rewrite app_length. replace (length pre + length rest - length rest) with (length pre) by lia. by rewrite drop_app.
Qed.
Lemma insert_longest tags l n k t : longest_prefix tags l n -> k <= n -> in_order tags (take k l ++ t :: drop k (take n l)) ->
  longest_prefix tags (insert_at k t l) (S n).
Proof.
  intros (H1 & H2 & H3) Hk Ho. unfold insert_at.
  assert (Hl : length (take k l ++ t :: drop k l) = S (length l)) by (rewrite app_length, take_length; cbn; rewrite drop_length; lia).
  assert (HT : forall m, k <= m -> m <= length l -> take (S m) (take k l ++ t :: drop k l) = take k l ++ t :: drop k (take m l)).
  { intros m A B. rewrite take_app_ge by (rewrite take_length; lia). rewrite take_length, Nat.min_l by lia.
    replace (S m - k) with (S (m - k)) by lia. cbn. by rewrite skipn_firstn_comm. }
  split; [lia|]. split; [by rewrite HT|]. intros m Hm Hc. destruct m as [|m]; [lia|]. rewrite HT in Hc by lia. apply (H3 m); [lia|].
  eapply in_order_sublist; [|exact Hc]. rewrite <- (take_drop k (take m l)) at 1. rewrite take_take, Nat.min_l by lia.
  apply sublist_app; [done|]. by apply sublist_cons.
Qed.
Lemma in_order_split2 a b l : in_order (a ++ b) l -> exists l1 l2, l = l1 ++ l2 /\ in_order a l1 /\ in_order b l2.
Proof.
  intros H. remember (a ++ b) as k eqn:E. revert a E. induction H as [k|x k l H IH|x k l H IH]; intros a E.
  - exists [], []. split_and!; [done|apply IO_nil|apply IO_nil].
  - destruct a as [|y a]; [cbn in E; subst b; exists [], (x :: l); split_and!; [done|apply IO_nil|by apply IO_here]|].
    injection E as <- ->. destruct (IH (x :: a) eq_refl) as (l1 & l2 & -> & H1 & H2). exists (x :: l1), l2. split_and!; [done|by apply IO_here|done].
  - destruct a as [|y a]; [cbn in E; subst b; exists [], l; split_and!; [done|apply IO_nil|by apply IO_next]|].
    injection E as <- ->. destruct (IH a eq_refl) as (l1 & l2 & -> & H1 & H2). exists l1, l2. split_and!; [done|by apply IO_next|done].
Qed.
Lemma in_order_notin (a b l : list string) x : NoDup (a ++ b) -> in_order a l -> x ∈ b -> x ∉ l.
Proof.
  intros Hd H Hx Hin. apply in_order_tags in H. rewrite Forall_forall in H. apply H in Hin. apply NoDup_app in Hd as (_ & D & _). by apply (D x).
Qed.
Lemma in_order_notin' (a b l : list string) x : NoDup (a ++ b) -> in_order b l -> x ∈ a -> x ∉ l.
Proof.
  intros Hd H Hx Hin. apply in_order_tags in H. rewrite Forall_forall in H. apply H in Hin. apply NoDup_app in Hd as (_ & D & _). by apply (D x).
Qed.

(** the first tag of [s] in the block starts where the [a]s end *)
Lemma first_position_eq a s l l1 l2 : NoDup (a ++ s) -> take (count_tags_in_block (a ++ s) l) l = l1 ++ l2 -> in_order a l1 -> in_order s l2 ->
  first_position (a ++ s) l s = match l2 with [] => None | _ => Some (Z.of_nat (length l1)) end.
Proof.
  intros Hd E H1 H2. cut (forall a s, NoDup (a ++ s) -> forall tags, tags = a ++ s -> take (count_tags_in_block tags l) l = l1 ++ l2 -> in_order a l1 -> in_order s l2 ->
     first_position tags l s = match l2 with [] => None | _ => Some (Z.of_nat (length l1)) end).
  { intros H. by apply (H a s Hd). }
  clear. intros a s. revert a. induction s as [|t b IH]; intros a Hd tags Htags E H1 H2.
  - inversion H2; subst. done.
  - cbn [first_position]. assert (Hb : exists n l2', l2 = replicate n t ++ l2' /\ in_order b l2').
    { destruct (in_order_split t [] b l2) as (k1 & n & k2 & -> & K1 & K2); [by apply NoDup_app in Hd as (_ & _ & ?)|done|]. inversion K1; subst. by exists n, k2. }
    destruct Hb as (n & l2' & -> & H2').
    rewrite (tag_info_eq tags l t a b l1 n l2').
    + destruct (decide (n = 0)) as [->|Hn].
      * rewrite decide_False by lia. cbn in *. apply (IH (a ++ [t])); try done.
        -- by rewrite <- app_assoc.
        -- by rewrite <- app_assoc.
        -- by apply in_order_weaken.
      * rewrite decide_True by lia. by destruct n.
    + subst. apply elem_of_app. right. by left.
    + done.
    + eapply in_order_notin; [exact Hd|done|by left].
    + apply NoDup_app in Hd as (_ & _ & Hd). eapply (in_order_notin' [t] b); [done|done|by left].
    + done.
Qed.

Lemma insert_before_eq a t b l l1 l2 : NoDup (a ++ t :: b) -> take (count_tags_in_block (a ++ t :: b) l) l = l1 ++ l2 -> in_order a l1 -> in_order (t :: b) l2 ->
  prelude_insert_before (a ++ t :: b) l t = Ok (match l2 with [] => 0 | _ => Z.of_nat (length l1) end)%Z.
Proof.
  intros Hd E H1 H2. unfold prelude_insert_before, check_tag. rewrite decide_True by (apply elem_of_app; right; by left). cbn [rbind].
  unfold tag_and_successors. rewrite tags_from_split by (apply NoDup_app in Hd as (_ & D & _); intros Hi; apply (D t Hi); by left). cbn [default].
  cbn [from_option id]. rewrite (first_position_eq a (t :: b) l l1 l2) by done. by destruct l2.
Qed.

(** ** Insert positions of a prelude block *)
Lemma insert_before_fits a t b l : NoDup (a ++ t :: b) ->
  let tags := a ++ t :: b in let n := prelude_count tags l in
  (n = 0 \/ exists s, s ∈ t :: b /\ s ∈ take n l) ->
  exists k, prelude_insert_before tags l t = Ok (Z.of_nat k) /\ k <= n /\ longest_prefix tags (insert_at k t l) (S n) /\ t ∉ take k l.
Proof.
  intros Hd tags n Hc. assert (Hn := count_longest tags l Hd). change (count_tags_in_block tags l) with n in Hn.
  destruct (in_order_split2 a (t :: b) (take n l)) as (l1 & l2 & E & H1 & H2); [apply Hn|].
  assert (Hlen : length l1 + length l2 = n) by (rewrite <- app_length, <- E, take_length; destruct Hn; lia).
  assert (Hk : match l2 with [] => 0%Z | _ => Z.of_nat (length l1) end = Z.of_nat (length l1)).
  { destruct l2 as [|x l2]; [|done]. destruct Hc as [Hc|(s & Hs & Hin)]; [rewrite Hc in Hlen; destruct l1; [done|cbn in Hlen; lia]|].
    exfalso. rewrite E, app_nil_r in Hin. by apply (in_order_notin a (t :: b) l1 s). }
  assert (Et : take (length l1) l = l1).
  { assert (Hx : take (length l1) (take n l) = l1) by (rewrite E; by rewrite take_app). by rewrite take_take, Nat.min_l in Hx by lia. }
  exists (length l1). unfold tags at 1. rewrite (insert_before_eq a t b l l1 l2), Hk by done. split; [done|]. split; [lia|]. split.
  - apply insert_longest; [done|lia|]. rewrite E, Et, drop_app. apply in_order_app; [done|]. by apply IO_here.
  - rewrite Et. eapply in_order_notin; [exact Hd|done|by left].
Qed.
Lemma insert_before_misfit a t b l : NoDup (a ++ t :: b) ->
  let tags := a ++ t :: b in let n := prelude_count tags l in
  n <> 0 -> (forall s, s ∈ t :: b -> s ∉ take n l) ->
  prelude_insert_before tags l t = Ok 0%Z /\ ~ in_order tags (t :: take n l).
Proof.
  intros Hd tags n Hn0 Hc. assert (Hn := count_longest tags l Hd). change (count_tags_in_block tags l) with n in Hn.
  destruct (in_order_split2 a (t :: b) (take n l)) as (l1 & l2 & E & H1 & H2); [apply Hn|].
  destruct l2 as [|x l2].
  - split; [unfold tags at 1; by rewrite (insert_before_eq a t b l l1 [])|]. rewrite app_nil_r in E. rewrite E. intros Ho. apply in_order_cons_inv in Ho; [|done].
    destruct l1 as [|y l1]; [apply (f_equal length) in E; rewrite take_length in E; destruct Hn; cbn in E; lia|].
    apply in_order_tags in Ho, H1. inversion Ho; subst. inversion H1; subst. apply NoDup_app in Hd as (_ & D & _). by apply (D y).
  - exfalso. apply in_order_tags in H2. inversion H2; subst. apply (Hc x); [done|]. rewrite E. apply elem_of_app. right. by left.
Qed.
Lemma insert_after_last_fits a t l : NoDup (a ++ [t]) ->
  let tags := a ++ [t] in let n := prelude_count tags l in
  prelude_insert_after tags l None = Ok (Z.of_nat n) /\ prelude_insert_after tags l (Some t) = Ok (Z.of_nat n) /\
  longest_prefix tags (insert_at n t l) (S n).
Proof.
  intros Hd tags n. assert (Hn := count_longest tags l Hd). change (count_tags_in_block tags l) with n in Hn.
  unfold prelude_insert_after, tags. rewrite last_snoc. cbn [default from_option id]. unfold check_tag. rewrite decide_True by (apply elem_of_app; right; by left). cbn [rbind].
  rewrite decide_True by done. split; [done|]. split; [done|].
  apply insert_longest; [done|done|]. rewrite drop_ge by (rewrite take_length; lia). apply in_order_again. apply Hn.
Qed.
Lemma insert_after_eq a t s b l : NoDup (a ++ t :: s :: b) ->
  prelude_insert_after (a ++ t :: s :: b) l (Some t) = prelude_insert_before (a ++ t :: s :: b) l s.
Proof.
  intros Hd. unfold prelude_insert_after. destruct (last (a ++ t :: s :: b)) as [lt|] eqn:El.
  2:{ apply last_None in El. by destruct a. }
  cbn [default from_option id]. unfold check_tag at 1. rewrite decide_True by (apply elem_of_app; right; by left). cbn [rbind].
  assert (Ha : t ∉ a) by (apply NoDup_app in Hd as (_ & D & _); intros Hi; apply (D t Hi); by left).
  rewrite decide_False.
  - unfold successor_tag, tag_and_successors. by rewrite tags_from_split.
  - intros ->. assert (Hl : last (s :: b) = Some lt) by (rewrite <- El; symmetry; replace (a ++ lt :: s :: b) with ((a ++ [lt]) ++ s :: b) by (by rewrite <- app_assoc); rewrite last_app_cons; done).
    apply last_Some_elem_of in Hl. apply NoDup_app in Hd as (_ & _ & Hd). apply NoDup_cons in Hd as [? _]. done.
Qed.
Lemma insert_after_fits a t s b l : NoDup (a ++ t :: s :: b) ->
  let tags := a ++ t :: s :: b in let n := prelude_count tags l in
  (n = 0 \/ exists x, x ∈ s :: b /\ x ∈ take n l) ->
  exists k, prelude_insert_after tags l (Some t) = Ok (Z.of_nat k) /\ k <= n /\ longest_prefix tags (insert_at k t l) (S n) /\ t ∉ drop k (take n l).
Proof.
  intros Hd tags n Hc. assert (Hn := count_longest tags l Hd). change (count_tags_in_block tags l) with n in Hn.
  assert (Etags : tags = (a ++ [t]) ++ s :: b) by (unfold tags; by rewrite <- app_assoc).
  assert (Hd' : NoDup ((a ++ [t]) ++ s :: b)) by (by rewrite <- Etags).
  destruct (in_order_split2 (a ++ [t]) (s :: b) (take n l)) as (l1 & l2 & E & H1 & H2); [rewrite <- Etags; apply Hn|].
  assert (Hlen : length l1 + length l2 = n) by (rewrite <- app_length, <- E, take_length; destruct Hn; lia).
  assert (Hk : match l2 with [] => 0%Z | _ => Z.of_nat (length l1) end = Z.of_nat (length l1)).
  { destruct l2 as [|x l2]; [|done]. destruct Hc as [Hc|(x & Hs & Hin)]; [rewrite Hc in Hlen; destruct l1; [done|cbn in Hlen; lia]|].
    exfalso. rewrite E, app_nil_r in Hin. by apply (in_order_notin (a ++ [t]) (s :: b) l1 x). }
  assert (Et : take (length l1) l = l1).
  { assert (Hx : take (length l1) (take n l) = l1) by (rewrite E; by rewrite take_app). by rewrite take_take, Nat.min_l in Hx by lia. }
  exists (length l1). unfold tags at 1. rewrite insert_after_eq by done. fold tags. rewrite Etags at 1.
  rewrite (insert_before_eq (a ++ [t]) s b l l1 l2), Hk; [|done|by rewrite <- Etags|done|done]. split; [done|]. split; [lia|]. split.
  - apply insert_longest; [done|lia|]. rewrite E, Et, drop_app, Etags. replace (l1 ++ t :: l2) with ((l1 ++ [t]) ++ l2) by (by rewrite <- app_assoc).
    apply in_order_app; [|done]. by apply in_order_again.
  - rewrite E, drop_app. eapply (in_order_notin' (a ++ [t]) (s :: b)); [done|done|]. apply elem_of_app. right. by left.
Qed.
Lemma insert_after_misfit a t s b l : NoDup (a ++ t :: s :: b) ->
  let tags := a ++ t :: s :: b in let n := prelude_count tags l in
  n <> 0 -> (forall x, x ∈ s :: b -> x ∉ take n l) -> prelude_insert_after tags l (Some t) = Ok 0%Z.
Proof.
  intros Hd tags n Hn0 Hc. unfold tags. rewrite insert_after_eq by done.
  assert (Etags : tags = (a ++ [t]) ++ s :: b) by (unfold tags; by rewrite <- app_assoc). fold tags. rewrite Etags.
  apply insert_before_misfit; rewrite <- Etags; done.
Qed.

(** ** Constructors, unknown tags *)
Lemma remove_dups_length (l : list string) : length (remove_dups l) <= length l /\ (length (remove_dups l) = length l -> NoDup l).
Proof.
  induction l as [|x l [IH1 IH2]]; cbn; [split; [done|intros _; constructor]|]. destruct (decide_rel _ x l) as [Hx|Hx]; [split; [lia|lia]|].
  cbn. split; [lia|]. intros H. constructor; [done|]. apply IH2. lia.
Qed.
Lemma remove_dups_id (l : list string) : NoDup l -> remove_dups l = l.
Proof. induction 1 as [|x l Hx Hd IH]; [done|]. cbn. destruct (decide_rel _ x l); [done|]. by rewrite IH. Qed.
Lemma prelude_block_ok tags : tags <> [] -> NoDup tags -> prelude_block tags = Ok tags.
Proof. intros H Hd. unfold prelude_block. rewrite decide_False by (by destruct tags). rewrite decide_False; [done|]. rewrite remove_dups_id by done. lia. Qed.
Lemma prelude_block_err tags : ~ (tags <> [] /\ NoDup tags) -> prelude_block tags = Err ValueError.
Proof.
  intros H. unfold prelude_block. destruct (decide (length tags = 0)) as [E|E]; [done|]. destruct (decide (_ <> _)) as [E'|E']; [done|]. exfalso. apply H.
  split; [by intros ->|]. apply remove_dups_length. lia.
Qed.
Lemma epilogue_block_ok tags : tags <> [] -> NoDup tags -> epilogue_block tags = Ok (reverse tags).
Proof.
  intros H Hd. apply prelude_block_ok; [|by rewrite reverse_Permutation]. intros E. apply H. rewrite <- (reverse_involutive tags), E. done.
Qed.
Lemma epilogue_block_err tags : ~ (tags <> [] /\ NoDup tags) -> epilogue_block tags = Err ValueError.
Proof.
  intros H. apply prelude_block_err. intros [H1 H2]. apply H. rewrite reverse_Permutation in H2. split; [|done]. by intros ->.
Qed.

(** ** tag_info *)
Lemma tag_info_run tags l t : NoDup tags -> t ∈ tags ->
  exists pos count, tag_info tags l t = Ok (pos, count) /\ run_of t l 0 (prelude_count tags l) pos count.
Proof.
  intros Hd Ht. destruct (tag_split _ _ Ht) as (a & b & E & Ha). destruct (block_split tags l a t b Hd E) as (l1 & n & l2 & Eb & H1 & H2 & N1 & N2).
  rewrite (tag_info_eq tags l t a b l1 n l2) by done. unfold prelude_count. set (c := count_tags_in_block tags l) in *.
  assert (HL : forall i, i < c -> l !! i = (l1 ++ replicate n t ++ l2) !! i) by (intros i Hi; rewrite <- Eb, lookup_take by done; done).
  destruct (decide (n = 0)) as [->|Hn].
  - exists (-1)%Z, 0%Z. split; [done|]. left. split_and!; [done|done|]. intros i Hi. rewrite HL by lia. cbn. intros Hx. apply elem_of_list_lookup_2 in Hx. set_solver.
  - exists (Z.of_nat (length l1)), (Z.of_nat n). split; [done|]. right. split; [lia|]. intros i Hi. rewrite HL by lia.
    destruct (decide (i < length l1)) as [Hi1|Hi1].
    + rewrite lookup_app_l by done. split; [|lia]. intros Hx. apply elem_of_list_lookup_2 in Hx. done.
    + rewrite lookup_app_r by lia. destruct (decide (i - length l1 < n)) as [Hi2|Hi2].
      * rewrite lookup_app_l by (by rewrite replicate_length). rewrite lookup_replicate_2 by done. split; [lia|done].
      * rewrite lookup_app_r by (rewrite replicate_length; lia). split; [|lia]. intros Hx. apply elem_of_list_lookup_2 in Hx. done.
Qed.
Lemma reverse_lookup' {A} (l : list A) i : i < length l -> reverse l !! i = l !! (length l - S i).
Proof.
  intros H. destruct (lookup_lt_is_Some_2 l (length l - S i)) as [x Hx]; [lia|]. rewrite Hx.
  apply reverse_lookup_Some. split; [done|lia].
Qed.
Lemma epilogue_tag_info_run tags l t : NoDup tags -> t ∈ tags ->
  exists pos count, epilogue_tag_info (reverse tags) l t = Ok (pos, count) /\
    run_of t l (length l - epilogue_count (reverse tags) l) (length l) pos count.
Proof.
  intros Hd Ht. destruct (tag_info_run (reverse tags) (reverse l) t) as (pos & count & E & HR); [by rewrite reverse_Permutation|by rewrite elem_of_reverse|].
  unfold epilogue_tag_info. rewrite E. cbn [rbind]. change (prelude_count (reverse tags) (reverse l)) with (epilogue_count (reverse tags) l) in HR.
  assert (Hc : epilogue_count (reverse tags) l <= length l) by (unfold epilogue_count; rewrite <- (reverse_length l); apply count_le).
  eexists _, _. split; [done|]. destruct HR as [(-> & -> & HR)|([Hc0 Hp] & HR)].
  - left. split_and!; [done|done|]. intros i Hi Hx. apply (HR (length l - S i)); [lia|]. rewrite reverse_lookup' by lia. rewrite <- Hx. f_equal. lia.
  - right. rewrite decide_True by lia.
    assert (Hend : (pos + count <= Z.of_nat (length l))%Z).
    { destruct (decide (pos + count <= Z.of_nat (length l))%Z) as [|Hf]; [done|]. exfalso.
      (* position 0 of the block shows the run lies inside *)
      destruct (tag_split t (reverse tags)) as (a & b & Et & Ha); [by rewrite elem_of_reverse|].
      destruct (block_split (reverse tags) (reverse l) a t b) as (l1 & n & l2 & Eb & H1 & H2 & N1 & N2); [by rewrite reverse_Permutation|done|].
      rewrite (tag_info_eq (reverse tags) (reverse l) t a b l1 n l2) in E by (done || by rewrite elem_of_reverse).
      destruct (decide (n = 0)); injection E as <- <-; [lia|]. apply (f_equal length) in Eb.
      rewrite take_length, !app_length, replicate_length, reverse_length in Eb. lia. }
    split; [lia|]. intros i Hi. specialize (HR (length l - S i)). rewrite reverse_lookup' in HR by lia.
    replace (length l - S (length l - S i)) with i in HR by lia. rewrite HR by lia. lia.
Qed.

(** ** Insert positions of an epilogue block *)
Lemma insert_at_reverse {A} k (x : A) l : k <= length l -> insert_at (length l - k) x l = reverse (insert_at k x (reverse l)).
Proof.
  intros H. unfold insert_at. rewrite reverse_app, reverse_cons, <- app_assoc. cbn. f_equal.
  - rewrite <- (take_drop (length l - k) l) at 3. rewrite reverse_app, drop_app_alt; [by rewrite reverse_involutive|]. rewrite reverse_length, drop_length. lia.
  - f_equal. rewrite take_reverse by done. by rewrite reverse_involutive.
Qed.
Lemma longest_reverse tags l n : longest_prefix (reverse tags) (reverse l) n <-> longest_suffix tags l n.
Proof.
  unfold longest_prefix, longest_suffix. rewrite reverse_length. split; intros (H1 & H2 & H3); (split; [done|]).
  - rewrite take_reverse, in_order_reverse_iff in H2 by done. split; [done|]. intros m Hm Ho. apply (H3 m Hm). rewrite take_reverse, in_order_reverse_iff by lia. done.
  - rewrite take_reverse, in_order_reverse_iff by done. split; [done|]. intros m Hm. rewrite take_reverse, in_order_reverse_iff by lia. by apply H3.
Qed.
Lemma epilogue_after_eq rt l t k : prelude_insert_before rt (reverse l) t = Ok (Z.of_nat k) -> k <= length l ->
  epilogue_insert_after rt l t = Ok (Z.of_nat (length l - k)).
Proof.
  unfold prelude_insert_before, epilogue_insert_after. destruct (check_tag t rt); [|done]. cbn [rbind]. intros [= ->] Hk. f_equal. lia.
Qed.
Lemma reverse_mid {A} (a : list A) t b : reverse (a ++ t :: b) = reverse b ++ t :: reverse a.
Proof. rewrite reverse_app, reverse_cons, <- app_assoc. done. Qed.
Lemma NoDup_reverse' {A} (l : list A) : NoDup l -> NoDup (reverse l).
Proof. intros H. by rewrite reverse_Permutation. Qed.
Lemma elem_of_drop_reverse {A} (l : list A) n x : n <= length l -> x ∈ take n (reverse l) <-> x ∈ drop (length l - n) l.
Proof. intros H. by rewrite take_reverse, elem_of_reverse. Qed.
Lemma epilogue_count_le tags l : epilogue_count tags l <= length l.
Proof. unfold epilogue_count. rewrite <- (reverse_length l). apply count_le. Qed.
Lemma epilogue_after_fits a t b l : NoDup (a ++ t :: b) ->
  let tags := a ++ t :: b in let n := epilogue_count (reverse tags) l in
  (n = 0 \/ exists s, s ∈ a ++ [t] /\ s ∈ drop (length l - n) l) ->
  exists k, epilogue_insert_after (reverse tags) l t = Ok (Z.of_nat k) /\ length l - n <= k <= length l /\
    longest_suffix tags (insert_at k t l) (S n) /\ t ∉ drop k l.
Proof.
  intros Hd tags n Hc. assert (Hd' := NoDup_reverse' _ Hd). rewrite reverse_mid in Hd'. assert (Hnl := epilogue_count_le (reverse tags) l). fold n in Hnl.
  assert (Er : reverse tags = reverse b ++ t :: reverse a) by apply reverse_mid.
  destruct (insert_before_fits (reverse b) t (reverse a) (reverse l) Hd') as (k & E & Hk & HL & HN).
  { rewrite <- Er. change (prelude_count (reverse tags) (reverse l)) with n. destruct Hc as [Hc|(s & H1 & H2)]; [by left|right].
    exists s. split; [|by apply elem_of_drop_reverse]. rewrite elem_of_app, elem_of_list_singleton in H1. rewrite elem_of_cons, elem_of_reverse. tauto. }
  rewrite <- Er in E, Hk, HL. change (prelude_count (reverse tags) (reverse l)) with n in Hk, HL.
  exists (length l - k). rewrite (epilogue_after_eq _ _ _ k) by (done || lia). split; [done|]. split; [lia|]. split.
  - apply longest_reverse. rewrite insert_at_reverse, reverse_involutive by lia. done.
  - rewrite <- elem_of_drop_reverse by lia. done.
Qed.
Lemma epilogue_after_misfit a t b l : NoDup (a ++ t :: b) ->
  let tags := a ++ t :: b in let n := epilogue_count (reverse tags) l in
  n <> 0 -> (forall s, s ∈ a ++ [t] -> s ∉ drop (length l - n) l) ->
  epilogue_insert_after (reverse tags) l t = Ok (Z.of_nat (length l)) /\ ~ in_order tags (drop (length l - n) l ++ [t]).
Proof.
  intros Hd tags n Hn Hc. assert (Hd' := NoDup_reverse' _ Hd). rewrite reverse_mid in Hd'. assert (Hnl := epilogue_count_le (reverse tags) l). fold n in Hnl.
  assert (Er : reverse tags = reverse b ++ t :: reverse a) by apply reverse_mid.
  destruct (insert_before_misfit (reverse b) t (reverse a) (reverse l) Hd') as (E & HN).
  - rewrite <- Er. done.
  - rewrite <- Er. change (prelude_count (reverse tags) (reverse l)) with n. intros s Hs. rewrite elem_of_drop_reverse by done. apply Hc.
    rewrite elem_of_cons, elem_of_reverse in Hs. rewrite elem_of_app, elem_of_list_singleton. tauto.
  - rewrite <- Er in E, HN. change (prelude_count (reverse tags) (reverse l)) with n in HN. split.
    + rewrite (epilogue_after_eq _ _ _ 0) by (done || lia). do 2 f_equal. lia.
    + rewrite <- in_order_reverse_iff, reverse_app. cbn. by rewrite <- take_reverse.
Qed.
Lemma epilogue_before_first_fits t b l : NoDup (t :: b) ->
  let tags := t :: b in let n := epilogue_count (reverse tags) l in
  epilogue_insert_before (reverse tags) l None = Ok (Z.of_nat (length l - n)) /\
  epilogue_insert_before (reverse tags) l (Some t) = Ok (Z.of_nat (length l - n)) /\
  longest_suffix tags (insert_at (length l - n) t l) (S n).
Proof.
  intros Hd tags n. assert (Hd' := NoDup_reverse' _ Hd). assert (Hnl := epilogue_count_le (reverse tags) l). fold n in Hnl.
  assert (Er : reverse tags = reverse b ++ [t]) by (unfold tags; by rewrite reverse_cons). rewrite reverse_cons in Hd'.
  assert (Hrange : (Z.of_nat (length l) - Z.of_nat n)%Z = Z.of_nat (length l - n)) by lia.
  unfold epilogue_insert_before. assert (El : last (reverse tags) = Some t) by (rewrite Er; apply last_snoc). rewrite El. cbn [default from_option id].
  unfold check_tag. rewrite decide_True by (rewrite Er; apply elem_of_app; right; by left). cbn [rbind]. rewrite decide_True by done. fold n. rewrite Hrange.
  split; [done|]. split; [done|]. apply longest_reverse. rewrite insert_at_reverse, reverse_involutive by lia.
  destruct (insert_after_last_fits (reverse b) t (reverse l) Hd') as (_ & _ & H). rewrite <- Er in H. exact H.
Qed.
Lemma epilogue_before_eq a s t b l : NoDup (a ++ s :: t :: b) ->
  epilogue_insert_before (reverse (a ++ s :: t :: b)) l (Some t) = epilogue_insert_after (reverse (a ++ s :: t :: b)) l s.
Proof.
  intros Hd. assert (Hd' := NoDup_reverse' _ Hd).
  assert (Er : reverse (a ++ s :: t :: b) = reverse b ++ t :: s :: reverse a).
  { rewrite reverse_app, !reverse_cons, <- !app_assoc. done. }
  rewrite Er in *. clear Er Hd. revert Hd'. generalize (reverse a) (reverse b). clear a b. intros b a Hd.
  unfold epilogue_insert_before. destruct (last (a ++ t :: s :: b)) as [lt|] eqn:El.
  2:{ apply last_None in El. by destruct a. }
  cbn [default from_option id]. unfold check_tag at 1. rewrite decide_True by (apply elem_of_app; right; by left). cbn [rbind].
  assert (Ha : t ∉ a) by (apply NoDup_app in Hd as (_ & D & _); intros Hi; apply (D t Hi); by left).
  rewrite decide_False.
  - unfold successor_tag, tag_and_successors. by rewrite tags_from_split.
  - intros ->. assert (Hl : last (s :: b) = Some lt) by (rewrite <- El; symmetry; replace (a ++ lt :: s :: b) with ((a ++ [lt]) ++ s :: b) by (by rewrite <- app_assoc); rewrite last_app_cons; done).
    apply last_Some_elem_of in Hl. apply NoDup_app in Hd as (_ & _ & Hd). apply NoDup_cons in Hd as [? _]. done.
Qed.
Lemma epilogue_before_fits a s t b l : NoDup (a ++ s :: t :: b) ->
  let tags := a ++ s :: t :: b in let n := epilogue_count (reverse tags) l in
  (n = 0 \/ exists x, x ∈ a ++ [s] /\ x ∈ drop (length l - n) l) ->
  exists k, epilogue_insert_before (reverse tags) l (Some t) = Ok (Z.of_nat k) /\ length l - n <= k <= length l /\
    longest_suffix tags (insert_at k t l) (S n) /\ t ∉ drop (length l - n) (take k l).
Proof.
  intros Hd tags n Hc. assert (Hnl := epilogue_count_le (reverse tags) l). fold n in Hnl.
  assert (Er : reverse tags = reverse b ++ t :: s :: reverse a).
  { unfold tags. rewrite reverse_app, !reverse_cons, <- !app_assoc. done. }
  assert (Hd' := NoDup_reverse' _ Hd). fold tags in Hd'. rewrite Er in Hd'.
  destruct (insert_after_fits (reverse b) t s (reverse a) (reverse l) Hd') as (k & E & Hk & HL & HN).
  { rewrite <- Er. change (prelude_count (reverse tags) (reverse l)) with n. destruct Hc as [Hc|(x & H1 & H2)]; [by left|right].
    exists x. split; [|by apply elem_of_drop_reverse]. rewrite elem_of_app, elem_of_list_singleton in H1. rewrite elem_of_cons, elem_of_reverse. tauto. }
  rewrite insert_after_eq in E by done. rewrite <- Er in E, Hk, HL, HN. change (prelude_count (reverse tags) (reverse l)) with n in Hk, HL, HN.
  exists (length l - k). unfold tags at 1. rewrite epilogue_before_eq by done. fold tags. rewrite (epilogue_after_eq _ _ _ k) by (done || lia). split; [done|]. split; [lia|]. split.
  - apply longest_reverse. rewrite insert_at_reverse, reverse_involutive by lia. done.
  - intros Hin. apply HN. rewrite take_reverse by done. rewrite <- (take_drop (length l - k) l) at 2. rewrite drop_app_le by (rewrite take_length; lia). rewrite reverse_app.
    rewrite drop_app_alt by (rewrite reverse_length, drop_length; lia). by rewrite elem_of_reverse.
Qed.
Lemma epilogue_before_misfit a s t b l : NoDup (a ++ s :: t :: b) ->
  let tags := a ++ s :: t :: b in let n := epilogue_count (reverse tags) l in
  n <> 0 -> (forall x, x ∈ a ++ [s] -> x ∉ drop (length l - n) l) -> epilogue_insert_before (reverse tags) l (Some t) = Ok (Z.of_nat (length l)).
Proof. intros Hd tags n Hn Hc. unfold tags. rewrite epilogue_before_eq by done. by apply epilogue_after_misfit. Qed.

(** ** is_valid *)
Lemma forallb_in (M l : list string) : forallb (fun t => bool_decide (t ∈ M)) l = true <-> Forall (fun t => t ∈ M) l.
Proof.
  rewrite forallb_forall, Forall_forall. split; intros H x Hx.
  - apply elem_of_list_In, H in Hx. by apply bool_decide_eq_true_1 in Hx.
  - apply elem_of_list_In, H in Hx. by apply bool_decide_eq_true_2.
Qed.
Lemma is_valid_ok P M E l : P <> [] -> NoDup P -> E <> [] -> NoDup E ->
  exists b, is_valid P M E l = Ok b /\ (b = true <-> well_structured P M E l).
Proof.
  intros HP HPd HE HEd. unfold is_valid. rewrite prelude_block_ok, epilogue_block_ok by done. cbn [rbind].
  set (pc := prelude_count P l). set (ec := epilogue_count (reverse E) l).
  assert (Hp := count_longest P l HPd). change (count_tags_in_block P l) with pc in Hp. assert (He := epilogue_longest E l HEd). fold ec in He.
  assert (Hmid : (if decide (ec = 0) then drop pc l else drop pc (drop_last ec l)) = drop pc (take (length l - ec) l)).
  { destruct (decide (ec = 0)) as [->|]; [|done]. by rewrite Nat.sub_0_r, take_ge. }
  rewrite Hmid. eexists. split; [done|]. rewrite forallb_in. clear Hmid. split.
  - intros HM. destruct (decide (pc <= length l - ec)) as [Hle|Hgt].
    + exists (take pc l), (drop pc (take (length l - ec) l)), (drop (length l - ec) l). split_and!; [|apply Hp|done|apply He].
      rewrite <- (take_drop (length l - ec) l) at 1. rewrite app_assoc. f_equal.
      rewrite <- (take_drop pc (take (length l - ec) l)) at 1. rewrite take_take, Nat.min_l by lia. done.
    + exists (take pc l), [], (drop pc l). split_and!; [by rewrite app_nil_l, take_drop|apply Hp|done|].
      destruct He as (_ & He & _). replace (drop pc l) with (drop (pc - (length l - ec)) (drop (length l - ec) l)) by (rewrite drop_drop; f_equal; lia).
      eapply in_order_suffix. rewrite take_drop. exact He.
  - intros (pre & mid & epi & -> & H1 & H2 & H3).
    assert (L1 := longest_prefix_max _ _ _ _ _ Hp eq_refl H1).
    assert (L2 : length epi <= ec) by (apply (longest_suffix_max _ _ _ (pre ++ mid) epi He); [by rewrite app_assoc|done]).
    rewrite Forall_forall in H2 |- *. intros x Hx. apply H2. apply elem_of_list_lookup in Hx as [i Hi]. rewrite lookup_drop in Hi.
    apply lookup_take_Some in Hi as [Hi Hlt]. rewrite !app_length in Hlt. rewrite lookup_app_r in Hi by lia. rewrite lookup_app_l in Hi by lia. by apply elem_of_list_lookup_2 in Hi.
Qed.
Lemma is_valid_err P M E l : ~ (P <> [] /\ NoDup P /\ E <> [] /\ NoDup E) -> is_valid P M E l = Err ValueError.
Proof.
  intros H. unfold is_valid. destruct (decide (P <> [] /\ NoDup P)) as [[H1 H2]|Hn]; [|by rewrite prelude_block_err].
  rewrite prelude_block_ok by done. cbn [rbind]. rewrite epilogue_block_err; [done|]. tauto.
Qed.

(** ** reorder *)
Section reorder_proofs.
Context {A : Type} `{EqDecision A} (tag_of : A -> string).
Implicit Types (l xs p e : list A).

Lemma filter_ext_in (P Q : A -> Prop) `{forall x, Decision (P x)} `{forall x, Decision (Q x)} l :
  (forall x, x ∈ l -> (P x <-> Q x)) -> filter P l = filter Q l.
Proof.
  induction l as [|x l IH]; intros HPQ; [done|]. assert (Hl : filter P l = filter Q l) by (apply IH; intros y Hy; apply HPQ; by right).
  destruct (HPQ x) as [H1 H2]; [by left|]. destruct (decide (P x)) as [HP|HP].
  - rewrite !filter_cons_True by auto. by rewrite Hl.
  - rewrite !filter_cons_False by auto. by rewrite Hl.
Qed.
Lemma filter_all (P : A -> Prop) `{forall x, Decision (P x)} l : (forall x, x ∈ l -> P x) -> filter P l = l.
Proof.
  induction l as [|x l IH]; intros HP; [done|]. rewrite filter_cons_True by (apply HP; by left). f_equal. apply IH. intros y Hy. apply HP. by right.
Qed.
Lemma filter_none (P : A -> Prop) `{forall x, Decision (P x)} l : (forall x, x ∈ l -> ~ P x) -> filter P l = [].
Proof.
  induction l as [|x l IH]; intros HP; [done|]. rewrite filter_cons_False by (apply HP; by left). apply IH. intros y Hy. apply HP. by right.
Qed.
Lemma drop_child_in x l : NoDup l -> x ∈ l -> drop_child x l = Some (filter (fun y => y <> x) l).
Proof.
  induction l as [|y l IH]; intros Hd Hx; [by apply elem_of_nil in Hx|]. apply NoDup_cons in Hd as [Hy Hd]. cbn [drop_child]. destruct (decide (y = x)) as [->|Hn].
  - rewrite filter_cons_False by (intros H; by apply H). f_equal. symmetry. apply filter_all. intros z Hz ->. done.
  - rewrite filter_cons_True by done. rewrite IH; [done|done|]. by apply elem_of_cons in Hx as [->|].
Qed.
Lemma drop_children_in xs l : NoDup l -> NoDup xs -> (forall x, x ∈ xs -> x ∈ l) ->
  drop_children xs l = (filter (fun y => y ∉ xs) l, Ok tt).
Proof.
  revert l. induction xs as [|x xs IH]; intros l Hd Hx Hin; cbn.
  - unfold aret. f_equal. symmetry. apply filter_all. intros y Hy. apply not_elem_of_nil.
  - apply NoDup_cons in Hx as [Hx Hxs]. rewrite drop_child_in by (done || (apply Hin; by left)). rewrite IH.
    + f_equal. rewrite list_filter_filter. apply list_filter_iff. intros y. rewrite not_elem_of_cons. tauto.
    + by apply NoDup_filter.
    + done.
    + intros y Hy. apply elem_of_list_filter. split; [by intros ->|]. apply Hin. by right.
Qed.
Definition grouped (tags : list string) l : list A := flat_map (fun t => filter (fun x => tag_of x = t) l) tags.
Lemma elem_of_grouped tags l x : x ∈ grouped tags l <-> tag_of x ∈ tags /\ x ∈ l.
Proof.
  induction tags as [|t tags IH]; unfold grouped; cbn; [set_solver|]. fold (grouped tags l). rewrite elem_of_app, IH, elem_of_list_filter, elem_of_cons. tauto.
Qed.
Lemma NoDup_grouped tags l : NoDup tags -> NoDup l -> NoDup (grouped tags l).
Proof.
  intros Ht Hl. induction Ht as [|t tags Hn Ht IH]; [constructor|]. unfold grouped; cbn; fold (grouped tags l). apply NoDup_app. split; [by apply NoDup_filter|]. split; [|done].
  intros x Hx Hg. apply elem_of_list_filter in Hx as [Hx _]. apply elem_of_grouped in Hg as [Hg _]. by rewrite Hx in Hg.
Qed.
Lemma in_order_grouped tags l : in_order tags (map tag_of (grouped tags l)).
Proof.
  induction tags as [|t tags IH]; [apply IO_nil|]. unfold grouped; cbn; fold (grouped tags l). rewrite map_app.
  change (t :: tags) with ([t] ++ tags). apply in_order_app; [|done]. clear. induction l as [|x l IH]; [apply IO_nil|]. cbn. destruct (decide (tag_of x = t)) as [E|E]; [|done].
  cbn. rewrite E. by apply IO_here.
Qed.
Lemma filter_grouped tags l t : NoDup tags -> filter (fun x => tag_of x = t) (grouped tags l) = if decide (t ∈ tags) then filter (fun x => tag_of x = t) l else [].
Proof.
  intros Ht. induction Ht as [|s tags Hn Ht IH]; [done|]. unfold grouped; cbn [flat_map]; fold (grouped tags l). rewrite filter_app, IH, list_filter_filter.
  destruct (decide (t = s)) as [->|Hts].
  - rewrite (decide_False (P := s ∈ tags)) by done. rewrite decide_True by (by left). rewrite app_nil_r. apply list_filter_iff. tauto.
  - replace (filter (fun x => tag_of x = t /\ tag_of x = s) l) with (@nil A).
    + cbn. destruct (decide (t ∈ tags)) as [Hi|Hi]; [rewrite decide_True by (by right); done|]. rewrite decide_False; [done|]. by rewrite elem_of_cons; intros [|].
    + symmetry. apply filter_none. intros x _ [E1 E2]. congruence.
Qed.
Lemma extract_eq tags l : NoDup tags -> NoDup l -> extract_nodes tag_of tags l = (filter (fun y => tag_of y ∉ tags) l, Ok (grouped tags l)).
Proof.
  intros Ht Hl. unfold extract_nodes. fold (grouped tags l). unfold abind. rewrite drop_children_in; [|done|by apply NoDup_grouped|].
  - unfold aret. f_equal. apply filter_ext_in. intros x Hx. rewrite elem_of_grouped. tauto.
  - intros x Hx. by apply elem_of_grouped in Hx as [_ ?].
Qed.
Lemma foldl_cons_reverse p l : foldl (fun l x => x :: l) l (reverse p) = p ++ l.
Proof.
  revert l. induction p as [|x p IH]; intros l; [done|]. rewrite reverse_cons, foldl_app, IH. done.
Qed.
Definition arranged (prelude epilogue : list string) l : list A :=
  grouped prelude l ++ filter (fun x => tag_of x ∉ prelude /\ tag_of x ∉ epilogue) l ++
  grouped epilogue (filter (fun x => tag_of x ∉ prelude) l).
Lemma arranged_short prelude epilogue l : NoDup prelude -> NoDup epilogue -> length l < 2 -> arranged prelude epilogue l = l.
Proof.
  intros HP HE Hl. unfold arranged. assert (HG : forall tags x, NoDup tags -> grouped tags [x] = if decide (tag_of x ∈ tags) then [x] else []).
  { intros tags x Ht. induction Ht as [|t tags Hn Ht IH]; [done|]. unfold grouped; cbn [flat_map]; fold (grouped tags [x]). rewrite IH.
    destruct (decide (tag_of x = t)) as [E|E].
    - rewrite filter_cons_True by done. rewrite decide_False by congruence. rewrite decide_True by (rewrite E; by left). done.
    - rewrite filter_cons_False by done. cbn. destruct (decide (tag_of x ∈ tags)) as [Hi|Hi]; [rewrite decide_True by (by right); done|].
      rewrite decide_False; [done|]. rewrite elem_of_cons. tauto. }
  assert (HN : forall tags, grouped tags [] = []) by (intros tags; induction tags; [done|unfold grouped; cbn; done]).
  destruct l as [|x [|? ?]]; [|..|cbn in Hl; lia].
  - by rewrite !HN.
  - rewrite HG by done. destruct (decide (tag_of x ∈ prelude)) as [Hp|Hp].
    + rewrite !filter_cons_False by (intros H; tauto). cbn. by rewrite HN.
    + rewrite (filter_all (fun y => tag_of y ∉ prelude)) by (intros y Hy; apply elem_of_list_singleton in Hy as ->; done). rewrite HG by done.
      destruct (decide (tag_of x ∈ epilogue)) as [He|He].
      * rewrite filter_cons_False by tauto. done.
      * rewrite filter_cons_True by done. done.
Qed.
Lemma reorder_eq prelude epilogue l : NoDup prelude -> NoDup epilogue -> NoDup l ->
  reorder tag_of prelude epilogue l = (arranged prelude epilogue l, Ok tt).
Proof.
  intros HP HE Hl. unfold reorder. destruct (decide (length l < 2)) as [Hs|Hs]; [by rewrite arranged_short|].
  unfold abind. rewrite extract_eq by done. rewrite extract_eq by (done || by apply NoDup_filter).
  rewrite foldl_cons_reverse. unfold arranged. rewrite <- app_assoc. do 3 f_equal. rewrite list_filter_filter. apply filter_ext_in. intros x _. tauto.
Qed.
Lemma arranged_perm prelude epilogue l : NoDup prelude -> NoDup epilogue -> NoDup l -> arranged prelude epilogue l ≡ₚ l.
Proof.
  intros HP HE Hl. apply NoDup_Permutation; [|done|].
  - unfold arranged. apply NoDup_app. split; [by apply NoDup_grouped|]. split.
    + intros x Hx Hy. apply elem_of_grouped in Hx as [Hx _]. apply elem_of_app in Hy as [Hy|Hy].
      * apply elem_of_list_filter in Hy. tauto.
      * apply elem_of_grouped in Hy as [_ Hy]. apply elem_of_list_filter in Hy. tauto.
    + apply NoDup_app. split; [by apply NoDup_filter|]. split; [|apply NoDup_grouped; [done|by apply NoDup_filter]].
      intros x Hx Hy. apply elem_of_list_filter in Hx. apply elem_of_grouped in Hy. tauto.
  - intros x. unfold arranged. rewrite !elem_of_app, !elem_of_grouped, !elem_of_list_filter.
    destruct (decide (tag_of x ∈ prelude)); destruct (decide (tag_of x ∈ epilogue)); tauto.
Qed.
Lemma arranged_reordered prelude epilogue l : NoDup prelude -> NoDup epilogue -> NoDup l -> reordered tag_of prelude epilogue l (arranged prelude epilogue l).
Proof.
  intros HP HE Hl. split; [by apply arranged_perm|]. split.
  - exists (grouped prelude l), (filter (fun x => tag_of x ∉ prelude /\ tag_of x ∉ epilogue) l), (grouped epilogue (filter (fun x => tag_of x ∉ prelude) l)).
    split; [done|]. split; [apply in_order_grouped|]. split; [apply in_order_grouped|]. split; [|split; [|done]].
    + apply Forall_forall. intros x Hx. apply elem_of_app in Hx as [Hx|Hx]; [apply elem_of_list_filter in Hx; tauto|]. apply elem_of_grouped in Hx as [_ Hx]. apply elem_of_list_filter in Hx. tauto.
    + apply Forall_forall. intros x Hx. apply elem_of_list_filter in Hx. tauto.
  - intros t. unfold arranged. rewrite !filter_app, !filter_grouped, !list_filter_filter by done.
    destruct (decide (t ∈ prelude)) as [Hp|Hp].
    + rewrite (filter_none (fun x => tag_of x = t /\ tag_of x ∉ prelude /\ tag_of x ∉ epilogue)) by (intros x _ (<- & ? & ?); done).
      rewrite (filter_none (fun x => tag_of x = t /\ tag_of x ∉ prelude)) by (intros x _ (<- & ?); done). destruct (decide _); by rewrite !app_nil_r.
    + destruct (decide (t ∈ epilogue)) as [He|He].
      * rewrite filter_none by (intros x _ (<- & ? & ?); done). cbn. apply filter_ext_in. intros x _. split; [tauto|]. by intros <-.
      * rewrite app_nil_r. cbn. apply filter_ext_in. intros x _. split; [tauto|]. by intros <-.
Qed.
Lemma grouped_ext tags l l' : (forall t, t ∈ tags -> filter (fun x => tag_of x = t) l = filter (fun x => tag_of x = t) l') -> grouped tags l = grouped tags l'.
Proof.
  induction tags as [|t tags IH]; intros H; [done|]. unfold grouped; cbn [flat_map]; fold (grouped tags l); fold (grouped tags l'). f_equal; [apply H; by left|].
  apply IH. intros s Hs. apply H. by right.
Qed.
(** the specification fixes the result *)
Lemma reordered_unique prelude epilogue l l' : reordered tag_of prelude epilogue l l' -> NoDup prelude -> NoDup epilogue -> l' = arranged prelude epilogue l.
Proof.
  intros (_ & (pre & mid & epi & -> & Hpre & Hepi & Hmid & Hmid' & Em) & HF) HP HE.
  assert (Hg : forall tags k, NoDup tags -> in_order tags (map tag_of k) -> grouped tags k = k).
  { clear. intros tags k Hd H. revert k H. induction Hd as [|t tags Hn Hd IH]; intros k H.
    - inversion H as [? E| |]; subst. by destruct k.
    - unfold grouped; cbn [flat_map]; fold (grouped tags k). induction k as [|x k IHk].
      + clear. induction tags; done.
      + destruct (decide (tag_of x = t)) as [E|E].
        * rewrite filter_cons_True by done. cbn. f_equal. rewrite (grouped_ext tags (x :: k) k).
          -- apply IHk. cbn in H. rewrite E in H. by apply (in_order_cons_inv t [] tags) in H; [|constructor].
          -- intros s Hs. rewrite filter_cons_False; [done|]. congruence.
        * assert (Ho : in_order tags (map tag_of (x :: k))) by (cbn in H |- *; inversion H; subst; done).
          rewrite IH by done. rewrite filter_none; [done|]. intros y Hy Ey. apply in_order_tags in Ho. rewrite Forall_forall in Ho. apply Hn. apply Ho.
          apply elem_of_list_In, in_map_iff. exists y. split; [done|]. by apply elem_of_list_In. }
  assert (Tpre := in_order_tags _ _ Hpre). assert (Tepi := in_order_tags _ _ Hepi). rewrite !Forall_forall in *.
  assert (Tp : forall x, x ∈ pre -> tag_of x ∈ prelude) by (intros x Hx; apply Tpre, elem_of_list_In, in_map_iff; exists x; split; [done|by apply elem_of_list_In]).
  assert (Te : forall x, x ∈ epi -> tag_of x ∈ epilogue) by (intros x Hx; apply Tepi, elem_of_list_In, in_map_iff; exists x; split; [done|by apply elem_of_list_In]).
  unfold arranged. f_equal; [|f_equal; [done|]].
  - rewrite <- (Hg prelude pre) by done. apply grouped_ext. intros t Ht. rewrite <- HF. rewrite filter_app, (filter_none _ (mid ++ epi)); [by rewrite app_nil_r|].
    intros x Hx <-. by apply (Hmid x).
  - rewrite <- (Hg epilogue epi) at 1 by done. apply grouped_ext. intros t Ht. rewrite list_filter_filter. destruct (decide (t ∈ prelude)) as [Hp|Hp].
    + rewrite !filter_none; [done| |]; [intros x _ (<- & ?); done|]. intros x Hx <-. apply (Hmid x); [apply elem_of_app; by right|done].
    + rewrite (filter_ext_in (fun x => tag_of x = t /\ tag_of x ∉ prelude) (fun x => tag_of x = t)) by (intros x _; split; [tauto|by intros <-]).
      rewrite <- HF, !filter_app. rewrite (filter_none _ pre), (filter_none _ mid); [done| |].
      * intros x Hx <-. by apply (Hmid' x).
      * intros x Hx <-. by apply Hp, Tp.
Qed.
Lemma arranged_idem prelude epilogue l : NoDup prelude -> NoDup epilogue -> NoDup l ->
  arranged prelude epilogue (arranged prelude epilogue l) = arranged prelude epilogue l.
Proof.
  intros HP HE Hl. symmetry. apply reordered_unique; [|done|done]. assert (HR := arranged_reordered prelude epilogue l HP HE Hl).
  destruct HR as (_ & (pre & mid & epi & E & H1 & H2 & H3 & H4 & H5) & _). split; [done|]. split; [|done]. exists pre, mid, epi. split_and!; try done.
  rewrite E, !filter_app. rewrite Forall_forall in H3, H4.
  assert (Tpre := in_order_tags _ _ H1). assert (Tepi := in_order_tags _ _ H2). rewrite !Forall_forall in *.
  rewrite (filter_none _ pre), (filter_none _ epi), (filter_all _ mid); [by rewrite app_nil_r| | |].
  - intros x Hx. split; [apply H3, elem_of_app; by left|by apply H4].
  - intros x Hx [_ Hn]. apply Hn, Tepi, elem_of_list_In, in_map_iff. exists x. split; [done|by apply elem_of_list_In].
  - intros x Hx [Hn _]. apply Hn, Tpre, elem_of_list_In, in_map_iff. exists x. split; [done|by apply elem_of_list_In].
Qed.
End reorder_proofs.

(** ** Text bodies *)
Lemma text_epilogue_ok : TEXT_EPILOGUE <> [] /\ NoDup TEXT_EPILOGUE.
Proof. split; [done|]. dec_vm. Qed.
Lemma text_prelude_ok : TEXT_PRELUDE <> [] /\ NoDup TEXT_PRELUDE.
Proof. split; [done|]. dec_vm. Qed.
Lemma e_insert_inside k (c e : elem) : k <= length (kids e) -> e_insert (Z.of_nat k) c e = T (root e) (insert_at k c (kids e)).
Proof.
  destruct e as [a ks]. intros Hk. cbn in *. f_equal. unfold lxml_insert_pos, py_index.
  repeat (destruct (decide _); [try lia|]); repeat f_equal; try lia.
Qed.
Lemma body_append_eq (c e : elem) : exists content epi,
  kids e = content ++ epi /\ longest_suffix TEXT_EPILOGUE (map e_tag (kids e)) (length epi) /\
  body_append c e = (T (root e) (content ++ c :: epi), Ok tt).
Proof.
  destruct text_epilogue_ok as [H1 H2]. assert (HL := epilogue_longest TEXT_EPILOGUE (map e_tag (kids e)) H2).
  set (n := epilogue_count (reverse TEXT_EPILOGUE) (map e_tag (kids e))) in *.
  assert (Hn : n <= length (kids e)) by (destruct HL as [HL _]; by rewrite map_length in HL).
  exists (take (length (kids e) - n) (kids e)), (drop (length (kids e) - n) (kids e)). rewrite take_drop. split; [done|]. split.
  { rewrite drop_length. replace (length (kids e) - (length (kids e) - n)) with n by lia. done. }
  unfold body_append. rewrite epilogue_block_ok by done. cbn [rbind].
  destruct (epilogue_before_first_fits "table:named-expressions" (drop 1 TEXT_EPILOGUE) (map e_tag (kids e)) H2) as (E & _ & _).
  change ("table:named-expressions"%string :: drop 1 TEXT_EPILOGUE) with TEXT_EPILOGUE in E. fold n in E. rewrite E, map_length. rewrite e_insert_inside by lia. done.
Qed.
Lemma longest_suffix_exact (E M P l pre mid epi : list string) n : longest_suffix E l n -> l = pre ++ mid ++ epi -> in_order P pre -> Forall (fun t => t ∈ M) mid ->
  in_order E epi -> (forall t, t ∈ E -> t ∉ P /\ t ∉ M) -> n = length epi.
Proof.
  intros HL -> Hp Hm He HD. assert (Hge : length epi <= n) by (apply (longest_suffix_max _ _ _ (pre ++ mid) epi HL); [by rewrite app_assoc|done]).
  destruct (decide (n = length epi)); [done|]. exfalso. destruct HL as (Hn & Ho & _). rewrite !app_length in *.
  apply in_order_tags in Ho, Hp. rewrite Forall_forall in Ho, Hp, Hm. rewrite app_assoc in Ho. rewrite drop_app_le in Ho by (rewrite app_length; lia).
  destruct (drop (length pre + (length mid + length epi) - n) (pre ++ mid)) as [|x r] eqn:Ed.
  - apply (f_equal length) in Ed. rewrite drop_length, app_length in Ed. cbn in Ed. lia.
  - assert (Hx : x ∈ pre ++ mid) by (rewrite <- (take_drop (length pre + (length mid + length epi) - n)), Ed; apply elem_of_app; right; by left).
    destruct (HD x) as [D1 D2]; [apply Ho; by left|]. apply elem_of_app in Hx as [Hx|Hx]; [by apply D1, Hp|by apply D2, Hm].
Qed.
Lemma body_append_valid (M : list string) (c e : elem) : (forall t, t ∈ TEXT_EPILOGUE -> t ∉ TEXT_PRELUDE /\ t ∉ M) -> e_tag c ∈ M ->
  well_structured TEXT_PRELUDE M TEXT_EPILOGUE (map e_tag (kids e)) ->
  well_structured TEXT_PRELUDE M TEXT_EPILOGUE (map e_tag (kids (body_append c e).1)) /\ (body_append c e).2 = Ok tt.
Proof.
  intros HD Hc (pre & mid & epi & E & H1 & H2 & H3). destruct (body_append_eq c e) as (content & ep & Ek & HL & ->). split; [|done]. cbn [fst kids].
  assert (Hlen := longest_suffix_exact _ _ _ _ _ _ _ _ HL E H1 H2 H3 HD). rewrite Ek, map_app, app_assoc in E.
  apply app_inj_2 in E as [E1 E2]; [|by rewrite map_length]. exists pre, (mid ++ [e_tag c]), epi. split_and!; try done.
  - rewrite map_app. cbn. rewrite E1, E2, <- !app_assoc. done.
  - apply Forall_app. split; [done|]. by constructor.
Qed.
Lemma body_history (M : list string) (cs : list elem) e : (forall t, t ∈ TEXT_EPILOGUE -> t ∉ TEXT_PRELUDE /\ t ∉ M) -> Forall (fun c => e_tag c ∈ M) cs ->
  well_structured TEXT_PRELUDE M TEXT_EPILOGUE (map e_tag (kids e)) ->
  exists content epi e', kids e = content ++ epi /\ in_order TEXT_EPILOGUE (map e_tag epi) /\ Forall (fun k => e_tag k ∉ TEXT_EPILOGUE) content /\
    aiter cs body_append e = (e', Ok tt) /\ e' = T (root e) (content ++ cs ++ epi) /\
    well_structured TEXT_PRELUDE M TEXT_EPILOGUE (map e_tag (kids e')).
Proof.
  intros HD. revert e. induction cs as [|c cs IH]; intros e Hcs HW.
  - destruct HW as (pre & mid & epi & E & H1 & H2 & H3). assert (HW : well_structured TEXT_PRELUDE M TEXT_EPILOGUE (map e_tag (kids e))) by (by exists pre, mid, epi).
    exists (take (length (pre ++ mid)) (kids e)), (drop (length (pre ++ mid)) (kids e)), e.
    assert (Et : map e_tag (take (length (pre ++ mid)) (kids e)) = pre ++ mid) by (rewrite <- firstn_map, E, app_assoc; by rewrite take_app).
    assert (Ed : map e_tag (drop (length (pre ++ mid)) (kids e)) = epi) by (rewrite <- skipn_map, E, app_assoc; by rewrite drop_app).
    rewrite take_drop. split; [done|]. split; [by rewrite Ed|]. split.
    { apply Forall_forall. intros k Hk Hin. assert (Hx : e_tag k ∈ pre ++ mid) by (rewrite <- Et; apply elem_of_list_In, in_map, elem_of_list_In, Hk).
      destruct (HD _ Hin) as [D1 D2]. apply in_order_tags in H1. rewrite Forall_forall in H1, H2. apply elem_of_app in Hx as [Hx|Hx]; auto. }
    split; [done|]. split; [|done]. cbn. rewrite take_drop. by destruct e.
  - apply Forall_cons in Hcs as [Hc Hcs]. destruct (body_append_valid M c e HD Hc HW) as [HW' HO].
    destruct (body_append_eq c e) as (content & ep & Ek & HL & Eb). rewrite Eb in HW'. cbn [fst] in HW'.
    destruct (IH _ Hcs HW') as (content' & ep' & e' & Ek' & Ho' & Hc' & Er & Ee & HWe). cbn [kids root] in *.
    assert (Hsplit : content' = content ++ [c] /\ ep' = ep).
    { clear IH HW HW' Er Ee HWe. (* both end exactly where the epilogue begins *)
      destruct HL as (_ & HL & _). rewrite Ek, map_app in HL.
      rewrite app_length, !map_length in HL. replace (length content + length ep - length ep) with (length (map e_tag content)) in HL by (rewrite map_length; lia).
      rewrite drop_app in HL. assert (To' := in_order_tags _ _ Ho'). assert (Hc2 := Hc'). apply in_order_tags in HL. rewrite Forall_forall in HL; rewrite Forall_forall in To'; rewrite Forall_forall in Hc2.
      assert (Hcn : e_tag c ∉ TEXT_EPILOGUE) by (intros Hi; by destruct (HD _ Hi)).
      assert (Hl : length ep = length ep').
      { destruct (decide (length ep < length ep')) as [Hlt|Hge].
        - exfalso. assert (Hx : (content ++ c :: ep) !! length content = Some c) by (by rewrite lookup_app_r, Nat.sub_diag).
          assert (Hle : length content + S (length ep) = length content' + length ep') by (apply (f_equal length) in Ek'; rewrite !app_length in Ek'; cbn in Ek'; lia).
          rewrite Ek', lookup_app_r in Hx by lia. apply elem_of_list_lookup_2 in Hx. apply Hcn, To'. apply elem_of_list_In, in_map, elem_of_list_In, Hx.
        - destruct (decide (length ep = length ep')); [done|]. exfalso.
          assert (Hle : length content + S (length ep) = length content' + length ep') by (apply (f_equal length) in Ek'; rewrite !app_length in Ek'; cbn in Ek'; lia).
          destruct (lookup_lt_is_Some_2 ep (length ep - S (length ep'))) as [x Hx]; [lia|].
          assert (Hy : (content ++ c :: ep) !! (length content + S (length ep - S (length ep'))) = Some x).
          { rewrite lookup_app_r by lia. replace (length content + S (length ep - S (length ep')) - length content) with (S (length ep - S (length ep'))) by lia. done. }
          rewrite Ek', lookup_app_l in Hy by lia. apply elem_of_list_lookup_2 in Hx, Hy. apply (Hc2 x Hy), HL. apply elem_of_list_In, in_map, elem_of_list_In, Hx. }
      replace (content ++ c :: ep) with ((content ++ [c]) ++ ep) in Ek' by (by rewrite <- app_assoc). apply app_inj_2 in Ek' as [-> ->]; done. }
    destruct Hsplit as [-> ->]. exists content, ep, e'. split; [done|]. split; [done|]. split; [by apply Forall_app in Hc' as [? _]|]. split.
    + cbn [aiter]. unfold abind. rewrite Eb. exact Er.
    + split; [|done]. rewrite Ee. f_equal. rewrite <- app_assoc. done.
Qed.
