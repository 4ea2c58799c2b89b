(** Theorems about timeparser.py. *)
From Verif Require Import TimeParserProofs.
Open Scope Z_scope.

(** ** C50: durations *)

(** A non-negative timedelta is read again as it was written, cut to multiples of 100 microseconds. *)
Theorem C50_duration : forall (U : Unicode) (pads : bool) (t : timedelta), is_timedelta t -> 0 <= td_days t ->
  reread pads (VDelta t) = Ok (VDelta (TD (td_days t) (td_seconds t) (td_micros t - td_micros t mod 100))).
Proof.
  intros U pads t Ht Hd. destruct (duration_string t Ht Hd) as (dt & E & Hy & Hm & Hdd & h & mi & us & Htv & Bh & Bm & Bu & Hus).
  unfold reread, tp_new. cbn [tp_str]. rewrite E. cbn [rbind fst snd].
  assert (P : tp_parse (text_of dt) = duration_parser (text_of dt)) by (unfold text_of; done). rewrite P.
  replace (text_of dt) with (text_of dt ++ []) by apply app_nil_r.
  pose proof Ht as (Hd1 & Hs1 & Hu1).
  rewrite (parse_value dt [] 0 0 (td_days t) h mi us) by (done || lia).
  pose proof (Z.mod_pos_bound (td_micros t) 100 ltac:(lia)). pose proof (Z.mod_le (td_micros t) 100 ltac:(lia) ltac:(lia)).
  set (t' := TD _ _ _). assert (Ht' : is_timedelta t') by (unfold is_timedelta, t'; cbn [td_days td_seconds td_micros]; lia).
  replace ((((365 * 0 + 30 * 0 + td_days t) * 24 + h) * 60 + mi) * 60000000 + us) with (total_us t')
    by (unfold total_us, t'; cbn [td_days td_seconds td_micros]; lia).
  by rewrite td_of_us_total.
Qed.
Print Assumptions C50_duration.
Example C50_duration_case : is_timedelta (TD 3 86399 123456) /\
  tp_str false (VDelta (TD 3 86399 123456)) = Ok (lit "P3DT23H59M59,1234S") /\
  reread (U := ascii_unicode) false (VDelta (TD 3 86399 123456)) = Ok (VDelta (TD 3 86399 123400)).
Proof. split; [unfold is_timedelta; cbn; lia|]. split; by_vm. Qed.

(** The text of a negative timedelta is rejected. *)
Theorem C50_negative : forall (U : Unicode) (pads : bool) (t : timedelta), is_timedelta t -> td_days t < 0 ->
  reread pads (VDelta t) = Err ValueError.
Proof.
  intros U pads t (H1 & H2 & H3) Hd. unfold reread, tp_new. cbn [tp_str]. unfold duration_to_string. rewrite get_time_ok by done. cbn [rbind].
  rewrite decide_False by lia. unfold show_Z at 1. rewrite decide_True by lia. rewrite <- !app_assoc. change (lit "P") with [80%N]. cbn [app fst snd tp_parse rbind].
  set (r := show_N _ ++ _). unfold duration_parser.
  assert (L : lead (45%N :: r) = Some 45%N) by (apply lead_char, nd_minus).
  rewrite (group_skip 89) by (rewrite L; done). cbn [fst snd]. rewrite (group_skip 77) by (rewrite L; done). cbn [fst snd].
  rewrite (group_skip 68) by (rewrite L; done). cbn [fst snd]. unfold at_end. by rewrite bool_decide_eq_false_2 by (intros [|[=]]; done).
Qed.
Print Assumptions C50_negative.
Example C50_negative_case : is_timedelta (TD (-1) 86399 0) /\
  tp_str false (VDelta (TD (-1) 86399 0)) = Ok (lit "P-1DT23H59M59S") /\
  reread (U := ascii_unicode) false (VDelta (TD (-1) 86399 0)) = Err ValueError.
Proof. split; [unfold is_timedelta; cbn; lia|]. split; by_vm. Qed.

(** PnYnMnDTnHnMn,nS is read exactly, years as 365 and months as 30 days; beyond what timedelta can hold it raises OverflowError. *)
Theorem C50_parse : forall (U : Unicode) (t : duration_text) (y m d h mi us total : Z),
  part_value (t_years t) y -> part_value (t_months t) m -> part_value (t_days t) d ->
  match t_time t with
  | None => h = 0 /\ mi = 0 /\ us = 0
  | Some (oh, om, os) => part_value oh h /\ part_value om mi /\ seconds_value os us
  end ->
  365 * y + 30 * m + d < 2 ^ 53 -> h < 2 ^ 53 -> mi < 2 ^ 53 -> us < 2 ^ 20 * 1000000 ->
  total = ((((365 * y + 30 * m + d) * 24 + h) * 60 + mi) * 60) * 1000000 + us ->
  if decide (total < 1000000000 * 86400 * 1000000)
  then exists v, tp_parse (text_of t) = Ok (VDelta v) /\ is_timedelta v /\ total_us v = total
  else tp_parse (text_of t) = Err OverflowError.
Proof.
  intros U t y m d h mi us total Hy Hm Hd Ht B1 B2 B3 B4 Etot.
  assert (P : tp_parse (text_of t) = duration_parser (text_of t)) by (unfold text_of; done). rewrite P.
  replace (text_of t) with (text_of t ++ []) by apply app_nil_r.
  rewrite (parse_value t [] y m d h mi us) by (done || lia).
  replace ((((365 * y + 30 * m + d) * 24 + h) * 60 + mi) * 60000000 + us) with total by lia.
  assert (N : forall o v, part_value o v -> 0 <= v).
  { intros [s|] v H; cbn in H; [destruct H as (ds & _ & ->); apply dec_value_nonneg|lia]. }
  assert (Hus : 0 <= us).
  { destruct (t_time t) as [[[oh om] os]|]; [|lia]. destruct Ht as (_ & _ & Hs). destruct (sec_digits _ _ Hs) as (xd & fd & Os). by destruct (clean_seconds _ _ _ _ Os Hs B4). }
  assert (H0 : 0 <= total).
  { pose proof (N _ _ Hy). pose proof (N _ _ Hm). pose proof (N _ _ Hd). assert (0 <= h /\ 0 <= mi); [|lia].
    destruct (t_time t) as [[[oh om] os]|]; [|lia]. destruct Ht as (Hh & Hmi & _). by split; eapply N. }
  destruct (decide _) as [E|E].
  - destruct (td_of_us_small total) as [v Ev]; [by split|]. exists v. rewrite Ev. split; [reflexivity|]. by apply td_of_us_ok.
  - rewrite td_of_us_big by (by apply Z.nlt_ge). reflexivity.
Qed.
Print Assumptions C50_parse.
Definition t_1 : duration_text := DT (Some (lit "1")) (Some (lit "02")) None (Some (Some (lit "25"), None, Some (lit "1", Some (lit "000001")))).
Example C50_parse_case : part_value (U := ascii_unicode) (t_years t_1) 1 /\ part_value (U := ascii_unicode) (t_months t_1) 2 /\
  seconds_value (U := ascii_unicode) (Some (lit "1", Some (lit "000001"))) 1000001 /\
  text_of t_1 = lit "P1Y02MT25H1,000001S" /\
  tp_parse (U := ascii_unicode) (text_of t_1) = Ok (VDelta (TD 426 3601 1)) /\
  tp_parse (U := ascii_unicode) (lit "P999999999DT24H") = Err OverflowError.
Proof.
  split; [exists [1%N]; done|]. split; [exists [0; 2]%N; done|]. split; [exists [1%N], [0; 0; 0; 0; 0; 1]%N; split_and!; [done..|cbn; lia|done]|].
  split; [by_vm|]. split; by_vm.
Qed.
(** Larger values than the bounds of C50_parse lose microseconds. *)
Theorem C50_parse_counterexample : exists (U : Unicode) (s : pystr),
  s = lit "PT17179869184,000001S" /\ tp_parse s = Ok (VDelta (TD 198841 6784 0)).
Proof. exists ascii_unicode. eexists. split; [reflexivity|]. by_vm. Qed.
Print Assumptions C50_parse_counterexample.

(** Nothing else that begins with P is a duration (one newline may follow). *)
Theorem C50_syntax : forall (U : Unicode) (s r : pystr), s = 80%N :: r ->
  (forall t, text_wf t -> s <> text_of t /\ s <> text_of t ++ [10%N]) -> tp_parse s = Err ValueError.
Proof.
  intros U s r -> H. cbn [tp_parse]. destruct (duration_parser_form _ r eq_refl) as [E|(t & tl & y & m & d & h & mi & x & f & Ht & He & Es)]; [done|].
  exfalso. assert (W : text_wf t).
  { destruct Ht as (Hy & Hm & Hd & Ht). assert (P : forall o ds, ods o ds -> part_wf o).
    { intros o ds Ho s ->. by exists ds. }
    split; [by eapply P|]. split; [by eapply P|]. split; [by eapply P|]. destruct (t_time t) as [[[oh om] os]|]; [|done]. destruct Ht as (Hh & Hmi & Hs).
    split; [by eapply P|]. split; [by eapply P|]. destruct os as [[i [g|]]|]; cbn [ofs] in Hs; [| |done].
    - destruct Hs as [Hi Hg]. split; intros ? [= <-]; eauto.
    - destruct Hs as [Hi _]. split; [intros ? [= <-]; eauto|by intros ? [=]]. }
  destruct (H t W) as [N1 N2]. unfold at_end in He. apply bool_decide_eq_true in He as [-> | ->]; [|done]. rewrite app_nil_r in Es. done.
Qed.
Print Assumptions C50_syntax.
Example C50_syntax_case : tp_parse (U := ascii_unicode) (lit "P5H") = Err ValueError /\ tp_parse (U := ascii_unicode) (lit "PT1,S") = Err ValueError /\
  tp_parse (U := ascii_unicode) (lit "P5D" ++ [10%N]) = Ok (VDelta (TD 5 0 0)).
Proof. split; [by_vm|]. split; by_vm. Qed.

(** ** C50: dates *)

Theorem C50_date : forall (U : Unicode) (pads : bool) (y m d : Z), is_date y m d -> pads = true \/ 1000 <= y ->
  reread pads (VDate y m d) = Ok (VDate y m d).
Proof. intros U pads y m d Hd Hp. by apply reread_date. Qed.
Print Assumptions C50_date.
Example C50_date_case : is_date 2000 2 29 /\ tp_str false (VDate 2000 2 29) = Ok (lit "2000-02-29") /\
  reread (U := ascii_unicode) false (VDate 2000 2 29) = Ok (VDate 2000 2 29) /\ ~ is_date 1900 2 29 /\
  tp_parse (U := ascii_unicode) (lit "1900-02-29") = Err ValueError.
Proof.
  split; [apply valid_date_iff; by_vm|]. split; [by_vm|]. split; [by_vm|]. split; [|by_vm].
  intros H. apply valid_date_iff in H. revert H. vm_compute. done.
Qed.

(** Microseconds of a datetime are dropped. *)
Theorem C50_datetime : forall (U : Unicode) (pads : bool) (y m d h mi s us : Z), is_date y m d -> is_time h mi s -> pads = true \/ 1000 <= y ->
  reread pads (VDatetime y m d h mi s us) = Ok (VDatetime y m d h mi s 0).
Proof. intros U pads y m d h mi s us Hd Ht Hp. by apply reread_datetime. Qed.
Print Assumptions C50_datetime.
Example C50_datetime_case : is_date 1999 12 31 /\ is_time 23 59 9 /\
  tp_str false (VDatetime 1999 12 31 23 59 9 999999) = Ok (lit "1999-12-31T23:59:09") /\
  reread (U := ascii_unicode) false (VDatetime 1999 12 31 23 59 9 999999) = Ok (VDatetime 1999 12 31 23 59 9 0).
Proof. split; [apply valid_date_iff; by_vm|]. split; [unfold is_time; lia|]. split; by_vm. Qed.

(** Where strftime does not pad years (glibc), the text of a date before the year 1000 is rejected. *)
Theorem C50_small_year : forall (U : Unicode) (y m d h mi s us : Z), is_date y m d -> y < 1000 ->
  reread false (VDate y m d) = Err ValueError /\ reread false (VDatetime y m d h mi s us) = Err ValueError.
Proof.
  intros U y m d h mi s us Hd Hy. pose proof (is_date_bounds _ _ _ Hd) as (By & Bm & Bd).
  destruct (ystr_first false y By) as (a & r & Ea & Ha). cbn [ystr] in Ea.
  unfold reread, tp_new. cbn [tp_str rbind fst snd]. split.
  - pose proof (no_T_date false y m d Hd) as NT. cbn [ystr] in NT. set (R := zpad 2 m ++ lit "-" ++ zpad 2 d) in *.
    pose proof (match_date_small y R ltac:(lia)) as E. rewrite Ea in *. cbn [app] in *. rewrite tp_parse_date by lia. rewrite decide_False by done.
    unfold strptime_date. by rewrite E.
  - rewrite <- !app_assoc. set (T := lit "T" ++ _).
    pose proof (match_date_small y (zpad 2 m ++ lit "-" ++ zpad 2 d ++ T) ltac:(lia)) as E.
    assert (HT : 84%N ∈ show_Z y ++ lit "-" ++ zpad 2 m ++ lit "-" ++ zpad 2 d ++ T).
    { rewrite !elem_of_app. do 5 right. unfold T. rewrite elem_of_app. left. by apply elem_of_list_singleton. }
    rewrite Ea in *. cbn [app] in *. rewrite tp_parse_date by lia. rewrite decide_True by done.
    unfold strptime_datetime, match_datetime. by rewrite E.
Qed.
Print Assumptions C50_small_year.
Example C50_small_year_case : is_date 999 12 31 /\ tp_str false (VDate 999 12 31) = Ok (lit "999-12-31") /\
  reread (U := ascii_unicode) true (VDate 999 12 31) = Ok (VDate 999 12 31).
Proof. split; [apply valid_date_iff; by_vm|]. split; by_vm. Qed.

(** What is read is a value that exists. *)
Theorem C50_valid : forall (U : Unicode) (s : pystr) (v : tvalue), tp_parse s = Ok v -> is_value v.
Proof.
  intros U s v H.
  assert (HD : forall s v, strptime_date s = Ok v -> is_value v).
  { clear. intros s v. unfold strptime_date. destruct (match_date s) as [|[[[y m] d] [|]] l]; try done. destruct (valid_date y m d) eqn:E; [|done].
    intros [= <-]. by apply valid_date_iff. }
  assert (HT : forall s v, strptime_datetime s = Ok v -> is_value v).
  { clear. intros s v. unfold strptime_datetime. destruct (match_datetime s) as [|[[[[y m] d] [[h mi] x]] [|]] l]; try done.
    destruct (valid_date y m d) eqn:E; [|done]. destruct (valid_time h mi x) eqn:E'; [|done]. cbn [andb].
    intros [= <-]. cbn. split; [by apply valid_date_iff|]. split; [by apply valid_time_iff|lia]. }
  destruct s as [|a r]; [by apply HD in H|]. destruct (decide (a = 80%N)) as [->|Na].
  - cbn [tp_parse] in H. destruct (duration_parser_form _ r eq_refl) as [E|(t & tl & y & m & d & h & mi & x & f & Ht & He & Es)]; [by rewrite E in H|].
    rewrite Es in H. rewrite (duration_parser_text t _ _ _ _ _ _ _ tl Ht He) in H. unfold td_new in H.
    repeat (match type of H with (do _ <- (do _ <- ?x; _); _) = _ => destruct x; cbn [rbind] in H; [|done] end).
    match type of H with (do _ <- td_of_us ?u; _) = _ => destruct (td_of_us u) as [t'|] eqn:Et end; [|done]. injection H as <-. cbn. by apply td_of_us_ok in Et as [? _].
  - rewrite tp_parse_date in H by done. case_decide; eauto.
Qed.
Print Assumptions C50_valid.
Example C50_valid_case : tp_parse (U := ascii_unicode) (lit "2011-2-3T4:5:6") = Ok (VDatetime 2011 2 3 4 5 6 0) /\
  tp_parse (U := ascii_unicode) (lit "2011-02-03T04:05:60") = Err ValueError.
Proof. split; by_vm. Qed.

(** What kind of value a text gives depends on its first character and on whether there is a T in it. *)
Theorem C50_kind : forall (U : Unicode) (pads : bool) (s : pystr) (x : pystr * tvalue), tp_new pads (inl s) = Ok x ->
  x.1 = s /\
  (tp_is_duration x.2 = true <-> head s = Some 80%N) /\
  (tp_is_date x.2 = true <-> head s <> Some 80%N) /\
  (tp_has_time x.2 = true <-> head s <> Some 80%N /\ 84%N ∈ s).
Proof.
  intros U pads s x H. cbn [tp_new] in H. destruct (tp_parse s) as [v|] eqn:E; [|done]. cbn [rbind] in H. injection H as <-. cbn [fst snd]. split; [done|].
  assert (HD : forall v, strptime_date s = Ok v -> tp_is_duration v = false /\ tp_is_date v = true /\ tp_has_time v = false).
  { intros w. unfold strptime_date. destruct (match_date s) as [|[[[y m] d] [|]] l]; try done. destruct (valid_date y m d); [|done]. by intros [= <-]. }
  assert (HT : forall v, strptime_datetime s = Ok v -> tp_is_duration v = false /\ tp_is_date v = true /\ tp_has_time v = true).
  { intros w. unfold strptime_datetime. destruct (match_datetime s) as [|[[[[y m] d] [[h mi] z]] [|]] l]; try done. destruct (valid_date y m d && valid_time h mi z); [|done]. by intros [= <-]. }
  destruct (decide (head s = Some 80%N)) as [Hs|Hs].
  - destruct s as [|a r]; [done|]. injection Hs as ->. cbn [tp_parse] in E.
    assert (HV : tp_is_duration v = true /\ tp_is_date v = false /\ tp_has_time v = false).
    { destruct (duration_parser_form _ r eq_refl) as [E1|(t & tl & y & m & d & h & mi & z & f & Ht & He & Es)]; [by rewrite E1 in E|].
      rewrite Es in E. rewrite (duration_parser_text t _ _ _ _ _ _ _ tl Ht He) in E.
      match type of E with (do _ <- ?q; _) = _ => destruct q end; [|done]. cbn [rbind] in E. by injection E as <-. }
    destruct HV as (-> & -> & ->). cbn [head]. split; [done|]. split; [by split|]. split; [done|]. by intros [? _].
  - assert (Ep : tp_parse s = if decide (84%N ∈ s) then strptime_datetime s else strptime_date s).
    { destruct s as [|a r]; [done|]. apply tp_parse_date. intros ->. by apply Hs. }
    rewrite Ep in E. case_decide as Hc.
    + destruct (HT v E) as (-> & -> & ->). split; [by split|]. split; [done|]. done.
    + destruct (HD v E) as (-> & -> & ->). split; [by split|]. split; [done|]. split; [done|]. by intros [_ ?].
Qed.
Print Assumptions C50_kind.
Example C50_kind_case : tp_new (U := ascii_unicode) false (inl (lit "2011-02-03T04:05:06")) = Ok (lit "2011-02-03T04:05:06", VDatetime 2011 2 3 4 5 6 0).
Proof. by_vm. Qed.
