From Verif Require Import PyBaseFacts Float64Proofs.
From Verif Require Export TimeParserSpec.
Open Scope Z_scope.

(** ** Fixed width numbers *)
Definition code (d : N) : N := (48 + d)%N.
Fixpoint fixed (k : nat) (n : N) : list N :=
  match k with O => [] | S k => fixed k (n / 10)%N ++ [(n mod 10)%N] end.
Lemma fixed_length k n : length (fixed k n) = k.
Proof. revert n. induction k as [|k IH]; intros n; [done|]. cbn. rewrite app_length, IH. cbn. lia. Qed.
Lemma fixed_lt k n : Forall (fun d => d < 10)%N (fixed k n).
Proof.
  revert n. induction k as [|k IH]; intros n; [constructor|]. cbn. apply Forall_app. split; [done|]. constructor; [|constructor]. apply N.mod_lt. done.
Qed.
Lemma fixed_0 k : fixed k 0 = replicate k 0%N.
Proof.
  induction k as [|k IH]; [done|]. cbn [fixed]. change (0 / 10)%N with 0%N. change (0 mod 10)%N with 0%N. rewrite IH.
  symmetry. apply replicate_S_end.
Qed.
Lemma digits_S f n : digits_fuel (S f) n = if decide (n < 10)%N then [n] else digits_fuel f (n / 10)%N ++ [(n mod 10)%N].
Proof. done. Qed.
Lemma digits_fixed f n k : (0 < k)%nat -> (n < 10 ^ N.of_nat k)%N -> (n < 2 ^ N.of_nat f)%N ->
  let ds := digits_fuel (S f) n in (length ds <= k)%nat /\ replicate (k - length ds) 0%N ++ ds = fixed k n.
Proof.
  revert n k. induction f as [|f IH]; intros n k Hk Hn Hf ds; subst ds.
  - assert (n = 0)%N as -> by (cbn in Hf; lia). cbn [digits_fuel]. rewrite decide_True by lia. cbn [length]. split; [lia|].
    rewrite fixed_0. replace k with (S (k - 1)) at 2 by lia. rewrite replicate_S_end. done.
  - rewrite (digits_S (S f) n). case_decide as E.
    + cbn [length]. split; [lia|]. destruct k as [|k]; [lia|]. cbn [fixed]. rewrite N.div_small, N.mod_small by lia. rewrite fixed_0.
      by replace (S k - 1)%nat with k by lia.
    + destruct k as [|[|k]]; [lia|cbn in Hn; lia|].
      destruct (IH (n / 10)%N (S k)) as [IH1 IH2]; [lia| | |].
      * apply N.div_lt_upper_bound; [done|]. replace (N.of_nat (S (S k))) with (N.succ (N.of_nat (S k))) in Hn by lia. rewrite N.pow_succ_r' in Hn. lia.
      * apply N.div_lt_upper_bound; [done|]. replace (N.of_nat (S f)) with (N.succ (N.of_nat f)) in Hf by lia. rewrite N.pow_succ_r' in Hf. lia.
      * set (R := digits_fuel (S f) (n / 10)%N) in *.
        rewrite app_length. cbn [length]. split; [lia|]. change (fixed (S (S k)) n) with (fixed (S k) (n / 10)%N ++ [(n mod 10)%N]). rewrite <- IH2. rewrite app_assoc.
        replace (S (S k) - (length R + 1))%nat with (S k - length R)%nat by lia. done.
Qed.
Lemma show_fixed n k : (0 < k)%nat -> (n < 10 ^ N.of_nat k)%N ->
  (length (show_N n) <= k)%nat /\ replicate (k - length (show_N n)) 48%N ++ show_N n = map code (fixed k n).
Proof.
  intros Hk Hn. destruct (digits_fixed (N.size_nat n) n k Hk Hn (size_nat_bound n)) as [H1 H2]. unfold show_N. rewrite map_length. split; [done|].
  rewrite <- H2, map_app. f_equal. clear. induction (k - _)%nat as [|m IH]; [done|]. cbn. by rewrite IH.
Qed.
Lemma zpad_fixed k z : (0 < k)%nat -> 0 <= z < 10 ^ Z.of_nat k -> zpad k z = map code (fixed k (Z.to_N z)).
Proof.
  intros Hk Hz. unfold zpad, show_Z. rewrite decide_False by lia. apply show_fixed; [done|].
  apply N2Z.inj_lt. rewrite Z2N.id, N2Z.inj_pow by lia. rewrite nat_N_Z. lia.
Qed.

Lemma dec_value_app ds fs : dec_value (ds ++ fs) = dec_value ds * 10 ^ Z.of_nat (length fs) + dec_value fs.
Proof.
  induction ds as [|d ds IH]; [done|]. cbn [app dec_value]. rewrite IH, app_length, Nat2Z.inj_add, Z.pow_add_r by lia. ring.
Qed.
Lemma dec_value_nonneg ds : 0 <= dec_value ds.
Proof. induction ds as [|d ds IH]; [done|]. cbn [dec_value]. assert (0 <= 10 ^ Z.of_nat (length ds)) by lia. nia. Qed.
Lemma dec_value_fixed k n : (n < 10 ^ N.of_nat k)%N -> dec_value (fixed k n) = Z.of_N n.
Proof.
  revert n. induction k as [|k IH]; intros n Hn; [cbn in *; lia|]. cbn [fixed]. rewrite dec_value_app. cbn [length dec_value]. rewrite IH.
  - change (10 ^ Z.of_nat 1) with 10. change (10 ^ Z.of_nat 0) with 1. pose proof (N.div_mod n 10 ltac:(done)). lia.
  - apply N.div_lt_upper_bound; [done|]. replace (N.of_nat (S k)) with (N.succ (N.of_nat k)) in Hn by lia. rewrite N.pow_succ_r' in Hn. lia.
Qed.
Lemma num_of_value ds : num_of ds = Z.to_N (dec_value ds).
Proof.
  unfold num_of. induction ds as [|d ds IH] using rev_ind; [done|]. rewrite foldl_app. cbn [foldl]. rewrite IH, dec_value_app. cbn [length dec_value].
  change (10 ^ Z.of_nat 1) with 10. change (10 ^ Z.of_nat 0) with 1. pose proof (dec_value_nonneg ds). lia.
Qed.

Section proofs.
Context `{U : Unicode}.

(** ** Digits *)
Lemma digits_codes ds : ds <> [] -> Forall (fun d => d < 10)%N ds -> digits (map code ds) ds.
Proof.
  intros Hne H. split; [by destruct ds|]. clear Hne. induction H as [|d ds Hd H IH]; [done|]. cbn [map]. rewrite IH. f_equal. by apply u_digit_code.
Qed.
Definition lead (s : pystr) : option N := head (take_digits s).2.
Lemma take_digits_app s ds r : map u_digit s = map Some ds -> take_digits (s ++ r) = (ds ++ (take_digits r).1, (take_digits r).2).
Proof.
  revert ds. induction s as [|c s IH]; intros [|d ds] H; [cbn; by destruct (take_digits r)|done|done|].
  injection H as Hc H. cbn [app take_digits]. rewrite Hc. by rewrite (IH ds).
Qed.
Lemma take_digits_stop c r : u_digit c = None -> take_digits (c :: r) = ([], c :: r).
Proof. intros H. cbn. by rewrite H. Qed.
Lemma take_digits_inv s ds r : take_digits s = (ds, r) -> exists p, s = p ++ r /\ map u_digit p = map Some ds.
Proof.
  revert ds r. induction s as [|c s IH]; intros ds r H.
  - injection H as <- <-. by exists [].
  - cbn [take_digits] in H. destruct (u_digit c) as [d|] eqn:E.
    + injection H as <- <-. destruct (take_digits s) as [ds' r'] eqn:Es. destruct (IH _ _ eq_refl) as (p & -> & Hp). exists (c :: p). cbn. by rewrite E, Hp.
    + injection H as <- <-. by exists [].
Qed.
Lemma not_digit c : (c < 128)%N -> ~ (48 <= c <= 57)%N -> u_digit c = None.
Proof. intros H Hc. rewrite u_digit_ascii by done. unfold ascii_digit. by rewrite decide_False by lia. Qed.

Lemma group_some x s ds r : digits s ds -> u_digit x = None -> group x (s ++ x :: r) = (ds, r).
Proof.
  intros [Hne Hs] Hx. unfold group. rewrite (take_digits_app s ds), take_digits_stop by done. cbn [fst snd]. rewrite app_nil_r.
  destruct ds as [|d ds]; [by destruct s|]. by rewrite decide_True.
Qed.
Lemma group_skip x s : lead s <> Some x -> group x s = ([], s).
Proof.
  intros H. unfold group. unfold lead in H. destruct (take_digits s) as [[|d ds] [|c r]]; try done. cbn [fst snd].
  rewrite decide_False; [done|]. intros ->. done.
Qed.
Lemma lead_part s ds c r : digits s ds -> u_digit c = None -> lead (s ++ c :: r) = Some c.
Proof. intros [_ Hs] Hc. unfold lead. by rewrite (take_digits_app s ds), take_digits_stop. Qed.
Lemma lead_char c r : u_digit c = None -> lead (c :: r) = Some c.
Proof. intros Hc. unfold lead. by rewrite take_digits_stop. Qed.
Lemma group_inv x s ds r : group x s = (ds, r) -> (ds = [] /\ s = r) \/ exists p, digits p ds /\ s = p ++ x :: r.
Proof.
  unfold group. destruct (take_digits s) as [ds' r'] eqn:E. cbn [fst snd]. destruct ds' as [|d ds']; [intros [= <- <-]; by left|].
  destruct r' as [|c r']; [intros [= <- <-]; by left|]. case_decide as Ec; intros [= <- <-]; [|by left]. subst c. right.
  destruct (take_digits_inv _ _ _ E) as (p & Hs & Hp). exists p. split; [|done]. split; [by destruct p|done].
Qed.
Lemma sec_group_inv s ds fs r : sec_group s = (ds, fs, r) -> (ds = [] /\ fs = [] /\ s = r) \/
  (exists p, digits p ds /\ fs = [] /\ s = p ++ 83%N :: r) \/ (exists p q, digits p ds /\ digits q fs /\ s = p ++ 44%N :: q ++ 83%N :: r).
Proof.
  unfold sec_group. destruct (take_digits s) as [ds' r'] eqn:E. cbn [fst snd]. destruct ds' as [|d ds']; [intros [= <- <- <-]; by left|].
  destruct (take_digits_inv _ _ _ E) as (p & Hs & Hp). assert (Hd : digits p (d :: ds')) by (split; [by destruct p|done]).
  destruct r' as [|c r']; [intros [= <- <- <-]; by left|].
  destruct (decide (c = 83)%N) as [->|N1].
  { intros [= <- <- <-]. right. left. by exists p. }
  destruct (decide (c = 44)%N) as [->|N2].
  { destruct (take_digits r') as [fs' r''] eqn:E'. cbn [fst snd]. destruct (take_digits_inv _ _ _ E') as (q & Hs' & Hq).
    destruct fs' as [|f fs']; [intros [= <- <- <-]; by left|]. destruct r'' as [|c r'']; [intros [= <- <- <-]; by left|].
    destruct (decide (c = 83)%N) as [->|N3].
    - intros [= <- <- <-]. right. right. exists p, q. split; [done|]. split; [|by subst]. split; [by destruct q|done].
    - intros H. left. assert (H' : ([], [], s) = (ds, fs, r)); [|by injection H' as <- <- <-]. rewrite <- H. clear -N3. repeat (destruct c as [|c] || destruct c as [c|c|]; try done). }
  intros H. left. assert (H' : ([], [], s) = (ds, fs, r)); [|by injection H' as <- <- <-]. rewrite <- H. clear -N1 N2. repeat (destruct c as [|c] || destruct c as [c|c|]; try done).
Qed.

(** ** Durations *)
Definition ods (o : option pystr) (ds : list N) : Prop := match o with Some s => digits s ds | None => ds = [] end.
Definition ofs (o : option (pystr * option pystr)) (ds fs : list N) : Prop :=
  match o with
  | Some (i, Some f) => digits i ds /\ digits f fs
  | Some (i, None) => digits i ds /\ fs = []
  | None => ds = [] /\ fs = []
  end.
Lemma group_part o ds x L r : ods o ds -> lit L = [x] -> u_digit x = None -> lead r <> Some x -> group x (part o L ++ r) = (ds, r).
Proof.
  intros Ho HL Hx Hr. destruct o as [s|]; cbn [part ods] in *.
  - rewrite HL, <- app_assoc. by apply group_some.
  - subst. by apply group_skip.
Qed.
Lemma lead_part_o o ds x L r y : ods o ds -> lit L = [x] -> u_digit x = None -> x <> y -> lead r <> Some y -> lead (part o L ++ r) <> Some y.
Proof.
  intros Ho HL Hx Hn Hr. destruct o as [s|]; cbn [part ods] in *; [|done].
  rewrite HL, <- app_assoc. cbn [app]. rewrite (lead_part _ ds) by done. by intros [= ?].
Qed.
Lemma nd_Y : u_digit 89 = None. Proof. apply not_digit; lia. Qed.
Lemma nd_M : u_digit 77 = None. Proof. apply not_digit; lia. Qed.
Lemma nd_D : u_digit 68 = None. Proof. apply not_digit; lia. Qed.
Lemma nd_T : u_digit 84 = None. Proof. apply not_digit; lia. Qed.
Lemma nd_H : u_digit 72 = None. Proof. apply not_digit; lia. Qed.
Lemma nd_S : u_digit 83 = None. Proof. apply not_digit; lia. Qed.
Lemma nd_comma : u_digit 44 = None. Proof. apply not_digit; lia. Qed.
Lemma nd_nl : u_digit 10 = None. Proof. apply not_digit; lia. Qed.
Lemma nd_minus : u_digit 45 = None. Proof. apply not_digit; lia. Qed.
Lemma lead_end tl x : at_end tl = true -> x <> 10%N -> lead tl <> Some x.
Proof.
  intros H Hx. unfold at_end in H. apply bool_decide_eq_true in H as [-> | ->]; [done|]. rewrite lead_char by apply nd_nl. by intros [= ?].
Qed.
Definition sec_text (s : option (pystr * option pystr)) : pystr :=
  match s with None => [] | Some (i, None) => i ++ lit "S" | Some (i, Some f) => i ++ lit "," ++ f ++ lit "S" end.
Lemma sec_group_text o ds fs tl : ofs o ds fs -> at_end tl = true -> sec_group (sec_text o ++ tl) = (ds, fs, tl).
Proof.
  intros Ho Ht. unfold sec_group. destruct o as [[i [f|]]|]; cbn [ofs sec_text] in *.
  - destruct Ho as [[Hne Hi] [Hnf Hf]]. rewrite <- !app_assoc. change (lit ",") with [44%N]. change (lit "S") with [83%N]. cbn [app].
    rewrite (take_digits_app i ds), take_digits_stop by (done || apply nd_comma). cbn [fst snd]. rewrite app_nil_r.
    rewrite (take_digits_app f fs), take_digits_stop by (done || apply nd_S). cbn [fst snd]. rewrite app_nil_r.
    destruct ds; [by destruct i|]. destruct fs; [by destruct f|]. done.
  - destruct Ho as [[Hne Hi] ->]. rewrite <- !app_assoc. change (lit "S") with [83%N]. cbn [app].
    rewrite (take_digits_app i ds), take_digits_stop by (done || apply nd_S). cbn [fst snd]. rewrite app_nil_r.
    destruct ds; [by destruct i|]. done.
  - destruct Ho as [-> ->]. cbn [app]. unfold at_end in Ht. apply bool_decide_eq_true in Ht as [-> | ->]; [done|]. by rewrite take_digits_stop by apply nd_nl.
Qed.
Lemma lead_sec o ds fs tl x : ofs o ds fs -> at_end tl = true -> x <> 10%N -> x <> 44%N -> x <> 83%N -> lead (sec_text o ++ tl) <> Some x.
Proof.
  intros Ho Ht H1 H2 H3. destruct o as [[i [f|]]|]; cbn [ofs sec_text] in *.
  - destruct Ho as [Hi _]. rewrite <- !app_assoc. change (lit ",") with [44%N]. cbn [app]. rewrite (lead_part _ ds) by (done || apply nd_comma). by intros [= ?].
  - destruct Ho as [Hi _]. rewrite <- !app_assoc. change (lit "S") with [83%N]. cbn [app]. rewrite (lead_part _ ds) by (done || apply nd_S). by intros [= ?].
  - by apply lead_end.
Qed.

Definition tds (t : duration_text) (y m d h mi x f : list N) : Prop :=
  ods (t_years t) y /\ ods (t_months t) m /\ ods (t_days t) d /\
  match t_time t with None => h = [] /\ mi = [] /\ x = [] /\ f = [] | Some (oh, om, os) => ods oh h /\ ods om mi /\ ofs os x f end.
Lemma duration_parser_text t y m d h mi x f tl : tds t y m d h mi x f -> at_end tl = true ->
  duration_parser (text_of t ++ tl) =
  (do td <- td_new (num_add (num_add (num_mul (clean y []) (NInt 365)) (num_mul (clean m []) (NInt 30))) (clean d []))
              (clean h []) (clean mi []) (clean x f); Ok (VDelta td)).
Proof.
  intros (Hy & Hm & Hd & Ht) Htl. unfold text_of. change (lit "P") with [80%N]. rewrite <- !app_assoc. cbn [app]. unfold duration_parser.
  set (R := match t_time t with None => [] | Some (h, mi, s) => _ end).
  assert (HR : forall c, c <> 10%N -> c <> 84%N -> lead (R ++ tl) <> Some c).
  { intros c H1 H2. unfold R. destruct (t_time t) as [[[oh om] os]|]; [|by apply lead_end].
    change (lit "T") with [84%N]. rewrite <- !app_assoc. cbn [app]. rewrite lead_char by apply nd_T. by intros [= ?]. }
  rewrite (group_part _ y) by (done || apply nd_Y || (eapply lead_part_o; [done..|apply nd_M|done|eapply lead_part_o; [done..|apply nd_D|done|by apply HR]])).
  cbn [fst snd].
  rewrite (group_part _ m) by (done || apply nd_M || (eapply lead_part_o; [done..|apply nd_D|done|by apply HR])). cbn [fst snd].
  rewrite (group_part _ d) by (done || apply nd_D || by apply HR). cbn [fst snd].
  unfold R. destruct (t_time t) as [[[oh om] os]|].
  - destruct Ht as (Hh & Hmi & Hs). change (lit "T") with [84%N]. fold (sec_text os). rewrite <- !app_assoc. cbn [app].
    rewrite (group_part _ h) by (done || apply nd_H || (eapply lead_part_o; [done..|apply nd_M|done|by eapply lead_sec])). cbn [fst snd].
    rewrite (group_part _ mi) by (done || apply nd_M || by eapply lead_sec). cbn [fst snd].
    rewrite (sec_group_text _ x f) by done. cbn [fst snd]. by rewrite Htl.
  - destruct Ht as (-> & -> & -> & ->). cbn [app]. assert (E : at_end tl = true) by done. unfold at_end in Htl. apply bool_decide_eq_true in Htl as [-> | ->]; done.
Qed.

Lemma duration_parser_form s r : s = 80%N :: r -> duration_parser s = Err ValueError \/
  exists t tl y m d h mi x f, tds t y m d h mi x f /\ at_end tl = true /\ s = text_of t ++ tl.
Proof.
  intros ->. unfold duration_parser.
  destruct (group 89 r) as [y r1] eqn:E1. cbn [fst snd]. destruct (group 77 r1) as [m r2] eqn:E2. cbn [fst snd].
  destruct (group 68 r2) as [d r3] eqn:E3. cbn [fst snd].
  assert (P : forall L x s ds r, lit L = [x] -> group x s = (ds, r) -> exists o, ods o ds /\ s = part o L ++ r).
  { intros L c s ds r' HL H. apply group_inv in H as [[-> ->]|(p & Hp & ->)]; [by exists None|]. exists (Some p). cbn [part]. rewrite HL, <- app_assoc. done. }
  destruct (P "Y" _ _ _ _ eq_refl E1) as (oy & Hy & ->). destruct (P "M" _ _ _ _ eq_refl E2) as (om & Hm & ->).
  destruct (P "D" _ _ _ _ eq_refl E3) as (od & Hd & ->).
  assert ((exists q, r3 = 84%N :: q) \/ ~ exists q, r3 = 84%N :: q) as [[q ->]|Nq].
  { destruct r3 as [|c q]; [right; by intros (?&?)|]. destruct (decide (c = 84%N)) as [->|]; [left; eauto|right; intros (?&[= ? _]); done]. }
  { destruct (group 72 q) as [h r4] eqn:E4. cbn [fst snd]. destruct (group 77 r4) as [mi r5] eqn:E5. cbn [fst snd].
    destruct (sec_group r5) as [[x f] r6] eqn:E6. cbn [fst snd].
    destruct (at_end r6) eqn:Ee; [|by left]. right.
    destruct (P "H" _ _ _ _ eq_refl E4) as (oh & Hh & ->). destruct (P "M" _ _ _ _ eq_refl E5) as (omi & Hmi & ->).
    assert (exists os, ofs os x f /\ r5 = sec_text os ++ r6) as (os & Hs & ->).
    { apply sec_group_inv in E6 as [(-> & -> & ->)|[(p & Hp & -> & ->)|(p & p' & Hp & Hp' & ->)]].
      - by exists None.
      - exists (Some (p, None)). cbn [sec_text ofs]. rewrite <- app_assoc. done.
      - exists (Some (p, Some p')). cbn [sec_text ofs]. rewrite <- !app_assoc. done. }
    exists (DT oy om od (Some (oh, omi, os))), r6, y, m, d, h, mi, x, f. split_and!; [done|done|].
    unfold text_of. cbn [t_years t_months t_days t_time]. fold (sec_text os). change (lit "P") with [80%N]. change (lit "T") with [84%N]. rewrite <- !app_assoc. done. }
  match goal with |- context [match ?mm with pair _ _ => _ end] => assert (E : mm = ([], [], ([], []), r3)) end.
  { destruct r3 as [|c q]; [done|]. destruct (decide (c = 84%N)) as [->|Nc]; [by destruct Nq; exists q|].
    clear -Nc. repeat (destruct c as [|c] || destruct c as [c|c|]; try done). }
  rewrite E. clear E. destruct (at_end r3) eqn:Ee; [|by left]. right.
  exists (DT oy om od None), r3, y, m, d, [], [], [], []. split_and!; [done|done|].
  unfold text_of. cbn [t_years t_months t_days t_time]. change (lit "P") with [80%N]. rewrite <- !app_assoc. done.
Qed.

(** ** Values *)
Lemma digits_inj s ds ds' : digits s ds -> digits s ds' -> ds = ds'.
Proof.
  intros [_ H] [_ H']. rewrite H in H'. clear H. revert ds' H'. induction ds as [|d ds IH]; intros [|d' ds'] H; try done. injection H as -> H. f_equal. by apply IH.
Qed.
Lemma digits_ne s ds : digits s ds -> ds <> [].
Proof. intros [Hn H] ->. by destruct s. Qed.
Lemma clean_whole o ds v : ods o ds -> part_value o v -> v < 2 ^ 53 -> whole (clean ds []) v /\ 0 <= v.
Proof.
  intros Ho Hv Hb. destruct o as [s|]; cbn [ods part_value] in *.
  - destruct Hv as (ds' & Hd & ->). rewrite (digits_inj _ _ _ Hd Ho) in *. pose proof (dec_value_nonneg ds). split; [|done].
    unfold clean. destruct ds as [|d dr]; [by apply digits_ne in Ho|]. cbn [length]. rewrite app_nil_r, num_of_value. by apply whole_dec.
  - subst. split; [by left|done].
Qed.
Lemma clean_seconds o ds fs us : ofs o ds fs -> seconds_value o us -> us < 2 ^ 20 * 1000000 -> micros_of (clean ds fs) us /\ 0 <= us.
Proof.
  intros Ho Hv Hb. destruct o as [[i [f|]]|]; cbn [ofs seconds_value] in *.
  - destruct Hv as (ds' & fs' & Hd & Hf & Hl & Hus). destruct Ho as [Ho Ho']. rewrite (digits_inj _ _ _ Hd Ho), (digits_inj _ _ _ Hf Ho') in *. clear Hd Hf.
    pose proof (dec_value_nonneg ds). pose proof (dec_value_nonneg fs). set (P := 10 ^ Z.of_nat (length fs)) in *. assert (HP : 0 < P) by (unfold P; lia).
    split; [|nia]. unfold clean. destruct ds as [|d ds'']; [by apply digits_ne in Ho|]. rewrite num_of_value, dec_value_app. fold P.
    apply accum_seconds; [nia| |done|]; fold P; nia.
  - destruct Hv as (ds' & Hd & ->). destruct Ho as [Ho ->]. rewrite (digits_inj _ _ _ Hd Ho) in *. pose proof (dec_value_nonneg ds). split; [|lia].
    unfold clean. destruct ds as [|d ds'']; [by apply digits_ne in Ho|]. cbn [length]. rewrite app_nil_r, num_of_value. apply micros_whole; [apply whole_dec|]; lia.
  - destruct Ho as [-> ->]. subst. split; [|done]. apply (micros_whole _ 0); [by left|lia].
Qed.

Lemma td_of_us_ok us t : td_of_us us = Ok t -> is_timedelta t /\ total_us t = us.
Proof.
  unfold td_of_us. case_decide as E; [|done]. intros [= <-]. unfold is_timedelta, total_us, MAX_DELTA_DAYS in *. cbn [td_days td_seconds td_micros].
  pose proof (Z.mod_pos_bound us 1000000 ltac:(lia)). pose proof (Z.mod_pos_bound (us / 1000000) 86400 ltac:(lia)).
  pose proof (Z.div_mod us 1000000 ltac:(lia)). pose proof (Z.div_mod (us / 1000000) 86400 ltac:(lia)). split; [|lia]. split; [lia|]. done.
Qed.
Lemma td_of_us_small us : 0 <= us < 1000000000 * 86400 * 1000000 -> exists t, td_of_us us = Ok t.
Proof.
  intros H. unfold td_of_us. assert (0 <= us / 1000000 / 86400 < 1000000000).
  { rewrite Z.div_div by lia. split; [apply Z.div_pos; lia|apply Z.div_lt_upper_bound; lia]. }
  rewrite decide_True by (unfold MAX_DELTA_DAYS; lia). eauto.
Qed.
Lemma td_of_us_big us : 1000000000 * 86400 * 1000000 <= us -> td_of_us us = Err OverflowError.
Proof.
  intros H. unfold td_of_us. assert (1000000000 <= us / 1000000 / 86400).
  { rewrite Z.div_div by lia. apply Z.div_le_lower_bound; lia. }
  by rewrite decide_False by (unfold MAX_DELTA_DAYS; lia).
Qed.
Lemma td_of_us_total t : is_timedelta t -> td_of_us (total_us t) = Ok t.
Proof.
  intros (H1 & H2 & H3). destruct t as [d s u]. unfold total_us, td_of_us, MAX_DELTA_DAYS in *. cbn [td_days td_seconds td_micros] in *.
  assert (E1 : ((d * 86400 + s) * 1000000 + u) / 1000000 = d * 86400 + s) by (symmetry; apply (Z.div_unique _ _ _ u); lia).
  assert (E2 : ((d * 86400 + s) * 1000000 + u) mod 1000000 = u) by (symmetry; apply (Z.mod_unique _ _ (d * 86400 + s)); lia).
  rewrite E1, E2.
  assert (E3 : (d * 86400 + s) / 86400 = d) by (symmetry; apply (Z.div_unique _ _ _ s); lia).
  assert (E4 : (d * 86400 + s) mod 86400 = s) by (symmetry; apply (Z.mod_unique _ _ d); lia).
  rewrite E3, E4. by rewrite decide_True by lia.
Qed.

Definition time_value (o : option (option pystr * option pystr * option (pystr * option pystr))) (h mi us : Z) : Prop :=
  match o with
  | None => h = 0 /\ mi = 0 /\ us = 0
  | Some (oh, om, os) => part_value oh h /\ part_value om mi /\ seconds_value os us
  end.
Lemma part_digits o v : part_value o v -> exists ds, ods o ds.
Proof. destruct o as [s|]; cbn; [intros (ds & H & _)|]; eauto. Qed.
Lemma sec_digits o v : seconds_value o v -> exists ds fs, ofs o ds fs.
Proof. destruct o as [[i [f|]]|]; cbn; [intros (ds & fs & H & H' & _)|intros (ds & H & _)|intros _]; [by exists ds, fs|by exists ds, []|by exists [], []]. Qed.
Lemma parse_value t tl y m d h mi us :
  part_value (t_years t) y -> part_value (t_months t) m -> part_value (t_days t) d -> time_value (t_time t) h mi us ->
  365 * y + 30 * m + d < 2 ^ 53 -> h < 2 ^ 53 -> mi < 2 ^ 53 -> us < 2 ^ 20 * 1000000 -> at_end tl = true ->
  duration_parser (text_of t ++ tl) =
  (do td <- td_of_us ((((365 * y + 30 * m + d) * 24 + h) * 60 + mi) * 60000000 + us); Ok (VDelta td)).
Proof.
  intros Hy Hm Hd Ht Bd Bh Bm Bs Htl.
  assert (N : forall o v, part_value o v -> 0 <= v).
  { intros [s|] v H; cbn in H; [destruct H as (ds & _ & ->); apply dec_value_nonneg|lia]. }
  pose proof (N _ _ Hy). pose proof (N _ _ Hm). pose proof (N _ _ Hd).
  destruct (part_digits _ _ Hy) as (yd & Oy). destruct (part_digits _ _ Hm) as (md & Om). destruct (part_digits _ _ Hd) as (dd & Od).
  assert (exists hd mid xd fd, tds t yd md dd hd mid xd fd /\ whole (clean hd []) h /\ whole (clean mid []) mi /\ micros_of (clean xd fd) us /\ 0 <= h /\ 0 <= mi)
    as (hd & mid & xd & fd & Ht' & Wh & Wm & Ws & H2 & H3).
  { unfold tds. destruct (t_time t) as [[[oh om] os]|]; cbn [time_value] in Ht.
    - destruct Ht as (Hh & Hmi & Hs). destruct (part_digits _ _ Hh) as (hd & Oh). destruct (part_digits _ _ Hmi) as (mid & Omi).
      destruct (sec_digits _ _ Hs) as (xd & fd & Os). exists hd, mid, xd, fd. split; [done|].
      destruct (clean_whole _ _ _ Oh Hh Bh). destruct (clean_whole _ _ _ Omi Hmi Bm). destruct (clean_seconds _ _ _ _ Os Hs Bs). done.
    - destruct Ht as (-> & -> & ->). exists [], [], [], []. split; [done|]. split; [by left|]. split; [by left|]. split; [|done].
      apply (micros_whole _ 0); [by left|lia]. }
  rewrite (duration_parser_text t _ _ _ _ _ _ _ tl Ht' Htl).
  destruct (clean_whole _ _ _ Oy Hy ltac:(lia)) as [Wy _]. destruct (clean_whole _ _ _ Om Hm ltac:(lia)) as [Wmo _]. destruct (clean_whole _ _ _ Od Hd ltac:(lia)) as [Wd _].
  assert (W365 : whole (NInt 365) 365) by (by left). assert (W30 : whole (NInt 30) 30) by (by left).
  rewrite (td_new_exact _ (y * 365 + m * 30 + d) _ h _ mi _ us).
  - f_equal. f_equal. lia.
  - apply whole_add; [|done|lia..]. apply whole_add; [apply whole_mul; (done || lia)|apply whole_mul; (done || lia)|lia..].
  - done.
  - done.
  - done.
  - lia.
  - lia.
  - lia.
Qed.

(** ** Writing durations *)
Lemma get_time_ok s : 0 <= s < 86400 -> get_time s = Ok (s / 3600, s mod 3600 / 60, s mod 3600 mod 60).
Proof.
  intros H. unfold get_time. rewrite div_trunc by lia. cbn [rbind]. pose proof (Z.mod_pos_bound s 3600 ltac:(lia)). rewrite div_trunc by lia. done.
Qed.
Lemma show_N_digits n : exists ds, show_N n = map code ds /\ ds <> [] /\ Forall (fun d => d < 10)%N ds /\ dec_value ds = Z.of_N n.
Proof.
  exists (digits_fuel (S (N.size_nat n)) n). split; [done|]. split; [apply digits_fuel_ne|]. split; [apply digits_fuel_lt|].
  pose proof (digits_horner n) as H. change (horner 0) with num_of in H. rewrite num_of_value in H. pose proof (dec_value_nonneg (digits_fuel (S (N.size_nat n)) n)). lia.
Qed.
Lemma zpad_value k z : (0 < k)%nat -> 0 <= z < 10 ^ Z.of_nat k -> part_value (Some (zpad k z)) z.
Proof.
  intros Hk Hz. cbn. exists (fixed k (Z.to_N z)). rewrite zpad_fixed by done. split.
  - apply digits_codes; [|apply fixed_lt]. intros E. apply (f_equal length) in E. rewrite fixed_length in E. cbn in E. lia.
  - rewrite dec_value_fixed; [lia|]. apply N2Z.inj_lt. rewrite Z2N.id, N2Z.inj_pow, nat_N_Z by lia. lia.
Qed.
Lemma show_value z : 0 <= z -> part_value (Some (show_Z z)) z.
Proof.
  intros Hz. cbn. unfold show_Z. rewrite decide_False by lia. destruct (show_N_digits (Z.to_N z)) as (ds & -> & Hne & Hlt & Hv). exists ds.
  split; [by apply digits_codes|lia].
Qed.
Lemma duration_string t : is_timedelta t -> 0 <= td_days t -> exists dt,
  duration_to_string t = Ok (text_of dt) /\ part_value (t_years dt) 0 /\ part_value (t_months dt) 0 /\ part_value (t_days dt) (td_days t) /\
  exists h mi us, time_value (t_time dt) h mi us /\ 0 <= h < 24 /\ 0 <= mi < 60 /\ 0 <= us < 60000000 /\
    (h * 60 + mi) * 60000000 + us = td_seconds t * 1000000 + (td_micros t - td_micros t mod 100).
Proof.
  intros (H1 & H2 & H3) Hd. destruct t as [d s u]. cbn [td_days td_seconds td_micros] in *.
  set (h := s / 3600). set (mi := s mod 3600 / 60). set (x := s mod 3600 mod 60).
  assert (Hh : 0 <= h < 24 /\ 0 <= mi < 60 /\ 0 <= x < 60 /\ s = h * 3600 + mi * 60 + x).
  { pose proof (Z.mod_pos_bound s 3600 ltac:(lia)). pose proof (Z.div_mod s 3600 ltac:(lia)). pose proof (Z.div_mod (s mod 3600) 60 ltac:(lia)).
    pose proof (Z.mod_pos_bound (s mod 3600) 60 ltac:(lia)). unfold h, mi, x. lia. }
  set (f := if decide (u > 0) then Some (map code (fixed 4 (Z.to_N (u / 100)))) else None).
  exists (DT None None (if decide (d = 0) then None else Some (show_Z d)) (Some (Some (zpad 2 h), Some (zpad 2 mi), Some (zpad 2 x, f)))).
  split.
  { unfold duration_to_string. cbn [td_days td_seconds td_micros]. rewrite get_time_ok by done. cbn [rbind]. fold h mi x. unfold text_of. cbn [t_years t_months t_days t_time part].
    f_equal. change (lit "P") with [80%N]. change (lit "T") with [84%N]. change (lit ",") with [44%N]. unfold f. destruct (decide (u > 0)) as [Eu|Eu].
    - rewrite (zpad_fixed 6) by (change (10 ^ Z.of_nat 6) with 1000000; lia).
      assert (E6 : take 5 ([44%N] ++ map code (fixed 6 (Z.to_N u))) = [44%N] ++ map code (fixed 4 (Z.to_N (u / 100)))).
      { rewrite Z2N.inj_div by lia. change (Z.to_N 100) with (10 * 10)%N. rewrite <- N.div_div by done. reflexivity. }
      rewrite E6. case_decide; cbn [part]; rewrite <- ?app_assoc; done.
    - case_decide; cbn [part]; rewrite <- ?app_assoc; done. }
  cbn [t_years t_months t_days t_time]. split; [done|]. split; [done|]. split.
  { case_decide; [done|]. by apply show_value. }
  exists h, mi, (x * 1000000 + (u - u mod 100)). pose proof (Z.mod_pos_bound u 100 ltac:(lia)). pose proof (Z.div_mod u 100 ltac:(lia)).
  split; [|split_and!; try lia].
  cbn [time_value]. split; [apply zpad_value; change (10 ^ Z.of_nat 2) with 100; lia|]. split; [apply zpad_value; change (10 ^ Z.of_nat 2) with 100; lia|].
  destruct (zpad_value 2 x) as (xs & Hx & Hxv); [lia|change (10 ^ Z.of_nat 2) with 100; lia|].
  cbn [seconds_value]. unfold f. case_decide as Eu.
  - exists xs, (fixed 4 (Z.to_N (u / 100))). split; [done|]. rewrite fixed_length. split; [apply digits_codes; [done|apply fixed_lt]|]. split; [lia|].
    assert (Hu : 0 <= u / 100 < 10000) by lia.
    rewrite dec_value_fixed by (change (10 ^ N.of_nat 4)%N with 10000%N; lia). rewrite <- Hxv. change (10 ^ Z.of_nat 4) with 10000. lia.
  - exists xs. split; [done|]. assert (u = 0) as -> by lia. change (0 mod 100) with 0. lia.
Qed.

(** ** The calendar *)
Lemma leap_iff y : leap y = true <-> is_leap y.
Proof.
  unfold leap, is_leap. rewrite andb_true_iff, orb_true_iff, negb_true_iff, !Z.eqb_eq, Z.eqb_neq.
  rewrite <- !Z.mod_divide by lia. done.
Qed.
Lemma in_31 m : m ∈ [1; 3; 5; 7; 8; 10; 12] <-> m = 1 \/ m = 3 \/ m = 5 \/ m = 7 \/ m = 8 \/ m = 10 \/ m = 12.
Proof. rewrite !elem_of_cons, elem_of_nil. tauto. Qed.
Lemma in_30 m : m ∈ [4; 6; 9; 11] <-> m = 4 \/ m = 6 \/ m = 9 \/ m = 11.
Proof. rewrite !elem_of_cons, elem_of_nil. tauto. Qed.
Lemma valid_date_iff y m d : valid_date y m d = true <-> is_date y m d.
Proof.
  unfold valid_date, is_date, days_in_month. rewrite bool_decide_eq_true, <- leap_iff. rewrite in_31.
  split.
  - intros (Hy & Hm & Hd). split; [done|]. split; [done|]. destruct (decide (m = 2)) as [E2|E2].
    + destruct (leap y) eqn:E; (split; [lia|]); right; right; (split; [done|]); [|left; lia].
      destruct (decide (d <= 28)); [by left|right; split; [lia|done]].
    + destruct (decide (m ∈ [4; 6; 9; 11])) as [E30|E30]; rewrite in_30 in *; lia.
  - intros (Hy & Hm & Hd & H). split; [done|]. split; [done|]. destruct (decide (m = 2)) as [E2|E2].
    + rewrite in_30 in H. destruct (leap y) eqn:E; [lia|]. destruct H as [H|[H|(_ & [H|(-> & H)])]]; [lia..|done].
    + destruct (decide (m ∈ [4; 6; 9; 11])) as [E30|E30]; rewrite in_30 in *; lia.
Qed.
Lemma valid_time_iff h mi s : valid_time h mi s = true <-> is_time h mi s.
Proof. unfold valid_time, is_time. rewrite bool_decide_eq_true. lia. Qed.

(** ** strptime *)
Lemma isd_code d : (d < 10)%N -> isd (code d) = true.
Proof. intros H. unfold isd. rewrite (u_digit_code d H). apply bool_decide_eq_true_2. eauto. Qed.
Lemma dval_code d : (d < 10)%N -> dval (code d) = Z.of_N d.
Proof. intros H. unfold dval. by rewrite (u_digit_code d H). Qed.
Lemma rng_true a b c : (a <= c <= b)%N -> rng a b c = true.
Proof. intros H. by apply bool_decide_eq_true_2. Qed.
Lemma rng_false a b c : ~ (a <= c <= b)%N -> rng a b c = false.
Proof. intros H. by apply bool_decide_eq_false_2. Qed.
Lemma fixed_2 z : 0 <= z < 100 -> exists a b, fixed 2 (Z.to_N z) = [a; b] /\ (a < 10)%N /\ (b < 10)%N /\ z = 10 * Z.of_N a + Z.of_N b.
Proof.
  intros Hz. pose proof (fixed_lt 2 (Z.to_N z)) as Hl. pose proof (fixed_length 2 (Z.to_N z)) as Hn.
  pose proof (dec_value_fixed 2 (Z.to_N z) ltac:(change (10 ^ N.of_nat 2)%N with 100%N; lia)) as Hv.
  destruct (fixed 2 (Z.to_N z)) as [|a [|b [|]]]; try done. inversion_clear Hl as [|? ? Ha Hb']. inversion_clear Hb' as [|? ? Hb _].
  exists a, b. split_and!; try done. cbn in Hv. lia.
Qed.
Lemma two_code p q a b r : (a < 10)%N -> (b < 10)%N ->
  two p q (code a :: code b :: r) = if p (code a) && q (code b) then [(10 * Z.of_N a + Z.of_N b, r)] else [].
Proof. intros Ha Hb. cbn [two]. by rewrite !dval_code. Qed.
Ltac pats := repeat (match goal with
  | |- context [rng ?a ?b ?c] => first [rewrite (rng_true a b c) by (unfold code; lia) | rewrite (rng_false a b c) by (unfold code; lia)]
  | |- context [isd (code ?a)] => rewrite (isd_code a) by done
  end; cbn [andb app]).
Lemma zpad_2 z : 0 <= z < 100 -> exists a b, zpad 2 z = [code a; code b] /\ (a < 10)%N /\ (b < 10)%N /\ z = 10 * Z.of_N a + Z.of_N b.
Proof.
  intros Hz. rewrite zpad_fixed by (change (10 ^ Z.of_nat 2) with 100; lia). destruct (fixed_2 z Hz) as (a & b & -> & H). by exists a, b.
Qed.
Lemma pat_m_ok m r : 1 <= m <= 12 -> exists l, pat_m (zpad 2 m ++ r) = (m, r) :: l.
Proof.
  intros Hm. destruct (zpad_2 m ltac:(lia)) as (a & b & -> & Ha & Hb & ->). cbn [app]. unfold pat_m, alts. cbn [flat_map]. rewrite !two_code by done.
  assert (a = 0 \/ a = 1)%N as [-> | ->] by lia; pats; eauto.
Qed.
Lemma pat_d_ok d r : 1 <= d <= 31 -> exists l, pat_d (zpad 2 d ++ r) = (d, r) :: l.
Proof.
  intros Hd. destruct (zpad_2 d ltac:(lia)) as (a & b & -> & Ha & Hb & ->). cbn [app]. unfold pat_d, alts. cbn [flat_map]. rewrite !two_code by done.
  assert (a = 0 \/ a = 1 \/ a = 2 \/ a = 3)%N as [-> | [-> | [-> | ->]]] by lia; pats; eauto.
Qed.
Lemma pat_H_ok h r : 0 <= h < 24 -> exists l, pat_H (zpad 2 h ++ r) = (h, r) :: l.
Proof.
  intros Hd. destruct (zpad_2 h ltac:(lia)) as (a & b & -> & Ha & Hb & ->). cbn [app]. unfold pat_H, alts. cbn [flat_map]. rewrite !two_code by done.
  assert (a = 0 \/ a = 1 \/ a = 2)%N as [-> | [-> | ->]] by lia; pats; eauto.
Qed.
Lemma pat_M_ok z r : 0 <= z < 60 -> exists l, pat_M (zpad 2 z ++ r) = (z, r) :: l.
Proof.
  intros Hd. destruct (zpad_2 z ltac:(lia)) as (a & b & -> & Ha & Hb & ->). cbn [app]. unfold pat_M, alts. cbn [flat_map]. rewrite !two_code by done.
  pats; eauto.
Qed.
Lemma pat_S_ok z r : 0 <= z < 60 -> exists l, pat_S (zpad 2 z ++ r) = (z, r) :: l.
Proof.
  intros Hd. destruct (zpad_2 z ltac:(lia)) as (a & b & -> & Ha & Hb & ->). cbn [app]. unfold pat_S, alts. cbn [flat_map]. rewrite !two_code by done.
  pats; eauto.
Qed.
Lemma pat_Y_ok y r : 0 <= y <= 9999 -> pat_Y (zpad 4 y ++ r) = [(y, r)].
Proof.
  intros Hy. rewrite zpad_fixed by (change (10 ^ Z.of_nat 4) with 10000; lia). pose proof (fixed_lt 4 (Z.to_N y)) as Hl. pose proof (fixed_length 4 (Z.to_N y)) as Hn.
  pose proof (dec_value_fixed 4 (Z.to_N y) ltac:(change (10 ^ N.of_nat 4)%N with 10000%N; lia)) as Hv.
  destruct (fixed 4 (Z.to_N y)) as [|a [|b [|c [|d [|]]]]]; try done. repeat (apply Forall_cons in Hl as [? Hl]).
  cbn [map app pat_Y]. rewrite !isd_code, !dval_code by done. cbn [andb]. cbn in Hv. do 2 f_equal. lia.
Qed.
Lemma chr_ok c r : chr c (c :: r) = [r].
Proof. cbn. by rewrite rng_true by lia. Qed.
Lemma chr_no c d r : c <> d -> chr c (d :: r) = [].
Proof. intros H. cbn. by rewrite rng_false by lia. Qed.

Definition ystr (pads : bool) (y : Z) : pystr := if pads then zpad 4 y else show_Z y.
Definition ypads (pads : bool) (y : Z) : Prop := pads = true \/ 1000 <= y.
Lemma ystr_ok pads y : ypads pads y -> 1 <= y <= 9999 -> ystr pads y = zpad 4 y.
Proof.
  intros [->|H] Hy; [done|]. destruct pads; [done|]. unfold ystr, zpad.
  assert (L : (4 <= length (show_Z y))%nat).
  { destruct (decide (4 <= length (show_Z y))%nat) as [|Nl]; [done|]. exfalso. unfold show_Z in Nl. rewrite decide_False in Nl by lia.
    destruct (show_N_digits (Z.to_N y)) as (ds & E & _ & Hf & Hv). rewrite E, map_length in Nl. rewrite Z2N.id in Hv by lia.
    destruct ds as [|a [|b [|c [|]]]]; cbn [length] in Nl; try lia; repeat (apply Forall_cons in Hf as [? Hf]); cbn in Hv; lia. }
  replace (4 - length (show_Z y))%nat with 0%nat by lia. done.
Qed.
Lemma match_date_ok pads y m d r : ypads pads y -> 1 <= y <= 9999 -> 1 <= m <= 12 -> 1 <= d <= 31 ->
  exists l, match_date (ystr pads y ++ lit "-" ++ zpad 2 m ++ lit "-" ++ zpad 2 d ++ r) = (y, m, d, r) :: l.
Proof.
  intros Hp Hy Hm Hd. rewrite ystr_ok by done. change (lit "-") with [45%N]. unfold match_date. rewrite pat_Y_ok by lia. cbn [flat_map fst snd app].
  rewrite chr_ok. cbn [flat_map]. destruct (pat_m_ok m (45%N :: zpad 2 d ++ r) Hm) as (l1 & ->). cbn [flat_map fst snd]. rewrite chr_ok. cbn [flat_map].
  destruct (pat_d_ok d r Hd) as (l2 & ->). cbn [map fst snd app]. eauto.
Qed.
Lemma match_time_ok h mi s r : is_time h mi s ->
  exists l, match_time (zpad 2 h ++ lit ":" ++ zpad 2 mi ++ lit ":" ++ zpad 2 s ++ r) = (h, mi, s, r) :: l.
Proof.
  intros (Hh & Hm & Hs). change (lit ":") with [58%N]. unfold match_time. cbn [app].
  destruct (pat_H_ok h (58%N :: zpad 2 mi ++ 58%N :: zpad 2 s ++ r) Hh) as (l1 & ->). cbn [flat_map fst snd]. rewrite chr_ok. cbn [flat_map].
  destruct (pat_M_ok mi (58%N :: zpad 2 s ++ r) Hm) as (l2 & ->). cbn [flat_map fst snd]. rewrite chr_ok. cbn [flat_map].
  destruct (pat_S_ok s r Hs) as (l3 & ->). cbn [map fst snd app]. eauto.
Qed.
Lemma zpad_no_T k z : 0 <= z < 10 ^ Z.of_nat k -> (0 < k)%nat -> 84%N ∉ zpad k z.
Proof.
  intros Hz Hk. rewrite zpad_fixed by done. intros H. apply elem_of_list_fmap in H as (d & E & Hd).
  pose proof (proj1 (@Forall_forall N _ _) (fixed_lt k (Z.to_N z)) d Hd). cbn in H. unfold code in E. lia.
Qed.
Lemma ystr_first pads y : 1 <= y <= 9999 -> exists a r, ystr pads y = a :: r /\ (48 <= a <= 57)%N.
Proof.
  intros Hy. destruct pads; cbn [ystr].
  - rewrite zpad_fixed by (change (10 ^ Z.of_nat 4) with 10000; lia). pose proof (fixed_lt 4 (Z.to_N y)) as Hl. pose proof (fixed_length 4 (Z.to_N y)).
    destruct (fixed 4 (Z.to_N y)) as [|a r]; [done|]. apply Forall_cons in Hl as [? _]. eexists _, _. split; [done|]. unfold code. lia.
  - unfold show_Z. rewrite decide_False by lia. destruct (show_N_cons (Z.to_N y)) as (c & r & -> & Hc). by eexists _, _.
Qed.
Lemma tp_parse_date a r : a <> 80%N -> tp_parse (a :: r) = if decide (84%N ∈ a :: r) then strptime_datetime (a :: r) else strptime_date (a :: r).
Proof. intros H. unfold tp_parse. repeat (destruct a as [|a] || destruct a as [a|a|]; try done). Qed.
Lemma is_date_bounds y m d : is_date y m d -> 1 <= y <= 9999 /\ 1 <= m <= 12 /\ 1 <= d <= 31.
Proof. unfold is_date. rewrite in_31, in_30. lia. Qed.

Lemma no_T_date pads y m d : is_date y m d -> 84%N ∉ ystr pads y ++ lit "-" ++ zpad 2 m ++ lit "-" ++ zpad 2 d.
Proof.
  intros H. apply is_date_bounds in H as (Hy & Hm & Hd). assert (84%N ∉ ystr pads y).
  { destruct pads; cbn [ystr]; [apply zpad_no_T; [change (10 ^ Z.of_nat 4) with 10000; lia|lia]|].
    unfold show_Z. rewrite decide_False by lia. destruct (show_N_digits (Z.to_N y)) as (ds & -> & _ & Hf & _). intros H. apply elem_of_list_fmap in H as (x & E & Hx).
    pose proof (proj1 (@Forall_forall N _ _) Hf x Hx). cbn in H. unfold code in E. lia. }
  rewrite !elem_of_app. intros [H1|[H1|[H1|[H1|H1]]]]; [done| |by apply zpad_no_T in H1; [|change (10 ^ Z.of_nat 2) with 100; lia|lia]| |by apply zpad_no_T in H1; [|change (10 ^ Z.of_nat 2) with 100; lia|lia]];
  by apply elem_of_list_singleton in H1.
Qed.
Lemma reread_date pads y m d : is_date y m d -> ypads pads y -> reread pads (VDate y m d) = Ok (VDate y m d).
Proof.
  intros Hd Hp. pose proof (no_T_date pads y m d Hd) as NT. pose proof (is_date_bounds _ _ _ Hd) as (By & Bm & Bd).
  unfold reread, tp_new. cbn [tp_str rbind fst snd]. fold (ystr pads y).
  destruct (match_date_ok pads y m d [] Hp By Bm Bd) as (l & E). rewrite app_nil_r in E.
  set (s := ystr pads y ++ _) in *. assert (Es : exists a r, s = a :: r /\ a <> 80%N).
  { destruct (ystr_first pads y By) as (a & r & Ea & Ha). exists a. eexists. unfold s. rewrite Ea. split; [reflexivity|lia]. }
  destruct Es as (a & r & Ea & Na). rewrite Ea in *. rewrite tp_parse_date by done. rewrite decide_False by done. unfold strptime_date. rewrite E.
  apply valid_date_iff in Hd. by rewrite Hd.
Qed.
Lemma reread_datetime pads y m d h mi s us : is_date y m d -> is_time h mi s -> ypads pads y ->
  reread pads (VDatetime y m d h mi s us) = Ok (VDatetime y m d h mi s 0).
Proof.
  intros Hd Ht Hp. pose proof (is_date_bounds _ _ _ Hd) as (By & Bm & Bd).
  unfold reread, tp_new. cbn [tp_str rbind fst snd]. fold (ystr pads y). rewrite <- !app_assoc.
  destruct (match_date_ok pads y m d (lit "T" ++ zpad 2 h ++ lit ":" ++ zpad 2 mi ++ lit ":" ++ zpad 2 s) Hp By Bm Bd) as (l & E).
  destruct (match_time_ok h mi s [] Ht) as (l' & E'). rewrite app_nil_r in E'.
  set (x := ystr pads y ++ _) in *. assert (HT : 84%N ∈ x).
  { unfold x. rewrite !elem_of_app. do 5 right. left. by apply elem_of_list_singleton. }
  assert (Es : exists a r, x = a :: r /\ a <> 80%N).
  { destruct (ystr_first pads y By) as (a & r & Ea & Ha). exists a. eexists. unfold x. rewrite Ea. split; [reflexivity|lia]. }
  destruct Es as (a & r & Ea & Na). rewrite Ea in *. rewrite tp_parse_date by done. rewrite decide_True by done. unfold strptime_datetime, match_datetime. rewrite E.
  cbn [flat_map snd fst]. change (lit "T") with [84%N]. cbn [app]. rewrite chr_ok. cbn [app flat_map]. rewrite E'. cbn [map fst snd app].
  apply valid_date_iff in Hd. apply valid_time_iff in Ht. by rewrite Hd, Ht.
Qed.
Lemma match_date_small y r : 1 <= y < 1000 -> match_date (show_Z y ++ lit "-" ++ r) = [].
Proof.
  intros Hy. unfold match_date. unfold show_Z. rewrite decide_False by lia.
  destruct (show_fixed (Z.to_N y) 3 ltac:(lia) ltac:(change (10 ^ N.of_nat 3)%N with 1000%N; lia)) as [Hl _].
  destruct (show_N_digits (Z.to_N y)) as (ds & E & Hne & Hf & _). rewrite E, map_length in *. change (lit "-") with [45%N].
  assert (D : isd 45 = false) by (unfold isd; rewrite nd_minus; done).
  assert (P : forall t, pat_Y (map code ds ++ 45%N :: t) = []).
  { intros t. destruct ds as [|a [|b [|c [|]]]]; try done; cbn [length] in Hl; try lia; cbn [map app pat_Y].
    - destruct t as [|t1 [|t2 t]]; try done. rewrite D. by rewrite andb_false_r.
    - destruct t as [|t1 t]; try done. rewrite D. by rewrite andb_false_r.
    - rewrite D. by rewrite andb_false_r. }
  cbn [app]. by rewrite P.
Qed.
End proofs.
