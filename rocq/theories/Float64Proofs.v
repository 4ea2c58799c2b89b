(** Facts about binary64: exact operations on integers, error bounds of division and
    multiplication, and timedelta. *)
From Verif Require Export Float64.
Local Open Scope Z_scope.

(** ** Digits and shifts *)
Lemma digits_log2 p : Z.pos (digits2_pos p) = Z.log2 (Z.pos p) + 1.
Proof.
  assert (H : digits2_pos p = Pos.size p) by (induction p; cbn; congruence). rewrite H.
  destruct p; cbn; lia.
Qed.
Definition dg (z : Z) : Z := Z.log2 z + 1.
Lemma dg_spec z : 0 < z -> 2 ^ (dg z - 1) <= z < 2 ^ dg z.
Proof. intros H. unfold dg. replace (Z.log2 z + 1 - 1) with (Z.log2 z) by lia. pose proof (Z.log2_spec z H). by rewrite <- Z.add_1_r in H0. Qed.
Lemma dg_pos z : 0 < z -> 1 <= dg z.
Proof. intros H. unfold dg. pose proof (Z.log2_nonneg z). lia. Qed.
Lemma dg_unique z n : 0 < z -> 0 <= n - 1 -> 2 ^ (n - 1) <= z < 2 ^ n -> dg z = n.
Proof. intros H Hn Hz. unfold dg. rewrite (Z.log2_unique z (n - 1)); [lia|lia|]. rewrite <- Z.add_1_r. by replace (n - 1 + 1) with n by lia. Qed.
Lemma dg_mul z n : 0 < z -> 0 <= n -> dg (z * 2 ^ n) = dg z + n.
Proof. intros H Hn. unfold dg. rewrite Z.log2_mul_pow2 by lia. lia. Qed.
Lemma dg_le z n : 0 < z -> z < 2 ^ n -> dg z <= n.
Proof. intros H Hz. unfold dg. apply Z.log2_lt_pow2 in Hz; lia. Qed.
Lemma dg_ge z n : 0 < z -> 0 <= n -> 2 ^ n <= z -> n + 1 <= dg z.
Proof. intros H Hn Hz. unfold dg. apply Z.log2_le_pow2 in Hz; lia. Qed.
Lemma Zdigits2_dg z : 0 < z -> Zdigits2 z = dg z.
Proof. destruct z; try lia. intros _. apply digits_log2. Qed.

Fixpoint niter {A} (n : nat) (f : A -> A) (x : A) : A := match n with O => x | S k => f (niter k f x) end.
Lemma niter_add {A} (f : A -> A) a b x : niter (a + b) f x = niter a f (niter b f x).
Proof. induction a as [|a IH]; [done|]. cbn. by rewrite IH. Qed.
Lemma niter_succ_r {A} (f : A -> A) n x : niter (S n) f x = niter n f (f x).
Proof. rewrite <- Nat.add_1_r. apply (niter_add f n 1). Qed.
Lemma iter_pos_nat {A} (f : A -> A) p x : SpecFloat.iter_pos f p x = niter (Pos.to_nat p) f x.
Proof.
  revert x. induction p as [p IH|p IH|]; intros x; cbn [SpecFloat.iter_pos].
  - rewrite !IH, <- niter_add. rewrite Pos2Nat.inj_xI. replace (S (2 * Pos.to_nat p)) with (Pos.to_nat p + Pos.to_nat p + 1)%nat by lia.
    by rewrite (niter_add f (Pos.to_nat p + Pos.to_nat p) 1).
  - rewrite !IH, <- niter_add. rewrite Pos2Nat.inj_xO. f_equal. lia.
  - done.
Qed.
Lemma shr_1_m x : 0 <= shr_m x -> shr_m (shr_1 x) = shr_m x / 2 /\ 0 <= shr_m (shr_1 x).
Proof.
  destruct x as [m r s]. cbn [shr_m]. intros H. destruct m as [|[p|p|]|p]; cbn [shr_1 shr_m]; try lia.
  - done.
  - split; [|lia]. replace (Z.pos p~1) with (1 + Z.pos p * 2) by lia. rewrite Z.div_add by lia. done.
  - split; [|lia]. replace (Z.pos p~0) with (Z.pos p * 2) by lia. rewrite Z.div_mul by lia. done.
  - done.
Qed.
Lemma shr_iter_m n x : 0 <= shr_m x -> shr_m (niter n shr_1 x) = shr_m x / 2 ^ Z.of_nat n /\ 0 <= shr_m (niter n shr_1 x).
Proof.
  intros H. induction n as [|n [IH1 IH2]]; [cbn; rewrite Z.div_1_r; done|]. cbn [niter]. destruct (shr_1_m _ IH2) as [-> H2].
  split; [|done]. rewrite IH1, Nat2Z.inj_succ, Z.pow_succ_r by lia. rewrite Z.div_div by lia. by rewrite (Z.mul_comm 2).
Qed.
Lemma shr_iter_exact n v : 0 <= v -> niter n shr_1 (Build_shr_record (v * 2 ^ Z.of_nat n) false false) = Build_shr_record v false false.
Proof.
  intros Hv. induction n as [|n IH]; [by rewrite Z.mul_1_r|]. rewrite niter_succ_r.
  assert (E : shr_1 {| shr_m := v * 2 ^ Z.of_nat (S n); shr_r := false; shr_s := false |} = Build_shr_record (v * 2 ^ Z.of_nat n) false false).
  { rewrite Nat2Z.inj_succ, Z.pow_succ_r by lia. replace (v * (2 * 2 ^ Z.of_nat n)) with (2 * (v * 2 ^ Z.of_nat n)) by lia.
    generalize (v * 2 ^ Z.of_nat n) as w. intros [|p|p]; done. }
  by rewrite E.
Qed.

(** the exponent range in which numbers are normal *)
Definition normal (d e : Z) : Prop := -1000 <= d + e <= 1000.
Lemma fexp_normal x : -1000 <= x -> fexp fprec femax x = x - 53.
Proof. intros H. unfold fexp, emin, fprec, femax. lia. Qed.

(** ** Rounding *)
Definition fin (m e : Z) : spec_float := S754_finite false (Z.to_pos m) e.
(** the float of an exact value [r * 2 ^ e] *)
Definition can (r e : Z) : spec_float := fin (r * 2 ^ (53 - dg r)) (dg r + e - 53).
Lemma round_aux m e l : 2 ^ 52 <= m -> normal (dg m) e ->
  exists m' e', binary_round_aux fprec femax false m e l = fin m' e' /\ 2 ^ 52 <= m' < 2 ^ 53 /\ e <= e' /\
    Z.abs (m' * 2 ^ (e' - e) - m) <= 2 ^ (e' - e) /\
    (l = loc_Exact -> forall r, m = r * 2 ^ (dg m - 53) -> m' = r /\ e' = e + (dg m - 53)).
Proof.
  intros Hm Hn. assert (Hm0 : 0 < m) by (assert (0 < 2 ^ 52) by lia; lia).
  pose proof (dg_ge m 52 Hm0 ltac:(lia) Hm) as Hd. pose proof (dg_spec m Hm0) as [Hd1 Hd2].
  set (k := dg m - 53) in *. assert (Hk : 0 <= k) by lia.
  unfold binary_round_aux, shr_fexp. rewrite Zdigits2_dg by done. rewrite fexp_normal by (unfold normal in Hn; lia).
  replace (dg m + e - 53 - e) with k by lia.
  set (rec := shr_record_of_loc m l).
  assert (Hrec : shr_m rec = m) by (unfold rec, shr_record_of_loc; destruct l as [|[]]; done).
  assert (E : exists x, shr rec e k = (x, e + k) /\ shr_m x = m / 2 ^ k /\
    (l = loc_Exact -> forall r, m = r * 2 ^ k -> x = Build_shr_record r false false)).
  { unfold shr. destruct k as [|p|p] eqn:Ek; [|rewrite iter_pos_nat|lia].
    - exists rec. split_and!; [f_equal; lia|rewrite Hrec; by rewrite Z.div_1_r|]. intros -> r Hr. unfold rec. cbn. f_equal. lia.
    - exists (niter (Pos.to_nat p) shr_1 rec). split_and!; [done| |].
      + destruct (shr_iter_m (Pos.to_nat p) rec ltac:(lia)) as [-> _]. by rewrite Hrec, positive_nat_Z.
      + intros -> r Hr. assert (0 <= r) by (assert (0 < 2 ^ Z.pos p) by lia; nia). unfold rec. cbn [shr_record_of_loc]. rewrite Hr.
        rewrite <- (positive_nat_Z p). by apply shr_iter_exact. }
  destruct E as (x & -> & Hx & Hex). cbn beta iota.
  set (m1 := m / 2 ^ k). assert (Hp : 0 < 2 ^ k) by lia.
  assert (Hm1 : 2 ^ 52 <= m1 < 2 ^ 53).
  { unfold m1. split.
    - apply Z.div_le_lower_bound; [done|]. rewrite <- Z.pow_add_r by lia. by replace (k + 52) with (dg m - 1) by lia.
    - apply Z.div_lt_upper_bound; [done|]. rewrite <- Z.pow_add_r by lia. by replace (k + 53) with (dg m) by lia. }
  assert (Hdiv : m1 * 2 ^ k <= m < (m1 + 1) * 2 ^ k).
  { unfold m1. pose proof (Z.div_mod m (2 ^ k) ltac:(lia)). pose proof (Z.mod_pos_bound m (2 ^ k) Hp). nia. }
  set (m2 := round_nearest_even (shr_m x) (loc_of_shr_record x)).
  assert (Hm2 : m2 = m1 \/ m2 = m1 + 1).
  { unfold m2. rewrite Hx. fold m1. unfold round_nearest_even. destruct (loc_of_shr_record x) as [|[]]; auto. destruct (Z.even m1); auto. }
  assert (Hm2' : l = loc_Exact -> forall r, m = r * 2 ^ k -> m2 = r).
  { intros Hl r Hr. unfold m2. by rewrite (Hex Hl r Hr). }
  clearbody m2. rewrite Zdigits2_dg by lia.
  assert (Habs : Z.abs (m2 * 2 ^ k - m) <= 2 ^ k) by (destruct Hm2 as [-> | ->]; lia).
  assert (Hfin : forall a b, 2 ^ 52 <= a -> b <= 971 ->
    match a with 0 => S754_zero false | Z.pos m0 => if b <=? femax - fprec then S754_finite false m0 b else S754_infinity false | Z.neg _ => S754_nan end = fin a b).
  { intros a b Ha Hb. destruct a as [|p|p]; try lia. assert (b <=? femax - fprec = true) as -> by (apply Z.leb_le; unfold femax, fprec; lia). done. }
  destruct (decide (m2 = 2 ^ 53)) as [E2|N2].
  - assert (dg m2 = 54) as -> by (rewrite E2; reflexivity). rewrite fexp_normal by (unfold normal in Hn; lia).
    replace (54 + (e + k) - 53 - (e + k)) with 1 by lia. rewrite E2. unfold shr. cbn [SpecFloat.iter_pos shr_record_of_loc].
    exists (2 ^ 52), (e + k + 1).
    assert (E3 : shr_1 {| shr_m := 2 ^ 53; shr_r := false; shr_s := false |} = Build_shr_record (2 ^ 52) false false) by reflexivity.
    rewrite E3. cbn [shr_m]. split_and!; [apply Hfin; [lia|unfold normal in Hn; lia]|lia|lia|lia| |].
    + replace (e + k + 1 - e) with (k + 1) by lia. rewrite Z.pow_add_r by lia. rewrite E2 in Habs.
      change (2 ^ 53) with (2 ^ 52 * 2) in Habs. nia.
    + intros Hl r Hr. exfalso. assert (m2 = r) by auto. assert (m1 = r); [|lia]. unfold m1. rewrite Hr. by apply Z.div_mul; lia.
  - assert (dg m2 = 53) as -> by (apply dg_unique; lia). rewrite fexp_normal by (unfold normal in Hn; lia).
    replace (53 + (e + k) - 53 - (e + k)) with 0 by lia. cbn [shr shr_record_of_loc shr_m].
    exists m2, (e + k). split_and!; [apply Hfin; [lia|unfold normal in Hn; lia]|lia|lia|lia| |].
    + by replace (e + k - e) with k by lia.
    + intros Hl r Hr. split; [auto|lia].
Qed.
(** exact results *)
Lemma round_aux_exact m e r e' : 0 < r < 2 ^ 53 -> e <= e' -> m = r * 2 ^ (e' - e) -> 2 ^ 52 <= m -> normal (dg m) e ->
  binary_round_aux fprec femax false m e loc_Exact = can r e'.
Proof.
  intros Hr He Hm Hm2 Hn. destruct (round_aux m e loc_Exact Hm2 Hn) as (m' & e1 & -> & _ & _ & _ & Hx).
  assert (Hd : dg m = dg r + (e' - e)) by (rewrite Hm; apply dg_mul; lia).
  assert (Hdr : dg r <= 53) by (apply dg_le; lia).
  assert (0 < m) by lia. pose proof (dg_ge m 52 ltac:(lia) ltac:(lia) Hm2).
  destruct (Hx eq_refl (r * 2 ^ (53 - dg r))) as [-> ->].
  - rewrite Hm at 1. rewrite <- Z.mul_assoc, <- Z.pow_add_r by lia. do 2 f_equal. lia.
  - unfold can. f_equal. lia.
Qed.
Lemma shift_pos_mul n p : Z.pos (shift_pos n p) = Z.pos p * 2 ^ Z.pos n.
Proof. rewrite shift_pos_correct. rewrite Z.mul_comm. done. Qed.
Lemma can_scale r n e : 0 < r -> 0 <= n -> r * 2 ^ n < 2 ^ 53 -> can (r * 2 ^ n) e = can r (e + n).
Proof.
  intros Hr Hn Hlt. unfold can. rewrite dg_mul by done. assert (dg r + n <= 53).
  { rewrite <- dg_mul by done. apply dg_le; [|done]. assert (0 < 2 ^ n) by lia. nia. }
  f_equal; [|lia]. rewrite <- Z.mul_assoc, <- Z.pow_add_r by lia. do 2 f_equal. lia.
Qed.
Lemma can_mantissa r : 0 < r < 2 ^ 53 -> 2 ^ 52 <= r * 2 ^ (53 - dg r) < 2 ^ 53.
Proof.
  intros Hr. pose proof (dg_spec r ltac:(lia)) as [H1 H2]. assert (dg r <= 53) by (apply dg_le; lia). pose proof (dg_pos r ltac:(lia)).
  assert (0 < 2 ^ (53 - dg r)) by lia. split.
  - replace (2 ^ 52) with (2 ^ (dg r - 1) * 2 ^ (53 - dg r)) by (rewrite <- Z.pow_add_r by lia; f_equal; lia). nia.
  - replace (2 ^ 53) with (2 ^ dg r * 2 ^ (53 - dg r)) at 1 by (rewrite <- Z.pow_add_r by lia; f_equal; lia). nia.
Qed.
Lemma shl_align_le m e e' : e' <= e -> exists p, shl_align m e e' = (p, e') /\ Z.pos p = Z.pos m * 2 ^ (e - e').
Proof.
  intros H. unfold shl_align. destruct (e' - e) as [|d|d] eqn:E; [|lia|].
  - exists m. replace (e - e') with 0 by lia. split; [f_equal; lia|lia].
  - exists (shift_pos d m). split; [done|]. rewrite shift_pos_mul. do 2 f_equal. lia.
Qed.
Lemma binary_round_can r e : 0 < r < 2 ^ 53 -> normal (dg r) e -> binary_round fprec femax false (Z.to_pos r) e = can r e.
Proof.
  intros Hr Hn. unfold binary_round. rewrite digits_log2, Z2Pos.id by lia. fold (dg r).
  rewrite fexp_normal by (unfold normal in Hn; lia). assert (dg r <= 53) by (apply dg_le; lia).
  destruct (shl_align_le (Z.to_pos r) e (dg r + e - 53) ltac:(lia)) as (p & -> & Hp). rewrite Z2Pos.id in Hp by lia.
  pose proof (can_mantissa r Hr). replace (e - (dg r + e - 53)) with (53 - dg r) in Hp by lia.
  apply round_aux_exact; [done|lia| |lia|].
  - rewrite Hp. do 2 f_equal. lia.
  - rewrite Hp, dg_mul by lia. unfold normal in *. lia.
Qed.
Lemma binary_round_big m r e e' : 0 < r < 2 ^ 53 -> e <= e' -> Z.pos m = r * 2 ^ (e' - e) -> 2 ^ 52 <= Z.pos m -> normal (dg (Z.pos m)) e ->
  binary_round fprec femax false m e = can r e'.
Proof.
  intros Hr He Hm Hm2 Hn. unfold binary_round. rewrite digits_log2. fold (dg (Z.pos m)).
  rewrite fexp_normal by (unfold normal in Hn; lia). pose proof (dg_ge (Z.pos m) 52 ltac:(lia) ltac:(lia) Hm2).
  unfold shl_align. destruct (dg (Z.pos m) + e - 53 - e) as [|d|d] eqn:E; [| |lia]; by apply round_aux_exact.
Qed.

(** ** Integers *)
Lemma fl_int_0 : fl_int 0 = S754_zero false.
Proof. done. Qed.
Lemma fl_int_can z : 0 < z < 2 ^ 53 -> fl_int z = can z 0.
Proof.
  intros Hz. unfold fl_int, binary_normalize. destruct z as [|p|p]; try lia.
  rewrite <- (binary_round_can (Z.pos p) 0); [done|done|]. pose proof (dg_pos (Z.pos p) ltac:(lia)). assert (dg (Z.pos p) <= 53) by (apply dg_le; lia).
  unfold normal. lia.
Qed.
Lemma fl_mul_can a b : 0 < a < 2 ^ 53 -> 0 < b < 2 ^ 53 -> a * b < 2 ^ 53 -> fl_mul (can a 0) (can b 0) = can (a * b) 0.
Proof.
  intros Ha Hb Hab. pose proof (can_mantissa a Ha). pose proof (can_mantissa b Hb). remember (can (a * b) 0) as R eqn:ER.
  unfold fl_mul, SFmul, can, fin. cbn [xorb]. rewrite ER. clear R ER.
  rewrite Pos2Z.inj_mul, !Z2Pos.id by lia.
  assert (dg a <= 53) by (apply dg_le; lia). assert (dg b <= 53) by (apply dg_le; lia). pose proof (dg_pos a ltac:(lia)). pose proof (dg_pos b ltac:(lia)).
  assert (E : a * 2 ^ (53 - dg a) * (b * 2 ^ (53 - dg b)) = a * b * 2 ^ (106 - dg a - dg b)).
  { replace (106 - dg a - dg b) with ((53 - dg a) + (53 - dg b)) by lia. rewrite Z.pow_add_r by lia. ring. }
  assert (0 < a * b) by nia.
  apply round_aux_exact; [nia|lia| |nia|].
  - rewrite E. f_equal. f_equal. lia.
  - rewrite E, dg_mul by lia. pose proof (dg_pos (a * b) ltac:(lia)). assert (dg (a * b) <= 53) by (apply dg_le; lia). unfold normal. lia.
Qed.
Lemma fl_add_can a b : 0 < a < 2 ^ 53 -> 0 < b < 2 ^ 53 -> a + b < 2 ^ 53 -> fl_add (can a 0) (can b 0) = can (a + b) 0.
Proof.
  intros Ha Hb Hab. pose proof (can_mantissa a Ha). pose proof (can_mantissa b Hb). remember (can (a + b) 0) as R eqn:ER.
  unfold fl_add, SFadd, can, fin. cbn [cond_Zopp]. rewrite ER. clear R ER.
  assert (dg a <= 53) by (apply dg_le; lia). assert (dg b <= 53) by (apply dg_le; lia). pose proof (dg_pos a ltac:(lia)). pose proof (dg_pos b ltac:(lia)).
  set (ez := Z.min (dg a + 0 - 53) (dg b + 0 - 53)). assert (Hez : -52 <= ez <= 0) by lia.
  destruct (shl_align_le (Z.to_pos (a * 2 ^ (53 - dg a))) (dg a + 0 - 53) ez ltac:(lia)) as (p & -> & Hp).
  destruct (shl_align_le (Z.to_pos (b * 2 ^ (53 - dg b))) (dg b + 0 - 53) ez ltac:(lia)) as (q & -> & Hq).
  rewrite Z2Pos.id in Hp by lia. rewrite Z2Pos.id in Hq by lia. cbn [fst].
  assert (Hp' : Z.pos p = a * 2 ^ (- ez)) by (rewrite Hp, <- Z.mul_assoc, <- Z.pow_add_r by lia; do 2 f_equal; lia).
  assert (Hq' : Z.pos q = b * 2 ^ (- ez)) by (rewrite Hq, <- Z.mul_assoc, <- Z.pow_add_r by lia; do 2 f_equal; lia).
  rewrite <- Pos2Z.inj_add. unfold binary_normalize.
  assert (Hs : Z.pos (p + q) = (a + b) * 2 ^ (- ez)) by (rewrite Pos2Z.inj_add, Hp', Hq'; ring).
  apply binary_round_big; [lia|lia| | |].
  - by replace (0 - ez) with (- ez) by lia.
  - rewrite Pos2Z.inj_add. assert (2 ^ 52 <= Z.pos p); [|lia]. rewrite Hp. assert (0 < 2 ^ (dg a + 0 - 53 - ez)) by lia. nia.
  - rewrite Hs, dg_mul by lia. pose proof (dg_pos (a + b) ltac:(lia)). assert (dg (a + b) <= 53) by (apply dg_le; lia). unfold normal. lia.
Qed.
(** ** modf *)
Lemma modf_fin m e : 0 < m < 2 ^ 53 -> -900 <= e < 0 ->
  modf (fin m e) = Ok (m / 2 ^ (- e), if decide (m mod 2 ^ (- e) = 0) then S754_zero false else can (m mod 2 ^ (- e)) e).
Proof.
  intros Hm He. unfold modf, fin. destruct e as [|k|k]; try lia. rewrite Z2Pos.id by lia. replace (- Z.neg k) with (Z.pos k) by lia.
  f_equal. f_equal. pose proof (Z.mod_pos_bound m (2 ^ Z.pos k) ltac:(lia)). pose proof (Z.mod_le m (2 ^ Z.pos k) ltac:(lia) ltac:(lia)).
  case_decide as E; [by rewrite E|]. unfold binary_normalize. set (r := m mod 2 ^ Z.pos k) in *. destruct r as [|p|p] eqn:Er; try lia.
  rewrite <- (binary_round_can (Z.pos p) (Z.neg k)); [done|lia|]. pose proof (dg_pos (Z.pos p) ltac:(lia)).
  assert (dg (Z.pos p) <= 53) by (apply dg_le; lia). unfold normal. lia.
Qed.
Lemma modf_can z : 0 < z < 2 ^ 53 -> modf (can z 0) = Ok (z, S754_zero false).
Proof.
  intros Hz. pose proof (can_mantissa z Hz). assert (dg z <= 53) by (apply dg_le; lia). pose proof (dg_pos z ltac:(lia)). unfold can.
  destruct (decide (dg z = 53)) as [E|N].
  - rewrite E. replace (53 + 0 - 53) with 0 by lia. cbn [modf fin]. rewrite Z2Pos.id by lia. cbn. f_equal. f_equal. lia.
  - rewrite modf_fin by lia. replace (- (dg z + 0 - 53)) with (53 - dg z) by lia. rewrite Z.div_mul by lia. rewrite Z.mod_mul by lia.
    by rewrite decide_True.
Qed.
Lemma round_can x r k : 0 < k <= 900 -> 0 < r < 2 ^ 53 -> r < 2 ^ k ->
  (4 * r < 2 ^ k -> round_half_even x (can r (- k)) = 0) /\ (3 * 2 ^ k < 4 * r -> round_half_even x (can r (- k)) = 1).
Proof.
  intros Hk Hr Hrk. pose proof (can_mantissa r Hr). assert (dg r <= 53) by (apply dg_le; lia). pose proof (dg_pos r ltac:(lia)).
  assert (dg r <= k) by (apply dg_le; lia). unfold can, fin, round_half_even. destruct (dg r + - k - 53) as [|j|j] eqn:E; try lia.
  rewrite Z2Pos.id by lia. set (s := 2 ^ (53 - dg r)). assert (Hj : 2 ^ Z.pos j = 2 ^ k * s).
  { unfold s. rewrite <- Z.pow_add_r by lia. f_equal. lia. }
  assert (Hs : 0 < s) by (unfold s; lia). rewrite Hj. rewrite Z.div_small by nia. rewrite Z.mod_small by nia. split; intros H'.
  - assert (2 * (r * s) < 2 ^ k * s) as Hlt by nia. by rewrite (proj2 (Z.compare_lt_iff _ _) Hlt).
  - assert (2 ^ k * s < 2 * (r * s)) as Hgt by nia. by rewrite (proj2 (Z.compare_gt_iff _ _) Hgt).
Qed.
(** ** Division *)
Lemma fl_div_bound M D : 0 < M -> 0 < D < 2 ^ 100 -> M < D * 2 ^ 20 ->
  exists m k, SFdiv fprec femax (fin M 0) (fin D 0) = fin m (- k) /\ 2 ^ 52 <= m < 2 ^ 53 /\ 31 <= k <= 300 /\
    Z.abs (m * D - M * 2 ^ k) <= 2 * D.
Proof.
  intros HM HD HMD. unfold SFdiv, fin. cbn [xorb]. unfold SFdiv_core_binary. rewrite !Z2Pos.id by lia. rewrite !Zdigits2_dg by lia.
  pose proof (dg_pos M HM) as d1. pose proof (dg_pos D ltac:(lia)) as d2. pose proof (dg_spec M HM) as [M1 M2]. pose proof (dg_spec D ltac:(lia)) as [D1 D2].
  assert (HdD : dg D <= 100) by (apply dg_le; lia).
  assert (HdM : dg M <= dg D + 20).
  { apply dg_le; [done|]. rewrite Z.pow_add_r by lia. nia. }
  rewrite fexp_normal by lia. rewrite Z.min_l by lia. set (e' := dg M + 0 - (dg D + 0) - 53).
  set (s := 0 - 0 - e'). assert (Hs : s = 53 + dg D - dg M) by lia.
  assert (Hsh : match s with 0 => M | Z.pos _ => Z.shiftl M s | Z.neg _ => 0 end = M * 2 ^ s).
  { destruct s; try lia. rewrite Z.shiftl_mul_pow2 by lia. done. }
  rewrite Hsh. clear Hsh.
  set (m' := M * 2 ^ s). assert (Hdiv : Z.div_eucl m' D = (m' / D, m' mod D)) by (unfold Z.div, Z.modulo; by destruct (Z.div_eucl m' D)).
  rewrite Hdiv. set (q := m' / D). pose proof (Z.div_mod m' D ltac:(lia)) as Hqr. fold q in Hqr. pose proof (Z.mod_pos_bound m' D ltac:(lia)) as Hr.
  assert (Hps : 0 < 2 ^ s) by lia.
  assert (Hq1 : 2 ^ 52 <= q).
  { apply Z.div_le_lower_bound; [lia|]. assert (2 ^ (52 + dg D) <= m').
    - unfold m'. replace (52 + dg D) with (dg M - 1 + s) by lia. rewrite Z.pow_add_r by lia. nia.
    - rewrite Z.pow_add_r in H by lia. nia. }
  assert (Hq2 : q < 2 ^ 54).
  { apply Z.div_lt_upper_bound; [lia|]. assert (m' < 2 ^ (53 + dg D)).
    - unfold m'. replace (53 + dg D) with (dg M + s) by lia. rewrite Z.pow_add_r by lia. nia.
    - replace (53 + dg D) with (54 + (dg D - 1)) in H by lia. rewrite Z.pow_add_r in H by lia. nia. }
  assert (Hn : normal (dg q) e').
  { assert (dg q <= 54) by (apply dg_le; lia). pose proof (dg_pos q ltac:(lia)). unfold normal. lia. }
  destruct (round_aux q e' (new_location D (m' mod D)) Hq1 Hn) as (m & e & -> & Hm & He & Herr & _).
  set (j := e - e') in *. assert (Hj : 0 <= j) by lia. assert (Hpj : 0 < 2 ^ j) by lia.
  assert (Hj2 : j <= 2).
  { destruct (decide (j <= 2)) as [|N]; [done|]. exfalso. assert (2 ^ 3 <= 2 ^ j) by (apply Z.pow_le_mono_r; lia). nia. }
  exists m, (- e). split_and!; [f_equal; lia|lia|lia|lia|lia|].
  assert (Ek : 2 ^ s = 2 ^ (- e) * 2 ^ j) by (rewrite <- Z.pow_add_r by lia; f_equal; lia).
  assert (Herr2 : Z.abs (m * 2 ^ j * D - M * 2 ^ s) <= 2 * D * 2 ^ j).
  { fold m'. rewrite Hqr. set (mj := m * 2 ^ j) in *. nia. }
  rewrite Ek in Herr2. set (P := 2 ^ (- e)) in *. set (J := 2 ^ j) in *.
  replace (m * J * D - M * (P * J)) with ((m * D - M * P) * J) in Herr2 by ring. rewrite Z.abs_mul in Herr2.
  rewrite (Z.abs_eq J) in Herr2 by lia. nia.
Qed.
Lemma fl_mul_bound a m k : 0 < a < 2 ^ 53 -> 0 < m < 2 ^ 53 -> 0 <= k <= 300 ->
  exists m' k', fl_mul (can a 0) (can m (- k)) = fin m' (- k') /\ 2 ^ 52 <= m' < 2 ^ 53 /\ 52 + k - dg a - dg m <= k' <= 55 + k - dg a - dg m /\
    (0 <= k' -> Z.abs (m' * 2 ^ k - a * m * 2 ^ k') <= 2 ^ k).
Proof.
  intros Ha Hm He. pose proof (can_mantissa a Ha) as Ma. pose proof (can_mantissa m Hm) as Mm.
  unfold fl_mul, SFmul, can, fin. cbn [xorb]. rewrite Pos2Z.inj_mul, !Z2Pos.id by lia.
  assert (dg a <= 53) by (apply dg_le; lia). assert (dg m <= 53) by (apply dg_le; lia). pose proof (dg_pos a ltac:(lia)). pose proof (dg_pos m ltac:(lia)).
  set (X := a * 2 ^ (53 - dg a) * (m * 2 ^ (53 - dg m))).
  assert (HX : 2 ^ 104 <= X < 2 ^ 106).
  { change (2 ^ 104) with (2 ^ 52 * 2 ^ 52). change (2 ^ 106) with (2 ^ 53 * 2 ^ 53). unfold X. nia. }
  assert (EX : X = a * m * 2 ^ (106 - dg a - dg m)).
  { unfold X. replace (106 - dg a - dg m) with ((53 - dg a) + (53 - dg m)) by lia. rewrite Z.pow_add_r by lia. ring. }
  set (ex := dg a + 0 - 53 + (dg m + - k - 53)).
  assert (HdX : 105 <= dg X <= 106).
  { split; [apply (dg_ge X 104); lia|apply dg_le; lia]. }
  destruct (round_aux X ex loc_Exact ltac:(lia) ltac:(unfold normal; lia)) as (m' & e' & -> & Hm' & He' & Herr & _).
  exists m', (- e').
  set (j := e' - ex) in *.
  assert (Hj : 51 <= j <= 54).
  { split.
    - destruct (decide (51 <= j)) as [|N]; [done|]. exfalso. assert (2 ^ j <= 2 ^ 50) by (apply Z.pow_le_mono_r; lia).
      assert (m' * 2 ^ j <= (2 ^ 53 - 1) * 2 ^ 50) by nia. change (2 ^ 104) with (2 ^ 54 * 2 ^ 50) in HX. lia.
    - destruct (decide (j <= 54)) as [|N]; [done|]. exfalso. assert (2 ^ 55 <= 2 ^ j) by (apply Z.pow_le_mono_r; lia).
      assert ((2 ^ 52 - 1) * 2 ^ j <= X) by nia. assert ((2 ^ 52 - 1) * 2 ^ 55 <= X) by nia.
      change (2 ^ 106) with (2 ^ 51 * 2 ^ 55) in HX. lia. }
  replace (- - e') with e' by lia. split_and!; [done|lia|lia|lia|lia|].
  intros Hle. set (t := 106 - dg a - dg m) in *. set (k' := - e') in *.
  assert (Ej : 2 ^ j * 2 ^ k' = 2 ^ t * 2 ^ k) by (rewrite <- !Z.pow_add_r by lia; f_equal; lia).
  assert (Hpt : 0 < 2 ^ t) by lia. assert (Hpk : 0 < 2 ^ k') by lia.
  assert (H9 : Z.abs ((m' * 2 ^ j - X) * 2 ^ k') <= 2 ^ j * 2 ^ k') by (rewrite Z.abs_mul, (Z.abs_eq (2 ^ k')) by lia; nia).
  rewrite EX in H9. replace ((m' * 2 ^ j - a * m * 2 ^ t) * 2 ^ k') with (m' * (2 ^ j * 2 ^ k') - a * m * 2 ^ t * 2 ^ k') in H9 by ring.
  rewrite Ej in H9. replace (m' * (2 ^ t * 2 ^ k) - a * m * 2 ^ t * 2 ^ k') with ((m' * 2 ^ k - a * m * 2 ^ k') * 2 ^ t) in H9 by ring.
  rewrite Z.abs_mul, (Z.abs_eq (2 ^ t)) in H9 by lia. nia.
Qed.

(** ** Seconds with a decimal fraction *)
Lemma pow_of_nat n : (1 <= n)%nat -> Z.pos (10 ^ Pos.of_nat n) = 10 ^ Z.of_nat n.
Proof. intros H. rewrite Pos2Z.inj_pow. f_equal. rewrite <- positive_nat_Z. rewrite Nat2Pos.id by lia. done. Qed.
Lemma fl_add_zero f : fl_add (S754_zero false) f = match f with S754_zero false => S754_zero false | S754_zero true => S754_zero false | _ => f end.
Proof. destruct f as [[]|[]| |[] m e]; done. Qed.

Lemma accum_seconds M n T : 0 <= M -> M < 10 ^ Z.of_nat n * 2 ^ 20 -> (n <= 6)%nat -> T * 10 ^ Z.of_nat n = 1000000 * M ->
  exists a l, td_accum (0, S754_zero false) (NFloat (fl_dec (Z.to_N M) n)) 1000000 = Ok (a, l) /\
    forall x, a + round_half_even x l = T.
Proof.
  intros HM HMn Hn HT. destruct (decide (M = 0)) as [->|NM].
  { assert (T = 0) as -> by (assert (0 < 10 ^ Z.of_nat n) by lia; nia). exists 0, (S754_zero false). split; [|done].
    destruct n; done. }
  destruct n as [|n'].
  { change (10 ^ Z.of_nat 0) with 1 in *. exists (M * 1000000), (S754_zero false). split; [|intros x; cbn; lia].
    unfold fl_dec, td_accum. rewrite Z2N.id by lia. rewrite fl_int_can by lia. rewrite modf_can by lia. cbn [rbind fst snd fl_is_zero]. f_equal. }
  set (n := S n') in *. set (D := 10 ^ Z.of_nat n) in *.
  assert (HD : 0 < D <= 1000000).
  { unfold D. split; [lia|]. change 1000000 with (10 ^ 6). apply Z.pow_le_mono_r; lia. }
  assert (Efl : fl_dec (Z.to_N M) n = SFdiv fprec femax (fin M 0) (fin D 0)).
  { unfold fl_dec. subst n. destruct M as [|p|p]; try lia. cbn [Z.to_N]. unfold fin. do 3 f_equal. cbn [Z.to_pos].
    unfold D. rewrite <- pow_of_nat by lia. done. }
  rewrite Efl. clear Efl.
  destruct (fl_div_bound M D ltac:(lia) ltac:(lia) ltac:(lia)) as (m & k & -> & Hm & Hk & Herr).
  unfold td_accum. rewrite modf_fin by lia. cbn [rbind fst snd]. replace (- - k) with k by lia.
  set (A := 2 ^ k) in *. assert (HA : 2 ^ 31 <= A) by (unfold A; apply Z.pow_le_mono_r; lia).
  set (I := m / A). set (r := m mod A). pose proof (Z.div_mod m A ltac:(lia)) as Hmod. fold I r in Hmod.
  pose proof (Z.mod_pos_bound m A ltac:(lia)) as Hr. fold r in Hr.
  assert (HTA : Z.abs (1000000 * m - T * A) <= 2000000).
  { assert (D * (1000000 * m - T * A) = 1000000 * (m * D - M * A)) by nia.
    assert (Z.abs (D * (1000000 * m - T * A)) <= D * 2000000) by lia. rewrite Z.abs_mul, (Z.abs_eq D) in H0 by lia. nia. }
  case_decide as Er.
  { cbn [fl_is_zero]. eexists _, _. split; [reflexivity|]. intros x. cbn [round_half_even].
    assert (A * (1000000 * I - T) = 1000000 * m - T * A) by nia.
    assert (Z.abs (A * (1000000 * I - T)) <= 2000000) by lia. rewrite Z.abs_mul, (Z.abs_eq A) in H0 by lia. nia. }
  cbn [fl_is_zero can fin]. change (S754_finite false (Z.to_pos (r * 2 ^ (53 - dg r))) (dg r + - k - 53)) with (can r (- k)).
  pose proof (Z.mod_le m A ltac:(lia) ltac:(lia)) as Hrm. fold r in Hrm.
  rewrite fl_int_can by lia.
  destruct (fl_mul_bound 1000000 r k ltac:(lia) ltac:(lia) ltac:(lia)) as (m2 & k2 & -> & Hm2 & He2 & Herr2).
  assert (Hdr : dg r <= k) by (apply dg_le; [lia|]; fold A; lia). pose proof (dg_pos r ltac:(lia)) as Hdr0.
  assert (Hd6 : dg 1000000 = 20) by reflexivity. rewrite Hd6 in He2.
  assert (He2neg : 32 <= k2 <= 400) by lia. specialize (Herr2 ltac:(lia)).
  rewrite modf_fin by lia. cbn [rbind fst snd]. replace (- - k2) with k2 by lia.
  set (B := 2 ^ k2) in *. assert (HB : 2 ^ 32 <= B) by (unfold B; apply Z.pow_le_mono_r; lia).
  set (I2 := m2 / B). set (r2 := m2 mod B). pose proof (Z.div_mod m2 B ltac:(lia)) as Hmod2. fold I2 r2 in Hmod2.
  pose proof (Z.mod_pos_bound m2 B ltac:(lia)) as Hr2. fold r2 in Hr2. pose proof (Z.mod_le m2 B ltac:(lia) ltac:(lia)) as Hrm2. fold r2 in Hrm2.
  set (W := I * 1000000 + I2 - T).
  assert (EW : A * (W * B + r2) = B * (1000000 * m - T * A) + (m2 * A - 1000000 * r * B)).
  { unfold W. rewrite Hmod at 1. rewrite Hmod2. ring. }
  assert (HW : 8 * Z.abs (W * B + r2) < B).
  { assert (Z.abs (B * (1000000 * m - T * A)) <= B * 2000000) by (rewrite Z.abs_mul, (Z.abs_eq B) by lia; apply Z.mul_le_mono_nonneg_l; [lia|exact HTA]).
    assert (Z.abs (A * (W * B + r2)) <= B * 2000000 + A) by lia. rewrite Z.abs_mul, (Z.abs_eq A) in H0 by lia.
    set (w := Z.abs (W * B + r2)) in *. assert (Hw0 : 0 <= w) by (unfold w; lia). clearbody w A B. clear -H0 HA HB Hw0.
    assert (H1 : 16 * A < A * B) by (clear -HA HB; nia). assert (H2 : 16 * (B * 2000000) <= A * B) by (clear -HA HB; nia).
    assert (H3 : A * (16 * w) < A * (2 * B)) by lia. apply Z.mul_lt_mono_pos_l in H3; lia. }
  eexists _, _. split; [reflexivity|]. intros x. rewrite fl_add_zero.
  assert (HWr : (W = 0 /\ 8 * r2 < B) \/ (W = -1 /\ 7 * B < 8 * r2)).
  { clearbody W B r2. clear -HW HB Hr2.
    assert (W <= 0) by (destruct (decide (W <= 0)); [done|]; assert (B <= W * B) by nia; lia).
    assert (-1 <= W) by (destruct (decide (-1 <= W)); [done|]; assert (W * B <= -2 * B) by nia; lia).
    assert (W = 0 \/ W = -1) as [-> | ->] by lia; lia. }
  case_decide as E2.
  { cbn [round_half_even]. lia. }
  change (match can r2 (- k2) with S754_zero false => S754_zero false | S754_zero true => S754_zero false | _ => can r2 (- k2) end) with (can r2 (- k2)).
  destruct (round_can x r2 k2 ltac:(lia) ltac:(lia) ltac:(fold B; lia)) as [R2 R3]. fold B in R2, R3.
  assert (EWW : W = I * 1000000 + I2 - T) by done. clearbody W B r2 I I2. clear -R2 R3 HWr EWW Hr2. destruct HWr as [[HW0 Hlt]|[HW1 Hgt]]; [rewrite R2 by lia|rewrite R3 by lia]; lia.
Qed.

(** ** Whole numbers *)
Definition whole (n : num) (z : Z) : Prop := n = NInt z \/ n = NFloat (if decide (z = 0) then S754_zero false else can z 0).
Lemma whole_fl n z : 0 <= z < 2 ^ 53 -> whole n z -> num_fl n = if decide (z = 0) then S754_zero false else can z 0.
Proof. intros Hz [-> | ->]; [|done]. cbn [num_fl]. case_decide; [by subst|]. apply fl_int_can. lia. Qed.
Lemma whole_dec z : 0 <= z < 2 ^ 53 -> whole (NFloat (fl_dec (Z.to_N z) 0)) z.
Proof.
  intros Hz. right. f_equal. unfold fl_dec. rewrite Z2N.id by lia. case_decide; [by subst|]. apply fl_int_can. lia.
Qed.
Lemma whole_mul n m a b : whole n a -> whole m b -> 0 <= a < 2 ^ 53 -> 0 <= b < 2 ^ 53 -> a * b < 2 ^ 53 -> whole (num_mul n m) (a * b).
Proof.
  intros Hn Hm Ha Hb Hab.
  assert (W : num_mul n m = NFloat (fl_mul (num_fl n) (num_fl m)) -> whole (num_mul n m) (a * b)).
  { intros ->. right. f_equal. rewrite (whole_fl n a), (whole_fl m b) by done.
    case_decide as E; [|case_decide as E'].
    - subst. destruct (decide (0 * b = 0)); [|lia]. case_decide; done.
    - subst. destruct (decide (a * 0 = 0)); [|lia]. done.
    - destruct (decide (a * b = 0)); [nia|]. apply fl_mul_can; lia. }
  destruct Hn as [-> | ->], Hm as [-> | ->]; try (by apply W). by left.
Qed.
Lemma whole_add n m a b : whole n a -> whole m b -> 0 <= a -> 0 <= b -> a + b < 2 ^ 53 -> whole (num_add n m) (a + b).
Proof.
  intros Hn Hm Ha Hb Hab.
  assert (W : num_add n m = NFloat (fl_add (num_fl n) (num_fl m)) -> whole (num_add n m) (a + b)).
  { intros ->. right. f_equal. rewrite (whole_fl n a), (whole_fl m b) by (done || lia).
    case_decide as E; [|case_decide as E'].
    - subst a. rewrite fl_add_zero. replace (0 + b) with b by lia. case_decide; done.
    - subst b. replace (a + 0) with a by lia. destruct (decide (a = 0)); done.
    - destruct (decide (a + b = 0)); [lia|]. apply fl_add_can; lia. }
  destruct Hn as [-> | ->], Hm as [-> | ->]; try (by apply W). by left.
Qed.
Lemma accum_whole n z p f : whole n z -> 0 <= z < 2 ^ 53 -> td_accum p n f = Ok (p.1 + z * f, p.2).
Proof.
  intros [-> | ->] Hz; [done|]. unfold td_accum. case_decide as E.
  - subst. cbn [modf rbind fst snd fl_is_zero]. done.
  - rewrite modf_can by lia. done.
Qed.
(** the seconds part as the constructor of timedelta sees it: T microseconds *)
Definition micros_of (n : num) (T : Z) : Prop :=
  exists a l, td_accum (0, S754_zero false) n 1000000 = Ok (a, l) /\ forall x, a + round_half_even x l = T.
Lemma micros_whole n z : whole n z -> 0 <= z < 2 ^ 53 -> micros_of n (z * 1000000).
Proof.
  intros Hn Hz. eexists _, _. split; [by apply accum_whole|]. intros x. cbn [fst snd round_half_even]. lia.
Qed.
Lemma td_new_exact dn d hn h mn m sn T : whole dn d -> whole hn h -> whole mn m -> micros_of sn T ->
  0 <= d < 2 ^ 53 -> 0 <= h < 2 ^ 53 -> 0 <= m < 2 ^ 53 ->
  td_new dn hn mn sn = td_of_us (d * 86400000000 + h * 3600000000 + m * 60000000 + T).
Proof.
  intros Hd Hh Hm (a & l & E & HT) Bd Bh Bm. unfold td_new. rewrite E. cbn [rbind].
  rewrite (accum_whole mn m) by done. cbn [rbind fst snd]. rewrite (accum_whole hn h) by done. cbn [rbind fst snd].
  rewrite (accum_whole dn d) by done. cbn [rbind fst snd].
  f_equal. specialize (HT (a + m * 60000000 + h * 3600000000 + d * 86400000000)). lia.
Qed.

(** ** int(s / b) *)
Lemma new_location_0 b : new_location b 0 = loc_Exact.
Proof. unfold new_location, new_location_even, new_location_odd. by destruct (Z.even b). Qed.
Lemma div_trunc s b : 0 <= s < 2 ^ 20 -> 0 < b < 2 ^ 20 -> fl_trunc (fl_div (fl_int s) (fl_int b)) = Ok (s / b).
Proof.
  intros Hs Hb. destruct (decide (s = 0)) as [->|Ns].
  { rewrite fl_int_0, (fl_int_can b) by lia. done. }
  rewrite !fl_int_can by lia. pose proof (can_mantissa s ltac:(lia)) as Ms. pose proof (can_mantissa b ltac:(lia)) as Mb.
  assert (D1 : dg s <= 20) by (apply dg_le; lia). assert (D2 : dg b <= 20) by (apply dg_le; lia). pose proof (dg_pos s ltac:(lia)). pose proof (dg_pos b ltac:(lia)).
  set (k := 53 + dg b - dg s). pose proof (Z.div_mod s b ltac:(lia)) as Hsb. pose proof (Z.mod_pos_bound s b ltac:(lia)) as Hr. set (I := s / b) in *. set (r := s mod b) in *.
  assert (HI : 0 <= I <= s) by (unfold I; split; [apply Z.div_pos; lia|apply Z.div_le_upper_bound; nia]).
  unfold fl_div, SFdiv, can, fin. cbn [xorb]. unfold SFdiv_core_binary. rewrite !Z2Pos.id by lia. rewrite !Zdigits2_dg by lia.
  set (m1 := s * 2 ^ (53 - dg s)) in *. set (m2 := b * 2 ^ (53 - dg b)) in *.
  assert (dg m1 = 53) as -> by (apply dg_unique; lia).
  assert (dg m2 = 53) as -> by (apply dg_unique; lia).
  rewrite fexp_normal by lia. rewrite Z.min_l by lia.
  replace (53 + (dg s + 0 - 53) - (53 + (dg b + 0 - 53)) - 53) with (- k) by lia.
  replace (dg s + 0 - 53 - (dg b + 0 - 53) - - k) with 53 by lia. cbn match. rewrite Z.shiftl_mul_pow2 by lia.
  set (n := m1 * 2 ^ 53). assert (En : n * 2 ^ (53 - dg b) = s * 2 ^ k * 2 ^ (53 - dg b) * 2 ^ (53 - dg b)).
  { unfold n, m1. rewrite <- !Z.mul_assoc, <- !Z.pow_add_r by lia. do 2 f_equal. lia. }
  set (P := 2 ^ (53 - dg b)) in *. assert (HP : 0 < P) by (unfold P; lia).
  assert (En' : n = s * 2 ^ k * P) by nia. clear En.
  assert (Hdiv : Z.div_eucl n m2 = (n / m2, n mod m2)) by (unfold Z.div, Z.modulo; by destruct (Z.div_eucl n m2)).
  rewrite Hdiv. set (q := n / m2). pose proof (Z.div_mod n m2 ltac:(lia)) as Hq. fold q in Hq. pose proof (Z.mod_pos_bound n m2 ltac:(lia)) as Hm.
  assert (Hq1 : 2 ^ 52 <= q) by (apply Z.div_le_lower_bound; unfold n; lia).
  assert (Hq2 : q < 2 ^ 54) by (apply Z.div_lt_upper_bound; unfold n; lia).
  assert (Hn : normal (dg q) (- k)).
  { assert (dg q <= 54) by (apply dg_le; lia). pose proof (dg_pos q ltac:(lia)). unfold normal. lia. }
  destruct (decide (r = 0)) as [Er|Nr].
  - assert (HI0 : 0 < I) by nia. assert (Eq : n = m2 * (I * 2 ^ k)) by (rewrite En', Hsb, Er; unfold m2; ring).
    assert (q = I * 2 ^ k) as Eq' by (unfold q; rewrite Eq, Z.mul_comm; apply Z.div_mul; lia).
    assert (n mod m2 = 0) as -> by (rewrite Eq, Z.mul_comm; apply Z.mod_mul; lia). rewrite new_location_0.
    rewrite (round_aux_exact q (- k) I 0) by (done || lia || (rewrite Eq'; f_equal; f_equal; lia)).
    unfold fl_trunc. by rewrite modf_can by lia.
  - destruct (round_aux q (- k) (new_location m2 (n mod m2)) Hq1 Hn) as (m & e & -> & Hmm & He & Herr & _).
    set (j := e - - k) in *. assert (Hpj : 0 < 2 ^ j) by lia.
    assert (Hj2 : j <= 2).
    { destruct (decide (j <= 2)) as [|N]; [done|]. exfalso. assert (2 ^ 3 <= 2 ^ j) by (apply Z.pow_le_mono_r; lia). nia. }
    set (K := - e). assert (HK : 31 <= K <= 100) by lia.
    assert (Ek : 2 ^ k = 2 ^ K * 2 ^ j) by (rewrite <- Z.pow_add_r by lia; f_equal; lia).
    unfold fl_trunc. rewrite modf_fin by lia. cbn [rbind fst snd]. fold K. f_equal.
    set (A := 2 ^ K) in *. assert (HA : 2 ^ 31 <= A) by (unfold A; apply Z.pow_le_mono_r; lia). set (J := 2 ^ j) in *.
    assert (Herr2 : Z.abs (m * b - s * A) <= 2 * b).
    { assert (H1 : Z.abs (m * J * m2 - n) <= 2 * m2 * J).
      { rewrite Hq. clear -Herr Hm Hpj Mb. assert (0 < m2) by lia. set (w := n mod m2) in *. set (mj := m * J) in *. clearbody w mj q m2 J. nia. }
      rewrite En', Ek in H1. unfold m2 in H1. fold P in H1.
      replace (m * J * (b * P) - s * (A * J) * P) with ((m * b - s * A) * (J * P)) in H1 by ring.
      rewrite Z.abs_mul, (Z.abs_eq (J * P)) in H1 by nia. set (w := Z.abs _) in *. replace (2 * (b * P) * J) with (2 * b * (J * P)) in H1 by ring.
      apply Z.mul_le_mono_pos_r in H1; [done|nia]. }
    clearbody A J m2 n q I r. clear -Herr2 Hsb Hr Nr HA Hb.
    symmetry. apply (Z.div_unique _ _ _ (m - A * I)); [left|ring].
    assert (H1 : s * A = I * b * A + r * A) by (rewrite Hsb; ring).
    assert (H2 : 1 * A <= r * A) by nia. assert (H3 : r * A <= (b - 1) * A) by nia.
    assert (H4 : b * (A * I) <= b * m) by lia. assert (H5 : b * m < b * (A * I + A)) by lia.
    apply Z.mul_le_mono_pos_l in H4; [|lia]. apply Z.mul_lt_mono_pos_l in H5; lia.
Qed.
