(** Python floats as IEEE 754 binary64 numbers, with the operations of Coq's SpecFloat
    (round to nearest, ties to even), and what timedelta does with them.  Nothing here belongs
    to /repo. *)
From Coq Require Export SpecFloat.
From Verif Require Export PyBase.

Definition fprec : Z := 53.
Definition femax : Z := 1024.
(** float(z) for an int *)
Definition fl_int (z : Z) : spec_float := binary_normalize fprec femax z 0 false.
(** float of a decimal with digits [m] and [n] places after the point, correctly rounded *)
Definition fl_dec (m : N) (n : nat) : spec_float :=
  match n with
  | O => fl_int (Z.of_N m)
  | _ => match m with
         | N0 => S754_zero false
         | Npos p => SFdiv fprec femax (S754_finite false p 0) (S754_finite false (10 ^ Pos.of_nat n) 0)
         end
  end.
Definition fl_add : spec_float -> spec_float -> spec_float := SFadd fprec femax.
Definition fl_mul : spec_float -> spec_float -> spec_float := SFmul fprec femax.
Definition fl_div : spec_float -> spec_float -> spec_float := SFdiv fprec femax.
(** modf: integral and fractional part; int() of infinity and nan raise *)
Definition modf (f : spec_float) : res (Z * spec_float) :=
  match f with
  | S754_zero _ => Ok (0%Z, f)
  | S754_infinity _ => Err OverflowError
  | S754_nan => Err ValueError
  | S754_finite s m e =>
      let sgn z := if s then (- z)%Z else z in
      match e with
      | Zneg k => Ok (sgn (Z.pos m / 2 ^ Z.pos k)%Z, binary_normalize fprec femax (sgn (Z.pos m mod 2 ^ Z.pos k)%Z) e s)
      | _ => Ok (sgn (Z.pos m * 2 ^ e)%Z, S754_zero s)
      end
  end.
(** int(f) *)
Definition fl_trunc (f : spec_float) : res Z := do p <- modf f; Ok p.1.
(** a float is zero *)
Definition fl_is_zero (f : spec_float) : bool := match f with S754_zero _ => true | _ => false end.
(** the integer nearest to [f]; at a tie the one that makes [x] plus it even *)
Definition round_half_even (x : Z) (f : spec_float) : Z :=
  match f with
  | S754_finite s m e =>
      let v := if s then Z.neg m else Z.pos m in
      match e with
      | Zneg k =>
          let q := (v / 2 ^ Z.pos k)%Z in
          let r := (v mod 2 ^ Z.pos k)%Z in
          match (2 * r ?= 2 ^ Z.pos k)%Z with
          | Lt => q
          | Gt => (q + 1)%Z
          | Eq => if Z.even (x + q) then q else (q + 1)%Z
          end
      | _ => (v * 2 ^ e)%Z
      end
  | _ => 0%Z
  end.

(** Numbers in Python arithmetic *)
Inductive num := NInt (z : Z) | NFloat (f : spec_float).
Definition num_fl (n : num) : spec_float := match n with NInt z => fl_int z | NFloat f => f end.
Definition num_add (a b : num) : num :=
  match a, b with NInt x, NInt y => NInt (x + y) | _, _ => NFloat (fl_add (num_fl a) (num_fl b)) end.
Definition num_mul (a b : num) : num :=
  match a, b with NInt x, NInt y => NInt (x * y) | _, _ => NFloat (fl_mul (num_fl a) (num_fl b)) end.

(** ** datetime.timedelta (CPython _datetimemodule.c) *)
Record timedelta := TD { td_days : Z; td_seconds : Z; td_micros : Z }.
Global Instance td_eq_dec : EqDecision timedelta.
Proof. solve_decision. Defined.
(** new_delta, microseconds_to_delta *)
Definition MAX_DELTA_DAYS : Z := 999999999.
Definition td_of_us (us : Z) : res timedelta :=
  let s := (us / 1000000)%Z in
  let d := (s / 86400)%Z in
  if decide (Z.abs d <= MAX_DELTA_DAYS)%Z then Ok (TD d (s mod 86400) (us mod 1000000)) else Err OverflowError.
(** accum: the sum of microseconds and the fractions left over *)
Definition td_accum (sofar : Z * spec_float) (n : num) (factor : Z) : res (Z * spec_float) :=
  match n with
  | NInt z => Ok (sofar.1 + z * factor, sofar.2)%Z
  | NFloat f =>
      do p <- modf f;
      let sum := (sofar.1 + p.1 * factor)%Z in
      if fl_is_zero p.2 then Ok (sum, sofar.2)
      else do q <- modf (fl_mul (fl_int factor) p.2); Ok ((sum + q.1)%Z, fl_add sofar.2 q.2)
  end.
(** timedelta(days=, hours=, minutes=, seconds=) *)
Definition td_new (days hours minutes seconds : num) : res timedelta :=
  do a <- td_accum (0%Z, S754_zero false) seconds 1000000;
  do b <- td_accum a minutes 60000000;
  do c <- td_accum b hours 3600000000;
  do d <- td_accum c days 86400000000;
  td_of_us (d.1 + round_half_even d.1 d.2).
