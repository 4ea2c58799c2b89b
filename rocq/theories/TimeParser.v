(** Model of timeparser.py. *)
From Verif Require Export Float64.

Section timeparser.
Context `{U : Unicode}.

(** ** Python primitives *)
(** '%0kd' % z for z >= 0 *)
Definition zpad (k : nat) (z : Z) : pystr :=
  let s := show_Z z in replicate (k - length s) 48%N ++ s.
(** matching one regular expression \d+ greedily: the digits and the rest *)
Fixpoint take_digits (s : pystr) : list N * pystr :=
  match s with
  | c :: r => match u_digit c with Some d => let p := take_digits r in (d :: p.1, p.2) | None => ([], s) end
  | [] => ([], [])
  end.
Definition num_of (ds : list N) : N := foldl (fun a d => (10 * a + d)%N) 0%N ds.

(** ** strptime (CPython Lib/_strptime.py) *)
(** A pattern gives the ways to match a prefix, in the order of the regular expression. *)
Definition pat := pystr -> list (Z * pystr).
Definition rng (a b c : N) : bool := bool_decide (a <= c <= b)%N.
Definition isd (c : N) : bool := bool_decide (is_Some (u_digit c)).
Definition dval (c : N) : Z := match u_digit c with Some d => Z.of_N d | None => 0 end.
Definition one (p : N -> bool) : pat := fun s => match s with c :: r => if p c then [(dval c, r)] else [] | [] => [] end.
Definition two (p q : N -> bool) : pat := fun s =>
  match s with c :: d :: r => if p c && q d then [(10 * dval c + dval d, r)%Z] else [] | _ => [] end.
Definition alts (ps : list pat) : pat := fun s => flat_map (fun p => p s) ps.
Definition pat_Y : pat := fun s =>
  match s with
  | a :: b :: c :: d :: r => if isd a && isd b && isd c && isd d then [(1000 * dval a + 100 * dval b + 10 * dval c + dval d, r)%Z] else []
  | _ => []
  end.
Definition pat_m : pat := alts [two (rng 49 49) (rng 48 50); two (rng 48 48) (rng 49 57); one (rng 49 57)].
Definition pat_d : pat := alts [two (rng 51 51) (rng 48 49); two (rng 49 50) isd; two (rng 48 48) (rng 49 57); one (rng 49 57);
  fun s => match s with c :: r => if rng 32 32 c then one (rng 49 57) r else [] | [] => [] end].
Definition pat_H : pat := alts [two (rng 50 50) (rng 48 51); two (rng 48 49) isd; one isd].
Definition pat_M : pat := alts [two (rng 48 53) isd; one isd].
Definition pat_S : pat := alts [two (rng 54 54) (rng 48 49); two (rng 48 53) isd; one isd].
(** a literal character of the format *)
Definition chr (c : N) (s : pystr) : list pystr := match s with d :: r => if rng c c d then [r] else [] | [] => [] end.

(** the calendar: datetime.date(y, m, d) accepts the date *)
Definition leap (y : Z) : bool := ((y mod 4 =? 0) && (negb (y mod 100 =? 0) || (y mod 400 =? 0)))%Z.
Definition days_in_month (y m : Z) : Z :=
  if decide (m = 2)%Z then (if leap y then 29 else 28)
  else if decide (m ∈ [4; 6; 9; 11])%Z then 30 else 31.
Definition valid_date (y m d : Z) : bool :=
  bool_decide (1 <= y <= 9999 /\ 1 <= m <= 12 /\ 1 <= d <= days_in_month y m)%Z.
Definition valid_time (h mi s : Z) : bool := bool_decide (0 <= h <= 23 /\ 0 <= mi <= 59 /\ 0 <= s <= 59)%Z.

(** what TimeParser.value can be *)
Inductive tvalue :=
  | VDate (y m d : Z)
  | VDatetime (y m d h mi s us : Z)
  | VDelta (t : timedelta).

(** all ways to match %Y-%m-%d: year, month, day and the rest *)
Definition match_date (s : pystr) : list (Z * Z * Z * pystr) :=
  flat_map (fun y => flat_map (fun r1 => flat_map (fun m => flat_map (fun r2 =>
    map (fun d => (y.1, m.1, d.1, d.2)) (pat_d r2)) (chr 45 m.2)) (pat_m r1)) (chr 45 y.2)) (pat_Y s).
Definition match_time (s : pystr) : list (Z * Z * Z * pystr) :=
  flat_map (fun h => flat_map (fun r1 => flat_map (fun mi => flat_map (fun r2 =>
    map (fun x => (h.1, mi.1, x.1, x.2)) (pat_S r2)) (chr 58 mi.2)) (pat_M r1)) (chr 58 h.2)) (pat_H s).
(** datetime.strptime(s, DATE_FORMAT).date() *)
Definition strptime_date (s : pystr) : res tvalue :=
  match match_date s with
  | (y, m, d, []) :: _ => if valid_date y m d then Ok (VDate y m d) else Err ValueError
  | _ => Err ValueError
  end.
(** datetime.strptime(s, DATETIME_FORMAT) *)
Definition match_datetime (s : pystr) : list ((Z * Z * Z) * (Z * Z * Z) * pystr) :=
  flat_map (fun d => flat_map (fun r => map (fun t => (d.1, t.1, t.2)) (match_time r)) (chr 84 d.2 ++ chr 116 d.2)) (match_date s).
Definition strptime_datetime (s : pystr) : res tvalue :=
  match match_datetime s with
  | ((y, m, d), (h, mi, x), []) :: _ =>
      if valid_date y m d && valid_time h mi x then Ok (VDatetime y m d h mi x 0) else Err ValueError
  | _ => Err ValueError
  end.

(** ** timeparser.py *)
(** timeparser.py:18 one group (\d+X)? of duration_matcher: digits and rest *)
Definition group (x : N) (s : pystr) : list N * pystr :=
  let p := take_digits s in
  match p.1, p.2 with
  | _ :: _, c :: r => if decide (c = x) then (p.1, r) else ([], s)
  | _, _ => ([], s)
  end.
(** the group (\d+(?:,\d+)?S)?: digits before and after the comma *)
Definition sec_group (s : pystr) : list N * list N * pystr :=
  let p := take_digits s in
  match p.1 with
  | [] => ([], [], s)
  | _ =>
      match p.2 with
      | 83%N :: r => (p.1, [], r)
      | 44%N :: r =>
          let q := take_digits r in
          match q.1, q.2 with
          | _ :: _, 83%N :: r' => (p.1, q.1, r')
          | _, _ => ([], [], s)
          end
      | _ => ([], [], s)
      end
  end.
(** $: at the end or before a newline at the end *)
Definition at_end (s : pystr) : bool := bool_decide (s = [] \/ s = [10%N]).
(** timeparser.py:63-68 clean *)
Definition clean (ds fs : list N) : num :=
  match ds with [] => NInt 0 | _ => NFloat (fl_dec (num_of (ds ++ fs)) (length fs)) end.
(** timeparser.py:61-77 duration_parser *)
Definition duration_parser (s : pystr) : res tvalue :=
  match s with
  | 80%N :: s0 =>
      let y := group 89 s0 in
      let m := group 77 y.2 in
      let d := group 68 m.2 in
      let t := match d.2 with
               | 84%N :: r =>
                   let h := group 72 r in
                   let mi := group 77 h.2 in
                   let x := sec_group mi.2 in
                   (h.1, mi.1, x.1, x.2)
               | r => ([], [], ([], []), r)
               end in
      let '(h, mi, x, rest) := t in
      if at_end rest then
        let days := num_add (num_add (num_mul (clean y.1 []) (NInt 365)) (num_mul (clean m.1 []) (NInt 30))) (clean d.1 []) in
        do td <- td_new days (clean h []) (clean mi []) (clean x.1 x.2); Ok (VDelta td)
      else Err ValueError
  | _ => Err ValueError
  end.
(** timeparser.py:81-86 get_time *)
Definition get_time (seconds : Z) : res (Z * Z * Z) :=
  do hours <- fl_trunc (fl_div (fl_int seconds) (fl_int 3600));
  let seconds := (seconds mod 3600)%Z in
  do minutes <- fl_trunc (fl_div (fl_int seconds) (fl_int 60));
  Ok (hours, minutes, (seconds mod 60)%Z).
(** timeparser.py:79-97 duration_to_string *)
Definition duration_to_string (t : timedelta) : res pystr :=
  let p := if decide (td_days t = 0%Z) then lit "P" else lit "P" ++ show_Z (td_days t) ++ lit "D" in
  do hms <- get_time (td_seconds t);
  let '(h, mi, s) := hms in
  let tm := lit "T" ++ zpad 2 h ++ lit "H" ++ zpad 2 mi ++ lit "M" ++ zpad 2 s in
  let us := if decide (td_micros t > 0)%Z then take 5 (lit "," ++ zpad 6 (td_micros t)) ++ lit "S" else lit "S" in
  Ok (p ++ tm ++ us).
(** timeparser.py:38-47 parse *)
Definition tp_parse (s : pystr) : res tvalue :=
  match s with
  | 80%N :: _ => duration_parser s
  | _ => if decide (84%N ∈ s) then strptime_datetime s else strptime_date s
  end.
(** timeparser.py:28-36 __str__; [pads]: the platform's strftime pads %Y with zeros (glibc does not) *)
Definition tp_str (pads : bool) (v : tvalue) : res pystr :=
  let date y m d := (if pads then zpad 4 y else show_Z y) ++ lit "-" ++ zpad 2 m ++ lit "-" ++ zpad 2 d in
  match v with
  | VDate y m d => Ok (date y m d)
  | VDatetime y m d h mi s _ => Ok (date y m d ++ lit "T" ++ zpad 2 h ++ lit ":" ++ zpad 2 mi ++ lit ":" ++ zpad 2 s)
  | VDelta t => duration_to_string t
  end.
(** timeparser.py:20-26 __init__: (timestr, value) *)
Definition tp_new (pads : bool) (v : pystr + tvalue) : res (pystr * tvalue) :=
  match v with
  | inl s => do x <- tp_parse s; Ok (s, x)
  | inr x => do s <- tp_str pads x; Ok (s, x)
  end.
(** timeparser.py:49-51 is_date, 53-55 has_time, 57-59 is_duration: isinstance of the value; a datetime is a date *)
Definition tp_is_date (v : tvalue) : bool := match v with VDate _ _ _ | VDatetime _ _ _ _ _ _ _ => true | VDelta _ => false end.
Definition tp_has_time (v : tvalue) : bool := match v with VDatetime _ _ _ _ _ _ _ => true | _ => false end.
Definition tp_is_duration (v : tvalue) : bool := match v with VDelta _ => true | _ => false end.
End timeparser.
