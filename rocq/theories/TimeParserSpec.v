(** Statements about timeparser.py. *)
From Verif Require Export TimeParser.
Open Scope Z_scope.

Section spec.
Context `{U : Unicode}.

(** Python's timedelta objects are normalised. *)
Definition is_timedelta (t : timedelta) : Prop :=
  -999999999 <= td_days t <= 999999999 /\ 0 <= td_seconds t < 86400 /\ 0 <= td_micros t < 1000000.
Definition total_us (t : timedelta) : Z := (td_days t * 86400 + td_seconds t) * 1000000 + td_micros t.
(** dates of the proleptic Gregorian calendar *)
Definition is_leap (y : Z) : Prop := (4 | y) /\ (~ (100 | y) \/ (400 | y)).
Definition is_date (y m d : Z) : Prop :=
  1 <= y <= 9999 /\ 1 <= m <= 12 /\ 1 <= d /\
  ((m ∈ [1; 3; 5; 7; 8; 10; 12] /\ d <= 31) \/ (m ∈ [4; 6; 9; 11] /\ d <= 30) \/
   (m = 2 /\ (d <= 28 \/ (d = 29 /\ is_leap y)))).
Definition is_time (h mi s : Z) : Prop := 0 <= h < 24 /\ 0 <= mi < 60 /\ 0 <= s < 60.
Definition is_value (v : tvalue) : Prop :=
  match v with
  | VDate y m d => is_date y m d
  | VDatetime y m d h mi s us => is_date y m d /\ is_time h mi s /\ 0 <= us < 1000000
  | VDelta t => is_timedelta t
  end.

(** Decimal text: the digits of [s], most significant first, and their value. *)
Fixpoint dec_value (ds : list N) : Z :=
  match ds with [] => 0 | d :: r => Z.of_N d * 10 ^ Z.of_nat (length r) + dec_value r end.
Definition digits (s : pystr) (ds : list N) : Prop := s <> [] /\ map u_digit s = map Some ds.

(** The texts of durations: PnYnMnDTnHnMn,nS; parts may be missing. *)
Record duration_text := DT {
  t_years : option pystr; t_months : option pystr; t_days : option pystr;
  t_time : option (option pystr * option pystr * option (pystr * option pystr)) }.
Definition part (o : option pystr) (letter : string) : pystr :=
  match o with Some s => s ++ lit letter | None => [] end.
Definition text_of (t : duration_text) : pystr :=
  lit "P" ++ part (t_years t) "Y" ++ part (t_months t) "M" ++ part (t_days t) "D" ++
  match t_time t with
  | None => []
  | Some (h, mi, s) =>
      lit "T" ++ part h "H" ++ part mi "M" ++
      match s with
      | None => []
      | Some (i, None) => i ++ lit "S"
      | Some (i, Some f) => i ++ lit "," ++ f ++ lit "S"
      end
  end.
(** the value of a part; a missing part counts 0 *)
Definition part_value (o : option pystr) (v : Z) : Prop :=
  match o with Some s => exists ds, digits s ds /\ v = dec_value ds | None => v = 0 end.
(** seconds: [us] microseconds, exactly *)
Definition seconds_value (o : option (pystr * option pystr)) (us : Z) : Prop :=
  match o with
  | None => us = 0
  | Some (i, None) => exists ds, digits i ds /\ us = dec_value ds * 1000000
  | Some (i, Some f) => exists ds fs, digits i ds /\ digits f fs /\ (length fs <= 6)%nat /\
      us * 10 ^ Z.of_nat (length fs) = (dec_value ds * 10 ^ Z.of_nat (length fs) + dec_value fs) * 1000000
  end.
(** a well-formed duration text *)
Definition part_wf (o : option pystr) : Prop := forall s, o = Some s -> exists ds, digits s ds.
Definition text_wf (t : duration_text) : Prop :=
  part_wf (t_years t) /\ part_wf (t_months t) /\ part_wf (t_days t) /\
  match t_time t with
  | None => True
  | Some (h, mi, s) => part_wf h /\ part_wf mi /\
      match s with None => True | Some (i, f) => part_wf (Some i) /\ part_wf f end
  end.

(** TimeParser(v).timestr read again *)
Definition reread (pads : bool) (v : tvalue) : res tvalue :=
  do p <- tp_new pads (inr v); do q <- tp_new pads (inl p.1); Ok q.2.
End spec.
