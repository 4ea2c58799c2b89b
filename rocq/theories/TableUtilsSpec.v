(** Vocabulary for cell addresses and ranges, independent of the parser. *)
From Verif Require Export TableUtils.

(** Spreadsheet column names: A..Z are 0..25, and appending a letter to the name of
    column [n] moves on to block [n + 1] of 26 columns. *)
Inductive is_col_name : pystr -> Z -> Prop :=
  | CN_one c : (65 <= c <= 90)%N -> is_col_name [c] (Z.of_N c - 65)
  | CN_more w n c : is_col_name w n -> (65 <= c <= 90)%N ->
      is_col_name (w ++ [c]) (26 * (n + 1) + (Z.of_N c - 65)).

(** decimal value of a string of digits *)
Fixpoint dec_value `{Unicode} (acc : Z) (d : pystr) : Z :=
  match d with
  | [] => acc
  | c :: r => dec_value (10 * acc + match u_digit c with Some v => Z.of_N v | None => 0 end) r
  end.

(** [t] is a column name [w], a row number [d], and possibly a final newline *)
Definition is_address `{Unicode} (t w d : pystr) : Prop :=
  exists nl, t = w ++ d ++ nl /\ (nl = [] \/ nl = [10%N]) /\
  w <> [] /\ Forall (fun c => 65 <= c <= 90)%N w /\
  d <> [] /\ Forall (fun c => is_Some (u_digit c)) d.

Definition ascii_lower (c : N) : N := if decide (65 <= c <= 90)%N then (c + 32)%N else c.

(** row-major order of positions *)
Definition pos_lt (p q : Z * Z) : Prop :=
  (p.1 < q.1 \/ (p.1 = q.1 /\ p.2 < q.2))%Z.
