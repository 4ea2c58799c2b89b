(** What protecting a sheet or a section means. *)
From Verif Require Export Protect AttrsSpec.

Section spec.
Context `{U : Unicode} `{F : PyFloat} `{R : Random}.
(** A key: twelve different letters or digits. *)
Definition letter_or_digit (c : N) : Prop :=
  (65 <= c <= 90)%N \/ (97 <= c <= 122)%N \/ (48 <= c <= 57)%N.
Definition good_key (l : list N) : Prop := length l = 12 /\ NoDup l /\ Forall letter_or_digit l.
(** its text in the file: ['a', 'b', …] *)
Fixpoint quoted (l : list N) : pystr :=
  match l with
  | [] => []
  | [c] => [39; c; 39]%N
  | c :: l => [39; c; 39; 44; 32]%N ++ quoted l
  end.
Definition key_text (l : list N) : pystr := [91%N] ++ quoted l ++ [93%N].

(** a history of assignments; every exception is caught *)
Fixpoint protect_run (h : holder) (vs : list pyval) (s : elem * rnd) : elem * rnd :=
  match vs with [] => s | v :: vs => protect_run h vs (protect h v s).1 end.
(** the samples drawn, in order *)
Fixpoint draws (n : nat) (r : rnd) : list (list N) :=
  match n with 0 => [] | S n => let '(l, r) := sample FNCHARS 12 r in l :: draws n r end.
Definition trues (vs : list pyval) : nat := length (filter (fun v => truth v = true) vs).
End spec.
