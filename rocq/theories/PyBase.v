(** Python base layer: strings, integers, exceptions, list indexing.
    Nothing here belongs to /repo; these are the Python 3 / lxml primitives the
    modelled functions call.  Each definition names the primitive it stands for. *)
From Coq Require Export ZArith NArith Lia.
From stdpp Require Export prelude gmap strings numbers list.

Set Default Proof Using "Type".
Global Unset Asymmetric Patterns.

(** Proofs of concrete cases by computation. *)
Ltac by_vm := lazymatch goal with |- @eq ?T _ ?b => vm_cast_no_check (@eq_refl T b) end.
Ltac dec_vm := apply (bool_decide_unpack _); vm_cast_no_check I.
Lemma pair_by {A B} (p : A * B) (b : B) : p.2 = b -> p = (p.1, b).
Proof. destruct p. by intros <-. Qed.
Lemma ne_by {A} (a b c : A) : a = c -> c <> b -> a <> b.
Proof. congruence. Qed.

(** Python [str]: a sequence of code points. *)
Notation pystr := (list N).

(** String literal of the source, as code points (ASCII literals only). *)
Fixpoint lit (s : string) : pystr :=
  match s with
  | EmptyString => []
  | String a r => Ascii.N_of_ascii a :: lit r
  end.

(** Exceptions that the modelled code can raise. *)
Inductive exn :=
  | ValueError | TypeError | KeyError | IndexError | NameError
  | AttributeError | IOError | AssertionError | InvalidFiletypeError | OverflowError.
Global Instance exn_eq_dec : EqDecision exn.
Proof. solve_decision. Defined.

(** Result of a Python call. *)
Inductive res (A : Type) := Ok (a : A) | Err (e : exn).
Global Arguments Ok {A} a.
Global Arguments Err {A} e.
Global Instance res_eq_dec {A} `{EqDecision A} : EqDecision (res A).
Proof. solve_decision. Defined.

Definition rbind {A B} (m : res A) (f : A -> res B) : res B :=
  match m with Ok a => f a | Err e => Err e end.
Notation "'do' x <- m ; k" := (rbind m (fun x => k))
  (at level 200, x pattern, m at level 100, k at level 200, right associativity).

(** [map f l] where every call may raise; stops at the first exception. *)
Section rmap.
Context {A B : Type} (f : A -> res B).
Fixpoint rmap (l : list A) : res (list B) :=
  match l with
  | [] => Ok []
  | x :: r => do y <- f x; do ys <- rmap r; Ok (y :: ys)
  end.
End rmap.

(** A call that may mutate a state and may raise: the state after the exception
    stays visible. *)
Definition act (S A : Type) := S -> S * res A.
Definition aret {S A} (a : A) : act S A := fun s => (s, Ok a).
Definition araise {S A} (e : exn) : act S A := fun s => (s, Err e).
Definition abind {S A B} (m : act S A) (f : A -> act S B) : act S B :=
  fun s => match m s with (s', Ok a) => f a s' | (s', Err e) => (s', Err e) end.
Notation "'let!' x := m 'in' k" := (abind m (fun x => k))
  (at level 200, x pattern, m at level 100, k at level 200, right associativity).
(** [for _ in range(n): body]. *)
Fixpoint arepeat {S} (n : nat) (body : act S unit) : act S unit :=
  match n with
  | O => aret tt
  | Datatypes.S k => abind body (fun _ => arepeat k body)
  end.
(** [for x in l: body x]. *)
Fixpoint aiter {S A} (l : list A) (body : A -> act S unit) : act S unit :=
  match l with
  | [] => aret tt
  | x :: r => abind (body x) (fun _ => aiter r body)
  end.

(** ** Indexing *)

(** Python sequence indexing [l[i]]: negative indices count from the end. *)
Definition py_index (n : nat) (i : Z) : option nat :=
  if decide (0 <= i < Z.of_nat n)%Z then Some (Z.to_nat i)
  else if decide (- Z.of_nat n <= i < 0)%Z then Some (Z.to_nat (Z.of_nat n + i))
  else None.

(** [l[i]] *)
Definition py_get {A} (l : list A) (i : Z) : res A :=
  match py_index (length l) i with
  | Some k => match l !! k with Some x => Ok x | None => Err IndexError end
  | None => Err IndexError
  end.

(** Position used by [list.insert(i, x)]: clamped on both sides. *)
Definition py_insert_pos (n : nat) (i : Z) : nat :=
  if decide (i < 0)%Z then Z.to_nat (Z.of_nat n + i) else Nat.min n (Z.to_nat i).
Definition insert_at {A} (k : nat) (x : A) (l : list A) : list A :=
  take k l ++ x :: drop k l.
Definition delete_at {A} (k : nat) (l : list A) : list A :=
  take k l ++ drop (S k) l.

(** lxml [_Element.insert(i, x)]: the child at [i] is looked up like [el[i]]
    (negative from the end); when there is none, on either side, the new child is
    appended. *)
Definition lxml_insert_pos (n : nat) (i : Z) : nat :=
  match py_index n i with Some k => k | None => n end.

(** Python slice [l[:-k]] for [k >= 1]. *)
Definition drop_last {A} (k : nat) (l : list A) : list A := take (length l - k) l.

(** ** Unicode-dependent primitives: parameters with laws on ASCII. *)
Definition ascii_upper (c : N) : N :=
  if decide (97 <= c <= 122)%N then (c - 32)%N else c.
Definition ascii_digit (c : N) : option N :=
  if decide (48 <= c <= 57)%N then Some (c - 48)%N else None.
(** [str.isspace] on ASCII: 9..13, 28..31, 32. *)
Definition ascii_space (c : N) : bool :=
  bool_decide ((9 <= c <= 13) \/ (28 <= c <= 32))%N.

Class Unicode := {
  u_upc : N -> list N;         (* str.upper, full mapping of one character *)
  u_digit : N -> option N;     (* decimal digit value: regex \d and int() *)
  u_space : N -> bool;         (* str.isspace: strip() and int() *)
  u_upc_ascii : forall c, (c < 128)%N -> u_upc c = [ascii_upper c];
  u_digit_ascii : forall c, (c < 128)%N -> u_digit c = ascii_digit c;
  u_digit_lt : forall c d, u_digit c = Some d -> (d < 10)%N;
  u_space_ascii : forall c, (c < 128)%N -> u_space c = ascii_space c;
  u_digit_space : forall c d, u_digit c = Some d -> u_space c = false
}.

(** The laws are satisfiable: the pure ASCII instance. *)
Program Definition ascii_unicode : Unicode := {|
  u_upc := fun c => [ascii_upper c];
  u_digit := ascii_digit;
  u_space := ascii_space
|}.
Next Obligation. done. Qed.
Next Obligation. done. Qed.
Next Obligation. intros c d. unfold ascii_digit. case_decide; intros [= <-]. lia. Qed.
Next Obligation. done. Qed.
Next Obligation.
  intros c d. unfold ascii_digit, ascii_space. case_decide; intros [= <-].
  apply bool_decide_eq_false_2. lia.
Qed.

Section unicode.
Context `{U : Unicode}.

(** [str.upper()] *)
Definition py_upper (s : pystr) : pystr := flat_map u_upc s.

(** [str.strip()] *)
Fixpoint lstrip (s : pystr) : pystr :=
  match s with
  | [] => []
  | c :: r => if u_space c then lstrip r else s
  end.
Definition py_strip (s : pystr) : pystr := reverse (lstrip (reverse (lstrip s))).

(** digits of an [int()] literal, single underscores allowed between digits;
    [us] says that a digit must follow. *)
Fixpoint int_digits (acc : N) (us : bool) (s : pystr) : option N :=
  match s with
  | [] => if us then None else Some acc
  | c :: r =>
      if decide (c = 95%N) then (if us then None else int_digits acc true r)
      else match u_digit c with
           | Some d => int_digits (10 * acc + d)%N false r
           | None => None
           end
  end.

(** [int(s)] for a string; the 4300 digit limit of newer CPythons is not modelled. *)
Definition py_int (s : pystr) : res Z :=
  let s := py_strip s in
  let r := match s with
           | c :: s' =>
               if decide (c = 45%N) then option_map (fun n => (- Z.of_N n)%Z) (int_digits 0 true s')
               else if decide (c = 43%N) then option_map Z.of_N (int_digits 0 true s')
               else option_map Z.of_N (int_digits 0 true s)
           | [] => None
           end in
  match r with Some z => Ok z | None => Err ValueError end.

End unicode.

(** [str(n)] for an integer: decimal digits, most significant first. *)
Fixpoint digits_fuel (fuel : nat) (n : N) : list N :=
  match fuel with
  | O => []
  | S f => if decide (n < 10)%N then [n] else digits_fuel f (n / 10)%N ++ [(n mod 10)%N]
  end.
Definition show_N (n : N) : pystr :=
  map (fun d => (48 + d)%N) (digits_fuel (S (N.size_nat n)) n).
Definition show_Z (z : Z) : pystr :=
  if decide (z < 0)%Z then 45%N :: show_N (Z.to_N (- z)) else show_N (Z.to_N z).

(** [sep.join(l)] *)
Fixpoint py_join (sep : pystr) (l : list pystr) : pystr :=
  match l with
  | [] => []
  | [x] => x
  | x :: r => x ++ sep ++ py_join sep r
  end.

(** [s.replace(a, b)] for single characters. *)
Definition replace_char (a b : N) (s : pystr) : pystr :=
  map (fun c => if decide (c = a) then b else c) s.

(** ' ' * n *)
Definition blanks (n : Z) : pystr := replicate (Z.to_nat n) 32%N.
