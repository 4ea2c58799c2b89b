(** Python floats: a parameter with laws.  Nothing here belongs to /repo. *)
From Verif Require Export PyBase PyBaseFacts.

(** [float] values, [str(f)], [float(s)] for a string, and [bool(f)].  Values are taken up
    to what [repr] shows (all NaNs are one value). *)
Class PyFloat := {
  pfloat : Type;
  f_repr : pfloat -> pystr;
  f_parse : pystr -> option pfloat;
  f_truth : pfloat -> bool;
  f_repr_ne : forall f, f_repr f <> [];
  f_parse_repr : forall f, f_parse (f_repr f) = Some f;
  f_parse_int : forall z, is_Some (f_parse (show_Z z));
  f_parse_True : f_parse (lit "True") = None;
  f_parse_empty : f_parse [] = None
}.

(** The laws are satisfiable: integers as floats. *)
Program Definition int_float : PyFloat := {|
  pfloat := Z;
  f_repr := show_Z;
  f_parse s := match py_int (U := ascii_unicode) s with Ok z => Some z | Err _ => None end;
  f_truth z := bool_decide (z <> 0%Z)
|}.
Next Obligation. intros z E. pose proof (py_int_show_Z (U := ascii_unicode) z) as H. rewrite E in H. vm_compute in H. done. Qed.
Next Obligation. intros z. cbn. by rewrite py_int_show_Z. Qed.
Next Obligation. intros z. cbn. rewrite py_int_show_Z. by eexists. Qed.
Next Obligation. vm_compute. done. Qed.
Next Obligation. vm_compute. done. Qed.
