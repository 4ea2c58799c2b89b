(** What may change when an attribute is written. *)
From Verif Require Export Attrs.

(** Everything but the attributes [ks] is the same. *)
Definition only_attrs (ks : list string) (e e' : elem) : Prop :=
  e_tag e' = e_tag e /\ e_text e' = e_text e /\ e_tail e' = e_tail e /\ kids e' = kids e /\
  forall k, k ∉ ks -> e_get k e' = e_get k e.

(** ** Histories of writes of all properties *)
Section spec.
Context `{U : Unicode} `{F : PyFloat}.
Inductive aop :=
  | AStr (n : string) (s : pystr) | ABool (n : string) (b : bool) | AFloat (n : string) (f : pfloat)
  | AInt (n : string) (z : Z) | ALimit (n : string) (lim z : Z) | ADel (n : string).
Definition aop_name (o : aop) : string :=
  match o with AStr n _ | ABool n _ | AFloat n _ | AInt n _ | ALimit n _ _ | ADel n => n end.
Definition aop_do (o : aop) : act elem unit :=
  match o with
  | AStr n s => str_set n (VStr s) | ABool n b => bool_set n (VBool b) | AFloat n f => num_set n (VFloat f)
  | AInt n z => num_set n (VInt z) | ALimit n lim z => limit_set n lim (Ok z) | ADel n => attr_del n
  end.
Definition aop_run (os : list aop) (e : elem) : elem := foldl (fun e o => (aop_do o e).1) e os.
(** what reading the property gives after the write *)
Definition reads (o : aop) (e : elem) : Prop :=
  match o with
  | AStr n s => str_get n e = Some s
  | ABool n b => bool_get n e = b
  | AFloat n f => float_get n e = Ok (Some f)
  | AInt n z => int_get n e = Ok (Some z)
  | ALimit n lim z => limit_get n lim e = Ok (Z.max lim z)
  | ADel n => str_get n e = None /\ bool_get n e = false /\ float_get n e = Ok None /\ int_get n e = Ok None /\
              forall lim, limit_get n lim e = Ok lim
  end.
End spec.
