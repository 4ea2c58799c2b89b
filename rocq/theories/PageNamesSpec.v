(** A list of pages whose names can be changed. *)
From Verif Require Export PageNames PagesSpec.

Section spec.
Context `{U : Unicode}.
Inductive nop := NList (o : pop) | NName (c : N) (s : pystr).
Definition nop_page (o : nop) : list N := match o with NList o => pop_page o | NName c _ => [c] end.

(** ** The list: pages in order, and a name for every page *)
Definition named_op (clean : pystr -> pystr) (o : nop) (s : list N * (N -> option pystr)) :
    (list N * (N -> option pystr)) * res (option N) :=
  let '(l, nm) := s in
  match o with
  | NList o => let '(l, r) := list_op nm o l in ((l, nm), r)
  | NName c n => match clean n with
                 | [] => ((l, nm), Err ValueError)
                 | n => ((l, fun d => if decide (d = c) then Some n else nm d), Ok None)
                 end
  end.
Fixpoint named_run (clean : pystr -> pystr) (os : list nop) (s : list N * (N -> option pystr)) :
    (list N * (N -> option pystr)) * list (res (option N)) :=
  match os with
  | [] => (s, [])
  | o :: os => let '(s, r) := named_op clean o s in let '(s, rs) := named_run clean os s in (s, r :: rs)
  end.

(** ** The program *)
Definition pn_op (p : container) (o : nop) : act node (option N) :=
  match o with
  | NList o => pc_op p o
  | NName c s => let! _ := pc_rename p c s in aret None
  end.
Fixpoint pn_run (p : container) (os : list nop) (w : node) : node * list (res (option N)) :=
  match os with
  | [] => (w, [])
  | o :: os => let '(w, r) := pn_op p o w in let '(w, rs) := pn_run p os w in (w, r :: rs)
  end.

(** Only the name of [c] has changed. *)
Definition only_name (p : container) (c : N) (n : pystr) (w w' : node) : Prop :=
  wfs w' /\ (forall y, element y w' <-> element y w) /\
  (forall y, children y w' = children y w) /\
  (forall y, y <> c -> data y w' = data y w) /\
  (exists d, data c w = Some d /\ data c w' = Some (nd_set_attrs (<[nametag p := n]> (attrs d)) d)).
End spec.
