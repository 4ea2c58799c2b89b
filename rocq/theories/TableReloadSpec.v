(** Vocabulary for tables that are written and read again. *)
From Verif Require Export TableSpec.

Section reload.
Context `{U : Unicode}.

(** a cell that stands for itself only *)
Definition single (e : elem) : Prop := no_repeat "table:number-columns-repeated" e.
(** Nothing repeated is put into the table. *)
Definition clean (o : op) (s : st) : Prop :=
  match o with
  | OSetNew _ e => single e
  | OSetOld _ x => forall en, sub x (store s) = Some en -> single (erase en)
  | OWrite _ f => forall e, single e -> single (f e)
  | _ => True
  end.
(** Histories of calls with arguments in range that put nothing repeated into the table. *)
Inductive clean_history : st -> nat * nat -> st -> nat * nat -> Prop :=
  | ch_refl s z : clean_history s z s z
  | ch_step s z s1 nr nc o : clean_history s z s1 (nr, nc) -> fits o s1 nr nc -> clean o s1 ->
      clean_history s z (run_op o s1).1 (size_after o (nr, nc)).

(** The table object refers to a table element without repetitions. *)
Definition expanded (s : st) : Prop :=
  exists t, table_node s = Some t /\ ltag t = "table:table" /\ unrepeated (erase t).
(** A store in which every node occurs once, with ids below the next one. *)
Definition ordered (s : st) : Prop := NoDup (ids (store s)) /\ Forall (fun y => y < nxt s)%N (ids (store s)).
End reload.
