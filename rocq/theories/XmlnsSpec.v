(** Names with prefixes and their expansion. *)
From Verif Require Export Xmlns.

(** A name [p:l] in prefix notation. *)
Definition prefixed (p l tag : pystr) : Prop :=
  tag = p ++ lit ":" ++ l /\ 58%N ∉ p /\ 58%N ∉ l /\ head tag <> Some 123%N.
(** The expanded name. *)
Definition clark (u l : pystr) : pystr := lit "{" ++ u ++ lit "}" ++ l.

(** Histories of registrations and conversions. *)
Inductive nsop := NReg (p u : pystr) | NUpd (l : list (pystr * pystr)) | NCn (tag : pystr).
Definition ns_do (r : nsreg) (o : nsop) : nsreg :=
  match o with NReg p u => register_namespace p u r | NUpd l => ns_update l r | NCn t => (cn t r).1 end.
Definition ns_run (os : list nsop) (r : nsreg) : nsreg := foldl ns_do r os.
(** The pairs registered by a history, in order. *)
Definition registrations (os : list nsop) : list (pystr * pystr) :=
  flat_map (fun o => match o with NReg p u => [(p, u)] | NUpd l => l | NCn _ => [] end) os.
(** [u] is the last uri registered for [p]. *)
Definition bound (l : list (pystr * pystr)) (p u : pystr) : Prop :=
  exists l1 l2, l = l1 ++ (p, u) :: l2 /\ forall u', (p, u') ∉ l2.
