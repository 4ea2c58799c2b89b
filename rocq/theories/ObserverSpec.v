(** Who is subscribed after a history. *)
From Verif Require Export Observer.

Inductive oop := OSub (e : pystr) (x : lid) | OUnsub (e : pystr) (x : lid) | OFree (x : lid).
Section spec.
Context (handler : pystr -> lid -> option (res unit)).
Definition o_do (s : observers) (o : oop) : observers :=
  match o with OSub e x => (subscribe handler e x s).1 | OUnsub e x => (unsubscribe e x s).1 | OFree x => forget x s end.
Definition o_run (os : list oop) : observers := foldl o_do ∅ os.
(** subscribed, able to listen, and since then neither unsubscribed nor freed *)
Definition subscribed (os : list oop) (e : pystr) (x : lid) : Prop :=
  exists os1 os2, os = os1 ++ OSub e x :: os2 /\ handler e x <> None /\ OUnsub e x ∉ os2 /\ OFree x ∉ os2.
(** the event was subscribed to by anybody able to listen *)
Definition known (os : list oop) (e : pystr) : Prop := exists x, OSub e x ∈ os /\ handler e x <> None.
End spec.
