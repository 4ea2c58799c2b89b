(** Model of observer.py. *)
From Verif Require Export PyBase.

(** Listener objects are named by numbers that are never used again (WeakSet compares by
    identity); roots likewise. *)
Notation lid := nat.
Notation rid := nat.
(** observer.py:48-49 _listeners: event -> WeakSet *)
Notation observers := (gmap pystr (gset lid)).

Section observer.
(** getattr(listener, 'on_<event>_handler'), if it has one: what calling it gives *)
Context (handler : pystr -> lid -> option (res unit)).
(** listener.get_xmlroot(); None when that raises AttributeError *)
Context (get_xmlroot : lid -> option rid).
(** the order in which a WeakSet is iterated *)
Context (order : gset lid -> list lid).

(** observer.py:51-60 subscribe *)
Definition subscribe (e : pystr) (x : lid) : act observers unit := fun s =>
  match handler e x with
  | None => (s, Err AttributeError)
  | Some _ =>
      let l := match s !! e with Some l => l | None => ∅ end in
      (<[e := {[x]} ∪ l]> s, Ok tt)
  end.
(** observer.py:62-66 unsubscribe *)
Definition unsubscribe (e : pystr) (x : lid) : act observers unit := fun s =>
  match s !! e with
  | None => (s, Err KeyError)
  | Some l => if decide (x ∈ l) then (<[e := l ∖ {[x]}]> s, Ok tt) else (s, Err KeyError)
  end.
(** a listener is freed: WeakSet forgets it *)
Definition forget (x : lid) (s : observers) : observers := (fun l => l ∖ {[x]}) <$> s.

(** observer.py:80-82 send_to_all; the state is the list of handler calls *)
Definition send_to_all (e : pystr) (x : lid) : act (list lid) unit := fun calls =>
  match handler e x with
  | None => (calls, Err AttributeError)
  | Some r => (calls ++ [x], r)
  end.
(** observer.py:84-92 send_to_root *)
Definition send_to_root (e : pystr) (root : rid) (x : lid) : act (list lid) unit := fun calls =>
  match get_xmlroot x with
  | None => (calls, Ok tt)
  | Some r => if decide (r = root) then send_to_all e x calls else (calls, Ok tt)
  end.
(** observer.py:68-103 broadcast; the root comes with its truth value (an element without
    children is false); handlers do not change the subscriptions *)
Definition broadcast (e : pystr) (root : option (rid * bool)) (s : observers) : list lid * res unit :=
  match s !! e with
  | None => ([], Ok tt)
  | Some l =>
      let send := match root with Some (r, true) => send_to_root e r | _ => send_to_all e end in
      aiter (order l) send []
  end.
(** observer.py:105-114 _count_listeners, _has_listener *)
Definition count_listeners (e : pystr) (s : observers) : nat := match s !! e with Some l => size l | None => 0 end.
Definition has_listener (e : pystr) (s : observers) : bool := bool_decide (0 < count_listeners e s).
End observer.
