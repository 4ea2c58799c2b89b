(** What programs can do with wrappers. *)
From Verif Require Export WrapCache.

(** Nothing refers to the object. *)
Definition garbage (m : mem) (a : addr) : Prop :=
  a ∉ held m /\ (forall x, wcache m !! x <> Some a) /\ (forall w c, heap m !! w <> Some (Wrap a c)).

Section spec.
Context (reg : registry) (tag_of : nat -> string) (adds_itself : string -> bool).

(** One step of a program or of the memory management; new objects are put at any address
    that is not in use, addresses of collected objects are used again. *)
Inductive wstep :=
  | SElem (n : nat)            (* the program looks at a node *)
  | SNew (x : addr)            (* xmlns.wrap *)
  | SMake (x : addr) (c : string) (add : bool) (* constructing a wrapper of any class *)
  | SWrap (x : addr)           (* wrapcache.wrap *)
  | SAdd (w : addr) | SRemove (w : addr) | SClear
  | SDrop (a : addr)           (* the program forgets an object *)
  | SCollect (a : addr).       (* the object is freed *)
Inductive steps_to (m : mem) : wstep -> mem -> Prop :=
  | to_elem n a : heap m !! a = None -> steps_to m (SElem n) (get_elem n a m).1
  | to_new x a : x ∈ held m -> heap m !! a = None -> steps_to m (SNew x) (new_wrapper reg tag_of adds_itself x a m).1
  | to_make x n c (add : bool) a : x ∈ held m -> heap m !! x = Some (Elem n) -> heap m !! a = None ->
      steps_to m (SMake x c add)
        (Mem (<[a := Wrap x c]> (heap m)) ({[a]} ∪ held m) (if add then <[x := a]> (wcache m) else wcache m))
  | to_wrap x a : x ∈ held m -> heap m !! a = None -> steps_to m (SWrap x) (wc_wrap reg tag_of adds_itself x a m).1
  | to_add w : w ∈ held m -> steps_to m (SAdd w) (wc_add w m).1
  | to_remove w : w ∈ held m -> steps_to m (SRemove w) (wc_remove w m).1
  | to_clear : steps_to m SClear (wc_clear m)
  | to_drop a : steps_to m (SDrop a) (Mem (heap m) (held m ∖ {[a]}) (wcache m))
  | to_collect a : garbage m a -> steps_to m (SCollect a) (Mem (delete a (heap m)) (held m) (wcache m)).
Inductive wrun (m : mem) : list wstep -> mem -> Prop :=
  | run_nil : wrun m [] m
  | run_snoc l s m1 m2 : wrun m l m1 -> steps_to m1 s m2 -> wrun m (l ++ [s]) m2.
(** steps that may replace or forget cached wrappers *)
Definition rebinds (s : wstep) : bool :=
  match s with SAdd _ | SRemove _ | SClear | SMake _ _ true => true | SNew _ => true | _ => false end.
End spec.
