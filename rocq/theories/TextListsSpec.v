(** Vocabulary for lists. *)
From Verif Require Export TextLists WrapperSpec.

(** the children of [x] with this tag, in order *)
Definition tagged (t : string) (w : node) (l : list N) : list N := filter (fun c => tag <$> data c w = Some t) l.
Definition headers (x : N) (w : node) : list N := tagged "text:list-header" w (children x w).
Definition items (x : N) (w : node) : list N := tagged "text:list-item" w (children x w).

(** [h] is the first child of [x], the header that was the first one is none any more; nothing
    else has changed anywhere, except that [h] left its parent. *)
Definition header_placed (x h : N) (w w' : node) : Prop :=
  wfs w' /\ (forall y, element y w' <-> element y w) /\
  children x w' = h :: without h (match head (headers x w) with Some old => without old (children x w) | None => children x w end) /\
  (forall y, element y w -> y <> x -> children y w' = without h (children y w)) /\
  (forall y, element y w -> data y w' = data y w).

(** ** Histories: headers are assigned, items appended and removed *)
Inductive list_op := LHeader (h : N) | LAppend (c : N) | LRemove (c : N).
Definition do_list_op (x : N) (o : list_op) : act node unit :=
  match o with
  | LHeader h => set_header x (Wr "ListHeader" h)
  | LAppend c => quiet (wr_append x c)
  | LRemove c => wr_remove x c
  end.
Definition run_list_ops (x : N) (l : list list_op) (w : node) : node := foldl (fun w o => (do_list_op x o w).1) w l.
(** headers are list headers and items are list items, and none contains [x] *)
Definition list_op_ok (x : N) (w : node) (o : list_op) : Prop :=
  match o with
  | LHeader h => element h w /\ tag <$> data h w = Some "text:list-header"%string /\ ~ upwards w h x
  | LAppend c | LRemove c => element c w /\ tag <$> data c w = Some "text:list-item"%string /\ ~ upwards w c x
  end.
(** the header assigned last *)
Fixpoint last_header (l : list list_op) (d : option N) : option N :=
  match l with [] => d | LHeader h :: r => last_header r (Some h) | _ :: r => last_header r d end.
(** the items as a Python list: an appended item that is there already moves to the end *)
Definition items_after (o : list_op) (l : list N) : list N :=
  match o with LHeader _ => l | LAppend c => without c l ++ [c] | LRemove c => without c l end.

(** the attribute written for a constructor argument: none for the empty string *)
Definition given (s : pystr) : option pystr := match s with [] => None | _ => Some s end.
