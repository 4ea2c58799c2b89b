(** The list of pages of a body. *)
From Verif Require Export Pages WrapperSpec.

Definition tagged (t : string) (w : node) (c : N) : Prop := tag <$> data c w = Some t.
Global Instance tagged_dec t w c : Decision (tagged t w c).
Proof. unfold tagged. apply _. Defined.
(** the pages, in the order of the file, and their names *)
Definition pages (p : container) (w : node) : list N := filter (tagged (childtag p) w) (children (pc_body p) w).
Definition name_of (p : container) (w : node) (c : N) : option pystr := data c w ≫= fun d => attrs d !! nametag p.
(** the other children of the body *)
Definition others (p : container) (w : node) : list N := filter (fun c => ~ tagged (childtag p) w c) (children (pc_body p) w).

(** A page that may be put into the body. *)
Definition page (p : container) (w : node) (c : N) : Prop :=
  element c w /\ tagged (childtag p) w c /\ ~ upwards w c (pc_body p).
(** its object *)
Definition obj_of (p : container) (c : N) : wobj := WObj c (Some (childtag p)).

(** ** A list of pages with names *)
Fixpoint first_named (nm : N -> option pystr) (s : pystr) (l : list N) : option N :=
  match l with
  | [] => None
  | c :: r => if decide (nm c = Some s) then Some c else first_named nm s r
  end.
Definition find_page (nm : N -> option pystr) (k : pkey) (l : list N) : res N :=
  match k with
  | KInt i => match at_pos i l with Some c => Ok c | None => Err IndexError end
  | KStr s => match first_named nm s l with Some c => Ok c | None => Err KeyError end
  | KOther => Err TypeError
  end.
(** every page is in the list once, so a page that is put somewhere leaves its old place *)
Definition put_page (old c : N) (l : list N) : list N :=
  if decide (old = c) then l else instead old c (without c l).

Inductive pop := PGet (k : pkey) | PSet (k : pkey) (c : N) | PDel (k : pkey) | PAppend (c : N).
(** result of an operation: the page, or nothing *)
Definition list_op (nm : N -> option pystr) (o : pop) (l : list N) : list N * res (option N) :=
  match o with
  | PGet k => (l, do c <- find_page nm k l; Ok (Some c))
  | PSet k c => match find_page nm k l with
                | Ok old => (put_page old c l, Ok None)
                | Err e => (l, Err e)
                end
  | PDel k => match find_page nm k l with
              | Ok old => (without old l, Ok None)
              | Err e => (l, Err e)
              end
  | PAppend c => (without c l ++ [c], Ok (Some c))
  end.
Definition pc_op (p : container) (o : pop) : act node (option N) :=
  match o with
  | PGet k => let! c := pc_get p k in aret (Some c)
  | PSet k c => let! _ := pc_set p k (obj_of p c) in aret None
  | PDel k => let! _ := pc_del p k in aret None
  | PAppend c => let! x := pc_append p (obj_of p c) in aret (Some x)
  end.
Definition pop_page (o : pop) : list N := match o with PSet _ c | PAppend c => [c] | _ => [] end.

(** all results of a history, exceptions are caught *)
Fixpoint list_run (nm : N -> option pystr) (os : list pop) (l : list N) : list N * list (res (option N)) :=
  match os with
  | [] => (l, [])
  | o :: os => let '(l1, r) := list_op nm o l in let '(l2, rs) := list_run nm os l1 in (l2, r :: rs)
  end.
Fixpoint pc_run (p : container) (os : list pop) (w : node) : node * list (res (option N)) :=
  match os with
  | [] => (w, [])
  | o :: os => let '(w1, r) := pc_op p o w in let '(w2, rs) := pc_run p os w1 in (w2, r :: rs)
  end.
