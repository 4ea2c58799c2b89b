(** Named children. *)
From Verif Require Export Styles WrapperSpec.

Definition name_of (w : node) (y : N) : option pystr := data y w ≫= (fun d => attrs d !! "style:name"%string).
Definition is_page_layout (w : node) (y : N) : Prop := tag <$> data y w = Some "style:page-layout"%string.

(** [y] is the first child of [x] with the name [n]; there is none. *)
Definition first_named (w : node) (x : N) (n : option pystr) (y : N) : Prop :=
  exists l l', children x w = l ++ y :: l' /\ name_of w y = n /\ Forall (fun z => name_of w z <> n) l.
Definition unnamed (w : node) (x : N) (n : option pystr) : Prop := Forall (fun z => name_of w z <> n) (children x w).
(** what looking up [n] must give *)
Definition finds (w : node) (x : N) (n : option pystr) (r : res N) : Prop :=
  (exists y, first_named w x n y /\ ((~ is_page_layout w y /\ r = Ok y) \/ (is_page_layout w y /\ r = Err TypeError))) \/
  (unnamed w x n /\ r = Err KeyError).

(** ** Histories *)
Inductive sop := SGet (n : option pystr) | SSet (n : option pystr) (c : N).
Definition s_do (x : N) (o : sop) (s : cst) : cst :=
  match o with SGet n => (s_get x n s).1 | SSet n c => (s_set x n c s).1 end.
Definition s_run (x : N) (os : list sop) (s : cst) : cst := foldl (fun s o => s_do x o s) s os.
(** the styles assigned, with their names *)
Definition sets (os : list sop) : list (option pystr * N) := omap (fun o => match o with SGet _ => None | SSet n c => Some (n, c) end) os.
(** the first style assigned under a name *)
Fixpoint first_set (n : option pystr) (l : list (option pystr * N)) : option N :=
  match l with [] => None | (m, c) :: r => if decide (m = n) then Some c else first_set n r end.
(** A style [c] that can be assigned under the name [n]: an element that has this name, and is
    neither the container, nor above it, nor in it. *)
Definition storable (w : node) (x : N) (n : option pystr) (c : N) : Prop :=
  element c w /\ name_of w c = n /\ ~ upwards w c x /\ c ∉ children x w.
