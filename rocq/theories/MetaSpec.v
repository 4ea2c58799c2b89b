(** Meta data seen as dictionaries and lists, and the effect of operations on that view. *)
From Verif Require Export Meta.

(** ** What is stored *)
(** text of the field for a key: [None] if there is none *)
Definition field (key : string) (m : elem) : option (option pystr) :=
  match alookup key META_TAGS with Some t => e_text <$> head (findall t m) | None => None end.
Definition words (m : elem) : list (option pystr) := map e_text (findall "meta:keyword" m).
(** name, value, type *)
Definition usertag : Type := option pystr * option pystr * option pystr.
Definition users (m : elem) : list usertag :=
  map (fun k => (e_get "meta:name" k, e_text k, e_get "meta:value-type" k)) (findall "meta:user-defined" m).
Definition stat (key : string) (m : elem) : option pystr :=
  head (findall "meta:document-statistic" m) ≫= e_get ("meta:" ++ key ++ "-count")%string.

(** ** Operations *)
Inductive mop :=
  | MSet (key : string) (v : textval) | MTouch (now gen : pystr) | MInc | MClear
  | KAdd (w : option pystr) | KRemove (w : option pystr) | KClear
  | USet (n v : pystr) (ty : option pystr) | UDel (n : pystr) | UClear
  | SSet (key : string) (v : pystr) | SClear.

Section spec.
Context `{U : Unicode}.
Definition step (o : mop) : act elem unit :=
  match o with
  | MSet k v => meta_set k v
  | MTouch now gen => meta_touch now gen
  | MInc => meta_inc
  | MClear => fun m => (meta_clear m, Ok tt)
  | KAdd w => fun m => (kw_add w m, Ok tt)
  | KRemove w => fun m => (kw_remove w m, Ok tt)
  | KClear => fun m => (kw_clear m, Ok tt)
  | USet n v ty => fun m => (ut_set n v ty m, Ok tt)
  | UDel n => ut_del n
  | UClear => fun m => (ut_clear m, Ok tt)
  | SSet k v => st_set k v
  | SClear => fun m => (st_clear m, Ok tt)
  end.
(** a history: exceptions are caught by the caller *)
Definition play (ops : list mop) (m : elem) : elem := foldl (fun m o => (step o m).1) m ops.
(** the same on the document *)
Definition play_doc (ops : list mop) (r : elem) : elem := foldl (fun r o => (on_meta (step o) r).1) r ops.

(** ** Effect on a field *)
Definition next_cycle (s : pystr) : Z := match py_int s with Ok n => n + 1 | Err _ => 1 end.
Definition entry_after (key : string) (x : option (option pystr)) (o : mop) : option (option pystr) :=
  match o with
  | MSet k v => if decide (k = key) then
                  match v with TStr s => Some (Some s) | TNone => Some None | TOther => Some (default None x) end
                else x
  | MTouch now gen => if decide (key = "date"%string) then Some (Some now)
                      else if decide (key = "generator"%string) then Some (Some gen) else x
  | MInc => if decide (key = "editing-cycles"%string) then
              match x with
              | None => Some (Some (show_Z 1))
              | Some None => Some None
              | Some (Some s) => Some (Some (show_Z (next_cycle s)))
              end
            else x
  | MClear => None
  | _ => x
  end.
End spec.

(** ** Effect on the keywords *)
Fixpoint without_first {A} `{EqDecision A} (x : A) (l : list A) : list A :=
  match l with [] => [] | y :: r => if decide (y = x) then r else y :: without_first x r end.
Definition words_after (l : list (option pystr)) (o : mop) : list (option pystr) :=
  match o with
  | KAdd w => if decide (w ∈ l) then l else l ++ [w]
  | KRemove w => without_first w l
  | KClear | MClear => []
  | _ => l
  end.
(** added after the last removal *)
Definition word_in_after (w : option pystr) (b : bool) (o : mop) : bool :=
  match o with
  | KAdd w' => if decide (w' = w) then true else b
  | KRemove w' => if decide (w' = w) then false else b
  | KClear | MClear => false
  | _ => b
  end.

(** ** Effect on the user tags *)
Definition named (n : pystr) (t : usertag) : Prop := t.1.1 = Some n.
Global Instance named_dec n t : Decision (named n t).
Proof. unfold named. apply _. Defined.
Fixpoint set_user (n v : pystr) (ty : option pystr) (l : list usertag) : list usertag :=
  match l with
  | [] => [(Some n, Some v, ty)]
  | t :: r => if decide (named n t) then (Some n, Some v, match ty with Some _ => ty | None => t.2 end) :: r
              else t :: set_user n v ty r
  end.
Fixpoint del_user (n : pystr) (l : list usertag) : list usertag :=
  match l with [] => [] | t :: r => if decide (named n t) then r else t :: del_user n r end.
Definition users_after (l : list usertag) (o : mop) : list usertag :=
  match o with
  | USet n v ty => set_user n v ty l
  | UDel n => del_user n l
  | UClear | MClear => []
  | _ => l
  end.
(** value and type of one name *)
Definition user_after (n : pystr) (x : option (option pystr * option pystr)) (o : mop) : option (option pystr * option pystr) :=
  match o with
  | USet n' v ty => if decide (n' = n) then Some (Some v, match ty with Some _ => ty | None => x ≫= snd end) else x
  | UDel n' => if decide (n' = n) then None else x
  | UClear | MClear => None
  | _ => x
  end.
Definition user (n : pystr) (m : elem) : option (option pystr * option pystr) :=
  (fun t : usertag => (t.1.2, t.2)) <$> head (filter (named n) (users m)).

(** ** Effect on a statistic *)
Definition stat_after (key : string) (x : option pystr) (o : mop) : option pystr :=
  match o with
  | SSet k v => if decide (k = key) then Some v else x
  | SClear | MClear => None
  | _ => x
  end.

(** the element of a document holding the meta data *)
Definition meta_of (r : elem) : option elem := head (findall "office:meta" r).
(** everything that can be read *)
Definition same_data (m m' : elem) : Prop :=
  (forall key, field key m' = field key m) /\ words m' = words m /\ users m' = users m /\ (forall key, stat key m' = stat key m).
(** new meta data *)
Definition new_data (now0 now gen : pystr) (m : elem) : Prop :=
  field "creation-date" m = Some (Some now0) /\ field "date" m = Some (Some now) /\ field "generator" m = Some (Some gen) /\
  (forall key, key <> "creation-date"%string -> key <> "date"%string -> key <> "generator"%string -> field key m = None) /\
  words m = [] /\ users m = [] /\ (forall key, stat key m = None).
