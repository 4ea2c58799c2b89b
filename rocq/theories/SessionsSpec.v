(** What is left of the meta data and of the body after some sessions. *)
From Verif Require Export Sessions TextDocSpec.

Section spec.
Context `{U : Unicode}.
(** all that happens to the meta data in a session *)
Definition all_ops (x : sitting) : list mop := sn_meta x ++ [MTouch (sn_now x) (sn_gen x); MInc].
(** an empty text is not there any more after saving *)
Definition kept (v : option pystr) : option pystr := if decide (v = Some []) then None else v.
Definition kept_user (u : usertag) : usertag := (u.1.1, kept u.1.2, u.2).
(** what is read after the sessions, for what was read before *)
Definition field_life (key : string) (xs : list sitting) (v : option (option pystr)) : option (option pystr) :=
  foldl (fun v x => kept <$> foldl (entry_after key) v (all_ops x)) v xs.
Definition words_life (xs : list sitting) (l : list (option pystr)) : list (option pystr) :=
  foldl (fun l x => map kept (foldl words_after l (sn_meta x))) l xs.
Definition users_life (xs : list sitting) (l : list usertag) : list usertag :=
  foldl (fun l x => map kept_user (foldl users_after l (sn_meta x))) l xs.
Definition stat_life (key : string) (xs : list sitting) (v : option pystr) : option pystr :=
  foldl (fun v x => foldl (stat_after key) v (sn_meta x)) v xs.
(** the body *)
Inductive body_life : list sitting -> elem -> elem -> Prop :=
  | bl_nil y : body_life [] y y
  | bl_cons x xs y l y' : edits (sn_body x) (kids y) l ->
      body_life xs (parsed (T (body_node (sn_body x) (root y)) (l ++ missing l))) y' -> body_life (x :: xs) y y'.
(** the sessions leave the counter of saves alone *)
Definition leaves_cycles (o : mop) : Prop := match o with MSet k _ => k <> "editing-cycles"%string | MClear | MInc => False | _ => True end.

Context `{B : Bytes}.
(** Sessions in a row.  Between a save and the next opendoc anything may happen, but the saved
    file is as it was left, and the machine can read it. *)
Inductive life (c : clock) (t : string) : list sitting -> doc -> FileManager.st -> doc -> FileManager.st -> Prop :=
  | life_nil D s : life c t [] D s D s
  | life_cons x xs D s D1 s1 s2 D3 s3 D4 s4 :
      work t x D s = (s1, Done (Ok D1)) ->
      files (mach s2) !! sn_file x = files (mach s1) !! sn_file x -> no_failure s2 -> 10 <= length (env (mach s2)) ->
      opendoc c (FromFile (sn_file x)) s2 = (s3, Done (Ok D3)) ->
      life c t xs D3 s3 D4 s4 -> life c t (x :: xs) D s D4 s4.
End spec.

(** nothing empty is written *)
Definition writes_text (o : mop) : Prop :=
  match o with
  | MSet _ (TStr s) => s <> [] | MTouch now gen => now <> [] /\ gen <> []
  | KAdd (Some s) => s <> [] | USet _ v _ => v <> []
  | _ => True
  end.
(** the blocks of a session *)
Definition appends `{U : Unicode} (x : sitting) (bs : list chunk) : Prop := sn_body x = map BAppend (map make_chunk bs).
