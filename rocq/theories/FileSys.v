(** Files, processes that can be stopped, zip archives: the part of Python's [os], [io],
    [zipfile] and [lxml] serialisation that the library uses.  Not part of /repo.

    The file system maps names to contents; names are absolute and normalised, there are
    no directories or links.  A program runs in an environment that decides, at every
    system call, whether the call succeeds, fails, or whether the process is stopped
    there (killed, power loss); while a file is being written it decides what the file
    contains in between. *)
From Verif Require Export Dom.

(** An archive entry: name, stored without compression, data ([None]: cannot be read,
    as with encrypted or damaged entries).  Dates and other attributes are left out. *)
Record entry (B : Type) := Entry { en_name : pystr; en_stored : bool; en_data : option B }.
Global Arguments Entry {B} _ _ _.
Global Arguments en_name {B} _.
Global Arguments en_stored {B} _.
Global Arguments en_data {B} _.

(** What parsing gives for a tree that was written: an empty text leaves no trace in the file
    and is read as None. *)
Definition nonempty_text (s : option pystr) : option pystr := match s with Some [] => None | _ => s end.
Fixpoint parsed (e : elem) : elem :=
  match e with T a ks => T (Nd (tag a) (attrs a) (nonempty_text (text a)) (nonempty_text (tail a))) (map parsed ks) end.
(** Nothing in the tree has an empty text. *)
Inductive solid : elem -> Prop :=
  | solid_T a ks : text a <> Some [] -> tail a <> Some [] -> Forall solid ks -> solid (T a ks).
Lemma solid_parsed e : solid (parsed e).
Proof.
  induction e as [a ks IH] using tree_ind'. cbn [parsed]. constructor; cbn.
  - by destruct (text a) as [[|]|].
  - by destruct (tail a) as [[|]|].
  - by apply Forall_map.
Qed.
Lemma parsed_solid e : solid e -> parsed e = e.
Proof.
  induction e as [a ks IH] using tree_ind'. intros Hs. inversion_clear Hs as [? ? H1 H2 H3]. cbn [parsed]. f_equal.
  - destruct a as [g m x y]. cbn in *. f_equal; [by destruct x as [[|]|]|by destruct y as [[|]|]].
  - induction IH as [|k ks Hk _ IHk]; [done|]. apply Forall_cons in H3 as [K1 K2]. cbn. f_equal; auto.
Qed.

(** Byte strings with the codings that matter: UTF-8 text, XML documents, zip archives. *)
Class Bytes := {
  bytes : Type;
  b_empty : bytes;
  b_null : bytes -> bool;             (* no bytes at all *)
  b_enc : pystr -> bytes;             (* str.encode('utf-8') *)
  b_dec : bytes -> option pystr;      (* bytes.decode('utf-8') *)
  b_xml : bool -> elem -> bytes;      (* etree.tostring(e, encoding='UTF-8', xml_declaration) *)
  b_parse : bytes -> option elem;     (* etree.XML *)
  zip_pack : list (entry bytes) -> bytes;
  zip_unpack : bytes -> option (list (entry bytes));   (* None: not an archive *)
  b_null_empty : b_null b_empty = true;
  b_null_xml : forall d e, b_null (b_xml d e) = false;
  b_dec_enc : forall s, b_dec (b_enc s) = Some s;
  b_parse_xml : forall d e, e_tail e = None -> b_parse (b_xml d e) = Some (parsed e);
  b_parse_tail : forall b e, b_parse b = Some e -> e_tail e = None;
  b_parse_solid : forall b e, b_parse b = Some e -> solid e;
  zip_unpack_pack : forall l, zip_unpack (zip_pack l) = Some l;
  zip_unpack_empty : zip_unpack b_empty = None
}.

(** The laws can be satisfied. *)
Inductive tbytes := BText (s : pystr) | BXml (d : bool) (e : elem) | BZip (l : list (entry tbytes)).
Definition tbytes_null (b : tbytes) : bool := match b with BText [] => true | _ => false end.
Definition tbytes_parse (b : tbytes) : option elem :=
  match b with BXml _ e => match e_tail e with None => Some (parsed e) | Some _ => None end | _ => None end.
Lemma tbytes_parse_xml d e : e_tail e = None -> tbytes_parse (BXml d e) = Some (parsed e).
Proof. intros He. cbn. by rewrite He. Qed.
Lemma tbytes_parse_tail b e : tbytes_parse b = Some e -> e_tail e = None.
Proof. destruct b as [|d [a ks]|]; cbn; [done| |done]. unfold e_tail. cbn. destruct (tail a); [done|]. by intros [= <-]. Qed.
Lemma tbytes_parse_solid b e : tbytes_parse b = Some e -> solid e.
Proof. destruct b as [|d e0|]; cbn; [done| |done]. destruct (e_tail e0); [done|]. intros [= <-]. apply solid_parsed. Qed.
Definition tree_bytes : Bytes := {|
  bytes := tbytes; b_empty := BText []; b_null := tbytes_null; b_enc := BText;
  b_dec b := match b with BText s => Some s | _ => None end;
  b_xml := BXml; b_parse := tbytes_parse;
  zip_pack := BZip; zip_unpack b := match b with BZip l => Some l | _ => None end;
  b_null_empty := eq_refl; b_null_xml _ _ := eq_refl; b_dec_enc _ := eq_refl;
  b_parse_xml := tbytes_parse_xml; b_parse_tail := tbytes_parse_tail; b_parse_solid := tbytes_parse_solid;
  zip_unpack_pack _ := eq_refl; zip_unpack_empty := eq_refl
|}.

(** What the environment does at a point of the execution.  When nothing is left the
    process is stopped. *)
Inductive event {B : Bytes} := Go | Fail | Junk (b : bytes).

(** How a run ends: stopped, or with a result or exception. *)
Inductive out (A : Type) := Stop | Done (r : res A).
Global Arguments Stop {A}.
Global Arguments Done {A} r.

Definition prog (S A : Type) := S -> S * out A.
Definition pret {S A} (a : A) : prog S A := fun s => (s, Done (Ok a)).
Definition praise {S A} (x : exn) : prog S A := fun s => (s, Done (Err x)).
Definition pbind {S A B} (m : prog S A) (f : A -> prog S B) : prog S B :=
  fun s => match m s with
           | (s', Done (Ok a)) => f a s'
           | (s', Done (Err x)) => (s', Done (Err x))
           | (s', Stop) => (s', Stop)
           end.
Notation "'run' x := m 'in' k" := (pbind m (fun x => k))
  (at level 200, x pattern, m at level 100, k at level 200, right associativity).
Fixpoint piter {S A} (l : list A) (body : A -> prog S unit) : prog S unit :=
  match l with [] => pret tt | x :: r => pbind (body x) (fun _ => piter r body) end.
(** [try: m except IOError: h] *)
Definition pcatch {S A} (m : prog S A) (h : exn -> prog S A) : prog S A :=
  fun s => match m s with (s', Done (Err x)) => h x s' | r => r end.

(** The machine: files, what the environment will do, the names [random] will give. *)
Record machine {B : Bytes} := Machine { files : gmap pystr bytes; env : list event; rnd : list pystr }.
Global Arguments machine : clear implicits.

Section sys.
Context `{B : Bytes} {S : Type} (mach : S -> machine B) (upd : machine B -> S -> S).

Definition set_files (f : gmap pystr bytes -> gmap pystr bytes) (s : S) : S :=
  upd (Machine _ (f (files (mach s))) (env (mach s)) (rnd (mach s))) s.
Definition set_env (e : list event) (s : S) : S :=
  upd (Machine _ (files (mach s)) e (rnd (mach s))) s.

(** One system call: [f] says what it does when it is carried out. *)
Definition syscall {A} (f : gmap pystr bytes -> gmap pystr bytes * res A) : prog S A := fun s =>
  match env (mach s) with
  | [] => (s, Stop)
  | Fail :: e => (set_env e s, Done (Err IOError))
  | _ :: e => let '(m, r) := f (files (mach s)) in (set_files (fun _ => m) (set_env e s), Done r)
  end.

(** [os.path.exists] *)
Definition exists_file (p : pystr) : prog S bool := fun s => (s, Done (Ok (bool_decide (is_Some (files (mach s) !! p))))).
(** [os.remove] *)
Definition remove_file (p : pystr) : prog S unit :=
  syscall (fun m => match m !! p with Some _ => (delete p m, Ok tt) | None => (m, Err IOError) end).
(** [os.rename]: replaces an existing target, as on POSIX *)
Definition rename_file (p q : pystr) : prog S unit :=
  syscall (fun m => match m !! p with Some b => (<[q := b]> (delete p m), Ok tt) | None => (m, Err IOError) end).
(** [open(p, 'wb')] *)
Definition open_write (p : pystr) : prog S unit := syscall (fun m => (<[p := b_empty]> m, Ok tt)).
(** Reading a whole file *)
Definition read_file (p : pystr) : prog S bytes :=
  syscall (fun m => match m !! p with Some b => (m, Ok b) | None => (m, Err IOError) end).

(** Some writing to the open file [p]: the file contains anything in between. *)
Fixpoint junk (p : pystr) (e : list event) (s : S) : S * option bool :=
  match e with
  | [] => (set_env [] s, None)
  | Go :: e' => (set_env e' s, Some true)
  | Fail :: e' => (set_env e' s, Some false)
  | Junk b :: e' => junk p e' (set_files <[p := b]> s)
  end.
Definition writing (p : pystr) : prog S unit := fun s =>
  match junk p (env (mach s)) s with
  | (s', None) => (s', Stop)
  | (s', Some true) => (s', Done (Ok tt))
  | (s', Some false) => (s', Done (Err IOError))
  end.
(** Closing it: then it has the contents that were written. *)
Definition close_write (p : pystr) (b : bytes) : prog S unit :=
  run _ := writing p in fun s => (set_files <[p := b]> s, Done (Ok tt)).
(** An exception left it open: it gets closed with whatever contents. *)
Definition abandon {A} (p : pystr) (m : prog S A) : prog S A :=
  pcatch m (fun x => run _ := pcatch (writing p) (fun _ => pret tt) in praise x).
End sys.
