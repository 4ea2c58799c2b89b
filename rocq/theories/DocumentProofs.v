(** Proofs about opening and saving documents. *)
From Verif Require Export DocumentSpec FileProofs MetaProofs.

(** ** Trees *)
Lemma findall_T t n ks : findall t (T n ks : elem) = filter (fun k => e_tag k = t) ks.
Proof. done. Qed.
Lemma fill_nil e : fill [] e = e.
Proof. unfold fill. destruct e as [n ks]. cbn. by rewrite app_nil_r. Qed.
Lemma find_child_findall t (e : elem) : find_child t e = head (findall t e).
Proof. done. Qed.
Lemma subelement_fill t e : subelement t e = fill [t] e.
Proof.
  unfold subelement, fill. rewrite find_child_findall. rewrite filter_cons. destruct (findall t e) as [|k r] eqn:E; cbn [head hd_error].
  - rewrite decide_True by done. by destruct e.
  - rewrite decide_False by done. cbn. rewrite app_nil_r. by destruct e.
Qed.
Lemma findall_fill t l e : findall t (fill l e) = if decide (t ∈ l /\ findall t e = []) then replicate (length (filter (fun x => x = t) l)) (new_elem t) else findall t e.
Proof.
  unfold fill. rewrite findall_T, filter_app. change (filter (fun k => e_tag k = t) (kids e)) with (findall t e). destruct (decide _) as [[Hin He]|Hn].
  - rewrite He. cbn [app]. clear Hin. induction l as [|x l IH]; [done|]. rewrite !filter_cons. destruct (decide (x = t)) as [->|Hx].
    + rewrite decide_True by done. cbn [map]. rewrite filter_cons, decide_True by done. cbn. by f_equal.
    + destruct (decide (findall x e = [])); [|done]. cbn [map]. rewrite filter_cons, decide_False by done. done.
  - rewrite filter_none, app_nil_r; [done|]. intros k Hk Ht. apply elem_of_list_fmap in Hk as (x & -> & Hx%elem_of_list_filter). cbn in Ht. subst x. apply Hn. by destruct Hx.
Qed.
Lemma findall_fill_other t l e : t ∉ l \/ findall t e <> [] -> findall t (fill l e) = findall t e.
Proof. intros H. rewrite findall_fill, decide_False; [done|]. intros [H1 H2]. by destruct H. Qed.
Lemma fill_cons t l e : t ∉ l -> fill l (fill [t] e) = fill (t :: l) e.
Proof.
  intros Ht. unfold fill at 1. change (root (fill [t] e)) with (root e). change (kids (fill [t] e)) with (kids e ++ map new_elem (filter (fun t => findall t e = []) [t])). change (fill (t :: l) e) with (T (root e) (kids e ++ map new_elem (filter (fun t => findall t e = []) (t :: l)))). f_equal. rewrite <- app_assoc. f_equal.
  assert (E : filter (fun x => findall x (fill [t] e) = []) l = filter (fun x => findall x e = []) l).
  { clear -Ht. induction l as [|x l IH]; [done|]. apply not_elem_of_cons in Ht as [H1 H2]. rewrite !filter_cons, IH by done. rewrite (findall_fill_other x) by (left; by apply not_elem_of_cons; split; [|apply not_elem_of_nil]). done. }
  rewrite E, !filter_cons. by destruct (decide (findall t e = [])).
Qed.
Lemma fill_same l e : has_children l e -> fill l e = e.
Proof.
  intros H. unfold fill. rewrite filter_none; [cbn; rewrite app_nil_r; by destruct e|]. intros x Hx. unfold has_children in H. rewrite Forall_forall in H. by apply H.
Qed.
Lemma fill_children l e : NoDup l -> has_children l (fill l e).
Proof.
  intros Hd. unfold has_children. apply Forall_forall. intros t Ht. rewrite findall_fill. destruct (decide _) as [_|Hn]; [|intros E; by apply Hn].
  intros E. apply (f_equal length) in E. rewrite replicate_length in E. destruct (filter (fun x => x = t) l) eqn:Ef; [|done].
  assert (t ∈ filter (fun x => x = t) l) as Hin by (by apply elem_of_list_filter). rewrite Ef in Hin. by apply elem_of_nil in Hin.
Qed.
Lemma styles_setup_fill e : styles_setup e = fill STYLES_PARTS e.
Proof. unfold styles_setup. rewrite !subelement_fill. unfold STYLES_PARTS. rewrite !fill_cons; [done|..]; repeat (apply not_elem_of_cons; split; [done|]); apply not_elem_of_nil. Qed.
Lemma content_setup_fill e : content_setup e = fill CONTENT_PARTS e.
Proof. unfold content_setup. rewrite !subelement_fill. unfold CONTENT_PARTS. rewrite !fill_cons; [done|..]; repeat (apply not_elem_of_cons; split; [done|]); apply not_elem_of_nil. Qed.
Lemma root_fill l e : root (fill l e) = root e.
Proof. done. Qed.
Lemma open_styles_eq x : open_styles x = if decide (e_tag (default (new_elem "office:document-styles") x) = "office:document-styles"%string) then Ok (styles_from x) else Err NameError.
Proof.
  unfold open_styles, styles_from. destruct x as [e|]; cbn [default id]; [|rewrite decide_True by done; cbn [rbind]; by rewrite styles_setup_fill].
  destruct (decide _); [|done]. cbn [rbind]. by rewrite styles_setup_fill.
Qed.
Lemma open_content_eq m x : open_content m x =
  if decide (x = None /\ has_nsmap m = false) then Err KeyError
  else if decide (e_tag (default (new_elem "office:document-content") x) = "office:document-content"%string) then Ok (fill CONTENT_PARTS (default (new_elem "office:document-content") x)) else Err ValueError.
Proof.
  unfold open_content. destruct x as [e|]; cbn [default id].
  - rewrite (decide_False (P := Some e = None /\ has_nsmap m = false)) by (by intros []). destruct (decide _); [|done]. cbn [rbind]. by rewrite content_setup_fill.
  - destruct (has_nsmap m); [rewrite decide_False by (by intros []); rewrite decide_True by done; cbn [rbind]; by rewrite content_setup_fill|by rewrite decide_True].
Qed.
Lemma in_first_insert t f l i k : list_find (has_tag t) l = Some (i, k) -> in_first t f l = <[i := f k]> l.
Proof.
  revert i. induction l as [|x l IH]; intros i H; [done|]. cbn in H |- *. unfold has_tag in H at 1. destruct (decide (e_tag x = t)) as [E|E].
  - destruct (decide (has_tag t x)); [|done]. injection H as <- <-. done.
  - destruct (decide (has_tag t x)); [done|]. destruct (list_find (has_tag t) l) as [[j y]|]; [|done]. cbn in H. injection H as <- <-. cbn. by rewrite (IH j).
Qed.
Lemma in_first_none t f l : filter (fun k => e_tag k = t) l = [] -> in_first t f l = l.
Proof. induction l as [|x l IH]; [done|]. rewrite filter_cons. cbn. destruct (decide (e_tag x = t)); [done|]. intros H. by rewrite IH. Qed.
Lemma in_first_id t f l k : head (filter (fun k => e_tag k = t) l) = Some k -> f k = k -> in_first t f l = l.
Proof. induction l as [|x l IH]; [done|]. rewrite filter_cons. cbn. destruct (decide (e_tag x = t)); [by intros [= ->] ->|]. intros H E. by rewrite IH. Qed.
Lemma within_id t f e k : head (findall t e) = Some k -> f k = k -> within t f e = e.
Proof. intros H E. unfold within. destruct e as [n ks]. cbn in *. by rewrite (in_first_id _ _ _ k). Qed.
Lemma filter_in_first t f l : (forall k, e_tag k = t -> e_tag (f k) = t) ->
  filter (fun k => e_tag k = t) (in_first t f l) = match filter (fun k => e_tag k = t) l with [] => [] | k :: r => f k :: r end.
Proof.
  intros Hf. induction l as [|x l IH]; [done|]. cbn [in_first]. rewrite (filter_cons _ x l). destruct (decide (e_tag x = t)) as [E|E].
  - rewrite filter_cons, decide_True; [done|by apply Hf].
  - rewrite filter_cons, decide_False by done. exact IH.
Qed.
Lemma filter_in_first_other t t' f l : (forall k, e_tag k = t -> e_tag (f k) = t) -> t' <> t ->
  filter (fun k => e_tag k = t') (in_first t f l) = filter (fun k => e_tag k = t') l.
Proof.
  intros Hf Ht. induction l as [|x l IH]; [done|]. cbn [in_first]. destruct (decide (e_tag x = t)) as [E|E]; rewrite !(filter_cons _ _ _).
  - rewrite decide_False by (rewrite Hf; done). by rewrite decide_False by congruence.
  - by rewrite IH.
Qed.
Lemma findall_within t f e : (forall k, e_tag k = t -> e_tag (f k) = t) ->
  findall t (within t f e) = match findall t e with [] => [] | k :: r => f k :: r end.
Proof. intros Hf. by apply filter_in_first. Qed.
Lemma on_child_eq t f e k : head (findall t e) = Some k ->
  on_child t f e = match f k with Ok k' => Ok (within t (fun _ => k') e) | Err x => Err x end.
Proof.
  intros H. unfold on_child. assert (Hh := first_kid_tag t e). rewrite H in Hh. destruct (first_kid (has_tag t) e) as [[i k']|] eqn:E; [|done]. injection Hh as ->.
  destruct (f k) as [k'|]; [|done]. cbn [rbind]. do 2 f_equal. unfold within, replace_kid, on_kids. destruct e as [n ks]. cbn. f_equal. symmetry. by apply (in_first_insert t (fun _ => k')) in E.
Qed.
Lemma in_first_ext t f g l k : head (filter (fun k => e_tag k = t) l) = Some k -> f k = g k -> in_first t f l = in_first t g l.
Proof. induction l as [|x l IH]; [done|]. rewrite filter_cons. cbn. destruct (decide (e_tag x = t)); [by intros [= ->] ->|]. intros H E. by rewrite IH. Qed.
Lemma within_ext t f g e k : head (findall t e) = Some k -> f k = g k -> within t f e = within t g e.
Proof. intros H E. unfold within. destruct e as [n ks]. cbn in *. by rewrite (in_first_ext _ f g _ k). Qed.
Lemma within_within t f g e k : head (findall t e) = Some k -> e_tag (f k) = t -> within t g (within t f e) = within t (fun k => g (f k)) e.
Proof.
  intros H Hf. unfold within. destruct e as [n ks]. cbn in *. f_equal. revert H. induction ks as [|x l IH]; [done|]. rewrite filter_cons. cbn. destruct (decide (e_tag x = t)) as [E|E].
  - intros [= ->]. cbn. by rewrite decide_True.
  - intros H. cbn. rewrite decide_False by done. f_equal. by apply IH.
Qed.
Lemma head_some {A} (l : list A) : l <> [] -> exists k, head l = Some k.
Proof. destruct l; [done|]. by eexists. Qed.
Lemma filled_head t l e : t ∈ l -> NoDup l -> exists k, head (findall t (fill l e)) = Some k.
Proof. intros Ht Hd. apply head_some. assert (H := fill_children l e Hd). unfold has_children in H. rewrite Forall_forall in H. by apply H. Qed.
Lemma filled_head_cases t l e k : NoDup l -> head (findall t (fill l e)) = Some k -> head (findall t e) = Some k \/ (findall t e = [] /\ k = new_elem t).
Proof.
  intros Hd. rewrite findall_fill. destruct (decide _) as [[Hin He]|Hn]; [|by left]. rewrite He. intros H. right. split; [done|]. destruct (length _); [done|]. by injection H as <-.
Qed.
Lemma findall_tag_head t (e k : elem) : head (findall t e) = Some k -> e_tag k = t.
Proof. intros H. assert (k ∈ findall t e) as Hin by (destruct (findall t e); [done|]; injection H as ->; by left). unfold findall in Hin. by apply elem_of_list_filter in Hin as [? _]. Qed.
(** the declarations *)
Definition named_kids (k : elem) : Prop := Forall (fun n => e_tag n ∈ VARIABLES) (kids k).
Lemma open_decls_eq k : open_decls k = if decide (Forall (fun n => e_tag n ∈ VARIABLES) (kids k)) then Ok k else Err AttributeError.
Proof. unfold open_decls. destruct (decide (Forall _ (map e_tag _))) as [H|H]; destruct (decide (Forall _ (kids k))) as [H'|H']; try done; by apply (Forall_map e_tag) in H || (exfalso; apply H; by apply Forall_map) || (exfalso; apply H'; by apply Forall_map in H). Qed.
Definition decls_named (y : elem) : Prop := forall t k, t ∈ DECLS -> head (findall t y) = Some k -> Forall (fun n => e_tag n ∈ VARIABLES) (kids k).
Lemma open_decls_of_eq t e : open_decls_of t e = match head (findall t e) with
  | Some k => if decide (Forall (fun n => e_tag n ∈ VARIABLES) (kids k)) then Ok e else Err AttributeError
  | None => Ok (fill [t] e) end.
Proof.
  unfold open_decls_of. rewrite subelement_fill. destruct (filled_head t [t] e) as [k Hk]; [by left|apply NoDup_singleton|]. rewrite (on_child_eq _ _ _ _ Hk), open_decls_eq.
  destruct (filled_head_cases _ _ _ _ (NoDup_singleton t) Hk) as [H| [H ->]].
  - rewrite H. destruct (decide _); [|done]. rewrite (within_id _ _ _ _ Hk) by done. rewrite fill_same; [done|]. apply Forall_singleton. by destruct (findall t e).
  - rewrite H. cbn [head hd_error]. rewrite decide_True by (apply Forall_nil_2). by rewrite (within_id _ _ _ _ Hk).
Qed.
Lemma open_body_ok y : decls_named y -> open_body y = Ok (fill DECLS y).
Proof.
  intros H. unfold open_body. rewrite open_decls_of_eq.
  assert (E : (match head (findall "text:variable-decls" y) with Some k => if decide (Forall (fun n => e_tag n ∈ VARIABLES) (kids k)) then Ok y else Err AttributeError | None => Ok (fill ["text:variable-decls"%string] y) end) = Ok (fill ["text:variable-decls"%string] y)).
  { destruct (head _) as [k|] eqn:Ek; [|done]. rewrite decide_True by (eapply H; [|exact Ek]; by left). rewrite fill_same; [done|]. apply Forall_singleton. by destruct (findall _ y). }
  rewrite E. cbn [rbind]. rewrite open_decls_of_eq. unfold DECLS. rewrite <- (fill_cons "text:variable-decls" ["text:user-field-decls"%string]) by (apply not_elem_of_cons; split; [done|apply not_elem_of_nil]).
  assert (E2 : findall "text:user-field-decls" (fill ["text:variable-decls"%string] y) = findall "text:user-field-decls" y) by (apply findall_fill_other; left; apply not_elem_of_cons; split; [done|apply not_elem_of_nil]).
  destruct (head (findall "text:user-field-decls" (fill ["text:variable-decls"%string] y))) as [k|] eqn:Ek; [|done]. rewrite decide_True by (eapply H; [|rewrite <- E2; exact Ek]; by right; left).
  rewrite (fill_same ["text:user-field-decls"%string]); [done|]. apply Forall_singleton. by destruct (findall "text:user-field-decls" _).
Qed.
Lemma open_body_named y y' : open_body y = Ok y' -> decls_named y.
Proof.
  unfold open_body. rewrite open_decls_of_eq. intros H t k Ht Hk.
  assert (Hv : forall k, head (findall "text:variable-decls" y) = Some k -> Forall (fun n => e_tag n ∈ VARIABLES) (kids k)).
  { intros k' Hk'. rewrite Hk' in H. destruct (decide (Forall _ _)); done. }
  unfold DECLS in Ht. apply elem_of_cons in Ht as [-> |Ht]; [by apply Hv|]. apply elem_of_list_singleton in Ht as ->.
  assert (exists z, open_decls_of "text:user-field-decls" z = Ok y' /\ head (findall "text:user-field-decls" z) = Some k) as (z & Hz & Hzk).
  { destruct (head (findall "text:variable-decls" y)) as [k'|].
    - destruct (decide _); [|done]. cbn [rbind] in H. by exists y.
    - cbn [rbind] in H. eexists. split; [exact H|]. rewrite findall_fill_other; [done|]. left. apply not_elem_of_cons; split; [done|apply not_elem_of_nil]. }
  rewrite open_decls_of_eq, Hzk in Hz. destruct (decide _); done.
Qed.
Lemma open_application_body_eq t c : t <> "office:body"%string -> findall "office:body" c <> [] ->
  (open_application_body t c = Ok (within "office:body" (fun b => within t (fill DECLS) (fill [t] b)) c) /\ good_decls t (Some c)) \/
  (exists x, open_application_body t c = Err x) /\ ~ good_decls t (Some c).
Proof.
  intros Htb Hc. unfold open_application_body. destruct (head_some _ Hc) as [b Hb]. rewrite (on_child_eq _ _ _ _ Hb). rewrite subelement_fill.
  destruct (filled_head t [t] b) as [y Hy]; [by left|apply NoDup_singleton|]. rewrite (on_child_eq _ _ _ _ Hy).
  assert (Hg : good_decls t (Some c) <-> decls_named y).
  { destruct (filled_head_cases _ _ _ _ (NoDup_singleton t) Hy) as [H| [H ->]].
    - split; [intros Hg u k Hu Hk; by apply (Hg c b y u k)|]. intros Hd e b' y' u k [= <-] Hb' Hy' Hu Hk. rewrite Hb in Hb'. injection Hb' as <-. rewrite H in Hy'. injection Hy' as <-. by apply (Hd u k).
    - split; [by intros _ u k _ Hk|]. intros _ e b' y' u k [= <-] Hb' Hy'. rewrite Hb in Hb'. injection Hb' as <-. by rewrite H in Hy'. }
  destruct (open_body y) as [y'|x] eqn:Ey.
  - left. split; [|apply Hg; by eapply open_body_named]. f_equal. apply (within_ext _ _ _ _ _ Hb). apply (within_ext _ _ _ _ _ Hy). rewrite open_body_ok in Ey by (by eapply open_body_named). congruence.
  - right. split; [by eexists|]. rewrite Hg. intros Hd. by rewrite open_body_ok in Ey.
Qed.
Section proofs.
Context `{U : Unicode} `{B : Bytes}.
Notation P := (prog st).

(** ** Programs that only read: without failures the outcome is determined, unless the
    process is stopped before [k] events have passed. *)
Definition expect {A} (k : nat) (s : st) (p : st * out A) (r : res A) (g : manager) : Prop :=
  match p.2 with
  | Done r' => r' = r /\ mgr p.1 = g /\ files (mach p.1) = files (mach s) /\ rnd (mach p.1) = rnd (mach s) /\ no_failure p.1 /\
               length (env (mach s)) <= k + length (env (mach p.1)) /\ (Forall (fun e => e = Go) (env (mach s)) -> Forall (fun e => e = Go) (env (mach p.1)))
  | Stop => length (env (mach s)) < k
  end.
Lemma expect_ret {A} k (a : A) s : no_failure s -> expect k s (pret a s) (Ok a) (mgr s).
Proof. intros Hn. unfold expect. cbn. split_and!; try done. lia. Qed.
Lemma expect_lift {A} k (r : res A) s : no_failure s -> expect k s (lift r s) r (mgr s).
Proof. intros Hn. unfold expect. cbn. split_and!; try done. lia. Qed.
Lemma expect_raise {A} k x s : no_failure s -> expect k s (praise (A := A) x s) (Err x) (mgr s).
Proof. intros Hn. unfold expect. cbn. split_and!; try done. lia. Qed.
Lemma expect_change k f s : no_failure s -> expect k s (change f s) (Ok tt) (f (mgr s)).
Proof. intros Hn. unfold expect. cbn. split_and!; try done. lia. Qed.
Lemma expect_bind {A C} k k' (m : P A) (f : A -> P C) s a r g g' : expect k s (m s) (Ok a) g ->
  (forall s1, mgr s1 = g -> files (mach s1) = files (mach s) -> no_failure s1 -> expect k' s1 (f a s1) r g') -> expect (k + k') s (pbind m f s) r g'.
Proof.
  intros H1 H2. unfold pbind. unfold expect in H1. destruct (m s) as [s1 [|r1]]; cbn in H1.
  - unfold expect. cbn. lia.
  - destruct H1 as (-> & E1 & E2 & E3 & E4 & E5 & E6). specialize (H2 s1 E1 E2 E4). unfold expect in *. destruct (f a s1) as [s2 [|r2]]; cbn in *; [lia|].
    destruct H2 as (-> & F1 & F2 & F3 & F4 & F5 & F6). split_and!; try congruence; [lia|auto].
Qed.
Lemma expect_bind_err {A C} k k' (m : P A) (f : A -> P C) s x g : expect k s (m s) (Err x) g -> expect (k + k') s (pbind m f s) (Err x) g.
Proof.
  intros H1. unfold pbind. unfold expect in *. destruct (m s) as [s1 [|r1]]; cbn in *; [lia|].
  destruct H1 as (-> & E1 & E2 & E3 & E4 & E5 & E6). cbn. split_and!; try done. lia.
Qed.
Lemma expect_weak {A} k k' s (p : st * out A) r g : k <= k' -> expect k s p r g -> expect k' s p r g.
Proof. unfold expect. destruct p as [s1 [|r1]]; cbn; [lia|]. intros Hk (-> & E1 & E2 & E3 & E4 & E5 & E6). split_and!; try done. lia. Qed.
Lemma expect_eq {A} k s (p : st * out A) r r' g g' : expect k s p r g -> r = r' -> g = g' -> expect k s p r' g'.
Proof. by intros H -> ->. Qed.

Lemma expect_read p s : no_failure s -> expect 1 s (sys_read p s) (match files (mach s) !! p with Some b => Ok b | None => Err IOError end) (mgr s).
Proof.
  intros Hn. destruct (sys_read p s) as [s' o] eqn:E. unfold sys_read, read_file, syscall in E. unfold no_failure in Hn.
  destruct (env (mach s)) as [|[| |j] e] eqn:Ee; [injection E as <- <-; unfold expect; cbn; rewrite Ee; cbn; lia| |exfalso; apply Hn; by left|];
    (destruct (files (mach s) !! p) as [b|]; injection E as <- <-; unfold expect, no_failure; cbn; rewrite Ee; cbn; (split; [done|split; [done|split; [done|split; [done|split; [intros Hin; apply Hn; by right|split; [lia|by intros [_ ?]%Forall_cons_1]]]]]])).
Qed.
(** only files take time *)
Definition cost (o : origin) : nat := match o with SFile _ => 1 | _ => 0 end.
Lemma expect_has_zip s : no_failure s -> expect (cost (source (mgr s))) s (has_zip s)
  (Ok (match source (mgr s) with NoSource => false | SFile p => match files (mach s) !! p with Some b => is_zip b | None => false end | SBytes _ => true end)) (mgr s).
Proof.
  intros Hn. unfold has_zip. destruct (source (mgr s)) as [|p|b]; [by apply (expect_lift (A := bool))| |by apply (expect_lift (A := bool))].
  unfold pcatch, pbind. assert (H := expect_read p s Hn). unfold expect in *. cbn [cost]. destruct (sys_read p s) as [s1 [|r1]]; cbn in *; [done|].
  destruct H as (-> & H). by destruct (files (mach s) !! p).
Qed.
Lemma expect_get_bytes name s : no_failure s -> expect (2 * cost (source (mgr s))) s (get_bytes name s) (part name (files (mach s)) (source (mgr s))) (mgr s).
Proof.
  intros Hn. unfold get_bytes. assert (Hz := expect_has_zip s Hn). unfold part.
  destruct (source (mgr s)) as [|p|b] eqn:Eo; cbn [cost Nat.mul Nat.add] in *.
  - eapply (expect_bind 0 0); [exact Hz|]. intros s1 M1 F1 N1. rewrite <- M1. by apply expect_ret.
  - eapply (expect_bind 1 1); [exact Hz|]. intros s1 M1 F1 N1. destruct (files (mach s) !! p) as [b|] eqn:Ep; [|rewrite <- M1; by apply expect_ret]. unfold is_zip. destruct (zip_unpack b) as [l|] eqn:El; [|rewrite <- M1; by apply expect_ret].
    eapply (expect_bind 1 0 _ _ _ b).
    { unfold open_bytestream. rewrite M1, Eo. eapply expect_eq; [by apply expect_read| |exact M1]. by rewrite F1, Ep. }
    intros s2 M2 F2 N2. eapply (expect_bind 0 0 _ _ _ l). { unfold zip_open. rewrite El. by apply expect_ret. }
    intros s3 M3 F3 N3. rewrite <- M2, <- M3. destruct (zip_read name l) as [d|[]]; (by apply expect_ret) || (by apply expect_raise).
  - eapply (expect_bind 0 0); [exact Hz|]. intros s1 M1 F1 N1. eapply (expect_bind 0 0 _ _ _ b). { unfold open_bytestream. rewrite M1, Eo. eapply expect_eq; [by apply (expect_lift 0 (Ok b))|done|exact M1]. }
    intros s2 M2 F2 N2. destruct (zip_unpack b) as [l|] eqn:El.
    + eapply (expect_bind 0 0 _ _ _ l). { unfold zip_open. rewrite El. by apply expect_ret. }
      intros s3 M3 F3 N3. rewrite <- M2, <- M3. destruct (zip_read name l) as [d|[]]; (by apply expect_ret) || (by apply expect_raise).
    + eapply (expect_bind_err 0 0). unfold zip_open. rewrite El, <- M2. by apply expect_raise.
Qed.
Definition text_part (name : pystr) (fs : gmap pystr bytes) (o : origin) : res (option pystr) :=
  do b <- part name fs o;
  match b with None => Ok None | Some b => match b_dec b with Some t => Ok (Some t) | None => Err ValueError end end.
Lemma expect_get_text name s : no_failure s -> expect (2 * cost (source (mgr s))) s (get_text name s) (text_part name (files (mach s)) (source (mgr s))) (mgr s).
Proof.
  intros Hn. unfold get_text, text_part. assert (H := expect_get_bytes name s Hn). rewrite <- (Nat.add_0_r (_ * _)). destruct (part name _ _) as [[b|]|x]; cbn [rbind].
  - eapply expect_bind; [exact H|]. intros s1 M1 F1 N1. rewrite <- M1. destruct (b_dec b); (by apply expect_ret) || (by apply expect_raise).
  - eapply expect_bind; [exact H|]. intros s1 M1 F1 N1. rewrite <- M1. by apply expect_ret.
  - by apply expect_bind_err.
Qed.
Lemma expect_get_xml name s : no_failure s -> expect (2 * cost (source (mgr s))) s (get_xml_element name s) (tree_part name (files (mach s)) (source (mgr s))) (mgr s).
Proof.
  intros Hn. unfold get_xml_element, tree_part. assert (H := expect_get_bytes name s Hn). rewrite <- (Nat.add_0_r (_ * _)). destruct (part name _ _) as [[b|]|x]; cbn [rbind].
  - eapply expect_bind; [exact H|]. intros s1 M1 F1 N1. rewrite <- M1. destruct (b_null b); [by apply expect_ret|]. destruct (b_parse b); (by apply expect_ret) || (by apply expect_raise).
  - eapply expect_bind; [exact H|]. intros s1 M1 F1 N1. rewrite <- M1. by apply expect_ret.
  - by apply expect_bind_err.
Qed.

(** ** Mirrors: what a program does as a function of the files and the manager *)
(** [src]: where the manager reads from at the beginning, [o]: at the end *)
Definition mirrors {A} (src : option origin) (o : origin) (k : nat) (m : P A) (q : gmap pystr bytes -> act manager A) : Prop :=
  forall s, no_failure s -> (forall o', src = Some o' -> source (mgr s) = o') ->
    expect (k * cost o) s (m s) (q (files (mach s)) (mgr s)).2 (q (files (mach s)) (mgr s)).1 /\ source (q (files (mach s)) (mgr s)).1 = o.
Lemma mirrors_bind {A C} src o k k' (m : P A) (f : A -> P C) q q' : mirrors src o k m q -> (forall a, mirrors (Some o) o k' (f a) (q' a)) ->
  mirrors src o (k + k') (pbind m f) (fun fs => abind (q fs) (fun a => q' a fs)).
Proof.
  intros H1 H2 s Hn Hs. destruct (H1 s Hn Hs) as [E1 E2]. unfold abind. rewrite Nat.mul_add_distr_r. destruct (q (files (mach s)) (mgr s)) as [g [a|x]]; cbn [fst snd] in *.
  - split.
    + eapply expect_bind; [exact E1|]. intros s1 <- <- N1. apply H2; [done|]. by intros o' [= <-].
    + assert (HS : exists s1, mgr s1 = g /\ files (mach s1) = files (mach s) /\ no_failure s1) by (by exists (St (mach s) g)). destruct HS as (s1 & <- & <- & N1).
      apply H2; [done|]. by intros o' [= <-].
  - split; [by apply expect_bind_err|done].
Qed.
Lemma mirrors_ret {A} (a : A) o : mirrors (Some o) o 0 (pret a) (fun _ => aret a).
Proof. intros s Hn Hs. split; [by apply expect_ret|by apply Hs]. Qed.
Lemma mirrors_raise {A} x o : mirrors (Some o) o 0 (praise (A := A) x) (fun _ => araise x).
Proof. intros s Hn Hs. split; [by apply expect_raise|by apply Hs]. Qed.
Lemma mirrors_lift {A} (r : res A) o : mirrors (Some o) o 0 (lift r) (fun _ g => (g, r)).
Proof. intros s Hn Hs. split; [by apply expect_lift|by apply Hs]. Qed.
Lemma mirrors_change f o : (forall g, source (f g) = source g) -> mirrors (Some o) o 0 (change f) (fun _ g => (f g, Ok tt)).
Proof. intros Hf s Hn Hs. split; [by apply expect_change|]. cbn. rewrite Hf. by apply Hs. Qed.
Lemma mirrors_ask {A} (f : manager -> res A) o : mirrors (Some o) o 0 (fun s => (s, Done (f (mgr s)))) (fun _ g => (g, f g)).
Proof. intros s Hn Hs. split; [by apply (expect_lift 0 (f (mgr s)))|by apply Hs]. Qed.
Lemma mirrors_bytes name o : mirrors (Some o) o 2 (get_bytes name) (fun fs g => (g, part name fs (source g))).
Proof. intros s Hn Hs. rewrite <- (Hs o eq_refl). split; [by apply expect_get_bytes|done]. Qed.
Lemma mirrors_text name o : mirrors (Some o) o 2 (get_text name) (fun fs g => (g, text_part name fs (source g))).
Proof. intros s Hn Hs. rewrite <- (Hs o eq_refl). split; [by apply expect_get_text|done]. Qed.
Lemma mirrors_xml name o : mirrors (Some o) o 2 (get_xml_element name) (fun fs g => (g, tree_part name fs (source g))).
Proof. intros s Hn Hs. rewrite <- (Hs o eq_refl). split; [by apply expect_get_xml|done]. Qed.
Lemma mirrors_weak {A} src o k k' (m : P A) q : k <= k' -> mirrors src o k m q -> mirrors src o k' m q.
Proof. intros Hk H s Hn Hs. destruct (H s Hn Hs) as [H1 H2]. split; [|done]. eapply expect_weak; [|exact H1]. apply Nat.mul_le_mono_r. exact Hk. Qed.
Lemma mirrors_eq {A} src o k (m : P A) q q' : mirrors src o k m q -> (forall fs g, q fs g = q' fs g) -> mirrors src o k m q'.
Proof. intros H E s Hn Hs. rewrite <- E. by apply H. Qed.

Definition q_manager (o : origin) (fs : gmap pystr bytes) : act manager unit := fun g =>
  let g0 := Manager [] o (new_elem "manifest:manifest") (objects g) in
  match manifest_part fs o with
  | Ok e => (register MANIFEST_XML CManifest XML_MEDIA (Manager [] o e (objects g)), Ok tt)
  | Err x => (g0, Err x)
  end.
Lemma mirrors_manager o : mirrors None o 2 (new_manager o) (q_manager o).
Proof.
  unfold new_manager. set (fin := fun (b : option bytes) (fs : gmap pystr bytes) (g : manager) =>
    match new_manifest b with Err x => (g, Err x) | Ok e => (register MANIFEST_XML CManifest XML_MEDIA (with_manifest e g), Ok tt) end).
  apply (mirrors_eq _ _ 2 _ (fun fs => let! _ := (fun g => (Manager [] o (new_elem "manifest:manifest") (objects g), Ok tt)) in
                                   let! b := (fun g => (g, part MANIFEST_XML fs (source g))) in fin b fs)).
  - apply (mirrors_bind _ _ 0 2 _ _ (fun _ g => (Manager [] o (new_elem "manifest:manifest") (objects g), Ok tt)) (fun _ fs => let! b := (fun g => (g, part MANIFEST_XML fs (source g))) in fin b fs)).
    { intros s Hn _. split; [|done]. by apply (expect_change 0 (fun m => Manager [] o (new_elem "manifest:manifest") (objects m))). }
    intros []. apply (mirrors_bind _ _ 2 0 _ _ (fun fs g => (g, part MANIFEST_XML fs (source g))) fin). { apply mirrors_bytes. }
    intros b. unfold fin. destruct (new_manifest b) as [a|x]; [by apply (mirrors_change (fun m => register MANIFEST_XML CManifest XML_MEDIA (with_manifest a m)))|apply mirrors_raise].
  - intros fs g. unfold fin, abind, q_manager, manifest_part. cbn [source]. change (lit "META-INF/manifest.xml") with MANIFEST_XML.
    destruct (part MANIFEST_XML fs o) as [[b|]|x]; cbn [rbind new_manifest]; by try destruct (b_parse b).
Qed.
Definition q_detect (fs : gmap pystr bytes) : act manager (option pystr) := fun g => (g,
  do t <- text_part MIMETYPE fs (source g);
  match t with
  | Some t => Ok (Some t)
  | None =>
      match manifest_find ROOT_PATH (manifest g) with
      | Some (_, k) => Ok (e_get MEDIA k)
      | None =>
          match zipname (source g) with
          | None => Err TypeError
          | Some p => match list_find (fun q => lit q.1 = splitext p) MIMETYPES with Some (_, q) => Ok (Some (lit q.2)) | None => Err KeyError end
          end
      end
  end).
Lemma mirrors_detect o : mirrors (Some o) o 2 detect_mime_type q_detect.
Proof.
  unfold detect_mime_type. set (fin := fun (t : option pystr) (fs : gmap pystr bytes) (g : manager) => (g, match t with
      | Some t => Ok (Some t)
      | None => match manifest_find ROOT_PATH (manifest g) with
                | Some (_, k) => Ok (e_get MEDIA k)
                | None => match zipname (source g) with
                          | None => Err TypeError
                          | Some p => match list_find (fun q => lit q.1 = splitext p) MIMETYPES with Some (_, q) => Ok (Some (lit q.2)) | None => Err KeyError end
                          end
                end
      end)).
  apply (mirrors_eq _ _ 2 _ (fun fs => let! t := (fun g => (g, text_part MIMETYPE fs (source g))) in fin t fs)).
  - apply (mirrors_bind _ _ 2 0 _ _ (fun fs g => (g, text_part MIMETYPE fs (source g))) fin); [apply mirrors_text|]. intros t. unfold fin.
    destruct t as [t|]; [apply (mirrors_ret (Some t))|]. intros s Hn Hs. cbn beta iota. cbn [fst snd]. split; [|by apply Hs].
    destruct (manifest_find _ _) as [[i k]|]; [by apply (expect_lift 0 (Ok (e_get MEDIA k)))|].
    destruct (zipname _); [|by apply (expect_lift (A := option pystr) 0 (Err TypeError))]. destruct (list_find _ _) as [[j q]|]; [by apply (expect_lift 0 (Ok (Some (lit q.2))))|by apply (expect_lift (A := option pystr) 0 (Err KeyError))].
  - intros fs g. unfold fin, abind, q_detect. by destruct (text_part MIMETYPE fs (source g)).
Qed.
(** reading one of the trees *)
Definition q_tree (name : pystr) (n : N) (f : option elem -> res elem) (fs : gmap pystr bytes) : act manager unit := fun g =>
  match (do x <- tree_part name fs (source g); f x) with
  | Ok e => (register name (CObject n) XML_MEDIA (set_object n e g), Ok tt)
  | Err x => (g, Err x)
  end.
Lemma mirrors_tree {A} o k name n f (p : P A) q : mirrors (Some o) o k p q ->
  mirrors (Some o) o (2 + k) (run x := get_xml_element name in run e := lift (f x) in run _ := change (fun x => register name (CObject n) XML_MEDIA (set_object n e x)) in p)
    (fun fs => let! _ := q_tree name n f fs in q fs).
Proof.
  intros H. set (fin1 := fun (e : elem) (fs : gmap pystr bytes) => let! _ := (fun g => (register name (CObject n) XML_MEDIA (set_object n e g), Ok tt)) in q fs).
  set (fin2 := fun (x : option elem) (fs : gmap pystr bytes) => let! e := (fun g => (g, f x)) in fin1 e fs).
  apply (mirrors_eq _ _ (2 + k) _ (fun fs => let! x := (fun g => (g, tree_part name fs (source g))) in fin2 x fs)).
  - apply (mirrors_bind _ _ 2 k _ _ (fun fs g => (g, tree_part name fs (source g))) fin2); [apply mirrors_xml|]. intros x. apply (mirrors_bind _ _ 0 k _ _ (fun fs g => (g, f x)) fin1); [apply mirrors_lift|]. intros e.
    apply (mirrors_bind _ _ 0 k _ _ (fun fs g => (register name (CObject n) XML_MEDIA (set_object n e g), Ok tt)) (fun _ => q)); [by apply mirrors_change|]. intros _. exact H.
  - intros fs g. unfold fin2, fin1, abind, q_tree. destruct (tree_part name fs (source g)) as [x|]; [|done]. cbn [rbind]. by destruct (f x).
Qed.
Definition q_packaged (c : clock) (m : option pystr) (fs : gmap pystr bytes) : act manager doc := fun g =>
  match m with
  | None => (g, Err TypeError)
  | Some m =>
      let g := with_manifest (manifest_add ROOT_PATH m None (manifest g)) g in
      match ext_for m with
      | None => (g, Err KeyError)
      | Some ext =>
          (let! _ := q_tree META_XML 0 (open_meta (created c) (touched c) (generator c)) fs in
           let! _ := q_tree STYLES_XML 1 open_styles fs in
           let! _ := q_tree CONTENT_XML 2 (open_content m) fs in
           fun g => match bodytag_for m with
                    | None => (g, Err KeyError)
                    | Some t => match open_application_body t (objects g 2) with
                                | Ok e => (set_object 2 e g, Ok (Doc (zipname (source g)) m ext true))
                                | Err x => (g, Err x)
                                end
                    end) (register MIMETYPE (CBytes (b_enc m)) [] g)
      end
  end.
Lemma q_tree_source name n f fs g : source (q_tree name n f fs g).1 = source g.
Proof. unfold q_tree. by destruct (do x <- _; f x). Qed.
Lemma mirrors_packaged o c m : mirrors (Some o) o 6 (packaged c m) (q_packaged c m).
Proof.
  unfold packaged. set (fin := fun (name : option pystr) (fs : gmap pystr bytes) (g : manager) => match m with
      | None => (g, Err TypeError)
      | Some m => match ext_for m with
                  | None => (let! _ := (fun g => (with_manifest (manifest_add ROOT_PATH m None (manifest g)) g, Ok tt)) in araise KeyError) g
                  | Some ext =>
                     (let! _ := (fun g => (with_manifest (manifest_add ROOT_PATH m None (manifest g)) g, Ok tt)) in
                      let! _ := (fun g => (register MIMETYPE (CBytes (b_enc m)) [] g, Ok tt)) in
                      let! _ := q_tree META_XML 0 (open_meta (created c) (touched c) (generator c)) fs in
                      let! _ := q_tree STYLES_XML 1 open_styles fs in
                      let! _ := q_tree CONTENT_XML 2 (open_content m) fs in
                      match bodytag_for m with
                      | None => araise KeyError
                      | Some t => let! e := (fun g => (g, open_application_body t (objects g 2))) in
                                  let! _ := (fun g => (set_object 2 e g, Ok tt)) in aret (Doc name m ext true)
                      end) g
                  end
      end).
  apply (mirrors_eq _ _ 6 _ (fun fs => let! name := (fun g => (g, Ok (zipname (source g)))) in fin name fs)).
  - apply (mirrors_bind _ _ 0 6 _ _ (fun fs g => (g, Ok (zipname (source g)))) fin); [apply (mirrors_ask (fun g => Ok (zipname (source g))))|]. intros name. unfold fin. clear fin.
    cbn beta. destruct m as [m|]; [|apply (mirrors_weak _ _ 0 6); [lia|]; apply mirrors_raise].
    destruct (ext_for m) as [ext|].
    + eapply (mirrors_bind _ _ 0 6 _ _ (fun fs g => (with_manifest (manifest_add ROOT_PATH m None (manifest g)) g, Ok tt)) (fun _ fs => _)); [by apply mirrors_change|]. intros _.
      eapply (mirrors_bind _ _ 0 6 _ _ (fun fs g => (register MIMETYPE (CBytes (b_enc m)) [] g, Ok tt)) (fun _ fs => _)); [by apply mirrors_change|]. intros _.
      apply (mirrors_tree _ 4). apply (mirrors_tree _ 2). apply (mirrors_tree _ 0).
      cbn beta. destruct (bodytag_for m) as [t|]; [|apply mirrors_raise].
      eapply (mirrors_bind _ _ 0 0 _ _ (fun _ g => (g, open_application_body t (objects g 2))) (fun e fs => _)); [apply (mirrors_ask (fun g => open_application_body t (objects g 2)))|]. intros e.
      eapply (mirrors_bind _ _ 0 0 _ _ (fun _ g => (set_object 2 e g, Ok tt)) (fun _ fs => _)); [by apply mirrors_change|]. intros _. apply mirrors_ret.
    + eapply (mirrors_bind _ _ 0 6 _ _ (fun fs g => (with_manifest (manifest_add ROOT_PATH m None (manifest g)) g, Ok tt)) (fun _ fs => _)); [by apply mirrors_change|]. intros _.
      apply (mirrors_weak _ _ 0 6); [lia|]. apply mirrors_raise.
  - intros fs g. unfold abind at 1, fin. cbn beta iota. unfold q_packaged. destruct m as [m|]; [|done]. destruct (ext_for m) as [ext|]; [|done]. unfold abind at 1 2. cbn beta iota.
    set (g1 := register _ _ _ _). unfold abind, araise, aret. assert (S1 := q_tree_source META_XML 0 (open_meta (created c) (touched c) (generator c)) fs g1). destruct (q_tree META_XML _ _ fs g1) as [g2 [[]|x]]; [|done].
    assert (S2 := q_tree_source STYLES_XML 1 open_styles fs g2). destruct (q_tree STYLES_XML _ _ fs g2) as [g3 [[]|x]]; [|done].
    assert (S3 := q_tree_source CONTENT_XML 2 (open_content m) fs g3). destruct (q_tree CONTENT_XML _ _ fs g3) as [g4 [[]|x]]; [|done].
    destruct (bodytag_for m) as [t|]; [|done]. destruct (open_application_body t (objects g4 2)); [|done]. cbn in *. rewrite S3, S2, S1. done.
Qed.
Lemma mirrors_opendoc c d : mirrors None (origin_of d) 10 (opendoc c d) (fun fs => let! _ := q_manager (origin_of d) fs in let! m := q_detect fs in q_packaged c m fs).
Proof.
  unfold opendoc. apply (mirrors_bind _ _ 2 8 _ _ (q_manager (origin_of d)) (fun _ fs => let! m := q_detect fs in q_packaged c m fs)); [apply mirrors_manager|].
  intros _. apply (mirrors_bind _ _ 2 6 _ _ q_detect (fun m fs => q_packaged c m fs)); [apply mirrors_detect|]. intros m. apply mirrors_packaged.
Qed.

(** ** Types *)
Lemma type_tables m ext t : (ext_for m = Some ext /\ bodytag_for m = Some t) <-> is_type m ext t.
Proof.
  split.
  - intros [H1 H2]. unfold ext_for in H1. destruct (list_find _ MIMETYPES) as [[i p]|] eqn:E; [|done]. cbn in H1. injection H1 as <-.
    apply list_find_Some in E as (E & <- & _). apply elem_of_list_lookup_2 in E.
    revert H2. revert p E. apply (Forall_forall (fun p => bodytag_for (lit p.2) = Some t -> is_type (lit p.2) p.1 t)).
    repeat (apply Forall_cons_2; [vm_compute; intros H; try discriminate H; injection H as <-|]); [..|apply Forall_nil_2];
      unfold is_type, full_type.
    1: exists "text"%string. 2: exists "text-template"%string. 3: exists "graphics"%string. 4: exists "graphics-template"%string. 5: exists "presentation"%string.
    6: exists "presentation-template"%string. 7: exists "spreadsheet"%string. 8: exists "spreadsheet-template"%string. 9: exists "chart"%string. 10: exists "image"%string.
    all: split; [|vm_compute; reflexivity]; unfold supported; set_solver.
  - intros (sfx & Hin & ->). revert Hin. assert (H : Forall (fun q => ext_for (full_type q.1.2) = Some q.1.1 /\ bodytag_for (full_type q.1.2) = Some q.2) supported).
    { repeat (apply Forall_cons_2; [split; vm_compute; reflexivity|]). apply Forall_nil_2. }
    rewrite Forall_forall in H. intros Hin. by apply (H _ Hin).
Qed.
Lemma type_body m ext t : is_type m ext t -> t <> "office:body"%string /\ has_nsmap m = true.
Proof.
  intros (sfx & Hin & ->). revert Hin. assert (H : Forall (fun q => q.2 <> "office:body"%string /\ has_nsmap (full_type q.1.2) = true) supported).
  { repeat (apply Forall_cons_2; [split; [done|vm_compute; reflexivity]|]). apply Forall_nil_2. }
  rewrite Forall_forall in H. intros Hin. by apply (H _ Hin).
Qed.
Lemma good_decls_fill t e : good_decls t (Some (fill CONTENT_PARTS e)) <-> good_decls t (Some e).
Proof.
  assert (Hd : NoDup CONTENT_PARTS) by dec_vm.
  split; intros H e' b y u k [= <-] Hb Hy Hu Hk.
  - apply (H _ b y u k eq_refl); [|done..]. rewrite findall_fill_other; [done|]. right. by destruct (findall _ e).
  - destruct (filled_head_cases _ _ _ _ Hd Hb) as [Hb'| [Hb' ->]]; [by apply (H _ b y u k eq_refl)|done].
Qed.
Lemma good_decls_default t x : good_decls t (Some (default (new_elem "office:document-content") x)) <-> good_decls t x.
Proof. destruct x as [e|]; [done|]. split; [by intros _ e b y u k|]. intros _ e b y u k [= <-] Hb. done. Qed.
Lemma has_root_default t x : e_tag (default (new_elem t) x) = t <-> has_root t x.
Proof. destruct x as [e|]; cbn; split; [by intros H e' [= <-]|by intros H; apply H|by intros _ e|done]. Qed.

(** ** The constructor *)
Definition opened_manager (m : pystr) (e0 e1 e2' e2 : elem) (g : manager) : manager :=
  set_object 2 e2 (register CONTENT_XML (CObject 2) XML_MEDIA (set_object 2 e2'
    (register STYLES_XML (CObject 1) XML_MEDIA (set_object 1 e1
      (register META_XML (CObject 0) XML_MEDIA (set_object 0 e0
        (register MIMETYPE (CBytes (b_enc m)) [] (with_manifest (manifest_add ROOT_PATH m None (manifest g)) g)))))))).
Definition usable (c : clock) (m : pystr) (fs : gmap pystr bytes) (o : origin) (ext t : string) (x1 x2 : option elem) (e0 : elem) : Prop :=
  is_type m ext t /\ (exists x0, tree_part META_XML fs o = Ok x0 /\ open_meta (created c) (touched c) (generator c) x0 = Ok e0) /\
  tree_part STYLES_XML fs o = Ok x1 /\ tree_part CONTENT_XML fs o = Ok x2 /\
  has_root "office:document-styles" x1 /\ has_root "office:document-content" x2 /\ good_decls t x2.
Lemma q_tree_ok name n f fs g g' : q_tree name n f fs g = (g', Ok tt) <->
  exists x e, tree_part name fs (source g) = Ok x /\ f x = Ok e /\ g' = register name (CObject n) XML_MEDIA (set_object n e g).
Proof.
  unfold q_tree. destruct (tree_part name fs (source g)) as [x|]; cbn [rbind].
  - destruct (f x) as [e|] eqn:E; split; try done; [by intros [= <-]; eexists _, _|by intros (x' & e' & [= <-] & E' & ->); congruence|by intros (x' & e' & [= <-] & E' & ->); congruence].
  - split; [done|]. by intros (x' & e' & ? & _).
Qed.
Lemma abind_ok {S A C} (m : act S A) (f : A -> act S C) s s' c : abind m f s = (s', Ok c) <-> exists s1 a, m s = (s1, Ok a) /\ f a s1 = (s', Ok c).
Proof.
  unfold abind. destruct (m s) as [s1 [a|x]]; split; try done; [by intros H; eexists _, _|by intros (? & ? & [= <- <-] & H)|by intros (? & ? & [=] & _)].
Qed.
Lemma q_packaged_ok c m fs g g' D : q_packaged c (Some m) fs g = (g', Ok D) <->
  exists ext t x1 x2 e0, usable c m fs (source g) ext t x1 x2 e0 /\ D = Doc (zipname (source g)) m ext true /\
    g' = opened_manager m e0 (styles_from x1) (fill CONTENT_PARTS (default (new_elem "office:document-content") x2)) (content_from t x2) g.
Proof.
  assert (Hc : forall e, findall "office:body" (fill CONTENT_PARTS e) <> []).
  { intros e. assert (Hd : NoDup CONTENT_PARTS) by dec_vm. destruct (filled_head "office:body" CONTENT_PARTS e) as [k Hk]; [by do 3 right; left|done|]. by destruct (findall _ _). }
  unfold q_packaged. split.
  - destruct (ext_for m) as [ext|] eqn:Ee; [|done]. rewrite abind_ok. intros (g1 & [] & H1 & H). apply abind_ok in H as (g2 & [] & H2 & H). apply abind_ok in H as (g3 & [] & H3 & H).
    apply q_tree_ok in H1 as (x0 & e0 & A0 & B0 & ->). apply q_tree_ok in H2 as (x1 & e1 & A1 & B1 & ->). apply q_tree_ok in H3 as (x2 & e2 & A2 & B2 & ->). cbn in A0, A1, A2.
    destruct (bodytag_for m) as [t|] eqn:Et; [|done]. assert (HT := proj1 (type_tables m ext t) (conj Ee Et)). destruct (type_body _ _ _ HT) as [Htb Hns].
    rewrite open_styles_eq in B1. destruct (decide _) as [R1|] in B1; [|done]. injection B1 as <-.
    rewrite open_content_eq in B2. rewrite (decide_False (P := x2 = None /\ has_nsmap m = false)) in B2 by (intros [_ ?]; congruence). destruct (decide _) as [R2|] in B2; [|done]. injection B2 as <-.
    set (g3 := register CONTENT_XML _ _ _) in H. change (objects g3 2) with (fill CONTENT_PARTS (default (new_elem "office:document-content") x2)) in H.
    destruct (open_application_body_eq t (fill CONTENT_PARTS (default (new_elem "office:document-content") x2)) Htb (Hc _)) as [[E Hg]| [[x E] _]]; rewrite E in H; [|done].
    injection H as <- <-. exists ext, t, x1, x2, e0. split; [|split; [done|done]]. split; [done|]. split; [by exists x0|]. split; [done|]. split; [done|].
    split; [by apply has_root_default|]. split; [by apply has_root_default|]. apply good_decls_default. by apply (proj1 (good_decls_fill _ _)).
  - intros (ext & t & x1 & x2 & e0 & (HT & (x0 & A0 & B0) & A1 & A2 & R1 & R2 & Hg) & -> & ->). destruct (type_body _ _ _ HT) as [Htb Hns]. destruct (proj2 (type_tables m ext t) HT) as [-> Et].
    rewrite abind_ok. eexists _, tt. split; [apply q_tree_ok; exists x0, e0; split; [exact A0|]; split; [done|reflexivity]|].
    apply abind_ok. eexists _, tt. split; [apply q_tree_ok; exists x1, (styles_from x1); split; [exact A1|]; split; [|reflexivity]; rewrite open_styles_eq, decide_True; [done|by apply has_root_default]|].
    apply abind_ok. eexists _, tt. split; [apply q_tree_ok; exists x2; eexists; split; [exact A2|]; split; [|reflexivity]; rewrite open_content_eq, (decide_False (P := x2 = None /\ has_nsmap m = false)) by (intros [_ ?]; congruence); rewrite decide_True; [done|by apply has_root_default]|].
    rewrite Et. set (g3 := register CONTENT_XML _ _ _). change (objects g3 2) with (fill CONTENT_PARTS (default (new_elem "office:document-content") x2)).
    destruct (open_application_body_eq t (fill CONTENT_PARTS (default (new_elem "office:document-content") x2)) Htb (Hc _)) as [[E _]| [_ Hn]]; [by rewrite E|].
    exfalso. apply Hn. by apply good_decls_fill, good_decls_default.
Qed.

(** ** Managers of opened documents *)
Lemma part_is_get g name c media : tidy g -> part_is g name c media <-> exists f, dict_get name (directory g) = Some f /\ fo_element f = c /\ fo_media f = media.
Proof.
  intros [Hd _]. split; intros (f & H & H1 & H2); exists f; split_and!; try done; [by apply dict_get_nodup|by apply dict_get_in].
Qed.
Lemma part_is_register name c media g name' c' media' : tidy g ->
  part_is (register name c media g) name' c' media' <-> if decide (name = name') then c' = c /\ media' = media else part_is g name' c' media'.
Proof.
  intros Ht. rewrite part_is_get by (by apply register_tidy). change (directory (register name c media g)) with (dict_set name (FObject name c media false) (directory g)).
  setoid_rewrite dict_get_set. destruct (decide (name = name')) as [->|Hn].
  - split; [by intros (f & [= <-] & <- & <-)|]. intros [-> ->]. by eexists.
  - by rewrite part_is_get.
Qed.
Lemma fresh_tidy o e obs : tidy (register MANIFEST_XML CManifest XML_MEDIA (Manager [] o e obs)) /\
  part_is (register MANIFEST_XML CManifest XML_MEDIA (Manager [] o e obs)) MANIFEST_XML CManifest XML_MEDIA.
Proof.
  assert (H : tidy (Manager [] o e obs)) by (split; [apply NoDup_nil_2|apply Forall_nil_2]). split; [by apply register_tidy|]. apply part_is_register; [done|]. by rewrite decide_True.
Qed.
Lemma opened_document m e0 e1 e2' e2 g : tidy g -> part_is g MANIFEST_XML CManifest XML_MEDIA -> document m (opened_manager m e0 e1 e2' e2 g).
Proof.
  intros Ht Hm. unfold opened_manager.
  set (g1 := with_manifest _ g). assert (T1 : tidy g1) by exact Ht. assert (M1 : part_is g1 MANIFEST_XML CManifest XML_MEDIA) by exact Hm.
  set (g2 := register MIMETYPE _ _ g1). assert (T2 : tidy g2) by (by apply register_tidy).
  set (g3 := register META_XML _ _ _). assert (T3 : tidy g3) by (by apply register_tidy).
  set (g4 := register STYLES_XML _ _ _). assert (T4 : tidy g4) by (by apply register_tidy).
  set (g5 := register CONTENT_XML _ _ _). assert (T5 : tidy g5) by (by apply register_tidy).
  assert (HH : forall n c md, part_is g5 n c md <-> if decide (CONTENT_XML = n) then c = CObject 2 /\ md = XML_MEDIA else if decide (STYLES_XML = n) then c = CObject 1 /\ md = XML_MEDIA
     else if decide (META_XML = n) then c = CObject 0 /\ md = XML_MEDIA else if decide (MIMETYPE = n) then c = CBytes (b_enc m) /\ md = [] else part_is g1 n c md).
  { intros n c md. unfold g5. rewrite part_is_register by exact T4. destruct (decide (CONTENT_XML = n)); [done|].
    change (part_is (set_object 2 e2' g4) n c md) with (part_is g4 n c md). unfold g4. rewrite part_is_register by exact T3. destruct (decide (STYLES_XML = n)); [done|].
    change (part_is (set_object 1 e1 g3) n c md) with (part_is g3 n c md). unfold g3. rewrite part_is_register by exact T2. destruct (decide (META_XML = n)); [done|].
    change (part_is (set_object 0 e0 g2) n c md) with (part_is g2 n c md). unfold g2. by rewrite part_is_register. }
  split; [exact T5|]. change (part_is (set_object 2 e2 g5)) with (part_is g5). unfold part_is at 1. 
  split_and!; apply HH; by repeat first [rewrite decide_True by done|rewrite decide_False by done].
Qed.
Lemma media_add path md m p : path <> MANIFEST_XML -> media_of p (manifest_add path md None m) = if decide (p = path) then Some md else media_of p m.
Proof.
  intros Hp. unfold media_of. rewrite manifest_add_entries. destruct (decide (p = path)) as [->|Hn].
  - rewrite decide_True by done. unfold listed. destruct (entries_of path m) as [|k r]; cbn [lookup list_lookup mbind option_bind]; [done|]. destruct k as [n ks]. unfold e_get, e_set. cbn. by rewrite lookup_insert.
  - rewrite decide_False by tauto. done.
Qed.
Lemma add_same path md m : media_of path m = Some md -> manifest_add path md None m = m.
Proof.
  intros H. destruct (manifest_add_cases path md m) as [[_ H1]|[Hp [(l1 & k & l2 & E1 & E2 & E3 & ->)|[E1 _]]]]; [done| |].
  - unfold media_of, entries_of in H. destruct m as [n ks]. cbn [kids] in *. subst ks. rewrite filter_app, filter_all_not, filter_cons_True in H by done. cbn in H.
    unfold on_kids. f_equal. f_equal. f_equal. destruct k as [[tg ats tx tl] ks]. unfold e_get, e_set, on_root, nd_set_attrs in *. cbn in *. f_equal. f_equal. apply insert_id. exact H.
  - unfold media_of, entries_of in H. by rewrite filter_all_not in H.
Qed.
Lemma opened_lists m e0 e1 e2' e2 g : lists m (opened_manager m e0 e1 e2' e2 g).
Proof.
  unfold lists. change (manifest (opened_manager m e0 e1 e2' e2 g)) with
    (manifest_add CONTENT_XML XML_MEDIA None (manifest_add STYLES_XML XML_MEDIA None (manifest_add META_XML XML_MEDIA None (manifest_add MIMETYPE [] None (manifest_add ROOT_PATH m None (manifest g)))))).
  repeat (apply Forall_cons_2; [cbn [fst snd]; rewrite !media_add by done; by repeat first [rewrite decide_True by done|rewrite decide_False by done]|]). apply Forall_nil_2.
Qed.
Lemma lists_manifest m e0 e1 e2' e2 g : lists m g -> manifest (opened_manager m e0 e1 e2' e2 g) = manifest g.
Proof.
  intros H. unfold lists in H. apply Forall_cons in H as [H1 H]. apply Forall_cons in H as [H2 H]. apply Forall_cons in H as [H3 H]. apply Forall_cons in H as [H4 H]. apply Forall_cons in H as [H5 _]. cbn [fst snd] in *.
  change (manifest (opened_manager m e0 e1 e2' e2 g)) with
    (manifest_add CONTENT_XML XML_MEDIA None (manifest_add STYLES_XML XML_MEDIA None (manifest_add META_XML XML_MEDIA None (manifest_add MIMETYPE [] None (manifest_add ROOT_PATH m None (manifest g)))))).
  by rewrite (add_same ROOT_PATH), (add_same MIMETYPE), (add_same META_XML), (add_same STYLES_XML), (add_same CONTENT_XML).
Qed.

(** the trees *)
Lemma content_complete t x : t <> "office:body"%string -> let e := content_from t x in
  has_children CONTENT_PARTS e /\ (exists b y, head (findall "office:body" e) = Some b /\ head (findall t b) = Some y /\ has_children DECLS y) /\
  (good_decls t x -> good_decls t (Some e)) /\ root e = root (default (new_elem "office:document-content") x).
Proof.
  intros Htb. cbn zeta. unfold content_from. set (e0 := default _ x). set (f := fun b => within t (fill DECLS) (fill [t] b)).
  assert (Hd : NoDup CONTENT_PARTS) by dec_vm. assert (Hd2 : NoDup DECLS) by dec_vm. assert (Hc := fill_children CONTENT_PARTS e0 Hd).
  assert (Hf : forall k, e_tag k = "office:body"%string -> e_tag (f k) = "office:body"%string) by (by intros k Hk).
  destruct (filled_head "office:body" CONTENT_PARTS e0) as [b Hb]; [by do 3 right; left|done|].
  destruct (filled_head t [t] b) as [y Hy]; [by left|apply NoDup_singleton|].
  assert (Hb' : head (findall "office:body" (within "office:body" f (fill CONTENT_PARTS e0))) = Some (f b)).
  { rewrite findall_within by done. destruct (findall "office:body" (fill CONTENT_PARTS e0)); [done|]. by injection Hb as ->. }
  assert (Hy' : head (findall t (f b)) = Some (fill DECLS y)).
  { unfold f. rewrite findall_within by done. destruct (findall t (fill [t] b)); [done|]. by injection Hy as ->. }
  split_and!.
  - unfold has_children in *. rewrite Forall_forall in Hc |- *. intros u Hu. specialize (Hc u Hu). destruct (decide (u = "office:body"%string)) as [->|Hn]; [by destruct (findall _ (within _ _ _))|].
    unfold findall, within in *. cbn [kids] in *. by rewrite filter_in_first_other.
  - exists (f b), (fill DECLS y). split; [done|]. split; [done|]. by apply fill_children.
  - intros Hg e b1 y1 u k [= <-] Hb1 Hy1 Hu Hk. rewrite Hb' in Hb1. injection Hb1 as <-. rewrite Hy' in Hy1. injection Hy1 as <-.
    destruct (filled_head_cases _ _ _ _ Hd2 Hk) as [Hk'| [_ ->]]; [|apply Forall_nil_2].
    destruct (filled_head_cases _ _ _ _ (NoDup_singleton t) Hy) as [Hy2| [_ ->]]; [|done].
    destruct (filled_head_cases _ _ _ _ Hd Hb) as [Hb2| [_ ->]]; [|done].
    apply good_decls_default in Hg. by apply (Hg e0 b y u k).
  - done.
Qed.
Lemma content_again t e : has_children CONTENT_PARTS e -> (exists b y, head (findall "office:body" e) = Some b /\ head (findall t b) = Some y /\ has_children DECLS y) ->
  content_from t (Some e) = e.
Proof.
  intros Hc (b & y & Hb & Hy & Hd). unfold content_from. cbn [default id]. rewrite (fill_same CONTENT_PARTS) by done. apply (within_id _ _ _ b Hb).
  rewrite (fill_same [t]); [|apply Forall_singleton; by destruct (findall t b)]. apply (within_id _ _ _ y Hy). by apply fill_same.
Qed.
Lemma open_meta_tail now0 now gen x r : open_meta now0 now gen x = Ok r -> (forall e, x = Some e -> e_tail e = None) -> e_tail r = None.
Proof.
  intros H Hx. assert (He : exists e, open_meta now0 now gen (Some e) = Ok r /\ e_tail e = None).
  { destruct x as [e|]; [exists e; split; [done|by apply Hx]|]. exists (new_elem "office:document-meta"). by rewrite <- open_new. }
  clear H Hx x. destruct He as (e & H & He). destruct (decide (e_tag e = "office:document-meta"%string)) as [Ht|Ht]; [|by rewrite open_wrong in H].
  destruct (first_kid (has_tag "office:meta") e) as [[i m]|] eqn:E.
  - rewrite (open_existing _ _ _ _ _ _ Ht E) in H. by injection H as <-.
  - rewrite (open_without _ _ _ _ Ht E) in H. by injection H as <-.
Qed.
Lemma tree_part_tail name fs o x : tree_part name fs o = Ok x -> forall e, x = Some e -> e_tail e = None.
Proof.
  unfold tree_part. destruct (part name fs o) as [[b|]|]; cbn [rbind]; [|by intros [= <-]|done]. destruct (b_null b); [by intros [= <-]|]. destruct (b_parse b) as [e|] eqn:E; [|done].
  intros [= <-] e' [= <-]. by apply (b_parse_tail b).
Qed.
Lemma opened_complete c m fs o ext t x1 x2 e0 e2' g : usable c m fs o ext t x1 x2 e0 -> e_tail (manifest g) = None ->
  complete t (opened_manager m e0 (styles_from x1) e2' (content_from t x2) g).
Proof.
  intros (HT & (x0 & A0 & B0) & A1 & A2 & R1 & R2 & Hg) Hm. destruct (type_body _ _ _ HT) as [Htb _]. destruct (content_complete t x2 Htb) as (C1 & C2 & C3 & C4).
  set (g' := opened_manager _ _ _ _ _ _). change (complete t g') with (complete t (Manager (directory g') (source g') (manifest g') (objects g'))).
  unfold complete. cbn [objects manifest]. change (objects g' 0) with e0. change (objects g' 1) with (styles_from x1). change (objects g' 2) with (content_from t x2).
  destruct (open_stats _ _ _ _ _ B0) as (S1 & i & mm & S2 & S3). split_and!.
  - done.
  - exists mm. split; [|by apply Forall_singleton]. rewrite <- first_kid_tag, S2. done.
  - unfold e_tag. change (root (styles_from x1)) with (root (default (new_elem "office:document-styles") x1)). by apply has_root_default.
  - apply fill_children. dec_vm.
  - unfold e_tag. rewrite C4. by apply has_root_default.
  - done.
  - done.
  - by apply C3.
  - repeat (apply Forall_cons_2); [| | | |apply Forall_nil_2].
    + unfold g'. change (manifest (opened_manager m e0 (styles_from x1) e2' (content_from t x2) g)) with
        (manifest_add CONTENT_XML XML_MEDIA None (manifest_add STYLES_XML XML_MEDIA None (manifest_add META_XML XML_MEDIA None (manifest_add MIMETYPE [] None (manifest_add ROOT_PATH m None (manifest g)))))).
      unfold e_tail. by rewrite !manifest_add_root.
    + eapply open_meta_tail; [exact B0|]. by eapply tree_part_tail.
    + unfold e_tail. change (root (styles_from x1)) with (root (default (new_elem "office:document-styles") x1)). assert (H := tree_part_tail _ _ _ _ A1). destruct x1 as [e|]; [by apply H|done].
    + unfold e_tail. rewrite C4. assert (H := tree_part_tail _ _ _ _ A2). destruct x2 as [e|]; [by apply H|done].
Qed.
Lemma open_meta_again now0 now gen e m : e_tag e = "office:document-meta"%string -> head (findall "office:meta" e) = Some m -> has_stats m -> open_meta now0 now gen (Some e) = Ok e.
Proof.
  intros Ht Hm Hs. assert (Hh := first_kid_tag "office:meta" e). rewrite Hm in Hh. destruct (first_kid (has_tag "office:meta") e) as [[i k]|] eqn:E; [|done]. injection Hh as ->.
  rewrite (open_existing _ _ _ _ _ _ Ht E). destruct (with_stats_ok m) as (_ & _ & _ & H & _). rewrite H by done. apply list_find_Some in E as (E & _). rewrite list_insert_id by done. by destruct e.
Qed.

(** ** Opening *)
Definition q_opendoc (c : clock) (o : origin) (fs : gmap pystr bytes) : act manager doc :=
  let! _ := q_manager o fs in let! m := q_detect fs in q_packaged c m fs.
Definition fresh (o : origin) (e : elem) (obs : N -> elem) : manager := register MANIFEST_XML CManifest XML_MEDIA (Manager [] o e obs).
Lemma fresh_manifest o e obs : manifest (fresh o e obs) = e /\ source (fresh o e obs) = o.
Proof. done. Qed.
Lemma expect_opendoc c d s : no_failure s ->
  expect (10 * cost (origin_of d)) s (opendoc c d s) (q_opendoc c (origin_of d) (files (mach s)) (mgr s)).2 (q_opendoc c (origin_of d) (files (mach s)) (mgr s)).1.
Proof. intros Hn. by apply (mirrors_opendoc c d s Hn). Qed.
Lemma splitext_dot p : splitext p = [] \/ exists r, splitext p = 46%N :: r.
Proof.
  unfold splitext. assert (H : forall r e b, till_dot r = Some (e, b) -> exists e', e = e' ++ [46%N]).
  { induction r as [|x r IH]; [done|]. cbn. intros e b. destruct (decide (x = 46%N)) as [->|]; [intros [= <- <-]; by exists []|]. destruct (decide (x = 47%N)); [done|].
    destruct (till_dot r) as [[e1 b1]|]; [|done]. intros [= <- <-]. destruct (IH e1 b1 eq_refl) as [e' ->]. by exists (x :: e'). }
  destruct (till_dot (reverse p)) as [[e b]|] eqn:E; [|by left]. destruct (only_dots b); [by left|]. right. destruct (H _ _ _ E) as [e' ->]. exists (reverse e'). by rewrite reverse_app.
Qed.
Lemma extension_never p : list_find (fun q : string * string => lit q.1 = splitext p) MIMETYPES = None.
Proof.
  apply list_find_None. destruct (splitext_dot p) as [-> |[r ->]].
  - repeat (apply Forall_cons_2; [by vm_compute|]). apply Forall_nil_2.
  - repeat (apply Forall_cons_2; [intros H; apply (f_equal head) in H; vm_compute in H; discriminate H|]). apply Forall_nil_2.
Qed.
Lemma manifest_find_media path e : match manifest_find path e with Some (_, k) => media_of path e = e_get MEDIA k | None => entries_of path e = [] end.
Proof.
  unfold media_of, entries_of, manifest_find. assert (H := find_head (is_entry path) (kids e)).
  replace (filter (λ k : elem, e_get PATH k = Some path) (kids e)) with (filter (is_entry path) (kids e)) by (by apply filter_dec_irrel).
  destruct (list_find (is_entry path) (kids e)) as [[i k]|]; cbn in H; [|by destruct (filter _ _)]. destruct (filter (is_entry path) (kids e)); [done|]. cbn in *. by injection H as ->.
Qed.
Lemma detect_eq fs o e obs m : manifest_part fs o = Ok e -> (q_detect fs (fresh o e obs)).2 = Ok (Some m) <-> declared fs o (Some m).
Proof.
  intros He. unfold q_detect, declared, text_part. cbn [fst snd]. change (source (fresh o e obs)) with o. change (manifest (fresh o e obs)) with e. change (lit "mimetype") with MIMETYPE.
  destruct (part MIMETYPE fs o) as [[b|]|x]; cbn [rbind].
  - destruct (b_dec b) as [t|]; cbn [rbind]; split; congruence.
  - assert (H := manifest_find_media ROOT_PATH e). destruct (manifest_find ROOT_PATH e) as [[i k]|].
    + split; [intros [= H1]; exists e; split; [done|]; exact (eq_trans H H1)|]. intros (e' & He' & Hm). rewrite He in He'. injection He' as <-. change (lit "/") with ROOT_PATH in Hm. by rewrite <- H, Hm.
    + split; [destruct (zipname o); [by rewrite extension_never|done]|]. intros (e' & He' & Hm). rewrite He in He'. injection He' as <-. change (lit "/") with ROOT_PATH in Hm. unfold media_of in Hm. by rewrite H in Hm.
  - done.
Qed.
Lemma q_detect_state fs g : (q_detect fs g).1 = g.
Proof. done. Qed.
Lemma q_opendoc_ok c o fs g g' D : q_opendoc c o fs g = (g', Ok D) <->
  exists em m ext t x1 x2 e0, manifest_part fs o = Ok em /\ declared fs o (Some m) /\ usable c m fs o ext t x1 x2 e0 /\ D = Doc (zipname o) m ext true /\
    g' = opened_manager m e0 (styles_from x1) (fill CONTENT_PARTS (default (new_elem "office:document-content") x2)) (content_from t x2) (fresh o em (objects g)).
Proof.
  unfold q_opendoc. rewrite abind_ok. split.
  - intros (g1 & [] & H1 & H). apply abind_ok in H as (g2 & m & H2 & H3). unfold q_manager in H1. destruct (manifest_part fs o) as [em|] eqn:Em; [|done]. injection H1 as <-.
    fold (fresh o em (objects g)) in *. assert (g2 = fresh o em (objects g)) as -> by (by rewrite <- (q_detect_state fs (fresh o em (objects g))), H2).
    destruct m as [m|]; [|done]. apply q_packaged_ok in H3 as (ext & t & x1 & x2 & e0 & H3 & -> & ->). exists em, m, ext, t, x1, x2, e0. split; [done|]. split; [by rewrite <- (detect_eq _ _ _ (objects g) _ Em), H2|]. done.
  - intros (em & m & ext & t & x1 & x2 & e0 & Em & Hd & Hu & -> & ->). eexists _, tt. split; [unfold q_manager; rewrite Em; reflexivity|]. fold (fresh o em (objects g)). apply abind_ok. exists (fresh o em (objects g)), (Some m).
    split; [rewrite <- (detect_eq _ _ _ (objects g) _ Em) in Hd; unfold q_detect in *; cbn [snd] in Hd; by rewrite Hd|].
    apply q_packaged_ok. by exists ext, t, x1, x2, e0.
Qed.
Lemma manifest_part_tail fs o e : manifest_part fs o = Ok e -> e_tail e = None.
Proof.
  unfold manifest_part. destruct (part _ fs o) as [[b|]|]; cbn [rbind]; [|by intros [= <-]|done]. destruct (b_parse b) as [e'|] eqn:E; [|done]. intros [= <-]. by apply (b_parse_tail b).
Qed.

(** ** Trees that were written and parsed *)
Lemma parsed_tag e : e_tag (parsed e) = e_tag e.
Proof. by destruct e. Qed.
Lemma parsed_get k e : e_get k (parsed e) = e_get k e.
Proof. by destruct e. Qed.
Lemma parsed_kids e : kids (parsed e) = map parsed (kids e).
Proof. by destruct e. Qed.
Lemma parsed_tail e : e_tail e = None -> e_tail (parsed e) = None.
Proof. destruct e as [a ks]. unfold e_tail. cbn. by intros ->. Qed.
Lemma parsed_filter (P : elem -> Prop) `{forall e, Decision (P e)} l : (forall e, P (parsed e) <-> P e) -> filter P (map parsed l) = map parsed (filter P l).
Proof.
  intros HP. induction l as [|k l IH]; [done|]. cbn [map]. destruct (decide (P k)) as [Hk|Hk].
  - rewrite !filter_cons_True by (done || by apply HP). cbn. by rewrite IH.
  - rewrite !filter_cons_False by (done || by rewrite HP). done.
Qed.
Lemma parsed_findall t e : findall t (parsed e) = map parsed (findall t e).
Proof. unfold findall. rewrite parsed_kids. apply parsed_filter. intros k. by rewrite parsed_tag. Qed.
Lemma parsed_head t e : head (findall t (parsed e)) = parsed <$> head (findall t e).
Proof. rewrite parsed_findall. by destruct (findall t e). Qed.
Lemma parsed_children l e : has_children l e -> has_children l (parsed e).
Proof. intros H. eapply Forall_impl; [exact H|]. cbn. intros t Ht. rewrite parsed_findall. by destruct (findall t e). Qed.
Lemma parsed_decls t e : good_decls t (Some e) -> good_decls t (Some (parsed e)).
Proof.
  intros H e' b y u k [= <-] Hb Hy Hu Hk. rewrite parsed_head in Hb. destruct (head (findall "office:body" e)) as [b0|] eqn:Eb; [|done]. injection Hb as <-.
  rewrite parsed_head in Hy. destruct (head (findall t b0)) as [y0|] eqn:Ey; [|done]. injection Hy as <-.
  rewrite parsed_head in Hk. destruct (head (findall u y0)) as [k0|] eqn:Ek; [|done]. injection Hk as <-.
  rewrite parsed_kids. apply Forall_map. eapply Forall_impl; [exact (H e b0 y0 u k0 eq_refl Eb Ey Hu Ek)|]. cbn. intros n. by rewrite parsed_tag.
Qed.
Lemma parsed_media p e : media_of p (parsed e) = media_of p e.
Proof.
  unfold media_of, entries_of. rewrite parsed_kids, parsed_filter by (intros k; by rewrite parsed_get).
  destruct (filter _ (kids e)) as [|k l]; [done|]. change (e_get MEDIA (parsed k) = e_get MEDIA k). by rewrite parsed_get.
Qed.
(** the manager with the trees as they are read again *)
Definition parsed_manager (g : manager) : manager := Manager (directory g) (source g) (parsed (manifest g)) (fun n => parsed (objects g n)).
(** what [complete] says more *)
Definition furnished (t : string) (g : manager) : Prop :=
  has_children STYLES_PARTS (objects g 1) /\ has_children CONTENT_PARTS (objects g 2) /\
  exists b y, head (findall "office:body" (objects g 2)) = Some b /\ head (findall t b) = Some y /\ has_children DECLS y.
Lemma complete_iff t g : complete t g <-> rooted t g /\ furnished t g.
Proof. unfold complete, rooted, furnished. tauto. Qed.
Lemma parsed_rooted t g : rooted t g -> rooted t (parsed_manager g).
Proof.
  intros ((A1 & mm & A2 & A3) & B1 & C1 & Hg & Htl). unfold rooted, parsed_manager. cbn [objects manifest].
  rewrite !parsed_tag. split_and!; try done.
  - exists (parsed mm). rewrite parsed_head, A2. split; [done|by apply parsed_children].
  - by apply parsed_decls.
  - apply Forall_cons in Htl as [T1 Htl]. apply Forall_cons in Htl as [T2 Htl]. apply Forall_cons in Htl as [T3 Htl]. apply Forall_cons in Htl as [T4 _].
    repeat (apply Forall_cons_2; [by apply parsed_tail|]). apply Forall_nil_2.
Qed.
Lemma parsed_furnished t g : furnished t g -> furnished t (parsed_manager g).
Proof.
  intros (B2 & C2 & b & y & C3 & C4 & C5). unfold furnished, parsed_manager. cbn [objects]. split_and!; try (by apply parsed_children).
  exists (parsed b), (parsed y). rewrite !parsed_head, C3, C4. split_and!; try done. by apply parsed_children.
Qed.
Lemma parsed_complete t g : complete t g -> complete t (parsed_manager g).
Proof. rewrite !complete_iff. intros [H1 H2]. split; [by apply parsed_rooted|by apply parsed_furnished]. Qed.
Lemma parsed_lists m g : lists m g -> lists m (parsed_manager g).
Proof. intros H. eapply Forall_impl; [exact H|]. cbn. intros p. by rewrite parsed_media. Qed.

(** ** Opening what was stored *)
(** the parts of the document with manager [g] can be read *)
Definition stored_parts (m : pystr) (g : manager) (fs : gmap pystr bytes) (o : origin) : Prop :=
  part MIMETYPE fs o = Ok (Some (b_enc m)) /\ part MANIFEST_XML fs o = Ok (Some (b_xml true (manifest g))) /\
  part META_XML fs o = Ok (Some (b_xml true (objects g 0))) /\ part STYLES_XML fs o = Ok (Some (b_xml true (objects g 1))) /\
  part CONTENT_XML fs o = Ok (Some (b_xml true (objects g 2))).
Lemma tree_part_stored name fs o e : part name fs o = Ok (Some (b_xml true e)) -> e_tail e = None -> tree_part name fs o = Ok (Some (parsed e)).
Proof. intros H Ht. unfold tree_part. rewrite H. cbn [rbind]. by rewrite b_null_xml, b_parse_xml. Qed.
Lemma q_reopen_any c m ext t g fs o g0 : is_type m ext t -> rooted t g -> stored_parts m g fs o ->
  exists g', q_opendoc c o fs g0 = (g', Ok (Doc (zipname o) m ext true)) /\
    objects g' 0 = parsed (objects g 0) /\ objects g' 1 = styles_from (Some (parsed (objects g 1))) /\ objects g' 2 = content_from t (Some (parsed (objects g 2))) /\
    (lists m g -> manifest g' = parsed (manifest g)) /\ source g' = o.
Proof.
  intros HT Hrooted (P1 & P2 & P3 & P4 & P5). destruct (parsed_rooted _ _ Hrooted) as ((A1 & mm & A2 & A3) & B1 & C1 & Hg & _).
  cbn [parsed_manager objects] in A1, A2, B1, C1, Hg. destruct Hrooted as (_ & _ & _ & _ & Htl).
  apply Forall_cons in Htl as [T1 Htl]. apply Forall_cons in Htl as [T2 Htl]. apply Forall_cons in Htl as [T3 Htl]. apply Forall_cons in Htl as [T4 _].
  eexists. split.
  - apply q_opendoc_ok. exists (parsed (manifest g)), m, ext, t, (Some (parsed (objects g 1))), (Some (parsed (objects g 2))), (parsed (objects g 0)). split_and!.
    + unfold manifest_part. change (lit "META-INF/manifest.xml") with MANIFEST_XML. rewrite P2. cbn [rbind]. by rewrite b_parse_xml.
    + unfold declared. change (lit "mimetype") with MIMETYPE. rewrite P1. apply b_dec_enc.
    + split_and!; try done.
      * exists (Some (parsed (objects g 0))). split; [by apply tree_part_stored|]. apply Forall_inv in A3. by apply (open_meta_again _ _ _ _ mm).
      * by apply tree_part_stored.
      * by apply tree_part_stored.
      * by intros e [= <-].
      * by intros e [= <-].
    + done.
    + reflexivity.
  - split_and!; try done.
    intros Hl. exact (lists_manifest m _ _ _ _ (fresh o (parsed (manifest g)) (objects g0)) (parsed_lists _ _ Hl)).
Qed.
Lemma furnished_again t g : furnished t g -> styles_from (Some (objects g 1)) = objects g 1 /\ content_from t (Some (objects g 2)) = objects g 2.
Proof. intros (B2 & C2 & C3). split; [unfold styles_from; cbn [default id]; by apply fill_same|by apply content_again]. Qed.
Lemma furnished_objects t g g' : (forall n, n <> 0%N -> objects g' n = objects g n) -> furnished t g -> furnished t g'.
Proof. intros E. unfold furnished. by rewrite !E. Qed.
Lemma package_part g src rest es name b : package g src rest es -> part_bytes g name = Some (Ok b) -> zip_read name es = Ok b.
Proof.
  intros (_ & H & _) Hb. assert (Hr : registered g name). { apply registered_get. rewrite part_bytes_get in Hb. by destruct (dict_get name (directory g)). }
  destruct (H name Hr) as (b' & st & H1 & H2). rewrite Hb in H1. injection H1 as <-. unfold zip_read, zip_find. by rewrite H2.
Qed.
Lemma document_bytes m g : document m g ->
  part_bytes g MIMETYPE = Some (Ok (b_enc m)) /\ part_bytes g MANIFEST_XML = Some (Ok (b_xml true (manifest g))) /\
  part_bytes g META_XML = Some (Ok (b_xml true (objects g 0))) /\ part_bytes g STYLES_XML = Some (Ok (b_xml true (objects g 1))) /\
  part_bytes g CONTENT_XML = Some (Ok (b_xml true (objects g 2))).
Proof.
  intros (Ht & H1 & H2 & H3 & H4 & H5). rewrite !part_bytes_get.
  apply part_is_get in H1 as (f1 & D1 & E1 & M1), H2 as (f2 & D2 & E2 & M2), H3 as (f3 & D3 & E3 & M3), H4 as (f4 & D4 & E4 & M4), H5 as (f5 & D5 & E5 & M5); [|done..].
  unfold MIMETYPE, MANIFEST_XML, META_XML, STYLES_XML, CONTENT_XML. rewrite D1, D2, D3, D4, D5. cbn [fmap option_fmap option_map]. unfold fo_bytes. rewrite E1, E2, E3, E4, E5, M2, M3, M4, M5.
  by rewrite !bool_decide_true by done.
Qed.
Lemma package_stored m g src rest es fs o : document m g -> package g src rest es ->
  (forall name, part name fs o = match zip_read name es with Ok b => Ok (Some b) | Err KeyError => Ok None | Err x => Err x end) -> stored_parts m g fs o.
Proof.
  intros Hd Hp Ho. destruct (document_bytes m g Hd) as (P1 & P2 & P3 & P4 & P5). unfold stored_parts. rewrite !Ho.
  rewrite (package_part _ _ _ _ _ _ Hp P1), (package_part _ _ _ _ _ _ Hp P2), (package_part _ _ _ _ _ _ Hp P3), (package_part _ _ _ _ _ _ Hp P4), (package_part _ _ _ _ _ _ Hp P5). done.
Qed.
(** ** Saving *)
Lemma meta_step (o : mop) r m : head (findall "office:meta" r) = Some m -> has_stats m ->
  exists m', (on_meta (step o) r).1 = within "office:meta" (fun _ => m') r /\ (on_meta (step o) r).2 = (step o m).2 /\ e_tag m' = "office:meta"%string /\ has_stats m' /\ m' = (step o m).1 /\
  head (findall "office:meta" (on_meta (step o) r).1) = Some m'.
Proof.
  intros Hm Hs. assert (Hh := first_kid_tag "office:meta" r). rewrite Hm in Hh. destruct (first_kid (has_tag "office:meta") r) as [[i k]|] eqn:E; [|done]. injection Hh as ->.
  rewrite (on_meta_eq _ _ _ _ E). exists (step o m).1. cbn [fst snd]. assert (Ht : e_tag (step o m).1 = "office:meta"%string) by (rewrite step_tag by done; by eapply findall_tag_head).
  assert (E2 : T (root r) (<[i:=(step o m).1]> (kids r)) = within "office:meta" (fun _ => (step o m).1) r).
  { unfold within. f_equal. symmetry. by apply (in_first_insert _ (fun _ => (step o m).1)) in E. }
  split_and!; try done.
  - by apply step_stats.
  - rewrite E2, findall_within by done. by destruct (findall "office:meta" r).
Qed.
Lemma rooted_meta t g e m : rooted t g -> root e = root (objects g 0) -> head (findall "office:meta" e) = Some m -> has_stats m -> rooted t (set_object 0 e g).
Proof.
  intros ((A1 & mm & A2 & A3) & B1 & C1 & Hg & Htl) Hr Hm Hs.
  apply Forall_cons in Htl as [T1 Htl]. apply Forall_cons in Htl as [T2 Htl]. unfold rooted. change (objects (set_object 0 e g) 0) with e.
  change (objects (set_object 0 e g) 1) with (objects g 1). change (objects (set_object 0 e g) 2) with (objects g 2). change (manifest (set_object 0 e g)) with (manifest g).
  split_and!; try done.
  - unfold e_tag in *. by rewrite Hr.
  - exists m. split; [done|]. by apply Forall_singleton.
  - apply Forall_cons_2; [done|]. apply Forall_cons_2; [|done]. unfold e_tail in *. by rewrite Hr.
Qed.
Lemma on_meta_step t g (o : mop) : rooted t g -> let e := (on_meta (step o) (objects g 0)).1 in
  rooted t (set_object 0 e g) /\ e = play_doc [o] (objects g 0).
Proof.
  intros Hc. pose proof Hc as ((A1 & mm & A2 & A3) & _). apply Forall_inv in A3. destruct (meta_step o _ _ A2 A3) as (m' & E1 & E2 & E3 & E4 & E5 & E6). cbn zeta. split; [|done].
  apply (rooted_meta t g _ m'); try done. by rewrite E1.
Qed.
Lemma rooted_replaced t body g e : rooted body g -> e_tag e = "office:document-content"%string -> good_decls t (Some e) -> e_tail e = None -> rooted t (set_object 2 e g).
Proof.
  intros (A & B1 & C1 & Hg & Htl) Ht Hd Hl. unfold rooted. change (objects (set_object 2 e g) 0) with (objects g 0).
  change (objects (set_object 2 e g) 1) with (objects g 1). change (objects (set_object 2 e g) 2) with e. change (manifest (set_object 2 e g)) with (manifest g).
  split; [exact A|]. split_and!; try done. apply Forall_cons in Htl as [T1 Htl]. apply Forall_cons in Htl as [T2 Htl]. apply Forall_cons in Htl as [T3 Htl].
  repeat (apply Forall_cons_2; [done|]). apply Forall_nil_2.
Qed.
Lemma pushed_document m g f : document m g -> dict_get MIMETYPE (directory g) = Some f -> document m (pushed f g).
Proof.
  intros (Ht & H) Hf. assert (Ht' := pushed_tidy f g Hf Ht). split; [done|].
  assert (HH : forall n c md, part_is g n c md -> part_is (pushed f g) n c md).
  { intros n c md. rewrite !part_is_get by done. intros (f' & E1 & E2 & E3). rewrite pushed_dir by done. destruct (decide (n = MIMETYPE)) as [->|]; [|by exists f'].
    exists (stored_part f). rewrite Hf in E1. injection E1 as <-. done. }
  destruct H as (H1 & H2 & H3 & H4 & H5). split_and!; by apply HH.
Qed.
(** ** Unsupported types *)
Lemma meta_opens now0 now gen x : has_root "office:document-meta" x -> exists e, open_meta now0 now gen x = Ok e.
Proof.
  intros R0. destruct x as [e|]; [|rewrite open_new; eexists; by apply open_without].
  assert (Ht : e_tag e = "office:document-meta"%string) by (by apply R0). destruct (first_kid (has_tag "office:meta") e) as [[i k]|] eqn:Ek; eexists; [by eapply open_existing|by apply open_without].
Qed.
Definition readable (fs : gmap pystr bytes) (o : origin) (x0 x1 x2 : option elem) : Prop :=
  tree_part META_XML fs o = Ok x0 /\ tree_part STYLES_XML fs o = Ok x1 /\ tree_part CONTENT_XML fs o = Ok x2 /\
  has_root "office:document-meta" x0 /\ has_root "office:document-styles" x1 /\ has_root "office:document-content" x2.
Lemma q_packaged_unsupported c m fs g x0 x1 x2 : (~ exists ext t, is_type m ext t) -> readable fs (source g) x0 x1 x2 -> (q_packaged c (Some m) fs g).2 = Err KeyError.
Proof.
  intros HT (A0 & A1 & A2 & R0 & R1 & R2). unfold q_packaged. destruct (ext_for m) as [ext|] eqn:Ee; [|done].
  assert (Et : bodytag_for m = None). { destruct (bodytag_for m) as [t|] eqn:Et; [|done]. exfalso. apply HT. exists ext, t. by apply type_tables. }
  destruct (meta_opens (created c) (touched c) (generator c) x0 R0) as [e0 B0]. unfold abind, q_tree. cbn [source register with_manifest with_directory set_object].
  rewrite A0. cbn [rbind]. rewrite B0. cbn [source register with_manifest with_directory set_object]. rewrite A1. cbn [rbind]. rewrite open_styles_eq, decide_True by (by apply has_root_default).
  cbn [source register with_manifest with_directory set_object]. rewrite A2. cbn [rbind]. rewrite open_content_eq. case_decide; [done|]. rewrite decide_True by (by apply has_root_default). by rewrite Et.
Qed.
(** ** Templates and new documents *)
Lemma mirrors_catch {A} src o k (m : P A) F q : mirrors src o k m q ->
  mirrors src o k (pcatch m (fun x => praise (F x))) (fun fs g => let '(g', r) := q fs g in (g', match r with Ok a => Ok a | Err x => Err (F x) end)).
Proof.
  intros H s Hn Hs. destruct (H s Hn Hs) as [H1 H2]. destruct (q (files (mach s)) (mgr s)) as [g' r]. cbn [fst snd] in *. split; [|done].
  unfold expect, pcatch in *. destruct (m s) as [s' [|[a|x]]]; cbn in *; [done| |]; destruct H1 as (<- & H1); done.
Qed.
Definition named (f : pystr) (d : doc) : doc := Doc (Some f) (mimetype d) (doctype d) (backup d).
Definition q_new (c : clock) (m f : pystr) (fs : gmap pystr bytes) : act manager doc :=
  let! _ := q_manager NoSource fs in let! d := q_packaged c (Some m) fs in aret (named f d).
Lemma mirrors_new c m f : mirrors None NoSource 0 (run _ := new_manager NoSource in run d := packaged c (Some m) in pret (named f d)) (q_new c m f).
Proof.
  assert (H : mirrors None NoSource 8 (run _ := new_manager NoSource in run d := packaged c (Some m) in pret (named f d)) (q_new c m f)).
  { apply (mirrors_bind _ _ 2 6 _ _ (q_manager NoSource) (fun _ fs => let! d := q_packaged c (Some m) fs in aret (named f d))); [apply mirrors_manager|]. intros _.
    apply (mirrors_bind _ _ 6 0 _ _ (q_packaged c (Some m)) (fun d fs => aret (named f d))); [apply mirrors_packaged|]. intros d. apply mirrors_ret. }
  intros s Hn Hs. apply (H s Hn Hs).
Qed.
Lemma q_new_ok c m f fs g g' D : q_new c m f fs g = (g', Ok D) <->
  exists ext t x1 x2 e0, usable c m fs NoSource ext t x1 x2 e0 /\ D = Doc (Some f) m ext true /\
    g' = opened_manager m e0 (styles_from x1) (fill CONTENT_PARTS (default (new_elem "office:document-content") x2)) (content_from t x2) (fresh NoSource (new_elem "manifest:manifest") (objects g)).
Proof.
  unfold q_new. rewrite abind_ok. split.
  - intros (g1 & [] & H1 & H). injection H1 as <-. apply abind_ok in H as (g2 & d & H2 & H3). injection H3 as <- <-.
    apply q_packaged_ok in H2 as (ext & t & x1 & x2 & e0 & H2 & -> & ->). by exists ext, t, x1, x2, e0.
  - intros (ext & t & x1 & x2 & e0 & Hu & -> & ->). eexists _, tt. split; [reflexivity|]. apply abind_ok. eexists _, _. split; [apply q_packaged_ok; exists ext, t, x1, x2, e0; done|]. done.
Qed.
Definition invalid (x : exn) : exn := if decide (x = KeyError) then InvalidFiletypeError else x.
Definition q_template (c : clock) (f : pystr) (o : origin) (fs : gmap pystr bytes) : act manager doc :=
  let! _ := q_manager o fs in
  let! m := (fun g => (g, text_part MIMETYPE fs (source g))) in
  match m with
  | None => araise AttributeError
  | Some m => let! d := (fun g => let '(g', r) := q_packaged c (Some (strip_template m)) fs g in (g', match r with Ok a => Ok a | Err x => Err (invalid x) end)) in aret (named f d)
  end.
Definition template_body (c : clock) (f : pystr) (o : origin) : P doc :=
  run _ := new_manager o in
  run m := get_text MIMETYPE in
  match m with
  | None => praise AttributeError
  | Some m => run d := pcatch (packaged c (Some (strip_template m))) (fun x => praise (invalid x)) in pret (named f d)
  end.
Lemma mirrors_template c f o : mirrors None o 10 (template_body c f o) (q_template c f o).
Proof.
  unfold template_body, q_template.
  set (fin := fun (m : option pystr) (fs : gmap pystr bytes) => match m with
    | None => araise AttributeError
    | Some m => let! d := (fun g => let '(g', r) := q_packaged c (Some (strip_template m)) fs g in (g', match r with Ok a => Ok a | Err x => Err (invalid x) end)) in aret (named f d)
    end).
  apply (mirrors_bind _ _ 2 8 _ _ (q_manager o) (fun _ fs => let! m := (fun g => (g, text_part MIMETYPE fs (source g))) in fin m fs)); [apply mirrors_manager|]. intros _.
  apply (mirrors_bind _ _ 2 6 _ _ (fun fs g => (g, text_part MIMETYPE fs (source g))) fin); [apply mirrors_text|]. intros [m|]; [|apply (mirrors_weak _ _ 0 6); [lia|]; apply mirrors_raise].
  unfold fin. apply (mirrors_bind _ _ 6 0 _ _ (fun fs g => let '(g', r) := q_packaged c (Some (strip_template m)) fs g in (g', match r with Ok a => Ok a | Err x => Err (invalid x) end)) (fun d fs => aret (named f d))).
  - apply (mirrors_catch _ _ 6 _ invalid). apply mirrors_packaged.
  - intros d. apply mirrors_ret.
Qed.
Lemma q_template_ok c f o fs g g' D : q_template c f o fs g = (g', Ok D) <->
  exists em mt ext t x1 x2 e0, let m := strip_template mt in manifest_part fs o = Ok em /\ text_part MIMETYPE fs o = Ok (Some mt) /\ usable c m fs o ext t x1 x2 e0 /\ D = Doc (Some f) m ext true /\
    g' = opened_manager m e0 (styles_from x1) (fill CONTENT_PARTS (default (new_elem "office:document-content") x2)) (content_from t x2) (fresh o em (objects g)).
Proof.
  unfold q_template. rewrite abind_ok. split.
  - intros (g1 & [] & H1 & H). unfold q_manager in H1. destruct (manifest_part fs o) as [em|] eqn:Em; [|done]. injection H1 as <-. fold (fresh o em (objects g)) in *.
    apply abind_ok in H as (g2 & m & H2 & H3). injection H2 as <- H2. destruct m as [mt|]; [|done]. apply abind_ok in H3 as (g3 & d & H3 & H4). injection H4 as <- <-.
    destruct (q_packaged _ _ _ _) as [g4 [d'|x]] eqn:Eq; [|done]. injection H3 as <- <-. apply q_packaged_ok in Eq as (ext & t & x1 & x2 & e0 & Hu & -> & ->). by exists em, mt, ext, t, x1, x2, e0.
  - intros (em & mt & ext & t & x1 & x2 & e0 & Em & Hm & Hu & -> & ->). eexists _, tt. split; [unfold q_manager; rewrite Em; reflexivity|]. fold (fresh o em (objects g)). apply abind_ok. exists (fresh o em (objects g)), (Some mt).
    split; [by rewrite <- Hm|]. apply abind_ok. eexists _, (Doc (zipname o) (strip_template mt) ext true). split; [|done].
    assert (Hq := proj2 (q_packaged_ok c (strip_template mt) fs (fresh o em (objects g)) _ (Doc (zipname o) (strip_template mt) ext true)) (ex_intro _ ext (ex_intro _ t (ex_intro _ x1 (ex_intro _ x2 (ex_intro _ e0 (conj Hu (conj eq_refl eq_refl)))))))).
    by rewrite Hq.
Qed.
Lemma q_template_unsupported c f o fs g mt em x0 x1 x2 : manifest_part fs o = Ok em -> text_part MIMETYPE fs o = Ok (Some mt) -> (~ exists ext t, is_type (strip_template mt) ext t) -> readable fs o x0 x1 x2 ->
  (q_template c f o fs g).2 = Err InvalidFiletypeError.
Proof.
  intros Em Hm HT Hr. unfold q_template, abind, q_manager. rewrite Em. fold (fresh o em (objects g)). change (source (fresh o em (objects g))) with o. rewrite Hm.
  assert (H := q_packaged_unsupported c _ fs (fresh o em (objects g)) x0 x1 x2 HT Hr). destruct (q_packaged _ _ _ _) as [g1 r]. cbn [snd] in H. by subst r.
Qed.
Lemma expect_template c f d s : no_failure s ->
  let fs := files (mach s) in let o := origin_of d in
  let z := match d with FromFile p => match fs !! p with Some b => is_zip b | None => false end | FromBytes _ => true end in
  expect (11 * cost o) s (from_template c f d s) (if z then (q_template c f o fs (mgr s)).2 else Err IOError) (if z then (q_template c f o fs (mgr s)).1 else mgr s).
Proof.
  intros Hn fs o z. change (from_template c f d s) with ((run _ := template_source d in template_body c f o) s).
  assert (Hs : expect (cost o) s (template_source d s) (if z then Ok tt else Err IOError) (mgr s)).
  { unfold template_source, z, o, fs. destruct d as [b|p]; cbn [origin_of cost]; [by apply expect_ret|].
    unfold pcatch, pbind. assert (H := expect_read p s Hn). unfold expect in *. destruct (sys_read p s) as [s1 [|r1]]; cbn in *; [done|].
    destruct H as (-> & H). destruct (files (mach s) !! p) as [b|]; cbn; [destruct (is_zip b)|]; done. }
  replace (11 * cost o) with (cost o + 10 * cost o) by lia. destruct z.
  - eapply expect_bind; [exact Hs|]. intros s1 M1 F1 N1. unfold fs. rewrite <- F1, <- M1. by apply (mirrors_template c f o s1 N1).
  - by apply expect_bind_err.
Qed.
Lemma strip_template_spec mt : (exists a, mt = a ++ lit "-template" /\ strip_template mt = a) \/ ((~ exists a, mt = a ++ lit "-template") /\ strip_template mt = mt).
Proof.
  unfold strip_template. destruct (decide _) as [E|E].
  - left. eexists. split; [|done]. change (lit "-template") with TEMPLATE. by rewrite <- E, take_drop.
  - right. split; [|done]. intros [a Ha]. apply E. rewrite Ha at 2. assert (length mt - 9 = length a) as -> by (rewrite Ha, app_length; change (length (lit "-template")) with 9; lia). by rewrite drop_app.
Qed.
(** ** Saving what was opened from bytes *)
Lemma save_bytes_spec f s s' o : save_bytes f s = (s', o) ->
  (forall q, q <> f -> files (mach s') !! q = files (mach s) !! q) /\
  (tidy (mgr s) -> o = Done (Ok tt) -> exists es rest mt b, dict_get MIMETYPE (directory (mgr s)) = Some mt /\ mgr s' = pushed mt (mgr s) /\
     files (mach s') = <[f := b]> (files (mach s)) /\ b = zip_pack es /\
     (let src := source_entries (<[f := b_empty]> (files (mach s))) (source (mgr s)) in package (mgr s) src rest es /\ (rest = src \/ ~ no_failure s /\ rest = []))).
Proof.
  unfold save_bytes, pbind. destruct (sys_open f s) as [s1 o1] eqn:E1. unfold sys_open, open_write in E1. destruct (syscall_spec _ _ _ _ E1) as (M1 & R1 & (u1 & Eu1) & C1).
  assert (F1 : forall q, q <> f -> files (mach s1) !! q = files (mach s) !! q).
  { destruct C1 as [(_ & -> & _)|[(_ & -> & _)|(-> & _)]]; [done|done|]. cbn. intros q Hq. by rewrite lookup_insert_ne. }
  destruct o1 as [|[[]|x]]; [by intros [= <- <-]| |by intros [= <- <-]].
  destruct C1 as [(? & _)|[(? & _)|(F1' & _)]]; [done|done|]. cbn [fst] in F1'.
  destruct (sys_abandon f to_bytes s1) as [s2 o2] eqn:E2. destruct (abandon_spec _ _ _ _ _ E2) as (s3 & o3 & E3 & Q3 & M3 & Hok & _).
  unfold to_bytes, pbind in E3. destruct (to_zip None s1) as [s4 o4] eqn:E4. destruct (to_zip_spec _ _ _ _ E4) as (K1 & _ & _ & K4 & _).
  assert (s4 = s3) as -> by (by destruct o4 as [|[]]; injection E3 as -> _).
  assert (F2 : forall q, q <> f -> files (mach s2) !! q = files (mach s) !! q).
  { intros q Hq. rewrite (q_files _ _ _ Q3) by congruence. rewrite (q_files _ _ _ K1) by done. by apply F1. }
  destruct o2 as [|[b|x]]; [by intros [= <- <-]| |by intros [= <- <-]]. destruct (Hok b eq_refl) as [-> ->].
  unfold sys_close, close_write, pbind. destruct (writing mach upd_mach f s3) as [s5 o5] eqn:E5. destruct (writing_spec (Some f) s3 s5 o5 E5) as (Q5 & M5 & _).
  assert (F5 : forall q, q <> f -> files (mach s5) !! q = files (mach s) !! q). { intros q Hq. rewrite (q_files _ _ _ Q5) by congruence. by apply F2. }
  destruct o5 as [|[[]|x]]; [by intros [= <- <-]| |by intros [= <- <-]]. intros [= <- <-]. split; [cbn; intros q Hq; rewrite lookup_insert_ne by done; by apply F5|].
  intros Ht _. destruct o4 as [|[es|x]]; [done| |done]. injection E3 as <-. destruct (K4 es eq_refl) as (mt & b & parts & rest & copies & s6 & L1 & L2 & L3 & -> & L5 & L6 & L7 & L8).
  rewrite M1 in *. assert (F6 : files (mach s6) = <[f := b_empty]> (files (mach s))) by (rewrite <- F1'; apply map_eq; intros q; by apply (q_files _ _ _ L6)).
  eexists _, rest, mt, _. split; [done|]. split; [cbn; congruence|]. split; [|split; [reflexivity|]].
  - cbn. apply map_eq. intros q. destruct (decide (q = f)) as [->|Hq]; [by rewrite !lookup_insert|]. rewrite !lookup_insert_ne by done. by apply F5.
  - cbn zeta in *. rewrite F6 in *. split; [by apply package_ok|]. destruct L8 as [|[L8 ?]]; [by left|]. right. split; [|done]. intros Hn. apply L8. unfold no_failure in *. rewrite Eu1 in Hn. set_solver.
Qed.
Lemma doc_save_spec now gen D f body s s' : docname D = Some f -> document (mimetype D) (mgr s) -> rooted body (mgr s) -> plain_name f -> (forall p, source (mgr s) = SFile p -> plain_name p) ->
  doc_save now gen D s = (s', Done (Ok tt)) ->
  exists es src rest g1, objects g1 0 = play_doc [MTouch now gen; MInc] (objects (mgr s) 0) /\ (forall n, n <> 0%N -> objects g1 n = objects (mgr s) n) /\ manifest g1 = manifest (mgr s) /\
    files (mach s') !! f = Some (zip_pack es) /\ package g1 src rest es /\
    document (mimetype D) g1 /\ rooted body g1 /\ document (mimetype D) (mgr s') /\ rooted body (mgr s') /\
    objects (mgr s') = objects g1 /\ manifest (mgr s') = manifest g1 /\ source (mgr s') = match source (mgr s) with SBytes b => SBytes b | _ => SFile f end.
Proof.
  intros Hf Hd Hc Hpl Hps. unfold doc_save. rewrite Hf.
  assert (H1 : forall o (s1 : st) r, (on_meta_xml (step o)) s1 = r -> rooted body (mgr s1) ->
     mgr r.1 = set_object 0 (play_doc [o] (objects (mgr s1) 0)) (mgr s1) /\ mach r.1 = mach s1 /\ rooted body (mgr r.1)).
  { intros o s1 r <- Hc1. destruct (on_meta_step body (mgr s1) o Hc1) as [H1 H2]. unfold on_meta_xml. destruct (on_meta (step o) (objects (mgr s1) 0)) as [e x]. cbn [fst] in *. rewrite <- H2. done. }
  unfold pbind at 1. destruct (on_meta_xml (meta_touch now gen) s) as [s1 o1] eqn:E1.
  destruct (H1 (MTouch now gen) s _ E1 Hc) as (M1 & A1 & C1). cbn [fst] in *. destruct o1 as [|[[]|x]]; [done| |done].
  unfold pbind at 1. destruct (on_meta_xml meta_inc s1) as [s2 o2] eqn:E2. destruct (H1 MInc s1 _ E2 C1) as (M2 & A2 & C2). cbn [fst] in *. destruct o2 as [|[[]|x]]; [done| |done].
  assert (Ed : directory (mgr s2) = directory (mgr s)) by (by rewrite M2, M1). assert (Es : source (mgr s2) = source (mgr s)) by (by rewrite M2, M1).
  assert (Em : manifest (mgr s2) = manifest (mgr s)) by (by rewrite M2, M1).
  assert (Dx : document (mimetype D) (mgr s2)). { unfold document, tidy, part_is in *. by rewrite Ed. }
  assert (Ex0 : objects (mgr s2) 0 = play_doc [MTouch now gen; MInc] (objects (mgr s) 0)) by (by rewrite M2, M1).
  assert (Exn : forall n, n <> 0%N -> objects (mgr s2) n = objects (mgr s) n). { intros n Hn. rewrite M2, M1. cbn. by rewrite !decide_False. }
  assert (Hsame : forall mt, dict_get MIMETYPE (directory (mgr s2)) = Some mt -> forall g, g = pushed mt (mgr s2) \/ g = with_source (SFile f) (pushed mt (mgr s2)) ->
    document (mimetype D) g /\ rooted body g /\ objects g = objects (mgr s2) /\ manifest g = manifest (mgr s2)).
  { intros mt Hmt g Hg. assert (Dp := pushed_document _ _ _ Dx Hmt). destruct Hg as [-> | ->]; split_and!; done. }
  assert (Hcase : (exists b, source (mgr s2) = SBytes b /\ save_bytes f s2 = (s', Done (Ok tt))) \/ (match source (mgr s2) with SBytes _ => False | _ => True end /\ save f (backup D) s2 = (s', Done (Ok tt))) ->
    exists es src rest g1, objects g1 0 = play_doc [MTouch now gen; MInc] (objects (mgr s) 0) /\ (forall n, n <> 0%N -> objects g1 n = objects (mgr s) n) /\ manifest g1 = manifest (mgr s) /\
    files (mach s') !! f = Some (zip_pack es) /\ package g1 src rest es /\
    document (mimetype D) g1 /\ rooted body g1 /\ document (mimetype D) (mgr s') /\ rooted body (mgr s') /\
    objects (mgr s') = objects g1 /\ manifest (mgr s') = manifest g1 /\ source (mgr s') = match source (mgr s) with SBytes b => SBytes b | _ => SFile f end).
  { intros [(b & Hb & E)|[Hb E]].
    - destruct (save_bytes_spec _ _ _ _ E) as [_ H]. destruct H as (es & rest & mt & b' & Hmt & M & F & -> & Hp & _); [by apply Dx|done|]. destruct (Hsame mt Hmt _ (or_introl eq_refl)) as (G1 & G2 & G3 & G4).
      exists es. eexists. exists rest, (mgr s2). rewrite M, F, lookup_insert, <- Es, Hb. cbn [source pushed]. split_and!; done.
    - destruct (save_spec f (backup D) s2 s' (Done (Ok tt))) as [(? & _)|(tmp & r & _ & _ & _ & _ & [(? & _)|(new & mt & (es & rest & En & Hpk & Hr) & Hmt & [(? & _)|(_ & M & F)])])]; try done.
      + right. intros r _. by apply plain_tmp.
      + intros p Hs. right. intros r _. apply plain_tmp. apply Hps. by rewrite <- Es.
      + destruct (Hsame mt Hmt _ (or_intror eq_refl)) as (G1 & G2 & G3 & G4).
        exists es. eexists. exists rest, (mgr s2). rewrite M, F. unfold saved. rewrite lookup_insert, En, <- Es. cbn [source with_source]. split_and!; try done; [apply Hpk; by apply Dx|]. by destruct (source (mgr s2)). }
  destruct (source (mgr s2)) as [|p|b] eqn:Eo; intros E; apply Hcase; [by right|by right|]. left. by exists b.
Qed.
End proofs.
