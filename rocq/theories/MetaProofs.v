(** Proofs about meta data. *)
From Verif Require Export MetaSpec.

Section first.
Context {A : Type} (P : A -> Prop) `{forall x, Decision (P x)}.
Implicit Types l : list A.
Fixpoint upd_first (f : A -> A) l : list A :=
  match l with [] => [] | x :: r => if decide (P x) then f x :: r else x :: upd_first f r end.
Fixpoint rem_first l : list A :=
  match l with [] => [] | x :: r => if decide (P x) then r else x :: rem_first r end.
Lemma find_upd l i x f : list_find P l = Some (i, x) -> <[i := f x]> l = upd_first f l.
Proof.
  revert i. induction l as [|y l IH]; intros i; cbn; [done|]. destruct (decide (P y)).
  - intros [= <- <-]. done.
  - rewrite fmap_Some. intros ([j z] & E & [= -> ->]). cbn. f_equal. by apply IH.
Qed.
Lemma find_rem l i x : list_find P l = Some (i, x) -> delete_at i l = rem_first l.
Proof.
  revert i. induction l as [|y l IH]; intros i; cbn; [done|]. destruct (decide (P y)).
  - intros [= <- <-]. done.
  - rewrite fmap_Some. intros ([j z] & E & [= -> ->]). unfold delete_at. cbn. f_equal. by apply IH.
Qed.
Lemma find_head l : snd <$> list_find P l = head (filter P l).
Proof.
  induction l as [|y l IH]; [done|]. cbn [list_find]. destruct (decide (P y)) as [Hy|Hy].
  - by rewrite filter_cons_True.
  - rewrite filter_cons_False, <- IH by done. by destruct (list_find P l) as [[? ?]|].
Qed.
Lemma upd_first_none l f : filter P l = [] -> upd_first f l = l.
Proof.
  induction l as [|y l IH]; [done|]. cbn [upd_first]. destruct (decide (P y)) as [Hy|Hy]; [by rewrite filter_cons_True|].
  rewrite filter_cons_False by done. intros E. by rewrite IH.
Qed.
Lemma rem_first_none l : filter P l = [] -> rem_first l = l.
Proof.
  induction l as [|y l IH]; [done|]. cbn [rem_first]. destruct (decide (P y)) as [Hy|Hy]; [by rewrite filter_cons_True|].
  rewrite filter_cons_False by done. intros E. by rewrite IH.
Qed.
Lemma filter_upd_first (Q : A -> Prop) `{forall x, Decision (Q x)} f l : (forall x, P x -> Q x) -> (forall x, Q x -> Q (f x)) ->
  filter Q (upd_first f l) = upd_first f (filter Q l).
Proof.
  intros H1 H2. induction l as [|y l IH]; [done|]. cbn [upd_first]. destruct (decide (P y)) as [Hy|Hy].
  - rewrite !filter_cons_True by auto. cbn. by rewrite decide_True.
  - destruct (decide (Q y)) as [HQ|HQ].
    + rewrite !filter_cons_True by done. cbn. rewrite decide_False by done. by rewrite IH.
    + by rewrite !filter_cons_False by done.
Qed.
Lemma filter_upd_other (Q : A -> Prop) `{forall x, Decision (Q x)} f l : (forall x, P x -> ~ Q x) -> (forall x, P x -> ~ Q (f x)) ->
  filter Q (upd_first f l) = filter Q l.
Proof.
  intros H1 H2. induction l as [|y l IH]; [done|]. cbn [upd_first]. destruct (decide (P y)) as [Hy|Hy].
  - by rewrite !filter_cons_False by auto.
  - destruct (decide (Q y)) as [HQ|HQ].
    + rewrite !filter_cons_True by done. by rewrite IH.
    + by rewrite !filter_cons_False by done.
Qed.
Lemma filter_rem_first (Q : A -> Prop) `{forall x, Decision (Q x)} l : (forall x, P x -> Q x) ->
  filter Q (rem_first l) = rem_first (filter Q l).
Proof.
  intros H1. induction l as [|y l IH]; [done|]. cbn [rem_first]. destruct (decide (P y)) as [Hy|Hy].
  - rewrite filter_cons_True by auto. cbn. by rewrite decide_True.
  - destruct (decide (Q y)) as [HQ|HQ].
    + rewrite !filter_cons_True by done. cbn. rewrite decide_False by done. by rewrite IH.
    + by rewrite !filter_cons_False by done.
Qed.
Lemma filter_rem_other (Q : A -> Prop) `{forall x, Decision (Q x)} l : (forall x, P x -> ~ Q x) -> filter Q (rem_first l) = filter Q l.
Proof.
  intros H1. induction l as [|y l IH]; [done|]. cbn [rem_first]. destruct (decide (P y)) as [Hy|Hy].
  - by rewrite filter_cons_False by auto.
  - destruct (decide (Q y)) as [HQ|HQ].
    + rewrite !filter_cons_True by done. by rewrite IH.
    + by rewrite !filter_cons_False by done.
Qed.
End first.

(** ** Children under the operations *)
Lemma kids_on_kids f (e : elem) : kids (on_kids f e) = f (kids e).
Proof. by destruct e. Qed.
Lemma root_on_kids f (e : elem) : root (on_kids f e) = root e.
Proof. by destruct e. Qed.
Lemma e_tag_set k v (e : elem) : e_tag (e_set k v e) = e_tag e.
Proof. by destruct e. Qed.
Lemma e_tag_text v (e : elem) : e_tag (e_set_text v e) = e_tag e.
Proof. by destruct e. Qed.
Lemma findall_append t c (e : elem) : findall t (e_append c e) = findall t e ++ (if decide (e_tag c = t) then [c] else []).
Proof. unfold findall, e_append. rewrite kids_on_kids, filter_app. done. Qed.
Lemma first_kid_tag t (m : elem) : snd <$> first_kid (has_tag t) m = head (findall t m).
Proof. apply find_head. Qed.

Section proofs.
Context `{U : Unicode}.

Definition text_of (v : textval) (x : option pystr) : option pystr :=
  match v with TStr s => Some s | TNone => None | TOther => x end.
Definition text_res (v : textval) : res unit := match v with TOther => Err TypeError | _ => Ok tt end.
Lemma assign_text_eq v k : assign_text v k = (e_set_text (text_of v (e_text k)) k, text_res v).
Proof. destruct v; cbn; try done. by destruct k as [[] ?]. Qed.
Lemma e_text_text v (e : elem) : e_text (e_set_text v e) = v.
Proof. by destruct e. Qed.

(** one kind of children changes, by [g]; everything else stays *)
Definition only (t : string) (g : list elem -> list elem) (m m' : elem) : Prop :=
  root m' = root m /\ findall t m' = g (findall t m) /\ forall t', t' <> t -> findall t' m' = findall t' m.
Definition at_head (f : elem -> elem) (new : elem) (l : list elem) : list elem :=
  match l with [] => [new] | k :: r => f k :: r end.
Lemma upd_first_head t f l : Forall (has_tag t) l -> upd_first (has_tag t) f l = match l with [] => [] | k :: r => f k :: r end.
Proof. intros H. destruct l as [|k r]; [done|]. inversion H; subst. cbn. by rewrite decide_True. Qed.
Lemma findall_tag t (m : elem) : Forall (has_tag t) (findall t m).
Proof. apply Forall_forall. intros k Hk. by apply elem_of_list_filter in Hk as [? _]. Qed.
Lemma only_first t f new m : (forall k, e_tag k = t -> e_tag (f k) = t) -> e_tag new = t ->
  only t (at_head f new) m (match first_kid (has_tag t) m with Some (i, k) => replace_kid i (f k) m | None => e_append new m end).
Proof.
  intros Hf Hn. destruct (first_kid (has_tag t) m) as [[i k]|] eqn:E.
  - assert (Ek := E). unfold first_kid in E. assert (Hh := first_kid_tag t m). rewrite Ek in Hh. cbn in Hh.
    unfold replace_kid. split; [apply root_on_kids|]. unfold findall. rewrite kids_on_kids. rewrite (find_upd (has_tag t) (kids m) i k f E). split.
    + rewrite filter_upd_first; [|done|done]. fold (findall t m). rewrite upd_first_head by apply findall_tag. destruct (findall t m); done.
    + intros t' Ht'. apply filter_upd_other; intros x Hx; [by rewrite Hx|]. rewrite Hf by done. done.
  - assert (Hh := first_kid_tag t m). rewrite E in Hh. cbn in Hh. symmetry in Hh. apply head_None in Hh.
    split; [by destruct m|]. rewrite findall_append, decide_True, Hh by done. split; [done|]. intros t' Ht'. rewrite findall_append, decide_False by congruence. by rewrite app_nil_r.
Qed.
Lemma meta_set_only key v m t : tag_for key = Some t ->
  (meta_set key v m).2 = text_res v /\
  only t (at_head (fun k => e_set_text (text_of v (e_text k)) k) (e_set_text (text_of v None) (new_elem t))) m (meta_set key v m).1.
Proof.
  intros Ht. assert (H := only_first t (fun k => e_set_text (text_of v (e_text k)) k) (e_set_text (text_of v None) (new_elem t)) m).
  unfold meta_set. rewrite Ht. destruct (first_kid (has_tag t) m) as [[i k]|] eqn:E.
  - rewrite assign_text_eq. split; [done|]. apply H; [intros k' <-; apply e_tag_text|by rewrite e_tag_text].
  - rewrite assign_text_eq. split; [done|]. apply H; [intros k' <-; apply e_tag_text|by rewrite e_tag_text].
Qed.
Lemma meta_get_eq key m : meta_get key m = match field key m with Some x => Ok x | None => Err KeyError end.
Proof.
  unfold meta_get, field. change (alookup key META_TAGS) with (tag_for key). destruct (tag_for key) as [t|]; [|done].
  rewrite <- (first_kid_tag t m). by destruct (first_kid (has_tag t) m) as [[i k]|].
Qed.

(** tags of distinct keys differ, and from the other children *)
Lemma alookup_elem key t : tag_for key = Some t -> (key, t) ∈ META_TAGS.
Proof.
  unfold tag_for. induction META_TAGS as [|[k v] l IH]; [done|]. cbn. destruct (decide (key = k)) as [->|Hn]; [intros [= ->]; by left|]. intros E. right. by apply IH.
Qed.
Lemma tag_inj k1 k2 t : tag_for k1 = Some t -> tag_for k2 = Some t -> k1 = k2.
Proof.
  intros H1 H2. apply alookup_elem in H1, H2.
  assert (HF : Forall (fun p => Forall (fun q => p.2 = q.2 -> p.1 = q.1) META_TAGS) META_TAGS) by dec_vm.
  rewrite Forall_forall in HF. specialize (HF _ H1). rewrite Forall_forall in HF. by apply (HF _ H2).
Qed.
Lemma tag_other k t : tag_for k = Some t -> t <> KEYWORD /\ t <> USER /\ t <> STATISTIC.
Proof.
  intros H. apply alookup_elem in H. assert (HF : Forall (fun p => p.2 <> KEYWORD /\ p.2 <> USER /\ p.2 <> STATISTIC) META_TAGS) by dec_vm.
  rewrite Forall_forall in HF. apply (HF _ H).
Qed.
Lemma entry_tag key t m : tag_for key = Some t -> field key m = e_text <$> head (findall t m).
Proof. intros H. unfold field. change (alookup key META_TAGS) with (tag_for key). by rewrite H. Qed.

(** ** Observations depend on one kind of children *)
Lemma words_only t g m m' : only t g m m' -> t <> KEYWORD -> words m' = words m.
Proof. intros (_ & _ & H) Ht. unfold words. change "meta:keyword"%string with KEYWORD. by rewrite H. Qed.
Lemma users_only t g m m' : only t g m m' -> t <> USER -> users m' = users m.
Proof. intros (_ & _ & H) Ht. unfold users. change "meta:user-defined"%string with USER. by rewrite H. Qed.
Lemma stat_only t g m m' key : only t g m m' -> t <> STATISTIC -> stat key m' = stat key m.
Proof. intros (_ & _ & H) Ht. unfold stat. change "meta:document-statistic"%string with STATISTIC. by rewrite H. Qed.
Lemma entry_only t g m m' key : only t g m m' -> tag_for key <> Some t -> field key m' = field key m.
Proof.
  intros (_ & _ & H) Ht. unfold field. change (alookup key META_TAGS) with (tag_for key). destruct (tag_for key) as [t'|]; [|done]. rewrite H; [done|]. congruence.
Qed.
Lemma entry_set key v m t : tag_for key = Some t -> field key (meta_set key v m).1 = Some (text_of v (default None (field key m))).
Proof.
  intros Ht. destruct (meta_set_only key v m t Ht) as (_ & _ & E & _). rewrite !(entry_tag key t) by done. rewrite E.
  destruct (findall t m) as [|k r]; cbn [at_head head fmap option_fmap option_map hd_error]; by rewrite e_text_text.
Qed.

(** ** Keywords *)
Lemma kw_add_only w m : only KEYWORD (fun l => if decide (w ∈ map e_text l) then l else l ++ [e_set_text w (new_elem KEYWORD)]) m (kw_add w m).
Proof.
  unfold kw_add. destruct (first_kid (is_keyword w) m) as [[i k]|] eqn:E.
  - apply list_find_Some in E as (E1 & [E2 E3] & _). split; [done|]. split; [|done]. rewrite decide_True; [done|].
    apply elem_of_list_fmap. exists k. split; [done|]. apply elem_of_list_filter. split; [done|]. by apply elem_of_list_lookup_2 in E1.
  - apply list_find_None in E. split; [by destruct m|]. rewrite findall_append. rewrite (decide_True (P := e_tag _ = KEYWORD)) by done. split.
    + rewrite decide_False; [done|]. intros Hin. apply elem_of_list_fmap in Hin as (k & -> & Hk). apply elem_of_list_filter in Hk as [H1 H2].
      rewrite Forall_forall in E. by apply (E k H2).
    + intros t' Ht'. rewrite findall_append, decide_False by (intros H; apply Ht'; rewrite <- H; done). by rewrite app_nil_r.
Qed.
Lemma kw_remove_only w m : only KEYWORD (rem_first (is_keyword w)) m (kw_remove w m).
Proof.
  unfold kw_remove. destruct (first_kid (is_keyword w) m) as [[i k]|] eqn:E.
  - unfold first_kid in E. split; [apply root_on_kids|]. unfold findall, remove_kid. rewrite kids_on_kids, (find_rem _ _ _ _ E). split.
    + apply filter_rem_first. by intros x [? _].
    + intros t' Ht'. apply filter_rem_other. intros x [Hx _]. by rewrite Hx.
  - apply list_find_None in E. split; [done|]. split; [|done]. symmetry. apply rem_first_none.
    rewrite Forall_forall in E. destruct (filter _ _) as [|x r] eqn:Ef; [done|]. exfalso.
    assert (Hx : x ∈ filter (is_keyword w) (findall KEYWORD m)) by (rewrite Ef; by left).
    apply elem_of_list_filter in Hx as [H1 H2]. apply elem_of_list_filter in H2 as [_ H2]. by apply (E x).
Qed.
Lemma clear_tag_only t m : only t (fun _ => []) m (clear_tag t m).
Proof.
  unfold clear_tag. split; [apply root_on_kids|]. unfold findall. rewrite kids_on_kids. split.
  - rewrite list_filter_filter. induction (kids m) as [|k l IH]; [done|]. rewrite filter_cons_False; [done|]. unfold has_tag. tauto.
  - intros t' Ht'. rewrite list_filter_filter. apply list_filter_iff. intros k. unfold has_tag. split; [tauto|]. intros <-. tauto.
Qed.
Lemma rem_first_words w l : map e_text (rem_first (is_keyword w) l) = without_first w (map e_text l) \/ ~ Forall (has_tag KEYWORD) l.
Proof.
  destruct (decide (Forall (has_tag KEYWORD) l)) as [H|H]; [left|by right].
  induction l as [|k l IH]; [done|]. apply Forall_cons in H as [Hk Hl]. cbn. destruct (decide (is_keyword w k)) as [[_ Hw]|Hw].
  - by rewrite decide_True.
  - rewrite decide_False; [cbn; f_equal; by apply IH|]. intros E. by apply Hw.
Qed.

(** ** User tags *)
Definition view_user (k : elem) : usertag := (e_get NAME k, e_text k, e_get VALUE_TYPE k).
Lemma ut_fill_tag v ty k : e_tag (ut_fill v ty k) = e_tag k.
Proof. unfold ut_fill. destruct ty; [rewrite e_tag_set|]; apply e_tag_text. Qed.
Lemma view_user_fill v ty k : view_user (ut_fill v ty k) = (e_get NAME k, Some v, match ty with Some _ => ty | None => e_get VALUE_TYPE k end).
Proof.
  destruct k as [[t a x tl] ks]. unfold view_user, ut_fill, e_get, e_attrs, e_text. destruct ty as [t'|]; cbn; [|done]. rewrite lookup_insert. rewrite lookup_insert_ne by done. done.
Qed.
Lemma ut_set_only n v ty m : only USER (fun l => match list_find (is_user n) l with
    | Some _ => upd_first (is_user n) (ut_fill v ty) l | None => l ++ [ut_fill v ty (e_set NAME n (new_elem USER))] end) m (ut_set n v ty m).
Proof.
  unfold ut_set. assert (Hh : snd <$> first_kid (is_user n) m = snd <$> list_find (is_user n) (findall USER m)).
  { unfold first_kid. rewrite !find_head. unfold findall. rewrite list_filter_filter. f_equal. apply list_filter_iff. intros x. unfold is_user. tauto. }
  destruct (first_kid (is_user n) m) as [[i k]|] eqn:E; destruct (list_find (is_user n) (findall USER m)) as [[j k']|] eqn:E'; try done.
  - unfold first_kid in E. split; [apply root_on_kids|]. rewrite E'. unfold findall, replace_kid. rewrite kids_on_kids, (find_upd _ _ _ _ (ut_fill v ty) E). split.
    + apply filter_upd_first; [by intros x [? _]|]. intros x <-. apply ut_fill_tag.
    + intros t' Ht'. apply filter_upd_other; intros x [Hx _]; [by rewrite Hx|]. by rewrite ut_fill_tag, Hx.
  - split; [by destruct m|]. rewrite E', findall_append. rewrite decide_True by (by rewrite ut_fill_tag). split; [done|].
    intros t' Ht'. rewrite findall_append, decide_False by (rewrite ut_fill_tag, e_tag_set; done). by rewrite app_nil_r.
Qed.
Lemma ut_del_only n m : only USER (rem_first (is_user n)) m (ut_del n m).1.
Proof.
  unfold ut_del. destruct (first_kid (is_user n) m) as [[i k]|] eqn:E.
  - unfold first_kid in E. split; [apply root_on_kids|]. unfold findall, remove_kid. cbn [fst]. rewrite kids_on_kids, (find_rem _ _ _ _ E). split.
    + apply filter_rem_first. by intros x [? _].
    + intros t' Ht'. apply filter_rem_other. intros x [Hx _]. by rewrite Hx.
  - cbn [fst]. apply list_find_None in E. split; [done|]. split; [|done]. symmetry. apply rem_first_none.
    rewrite Forall_forall in E. destruct (filter _ _) as [|x r] eqn:Ef; [done|]. exfalso.
    assert (Hx : x ∈ filter (is_user n) (findall USER m)) by (rewrite Ef; by left).
    apply elem_of_list_filter in Hx as [H1 H2]. apply elem_of_list_filter in H2 as [_ H2]. by apply (E x).
Qed.
Lemma is_user_named n k : e_tag k = USER -> (is_user n k <-> named n (view_user k)).
Proof. intros H. unfold is_user, named. cbn. tauto. Qed.
Lemma set_user_list n v ty l : Forall (has_tag USER) l ->
  map view_user (match list_find (is_user n) l with
    | Some _ => upd_first (is_user n) (ut_fill v ty) l | None => l ++ [ut_fill v ty (e_set NAME n (new_elem USER))] end) = set_user n v ty (map view_user l).
Proof.
  intros H. induction l as [|k l IH].
  - cbn. rewrite view_user_fill. unfold e_get, e_attrs. cbn. rewrite lookup_insert. by destruct ty.
  - apply Forall_cons in H as [Hk Hl]. cbn [list_find map set_user]. destruct (decide (is_user n k)) as [Hu|Hu].
    + cbn [upd_first]. rewrite (decide_True (P := is_user n k)) by done. rewrite decide_True by (exact (proj1 (is_user_named n k Hk) Hu)). cbn [map]. rewrite view_user_fill. destruct Hu as [_ ->]. done.
    + rewrite (decide_False (P := named n _)) by (intros Hn; exact (Hu (proj2 (is_user_named n k Hk) Hn))). rewrite <- IH by done.
      destruct (list_find (is_user n) l) as [[j k']|]; cbn; [|done]. rewrite decide_False by done. done.
Qed.
Lemma del_user_list n l : Forall (has_tag USER) l -> map view_user (rem_first (is_user n) l) = del_user n (map view_user l).
Proof.
  intros H. induction l as [|k l IH]; [done|]. apply Forall_cons in H as [Hk Hl]. cbn [rem_first map del_user]. destruct (decide (is_user n k)) as [Hu|Hu].
  - rewrite decide_True; [done|]. exact (proj1 (is_user_named n k Hk) Hu).
  - rewrite (decide_False (P := named n _)) by (intros Hn; exact (Hu (proj2 (is_user_named n k Hk) Hn))). cbn. by rewrite IH.
Qed.
Lemma users_view m : users m = map view_user (findall USER m).
Proof. done. Qed.

(** ** Statistics *)
Lemma stats_head m : snd <$> stats_of m = head (findall STATISTIC m).
Proof. apply first_kid_tag. Qed.
Lemma stat_attr_inj k1 k2 : stat_attr k1 = stat_attr k2 -> k1 = k2.
Proof.
  unfold stat_attr. intros H. injection H as H.
  assert (HS : forall a b c : string, (a ++ c = b ++ c)%string -> a = b).
  { clear. intros a b c H. assert (Hl : String.length a = String.length b).
    { assert (HL : forall x y : string, String.length (x ++ y)%string = String.length x + String.length y) by (intros x y; induction x as [|z x IH]; [done|exact (f_equal S IH)]).
      apply (f_equal String.length) in H. rewrite !HL in H. lia. }
    revert b H Hl. induction a as [|x a IH]; intros [|y b] H Hl; cbn in *; try done. injection H as -> H. f_equal. apply IH; [done|lia]. }
  by eapply HS.
Qed.
Lemma st_set_only key v m : key ∈ STAT_TYPES -> findall STATISTIC m <> [] ->
  (st_set key v m).2 = Ok tt /\ only STATISTIC (at_head (e_set (stat_attr key) v) (new_elem STATISTIC)) m (st_set key v m).1.
Proof.
  intros Hk Hs. assert (H := only_first STATISTIC (e_set (stat_attr key) v) (new_elem STATISTIC) m).
  unfold st_set. rewrite decide_True by done. assert (Hh := stats_head m). unfold stats_of in *.
  destruct (first_kid (has_tag STATISTIC) m) as [[i k]|] eqn:E; [|by destruct (findall STATISTIC m)].
  split; [done|]. apply H; [intros k' <-; apply e_tag_set|done].
Qed.
Lemma st_clear_only m : findall STATISTIC m <> [] -> only STATISTIC (at_head e_clear (new_elem STATISTIC)) m (st_clear m).
Proof.
  intros Hs. assert (H := only_first STATISTIC e_clear (new_elem STATISTIC) m).
  unfold st_clear. assert (Hh := stats_head m). unfold stats_of in *.
  destruct (first_kid (has_tag STATISTIC) m) as [[i k]|] eqn:E; [|by destruct (findall STATISTIC m)].
  apply H; [by intros k' <-|done].
Qed.

(** ** One step *)
Lemma tag_for_known :
  tag_for "date" = Some "dc:date"%string /\ tag_for "generator" = Some "meta:generator"%string /\ tag_for "editing-cycles" = Some "meta:editing-cycles"%string.
Proof. done. Qed.
Lemma entry_meta_set key key' v m : field key (meta_set key' v m).1 =
  match tag_for key with
  | None => None
  | Some _ => if decide (key' = key) then Some (text_of v (default None (field key m))) else field key m
  end.
Proof.
  destruct (tag_for key) as [t|] eqn:Et.
  - destruct (decide (key' = key)) as [->|Hn]; [by eapply entry_set|].
    destruct (tag_for key') as [t'|] eqn:Et'.
    + destruct (meta_set_only key' v m t' Et') as (_ & H). eapply entry_only; [exact H|]. rewrite Et. intros [= ->]. by apply Hn, (tag_inj _ _ t').
    + unfold meta_set. by rewrite Et'.
  - unfold field. change (alookup key META_TAGS) with (tag_for key). by rewrite Et.
Qed.
Lemma entry_unknown key m : tag_for key = None -> field key m = None.
Proof. intros H. unfold field. change (alookup key META_TAGS) with (tag_for key). by rewrite H. Qed.
(** Setting an field changes nothing else. *)
Lemma meta_set_frame key v m : let m' := (meta_set key v m).1 in
  root m' = root m /\ words m' = words m /\ users m' = users m /\ (forall k, stat k m' = stat k m) /\
  (forall t, t = KEYWORD \/ t = USER \/ t = STATISTIC -> findall t m' = findall t m).
Proof.
  cbn zeta. destruct (tag_for key) as [t|] eqn:Et.
  - destruct (meta_set_only key v m t Et) as (_ & H). destruct (tag_other _ _ Et) as (N1 & N2 & N3). split; [apply H|].
    split; [by eapply words_only|]. split; [by eapply users_only|]. split; [intros k; by eapply stat_only|]. intros t' Ht'. apply H. destruct Ht' as [-> | [-> | ->]]; by apply not_eq_sym.
  - unfold meta_set. rewrite Et. done.
Qed.
Lemma meta_touch_eq now gen m : meta_touch now gen m = meta_set "generator" (TStr gen) (meta_set "date" (TStr now) m).1 /\ (meta_touch now gen m).2 = Ok tt.
Proof.
  unfold meta_touch, abind. destruct (meta_set_only "date" (TStr now) m _ eq_refl) as (H1 & _).
  destruct (meta_set "date" (TStr now) m) as [m1 r]. cbn in H1. subst r. split; [done|]. cbn [fst].
  by destruct (meta_set_only "generator" (TStr gen) m1 _ eq_refl) as (H2 & _).
Qed.
Lemma meta_inc_cases m :
  (field "editing-cycles" m = Some None /\ meta_inc m = (m, Err TypeError)) \/
  (exists n, meta_inc m = meta_set "editing-cycles" (TStr (show_Z n)) m /\ (meta_inc m).2 = Ok tt /\
    n = match field "editing-cycles" m with Some (Some s) => next_cycle s | _ => 1%Z end /\ field "editing-cycles" m <> Some None).
Proof.
  unfold meta_inc. rewrite meta_get_eq.
  assert (HS : forall n, (meta_set "editing-cycles" (TStr (show_Z n)) m).2 = Ok tt).
  { intros n. by destruct (meta_set_only "editing-cycles" (TStr (show_Z n)) m _ eq_refl) as (H & _). }
  destruct (field "editing-cycles" m) as [[s|]|] eqn:E.
  - right. unfold next_cycle. destruct (py_int s) as [n|x] eqn:Ep.
    + exists (n + 1)%Z. auto.
    + assert (x = ValueError) as ->.
      { revert Ep. clear. unfold py_int. repeat case_match; intros; congruence. }
      exists 1%Z. auto.
  - by left.
  - right. exists 1%Z. auto.
Qed.
Lemma findall_clear t m : findall t (meta_clear m) = if decide (t = STATISTIC) then [new_elem STATISTIC] else [].
Proof.
  unfold meta_clear. rewrite findall_append. cbn. destruct (decide (t = STATISTIC)) as [->|Hn]; [by rewrite decide_True|]. rewrite decide_False by (by apply not_eq_sym). done.
Qed.
(** has a statistics element *)
Definition has_stats (m : elem) : Prop := findall STATISTIC m <> [].

Lemma step_kind o m : has_stats m ->
  match o with
  | MClear => True
  | KAdd _ | KRemove _ | KClear => exists g, only KEYWORD g m (step o m).1
  | USet _ _ _ | UDel _ | UClear => exists g, only USER g m (step o m).1
  | SSet _ _ | SClear => exists g, only STATISTIC g m (step o m).1
  | _ => (forall t, t = KEYWORD \/ t = USER \/ t = STATISTIC -> findall t (step o m).1 = findall t m)
  end.
Proof.
  intros Hs. destruct o; cbn [step]; try done.
  - apply meta_set_frame.
  - destruct (meta_touch_eq now gen m) as [E _]. rewrite E. intros t Ht. destruct (meta_set_frame "generator" (TStr gen) (meta_set "date" (TStr now) m).1) as (_ & _ & _ & _ & H).
    rewrite H by done. by apply meta_set_frame.
  - destruct (meta_inc_cases m) as [[_ ->]|(n & -> & _)]; [done|]. apply meta_set_frame.
  - eexists. apply kw_add_only.
  - eexists. apply kw_remove_only.
  - eexists. apply clear_tag_only.
  - eexists. apply ut_set_only.
  - eexists. apply ut_del_only.
  - eexists. apply clear_tag_only.
  - unfold st_set. destruct (decide (key ∈ STAT_TYPES)) as [Hk|Hk].
    + destruct (st_set_only key v m Hk Hs) as [_ H]. unfold st_set in H. rewrite decide_True in H by done. eexists. exact H.
    + exists id. done.
  - eexists. by apply st_clear_only.
Qed.
Lemma step_stats o m : has_stats m -> has_stats (step o m).1.
Proof.
  intros Hs. assert (HK := step_kind o m Hs). unfold has_stats in *. destruct o; try (rewrite HK by auto; done); try (destruct HK as (g & _ & _ & HK); rewrite HK by done; done).
  - cbn [step fst]. by rewrite findall_clear, decide_True.
  - cbn [step]. destruct (decide (key ∈ STAT_TYPES)) as [Hk|Hk].
    + destruct (st_set_only key v m Hk Hs) as (_ & _ & -> & _). by destruct (findall STATISTIC m).
    + unfold st_set. by rewrite decide_False.
  - cbn [step fst]. destruct (st_clear_only m Hs) as (_ & -> & _). by destruct (findall STATISTIC m).
Qed.
Lemma step_words o m : has_stats m -> words (step o m).1 = words_after (words m) o.
Proof.
  intros Hs. assert (HK := step_kind o m Hs). destruct o; cbn [words_after];
    try (destruct HK as (g & HK); eapply words_only; [exact HK|done]);
    try (unfold words; change "meta:keyword"%string with KEYWORD; rewrite HK by auto; done); cbn [step fst]; clear HK; unfold words; change "meta:keyword"%string with KEYWORD.
  - by rewrite findall_clear.
  - destruct (kw_add_only w m) as (_ & -> & _). destruct (decide (w ∈ map e_text (findall KEYWORD m))); [done|]. rewrite map_app. cbn [map]. by rewrite e_text_text.
  - destruct (kw_remove_only w m) as (_ & -> & _). destruct (rem_first_words w (findall KEYWORD m)) as [H|H]; [done|]. exfalso. apply H, findall_tag.
  - destruct (clear_tag_only KEYWORD m) as (_ & H & _). unfold kw_clear. by rewrite H.
Qed.
Lemma step_users o m : has_stats m -> users (step o m).1 = users_after (users m) o.
Proof.
  intros Hs. assert (HK := step_kind o m Hs). rewrite !users_view. destruct o; cbn [users_after];
    try (destruct HK as (g & _ & _ & HK); rewrite HK by done; done);
    try (rewrite HK by auto; done); cbn [step fst]; clear HK.
  - by rewrite findall_clear.
  - destruct (ut_set_only n v ty m) as (_ & -> & _). apply set_user_list, findall_tag.
  - destruct (ut_del_only n m) as (_ & -> & _). apply del_user_list, findall_tag.
  - destruct (clear_tag_only USER m) as (_ & H & _). unfold ut_clear. by rewrite H.
Qed.
Lemma step_stat key o m : has_stats m -> key ∈ STAT_TYPES -> stat key (step o m).1 = stat_after key (stat key m) o.
Proof.
  intros Hs Hkey. assert (HK := step_kind o m Hs). unfold stat. change "meta:document-statistic"%string with STATISTIC. fold (stat_attr key). destruct o; cbn [stat_after];
    try (destruct HK as (g & _ & _ & HK); rewrite HK by done; done);
    try (rewrite HK by auto; done); cbn [step fst]; clear HK.
  - rewrite findall_clear. done.
  - unfold has_stats in Hs. destruct (decide (key0 ∈ STAT_TYPES)) as [Hk|Hk].
    + destruct (st_set_only key0 v m Hk Hs) as (_ & _ & -> & _). destruct (findall STATISTIC m) as [|s r]; [done|]. cbn [at_head head hd_error mbind option_bind].
      destruct s as [[t a x tl] ks]. unfold e_get, e_attrs. cbn. destruct (decide (key0 = key)) as [->|Hn]; [by rewrite lookup_insert|].
      rewrite lookup_insert_ne; [done|]. intros E. by apply Hn, stat_attr_inj.
    + unfold st_set. rewrite decide_False by done. cbn [fst]. rewrite decide_False; [done|]. by intros ->.
  - destruct (st_clear_only m Hs) as (_ & -> & _). by destruct (findall STATISTIC m).
Qed.
Lemma step_entry key o m : has_stats m -> tag_for key <> None -> field key (step o m).1 = entry_after key (field key m) o.
Proof.
  intros Hs Hkey. destruct (tag_for key) as [t|] eqn:Et; [|done]. destruct (tag_other _ _ Et) as (N1 & N2 & N3). assert (HK := step_kind o m Hs).
  destruct o; cbn [entry_after]; try (destruct HK as (g & HK); eapply entry_only; [exact HK|congruence]); clear HK; cbn [step fst].
  - rewrite entry_meta_set, Et. destruct (decide (key0 = key)); [|done]. by destruct v.
  - destruct (meta_touch_eq now gen m) as [-> _]. rewrite !entry_meta_set, Et. cbn [text_of].
    destruct (decide ("generator"%string = key)) as [<-|Hg]; [done|]. destruct (decide ("date"%string = key)) as [<-|Hd]; [done|].
    rewrite !decide_False by (by apply not_eq_sym). done.
  - destruct (meta_inc_cases m) as [[E ->]|(n & -> & _ & -> & Hne)].
    + cbn [fst]. destruct (decide (key = _)) as [->|]; [|done]. by rewrite E.
    + rewrite entry_meta_set, Et. cbn [text_of]. destruct (decide (key = _)) as [->|Hn].
      * rewrite decide_True by done. destruct (field "editing-cycles" m) as [[s|]|]; done.
      * rewrite decide_False by (by apply not_eq_sym). done.
  - unfold field. change (alookup key META_TAGS) with (tag_for key). rewrite Et, findall_clear, decide_False by done. done.
Qed.

(** ** Histories *)
Lemma run_stats ops m : has_stats m -> has_stats (play ops m).
Proof. unfold play. revert m. induction ops as [|o ops IH]; intros m Hs; [done|]. cbn. apply IH. by apply step_stats. Qed.
Lemma run_fold {X} (obs : elem -> X) (after : X -> mop -> X) ops m : has_stats m ->
  (forall o m, has_stats m -> obs (step o m).1 = after (obs m) o) -> obs (play ops m) = foldl after (obs m) ops.
Proof.
  intros Hs H. unfold play. revert m Hs. induction ops as [|o ops IH]; intros m Hs; [done|]. cbn [foldl]. rewrite IH by (by apply step_stats). by rewrite H.
Qed.

(** keywords as a set *)
Lemma without_first_in (w x : option pystr) l : NoDup l -> (x ∈ without_first w l <-> x ∈ l /\ x <> w).
Proof.
  induction l as [|y l IH]; intros Hd; [set_solver|]. apply NoDup_cons in Hd as [Hy Hd]. cbn. destruct (decide (y = w)) as [->|Hn].
  - split; [|set_solver]. intros Hx. split; [by right|]. by intros ->.
  - rewrite !elem_of_cons, IH by done. split; [|tauto]. intros [-> |]; tauto.
Qed.
Lemma without_first_NoDup (w : option pystr) l : NoDup l -> NoDup (without_first w l).
Proof.
  induction l as [|y l IH]; intros Hd; [done|]. assert (Hd' := Hd). apply NoDup_cons in Hd as [Hy Hd]. cbn. destruct (decide (y = w)); [done|]. constructor; [|by apply IH].
  rewrite without_first_in by done. tauto.
Qed.
Lemma words_after_NoDup l o : NoDup l -> NoDup (words_after l o).
Proof.
  intros Hd. destruct o; cbn; try done; try constructor.
  - destruct (decide (w ∈ l)); [done|]. apply NoDup_app. split; [done|]. split; [set_solver|]. apply NoDup_singleton.
  - by apply without_first_NoDup.
Qed.
Lemma words_in_fold ops w l : NoDup l ->
  NoDup (foldl words_after l ops) /\ bool_decide (w ∈ foldl words_after l ops) = foldl (word_in_after w) (bool_decide (w ∈ l)) ops.
Proof.
  revert l. induction ops as [|o ops IH]; intros l Hd; [done|]. cbn [foldl]. destruct (IH (words_after l o)) as [H1 H2]; [by apply words_after_NoDup|]. split; [done|]. rewrite H2. f_equal.
  destruct o as [| | | |w'|w'| | | | | |]; cbn; try done.
  - destruct (decide (w' ∈ l)) as [Hi|Hi]; destruct (decide (w' = w)) as [->|Hn]; try done.
    + by apply bool_decide_eq_true_2.
    + apply bool_decide_eq_true_2, elem_of_app. right. by left.
    + apply bool_decide_ext. rewrite elem_of_app, elem_of_list_singleton. split; [|tauto]. intros [|E]; [done|congruence].
  - destruct (decide (w' = w)) as [->|Hn].
    + apply bool_decide_eq_false_2. rewrite without_first_in by done. tauto.
    + apply bool_decide_ext. rewrite without_first_in by done. split; [tauto|]. intros H; split; [done|congruence].
Qed.
Lemma kw_contains_eq w m : kw_contains w m = bool_decide (w ∈ words m).
Proof.
  unfold kw_contains. destruct (first_kid (is_keyword w) m) as [[i k]|] eqn:E; symmetry.
  - apply list_find_Some in E as (E1 & [E2 E3] & _). apply bool_decide_eq_true_2. apply elem_of_list_fmap. exists k. split; [done|]. apply elem_of_list_filter. split; [done|]. by apply elem_of_list_lookup_2 in E1.
  - apply list_find_None in E. apply bool_decide_eq_false_2. intros Hin. apply elem_of_list_fmap in Hin as (k & -> & Hk). apply elem_of_list_filter in Hk as [H1 H2].
    rewrite Forall_forall in E. by apply (E k H2).
Qed.

(** user tags as a dictionary *)
Definition lookup_user (n : pystr) (l : list usertag) : option (option pystr * option pystr) :=
  (fun t : usertag => (t.1.2, t.2)) <$> head (filter (named n) l).
Definition names (l : list usertag) : list (option pystr) := map (fun t => t.1.1) l.
Lemma lookup_user_cons n t l : lookup_user n (t :: l) = if decide (named n t) then Some (t.1.2, t.2) else lookup_user n l.
Proof. unfold lookup_user. destruct (decide (named n t)); [by rewrite filter_cons_True|by rewrite filter_cons_False]. Qed.
Lemma lookup_set_user n n' v ty l : lookup_user n (set_user n' v ty l) =
  if decide (n' = n) then Some (Some v, match ty with Some _ => ty | None => lookup_user n l ≫= snd end) else lookup_user n l.
Proof.
  induction l as [|t l IH]; cbn [set_user].
  - rewrite lookup_user_cons. destruct (decide (n' = n)) as [->|Hn]; [rewrite decide_True by done; by destruct ty|]. rewrite decide_False; [done|]. intros [= E]. done.
  - destruct (decide (named n' t)) as [Hn'|Hn'].
    + rewrite !lookup_user_cons. destruct (decide (n' = n)) as [->|Hn].
      * rewrite !decide_True by done. by destruct ty.
      * rewrite !decide_False; [done| |]; unfold named in *; cbn; congruence.
    + rewrite !lookup_user_cons, IH. destruct (decide (named n t)) as [Hnt|Hnt]; [|done]. rewrite decide_False; [done|]. by intros ->.
Qed.
Lemma lookup_del_user n n' l : NoDup (names l) -> lookup_user n (del_user n' l) = if decide (n' = n) then None else lookup_user n l.
Proof.
  induction l as [|t l IH]; intros Hd; cbn [del_user]; [by destruct (decide _)|]. cbn in Hd. apply NoDup_cons in Hd as [Ht Hd].
  destruct (decide (named n' t)) as [Hn'|Hn'].
  - destruct (decide (n' = n)) as [->|Hn].
    + unfold lookup_user. replace (filter (named n) l) with (@nil usertag); [done|]. symmetry. rewrite Hn' in Ht. clear -Ht. induction l as [|y l IH]; [done|].
      cbn in Ht. apply not_elem_of_cons in Ht as [Hy Hl]. rewrite filter_cons_False; [by apply IH|]. intros E. by apply Hy.
    + rewrite lookup_user_cons, decide_False; [done|]. unfold named in *. congruence.
  - rewrite !lookup_user_cons, IH by done. destruct (decide (named n t)) as [Hnt|Hnt]; [|done]. rewrite decide_False; [done|]. by intros ->.
Qed.
Lemma set_user_names n v ty l : names (set_user n v ty l) = if decide (Some n ∈ names l) then names l else names l ++ [Some n].
Proof.
  induction l as [|t l IH]; [done|]. cbn [set_user]. destruct (decide (named n t)) as [Hn|Hn].
  - rewrite decide_True by (rewrite <- Hn; by left). cbn. by rewrite Hn.
  - cbn [names map]. fold (names (set_user n v ty l)) (names l). rewrite IH. destruct (decide (Some n ∈ names l)) as [Hi|Hi].
    + rewrite decide_True by (by right). done.
    + rewrite decide_False; [done|]. rewrite elem_of_cons. intros [E|E]; [by apply Hn|done].
Qed.
Lemma del_user_names n l x : x ∈ names (del_user n l) -> x ∈ names l.
Proof.
  induction l as [|t l IH]; [done|]. cbn [del_user]. destruct (decide (named n t)) as [Hn|Hn]; cbn [names map]; [by right|]. rewrite !elem_of_cons. intros [->|H]; [by left|right; by apply IH].
Qed.
Lemma del_user_NoDup n l : NoDup (names l) -> NoDup (names (del_user n l)).
Proof.
  induction l as [|t l IH]; [done|]. cbn [names map]. intros Hd. apply NoDup_cons in Hd as [Ht Hd]. cbn [del_user]. destruct (decide (named n t)) as [Hn|Hn]; [done|].
  cbn [names map]. constructor; [|by apply IH]. intros H. by apply Ht, (del_user_names n).
Qed.
Lemma users_after_NoDup l o : NoDup (names l) -> NoDup (names (users_after l o)).
Proof.
  intros Hd. destruct o; cbn; try done; try constructor.
  - rewrite set_user_names. destruct (decide _); [done|]. apply NoDup_app. split; [done|]. split; [set_solver|]. apply NoDup_singleton.
  - by apply del_user_NoDup.
Qed.
Lemma users_fold ops n l : NoDup (names l) ->
  NoDup (names (foldl users_after l ops)) /\ lookup_user n (foldl users_after l ops) = foldl (user_after n) (lookup_user n l) ops.
Proof.
  revert l. induction ops as [|o ops IH]; intros l Hd; [done|]. cbn [foldl]. destruct (IH (users_after l o)) as [H1 H2]; [by apply users_after_NoDup|]. split; [done|]. rewrite H2. f_equal.
  destruct o; cbn [users_after user_after]; try done; [by apply lookup_set_user|by apply lookup_del_user].
Qed.
Lemma user_first n m : (fun k : elem => (e_text k, e_get VALUE_TYPE k)) <$> (snd <$> first_kid (is_user n) m) = user n m.
Proof.
  unfold first_kid. rewrite find_head. unfold user. rewrite users_view. unfold findall.
  induction (kids m) as [|k l IH]; [done|]. destruct (decide (e_tag k = USER)) as [Hk|Hk].
  - rewrite (filter_cons_True (fun k0 : elem => e_tag k0 = USER)) by done. cbn [map]. destruct (decide (is_user n k)) as [Hu|Hu].
    + rewrite filter_cons_True by done. rewrite filter_cons_True by (exact (proj1 (is_user_named n k Hk) Hu)). done.
    + rewrite filter_cons_False by done. rewrite filter_cons_False by (intros H; exact (Hu (proj2 (is_user_named n k Hk) H))). done.
  - rewrite (filter_cons_False (fun k0 : elem => e_tag k0 = USER)) by done. rewrite filter_cons_False by (intros [? _]; done). done.
Qed.
Lemma ut_get_eq n m : ut_get n m = match user n m with Some x => Ok x.1 | None => Err KeyError end.
Proof. unfold ut_get. rewrite <- user_first. by destruct (first_kid (is_user n) m) as [[i k]|]. Qed.
Lemma ut_typeof_eq n m : ut_typeof n m = match user n m with Some x => Ok (default (lit "string") x.2) | None => Err KeyError end.
Proof. unfold ut_typeof. rewrite <- user_first. by destruct (first_kid (is_user n) m) as [[i k]|]. Qed.
Lemma ut_contains_eq n m : ut_contains n m = bool_decide (is_Some (user n m)).
Proof.
  unfold ut_contains. rewrite <- user_first. destruct (first_kid (is_user n) m) as [[i k]|]; symmetry; [by apply bool_decide_eq_true_2; eexists|]. apply bool_decide_eq_false_2. by intros [? ?].
Qed.
Lemma st_get_eq key m : has_stats m -> key ∈ STAT_TYPES ->
  st_get key m = Ok (match stat key m with Some v => match py_int v with Ok n => n | Err _ => 0%Z end | None => 0%Z end).
Proof.
  intros Hs Hk. unfold st_get. rewrite decide_True by done. assert (Hh := stats_head m). unfold has_stats in Hs. unfold stat.
  change "meta:document-statistic"%string with STATISTIC. fold (stat_attr key). rewrite <- Hh.
  destruct (stats_of m) as [[i s]|]; [|by destruct (findall STATISTIC m)]. cbn. destruct (e_get (stat_attr key) s) as [v|]; [|done]. by destruct (py_int v).
Qed.

(** ** The document *)
Lemma step_tag o m : has_stats m -> e_tag (step o m).1 = e_tag m.
Proof.
  intros Hs. assert (HS : forall key v m, root (meta_set key v m).1 = root m) by (intros; apply meta_set_frame).
  assert (HK := step_kind o m Hs). unfold e_tag. destruct o; try (destruct HK as (g & HK & _); by rewrite HK); clear HK; cbn [step].
  - by rewrite HS.
  - destruct (meta_touch_eq now gen m) as [-> _]. by rewrite !HS.
  - destruct (meta_inc_cases m) as [[_ ->]|(n & -> & _)]; [done|]. by rewrite HS.
  - done.
Qed.
Lemma run_tag ops m : has_stats m -> e_tag (play ops m) = e_tag m.
Proof.
  unfold play. revert m. induction ops as [|o ops IH]; intros m Hs; [done|]. cbn [foldl]. rewrite IH by (by apply step_stats). by apply step_tag.
Qed.
Lemma find_insert {A} (P : A -> Prop) `{forall x, Decision (P x)} (l : list A) i x y :
  list_find P l = Some (i, x) -> P y -> list_find P (<[i := y]> l) = Some (i, y).
Proof.
  intros E Hy. apply list_find_Some in E as (E1 & E2 & E3). apply list_find_Some. split; [apply list_lookup_insert; by apply lookup_lt_Some in E1|]. split; [done|].
  intros j z Hj Hlt. rewrite list_lookup_insert_ne in Hj by lia. by apply (E3 j z).
Qed.
Lemma on_meta_eq {A} (f : act elem A) r i m : first_kid (has_tag "office:meta") r = Some (i, m) ->
  on_meta f r = (T (root r) (<[i := (f m).1]> (kids r)), (f m).2).
Proof. intros E. unfold on_meta. rewrite E. destruct (f m) as [m' x]. unfold replace_kid. by destruct r. Qed.
Lemma run_doc_eq ops r i m : first_kid (has_tag "office:meta") r = Some (i, m) -> has_stats m ->
  play_doc ops r = T (root r) (<[i := play ops m]> (kids r)) /\ first_kid (has_tag "office:meta") (play_doc ops r) = Some (i, play ops m).
Proof.
  unfold play_doc, play. revert r m. induction ops as [|o ops IH]; intros r m E Hs.
  - cbn. split; [|done]. unfold first_kid in E. apply list_find_Some in E as (E & _). rewrite list_insert_id by done. by destruct r.
  - cbn [foldl]. rewrite (on_meta_eq _ _ _ _ E). cbn [fst].
    assert (E' : first_kid (has_tag "office:meta") (T (root r) (<[i := (step o m).1]> (kids r))) = Some (i, (step o m).1)).
    { unfold first_kid in *. cbn [kids]. eapply find_insert; [exact E|]. unfold has_tag. rewrite step_tag by done. apply list_find_Some in E as (_ & E & _). exact E. }
    destruct (IH _ _ E' (step_stats o m Hs)) as [H1 H2]. split; [|done]. rewrite H1. cbn [root kids]. by rewrite list_insert_insert.
Qed.

(** opening *)
Definition with_stats (m : elem) : elem := match stats_of m with Some _ => m | None => e_append (new_elem STATISTIC) m end.
Lemma with_stats_ok m : has_stats (with_stats m) /\ root (with_stats m) = root m /\
  (forall t, t <> STATISTIC -> findall t (with_stats m) = findall t m) /\ (has_stats m -> with_stats m = m) /\
  (forall key, stat key (with_stats m) = stat key m).
Proof.
  unfold with_stats, has_stats. assert (Hh := stats_head m). destruct (stats_of m) as [[i s]|].
  - split; [|done]. by destruct (findall STATISTIC m).
  - cbn in Hh. symmetry in Hh. apply head_None in Hh. rewrite findall_append, decide_True by done. split; [by rewrite Hh|]. split; [by destruct m|]. split.
    + intros t Ht. rewrite findall_append, decide_False by (by apply not_eq_sym). by rewrite app_nil_r.
    + split; [done|]. intros key. unfold stat. change "meta:document-statistic"%string with STATISTIC. rewrite findall_append, decide_True, Hh by done. done.
Qed.
Lemma open_existing now0 now gen e i m : e_tag e = "office:document-meta"%string -> first_kid (has_tag "office:meta") e = Some (i, m) ->
  open_meta now0 now gen (Some e) = Ok (T (root e) (<[i := with_stats m]> (kids e))).
Proof.
  intros Ht E. unfold open_meta. rewrite decide_True by done. cbn [rbind]. unfold meta_setup. rewrite E. cbn [rbind].
  rewrite (on_meta_eq _ _ _ _ E). cbn [fst snd rbind]. done.
Qed.
Definition fresh_meta (now0 now gen : pystr) : elem :=
  T (Nd "office:meta" ∅ None None)
    [e_set_text (Some now0) (new_elem "meta:creation-date"); e_set_text (Some now) (new_elem "dc:date");
     e_set_text (Some gen) (new_elem "meta:generator"); new_elem STATISTIC].
Definition GRDDL : pystr := lit "http://docs.oasis-open.org/office/1.2/xslt/odf2rdf.xsl".
Lemma open_without now0 now gen e : e_tag e = "office:document-meta"%string -> first_kid (has_tag "office:meta") e = None ->
  open_meta now0 now gen (Some e) = Ok (T (nd_set_attrs (<["grddl:transformation"%string := GRDDL]> (attrs (root e))) (root e)) (kids e ++ [fresh_meta now0 now gen])).
Proof.
  intros Ht E. unfold open_meta. rewrite decide_True by done. cbn [rbind]. unfold meta_setup. rewrite E.
  set (e1 := e_set _ _ (e_append _ e)). assert (E1 : forall m, e_tag m = "office:meta"%string -> first_kid (has_tag "office:meta") (T (root e1) (kids e ++ [m])) = Some (length (kids e), m)).
  { intros m Hm. unfold first_kid in *. cbn [kids]. apply list_find_None in E. apply list_find_Some. split; [by rewrite lookup_app_r, Nat.sub_diag|]. split; [done|].
    intros j z Hj Hlt. rewrite lookup_app_l in Hj by done. rewrite Forall_forall in E. apply E. by apply elem_of_list_lookup_2 in Hj. }
  assert (Ee : e1 = T (root e1) (kids e ++ [new_elem "office:meta"])) by (unfold e1; by destruct e).
  rewrite Ee. rewrite (on_meta_eq _ _ _ _ (E1 (new_elem "office:meta") eq_refl)). cbn [root kids].
  assert (HI : forall x y : elem, <[length (kids e) := y]> (kids e ++ [x]) = kids e ++ [y]).
  { intros x y. rewrite insert_app_r_alt, Nat.sub_diag by done. done. }
  rewrite HI. cbn [rbind snd fst].
  assert (HT : e_tag ((let! _ := meta_set "creation-date" (TStr now0) in meta_touch now gen) (new_elem "office:meta")).1 = "office:meta"%string) by (vm_compute; reflexivity).
  assert (HO : ((let! _ := meta_set "creation-date" (TStr now0) in meta_touch now gen) (new_elem "office:meta")).2 = Ok tt) by (vm_compute; reflexivity).
  rewrite HO. cbn [rbind]. rewrite (on_meta_eq _ _ _ _ (E1 _ HT)). cbn [root kids fst snd rbind]. rewrite HI.
  replace (root e1) with (nd_set_attrs (<["grddl:transformation"%string := GRDDL]> (attrs (root e))) (root e)) by (by destruct e). reflexivity.
Qed.
Lemma open_wrong now0 now gen e : e_tag e <> "office:document-meta"%string -> open_meta now0 now gen (Some e) = Err ValueError.
Proof. intros Ht. unfold open_meta. by rewrite decide_False. Qed.
Lemma open_new now0 now gen : open_meta now0 now gen None = open_meta now0 now gen (Some (new_elem "office:document-meta")).
Proof. done. Qed.
Lemma open_stats now0 now gen x r : open_meta now0 now gen x = Ok r ->
  e_tag r = "office:document-meta"%string /\ exists i m, first_kid (has_tag "office:meta") r = Some (i, m) /\ has_stats m.
Proof.
  intros H. assert (He : exists e, open_meta now0 now gen (Some e) = Ok r) by (destruct x as [e|]; [by exists e|eexists; by rewrite <- open_new]).
  clear H x. destruct He as [e H]. destruct (decide (e_tag e = "office:document-meta"%string)) as [Ht|Ht]; [|by rewrite open_wrong in H].
  destruct (first_kid (has_tag "office:meta") e) as [[i m]|] eqn:E.
  - rewrite (open_existing _ _ _ _ _ _ Ht E) in H. injection H as <-. split; [done|]. exists i, (with_stats m). destruct (with_stats_ok m) as (H1 & H2 & _). split; [|done].
    unfold first_kid in *. cbn [kids]. eapply find_insert; [exact E|]. unfold has_tag, e_tag. rewrite H2. apply list_find_Some in E as (_ & E & _). exact E.
  - rewrite (open_without _ _ _ _ Ht E) in H. injection H as <-. split; [exact Ht|]. exists (length (kids e)), (fresh_meta now0 now gen). split; [|by vm_compute].
    unfold first_kid in *. cbn [kids]. apply list_find_None in E. apply list_find_Some. split; [by rewrite lookup_app_r, Nat.sub_diag|]. split; [done|].
    intros j z Hj Hlt. rewrite lookup_app_l in Hj by done. rewrite Forall_forall in E. apply E. by apply elem_of_list_lookup_2 in Hj.
Qed.

(** ** Editing cycles *)
Lemma cycles_fold n k : foldl (entry_after "editing-cycles") (Some (Some (show_Z k))) (replicate n MInc) = Some (Some (show_Z (k + Z.of_nat n))).
Proof.
  revert k. induction n as [|n IH]; intros k; [cbn; do 3 f_equal; lia|]. cbn [replicate foldl]. replace (entry_after "editing-cycles" (Some (Some (show_Z k))) MInc) with (Some (Some (show_Z (k + 1)))).
  - rewrite IH. do 3 f_equal. lia.
  - cbn. unfold next_cycle. by rewrite py_int_show_Z.
Qed.

(** ** Iterating over the statistics *)
Lemma stat_name key : key ∈ STAT_TYPES -> String.substring 5 (String.length (stat_attr key) - 5 - 6) (stat_attr key) = key.
Proof.
  intros H. assert (HF : Forall (fun k => String.substring 5 (String.length (stat_attr k) - 5 - 6) (stat_attr k) = k) STAT_TYPES) by dec_vm.
  rewrite Forall_forall in HF. by apply HF.
Qed.
Lemma items_fold (l : list (string * pystr)) :
  Forall (fun p => exists key n, key ∈ STAT_TYPES /\ p.1 = stat_attr key /\ py_int p.2 = Ok n) l ->
  exists r, foldr (fun p r => do l <- r; do n <- py_int p.2; Ok ((String.substring 5 (String.length p.1 - 5 - 6) p.1, n) :: l)) (Ok []) l = Ok r /\
    Forall2 (fun p q => p.1 = stat_attr q.1 /\ q.1 ∈ STAT_TYPES /\ py_int p.2 = Ok q.2) l r.
Proof.
  induction 1 as [|[a v] l (key & n & Hk & Ha & Hn) Hl (r & IH & IH2)]; [exists []; by split; [|constructor]|]. cbn [foldr]. rewrite IH. cbn [rbind fst snd] in *. rewrite Hn. cbn [rbind].
  eexists. split; [done|]. constructor; [|done]. cbn. subst a. rewrite stat_name by done. done.
Qed.
Lemma st_items_ok m s : head (findall STATISTIC m) = Some s ->
  (forall a v, e_attrs s !! a = Some v -> exists key n, key ∈ STAT_TYPES /\ a = stat_attr key /\ py_int v = Ok n) ->
  exists l, st_items m = Ok l /\ NoDup (map fst l) /\
    forall key n, (key, n) ∈ l <-> key ∈ STAT_TYPES /\ exists v, stat key m = Some v /\ py_int v = Ok n.
Proof.
  intros Hs HA. unfold st_items. assert (Hh := stats_head m). rewrite Hs in Hh. destruct (stats_of m) as [[i s']|]; [|done]. injection Hh as ->.
  destruct (items_fold (map_to_list (e_attrs s))) as (r & -> & HF).
  { apply Forall_forall. intros [a v] Hin. apply elem_of_map_to_list in Hin. by apply HA. }
  exists r. split; [done|]. split.
  - assert (Hd := NoDup_fst_map_to_list (e_attrs s)). revert Hd HF. generalize (map_to_list (e_attrs s)). intros l Hd HF.
    induction HF as [|[a v] [key n] l r (H1 & H2 & H3) HF IH]; [constructor|]. cbn in *. apply NoDup_cons in Hd as [Ha Hd]. constructor; [|by apply IH].
    intros Hin. apply Ha. apply elem_of_list_fmap in Hin as ([key' n'] & E & Hin). cbn in E. subst key'.
    apply elem_of_list_lookup in Hin as [j Hj]. destruct (Forall2_lookup_r _ _ _ _ _ HF Hj) as ([a' v'] & Hl & E' & _). cbn in E'.
    apply elem_of_list_fmap. exists (a', v'). split; [cbn; congruence|]. by apply elem_of_list_lookup_2 in Hl.
  - intros key n. unfold stat. change "meta:document-statistic"%string with STATISTIC. rewrite Hs. cbn. fold (stat_attr key). split.
    + intros Hin. apply elem_of_list_lookup in Hin as [j Hj]. destruct (Forall2_lookup_r _ _ _ _ _ HF Hj) as ([a v] & Hl & E1 & E2 & E3). cbn in *.
      split; [done|]. exists v. split; [|done]. apply elem_of_list_lookup_2, elem_of_map_to_list in Hl. subst a. exact Hl.
    + intros (Hk & v & Hv & Hn). change (e_attrs s !! stat_attr key = Some v) in Hv. apply elem_of_map_to_list in Hv. apply elem_of_list_lookup in Hv as [j Hj].
      destruct (Forall2_lookup_l _ _ _ _ _ HF Hj) as ([key' n'] & Hl & E1 & E2 & E3). cbn in *. apply stat_attr_inj in E1. subst key'. rewrite Hn in E3. injection E3 as <-.
      by apply elem_of_list_lookup_2 in Hl.
Qed.
End proofs.
