(** Which operations leave no empty text behind. *)
From Verif Require Import DocumentProofs.

Lemma solid_iff a ks : solid (T a ks) <-> text a <> Some [] /\ tail a <> Some [] /\ Forall solid ks.
Proof. split; [intros H; by inversion_clear H|]. intros (H1 & H2 & H3). by constructor. Qed.
Fixpoint solidb (e : elem) : bool :=
  match e with T a ks => bool_decide (text a <> Some []) && bool_decide (tail a <> Some []) && forallb solidb ks end.
Lemma solid_by e : solidb e = true -> solid e.
Proof.
  induction e as [a ks IH] using tree_ind'. cbn. intros [[H1%bool_decide_eq_true H2%bool_decide_eq_true]%andb_true_iff H3]%andb_true_iff. apply solid_iff. split_and!; try done.
  induction IH as [|k ks Hk _ IHks]; [by apply Forall_nil_2|]. cbn in H3. apply andb_true_iff in H3 as [K1 K2]. apply Forall_cons_2; [by apply Hk|by apply IHks].
Qed.
Lemma solid_kids e : solid e -> Forall solid (kids e).
Proof. destruct e. by intros (_ & _ & H)%solid_iff. Qed.
Lemma solid_on_kids f e : solid e -> Forall solid (f (kids e)) -> solid (on_kids f e).
Proof. destruct e. intros (H1 & H2 & _)%solid_iff H. by apply solid_iff. Qed.
Lemma solid_new t : solid (new_elem t).
Proof. by apply solid_iff. Qed.
Lemma solid_append c e : solid c -> solid e -> solid (e_append c e).
Proof. intros Hc He. apply solid_on_kids; [done|]. apply Forall_app. split; [by apply solid_kids|by apply Forall_singleton]. Qed.
Lemma solid_set k v e : solid e -> solid (e_set k v e).
Proof. destruct e. by intros (H1 & H2 & H3)%solid_iff. Qed.
Lemma solid_del k e : solid e -> solid (e_del k e).
Proof. destruct e. by intros (H1 & H2 & H3)%solid_iff. Qed.
Lemma solid_text s e : s <> Some [] -> solid e -> solid (e_set_text s e).
Proof. destruct e. intros Hs (H1 & H2 & H3)%solid_iff. by apply solid_iff. Qed.
Lemma solid_tail s e : s <> Some [] -> solid e -> solid (e_set_tail s e).
Proof. destruct e. intros Hs (H1 & H2 & H3)%solid_iff. by apply solid_iff. Qed.
Lemma solid_clear e : solid (e_clear e).
Proof. by apply solid_iff. Qed.
Lemma solid_replace i k e : solid k -> solid e -> solid (replace_kid i k e).
Proof. intros Hk He. apply solid_on_kids; [done|]. apply Forall_insert; [by apply solid_kids|done]. Qed.
Lemma solid_fill l e : solid e -> solid (fill l e).
Proof.
  destruct e as [a ks]. intros (H1 & H2 & H3)%solid_iff. unfold fill. cbn [root kids]. apply solid_iff. split_and!; try done.
  apply Forall_app. split; [done|]. apply Forall_map. apply Forall_forall. intros t _. apply solid_new.
Qed.
Lemma solid_within t f e : (forall k, solid k -> solid (f k)) -> solid e -> solid (within t f e).
Proof.
  intros Hf. destruct e as [a ks]. intros (H1 & H2 & H3)%solid_iff. unfold within. cbn [root kids]. apply solid_iff. split_and!; try done.
  induction H3 as [|k ks Hk Hks IH]; [constructor|]. cbn [in_first]. case_decide; constructor; auto.
Qed.
Lemma solid_styles_from x : (forall e, x = Some e -> solid e) -> solid (styles_from x).
Proof. intros H. apply solid_fill. destruct x; cbn; [by apply H|apply solid_new]. Qed.
Lemma solid_content_from t x : (forall e, x = Some e -> solid e) -> solid (content_from t x).
Proof.
  intros H. apply solid_within; [intros b Hb; apply solid_within; [intros y Hy; by apply solid_fill|by apply solid_fill]|].
  apply solid_fill. destruct x; cbn; [by apply H|apply solid_new].
Qed.
Lemma solid_tree_part `{B : Bytes} name fs o x : tree_part name fs o = Ok x -> forall e, x = Some e -> solid e.
Proof.
  unfold tree_part. destruct (part name fs o) as [[b|]|]; cbn [rbind]; [|by intros [= <-]|done]. destruct (b_null b); [by intros [= <-]|]. destruct (b_parse b) as [e|] eqn:E; [|done].
  intros [= <-] e' [= <-]. by apply (b_parse_solid b).
Qed.

(** ** Meta data *)
Section meta.
Context `{U : Unicode}.
Definition told (o : mop) : Prop :=
  match o with
  | MSet _ v => v <> TStr []
  | MTouch now gen => now <> [] /\ gen <> []
  | KAdd w => w <> Some []
  | USet _ v _ => v <> []
  | _ => True
  end.
Lemma solid_meta_set key v m : v <> TStr [] -> solid m -> solid (meta_set key v m).1.
Proof.
  intros Hv Hm. unfold meta_set. destruct (tag_for key) as [t|]; [|done].
  assert (Ha : forall k, solid k -> solid (assign_text v k).1).
  { intros k Hk. destruct v as [s| |]; cbn; [apply solid_text; [|done]; by destruct s|by apply solid_text|done]. }
  destruct (first_kid (has_tag t) m) as [[i k]|] eqn:E.
  - specialize (Ha k). destruct (assign_text v k) as [k' r]. apply solid_replace; [|done]. apply Ha.
    apply list_find_Some in E as (E & _). apply solid_kids in Hm. rewrite Forall_lookup in Hm. by apply (Hm i).
  - specialize (Ha (new_elem t) (solid_new t)). destruct (assign_text v (new_elem t)) as [k' r]. by apply solid_append.
Qed.
Lemma solid_kid (P : elem -> Prop) `{forall k, Decision (P k)} m i k : solid m -> first_kid P m = Some (i, k) -> solid k.
Proof. intros Hm E. apply list_find_Some in E as (E & _). apply solid_kids in Hm. rewrite Forall_lookup in Hm. by apply (Hm i). Qed.
Lemma solid_remove i m : solid m -> solid (remove_kid i m).
Proof.
  intros Hm. apply solid_on_kids; [done|]. apply solid_kids in Hm. apply Forall_forall. intros k Hk. rewrite Forall_forall in Hm. apply Hm.
  revert Hk. generalize (kids m). clear. induction i as [|i IH]; intros [|x l]; cbn; try done; [by right|]. intros [->|Hk]%elem_of_cons; [by left|right; by apply IH].
Qed.
Lemma solid_clear_tag t m : solid m -> solid (clear_tag t m).
Proof. intros Hm. apply solid_on_kids; [done|]. apply Forall_forall. intros k [_ Hk]%elem_of_list_filter. apply solid_kids in Hm. rewrite Forall_forall in Hm. by apply Hm. Qed.
Lemma solid_step o m : told o -> solid m -> solid (step o m).1.
Proof.
  intros Ho Hm. destruct o as [k v|now gen| | |w|w| |n v ty|n| |k v|]; cbn [step told fst] in *.
  - by apply solid_meta_set.
  - destruct Ho as [H1 H2]. unfold meta_touch, abind.
    pose proof (solid_meta_set "date" (TStr now) m ltac:(by intros [= ->]) Hm) as Hs. destruct (meta_set "date" (TStr now) m) as [m1 [[]|]]; [|done].
    apply solid_meta_set; [by intros [= ->]|done].
  - unfold meta_inc. assert (Hz : forall z, TStr (show_Z z) <> TStr []) by (intros z [= E]; by apply show_Z_ne in E).
    destruct (meta_get _ m) as [[s|]|[]]; try done; [|by apply solid_meta_set]. destruct (py_int s) as [|[]]; try done; by apply solid_meta_set.
  - apply solid_append; [apply solid_new|apply solid_clear].
  - unfold kw_add. destruct (first_kid _ m); [done|]. apply solid_append; [|done]. apply solid_text; [done|apply solid_new].
  - unfold kw_remove. destruct (first_kid _ m) as [[i k]|]; [by apply solid_remove|done].
  - by apply solid_clear_tag.
  - unfold ut_set. assert (Hf : forall k, solid k -> solid (ut_fill v ty k)).
    { intros k Hk. unfold ut_fill. assert (solid (e_set_text (Some v) k)) by (apply solid_text; [by intros [= ->]|done]). destruct ty; [by apply solid_set|done]. }
    destruct (first_kid _ m) as [[i k]|] eqn:E; [apply solid_replace; [|done]; apply Hf; by eapply solid_kid|]. apply solid_append; [|done]. apply Hf, solid_set, solid_new.
  - unfold ut_del. destruct (first_kid _ m) as [[i k]|]; [by apply solid_remove|done].
  - by apply solid_clear_tag.
  - unfold st_set. case_decide; [|done]. destruct (stats_of m) as [[i s]|] eqn:E; [|done]. apply solid_replace; [|done]. apply solid_set. by eapply solid_kid.
  - unfold st_clear. destruct (stats_of m) as [[i s]|] eqn:E; [|done]. apply solid_replace; [|done]. apply solid_clear.
Qed.
Lemma solid_play_doc ops r : Forall told ops -> solid r -> solid (play_doc ops r).
Proof.
  unfold play_doc. revert r. induction ops as [|o ops IH]; intros r Ho Hr; [done|]. apply Forall_cons in Ho as [Ho Hos]. cbn [foldl]. apply IH; [done|].
  unfold on_meta. destruct (first_kid (has_tag "office:meta") r) as [[i m]|] eqn:E; [|done].
  pose proof (solid_step o m Ho (solid_kid _ _ _ _ Hr E)) as Hs. destruct (step o m) as [m' x]. by apply solid_replace.
Qed.
Lemma solid_open_meta now0 now gen x r : now0 <> [] -> now <> [] -> gen <> [] -> (forall e, x = Some e -> solid e) -> open_meta now0 now gen x = Ok r -> solid r.
Proof.
  intros N1 N2 N3 Hx H. assert (He : exists e, open_meta now0 now gen (Some e) = Ok r /\ solid e).
  { destruct x as [e|]; [exists e; split; [done|by apply Hx]|]. exists (new_elem "office:document-meta"). split; [by rewrite <- open_new|apply solid_new]. }
  clear H Hx x. destruct He as (e & H & He). destruct (decide (e_tag e = "office:document-meta"%string)) as [Ht|Ht]; [|by rewrite open_wrong in H].
  destruct (first_kid (has_tag "office:meta") e) as [[i m]|] eqn:E.
  - rewrite (open_existing _ _ _ _ _ _ Ht E) in H. injection H as <-. assert (Hm : solid (with_stats m)).
    { unfold with_stats. pose proof (solid_kid _ _ _ _ He E). destruct (stats_of m); [done|]. apply solid_append; [apply solid_new|done]. }
    destruct e as [a ks]. apply solid_iff in He as (H1 & H2 & H3). apply solid_iff. split_and!; try done. by apply Forall_insert.
  - rewrite (open_without _ _ _ _ Ht E) in H. injection H as <-. destruct e as [a ks]. apply solid_iff in He as (H1 & H2 & H3). apply solid_iff. split_and!; try done.
    apply Forall_app. split; [done|]. apply Forall_singleton. apply solid_iff. split_and!; try done.
    repeat (apply Forall_cons_2; [apply solid_text; [congruence|apply solid_new] || apply solid_new|]). apply Forall_nil_2.
Qed.
End meta.
