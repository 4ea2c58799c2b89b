(** Lemmas for paragraph text: append_text, textlen, rendering. *)
From Verif Require Export WhitespaceProofs.

Section ws.
Context `{U : Unicode}.

Local Arguments text_append : simpl never.
Local Arguments str_of : simpl never.
Local Arguments istr : simpl never.

(** ** encode *)
Lemma encode_decode t : decode (encode t) = Ok t.
Proof. apply encode_spec. Qed.
Lemma encode_canonical t : canonical (encode t).
Proof. apply encode_spec. Qed.
Lemma encode_unique l t : canonical l -> decode l = Ok t -> l = encode t.
Proof.
  intros Hl Hd. eapply canonical_inj; [done|apply encode_canonical|done|apply encode_decode].
Qed.
Lemma encode_ok_items t : Forall ok_item (encode t).
Proof. apply encode_canonical. Qed.
Lemma encode_concat t : concat (map istr (encode t)) = t.
Proof.
  pose proof (encode_decode t) as H. rewrite decode_canonical in H by apply encode_ok_items.
  congruence.
Qed.

(** ** append_text *)
Definition no_tail (i : item) : Prop :=
  match i with inl _ => True | inr e => e_tail e = None end.

Lemma e_tail_Spaces n : e_tail (Spaces n) = None.
Proof. unfold Spaces. by case_decide. Qed.

Lemma ok_item_no_tail i : ok_item i -> no_tail i.
Proof.
  intros H%ok_item_view. destruct H; try done. apply e_tail_Spaces.
Qed.

Lemma append_item_tag e i : e_tag (append_item e i) = e_tag e.
Proof. destruct e as [a ks], i; cbn; [|done]. by destruct (last ks). Qed.
Lemma append_item_attrs e i : e_attrs (append_item e i) = e_attrs e.
Proof. destruct e as [a ks], i; cbn; [|done]. by destruct (last ks). Qed.

Lemma text_append_str o s : str_of (text_append o s) = str_of o ++ s.
Proof. by destruct o as [[|c r]|]. Qed.

Lemma plaintext_span a ks :
  tag a ∈ span_tags ->
  plaintext (T a ks) =
    (do l <- rmap (fun k => do p <- plaintext k; Ok (p ++ str_of (e_tail k))) ks;
     Ok (str_of (text a) ++ concat l)).
Proof. intros H. cbn [plaintext]. by rewrite decide_True. Qed.

Lemma plaintext_set_tail k t : plaintext (e_set_tail t k) = plaintext k.
Proof. destruct k as [[tg at' tx tl] ks]. reflexivity. Qed.

Lemma last_take {A} (l : list A) x :
  last l = Some x -> l = take (length l - 1) l ++ [x].
Proof.
  intros H. apply last_Some in H as [l' ->].
  rewrite app_length. cbn. rewrite Nat.add_sub, take_app. done.
Qed.

Lemma append_item_plaintext e i s u :
  e_tag e ∈ span_tags -> no_tail i ->
  plaintext e = Ok s -> item_str i = Ok u ->
  plaintext (append_item e i) = Ok (s ++ u).
Proof.
  destruct e as [a ks]. intros Ht Hn Hp Hi. unfold e_tag in Ht; cbn in Ht.
  rewrite plaintext_span in Hp by done.
  destruct i as [w|c].
  - cbn in Hi. injection Hi as <-. cbn [append_item].
    destruct (last ks) as [k|] eqn:El.
    + rewrite plaintext_span by done.
      rewrite (last_take _ _ El) in Hp. rewrite rmap_app in Hp |- *.
      destruct (rmap _ (take _ _)) as [l|]; cbn [rbind] in *; [|done].
      cbn [rmap rbind] in *. rewrite plaintext_set_tail.
      destruct (plaintext k) as [p|]; cbn [rbind] in *; [|done].
      injection Hp as <-. f_equal. rewrite !concat_app. cbn. rewrite !app_nil_r.
      destruct k as [ka kk]. cbn. rewrite text_append_str. by rewrite <- !app_assoc.
    + apply last_None in El as ->. cbn [rmap rbind] in Hp. injection Hp as <-.
      cbn [e_set_text on_root]. rewrite plaintext_span by (by destruct a).
      cbn. by rewrite text_append_str, !app_nil_r.
  - cbn in Hi. cbn [append_item e_append on_kids]. rewrite plaintext_span by done.
    rewrite rmap_app.
    match type of Hp with context [rmap ?f ks] => destruct (rmap f ks) as [l|] end;
      cbn [rbind] in *; [|done].
    cbn [rmap rbind]. rewrite Hi. cbn [rbind]. injection Hp as <-. f_equal.
    rewrite concat_app. cbn. cbn in Hn. rewrite Hn. cbn. by rewrite !app_nil_r, app_assoc.
Qed.

Lemma append_items_plaintext l e s :
  e_tag e ∈ span_tags -> Forall ok_item l -> plaintext e = Ok s ->
  plaintext (foldl append_item e l) = Ok (s ++ concat (map istr l)).
Proof.
  revert e s. induction l as [|i l IH]; intros e s Ht Hl Hp; cbn.
  - by rewrite app_nil_r.
  - apply Forall_cons in Hl as [Hi Hl]. rewrite app_assoc. apply IH; [|done|].
    + by rewrite append_item_tag.
    + apply append_item_plaintext; [done|by apply ok_item_no_tail|done|by apply ok_item_str].
Qed.

Lemma append_text_plaintext e t s :
  e_tag e ∈ span_tags -> plaintext e = Ok s ->
  plaintext (append_text e t) = Ok (s ++ t).
Proof.
  intros Ht Hp. unfold append_text.
  rewrite (append_items_plaintext _ _ s) by (done || apply encode_ok_items).
  by rewrite encode_concat.
Qed.

Lemma append_text_tag e t : e_tag (append_text e t) = e_tag e.
Proof.
  unfold append_text. generalize (encode t) as l. intros l. revert e.
  induction l as [|i l IH]; intros e; cbn; [done|]. by rewrite IH, append_item_tag.
Qed.
Lemma append_text_attrs e t : e_attrs (append_text e t) = e_attrs e.
Proof.
  unfold append_text. generalize (encode t) as l. intros l. revert e.
  induction l as [|i l IH]; intros e; cbn; [done|]. by rewrite IH, append_item_attrs.
Qed.

Lemma append_texts_plaintext ts e s :
  e_tag e ∈ span_tags -> plaintext e = Ok s ->
  plaintext (foldl append_text e ts) = Ok (s ++ concat ts).
Proof.
  revert e s. induction ts as [|t ts IH]; intros e s Ht Hp; cbn.
  - by rewrite app_nil_r.
  - rewrite app_assoc. apply IH; [by rewrite append_text_tag|by apply append_text_plaintext].
Qed.

Lemma plaintext_new tg at' : tg ∈ span_tags -> plaintext (T (Nd tg at' None None) []) = Ok [].
Proof. intros H. by rewrite plaintext_span. Qed.

Lemma plaintext_e_set k v e : e_tag e ∈ span_tags -> plaintext (e_set k v e) = plaintext e.
Proof.
  destruct e as [[tg at' tx tl] ks]. unfold e_tag; cbn [root tag]. intros H.
  cbn [e_set on_root]. by rewrite !plaintext_span.
Qed.

Lemma e_tag_e_set k v e : e_tag (e_set k v e) = e_tag e.
Proof. by destruct e as [[tg at' tx tl] ks]. Qed.

Lemma new_span_tag tg t st : e_tag (new_span tg t st) = tg.
Proof.
  unfold new_span. destruct t; destruct st; rewrite ?append_text_tag, ?e_tag_e_set; done.
Qed.

Lemma new_span_plaintext tg t st : tg ∈ span_tags -> plaintext (new_span tg t st) = Ok t.
Proof.
  intros Ht. unfold new_span.
  set (e := match st with [] => _ | _ => _ end).
  assert (plaintext e = Ok [] /\ e_tag e = tg) as [Hp He].
  { subst e. destruct st; [split; [by apply plaintext_new|done]|].
    rewrite plaintext_e_set by done. split; [by apply plaintext_new|by rewrite e_tag_e_set]. }
  destruct t as [|c t]; [done|]. rewrite (append_text_plaintext _ _ []); [done|by rewrite He|done].
Qed.

Lemma new_heading_plaintext t lv st : plaintext (new_heading t lv st) = Ok t.
Proof.
  unfold new_heading. rewrite plaintext_e_set; [apply new_span_plaintext; by apply elem_of_list_In; cbn; auto|].
  rewrite new_span_tag. apply elem_of_list_In; cbn; auto.
Qed.
Lemma new_hyperlink_plaintext h t st : plaintext (new_hyperlink h t st) = Ok t.
Proof.
  assert (Ha : "text:a" ∈ span_tags) by (apply elem_of_list_In; cbn; auto).
  unfold new_hyperlink.
  destruct h; rewrite !plaintext_e_set;
    rewrite ?e_tag_e_set, ?new_span_tag; auto using new_span_plaintext.
Qed.

(** ** textlen *)
Lemma textlen_spec e : text_tree e ->
  exists s, plaintext e = Ok s /\ textlen e = Ok (Z.of_nat (length s)).
Proof.
  revert e. apply (tree_ind' (fun e => text_tree e -> exists s, plaintext e = Ok s /\ textlen e = Ok (Z.of_nat (length s)))).
  intros a ks IH Ht.
  inversion Ht as [a' ks' Hs Hk|a' ks' Hs Hc|a' ks' H1 H2 H3]; subst a' ks'; cbn [plaintext textlen].
  - change (tag a ∈ span_tags) in Hs. rewrite !(decide_True _ _ Hs).
    assert (exists ps, rmap (fun k => do p <- plaintext k; Ok (p ++ str_of (e_tail k))) ks = Ok ps /\
      rmap (fun k => do p <- textlen k; Ok (p + Z.of_nat (length (str_of (e_tail k))))%Z) ks
      = Ok (map (fun p => Z.of_nat (length p)) ps)) as (ps & -> & ->).
    { clear Ht Hs. induction ks as [|k ks IHk]; [by exists []|].
      apply Forall_cons in IH as [IH1 IH2]. apply Forall_cons in Hk as [Hk1 Hk2].
      destruct (IHk IH2 Hk2) as (ps & E1 & E2). destruct (IH1 Hk1) as (s & F1 & F2).
      exists ((s ++ str_of (e_tail k)) :: ps). cbn [rmap]. rewrite F1, F2. cbn [rbind].
      rewrite E1, E2. cbn. split; [done|]. do 3 f_equal. rewrite app_length. lia. }
    cbn. eexists. split; [done|]. f_equal. rewrite app_length, Nat2Z.inj_add. f_equal.
    induction ps as [|p ps IHp]; [done|]. cbn. rewrite app_length, IHp. lia.
  - rewrite Hs.
    assert (Hns : "text:s" ∉ span_tags) by (apply (bool_decide_unpack _); vm_compute; exact I).
    rewrite !(decide_False _ _ Hns).
    rewrite !(decide_False (P := "text:s" = _)) by done. rewrite !decide_True by done.
    unfold spaces_count, e_get, e_attrs. cbn [root]. destruct (attrs a !! "text:c") as [c|] eqn:Ec.
    + destruct (Hc c eq_refl) as (n & Hn & ->). cbn. eexists; split; [done|].
      unfold blanks. rewrite replicate_length. f_equal. lia.
    + cbn. by eexists.
  - rewrite !(decide_False (P := tag a ∈ span_tags)) by done.
    case_decide; [by eexists|]. case_decide; [by eexists|].
    case_decide; [done|]. case_decide; [by eexists|].
    rewrite decide_False by (intros ?; apply H2; set_solver).
    rewrite decide_False by (intros ?; apply H2; set_solver).
    by eexists.
Qed.

(** ** Rendering *)
Definition a_str (a : atom) : pystr := match a with AC c => [c] | AE s => s end.
Definition meaning (l : list atom) : pystr := concat (map a_str l).

Lemma meaning_app l l' : meaning (l ++ l') = meaning l ++ meaning l'.
Proof. unfold meaning. by rewrite map_app, concat_app. Qed.

Fixpoint clean (l : list atom) : Prop :=
  match l with
  | [] => True
  | AC c :: r => c <> 9%N /\ c <> 10%N /\ c <> 13%N /\
                 (c = 32%N -> r <> [] /\ head r <> Some (AC 32%N)) /\ clean r
  | AE _ :: r => clean r
  end.

Lemma raw_blank_false c : c <> 9%N -> c <> 10%N -> c <> 13%N -> c <> 32%N -> raw_blank c = false.
Proof. intros. unfold raw_blank. apply bool_decide_eq_false_2. lia. Qed.

Lemma collapse_clean l : clean l ->
  collapse Normal l = meaning l /\
  (l <> [] -> head l <> Some (AC 32%N) -> collapse Pending l = 32%N :: meaning l /\ collapse Start l = meaning l).
Proof.
  induction l as [|[c|s] l IH]; [done|..]; cbn [clean].
  - intros (H9 & H10 & H13 & Hb & Hc). specialize (IH Hc) as [IH1 IH2].
    destruct (decide (c = 32%N)) as [->|H32].
    + split; [|done]. cbn. destruct (Hb eq_refl) as [Hne Hh]. by destruct (IH2 Hne Hh) as [-> _].
    + split; [|intros _ _]; cbn [collapse]; rewrite raw_blank_false by done; cbn; by rewrite IH1.
  - intros Hc. destruct (IH Hc) as [IH1 _]. split; [|intros _ _]; cbn; by rewrite IH1.
Qed.

Lemma collapse_length st l :
  length (collapse st l) <= length (meaning l) + match st with Pending => 1 | _ => 0 end.
Proof.
  revert st. induction l as [|[c|s] l IH]; intros st; cbn [collapse]; [cbn; lia|..].
  - destruct (raw_blank c).
    + destruct st; [pose proof (IH Start)|pose proof (IH Pending)|pose proof (IH Pending)];
        unfold meaning in *; cbn in *; lia.
    + pose proof (IH Normal). unfold meaning in *. destruct st; cbn in *; lia.
  - pose proof (IH Normal). unfold meaning in *. destruct st; cbn; rewrite !app_length; cbn in *; lia.
Qed.

Lemma collapse_last st l : collapse st (l ++ [AC 32%N]) = collapse st l.
Proof.
  revert st. induction l as [|[c|s] l IH]; intros st; cbn; [done|..].
  - destruct (raw_blank c); by rewrite IH.
  - by rewrite IH.
Qed.

Lemma collapse_13 st l : 13%N ∈ collapse st l -> exists s, AE s ∈ l /\ 13%N ∈ s.
Proof.
  revert st. induction l as [|[c|s] l IH]; intros st; cbn [collapse].
  - intros H. by apply elem_of_nil in H.
  - destruct (raw_blank c) eqn:Eb.
    + intros (s & ? & ?)%IH. exists s. split; [by right|done].
    + intros [H|[H|H]%elem_of_cons]%elem_of_app.
      * destruct st; apply elem_of_list_In in H; cbn in H; intuition discriminate.
      * subst c. done.
      * apply IH in H as (s & ? & ?). exists s. split; [by right|done].
  - intros [H|[H|H]%elem_of_app]%elem_of_app.
    + destruct st; apply elem_of_list_In in H; cbn in H; intuition discriminate.
    + exists s. split; [by left|done].
    + apply IH in H as (s' & ? & ?). exists s'. split; [by right|done].
Qed.

(** atoms of canonical lists *)
Definition iatoms (i : item) : list atom :=
  match i with inl s => map AC s | inr e => [AE (elem_means e)] end.
Lemma atoms_cons i l : atoms (i :: l) = iatoms i ++ atoms l.
Proof. done. Qed.

Lemma elem_means_Tab : elem_means Tabulator = [9%N].
Proof. reflexivity. Qed.
Lemma elem_means_Brk : elem_means LineBreak = [10%N].
Proof. reflexivity. Qed.

Lemma meaning_AC s : meaning (map AC s) = s.
Proof. induction s as [|c s IH]; [done|]. unfold meaning in *. cbn. by rewrite IH. Qed.

Lemma iatoms_meaning i : ok_item i -> meaning (iatoms i) = istr i.
Proof.
  intros H%ok_item_view. destruct H as [s Hs| | |n Hn]; cbn [iatoms].
  - apply meaning_AC.
  - reflexivity.
  - reflexivity.
  - rewrite istr_spaces by done. rewrite elem_means_Spaces by done. unfold meaning. cbn.
    by rewrite app_nil_r.
Qed.

Lemma atoms_meaning l : Forall ok_item l -> meaning (atoms l) = concat (map istr l).
Proof.
  induction 1 as [|i l Hi Hl IH]; [done|].
  rewrite atoms_cons, meaning_app, iatoms_meaning, IH by done. done.
Qed.

Lemma no_double_tail c s : no_double (c :: s) -> no_double s.
Proof. intros H i [H1 H2]. apply (H (S i)). done. Qed.

Lemma clean_text_app s r :
  9%N ∉ s -> 10%N ∉ s -> 13%N ∉ s -> no_double s -> clean r ->
  (last s = Some 32%N -> r <> [] /\ head r <> Some (AC 32%N)) ->
  clean (map AC s ++ r).
Proof.
  induction s as [|c s IH]; cbn [map app clean]; [done|].
  intros H9 H10 H13 Hd Hr Hl.
  apply not_elem_of_cons in H9 as [? H9]. apply not_elem_of_cons in H10 as [? H10].
  apply not_elem_of_cons in H13 as [? H13].
  split_and!; [done..| |].
  - intros ->. destruct s as [|c' s]; [by apply Hl|]. cbn. split; [done|].
    intros [= ->]. by apply (Hd 0).
  - apply IH; try done; [by eapply no_double_tail|].
    intros E. apply Hl. destruct s; [done|]. exact E.
Qed.

(** The atoms of a canonical list are clean when it does not end in a lone blank. *)
Lemma canonical_clean prev l :
  canon_after prev l -> 13%N ∉ concat (map istr l) ->
  (forall s, last l = Some (inl s) -> last s <> Some 32%N) ->
  clean (atoms l).
Proof.
  revert prev. induction l as [|x l IH]; intros prev Hc H13 Hl; [done|].
  apply canon_after_cons in Hc as (Hx & _ & Hc).
  cbn in H13. apply not_elem_of_app in H13 as [H13 H13'].
  assert (Hl' : forall s, last l = Some (inl s) -> last s <> Some 32%N).
  { intros s Hs. apply Hl. by destruct l. }
  specialize (IH _ Hc H13' Hl'). rewrite atoms_cons.
  destruct (ok_item_view _ Hx) as [s (Hne & H9 & H10 & Hd)| | |n Hn]; try exact IH.
  cbn [iatoms]. apply clean_text_app; try done. intros E.
  destruct l as [|y l]; [by apply (Hl s) in E|].
  apply canon_after_cons in Hc as (Hy & (Hadj & _) & _). rewrite atoms_cons.
  destruct y as [t|e]; [exfalso; apply Hadj; eauto|]. cbn. done.
Qed.

Lemma canonical_canon_after l : canonical l -> canon_after None l.
Proof. done. Qed.

Lemma canonical_head l :
  canonical l -> head (atoms l) = Some (AC 32%N) <-> head (concat (map istr l)) = Some 32%N.
Proof.
  intros Hc%canonical_canon_after. destruct l as [|x l]; [done|].
  apply canon_after_cons in Hc as (Hx & Hs & _). rewrite atoms_cons. cbn [map concat].
  rewrite (head_app_ne (istr x)) by (by apply istr_ne).
  destruct (ok_item_view _ Hx) as [s (Hne & _)| | |n Hn]; cbn [iatoms].
  - destruct s as [|c s]; [done|]. cbn. split; [intros [= ->]|intros [= ->]]; done.
  - cbn. done.
  - cbn. done.
  - exfalso. apply Hs. eexists; eauto.
Qed.

Lemma last_app_ne {A} (l l' : list A) : l' <> [] -> last (l ++ l') = last l'.
Proof. intros H. rewrite last_app. destruct (last l') eqn:E; [done|]. by apply last_None in E. Qed.

Lemma last_canonical_decode l s :
  canonical (l ++ [inl s]) -> last s = Some 32%N ->
  exists p, concat (map istr (l ++ [inl s])) = p ++ [32%N] /\ last p <> Some 32%N.
Proof.
  intros (Hf & Ha & _) Hs. apply last_Some in Hs as [s' ->].
  exists (concat (map istr l) ++ s'). rewrite map_app, concat_app. cbn. rewrite app_nil_r.
  split; [unfold istr at 2; cbn; by rewrite app_assoc|].
  apply Forall_app in Hf as [Hf Hs]. rewrite Forall_singleton in Hs; destruct Hs as (_ & _ & _ & Hd).
  destruct s' as [|c s'].
  - rewrite app_nil_r. destruct l as [|x l _] using rev_ind; [done|].
    rewrite map_app, concat_app. cbn. rewrite app_nil_r.
    apply Forall_app in Hf as [_ Hx]. rewrite Forall_singleton in Hx.
    rewrite last_app_ne by (by apply istr_ne).
    assert (ok_adj x (inl [32%N])) as (H1 & _ & H3).
    { apply (Ha (length l)).
      - rewrite <- app_assoc. by apply list_lookup_middle.
      - rewrite lookup_app_r by (rewrite app_length; cbn; lia).
        rewrite app_length. cbn. by replace (S (length l) - (length l + 1)) with 0 by lia. }
    destruct (ok_item_view _ Hx) as [t _| | |n Hn].
    + exfalso. apply H1. eauto.
    + done.
    + done.
    + exfalso. eapply H3; [by exists n|done|done].
  - rewrite last_app_ne by done. intros Hl. apply last_Some in Hl as [q Eq]. rewrite Eq in Hd.
    apply (Hd (length q)). split.
    + rewrite <- app_assoc. by apply list_lookup_middle.
    + rewrite lookup_app_r by (rewrite app_length; cbn; lia).
      rewrite app_length. cbn. by replace (S (length q) - (length q + 1)) with 0 by lia.
Qed.

Lemma canonical_last l p :
  canonical l -> concat (map istr l) = p ++ [32%N] -> last p <> Some 32%N ->
  exists l' s, l = l' ++ [inl s] /\ last s = Some 32%N.
Proof.
  intros (Hf & Ha & Hh) E Hp. destruct l as [|x l _] using rev_ind.
  { cbn in E. by destruct p. }
  rewrite map_app, concat_app in E. cbn in E. rewrite app_nil_r in E.
  pose proof Hf as Hf'. apply Forall_app in Hf' as [Hf' Hx]. rewrite Forall_singleton in Hx.
  assert (El : last (istr x) = Some 32%N).
  { rewrite <- (last_app_ne (concat (map istr l))) by (by apply istr_ne). by rewrite E, last_snoc. }
  destruct (ok_item_view _ Hx) as [t Ht| | |n Hn]; [by eauto|done|done|].
  exfalso. destruct l as [|y l _] using rev_ind.
  { eapply Hh; [done|]. by exists n. }
  assert (ok_adj y (inr (Spaces n))) as (_ & H2 & _).
  { apply (Ha (length l)).
    - rewrite <- app_assoc. by apply list_lookup_middle.
    - rewrite lookup_app_r by (rewrite app_length; cbn; lia).
      rewrite app_length. cbn. by replace (S (length l) - (length l + 1)) with 0 by lia. }
  destruct H2 as (s & -> & Hs); [by exists n|].
  rewrite istr_spaces in E by done. unfold blanks in E.
  destruct (Z.to_nat n) as [|k] eqn:Ek; [lia|].
  replace (S k) with (k + 1) in E by lia. rewrite replicate_add, app_assoc in E.
  apply app_inj_tail in E as [E _]. rewrite <- E in Hp. apply Hp.
  destruct k as [|k].
  - cbn. rewrite app_nil_r, map_app, concat_app. cbn. rewrite app_nil_r.
    change (istr (inl s)) with s. destruct s as [|c s]; [done|]. by rewrite last_app_ne.
  - replace (S k) with (k + 1) by lia. rewrite replicate_add, app_assoc. cbn.
    by rewrite last_snoc.
Qed.

Lemma AE_no13 l s : Forall ok_item l -> AE s ∈ atoms l -> 13%N ∉ s.
Proof.
  induction 1 as [|x l Hx Hl IH]; [by intros ?%elem_of_nil|].
  rewrite atoms_cons. intros [H|H]%elem_of_app; [|by apply IH].
  destruct (ok_item_view _ Hx) as [t Ht| | |n Hn]; cbn [iatoms] in H.
  - apply elem_of_list_In, in_map_iff in H as (? & ? & _). done.
  - apply elem_of_list_singleton in H as [= ->]. rewrite elem_means_Tab.
    intros ?%elem_of_list_singleton. done.
  - apply elem_of_list_singleton in H as [= ->]. rewrite elem_means_Brk.
    intros ?%elem_of_list_singleton. done.
  - apply elem_of_list_singleton in H as [= ->]. rewrite elem_means_Spaces by done.
    unfold blanks. intros ?%elem_of_replicate. by destruct H.
Qed.

Lemma rendered_canonical l :
  canonical l -> rendered l = concat (map istr l) <-> renderable (concat (map istr l)).
Proof.
  intros Hc. pose proof Hc as (Hf & _). split.
  - intros E. split_and!.
    + intros H13. rewrite <- E in H13. apply collapse_13 in H13 as (s & Hs & H13).
      by eapply AE_no13.
    + intros Hh. apply canonical_head in Hh; [|done]. unfold rendered in E.
      assert (length (collapse Start (atoms l)) < length (meaning (atoms l))).
      { destruct (atoms l) as [|a r]; [done|]. injection Hh as ->.
        change (collapse Start (AC 32%N :: r)) with (collapse Start r).
        pose proof (collapse_length Start r). cbn. unfold meaning in *. lia. }
      rewrite E, atoms_meaning in H by done. lia.
    + intros (p & Ep & Hp). destruct (canonical_last _ _ Hc Ep Hp) as (l' & s & -> & Hs).
      apply last_Some in Hs as [s' ->]. unfold rendered in E.
      assert (Ea : atoms (l' ++ [inl (s' ++ [32%N])]) = atoms l' ++ map AC s' ++ [AC 32%N]).
      { unfold atoms. rewrite flat_map_app. cbn. by rewrite app_nil_r, map_app. }
      rewrite <- (atoms_meaning _ Hf) in E. rewrite Ea, app_assoc in E.
      rewrite collapse_last in E.
      pose proof (collapse_length Start (atoms l' ++ map AC s')) as Hlen. rewrite E in Hlen.
      rewrite meaning_app, app_length in Hlen. cbn in Hlen. lia.
  - intros (H13 & Hh & Hl). unfold rendered.
    assert (Hcl : clean (atoms l)).
    { apply (canonical_clean None); [done..|]. intros s Hs Hs'. apply last_Some in Hs as [l' ->].
      apply Hl. by apply last_canonical_decode. }
    destruct (atoms l) eqn:Ea.
    + by rewrite <- atoms_meaning, Ea by done.
    + rewrite <- Ea in *. destruct (collapse_clean _ Hcl) as [_ H2].
      destruct H2 as [_ ->]; [by rewrite Ea|by rewrite canonical_head|].
      by apply atoms_meaning.
Qed.

(** ** The content of a fresh paragraph is the encoded list *)
Lemma content_items_append e i :
  no_tail i -> (forall s, i = inl s -> s <> [] /\ (forall t, last (content_items e) <> Some (inl t))) ->
  content_items (append_item e i) = content_items e ++ [i].
Proof.
  destruct e as [a ks]. intros Hn Hi. destruct i as [s|c].
  - destruct (Hi s eq_refl) as [Hs Hlast]. destruct s as [|c s]; [done|]. cbn [append_item].
    destruct (last ks) as [k|] eqn:El.
    + pose proof (last_take _ _ El) as Eks. set (kk := take (length ks - 1) ks) in *.
      unfold content_items in *. cbn [e_text root kids text] in *.
      rewrite Eks, !flat_map_app in *. cbn [flat_map] in *. rewrite !app_nil_r in *.
      destruct (opt_str (e_tail k)) as [|i0 i1] eqn:Eo.
      * rewrite <- !app_assoc. do 2 f_equal. cbn.
        destruct k as [[tg at' tx tl] kk']. cbn in *.
        destruct tl as [[|]|]; [done|done|done].
      * exfalso. destruct (e_tail k) as [[|c0 t0]|]; [done| |done]. cbn in Eo. injection Eo as <- <-.
        rewrite app_assoc in Hlast.
        apply (Hlast (c0 :: t0)). rewrite last_app_ne by done. done.
    + apply last_None in El as ->. unfold content_items, e_text in *. cbn in *.
      rewrite !app_nil_r in *. destruct (text a) as [[|c0 t0]|] eqn:Et; cbn; [done| |done].
      exfalso. by apply (Hlast (c0 :: t0)).
  - cbn [append_item e_append on_kids]. unfold content_items. cbn [e_text root kids text].
    rewrite flat_map_app. cbn [flat_map]. cbn in Hn.
    destruct c as [[tg at' tx tl] kk]. unfold e_tail in *. cbn in *. subst tl. cbn.
    by rewrite app_assoc.
Qed.

Lemma content_items_appends l e prev :
  canon_after prev l ->
  last (content_items e) = prev ->
  content_items (foldl append_item e l) = content_items e ++ l.
Proof.
  revert e prev. induction l as [|x l IH]; intros e prev Hc Hp; cbn [foldl].
  - by rewrite app_nil_r.
  - apply canon_after_cons in Hc as (Hx & Px & Hc).
    assert (E : content_items (append_item e x) = content_items e ++ [x]).
    { apply content_items_append; [by apply ok_item_no_tail|]. intros s ->.
      split; [by destruct Hx|]. intros t Ht. subst prev. rewrite Ht in Px.
      apply (proj1 Px). eauto. }
    rewrite (IH _ (Some x)); [|done|by rewrite E, last_snoc].
    rewrite E. by rewrite <- app_assoc.
Qed.

Lemma new_span_content tg t st : content_items (new_span tg t st) = encode t.
Proof.
  unfold new_span. set (e := match st with [] => _ | _ => _ end).
  assert (He : content_items e = []) by (subst e; by destruct st).
  destruct t as [|c t]; [done|]. unfold append_text.
  rewrite (content_items_appends _ _ None); [by rewrite He|apply encode_canonical|by rewrite He].
Qed.

Lemma encode_rendered t : rendered (encode t) = t <-> renderable t.
Proof.
  pose proof (rendered_canonical _ (encode_canonical t)) as H.
  by rewrite encode_concat in H.
Qed.
End ws.
