From Verif Require Export PyBaseFacts WhitespaceSpec.

Lemma no_double_snoc s c :
  no_double s -> (c = 32%N -> last s <> Some 32%N) -> no_double (s ++ [c]).
Proof.
  intros Hs Hc i [H1 H2].
  destruct (decide (S i < length s)) as [Hlt|Hge].
  - rewrite lookup_app_l in H1 by lia. rewrite lookup_app_l in H2 by lia. by apply (Hs i).
  - destruct (decide (S i = length s)) as [He|Hne].
    + rewrite lookup_app_r in H2 by lia. replace (S i - length s) with 0 in H2 by lia.
      injection H2 as ->. rewrite lookup_app_l in H1 by lia.
      apply Hc; [done|]. rewrite last_lookup. by rewrite <- He.
    + apply lookup_lt_Some in H2. rewrite app_length in H2. cbn in H2. lia.
Qed.

Lemma no_double_nil : no_double [].
Proof. intros i [H _]. done. Qed.

Lemma canonical_nil : canonical [].
Proof. split; [constructor|]. split; [intros i x y H; done|]. done. Qed.

Lemma canonical_snoc l x :
  canonical l -> ok_item x -> (forall y, last l = Some y -> ok_adj y x) ->
  (l = [] -> ~ is_spaces x) -> canonical (l ++ [x]).
Proof.
  intros (Hf & Ha & Hh) Hx Hadj Hemp. split; [|split].
  - apply Forall_app; split; [done|]. by constructor.
  - intros i a b H1 H2.
    destruct (decide (S i < length l)) as [Hlt|Hge].
    + rewrite lookup_app_l in H1 by lia. rewrite lookup_app_l in H2 by lia. by eapply Ha.
    + destruct (decide (S i = length l)) as [He|Hne].
      * rewrite lookup_app_r in H2 by lia. replace (S i - length l) with 0 in H2 by lia.
        injection H2 as <-. rewrite lookup_app_l in H1 by lia.
        apply Hadj. rewrite last_lookup. by rewrite <- He.
      * apply lookup_lt_Some in H2. rewrite app_length in H2. cbn in H2. lia.
  - intros y. destruct l as [|z l]; cbn.
    + intros [= <-]. by apply Hemp.
    + intros [= <-]. by apply Hh.
Qed.

Section ws.
Context `{U : Unicode}.

Lemma plaintext_Spaces n : (1 <= n)%Z -> plaintext (Spaces n) = Ok (blanks n).
Proof.
  intros H. unfold Spaces. case_decide as Hd.
  - cbn. unfold spaces_count, e_get. cbn. rewrite lookup_insert. rewrite py_int_show_Z. done.
  - assert (n = 1)%Z as -> by lia. reflexivity.
Qed.
Lemma plaintext_Tab : plaintext Tabulator = Ok [9%N].
Proof. reflexivity. Qed.
Lemma plaintext_Brk : plaintext LineBreak = Ok [10%N].
Proof. reflexivity. Qed.

Lemma elem_means_Spaces n : (1 <= n)%Z -> elem_means (Spaces n) = blanks n.
Proof.
  intros H. unfold Spaces. case_decide as Hd.
  - unfold elem_means, e_get. cbn. rewrite lookup_insert. by rewrite py_int_show_Z.
  - assert (n = 1)%Z as -> by lia. reflexivity.
Qed.

Lemma decode_snoc l i s t :
  decode l = Ok s -> item_str i = Ok t -> decode (l ++ [i]) = Ok (s ++ t).
Proof.
  unfold decode. rewrite rmap_app. destruct (rmap item_str l) as [x|]; cbn; [|done].
  intros [= <-]. intros ->. cbn. f_equal. rewrite concat_app. cbn. by rewrite app_nil_r.
Qed.


(** r: result so far; st0: pending text without its final blanks; k: final blanks. *)
Inductive Inv : pystr -> enc -> Prop :=
  mkInv q r st0 k :
    decode r = Ok q -> canonical r ->
    (forall x, last r = Some x -> exists e, x = inr e) ->
    (forall x, last r = Some x -> is_spaces x -> st0 <> [] /\ head st0 <> Some 32%N) ->
    last st0 <> Some 32%N -> 9%N ∉ st0 -> 10%N ∉ st0 -> no_double st0 ->
    Inv (q ++ st0 ++ replicate k 32%N) (Enc r (st0 ++ replicate k 32%N) k).

Lemma not_spaces_inl s : ~ is_spaces (inl s).
Proof. by intros (n & _ & H). Qed.
Lemma not_spaces_tab : ~ is_spaces (inr Tabulator).
Proof.
  intros (n & _ & H). injection H as H. apply (f_equal e_tag) in H. revert H.
  unfold Spaces. by case_decide.
Qed.
Lemma not_spaces_brk : ~ is_spaces (inr LineBreak).
Proof.
  intros (n & _ & H). injection H as H. apply (f_equal e_tag) in H. revert H.
  unfold Spaces. by case_decide.
Qed.

Lemma ok_adj_elem x e : ~ is_spaces (inr e) -> ok_adj x (inr e).
Proof.
  intros He. split; [|split].
  - intros [_ [t H]]. done.
  - done.
  - done.
Qed.

Lemma ok_adj_text e t :
  (is_spaces (inr e) -> head t <> Some 32%N) -> ok_adj (inr e) (inl t).
Proof.
  intros H. split; [|split].
  - intros [[s Hs] _]. done.
  - intros Hx. by apply not_spaces_inl in Hx.
  - intros t' Hs [= <-]. by apply H.
Qed.

Lemma ok_adj_spaces s y : last s = Some 32%N -> is_spaces y -> ok_adj (inl s) y.
Proof.
  intros Hl (n & Hn & ->). split; [|split].
  - intros [_ [t H]]. done.
  - intros _. eauto.
  - intros t Hs. by apply not_spaces_inl in Hs.
Qed.

Lemma canonical_text r t :
  canonical r -> (forall x, last r = Some x -> exists e, x = inr e) ->
  (forall x, last r = Some x -> is_spaces x -> head t <> Some 32%N) ->
  ok_text t -> canonical (r ++ [inl t]).
Proof.
  intros Hc Hl Hs Ht. apply canonical_snoc; [done|done| |].
  - intros y Hy. destruct (Hl y Hy) as [e ->]. apply ok_adj_text. intros Hsp. by eapply Hs.
  - intros _. apply not_spaces_inl.
Qed.

Lemma drop_last_blanks st0 k :
  1 < k -> drop_last (k - 1) (st0 ++ replicate k 32%N) = st0 ++ [32%N].
Proof.
  intros Hk. unfold drop_last. rewrite app_length, replicate_length.
  rewrite take_app_ge by lia. f_equal.
  replace (length st0 + k - (k - 1) - length st0) with 1 by lia.
  destruct k as [|k]; [lia|]. cbn. by destruct k.
Qed.

Lemma append_space_spec p s :
  Inv p s -> 1 < space_counter s ->
  let s' := append_space s in
  stack s' = [] /\ space_counter s' = 0 /\ decode (result s') = Ok p /\
  canonical (result s') /\
  (exists x, last (result s') = Some x /\ is_spaces x).
Proof.
  intros HI Hk. inversion HI as [q r st0 k Hd Hc Hl Hs He Ht Hb Hn]; subst. cbn in Hk.
  unfold append_space. cbn [space_counter result stack]. rewrite drop_last_blanks by done.
  unfold append_stack. cbn [stack result space_counter].
  destruct (st0 ++ [32%N]) as [|c t] eqn:Est; [by destruct st0|].
  rewrite <- Est in *. cbn [stack result space_counter].
  assert (Hok : ok_text (st0 ++ [32%N])).
  { split; [by destruct st0|]. split; [|split].
    - rewrite not_elem_of_app. split; [done|]. by rewrite elem_of_list_singleton.
    - rewrite not_elem_of_app. split; [done|]. by rewrite elem_of_list_singleton.
    - by apply no_double_snoc. }
  assert (Hsp : is_spaces (inr (Spaces (Z.of_nat (k - 1))))).
  { eexists. split; [|reflexivity]. lia. }
  split_and!; [done|done| | |].
  - replace (q ++ st0 ++ replicate k 32%N)
      with ((q ++ (st0 ++ [32%N])) ++ blanks (Z.of_nat (k - 1))).
    + apply decode_snoc; [by apply decode_snoc|]. cbn [item_str]. apply plaintext_Spaces. lia.
    + unfold blanks. rewrite Nat2Z.id. rewrite <- !app_assoc. do 2 f_equal.
      destruct k as [|k]; [lia|]. cbn. by rewrite Nat.sub_0_r.
  - apply canonical_snoc; [apply canonical_text| | |]; try done.
    + intros x Hx Hx2. destruct (Hs x Hx Hx2) as [Hne Hh]. by destruct st0.
    + right; right. done.
    + intros y. rewrite last_snoc. intros [= <-]. apply ok_adj_spaces; [|done]. by rewrite last_snoc.
    + by destruct r.
  - eexists. split; [apply last_snoc|done].
Qed.

Lemma append_stack_spec p s :
  Inv p s -> space_counter s <= 1 ->
  let s' := append_stack s in
  stack s' = [] /\ decode (result s') = Ok p /\ canonical (result s').
Proof.
  intros HI Hk. inversion HI as [q r st0 k Hd Hc Hl Hs He Ht Hb Hn]; subst. cbn in Hk.
  unfold append_stack. cbn [stack result space_counter].
  destruct (st0 ++ replicate k 32%N) as [|c t] eqn:Est.
  { cbn. rewrite app_nil_r. done. }
  rewrite <- Est in *. cbn [stack result space_counter].
  split; [done|]. split; [by apply decode_snoc|].
  apply canonical_text; [done..| |].
  - intros x Hx Hx2. destruct (Hs x Hx Hx2) as [Hne Hh]. by destruct st0.
  - destruct k as [|[|k]]; [| |lia].
    + cbn in *. rewrite app_nil_r in *. split; [by rewrite Est|]. done.
    + cbn in *. split; [by rewrite Est|]. rewrite !not_elem_of_app, !elem_of_list_singleton.
      split_and!; try done. by apply no_double_snoc.
Qed.

Lemma flush_spec p s :
  Inv p s ->
  let s' := flush s in
  stack s' = [] /\ decode (result s') = Ok p /\ canonical (result s').
Proof.
  intros HI. unfold flush. case_decide as Hk.
  - destruct (append_space_spec p s HI Hk) as (? & ? & ? & ? & ?). done.
  - apply append_stack_spec; [done|lia].
Qed.

Lemma Inv_elem p s e t :
  Inv p s -> ~ is_spaces (inr e) -> ok_item (inr e) -> plaintext e = Ok t ->
  Inv (p ++ t) (Enc (result (flush s) ++ [inr e]) (stack (flush s)) 0).
Proof.
  intros HI Hns Hok Hp. destruct (flush_spec p s HI) as (H1 & H2 & H3). rewrite H1.
  replace (p ++ t) with ((p ++ t) ++ [] ++ replicate 0 32%N) by (by rewrite !app_nil_r).
  apply (mkInv (p ++ t) _ [] 0).
  - by apply decode_snoc.
  - apply canonical_snoc; [done|done| |done]. intros y _. by apply ok_adj_elem.
  - intros x. rewrite last_snoc. intros [= <-]. eauto.
  - intros x. rewrite last_snoc. intros [= <-]. done.
  - done.
  - apply not_elem_of_nil.
  - apply not_elem_of_nil.
  - apply no_double_nil.
Qed.

Lemma head_app_ne {A} (l l' : list A) : l <> [] -> head (l ++ l') = head l.
Proof. by destruct l. Qed.

Lemma Inv_step p s c : Inv p s -> Inv (p ++ [c]) (enc_step s c).
Proof.
  intros HI. unfold enc_step.
  case_decide as H10. { subst c. apply Inv_elem; [done|apply not_spaces_brk| |done]. right; by left. }
  case_decide as H9. { subst c. apply Inv_elem; [done|apply not_spaces_tab| |done]. by left. }
  case_decide as H32.
  - subst c. inversion HI as [q r st0 k Hd Hc Hl Hs He Ht Hb Hn]; subst.
    unfold add_spc, add_char. cbn [stack result space_counter].
    rewrite decide_False by (intros H; by apply H). cbn [stack result space_counter].
    rewrite <- !app_assoc. change ([32%N]) with (replicate 1 32%N).
    rewrite <- replicate_add. replace (k + 1) with (S k) by lia. by constructor.
  - unfold add_char. rewrite decide_True by done. case_decide as Hk.
    + destruct (append_space_spec p s HI Hk) as (H1 & H2 & H3 & H4 & x & H5 & H6).
      cbn [stack result space_counter]. rewrite H1, H2. cbn [app].
      replace (p ++ [c]) with (p ++ [c] ++ replicate 0 32%N) by done.
      replace ([c]) with ([c] ++ replicate 0 32%N) at 2 by done.
      apply mkInv; try done.
      * intros y. rewrite H5. intros [= <-]. destruct H6 as (n & ? & ->). eauto.
      * intros y Hy Hys. split; [done|]. cbn. congruence.
      * cbn. congruence.
      * rewrite elem_of_list_singleton. congruence.
      * rewrite elem_of_list_singleton. congruence.
      * apply (no_double_snoc []); [apply no_double_nil|done].
    + inversion HI as [q r st0 k Hd Hc Hl Hs He Ht Hb Hn]; subst. cbn in Hk |- *.
      rewrite <- !app_assoc.
      replace (q ++ st0 ++ replicate k 32%N ++ [c])
        with (q ++ (st0 ++ replicate k 32%N ++ [c]) ++ replicate 0 32%N) by (cbn; by rewrite app_nil_r).
      replace (st0 ++ replicate k 32%N ++ [c])
        with ((st0 ++ replicate k 32%N ++ [c]) ++ replicate 0 32%N) at 2 by (cbn; by rewrite app_nil_r).
      apply mkInv; try done.
      * intros x Hx Hx2. destruct (Hs x Hx Hx2) as [Hne Hh]. by destruct st0.
      * rewrite app_assoc, last_snoc. congruence.
      * rewrite !not_elem_of_app, elem_of_list_singleton. split_and!; [done| |congruence].
        intros Hin. by apply elem_of_replicate in Hin as [? _].
      * rewrite !not_elem_of_app, elem_of_list_singleton. split_and!; [done| |congruence].
        intros Hin. by apply elem_of_replicate in Hin as [? _].
      * rewrite app_assoc. apply no_double_snoc; [|congruence].
        destruct k as [|[|k]]; [| |lia]; cbn.
        -- by rewrite app_nil_r.
        -- by apply no_double_snoc.
Qed.

Lemma Inv_foldl p s t : Inv p s -> Inv (p ++ t) (foldl enc_step s t).
Proof.
  revert p s. induction t as [|c t IH]; intros p s HI; cbn.
  - by rewrite app_nil_r.
  - replace (p ++ c :: t) with ((p ++ [c]) ++ t) by (by rewrite <- app_assoc).
    apply IH. by apply Inv_step.
Qed.

Lemma Inv_init : Inv [] (Enc [] [] 0).
Proof.
  apply (mkInv [] [] [] 0); try done;
    auto using canonical_nil, not_elem_of_nil, no_double_nil.
Qed.

(** ** Uniqueness of the canonical form *)
Definition istr (i : item) : pystr := match item_str i with Ok s => s | Err _ => [] end.

Lemma ok_item_str i : ok_item i -> item_str i = Ok (istr i).
Proof.
  unfold istr. destruct i as [s|e]; [done|]. cbn [item_str ok_item].
  intros [[= ->]|[[= ->]|(n & Hn & [= ->])]]; [done|done|]. by rewrite plaintext_Spaces.
Qed.

Lemma decode_canonical l : Forall ok_item l -> decode l = Ok (concat (map istr l)).
Proof.
  intros H. unfold decode.
  rewrite (rmap_ext_Forall _ (fun x => Ok (istr x))).
  - by rewrite rmap_Ok.
  - eapply Forall_impl; [done|]. apply ok_item_str.
Qed.

(** suffix of a canonical list after item [prev] *)
Definition canon_after (prev : option item) (l : list item) : Prop :=
  Forall ok_item l /\
  (forall i x y, l !! i = Some x -> l !! S i = Some y -> ok_adj x y) /\
  (forall x, head l = Some x -> match prev with None => ~ is_spaces x | Some p => ok_adj p x end).

Lemma canon_after_cons prev x l :
  canon_after prev (x :: l) ->
  ok_item x /\ match prev with None => ~ is_spaces x | Some p => ok_adj p x end /\
  canon_after (Some x) l.
Proof.
  intros (Hf & Ha & Hh). apply Forall_cons in Hf as [Hx Hf]. split_and!; [done|by apply Hh|].
  split_and!; [done| |].
  - intros i a b H1 H2. by apply (Ha (S i)).
  - intros y Hy. apply (Ha 0); [done|]. by destruct l.
Qed.

Inductive istr_view : item -> Prop :=
  | V_text s : ok_text s -> istr_view (inl s)
  | V_tab : istr_view (inr Tabulator)
  | V_brk : istr_view (inr LineBreak)
  | V_sp n : (1 <= n)%Z -> istr_view (inr (Spaces n)).
Lemma ok_item_view x : ok_item x -> istr_view x.
Proof.
  destruct x as [s|e]; cbn [ok_item]; [by constructor|].
  intros [[= ->]|[[= ->]|(n & Hn & [= ->])]]; by constructor.
Qed.

Lemma istr_spaces n : (1 <= n)%Z -> istr (inr (Spaces n)) = blanks n.
Proof. intros H. unfold istr. cbn [item_str]. by rewrite plaintext_Spaces. Qed.

Lemma istr_ne x : ok_item x -> istr x <> [].
Proof.
  intros H%ok_item_view. destruct H as [s [H _]| | |n Hn]; [done|done|done|].
  rewrite istr_spaces by done. unfold blanks. destruct (Z.to_nat n) eqn:E; [lia|done].
Qed.

Lemma blanks_split n m r1 r2 :
  head r1 <> Some 32%N -> head r2 <> Some 32%N ->
  replicate n 32%N ++ r1 = replicate m 32%N ++ r2 -> n = m /\ r1 = r2.
Proof.
  intros H1 H2. revert m. induction n as [|n IH]; intros [|m]; cbn.
  - done.
  - intros ->. done.
  - intros <-. done.
  - intros [= H]. apply IH in H as [-> ->]. done.
Qed.

Lemma head_after_spaces n l :
  (1 <= n)%Z -> canon_after (Some (inr (Spaces n))) l -> head (concat (map istr l)) <> Some 32%N.
Proof.
  intros Hn Hc. destruct l as [|x l]; [done|].
  apply canon_after_cons in Hc as (Hx & (_ & Hadj2 & Hadj3) & _). cbn [map concat].
  rewrite head_app_ne by (by apply istr_ne).
  pose proof (ok_item_view _ Hx) as Hv. destruct Hv as [s Hs| | |m Hm].
  - cbn. eapply Hadj3; [|done]. eexists; eauto.
  - done.
  - done.
  - exfalso. destruct Hadj2 as (s & ? & _); [eexists; eauto|]. done.
Qed.

(** after a text item: the next item starts with tab, newline, or is a space element
    behind a final blank *)
Lemma head_after_text s l :
  canon_after (Some (inl s)) l ->
  concat (map istr l) = [] \/
  exists c r, concat (map istr l) = c :: r /\ (c = 9 \/ c = 10 \/ (c = 32 /\ last s = Some 32))%N.
Proof.
  intros Hc. destruct l as [|x l]; [by left|right].
  apply canon_after_cons in Hc as (Hx & (Hadj1 & Hadj2 & Hadj3) & _). cbn [map concat].
  pose proof (ok_item_view _ Hx) as Hv. destruct Hv as [t Hs| | |m Hm].
  - exfalso. apply Hadj1. eauto.
  - eexists _, _. split; [reflexivity|]. by left.
  - eexists _, _. split; [reflexivity|]. by right; left.
  - destruct Hadj2 as (t & [= <-] & Ht); [eexists; eauto|].
    rewrite istr_spaces by done. unfold blanks. destruct (Z.to_nat m) eqn:E; [lia|].
    eexists _, _. split; [reflexivity|]. by right; right.
Qed.

(** a text item cannot be a proper prefix of another one standing at the same place *)
Lemma text_prefix s l t u :
  canon_after (Some (inl s)) l -> ok_text t -> t = s ++ u ->
  u <> [] -> (exists v, concat (map istr l) = u ++ v) -> False.
Proof.
  intros Hc (_ & H9 & H10 & Hnd) -> Hu [v Hv].
  destruct (head_after_text s l Hc) as [E|(c & r & E & Hcc)].
  - rewrite E in Hv. by destruct u.
  - rewrite E in Hv. destruct u as [|c' u]; [done|]. injection Hv as <- _.
    destruct Hcc as [->|[->|[-> Hl]]].
    + apply H9. apply elem_of_app. right. by left.
    + apply H10. apply elem_of_app. right. by left.
    + rewrite last_lookup in Hl. destruct s as [|a s]; [done|].
      apply (Hnd (length s)). split.
      * rewrite lookup_app_l by (cbn; lia). exact Hl.
      * rewrite lookup_app_r by (cbn; lia). cbn. by rewrite Nat.sub_diag.
Qed.

Lemma app_prefix {A} (a b c d : list A) :
  a ++ b = c ++ d -> (exists u, c = a ++ u /\ b = u ++ d) \/ (exists u, a = c ++ u /\ d = u ++ b).
Proof.
  revert c. induction a as [|x a IH]; intros c; cbn.
  - intros ->. left. eauto.
  - destruct c as [|y c]; cbn.
    + intros <-. right. exists (x :: a). done.
    + intros [= <- H]. destruct (IH c H) as [(u & -> & ->)|(u & -> & ->)]; eauto.
Qed.

Lemma canonical_unique prev l1 l2 :
  canon_after prev l1 -> canon_after prev l2 ->
  concat (map istr l1) = concat (map istr l2) -> l1 = l2.
Proof.
  revert prev l2. induction l1 as [|x l1 IH]; intros prev l2 H1 H2 E.
  { destruct l2 as [|y l2]; [done|]. apply canon_after_cons in H2 as (Hy & _).
    cbn in E. symmetry in E. apply app_nil in E as [E _]. by apply istr_ne in E. }
  destruct l2 as [|y l2].
  { apply canon_after_cons in H1 as (Hx & _).
    cbn in E. apply app_nil in E as [E _]. by apply istr_ne in E. }
  apply canon_after_cons in H1 as (Hx & Px & H1).
  apply canon_after_cons in H2 as (Hy & Py & H2).
  cbn [map concat] in E.
  assert (Hspc : forall n p, (1 <= n)%Z -> prev = Some p -> ok_adj p (inr (Spaces n)) ->
                 exists s, p = inl s).
  { intros n p Hn _ (_ & Hq & _). destruct Hq as (s & -> & _); [eexists; eauto|]. eauto. }
  pose proof (ok_item_view _ Hx) as Vx. pose proof (ok_item_view _ Hy) as Vy.
  destruct Vx as [s Hs| | |n Hn]; destruct Vy as [t Ht| | |m Hm].
  - cbn in E. destruct (app_prefix _ _ _ _ E) as [(u & Eu & Eb)|(u & Eu & Eb)].
    + destruct u as [|c u].
      * rewrite app_nil_r in Eu. subst t. cbn in Eb. f_equal. eapply IH; eauto.
      * exfalso. eapply (text_prefix s l1 t (c :: u)); eauto.
    + destruct u as [|c u].
      * rewrite app_nil_r in Eu. subst s. cbn in Eb. f_equal. eapply IH; eauto.
      * exfalso. eapply (text_prefix t l2 s (c :: u)); eauto.
  - exfalso. destruct Hs as (Hne & H9 & _). destruct s as [|c s]; [done|]. cbn in E.
    injection E as -> _. apply H9. by left.
  - exfalso. destruct Hs as (Hne & _ & H10 & _). destruct s as [|c s]; [done|]. cbn in E.
    injection E as -> _. apply H10. by left.
  - exfalso. destruct prev as [p|]; [|apply Py; eexists; eauto].
    destruct (Hspc m p Hm eq_refl Py) as [s' ->]. apply (proj1 Px). eauto.
  - exfalso. destruct Ht as (Hne & H9 & _). destruct t as [|c t]; [done|]. cbn in E.
    injection E as <- _. apply H9. by left.
  - f_equal. cbn in E. injection E as E. eapply IH; eauto.
  - done.
  - exfalso. rewrite istr_spaces in E by done. unfold blanks in E.
    destruct (Z.to_nat m) eqn:Em; [lia|]. done.
  - exfalso. destruct Ht as (Hne & _ & H10 & _). destruct t as [|c t]; [done|]. cbn in E.
    injection E as <- _. apply H10. by left.
  - done.
  - f_equal. cbn in E. injection E as E. eapply IH; eauto.
  - exfalso. rewrite istr_spaces in E by done. unfold blanks in E.
    destruct (Z.to_nat m) eqn:Em; [lia|]. done.
  - exfalso. destruct prev as [p|]; [|apply Px; eexists; eauto].
    destruct (Hspc n p Hn eq_refl Px) as [s' ->]. apply (proj1 Py). eauto.
  - exfalso. rewrite istr_spaces in E by done. unfold blanks in E.
    destruct (Z.to_nat n) eqn:Em; [lia|]. done.
  - exfalso. rewrite istr_spaces in E by done. unfold blanks in E.
    destruct (Z.to_nat n) eqn:Em; [lia|]. done.
  - rewrite !istr_spaces in E by done. unfold blanks in E.
    pose proof (head_after_spaces _ _ Hn H1) as h1.
    pose proof (head_after_spaces _ _ Hm H2) as h2.
    destruct (blanks_split _ _ _ _ h1 h2 E) as [En Er].
    assert (n = m) as -> by lia. f_equal. eapply IH; eauto.
Qed.

Lemma canonical_inj l1 l2 s :
  canonical l1 -> canonical l2 -> decode l1 = Ok s -> decode l2 = Ok s -> l1 = l2.
Proof.
  intros (F1 & A1 & Hd1) (F2 & A2 & Hd2) D1 D2.
  rewrite decode_canonical in D1, D2 by done.
  apply (canonical_unique None); [done..|]. congruence.
Qed.

Lemma encode_spec t : decode (encode t) = Ok t /\ canonical (encode t).
Proof.
  unfold encode. pose proof (Inv_foldl [] _ t Inv_init) as HI. cbn in HI.
  destruct (flush_spec _ _ HI) as (_ & H2 & H3). done.
Qed.
End ws.
