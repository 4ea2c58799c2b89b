(** C39-C42: order of child elements. *)
From Verif Require Import NodeOrganizerProofs.

(** ** C39 reordering *)
Theorem C39_reorder : forall {A : Type} `{EqDecision A} (tag_of : A -> string) (prelude epilogue : list string) (l : list A),
  NoDup prelude -> NoDup epilogue -> NoDup l ->
  exists l', reorder tag_of prelude epilogue l = (l', Ok tt) /\ reordered tag_of prelude epilogue l l' /\
    (forall l'', reordered tag_of prelude epilogue l l'' -> l'' = l') /\
    reorder tag_of prelude epilogue l' = (l', Ok tt).
Proof.
  intros A ? tag_of P E l HP HE Hl. exists (arranged tag_of P E l). rewrite reorder_eq by done. split; [done|]. split; [by apply arranged_reordered|]. split.
  - intros l'' HR. by eapply reordered_unique.
  - rewrite reorder_eq by (done || by rewrite arranged_perm). by rewrite arranged_idem.
Qed.
Print Assumptions C39_reorder.

(** A tag listed twice: ValueError, with the children already taken out. *)
Theorem C39_duplicate_tag_counterexample : exists (tags : list string) (l : list (nat * string)),
  (reorder snd tags [] l).2 = Err ValueError /\ ~ ((reorder snd tags [] l).1 ≡ₚ l) /\ NoDup l.
Proof.
  exists ["a"; "a"]%string, [(1, "b"); (2, "a")]%string. split; [by_vm|]. split; [|dec_vm].
  intros H. apply Permutation_length in H. by vm_compute in H.
Qed.
Print Assumptions C39_duplicate_tag_counterexample.

Example C39_case : let l := [(1, "p"); (2, "e"); (3, "b"); (4, "a"); (5, "q"); (6, "b")]%string in
  NoDup ["a"; "b"]%string /\ NoDup ["e"]%string /\ NoDup l /\
  reorder snd ["a"; "b"]%string ["e"]%string l = ([(4, "a"); (3, "b"); (6, "b"); (1, "p"); (5, "q"); (2, "e")]%string, Ok tt).
Proof. split; [dec_vm|]. split; [dec_vm|]. split; [dec_vm|]. by_vm. Qed.

(** ** C40 tag blocks *)
Theorem C40_constructor : forall tags : list string,
  (tags <> [] -> NoDup tags -> prelude_block tags = Ok tags /\ epilogue_block tags = Ok (reverse tags)) /\
  (~ (tags <> [] /\ NoDup tags) -> prelude_block tags = Err ValueError /\ epilogue_block tags = Err ValueError).
Proof.
  intros tags. split.
  - intros H1 H2. split; [by apply prelude_block_ok|by apply epilogue_block_ok].
  - intros H. split; [by apply prelude_block_err|by apply epilogue_block_err].
Qed.
Print Assumptions C40_constructor.

Theorem C40_length : forall tags l : list string, NoDup tags ->
  longest_prefix tags l (prelude_count tags l) /\ longest_suffix tags l (epilogue_count (reverse tags) l).
Proof. intros tags l Hd. split; [by apply count_longest|by apply epilogue_longest]. Qed.
Print Assumptions C40_length.

Theorem C40_tag_info : forall (tags l : list string) t, NoDup tags -> t ∈ tags ->
  (exists pos count, tag_info tags l t = Ok (pos, count) /\ run_of t l 0 (prelude_count tags l) pos count) /\
  (exists pos count, epilogue_tag_info (reverse tags) l t = Ok (pos, count) /\
     run_of t l (length l - epilogue_count (reverse tags) l) (length l) pos count).
Proof. intros tags l t Hd Ht. split; [by apply tag_info_run|by apply epilogue_tag_info_run]. Qed.
Print Assumptions C40_tag_info.

Theorem C40_unknown_tag : forall (tags l : list string) t, t ∉ tags -> tags <> [] ->
  tag_info tags l t = Err ValueError /\ prelude_insert_before tags l t = Err ValueError /\
  prelude_insert_after tags l (Some t) = Err ValueError /\
  epilogue_tag_info (reverse tags) l t = Err ValueError /\ epilogue_insert_after (reverse tags) l t = Err ValueError /\
  epilogue_insert_before (reverse tags) l (Some t) = Err ValueError.
Proof.
  intros tags l t Ht Hne. assert (Ht' : t ∉ reverse tags) by (by rewrite elem_of_reverse).
  assert (Hl : forall ts : list string, ts <> [] -> exists x, last ts = Some x).
  { intros ts H. destruct (last ts) eqn:E; [eauto|]. by apply last_None in E. }
  destruct (Hl tags Hne) as [x Hx]. destruct (Hl (reverse tags)) as [y Hy]; [intros E; apply Hne; rewrite <- (reverse_involutive tags), E; done|].
  unfold tag_info, prelude_insert_before, prelude_insert_after, epilogue_tag_info, epilogue_insert_after, epilogue_insert_before, tag_info, check_tag.
  rewrite Hx, Hy. cbn [default from_option id]. rewrite !(decide_False (P := t ∈ tags)), !(decide_False (P := t ∈ reverse tags)) by done. done.
Qed.
Print Assumptions C40_unknown_tag.

(** Inserting [t] at the position for [t] makes the block one longer, in front of (behind) all
    other [t]s, if the block is empty or [t] or a tag behind (before) it is in the block; the
    position in front of (behind) everything is returned otherwise, where [t] breaks the order. *)
Theorem C40_prelude_insert_before : forall a t b (l : list string), NoDup (a ++ t :: b) ->
  let tags := a ++ t :: b in let n := prelude_count tags l in
  ((n = 0 \/ exists s, s ∈ t :: b /\ s ∈ take n l) ->
    exists k, prelude_insert_before tags l t = Ok (Z.of_nat k) /\ k <= n /\
      longest_prefix tags (insert_at k t l) (S n) /\ t ∉ take k l) /\
  (n <> 0 -> (forall s, s ∈ t :: b -> s ∉ take n l) ->
    prelude_insert_before tags l t = Ok 0%Z /\ ~ in_order tags (t :: take n l)).
Proof. intros a t b l Hd. split; [by apply insert_before_fits|by apply insert_before_misfit]. Qed.
Print Assumptions C40_prelude_insert_before.

Theorem C40_prelude_insert_after : forall a t s b (l : list string), NoDup (a ++ t :: s :: b) ->
  let tags := a ++ t :: s :: b in let n := prelude_count tags l in
  ((n = 0 \/ exists x, x ∈ s :: b /\ x ∈ take n l) ->
    exists k, prelude_insert_after tags l (Some t) = Ok (Z.of_nat k) /\ k <= n /\
      longest_prefix tags (insert_at k t l) (S n) /\ t ∉ drop k (take n l)) /\
  (n <> 0 -> (forall x, x ∈ s :: b -> x ∉ take n l) -> prelude_insert_after tags l (Some t) = Ok 0%Z).
Proof. intros a t s b l Hd. split; [by apply insert_after_fits|by apply insert_after_misfit]. Qed.
Print Assumptions C40_prelude_insert_after.

Theorem C40_prelude_insert_after_last : forall a t (l : list string), NoDup (a ++ [t]) ->
  let tags := a ++ [t] in let n := prelude_count tags l in
  prelude_insert_after tags l None = Ok (Z.of_nat n) /\ prelude_insert_after tags l (Some t) = Ok (Z.of_nat n) /\
  longest_prefix tags (insert_at n t l) (S n).
Proof. exact insert_after_last_fits. Qed.
Print Assumptions C40_prelude_insert_after_last.

Theorem C40_epilogue_insert_after : forall a t b (l : list string), NoDup (a ++ t :: b) ->
  let tags := a ++ t :: b in let n := epilogue_count (reverse tags) l in
  ((n = 0 \/ exists s, s ∈ a ++ [t] /\ s ∈ drop (length l - n) l) ->
    exists k, epilogue_insert_after (reverse tags) l t = Ok (Z.of_nat k) /\ length l - n <= k <= length l /\
      longest_suffix tags (insert_at k t l) (S n) /\ t ∉ drop k l) /\
  (n <> 0 -> (forall s, s ∈ a ++ [t] -> s ∉ drop (length l - n) l) ->
    epilogue_insert_after (reverse tags) l t = Ok (Z.of_nat (length l)) /\ ~ in_order tags (drop (length l - n) l ++ [t])).
Proof. intros a t b l Hd. split; [by apply epilogue_after_fits|by apply epilogue_after_misfit]. Qed.
Print Assumptions C40_epilogue_insert_after.

Theorem C40_epilogue_insert_before : forall a s t b (l : list string), NoDup (a ++ s :: t :: b) ->
  let tags := a ++ s :: t :: b in let n := epilogue_count (reverse tags) l in
  ((n = 0 \/ exists x, x ∈ a ++ [s] /\ x ∈ drop (length l - n) l) ->
    exists k, epilogue_insert_before (reverse tags) l (Some t) = Ok (Z.of_nat k) /\ length l - n <= k <= length l /\
      longest_suffix tags (insert_at k t l) (S n) /\ t ∉ drop (length l - n) (take k l)) /\
  (n <> 0 -> (forall x, x ∈ a ++ [s] -> x ∉ drop (length l - n) l) ->
    epilogue_insert_before (reverse tags) l (Some t) = Ok (Z.of_nat (length l))).
Proof. intros a s t b l Hd. split; [by apply epilogue_before_fits|by apply epilogue_before_misfit]. Qed.
Print Assumptions C40_epilogue_insert_before.

Theorem C40_epilogue_insert_before_first : forall t b (l : list string), NoDup (t :: b) ->
  let tags := t :: b in let n := epilogue_count (reverse tags) l in
  epilogue_insert_before (reverse tags) l None = Ok (Z.of_nat (length l - n)) /\
  epilogue_insert_before (reverse tags) l (Some t) = Ok (Z.of_nat (length l - n)) /\
  longest_suffix tags (insert_at (length l - n) t l) (S n).
Proof. exact epilogue_before_first_fits. Qed.
Print Assumptions C40_epilogue_insert_before_first.

(** Children [a, x], tags [a, b]: the position "before b" and "after a" is 0; dually for epilogues. *)
Theorem C40_insert_position_counterexample : exists (tags l : list string) a b,
  NoDup tags /\ tags = [a; b] /\ prelude_insert_before tags l b = Ok 0%Z /\ prelude_insert_after tags l (Some a) = Ok 0%Z /\
  prelude_count tags l = 1 /\ prelude_count tags (insert_at 0 b l) = 1 /\ insert_at 0 b l <> l /\
  exists l', epilogue_insert_after (reverse tags) l' a = Ok (Z.of_nat (length l')) /\
    epilogue_count (reverse tags) l' = 1 /\ epilogue_count (reverse tags) (l' ++ [a]) = 1.
Proof.
  exists ["a"; "b"]%string, ["a"; "x"]%string, "a"%string, "b"%string.
  split; [dec_vm|]. split; [done|]. split; [by_vm|]. split; [by_vm|]. split; [by_vm|]. split; [by_vm|]. split; [dec_vm|].
  exists ["x"; "b"]%string. split; [by_vm|]. split; by_vm.
Qed.
Print Assumptions C40_insert_position_counterexample.

Example C40_case : let tags := ["a"; "b"; "c"]%string in let l := ["a"; "a"; "c"; "x"; "c"; "b"; "c"; "c"]%string in
  NoDup tags /\ prelude_count tags l = 3 /\ epilogue_count (reverse tags) l = 3 /\
  tag_info tags l "a" = Ok (0, 2)%Z /\ tag_info tags l "b" = Ok (-1, 0)%Z /\ epilogue_tag_info (reverse tags) l "c" = Ok (6, 2)%Z /\
  prelude_insert_before tags l "b" = Ok 2%Z /\ prelude_insert_after tags l (Some "a"%string) = Ok 2%Z /\
  epilogue_insert_after (reverse tags) l "b" = Ok 6%Z /\ epilogue_insert_before (reverse tags) l (Some "c"%string) = Ok 6%Z.
Proof. cbn zeta. split; [dec_vm|]. repeat (split; [by_vm|]). by_vm. Qed.

(** ** C41 the structure checker *)
Theorem C41_is_valid : forall P M E (l : list string), P <> [] -> NoDup P -> E <> [] -> NoDup E ->
  exists b, is_valid P M E l = Ok b /\ (b = true <-> well_structured P M E l).
Proof. exact is_valid_ok. Qed.
Print Assumptions C41_is_valid.
Theorem C41_bad_lists : forall P M E (l : list string), ~ (P <> [] /\ NoDup P /\ E <> [] /\ NoDup E) -> is_valid P M E l = Err ValueError.
Proof. exact is_valid_err. Qed.
Print Assumptions C41_bad_lists.

Example C41_case : TEXT_PRELUDE <> [] /\ NoDup TEXT_PRELUDE /\ TEXT_EPILOGUE <> [] /\ NoDup TEXT_EPILOGUE /\
  is_valid TEXT_PRELUDE TEXT_CONTENT_STREAM TEXT_EPILOGUE ["text:variable-decls"; "text:p"; "text:h"; "table:dde-links"]%string = Ok true /\
  is_valid TEXT_PRELUDE TEXT_CONTENT_STREAM TEXT_EPILOGUE ["text:p"; "text:variable-decls"]%string = Ok false /\
  is_valid TEXT_PRELUDE TEXT_CONTENT_STREAM TEXT_EPILOGUE ["table:dde-links"; "table:consolidation"]%string = Ok false.
Proof. split; [done|]. split; [dec_vm|]. split; [done|]. split; [dec_vm|]. split; [by_vm|]. split; by_vm. Qed.

(** ** C42 text bodies *)
Theorem C42_append : forall c e : elem, exists content epi,
  kids e = content ++ epi /\ longest_suffix TEXT_EPILOGUE (map e_tag (kids e)) (length epi) /\
  body_append c e = (T (root e) (content ++ c :: epi), Ok tt).
Proof. exact body_append_eq. Qed.
Print Assumptions C42_append.

Theorem C42_history : forall M (cs : list elem) (e : elem), M = TEXT_CONTENT_STREAM \/ M = TEXT_CONTENT_PAGED ->
  Forall (fun c => e_tag c ∈ M) cs -> well_structured TEXT_PRELUDE M TEXT_EPILOGUE (map e_tag (kids e)) ->
  exists content epi e', kids e = content ++ epi /\ in_order TEXT_EPILOGUE (map e_tag epi) /\ Forall (fun k => e_tag k ∉ TEXT_EPILOGUE) content /\
    aiter cs body_append e = (e', Ok tt) /\ e' = T (root e) (content ++ cs ++ epi) /\
    is_valid TEXT_PRELUDE M TEXT_EPILOGUE (map e_tag (kids e')) = Ok true.
Proof.
  intros M cs e HM Hcs HW. destruct (body_history M cs e) as (content & epi & e' & H1 & H2 & H3 & H4 & H5 & H6); [|done|done|].
  - cut (Forall (fun t : string => t ∉ TEXT_PRELUDE /\ t ∉ M) TEXT_EPILOGUE); [by rewrite Forall_forall|]. destruct HM as [-> | ->]; dec_vm.
  - exists content, epi, e'. split_and!; try done. destruct text_epilogue_ok, text_prelude_ok.
    destruct (is_valid_ok TEXT_PRELUDE M TEXT_EPILOGUE (map e_tag (kids e'))) as (b & -> & Hb); try done. f_equal. by apply Hb.
Qed.
Print Assumptions C42_history.

(** Opening a body that has both declaration elements does not change it. *)
Theorem C42_open : forall e : elem, "text:variable-decls"%string ∈ map e_tag (kids e) -> "text:user-field-decls"%string ∈ map e_tag (kids e) -> text_body e = e.
Proof.
  assert (H : forall t (e : elem), t ∈ map e_tag (kids e) -> subelement t e = e).
  { intros t e Ht. unfold subelement, find_child. apply elem_of_list_In, in_map_iff in Ht as (c & Ec & Hc). apply elem_of_list_In in Hc.
    destruct (head (findall t e)) eqn:E; [done|]. exfalso. apply head_None in E.
    assert (Hin : c ∈ findall t e) by (by apply elem_of_list_filter). rewrite E in Hin. by apply elem_of_nil in Hin. }
  intros e H1 H2. unfold text_body. rewrite (H _ e H1). by apply H.
Qed.
Print Assumptions C42_open.

(** Opening a valid body without declarations puts them behind the content. *)
Theorem C42_open_counterexample : exists e : elem,
  is_valid TEXT_PRELUDE TEXT_CONTENT_STREAM TEXT_EPILOGUE (map e_tag (kids e)) = Ok true /\
  is_valid TEXT_PRELUDE TEXT_CONTENT_STREAM TEXT_EPILOGUE (map e_tag (kids (text_body e))) = Ok false.
Proof. exists (e_append (new_elem "text:p") (new_elem "office:text")). split; by_vm. Qed.
Print Assumptions C42_open_counterexample.

Definition example_body : elem :=
  T (Nd "office:text" ∅ None None) [new_elem "text:variable-decls"; new_elem "text:user-field-decls"; new_elem "text:p"; new_elem "table:dde-links"].
Example C42_case : well_structured TEXT_PRELUDE TEXT_CONTENT_STREAM TEXT_EPILOGUE (map e_tag (kids example_body)) /\
  Forall (fun c : elem => e_tag c ∈ TEXT_CONTENT_STREAM) [new_elem "text:h"; new_elem "text:list"] /\ text_body example_body = example_body /\
  map e_tag (kids (aiter [new_elem "text:h"; new_elem "text:list"] body_append example_body).1) =
    ["text:variable-decls"; "text:user-field-decls"; "text:p"; "text:h"; "text:list"; "table:dde-links"]%string.
Proof.
  split.
  - destruct (is_valid_ok TEXT_PRELUDE TEXT_CONTENT_STREAM TEXT_EPILOGUE (map e_tag (kids example_body))) as (b & E & Hb);
      [apply text_prelude_ok|apply text_prelude_ok|apply text_epilogue_ok|apply text_epilogue_ok|]. apply Hb.
    assert (E' : is_valid TEXT_PRELUDE TEXT_CONTENT_STREAM TEXT_EPILOGUE (map e_tag (kids example_body)) = Ok true) by by_vm. congruence.
  - split; [dec_vm|]. split; [by_vm|by_vm].
Qed.
