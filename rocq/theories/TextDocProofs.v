From Verif Require Import DocumentProofs SolidProofs SolidCells TextProofs NodeOrganizerProofs T_EzList AttrsProofs PyBaseFacts.
From Verif Require Export TextDocSpec.

(** ** The body in the content *)
Lemma first_kid_head t e : snd <$> first_kid (has_tag t) e = head (findall t e).
Proof. apply first_kid_tag. Qed.
Lemma replace_within t k' e i k : first_kid (has_tag t) e = Some (i, k) -> replace_kid i k' e = within t (fun _ => k') e.
Proof.
  intros E. unfold within, replace_kid, on_kids. destruct e as [n ks]. cbn. f_equal. symmetry. by apply (in_first_insert t (fun _ => k')) in E.
Qed.
Lemma on_body_eq t f e y : body_of t e = Some y -> on_body t f e = (with_body t (f y).1 e, (f y).2).
Proof.
  unfold body_of, on_body, with_body. rewrite <- (first_kid_head "office:body"). destruct (first_kid (has_tag "office:body") e) as [[i b]|] eqn:E1; [|done]. cbn.
  rewrite <- first_kid_head. destruct (first_kid (has_tag t) b) as [[j k]|] eqn:E2; [|done]. cbn. intros [= ->]. destruct (f y) as [y' r]. cbn. f_equal.
  rewrite (replace_within _ y' b j y E2), (replace_within _ _ e i b E1). apply (within_ext _ _ _ _ b); [|done]. by rewrite <- first_kid_head, E1.
Qed.
Lemma within_tag t f e : e_tag (within t f e) = e_tag e.
Proof. done. Qed.
Lemma body_parts t e y : body_of t e = Some y -> exists b, head (findall "office:body" e) = Some b /\ head (findall t b) = Some y.
Proof. unfold body_of. destruct (head (findall "office:body" e)) as [b|]; [|done]. cbn. intros H. by exists b. Qed.
Lemma body_tag t e y : body_of t e = Some y -> e_tag y = t.
Proof. intros (b & _ & H)%body_parts. by apply findall_tag_head in H. Qed.
Lemma head_within t f e k : head (findall t e) = Some k -> e_tag (f k) = t -> head (findall t (within t f e)) = Some (f k).
Proof.
  intros H Hf. rewrite (within_ext t f (fun _ => f k) e k H eq_refl), findall_within by done. by destruct (findall t e); [|injection H as ->].
Qed.
Lemma body_of_with t e y y' : body_of t e = Some y -> e_tag y' = t -> body_of t (with_body t y' e) = Some y'.
Proof.
  intros (b & Hb & Hy)%body_parts Ht. unfold body_of, with_body. rewrite (head_within _ _ _ b); [|done|rewrite within_tag; by apply findall_tag_head in Hb].
  cbn [mbind option_bind]. by rewrite (head_within _ _ _ y).
Qed.
Lemma with_with t e y y1 y2 : body_of t e = Some y -> e_tag y1 = t -> with_body t y2 (with_body t y1 e) = with_body t y2 e.
Proof.
  intros (b & Hb & Hy)%body_parts Ht. unfold with_body. rewrite (within_within _ _ _ _ b); [|done|rewrite within_tag; by apply findall_tag_head in Hb].
  apply (within_ext _ _ _ _ b); [done|]. by rewrite (within_within _ _ _ _ y).
Qed.
Lemma with_same t e y : body_of t e = Some y -> with_body t y e = e.
Proof. intros (b & Hb & Hy)%body_parts. apply (within_id _ _ _ b Hb). by apply (within_id _ _ _ y Hy). Qed.
Lemma step_tag o y : e_tag (body_step o y).1 = e_tag y.
Proof.
  destruct y as [a ks]. destruct o as [c|i c|i c|i| |i f]; cbn [body_step kids]; try done.
  - by destruct (py_index _ _).
  - by destruct (py_index _ _).
  - destruct (py_index _ _); [|done]. destruct (ks !! n); [|done]. by destruct (f t).
Qed.
Definition body_play (ops : list bop) (y : elem) : elem := foldl (fun y o => (body_step o y).1) y ops.
Lemma body_play_tag ops y : e_tag (body_play ops y) = e_tag y.
Proof. revert y. induction ops as [|o ops IH]; intros y; [done|]. cbn. change (e_tag (body_play ops (body_step o y).1) = e_tag y). by rewrite IH, step_tag. Qed.
Lemma play_body_eq t ops e y : body_of t e = Some y -> play_body t ops e = with_body t (body_play ops y) e.
Proof.
  revert e y. induction ops as [|o ops IH]; intros e y H; [by rewrite with_same|]. unfold play_body. cbn [foldl]. rewrite (on_body_eq _ _ _ y) by done. cbn [fst].
  assert (Ht : e_tag (body_step o y).1 = t) by (rewrite step_tag; by eapply body_tag).
  change (play_body t ops (with_body t (body_step o y).1 e) = with_body t (body_play (o :: ops) y) e). rewrite (IH _ (body_step o y).1); [|by eapply body_of_with].
  rewrite (with_with _ _ y); done.
Qed.

(** ** The calls *)
Lemma index_place {A} (l : list A) i n : py_index (length l) i = Some n -> exists a k b, l = a ++ k :: b /\ length a = n /\ item_place i a b.
Proof.
  intros H. assert (Hn : n < length l /\ (i = Z.of_nat n \/ i = Z.of_nat n - Z.of_nat (length l))%Z).
  { unfold py_index in H. repeat case_decide; try done; injection H as <-; lia. }
  destruct Hn as [Hn Hi]. destruct (lookup_lt_is_Some_2 l n Hn) as [k Hk]. exists (take n l), k, (drop (S n) l).
  assert (Hl := take_drop_middle l n k Hk). rewrite take_length, Nat.min_l by lia. split_and!; try done.
  unfold item_place. rewrite take_length, drop_length. lia.
Qed.
Lemma index_none {A} (l : list A) i : py_index (length l) i = None -> no_place i l.
Proof. unfold py_index, no_place. repeat case_decide; try done. lia. Qed.
Lemma step_edited o y : edited o (kids y) (kids (body_step o y).1) (body_step o y).2 /\ root (body_step o y).1 = body_node [o] (root y).
Proof.
  destruct y as [a ks]. destruct o as [c|i c|i c|i| |i f]; cbn [body_step kids root].
  - destruct (body_append_eq c (T a ks)) as (content & epi & E1 & E2 & E3). rewrite E3. cbn [kids root fst snd] in *. subst ks. split; [by constructor|done].
  - split; [|done]. unfold e_insert. cbn [on_kids fst kids snd]. unfold lxml_insert_pos. destruct (py_index (length ks) i) as [n|] eqn:E.
    + destruct (index_place _ _ _ E) as (l1 & k & l2 & -> & <- & Hi). unfold insert_at. rewrite take_app, drop_app. by constructor.
    + unfold insert_at. rewrite take_ge, drop_ge by lia. constructor. by apply index_none.
  - destruct (py_index (length ks) i) as [n|] eqn:E; [|split; [constructor; by apply index_none|done]].
    split; [|done]. destruct (index_place _ _ _ E) as (l1 & k & l2 & -> & <- & Hi). cbn. rewrite list_insert_middle || idtac. rewrite insert_app_r_alt, Nat.sub_diag by done. by constructor.
  - destruct (py_index (length ks) i) as [n|] eqn:E; [|split; [constructor; by apply index_none|done]].
    split; [|done]. destruct (index_place _ _ _ E) as (l1 & k & l2 & -> & <- & Hi). cbn. unfold delete_at. rewrite take_app, drop_app_ge by lia.
    replace (S (length l1) - length l1) with 1 by lia. by apply ed_del.
  - split; [constructor|done].
  - destruct (py_index (length ks) i) as [n|] eqn:E; [|split; [constructor; by apply index_none|done]].
    destruct (index_place _ _ _ E) as (l1 & k & l2 & -> & <- & Hi). rewrite list_lookup_middle by done. destruct (f k) as [k' r] eqn:Ef. cbn. split; [|done].
    rewrite insert_app_r_alt, Nat.sub_diag by done. cbn. pose proof (ed_on i f l1 k l2 Hi) as H. by rewrite Ef in H.
Qed.
Lemma body_node_cons o ops a : body_node (o :: ops) a = body_node ops (body_node [o] a).
Proof. unfold body_node. cbn. by destruct (is_clear o), (existsb is_clear ops). Qed.
Lemma play_edits ops y : edits ops (kids y) (kids (body_play ops y)) /\ root (body_play ops y) = body_node ops (root y).
Proof.
  revert y. induction ops as [|o ops IH]; intros y; [split; [constructor|done]|]. destruct (step_edited o y) as [H1 H2]. destruct (IH (body_step o y).1) as [I1 I2].
  split; [by econstructor|]. rewrite body_node_cons, <- H2. exact I2.
Qed.
Lemma edited_forall (P : elem -> Prop) o l l' r : edited o l l' r -> 
  match o with BAppend c | BInsert _ c | BSet _ c => P c | BDel _ | BClear => True | BOn _ f => forall k, P k -> P (f k).1 end -> Forall P l -> Forall P l'.
Proof.
  intros [] Ho; rewrite ?Forall_app, ?Forall_cons, ?Forall_nil; naive_solver.
Qed.
Lemma edits_good ops l l' : edits ops l l' -> Forall safe ops -> Forall good_decl l -> Forall good_decl l'.
Proof.
  induction 1 as [|o ops l l1 l2 r H _ IH]; [done|]. intros [Ho Hs]%Forall_cons Hl. apply IH; [done|]. apply (edited_forall good_decl _ _ _ _ H); [|done]. by destruct o.
Qed.

(** ** Saving *)
Lemma forall_good y : Forall good_decl (kids y) -> forall t k, t ∈ DECLS -> head (findall t y) = Some k -> Forall (fun n => e_tag n ∈ VARIABLES) (kids k).
Proof.
  intros H t k Ht Hk. assert (Hin : k ∈ kids y). { assert (k ∈ findall t y) as Hin by (destruct (findall t y); [done|]; injection Hk as ->; by left). unfold findall in Hin. by apply elem_of_list_filter in Hin as [_ ?]. }
  rewrite Forall_forall in H. apply (H k Hin). by apply findall_tag_head in Hk as ->.
Qed.
Lemma good_with t e y y' : body_of t e = Some y -> e_tag y' = t -> Forall good_decl (kids y') -> good_decls t (Some (with_body t y' e)).
Proof.
  intros Hy Ht Hg e' b1 y1 u k [= <-] Hb1 Hy1 Hu Hk. assert (H := body_of_with t e y y' Hy Ht). unfold body_of in H. rewrite Hb1 in H. cbn in H. rewrite Hy1 in H. injection H as ->.
  by apply (forall_good y' Hg u k).
Qed.
Lemma has_within l t f e k : head (findall t e) = Some k -> e_tag (f k) = t -> has_children l e -> has_children l (within t f e).
Proof.
  intros Hk Hf H. rewrite (within_ext t f (fun _ => f k) e k Hk eq_refl). eapply Forall_impl; [exact H|]. cbv beta. intros u Hu. destruct (decide (u = t)) as [->|Hne].
  - rewrite findall_within by done. by destruct (findall t e).
  - unfold findall in *. cbn [kids within]. by rewrite filter_in_first_other.
Qed.
Lemma findall_missing t (e : elem) : findall t e = [] <-> t ∉ map e_tag (kids e).
Proof.
  unfold findall. induction (kids e) as [|k ks IH]; [cbn; split; [intros _ H; by apply elem_of_nil in H|done]|]. rewrite filter_cons. cbn [map]. rewrite not_elem_of_cons.
  destruct (decide (e_tag k = t)) as [->|Hk]; [split; [done|by intros []]|]. rewrite IH. naive_solver.
Qed.
Lemma fill_missing y : fill DECLS y = T (root y) (kids y ++ missing (kids y)).
Proof.
  unfold fill, missing. do 3 f_equal. generalize DECLS. intros l. induction l as [|t l IH]; [done|]. rewrite !filter_cons.
  destruct (decide (findall t y = [])) as [H|H], (decide (t ∉ map e_tag (kids y))) as [H'|H']; rewrite ?IH; try done; by rewrite findall_missing in H.
Qed.
Lemma content_from_with t e y y' : has_children CONTENT_PARTS e -> body_of t e = Some y -> e_tag y' = t ->
  content_from t (Some (with_body t y' e)) = with_body t (fill DECLS y') e.
Proof.
  intros Hc Hy Ht. destruct (body_parts _ _ _ Hy) as (b & Hb & Hy'). unfold content_from. cbn [default id].
  assert (Hbt : e_tag b = "office:body"%string) by (by apply findall_tag_head in Hb).
  rewrite fill_same by (apply (has_within _ _ _ _ b Hb); [by rewrite within_tag|done]).
  unfold with_body. rewrite (within_within _ _ _ _ b) by (done || by rewrite within_tag). apply (within_ext _ _ _ _ b Hb).
  rewrite (fill_same [t]).
  - by rewrite (within_within _ _ _ _ y).
  - apply Forall_singleton. intros H. pose proof (head_within t (fun _ => y') b y Hy' Ht) as H'. by rewrite H in H'.
Qed.
Lemma parsed_within t f g e k : head (findall t e) = Some k -> parsed (f k) = g (parsed k) -> parsed (within t f e) = within t g (parsed e).
Proof.
  intros Hk Hf. unfold within. destruct e as [a ks]. cbn in *. f_equal. revert Hk. induction ks as [|x ks IH]; [done|]. rewrite filter_cons. cbn. destruct (decide (e_tag x = t)) as [E|E].
  - rewrite decide_True by (by rewrite parsed_tag). intros [= ->]. cbn. by rewrite Hf.
  - rewrite decide_False by (by rewrite parsed_tag). intros Hk. cbn. f_equal. by apply IH.
Qed.
Lemma parsed_with t e y y' : body_of t e = Some y -> parsed (with_body t y' e) = with_body t (parsed y') (parsed e).
Proof. intros (b & Hb & Hy)%body_parts. apply (parsed_within _ _ _ _ b Hb). by apply (parsed_within _ _ _ _ y Hy). Qed.
Lemma parsed_body_of t e y : body_of t e = Some y -> body_of t (parsed e) = Some (parsed y).
Proof. intros (b & Hb & Hy)%body_parts. unfold body_of. rewrite parsed_head, Hb. cbn. by rewrite parsed_head, Hy. Qed.
Lemma missing_parsed l : missing (map parsed l) = missing l.
Proof. unfold missing. rewrite map_map. rewrite (map_ext (fun x => e_tag (parsed x)) e_tag); [done|]. intros k. apply parsed_tag. Qed.
Lemma parsed_root y : root (parsed y) = Nd (e_tag y) (e_attrs y) (nonempty_text (e_text y)) (nonempty_text (e_tail y)).
Proof. by destruct y. Qed.
Lemma complete_body `{B : Bytes} t g : complete t g -> exists y, body_of t (objects g 2) = Some y.
Proof. intros (_ & _ & (_ & _ & b & y & Hb & Hy & _) & _). exists y. unfold body_of. by rewrite Hb. Qed.
Lemma body_of_complete `{B : Bytes} t g y : complete t g -> body_of t (objects g 2) = Some y -> has_children CONTENT_PARTS (objects g 2).
Proof. by intros (_ & _ & (_ & H & _) & _) _. Qed.

(** ** Blocks *)
Section chunks.
Context `{U : Unicode}.
Lemma solid_list_part tg t : solid (new_list_part tg t).
Proof. unfold new_list_part. destruct t; [apply solid_new|]. apply solid_append; [apply solid_new_span|apply solid_new]. Qed.
Lemma solid_drop_first t l : Forall solid l -> Forall solid (drop_first t l).
Proof. induction 1 as [|k l Hk Hl IH]; [by apply Forall_nil_2|]. cbn. destruct (decide _); [done|]. by apply Forall_cons_2. Qed.
Lemma solid_insert i c e : solid c -> solid e -> solid (e_insert i c e).
Proof.
  intros Hc He. apply solid_on_kids; [done|]. apply solid_kids in He. unfold insert_at. apply Forall_app. split; [by apply Forall_take|]. apply Forall_cons. split; [done|]. by apply Forall_drop.
Qed.
Lemma solid_ezlist items header style : solid (ezlist items header style).
Proof.
  unfold ezlist. assert (H : solid (new_list style)) by (unfold new_list; destruct style; [|apply solid_set]; apply solid_new).
  assert (H2 : solid (match header with [] => new_list style | _ => put_header (new_list_part LIST_HEADER header) (new_list style) end)).
  { destruct header as [|c h]; [done|]. unfold put_header. apply solid_insert; [apply solid_list_part|]. apply solid_on_kids; [done|]. by apply solid_drop_first, solid_kids. }
  revert H2. generalize (match header with [] => new_list style | _ => put_header (new_list_part LIST_HEADER header) (new_list style) end). clear -U.
  induction items as [|t items IH]; intros e He; [done|]. cbn. apply IH. apply solid_append; [apply solid_list_part|done].
Qed.
Lemma solid_chunk b : solid (make_chunk b).
Proof. destruct b; cbn [make_chunk]; [apply solid_new_span|apply solid_set, solid_new_span|apply solid_ezlist]. Qed.
Lemma style_new_span tg t style : e_get "text:style-name" (new_span tg t style) = given style.
Proof.
  unfold new_span, e_get. destruct t as [|c t]; rewrite ?append_text_attrs; by destruct style.
Qed.
Lemma chunk_tag b : e_tag (make_chunk b) ∈ ["text:p"; "text:h"; "text:list"]%string.
Proof.
  destruct b as [t style|t level style|items header style]; cbn [make_chunk].
  - rewrite new_span_tag. by left.
  - unfold new_heading. assert (E : e_tag (e_set "text:outline-level" (show_Z (Z.max 1 level)) (new_span "text:h" t style)) = "text:h"%string). { pose proof (new_span_tag "text:h" t style) as H. by destruct (new_span "text:h" t style). } rewrite E. right. by left.
  - destruct (C64_ezlist items header style) as (_ & _ & _ & _ & -> & _). do 2 right. by left.
Qed.
Lemma chunk_shows b : shows b (make_chunk b).
Proof.
  destruct b as [t style|t level style|items header style]; cbn [make_chunk shows].
  - split; [apply new_span_tag|]. split; [|apply style_new_span]. apply new_span_plaintext. right. by left.
  - assert (E : e_tag (new_heading t level style) = "text:h"%string). { pose proof (new_span_tag "text:h" t style) as H. unfold new_heading. by destruct (new_span "text:h" t style). }
    split; [done|]. unfold new_heading. split; [|split].
    + rewrite plaintext_e_set by (rewrite new_span_tag; do 2 right; by left). apply new_span_plaintext. do 2 right. by left.
    + rewrite <- (style_new_span "text:h" t style). destruct (new_span "text:h" t style) as [a ks]. unfold e_get, e_attrs. cbn. by rewrite lookup_insert_ne.
    + unfold limit_get. rewrite get_set, decide_True by done. rewrite py_int_show_Z. cbn. f_equal. lia.
  - destruct (C64_ezlist items header style) as (H1 & H2 & _ & _ & H3 & _ & _ & H4). split_and!; try done. by rewrite H4.
Qed.
End chunks.
Lemma rmap_parsed {A} (f : elem -> res A) ks : Forall (fun k => f (parsed k) = f k) ks -> rmap f (map parsed ks) = rmap f ks.
Proof. induction 1 as [|k ks Hk _ IH]; [done|]. cbn [map rmap]. by rewrite Hk, IH. Qed.
Lemma parsed_plaintext `{U : Unicode} e : plaintext (parsed e) = plaintext e.
Proof.
  assert (Hs : forall s, str_of (nonempty_text s) = str_of s) by (by intros [[|]|]).
  induction e as [a ks IH] using tree_ind'. cbn [parsed plaintext tag attrs text tail]. rewrite Hs.
  rewrite (rmap_parsed plaintext ks IH).
  rewrite (rmap_parsed (fun k => do p <- plaintext k; Ok (p ++ str_of (e_tail k))) ks).
  2: { eapply Forall_impl; [exact IH|]. intros k ->. destruct k as [ka kk]. unfold e_tail. cbn [parsed root tail]. by rewrite Hs. }
  rewrite (rmap_parsed (fun k => if decide (e_tag k ∈ cell_content_tags) then do p <- plaintext k; Ok [p] else Ok []) ks).
  2: { eapply Forall_impl; [exact IH|]. intros k Hk. rewrite parsed_tag. by rewrite Hk. }
  done.
Qed.
