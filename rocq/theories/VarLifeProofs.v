(** Proofs about variables and user fields of documents in memory. *)
From Verif Require Export VarLifeSpec VariablesProofs DocumentProofs.
From Verif Require Import TableReload.

Local Notation NAME := "text:name"%string.
Definition vk (f : family) : vkind := match f with FVar => Simple | FUser => User end.

(** ** Trees in memory *)
Lemma loaded_sub S r : loaded S r -> sub (nid r) S = Some r.
Proof. intros [Hw Hr]. apply (el_kids_sub S (nid S)); [done|]. unfold el_kids. by rewrite sub_root. Qed.
Lemma loaded_ids S r x : loaded S r -> x ∈ ids r -> element x S.
Proof. intros [_ Hr] Hx. apply elem_of_flat_map. by exists r. Qed.
Lemma loaded_element S r : loaded S r -> element (nid r) S.
Proof. intros H. apply (loaded_ids S r); [done|]. rewrite ids_eq. by left. Qed.
Lemma loaded_top S r x : loaded S r -> x ∈ ids r -> topmost S (nid r) x.
Proof.
  intros HL Hx. pose proof HL as [Hw Hr]. split_and!.
  - by apply (sub_upwards S (nid r) r x Hw (loaded_sub S r HL)).
  - by apply (loaded_element S r).
  - intros p Hp Hc. apply element_ids in Hp as [_ Hp]; [|done]. apply Hp. apply (one_parent S p (nid S) (nid r)); [done|done|].
    unfold children. rewrite sub_root. by apply (elem_of_list_fmap_1 nid).
Qed.
Lemma kid_ids k r : k ∈ kids r -> nid k ∈ ids r.
Proof. intros Hk. rewrite ids_eq. right. apply elem_of_flat_map. exists k. split; [done|]. rewrite ids_eq. by left. Qed.
Lemma kid_ids_in k r x : k ∈ kids r -> x ∈ ids k -> x ∈ ids r.
Proof. intros Hk Hx. rewrite ids_eq. right. apply elem_of_flat_map. by exists k. Qed.
Lemma kid_sub S k r : wfs S -> sub (nid r) S = Some r -> k ∈ kids r -> sub (nid k) S = Some k.
Proof. intros Hw Hs Hk. apply (el_kids_sub S (nid r)); [done|]. unfold el_kids. by rewrite Hs. Qed.
Lemma head_in {A} (P : A -> Prop) `{forall x, Decision (P x)} l x : head (filter P l) = Some x -> P x /\ x ∈ l.
Proof. intros Hx. apply (proj1 (elem_of_list_filter P l x)). destruct (filter P l); [done|]. injection Hx as ->. left. Qed.
Lemma decls_place f t r d : decls_in f t r = Some d -> exists b y, b ∈ kids r /\ y ∈ kids b /\ d ∈ kids y /\ ltag d = container f.
Proof.
  unfold decls_in, body_in. destruct (head (filter _ (kids r))) as [b|] eqn:Eb; [|done]. cbn.
  destruct (head (filter _ (kids b))) as [y|] eqn:Ey; [|done]. cbn. intros Hd.
  apply head_in in Eb as [_ ?], Ey as [_ ?], Hd as [? ?]. by exists b, y.
Qed.
Lemma decls_sub S f t r d : loaded S r -> decls_in f t r = Some d -> sub (nid d) S = Some d /\ nid d ∈ ids r /\ (forall x, x ∈ ids d -> x ∈ ids r).
Proof.
  intros HL Hd. destruct (decls_place f t r d Hd) as (b & y & Hb & Hy & Hdy & _). pose proof HL as [Hw _].
  assert (H1 : sub (nid b) S = Some b) by (by apply (kid_sub S b r); [|apply loaded_sub|]).
  assert (H2 : sub (nid y) S = Some y) by (by apply (kid_sub S y b)).
  assert (H3 : sub (nid d) S = Some d) by (by apply (kid_sub S d y)).
  assert (H4 : forall x, x ∈ ids d -> x ∈ ids r) by (intros x Hx; by apply (kid_ids_in b), (kid_ids_in y), (kid_ids_in d)).
  split_and!; [done| |done]. apply H4. rewrite ids_eq. by left.
Qed.
Lemma decl_facts f t r nm k : field_decl f t r nm = Some k ->
  exists d, decls_in f t r = Some d /\ k ∈ kids d /\ attrs (pl (root k)) !! NAME = Some nm.
Proof.
  unfold field_decl. destruct (decls_in f t r) as [d|]; [|done]. cbn. intros Hk. exists d. split; [done|].
  apply last_Some in Hk as [l Hl]. assert (k ∈ filter (fun k => attrs (pl (root k)) !! NAME = Some nm) (kids d)) as Hin by (rewrite Hl; apply elem_of_app; right; left).
  apply elem_of_list_filter in Hin as [? ?]. done.
Qed.
Lemma decl_sub S f t r nm k : loaded S r -> field_decl f t r nm = Some k ->
  sub (nid k) S = Some k /\ nid k ∈ ids r /\ nid k <> nid r.
Proof.
  intros HL Hk. destruct (decl_facts f t r nm k Hk) as (d & Hd & Hkd & _). destruct (decls_sub S f t r d HL Hd) as (H1 & H2 & H3). pose proof HL as [Hw _].
  assert (Hs : sub (nid k) S = Some k) by (by apply (kid_sub S k d)).
  split_and!; [done|by apply H3, kid_ids|]. intros E. rewrite E, (loaded_sub S r HL) in Hs. injection Hs as <-.
  assert (Hwr : wfs r) by (by apply (sub_wfs S (nid r)); [|apply loaded_sub]). destruct (decls_place f t r d Hd) as (b & y & Hb & Hy & Hdy & _).
  unfold wfs in Hwr. rewrite ids_eq in Hwr. apply NoDup_cons in Hwr as [Hwr _]. apply Hwr. apply elem_of_flat_map. exists b. split; [done|].
  by apply (kid_ids_in y), (kid_ids_in d), kid_ids.
Qed.

Section proofs.
Context `{U : Unicode} `{F : PyFloat} (odd : N -> string -> pystr -> node -> res (list N)).

(** ** The dictionary of names *)
Lemma last_map {A B} (h : A -> B) l : last (map h l) = h <$> last l.
Proof. induction l as [|x l IH]; [done|]. destruct l as [|y l]; [done|]. cbn [map] in *. by rewrite !last_cons_cons, IH. Qed.
Lemma filter_map_nid (P : node -> Prop) (Q : N -> Prop) `{!forall x, Decision (P x)} `{!forall x, Decision (Q x)} (l : list node) :
  (forall k, k ∈ l -> P k <-> Q (nid k)) -> filter Q (map nid l) = map nid (filter P l).
Proof.
  induction l as [|k l IH]; intros HPQ; [done|]. cbn [map]. rewrite !filter_cons. assert (E : P k <-> Q (nid k)) by (apply HPQ; by left).
  assert (IHl : filter Q (map nid l) = map nid (filter P l)). { apply IH. intros c Hc. apply HPQ. by right. }
  destruct (decide (P k)), (decide (Q (nid k))); cbn; rewrite ?IHl; tauto.
Qed.
Lemma fields_lookup S r f t vs : loaded S r -> plain_fields t r -> doc_fields f t r S = Ok vs -> forall nm,
  lookup_key vs (KStr nm) = (fun k => Var (vk f) (nid k) (Some nm)) <$> field_decl f t r nm.
Proof.
  intros HL Hp Hvs nm. unfold doc_fields in Hvs. unfold field_decl. destruct (decls_in f t r) as [d|] eqn:Ed; [|done].
  destruct (decls_sub S f t r d HL Ed) as (Hs & _). pose proof HL as [Hw _]. specialize (Hp f d Ed). cbn [mbind option_bind].
  unfold new_variables in Hvs. change (wr_iter (nid d) S) with (map nid (el_kids (nid d) S)) in Hvs. unfold el_kids in Hvs. rewrite Hs in Hvs.
  assert (Hself : forall k, k ∈ kids d -> self (nid k) S = T (pl (root k)) []).
  { intros k Hk. unfold self. by rewrite (kid_sub S k d). }
  pose proof (collect_spec (map nid (kids d)) S ∅) as H. destruct (collect (map nid (kids d)) S ∅) as [dc|e]; [|done]. cbn in Hvs. injection Hvs as <-.
  destruct H as [_ H]. cbn [lookup_key vs_dict]. rewrite H, lookup_empty.
  rewrite (filter_map_nid (fun k => attrs (pl (root k)) !! NAME = Some nm) (fun x => e_get NAME (self x S) = Some nm)), last_map.
  2:{ intros k Hk. by rewrite (Hself k Hk). }
  destruct (last (filter _ (kids d))) as [k|] eqn:El; [|done]. cbn.
  apply last_Some in El as [l Hl]. assert (k ∈ filter (fun k => attrs (pl (root k)) !! NAME = Some nm) (kids d)) as Hin by (rewrite Hl; apply elem_of_app; right; left).
  apply elem_of_list_filter in Hin as [Hn Hk]. rewrite Forall_forall in Hp. specialize (Hp k Hk).
  unfold child_var, new_variable. rewrite (Hself k Hk). unfold e_tag, e_get, e_attrs. cbn [root]. rewrite Hn. unfold ltag in Hp. rewrite Hp. by destruct f.
Qed.
Lemma fields_open S r f t d : loaded S r -> plain_fields t r -> decls_in f t r = Some d -> exists vs, doc_fields f t r S = Ok vs.
Proof.
  intros HL Hp Ed. unfold doc_fields. rewrite Ed. destruct (decls_sub S f t r d HL Ed) as (Hs & _). pose proof HL as [Hw _]. specialize (Hp f d Ed).
  unfold new_variables. change (wr_iter (nid d) S) with (map nid (el_kids (nid d) S)). unfold el_kids. rewrite Hs.
  pose proof (collect_spec (map nid (kids d)) S ∅) as H. destruct (collect (map nid (kids d)) S ∅) as [dc|e]; [by eexists|].
  destruct H as [_ H]. exfalso. apply H. apply Forall_forall. intros x (k & -> & Hk)%elem_of_list_fmap. unfold self. rewrite (kid_sub S k d) by done.
  rewrite Forall_forall in Hp. specialize (Hp k Hk). unfold e_tag, ltag in *. cbn [root]. rewrite Hp. by destruct f; eexists.
Qed.
Lemma decl_declared S r f t nm k : loaded S r -> plain_fields t r -> field_decl f t r nm = Some k -> 39%N ∉ nm ->
  VariablesSpec.declared S (Var (vk f) (nid k) (Some nm)) (nid r) nm.
Proof.
  intros HL Hp Hk Hq. destruct (decl_sub S f t r nm k HL Hk) as (Hs & Hi & _). pose proof HL as [Hw _].
  destruct (decl_facts f t r nm k Hk) as (d & Hd & Hkd & _). specialize (Hp f d Hd). rewrite Forall_forall in Hp. specialize (Hp k Hkd).
  split_and!; cbn [v_node v_name]; [done|by apply (loaded_ids S r)| |by apply loaded_top|done|done].
  exists (pl (root k)). split; [unfold data; by rewrite Hs|]. unfold ltag in Hp. rewrite Hp. destruct f; [by left|by right].
Qed.

(** ** Programs *)
Lemma loaded_relab g S r : loaded S r -> loaded (relab g S) (relab g r).
Proof. intros [Hw Hr]. split; [by apply relab_wfs|]. rewrite relab_kids. by apply (elem_of_list_fmap_1 (relab g)). Qed.
(** [y] is no declaration and no instance of a field that is assigned *)
Definition spared (t : string) (S r : node) (ps : list (family * pystr * pyval)) (y : N) : Prop :=
  forall a, a ∈ ps -> (forall k, field_decl a.1.1 t r a.1.2 = Some k -> y <> nid k) /\
    (is_Some (field_decl a.1.1 t r a.1.2) -> ~ instance S (nid r) a.1.2 y).
Lemma run_relab S r t (vs : family -> variables) ps : loaded S r -> plain_fields t r -> (forall f, doc_fields f t r S = Ok (vs f)) ->
  Forall plain_field ps ->
  exists g, foldl (set_field odd vs) S ps = relab g S /\ keeps g /\ forall y d, spared t S r ps y -> g y d = d.
Proof.
  intros HL Hp Hvs. assert (Hrun : forall g, keeps g -> Forall plain_field ps ->
    exists g', foldl (set_field odd vs) (relab g S) ps = relab g' S /\ keeps g' /\ forall y d, spared t S r ps y -> g' y d = g y d).
  2:{ intros Hq. destruct (Hrun (fun _ d => d)) as (g & E & Hg); [by intros y d|done|]. rewrite relab_id in E. by exists g. }
  induction ps as [|a l IH]; intros g Hg Hq; [by exists g|]. apply Forall_cons in Hq as [Ha Hq]. cbn [foldl].
  assert (Hstep : exists g', set_field odd vs (relab g S) a = relab g' S /\ keeps g' /\
    forall y d, (forall k, field_decl a.1.1 t r a.1.2 = Some k -> y <> nid k) /\ (is_Some (field_decl a.1.1 t r a.1.2) -> ~ instance S (nid r) a.1.2 y) -> g' y d = g y d).
  { unfold set_field, vs_set. rewrite (fields_lookup S r a.1.1 t (vs a.1.1) HL Hp (Hvs _)).
    destruct (field_decl a.1.1 t r a.1.2) as [k|] eqn:Ek; [|by exists g]. cbn [fmap option_fmap option_map].
    destruct (decl_declared S r _ t _ k HL Hp Ek Ha) as (_ & D1 & D2 & D3 & _). cbn [v_node] in *. pose proof HL as [Hw _].
    destruct (put_effect odd (vk a.1.1) (nid k) (Some a.1.2) a.1.2 (nid r) (relab g S) a.2) as (h & E & Hh & Hi);
      [by destruct a.1.1|by apply relab_wfs|by rewrite relab_element|by rewrite declaration_relab|by rewrite topmost_relab|done|done|].
    rewrite E, relab_relab. eexists. split; [reflexivity|]. split.
    - intros y d. destruct (Hh y (g y d)) as [-> ->]. apply Hg.
    - intros y d [Y1 Y2]. apply Hi; [|by apply Y1]. rewrite instance_relab by done. apply Y2. by eexists. }
  destruct Hstep as (g1 & E1 & Hg1 & Hi1). rewrite E1. destruct (IH g1 Hg1 Hq) as (g2 & E2 & Hg2 & Hi2). exists g2. split_and!; [done|done|].
  intros y d Hy. rewrite Hi2; [apply Hi1, Hy; by left|]. intros b Hb. apply Hy. by right.
Qed.
Lemma run_assign (vs : family -> variables) ps w :
  foldl (set_field odd vs) w ps =
  foldl (assign odd) w (flat_map (fun a => match lookup_key (vs a.1.1) (KStr a.1.2) with Some v => [(v, a.2)] | None => [] end) ps).
Proof.
  revert w. induction ps as [|a l IH]; intros w; [done|]. cbn [foldl flat_map]. rewrite IH, foldl_app. f_equal.
  unfold set_field, vs_set. destruct (lookup_key (vs a.1.1) (KStr a.1.2)) as [v|]; done.
Qed.

(** ** What is read, from the tree without identities *)
Definition d_inst (d : nd) : res pyval :=
  match attrs d !! Variables.VALUE_TYPE with
    | Some t => if decide (t = lit "boolean") then Ok (VBool (bool_decide (text d = Some (lit "true"))))
                else if decide (t = lit "float") then
                  match text d with None => Err TypeError
                  | Some s => match f_parse s with Some f => Ok (VFloat f) | None => Err ValueError end end
                else Ok (match text d with Some s => VStr s | None => VNone end)
    | None => Ok (match text d with Some s => VStr s | None => VNone end)
    end.
Definition d_user (d : nd) : res pyval :=
  match attrs d !! Variables.VALUE_TYPE with
    | Some t => if decide (t = lit "boolean") then Ok (VBool (bool_decide (attrs d !! "office:boolean-value"%string = Some (lit "true"))))
                else if decide (t = lit "string") then Ok (match attrs d !! "office:string-value"%string with Some s => VStr s | None => VNone end)
                else match attrs d !! "office:value"%string with None => Err TypeError
                  | Some s => match f_parse s with Some f => Ok (VFloat f) | None => Err ValueError end end
    | None => Ok (match attrs d !! "office:string-value"%string with Some s => VStr s | None => VNone end)
    end.
Definition e_insts (nm : pystr) (e : elem) : list elem :=
  filter (fun k => attrs (root k) !! NAME = Some nm) (descendants "text:variable-set" e) ++
  filter (fun k => attrs (root k) !! NAME = Some nm) (descendants "text:variable-get" e) ++
  filter (fun k => attrs (root k) !! NAME = Some nm) (descendants "text:variable-input" e).
Definition e_value (f : family) (nm : pystr) (e k : elem) : res pyval :=
  match f with FUser => d_user (root k) | FVar => match head (e_insts nm e) with Some i => d_inst (root i) | None => Err IndexError end end.
Lemma filter_map_erase nm l : map erase (filter (fun k => attrs (pl (root k)) !! NAME = Some nm) l) = filter (fun k => attrs (root k) !! NAME = Some nm) (map erase l).
Proof. induction l as [|k l IH]; [done|]. cbn [map]. rewrite !filter_cons, erase_root. case_decide; cbn; by rewrite IH. Qed.
Lemma value_erased S r f t nm k : loaded S r -> plain_fields t r -> field_decl f t r nm = Some k -> 39%N ∉ nm ->
  get_value odd (Var (vk f) (nid k) (Some nm)) S = e_value f nm (erase r) (erase k).
Proof.
  intros HL Hp Hk Hq. destruct (decl_sub S f t r nm k HL Hk) as (Hs & Hi & _). pose proof HL as [Hw _].
  unfold get_value. destruct f; cbn [vk v_kind e_value v_node].
  - unfold simple_value, instances. cbn [v_node v_name default].
    rewrite (root_topmost S (nid r) (nid k) Hw (loaded_ids S r _ HL Hi) (loaded_top S r _ HL Hi)).
    unfold found. rewrite !decide_False by done. rewrite (loaded_sub S r HL). cbn [rbind].
    rewrite <- !map_app. unfold e_insts. rewrite <- !erase_ldesc, <- !filter_map_erase, <- !map_app.
    set (L := filter _ (ldesc "text:variable-set" r) ++ _).
    assert (HLin : Forall (fun i => sub (nid i) S = Some i) L).
    { apply Forall_forall. intros i Hin. assert (exists tg, i ∈ ldesc tg r) as [tg Ht].
      { unfold L in Hin. rewrite !elem_of_app, !elem_of_list_filter in Hin. destruct Hin as [[_ H]|[[_ H]|[_ H]]]; eauto. }
      apply ldesc_plugged in Ht as [c Hc]. pose proof (sub_wfs S (nid r) r Hw (loaded_sub S r HL)) as Hwr.
      pose proof (loaded_sub S r HL) as Hr. apply sub_Some in Hr as [_ [Hr|[c' Hr]]].
      - rewrite <- Hr, Hc. apply sub_plug. rewrite <- Hc. exact Hwr.
      - rewrite Hr, Hc, <- plug_ccomp. apply sub_plug. rewrite plug_ccomp, <- Hc, <- Hr. exact Hw. }
    destruct L as [|i L']; [done|]. cbn [map head]. replace (py_get (nid i :: map nid L') 0) with (Ok (nid i)) by (by rewrite py_get_pos).
    cbn [rbind]. apply Forall_cons in HLin as [Hsi _]. rewrite (inst_value_data (nid i) S (pl (root i))) by (unfold data; by rewrite Hsi).
    by rewrite erase_root.
  - rewrite (user_value_data User (nid k) (Some nm) S (pl (root k))) by (unfold data; by rewrite Hs). by rewrite erase_root.
Qed.

(** ** Saving *)
Lemma parsed_nd e : root (parsed e) = Nd (tag (root e)) (attrs (root e)) (nonempty_text (text (root e))) (nonempty_text (tail (root e))).
Proof. by destruct e. Qed.
Lemma d_inst_parsed e z : d_inst (root e) = Ok z -> d_inst (root (parsed e)) = Ok (after_saving FVar z).
Proof.
  rewrite parsed_nd. unfold d_inst. cbn [attrs text]. set (x := text (root e)). destruct (attrs (root e) !! Variables.VALUE_TYPE) as [ty|].
  - destruct (decide (ty = lit "boolean")).
    + intros [= <-]. cbn. destruct x as [[|c s]|]; done.
    + destruct (decide (ty = lit "float")).
      * destruct x as [[|c s]|]; [|cbn; destruct (f_parse (c :: s)); [by intros [= <-]|done]|done]. by rewrite f_parse_empty.
      * intros [= <-]. by destruct x as [[|c s]|].
  - intros [= <-]. by destruct x as [[|c s]|].
Qed.
Lemma d_user_parsed e : d_user (root (parsed e)) = d_user (root e).
Proof. by rewrite parsed_nd. Qed.
Lemma descendants_parsed tg e : descendants tg (parsed e) = map parsed (descendants tg e).
Proof.
  induction e as [a ks IH] using tree_ind'. cbn [parsed descendants]. induction IH as [|k ks Hk _ IHks]; [done|].
  cbn [map flat_map]. rewrite IHks, map_app, map_app, Hk, parsed_tag. f_equal. f_equal. by case_decide.
Qed.
Lemma e_insts_parsed nm e : e_insts nm (parsed e) = map parsed (e_insts nm e).
Proof.
  unfold e_insts. rewrite !descendants_parsed, !map_app. rewrite !parsed_filter; [done|..]; intros k; by rewrite parsed_nd.
Qed.
Lemma value_parsed f nm e k z : e_value f nm e k = Ok z -> e_value f nm (parsed e) (parsed k) = Ok (after_saving f z).
Proof.
  destruct f; cbn [e_value]; [|rewrite d_user_parsed; by intros ->]. rewrite e_insts_parsed. destruct (e_insts nm e) as [|i l]; [done|]. apply d_inst_parsed.
Qed.

(** the same place in two trees *)
Lemma head_filter_erase tg (r : node) : erase <$> head (filter (fun k => ltag k = tg) (kids r)) = head (findall tg (erase r)).
Proof.
  unfold findall. rewrite erase_kids. induction (kids r) as [|k l IH]; [done|]. cbn [map]. rewrite !filter_cons.
  pose proof (ltag_erase k). destruct (decide (ltag k = tg)), (decide (e_tag (erase k) = tg)); try congruence; done.
Qed.
Definition e_decls (f : family) (t : string) (e : elem) : option elem :=
  head (findall "office:body" e) ≫= fun b => head (findall t b) ≫= fun y => head (findall (container f) y).
Lemma decls_erase f t r : erase <$> decls_in f t r = e_decls f t (erase r).
Proof.
  unfold decls_in, body_in, e_decls. rewrite <- head_filter_erase. destruct (head (filter _ (kids r))) as [b|]; [|done]. cbn [mbind option_bind fmap option_fmap option_map].
  rewrite <- head_filter_erase. destruct (head (filter _ (kids b))) as [y|]; [|done]. cbn [mbind option_bind fmap option_fmap option_map]. by rewrite <- head_filter_erase.
Qed.
Lemma e_decls_parsed f t e : e_decls f t (parsed e) = parsed <$> e_decls f t e.
Proof.
  unfold e_decls. rewrite parsed_head. destruct (head (findall "office:body" e)) as [b|]; [|done]. cbn [mbind option_bind fmap option_fmap option_map].
  rewrite parsed_head. destruct (head (findall t b)) as [y|]; [|done]. cbn [mbind option_bind fmap option_fmap option_map]. apply parsed_head.
Qed.
Definition e_decl (f : family) (t : string) (e : elem) (nm : pystr) : option elem :=
  e_decls f t e ≫= fun d => last (filter (fun k => attrs (root k) !! NAME = Some nm) (kids d)).
Lemma decl_erase f t r nm : erase <$> field_decl f t r nm = e_decl f t (erase r) nm.
Proof.
  unfold field_decl, e_decl. rewrite <- decls_erase. destruct (decls_in f t r) as [d|]; [|done]. cbn [mbind option_bind fmap option_fmap option_map].
  rewrite erase_kids, <- filter_map_erase, last_map. done.
Qed.
Lemma e_decl_parsed f t e nm : e_decl f t (parsed e) nm = parsed <$> e_decl f t e nm.
Proof.
  unfold e_decl. rewrite e_decls_parsed. destruct (e_decls f t e) as [d|]; [|done]. cbn [mbind option_bind fmap option_fmap option_map].
  rewrite parsed_kids, parsed_filter; [apply last_map|]. intros k. by rewrite parsed_nd.
Qed.
(** relabelling *)
Lemma head_relab g tg (r : node) : keeps g -> head (filter (fun k => ltag k = tg) (kids (relab g r))) = relab g <$> head (filter (fun k => ltag k = tg) (kids r)).
Proof.
  intros Hg. rewrite relab_kids. induction (kids r) as [|k l IH]; [done|]. cbn [map]. rewrite !filter_cons.
  assert (E : ltag (relab g k) = ltag k) by (unfold ltag; rewrite relab_pl; apply Hg). rewrite E. by destruct (decide (ltag k = tg)).
Qed.
Lemma decls_relab g f t r : keeps g -> decls_in f t (relab g r) = relab g <$> decls_in f t r.
Proof.
  intros Hg. unfold decls_in, body_in. rewrite head_relab by done. destruct (head (filter _ (kids r))) as [b|]; [|done]. cbn [mbind option_bind fmap option_fmap option_map].
  rewrite head_relab by done. destruct (head (filter _ (kids b))) as [y|]; [|done]. cbn [mbind option_bind fmap option_fmap option_map]. by rewrite head_relab.
Qed.
Lemma decl_relab g f t r nm : keeps g -> field_decl f t (relab g r) nm = relab g <$> field_decl f t r nm.
Proof.
  intros Hg. unfold field_decl. rewrite decls_relab by done. destruct (decls_in f t r) as [d|]; [|done]. cbn [mbind option_bind fmap option_fmap option_map].
  rewrite relab_kids, <- last_map. f_equal. induction (kids d) as [|k l IH]; [done|]. cbn [map]. rewrite !filter_cons, relab_pl.
  destruct (Hg (nid k) (pl (root k))) as [_ ->]. case_decide; cbn; by rewrite IH.
Qed.
Lemma plain_relab g t r : keeps g -> plain_fields t r -> plain_fields t (relab g r).
Proof.
  intros Hg Hp f d. rewrite decls_relab by done. destruct (decls_in f t r) as [d0|] eqn:E; [|done]. intros [= <-]. rewrite relab_kids.
  specialize (Hp f d0 E). clear -Hp Hg. induction Hp as [|k l Hk _ IH]; constructor; [|done]. unfold ltag in *. rewrite relab_pl. destruct (Hg (nid k) (pl (root k))) as [-> _]. done.
Qed.
(** trees with the same tags *)
Lemma plain_again t r r2 : plain_fields t r -> erase r2 = parsed (erase r) -> plain_fields t r2.
Proof.
  intros Hp E f d2 Hd2. assert (H : erase <$> decls_in f t r2 = parsed <$> (erase <$> decls_in f t r)) by (by rewrite !decls_erase, E, e_decls_parsed).
  rewrite Hd2 in H. destruct (decls_in f t r) as [d|] eqn:Ed; [|done]. cbn in H. injection H as H. specialize (Hp f d Ed).
  apply (f_equal (fun e => map e_tag (kids e))) in H. rewrite parsed_kids, !erase_kids, !map_map in H.
  apply Forall_lookup. intros i k Hk. assert (H' := f_equal (.!! i) H). change (map ?g ?l) with (g <$> l) in H'. rewrite !list_lookup_fmap, Hk in H'. cbn in H'.
  destruct (kids d !! i) as [k0|] eqn:Ek; [|done]. cbn in H'. rewrite parsed_tag in H'. injection H' as H'. rewrite <- !ltag_erase in H'. rewrite Forall_lookup in Hp. rewrite H'. by apply (Hp i).
Qed.
End proofs.
