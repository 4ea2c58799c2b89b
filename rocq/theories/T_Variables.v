(** C48: variables and user fields return what was stored. *)
From Verif Require Import VariablesProofs.

(** Assigning to a variable writes text and type of every instance in the document and the type
    of the declaration, and nothing else. *)
Theorem C48_simple_set `{F : PyFloat} (odd : N -> string -> pystr -> node -> res (list N))
    (w : node) (v : variable) (r : N) (nm : pystr) (u : pyval) (s : pystr) :
  v_kind v = Simple -> declared w v r nm -> shown u s ->
  exists w', put_value odd u v w = (w', Ok tt) /\ same_places w w' /\
    (forall y, instance w r nm y -> data y w' = shows u s <$> data y w) /\
    data (v_node v) w' = set_attr_of "office:value-type" (office_type u) <$> data (v_node v) w /\
    (forall y, ~ instance w r nm y -> y <> v_node v -> data y w' = data y w).
Proof.
  destruct v as [k x nmo]. cbn [v_kind v_node]. intros -> (Hw & Hx & Hd & Hr & Hn & Hq) Hs. cbn [v_node v_name] in *. subst nmo.
  destruct (setup odd Simple x (Some nm) nm r w Hw Hx Hd Hr eq_refl Hq) as (l & H1 & H2 & H3 & H4).
  unfold put_value. cbn [v_kind]. rewrite (set_simple_eq odd Simple x (Some nm) w l) by done.
  eexists. split; [reflexivity|]. rewrite (shown_tostr u s) by done. split_and!.
  - by apply relab_same.
  - intros y Hy. rewrite final_data. rewrite <- H2 in Hy. by rewrite decide_True.
  - rewrite final_data. by rewrite decide_False, decide_True by done.
  - intros y Hy Hne. rewrite final_data. rewrite <- H2 in Hy. by rewrite !decide_False by done.
Qed.
Print Assumptions C48_simple_set.

(** The value is then read from the variable and from every instance; booleans are always read
    as False; a variable without instances has no value. *)
Theorem C48_simple_get `{F : PyFloat} (odd : N -> string -> pystr -> node -> res (list N))
    (w : node) (v : variable) (r : N) (nm : pystr) (u : pyval) (s : pystr) :
  v_kind v = Simple -> declared w v r nm -> shown u s ->
  let w' := (put_value odd u v w).1 in
  ((exists y, instance w r nm y) -> exists z, get_value odd v w' = Ok z /\ inst_reads_as u z /\
     forall y n, instance w r nm y -> get_value odd (Var Inst y n) w' = Ok z) /\
  ((forall y, ~ instance w r nm y) -> get_value odd v w' = Err IndexError).
Proof.
  destruct v as [k x nmo]. cbn [v_kind v_node]. intros -> (Hw & Hx & Hd & Hr & Hn & Hq) Hs. cbn [v_node v_name] in *. subst nmo.
  destruct (setup odd Simple x (Some nm) nm r w Hw Hx Hd Hr eq_refl Hq) as (l & H1 & H2 & H3 & H4).
  unfold put_value. cbn [v_kind]. rewrite (set_simple_eq odd Simple x (Some nm) w l) by done. cbv zeta. cbn [fst].
  rewrite (shown_tostr u s) by done. set (g := final x l _ _).
  assert (Hg : keeps g).
  { intros y d. unfold g, final. case_decide; [apply keeps_shows|]. case_decide; [by apply keeps_attr|done]. }
  assert (Hv : forall y, instance w r nm y -> exists z, inst_value y (relab g w) = Ok z /\ inst_reads_as u z).
  { intros y Hy. assert (Hye : element y w) by (rewrite <- H2 in Hy; by apply (proj1 (@Forall_forall N _ _) H3)).
    destruct (element_data w y Hw Hye) as [d E]. apply (inst_value_shows u s y _ d Hs). rewrite relab_data, E. cbn. f_equal.
    unfold g, final. rewrite <- H2 in Hy. by rewrite decide_True. }
  assert (Hu : forall z z', inst_reads_as u z -> inst_reads_as u z' -> z = z').
  { clear. intros z z'. destruct u; cbn; naive_solver congruence. }
  unfold get_value. cbn [v_kind v_node]. unfold simple_value. rewrite instances_relab by done. rewrite H1. cbn [rbind].
  split.
  - intros (y0 & Hy0). rewrite <- H2 in Hy0. destruct l as [|y l]; [by apply elem_of_nil in Hy0|].
    replace (py_get (y :: l) 0) with (Ok y) by (rewrite py_get_pos; done). cbn [rbind].
    destruct (Hv y) as (z & Hz & Hz'); [apply H2; left|]. exists z. split_and!; [done|done|].
    intros y' _ Hy'. destruct (Hv y' Hy') as (z' & -> & Hz2). f_equal. by apply Hu.
  - intros Hno. destruct l as [|y l]; [done|]. exfalso. apply (Hno y). apply H2. left.
Qed.
Print Assumptions C48_simple_get.

(** In any document: a variable reads as its first instance, where elements that set it come
    before those that show it and these before those that ask for it. *)
Theorem C48_simple_read `{F : PyFloat} (odd : N -> string -> pystr -> node -> res (list N))
    (w : node) (v : variable) (r : N) (nm : pystr) :
  v_kind v = Simple -> declared w v r nm ->
  (exists y, first_instance w r nm y /\ forall n, get_value odd v w = get_value odd (Var Inst y n) w) \/
  ((forall y, ~ instance w r nm y) /\ get_value odd v w = Err IndexError).
Proof.
  destruct v as [k x nmo]. cbn [v_kind]. intros -> (Hw & Hx & Hd & Hr & Hn & Hq). cbn [v_node v_name] in *. subst nmo.
  destruct (instances_first odd Simple x (Some nm) nm r w Hw Hx Hr eq_refl Hq) as (l & E & H1 & H2).
  unfold get_value. cbn [v_kind v_node]. unfold simple_value. rewrite E. cbn [rbind]. destruct l as [|y l].
  - right. split; [|done]. intros y Hy. apply H1 in Hy. by apply elem_of_nil in Hy.
  - left. exists y. split; [by apply H2|]. intros _. by rewrite py_get_pos.
Qed.
Print Assumptions C48_simple_read.

(** Assigning to a user field stores the value in the declaration, and in the instances of the
    variable (not user field) of that name; empty values are refused after the instances have
    been written. *)
Theorem C48_user_set `{F : PyFloat} (odd : N -> string -> pystr -> node -> res (list N))
    (w : node) (v : variable) (r : N) (nm : pystr) (u : pyval) (s sa : pystr) :
  v_kind v = User -> declared w v r nm -> shown u s -> attr_text u sa ->
  exists w' res, put_value odd u v w = (w', res) /\ same_places w w' /\
    (forall y, instance w r nm y -> data y w' = shows u s <$> data y w) /\
    (forall y, ~ instance w r nm y -> y <> v_node v -> data y w' = data y w) /\
    (~ falsy u -> res = Ok tt /\
       data (v_node v) w' = set_attr_of "office:value-type" (office_type u) ∘ set_attr_of (value_attr u) sa <$> data (v_node v) w) /\
    (falsy u -> res = Err ValueError /\ data (v_node v) w' = data (v_node v) w).
Proof.
  destruct v as [k x nmo]. cbn [v_kind v_node]. intros -> (Hw & Hx & Hd & Hr & Hn & Hq) Hs Hsa. cbn [v_node v_name] in *. subst nmo.
  destruct (setup odd User x (Some nm) nm r w Hw Hx Hd Hr eq_refl Hq) as (l & H1 & H2 & H3 & H4).
  unfold put_value. cbn [v_kind]. pose proof (set_user_eq odd User x (Some nm) w l Hw Hx Hq H1 H3 H4 u) as E. cbv zeta in E. rewrite E. clear E.
  rewrite (shown_tostr u s) by done.
  assert (Hfin : forall f q, same_places w (relab (final x l f (shows u s)) w) /\
    (forall y, instance w r nm y -> data y (relab (final x l f (shows u s)) w) = shows u s <$> data y w) /\
    (forall y, ~ instance w r nm y -> y <> x -> data y (relab (final x l f (shows u s)) w) = data y w) /\
    data x (relab (final x l f (shows u s)) w) = f <$> data x w /\ q = q :> PyBase.res unit).
  { intros f q. split_and!; [by apply relab_same| | | |done].
    - intros y Hy. rewrite final_data. rewrite <- H2 in Hy. by rewrite decide_True.
    - intros y Hy Hne. rewrite final_data. rewrite <- H2 in Hy. by rewrite !decide_False by done.
    - rewrite final_data. by rewrite decide_False, decide_True by done. }
  assert (Hc : forall (b : bool) key t, (b = true -> ~ falsy u) -> (b = false -> falsy u) -> value_attr u = key -> t = sa ->
    exists w' res, (if b then (relab (final x l (fun d => set_attr_of VALUE_TYPE (office_type u) (set_attr_of key t d)) (shows u s)) w, Ok tt)
       else (relab (final x l (fun d => d) (shows u s)) w, Err ValueError)) = (w', res) /\ same_places w w' /\
    (forall y, instance w r nm y -> data y w' = shows u s <$> data y w) /\
    (forall y, ~ instance w r nm y -> y <> x -> data y w' = data y w) /\
    (~ falsy u -> res = Ok tt /\
       data x w' = set_attr_of "office:value-type" (office_type u) ∘ set_attr_of (value_attr u) sa <$> data x w) /\
    (falsy u -> res = Err ValueError /\ data x w' = data x w)).
  { intros b key t Hb1 Hb2 Hk ->. rewrite Hk. destruct b; eexists _, _; (split; [reflexivity|]).
    - destruct (Hfin (fun d => set_attr_of VALUE_TYPE (office_type u) (set_attr_of key sa d)) (Ok tt)) as (F1 & F2 & F3 & F4 & _).
      split_and!; [done|done|done|by intros _|]. intros Hf. by destruct (Hb1 eq_refl).
    - destruct (Hfin (fun d => d) (Ok tt)) as (F1 & F2 & F3 & F4 & _).
      split_and!; [done|done|done|intros Hf; by destruct (Hf (Hb2 eq_refl))|]. intros _. split; [done|]. rewrite F4.
      by destruct (data x w). }
  destruct u as [|b|z|f|t|t b|e]; cbn [shown attr_text] in Hs, Hsa; try done.
  - apply (Hc false "office:string-value"%string sa); [done|done|done|done].
  - apply (Hc true); [by intros _ ?|done|done|congruence].
  - apply (Hc (truth (VInt z))); [|..]; cbn [truth value_attr]; [rewrite bool_decide_eq_true|rewrite bool_decide_eq_false|done|congruence].
    + by intros H ?.
    + cbn. intros H. destruct (decide (z = 0%Z)); done.
  - apply (Hc (truth (VFloat f))); cbn; [intros H|done|done|congruence]. congruence.
  - apply (Hc (truth (VStr t))); [|..]; cbn [truth value_attr]; [rewrite bool_decide_eq_true|rewrite bool_decide_eq_false|done|congruence].
    + by intros H ?.
    + cbn. intros H. destruct (decide (t = [])); done.
  - apply (Hc (truth (VObj t b))); cbn; [intros H|done|done|congruence]. congruence.
Qed.
Print Assumptions C48_user_set.

(** The value is then read back, booleans too. *)
Theorem C48_user_get `{F : PyFloat} (odd : N -> string -> pystr -> node -> res (list N))
    (w : node) (v : variable) (r : N) (nm : pystr) (u : pyval) (s : pystr) :
  v_kind v = User -> declared w v r nm -> shown u s -> ~ falsy u ->
  exists z, get_value odd v (put_value odd u v w).1 = Ok z /\ reads_as u z.
Proof.
  intros Hk Hd Hs Hf. assert (exists sa, attr_text u sa) as [sa Hsa] by (destruct u; cbn in *; eauto).
  destruct (C48_user_set odd w v r nm u s sa Hk Hd Hs Hsa) as (w' & q & E & _ & _ & _ & H & _). rewrite E. cbn [fst].
  destruct (H Hf) as [_ Hx]. destruct v as [k x nmo]. cbn [v_kind v_node] in *. subst k.
  destruct Hd as (Hw & Hx' & _). cbn [v_node] in Hx'. destruct (element_data w x Hw Hx') as [d Ed]. rewrite Ed in Hx. cbn in Hx.
  unfold get_value. cbn [v_kind]. rewrite (user_value_data User x nmo w' _ Hx). cbn [attrs set_attr_of]. rewrite lookup_insert.
  destruct u as [|b|z|f|t|t b|e]; cbn [office_type value_attr]; cbn in Hs, Hsa, Hf; try done.
  - exists (VBool b). split; [|done]. rewrite decide_True by done. do 2 f_equal.
    rewrite lookup_insert_ne, lookup_insert by done. subst sa. destruct b; [by apply bool_decide_eq_true|by apply bool_decide_eq_false].
  - destruct (f_parse_int z) as [f Hp]. exists (VFloat f). split; [|by exists f]. rewrite !decide_False by done.
    rewrite lookup_insert_ne, lookup_insert by done. subst sa. by rewrite Hp.
  - exists (VFloat f). split; [|done]. rewrite !decide_False by done. rewrite lookup_insert_ne, lookup_insert by done. subst sa.
    by rewrite f_parse_repr.
  - exists (VStr t). split; [|by exists t]. rewrite decide_False, decide_True by done. rewrite lookup_insert_ne, lookup_insert by done. by subst.
  - exists (VStr t). split; [|by exists t]. rewrite decide_False, decide_True by done. rewrite lookup_insert_ne, lookup_insert by done. by subst.
Qed.
Print Assumptions C48_user_get.

(** Assigning to the type *)
Theorem C48_type `{F : PyFloat} (odd : N -> string -> pystr -> node -> res (list N))
    (w : node) (v : variable) (r : N) (nm : pystr) (t : pyval) (s : pystr) :
  v_kind v <> Inst -> declared w v r nm -> shown t s ->
  (s <> [] -> exists w', set_type odd t v w = (w', Ok tt) /\ same_places w w' /\
     (forall y, y = v_node v \/ instance w r nm y ->
        data y w' = set_attr_of "office:value-type" s <$> data y w /\ var_type y w' = VStr s) /\
     (forall y, ~ instance w r nm y -> y <> v_node v -> data y w' = data y w)) /\
  (s = [] -> set_type odd t v w = (w, Err ValueError)).
Proof.
  destruct v as [k x nmo]. cbn [v_kind v_node]. intros Hk (Hw & Hx & Hd & Hr & Hn & Hq) Hs. cbn [v_node v_name] in *. subst nmo.
  destruct (setup odd k x (Some nm) nm r w Hw Hx Hd Hr eq_refl Hq) as (l & H1 & H2 & H3 & H4).
  assert (E : set_type odd t (Var k x (Some nm)) w = set_decl_type odd t (Var k x (Some nm)) w) by (unfold set_type; cbn; by destruct k).
  rewrite E, (set_decl_type_eq odd k x (Some nm) w l) by done. rewrite (shown_tostr t s) by done. split.
  - intros Hne. rewrite decide_False by done. eexists. split; [reflexivity|]. split_and!.
    + by apply relab_same.
    + intros y Hy.
      assert (Hdy : data y (relab (final x l (set_attr_of VALUE_TYPE s) (set_attr_of VALUE_TYPE s)) w) = set_attr_of VALUE_TYPE s <$> data y w).
      { rewrite final_data. rewrite <- H2 in Hy. destruct Hy as [->|Hy]; [by rewrite decide_False, decide_True|by rewrite decide_True]. }
      split; [done|]. unfold var_type, get_attr. rewrite self_data, Hdy.
      assert (Hye : element y w) by (rewrite <- H2 in Hy; destruct Hy as [->|Hy]; [done|by apply (proj1 (@Forall_forall N _ _) H3)]).
      destruct (element_data w y Hw Hye) as [d ->]. cbn. unfold e_get, e_attrs. cbn. by rewrite lookup_insert.
    + intros y Hy Hyx. rewrite final_data. rewrite <- H2 in Hy. by rewrite !decide_False.
  - intros ->. by rewrite decide_True.
Qed.
Print Assumptions C48_type.

(** Any sequence of assignments: a variable or user field has the value that was assigned last,
    whatever was assigned to others before and after. *)
Theorem C48_history `{F : PyFloat} (odd : N -> string -> pystr -> node -> res (list N))
    (w : node) (before after : list (variable * pyval)) (v : variable) (r : N) (nm : pystr) (u : pyval) (s : pystr) :
  v_kind v <> Inst -> declared w v r nm -> shown u s ->
  Forall (fun a => v_kind a.1 <> Inst /\ exists r' nm', declared w a.1 r' nm') (before ++ after) ->
  Forall (fun a => v_node a.1 <> v_node v /\ v_name a.1 <> v_name v) after ->
  let w1 := foldl (assign odd) w before in
  let w2 := foldl (assign odd) w (before ++ (v, u) :: after) in
  get_value odd v w2 = get_value odd v (put_value odd u v w1).1 /\
  (v_kind v = User -> ~ falsy u -> exists z, get_value odd v w2 = Ok z /\ reads_as u z) /\
  (v_kind v = Simple -> (exists y, instance w r nm y) -> exists z, get_value odd v w2 = Ok z /\ inst_reads_as u z).
Proof.
  intros Hk Hd Hs Hall Haft w1 w2.
  (* every assignment keeps names and places *)
  assert (Hstep : forall g a, keeps g -> v_kind a.1 <> Inst -> (exists r' nm', declared w a.1 r' nm') ->
    exists g', assign odd (relab g w) a = relab g' w /\ keeps g' /\
      (v_node a.1 <> v_node v -> v_name a.1 <> v_name v -> forall y d, y = v_node v \/ instance w r nm y -> g' y d = g y d)).
  { intros g [[k x nmo] ua] Hg Hka (r' & nm' & Hw & Hx & Hdx & Hr & Hn & Hq). cbn [v_kind v_node v_name fst] in *. subst nmo.
    destruct (put_effect odd k x (Some nm') nm' r' (relab g w) ua) as (h & E & Hh & Hi); [done|by apply relab_wfs|by rewrite relab_element
      |by rewrite declaration_relab|by rewrite topmost_relab|done|done|].
    exists (fun y d => h y (g y d)). unfold assign. cbn [fst snd]. rewrite E, relab_relab. split_and!; [done| |].
    - intros y d. destruct (Hh y (g y d)) as [-> ->]. apply Hg.
    - intros Hne Hnm y d Hy. destruct Hd as (_ & _ & Hdv & _ & Hvn & _). apply Hi.
      + rewrite instance_relab by done. intros Hin. destruct Hy as [->|Hy].
        * by apply (instance_not_decl w r' nm' (v_node v)).
        * apply Hnm. rewrite Hvn. f_equal. by apply (instance_name w r' r nm' nm y).
      + destruct Hy as [->|Hy]; [done|]. intros ->. by apply (instance_not_decl w r nm x). }
  apply Forall_app in Hall as [Hb Ha].
  assert (Hbefore : exists g, w1 = relab g w /\ keeps g).
  { assert (Hrun : forall g, keeps g -> exists g', foldl (assign odd) (relab g w) before = relab g' w /\ keeps g').
    2:{ destruct (Hrun (fun _ d => d)) as (g & E & Hg); [by intros y d|]. rewrite relab_id in E. by exists g. }
    clear w1 w2 Haft Ha.
    induction before as [|a l IH]; intros g Hg; [by exists g|]. apply Forall_cons in Hb as [[Ha1 Ha2] Hb]. cbn [foldl].
    destruct (Hstep g a Hg Ha1 Ha2) as (g' & E & Hg' & _). rewrite E. by apply IH. }
  destruct Hbefore as (g & Eg & Hg).
  assert (Hd1 : declared w1 v r nm).
  { rewrite Eg. destruct Hd as (H1 & H2 & H3 & H4 & H5 & H6). split_and!; [by apply relab_wfs|by rewrite relab_element
      |by rewrite declaration_relab|by rewrite topmost_relab|done|done]. }
  assert (Hafter : forall g, keeps g -> exists g', foldl (assign odd) (relab g w) after = relab g' w /\ keeps g' /\
    forall y d, y = v_node v \/ instance w r nm y -> g' y d = g y d).
  { clear w1 w2 Eg g Hg Hd1 Hb. clear before. induction after as [|a l IH]; intros g Hg; [by exists g|]. apply Forall_cons in Ha as [[Ha1 Ha2] Ha].
    apply Forall_cons in Haft as [[Hf1 Hf2] Haft]. cbn [foldl]. destruct (Hstep g a Hg Ha1 Ha2) as (g' & E & Hg' & Hi). rewrite E.
    destruct (IH Ha Haft g' Hg') as (g2 & E2 & Hg2 & Hi2). exists g2. split_and!; [done|done|]. intros y d Hy. rewrite Hi2 by done. by apply Hi. }
  assert (Hval : get_value odd v w2 = get_value odd v (put_value odd u v w1).1).
  { unfold w2. rewrite foldl_app. cbn [foldl]. fold w1. unfold assign at 2. cbn [fst snd].
    destruct v as [k x nmo]. cbn [v_kind v_node v_name] in *. destruct Hd1 as (F1 & F2 & F3 & F4 & F5 & F6). cbn [v_node v_name] in *. subst nmo.
    destruct (put_effect odd k x (Some nm) nm r w1 u Hk F1 F2 F3 F4 eq_refl F6) as (h & Eh & Hh & _).
    rewrite Eh. rewrite Eg, relab_relab.
    assert (Hgh : keeps (fun y d => h y (g y d))) by (intros y d; destruct (Hh y (g y d)) as [-> ->]; apply Hg).
    destruct (Hafter _ Hgh) as (g' & E' & Hg' & Hi). rewrite E'. destruct Hd as (H1 & H2 & H3 & H4 & H5 & H6). cbn [v_node] in *.
    destruct (setup odd k x (Some nm) nm r w H1 H2 H3 H4 eq_refl H6) as (l & G1 & G2 & G3 & G4).
    unfold get_value. cbn [v_kind]. destruct k; [| |done].
    - unfold simple_value. rewrite !instances_relab by done. rewrite G1. cbn [rbind]. destruct l as [|y l]; [done|].
      replace (py_get (y :: l) 0) with (Ok y) by (rewrite py_get_pos; done). cbn [rbind].
      apply Forall_cons in G3 as [Hy _]. destruct (element_data w y H1 Hy) as [d Ey].
      rewrite !(inst_value_data y _ (h y (g y d))); [done| |]; rewrite relab_data, Ey; [done|]. cbn. f_equal. apply Hi. right. apply G2. left.
    - destruct (element_data w x H1 H2) as [d Ex]. rewrite !(user_value_data User x (Some nm) _ (h x (g x d))); [done| |];
        rewrite relab_data, Ex; [done|]. cbn. f_equal. apply Hi. by left. }
  split_and!; [done| |].
  - intros Hu Hf. rewrite Hval. by apply (C48_user_get odd w1 v r nm u s).
  - intros Hsi [y Hy]. rewrite Hval. destruct (C48_simple_get odd w1 v r nm u s Hsi Hd1 Hs) as [H _].
    destruct H as (z & Hz1 & Hz2 & _); [|by exists z]. exists y. rewrite Eg. by rewrite instance_relab.
Qed.
Print Assumptions C48_history.

(** The container: a name is the last child with that name, remembered from the construction;
    names that are no child's are taken as positions. *)
Theorem C48_lookup `{U : Unicode} `{F : PyFloat} (x : N) (w : node) :
  let named c := exists d, data c w = Some d /\
    tag d ∈ ["text:variable-decl"; "text:user-field-decl"; "text:variable-set"; "text:variable-get"; "text:variable-input";
             "text:user-field-set"; "text:user-field-get"; "text:user-field-input"]%string in
  let name c := data c w ≫= (fun d => attrs d !! "text:name"%string) in
  (~ Forall named (children x w) -> new_variables x w = Err AttributeError) /\
  (Forall named (children x w) -> exists vs, new_variables x w = Ok vs /\ vs_node vs = x /\
     (forall l c l' s, children x w = l ++ c :: l' -> name c = Some s -> Forall (fun c' => name c' <> Some s) l' ->
        exists k, vs_contains vs (KStr s) = true /\
          (forall w', vs_get vs (KStr s) w' = Ok (inl (Var k c (Some s)))) /\
          (forall odd w' u, vs_set odd vs (KStr s) u w' = put_value odd u (Var k c (Some s)) w') /\
          (k = Simple <-> tag <$> data c w = Some "text:variable-decl"%string) /\
          (k = User <-> tag <$> data c w = Some "text:user-field-decl"%string)) /\
     (forall s, Forall (fun c => name c <> Some s) (children x w) ->
        vs_contains vs (KStr s) = false /\
        forall w', vs_get vs (KStr s) w' =
          match py_int s with
          | Ok i => match at_pos i (children x w') with Some c => Ok (inr c) | None => Err IndexError end
          | Err e => Err e
          end) /\
     (** an assignment to them is refused *)
     (forall s, Forall (fun c => name c <> Some s) (children x w) -> forall odd u w',
        vs_set odd vs (KStr s) u w' =
          (w', Err match py_int s with
                   | Ok i => match at_pos i (children x w') with Some _ => AttributeError | None => IndexError end
                   | Err e => e
                   end))).
Proof.
  intros named name. unfold new_variables. change (wr_iter x w) with (map nid (el_kids x w)). rewrite el_kids_children.
  pose proof (collect_spec (children x w) w ∅) as H.
  assert (Hnm : forall c, is_Some (vkind_of (e_tag (self c w))) <-> named c).
  { intros c. unfold named. rewrite self_data. destruct (data c w) as [d|]; cbn [e_tag root].
    - unfold e_tag. cbn [root]. split.
      + intros Hc. exists d. split; [done|]. unfold vkind_of in Hc. repeat case_decide; try (by destruct Hc); set_solver.
      + intros (d' & [= <-] & Ht). unfold vkind_of. case_decide as E1; [by eexists|]. case_decide as E2; [by eexists|].
        rewrite decide_True; [by eexists|]. set_solver.
    - split; [|by intros (d & ? & _)]. intros Hc. destruct Hc as [k Hc]. by vm_compute in Hc. }
  assert (Hnm' : forall l, Forall (fun c => is_Some (vkind_of (e_tag (self c w)))) l <-> Forall named l).
  { intros l. rewrite !Forall_forall. by setoid_rewrite Hnm. }
  assert (Hg : forall c, e_get "text:name" (self c w) = name c).
  { intros c. unfold name. rewrite self_data. destruct (data c w); [done|]. done. }
  destruct (collect (children x w) w ∅) as [d|e]; rewrite Hnm' in H; destruct H as [H1 H2].
  - split; [done|]. intros _. exists (Vars x d). split_and!; [done|done| | |].
    + intros l c l' s El Hc Hl'. unfold vs_contains, vs_get, vs_set, lookup_key. cbn [vs_dict]. rewrite H2, El.
      rewrite filter_app, filter_cons. rewrite decide_True by (by rewrite Hg).
      replace (filter (fun x => e_get "text:name" (self x w) = Some s) l') with (@nil N).
      2:{ symmetry. clear -Hl' Hg. induction Hl' as [|y l Hy _ IH]; [done|]. rewrite filter_cons, decide_False, IH; [done|]. by rewrite Hg. }
      rewrite last_snoc. unfold child_var.
      assert (Hk : named c) by (rewrite El in H1; apply Forall_app in H1 as [_ H1]; by apply Forall_cons in H1 as [? _]).
      apply Hnm in Hk as Hk'. destruct Hk' as [k Ek]. rewrite (new_variable_ok c w k) by done. rewrite Hg, Hc.
      exists k. split_and!; [by apply bool_decide_eq_true_2|done|done| |].
      * destruct Hk as (dc & Ed & Ht). rewrite Ed. cbn. rewrite self_data, Ed in Ek. unfold e_tag in Ek. cbn [root] in Ek.
        unfold vkind_of in Ek. split; [intros ->|intros [= E]]; repeat case_decide; congruence.
      * destruct Hk as (dc & Ed & Ht). rewrite Ed. cbn. rewrite self_data, Ed in Ek. unfold e_tag in Ek. cbn [root] in Ek.
        unfold vkind_of in Ek. split; [intros ->|intros [= E]]; repeat case_decide; congruence.
    + intros s Hs. unfold vs_contains, vs_get, lookup_key. cbn [vs_dict vs_node int_key]. rewrite H2.
      replace (filter (fun x => e_get "text:name" (self x w) = Some s) (children x w)) with (@nil N).
      2:{ symmetry. clear -Hs Hg. induction Hs as [|y l Hy _ IH]; [done|]. rewrite filter_cons, decide_False, IH; [done|]. by rewrite Hg. }
      cbn [last]. rewrite lookup_empty. split; [by apply bool_decide_eq_false_2; intros []|]. intros w'.
      destruct (py_int s) as [i|]; [|done]. cbn [rbind]. unfold get_child. rewrite el_get_eq. cbn [snd].
      by destruct (at_pos i (children x w')).
    + intros s Hs odd u w'. unfold vs_set, lookup_key. cbn [vs_dict vs_node int_key]. rewrite H2.
      replace (filter (fun x => e_get "text:name" (self x w) = Some s) (children x w)) with (@nil N).
      2:{ symmetry. clear -Hs Hg. induction Hs as [|y l Hy _ IH]; [done|]. rewrite filter_cons, decide_False, IH; [done|]. by rewrite Hg. }
      cbn [last]. rewrite lookup_empty.
      destruct (py_int s) as [i|]; [|done]. cbn [rbind]. unfold get_child. rewrite el_get_eq. cbn [snd].
      by destruct (at_pos i (children x w')).
  - split; [by intros _; rewrite H1|]. intros Hn. by destruct H2.
Qed.
Print Assumptions C48_lookup.

(** ** Cases *)
Section cases.
Local Existing Instance ascii_unicode.
Local Existing Instance int_float.
Definition fig48 (x : N) (t : string) (nm : option string) (s : string) (ks : list node) : node :=
  T (L x (Nd t (match nm with Some n => {["text:name"%string := lit n]} | None => ∅ end) (Some (lit s)) None)) ks.
(** a document with the variable "a", shown three times, the user field "b", shown once, and a
    variable "b", shown once *)
Definition w48 : node :=
  fig48 0 "" None "" [fig48 1 "office:text" None ""
    [fig48 2 "text:variable-decls" None "" [fig48 3 "text:variable-decl" (Some "a") "" []];
     fig48 4 "text:user-field-decls" None "" [fig48 5 "text:user-field-decl" (Some "b") "" []];
     fig48 6 "text:p" None "p" [fig48 7 "text:variable-get" (Some "a") "old" [];
                                fig48 8 "text:variable-set" (Some "a") "old" [fig48 9 "text:span" None "" []]];
     fig48 10 "text:variable-input" (Some "a") "old" [];
     fig48 11 "text:user-field-get" (Some "b") "old" [];
     fig48 12 "text:variable-get" (Some "b") "old" []]].
Definition odd48 : N -> string -> pystr -> node -> res (list N) := fun _ _ _ _ => Err ValueError.
Definition va48 : variable := Var Simple 3 (Some (lit "a")).
Definition vb48 : variable := Var User 5 (Some (lit "b")).
Lemma w48_wfs : wfs w48.
Proof. unfold wfs. dec_vm. Qed.
Lemma w48_element x : x ∈ [1; 2; 3; 4; 5; 6; 7; 8; 9; 10; 11; 12]%N -> element x w48.
Proof. intros H. unfold element. change (flat_map ids (kids w48)) with [1; 2; 3; 4; 5; 6; 7; 8; 9; 10; 11; 12]%N. done. Qed.
Ltac el48 := apply w48_element; dec_vm.
Lemma w48_up x : x ∈ [1; 2; 3; 4; 5; 6; 7; 8; 9; 10; 11; 12]%N -> upwards w48 1 x.
Proof.
  intros H. apply (above_spec w48 1 x w48_wfs); [el48|]. unfold above.
  replace (sub 1 w48) with (Some (hd w48 (kids w48))) by by_vm. apply bool_decide_eq_true_2.
  replace (ids (hd w48 (kids w48))) with [1; 2; 3; 4; 5; 6; 7; 8; 9; 10; 11; 12]%N by by_vm. done.
Qed.
Lemma w48_top x : x ∈ [1; 2; 3; 4; 5; 6; 7; 8; 9; 10; 11; 12]%N -> topmost w48 1 x.
Proof.
  intros H. split_and!; [by apply w48_up|el48|]. intros p Hp Hc.
  assert (E : getparent 1 w48 = Some p) by (by apply getparent_spec; [apply w48_wfs|]). vm_compute in E. done.
Qed.
Lemma va48_declared : declared w48 va48 1 (lit "a").
Proof.
  split_and!; [apply w48_wfs|el48| |apply w48_top; dec_vm|done|dec_vm].
  eexists. split; [reflexivity|by left].
Qed.
Lemma vb48_declared : declared w48 vb48 1 (lit "b").
Proof.
  split_and!; [apply w48_wfs|el48| |apply w48_top; dec_vm|done|dec_vm].
  eexists. split; [reflexivity|by right].
Qed.
Lemma w48_instance y : y ∈ [7; 8; 10]%N -> instance w48 1 (lit "a") y.
Proof.
  intros H. split_and!.
  - apply w48_up. set_solver.
  - set_solver.
  - repeat (apply elem_of_cons in H as [->|H]; [eexists; split_and!; [reflexivity|by_vm|auto]|]); by apply elem_of_nil in H.
Qed.

Example C48_simple_set_case :
  v_kind va48 = Simple /\ declared w48 va48 1 (lit "a") /\ shown (VStr (lit "new")) (lit "new") /\
  instance w48 1 (lit "a") 8 /\ instance w48 1 (lit "a") 10 /\
  text <$> data 8 (put_value odd48 (VStr (lit "new")) va48 w48).1 = Some (Some (lit "new")).
Proof. split_and!; [done|apply va48_declared|done|apply w48_instance; dec_vm|apply w48_instance; dec_vm|by_vm]. Qed.
Example C48_simple_get_case :
  v_kind va48 = Simple /\ declared w48 va48 1 (lit "a") /\ shown (VInt (-7)) (lit "-7") /\
  (exists y, instance w48 1 (lit "a") y) /\
  get_value odd48 va48 (put_value odd48 (VInt (-7)) va48 w48).1 = Ok (VFloat (-7)%Z).
Proof. split_and!; [done|apply va48_declared|cbn [shown]; by_vm|exists 8%N; apply w48_instance; dec_vm|by_vm]. Qed.
Example C48_simple_read_case :
  let w := (set_inst_value (VStr (lit "set")) 8 w48).1 in
  v_kind va48 = Simple /\ declared w48 va48 1 (lit "a") /\ instances odd48 va48 w48 = Ok [8; 7; 10]%N /\
  get_value odd48 va48 w = Ok (VStr (lit "set")) /\ get_value odd48 (Var Inst 7 None) w = Ok (VStr (lit "old")).
Proof. cbv zeta. split_and!; [done|apply va48_declared|by_vm|by_vm|by_vm]. Qed.
Example C48_user_set_case :
  v_kind vb48 = User /\ declared w48 vb48 1 (lit "b") /\ shown (VBool true) (lit "True") /\ attr_text (VBool true) (lit "true") /\
  ~ falsy (VBool true) /\ falsy (VStr []) /\ falsy (VInt 0).
Proof. split_and!; [done|apply vb48_declared|done|done|by intros ?|done|done]. Qed.
Example C48_user_get_case :
  v_kind vb48 = User /\ declared w48 vb48 1 (lit "b") /\
  get_value odd48 vb48 (put_value odd48 (VBool true) vb48 w48).1 = Ok (VBool true) /\
  get_value odd48 vb48 (put_value odd48 (VStr (lit "x")) vb48 w48).1 = Ok (VStr (lit "x")).
Proof. split_and!; [done|apply vb48_declared|by_vm|by_vm]. Qed.
Example C48_type_case :
  v_kind va48 <> Inst /\ declared w48 va48 1 (lit "a") /\ shown (VStr (lit "date")) (lit "date") /\
  var_type 7 (set_type odd48 (VStr (lit "date")) va48 w48).1 = VStr (lit "date") /\
  set_type odd48 (VStr []) va48 w48 = (w48, Err ValueError).
Proof.
  split_and!; [done|apply va48_declared|done|by_vm|].
  apply (C48_type odd48 w48 va48 1 (lit "a") (VStr []) []); [done|apply va48_declared|done|done].
Qed.
Example C48_history_case :
  let before := [(va48, VBool true); (vb48, VStr [])] in
  let after := [(vb48, VInt 3); (vb48, VNone)] in
  Forall (fun a => v_kind a.1 <> Inst /\ exists r' nm', declared w48 a.1 r' nm') (before ++ after) /\
  Forall (fun a => v_node a.1 <> v_node va48 /\ v_name a.1 <> v_name va48) after /\
  get_value odd48 va48 (foldl (assign odd48) w48 (before ++ (va48, VStr (lit "z")) :: after)) = Ok (VStr (lit "z")).
Proof.
  intros before after. split_and!.
  - repeat constructor; try done; cbn [fst]; eexists _, _; (apply va48_declared || apply vb48_declared).
  - repeat constructor; done.
  - by_vm.
Qed.
Example C48_lookup_case :
  match new_variables 2 w48 with
  | Ok vs => vs_get vs (KStr (lit "a")) w48 = Ok (inl va48) /\ vs_get vs (KStr (lit " 0")) w48 = Ok (inr 3%N) /\
             vs_get vs (KStr (lit "b")) w48 = Err ValueError /\ vs_get vs (KInt (-1)) w48 = Ok (inr 3%N)
  | Err _ => False
  end /\ new_variables 1 w48 = Err AttributeError.
Proof. vm_compute. done. Qed.
End cases.

(** True assigned to a variable is read as False. *)
Theorem C48_boolean_counterexample :
  exists (w : node) (v : variable) (r : N) (nm : pystr),
    declared w v r nm /\ (exists y, instance w r nm y) /\
    (put_value (F := int_float) odd48 (VBool true) v w).2 = Ok tt /\
    get_value (F := int_float) odd48 v (put_value (F := int_float) odd48 (VBool true) v w).1 = Ok (VBool false).
Proof.
  exists w48, va48, 1%N, (lit "a"). split_and!; [apply va48_declared|exists 8%N; apply w48_instance; dec_vm|by_vm|by_vm].
Qed.
Print Assumptions C48_boolean_counterexample.

(** The elements that show a user field are not written; those of a variable of the same name
    are, even if the value is then refused. *)
Theorem C48_user_counterexample :
  exists (w : node) (v : variable) (r : N) (nm : pystr) (y y' : N) (d d' : nd),
    declared w v r nm /\ v_kind v = User /\
    data y w = Some d /\ tag d = "text:user-field-get"%string /\ attrs d !! "text:name"%string = Some nm /\ upwards w r y /\
    data y (put_value (F := int_float) odd48 (VStr (lit "new")) v w).1 = Some d /\
    text d <> Some (lit "new") /\
    data y' w = Some d' /\ tag d' = "text:variable-get"%string /\ text d' <> Some [] /\
    (put_value (F := int_float) odd48 (VStr []) v w).2 = Err ValueError /\
    text <$> data y' (put_value (F := int_float) odd48 (VStr []) v w).1 = Some (Some []).
Proof.
  eexists w48, vb48, 1%N, (lit "b"), 11%N, 12%N, _, _.
  split_and!; [apply vb48_declared|done|reflexivity|done|by_vm|apply w48_up; dec_vm| | |reflexivity|done|..].
  all: try by_vm.
  all: vm_compute; done.
Qed.
Print Assumptions C48_user_counterexample.
