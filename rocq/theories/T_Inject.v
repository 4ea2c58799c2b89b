(** C61: injected styles. *)
From Verif Require Import InjectProofs.

(** Whatever has been looked up, assigned and injected: the first element of the text becomes
    the last style of the document, whole, and nothing that was there changes; the rest of the
    text is ignored, and so is [wh].  Then every name that was not assigned is looked up as
    before, except that the new style is found if there was none of its name. *)
Theorem C61_inject `{XmlParser} (x : N) (w : node) (n : N) (l : list (option pystr)) (s : ist) (text wh : pystr) (e : elem) (es : list elem) :
  starts x w n -> reached x w n l s ->
  xml_parts text = Ok (e :: es) -> style_like e -> e_tag e <> "style:page-layout"%string ->
  exists c s', inject_style x text wh s = (s', Ok tt) /\
    injected x c e (tree_of (cont s)) (tree_of (cont s')) /\
    forall m, m ∉ l ->
      finds (tree_of (cont s')) x m (s_get x m (cont s')).2 /\
      (forall y, first_named (tree_of (cont s)) x m y ->
         first_named (tree_of (cont s')) x m y /\ (s_get x m (cont s')).2 = (s_get x m (cont s)).2) /\
      (unnamed (tree_of (cont s)) x m -> e_get "style:name" e = m -> (s_get x m (cont s')).2 = Ok c) /\
      (unnamed (tree_of (cont s)) x m -> e_get "style:name" e <> m -> (s_get x m (cont s')).2 = Err KeyError).
Proof.
  intros Hs Hr E _ Hp. pose proof (reached_inv x w n l s Hs Hr) as Hi.
  destruct (inject_first x l s text wh e es Hi E) as [[? _]|(_ & c & s' & -> & Hin & Hi' & Hc)]; [done|].
  exists c, s'. split_and!; [done|done|]. intros m Hm.
  assert (Hget : forall s, iinv x l s -> finds (tree_of (cont s)) x m (s_get x m (cont s)).2).
  { intros [[w1 ca] u] [I1 I2 I3 I4 I5]. cbn [cont tree_of cache] in *.
    destruct (s_get_ok x m w1 ca I1 I4) as (c' & r & -> & Hf & _); [|done]. intros o Ho. apply Hm. by apply (I5 m o). }
  pose proof (Hget s Hi) as H0. pose proof (Hget s' Hi') as H1. destruct Hin as (J1 & J2 & J3 & J4 & J5).
  set (w0 := tree_of (cont s)) in *. set (w1 := tree_of (cont s')) in *.
  assert (Hd : forall y, element y w0 -> data y w1 = data y w0) by (intros y Hy; by destruct (J5 y Hy)).
  assert (Hnc : name_of w1 c = e_get "style:name" e /\ tag <$> data c w1 = Some (e_tag e)).
  { unfold name_of, data. destruct (sub c w1) as [t|]; [|done]. injection J4 as <-. by destruct t. }
  destruct Hnc as [Hnc Htc].
  assert (Hnm : forall z, z ∈ children x w0 -> name_of w1 z = name_of w0 z).
  { intros z Hz. unfold name_of. rewrite Hd; [done|]. by apply (child_element w0 x). }
  split_and!; [done| | |].
  - intros y Hy. pose proof (first_same w0 w1 x [c] J3 Hd m y Hy) as Hy'. split; [done|].
    assert (Hpl : is_page_layout w1 y <-> is_page_layout w0 y).
    { unfold is_page_layout. rewrite Hd; [done|]. apply first_in in Hy. by apply (child_element w0 x). }
    destruct H0 as [(y0 & F0 & R0)|[U0 _]]; [|by destruct (first_not_unnamed w0 x m y)].
    destruct H1 as [(y1 & F1 & R1)|[U1 _]]; [|by destruct (first_not_unnamed w1 x m y)].
    rewrite (first_unique _ _ _ _ _ F0 Hy) in R0. rewrite (first_unique _ _ _ _ _ F1 Hy') in R1. rewrite Hpl in R1.
    destruct R0 as [[? ->]|[? ->]], R1 as [[? ->]|[? ->]]; done.
  - intros Hu Hnm'. assert (Hf : first_named w1 x m c).
    { exists (children x w0), []. split_and!; [done|congruence|]. by rewrite (Forall_name w0 w1). }
    destruct H1 as [(y1 & F1 & R1)|[U1 _]]; [|by destruct (first_not_unnamed w1 x m c)].
    rewrite (first_unique _ _ _ _ _ F1 Hf) in R1. destruct R1 as [[_ R1]|[R1 _]]; [done|]. unfold is_page_layout in R1. congruence.
  - intros Hu Hnm'. destruct H1 as [(y1 & F1 & R1)|[U1 ->]]; [|done]. exfalso.
    assert (Hu1 : unnamed w1 x m).
    { unfold unnamed. rewrite J3. apply Forall_app. split; [by rewrite (Forall_name w0 w1)|]. constructor; [congruence|constructor]. }
    by destruct (first_not_unnamed w1 x m y1).
Qed.
Print Assumptions C61_inject.

(** A text that cannot be parsed, that holds no element, or starts with a page layout raises an
    exception; then everything in the document is as it was, and looked up as it was. *)
Theorem C61_refused `{XmlParser} (x : N) (w : node) (n : N) (l : list (option pystr)) (s : ist) (text wh : pystr) (m : option pystr) :
  starts x w n -> reached x w n l s -> m ∉ l ->
  let r := inject_style x text wh s in
  match xml_parts text with
  | Err ex => r.2 = Err ex
  | Ok [] => r.2 = Err IndexError
  | Ok (e :: _) => e_tag e = "style:page-layout"%string -> r.2 = Err TypeError
  end /\
  (r.2 <> Ok tt ->
     kept_all (tree_of (cont s)) (tree_of (cont r.1)) /\
     (s_get x m (cont r.1)).2 = (s_get x m (cont s)).2).
Proof.
  intros Hs Hr Hm r. pose proof (reached_inv x w n l s Hs Hr) as Hi.
  assert (Hnew : forall es, (s_get x m (cont (with_new es s))).2 = (s_get x m (cont s)).2).
  { intros es. destruct (with_new_inv x l s es Hi) as [[_ Hk] Hi'].
    assert (Hget : forall s, iinv x l s -> finds (tree_of (cont s)) x m (s_get x m (cont s)).2).
    { intros [[w1 ca] u] [I1 I2 I3 I4 I5]. cbn [cont tree_of cache] in *.
      destruct (s_get_ok x m w1 ca I1 I4) as (c' & q & -> & Hf & _); [|done]. intros o Ho. apply Hm. by apply (I5 m o). }
    pose proof (Hget s Hi) as H0. pose proof (Hget _ Hi') as H1. destruct Hi as [I1 I2 _ _ _].
    set (w0 := tree_of (cont s)) in *. set (w1 := tree_of (cont (with_new es s))) in *.
    assert (Hd : forall y, element y w0 -> data y w1 = data y w0) by (intros y Hy; unfold data; by rewrite Hk).
    assert (Hc : children x w1 = children x w0) by (unfold children; by rewrite Hk).
    destruct H0 as [(y & F0 & R0)|[U0 ->]].
    - pose proof (first_same w0 w1 x [] ltac:(by rewrite app_nil_r) Hd m y F0) as F0'.
      assert (Hpl : is_page_layout w1 y <-> is_page_layout w0 y).
      { unfold is_page_layout. rewrite Hd; [done|]. apply first_in in F0. by apply (child_element w0 x). }
      destruct H1 as [(y1 & F1 & R1)|[U1 _]]; [|by destruct (first_not_unnamed w1 x m y)].
      rewrite (first_unique _ _ _ _ _ F1 F0') in R1. rewrite Hpl in R1.
      destruct R0 as [[? ->]|[? ->]], R1 as [[? ->]|[? ->]]; done.
    - pose proof (unnamed_same w0 w1 x m Hc Hd U0) as U1.
      destruct H1 as [(y1 & F1 & R1)|[_ ->]]; [|done]. by destruct (first_not_unnamed w1 x m y1). }
  unfold r. destruct (xml_parts text) as [[|e es]|ex] eqn:E.
  - rewrite inject_empty by done. cbn [fst snd]. split; [done|]. intros _. split; [by apply (with_new_inv x l)|apply Hnew].
  - destruct (inject_first x l s text wh e es Hi E) as [[Ht ->]|(Ht & c & s' & -> & _)]; cbn [fst snd]; (split; [done|]); [|done].
    intros _. split; [by apply (with_new_inv x l)|apply Hnew].
  - rewrite (inject_err x l s text wh ex Hi E). cbn [fst snd]. split; [done|]. intros _. split; [|done].
    split; [apply Hi|done].
Qed.
Print Assumptions C61_refused.

(** ** Cases *)
Definition style61 (t : string) (nm : string) (ks : list elem) : elem :=
  T (Nd t {["style:name"%string := lit nm]} None None) ks.
Definition prop61 : elem := T (Nd "style:text-properties" {["fo:font-weight"%string := lit "bold"]} None None) [].
(** the texts of the cases *)
Global Instance parser61 : XmlParser := {|
  xml_parts t :=
    if decide (t = lit "new") then Ok [style61 "style:style" "c" [prop61]; style61 "style:style" "d" []]
    else if decide (t = lit "old") then Ok [style61 "style:style" "a" [prop61]]
    else if decide (t = lit "page") then Ok [style61 "style:page-layout" "q" []]
    else if decide (t = lit "") then Ok []
    else Err ValueError |}.
Definition fig61 (x : N) (t : string) (nm : option string) (ks : list node) : node :=
  T (L x (Nd t (match nm with Some n => {["style:name"%string := lit n]} | None => ∅ end) None None)) ks.
Definition w61 : node :=
  fig61 0 "" None [fig61 1 "office:styles" None
    [fig61 2 "style:style" (Some "a") []; fig61 3 "style:default-style" None []; fig61 4 "style:style" (Some "b") []];
   fig61 5 "style:style" (Some "b") []].
Definition sn61 (s : string) : option pystr := Some (lit s).
Lemma starts61 : starts 1 w61 6.
Proof. split_and!; [unfold wfs; dec_vm|unfold element; dec_vm|dec_vm]. Qed.
(** after a lookup, an assignment and an injection *)
Definition s61 : ist :=
  (inject_style 1 (lit "new") (lit "styles.xml") (on_cont (s_set 1 (sn61 "b") 5) (on_cont (s_get 1 (sn61 "a")) (ISt (CSt w61 ∅) 6)).1).1).1.
Lemma reached61 : reached 1 w61 6 [sn61 "b"] s61.
Proof.
  apply R_inject.
  - apply (R_set 1 w61 6 [] _ (sn61 "b") 5); [apply R_get, R_start|].
    change (tree_of (cont (on_cont (s_get 1 (sn61 "a")) (ISt (CSt w61 ∅) 6)).1)) with w61.
    split_and!; [unfold element; dec_vm|by_vm| |dec_vm].
    intros Hu. apply (above_spec w61 5 1) in Hu; [vm_compute in Hu; done|apply starts61|unfold element; dec_vm].
  - intros e es He. change (Ok [style61 "style:style" "c" [prop61]; style61 "style:style" "d" []] = Ok (e :: es)) in He.
    injection He as <- _. unfold style_like. dec_vm.
Qed.
Example C61_inject_case :
  starts 1 w61 6 /\ reached 1 w61 6 [sn61 "b"] s61 /\
  xml_parts (lit "old") = Ok [style61 "style:style" "a" [prop61]] /\ style_like (style61 "style:style" "a" [prop61]) /\
  children 1 (tree_of (cont s61)) = [2; 3; 5; 7]%N /\
  (s_get 1 (sn61 "c") (cont s61)).2 = Ok 7%N /\ (s_get 1 (sn61 "d") (cont s61)).2 = Err KeyError /\
  children 1 (tree_of (cont (inject_style 1 (lit "old") [] s61).1)) = [2; 3; 5; 7; 11]%N /\
  (s_get 1 (sn61 "a") (cont (inject_style 1 (lit "old") [] s61).1)).2 = Ok 2%N.
Proof. split_and!; [apply starts61|apply reached61|by_vm|unfold style_like; dec_vm|by_vm|by_vm|by_vm|by_vm|by_vm]. Qed.
Example C61_refused_case :
  starts 1 w61 6 /\ reached 1 w61 6 [sn61 "b"] s61 /\ sn61 "c" ∉ [sn61 "b"] /\
  (inject_style 1 (lit "page") [] s61).2 = Err TypeError /\ (inject_style 1 (lit "") [] s61).2 = Err IndexError /\
  (inject_style 1 (lit "<") [] s61).2 = Err ValueError /\
  (s_get 1 (sn61 "c") (cont (inject_style 1 (lit "page") [] s61).1)).2 = Ok 7%N.
Proof. split_and!; [apply starts61|apply reached61|dec_vm|by_vm|by_vm|by_vm|by_vm]. Qed.

(** Injecting a style whose name is in use gives a second style of that name, which is not
    found; the second element of a text is lost; page layouts cannot be injected. *)
Theorem C61_counterexample :
  exists (P : XmlParser) (x : N) (w : node) (n : N) (old new page : pystr) (a d : option pystr),
    starts x w n /\
    (let s := (inject_style x old [] (ISt (CSt w ∅) n)).1 in
     (inject_style x old [] (ISt (CSt w ∅) n)).2 = Ok tt /\
     map (name_of (tree_of (cont s))) (children x (tree_of (cont s))) = [a; None; sn61 "b"; a] /\
     (s_get x a (cont s)).2 = (s_get x a (CSt w ∅)).2) /\
    (let s := (inject_style x new [] (ISt (CSt w ∅) n)).1 in
     xml_parts new = Ok [style61 "style:style" "c" [prop61]; style61 "style:style" "d" []] /\
     (inject_style x new [] (ISt (CSt w ∅) n)).2 = Ok tt /\ (s_get x d (cont s)).2 = Err KeyError) /\
    xml_parts page = Ok [style61 "style:page-layout" "q" []] /\
    (inject_style x page [] (ISt (CSt w ∅) n)).2 = Err TypeError.
Proof.
  exists parser61, 1%N, w61, 6%N, (lit "old"), (lit "new"), (lit "page"), (sn61 "a"), (sn61 "d"). cbv zeta.
  split_and!; [apply starts61|by_vm|by_vm|by_vm|by_vm|by_vm|by_vm|by_vm|by_vm].
Qed.
Print Assumptions C61_counterexample.
