(** C49: named styles. *)
From Verif Require Import StylesProofs.

(** Lookups give the first child with the name, and change nothing, whatever was looked up
    before.  (Page layouts cannot be wrapped: TypeError.) *)
Theorem C49_get (x : N) (w : node) (ns : list (option pystr)) (n : option pystr) :
  wfs w -> element x w ->
  let s := s_run x (map SGet ns) (CSt w ∅) in
  tree_of s = w /\ finds w x n (s_get x n s).2 /\ tree_of (s_get x n s).1 = w.
Proof.
  intros Hw Hx s.
  assert (H : tree_of s = w /\ cache_ok x w (cache s) /\ forall m o, cache s !! m <> Some (RObj o)).
  { unfold s. clear s n. induction ns as [|n ns IH] using rev_ind.
    - cbn. split_and!; [done|intros m y; by rewrite lookup_empty|intros m o; by rewrite lookup_empty].
    - rewrite map_app. unfold s_run. rewrite foldl_app. cbn [map foldl]. fold (s_run x (map SGet ns) (CSt w ∅)).
      destruct (s_run x (map SGet ns) (CSt w ∅)) as [w1 ca]. cbn [tree_of cache] in IH. destruct IH as (-> & H1 & H2).
      cbn [s_do]. destruct (s_get_ok x n w ca Hw H1 (H2 n)) as (c' & r & -> & _ & H3 & H4 & H5). cbn. split_and!; [done|done|].
      intros m o. destruct (decide (m = n)) as [->|Hne]; [apply H5|]. rewrite H4 by done. apply H2. }
  destruct s as [w1 ca]. cbn [tree_of cache] in H. destruct H as (-> & H1 & H2).
  destruct (s_get_ok x n w ca Hw H1 (H2 n)) as (c' & r & -> & H3 & _). done.
Qed.
Print Assumptions C49_get.

(** The first assignment under a name puts the style in the place of the first child with that
    name, or to the end; nothing else changes. *)
Theorem C49_set (x : N) (w : node) (os : list sop) (n : option pystr) (c : N) :
  wfs w -> element x w ->
  Forall (fun p => storable w x p.1 p.2) (sets (os ++ [SSet n c])) -> NoDup (map snd (sets (os ++ [SSet n c]))) ->
  first_set n (sets os) = None ->
  let s := s_run x os (CSt w ∅) in
  exists s', s_set x n c s = (s', Ok tt) /\
    ((exists l o l', children x (tree_of s) = l ++ o :: l' /\ first_named (tree_of s) x n o /\
        placed x c (l ++ c :: l') (tree_of s) (tree_of s')) \/
     (unnamed (tree_of s) x n /\ placed x c (children x (tree_of s) ++ [c]) (tree_of s) (tree_of s'))).
Proof.
  intros Hw Hx Hst Hnd Hn s. rewrite sets_app in Hst, Hnd. rewrite map_app in Hnd. apply Forall_app in Hst as [Hst1 Hst2].
  apply NoDup_app in Hnd as (Hnd1 & Hnd2 & _). cbn in Hst2, Hnd2. apply Forall_cons in Hst2 as [(Hce & Hcn & Hcu & Hck) _]. cbn [fst snd] in *.
  pose proof (s_run_inv x w os Hw Hx Hst1 Hnd1) as [I1 I2 I3 I4 I5 I6 I7 I8 I9 I10]. fold s in I1, I2, I3, I4, I5, I6, I7, I8, I9, I10.
  destruct s as [w1 ca]. cbn [tree_of cache] in *.
  destruct (s_set_ok x n c w1 ca I1) as (w' & -> & Hp); [by apply I2|done|intros o H; apply I5 in H; congruence| |by eexists].
  split_and!; [by apply I2|unfold name_of; rewrite I3 by done; exact Hcn| |].
  - intros H. by apply Hcu, I10.
  - intros H. destruct (I9 c H) as [?|H']; [done|]. apply (Hnd2 c H'). left.
Qed.
Print Assumptions C49_set.

(** After any history of lookups and assignments (each of a style that has the name it is
    assigned under, and was not in the container): under every name the tree holds the style
    that was assigned first, else the one it held at the start, and this is what a new
    container on the tree finds; the container itself finds it if nothing was assigned under
    the name, else looking it up raises AttributeError and assigning again TypeError, without
    any change. *)
Theorem C49_history (x : N) (w : node) (os : list sop) (n : option pystr) :
  wfs w -> element x w ->
  Forall (fun p => storable w x p.1 p.2) (sets os) -> NoDup (map snd (sets os)) ->
  let s := s_run x os (CSt w ∅) in
  finds (tree_of s) x n (s_get x n (CSt (tree_of s) ∅)).2 /\
  match first_set n (sets os) with
  | Some c => first_named (tree_of s) x n c /\
      s_get x n s = (s, Err AttributeError) /\ forall c', s_set x n c' s = (s, Err TypeError)
  | None => (forall y, first_named (tree_of s) x n y <-> first_named w x n y) /\ (unnamed (tree_of s) x n <-> unnamed w x n) /\
      finds w x n (s_get x n s).2 /\ tree_of (s_get x n s).1 = tree_of s
  end.
Proof.
  intros Hw Hx Hst Hnd s. pose proof (s_run_inv x w os Hw Hx Hst Hnd) as [I1 I2 I3 I4 I5 I6 I7 I8 I9 I10].
  fold s in I1, I2, I3, I4, I5, I6, I7, I8, I9, I10. destruct s as [w1 ca]. cbn [tree_of cache] in *. split.
  - destruct (s_get_ok x n w1 ∅ I1) as (c' & r & -> & H & _); [intros m y; by rewrite lookup_empty|intros o; by rewrite lookup_empty|done].
  - destruct (first_set n (sets os)) as [c|] eqn:En.
    + assert (Eo : ca !! n = Some (RObj c)) by (by apply I5). split_and!; [by apply I6|by apply (s_get_obj _ _ _ _ c)|].
      intros c'. by apply (s_set_obj _ _ _ _ c).
    + destruct (s_get_ok x n w1 ca I1 I4) as (c' & r & -> & H & _); [intros o H; apply I5 in H; congruence|].
      split_and!; [intros y; by apply I7|by apply I8| |done]. cbn [snd].
      destruct H as [(y & Hy & H)|[Hu ->]].
      * left. exists y. rewrite (I7 n y En) in Hy. split; [done|]. unfold is_page_layout in *. rewrite I3 in H; [done|].
        apply first_in in Hy. by apply (child_element w x).
      * right. split; [by apply I8|done].
Qed.
Print Assumptions C49_history.

(** Attributes of style objects: the listed keys are read from the attribute of that name,
    other keys raise KeyError; assigning does nothing. *)
Theorem C49_attributes (k : string) (e : elem) :
  (e_tag e = "style:style"%string ->
     k ∈ ["name"; "display-name"; "family"; "parent-style-name"; "next-style-name"; "list-style-name"; "master-page-name";
          "auto-update"; "data-style-name"; "class"; "default-outline-level"]%string ->
     st_get k e = Ok (e_get ("style:" ++ k) e)) /\
  (e_tag e = "style:default-style"%string -> st_get "family" e = Ok (e_get "style:family" e)) /\
  (forall r, st_get k e = Ok r -> r = e_get ("style:" ++ k) e) /\
  (forall v, st_set k v e = (e, Ok tt)).
Proof.
  unfold st_get, style_keys. split_and!.
  - intros -> H. rewrite decide_True; [done|]. exact H.
  - intros ->. done.
  - intros r. by case_decide; [intros [= <-]|].
  - done.
Qed.
Print Assumptions C49_attributes.

(** ** Cases *)
Definition fig49 (x : N) (t : string) (nm : option string) (ks : list node) : node :=
  T (L x (Nd t (match nm with Some n => {["style:name"%string := lit n]} | None => ∅ end) None None)) ks.
Definition w49 : node :=
  fig49 0 "" None [fig49 1 "office:styles" None
    [fig49 2 "style:style" (Some "a") []; fig49 3 "style:default-style" None []; fig49 4 "style:style" (Some "b") [];
     fig49 5 "style:style" (Some "a") []; fig49 6 "style:page-layout" (Some "p") []];
   fig49 7 "style:style" (Some "a") []; fig49 8 "style:style" (Some "c") []; fig49 9 "style:style" (Some "a") []].
Definition sn (s : string) : option pystr := Some (lit s).
Lemma w49_wfs : wfs w49.
Proof. unfold wfs. dec_vm. Qed.
Lemma w49_element x : x ∈ [1; 2; 3; 4; 5; 6; 7; 8; 9]%N -> element x w49.
Proof. intros H. unfold element. change (flat_map ids (kids w49)) with [1; 2; 3; 4; 5; 6; 7; 8; 9]%N. done. Qed.
Ltac el49 := apply w49_element; dec_vm.
Lemma w49_storable c : c ∈ [7; 8; 9]%N -> storable w49 1 (name_of w49 c) c.
Proof.
  intros H. assert (He : element c w49) by (apply w49_element; set_solver). split_and!; [done|done| |].
  - intros Hu. apply (above_spec w49 c 1 w49_wfs He) in Hu.
    repeat (apply elem_of_cons in H as [->|H]; [vm_compute in Hu; done|]). by apply elem_of_nil in H.
  - change (children 1 w49) with [2; 3; 4; 5; 6]%N. set_solver.
Qed.
Definition os49 : list sop := [SGet (sn "b"); SSet (sn "a") 7; SGet (sn "a"); SSet (sn "c") 8; SSet (sn "a") 9].
Lemma os49_ok : Forall (fun p => storable w49 1 p.1 p.2) (sets os49) /\ NoDup (map snd (sets os49)).
Proof.
  split; [|dec_vm]. repeat constructor; cbn [fst snd];
    (apply (w49_storable 7) || apply (w49_storable 8) || apply (w49_storable 9)); dec_vm.
Qed.
Example C49_get_case :
  wfs w49 /\ element 1 w49 /\ (s_get 1 (sn "a") (CSt w49 ∅)).2 = Ok 2%N /\ (s_get 1 (sn "p") (CSt w49 ∅)).2 = Err TypeError /\
  (s_get 1 (sn "z") (CSt w49 ∅)).2 = Err KeyError.
Proof. split_and!; [apply w49_wfs|el49|by_vm|by_vm|by_vm]. Qed.
Example C49_set_case :
  let os := [SGet (sn "b"); SSet (sn "a") 7; SGet (sn "a")] in
  Forall (fun p => storable w49 1 p.1 p.2) (sets (os ++ [SSet (sn "c") 8])) /\ NoDup (map snd (sets (os ++ [SSet (sn "c") 8]))) /\
  first_set (sn "c") (sets os) = None /\
  children 1 (tree_of (s_set 1 (sn "c") 8 (s_run 1 os (CSt w49 ∅))).1) = [7; 3; 4; 5; 6; 8]%N.
Proof.
  intros os. split_and!; [|dec_vm|by_vm|by_vm]. repeat constructor; cbn [fst snd]; (apply (w49_storable 7) || apply (w49_storable 8)); dec_vm.
Qed.
Example C49_history_case :
  wfs w49 /\ element 1 w49 /\ Forall (fun p => storable w49 1 p.1 p.2) (sets os49) /\ NoDup (map snd (sets os49)) /\
  first_set (sn "a") (sets os49) = Some 7%N /\ first_set (sn "b") (sets os49) = None /\
  children 1 (tree_of (s_run 1 os49 (CSt w49 ∅))) = [7; 3; 4; 5; 6; 8]%N /\
  (s_get 1 (sn "b") (s_run 1 os49 (CSt w49 ∅))).2 = Ok 4%N.
Proof. split_and!; [apply w49_wfs|el49|apply os49_ok|apply os49_ok|by_vm|by_vm|by_vm|by_vm]. Qed.
Example C49_attributes_case :
  let e := T (Nd "style:style" {["style:family"%string := lit "text"]} None None) [] in
  st_get "family" e = Ok (Some (lit "text")) /\ st_get "class" e = Ok None /\ st_get "page-usage" e = Err KeyError.
Proof. split_and!; by_vm. Qed.

(** A style that has been assigned cannot be looked up, nor be replaced; the styles of the
    document that are page layouts cannot be looked up; the attributes of a style cannot be set. *)
Theorem C49_counterexample :
  exists (x : N) (w : node) (n m : option pystr) (c d : N),
    wfs w /\ storable w x n c /\ (s_set x n c (CSt w ∅)).2 = Ok tt /\
    (s_get x n (s_set x n c (CSt w ∅)).1).2 = Err AttributeError /\
    (s_set x n d (s_set x n c (CSt w ∅)).1).2 = Err TypeError /\
    first_named w x m 6 /\ (s_get x m (CSt w ∅)).2 = Err TypeError /\
    st_get "name" (st_set "name" (lit "new") (T (Nd "style:style" ∅ None None) [])).1 = Ok None.
Proof.
  exists 1%N, w49, (sn "a"), (sn "p"), 7%N, 9%N. split_and!; [apply w49_wfs| |by_vm|by_vm|by_vm| |by_vm|by_vm].
  - apply (w49_storable 7). dec_vm.
  - exists [2; 3; 4; 5]%N, []. split_and!; [done|by_vm|]. repeat constructor; vm_compute; done.
Qed.
Print Assumptions C49_counterexample.

(** A style assigned under a name it does not have is not found under it in the saved document;
    the container keeps what it found first, whatever happens to the tree. *)
Theorem C49_cache_counterexample :
  exists (x : N) (w : node) (n : option pystr) (c y : N),
    wfs w /\ element c w /\ name_of w c <> n /\
    (s_set x n c (CSt w ∅)).2 = Ok tt /\ unnamed (tree_of (s_set x n c (CSt w ∅)).1) x n /\
    (let s := (s_get x (sn "b") (CSt w ∅)).1 in
     let w' := (el_remove x y w).1 in
     unnamed w' x (sn "b") /\ (s_get x (sn "b") (CSt w' (cache s))).2 = Ok y).
Proof.
  exists 1%N, w49, (sn "new"), 8%N, 4%N. cbv zeta. split_and!; [apply w49_wfs|el49| |by_vm| | |by_vm].
  - vm_compute. done.
  - repeat constructor; vm_compute; done.
  - repeat constructor; vm_compute; done.
Qed.
Print Assumptions C49_cache_counterexample.
