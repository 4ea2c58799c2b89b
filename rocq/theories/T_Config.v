(** C62: the expand strategy in force when a sheet is accessed first. *)
From Verif Require Import ConfigProofs T_TableNorm.

(** The setting is the one made last; making it changes no sheet. *)
Theorem C62_setting `{U : Unicode} (c : conf) (h : list cop) (es : list elem) (st : string) (mc : list Z) :
  b_conf (c_run h (opened c es)) = setting c h /\
  (let b := c_run h (opened c es) in
   b_conf (c_run (h ++ [CSet st mc]) (opened c es)) = Conf st mc /\ b_sheets (c_run (h ++ [CSet st mc]) (opened c es)) = b_sheets b /\
   b_conf (c_run (h ++ [CReset]) (opened c es)) = Conf "all_less_maxcount" [32; 32]%Z /\
   b_sheets (c_run (h ++ [CReset]) (opened c es)) = b_sheets b).
Proof.
  split; [by rewrite run_conf|]. cbv zeta. rewrite !run_conf, !setting_app. unfold c_run. rewrite !foldl_app. done.
Qed.
Print Assumptions C62_setting.

(** A sheet that is never accessed under a usable setting stays as it was stored; accessing it
    under an unusable one raises, and changes nothing at all. *)
Theorem C62_untouched `{U : Unicode} (c : conf) (h : list cop) (es : list elem) (i : nat) (e : elem) :
  proper c h -> unused_sheet i c h -> es !! i = Some e -> good_sheet e ->
  s_elem <$> b_sheets (c_run h (opened c es)) !! i = Some e /\
  forall x, refused (setting c h) x -> access i (c_run h (opened c es)) = (c_run h (opened c es), Err x).
Proof.
  intros Hp Hu He [Hg _]. pose proof (run_unused i c h es e Hp Hu He ltac:(apply Hg)) as H. rewrite H. split; [done|].
  intros x Hx. unfold access. rewrite H. cbn [s_cached s_elem]. rewrite run_conf. cbn [b_conf opened].
  rewrite (open_refused _ x e Hx ltac:(apply Hg)). f_equal.
  pose proof (run_conf h (opened c es)) as Hc. cbn [b_conf opened] in Hc. rewrite <- Hc.
  destruct (c_run h (opened c es)) as [c' ss]. cbn in *. by rewrite list_insert_id.
Qed.
Print Assumptions C62_untouched.

(** At its first access under a usable setting a sheet is expanded as this setting says; from
    then on it changes by changes of the table only, whatever is set or accessed later, even if
    the wrapper cache is cleared.  While the cache is kept, accessing it always succeeds. *)
Theorem C62_first_access `{U : Unicode} (c : conf) (h1 h2 : list cop) (es : list elem) (i : nat) (e : elem) (st : strategy) (mc : Z * Z) :
  proper c (h1 ++ CAccess i :: h2) -> unused_sheet i c h1 -> means (setting c h1) st mc ->
  es !! i = Some e -> good_sheet e ->
  (access i (c_run h1 (opened c es))).2 = Ok tt /\
  exists e1, expands st mc e e1 /\ tidy e1 /\
    let b := c_run (h1 ++ CAccess i :: h2) (opened c es) in
    s_elem <$> b_sheets b !! i = Some (changes i h2 e1) /\ tidy (changes i h2 e1) /\
    (CForget ∉ h2 -> access i b = (b, Ok tt)).
Proof.
  intros (P1 & P2 & P3) Hu Hm He Hg.
  assert (Hp1 : proper c h1).
  { split_and!; [done|intros; apply P2; apply elem_of_app; by left|]. intros j f Hj. apply (P3 j). apply elem_of_app. by left. }
  pose proof (run_unused i c h1 es e Hp1 Hu He ltac:(apply Hg)) as H. pose proof (run_conf h1 (opened c es)) as Hc. cbn [b_conf opened] in Hc.
  destruct (open_ok (setting c h1) st mc e Hm Hg) as (e1 & Ho & Hex & Ht).
  assert (Ha : access i (c_run h1 (opened c es)) = (Book (setting c h1) (<[i := Sh e1 true]> (b_sheets (c_run h1 (opened c es)))), Ok tt)).
  { unfold access. rewrite H. cbn [s_cached s_elem]. by rewrite Hc, Ho. }
  split; [by rewrite Ha|]. exists e1. split_and!; [done|done|]. cbv zeta.
  unfold c_run at 1 2 3. rewrite foldl_app. cbn [foldl c_step]. fold (c_run h1 (opened c es)). rewrite Ha. cbn [fst].
  set (b1 := Book _ _). fold (c_run h2 b1).
  assert (Hb1 : b_sheets b1 !! i = Some (Sh e1 true)).
  { unfold b1. cbn. rewrite list_lookup_insert; [done|]. by eapply lookup_lt_Some. }
  destruct (run_used i h2 b1 e1 true) as (k' & Hk & Htc).
  - by apply setting_sensible.
  - intros s m Hin. apply P2. apply elem_of_app. right. by right.
  - intros f Hin. apply (P3 i). apply elem_of_app. right. by right.
  - done.
  - done.
  - rewrite Hk. split_and!; [done|done|]. intros Hf. destruct (run_cached i h2 b1 e1 Hb1 Hf) as [e' He'].
    unfold access. by rewrite He'.
Qed.
Print Assumptions C62_first_access.

(** A new table (which has no rows yet) does not depend on the setting, but cannot be made under
    an unusable one. *)
Theorem C62_new `{U : Unicode} (c : conf) :
  (forall st mc, means c st mc -> open_table c (new_elem "table:table") = (new_elem "table:table", Ok tt)) /\
  (forall x, refused c x -> (open_table c (new_elem "table:table")).2 = Err x).
Proof.
  split.
  - intros st mc Hm. apply (open_tidy c st mc); [done|]. split_and!; [done|by constructor|by split; constructor|exists 0; constructor].
  - intros x Hx. by rewrite (open_refused c x).
Qed.
Print Assumptions C62_new.

(** ** Cases *)
(** repeated rows and cells, and a column for both *)
Definition sheet62 : elem :=
  T (Nd "table:table" ∅ None None)
    [e_set "table:number-columns-repeated" (lit "2") (new_elem "table:table-column");
     T (Nd "table:table-row" {["table:number-rows-repeated"%string := lit "3"]} None None)
       [e_set "table:number-columns-repeated" (lit "2") (new_elem "table:table-cell")]].
Lemma sheet62_good : good_sheet (U := ascii_unicode) sheet62.
Proof.
  split; [split; [done|split; [repeat constructor|]]|].
  - repeat constructor; (eapply good_rep_lit; [reflexivity|vm_compute; reflexivity|lia]).
  - repeat constructor. eapply good_rep_lit; [reflexivity|vm_compute; reflexivity|lia].
Qed.
(** an unknown strategy, then one under which the first sheet is expanded, then another one *)
Definition h62a : list cop := [CSet "everything" [5; 5]%Z; CAccess 0; CSet "all_less_maxcount" [3; 3; 7]%Z].
Definition h62b : list cop := [CSet "all" [32]%Z; CAccess 0; CAccess 1; CReset; CForget].
Ltac in62 H := cbn [app h62a h62b] in H; repeat (apply elem_of_cons in H as [H|H]; [try discriminate H|]); [..|by apply elem_of_nil in H].
Lemma h62_proper : proper (U := ascii_unicode) conf_new (h62a ++ CAccess 0 :: h62b).
Proof.
  split_and!.
  - left. exists ExpandAllLessMaxCount, (32, 32)%Z. split; [by exists []|]. cbn. split; [done|lia].
  - intros st mc H. in62 H; injection H as -> ->.
    + right. exists TypeError. left. split; [|done]. dec_vm.
    + left. exists ExpandAllLessMaxCount, (3, 3)%Z. split; [by exists [7%Z]|]. cbn. split; [done|lia].
    + right. exists IndexError. right. split_and!; [dec_vm|cbn; lia|done].
  - intros i f H. in62 H.
Qed.
Lemma h62a_unused : unused_sheet 0 conf_new h62a.
Proof.
  split.
  - intros f H. in62 H.
  - intros h1 h2 E. destruct h1 as [|a h1]; [done|]. injection E as <- E. destruct h1 as [|b h1].
    + exists TypeError. left. split; [|done]. dec_vm.
    + injection E as <- E. destruct h1 as [|d h1]; [done|]. injection E as <- E. by destruct h1.
Qed.
Example C62_first_access_case :
  proper (U := ascii_unicode) conf_new (h62a ++ CAccess 0 :: h62b) /\ unused_sheet 0 conf_new h62a /\
  means (setting conf_new h62a) ExpandAllLessMaxCount (3, 3)%Z /\ good_sheet (U := ascii_unicode) sheet62 /\
  height (U := ascii_unicode) ExpandAllLessMaxCount (3, 3)%Z sheet62 = 1 /\
  width (U := ascii_unicode) ExpandAllLessMaxCount (3, 3)%Z sheet62 = 2 /\
  (map (fun s => length (descendants "table:table-row" (s_elem s))) (b_sheets (c_run (U := ascii_unicode) (h62a ++ CAccess 0 :: h62b) (opened conf_new [sheet62; sheet62]))) = [1; 1]).
Proof.
  split_and!; [apply h62_proper|apply h62a_unused| |apply sheet62_good|by_vm|by_vm|by_vm].
  split; [by exists [7%Z]|]. cbn. split; [done|lia].
Qed.
Example C62_untouched_case :
  proper (U := ascii_unicode) conf_new h62a /\ unused_sheet 0 conf_new h62a /\ good_sheet (U := ascii_unicode) sheet62 /\
  refused (setting conf_new [CSet "everything" [5; 5]%Z]) TypeError.
Proof.
  split_and!; [|apply h62a_unused|apply sheet62_good|].
  - destruct h62_proper as (P1 & P2 & P3). split_and!; [done|intros; apply P2; apply elem_of_app; by left|].
    intros j f Hj. apply (P3 j). apply elem_of_app. by left.
  - left. split; [dec_vm|done].
Qed.
Example C62_new_case : means conf_new ExpandAllLessMaxCount (32, 32)%Z /\ refused (Conf "All" [1; 1]%Z) TypeError.
Proof.
  split; [split; [by exists []|]; cbn; split; [done|lia]|]. left. split; [dec_vm|done].
Qed.
Example C62_setting_case : setting conf_new h62a = Conf "all_less_maxcount" [3; 3; 7]%Z.
Proof. done. Qed.

(** A setting made after the first access has no effect on the sheet; with 'all_but_last' and a
    number missing the access raises, but the rows are already expanded. *)
Theorem C62_counterexample :
  exists (e : elem) (c1 c2 c3 : conf),
    good_sheet (U := ascii_unicode) e /\ means c1 ExpandAllButLast (5, 5)%Z /\ means c2 ExpandAll (5, 5)%Z /\
    height (U := ascii_unicode) ExpandAll (5, 5)%Z e = 3 /\
    map (fun s => length (descendants "table:table-row" (s_elem s)))
      (b_sheets (c_run (U := ascii_unicode) [CAccess 0; CSet (c_strategy c2) (c_maxcount c2); CAccess 0] (opened c1 [e]))) = [1] /\
    (access (U := ascii_unicode) 0 (opened c3 [e])).2 = Err IndexError /\
    map s_elem (b_sheets (access (U := ascii_unicode) 0 (opened c3 [e])).1) <> [e].
Proof.
  exists sheet62, (Conf "all_but_last" [5; 5]%Z), (Conf "all" [5; 5]%Z), (Conf "all_but_last" [5]%Z).
  split_and!; [apply sheet62_good|split; [by exists []|done]|split; [by exists []|done]|by_vm|by_vm|by_vm|].
  intros E. apply (f_equal (map (fun e => map (e_get "table:number-rows-repeated") (descendants "table:table-row" e)))) in E. vm_compute in E. done.
Qed.
Print Assumptions C62_counterexample.
