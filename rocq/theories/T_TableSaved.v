(** C56: tables in saved and reopened documents. *)
From Verif Require T_Document SolidProofs.
From Verif Require Import Document DocumentSpec TableReload T_TableReload.

(** The table of a document is worked on in the element tree [root] of the document, which is
    content.xml when the document is saved.  In the document that is opened from the file,
    whatever else is in memory by then, the table element at the same place is loaded with the
    same size and the same elements. *)
Theorem C56_saved `{U : Unicode} `{B : Bytes} now gen c D f ext body (s s' s2 : FileManager.st)
    (a b m : NodeStore.st) (z z' : nat * nat) (i : nat) (root root2 t : node) strat mc :
  sane a -> in_step a -> sized a z.1 z.2 -> expanded a -> clean_history a z b z' ->
  table_node b = Some t -> ldesc "table:table" root !! i = Some t -> objects (mgr s) 2 = erase root -> solid (erase root) ->
  docname D = Some f -> is_type (mimetype D) ext body -> document (mimetype D) (mgr s) -> complete body (mgr s) ->
  plain_name f -> (forall p, source (mgr s) = SFile p -> plain_name p) ->
  doc_save now gen D s = (s', Done (Ok tt)) ->
  files (mach s2) !! f = files (mach s') !! f -> no_failure s2 -> 10 <= length (env (mach s2)) ->
  exists s3, opendoc c (FromFile f) s2 = (s3, Done (Ok (Doc (Some f) (mimetype D) ext true))) /\
    objects (mgr s3) 2 = erase root /\
    (ordered m -> sub (nid root2) (store m) = Some root2 -> erase root2 = objects (mgr s3) 2 -> max_ok strat mc ->
     exists u m' u', ldesc "table:table" root2 !! i = Some u /\ load strat mc (nid u) m = (m', Ok tt) /\
       sane m' /\ in_step m' /\ table_node m' = Some u' /\ erase u' = erase t /\ sized m' z'.1 z'.2 /\
       erase (store m') = erase (store m)).
Proof.
  intros H1 H2 H3 H4 Hh Ht Hi Er Hso Hf HT Hd Hc Hp Hps E Hfile Hn Hk.
  destruct (T_Document.C52_same now gen c D f ext body s s' s2 Hf HT Hd Hc Hp Hps E Hfile Hn Hk) as (s3 & E3 & _ & _ & E2).
  exists s3. split; [done|]. rewrite E2, Er by (by rewrite Er). split; [done|]. intros Ho Hsub Er2 Hm.
  assert (Hu : exists u, ldesc "table:table" root2 !! i = Some u /\ erase u = erase t).
  { assert (Hl : map erase (ldesc "table:table" root2) !! i = map erase (ldesc "table:table" root) !! i) by (by rewrite !erase_ldesc, Er2).
    rewrite !list_lookup_fmap, Hi in Hl. destruct (ldesc "table:table" root2 !! i) as [u|]; [|done]. exists u. split; [done|]. by injection Hl. }
  destruct Hu as (u & Hu & Eu).
  destruct (desc_sub m root2 u "table:table") as [U1 U2]; [done|done|by eapply elem_of_list_lookup_2|].
  destruct (C56_reload a b m z z' t u (nid u) strat mc H1 H2 H3 H4 Hh Ht Ho U1 U2 Eu Hm) as (m' & u' & L1 & L2 & L3 & L4 & L5 & L6 & _ & _ & _ & _ & L7).
  exists u, m', u'. by split_and!.
Qed.
Print Assumptions C56_saved.

(** ** A case: a spreadsheet with a table is opened, a cell is placed, and it is saved. *)
Section case.
Local Existing Instance ascii_unicode.
Local Existing Instance tree_bytes.
Definition tag56 (t : string) (ks : list elem) : elem := T (Nd t ∅ None None) ks.
Definition grid56 : elem :=
  T (Nd "table:table" {["table:name" := lit "A"]} None None)
    [tag56 "table:table-column" []; tag56 "table:table-row" [tag56 "table:table-cell" []]].
Definition content56 : elem := tag56 "office:document-content" [tag56 "office:body" [tag56 "office:spreadsheet" [grid56]]].
Definition pkg56 : list (entry (bytes (Bytes := tree_bytes))) :=
  [Entry (B := tbytes) (lit "mimetype") true (Some (BText (full_type "spreadsheet"))); Entry (lit "content.xml") false (Some (BXml true content56))].
Definition opened56 := opendoc T_Document.noon (FromFile T_Document.file_a) (T_Document.desk pkg56 (replicate 40 Go)).
Definition store56 : NodeStore.st :=
  let p := label (content_from "office:spreadsheet" (Some content56)) 1 in NodeStore.St (T (L 0 (Nd "" ∅ None None)) [p.1]) p.2 (TObj 0 [] []).
Definition id56 : N := match ldesc "table:table" (store store56) with t :: _ => nid t | [] => 0%N end.
Definition a56 : NodeStore.st := (load ExpandAll (32, 32)%Z id56 store56).1.
Definition op56 : op := OSetNew (0, 0)%Z (e_set "office:value-type" (lit "string") (tag56 "table:table-cell" [])).
Definition b56 : NodeStore.st := (run_op op56 a56).1.
Definition root56 : node := default (T (L 0 (Nd "" ∅ None None)) []) (sub 1 (store b56)).
Definition t56 : node := default root56 (table_node b56).
Definition s56 : FileManager.st := FileManager.St (mach opened56.1) (set_object 2 (erase root56) (mgr opened56.1)).
Definition erased56 : elem := Eval vm_compute in erase root56.
Definition doc56 : doc := Doc (Some T_Document.file_a) (full_type "spreadsheet") "ods" true.

Local Opaque store56 id56 a56 b56 root56 t56.
Lemma a56_ok : sane a56 /\ in_step a56 /\ sized a56 1 1 /\ expanded a56.
Proof.
  assert (Ho : ordered store56) by (split; dec_vm).
  assert (Hx : id56 <> nid (store store56)) by dec_vm.
  assert (Hg : good_table grid56).
  { split; [done|]. split; [by repeat constructor|]. repeat constructor; by intros s E; vm_compute in E. }
  assert (Hu : exists u, sub id56 (store store56) = Some u /\ erase u = grid56) by (exists (default (T (L 0 (Nd "" ∅ None None)) []) (sub id56 (store store56))); split; [by_vm|by_vm]).
  destruct Hu as (u & Hu & Eu). rewrite <- Eu in Hg.
  assert (Hc : Forall (good_rep "table:number-columns-repeated") (descendants "table:table-column" (erase u))).
  { rewrite Eu. repeat constructor. by intros s E; vm_compute in E. }
  assert (Hm : max_ok ExpandAll (32, 32)%Z) by (intros E; discriminate E).
  destruct (T_Table.C12_loaded store56 id56 u ExpandAll (32, 32)%Z (proj1 Ho) (proj2 Ho) Hx Hu Hm Hg Hc) as (s' & t & E & H1 & H2 & H3 & H4 & H5 & H6).
  destruct (C56_loaded store56 id56 u ExpandAll (32, 32)%Z Ho Hx Hu Hm Hg Hc) as (s2 & E2 & H7).
  assert (Ea : a56 = s') by (change a56 with (load ExpandAll (32, 32)%Z id56 store56).1; by rewrite E). rewrite E in E2. injection E2 as <-. rewrite Ea.
  split; [exact H1|]. split; [exact H2|]. split; [|exact H7].
  exists t, (lit "A"). rewrite <- Ea in H3.
  assert (Hw : width ExpandAll (32, 32)%Z (erase u) = 1) by (rewrite Eu; by_vm).
  assert (Hh : height ExpandAll (32, 32)%Z (erase u) = 1) by (rewrite Eu; by_vm).
  rewrite Hw in H5. rewrite Hh in H6. split; [by rewrite <- Ea|]. split; [exact H6|].
  vm_compute in H3. injection H3 as <-. split; [by_vm|]. split; [exact H5|]. split; [lia|]. split; [lia|]. split; [by_vm|]. apply (ne_by _ _ (lit "A")); [by_vm|done].
Qed.
Lemma replaced_document m e g : document m g -> document m (set_object 2 e g).
Proof. destruct g. exact (fun H => H). Qed.
Lemma replaced_complete body body' e g : complete body' g ->
  (e_tag e = "office:document-content"%string /\ has_children CONTENT_PARTS e /\
   exists b y, head (findall "office:body" e) = Some b /\ head (findall body b) = Some y /\ has_children DECLS y) ->
  good_decls body (Some e) -> e_tail e = None -> complete body (set_object 2 e g).
Proof.
  intros (C1 & C2 & _ & _ & C5) H1 H2 H3. destruct g. unfold complete, set_object in *. cbn in C1, C2, C5 |- *.
  split; [exact C1|]. split; [exact C2|]. split; [exact H1|]. split; [exact H2|].
  apply Forall_cons in C5 as [Q1 C5]. apply Forall_cons in C5 as [Q2 C5]. apply Forall_cons in C5 as [Q3 _]. by repeat constructor.
Qed.
Lemma opened56_eq : opendoc T_Document.noon (FromFile T_Document.file_a) (T_Document.desk pkg56 (replicate 40 Go)) = (opened56.1, Done (Ok doc56)).
Proof. apply (pair_by opened56). by_vm. Qed.
Local Opaque opened56.
Example C56_saved_case :
  sane a56 /\ in_step a56 /\ sized a56 1 1 /\ expanded a56 /\ clean_history a56 (1, 1) b56 (1, 1) /\
  table_node b56 = Some t56 /\ ldesc "table:table" root56 !! 0 = Some t56 /\ objects (mgr s56) 2 = erase root56 /\ solid (erase root56) /\
  docname doc56 = Some T_Document.file_a /\ is_type (mimetype doc56) "ods" "office:spreadsheet" /\
  document (mimetype doc56) (mgr s56) /\ complete "office:spreadsheet" (mgr s56) /\
  (doc_save (lit "2020-01-02T12:00:00") (lit "G") doc56 s56).2 = Done (Ok tt).
Proof.
  destruct a56_ok as (H1 & H2 & H3 & H4). split; [exact H1|]. split; [exact H2|]. split; [exact H3|]. split; [exact H4|].
  split. { apply (ch_step a56 (1, 1) a56 1 1 op56); [constructor| |].
    - split; [exists 0, 0; split; left; cbn; lia|]. split; [by split_and!|by left].
    - by intros s E; vm_compute in E. }
  split; [by_vm|]. split; [by_vm|]. split; [by_vm|].
  split; [apply SolidProofs.solid_by; by_vm|]. split; [done|].
  assert (HT : is_type (full_type "spreadsheet") "ods" "office:spreadsheet") by (exists "spreadsheet"%string; split; [do 6 right; by left|done]).
  split; [exact HT|].
  destruct (T_Document.C52_opened T_Document.noon (FromFile T_Document.file_a) "odt" [] None (T_Document.desk pkg56 (replicate 40 Go)) opened56.1 doc56
    (T_Document.go_fine 40 pkg56) (or_introl opened56_eq)) as (body & _ & Hd & Hc & _).
  change (mgr s56) with (set_object 2 (erase root56) (mgr opened56.1)).
  split; [apply replaced_document; exact Hd|]. split; [|by_vm]. apply (replaced_complete _ body); [exact Hc| | |by_vm].
  - split; [by_vm|]. split; [repeat (constructor; [vm_compute; done|]); constructor|].
    exists (hd grid56 (findall "office:body" (erase root56))), (hd grid56 (findall "office:spreadsheet" (hd grid56 (findall "office:body" (erase root56))))).
    split; [by_vm|]. split; [by_vm|]. repeat (constructor; [vm_compute; done|]); constructor.
  - assert (erase root56 = erased56) as -> by by_vm. intros e b y t k [= <-] Hb Hy Ht Hk. vm_compute in Hb. injection Hb as <-. vm_compute in Hy. injection Hy as <-.
    apply elem_of_cons in Ht as [->|Ht]; [vm_compute in Hk; injection Hk as <-; constructor|]. apply elem_of_list_singleton in Ht as ->. vm_compute in Hk. injection Hk as <-; constructor.
Qed.
End case.
