(** C75: variables and user fields over any number of sessions. *)
From Verif Require T_Document T_Variables T_VarLife.
From Verif Require Import FieldLifeSpec VarLifeProofs DocumentProofs T_Sessions.

Section life.
Context `{U : Unicode} `{F : PyFloat} `{B : Bytes}.
Lemma read_ext odd (vs vs2 : family -> variables) w k nm : vs k = vs2 k -> read_fields odd vs w k nm = read_fields odd vs2 w k nm.
Proof. intros E. unfold read_fields. by rewrite E. Qed.
(** one session *)
Lemma field_session c ext t x D s odd vs ps S (r r' : node) D1 s1 s2 me :
  is_type (mimetype D) ext t -> document (mimetype D) (mgr s) -> complete t (mgr s) ->
  (forall p, source (mgr s) = SFile p -> plain_name p) -> plain_name (sn_file x) -> meta_of (objects (mgr s) 0) = Some me ->
  plain_content t (objects (mgr s) 2) ->
  loaded S r -> erase r = objects (mgr s) 2 -> (forall k, doc_fields k t r S = Ok (vs k)) -> Forall plain_field ps ->
  sub (nid r) (foldl (set_field odd vs) S ps) = Some r' ->
  field_work x (erase r') D s = (s1, Done (Ok D1)) ->
  files (mach s2) !! sn_file x = files (mach s1) !! sn_file x -> no_failure s2 -> 10 <= length (env (mach s2)) ->
  exists s3, opendoc c (FromFile (sn_file x)) s2 = (s3, Done (Ok (Doc (Some (sn_file x)) (mimetype D) ext true))) /\
    document (mimetype D) (mgr s3) /\ complete t (mgr s3) /\ source (mgr s3) = SFile (sn_file x) /\
    has_stats me /\ meta_of (objects (mgr s3) 0) = Some (parsed (play (all_ops x) me)) /\
    objects (mgr s3) 1 = parsed (objects (mgr s) 1) /\ plain_content t (objects (mgr s3) 2) /\
    reads_fields t (objects (mgr s3) 2) (read_again (read_fields odd vs (foldl (set_field odd vs) S ps))).
Proof.
  intros HT Hd Hc Hps Hp Hm Hpc HL Er Hvs Hq Hr' E Hfile Hn Hk. set (sM := edit_meta (sn_meta x) s). pose proof (Hpc r Er) as Hpf.
  pose proof Hc as Hcc. apply complete_iff in Hcc as [Hr Hu]. destruct (rooted_play _ (mgr s) (sn_meta x) me Hr Hm) as (Hr1 & Hst & Hm1).
  assert (Hc1 : complete t (mgr sM)) by (apply complete_iff; by split).
  set (D' := Doc (Some (sn_file x)) (mimetype D) (doctype D) (backup D)).
  set (s0 := FileManager.St (mach sM) (set_object 2 (erase r') (mgr sM))).
  assert (Ew : doc_save (sn_now x) (sn_gen x) D' s0 = (s1, Done (Ok tt))).
  { unfold field_work, doc_saveas, pbind in E. change (FileManager.St _ _) with s0 in E. fold D' in E.
    destruct (doc_save (sn_now x) (sn_gen x) _ s0) as [q [|[[]|e]]]; try done. by injection E as -> _. }
  destruct (T_VarLife.C72_saved odd (sn_now x) (sn_gen x) c D' (sn_file x) ext t sM s1 s2 S r vs ps HL (eq_sym Er) Hpf Hvs Hq) as (r1 & HL1 & En & HS).
  pose proof (loaded_sub _ _ HL1) as Hs1. rewrite En, Hr' in Hs1. injection Hs1 as <-.
  destruct (HS eq_refl HT Hd Hc1 Hp Hps Ew Hfile Hn Hk) as (s3 & E3 & Hd3 & Hc3 & S3 & O2 & HR). cbn [D' mimetype] in *.
  exists s3. split; [done|]. split; [done|]. split; [done|]. split; [done|]. split; [done|].
  (* the other trees *)
  assert (Hc0 : complete t (mgr s0)).
  { destruct (run_relab odd S r t vs ps HL Hpf Hvs Hq) as (g & Eg & Hg & Hi). cbn [s0 mgr].
    assert (Hr2 : sub (nid r) (foldl (set_field odd vs) S ps) = Some (relab g r)).
    { rewrite Eg, <- (relab_nid g r). apply loaded_sub. by apply loaded_relab. }
    rewrite Hr' in Hr2. injection Hr2 as ->. apply T_VarLife.complete_relab; [done| |by rewrite Er|done].
    intros d. apply Hi. intros a Ha. split.
    - intros k Hka. destruct (decl_sub S _ t r _ k HL Hka) as (_ & _ & Hne). congruence.
    - intros _ (_ & Hne & _). done. }
  destruct (T_Document.C52_save (sn_now x) (sn_gen x) c D' (sn_file x) ext t s0 s1 s2 eq_refl HT Hd Hc0 Hp Hps Ew Hfile Hn Hk) as (s3' & E3' & O0 & O1 & _).
  cbn [D' mimetype] in E3'. rewrite E3 in E3'. injection E3' as <-. split.
  { rewrite O0. unfold meta_of. rewrite parsed_head. change (objects (mgr s0) 0) with (play_doc (sn_meta x) (objects (mgr s) 0)).
    destruct (rooted_play _ (mgr s) (all_ops x) me Hr Hm) as (_ & _ & H). unfold all_ops at 1 in H. unfold play_doc in H |- *. rewrite foldl_app in H. unfold meta_of in H. by rewrite H. }
  split; [done|]. split.
  { intros r2 E2. apply (plain_again t r'); [|by rewrite E2, O2].
    destruct (run_relab odd S r t vs ps HL Hpf Hvs Hq) as (g & Eg & Hg & _).
    assert (Hr2 : sub (nid r) (foldl (set_field odd vs) S ps) = Some (relab g r)).
    { rewrite Eg, <- (relab_nid g r). apply loaded_sub. by apply loaded_relab. }
    rewrite Hr' in Hr2. injection Hr2 as ->. by apply plain_relab. }
  intros S2 r2 odd2 HL2 E2. destruct (HR S2 r2 HL2 (eq_sym E2)) as (_ & vs2 & Hv2 & Hb). exists vs2. split; [done|]. intros k nm. destruct (Hb k nm) as [H1 H2].
  unfold read_fields. rewrite H1. destruct (vs_contains (vs k) (KStr nm)); [|done]. split; [done|]. intros z Hnm [= Hz]. f_equal. by apply (H2 z odd2).
Qed.
End life.

(** C75.  Each session can read what the session before could read at its end: the same names are
    declared, and each has its value (a variable without text has the value None); so can whoever
    opens the document after the last session. *)
Theorem C75_life `{U : Unicode} `{F : PyFloat} `{B : Bytes} c ext t (l : list fday) D s D' s' :
  is_type (mimetype D) ext t -> document (mimetype D) (mgr s) -> complete t (mgr s) -> plain_content t (objects (mgr s) 2) ->
  (forall p, source (mgr s) = SFile p -> plain_name p) -> Forall (fun a => plain_name (sn_file (f_sit a))) l ->
  var_life c t l D s D' s' ->
  mimetype D' = mimetype D /\ document (mimetype D) (mgr s') /\ complete t (mgr s') /\ plain_content t (objects (mgr s') 2) /\
  (forall i a a', l !! i = Some a -> l !! S i = Some a' -> read_again (f_end a) (f_start a')) /\
  (forall a, last l = Some a -> reads_fields t (objects (mgr s') 2) (read_again (f_end a))).
Proof.
  intros HT Hd Hc Hpc Hps Hp HL. revert HT Hd Hc Hpc Hps Hp.
  induction HL as [D s|x odd vs ps l D s S r r' D1 s1 s2 D3 s3 D4 s4 Ho Er Hvs Hq Hr' Ew Hfile Hn Hk Eo HL IH]; intros HT Hd Hc Hpc Hps Hp; [done|].
  apply Forall_cons in Hp as [Hp1 Hp]. cbn [f_sit] in Hp1.
  assert (Hm : exists m, meta_of (objects (mgr s) 0) = Some m) by (destruct Hc as ((_ & me & Hm & _) & _); by exists me). destruct Hm as [me Hm].
  destruct (field_session c ext t x D s odd vs ps S r r' D1 s1 s2 me HT Hd Hc Hps Hp1 Hm Hpc Ho Er Hvs Hq Hr' Ew Hfile Hn Hk) as (s3' & E3 & Hd3 & Hc3 & S3 & _ & _ & _ & Hpc3 & HR).
  rewrite E3 in Eo. injection Eo as -> <-. cbn [mimetype] in IH.
  destruct IH as (M1 & Hd4 & Hc4 & Hpc4 & Hch & Hla); try done.
  { intros p. rewrite S3. by intros [= <-]. }
  split_and!; try done.
  - intros [|i] a a'; cbn [lookup list_lookup]; [|apply Hch]. intros [= <-] Ha'. destruct HL as [|x2 odd2 vs2 ps2 l2 D2 s2' S2 r2 r2' D12 s12 s22 D32 s32 D42 s42 Ho2 Er2 Hv2]; [done|].
    injection Ha' as <-. cbn [f_start f_end]. destruct (HR S2 r2 odd2 Ho2 Er2) as (vs3 & Hv3 & Hra).
    intros k nm. rewrite (read_ext odd2 vs2 vs3); [apply Hra|]. specialize (Hv2 k). specialize (Hv3 k). congruence.
  - intros a Ha. destruct l as [|a2 l]; [|apply Hla; by cbn in *]. injection Ha as <-. inversion HL; subst. done.
Qed.
Print Assumptions C75_life.

Section session.
Context `{U : Unicode} `{F : PyFloat} `{B : Bytes}.
Lemma saving_twice f (z : pyval) : after_saving f (after_saving f z) = after_saving f z.
Proof. destruct f; [|done]. destruct z as [| | | |[]| |]; done. Qed.
(** what a session does *)
Lemma day_values c ext t l D s D' s' i a :
  is_type (mimetype D) ext t -> document (mimetype D) (mgr s) -> complete t (mgr s) -> plain_content t (objects (mgr s) 2) ->
  (forall p, source (mgr s) = SFile p -> plain_name p) -> Forall (fun a => plain_name (sn_file (f_sit a))) l ->
  var_life c t l D s D' s' -> l !! i = Some a ->
  exists odd t S r vs, loaded S r /\ plain_fields t r /\ (forall k, doc_fields k t r S = Ok (vs k)) /\ Forall plain_field (f_sets a) /\
    f_start a = read_fields odd vs S /\ f_end a = read_fields odd vs (foldl (set_field odd vs) S (f_sets a)) /\
    f_inst a = (fun nm => exists y, instance S (nid r) nm y).
Proof.
  intros HT Hd Hc Hpc Hps Hp HL. revert i HT Hd Hc Hpc Hps Hp.
  induction HL as [D s|x odd vs ps l D s S r r' D1 s1 s2 D3 s3 D4 s4 Ho Er Hvs Hq Hr' Ew Hfile Hn Hk Eo HL IH]; intros i HT Hd Hc Hpc Hps Hp Ha; [done|].
  apply Forall_cons in Hp as [Hp1 Hp]. cbn [f_sit] in Hp1. destruct i as [|i].
  - injection Ha as <-. exists odd, t, S, r, vs. split_and!; try done. by apply Hpc.
  - assert (Hm : exists m, meta_of (objects (mgr s) 0) = Some m) by (destruct Hc as ((_ & me & Hm & _) & _); by exists me). destruct Hm as [me Hm].
    destruct (field_session c ext t x D s odd vs ps S r r' D1 s1 s2 me HT Hd Hc Hps Hp1 Hm Hpc Ho Er Hvs Hq Hr' Ew Hfile Hn Hk) as (s3' & E3 & Hd3 & Hc3 & S3 & _ & _ & _ & Hpc3 & _).
    rewrite E3 in Eo. injection Eo as -> <-. cbn [mimetype] in IH. apply (IH i); try done. intros p. rewrite S3. by intros [= <-].
Qed.
Lemma not_set_end odd t S r (vs : family -> variables) ps k nm : loaded S r -> plain_fields t r -> (forall k, doc_fields k t r S = Ok (vs k)) -> Forall plain_field ps ->
  39%N ∉ nm -> Forall (fun b => b.1.2 <> nm) ps -> read_fields odd vs (foldl (set_field odd vs) S ps) k nm = read_fields odd vs S k nm.
Proof.
  intros HL Hp Hvs Hq Hnm Hn. unfold read_fields. destruct (vs_contains (vs k) (KStr nm)) eqn:Ec; [|done]. f_equal.
  destruct (T_VarLife.C72_values odd t S r vs ps HL Hp Hvs Hq) as (_ & _ & H3 & _). by apply H3.
Qed.
End session.

(** C75.  A value stays as long as its name is not assigned: what could be read at the end of a
    session is what is read after all the sessions, if none of the later ones assigned it. *)
Theorem C75_stays `{U : Unicode} `{F : PyFloat} `{B : Bytes} c ext t (l : list fday) D s D' s' i a k nm z :
  is_type (mimetype D) ext t -> document (mimetype D) (mgr s) -> complete t (mgr s) -> plain_content t (objects (mgr s) 2) ->
  (forall p, source (mgr s) = SFile p -> plain_name p) -> Forall (fun a => plain_name (sn_file (f_sit a))) l ->
  var_life c t l D s D' s' -> l !! i = Some a -> 39%N ∉ nm -> f_end a k nm = Some (Ok z) -> Forall (not_set nm) (drop (S i) l) ->
  reads_fields t (objects (mgr s') 2) (fun rd => rd k nm = Some (Ok (after_saving k z))).
Proof.
  intros HT Hd Hc Hpc Hps Hp HL Ha Hnm Hz Hns.
  destruct (C75_life c ext t l D s D' s' HT Hd Hc Hpc Hps Hp HL) as (_ & _ & _ & _ & Hch & Hla).
  (* at the end of every later session *)
  assert (Hlater : forall n b, l !! (i + n) = Some b -> exists z', f_end b k nm = Some (Ok z') /\ after_saving k z' = after_saving k z).
  { induction n as [|n IH]; intros b Hb.
    - rewrite Nat.add_0_r, Ha in Hb. injection Hb as <-. by exists z.
    - assert (Hb0 : i + n < length l) by (apply lookup_lt_Some in Hb; lia). apply lookup_lt_is_Some in Hb0 as [b0 Hb0]. destruct (IH b0 Hb0) as (z0 & E0 & Es).
      destruct (Hch (i + n) b0 b Hb0) with (k := k) (nm := nm) as [_ H2]; [by rewrite <- Nat.add_succ_r|]. specialize (H2 z0 Hnm E0).
      destruct (day_values c ext t l D s D' s' _ b HT Hd Hc Hpc Hps Hp HL Hb) as (odd & t' & S0 & r & vs & HL0 & Hp0 & Hv0 & Hq0 & Es0 & Ee0 & _).
      assert (Hn0 : not_set nm b). { rewrite Forall_forall in Hns. apply Hns. apply elem_of_list_lookup. exists n. rewrite lookup_drop. by rewrite <- Hb; f_equal; lia. }
      exists (after_saving k z0). split; [|by rewrite saving_twice]. rewrite Ee0, (not_set_end odd t' S0 r vs) by done. by rewrite <- Es0. }
  assert (Hlt : i < length l) by (by apply lookup_lt_Some in Ha).
  assert (Hl : is_Some (l !! (i + (length l - 1 - i)))) by (apply lookup_lt_is_Some; lia). destruct Hl as [b Hb]. destruct (Hlater _ b Hb) as (z' & E' & Es').
  assert (Hlast : last l = Some b). { rewrite last_lookup, <- Hb. f_equal. lia. }
  intros S0 r0 odd0 HL0 E0. destruct (Hla b Hlast S0 r0 odd0 HL0 E0) as (vs & Hv & Hra). exists vs. split; [done|]. rewrite <- Es'. by apply Hra.
Qed.
Print Assumptions C75_stays.

(** C75.  After any number of sessions a user field has the value assigned last, in whichever
    session that was, and so has a variable that is shown in the document. *)
Theorem C75_last `{U : Unicode} `{F : PyFloat} `{B : Bytes} c ext t (l : list fday) D s D' s' i a before k nm u after w :
  is_type (mimetype D) ext t -> document (mimetype D) (mgr s) -> complete t (mgr s) -> plain_content t (objects (mgr s) 2) ->
  (forall p, source (mgr s) = SFile p -> plain_name p) -> Forall (fun a => plain_name (sn_file (f_sit a))) l ->
  var_life c t l D s D' s' -> l !! i = Some a -> f_sets a = before ++ (k, nm, u) :: after ->
  Forall (fun b => b.1.2 <> nm) after -> Forall (not_set nm) (drop (S i) l) -> is_Some (f_start a k nm) -> shown u w ->
  (k = FUser -> ~ falsy u -> exists z, VariablesSpec.reads_as u z /\ reads_fields t (objects (mgr s') 2) (fun rd => rd k nm = Some (Ok z))) /\
  (k = FVar -> f_inst a nm -> exists z, inst_reads_as u z /\ reads_fields t (objects (mgr s') 2) (fun rd => rd k nm = Some (Ok (after_saving k z)))).
Proof.
  intros HT Hd Hc Hpc Hps Hp HL Ha Hset Haft Hns Hst Hsh.
  destruct (day_values c ext t l D s D' s' _ a HT Hd Hc Hpc Hps Hp HL Ha) as (odd & t' & S0 & r & vs & HL0 & Hp0 & Hv0 & Hq0 & Es0 & Ee0 & Ei0).
  assert (Hnm : 39%N ∉ nm). { rewrite Hset in Hq0. apply Forall_app in Hq0 as [_ [Hq1 _]%Forall_cons]. exact Hq1. }
  assert (Hin : vs_contains (vs k) (KStr nm) = true). { rewrite Es0 in Hst. unfold read_fields in Hst. destruct (vs_contains (vs k) (KStr nm)); [done|by destruct Hst]. }
  destruct (T_VarLife.C72_values odd t' S0 r vs (f_sets a) HL0 Hp0 Hv0 Hq0) as (_ & _ & _ & H4). destruct (H4 before k nm u after w Hset Hin Haft Hsh) as [HU HV].
  assert (Hend : forall z, field_value odd (vs k) nm (foldl (set_field odd vs) S0 (f_sets a)) = Ok z -> f_end a k nm = Some (Ok z)).
  { intros z Hz. rewrite Ee0. unfold read_fields. by rewrite Hin, Hz. }
  split.
  - intros -> Hf. destruct (HU eq_refl Hf) as (z & Hz & Hr). exists z. split; [done|]. exact (C75_stays c ext t l D s D' s' i a FUser nm z HT Hd Hc Hpc Hps Hp HL Ha Hnm (Hend z Hz) Hns).
  - intros -> Hi. rewrite Ei0 in Hi. destruct (HV eq_refl Hi) as (z & Hz & Hr). exists z. split; [done|]. exact (C75_stays c ext t l D s D' s' i a FVar nm z HT Hd Hc Hpc Hps Hp HL Ha Hnm (Hend z Hz) Hns).
Qed.
Print Assumptions C75_last.

(** C75.  The meta data are what the calls of all sessions make of what was there at first (C68),
    the styles stay. *)
Theorem C75_meta `{U : Unicode} `{F : PyFloat} `{B : Bytes} c ext t (l : list fday) D s D' s' (m : elem) :
  is_type (mimetype D) ext t -> document (mimetype D) (mgr s) -> complete t (mgr s) -> plain_content t (objects (mgr s) 2) ->
  (forall p, source (mgr s) = SFile p -> plain_name p) -> Forall (fun a => plain_name (sn_file (f_sit a))) l ->
  meta_of (objects (mgr s) 0) = Some m -> var_life c t l D s D' s' ->
  exists m', meta_of (objects (mgr s') 0) = Some m' /\
    (forall key, alookup key META_TAGS <> None -> field key m' = field_life key (map f_sit l) (field key m)) /\
    words m' = words_life (map f_sit l) (words m) /\ users m' = users_life (map f_sit l) (users m) /\
    (forall key, key ∈ STAT_TYPES -> stat key m' = stat_life key (map f_sit l) (stat key m)) /\
    parsed (objects (mgr s') 1) = parsed (objects (mgr s) 1).
Proof.
  intros HT Hd Hc Hpc Hps Hp Hm HL. revert m HT Hd Hc Hpc Hps Hp Hm.
  induction HL as [D s|x odd vs ps l D s S r r' D1 s1 s2 D3 s3 D4 s4 Ho Er Hvs Hq Hr' Ew Hfile Hn Hk Eo HL IH]; intros m HT Hd Hc Hpc Hps Hp Hm; [by exists m|].
  apply Forall_cons in Hp as [Hp1 Hp]. cbn [f_sit] in Hp1.
  destruct (field_session c ext t x D s odd vs ps S r r' D1 s1 s2 m HT Hd Hc Hps Hp1 Hm Hpc Ho Er Hvs Hq Hr' Ew Hfile Hn Hk) as (s3' & E3 & Hd3 & Hc3 & S3 & Hst & Hm3 & O1 & Hpc3 & _).
  rewrite E3 in Eo. injection Eo as -> <-. cbn [mimetype] in IH. set (m3 := parsed (play (all_ops x) m)) in *.
  destruct (IH m3) as (m' & Hm4 & F1 & F2 & F3 & F4 & O4); try done.
  { intros p. rewrite S3. by intros [= <-]. }
  exists m'. cbn [map f_sit]. split_and!; try done.
  - intros key Hkey. rewrite (F1 key Hkey). unfold m3. rewrite parsed_field. unfold field_life at 2. cbn [foldl].
    rewrite (run_fold (field key) (entry_after key)); [done|done|]. intros. by apply step_entry.
  - rewrite F2. unfold m3. rewrite parsed_words. unfold words_life at 2. cbn [foldl]. rewrite (run_fold words words_after); [|done|exact step_words]. unfold all_ops. by rewrite words_end.
  - rewrite F3. unfold m3. rewrite parsed_users. unfold users_life at 2. cbn [foldl]. rewrite (run_fold users users_after); [|done|exact step_users]. unfold all_ops. by rewrite users_end.
  - intros key Hkey. rewrite (F4 key Hkey). unfold m3. rewrite parsed_stat. unfold stat_life at 2. cbn [foldl]. rewrite (run_fold (stat key) (stat_after key)); [|done|intros; by apply step_stat]. unfold all_ops. by rewrite stat_end.
  - by rewrite O4, O1, parsed_again.
Qed.
Print Assumptions C75_meta.

(** ** A case: the document of C72_case; "a" and "b" are assigned in the first session, "a" again
    in the second. *)
Section case.
Local Existing Instance ascii_unicode.
Local Existing Instance tree_bytes.
Local Existing Instance int_float.
Import T_VarLife.
Notation odd := T_Variables.odd48.
Definition sit75 : sitting := Sitting [KAdd (Some (lit "k"))] [] (lit "2020") (lit "G") T_Document.file_a.
Definition sit75b : sitting := Sitting [KAdd (Some (lit "j"))] [] (lit "2021") (lit "G") T_Document.file_b.
Definition r75' : node := default mem72 (sub (nid r72) done72).
Definition saved75 := field_work sit75 (erase r75') doc72 opened72.1.
Definition next75 := opendoc T_Document.noon (FromFile T_Document.file_a) (refuel saved75.1).
Definition r75 : node := (label (objects (mgr next75.1) 2) 1).1.
Definition mem75 : node := T (L 0 (Nd "" ∅ None None)) [r75].
Definition vs75 (f : family) : variables := match doc_fields f "office:text" r75 mem75 with Ok v => v | Err _ => Vars 0 ∅ end.
Definition ps75 : list (family * pystr * pyval) := [(FVar, lit "a", VStr (lit "y"))].
Definition done75 : node := foldl (set_field odd vs75) mem75 ps75.
Definition r75b : node := default mem75 (sub (nid r75) done75).
Definition saved75b := field_work sit75b (erase r75b) doc72 next75.1.
Definition next75b := opendoc T_Document.noon (FromFile T_Document.file_b) (refuel saved75b.1).
Definition doc75 : doc := Doc (Some T_Document.file_b) (full_type "text") "odt" true.
Lemma sub75 : sub (nid r72) (foldl (set_field odd vs72) mem72 ps72) = Some r75'.
Proof. by_vm. Qed.
Lemma saved75_eq : field_work sit75 (erase r75') doc72 opened72.1 = (saved75.1, Done (Ok doc72)).
Proof. exact (pair_by saved75 _ ltac:(by_vm)). Qed.
Local Opaque opened72 saved75 r75'.
Lemma next75_eq : opendoc T_Document.noon (FromFile T_Document.file_a) (refuel saved75.1) = (next75.1, Done (Ok doc72)).
Proof. exact (pair_by next75 _ ltac:(by_vm)). Qed.
Lemma loaded75 : loaded mem75 r75.
Proof. split; [unfold wfs; dec_vm|left]. Qed.
Lemma erase75 : erase r75 = objects (mgr next75.1) 2.
Proof. by_vm. Qed.
Lemma fields75 k : doc_fields k "office:text" r75 mem75 = Ok (vs75 k).
Proof. destruct k; by_vm. Qed.
Lemma sub75b : sub (nid r75) (foldl (set_field odd vs75) mem75 ps75) = Some r75b.
Proof. by_vm. Qed.
Local Opaque next75 r75b.
Lemma saved75b_eq : field_work sit75b (erase r75b) doc72 next75.1 = (saved75b.1, Done (Ok doc75)).
Proof. exact (pair_by saved75b _ ltac:(by_vm)). Qed.
Local Opaque saved75b.
Lemma next75b_eq : opendoc T_Document.noon (FromFile T_Document.file_b) (refuel saved75b.1) = (next75b.1, Done (Ok doc75)).
Proof. exact (pair_by next75b _ ltac:(by_vm)). Qed.
Local Opaque next75b.
Lemma var_step c t x od vs ps l D s S (r r' : node) D1 s1 D3 s3 D4 s4 :
  loaded S r -> erase r = objects (mgr s) 2 -> (forall k, doc_fields k t r S = Ok (vs k)) -> Forall plain_field ps ->
  sub (nid r) (foldl (set_field od vs) S ps) = Some r' ->
  field_work x (erase r') D s = (s1, Done (Ok D1)) -> opendoc c (FromFile (sn_file x)) (refuel s1) = (s3, Done (Ok D3)) ->
  var_life c t l D3 s3 D4 s4 ->
  var_life c t (FDay x (read_fields od vs S) (fun nm => exists y, instance S (nid r) nm y) ps (read_fields od vs (foldl (set_field od vs) S ps)) :: l) D s D4 s4.
Proof. intros. eapply vl_cons; [eassumption..| | | |eassumption|eassumption]; [done|apply refuel_fine|apply refuel_fine]. Qed.
(** the hypotheses of the theorems above; "b" is assigned in the first session only, "a" is shown *)
Example C75_case :
  is_type (mimetype doc72) "odt" "office:text" /\ document (mimetype doc72) (mgr opened72.1) /\ complete "office:text" (mgr opened72.1) /\
  plain_content "office:text" (objects (mgr opened72.1) 2) /\
  (forall p, source (mgr opened72.1) = SFile p -> plain_name p) /\ (exists m, meta_of (objects (mgr opened72.1) 0) = Some m) /\
  exists a1 a2, Forall (fun a => plain_name (sn_file (f_sit a))) [a1; a2] /\
    var_life T_Document.noon "office:text" [a1; a2] doc72 opened72.1 doc75 next75b.1 /\
    f_sets a1 = [(FVar, lit "a", VStr (lit "x"))] ++ (FUser, lit "b", VInt 7) :: [(FVar, lit "none", VInt 1); (FVar, lit "a", VStr [])] /\
    not_set (lit "b") a2 /\ is_Some (f_start a1 FUser (lit "b")) /\ f_inst a1 (lit "a") /\
    f_end a1 FUser (lit "b") = Some (Ok (VFloat (7%Z : pfloat (PyFloat := int_float)))) /\
    f_start a2 FVar (lit "a") = Some (Ok VNone) /\ f_end a2 FVar (lit "a") = Some (Ok (VStr (lit "y"))).
Proof.
  destruct C72_case as (HL & Er & Hp & Hvs & Hq & _ & HT & Hd & Hc & Hps & _ & _ & Hb & Hi & _).
  split; [exact HT|]. split; [exact Hd|]. split; [exact Hc|].
  split. { intros r E f d Hdd. pose proof (decls_erase f "office:text" r) as H1. pose proof (decls_erase f "office:text" r72) as H2. rewrite E, Er in H1. rewrite <- H1, Hdd in H2.
    destruct (decls_in f "office:text" r72) as [d2|] eqn:E2; [|discriminate H2]. injection H2 as H2. specialize (Hp f d2 E2).
    assert (Hk : Forall (fun k => e_tag k = decl_tag f) (map erase (kids d2))). { apply Forall_map. eapply Forall_impl; [exact Hp|]. intros k Hk. cbn. by rewrite <- ltag_erase. }
    rewrite <- erase_kids, H2, erase_kids in Hk. rewrite Forall_map in Hk. eapply Forall_impl; [exact Hk|]. intros k Hkk. cbn in Hkk. by rewrite ltag_erase. }
  split; [exact Hps|]. split; [destruct Hc as ((_ & m & Hm & _) & _); by exists m|].
  eexists _, _. split; [|split; [eapply (var_step T_Document.noon _ sit75); [exact HL|exact (eq_sym Er)|exact Hvs|exact Hq|exact sub75|exact saved75_eq|exact next75_eq|];
    eapply (var_step T_Document.noon _ sit75b); [exact loaded75|exact erase75|exact fields75| |exact sub75b|exact saved75b_eq|exact next75b_eq|apply vl_nil]|]].
  - apply Forall_cons_2; [exact T_Document.plain_a|apply Forall_cons_2; [exact plain_b|by apply Forall_nil_2]].
  - unfold ps75, plain_field. apply Forall_cons_2; [dec_vm|apply Forall_nil_2].
  - cbn [f_sets f_start f_end f_inst not_set]. split; [exact eq_refl|]. split; [apply Forall_cons_2; [dec_vm|apply Forall_nil_2]|].
    split; [unfold read_fields; rewrite Hb; by eexists|]. split; [exact Hi|]. split; [by_vm|]. split; by_vm.
Qed.
End case.
