(** Facts about packages and saving. *)
From Verif Require Export FileSpec.

Section sysfacts.
Context `{B : Bytes}.

(** What a step that may write to [p] leaves alone. *)
Record quiet (p : option pystr) (s s' : st) : Prop := Quiet {
  q_files : forall q, p <> Some q -> files (mach s') !! q = files (mach s) !! q;
  q_rnd : rnd (mach s') = rnd (mach s);
  q_env : exists u, env (mach s) = u ++ env (mach s') }.
Lemma quiet_refl p s : quiet p s s.
Proof. split; [done|done|by exists []]. Qed.
Local Hint Resolve quiet_refl : core.
Lemma quiet_trans p s1 s2 s3 : quiet p s1 s2 -> quiet p s2 s3 -> quiet p s1 s3.
Proof.
  intros [A1 A2 [u A3]] [B1 B2 [v B3]]. split; [|congruence|exists (u ++ v); rewrite A3, B3; by rewrite (assoc_L (++))].
  intros q Hq. by rewrite B1, A1.
Qed.
Lemma quiet_weak p s s' : quiet None s s' -> quiet p s s'.
Proof. intros [A1 A2 A3]. split; [|done|done]. intros q _. by apply A1. Qed.
Lemma no_failure_quiet p s s' : quiet p s s' -> no_failure s -> no_failure s'.
Proof. intros [_ _ [u E]] H. unfold no_failure in *. rewrite E in H. set_solver. Qed.
Lemma fails_dec (l : list event) : Fail ∈ l \/ Fail ∉ l.
Proof.
  induction l as [|x l IH]; [right; apply not_elem_of_nil|]. rewrite elem_of_cons.
  destruct IH as [IH|IH]; [by left; right|]. destruct x; [right|by left; left|right]; by intros [?|?].
Qed.

Lemma junk_spec p e s s' o : junk mach upd_mach p e s = (s', o) ->
  (forall q, p <> q -> files (mach s') !! q = files (mach s) !! q) /\ rnd (mach s') = rnd (mach s) /\ mgr s' = mgr s /\
  (exists u, e = u ++ env (mach s')) /\ (o = Some false -> Fail ∈ e) /\
  (is_Some (files (mach s) !! p) -> is_Some (files (mach s') !! p)).
Proof.
  revert s. induction e as [|[| |b] e IH]; intros s; cbn.
  - intros [= <- <-]. split_and!; try done. by exists [].
  - intros [= <- <-]. split_and!; try done. by exists [Go].
  - intros [= <- <-]. split_and!; try done; [by exists [Fail]|]. intros _. by left.
  - intros E. destruct (IH _ E) as (I1 & I2 & I3 & (u & I4) & I5 & I6). split_and!; [|done|done| | |].
    + intros q Hq. rewrite I1 by done. cbn. by rewrite lookup_insert_ne.
    + exists (Junk b :: u). cbn. by f_equal.
    + intros Ho. right. by apply I5.
    + intros _. apply I6. cbn. rewrite lookup_insert. by eexists.
Qed.
Lemma writing_spec p s s' o : sys_writing p s = (s', o) ->
  quiet p s s' /\ mgr s' = mgr s /\ (forall x, o = Done (Err x) -> x = IOError /\ ~ no_failure s) /\
  (forall q, is_Some (files (mach s) !! q) -> is_Some (files (mach s') !! q)).
Proof.
  destruct p as [p|]; cbn.
  - unfold writing. destruct (junk _ _ _ _ s) as [s1 o1] eqn:E. destruct (junk_spec _ _ _ _ _ E) as (I1 & I2 & I3 & I4 & I5 & I6).
    intros E2. assert (s1 = s') as -> by (by destruct o1 as [[]|]; injection E2).
    split_and!; [split; [|done|done]|done| |].
    + intros q Hq. apply I1. congruence.
    + intros x ->. destruct o1 as [[]|]; try done. injection E2 as <-. split; [done|]. intros Hn. apply Hn. by apply I5.
    + intros q. destruct (decide (p = q)) as [<-|Hq]; [done|]. by rewrite I1.
  - intros [= <- <-]. split_and!; done.
Qed.
Lemma writestr_spec p e z s s' o : writestr p e z s = (s', o) ->
  quiet p s s' /\ mgr s' = mgr s /\ (forall z', o = Done (Ok z') -> z' = z ++ [e]) /\
  (forall x, o = Done (Err x) -> x = IOError /\ ~ no_failure s) /\
  (forall q, is_Some (files (mach s) !! q) -> is_Some (files (mach s') !! q)).
Proof.
  unfold writestr, pbind. destruct (sys_writing p s) as [s1 o1] eqn:E. destruct (writing_spec _ _ _ _ E) as (I1 & I2 & I3 & I4).
  destruct o1 as [|[[]|x]]; cbn; intros [= <- <-]; split_and!; try done.
  - intros z' [= <-]. done.
  - intros x' [= ->]. by apply I3.
Qed.

(** The outcome of a program that runs parts which may write to [p]: *)
Definition grows (s s' : st) : Prop := forall q, is_Some (files (mach s) !! q) -> is_Some (files (mach s') !! q).
Lemma grows_refl s : grows s s.
Proof. by intros q. Qed.
Local Hint Resolve grows_refl : core.
Lemma grows_trans s1 s2 s3 : grows s1 s2 -> grows s2 s3 -> grows s1 s3.
Proof. unfold grows. auto. Qed.

Definition entry_for (m : manager) (x : pystr * fobject) (e : entry bytes) : Prop :=
  exists b, fo_bytes m x.2 = Ok b /\ e = Entry (fo_name x.2) (fo_stored x.2) (Some b).
Lemma write_parts_spec p l z s s' o : write_parts p l z s = (s', o) ->
  quiet p s s' /\ mgr s' = mgr s /\ grows s s' /\
  (forall z', o = Done (Ok z') -> exists es, z' = z ++ es /\ Forall2 (entry_for (mgr s)) l es) /\
  (forall x, o = Done (Err x) -> ~ no_failure s \/ exists y, y ∈ l /\ fo_bytes (mgr s) y.2 = Err x).
Proof.
  revert z s. induction l as [|[k f] l IH]; intros z s; cbn [write_parts].
  - intros [= <- <-]. split_and!; try done. intros z' [= <-]. exists []. by rewrite app_nil_r.
  - destruct (fo_bytes (mgr s) f) as [b|x] eqn:Eb.
    + unfold pbind. destruct (writestr p _ z s) as [s1 o1] eqn:E1. destruct (writestr_spec _ _ _ _ _ _ E1) as (I1 & I2 & I3 & I4 & I5).
      destruct o1 as [|[z1|x]].
      * intros [= <- <-]. split_and!; try done.
      * intros E2. destruct (IH _ _ E2) as (J1 & J2 & J3 & J4 & J5). rewrite I2 in *. split_and!; [by eapply quiet_trans|congruence|by eapply grows_trans| |].
        -- intros z' Hz. destruct (J4 z' Hz) as (es & -> & Hes). rewrite (I3 z1 eq_refl).
           exists (Entry (fo_name f) (fo_stored f) (Some b) :: es). split; [by rewrite <- (assoc_L (++))|]. constructor; [by exists b|done].
        -- intros x Hx. destruct (J5 x Hx) as [Hn|(y & Hy & Hy2)]; [left; intros Hs; apply Hn; by eapply no_failure_quiet|].
           right. exists y. split; [by right|done].
      * intros [= <- <-]. split_and!; try done. intros x' [= <-]. left. by destruct (I4 x eq_refl).
    + intros [= <- <-]. split_and!; try done. intros x' [= <-]. right. exists (k, f). split; [by left|done].
Qed.

Lemma zip_read_ok name l b : zip_read name l = Ok b -> exists e, last (filter (fun x => en_name x = name) l) = Some e /\ en_data e = Some b.
Proof. unfold zip_read, zip_find. destruct (last _) as [e|]; [|done]. destruct (en_data e) eqn:E; [|done]. intros [= <-]. by exists e. Qed.
Lemma copy_entries_spec p ignore all l z s s' o : copy_entries p ignore all l z s = (s', o) ->
  quiet p s s' /\ mgr s' = mgr s /\ grows s s' /\
  (forall z', o = Done (Ok z') -> exists es, z' = z ++ es /\ Forall2 (copy_of all) (filter (fun e => en_name e ∉ ignore) l) es) /\
  (forall x, o = Done (Err x) -> ~ no_failure s \/ exists e, e ∈ l /\ en_name e ∉ ignore /\ zip_read (en_name e) all = Err x).
Proof.
  revert z s. induction l as [|e l IH]; intros z s; cbn [copy_entries].
  - intros [= <- <-]. split_and!; try done. intros z' [= <-]. exists []. rewrite app_nil_r. split; [done|constructor].
  - case_decide as Hi.
    + intros E. destruct (IH _ _ E) as (J1 & J2 & J3 & J4 & J5). split_and!; try done.
      * intros z' Hz. rewrite filter_cons_False by (intros Hx; by apply Hx). by apply J4.
      * intros x Hx. destruct (J5 x Hx) as [?|(y & ? & ?)]; [by left|]. right. exists y. split; [by right|done].
    + destruct (zip_read (en_name e) all) as [b|x] eqn:Eb.
      * unfold pbind. destruct (writestr p _ z s) as [s1 o1] eqn:E1. destruct (writestr_spec _ _ _ _ _ _ E1) as (I1 & I2 & I3 & I4 & I5).
        destruct o1 as [|[z1|x]].
        -- intros [= <- <-]. split_and!; try done.
        -- intros E2. destruct (IH _ _ E2) as (J1 & J2 & J3 & J4 & J5). split_and!; [by eapply quiet_trans|congruence|by eapply grows_trans| |].
           ++ intros z' Hz. destruct (J4 z' Hz) as (es & -> & Hes). rewrite (I3 z1 eq_refl).
              exists (Entry (en_name e) (en_stored e) (Some b) :: es). split; [by rewrite <- (assoc_L (++))|].
              rewrite filter_cons_True by done. constructor; [|done]. apply zip_read_ok in Eb as (e1 & H1 & H2).
              split_and!; [done|done|]. exists e1. cbn. rewrite H2. by split_and!.
           ++ intros x Hx. destruct (J5 x Hx) as [Hn|(y & Hy & Hy2)]; [left; intros Hs; apply Hn; by eapply no_failure_quiet|].
              right. exists y. split; [by right|done].
        -- intros [= <- <-]. split_and!; try done. intros x' [= <-]. left. by destruct (I4 x eq_refl).
      * intros [= <- <-]. split_and!; try done. intros x' [= <-]. right. exists e. split; [by left|done].
Qed.

Lemma read_spec p s s' o : sys_read p s = (s', o) ->
  quiet None s s' /\ mgr s' = mgr s /\ files (mach s') = files (mach s) /\
  (forall b, o = Done (Ok b) -> files (mach s) !! p = Some b) /\
  (forall x, o = Done (Err x) -> x = IOError /\ (~ no_failure s \/ files (mach s) !! p = None)).
Proof.
  unfold sys_read, read_file, syscall. destruct (env (mach s)) as [|[| |j] e] eqn:Ee.
  - intros [= <- <-]. split_and!; done.
  - destruct (files (mach s) !! p) as [b|] eqn:Ep; intros [= <- <-]; (split_and!; [split; cbn; [done|done|by exists [Go]]|done|done|..]); try done.
    + intros b' [= ->]. done.
    + intros x [= <-]. split; [done|by right].
  - intros [= <- <-]. split_and!; try done; [split; cbn; [done|done|by exists [Fail]]|]. intros x [= <-]. split; [done|]. left. intros Hn. apply Hn. rewrite Ee. by left.
  - destruct (files (mach s) !! p) as [b|] eqn:Ep; intros [= <- <-]; (split_and!; [split; cbn; [done|done|by exists [Junk j]]|done|done|..]); try done.
    + intros b' [= ->]. done.
    + intros x [= <-]. split; [done|by right].
Qed.
Lemma has_zip_spec s s' o : has_zip s = (s', o) ->
  quiet None s s' /\ mgr s' = mgr s /\ files (mach s') = files (mach s) /\ (forall x, o <> Done (Err x)) /\
  (o = Done (Ok true) -> match source (mgr s) with NoSource => False | SBytes _ => True
                         | SFile p => exists b l, files (mach s) !! p = Some b /\ zip_unpack b = Some l end) /\
  (o = Done (Ok false) -> no_failure s -> source_entries (files (mach s)) (source (mgr s)) = [] /\ forall b, source (mgr s) <> SBytes b).
Proof.
  unfold has_zip. destruct (source (mgr s)) as [|p|b].
  - intros [= <- <-]. split_and!; done.
  - unfold pcatch, pbind. destruct (sys_read p s) as [s1 o1] eqn:E. destruct (read_spec _ _ _ _ E) as (I1 & I2 & I3 & I4 & I5).
    destruct o1 as [|[b|x]]; intros [= <- <-]; split_and!; try done.
    + intros [= Hz]. exists b. unfold is_zip in Hz. destruct (zip_unpack b) as [l|] eqn:El; [|done]. exists l. split; [by apply I4|done].
    + intros [= Hz]. intros _. cbn. rewrite (I4 b eq_refl). unfold is_zip in Hz. split; [|done]. by destruct (zip_unpack b).
    + intros _ Hn. cbn. split; [|done]. destruct (I5 x eq_refl) as [_ [?| ->]]; done.
  - intros [= <- <-]. split_and!; done.
Qed.
Lemma copy_zip_to_spec p ignore z s s' o : copy_zip_to p ignore z s = (s', o) ->
  quiet p s s' /\ mgr s' = mgr s /\ grows s s' /\
  (forall z', o = Done (Ok z') -> exists es rest, z' = z ++ es /\ let src := source_entries (files (mach s)) (source (mgr s)) in
      Forall2 (copy_of src) (filter (fun e => en_name e ∉ ignore) rest) es /\ (rest = src \/ ~ no_failure s /\ rest = [])) /\
  (forall x, o = Done (Err x) -> ~ no_failure s \/
      (exists b, source (mgr s) = SBytes b /\ zip_unpack b = None) \/
      let src := source_entries (files (mach s)) (source (mgr s)) in
      exists e, e ∈ src /\ en_name e ∉ ignore /\ zip_read (en_name e) src = Err x).
Proof.
  unfold copy_zip_to. unfold pbind at 1. destruct (has_zip s) as [s1 o1] eqn:E1. destruct (has_zip_spec _ _ _ E1) as (I1 & I2 & I3 & I4 & I5 & I6).
  assert (Hg : forall s2, files (mach s2) = files (mach s) -> grows s s2) by (intros s2 E q; by rewrite E).
  destruct o1 as [|[[]|x]]; [| | |by destruct (I4 x)].
  - intros [= <- <-]. split_and!; try done; [by apply quiet_weak|by apply Hg].
  - specialize (I5 eq_refl). unfold pbind at 1, pcatch, pbind at 1.
    destruct (open_bytestream s1) as [s2 o2] eqn:E2. unfold open_bytestream in E2. rewrite I2 in E2.
    assert (H2 : quiet None s1 s2 /\ mgr s2 = mgr s1 /\ files (mach s2) = files (mach s) /\
      (forall b, o2 = Done (Ok b) -> source_entries (files (mach s)) (source (mgr s)) = default [] (zip_unpack b) /\ (zip_unpack b = None -> source (mgr s) = SBytes b)) /\
      (forall x, o2 = Done (Err x) -> x = IOError /\ ~ no_failure s)).
    { destruct (source (mgr s)) as [|q|b]; [done| |].
      - destruct I5 as (b & l & Hb & Hl). destruct (read_spec _ _ _ _ E2) as (J1 & J2 & J3 & J4 & J5). rewrite I3 in *.
        split_and!; try done.
        + intros b' ->. specialize (J4 b' eq_refl). cbn. rewrite J4. split; [done|]. intros Hn. simplify_eq.
        + intros x ->. destruct (J5 x eq_refl) as [-> [Hn|Hn]]; [|congruence]. split; [done|]. intros Hs. apply Hn. by eapply no_failure_quiet.
      - injection E2 as <- <-. split_and!; try done. intros b' [= <-]. done. }
    destruct H2 as (J1 & J2 & J3 & J4 & J5). destruct o2 as [|[b|x]].
    + intros [= <- <-]. split_and!; try done; [apply quiet_weak; by eapply quiet_trans|congruence|by apply Hg].
    + cbn. destruct (J4 b eq_refl) as [Hsrc Hbad]. unfold pbind, zip_open. destruct (zip_unpack b) as [l|] eqn:El; cbn.
      * intros E3. destruct (copy_entries_spec _ _ _ _ _ _ _ _ E3) as (K1 & K2 & K3 & K4 & K5).
        split_and!; [eapply quiet_trans; [apply quiet_weak; by eapply quiet_trans|done]|congruence|by eapply grows_trans; [apply Hg|]| |].
        -- intros z' Hz. destruct (K4 z' Hz) as (es & -> & Hes). exists es, l. rewrite Hsrc. cbn. split_and!; [done|done|by left].
        -- intros x Hx. destruct (K5 x Hx) as [Hn|He].
           ++ left. intros Hs. apply Hn. eapply no_failure_quiet; [|done]. by eapply quiet_trans.
           ++ right. right. by rewrite Hsrc.
      * intros [= <- <-]. split_and!; try done; [apply quiet_weak; by eapply quiet_trans|congruence|by apply Hg|].
        intros x _. right. left. exists b. split; [by apply Hbad|done].
    + destruct (J5 x eq_refl) as [-> Hn]. cbn. intros [= <- <-]. split_and!; try done; [apply quiet_weak; by eapply quiet_trans|congruence|by apply Hg|].
      intros z' [= <-]. exists [], []. rewrite app_nil_r. split_and!; [done|constructor|]. by right.
  - intros [= <- <-]. split_and!; try done; [by apply quiet_weak|by apply Hg|].
    intros z' [= <-]. exists []. rewrite app_nil_r. destruct (fails_dec (env (mach s))) as [Hf|Hf].
    + exists []. split_and!; [done|constructor|]. right. split; [|done]. intros Hn. by apply Hn.
    + destruct (I6 eq_refl Hf) as [Hs _]. exists []. split_and!; [done|constructor|]. by left.
Qed.

(** ** Dictionaries *)
Lemma dict_get_in {A} k (d : list (pystr * A)) v : dict_get k d = Some v -> (k, v) ∈ d.
Proof. induction d as [|[k' v'] d IH]; cbn; [done|]. case_decide as Hk; [intros [= <-]; subst; by left|]. intros E. right. by apply IH. Qed.
Lemma dict_get_None {A} k (d : list (pystr * A)) : dict_get k d = None <-> k ∉ map fst d.
Proof.
  induction d as [|[k' v'] d IH]; cbn; [split; [intros _; apply not_elem_of_nil|done]|]. rewrite not_elem_of_cons. case_decide as Hk; [split; [done|by intros [? _]]|].
  rewrite IH. split; [by intros ?|by intros [_ ?]].
Qed.
Lemma dict_get_nodup {A} k (d : list (pystr * A)) v : NoDup (map fst d) -> (k, v) ∈ d -> dict_get k d = Some v.
Proof.
  induction d as [|[k' v'] d IH]; cbn; [by rewrite elem_of_nil|]. rewrite NoDup_cons, elem_of_cons. intros [H1 H2] [[= -> ->]|Hin]; [by rewrite decide_True|].
  rewrite decide_False; [by apply IH|]. intros ->. apply H1. apply elem_of_list_fmap. by exists (k, v).
Qed.
Lemma dict_get_find {A} k (d : list (pystr * A)) :
  dict_get k d = match list_find (fun x => x.1 = k) d with Some (_, (_, v)) => Some v | None => None end.
Proof.
  induction d as [|[k' v'] d IH]; cbn; [done|]. case_decide as Hk; [done|]. rewrite IH. by destruct (list_find _ d) as [[i [k1 v1]]|].
Qed.
Lemma part_bytes_get m name : part_bytes m name = fo_bytes m <$> dict_get name (directory m).
Proof. unfold part_bytes. rewrite dict_get_find. by destruct (list_find _ _) as [[i [k1 v1]]|]. Qed.
Lemma dict_set_fresh {A} k (v : A) d : k ∉ map fst d -> dict_set k v d = d ++ [(k, v)].
Proof.
  induction d as [|[k' v'] d IH]; cbn; [done|]. rewrite not_elem_of_cons. intros [H1 H2]. rewrite decide_False by done. by rewrite IH.
Qed.
Lemma dict_set_keys {A} k (v : A) d : map fst (dict_set k v d) = if decide (k ∈ map fst d) then map fst d else map fst d ++ [k].
Proof.
  induction d as [|[k' v'] d IH]; cbn; [done|]. destruct (decide (k' = k)) as [->|Hk]; cbn.
  - rewrite decide_True by (by left). done.
  - rewrite IH. destruct (decide (k ∈ map fst d)) as [Hd|Hd].
    + rewrite decide_True by (by right). done.
    + rewrite decide_False; [done|]. rewrite elem_of_cons. by intros [?|?].
Qed.
Lemma dict_get_set {A} k k' (v : A) d : dict_get k' (dict_set k v d) = if decide (k = k') then Some v else dict_get k' d.
Proof.
  induction d as [|[k1 v1] d IH]; cbn; [done|]. destruct (decide (k1 = k)) as [->|Hk]; cbn.
  - by destruct (decide (k = k')).
  - destruct (decide (k1 = k')) as [->|H1]; [by rewrite decide_False by congruence|done].
Qed.
Lemma dict_del_keys {A} k (d : list (pystr * A)) : map fst (dict_del k d) = filter (fun x => x <> k) (map fst d).
Proof. unfold dict_del. induction d as [|[k1 v1] d IH]; [done|]. cbn [map fst]. rewrite !filter_cons. cbn. case_decide; cbn; by rewrite IH. Qed.
Lemma dict_get_del {A} k k' (d : list (pystr * A)) : dict_get k' (dict_del k d) = if decide (k = k') then None else dict_get k' d.
Proof.
  unfold dict_del. induction d as [|[k1 v1] d IH]; [by case_decide|]. rewrite filter_cons. cbn. destruct (decide (k1 <> k)) as [H|H]; cbn [dict_get].
  - rewrite IH. destruct (decide (k1 = k')) as [->|]; [by rewrite decide_False by congruence|done].
  - assert (k1 = k) as -> by (by destruct (decide (k1 = k))). rewrite IH. by destruct (decide (k = k')).
Qed.

Lemma register_tidy name c media m : tidy m -> tidy (register name c media m).
Proof.
  intros [H1 H2]. split; cbn.
  - rewrite dict_set_keys. case_decide as Hd; [done|]. apply NoDup_app. split_and!; [done| |apply NoDup_singleton]. intros x Hx ->%elem_of_list_singleton. done.
  - clear H1. induction (directory m) as [|[k f] d IH]; cbn; [by constructor|]. apply Forall_cons in H2 as [Hf Hd]. case_decide as Hk.
    + by constructor.
    + constructor; [done|]. by apply IH.
Qed.
Lemma register_registered name c media m x : registered (register name c media m) x <-> x = name \/ registered m x.
Proof.
  unfold registered. cbn. rewrite dict_set_keys. case_decide as Hd; [split; [by right|by intros [->|?]]|].
  rewrite elem_of_app, elem_of_list_singleton. tauto.
Qed.

(** ** Packages *)

(** The managers that [_tozip] goes through. *)
Definition popped (m : manager) : manager := with_directory (dict_del MIMETYPE (directory m)) m.
Definition stored_part (f : fobject) : fobject := FObject (fo_name f) (fo_element f) (fo_media f) true.
Definition pushed (f : fobject) (m : manager) : manager :=
  with_directory (dict_del MIMETYPE (directory m) ++ [(MIMETYPE, stored_part f)]) m.
Lemma not_in_del m : MIMETYPE ∉ map fst (dict_del MIMETYPE (directory m)).
Proof. rewrite dict_del_keys, elem_of_list_filter. by intros [? _]. Qed.
Lemma fo_bytes_eq m m' f : manifest m' = manifest m -> objects m' = objects m -> fo_bytes m' f = fo_bytes m f.
Proof. intros E1 E2. unfold fo_bytes. by rewrite E1, E2. Qed.
Lemma fo_bytes_stored m f : fo_bytes m (stored_part f) = fo_bytes m f.
Proof. done. Qed.

Lemma to_zip_spec p s s' o : to_zip p s = (s', o) ->
  quiet p s s' /\ grows s s' /\
  (mgr s' = mgr s \/ mgr s' = popped (mgr s) \/ exists f, dict_get MIMETYPE (directory (mgr s)) = Some f /\ mgr s' = pushed f (mgr s)) /\
  (forall es, o = Done (Ok es) -> exists f b parts rest copies s1,
     dict_get MIMETYPE (directory (mgr s)) = Some f /\ mgr s' = pushed f (mgr s) /\ fo_bytes (mgr s) f = Ok b /\
     es = Entry (fo_name f) true (Some b) :: parts ++ copies /\
     Forall2 (entry_for (mgr s)) (dict_del MIMETYPE (directory (mgr s))) parts /\
     quiet p s s1 /\ let src := source_entries (files (mach s1)) (source (mgr s)) in
     Forall2 (copy_of src) (filter (fun e => en_name e ∉ fo_name f :: map (fun x => fo_name x.2) (dict_del MIMETYPE (directory (mgr s)))) rest) copies /\
     (rest = src \/ ~ no_failure s /\ rest = [])) /\
  (forall x, o = Done (Err x) -> ~ no_failure s \/ dict_get MIMETYPE (directory (mgr s)) = None \/
     (exists y, y ∈ directory (mgr s) /\ fo_bytes (mgr s) y.2 = Err x) \/
     (exists b, source (mgr s) = SBytes b /\ zip_unpack b = None) \/
     exists s1 e, quiet p s s1 /\ let src := source_entries (files (mach s1)) (source (mgr s)) in
       e ∈ src /\ (exists f, dict_get MIMETYPE (directory (mgr s)) = Some f /\ en_name e ∉ fo_name f :: map (fun x => fo_name x.2) (dict_del MIMETYPE (directory (mgr s)))) /\ zip_read (en_name e) src = Err x).
Proof.
  unfold to_zip. destruct (dict_get MIMETYPE (directory (mgr s))) as [f|] eqn:Ef.
  2: { intros [= <- <-]. split_and!; try done; [by left|]. intros x _. by right; left. }
  unfold pbind at 1. set (s0 := upd_mgr _ s). cbn [mgr].
  assert (Q0 : quiet p s s0) by (split; [done|done|by exists []]).
  assert (M0 : mgr s0 = popped (mgr s)) by done. assert (G0 : grows s s0) by (by intros q).
  rewrite (fo_bytes_eq (mgr s)) by done. change (fo_bytes (mgr s) (FObject _ _ _ true)) with (fo_bytes (mgr s) f).
  destruct (fo_bytes (mgr s) f) as [b|x] eqn:Eb.
  2: { intros [= <- <-]. split_and!; try done; [by right; left|]. intros x' [= <-]. right; right; left. exists (MIMETYPE, f). split; [by apply dict_get_in|done]. }
  unfold pbind at 1. destruct (writestr p _ [] s0) as [s1 o1] eqn:E1. destruct (writestr_spec _ _ _ _ _ _ E1) as (I1 & I2 & I3 & I4 & I5).
  assert (Q1 : quiet p s s1) by (by eapply quiet_trans). assert (M1 : mgr s1 = popped (mgr s)) by congruence. assert (G1 : grows s s1) by (by eapply grows_trans).
  destruct o1 as [|[z1|x]].
  { intros [= <- <-]. split_and!; try done. by right; left. }
  2: { intros [= <- <-]. split_and!; try done; [by right; left|]. intros x' [= <-]. left. intros Hn. destruct (I4 x eq_refl) as [_ []]. by eapply no_failure_quiet. }
  rewrite (I3 z1 eq_refl) in *. cbn [app]. unfold pbind at 1. destruct (write_parts p _ _ s1) as [s2 o2] eqn:E2.
  destruct (write_parts_spec _ _ _ _ _ _ E2) as (J1 & J2 & J3 & J4 & J5). rewrite M1 in *.
  assert (Q2 : quiet p s s2) by (by eapply quiet_trans). assert (G2 : grows s s2) by (by eapply grows_trans).
  destruct o2 as [|[z2|x]].
  { intros [= <- <-]. split_and!; try done. by right; left. }
  2: { intros [= <- <-]. split_and!; try done; [by right; left|]. intros x' [= <-]. destruct (J5 x eq_refl) as [Hn|(y & Hy & Hb)].
       - left. intros Hs. apply Hn. by eapply no_failure_quiet.
       - right; right; left. exists y. split; [|done]. cbn in Hy. unfold dict_del in Hy. by apply elem_of_list_filter in Hy as [_ Hy]. }
  destruct (J4 z2 eq_refl) as (parts & -> & Hparts). unfold pbind. set (s3 := upd_mgr _ s2).
  assert (M3 : mgr s3 = pushed f (mgr s)).
  { subst s3. unfold upd_mgr. cbn [mgr]. rewrite J2. unfold pushed, popped. cbn. by rewrite dict_set_fresh by apply not_in_del. }
  assert (Q3 : quiet p s s3) by (by destruct Q2). assert (G3 : grows s s3) by done.
  rewrite J2. cbn [directory popped with_directory fo_name]. destruct (copy_zip_to p _ _ s3) as [s4 o4] eqn:E4.
  destruct (copy_zip_to_spec _ _ _ _ _ _ E4) as (K1 & K2 & K3 & K4 & K5).
  intros [= <- <-]. split_and!.
  - by eapply quiet_trans.
  - by eapply grows_trans.
  - right; right. exists f. split; [done|congruence].
  - intros es Hes. destruct (K4 es Hes) as (copies & rest & -> & Hc & Hr). rewrite M3 in Hc, Hr. exists f, b, parts, rest, copies, s3.
    split_and!; try done; try congruence.
    destruct Hr as [?|[Hn ?]]; [by left|]. right. split; [|done]. intros Hs. apply Hn. by eapply no_failure_quiet.
  - intros x Hx. destruct (K5 x Hx) as [Hn|[Hb|(e & He & He2 & He3)]].
    + left. intros Hs. apply Hn. by eapply no_failure_quiet.
    + right; right; right; left. by rewrite M3 in Hb.
    + right; right; right; right. exists s3, e. rewrite M3 in He, He3. split_and!; try done. by exists f.
Qed.

Lemma tidy_get m name f : tidy m -> dict_get name (directory m) = Some f -> fo_name f = name.
Proof. intros [_ H] Hg. apply dict_get_in in Hg. rewrite Forall_forall in H. by apply (H (name, f)). Qed.
Lemma registered_get m name : registered m name <-> is_Some (dict_get name (directory m)).
Proof.
  unfold registered. rewrite <- not_eq_None_Some, dict_get_None. split; [tauto|].
  intros H. destruct (decide (name ∈ map fst (directory m))); [done|]. by destruct H.
Qed.
Lemma pushed_dir f m name : dict_get MIMETYPE (directory m) = Some f ->
  dict_get name (directory (pushed f m)) = if decide (name = MIMETYPE) then Some (stored_part f) else dict_get name (directory m).
Proof.
  intros Hf. unfold pushed. cbn [directory with_directory]. rewrite <- dict_set_fresh by apply not_in_del. rewrite dict_get_set, dict_get_del.
  destruct (decide (MIMETYPE = name)) as [<-|H1]; [by rewrite decide_True|]. destruct (decide (name = MIMETYPE)); [congruence|done].
Qed.
Lemma pushed_same f m : dict_get MIMETYPE (directory m) = Some f -> same_manager m (pushed f m).
Proof.
  intros Hf. split_and!; try done.
  - intros name. rewrite !registered_get, (pushed_dir f m name Hf). case_decide as Hn; [|done]. subst. rewrite Hf. split; by eexists.
  - intros name. rewrite !part_bytes_get, (pushed_dir f m name Hf). case_decide as Hn; [|done]. subst. by rewrite Hf.
Qed.
Lemma dict_del_in {A} k (d : list (pystr * A)) x : x ∈ dict_del k d -> x ∈ d.
Proof. unfold dict_del. by intros [_ ?]%elem_of_list_filter. Qed.
Lemma pushed_tidy f m : dict_get MIMETYPE (directory m) = Some f -> tidy m -> tidy (pushed f m).
Proof.
  intros Hf Ht. pose proof (tidy_get _ _ _ Ht Hf) as Hn. destruct Ht as [H1 H2]. split; cbn.
  - rewrite map_app, dict_del_keys. cbn. apply NoDup_app. split_and!; [by apply NoDup_filter| |apply NoDup_singleton].
    intros x Hx ->%elem_of_list_singleton. apply elem_of_list_filter in Hx as [? _]. done.
  - apply Forall_app. split; [|by repeat constructor]. apply Forall_forall. intros x Hx. rewrite Forall_forall in H2. apply H2. by eapply dict_del_in.
Qed.

Lemma entries_names m l es : Forall2 (entry_for m) l es -> map en_name es = map (fun x => fo_name x.2) l.
Proof. induction 1 as [|x e l es (b & _ & ->) _ IH]; cbn; [done|]. by rewrite IH. Qed.
Lemma filter_none {A} (P : A -> Prop) `{forall x, Decision (P x)} (l : list A) : (forall x, x ∈ l -> ~ P x) -> filter P l = [].
Proof.
  induction l as [|x l IH]; [done|]. intros H'. rewrite filter_cons_False by (apply H'; by left). apply IH. intros y Hy. apply H'. by right.
Qed.
Lemma filter_all {A} (P : A -> Prop) `{forall x, Decision (P x)} (l : list A) : (forall x, x ∈ l -> P x) -> filter P l = l.
Proof.
  induction l as [|x l IH]; [done|]. intros H'. rewrite filter_cons_True by (apply H'; by left). f_equal. apply IH. intros y Hy. apply H'. by right.
Qed.
Lemma filter_dec_irrel {A} (P Q : A -> Prop) (HP : forall x, Decision (P x)) (HQ : forall x, Decision (Q x)) (l : list A) :
  (forall x, x ∈ l -> P x <-> Q x) -> filter P l = filter Q l.
Proof.
  induction l as [|x l IH]; [done|]. intros H. assert (Hx : P x <-> Q x) by (apply H; by left). rewrite !filter_cons.
  assert (IH' : filter P l = filter Q l) by (apply IH; intros y Hy; apply H; by right).
  destruct (decide (P x)), (decide (Q x)); try tauto; by rewrite IH'.
Qed.
Lemma filter_one_key m (d : list (pystr * fobject)) es name f : NoDup (map fst d) -> Forall (fun x => fo_name x.2 = x.1) d ->
  Forall2 (entry_for m) d es -> dict_get name d = Some f ->
  exists b, fo_bytes m f = Ok b /\ filter (fun e => en_name e = name) es = [Entry name (fo_stored f) (Some b)].
Proof.
  intros H1 H2 H3. induction H3 as [|[k g] e d es (b & Hb & ->) H3 IH]; [done|]. apply NoDup_cons in H1 as [Hk H1]. apply Forall_cons in H2 as [Hg H2]. cbn in Hg, Hk. cbn [dict_get].
  destruct (decide (k = name)) as [Hn|Hn].
  - intros [= ->]. cbn in Hb. exists b. rewrite Hn in *. split; [done|]. rewrite filter_cons_True by done. cbn [snd] in *. rewrite Hg. f_equal. apply filter_none. intros e He Ee.
    apply Hk. rewrite <- Ee. assert (Hin : en_name e ∈ map en_name es) by (apply elem_of_list_fmap; by exists e). rewrite (entries_names _ _ _ H3) in Hin.
    apply elem_of_list_fmap in Hin as (x & -> & Hx). rewrite Forall_forall in H2. rewrite (H2 x Hx). apply elem_of_list_fmap. by exists x.
  - intros Hd. destruct (IH H1 H2 Hd) as (b' & E1 & E2). exists b'. split; [done|]. rewrite filter_cons_False; [done|]. cbn. by rewrite Hg.
Qed.
Lemma copies_names src l es : Forall2 (copy_of src) l es -> map en_name es = map en_name l.
Proof. induction 1 as [|x e l es (E & _) _ IH]; cbn; [done|]. by rewrite IH, E. Qed.

Lemma package_ok (m : manager) f b parts src rest copies :
  tidy m -> dict_get MIMETYPE (directory m) = Some f -> fo_bytes m f = Ok b ->
  Forall2 (entry_for m) (dict_del MIMETYPE (directory m)) parts ->
  Forall2 (copy_of src) (filter (fun e => en_name e ∉ fo_name f :: map (fun x => fo_name x.2) (dict_del MIMETYPE (directory m))) rest) copies ->
  package m src rest (Entry (fo_name f) true (Some b) :: parts ++ copies).
Proof.
  intros Ht Hf Hb Hp Hc. pose proof (tidy_get _ _ _ Ht Hf) as Hn. rewrite Hn in *. destruct Ht as [H1 H2].
  assert (H2' : Forall (fun x => fo_name x.2 = x.1) (dict_del MIMETYPE (directory m))).
  { apply Forall_forall. intros x Hx. rewrite Forall_forall in H2. apply H2. by eapply dict_del_in. }
  assert (Hreg : forall name, name ∈ MIMETYPE :: map (fun x => fo_name x.2) (dict_del MIMETYPE (directory m)) <-> registered m name).
  { intros name. replace (map (fun x => fo_name x.2) (dict_del MIMETYPE (directory m))) with (map fst (dict_del MIMETYPE (directory m))).
    - rewrite dict_del_keys, elem_of_cons, elem_of_list_filter. unfold registered. split; [|destruct (decide (name = MIMETYPE)); tauto].
      intros [-> | [_ ?]]; [|done]. apply elem_of_list_fmap. exists (MIMETYPE, f). split; [done|by apply dict_get_in].
    - apply map_ext_in. intros x Hx%elem_of_list_In. rewrite Forall_forall in H2'. by rewrite (H2' x Hx). }
  assert (Hcn : forall e, e ∈ copies -> ~ registered m (en_name e)).
  { intros e He. assert (Hin : en_name e ∈ map en_name copies) by (apply elem_of_list_fmap; by exists e). rewrite (copies_names _ _ _ Hc) in Hin.
    apply elem_of_list_fmap in Hin as (x & -> & Hx). apply elem_of_list_filter in Hx as [Hx _]. by rewrite <- Hreg. }
  assert (Hpn : forall e, e ∈ parts -> registered m (en_name e) /\ en_name e <> MIMETYPE).
  { intros e He. assert (Hin : en_name e ∈ map en_name parts) by (apply elem_of_list_fmap; by exists e). rewrite (entries_names _ _ _ Hp) in Hin.
    split; [apply Hreg; by right|]. apply elem_of_list_fmap in Hin as (x & -> & Hx). rewrite Forall_forall in H2'. rewrite (H2' x Hx).
    unfold dict_del in Hx. by apply elem_of_list_filter in Hx as [? _]. }
  assert (Hpm : registered m MIMETYPE) by (apply registered_get; by eexists).
  split_and!.
  - exists b. split; [|done]. rewrite part_bytes_get, Hf. cbn. by rewrite Hb.
  - intros name Hr. destruct (decide (name = MIMETYPE)) as [->|Hnm].
    + exists b, true. split; [rewrite part_bytes_get, Hf; cbn; by rewrite Hb|]. rewrite filter_cons_True by done. f_equal.
      apply filter_none. intros e [He|He]%elem_of_app; [by apply Hpn|]. intros E. apply (Hcn e He). by rewrite E.
    + apply registered_get in Hr as Hr'. destruct Hr' as [g Hg].
      assert (Hg' : dict_get name (dict_del MIMETYPE (directory m)) = Some g) by (rewrite dict_get_del; by rewrite decide_False).
      destruct (filter_one_key m (dict_del MIMETYPE (directory m)) parts name g) as (b' & E1 & E2); try done.
      { rewrite dict_del_keys. by apply NoDup_filter. }
      exists b', (fo_stored g). split; [rewrite part_bytes_get, Hg; cbn; by rewrite E1|].
      rewrite filter_cons_False by done. rewrite filter_app, E2. rewrite (filter_none _ copies); [done|].
      intros e He E. apply (Hcn e He). by rewrite E.
  - rewrite filter_cons_False by (by intros ?). rewrite filter_app. rewrite (filter_none _ parts) by (intros e He Hx; by apply Hx, Hpn).
    rewrite (filter_all _ copies) by done. cbn. erewrite filter_dec_irrel; [exact Hc|]. intros e _. cbn. by rewrite Hreg.
Qed.

(** ** Saving *)
Lemma tmp_search_spec base l s s' o : tmp_search base l s = (s', o) ->
  files (mach s') = files (mach s) /\ env (mach s') = env (mach s) /\ mgr s' = mgr s /\
  (forall x, o <> Done (Err x)) /\
  (forall tmp, o = Done (Ok tmp) -> files (mach s) !! tmp = None /\ exists r, r ∈ l /\ tmp = tmp_name base r).
Proof.
  revert s. induction l as [|r l IH]; intros s; cbn; [by intros [= <- <-]|]. case_decide as Hd.
  - intros E. destruct (IH _ E) as (I1 & I2 & I3 & I4 & I5). split_and!; try done. intros tmp Ht. destruct (I5 tmp Ht) as (? & r' & ? & ?).
    split; [done|]. exists r'. split; [by right|done].
  - intros [= <- <-]. split_and!; try done. intros tmp [= <-]. split; [by apply eq_None_not_Some|]. exists r. split; [by left|done].
Qed.

(** A package is complete in [tmp], or only [tmp] has changed. *)
Lemma syscall_spec {A} (f : gmap pystr bytes -> gmap pystr bytes * res A) s s' o : syscall mach upd_mach f s = (s', o) ->
  mgr s' = mgr s /\ rnd (mach s') = rnd (mach s) /\ (exists u, env (mach s) = u ++ env (mach s')) /\
  ((o = Stop /\ files (mach s') = files (mach s) /\ env (mach s) = []) \/
   (o = Done (Err IOError) /\ files (mach s') = files (mach s) /\ ~ no_failure s) \/
   (files (mach s') = (f (files (mach s))).1 /\ o = Done (f (files (mach s))).2)).
Proof.
  unfold syscall. destruct (env (mach s)) as [|[| |j] e] eqn:Ee.
  - intros [= <- <-]. split_and!; try done; [by exists []|by left].
  - destruct (f _) as [m r] eqn:Ef. intros [= <- <-]. split_and!; try done; [by exists [Go]|]. by right; right.
  - intros [= <- <-]. split_and!; try done; [by exists [Fail]|]. right; left. split_and!; try done. intros Hn. apply Hn. rewrite Ee. by left.
  - destruct (f _) as [m r] eqn:Ef. intros [= <- <-]. split_and!; try done; [by exists [Junk j]|]. by right; right.
Qed.
Lemma abandon_spec {A} p (m : prog st A) s s' o : sys_abandon p m s = (s', o) ->
  exists s1 o1, m s = (s1, o1) /\ quiet (Some p) s1 s' /\ mgr s' = mgr s1 /\
    (forall a, o = Done (Ok a) -> o1 = Done (Ok a) /\ s' = s1) /\ (forall x, o = Done (Err x) -> o1 = Done (Err x)).
Proof.
  unfold sys_abandon, abandon, pcatch. destruct (m s) as [s1 o1]. intros E. exists s1, o1. split; [done|].
  destruct o1 as [|[a|x]]; [injection E as <- <-; done| |].
  - injection E as <- <-. split_and!; done.
  - unfold pbind in E. pose proof (writing_spec (Some p) s1) as Hw. cbn in Hw. destruct (writing mach upd_mach p s1) as [s2 o2].
    destruct (Hw _ _ eq_refl) as (I1 & I2 & _). destruct o2 as [|[[]|x2]]; injection E as <- <-; done.
Qed.
Lemma write_package_spec tmp s s' o : write_package tmp s = (s', o) ->
  quiet (Some tmp) s s' /\
  (mgr s' = mgr s \/ mgr s' = popped (mgr s) \/ exists f, dict_get MIMETYPE (directory (mgr s)) = Some f /\ mgr s' = pushed f (mgr s)) /\
  (o = Done (Ok tt) -> exists f b parts rest copies s1 es,
     dict_get MIMETYPE (directory (mgr s)) = Some f /\ mgr s' = pushed f (mgr s) /\ fo_bytes (mgr s) f = Ok b /\
     es = Entry (fo_name f) true (Some b) :: parts ++ copies /\
     Forall2 (entry_for (mgr s)) (dict_del MIMETYPE (directory (mgr s))) parts /\
     quiet (Some tmp) s s1 /\ let src := source_entries (files (mach s1)) (source (mgr s)) in
     Forall2 (copy_of src) (filter (fun e => en_name e ∉ fo_name f :: map (fun x => fo_name x.2) (dict_del MIMETYPE (directory (mgr s)))) rest) copies /\
     (rest = src \/ ~ no_failure s /\ rest = []) /\
     files (mach s') !! tmp = Some (zip_pack es)) /\
  (forall x, o = Done (Err x) -> ~ no_failure s \/ dict_get MIMETYPE (directory (mgr s)) = None \/
     (exists y, y ∈ directory (mgr s) /\ fo_bytes (mgr s) y.2 = Err x) \/
     (exists b, source (mgr s) = SBytes b /\ zip_unpack b = None) \/
     exists s1 e, quiet (Some tmp) s s1 /\ let src := source_entries (files (mach s1)) (source (mgr s)) in
       e ∈ src /\ (exists f, dict_get MIMETYPE (directory (mgr s)) = Some f /\ en_name e ∉ fo_name f :: map (fun x => fo_name x.2) (dict_del MIMETYPE (directory (mgr s)))) /\ zip_read (en_name e) src = Err x).
Proof.
  unfold write_package. unfold pbind at 1. destruct (sys_open tmp s) as [s1 o1] eqn:E1.
  destruct (syscall_spec _ _ _ _ E1) as (I1 & I2 & I3 & I4).
  assert (Q1 : quiet (Some tmp) s s1).
  { split; [|done|done]. intros q Hq. destruct I4 as [(_ & -> & _)|[(_ & -> & _)|[-> _]]]; [done|done|]. cbn. rewrite lookup_insert_ne; [done|congruence]. }
  destruct o1 as [|[[]|x]].
  { intros [= <- <-]. split_and!; [done|by left|done|done]. }
  2: { intros [= <- <-]. split_and!; [done|by left|done|]. intros x' [= <-]. left. by destruct I4 as [(? & _)|[(_ & _ & ?)|[_ ?]]]. }
  unfold pbind at 1. destruct (sys_abandon tmp _ s1) as [s2 o2] eqn:E2.
  destruct (abandon_spec _ _ _ _ _ E2) as (s2' & o2' & Ez & J1 & J2 & J3 & J4).
  destruct (to_zip_spec _ _ _ _ Ez) as (K1 & K2 & K3 & K4 & K5). rewrite I1 in *.
  assert (Q2 : quiet (Some tmp) s s2) by (exact (quiet_trans _ _ _ _ Q1 (quiet_trans _ _ _ _ K1 J1))).
  assert (Hs1 : forall s0, quiet (Some tmp) s1 s0 -> quiet (Some tmp) s s0) by (intros s0 ?; by apply (quiet_trans _ s s1)).
  assert (Hnf : ~ no_failure s1 -> ~ no_failure s) by (intros Hn Hs; apply Hn; by eapply no_failure_quiet).
  destruct o2 as [|[z|x]].
  { intros [= <- <-]. rewrite J2. split_and!; done. }
  2: { intros [= <- <-]. rewrite J2. split_and!; try done. intros x' [= <-]. specialize (J4 x eq_refl). destruct (K5 x J4) as [?|[?|[?|[?|(s0 & e & ? & ?)]]]];
       [left; by apply Hnf|by right; left|by right; right; left|by right; right; right; left|]. right; right; right; right. exists s0, e. split; [by apply Hs1|done]. }
  destruct (J3 z eq_refl) as [-> ->]. destruct (K4 z eq_refl) as (f & b & parts & rest & copies & s0 & L1 & L2 & L3 & -> & L5 & L6 & L7 & L8).
  unfold sys_close, close_write, pbind. pose proof (writing_spec (Some tmp) s2') as Hw. cbn in Hw. destruct (writing mach upd_mach tmp s2') as [s3 o3].
  destruct (Hw _ _ eq_refl) as (W1 & W2 & W3 & _). destruct o3 as [|[[]|x]].
  - intros [= <- <-]. split_and!; [by apply (quiet_trans _ s s2')|rewrite W2; by right; right; exists f|done|done].
  - intros [= <- <-]. split_and!.
    + apply (quiet_trans _ s s2'); [done|]. apply (quiet_trans _ s2' s3); [done|]. split; [|done|by exists []]. intros q Hq. cbn. rewrite lookup_insert_ne; [done|congruence].
    + right; right. exists f. cbn. rewrite W2. done.
    + intros _. eexists f, b, parts, rest, copies, s0, _. cbn. rewrite W2, lookup_insert. split_and!; try done.
      * by apply Hs1.
      * destruct L8 as [?|[? ?]]; [by left|]. right. split; [by apply Hnf|done].
    + done.
  - intros [= <- <-]. split_and!; [by apply (quiet_trans _ s s2')|rewrite W2; by right; right; exists f|done|]. intros x' [= <-]. left. intros Hs.
    destruct (W3 x eq_refl) as [_ []]. by eapply no_failure_quiet.
Qed.

Lemma ends_bak_tmp (a b : pystr) : a ++ BAK <> b ++ lit ".tmp".
Proof.
  intros E. assert (E2 : last (a ++ BAK) = last (b ++ lit ".tmp")) by (by rewrite E).
  replace (a ++ BAK) with ((a ++ lit ".ba") ++ [107%N]) in E2 by (by rewrite <- (assoc_L (++))).
  replace (b ++ lit ".tmp") with ((b ++ lit ".tm") ++ [112%N]) in E2 by (by rewrite <- (assoc_L (++))).
  rewrite !last_snoc in E2. done.
Qed.
Lemma bak_not_tmp f r : f ++ BAK <> tmp_name f r.
Proof. unfold tmp_name. rewrite (assoc_L (++)). apply ends_bak_tmp. Qed.
Lemma bak_not_self f : f ++ BAK <> f.
Proof. intros E. apply (f_equal length) in E. rewrite app_length in E. cbn in E. lia. Qed.

Inductive progress (f tmp : pystr) (backup : bool) (fs : gmap pystr bytes) (new : bytes) : gmap pystr bytes -> Prop :=
  | PR_written : progress f tmp backup fs new (<[tmp := new]> fs)
  | PR_bak_gone old : backup = true -> fs !! f = Some old ->
      progress f tmp backup fs new (delete (f ++ BAK) (<[tmp := new]> fs))
  | PR_moved old : backup = true -> fs !! f = Some old ->
      progress f tmp backup fs new (<[f ++ BAK := old]> (delete f (<[tmp := new]> fs)))
  | PR_removed old : backup = false -> fs !! f = Some old ->
      progress f tmp backup fs new (delete f (<[tmp := new]> fs)).

Lemma syscall_ok {A} (f : gmap pystr bytes -> gmap pystr bytes * res A) s s' o : syscall mach upd_mach f s = (s', o) ->
  (files (mach s') = files (mach s) /\ mgr s' = mgr s /\ (forall a, o <> Done (Ok a)) /\ (forall x, o = Done (Err x) -> ~ no_failure s)) \/
  (files (mach s') = (f (files (mach s))).1 /\ mgr s' = mgr s /\ o = Done (f (files (mach s))).2 /\ (no_failure s -> no_failure s')).
Proof.
  intros E. destruct (syscall_spec _ _ _ _ E) as (I1 & I2 & (u & I3) & [(-> & I4 & _)|[(-> & I4 & I5)|(I4 & I5)]]).
  - left. done.
  - left. done.
  - right. split_and!; try done. unfold no_failure. rewrite I3. set_solver.
Qed.

Lemma make_room_spec f tmp backup fs new s s' o : f <> tmp -> f ++ BAK <> tmp -> files (mach s) = <[tmp := new]> fs ->
  make_room f backup s = (s', o) ->
  mgr s' = mgr s /\ progress f tmp backup fs new (files (mach s')) /\
  (forall x, o = Done (Err x) -> ~ no_failure s) /\ (no_failure s -> no_failure s' \/ o = Stop) /\
  (o = Done (Ok tt) -> match fs !! f with
    | Some old => files (mach s') = if backup then <[f ++ BAK := old]> (delete f (<[tmp := new]> fs)) else delete f (<[tmp := new]> fs)
    | None => files (mach s') = <[tmp := new]> fs end).
Proof.
  intros Hf Hb Hfs. unfold make_room. unfold pbind at 1. unfold sys_exists at 1, exists_file. rewrite Hfs, lookup_insert_ne by done.
  pose proof (bak_not_self f) as Hbf.
  destruct (fs !! f) as [old|] eqn:Eo.
  2: { rewrite bool_decide_eq_false_2 by (by intros []). intros [= <- <-]. rewrite Hfs. split_and!; try done; [constructor|by left]. }
  rewrite bool_decide_eq_true_2 by (by eexists). destruct backup.
  - cbn zeta. unfold pbind at 1. unfold sys_exists, exists_file. rewrite Hfs, lookup_insert_ne by done.
    (* second rename *)
    assert (H2 : forall s1, mgr s1 = mgr s -> files (mach s1) = delete (f ++ BAK) (<[tmp := new]> fs) \/ (files (mach s1) = <[tmp := new]> fs) ->
      (no_failure s -> no_failure s1) ->
      sys_rename f (f ++ BAK) s1 = (s', o) ->
      mgr s' = mgr s /\ progress f tmp true fs new (files (mach s')) /\
      (forall x, o = Done (Err x) -> ~ no_failure s) /\ (no_failure s -> no_failure s' \/ o = Stop) /\
      (o = Done (Ok tt) -> files (mach s') = <[f ++ BAK := old]> (delete f (<[tmp := new]> fs)))).
    { intros s1 M1 F1 N1 E. destruct (syscall_ok _ _ _ _ E) as [(I1 & I2 & I3 & I4)|(I1 & I2 & I3 & I4)].
      - rewrite I1. split_and!; try congruence.
        + destruct F1 as [-> | ->]; [by eapply PR_bak_gone|apply PR_written].
        + intros x Hx Hn. apply (I4 x Hx). by apply N1.
        + intros Hn. destruct (syscall_spec _ _ _ _ E) as (_ & _ & (u & Eu) & _). left. unfold no_failure in *. specialize (N1 Hn). rewrite Eu in N1. set_solver.
      - assert (F2 : files (mach s1) !! f = Some old) by (destruct F1 as [-> | ->]; rewrite ?lookup_delete_ne, lookup_insert_ne by done; done).
        rewrite F2 in *. cbn in I1, I3. assert (F3 : files (mach s') = <[f ++ BAK := old]> (delete f (<[tmp := new]> fs))).
        { rewrite I1. destruct F1 as [-> | ->]; [|done]. rewrite delete_commute, insert_delete_insert. done. }
        rewrite F3. split_and!; try congruence.
        + by eapply PR_moved.
        + intros Hn. left. auto. }
    unfold pbind at 1. destruct (bool_decide (is_Some (fs !! (f ++ BAK)))) eqn:Ebak.
    + destruct (sys_remove (f ++ BAK) s) as [s1 o1] eqn:E1. apply bool_decide_eq_true in Ebak as [bk Ebak].
      destruct (syscall_ok _ _ _ _ E1) as [(I1 & I2 & I3 & I4)|(I1 & I2 & I3 & I4)].
      * assert (N1 : no_failure s -> no_failure s1).
        { intros Hn. destruct (syscall_spec _ _ _ _ E1) as (_ & _ & (u & Eu) & _). unfold no_failure in *. rewrite Eu in Hn. set_solver. }
        destruct o1 as [|[[]|x]]; [| by destruct (I3 tt) |]; intros [= <- <-]; rewrite I1, Hfs; split_and!; try done; try apply PR_written; auto.
      * rewrite Hfs, lookup_insert_ne, Ebak in I1, I3 by done. cbn in I1, I3. rewrite I3. apply H2; auto.
    + apply H2; auto.
  - intros E. destruct (syscall_ok _ _ _ _ E) as [(I1 & I2 & I3 & I4)|(I1 & I2 & I3 & I4)].
    + rewrite I1, Hfs. split_and!; try done; [apply PR_written| |intros Ho; by apply I3 in Ho].
      intros Hn. destruct (syscall_spec _ _ _ _ E) as (_ & _ & (u & Eu) & _). left. unfold no_failure in *. rewrite Eu in Hn. set_solver.
    + rewrite Hfs, lookup_insert_ne, Eo in I1, I3 by done. cbn in I1, I3. rewrite I1. split_and!; try done.
      * by eapply PR_removed.
      * intros x Hx. congruence.
      * auto.
Qed.

Lemma save_spec f backup s s' o : (is_Some (files (mach s) !! f) \/ forall r, r ∈ rnd (mach s) -> tmp_name f r <> f) ->
  (forall p, source (mgr s) = SFile p -> is_Some (files (mach s) !! p) \/ forall r, r ∈ rnd (mach s) -> tmp_name f r <> p) ->
  save f backup s = (s', o) ->
  (o = Stop /\ files (mach s') = files (mach s) /\ mgr s' = mgr s) \/
  exists tmp r, r ∈ rnd (mach s) /\ tmp = tmp_name f r /\ files (mach s) !! tmp = None /\ f <> tmp /\
    ((o <> Done (Ok tt) /\ (forall q, q <> tmp -> files (mach s') !! q = files (mach s) !! q) /\
      (mgr s' = mgr s \/ mgr s' = popped (mgr s) \/ exists mt, dict_get MIMETYPE (directory (mgr s)) = Some mt /\ mgr s' = pushed mt (mgr s)) /\
      (forall x, o = Done (Err x) -> ~ no_failure s \/ dict_get MIMETYPE (directory (mgr s)) = None \/
         (exists y, y ∈ directory (mgr s) /\ fo_bytes (mgr s) y.2 = Err x) \/
         (exists b, source (mgr s) = SBytes b /\ zip_unpack b = None) \/
         let src := source_entries (files (mach s)) (source (mgr s)) in
         exists e mt, e ∈ src /\ dict_get MIMETYPE (directory (mgr s)) = Some mt /\
           en_name e ∉ fo_name mt :: map (fun x => fo_name x.2) (dict_del MIMETYPE (directory (mgr s))) /\ zip_read (en_name e) src = Err x)) \/
     exists new mt, new_version (mgr s) (files (mach s)) (~ no_failure s) new /\ dict_get MIMETYPE (directory (mgr s)) = Some mt /\
       ((o <> Done (Ok tt) /\ mgr s' = pushed mt (mgr s) /\ progress f tmp backup (files (mach s)) new (files (mach s')) /\
         (forall x, o = Done (Err x) -> ~ no_failure s)) \/
        (o = Done (Ok tt) /\ mgr s' = with_source (SFile f) (pushed mt (mgr s)) /\ files (mach s') = saved f backup new (files (mach s))))).
Proof.
  intros Hf Hsrc. unfold save. unfold pbind at 1. unfold tmpfilename. destruct (tmp_search f _ s) as [s1 o1] eqn:E1.
  destruct (tmp_search_spec _ _ _ _ _ E1) as (I1 & I2 & I3 & I4 & I5). destruct o1 as [|[tmp|x]]; [| |by destruct (I4 x)].
  { intros [= <- <-]. left. done. }
  destruct (I5 tmp eq_refl) as (Ht & r & Hr & Etmp). intros E. right. exists tmp, r.
  assert (Hft : f <> tmp).
  { destruct Hf as [[old Ho]|Hf]; [intros ->; by rewrite Ho in Ht|]. intros E0. apply (Hf r Hr). congruence. }
  assert (Hbt : f ++ BAK <> tmp) by (subst tmp; apply bak_not_tmp).
  split; [done|]. split; [done|]. split; [done|]. split; [done|].
  unfold pbind at 1 in E. destruct (write_package tmp s1) as [s2 o2] eqn:E2. destruct (write_package_spec _ _ _ _ E2) as (J1 & J2 & J3 & J4).
  rewrite I3 in *.
  assert (Hq : forall s0, quiet (Some tmp) s1 s0 -> source_entries (files (mach s0)) (source (mgr s)) = source_entries (files (mach s)) (source (mgr s))).
  { intros s0 [Q _ _]. destruct (source (mgr s)) as [|p|b] eqn:Es; [done| |done]. cbn. rewrite Q, I1; [done|]. intros [= <-].
    destruct (Hsrc tmp eq_refl) as [[b Hb]|Hb]; [by rewrite Hb in Ht|]. by apply (Hb r Hr). }
  assert (Hnf : ~ no_failure s1 -> ~ no_failure s) by (unfold no_failure; by rewrite I2).
  assert (Hfiles : forall q, q <> tmp -> files (mach s2) !! q = files (mach s) !! q).
  { intros q Hq'. rewrite <- I1. apply (q_files _ _ _ J1). congruence. }
  destruct o2 as [|[[]|x]].
  { injection E as <- <-. left. split_and!; done. }
  2: { injection E as <- <-. left. split_and!; try done. intros x' [= <-]. destruct (J4 x eq_refl) as [?|[?|[?|[?|(s0 & e & H0 & He & (mt & Hmt & Hn) & Hz)]]]];
       [left; by apply Hnf|by right; left|by right; right; left|by right; right; right; left|]. right; right; right; right. cbn zeta in *. rewrite Hq in He, Hz by done.
       by exists e, mt. }
  destruct (J3 eq_refl) as (mt & b & parts & rest & copies & s0 & es & L1 & L2 & L3 & L4 & L5 & L6 & L7 & L8 & L9).
  cbn zeta in *. rewrite Hq in L7, L8 by done.
  right. exists (zip_pack es), mt. split; [|split; [done|]].
  { exists es, rest. cbn zeta. split_and!; [done| |destruct L8 as [?|[? ?]]; auto]. intros Htidy. rewrite L4. by apply package_ok. }
  assert (F2 : files (mach s2) = <[tmp := zip_pack es]> (files (mach s))).
  { apply map_eq. intros q. destruct (decide (q = tmp)) as [->|Hqt]; [by rewrite lookup_insert|]. rewrite lookup_insert_ne by done. by apply Hfiles. }
  assert (Hn2 : no_failure s -> no_failure s2). { intros Hn. apply (no_failure_quiet _ _ _ J1). unfold no_failure. by rewrite I2. }
  unfold pbind at 1 in E. destruct (make_room f backup s2) as [s3 o3] eqn:E3.
  destruct (make_room_spec f tmp backup (files (mach s)) _ _ _ _ Hft Hbt F2 E3) as (M1 & M2 & M3 & M4 & M5).
  destruct o3 as [|[[]|x]].
  { injection E as <- <-. left. split_and!; try done; congruence. }
  2: { injection E as <- <-. left. split_and!; try done; [congruence|]. intros x' [= <-] Hn. apply (M3 x eq_refl). by apply Hn2. }
  specialize (M5 eq_refl). unfold pbind in E. destruct (sys_rename tmp f s3) as [s4 o4] eqn:E4.
  assert (F3 : files (mach s3) !! tmp = Some (zip_pack es)).
  { destruct (files (mach s) !! f) as [old|]; rewrite M5; [destruct backup|]; rewrite ?(lookup_insert_ne _ (f ++ BAK)), ?lookup_delete_ne, lookup_insert by done; done. }
  destruct (syscall_ok _ _ _ _ E4) as [(N1 & N2 & N3 & N4)|(N1 & N2 & N3 & N4)].
  - left. destruct o4 as [|[[]|x]]; [|by destruct (N3 tt)|]; injection E as <- <-; (split_and!; [done|congruence|by rewrite N1|]); [done|].
    intros x' [= <-] Hn. apply (N4 x eq_refl). destruct (M4 (Hn2 Hn)); done.
  - rewrite F3 in N1, N3. cbn in N1, N3. rewrite N3 in E. injection E as <- <-. right. split_and!; [done|cbn; congruence|].
    cbn. rewrite N1. unfold saved. change (lit ".bak") with BAK. apply map_eq. intros q.
    destruct (decide (q = f)) as [->|Hqf]; [by rewrite !lookup_insert|]. rewrite !(lookup_insert_ne _ f) by done.
    destruct (files (mach s) !! f) as [old|] eqn:Eo; rewrite M5; [destruct backup|].
    + destruct (decide (q = tmp)) as [->|Hqt]; [rewrite lookup_delete, lookup_insert_ne by done; done|]. rewrite lookup_delete_ne by done.
      destruct (decide (q = f ++ BAK)) as [->|Hqb]; [by rewrite !lookup_insert|]. rewrite !(lookup_insert_ne _ (f ++ BAK)) by done.
      by rewrite lookup_delete_ne, lookup_insert_ne by done.
    + destruct (decide (q = tmp)) as [->|Hqt]; [by rewrite lookup_delete|]. by rewrite !lookup_delete_ne, lookup_insert_ne by done.
    + destruct (decide (q = tmp)) as [->|Hqt]; [by rewrite lookup_delete|]. by rewrite lookup_delete_ne, lookup_insert_ne by done.
Qed.

Lemma plain_tmp f g r : plain_name g -> tmp_name f r <> g.
Proof. intros H E. apply H. exists (folder f ++ r). by rewrite <- E, <- (assoc_L (++)). Qed.

(** ** Runs that come to an end *)
Definition all_go (s : st) : Prop := Forall (fun e => e = Go) (env (mach s)).
Definition live {A} (k : nat) (m : prog st A) (s : st) : Prop :=
  all_go s -> k <= length (env (mach s)) ->
  (m s).2 <> Stop /\ all_go (m s).1 /\ length (env (mach s)) <= k + length (env (mach (m s).1)).
Lemma live_weak {A} k k' (m : prog st A) s : k <= k' -> live k m s -> live k' m s.
Proof. intros Hk H Hg Hl. destruct H as (H1 & H2 & H3); [done|lia|]. split_and!; [done|done|lia]. Qed.
Lemma live_pret {A} (a : A) s : live 0 (pret a) s.
Proof. intros Hg Hl. done. Qed.
Lemma live_done {A} (m : prog st A) s r : (forall s, (m s).2 = Done r /\ env (mach (m s).1) = env (mach s)) -> live 0 m s.
Proof. intros H Hg Hl. destruct (H s) as [H1 H2]. unfold all_go. rewrite H1, H2. done. Qed.
Lemma live_bind {A C} k1 k2 (m : prog st A) (f : A -> prog st C) s :
  live k1 m s -> (forall s' a, m s = (s', Done (Ok a)) -> live k2 (f a) s') -> live (k1 + k2) (pbind m f) s.
Proof.
  intros H1 H2 Hg Hl. destruct H1 as (I1 & I2 & I3); [done|lia|]. unfold pbind. destruct (m s) as [s1 o1] eqn:E. cbn in *.
  destruct o1 as [|[a|x]]; [done| |split_and!; [done|done|cbn; lia]].
  destruct (H2 s1 a eq_refl) as (J1 & J2 & J3); [done|lia|]. split_and!; [done|done|lia].
Qed.
Lemma live_syscall {A} (f : gmap pystr bytes -> gmap pystr bytes * res A) s : live 1 (syscall mach upd_mach f) s.
Proof.
  intros Hg Hl. unfold syscall. unfold all_go in *. destruct (env (mach s)) as [|e l]; [cbn in Hl; lia|]. apply Forall_cons in Hg as [-> Hg].
  destruct (f _) as [m r]. cbn. done.
Qed.
Lemma live_writing p s : live 1 (sys_writing p) s.
Proof.
  intros Hg Hl. destruct p as [p|]; cbn; [|split_and!; [done|done|lia]]. unfold writing. unfold all_go in *. destruct (env (mach s)) as [|e l]; [cbn in Hl; lia|].
  apply Forall_cons in Hg as [-> Hg]. cbn. done.
Qed.
Lemma live_writestr p e z s : live 1 (writestr p e z) s.
Proof. apply (live_bind 1 0); [apply live_writing|]. intros. apply live_pret. Qed.
Lemma live_write_parts p l z s : live (length l) (write_parts p l z) s.
Proof.
  revert z s. induction l as [|[k f] l IH]; intros z s; [apply live_pret|]. cbn [write_parts length]. intros Hg Hl.
  destruct (fo_bytes (mgr s) f); [|cbn; split_and!; [done|done|lia]]. by apply (live_bind 1 (length l)); [apply live_writestr| |..].
Qed.
Lemma live_copy p ig all l z s : live (length l) (copy_entries p ig all l z) s.
Proof.
  revert z s. induction l as [|e l IH]; intros z s; [apply live_pret|]. cbn [copy_entries length]. case_decide.
  - eapply live_weak; [|apply IH]. lia.
  - destruct (zip_read _ _).
    + apply (live_bind 1 (length l)); [apply live_writestr|]. intros. apply IH.
    + intros Hg Hl. cbn. split_and!; [done|done|lia].
Qed.
Lemma live_catch {A} k1 k2 (m : prog st A) h s : live k1 m s -> (forall s x, live k2 (h x) s) -> live (k1 + k2) (pcatch m h) s.
Proof.
  intros H1 H2 Hg Hl. destruct H1 as (I1 & I2 & I3); [done|lia|]. unfold pcatch. destruct (m s) as [s1 o1] eqn:E. cbn in *.
  destruct o1 as [|[a|x]]; [done|split_and!; [done|done|cbn; lia]|].
  destruct (H2 s1 x) as (J1 & J2 & J3); [done|lia|]. split_and!; [done|done|lia].
Qed.
Lemma live_has_zip s : live 1 has_zip s.
Proof.
  intros Hg Hl. unfold has_zip. destruct (source (mgr s)) as [|p|b]; [split_and!; [done|done|cbn; lia]| |split_and!; [done|done|cbn; lia]].
  apply (live_catch 1 0); [|intros; apply live_pret|done|done]. apply (live_bind 1 0); [apply live_syscall|]. intros. apply live_pret.
Qed.
Lemma live_open s : live 1 open_bytestream s.
Proof.
  intros Hg Hl. unfold open_bytestream. destruct (source (mgr s)) as [|p|b]; [split_and!; [done|done|cbn; lia]| |split_and!; [done|done|cbn; lia]].
  by apply live_syscall.
Qed.
Lemma live_copy_zip p ig z s : live (2 + length (source_entries (files (mach s)) (source (mgr s)))) (copy_zip_to p ig z) s.
Proof.
  unfold copy_zip_to. apply (live_bind 1 (1 + length _)); [apply live_has_zip|]. intros s1 [] E1; [|eapply live_weak; [|apply live_pret]; lia].
  destruct (has_zip_spec _ _ _ E1) as (I1 & I2 & I3 & I4 & I5 & I6). specialize (I5 eq_refl).
  eapply (live_bind 1).
  { apply (live_catch 1 0); [apply (live_bind 1 0); [apply live_open|intros; apply live_pret]|]. intros s2 x. case_decide; [apply live_pret|]. intros Hg Hl. cbn. done. }
  intros s2 [b|] E2; [|eapply live_weak; [|apply live_pret]; lia].
  unfold zip_open. destruct (zip_unpack b) as [l|] eqn:El.
  2: { intros Hg Hl. cbn. split_and!; [done|done|lia]. }
  eapply live_weak; [|apply (live_bind 0 (length l)); [apply live_pret|intros s3 l' [= <- <-]; apply live_copy]].
  cbn. replace (source_entries _ _) with l; [lia|]. unfold pcatch, pbind, open_bytestream in E2. rewrite I2 in E2.
  destruct (source (mgr s)) as [|q|b'].
  - done.
  - destruct (sys_read q s1) as [s1' o1] eqn:Er. destruct (read_spec _ _ _ _ Er) as (_ & _ & _ & R & R'). destruct o1 as [|[b0|x]]; [done| |].
    + injection E2 as -> ->. cbn. rewrite <- I3, (R b eq_refl). cbn. by rewrite El.
    + destruct (R' x eq_refl) as [-> _]. done.
  - injection E2 as -> ->. cbn. by rewrite El.
Qed.
Lemma live_to_zip p s : (forall q, source (mgr s) = SFile q -> Some q <> p) ->
  live (4 + length (directory (mgr s)) + length (source_entries (files (mach s)) (source (mgr s)))) (to_zip p) s.
Proof.
  intros Hp. unfold live. unfold to_zip. destruct (dict_get MIMETYPE (directory (mgr s))) as [f|] eqn:Ef; [|intros; cbn; split_and!; [done|done|lia]].
  set (n := length (directory (mgr s))). set (k := length (source_entries (files (mach s)) (source (mgr s)))).
  match goal with |- _ -> _ -> (pbind ?m ?g s).2 <> _ /\ _ => change (live (4 + n + k) (pbind m g) s) end.
  apply (live_weak (0 + (1 + (n + (0 + (0 + (2 + k))))))); [lia|].
  apply live_bind; [by eapply (live_done _ _ (Ok tt))|]. intros s0 [] [= <-]. set (s0 := upd_mgr _ s).
  unfold live. destruct (fo_bytes _ _) as [b|x]; [|intros; cbn; split_and!; [done|done|lia]].
  match goal with |- _ -> _ -> (pbind ?m ?g s0).2 <> _ /\ _ => change (live (1 + (n + (0 + (0 + (2 + k))))) (pbind m g) s0) end.
  apply live_bind; [apply live_writestr|]. intros s1 z1 E1. destruct (writestr_spec _ _ _ _ _ _ E1) as (I1 & I2 & _).
  apply live_bind.
  { eapply (live_weak (length (directory (mgr s1)))); [|intros Hg Hl; by apply live_write_parts]. rewrite I2. cbn. unfold dict_del. etrans; [apply filter_length|]. done. }
  intros s2 z2 E2. destruct (write_parts_spec _ _ _ _ _ _ E2) as (J1 & J2 & _).
  apply live_bind; [intros Hg Hl; done|]. intros s3 ig [= <- <-]. apply live_bind; [intros Hg Hl; done|]. intros s4 [] [= <-].
  eapply live_weak; [|apply live_copy_zip]. cbn. rewrite J2, I2. cbn. apply Nat.eq_le_incl. do 3 f_equal.
  destruct (source (mgr s)) as [|q|b']; [done| |done]. cbn.
  assert (Hq : p <> Some q) by (intros ->; by apply (Hp q)). by rewrite (q_files _ _ _ J1), (q_files _ _ _ I1).
Qed.
Lemma live_save f backup s : favourable f s -> plain_name f \/ is_Some (files (mach s) !! f) ->
  (forall p, source (mgr s) = SFile p -> plain_name p \/ is_Some (files (mach s) !! p)) -> (save f backup s).2 <> Stop.
Proof.
  intros (H1 & H2 & (r & Hr & Hfree) & _) Hf Hp. unfold save, pbind at 1. unfold tmpfilename.
  assert (Ht : exists tmp s1, tmp_search f (rnd (mach s)) s = (s1, Done (Ok tmp))).
  { revert Hr. clear H1 H2. generalize (rnd (mach s)). induction l as [|x l IH]; [by intros ?%elem_of_nil|]. intros [<-|Hr]%elem_of_cons; cbn.
    - rewrite decide_False by (rewrite Hfree; by intros []). by eexists _, _.
    - case_decide; [by apply IH|]. by eexists _, _. }
  destruct Ht as (tmp & s1 & Et). rewrite Et. destruct (tmp_search_spec _ _ _ _ _ Et) as (I1 & I2 & I3 & _ & I5).
  destruct (I5 tmp eq_refl) as (Htf & r' & _ & Etmp).
  assert (Hsrc : forall q, source (mgr s) = SFile q -> q <> tmp).
  { intros q Hq ->. destruct (Hp _ Hq) as [Hn|[b Hb]]; [by eapply plain_tmp; [|symmetry]|]. by rewrite Hb in Htf. }
  set (n := length (directory (mgr s)) + length (source_entries (files (mach s)) (source (mgr s)))) in *.
  assert (L : live ((1 + ((4 + n + 1) + 1)) + (2 + (1 + 0))) (run _ := write_package tmp in run _ := make_room f backup in run _ := sys_rename tmp f in
     fun s => (upd_mgr (with_source (SFile f)) s, Done (Ok tt))) s1).
  { apply live_bind.
    - unfold write_package. apply (live_bind 1); [apply live_syscall|]. intros s2 [] E2. destruct (syscall_ok _ _ _ _ E2) as [(_ & _ & Hx & _)|(F & M & _ & _)]; [by destruct (Hx tt)|].
      apply live_bind.
      + unfold sys_abandon, abandon. apply (live_catch (4 + n) 1).
        * eapply live_weak; [|apply live_to_zip; rewrite M, I3; intros q Hq [= ->]; by apply (Hsrc tmp)].
          rewrite M, I3, F, I1. subst n. destruct (source (mgr s)) as [|q|b] eqn:Es; cbn; try lia.
          rewrite lookup_insert_ne by (intros ->; by apply (Hsrc q)). lia.
        * intros s3 x. apply (live_bind 1 0); [|intros; intros Hg Hl; done]. apply (live_catch 1 0); [apply (live_writing (Some tmp))|]. intros. apply live_pret.
      + intros s3 z _. apply (live_bind 1 0); [apply (live_writing (Some tmp))|]. intros s4 [] _. intros Hg Hl. done.
    - intros s2 [] _. apply live_bind.
      + unfold make_room. apply (live_bind 0 2); [intros Hg Hl; done|]. intros s3 [] _; [|eapply live_weak; [|apply live_pret]; lia].
        destruct backup; [|eapply live_weak; [|apply live_syscall]; lia].
        apply (live_bind 0 2); [intros Hg Hl; done|]. intros s4 eb _. apply (live_bind 1 1); [|intros; apply live_syscall].
        destruct eb; [apply live_syscall|]. eapply live_weak; [|apply live_pret]. lia.
      + intros s3 [] _. apply (live_bind 1 0); [apply live_syscall|]. intros s4 [] _. intros Hg Hl. done. }
  apply L; [unfold all_go; by rewrite I2|rewrite I2; subst n; lia].
Qed.
End sysfacts.

(** ** Manifests *)
Section manifests.
Context `{B : Bytes}.
Definition stays (l l' : list elem) : Prop := map (e_get PATH) l' = map (e_get PATH) l.
Lemma get_path_media p md k : e_get PATH (e_set MEDIA md k) = Some p <-> e_get PATH k = Some p.
Proof. destruct k as [a ks]. unfold e_get, e_set. cbn. by rewrite lookup_insert_ne by done. Qed.
Lemma get_path_media_eq md k : e_get PATH (e_set MEDIA md k) = e_get PATH k.
Proof. destruct k as [a ks]. unfold e_get, e_set. cbn. by rewrite lookup_insert_ne by done. Qed.
Lemma set_media_twice a b k : e_set MEDIA a (e_set MEDIA b k) = e_set MEDIA a k.
Proof. destruct k as [n ks]. unfold e_set. cbn. unfold nd_set_attrs. cbn. by rewrite insert_insert. Qed.
Lemma entry_attrs path md : e_get PATH (e_set MEDIA md (e_set PATH path (new_elem ENTRY))) = Some path.
Proof. rewrite get_path_media_eq. unfold e_get, e_set. cbn. by rewrite lookup_insert. Qed.

Lemma manifest_add_cases path md m :
  (path = MANIFEST_XML /\ manifest_add path md None m = m) \/
  path <> MANIFEST_XML /\
  ((exists l1 k l2, kids m = l1 ++ k :: l2 /\ Forall (fun k => e_get PATH k <> Some path) l1 /\ e_get PATH k = Some path /\
      manifest_add path md None m = on_kids (fun _ => l1 ++ e_set MEDIA md k :: l2) m) \/
   (Forall (fun k => e_get PATH k <> Some path) (kids m) /\
      manifest_add path md None m = on_kids (fun l => l ++ [e_set MEDIA md (e_set PATH path (new_elem ENTRY))]) m)).
Proof.
  unfold manifest_add. destruct (decide (path = MANIFEST_XML)) as [?|Hp]; [by left|]. right. split; [done|].
  unfold manifest_find. destruct (list_find _ _) as [[i k]|] eqn:E.
  - apply list_find_Some in E as (E1 & E2 & E3). left. exists (take i (kids m)), k, (drop (S i) (kids m)). split_and!.
    + symmetry. by apply take_drop_middle.
    + apply Forall_forall. intros x Hx. apply elem_of_list_lookup in Hx as [j Hj]. apply lookup_take_Some in Hj as [Hj Hl]. by eapply E3.
    + done.
    + destruct m as [a l]. cbn [on_kids kids] in *. f_equal. rewrite insert_take_drop by (by apply lookup_lt_Some in E1). done.
  - right. split; [by apply list_find_None in E|done].
Qed.

Lemma filter_all_not {A} (P : A -> Prop) `{forall x, Decision (P x)} (l : list A) : Forall (fun x => ~ P x) l -> filter P l = [].
Proof. induction 1 as [|x l Hx _ IH]; [done|]. by rewrite filter_cons_False. Qed.

(** What registering a path with a media type makes of its entries *)
Lemma manifest_add_entries path md m p : entries_of p (manifest_add path md None m) =
  if decide (p = path /\ path <> MANIFEST_XML) then listed path md (entries_of p m) else entries_of p m.
Proof.
  unfold entries_of. destruct (manifest_add_cases path md m) as [[-> ->]|[Hp [(l1 & k & l2 & E1 & E2 & E3 & ->)|[E1 ->]]]].
  - by rewrite decide_False by tauto.
  - destruct m as [a l]. cbn [kids on_kids] in *. subst l. rewrite !filter_app. destruct (decide _) as [[-> _]|Hn].
    + rewrite !(filter_all_not _ l1) by done. cbn [app]. rewrite !filter_cons_True by (first [done|by apply get_path_media]). done.
    + assert (p <> path) by tauto. rewrite !filter_cons_False; [done|rewrite E3; congruence|rewrite get_path_media; congruence].
  - destruct m as [a l]. cbn [kids on_kids] in *. rewrite filter_app. destruct (decide _) as [[-> _]|Hn].
    + rewrite (filter_all_not _ l) by done. rewrite filter_cons_True by apply entry_attrs. cbn [listed app filter list_filter]. unfold e_set, new_elem, on_root, nd_set_attrs. cbn [attrs tag text tail]. rewrite insert_commute by done. done.
    + assert (p <> path) by tauto. rewrite filter_cons_False; [by rewrite app_nil_r|]. rewrite entry_attrs. congruence.
Qed.
Lemma manifest_add_others path md m ps : path ∈ ps -> others ps (manifest_add path md None m) = others ps m.
Proof.
  intros Hin. unfold others. assert (Hs : Some path ∈ map Some ps) by (by apply elem_of_list_fmap_1).
  destruct (manifest_add_cases path md m) as [[-> ->]|[Hp [(l1 & k & l2 & E1 & E2 & E3 & ->)|[E1 ->]]]].
  - done.
  - destruct m as [a l]. cbn [kids on_kids] in *. subst l. rewrite !filter_app. rewrite !filter_cons_False; [done|rewrite E3; tauto|rewrite get_path_media_eq, E3; tauto].
  - destruct m as [a l]. cbn [kids on_kids] in *. rewrite filter_app, filter_cons_False; [by rewrite app_nil_r|]. rewrite entry_attrs. tauto.
Qed.
Lemma manifest_add_paths path md m : exists fresh, map (e_get PATH) (kids (manifest_add path md None m)) = map (e_get PATH) (kids m) ++ fresh.
Proof.
  destruct (manifest_add_cases path md m) as [[-> ->]|[Hp [(l1 & k & l2 & E1 & E2 & E3 & ->)|[E1 ->]]]].
  - exists []. by rewrite app_nil_r.
  - exists []. destruct m as [a l]. cbn [kids on_kids] in *. subst l. rewrite app_nil_r, !map_app. cbn [map]. by rewrite get_path_media_eq.
  - destruct m as [a l]. cbn [kids on_kids] in *. rewrite map_app. by eexists.
Qed.
Lemma manifest_add_root path md m : root (manifest_add path md None m) = root m.
Proof. destruct (manifest_add_cases path md m) as [[-> ->]|[Hp [(l1 & k & l2 & E1 & E2 & E3 & ->)|[E1 ->]]]]; by destruct m. Qed.
End manifests.
