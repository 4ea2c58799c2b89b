From Verif Require Export PyBaseFacts TableNormSpec.
From Coq Require Import ZifyBool ZifyNat ZifyN.

(** ** descendants *)
Definition selfdesc (t : string) (k : elem) : list elem :=
  (if decide (e_tag k = t) then [k] else []) ++ descendants t k.
Lemma descendants_T t a ks : descendants t (T a ks) = flat_map (selfdesc t) ks.
Proof. reflexivity. Qed.

Lemma selfdesc_nil t k : selfdesc t k = [] -> e_tag k <> t /\ descendants t k = [].
Proof. unfold selfdesc. case_decide; [done|]. done. Qed.

(** ** rebuild *)
Fixpoint rbl (tg : string) (ks : list elem) (ls : list (list elem)) : list elem * list (list elem) :=
  match ks with
  | [] => ([], ls)
  | k :: r =>
      if decide (e_tag k = tg) then
        match ls with
        | l :: ls' => let '(r', ls'') := rbl tg r ls' in (l ++ r', ls'')
        | [] => let '(r', ls'') := rbl tg r [] in (k :: r', ls'')
        end
      else
        let '(k', ls') := rebuild tg k ls in
        let '(r', ls'') := rbl tg r ls' in (k' :: r', ls'')
  end.

Lemma rebuild_T tg a ks ls :
  rebuild tg (T a ks) ls = let '(ks', ls') := rbl tg ks ls in (T a ks', ls').
Proof.
  cbn [rebuild].
  match goal with |- (let '(_, _) := ?g ks ls in _) = _ =>
    assert (E : forall ks ls, g ks ls = rbl tg ks ls) end.
  { clear. induction ks as [|k ks IH]; intros ls; [done|]. cbn [rbl].
    case_decide; [destruct ls; by rewrite IH|]. destruct (rebuild tg k ls). by rewrite IH. }
  by rewrite E.
Qed.

Lemma rebuild_root tg e ls : root (rebuild tg e ls).1 = root e.
Proof. destruct e as [a ks]. rewrite rebuild_T. by destruct (rbl tg ks ls). Qed.
Lemma rebuild_tag tg e ls : e_tag (rebuild tg e ls).1 = e_tag e.
Proof. unfold e_tag. by rewrite rebuild_root. Qed.

Lemma rebuild_id tg e ls : descendants tg e = [] -> rebuild tg e ls = (e, ls).
Proof.
  revert ls. induction e as [a ks IH] using tree_ind'. intros ls Hd.
  rewrite rebuild_T. rewrite descendants_T in Hd.
  assert (rbl tg ks ls = (ks, ls)) as ->; [|done].
  revert ls Hd. induction IH as [|k ks Hk _ IHks]; intros ls Hd; [done|]. cbn [rbl flat_map] in *.
  apply app_nil in Hd as [H1 H2]. apply selfdesc_nil in H1 as [H1 H3].
  rewrite decide_False by done. rewrite Hk by done. by rewrite IHks.
Qed.

(** the nodes [tg] below [e] contain no [tg] *)
Definition flat1 (tg tg' : string) (e : elem) : Prop :=
  Forall (fun r => descendants tg' r = []) (descendants tg e).

Lemma flat1_T tg tg' a ks :
  flat1 tg tg' (T a ks) -> Forall (fun k => (e_tag k = tg -> descendants tg' k = []) /\ flat1 tg tg' k) ks.
Proof.
  unfold flat1. rewrite descendants_T. induction ks as [|k ks IH]; [constructor|].
  cbn. rewrite Forall_app. intros [H1 H2]. constructor; [|by apply IH].
  unfold selfdesc in H1. apply Forall_app in H1 as [H1 H3]. split; [|done].
  intros E. rewrite decide_True in H1 by done. by rewrite Forall_singleton in H1.
Qed.

Lemma flat_map_single {A B} (f : A -> B) l : flat_map (fun x => [f x]) l = map f l.
Proof. induction l as [|x l IH]; cbn; [done|]. by rewrite IH. Qed.

Definition good_ls (tg : string) (ls : list (list elem)) : Prop :=
  Forall (Forall (fun r => e_tag r = tg /\ descendants tg r = [])) ls.

Lemma good_ls_desc tg ls : good_ls tg ls -> flat_map (flat_map (selfdesc tg)) ls = concat ls.
Proof.
  induction 1 as [|l ls Hl _ IH]; [done|]. cbn. f_equal; [|done].
  clear IH. induction Hl as [|r l [Ht Hd] _ IH]; [done|]. cbn. rewrite IH.
  unfold selfdesc. by rewrite decide_True, Hd.
Qed.

Lemma rebuild_desc tg e ls1 ls2 :
  flat1 tg tg e -> length ls1 = length (descendants tg e) -> 
  (rebuild tg e (ls1 ++ ls2)).2 = ls2 /\
  descendants tg (rebuild tg e (ls1 ++ ls2)).1 = flat_map (flat_map (selfdesc tg)) ls1.
Proof.
  revert ls1 ls2. induction e as [a ks IH] using tree_ind'. intros ls1 ls2 Hf Hl.
  rewrite rebuild_T. apply flat1_T in Hf. rewrite descendants_T in Hl.
  assert ((rbl tg ks (ls1 ++ ls2)).2 = ls2 /\
    flat_map (selfdesc tg) (rbl tg ks (ls1 ++ ls2)).1 = flat_map (flat_map (selfdesc tg)) ls1) as [H1 H2].
  { revert ls1 ls2 Hl Hf. induction IH as [|k ks Hk _ IHks]; intros ls1 ls2 Hl Hf.
    - destruct ls1; done.
    - apply Forall_cons in Hf as [[Hf1 Hf2] Hf]. cbn [flat_map] in Hl. cbn [rbl].
      unfold selfdesc in Hl at 1. case_decide as Ht.
      + rewrite Hf1 in Hl by done. cbn in Hl. destruct ls1 as [|l ls1]; [done|]. cbn in Hl.
        cbn [app]. destruct (IHks ls1 ls2) as [E1 E2]; [lia|done|].
        destruct (rbl tg ks (ls1 ++ ls2)) as [r' ls'']. cbn in *. split; [done|].
        rewrite flat_map_app. by f_equal.
      + cbn [app] in Hl. rewrite app_length in Hl.
        assert (Hd : exists la lb, ls1 = la ++ lb /\ length la = length (descendants tg k)).
        { exists (take (length (descendants tg k)) ls1), (drop (length (descendants tg k)) ls1).
          rewrite take_drop. split; [done|]. rewrite take_length. lia. }
        destruct Hd as (la & lb & -> & Hla). rewrite <- app_assoc.
        destruct (Hk la (lb ++ ls2) Hf2 Hla) as [E1 E2].
        destruct (rebuild tg k (la ++ lb ++ ls2)) as [k' ls'] eqn:Ek. cbn in E1, E2. subst ls'.
        rewrite app_length in Hl. destruct (IHks lb ls2) as [E3 E4]; [lia|done|].
        destruct (rbl tg ks (lb ++ ls2)) as [r' ls'']. cbn in E3, E4 |- *. split; [done|].
        rewrite flat_map_app, E4. f_equal. unfold selfdesc at 1. rewrite decide_False; [done|].
        pose proof (rebuild_tag tg k (la ++ lb ++ ls2)) as Et. rewrite Ek in Et. cbn in Et. congruence. }
  destruct (rbl tg ks (ls1 ++ ls2)) as [ks' ls']. cbn [fst snd] in *. by rewrite descendants_T.
Qed.

Lemma rebuild_other tg tg' e ls1 ls2 :
  tg <> tg' -> flat1 tg tg e -> flat1 tg tg' e -> flat1 tg' tg e ->
  length ls1 = length (descendants tg e) ->
  Forall (Forall (fun r => selfdesc tg' r = [])) ls1 ->
  descendants tg' (rebuild tg e (ls1 ++ ls2)).1 = descendants tg' e.
Proof.
  intros Hne. revert ls1 ls2. induction e as [a ks IH] using tree_ind'. intros ls1 ls2 Hf Hf' Hf'' Hl Hg.
  rewrite rebuild_T. apply flat1_T in Hf, Hf', Hf''. rewrite descendants_T in Hl. rewrite descendants_T.
  assert (flat_map (selfdesc tg') (rbl tg ks (ls1 ++ ls2)).1 = flat_map (selfdesc tg') ks) as H2.
  { revert ls1 ls2 Hl Hf Hf' Hf'' Hg. induction IH as [|k ks Hk _ IHks]; intros ls1 ls2 Hl Hf Hf' Hf'' Hg; [done|].
    apply Forall_cons in Hf as [[Hf1 Hf2] Hf]. apply Forall_cons in Hf' as [[Hf1' Hf2'] Hf'].
    apply Forall_cons in Hf'' as [[Hf1'' Hf2''] Hf''].
    cbn [flat_map] in Hl. cbn [rbl].
    unfold selfdesc in Hl at 1. case_decide as Ht.
    + rewrite Hf1 in Hl by done. cbn in Hl. destruct ls1 as [|l ls1]; [done|]. cbn in Hl.
      apply Forall_cons in Hg as [Hg1 Hg2].
      cbn [app]. assert (length ls1 = length (flat_map (selfdesc tg) ks)) as Hl' by lia.
      specialize (IHks ls1 ls2 Hl' Hf Hf' Hf'' Hg2).
      destruct (rbl tg ks (ls1 ++ ls2)) as [r' ls'']. cbn in *.
      rewrite flat_map_app, IHks.
      assert (flat_map (selfdesc tg') l = []) as ->.
      { clear -Hg1. induction Hg1 as [|r l Hr _ IH]; [done|]. cbn. by rewrite Hr, IH. }
      unfold selfdesc at 2. rewrite decide_False by congruence. by rewrite Hf1'.
    + cbn [app] in Hl. rewrite app_length in Hl.
      assert (Hd : exists la lb, ls1 = la ++ lb /\ length la = length (descendants tg k)).
      { exists (take (length (descendants tg k)) ls1), (drop (length (descendants tg k)) ls1).
        rewrite take_drop. split; [done|]. rewrite take_length. lia. }
      destruct Hd as (la & lb & -> & Hla). rewrite <- app_assoc. apply Forall_app in Hg as [Hga Hgb].
      specialize (Hk la (lb ++ ls2) Hf2 Hf2' Hf2'' Hla Hga).
      pose proof (rebuild_tag tg k (la ++ lb ++ ls2)) as Et.
      assert (e_tag k = tg' -> (rebuild tg k (la ++ lb ++ ls2)).1 = k) as Eid.
      { intros E. by rewrite rebuild_id by auto. }
      destruct (rebuild_desc tg k la (lb ++ ls2) Hf2 Hla) as [E1 _].
      destruct (rebuild tg k (la ++ lb ++ ls2)) as [k' ls']. cbn in E1, Et, Hk, Eid. subst ls'.
      rewrite app_length in Hl. assert (length lb = length (flat_map (selfdesc tg) ks)) as Hl' by lia.
      specialize (IHks lb ls2 Hl' Hf Hf' Hf'' Hgb).
      destruct (rbl tg ks (lb ++ ls2)) as [r' ls'']. cbn in IHks |- *. rewrite IHks. f_equal.
      unfold selfdesc. rewrite Hk, Et. case_decide; [|done]. by rewrite Eid. }
  destruct (rbl tg ks (ls1 ++ ls2)) as [ks' ls']. cbn in *. done.
Qed.

Lemma flat_flat1 e : flat e ->
  flat1 ROW ROW e /\ flat1 ROW COL e /\ flat1 COL ROW e /\ flat1 COL COL e.
Proof.
  unfold flat, flat1. rewrite Forall_app. intros [H1 H2].
  split_and!; (eapply Forall_impl; [eassumption|]); cbn; intros x [? ?]; done.
Qed.

(** ** run lists *)
Section norm.
Context `{U : Unicode}.

Lemma good_rep_count k e : good_rep k e -> rep k e = Ok (Z.of_nat (count_of k e)) /\ 1 <= count_of k e.
Proof.
  unfold good_rep, rep, count_of. destruct (e_get k e) as [s|]; [|done].
  intros H. destruct (H s eq_refl) as (n & Hn & ->). split; [f_equal|]; lia.
Qed.

(** a node as the expansion leaves it *)
Definition norm1 (k : string) (e : elem) : elem :=
  if decide (1 < count_of k e) then e_del k e else e.

Definition show_run (k : string) (r : nat * elem) : list elem := replicate r.1 (norm1 k r.2).

Lemma del_rep_ok k e : 1 < count_of k e -> del_rep k e = Ok (e_del k e).
Proof. unfold count_of, del_rep. destruct (e_get k e); [done|lia]. Qed.

Lemma expand_all_ok k e : good_rep k e ->
  expand_all k e = Ok (show_run k (count_of k e, e)).
Proof.
  intros H. apply good_rep_count in H as [E Hc]. unfold expand_all, show_run, norm1. rewrite E. cbn [rbind fst snd].
  case_decide as H1; case_decide as H2; try lia.
  - rewrite del_rep_ok by lia. cbn [rbind]. unfold expand_element.
    replace (Z.to_nat (Z.of_nat (count_of k e) - 1)) with (count_of k e - 1) by lia.
    destruct (count_of k e); [lia|]. cbn. by rewrite Nat.sub_0_r.
  - by assert (count_of k e = 1) as -> by lia.
Qed.

Lemma expand_last_ok k e : good_rep k e -> expand_last k e = Ok (show_run k (1, e)).
Proof.
  intros H. apply good_rep_count in H as [E Hc]. unfold expand_last, show_run, norm1. rewrite E. cbn [rbind fst snd].
  case_decide as H1; case_decide as H2; try lia; [|done].
  rewrite del_rep_ok by lia. done.
Qed.

Lemma expand_less_ok k max e : (1 < max)%Z -> good_rep k e ->
  expand_less k max e =
    Ok (show_run k (if decide (max <= Z.of_nat (count_of k e))%Z then (1, e) else (count_of k e, e))).
Proof.
  intros Hm H. apply good_rep_count in H as [E Hc]. unfold expand_less, show_run, norm1. rewrite E. cbn [rbind].
  case_decide as H1.
  - rewrite decide_False by lia. cbn [fst snd]. rewrite decide_True by lia. rewrite del_rep_ok by lia. cbn [rbind].
    unfold expand_element.
    replace (Z.to_nat (Z.of_nat (count_of k e) - 1)) with (count_of k e - 1) by lia.
    destruct (count_of k e); [lia|]. cbn. by rewrite Nat.sub_0_r.
  - case_decide as H2; cbn [fst snd].
    + rewrite decide_True by lia. by rewrite del_rep_ok by lia.
    + rewrite decide_False by lia. by assert (count_of k e = 1) as -> by lia.
Qed.

Lemma all_but_last_ok {A B} (f g : A -> res B) f' g' l :
  Forall (fun x => f x = Ok (f' x) /\ g x = Ok (g' x)) l ->
  all_but_last f g l = Ok (match l with [] => [] | _ => map f' (take (length l - 1) l) ++
     match last l with Some x => [g' x] | None => [] end end).
Proof.
  induction 1 as [|x l [Hf Hg] Hl IH]; [done|]. cbn [all_but_last]. destruct l as [|y l].
  - by rewrite Hg.
  - rewrite Hf, IH. cbn. by rewrite Nat.sub_0_r.
Qed.

Lemma expand_list_ok st k max l :
  (st = ExpandAllLessMaxCount -> (1 < max)%Z) -> Forall (good_rep k) l ->
  expand_list st k max l = Ok (map (show_run k) (shown st max (runs k l))).
Proof.
  intros Hm Hl. destruct st; cbn [expand_list shown]; unfold runs.
  - rewrite (rmap_ext_Forall _ (fun e => Ok (show_run k (count_of k e, e)))).
    + by rewrite rmap_Ok, map_map.
    + eapply Forall_impl; [done|]. apply expand_all_ok.
  - clear Hm. induction Hl as [|x l Hx Hl IH]; [done|]. cbn [all_but_last map last_once].
    destruct l as [|y l].
    + cbn [map]. by rewrite expand_last_ok.
    + rewrite expand_all_ok, IH by done. done.
  - rewrite (rmap_ext_Forall _ (fun e => Ok (show_run k (if decide (max <= Z.of_nat (count_of k e))%Z then (1, e) else (count_of k e, e))))).
    + rewrite rmap_Ok. unfold long_once. by rewrite !map_map.
    + eapply Forall_impl; [done|]. intros e He. apply expand_less_ok; auto.
Qed.

Lemma shown_map {A B} (f : A -> B) st max (l : list (nat * A)) :
  shown st max (map (fun r => (r.1, f r.2)) l) = map (fun r => (r.1, f r.2)) (shown st max l).
Proof.
  destruct st; cbn [shown]; [done| |].
  - induction l as [|[n x] [|y l] IH]; [done|done|]. cbn [map last_once] in *. f_equal. exact IH.
  - unfold long_once. rewrite !map_map. apply map_ext. intros [n x]. cbn. by case_decide.
Qed.

Lemma shown_in {A} st max (l : list (nat * A)) n x :
  (n, x) ∈ shown st max l -> (Forall (fun r => 1 <= r.1) l -> 1 <= n) /\ exists m, (m, x) ∈ l.
Proof.
  destruct st; cbn [shown].
  - intros H. split; [|eauto]. rewrite Forall_forall. intros Hf. by apply Hf in H.
  - induction l as [|[m y] [|z l] IH]; cbn [last_once].
    + by intros ?%elem_of_nil.
    + intros ?%elem_of_list_singleton. simplify_eq. split; [done|]. exists m. by left.
    + intros [E|H]%elem_of_cons.
      * simplify_eq. split; [by intros [? _]%Forall_cons|]. eexists. by left.
      * destruct (IH H) as [H1 [p Hp]]. split; [intros [_ ?]%Forall_cons; by apply H1|].
        exists p. by right.
  - unfold long_once. intros H. apply elem_of_list_fmap in H as ([m y] & E & H). cbn in E.
    rewrite Forall_forall. case_decide; simplify_eq.
    + split; [done|eauto].
    + split; [intros Hf; by apply Hf in H|eauto].
Qed.

(** rle facts *)
Lemma rle_concat {A B} (f : A -> B) (rs : list (nat * A)) j :
  concat (map (fun r => replicate r.1 (f r.2)) rs) !! j = f <$> rle_lookup rs j.
Proof.
  revert j. induction rs as [|[n x] rs IH]; intros j; [done|]. cbn [map concat rle_lookup fst snd].
  case_decide.
  - rewrite lookup_app_l by (rewrite replicate_length; lia). by rewrite lookup_replicate_2.
  - rewrite lookup_app_r by (rewrite replicate_length; lia). by rewrite replicate_length, IH.
Qed.

Lemma rle_concat_length {A B} (f : A -> B) (rs : list (nat * A)) :
  length (concat (map (fun r => replicate r.1 (f r.2)) rs)) = rle_length rs.
Proof.
  induction rs as [|[n x] rs IH]; [done|]. cbn. by rewrite app_length, replicate_length, IH.
Qed.

(** one row after the expansion of its cells *)
Definition cells_out (st : strategy) (maxcols : Z) (row : elem) : list elem :=
  concat (map (show_run REPC) (shown st maxcols (runs REPC (kids row)))).
Definition row_out (st : strategy) (maxcols : Z) (row : elem) : elem :=
  T (root row) (cells_out st maxcols row).

Lemma expand_cells_ok st maxcols row :
  (st = ExpandAllLessMaxCount -> (1 < maxcols)%Z) -> Forall (good_rep REPC) (kids row) ->
  expand_cells st maxcols row = Ok (row_out st maxcols row).
Proof. intros Hm Hk. unfold expand_cells. by rewrite expand_list_ok. Qed.

Lemma row_out_rep st mc row k : count_of k (row_out st mc row) = count_of k row /\
   (good_rep k (row_out st mc row) <-> good_rep k row).
Proof. by destruct row. Qed.

(** the rows the expansion leaves *)
Definition rows_out (st : strategy) (maxcount : Z * Z) (rows : list elem) : list (list elem) :=
  map (fun r => replicate r.1 (norm1 REPR (row_out st maxcount.2 r.2))) (shown st maxcount.1 (runs REPR rows)).

Definition good_row (row : elem) : Prop := good_rep REPR row /\ Forall (good_rep REPC) (kids row).

Lemma normalize_ok st maxcount rows :
  (st = ExpandAllLessMaxCount -> (1 < maxcount.1)%Z /\ (1 < maxcount.2)%Z) ->
  Forall good_row rows ->
  normalize st maxcount rows = Ok (rows_out st maxcount rows).
Proof.
  intros Hm Hr.
  assert (E : expand_list st REPR maxcount.1 (map (row_out st maxcount.2) rows) = Ok (rows_out st maxcount rows)).
  { rewrite expand_list_ok.
    - f_equal. unfold rows_out, show_run.
      assert (runs REPR (map (row_out st maxcount.2) rows) =
              map (fun r => (r.1, row_out st maxcount.2 r.2)) (runs REPR rows)) as ->.
      { unfold runs. rewrite !map_map. apply map_ext. intros r. by rewrite (proj1 (row_out_rep st maxcount.2 r REPR)). }
      rewrite shown_map, map_map. done.
    - intros ->. by apply Hm.
    - rewrite Forall_fmap. eapply Forall_impl; [done|]. intros r [H1 _]. cbn. by apply row_out_rep. }
  assert (Hc : Forall (fun row => expand_cells st maxcount.2 row = Ok (row_out st maxcount.2 row)) rows).
  { eapply Forall_impl; [done|]. intros r [_ H2]. apply expand_cells_ok; [|done]. intros ->. by apply Hm. }
  rewrite <- E. destruct st; cbn [normalize expand_list expand_row].
  - rewrite rmap_map. apply rmap_ext_Forall. eapply Forall_impl; [exact Hc|]. cbn. intros r ->. done.
  - rewrite (rmap_ext_Forall _ (fun row => Ok (row_out ExpandAllButLast maxcount.2 row))) by done.
    by rewrite rmap_Ok.
  - rewrite rmap_map. apply rmap_ext_Forall. eapply Forall_impl; [exact Hc|]. cbn. intros r ->. done.
Qed.

Lemma last_once_length {A} (l : list (nat * A)) : length (last_once l) = length l.
Proof. induction l as [|[n x] [|y l] IH]; [done|done|]. cbn [last_once length] in *. by rewrite IH. Qed.
Lemma shown_length {A} st max (l : list (nat * A)) : length (shown st max l) = length l.
Proof. destruct st; cbn; [done|apply last_once_length|]. unfold long_once. by rewrite map_length. Qed.

(** *** shape of the new rows *)
Lemma selfdesc_on_root t f e :
  (forall a, tag (f a) = tag a) -> selfdesc t (on_root f e) = [] <-> selfdesc t e = [].
Proof.
  intros Hf. destruct e as [a ks]. unfold selfdesc, e_tag. cbn [on_root root]. rewrite Hf.
  rewrite !descendants_T. case_decide; done.
Qed.
Lemma descendants_on_root t f e : descendants t (on_root f e) = descendants t e.
Proof. by destruct e. Qed.

Lemma norm1_desc t k e : descendants t (norm1 k e) = descendants t e.
Proof. unfold norm1. case_decide; [|done]. apply descendants_on_root. Qed.
Lemma norm1_tag k e : e_tag (norm1 k e) = e_tag e.
Proof. unfold norm1. case_decide; [|done]. by destruct e. Qed.
Lemma norm1_kids k e : kids (norm1 k e) = kids e.
Proof. unfold norm1. case_decide; [|done]. by destruct e. Qed.
Lemma norm1_bare k e : e_del k (norm1 k e) = e_del k e.
Proof.
  unfold norm1. case_decide; [|done]. destruct e as [[tg at' tx tl] ks]. cbn.
  unfold nd_set_attrs. cbn. by rewrite delete_idemp.
Qed.
Lemma norm1_rep k e : good_rep k e -> rep k (norm1 k e) = Ok 1%Z.
Proof.
  intros H. unfold norm1. case_decide as Hc.
  - unfold rep, e_get, e_del. destruct e as [[tg at' tx tl] ks]. cbn. by rewrite lookup_delete.
  - apply good_rep_count in H as [-> H]. f_equal. lia.
Qed.

Lemma desc_nil_kids t e : descendants t e = [] -> Forall (fun k => selfdesc t k = []) (kids e).
Proof.
  destruct e as [a ks]. rewrite descendants_T. cbn. induction ks as [|k ks IH]; [constructor|].
  cbn. intros [H1 H2]%app_nil. constructor; [done|by apply IH].
Qed.
Lemma kids_desc_nil t a ks : Forall (fun k => selfdesc t k = []) ks -> descendants t (T a ks) = [].
Proof. rewrite descendants_T. induction 1 as [|k ks Hk _ IH]; [done|]. cbn. by rewrite Hk, IH. Qed.

Lemma cells_out_elem st mc row c :
  c ∈ cells_out st mc row -> exists k, k ∈ kids row /\ c = norm1 REPC k.
Proof.
  unfold cells_out. intros H. apply elem_of_list_In, in_concat in H as (l & Hl & Hc).
  apply in_map_iff in Hl as ([n x] & <- & Hx). apply elem_of_list_In in Hx, Hc.
  unfold show_run in Hc. cbn in Hc. apply elem_of_replicate in Hc as [-> _].
  apply shown_in in Hx as [_ [m Hm]]. unfold runs in Hm. apply elem_of_list_fmap in Hm as (y & E & Hy).
  injection E as -> ->. eauto.
Qed.

Lemma row_out_desc t st mc row : descendants t row = [] -> descendants t (row_out st mc row) = [].
Proof.
  intros H%desc_nil_kids. apply kids_desc_nil. apply Forall_forall. intros c Hc.
  apply cells_out_elem in Hc as (k & Hk & ->). rewrite Forall_forall in H. apply H in Hk.
  unfold selfdesc in *. rewrite norm1_tag, norm1_desc. by case_decide.
Qed.

(** a row as the expansion leaves it, and after padding *)
Definition RO (st : strategy) (mc : Z * Z) (row : elem) : elem := norm1 REPR (row_out st mc.2 row).
Definition pad (w : nat) (row : elem) : elem :=
  T (root row) (kids row ++ replicate (w - length (kids row)) new_empty_cell).

Lemma RO_kids st mc row : kids (RO st mc row) = cells_out st mc.2 row.
Proof. unfold RO. by rewrite norm1_kids. Qed.
Lemma RO_tag st mc row : e_tag (RO st mc row) = e_tag row.
Proof. unfold RO. by rewrite norm1_tag. Qed.

Lemma cells_out_length st mc row :
  length (cells_out st mc.2 row) = rle_length (cell_runs st mc row).
Proof. unfold cells_out, show_run. by rewrite rle_concat_length. Qed.

Lemma count_cells_RO st mc row :
  good_row row -> count_cells_in_row (RO st mc row) = Ok (Z.of_nat (length (kids (RO st mc row)))).
Proof.
  intros [_ Hr]. unfold count_cells_in_row. rewrite RO_kids.
  rewrite (rmap_ext_Forall _ (fun _ => Ok 1%Z)).
  - rewrite rmap_Ok. cbn. f_equal. induction (cells_out st mc.2 row) as [|c l IH]; [done|].
    cbn. rewrite IH. lia.
  - apply Forall_forall. intros c Hc. apply cells_out_elem in Hc as (k & Hk & ->).
    rewrite Forall_forall in Hr. by apply norm1_rep, Hr.
Qed.

(** min and max *)
Lemma list_max_spec l : l <> [] -> list_max l ∈ l /\ Forall (fun x => x <= list_max l)%Z l.
Proof.
  destruct l as [|x l]; [done|]. intros _. cbn [list_max].
  assert (H : (foldr Z.max x l = x \/ foldr Z.max x l ∈ l) /\ (x <= foldr Z.max x l)%Z /\
              Forall (fun y => y <= foldr Z.max x l)%Z l).
  { induction l as [|y l (IH1 & IH2 & IH3)]; cbn; [split_and!; [by left|lia|done]|].
    split_and!.
    - destruct (Z.max_spec y (foldr Z.max x l)) as [[_ ->]|[_ ->]].
      + destruct IH1 as [->|H]; [by left|right; by right].
      + right. by left.
    - lia.
    - constructor; [lia|]. eapply Forall_impl; [done|]. cbn. lia. }
  destruct H as (H1 & H2 & H3). split.
  - destruct H1 as [->|H]; [by left|by right].
  - by constructor.
Qed.
Lemma list_min_spec l : l <> [] -> Forall (fun x => list_min l <= x)%Z l.
Proof.
  destruct l as [|x l]; [done|]. intros _. cbn [list_min].
  assert (H : (foldr Z.min x l <= x)%Z /\ Forall (fun y => foldr Z.min x l <= y)%Z l).
  { induction l as [|y l (IH2 & IH3)]; cbn; [split; [lia|done]|]. split; [lia|].
    constructor; [lia|]. eapply Forall_impl; [done|]. cbn. lia. }
  destruct H. by constructor.
Qed.

Lemma width_spec st mc e :
  Forall (fun r => rle_length (cell_runs st mc r) <= width st mc e) (descendants ROW e) /\
  (descendants ROW e = [] /\ width st mc e = 0 \/
   exists r, r ∈ descendants ROW e /\ width st mc e = rle_length (cell_runs st mc r)).
Proof.
  unfold width. change "table:table-row" with ROW. induction (descendants ROW e) as [|r l [IH1 IH2]].
  - split; [done|]. by left.
  - cbn. split.
    + constructor; [lia|]. eapply Forall_impl; [done|]. cbn. lia.
    + right. destruct IH2 as [[-> ->]|(r' & Hr' & E)].
      * exists r. split; [by left|]. cbn. lia.
      * destruct (decide (rle_length (cell_runs st mc r) <= rle_length (cell_runs st mc r'))).
        -- exists r'. split; [by right|]. rewrite E. lia.
        -- exists r. split; [by left|]. rewrite E. lia.
Qed.

Definition rows1 st mc (e : elem) : list elem := concat (rows_out st mc (descendants ROW e)).

Lemma rows_out_elem st mc rows r :
  r ∈ concat (rows_out st mc rows) -> exists x, x ∈ rows /\ r = RO st mc x.
Proof.
  unfold rows_out. intros H. apply elem_of_list_In, in_concat in H as (l & Hl & Hc).
  apply in_map_iff in Hl as ([n x] & <- & Hx). apply elem_of_list_In in Hx, Hc.
  cbn in Hc. apply elem_of_replicate in Hc as [-> _].
  apply shown_in in Hx as [_ [m Hm]]. unfold runs in Hm. apply elem_of_list_fmap in Hm as (y & E & Hy).
  injection E as -> ->. eauto.
Qed.

Lemma shown_all {A} st max (l : list (nat * A)) n x :
  (n, x) ∈ l -> exists m, (m, x) ∈ shown st max l.
Proof.
  destruct st; cbn [shown].
  - eauto.
  - revert n x. induction l as [|[m y] [|z l] IH]; intros n x; cbn [last_once].
    + by intros ?%elem_of_nil.
    + intros ?%elem_of_list_singleton. simplify_eq. exists 1. by left.
    + intros [E|H]%elem_of_cons.
      * simplify_eq. eexists. by left.
      * destruct (IH n x H) as [p Hp]. exists p. by right.
  - intros H. unfold long_once.
    exists (if decide (max <= Z.of_nat n)%Z then 1 else n). apply elem_of_list_fmap. exists (n, x).
    split; [cbn; by case_decide|done].
Qed.

Lemma rows_out_all st mc rows x :
  Forall good_row rows -> x ∈ rows -> RO st mc x ∈ concat (rows_out st mc rows).
Proof.
  intros Hg Hx. unfold rows_out.
  destruct (shown_all st mc.1 (runs REPR rows) (count_of REPR x) x) as [m Hm].
  { unfold runs. apply elem_of_list_fmap. eauto. }
  apply elem_of_list_In, in_concat. exists (replicate m (RO st mc x)). split.
  - apply in_map_iff. exists (m, x). split; [done|]. by apply elem_of_list_In.
  - apply elem_of_list_In. apply elem_of_replicate. split; [done|].
    apply shown_in in Hm as [Hm _]. unfold runs in Hm. rewrite Forall_fmap in Hm.
    assert (1 <= m); [|lia]. apply Hm. eapply Forall_impl; [exact Hg|]. cbn.
    intros r [Hr _]. by apply good_rep_count.
Qed.

Lemma rows_out_length st mc rows : length (rows_out st mc rows) = length rows.
Proof. unfold rows_out, runs. by rewrite map_length, shown_length, map_length. Qed.

Lemma rows_out_good st mc e :
  flat e ->
  good_ls ROW (rows_out st mc (descendants ROW e)) /\
  Forall (Forall (fun r => selfdesc COL r = [])) (rows_out st mc (descendants ROW e)).
Proof.
  intros (H1 & H2 & _)%flat_flat1. unfold flat1 in H1, H2.
  assert (Ht : Forall (fun r => e_tag r = ROW) (descendants ROW e)).
  { clear. induction e as [a ks IH] using tree_ind'. rewrite descendants_T.
    induction IH as [|k ks Hk _ IHks]; [constructor|]. cbn. apply Forall_app. split; [|done].
    unfold selfdesc. apply Forall_app. split; [|done]. case_decide; [by constructor|constructor]. }
  assert (H : forall l r, l ∈ rows_out st mc (descendants ROW e) -> r ∈ l ->
            e_tag r = ROW /\ descendants ROW r = [] /\ descendants COL r = []).
  { intros l r Hl Hr. assert (r ∈ concat (rows_out st mc (descendants ROW e))) as Hin.
    { apply elem_of_list_In, in_concat. exists l. split; by apply elem_of_list_In. }
    apply rows_out_elem in Hin as (x & Hx & ->). rewrite RO_tag. unfold RO. rewrite !norm1_desc.
    rewrite Forall_forall in H1, H2, Ht. split_and!; [by apply Ht|by apply row_out_desc, H1|by apply row_out_desc, H2]. }
  split.
  - apply Forall_forall. intros l Hl. apply Forall_forall. intros r Hr. by destruct (H l r Hl Hr) as (? & ? & _).
  - apply Forall_forall. intros l Hl. apply Forall_forall. intros r Hr. destruct (H l r Hl Hr) as (E & _ & E').
    unfold selfdesc. rewrite E, E'. by rewrite decide_False.
Qed.

Lemma flat_of e :
  Forall (fun r => descendants ROW r = [] /\ descendants COL r = []) (descendants ROW e) ->
  Forall (fun r => descendants ROW r = [] /\ descendants COL r = []) (descendants COL e) -> flat e.
Proof. intros. apply Forall_app. done. Qed.

Lemma Forall_good_ls tg ls :
  good_ls tg ls -> Forall (fun r => e_tag r = tg /\ descendants tg r = []) (concat ls).
Proof. induction 1; [constructor|]. cbn. apply Forall_app. done. Qed.

(** replacing rows: the general step *)
Lemma rebuild_rows_ok e ls :
  flat e -> length ls = length (descendants ROW e) -> good_ls ROW ls ->
  Forall (Forall (fun r => selfdesc COL r = [])) ls ->
  descendants ROW (rebuild ROW e ls).1 = concat ls /\
  descendants COL (rebuild ROW e ls).1 = descendants COL e /\
  flat (rebuild ROW e ls).1.
Proof.
  intros Hf Hl Hg Hc. pose proof (flat_flat1 _ Hf) as (F1 & F2 & F3 & F4).
  destruct (rebuild_desc ROW e ls [] F1 Hl) as [_ E1].
  pose proof (rebuild_other ROW COL e ls [] ltac:(done) F1 F2 F3 Hl Hc) as E2.
  rewrite app_nil_r in E1, E2. rewrite (good_ls_desc _ _ Hg) in E1.
  split_and!; [done|done|]. apply flat_of.
  - rewrite E1. apply Forall_good_ls in Hg.
    assert (Forall (fun r => selfdesc COL r = []) (concat ls)) as Hc'.
    { clear -Hc. induction Hc; [constructor|]. cbn. by apply Forall_app. }
    rewrite Forall_forall in Hg, Hc' |- *. intros r Hr. split; [by apply Hg|].
    apply Hc', selfdesc_nil in Hr. by destruct Hr.
  - rewrite E2. unfold flat in Hf. by apply Forall_app in Hf as [_ Hf].
Qed.

Lemma rebuild_cols_ok e ls :
  flat e -> length ls = length (descendants COL e) -> good_ls COL ls ->
  Forall (Forall (fun r => selfdesc ROW r = [])) ls ->
  descendants COL (rebuild COL e ls).1 = concat ls /\
  descendants ROW (rebuild COL e ls).1 = descendants ROW e /\
  flat (rebuild COL e ls).1.
Proof.
  intros Hf Hl Hg Hc. pose proof (flat_flat1 _ Hf) as (F1 & F2 & F3 & F4).
  destruct (rebuild_desc COL e ls [] F4 Hl) as [_ E1].
  pose proof (rebuild_other COL ROW e ls [] ltac:(done) F4 F3 F2 Hl Hc) as E2.
  rewrite app_nil_r in E1, E2. rewrite (good_ls_desc _ _ Hg) in E1.
  split_and!; [done|done|]. apply flat_of.
  - rewrite E2. unfold flat in Hf. by apply Forall_app in Hf as [Hf _].
  - rewrite E1. apply Forall_good_ls in Hg.
    assert (Forall (fun r => selfdesc ROW r = []) (concat ls)) as Hc'.
    { clear -Hc. induction Hc; [constructor|]. cbn. by apply Forall_app. }
    rewrite Forall_forall in Hg, Hc' |- *. intros r Hr. split; [|by apply Hg].
    apply Hc', selfdesc_nil in Hr. by destruct Hr.
Qed.

Lemma pad_id w r : w = length (kids r) -> pad w r = r.
Proof. intros ->. unfold pad. rewrite Nat.sub_diag. cbn. rewrite app_nil_r. by destruct r. Qed.

Lemma zip_with_map_self {A B C} (f : A -> B -> C) (g : A -> B) l :
  zip_with f l (map g l) = map (fun x => f x (g x)) l.
Proof. induction l as [|x l IH]; cbn; [done|]. by rewrite IH. Qed.

Lemma concat_singletons {A B} (f : A -> B) l : concat (map (fun x => [f x]) l) = map f l.
Proof. induction l as [|x l IH]; cbn; [done|]. by rewrite IH. Qed.

Lemma pad_shape w r :
  e_tag r = ROW -> descendants ROW r = [] -> descendants COL r = [] ->
  e_tag (pad w r) = ROW /\ descendants ROW (pad w r) = [] /\ selfdesc COL (pad w r) = [].
Proof.
  intros Ht Hr Hc. unfold pad.
  assert (forall t, t <> CELL -> descendants t r = [] ->
     descendants t (T (root r) (kids r ++ replicate (w - length (kids r)) new_empty_cell)) = []) as H.
  { intros t Hne Hd. apply kids_desc_nil, Forall_app. split; [by apply desc_nil_kids|].
    apply Forall_replicate. unfold selfdesc. cbn. rewrite decide_False; done. }
  split_and!; [done|by apply H|]. unfold selfdesc. rewrite H by done.
  rewrite decide_False; [done|]. change (e_tag (T (root r) _)) with (e_tag r). by rewrite Ht.
Qed.

Lemma align_ok e (w : nat) :
  flat e ->
  Forall (fun r => count_cells_in_row r = Ok (Z.of_nat (length (kids r)))) (descendants ROW e) ->
  Forall (fun r => length (kids r) <= w) (descendants ROW e) ->
  (descendants ROW e = [] \/ exists r, r ∈ descendants ROW e /\ length (kids r) = w) ->
  exists e', align_table_columns e = Ok e' /\ root e' = root e /\
    descendants ROW e' = map (pad w) (descendants ROW e) /\
    descendants COL e' = descendants COL e /\ flat e'.
Proof.
  intros Hf Hc Hle Hex. unfold align_table_columns, get_table_rows. cbv zeta.
  assert (rmap count_cells_in_row (descendants ROW e) =
          Ok (map (fun r : elem => Z.of_nat (length (kids r))) (descendants ROW e))) as ->.
  { rewrite (rmap_ext_Forall _ (fun r : elem => Ok (Z.of_nat (length (kids r))))) by done. apply rmap_Ok. }
  cbn [rbind].
  set (rows := descendants ROW e) in *. set (cs := map (fun r : elem => Z.of_nat (length (kids r))) rows) in *.
  assert (Hcs : forall r, r ∈ rows -> Z.of_nat (length (kids r)) ∈ cs).
  { intros r Hr. apply elem_of_list_fmap. eauto. }
  case_decide as Hmm.
  - exists e. split_and!; try done. fold rows.
    assert (H : Forall (fun r => length (kids r) = w) rows).
    { apply Forall_forall. intros r Hr. destruct Hex as [E|(r' & Hr' & Ew)]; [rewrite E in Hr; by apply elem_of_nil in Hr|].
      assert (Hne : cs <> []) by (intros E; specialize (Hcs _ Hr); rewrite E in Hcs; by apply elem_of_nil in Hcs).
      destruct (list_max_spec cs Hne) as [_ Hmax]. pose proof (list_min_spec cs Hne) as Hmin.
      rewrite Forall_forall in Hmax. rewrite Forall_forall in Hmin. rewrite Forall_forall in Hle.
      pose proof (Hmax _ (Hcs _ Hr)). pose proof (Hmin _ (Hcs _ Hr)).
      pose proof (Hmax _ (Hcs _ Hr')). pose proof (Hmin _ (Hcs _ Hr')). cbv beta in *. lia. }
    clear -H. induction H as [|r l Hr _ IH]; [done|]. cbn. rewrite <- IH. f_equal. symmetry. by apply pad_id.
  - assert (Hne : cs <> []) by (intros E; rewrite E in Hmm; done).
    destruct (list_max_spec cs Hne) as [Hin Hmax].
    assert (Hw : list_max cs = Z.of_nat w).
    { destruct Hex as [E|(r' & Hr' & Ew)]; [unfold cs in Hne; by rewrite E in Hne|].
      apply elem_of_list_fmap in Hin as (r & E & Hr). rewrite Forall_forall in Hmax. rewrite Forall_forall in Hle.
      pose proof (Hmax _ (Hcs _ Hr')). pose proof (Hle _ Hr). lia. }
    rewrite Hw. unfold cs. rewrite zip_with_map_self.
    assert (Eq : map (fun r => [if decide (Z.of_nat (length (kids r)) < Z.of_nat w)%Z
                 then T (root r) (kids r ++ replicate (Z.to_nat (Z.of_nat w - Z.of_nat (length (kids r)))) new_empty_cell)
                 else r]) rows = map (fun r => [pad w r]) rows).
    { apply map_ext_in. intros r Hr. f_equal. case_decide.
      - unfold pad. do 3 f_equal. lia.
      - symmetry. apply pad_id. apply elem_of_list_In in Hr. rewrite Forall_forall in Hle. apply Hle in Hr. lia. }
    rewrite Eq. eexists. split; [done|].
    assert (Hsh : forall r, r ∈ rows -> e_tag (pad w r) = ROW /\ descendants ROW (pad w r) = [] /\ selfdesc COL (pad w r) = []).
    { intros r Hr. pose proof (flat_flat1 _ Hf) as (F1 & F2 & _). unfold flat1 in F1, F2.
      rewrite Forall_forall in F1, F2. apply pad_shape; [|by apply F1|by apply F2].
      clear -Hr. subst rows. induction e as [a ks IH] using tree_ind'. rewrite descendants_T in Hr.
      apply elem_of_list_In, in_flat_map in Hr as (k & Hk & Hr). unfold selfdesc in Hr.
      apply in_app_iff in Hr as [Hr|Hr].
      - case_decide; [|done]. destruct Hr as [<-|[]]. done.
      - rewrite Forall_forall in IH. apply (IH k); by apply elem_of_list_In. }
    destruct (rebuild_rows_ok e (map (fun r => [pad w r]) rows)) as (E1 & E2 & E3).
    + done.
    + by rewrite map_length.
    + unfold good_ls. rewrite Forall_fmap. apply Forall_forall. intros r Hr. cbn.
      apply Forall_singleton. destruct (Hsh r Hr) as (? & ? & _). done.
    + rewrite Forall_fmap. apply Forall_forall. intros r Hr. cbn.
      apply Forall_singleton. by destruct (Hsh r Hr) as (_ & _ & ?).
    + split_and!; [apply rebuild_root|by rewrite E1, concat_singletons|done|done].
Qed.

(** *** the whole normaliser *)

Lemma normalize_table_ok st mc e :
  max_ok st mc -> good_table e ->
  exists e', normalize_table st mc e = Ok e' /\ root e' = root e /\
    descendants ROW e' =
      concat (map (fun r => replicate r.1 (pad (width st mc e) (RO st mc r.2))) (row_runs st mc e)) /\
    descendants COL e' = descendants COL e /\ flat e'.
Proof.
  intros Hm (Ht & Hf & Hg). unfold normalize_table, is_table. rewrite bool_decide_true by done.
  unfold expand_repeated_table_content, get_table_rows.
  change (Forall good_row (descendants ROW e)) in Hg.
  rewrite normalize_ok by done. cbn [rbind].
  destruct (rows_out_good st mc e Hf) as [G1 G2].
  destruct (rebuild_rows_ok e _ Hf (rows_out_length st mc _) G1 G2) as (E1 & E2 & E3).
  set (e1 := (rebuild ROW e (rows_out st mc (descendants ROW e))).1) in *.
  destruct (width_spec st mc e) as [W1 W2].
  destruct (align_ok e1 (width st mc e) E3) as (e' & -> & R & D1 & D2 & F).
  - rewrite E1. apply Forall_forall. intros r Hr. apply rows_out_elem in Hr as (x & Hx & ->).
    apply count_cells_RO. rewrite Forall_forall in Hg. by apply Hg.
  - rewrite E1. apply Forall_forall. intros r Hr. apply rows_out_elem in Hr as (x & Hx & ->).
    rewrite RO_kids, cells_out_length. rewrite Forall_forall in W1. by apply W1.
  - destruct W2 as [[W2 _]|(r & Hr & Ew)].
    + left. rewrite E1, W2. unfold rows_out, runs. cbn. destruct st; done.
    + right. exists (RO st mc r). rewrite E1. split; [by apply rows_out_all|].
      by rewrite RO_kids, cells_out_length.
  - exists e'. split_and!; [done| | | |done].
    + rewrite R. apply rebuild_root.
    + rewrite D1, E1. unfold rows_out. rewrite concat_map, map_map. f_equal. apply map_ext.
      intros [n x]. cbn. by rewrite fmap_replicate.
    + by rewrite D2.
Qed.

Lemma norm_lookup st mc e e' i :
  descendants ROW e' =
      concat (map (fun r => replicate r.1 (pad (width st mc e) (RO st mc r.2))) (row_runs st mc e)) ->
  plain_row e' i = (fun r => pad (width st mc e) (RO st mc r)) <$> logical_row st mc e i.
Proof. intros E. unfold plain_row. change "table:table-row" with ROW. rewrite E. apply (rle_concat (fun r => pad (width st mc e) (RO st mc r))). Qed.

Lemma logical_row_in st mc e i r : logical_row st mc e i = Some r -> r ∈ descendants ROW e.
Proof.
  unfold logical_row, row_runs. change "table:table-row" with ROW.
  assert (H : forall (l : list (nat * elem)) j, rle_lookup l j = Some r -> exists n, (n, r) ∈ l).
  { induction l as [|[n x] l IH]; intros j; cbn; [done|]. case_decide.
    - intros [= ->]. exists n. by left.
    - intros (m & Hm)%IH. exists m. by right. }
  intros (n & Hn)%H. apply shown_in in Hn as [_ [m Hm]].
  unfold runs in Hm. apply elem_of_list_fmap in Hm as (y & E & Hy). by injection E as -> ->.
Qed.

Lemma rle_lookup_None {A} (l : list (nat * A)) j : rle_lookup l j = None <-> rle_length l <= j.
Proof.
  revert j. induction l as [|[n x] l IH]; intros j; cbn; [split; [lia|done]|].
  case_decide; [split; [done|lia]|]. rewrite IH. unfold rle_length. lia.
Qed.

Lemma norm_cell st mc e e' i j :
  descendants ROW e' =
      concat (map (fun r => replicate r.1 (pad (width st mc e) (RO st mc r.2))) (row_runs st mc e)) ->
  bare REPC <$> plain_cell e' i j =
    match logical_cell st mc e i j with
    | Some c => Some (bare REPC c)
    | None => if decide (i < height st mc e /\ j < width st mc e) then Some (bare REPC new_empty_cell) else None
    end.
Proof.
  intros E. unfold plain_cell, logical_cell. rewrite (norm_lookup _ _ _ _ _ E).
  destruct (logical_row st mc e i) as [r|] eqn:Er; cbn.
  - rewrite RO_kids.
    assert (Hi : i < height st mc e).
    { unfold height. destruct (decide (rle_length (row_runs st mc e) <= i)) as [H|H]; [|lia].
      apply rle_lookup_None in H. unfold logical_row in Er. congruence. }
    pose proof (logical_row_in _ _ _ _ _ Er) as Hin. destruct (width_spec st mc e) as [W1 _].
    rewrite Forall_forall in W1. specialize (W1 _ Hin). rewrite <- cells_out_length in W1.
    destruct (decide (j < length (cells_out st mc.2 r))) as [Hj|Hj].
    + rewrite lookup_app_l by done. unfold cells_out, show_run. rewrite rle_concat.
      change (shown st mc.2 (runs REPC (kids r))) with (cell_runs st mc r).
      destruct (rle_lookup (cell_runs st mc r) j) as [c|] eqn:Ec; cbn.
      * unfold bare. by rewrite norm1_bare.
      * exfalso. apply rle_lookup_None in Ec. rewrite cells_out_length in Hj. lia.
    + assert (rle_lookup (cell_runs st mc r) j = None) as ->.
      { apply rle_lookup_None. rewrite <- cells_out_length. lia. }
      rewrite lookup_app_r by lia. case_decide as Hd.
      * rewrite lookup_replicate_2 by lia. done.
      * rewrite lookup_ge_None_2; [done|]. rewrite replicate_length. lia.
  - rewrite decide_False; [done|]. intros [Hi _]. unfold logical_row in Er.
    apply rle_lookup_None in Er. unfold height in Hi. lia.
Qed.

(** columns *)
Lemma desc_tag t e : Forall (fun r => e_tag r = t) (descendants t e).
Proof.
  induction e as [a ks IH] using tree_ind'. rewrite descendants_T.
  induction IH as [|k ks Hk _ IHks]; [constructor|]. cbn. apply Forall_app. split; [|done].
  unfold selfdesc. apply Forall_app. split; [|done]. case_decide; [by constructor|constructor].
Qed.

Lemma expand_columns_ok st maxcols e :
  (st = ExpandAllLessMaxCount -> (1 < maxcols)%Z) -> flat e ->
  Forall (good_rep REPC) (descendants COL e) ->
  exists e', expand_columns st maxcols e = Ok e' /\ root e' = root e /\
    descendants COL e' = concat (map (show_run REPC) (shown st maxcols (runs REPC (descendants COL e)))) /\
    descendants ROW e' = descendants ROW e /\ flat e'.
Proof.
  intros Hm Hf Hg. unfold expand_columns. rewrite expand_list_ok by done. cbn [rbind].
  set (ls := map (show_run REPC) (shown st maxcols (runs REPC (descendants COL e)))).
  assert (H : forall l r, l ∈ ls -> r ∈ l -> e_tag r = COL /\ descendants ROW r = [] /\ descendants COL r = []).
  { intros l r Hl Hr. unfold ls in Hl. apply elem_of_list_fmap in Hl as ([n x] & -> & Hx).
    unfold show_run in Hr. cbn in Hr. apply elem_of_replicate in Hr as [-> _].
    apply shown_in in Hx as [_ [m Hm']]. unfold runs in Hm'. apply elem_of_list_fmap in Hm' as (y & E & Hy).
    injection E as -> ->. rewrite norm1_tag, !norm1_desc.
    pose proof (desc_tag COL e) as Ht. pose proof (flat_flat1 _ Hf) as (_ & _ & F3 & F4).
    unfold flat1 in F3, F4. rewrite Forall_forall in Ht, F3, F4. split_and!; auto. }
  destruct (rebuild_cols_ok e ls) as (E1 & E2 & E3); [done| | | |].
  - unfold ls, runs. by rewrite map_length, shown_length, map_length.
  - apply Forall_forall. intros l Hl. apply Forall_forall. intros r Hr. by destruct (H l r Hl Hr) as (? & _ & ?).
  - apply Forall_forall. intros l Hl. apply Forall_forall. intros r Hr. destruct (H l r Hl Hr) as (Ht & Hr' & _).
    unfold selfdesc. rewrite Ht, Hr'. by rewrite decide_False.
  - eexists. split_and!; [done|apply rebuild_root|done|done|done].
Qed.

(** *** frame: everything that is not a row *)
Definition keep_out (t : string) (k : elem) : list elem :=
  if decide (e_tag k = t) then [] else [without t k].
Lemma without_T t a ks : without t (T a ks) = T a (flat_map (keep_out t) ks).
Proof. done. Qed.
Lemma keep_out_tagged t l : Forall (fun r => e_tag r = t) l -> flat_map (keep_out t) l = [].
Proof. induction 1 as [|r l Hr _ IH]; [done|]. cbn. unfold keep_out at 1. by rewrite decide_True. Qed.

Lemma rebuild_without tg e ls :
  Forall (Forall (fun r => e_tag r = tg)) ls ->
  without tg (rebuild tg e ls).1 = without tg e /\ Forall (Forall (fun r => e_tag r = tg)) (rebuild tg e ls).2.
Proof.
  revert ls. induction e as [a ks IH] using tree_ind'. intros ls Hl. rewrite rebuild_T.
  assert (flat_map (keep_out tg) (rbl tg ks ls).1 = flat_map (keep_out tg) ks /\
     Forall (Forall (fun r => e_tag r = tg)) (rbl tg ks ls).2) as [H1 H2].
  { revert ls Hl. induction IH as [|k ks Hk _ IHks]; intros ls Hl; [done|]. cbn [rbl].
    destruct (decide (e_tag k = tg)) as [Ht|Ht].
    - destruct ls as [|l ls].
      + specialize (IHks [] Hl). destruct (rbl tg ks []) as [r' ls'']. cbn in *.
        destruct IHks as [-> ?]. done.
      + inversion_clear Hl as [|? ? Hl1 Hl2]. specialize (IHks ls Hl2).
        destruct (rbl tg ks ls) as [r' ls'']. cbn in *. destruct IHks as [E ?]. split; [|done].
        rewrite flat_map_app, keep_out_tagged by done. cbn. unfold keep_out at 2. by rewrite decide_True.
    - specialize (Hk ls Hl). pose proof (rebuild_tag tg k ls) as Htag.
      destruct (rebuild tg k ls) as [k' ls'].
      cbn in Hk, Htag. destruct Hk as [Hk1 Hk2]. specialize (IHks ls' Hk2).
      destruct (rbl tg ks ls') as [r' ls'']. cbn in *. destruct IHks as [E ?]. split; [|done].
      rewrite E. unfold keep_out at 1 3. rewrite !decide_False by congruence. by rewrite Hk1. }
  destruct (rbl tg ks ls) as [ks' ls']. cbn [fst snd] in *. rewrite !without_T. by rewrite H1.
Qed.

Lemma rebuild_same tg e ls :
  flat1 tg tg e -> rebuild tg e (map (fun r => [r]) (descendants tg e) ++ ls) = (e, ls).
Proof.
  revert ls. induction e as [a ks IH] using tree_ind'. intros ls Hf. rewrite rebuild_T.
  apply flat1_T in Hf. rewrite descendants_T.
  assert (rbl tg ks (map (fun r => [r]) (flat_map (selfdesc tg) ks) ++ ls) = (ks, ls)) as ->; [|done].
  revert ls. induction IH as [|k ks Hk _ IHks]; intros ls; [done|].
  inversion_clear Hf as [|? ? [Hf0 Hf1] Hf2]. cbn [rbl flat_map].
  destruct (decide (e_tag k = tg)) as [Ht|Ht].
  - assert (selfdesc tg k = [k]) as -> by (unfold selfdesc; by rewrite decide_True, Hf0).
    cbn. rewrite IHks by done. done.
  - assert (selfdesc tg k = descendants tg k) as -> by (unfold selfdesc; by rewrite decide_False).
    rewrite map_app, <- app_assoc. rewrite Hk by done. rewrite IHks by done. done.
Qed.

Lemma normalize_table_without st mc e e' :
  max_ok st mc -> good_table e -> normalize_table st mc e = Ok e' -> without ROW e' = without ROW e.
Proof.
  intros Hm (Ht & Hf & Hg). unfold normalize_table, is_table. rewrite bool_decide_true by done.
  unfold expand_repeated_table_content, get_table_rows.
  change (Forall good_row (descendants ROW e)) in Hg.
  rewrite normalize_ok by done. cbn [rbind].
  destruct (rows_out_good st mc e Hf) as [G1 G2].
  set (e1 := (rebuild ROW e (rows_out st mc (descendants ROW e))).1).
  assert (H1 : without ROW e1 = without ROW e).
  { apply rebuild_without. unfold good_ls in G1. eapply Forall_impl; [exact G1|]. intros l Hl.
    eapply Forall_impl; [exact Hl|]. by intros ? [? _]. }
  unfold align_table_columns, get_table_rows. cbv zeta.
  destruct (rmap count_cells_in_row (descendants ROW e1)) as [cs|]; cbn [rbind]; [|done].
  case_decide; intros [= <-]; [done|]. rewrite <- H1. apply rebuild_without.
  pose proof (desc_tag ROW e1) as Hd. revert cs H. generalize (list_max). intros m cs _.
  generalize (m cs). clear m. intros m. revert cs. induction Hd as [|r l Hr _ IH]; intros [|c cs]; cbn; try constructor.
  - apply Forall_singleton. case_decide; [|done]. exact Hr.
  - apply IH.
Qed.

(** *** normal tables are left alone *)
Lemma shown_ones {A} st max (l : list (nat * A)) :
  (st = ExpandAllLessMaxCount -> (1 < max)%Z) -> Forall (fun r => r.1 = 1) l -> shown st max l = l.
Proof.
  intros Hm Hl. destruct st; cbn.
  - done.
  - clear Hm. induction Hl as [|[n x] l Hx Hl IH]; [done|]. cbn in Hx. subst n. cbn. destruct l; [done|]. by rewrite IH.
  - specialize (Hm eq_refl). induction Hl as [|[n x] l Hx Hl IH]; [done|]. cbn in *. subst n.
    rewrite decide_False by lia. f_equal. exact IH.
Qed.

Lemma rep_one k e : rep k e = Ok 1%Z -> good_rep k e /\ count_of k e = 1 /\ norm1 k e = e.
Proof.
  unfold rep, good_rep, count_of, norm1, count_of. destruct (e_get k e) as [s|] eqn:E.
  - intros H. split_and!.
    + intros ? [= <-]. eexists. split; [|exact H]. lia.
    + by rewrite H.
    + rewrite H. rewrite decide_False; [done|lia].
  - intros _. split_and!; [done|done|]. rewrite decide_False; [done|lia].
Qed.

Lemma runs_ones k l : Forall (fun c => rep k c = Ok 1%Z) l ->
  Forall (fun r => r.1 = 1) (runs k l) /\ Forall (good_rep k) l /\
  concat (map (show_run k) (runs k l)) = l.
Proof.
  induction 1 as [|c l Hc _ (IH1 & IH2 & IH3)]; [by split_and!; constructor|].
  apply rep_one in Hc as (H1 & H2 & H3). split_and!.
  - constructor; done.
  - by constructor.
  - cbn [runs map concat]. change (map (fun e => (count_of k e, e)) l) with (runs k l). rewrite IH3.
    unfold show_run. cbn [fst snd]. rewrite H2, H3. done.
Qed.

Definition normal_row (w : nat) (r : elem) : Prop :=
  rep REPR r = Ok 1%Z /\ Forall (fun c => rep REPC c = Ok 1%Z) (kids r) /\ length (kids r) = w.

Lemma normalize_normal st mc e w :
  max_ok st mc -> e_tag e = TABLE -> flat e -> Forall (normal_row w) (descendants ROW e) ->
  normalize_table st mc e = Ok e.
Proof.
  intros Hm Ht Hf Hn.
  assert (Hg : Forall good_row (descendants ROW e)).
  { eapply Forall_impl; [exact Hn|]. intros r (H1 & H2 & _). split; [by apply rep_one|]. by apply runs_ones. }
  unfold normalize_table, is_table. rewrite bool_decide_true by done.
  unfold expand_repeated_table_content, get_table_rows.
  rewrite normalize_ok by done. cbn [rbind].
  assert (E : rows_out st mc (descendants ROW e) = map (fun r => [r]) (descendants ROW e)).
  { unfold rows_out. rewrite shown_ones.
    - unfold runs. rewrite map_map. apply map_ext_in. intros r Hr. apply elem_of_list_In in Hr.
      rewrite Forall_forall in Hn. destruct (Hn _ Hr) as (H1 & H2 & _). cbn.
      assert (row_out st mc.2 r = r) as ->.
      { unfold row_out, cells_out. destruct (runs_ones _ _ H2) as (R1 & _ & R3).
        rewrite shown_ones; [rewrite R3; by destruct r| |done]. intros E. by apply Hm in E as [? ?]. }
      apply rep_one in H1 as (_ & -> & ->). done.
    - intros E. by apply Hm in E as [? ?].
    - apply runs_ones. eapply Forall_impl; [exact Hn|]. by intros r (H1 & _). }
  rewrite E. pose proof (rebuild_same ROW e []) as Hs. rewrite app_nil_r in Hs.
  rewrite Hs by by apply flat_flat1. cbn [fst].
  unfold align_table_columns, get_table_rows. cbv zeta.
  assert (rmap count_cells_in_row (descendants ROW e) = Ok (map (fun _ => Z.of_nat w) (descendants ROW e))) as ->.
  { rewrite (rmap_ext_Forall _ (fun _ => Ok (Z.of_nat w))); [apply rmap_Ok|].
    eapply Forall_impl; [exact Hn|]. intros r (_ & H2 & <-). unfold count_cells_in_row.
    rewrite (rmap_ext_Forall _ (fun _ => Ok 1%Z)) by done. rewrite rmap_Ok. cbn. f_equal.
    clear. induction (kids r) as [|c l IH]; [done|]. cbn. rewrite IH. lia. }
  cbn [rbind]. rewrite decide_True; [done|].
  clear. destruct (descendants ROW e) as [|r l]; [done|]. cbn.
  transitivity (Z.of_nat w); [|symmetry]; induction l as [|? l IH]; cbn; lia.
Qed.

Lemma normal_rows_out st mc e e' :
  good_table e ->
  descendants ROW e' =
      concat (map (fun r => replicate r.1 (pad (width st mc e) (RO st mc r.2))) (row_runs st mc e)) ->
  Forall (normal_row (width st mc e)) (descendants ROW e').
Proof.
  intros (_ & _ & Hg) ->. change (Forall good_row (descendants ROW e)) in Hg.
  apply Forall_forall. intros r Hr. apply elem_of_list_In, in_concat in Hr as (l & Hl & Hc).
  apply in_map_iff in Hl as ([n x] & <- & Hx). apply elem_of_list_In in Hx, Hc.
  cbn in Hc. apply elem_of_replicate in Hc as [-> _].
  unfold row_runs in Hx. apply shown_in in Hx as [_ [m Hm]].
  unfold runs in Hm. apply elem_of_list_fmap in Hm as (y & E & Hy). injection E as -> ->.
  change (y ∈ descendants ROW e) in Hy.
  rewrite Forall_forall in Hg. destruct (Hg _ Hy) as [Hy1 Hy2].
  destruct (width_spec st mc e) as [W1 _]. rewrite Forall_forall in W1. specialize (W1 _ Hy).
  rewrite <- cells_out_length in W1. split_and!.
  - change (rep REPR (pad (width st mc e) (RO st mc y))) with (rep REPR (RO st mc y)).
    apply norm1_rep. by apply row_out_rep.
  - cbn. rewrite RO_kids. apply Forall_app. split.
    + apply Forall_forall. intros c Hc. apply cells_out_elem in Hc as (k & Hk & ->).
      rewrite Forall_forall in Hy2. by apply norm1_rep, Hy2.
    + by apply Forall_replicate.
  - cbn. rewrite RO_kids, app_length, replicate_length. lia.
Qed.
End norm.
