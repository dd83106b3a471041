(* FormRange.v -- ranges in the optimised output *)
From Coq Require Import ZifyBool ZifyNat.
From Verif Require Import Py Usage Item Parser Optimizer Descriptor Converter HidSpec Spec StreamSpec StreamProofs OptSpec
  AllSpec TreeSpec ItemFacts ParserFacts OptFacts Skeleton PassFacts OptAll TreeOpt PageFacts PageShift CodecProofs RangeFacts Idem RedundFacts FormSpec FormFacts.
Local Open Scope list_scope. Local Open Scope Z_scope.
Ltac Zify.zify_post_hook ::= Z.div_mod_to_equations.

Lemma up_len n : forall v, length (up_from v n) = n.
Proof. induction n; intros v; cbn; auto. Qed.

Lemma up_snoc n : forall v, up_from v (S n) = up_from v n ++ [v + Z.of_nat n].
Proof.
  induction n as [|n IH]; intros v; [cbn; f_equal; lia|]. cbn [up_from app]. f_equal. specialize (IH (v + 1)). cbn [up_from] in IH.
  rewrite IH. f_equal. f_equal. lia.
Qed.

(** once broken, a run stays broken *)
Lemma up_broken n : forall v w rest v' m, w <> v + Z.of_nat (S n) -> up_from v (S n) ++ w :: rest <> up_from v' m.
Proof.
  induction n as [|n IH]; intros v w rest v' m H E.
  - destruct m as [|[|m]]; cbn in E; try discriminate. injection E as E1 E2 E3. lia.
  - destruct m as [|m]; [discriminate|].
    assert (E1 : v = v') by exact (f_equal (hd 0) E). assert (E2 : up_from (v + 1) (S n) ++ w :: rest = up_from (v' + 1) m) by exact (f_equal (@tl Z) E).
    apply (IH (v + 1) w rest (v' + 1) m); [lia|exact E2].
Qed.

Lemma numbers_app c a b : numbers c (a ++ b) = numbers c a ++ numbers c b.
Proof. unfold numbers. rewrite filter_app, map_app. reflexivity. Qed.

Lemma numbers_one c i : numbers c [cv i] = if icls_eqb (ic i) c then [ival i] else [].
Proof. unfold numbers. cbn [filter fst cv]. unfold cv. cbn [fst]. destruct (icls_eqb (ic i) c); reflexivity. Qed.

Section Ranges.
Variables (db : udb) (lk mn mx : icls).
Hypothesis Fam : family lk mn mx.

Definition spans (acc : list item) (s : rm_state) : Prop :=
  if rm_merging s then
    numbers mn (map cv acc) = [] /\ numbers mx (map cv acc) = [] /\
    match rm_min s, rm_max s with
    | None, None => numbers lk (map cv acc) = []
    | Some a, Some b => exists n, numbers lk (map cv acc) = up_from (py_int a) (S n) /\ py_int b = py_int a + Z.of_nat n
    | _, _ => False
    end
  else
    numbers mn (map cv acc) <> [] \/ numbers mx (map cv acc) <> [] \/
    (exists a n w rest, w <> a + Z.of_nat (S n) /\ numbers lk (map cv acc) = up_from a (S n) ++ w :: rest).

Lemma spans_st acc : held is_main acc -> spans acc (rm_st lk mn mx acc).
Proof.
  destruct (fam_apart lk mn mx Fam) as (N1 & N2 & N3 & N4 & N5). destruct (fam_local lk mn mx Fam) as (L1 & L2 & L3).
  induction acc as [|i acc IH] using rev_ind; [intros _; repeat split|]. intros H. apply Forall_app in H. destruct H as [H _]. specialize (IH H).
  rewrite rm_st_snoc. set (s := rm_st lk mn mx acc) in *. unfold rm_snoc. unfold spans in *. cbn [rm_merging rm_min rm_max].
  rewrite map_app. cbn [map]. rewrite !numbers_app, !numbers_one. unfold rm_note.
  destruct (rm_merging s) eqn:M.
  - destruct IH as [A [B C]]. cbn [andb]. unfold ikd.
    destruct (icls_eqb (ic i) mn) eqn:E1.
    { apply icls_eqb_eq in E1. rewrite E1, L2. cbn [ikind_eqb orb rm_merging]. left. destruct (numbers mn (map cv acc)); discriminate. }
    destruct (icls_eqb (ic i) mx) eqn:E2.
    { apply icls_eqb_eq in E2. rewrite E2, L3. cbn [ikind_eqb orb rm_merging]. right. left. destruct (numbers mx (map cv acc)); discriminate. }
    destruct (icls_eqb (ic i) lk) eqn:E3.
    + apply icls_eqb_eq in E3. rewrite E3, L1. cbn [ikind_eqb orb].
      destruct (rm_min s) as [a|] eqn:MI, (rm_max s) as [b|] eqn:MA; try contradiction.
      * destruct C as [n [C1 C2]]. destruct (ival i =? py_int b + 1) eqn:Q; cbn [rm_merging rm_min rm_max].
        -- rewrite ?M, ?MI, !app_nil_r. split; [exact A|]. split; [exact B|]. exists (S n). rewrite C1. split; [|unfold ival in Q; lia].
           rewrite (up_snoc (S n)). f_equal. f_equal. lia.
        -- right. right. exists (py_int a), n, (ival i), []. rewrite C1. split; [lia|reflexivity].
      * cbn [rm_merging rm_min rm_max]. rewrite ?M, !app_nil_r. split; [exact A|]. split; [exact B|]. exists O. rewrite C. cbn. split; [reflexivity|lia].
    + rewrite !app_nil_r. cbn [orb]. destruct (ikind_eqb (kind_of (ic i)) Local); rewrite ?M; auto.
  - cbn [andb]. rewrite M. destruct IH as [A|[A|[a [n [w [rest [A B]]]]]]].
    + left. destruct (numbers mn (map cv acc)); [contradiction|discriminate].
    + right. left. destruct (numbers mx (map cv acc)); [contradiction|discriminate].
    + right. right. exists a, n, w, (rest ++ if icls_eqb (ic i) lk then [ival i] else []). rewrite B, <- app_assoc. auto.
Qed.

Lemma few_rebuilt c v k : (length (numbers k (map cv (rebuild db c v))) <= 1)%nat.
Proof. unfold rebuild. destruct (mk_item db c (Some v)); cbn [map]; [|cbn; lia]. rewrite numbers_one. destruct (icls_eqb _ k); cbn; lia. Qed.

Lemma rebuilt_other c v k : icls_eqb c k = false -> numbers k (map cv (rebuild db c v)) = [].
Proof.
  intros N. pose proof (rebuild_class db c v) as F. destruct (rebuild db c v) as [|i l] eqn:E; [reflexivity|].
  assert (L : l = []) by (unfold rebuild in E; destruct (mk_item db c (Some v)); congruence). subst l.
  inversion F; subst. cbn [map]. rewrite numbers_one, N. reflexivity.
Qed.

Lemma numbers_clean acc : numbers lk (map cv (filter (fun x => negb (icls_eqb (ic x) lk || icls_eqb (ic x) mn || icls_eqb (ic x) mx)) acc)) = [].
Proof.
  induction acc as [|i acc IH]; [reflexivity|]. cbn [filter]. destruct (icls_eqb (ic i) lk) eqn:E; cbn [orb negb]; [exact IH|].
  destruct (negb _); [|exact IH]. change (numbers lk ([cv i] ++ map cv (filter (fun x => negb (icls_eqb (ic x) lk || icls_eqb (ic x) mn || icls_eqb (ic x) mx)) acc)) = []).
  rewrite numbers_app, numbers_one, E. exact IH.
Qed.

Lemma g_ranged acc : held is_main acc -> ranged lk mn mx (map cv (rm_g db lk mn mx acc)).
Proof.
  intros H. pose proof (spans_st acc H) as S. unfold rm_g, rm_flush. rewrite rm_st_pending.
  set (s := rm_st lk mn mx acc) in *. unfold spans in S. intros Z1 Z2 v n P E.
  destruct (fam_apart lk mn mx Fam) as (N1 & N2 & N3 & N4 & N5).
  assert (RAW : numbers mn (map cv acc) = [] -> numbers mx (map cv acc) = [] -> numbers lk (map cv acc) = up_from v n ->
    rm_merging s = true /\ (n = O \/ exists a b, rm_min s = Some a /\ rm_max s = Some b /\ py_int a = v /\ py_int b >= v)).
  { intros X1 X2 X3. destruct (rm_merging s).
    - split; [reflexivity|]. destruct S as [_ [_ S]]. destruct (rm_min s) as [a|], (rm_max s) as [b|]; try contradiction.
      + destruct S as [k [S1 S2]]. right. exists a, b. rewrite S1 in X3. destruct n; [discriminate|]. cbn in X3. injection X3 as X3 _. repeat split; auto; lia.
      + left. rewrite S in X3. destruct n; [reflexivity|discriminate].
    - destruct S as [S|[S|[a [k [w [r [S1 S2]]]]]]]; try contradiction. exfalso. rewrite S2 in X3. exact (up_broken _ _ _ _ _ _ S1 X3). }
  assert (LEN : forall q, numbers lk (map cv q) = up_from v n -> (length (numbers lk (map cv q)) <= 2)%nat -> (n <= 2)%nat)
    by (intros q Q L; rewrite Q, up_len in L; exact L).
  destruct (rm_min s) as [a|] eqn:MI; [destruct (rm_max s) as [b|] eqn:MA|].
  - destruct (truthy a && truthy b && rm_merging s) eqn:T.
    + apply (LEN _ E). rewrite map_app, numbers_app, numbers_clean. cbn [app].
      destruct (py_int a =? py_int b); [pose proof (few_rebuilt lk a lk); lia|].
      destruct (1 <? py_int b - py_int a); rewrite map_app, numbers_app, app_length.
      * rewrite (rebuilt_other mn a lk N3), (rebuilt_other mx b lk N4). cbn. lia.
      * pose proof (few_rebuilt lk a lk). pose proof (few_rebuilt lk b lk). lia.
    + destruct (RAW Z1 Z2 E) as [M [Q|[a' [b' [Q1 [Q2 [Q3 Q4]]]]]]]; [lia|]. exfalso. injection Q1 as <-. injection Q2 as <-.
      rewrite M, andb_true_r in T. assert (TR : forall x, 0 < py_int x -> truthy x = true) by (intros [z| | ] L; cbn in *; auto; lia).
      rewrite !TR in T by lia. discriminate T.
  - destruct (RAW Z1 Z2 E) as [M [Q|[a' [b' [Q1 [Q2 _]]]]]]; [lia|discriminate].
  - destruct (RAW Z1 Z2 E) as [M [Q|[a' [b' [Q1 [Q2 _]]]]]]; [lia|discriminate].
Qed.

Lemma chunked_held a r : Forall (fun x => main_tag (fst x) = false) a -> forall seg, chunked seg (a ++ r) = chunked (seg ++ a) r.
Proof.
  induction 1 as [|x a M _ IH]; intros seg; [rewrite app_nil_r; reflexivity|]. cbn [app].
  rewrite <- (chunked_snoc seg x (a ++ r) M), IH, <- app_assoc. reflexivity.
Qed.

Lemma held_main l : held is_main l -> Forall (fun x => main_tag (fst x) = false) (map cv l).
Proof.
  intros H. apply Forall_map. eapply Forall_impl; [|exact H]. intros i E. cbn beta. unfold cv. cbn [fst]. rewrite main_kind. exact E.
Qed.

Lemma rm_ranged l : Forall (ranged lk mn mx) (chunks (map cv (run_pass (range_merge db lk mn mx) l))).
Proof.
  replace (run_pass (range_merge db lk mn mx) l) with (seg_run is_main (rm_g db lk mn mx) (rm_g db lk mn mx) [] l).
  2:{ symmetry. exact (rm_feed db lk mn mx Fam l [] [] (Forall_nil _) (Forall_nil _)). }
  assert (G : forall l acc, held is_main acc -> Forall (ranged lk mn mx) (chunks (map cv (seg_run is_main (rm_g db lk mn mx) (rm_g db lk mn mx) acc l))));
    [|apply G; constructor].
  clear l. induction l as [|i l IH]; intros acc Ha; cbn [seg_run].
  - pose proof (held_main _ (rm_g_held db lk mn mx Fam acc Ha)) as HM. pose proof (g_ranged acc Ha) as R.
    rewrite <- (app_nil_r (map cv (rm_g db lk mn mx acc))), <- chunked_nil, chunked_held by exact HM. cbn. rewrite app_nil_r.
    constructor; [exact R|constructor].
  - destruct (is_main i) eqn:St.
    + rewrite map_app. cbn [map]. rewrite <- chunked_nil, chunked_held by exact (held_main _ (rm_g_held db lk mn mx Fam acc Ha)).
      rewrite chunked_main by (unfold cv; cbn [fst]; rewrite main_kind; exact St).
      constructor; [exact (g_ranged acc Ha)|]. apply IH. constructor.
    + apply IH. apply Forall_app; split; [exact Ha|]. constructor; auto.
Qed.
End Ranges.

Lemma numbers_keep K c l : K c = true -> numbers c (keep K l) = numbers c l.
Proof.
  intros H. unfold numbers, keep. f_equal. induction l as [|[c0 v] l IH]; [reflexivity|]. cbn [filter fst].
  destruct (K c0) eqn:E; cbn [filter fst]; rewrite IH; [reflexivity|].
  destruct (icls_eqb c0 c) eqn:Q; [apply icls_eqb_eq in Q; congruence|reflexivity].
Qed.

Lemma ranged_sel K lk mn mx l : (forall c, main_tag c = true -> K c = true) -> K lk = true -> K mn = true -> K mx = true ->
  Forall (ranged lk mn mx) (chunks (sel K l)) <-> Forall (ranged lk mn mx) (chunks (map cv l)).
Proof.
  intros HK K1 K2 K3. change (sel K l) with (keep K (map cv l)). rewrite chunks_keep by exact HK. rewrite Forall_map.
  split; apply Forall_impl; intros c; unfold ranged; rewrite !numbers_keep by assumption; auto.
Qed.

Definition one_of (lk mn mx c : icls) : bool := main_tag c || icls_eqb c lk || icls_eqb c mn || icls_eqb c mx.

(** UsagePage splits usages only *)
Lemma up_pages db l : Forall constructed l -> Forall (fun i => ic i <> UsagePage) l -> forall page p, (forall q, page = Some q -> p = q) ->
  with_pages p (map cv (snd (feed (usage_page_pass db) page l))) = map cv l.
Proof.
  induction 1 as [|i l C _ IH]; intros N page p P; [reflexivity|]. inversion N as [|? ? N1 N2]; subst. specialize (IH N2).
  rewrite up_step. destruct (is_usage (ic i)) eqn:U.
  - destruct (up_usage db page i C U) as [pg [u [E1 [E2 [E3 [E4 [_ [_ E5]]]]]]]]. rewrite E5. cbn [fst snd].
    assert (PI : 0 <= ival i) by (destruct (constructed_facts i C) as [[Q|Q] _]; auto; destruct (ic i); discriminate).
    specialize (IH (Some (ival i / 65536)) (ival i / 65536) ltac:(congruence)).
    assert (W : with_pages (ival i / 65536) (map cv ([u] ++ snd (feed (usage_page_pass db) (Some (ival i / 65536)) l))) = map cv (i :: l)).
    { cbn [app map with_pages]. unfold cv at 1. cbn [with_pages]. rewrite E3, E4. replace (icls_eqb (ic i) UsagePage) with false by (destruct (ic i); try discriminate U; reflexivity).
      replace (usage_tag (ic i)) with true by (symmetry; rewrite usage_tag_is; exact U). replace (ival i mod 65536 <? 65536) with true by lia.
      cbn [andb]. unfold cv at 2. rewrite IH. f_equal. f_equal. lia. }
    destruct (new_page page (ival i / 65536)) eqn:NP.
    + rewrite <- app_assoc. cbn [app map] in *. unfold cv at 1. cbn [with_pages]. rewrite E1, E2, (proj2 (icls_eqb_eq UsagePage UsagePage) eq_refl). exact W.
    + cbn [app] in *. unfold new_page in NP. destruct page as [q|]; [|discriminate]. rewrite (P q eq_refl). replace q with (ival i / 65536) by lia. exact W.
  - assert (A : up_append db page i = (page, [i])).
    { unfold up_append. rewrite U. f_equal. destruct (ic i); auto; contradiction. }
    rewrite A. cbn [fst snd app map]. unfold cv at 1. cbn [with_pages]. rewrite (proj2 (icls_eqb_neq _ _) N1), usage_tag_is, U. cbn [andb].
    rewrite IH by exact P. reflexivity.
Qed.

Lemma before_ok db l : Forall constructed l -> Forall (fun i => ic i <> UsagePage) l ->
  Forall (fun i => constructed i /\ ic i <> UsagePage) (before_pages db (run_pass designator_uniq l)).
Proof.
  intros C N. apply before_pages_each.
  - intros n H. split; [apply rc_built; auto|discriminate].
  - intros i [H _]. apply rc_nonneg; auto.
  - intros c v K. pose proof (rebuild_built db c v) as R1. pose proof (rebuild_class db c v) as R2.
    rewrite Forall_forall in *. intros i I. split; [apply R1, I|]. rewrite (R2 i I). intros ->. discriminate K.
  - apply du_each. rewrite Forall_forall in *. intros i I. split; [apply C, I|apply N, I].
Qed.

Lemma optimize_ranged db l : Forall constructed l -> Forall (fun i => ic i <> UsagePage) l -> all_ranged (map cv (optimize db l)).
Proof.
  intros C N. split; [|split].
  - rewrite optimize_all. cbn [passes map snd run_all fold_left]. rewrite up_run_split.
    rewrite up_pages; [|..|discriminate].
    + apply rm_ranged. right. right. reflexivity.
    + eapply Forall_impl; [|exact (before_ok db l C N)]. cbn. tauto.
    + eapply Forall_impl; [|exact (before_ok db l C N)]. cbn. tauto.
  - apply (ranged_sel (one_of StringIndex StringMinimum StringMaximum)); try reflexivity; [intros c H; unfold one_of; rewrite H; reflexivity|].
    rewrite optimize_all. cbn [passes map snd run_all fold_left]. rewrite up_keep by reflexivity.
    unfold usage_merge, designator_merge. rewrite !rm_keep by reflexivity.
    apply ranged_sel; try reflexivity; [intros c H; unfold one_of; rewrite H; reflexivity|]. apply rm_ranged. right. left. reflexivity.
  - apply (ranged_sel (one_of DesignatorIndex DesignatorMinimum DesignatorMaximum)); try reflexivity; [intros c H; unfold one_of; rewrite H; reflexivity|].
    rewrite optimize_all. cbn [passes map snd run_all fold_left]. rewrite up_keep by reflexivity.
    unfold usage_merge. rewrite rm_keep by reflexivity.
    apply ranged_sel; try reflexivity; [intros c H; unfold one_of; rewrite H; reflexivity|]. apply rm_ranged. left. reflexivity.
Qed.
