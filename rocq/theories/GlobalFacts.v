(* GlobalFacts.v -- GlobalMerge (C33, C34). *)
From Coq Require Import ZifyBool ZifyNat.
From Verif Require Import Py Usage Item Optimizer HidSpec ItemFacts ParserFacts OptSpec OptFacts MainMergeFacts
  Skeleton PassFacts RangeFacts.
Local Open Scope Z_scope.

(** the pass remembers what was written last *)
Definition knows (s : gm_state) (k : last_written) : Prop :=
  forall c, k c = match s c with Some j => Some (ival j) | None => None end /\
            (forall j, s c = Some j -> ic j = c).

Lemma knows_upd s k i : knows s k -> knows (upd s (ic i) (Some i)) (write k (ic i) (ival i)).
Proof.
  intros H c. destruct (H c) as [H1 H2]. unfold upd, write. destruct (icls_eqb c (ic i)) eqn:E.
  - apply icls_eqb_eq in E. split; auto. intros j Q. injection Q as <-. auto.
  - auto.
Qed.

Lemma knows_init : knows gm_init defaults.
Proof. intros c. unfold gm_init, defaults. destruct c; split; try reflexivity; intros j Q; try discriminate; injection Q as <-; reflexivity. Qed.

Lemma knows_eqb s k i j : knows s k -> s (ic i) = Some j -> item_eqb j i = true <-> k (ic i) = Some (ival i).
Proof.
  intros H E. destruct (H (ic i)) as [H1 H2]. rewrite E in H1. specialize (H2 j E).
  rewrite item_eqb_spec, H1. split; [intros [_ ->]; reflexivity|].
  intros Q. injection Q as Q. auto.
Qed.

Lemma global_tag_kind c : global_tag c = true <-> kind_of c = Global.
Proof. unfold global_tag. rewrite <- hid_global. destruct (hid_kind c); split; congruence. Qed.

Lemma global_tag_off c : kind_of c <> Global -> global_tag c = false.
Proof. intros H. destruct (global_tag c) eqn:E; auto. apply global_tag_kind in E. contradiction. Qed.

Definition drop_at (s : gm_state) (i : item) : bool :=
  match s (ic i) with None => false | Some j => item_eqb j i end.

Lemma gm_cases s i : kind_of (ic i) = Global ->
  gm_append s i = (upd s (ic i) (Some i),
    if negb (drop_at s i) || icls_eqb (ic i) Push || icls_eqb (ic i) Pop then [i] else []).
Proof. intros K. unfold gm_append, ikd, drop_at. rewrite K. destruct (s (ic i)); reflexivity. Qed.

Lemma gm_norep l : forall s k, knows s k -> no_repeats k (map cv (snd (feed global_merge s l))).
Proof.
  induction l as [|i l IH]; intros s k H; [exact I|].
  cbn [feed]. change (p_append global_merge) with gm_append.
  destruct (ikind_eqb (kind_of (ic i)) Global) eqn:KG.
  - assert (K : kind_of (ic i) = Global) by (destruct (kind_of (ic i)); auto; discriminate).
    rewrite (gm_cases s i K). specialize (IH (upd s (ic i) (Some i)) (write k (ic i) (ival i)) (knows_upd _ _ _ H)).
    destruct (feed global_merge (upd s (ic i) (Some i)) l) as [s2 o2]. cbn [snd] in *.
    destruct (negb (drop_at s i) || icls_eqb (ic i) Push || icls_eqb (ic i) Pop) eqn:KE.
    + cbn [app map]. cbn [no_repeats cv]. unfold cv at 1. rewrite (proj2 (global_tag_kind _) K). split; auto.
      apply orb_true_iff in KE. destruct KE as [KE|KE]; [apply orb_true_iff in KE; destruct KE as [KE|KE]|].
      * right. right. unfold drop_at in KE. destruct (s (ic i)) as [j|] eqn:SJ.
        -- intros Q. apply (knows_eqb s k i j H SJ) in Q. rewrite Q in KE. discriminate.
        -- destruct (H (ic i)) as [H1 _]. rewrite SJ in H1. congruence.
      * left. apply icls_eqb_eq. auto.
      * right. left. apply icls_eqb_eq. auto.
    + cbn [app]. apply orb_false_iff in KE. destruct KE as [KE _]. apply orb_false_iff in KE. destruct KE as [KE _].
      apply negb_false_iff in KE. unfold drop_at in KE. destruct (s (ic i)) as [j|] eqn:SJ; [|discriminate].
      apply (knows_eqb s k i j H SJ) in KE.
      (* writing it again changes nothing known *)
      revert IH. apply (fun (e : forall l k k', (forall c, k c = k' c) -> no_repeats k l -> no_repeats k' l) => e (map cv o2) _ k
        (fun c => match icls_eqb c (ic i) as b return icls_eqb c (ic i) = b -> write k (ic i) (ival i) c = k c with
                  | true => fun q => ltac:(unfold write; rewrite q; apply icls_eqb_eq in q; subst; symmetry; exact KE)
                  | false => fun q => ltac:(unfold write; rewrite q; reflexivity) end eq_refl)).
      clear. induction l as [|[c v] l IH]; intros k k' E; auto. cbn [no_repeats]. destruct (global_tag c).
      * intros [A B]. rewrite <- E. split; auto. revert B. apply IH. intros c'. unfold write. destruct (icls_eqb c' c); auto.
      * apply IH; auto.
  - assert (K : kind_of (ic i) <> Global) by (intros Q; rewrite Q in KG; discriminate).
    assert (AP : gm_append s i = (s, [i])) by (unfold gm_append, ikd; destruct (kind_of (ic i)); auto; contradiction).
    rewrite AP. specialize (IH s k H). destruct (feed global_merge s l) as [s2 o2]. cbn [snd app map no_repeats] in *.
    unfold cv at 1. rewrite global_tag_off by auto. exact IH.
Qed.

Lemma gm_run_split l : run_pass global_merge l = snd (feed global_merge gm_init l).
Proof.
  unfold run_pass. change (p_init global_merge) with gm_init. destruct (feed global_merge gm_init l) as [s o].
  change (p_close global_merge s) with (@nil item). apply app_nil_r.
Qed.

Lemma gm_fresh {A} (obs : gtab -> locals -> icls -> Z -> list A) l : forall s k g sk x, knows s k -> fresh k (g, sk) (map cv l) ->
  hrun obs (H g sk x) (snd (feed global_merge s l)) = hrun obs (H g sk x) l.
Proof.
  induction l as [|i l IH]; intros s k g sk x H F; auto.
  cbn [feed]. change (p_append global_merge) with gm_append.
  cbn [map fresh] in F. unfold cv at 1 in F.
  destruct (kind_of (ic i)) eqn:K.
  - assert (AP : gm_append s i = (s, [i])) by (unfold gm_append, ikd; rewrite K; auto).
    rewrite global_tag_off in F by congruence.
    rewrite AP. specialize (IH s k g sk lo_init H F). destruct (feed global_merge s l) as [s2 o2]. cbn [snd app] in *.
    rewrite !hrun_main by auto. rewrite IH. reflexivity.
  - rewrite (proj2 (global_tag_kind _) K) in F. destruct F as [F1 F2].
    rewrite (gm_cases s i K). cbn [fst snd] in F1.
    destruct (table_step (g, sk) (ic i) (ival i)) as [g1 sk1] eqn:TS.
    specialize (IH (upd s (ic i) (Some i)) _ g1 sk1 x (knows_upd _ _ _ H) F2).
    destruct (feed global_merge (upd s (ic i) (Some i)) l) as [s2 o2]. cbn [snd] in *.
    rewrite (hrun_global obs g sk x i l K), TS. cbn [fst snd].
    destruct (negb (drop_at s i) || icls_eqb (ic i) Push || icls_eqb (ic i) Pop) eqn:KE.
    + cbn [app]. rewrite (hrun_global obs g sk x i o2 K), TS. exact IH.
    + cbn [app]. apply orb_false_iff in KE. destruct KE as [KE N2]. apply orb_false_iff in KE. destruct KE as [KE N1].
      apply icls_eqb_neq in N1. apply icls_eqb_neq in N2.
      apply negb_false_iff in KE. unfold drop_at in KE. destruct (s (ic i)) as [j|] eqn:SJ; [|discriminate].
      apply (knows_eqb s k i j H SJ) in KE. specialize (F1 N1 N2 KE).
      assert (E : (g1, sk1) = (g, sk)).
      { rewrite <- TS. destruct (ic i); try discriminate K; try contradiction; cbn [table_step fst snd]; rewrite F1; reflexivity. }
      injection E as -> ->. exact IH.
  - assert (AP : gm_append s i = (s, [i])) by (unfold gm_append, ikd; rewrite K; auto).
    rewrite global_tag_off in F by congruence.
    rewrite AP. specialize (IH s k g sk (lo_set (ic i) (ival i) (w_ext (wire i)) (g_page g) x) H F).
    destruct (feed global_merge s l) as [s2 o2]. cbn [snd app] in *.
    rewrite !hrun_local by auto. rewrite IH. reflexivity.
Qed.

(** without Push and Pop every stream is fresh *)
Lemma push_free_fresh l : push_free l -> forall k g sk, (forall c v, k c = Some v -> g_set c v g = g) -> fresh k (g, sk) (map cv l).
Proof.
  induction 1 as [|i l [N1 N2] _ IH]; intros k g sk Q; [exact I|].
  cbn [map fresh]. unfold cv at 1. destruct (global_tag (ic i)) eqn:GT; auto.
  split; [intros _ _ E; apply Q; auto|].
  replace (table_step (g, sk) (ic i) (ival i)) with (g_set (ic i) (ival i) g, sk) by (destruct (ic i); try contradiction; reflexivity).
  apply IH. intros c v E. unfold write in E. destruct (icls_eqb c (ic i)) eqn:C.
  - apply icls_eqb_eq in C. injection E as <-. subst c. apply g_set_twice.
  - apply icls_eqb_neq in C. rewrite g_set_comm by auto. rewrite (Q c v E). reflexivity.
Qed.

Lemma defaults_init c v : defaults c = Some v -> g_set c v g_init = g_init.
Proof. destruct c; intros E; try discriminate; injection E as <-; reflexivity. Qed.

Lemma c34 m l : fresh defaults (g_init, []) (map cv l) ->
  seen m (run_pass global_merge l) = seen m l /\ no_repeats defaults (map cv (run_pass global_merge l)).
Proof.
  intros F. rewrite gm_run_split. split; [|apply gm_norep, knows_init].
  rewrite !seen_hrun. rewrite (gm_fresh (full_obs m) l gm_init defaults g_init [] lo_init knows_init F). reflexivity.
Qed.

Lemma c33 m l : push_free l ->
  seen m (run_pass global_merge l) = seen m l /\ no_repeats defaults (map cv (run_pass global_merge l)).
Proof. intros P. apply c34. apply push_free_fresh; auto. apply defaults_init. Qed.

(* LogicalMaximum 5, Push, LogicalMaximum 7, Pop, LogicalMaximum 7: the last
   item is dropped, the host falls back to 5 *)
Lemma c34_refuted : exists l, Forall constructed l /\ seen AtDecl (run_pass global_merge l) <> seen AtDecl l.
Proof.
  exists (items [(LogicalMaximum, 5); (Push, 0); (LogicalMaximum, 7); (Pop, 0);
          (LogicalMaximum, 7); (ReportSize, 8); (ReportCount, 1); (Input, 2)]).
  split; [apply items_built|]. vm_compute. discriminate.
Qed.
