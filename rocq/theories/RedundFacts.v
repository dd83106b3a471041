(* RedundFacts.v -- the optimised output writes no global item twice *)
From Coq Require Import ZifyBool ZifyNat.
From Verif Require Import Py Usage Item Parser Optimizer Descriptor Converter HidSpec Spec StreamSpec StreamProofs OptSpec
  AllSpec TreeSpec ItemFacts ParserFacts OptFacts Skeleton PassFacts OptAll TreeOpt PageSpec PageShift PageTree
  GlobalFacts PageFacts CodecProofs.
Local Open Scope list_scope. Local Open Scope Z_scope.

(** the numbers written for one kind of item *)
Definition vals (c : icls) (l : list spec_item) : list Z := map snd (filter (fun x => icls_eqb (fst x) c) l).

Lemma icls_eqb_sym a b : icls_eqb a b = icls_eqb b a.
Proof. destruct (icls_eqb a b) eqn:E, (icls_eqb b a) eqn:F; auto; [apply icls_eqb_eq in E|apply icls_eqb_eq in F]; subst; [rewrite (proj2 (icls_eqb_eq b b) eq_refl) in F|rewrite (proj2 (icls_eqb_eq a a) eq_refl) in E]; congruence. Qed.

Fixpoint changing (o : option Z) (l : list Z) : Prop :=
  match l with
  | [] => True
  | v :: r => o <> Some v /\ changing (Some v) r
  end.

Lemma no_repeats_each l : forall k, no_repeats k l <->
  forall c, global_tag c = true -> c <> Push -> c <> Pop -> changing (k c) (vals c l).
Proof.
  induction l as [|[c0 v] l IH]; intros k; [split; [intros _ c _ _ _; exact I|intros; exact I]|].
  cbn [no_repeats]. destruct (global_tag c0) eqn:G.
  - split.
    + intros [A B] c GC N1 N2. rewrite IH in B. specialize (B c GC N1 N2). unfold vals in *. cbn [filter fst].
      unfold write in B. rewrite (icls_eqb_sym c0 c). destruct (icls_eqb c c0) eqn:E; [|exact B].
      apply icls_eqb_eq in E. subst c0. cbn [map changing snd]. split; [|exact B]. destruct A as [A|[A|A]]; auto; contradiction.
    + intros H. split.
      * destruct (icls_eqb c0 Push) eqn:E1; [apply icls_eqb_eq in E1; auto|]. destruct (icls_eqb c0 Pop) eqn:E2; [apply icls_eqb_eq in E2; auto|].
        right. right. apply icls_eqb_neq in E1. apply icls_eqb_neq in E2. specialize (H c0 G E1 E2). unfold vals in H. cbn [filter fst] in H.
        rewrite (proj2 (icls_eqb_eq c0 c0) eq_refl) in H. apply H.
      * apply IH. intros c GC N1 N2. specialize (H c GC N1 N2). unfold vals in *. cbn [filter fst] in H. unfold write.
        rewrite (icls_eqb_sym c c0). destruct (icls_eqb c0 c) eqn:E; [|exact H]. apply H.
  - rewrite IH. split; intros H c GC N1 N2; specialize (H c GC N1 N2); unfold vals in *; cbn [filter fst] in *;
      (destruct (icls_eqb c0 c) eqn:E; [apply icls_eqb_eq in E; congruence|exact H]).
Qed.

Definition is_tag (c c' : icls) : bool := icls_eqb c' c.

Lemma vals_sel c l : vals c (map cv l) = map snd (sel (is_tag c) l).
Proof. reflexivity. Qed.

(** the passes after GlobalMerge *)
Lemma after_global db l c : global_tag c = true ->
  vals c (map cv (run_pass (usage_merge db) (run_pass (designator_merge db) (run_pass (string_merge db) l)))) = vals c (map cv l).
Proof.
  intros G. rewrite !vals_sel. unfold usage_merge, designator_merge, string_merge.
  rewrite !rm_keep; auto; unfold is_tag; destruct c; try discriminate G; reflexivity.
Qed.

Lemma up_pages_change db l : Forall constructed l -> Forall (fun i => ic i <> UsagePage) l -> forall page,
  changing page (vals UsagePage (map cv (snd (feed (usage_page_pass db) page l)))).
Proof.
  induction 1 as [|i l C _ IH]; intros N page; [exact I|]. inversion N as [|? ? N1 N2]; subst. specialize (IH N2).
  cbn [feed]. change (p_append (usage_page_pass db)) with (up_append db).
  destruct (is_usage (ic i)) eqn:U.
  - destruct (up_usage db page i C U) as [pg [u [E1 [E2 [E3 [E4 [_ [_ E5]]]]]]]]. rewrite E5.
    specialize (IH (Some (ival i / 65536))). destruct (feed (usage_page_pass db) (Some (ival i / 65536)) l) as [s2 o2]. cbn [snd] in *.
    assert (NU : icls_eqb (ic u) UsagePage = false) by (rewrite E3; destruct (ic i); try discriminate U; reflexivity).
    unfold vals in *. destruct (new_page page (ival i / 65536)) eqn:NP; cbn [app map filter fst cv].
    + rewrite E1. cbn [icls_eqb]. try rewrite (proj2 (icls_eqb_eq UsagePage UsagePage) eq_refl). rewrite NU. cbn [map snd changing].
      unfold cv at 1. cbn [snd]. unfold cv at 1. cbn [snd]. rewrite E2. split; [|exact IH]. intros ->. unfold new_page in NP. lia.
    + rewrite NU. unfold new_page in NP. destruct page as [p|]; [|discriminate NP].
      replace p with (ival i / 65536) by lia. exact IH.
  - unfold up_append. rewrite U.
    assert (E : (match ic i with UsagePage => Some (ival i) | _ => page end) = page) by (destruct (ic i); auto; contradiction).
    rewrite E. specialize (IH page). destruct (feed (usage_page_pass db) page l) as [s2 o2]. cbn [snd app map] in *.
    unfold vals in *. cbn [filter fst cv]. destruct (icls_eqb (ic i) UsagePage) eqn:X; [apply icls_eqb_eq in X; contradiction|exact IH].
Qed.

Lemma vals_up db l c : global_tag c = true -> c <> UsagePage -> vals c (map cv (run_pass (usage_page_pass db) l)) = vals c (map cv l).
Proof.
  intros G N. rewrite !vals_sel. rewrite up_keep; auto; unfold is_tag; destruct c; try discriminate G; try contradiction; reflexivity.
Qed.

Lemma optimize_globals db l c : global_tag c = true -> c <> Push -> c <> Pop -> c <> UsagePage ->
  changing (defaults c) (vals c (map cv (optimize db l))).
Proof.
  intros G N1 N2 N3. rewrite optimize_all. cbn [passes map snd run_all fold_left].
  rewrite vals_up, after_global by auto.
  rewrite gm_run_split. apply (proj1 (no_repeats_each _ defaults)); auto. apply gm_norep, knows_init.
Qed.

Lemma optimize_pages_change db l : Forall constructed l -> Forall (fun i => ic i <> UsagePage) l ->
  changing None (vals UsagePage (map cv (optimize db l))).
Proof.
  intros C N. rewrite optimize_all. cbn [passes map snd run_all fold_left]. rewrite up_run_split.
  assert (Q : Forall (fun i => constructed i /\ ic i <> UsagePage) (before_pages db (run_pass designator_uniq l))).
  { apply before_pages_each.
    - intros n H. split; [apply rc_built; auto|discriminate].
    - intros i [H _]. apply rc_nonneg; auto.
    - intros c v K. pose proof (rebuild_built db c v) as R1. pose proof (rebuild_class db c v) as R2.
      rewrite Forall_forall in *. intros i I. split; [apply R1, I|]. rewrite (R2 i I). intros ->. discriminate K.
    - apply du_each. rewrite Forall_forall in *. intros i I. split; [apply C, I|apply N, I]. }
  apply up_pages_change; eapply Forall_impl; try exact Q; cbn; tauto.
Qed.

(* ------------------------------------------------------------------ *)
(** C77 *)

Lemma c77 db t b : well_formed t -> compile db true t = Ok b ->
  exists ws, blob_means b ws /\ no_repeats defaults (map w_what ws).
Proof.
  intros WF H. unfold compile in H. destruct (stream_items db t) as [l|] eqn:E; [|discriminate]. cbn [bind] in H.
  exists (map wire (optimize db l)). split; [apply serialize_means; exact H|].
  rewrite map_map. change (no_repeats defaults (map cv (optimize db l))).
  unfold stream_items in E. destruct (stream_tree db sst_init t) as [[st' o]|] eqn:S; [|discriminate]. cbn [bind] in E. injection E as <-.
  pose proof (stream_pieces db t _ _ _ 0 WF S) as P. pose proof (pieces_items _ _ _ _ P) as F.
  apply no_repeats_each. intros c G N1 N2. destruct (icls_eqb c UsagePage) eqn:Q.
  - apply icls_eqb_eq in Q. subst c. apply optimize_pages_change; [eapply stream_constructed; eauto|].
    rewrite Forall_map in F. eapply Forall_impl; [|exact F]. intros i [A _] X. cbn [cv fst] in A. rewrite X in A. discriminate A.
  - apply icls_eqb_neq in Q. apply optimize_globals; auto.
Qed.

Lemma vals_no_pages c l : c <> UsagePage -> vals c (no_pages l) = vals c l.
Proof.
  intros N. unfold vals, no_pages. f_equal. induction l as [|[c0 v] l IH]; [reflexivity|]. cbn [filter fst].
  destruct (icls_eqb c0 UsagePage) eqn:E; cbn [negb].
  - apply icls_eqb_eq in E. subst c0. destruct (icls_eqb UsagePage c) eqn:F; [apply icls_eqb_eq in F; congruence|exact IH].
  - cbn [filter fst]. rewrite IH. reflexivity.
Qed.

Lemma vals_only_pages l : vals UsagePage (no_pages l) = [].
Proof.
  unfold vals, no_pages. induction l as [|[c0 v] l IH]; [reflexivity|]. cbn [filter fst].
  destruct (icls_eqb c0 UsagePage) eqn:E; cbn [negb]; [exact IH|]. cbn [filter fst]. rewrite E. exact IH.
Qed.

Lemma c77_blob db b ws out : blob_means b ws -> Forall number_allowed ws -> convert_opt db b = Ok out ->
  exists ws', blob_means out ws' /\ no_repeats defaults (no_pages (map w_what ws')) /\
    (Forall (fun x => fst x <> UsagePage) (map w_what ws) -> no_repeats defaults (map w_what ws')).
Proof.
  intros B N H. destruct (parse_good db 0 b ws B (proj1 (allowed_forall ws) N)) as [l [PA [M C]]].
  unfold convert_opt in H. rewrite blob_parse_from, PA in H. cbn [finished appended bind] in H.
  change (map wcv ws) with (map w_what ws) in M.
  exists (map wire (optimize db l)). split; [apply serialize_means; exact H|].
  rewrite map_map. change (map (fun x => w_what (wire x)) (optimize db l)) with (map cv (optimize db l)).
  split.
  - apply no_repeats_each. intros c G N1 N2. destruct (icls_eqb c UsagePage) eqn:Q.
    + apply icls_eqb_eq in Q. subst c. rewrite vals_only_pages. exact I.
    + apply icls_eqb_neq in Q. rewrite vals_no_pages by exact Q. apply optimize_globals; auto.
  - intros F. rewrite <- M, Forall_map in F.
    apply no_repeats_each. intros c G N1 N2. destruct (icls_eqb c UsagePage) eqn:Q.
    + apply icls_eqb_eq in Q. subst c. apply optimize_pages_change; auto.
    + apply icls_eqb_neq in Q. apply optimize_globals; auto.
Qed.
