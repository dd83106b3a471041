(* FormProofs.v -- C79, C80 and C81 from the passes *)
From Coq Require Import ZifyBool ZifyNat.
From Verif Require Import Py Usage Item Parser Optimizer Descriptor Converter HidSpec Spec StreamSpec StreamProofs OptSpec
  AllSpec TreeSpec ItemFacts ParserFacts OptFacts Skeleton PassFacts OptAll TreeOpt PageSpec PageShift PageTree
  GlobalFacts PageFacts CodecProofs RedundFacts FormSpec FormFacts FormRange.
From Verif Require Idem.
Local Open Scope list_scope. Local Open Scope Z_scope.

(** what the two ways to run the optimiser give *)
Lemma tree_outputs db t b : compile db true t = Ok b ->
  exists l, stream_items db t = Ok l /\ blob_means b (map wire (optimize db l)).
Proof.
  intros H. unfold compile in H. destruct (stream_items db t) as [l|] eqn:E; [|discriminate]. cbn [bind] in H.
  exists l. split; auto. apply serialize_means; exact H.
Qed.

Lemma tree_plain db t b : compile db false t = Ok b ->
  exists l, stream_items db t = Ok l /\ blob_means b (map wire l).
Proof.
  intros H. unfold compile in H. destruct (stream_items db t) as [l|] eqn:E; [|discriminate]. cbn [bind] in H.
  exists l. split; auto. apply serialize_means; exact H.
Qed.

Lemma blob_outputs db b ws out : blob_means b ws -> Forall number_allowed ws -> convert_opt db b = Ok out ->
  exists l, Forall constructed l /\ map cv l = map w_what ws /\ blob_means out (map wire (optimize db l)).
Proof.
  intros B N H. destruct (parse_good db 0 b ws B (proj1 (allowed_forall ws) N)) as [l [PA [M C]]].
  unfold convert_opt in H. rewrite blob_parse_from, PA in H. cbn [finished appended bind] in H.
  exists l. split; auto. split; [exact M|]. apply serialize_means; exact H.
Qed.

Lemma wires l : map w_what (map wire l) = map cv l.
Proof. rewrite map_map. reflexivity. Qed.

Lemma stream_shape db t l : well_formed t -> stream_items db t = Ok l ->
  Forall constructed l /\ Forall (fun i => ic i <> UsagePage) l.
Proof.
  intros WF E. split.
  - unfold stream_items in E. destruct (stream_tree db sst_init t) as [[st' o]|] eqn:S; [|discriminate]. cbn [bind] in E. injection E as <-.
    eapply stream_constructed; eauto.
  - unfold stream_items in E. destruct (stream_tree db sst_init t) as [[st' o]|] eqn:S; [|discriminate]. cbn [bind] in E. injection E as <-.
    pose proof (stream_pieces db t _ _ _ 0 WF S) as P. pose proof (pieces_items _ _ _ _ P) as F.
    rewrite Forall_map in F. eapply Forall_impl; [|exact F]. intros i [A _] X. cbn [cv fst] in A. rewrite X in A. discriminate A.
Qed.

Lemma closed_ends_items l : closed_stream (map cv l) -> ends l.
Proof.
  intros [l' [x [E [M1 M2]]]].
  destruct (exists_last (l := l)) as [l0 [i ->]]; [intros ->; destruct l'; discriminate|].
  rewrite map_app in E. cbn [map] in E. apply app_inj_tail in E. destruct E as [_ <-].
  exists l0, i. split; auto. destruct i as [c v]. cbn [cv fst ic] in *.
  destruct c; try discriminate M1; try discriminate M2; split; reflexivity.
Qed.

(* ------------------------------------------------------------------ *)
(** C79 *)

Lemma c79 db t b0 b : closed_tree t -> compile db false t = Ok b0 -> compile db true t = Ok b ->
  exists ws0 ws, blob_means b0 ws0 /\ blob_means b ws /\
    counted_mains 0 (map w_what ws) = joined (fun _ => 0) 0 None (map w_what ws0).
Proof.
  intros CT H0 H. destruct (tree_plain _ _ _ H0) as [l [E B0]]. destruct (tree_outputs _ _ _ H) as [l' [E' B]].
  rewrite E in E'. injection E' as <-. exists (map wire l), (map wire (optimize db l)). split; auto. split; auto.
  rewrite !wires. apply optimize_form.
  unfold stream_items in E. destruct (stream_tree db sst_init t) as [[st' o]|] eqn:S; [|discriminate]. cbn [bind] in E. injection E as <-.
  eapply closed_ends; eauto.
Qed.

Lemma c79_blob db b ws out : blob_means b ws -> Forall number_allowed ws -> closed_stream (map w_what ws) -> convert_opt db b = Ok out ->
  exists ws', blob_means out ws' /\ counted_mains 0 (map w_what ws') = joined (fun _ => 0) 0 None (map w_what ws).
Proof.
  intros B N CL H. destruct (blob_outputs _ _ _ _ B N H) as [l [C [M O]]].
  exists (map wire (optimize db l)). split; auto. rewrite wires, <- M. apply optimize_form.
  apply closed_ends_items. rewrite M. exact CL.
Qed.

(* ------------------------------------------------------------------ *)
(** C80 *)

Lemma c80 db t b : well_formed t -> compile db true t = Ok b ->
  exists ws, blob_means b ws /\ all_ranged (map w_what ws).
Proof.
  intros WF H. destruct (tree_outputs _ _ _ H) as [l [E B]]. exists (map wire (optimize db l)). split; auto.
  rewrite wires. destruct (stream_shape _ _ _ WF E). apply optimize_ranged; auto.
Qed.

Lemma c80_blob db b ws out : blob_means b ws -> Forall number_allowed ws -> convert_opt db b = Ok out ->
  Forall (fun x => fst x <> UsagePage) (map w_what ws) ->
  exists ws', blob_means out ws' /\ all_ranged (map w_what ws').
Proof.
  intros B N H P. destruct (blob_outputs _ _ _ _ B N H) as [l [C [M O]]].
  exists (map wire (optimize db l)). split; auto. rewrite wires. apply optimize_ranged; auto.
  rewrite <- M, Forall_map in P. exact P.
Qed.

(* ------------------------------------------------------------------ *)
(** C81 *)

Lemma numbers_each c v l : (forall i, In i l -> ic i = c -> ival i = v) <-> Forall (fun z => z = v) (numbers c (map cv l)).
Proof.
  unfold numbers. induction l as [|i l IH]; [split; [constructor|intros _ i []]|].
  cbn [map filter cv fst]. destruct (icls_eqb (ic i) c) eqn:E.
  - cbn [map snd]. split.
    + intros H. constructor; [|apply IH; intros j I; apply H; right; auto]. apply icls_eqb_eq in E. exact (H i (or_introl eq_refl) E).
    + intros H j [<-|I] EJ; [exact (Forall_inv H)|]. apply (proj2 IH (Forall_inv_tail H)); auto.
  - rewrite <- IH. split; intros H j I; [apply H; right; auto|]. destruct I as [<-|I]; [|apply H; auto].
    intros EJ. apply icls_eqb_neq in E. contradiction.
Qed.

Lemma changing_zero l : changing (Some 0) l -> Forall (fun z => z = 0) l -> l = [].
Proof. intros H F. destruct F as [|z l -> _]; [reflexivity|]. destruct H as [H _]. contradiction. Qed.

Lemma optimize_zero db l c : zero_at_first c = true -> Forall constructed l ->
  Forall (fun z => z = 0) (numbers c (map cv l)) -> numbers c (map cv (optimize db l)) = [].
Proof.
  intros Z C F.
  assert (G : global_tag c = true /\ c <> Push /\ c <> Pop /\ c <> UsagePage /\ c <> ReportCount /\ kind_of c = Global)
    by (destruct c; try discriminate Z; repeat split; discriminate).
  destruct G as [G [N1 [N2 [N3 [N4 K]]]]].
  apply changing_zero.
  { pose proof (optimize_globals db l c G N1 N2 N3) as X. replace (defaults c) with (Some 0) in X by (destruct c; try discriminate Z; reflexivity).
    exact X. }
  rewrite optimize_all. cbn [passes map snd run_all fold_left].
  change (numbers c) with (vals c). rewrite vals_up by auto.
  change (vals c) with (numbers c).
  change (Forall (fun z => z = 0) (numbers c (map cv (before_pages db (run_pass designator_uniq l))))).
  apply numbers_each.
  assert (Q : Forall (fun i => constructed i /\ (ic i = c -> ival i = 0)) (before_pages db (run_pass designator_uniq l))).
  { apply before_pages_each.
    - intros n H. split; [apply rc_built; auto|]. intros X. cbn [rc_item ic] in X. congruence.
    - intros i [H _]. apply rc_nonneg; auto.
    - intros c' v K'. pose proof (rebuild_built db c' v) as R1. pose proof (rebuild_class db c' v) as R2.
      rewrite Forall_forall in *. intros i I. split; [apply R1, I|]. rewrite (R2 i I). intros ->. congruence.
    - apply du_each. rewrite Forall_forall in *. intros i I. split; [apply C, I|]. apply (proj2 (numbers_each c 0 l)); auto.
      apply Forall_forall. exact F. }
  rewrite Forall_forall in Q. intros i I. apply Q, I.
Qed.

(** groups of what a pass makes of them *)
Lemma seg_groups stop tag g cl (Q : list spec_item -> Prop) :
  (forall i, stop i = tag (ic i)) ->
  (forall acc, Idem.held stop acc -> Idem.held stop (g acc) /\ Q (map cv (g acc))) ->
  (forall acc, Idem.held stop acc -> Idem.held stop (cl acc)) ->
  forall l acc, Idem.held stop acc -> Forall Q (groups tag [] (map cv (Idem.seg_run stop g cl acc l))).
Proof.
  intros T G CL.
  assert (P : forall a r o, Idem.held stop a -> groups tag o (map cv (a ++ r)) = groups tag (o ++ map cv a) (map cv r)).
  { intros a r. induction a as [|i a IH]; intros o H; cbn [app map]; [rewrite app_nil_r; reflexivity|].
    inversion H as [|? ? H1 H2]; subst. cbn [groups cv fst]. rewrite <- T, H1, IH by exact H2. rewrite <- app_assoc. reflexivity. }
  induction l as [|i l IH]; intros acc H; cbn [Idem.seg_run].
  - rewrite <- (app_nil_r (cl acc)). rewrite P by (apply CL; exact H). constructor.
  - destruct (stop i) eqn:S.
    + destruct (G acc H) as [G1 G2]. rewrite P by exact G1. cbn [map groups cv fst app]. rewrite <- T, S.
      constructor; auto. apply IH. constructor.
    + apply IH. apply Forall_app. split; [exact H|]. constructor; [exact S|constructor].
Qed.

Lemma pm_ch_last acc c : c = PhysicalMinimum \/ c = PhysicalMaximum \/ c = LogicalMinimum \/ c = LogicalMaximum ->
  Idem.pm_ch acc c = last (numbers c (map cv acc)) 0.
Proof.
  intros C. unfold Idem.pm_ch. induction acc as [|i acc IH] using rev_ind; [reflexivity|].
  rewrite fold_left_app. cbn [fold_left]. unfold Idem.pm_next at 1, numbers. rewrite map_app, filter_app, map_app. cbn [map filter cv fst].
  destruct (icls_eqb (ic i) c) eqn:E.
  - apply icls_eqb_eq in E. cbn [map snd]. rewrite last_last.
    replace (is_phys (ic i) || is_log (ic i)) with true by (rewrite E; destruct C as [->|[->|[->| ->]]]; reflexivity).
    unfold upd. rewrite E, (proj2 (icls_eqb_eq c c) eq_refl). reflexivity.
  - cbn [map]. rewrite app_nil_r. destruct (is_phys (ic i) || is_log (ic i)); [|exact IH].
    unfold upd. rewrite icls_eqb_sym, E. exact IH.
Qed.

Lemma no_phys_numbers c acc : c = PhysicalMinimum \/ c = PhysicalMaximum ->
  numbers c (map cv (filter (fun x => negb (is_phys (ic x))) acc)) = [].
Proof.
  intros C. induction acc as [|i acc IH]; [reflexivity|]. cbn [filter]. destruct (is_phys (ic i)) eqn:E; cbn [negb]; [exact IH|].
  unfold numbers in *. cbn [map filter cv fst]. destruct (icls_eqb (ic i) c) eqn:F; [|exact IH].
  apply icls_eqb_eq in F. destruct C as [-> | ->]; rewrite F in E; discriminate E.
Qed.

Lemma c81_physical l : Forall bounds_needed (groups main_tag [] (map cv (run_pass physical_merge l))).
Proof.
  replace (run_pass physical_merge l) with (Idem.seg_run Idem.is_main Idem.pm_g (fun acc => acc) [] l)
    by (symmetry; exact (Idem.pm_feed l [] (Forall_nil _))).
  apply seg_groups; [| |auto|constructor].
  - intros i. unfold Idem.is_main, ikd. destruct (ic i); reflexivity.
  - intros acc H. unfold Idem.pm_g.
    destruct ((Idem.pm_ch acc PhysicalMinimum =? Idem.pm_ch acc LogicalMinimum) && (Idem.pm_ch acc PhysicalMaximum =? Idem.pm_ch acc LogicalMaximum)) eqn:D.
    + split; [apply Idem.filter_held; exact H|]. intros _ _. split; apply no_phys_numbers; auto.
    + split; auto. intros A B. exfalso. rewrite !pm_ch_last in D by tauto. lia.
Qed.

Lemma filt_numbers acc : forall n f, Idem.du_filt n f acc =
  match numbers DesignatorIndex (map cv acc) with
  | [] => f
  | _ => Idem.du_filt n f acc
  end.
Proof.
  induction acc as [|i acc IH]; intros n f; [reflexivity|]. unfold numbers. cbn [map filter cv fst].
  destruct (icls_eqb (ic i) DesignatorIndex) eqn:E; [reflexivity|]. cbn [Idem.du_filt]. unfold Idem.du_next, Idem.is_desig. rewrite E. apply IH.
Qed.

Lemma filt_one acc : numbers DesignatorIndex (map cv acc) = [0] -> forall n, exists k, Idem.du_filt n DNone acc = DAt k.
Proof.
  induction acc as [|i acc IH]; intros H n; [discriminate|]. unfold numbers in H. cbn [map filter cv fst] in H.
  cbn [Idem.du_filt]. unfold Idem.du_next, Idem.is_desig. destruct (icls_eqb (ic i) DesignatorIndex) eqn:E.
  - cbn [map snd] in H. injection H as H1 H2. change (snd (cv i)) with (ival i) in H1.
    replace (ival i =? 0) with true by lia. exists n. rewrite filt_numbers.
    unfold numbers. rewrite H2. reflexivity.
  - apply IH. exact H.
Qed.

Lemma not_desig l : Forall (fun i => Idem.is_desig i = false) l -> numbers DesignatorIndex (map cv l) = [].
Proof.
  induction 1 as [|i l H _ IH]; [reflexivity|]. unfold numbers in *. cbn [map filter cv fst]. unfold Idem.is_desig in H. rewrite H. exact IH.
Qed.

Lemma du_seg l : run_pass designator_uniq l = Idem.seg_run Idem.du_stop Idem.du_g (fun _ => []) [] l.
Proof. exact (Idem.du_feed l [] (Forall_nil _)). Qed.

Lemma du_stop_tag i : Idem.du_stop i = negb (local_tag (ic i)).
Proof. unfold Idem.du_stop, ikd, local_tag. destruct (ic i); reflexivity. Qed.

Lemma du_g_less acc : Idem.du_g acc = acc \/ Forall (fun i => Idem.is_desig i = false) (Idem.du_g acc).
Proof.
  unfold Idem.du_g. destruct (Idem.du_filt 0 DNone acc) eqn:D; auto. right.
  destruct (Idem.du_filt_pos _ _ _ D) as [_ F]. rewrite Nat.sub_0_r in F. exact F.
Qed.

Lemma du_g_zero acc : numbers DesignatorIndex (map cv acc) = [0] -> Forall (fun i => Idem.is_desig i = false) (Idem.du_g acc).
Proof.
  intros H. unfold Idem.du_g. destruct (filt_one acc H 0) as [k D]. rewrite D.
  destruct (Idem.du_filt_pos _ _ _ D) as [_ F]. rewrite Nat.sub_0_r in F. exact F.
Qed.

Lemma c81_designator l : Forall designator_needed (groups (fun c => negb (local_tag c)) [] (map cv (run_pass designator_uniq l))).
Proof.
  rewrite du_seg. apply seg_groups; [exact du_stop_tag| |intros; constructor|constructor].
  intros acc H. split.
  - unfold Idem.du_g. destruct (Idem.du_filt 0 DNone acc); auto. apply Idem.remove_nth_incl. exact H.
  - unfold designator_needed. intros X. destruct (du_g_less acc) as [E|E].
    + rewrite E in X. rewrite not_desig in X by (rewrite <- E; apply du_g_zero; exact X). discriminate X.
    + rewrite not_desig in X by exact E. discriminate X.
Qed.

Lemma numbers_none c l : numbers c (map cv l) = [] <-> Forall (fun i => ic i <> c) l.
Proof.
  unfold numbers. induction l as [|i l IH]; [split; auto; constructor|]. cbn [map filter cv fst].
  destruct (icls_eqb (ic i) c) eqn:E.
  - split; [discriminate|]. intros H. inversion H; subst. apply icls_eqb_eq in E. contradiction.
  - rewrite IH. split; [intros H; constructor; auto; apply icls_eqb_neq; exact E|]. intros H. inversion H; auto.
Qed.

Lemma du_gone l : forall acc, Forall no_designator (groups (fun c => negb (local_tag c)) (map cv acc) (map cv l)) ->
  Forall (fun i => ic i <> DesignatorIndex) (Idem.seg_run Idem.du_stop Idem.du_g (fun _ => []) acc l).
Proof.
  induction l as [|i l IH]; intros acc H; cbn [Idem.seg_run]; [constructor|]. cbn [map groups cv fst] in H.
  rewrite du_stop_tag. destruct (negb (local_tag (ic i))) eqn:L.
  - inversion H as [|? ? H1 H2]; subst. apply Forall_app. split.
    + destruct H1 as [H1|H1].
      * unfold Idem.du_g. rewrite filt_numbers, H1. apply numbers_none. exact H1.
      * apply numbers_none, not_desig, du_g_zero, H1.
    + constructor; [intros X; rewrite X in L; discriminate L|]. apply (IH []). exact H2.
  - apply IH. rewrite map_app. exact H.
Qed.

Lemma optimize_undesignated db l : Forall constructed l -> Forall no_designator (groups (fun c => negb (local_tag c)) [] (map cv l)) ->
  numbers DesignatorIndex (map cv (optimize db l)) = [].
Proof.
  intros C H. rewrite optimize_all. cbn [passes map snd run_all fold_left].
  assert (Q : Forall (fun i => constructed i /\ ic i <> DesignatorIndex) (before_pages db (run_pass designator_uniq l))).
  { unfold before_pages.
    assert (RM : forall lk mn mx l, kind_of lk = Local -> (lk, mn, mx) <> (DesignatorIndex, mn, mx) ->
       mn <> DesignatorIndex -> mx <> DesignatorIndex ->
       Forall (fun i => constructed i /\ ic i <> DesignatorIndex) l ->
       Forall (fun i => constructed i /\ ic i <> DesignatorIndex) (run_pass (range_merge db lk mn mx) l)).
    { intros lk mn mx l0 K N1 N2 N3. apply rm_each. intros i c _ _ X.
      pose proof (rebuild_built db c (iv i)) as R1. pose proof (rebuild_class db c (iv i)) as R2.
      rewrite Forall_forall in *. intros j J. split; [apply R1, J|]. rewrite (R2 j J). intros ->.
      destruct X as [<-|[<-|<-]]; contradiction. }
    apply RM; try reflexivity; try discriminate.
    assert (RD : forall l, Forall (fun i => constructed i /\ ic i <> DesignatorIndex) l ->
       Forall (fun i => constructed i /\ ic i <> DesignatorIndex) (run_pass (designator_merge db) l)).
    { intros l0. apply rm_each. intros i c [_ Y] X. contradiction. }
    apply RD. apply RM; try reflexivity; try discriminate.
    apply gm_each, pm_each, mm_each.
    - intros n N. split; [apply rc_built; auto|discriminate].
    - intros i [X _]. apply rc_nonneg; auto.
    - pose proof (du_each constructed l C) as D. rewrite du_seg in *. pose proof (du_gone l [] H) as G.
      rewrite Forall_forall in *. intros i I. split; auto. }
  change (numbers DesignatorIndex (map cv (run_pass (usage_page_pass db) (before_pages db (run_pass designator_uniq l)))) = []).
  change (vals DesignatorIndex (map cv (run_pass (usage_page_pass db) (before_pages db (run_pass designator_uniq l)))) = []).
  rewrite vals_sel, up_keep by reflexivity. rewrite <- vals_sel.
  apply numbers_none. eapply Forall_impl; [|exact Q]. cbn. tauto.
Qed.

Lemma c81 db t b0 b c : well_formed t -> compile db false t = Ok b0 -> compile db true t = Ok b ->
  exists ws0 ws, blob_means b0 ws0 /\ blob_means b ws /\
    (zero_at_first c = true -> Forall (fun z => z = 0) (numbers c (map w_what ws0)) -> numbers c (map w_what ws) = []) /\
    (Forall no_designator (groups (fun c => negb (local_tag c)) [] (map w_what ws0)) -> numbers DesignatorIndex (map w_what ws) = []).
Proof.
  intros WF H0 H. destruct (tree_plain _ _ _ H0) as [l [E B0]]. destruct (tree_outputs _ _ _ H) as [l' [E' B]].
  rewrite E in E'. injection E' as <-. exists (map wire l), (map wire (optimize db l)). split; auto. split; auto.
  rewrite !wires. destruct (stream_shape _ _ _ WF E). split; [intros; apply optimize_zero; auto|intros; apply optimize_undesignated; auto].
Qed.

Lemma c81_blob db b ws out c : blob_means b ws -> Forall number_allowed ws -> convert_opt db b = Ok out ->
  exists ws', blob_means out ws' /\
    (zero_at_first c = true -> Forall (fun z => z = 0) (numbers c (map w_what ws)) -> numbers c (map w_what ws') = []) /\
    (Forall no_designator (groups (fun c => negb (local_tag c)) [] (map w_what ws)) -> numbers DesignatorIndex (map w_what ws') = []).
Proof.
  intros B N H. destruct (blob_outputs _ _ _ _ B N H) as [l [C [M O]]].
  exists (map wire (optimize db l)). split; auto. rewrite wires, <- M.
  split; [intros; apply optimize_zero; auto|intros; apply optimize_undesignated; auto].
Qed.
