(* CalmProofs.v -- proofs about what the optimiser does after the end of a
   collection *)
From Coq Require Import ZArith List Bool Lia ZifyBool ZifyNat String.
From Verif Require Import Py Usage Item Parser Optimizer Descriptor HidSpec Spec StreamSpec ItemFacts ParserFacts OptSpec OptFacts MainMergeFacts Skeleton PassFacts
  StreamProofs StreamTree TreeSpec TreeOpt ComposeProofs InterruptOpen PrefixSpec PrefixProofs.
Import ListNotations.
Local Open Scope list_scope.
Local Open Scope Z_scope.

(** is there a ReportCount after the last main item? *)
Fixpoint pend (b : bool) (l : list icls) : bool :=
  match l with
  | [] => b
  | c :: r => pend (if icls_eqb c ReportCount then true else match kind_of c with Main => false | _ => b end) r
  end.

Lemma pend_app b l m : pend b (l ++ m) = pend (pend b l) m.
Proof. revert b. induction l as [|c l IH]; intros b; cbn [app pend]; auto. Qed.

Definition loud (c : icls) : bool := negb (ikind_eqb (kind_of c) Local).

Lemma pend_sel b l : pend b (map ic l) = pend b (map fst (sel loud l)).
Proof.
  revert b. induction l as [|i l IH]; intros b; [reflexivity|]. rewrite sel_cons. cbn [map pend]. rewrite IH.
  destruct (loud (ic i)) eqn:L; [cbn [map pend cv fst]; reflexivity|]. destruct (ic i); try discriminate L; reflexivity.
Qed.

(** streams that end with a Collection or EndCollection, no ReportCount since
    the main item before *)
Definition calm (l : list item) : Prop :=
  exists x i, l = x ++ [i] /\ kind_of (ic i) = Main /\ is_data (ic i) = false /\ pend false (map ic x) = false.

Lemma calm_ends l : calm l -> ends l.
Proof. intros [x [i [-> [K [D _]]]]]. exists x, i. auto. Qed.

Definition steady (p : pass) (P : list item -> Prop) : Prop := forall l m, P l -> exists q, run_pass p (l ++ m) = run_pass p l ++ q.

Lemma run_snoc p l i m : run_pass p ((l ++ [i]) ++ m) =
  snd (feed p (p_init p) (l ++ [i])) ++ snd (feed p (fst (feed p (p_init p) (l ++ [i]))) m) ++ p_close p (fst (feed p (fst (feed p (p_init p) (l ++ [i]))) m)).
Proof. unfold run_pass. rewrite feed_app. cbn [fst snd]. rewrite <- app_assoc. reflexivity. Qed.

Lemma steady_if p (P : list item -> Prop) : (forall l m, P l ->
    exists q, snd (feed p (fst (feed p (p_init p) l)) m) ++ p_close p (fst (feed p (fst (feed p (p_init p) l)) m)) = p_close p (fst (feed p (p_init p) l)) ++ q) ->
  steady p P.
Proof.
  intros H l m C. destruct (H l m C) as [q E]. exists q. unfold run_pass. rewrite feed_app. cbn [fst snd].
  destruct (feed p (p_init p) l) as [s o]. cbn [fst snd] in *. rewrite <- !app_assoc, E. reflexivity.
Qed.

Lemma steady_shut p (P : list item -> Prop) : (forall l, P l -> p_close p (fst (feed p (p_init p) l)) = []) -> steady p P.
Proof. intros H. apply steady_if. intros l m C. rewrite (H l C). eexists. reflexivity. Qed.

Lemma du_steady : steady designator_uniq ends.
Proof. apply steady_shut. reflexivity. Qed.
Lemma gm_steady : steady global_merge ends.
Proof. apply steady_shut. reflexivity. Qed.
Lemma up_steady db : steady (usage_page_pass db) ends.
Proof. apply steady_shut. reflexivity. Qed.

Lemma pm_steady : steady physical_merge ends.
Proof.
  apply steady_shut. intros l [x [i [-> [K D]]]]. rewrite feed_app. cbn [fst snd feed].
  change (p_append physical_merge) with pm_append. unfold pm_append, ikd. rewrite K. reflexivity.
Qed.

(** RangeMerge keeps the main item it holds *)
Lemma rm_held db lk mn mx k m : negb (icls_eqb (ic k) lk || icls_eqb (ic k) mn || icls_eqb (ic k) mx) = true -> forall s r, rm_pending s = k :: r ->
  exists q, snd (feed (range_merge db lk mn mx) s m) ++ p_close (range_merge db lk mn mx) (fst (feed (range_merge db lk mn mx) s m)) = k :: q.
Proof.
  intros N. assert (FL : forall s r, rm_pending s = k :: r -> exists q, rm_flush db lk mn mx s = k :: q).
  { intros s r E. unfold rm_flush. rewrite E. destruct (rm_min s) as [a|], (rm_max s) as [b|]; try (eexists; reflexivity). destruct (truthy a && truthy b && rm_merging s); [|eexists; reflexivity].
    cbn [filter]. rewrite N. cbn [app]. eexists. reflexivity. }
  induction m as [|i m IH]; intros s r E.
  - cbn [feed fst snd app]. apply (FL s r E).
  - cbn [feed]. change (p_append (range_merge db lk mn mx)) with (rm_append db lk mn mx).
    assert (E1 : rm_pending (rm_note lk mn mx s i) = k :: r).
    { unfold rm_note. repeat match goal with |- context [match ?x with _ => _ end] => destruct x end; exact E. }
    unfold rm_append. destruct (ikd i).
    + destruct (FL _ _ E1) as [q Q]. rewrite Q. destruct (feed _ _ m) as [s2 o2]. cbn [fst snd app]. eauto.
    + specialize (IH (RM (rm_merging (rm_note lk mn mx s i)) (rm_min (rm_note lk mn mx s i)) (rm_max (rm_note lk mn mx s i)) (rm_pending (rm_note lk mn mx s i) ++ [i])) (r ++ [i])).
      specialize (IH (f_equal (fun z => z ++ [i]) E1)). destruct (feed _ _ m) as [s2 o2]. exact IH.
    + specialize (IH (RM (rm_merging (rm_note lk mn mx s i)) (rm_min (rm_note lk mn mx s i)) (rm_max (rm_note lk mn mx s i)) (rm_pending (rm_note lk mn mx s i) ++ [i])) (r ++ [i])).
      specialize (IH (f_equal (fun z => z ++ [i]) E1)). destruct (feed _ _ m) as [s2 o2]. exact IH.
Qed.

Lemma rm_steady db lk mn mx : kind_of lk = Local -> kind_of mn = Local -> kind_of mx = Local -> steady (range_merge db lk mn mx) ends.
Proof.
  intros A B C. apply steady_if. intros l m [x [i [-> [K D]]]].
  assert (S : fst (feed (range_merge db lk mn mx) (p_init (range_merge db lk mn mx)) (x ++ [i])) = RM true None None [i]).
  { rewrite feed_app. cbn [fst snd feed]. change (p_append (range_merge db lk mn mx)) with (rm_append db lk mn mx). unfold rm_append, ikd. rewrite K. reflexivity. }
  rewrite S. change (p_close (range_merge db lk mn mx) (RM true None None [i])) with [i].
  apply (rm_held db lk mn mx i m) with (r := []); [|reflexivity].
  assert (X : forall c, kind_of c = Local -> icls_eqb (ic i) c = false).
  { intros c H. destruct (icls_eqb (ic i) c) eqn:E; auto. apply icls_eqb_eq in E. congruence. }
  rewrite (X lk A), (X mn B), (X mx C). reflexivity.
Qed.

(** MainMerge: no ReportCount in afterMain *)
Lemma mm_quiet_step (s : mm_state) i : icls_eqb (ic i) ReportCount = false -> (kind_of (ic i) = Main \/ forallb not_rc (mm_after s) = true) ->
  forallb not_rc (mm_after (fst (mm_append s i))) = true.
Proof.
  intros RC H. assert (AP : kind_of (ic i) <> Main -> forallb not_rc (mm_after s ++ [i]) = true).
  { intros K. rewrite forallb_app. destruct H as [H|H]; [congruence|]. rewrite H. cbn [forallb]. unfold not_rc. rewrite RC. reflexivity. }
  unfold mm_append, ikd. destruct (kind_of (ic i)) eqn:K.
  - destruct (is_data (ic i)); cbn [negb]; [|reflexivity].
    destruct (match mm_mains s with [] => (s, []) | m :: _ => if item_eqb i m then (s, []) else mm_flush s end) as [s1 o1].
    destruct (negb (mm_acount s1 =? 1)); reflexivity.
  - destruct (to_watch (ic i) && _).
    + cbn [mm_flush]. destruct (ic i); reflexivity.
    + specialize (AP ltac:(discriminate)). destruct (ic i); exact AP.
  - apply AP. discriminate.
Qed.

Lemma mm_quiet l : pend false (map ic l) = false -> forallb not_rc (mm_after (fst (feed main_merge mm_init l))) = true.
Proof.
  induction l as [|i l IH] using rev_ind; [reflexivity|]. rewrite map_app, pend_app. cbn [map pend]. intros P.
  rewrite feed_app. cbn [fst snd feed]. change (p_append main_merge) with mm_append. destruct (feed main_merge mm_init l) as [s o]. cbn [fst snd] in *.
  destruct (icls_eqb (ic i) ReportCount) eqn:RC; [discriminate P|].
  pose proof (mm_quiet_step s i RC) as Q. destruct (mm_append s i) as [s1 o1]. apply Q. destruct (kind_of (ic i)); auto.
Qed.

Lemma mm_kept x m : forallb not_rc x = true -> forall s y, mm_before s = x ++ y ->
  exists q, snd (feed main_merge s m) ++ mm_close (fst (feed main_merge s m)) = x ++ q.
Proof.
  intros N. assert (FX : forall y, filter not_rc (x ++ y) = x ++ filter not_rc y).
  { intros y. rewrite filter_app. f_equal. clear -N. induction x as [|i x IH]; auto. cbn [forallb] in N. apply andb_true_iff in N. destruct N as [A B].
    cbn [filter]. rewrite A, IH; auto. }
  assert (FL : forall s y, mm_before s = x ++ y -> exists q, snd (mm_flush s) = x ++ q).
  { intros s y E. unfold mm_flush. cbn [snd]. rewrite E, FX, <- app_assoc. eauto. }
  assert (ST : forall s i y, mm_before s = x ++ y -> (exists q, snd (mm_append s i) = x ++ q) \/ (snd (mm_append s i) = [] /\ exists z, mm_before (fst (mm_append s i)) = x ++ z)).
  { intros s i y E. unfold mm_append. destruct (ikd i).
    - destruct (is_data (ic i)); cbn [negb].
      + destruct (mm_mains s) as [|mi mr] eqn:EM; [|destruct (item_eqb i mi)].
        * destruct (negb (mm_acount s =? 1)).
          -- left. cbn [snd app]. refine (FL (MM (mm_before s ++ mm_after s) _ _ _ _ _) (y ++ mm_after s) _). cbn [mm_before]. rewrite E, app_assoc. reflexivity.
          -- right. split; [reflexivity|]. exists (y ++ mm_after s). cbn [fst mm_before]. rewrite E, app_assoc. reflexivity.
        * destruct (negb (mm_acount s =? 1)).
          -- left. cbn [snd app]. refine (FL (MM (mm_before s ++ mm_after s) _ _ _ _ _) (y ++ mm_after s) _). cbn [mm_before]. rewrite E, app_assoc. reflexivity.
          -- right. split; [reflexivity|]. exists (y ++ mm_after s). cbn [fst mm_before]. rewrite E, app_assoc. reflexivity.
        * left. destruct (FL s y E) as [q Q]. destruct (mm_flush s) as [s1 o1]. cbn [snd] in Q. subst o1.
          destruct (negb (mm_acount s1 =? 1)); [|cbn [snd]; eauto]. destruct (mm_flush _) as [s3 o2]. cbn [snd]. rewrite <- app_assoc. eauto.
      + left. apply (FL (MM (mm_before s) _ _ _ _ _) y E).
    - destruct (to_watch (ic i) && _).
      + left. destruct (FL (MM (mm_before s) (mm_mains s) (mm_after s ++ [i]) (mm_bcount s) (mm_acount s) (upd (mm_props s) (ic i) (ival i))) y E) as [q Q].
        cbn [mm_before mm_mains mm_after mm_bcount mm_acount mm_props] in *. destruct (mm_flush _) as [s2 o2]. cbn [snd] in *. eauto.
      + right. split; [reflexivity|]. exists y. cbn [fst]. destruct (ic i); exact E.
    - right. split; [reflexivity|]. exists y. exact E. }
  induction m as [|i m IH]; intros s y E.
  - cbn [feed fst snd app]. unfold mm_close. rewrite E, <- app_assoc. eauto.
  - cbn [feed]. change (p_append main_merge) with mm_append. pose proof (ST s i y E) as S. destruct (mm_append s i) as [s1 o1]. cbn [fst snd] in S.
    destruct S as [[q ->]|[-> [z Z]]].
    + destruct (feed main_merge s1 m) as [s2 o2]. cbn [fst snd]. rewrite <- !app_assoc. eauto.
    + destruct (IH s1 z Z) as [q Q]. destruct (feed main_merge s1 m) as [s2 o2]. cbn [fst snd app] in *. eauto.
Qed.

Lemma mm_steady : steady main_merge calm.
Proof.
  apply steady_if. intros l m [x [i [-> [K [D P]]]]]. apply mm_quiet in P. change (p_init main_merge) with mm_init.
  assert (S : mm_close (fst (feed main_merge mm_init (x ++ [i]))) = mm_after (fst (feed main_merge mm_init x)) ++ [i] /\
    mm_before (fst (feed main_merge mm_init (x ++ [i]))) = (mm_after (fst (feed main_merge mm_init x)) ++ [i]) ++ []).
  { rewrite feed_app. cbn [fst snd feed]. change (p_append main_merge) with mm_append. unfold mm_append, ikd. rewrite K, D. cbn [negb fst snd]. unfold mm_flush, mm_close.
    cbn [fst mm_before mm_mains mm_after]. rewrite !app_nil_r. auto. }
  destruct S as [S1 S2]. change (p_close main_merge) with mm_close. rewrite S1. apply mm_kept with (y := []); [|exact S2].
  rewrite forallb_app, P. cbn [forallb]. unfold not_rc. destruct (ic i); try discriminate; reflexivity.
Qed.

Lemma du_calm l : calm l -> calm (run_pass designator_uniq l).
Proof.
  intros C. destruct (du_ends l (calm_ends l C)) as [y [j [E [K D]]]]. destruct C as [x [i [-> [K' [D' P]]]]].
  exists y, j. split; [exact E|]. split; [exact K|]. split; [exact D|].
  assert (S : sel loud (y ++ [j]) = sel loud (x ++ [i])).
  { rewrite <- E. apply du_keep. intros c H. unfold loud. rewrite H. reflexivity. }
  assert (L : forall k, kind_of (ic k) = Main -> sel loud [k] = [cv k]).
  { intros k H. rewrite sel_cons. unfold loud. rewrite H. reflexivity. }
  rewrite !sel_app, (L i K'), (L j K) in S. apply app_inj_tail in S. rewrite pend_sel, (proj1 S), <- pend_sel. exact P.
Qed.

Lemma optimize_steady db l m : calm l -> exists q, optimize db (l ++ m) = optimize db l ++ q.
Proof.
  intros C. rewrite !optimize_all. cbn [passes map snd run_all fold_left].
  destruct (du_steady l m (calm_ends _ C)) as [m1 ->]. apply du_calm in C. revert C. generalize (run_pass designator_uniq l). clear l m. intros l C.
  destruct (mm_steady l m1 C) as [m2 ->]. apply calm_ends, mm_ends in C. revert C. generalize (run_pass main_merge l). clear l m1. intros l C.
  destruct (pm_steady l m2 C) as [m3 ->]. apply pm_ends in C. revert C. generalize (run_pass physical_merge l). clear l m2. intros l C.
  destruct (gm_steady l m3 C) as [m4 ->]. apply gm_ends in C. revert C. generalize (run_pass global_merge l). clear l m3. intros l C.
  unfold string_merge, designator_merge, usage_merge.
  destruct (rm_steady db StringIndex StringMinimum StringMaximum eq_refl eq_refl eq_refl l m4 C) as [m5 ->]. apply (InterruptOpen.rm_ends db StringIndex StringMinimum StringMaximum) in C. revert C. generalize (run_pass (range_merge db StringIndex StringMinimum StringMaximum) l). clear l m4. intros l C.
  destruct (rm_steady db DesignatorIndex DesignatorMinimum DesignatorMaximum eq_refl eq_refl eq_refl l m5 C) as [m6 ->]. apply (InterruptOpen.rm_ends db DesignatorIndex DesignatorMinimum DesignatorMaximum) in C. revert C. generalize (run_pass (range_merge db DesignatorIndex DesignatorMinimum DesignatorMaximum) l). clear l m5. intros l C.
  destruct (rm_steady db Usage UsageMinimum UsageMaximum eq_refl eq_refl eq_refl l m6 C) as [m7 ->]. apply (InterruptOpen.rm_ends db Usage UsageMinimum UsageMaximum) in C. revert C. generalize (run_pass (range_merge db Usage UsageMinimum UsageMaximum) l). clear l m6. intros l C.
  apply (up_steady db l m7 C).
Qed.

(** the Streamer *)
Definition still (l : list item) : Prop := pend false (map ic l) = false.

Lemma still_app a b : still a -> still b -> still (a ++ b).
Proof. unfold still. intros A B. rewrite map_app, pend_app, A. exact B. Qed.

Lemma main_class_main way c : main_class way = Ok c -> kind_of c = Main /\ icls_eqb c ReportCount = false.
Proof.
  unfold main_class. destruct (itemclass 0 way) as [c'|] eqn:E; [|discriminate]. intros H. injection H as <-.
  apply find_some in E. destruct E as [_ E]. apply andb_true_iff in E. destruct E as [E _]. apply Z.eqb_eq in E.
  destruct c'; try discriminate E; split; reflexivity.
Qed.

Lemma value_still db v named c o : kind_of c = Main -> icls_eqb c ReportCount = false -> mk_items db (value_reqs db v named c) = Ok o -> still o.
Proof.
  intros K R H. apply mk_items_classes in H. unfold still. rewrite H. unfold value_reqs. rewrite !map_app, !pend_app.
  match goal with |- pend ?b (map fst (if ?x then _ else _)) = false => assert (E : b = false); [|rewrite E; destruct x; reflexivity] end.
  cbn [map fst pend]. rewrite R, K. reflexivity.
Qed.

Lemma element_still db st v st' o : element db st v = Ok (st', o) -> still o.
Proof.
  unfold element. intros H.
  destruct (if 1 <? _ then _ else _) as [pad|]; [|discriminate H]. cbn [bind] in H.
  destruct (if pad =? 0 then _ else _) as [[st1 o1]|] eqn:E; [|discriminate H]. cbn [bind] in H.
  assert (S1 : still o1).
  { destruct (pad =? 0); [injection E as _ <-; reflexivity|]. destruct (rs_add st _ pad) as [s|]; [|discriminate E]. cbn [bind] in E.
    destruct (main_class _) as [c|] eqn:M; [|discriminate E]. cbn [bind] in E. destruct (mk_items db _) as [w|] eqn:W; [|discriminate E]. cbn [bind] in E. injection E as _ <-.
    apply mk_items_classes in W. destruct (main_class_main _ _ M) as [K R]. unfold still. rewrite W. cbn [map fst pend]. rewrite R, K. reflexivity. }
  destruct (v_kind v); [|injection H as _ <-; exact S1|injection H as _ <-; exact S1].
  destruct (narr_truthy _) as [named|]; [|discriminate H]. cbn [bind] in H. destruct (rs_add st1 _ _) as [st2|]; [|discriminate H]. cbn [bind] in H.
  destruct (main_class _) as [c|] eqn:M; [|discriminate H]. cbn [bind] in H. destruct (mk_items db _) as [w|] eqn:W; [|discriminate H]. cbn [bind] in H. injection H as _ <-.
  destruct (main_class_main _ _ M) as [K R]. apply still_app; [exact S1|]. eapply value_still; eauto.
Qed.

Lemma members_still db ms : Forall (fun t => forall st st' o, stream_tree db st t = Ok (st', o) -> still o) ms ->
  forall st st' o, stream_members db st ms = Ok (st', o) -> still o.
Proof.
  induction 1 as [|m ms H _ IH]; intros st st' o S; [injection S as _ <-; reflexivity|].
  destruct (run_cons _ _ _ _ _ _ S) as [s1 [a [b [A [B ->]]]]]. apply still_app; eauto.
Qed.

Lemma coll_calm db st k u ms st' o : Forall (fun t => forall st st' o, stream_tree db st t = Ok (st', o) -> still o) ms ->
  stream_tree db st (TColl k u ms) = Ok (st', o) -> calm o /\ still o.
Proof.
  intros F H. rewrite stream_coll in H.
  destruct (mk_items db [(Usage, u); (Collection, Some k)]) as [o0|] eqn:E0; [|discriminate]. cbn [bind] in H.
  destruct (stream_members db st ms) as [[st1 o1]|] eqn:E1; [|discriminate]. cbn [bind] in H.
  destruct (mk_items db [(EndCollection, Some (VInt 0))]) as [o2|] eqn:E2; [|discriminate]. cbn [bind] in H. injection H as <- <-.
  apply mk_items_classes in E0. apply mk_items_classes in E2. apply (members_still _ _ F) in E1.
  assert (S0 : still o0) by (unfold still; rewrite E0; reflexivity).
  assert (S2 : still o2) by (unfold still; rewrite E2; reflexivity).
  split; [|auto using still_app]. destruct o2 as [|i [|]]; try discriminate E2. injection E2 as C.
  exists (o0 ++ o1), i. rewrite C, app_assoc. repeat split. apply still_app; auto.
Qed.

Lemma tree_still db t : forall st st' o, stream_tree db st t = Ok (st', o) -> still o.
Proof.
  induction t as [v|id ms IH|ms IH|k u ms IH] using tree_rect2; intros st st' o H.
  - eapply element_still. exact H.
  - rewrite stream_report in H. destruct (if id =? 0 then _ else _) as [o0|] eqn:E0; [|discriminate]. cbn [bind] in H.
    destruct (stream_members db _ ms) as [[st1 o1]|] eqn:E1; [|discriminate]. cbn [bind] in H. injection H as <- <-.
    apply still_app; [|eapply members_still; eauto]. destruct (id =? 0); [injection E0 as <-; reflexivity|].
    apply mk_items_classes in E0. unfold still. rewrite E0. reflexivity.
  - rewrite stream_top in H. eapply members_still; eauto.
  - eapply coll_calm; eauto.
Qed.

Lemma calm_app a b : still a -> calm b -> calm (a ++ b).
Proof. intros A [x [i [-> [K [D P]]]]]. exists (a ++ x), i. rewrite app_assoc. repeat split; auto. apply still_app; auto. Qed.

Lemma members_last_still db ms m st st' o : stream_members db st (ms ++ [m]) = Ok (st', o) ->
  exists st1 o1 o2, stream_tree db st1 m = Ok (st', o2) /\ o = o1 ++ o2 /\ still o1.
Proof.
  intros H. destruct (run_app _ _ _ _ _ _ H) as [s [a [b [A [B ->]]]]]. destruct (run_cons _ _ _ _ _ _ B) as [s1 [x [y [X [Y ->]]]]].
  injection Y as <- <-. exists s, a, x. rewrite app_nil_r. repeat split; auto. eapply members_still; [|exact A]. apply Forall_forall. intros. eapply tree_still; eauto.
Qed.

Lemma closed_calm db t : closed_tree t -> forall st st' o, stream_tree db st t = Ok (st', o) -> calm o.
Proof.
  induction 1 as [k u ms|ms m _ IH|id ms m _ IH]; intros st st' o H.
  - eapply coll_calm; [|exact H]. apply Forall_forall. intros. eapply tree_still; eauto.
  - rewrite stream_top in H. destruct (members_last_still _ _ _ _ _ _ H) as [s [a [b [X [-> S]]]]]. apply calm_app; eauto.
  - rewrite stream_report in H. destruct (if id =? 0 then _ else _) as [o0|] eqn:E0; [|discriminate]. cbn [bind] in H.
    destruct (stream_members db _ (ms ++ [m])) as [[st1 o1]|] eqn:E1; [|discriminate]. cbn [bind] in H.
    injection H as <- <-. destruct (members_last_still _ _ _ _ _ _ E1) as [s [a [b [X [-> S]]]]].
    apply calm_app; [|apply calm_app; eauto]. destruct (id =? 0); [injection E0 as <-; reflexivity|].
    apply mk_items_classes in E0. unfold still. rewrite E0. reflexivity.
Qed.

Lemma c104 db t t' b' : closed_tree t -> goes_on 0 t t' -> compile db true t' = Ok b' ->
  exists b q, compile db true t = Ok b /\ b' = b ++ q.
Proof.
  intros CL G C'. unfold compile, stream_items in *. destruct (stream_tree db sst_init t') as [[s2 o2]|] eqn:E2; [|discriminate C'].
  destruct (goes_runs 0 t t' G _ _ _ _ E2) as [s1 [o1 E1]]. rewrite E1. cbn [bind] in *.
  destruct (goes_kept 0 t t' G _ _ _ _ _ _ E1 E2) as [p [c [q [-> [_ [L ->]]]]]]. destruct c; [|discriminate L]. rewrite app_nil_r in *.
  destruct (optimize_steady db p q (closed_calm db t CL _ _ _ E1)) as [r R]. rewrite R in C'.
  destruct (ser_app _ _ _ C') as [x [y [X [_ ->]]]]. exists x, y. auto.
Qed.
