(* StackFacts.v -- Push and Pop do not matter to the passes *)
From Coq Require Import ZifyBool ZifyNat.
From Verif Require Import Py Usage Item Parser Optimizer Converter HidSpec Spec OptSpec AllSpec ItemFacts ParserFacts
  OptFacts PassFacts DesigFacts OptAll PageSpec PageShift ExtractSpec ExtractPrefix
  GlobalFacts PageFacts CodecProofs StackSpec.
Local Open Scope list_scope. Local Open Scope Z_scope.

Lemma stackless_app a b : stackless (a ++ b) = stackless a ++ stackless b.
Proof. apply filter_app. Qed.

(** a pass that handles Push and Pop by passing them on sometime *)
Section Blind.
  Variable p : pass.
  Variable R : p_state p -> p_state p -> Prop.
  Hypothesis R0 : R (p_init p) (p_init p).
  Hypothesis RS : forall s t i, stack_item i = true -> R s t ->
    R (fst (p_append p s i)) t /\ stackless (snd (p_append p s i)) = [].
  Hypothesis RI : forall s t i, stack_item i = false -> R s t ->
    R (fst (p_append p s i)) (fst (p_append p t i)) /\
    stackless (snd (p_append p s i)) = snd (p_append p t i).
  Hypothesis RC : forall s t, R s t -> stackless (p_close p s) = p_close p t.

  Lemma blind_feed l : forall s t, R s t ->
    R (fst (feed p s l)) (fst (feed p t (stackless l))) /\
    stackless (snd (feed p s l)) = snd (feed p t (stackless l)).
  Proof.
    induction l as [|i l IH]; intros s t H; [split; auto|].
    cbn [feed stackless filter]. destruct (stack_item i) eqn:SI; cbn [negb].
    - destruct (RS s t i SI H) as [A B]. destruct (p_append p s i) as [s1 o1]. cbn [fst snd] in *.
      destruct (IH _ _ A) as [C D]. destruct (feed p s1 l) as [s2 o2]. cbn [fst snd] in *.
      split; [exact C|]. rewrite stackless_app, B. exact D.
    - destruct (RI s t i SI H) as [A B]. cbn [feed]. destruct (p_append p s i) as [s1 o1], (p_append p t i) as [t1 q1].
      cbn [fst snd] in *. destruct (IH _ _ A) as [C D]. fold (stackless l).
      destruct (feed p s1 l) as [s2 o2], (feed p t1 (stackless l)) as [t2 q2]. cbn [fst snd] in *.
      split; [exact C|]. rewrite stackless_app, B, D. reflexivity.
  Qed.

  Lemma blind_run l : stackless (run_pass p l) = run_pass p (stackless l).
  Proof.
    unfold run_pass. destruct (blind_feed l _ _ R0) as [A B].
    destruct (feed p (p_init p) l) as [s o], (feed p (p_init p) (stackless l)) as [t q]. cbn [fst snd] in *.
    rewrite stackless_app, B, (RC _ _ A). reflexivity.
  Qed.
End Blind.

Lemma stack_cases i : stack_item i = true -> ic i = Push \/ ic i = Pop.
Proof. unfold stack_item. destruct (ic i); try discriminate; auto. Qed.

Lemma stack_no i : stack_item i = false -> stackless [i] = [i].
Proof. intros H. unfold stackless. cbn [filter]. rewrite H. reflexivity. Qed.
Lemma stack_yes i : stack_item i = true -> stackless [i] = [].
Proof. intros H. unfold stackless. cbn [filter]. rewrite H. reflexivity. Qed.

Lemma stackless_filter f l : stackless (filter f l) = filter f (stackless l).
Proof.
  induction l as [|i l IH]; auto. unfold stackless in *. cbn [filter].
  destruct (f i) eqn:F, (stack_item i) eqn:S; cbn [filter negb]; rewrite ?F, ?S; cbn [negb]; rewrite ?IH; auto.
Qed.

Lemma rc_stack n : stackless [rc_item n] = [rc_item n].
Proof. reflexivity. Qed.

Lemma filter_le {A} (f : A -> bool) l : (List.length (filter f l) <= List.length l)%nat.
Proof. induction l as [|x l IH]; cbn [filter List.length]; [lia|]. destruct (f x); cbn [List.length]; lia. Qed.

Definition mm_blind (s t : mm_state) : Prop :=
  stackless (mm_before s) = mm_before t /\ mm_mains s = mm_mains t /\ stackless (mm_mains s) = mm_mains s /\
  stackless (mm_after s) = mm_after t /\
  mm_bcount s = mm_bcount t /\ mm_acount s = mm_acount t /\ mm_props s = mm_props t.

Lemma mm_flush_blind s t : mm_blind s t ->
  mm_blind (fst (mm_flush s)) (fst (mm_flush t)) /\ stackless (snd (mm_flush s)) = snd (mm_flush t).
Proof.
  intros [A [B [B2 [C [D [E F]]]]]]. unfold mm_flush, mm_blind. cbn [fst snd mm_before mm_mains mm_after mm_bcount mm_acount mm_props].
  repeat split; auto. rewrite stackless_app, stackless_filter, A, D, <- B. f_equal.
  destruct (mm_mains s) as [|m ms]; auto. change [rc_item (mm_bcount t); m] with ([rc_item (mm_bcount t)] ++ [m]).
  rewrite stackless_app, rc_stack. f_equal.
  unfold stackless in *. cbn [filter] in *. destruct (negb (stack_item m)); auto.
  exfalso. assert (X := f_equal (@List.length item) B2). cbn [List.length] in X.
  pose proof (filter_le (fun i => negb (stack_item i)) ms). lia.
Qed.

Lemma mm_stack l : stackless (run_pass main_merge l) = run_pass main_merge (stackless l).
Proof.
  apply (blind_run main_merge mm_blind).
  - repeat split.
  - intros s t i SI [A [B [B2 [C [D [E F]]]]]]. change (p_append main_merge) with mm_append. unfold mm_append, ikd.
    assert (X : mm_blind (MM (mm_before s) (mm_mains s) (mm_after s ++ [i]) (mm_bcount s) (mm_acount s) (mm_props s)) t).
    { unfold mm_blind. cbn. repeat split; auto. rewrite stackless_app, (stack_yes i SI), app_nil_r. exact C. }
    destruct (stack_cases i SI) as [Q|Q]; rewrite Q; cbn; split; auto; exact X.
  - intros s t i SI H. pose proof H as [A [B [B2 [C [D [E F]]]]]]. change (p_append main_merge) with mm_append. unfold mm_append.
    assert (X : forall pr, mm_blind (MM (mm_before s) (mm_mains s) (mm_after s ++ [i]) (mm_bcount s) (mm_acount s) pr)
                       (MM (mm_before t) (mm_mains t) (mm_after t ++ [i]) (mm_bcount t) (mm_acount t) pr)).
    { intros pr. unfold mm_blind. cbn [mm_before mm_mains mm_after mm_bcount mm_acount mm_props]. repeat split; auto.
      rewrite stackless_app, (stack_no i SI), C. reflexivity. }
    destruct (ikd i).
    + destruct (negb (is_data (ic i))). { rewrite F. apply mm_flush_blind, X. }
      assert (Y : forall s t, mm_blind s t ->
        mm_blind (MM (mm_before s ++ mm_after s) (mm_mains s ++ [i]) [] (mm_bcount s + mm_acount s) (mm_acount s) (mm_props s))
                 (MM (mm_before t ++ mm_after t) (mm_mains t ++ [i]) [] (mm_bcount t + mm_acount t) (mm_acount t) (mm_props t))).
      { clear - SI. intros s t [A [B [B2 [C [D [E F]]]]]]. unfold mm_blind.
        cbn [mm_before mm_mains mm_after mm_bcount mm_acount mm_props]. rewrite !stackless_app, (stack_no i SI).
        repeat split; try congruence. }
      assert (Z : mm_blind (fst (match mm_mains s with m :: _ => if item_eqb i m then (s, []) else mm_flush s | [] => (s, []) end))
                    (fst (match mm_mains t with m :: _ => if item_eqb i m then (t, []) else mm_flush t | [] => (t, []) end)) /\
                  stackless (snd (match mm_mains s with m :: _ => if item_eqb i m then (s, []) else mm_flush s | [] => (s, []) end)) =
                    snd (match mm_mains t with m :: _ => if item_eqb i m then (t, []) else mm_flush t | [] => (t, []) end)).
      { rewrite <- B. destruct (mm_mains s) as [|m ms]; [split; auto|]. destruct (item_eqb i m); [split; auto|].
        apply mm_flush_blind, H. }
      destruct (match mm_mains s with m :: _ => _ | [] => _ end) as [s1 o1], (match mm_mains t with m :: _ => _ | [] => _ end) as [t1 q1].
      cbn [fst snd] in Z. destruct Z as [Z1 Z2]. pose proof (Y _ _ Z1) as W.
      assert (EA : mm_acount s1 = mm_acount t1) by apply Z1. rewrite <- EA in *.
      destruct (negb (mm_acount s1 =? 1)); [|split; auto].
      apply mm_flush_blind in W. destruct (mm_flush _) as [s3 o3], (mm_flush (MM (mm_before t1 ++ _) _ _ _ _ _)) as [t3 q3].
      cbn [fst snd] in *. rewrite stackless_app, Z2. destruct W as [W1 W2]. rewrite W2. auto.
    + assert (K : mm_blind
         (fst (if to_watch (ic i) && negb (mm_props s (ic i) =? ival i)
               then mm_flush (MM (mm_before s) (mm_mains s) (mm_after s ++ [i]) (mm_bcount s) (mm_acount s) (upd (mm_props s) (ic i) (ival i)))
               else (MM (mm_before s) (mm_mains s) (mm_after s ++ [i]) (mm_bcount s) (mm_acount s) (mm_props s), [])))
         (fst (if to_watch (ic i) && negb (mm_props t (ic i) =? ival i)
               then mm_flush (MM (mm_before t) (mm_mains t) (mm_after t ++ [i]) (mm_bcount t) (mm_acount t) (upd (mm_props t) (ic i) (ival i)))
               else (MM (mm_before t) (mm_mains t) (mm_after t ++ [i]) (mm_bcount t) (mm_acount t) (mm_props t), []))) /\
         stackless (snd (if to_watch (ic i) && negb (mm_props s (ic i) =? ival i)
               then mm_flush (MM (mm_before s) (mm_mains s) (mm_after s ++ [i]) (mm_bcount s) (mm_acount s) (upd (mm_props s) (ic i) (ival i)))
               else (MM (mm_before s) (mm_mains s) (mm_after s ++ [i]) (mm_bcount s) (mm_acount s) (mm_props s), []))) =
         snd (if to_watch (ic i) && negb (mm_props t (ic i) =? ival i)
               then mm_flush (MM (mm_before t) (mm_mains t) (mm_after t ++ [i]) (mm_bcount t) (mm_acount t) (upd (mm_props t) (ic i) (ival i)))
               else (MM (mm_before t) (mm_mains t) (mm_after t ++ [i]) (mm_bcount t) (mm_acount t) (mm_props t), []))).
      { rewrite <- F. destruct (_ && _); [apply mm_flush_blind, X|split; [apply X|reflexivity]]. }
      cbn [mm_before mm_mains mm_after mm_bcount mm_acount mm_props].
      destruct (if to_watch (ic i) && negb (mm_props s (ic i) =? ival i) then _ else _) as [s2 o2],
               (if to_watch (ic i) && negb (mm_props t (ic i) =? ival i) then _ else _) as [t2 q2].
      cbn [fst snd] in *. destruct K as [[K1 [K2 [K3 [K4 [K5 [K6 K7]]]]]] KO]. split; auto.
      destruct (ic i); unfold mm_blind; cbn [mm_before mm_mains mm_after mm_bcount mm_acount mm_props]; repeat split; auto.
    + split; [rewrite F; apply X|reflexivity].
  - intros s t [A [B [B2 [C _]]]]. change (p_close main_merge) with mm_close. unfold mm_close.
    rewrite !stackless_app, A, B2, C, B. reflexivity.
Qed.

Lemma pm_stack l : stackless (run_pass physical_merge l) = run_pass physical_merge (stackless l).
Proof.
  apply (blind_run physical_merge (fun s t => pm_current s = pm_current t /\ pm_changed s = pm_changed t /\
    stackless (pm_pending s) = pm_pending t)).
  - repeat split.
  - intros s t i SI [A [B C]]. change (p_append physical_merge) with pm_append. unfold pm_append, ikd.
    destruct (stack_cases i SI) as [Q|Q]; rewrite Q; cbn; rewrite stackless_app, (stack_yes i SI), app_nil_r; auto.
  - intros s t i SI [A [B C]]. change (p_append physical_merge) with pm_append. unfold pm_append.
    destruct (ikd i); cbn [fst snd pm_current pm_changed pm_pending].
    + rewrite stackless_app, (stack_no i SI), A, B. split; [auto|]. f_equal.
      destruct (_ && _); [rewrite stackless_filter|]; rewrite C; reflexivity.
    + rewrite stackless_app, (stack_no i SI), A, B, C. auto.
    + rewrite stackless_app, (stack_no i SI), A, B, C. auto.
  - intros s t [_ [_ C]]. exact C.
Qed.

Lemma gm_stack l : stackless (run_pass global_merge l) = run_pass global_merge (stackless l).
Proof.
  apply (blind_run global_merge (fun s t : gm_state => forall c, c <> Push -> c <> Pop -> s c = t c)).
  - auto.
  - intros s t i SI H. change (p_append global_merge) with gm_append. unfold gm_append, ikd.
    destruct (stack_cases i SI) as [Q|Q]; rewrite Q; cbn [kind_of fst snd]; (split;
      [intros c N1 N2; unfold upd; destruct (icls_eqb c _) eqn:X; [|auto]; destruct c; discriminate X || congruence|]);
      rewrite ?orb_true_r; cbn [orb]; apply stack_yes, SI.
  - intros s t i SI H. change (p_append global_merge) with gm_append. unfold gm_append.
    destruct (ikd i); cbn [fst snd].
    + split; auto. apply stack_no, SI.
    + assert (N : ic i <> Push /\ ic i <> Pop) by (unfold stack_item in SI; destruct (ic i); try discriminate SI; split; discriminate).
      destruct N as [N1 N2]. rewrite (H _ N1 N2). split.
      * intros c A B. unfold upd. destruct (icls_eqb c (ic i)); auto.
      * destruct (_ || _); [apply stack_no, SI|reflexivity].
    + split; auto. apply stack_no, SI.
  - reflexivity.
Qed.

Lemma rebuild_stack db c v : c <> Push -> c <> Pop -> stackless (rebuild db c v) = rebuild db c v.
Proof.
  intros A B. unfold rebuild. destruct (mk_item db c (Some v)) as [i|] eqn:E; [|reflexivity].
  apply stack_no. unfold stack_item. rewrite (mk_item_class _ _ _ _ E). destruct c; auto; congruence.
Qed.

Lemma rm_stack db lk mn mx l : kind_of lk = Local -> kind_of mn = Local -> kind_of mx = Local ->
  stackless (run_pass (range_merge db lk mn mx) l) = run_pass (range_merge db lk mn mx) (stackless l).
Proof.
  intros KL KN KX.
  assert (NP : forall c, kind_of c = Local -> c <> Push /\ c <> Pop) by (intros c K; split; intros ->; discriminate K).
  set (R := fun s t => rm_merging s = rm_merging t /\ rm_min s = rm_min t /\ rm_max s = rm_max t /\
    stackless (rm_pending s) = rm_pending t).
  assert (FL : forall s t, R s t -> stackless (rm_flush db lk mn mx s) = rm_flush db lk mn mx t).
  { intros s t [A [B [C D]]]. unfold rm_flush. rewrite A, B, C.
    destruct (rm_min t) as [a|]; [|exact D]. destruct (rm_max t) as [b|]; [|exact D].
    destruct (_ && _); [|exact D]. rewrite stackless_app, stackless_filter, D. f_equal.
    destruct (py_int a =? py_int b); [apply rebuild_stack; apply NP; auto|].
    destruct (_ <? _); rewrite stackless_app; f_equal; apply rebuild_stack; apply NP; auto. }
  assert (NT : forall s t i, R s t -> R (rm_note lk mn mx s i) (rm_note lk mn mx t i)).
  { intros s t i [A [B [C D]]]. unfold rm_note. rewrite A, C.
    destruct (_ && _); [|unfold R; auto]. destruct (_ || _); [unfold R; cbn; auto|].
    destruct (icls_eqb _ _); [|unfold R; auto]. destruct (rm_max t); [|unfold R; cbn; auto].
    destruct (_ =? _); unfold R; cbn; auto. }
  apply (blind_run (range_merge db lk mn mx) R).
  - unfold R. cbn. auto.
  - intros s t i SI H. change (p_append (range_merge db lk mn mx)) with (rm_append db lk mn mx). unfold rm_append.
    assert (E : rm_note lk mn mx s i = s).
    { unfold rm_note, ikd. destruct (stack_cases i SI) as [Q|Q]; rewrite Q; cbn; rewrite andb_false_r; reflexivity. }
    rewrite E. destruct H as [A [B [C D]]].
    unfold ikd. destruct (stack_cases i SI) as [Q|Q]; rewrite Q; cbn; (split; [|reflexivity]); unfold R; cbn;
      rewrite stackless_app, (stack_yes i SI), app_nil_r; auto.
  - intros s t i SI H. change (p_append (range_merge db lk mn mx)) with (rm_append db lk mn mx). unfold rm_append.
    pose proof (NT _ _ i H) as H2. destruct (ikd i); cbn [fst snd].
    + split; [|apply FL; exact H2]. unfold R. cbn [rm_merging rm_min rm_max rm_pending]. rewrite (stack_no i SI). auto.
    + split; [|reflexivity]. destruct H2 as [A [B [C D]]]. unfold R. cbn [rm_merging rm_min rm_max rm_pending].
      rewrite stackless_app, (stack_no i SI), D. auto.
    + split; [|reflexivity]. destruct H2 as [A [B [C D]]]. unfold R. cbn [rm_merging rm_min rm_max rm_pending].
      rewrite stackless_app, (stack_no i SI), D. auto.
  - intros s t H. apply FL, H.
Qed.

Lemma up_stack db l : stackless (run_pass (usage_page_pass db) l) = run_pass (usage_page_pass db) (stackless l).
Proof.
  apply (blind_run (usage_page_pass db) (fun s t : option Z => s = t)).
  - reflexivity.
  - intros s t i SI <-. change (p_append (usage_page_pass db)) with (up_append db). unfold up_append.
    destruct (stack_cases i SI) as [Q|Q]; rewrite Q; cbn [is_usage fst snd]; (split; [reflexivity|apply stack_yes, SI]).
  - intros s t i SI <-. change (p_append (usage_page_pass db)) with (up_append db). split; [reflexivity|].
    unfold up_append. destruct (is_usage (ic i)) eqn:U; [|apply stack_no, SI].
    destruct (split (lookup db (iv i))) as [sp su]. cbn [fst snd]. rewrite stackless_app.
    rewrite (rebuild_stack db (ic i)) by (intros Q; rewrite Q in U; discriminate U). f_equal.
    destruct s as [q|]; [destruct (negb _)|]; try reflexivity; apply rebuild_stack; discriminate.
  - reflexivity.
Qed.

Lemma before_stack db l : stackless (before_pages db l) = before_pages db (stackless l).
Proof.
  unfold before_pages. unfold usage_merge, designator_merge, string_merge.
  rewrite !rm_stack by reflexivity. rewrite gm_stack, pm_stack, mm_stack. reflexivity.
Qed.

Lemma stackless_ends l : ends l -> ends (stackless l).
Proof.
  intros [l' [i [-> [K D]]]]. exists (stackless l'), i. rewrite stackless_app, stack_no; auto.
  unfold stack_item. destruct (ic i); auto; discriminate K.
Qed.

Lemma stackless_noz l : noz (map cv l) -> noz (map cv (stackless l)).
Proof.
  unfold noz. rewrite !Forall_map. intros F. apply Forall_forall. intros i I. apply filter_In in I.
  rewrite Forall_forall in F. apply F, I.
Qed.

Lemma optimize_stack db l : noz (map cv l) -> ends l -> stackless (optimize db l) = optimize db (stackless l).
Proof.
  intros N E. rewrite (optimize_pages db l N E), (optimize_pages db _ (stackless_noz _ N) (stackless_ends _ E)).
  rewrite up_stack, before_stack. reflexivity.
Qed.

(* ------------------------------------------------------------------ *)
(** Push and Pop stay *)

Definition stack (l : list item) : list item := filter stack_item l.

Lemma stack_app a b : stack (a ++ b) = stack a ++ stack b.
Proof. apply filter_app. Qed.

Section Holds.
  Variable p : pass.
  Variable held : p_state p -> list item.
  Hypothesis H0 : held (p_init p) = [].
  Hypothesis HA : forall s i, stack (snd (p_append p s i)) ++ held (fst (p_append p s i)) = held s ++ stack [i].
  Hypothesis HC : forall s, stack (p_close p s) = held s.

  Lemma holds_feed l : forall s, stack (snd (feed p s l)) ++ held (fst (feed p s l)) = held s ++ stack l.
  Proof.
    induction l as [|i l IH]; intros s; [symmetry; apply app_nil_r|]. cbn [feed].
    pose proof (HA s i) as A. destruct (p_append p s i) as [s1 o1]. cbn [fst snd] in A.
    pose proof (IH s1) as B. destruct (feed p s1 l) as [s2 o2]. cbn [fst snd] in *.
    change (i :: l) with ([i] ++ l). rewrite !stack_app, <- app_assoc, B, !app_assoc, A. reflexivity.
  Qed.

  Lemma holds_run l : stack (run_pass p l) = stack l.
  Proof.
    unfold run_pass. pose proof (holds_feed l (p_init p)) as A. destruct (feed p (p_init p) l) as [s o].
    cbn [fst snd] in A. rewrite stack_app, HC, A, H0. reflexivity.
  Qed.
End Holds.

Lemma stack_filter f l : (forall i, stack_item i = true -> f i = true) -> stack (filter f l) = stack l.
Proof.
  intros H. induction l as [|i l IH]; auto. unfold stack in *. cbn [filter].
  destruct (stack_item i) eqn:S; [rewrite (H i S); cbn [filter]; rewrite S, IH; reflexivity|].
  destruct (f i); cbn [filter]; rewrite ?S; exact IH.
Qed.

Lemma rebuild_none db c v : c <> Push -> c <> Pop -> stack (rebuild db c v) = [].
Proof.
  intros A B. unfold rebuild. destruct (mk_item db c (Some v)) as [i|] eqn:E; [|reflexivity].
  unfold stack. cbn [filter]. unfold stack_item. rewrite (mk_item_class _ _ _ _ E). destruct c; auto; congruence.
Qed.

Lemma gm_holds l : stack (run_pass global_merge l) = stack l.
Proof.
  apply (holds_run global_merge (fun _ => [])); auto.
  intros s i. change (p_append global_merge) with gm_append. rewrite app_nil_r. cbn [app]. unfold gm_append.
  destruct (ikd i) eqn:K; try reflexivity. cbn [snd]. unfold stack. cbn [filter].
  destruct (stack_item i) eqn:S.
  - destruct (stack_cases i S) as [Q|Q]; rewrite Q; cbn [icls_eqb]; rewrite ?orb_true_r; cbn [filter orb]; rewrite S; reflexivity.
  - destruct (_ || _); cbn [filter]; rewrite ?S; reflexivity.
Qed.

Lemma up_holds db l : stack (run_pass (usage_page_pass db) l) = stack l.
Proof.
  apply (holds_run (usage_page_pass db) (fun _ => [])); auto.
  intros s i. change (p_append (usage_page_pass db)) with (up_append db). rewrite app_nil_r. cbn [app]. unfold up_append.
  destruct (is_usage (ic i)) eqn:U; [|reflexivity].
  destruct (split (lookup db (iv i))) as [sp su]. cbn [snd]. rewrite stack_app.
  rewrite (rebuild_none db (ic i)) by (intros Q; rewrite Q in U; discriminate U).
  rewrite app_nil_r.
  assert (S : stack [i] = []) by (unfold stack; cbn [filter]; unfold stack_item; destruct (ic i); try discriminate U; reflexivity).
  rewrite S. destruct (match s with None => true | Some q => negb (q =? py_int sp) end); [|reflexivity].
  apply rebuild_none; discriminate.
Qed.

Lemma pm_holds l : stack (run_pass physical_merge l) = stack l.
Proof.
  apply (holds_run physical_merge (fun s => stack (pm_pending s))); auto.
  intros s i. change (p_append physical_merge) with pm_append. unfold pm_append.
  destruct (ikd i) eqn:K; cbn [fst snd pm_pending].
  2, 3: rewrite stack_app; reflexivity.
  rewrite stack_app, app_nil_r. f_equal. destruct (_ && _); [|reflexivity].
  apply stack_filter. intros j S. destruct (stack_cases j S) as [Q|Q]; rewrite Q; reflexivity.
Qed.

Lemma rm_holds db lk mn mx l : kind_of lk = Local -> kind_of mn = Local -> kind_of mx = Local ->
  stack (run_pass (range_merge db lk mn mx) l) = stack l.
Proof.
  intros KL KN KX.
  assert (NP : forall c, kind_of c = Local -> c <> Push /\ c <> Pop) by (intros c K; split; intros ->; discriminate K).
  assert (FL : forall s, stack (rm_flush db lk mn mx s) = stack (rm_pending s)).
  { intros s. unfold rm_flush. destruct (rm_min s) as [a|]; [|reflexivity]. destruct (rm_max s) as [b|]; [|reflexivity].
    destruct (_ && _); [|reflexivity]. rewrite stack_app, stack_filter.
    - assert (Q : forall x c, kind_of c = Local -> stack (rebuild db c x) = []) by (intros x c K; apply rebuild_none; apply NP, K).
      destruct (py_int a =? py_int b); [rewrite Q; auto; apply app_nil_r|].
      destruct (_ <? _); rewrite stack_app, !Q; auto; apply app_nil_r.
    - intros j S. assert (NQ : forall c, kind_of c = Local -> icls_eqb (ic j) c = false).
      { intros c K. destruct (stack_cases j S) as [Q|Q]; rewrite Q; destruct c; auto; discriminate K. }
      rewrite !NQ by auto. reflexivity. }
  assert (NT : forall s i, rm_pending (rm_note lk mn mx s i) = rm_pending s).
  { intros s i. unfold rm_note. destruct (_ && _); [|reflexivity]. destruct (_ || _); [reflexivity|].
    destruct (icls_eqb _ _); [|reflexivity]. destruct (rm_max s); [|reflexivity]. destruct (_ =? _); reflexivity. }
  apply (holds_run (range_merge db lk mn mx) (fun s => stack (rm_pending s))); auto.
  intros s i. change (p_append (range_merge db lk mn mx)) with (rm_append db lk mn mx). unfold rm_append.
  destruct (ikd i) eqn:K; cbn [fst snd rm_pending].
  - rewrite FL, NT. reflexivity.
  - rewrite stack_app, NT. reflexivity.
  - rewrite stack_app, NT. reflexivity.
Qed.

Lemma mm_flush_holds s : stack (mm_mains s) = [] ->
  stack (snd (mm_flush s)) ++ stack (mm_before (fst (mm_flush s)) ++ mm_after (fst (mm_flush s))) = stack (mm_before s ++ mm_after s).
Proof.
  intros M. unfold mm_flush. cbn [fst snd mm_before mm_after]. rewrite !stack_app, stack_filter.
  - replace (stack (match mm_mains s with [] => [] | m :: _ => [rc_item (mm_bcount s); m] end)) with (@nil item).
    + rewrite !app_nil_r. reflexivity.
    + destruct (mm_mains s) as [|m ms]; auto. unfold stack in *. cbn [filter] in *. change (stack_item (rc_item (mm_bcount s))) with false.
      cbn [filter]. destruct (stack_item m); [discriminate M|reflexivity].
  - intros i S. unfold not_rc. destruct (stack_cases i S) as [Q|Q]; rewrite Q; reflexivity.
Qed.

Lemma flush_mains s : mm_mains (fst (mm_flush s)) = [].
Proof. reflexivity. Qed.

(** the held items are only right when no data item is Push or Pop, which is
    always so *)
Lemma mm_holds l : stack (run_pass main_merge l) = stack l.
Proof.
  set (inv := fun s => stack (mm_mains s) = []).
  assert (HA : forall s i, inv s -> inv (fst (mm_append s i)) /\
     stack (snd (mm_append s i)) ++ stack (mm_before (fst (mm_append s i)) ++ mm_after (fst (mm_append s i)))
       = stack (mm_before s ++ mm_after s) ++ stack [i]).
  { intros s i M. unfold mm_append. destruct (ikd i) eqn:K.
    - assert (SI : stack [i] = []).
      { unfold stack. cbn [filter]. unfold stack_item, ikd in *. destruct (ic i); try discriminate K; reflexivity. }
      destruct (negb (is_data (ic i))).
      { split; [reflexivity|]. rewrite mm_flush_holds by exact M. cbn [mm_before mm_after].
        rewrite !stack_app, app_assoc. reflexivity. }
      assert (Z : inv (fst (match mm_mains s with m :: _ => if item_eqb i m then (s, []) else mm_flush s | [] => (s, []) end)) /\
          stack (snd (match mm_mains s with m :: _ => if item_eqb i m then (s, []) else mm_flush s | [] => (s, []) end)) ++
          stack (mm_before (fst (match mm_mains s with m :: _ => if item_eqb i m then (s, []) else mm_flush s | [] => (s, []) end)) ++
                 mm_after (fst (match mm_mains s with m :: _ => if item_eqb i m then (s, []) else mm_flush s | [] => (s, []) end)))
          = stack (mm_before s ++ mm_after s)).
      { destruct (mm_mains s) as [|m ms] eqn:EM; [split; auto|]. destruct (item_eqb i m); [split; auto|].
        split; [reflexivity|]. apply mm_flush_holds. exact M. }
      destruct (match mm_mains s with m :: _ => _ | [] => _ end) as [s1 o1]. cbn [fst snd] in Z. destruct Z as [Z1 Z2].
      set (s2 := MM (mm_before s1 ++ mm_after s1) (mm_mains s1 ++ [i]) [] (mm_bcount s1 + mm_acount s1) (mm_acount s1) (mm_props s1)).
      assert (I2 : inv s2) by (unfold inv, s2; cbn [mm_mains]; rewrite stack_app, SI, Z1; reflexivity).
      rewrite SI, app_nil_r.
      destruct (negb (mm_acount s1 =? 1)).
      + pose proof (mm_flush_holds s2 I2) as F. pose proof (flush_mains s2) as FM. destruct (mm_flush s2) as [s3 o3]. cbn [fst snd] in *.
        split; [unfold inv; rewrite FM; reflexivity|]. rewrite stack_app, <- app_assoc, F. unfold s2. cbn [mm_before mm_after].
        rewrite app_nil_r. exact Z2.
      + cbn [fst snd]. split; [exact I2|]. unfold s2. cbn [mm_before mm_after]. rewrite app_nil_r. exact Z2.
    - set (s1 := MM (mm_before s) (mm_mains s) (mm_after s ++ [i]) (mm_bcount s) (mm_acount s) (mm_props s)).
      assert (S1 : stack (mm_before s1 ++ mm_after s1) = stack (mm_before s ++ mm_after s) ++ stack [i]).
      { unfold s1. cbn [mm_before mm_after]. rewrite !stack_app, app_assoc. reflexivity. }
      set (r := if to_watch (ic i) && negb (mm_props s (ic i) =? ival i) then _ else _).
      assert (Z : inv (fst r) /\ stack (snd r) ++ stack (mm_before (fst r) ++ mm_after (fst r)) = stack (mm_before s ++ mm_after s) ++ stack [i]).
      { unfold r. destruct (_ && _).
        - split; [reflexivity|]. rewrite mm_flush_holds by exact M. exact S1.
        - split; [exact M|exact S1]. }
      destruct r as [s2 o2]. cbn [fst snd] in *. destruct Z as [Z1 Z2].
      destruct (ic i); cbn [mm_before mm_after]; split; auto.
    - cbn [fst snd mm_before mm_after]. split; [exact M|]. change (stack []) with (@nil item). rewrite !stack_app, <- app_assoc. reflexivity. }
  assert (F : forall l s, inv s -> inv (fst (feed main_merge s l)) /\
     stack (snd (feed main_merge s l)) ++ stack (mm_before (fst (feed main_merge s l)) ++ mm_after (fst (feed main_merge s l)))
       = stack (mm_before s ++ mm_after s) ++ stack l).
  { clear l. induction l as [|i l IH]; intros s M; [split; [exact M|symmetry; apply app_nil_r]|]. cbn [feed].
    change (p_append main_merge) with mm_append.
    destruct (HA s i M) as [A B]. destruct (mm_append s i) as [s1 o1]. cbn [fst snd] in *.
    destruct (IH s1 A) as [C D]. destruct (feed main_merge s1 l) as [s2 o2]. cbn [fst snd] in *.
    split; [exact C|]. change (i :: l) with ([i] ++ l). rewrite (stack_app [i] l), (stack_app o1 o2), <- app_assoc, D, !app_assoc, B. reflexivity. }
  unfold run_pass. destruct (F l (p_init main_merge) eq_refl) as [A B].
  destruct (feed main_merge (p_init main_merge) l) as [s o]. cbn [fst snd] in *.
  change (p_close main_merge s) with (mm_close s). unfold mm_close. rewrite !stack_app, A in *. exact B.
Qed.

Lemma optimize_holds db l : noz (map cv l) -> ends l -> stack (optimize db l) = stack l.
Proof.
  intros N E. rewrite (optimize_pages db l N E), up_holds. unfold before_pages, usage_merge, designator_merge, string_merge.
  rewrite !rm_holds by reflexivity. rewrite gm_holds, pm_holds, mm_holds. reflexivity.
Qed.

(* ------------------------------------------------------------------ *)
(** C34, C36, C41 *)

Lemma wire_flat l : no_stack (map wire l) = map wire (stackless l).
Proof.
  induction l as [|i l IH]; auto. unfold no_stack, stackless in *. cbn [map filter]. unfold stack_item at 1.
  change (w_cls (wire i)) with (ic i). destruct (ic i); cbn [negb]; rewrite IH; reflexivity.
Qed.

Lemma wire_stack l : only_stack (map wire l) = map wire (stack l).
Proof.
  induction l as [|i l IH]; auto. unfold only_stack, stack in *. cbn [map filter]. unfold stack_item at 1.
  change (w_cls (wire i)) with (ic i). destruct (ic i); cbn [negb]; rewrite IH; reflexivity.
Qed.

Lemma c34_always m l : let out := run_pass global_merge l in
  host_view m (no_stack (map wire out)) = host_view m (no_stack (map wire l)) /\
  only_stack (map wire out) = only_stack (map wire l) /\
  no_repeats defaults (map w_what (no_stack (map wire out))).
Proof.
  intros out. unfold out. rewrite !wire_flat, !wire_stack, gm_stack, gm_holds.
  destruct (c33 m (stackless l) (flat_free l)) as [A B]. split; [exact A|]. split; [reflexivity|].
  rewrite map_map. exact B.
Qed.

Lemma c36_always db l : Forall constructed l -> extended (map cv l) ->
  let out := run_pass (usage_page_pass db) l in
  host_view AtDecl (no_stack (map wire out)) = host_view AtDecl (no_stack (map wire l)) /\
  only_stack (map wire out) = only_stack (map wire l).
Proof.
  intros C X out. unfold out. rewrite !wire_flat, !wire_stack, up_stack, up_holds.
  assert (X2 : extended (map cv (stackless l))).
  { unfold extended in *. rewrite Forall_map in *. apply Forall_forall. intros i I. apply filter_In in I.
    rewrite Forall_forall in X. apply X, I. }
  destruct (c36 db (stackless l) (flat_constructed _ C) (flat_free l) X2) as [A _]. split; [exact A|reflexivity].
Qed.

Lemma what_flat : forall ws l, map w_what ws = map cv l ->
  map w_what (no_stack ws) = map cv (stackless l) /\ map w_what (only_stack ws) = map cv (stack l).
Proof.
  induction ws as [|w ws IH]; intros [|i l] E; try discriminate E; [split; reflexivity|].
  cbn [map] in E. injection E as E1 E2 E3. destruct (IH l E3) as [A B].
  unfold no_stack, only_stack, stackless, stack in *. cbn [filter].
  assert (SI : stack_item i = match w_cls w with Push | Pop => true | _ => false end) by (unfold stack_item; rewrite <- E1; reflexivity).
  rewrite SI.
  assert (Q : w_what w = cv i) by (unfold w_what, cv; congruence).
  clear SI E1. destruct (w_cls w); cbn [negb map]; rewrite A, B, ?Q; split; reflexivity.
Qed.

Lemma c41_stack db b ws out :
  blob_means b ws -> Forall number_allowed ws -> orderly (map w_what (no_stack ws)) ->
  closed_stream (map w_what ws) -> joins (uniform AtDecl) (main_states (unpaged (no_stack ws))) ->
  convert_opt db b = Ok out ->
  exists ws', blob_means out ws' /\ map w_what (only_stack ws') = map w_what (only_stack ws) /\
    host_view AtDecl (no_stack ws') = host_view AtDecl (unpaged (no_stack ws)).
Proof.
  intros B N RG CL J H. destruct (parse_good db 0 b ws B (proj1 (allowed_forall ws) N)) as [l [PA [M C]]].
  unfold convert_opt in H. rewrite blob_parse_from, PA in H. cbn [finished appended bind] in H.
  change (map wcv ws) with (map w_what ws) in M. symmetry in M. destruct (what_flat ws l M) as [F1 F2].
  exists (map wire (optimize db l)). split; [apply serialize_means; exact H|].
  rewrite M in CL.
  assert (EN : ends l).
  { destruct CL as [l' [x [E [M1 M2]]]].
    destruct (exists_last (l := l)) as [l0 [i ->]]; [intros ->; destruct l'; discriminate|].
    rewrite map_app in E. cbn [map] in E. apply app_inj_tail in E. destruct E as [_ <-].
    exists l0, i. split; auto. destruct i as [c v]. cbn [cv fst ic] in *. destruct c; try discriminate M1; try discriminate M2; split; reflexivity. }
  rewrite F1 in RG.
  assert (NZ : noz (map cv l)).
  { unfold noz. rewrite Forall_map. apply Forall_forall. intros i I Q. destruct RG as [OD _]. rewrite Forall_map, Forall_forall in OD.
    apply OD; [|exact Q]. apply filter_In. split; auto. unfold stack_item. cbn [cv fst] in Q. rewrite Q. reflexivity. }
  rewrite wire_stack, wire_flat, optimize_holds, optimize_stack by auto. split.
  { rewrite F2, map_map. reflexivity. }
  apply (pages_always db (stackless l) (no_stack ws) F1); auto.
  - apply flat_constructed, C.
  - apply flat_free.
  - apply stackless_ends, EN.
Qed.
