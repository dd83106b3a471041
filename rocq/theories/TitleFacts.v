(* TitleFacts.v -- strings and designators do not matter to the other items *)
From Coq Require Import ZifyBool ZifyNat.
From Verif Require Import Py Usage Item Parser Optimizer Descriptor Converter HidSpec Spec StreamSpec StreamProofs OptSpec
  AllSpec TreeSpec ItemFacts ParserFacts OptFacts PassFacts DesigFacts OptAll TreeOpt PageSpec PageShift PageTree ExtractSpec
  GlobalFacts PageFacts CodecProofs TitleSpec.
Local Open Scope list_scope. Local Open Scope Z_scope.

Definition title_item (i : item) : bool := title_tag (ic i).
Definition titleless (l : list item) : list item := filter (fun i => negb (title_item i)) l.

Lemma titleless_app a b : titleless (a ++ b) = titleless a ++ titleless b.
Proof. apply filter_app. Qed.

(** a pass that handles strings and designators apart from the other items *)
Section Blind.
  Variable p : pass.
  Variable R : p_state p -> p_state p -> Prop.
  Hypothesis R0 : R (p_init p) (p_init p).
  Hypothesis RS : forall s t i, title_item i = true -> R s t ->
    R (fst (p_append p s i)) t /\ titleless (snd (p_append p s i)) = [].
  Hypothesis RI : forall s t i, title_item i = false -> R s t ->
    R (fst (p_append p s i)) (fst (p_append p t i)) /\
    titleless (snd (p_append p s i)) = snd (p_append p t i).
  Hypothesis RC : forall s t, R s t -> titleless (p_close p s) = p_close p t.

  Lemma blind_feed l : forall s t, R s t ->
    R (fst (feed p s l)) (fst (feed p t (titleless l))) /\
    titleless (snd (feed p s l)) = snd (feed p t (titleless l)).
  Proof.
    induction l as [|i l IH]; intros s t H; [split; auto|].
    cbn [feed titleless filter]. destruct (title_item i) eqn:SI; cbn [negb].
    - destruct (RS s t i SI H) as [A B]. destruct (p_append p s i) as [s1 o1]. cbn [fst snd] in *.
      destruct (IH _ _ A) as [C D]. destruct (feed p s1 l) as [s2 o2]. cbn [fst snd] in *.
      split; [exact C|]. rewrite titleless_app, B. exact D.
    - destruct (RI s t i SI H) as [A B]. cbn [feed]. destruct (p_append p s i) as [s1 o1], (p_append p t i) as [t1 q1].
      cbn [fst snd] in *. destruct (IH _ _ A) as [C D]. fold (titleless l).
      destruct (feed p s1 l) as [s2 o2], (feed p t1 (titleless l)) as [t2 q2]. cbn [fst snd] in *.
      split; [exact C|]. rewrite titleless_app, B, D. reflexivity.
  Qed.

  Lemma blind_run l : titleless (run_pass p l) = run_pass p (titleless l).
  Proof.
    unfold run_pass. destruct (blind_feed l _ _ R0) as [A B].
    destruct (feed p (p_init p) l) as [s o], (feed p (p_init p) (titleless l)) as [t q]. cbn [fst snd] in *.
    rewrite titleless_app, B, (RC _ _ A). reflexivity.
  Qed.
End Blind.

Lemma title_cases i : title_item i = true -> kind_of (ic i) = Local /\ is_usage (ic i) = false.
Proof. unfold title_item. destruct (ic i); try discriminate; auto. Qed.

Lemma title_no i : title_item i = false -> titleless [i] = [i].
Proof. intros H. unfold titleless. cbn [filter]. rewrite H. reflexivity. Qed.
Lemma title_yes i : title_item i = true -> titleless [i] = [].
Proof. intros H. unfold titleless. cbn [filter]. rewrite H. reflexivity. Qed.

Lemma titleless_filter f l : titleless (filter f l) = filter f (titleless l).
Proof.
  induction l as [|i l IH]; auto. unfold titleless in *. cbn [filter].
  destruct (f i) eqn:F, (title_item i) eqn:S; cbn [filter negb]; rewrite ?F, ?S; cbn [negb]; rewrite ?IH; auto.
Qed.

Lemma rc_title n : titleless [rc_item n] = [rc_item n].
Proof. reflexivity. Qed.

Lemma filter_le {A} (f : A -> bool) l : (List.length (filter f l) <= List.length l)%nat.
Proof. induction l as [|x l IH]; cbn [filter List.length]; [lia|]. destruct (f x); cbn [List.length]; lia. Qed.

Definition mm_blind (s t : mm_state) : Prop :=
  titleless (mm_before s) = mm_before t /\ mm_mains s = mm_mains t /\ titleless (mm_mains s) = mm_mains s /\
  titleless (mm_after s) = mm_after t /\
  mm_bcount s = mm_bcount t /\ mm_acount s = mm_acount t /\ mm_props s = mm_props t.

Lemma mm_flush_blind s t : mm_blind s t ->
  mm_blind (fst (mm_flush s)) (fst (mm_flush t)) /\ titleless (snd (mm_flush s)) = snd (mm_flush t).
Proof.
  intros [A [B [B2 [C [D [E F]]]]]]. unfold mm_flush, mm_blind. cbn [fst snd mm_before mm_mains mm_after mm_bcount mm_acount mm_props].
  repeat split; auto. rewrite titleless_app, titleless_filter, A, D, <- B. f_equal.
  destruct (mm_mains s) as [|m ms]; auto. change [rc_item (mm_bcount t); m] with ([rc_item (mm_bcount t)] ++ [m]).
  rewrite titleless_app, rc_title. f_equal.
  unfold titleless in *. cbn [filter] in *. destruct (negb (title_item m)); auto.
  exfalso. assert (X := f_equal (@List.length item) B2). cbn [List.length] in X.
  pose proof (filter_le (fun i => negb (title_item i)) ms). lia.
Qed.

Lemma mm_title l : titleless (run_pass main_merge l) = run_pass main_merge (titleless l).
Proof.
  apply (blind_run main_merge mm_blind).
  - repeat split.
  - intros s t i SI [A [B [B2 [C [D [E F]]]]]]. change (p_append main_merge) with mm_append. unfold mm_append, ikd.
    assert (X : mm_blind (MM (mm_before s) (mm_mains s) (mm_after s ++ [i]) (mm_bcount s) (mm_acount s) (mm_props s)) t).
    { unfold mm_blind. cbn. repeat split; auto. rewrite titleless_app, (title_yes i SI), app_nil_r. exact C. }
    rewrite (proj1 (title_cases i SI)). split; auto.
  - intros s t i SI H. pose proof H as [A [B [B2 [C [D [E F]]]]]]. change (p_append main_merge) with mm_append. unfold mm_append.
    assert (X : forall pr, mm_blind (MM (mm_before s) (mm_mains s) (mm_after s ++ [i]) (mm_bcount s) (mm_acount s) pr)
                       (MM (mm_before t) (mm_mains t) (mm_after t ++ [i]) (mm_bcount t) (mm_acount t) pr)).
    { intros pr. unfold mm_blind. cbn [mm_before mm_mains mm_after mm_bcount mm_acount mm_props]. repeat split; auto.
      rewrite titleless_app, (title_no i SI), C. reflexivity. }
    destruct (ikd i).
    + destruct (negb (is_data (ic i))). { rewrite F. apply mm_flush_blind, X. }
      assert (Y : forall s t, mm_blind s t ->
        mm_blind (MM (mm_before s ++ mm_after s) (mm_mains s ++ [i]) [] (mm_bcount s + mm_acount s) (mm_acount s) (mm_props s))
                 (MM (mm_before t ++ mm_after t) (mm_mains t ++ [i]) [] (mm_bcount t + mm_acount t) (mm_acount t) (mm_props t))).
      { clear - SI. intros s t [A [B [B2 [C [D [E F]]]]]]. unfold mm_blind.
        cbn [mm_before mm_mains mm_after mm_bcount mm_acount mm_props]. rewrite !titleless_app, (title_no i SI).
        repeat split; try congruence. }
      assert (Z : mm_blind (fst (match mm_mains s with m :: _ => if item_eqb i m then (s, []) else mm_flush s | [] => (s, []) end))
                    (fst (match mm_mains t with m :: _ => if item_eqb i m then (t, []) else mm_flush t | [] => (t, []) end)) /\
                  titleless (snd (match mm_mains s with m :: _ => if item_eqb i m then (s, []) else mm_flush s | [] => (s, []) end)) =
                    snd (match mm_mains t with m :: _ => if item_eqb i m then (t, []) else mm_flush t | [] => (t, []) end)).
      { rewrite <- B. destruct (mm_mains s) as [|m ms]; [split; auto|]. destruct (item_eqb i m); [split; auto|].
        apply mm_flush_blind, H. }
      destruct (match mm_mains s with m :: _ => _ | [] => _ end) as [s1 o1], (match mm_mains t with m :: _ => _ | [] => _ end) as [t1 q1].
      cbn [fst snd] in Z. destruct Z as [Z1 Z2]. pose proof (Y _ _ Z1) as W.
      assert (EA : mm_acount s1 = mm_acount t1) by apply Z1. rewrite <- EA in *.
      destruct (negb (mm_acount s1 =? 1)); [|split; auto].
      apply mm_flush_blind in W. destruct (mm_flush _) as [s3 o3], (mm_flush (MM (mm_before t1 ++ _) _ _ _ _ _)) as [t3 q3].
      cbn [fst snd] in *. rewrite titleless_app, Z2. destruct W as [W1 W2]. rewrite W2. auto.
    + assert (K : mm_blind
         (fst (if to_watch (ic i) && negb (mm_props s (ic i) =? ival i)
               then mm_flush (MM (mm_before s) (mm_mains s) (mm_after s ++ [i]) (mm_bcount s) (mm_acount s) (upd (mm_props s) (ic i) (ival i)))
               else (MM (mm_before s) (mm_mains s) (mm_after s ++ [i]) (mm_bcount s) (mm_acount s) (mm_props s), [])))
         (fst (if to_watch (ic i) && negb (mm_props t (ic i) =? ival i)
               then mm_flush (MM (mm_before t) (mm_mains t) (mm_after t ++ [i]) (mm_bcount t) (mm_acount t) (upd (mm_props t) (ic i) (ival i)))
               else (MM (mm_before t) (mm_mains t) (mm_after t ++ [i]) (mm_bcount t) (mm_acount t) (mm_props t), []))) /\
         titleless (snd (if to_watch (ic i) && negb (mm_props s (ic i) =? ival i)
               then mm_flush (MM (mm_before s) (mm_mains s) (mm_after s ++ [i]) (mm_bcount s) (mm_acount s) (upd (mm_props s) (ic i) (ival i)))
               else (MM (mm_before s) (mm_mains s) (mm_after s ++ [i]) (mm_bcount s) (mm_acount s) (mm_props s), []))) =
         snd (if to_watch (ic i) && negb (mm_props t (ic i) =? ival i)
               then mm_flush (MM (mm_before t) (mm_mains t) (mm_after t ++ [i]) (mm_bcount t) (mm_acount t) (upd (mm_props t) (ic i) (ival i)))
               else (MM (mm_before t) (mm_mains t) (mm_after t ++ [i]) (mm_bcount t) (mm_acount t) (mm_props t), []))).
      { rewrite <- F. destruct (_ && _); [apply mm_flush_blind, X|split; [apply X|reflexivity]]. }
      cbn [mm_before mm_mains mm_after mm_bcount mm_acount mm_props].
      destruct (if to_watch (ic i) && negb (mm_props s (ic i) =? ival i) then _ else _) as [s2 o2],
               (if to_watch (ic i) && negb (mm_props t (ic i) =? ival i) then _ else _) as [t2 q2].
      cbn [fst snd] in *. destruct K as [[K1 [K2 [K3 [K4 [K5 [K6 K7]]]]]] KO]. split; auto.
      destruct (ic i); unfold mm_blind; cbn [mm_before mm_mains mm_after mm_bcount mm_acount mm_props]; repeat split; auto.
    + split; [rewrite F; apply X|reflexivity].
  - intros s t [A [B [B2 [C _]]]]. change (p_close main_merge) with mm_close. unfold mm_close.
    rewrite !titleless_app, A, B2, C, B. reflexivity.
Qed.

Lemma pm_title l : titleless (run_pass physical_merge l) = run_pass physical_merge (titleless l).
Proof.
  apply (blind_run physical_merge (fun s t => pm_current s = pm_current t /\ pm_changed s = pm_changed t /\
    titleless (pm_pending s) = pm_pending t)).
  - repeat split.
  - intros s t i SI [A [B C]]. change (p_append physical_merge) with pm_append. unfold pm_append, ikd.
    pose proof (title_cases i SI) as [Q _]. assert (NP : is_phys (ic i) || is_log (ic i) = false) by (destruct (ic i); try discriminate Q; reflexivity).
    rewrite Q, NP. cbn. rewrite titleless_app, (title_yes i SI), app_nil_r. auto.
  - intros s t i SI [A [B C]]. change (p_append physical_merge) with pm_append. unfold pm_append.
    destruct (ikd i); cbn [fst snd pm_current pm_changed pm_pending].
    + rewrite titleless_app, (title_no i SI), A, B. split; [auto|]. f_equal.
      destruct (_ && _); [rewrite titleless_filter|]; rewrite C; reflexivity.
    + rewrite titleless_app, (title_no i SI), A, B, C. auto.
    + rewrite titleless_app, (title_no i SI), A, B, C. auto.
  - intros s t [_ [_ C]]. exact C.
Qed.

Lemma gm_title l : titleless (run_pass global_merge l) = run_pass global_merge (titleless l).
Proof.
  apply (blind_run global_merge (fun s t : gm_state => s = t)); auto.
  - intros s t i SI H. change (p_append global_merge) with gm_append. unfold gm_append, ikd.
    rewrite (proj1 (title_cases i SI)). split; auto. apply title_yes, SI.
  - intros s t i SI <-. change (p_append global_merge) with gm_append. split; [reflexivity|]. unfold gm_append.
    destruct (ikd i); cbn [fst snd]; try apply title_no, SI. destruct (_ || _); [apply title_no, SI|reflexivity].
Qed.

Lemma rebuild_title db c v : title_tag c = false -> titleless (rebuild db c v) = rebuild db c v.
Proof.
  intros A. unfold rebuild. destruct (mk_item db c (Some v)) as [i|] eqn:E; [|reflexivity].
  apply title_no. unfold title_item. rewrite (mk_item_class _ _ _ _ E). exact A.
Qed.

Lemma um_title db l : titleless (run_pass (usage_merge db) l) = run_pass (usage_merge db) (titleless l).
Proof.
  unfold usage_merge. set (lk := Usage). set (mn := UsageMinimum). set (mx := UsageMaximum).
  set (R := fun s t => rm_merging s = rm_merging t /\ rm_min s = rm_min t /\ rm_max s = rm_max t /\
    titleless (rm_pending s) = rm_pending t).
  assert (FL : forall s t, R s t -> titleless (rm_flush db lk mn mx s) = rm_flush db lk mn mx t).
  { intros s t [A [B [C D]]]. unfold rm_flush. rewrite A, B, C.
    destruct (rm_min t) as [a|]; [|exact D]. destruct (rm_max t) as [b|]; [|exact D].
    destruct (_ && _); [|exact D]. rewrite titleless_app, titleless_filter, D. f_equal.
    destruct (py_int a =? py_int b); [apply rebuild_title; reflexivity|].
    destruct (_ <? _); rewrite titleless_app; f_equal; apply rebuild_title; reflexivity. }
  assert (NT : forall s t i, R s t -> R (rm_note lk mn mx s i) (rm_note lk mn mx t i)).
  { intros s t i [A [B [C D]]]. unfold rm_note. rewrite A, C.
    destruct (_ && _); [|unfold R; auto]. destruct (_ || _); [unfold R; cbn; auto|].
    destruct (icls_eqb _ _); [|unfold R; auto]. destruct (rm_max t); [|unfold R; cbn; auto].
    destruct (_ =? _); unfold R; cbn; auto. }
  apply (blind_run (range_merge db lk mn mx) R).
  - unfold R. cbn. auto.
  - intros s t i SI H. change (p_append (range_merge db lk mn mx)) with (rm_append db lk mn mx). unfold rm_append.
    assert (E : rm_note lk mn mx s i = s).
    { unfold rm_note, lk, mn, mx. unfold title_item in SI. destruct (ic i); try discriminate SI; destruct (_ && _); reflexivity. }
    rewrite E. destruct H as [A [B [C D]]].
    unfold ikd. rewrite (proj1 (title_cases i SI)). cbn. split; [|reflexivity]. unfold R; cbn.
    rewrite titleless_app, (title_yes i SI), app_nil_r; auto.
  - intros s t i SI H. change (p_append (range_merge db lk mn mx)) with (rm_append db lk mn mx). unfold rm_append.
    pose proof (NT _ _ i H) as H2. destruct (ikd i); cbn [fst snd].
    + split; [|apply FL; exact H2]. unfold R. cbn [rm_merging rm_min rm_max rm_pending]. rewrite (title_no i SI). auto.
    + split; [|reflexivity]. destruct H2 as [A [B [C D]]]. unfold R. cbn [rm_merging rm_min rm_max rm_pending].
      rewrite titleless_app, (title_no i SI), D. auto.
    + split; [|reflexivity]. destruct H2 as [A [B [C D]]]. unfold R. cbn [rm_merging rm_min rm_max rm_pending].
      rewrite titleless_app, (title_no i SI), D. auto.
  - intros s t H. apply FL, H.
Qed.

(** the ranges of strings or designators concern only these *)
Lemma rm_erase db lk mn mx l : title_tag lk = true -> title_tag mn = true -> title_tag mx = true ->
  titleless (run_pass (range_merge db lk mn mx) l) = titleless l.
Proof.
  intros KL KN KX.
  assert (RB : forall c v, title_tag c = true -> titleless (rebuild db c v) = []).
  { intros c v K. unfold rebuild. destruct (mk_item db c (Some v)) as [i|] eqn:E; [|reflexivity].
    apply title_yes. unfold title_item. rewrite (mk_item_class _ _ _ _ E). exact K. }
  assert (FI : forall l, titleless (filter (fun x => negb (icls_eqb (ic x) lk || icls_eqb (ic x) mn || icls_eqb (ic x) mx)) l) = titleless l).
  { clear l. intros l. induction l as [|i l IH]; auto. unfold titleless in *. cbn [filter].
    destruct (title_item i) eqn:T; cbn [negb].
    - destruct (negb (icls_eqb _ _ || _ || _)); cbn [filter]; rewrite ?T; exact IH.
    - assert (Q : forall c, title_tag c = true -> icls_eqb (ic i) c = false).
      { intros c K. destruct (icls_eqb (ic i) c) eqn:E; auto. apply icls_eqb_eq in E. unfold title_item in T. congruence. }
      rewrite !Q by auto. cbn [orb negb filter]. rewrite T. cbn [negb]. f_equal. exact IH. }
  assert (FL : forall s, titleless (rm_flush db lk mn mx s) = titleless (rm_pending s)).
  { intros s. unfold rm_flush. destruct (rm_min s) as [a|]; [|reflexivity]. destruct (rm_max s) as [b|]; [|reflexivity].
    destruct (_ && _); [|reflexivity]. rewrite titleless_app, FI.
    destruct (py_int a =? py_int b); [rewrite RB by auto; apply app_nil_r|].
    destruct (_ <? _); rewrite titleless_app, !RB by auto; apply app_nil_r. }
  assert (NT : forall s i, rm_pending (rm_note lk mn mx s i) = rm_pending s).
  { intros s i. unfold rm_note. destruct (_ && _); [|reflexivity]. destruct (_ || _); [reflexivity|].
    destruct (icls_eqb _ _); [|reflexivity]. destruct (rm_max s); [|reflexivity]. destruct (_ =? _); reflexivity. }
  assert (F : forall l s, titleless (snd (feed (range_merge db lk mn mx) s l)) ++ titleless (rm_pending (fst (feed (range_merge db lk mn mx) s l)))
     = titleless (rm_pending s) ++ titleless l).
  { clear l. induction l as [|i l IH]; intros s; [symmetry; apply app_nil_r|]. cbn [feed].
    change (p_append (range_merge db lk mn mx)) with (rm_append db lk mn mx).
    assert (A : titleless (snd (rm_append db lk mn mx s i)) ++ titleless (rm_pending (fst (rm_append db lk mn mx s i))) = titleless (rm_pending s) ++ titleless [i]).
    { unfold rm_append. destruct (ikd i); cbn [fst snd rm_pending]; rewrite ?FL, ?NT, ?titleless_app; reflexivity. }
    destruct (rm_append db lk mn mx s i) as [s1 o1]. cbn [fst snd] in A. pose proof (IH s1) as B.
    destruct (feed (range_merge db lk mn mx) s1 l) as [s2 o2]. cbn [fst snd] in *.
    change (i :: l) with ([i] ++ l). rewrite !titleless_app, <- app_assoc, B, !app_assoc, A. reflexivity. }
  unfold run_pass. pose proof (F l (p_init (range_merge db lk mn mx))) as A.
  destruct (feed (range_merge db lk mn mx) (p_init (range_merge db lk mn mx)) l) as [s o]. cbn [fst snd] in A.
  rewrite titleless_app. change (p_close (range_merge db lk mn mx) s) with (rm_flush db lk mn mx s). rewrite FL, A. reflexivity.
Qed.

(** and without them nothing is changed *)
Lemma rm_none db lk mn mx l : title_tag lk = true -> title_tag mn = true -> title_tag mx = true ->
  run_pass (range_merge db lk mn mx) (titleless l) = titleless l.
Proof.
  intros KL KN KX.
  assert (F : forall l s, rm_min s = None -> rm_max s = None ->
     let r := feed (range_merge db lk mn mx) s (titleless l) in
     rm_min (fst r) = None /\ rm_max (fst r) = None /\ snd r ++ rm_pending (fst r) = rm_pending s ++ titleless l).
  { clear l. induction l as [|i l IH]; intros s N1 N2; [cbn; rewrite app_nil_r; auto|].
    unfold titleless in *. cbn [filter]. destruct (title_item i) eqn:T; cbn [negb]; [apply IH; auto|]. cbn [feed].
    change (p_append (range_merge db lk mn mx)) with (rm_append db lk mn mx). unfold rm_append.
    assert (E : rm_note lk mn mx s i = s).
    { assert (Q : forall c, title_tag c = true -> icls_eqb (ic i) c = false).
      { intros c K. destruct (icls_eqb (ic i) c) eqn:E; auto. apply icls_eqb_eq in E. unfold title_item in T. congruence. }
      unfold rm_note. rewrite !Q by auto. destruct (_ && _); reflexivity. }
    rewrite E. destruct (ikd i).
    - destruct (IH (RM true None None [i]) eq_refl eq_refl) as [A [B C]].
      destruct (feed (range_merge db lk mn mx) (RM true None None [i]) _) as [s2 o2]. cbn [fst snd rm_pending] in *.
      split; [exact A|]. split; [exact B|]. rewrite <- app_assoc, C. unfold rm_flush. rewrite N1. reflexivity.
    - destruct (IH (RM (rm_merging s) (rm_min s) (rm_max s) (rm_pending s ++ [i])) N1 N2) as [A [B C]].
      destruct (feed (range_merge db lk mn mx) _ _) as [s2 o2]. cbn [fst snd rm_pending] in *.
      split; [exact A|]. split; [exact B|]. cbn [app]. rewrite C, <- app_assoc. reflexivity.
    - destruct (IH (RM (rm_merging s) (rm_min s) (rm_max s) (rm_pending s ++ [i])) N1 N2) as [A [B C]].
      destruct (feed (range_merge db lk mn mx) _ _) as [s2 o2]. cbn [fst snd rm_pending] in *.
      split; [exact A|]. split; [exact B|]. cbn [app]. rewrite C, <- app_assoc. reflexivity. }
  unfold run_pass. destruct (F l (p_init (range_merge db lk mn mx)) eq_refl eq_refl) as [A [B C]].
  destruct (feed (range_merge db lk mn mx) (p_init (range_merge db lk mn mx)) (titleless l)) as [s o]. cbn [fst snd] in *.
  change (p_close (range_merge db lk mn mx) s) with (rm_flush db lk mn mx s). unfold rm_flush. rewrite A. exact C.
Qed.

Lemma up_title db l : titleless (run_pass (usage_page_pass db) l) = run_pass (usage_page_pass db) (titleless l).
Proof.
  apply (blind_run (usage_page_pass db) (fun s t : option Z => s = t)).
  - reflexivity.
  - intros s t i SI <-. change (p_append (usage_page_pass db)) with (up_append db). unfold up_append.
    rewrite (proj2 (title_cases i SI)). unfold title_item in SI.
    cbn [fst snd]. split; [destruct (ic i); try discriminate SI; reflexivity|apply title_yes, SI].
  - intros s t i SI <-. change (p_append (usage_page_pass db)) with (up_append db). split; [reflexivity|].
    unfold up_append. destruct (is_usage (ic i)) eqn:U; [|apply title_no, SI].
    destruct (split (lookup db (iv i))) as [sp su]. cbn [fst snd]. rewrite titleless_app.
    rewrite (rebuild_title db (ic i)) by exact SI. f_equal.
    destruct s as [q|]; [destruct (negb _)|]; try reflexivity; apply rebuild_title; reflexivity.
  - reflexivity.
Qed.

Lemma before_title db l : titleless (before_pages db l) = before_pages db (titleless l).
Proof.
  unfold before_pages. rewrite um_title. unfold designator_merge, string_merge.
  rewrite !rm_erase by reflexivity. rewrite gm_title, pm_title, mm_title. f_equal.
  rewrite <- mm_title, <- pm_title, <- gm_title, !rm_none by reflexivity. reflexivity.
Qed.

(** DesignatorUniq *)
Lemma remove_title n : forall l, (forall i, nth_error l n = Some i -> title_item i = true) ->
  titleless (remove_nth n l) = titleless l.
Proof.
  induction n as [|n IH]; intros [|i l] H; auto.
  - unfold titleless. cbn [remove_nth filter]. rewrite (H i eq_refl). reflexivity.
  - unfold titleless in *. cbn [remove_nth filter]. destruct (title_item i); cbn [negb]; [|f_equal]; apply IH; exact H.
Qed.

Lemma du_title l : ends l -> titleless (run_pass designator_uniq l) = titleless l.
Proof.
  intros [l' [i [-> [K _]]]].
  set (inv := fun s => match du_filter s with
    | DAt n => exists j, nth_error (du_pending s) n = Some j /\ title_item j = true | _ => True end).
  assert (A : forall s i, inv s -> inv (fst (du_append s i)) /\
     titleless (snd (du_append s i)) ++ titleless (du_pending (fst (du_append s i))) = titleless (du_pending s) ++ titleless [i] /\
     (ikd i <> Local -> du_pending (fst (du_append s i)) = [])).
  { clear. intros s i I. unfold du_append.
    assert (FLUSH : inv (DU [] DNone) /\
      titleless (match du_filter s with DAt n => remove_nth n (du_pending s ++ [i]) | _ => du_pending s ++ [i] end) ++ titleless []
        = titleless (du_pending s) ++ titleless [i] /\ (ikd i <> Local -> @nil item = [])).
    { split; [exact Logic.I|]. split; [|reflexivity]. cbn [titleless filter]. rewrite app_nil_r. unfold inv in I.
      destruct (du_filter s) as [| |n]; try apply titleless_app. rewrite remove_title; [apply titleless_app|].
      destruct I as [j [E T]]. intros k N. rewrite nth_error_app1 in N by (apply nth_error_Some; congruence). congruence. }
    assert (OLD : inv (DU (du_pending s ++ [i]) (du_filter s))).
    { unfold inv in *. cbn [du_filter du_pending]. destruct (du_filter s) as [| |n]; auto. destruct I as [j [E T]].
      exists j. split; auto. rewrite nth_error_app1 by (apply nth_error_Some; congruence). exact E. }
    assert (GO : forall f, inv (DU (du_pending s ++ [i]) f) -> ikd i = Local ->
      inv (fst (DU (du_pending s ++ [i]) f, @nil item)) /\
      titleless (snd (DU (du_pending s ++ [i]) f, @nil item)) ++ titleless (du_pending (fst (DU (du_pending s ++ [i]) f, @nil item)))
        = titleless (du_pending s) ++ titleless [i] /\
      (ikd i <> Local -> du_pending (fst (DU (du_pending s ++ [i]) f, @nil item)) = [])).
    { intros f IF K. cbn [fst snd du_pending]. split; [exact IF|]. split; [apply titleless_app|]. intros N. contradiction. }
    destruct (ikd i) eqn:KI; try exact FLUSH.
    destruct (ic i) eqn:CI; try (apply GO; auto; fail).
    apply GO; auto. unfold inv. cbn [du_filter du_pending]. destruct (du_filter s); auto.
    destruct (ival i =? 0); auto. exists i. split; [|unfold title_item; rewrite CI; reflexivity].
    rewrite nth_error_app2 by lia. rewrite Nat.sub_diag. reflexivity. }
  assert (F : forall l s, inv s -> inv (fst (feed designator_uniq s l)) /\
     titleless (snd (feed designator_uniq s l)) ++ titleless (du_pending (fst (feed designator_uniq s l))) = titleless (du_pending s) ++ titleless l).
  { clear - A. induction l as [|i l IH]; intros s I; [split; [exact I|symmetry; apply app_nil_r]|]. cbn [feed].
    change (p_append designator_uniq) with du_append. destruct (A s i I) as [A1 [A2 _]]. destruct (du_append s i) as [s1 o1]. cbn [fst snd] in *.
    destruct (IH s1 A1) as [B1 B2]. destruct (feed designator_uniq s1 l) as [s2 o2]. cbn [fst snd] in *.
    split; [exact B1|]. change (i :: l) with ([i] ++ l). rewrite (titleless_app o1), (titleless_app [i]), <- app_assoc, B2, !app_assoc, A2. reflexivity. }
  unfold run_pass. rewrite feed_app. destruct (F l' (p_init designator_uniq) Logic.I) as [I1 E1].
  destruct (feed designator_uniq (p_init designator_uniq) l') as [s o]. cbn [fst snd] in *.
  cbn [feed]. change (p_append designator_uniq) with du_append. destruct (A s i I1) as [_ [E2 E3]].
  destruct (du_append s i) as [s2 o2]. cbn [fst snd] in *. rewrite E3 in E2 by (unfold ikd; intros Q; destruct (ic i); discriminate).
  cbn [app]. rewrite !titleless_app. change (titleless (p_close designator_uniq s2)) with (@nil item). rewrite !app_nil_r.
  change (titleless []) with (@nil item) in E2. rewrite app_nil_r in E2. rewrite E2, app_assoc, E1. reflexivity.
Qed.

Lemma titleless_ends l : ends l -> ends (titleless l).
Proof.
  intros [l' [i [-> [K D]]]]. exists (titleless l'), i. rewrite titleless_app, title_no; auto.
  unfold title_item. destruct (ic i); auto; discriminate K.
Qed.

Lemma titleless_noz l : noz (map cv (titleless l)).
Proof.
  unfold noz. rewrite Forall_map. apply Forall_forall. intros i I. apply filter_In in I. destruct I as [_ T].
  cbn [cv fst]. intros Q. unfold title_item in T. rewrite Q in T. discriminate T.
Qed.

Lemma optimize_title db l : ends l -> titleless (optimize db l) = optimize db (titleless l).
Proof.
  intros E. rewrite (optimize_pages db _ (titleless_noz _) (titleless_ends _ E)).
  rewrite optimize_all. cbn [passes map snd run_all fold_left].
  change (titleless (run_pass (usage_page_pass db) (before_pages db (run_pass designator_uniq l))) =
          run_pass (usage_page_pass db) (before_pages db (titleless l))).
  rewrite up_title, before_title, du_title by exact E. reflexivity.
Qed.

(* ------------------------------------------------------------------ *)
(** what a host reads without strings and designators *)

Definition bare_locals (x : locals) : locals := Locals (lo_us x) l_empty l_empty (lo_dl x).

Lemma none_map {A} (f : nat -> option A) (l : list nat) : map (fun _ => @None A) (map f l) = map (fun _ => None) l.
Proof. apply map_map. Qed.

Lemma repeat_map {A B} (f : A -> B) x n : map f (repeat x n) = repeat (f x) n.
Proof. induction n as [|n IH]; [reflexivity|]. cbn [repeat map]. rewrite IH. reflexivity. Qed.

Lemma full_bare m g x c v : full_obs m g (bare_locals x) c v = map untitled (full_obs m g x c v).
Proof.
  destruct x as [us ds ss dl]. unfold full_obs, bare_locals. cbn [lo_us lo_ds lo_ss lo_dl].
  destruct c; try reflexivity; unfold data_events; cbn [lo_us lo_ds lo_ss lo_dl];
    (destruct (is_constant v); [rewrite repeat_map; reflexivity|]);
    (destruct (is_variable v); [rewrite map_map; reflexivity|]);
    rewrite repeat_map; cbn [untitled]; rewrite !none_map; reflexivity.
Qed.

Lemma bare_set c v e p x : title_tag c = false -> bare_locals (lo_set c v e p x) = lo_set c v e p (bare_locals x).
Proof. intros T. destruct x as [us ds ss dl]. destruct c; try discriminate T; reflexivity. Qed.

Lemma bare_title c v e p x : title_tag c = true -> bare_locals (lo_set c v e p x) = bare_locals x.
Proof. intros T. destruct x as [us ds ss dl]. destruct c; try discriminate T; reflexivity. Qed.

Section Bare.
  Context {A B : Type} (f : A -> B) (obs : gtab -> locals -> icls -> Z -> list A) (obs' : gtab -> locals -> icls -> Z -> list B).
  Hypothesis OB : forall g x c v, obs' g (bare_locals x) c v = map f (obs g x c v).

  Lemma bare_run l : forall g st x, snd (h_run obs' (H g st (bare_locals x)) (no_titles l)) = map f (snd (h_run obs (H g st x) l)).
  Proof.
    induction l as [|[c v e] l IH]; intros g st x; [reflexivity|].
    unfold no_titles in *. cbn [filter w_cls]. cbn [h_run]. unfold h_step at 1. cbn [w_cls w_val w_ext h_g h_stack h_l].
    destruct (title_tag c) eqn:T; cbn [negb].
    - assert (K : hid_kind c = KLocal) by (destruct c; try discriminate T; reflexivity). rewrite K.
      rewrite <- (bare_title c v e (g_page g) x T). rewrite IH. destruct (h_run obs _ l) as [s2 o2]. reflexivity.
    - cbn [h_run]. unfold h_step at 1. cbn [w_cls w_val w_ext h_g h_stack h_l].
      destruct (hid_kind c) eqn:K.
      + change lo_init with (bare_locals lo_init) at 1. specialize (IH g st lo_init).
        destruct (h_run obs' _ _) as [s1 o1], (h_run obs (H g st lo_init) l) as [s2 o2]. cbn [snd] in *.
        rewrite OB, map_app, IH. reflexivity.
      + destruct c; try discriminate K;
        try (match goal with |- context [h_run obs (H ?g2 ?st2 x) l] => specialize (IH g2 st2 x);
               destruct (h_run obs' _ _) as [s1 o1], (h_run obs (H g2 st2 x) l) as [s2 o2]; exact IH end).
        destruct st as [|g2 st]; cbn [fst snd].
        * specialize (IH g [] x). destruct (h_run obs' _ _) as [s1 o1], (h_run obs (H g [] x) l) as [s2 o2]; exact IH.
        * specialize (IH g2 st x). destruct (h_run obs' _ _) as [s1 o1], (h_run obs (H g2 st x) l) as [s2 o2]; exact IH.
      + rewrite <- (bare_set c v e (g_page g) x T). specialize (IH g st (lo_set c v e (g_page g) x)).
        destruct (h_run obs' _ _) as [s1 o1], (h_run obs _ l) as [s2 o2]. exact IH.
  Qed.
End Bare.

Lemma view_titles m l : host_view m (no_titles l) = map untitled (host_view m l).
Proof. apply (bare_run untitled (full_obs m) (full_obs m) (full_bare m) l g_init [] lo_init). Qed.

Lemma wire_titles l : no_titles (map wire l) = map wire (titleless l).
Proof.
  induction l as [|i l IH]; auto. unfold no_titles, titleless in *. cbn [map filter].
  change (w_cls (wire i)) with (ic i). unfold title_item at 1. destruct (title_tag (ic i)); cbn [negb map]; rewrite IH; reflexivity.
Qed.

Lemma seen_titles m l : seen m (titleless l) = map untitled (seen m l).
Proof. unfold seen. rewrite <- wire_titles. apply view_titles. Qed.

(* ------------------------------------------------------------------ *)
(** conditions on the items without titles *)

Lemma titleless_forall (Q : item -> Prop) l : Forall Q l -> Forall Q (titleless l).
Proof. intros F. apply Forall_forall. intros i I. apply filter_In in I. rewrite Forall_forall in F. apply F, I. Qed.

Definition no_title_items (l : list spec_item) : list spec_item := filter (fun x => negb (title_tag (fst x))) l.

Lemma cv_titles l : map cv (titleless l) = no_title_items (map cv l).
Proof.
  induction l as [|i l IH]; auto. unfold no_title_items, titleless in *. cbn [map filter].
  change (fst (cv i)) with (ic i). unfold title_item at 1. destruct (title_tag (ic i)); cbn [negb map]; rewrite IH; reflexivity.
Qed.

Lemma what_titles ws : map w_what (no_titles ws) = no_title_items (map w_what ws).
Proof.
  induction ws as [|w l IH]; auto. unfold no_title_items, no_titles in *. cbn [map filter].
  change (fst (w_what w)) with (w_cls w). destruct (title_tag (w_cls w)); cbn [negb map]; rewrite IH; reflexivity.
Qed.

Lemma unpaged_titles ws : unpaged (no_titles ws) = no_titles (unpaged ws).
Proof.
  induction ws as [|w l IH]; auto. unfold unpaged, no_titles in *. cbn [filter].
  destruct (title_tag (w_cls w)) eqn:T, (negb (icls_eqb (w_cls w) UsagePage)) eqn:P; cbn [negb filter]; rewrite ?T, ?P; cbn [negb]; rewrite ?IH; reflexivity.
Qed.

Lemma last_titles c l : title_tag c = false -> last_of c (no_title_items l) = last_of c l.
Proof.
  intros T. induction l as [|x l IH]; auto. unfold no_title_items in *. cbn [filter last_of].
  destruct (title_tag (fst x)) eqn:TX; cbn [negb last_of]; rewrite IH; auto.
  destruct (last_of c l); auto. destruct (icls_eqb (fst x) c) eqn:E; auto. apply icls_eqb_eq in E. congruence.
Qed.

Lemma chunks_titles l : chunks (no_title_items l) = map no_title_items (chunks l).
Proof.
  induction l as [|x l IH]; auto. unfold no_title_items in *. cbn [filter chunks].
  destruct (title_tag (fst x)) eqn:T; cbn [negb].
  - assert (M : main_tag (fst x) = false) by (destruct (fst x); try discriminate T; reflexivity). rewrite M, IH.
    destruct (chunks l) as [|c cs] eqn:C; [destruct l as [|y l]; [discriminate C|]; cbn [chunks] in C; destruct (main_tag (fst y)); [discriminate C|destruct (chunks l); discriminate C]|].
    cbn [map filter]. rewrite T. reflexivity.
  - cbn [chunks]. destruct (main_tag (fst x)); [cbn [map filter]; rewrite IH; reflexivity|].
    rewrite IH. destruct (chunks l) as [|c cs]; cbn [map filter]; rewrite ?T; reflexivity.
Qed.

Lemma orderly_titles l : Forall (fun x => fst x <> Delimiter) l -> (no_physical l \/ Forall own_physical (chunks l)) ->
  orderly (no_title_items l).
Proof.
  intros D P. split.
  - apply Forall_forall. intros x I. apply filter_In in I. destruct I as [I T]. rewrite Forall_forall in D. split; [apply D, I|].
    intros Q. rewrite Q in T. discriminate T.
  - destruct P as [P|P]; [left|right].
    + apply Forall_forall. intros x I. apply filter_In in I. unfold no_physical in P. rewrite Forall_forall in P. apply P, I.
    + rewrite chunks_titles, Forall_map. eapply Forall_impl; [|exact P]. intros c [N|[p [q [a [b [[A1 [A2 [A3 A4]]] NE]]]]]].
      * left. apply Forall_forall. intros x I. apply filter_In in I. rewrite Forall_forall in N. apply N, I.
      * right. exists p, q, a, b. split; [|exact NE]. unfold all_bounds. rewrite !last_titles by reflexivity. auto.
Qed.

(* ------------------------------------------------------------------ *)
(** C41 *)

Lemma c41_titles db b ws out :
  blob_means b ws -> Forall number_allowed ws -> orderly (map w_what (no_titles ws)) -> unstacked (map w_what ws) ->
  closed_stream (map w_what ws) -> joins (uniform AtDecl) (main_states (unpaged (no_titles ws))) ->
  convert_opt db b = Ok out ->
  exists ws', blob_means out ws' /\ map untitled (host_view AtDecl ws') = map untitled (host_view AtDecl (unpaged ws)).
Proof.
  intros B N RG US CL J H. destruct (parse_good db 0 b ws B (proj1 (allowed_forall ws) N)) as [l [PA [M C]]].
  unfold convert_opt in H. rewrite blob_parse_from, PA in H. cbn [finished appended bind] in H.
  change (map wcv ws) with (map w_what ws) in M. symmetry in M.
  exists (map wire (optimize db l)). split; [apply serialize_means; exact H|].
  assert (EN : ends l).
  { rewrite M in CL. destruct CL as [l' [x [E [M1 M2]]]].
    destruct (exists_last (l := l)) as [l0 [i ->]]; [intros ->; destruct l'; discriminate|].
    rewrite map_app in E. cbn [map] in E. apply app_inj_tail in E. destruct E as [_ <-].
    exists l0, i. split; auto. destruct i as [c v]. cbn [cv fst ic] in *. destruct c; try discriminate M1; try discriminate M2; split; reflexivity. }
  assert (F1 : map w_what (no_titles ws) = map cv (titleless l)) by (rewrite what_titles, cv_titles, M; reflexivity).
  rewrite <- (view_titles AtDecl (unpaged ws)), <- unpaged_titles.
  change (host_view AtDecl (map wire (optimize db l))) with (seen AtDecl (optimize db l)).
  rewrite <- seen_titles, optimize_title by exact EN. rewrite F1 in RG.
  apply (pages_always db (titleless l) (no_titles ws) F1); auto.
  - apply titleless_forall, C.
  - apply titleless_forall. unfold unstacked in US. rewrite M, Forall_map in US. exact US.
  - apply titleless_ends, EN.
Qed.

(* ------------------------------------------------------------------ *)
(** C40 *)

Definition bare_value (v : value) : value :=
  match v with
  | Value k way us sz fl l0 l1 p0 p1 nm un ux _ _ ct al => Value k way us sz fl l0 l1 p0 p1 nm un ux 0 0 ct al
  end.
Definition bare_leaf (x : leaf) : leaf := match x with LVal r v => LVal r (bare_value v) | _ => x end.

Lemma bare_made v : made v -> made (bare_value v).
Proof.
  intros [k [a E]]. exists k. destruct a as [way us sz fl l0 l1 p0 p1 nm un ux de st ct al].
  exists (VArgs way us sz fl l0 l1 p0 p1 nm un ux 0 0 ct al). unfold mk_value in *.
  cbn [a_way a_usage a_size a_flags a_lmin a_lmax a_pmin a_pmax a_named a_unit a_uexp a_desig a_str a_count a_align] in *.
  destruct (narr_truthy nm) as [named|]; [|discriminate E]. cbn [bind] in *.
  destruct (_ && negb named && _); [discriminate E|]. destruct (zero_or_none p0 && zero_or_none p1);
  (destruct nm as [arr|]; [|injection E as <-; reflexivity]);
  (destruct named; [|injection E as <-; reflexivity]);
  (destruct (narr_len arr) as [n|]; [|discriminate E]); cbn [bind] in *;
  (destruct l0 as [lm|]; [|discriminate E]); injection E as <-; reflexivity.
Qed.

Ltac bare v := destruct v as [k way us sz fl l0 l1 p0 p1 nm un ux de st ct al]; cbn [bare_value] in *;
  unfold is_array, boxed, field_usages, data_value, value_attrs, val_mid, val_end, phys_items, way_of in *;
  cbn [v_kind v_way v_usage v_size v_flags v_lmin v_lmax v_pmin v_pmax v_named v_unit v_uexp v_desig v_str v_count v_align] in *.

Lemma titles_app a b : no_title_items (a ++ b) = no_title_items a ++ no_title_items b.
Proof. apply filter_app. Qed.

Lemma titles_none l : Forall (fun x => title_tag (fst x) = false) l -> no_title_items l = l.
Proof. induction 1 as [|x l T F IH]; auto. unfold no_title_items in *. cbn [filter]. rewrite T, IH. reflexivity. Qed.

Lemma titles_map (c : icls) l : title_tag c = false -> no_title_items (map (fun z : Z => (c, z)) l) = map (fun z => (c, z)) l.
Proof. intros T. apply titles_none. apply Forall_map, Forall_forall. intros; exact T. Qed.

Lemma titles_mid v : no_title_items (val_mid v) = val_mid (bare_value v).
Proof.
  bare v. rewrite !titles_app. cbn [map idx Z.eqb]. rewrite app_nil_r. cbn [no_title_items filter fst title_tag negb].
  unfold idx. destruct (de =? 0), (st =? 0); reflexivity.
Qed.

Lemma titles_val v : data_cls (way_of v) -> no_title_items (val_items v) = val_items (bare_value v).
Proof.
  intros D.
  assert (TW : title_tag (way_of v) = false) by (destruct D as [->|[->| ->]]; reflexivity).
  assert (TE : no_title_items (val_end v (way_of v)) = val_end (bare_value v) (way_of (bare_value v))).
  { bare v. apply titles_none. repeat constructor. exact TW. }
  assert (TP : no_title_items (phys_items v) = phys_items (bare_value v)).
  { replace (phys_items (bare_value v)) with (phys_items v) by (destruct v; reflexivity). apply titles_none.
    unfold phys_items. destruct (is_array v); [|destruct (_ && _)]; repeat constructor. }
  unfold val_items.
  replace (v_kind (bare_value v)) with (v_kind v) by (destruct v; reflexivity).
  replace (v_flags (bare_value v)) with (v_flags v) by (destruct v; reflexivity).
  replace (v_usage (bare_value v)) with (v_usage v) by (destruct v; reflexivity).
  replace (is_array (bare_value v)) with (is_array v) by (destruct v; reflexivity).
  replace (v_named (bare_value v)) with (v_named v) by (destruct v; reflexivity).
  destruct (v_kind v); try reflexivity. destruct (is_constant _); [exact TE|].
  rewrite !titles_app, TE, titles_mid. f_equal; [apply titles_map; reflexivity|].
  f_equal.
  - destruct (is_array v); [|exact TP]. rewrite !titles_app, TP. f_equal. f_equal; [|apply titles_map; reflexivity].
    apply titles_none, Forall_map, Forall_forall. intros; reflexivity.
  - f_equal. f_equal. destruct (is_array v); [|reflexivity]. apply titles_none, Forall_map, Forall_forall. intros; reflexivity.
Qed.

Lemma bare_piece r x o : piece r x o -> piece r (bare_leaf x) (no_title_items o).
Proof.
  intros [r' k u|r'|r' v p M D]; cbn [bare_leaf].
  - apply pc_open.
  - apply pc_close.
  - rewrite titles_app.
    assert (WO : way_of (bare_value v) = way_of v) by (destruct v; reflexivity).
    assert (KO : v_kind (bare_value v) = v_kind v) by (destruct v; reflexivity).
    replace (no_title_items (pad_items (way_of v) p)) with (pad_items (way_of (bare_value v)) p).
    + replace (no_title_items (val_items v)) with (val_items (bare_value v)).
      * apply pc_val; [apply bare_made, M|]. rewrite WO, KO. exact D.
      * destruct (v_kind v) eqn:K; [symmetry; apply titles_val; apply D; right; reflexivity| |]; unfold val_items; rewrite KO, K; reflexivity.
    + rewrite WO. unfold pad_items. destruct (p =? 0) eqn:P; [reflexivity|]. symmetry. apply titles_none.
      repeat constructor. cbn [fst]. destruct D as [->|[->| ->]]; [left; lia|..]; reflexivity.
Qed.

Lemma bare_pieces r ls o r' : pieces r ls o r' -> pieces r (map bare_leaf ls) (no_title_items o) r'.
Proof.
  intros P. induction P as [r|r id ls o r' P IH|r x ls o o' r' Q P IH].
  - constructor.
  - apply ps_rid. exact IH.
  - rewrite titles_app. cbn [map]. apply ps_leaf; [apply bare_piece, Q|exact IH].
Qed.

Lemma bare_inv ls r w l1 l2 : map bare_leaf ls = l1 ++ LVal r w :: l2 ->
  exists k1 v k2, ls = k1 ++ LVal r v :: k2 /\ bare_value v = w /\ map bare_leaf k1 = l1 /\ map bare_leaf k2 = l2.
Proof.
  intros E. apply map_eq_app in E. destruct E as [k1 [k2 [-> [E1 E2]]]].
  destruct k2 as [|x k2]; [discriminate E2|]. cbn [map] in E2. injection E2 as E2 E3.
  destruct x as [k u| |r' v]; try discriminate E2. cbn [bare_leaf] in E2. injection E2 as -> E2.
  exists k1, v, k2. auto.
Qed.

Lemma bare_neighbours ls w1 w2 : neighbours (map bare_leaf ls) w1 w2 ->
  exists v1 v2, neighbours ls v1 v2 /\ bare_value v1 = w1 /\ bare_value v2 = w2.
Proof.
  intros [l1 [r [mid [l2 [E [PM [D1 [D2 [B1 [B2 [A C]]]]]]]]]]].
  destruct (bare_inv _ _ _ _ _ E) as [k1 [v1 [k2 [-> [<- [E1 E2]]]]]].
  destruct (bare_inv _ _ _ _ _ E2) as [k3 [v2 [k4 [-> [<- [E3 E4]]]]]].
  exists v1, v2. split; [|auto]. exists k1, r, k3, k4. split; [reflexivity|].
  split. { rewrite <- E3 in PM. rewrite forallb_forall in *. intros x I. specialize (PM (bare_leaf x) (in_map _ _ _ I)).
    destruct x as [| |r0 v]; try exact PM. cbn [bare_leaf plain_leaf] in *. destruct v; exact PM. }
  clear - D1 D2 B1 B2 A C. destruct v1, v2. repeat split; assumption.
Qed.

Lemma bare_uniform ls : uniform_usages ls -> uniform_leaves (map bare_leaf ls).
Proof.
  intros U w1 w2 NB. destruct (bare_neighbours _ _ _ NB) as [v1 [v2 [NB' [<- <-]]]]. pose proof (U _ _ NB') as N.
  clear - N. unfold even_usages, even_values in *. destruct v1, v2.
  destruct (is_variable _).
  - split; [exact N|]. split; right; split; reflexivity.
  - split; [exact N|]. split; reflexivity.
Qed.

Lemma bare_pages ls : same_pages ls -> same_pages (map bare_leaf ls).
Proof.
  intros [S1 S2]. split.
  - intros w I D. assert (V : exists v, In v (leaf_values ls) /\ bare_value v = w).
    { unfold leaf_values in *. apply in_flat_map in I. destruct I as [x [I J]]. apply in_map_iff in I. destruct I as [y [<- I]].
      destruct y as [| |r v]; try (destruct J; fail). cbn [bare_leaf] in J. destruct J as [<-|[]].
      exists v. split; auto. apply in_flat_map. exists (LVal r v). split; [exact I|left; reflexivity]. }
    destruct V as [v [J <-]]. specialize (S1 v J). destruct v. apply S1. exact D.
  - intros w1 w2 NB. destruct (bare_neighbours _ _ _ NB) as [v1 [v2 [NB' [<- <-]]]]. pose proof (S2 _ _ NB') as N.
    destruct v1, v2. exact N.
Qed.

Lemma bare_conditions db t l : well_formed t -> closed_tree t -> stream_items db t = Ok l -> scaling_ok (fst (threaded 0 t)) ->
  Forall constructed (titleless l) /\ push_free (titleless l) /\ ends (titleless l) /\ orderly (map cv (titleless l)) /\
  bare_usages (map cv (titleless l)) /\ ends l /\
  pieces 0 (map bare_leaf (fst (threaded 0 t))) (map cv (titleless l)) (snd (threaded 0 t)).
Proof.
  intros WF CL E SC. destruct (tree_orderly db t l WF CL E SC) as [C [PF [EN [RG [BU P]]]]].
  split; [apply titleless_forall, C|]. split; [apply titleless_forall, PF|]. split; [apply titleless_ends, EN|].
  split. { rewrite cv_titles. destruct RG as [D PH]. apply orderly_titles; [|exact PH]. eapply Forall_impl; [|exact D]. cbn. tauto. }
  split. { rewrite cv_titles. apply Forall_forall. intros x I. apply filter_In in I. unfold bare_usages in BU. rewrite Forall_forall in BU. apply BU, I. }
  split; [exact EN|]. rewrite cv_titles. apply bare_pieces, P.
Qed.

Lemma c40_fields db t b : well_formed t -> closed_tree t -> scaling_ok (fst (threaded 0 t)) -> uniform_usages (fst (threaded 0 t)) ->
  compile db true t = Ok b ->
  exists ev ev0, reads_bound AtDecl b ev /\ follows any_gap [] (fst (threaded 0 t)) ev0 /\ map untitled ev = map untitled ev0.
Proof.
  intros WF CL SC UN H. unfold compile in H.
  destruct (stream_items db t) as [l|] eqn:E; [|discriminate]. cbn [bind] in H.
  destruct (stream_seen db t l WF E) as [ev [SE F]]. exists (seen AtDecl (optimize db l)), ev.
  split; [apply serialized_reads; exact H|]. split; [exact F|].
  rewrite <- (SE AtDecl). destruct (bare_conditions db t l WF CL E SC) as [C [PF [EN [RG [BU [E0 P]]]]]].
  rewrite <- !seen_titles, optimize_title by exact E0. apply c40_any; auto. apply (proj1 (tree_joins _ _ _ P (bare_uniform _ UN))).
Qed.

Lemma c42_fields db t b : well_formed t -> closed_tree t -> scaling_ok (fst (threaded 0 t)) -> uniform_usages (fst (threaded 0 t)) ->
  same_pages (fst (threaded 0 t)) -> compile db true t = Ok b ->
  exists ev0, follows any_gap [] (fst (threaded 0 t)) ev0 /\
    forall m, exists ev, reads_bound m b ev /\ map untitled ev = map untitled ev0.
Proof.
  intros WF CL SC UN SP H. unfold compile in H.
  destruct (stream_items db t) as [l|] eqn:E; [|discriminate]. cbn [bind] in H.
  destruct (stream_seen db t l WF E) as [ev [SE F]]. exists ev. split; [exact F|]. intros m. exists (seen m (optimize db l)).
  split; [apply serialized_reads; exact H|].
  rewrite <- (SE AtDecl). destruct (bare_conditions db t l WF CL E SC) as [C [PF [EN [RG [BU [E0 P]]]]]].
  destruct (bare_pages _ SP) as [SP1 SP2].
  rewrite <- !seen_titles, optimize_title by exact E0. apply c42_any; auto.
  - apply (proj2 (tree_joins _ _ _ P (bare_uniform _ UN)) SP2).
  - apply (pieces_pages _ _ _ _ SP1 P).
Qed.
