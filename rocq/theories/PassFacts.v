(* PassFacts.v -- facts that hold of every item a pass writes; C32. *)
From Coq Require Import ZifyBool ZifyNat.
From Verif Require Import Py Usage Item Optimizer HidSpec ItemFacts ParserFacts OptSpec OptFacts MainMergeFacts Skeleton.

Section Each.
  Context (Q : item -> Prop).

  Lemma each_run (p : pass) (I : p_state p -> Prop) :
    I (p_init p) ->
    (forall s i, I s -> Q i -> Forall Q (snd (p_append p s i)) /\ I (fst (p_append p s i))) ->
    (forall s, I s -> Forall Q (p_close p s)) ->
    forall l, Forall Q l -> Forall Q (run_pass p l).
  Proof.
    intros H0 HS HC l F. unfold run_pass.
    assert (X : forall l s, Forall Q l -> I s -> Forall Q (snd (feed p s l)) /\ I (fst (feed p s l))).
    { induction l0 as [|i l0 IH]; intros s F0 IS; [split; [constructor|exact IS]|].
      inversion F0 as [|? ? Q1 F1]; subst. cbn [feed]. destruct (HS s i IS Q1) as [A B].
      destruct (p_append p s i) as [s1 o1]. cbn [fst snd] in *.
      destruct (IH s1 F1 B) as [C D]. destruct (feed p s1 l0) as [s2 o2]. cbn [fst snd] in *.
      split; auto. apply Forall_app; auto. }
    destruct (X l _ F H0) as [A B]. destruct (feed p (p_init p) l) as [s o]. cbn [fst snd] in *.
    apply Forall_app. auto.
  Qed.

  Lemma Forall_filter P l : Forall Q l -> Forall Q (filter P l).
  Proof. intros H. apply Forall_forall. intros x I. apply filter_In in I. rewrite Forall_forall in H. apply H. tauto. Qed.

  Lemma Forall_remove n l : Forall Q l -> Forall Q (remove_nth n l).
  Proof.
    intros H. revert n. induction H as [|x l Hx H IH]; intros [|n]; cbn [remove_nth]; auto.
  Qed.

  Lemma Forall_snoc l i : Forall Q l -> Q i -> Forall Q (l ++ [i]).
  Proof. intros. apply Forall_app. auto. Qed.

  Lemma du_each l : Forall Q l -> Forall Q (run_pass designator_uniq l).
  Proof.
    apply (each_run designator_uniq (fun s => Forall Q (du_pending s))); [constructor| |constructor].
    intros s i F H. change (p_append designator_uniq) with du_append. unfold du_append, ikd.
    pose proof (Forall_snoc _ _ F H) as F2.
    destruct (kind_of (ic i)); cbn [fst snd du_pending].
    1, 2: split; [|constructor]; destruct (du_filter s); auto using Forall_remove.
    destruct (ic i); cbn [fst snd du_pending]; split; auto.
  Qed.

  Lemma pm_each l : Forall Q l -> Forall Q (run_pass physical_merge l).
  Proof.
    apply (each_run physical_merge (fun s => Forall Q (pm_pending s))); [constructor| |auto].
    intros s i F H. change (p_append physical_merge) with pm_append. unfold pm_append, ikd.
    pose proof (Forall_snoc _ _ F H) as F2.
    destruct (kind_of (ic i)); cbn [fst snd pm_pending]; (split; [|auto]); auto.
    apply Forall_snoc; auto. match goal with |- context [if ?b then _ else _] => destruct b end; auto using Forall_filter.
  Qed.

  Lemma gm_each l : Forall Q l -> Forall Q (run_pass global_merge l).
  Proof.
    apply (each_run global_merge (fun s => True)); [constructor| |constructor].
    intros s i _ H. change (p_append global_merge) with gm_append. unfold gm_append, ikd. split; auto.
    destruct (kind_of (ic i)); cbn [snd]; auto.
    match goal with |- context [if ?b then _ else _] => destruct b end; auto.
  Qed.

  Lemma mm_each l :
    (forall n, 0 <= n -> Q (rc_item n)) -> (forall i, Q i -> ic i = ReportCount -> 0 <= ival i) ->
    Forall Q l -> Forall Q (run_pass main_merge l).
  Proof.
    intros R1 R2.
    pose (I := fun s : mm_state => Forall Q (mm_before s) /\ Forall Q (mm_mains s) /\ Forall Q (mm_after s) /\
                        0 <= mm_bcount s /\ 0 <= mm_acount s).
    assert (FL : forall s, I s -> Forall Q (snd (mm_flush s)) /\ I (fst (mm_flush s))).
    { intros s [A [B [C [D E]]]]. unfold mm_flush. cbn [fst snd]. split.
      - apply Forall_app. split; [apply Forall_filter; auto|].
        destruct (mm_mains s) as [|m r]; auto. inversion B; subst. auto.
      - repeat split; cbn [mm_before mm_mains mm_after mm_bcount mm_acount]; auto. lia. }
    apply (each_run main_merge I).
    - repeat split; cbn; auto; lia.
    - change (forall (s : mm_state) i, I s -> Q i -> Forall Q (snd (mm_append s i)) /\ I (fst (mm_append s i))).
      intros s i [A [B [C [D E]]]] H. unfold mm_append, ikd.
      destruct (kind_of (ic i)) eqn:K.
      + destruct (negb (is_data (ic i))).
        * apply FL. repeat split; cbn [mm_before mm_mains mm_after mm_bcount mm_acount]; auto. apply Forall_snoc; auto.
        * assert (S1 : exists s1 o1, match mm_mains s with
            | m :: _ => if item_eqb i m then (s, []) else mm_flush s | [] => (s, []) end = (s1, o1) /\ I s1 /\ Forall Q o1).
          { assert (IS : I s) by (repeat split; auto).
            destruct (mm_mains s); [exists s, []; auto|]. destruct (item_eqb i i0); [exists s, []; auto|].
            destruct (FL s IS) as [X Y]. destruct (mm_flush s) as [s1 o1]. exists s1, o1. auto. }
          destruct S1 as [s1 [o1 [-> [[A1 [B1 [C1 [D1 E1]]]] F1]]]].
          set (s2 := MM _ _ _ _ _ _).
          assert (I2 : I s2).
          { unfold s2. repeat split; cbn [mm_before mm_mains mm_after mm_bcount mm_acount]; auto; try lia.
            - apply Forall_app; auto.
            - apply Forall_snoc; auto. }
          destruct (negb (mm_acount s1 =? 1)); [|cbn [fst snd]; auto].
          destruct (FL s2 I2) as [X Y]. destruct (mm_flush s2) as [s3 o2]. cbn [fst snd] in *.
          split; auto. apply Forall_app; auto.
      + match goal with |- context [if ?b then ?x else ?y] =>
          assert (S1 : Forall Q (snd (if b then x else y)) /\ I (fst (if b then x else y))) end.
        { match goal with |- context [if ?b then _ else _] => destruct b end.
          - apply FL. repeat split; cbn [mm_before mm_mains mm_after mm_bcount mm_acount]; auto. apply Forall_snoc; auto.
          - cbn [fst snd]. split; auto. repeat split; cbn [mm_before mm_mains mm_after mm_bcount mm_acount]; auto.
            apply Forall_snoc; auto. }
        match type of S1 with context [if ?b then ?x else ?y] => destruct (if b then x else y) as [s2 out] end.
        cbn [fst snd] in *. destruct S1 as [S1 [A1 [B1 [C1 [D1 E1]]]]]. split; auto.
        pose proof (R2 i H). destruct (ic i); repeat split; cbn [mm_before mm_mains mm_after mm_bcount mm_acount]; auto.
      + cbn [fst snd]. split; auto.
        repeat split; cbn [mm_before mm_mains mm_after mm_bcount mm_acount]; auto. apply Forall_snoc; auto.
    - intros s [A [B [C _]]]. change (p_close main_merge s) with (mm_close s). unfold mm_close.
      repeat (apply Forall_app; split); auto.
  Qed.

  Lemma rm_each db lk mn mx l :
    (forall i c, Q i -> ic i = lk -> c = lk \/ c = mn \/ c = mx -> Forall Q (rebuild db c (iv i))) ->
    Forall Q l -> Forall Q (run_pass (range_merge db lk mn mx) l).
  Proof.
    intros R.
    pose (from := fun o : option pval => match o with None => True | Some v => exists i, Q i /\ ic i = lk /\ iv i = v end).
    pose (I := fun s => from (rm_min s) /\ from (rm_max s) /\ Forall Q (rm_pending s)).
    assert (FL : forall s, I s -> Forall Q (rm_flush db lk mn mx s)).
    { intros s [A [B C]]. unfold rm_flush.
      destruct (rm_min s) as [a|]; auto. destruct (rm_max s) as [b|]; auto.
      destruct A as [i [A1 [A2 A3]]], B as [j [B1 [B2 B3]]]. subst a b.
      destruct (truthy (iv i) && truthy (iv j) && rm_merging s); auto.
      apply Forall_app. split; [apply Forall_filter; auto|].
      destruct (py_int (iv i) =? py_int (iv j)); [|destruct (1 <? py_int (iv j) - py_int (iv i))];
        try (apply Forall_app; split); apply R; auto. }
    apply (each_run (range_merge db lk mn mx) I).
    - repeat split; cbn; auto.
    - intros s i IS H. change (p_append (range_merge db lk mn mx)) with (rm_append db lk mn mx). unfold rm_append.
      assert (N : I (rm_note lk mn mx s i)).
      { destruct IS as [A [B C]]. unfold rm_note. destruct (rm_merging s && ikind_eqb (ikd i) Local); [|repeat split; auto].
        destruct (icls_eqb (ic i) mn || icls_eqb (ic i) mx); [repeat split; auto|].
        destruct (icls_eqb (ic i) lk) eqn:E; [|repeat split; auto]. apply icls_eqb_eq in E.
        destruct (rm_max s) eqn:MX.
        - destruct (ival i =? py_int p + 1); repeat split; cbn [rm_min rm_max rm_pending]; auto; exists i; auto.
        - repeat split; cbn [rm_min rm_max rm_pending]; auto; exists i; auto. }
      cbv zeta. set (s1 := rm_note lk mn mx s i) in *.
      destruct (ikd i); cbn [fst snd].
      + split; [apply FL; auto|]. repeat split; cbn [rm_min rm_max rm_pending from]; auto.
      + split; auto. destruct N as [A [B C]]. repeat split; cbn [rm_min rm_max rm_pending]; auto. apply Forall_snoc; auto.
      + split; auto. destruct N as [A [B C]]. repeat split; cbn [rm_min rm_max rm_pending]; auto. apply Forall_snoc; auto.
    - intros s IS. apply FL. exact IS.
  Qed.

  Lemma up_each db l :
    (forall i, Q i -> is_usage (ic i) = true -> Forall Q (rebuild db UsagePage (fst (split (lookup db (iv i))))) /\
                                 Forall Q (rebuild db (ic i) (snd (split (lookup db (iv i)))))) ->
    Forall Q l -> Forall Q (run_pass (usage_page_pass db) l).
  Proof.
    intros R. apply (each_run (usage_page_pass db) (fun _ => True)); [exact I| |constructor].
    intros s i _ H. split; auto. change (p_append (usage_page_pass db)) with (up_append db). unfold up_append.
    destruct (is_usage (ic i)) eqn:U; cbn [snd]; auto.
    destruct (R i H U) as [R1 R2].
    destruct (split (lookup db (iv i))) as [sp su]. cbn [fst snd] in *.
    apply Forall_app. split; auto. match goal with |- context [if ?b then _ else _] => destruct b end; auto.
  Qed.
End Each.

(* ------------------------------------------------------------------ *)
(** items made by the constructors *)

Lemma rebuild_built db c v : Forall constructed (rebuild db c v).
Proof.
  unfold rebuild. destruct (mk_item db c (Some v)) as [i|] eqn:E; constructor; auto.
  eapply mk_item_constructed. exact E.
Qed.

Lemma rc_built n : 0 <= n -> constructed (rc_item n).
Proof.
  intros H. exists empty_db, (Some (VInt n)). unfold rc_item. cbn [ic mk_item]. unfold item_init.
  destruct n as [|p|p]; try reflexivity. lia.
Qed.

Lemma rc_nonneg i : constructed i -> ic i = ReportCount -> 0 <= ival i.
Proof. intros C E. destruct (constructed_facts i C) as [[S|S] _]; auto. rewrite E in S. discriminate. Qed.

Definition optimiser_pass (db : udb) (p : pass) : Prop := In p (map snd (passes db)).

Lemma each_pass (Q : item -> Prop) db :
  (forall n, 0 <= n -> Q (rc_item n)) -> (forall i, Q i -> ic i = ReportCount -> 0 <= ival i) ->
  (forall c v, kind_of c = Local \/ c = UsagePage -> Forall Q (rebuild db c v)) ->
  Forall (fun p => forall l, Forall Q l -> Forall Q (run_pass p l)) (map snd (passes db)).
Proof.
  intros R1 R2 R3. cbn [passes map snd]. repeat apply Forall_cons; [..|apply Forall_nil]; intros l H.
  - apply du_each; auto.
  - apply mm_each; auto.
  - apply pm_each; auto.
  - apply gm_each; auto.
  - apply rm_each; auto. intros i c _ _ [-> | [-> | ->]]; apply R3; left; reflexivity.
  - apply rm_each; auto. intros i c _ _ [-> | [-> | ->]]; apply R3; left; reflexivity.
  - apply rm_each; auto. intros i c _ _ [-> | [-> | ->]]; apply R3; left; reflexivity.
  - apply up_each; auto. intros i _ U. split; apply R3; auto. left. destruct (ic i); try discriminate; reflexivity.
Qed.

Lemma built_pass db : Forall (fun p => forall l, Forall constructed l -> Forall constructed (run_pass p l)) (map snd (passes db)).
Proof. apply each_pass; auto using rc_built, rc_nonneg, rebuild_built. Qed.

Definition good (i : item) : Prop := constructed i /\ ic i <> Push /\ ic i <> Pop.

Lemma good_pass db : Forall (fun p => forall l, Forall good l -> Forall good (run_pass p l)) (map snd (passes db)).
Proof.
  apply each_pass.
  - intros n H. split; [apply rc_built; auto|]. split; discriminate.
  - intros i [H _]. apply rc_nonneg; auto.
  - intros c v H. pose proof (rebuild_built db c v) as B. pose proof (rebuild_class db c v) as C.
    apply Forall_forall. intros i I. rewrite Forall_forall in B, C. split; [apply B; auto|].
    rewrite (C i I). destruct H as [H | ->]; [|split; discriminate]. split; intros E; subst c; discriminate.
Qed.

Lemma good_split l : Forall good l <-> Forall constructed l /\ push_free l.
Proof.
  unfold push_free. split.
  - intros H. split; (eapply Forall_impl; [|exact H]); intros i G; apply G.
  - intros [A B]. apply Forall_forall. intros i I. rewrite Forall_forall in A, B. split; [apply A|apply B]; auto.
Qed.

(** streams that end with a Collection or EndCollection *)
Definition ends (l : list item) : Prop :=
  exists l' i, l = l' ++ [i] /\ kind_of (ic i) = Main /\ is_data (ic i) = false.

Lemma remove_nth_app {A} n (l : list A) i : (n < length l)%nat -> remove_nth n (l ++ [i]) = remove_nth n l ++ [i].
Proof.
  revert n. induction l as [|x l IH]; intros [|n] H; cbn [length] in H; try lia; auto.
  cbn [app remove_nth]. rewrite IH by lia. reflexivity.
Qed.

Lemma du_ends l : ends l -> ends (run_pass designator_uniq l).
Proof.
  intros [l' [i [-> [K D]]]]. unfold run_pass. rewrite feed_app.
  change (p_init designator_uniq) with (DU [] DNone).
  pose proof (du_feed_wf l') as [_ W].
  destruct (feed designator_uniq (DU [] DNone) l') as [s o]. cbn [fst snd feed] in *.
  change (p_append designator_uniq) with du_append. unfold du_append, ikd. rewrite K. cbn [fst snd].
  change (p_close designator_uniq _) with (@nil item). rewrite !app_nil_r.
  destruct (du_filter s) as [| |n].
  - exists (o ++ du_pending s), i. rewrite app_assoc. auto.
  - exists (o ++ du_pending s), i. rewrite app_assoc. auto.
  - exists (o ++ remove_nth n (du_pending s)), i. destruct W as [j [E _]].
    rewrite remove_nth_app by (apply nth_error_Some; congruence). rewrite app_assoc. auto.
Qed.

Lemma mm_ends l : ends l -> ends (run_pass main_merge l).
Proof.
  intros [l' [i [-> [K D]]]]. unfold run_pass. rewrite feed_app.
  change (p_init main_merge) with mm_init.
  destruct (feed main_merge mm_init l') as [s o]. cbn [fst snd feed].
  change (p_append main_merge) with mm_append. unfold mm_append, ikd. rewrite K, D. cbn [negb fst snd].
  unfold mm_flush. cbn [fst snd mm_after mm_mains].
  change (p_close main_merge ?s) with (mm_close s). unfold mm_close. cbn [mm_before mm_mains mm_after].
  rewrite !app_nil_r. rewrite !app_assoc. eexists _, i. split; [reflexivity|auto].
Qed.

Lemma pm_ends l : ends l -> ends (run_pass physical_merge l).
Proof.
  intros [l' [i [-> [K D]]]]. unfold run_pass. rewrite feed_app.
  destruct (feed physical_merge (p_init physical_merge) l') as [s o]. cbn [fst snd feed].
  change (p_append physical_merge) with pm_append. unfold pm_append, ikd. rewrite K. cbn [fst snd].
  change (p_close physical_merge ?s) with (pm_pending s). cbn [pm_pending]. rewrite !app_nil_r.
  rewrite app_assoc. eexists _, i. split; [reflexivity|auto].
Qed.

Lemma gm_ends l : ends l -> ends (run_pass global_merge l).
Proof.
  intros [l' [i [-> [K D]]]]. unfold run_pass. rewrite feed_app.
  destruct (feed global_merge (p_init global_merge) l') as [s o]. cbn [fst snd feed].
  change (p_append global_merge) with gm_append. unfold gm_append, ikd. rewrite K. cbn [fst snd].
  change (p_close global_merge ?s) with (@nil item). rewrite !app_nil_r.
  exists o, i. auto.
Qed.

(** places of fields, through all passes *)
Definition placed (l l' : list item) : Prop := snd (places g_init l') = snd (places g_init l).

Lemma push_free_app a b : push_free (a ++ b) <-> push_free a /\ push_free b.
Proof. apply Forall_app. Qed.

Lemma each_pass_in db (Q : item -> Prop) p :
  Forall (fun p => forall l, Forall Q l -> Forall Q (run_pass p l)) (map snd (passes db)) ->
  optimiser_pass db p -> forall l, Forall Q l -> Forall Q (run_pass p l).
Proof. intros F I. rewrite Forall_forall in F. apply F. exact I. Qed.

Lemma c32_places db l : Forall good l -> ends l -> placed l (optimize db l) /\ Forall good (optimize db l).
Proof.
  intros G E. rewrite optimize_all. cbn [passes map snd run_all fold_left].
  assert (GP : forall p, optimiser_pass db p -> forall l, Forall good l -> Forall good (run_pass p l)).
  { intros p I. apply (each_pass_in db); auto. apply good_pass. }
  unfold optimiser_pass in GP. cbn [passes map snd In] in GP.
  set (l1 := run_pass designator_uniq l).
  assert (P1 : placed l l1 /\ Forall good l1 /\ ends l1).
  { split; [|split; [apply GP; auto|apply du_ends; auto]].
    unfold placed. apply places_keep. apply du_keep. intros c H; destruct c; try discriminate; reflexivity. }
  destruct P1 as [P1 [G1 E1]]. set (l2 := run_pass main_merge l1).
  assert (P2 : placed l l2 /\ Forall good l2).
  { split; [|apply GP; auto 10]. unfold placed. rewrite <- P1. unfold l2.
    destruct E1 as [l' [i [-> [K D]]]]. apply good_split in G1. apply mm_places; tauto. }
  destruct P2 as [P2 G2]. set (l3 := run_pass physical_merge l2).
  assert (P3 : placed l l3 /\ Forall good l3).
  { split; [|apply GP; auto 10]. unfold placed. rewrite <- P2. apply places_keep. apply pm_keep; reflexivity. }
  destruct P3 as [P3 G3]. set (l4 := run_pass global_merge l3).
  assert (P4 : placed l l4 /\ Forall good l4).
  { split; [|apply GP; auto 10]. unfold placed. rewrite <- P3. unfold places. cbn [snd].
    f_equal. apply gm_view. apply good_split in G3. tauto. }
  destruct P4 as [P4 G4].
  assert (STEP : forall p l', optimiser_pass db p -> (forall l, sel layout_tag (run_pass p l) = sel layout_tag l) ->
     placed l l' /\ Forall good l' -> placed l (run_pass p l') /\ Forall good (run_pass p l')).
  { intros p l' I KP [A B]. split; [|apply GP; auto]. unfold placed. rewrite <- A. apply places_keep. apply KP. }
  unfold optimiser_pass in STEP. cbn [passes map snd In] in STEP.
  apply STEP; [auto 10|intros; apply up_keep; reflexivity|].
  apply STEP; [auto 10|intros; apply rm_keep; reflexivity|].
  apply STEP; [auto 10|intros; apply rm_keep; reflexivity|].
  apply STEP; [auto 10|intros; apply rm_keep; reflexivity|]. auto.
Qed.

Lemma c32 db m l : Forall constructed l -> push_free l -> ends l ->
  map place_of (seen m (optimize db l)) = map place_of (seen m l).
Proof.
  intros C P E. destruct (c32_places db l) as [A B]; auto. { apply good_split; auto. }
  apply good_split in B. rewrite !places_seen by tauto. exact A.
Qed.

(** concrete streams for the examples: the items built from numbers *)
Definition items (l : list (icls * Z)) : list item :=
  flat_map (fun x => match mk_item empty_db (fst x) (Some (VInt (snd x))) with Ok i => [i] | Err _ => [] end) l.

Lemma items_built l : Forall constructed (items l).
Proof.
  induction l as [|[c v] l IH]; [constructor|]. cbn [items flat_map fst snd]. apply Forall_app. split; auto.
  destruct (mk_item empty_db c (Some (VInt v))) eqn:E; constructor; auto. eapply mk_item_constructed; eauto.
Qed.

Lemma bits_places way rid l1 l2 : map place_of l1 = map place_of l2 -> report_bits way rid l1 = report_bits way rid l2.
Proof.
  intros E. unfold report_bits, layout.
  assert (F : forall l, flat_map (fun e => match event_bits e with Some x => [x] | None => [] end) l =
    flat_map (fun p => match p with PField w r s => [(w, r, s)] | _ => [] end) (map place_of l)).
  { induction l as [|e l IH]; auto. cbn [map flat_map]. rewrite IH. destruct e; reflexivity. }
  rewrite !F, E. reflexivity.
Qed.

Lemma c32_bits db m l : Forall constructed l -> push_free l -> ends l ->
  map place_of (seen m (optimize db l)) = map place_of (seen m l) /\
  forall way rid, report_bits way rid (seen m (optimize db l)) = report_bits way rid (seen m l).
Proof.
  intros C P E. pose proof (c32 db m l C P E) as Q. split; auto. intros. apply bits_places; auto.
Qed.
