(* SizeMore.v -- how much the optimiser may add at most (C43_always) *)
From Coq Require Import ZifyBool ZifyNat.
From Verif Require Import Py Usage Item Parser Optimizer Descriptor HidSpec Spec ItemFacts ParserFacts CodecProofs StreamSpec
  StreamProofs StreamTree OptSpec AllSpec TreeSpec OptFacts PassFacts MainMergeFacts Skeleton RangeFacts PageFacts MergeFacts DesigFacts OptAll TreeOpt SizeFacts.
Ltac Zify.zify_post_hook ::= Z.div_mod_to_equations.
Local Open Scope nat_scope.

(** the number of items that name usages *)
Definition uw (i : item) : nat := if is_usage (ic i) then 1 else 0.
Fixpoint uc (l : list item) : nat := match l with [] => 0 | i :: r => uw i + uc r end.

Lemma uc_app a b : uc (a ++ b) = uc a + uc b.
Proof. induction a; cbn [app uc]; lia. Qed.

Lemma uc_filter f l : uc (filter f l) <= uc l.
Proof. induction l as [|i l IH]; cbn [filter uc]; auto. destruct (f i); cbn [uc]; lia. Qed.

(** a pass that does not name more usages than it received *)
Lemma fewer (p : pass) (pot : p_state p -> nat) (I : p_state p -> Prop) (Q : item -> Prop) :
  I (p_init p) -> pot (p_init p) = 0 ->
  (forall s i, I s -> Q i -> I (fst (p_append p s i)) /\ uc (snd (p_append p s i)) + pot (fst (p_append p s i)) <= pot s + uw i) ->
  (forall s, I s -> uc (p_close p s) <= pot s) ->
  forall l, Forall Q l -> uc (run_pass p l) <= uc l.
Proof.
  intros I0 P0 ST CL l F.
  assert (X : forall s, I s -> I (fst (feed p s l)) /\ uc (snd (feed p s l)) + pot (fst (feed p s l)) <= pot s + uc l).
  { induction F as [|i l H F IH]; intros s IS; cbn [feed fst snd uc]; [split; auto; lia|].
    destruct (ST s i IS H) as [I1 W1]. destruct (p_append p s i) as [s1 o1]. cbn [fst snd] in *.
    destruct (IH s1 I1) as [I2 W2]. destruct (feed p s1 l) as [s2 o2]. cbn [fst snd] in *. split; auto. rewrite uc_app. lia. }
  destruct (X (p_init p) I0) as [I1 W1]. unfold run_pass. destruct (feed p (p_init p) l) as [s o]. cbn [fst snd] in *.
  rewrite uc_app. specialize (CL s I1). lia.
Qed.

Lemma pm_fewer l : uc (run_pass physical_merge l) <= uc l.
Proof.
  apply (fewer physical_merge (fun s => uc (pm_pending s)) (fun _ => True) (fun _ => True)); auto.
  - intros s i _ _. split; auto. change (p_append physical_merge) with pm_append. unfold pm_append.
    destruct (ikd i); cbn [fst snd pm_pending uc]; rewrite uc_app; cbn [uc]; try lia.
    match goal with |- context [if ?b then _ else _] => destruct b end; [|lia].
    match goal with |- context [filter ?f ?x] => pose proof (uc_filter f x) end. lia.
  - apply Forall_forall. auto.
Qed.

Lemma gm_fewer l : uc (run_pass global_merge l) <= uc l.
Proof.
  apply (fewer global_merge (fun _ => 0) (fun _ => True) (fun _ => True)); auto.
  - intros s i _ _. split; auto. change (p_append global_merge) with gm_append. unfold gm_append.
    destruct (ikd i); cbn [fst snd uc]; try lia.
    match goal with |- context [if ?b then _ else _] => destruct b end; cbn [uc]; lia.
  - apply Forall_forall. auto.
Qed.

Definition mmu (s : mm_state) : nat := uc (mm_before s) + uc (mm_mains s) + uc (mm_after s).

Lemma mm_flush_uc s : uc (snd (mm_flush s)) + mmu (fst (mm_flush s)) <= mmu s.
Proof.
  unfold mm_flush, mmu. cbn [fst snd mm_before mm_mains mm_after uc]. rewrite uc_app.
  pose proof (uc_filter not_rc (mm_before s)). destruct (mm_mains s) as [|m r]; cbn [uc].
  - lia.
  - assert (Z0 : forall n, uw (rc_item n) = 0) by reflexivity. rewrite Z0. lia.
Qed.

Lemma mm_step_uc s i : uc (snd (mm_append s i)) + mmu (fst (mm_append s i)) <= mmu s + uw i.
Proof.
    unfold mm_append.
    assert (PUSH : forall b a p, mmu (MM (mm_before s) (mm_mains s) (mm_after s ++ [i]) b a p) = mmu s + uw i).
    { intros b a p. unfold mmu. cbn [mm_before mm_mains mm_after]. rewrite uc_app. cbn [uc]. lia. }
    destruct (ikd i).
    + destruct (is_data (ic i)); cbn [negb].
      2:{ match goal with |- context [mm_flush ?z] => pose proof (mm_flush_uc z) as F; destruct (mm_flush z) as [s3 o2] end.
        rewrite PUSH in F. cbn [fst snd] in *. lia. }
        assert (SS : exists s1 o1, match mm_mains s with
            | m :: _ => if item_eqb i m then (s, []) else mm_flush s | [] => (s, []) end = (s1, o1) /\ uc o1 + mmu s1 <= mmu s).
        { pose proof (mm_flush_uc s) as F. destruct (mm_mains s) as [|m r] eqn:MM0; [exists s, []; auto|].
          destruct (item_eqb i m); [exists s, []; auto|]. destruct (mm_flush s) as [s1 o1]. exists s1, o1. auto. }
        destruct SS as [s1 [o1 [-> W1]]]. set (s2 := MM _ _ _ _ _ _).
        assert (W2 : mmu s2 <= mmu s1 + uw i).
        { unfold mmu, s2. cbn [mm_before mm_mains mm_after]. rewrite !uc_app. cbn [uc]. lia. }
        destruct (negb (mm_acount s1 =? 1)%Z); [|cbn [fst snd]; lia].
        pose proof (mm_flush_uc s2) as F2. destruct (mm_flush s2) as [s3 o2]. cbn [fst snd] in *. rewrite uc_app. lia.
    + match goal with |- context [if ?b then ?x else ?y] =>
        assert (S1 : uc (snd (if b then x else y)) + mmu (fst (if b then x else y)) <= mmu s + uw i) end.
      { match goal with |- context [if ?b then _ else _] => destruct b end.
        - match goal with |- context [mm_flush ?z] => pose proof (mm_flush_uc z) as F end. unfold mmu in *.
          cbn [mm_before mm_mains mm_after mm_bcount mm_acount mm_props] in *. rewrite uc_app in F. cbn [uc] in F. lia.
        - cbn [fst snd uc]. rewrite PUSH. lia. }
      match type of S1 with context [if ?b then ?x else ?y] => destruct (if b then x else y) as [s2 out] end.
      cbn [fst snd] in *. destruct (ic i); cbn [fst snd]; exact S1.
    + cbn [fst snd uc]. rewrite PUSH. lia.
Qed.

Lemma mm_fewer l : uc (run_pass main_merge l) <= uc l.
Proof.
  apply (fewer main_merge mmu (fun _ => True) (fun _ => True)); auto.
  - intros s i _ _. split; auto. apply mm_step_uc.
  - intros s _. change (p_close main_merge s) with (mm_close s). unfold mm_close, mmu. rewrite !uc_app.
    pose proof (uc_filter not_rc (mm_before s)). destruct (mm_mains s); cbn [uc] in *; lia.
  - apply Forall_forall. auto.
Qed.

(* ------------------------------------------------------------------ *)
(** ranges *)

Lemma rebuild_uc db lk c i : constructed i -> single lk -> ic i = lk -> fam lk c = true -> uc (rebuild db c (iv i)) = uw i.
Proof.
  intros C S E F. destruct (rebuild_ok db lk c i C S E F) as [j [-> [J1 [J2 J3]]]]. cbn [uc].
  assert (U : uw j = uw i).
  { unfold uw. rewrite J1, E. destruct S as [-> | [-> | ->]]; unfold fam in F; destruct c; try discriminate F; reflexivity. }
  lia.
Qed.

Lemma rm_fewer db lk mn mx l :
  In (lk, mn, mx) [(Usage, UsageMinimum, UsageMaximum); (StringIndex, StringMinimum, StringMaximum); (DesignatorIndex, DesignatorMinimum, DesignatorMaximum)] ->
  Forall constructed l -> uc (run_pass (range_merge db lk mn mx) l) <= uc l.
Proof.
  intros IN.
  assert (S : single lk /\ mn = mn_of lk /\ mx = mx_of lk) by (destruct IN as [I|[I|[I|[]]]]; injection I as <- <- <-; unfold single; auto).
  destruct S as [S [-> ->]]. clear IN.
  set (O := outs_of lk (mn_of lk) (mx_of lk)).
  pose (I := fun s : rm_state => forall b, rm_max s = Some b -> exists ia ib, constructed ia /\ constructed ib /\ ic ia = lk /\ ic ib = lk /\
     rm_min s = Some (iv ia) /\ b = iv ib /\ (ival ia <= ival ib)%Z /\
     uc (filter O (rm_pending s)) + uw ia + (if (ival ia =? ival ib)%Z then 0 else uw ib) <= uc (rm_pending s)).
  assert (FL : forall s, I s -> uc (rm_flush db lk (mn_of lk) (mx_of lk) s) <= uc (rm_pending s)).
  { intros s IS. unfold rm_flush. destruct (rm_min s) as [a|] eqn:MA; [|lia]. destruct (rm_max s) as [b|] eqn:MB; [|lia].
    match goal with |- context [if ?c then _ else _] => destruct c end; [|lia].
    destruct (IS b MB) as [ia [ib [CA [CB [EA [EB [E1 [-> [LE W]]]]]]]]]. rewrite MA in E1. injection E1 as ->.
    change (fun x => negb (icls_eqb (ic x) lk || icls_eqb (ic x) (mn_of lk) || icls_eqb (ic x) (mx_of lk))) with O.
    assert (FA : forall c, fam lk c = true -> uc (rebuild db c (iv ia)) = uw ia) by (intros; apply (rebuild_uc db lk); auto).
    assert (FB : forall c, fam lk c = true -> uc (rebuild db c (iv ib)) = uw ib) by (intros; apply (rebuild_uc db lk); auto).
    assert (F1 : fam lk lk = true) by (unfold fam; rewrite icls_eqb_refl; reflexivity).
    assert (F2 : fam lk (mn_of lk) = true) by (unfold fam; rewrite icls_eqb_refl, orb_true_r; reflexivity).
    assert (F3 : fam lk (mx_of lk) = true) by (unfold fam; rewrite icls_eqb_refl, !orb_true_r; reflexivity).
    change (py_int (iv ia)) with (ival ia). change (py_int (iv ib)) with (ival ib).
    rewrite uc_app. destruct (ival ia =? ival ib)%Z; [rewrite FA by auto; lia|].
    destruct (1 <? ival ib - ival ia)%Z; rewrite uc_app, FA, FB by auto; lia. }
  assert (NOTE : forall s i, I s -> constructed i ->
     let s1 := rm_note lk (mn_of lk) (mx_of lk) s i in rm_pending s1 = rm_pending s /\
     I (RM (rm_merging s1) (rm_min s1) (rm_max s1) (rm_pending s1 ++ [i])) /\ (ikd i = Main -> s1 = s)).
  { intros s i IS CI. cbv zeta. unfold rm_note.
    assert (SAME : I (RM (rm_merging s) (rm_min s) (rm_max s) (rm_pending s ++ [i]))).
    { intros b E. cbn [rm_max] in E. destruct (IS b E) as [ia [ib H]]. exists ia, ib. decompose [and] H. cbn [rm_min rm_pending].
      rewrite filter_app, !uc_app. pose proof (uc_filter O [i]). repeat split; auto; lia. }
    destruct (rm_merging s && ikind_eqb (ikd i) Local) eqn:ML; [|auto].
    assert (NM : ikd i <> Main) by (intros E; rewrite E in ML; destruct (rm_merging s); discriminate).
    destruct (icls_eqb (ic i) (mn_of lk) || icls_eqb (ic i) (mx_of lk)); [split; [reflexivity|]; split; [exact SAME|contradiction]|].
    destruct (icls_eqb (ic i) lk) eqn:EL; [|split; [reflexivity|]; split; [exact SAME|contradiction]].
    apply icls_eqb_eq in EL.
    assert (OI : filter O [i] = []).
    { cbn [filter]. unfold O, outs_of. rewrite EL, icls_eqb_refl. reflexivity. }
    destruct (rm_max s) as [b|] eqn:MX.
    - destruct (ival i =? py_int b + 1)%Z eqn:Q; (split; [reflexivity|]; split; [|contradiction]).
      + intros b' E. cbn [rm_max] in E. injection E as <-. destruct (IS b MX) as [ia [ib [CA [CB [EA [EB [E1 [-> [LE W]]]]]]]]].
        exists ia, i. cbn [rm_min rm_pending]. change (py_int (iv ib)) with (ival ib) in Q.
        rewrite filter_app, !uc_app, OI. cbn [uc]. repeat split; auto; try lia.
        destruct (ival ia =? ival i)%Z, (ival ia =? ival ib)%Z; lia.
      + intros b' E. apply SAME. cbn [rm_max] in *. exact E.
    - split; [reflexivity|]. split; [|contradiction]. intros b' E. cbn [rm_max] in E. injection E as <-.
      exists i, i. cbn [rm_min rm_pending]. rewrite filter_app, !uc_app, OI, Z.eqb_refl. cbn [uc].
      pose proof (uc_filter O (rm_pending s)). repeat split; auto; lia. }
  apply (fewer (range_merge db lk (mn_of lk) (mx_of lk)) (fun s => uc (rm_pending s)) I constructed).
  - intros b E. discriminate.
  - reflexivity.
  - intros s i IS CI. change (p_append (range_merge db lk (mn_of lk) (mx_of lk))) with (rm_append db lk (mn_of lk) (mx_of lk)).
    unfold rm_append. destruct (NOTE s i IS CI) as [N1 [N2 N3]].
    set (s1 := rm_note lk (mn_of lk) (mx_of lk) s i) in *.
    destruct (ikd i) eqn:K; cbn [fst snd rm_pending uc].
    + split; [intros b E; discriminate|]. rewrite N3 by auto. specialize (FL s IS). lia.
    + split; auto. rewrite N1, uc_app. cbn [uc]. lia.
    + split; auto. rewrite N1, uc_app. cbn [uc]. lia.
  - exact FL.
Qed.

(* ------------------------------------------------------------------ *)
(** usage pages: at most two bytes more for each item *)

Definition small_usage (i : item) : Prop := constructed i /\ (usage_tag (ic i) = true -> (ival i < 2 ^ 32)%Z).

Lemma up_growth db l : Forall small_usage l -> wt (run_pass (usage_page_pass db) l) <= wt l + 2 * uc l.
Proof.
  intros F. unfold run_pass. change (p_close (usage_page_pass db)) with (fun _ : option Z => @nil item).
  assert (X : forall s, wt (snd (feed (usage_page_pass db) s l)) <= wt l + 2 * uc l).
  2:{ specialize (X (p_init (usage_page_pass db))). destruct (feed _ _ l) as [s o]. cbn [snd] in X. rewrite app_nil_r. exact X. }
  induction F as [|i l [C T] F IH]; intros s; cbn [feed snd wt uc]; [lia|].
  change (p_append (usage_page_pass db)) with (up_append db).
  assert (W : wt (snd (up_append db s i)) <= isz i + 2 * uw i).
  { unfold uw. destruct (is_usage (ic i)) eqn:U.
    - destruct (up_usage db s i C U) as [pg [u [A1 [A2 [A3 [A4 [_ [_ ->]]]]]]]]. cbn [fst snd].
      rewrite usage_tag_is in T. specialize (T U). rewrite wt_app. cbn [wt].
      assert (NN : (0 <= ival i)%Z).
      { destruct (constructed_facts i C) as [[Q|Q] _]; auto. destruct (ic i); discriminate. }
      assert (K : optional (ic i) = false /\ signed (ic i) = false) by (destruct (ic i); try discriminate U; auto). destruct K as [K1 K2].
      assert (P : wt (if new_page s (ival i / 65536) then [pg] else []) <= isz pg) by (destruct (new_page _ _); cbn [wt]; lia).
      rewrite (isz_unsigned pg) in P by (rewrite A1; reflexivity).
      rewrite (isz_unsigned u), (isz_unsigned i) by (rewrite ?A3; auto). rewrite A2 in P. rewrite A4.
      unfold fitsb in *. change (2 ^ (8 * Z.of_nat 1))%Z with 256%Z in *. change (2 ^ (8 * Z.of_nat 2))%Z with 65536%Z in *. change (2 ^ 32)%Z with 4294967296%Z in *.
      repeat match goal with |- context [if ?b then _ else _] => destruct b eqn:? | H : context [if ?b then _ else _] |- _ => destruct b eqn:? end; lia.
    - unfold up_append. rewrite U. cbn [fst snd wt]. lia. }
  destruct (up_append db s i) as [s1 o1]. specialize (IH s1). destruct (feed (usage_page_pass db) s1 l) as [s2 o2]. cbn [fst snd] in *.
  rewrite wt_app. lia.
Qed.

Lemma small_built l : Forall small_usage l -> Forall constructed l.
Proof. apply Forall_impl. intros i [C _]. exact C. Qed.

Lemma rm_small db lk mn mx l : In (lk, mn, mx) [(Usage, UsageMinimum, UsageMaximum); (StringIndex, StringMinimum, StringMaximum); (DesignatorIndex, DesignatorMinimum, DesignatorMaximum)] ->
  Forall small_usage l -> Forall small_usage (run_pass (range_merge db lk mn mx) l).
Proof.
  intros I. apply rm_each. intros i c [C U] E M.
  assert (S : single lk) by (destruct I as [I|[I|[I|[]]]]; injection I as <- <- <-; unfold single; auto).
  assert (F : fam lk c = true) by (destruct I as [I|[I|[I|[]]]]; injection I as <- <- <-; destruct M as [-> | [-> | ->]]; reflexivity).
  destruct (rebuild_ok db lk c i C S E F) as [j [-> [J1 [J2 J3]]]]. constructor; [|constructor].
  split; [exact J3|]. rewrite J1, J2.
  destruct I as [I|[I|[I|[]]]]; injection I as <- <- <-; rewrite E in *; destruct M as [-> | [-> | ->]];
    cbn [usage_tag] in *; auto; discriminate.
Qed.

Lemma grows_items db l : Forall small_usage l -> noz (map cv l) -> counted false (map cv l) -> wt (optimize db l) <= wt l + 2 * uc l.
Proof.
  intros T N CO. rewrite optimize_all. cbn [passes map snd run_all fold_left].
  destruct (du_prefix l N) as [t E]. set (l0 := run_pass designator_uniq l) in *.
  assert (T0 : Forall small_usage l0) by (rewrite E in T; apply Forall_app in T; tauto).
  assert (C0 : counted false (map cv l0)) by (rewrite E, map_app in CO; eapply counted_app; exact CO).
  assert (W0 : wt l0 <= wt l) by (rewrite E, wt_app; lia).
  assert (V0 : uc l0 <= uc l) by (rewrite E, uc_app; lia).
  pose proof (mm_shrinks l0 (small_built _ T0) C0) as W1. pose proof (mm_fewer l0) as V1.
  assert (T1 : Forall small_usage (run_pass main_merge l0)).
  { apply mm_each; auto.
    - intros n H. split; [apply rc_built; auto|discriminate].
    - intros i [C _]. apply rc_nonneg; auto. }
  set (l1 := run_pass main_merge l0) in *.
  pose proof (pm_shrinks l1) as W2. pose proof (pm_fewer l1) as V2. pose proof (pm_each small_usage l1 T1) as T2. set (l2 := run_pass physical_merge l1) in *.
  pose proof (gm_shrinks l2) as W3. pose proof (gm_fewer l2) as V3. pose proof (gm_each small_usage l2 T2) as T3. set (l3 := run_pass global_merge l2) in *.
  pose proof (rm_shrinks db StringIndex StringMinimum StringMaximum l3 ltac:(cbn [In]; auto) (small_built _ T3)) as W4.
  pose proof (rm_fewer db StringIndex StringMinimum StringMaximum l3 ltac:(cbn [In]; auto) (small_built _ T3)) as V4.
  pose proof (rm_small db StringIndex StringMinimum StringMaximum l3 ltac:(cbn [In]; auto) T3) as T4.
  fold (string_merge db) in *. set (l4 := run_pass (string_merge db) l3) in *.
  pose proof (rm_shrinks db DesignatorIndex DesignatorMinimum DesignatorMaximum l4 ltac:(cbn [In]; auto) (small_built _ T4)) as W5.
  pose proof (rm_fewer db DesignatorIndex DesignatorMinimum DesignatorMaximum l4 ltac:(cbn [In]; auto) (small_built _ T4)) as V5.
  pose proof (rm_small db DesignatorIndex DesignatorMinimum DesignatorMaximum l4 ltac:(cbn [In]; auto) T4) as T5.
  fold (designator_merge db) in *. set (l5 := run_pass (designator_merge db) l4) in *.
  pose proof (rm_shrinks db Usage UsageMinimum UsageMaximum l5 ltac:(cbn [In]; auto) (small_built _ T5)) as W6.
  pose proof (rm_fewer db Usage UsageMinimum UsageMaximum l5 ltac:(cbn [In]; auto) (small_built _ T5)) as V6.
  pose proof (rm_small db Usage UsageMinimum UsageMaximum l5 ltac:(cbn [In]; auto) T5) as T6.
  fold (usage_merge db) in *. set (l6 := run_pass (usage_merge db) l5) in *.
  pose proof (up_growth db l6 T6) as W7. lia.
Qed.

(* ------------------------------------------------------------------ *)
(** trees *)

Fixpoint un (l : list spec_item) : nat := match l with [] => 0 | x :: r => (if is_usage (fst x) then 1 else 0) + un r end.

Lemma uc_un l : uc l = un (map cv l).
Proof. induction l as [|i l IH]; cbn [uc un map]; [reflexivity|]. rewrite IH. reflexivity. Qed.

Lemma un_app a b : un (a ++ b) = un a + un b.
Proof. induction a; cbn [app un]; lia. Qed.

Lemma un_none l : Forall (fun x => is_usage (fst x) = false) l -> un l = 0.
Proof. induction 1 as [|x l H F IH]; cbn [un]; auto. rewrite H, IH. reflexivity. Qed.

Lemma un_us l : un (us_items l) = length l.
Proof. unfold us_items. induction l as [|z l IH]; cbn [map un fst is_usage length]; [reflexivity|]. rewrite IH. reflexivity. Qed.

Lemma un_map (A : Type) (f : A -> spec_item) l : (forall x, is_usage (fst (f x)) = false) -> un (map f l) = 0.
Proof. intros H. apply un_none, Forall_map, Forall_forall. auto. Qed.

Lemma pieces_un r ls o r' : pieces r ls o r' -> un o = length (flat_map leaf_usages ls).
Proof.
  intros P. induction P as [r|r id ls o r' _ IH|r x ls o o' r' P _ IH]; [reflexivity|exact IH|].
  rewrite un_app. cbn [flat_map]. rewrite app_length, IH. f_equal.
  inversion P as [r0 k u|r0|r0 v p M D]; subst; try reflexivity.
  assert (W : is_usage (way_of v) = false).
  { unfold way_of, way_class. destruct (_ =? 8)%Z; [reflexivity|]. destruct (_ =? 9)%Z; reflexivity. }
  rewrite un_app. replace (un (pad_items (way_of v) p)) with 0.
  2:{ unfold pad_items. destruct (p =? 0)%Z; [reflexivity|]. cbn [un fst is_usage]. rewrite W. reflexivity. }
  cbn [Nat.add leaf_usages]. unfold val_items, data_value.
  assert (EN : un (val_end v (way_of v)) = 0) by (unfold val_end; cbn [un fst is_usage]; rewrite W; reflexivity).
  assert (PH : un (phys_items v) = 0) by (unfold phys_items; destruct (is_array v); [reflexivity|]; destruct (_ && _); reflexivity).
  assert (MI : un (val_mid v) = 0).
  { unfold val_mid. rewrite !un_app, !un_map by reflexivity. reflexivity. }
  destruct (v_kind v); try reflexivity. destruct (is_constant (py_int (v_flags v))); cbn [negb length]; [exact EN|].
  rewrite !un_app, un_us, app_length, MI, EN. destruct (is_array v) eqn:A.
  - rewrite !un_app, un_us, PH, !un_map by reflexivity. lia.
  - rewrite PH. unfold is_array in A. destruct (array_usages (v_named v)); [|discriminate]. cbn [un length]. lia.
Qed.

Lemma c43_always db t b b0 : well_formed t -> compile db true t = Ok b -> compile db false t = Ok b0 ->
  length b <= length b0 + 2 * length (flat_map leaf_usages (fst (threaded 0 t))).
Proof.
  intros WF H H0. unfold compile in H, H0. destruct (stream_items db t) as [l|] eqn:E; [|discriminate]. cbn [bind] in H, H0.
  rewrite (wt_serialize _ _ H), (wt_serialize _ _ H0). unfold stream_items in E.
  destruct (stream_tree db sst_init t) as [[st' o]|] eqn:ST; [|discriminate]. cbn [bind] in E. injection E as <-.
  pose proof (stream_pieces db t _ _ _ 0%Z WF ST) as P. rewrite <- (pieces_un _ _ _ _ P), <- uc_un.
  pose proof (pieces_items _ _ _ _ P) as F.
  apply grows_items.
  - pose proof (stream_constructed _ _ _ _ _ ST) as C. pose proof (serialize_range _ _ H0) as R.
    apply Forall_forall. intros i I. rewrite Forall_forall in C, R. split; [auto|]. intros U. specialize (R i I).
    assert (SG : signed (ic i) = false) by (destruct (ic i); try discriminate U; reflexivity).
    unfold in_range, fits in R. rewrite SG in R. cbn in R. lia.
  - eapply Forall_impl; [|exact F]. intros [c z] [A [B C]]. cbn [fst snd] in *. auto.
  - eapply pieces_counted. exact P.
Qed.
