(* OptAccept.v -- the optimiser writes no number an item cannot hold, as
   long as the counts leave room for the fields it joins *)
From Coq Require Import ZArith List Bool Lia ZifyBool ZifyNat String.
From Verif Require Import Py Usage Item Parser Optimizer Descriptor.
From Verif Require Import HidSpec Spec ItemFacts ParserFacts CodecProofs UsageProofs StreamSpec PlainHost StreamProofs StreamTree
  OptSpec AllSpec TreeSpec OptFacts MainMergeFacts Skeleton PassFacts RangeFacts PageFacts TreeOpt SizeFacts DumpSpec ExtractSpec AcceptSpec CompileAccept.
Import ListNotations.
Local Open Scope list_scope.
Local Open Scope Z_scope.
Ltac Zify.zify_post_hook ::= Z.div_mod_to_equations.

Definition nd (l : list item) : Z := Z.of_nat (length (filter (fun i => is_data (ic i)) l)).

Lemma nd_app a b : nd (a ++ b) = nd a + nd b.
Proof. unfold nd. rewrite filter_app, app_length. lia. Qed.
Lemma nd_cons i l : nd (i :: l) = (if is_data (ic i) then 1 else 0) + nd l.
Proof. unfold nd. cbn [filter]. destruct (is_data (ic i)); cbn [length]; lia. Qed.
Lemma nd_nonneg l : 0 <= nd l.
Proof. unfold nd. lia. Qed.
Lemma nd_remove n l : nd (remove_nth n l) <= nd l.
Proof.
  revert n. induction l as [|i l IH]; intros [|n]; cbn [remove_nth]; try lia.
  - rewrite nd_cons. destruct (is_data _); lia.
  - rewrite !nd_cons. specialize (IH n). lia.
Qed.

Lemma du_nd l : nd (run_pass designator_uniq l) <= nd l.
Proof.
  unfold run_pass. assert (X : forall l (s : du_state), nd (snd (feed designator_uniq s l)) + nd (du_pending (fst (feed designator_uniq s l))) <= nd (du_pending s) + nd l).
  { clear l. induction l as [|i l IH]; intros s; [cbn [feed fst snd]; unfold nd; cbn; lia|]. cbn [feed].
    assert (A : nd (snd (du_append s i)) + nd (du_pending (fst (du_append s i))) <= nd (du_pending s) + nd [i]).
    { assert (O : forall k, nd (match k with DAt n => remove_nth n (du_pending s ++ [i]) | _ => du_pending s ++ [i] end) <= nd (du_pending s) + nd [i]).
      { intros k. rewrite <- nd_app. destruct k; try lia. apply nd_remove. }
      assert (NN : nd [] = 0) by reflexivity.
      unfold du_append, ikd. destruct (kind_of (ic i)).
      - cbn [fst snd du_pending]. specialize (O (du_filter s)). lia.
      - cbn [fst snd du_pending]. specialize (O (du_filter s)). lia.
      - destruct (ic i); cbn [fst snd du_pending]; rewrite nd_app; lia. }
    change (p_append designator_uniq) with du_append. rewrite nd_cons.
    change (nd [i]) with (nd ([i] ++ [])) in A. rewrite nd_app in A. change (nd []) with 0 in A. 
    destruct (du_append s i) as [s1 o1]. cbn [fst snd] in A. specialize (IH s1).
    match goal with |- context [feed designator_uniq ?a l] => change a with s1; destruct (feed designator_uniq s1 l) as [s2 o2] end.
    cbn [fst snd] in *. rewrite nd_app. pose proof (nd_cons i []) as NC. change (nd []) with 0 in NC. lia. }
  specialize (X l (DU [] DNone)). change (Optimizer.p_init designator_uniq) with (DU [] DNone).
  destruct (feed designator_uniq (DU [] DNone) l) as [s o]. change (p_close designator_uniq s) with (@nil item).
  rewrite app_nil_r. cbn [fst snd du_pending] in *. change (nd []) with 0 in X. pose proof (nd_nonneg (du_pending s)). lia.
Qed.

(* ------------------------------------------------------------------ *)
(** MainMerge *)

Definition room (M : Z) (i : item) : Prop := constructed i /\ inr i /\ (ic i = ReportCount -> ival i <= M).

Lemma mm_room M N l : 1 <= M -> M + N < 2 ^ 32 -> nd l <= N ->
  Forall (room M) l -> Forall (fun i => constructed i /\ inr i) (run_pass main_merge l).
Proof.
  intros M1 MN ND F. set (Q := fun i => constructed i /\ inr i).
  pose (I := fun (k : Z) (s : mm_state) => Forall Q (mm_before s) /\ Forall Q (mm_mains s) /\ Forall Q (mm_after s) /\
             0 <= mm_bcount s <= k /\ 0 <= mm_acount s <= M).
  assert (RC : forall n, 0 <= n <= M + N -> Q (rc_item n)).
  { intros n H. split; [apply rc_built; lia|]. unfold inr. cbn [rc_item ic]. apply in_32_unsigned; [reflexivity|].
    unfold u32. change (ival (rc_item n)) with n. lia. }
  assert (FL : forall k s, 0 <= k -> Forall Q (mm_before s) -> Forall Q (mm_mains s) -> Forall Q (mm_after s) ->
     0 <= mm_bcount s <= M + N -> 0 <= mm_acount s <= M -> Forall Q (snd (mm_flush s)) /\ I k (fst (mm_flush s))).
  { intros k s K A B C D E. unfold mm_flush. cbn [fst snd]. split.
    - apply Forall_app. split; [apply Forall_filter; auto|].
      destruct (mm_mains s) as [|m r]; auto. constructor; [apply RC; exact D|]. constructor; [exact (Forall_inv B)|constructor].
    - repeat split; cbn [mm_before mm_mains mm_after mm_bcount mm_acount]; auto; lia. }
  assert (ST : forall k s i, 0 <= k -> k + (if is_data (ic i) then 1 else 0) <= N -> I k s -> room M i ->
    Forall Q (snd (mm_append s i)) /\ I (k + (if is_data (ic i) then 1 else 0)) (fst (mm_append s i))).
  { intros k s i K KN [A [B [C [D E]]]] [H1 [H2 H3]]. assert (H : Q i) by (split; assumption).
    unfold mm_append, ikd. destruct (kind_of (ic i)) eqn:KD.
    + destruct (is_data (ic i)) eqn:DA; cbn [negb].
      * assert (S1 : exists s1 o1, match mm_mains s with
            | m :: _ => if item_eqb i m then (s, []) else mm_flush s | [] => (s, []) end = (s1, o1) /\ I k s1 /\ Forall Q o1).
        { assert (IS : I k s) by (repeat split; auto; lia).
          destruct (mm_mains s); [exists s, []; auto|]. destruct (item_eqb i i0); [exists s, []; auto|].
          destruct (FL k s K A) as [X Y]; auto; try lia; [exact (proj1 (proj2 IS))|]. destruct (mm_flush s) as [s1 o1]. exists s1, o1. auto. }
        destruct S1 as [s1 [o1 [-> [[A1 [B1 [C1 [D1 E1]]]] F1]]]].
        set (s2 := MM _ _ _ _ _ _).
        assert (A2 : Forall Q (mm_before s2)) by (apply Forall_app; auto).
        assert (B2 : Forall Q (mm_mains s2)) by (apply Forall_snoc; auto).
        destruct (mm_acount s1 =? 1) eqn:AC; cbn [negb].
        -- cbn [fst snd]. split; auto. repeat split; auto; unfold s2; cbn [mm_bcount mm_acount mm_after]; auto; lia.
        -- destruct (FL (k + 1) s2 ltac:(lia) A2 B2) as [X Y]; [constructor|unfold s2; cbn [mm_bcount mm_acount]; lia..|].
           destruct (mm_flush s2) as [s3 o2]. cbn [fst snd] in *. split; auto. apply Forall_app; auto.
      * apply FL; cbn [mm_before mm_mains mm_after mm_bcount mm_acount]; auto; try lia. apply Forall_snoc; auto.
    + assert (DA : is_data (ic i) = false) by (destruct (ic i); try reflexivity; discriminate KD). rewrite DA in *. rewrite Z.add_0_r in *.
      match goal with |- context [if ?b then ?x else ?y] =>
        assert (S1 : Forall Q (snd (if b then x else y)) /\ I k (fst (if b then x else y))) end.
      { match goal with |- context [if ?b then _ else _] => destruct b end.
        - apply FL; cbn [mm_before mm_mains mm_after mm_bcount mm_acount]; auto; try lia. apply Forall_snoc; auto.
        - cbn [fst snd]. split; auto. repeat split; cbn [mm_before mm_mains mm_after mm_bcount mm_acount]; auto; try lia.
          apply Forall_snoc; auto. }
      match type of S1 with context [if ?b then ?x else ?y] => destruct (if b then x else y) as [s2 out] end.
      cbn [fst snd] in *. destruct S1 as [S1 [A1 [B1 [C1 [D1 E1]]]]]. split; auto.
      pose proof (rc_nonneg i H1) as R2.
      destruct (ic i); repeat split; cbn [mm_before mm_mains mm_after mm_bcount mm_acount]; auto; lia.
    + assert (DA : is_data (ic i) = false) by (destruct (ic i); try reflexivity; discriminate KD). rewrite DA in *. rewrite Z.add_0_r in *.
      cbn [fst snd]. split; auto.
      repeat split; cbn [mm_before mm_mains mm_after mm_bcount mm_acount]; auto; try lia. apply Forall_snoc; auto. }
  unfold run_pass.
  assert (X : forall l k (s : mm_state), 0 <= k -> k + nd l <= N -> Forall (room M) l -> I k s ->
    Forall Q (snd (feed main_merge s l)) /\ exists k', I k' (fst (feed main_merge s l))).
  { clear l ND F. induction l as [|i l IH]; intros k s K KN F IS; [split; [constructor|exists k; exact IS]|].
    cbn [feed]. rewrite nd_cons in KN. pose proof (nd_nonneg l).
    destruct (ST k s i K ltac:(lia) IS (Forall_inv F)) as [A B]. change (p_append main_merge) with mm_append.
    destruct (mm_append s i) as [s1 o1]. cbn [fst snd] in *.
    specialize (IH (k + (if is_data (ic i) then 1 else 0)) s1 ltac:(destruct (is_data (ic i)); lia) ltac:(lia) (Forall_inv_tail F) B).
    match goal with |- context [feed main_merge ?a l] => change a with s1; destruct (feed main_merge s1 l) as [s2 o2] end.
    cbn [fst snd] in *. destruct IH as [C [k' D']]. split; [apply Forall_app; auto|eauto]. }
  destruct (X l 0 mm_init ltac:(lia) ltac:(lia) F) as [A [k B]].
  { repeat split; cbn; auto; lia. }
  change (Optimizer.p_init main_merge) with mm_init. destruct (feed main_merge mm_init l) as [s o]. cbn [fst snd] in *.
  apply Forall_app. split; [exact A|]. destruct B as [B1 [B2 [B3 _]]]. change (p_close main_merge s) with (mm_close s). unfold mm_close.
  repeat (apply Forall_app; split); auto.
Qed.

(* ------------------------------------------------------------------ *)
(** the other passes *)

Definition ok_item (i : item) : Prop := constructed i /\ inr i.

Lemma rm_ok db lk mn mx l : In (lk, mn, mx) [(Usage, UsageMinimum, UsageMaximum); (StringIndex, StringMinimum, StringMaximum); (DesignatorIndex, DesignatorMinimum, DesignatorMaximum)] ->
  Forall ok_item l -> Forall ok_item (run_pass (range_merge db lk mn mx) l).
Proof.
  intros I. apply rm_each. intros i c [C U] E M.
  assert (S : single lk) by (destruct I as [I|[I|[I|[]]]]; injection I as <- <- <-; unfold single; auto).
  assert (F : fam lk c = true) by (destruct I as [I|[I|[I|[]]]]; injection I as <- <- <-; destruct M as [-> | [-> | ->]]; reflexivity).
  destruct (rebuild_ok db lk c i C S E F) as [j [-> [J1 [J2 J3]]]]. constructor; [|constructor].
  split; [exact J3|]. unfold inr in *. rewrite J1, J2.
  destruct I as [I|[I|[I|[]]]]; injection I as <- <- <-; rewrite E in *; destruct M as [-> | [-> | ->]]; exact U.
Qed.

Lemma up_ok db l : Forall ok_item l -> Forall ok_item (run_pass (usage_page_pass db) l).
Proof.
  apply (each_run ok_item (usage_page_pass db) (fun _ => True)); [exact I| |constructor].
  intros page i _ [C R]. split; [|exact I]. change (p_append (usage_page_pass db)) with (up_append db).
  destruct (is_usage (ic i)) eqn:U.
  - destruct (up_usage db page i C U) as [pg [u [E1 [V1 [E2 [V2 [C1 [C2 ->]]]]]]]]. cbn [snd].
    assert (HU : hid_signed (ic i) = false) by (destruct (ic i); try discriminate U; reflexivity).
    unfold inr in R. apply in_32_unsigned in R; [|exact HU]. unfold u32 in R.
    assert (G1 : ok_item pg).
    { split; [exact C1|]. unfold inr. rewrite E1, V1. apply in_32_unsigned; [reflexivity|]. unfold u32. lia. }
    assert (G2 : ok_item u).
    { split; [exact C2|]. unfold inr. rewrite E2, V2. apply in_32_unsigned; [exact HU|]. unfold u32. lia. }
    destruct (new_page _ _); cbn [app]; auto.
  - unfold up_append. rewrite U. cbn [snd]. constructor; [split; assumption|constructor].
Qed.

Lemma optimize_room db M N l : 1 <= M -> M + N < 2 ^ 32 -> nd l <= N -> Forall (room M) l -> Forall inr (optimize db l).
Proof.
  intros M1 MN ND F. rewrite optimize_all. cbn [passes map snd run_all fold_left].
  pose proof (du_nd l) as D. pose proof (du_each (room M) l F) as F0. set (l0 := run_pass designator_uniq l) in *.
  pose proof (mm_room M N l0 M1 MN ltac:(lia) F0 : Forall ok_item _) as F1. set (l1 := run_pass main_merge l0) in *.
  pose proof (pm_each ok_item l1 F1) as F2. set (l2 := run_pass physical_merge l1) in *.
  pose proof (gm_each ok_item l2 F2) as F3. set (l3 := run_pass global_merge l2) in *.
  pose proof (rm_ok db StringIndex StringMinimum StringMaximum l3 ltac:(cbn [In]; auto) F3) as F4.
  fold (string_merge db) in *. set (l4 := run_pass (string_merge db) l3) in *.
  pose proof (rm_ok db DesignatorIndex DesignatorMinimum DesignatorMaximum l4 ltac:(cbn [In]; auto) F4) as F5.
  fold (designator_merge db) in *. set (l5 := run_pass (designator_merge db) l4) in *.
  pose proof (rm_ok db Usage UsageMinimum UsageMaximum l5 ltac:(cbn [In]; auto) F5) as F6.
  fold (usage_merge db) in *. set (l6 := run_pass (usage_merge db) l5) in *.
  pose proof (up_ok db l6 F6) as F7. eapply Forall_impl; [|exact F7]. intros i [_ H]. exact H.
Qed.

(* ------------------------------------------------------------------ *)
(** trees *)

Definition sd (o : list spec_item) : Z := Z.of_nat (length (filter (fun x => is_data (fst x)) o)).
Lemma sd_app a b : sd (a ++ b) = sd a + sd b.
Proof. unfold sd. rewrite filter_app, app_length. apply Nat2Z.inj_add. Qed.
Lemma sd_map {A} (f : A -> spec_item) l : (forall x, is_data (fst (f x)) = false) -> sd (map f l) = 0.
Proof. intros H. induction l as [|x l IH]; [reflexivity|]. unfold sd in *. cbn [map filter]. rewrite H. exact IH. Qed.
Lemma nd_cv l : nd l = sd (map cv l).
Proof.
  unfold nd, sd. f_equal. induction l as [|i l IH]; [reflexivity|]. cbn [map filter cv fst].
  destruct (is_data (ic i)); cbn [length]; rewrite IH; reflexivity.
Qed.

Definition rc_le (M : Z) (x : spec_item) : Prop := fst x = ReportCount -> snd x <= M.

Lemma piece_bound M r x o : 1 <= M -> (forall rid v, x = LVal rid v -> v_kind v = KValue -> v_count v <= M) ->
  piece r x o -> Forall (rc_le M) o /\ sd o <= (match x with LVal _ _ => 2 | _ => 0 end).
Proof.
  intros M1 HM P.
  assert (MP : forall (A : Type) (f : A -> spec_item) l, (forall x, fst (f x) <> ReportCount) -> Forall (rc_le M) (map f l)).
  { intros A f l H. apply Forall_map, Forall_forall. intros y _ E. elim (H y). exact E. }
  inversion P as [r0 k u|r0|r0 v p MA D]; subst.
  - split; [repeat constructor; intros E; discriminate E|unfold sd; cbn; lia].
  - split; [repeat constructor; intros E; discriminate E|unfold sd; cbn; lia].
  - assert (W : way_of v <> ReportCount) by (unfold way_of, way_class; destruct (_ =? 8); [discriminate|]; destruct (_ =? 9); discriminate).
    assert (PAD : Forall (rc_le M) (pad_items (way_of v) p) /\ sd (pad_items (way_of v) p) <= 1).
    { unfold pad_items. destruct (p =? 0); [split; [constructor|unfold sd; cbn; lia]|]. split.
      - constructor; [intros _; cbn; lia|]. constructor; [intros E; discriminate E|]. constructor; [intros E; cbn in E; congruence|constructor].
      - unfold sd. cbn. destruct (way_of v); cbn; lia. }
    assert (PH : Forall (rc_le M) (phys_items v) /\ sd (phys_items v) = 0).
    { unfold phys_items. destruct (is_array v); [split; [repeat constructor; intros E; discriminate E|reflexivity]|].
      destruct (_ && _); (split; [repeat constructor; intros E; discriminate E|reflexivity]). }
    assert (MID : Forall (rc_le M) (val_mid v) /\ sd (val_mid v) = 0).
    { unfold val_mid. split.
      - repeat (apply Forall_app; split); try (apply MP; discriminate). repeat constructor; intros E; discriminate E.
      - rewrite !sd_app, !sd_map by reflexivity. reflexivity. }
    assert (VAL : Forall (rc_le M) (val_items v) /\ sd (val_items v) <= 1).
    { unfold val_items. destruct (v_kind v) eqn:K; [|split; [constructor|unfold sd; cbn; lia]..].
      assert (VE : Forall (rc_le M) (val_end v (way_of v)) /\ sd (val_end v (way_of v)) <= 1).
      { unfold val_end. split.
        - constructor; [intros _; cbn; eauto|]. constructor; [intros E; discriminate E|]. constructor; [intros E; cbn in E; congruence|constructor].
        - unfold sd. cbn. destruct (way_of v); cbn; lia. }
      destruct (is_constant _); [exact VE|].
      assert (US : forall l, Forall (rc_le M) (us_items l) /\ sd (us_items l) = 0).
      { intros l. split; [apply MP; discriminate|apply sd_map; reflexivity]. }
      destruct PH as [PH1 PH2], MID as [MI1 MI2], VE as [VE1 VE2]. destruct (US (usage_list (v_usage v))) as [U1 U2], (US (array_usages (v_named v))) as [N1 N2].
      split.
      - apply Forall_app; split; [exact U1|]. apply Forall_app; split.
        + destruct (is_array v); [|exact PH1]. repeat (apply Forall_app; split); auto. apply MP; discriminate.
        + apply Forall_app; split; [exact MI1|]. apply Forall_app; split; [exact VE1|]. destruct (is_array v); [apply MP; discriminate|constructor].
      - destruct (is_array v); rewrite !sd_app, ?sd_map by reflexivity; change (sd []) with 0; lia. }
    destruct PAD as [A1 A2], VAL as [B1 B2]. split; [apply Forall_app; auto|]. rewrite sd_app. lia.
Qed.

Lemma pieces_bound M r ls o r' : 1 <= M -> Forall (fun v => v_kind v = KValue -> v_count v <= M) (leaf_values ls) ->
  pieces r ls o r' -> Forall (rc_le M) o /\ sd o <= 2 * Z.of_nat (length (leaf_values ls)).
Proof.
  intros M1 HM P. revert HM. induction P as [r|r id ls o r' _ IH|r x ls o o' r' P _ IH]; intros HM.
  - split; [constructor|unfold sd; cbn; lia].
  - destruct (IH HM) as [A B]. split; [constructor; [intros E; discriminate E|exact A]|]. exact B.
  - assert (LV : leaf_values (x :: ls) = leaf_values [x] ++ leaf_values ls) by (change (x :: ls) with ([x] ++ ls); apply leaf_values_app).
    rewrite LV in *. apply Forall_app in HM. destruct HM as [H1 H2]. destruct (IH H2) as [A B].
    destruct (piece_bound M r x o M1) as [C D]; [|exact P|].
    + intros rid v -> K. cbn [leaf_values flat_map app] in H1. exact (Forall_inv H1 K).
    + split; [apply Forall_app; auto|]. rewrite sd_app, app_length. destruct x; cbn [leaf_values flat_map app length] in *; lia.
Qed.

Lemma same_leaf_values t : forall r r', leaf_values (fst (threaded r t)) = leaf_values (fst (entered r' t)).
Proof.
  assert (ALL : forall ms, Forall (fun t => forall r r', leaf_values (fst (threaded r t)) = leaf_values (fst (entered r' t))) ms ->
    forall r r', leaf_values (fst (threaded_all r ms)) = leaf_values (fst (entered_all r' ms))).
  { induction 1 as [|m ms H _ IH]; intros r r'; [reflexivity|]. cbn [threaded_all entered_all].
    specialize (H r r'). destruct (threaded r m) as [a ra], (entered r' m) as [b rb].
    specialize (IH ra rb). destruct (threaded_all ra ms), (entered_all rb ms). cbn [fst] in *.
    rewrite !leaf_values_app, H, IH. reflexivity. }
  induction t as [v|id ms IH|ms IH|k u ms IH] using tree_rect2; intros r r'.
  - reflexivity.
  - rewrite threaded_report, entered_report. apply ALL. exact IH.
  - rewrite threaded_top, entered_top. apply ALL. exact IH.
  - rewrite threaded_coll, entered_coll. specialize (ALL ms IH r r'). destruct (threaded_all r ms), (entered_all r' ms). cbn [fst] in *.
    change (LOpen k u :: ?l ++ [LClose]) with ([LOpen k u] ++ l ++ [LClose]). rewrite !leaf_values_app, ALL. reflexivity.
Qed.

Lemma c56 db t b : well_formed t -> roomy t -> compile db false t = Ok b -> exists b', compile db true t = Ok b'.
Proof.
  intros WF [R1 R2] H. unfold compile, stream_items in *.
  destruct (stream_tree db sst_init t) as [[st' o]|] eqn:ST; [|discriminate]. cbn [bind] in *.
  apply serialize_iff. pose proof (proj1 (serialize_iff o) (ex_intro _ b H)) as F.
  pose proof (stream_pieces db t _ _ _ 0 WF ST) as P. pose proof (stream_constructed _ _ _ _ _ ST) as C.
  set (n := 2 * Z.of_nat (length (leaf_values (fst (entered 0 t))))) in *.
  assert (M : Forall (fun v => v_kind v = KValue -> v_count v <= 2 ^ 32 - 1 - n) (leaf_values (fst (threaded 0 t)))).
  { rewrite (same_leaf_values t 0 0). eapply Forall_impl; [|exact R2]. cbn. intros v E K. specialize (E K). lia. }
  destruct (pieces_bound (2 ^ 32 - 1 - n) _ _ _ _ ltac:(lia) M P) as [A B].
  rewrite (same_leaf_values t 0 0) in B. fold n in B. rewrite <- nd_cv in B.
  apply (optimize_room db (2 ^ 32 - 1 - n) n); [lia|lia|exact B|].
  apply Forall_forall. intros i I. rewrite Forall_map in A. rewrite Forall_forall in A, C, F.
  split; [auto|]. split; [auto|]. exact (A i I).
Qed.
