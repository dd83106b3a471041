(* Skeleton.v -- main items, collections and field sizes through the
   optimiser (C31, C32, C23). *)
From Coq Require Import ZifyBool ZifyNat.
From Verif Require Import Py Usage Item Optimizer HidSpec ItemFacts ParserFacts OptSpec OptFacts MainMergeFacts.

Definition cvs (l : list item) : list spec_item := map cv l.
Definition ms (l : list item) : list spec_item := mains (cvs l).

Lemma cvs_app a b : cvs (a ++ b) = cvs a ++ cvs b. Proof. apply map_app. Qed.
Lemma ms_app a b : ms (a ++ b) = ms a ++ ms b.
Proof. unfold ms, mains. rewrite cvs_app. apply filter_app. Qed.

Lemma main_tag_kind c : main_tag c = true <-> kind_of c = Main.
Proof. destruct c; split; intros H; try reflexivity; discriminate. Qed.
Lemma data_tag_is c : data_tag c = is_data c. Proof. destruct c; reflexivity. Qed.

Definition ceq (a b : list spec_item) : Prop := collapse a = collapse b.

Lemma ceq_app_l c a b : ceq a b -> ceq (c ++ a) (c ++ b).
Proof. intros H. unfold ceq in *. induction c as [|x c IH]; auto. cbn [app collapse]. rewrite IH. reflexivity. Qed.

Lemma repeats_trans x y z : repeats x y = true -> repeats x z = repeats y z.
Proof.
  unfold repeats. destruct x as [cx vx], y as [cy vy], z as [cz vz]; cbn [fst snd]. intros H.
  apply andb_true_iff in H. destruct H as [H H2]. apply andb_true_iff in H. destruct H as [H0 H1].
  apply icls_eqb_eq in H1. apply Z.eqb_eq in H2. subst. rewrite H0. reflexivity.
Qed.

(** appending to the collapsed list *)
Lemma collapse_app a c : collapse (a ++ c) = collapse (collapse a ++ c).
Proof.
  induction a as [|x a IH]; auto. cbn [app collapse]. rewrite IH.
  destruct (collapse a) as [|y r] eqn:E; auto.
  destruct (repeats x y) eqn:R; auto.
  cbn [app collapse]. destruct (collapse (r ++ c)) as [|z r'].
  - rewrite R. reflexivity.
  - destruct (repeats y z) eqn:R2.
    + rewrite (repeats_trans _ _ _ R), R2. reflexivity.
    + rewrite R. reflexivity.
Qed.

Lemma ceq_app_r a b c : ceq a b -> ceq (a ++ c) (b ++ c).
Proof. intros H. unfold ceq in *. rewrite (collapse_app a), (collapse_app b), H. reflexivity. Qed.

Lemma ceq_app a a' b b' : ceq a a' -> ceq b b' -> ceq (a ++ b) (a' ++ b').
Proof. intros H1 H2. etransitivity; [apply ceq_app_r; exact H1|apply ceq_app_l; exact H2]. Qed.

Lemma ceq_refl a : ceq a a. Proof. reflexivity. Qed.

(* ------------------------------------------------------------------ *)
(** a pass that keeps the selected items of every stream *)
Section Keep.
  Context (K : icls -> bool).
  Definition sel (l : list item) : list spec_item := filter (fun x => K (fst x)) (cvs l).
  Lemma sel_app a b : sel (a ++ b) = sel a ++ sel b.
  Proof. unfold sel. rewrite cvs_app. apply filter_app. Qed.

  Lemma sel_cons i l : sel (i :: l) = if K (ic i) then cv i :: sel l else sel l.
  Proof. reflexivity. Qed.

  Lemma sel_filter P l : (forall i, P i = false -> K (ic i) = false) -> sel (filter P l) = sel l.
  Proof.
    intros H. induction l as [|i l IH]; auto. cbn [filter]. unfold sel in *.
    destruct (P i) eqn:E.
    - cbn [cvs map filter]. unfold cvs in IH. rewrite IH. reflexivity.
    - cbn [cvs map filter cv fst]. rewrite (H i E). exact IH.
  Qed.
  Lemma sel_none l : Forall (fun i => K (ic i) = false) l -> sel l = [].
  Proof. induction 1 as [|i l H _ IH]; auto. unfold sel in *. cbn [cvs map filter cv fst]. rewrite H. exact IH. Qed.

  (** [held s]: the items a pass still has to write *)
  Lemma keep_run (p : pass) (held : p_state p -> list item) :
    held (p_init p) = [] ->
    (forall s i, sel (snd (p_append p s i) ++ held (fst (p_append p s i))) = sel (held s ++ [i])) ->
    forall l, sel (snd (feed p (p_init p) l) ++ held (fst (feed p (p_init p) l))) = sel l.
  Proof.
    intros H0 HS l. induction l as [|i l IH] using rev_ind.
    - cbn [feed fst snd app]. rewrite H0. reflexivity.
    - rewrite feed_app. cbn [feed fst snd].
      destruct (p_append p (fst (feed p (p_init p) l)) i) as [s1 o1] eqn:E. cbn [fst snd].
      rewrite app_nil_r, <- app_assoc, sel_app.
      specialize (HS (fst (feed p (p_init p) l)) i). rewrite E in HS. cbn [fst snd] in HS. rewrite HS.
      rewrite <- sel_app, app_assoc, sel_app, IH, sel_app. reflexivity.
  Qed.

  Lemma remove_nth_sel n l i : nth_error l n = Some i -> K (ic i) = false -> sel (remove_nth n l) = sel l.
  Proof.
    revert n. induction l as [|j l IH]; intros [|n] E KI; try discriminate.
    - injection E as <-. cbn [remove_nth]. unfold sel. cbn [cvs map filter cv fst]. rewrite KI. reflexivity.
    - cbn [remove_nth]. unfold sel in *. cbn [cvs map filter cv fst]. destruct (K (ic j)); [f_equal|]; eapply IH; eauto.
  Qed.
End Keep.

Definition du_wf (s : du_state) : Prop :=
  Forall (fun i => kind_of (ic i) = Local) (du_pending s) /\
  match du_filter s with
  | DAt n => exists i, nth_error (du_pending s) n = Some i /\ ic i = DesignatorIndex
  | _ => True
  end.

Lemma du_step s i : du_wf s -> du_wf (fst (du_append s i)).
Proof.
  intros [H1 H2]. unfold du_append, ikd. destruct (kind_of (ic i)) eqn:K; cbn [fst].
  - split; [constructor|exact I].
  - split; [constructor|exact I].
  - assert (F : Forall (fun i => kind_of (ic i) = Local) (du_pending s ++ [i])) by (apply Forall_app; auto).
    assert (D : match du_filter s with
      | DAt n => exists j, nth_error (du_pending s ++ [i]) n = Some j /\ ic j = DesignatorIndex
      | _ => True end).
    { destruct (du_filter s); auto. destruct H2 as [j [E Q]]. exists j. split; auto.
      rewrite nth_error_app1; auto. apply nth_error_Some. congruence. }
    destruct (ic i) eqn:C; cbn [fst]; (split; [exact F|]); cbn [du_filter]; auto.
    destruct (du_filter s); auto. destruct (ival i =? 0); auto.
    exists i. split; auto. cbn [du_pending]. rewrite nth_error_app2 by auto. rewrite Nat.sub_diag. reflexivity.
Qed.

Lemma du_feed_wf l : du_wf (fst (feed designator_uniq (DU [] DNone) l)).
Proof.
  induction l as [|i l IH] using rev_ind; [split; [constructor|exact I]|].
  rewrite feed_app. cbn [feed fst snd]. change (p_append designator_uniq) with du_append.
  pose proof (du_step _ i IH). destruct (du_append _ i). exact H.
Qed.

(** DesignatorUniq loses only local items *)
Lemma du_keep K l : (forall c, kind_of c = Local -> K c = false) ->
  sel K (run_pass designator_uniq l) = sel K l.
Proof.
  intros HK. unfold run_pass.
  assert (X : sel K (snd (feed designator_uniq (DU [] DNone) l) ++ du_pending (fst (feed designator_uniq (DU [] DNone) l))) = sel K l).
  { induction l as [|i l IH] using rev_ind; auto.
    rewrite feed_app. cbn [feed fst snd]. change (p_append designator_uniq) with du_append.
    pose proof (du_feed_wf l) as [W1 W2].
    set (s := fst (feed designator_uniq (DU [] DNone) l)) in *.
    assert (SS : sel K (snd (du_append s i) ++ du_pending (fst (du_append s i))) = sel K (du_pending s ++ [i])).
    { unfold du_append, ikd.
      assert (NL : kind_of (ic i) <> Local ->
         sel K (match du_filter s with DAt n => remove_nth n (du_pending s ++ [i]) | _ => du_pending s ++ [i] end ++ []) =
         sel K (du_pending s ++ [i])).
      { intros _. rewrite app_nil_r. destruct (du_filter s); auto. destruct W2 as [j [E Q]].
        apply (remove_nth_sel K) with j; [|apply HK; rewrite Q; reflexivity].
        rewrite nth_error_app1; auto. apply nth_error_Some. congruence. }
      destruct (kind_of (ic i)) eqn:KI; cbn [fst snd du_pending]; try (apply NL; discriminate).
      destruct (ic i); reflexivity. }
    destruct (du_append s i) as [s1 o1]. cbn [fst snd] in *.
    rewrite app_nil_r, <- app_assoc, sel_app, SS, <- sel_app, app_assoc, sel_app, IH, sel_app. reflexivity. }
  change (p_init designator_uniq) with (DU [] DNone).
  pose proof (du_feed_wf l) as [W1 _].
  destruct (feed designator_uniq (DU [] DNone) l) as [s o]. cbn [fst snd] in *.
  change (p_close designator_uniq s) with (@nil item). rewrite app_nil_r.
  rewrite sel_app in X. rewrite (sel_none K (du_pending s)) in X; [rewrite app_nil_r in X; exact X|].
  eapply Forall_impl; [|exact W1]. intros. apply HK; auto.
Qed.

Lemma pm_keep K l : K PhysicalMinimum = false -> K PhysicalMaximum = false ->
  sel K (run_pass physical_merge l) = sel K l.
Proof.
  intros K1 K2. unfold run_pass.
  assert (X := keep_run K physical_merge pm_pending eq_refl).
  assert (P : forall s i, sel K (snd (p_append physical_merge s i) ++ pm_pending (fst (p_append physical_merge s i))) = sel K (pm_pending s ++ [i])).
  { intros s i. change (p_append physical_merge) with pm_append. unfold pm_append, ikd.
    destruct (kind_of (ic i)); cbn [fst snd pm_pending]; auto.
    rewrite app_nil_r, !sel_app. f_equal.
    match goal with |- context [if ?b then _ else _] => destruct b end; auto.
    apply sel_filter. intros j E. destruct (ic j); try discriminate; auto. }
  specialize (X P l). destruct (feed physical_merge (p_init physical_merge) l). exact X.
Qed.

Lemma rebuild_class db c v : Forall (fun i => ic i = c) (rebuild db c v).
Proof.
  unfold rebuild. destruct (mk_item db c (Some v)) eqn:E; constructor; auto.
  apply mk_item_class in E. exact E.
Qed.

Lemma rebuild_none K db c v : K c = false -> sel K (rebuild db c v) = [].
Proof. intros H. apply sel_none. eapply Forall_impl; [|apply rebuild_class]. cbn. intros i ->. exact H. Qed.

Lemma rm_flush_keep K db lk mn mx s : K lk = false -> K mn = false -> K mx = false ->
  sel K (rm_flush db lk mn mx s) = sel K (rm_pending s).
Proof.
  intros K1 K2 K3. unfold rm_flush.
  destruct (rm_min s) as [a|], (rm_max s) as [b|]; auto.
  destruct (truthy a && truthy b && rm_merging s); auto.
  rewrite sel_app, sel_filter.
  - destruct (py_int a =? py_int b); [|destruct (1 <? py_int b - py_int a)]; rewrite ?sel_app, ?rebuild_none by auto;
      simpl; apply app_nil_r.
  - intros i E. apply negb_false_iff in E. apply orb_true_iff in E. destruct E as [E|E];
      [apply orb_true_iff in E; destruct E as [E|E]|]; apply icls_eqb_eq in E; rewrite E; auto.
Qed.

Lemma rm_keep K db lk mn mx l : K lk = false -> K mn = false -> K mx = false ->
  sel K (run_pass (range_merge db lk mn mx) l) = sel K l.
Proof.
  intros K1 K2 K3. unfold run_pass.
  assert (X := keep_run K (range_merge db lk mn mx) rm_pending eq_refl).
  assert (P : forall s i, sel K (snd (p_append (range_merge db lk mn mx) s i) ++ rm_pending (fst (p_append (range_merge db lk mn mx) s i)))
     = sel K (rm_pending s ++ [i])).
  { intros s i. change (p_append (range_merge db lk mn mx)) with (rm_append db lk mn mx). unfold rm_append, ikd.
    set (s1 := rm_note lk mn mx s i).
    assert (PE : rm_pending s1 = rm_pending s).
    { unfold s1, rm_note. repeat match goal with |- context [if ?b then _ else _] => destruct b end; auto.
      destruct (rm_max s); auto. match goal with |- context [if ?b then _ else _] => destruct b end; auto. }
    cbv zeta. destruct (kind_of (ic i)); cbn [fst snd rm_pending]; rewrite ?PE; auto.
    rewrite !sel_app, rm_flush_keep, PE by auto. reflexivity. }
  specialize (X P l). destruct (feed (range_merge db lk mn mx) (p_init (range_merge db lk mn mx)) l) as [s o].
  cbn [fst snd] in X. change (p_close (range_merge db lk mn mx) s) with (rm_flush db lk mn mx s).
  rewrite sel_app, rm_flush_keep by auto. rewrite sel_app in X. exact X.
Qed.

Lemma up_keep K db l : K UsagePage = false -> K Usage = false -> K UsageMinimum = false -> K UsageMaximum = false ->
  sel K (run_pass (usage_page_pass db) l) = sel K l.
Proof.
  intros K0 K1 K2 K3. unfold run_pass.
  assert (X := keep_run K (usage_page_pass db) (fun _ => []) eq_refl).
  assert (P : forall s i, sel K (snd (p_append (usage_page_pass db) s i) ++ []) = sel K ([] ++ [i])).
  { intros s i. change (p_append (usage_page_pass db)) with (up_append db). unfold up_append. rewrite app_nil_r.
    destruct (is_usage (ic i)) eqn:U.
    - assert (KI : K (ic i) = false) by (destruct (ic i); try discriminate; auto).
      destruct (split (lookup db (iv i))) as [sp su]. cbn [snd].
      rewrite sel_app, (rebuild_none K db (ic i) su KI), app_nil_r. cbn [app].
      rewrite (sel_none K [i]) by (constructor; auto).
      match goal with |- context [if ?b then _ else _] => destruct b end; auto. apply rebuild_none; auto.
    - reflexivity. }
  specialize (X P l). destruct (feed (usage_page_pass db) (p_init (usage_page_pass db)) l) as [s o].
  exact X.
Qed.

Lemma gm_keep K l : (forall c, kind_of c = Global -> K c = false) ->
  sel K (run_pass global_merge l) = sel K l.
Proof.
  intros HK. unfold run_pass.
  assert (X := keep_run K global_merge (fun _ => []) eq_refl).
  assert (P : forall s i, sel K (snd (p_append global_merge s i) ++ []) = sel K ([] ++ [i])).
  { intros s i. change (p_append global_merge) with gm_append. unfold gm_append, ikd. rewrite app_nil_r.
    destruct (kind_of (ic i)) eqn:KI; cbn [snd app]; auto.
    match goal with |- context [if ?b then _ else _] => destruct b end; auto.
    symmetry. apply sel_none. constructor; auto. }
  specialize (X P l). destruct (feed global_merge (p_init global_merge) l) as [s o].
  exact X.
Qed.

(* ------------------------------------------------------------------ *)
(** MainMerge and main items *)

Definition mm_all (s : mm_state) : list item := mm_before s ++ mm_mains s ++ mm_after s.

Definition mm_wf (s : mm_state) : Prop :=
  ms (mm_after s) = [] /\
  match mm_mains s with
  | [] => True
  | m :: r => is_data (ic m) = true /\ Forall (fun i => cv i = cv m) r
  end.

Lemma ms_norc l : ms (norc l) = ms l.
Proof.
  unfold ms, mains, norc. apply (sel_filter main_tag). intros i E.
  unfold not_rc in E. apply negb_false_iff, icls_eqb_eq in E. rewrite E. reflexivity.
Qed.

Lemma mains_one m r : is_data (ic m) = true -> Forall (fun i => cv i = cv m) r -> ceq (ms [m]) (ms (m :: r)).
Proof.
  intros D. revert m D. induction r as [|i r IH]; intros m D F; [reflexivity|].
  inversion F as [|? ? E F']; subst. injection E as E1 E2.
  unfold ceq. change (ms (m :: i :: r)) with (ms ([m] ++ (i :: r))). rewrite ms_app.
  assert (IHi : ceq (ms [i]) (ms (i :: r))).
  { apply IH; [rewrite E1; auto|]. eapply Forall_impl; [|exact F']. cbn. intros j Q. unfold cv in *. rewrite Q, E1, E2. reflexivity. }
  rewrite <- (ceq_app_l (ms [m]) _ _ IHi).
  assert (Q : forall j, cv j = cv m -> ms [j] = [cv m]).
  { intros j Ej. unfold ms, mains, cvs. cbn [map filter]. rewrite Ej. cbn [cv fst].
    replace (main_tag (ic m)) with true by (destruct (ic m); try discriminate; reflexivity). reflexivity. }
  rewrite (Q m eq_refl), (Q i) by (unfold cv; congruence). cbn [app collapse].
  unfold repeats. cbn [cv fst snd]. rewrite data_tag_is, D, icls_eqb_refl, Z.eqb_refl. reflexivity.
Qed.

Lemma rc_ms n : ms [rc_item n] = []. Proof. reflexivity. Qed.

Lemma mm_flush_ms s : (match mm_mains s with
  | [] => True | m :: r => is_data (ic m) = true /\ Forall (fun i => cv i = cv m) r end) ->
  ceq (ms (snd (mm_flush s) ++ mm_after s)) (ms (mm_all s)).
Proof.
  intros W. unfold mm_flush, mm_all. cbn [snd]. fold (norc (mm_before s)).
  rewrite !ms_app, ms_norc, <- !app_assoc. apply ceq_app_l. apply ceq_app_r.
  destruct (mm_mains s) as [|m r]; [reflexivity|].
  change [rc_item (mm_bcount s); m] with ([rc_item (mm_bcount s)] ++ [m]). rewrite ms_app, rc_ms. cbn [app].
  apply mains_one; apply W.
Qed.

Lemma flush_all s : mm_all (fst (mm_flush s)) = mm_after s.
Proof. unfold mm_all, mm_flush. cbn [fst mm_before mm_mains mm_after app]. apply app_nil_r. Qed.

Lemma mm_step s i : mm_wf s ->
  mm_wf (fst (mm_append s i)) /\
  ceq (ms (snd (mm_append s i) ++ mm_all (fst (mm_append s i)))) (ms (mm_all s ++ [i])).
Proof.
  intros [W1 W2]. unfold mm_append, ikd.
  assert (QA : kind_of (ic i) <> Main -> ms (mm_after s ++ [i]) = []).
  { intros K. rewrite ms_app, W1. unfold ms, mains, cvs. cbn [map filter app cv fst].
    destruct (main_tag (ic i)) eqn:T; auto. apply main_tag_kind in T. contradiction. }
  destruct (kind_of (ic i)) eqn:K.
  - destruct (is_data (ic i)) eqn:D; cbn [negb].
    + assert (FRESH : forall s1, ms (mm_after s1) = [] -> match mm_mains s1 with [] => True
               | m :: r => is_data (ic m) = true /\ Forall (fun i => cv i = cv m) r end ->
             (match mm_mains s1 with [] => True | m :: _ => cv i = cv m end) ->
          let s2 := MM (mm_before s1 ++ mm_after s1) (mm_mains s1 ++ [i]) []
                     (mm_bcount s1 + mm_acount s1) (mm_acount s1) (mm_props s1) in
          mm_wf s2 /\ ms (mm_all s2) = ms (mm_all s1 ++ [i]) /\
          mm_wf (fst (mm_flush s2)) /\ ceq (ms (snd (mm_flush s2) ++ mm_all (fst (mm_flush s2)))) (ms (mm_all s1 ++ [i]))).
      { intros s1 A1 A2 A3 s2.
        assert (X1 : mm_wf s2).
        { unfold s2. split; [reflexivity|]. cbn [mm_mains]. destruct (mm_mains s1) as [|m r]; cbn [app].
          - split; auto.
          - destruct A2 as [A2 A4]. split; auto. apply Forall_app. auto. }
        assert (X2 : ms (mm_all s2) = ms (mm_all s1 ++ [i])).
        { unfold mm_all, s2. cbn [mm_before mm_mains mm_after]. rewrite !ms_app, A1.
          rewrite !app_nil_r, <- app_assoc. reflexivity. }
        split; auto. split; auto. split.
        - unfold mm_flush, s2. cbn [fst]. split; [reflexivity|exact I].
        - rewrite <- X2. destruct X1 as [_ X1]. pose proof (mm_flush_ms s2 X1) as Y.
          rewrite flush_all. exact Y. }
      destruct (mm_mains s) as [|m r] eqn:M.
      * specialize (FRESH s W1). rewrite M in FRESH. specialize (FRESH I I). cbv zeta in FRESH.
        destruct FRESH as [F1 [F2 [F3 F4]]]. rewrite M.
        destruct (negb (mm_acount s =? 1)).
        -- destruct (mm_flush _). cbn [fst snd] in *. auto.
        -- cbn [fst snd app] in *. split; auto. unfold ceq. rewrite F2. reflexivity.
      * destruct (item_eqb i m) eqn:EQ.
        -- apply item_eqb_spec in EQ. destruct EQ as [E1 E2].
           specialize (FRESH s W1). rewrite M in FRESH. specialize (FRESH W2).
           specialize (FRESH ltac:(unfold cv; congruence)). cbv zeta in FRESH.
           destruct FRESH as [F1 [F2 [F3 F4]]]. rewrite M.
           destruct (negb (mm_acount s =? 1)).
           ++ destruct (mm_flush _). cbn [fst snd] in *. auto.
           ++ cbn [fst snd app] in *. split; auto. unfold ceq. rewrite F2. reflexivity.
        -- pose proof (mm_flush_ms s) as FL. rewrite M in FL. specialize (FL W2).
           assert (S1 : fst (mm_flush s) = MM (mm_after s) [] [] 0 (mm_acount s) (mm_props s)) by reflexivity.
           destruct (mm_flush s) as [s1 o1]. cbn [fst snd] in *. subst s1.
           specialize (FRESH (MM (mm_after s) [] [] 0 (mm_acount s) (mm_props s)) eq_refl I I). cbv zeta in FRESH.
           destruct FRESH as [F1 [F2 [F3 F4]]].
           assert (G : ceq (ms (o1 ++ mm_all (MM (mm_after s) [] [] 0 (mm_acount s) (mm_props s)) ++ [i])) (ms (mm_all s ++ [i]))).
           { unfold mm_all at 1. cbn [mm_before mm_mains mm_after app].
             rewrite !app_nil_r, app_assoc, ms_app, (ms_app (mm_all s)). apply ceq_app_r. exact FL. }
           cbn [mm_before mm_after mm_mains mm_bcount mm_acount mm_props] in *.
           destruct (negb (mm_acount s =? 1)).
           ++ destruct (mm_flush _) as [s3 o2]. cbn [fst snd] in *. split; auto.
              rewrite <- app_assoc, ms_app. etransitivity; [apply ceq_app_l; exact F4|].
              rewrite <- ms_app. exact G.
           ++ cbn [fst snd] in *. split; [exact F1|]. rewrite ms_app, F2, <- ms_app. exact G.
    + set (s1 := MM _ _ _ _ _ _). pose proof (mm_flush_ms s1 W2) as Y.
      split; [unfold mm_flush; cbn [fst]; split; [reflexivity|exact I]|].
      rewrite flush_all.
      etransitivity; [exact Y|]. unfold s1, mm_all. cbn [mm_before mm_mains mm_after].
      rewrite <- !app_assoc. reflexivity.
  - assert (QM : kind_of (ic i) <> Main) by congruence.
    set (s1 := MM (mm_before s) (mm_mains s) (mm_after s ++ [i]) (mm_bcount s) (mm_acount s) (mm_props s)).
    assert (E1 : mm_all s1 = mm_all s ++ [i]).
    { unfold mm_all, s1. cbn [mm_before mm_mains mm_after]. rewrite <- !app_assoc. reflexivity. }
    assert (FIN : forall s2 out n, mm_wf s2 -> ceq (ms (out ++ mm_all s2)) (ms (mm_all s ++ [i])) ->
      let s3 := match ic i with
        | ReportCount => MM (mm_before s2) (mm_mains s2) (mm_after s2) (mm_bcount s2) n (mm_props s2)
        | _ => s2 end in
      mm_wf s3 /\ ceq (ms (out ++ mm_all s3)) (ms (mm_all s ++ [i]))).
    { intros s2 out n F1 F2. destruct (ic i); auto. }
    match goal with |- context [if ?b then _ else _] => destruct b end.
    + set (s1' := MM _ _ _ _ _ _). pose proof (mm_flush_ms s1' W2) as Y.
      assert (X1 : mm_wf (fst (mm_flush s1'))).
      { split; [reflexivity|exact I]. }
      assert (X2 : ceq (ms (snd (mm_flush s1') ++ mm_all (fst (mm_flush s1')))) (ms (mm_all s ++ [i]))).
      { rewrite flush_all.
        etransitivity; [exact Y|]. rewrite <- E1. reflexivity. }
      destruct (mm_flush s1') as [s2 o2]. cbn [fst snd] in *. apply FIN; auto.
    + cbn [fst snd]. apply FIN.
      * split; [apply QA; discriminate|exact W2].
      * unfold ceq. cbn [app]. f_equal. f_equal. exact E1.
  - assert (QM : kind_of (ic i) <> Main) by congruence.
    cbn [fst snd]. split; [split; [apply QA; discriminate|exact W2]|].
    unfold mm_all. cbn [mm_before mm_mains mm_after app]. rewrite <- !app_assoc. reflexivity.
Qed.

Lemma mm_mains_kept l : ceq (ms (run_pass main_merge l)) (ms l).
Proof.
  assert (X : mm_wf (fst (feed main_merge mm_init l)) /\
    ceq (ms (snd (feed main_merge mm_init l) ++ mm_all (fst (feed main_merge mm_init l)))) (ms l)).
  { induction l as [|i l [IH1 IH2]] using rev_ind.
    - split; [split; [reflexivity|exact I]|reflexivity].
    - rewrite feed_app. cbn [feed fst snd]. change (p_append main_merge) with mm_append.
      destruct (mm_step _ i IH1) as [S1 S2].
      destruct (mm_append (fst (feed main_merge mm_init l)) i) as [s1 o1]. cbn [fst snd] in *. split; auto.
      rewrite app_nil_r, <- app_assoc, ms_app. etransitivity; [apply ceq_app_l; exact S2|].
      rewrite <- ms_app, app_assoc, !ms_app. rewrite <- ms_app. apply ceq_app_r. exact IH2. }
  unfold run_pass. change (p_init main_merge) with mm_init.
  destruct (feed main_merge mm_init l) as [s o]. cbn [fst snd] in X. exact (proj2 X).
Qed.

Definition mt_local c (H : kind_of c = Local) : main_tag c = false.
Proof. destruct c; try discriminate; reflexivity. Qed.
Definition mt_global c (H : kind_of c = Global) : main_tag c = false.
Proof. destruct c; try discriminate; reflexivity. Qed.

Lemma run_all_ind (Q : list item -> Prop) ps :
  Forall (fun p => forall l, Q l -> Q (run_pass p l)) ps -> forall l, Q l -> Q (run_all ps l).
Proof.
  induction 1 as [|p ps HP _ IH]; intros l H; auto. cbn [run_all fold_left]. apply IH. auto.
Qed.

Lemma c31 db l : collapse (mains (map cv (optimize db l))) = collapse (mains (map cv l)).
Proof.
  rewrite optimize_all. change (ceq (ms (run_all (map snd (passes db)) l)) (ms l)).
  apply (run_all_ind (fun l' => ceq (ms l') (ms l))); [|reflexivity].
  cbn [passes map snd]. repeat apply Forall_cons; [..|apply Forall_nil]; intros l' H;
    (etransitivity; [|exact H]).
  - unfold ceq. f_equal. apply (du_keep main_tag). apply mt_local.
  - apply mm_mains_kept.
  - unfold ceq. f_equal. apply (pm_keep main_tag); reflexivity.
  - unfold ceq. f_equal. apply (gm_keep main_tag). apply mt_global.
  - unfold ceq. f_equal. apply (rm_keep main_tag); reflexivity.
  - unfold ceq. f_equal. apply (rm_keep main_tag); reflexivity.
  - unfold ceq. f_equal. apply (rm_keep main_tag); reflexivity.
  - unfold ceq. f_equal. apply (up_keep main_tag); reflexivity.
Qed.

(* ------------------------------------------------------------------ *)
(** nesting *)
From Verif Require Import StreamSpec StreamTree Descriptor.

Lemma nest_mains l : forall d, nest d (map fst (mains l)) = nest d (map fst l).
Proof.
  induction l as [|[c v] l IH]; intros d; auto. unfold mains in *. cbn [filter fst map].
  destruct c; cbn [main_tag hid_kind]; cbn [map fst nest]; auto.
  destruct d; auto.
Qed.

Lemma nest_collapse l : forall d, nest d (map fst (collapse l)) = nest d (map fst l).
Proof.
  assert (NC : forall (x : spec_item) (l : list spec_item) d, nest d (map fst (x :: l)) = match nest d [fst x] with Some d' => nest d' (map fst l) | None => None end).
  { intros [c v] l0 d. destruct c; try reflexivity. destruct d; reflexivity. }
  induction l as [|x l IH]; intros d; auto.
  rewrite NC. cbn [collapse]. destruct (collapse l) as [|y r].
  - rewrite NC. destruct (nest d [fst x]); auto.
  - destruct (repeats x y) eqn:R.
    + assert (E : nest d [fst x] = Some d).
      { unfold repeats in R. apply andb_true_iff in R. destruct R as [R _]. apply andb_true_iff in R. destruct R as [R _].
        destruct x as [c v]. cbn [fst] in *. destruct c; try discriminate; reflexivity. }
      rewrite E. apply IH.
    + rewrite NC. destruct (nest d [fst x]); auto.
Qed.

Lemma balanced_mains l : balanced (map ic l) <-> nest 0 (map fst (collapse (mains (map cv l)))) = Some 0%nat.
Proof.
  rewrite nest_collapse, nest_mains, map_map. unfold balanced.
  replace (map (fun x => fst (cv x)) l) with (map ic l) by (apply map_ext; reflexivity). tauto.
Qed.

Lemma c23_optimised db t l : stream_items db t = Ok l -> balanced (map ic (optimize db l)).
Proof. intros H. apply balanced_mains. rewrite c31. apply balanced_mains. eapply c23. exact H. Qed.

(* ------------------------------------------------------------------ *)
(** places of fields *)

Definition sobs (g : gtab) (x : unit) (c : icls) (v : Z) : list place :=
  match c with
  | Collection => [POpen v]
  | EndCollection => [PClose]
  | _ => repeat (PField c (g_rid g) (g_size g)) (Z.to_nat (g_count g))
  end.

Lemma map_repeat {A B} (f : A -> B) x n : map f (repeat x n) = repeat (f x) n.
Proof. induction n as [|n IH]; auto. cbn [repeat map]. rewrite IH. reflexivity. Qed.

Lemma sobs_full m g l c v : map place_of (full_obs m g l c v) = sobs g tt c v.
Proof.
  unfold full_obs, sobs.
  assert (D : map place_of (data_events m g l c v) = repeat (PField c (g_rid g) (g_size g)) (Z.to_nat (g_count g))).
  { unfold data_events. set (n := Z.to_nat (g_count g)).
    destruct (is_constant v); [rewrite map_repeat; reflexivity|].
    destruct (is_variable v); [|rewrite map_repeat; reflexivity].
    rewrite map_map. cbn [place_of mk_attrs f_way f_rid f_size].
    generalize 0%nat. induction n as [|n IH]; intros k; auto. cbn [seq map repeat]. rewrite IH. reflexivity. }
  destruct c; auto.
Qed.

Definition nols (c : icls) (v : Z) (e : bool) (p : Z) (x : unit) : unit := tt.

Definition places (g : gtab) (l : list item) : gtab * list place :=
  let r := m_run tt nols sobs (g, tt) (map wire l) in (fst (fst r), snd r).

Lemma places_seen_gen m l : forall g lo,
  map place_of (snd (m_run lo_init lo_set (full_obs m) (g, lo) (map wire l))) = snd (places g l).
Proof.
  unfold places. cbn [snd]. induction l as [|i l IH]; intros g lo; auto.
  cbn [map m_run]. unfold m_step. destruct (hid_kind (w_cls (wire i))).
  - specialize (IH g lo_init).
    destruct (m_run lo_init lo_set (full_obs m) (g, lo_init) (map wire l)).
    destruct (m_run tt nols sobs (g, tt) (map wire l)). cbn [snd] in *.
    rewrite map_app, sobs_full, IH. reflexivity.
  - specialize (IH (g_set (w_cls (wire i)) (w_val (wire i)) g) lo).
    destruct (m_run lo_init lo_set (full_obs m) _ (map wire l)).
    destruct (m_run tt nols sobs _ (map wire l)). exact IH.
  - specialize (IH g (lo_set (w_cls (wire i)) (w_val (wire i)) (w_ext (wire i)) (g_page g) lo)).
    destruct (m_run lo_init lo_set (full_obs m) _ (map wire l)).
    change (nols _ _ _ _ tt) with tt.
    destruct (m_run tt nols sobs _ (map wire l)). exact IH.
Qed.

Lemma places_seen m l : push_free l -> map place_of (seen m l) = snd (places g_init l).
Proof. intros P. rewrite seen_machine by auto. apply places_seen_gen. Qed.

(** only these items matter for places *)
Definition layout_tag (c : icls) : bool :=
  match c with
  | Input | Output | Feature | Collection | EndCollection | ReportID | ReportSize | ReportCount => true
  | _ => false
  end.

Definition geq (g g' : gtab) : Prop := g_rid g = g_rid g' /\ g_size g = g_size g' /\ g_count g = g_count g'.

Fixpoint s_run (g : gtab) (l : list spec_item) : list place :=
  match l with
  | [] => []
  | (c, v) :: r => if main_tag c then sobs g tt c v ++ s_run g r else s_run (g_set c v g) r
  end.

Lemma places_cons g i l : snd (places g (i :: l)) =
  match kind_of (ic i) with
  | Main => sobs g tt (ic i) (ival i) ++ snd (places g l)
  | Global => snd (places (g_set (ic i) (ival i) g) l)
  | Local => snd (places g l)
  end.
Proof.
  unfold places. cbn [map m_run]. unfold m_step. cbn [w_cls wire w_val w_ext].
  destruct (kind_of (ic i)) eqn:K.
  - rewrite (proj2 (hid_main _) K). destruct (m_run tt nols sobs (g, tt) (map wire l)). reflexivity.
  - rewrite (proj2 (hid_global _) K). destruct (m_run tt nols sobs _ (map wire l)). reflexivity.
  - rewrite (proj2 (hid_local _) K). change (nols _ _ _ _ tt) with tt.
    destruct (m_run tt nols sobs _ (map wire l)). reflexivity.
Qed.

Lemma geq_sobs g g' c v : geq g g' -> sobs g tt c v = sobs g' tt c v.
Proof. intros [H1 [H2 H3]]. unfold sobs. rewrite H1, H2, H3. reflexivity. Qed.
Lemma geq_set c v g g' : geq g g' -> geq (g_set c v g) (g_set c v g').
Proof. destruct g, g'. intros [H1 [H2 H3]]. cbn in *. subst. destruct c; repeat split. Qed.
Lemma geq_irr c v g g' : geq g g' -> kind_of c = Global -> layout_tag c = false -> geq (g_set c v g) g'.
Proof. destruct g, g'. intros [H1 [H2 H3]] K L. cbn in *. subst. destruct c; try discriminate; repeat split. Qed.

Lemma places_sel l : forall g g', geq g g' -> snd (places g l) = s_run g' (sel layout_tag l).
Proof.
  induction l as [|i l IH]; intros g g' E; auto.
  rewrite places_cons, sel_cons.
  destruct (kind_of (ic i)) eqn:K.
  - assert (L : layout_tag (ic i) = true) by (destruct (ic i); try discriminate; reflexivity).
    rewrite L. unfold cv at 1. cbn [s_run]. rewrite (proj2 (main_tag_kind _) K), (geq_sobs _ _ _ _ E).
    f_equal. apply IH; auto.
  - destruct (layout_tag (ic i)) eqn:L.
    + unfold cv at 1. cbn [s_run]. rewrite (mt_global _ K). apply IH. apply geq_set; auto.
    + apply IH. apply geq_irr; auto.
  - assert (L : layout_tag (ic i) = false) by (destruct (ic i); try discriminate; reflexivity).
    rewrite L. apply IH; auto.
Qed.

Lemma places_keep l l' : sel layout_tag l' = sel layout_tag l -> forall g, snd (places g l') = snd (places g l).
Proof.
  intros E g. rewrite (places_sel l' g g), (places_sel l g g), E; [reflexivity|repeat split..].
Qed.

(** GlobalMerge *)
Definition gm_sound (s : gm_state) (g : gtab) : Prop :=
  forall c j, s c = Some j -> ic j = c /\ g_set c (ival j) g = g.

Lemma g_set_comm c c' v v' g : c <> c' -> g_set c v (g_set c' v' g) = g_set c' v' (g_set c v g).
Proof. destruct g, c, c'; intros; try reflexivity; congruence. Qed.
Lemma g_set_twice c v v' g : g_set c v (g_set c v' g) = g_set c v g.
Proof. destruct g, c; reflexivity. Qed.

Lemma gm_sound_upd s g i : gm_sound s g -> gm_sound (upd s (ic i) (Some i)) (g_set (ic i) (ival i) g).
Proof.
  intros H c j E. unfold upd in E. destruct (icls_eqb c (ic i)) eqn:C.
  - apply icls_eqb_eq in C. subst c. injection E as <-. split; auto. apply g_set_twice.
  - apply icls_eqb_neq in C. destruct (H c j E) as [H1 H2]. split; auto.
    rewrite g_set_comm by auto. rewrite H2. reflexivity.
Qed.

Lemma gm_init_sound : gm_sound gm_init g_init.
Proof. intros c j E. unfold gm_init in E. destruct c; try discriminate; injection E as <-; split; reflexivity. Qed.

Section GMView.
  Context {X A : Type} (x0 : X) (ls : icls -> Z -> bool -> Z -> X -> X)
          (obs : gtab -> X -> icls -> Z -> list A).
  Lemma gm_feed l : push_free l -> forall s g x, gm_sound s g ->
    m_run x0 ls obs (g, x) (map wire (snd (feed global_merge s l))) = m_run x0 ls obs (g, x) (map wire l).
  Proof.
    induction 1 as [|i l [P1 P2] _ IH]; intros s g x S; auto.
    cbn [feed]. change (p_append global_merge) with gm_append. unfold gm_append, ikd.
    assert (G : forall o s', kind_of (ic i) = Global -> gm_sound s' (g_set (ic i) (ival i) g) ->
      (o = [i] \/ (o = [] /\ g_set (ic i) (ival i) g = g)) ->
      m_run x0 ls obs (g, x) (map wire (o ++ snd (feed global_merge s' l))) = m_run x0 ls obs (g, x) (map wire (i :: l))).
    { intros o s' K S' [-> | [-> Q]].
      - cbn [app map m_run]. unfold m_step. cbn [wire w_cls w_val w_ext].
        rewrite (proj2 (hid_global _) K), (IH s' _ x S'). reflexivity.
      - cbn [app map m_run]. unfold m_step. cbn [wire w_cls w_val w_ext].
        rewrite (proj2 (hid_global _) K). rewrite <- (IH s' _ x S'). rewrite Q.
        destruct (m_run x0 ls obs (g, x) _). reflexivity. }
    destruct (kind_of (ic i)) eqn:K.
    - destruct (feed global_merge s l) as [s2 o2] eqn:F. cbn [snd app map m_run]. unfold m_step. cbn [wire w_cls w_val w_ext].
      rewrite (proj2 (hid_main _) K). specialize (IH s g x0 S). rewrite F in IH. cbn [snd] in IH. rewrite IH. reflexivity.
    - set (keep := _ || _ || _).
      specialize (G (if keep then [i] else []) (upd s (ic i) (Some i)) eq_refl (gm_sound_upd _ _ _ S)).
      destruct (feed global_merge (upd s (ic i) (Some i)) l) as [s2 o2]. cbn [snd] in *. apply G.
      destruct keep eqn:KE; auto. right. split; auto. unfold keep in KE.
      apply orb_false_iff in KE. destruct KE as [KE _]. apply orb_false_iff in KE. destruct KE as [KE _].
      destruct (s (ic i)) as [j|] eqn:SJ; [|discriminate]. apply negb_false_iff, item_eqb_spec in KE.
      destruct (S _ _ SJ) as [Q1 Q2]. destruct KE as [KE1 KE2]. rewrite <- KE2. exact Q2.
    - destruct (feed global_merge s l) as [s2 o2] eqn:F. cbn [snd app map m_run]. unfold m_step. cbn [wire w_cls w_val w_ext].
      rewrite (proj2 (hid_local _) K). specialize (IH s g (ls (ic i) (ival i) (payload_width i =? 4)%nat (g_page g) x) S).
      rewrite F in IH. cbn [snd] in IH. rewrite IH. reflexivity.
  Qed.

  Lemma gm_view l : push_free l ->
    m_run x0 ls obs (g_init, x0) (map wire (run_pass global_merge l)) = m_run x0 ls obs (g_init, x0) (map wire l).
  Proof.
    intros P. unfold run_pass. pose proof (gm_feed l P gm_init g_init x0 gm_init_sound) as X1.
    change (p_init global_merge) with gm_init. destruct (feed global_merge gm_init l) as [s o].
    cbn [snd] in X1. change (p_close global_merge s) with (@nil item). rewrite app_nil_r. exact X1.
  Qed.
End GMView.

(** MainMerge *)
Lemma mm_places l i :
  push_free (l ++ [i]) -> Forall constructed (l ++ [i]) -> kind_of (ic i) = Main -> is_data (ic i) = false ->
  snd (places g_init (run_pass main_merge (l ++ [i]))) = snd (places g_init (l ++ [i])).
Proof.
  intros P C K D. unfold places. cbn [snd].
  pose (R := fun (e1 e2 : @elem unit) => 0 <= g_count (fst (fst (fst e2)))).
  apply (main_merge_view tt nols sobs (fun _ _ => tt) (fun _ => True) R); auto.
  - intros [] _. reflexivity.
  - intros g g' x c v KC DC E. unfold sobs. destruct c; try discriminate; reflexivity.
  - intros lx n g1 x1 c v g2 x2 GR J RR. split; auto.
    destruct J as [JD [_ [_ [JE JC]]]].
    assert (N1 : 1 <= n /\ g_count g1 = 1).
    { split; auto. clear - GR. remember (g1, x1, c, v) as e1. revert g1 x1 c v Heqe1.
      induction GR as [g x c v H|lx n e1 g x c v GR IH J R1 H]; intros; [lia|].
      destruct e1 as [[[g9 x9] c9] v9]. specialize (IH _ _ _ _ eq_refl). lia. }
    unfold R in RR. cbn [fst] in RR.
    assert (Q : g_rid g1 = g_rid g2 /\ g_size g1 = g_size g2).
    { unfold eqw, g_cnt in JE. destruct g1, g2. cbn in *. split; congruence. }
    destruct Q as [Q1 Q2].
    assert (F : forall k g, g_rid (g_cnt k g) = g_rid g /\ g_size (g_cnt k g) = g_size g).
    { intros k g. destruct g. split; reflexivity. }
    unfold sobs. rewrite !count_cnt.
    rewrite (proj1 (F n g1)), (proj2 (F n g1)), (proj1 (F _ g2)), (proj2 (F _ g2)), Q1, Q2.
    destruct c; try discriminate JD; rewrite <- repeat_app; f_equal; lia.
  - intros t1 e1 e2 t2 E J. unfold R.
    assert (I2 : In e2 (itrace tt nols (start tt) (l ++ [i]))) by (rewrite E; apply in_or_app; right; right; left; reflexivity).
    revert I2. clear - C. revert C. generalize (l ++ [i]) as L. intros L C.
    assert (X : forall L g, Forall constructed L -> 0 <= g_count g ->
       forall e, In e (snd (m_run tt nols (fun g x c v => [(g, x, c, v)]) (g, tt) (map wire L))) -> 0 <= g_count (fst (fst (fst e)))).
    { clear. induction L as [|i L IH]; intros g C G e; [contradiction|].
      inversion C as [|? ? C1 C2]; subst. cbn [map m_run]. unfold m_step. cbn [wire w_cls w_val w_ext].
      destruct (kind_of (ic i)) eqn:K.
      - rewrite (proj2 (hid_main _) K). specialize (IH g C2 G e).
        destruct (m_run tt nols _ (g, tt) (map wire L)). cbn [snd app] in *. intros [<-|I2]; auto.
      - rewrite (proj2 (hid_global _) K).
        assert (G2 : 0 <= g_count (g_set (ic i) (ival i) g)).
        { pose proof (constructed_facts i C1) as [[S|S] _].
          - rewrite count_other; auto. intros Q. rewrite Q in S. discriminate.
          - destruct (ic i); destruct g; cbn; auto. }
        specialize (IH _ C2 G2 e). destruct (m_run tt nols _ _ (map wire L)). exact IH.
      - rewrite (proj2 (hid_local _) K). change (nols _ _ _ _ tt) with tt.
        specialize (IH _ C2 G e). destruct (m_run tt nols _ _ (map wire L)). exact IH. }
    intros I2. apply (X L g_init C); [discriminate|exact I2].
Qed.
