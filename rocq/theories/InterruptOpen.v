(* InterruptOpen.v -- an interrupted output leaves a collection open: C85 *)
From Coq Require Import ZifyBool ZifyNat.
From Verif Require Import Py Usage Item Parser Optimizer Descriptor HidSpec Spec ItemFacts ParserFacts
  CodecProofs OptFacts OptSpec Skeleton StreamSpec StreamTree StreamProofs PassFacts Interrupt InterruptSpec InterruptProofs.

(* ------------------------------------------------------------------ *)
(** nesting *)

Lemma nest_up l : forall d e k, nest d l = Some e -> nest (k + d) l = Some (k + e)%nat.
Proof.
  induction l as [|c l IH]; intros d e k H; cbn [nest] in *; [congruence|].
  destruct c; auto. 2:{ destruct d as [|d]; [discriminate|]. rewrite Nat.add_succ_r. auto. }
  rewrite <- Nat.add_succ_r. auto.
Qed.

Lemma nest_prefix a b d e : nest d (a ++ b) = Some e -> exists e', nest d a = Some e'.
Proof.
  revert d. induction a as [|c a IH]; intros d H; cbn [app nest] in *; [eauto|].
  destruct c; eauto. destruct d; eauto.
Qed.

Lemma nest_open l : Forall (fun c => c <> EndCollection) l -> forall d, exists e, nest d l = Some e.
Proof.
  induction 1 as [|c l H _ IH]; intros d; cbn [nest]; [eauto|]. destruct c; auto. congruence.
Qed.

(* ------------------------------------------------------------------ *)
(** what the streamer has appended when it fails *)

Definition unclosed (l : list item) : Prop := Forall (fun i => ic i <> EndCollection) l.
Definition safe (l : list item) : Prop := exists d, nest 0 (map ic l) = Some d.

Lemma emits_classes db l st : exists r, map fst l = map ic (s_items (emits db l st)) ++ r.
Proof.
  induction l as [|[c v] l [r IH]]; [exists []; reflexivity|]. cbn [emits].
  destruct (mk_item db c v) as [i|] eqn:E; [|eexists; reflexivity]. exists r. cbn [s_items map fst app].
  rewrite (mk_item_class _ _ _ _ E), IH. reflexivity.
Qed.

Lemma emits_unclosed db l st : Forall (fun c => c <> EndCollection) (map fst l) -> unclosed (s_items (emits db l st)).
Proof.
  destruct (emits_classes db l st) as [r ->]. intros H. apply Forall_app in H. destruct H as [H _].
  unfold unclosed. rewrite Forall_map in H. exact H.
Qed.

Lemma end_item db : exists i, mk_item db EndCollection (Some (VInt 0)) = Ok i /\ ic i = EndCollection /\ ival i = 0.
Proof. eexists. split; [reflexivity|]. auto. Qed.

Lemma before_unclosed db e named : Forall (fun c => c <> EndCollection) (map fst (value_before db e named)).
Proof.
  unfold value_before. cbv zeta.
  destruct (negb _); [repeat (constructor; [discriminate|]); constructor|].
  rewrite !map_app, !Forall_app. repeat split.
  - destruct (usage_truthy _); repeat (constructor; [discriminate|]); constructor.
  - destruct named.
    + rewrite !map_app, !Forall_app. repeat split; [repeat (constructor; [discriminate|]); constructor| |].
      * destruct (usage_truthy _); repeat (constructor; [discriminate|]); constructor.
      * rewrite map_map. cbn [fst]. apply Forall_map. apply Forall_forall. intros; discriminate.
    + destruct (_ && _); repeat (constructor; [discriminate|]); constructor.
  - repeat (constructor; [discriminate|]); constructor.
  - destruct (_ =? 0); repeat (constructor; [discriminate|]); constructor.
  - destruct (_ =? 0); repeat (constructor; [discriminate|]); constructor.
  - repeat (constructor; [discriminate|]); constructor.
Qed.

Lemma way_known st st' way n : rs_add st way n = Ok st' -> way = 8 \/ way = 9 \/ way = 11.
Proof. unfold rs_add, rs_key. destruct ((way =? 8) || (way =? 9) || (way =? 11)) eqn:E; [lia|discriminate]. Qed.

Lemma emits_main_unclosed db way v st : way = 8 \/ way = 9 \/ way = 11 -> unclosed (s_items (emits_main db way v st)).
Proof.
  intros W. unfold emits_main. destruct (main_class way) as [c|] eqn:E; [|constructor].
  apply emits_unclosed. constructor; [|constructor]. cbn [fst].
  destruct (main_class_ok _ _ E W) as [_ [->|[->| ->]]]; discriminate.
Qed.

Lemma pad_unclosed db e pad st : unclosed (s_items (pad_run db e pad st)).
Proof.
  unfold pad_run. destruct (pad =? 0); [constructor|].
  unfold after at 1. destruct (s_end _) as [st1|].
  - cbn [s_items]. apply Forall_app. split; [apply emits_unclosed; repeat (constructor; [discriminate|]); constructor|].
    unfold after, counts. destruct (rs_add st1 _ pad) as [st2|] eqn:A; [|constructor]. cbn [s_ok s_end s_items app].
    apply emits_main_unclosed. eapply way_known; eauto.
  - apply emits_unclosed. repeat (constructor; [discriminate|]); constructor.
Qed.

Lemma after_unclosed r f x : s_end (after r f) = Err x -> unclosed (s_items r) ->
  (forall st, s_end r = Ok st -> s_end (f st) = Err x -> unclosed (s_items (f st))) -> unclosed (s_items (after r f)).
Proof.
  unfold after. destruct (s_end r) as [st|]; [|auto]. cbn [s_end s_items]. intros E U H. apply Forall_app.
  split; [exact U|apply H; auto].
Qed.

Lemma element_unclosed db st e x : s_end (element_run db st e) = Err x -> unclosed (s_items (element_run db st e)).
Proof.
  unfold element_run. destruct (pad_of st e) as [pad|]; [|intros; constructor].
  intros H. eapply after_unclosed; [exact H|apply pad_unclosed|]. clear H. intros st1 _.
  destruct (v_kind e); [|discriminate..].
  destruct (narr_truthy (v_named e)) as [named|]; [|intros; constructor].
  intros H. eapply after_unclosed; [exact H|apply emits_unclosed, before_unclosed|]. clear H. intros st2 _ H.
  eapply after_unclosed; [exact H|unfold counts; destruct (rs_add _ _ _); constructor|]. clear H. intros st3 A H.
  assert (W : exists s, rs_add st2 (py_int (v_way e)) (v_size e) = Ok s)
    by (unfold counts in A; destruct (rs_add _ _ _); [eauto|discriminate]).
  destruct W as [s W]. apply way_known in W.
  eapply after_unclosed; [exact H|apply emits_main_unclosed; exact W|]. clear H. intros st4 _.
  unfold value_after. destruct (_ && _ && _); intros H; [|discriminate].
  cbn [emits] in H. destruct (end_item db) as [i [E _]]. rewrite E in H. discriminate.
Qed.

Lemma unclosed_safe l : unclosed l -> safe l.
Proof. intros H. apply nest_open. apply Forall_map. exact H. Qed.

Lemma safe_app a b : nest 0 (map ic a) = Some 0%nat -> safe b -> safe (a ++ b).
Proof. intros A [d B]. exists d. rewrite map_app, (nest_app _ _ _ _ A). exact B. Qed.

Definition tame (r : srun) : Prop :=
  match s_end r with Ok _ => nest 0 (map ic (s_items r)) = Some 0%nat | Err _ => safe (s_items r) end.

Lemma tame_safe r : tame r -> safe (s_items r).
Proof. unfold tame. destruct (s_end r); [|auto]. intros H. exists 0%nat. exact H. Qed.

Lemma tame_ok db st t st' : s_end (tree_run db st t) = Ok st' -> nest 0 (map ic (s_items (tree_run db st t))) = Some 0%nat.
Proof.
  intros E. pose proof (tree_agree db t st) as A. unfold agrees in A. rewrite E in A. eapply tree_deep. exact A.
Qed.

Lemma members_tame db ms : Forall (fun t => forall st, tame (tree_run db st t)) ms -> forall st, tame (members_run db ms st).
Proof.
  induction 1 as [|m ms H _ IH]; intros st; [reflexivity|]. rewrite members_cons. specialize (H st). unfold after.
  unfold tame in H. destruct (s_end (tree_run db st m)) as [st1|] eqn:E.
  - specialize (IH st1). unfold tame in *. cbn [s_end s_items]. destruct (s_end (members_run db ms st1)).
    + rewrite map_app, (nest_app _ _ _ _ H). exact IH.
    + apply safe_app; auto.
  - unfold tame. rewrite E. exact H.
Qed.

Lemma tree_tame db t : forall st, tame (tree_run db st t).
Proof.
  induction t as [v|id ms IH|ms IH|k u ms IH] using tree_rect2; intros st; unfold tame;
    (destruct (s_end _) as [st'|x] eqn:E; [eapply tame_ok; eauto|]).
  - apply unclosed_safe. eapply element_unclosed; eauto.
  - rewrite run_report in *. set (l0 := if id =? 0 then [] else [(ReportID, Some (VInt id))]) in *.
    set (st0 := SST id (s_size st)) in *.
    assert (F : unclosed (s_items (emits db l0 st0))).
    { apply emits_unclosed. unfold l0. destruct (id =? 0); repeat (constructor; [discriminate|]); constructor. }
    unfold after in *. destruct (s_end (emits db l0 st0)) as [st1|] eqn:E0; [|apply unclosed_safe; exact F].
    cbn [s_items]. apply safe_app; [|apply tame_safe, members_tame; exact IH].
    unfold l0. destruct (id =? 0); cbn [emits]; [reflexivity|].
    destruct (mk_item db ReportID (Some (VInt id))) as [i|] eqn:M; [|reflexivity]. cbn [s_items map s_ok].
    rewrite (mk_item_class _ _ _ _ M). reflexivity.
  - rewrite run_top. apply tame_safe, members_tame. exact IH.
  - rewrite run_coll in *. set (l0 := [(Usage, u); (Collection, Some k)]) in *.
    assert (F : unclosed (s_items (emits db l0 st))).
    { apply emits_unclosed. repeat (constructor; [discriminate|]); constructor. }
    unfold after at 1 in E. unfold after at 1. destruct (s_end (emits db l0 st)) as [st1|] eqn:E0; [|apply unclosed_safe; exact F].
    cbn [s_items s_end] in *. unfold after in E. pose proof (members_tame db ms IH st1) as T. unfold after.
    destruct (s_end (members_run db ms st1)) as [st2|] eqn:E1.
    + cbn [s_end] in E. cbn [emits] in E. destruct (end_item db) as [i [M _]]. rewrite M in E. discriminate.
    + apply tame_safe in T. destruct T as [d T].
      destruct (nest_open (map ic (s_items (emits db l0 st))) ltac:(apply Forall_map; exact F) 0) as [d0 N].
      exists (d0 + d)%nat. rewrite map_app, (nest_app _ _ _ _ N). replace d0 with (d0 + 0)%nat at 1 by lia. apply nest_up. exact T.
Qed.

(* ------------------------------------------------------------------ *)
(** trees with one collection around everything *)

Definition bare_of_mains (l : list item) : Prop := Forall (fun i => main_tag (ic i) = false) l.

Inductive shape : list item -> result unit -> Prop :=
| sh_none l x : bare_of_mains l -> shape l (Err x)
| sh_open pre c mid x : bare_of_mains pre -> ic c = Collection -> safe mid -> shape (pre ++ c :: mid) (Err x)
| sh_done pre c mid e : bare_of_mains pre -> ic c = Collection -> safe mid -> ic e = EndCollection -> ival e = 0 ->
    shape ((pre ++ c :: mid) ++ [e]) (Ok tt).

Definition outcome (r : srun) : result unit := match s_end r with Ok _ => Ok tt | Err e => Err e end.

Lemma shape_pre a l r : bare_of_mains a -> shape l r -> shape (a ++ l) r.
Proof.
  intros A S. destruct S.
  - apply sh_none. apply Forall_app; split; assumption.
  - rewrite app_assoc. apply sh_open; auto. apply Forall_app; split; assumption.
  - rewrite !app_assoc. apply sh_done; auto. apply Forall_app; split; assumption.
Qed.

Lemma one_member db m st : members_run db [m] st = tree_run db st m.
Proof.
  rewrite members_cons. unfold after. destruct (tree_run db st m) as [l [s|x]]; [|reflexivity].
  cbn. rewrite app_nil_r. reflexivity.
Qed.

Lemma enclosed_shape db t : enclosed t -> forall st, shape (s_items (tree_run db st t)) (outcome (tree_run db st t)).
Proof.
  induction 1 as [k u ms|t _ IH|id t _ IH]; intros st.
  - rewrite run_coll. unfold outcome, after. cbn [emits].
    destruct (mk_item db Usage u) as [iu|x] eqn:MU; [|constructor; constructor].
    destruct (mk_item db Collection (Some k)) as [c|x] eqn:MC;
      [|constructor; repeat constructor; rewrite (mk_item_class _ _ _ _ MU); reflexivity].
    apply mk_item_class in MU, MC. cbn [s_end s_items s_ok].
    pose proof (tame_safe _ (members_tame db ms (proj2 (Forall_forall _ _) (fun t _ => tree_tame db t)) st)) as T.
    destruct (members_run db ms st) as [mid [st1|x]]; cbn [s_items s_end] in *.
    + destruct (end_item db) as [e [ME [E1 E2]]]. rewrite ME. cbn [s_items s_end s_ok].
      change ([iu; c] ++ mid ++ [e]) with (([iu] ++ c :: mid) ++ [e]). apply sh_done; auto.
      repeat constructor. rewrite MU. reflexivity.
    + change ([iu; c] ++ mid) with ([iu] ++ c :: mid). apply sh_open; auto. repeat constructor. rewrite MU. reflexivity.
  - rewrite run_top, one_member. apply IH.
  - rewrite run_report. set (l0 := if id =? 0 then [] else [(ReportID, Some (VInt id))]). set (st0 := SST id (s_size st)).
    assert (B : bare_of_mains (s_items (emits db l0 st0))).
    { unfold l0. destruct (id =? 0); cbn [emits]; [constructor|].
      destruct (mk_item db ReportID (Some (VInt id))) eqn:M; [|constructor]. cbn [s_items s_ok].
      repeat constructor. rewrite (mk_item_class _ _ _ _ M). reflexivity. }
    unfold outcome, after. destruct (emits db l0 st0) as [l1 [st1|x]]; cbn [s_items s_end] in *.
    + rewrite one_member. apply shape_pre; auto. apply IH.
    + constructor. exact B.
Qed.

(* ------------------------------------------------------------------ *)
(** through the optimiser *)

Lemma rm_ends db lk mn mx l : ends l -> ends (run_pass (range_merge db lk mn mx) l).
Proof.
  intros [l' [i [-> [K D]]]]. unfold run_pass. rewrite feed_app.
  destruct (feed (range_merge db lk mn mx) (p_init (range_merge db lk mn mx)) l') as [s o]. cbn [fst snd feed].
  change (p_append (range_merge db lk mn mx)) with (rm_append db lk mn mx). unfold rm_append, ikd. rewrite K. cbn [fst snd].
  change (p_close (range_merge db lk mn mx) (RM true None None [i])) with [i]. eexists _, i. split; [reflexivity|auto].
Qed.

Lemma up_ends db l : ends l -> ends (run_pass (usage_page_pass db) l).
Proof.
  intros [l' [i [-> [K D]]]]. unfold run_pass. rewrite feed_app.
  destruct (feed (usage_page_pass db) (p_init (usage_page_pass db)) l') as [s o]. cbn [fst snd feed].
  change (p_append (usage_page_pass db)) with (up_append db). unfold up_append.
  assert (U : is_usage (ic i) = false) by (destruct (ic i); auto; discriminate). rewrite U. cbn [fst snd].
  change (p_close (usage_page_pass db) _) with (@nil item). rewrite !app_nil_r. exists o, i. auto.
Qed.

Lemma optimize_ends db l : ends l -> ends (optimize db l).
Proof.
  rewrite optimize_all. apply (run_all_ind ends). cbn [passes map snd].
  repeat apply Forall_cons; [..|apply Forall_nil].
  - apply du_ends. - apply mm_ends. - apply pm_ends. - apply gm_ends.
  - apply rm_ends. - apply rm_ends. - apply rm_ends. - apply up_ends.
Qed.

Lemma collapse_plain x l : data_tag (fst x) = false -> collapse (x :: l) = x :: collapse l.
Proof.
  intros D. cbn [collapse]. destruct (collapse l) as [|y r]; [reflexivity|]. unfold repeats. rewrite D. reflexivity.
Qed.

Lemma collapse_head l x r : data_tag (fst x) = false -> collapse l = x :: r -> exists l', l = x :: l' /\ collapse l' = r.
Proof.
  intros D. destruct l as [|y l]; [discriminate|]. cbn [collapse]. destruct (collapse l) as [|z q] eqn:E.
  - intros H. injection H as <- <-. eauto.
  - destruct (repeats y z) eqn:R.
    + intros H. injection H as -> ->. unfold repeats in R. apply andb_true_iff in R. destruct R as [R _].
      apply andb_true_iff in R. destruct R as [R1 R2].
      assert (Q : fst y = fst x) by (revert R2; destruct (fst y), (fst x); (reflexivity || discriminate)). congruence.
    + intros H. injection H as -> <-. eauto.
Qed.

Lemma collapse_last l x : data_tag (fst x) = false -> collapse (l ++ [x]) = collapse l ++ [x].
Proof.
  intros D. induction l as [|y l IH]; [reflexivity|]. cbn [app collapse]. rewrite IH.
  destruct (collapse l) as [|z q]; cbn [app].
  - unfold repeats. destruct (data_tag (fst y)) eqn:Y; [|reflexivity].
    assert (N : icls_eqb (fst y) (fst x) = false) by (revert D Y; destruct (fst y), (fst x); (reflexivity || discriminate)).
    rewrite N. reflexivity.
  - destruct (repeats y z); reflexivity.
Qed.

Lemma mains_app a b : mains (a ++ b) = mains a ++ mains b.
Proof. apply filter_app. Qed.

Lemma bare_mains l : bare_of_mains l -> mains (map cv l) = [].
Proof.
  induction 1 as [|i l H _ IH]; [reflexivity|]. unfold mains in *. cbn [map filter]. unfold cv at 1. cbn [fst]. rewrite H. exact IH.
Qed.

Lemma mains_bare l : mains (map cv l) = [] -> bare_of_mains l.
Proof.
  induction l as [|i l IH]; [constructor|]. unfold mains in *. cbn [map filter]. unfold cv at 1. cbn [fst].
  destruct (main_tag (ic i)) eqn:E; [discriminate|]. intros H. apply Forall_cons; [exact E|apply IH; exact H].
Qed.

Lemma nest_items d l : nest d (map fst (mains (map cv l))) = nest d (map ic l).
Proof. rewrite nest_mains, map_map. reflexivity. Qed.

Definition standing (w : list item) : Prop := bare_of_mains w \/ exists d, nest 0 (map ic w) = Some (S d).

(** a part of something with the same main items as an open collection *)
Lemma standing_part pre c mid o w r :
  bare_of_mains pre -> ic c = Collection -> safe mid ->
  collapse (mains (map cv o)) = collapse (mains (map cv (pre ++ c :: mid))) -> o = w ++ r -> standing w.
Proof.
  intros B C [d S] E ->.
  rewrite (map_app cv pre), mains_app, (bare_mains pre B) in E. cbn [app map] in E.
  assert (M : mains (cv c :: map cv mid) = cv c :: mains (map cv mid)).
  { unfold mains. cbn [filter]. unfold cv at 1. cbn [fst]. rewrite C. reflexivity. }
  rewrite M in E. assert (D : data_tag (fst (cv c)) = false) by (unfold cv; cbn [fst]; rewrite C; reflexivity).
  rewrite (collapse_plain _ _ D) in E. apply (collapse_head _ _ _ D) in E. destruct E as [m [E1 E2]].
  assert (S' : nest 0 (map fst m) = Some d).
  { rewrite <- nest_collapse, E2, nest_collapse, nest_items. exact S. }
  rewrite map_app, mains_app in E1. destruct (mains (map cv w)) as [|x mw] eqn:W.
  - left. apply mains_bare. exact W.
  - right. injection E1 as -> E1. rewrite <- nest_items, W. cbn [map]. unfold cv at 1. cbn [fst]. rewrite C. cbn [nest].
    rewrite <- E1, map_app in S'. destruct (nest_prefix _ _ _ _ S') as [d' P]. exists d'.
    exact (nest_up _ _ _ 1 P).
Qed.

Lemma standing_bare o l w r : bare_of_mains l -> collapse (mains (map cv o)) = collapse (mains (map cv l)) -> o = w ++ r -> standing w.
Proof.
  intros B E ->. left. rewrite (bare_mains l B) in E. cbn [collapse] in E.
  assert (M : mains (map cv (w ++ r)) = []).
  { destruct (mains (map cv (w ++ r))) as [|x q]; auto. cbn [collapse] in E. destruct (collapse q); [discriminate|]. destruct (repeats x _); discriminate. }
  rewrite map_app, mains_app in M. apply app_eq_nil in M. apply mains_bare. tauto.
Qed.

Lemma end_bytes i x : ic i = EndCollection -> ival i = 0 -> bytes i = Err x -> False.
Proof.
  intros A B E. assert (R : in_range (ic i) (ival i)) by (rewrite A, B; vm_compute; intuition discriminate).
  rewrite (bytes_eq i R) in E. discriminate.
Qed.

(** the written part of an output with the main items of [l], ending like [l] *)
Lemma standing_shape l o e x : shape l e -> collapse (mains (map cv o)) = collapse (mains (map cv l)) ->
  (e = Ok tt -> ends o) -> finished (reach o e) = Err x -> standing (appended (reach o e)).
Proof.
  intros S E EN F. destruct (reach_prefix o e) as [r [P D]]. destruct S.
  - eapply standing_bare; eauto.
  - eapply standing_part; eauto.
  - destruct D as [[_ D]|[i [r' [y [-> [BY _]]]]]]; [congruence|].
    destruct (EN eq_refl) as [o1 [z [Z [KZ DZ]]]].
    assert (EZ : cv z = cv e /\ collapse (mains (map cv o1)) = collapse (mains (map cv (pre ++ c :: mid)))).
    { rewrite Z in E. rewrite !map_app, !mains_app in E. cbn [map] in E.
      assert (M1 : mains [cv z] = [cv z]) by (unfold mains; cbn [filter]; unfold cv at 1; cbn [fst]; destruct (ic z); try discriminate; reflexivity).
      assert (M2 : mains [cv e] = [cv e]) by (unfold mains; cbn [filter]; unfold cv at 1; cbn [fst]; rewrite H2; reflexivity).
      rewrite M1, M2 in E. rewrite !collapse_last in E;
        [|unfold cv; cbn [fst]; rewrite H2; reflexivity|unfold cv; cbn [fst]; destruct (ic z); try discriminate; reflexivity].
      apply app_inj_tail in E. destruct E as [E1 E2]. split; auto.
      rewrite (map_app cv pre), mains_app. exact E1. }
    destruct EZ as [EZ E1].
    assert (NZ : exists q, o1 = appended (reach o (Ok tt)) ++ q).
    { destruct (@exists_last _ (i :: r') ltac:(discriminate)) as [q [z' Q]].
      rewrite Q in P. rewrite P, app_assoc in Z. apply app_inj_tail in Z. destruct Z as [Z1 Z2]. subst z'.
      exists q. symmetry. exact Z1. }
    destruct NZ as [q Q]. eapply standing_part with (o := o1) (mid := mid); eauto.
Qed.

Lemma through_mains db l e : exists r, appended (through (optimizer_new db sink 0 100) (Run l e)) ++ r = optimize db l.
Proof.
  unfold through, optimize, run_pass. cbn [appended finished]. destruct (feed _ _ l) as [s o]. cbn [fst snd].
  destruct e; [exists []; rewrite app_nil_r; reflexivity|]. exists (p_close (optimizer_new db sink 0 100) s). rewrite app_nil_r. reflexivity.
Qed.

Lemma c85_open_items db opt t x : enclosed t -> finished (compile_run db opt t) = Err x ->
  standing (appended (compile_run db opt t)).
Proof.
  intros E F. pose proof (enclosed_shape db t E sst_init) as S. unfold outcome in S.
  unfold compile_run, written in *. unfold stream_run in *.
  set (l := s_items (tree_run db sst_init t)) in *.
  set (e := match s_end (tree_run db sst_init t) with Ok _ => Ok tt | Err e => Err e end) in *.
  clearbody l e. destruct opt.
  2:{ cbn [appended finished] in *. eapply (standing_shape l l); eauto. intros Q. rewrite Q in S.
      inversion S. eexists _, _. split; [reflexivity|]. match goal with H : ic _ = EndCollection |- _ => rewrite H end. auto. }
  pose proof (through_mains db l e) as [r T].
  set (o := appended (through (optimizer_new db sink 0 100) (Run l e))) in *.
  change (finished (through (optimizer_new db sink 0 100) (Run l e))) with e in *.
  assert (CO : collapse (mains (map cv (optimize db l))) = collapse (mains (map cv l))) by apply c31.
  destruct e as [[]|e0].
  - assert (O : o = optimize db l) by (unfold o; rewrite through_ok; reflexivity).
    rewrite O in *. eapply standing_shape; eauto. intros _. apply optimize_ends.
    inversion S. eexists _, _. split; [reflexivity|]. match goal with H : ic _ = EndCollection |- _ => rewrite H end. auto.
  - destruct (reach_prefix o (Err e0)) as [q [Q _]].
    assert (P : optimize db l = appended (reach o (Err e0)) ++ (q ++ r)) by (rewrite <- T, Q at 1; rewrite <- app_assoc; reflexivity).
    inversion S; subst.
    + eapply standing_bare; eauto.
    + eapply standing_part; eauto.
Qed.

Lemma c85_open db opt t x w ws : enclosed t -> finished (compile_run db opt t) = Err x ->
  serialize (appended (compile_run db opt t)) = Ok w -> blob_means w ws ->
  nothing_declared ws \/ exists d, nest 0 (map w_cls ws) = Some (S d).
Proof.
  intros E F S B. rewrite (blob_means_fun w ws _ B (serialize_means _ _ S)).
  destruct (c85_open_items db opt t x E F) as [N|N]; [left|right].
  - unfold nothing_declared. rewrite Forall_map. exact N.
  - rewrite map_map. exact N.
Qed.

Lemma c85_whole db opt t : exists w ws, serialize (appended (compile_run db opt t)) = Ok w /\ blob_means w ws.
Proof.
  unfold compile_run, written. cbv zeta. destruct (reach_writes (appended (if opt then through (optimizer_new db sink 0 100) (stream_run db t) else stream_run db t))
    (finished (if opt then through (optimizer_new db sink 0 100) (stream_run db t) else stream_run db t))) as [w W].
  exists w. eexists. split; [exact W|]. apply serialize_means. exact W.
Qed.

(* ------------------------------------------------------------------ *)
(** the converter *)

Lemma wires l ws : map (fun i => (ic i, ival i)) l = map w_what ws -> map w_what (map wire l) = map w_what ws.
Proof. intros <-. rewrite map_map. reflexivity. Qed.

Lemma c85_converter db b : Forall is_byte b ->
  exists good rest ws w ws',
    b = good ++ rest /\ blob_means good ws /\ Forall number_allowed ws /\
    serialize (appended (convert_run db false b)) = Ok w /\ blob_means w ws' /\ map w_what ws' = map w_what ws /\
    (rest = [] /\ finished (convert_run db false b) = Ok tt \/
     exists p t e, rest = p :: t /\ finished (convert_run db false b) = Err e /\
       forall data more, t = data ++ more -> length data = size_of_code (p mod 4) ->
         ~ known_item (Raw ((p / 4) mod 4) (p / 16) data)).
Proof.
  intros FB. destruct (c07_exhaustive b FB) as [[ws [B N]]|[good [ws [p [t [-> [B [N [P [T K]]]]]]]]]].
  - destruct (c06 db b FB) as [C1 C2]. pose proof (C2 ws B N) as M.
    assert (F : finished (blob_parse db b) = Ok tt) by (apply C1; eauto).
    destruct (serialize_ok (appended (blob_parse db b)) (delivered_range b ws _ B M)) as [w S].
    exists b, [], ws, w, (map wire (appended (blob_parse db b))). unfold convert_run, written.
    rewrite (reach_ok _ _ w S). cbn [appended finished]. rewrite app_nil_r.
    repeat split; auto. + apply serialize_means; auto. + apply wires; auto.
  - destruct (c07 db good ws p t B N P T K) as [l [e [R M]]].
    destruct (serialize_ok l (delivered_range good ws _ B M)) as [w S].
    exists good, (p :: t), ws, w, (map wire l). unfold convert_run, written. rewrite R. cbn [appended finished].
    rewrite (reach_ok _ _ w S). cbn [appended finished].
    repeat split; auto. + apply serialize_means; auto. + apply wires; auto.
    + right. exists p, t, e. auto.
Qed.

Lemma serialize_split a b w : serialize (a ++ b) = Ok w -> exists x y, serialize a = Ok x /\ serialize b = Ok y /\ w = x ++ y.
Proof.
  revert w. induction a as [|i a IH]; intros w H; [exists [], w; auto|]. cbn [app serialize] in *.
  destruct (bytes i) as [bi|]; [|discriminate]. cbn [bind] in *. destruct (serialize (a ++ b)) as [s|]; [|discriminate].
  cbn [bind] in H. injection H as <-. destruct (IH s eq_refl) as [x [y [-> [Y ->]]]]. cbn [bind].
  exists (bi ++ x), y. rewrite app_assoc. auto.
Qed.

Lemma parse_common db b raws :
  short_items b raws -> Forall acceptable raws ->
  forall page, exists l page', forall rest,
    parse_from db page (b ++ rest) =
    let r := parse_from db page' rest in Run (l ++ appended r) (finished r).
Proof.
  induction 1 as [|p data rest0 l Hp HF HL HS IH]; intros HA page.
  - exists [], page. intros rest. cbn [app]. cbv zeta. destruct (parse_from db page rest); auto.
  - inversion HA as [|? ? HA1 HA2]; subst.
    destruct (proj1 (parse_item_iff db p data Hp HF HL) HA1) as [i [Hi [Hm Hc]]].
    destruct (parser_append_ok db page i Hc) as [j [Hj _]].
    destruct (IH HA2 (match ic i with UsagePage => ival i | _ => page end)) as [l' [page' E]].
    exists (j :: l'), page'. intros rest.
    cbn [app]. rewrite parse_from_cons. cbv zeta.
    rewrite <- HL, <- app_assoc, firstn_app, firstn_all, Nat.sub_diag, skipn_app, skipn_all, Nat.sub_diag.
    cbn [firstn skipn]. rewrite app_nil_r, app_nil_l, Hi, Hj, E. reflexivity.
Qed.

(** with the optimiser: the beginning of what the good part alone would give *)
Lemma c85_converter_optimised db good ws p t full :
  blob_means good ws -> Forall number_allowed ws -> is_byte p -> Forall is_byte t ->
  (forall data rest, t = data ++ rest -> length data = size_of_code (p mod 4) ->
     ~ known_item (Raw ((p / 4) mod 4) (p / 16) data)) ->
  finished (convert_run db true good) = Ok tt -> serialize (appended (convert_run db true good)) = Ok full ->
  exists w e, finished (convert_run db true (good ++ p :: t)) = Err e /\
    serialize (appended (convert_run db true (good ++ p :: t))) = Ok w /\ exists more, full = w ++ more.
Proof.
  intros [raws [SI EI]] N P T K FG SG. apply allowed_forall in N.
  destruct (parse_common db good raws SI (means_acceptable _ _ _ SI EI N) 0) as [l [page' C]].
  assert (PG : blob_parse db good = Run l (Ok tt)).
  { specialize (C []). rewrite app_nil_r in C. rewrite blob_parse_from, C, parse_from_nil. cbv zeta. cbn [appended finished]. rewrite app_nil_r. reflexivity. }
  assert (PB : exists e, blob_parse db (good ++ p :: t) = Run l (Err e)).
  { destruct (parse_bad_front db p t P T) with (page := page') as [e E].
    { intros data rest H1 H2 A. apply (K data rest H1 H2). apply known_acceptable. exact A. }
    exists e. rewrite blob_parse_from, C, E. cbv zeta. cbn [appended finished]. rewrite app_nil_r. reflexivity. }
  destruct PB as [e PB]. unfold convert_run, written in *. rewrite PG in FG, SG. rewrite PB. rewrite through_ok in FG, SG.
  cbn [appended finished] in FG, SG.
  destruct (proj1 (reach_iff _ _ _) (conj FG SG)) as [_ S].
  destruct (through_mains db l (Err e)) as [r TM]. unfold optimize in TM. rewrite <- TM in S.
  destruct (serialize_split _ _ _ S) as [x [y [SX [SY ->]]]]. cbv zeta.
  change (finished (through (optimizer_new db sink 0 100) (Run l (Err e)))) with (Err e : result unit).
  rewrite (reach_ok _ (Err e) x SX). cbn [appended finished]. exists x, e. eauto.
Qed.
