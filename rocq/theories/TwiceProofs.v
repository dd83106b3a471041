(* TwiceProofs.v -- proofs about decompiling what was decompiled and compiled *)
From Coq Require Import ZArith List Bool Lia ZifyBool ZifyNat String.
From Verif Require Import Py Usage Item Parser Optimizer Descriptor Extractor HidSpec Spec StreamSpec OptSpec AllSpec ExtractSpec
  ItemFacts ParserFacts CodecProofs UsageProofs TextProofs PlainHost StreamProofs OptFacts PassFacts StreamTree TreeOpt
  ExtractFacts ExtractView ExtractAgain BackSpec DumpSpec DumpProofs AcceptSpec CompileAccept ExtractStore ExtractFit ExtractPrefix
  ExtractBack NameBack BytesBack TwiceSpec.
Import ListNotations.
Local Open Scope list_scope.
Local Open Scope Z_scope.

(** when the root was made *)
Definition rooted_now (s : xst) : Prop :=
  x_stack s = [] /\ x_root s = Some (TTop (report_insert_members (lv_members (x_current s)) None)).

Lemma add_values_root l : forall s s', add_values s l = Ok s' -> x_root s' = x_root s.
Proof.
  induction l as [|[v|e] l IH]; intros s s' H; [cbn in H; congruence| |discriminate H]. cbn [add_values bind] in H.
  rewrite (IH _ _ H). reflexivity.
Qed.

Lemma data_root db s i s' : handle_data db s i = Ok s' -> x_root s' = x_root s.
Proof.
  unfold handle_data. destruct (negb (Z.land (ival i) fl_Constant =? 0)).
  - destruct (mk_padding _ _) as [v|e]; [|discriminate]. cbn [bind]. intros H. injection H as <-. reflexivity.
  - set (m := Z.of_nat _ =? _). destruct (if _ && m then _ else _) as [inn|e]; [|discriminate]. cbn [bind]. destruct inn.
    + destruct (x_leave s false) as [s1|e] eqn:EL; [|discriminate]. cbn [bind].
      destruct (lv_members (x_current s)) as [|? ?]; [|discriminate]. destruct (lv_head (x_current s)) as [[k u]|]; [|discriminate].
      destruct (named_value db s i u (named_of_usages db s)) as [v|e]; [|discriminate]. cbn [bind]. intros H. injection H as <-.
      unfold x_leave in EL. destruct (x_stack s); [discriminate EL|]. injection EL as <-. reflexivity.
    + destruct ((ival i =? 0) && m); [intros H; apply add_values_root in H; exact H|].
      destruct (negb (Z.land (ival i) fl_BufferedBytes =? 0)); [|intros H; apply add_values_root in H; exact H].
      destruct (plain_value db s i 0 (gval s ReportCount)) as [v|e]; [|discriminate]. cbn [bind]. intros H. injection H as <-. reflexivity.
Qed.

Lemma step_root db s i s' : x_append db s i = Ok s' -> x_root s' = x_root s \/ rooted_now s'.
Proof.
  intros H. unfold x_append, ikd in H. destruct (kind_of (ic i)) eqn:K.
  - destruct (data_tag (ic i)) eqn:DT.
    + assert (EH : (let* s1 := handle_data db (expand_ranges s) i in Ok (locals_clear s1)) = Ok s') by (destruct (ic i); try discriminate DT; exact H).
      destruct (handle_data db (expand_ranges s) i) as [s1|e] eqn:E1; [|discriminate EH]. cbn [bind] in EH. injection EH as <-.
      left. exact (data_root _ _ _ _ E1).
    + destruct (ic i) eqn:EI; try discriminate DT; try discriminate K.
      * cbn [bind] in H. injection H as <-. left. reflexivity.
      * assert (END : forall s1, x_root s1 = x_root s ->
          x_root (locals_clear match x_stack s1 with [] => x_ended s1 | _ :: _ => s1 end) = x_root s \/
          rooted_now (locals_clear match x_stack s1 with [] => x_ended s1 | _ :: _ => s1 end)).
        { intros s1 E. destruct (x_stack s1) eqn:ES; [right; split; [exact ES|reflexivity]|left; exact E]. }
        destruct (x_innamed (expand_ranges s)).
        -- cbn [bind] in H. match type of H with Ok ?q = _ => assert (Q : s' = q) by congruence end. rewrite Q. apply END. reflexivity.
        -- destruct (x_leave (expand_ranges s) true) as [s1|e] eqn:E1; [|discriminate H]. cbn [bind] in H.
           match type of H with Ok ?q = _ => assert (Q : s' = q) by congruence end. rewrite Q. apply END.
           unfold x_leave in E1. destruct (x_stack (expand_ranges s)); [discriminate E1|]. injection E1 as <-. reflexivity.
  - injection H as <-. left. reflexivity.
  - injection H as <-. left. destruct (ic i); reflexivity.
Qed.

Lemma run_root db l : forall s s', x_run db s l = Ok s' ->
  x_root s' = x_root s \/ exists l1 l2 s1, l = l1 ++ l2 /\ x_run db s l1 = Ok s1 /\ rooted_now s1 /\ x_root s1 = x_root s'.
Proof.
  induction l as [|i l IH]; intros s s' R; cbn [x_run] in R.
  - injection R as <-. left. reflexivity.
  - destruct (x_append db s i) as [s1|e] eqn:E1; [|discriminate R]. cbn [bind] in R.
    destruct (IH s1 s' R) as [E|[l1 [l2 [s2 [-> [R1 [RN E]]]]]]].
    + destruct (step_root db s i s1 E1) as [E'|RN]; [left; congruence|]. right. exists [i], l, s1.
      split; [reflexivity|]. split; [cbn [x_run]; rewrite E1; reflexivity|]. split; [exact RN|congruence].
    + right. exists (i :: l1), l2, s2. split; [reflexivity|]. split; [cbn [x_run]; rewrite E1; exact R1|]. auto.
Qed.

(** what every value the Extractor makes has *)
Definition modestly (x : leaf) : Prop :=
  match x with
  | LVal _ v => real v = true ->
      (v_count v = 1 \/ (is_array v = false /\ Z.testbit (py_int (v_flags v)) 8 = true)) /\
      (is_array v = true -> py_int (v_unit v) = 0 /\ v_uexp v = 0)
  | _ => True
  end.

Lemma plain_modestly db s i n k r v : k = 1 \/ is_buffered (ival i) = true -> plain_value db s i n k = Ok v -> modestly (LVal r v).
Proof.
  intros B E _. destruct (plain_value_ok db s i n k) as [w [EW [_ [_ [_ [_ [FW [_ [_ [NW [_ [_ [_ [_ [CW _]]]]]]]]]]]]]]].
  assert (w = v) by congruence. subst w. unfold is_array. rewrite NW. cbn [array_usages]. split; [|discriminate].
  destruct B as [->|B]; [left; exact CW|]. right. split; [reflexivity|]. rewrite FW. fold (ival i).
  rewrite Z.testbit_odd, Z.shiftr_div_pow2 by lia. exact B.
Qed.

Lemma named_modestly db s i u a r v : named_value db s i u a = Ok v -> modestly (LVal r v).
Proof.
  intros E _. unfold named_value in E. destruct (mk_value_fields _ _ _ E) as [_ [_ [_ [_ [CT [_ [UN [UE _]]]]]]]].
  cbn [a_count a_unit a_uexp] in *. split; [left; exact CT|]. intros _. split; [rewrite UN; reflexivity|exact UE].
Qed.

Lemma modestly_data db s i s' : handle_data db s i = Ok s' -> Forall modestly (open_leaves s) -> Forall modestly (open_leaves s').
Proof.
  unfold handle_data.
  assert (LC : Z.land (ival i) fl_Constant =? 0 = negb (is_constant (ival i))) by apply odd_land.
  assert (LB : Z.land (ival i) fl_BufferedBytes =? 0 = negb (is_buffered (ival i))) by apply buffered_land.
  rewrite LC, LB, !negb_involutive. destruct (is_constant (ival i)) eqn:EC.
  - destruct (mk_padding _ _) as [v|e] eqn:EV; [|discriminate]. cbn [bind]. intros H F. injection H as <-.
    rewrite add_value_leaves. apply Forall_app. split; [exact F|]. constructor; [|constructor].
    intros RV. unfold real in RV. apply mk_value_fields in EV. destruct EV as [EV _]. rewrite EV in RV. discriminate RV.
  - set (matches := Z.of_nat (length (x_usages s)) =? _). set (q := _ && matches).
    destruct (if q then _ else _) as [inn|e] eqn:EI; [|discriminate]. cbn [bind]. destruct inn.
    + destruct (x_leave s false) as [s1|e] eqn:EL; [|discriminate]. cbn [bind].
      destruct (lv_members (x_current s)) eqn:EM; [|discriminate].
      destruct (lv_head (x_current s)) as [[k u]|] eqn:EH; [|discriminate].
      destruct (named_value _ _ _ _ _) as [v|e] eqn:EV; [|discriminate]. cbn [bind]. intros H F. injection H as <-.
      rewrite add_value_leaves. apply Forall_app. split.
      * apply (leave_prefix s s1 modestly false EL I F).
      * constructor; [|constructor]. eapply named_modestly; exact EV.
    + destruct ((ival i =? 0) && matches).
      * intros H F. apply add_values_spec in H. destruct H as [vs [EV [_ [_ [_ [_ [_ L]]]]]]]. rewrite L. apply Forall_app. split; [exact F|].
        apply Forall_map. apply Forall_forall. intros v IV. apply (in_map Ok) in IV. rewrite <- EV in IV. apply repeat_spec in IV. symmetry in IV.
        eapply named_modestly; exact IV.
      * destruct (is_buffered (ival i)) eqn:EB.
        -- destruct (plain_value _ _ _ _ _) as [v|e] eqn:EV; [|discriminate]. cbn [bind]. intros H F. injection H as <-.
           rewrite add_value_leaves. apply Forall_app. split; [exact F|]. constructor; [|constructor].
           eapply plain_modestly; [right; exact EB|exact EV].
        -- intros H F. apply add_values_spec in H. destruct H as [vs [EV [_ [_ [_ [_ [_ L]]]]]]]. rewrite L. apply Forall_app. split; [exact F|].
           apply Forall_map. apply Forall_forall. intros v IV. apply (in_map Ok) in IV. rewrite <- EV in IV. apply in_map_iff in IV. destruct IV as [n [IV _]].
           eapply plain_modestly; [left; reflexivity|exact IV].
Qed.

Lemma modestly_step db s i s' : x_append db s i = Ok s' -> Forall modestly (open_leaves s) -> Forall modestly (open_leaves s').
Proof.
  intros H F. unfold x_append, ikd in H. destruct (kind_of (ic i)) eqn:K.
  - set (s0 := expand_ranges s) in *. change (open_leaves s) with (open_leaves s0) in F.
    destruct (data_tag (ic i)) eqn:DT.
    + assert (EH : (let* s1 := handle_data db s0 i in Ok (locals_clear s1)) = Ok s') by (destruct (ic i); try discriminate DT; exact H).
      destruct (handle_data db s0 i) as [s1|e] eqn:E1; [|discriminate EH]. cbn [bind] in EH. injection EH as <-.
      rewrite clear_same. eapply modestly_data; eauto.
    + destruct (ic i) eqn:EC; try discriminate K; try discriminate DT.
      * cbn [bind] in H. injection H as <-. rewrite clear_same.
        unfold open_leaves. cbn [x_enter set_levels x_stack x_current rev]. rewrite flat_map_app. cbn [flat_map]. rewrite app_nil_r. apply Forall_app. split; [exact F|].
        constructor; [exact I|constructor].
      * destruct (x_innamed s0).
        -- cbn [bind] in H. match type of H with Ok ?q = _ => assert (Q : s' = q) by congruence end. rewrite Q, clear_same, ended_same. exact F.
        -- destruct (x_leave s0 true) as [s1|e] eqn:E1; [|discriminate H]. cbn [bind] in H. match type of H with Ok ?q = _ => assert (Q : s' = q) by congruence end. rewrite Q, clear_same, ended_same. exact (leave_prefix s0 s1 modestly true E1 I F).
  - injection H as <-. exact F.
  - injection H as <-. destruct (ic i); exact F.
Qed.

Lemma modestly_run db l : forall s s', x_run db s l = Ok s' -> Forall modestly (open_leaves s) -> Forall modestly (open_leaves s').
Proof.
  induction l as [|i l IH]; intros s s' R F; cbn [x_run] in R.
  - injection R as <-. exact F.
  - destruct (x_append db s i) as [s1|e] eqn:E1; [|discriminate R]. cbn [bind] in R. eapply IH; [exact R|]. eapply modestly_step; eauto.
Qed.

(* ------------------------------------------------------------------ *)
(** trees that were decompiled *)

Lemma ids_lrids ls : ids ls = lrids ls.
Proof.
  unfold ids. generalize (@nil (pval * option pval)) as p. induction ls as [|[k u| |r v] ls IH]; intros p; [reflexivity| | |]; cbn [located map].
  - apply IH.
  - apply IH.
  - cbn [fst snd]. rewrite IH. reflexivity.
Qed.

Lemma located_in ls : forall p x, In x (located p ls) -> In (LVal (snd (fst x)) (snd x)) ls.
Proof.
  induction ls as [|[k u| |r v] ls IH]; intros p x I; cbn [located] in I; [destruct I|right; eapply IH; exact I|right; eapply IH; exact I|].
  destruct I as [<-|I]; [left; reflexivity|right; eapply IH; exact I].
Qed.

Lemma bare_is_array v : is_array (bare_value v) = is_array v.
Proof. unfold is_array, bare_value. cbn [v_named]. destruct (v_named v) as [[l|q]|]; try reflexivity. destruct l; reflexivity. Qed.

Lemma again_restorable db x : StreamProofs.made (snd x) -> modestly (LVal (snd (fst x)) (snd x)) -> found_again db (bare x) -> restorable db (bare x).
Proof.
  destruct x as [[p r] v]. cbn [fst snd bare]. intros M MO FA RV. change (real (bare_value v)) with (real v) in RV.
  destruct (MO RV) as [CT AR]. specialize (FA RV). rewrite !bare_is_array in *. change (v_count (bare_value v)) with (v_count v) in *.
  change (py_int (v_flags (bare_value v))) with (py_int (v_flags v)) in *. split; [exact CT|]. destruct (is_array v) eqn:A; [|exact FA].
  destruct (AR eq_refl) as [U0 E0]. split; [exact U0|]. split; [exact E0|].
  assert (C : is_constant (py_int (v_flags v)) = false).
  { unfold real in RV. destruct (v_kind v); try discriminate RV. destruct (is_constant _); [discriminate RV|reflexivity]. }
  destruct (proj1 (made_facts v M C) A) as [lo [_ [_ F]]].
  change (usage_list (v_usage (bare_value v))) with (usage_list (option_map by_number (v_usage v))) in *. rewrite bare_list in *.
  destruct (usage_list (v_usage v)); [|exact FA]. rewrite F. exact FA.
Qed.

Lemma decompiled db blob t : Forall (fun x => 0 <= x < 256) blob -> decompile db blob = Ok t ->
  well_formed t /\ kinds_ok t /\ all_reported t /\ filled t /\
  Forall (fun x => match x with LVal _ v => StreamProofs.made v | _ => True end) (scoped 0 t) /\ Forall modestly (scoped 0 t).
Proof.
  intros FB X. unfold decompile in X. rewrite blob_parse_from in X. destruct (parse_from db 0 blob) as [l f] eqn:P. cbn [appended finished] in X.
  destruct (x_run db xst_init l) as [s|e] eqn:R; [|discriminate X]. cbn [bind] in X. destruct f as [[]|e]; [|discriminate X]. cbn [bind] in X.
  destruct (parse_ok_means db 0 blob l FB P) as [ws [B [F M]]].
  destruct (parse_good db 0 blob ws B F) as [l' [P' [_ C]]]. rewrite P in P'. injection P' as <-.
  destruct (x_root s) as [t'|] eqn:ER; [|discriminate X]. injection X as <-.
  assert (S : sound s).
  { apply (run_sound db l xst_init s init_sound); [|exact R]. eapply Forall_impl; [|exact (delivered_range blob ws l B M)]. intros i H. apply in_32_range. exact H. }
  destruct (sd_root s S t' ER) as [ms0 [E0 FM]].
  assert (K : kinds_ok t') by (apply (fit_kinds t' 0); rewrite E0, insert_leaves; exact FM). clear ms0 E0 FM.
  destruct (run_root db l xst_init s R) as [E|[l1 [l2 [s1 [-> [R1 [[ST RT] E]]]]]]]; [rewrite ER in E; discriminate E|].
  rewrite ER, RT in E. injection E as <-. set (ms := lv_members (x_current s1)).
  assert (SUB : forall Q : leaf -> Prop, Forall Q (open_leaves s1) -> Forall Q (flat_map eleaves ms)).
  { intros Q H. unfold open_leaves in H. apply Forall_app in H. destruct H as [_ H]. unfold lv_leaves in H. apply Forall_app in H. apply H. }
  apply Forall_app in C. destruct C as [C _].
  assert (MA : Forall (ExtractAgain.made l1) (flat_map eleaves ms)).
  { apply SUB. apply (made_run db l1 l1 xst_init s1); [apply incl_refl|exact C|exact R1|constructor]. }
  assert (MO : Forall modestly (flat_map eleaves ms)) by (apply SUB; apply (modestly_run db l1 xst_init s1 R1); constructor).
  split; [apply (leaves_well_formed l1 _ 0); rewrite insert_leaves; exact MA|]. split; [exact K|]. split; [apply insert_reported|]. split; [apply insert_filled|].
  rewrite insert_leaves. split; [|exact MO]. eapply Forall_impl; [|exact MA]. intros [k u| |r v] H; [exact I|exact I|]. exact (proj1 H).
Qed.

Lemma c95 db db1 db2 blob t b : Forall (fun x => 0 <= x < 256) blob -> decompile db blob = Ok t -> compile db1 false t = Ok b ->
  zeros_first (ids (scoped 0 t)) -> settled (scoped 0 t) -> Forall (fun x => found_again db2 (bare x)) (located [] (scoped 0 t)) ->
  exists t', decompile db2 b = Ok t' /\ Forall2 BackSpec.same_value (real_values (scoped 0 t)) (real_values (scoped 0 t')).
Proof.
  intros FB D CO ZF SE FA. destruct (decompiled db blob t FB D) as [WF [K [AR [FI [MA MO]]]]].
  assert (TH : fst (threaded 0 t) = scoped 0 t).
  { rewrite (reported_threaded t AR FI 0); [reflexivity|]. rewrite <- ids_lrids. destruct ZF as [za [zb [E [ZA ZB]]]].
    exists (0 :: za), zb. rewrite E. repeat split; auto. }
  pose proof (c64 db1 db2 t b WF K CO) as H. rewrite TH in H. apply H; [|exact SE].
  rewrite Forall_forall in *. intros x I. pose proof (located_in _ _ _ I) as J. apply again_restorable; [exact (MA _ J)|exact (MO _ J)|exact (FA x I)].
Qed.
