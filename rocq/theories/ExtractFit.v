(* ExtractFit.v -- which trees of the Extractor can be compiled *)
From Coq Require Import ZArith List Bool Lia ZifyBool ZifyNat String.
From Verif Require Import Py Usage Item Parser Optimizer Descriptor Extractor.
From Verif Require Import HidSpec Spec ItemFacts ParserFacts CodecProofs UsageProofs TextProofs StreamSpec PlainHost StreamProofs StreamTree OptFacts OptSpec AllSpec PassFacts.
From Verif Require Import TreeOpt ExtractSpec ExtractFacts ExtractView ExtractAgain DumpSpec DumpProofs AcceptSpec CompileAccept ExtractStore.
Import ListNotations.
Local Open Scope list_scope.
Local Open Scope Z_scope.

(** what holds of every leaf the Extractor makes *)
Definition sane (x : leaf) : Prop :=
  match x with
  | LOpen k u => u32 (py_int k) /\ forall n, u = Some n -> 0 <= py_int n
  | LClose => True
  | LVal r v => u32 r /\ match v_kind v with KAlign _ => False | KPadding => True | KValue => is_constant (py_int (v_flags v)) = false end
  end.

Definition fit_leaf (x : leaf) : Prop := modest_leaf x /\ sane x /\ (recompilable x -> storable_leaf x).

Lemma fit_close : fit_leaf LClose.
Proof. repeat split. Qed.

Lemma storable_recompilable x : sane x -> storable_leaf x -> recompilable x.
Proof.
  destruct x as [k u| |r v]; cbn [sane storable_leaf recompilable]; auto.
  - intros _ [_ H]. destruct u; [apply H|exact H].
  - intros [_ S]. destruct (v_kind v); [|destruct S|].
    + intros [[_ R] [_ [_ [_ [_ H]]]]]. split; [lia|]. destruct (H S) as [U [A _]]. apply Forall_app.
      split; eapply Forall_impl; try eassumption; intros z [_ Z]; exact Z.
    + intros H Z. destruct (H Z) as [[_ R] [_ Q]]. lia.
Qed.

(* ------------------------------------------------------------------ *)
(** the tree *)

Lemma fit_kinds t : forall r, Forall fit_leaf (scoped r t) -> kinds_ok t.
Proof.
  revert t. apply (tree_all (fun t => forall r, Forall fit_leaf (scoped r t) -> kinds_ok t)).
  - intros; exact I.
  - intros id ms F r M. cbn [scoped kinds_ok] in *. induction F as [|m ms H F IH]; [exact I|]. cbn [flat_map] in M. apply Forall_app in M. destruct M as [M1 M2]. split; [eapply H; exact M1|exact (IH M2)].
  - intros ms F r M. cbn [scoped kinds_ok] in *. induction F as [|m ms H F IH]; [exact I|]. cbn [flat_map] in M. apply Forall_app in M. destruct M as [M1 M2]. split; [eapply H; exact M1|exact (IH M2)].
  - intros k u ms F r M. cbn [scoped kinds_ok] in *. apply Forall_cons_iff in M. destruct M as [M0 M1]. destruct M0 as [_ [[M0 _] _]]. split; [exact (proj1 M0)|]. apply Forall_app in M1. destruct M1 as [M1 _]. clear M0.
    induction F as [|m ms H F IH]; [exact I|]. cbn [flat_map] in M1. apply Forall_app in M1. destruct M1 as [M1 M2]. split; [eapply H; exact M1|exact (IH M2)].
Qed.

Lemma fit_compiles db ms : Forall fit_leaf (flat_map eleaves ms) ->
  (exists b, compile db false (TTop (report_insert_members ms None)) = Ok b) <-> Forall recompilable (scoped 0 (TTop (report_insert_members ms None))).
Proof.
  intros F. set (t := TTop _).
  assert (SL : scoped 0 t = flat_map eleaves ms) by (apply insert_leaves).
  assert (ENT : fst (entered 0 t) = flat_map eleaves ms).
  { rewrite (reported_entered t (insert_reported ms) (insert_filled ms) 0). exact SL. }
  rewrite (c55 db t).
  - unfold storable. rewrite ENT, SL. split.
    + intros [_ S]. rewrite Forall_forall in *. intros x I. apply storable_recompilable; [apply (F x I)|exact (S x I)].
    + intros R. split.
      * apply insert_ids. intros m z IM IZ. apply ids_leaves in IZ. unfold lrids in IZ. apply in_flat_map in IZ. destruct IZ as [x [I1 I2]].
        rewrite Forall_forall in F. assert (K : fit_leaf x) by (apply F; apply in_flat_map; exists m; auto).
        destruct x as [| |r v]; try destruct I2 as []; [|contradiction]. subst z. destruct K as [_ [[K _] _]]. exact K.
      * rewrite Forall_forall in *. intros x I. apply (F x I). exact (R x I).
  - apply (fit_kinds t 0). rewrite SL. exact F.
  - unfold modest. rewrite ENT. eapply Forall_impl; [|exact F]. intros x [M _]. exact M.
Qed.

(* ------------------------------------------------------------------ *)
(** the state *)

Record sound (s : xst) : Prop := {
  sd_glob : forall c, in_32_bits c (gval s c);
  sd_us : u32s (x_usages s);
  sd_ss : u32s (x_strings s);
  sd_ds : u32s (x_designators s);
  sd_loc : forall c v, x_locals s c = Some v -> u32 (py_int v);
  sd_leaves : Forall fit_leaf (open_leaves s);
  sd_root : forall t, x_root s = Some t -> exists ms, t = TTop (report_insert_members ms None) /\ Forall fit_leaf (flat_map eleaves ms)
}.

Lemma expand_u32s s mn mx l : sound s -> u32s l -> u32s (expand s mn mx l).
Proof.
  intros B H. unfold expand. destruct (x_locals s mn) as [a|] eqn:EA; [|exact H]. destruct (x_locals s mx) as [b|] eqn:EB; [|exact H].
  destruct l; [|exact H]. pose proof (sd_loc s B mn a EA) as A1. pose proof (sd_loc s B mx b EB) as B1. unfold u32s. rewrite Forall_map. apply Forall_forall.
  intros z I. cbn [py_int]. unfold zrange in I. apply in_map_iff in I. destruct I as [k [<- I]]. apply in_seq in I. unfold u32 in *. lia.
Qed.

Lemma expand_sound s : sound s -> sound (expand_ranges s).
Proof.
  intros B. pose proof (expand_u32s s) as E. split; try apply B; apply E; try exact B; apply B.
Qed.

Lemma usage_sound db s k u : sound s -> x_usage db s k = Some u -> 0 <= py_int u.
Proof.
  intros B. unfold x_usage. destruct (last_repeat (x_usages s) k) as [v|] eqn:E; [|discriminate]. pose proof (repeat_u32 _ _ _ (sd_us s B) E) as V.
  pose proof (with_page_val (gval s UsagePage) (py_int v) (proj1 V)) as W. unfold with_page in W.
  pose proof (sd_glob s B UsagePage) as P0. unfold in_32_bits in P0. cbn [hid_signed] in P0.
  destruct (negb _).
  - intros H. injection H as <-. apply V.
  - intros H. assert (Q : u = lookup db (VInt (Z.lor (Z.shiftl (gval s UsagePage) 16) (py_int v)))) by congruence. rewrite Q, lookup_int, W.
    unfold u32 in *. destruct (65536 <=? py_int v) eqn:C; lia.
Qed.

Lemma string_sound s k : sound s -> u32 (x_string s k).
Proof. intros B. unfold x_string. destruct (last_repeat (x_strings s) k) as [v|] eqn:E; [exact (repeat_u32 _ _ _ (sd_ss s B) E)|unfold u32; lia]. Qed.
Lemma designator_sound s k : sound s -> u32 (x_designator s k).
Proof. intros B. unfold x_designator. destruct (last_repeat (x_designators s) k) as [v|] eqn:E; [exact (repeat_u32 _ _ _ (sd_ds s B) E)|unfold u32; lia]. Qed.

Lemma list_sound u : (forall x, u = Some x -> 0 <= py_int x) -> Forall (fun z => z < 2 ^ 32) (usage_list u) -> Forall u32 (usage_list u).
Proof.
  intros H L. apply Forall_forall. intros z I. split; [|rewrite Forall_forall in L; exact (L z I)].
  destruct u as [[y|n y|n y k]|]; cbn [usage_list] in I; [destruct (y =? 0)|..]; try destruct I as [<- |[]]; try destruct I; exact (H _ eq_refl).
Qed.

Lemma named_usages_sound db s : sound s -> Forall (fun z => 0 <= z) (map py_int (named_usages db s)).
Proof.
  intros B. apply Forall_map. apply Forall_forall. intros u I. unfold named_usages in I. apply in_flat_map in I. destruct I as [k [_ I]].
  destruct (x_usage db s k) as [v|] eqn:E; [|destruct I]. destruct I as [<- |[]]. exact (usage_sound db s k v B E).
Qed.

Lemma rid_sound s : sound s -> u32 (gval s ReportID).
Proof. intros B. pose proof (sd_glob s B ReportID) as P. unfold in_32_bits in P. cbn [hid_signed] in P. exact P. Qed.

Ltac globs s B := repeat match goal with
  | |- u32 (gval s ?c) => exact (sd_glob s B c)
  | |- s32 (gval s ?c) => exact (sd_glob s B c) end.

Lemma plain_fit db s i n k v : sound s -> data_tag (ic i) = true -> u32 (ival i) -> is_constant (ival i) = false -> u32 k -> plain_value db s i n k = Ok v ->
  fit_leaf (LVal (gval s ReportID) v).
Proof.
  intros B D I NC K H. destruct (plain_value_ok db s i n k) as [v' [E P]]. rewrite H in E. injection E as <-.
  destruct P as [P1 [P2 [P3 [P4 [P5 [P6 [P7 [P8 [P9 [P10 [P11 [P12 [P13 P14]]]]]]]]]]]]].
  pose proof (rid_sound s B) as R. split; [|split].
  - cbn [modest_leaf]. unfold wanted_alignment. rewrite P1. destruct (mk_value_more _ _ _ H eq_refl) as [AL _]. rewrite AL. lia.
  - cbn [sane]. rewrite P1, P5. split; [exact R|exact NC].
  - cbn [recompilable storable_leaf]. rewrite P1, P3, P8. intros [RL UL]. cbn [array_usages] in UL. rewrite app_nil_r in UL.
    split; [apply (way_countable i _ D v P2); unfold u32 in R; lia|].
    unfold storable_value. rewrite P8, P13, P4, P5, P3, P6, P7, P9, P10, P11, P12. change (py_int (iv i)) with (ival i). cbn [or0 array_usages].
    split; [exact Logic.I|]. split; [exact K|]. split; [globs s B|]. split; [exact I|]. intros _.
    split; [apply list_sound; [intros x E; exact (usage_sound db s n x B E)|exact UL]|]. split; [constructor|]. split; [globs s B|]. split; [globs s B|].
    split; [|split; [change (py_int (x_globals s Unit)) with (gval s Unit); globs s B|split; [globs s B|split; [apply designator_sound; exact B|apply string_sound; exact B]]]].
    intros _. unfold effective in P14. destruct (_ && _); injection P14 as Q1 Q2; rewrite Q1, Q2; split; globs s B.
Qed.

Lemma named_fit db s i u v : sound s -> data_tag (ic i) = true -> (forall x, u = Some x -> 0 <= py_int x) ->
  Z.of_nat (length (x_usages s)) = gval s LogicalMaximum - gval s LogicalMinimum + 1 ->
  named_value db s i u (named_of_usages db s) = Ok v -> fit_leaf (LVal (gval s ReportID) v).
Proof.
  intros B D U M H. pose proof H as HM. apply mk_value_fields in H. cbn [a_way a_usage a_size a_count a_named a_unit a_uexp a_desig a_str a_lmin] in H.
  destruct H as [K [W [VU [SZ [CT [NA [UN [UE [DE [ST LM]]]]]]]]]].
  destruct (mk_value_more _ _ _ HM eq_refl) as [AL FL]. cbn [a_flags] in FL.
  pose proof (named_array db s) as AU. pose proof (named_usages_length db s) as NL.
  assert (NE : named_usages db s <> []).
  { intros EN. unfold named_value, mk_value in HM. cbn [a_named a_lmax a_lmin a_flags orb] in HM.
    destruct (narr_truthy (Some (named_of_usages db s))) as [b|e] eqn:T; [|discriminate HM].
    assert (b = false).
    { destruct (truthy_array _ _ T) as [[-> _]|[-> [y [EY [_ P]]]]]; [reflexivity|]. injection EY as <-.
      rewrite (array_size_length _ P), AU, EN in P. cbn in P. lia. }
    subst b. discriminate HM. }
  assert (AUN : array_usages (Some (named_of_usages db s)) <> []) by (rewrite AU; destruct (named_usages db s); [congruence|discriminate]).
  assert (LX : v_lmax v = Some (gval s LogicalMaximum)).
  { assert (NN : ~ no_array (Some (named_of_usages db s))) by (intros Q; apply no_array_usages in Q; congruence).
    destruct (c22_array _ _ _ (named_of_usages db s) HM eq_refl NN) as [lo [L1 [L2 [P _]]]].
    rewrite L2, (array_size_length _ P), AU, map_length, NL, M. rewrite LM in L1. injection L1 as <-. f_equal. lia. }
  pose proof (rid_sound s B) as R. split; [|split].
  - cbn [modest_leaf]. unfold wanted_alignment. rewrite K, AL. lia.
  - cbn [sane]. rewrite K. split; [exact R|]. destruct FL as [-> |[-> | ->]]; reflexivity.
  - cbn [recompilable storable_leaf]. rewrite K, VU, NA. intros [RL UL]. rewrite Forall_app in UL. destruct UL as [UL AL'].
    split; [apply (way_countable i _ D v W); unfold u32 in R; lia|].
    unfold storable_value. rewrite NA, CT, SZ, VU, LM, LX, UN, UE, DE, ST. cbn [or0 py_int].
    split.
    { destruct (named_of_usages db s) as [l|r]; [exact I|]. cbn [array_usages] in AUN. destruct (Z_le_gt_dec (py_int (r_min r)) (py_int (r_max r) + 1)); [assumption|].
      exfalso. apply AUN. apply length_zero_iff_nil. rewrite upto_length. lia. }
    split; [unfold u32; lia|]. split; [globs s B|]. split; [destruct FL as [-> |[-> | ->]]; unfold u32; cbn; lia|]. intros _.
    split; [apply list_sound; [exact U|exact UL]|].
    split.
    { pose proof (named_usages_sound db s B) as NN. rewrite <- AU in NN. rewrite Forall_forall in *. intros z I. split; [exact (NN z I)|exact (AL' z I)]. }
    split; [globs s B|]. split; [globs s B|].
    split; [|split; [unfold u32; lia|split; [unfold s32; lia|split; [apply designator_sound; exact B|apply string_sound; exact B]]]].
    intros AR. exfalso. unfold is_array in AR. rewrite NA in AR. destruct (array_usages (Some (named_of_usages db s))); [congruence|discriminate AR].
Qed.

Lemma padding_fit s i v : sound s -> data_tag (ic i) = true ->
  mk_padding (VNamed (tag_name (ic i)) (tag_of (ic i))) (gval s ReportSize * gval s ReportCount) = Ok v -> fit_leaf (LVal (gval s ReportID) v).
Proof.
  intros B D H. unfold mk_padding in H. pose proof (mk_value_fields _ _ _ H) as F. cbn [a_way a_size] in F. destruct F as [K [W [_ [SZ _]]]].
  pose proof (rid_sound s B) as R. split; [|split].
  - cbn [modest_leaf]. unfold wanted_alignment. rewrite K. lia.
  - cbn [sane]. rewrite K. split; [exact R|exact I].
  - cbn [recompilable storable_leaf]. rewrite K. intros Q Z. destruct (Q Z) as [Q1 Q2]. split; [apply (way_countable i _ D v W); unfold u32 in R; lia|].
    split; [|exact Q2]. rewrite SZ.
    pose proof (sd_glob s B ReportSize) as P1. pose proof (sd_glob s B ReportCount) as P2. unfold in_32_bits in P1, P2. cbn [hid_signed] in P1, P2. nia.
Qed.

Lemma clear_sound s : (forall c, in_32_bits c (gval s c)) ->
  Forall fit_leaf (open_leaves s) -> (forall t, x_root s = Some t -> exists ms, t = TTop (report_insert_members ms None) /\ Forall fit_leaf (flat_map eleaves ms)) ->
  sound (locals_clear s).
Proof. intros. split; auto; try discriminate; exact (Forall_nil _). Qed.

Lemma data_sound db s i s' : sound s -> data_tag (ic i) = true -> u32 (ival i) -> handle_data db s i = Ok s' ->
  x_globals s' = x_globals s /\ x_root s' = x_root s /\ Forall fit_leaf (open_leaves s').
Proof.
  intros B DT IU. pose proof (sd_leaves s B) as F. unfold handle_data.
  destruct (negb (Z.land (ival i) fl_Constant =? 0)) eqn:NC.
  - destruct (mk_padding _ _) as [v|e] eqn:EV; [|discriminate]. cbn [bind]. intros H. injection H as <-.
    split; [reflexivity|]. split; [reflexivity|]. rewrite add_value_leaves. apply Forall_app. split; [exact F|]. constructor; [|constructor].
    eapply padding_fit; eauto.
  - rewrite constant_land in NC.
    destruct (Z.of_nat (length (x_usages s)) =? gval s LogicalMaximum - gval s LogicalMinimum + 1) eqn:MA.
    + rewrite andb_true_r. destruct (if gval s ReportCount =? 1 then _ else _) as [inn|e] eqn:EI; [|discriminate]. cbn [bind]. destruct inn.
      * destruct (x_leave s false) as [s1|e] eqn:EL; [|discriminate]. cbn [bind].
        destruct (lv_members (x_current s)) eqn:EM; [|discriminate].
        destruct (lv_head (x_current s)) as [[k u]|] eqn:EH; [|discriminate].
        destruct (named_value _ _ _ _ _) as [v|e] eqn:EV; [|discriminate]. cbn [bind]. intros H. injection H as <-.
        assert (G1 : x_globals s1 = x_globals s /\ x_root s1 = x_root s) by (unfold x_leave in EL; destruct (x_stack s); [discriminate EL|]; injection EL as <-; auto).
        destruct G1 as [G1 G2]. split; [exact G1|]. split; [exact G2|].
        rewrite add_value_leaves. apply Forall_app. split.
        -- apply (leave_prefix s s1 fit_leaf false EL fit_close F).
        -- constructor; [|constructor]. replace (gval _ ReportID) with (gval s ReportID) by (unfold gval; cbn [set_levels x_globals]; rewrite G1; reflexivity).
           apply (named_fit db s i u v B DT); [|lia|exact EV]. intros x ->. unfold open_leaves in F. apply Forall_app in F. destruct F as [_ F].
           unfold lv_leaves in F. rewrite EH in F. apply Forall_inv in F. destruct F as [_ [[_ F] _]]. exact (F x eq_refl).
      * rewrite andb_true_r. destruct (ival i =? 0).
        -- intros H. apply add_values_spec in H. destruct H as [vs [EV [[G1 _ G2] [_ [_ [_ [_ L]]]]]]]. split; [exact G1|]. split; [exact G2|].
           rewrite L. apply Forall_app. split; [exact F|].
           apply Forall_map. apply Forall_forall. intros v IV. apply (in_map Ok) in IV. rewrite <- EV in IV. apply repeat_spec in IV. symmetry in IV.
           apply (named_fit db s i None v B DT); [discriminate|lia|exact IV].
        -- clear EI MA. destruct (negb (Z.land (ival i) fl_BufferedBytes =? 0)).
           ++ destruct (plain_value _ _ _ _ _) as [v|e] eqn:EV; [|discriminate]. cbn [bind]. intros H. injection H as <-.
              split; [reflexivity|]. split; [reflexivity|]. rewrite add_value_leaves. apply Forall_app. split; [exact F|]. constructor; [|constructor].
              eapply plain_fit; try exact EV; auto. exact (sd_glob s B ReportCount).
           ++ intros H. apply add_values_spec in H. destruct H as [vs [EV [[G1 _ G2] [_ [_ [_ [_ L]]]]]]]. split; [exact G1|]. split; [exact G2|].
              rewrite L. apply Forall_app. split; [exact F|].
              apply Forall_map. apply Forall_forall. intros v IV. apply (in_map Ok) in IV. rewrite <- EV in IV. apply in_map_iff in IV. destruct IV as [n [IV _]].
              eapply plain_fit; try exact IV; auto. unfold u32. lia.
    + rewrite !andb_false_r. cbn [bind]. destruct (negb (Z.land (ival i) fl_BufferedBytes =? 0)).
      * destruct (plain_value _ _ _ _ _) as [v|e] eqn:EV; [|discriminate]. cbn [bind]. intros H. injection H as <-.
        split; [reflexivity|]. split; [reflexivity|]. rewrite add_value_leaves. apply Forall_app. split; [exact F|]. constructor; [|constructor].
        eapply plain_fit; try exact EV; auto. exact (sd_glob s B ReportCount).
      * intros H. apply add_values_spec in H. destruct H as [vs [EV [[G1 _ G2] [_ [_ [_ [_ L]]]]]]]. split; [exact G1|]. split; [exact G2|].
        rewrite L. apply Forall_app. split; [exact F|].
        apply Forall_map. apply Forall_forall. intros v IV. apply (in_map Ok) in IV. rewrite <- EV in IV. apply in_map_iff in IV. destruct IV as [n [IV _]].
        eapply plain_fit; try exact IV; auto. unfold u32. lia.
Qed.

Lemma step_sound db s i s' : sound s -> in_32_bits (ic i) (ival i) -> x_append db s i = Ok s' -> sound s'.
Proof.
  intros B IR H. unfold x_append, ikd in H. destruct (kind_of (ic i)) eqn:K.
  - pose proof (expand_sound s B) as B0. set (s0 := expand_ranges s) in *.
    assert (CLR : forall s1, x_globals s1 = x_globals s0 -> x_root s1 = x_root s0 -> Forall fit_leaf (open_leaves s1) -> sound (locals_clear s1)).
    { intros s1 G1 G2 F1. destruct B0. apply clear_sound; auto; unfold gval in *; rewrite ?G1, ?G2; auto. }
    destruct (data_tag (ic i)) eqn:DT.
    + assert (EH : (let* s1 := handle_data db s0 i in Ok (locals_clear s1)) = Ok s') by (destruct (ic i); try discriminate DT; exact H).
      destruct (handle_data db s0 i) as [s1|e] eqn:E1; [|discriminate EH]. cbn [bind] in EH. injection EH as <-.
      assert (IU : u32 (ival i)) by (unfold in_32_bits in IR; destruct (ic i); try discriminate DT; exact IR).
      destruct (data_sound db s0 i s1 B0 DT IU E1) as [G1 [G2 F1]]. apply CLR; auto.
    + destruct (ic i) eqn:EC; try discriminate K; try discriminate DT.
      * cbn [bind] in H. injection H as <-. apply CLR; auto.
        unfold open_leaves. cbn [x_enter set_levels x_stack x_current rev]. rewrite flat_map_app. cbn [flat_map]. rewrite app_nil_r. apply Forall_app. split; [apply B0|].
        constructor; [|constructor]. assert (US : forall n, x_usage db s0 0 = Some n -> 0 <= py_int n) by (intros n; apply usage_sound; exact B0).
        split; [exact I|]. split; [split; [exact IR|exact US]|].
        intros R. split; [exact IR|]. cbn [recompilable] in R. destruct (x_usage db s0 0) as [u|]; [|exact R]. split; [exact (US u eq_refl)|exact R].
      * assert (END : forall s1, x_globals s1 = x_globals s0 -> x_root s1 = x_root s0 -> Forall fit_leaf (open_leaves s1) ->
          sound (locals_clear match x_stack s1 with [] => x_ended s1 | _ :: _ => s1 end)).
        { intros s1 G1 G2 F1. destruct (x_stack s1) eqn:ES; [|apply CLR; auto]. destruct B0. apply clear_sound; unfold gval in *; cbn [x_ended x_globals]; rewrite ?G1; auto.
          intros t ET. cbn [x_ended x_root] in ET. injection ET as <-. eexists. split; [reflexivity|]. unfold open_leaves in F1. apply Forall_app in F1. destruct F1 as [_ F1].
          unfold lv_leaves in F1. apply Forall_app in F1. apply F1. }
        destruct (x_innamed s0).
        -- cbn [bind] in H. match type of H with Ok ?q = _ => assert (Q : s' = q) by congruence end. rewrite Q. apply END; auto. apply B0.
        -- destruct (x_leave s0 true) as [s1|e] eqn:E1; [|discriminate H]. cbn [bind] in H. match type of H with Ok ?q = _ => assert (Q : s' = q) by congruence end. rewrite Q.
           assert (G1 : x_globals s1 = x_globals s0 /\ x_root s1 = x_root s0) by (unfold x_leave in E1; destruct (x_stack s0); [discriminate E1|]; injection E1 as <-; auto).
           destruct G1 as [G1 G2]. apply END; auto. apply (leave_prefix s0 s1 fit_leaf true E1 fit_close). apply B0.
  - injection H as <-.
    assert (UP : forall c, gval (XST (upd (x_globals s) (ic i) (iv i)) (x_usages s) (x_strings s) (x_designators s) (x_locals s) (x_stack s) (x_current s) (x_innamed s) (x_root s)) c
                 = if icls_eqb c (ic i) then ival i else gval s c).
    { intros c. unfold gval, upd. cbn [x_globals]. destruct (icls_eqb c (ic i)) eqn:Q; destruct (icls_eqb (ic i) c) eqn:Q'; try reflexivity;
        exfalso; rewrite ?icls_eqb_iff in *; subst; rewrite (proj2 (icls_eqb_iff _ _) eq_refl) in *; discriminate. }
    destruct B. split; auto. intros c. rewrite UP. destruct (icls_eqb c (ic i)) eqn:Q; [apply icls_eqb_iff in Q; subst c; exact IR|auto].
  - injection H as <-. assert (IU : u32 (ival i)) by (unfold in_32_bits in IR; destruct (ic i); try discriminate K; exact IR).
    assert (LU : forall c' c v, upd (x_locals s) c' (Some (iv i)) c = Some v -> u32 (py_int v)).
    { intros c' c v. unfold upd. destruct (icls_eqb _ _); [intros E; injection E as <-; exact IU|apply B]. }
    assert (AP : forall l, u32s l -> u32s (l ++ [iv i])) by (intros l F; apply Forall_app; split; [exact F|apply Forall_cons; [exact IU|apply Forall_nil]]).
    destruct B. destruct (ic i); try discriminate K; split; auto; first [apply LU|apply AP; assumption].
Qed.

Lemma run_sound db l : forall s s', sound s -> Forall (fun i => in_32_bits (ic i) (ival i)) l -> x_run db s l = Ok s' -> sound s'.
Proof.
  induction l as [|i l IH]; intros s s' B IR R; cbn [x_run] in R.
  - injection R as <-. exact B.
  - destruct (x_append db s i) as [s1|e] eqn:E1; [|discriminate R]. cbn [bind] in R. apply Forall_cons_iff in IR. destruct IR as [I1 I2].
    exact (IH s1 s' (step_sound db s i s1 B I1 E1) I2 R).
Qed.

Lemma init_sound : sound xst_init.
Proof.
  split; auto; try constructor; try discriminate.
  intros c. change (gval xst_init c) with 0. unfold in_32_bits. destruct (hid_signed c); lia.
Qed.

Lemma c57_exactly db db' blob t : Forall (fun x => 0 <= x < 256) blob -> decompile db blob = Ok t ->
  (exists b, compile db' false t = Ok b) <-> Forall recompilable (scoped 0 t).
Proof.
  intros FB X. unfold decompile in X. rewrite blob_parse_from in X. destruct (parse_from db 0 blob) as [l f] eqn:P. cbn [appended finished] in X.
  destruct (x_run db xst_init l) as [s|e] eqn:R; [|discriminate X]. cbn [bind] in X. destruct f as [[]|e]; [|discriminate X]. cbn [bind] in X.
  destruct (parse_ok_means db 0 blob l FB P) as [ws [B [F M]]].
  destruct (x_root s) as [t'|] eqn:ER; [|discriminate X]. injection X as <-.
  assert (S : sound s).
  { apply (run_sound db l xst_init s init_sound); [|exact R]. eapply Forall_impl; [|exact (delivered_range blob ws l B M)]. intros i H. apply in_32_range. exact H. }
  destruct (sd_root s S t' ER) as [ms [-> FM]]. apply fit_compiles. exact FM.
Qed.
