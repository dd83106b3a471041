(* ExtractAccept.v -- the Extractor accepts the streams of AcceptSpec *)
From Coq Require Import ZArith List Bool Lia ZifyBool ZifyNat String.
From Verif Require Import Py Usage Item Parser Optimizer Descriptor Extractor.
From Verif Require Import HidSpec Spec ItemFacts ParserFacts UsageProofs TextProofs StreamSpec PlainHost StreamProofs StreamTree OptFacts OptSpec PassFacts.
From Verif Require Import TreeOpt ExtractSpec ExtractFacts ExtractView ExtractBack AcceptSpec.
Import ListNotations.
Local Open Scope list_scope.
Local Open Scope Z_scope.

Lemma add_values_ok l : (forall r, In r l -> exists v, r = Ok v) -> forall s, exists s', add_values s l = Ok s'.
Proof.
  induction l as [|r l IH]; intros F s; [exists s; reflexivity|]. destruct (F r (or_introl eq_refl)) as [v ->]. cbn [add_values bind].
  apply IH. intros r' I. apply F. right. exact I.
Qed.

Lemma named_value_ok db s i u arr : array_usages (Some arr) <> [] -> exists v, named_value db s i u arr = Ok v.
Proof.
  intros N. assert (T : narr_truthy (Some arr) = Ok true) by (apply truthy_of_usages; exact N).
  unfold named_value, mk_value. cbn [a_named a_lmax a_lmin a_flags orb]. rewrite T. cbn [bind negb andb zero_or_none a_pmin a_pmax].
  destruct (truthy_array _ _ T) as [[X _]|[_ [y [EY [LN _]]]]]; [discriminate X|]. injection EY as <-. rewrite LN. cbn [bind]. eauto.
Qed.

Lemma handle_accepts db s i g x : heads (x_current s) (x_stack s) -> agree s g -> lrel s x -> data_tag (ic i) = true -> 0 <= g_count g ->
  clear_data (kinds s) (g, x, ic i, ival i) ->
  exists s', handle_data db (expand_ranges s) i = Ok s' /\
  x_stack s' = x_stack s /\ x_innamed s' = x_innamed s /\ lv_head (x_current s') = lv_head (x_current s).
Proof.
  intros HD0 A L D NC PD. set (s0 := expand_ranges s) in *.
  assert (GV : forall c, gval s0 c = gval s c) by reflexivity.
  unfold handle_data. rewrite odd_land, negb_involutive.
  destruct (is_constant (ival i)) eqn:CO.
  - destruct (mk_padding _ _) as [v|e] eqn:EV.
    + exists (add_value s0 v). auto.
    + exfalso. unfold mk_padding, mk_value in EV. cbn [a_named narr_truthy bind a_lmax a_lmin a_flags py_int orb andb negb] in EV. discriminate EV.
  - destruct (PD CO) as [SU NAMED].
    set (us := values AtMain (g_page g) (lo_us x)) in *.
    destruct (x_usage_nth db s x g 0 L A SU) as [_ [LEN _]]. fold s0 us in LEN.
    rewrite LEN, !GV, (ag_count _ _ A), (ag_lmax _ _ A), (ag_lmin _ _ A).
    set (matches := Z.of_nat (length us) =? g_lmax g - g_lmin g + 1) in *.
    assert (NI : (if (g_count g =? 1) && matches then in_named_collection db s0 i else Ok false) = Ok false).
    { destruct ((g_count g =? 1) && matches) eqn:Q; [|reflexivity]. apply andb_true_iff in Q. destruct Q as [Q1 Q2].
      destruct NAMED as [[k [o [OP [K2 K4]]]] _]; [unfold matches in Q2; lia|lia|]. unfold in_named_collection.
      change (x_current s0) with (x_current s). unfold kinds in OP. cbn [flat_map] in OP.
      destruct (lv_head (x_current s)) as [[kk uu]|] eqn:HD.
      - cbn [app] in OP. injection OP as <- _. replace (py_int kk =? 4) with false by lia. rewrite andb_false_r. replace (py_int kk =? 2) with false by lia. reflexivity.
      - destruct (x_stack s) as [|p r]; [discriminate OP|]. destruct HD0 as [HD0 _]. congruence. }
    rewrite NI. cbn [bind].
    assert (SP : forall l, (forall r, In r l -> exists v, r = Ok v) -> exists s', add_values s0 l = Ok s' /\
      x_stack s' = x_stack s /\ x_innamed s' = x_innamed s /\ lv_head (x_current s') = lv_head (x_current s)).
    { intros l F. destruct (add_values_ok l F s0) as [s' E]. exists s'. split; [exact E|].
      apply add_values_spec in E. destruct E as [vs [_ [_ [H1 [H2 [H3 _]]]]]]. auto. }
    destruct ((ival i =? 0) && matches) eqn:Q0.
    + apply andb_true_iff in Q0. destruct Q0 as [Q1 Q2]. unfold matches in Q2. apply SP. intros r I.
      assert (CP : 0 < g_count g). { destruct (Z.to_nat (g_count g)) eqn:CE; [destruct I|lia]. }
      apply repeat_spec in I. subst r. apply named_value_ok. subst s0. rewrite (named_list db s x g L A SU). fold us.
      destruct NAMED as [_ NE]; [lia|]. specialize (NE ltac:(lia) CP). intros E. rewrite E in Q2. cbn [length] in Q2. lia.
    + rewrite buffered_land, negb_involutive. destruct (is_buffered (ival i)) eqn:BU.
      * destruct (plain_value_ok db s0 i 0 (g_count g)) as [v [-> _]]. exists (add_value s0 v). auto.
      * apply SP. intros r I. apply in_map_iff in I. destruct I as [n [<- _]]. destruct (plain_value_ok db s0 i n 1) as [v [-> _]]. eauto.
Qed.

Record ready (s : xst) (g : gtab) (x : locals) (d : nat) : Prop := {
  rd_agree : agree s g; rd_lrel : lrel s x; rd_count : 0 <= g_count g;
  rd_heads : heads (x_current s) (x_stack s); rd_named : x_innamed s = false; rd_depth : length (x_stack s) = d
}.

Lemma accept_step db s i g x d d' es : constructed i -> ic i <> Push -> ic i <> Pop ->
  ready s g x d -> nest d [ic i] = Some d' ->
  let r := m_step lo_init lo_set sees (g, x) (wire i) in
  clear_stream (kinds s) (snd r ++ es) ->
  exists s', x_append db s i = Ok s' /\ ready s' (fst (fst r)) (snd (fst r)) d' /\ clear_stream (kinds s') es /\
    (main_tag (ic i) = false -> x_root s' = x_root s) /\ (ic i = EndCollection -> d' = 0%nat -> exists t, x_root s' = Some t).
Proof.
  intros C N1 N2 [A L NC HD IN DP] ND. unfold m_step, wire. cbn [w_cls w_val w_ext].
  destruct (kind_of (ic i)) eqn:K.
  - set (s0 := expand_ranges s) in *.
    destruct (data_tag (ic i)) eqn:DT.
    + assert (MK : hid_kind (ic i) = KMain) by (destruct (ic i); try discriminate DT; reflexivity).
      rewrite MK. cbn [fst snd sees app]. intros PS.
      assert (PS2 : clear_data (kinds s) (g, x, ic i, ival i) /\ clear_stream (kinds s) es).
      { destruct (ic i); try discriminate DT; exact PS. }
      destruct PS2 as [PD PS2].
      destruct (handle_accepts db s i g x HD A L DT NC PD) as [s1 [E1 [S1 [I1 LH]]]]. fold s0 in E1.
      destruct (handle_data_spec db s0 i s1 g x DT NC ltac:(eapply agree_globals; [|exact A]; reflexivity) HD E1) as [[G1 H1 R1] _].
      exists (locals_clear s1). split; [|split; [|split; [|split]]].
      * unfold x_append, ikd. rewrite K. fold s0. destruct (ic i); try discriminate DT; rewrite E1; reflexivity.
      * split.
        -- eapply agree_globals; [|exact A]. exact G1.
        -- apply lrel_clear.
        -- exact NC.
        -- apply H1. exact HD.
        -- cbn [locals_clear x_innamed]. congruence.
        -- cbn [locals_clear x_stack]. rewrite S1. destruct (ic i); try discriminate DT; cbn in ND; congruence.
      * replace (kinds (locals_clear s1)) with (kinds s); [exact PS2|]. unfold kinds. cbn [locals_clear x_current x_stack flat_map]. rewrite S1, LH. reflexivity.
      * intros M. destruct (ic i); discriminate.
      * intros E. rewrite E in DT. discriminate DT.
    + unfold x_append, ikd. rewrite K. fold s0.
      destruct (ic i) eqn:EC; try discriminate K; try discriminate DT; cbn [hid_kind fst snd sees app clear_stream].
      * cbn [bind]. intros PS. eexists. split; [reflexivity|]. split; [|split; [exact PS|split; [discriminate|discriminate]]]. split.
        -- eapply agree_globals; [|exact A]. reflexivity.
        -- apply lrel_clear.
        -- exact NC.
        -- cbn [locals_clear x_enter set_levels x_current x_stack heads]. split; [discriminate|exact HD].
        -- exact IN.
        -- cbn [nest] in ND. injection ND as <-. cbn [locals_clear x_enter set_levels x_stack length]. change (x_stack s0) with (x_stack s). congruence.
      * intros PS. change (x_innamed s0) with (x_innamed s). rewrite IN.
        destruct d as [|d]; [discriminate ND|]. cbn [nest] in ND. injection ND as <-.
        destruct (x_stack s) as [|p r] eqn:ES; [discriminate DP|].
        assert (exists s1, x_leave s0 true = Ok s1 /\ x_stack s1 = r /\ kinds s1 = tl (kinds s)) as [s1 [E1 [SR KI]]].
        { unfold x_leave. change (x_stack s0) with (x_stack s). rewrite ES. eexists. split; [reflexivity|]. split; [reflexivity|].
          unfold kinds. rewrite ES. cbn [set_levels x_current x_stack flat_map lv_head]. destruct HD as [HN _].
          destruct (lv_head (x_current s)) as [[k u]|]; [|congruence]. reflexivity. }
        rewrite E1. cbn [bind]. assert (HD' : heads (x_current s0) (x_stack s0)) by (change (x_stack s0) with (x_stack s); rewrite ES; exact HD).
        destruct (x_leave_keep s0 s1 E1 HD') as [[G1 H1 R1] [_ [I1 _]]].
        assert (V : ready (locals_clear s1) g lo_init d).
        { split.
          - eapply agree_globals; [|exact A]. exact G1.
          - apply lrel_clear.
          - exact NC.
          - apply H1. exact HD'.
          - cbn [locals_clear x_innamed]. rewrite I1. exact IN.
          - cbn [locals_clear x_stack]. rewrite SR. cbn [length] in DP. lia. }
        eexists. split; [reflexivity|]. split; [|split; [|split; [discriminate|]]].
        -- destruct (x_stack s1) as [|p' r'] eqn:ES'.
           ++ destruct V as [V1 V2 V3 V4 V5 V6]. split; [| |exact V3|exact V4|exact V5|exact V6].
              ** eapply agree_globals; [|exact V1]. reflexivity.
              ** destruct V2. split; assumption.
           ++ exact V.
        -- assert (KS : kinds (locals_clear match x_stack s1 with [] => x_ended s1 | _ :: _ => s1 end) = tl (kinds s)).
           { rewrite <- KI. unfold kinds. destruct (x_stack s1) eqn:Q; cbn [locals_clear x_ended x_current x_stack]; rewrite ?Q; reflexivity. }
           rewrite KS. exact PS.
        -- intros _ ->. destruct r; [|cbn in DP; discriminate DP]. rewrite SR. cbn [locals_clear x_ended x_root]. eauto.
  - assert (MK : hid_kind (ic i) = KGlobal) by (destruct (ic i); try discriminate K; reflexivity).
    rewrite MK. cbn [fst snd flat_map app]. intros PS. unfold x_append, ikd. rewrite K. eexists. split; [reflexivity|].
    split; [|split; [exact PS|split; [reflexivity|intros E; rewrite E in K; discriminate K]]].
    split; auto.
    + apply (agree_set s _ g (ic i) (iv i)); auto.
    + destruct L. split; assumption.
    + destruct (constructed_facts i C) as [CS _].
      destruct (ic i) eqn:EC; try discriminate K; destruct g; try exact NC.
      destruct CS as [CS|CS]; [discriminate CS|exact CS].
    + cbn [x_stack]. destruct (ic i); try discriminate K; cbn [nest] in ND; congruence.
  - assert (MK : hid_kind (ic i) = KLocal) by (destruct (ic i); try discriminate K; reflexivity).
    rewrite MK. cbn [fst snd flat_map app]. intros PS.
    assert (exists s', x_append db s i = Ok s' /\ x_stack s' = x_stack s /\ x_current s' = x_current s /\ x_globals s' = x_globals s /\ x_innamed s' = x_innamed s /\ x_root s' = x_root s) as [s' [H [E1 [E2 [E3 [E4 E5]]]]]].
    { unfold x_append, ikd. rewrite K. eexists. split; [reflexivity|]. destruct (ic i); repeat split. }
    pose proof (lrel_step db s i s' x (g_page g) C K L H) as L'. exists s'. split; [exact H|].
    split; [|split; [|split; [intros _; exact E5|intros E; rewrite E in K; discriminate K]]].
    + split; [eapply agree_globals; [exact E3|exact A]|exact L'|exact NC|rewrite E1, E2; exact HD|congruence|].
      rewrite E1. destruct (ic i); try discriminate K; cbn [nest] in ND; congruence.
    + unfold kinds. rewrite E1, E2. exact PS.
Qed.

Lemma accept_run db l : forall s g x d d' es, Forall constructed l -> push_free l -> ready s g x d -> nest d (map ic l) = Some d' ->
  let r := m_run lo_init lo_set sees (g, x) (map wire l) in
  clear_stream (kinds s) (snd r ++ es) ->
  exists s', x_run db s l = Ok s' /\ ready s' (fst (fst r)) (snd (fst r)) d' /\ clear_stream (kinds s') es /\
    (Forall (fun c => main_tag c = false) (map ic l) -> x_root s' = x_root s).
Proof.
  induction l as [|i l IH]; intros s g x d d' es C P RD ND.
  - cbn in ND. injection ND as <-. cbn. intros H. exists s. auto.
  - inversion C as [|? ? C1 C2]; subst. inversion P as [|? ? [P1 P1'] P2]; subst. cbn [map x_run m_run] in *.
    rewrite nest_cons in ND. destruct (nest d [ic i]) as [d1|] eqn:N1; [|discriminate ND].
    pose proof (fun es => accept_step db s i g x d d1 es C1 P1 P1' RD N1) as ST.
    destruct (m_step lo_init lo_set sees (g, x) (wire i)) as [[g1 x1] o1]. cbn [fst snd] in ST.
    pose proof (fun s1 => IH s1 g1 x1 d1 d' es C2 P2) as IH'.
    destruct (m_run lo_init lo_set sees (g1, x1) (map wire l)) as [[g2 x2] o2]. cbn [fst snd] in *.
    intros PS. rewrite <- app_assoc in PS. destruct (ST _ PS) as [s1 [E1 [R1 [PS1 [K1 _]]]]]. destruct (IH' s1 R1 ND PS1) as [s2 [E2 [R2 [PS2 K2]]]].
    exists s2. rewrite E1. cbn [bind]. split; [exact E2|]. split; [exact R2|]. split; [exact PS2|].
    intros F. rewrite (K2 (Forall_inv_tail F)). exact (K1 (Forall_inv F)).
Qed.

Lemma c54 db l : Forall constructed l -> push_free l -> closes (map ic l) -> clear_stream [] (main_states (map wire l)) ->
  exists t, extract db l = Ok t.
Proof.
  intros C P [B [a [b [E F]]]] PS.
  assert (EM : main_states (map wire l) = snd (m_run lo_init lo_set sees (g_init, lo_init) (map wire l))).
  { change (main_states (map wire l)) with (snd (h_run sees (H g_init [] lo_init) (map wire l))).
    destruct (m_run_host sees (map wire l) g_init [] lo_init) as [st' EH]; [apply Forall_map; exact P|]. rewrite EH. reflexivity. }
  rewrite EM in PS. clear EM.
  destruct (map_split _ _ _ _ _ E) as [l1 [i [l2 [EL [E1 [E2 E3]]]]]]. subst l. subst b.
  apply Forall_app in C. destruct C as [C1 C2]. inversion C2 as [|? ? C3 C4]; subst.
  apply Forall_app in P. destruct P as [P1 P2]. inversion P2 as [|? ? [P3 P3'] P4]; subst.
  unfold balanced in B. rewrite map_app, nest_app in B. destruct (nest 0 (map ic l1)) as [d1|] eqn:N1; [|discriminate B].
  cbn [map] in B. rewrite nest_cons in B. destruct (nest d1 [ic i]) as [d2|] eqn:N2; [|discriminate B].
  rewrite map_app, m_run_app in PS. cbn [map] in PS. cbn [snd] in PS. set (w := wire i) in PS. set (ws := map wire l2) in PS.
  assert (R0 : ready xst_init g_init lo_init 0).
  { split; [apply agree_init|apply lrel_init|cbn; lia|reflexivity|reflexivity|reflexivity]. }
  destruct (accept_run db l1 xst_init g_init lo_init 0 d1 _ C1 P1 R0 N1 PS) as [s1 [X1 [R1 [PS1 _]]]].
  destruct (m_run lo_init lo_set sees (g_init, lo_init) (map wire l1)) as [[g1 x1] o1]. cbn [fst snd] in R1, PS1.
  cbn [m_run] in PS1. pose proof (fun es => accept_step db s1 i g1 x1 d1 d2 es C3 P3 P3' R1 N2) as ST. fold w in ST.
  destruct (m_step lo_init lo_set sees (g1, x1) w) as [[g2 x2] o2]. cbn [fst snd] in ST.
  pose proof (fun s2 R2 => accept_run db l2 s2 g2 x2 d2 0 [] C4 P4 R2 B) as AR. fold ws in AR.
  destruct (m_run lo_init lo_set sees (g2, x2) ws) as [[g3 x3] o3]. cbn [fst snd] in PS1, AR.
  destruct (ST _ PS1) as [s2 [X2 [R2 [PS2 [_ RT]]]]]. rewrite <- (app_nil_r o3) in PS2. destruct (AR s2 R2 PS2) as [s3 [X3 [R3 [_ KR]]]].
  assert (D2 : d2 = 0%nat).
  { clear - F B. revert d2 B. induction (map ic l2) as [|c r IH]; intros d B; [cbn in B; congruence|].
    pose proof (Forall_inv F) as M. apply Forall_inv_tail in F. apply (IH F). destruct c; try discriminate M; exact B. }
  destruct (RT E2 D2) as [t ET].
  exists t. unfold extract. rewrite x_run_app, X1. cbn [bind x_run]. rewrite X2. cbn [bind]. rewrite X3. cbn [bind]. rewrite (KR F), ET. reflexivity.
Qed.
