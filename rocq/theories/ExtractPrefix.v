(* ExtractPrefix.v -- what the Extractor makes of Push, Pop and of streams that
   go on after the last closed collection (C44, C46). *)
From Coq Require Import ZArith List Bool Lia.
From Verif Require Import Py Usage Item Parser Optimizer Descriptor Extractor HidSpec Spec StreamSpec OptSpec ExtractSpec
  ItemFacts ParserFacts OptFacts PassFacts StreamTree ExtractFacts ExtractView.
Import ListNotations.
Local Open Scope list_scope.
Local Open Scope Z_scope.

Definition regl (s : xst) (g : icls -> pval) : xst :=
  XST g (x_usages s) (x_strings s) (x_designators s) (x_locals s) (x_stack s) (x_current s) (x_innamed s) (x_root s).

Definition same_off (g g' : icls -> pval) : Prop := forall c, c <> Push -> c <> Pop -> g c = g' c.

Definition rmap {A B} (f : A -> B) (r : result A) : result B := match r with Ok a => Ok (f a) | Err e => Err e end.

Lemma regl_twice s g g' : regl (regl s g) g' = regl s g'.
Proof. reflexivity. Qed.

Section Same.
Context (db : udb) (g : icls -> pval).

Lemma gval_same s c : same_off g (x_globals s) -> c <> Push -> c <> Pop -> gval (regl s g) c = gval s c.
Proof. intros H A B. unfold gval. cbn [regl x_globals]. rewrite (H c A B). reflexivity. Qed.

Lemma x_usage_same s n : same_off g (x_globals s) -> x_usage db (regl s g) n = x_usage db s n.
Proof. intros H. unfold x_usage. rewrite gval_same by (exact H || discriminate). reflexivity. Qed.

Lemma named_same s i u a : same_off g (x_globals s) -> named_value db (regl s g) i u a = named_value db s i u a.
Proof. intros H. unfold named_value. rewrite !gval_same by (exact H || discriminate). reflexivity. Qed.

Lemma plain_same s i n c : same_off g (x_globals s) -> plain_value db (regl s g) i n c = plain_value db s i n c.
Proof.
  intros H. unfold plain_value. rewrite !gval_same by (exact H || discriminate). rewrite x_usage_same by exact H.
  change (x_globals (regl s g) Unit) with (g Unit). rewrite (H Unit) by discriminate. reflexivity.
Qed.

Lemma usages_same s : same_off g (x_globals s) -> named_of_usages db (regl s g) = named_of_usages db s.
Proof.
  intros H. unfold named_of_usages. change (x_usages (regl s g)) with (x_usages s).
  rewrite (flat_map_ext (fun k => match x_usage db (regl s g) k with Some u => [u] | None => [] end)
                        (fun k => match x_usage db s k with Some u => [u] | None => [] end)); [reflexivity|].
  intros n. rewrite x_usage_same by exact H. reflexivity.
Qed.

Lemma add_value_same s v : same_off g (x_globals s) -> add_value (regl s g) v = regl (add_value s v) g.
Proof. intros H. unfold add_value. rewrite gval_same by (exact H || discriminate). reflexivity. Qed.

Lemma add_values_same l : forall s, same_off g (x_globals s) -> add_values (regl s g) l = rmap (fun s' => regl s' g) (add_values s l).
Proof.
  induction l as [|[v|e] l IH]; intros s H; [reflexivity| |reflexivity]. cbn [add_values bind].
  rewrite add_value_same by exact H. apply IH. exact H.
Qed.

Lemma in_named_same s i : in_named_collection db (regl s g) i = in_named_collection db s i.
Proof. reflexivity. Qed.

Lemma leave_same s k : x_leave (regl s g) k = rmap (fun s' => regl s' g) (x_leave s k).
Proof. unfold x_leave. cbn [regl x_stack]. destruct (x_stack s); reflexivity. Qed.

Lemma handle_same s i : same_off g (x_globals s) -> handle_data db (regl s g) i = rmap (fun s' => regl s' g) (handle_data db s i).
Proof.
  intros H. unfold handle_data. rewrite !gval_same by (exact H || discriminate). rewrite in_named_same, usages_same by exact H.
  change (x_usages (regl s g)) with (x_usages s). change (x_current (regl s g)) with (x_current s).
  destruct (negb (Z.land (ival i) fl_Constant =? 0)).
  - destruct (mk_padding _ _) as [v|e]; [|reflexivity]. cbn [bind rmap]. rewrite add_value_same by exact H. reflexivity.
  - set (m := Z.of_nat _ =? _). destruct (if _ && m then _ else _) as [inn|e]; [|reflexivity]. cbn [bind]. destruct inn.
    + rewrite leave_same. destruct (x_leave s false) as [s1|e] eqn:EL; [|reflexivity]. cbn [bind rmap].
      apply leave_false in EL. destruct EL as [p [r [ES ->]]].
      destruct (lv_members (x_current s)) as [|? ?]; [|reflexivity]. destruct (lv_head (x_current s)) as [[k u]|]; [|reflexivity].
      rewrite named_same by exact H. destruct (named_value db s i u (named_of_usages db s)) as [v|e]; [|reflexivity]. cbn [bind rmap].
      f_equal. rewrite <- add_value_same by exact H. reflexivity.
    + destruct ((ival i =? 0) && m).
      * rewrite named_same by exact H. apply add_values_same. exact H.
      * destruct (negb (Z.land (ival i) fl_BufferedBytes =? 0)).
        -- rewrite plain_same by exact H. destruct (plain_value db s i 0 (gval s ReportCount)) as [v|e]; [|reflexivity].
           cbn [bind rmap]. rewrite add_value_same by exact H. reflexivity.
        -- rewrite (map_ext (fun n => plain_value db (regl s g) i n 1) (fun n => plain_value db s i n 1)).
           ++ apply add_values_same. exact H.
           ++ intros n. apply plain_same. exact H.
Qed.

Lemma append_same s i : same_off g (x_globals s) -> kind_of (ic i) <> Global ->
  x_append db (regl s g) i = rmap (fun s' => regl s' g) (x_append db s i).
Proof.
  intros H K. unfold x_append, ikd. destruct (kind_of (ic i)) eqn:EK; [|congruence|].
  - change (expand_ranges (regl s g)) with (regl (expand_ranges s) g). set (s0 := expand_ranges s).
    assert (H0 : same_off g (x_globals s0)) by exact H.
    assert (HD : forall r : result xst, (let* s1 := rmap (fun s' => regl s' g) r in Ok (locals_clear s1)) =
                 rmap (fun s' => regl s' g) (let* s1 := r in Ok (locals_clear s1))) by (intros [?|?]; reflexivity).
    destruct (ic i); try (rewrite handle_same by exact H0; apply HD).
    + cbn [bind rmap]. rewrite x_usage_same by exact H0. reflexivity.
    + change (x_innamed (regl s0 g)) with (x_innamed s0). destruct (x_innamed s0).
      * cbn [bind rmap]. unfold set_levels. cbn [regl x_stack]. destruct (x_stack s0); reflexivity.
      * rewrite leave_same. destruct (x_leave s0 true) as [s1|e]; [|reflexivity].
        cbn [bind rmap regl x_stack]. destruct (x_stack s1); reflexivity.
  - cbn [rmap]. f_equal. destruct (ic i); reflexivity.
Qed.
End Same.

Lemma keeps_globals db s i s' : kind_of (ic i) <> Global -> x_append db s i = Ok s' -> x_globals s' = x_globals s.
Proof.
  intros K H.
  pose proof (append_same db (x_globals s) s i (fun c _ _ => eq_refl) K) as A.
  replace (regl s (x_globals s)) with s in A by (destruct s; reflexivity). rewrite H in A. cbn [rmap] in A. injection A as A.
  rewrite A. reflexivity.
Qed.

(** running with other values of Push and Pop *)
Lemma run_same db l : forall s g, same_off g (x_globals s) ->
  match x_run db s l with
  | Ok s' => exists g', x_run db (regl s g) (stackless l) = Ok (regl s' g')
  | Err e => x_run db (regl s g) (stackless l) = Err e
  end.
Proof.
  induction l as [|i l IH]; intros s g H.
  - cbn. exists g. reflexivity.
  - cbn [x_run stackless filter]. destruct (stack_item i) eqn:SI; cbn [negb].
    + assert (E : x_append db s i = Ok (regl s (upd (x_globals s) (ic i) (iv i)))).
      { unfold x_append, ikd. unfold stack_item in SI. destruct (ic i); try discriminate SI; reflexivity. }
      rewrite E. cbn [bind]. specialize (IH (regl s (upd (x_globals s) (ic i) (iv i))) g). rewrite regl_twice in IH.
      apply IH. intros c A B. cbn [regl x_globals]. rewrite (H c A B). unfold upd.
      unfold stack_item in SI. destruct (ic i); try discriminate SI; destruct c; reflexivity || congruence.
    + cbn [x_run]. fold (stackless l). destruct (kind_of (ic i)) eqn:K.
      1, 3: rewrite append_same by (rewrite ?K; (exact H || discriminate)); destruct (x_append db s i) as [s1|e] eqn:E1; cbn [rmap bind]; [|reflexivity].
      1, 2: apply IH; rewrite (keeps_globals db s i s1) by (rewrite ?K; (exact E1 || discriminate)); exact H.
      unfold x_append, ikd. rewrite K. cbn [bind].
      match goal with |- match x_run db ?a l with _ => _ end => set (s1 := a) end.
      match goal with |- context [x_run db ?a (stackless l)] => set (s2 := a) end.
      change s2 with (regl s1 (upd g (ic i) (iv i))). apply IH. intros c A B. cbn [regl x_globals s1]. unfold upd.
      destruct (icls_eqb c (ic i)); [reflexivity|apply H; assumption].
Qed.

Theorem extract_flat db l : extract db l = extract db (stackless l).
Proof.
  unfold extract. pose proof (run_same db l xst_init (x_globals xst_init) (fun c _ _ => eq_refl)) as R.
  change (regl xst_init (x_globals xst_init)) with xst_init in R.
  destruct (x_run db xst_init l) as [s|e].
  - destruct R as [g' R]. rewrite R. reflexivity.
  - rewrite R. reflexivity.
Qed.

Lemma flat_free l : push_free (stackless l).
Proof.
  unfold push_free, stackless. apply Forall_forall. intros i I. apply filter_In in I. destruct I as [_ I].
  unfold stack_item in I. destruct (ic i); try discriminate I; split; discriminate.
Qed.

(* ------------------------------------------------------------------ *)
(** streams that go on after the last closed collection *)

Lemma start_host : follows_host xst_init g_init 0 [].
Proof. split; [apply agree_init|cbn; lia|reflexivity|cbn; lia|]. exists []. split; [constructor|reflexivity]. Qed.

Lemma run_nest db l s : Forall constructed l -> push_free l -> x_run db xst_init l = Ok s ->
  exists d, nest 0 (map ic l) = Some d.
Proof.
  revert s. induction l as [|i l IH] using rev_ind; intros s C P R; [exists 0%nat; reflexivity|].
  apply Forall_app in C. destruct C as [C1 C2]. apply Forall_app in P. destruct P as [P1 P2].
  rewrite x_run_app in R. destruct (x_run db xst_init l) as [s1|e] eqn:R1; [|discriminate R].
  destruct (IH s1 C1 P1 eq_refl) as [d N]. rewrite map_app, nest_app, N.
  destruct (run_steps db l xst_init s1 g_init lo_init 0 d [] C1 P1 start_host R1 N) as [[_ _ _ DP _] _].
  cbn [map nest bind x_run] in *. destruct (x_append db s1 i) as [s2|e] eqn:E; [|discriminate R].
  destruct (ic i) eqn:EI; eauto. destruct d as [|d]; [|eauto]. exfalso.
  unfold x_append, ikd in E. rewrite EI in E. cbn [kind_of] in E.
  change (x_innamed (expand_ranges s1)) with (x_innamed s1) in E. destruct (x_innamed s1); [cbn in DP; lia|].
  unfold x_leave in E. change (x_stack (expand_ranges s1)) with (x_stack s1) in E.
  destruct (x_stack s1); [discriminate E|cbn in DP; lia].
Qed.

Lemma end_root db s i s' : ic i <> EndCollection \/ x_stack s' <> [] -> 0 <= gval s ReportCount -> heads (x_current s) (x_stack s) ->
  x_append db s i = Ok s' -> x_root s' = x_root s.
Proof.
  intros N NC HD H. unfold x_append, ikd in H. destruct (kind_of (ic i)) eqn:K.
  - destruct (data_tag (ic i)) eqn:DT.
    + assert (EH : (let* s1 := handle_data db (expand_ranges s) i in Ok (locals_clear s1)) = Ok s').
      { destruct (ic i); try discriminate DT; exact H. }
      destruct (handle_data db (expand_ranges s) i) as [s1|e] eqn:E1; [|discriminate EH]. cbn [bind] in EH. injection EH as <-.
      cbn [locals_clear x_root].
      set (g := G (gval s UsagePage) (gval s LogicalMinimum) (gval s LogicalMaximum) (gval s PhysicalMinimum) (gval s PhysicalMaximum)
         (gval s UnitExponent) (gval s Unit) (gval s ReportSize) (gval s ReportID) (gval s ReportCount)).
      assert (A : agree (expand_ranges s) g) by (split; reflexivity).
      destruct (handle_data_spec db (expand_ranges s) i s1 g lo_init DT NC A HD E1) as [[_ _ KR] _]. exact KR.
    + destruct (ic i) eqn:EI; try discriminate DT; try discriminate K.
      * cbn [bind] in H. injection H as <-. reflexivity.
      * destruct N as [N|N]; [congruence|].
        change (x_innamed (expand_ranges s)) with (x_innamed s) in H. destruct (x_innamed s).
        -- cbn [bind set_levels expand_ranges x_stack x_current] in H. injection H as <-.
           destruct (x_stack s) eqn:ES; [|reflexivity]. cbn in N. congruence.
        -- destruct (x_leave (expand_ranges s) true) as [s1|e] eqn:EL; [|discriminate H]. cbn [bind] in H. injection H as <-.
           destruct (x_leave_keep _ _ EL HD) as [[_ _ KR] _]. destruct (x_stack s1) eqn:ES; [|exact KR].
           cbn in N. congruence.
  - injection H as <-. reflexivity.
  - injection H as <-. destruct (ic i); reflexivity.
Qed.

Lemma snoc_split {A} (l : list A) x a y b : l ++ [x] = a ++ y :: b -> (b = [] /\ l = a /\ x = y) \/ exists b', b = b' ++ [x] /\ l = a ++ y :: b'.
Proof.
  destruct b as [|z b] using rev_ind; intros E.
  - left. change (a ++ [y]) with (a ++ [y]) in E. apply app_inj_tail in E. intuition.
  - right. clear IHb. rewrite app_comm_cons, app_assoc in E. apply app_inj_tail in E. destruct E as [-> ->]. eauto.
Qed.

Lemma snoc_covers a l i : covers a l -> (ic i = EndCollection -> ~ balanced (map ic (l ++ [i]))) -> covers a (l ++ [i]).
Proof.
  intros [b [E [L M]]] N. exists (b ++ [i]). split; [rewrite E, app_assoc; reflexivity|]. split; [exact L|].
  intros a' j b' E2 EC B. apply snoc_split in E2. destruct E2 as [[-> [-> ->]]|[b2 [-> E2]]].
  - destruct (N EC B).
  - eapply M; eauto.
Qed.

Lemma roots db l s : Forall constructed l -> push_free l -> x_run db xst_init l = Ok s ->
  match x_root s with
  | None => forall a' i b', l = a' ++ i :: b' -> ic i = EndCollection -> ~ balanced (map ic (a' ++ [i]))
  | Some t => exists a, covers a l /\ all_reported t /\ (exists s', x_run db xst_init a = Ok s' /\ x_stack s' = [] /\ x_root s' = Some t) /\
      exists vss, Forall2 stands_for (data_states (map wire a)) vss /\ numbered (scoped 0 t) = concat vss
  end.
Proof.
  revert s. induction l as [|i l IH] using rev_ind; intros s C P R.
  { cbn in R. injection R as <-. cbn [xst_init x_root]. intros a' i b' E. destruct a'; discriminate E. }
  destruct (run_nest db (l ++ [i]) s C P R) as [d' N].
  pose proof C as C0. pose proof P as P0.
  apply Forall_app in C. destruct C as [C1 C2]. apply Forall_app in P. destruct P as [P1 P2].
  inversion C2 as [|? ? C3 _]; subst. inversion P2 as [|? ? [P3 P4] _]; subst.
  pose proof R as R0. rewrite x_run_app in R. destruct (x_run db xst_init l) as [s1|e] eqn:R1; [|discriminate R].
  cbn [bind x_run] in R. destruct (x_append db s1 i) as [s2|e] eqn:E; [|discriminate R]. cbn [bind] in R. injection R as ->.
  rewrite map_app, nest_app in N. destruct (nest 0 (map ic l)) as [d|] eqn:N1; [|discriminate N]. cbn [map] in N.
  destruct (run_steps db l xst_init s1 g_init lo_init 0 d [] C1 P1 start_host R1 N1) as [FH _].
  specialize (IH s1 C1 P1 eq_refl).
  destruct (m_run lo_init lo_set sees (g_init, lo_init) (map wire l)) as [[g1 x1] o1]. cbn [fst snd] in FH.
  destruct (append_step db s1 i s g1 x1 d d' _ C3 P3 P4 FH E N) as [FH2 [_ RT]].
  assert (EQ : ic i = EndCollection \/ ic i <> EndCollection) by (destruct (ic i); (left; reflexivity) || (right; discriminate)).
  destruct EQ as [EI|EI]; [destruct (x_stack s) eqn:ES|].
  - (* the collection closed is the outermost one *)
    specialize (RT EI eq_refl). unfold root_of in RT. rewrite ES in RT. rewrite RT. exists (l ++ [i]). split; [|split; [|split]].
    + exists []. split; [rewrite app_nil_r; reflexivity|]. split; [exists l, i; auto|]. intros a' j b' E2 _ _. rewrite E2, app_length. cbn. lia.
    + apply insert_reported.
    + exists s. auto.
    + assert (NN : nest 0 (map ic (l ++ [i])) = Some d') by (rewrite map_app, nest_app, N1; exact N).
      destruct (run_steps db (l ++ [i]) xst_init s g_init lo_init 0 d' [] C0 P0 start_host R0 NN) as [[_ _ HD _ [vss [F V]]] _].
      rewrite <- data_states_machine in F by exact P0. exists vss. split; [exact F|].
      rewrite insert_leaves, <- (top_leaves s ES (depth_top _ _ HD ES)). exact V.
  - assert (ER : x_root s = x_root s1).
    { destruct FH as [A NC HD _ _]. apply (end_root db s1 i s); [right; rewrite ES; discriminate|rewrite (ag_count _ _ A); exact NC|exact HD|exact E]. }
    assert (NB : ic i = EndCollection -> ~ balanced (map ic (l ++ [i]))).
    { intros _ B. unfold balanced in B. rewrite map_app, nest_app, N1 in B. cbn [map] in B. rewrite N in B. injection B as ->.
      destruct FH2 as [_ _ _ DP _]. rewrite ES in DP. cbn in DP. lia. }
    rewrite ER. destruct (x_root s1) as [t|].
    + destruct IH as [a [CV [AR V]]]. exists a. split; [apply snoc_covers; assumption|auto].
    + intros a' j b' E2 EC. apply snoc_split in E2. destruct E2 as [[-> [-> ->]]|[b2 [-> E2]]]; [apply NB; exact EC|eapply IH; eauto].
  - assert (ER : x_root s = x_root s1).
    { destruct FH as [A NC HD _ _]. apply (end_root db s1 i s); [left; exact EI|rewrite (ag_count _ _ A); exact NC|exact HD|exact E]. }
    assert (NB : ic i = EndCollection -> ~ balanced (map ic (l ++ [i]))) by (intros H; congruence).
    rewrite ER. destruct (x_root s1) as [t|].
    + destruct IH as [a [CV [AR V]]]. exists a. split; [apply snoc_covers; assumption|auto].
    + intros a' j b' E2 EC. apply snoc_split in E2. destruct E2 as [[-> [-> ->]]|[b2 [-> E2]]]; [apply NB; exact EC|eapply IH; eauto].
Qed.

Lemma flat_constructed l : Forall constructed l -> Forall constructed (stackless l).
Proof. intros C. apply Forall_forall. intros i I. apply filter_In in I. destruct I as [I _]. rewrite Forall_forall in C. auto. Qed.

Theorem c46_always db l t : Forall constructed l -> extract db l = Ok t ->
  exists a, covers a (stackless l) /\ all_reported t /\
  exists vss, Forall2 stands_for (data_states (map wire a)) vss /\ numbered (scoped 0 t) = concat vss.
Proof.
  intros C X. rewrite extract_flat in X. unfold extract in X.
  destruct (x_run db xst_init (stackless l)) as [s|e] eqn:R; [|discriminate X]. cbn [bind] in X.
  pose proof (roots db (stackless l) s (flat_constructed _ C) (flat_free l) R) as H.
  destruct (x_root s) as [t'|]; [|discriminate X]. injection X as ->. destruct H as [a [H1 [H2 [_ H3]]]]. exists a. auto.
Qed.

Lemma covers_forall {Q} a l : covers a l -> Forall Q l -> Forall Q a.
Proof. intros [b [-> _]] F. apply Forall_app in F. tauto. Qed.

Theorem c44_always db l t : Forall constructed l -> extract db l = Ok t ->
  exists a, covers a (stackless l) /\ forall m w rid,
    bits_of (of_report w rid (numbered (scoped 0 t))) = report_bits w rid (host_view m (map wire a)).
Proof.
  intros C X. destruct (c46_always db l t C X) as [a [CV [_ [vss [F V]]]]]. exists a. split; [exact CV|]. intros m w rid. rewrite V.
  pose proof (covers_forall _ _ CV (flat_free l)) as P. pose proof (covers_forall _ _ CV (flat_constructed _ C)) as C2.
  change (host_view m (map wire a)) with (seen m a). rewrite seen_machine by exact P. unfold m_full.
  rewrite (proj1 (run_obs (full_obs m) (map wire a) g_init lo_init)).
  rewrite data_states_machine in F by exact P. apply full_bits; [exact F|apply run_mains|].
  apply counts_pos; auto. cbn. lia.
Qed.

(* ------------------------------------------------------------------ *)
(** plain streams *)

Lemma add_values_levels l : forall s s', add_values s l = Ok s' -> x_stack s' = x_stack s.
Proof.
  induction l as [|[v|e] l IH]; intros s s' H; [cbn in H; congruence| |discriminate H]. cbn [add_values bind] in H.
  rewrite (IH _ _ H). reflexivity.
Qed.

Lemma data_stack db s i s' : handle_data db s i = Ok s' -> x_innamed s' = false -> x_stack s' = x_stack s.
Proof.
  unfold handle_data. destruct (negb (Z.land (ival i) fl_Constant =? 0)).
  - destruct (mk_padding _ _) as [v|e]; [|discriminate]. cbn [bind]. intros H _. injection H as <-. reflexivity.
  - set (m := Z.of_nat _ =? _). destruct (if _ && m then _ else _) as [inn|e]; [|discriminate]. cbn [bind]. destruct inn.
    + destruct (x_leave s false) as [s1|e]; [|discriminate]. cbn [bind].
      destruct (lv_members (x_current s)) as [|? ?]; [|discriminate]. destruct (lv_head (x_current s)) as [[k u]|]; [|discriminate].
      destruct (named_value db s i u (named_of_usages db s)) as [v|e]; [|discriminate]. cbn [bind]. intros H N. injection H as <-. discriminate N.
    + destruct ((ival i =? 0) && m).
      * intros H _. apply add_values_levels in H. exact H.
      * destruct (negb (Z.land (ival i) fl_BufferedBytes =? 0)).
        -- destruct (plain_value db s i 0 (gval s ReportCount)) as [v|e]; [|discriminate]. cbn [bind]. intros H _. injection H as <-. reflexivity.
        -- intros H _. apply add_values_levels in H. exact H.
Qed.

Lemma step_depth db s i s' : heads (x_current s) (x_stack s) -> x_innamed s = false -> x_innamed s' = false -> x_append db s i = Ok s' ->
  nest (length (x_stack s)) [ic i] = Some (length (x_stack s')).
Proof.
  intros HD I1 I2 H. unfold x_append, ikd in H. destruct (kind_of (ic i)) eqn:K.
  - destruct (data_tag (ic i)) eqn:DT.
    + assert (EH : (let* s1 := handle_data db (expand_ranges s) i in Ok (locals_clear s1)) = Ok s').
      { destruct (ic i); try discriminate DT; exact H. }
      destruct (handle_data db (expand_ranges s) i) as [s1|e] eqn:E1; [|discriminate EH]. cbn [bind] in EH. injection EH as <-.
      cbn [locals_clear x_stack x_innamed] in *. rewrite (data_stack _ _ _ _ E1 I2). change (x_stack (expand_ranges s)) with (x_stack s).
      destruct (ic i); try discriminate DT; reflexivity.
    + destruct (ic i) eqn:EI; try discriminate DT; try discriminate K.
      * cbn [bind] in H. injection H as <-. reflexivity.
      * change (x_innamed (expand_ranges s)) with (x_innamed s) in H. rewrite I1 in H.
        destruct (x_leave (expand_ranges s) true) as [s1|e] eqn:EL; [|discriminate H]. cbn [bind] in H. injection H as <-.
        destruct (x_leave_keep _ _ EL HD) as [_ [_ [_ LE]]]. change (x_stack (expand_ranges s)) with (x_stack s) in LE. rewrite LE. cbn [nest].
        destruct (x_stack s1) eqn:ES; cbn [locals_clear x_ended x_stack]; rewrite ES; reflexivity.
  - injection H as <-. cbn [x_stack]. destruct (ic i); try discriminate K; reflexivity.
  - injection H as <-. destruct (ic i); try discriminate K; reflexivity.
Qed.

Lemma plain_depth db l : forall s s' g x ev, Forall constructed l -> push_free l -> view s g x ev -> x_run db s l = Ok s' ->
  plain_stream (kinds s) (snd (m_run lo_init lo_set sees (g, x) (map wire l))) ->
  nest (length (x_stack s)) (map ic l) = Some (length (x_stack s')).
Proof.
  induction l as [|i l IH]; intros s s' g x ev C P V R.
  - cbn in R. injection R as <-. reflexivity.
  - inversion C as [|? ? C1 C2]; subst. inversion P as [|? ? [P1 P1'] P2]; subst. cbn [map x_run m_run] in *.
    destruct (x_append db s i) as [s1|e] eqn:E1; [|discriminate R]. cbn [bind] in R.
    pose proof (fun es => view_step db s i s1 g x ev es C1 P1 P1' V E1) as ST.
    destruct (m_step lo_init lo_set sees (g, x) (wire i)) as [[g1 x1] o1]. cbn [fst snd] in ST.
    specialize (IH s1 s' g1 x1 (ev ++ flat_map (obs_at (full_obs AtMain)) o1) C2 P2).
    destruct (m_run lo_init lo_set sees (g1, x1) (map wire l)) as [[g2 x2] o2]. cbn [fst snd] in *.
    intros PS. destruct (ST o2 PS) as [V1 PS1]. specialize (IH V1 R PS1).
    rewrite nest_cons, (step_depth db s i s1); [exact IH|apply (vw_heads _ _ _ _ V)|apply (vw_named _ _ _ _ V)|apply (vw_named _ _ _ _ V1)|exact E1].
Qed.

Lemma start_view : view xst_init g_init lo_init [].
Proof.
  split; [apply agree_init|apply lrel_init|cbn; lia|reflexivity|reflexivity|]. exists []. split; [constructor|]. split; [constructor|].
  intros a k u b E. destruct a; discriminate E.
Qed.

Lemma main_states_machine l : push_free l -> main_states (map wire l) = snd (m_run lo_init lo_set sees (g_init, lo_init) (map wire l)).
Proof.
  intros P. change (main_states (map wire l)) with (snd (h_run sees (H g_init [] lo_init) (map wire l))).
  destruct (m_run_host sees (map wire l) g_init [] lo_init) as [st' E]; [apply Forall_map; exact P|]. rewrite E. reflexivity.
Qed.

Lemma plain_stream_app a : forall o b, plain_stream o (a ++ b) -> plain_stream o a.
Proof.
  induction a as [|[[[g x] c] f] a IH]; intros o b H; [exact I|]. cbn [app plain_stream] in *.
  destruct c; intuition eauto.
Qed.

Lemma m_run_prefix {X A} (x0 : X) st (obs : gtab -> X -> icls -> Z -> list A) a b : forall s,
  exists r, snd (m_run x0 st obs s (a ++ b)) = snd (m_run x0 st obs s a) ++ r.
Proof.
  induction a as [|w a IH]; intros s; [eexists; reflexivity|]. cbn [app m_run]. destruct (m_step x0 st obs s w) as [s1 o1].
  destruct (IH s1) as [r E]. destruct (m_run x0 st obs s1 (a ++ b)) as [s2 o2]. destruct (m_run x0 st obs s1 a) as [s3 o3].
  cbn [snd] in *. subst o2. exists r. apply app_assoc.
Qed.

(** the part that is kept *)
Theorem plain_prefix db l t : Forall constructed l -> plain_stream [] (main_states (map wire (stackless l))) -> extract db l = Ok t ->
  exists a, covers a (stackless l) /\ push_free a /\ closes (map ic a) /\ plain_stream [] (main_states (map wire a)) /\ extract db a = Ok t.
Proof.
  intros C PS X. rewrite extract_flat in X. unfold extract in X.
  destruct (x_run db xst_init (stackless l)) as [s|e] eqn:R; [|discriminate X]. cbn [bind] in X.
  pose proof (roots db (stackless l) s (flat_constructed _ C) (flat_free l) R) as H.
  destruct (x_root s) as [t'|]; [|discriminate X]. injection X as ->. destruct H as [a [CV [_ [[s' [RA [SA TA]]] _]]]].
  exists a. split; [exact CV|]. pose proof (covers_forall _ _ CV (flat_free l)) as P. split; [exact P|].
  pose proof (covers_forall _ _ CV (flat_constructed _ C)) as C2. destruct CV as [b [E [[a0 [i [EA EI]]] _]]].
  assert (PA : plain_stream [] (main_states (map wire a))).
  { rewrite main_states_machine in PS |- * by (exact P || apply flat_free). rewrite E, map_app in PS.
    destruct (m_run_prefix lo_init lo_set sees (map wire a) (map wire b) (g_init, lo_init)) as [r ER]. rewrite ER in PS.
    apply plain_stream_app in PS. exact PS. }
  split; [|split; [exact PA|]].
  - split.
    + rewrite main_states_machine in PA by exact P. pose proof (plain_depth db a xst_init s' g_init lo_init [] C2 P start_view RA PA) as N.
      rewrite SA in N. exact N.
    + exists (map ic a0), []. split; [rewrite EA, map_app; cbn [map]; rewrite EI; reflexivity|constructor].
  - unfold extract. rewrite RA. cbn [bind]. rewrite TA. reflexivity.
Qed.

Theorem c47_always db l t : Forall constructed l -> plain_stream [] (main_states (map wire (stackless l))) -> extract db l = Ok t ->
  exists a, covers a (stackless l) /\ balanced (map ic a) /\
  exists fl, drawn fl (host_view AtMain (map wire a)) /\ prunes fl (scoped 0 t) /\ no_empty (scoped 0 t).
Proof.
  intros C PS X. destruct (plain_prefix db l t C PS X) as [a [CV [P [CL [PA XA]]]]].
  exists a. split; [exact CV|]. split; [apply CL|]. apply (c47 db a t); auto. apply (covers_forall _ _ CV (flat_constructed _ C)).
Qed.

Theorem c45_always db l t : Forall constructed l -> plain_stream [] (main_states (map wire (stackless l))) -> extract db l = Ok t ->
  exists a, covers a (stackless l) /\ balanced (map ic a) /\
  fields_of (numbered (scoped 0 t)) (filter is_field (host_view AtMain (map wire a))).
Proof.
  intros C PS X. destruct (plain_prefix db l t C PS X) as [a [CV [P [CL [PA XA]]]]].
  exists a. split; [exact CV|]. split; [apply CL|]. apply (c45 db a t); auto. apply (covers_forall _ _ CV (flat_constructed _ C)).
Qed.
