(* ViewProofs.v -- the decompiler sees of a descriptor what ViewSpec says, and
   nothing else (C93) *)
From Coq Require Import ZArith List Bool Lia ZifyBool ZifyNat String.
From Verif Require Import Py Usage Item Parser Optimizer Descriptor Extractor UsageModules.
From Verif Require Import HidSpec Spec ItemFacts ParserFacts CodecProofs UsageProofs TextProofs StreamSpec PlainHost StreamProofs StreamTree OptFacts OptSpec AllSpec PassFacts.
From Verif Require Import TreeOpt ExtractSpec ExtractFacts ExtractView ExtractAgain ExtractBack AcceptSpec ExtractAccept AcceptBlob BackSpec BytesBack DumpSpec DumpFacts DumpProofs NameFacts NameTree NameBack DumpExtract DumpCompile VerdictSpec VerdictProofs ViewSpec.
Import ListNotations.
Local Open Scope list_scope.
Local Open Scope Z_scope.

(** the strings and designators the Extractor has kept *)
Record sees (s : xst) (run : list (icls * Z)) : Prop := {
  se_str : map py_int (x_strings s) = told StringIndex run;
  se_smin : option_map py_int (x_locals s StringMinimum) = final (told StringMinimum run);
  se_smax : option_map py_int (x_locals s StringMaximum) = final (told StringMaximum run);
  se_des : map py_int (x_designators s) = told DesignatorIndex run;
  se_dmin : option_map py_int (x_locals s DesignatorMinimum) = final (told DesignatorMinimum run);
  se_dmax : option_map py_int (x_locals s DesignatorMaximum) = final (told DesignatorMaximum run)
}.

Lemma sees_step db s i s' run : kind_of (ic i) = Local -> sees s run -> x_append db s i = Ok s' -> sees s' (run ++ [(ic i, ival i)]).
Proof.
  intros K [A B C D E F] H. unfold x_append, ikd in H. rewrite K in H. injection H as <-.
  assert (T : forall c, told c (run ++ [(ic i, ival i)]) = told c run ++ if icls_eqb (ic i) c then [ival i] else []).
  { intros c. rewrite told_app. unfold told at 2. cbn [flat_map fst snd]. rewrite app_nil_r. reflexivity. }
  destruct (ic i) eqn:EC; try discriminate K; split; rewrite T; cbn [x_strings x_designators x_locals icls_eqb]; unfold upd; cbn [icls_eqb];
    rewrite ?app_nil_r, ?final_snoc, ?map_app; try assumption; try reflexivity; first [rewrite A; reflexivity|rewrite D; reflexivity].
Qed.

Lemma expand_told s one mn mx l run : map py_int l = told one run ->
  option_map py_int (x_locals s mn) = final (told mn run) -> option_map py_int (x_locals s mx) = final (told mx run) ->
  map py_int (expand s mn mx l) = labels_told one mn mx run.
Proof.
  intros A B C. unfold expand, labels_told. rewrite <- A, <- B, <- C.
  destruct (x_locals s mn) as [a|], (x_locals s mx) as [b|], l as [|x l]; cbn [option_map map]; try reflexivity.
  rewrite map_vint, zrange_upto. reflexivity.
Qed.

Lemma usage_truthy db s n u : x_usage db s n = Some u -> truthy u = true.
Proof.
  unfold x_usage. destruct (last_repeat _ n) as [v|]; [|discriminate]. destruct (negb (Z.shiftr (py_int v) 16 =? 0)) eqn:E; intros H; injection H as <-.
  - destruct v as [z| |]; try reflexivity. cbn [truthy py_int] in *. destruct (z =? 0) eqn:Z0; [|reflexivity]. apply Z.eqb_eq in Z0. subst z. discriminate E.
  - clear E. generalize (Z.lor (Z.shiftl (gval s UsagePage) 16) (py_int v)). intros z. unfold lookup. destruct (negb (Z.shiftr z 16 =? 0)); [destruct (db z) as [[? ?]|]|]; reflexivity.
Qed.

(** levels and root are the same up to names *)
Record stands (db : udb) (s s' : xst) : Prop := {
  st_stack : Forall2 (llike db db) (x_stack s) (x_stack s');
  st_current : llike db db (x_current s) (x_current s');
  st_innamed : x_innamed s' = x_innamed s;
  st_root : rlike (x_root s) (x_root s')
}.

Lemma usage_alike db s s' g g' run run' n : digs db s g run -> digs db s' g' run' ->
  nth_last (usages_told (g_page g') run') n = nth_last (usages_told (g_page g) run) n ->
  olike db db (x_usage db (expand_ranges s) n) (x_usage db (expand_ranges s') n).
Proof.
  intros D D' U. pose proof D as [A L _ _ _ _ _ _]. pose proof D' as [A' L' _ _ _ _ _ _].
  pose proof (proj1 (x_usage_told db s run g n L A)) as E. pose proof (proj1 (x_usage_told db s' run' g' n L' A')) as E'. rewrite U, <- E in E'.
  destruct (x_usage db (expand_ranges s) n) as [u|] eqn:X, (x_usage db (expand_ranges s') n) as [u'|] eqn:X'; try discriminate E'; [|exact I].
  cbn [option_map] in E'. assert (P : py_int u' = py_int u) by congruence. cbn [olike]. constructor.
  - exact P.
  - rewrite (usage_truthy _ _ _ _ X), (usage_truthy _ _ _ _ X'). reflexivity.
  - pose proof (usage_known db s g run n u D X) as Y. pose proof (usage_known db s' g' run' n u' D' X') as Y'. unfold known in Y, Y'. rewrite Y, Y', P. reflexivity.
Qed.

Lemma seen_alike db s s' g g' run run' : digs db s g run -> digs db s' g' run' -> sees s run -> sees s' run' -> stands db s s' ->
  g_set UsagePage 0 g' = g_set UsagePage 0 g ->
  usages_told (g_page g') run' = usages_told (g_page g) run ->
  labels_told StringIndex StringMinimum StringMaximum run' = labels_told StringIndex StringMinimum StringMaximum run ->
  labels_told DesignatorIndex DesignatorMinimum DesignatorMaximum run' = labels_told DesignatorIndex DesignatorMinimum DesignatorMaximum run ->
  mlike db db (expand_ranges s) (expand_ranges s').
Proof.
  intros D D' S S' [T1 T2 T3 T4] G U L1 L2. pose proof D as [A L _ _ _ _ _ _]. pose proof D' as [A' L' _ _ _ _ _ _].
  constructor; auto.
  - intros c TC. change (gval s' c = gval s c). destruct A, A'. clear - TC G ag_lmin ag_lmax ag_pmin ag_pmax ag_uexp ag_unit ag_size ag_rid ag_count ag_lmin0 ag_lmax0 ag_pmin0 ag_pmax0 ag_uexp0 ag_unit0 ag_size0 ag_rid0 ag_count0.
    pose proof (f_equal g_lmin G). pose proof (f_equal g_lmax G). pose proof (f_equal g_pmin G). pose proof (f_equal g_pmax G). pose proof (f_equal g_uexp G).
    pose proof (f_equal g_unit G). pose proof (f_equal g_size G). pose proof (f_equal g_rid G). pose proof (f_equal g_count G).
    destruct g, g'. cbn in *. destruct c; try discriminate TC; congruence.
  - rewrite (proj2 (x_usage_told db s run g 0 L A)), (proj2 (x_usage_told db s' run' g' 0 L' A')), U. reflexivity.
  - intros n. apply (usage_alike db s s' g g' run run' n D D'). rewrite U. reflexivity.
  - destruct S as [Q1 Q2 Q3 _ _ _], S' as [R1 R2 R3 _ _ _]. cbn [expand_ranges x_strings].
    rewrite (expand_told s' _ _ _ _ _ R1 R2 R3), (expand_told s _ _ _ _ _ Q1 Q2 Q3). exact L1.
  - destruct S as [_ _ _ Q1 Q2 Q3], S' as [_ _ _ R1 R2 R3]. cbn [expand_ranges x_designators].
    rewrite (expand_told s' _ _ _ _ _ R1 R2 R3), (expand_told s _ _ _ _ _ Q1 Q2 Q3). exact L2.
Qed.

(** the same state in another place of the tree *)
Definition put (s s' : xst) : xst :=
  XST (x_globals s) (x_usages s) (x_strings s) (x_designators s) (x_locals s) (x_stack s') (x_current s') (x_innamed s') (x_root s').

Lemma put_alike db s s' : stands db s s' -> mlike db db (expand_ranges s) (expand_ranges (put s s')).
Proof.
  intros [T1 T2 T3 T4]. constructor; auto; try reflexivity.
  intros n. change (x_usage db (expand_ranges (put s s')) n) with (x_usage db (expand_ranges s) n).
  destruct (x_usage db (expand_ranges s) n); [|exact I]. constructor; reflexivity.
Qed.

Lemma like_stands db r r' : same_result (fun a b => exists q q', mlike db db q q' /\ a = locals_clear q /\ b = locals_clear q') r r' ->
  same_result (stands db) r r'.
Proof.
  destruct r as [a|e], r' as [b|f]; cbn [same_result]; auto. intros [q [q' [[] [-> ->]]]]. split; assumption.
Qed.

Definition same_levels (s s1 : xst) : Prop :=
  x_stack s1 = x_stack s /\ x_current s1 = x_current s /\ x_innamed s1 = x_innamed s /\ x_root s1 = x_root s.

Lemma main_stands db s s' g g' run run' i i' : digs db s g run -> digs db s' g' run' -> sees s run -> sees s' run' -> stands db s s' ->
  kind_of (ic i) = Main -> kind_of (ic i') = Main -> gist g run (ic i) (ival i) = gist g' run' (ic i') (ival i') ->
  same_result (stands db) (x_append db s i) (x_append db s' i').
Proof.
  intros D D' S S' T K K' V.
  assert (EC : ic i' = ic i).
  { unfold gist in V. destruct (is_constant (ival i)), (is_constant (ival i')); destruct (ic i); try discriminate K; destruct (ic i'); try discriminate K'; congruence. }
  assert (TR : forall r r' : result xst, (match r, r' with Ok a, Ok b => same_levels a b | Err e, Err f => f = e | _, _ => False end) ->
    forall q, same_result (stands db) q r -> same_result (stands db) q r').
  { intros [a|e] [b|f] H [q|d] R; cbn [same_result] in *; try contradiction; [|congruence].
    destruct R as [R1 R2 R3 R4], H as [H1 [H2 [H3 H4]]]. split; [rewrite H1|rewrite H2|rewrite H3|rewrite H4]; assumption. }
  assert (PUT : forall j, ilike db db i j -> same_result (stands db) (x_append db s i) (x_append db (put s s') j)).
  { intros j IL. apply like_stands. apply main_like; [apply put_alike; exact T|exact IL|exact K]. }
  assert (IL : ival i' = ival i -> ilike db db i i').
  { intros E. constructor; [exact EC|exact E|]. intros U. rewrite U in K. discriminate K. }
  assert (IR : ilike db db i i).
  { constructor; [reflexivity..|]. intros U. rewrite U in K. discriminate K. }
  destruct (data_tag (ic i)) eqn:DT.
  - unfold gist in V. rewrite EC in V.
    assert (V' : (if is_constant (ival i) then (g_set ReportSize (g_size g * g_count g) (g_set ReportID (g_rid g) g_init), [], [], [], ic i, 1)
      else (g_set UsagePage 0 g, usages_told (g_page g) run, labels_told StringIndex StringMinimum StringMaximum run,
            labels_told DesignatorIndex DesignatorMinimum DesignatorMaximum run, ic i, ival i)) =
      (if is_constant (ival i') then (g_set ReportSize (g_size g' * g_count g') (g_set ReportID (g_rid g') g_init), [], [], [], ic i, 1)
      else (g_set UsagePage 0 g', usages_told (g_page g') run', labels_told StringIndex StringMinimum StringMaximum run',
            labels_told DesignatorIndex DesignatorMinimum DesignatorMaximum run', ic i, ival i'))) by (destruct (ic i); try discriminate DT; exact V).
    clear V. destruct (is_constant (ival i)) eqn:CO.
    + assert (CO' : is_constant (ival i') = true) by (destruct (is_constant (ival i')) eqn:Q; [reflexivity|]; assert (Z1 : ival i' = 1) by congruence; rewrite Z1 in Q; discriminate Q).
      rewrite CO' in V'. cbn [g_set g_init] in V'. injection V' as E1 E2.
      assert (X : forall q j, ic j = ic i -> is_constant (ival j) = true -> x_append db q j =
        let* v := mk_padding (VNamed (tag_name (ic i)) (tag_of (ic i))) (gval q ReportSize * gval q ReportCount) in Ok (locals_clear (add_value (expand_ranges q) v))).
      { intros q j EJ CJ. unfold x_append, ikd. rewrite EJ, K.
        assert (H : handle_data db (expand_ranges q) j = let* v := mk_padding (VNamed (tag_name (ic i)) (tag_of (ic i))) (gval q ReportSize * gval q ReportCount) in Ok (add_value (expand_ranges q) v)).
        { unfold handle_data. rewrite odd_land, negb_involutive, CJ, EJ. reflexivity. }
        destruct (ic i); try discriminate DT; rewrite H; destruct (mk_padding _ _); reflexivity. }
      apply (TR (x_append db (put s s') i)); [|apply PUT; exact IR].
      rewrite (X (put s s') i eq_refl CO), (X s' i' EC CO').
      destruct D as [A _ _ _ _ _ _ _], D' as [A' _ _ _ _ _ _ _].
      change (gval (put s s') ReportSize) with (gval s ReportSize). change (gval (put s s') ReportCount) with (gval s ReportCount).
      rewrite (ag_size _ _ A), (ag_size _ _ A'), (ag_count _ _ A), (ag_count _ _ A'), <- E1.
      destruct (mk_padding _ _) as [v|e]; cbn [bind]; [|reflexivity].
      unfold same_levels, add_value. cbn [locals_clear set_levels x_stack x_current x_innamed x_root expand_ranges put].
      change (gval (expand_ranges (put s s')) ReportID) with (gval s ReportID). change (gval (expand_ranges s') ReportID) with (gval s' ReportID).
      rewrite (ag_rid _ _ A), (ag_rid _ _ A'), E2. repeat split.
    + destruct (is_constant (ival i')) eqn:CO'; [assert (Z1 : ival i = 1) by congruence; rewrite Z1 in CO; discriminate CO|]. injection V' as E1 E2 E3 E4 E5.
      apply like_stands. apply main_like; [|apply IL; congruence|exact K].
      apply (seen_alike db s s' g g' run run'); auto.
  - destruct (ic i) eqn:C; try discriminate K; try discriminate DT; rewrite EC in V; cbn [gist] in V.
    + injection V as E1 E2. unfold x_append, ikd. rewrite C, EC. cbn [kind_of bind same_result].
      assert (U : olike db db (x_usage db (expand_ranges s) 0) (x_usage db (expand_ranges s') 0)).
      { apply (usage_alike db s s' g g' run run' 0 D D').
        destruct (usages_told (g_page g) run) as [|x us], (usages_told (g_page g') run') as [|x' us']; cbn [firstn] in E1; try discriminate E1; [reflexivity|]. unfold nth_last. cbn [nth]. congruence. }
      destruct T as [T1 T2 T3 T4]. split; cbn [locals_clear x_enter set_levels x_stack x_current x_innamed x_root expand_ranges]; auto.
      split; [|constructor]. cbn [lv_head hlike]. split; [symmetry; exact E2|exact U].
    + apply (TR (x_append db (put s s') i)); [|apply PUT; exact IR].
      unfold x_append, ikd. rewrite C, EC. cbn [kind_of]. unfold x_leave. cbn [put expand_ranges x_innamed x_stack x_current].
      destruct (x_innamed s').
      * cbn [bind set_levels x_stack]. destruct (x_stack s'); cbn [bind]; repeat split.
      * destruct (x_stack s') as [|p r]; cbn [bind]; [reflexivity|]. cbn [set_levels x_stack]. destruct r; repeat split.
Qed.

(** up to the next main item *)
Lemma advance db l : forall s g run, Forall constructed l -> Forall (canon db) l -> digs db s g run -> sees s run ->
  (exists s1, x_run db s l = Ok s1 /\ views g run (map cv l) = [] /\ same_levels s s1) \/
  (exists i r s1 g1 run1, x_run db s l = (let* s2 := x_append db s1 i in x_run db s2 r) /\ kind_of (ic i) = Main /\
    constructed i /\ canon db i /\ Forall constructed r /\ Forall (canon db) r /\ digs db s1 g1 run1 /\ sees s1 run1 /\ same_levels s s1 /\
    views g run (map cv l) = gist g1 run1 (ic i) (ival i) :: views g1 [] (map cv r) /\ (length r < length l)%nat).
Proof.
  induction l as [|i l IH]; intros s g run C CA D S.
  { left. exists s. repeat split. }
  inversion C as [|? ? C1 C2]; subst. inversion CA as [|? ? CA1 CA2]; subst. destruct (kind_of (ic i)) eqn:K.
  - right. exists i, l, s, g, run. cbn [x_run map length]. repeat (split; [solve [auto]|]). split; [repeat split|]. split; [|lia].
    unfold cv at 1. cbn [map views]. assert (MK : hid_kind (ic i) = KMain) by (destruct (ic i); try discriminate K; reflexivity). rewrite MK. reflexivity.
  - pose proof (verdict_step db s i g run [] C1 CA1 D) as V. cbv zeta in V.
    assert (MK : hid_kind (ic i) = KGlobal) by (destruct (ic i); try discriminate K; reflexivity).
    unfold lsight in V. rewrite MK in V. cbn [fst snd] in V.
    destruct (x_append db s i) as [s1|e] eqn:X.
    2:{ unfold x_append, ikd in X. rewrite K in X. discriminate X. }
    destruct V as [D1 _].
    assert (SL : same_levels s s1 /\ sees s1 run) by (unfold x_append, ikd in X; rewrite K in X; injection X as <-; split; [repeat split|destruct S; split; assumption]).
    destruct SL as [SL S1].
    assert (VE : views g run (map cv (i :: l)) = views (g_set (ic i) (ival i) g) run (map cv l)) by (cbn [map]; unfold cv at 1; cbn [views]; rewrite MK; reflexivity).
    assert (XE : x_run db s (i :: l) = x_run db s1 l) by (cbn [x_run]; rewrite X; reflexivity).
    rewrite VE, XE. cbn [length]. destruct (IH s1 _ run C2 CA2 D1 S1) as [[s2 [Y1 [Y2 Y3]]]|[j [r [s2 [g2 [run2 [Y1 [Y2 [Y3 [Y4 [Y5 [Y6 [Y7 [Y8 [Y9 [Y10 Y11]]]]]]]]]]]]]]]].
    + left. exists s2. split; [exact Y1|]. split; [exact Y2|]. unfold same_levels in *. intuition congruence.
    + right. exists j, r, s2, g2, run2. repeat (split; [solve [auto]|]). split; [unfold same_levels in *; intuition congruence|]. split; [exact Y10|lia].
  - pose proof (verdict_step db s i g run [] C1 CA1 D) as V. cbv zeta in V.
    assert (MK : hid_kind (ic i) = KLocal) by (destruct (ic i); try discriminate K; reflexivity).
    unfold lsight in V. rewrite MK in V. cbn [fst snd] in V.
    destruct (x_append db s i) as [s1|e] eqn:X.
    2:{ unfold x_append, ikd in X. rewrite K in X. discriminate X. }
    destruct V as [D1 _]. pose proof (sees_step db s i s1 run K S X) as S1.
    assert (SL : same_levels s s1) by (unfold x_append, ikd in X; rewrite K in X; injection X as <-; destruct (ic i); repeat split).
    assert (VE : views g run (map cv (i :: l)) = views g (run ++ [(ic i, ival i)]) (map cv l)) by (cbn [map]; unfold cv at 1; cbn [views]; rewrite MK; reflexivity).
    assert (XE : x_run db s (i :: l) = x_run db s1 l) by (cbn [x_run]; rewrite X; reflexivity).
    rewrite VE, XE. cbn [length]. destruct (IH s1 _ _ C2 CA2 D1 S1) as [[s2 [Y1 [Y2 Y3]]]|[j [r [s2 [g2 [run2 [Y1 [Y2 [Y3 [Y4 [Y5 [Y6 [Y7 [Y8 [Y9 [Y10 Y11]]]]]]]]]]]]]]]].
    + left. exists s2. split; [exact Y1|]. split; [exact Y2|]. unfold same_levels in *. intuition congruence.
    + right. exists j, r, s2, g2, run2. repeat (split; [solve [auto]|]). split; [unfold same_levels in *; intuition congruence|]. split; [exact Y10|lia].
Qed.

Lemma stands_levels db s s' s1 s1' : same_levels s s1 -> same_levels s' s1' -> stands db s s' -> stands db s1 s1'.
Proof. intros [A1 [A2 [A3 A4]]] [B1 [B2 [B3 B4]]] [T1 T2 T3 T4]. split; congruence. Qed.

Lemma views_run db n : forall l l' s s' g g' run run', (length l <= n)%nat -> Forall constructed l -> Forall (canon db) l -> Forall constructed l' -> Forall (canon db) l' ->
  digs db s g run -> digs db s' g' run' -> sees s run -> sees s' run' -> stands db s s' -> views g run (map cv l) = views g' run' (map cv l') ->
  match x_run db s l, x_run db s' l' with Ok a, Ok b => stands db a b | Err e, Err f => f = e | _, _ => False end.
Proof.
  induction n as [|n IH]; intros l l' s s' g g' run run' LE C CA C' CA' D D' S S' T V;
    destruct (advance db l s g run C CA D S) as [[s1 [X1 [X2 X3]]]|[i [r [s1 [g1 [run1 [X1 [X2 [X3 [X4 [X5 [X6 [X7 [X8 [X9 [X10 X11]]]]]]]]]]]]]]]];
    destruct (advance db l' s' g' run' C' CA' D' S') as [[s1' [Y1 [Y2 Y3]]]|[i' [r' [s1' [g1' [run1' [Y1 [Y2 [Y3 [Y4 [Y5 [Y6 [Y7 [Y8 [Y9 [Y10 Y11]]]]]]]]]]]]]]]];
    try (rewrite X10, Y2 in V; discriminate V); try (rewrite X2, Y10 in V; discriminate V); try lia.
  1, 2: rewrite X1, Y1; exact (stands_levels _ _ _ _ _ X3 Y3 T).
  rewrite X10, Y10 in V. injection V as E1 E2. rewrite X1, Y1.
  pose proof (main_stands db s1 s1' g1 g1' run1 run1' i i' X7 Y7 X8 Y8 (stands_levels _ _ _ _ _ X9 Y9 T) X2 Y2 E1) as R.
  pose proof (verdict_step db s1 i g1 run1 [] X3 X4 X7) as V1. pose proof (verdict_step db s1' i' g1' run1' [] Y3 Y4 Y7) as V2. cbv zeta in V1, V2.
  assert (MK : hid_kind (ic i) = KMain) by (destruct (ic i); try discriminate X2; reflexivity).
  assert (MK' : hid_kind (ic i') = KMain) by (destruct (ic i'); try discriminate Y2; reflexivity).
  unfold lsight in V1, V2. rewrite MK in V1. rewrite MK' in V2. cbn [fst snd] in V1, V2.
  assert (SE : forall q j q', kind_of (ic j) = Main -> x_append db q j = Ok q' -> sees q' []).
  { intros q j q' K H. unfold x_append, ikd in H. rewrite K in H.
    match goal with _ : (let* s1 := ?m in _) = _ |- _ => destruct m as [z|] end; cbn [bind] in H; [|discriminate H]. injection H as <-. split; reflexivity. }
  pose proof (SE s1 i) as SE1. pose proof (SE s1' i') as SE2.
  destruct (x_append db s1 i) as [s2|e], (x_append db s1' i') as [s2'|f]; cbn [same_result bind] in *; try contradiction; [|congruence].
  destruct V1 as [D1 _], V2 as [D2 _].
  apply (IH r r' s2 s2' g1 g1' [] []); auto. lia.
Qed.

Lemma digs_init db : digs db xst_init g_init [].
Proof.
  split; [apply agree_init|split; [reflexivity|reflexivity|reflexivity|constructor]|cbn; lia|cbn; lia|reflexivity|constructor; [exact I|constructor]|constructor|discriminate].
Qed.

Lemma sees_init : sees xst_init [].
Proof. split; reflexivity. Qed.

Lemma stands_init db : stands db xst_init xst_init.
Proof. split; [constructor|split; [exact I|constructor]|reflexivity|exact I]. Qed.

Lemma c93 db blob blob' ws ws' : blob_means blob ws -> blob_means blob' ws' -> Forall number_allowed ws -> Forall number_allowed ws' ->
  views g_init [] (map w_what ws) = views g_init [] (map w_what ws') ->
  match decompile db blob, decompile db blob' with Ok t, Ok t' => same_tree t t' | Err e, Err e' => e' = e | _, _ => False end.
Proof.
  intros B B' N N' V.
  destruct (parse_good db 0 blob ws B (proj1 (allowed_forall ws) N)) as [l [PA [M C]]].
  destruct (parse_good db 0 blob' ws' B' (proj1 (allowed_forall ws') N')) as [l' [PA' [M' C']]].
  assert (CA : Forall (canon db) l).
  { pose proof (parsed_canon (length blob) db 0 blob) as PC. fold (parse_from db 0 blob) in PC. rewrite PA in PC. exact PC. }
  assert (CA' : Forall (canon db) l').
  { pose proof (parsed_canon (length blob') db 0 blob') as PC. fold (parse_from db 0 blob') in PC. rewrite PA' in PC. exact PC. }
  change (map w_what ws) with (map wcv ws) in V. change (map w_what ws') with (map wcv ws') in V. rewrite <- M, <- M' in V.
  pose proof (digs_init db) as D. pose proof sees_init as S. pose proof (stands_init db) as T.
  pose proof (views_run db (length l) l l' xst_init xst_init g_init g_init [] [] (le_n _) C CA C' CA' D D S S T V) as R.
  unfold decompile. rewrite !blob_parse_from, PA, PA'. cbn [finished appended bind].
  destruct (x_run db xst_init l) as [a|e], (x_run db xst_init l') as [b|f]; try contradiction; cbn [bind]; [|exact R].
  apply st_root in R. destruct (x_root a), (x_root b); try contradiction; [exact R|reflexivity].
Qed.

Lemma c93_compiled db db' opt blob blob' ws ws' t t' : blob_means blob ws -> blob_means blob' ws' -> Forall number_allowed ws -> Forall number_allowed ws' ->
  views g_init [] (map w_what ws) = views g_init [] (map w_what ws') ->
  decompile default_db blob = Ok t -> decompile default_db blob' = Ok t' -> compile db' opt t' = compile db opt t.
Proof.
  intros B B' N N' V H H'. pose proof (c93 default_db blob blob' ws ws' B B' N N' V) as S. rewrite H, H' in S.
  apply c51; [exact S|]. apply shown_kinds. exact (proj1 (decompile_shown blob t H)).
Qed.

(* ------------------------------------------------------------------ *)
(** rearranged streams *)

Definition runs_same (r r' : list (icls * Z)) : Prop := forall c, c <> Delimiter -> told c r = told c r'.

Lemma runs_views l : forall g r r', runs_same r r' -> views g r l = views g r' l.
Proof.
  induction l as [|[c v] l IH]; intros g r r' R; [reflexivity|]. cbn [views]. destruct (hid_kind c).
  - unfold gist, usages_told, labels_told. rewrite !R by discriminate. reflexivity.
  - apply IH. exact R.
  - apply IH. intros d N. rewrite !told_app, (R d N). reflexivity.
Qed.

Lemma views_prefix a : forall g run, exists g1 run1 pre, forall b, views g run (a ++ b) = pre ++ views g1 run1 b.
Proof.
  induction a as [|[c v] a IH]; intros g run.
  - exists g, run, []. reflexivity.
  - cbn [app views]. destruct (hid_kind c).
    + destruct (IH g []) as [g1 [run1 [pre H]]]. exists g1, run1. eexists (_ :: pre). intros b. rewrite H. reflexivity.
    + apply IH.
    + apply IH.
Qed.

Lemma g_set_trade c d v w g : hid_kind c = KGlobal -> hid_kind d = KGlobal -> c <> d -> g_set c v (g_set d w g) = g_set d w (g_set c v g).
Proof. intros C D N. destruct g. destruct c; try discriminate C; destruct d; try discriminate D; try congruence; reflexivity. Qed.

Lemma g_set_over c v w g : g_set c w (g_set c v g) = g_set c w g.
Proof. destruct g, c; reflexivity. Qed.

Lemma g_set_idle c v g : c = Push \/ c = Pop -> g_set c v g = g.
Proof. intros [-> | ->]; destruct g; reflexivity. Qed.

Lemma told_trade run x y : fst x <> fst y -> runs_same ((run ++ [x]) ++ [y]) ((run ++ [y]) ++ [x]).
Proof.
  intros N c _. rewrite !told_app, <- !app_assoc. f_equal. unfold told. cbn [flat_map].
  destruct (icls_eqb (fst x) c) eqn:E1, (icls_eqb (fst y) c) eqn:E2; try reflexivity.
  apply icls_eqb_eq in E1. apply icls_eqb_eq in E2. congruence.
Qed.

Lemma idle_views l m : idle_same l m -> forall g, views g [] l = views g [] m.
Proof.
  induction 1 as [l|a x y b K1 K2 N|a c v b I|a c v w b K|l m H IH|l m n H1 IH1 H2 IH2]; intros g; try congruence.
  - destruct (views_prefix a g []) as [g1 [run1 [pre P]]]. rewrite !P. f_equal. clear P. destruct x as [c v], y as [d w]. cbn [fst] in *. cbn [views].
    destruct (hid_kind c) eqn:C, (hid_kind d) eqn:D; try congruence.
    + rewrite g_set_trade by congruence. reflexivity.
    + apply runs_views. apply (told_trade run1 (c, v) (d, w)). exact N.
  - destruct (views_prefix a g []) as [g1 [run1 [pre P]]]. rewrite !P. f_equal. clear P. cbn [views].
    destruct I as [-> | [-> | ->]]; cbn [hid_kind]; [rewrite g_set_idle by auto; reflexivity..|].
    apply runs_views. intros c N. rewrite told_app. unfold told at 2. cbn [flat_map fst snd].
    replace (icls_eqb Delimiter c) with false; [rewrite !app_nil_r; reflexivity|]. symmetry. apply icls_eqb_neq. congruence.
  - destruct (views_prefix a g []) as [g1 [run1 [pre P]]]. rewrite !P. f_equal. clear P. cbn [views]. rewrite K, g_set_over. reflexivity.
Qed.
