(* FollowProofs.v -- descriptors one after the other (C94) *)
From Coq Require Import ZArith List Bool Lia ZifyBool ZifyNat String.
From Verif Require Import Py Usage Item Parser Optimizer Descriptor Extractor UsageModules.
From Verif Require Import HidSpec Spec ItemFacts ParserFacts CodecProofs UsageProofs TextProofs StreamSpec PlainHost StreamProofs StreamTree OptFacts OptSpec AllSpec PassFacts.
From Verif Require Import ComposeSpec ComposeProofs.
From Verif Require Import TreeOpt ExtractSpec ExtractFacts ExtractView ExtractAgain ExtractBack AcceptSpec ExtractAccept AcceptBlob BackSpec BytesBack DumpSpec DumpFacts DumpProofs NameFacts NameTree NameBack DumpExtract DumpCompile VerdictSpec VerdictProofs ViewSpec ViewProofs FollowSpec.
Import ListNotations.
Local Open Scope list_scope.
Local Open Scope Z_scope.

(* ------------------------------------------------------------------ *)
(** reports of members in a row *)

Lemma ri_cur r : forall i, exists k b, forall l, report_insert_members r (Some (i, l)) = TReport i (l ++ k) :: b.
Proof.
  induction r as [|m r IH]; intros i.
  - exists [], []. intros l. rewrite app_nil_r. reflexivity.
  - destruct (e_ids m) as [|id [|id2 ids]] eqn:E.
    + exists [], (report_insert m :: report_insert_members r None). intros l. cbn [report_insert_members]. rewrite E, app_nil_r. reflexivity.
    + destruct (zmem i [id]) eqn:Z.
      * destruct (IH i) as [k [b H]]. exists (raw m :: k), b. intros l. cbn [report_insert_members]. rewrite E, Z, H, <- app_assoc. reflexivity.
      * exists [], (report_insert_members r (Some (id, [raw m]))). intros l. cbn [report_insert_members]. rewrite E, Z, app_nil_r. reflexivity.
    + exists [], (report_insert m :: report_insert_members r None). intros l. cbn [report_insert_members]. rewrite E, app_nil_r. reflexivity.
Qed.

Lemma ri_no_report m : forall i l, report_insert m <> TReport i l.
Proof. intros i l. destruct m; discriminate. Qed.

Lemma joined_nil b : joined [] b = b.
Proof. reflexivity. Qed.

Lemma joined_after h x b : x <> [] -> joined (h ++ x) b = h ++ joined x b.
Proof.
  intros N. unfold joined. rewrite rev_app_distr. destruct (rev x) as [|y ys] eqn:R.
  - apply (f_equal (@rev tree)) in R. rewrite rev_involutive in R. cbn [rev] in R. congruence.
  - cbn [app]. assert (X : x = rev ys ++ [y]) by (rewrite <- (rev_involutive x), R; reflexivity).
    destruct y; try (rewrite <- app_assoc; reflexivity). destruct b as [|c b]; [rewrite <- app_assoc; reflexivity|].
    destruct c; try (rewrite <- app_assoc; reflexivity). destruct (_ =? _); [|rewrite <- app_assoc; reflexivity].
    rewrite rev_app_distr, rev_involutive, <- app_assoc. reflexivity.
Qed.

Lemma joined_other h t b : (forall i l, t <> TReport i l) -> joined (h ++ [t]) b = (h ++ [t]) ++ b.
Proof. intros N. unfold joined. rewrite rev_app_distr. cbn [rev app]. destruct t; try reflexivity. exfalso. eapply N. reflexivity. Qed.

Lemma ri_app ms1 : forall cur ms2, report_insert_members (ms1 ++ ms2) cur = joined (report_insert_members ms1 cur) (report_insert_members ms2 None).
Proof.
  induction ms1 as [|m r IH]; intros cur ms2; cbn [app].
  - destruct cur as [[i l]|]; [|reflexivity]. change (report_insert_members [] (Some (i, l))) with [TReport i l].
    destruct ms2 as [|m r]; [reflexivity|]. cbn [report_insert_members].
    assert (OT : ri_close (Some (i, l)) ++ report_insert m :: report_insert_members r None = joined [TReport i l] (report_insert m :: report_insert_members r None)).
    { unfold joined. cbn [rev app]. destruct (report_insert m) eqn:E; try reflexivity. exfalso. eapply ri_no_report. exact E. }
    destruct (e_ids m) as [|id [|id2 ids]]; [exact OT| |exact OT].
    destruct (ri_cur r id) as [k [b H]]. rewrite H. unfold joined. cbn [rev app]. cbn [zmem existsb]. rewrite orb_false_r.
    destruct (i =? id) eqn:Z; [|reflexivity]. apply Z.eqb_eq in Z. subst id. rewrite H, <- app_assoc. reflexivity.
  - cbn [report_insert_members].
    assert (OT : ri_close cur ++ report_insert m :: report_insert_members (r ++ ms2) None =
      joined (ri_close cur ++ report_insert m :: report_insert_members r None) (report_insert_members ms2 None)).
    { rewrite IH. change (report_insert m :: report_insert_members r None) with ([report_insert m] ++ report_insert_members r None). rewrite app_assoc.
      destruct (report_insert_members r None) as [|x xs] eqn:E.
      - rewrite app_nil_r, joined_other by apply ri_no_report. rewrite joined_nil, <- app_assoc. reflexivity.
      - rewrite joined_after by discriminate. rewrite <- app_assoc. reflexivity. }
    assert (NE : forall i l, report_insert_members r (Some (i, l)) <> []).
    { intros i l. destruct (ri_cur r i) as [k [b H]]. rewrite H. discriminate. }
    destruct (e_ids m) as [|id [|id2 ids]]; [exact OT| |exact OT].
    destruct cur as [[i l]|]; [|apply IH]. destruct (zmem i [id]); [apply IH|]. rewrite joined_after by apply NE. rewrite IH. reflexivity.
Qed.

Lemma members_app a b : same_members a b -> forall c d, same_members c d -> same_members (a ++ c) (b ++ d).
Proof.
  revert b. induction a as [|x a IH]; intros b H c d H2; inversion H; subst; cbn [app]; [exact H2|]. constructor; auto.
Qed.

Lemma members_rev a b : same_members a b -> same_members (rev a) (rev b).
Proof.
  revert b. induction a as [|x a IH]; intros b H; inversion H; subst; cbn [rev]; [constructor|]. apply members_app; [auto|]. constructor; [assumption|constructor].
Qed.

Lemma joined_like a a' b b' : same_members a a' -> same_members b b' -> same_members (joined a b) (joined a' b').
Proof.
  intros A B. pose proof (members_app a a' A b b' B) as AB. pose proof (members_rev a a' A) as R. unfold joined.
  destruct R as [|x y r r' X R]; [exact AB|]. destruct X; try exact AB. destruct B as [|z w q q' Z B]; [exact AB|]. destruct Z; try exact AB.
  destruct (_ =? _); [|exact AB]. apply members_app; [apply members_rev; exact R|]. constructor; [|exact B]. constructor. apply members_app; assumption.
Qed.

(* ------------------------------------------------------------------ *)
(** the same run above members that are there already *)

Inductive based (ms : list etree) : level -> list level -> level -> list level -> Prop :=
| based_bottom h l : based ms (Level h l) [] (Level h (ms ++ l)) []
| based_above c p r p' r' : based ms p r p' r' -> based ms c (p :: r) c (p' :: r').

Definition based_root (ms : list etree) (t t' : option tree) : Prop :=
  match t with
  | None => True
  | Some t => exists l, t = TTop (report_insert_members l None) /\ t' = Some (TTop (report_insert_members (ms ++ l) None))
  end.

(** the state s with other levels *)
Definition relevel (s : xst) (st : list level) (c : level) (t : option tree) : xst :=
  XST (x_globals s) (x_usages s) (x_strings s) (x_designators s) (x_locals s) st c (x_innamed s) t.

Definition brel (ms : list etree) (s s' : xst) : Prop :=
  exists st c t, s' = relevel s st c t /\ based ms (x_current s) (x_stack s) c st /\ based_root ms (x_root s) t.

Lemma based_add ms c st c' st' k : based ms c st c' st' -> based ms (Level (lv_head c) (lv_members c ++ k)) st (Level (lv_head c') (lv_members c' ++ k)) st'.
Proof. intros []; cbn [lv_head lv_members]; [rewrite <- app_assoc|]; constructor; assumption. Qed.

Definition bres (ms : list etree) (r r' : result xst) : Prop :=
  match r, r' with Ok a, Ok b => brel ms a b | Err e, Err f => f = e | _, _ => False end.

Lemma add_based ms s s' v : brel ms s s' -> brel ms (add_value s v) (add_value s' v).
Proof.
  intros [st [c [t [-> [B R]]]]]. eexists _, _, _. split; [reflexivity|]. split; [|exact R]. cbn [add_value set_levels x_current x_stack relevel].
  apply (based_add ms _ _ _ _ _ B).
Qed.

Lemma adds_based ms vs : forall s s', brel ms s s' -> bres ms (add_values s vs) (add_values s' vs).
Proof.
  induction vs as [|[v|e] vs IH]; intros s s' B; cbn [add_values bind bres]; [exact B| |reflexivity]. apply IH. apply add_based. exact B.
Qed.

Lemma leave_based ms s s' k : brel ms s s' -> bres ms (x_leave s k) (x_leave s' k).
Proof.
  intros [st [c [t [-> [B R]]]]]. unfold x_leave. cbn [relevel x_stack x_current]. destruct s as [g u sr d l stk cur inn rt]. cbn [x_current x_stack x_root] in *.
  destruct B as [h m|c p r p' r' B]; cbn [bres]; [reflexivity|]. eexists _, _, _. split; [reflexivity|]. cbn [set_levels x_current x_stack x_root relevel].
  split; [|exact R]. apply (based_add ms _ _ _ _ _ B).
Qed.

Lemma data_based db ms s s' i : brel ms s s' -> bres ms (handle_data db s i) (handle_data db s' i).
Proof.
  intros B. pose proof B as [st [c [t [E [BL R]]]]].
  assert (V1 : forall k, gval s' k = gval s k) by (subst s'; reflexivity).
  assert (V2 : forall n k, plain_value db s' i n k = plain_value db s i n k) by (subst s'; reflexivity).
  assert (V3 : forall u a, named_value db s' i u a = named_value db s i u a) by (subst s'; reflexivity).
  assert (V4 : named_of_usages db s' = named_of_usages db s) by (subst s'; reflexivity).
  assert (V5 : x_usages s' = x_usages s) by (subst s'; reflexivity).
  unfold handle_data. rewrite !V1, V4, V5. cbv zeta. destruct (negb (Z.land (ival i) fl_Constant =? 0)).
  { destruct (mk_padding _ _) as [v|e]; cbn [bind bres]; [apply add_based; exact B|reflexivity]. }
  set (m := (Z.of_nat (length (x_usages s)) =? gval s LogicalMaximum - gval s LogicalMinimum + 1)).
  assert (IN : in_named_collection db s' i = in_named_collection db s i).
  { unfold in_named_collection. replace (lv_head (x_current s')) with (lv_head (x_current s)); [reflexivity|]. subst s'. cbn [relevel x_current]. destruct BL; reflexivity. }
  rewrite IN. destruct (if (gval s ReportCount =? 1) && m then in_named_collection db s i else Ok false) as [inn|e]; cbn [bind bres]; [|reflexivity].
  destruct inn.
  - pose proof (leave_based ms s s' false B) as L.
    assert (LC : match x_leave s false with Ok _ => x_current s' = x_current s | Err _ => True end).
    { unfold x_leave. subst s'. cbn [relevel x_current]. destruct BL; [exact I|reflexivity]. }
    destruct (x_leave s false) as [s1|e], (x_leave s' false) as [s1'|f]; cbn [bres bind] in *; try contradiction; [|exact L].
    rewrite LC. destruct (lv_members (x_current s)) as [|? ?]; [|reflexivity]. destruct (lv_head (x_current s)) as [[? u]|]; [|reflexivity].
    rewrite V3. destruct (named_value db s i u (named_of_usages db s)) as [v|e]; cbn [bind bres]; [|reflexivity].
    apply add_based. destruct L as [st1 [c1 [t1 [-> [L1 L2]]]]]. eexists _, _, _. split; [reflexivity|]. split; assumption.
  - destruct ((ival i =? 0) && m); [rewrite V3; apply adds_based; exact B|].
    destruct (negb (Z.land (ival i) fl_BufferedBytes =? 0)).
    + rewrite V2. destruct (plain_value db s i 0 (gval s ReportCount)) as [v|e]; cbn [bind bres]; [apply add_based; exact B|reflexivity].
    + replace (map (fun n => plain_value db s' i n 1) (seq 0 (Z.to_nat (gval s ReportCount)))) with (map (fun n => plain_value db s i n 1) (seq 0 (Z.to_nat (gval s ReportCount)))); [apply adds_based; exact B|].
      apply map_ext. intros n. symmetry. apply V2.
Qed.

Lemma clear_based ms r r' : bres ms r r' -> bres ms (let* s1 := r in Ok (locals_clear s1)) (let* s1 := r' in Ok (locals_clear s1)).
Proof.
  destruct r as [a|e], r' as [b|f]; cbn [bres bind]; try contradiction; [|auto]. intros [st [c [t [-> [B R]]]]]. eexists _, _, _. split; [reflexivity|]. split; assumption.
Qed.

Lemma step_based db ms s s' i : brel ms s s' -> bres ms (x_append db s i) (x_append db s' i).
Proof.
  intros B. unfold x_append. destruct (ikd i).
  - assert (BE : brel ms (expand_ranges s) (expand_ranges s')).
    { destruct B as [st [c [t [-> [B R]]]]]. exists st, c, t. split; [reflexivity|]. split; assumption. }
    clear B. cbv zeta. set (q := expand_ranges s) in *. set (q' := expand_ranges s') in *. clearbody q q'. apply clear_based.
    destruct (ic i); try (apply data_based; exact BE).
    + destruct BE as [st [c [t [-> [B R]]]]]. cbn [bres]. eexists _, _, _. split; [reflexivity|]. cbn [x_enter set_levels x_current x_stack x_root relevel]. split; [|exact R].
      apply based_above. exact B.
    + assert (IN : x_innamed q' = x_innamed q) by (destruct BE as [st [c [t [-> _]]]]; reflexivity). rewrite IN.
      assert (L : bres ms (if x_innamed q then Ok (set_levels q (x_stack q) (x_current q) false) else x_leave q true)
        (if x_innamed q then Ok (set_levels q' (x_stack q') (x_current q') false) else x_leave q' true)).
      { destruct (x_innamed q); [|apply leave_based; exact BE]. destruct BE as [st [c [t [-> [B R]]]]]. cbn [bres]. eexists _, _, _. split; [reflexivity|]. split; assumption. }
      destruct (if x_innamed q then _ else x_leave q true) as [a|e], (if x_innamed q then _ else x_leave q' true) as [b|f]; cbn [bres bind] in *; try contradiction; [|exact L].
      destruct L as [st [c [t [-> [B R]]]]]. destruct a as [g u sr d l stk cur inn rt]. cbn [relevel x_stack x_current x_root x_globals x_usages x_strings x_designators x_locals x_innamed] in *.
      destruct B as [h m|c p r p' r' B].
      * eexists _, _, _. split; [reflexivity|]. cbn [x_ended x_stack x_current x_root lv_members]. split; [constructor|]. exists m. split; reflexivity.
      * eexists _, _, _. split; [reflexivity|]. cbn [x_stack x_current x_root]. split; [constructor; exact B|exact R].
  - cbn [bres]. destruct B as [st [c [t [-> [B R]]]]]. exists st, c, t. split; [reflexivity|]. split; assumption.
  - cbn [bres]. destruct B as [st [c [t [-> [B R]]]]]. exists st, c, t. split; [destruct (ic i); reflexivity|]. destruct (ic i); split; assumption.
Qed.

Lemma run_based db ms l : forall s s', brel ms s s' -> bres ms (x_run db s l) (x_run db s' l).
Proof.
  induction l as [|i l IH]; intros s s' B; cbn [x_run]; [exact B|]. pose proof (step_based db ms s s' i B) as S.
  destruct (x_append db s i) as [a|e], (x_append db s' i) as [b|f]; cbn [bres bind] in *; try contradiction; [|exact S]. apply IH. exact S.
Qed.

(* ------------------------------------------------------------------ *)
(** the end of a descriptor that closes what it opens *)

Lemma idle_follows db s i s' g d es : ic i = Push \/ ic i = Pop -> follows_host s g d es -> x_append db s i = Ok s' ->
  follows_host s' g d es /\ x_root s' = x_root s /\ x_stack s' = x_stack s /\ x_current s' = x_current s.
Proof.
  intros I [[] NC HD DP VS] H. unfold x_append, ikd in H. assert (K : kind_of (ic i) = Global) by (destruct I as [-> | ->]; reflexivity). rewrite K in H. injection H as <-.
  split; [|repeat split]. split; auto. destruct I as [-> | ->]; split; assumption.
Qed.

Lemma run_closed db l : forall s s' g d d' es, Forall constructed l -> follows_host s g d es -> x_run db s l = Ok s' -> nest d (map ic l) = Some d' ->
  (exists g' es', follows_host s' g' d' es') /\
  (Forall (fun c => main_tag c = false) (map ic l) -> x_root s' = x_root s /\ x_stack s' = x_stack s /\ x_current s' = x_current s).
Proof.
  induction l as [|i l IH]; intros s s' g d d' es C FH R N.
  - cbn in R, N. injection R as <-. injection N as <-. split; eauto.
  - inversion C as [|? ? C1 C2]; subst. cbn [map x_run] in *.
    rewrite nest_cons in N. destruct (nest d [ic i]) as [d1|] eqn:N1; [|discriminate N].
    destruct (x_append db s i) as [s1|e] eqn:E1; [|discriminate R]. cbn [bind] in R.
    assert (P : (exists g1 es1, follows_host s1 g1 d1 es1) /\ (main_tag (ic i) = false -> x_root s1 = x_root s /\ x_stack s1 = x_stack s /\ x_current s1 = x_current s)).
    { destruct (icls_eqb (ic i) Push || icls_eqb (ic i) Pop) eqn:PP.
      - assert (PI : ic i = Push \/ ic i = Pop) by (apply orb_true_iff in PP; destruct PP as [PP|PP]; apply icls_eqb_eq in PP; auto).
        destruct (idle_follows db s i s1 g d es PI FH E1) as [F1 F2]. assert (d1 = d) by (destruct PI as [PI|PI]; rewrite PI in N1; cbn in N1; congruence). subst d1. eauto.
      - apply orb_false_iff in PP. destruct PP as [P1 P2]. apply icls_eqb_neq in P1. apply icls_eqb_neq in P2.
        destruct (append_step db s i s1 g lo_init d d1 es C1 P1 P2 FH E1 N1) as [F1 [M1 _]]. split; [eauto|]. intros M. destruct (M1 M) as [A1 [A2 [A3 _]]]. auto. }
    destruct P as [[g1 [es1 F1]] M1]. destruct (IH s1 s' g1 d1 d' es1 C2 F1 R N) as [I1 I2]. split; [exact I1|].
    intros F. inversion F as [|? ? F3 F4]; subst. destruct (M1 F3) as [A1 [A2 A3]]. destruct (I2 F4) as [B1 [B2 B3]]. repeat split; congruence.
Qed.

Lemma closed_final db l s : Forall constructed l -> closes (map ic l) -> x_run db xst_init l = Ok s ->
  x_stack s = [] /\ x_innamed s = false /\ lv_head (x_current s) = None /\ x_root s = Some (TTop (report_insert_members (lv_members (x_current s)) None)).
Proof.
  intros C [B [a [b [E F]]]] R.
  assert (FH0 : follows_host xst_init g_init 0 []).
  { split; [apply agree_init|cbn; lia|reflexivity|cbn; lia|]. exists []. split; [constructor|reflexivity]. }
  destruct (run_closed db l xst_init s g_init 0 0 [] C FH0 R B) as [[g' [es' [_ _ HD DP _]]] _].
  assert (ES : x_stack s = []) by (destruct (x_stack s); [reflexivity|cbn in DP; lia]).
  assert (EN : x_innamed s = false) by (destruct (x_innamed s); [cbn in DP; lia|reflexivity]).
  split; [exact ES|]. split; [exact EN|]. split; [apply (depth_top _ _ HD ES)|].
  destruct (map_split _ _ _ _ _ E) as [l1 [i [l2 [EL [E1 [E2 E3]]]]]].
  subst l. apply Forall_app in C. destruct C as [C1 C2]. inversion C2 as [|? ? C3 C4]; subst.
  rewrite x_run_app in R. destruct (x_run db xst_init l1) as [s1|e] eqn:R1; [|discriminate R]. cbn [bind x_run] in R.
  destruct (x_append db s1 i) as [s2|e] eqn:R2; [|discriminate R]. cbn [bind] in R.
  unfold balanced in B. rewrite map_app, nest_app in B. destruct (nest 0 (map ic l1)) as [d1|] eqn:N1; [|discriminate B].
  cbn [map] in B. rewrite nest_cons in B. destruct (nest d1 [ic i]) as [d2|] eqn:N2; [|discriminate B].
  destruct (run_closed db l1 xst_init s1 g_init 0 d1 [] C1 FH0 R1 N1) as [[g1 [es1 FH1]] _].
  assert (P1 : ic i <> Push) by congruence. assert (P2 : ic i <> Pop) by congruence.
  destruct (append_step db s1 i s2 g1 lo_init d1 d2 _ C3 P1 P2 FH1 R2 N2) as [FH2 [_ RT]].
  destruct (run_closed db l2 s2 s _ d2 0 _ C4 FH2 R B) as [_ KP]. destruct (KP F) as [K1 [K2 K3]].
  specialize (RT E2). rewrite K2 in ES. specialize (RT ES). unfold root_of in RT. rewrite ES in RT. rewrite K1, RT, K3. reflexivity.
Qed.

Lemma views_app a : forall g run, exists g1 run1, forall b, views g run (a ++ b) = views g run a ++ views g1 run1 b.
Proof.
  induction a as [|[c v] a IH]; intros g run.
  - exists g, run. reflexivity.
  - cbn [app views]. destruct (hid_kind c).
    + destruct (IH g []) as [g1 [run1 H]]. exists g1, run1. intros b. rewrite H. reflexivity.
    + apply IH.
    + apply IH.
Qed.

Lemma run_digs db l : forall s s' g run, Forall constructed l -> Forall (canon db) l -> digs db s g run -> ViewProofs.sees s run -> x_run db s l = Ok s' ->
  exists g1 run1, digs db s' g1 run1 /\ ViewProofs.sees s' run1 /\ forall b, views g run (map cv l ++ b) = views g run (map cv l) ++ views g1 run1 b.
Proof.
  induction l as [|i l IH]; intros s s' g run C CA D S R.
  - cbn in R. injection R as <-. exists g, run. repeat split; try apply S; try apply D.
  - inversion C as [|? ? C1 C2]; subst. inversion CA as [|? ? CA1 CA2]; subst. cbn [x_run] in R.
    destruct (x_append db s i) as [s1|e] eqn:X; [|discriminate R]. cbn [bind] in R.
    pose proof (verdict_step db s i g run [] C1 CA1 D) as V. cbv zeta in V. rewrite X in V. destruct V as [D1 _]. unfold lsight in D1.
    assert (S1 : ViewProofs.sees s1 (match hid_kind (ic i) with KMain => [] | KGlobal => run | KLocal => run ++ [(ic i, ival i)] end)).
    { destruct (hid_kind (ic i)) eqn:K.
      - assert (KK : kind_of (ic i) = Main) by (destruct (ic i); try discriminate K; reflexivity).
        unfold x_append, ikd in X. rewrite KK in X. match goal with _ : (let* s1 := ?m in _) = _ |- _ => destruct m as [z|] end; cbn [bind] in X; [|discriminate X]. injection X as <-. split; reflexivity.
      - assert (KK : kind_of (ic i) = Global) by (destruct (ic i); try discriminate K; reflexivity).
        unfold x_append, ikd in X. rewrite KK in X. injection X as <-. destruct S; split; assumption.
      - assert (KK : kind_of (ic i) = Local) by (destruct (ic i); try discriminate K; reflexivity). exact (sees_step db s i s1 run KK S X). }
    cbn [map app]. unfold cv at 1 3. cbn [views].
    destruct (hid_kind (ic i)) eqn:K; cbn [fst snd] in D1; destruct (IH s1 s' _ _ C2 CA2 D1 S1 R) as [g1 [run1 [H1 [H2 H3]]]]; exists g1, run1; split; auto; split; auto.
    intros b. rewrite H3. reflexivity.
Qed.

Lemma parsed db blob ws : blob_means blob ws -> Forall number_allowed ws ->
  exists l, map cv l = map w_what ws /\ Forall constructed l /\ Forall (canon db) l /\
    forall t, decompile db blob = t <-> extract db l = t.
Proof.
  intros B N. destruct (parse_good db 0 blob ws B (proj1 (allowed_forall ws) N)) as [l [PA [M C]]]. exists l. split; [exact M|]. split; [exact C|]. split.
  - pose proof (parsed_canon (length blob) db 0 blob) as PC. fold (parse_from db 0 blob) in PC. rewrite PA in PC. exact PC.
  - intros t. unfold decompile, extract. rewrite !blob_parse_from, PA. cbn [finished appended bind]. destruct (x_run db xst_init l); reflexivity.
Qed.

Lemma classes_what l ws : map cv l = map w_what ws -> map ic l = map w_cls ws.
Proof. intros M. apply (f_equal (map fst)) in M. rewrite !map_map in M. exact M. Qed.

(** what happens after a descriptor that closes what it opens *)
Lemma follow_run db b1 b2 ws1 ws2 m1 : blob_means b1 ws1 -> blob_means b2 ws2 -> Forall number_allowed ws1 -> Forall number_allowed ws2 -> closes (map w_cls ws1) ->
  views g_init [] (map w_what (ws1 ++ ws2)) = views g_init [] (map w_what ws1) ++ views g_init [] (map w_what ws2) ->
  decompile db b1 = Ok (TTop m1) ->
  exists l l2 L2 ms1 s1' s1, extract db l = decompile db (b1 ++ b2) /\ extract db L2 = decompile db b2 /\
    x_run db xst_init l = x_run db s1 l2 /\ same_members (report_insert_members ms1 None) m1 /\ brel ms1 s1' s1 /\ x_root s1' = None /\
    match x_run db s1' l2, x_run db xst_init L2 with Ok a, Ok b => stands db a b | Err e, Err f => f = e | _, _ => False end.
Proof.
  intros B1 B2 N1 N2 CL V D1.
  destruct (parsed db b1 ws1 B1 N1) as [L1 [ML1 [CL1 [AL1 E1]]]]. destruct (parsed db b2 ws2 B2 N2) as [L2 [ML2 [CL2 [AL2 E2]]]].
  destruct (parsed db (b1 ++ b2) (ws1 ++ ws2) (blob_means_app _ _ _ _ B1 B2) (proj2 (Forall_app _ _ _) (conj N1 N2))) as [l [ML [CLl [ALl E]]]].
  rewrite map_app in ML. apply map_eq_app in ML. destruct ML as [l1 [l2 [EL [M1 M2]]]]. subst l.
  apply Forall_app in CLl. destruct CLl as [C1 C2]. apply Forall_app in ALl. destruct ALl as [A1 A2].
  pose proof (digs_init db) as D0. pose proof ViewProofs.sees_init as S0. pose proof (stands_init db) as T0.
  assert (V1 : views g_init [] (map cv l1) = views g_init [] (map cv L1)) by (rewrite M1, ML1; reflexivity).
  pose proof (views_run db (length l1) l1 L1 xst_init xst_init g_init g_init [] [] (le_n _) C1 A1 CL1 AL1 D0 D0 S0 S0 T0 V1) as R1.
  apply E1 in D1. unfold extract in D1. destruct (x_run db xst_init L1) as [S1|e1] eqn:X1; [|discriminate D1]. cbn [bind] in D1.
  destruct (x_run db xst_init l1) as [s1|e] eqn:X; [|contradiction]. cbn [bind] in R1.
  assert (CLO : closes (map ic l1)) by (rewrite (classes_what l1 ws1 M1); exact CL).
  destruct (closed_final db l1 s1 C1 CLO X) as [F1 [F2 [F3 F4]]].
  destruct (run_digs db l1 xst_init s1 g_init [] C1 A1 D0 S0 X) as [g1 [run1 [G1 [G2 G3]]]].
  assert (V2 : views g1 run1 (map cv l2) = views g_init [] (map cv L2)).
  { rewrite map_app in V. rewrite <- M1, <- M2, G3 in V. apply app_inv_head in V. rewrite M2, <- ML2 in V. rewrite M2, <- ML2. exact V. }
  set (s1' := XST (x_globals s1) (x_usages s1) (x_strings s1) (x_designators s1) (x_locals s1) [] (Level None []) false None).
  assert (G1' : digs db s1' g1 run1).
  { destruct G1 as [H1 H2 H3 H4 H5 H6 H7 H8]. split; auto; [destruct H1; split; assumption|destruct H2; split; assumption|reflexivity|constructor; [exact I|constructor]]. }
  assert (G2' : ViewProofs.sees s1' run1) by (destruct G2; split; assumption).
  assert (T' : stands db s1' xst_init) by (split; [constructor|split; [exact I|constructor]|reflexivity|exact I]).
  pose proof (views_run db (length l2) l2 L2 s1' xst_init g1 g_init run1 [] (le_n _) C2 A2 CL2 AL2 G1' D0 G2' S0 T' V2) as R2.
  exists (l1 ++ l2), l2, L2, (lv_members (x_current s1)), s1', s1.
  split; [symmetry; apply E; reflexivity|]. split; [symmetry; apply E2; reflexivity|]. split; [rewrite x_run_app, X; reflexivity|].
  split; [|split; [|split; [reflexivity|exact R2]]].
  - apply st_root in R1. rewrite F4 in R1. destruct (x_root S1) as [r|]; [|discriminate D1]. injection D1 as ->. cbn [rlike] in R1. inversion R1; subst. assumption.
  - exists (x_stack s1), (x_current s1), (x_root s1). split; [clear - F2; subst s1'; destruct s1; cbn in F2; subst; reflexivity|]. split; [|exact I].
    rewrite F1. destruct (x_current s1) as [h m] eqn:CU. cbn [lv_head] in F3. subst h. rewrite <- (app_nil_r m) at 2. constructor.
Qed.

Lemma c94 db b1 b2 ws1 ws2 m1 m2 : blob_means b1 ws1 -> blob_means b2 ws2 -> Forall number_allowed ws1 -> Forall number_allowed ws2 -> closes (map w_cls ws1) ->
  views g_init [] (map w_what (ws1 ++ ws2)) = views g_init [] (map w_what ws1) ++ views g_init [] (map w_what ws2) ->
  decompile db b1 = Ok (TTop m1) -> decompile db b2 = Ok (TTop m2) ->
  exists t, decompile db (b1 ++ b2) = Ok t /\ same_tree t (TTop (joined m1 m2)).
Proof.
  intros B1 B2 N1 N2 CL V D1 D2. destruct (follow_run db b1 b2 ws1 ws2 m1 B1 B2 N1 N2 CL V D1) as [l [l2 [L2 [ms1 [s1' [s1 [E1 [E2 [X [SM [BR [_ R]]]]]]]]]]]].
  rewrite <- E1. rewrite D2 in E2. unfold extract in *. rewrite X. pose proof (run_based db ms1 l2 s1' s1 BR) as RB.
  destruct (x_run db xst_init L2) as [S2|e]; [|discriminate E2]. cbn [bind] in E2.
  destruct (x_run db s1' l2) as [q|e]; [|contradiction]. destruct (x_run db s1 l2) as [q'|e]; [|contradiction]. cbn [bres bind] in *.
  destruct RB as [st [c [t [-> [_ RR]]]]]. apply st_root in R. destruct (x_root S2) as [r|]; [|discriminate E2]. injection E2 as ->.
  destruct (x_root q) as [tq|]; [|contradiction]. destruct RR as [ms2 [-> ->]]. cbn [rlike] in R. inversion R; subst. cbn [relevel x_root].
  eexists. split; [reflexivity|]. constructor. rewrite ri_app. apply joined_like; assumption.
Qed.

Lemma c94_error db b1 b2 ws1 ws2 m1 e : blob_means b1 ws1 -> blob_means b2 ws2 -> Forall number_allowed ws1 -> Forall number_allowed ws2 -> closes (map w_cls ws1) ->
  views g_init [] (map w_what (ws1 ++ ws2)) = views g_init [] (map w_what ws1) ++ views g_init [] (map w_what ws2) ->
  decompile db b1 = Ok (TTop m1) -> decompile db b2 = Err e -> e <> AttributeError -> decompile db (b1 ++ b2) = Err e.
Proof.
  intros B1 B2 N1 N2 CL V D1 D2 NE. destruct (follow_run db b1 b2 ws1 ws2 m1 B1 B2 N1 N2 CL V D1) as [l [l2 [L2 [ms1 [s1' [s1 [E1 [E2 [X [SM [BR [_ R]]]]]]]]]]]].
  rewrite <- E1. rewrite D2 in E2. unfold extract in *. rewrite X. pose proof (run_based db ms1 l2 s1' s1 BR) as RB.
  destruct (x_run db xst_init L2) as [S2|f]; cbn [bind] in E2; [destruct (x_root S2); congruence|].
  destruct (x_run db s1' l2) as [q|f']; [contradiction|]. destruct (x_run db s1 l2) as [q'|f'']; [contradiction|]. cbn [bres bind] in *. congruence.
Qed.

(* ------------------------------------------------------------------ *)
(** compiled again *)

Lemma reported_starts t : all_reported t -> starts_reports t.
Proof.
  intros A r. revert t A r. assert (G : forall ms, Forall (fun t => all_reported t -> forall r, fst (entered r t) = fst (entered 0 t)) ms -> all_rep ms ->
    forall r r', fst (go_entered r ms) = fst (go_entered r' ms)).
  { induction 1 as [|m ms H F IH]; intros A r r'; cbn [go_entered]; [reflexivity|]. inversion A as [|? ? A1 A2]; subst.
    pose proof (H A1 r) as E1. pose proof (H A1 r') as E2. destruct (entered r m) as [a ra], (entered r' m) as [a' ra']. cbn [fst] in E1, E2.
    pose proof (IH A2 ra ra') as E3. destruct (go_entered ra ms) as [b rb], (go_entered ra' ms) as [b' rb']. cbn [fst] in *. congruence. }
  apply (tree_all (fun t => all_reported t -> forall r, fst (entered r t) = fst (entered 0 t))).
  - intros v []. 
  - intros id ms F A r. reflexivity.
  - intros ms F A r. cbn [all_reported] in A. apply all_rep_list in A. exact (G ms F A r 0).
  - intros k u ms F A r. cbn [all_reported] in A. apply all_rep_list in A. pose proof (G ms F A r 0) as E. cbn [entered]. fold go_entered.
    destruct (go_entered r ms), (go_entered 0 ms). cbn [fst] in *. congruence.
Qed.

Lemma decompile_inserted db b t : decompile db b = Ok t -> exists l, t = TTop (report_insert_members l None).
Proof.
  unfold decompile. cbv zeta. intros H. assert (B : brel [] xst_init xst_init).
  { exists [], (Level None []), None. split; [reflexivity|]. split; [apply (based_bottom [] None [])|exact I]. }
  pose proof (run_based db [] (appended (blob_parse db b)) xst_init xst_init B) as R.
  destruct (x_run db xst_init (appended (blob_parse db b))) as [s|e]; [|discriminate H]. cbn [bind bres] in *. destruct (finished _); [|discriminate H]. cbn [bind] in H.
  destruct R as [st [c [t' [_ [_ RR]]]]]. destruct (x_root s) as [q|]; [|discriminate H]. injection H as <-. destruct RR as [l [E _]]. exists l. exact E.
Qed.

Lemma joined_apart a b : (forall m i l k n, a = m ++ [TReport i l] -> b = TReport i k :: n -> False) -> joined a b = a ++ b.
Proof.
  intros N. unfold joined. destruct (rev a) as [|x r] eqn:R; [reflexivity|]. assert (A : a = rev r ++ [x]) by (rewrite <- (rev_involutive a), R; reflexivity).
  destruct x as [|i l| |]; try reflexivity. destruct b as [|y b]; [reflexivity|]. destruct y as [|j k| |]; try reflexivity.
  destruct (i =? j) eqn:E; [|reflexivity]. apply Z.eqb_eq in E. subst j. exfalso. eapply N; [exact A|reflexivity].
Qed.

Lemma c94_compiled db b1 b2 ws1 ws2 m1 m2 : blob_means b1 ws1 -> blob_means b2 ws2 -> Forall number_allowed ws1 -> Forall number_allowed ws2 -> closes (map w_cls ws1) ->
  views g_init [] (map w_what (ws1 ++ ws2)) = views g_init [] (map w_what ws1) ++ views g_init [] (map w_what ws2) ->
  decompile default_db b1 = Ok (TTop m1) -> decompile default_db b2 = Ok (TTop m2) ->
  (forall m i l k n, m1 = m ++ [TReport i l] -> m2 = TReport i k :: n -> False) -> ComposeSpec.apart (TTop m1) (TTop m2) ->
  exists t, decompile default_db (b1 ++ b2) = Ok t /\ forall b, compile db false t = Ok b <->
    exists c1 c2, compile db false (TTop m1) = Ok c1 /\ compile db false (TTop m2) = Ok c2 /\ b = c1 ++ c2.
Proof.
  intros B1 B2 N1 N2 CL V D1 D2 NB AP. destruct (c94 default_db b1 b2 ws1 ws2 m1 m2 B1 B2 N1 N2 CL V D1 D2) as [t [D S]]. exists t. split; [exact D|]. intros b.
  rewrite <- (c51 db db false t _ S (shown_kinds t (proj1 (decompile_shown _ t D)))). rewrite (joined_apart m1 m2 NB). apply c82; [|exact AP].
  destruct (decompile_inserted default_db b2 _ D2) as [l E]. rewrite E. apply reported_starts. apply insert_reported.
Qed.
