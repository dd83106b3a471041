(* StreamTree.v -- the Streamer on whole trees: C23 to C29 *)
From Coq Require Import ZifyBool ZifyNat.
From Verif Require Import Py Usage Item Parser Optimizer Descriptor HidSpec Spec ItemFacts ParserFacts
  CodecProofs UsageProofs StreamSpec PlainHost StreamProofs.
Ltac Zify.zify_post_hook ::= Z.div_mod_to_equations.

(* ------------------------------------------------------------------ *)
(** induction over trees *)
Section TreeInd.
  Variable Q : tree -> Prop.
  Hypothesis QV : forall v, Q (TValue v).
  Hypothesis QR : forall id ms, Forall Q ms -> Q (TReport id ms).
  Hypothesis QT : forall ms, Forall Q ms -> Q (TTop ms).
  Hypothesis QC : forall k u ms, Forall Q ms -> Q (TColl k u ms).
  Fixpoint tree_rect2 (t : tree) : Q t :=
    let all := (fix all (ms : list tree) : Forall Q ms :=
      match ms with
      | [] => Forall_nil _
      | m :: r => Forall_cons _ (tree_rect2 m) (all r)
      end) in
    match t with
    | TValue v => QV v
    | TReport id ms => QR id ms (all ms)
    | TTop ms => QT ms (all ms)
    | TColl k u ms => QC k u ms (all ms)
    end.
End TreeInd.

Fixpoint threaded_all (rid : Z) (ms : list tree) : list leaf * Z :=
  match ms with
  | [] => ([], rid)
  | m :: r =>
      let (a, rid1) := threaded rid m in
      let (b, rid2) := threaded_all rid1 r in
      (a ++ b, rid2)
  end.

Fixpoint entered_all (rid : Z) (ms : list tree) : list leaf * Z :=
  match ms with
  | [] => ([], rid)
  | m :: r =>
      let (a, rid1) := entered rid m in
      let (b, rid2) := entered_all rid1 r in
      (a ++ b, rid2)
  end.

Lemma threaded_report rid id ms : threaded rid (TReport id ms) = threaded_all (if id =? 0 then rid else id) ms.
Proof. reflexivity. Qed.
Lemma threaded_top rid ms : threaded rid (TTop ms) = threaded_all rid ms.
Proof. reflexivity. Qed.
Lemma threaded_coll rid k u ms : threaded rid (TColl k u ms) =
  let (a, rid1) := threaded_all rid ms in (LOpen k u :: a ++ [LClose], rid1).
Proof. reflexivity. Qed.

Lemma entered_report rid id ms : entered rid (TReport id ms) = entered_all id ms.
Proof. reflexivity. Qed.
Lemma entered_top rid ms : entered rid (TTop ms) = entered_all rid ms.
Proof. reflexivity. Qed.
Lemma entered_coll rid k u ms : entered rid (TColl k u ms) =
  let (a, rid1) := entered_all rid ms in (LOpen k u :: a ++ [LClose], rid1).
Proof. reflexivity. Qed.

Lemma stream_report db st id ms : stream_tree db st (TReport id ms) =
  let* o := (if id =? 0 then Ok [] else mk_items db [(ReportID, Some (VInt id))]) in
  let* (st1, o1) := stream_members db (SST id (s_size st)) ms in
  Ok (st1, o ++ o1).
Proof.
  cbn [stream_tree]. destruct (if id =? 0 then _ else _); auto. cbn [bind].
  generalize (SST id (s_size st)).
  assert (E : forall s, (fix go (st0 : sst) (ms0 : list tree) {struct ms0} : result (sst * list item) :=
     match ms0 with
     | [] => Ok (st0, [])
     | m :: r => let* (st1, o1) := stream_tree db st0 m in let* (st2, o2) := go st1 r in Ok (st2, o1 ++ o2)
     end) s ms = stream_members db s ms).
  { induction ms as [|m ms IH]; intros s; auto. cbn [stream_members].
    destruct (stream_tree db s m) as [[s1 o1]|]; auto. cbn [bind]. rewrite IH. reflexivity. }
  intros s. rewrite E. reflexivity.
Qed.

Lemma stream_top db st ms : stream_tree db st (TTop ms) = stream_members db st ms.
Proof.
  cbn [stream_tree]. revert st. induction ms as [|m ms IH]; intros s; auto. cbn [stream_members].
  destruct (stream_tree db s m) as [[s1 o1]|]; auto. cbn [bind]. rewrite IH. reflexivity.
Qed.

Lemma stream_coll db st k u ms : stream_tree db st (TColl k u ms) =
  let* o := mk_items db [(Usage, u); (Collection, Some k)] in
  let* (st1, o1) := stream_members db st ms in
  let* o2 := mk_items db [(EndCollection, Some (VInt 0))] in
  Ok (st1, o ++ o1 ++ o2).
Proof.
  change (stream_tree db st (TColl k u ms)) with (
    let* o := mk_items db [(Usage, u); (Collection, Some k)] in
    let* (st1, o1) := stream_tree db st (TTop ms) in
    let* o2 := mk_items db [(EndCollection, Some (VInt 0))] in
    Ok (st1, o ++ o1 ++ o2)). rewrite stream_top. reflexivity.
Qed.

Lemma well_formed_all ms :
  (fix all ms := match ms with [] => True | m :: r => well_formed m /\ all r end) ms <-> Forall well_formed ms.
Proof.
  induction ms as [|m ms IH]; [split; constructor|]. rewrite IH. split.
  - intros [A B]. constructor; auto.
  - intros F. inversion F; auto.
Qed.

(* ------------------------------------------------------------------ *)
(** events of one leaf *)

Lemma follows_app Gap before l1 e1 l2 e2 :
  follows Gap before l1 e1 -> follows Gap (before ++ e1) l2 e2 -> follows Gap before (l1 ++ l2) (e1 ++ e2).
Proof.
  intros F. revert l2 e2. induction F; intros l2 e2 F2.
  - rewrite app_nil_r in F2. exact F2.
  - cbn [app]. constructor. apply IHF. rewrite <- app_assoc. exact F2.
  - cbn [app]. constructor. apply IHF. rewrite <- app_assoc. exact F2.
  - rewrite <- !app_assoc. cbn [app]. constructor; auto. apply IHF. rewrite <- !app_assoc in *. exact F2.
Qed.

Lemma follows_mono (G1 G2 : list event -> Z -> value -> Z -> Prop) before ls ev :
  (forall b r v p, G1 b r v p -> G2 b r v p) -> follows G1 before ls ev -> follows G2 before ls ev.
Proof. intros H F. induction F; constructor; auto. Qed.

Lemma layout_app a b : layout (a ++ b) = layout a ++ layout b.
Proof. unfold layout. apply flat_map_app. Qed.

Lemma sum_app a b : fold_right Z.add 0 (a ++ b) = fold_right Z.add 0 a + fold_right Z.add 0 b.
Proof. induction a as [|x a IH]; simpl; lia. Qed.

Lemma report_bits_app c r a b : report_bits c r (a ++ b) = report_bits c r a + report_bits c r b.
Proof. unfold report_bits. rewrite layout_app, filter_app, map_app, sum_app. reflexivity. Qed.

(** all the events have this way, id and size, and there are [n] of them *)
Definition uniform (c : icls) (r sz : Z) (ev : list event) : Prop :=
  exists n, layout ev = repeat (c, r, sz) n.

Lemma bits_repeat c r sz n c' r' ev :
  layout ev = repeat (c, r, sz) n ->
  report_bits c' r' ev = if icls_eqb c c' && (r =? r') then Z.of_nat n * sz else 0.
Proof.
  intros E. unfold report_bits. rewrite E. clear E.
  destruct (icls_eqb c c' && (r =? r')) eqn:B.
  - induction n as [|n IH]; [reflexivity|]. cbn [repeat filter fst snd]. rewrite B.
    cbn [map fold_right snd]. rewrite IH. lia.
  - induction n as [|n IH]; [reflexivity|]. cbn [repeat filter fst snd]. rewrite B. exact IH.
Qed.

Lemma layout_repeat e n : layout (repeat e n) = concat (repeat (layout [e]) n).
Proof. induction n as [|n IH]; auto. cbn [repeat]. change (e :: repeat e n) with ([e] ++ repeat e n). rewrite layout_app, IH. reflexivity. Qed.

Lemma concat_single {A} (x : A) n : concat (repeat [x] n) = repeat x n.
Proof. induction n as [|n IH]; auto. simpl. f_equal. exact IH. Qed.

Lemma layout_values rid v :
  layout (value_events rid v) = repeat (way_class (py_int (v_way v)), rid, v_size v) (Z.to_nat (v_count v)).
Proof.
  unfold value_events. cbv zeta. set (n := Z.to_nat (v_count v)).
  destruct (is_constant _).
  - rewrite layout_repeat. unfold layout, event_bits. cbn [flat_map app]. apply concat_single.
  - cbv zeta.
    match goal with |- context [if is_variable ?f then ?a else ?b] =>
      set (fields := if is_variable f then a else b) end.
    assert (F : layout fields = repeat (way_class (py_int (v_way v)), rid, v_size v) n).
    { unfold fields. destruct (is_variable _).
      - generalize 0%nat. induction n as [|k IH]; intros z; auto.
        cbn [seq map repeat]. unfold layout in *. cbn [flat_map event_bits app]. rewrite IH. reflexivity.
      - rewrite layout_repeat. unfold layout, event_bits. cbn [flat_map app]. rewrite concat_single. reflexivity. }
    clearbody fields. destruct (is_array v), (usage_list (v_usage v)) as [|x [|y l]]; auto.
    change (EvColl 2 [x] [] [] [] :: fields ++ [EvEnd]) with ([EvColl 2 [x] [] [] []] ++ fields ++ [EvEnd]).
    rewrite !layout_app, F. cbn. rewrite app_nil_r. reflexivity.
Qed.

Definition host_bits (v : value) : Z :=
  match v_kind v with KValue => v_count v * v_size v | KAlign _ => 0 | KPadding => v_size v end.

Lemma bits_gap rid v p c r :
  report_bits c r (gap_events rid v p) =
  if icls_eqb (way_class (py_int (v_way v))) c && (rid =? r) then p else 0.
Proof.
  unfold gap_events. destruct (p =? 0) eqn:P0.
  - destruct (_ && _); cbn; lia.
  - rewrite (bits_repeat (way_class (py_int (v_way v))) rid p 1) by reflexivity. destruct (_ && _); lia.
Qed.

Lemma bits_leaf rid v p c r :
  (v_kind v = KValue -> 0 <= v_count v) ->
  report_bits c r (gap_events rid v p ++ own_events rid v) =
  if icls_eqb (way_class (py_int (v_way v))) c && (rid =? r) then p + host_bits v else 0.
Proof.
  intros CN. rewrite report_bits_app, bits_gap. unfold own_events, host_bits.
  destruct (v_kind v).
  - rewrite (bits_repeat _ _ _ _ c r _ (layout_values rid v)). rewrite Z2Nat.id by auto.
    destruct (_ && _); lia.
  - change (report_bits c r []) with 0. destruct (_ && _); lia.
  - rewrite bits_gap. destruct (_ && _); lia.
Qed.

(* ------------------------------------------------------------------ *)
(** the main induction *)

(** the streamer's counters agree with the host's offsets modulo the
    alignments [A] *)
Definition sync (A : Z -> Prop) (before : list event) (st : sst) : Prop :=
  forall a w k, A a -> w = 8 \/ w = 9 \/ w = 11 -> 0 <= k < 256 ->
    (a | report_bits (way_class w) k before - s_size st w k).

(** values whose repetition does not disturb the alignments [A] *)
Definition tame (A : Z -> Prop) (v : value) : Prop :=
  (1 < wanted_alignment v -> A (wanted_alignment v)) /\
  forall a, A a -> (a | host_bits v - own_bits v).

Lemma leaf_values_app a b : leaf_values (a ++ b) = leaf_values a ++ leaf_values b.
Proof. unfold leaf_values. apply flat_map_app. Qed.

Lemma same_length t : forall r r', length (fst (threaded r t)) = length (fst (entered r' t)).
Proof.
  induction t as [v|id ms IH|ms IH|k u ms IH] using tree_rect2; intros r r'.
  - reflexivity.
  - rewrite threaded_report, entered_report. generalize (if id =? 0 then r else id). intros x.
    generalize id at 1. revert x. induction IH as [|m ms H _ IH2]; intros x y; auto. simpl.
    pose proof (H x y) as E. destruct (threaded x m) as [a ra], (entered y m) as [b rb].
    pose proof (IH2 ra rb) as E2. destruct (threaded_all ra ms), (entered_all rb ms).
    cbn [fst] in *. rewrite !app_length. lia.
  - rewrite threaded_top, entered_top. revert r r'. induction IH as [|m ms H _ IH2]; intros x y; auto. simpl.
    pose proof (H x y) as E. destruct (threaded x m) as [a ra], (entered y m) as [b rb].
    pose proof (IH2 ra rb) as E2. destruct (threaded_all ra ms), (entered_all rb ms).
    cbn [fst] in *. rewrite !app_length. lia.
  - rewrite threaded_coll, entered_coll.
    assert (E : length (fst (threaded_all r ms)) = length (fst (entered_all r' ms))).
    { revert r r'. induction IH as [|m ms H _ IH2]; intros x y; auto. simpl.
      pose proof (H x y) as E. destruct (threaded x m) as [a ra], (entered y m) as [b rb].
      pose proof (IH2 ra rb) as E2. destruct (threaded_all ra ms), (entered_all rb ms).
      cbn [fst] in *. rewrite !app_length. lia. }
    destruct (threaded_all r ms), (entered_all r' ms). cbn [fst] in *. simpl. rewrite !app_length. lia.
Qed.

Lemma way_class_inj w w' : (w = 8 \/ w = 9 \/ w = 11) -> (w' = 8 \/ w' = 9 \/ w' = 11) ->
  icls_eqb (way_class w) (way_class w') = (w =? w').
Proof. intros [->|[->| ->]] [->|[->| ->]]; reflexivity. Qed.


(** what one run of the streamer does *)
Record run_ok (db : udb) (A : Z -> Prop) (st st' : sst) (o : list item)
  (th en : Z -> list leaf * Z) : Prop := RunOk {
  ro_plain : Forall (fun i => plain (ic i) = true) o;
  ro_nest : forall d, nest d (map ic o) = Some d;
  ro_rid : s_rid st' = snd (en (s_rid st));
  ro_run : forall g, exists g' ev,
    p_run (P g [] [] []) (map cv o) = (P g' [] [] [], ev) /\
    g_page g' = g_page g /\
    g_rid g' = snd (th (g_rid g)) /\
    (0 <= g_rid g -> 0 <= g_rid g') /\
    (forall before, follows any_gap before (fst (th (g_rid g))) ev) /\
    (Forall (tame A) (leaf_values (fst (th (g_rid g)))) -> 0 <= g_rid g ->
     fst (th (g_rid g)) = fst (en (s_rid st)) ->
     forall before, sync A before st ->
       follows aligned_gap before (fst (th (g_rid g))) ev /\ sync A (before ++ ev) st')
}.

Lemma nest_app d l1 l2 d1 : nest d l1 = Some d1 -> nest d (l1 ++ l2) = nest d1 l2.
Proof.
  revert d. induction l1 as [|c l1 IH]; intros d H.
  - injection H as ->. reflexivity.
  - cbn [app nest] in *. destruct c; auto. destruct d; [discriminate|auto].
Qed.

Definition no_coll (c : icls) : bool := match c with Collection | EndCollection => false | _ => true end.

Lemma nest_flat d l : Forall (fun c => no_coll c = true) l -> nest d l = Some d.
Proof.
  induction 1 as [|c l H _ IH]; auto. cbn [nest]. destruct c; auto; discriminate.
Qed.

Lemma value_reqs_nest db v c d :
  no_coll c = true -> nest d (map fst (value_reqs db v (is_array v) c)) = Some d.
Proof.
  intros NC. unfold value_reqs. rewrite !map_app.
  set (k := negb (Z.land _ _ =? 0)).
  assert (MU : forall l : list pval, Forall (fun c => no_coll c = true) (map fst (map (fun u => (Usage, Some u)) l))).
  { intros l. rewrite map_map. apply Forall_map. apply Forall_forall. reflexivity. }
  destruct k; cbn [negb andb app map fst].
  - rewrite andb_false_r. cbn [andb map app nest]. destruct c; try discriminate; reflexivity.
  - rewrite andb_true_r, !map_app.
    destruct (usage_truthy (v_usage v)), (is_array v),
      (opt_Z_eqb (v_pmin v) (v_lmin v) && opt_Z_eqb (v_pmax v) (v_lmax v)), (v_desig v =? 0), (v_str v =? 0); cbn [andb map fst app nest]; rewrite ?map_app; cbn [app map fst nest].
    all: rewrite <- ?app_assoc.
    all: try (erewrite nest_app by (apply nest_flat; apply MU)); cbn [app nest].
    all: destruct c; try discriminate; try reflexivity.
Qed.

Lemma mk_items_classes db reqs l : mk_items db reqs = Ok l -> map ic l = map fst reqs.
Proof.
  revert l. induction reqs as [|[c v] reqs IH]; intros l H; cbn [mk_items] in H.
  - injection H as <-. reflexivity.
  - destruct (mk_item db c v) as [i|] eqn:E; [|discriminate]. cbn [bind] in H.
    destruct (mk_items db reqs) as [is|]; [|discriminate]. cbn [bind] in H. injection H as <-.
    cbn [map fst]. rewrite (mk_item_class _ _ _ _ E). f_equal. apply IH; auto.
Qed.

Lemma main_class_flat way c : main_class way = Ok c -> way = 8 \/ way = 9 \/ way = 11 -> no_coll c = true.
Proof. intros H W. destruct (main_class_ok _ _ H W) as [_ [->|[->| ->]]]; reflexivity. Qed.

Lemma element_nest db st v st' o d : element db st v = Ok (st', o) -> nest d (map ic o) = Some d.
Proof.
  intros H. unfold element in H.
  match type of H with bind ?r _ = _ => destruct r as [pad|] eqn:PAD; [|discriminate] end.
  cbn [bind] in H.
  match type of H with bind ?r _ = _ => destruct r as [[st1 out1]|] eqn:OUT1; [|discriminate] end.
  cbn [bind] in H.
  assert (N1 : forall d, nest d (map ic out1) = Some d).
  { destruct (pad =? 0).
    - injection OUT1 as <- <-. reflexivity.
    - destruct (rs_add st (py_int (v_way v)) pad) as [st2|] eqn:RA; [|discriminate]. cbn [bind] in OUT1.
      destruct (main_class (py_int (v_way v))) as [c|] eqn:MC; [|discriminate]. cbn [bind] in OUT1.
      match type of OUT1 with bind ?r _ = _ => destruct r as [items|] eqn:MI; [|discriminate] end.
      cbn [bind] in OUT1. injection OUT1 as <- <-. rewrite (mk_items_classes _ _ _ MI).
      apply rs_add_ok in RA. destruct RA as [_ [_ [W _]]].
      pose proof (main_class_flat _ _ MC W) as NC. intros d'. apply nest_flat. repeat constructor. exact NC. }
  destruct (v_kind v); [|injection H as <- <-; apply N1..].
  destruct (narr_truthy (v_named v)) as [b|] eqn:T; [|discriminate]. cbn [bind] in H.
  apply truthy_is_array in T. subst b.
  destruct (rs_add st1 (py_int (v_way v)) (v_size v)) as [st2|] eqn:RA; [|discriminate]. cbn [bind] in H.
  destruct (main_class (py_int (v_way v))) as [c|] eqn:MC; [|discriminate]. cbn [bind] in H.
  match type of H with bind ?r _ = _ => destruct r as [items|] eqn:MI; [|discriminate] end.
  cbn [bind] in H. injection H as <- <-.
  apply rs_add_ok in RA. destruct RA as [_ [_ [W _]]].
  rewrite map_app. erewrite nest_app by apply N1. rewrite (mk_items_classes _ _ _ MI).
  apply value_reqs_nest. eapply main_class_flat; eauto.
Qed.

Lemma run_value db A st v st' o :
  made v -> element db st v = Ok (st', o) ->
  run_ok db A st st' o (fun r => threaded r (TValue v)) (fun r => entered r (TValue v)).
Proof.
  intros M H. destruct (element_run db st v st' o M H) as [p [PR [PL [RUN [RID [DIV [SZ [OK [CN PN]]]]]]]]].
  constructor; auto.
  - intros d. eapply element_nest; eauto.
  - intros g. destruct (RUN g) as [g' [E [R1 R2]]]. exists g'. eexists. split; [exact E|].
    cbn [threaded entered fst snd]. split; auto. split; auto. split; [lia|].
    assert (LF : forall (Gap : list event -> Z -> value -> Z -> Prop) before, Gap before (g_rid g) v p ->
       follows Gap before [LVal (g_rid g) v] (gap_events (g_rid g) v p ++ own_events (g_rid g) v)).
    { intros Gap before GP.
      replace (gap_events (g_rid g) v p ++ own_events (g_rid g) v) with
        (gap_events (g_rid g) v p ++ own_events (g_rid g) v ++ []) by (rewrite app_nil_r; reflexivity).
      constructor; auto. constructor. }
    split; [intros before; apply LF; exact PR|].
    cbn [leaf_values flat_map app]. intros T NN SAME before SY.
    injection SAME as SAME. inversion T as [|? ? [T1 T2] _]. subst.
    assert (SL : slot (s_rid st) = g_rid g) by (unfold slot; destruct (s_rid st <? 0) eqn:X; lia).
    split.
    + apply LF. split; [exact PR|]. intros W. destruct (OK (or_intror (or_intror W))) as [RG WY].
      specialize (DIV W). rewrite SL in DIV.
      assert (KR : 0 <= g_rid g < 256) by lia.
      pose proof (SY _ _ _ (T1 W) WY KR) as D2.
      replace (report_bits (way_class (py_int (v_way v))) (g_rid g) before + p) with
        ((report_bits (way_class (py_int (v_way v))) (g_rid g) before - s_size st (py_int (v_way v)) (g_rid g))
         + (s_size st (py_int (v_way v)) (g_rid g) + p)) by lia.
      apply Z.divide_add_r; auto.
    + intros a w k Aa WY KR. rewrite report_bits_app, bits_leaf by (intros K; apply CN; exact K).
      rewrite SZ, SL.
      pose proof (SY a w k Aa WY KR) as D.
      destruct ((w =? py_int (v_way v)) && (k =? g_rid g)) eqn:B.
      * assert (w = py_int (v_way v)) by lia. assert (k = g_rid g) by lia. subst w k.
        rewrite icls_eqb_refl, Z.eqb_refl. cbn [andb].
        match goal with |- (a | ?x) => replace x with
          ((report_bits (way_class (py_int (v_way v))) (g_rid g) before - s_size st (py_int (v_way v)) (g_rid g))
           + (host_bits v - own_bits v)) by lia end.
        apply Z.divide_add_r; auto.
      * destruct (icls_eqb (way_class (py_int (v_way v))) (way_class w) && (g_rid g =? k)) eqn:B2.
        -- assert (Z0 : p + host_bits v = 0).
           { destruct (Z.eq_dec (p + own_bits v) 0) as [Y|Y].
             - unfold own_bits, host_bits in *. destruct (v_kind v) eqn:K; auto.
               assert (WV := OK (or_intror (or_introl eq_refl))).
               rewrite way_class_inj in B2 by tauto. lia.
             - assert (WV := OK (or_introl Y)). rewrite way_class_inj in B2 by tauto. lia. }
           rewrite Z0. replace (_ - _) with (report_bits (way_class w) k before - s_size st w k) by lia. exact D.
        -- replace (_ - _) with (report_bits (way_class w) k before - s_size st w k) by lia. exact D.
Qed.

Definition seq2 (th1 th2 : Z -> list leaf * Z) (r : Z) : list leaf * Z :=
  let (a, r1) := th1 r in let (b, r2) := th2 r1 in (a ++ b, r2).

Lemma run_seq db A st st1 st2 o1 o2 th1 th2 en1 en2 :
  (forall r r', length (fst (th1 r)) = length (fst (en1 r'))) ->
  run_ok db A st st1 o1 th1 en1 -> run_ok db A st1 st2 o2 th2 en2 ->
  run_ok db A st st2 (o1 ++ o2) (seq2 th1 th2) (seq2 en1 en2).
Proof.
  intros LEN [P1 N1 R1 G1] [P2 N2 R2 G2]. constructor.
  - apply Forall_app; auto.
  - intros d. rewrite map_app. erewrite nest_app by apply N1. apply N2.
  - unfold seq2. destruct (en1 (s_rid st)) as [a r1] eqn:E1. cbn [snd] in R1. rewrite R1 in R2.
    destruct (en2 r1) as [b r2]. exact R2.
  - intros g. destruct (G1 g) as [g1 [e1 [X1 [Y1 [Z1 [W1 [F1 A1]]]]]]].
    destruct (G2 g1) as [g2 [e2 [X2 [Y2 [Z2 [W2 [F2 A2]]]]]]].
    exists g2, (e1 ++ e2). unfold seq2. specialize (LEN (g_rid g) (s_rid st)).
    destruct (th1 (g_rid g)) as [a r1] eqn:E1. cbn [fst snd] in *. rewrite Z1 in *.
    destruct (th2 r1) as [b r2] eqn:E2. cbn [fst snd] in *.
    split; [rewrite map_app; eapply p_run_then; eauto|].
    split; [congruence|]. split; [auto|]. split; [auto|]. split; [intros; apply follows_app; auto|].
    rewrite leaf_values_app. intros T NN SAME before SY. apply Forall_app in T. destruct T as [T1 T2].
    destruct (en1 (s_rid st)) as [a' r1'] eqn:E1'. cbn [fst snd] in *. rewrite R1 in *.
    destruct (en2 r1') as [b' r2'] eqn:E2'. cbn [fst snd] in *.
    assert (SS : a = a' /\ b = b').
    { clear - SAME LEN. revert a' LEN SAME. induction a as [|x a IH]; intros [|y a'] L S; simpl in *; try lia; auto.
      injection S as -> S. destruct (IH a' ltac:(lia) S) as [-> ->]. auto. }
    destruct SS as [-> ->].
    destruct (A1 T1 NN eq_refl before SY) as [B1 S1].
    destruct (A2 T2 (W1 NN) eq_refl (before ++ e1) S1) as [B2 S2].
    rewrite <- app_assoc in S2. split; auto. apply follows_app; auto.
Qed.

Lemma run_nil db A st : run_ok db A st st [] (fun r => ([], r)) (fun r => ([], r)).
Proof.
  constructor; auto.
  intros g. exists g, []. cbn [map p_run fst snd]. repeat split; auto; try constructor.
  rewrite app_nil_r. auto.
Qed.

Lemma run_ext db A st st' o th en th' en' :
  (forall r, th r = th' r) -> (forall r, en r = en' r) ->
  run_ok db A st st' o th en -> run_ok db A st st' o th' en'.
Proof.
  intros E1 E2 [P1 N1 R1 G1]. constructor; auto.
  - rewrite <- E2. auto.
  - intros g. destruct (G1 g) as [g1 [e1 X]]. exists g1, e1. rewrite <- E1, <- E2. exact X.
Qed.

Lemma members_run db A ms :
  Forall (fun m => forall st st' o, well_formed m -> stream_tree db st m = Ok (st', o) ->
            run_ok db A st st' o (fun r => threaded r m) (fun r => entered r m)) ms ->
  forall st st' o, Forall well_formed ms -> stream_members db st ms = Ok (st', o) ->
    run_ok db A st st' o (fun r => threaded_all r ms) (fun r => entered_all r ms).
Proof.
  induction 1 as [|m ms H _ IH]; intros st st' o WF E; cbn [stream_members] in E.
  - injection E as <- <-. apply run_nil.
  - destruct (stream_tree db st m) as [[st1 o1]|] eqn:E1; [|discriminate]. cbn [bind] in E.
    destruct (stream_members db st1 ms) as [[st2 o2]|] eqn:E2; [|discriminate]. cbn [bind] in E.
    injection E as <- <-. inversion WF; subst.
    eapply run_ext; [| |eapply run_seq; [|apply H; eauto|apply IH; eauto]].
    + reflexivity.
    + reflexivity.
    + intros r r'. apply same_length.
Qed.

(** a few items that only set the report id *)
Lemma run_report db A st st' id o o1 ms :
  (if id =? 0 then Ok [] else mk_items db [(ReportID, Some (VInt id))]) = Ok o ->
  run_ok db A (SST id (s_size st)) st' o1 (fun r => threaded_all r ms) (fun r => entered_all r ms) ->
  run_ok db A st st' (o ++ o1) (fun r => threaded r (TReport id ms)) (fun r => entered r (TReport id ms)).
Proof.
  intros E [P1 N1 R1 G1]. 
  assert (O : map cv o = if id =? 0 then [] else [(ReportID, id)]).
  { destruct (id =? 0); [injection E as <-; reflexivity|].
    etransitivity; [eapply mk_items_cv; [|exact E]|]; [|reflexivity]. repeat constructor. }
  assert (NN : 0 <= id).
  { destruct (id =? 0) eqn:Z0; [lia|].
    pose proof (mk_items_nonneg db _ _ E) as X.
    assert (Y : Forall req_ok [(ReportID, Some (VInt id))]) by repeat constructor.
    specialize (X Y). inversion X as [|? ? X1 _]. apply X1. reflexivity. }
  assert (C : map ic o = if id =? 0 then [] else [ReportID]).
  { transitivity (map fst (map cv o)); [rewrite map_map; reflexivity|]. rewrite O. destruct (id =? 0); reflexivity. }
  constructor.
  - apply Forall_app. split; auto. destruct (id =? 0).
    + destruct o; [constructor|discriminate].
    + destruct o as [|i [|]]; try discriminate. injection C as C. repeat constructor. rewrite C. reflexivity.
  - intros d. rewrite map_app, C. destruct (id =? 0); cbn [app nest]; apply N1.
  - exact R1.
  - intros g. set (g0 := if id =? 0 then g else g_set ReportID id g).
    assert (RG : g_rid g0 = if id =? 0 then g_rid g else id) by (unfold g0; destruct (id =? 0), g; reflexivity).
    destruct (G1 g0) as [g1 [e1 [X1 [Y1 [Z1 [W1 [F1 A1]]]]]]].
    exists g1, e1. rewrite RG in *. cbn [s_rid] in A1.
    split.
    { rewrite map_app, O. unfold g0 in X1. destruct (id =? 0); cbn [app]; auto.
      cbn [p_run p_step hid_kind p_g p_us p_ds p_ss]. rewrite X1. reflexivity. }
    split. { rewrite Y1. unfold g0. destruct (id =? 0), g; reflexivity. }
    split; [exact Z1|]. split; [intros; apply W1; destruct (id =? 0); lia|]. split; [exact F1|].
    intros T N0 SAME before SY. apply A1; auto. destruct (id =? 0); lia.
Qed.

Lemma lookup_opt_none db : exists e, lookup_opt db None = Err e.
Proof. eexists. reflexivity. Qed.

Lemma coll_items db u k o :
  mk_items db [(Usage, u); (Collection, Some k)] = Ok o -> exists x, u = Some x.
Proof. destruct u; [eauto|]. intros H. discriminate H. Qed.

Lemma run_coll db A st st' k u o o1 o2 ms :
  (match k with VInt z => 0 <= z | _ => True end) ->
  mk_items db [(Usage, u); (Collection, Some k)] = Ok o ->
  run_ok db A st st' o1 (fun r => threaded_all r ms) (fun r => entered_all r ms) ->
  mk_items db [(EndCollection, Some (VInt 0))] = Ok o2 ->
  run_ok db A st st' (o ++ o1 ++ o2) (fun r => threaded r (TColl k u ms)) (fun r => entered r (TColl k u ms)).
Proof.
  intros KK E [P1 N1 R1 G1] E2.
  destruct (coll_items _ _ _ _ E) as [x ->].
  assert (O : map cv o = [(Usage, py_int x); (Collection, py_int k)]).
  { etransitivity; [eapply mk_items_cv; [|exact E]|]; [|reflexivity].
    constructor; [exact I|]. constructor; [|constructor]. exact KK. }
  assert (O2 : map cv o2 = [(EndCollection, 0)]).
  { etransitivity; [eapply mk_items_cv; [|exact E2]|]; [|reflexivity]. repeat constructor. }
  assert (C : map ic o = [Usage; Collection]).
  { transitivity (map fst (map cv o)); [rewrite map_map; reflexivity|]. rewrite O. reflexivity. }
  assert (C2 : map ic o2 = [EndCollection]).
  { transitivity (map fst (map cv o2)); [rewrite map_map; reflexivity|]. rewrite O2. reflexivity. }
  assert (EN : forall r, snd (entered r (TColl k (Some x) ms)) = snd (entered_all r ms)).
  { intros r. rewrite entered_coll. destruct (entered_all r ms); reflexivity. }
  assert (TH : forall r, threaded r (TColl k (Some x) ms)
     = (LOpen k (Some x) :: fst (threaded_all r ms) ++ [LClose], snd (threaded_all r ms))).
  { intros r. rewrite threaded_coll. destruct (threaded_all r ms); reflexivity. }
  constructor.
  - apply Forall_app. split; [|apply Forall_app; split; auto].
    + assert (Q : Forall (fun c => plain c = true) (map ic o)) by (rewrite C; repeat constructor).
      rewrite Forall_map in Q. exact Q.
    + assert (Q : Forall (fun c => plain c = true) (map ic o2)) by (rewrite C2; repeat constructor).
      rewrite Forall_map in Q. exact Q.
  - intros d. rewrite !map_app, C, C2. cbn [app nest]. erewrite nest_app by apply N1. reflexivity.
  - rewrite EN. exact R1.
  - intros g. destruct (G1 g) as [g1 [e1 [X1 [Y1 [Z1 [W1 [F1 A1]]]]]]].
    exists g1, (EvColl (py_int k) [py_int x] [] [] [] :: e1 ++ [EvEnd]).
    split.
    { rewrite !map_app, O, O2. cbn [app p_run p_step hid_kind p_g p_us p_ds p_ss p_obs].
      rewrite p_run_app, X1. cbn [fst snd p_run p_step hid_kind p_g p_obs app]. reflexivity. }
    split; auto. rewrite TH. cbn [fst snd]. split; auto. split; auto. split.
    { intros before. constructor. apply follows_app; [apply F1|]. repeat constructor. }
    rewrite entered_coll. intros T N0 SAME before SY.
    destruct (entered_all (s_rid st) ms) as [ea er] eqn:EA. cbn [fst] in SAME.
    injection SAME as SAME. apply app_inv_tail in SAME.
    assert (T1 : Forall (tame A) (leaf_values (fst (threaded_all (g_rid g) ms)))).
    { change (LOpen k (Some x) :: fst (threaded_all (g_rid g) ms) ++ [LClose])
        with ([LOpen k (Some x)] ++ fst (threaded_all (g_rid g) ms) ++ [LClose]) in T.
      rewrite !leaf_values_app in T. apply Forall_app in T. destruct T as [_ T]. apply Forall_app in T. apply T. }
    assert (SY0 : sync A (before ++ [EvColl (py_int k) [py_int x] [] [] []]) st).
    { intros a w j Aa WY KR. rewrite report_bits_app. change (report_bits (way_class w) j [_]) with 0.
      rewrite Z.add_0_r. apply SY; auto. }
    destruct (A1 T1 N0 SAME _ SY0) as [B1 S1].
    split.
    + constructor. apply follows_app; [exact B1|]. repeat constructor.
    + intros a w j Aa WY KR.
      change (EvColl (py_int k) [py_int x] [] [] [] :: e1 ++ [EvEnd]) with
        ([EvColl (py_int k) [py_int x] [] [] []] ++ e1 ++ [EvEnd]).
      rewrite !app_assoc, report_bits_app. change (report_bits (way_class w) j [EvEnd]) with 0.
      rewrite Z.add_0_r. apply S1; auto.
Qed.

Lemma stream_run db A t : forall st st' o,
  well_formed t -> stream_tree db st t = Ok (st', o) ->
  run_ok db A st st' o (fun r => threaded r t) (fun r => entered r t).
Proof.
  induction t as [v|id ms IH|ms IH|k u ms IH] using tree_rect2; intros st st' o WF H.
  - apply run_value; auto.
  - rewrite stream_report in H.
    destruct (if id =? 0 then _ else _) as [o0|] eqn:E0; [|discriminate]. cbn [bind] in H.
    destruct (stream_members db _ ms) as [[st1 o1]|] eqn:E1; [|discriminate]. cbn [bind] in H.
    injection H as <- <-. eapply run_report; [exact E0|].
    eapply members_run; [exact IH| |exact E1]. apply well_formed_all. exact WF.
  - rewrite stream_top in H. apply members_run; auto. apply well_formed_all. exact WF.
  - rewrite stream_coll in H.
    destruct (mk_items db [(Usage, u); (Collection, Some k)]) as [o0|] eqn:E0; [|discriminate]. cbn [bind] in H.
    destruct (stream_members db st ms) as [[st1 o1]|] eqn:E1; [|discriminate]. cbn [bind] in H.
    destruct (mk_items db [(EndCollection, Some (VInt 0))]) as [o2|] eqn:E2; [|discriminate]. cbn [bind] in H.
    injection H as <- <-. destruct WF as [W1 W2]. eapply run_coll; eauto.
    eapply members_run; [exact IH| |exact E1]. apply well_formed_all. exact W2.
Qed.

(* ------------------------------------------------------------------ *)
(** a blob has one reading *)

Lemma short_items_det b r1 : short_items b r1 -> forall r2, short_items b r2 -> r1 = r2.
Proof.
  induction 1 as [|p data rest l P D L S IH]; intros r2 S2.
  - inversion S2. reflexivity.
  - inversion S2 as [|p' data' rest' l' P' D' L' S' E]; subst.
    assert (X : data = data' /\ rest = rest').
    { rewrite <- L in L'.
      match goal with H : data' ++ rest' = data ++ rest |- _ => symmetry in H; rename H into Q
                    | H : data ++ rest = data' ++ rest' |- _ => rename H into Q end.
      clear - L' Q. revert data' L' Q.
      induction data as [|x d IH]; intros [|y d'] L' E; simpl in *; try lia; auto.
      injection E as -> E. destruct (IH d' ltac:(lia) E) as [-> ->]. auto. }
    destruct X as [-> ->]. f_equal. apply IH. exact S'.
Qed.

Lemma map_Some_inj {A} (l1 l2 : list A) : map Some l1 = map Some l2 -> l1 = l2.
Proof. revert l2. induction l1 as [|x l1 IH]; intros [|y l2] H; try discriminate; auto. injection H as -> H. f_equal. auto. Qed.

Lemma blob_means_det b l1 l2 : blob_means b l1 -> blob_means b l2 -> l1 = l2.
Proof.
  intros [r1 [S1 E1]] [r2 [S2 E2]]. pose proof (short_items_det _ _ S1 _ S2). subst r2.
  apply map_Some_inj. congruence.
Qed.

Lemma host_reads_det m b e1 e2 : host_reads m b e1 -> host_reads m b e2 -> e1 = e2.
Proof. intros [l1 [B1 ->]] [l2 [B2 ->]]. rewrite (blob_means_det _ _ _ B1 B2). reflexivity. Qed.

(** the only reading of [b], whatever the binding of usage pages *)
Definition reads_as (b : list Z) (ev : list event) : Prop :=
  forall m ev', host_reads m b ev' <-> ev' = ev.

Lemma compile_run db A t b :
  well_formed t -> compile db false t = Ok b ->
  exists ev, reads_as b ev /\ follows any_gap [] (fst (threaded 0 t)) ev /\
   (Forall (tame A) (leaf_values (fst (threaded 0 t))) ->
    fst (threaded 0 t) = fst (entered 0 t) -> follows aligned_gap [] (fst (threaded 0 t)) ev).
Proof.
  intros WF H. unfold compile, stream_items in H.
  destruct (stream_tree db sst_init t) as [[st' o]|] eqn:E; [|discriminate]. cbn [bind] in H.
  destruct (stream_run db A t _ _ _ WF E) as [PL _ _ RUN].
  destruct (RUN g_init) as [g' [ev [X [_ [_ [_ [F AL]]]]]]].
  exists ev. split; [|split; [apply F|]].
  - intros m ev'. assert (R : host_reads m b ev).
    { exists (map wire o). split; [apply serialize_means; exact H|].
      rewrite plain_view by exact PL. unfold p_init.
      transitivity (snd (p_run (P g_init [] [] []) (map cv o))); [rewrite X; reflexivity|reflexivity]. }
    split; [intros R'; eapply host_reads_det; eauto|intros ->; exact R].
  - intros T S. apply AL; auto; [cbn; lia|].
    intros a w k _ _ _. unfold sst_init, s_size, report_bits. cbn. exists 0. reflexivity.
Qed.

Lemma c24 db t b :
  well_formed t -> compile db false t = Ok b ->
  exists ev, reads_as b ev /\ follows any_gap [] (fst (threaded 0 t)) ev.
Proof. intros WF H. destruct (compile_run db (fun _ => True) t b WF H) as [ev [R [F _]]]. eauto. Qed.

Lemma c25 db t b :
  well_formed t -> compile db false t = Ok b -> fst (threaded 0 t) = scoped 0 t ->
  exists ev, reads_as b ev /\ follows any_gap [] (scoped 0 t) ev.
Proof. intros WF H E. rewrite <- E. eapply c24; eauto. Qed.

(** the alignments asked for in a tree, and the bits of the values beyond the
    first repetition *)
Definition extra_bits (v : value) : Z :=
  match v_kind v with KValue => (v_count v - 1) * v_size v | _ => 0 end.

Lemma c27 db t b :
  well_formed t -> compile db false t = Ok b ->
  fst (threaded 0 t) = fst (entered 0 t) ->
  (forall v w, In v (leaf_values (fst (entered 0 t))) -> In w (leaf_values (fst (entered 0 t))) ->
     1 < wanted_alignment w -> (wanted_alignment w | extra_bits v)) ->
  exists ev, reads_as b ev /\ follows aligned_gap [] (fst (entered 0 t)) ev.
Proof.
  intros WF H E T. rewrite <- E in *.
  set (vs := leaf_values (fst (threaded 0 t))) in *.
  destruct (compile_run db (fun a => exists w, In w vs /\ 1 < wanted_alignment w /\ a = wanted_alignment w)
              t b WF H) as [ev [R [_ F]]].
  exists ev. split; auto. apply F; auto.
  apply Forall_forall. intros v I. split; [eauto|].
  intros a [w [I2 [W ->]]]. specialize (T v w I I2 W).
  replace (host_bits v - own_bits v) with (extra_bits v); auto.
  unfold host_bits, own_bits, extra_bits. destruct (v_kind v); lia.
Qed.

Lemma c26 db t b :
  well_formed t -> compile db false t = Ok b ->
  fst (threaded 0 t) = fst (entered 0 t) ->
  (forall v, In v (leaf_values (fst (entered 0 t))) -> v_kind v = KValue -> v_count v = 1) ->
  exists ev, reads_as b ev /\ follows aligned_gap [] (fst (entered 0 t)) ev.
Proof.
  intros WF H E T. apply (c27 db); auto. intros v w I1 I2 _. specialize (T v I1).
  unfold extra_bits. destruct (v_kind v); try (exists 0; reflexivity).
  rewrite T by reflexivity. exists 0. reflexivity.
Qed.

(* ------------------------------------------------------------------ *)
(** C23 *)

Definition deep (t : tree) : Prop := forall db st st' o d,
  stream_tree db st t = Ok (st', o) -> nest d (map ic o) = Some d.

Lemma deep_all ms : Forall deep ms -> forall db st st' o d,
  stream_members db st ms = Ok (st', o) -> nest d (map ic o) = Some d.
Proof.
  induction 1 as [|m ms H _ IH]; intros db st st' o d E; cbn [stream_members] in E.
  - injection E as <- <-. reflexivity.
  - destruct (stream_tree db st m) as [[st1 o1]|] eqn:E1; [|discriminate]. cbn [bind] in E.
    destruct (stream_members db st1 ms) as [[st2 o2]|] eqn:E2; [|discriminate]. cbn [bind] in E.
    injection E as <- <-. rewrite map_app. erewrite nest_app by (eapply H; eauto). eapply IH; eauto.
Qed.

Lemma tree_deep t : deep t.
Proof.
  induction t as [v|id ms IH|ms IH|k u ms IH] using tree_rect2; intros db st st' o d H.
  - eapply element_nest; eauto.
  - rewrite stream_report in H.
    destruct (if id =? 0 then _ else _) as [o0|] eqn:E0; [|discriminate]. cbn [bind] in H.
    destruct (stream_members db _ ms) as [[st1 o1]|] eqn:E1; [|discriminate]. cbn [bind] in H.
    injection H as <- <-. rewrite map_app.
    assert (N : nest d (map ic o0) = Some d).
    { destruct (id =? 0); [injection E0 as <-; reflexivity|].
      rewrite (mk_items_classes _ _ _ E0). reflexivity. }
    erewrite nest_app by exact N. eapply deep_all; eauto.
  - rewrite stream_top in H. eapply deep_all; eauto.
  - rewrite stream_coll in H.
    destruct (mk_items db [(Usage, u); (Collection, Some k)]) as [o0|] eqn:E0; [|discriminate]. cbn [bind] in H.
    destruct (stream_members db st ms) as [[st1 o1]|] eqn:E1; [|discriminate]. cbn [bind] in H.
    destruct (mk_items db [(EndCollection, Some (VInt 0))]) as [o2|] eqn:E2; [|discriminate]. cbn [bind] in H.
    injection H as <- <-. rewrite !map_app, (mk_items_classes _ _ _ E0), (mk_items_classes _ _ _ E2).
    cbn [map fst app nest]. erewrite nest_app by (eapply deep_all; eauto). reflexivity.
Qed.

Lemma c23 db t l : stream_items db t = Ok l -> balanced (map ic l).
Proof.
  intros H. unfold stream_items in H.
  destruct (stream_tree db sst_init t) as [[st o]|] eqn:E; [|discriminate]. injection H as <-.
  eapply tree_deep; eauto.
Qed.

(* ------------------------------------------------------------------ *)
(** C28 *)

(** what a tree that streams is like *)
Record sane (st st' : sst) (t : tree) : Prop := Sane {
  sa_rid : s_rid st' = snd (entered (s_rid st) t);
  sa_reports : forall id ms, inside (TReport id ms) t -> 0 <= id;
  sa_usages : forall k u ms, inside (TColl k u ms) t -> u <> None;
  sa_values : 0 <= s_rid st -> forall r v, In (LVal r v) (fst (entered (s_rid st) t)) ->
    v_kind v = KValue -> 0 <= r < 256
}.

Lemma element_sane db st v st' o : element db st v = Ok (st', o) ->
  s_rid st' = s_rid st /\ (v_kind v = KValue -> -256 <= s_rid st < 256).
Proof.
  intros H. unfold element in H.
  match type of H with bind ?r _ = _ => destruct r as [pad|] eqn:PAD; [|discriminate] end.
  cbn [bind] in H.
  match type of H with bind ?r _ = _ => destruct r as [[st1 out1]|] eqn:OUT1; [|discriminate] end.
  cbn [bind] in H.
  assert (N1 : s_rid st1 = s_rid st).
  { destruct (pad =? 0).
    - injection OUT1 as <- <-. reflexivity.
    - destruct (rs_add st (py_int (v_way v)) pad) as [st2|] eqn:RA; [|discriminate]. cbn [bind] in OUT1.
      destruct (main_class (py_int (v_way v))) as [c|] eqn:MC; [|discriminate]. cbn [bind] in OUT1.
      match type of OUT1 with bind ?r _ = _ => destruct r as [items|] eqn:MI; [|discriminate] end.
      cbn [bind] in OUT1. injection OUT1 as <- <-.
      apply rs_add_ok in RA. tauto. }
  destruct (v_kind v); [|injection H as <- <-; split; [exact N1|discriminate]..].
  destruct (narr_truthy (v_named v)) as [b|] eqn:T; [|discriminate]. cbn [bind] in H.
  destruct (rs_add st1 (py_int (v_way v)) (v_size v)) as [st2|] eqn:RA; [|discriminate]. cbn [bind] in H.
  destruct (main_class (py_int (v_way v))) as [c|] eqn:MC; [|discriminate]. cbn [bind] in H.
  match type of H with bind ?r _ = _ => destruct r as [items|] eqn:MI; [|discriminate] end.
  cbn [bind] in H. injection H as <- <-.
  apply rs_add_ok in RA. destruct RA as [R1 [R2 _]]. split; [congruence|]. intros _. lia.
Qed.

Definition sane_all (st st' : sst) (ms : list tree) : Prop :=
  s_rid st' = snd (entered_all (s_rid st) ms) /\
  (forall m id k, In m ms -> inside (TReport id k) m -> 0 <= id) /\
  (forall m k u l, In m ms -> inside (TColl k u l) m -> u <> None) /\
  (0 <= s_rid st -> (forall r v, In (LVal r v) (fst (entered_all (s_rid st) ms)) ->
    v_kind v = KValue -> 0 <= r < 256) /\ 0 <= s_rid st').

Lemma stream_sane db t : forall st st' o, stream_tree db st t = Ok (st', o) ->
  sane st st' t /\ (0 <= s_rid st -> 0 <= s_rid st').
Proof.
  assert (ALL : forall ms,
    Forall (fun t => forall st st' o, stream_tree db st t = Ok (st', o) ->
               sane st st' t /\ (0 <= s_rid st -> 0 <= s_rid st')) ms ->
    forall st st' o, stream_members db st ms = Ok (st', o) -> sane_all st st' ms).
  { induction 1 as [|m ms H _ IH]; intros st st' o E; cbn [stream_members] in E.
    - injection E as <- <-. split; [reflexivity|]. split; [intros ? ? ? []|]. split; [intros ? ? ? ? []|].
      intros; split; auto. intros ? ? [].
    - destruct (stream_tree db st m) as [[st1 o1]|] eqn:E1; [|discriminate]. cbn [bind] in E.
      destruct (stream_members db st1 ms) as [[st2 o2]|] eqn:E2; [|discriminate]. cbn [bind] in E.
      injection E as <- <-. destruct (H _ _ _ E1) as [[S1 S2 S3 S4] S5].
      destruct (IH _ _ _ E2) as [T1 [T2 [T3 T4]]]. unfold sane_all. cbn [entered_all].
      destruct (entered (s_rid st) m) as [a r1]. cbn [fst snd] in *. rewrite S1 in *.
      destruct (entered_all r1 ms) as [b r2]. cbn [fst snd] in *.
      split; [exact T1|]. split; [|split].
      + intros m' id k [->|I]; eauto.
      + intros m' k u l [->|I]; eauto.
      + intros N. destruct (T4 (S5 N)) as [T5 T6]. split; auto. intros r v I K.
        apply in_app_or in I. destruct I as [I|I]; eauto. }
  induction t as [v|id ms IH|ms IH|k u ms IH] using tree_rect2; intros st st' o H.
  - destruct (element_sane _ _ _ _ _ H) as [A B]. split; [|lia]. constructor; auto.
    + intros id ms I. inversion I.
    + intros k u ms I. inversion I.
    + intros N r v' [E|[]] K. injection E as <- <-. specialize (B K). lia.
  - rewrite stream_report in H.
    destruct (if id =? 0 then _ else _) as [o0|] eqn:E0; [|discriminate]. cbn [bind] in H.
    destruct (stream_members db _ ms) as [[st1 o1]|] eqn:E1; [|discriminate]. cbn [bind] in H.
    injection H as <- <-.
    assert (NN : 0 <= id).
    { destruct (id =? 0) eqn:Z0; [lia|].
      pose proof (mk_items_nonneg db _ _ E0) as X.
      assert (Y : Forall req_ok [(ReportID, Some (VInt id))]) by repeat constructor.
      specialize (X Y). inversion X as [|? ? X1 _]. apply X1. reflexivity. }
    destruct (ALL ms IH _ _ _ E1) as [T1 [T2 [T3 T4]]]. cbn [s_rid] in *.
    destruct (T4 NN) as [T5 T6]. split; [|auto]. constructor; auto.
    + intros id' ms' I. inversion I; subst; eauto.
    + intros k u ms' I. inversion I; subst; eauto.
  - rewrite stream_top in H. destruct (ALL ms IH _ _ _ H) as [T1 [T2 [T3 T4]]].
    split; [|intros N; apply T4; auto]. constructor; auto.
    + intros id' ms' I. inversion I; subst; eauto.
    + intros k u ms' I. inversion I; subst; eauto.
    + intros N r v I K. destruct (T4 N) as [T5 T6]. eapply T5; eauto.
  - rewrite stream_coll in H.
    destruct (mk_items db [(Usage, u); (Collection, Some k)]) as [o0|] eqn:E0; [|discriminate]. cbn [bind] in H.
    destruct (stream_members db st ms) as [[st1 o1]|] eqn:E1; [|discriminate]. cbn [bind] in H.
    destruct (mk_items db [(EndCollection, Some (VInt 0))]) as [o2|] eqn:E2; [|discriminate]. cbn [bind] in H.
    injection H as <- <-. destruct (ALL ms IH _ _ _ E1) as [T1 [T2 [T3 T4]]].
    destruct (coll_items _ _ _ _ E0) as [x ->].
    split; [|intros N; apply T4; auto]. constructor; auto.
    + rewrite entered_coll. destruct (entered_all (s_rid st) ms). exact T1.
    + intros id' ms' I. inversion I; subst; eauto.
    + intros k' u' ms' I. inversion I; subst; eauto. discriminate.
    + intros N r v I K. rewrite entered_coll in I. destruct (T4 N) as [T5 T6].
      destruct (entered_all (s_rid st) ms) as [a r1]. cbn [fst] in *.
      destruct I as [I|I]; [discriminate|]. apply in_app_or in I. destruct I as [I|[I|[]]]; [|discriminate].
      eapply T5; eauto.
Qed.

Lemma c28 db opt t :
  (exists id ms, inside (TReport id ms) t /\ id < 0) \/
  (exists k ms, inside (TColl k None ms) t) \/
  (exists r v, In (LVal r v) (fst (entered 0 t)) /\ v_kind v = KValue /\ ~ 0 <= r <= 255) ->
  exists e, compile db opt t = Err e.
Proof.
  intros BAD. unfold compile, stream_items.
  destruct (stream_tree db sst_init t) as [[st' o]|e] eqn:E; [|cbn [bind]; eauto].
  exfalso. destruct (stream_sane db t _ _ _ E) as [[S1 S2 S3 S4] _].
  destruct BAD as [[id [ms [I N]]]|[[k [ms I]]|[r [v [I [K N]]]]]].
  - specialize (S2 _ _ I). lia.
  - exact (S3 _ _ _ I eq_refl).
  - assert (Z0 : 0 <= s_rid sst_init) by (cbn; lia). specialize (S4 Z0 r v I K). lia.
Qed.

(* ------------------------------------------------------------------ *)
(** C29 *)

Lemma follows_split Gap before l1 r v l2 ev :
  follows Gap before (l1 ++ LVal r v :: l2) ev ->
  exists e1 e2, ev = e1 ++ own_events r v ++ e2.
Proof.
  revert before ev. induction l1 as [|x l1 IH]; intros before ev F; cbn [app] in F.
  - inversion F; subst. exists (gap_events r v p). eexists. reflexivity.
  - inversion F; subst; match goal with H : follows _ _ (l1 ++ _) _ |- _ => destruct (IH _ _ H) as [e1 [e2 ->]] end.
    + exists (EvColl (py_int k) [py_int u] [] [] [] :: e1), e2. reflexivity.
    + exists (EvEnd :: e1), e2. reflexivity.
    + exists (gap_events rid v0 p ++ own_events rid v0 ++ e1), e2. rewrite <- !app_assoc. reflexivity.
Qed.

Lemma well_formed_leaf t : forall rid, well_formed t -> forall r v, In (LVal r v) (fst (threaded rid t)) -> made v.
Proof.
  assert (ALL : forall ms,
    Forall (fun t => forall rid, well_formed t -> forall r v, In (LVal r v) (fst (threaded rid t)) -> made v) ms ->
    forall rid, Forall well_formed ms -> forall r v, In (LVal r v) (fst (threaded_all rid ms)) -> made v).
  { induction 1 as [|m ms H _ IH]; intros rid WF r v I; [destruct I|]. inversion WF; subst.
    cbn [threaded_all] in I. specialize (H rid). destruct (threaded rid m) as [a r1].
    specialize (IH r1). destruct (threaded_all r1 ms) as [b r2]. cbn [fst] in *.
    apply in_app_or in I. destruct I as [I|I]; eauto. }
  induction t as [v0|id ms IH|ms IH|k u ms IH] using tree_rect2; intros rid WF r v I.
  - destruct I as [I|[]]. injection I as <- <-. exact WF.
  - rewrite threaded_report in I. eapply ALL; eauto. apply well_formed_all. exact WF.
  - rewrite threaded_top in I. eapply ALL; eauto. apply well_formed_all. exact WF.
  - rewrite threaded_coll in I. destruct WF as [_ WF]. specialize (ALL ms IH rid).
    destruct (threaded_all rid ms) as [a r1]. cbn [fst] in *. destruct I as [I|I]; [discriminate|].
    apply in_app_or in I. destruct I as [I|[I|[]]]; [|discriminate].
    eapply ALL; eauto. apply well_formed_all. exact WF.
Qed.

Lemma upto_firstn {A} (l : list A) n : n = length l -> firstn n l = l.
Proof. intros ->. apply firstn_all. Qed.

Lemma c29 db t b r v :
  well_formed t -> compile db false t = Ok b ->
  In (LVal r v) (fst (threaded 0 t)) -> v_kind v = KValue ->
  array_usages (v_named v) <> [] -> usage_list (v_usage v) = [] ->
  exists e1 e2 a ds ss,
    reads_as b (e1 ++ repeat (EvArr a (array_usages (v_named v)) ds ss []) (Z.to_nat (v_count v)) ++ e2) /\
    f_flags a = 0 /\ f_rid a = r /\ f_size a = v_size v /\
    f_lmax a - f_lmin a + 1 = Z.of_nat (length (array_usages (v_named v))).
Proof.
  intros WF H I K AR US. destruct (c24 db t b WF H) as [ev [R F]].
  apply in_split in I as I'. destruct I' as [l1 [l2 E]]. rewrite E in F.
  apply follows_split in F. destruct F as [e1 [e2 ->]].
  pose proof (well_formed_leaf t 0 WF r v I) as M.
  unfold own_events in R. rewrite K in R. unfold value_events in R.
  assert (IA : is_array v = true) by (unfold is_array; destruct (array_usages (v_named v)); congruence).
  destruct M as [k [a M]].
  assert (FL : py_int (v_flags v) = 0).
  { destruct (c22_common k a v M) as [_ [_ [U [_ [L [N _]]]]]].
    assert (Q : ~ no_array (a_named a)) by (intros Q; apply no_array_usages in Q; congruence).
    destruct (a_named a) as [x|] eqn:EX; [|exfalso; apply Q; exact Logic.I].
    rewrite <- EX in Q. destruct (c22_array k a v x M EX Q) as [lo [_ [_ [_ [F1 _]]]]].
    apply F1. rewrite U in US. destruct (a_usage a) as [[z|n z|n z y]|]; simpl in US; try discriminate; auto.
    destruct (Z.eqb_spec z 0); [subst; auto|discriminate]. }
  assert (C0 : is_constant (py_int (v_flags v)) = false) by (rewrite FL; reflexivity).
  destruct (made_facts v (ex_intro _ k (ex_intro _ a M)) C0) as [FA _].
  destruct (FA IA) as [lo [L1 [L2 _]]].
  rewrite C0, IA, US in R.
  replace (is_variable (py_int (v_flags v))) with false in R by (rewrite FL; reflexivity).
  set (at_ := value_attrs r v) in *.
  assert (SEL : f_lmax at_ - f_lmin at_ + 1 = Z.of_nat (length (array_usages (v_named v)))).
  { unfold at_, value_attrs. rewrite L1, L2. cbn [f_lmax f_lmin or0]. lia. }
  rewrite upto_firstn in R by lia.
  exists e1, e2, at_. eexists. eexists. split; [exact R|]. split; [exact FL|]. split; [reflexivity|].
  split; [reflexivity|exact SEL].
Qed.
