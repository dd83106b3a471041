(* LengthProofs.v -- proofs about the lengths of reports *)
From Coq Require Import ZArith List Bool Lia ZifyBool ZifyNat String.
From Verif Require Import Py Usage Item Parser Optimizer Descriptor HidSpec Spec StreamSpec OptSpec TreeSpec LayoutSpec ItemFacts ParserFacts StreamProofs StreamTree
  OptFacts PassFacts TreeOpt LayoutProofs IdsSpec IdsProofs NumberedSpec NumberedProofs ApartSpec ApartProofs LengthSpec.
Import ListNotations.
Local Open Scope list_scope.
Local Open Scope Z_scope.

Definition bare_leaf (x : leaf) : leaf := match x with LVal _ v => LVal 0 v | _ => x end.

Lemma same_leaves t : forall r r', map bare_leaf (fst (threaded r t)) = map bare_leaf (fst (entered r' t)).
Proof.
  assert (ALL : forall ms, Forall (fun t => forall r r', map bare_leaf (fst (threaded r t)) = map bare_leaf (fst (entered r' t))) ms ->
    forall r r', map bare_leaf (fst (threaded_all r ms)) = map bare_leaf (fst (entered_all r' ms))).
  { induction 1 as [|m ms H _ IH]; intros r r'; [reflexivity|]. cbn [threaded_all entered_all]. specialize (H r r').
    destruct (threaded r m) as [a r1], (entered r' m) as [b r2]. specialize (IH r1 r2). destruct (threaded_all r1 ms), (entered_all r2 ms).
    cbn [fst] in *. rewrite !map_app, H, IH. reflexivity. }
  induction t as [v|id ms IH|ms IH|k u ms IH] using tree_rect2; intros r r'.
  - reflexivity.
  - rewrite threaded_report, entered_report. auto.
  - rewrite threaded_top, entered_top. auto.
  - rewrite threaded_coll, entered_coll. specialize (ALL ms IH r r'). destruct (threaded_all r ms), (entered_all r' ms). cbn [fst map] in *.
    rewrite !map_app, ALL. reflexivity.
Qed.

Lemma bits_repeat c r e n : report_bits c r (repeat e n) = Z.of_nat n * report_bits c r [e].
Proof.
  induction n as [|n IH]; [reflexivity|]. cbn [repeat]. change (e :: repeat e n) with ([e] ++ repeat e n). rewrite report_bits_app, IH. lia.
Qed.

Definition here (c : icls) (r h : Z) (v : value) : bool := icls_eqb (way_class (py_int (v_way v))) c && (h =? r).

Lemma gap_bits c r h v p : report_bits c r (gap_events h v p) = if here c r h v then p else 0.
Proof.
  unfold gap_events, here, report_bits. destruct (p =? 0) eqn:E.
  - apply Z.eqb_eq in E. subst p. cbn. destruct (_ && _); reflexivity.
  - cbn [layout flat_map event_bits app filter fst snd]. destruct (_ && _); cbn [map snd fold_right]; lia.
Qed.

Lemma own_bits c r h v : report_bits c r (own_events h v) = if here c r h v then bits v else 0.
Proof.
  unfold own_events, bits. destruct (v_kind v).
  - assert (ONE : forall e, event_bits e = Some (way_class (py_int (v_way v)), h, v_size v) -> report_bits c r [e] = if here c r h v then v_size v else 0).
    { intros e E. unfold report_bits, layout, here. cbn [flat_map]. rewrite E. cbn [app filter fst snd]. destruct (_ && _); cbn [map snd fold_right]; lia. }
    assert (N : Z.of_nat (Z.to_nat (v_count v)) = Z.max 0 (v_count v)) by lia.
    assert (MAP : forall f, (forall k : nat, event_bits (f k) = Some (way_class (py_int (v_way v)), h, v_size v)) ->
      forall l, report_bits c r (map f l) = Z.of_nat (length l) * (if here c r h v then v_size v else 0)).
    { intros f F l. induction l as [|k l IH]; [reflexivity|]. cbn [map length]. change (f k :: map f l) with ([f k] ++ map f l).
      rewrite report_bits_app, IH, (ONE _ (F k)). lia. }
    unfold value_events. destruct (is_constant _).
    { rewrite bits_repeat, N, ONE by reflexivity. destruct (here c r h v); lia. }
    cbv zeta.
    match goal with |- context[if is_variable ?x then ?p else ?q] =>
      assert (G : report_bits c r (if is_variable x then p else q) = if here c r h v then Z.max 0 (v_count v) * v_size v else 0) end.
    { destruct (is_variable _).
      - rewrite MAP by reflexivity. rewrite seq_length, N. destruct (here c r h v); lia.
      - rewrite bits_repeat, N, ONE by reflexivity. destruct (here c r h v); lia. }
    destruct (is_array v); [|exact G]. destruct (usage_list (v_usage v)) as [|u [|? ?]]; try exact G.
    rewrite <- G. match goal with |- report_bits c r (?a :: ?l ++ ?z) = _ => change (a :: l ++ z) with ([a] ++ l ++ z) end.
    rewrite !report_bits_app. unfold report_bits at 1 3. cbn [layout flat_map event_bits app filter map fold_right]. lia.
  - cbn. destruct (here c r h v); reflexivity.
  - apply gap_bits.
Qed.

Lemma laid_bits c r : forall l l' y, Forall labelled_leaf l -> map bare_leaf l = map bare_leaf l' ->
  Forall (fun x => match x with LVal _ v => wanted_alignment v <= 1 | _ => True end) l ->
  report_bits c r (laid_out y l l') = fold_right Z.add 0 (map bits (kind_values c (values_of r l))).
Proof.
  induction l as [|x l IH]; intros l' y L E U; [reflexivity|]. destruct l' as [|x' l']; [discriminate E|]. cbn [map] in E. injection E as E1 E2.
  inversion L as [|? ? L1 L2]; subst. inversion U as [|? ? U1 U2]; subst. destruct x as [k u| |h v].
  - destruct u as [u|]; [|destruct L1]. cbn [laid_out values_of flat_map app]. fold (values_of r l).
    match goal with |- report_bits c r (?a :: ?l) = _ => change (a :: l) with ([a] ++ l) end. rewrite report_bits_app, IH by assumption. reflexivity.
  - cbn [laid_out values_of flat_map app]. fold (values_of r l).
    match goal with |- report_bits c r (?a :: ?l) = _ => change (a :: l) with ([a] ++ l) end. rewrite report_bits_app, IH by assumption. reflexivity.
  - destruct x' as [k' u'| |h' v']; try discriminate E1. cbn [bare_leaf] in E1. injection E1 as <-. cbn [laid_out values_of flat_map].
    fold (values_of r l). cbv zeta. rewrite !report_bits_app, gap_bits, own_bits, IH by assumption.
    unfold fill. replace (1 <? wanted_alignment v) with false by lia. unfold here. destruct (h =? r).
    + cbn [app kind_values filter]. fold (kind_values c (values_of r l)). rewrite andb_true_r. destruct (icls_eqb _ c); cbn [map fold_right]; lia.
    + rewrite andb_false_r. cbn [app]. lia.
Qed.

Lemma threaded_labelled t r r' : Forall labelled_leaf (fst (entered r t)) -> Forall labelled_leaf (fst (threaded r' t)).
Proof.
  intros F. pose proof (same_leaves t r' r) as E. revert E F. generalize (fst (threaded r' t)) (fst (entered r t)).
  induction l as [|x l IH]; intros l0 E F; [constructor|]. destruct l0 as [|y l0]; [discriminate E|]. cbn [map] in E. injection E as E1 E2.
  inversion F; subst. constructor; [|eapply IH; eauto]. destruct x, y; try discriminate E1; try exact I. cbn in E1. injection E1 as -> ->. assumption.
Qed.

Lemma c102 db opt t b m ev c r : well_formed t -> (opt = true -> closed_tree t) -> compile db opt t = Ok b -> host_reads m b ev -> unaligned t ->
  report_bits c r ev = total_bits c r t.
Proof.
  intros W L C R U. assert (E : report_bits c r ev = report_bits c r (tree_layout t)).
  { destruct opt; [apply (c76_places db t b m ev W (L eq_refl) C R)|]. apply (c76 db t b W C) in R. rewrite R. reflexivity. }
  rewrite E. unfold tree_layout, total_bits. apply laid_bits; [|apply same_leaves|exact U].
  eapply threaded_labelled. eapply compiled_labelled. exact C.
Qed.

Lemma fill_bounds a n : 0 <= fill a n <= Z.max 0 (a - 1).
Proof. unfold fill. destruct (1 <? a) eqn:E; [|lia]. pose proof (Z.mod_pos_bound (- n) a). lia. Qed.

Lemma laid_bounds c r : forall l l' y, Forall labelled_leaf l -> map bare_leaf l = map bare_leaf l' ->
  let vs := kind_values c (values_of r l) in
  0 <= report_bits c r (laid_out y l l') - fold_right Z.add 0 (map bits vs) <= fold_right Z.add 0 (map (fun v => Z.max 0 (wanted_alignment v - 1)) vs).
Proof.
  cbv zeta. induction l as [|x l IH]; intros l' y L E; [cbn; lia|]. destruct l' as [|x' l']; [discriminate E|]. cbn [map] in E. injection E as E1 E2.
  inversion L as [|? ? L1 L2]; subst. destruct x as [k u| |h v].
  - destruct u as [u|]; [|destruct L1]. cbn [laid_out values_of flat_map app]. fold (values_of r l).
    match goal with |- context[report_bits c r (?a :: ?l)] => change (a :: l) with ([a] ++ l) end. rewrite report_bits_app. exact (IH l' y L2 E2).
  - cbn [laid_out values_of flat_map app]. fold (values_of r l).
    match goal with |- context[report_bits c r (?a :: ?l)] => change (a :: l) with ([a] ++ l) end. rewrite report_bits_app. exact (IH l' y L2 E2).
  - destruct x' as [k' u'| |h' v']; try discriminate E1. cbn [bare_leaf] in E1. injection E1 as <-. cbn [laid_out values_of flat_map].
    fold (values_of r l). cbv zeta. rewrite !report_bits_app, gap_bits, own_bits.
    match goal with |- context[fill ?a ?n] => pose proof (fill_bounds a n) as FB; set (p := fill a n) in * end.
    match goal with |- context[laid_out ?y1 l l'] => specialize (IH l' y1 L2 E2); set (lo := laid_out y1 l l') in * end.
    unfold here. destruct (h =? r).
    + cbn [app kind_values filter]. fold (kind_values c (values_of r l)). rewrite andb_true_r. destruct (icls_eqb _ c); cbn [map fold_right]; lia.
    + rewrite andb_false_r. cbn [app]. lia.
Qed.

Lemma c102_bounds db opt t b m ev c r : well_formed t -> (opt = true -> closed_tree t) -> compile db opt t = Ok b -> host_reads m b ev ->
  total_bits c r t <= report_bits c r ev <= total_bits c r t + slack_bits c r t.
Proof.
  intros W L C R. assert (E : report_bits c r ev = report_bits c r (tree_layout t)).
  { destruct opt; [apply (c76_places db t b m ev W (L eq_refl) C R)|]. apply (c76 db t b W C) in R. rewrite R. reflexivity. }
  rewrite E. unfold tree_layout, total_bits, slack_bits.
  pose proof (laid_bounds c r (fst (threaded 0 t)) (fst (entered 0 t)) []) as X. cbv zeta in X.
  specialize (X (threaded_labelled t 0 0 (compiled_labelled _ _ _ _ C)) (same_leaves t 0 0)). lia.
Qed.
