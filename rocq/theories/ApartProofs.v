(* ApartProofs.v -- proofs that reports do not influence each other *)
From Coq Require Import ZArith List Bool Lia ZifyBool ZifyNat String.
From Verif Require Import Py Usage Item Parser Optimizer Descriptor HidSpec Spec StreamSpec OptSpec TreeSpec LayoutSpec ItemFacts ParserFacts StreamProofs StreamTree
  OptFacts PassFacts TreeOpt LayoutProofs IdsSpec IdsProofs NumberedSpec NumberedProofs ApartSpec.
Import ListNotations.
Local Open Scope list_scope.
Local Open Scope Z_scope.

Lemma fields_app r a b : fields_of r (a ++ b) = fields_of r a ++ fields_of r b.
Proof. apply filter_app. Qed.

Lemma fields_none r ev : Forall (fun x => x <> r) (field_ids ev) -> fields_of r ev = [].
Proof.
  induction ev as [|e ev IH]; intros F; [reflexivity|]. change (e :: ev) with ([e] ++ ev) in F. rewrite field_ids_app in F. apply Forall_app in F. destruct F as [F1 F2].
  cbn [fields_of filter]. fold (fields_of r ev). rewrite (IH F2).
  destruct e; cbn in F1; try reflexivity; inversion F1; subst; match goal with |- context[?x =? r] => replace (x =? r) with false by lia end; reflexivity.
Qed.

Lemma unzeroed t : ~ In (Some 0) (marks t) -> forall r, threaded r t = entered r t.
Proof.
  assert (ALL : forall ms, Forall (fun t => ~ In (Some 0) (marks t) -> forall r, threaded r t = entered r t) ms ->
    ~ In (Some 0) (marks_all ms) -> forall r, threaded_all r ms = entered_all r ms).
  { induction 1 as [|m ms H _ IH]; intros N r; [reflexivity|]. cbn [threaded_all entered_all]. cbn [marks_all flat_map] in N.
    rewrite H by (intros I; apply N; apply in_or_app; auto). destruct (entered r m) as [a r1].
    rewrite IH by (intros I; apply N; apply in_or_app; auto). reflexivity. }
  induction t as [v|id ms IH|ms IH|k u ms IH] using tree_rect2; cbn [marks]; rewrite ?marks_all_eq; intros N r.
  - reflexivity.
  - rewrite threaded_report, entered_report. rewrite (ALL ms IH) by (intros I; apply N; right; exact I).
    destruct (id =? 0) eqn:E; [|reflexivity]. elim N. left. f_equal. lia.
  - rewrite threaded_top, entered_top. auto.
  - rewrite threaded_coll, entered_coll, (ALL ms IH N). reflexivity.
Qed.

Definition labelled_leaf (x : leaf) : Prop := match x with LOpen _ None => False | _ => True end.

Lemma labelled_leaves t : (forall k ms, ~ inside (TColl k None ms) t) -> forall r, Forall labelled_leaf (fst (entered r t)).
Proof.
  assert (ALL : forall ms, Forall (fun t => (forall k ms, ~ inside (TColl k None ms) t) -> forall r, Forall labelled_leaf (fst (entered r t))) ms ->
    (forall m k x, In m ms -> ~ inside (TColl k None x) m) -> forall r, Forall labelled_leaf (fst (entered_all r ms))).
  { induction 1 as [|m ms H _ IH]; intros N r; [constructor|]. cbn [entered_all].
    specialize (H (fun k x => N m k x (or_introl eq_refl)) r). destruct (entered r m) as [a r1].
    specialize (IH (fun m' k x I => N m' k x (or_intror I)) r1). destruct (entered_all r1 ms). cbn [fst] in *. apply Forall_app. auto. }
  induction t as [v|id ms IH|ms IH|k u ms IH] using tree_rect2; intros N r.
  - repeat constructor.
  - rewrite entered_report. apply (ALL ms IH). intros m k x I J. apply (N k x). eapply in_report; eauto.
  - rewrite entered_top. apply (ALL ms IH). intros m k x I J. apply (N k x). eapply in_top; eauto.
  - rewrite entered_coll. assert (X : Forall labelled_leaf (fst (entered_all r ms))) by (apply (ALL ms IH); intros m k' x I J; apply (N k' x); eapply in_coll; eauto).
    destruct (entered_all r ms). cbn [fst] in *. constructor; [|apply Forall_app; split; [exact X|repeat constructor]].
    destruct u; [exact I|]. elim (N k ms). apply in_self.
Qed.

Lemma compiled_labelled db opt t b : compile db opt t = Ok b -> Forall labelled_leaf (fst (entered 0 t)).
Proof.
  intros C. apply labelled_leaves. intros k ms J. destruct (c28 db opt t) as [e X]; [|congruence]. right. left. exists k, ms. exact J.
Qed.

Definition agree (r : Z) (y y' : tally) : Prop := forall w, counted y w r = counted y' w r.

Lemma counted_cons w c n y way r : counted ((w, c, n) :: y) way r = (if (w =? way) && (c =? r) then n else 0) + counted y way r.
Proof. unfold counted. cbn [filter fst snd]. destruct ((w =? way) && (c =? r)); reflexivity. Qed.

Lemma apart r l : Forall labelled_leaf l -> forall y y', agree r y y' ->
  fields_of r (laid_out y l l) = fields_of r (laid_out y' (map (LVal r) (values_of r l)) (map (LVal r) (values_of r l))).
Proof.
  induction l as [|[k u| |h v] l IH]; intros F y y' A.
  - reflexivity.
  - inversion F as [|? ? F1 F2]; subst. destruct u; [|destruct F1]. exact (IH F2 y y' A).
  - inversion F as [|? ? F1 F2]; subst. exact (IH F2 y y' A).
  - inversion F as [|? ? F1 F2]; subst. cbn [laid_out values_of flat_map]. fold (values_of r l). rewrite !fields_app.
    destruct (h =? r) eqn:E.
    + apply Z.eqb_eq in E. subst h. cbn [app map laid_out]. rewrite !fields_app. rewrite (A (py_int (v_way v))). do 2 f_equal.
      apply (IH F2). intros w. rewrite !counted_cons, (A w). reflexivity.
    + rewrite (fields_none r (gap_events _ _ _)) by (apply gap_ids; lia). rewrite (fields_none r (own_events _ _)) by (apply own_ids; lia).
      cbn [app]. apply (IH F2). intros w. rewrite counted_cons, E, andb_false_r, (A w). reflexivity.
Qed.

Lemma layout_apart r t t' : ~ In (Some 0) (marks t) -> ~ In (Some 0) (marks t') ->
  Forall labelled_leaf (fst (entered 0 t)) -> Forall labelled_leaf (fst (entered 0 t')) ->
  values_of r (fst (entered 0 t)) = values_of r (fst (entered 0 t')) -> fields_of r (tree_layout t) = fields_of r (tree_layout t').
Proof.
  intros N N' L L' E. unfold tree_layout. rewrite (unzeroed t N), (unzeroed t' N').
  rewrite (apart r _ L [] []), (apart r _ L' [] []) by (intros w; reflexivity). rewrite E. reflexivity.
Qed.

Lemma c99 db db' r t t' b b' m m' ev ev' : well_formed t -> well_formed t' -> compile db false t = Ok b -> compile db' false t' = Ok b' ->
  ~ In (Some 0) (marks t) -> ~ In (Some 0) (marks t') -> values_of r (fst (entered 0 t)) = values_of r (fst (entered 0 t')) ->
  host_reads m b ev -> host_reads m' b' ev' -> fields_of r ev = fields_of r ev'.
Proof.
  intros W W' C C' N N' E R R'. apply (c76 db t b W C) in R. apply (c76 db' t' b' W' C') in R'. subst.
  apply layout_apart; auto; eapply compiled_labelled; eauto.
Qed.

Definition place_in (r : Z) (p : OptSpec.place) : bool := match p with PField _ q _ => q =? r | _ => false end.

Lemma place_fields r ev : map place_of (fields_of r ev) = filter (place_in r) (map place_of ev).
Proof.
  induction ev as [|e ev IH]; [reflexivity|]. cbn [map filter fields_of]. fold (fields_of r ev). destruct e; cbn [place_of place_in]; [exact IH|exact IH|..];
    match goal with |- context[?x =? r] => destruct (x =? r) end; cbn [map place_of]; rewrite IH; reflexivity.
Qed.

Lemma read_places db opt t b m ev : well_formed t -> (opt = true -> closed_tree t) -> compile db opt t = Ok b -> host_reads m b ev ->
  map place_of ev = map place_of (tree_layout t).
Proof.
  intros WF CL C R. destruct opt.
  - apply (c76_places db t b m ev WF (CL eq_refl) C R).
  - apply (c76 db t b WF C) in R. rewrite R. reflexivity.
Qed.

Lemma c99_places db db' opt opt' r t t' b b' m m' ev ev' : well_formed t -> well_formed t' ->
  (opt = true -> closed_tree t) -> (opt' = true -> closed_tree t') -> compile db opt t = Ok b -> compile db' opt' t' = Ok b' ->
  ~ In (Some 0) (marks t) -> ~ In (Some 0) (marks t') -> values_of r (fst (entered 0 t)) = values_of r (fst (entered 0 t')) ->
  host_reads m b ev -> host_reads m' b' ev' -> map place_of (fields_of r ev) = map place_of (fields_of r ev').
Proof.
  intros W W' L L' C C' N N' E R R'. rewrite !place_fields, (read_places _ _ _ _ _ _ W L C R), (read_places _ _ _ _ _ _ W' L' C' R').
  rewrite <- !place_fields. f_equal. apply layout_apart; auto; eapply compiled_labelled; eauto.
Qed.

(* ------------------------------------------------------------------ *)
(** Inputs, Outputs and Features *)

Lemma kind_app c a b : kind_of c (a ++ b) = kind_of c a ++ kind_of c b.
Proof. apply filter_app. Qed.

Lemma kind_fields c r ev : kind_of c (fields_of r ev) = fields_of r (kind_of c ev).
Proof.
  induction ev as [|e ev IH]; [reflexivity|]. unfold kind_of, fields_of in *. cbn [filter]. destruct e; try exact IH;
    repeat match goal with |- context[if ?x then _ else _] => destruct x eqn:? end; cbn [filter]; rewrite ?IH;
    repeat match goal with H : ?x = _ |- context[?x] => rewrite H end; rewrite ?IH; reflexivity.
Qed.

Definition of_kind (c : icls) (e : event) : Prop :=
  match e with EvColl _ _ _ _ _ | EvEnd => True | EvPad w _ _ _ => w = c | EvVar a _ _ _ _ => f_way a = c | EvArr a _ _ _ _ => f_way a = c end.

Lemma kind_none c k ev : Forall (of_kind k) ev -> icls_eqb k c = false -> kind_of c ev = [].
Proof.
  intros F N. induction F as [|e ev H _ IH]; [reflexivity|]. unfold kind_of in *. cbn [filter]. destruct e; cbn [of_kind] in H; subst; rewrite ?N; exact IH.
Qed.

Lemma gap_kind h v p : Forall (of_kind (way_class (py_int (v_way v)))) (gap_events h v p).
Proof. unfold gap_events. destruct (p =? 0); repeat constructor. Qed.

Lemma own_kind h v : Forall (of_kind (way_class (py_int (v_way v)))) (own_events h v).
Proof.
  assert (REP : forall (P : event -> Prop) e n, P e -> Forall P (repeat e n)).
  { intros P e n H. induction n as [|n IH]; constructor; assumption. }
  unfold own_events. destruct (v_kind v); [|constructor|apply gap_kind].
  unfold value_events. destruct (is_constant _); [apply REP; reflexivity|]. cbv zeta.
  match goal with |- context[if is_variable ?x then ?p else ?q] => assert (G : Forall (of_kind (way_class (py_int (v_way v)))) (if is_variable x then p else q)) end.
  { destruct (is_variable _); [apply Forall_map, Forall_forall; intros k _; reflexivity|apply REP; reflexivity]. }
  destruct (is_array v); [|exact G]. destruct (usage_list (v_usage v)) as [|u [|? ?]]; try exact G.
  constructor; [exact I|]. apply Forall_app. split; [exact G|repeat constructor].
Qed.

Definition agree_kind (c : icls) (r : Z) (y y' : tally) : Prop := forall w, way_class w = c -> counted y w r = counted y' w r.

Lemma kind_apart c r vs : forall y y', agree_kind c r y y' ->
  kind_of c (laid_out y (map (LVal r) vs) (map (LVal r) vs)) =
  kind_of c (laid_out y' (map (LVal r) (kind_values c vs)) (map (LVal r) (kind_values c vs))).
Proof.
  induction vs as [|v vs IH]; intros y y' A; [reflexivity|]. cbn [map laid_out kind_values filter]. fold (kind_values c vs). rewrite !kind_app.
  destruct (icls_eqb (way_class (py_int (v_way v))) c) eqn:E.
  - apply icls_eqb_eq in E. cbn [map laid_out]. rewrite !kind_app. rewrite (A _ E). do 2 f_equal.
    apply IH. intros w W. rewrite !counted_cons, (A w W). reflexivity.
  - rewrite (kind_none c _ _ (gap_kind _ _ _) E), (kind_none c _ _ (own_kind _ _) E). cbn [app]. apply IH. intros w W. rewrite counted_cons, (A w W).
    destruct (py_int (v_way v) =? w) eqn:Q; [|reflexivity]. apply Z.eqb_eq in Q. rewrite Q, W in E.
    assert (X : icls_eqb c c = true) by (apply icls_eqb_eq; reflexivity). congruence.
Qed.

Lemma layout_kinds c r t t' : ~ In (Some 0) (marks t) -> ~ In (Some 0) (marks t') ->
  Forall labelled_leaf (fst (entered 0 t)) -> Forall labelled_leaf (fst (entered 0 t')) ->
  kind_values c (values_of r (fst (entered 0 t))) = kind_values c (values_of r (fst (entered 0 t'))) ->
  kind_of c (fields_of r (tree_layout t)) = kind_of c (fields_of r (tree_layout t')).
Proof.
  intros N N' L L' E. unfold tree_layout. rewrite (unzeroed t N), (unzeroed t' N').
  rewrite (apart r _ L [] []), (apart r _ L' [] []) by (intros w; reflexivity).
  rewrite !kind_fields, (kind_apart c r _ [] []), (kind_apart c r (values_of r (fst (entered 0 t'))) [] []) by (intros w _; reflexivity).
  rewrite E. reflexivity.
Qed.

Lemma c99_kinds db db' c r t t' b b' m m' ev ev' : well_formed t -> well_formed t' -> compile db false t = Ok b -> compile db' false t' = Ok b' ->
  ~ In (Some 0) (marks t) -> ~ In (Some 0) (marks t') ->
  kind_values c (values_of r (fst (entered 0 t))) = kind_values c (values_of r (fst (entered 0 t'))) ->
  host_reads m b ev -> host_reads m' b' ev' -> kind_of c (fields_of r ev) = kind_of c (fields_of r ev').
Proof.
  intros W W' C C' N N' E R R'. apply (c76 db t b W C) in R. apply (c76 db' t' b' W' C') in R'. subst.
  apply layout_kinds; auto; eapply compiled_labelled; eauto.
Qed.
