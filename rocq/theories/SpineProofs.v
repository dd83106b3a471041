(* SpineProofs.v -- proofs about trees that differ in their collections only *)
From Coq Require Import ZArith List Bool Lia ZifyBool ZifyNat String.
From Verif Require Import Py Usage Item Parser Optimizer Descriptor HidSpec Spec StreamSpec OptSpec TreeSpec LayoutSpec ItemFacts ParserFacts StreamProofs StreamTree
  OptFacts PassFacts TreeOpt LayoutProofs ApartSpec ApartProofs LengthSpec LengthProofs SpineSpec.
Import ListNotations.
Local Open Scope list_scope.
Local Open Scope Z_scope.

Definition spine_all (ms : list tree) : list entry := flat_map spine ms.
Lemma spine_all_eq ms : (fix all ms := match ms with [] => [] | m :: r => spine m ++ all r end) ms = spine_all ms.
Proof. induction ms as [|m ms IH]; [reflexivity|]. cbn [spine_all flat_map]. rewrite IH. reflexivity. Qed.

(** the report after a Report: [g r id] *)
Fixpoint walk (g : Z -> Z -> Z) (r : Z) (l : list entry) : list leaf * Z :=
  match l with
  | [] => ([], r)
  | EReport id :: l => walk g (g r id) l
  | EValue v :: l => let (a, r') := walk g r l in (LVal r v :: a, r')
  end.

Lemma walk_app g a b : forall r, walk g r (a ++ b) = let (x, r1) := walk g r a in let (y, r2) := walk g r1 b in (x ++ y, r2).
Proof.
  induction a as [|[id|v] a IH]; intros r; cbn [app walk].
  - destruct (walk g r b). reflexivity.
  - apply IH.
  - rewrite IH. destruct (walk g r a) as [x r1]. destruct (walk g r1 b). reflexivity.
Qed.

Definition vals (ls : list leaf) : list leaf := filter (fun x => match x with LVal _ _ => true | _ => false end) ls.
Lemma vals_app a b : vals (a ++ b) = vals a ++ vals b.
Proof. apply filter_app. Qed.

Definition by_number (r id : Z) : Z := if id =? 0 then r else id.
Definition by_entry (r id : Z) : Z := id.

Lemma threaded_walk t : forall r, walk by_number r (spine t) = (vals (fst (threaded r t)), snd (threaded r t)).
Proof.
  assert (ALL : forall ms, Forall (fun t => forall r, walk by_number r (spine t) = (vals (fst (threaded r t)), snd (threaded r t))) ms ->
    forall r, walk by_number r (spine_all ms) = (vals (fst (threaded_all r ms)), snd (threaded_all r ms))).
  { induction 1 as [|m ms H _ IH]; intros r; [reflexivity|]. cbn [spine_all flat_map threaded_all]. rewrite walk_app, H.
    destruct (threaded r m) as [a r1]. cbn [fst snd]. fold (spine_all ms). rewrite IH. destruct (threaded_all r1 ms) as [b r2]. cbn [fst snd].
    rewrite vals_app. reflexivity. }
  induction t as [v|id ms IH|ms IH|k u ms IH] using tree_rect2; intros r; cbn [spine]; rewrite ?spine_all_eq.
  - reflexivity.
  - rewrite threaded_report. cbn [walk]. apply ALL. exact IH.
  - rewrite threaded_top. apply ALL. exact IH.
  - rewrite threaded_coll, (ALL ms IH). destruct (threaded_all r ms) as [a r1]. cbn [fst snd].
    change (vals (LOpen k u :: a ++ [LClose])) with (vals (a ++ [LClose])). rewrite vals_app, app_nil_r. reflexivity.
Qed.

Lemma entered_walk t : forall r, walk by_entry r (spine t) = (vals (fst (entered r t)), snd (entered r t)).
Proof.
  assert (ALL : forall ms, Forall (fun t => forall r, walk by_entry r (spine t) = (vals (fst (entered r t)), snd (entered r t))) ms ->
    forall r, walk by_entry r (spine_all ms) = (vals (fst (entered_all r ms)), snd (entered_all r ms))).
  { induction 1 as [|m ms H _ IH]; intros r; [reflexivity|]. cbn [spine_all flat_map entered_all]. rewrite walk_app, H.
    destruct (entered r m) as [a r1]. cbn [fst snd]. fold (spine_all ms). rewrite IH. destruct (entered_all r1 ms) as [b r2]. cbn [fst snd].
    rewrite vals_app. reflexivity. }
  induction t as [v|id ms IH|ms IH|k u ms IH] using tree_rect2; intros r; cbn [spine]; rewrite ?spine_all_eq.
  - reflexivity.
  - rewrite entered_report. cbn [walk]. apply ALL. exact IH.
  - rewrite entered_top. apply ALL. exact IH.
  - rewrite entered_coll, (ALL ms IH). destruct (entered_all r ms) as [a r1]. cbn [fst snd].
    change (vals (LOpen k u :: a ++ [LClose])) with (vals (a ++ [LClose])). rewrite vals_app, app_nil_r. reflexivity.
Qed.

Lemma laid_vals : forall l l' y, Forall labelled_leaf l -> map LengthProofs.bare_leaf l = map LengthProofs.bare_leaf l' ->
  fields (laid_out y l l') = fields (laid_out y (vals l) (vals l')).
Proof.
  induction l as [|x l IH]; intros l' y L E; [reflexivity|]. destruct l' as [|x' l']; [discriminate E|]. cbn [map] in E. injection E as E1 E2.
  inversion L as [|? ? L1 L2]; subst. destruct x as [k u| |h v], x' as [k' u'| |h' v']; try discriminate E1.
  - destruct u as [u|]; [|destruct L1]. exact (IH l' y L2 E2).
  - exact (IH l' y L2 E2).
  - cbn [vals filter laid_out]. fold (vals l) (vals l'). unfold fields in *. rewrite !filter_app. do 2 f_equal. apply IH; assumption.
Qed.

Lemma layout_spine t t' : spine t = spine t' -> Forall labelled_leaf (fst (entered 0 t)) -> Forall labelled_leaf (fst (entered 0 t')) ->
  fields (tree_layout t) = fields (tree_layout t').
Proof.
  intros E L L'. unfold tree_layout. rewrite (laid_vals (fst (threaded 0 t))), (laid_vals (fst (threaded 0 t'))) by (try apply same_leaves; eapply threaded_labelled; eauto).
  pose proof (f_equal fst (threaded_walk t 0)) as A. pose proof (f_equal fst (threaded_walk t' 0)) as A'.
  pose proof (f_equal fst (entered_walk t 0)) as B. pose proof (f_equal fst (entered_walk t' 0)) as B'. cbn [fst] in A, A', B, B'.
  rewrite <- A, <- A', <- B, <- B', E. reflexivity.
Qed.

Lemma c103 db db' t t' b b' m m' ev ev' : well_formed t -> well_formed t' -> compile db false t = Ok b -> compile db' false t' = Ok b' ->
  spine t = spine t' -> host_reads m b ev -> host_reads m' b' ev' -> fields ev = fields ev'.
Proof.
  intros W W' C C' E R R'. apply (c76 db t b W C) in R. apply (c76 db' t' b' W' C') in R'. subst.
  apply layout_spine; auto; eapply compiled_labelled; eauto.
Qed.

Lemma field_places ev : map place_of (fields ev) = filter (fun p => match p with PField _ _ _ => true | _ => false end) (map place_of ev).
Proof. induction ev as [|e ev IH]; [reflexivity|]. unfold fields in *. cbn [map filter]. destruct e; cbn [place_of map]; rewrite ?IH; try reflexivity; exact IH. Qed.

Lemma c103_places db db' opt opt' t t' b b' m m' ev ev' : well_formed t -> well_formed t' ->
  (opt = true -> closed_tree t) -> (opt' = true -> closed_tree t') -> compile db opt t = Ok b -> compile db' opt' t' = Ok b' ->
  spine t = spine t' -> host_reads m b ev -> host_reads m' b' ev' -> map place_of (fields ev) = map place_of (fields ev').
Proof.
  intros W W' L L' C C' E R R'. rewrite !field_places, (read_places _ _ _ _ _ _ W L C R), (read_places _ _ _ _ _ _ W' L' C' R').
  rewrite <- !field_places. f_equal. apply layout_spine; auto; eapply compiled_labelled; eauto.
Qed.
