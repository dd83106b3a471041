(* RenumberProofs.v -- proofs about giving Reports other ids *)
From Coq Require Import ZArith List Bool Lia ZifyBool ZifyNat String.
From Verif Require Import Py Usage Item Parser Optimizer Descriptor HidSpec Spec StreamSpec OptSpec TreeSpec LayoutSpec ItemFacts ParserFacts StreamProofs StreamTree
  OptFacts PassFacts TreeOpt LayoutProofs DumpSpec AcceptSpec CompileAccept NumberedSpec NumberedProofs ApartSpec ApartProofs RenumberSpec.
Import ListNotations.
Local Open Scope list_scope.
Local Open Scope Z_scope.

Definition renumber_leaf (f : Z -> Z) (x : leaf) : leaf := match x with LVal r v => LVal (f r) v | _ => x end.

Lemma f_zero f z : renumbering f -> (f z =? 0) = (z =? 0).
Proof. intros [Z I]. destruct (z =? 0) eqn:E; [apply Z.eqb_eq in E; subst; lia|]. destruct (f z =? 0) eqn:E1; [|reflexivity]. apply Z.eqb_eq in E1. rewrite <- Z in E1. apply I in E1. lia. Qed.

Lemma f_eqb f a b : renumbering f -> (f a =? f b) = (a =? b).
Proof. intros [_ I]. destruct (a =? b) eqn:E; [apply Z.eqb_eq in E; subst; lia|]. destruct (f a =? f b) eqn:E1; [|reflexivity]. apply Z.eqb_eq in E1. apply I in E1. lia. Qed.

Lemma renumber_threaded f t : renumbering f -> forall r,
  threaded (f r) (renumber f t) = (map (renumber_leaf f) (fst (threaded r t)), f (snd (threaded r t))).
Proof.
  intros R.
  assert (ALL : forall ms, Forall (fun t => forall r, threaded (f r) (renumber f t) = (map (renumber_leaf f) (fst (threaded r t)), f (snd (threaded r t)))) ms ->
    forall r, threaded_all (f r) (map (renumber f) ms) = (map (renumber_leaf f) (fst (threaded_all r ms)), f (snd (threaded_all r ms)))).
  { induction 1 as [|m ms H _ IH]; intros r; [reflexivity|]. cbn [map threaded_all]. rewrite H. destruct (threaded r m) as [a r1]. cbn [fst snd].
    rewrite IH. destruct (threaded_all r1 ms) as [b r2]. cbn [fst snd]. rewrite map_app. reflexivity. }
  induction t as [v|id ms IH|ms IH|k u ms IH] using tree_rect2; intros r; cbn [renumber].
  - reflexivity.
  - rewrite !threaded_report, f_zero by exact R. destruct (id =? 0); apply ALL; exact IH.
  - rewrite !threaded_top. apply ALL. exact IH.
  - rewrite !threaded_coll, (ALL ms IH). destruct (threaded_all r ms) as [a r1]. cbn [fst snd map renumber_leaf]. rewrite map_app. reflexivity.
Qed.

Lemma renumber_entered f t : forall r,
  entered (f r) (renumber f t) = (map (renumber_leaf f) (fst (entered r t)), f (snd (entered r t))).
Proof.
  assert (ALL : forall ms, Forall (fun t => forall r, entered (f r) (renumber f t) = (map (renumber_leaf f) (fst (entered r t)), f (snd (entered r t)))) ms ->
    forall r, entered_all (f r) (map (renumber f) ms) = (map (renumber_leaf f) (fst (entered_all r ms)), f (snd (entered_all r ms)))).
  { induction 1 as [|m ms H _ IH]; intros r; [reflexivity|]. cbn [map entered_all]. rewrite H. destruct (entered r m) as [a r1]. cbn [fst snd].
    rewrite IH. destruct (entered_all r1 ms) as [b r2]. cbn [fst snd]. rewrite map_app. reflexivity. }
  induction t as [v|id ms IH|ms IH|k u ms IH] using tree_rect2; intros r; cbn [renumber].
  - reflexivity.
  - rewrite !entered_report. apply ALL. exact IH.
  - rewrite !entered_top. apply ALL. exact IH.
  - rewrite !entered_coll, (ALL ms IH). destruct (entered_all r ms) as [a r1]. cbn [fst snd map renumber_leaf]. rewrite map_app. reflexivity.
Qed.

Lemma renumber_gap f h v p : gap_events (f h) v p = map (renumber_event f) (gap_events h v p).
Proof. unfold gap_events. destruct (p =? 0); reflexivity. Qed.

Lemma map_rep {A B} (g : A -> B) x n : map g (repeat x n) = repeat (g x) n.
Proof. induction n as [|n IH]; [reflexivity|]. cbn [repeat map]. rewrite IH. reflexivity. Qed.

Lemma renumber_own f h v : own_events (f h) v = map (renumber_event f) (own_events h v).
Proof.
  unfold own_events. destruct (v_kind v); [|reflexivity|apply renumber_gap].
  unfold value_events. destruct (is_constant _); [rewrite map_rep; reflexivity|]. cbv zeta.
  destruct (is_variable _); destruct (is_array v); try destruct (usage_list (v_usage v)) as [|u [|? ?]];
    cbn [map renumber_event]; rewrite ?map_app, ?map_map, ?map_rep; reflexivity.
Qed.

Definition renamed (f : Z -> Z) (y y' : tally) : Prop := forall w c, counted y' w (f c) = counted y w c.

Lemma renumber_laid f : renumbering f -> forall l l' y y', renamed f y y' ->
  laid_out y' (map (renumber_leaf f) l) (map (renumber_leaf f) l') = map (renumber_event f) (laid_out y l l').
Proof.
  intros R. induction l as [|[k u| |h v] l IH]; intros l' y y' Y; cbn [map renumber_leaf laid_out].
  - reflexivity.
  - destruct u; [|reflexivity]. destruct l'; [reflexivity|]. cbn [map]. rewrite (IH _ y y' Y). reflexivity.
  - destruct l'; [reflexivity|]. cbn [map]. rewrite (IH _ y y' Y). reflexivity.
  - destruct l' as [|[k u| |c w] l']; try reflexivity. cbn [map renumber_leaf]. cbv zeta. rewrite !map_app, Y, renumber_gap, renumber_own. do 2 f_equal.
    apply IH. intros w' c'. rewrite !counted_cons, Y, f_eqb by exact R. reflexivity.
Qed.

Lemma renumber_layout f t : renumbering f -> tree_layout (renumber f t) = map (renumber_event f) (tree_layout t).
Proof.
  intros R. pose proof (renumber_threaded f t R 0) as T. pose proof (renumber_entered f t 0) as E. rewrite (proj1 R) in T, E.
  unfold tree_layout. rewrite T, E. cbn [fst]. apply renumber_laid; [exact R|]. intros w c. reflexivity.
Qed.

Lemma renumber_well_formed f t : well_formed t -> well_formed (renumber f t).
Proof.
  assert (ALL : forall ms, Forall (fun t => well_formed t -> well_formed (renumber f t)) ms ->
    (fix all ms := match ms with [] => True | m :: r => well_formed m /\ all r end) ms ->
    (fix all ms := match ms with [] => True | m :: r => well_formed m /\ all r end) (map (renumber f) ms)).
  { induction 1 as [|m ms H _ IH]; [intros X; exact X|]. intros [A B]. split; [exact (H A)|exact (IH B)]. }
  induction t as [v|id ms IH|ms IH|k u ms IH] using tree_rect2; cbn [renumber well_formed]; intros A.
  - exact A.
  - exact (ALL ms IH A).
  - exact (ALL ms IH A).
  - destruct A as [A B]. split; [exact A|exact (ALL ms IH B)].
Qed.

Lemma renumber_closed f t : closed_tree t -> closed_tree (renumber f t).
Proof. induction 1; cbn [renumber]; rewrite ?map_app; constructor; assumption. Qed.

Lemma c100 db db' f t b b' m m' ev ev' : renumbering f -> well_formed t -> compile db false t = Ok b -> compile db' false (renumber f t) = Ok b' ->
  host_reads m b ev -> host_reads m' b' ev' -> ev' = map (renumber_event f) ev.
Proof.
  intros R W C C' H H'. apply (c76 db t b W C) in H. apply (c76 db' _ b' (renumber_well_formed f t W) C') in H'. subst. apply renumber_layout. exact R.
Qed.

Lemma renumber_places f a b : map place_of a = map place_of b -> map place_of (map (renumber_event f) a) = map place_of (map (renumber_event f) b).
Proof.
  revert b. induction a as [|x a IH]; intros [|y b] E; try discriminate E; [reflexivity|]. cbn [map] in *. injection E as E1 E2. f_equal; [|apply IH; exact E2].
  destruct x, y; cbn in *; congruence.
Qed.

Lemma c100_places db db' opt opt' f t b b' m m' ev ev' : renumbering f -> well_formed t -> (opt = true \/ opt' = true -> closed_tree t) ->
  compile db opt t = Ok b -> compile db' opt' (renumber f t) = Ok b' ->
  host_reads m b ev -> host_reads m' b' ev' -> map place_of ev' = map place_of (map (renumber_event f) ev).
Proof.
  intros R W L C C' H H'. rewrite (read_places db' opt' _ b' m' ev' (renumber_well_formed f t W) (fun e => renumber_closed f t (L (or_intror e))) C' H').
  rewrite renumber_layout by exact R. apply renumber_places. symmetry. apply (read_places db opt t b m ev W (fun e => L (or_introl e)) C H).
Qed.

Lemma renumber_kinds f t : kinds_ok t -> kinds_ok (renumber f t).
Proof.
  assert (ALL : forall ms, Forall (fun t => kinds_ok t -> kinds_ok (renumber f t)) ms ->
    (fix all ms := match ms with [] => True | m :: r => kinds_ok m /\ all r end) ms ->
    (fix all ms := match ms with [] => True | m :: r => kinds_ok m /\ all r end) (map (renumber f) ms)).
  { induction 1 as [|m ms H _ IH]; [intros X; exact X|]. intros [A B]. split; [exact (H A)|exact (IH B)]. }
  induction t as [v|id ms IH|ms IH|k u ms IH] using tree_rect2; cbn [renumber kinds_ok]; intros A.
  - exact A.
  - exact (ALL ms IH A).
  - exact (ALL ms IH A).
  - destruct A as [A B]. split; [exact A|exact (ALL ms IH B)].
Qed.

Lemma renumber_ids f t : report_ids (renumber f t) = map f (report_ids t).
Proof.
  assert (ALL : forall ms, Forall (fun t => report_ids (renumber f t) = map f (report_ids t)) ms ->
    flat_map report_ids (map (renumber f) ms) = map f (flat_map report_ids ms)).
  { induction 1 as [|m ms H _ IH]; [reflexivity|]. cbn [map flat_map]. rewrite map_app, H, IH. reflexivity. }
  induction t as [v|id ms IH|ms IH|k u ms IH] using tree_rect2; cbn [renumber report_ids map]; rewrite ?(ALL ms IH); reflexivity.
Qed.

Lemma c100_compiles db f t b : renumbering f -> (forall z, 0 <= z < 256 -> 0 <= f z < 256) -> (forall z, 0 <= z < 2 ^ 32 -> 0 <= f z < 2 ^ 32) ->
  kinds_ok t -> modest t -> compile db false t = Ok b -> exists b', compile db false (renumber f t) = Ok b'.
Proof.
  intros R B U K M C. pose proof (renumber_entered f t 0) as E. rewrite (proj1 R) in E.
  assert (S : storable t) by (apply (c55 db t K M); eexists; exact C). destruct S as [S1 S2].
  apply c55; [apply renumber_kinds; exact K| |].
  - unfold modest in *. rewrite E. cbn [fst]. apply Forall_map. eapply Forall_impl; [|exact M]. intros [k u| |r v] H; exact H.
  - split.
    + rewrite renumber_ids. apply Forall_map. eapply Forall_impl; [|exact S1]. intros z H. apply U. exact H.
    + rewrite E. cbn [fst]. apply Forall_map. eapply Forall_impl; [|exact S2]. intros [k u| |r v] H; try exact H.
      cbn [renumber_leaf storable_leaf] in *.
      assert (CO : countable r v -> countable (f r) v) by (intros [A D]; split; [exact A|exact (B r D)]).
      destruct (v_kind v); [destruct H; auto| |]; intros N; specialize (H N); [auto|destruct H; auto].
Qed.
