(* NameFacts.v -- names of constants do not reach the output (C51) *)
From Coq Require Import ZifyBool ZifyNat.
From Verif Require Import Py Usage Item Parser Optimizer Descriptor ItemFacts ParserFacts.
Ltac Zify.zify_post_hook ::= Z.div_mod_to_equations.

(** Equal but for names.  Whether the value is a named constant counts where
    it decides on an empty payload or on a range. *)
Definition minds (c : icls) : bool := optional c || ikind_eqb (kind_of c) Local.

Record twin (i j : item) : Prop := {
  tw_class : ic j = ic i;
  tw_value : ival j = ival i;
  tw_truth : minds (ic i) = true -> truthy (iv j) = truthy (iv i)
}.

Definition twins := Forall2 twin.

Lemma twins_app a b c d : twins a b -> twins c d -> twins (a ++ c) (b ++ d).
Proof. apply Forall2_app. Qed.

Lemma twins_one i j : twin i j -> twins [i] [j].
Proof. intros T. constructor; [exact T|constructor]. Qed.

Lemma twins_filter f l m : (forall i j, twin i j -> f j = f i) -> twins l m -> twins (filter f l) (filter f m).
Proof. intros H. induction 1 as [|i j l m T F IH]; [constructor|]. cbn [filter]. rewrite (H i j T). destruct (f i); [constructor; assumption|exact IH]. Qed.

Lemma twins_remove n l m : twins l m -> twins (remove_nth n l) (remove_nth n m).
Proof. intros F. revert n. induction F as [|i j l m T F IH]; intros [|n]; cbn [remove_nth]; try constructor; auto. apply IH. Qed.

Lemma twins_length l m : twins l m -> length m = length l.
Proof. induction 1; cbn; congruence. Qed.

Lemma twin_kind i j : twin i j -> ikd j = ikd i.
Proof. intros T. unfold ikd. rewrite (tw_class _ _ T). reflexivity. Qed.

Lemma twin_eqb i j i' j' : twin i i' -> twin j j' -> item_eqb i' j' = item_eqb i j.
Proof. intros T U. unfold item_eqb. rewrite (twin_kind _ _ T), (twin_kind _ _ U), (tw_class _ _ T), (tw_class _ _ U), (tw_value _ _ T), (tw_value _ _ U). reflexivity. Qed.

(* ------------------------------------------------------------------ *)
(** bytes *)

Lemma twin_bytes i j : twin i j -> bytes j = bytes i.
Proof.
  intros T. unfold bytes, bytes_with. rewrite (tw_class _ _ T), (tw_value _ _ T). destruct (optional (ic i)) eqn:O.
  - rewrite (tw_truth _ _ T) by (unfold minds; rewrite O; reflexivity). reflexivity.
  - destruct (negb (_ =? 0)); [reflexivity|]. cbn [bind]. rewrite !andb_false_r.
    replace ((if truthy (iv j) then 1 else 0) <=? 8) with true by (destruct (truthy (iv j)); reflexivity).
    replace ((if truthy (iv i) then 1 else 0) <=? 8) with true by (destruct (truthy (iv i)); reflexivity). reflexivity.
Qed.

Lemma twins_serialize l m : twins l m -> serialize m = serialize l.
Proof. induction 1 as [|i j l m T F IH]; [reflexivity|]. cbn [serialize]. rewrite (twin_bytes i j T), IH. reflexivity. Qed.

(* ------------------------------------------------------------------ *)
(** constructors *)

Definition same_result {A} (R : A -> A -> Prop) (x y : result A) : Prop :=
  match x, y with Ok a, Ok b => R a b | Err e, Err f => e = f | _, _ => False end.

Definition same_request (c : icls) (v w : option pval) : Prop :=
  match v, w with
  | None, None => True
  | Some x, Some y =>
      py_int y = py_int x /\
      (c = Collection -> 0 <= py_int x) /\
      (minds c = true -> is_usage c = true \/ truthy y = truthy x \/ c = Input)
  | _, _ => False
  end.

Lemma init_twin c x y : py_int y = py_int x -> (minds c = true -> truthy y = truthy x) ->
  same_result twin (item_init c (Some x)) (item_init c (Some y)).
Proof.
  intros E T. unfold item_init.
  assert (V : forall v : pval, py_int (if truthy v then v else VInt 0) = py_int v).
  { intros [z| |]; cbn; try reflexivity. destruct (z =? 0) eqn:Z; cbn; lia. }
  assert (TT : forall v : pval, truthy (if truthy v then v else VInt 0) = truthy v).
  { intros v. destruct (truthy v) eqn:Z; [exact Z|reflexivity]. }
  rewrite !V, E. destruct (_ || _); cbn; [|reflexivity]. constructor; cbn [ic]; [reflexivity| |].
  - unfold ival. cbn [iv]. rewrite !V. exact E.
  - intros M. cbn [iv]. rewrite !TT. auto.
Qed.

Lemma lookup_truthy db v : truthy (lookup db v) = true.
Proof. unfold lookup. destruct v as [z| |]; try reflexivity. destruct (negb _); [destruct (db z) as [[n k]|]|]; reflexivity. Qed.

Lemma usual_unit_val v : py_int (usual_unit v) = py_int v.
Proof. unfold usual_unit. destruct (find _ usual_units) as [[[a n] z]|] eqn:F; [|reflexivity]. apply find_some in F. cbn [snd py_int] in *. lia. Qed.

Lemma data_twin c v w : (c = Input \/ c = Output \/ c = Feature) -> same_request c v w -> forall db db',
  same_result twin (mk_item db c v) (mk_item db' c w).
Proof.
  intros C S db db'.
  assert (G : forall v : pval, mk_item db c (Some v) = item_init c (Some (match v with VInt i => VNamed (flags_name i) i | x => x end)) /\
                    mk_item db' c (Some v) = item_init c (Some (match v with VInt i => VNamed (flags_name i) i | x => x end))).
  { intros x. destruct C as [->|[->| ->]]; destruct x; split; reflexivity. }
  destruct v as [x|], w as [y|]; try contradiction.
  - rewrite (proj1 (G x)), (proj2 (G y)). destruct S as [E _]. apply init_twin.
    + destruct x, y; exact E.
    + intros _. destruct x, y; reflexivity.
  - destruct C as [->|[->| ->]]; reflexivity.
Qed.

Lemma collection_twin v w : same_request Collection v w -> forall db db', same_result twin (mk_item db Collection v) (mk_item db' Collection w).
Proof.
  intros S db db'. destruct v as [x|], w as [y|]; try contradiction; [|reflexivity]. destruct S as [E [N _]]. specialize (N eq_refl).
  assert (G : forall db v, 0 <= py_int v -> exists u, mk_item db Collection (Some v) = item_init Collection (Some u) /\ py_int u = py_int v).
  { clear. intros db v N. destruct v as [z|n z|n z k]; [|exists (VNamed n z); split; reflexivity|exists (VUsage n z k); split; reflexivity].
    cbn [py_int] in *. cbn [mk_item length collection_rev]. change (Z.of_nat 7) with 7. destruct (z <? 7) eqn:L; [|exists (VInt z); split; reflexivity].
    assert (z = 0 \/ z = 1 \/ z = 2 \/ z = 3 \/ z = 4 \/ z = 5 \/ z = 6) as D by lia.
    destruct D as [->|[->|[->|[->|[->|[->| ->]]]]]]; eexists; split; reflexivity. }
  destruct (G db x N) as [u [-> U]]. destruct (G db' y ltac:(lia)) as [u' [-> U']]. apply init_twin; [lia|intros M; discriminate M].
Qed.

Lemma item_twin db db' c v w : same_request c v w -> same_result twin (mk_item db c v) (mk_item db' c w).
Proof.
  intros S.
  assert (PLAIN : same_request c v w -> is_usage c = false -> c <> Input -> same_result twin (item_init c v) (item_init c w)).
  { clear. intros S U NI. destruct v as [x|], w as [y|]; try contradiction.
    - destruct S as [E [_ T]]. apply init_twin; [exact E|]. intros M. destruct (T M) as [X|[X|X]]; [congruence|exact X|contradiction].
    - unfold item_init. destruct (_ || _); cbn; [|reflexivity]. constructor; reflexivity. }
  assert (ZERO : (c = EndCollection \/ c = Push \/ c = Pop) -> same_result twin (mk_item db c v) (mk_item db' c w)).
  { clear PLAIN. intros C. destruct v as [x|], w as [y|]; try contradiction.
    - destruct S as [E _]. destruct C as [->|[->| ->]]; cbn [mk_item]; rewrite E; destruct (py_int x =? 0); try reflexivity; apply init_twin; reflexivity.
    - destruct C as [->|[->| ->]]; reflexivity. }
  assert (US : (c = Usage \/ c = UsageMinimum \/ c = UsageMaximum) -> same_result twin (mk_item db c v) (mk_item db' c w)).
  { clear PLAIN ZERO. intros C. destruct v as [x|], w as [y|]; try contradiction.
    - destruct S as [E _]. assert (G : same_result twin (item_init c (Some (lookup db x))) (item_init c (Some (lookup db' y)))).
      { apply init_twin; [rewrite !ItemFacts.lookup_int; exact E|]. intros _. rewrite !lookup_truthy. reflexivity. }
      destruct C as [->|[->| ->]]; exact G.
    - destruct C as [->|[->| ->]]; reflexivity. }
  destruct c; try (apply PLAIN; [exact S|reflexivity|discriminate]).
  - apply data_twin; auto.
  - apply data_twin; auto.
  - apply data_twin; auto.
  - apply collection_twin; exact S.
  - apply ZERO; auto.
  - destruct v as [x|], w as [y|]; try contradiction; [|apply PLAIN; [exact S|reflexivity|discriminate]].
    cbn [mk_item]. destruct S as [E _]. apply init_twin; [rewrite !usual_unit_val; exact E|intros M; discriminate M].
  - apply ZERO; auto.
  - apply ZERO; auto.
  - apply US; auto.
  - apply US; auto.
  - apply US; auto.
Qed.

(* ------------------------------------------------------------------ *)
(** passes *)

Definition alike (p q : pass) : Prop :=
  exists R : p_state p -> p_state q -> Prop,
    R (p_init p) (p_init q) /\
    (forall s t i j, R s t -> twin i j ->
       R (fst (p_append p s i)) (fst (p_append q t j)) /\ twins (snd (p_append p s i)) (snd (p_append q t j))) /\
    (forall s t, R s t -> twins (p_close p s) (p_close q t)).

Lemma feed_alike p q (R : p_state p -> p_state q -> Prop) :
  (forall s t i j, R s t -> twin i j ->
     R (fst (p_append p s i)) (fst (p_append q t j)) /\ twins (snd (p_append p s i)) (snd (p_append q t j))) ->
  forall l m, twins l m -> forall s t, R s t ->
  R (fst (feed p s l)) (fst (feed q t m)) /\ twins (snd (feed p s l)) (snd (feed q t m)).
Proof.
  intros A l m F. induction F as [|i j l m T F IH]; intros s t H; [split; [exact H|constructor]|].
  cbn [feed]. destruct (A s t i j H T) as [H1 O1].
  destruct (p_append p s i) as [s1 o1], (p_append q t j) as [t1 q1]. cbn [fst snd] in *.
  destruct (IH s1 t1 H1) as [H2 O2]. destruct (feed p s1 l) as [s2 o2], (feed q t1 m) as [t2 q2]. cbn [fst snd] in *.
  split; [exact H2|apply twins_app; assumption].
Qed.

Lemma run_alike p q l m : alike p q -> twins l m -> twins (run_pass p l) (run_pass q m).
Proof.
  intros [R [I [A C]]] F. unfold run_pass. destruct (feed_alike p q R A l m F _ _ I) as [H O].
  destruct (feed p (p_init p) l) as [s o], (feed q (p_init q) m) as [t r]. cbn [fst snd] in *. apply twins_app; auto.
Qed.

Lemma compose_alike p q s t : alike p q -> alike s t -> alike (compose p s) (compose q t).
Proof.
  intros [R [I [A C]]] [Q [J [B D]]]. exists (fun x y => R (fst x) (fst y) /\ Q (snd x) (snd y)). split; [split; assumption|]. split.
  - intros [x x'] [y y'] i j [H H'] T. cbn [compose p_append fst snd] in *.
    destruct (A x y i j H T) as [H1 O1]. destruct (p_append p x i) as [x1 o1], (p_append q y j) as [y1 q1]. cbn [fst snd] in *.
    destruct (feed_alike s t Q B o1 q1 O1 x' y' H') as [H2 O2]. destruct (feed s x' o1) as [x2 o2], (feed t y' q1) as [y2 q2].
    cbn [fst snd] in *. auto.
  - intros [x x'] [y y'] [H H']. cbn [compose p_close fst snd] in *. pose proof (C x y H) as O1.
    destruct (feed_alike s t Q B _ _ O1 x' y' H') as [H2 O2].
    destruct (feed s x' (p_close p x)) as [x2 o2], (feed t y' (p_close q y)) as [y2 q2]. cbn [fst snd] in *. apply twins_app; auto.
Qed.

Lemma sink_alike : alike sink sink.
Proof. exists (fun _ _ => True). split; [exact I|]. split; [|constructor]. intros s t i j _ T. split; [exact I|apply twins_one, T]. Qed.

Lemma du_alike : alike designator_uniq designator_uniq.
Proof.
  exists (fun s t => twins (du_pending s) (du_pending t) /\ du_filter t = du_filter s). split; [split; [constructor|reflexivity]|]. split; [|constructor].
  intros [a f] [b g] i j [F E] T. cbn [du_pending du_filter] in *. subst g.
  assert (P : twins (a ++ [i]) (b ++ [j])) by (apply twins_app; [exact F|apply twins_one, T]).
  cbn [designator_uniq p_append]. unfold du_append. cbn [du_pending du_filter].
  rewrite (twin_kind _ _ T), (tw_class _ _ T), (tw_value _ _ T), (twins_length _ _ F).
  assert (M : twins (match f with DAt n => remove_nth n (a ++ [i]) | _ => a ++ [i] end)
                    (match f with DAt n => remove_nth n (b ++ [j]) | _ => b ++ [j] end)).
  { destruct f; try exact P. apply twins_remove, P. }
  destruct (ikd i).
  - split; [split; [constructor|reflexivity]|exact M].
  - split; [split; [constructor|reflexivity]|exact M].
  - destruct (ic i); (split; [split; [exact P|reflexivity]|constructor]).
Qed.

Record mm_rel (s t : mm_state) : Prop := {
  mr_before : twins (mm_before s) (mm_before t);
  mr_mains : twins (mm_mains s) (mm_mains t);
  mr_after : twins (mm_after s) (mm_after t);
  mr_bcount : mm_bcount t = mm_bcount s;
  mr_acount : mm_acount t = mm_acount s;
  mr_props : forall c, mm_props t c = mm_props s c
}.

Lemma mm_flush_rel s t : mm_rel s t -> mm_rel (fst (mm_flush s)) (fst (mm_flush t)) /\ twins (snd (mm_flush s)) (snd (mm_flush t)).
Proof.
  intros [B M A BC AC P]. unfold mm_flush. cbn [fst snd]. split.
  - constructor; cbn; auto; constructor.
  - apply twins_app.
    + apply twins_filter; [|exact B]. intros i j T. unfold not_rc. rewrite (tw_class _ _ T). reflexivity.
    + rewrite BC. inversion M; [constructor|]. constructor; [constructor; reflexivity|]. apply twins_one. assumption.
Qed.

Lemma upd_rel {A} (f g : icls -> A) c v : (forall k, g k = f k) -> forall k, upd g c v k = upd f c v k.
Proof. intros H k. unfold upd. destruct (icls_eqb k c); auto. Qed.

Lemma mm_count_rel s t c v : mm_rel s t ->
  mm_rel (match c with ReportCount => MM (mm_before s) (mm_mains s) (mm_after s) (mm_bcount s) v (mm_props s) | _ => s end)
         (match c with ReportCount => MM (mm_before t) (mm_mains t) (mm_after t) (mm_bcount t) v (mm_props t) | _ => t end).
Proof. intros H. destruct c; try exact H. destruct H. constructor; cbn; auto. Qed.

Lemma mm_append_rel (s t : mm_state) i j : mm_rel s t -> twin i j ->
  mm_rel (fst (mm_append s i)) (fst (mm_append t j)) /\ twins (snd (mm_append s i)) (snd (mm_append t j)).
Proof.
  intros H T.
  unfold mm_append.
  rewrite (twin_kind _ _ T), (tw_class _ _ T), (tw_value _ _ T).
  assert (AF : twins (mm_after s ++ [i]) (mm_after t ++ [j])) by (apply twins_app; [apply H|apply twins_one, T]).
  destruct (ikd i).
  + destruct (negb (is_data (ic i))).
    { apply mm_flush_rel. destruct H. constructor; cbn; auto. }
    assert (X : let p := match mm_mains s with m :: _ => if item_eqb i m then (s, []) else mm_flush s | [] => (s, []) end in
                let q := match mm_mains t with m :: _ => if item_eqb j m then (t, []) else mm_flush t | [] => (t, []) end in
                mm_rel (fst p) (fst q) /\ twins (snd p) (snd q)).
    { cbv zeta. pose proof (mr_mains _ _ H) as M. inversion M as [|m n a b TM F E1 E2]; [split; [exact H|constructor]|].
      rewrite (twin_eqb i m j n T TM). destruct (item_eqb i m); [split; [exact H|constructor]|apply mm_flush_rel, H]. }
    cbv zeta in X. revert X.
    destruct (match mm_mains s with m :: _ => if item_eqb i m then (s, []) else mm_flush s | [] => (s, []) end) as [s1 o1].
    destruct (match mm_mains t with m :: _ => if item_eqb j m then (t, []) else mm_flush t | [] => (t, []) end) as [t1 q1].
    cbn [fst snd]. intros [H1 O1]. cbv zeta. rewrite (mr_acount _ _ H1).
    assert (H2 : mm_rel (MM (mm_before s1 ++ mm_after s1) (mm_mains s1 ++ [i]) [] (mm_bcount s1 + mm_acount s1) (mm_acount s1) (mm_props s1))
                        (MM (mm_before t1 ++ mm_after t1) (mm_mains t1 ++ [j]) [] (mm_bcount t1 + mm_acount s1) (mm_acount s1) (mm_props t1))).
    { destruct H1. constructor; cbn; auto; try (apply twins_app; auto using twins_one); try constructor. congruence. }
    destruct (negb (mm_acount s1 =? 1)); [|split; [exact H2|exact O1]].
    destruct (mm_flush_rel _ _ H2) as [H3 O3]. revert H3 O3.
    destruct (mm_flush (MM (mm_before s1 ++ _) _ _ _ _ _)) as [s3 o3], (mm_flush (MM (mm_before t1 ++ _) _ _ _ _ _)) as [t3 q3].
    cbn [fst snd]. intros H3 O3. split; [exact H3|apply twins_app; assumption].
  + cbv zeta. cbn [mm_before mm_mains mm_after mm_bcount mm_acount mm_props]. rewrite (mr_props _ _ H).
    assert (X : let p := if to_watch (ic i) && negb (mm_props s (ic i) =? ival i)
                         then mm_flush (MM (mm_before s) (mm_mains s) (mm_after s ++ [i]) (mm_bcount s) (mm_acount s) (upd (mm_props s) (ic i) (ival i)))
                         else (MM (mm_before s) (mm_mains s) (mm_after s ++ [i]) (mm_bcount s) (mm_acount s) (mm_props s), []) in
                let q := if to_watch (ic i) && negb (mm_props s (ic i) =? ival i)
                         then mm_flush (MM (mm_before t) (mm_mains t) (mm_after t ++ [j]) (mm_bcount t) (mm_acount t) (upd (mm_props t) (ic i) (ival i)))
                         else (MM (mm_before t) (mm_mains t) (mm_after t ++ [j]) (mm_bcount t) (mm_acount t) (mm_props t), []) in
                mm_rel (fst p) (fst q) /\ twins (snd p) (snd q)).
    { cbv zeta. destruct H. destruct (to_watch _ && _).
      - apply mm_flush_rel. constructor; cbn; auto. apply upd_rel. assumption.
      - split; [constructor; cbn; auto|constructor]. }
    cbv zeta in X. revert X.
    match goal with |- mm_rel (fst ?p) (fst ?q) /\ _ -> _ => destruct p as [s2 o2], q as [t2 q2] end.
    cbn [fst snd]. intros [H2 O2]. split; [apply mm_count_rel, H2|exact O2].
  + split; [|constructor]. destruct H. constructor; cbn; auto.
Qed.

Lemma mm_alike : alike main_merge main_merge.
Proof.
  exists mm_rel. split; [constructor; cbn; auto; constructor|]. split; [exact mm_append_rel|].
  intros s t [B M A _ _ _]. cbn [main_merge p_close]. unfold mm_close. repeat apply twins_app; assumption.
Qed.

Lemma pm_alike : alike physical_merge physical_merge.
Proof.
  exists (fun s t => (forall c, pm_current t c = pm_current s c) /\ (forall c, pm_changed t c = pm_changed s c) /\ twins (pm_pending s) (pm_pending t)).
  split; [repeat split; constructor|]. split.
  - intros s t i j [C [D F]] T. cbn [physical_merge p_append]. unfold pm_append. rewrite (twin_kind _ _ T), (tw_class _ _ T), (tw_value _ _ T), !C, !D.
    assert (G : twins (filter (fun x => negb (is_phys (ic x))) (pm_pending s)) (filter (fun x => negb (is_phys (ic x))) (pm_pending t))).
    { apply twins_filter; [|exact F]. intros a b U. rewrite (tw_class _ _ U). reflexivity. }
    assert (L : twins (pm_pending s ++ [i]) (pm_pending t ++ [j])) by (apply twins_app; [exact F|apply twins_one, T]).
    assert (U : forall c, (if is_phys (ic i) || is_log (ic i) then upd (pm_changed t) (ic i) (ival i) else pm_changed t) c =
                          (if is_phys (ic i) || is_log (ic i) then upd (pm_changed s) (ic i) (ival i) else pm_changed s) c).
    { destruct (is_phys (ic i) || is_log (ic i)); [apply upd_rel|]; exact D. }
    destruct (ikd i); cbn [fst snd pm_current pm_changed pm_pending].
    + split; [repeat split; auto; constructor|]. destruct (_ && _); apply twins_app; auto using twins_one.
    + split; [auto|constructor].
    + split; [auto|constructor].
  - intros s t [_ [_ F]]. exact F.
Qed.

Definition opt_twin (a b : option item) : Prop :=
  match a, b with None, None => True | Some i, Some j => twin i j | _, _ => False end.

Lemma twin_refl i : twin i i.
Proof. constructor; reflexivity. Qed.

Lemma gm_alike : alike global_merge global_merge.
Proof.
  exists (fun g h => forall c, opt_twin (g c) (h c)). split; [|split; [|constructor]].
  - intros c. cbn [global_merge p_init]. destruct (gm_init c); [apply twin_refl|exact I].
  - intros g h i j H T. cbn [global_merge p_append]. unfold gm_append. rewrite (twin_kind _ _ T), (tw_class _ _ T).
    destruct (ikd i); cbn [fst snd]; [split; [exact H|apply twins_one, T]| |split; [exact H|apply twins_one, T]].
    split.
    + intros c. unfold upd. destruct (icls_eqb c (ic i)); [exact T|apply H].
    + assert (E : match h (ic i) with None => true | Some k => negb (item_eqb k j) end = match g (ic i) with None => true | Some k => negb (item_eqb k i) end).
      { specialize (H (ic i)). destruct (g (ic i)) as [a|], (h (ic i)) as [b|]; try contradiction; [|reflexivity].
        rewrite (twin_eqb a i b j H T). reflexivity. }
      rewrite E. destruct (_ || _); [apply twins_one, T|constructor].
Qed.

Lemma rebuild_twins db db' c v w : same_request c (Some v) (Some w) -> twins (rebuild db c v) (rebuild db' c w).
Proof.
  intros H. pose proof (item_twin db db' c (Some v) (Some w) H) as T. unfold rebuild.
  destruct (mk_item db c (Some v)), (mk_item db' c (Some w)); cbn [same_result] in T; try contradiction; [apply twins_one, T|constructor].
Qed.

Definition opt_same (a b : option pval) : Prop :=
  match a, b with None, None => True | Some v, Some w => py_int w = py_int v /\ truthy w = truthy v | _, _ => False end.

Record rm_rel (s t : rm_state) : Prop := {
  rr_merging : rm_merging t = rm_merging s;
  rr_min : opt_same (rm_min s) (rm_min t);
  rr_max : opt_same (rm_max s) (rm_max t);
  rr_pending : twins (rm_pending s) (rm_pending t)
}.

Lemma rm_note_rel lk mn mx s t i j : rm_rel s t -> twin i j -> rm_rel (rm_note lk mn mx s i) (rm_note lk mn mx t j).
Proof.
  intros [M A B P] T. unfold rm_note. rewrite (twin_kind _ _ T), (tw_class _ _ T), (tw_value _ _ T), M.
  destruct (rm_merging s && ikind_eqb (ikd i) Local) eqn:L; [|constructor; assumption].
  apply andb_true_iff in L as [L0 L].
  assert (V : opt_same (Some (iv i)) (Some (iv j))).
  { split; [exact (tw_value _ _ T)|]. apply (tw_truth _ _ T). unfold minds. unfold ikd in L. rewrite L. apply orb_true_r. }
  destruct (icls_eqb (ic i) mn || icls_eqb (ic i) mx); [constructor; auto|].
  destruct (icls_eqb (ic i) lk); [|constructor; auto].
  destruct (rm_max s) as [a|] eqn:EA, (rm_max t) as [b|] eqn:EB; try contradiction.
  - rewrite (proj1 B). destruct (ival i =? py_int a + 1); constructor; cbn [rm_merging rm_min rm_max rm_pending]; auto.
  - constructor; cbn [rm_merging rm_min rm_max rm_pending]; auto.
Qed.

Lemma rm_flush_rel db db' lk mn mx s t :
  lk <> Collection -> mn <> Collection -> mx <> Collection ->
  rm_rel s t -> twins (rm_flush db lk mn mx s) (rm_flush db' lk mn mx t).
Proof.
  intros N1 N2 N3 [M A B P]. unfold rm_flush. rewrite M.
  destruct (rm_min s) as [a|], (rm_min t) as [a'|]; try contradiction; [|exact P].
  destruct (rm_max s) as [b|], (rm_max t) as [b'|]; try contradiction; [|exact P].
  destruct A as [A1 A2], B as [B1 B2]. rewrite A1, A2, B1, B2. destruct (_ && _); [|exact P].
  assert (RA : forall c, c <> Collection -> twins (rebuild db c a) (rebuild db' c a')).
  { intros c N. apply rebuild_twins. split; [exact A1|]. split; [contradiction|auto]. }
  assert (RB : forall c, c <> Collection -> twins (rebuild db c b) (rebuild db' c b')).
  { intros c N. apply rebuild_twins. split; [exact B1|]. split; [contradiction|auto]. }
  apply twins_app.
  - apply twins_filter; [|exact P]. intros i j T. rewrite (tw_class _ _ T). reflexivity.
  - destruct (py_int a =? py_int b); [auto|]. destruct (1 <? _); apply twins_app; auto.
Qed.

Lemma rm_alike db db' lk mn mx : lk <> Collection -> mn <> Collection -> mx <> Collection ->
  alike (range_merge db lk mn mx) (range_merge db' lk mn mx).
Proof.
  intros N1 N2 N3. exists rm_rel. split; [constructor; cbn; auto; constructor|]. split.
  - intros s t i j H T. cbn [range_merge p_append]. unfold rm_append. rewrite (twin_kind _ _ T).
    pose proof (rm_note_rel lk mn mx s t i j H T) as H1.
    assert (G : rm_rel (RM (rm_merging (rm_note lk mn mx s i)) (rm_min (rm_note lk mn mx s i)) (rm_max (rm_note lk mn mx s i)) (rm_pending (rm_note lk mn mx s i) ++ [i]))
                       (RM (rm_merging (rm_note lk mn mx t j)) (rm_min (rm_note lk mn mx t j)) (rm_max (rm_note lk mn mx t j)) (rm_pending (rm_note lk mn mx t j) ++ [j]))).
    { destruct H1. constructor; cbn [rm_merging rm_min rm_max rm_pending]; auto. apply twins_app; auto using twins_one. }
    destruct (ikd i); cbn [fst snd].
    + split; [constructor; cbn; auto; apply twins_one, T|apply rm_flush_rel; assumption].
    + split; [exact G|constructor].
    + split; [exact G|constructor].
  - intros s t H. apply rm_flush_rel; assumption.
Qed.

Lemma up_alike db db' : alike (usage_page_pass db) (usage_page_pass db').
Proof.
  exists (fun p q => q = p). split; [reflexivity|]. split; [|constructor].
  intros p q i j -> T. cbn [usage_page_pass p_append]. unfold up_append. rewrite (tw_class _ _ T), (tw_value _ _ T).
  destruct (is_usage (ic i)) eqn:U; [|split; [reflexivity|apply twins_one, T]].
  pose proof (split_page (lookup db (iv i))) as P1. pose proof (split_page (lookup db' (iv j))) as P2.
  pose proof (split_id (lookup db (iv i))) as D1. pose proof (split_id (lookup db' (iv j))) as D2.
  rewrite lookup_int in P1, P2, D1, D2.
  pose proof (tw_value _ _ T) as V. unfold ival in V. rewrite V in P2, D2.
  destruct (split (lookup db (iv i))) as [sp su], (split (lookup db' (iv j))) as [sp' su']. cbn [fst snd] in *.
  assert (EP : py_int sp' = py_int sp) by congruence. assert (ED : py_int su' = py_int su) by congruence.
  rewrite EP. split; [reflexivity|]. apply twins_app.
  - destruct (match p with None => true | Some p => negb (p =? py_int sp) end); [|constructor].
    apply rebuild_twins. split; [exact EP|]. split; [discriminate|intros M; discriminate M].
  - apply rebuild_twins. split; [exact ED|]. split; [intros E; rewrite E in U; discriminate U|auto].
Qed.

Lemma optimize_twins db db' l m : twins l m -> twins (optimize db l) (optimize db' m).
Proof.
  apply run_alike. unfold optimizer_new, opt_registry. cbn [sort_prec fold_left insert_prec fst snd Z.ltb Z.compare Pos.compare Pos.compare_cont andb].
  repeat apply compose_alike; try apply sink_alike.
  all: first [apply du_alike|apply mm_alike|apply pm_alike|apply gm_alike|apply up_alike|apply rm_alike; discriminate].
Qed.
