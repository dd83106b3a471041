(* PageShift.v -- what the optimiser makes of usages without their page
   (C41_always).

   The passes before UsagePage do not look at the page of a usage.  A stream is
   compared with the one in which 65536 is added to every usage: then all
   usages include a page and the theorems for such streams apply. *)
From Coq Require Import ZifyBool ZifyNat.
From Verif Require Import Py Usage Item Parser Optimizer Descriptor Converter HidSpec Spec ItemFacts ParserFacts CodecProofs UsageProofs StreamSpec
  StreamProofs StreamTree OptSpec AllSpec TreeSpec OptFacts PassFacts MainMergeFacts Skeleton RangeFacts PageFacts MergeFacts DesigFacts OptAll TreeOpt NameFacts PageSpec.
Ltac Zify.zify_post_hook ::= Z.div_mod_to_equations.
Local Open Scope Z_scope.

Definition dv (c : icls) : Z := if is_usage c then 65536 else 0.

Record moved (i j : item) : Prop := {
  mv_class : ic j = ic i;
  mv_value : ival j = ival i + dv (ic i);
  mv_truth : minds (ic i) = true -> truthy (iv j) = truthy (iv i)
}.

Definition moveds := Forall2 moved.

Lemma mv_same i j : moved i j -> ikd i <> Local -> ival j = ival i.
Proof. intros T N. rewrite (mv_value _ _ T). unfold dv, ikd in *. destruct (ic i); try (cbn; lia); contradiction N; reflexivity. Qed.

Lemma mv_other i j : moved i j -> is_usage (ic i) = false -> ival j = ival i.
Proof. intros T N. rewrite (mv_value _ _ T). unfold dv. rewrite N. lia. Qed.

Lemma moved_refl i : is_usage (ic i) = false -> moved i i.
Proof. intros U. constructor; [reflexivity| |reflexivity]. unfold dv. rewrite U. lia. Qed.

Lemma moveds_app a b c d : moveds a b -> moveds c d -> moveds (a ++ c) (b ++ d).
Proof. apply Forall2_app. Qed.

Lemma moveds_one i j : moved i j -> moveds [i] [j].
Proof. intros T. constructor; [exact T|constructor]. Qed.

Lemma moveds_filter f l m : (forall i j, moved i j -> f j = f i) -> moveds l m -> moveds (filter f l) (filter f m).
Proof. intros H. induction 1 as [|i j l m T F IH]; [constructor|]. cbn [filter]. rewrite (H i j T). destruct (f i); [constructor; assumption|exact IH]. Qed.

Lemma moveds_remove n l m : moveds l m -> moveds (remove_nth n l) (remove_nth n m).
Proof. intros F. revert n. induction F as [|i j l m T F IH]; intros [|n]; cbn [remove_nth]; try constructor; auto. apply IH. Qed.

Lemma moveds_length l m : moveds l m -> length m = length l.
Proof. induction 1; cbn; congruence. Qed.

Lemma moved_kind i j : moved i j -> ikd j = ikd i.
Proof. intros T. unfold ikd. rewrite (mv_class _ _ T). reflexivity. Qed.

Lemma moved_eqb i j i' j' : moved i i' -> moved j j' -> ikd i <> Local -> ikd j <> Local -> item_eqb i' j' = item_eqb i j.
Proof. intros T U NI NJ. unfold item_eqb. rewrite (moved_kind _ _ T), (moved_kind _ _ U), (mv_class _ _ T), (mv_class _ _ U), (mv_same _ _ T NI), (mv_same _ _ U NJ). reflexivity. Qed.

Definition across (p q : pass) : Prop :=
  exists R : p_state p -> p_state q -> Prop,
    R (p_init p) (p_init q) /\
    (forall s t i j, R s t -> moved i j ->
       R (fst (p_append p s i)) (fst (p_append q t j)) /\ moveds (snd (p_append p s i)) (snd (p_append q t j))) /\
    (forall s t, R s t -> moveds (p_close p s) (p_close q t)).

Lemma feed_across p q (R : p_state p -> p_state q -> Prop) :
  (forall s t i j, R s t -> moved i j ->
     R (fst (p_append p s i)) (fst (p_append q t j)) /\ moveds (snd (p_append p s i)) (snd (p_append q t j))) ->
  forall l m, moveds l m -> forall s t, R s t ->
  R (fst (feed p s l)) (fst (feed q t m)) /\ moveds (snd (feed p s l)) (snd (feed q t m)).
Proof.
  intros A l m F. induction F as [|i j l m T F IH]; intros s t H; [split; [exact H|constructor]|].
  cbn [feed]. destruct (A s t i j H T) as [H1 O1].
  destruct (p_append p s i) as [s1 o1], (p_append q t j) as [t1 q1]. cbn [fst snd] in *.
  destruct (IH s1 t1 H1) as [H2 O2]. destruct (feed p s1 l) as [s2 o2], (feed q t1 m) as [t2 q2]. cbn [fst snd] in *.
  split; [exact H2|apply moveds_app; assumption].
Qed.

Lemma run_across p q l m : across p q -> moveds l m -> moveds (run_pass p l) (run_pass q m).
Proof.
  intros [R [I [A C]]] F. unfold run_pass. destruct (feed_across p q R A l m F _ _ I) as [H O].
  destruct (feed p (p_init p) l) as [s o], (feed q (p_init q) m) as [t r]. cbn [fst snd] in *. apply moveds_app; auto.
Qed.

Lemma du_across : across designator_uniq designator_uniq.
Proof.
  exists (fun s t => moveds (du_pending s) (du_pending t) /\ du_filter t = du_filter s). split; [split; [constructor|reflexivity]|]. split; [|constructor].
  intros [a f] [b g] i j [F E] T. cbn [du_pending du_filter] in *. subst g.
  assert (P : moveds (a ++ [i]) (b ++ [j])) by (apply moveds_app; [exact F|apply moveds_one, T]).
  cbn [designator_uniq p_append]. unfold du_append. cbn [du_pending du_filter].
  rewrite (moved_kind _ _ T), (mv_class _ _ T), (moveds_length _ _ F).
  assert (M : moveds (match f with DAt n => remove_nth n (a ++ [i]) | _ => a ++ [i] end)
                    (match f with DAt n => remove_nth n (b ++ [j]) | _ => b ++ [j] end)).
  { destruct f; try exact P. apply moveds_remove, P. }
  destruct (ikd i).
  - split; [split; [constructor|reflexivity]|exact M].
  - split; [split; [constructor|reflexivity]|exact M].
  - pose proof (mv_other i j T) as V. destruct (ic i); try rewrite (V eq_refl); (split; [split; [exact P|reflexivity]|constructor]).
Qed.

Record mm_rel (s t : mm_state) : Prop := {
  mr_before : moveds (mm_before s) (mm_before t);
  mr_mains : moveds (mm_mains s) (mm_mains t) /\ Forall (fun m => ikd m <> Local) (mm_mains s);
  mr_after : moveds (mm_after s) (mm_after t);
  mr_bcount : mm_bcount t = mm_bcount s;
  mr_acount : mm_acount t = mm_acount s;
  mr_props : forall c, mm_props t c = mm_props s c
}.

Lemma mm_flush_rel s t : mm_rel s t -> mm_rel (fst (mm_flush s)) (fst (mm_flush t)) /\ moveds (snd (mm_flush s)) (snd (mm_flush t)).
Proof.
  intros [B M A BC AC P]. unfold mm_flush. cbn [fst snd]. split.
  - constructor; cbn; auto; repeat constructor.
  - apply moveds_app.
    + apply moveds_filter; [|exact B]. intros i j T. unfold not_rc. rewrite (mv_class _ _ T). reflexivity.
    + rewrite BC. destruct M as [M _]. inversion M; [constructor|]. constructor; [apply moved_refl; reflexivity|]. apply moveds_one. assumption.
Qed.

Lemma upd_rel {A} (f g : icls -> A) c v : (forall k, g k = f k) -> forall k, upd g c v k = upd f c v k.
Proof. intros H k. unfold upd. destruct (icls_eqb k c); auto. Qed.

Lemma mm_count_rel s t c v : mm_rel s t ->
  mm_rel (match c with ReportCount => MM (mm_before s) (mm_mains s) (mm_after s) (mm_bcount s) v (mm_props s) | _ => s end)
         (match c with ReportCount => MM (mm_before t) (mm_mains t) (mm_after t) (mm_bcount t) v (mm_props t) | _ => t end).
Proof. intros H. destruct c; try exact H. destruct H. constructor; cbn; auto. Qed.

Lemma mm_append_rel (s t : mm_state) i j : mm_rel s t -> moved i j ->
  mm_rel (fst (mm_append s i)) (fst (mm_append t j)) /\ moveds (snd (mm_append s i)) (snd (mm_append t j)).
Proof.
  intros H T.
  unfold mm_append.
  pose proof (mv_same i j T) as V.
  rewrite (moved_kind _ _ T), (mv_class _ _ T).
  assert (AF : moveds (mm_after s ++ [i]) (mm_after t ++ [j])) by (apply moveds_app; [apply H|apply moveds_one, T]).
  destruct (ikd i) eqn:K.
  + destruct (negb (is_data (ic i))).
    { apply mm_flush_rel. destruct H. constructor; cbn; auto. }
    assert (X : let p := match mm_mains s with m :: _ => if item_eqb i m then (s, []) else mm_flush s | [] => (s, []) end in
                let q := match mm_mains t with m :: _ => if item_eqb j m then (t, []) else mm_flush t | [] => (t, []) end in
                mm_rel (fst p) (fst q) /\ moveds (snd p) (snd q)).
    { cbv zeta. pose proof (mr_mains _ _ H) as [M ML]. inversion M as [|m n a b TM F E1 E2]; [split; [exact H|constructor]|].
      rewrite <- E1 in ML. inversion ML as [|? ? ML1 _]; subst. rewrite (moved_eqb i m j n T TM) by (congruence || auto). destruct (item_eqb i m); [split; [exact H|constructor]|apply mm_flush_rel, H]. }
    cbv zeta in X. revert X.
    destruct (match mm_mains s with m :: _ => if item_eqb i m then (s, []) else mm_flush s | [] => (s, []) end) as [s1 o1].
    destruct (match mm_mains t with m :: _ => if item_eqb j m then (t, []) else mm_flush t | [] => (t, []) end) as [t1 q1].
    cbn [fst snd]. intros [H1 O1]. cbv zeta. rewrite (mr_acount _ _ H1).
    assert (H2 : mm_rel (MM (mm_before s1 ++ mm_after s1) (mm_mains s1 ++ [i]) [] (mm_bcount s1 + mm_acount s1) (mm_acount s1) (mm_props s1))
                        (MM (mm_before t1 ++ mm_after t1) (mm_mains t1 ++ [j]) [] (mm_bcount t1 + mm_acount s1) (mm_acount s1) (mm_props t1))).
    { destruct H1 as [B1 [MA MB] A1 C1 C2 P1]. constructor; cbn; auto; try (apply moveds_app; auto using moveds_one); try constructor; try congruence.
      - apply moveds_app; auto using moveds_one.
      - apply Forall_app. split; auto. repeat constructor. congruence. }
    destruct (negb (mm_acount s1 =? 1)); [|split; [exact H2|exact O1]].
    destruct (mm_flush_rel _ _ H2) as [H3 O3]. revert H3 O3.
    destruct (mm_flush (MM (mm_before s1 ++ _) _ _ _ _ _)) as [s3 o3], (mm_flush (MM (mm_before t1 ++ _) _ _ _ _ _)) as [t3 q3].
    cbn [fst snd]. intros H3 O3. split; [exact H3|apply moveds_app; assumption].
  + cbv zeta. cbn [mm_before mm_mains mm_after mm_bcount mm_acount mm_props]. rewrite (mr_props _ _ H), V by discriminate.
    assert (X : let p := if to_watch (ic i) && negb (mm_props s (ic i) =? ival i)
                         then mm_flush (MM (mm_before s) (mm_mains s) (mm_after s ++ [i]) (mm_bcount s) (mm_acount s) (upd (mm_props s) (ic i) (ival i)))
                         else (MM (mm_before s) (mm_mains s) (mm_after s ++ [i]) (mm_bcount s) (mm_acount s) (mm_props s), []) in
                let q := if to_watch (ic i) && negb (mm_props s (ic i) =? ival i)
                         then mm_flush (MM (mm_before t) (mm_mains t) (mm_after t ++ [j]) (mm_bcount t) (mm_acount t) (upd (mm_props t) (ic i) (ival i)))
                         else (MM (mm_before t) (mm_mains t) (mm_after t ++ [j]) (mm_bcount t) (mm_acount t) (mm_props t), []) in
                mm_rel (fst p) (fst q) /\ moveds (snd p) (snd q)).
    { cbv zeta. destruct H. destruct (to_watch _ && _).
      - apply mm_flush_rel. constructor; cbn; auto. apply upd_rel. assumption.
      - split; [constructor; cbn; auto|constructor]. }
    cbv zeta in X. revert X.
    match goal with |- mm_rel (fst ?p) (fst ?q) /\ _ -> _ => destruct p as [s2 o2], q as [t2 q2] end.
    cbn [fst snd]. intros [H2 O2]. split; [apply mm_count_rel, H2|exact O2].
  + split; [|constructor]. destruct H. constructor; cbn; auto.
Qed.

Lemma mm_across : across main_merge main_merge.
Proof.
  exists mm_rel. split; [constructor; cbn; auto; repeat constructor|]. split; [exact mm_append_rel|].
  intros s t [B [M _] A _ _ _]. cbn [main_merge p_close]. unfold mm_close. repeat apply moveds_app; assumption.
Qed.

Lemma pm_across : across physical_merge physical_merge.
Proof.
  exists (fun s t => (forall c, pm_current t c = pm_current s c) /\ (forall c, pm_changed t c = pm_changed s c) /\ moveds (pm_pending s) (pm_pending t)).
  split; [repeat split; constructor|]. split.
  - intros s t i j [C [D F]] T. cbn [physical_merge p_append]. unfold pm_append. rewrite (moved_kind _ _ T), (mv_class _ _ T), !C, !D.
    assert (G : moveds (filter (fun x => negb (is_phys (ic x))) (pm_pending s)) (filter (fun x => negb (is_phys (ic x))) (pm_pending t))).
    { apply moveds_filter; [|exact F]. intros a b U. rewrite (mv_class _ _ U). reflexivity. }
    assert (L : moveds (pm_pending s ++ [i]) (pm_pending t ++ [j])) by (apply moveds_app; [exact F|apply moveds_one, T]).
    assert (U : forall c, (if is_phys (ic i) || is_log (ic i) then upd (pm_changed t) (ic i) (ival j) else pm_changed t) c =
                          (if is_phys (ic i) || is_log (ic i) then upd (pm_changed s) (ic i) (ival i) else pm_changed s) c).
    { destruct (is_phys (ic i) || is_log (ic i)) eqn:PL; [|exact D]. rewrite (mv_other i j T) by (destruct (ic i); try reflexivity; discriminate PL). apply upd_rel; exact D. }
    destruct (ikd i); cbn [fst snd pm_current pm_changed pm_pending].
    + split; [repeat split; auto; constructor|]. destruct (_ && _); apply moveds_app; auto using moveds_one.
    + split; [auto|constructor].
    + split; [auto|constructor].
  - intros s t [_ [_ F]]. exact F.
Qed.

Definition opt_moved (a b : option item) : Prop :=
  match a, b with None, None => True | Some i, Some j => moved i j /\ ikd i <> Local | _, _ => False end.

Lemma gm_across : across global_merge global_merge.
Proof.
  exists (fun g h => forall c, opt_moved (g c) (h c)). split; [|split; [|constructor]].
  - intros c. cbn [global_merge p_init]. unfold gm_init. destruct c; cbn; auto;
      (split; [apply moved_refl; reflexivity|discriminate]).
  - intros g h i j H T. cbn [global_merge p_append]. unfold gm_append. rewrite (moved_kind _ _ T), (mv_class _ _ T).
    destruct (ikd i) eqn:K; cbn [fst snd]; [split; [exact H|apply moveds_one, T]| |split; [exact H|apply moveds_one, T]].
    split.
    + intros c. unfold upd. destruct (icls_eqb c (ic i)); [|apply H]. split; [exact T|congruence].
    + assert (E : match h (ic i) with None => true | Some k => negb (item_eqb k j) end = match g (ic i) with None => true | Some k => negb (item_eqb k i) end).
      { specialize (H (ic i)). destruct (g (ic i)) as [a|], (h (ic i)) as [b|]; try contradiction; [|reflexivity].
        destruct H as [H N]. rewrite (moved_eqb a i b j H T N) by congruence. reflexivity. }
      rewrite E. destruct (_ || _); [apply moveds_one, T|constructor].
Qed.

Lemma rebuild_moveds db db' lk c v w : single lk -> fam lk c = true -> 0 <= py_int v -> py_int w = py_int v + dv lk -> truthy w = truthy v ->
  moveds (rebuild db c v) (rebuild db' c w).
Proof.
  intros S F P E T. unfold rebuild.
  assert (NN : 0 <= py_int w) by (rewrite E; unfold dv; destruct (is_usage lk); lia).
  assert (CC : (is_usage c = true /\ dv lk = 65536) \/
    (is_usage c = false /\ dv lk = 0 /\ forall d x, mk_item d c (Some x) = item_init c (Some x))).
  { destruct S as [-> | [-> | ->]]; unfold fam in F; destruct c; try discriminate F; auto. }
  destruct CC as [[U D]|[U [D M]]].
  - assert (M : forall d x, mk_item d c (Some x) = item_init c (Some (lookup d x))) by (destruct c; try discriminate U; reflexivity).
    rewrite !M. unfold item_init. rewrite !lookup_truthy, !ItemFacts.lookup_int.
    replace (0 <=? py_int v) with true by lia. replace (0 <=? py_int w) with true by lia. rewrite !orb_true_r.
    apply moveds_one. constructor; [reflexivity| |].
    + unfold ival, dv. cbn [iv ic]. rewrite !ItemFacts.lookup_int, U. lia.
    + intros _. cbn [iv]. rewrite !lookup_truthy. reflexivity.
  - rewrite !M. unfold item_init. rewrite T.
    assert (VV : forall x, 0 <= py_int x -> (0 <=? py_int (if truthy x then x else VInt 0)) = true).
    { intros x X. destruct (truthy x); cbn [py_int]; lia. }
    pose proof (VV v P) as V1. pose proof (VV w NN) as V2. rewrite T in V2. rewrite V1, V2, !orb_true_r.
    apply moveds_one. constructor; [reflexivity| |].
    + unfold ival, dv. cbn [iv ic]. rewrite U. destruct (truthy v); [lia|reflexivity].
    + intros _. cbn [iv]. destruct (truthy v) eqn:TV; congruence.
Qed.

Definition opt_up (lk : icls) (a b : option pval) : Prop :=
  match a, b with None, None => True | Some v, Some w => 0 <= py_int v /\ py_int w = py_int v + dv lk /\ truthy w = truthy v | _, _ => False end.

Record rm_rel (lk : icls) (s t : rm_state) : Prop := {
  rr_merging : rm_merging t = rm_merging s;
  rr_min : opt_up lk (rm_min s) (rm_min t);
  rr_max : opt_up lk (rm_max s) (rm_max t);
  rr_pending : moveds (rm_pending s) (rm_pending t)
}.

Lemma rm_note_rel lk mn mx s t i j : single lk -> constructed i -> rm_rel lk s t -> moved i j -> rm_rel lk (rm_note lk mn mx s i) (rm_note lk mn mx t j).
Proof.
  intros S CI [M A B P] T. unfold rm_note. rewrite (moved_kind _ _ T), (mv_class _ _ T), M.
  destruct (rm_merging s && ikind_eqb (ikd i) Local) eqn:L; [|constructor; assumption].
  apply andb_true_iff in L as [L0 L].
  destruct (icls_eqb (ic i) mn || icls_eqb (ic i) mx); [constructor; auto|].
  destruct (icls_eqb (ic i) lk) eqn:EL; [|constructor; auto]. apply icls_eqb_eq in EL.
  assert (V : opt_up lk (Some (iv i)) (Some (iv j))).
  { split; [|split].
    - destruct (constructed_facts i CI) as [[Q|Q] _]; [|exact Q]. exfalso. rewrite EL in Q. destruct S as [-> | [-> | ->]]; discriminate Q.
    - rewrite <- EL. exact (mv_value _ _ T).
    - apply (mv_truth _ _ T). unfold minds. unfold ikd in L. rewrite L. apply orb_true_r. }
  destruct (rm_max s) as [a|] eqn:EA, (rm_max t) as [b|] eqn:EB; try contradiction.
  - rewrite (proj1 (proj2 B)), (mv_value _ _ T), EL. replace (ival i + dv lk =? py_int a + dv lk + 1) with (ival i =? py_int a + 1) by lia.
    destruct (ival i =? py_int a + 1); constructor; cbn [rm_merging rm_min rm_max rm_pending]; auto.
  - constructor; cbn [rm_merging rm_min rm_max rm_pending]; auto.
Qed.

Lemma rm_flush_rel db db' lk s t : single lk ->
  rm_rel lk s t -> moveds (rm_flush db lk (mn_of lk) (mx_of lk) s) (rm_flush db' lk (mn_of lk) (mx_of lk) t).
Proof.
  intros S [M A B P]. unfold rm_flush. rewrite M.
  destruct (rm_min s) as [a|], (rm_min t) as [a'|]; try contradiction; [|exact P].
  destruct (rm_max s) as [b|], (rm_max t) as [b'|]; try contradiction; [|exact P].
  destruct A as [A0 [A1 A2]], B as [B0 [B1 B2]]. rewrite A1, A2, B1, B2. destruct (_ && _); [|exact P].
  assert (RA : forall c, fam lk c = true -> moveds (rebuild db c a) (rebuild db' c a')) by (intros c F; apply (rebuild_moveds db db' lk); auto).
  assert (RB : forall c, fam lk c = true -> moveds (rebuild db c b) (rebuild db' c b')) by (intros c F; apply (rebuild_moveds db db' lk); auto).
  assert (F1 : fam lk lk = true) by (unfold fam; rewrite icls_eqb_refl; reflexivity).
  assert (F2 : fam lk (mn_of lk) = true) by (unfold fam; rewrite icls_eqb_refl, orb_true_r; reflexivity).
  assert (F3 : fam lk (mx_of lk) = true) by (unfold fam; rewrite icls_eqb_refl, !orb_true_r; reflexivity).
  replace (py_int a + dv lk =? py_int b + dv lk) with (py_int a =? py_int b) by lia.
  replace (py_int b + dv lk - (py_int a + dv lk)) with (py_int b - py_int a) by lia.
  apply moveds_app.
  - apply moveds_filter; [|exact P]. intros i j T. rewrite (mv_class _ _ T). reflexivity.
  - destruct (py_int a =? py_int b); [auto|]. destruct (1 <? _); apply moveds_app; auto.
Qed.

Lemma rm_across db db' lk l m : single lk -> Forall constructed l -> moveds l m ->
  moveds (run_pass (range_merge db lk (mn_of lk) (mx_of lk)) l) (run_pass (range_merge db' lk (mn_of lk) (mx_of lk)) m).
Proof.
  intros S C F.
  assert (X : forall s t, rm_rel lk s t -> 
     rm_rel lk (fst (feed (range_merge db lk (mn_of lk) (mx_of lk)) s l)) (fst (feed (range_merge db' lk (mn_of lk) (mx_of lk)) t m)) /\
     moveds (snd (feed (range_merge db lk (mn_of lk) (mx_of lk)) s l)) (snd (feed (range_merge db' lk (mn_of lk) (mx_of lk)) t m))).
  { induction F as [|i j l m T F IH]; intros s t H; [split; [exact H|constructor]|].
    inversion C as [|? ? CI CL]; subst. specialize (IH CL). cbn [feed]. 
    change (p_append (range_merge db lk (mn_of lk) (mx_of lk))) with (rm_append db lk (mn_of lk) (mx_of lk)).
    change (p_append (range_merge db' lk (mn_of lk) (mx_of lk))) with (rm_append db' lk (mn_of lk) (mx_of lk)).
    assert (ST : rm_rel lk (fst (rm_append db lk (mn_of lk) (mx_of lk) s i)) (fst (rm_append db' lk (mn_of lk) (mx_of lk) t j)) /\
                 moveds (snd (rm_append db lk (mn_of lk) (mx_of lk) s i)) (snd (rm_append db' lk (mn_of lk) (mx_of lk) t j))).
    { unfold rm_append. rewrite (moved_kind _ _ T).
      pose proof (rm_note_rel lk (mn_of lk) (mx_of lk) s t i j S CI H T) as H1.
      set (s1 := rm_note lk (mn_of lk) (mx_of lk) s i) in *. set (t1 := rm_note lk (mn_of lk) (mx_of lk) t j) in *.
      assert (G : rm_rel lk (RM (rm_merging s1) (rm_min s1) (rm_max s1) (rm_pending s1 ++ [i])) (RM (rm_merging t1) (rm_min t1) (rm_max t1) (rm_pending t1 ++ [j]))).
      { destruct H1. constructor; cbn [rm_merging rm_min rm_max rm_pending]; auto. apply moveds_app; auto using moveds_one. }
      destruct (ikd i); cbn [fst snd].
      + split; [constructor; cbn; auto; apply moveds_one, T|apply rm_flush_rel; assumption].
      + split; [exact G|constructor].
      + split; [exact G|constructor]. }
    destruct (rm_append db lk (mn_of lk) (mx_of lk) s i) as [s1 o1], (rm_append db' lk (mn_of lk) (mx_of lk) t j) as [t1 q1].
    cbn [fst snd] in ST. destruct ST as [H1 O1]. destruct (IH s1 t1 H1) as [H2 O2].
    destruct (feed (range_merge db lk (mn_of lk) (mx_of lk)) s1 l) as [s2 o2], (feed (range_merge db' lk (mn_of lk) (mx_of lk)) t1 m) as [t2 q2].
    cbn [fst snd] in *. split; [exact H2|apply moveds_app; assumption]. }
  unfold run_pass. change (p_init (range_merge db lk (mn_of lk) (mx_of lk))) with rm_init.
  change (p_init (range_merge db' lk (mn_of lk) (mx_of lk))) with rm_init.
  destruct (X rm_init rm_init) as [H O]; [constructor; cbn; auto; constructor|].
  destruct (feed (range_merge db lk (mn_of lk) (mx_of lk)) rm_init l) as [s o], (feed (range_merge db' lk (mn_of lk) (mx_of lk)) rm_init m) as [t r].
  cbn [fst snd] in *. apply moveds_app; auto. apply (rm_flush_rel db db' lk s t S H).
Qed.

Lemma rm_built db lk l : single lk -> Forall constructed l -> Forall constructed (run_pass (range_merge db lk (mn_of lk) (mx_of lk)) l).
Proof.
  intros S. apply rm_each. intros i c C E M.
  assert (F : fam lk c = true).
  { unfold fam. destruct M as [-> | [-> | ->]]; rewrite icls_eqb_refl, ?orb_true_r; reflexivity. }
  destruct (rebuild_ok db lk c i C S E F) as [j [-> [J1 [J2 J3]]]]. constructor; [exact J3|constructor].
Qed.

(** all passes before the last *)
Lemma before_moveds db l m : Forall constructed l -> moveds l m -> moveds (before_pages db l) (before_pages db m).
Proof.
  intros C F. unfold before_pages.
  assert (F1 := run_across _ _ _ _ mm_across F).
  assert (C1 : Forall constructed (run_pass main_merge l)).
  { apply mm_each; auto; [intros; apply rc_built; auto|intros i Q; apply rc_nonneg; auto]. }
  assert (F2 := run_across _ _ _ _ pm_across F1). pose proof (pm_each _ _ C1) as C2.
  assert (F3 := run_across _ _ _ _ gm_across F2). pose proof (gm_each _ _ C2) as C3.
  assert (S1 : single StringIndex) by (unfold single; auto). assert (S2 : single DesignatorIndex) by (unfold single; auto).
  assert (S3 : single Usage) by (unfold single; auto).
  assert (F4 := rm_across db db StringIndex _ _ S1 C3 F3). pose proof (rm_built db StringIndex _ S1 C3) as C4.
  assert (F5 := rm_across db db DesignatorIndex _ _ S2 C4 F4). pose proof (rm_built db DesignatorIndex _ S2 C4) as C5.
  exact (rm_across db db Usage _ _ S3 C5 F5).
Qed.

(* ------------------------------------------------------------------ *)
(** reading two streams whose usages differ by 65536 *)

Definition unsh (z : Z) : Z := z - 65536.
Definition lower (e : event) : event :=
  match e with
  | EvColl k us ds ss dl => EvColl k (map unsh us) ds ss dl
  | EvVar a u d s dl => EvVar a (option_map unsh u) d s dl
  | EvArr a us ds ss dl => EvArr a (map unsh us) ds ss dl
  | _ => e
  end.

Lemma upto_unsh a b : upto (unsh a) (unsh b) = map unsh (upto a b).
Proof.
  unfold unsh. replace (a - 65536) with (-65536 + a) by lia. replace (b - 65536) with (-65536 + b) by lia.
  rewrite upto_shift. apply map_ext. intros z. lia.
Qed.

Lemma nth_last_map (f : Z -> Z) l k : nth_last (map f l) k = option_map f (nth_last l k).
Proof.
  destruct l as [|x l]; [reflexivity|].
  assert (L : last (f x :: map f l) (f x) = f (last (x :: l) x)).
  { change (f x :: map f l) with (map f (x :: l)). generalize (x :: l) as m. generalize x as d. intros d m. induction m as [|y m IH]; [reflexivity|].
    cbn [map last]. destruct m; [reflexivity|]. exact IH. }
  cbn [map nth_last option_map]. rewrite L. f_equal. apply (map_nth f (x :: l)).
Qed.

(** declarations: the first is 65536 below the second *)
Definition low (d : Z * option Z) : Z * option Z := (unsh (fst d), option_map unsh (snd d)).
Definition utab (t t' : ltab) : Prop :=
  map rdecl (l_decls t) = map low (map rdecl (l_decls t')) /\
  option_map rref (l_min t) = option_map unsh (option_map rref (l_min t')) /\
  option_map rref (l_max t) = option_map unsh (option_map rref (l_max t')).

Lemma values_utab pg pg' t t' : utab t t' -> values AtDecl pg t = map unsh (values AtDecl pg' t').
Proof.
  intros [E _]. unfold values. revert E. generalize (l_decls t) as d. generalize (l_decls t') as d'.
  induction d' as [|y d' IH]; intros [|x d] E; try discriminate; auto.
  cbn [map] in E. injection E as E1 E2. cbn [flat_map]. rewrite (IH d E2), map_app. f_equal.
  destruct x as [r|a b], y as [r'|a' b']; cbn [rdecl low fst snd option_map] in E1; try discriminate;
    cbn [resolve_decl map]; rewrite ?resolve_decl_pg.
  - injection E1 as ->. reflexivity.
  - injection E1 as -> ->. apply upto_unsh.
Qed.

Lemma utab_one t t' r r' : utab t t' -> rref r = unsh (rref r') -> utab (add_one r t) (add_one r' t').
Proof.
  intros [E1 [E2 E3]] R. unfold utab, add_one. cbn [l_decls l_min l_max]. rewrite !map_app, E1. split; [|auto].
  cbn [map rdecl low fst snd option_map]. rewrite R. reflexivity.
Qed.
Lemma utab_min t t' r r' : utab t t' -> rref r = unsh (rref r') -> utab (add_min r t) (add_min r' t').
Proof.
  intros [E1 [E2 E3]] R. unfold utab, add_min.
  destruct (l_max t), (l_max t'); try discriminate; cbn [l_decls l_min l_max option_map] in *; rewrite ?map_app, E1; cbn [map rdecl low fst snd option_map];
    rewrite R; [injection E3 as ->|]; auto.
Qed.
Lemma utab_max t t' r r' : utab t t' -> rref r = unsh (rref r') -> utab (add_max r t) (add_max r' t').
Proof.
  intros [E1 [E2 E3]] R. unfold utab, add_max.
  destruct (l_min t), (l_min t'); try discriminate; cbn [l_decls l_min l_max option_map] in *; rewrite ?map_app, E1; cbn [map rdecl low fst snd option_map];
    rewrite R; [injection E2 as ->|]; auto.
Qed.

Definition uloc (x y : locals) : Prop :=
  utab (lo_us x) (lo_us y) /\ lo_ds x = lo_ds y /\ lo_ss x = lo_ss y /\ lo_dl x = lo_dl y.

Lemma uloc_init : uloc lo_init lo_init. Proof. repeat split. Qed.

Lemma uloc_usage c v v' e e' p p' x y : usage_tag c = true -> rref (LR p e v) = unsh (rref (LR p' e' v')) -> uloc x y ->
  uloc (lo_set c v e p x) (lo_set c v' e' p' y).
Proof.
  intros U R [S1 [S2 [S3 S4]]]. destruct x as [us ds ss dl], y as [us' ds' ss' dl']. cbn [lo_us lo_ds lo_ss lo_dl] in *. subst.
  destruct c; try discriminate U; cbn [lo_set]; split; cbn [lo_us lo_ds lo_ss lo_dl]; auto;
    auto using utab_one, utab_min, utab_max.
Qed.

Lemma uloc_other c v e e' p p' x y : usage_tag c = false -> uloc x y -> uloc (lo_set c v e p x) (lo_set c v e' p' y).
Proof.
  intros U [S1 [S2 [S3 S4]]]. destruct x as [us ds ss dl], y as [us' ds' ss' dl']. cbn [lo_us lo_ds lo_ss lo_dl] in *. subst.
  destruct c; try discriminate U; cbn [lo_set]; split; cbn [lo_us lo_ds lo_ss lo_dl]; auto.
  assert (L : length (l_decls us) = length (l_decls us')).
  { destruct S1 as [S1 _]. rewrite <- (map_length rdecl), S1, !map_length. reflexivity. }
  rewrite L. auto.
Qed.

(** main items read in the same state but for the usages and the page *)
Definition ustate (a b : mstate) : Prop :=
  let '(g, x, c, v) := a in
  let '(g', y, c', v') := b in
  but_page g g' /\ uloc x y /\ c = c' /\ v = v'.

Lemma ustate_obs g x c v g' y c' v' : ustate (g, x, c, v) (g', y, c', v') -> full_obs AtDecl g x c v = map lower (full_obs AtDecl g' y c' v').
Proof.
  intros [B [[S1 [S2 [S3 S4]]] [-> ->]]]. unfold full_obs, data_events, mk_attrs.
  destruct g as [pg lm lx pm px ue un sz ri ct], g' as [pg' lm' lx' pm' px' ue' un' sz' ri' ct'].
  unfold but_page in B. cbn [g_set] in B. injection B as -> -> -> -> -> -> -> -> ->.
  cbn [g_page g_lmin g_lmax g_pmin g_pmax g_uexp g_unit g_size g_rid g_count].
  rewrite (values_utab pg pg' _ _ S1), S2, S3, S4.
  rewrite (values_rtab pg pg' (lo_ds y) (lo_ds y) eq_refl), (values_rtab pg pg' (lo_ss y) (lo_ss y) eq_refl).
  set (us := values AtDecl pg' (lo_us y)). set (ds := values AtDecl pg' (lo_ds y)). set (ss := values AtDecl pg' (lo_ss y)).
  destruct c'; try reflexivity.
  all: destruct (is_constant v'); [rewrite map_repeat; reflexivity|]; destruct (is_variable v').
  all: try (rewrite map_map; apply map_ext; intros k; cbn [lower]; rewrite nth_last_map; reflexivity).
  all: rewrite map_repeat; cbn [lower]; rewrite firstn_map; reflexivity.
Qed.

Definition states (s : hstate) (l : list witem) : list mstate := snd (h_run (fun g x c v => [(g, x, c, v)]) s l).

Lemma run_states {A} (obs : gtab -> locals -> icls -> Z -> list A) l : forall s,
  snd (h_run obs s l) = flat_map (fun e => let '(g, x, c, v) := e in obs g x c v) (states s l).
Proof.
  unfold states. induction l as [|w l IH]; intros s; [reflexivity|]. cbn [h_run].
  assert (E : fst (h_step obs s w) = fst (h_step (fun g x c v => [(g, x, c, v)]) s w) /\
              snd (h_step obs s w) = flat_map (fun e => let '(g, x, c, v) := e in obs g x c v) (snd (h_step (fun g x c v => [(g, x, c, v)]) s w))).
  { unfold h_step. destruct (hid_kind (w_cls w)); [cbn [fst snd flat_map]; rewrite app_nil_r; auto| |auto].
    destruct (w_cls w); auto. destruct (h_stack s); auto. }
  destruct E as [E1 E2]. destruct (h_step obs s w) as [s1 o1], (h_step (fun g x c v => [(g, x, c, v)]) s w) as [s2 o2].
  cbn [fst snd] in *. subst s2. specialize (IH s1). destruct (h_run obs s1 l) as [s3 o3], (h_run (fun g x c v => [(g, x, c, v)]) s1 l) as [s4 o4].
  cbn [fst snd] in *. rewrite flat_map_app. congruence.
Qed.

(** the first stream reads 65536 below the second *)
Inductive below : Z -> Z -> list witem -> list witem -> Prop :=
| bl_nil p q : below p q [] []
| bl_left p q v e l m : below v q l m -> below p q (W UsagePage v e :: l) m
| bl_right p q v e l m : below p v l m -> below p q l (W UsagePage v e :: m)
| bl_usage p q c v e v' e' l m : usage_tag c = true -> rref (LR p e v) = unsh (rref (LR q e' v')) -> below p q l m ->
    below p q (W c v e :: l) (W c v' e' :: m)
| bl_same p q c v e e' l m : usage_tag c = false -> c <> UsagePage -> c <> Push -> c <> Pop -> below p q l m ->
    below p q (W c v e :: l) (W c v e' :: m).

Lemma below_states p q l m : below p q l m -> forall g g' st st' x y, g_page g = p -> g_page g' = q -> but_page g g' -> uloc x y ->
  Forall2 ustate (states (H g st x) l) (states (H g' st' y) m).
Proof.
  assert (CONS : forall s w l, states s (w :: l) = snd (h_step (fun g x c v => [(g, x, c, v)]) s w) ++ states (fst (h_step (fun g x c v => [(g, x, c, v)]) s w)) l).
  { intros s w r. unfold states. cbn [h_run]. destruct (h_step _ s w) as [s1 o1]. cbn [fst snd]. destruct (h_run _ s1 r). reflexivity. }
  induction 1 as [p q|p q v e l m B IH|p q v e l m B IH|p q c v e v' e' l m U R B IH|p q c v e e' l m U N1 N2 N3 B IH];
    intros g g' st st' x y P Q BP UL.
  - constructor.
  - rewrite CONS. cbn [h_step w_cls w_val hid_kind h_g h_stack h_l fst snd app]. apply IH; auto.
    + destruct g; reflexivity.
    + unfold but_page in *. rewrite <- BP. destruct g; reflexivity.
  - rewrite CONS. cbn [h_step w_cls w_val hid_kind h_g h_stack h_l fst snd app]. apply IH; auto.
    + destruct g'; reflexivity.
    + unfold but_page in *. rewrite BP. destruct g'; reflexivity.
  - rewrite !CONS. unfold h_step. cbn [w_cls w_val w_ext]. assert (K : hid_kind c = KLocal) by (destruct c; try discriminate U; reflexivity).
    rewrite K. cbn [h_g h_stack h_l fst snd app]. apply IH; auto. apply uloc_usage; auto. subst. exact R.
  - destruct (hid_kind c) eqn:K.
    + rewrite !CONS. unfold h_step. cbn [w_cls w_val w_ext h_g h_stack h_l]. rewrite K.
      cbn [fst snd app]. constructor; [repeat split; auto; apply UL|]. apply IH; auto. apply uloc_init.
    + assert (GL : forall h s z b, h_step (fun g x c v => [(g, x, c, v)]) (H h s z) (W c v b) = (H (g_set c v h) s z, @nil mstate)).
      { intros h s z b. unfold h_step. cbn [w_cls w_val w_ext h_g h_stack h_l]. rewrite K. destruct c; try discriminate K; try contradiction; reflexivity. }
      rewrite !CONS, !GL. cbn [fst snd app]. apply IH; auto.
      * destruct g, c; try discriminate K; try contradiction; exact P.
      * destruct g', c; try discriminate K; try contradiction; exact Q.
      * apply but_page_set. exact BP.
    + rewrite !CONS. unfold h_step. cbn [w_cls w_val w_ext h_g h_stack h_l]. rewrite K.
      cbn [fst snd app]. apply IH; auto. apply uloc_other; auto.
Qed.

Lemma below_view l m : below 0 0 l m -> host_view AtDecl l = map lower (host_view AtDecl m).
Proof.
  intros B. unfold host_view. rewrite !run_states.
  pose proof (below_states 0 0 l m B g_init g_init [] [] lo_init lo_init eq_refl eq_refl eq_refl uloc_init) as F.
  unfold h_init. induction F as [|[[[g x] c] v] [[[g' y] c'] v'] a b E F IH]; [reflexivity|].
  cbn [flat_map]. rewrite map_app, IH. f_equal. apply ustate_obs. exact E.
Qed.

(* ------------------------------------------------------------------ *)
(** the streams compared *)

Lemma lift l : Forall constructed l -> exists m, moveds l m /\ Forall constructed m.
Proof.
  induction 1 as [|i l C F [m [M CM]]]; [exists []; split; constructor|].
  destruct (is_usage (ic i)) eqn:U.
  - assert (P : 0 <= ival i).
    { destruct (constructed_facts i C) as [[Q|Q] _]; auto. destruct (ic i); discriminate. }
    destruct (rebuild_good empty_db (ic i) (VInt (ival i + 65536))) as [j [_ [J1 [J2 J3]]]]; [cbn [py_int]; lia|auto|].
    exists (j :: m). split; constructor; auto. constructor; auto.
    + rewrite J2. unfold dv. rewrite U. reflexivity.
    + intros _. cbn [py_int] in J2.
      assert (T : forall k, constructed k -> is_usage (ic k) = true -> truthy (iv k) = true).
      { intros k [d [v K]] UK.
        destruct v as [x|]; [|destruct (ic k); try discriminate UK; discriminate K].
        assert (N : mk_item d (ic k) (Some x) = item_init (ic k) (Some (lookup d x))) by (destruct (ic k); try discriminate UK; reflexivity).
        rewrite N in K. unfold item_init in K. rewrite lookup_truthy in K. destruct (_ || _); [|discriminate].
        injection K as K. rewrite <- K. apply lookup_truthy. }
      rewrite !T; auto. rewrite J1. exact U.
  - exists (i :: m). split; constructor; auto. apply moved_refl. exact U.
Qed.

Lemma moved_abs i j : constructed i -> constructed j -> moved i j -> is_usage (ic i) = true ->
  w_ext (wire j) = true /\ ival j = ival i + 65536.
Proof.
  intros CI CJ M U. assert (V : ival j = ival i + 65536) by (rewrite (mv_value _ _ M); unfold dv; rewrite U; reflexivity).
  split; auto. rewrite ext_usage by (auto; rewrite (mv_class _ _ M); exact U).
  assert (P : 0 <= ival i).
  { destruct (constructed_facts i CI) as [[Q|Q] _]; auto. destruct (ic i); discriminate. }
  lia.
Qed.

Lemma moved_below p q i j l m : constructed i -> constructed j -> moved i j -> ic i <> Push -> ic i <> Pop -> is_usage (ic i) = false ->
  ic i <> UsagePage -> below p q l m -> below p q (wire i :: l) (wire j :: m).
Proof.
  intros CI CJ M N1 N2 U N3 B. unfold wire. rewrite (mv_class _ _ M), (mv_other _ _ M U). apply bl_same; auto.
Qed.

Lemma up_step db page i l : snd (feed (usage_page_pass db) page (i :: l)) =
  snd (up_append db page i) ++ snd (feed (usage_page_pass db) (fst (up_append db page i)) l).
Proof.
  cbn [feed]. change (p_append (usage_page_pass db)) with (up_append db). destruct (up_append db page i) as [s o]. cbn [fst snd].
  destruct (feed (usage_page_pass db) s l). reflexivity.
Qed.

Lemma up_below db l m : moveds l m -> Forall constructed l -> Forall constructed m -> push_free l ->
  forall page p q, (forall x, page = Some x -> x = p) -> below p q (map wire (snd (feed (usage_page_pass db) page l))) (map wire m).
Proof.
  induction 1 as [|i j l m M F IH]; intros C D P page p q E; [constructor|].
  inversion C as [|? ? C1 C2]; subst. inversion D as [|? ? D1 D2]; subst. inversion P as [|? ? [P1 P2] P3]; subst.
  specialize (IH C2 D2 P3). rewrite up_step.
  destruct (is_usage (ic i)) eqn:U.
  - destruct (up_usage db page i C1 U) as [pg [u [U1 [U2 [U3 [U4 [U5 [U6 AP]]]]]]]]. rewrite AP. cbn [fst snd].
    destruct (moved_abs i j C1 D1 M U) as [X V].
    specialize (IH (Some (ival i / 65536)) (ival i / 65536) q).
    set (o2 := snd (feed (usage_page_pass db) (Some (ival i / 65536)) l)) in *. clearbody o2.
    assert (NN : 0 <= ival i).
    { destruct (constructed_facts i C1) as [[Q|Q] _]; auto. destruct (ic i); discriminate. }
    assert (B : below (ival i / 65536) q (wire u :: map wire o2) (wire j :: map wire m)).
    { pose proof (ext_usage u U6 ltac:(rewrite U3; exact U)) as XU. unfold wire in X, XU |- *. cbn [w_ext] in X, XU.
      rewrite X, XU, U3, (mv_class _ _ M), V, U4. apply bl_usage.
      - rewrite usage_tag_is. exact U.
      - unfold rref, resolve, unsh. cbn [lr_abs lr_page lr_val]. replace (65536 <=? ival i mod 65536) with false by lia. lia.
      - apply IH. intros x Q. injection Q as <-. reflexivity. }
    destruct (new_page page (ival i / 65536)) eqn:NP; cbn [app map].
    + unfold wire at 1. rewrite U1, U2. apply bl_left. exact B.
    + assert (PQ : page = Some (ival i / 65536)).
      { unfold new_page in NP. destruct page; [|discriminate]. f_equal. lia. }
      rewrite (E _ PQ) in B. exact B.
  - assert (AP : up_append db page i = (match ic i with UsagePage => Some (ival i) | _ => page end, [i])).
    { unfold up_append. rewrite U. reflexivity. }
    rewrite AP. cbn [fst snd app map]. specialize (IH (match ic i with UsagePage => Some (ival i) | _ => page end)).
    destruct (icls_eqb (ic i) UsagePage) eqn:PG.
    + apply icls_eqb_eq in PG. assert (W1 : wire i = W UsagePage (ival i) (w_ext (wire i))) by (unfold wire; rewrite PG; reflexivity).
      assert (W2 : wire j = W UsagePage (ival j) (w_ext (wire j))) by (unfold wire; rewrite (mv_class _ _ M), PG; reflexivity).
      rewrite W1, W2. apply bl_left, bl_right. apply IH. intros x Q. rewrite PG in Q. injection Q as <-. reflexivity.
    + apply icls_eqb_neq in PG. apply moved_below; auto. apply IH. intros x Q. apply E. destruct (ic i); auto; contradiction.
Qed.

Lemma unpaged_below ws : forall l m q, map w_what ws = map cv l -> moveds l m -> Forall constructed l -> Forall constructed m -> push_free l ->
  below 0 q (unpaged ws) (map wire m).
Proof.
  induction ws as [|w ws IH]; intros [|i l] m q E M C D P; try discriminate E.
  - inversion M. constructor.
  - inversion M as [|? j ? m' M1 M2]; subst. inversion C as [|? ? C1 C2]; subst. inversion D as [|? ? D1 D2]; subst.
    inversion P as [|? ? [P1 P2] P3]; subst. cbn [map] in E. injection E as E1 E2 E3.
    assert (IH' := fun q => IH l m' q E3 M2 C2 D2 P3). destruct w as [c v e]. cbn [w_cls w_val] in *. subst c v.
    unfold unpaged in *. cbn [filter w_cls map].
    destruct (is_usage (ic i)) eqn:U.
    + replace (icls_eqb (ic i) UsagePage) with false by (destruct (ic i); try discriminate U; reflexivity). cbn [negb].
      destruct (moved_abs i j C1 D1 M1 U) as [X V]. unfold wire in X |- *. cbn [w_ext] in X. rewrite X, (mv_class _ _ M1), V.
      assert (RR : rref (LR 0 e (ival i)) = unsh (rref (LR q true (ival i + 65536)))) by (unfold rref, resolve, unsh; cbn [lr_abs lr_page lr_val]; destruct e; lia).
      apply bl_usage; [rewrite usage_tag_is; exact U|exact RR|apply IH'].
    + destruct (icls_eqb (ic i) UsagePage) eqn:PG; cbn [negb].
      * apply icls_eqb_eq in PG. unfold wire at 1. rewrite (mv_class _ _ M1), PG. apply bl_right. apply IH'.
      * apply icls_eqb_neq in PG. unfold wire at 1. rewrite (mv_class _ _ M1), (mv_other _ _ M1 U). apply bl_same; auto.
Qed.

(* ------------------------------------------------------------------ *)
(** conditions *)

Lemma moved_cv l m : moveds l m -> forall (Q : spec_item -> Prop), (forall c z z', Q (c, z) -> usage_tag c = true -> Q (c, z')) ->
  Forall Q (map cv l) -> Forall Q (map cv m).
Proof.
  intros M Q H. induction M as [|i j l m T F IH]; intros G; [constructor|]. cbn [map] in *. inversion G as [|? ? G1 G2]; subst.
  constructor; auto. unfold cv in *. rewrite (mv_class _ _ T). destruct (is_usage (ic i)) eqn:U.
  - apply (H _ (ival i)); auto.
  - rewrite (mv_other _ _ T U). exact G1.
Qed.

(** the items before each main item, apart from usages *)
Definition shifted (x y : spec_item) : Prop := fst y = fst x /\ snd y = snd x + dv (fst x).

Lemma shifted_same x y : shifted x y -> usage_tag (fst x) = false -> y = x.
Proof. intros [E1 E2] U. destruct x, y. cbn [fst snd] in *. subst. unfold dv. rewrite usage_tag_is in U. rewrite U. f_equal. lia. Qed.

Lemma moved_chunks l m : moveds l m -> Forall2 (Forall2 shifted) (chunks (map cv l)) (chunks (map cv m)).
Proof.
  induction 1 as [|i j l m T F IH]; [repeat constructor|]. cbn [map chunks].
  assert (X : shifted (cv i) (cv j)) by (split; [apply (mv_class _ _ T)|apply (mv_value _ _ T)]).
  rewrite (proj1 X). destruct (main_tag (fst (cv i))); [constructor; [constructor|exact IH]|].
  inversion IH as [E1 E2|c c' r r' G1 G2 E1 E2]; [repeat constructor; apply X|]. constructor; auto.
Qed.

Lemma last_of_moved c l m : usage_tag c = false -> Forall2 shifted l m -> last_of c m = last_of c l.
Proof.
  intros U. induction 1 as [|x y l m X F IH]; [reflexivity|]. cbn [last_of]. rewrite IH, (proj1 X).
  destruct (last_of c l); [reflexivity|]. destruct (icls_eqb (fst x) c) eqn:E; [|reflexivity]. apply icls_eqb_eq in E.
  rewrite (shifted_same _ _ X) by (rewrite E; exact U). reflexivity.
Qed.

Lemma moved_physical l m : moveds l m -> (no_physical (map cv l) \/ Forall own_physical (chunks (map cv l))) ->
  no_physical (map cv m) \/ Forall own_physical (chunks (map cv m)).
Proof.
  intros M [N|O]; [left|right].
  - apply (moved_cv l m M (fun x => physical_tag (fst x) = true -> snd x = 0)); auto. intros c z z' _ U P. destruct c; discriminate.
  - pose proof (moved_chunks l m M) as F. induction F as [|c c' r r' G1 G2 IH]; [constructor|]. inversion O as [|? ? O1 O2]; subst.
    constructor; auto. destruct O1 as [N|[p [q [a [b [[A1 [A2 [A3 A4]]] NE]]]]]]; [left|right].
    + clear - N G1. induction G1 as [|x y c c' [H1 H2] G IH]; [constructor|]. inversion N as [|? ? N1 N2]; subst. constructor; auto. rewrite H1. exact N1.
    + exists p, q, a, b. split; auto. repeat split; rewrite (last_of_moved _ c c') by auto; auto.
Qed.

Lemma moved_joins a b : Forall2 ustate a b -> joins (uniform AtDecl) a -> joins (uniform AtDecl) b.
Proof.
  intros F J l1 e1 e2 l2 E MJ. subst b.
  apply Forall2_app_inv_r in F. destruct F as [k1 [k2 [_ [F ->]]]].
  inversion F as [|d1 ? k3 ? U1 F2]; subst. inversion F2 as [|d2 ? k4 ? U2 F3]; subst.
  specialize (J k1 d1 d2 k4 eq_refl).
  destruct d1 as [[[g1 x1] c1] v1], d2 as [[[g2 x2] c2] v2], e1 as [[[g1' y1] c1'] v1'], e2 as [[[g2' y2] c2'] v2'].
  destruct U1 as [B1 [L1 [-> ->]]], U2 as [B2 [L2 [-> ->]]].
  assert (CT : g_count g1 = g_count g1' /\ g_lmin g1 = g_lmin g1' /\ g_lmax g1 = g_lmax g1').
  { unfold but_page in B1. destruct g1, g1'. cbn [g_set] in B1. injection B1. intros. subst. auto. }
  destruct CT as [CT [LM LX]].
  assert (BC : forall g g', but_page g g' -> g_set UsagePage 0 (g_set ReportCount 0 g) = g_set UsagePage 0 (g_set ReportCount 0 g')).
  { intros g g' B. unfold but_page in B. destruct g, g'. cbn [g_set] in *. injection B. intros. subst. reflexivity. }
  assert (MJ' : may_join (g1, x1, c1', v1') (g2, x2, c2', v2')).
  { unfold may_join in *. rewrite (BC _ _ B1), (BC _ _ B2), CT. exact MJ. }
  specialize (J MJ'). clear MJ MJ'. unfold uniform in *. destruct J as [_ [J1 J2]].
  destruct L1 as [S1 [S2 [S3 S4]]], L2 as [T1 [T2 [T3 T4]]].
  split; [discriminate|]. split.
  - unfold paired in *. rewrite <- S2, <- S3. inversion J1 as [|? ? [M1 M2] J3]; subst. constructor; auto.
    destruct S1 as [_ [E2 E3]]. rewrite M1 in E2. rewrite M2 in E3. destruct (l_min (lo_us y1)), (l_max (lo_us y1)); try discriminate; auto.
  - intros NC. specialize (J2 NC). rewrite <- S2, <- S3, <- S4, <- T2, <- T3, <- T4, <- LM, <- LX.
    rewrite (values_utab (g_page g1) (g_page g1') _ _ S1), (values_utab (g_page g2) (g_page g2') _ _ T1) in J2.
    rewrite (values_rtab (g_page g1') (g_page g1) (lo_ds x1) (lo_ds x1) eq_refl), (values_rtab (g_page g1') (g_page g1) (lo_ss x1) (lo_ss x1) eq_refl).
    rewrite (values_rtab (g_page g2') (g_page g2) (lo_ds x2) (lo_ds x2) eq_refl), (values_rtab (g_page g2') (g_page g2) (lo_ss x2) (lo_ss x2) eq_refl).
    destruct J2 as [D1 [D2 J2]]. split; [exact D1|]. split; [exact D2|].
    set (us1 := values AtDecl (g_page g1') (lo_us y1)) in *. set (us2 := values AtDecl (g_page g2') (lo_us y2)) in *.
    destruct (is_variable v1').
    + destruct J2 as [O1 O2]. split; [|exact O2]. destruct O1 as [[A B]|[A B]]; [left|right].
      * rewrite map_length in A. split; auto. intros ->. apply B. reflexivity.
      * destruct us1, us2; try discriminate; auto.
    + destruct J2 as [O1 O2]. split; [|exact O2]. destruct O1 as [A|[[A B]|[A B]]]; [left; auto|right; left|right; right].
      * destruct us1, us2; try discriminate; auto.
      * rewrite map_length in A. split; auto. rewrite !firstn_map in B.
        revert B. generalize (firstn (Z.to_nat (g_lmax g1 - g_lmin g1 + 1)) us1) as k1'. generalize (firstn (Z.to_nat (g_lmax g1 - g_lmin g1 + 1)) us2) as k2'.
        intros k2' k1'. revert k2'. induction k1' as [|z k1' IHk]; intros [|z' k2'] B; try discriminate; auto.
        cbn [map] in B. injection B as B1' B2'. unfold unsh in B1'. f_equal; [lia|auto].
Qed.

(* ------------------------------------------------------------------ *)

Lemma moved_conditions l m : moveds l m -> Forall constructed l -> Forall constructed m -> push_free l -> ends l -> orderly (map cv l) ->
  push_free m /\ ends m /\ regular (map cv m).
Proof.
  intros M C D P EN [OD PH].
  assert (PM : push_free m).
  { unfold push_free in *. clear - M P. induction M as [|i j l m T F IH]; [constructor|]. inversion P as [|? ? P1 P2]; subst.
    constructor; auto. rewrite (mv_class _ _ T). exact P1. }
  split; [exact PM|]. split; [|split; [|split; [|apply (moved_physical l m M PH)]]].
  - destruct EN as [l0 [i [-> [E1 E2]]]]. apply Forall2_app_inv_l in M. destruct M as [m0 [m1 [_ [M1 ->]]]].
    inversion M1 as [|? j ? ? T F]; subst. inversion F; subst. exists m0, j. split; auto. rewrite (mv_class _ _ T). auto.
  - unfold extended. rewrite Forall_map. clear - M C D. revert C D. induction M as [|i j l m T F IH]; intros C D; [constructor|].
    inversion C as [|? ? C1 C2]; subst. inversion D as [|? ? D1 D2]; subst. constructor; auto. unfold cv. cbn [fst snd]. intros U.
    rewrite usage_tag_is, (mv_class _ _ T) in U. destruct (moved_abs i j C1 D1 T U) as [_ V].
    destruct (constructed_facts i C1) as [[Q|Q] _]; [destruct (ic i); discriminate|lia].
  - apply (moved_cv l m M (fun x => fst x <> Delimiter /\ (fst x = DesignatorIndex -> snd x <> 0))); auto.
    intros c z z' [H1 H2] U. split; auto. cbn [fst]. intros ->. discriminate U.
Qed.

Lemma before_built db l : Forall constructed l -> Forall constructed (before_pages db l).
Proof.
  intros C. assert (S1 : single StringIndex) by (unfold single; auto). assert (S2 : single DesignatorIndex) by (unfold single; auto).
  assert (S3 : single Usage) by (unfold single; auto).
  unfold before_pages. apply (rm_built db Usage _ S3), (rm_built db DesignatorIndex _ S2), (rm_built db StringIndex _ S1), gm_each, pm_each, mm_each; auto;
    [intros; apply rc_built; auto|intros i Q; apply rc_nonneg; auto].
Qed.

Lemma pages_always db l ws : map w_what ws = map cv l -> Forall constructed l -> push_free l -> ends l -> orderly (map cv l) ->
  joins (uniform AtDecl) (main_states (unpaged ws)) ->
  seen AtDecl (optimize db l) = host_view AtDecl (unpaged ws).
Proof.
  intros E C P EN O J. destruct (lift l C) as [m [M D]].
  destruct (moved_conditions l m M C D P EN O) as [PM [EM RG]]. destruct (regular_split m D PM RG) as [PL [_ PH]].
  assert (NZ : noz (map cv l)) by (destruct O as [OD _]; eapply Forall_impl; [|exact OD]; cbn; tauto).
  pose proof (below_states _ _ _ _ (unpaged_below ws l m 0 E M C D P) g_init g_init [] [] lo_init lo_init eq_refl eq_refl eq_refl uloc_init) as ST.
  pose proof (moved_joins _ _ ST J) as JM.
  destruct (before_view db AtDecl m PL EM JM PH) as [PB S].
  rewrite (optimize_pages db l NZ EN), (below_view _ _ (unpaged_below ws l m 0 E M C D P)).
  fold (seen AtDecl m). rewrite <- S. unfold seen. rewrite up_run_split. apply below_view.
  pose proof (before_built db l C) as CB.
  apply plain_split in PB. destruct PB as [DB [_ [_ FB]]].
  pose proof (before_moveds db l m C M) as MB.
  apply up_below; auto; [|discriminate].
  unfold push_free in *. clear - MB FB. induction MB as [|i j a b T F IH]; [constructor|]. inversion FB as [|? ? F1 F2]; subst.
  constructor; auto. rewrite <- (mv_class _ _ T). exact F1.
Qed.

Lemma c41_always db b ws out :
  blob_means b ws -> Forall number_allowed ws -> orderly (map w_what ws) -> unstacked (map w_what ws) ->
  closed_stream (map w_what ws) -> joins (uniform AtDecl) (main_states (unpaged ws)) ->
  convert_opt db b = Ok out ->
  exists ws', blob_means out ws' /\ host_view AtDecl ws' = host_view AtDecl (unpaged ws).
Proof.
  intros B N RG US CL J H. destruct (parse_good db 0 b ws B (proj1 (allowed_forall ws) N)) as [l [PA [M C]]].
  unfold convert_opt in H. rewrite blob_parse_from, PA in H. cbn [finished appended bind] in H.
  change (map wcv ws) with (map w_what ws) in M.
  exists (map wire (optimize db l)). split; [apply serialize_means; exact H|].
  rewrite <- M in RG, US, CL.
  apply (pages_always db l ws (eq_sym M)); auto.
  - unfold push_free. unfold unstacked in US. rewrite Forall_map in US. exact US.
  - destruct CL as [l' [x [E [M1 M2]]]].
    destruct (exists_last (l := l)) as [l0 [i ->]]; [intros ->; destruct l'; discriminate|].
    rewrite map_app in E. cbn [map] in E. apply app_inj_tail in E. destruct E as [_ <-].
    exists l0, i. split; auto. destruct i as [c v]. cbn [cv fst ic] in *. destruct c; try discriminate M1; try discriminate M2; split; reflexivity.
Qed.
