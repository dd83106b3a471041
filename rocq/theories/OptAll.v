(* OptAll.v -- all passes together (C40, C41, C42 on item streams). *)
From Coq Require Import ZifyBool ZifyNat.
From Verif Require Import Py Usage Item Optimizer HidSpec ItemFacts ParserFacts OptSpec AllSpec OptFacts MainMergeFacts
  Skeleton PassFacts RangeFacts GlobalFacts PageFacts MergeFacts PhysFacts DesigFacts.
Local Open Scope Z_scope.

(* ------------------------------------------------------------------ *)
(** MainMerge drops data items, apart from report counts *)

Inductive thins : list spec_item -> list spec_item -> Prop :=
| thins_nil : thins [] []
| thins_keep x a b : thins a b -> thins (x :: a) (x :: b)
| thins_drop x a b : data_tag (fst x) = true -> thins a b -> thins (x :: a) b.

Lemma thins_app a b c d : thins a b -> thins c d -> thins (a ++ c) (b ++ d).
Proof. induction 1; intros; cbn [app]; auto; constructor; auto. Qed.

Lemma thins_refl a : thins a a.
Proof. induction a; constructor; auto. Qed.

Lemma thins_trans a b c : thins a b -> thins b c -> thins a c.
Proof.
  intros H. revert c. induction H as [|x a b H IH|x a b D H IH]; intros c H2; auto.
  - inversion H2; subst; constructor; auto.
  - constructor; auto.
Qed.

Definition own_sum a b : own_physical a -> own_physical b -> own_physical (a ++ b).
Proof.
  intros A B. destruct B as [B|[p [q [x [y [[B1 [B2 [B3 B4]]] N]]]]]].
  - destruct A as [A|[p [q [x [y [[A1 [A2 [A3 A4]]] N]]]]]]; [left; apply Forall_app; auto|].
    right. exists p, q, x, y. split; auto. destruct (bare_last _ B) as [L1 [L2 [L3 L4]]].
    repeat split; rewrite last_of_app; rewrite ?L1, ?L2, ?L3, ?L4; auto.
  - right. exists p, q, x, y. split; auto. repeat split; rewrite last_of_app; rewrite ?B1, ?B2, ?B3, ?B4; auto.
Qed.

Definition nrc (c : icls) : bool := negb (icls_eqb c ReportCount).
Definition held (s : mm_state) : list item :=
  mm_before s ++ match mm_mains s with [] => [] | m :: _ => [m] end ++ mm_after s.
Definition mm_data (s : mm_state) : Prop := Forall (fun i => data_tag (ic i) = true) (mm_mains s).

Lemma not_rc_sel l : sel nrc (filter not_rc l) = sel nrc l.
Proof. apply sel_filter. intros i H. exact H. Qed.

Lemma flush_held s : sel nrc (snd (mm_flush s) ++ held (fst (mm_flush s))) = sel nrc (held s).
Proof.
  unfold mm_flush, held. cbn [fst snd mm_before mm_mains mm_after app]. rewrite app_nil_r, !sel_app, not_rc_sel.
  destruct (mm_mains s) as [|m r]; rewrite <- app_assoc; [reflexivity|]. rewrite !sel_cons. reflexivity.
Qed.

Lemma flush_data s : mm_data (fst (mm_flush s)).
Proof. constructor. Qed.

Lemma mm_thins s i : mm_data s ->
  thins (sel nrc (held s ++ [i])) (sel nrc (snd (mm_append s i) ++ held (fst (mm_append s i)))) /\ mm_data (fst (mm_append s i)).
Proof.
  intros D. unfold mm_append, ikd.
  assert (PUSH : forall p, sel nrc (held (MM (mm_before s) (mm_mains s) (mm_after s ++ [i]) (mm_bcount s) (mm_acount s) p)) = sel nrc (held s ++ [i])).
  { intros p. unfold held. cbn [mm_before mm_mains mm_after]. rewrite !sel_app, <- !app_assoc. reflexivity. }
  destruct (kind_of (ic i)) eqn:K.
  - destruct (is_data (ic i)) eqn:DI; cbn [negb].
    + assert (SS : exists s1 o1, match mm_mains s with
            | m :: _ => if item_eqb i m then (s, []) else mm_flush s | [] => (s, []) end = (s1, o1) /\
            mm_data s1 /\ sel nrc (o1 ++ held s1) = sel nrc (held s) /\
            match mm_mains s1 with [] => True | m :: _ => cv m = cv i end).
      { pose proof (flush_held s) as F. destruct (mm_mains s) as [|m r] eqn:M.
        - exists s, []. rewrite M. auto.
        - destruct (item_eqb i m) eqn:E.
          + exists s, []. rewrite M. split; [reflexivity|]. split; [exact D|]. split; [reflexivity|].
            apply item_eqb_spec in E. destruct E as [E1 E2]. unfold cv. rewrite E1, E2. reflexivity.
          + exists (fst (mm_flush s)), (snd (mm_flush s)). split; [destruct (mm_flush s); reflexivity|].
            split; [apply flush_data|]. split; [exact F|exact I]. }
      destruct SS as [s1 [o1 [-> [D1 [S1 EQ]]]]].
      set (s2 := MM _ _ _ _ _ _).
      assert (D2 : mm_data s2). { unfold mm_data, s2. cbn [mm_mains]. apply Forall_app. split; [exact D1|]. constructor; [rewrite data_tag_is; exact DI|constructor]. }
      assert (T2 : thins (sel nrc (held s ++ [i])) (sel nrc (o1 ++ held s2))).
      { rewrite sel_app, <- S1, <- sel_app, <- app_assoc. rewrite !sel_app. apply thins_app; [apply thins_refl|].
        unfold mm_data in D1. unfold held, s2. cbn [mm_before mm_mains mm_after]. destruct (mm_mains s1) as [|m r]; cbn [app].
        - rewrite <- !sel_app, <- !app_assoc. apply thins_refl.
        - inversion D1 as [|? ? DM DR]; subst.
          assert (KM : nrc (ic m) = true) by (destruct (ic m); try discriminate DM; reflexivity).
          assert (EC : ic m = ic i) by (injection EQ; auto).
          rewrite <- sel_app, <- !app_assoc. cbn [app].
          rewrite !(sel_app nrc (mm_before s1)). apply thins_app; [apply thins_refl|].
          cbn [app]. rewrite (sel_cons nrc m), KM, !sel_app. constructor; [exact DM|]. apply thins_app; [apply thins_refl|].
          rewrite !sel_cons, <- EC, KM, EQ. apply thins_refl. }
      destruct (negb (mm_acount s1 =? 1)); [|cbn [fst snd]; auto].
      pose proof (flush_held s2) as F. pose proof (flush_data s2) as FD. destruct (mm_flush s2) as [s3 o2]. cbn [fst snd] in *. split; auto.
      rewrite <- app_assoc, (sel_app nrc o1), F, <- sel_app. exact T2.
    + rewrite flush_held, PUSH. split; [apply thins_refl|constructor].
  - match goal with |- context [if ?b then ?x else ?y] =>
      assert (S1 : sel nrc (snd (if b then x else y) ++ held (fst (if b then x else y))) = sel nrc (held s ++ [i]) /\ mm_data (fst (if b then x else y))) end.
    { match goal with |- context [if ?b then _ else _] => destruct b end.
      - rewrite flush_held. cbn [mm_before mm_mains mm_after mm_bcount mm_acount mm_props]. rewrite PUSH. split; [reflexivity|constructor].
      - cbn [fst snd app]. rewrite PUSH. auto. }
    match type of S1 with context [if ?b then ?x else ?y] => destruct (if b then x else y) as [s2 out] end.
    cbn [fst snd] in *. destruct S1 as [S1 D2].
    assert (EQ : forall s3, held s3 = held s2 -> mm_data s3 -> thins (sel nrc (held s ++ [i])) (sel nrc (out ++ held s3)) /\ mm_data s3).
    { intros s3 -> D3. rewrite S1. split; [apply thins_refl|auto]. }
    destruct (ic i); apply EQ; auto.
  - cbn [fst snd app]. rewrite PUSH. split; [apply thins_refl|auto].
Qed.

Lemma mm_thins_run l : ends l -> thins (sel nrc l) (sel nrc (run_pass main_merge l)).
Proof.
  intros EN. unfold run_pass. change (p_init main_merge) with mm_init.
  assert (X : thins (sel nrc l) (sel nrc (snd (feed main_merge mm_init l) ++ held (fst (feed main_merge mm_init l)))) /\
              mm_data (fst (feed main_merge mm_init l))).
  { clear EN. induction l as [|i l IH] using rev_ind; [split; constructor|].
    destruct IH as [IH D]. rewrite feed_app. cbn [feed fst snd]. change (p_append main_merge) with mm_append.
    destruct (mm_thins _ i D) as [T D2]. destruct (mm_append (fst (feed main_merge mm_init l)) i) as [s1 o1]. cbn [fst snd] in *.
    split; auto. rewrite app_nil_r, <- app_assoc. set (o := snd (feed main_merge mm_init l)) in *.
    apply thins_trans with (sel nrc (o ++ held (fst (feed main_merge mm_init l)) ++ [i])).
    - rewrite app_assoc, (sel_app nrc l), (sel_app nrc (o ++ _)). apply thins_app; [exact IH|apply thins_refl].
    - rewrite !(sel_app nrc o). apply thins_app; [apply thins_refl|exact T]. }
  destruct X as [X _].
  assert (M : mm_mains (fst (feed main_merge mm_init l)) = []).
  { destruct EN as [l' [i [-> [K D]]]]. rewrite feed_app. cbn [feed fst snd]. change (p_append main_merge) with mm_append.
    unfold mm_append, ikd. rewrite K, D. reflexivity. }
  destruct (feed main_merge mm_init l) as [s o]. cbn [fst snd] in *.
  change (p_close main_merge s) with (mm_close s). unfold mm_close, held in *. rewrite M in *. exact X.
Qed.

(** chunks of a thinner stream *)
Lemma thins_chunks (P : list spec_item -> Prop) : (forall a b, P a -> P b -> P (a ++ b)) ->
  forall a b, thins a b -> forall s, Forall P (chunked s a) -> Forall P (chunked s b).
Proof.
  intros HP a b T. induction T as [|x a b T IH|x a b D T IH]; intros s F; auto.
  - destruct (main_tag (fst x)) eqn:M.
    + rewrite chunked_main in * by auto. inversion F; subst. constructor; auto.
      rewrite <- chunked_nil in *. apply IH; auto.
    + rewrite <- chunked_snoc in * by auto. auto.
  - assert (M : main_tag (fst x) = true) by (destruct (fst x); try discriminate D; reflexivity).
    rewrite chunked_main in F by auto. inversion F as [|? ? P1 P2]; subst. apply IH.
    unfold chunked. destruct (chunks_some a) as [c [cs E]]. rewrite E in *. inversion P2; subst. constructor; auto.
Qed.

Definition keep (K : icls -> bool) (c : list spec_item) : list spec_item := filter (fun x => K (fst x)) c.

Lemma chunks_keep K l : (forall c, main_tag c = true -> K c = true) -> chunks (keep K l) = map (keep K) (chunks l).
Proof.
  intros HK. induction l as [|x l IH]; auto. unfold keep at 1. cbn [filter]. fold (keep K l).
  destruct (main_tag (fst x)) eqn:M.
  - rewrite (HK _ M). cbn [chunks]. rewrite M, IH. reflexivity.
  - cbn [chunks]. rewrite M. destruct (chunks_some l) as [c [cs E]]. rewrite E in *. cbn [map] in *.
    assert (KX : keep K (x :: c) = if K (fst x) then x :: keep K c else keep K c) by reflexivity. rewrite KX.
    destruct (K (fst x)); [cbn [chunks]; rewrite M, IH; reflexivity|exact IH].
Qed.

Lemma keep_last K c l : K c = true -> last_of c (keep K l) = last_of c l.
Proof.
  intros HK. induction l as [|x l IH]; auto. unfold keep. cbn [filter last_of]. fold (keep K l).
  destruct (K (fst x)) eqn:E; cbn [last_of]; rewrite IH; auto.
  destruct (last_of c l); auto. destruct (icls_eqb (fst x) c) eqn:Q; auto. apply icls_eqb_eq in Q. congruence.
Qed.

Lemma keep_own K c : (forall c, bounds_tag c = true -> K c = true) -> own_physical (keep K c) <-> own_physical c.
Proof.
  intros HK. unfold own_physical, all_bounds. rewrite !keep_last by (apply HK; reflexivity).
  split; (intros [H|H]; [left|right; exact H]).
  - apply Forall_forall. intros x I. destruct (bounds_tag (fst x)) eqn:B; auto.
    rewrite Forall_forall in H. rewrite <- B. apply H. apply filter_In. auto.
  - apply Forall_forall. intros x I. apply filter_In in I. rewrite Forall_forall in H. apply H. tauto.
Qed.

Lemma keep_owns K l : (forall c, bounds_tag c = true \/ main_tag c = true -> K c = true) ->
  Forall own_physical (chunks (keep K l)) <-> Forall own_physical (chunks l).
Proof.
  intros HK. rewrite chunks_keep by auto. rewrite Forall_map. split; apply Forall_impl; intros c; apply keep_own; auto.
Qed.

Lemma mm_owns l : ends l -> Forall own_physical (chunks (map cv l)) -> Forall own_physical (chunks (map cv (run_pass main_merge l))).
Proof.
  intros E F. apply (keep_owns nrc). { intros c [H|H]; destruct c; try discriminate; reflexivity. }
  change (Forall own_physical (chunks (sel nrc (run_pass main_merge l)))). rewrite <- chunked_nil.
  eapply thins_chunks; [exact own_sum|apply mm_thins_run; auto|].
  rewrite chunked_nil. apply (keep_owns nrc); [|exact F]. intros c [H|H]; destruct c; try discriminate; reflexivity.
Qed.

Lemma owns_ok cs : Forall own_physical cs -> forall n g, physical_ok n g cs.
Proof.
  induction 1 as [|c cs H F IH]; intros n g; cbn [physical_ok]; auto.
  destruct H as [H|[p [q [a [b [H N]]]]]]; [left; auto|]. right. right. exists p, q, a, b. auto.
Qed.

Lemma chunks_each (P : spec_item -> Prop) l : Forall P l -> Forall (Forall P) (chunks l).
Proof.
  induction 1 as [|x l H F IH]; [repeat constructor|]. cbn [chunks]. destruct (main_tag (fst x)); [constructor; auto|].
  destruct (chunks l); inversion IH; subst; repeat constructor; auto.
Qed.

Lemma zeros_ok l : no_physical l -> physical_ok (0, 0) (0, 0) (chunks l).
Proof.
  intros H. pose proof (chunks_each _ _ H) as C. induction C; cbn [physical_ok]; auto. right. left. auto.
Qed.

(* ------------------------------------------------------------------ *)
(** all passes *)

Definition plain_item (i : item) : Prop :=
  constructed i /\ (usage_tag (ic i) = true -> 65536 <= ival i) /\ ic i <> Delimiter /\ ic i <> Push /\ ic i <> Pop.

Lemma plain_split l : Forall plain_item l <->
  Forall constructed l /\ extended (map cv l) /\ Forall (fun x => fst x <> Delimiter) (map cv l) /\ push_free l.
Proof.
  unfold extended, push_free. rewrite !Forall_map. rewrite !Forall_forall. unfold plain_item. cbn [cv fst snd].
  split.
  - intros H. split; [|split; [|split]]; intros i I; destruct (H i I); tauto.
  - intros [A [B [C D]]] i I. specialize (A i I). specialize (B i I). specialize (C i I). specialize (D i I). tauto.
Qed.

Lemma rm_plain db lk mn mx l : In (lk, mn, mx) [(Usage, UsageMinimum, UsageMaximum); (StringIndex, StringMinimum, StringMaximum); (DesignatorIndex, DesignatorMinimum, DesignatorMaximum)] ->
  Forall plain_item l -> Forall plain_item (run_pass (range_merge db lk mn mx) l).
Proof.
  intros I. apply rm_each. intros i c [C [U [D [P1 P2]]]] E M.
  assert (S : single lk) by (destruct I as [I|[I|[I|[]]]]; injection I as <- <- <-; unfold single; auto).
  assert (F : fam lk c = true) by (destruct I as [I|[I|[I|[]]]]; injection I as <- <- <-; destruct M as [-> | [-> | ->]]; reflexivity).
  destruct (rebuild_ok db lk c i C S E F) as [j [-> [J1 [J2 J3]]]]. constructor; [|constructor].
  split; [exact J3|]. rewrite J1, J2.
  destruct I as [I|[I|[I|[]]]]; injection I as <- <- <-; rewrite E in *; destruct M as [-> | [-> | ->]];
    cbn [usage_tag] in *; repeat split; auto; discriminate.
Qed.

Lemma mm_plain l : Forall plain_item l -> Forall plain_item (run_pass main_merge l).
Proof.
  apply mm_each.
  - intros n H. split; [apply rc_built; auto|]. repeat split; discriminate.
  - intros i [C _]. apply rc_nonneg; auto.
Qed.

Definition before_pages (db : udb) (l : list item) : list item :=
  run_pass (usage_merge db) (run_pass (designator_merge db) (run_pass (string_merge db)
    (run_pass global_merge (run_pass physical_merge (run_pass main_merge l))))).

Lemma optimize_pages db l : noz (map cv l) -> ends l ->
  optimize db l = run_pass (usage_page_pass db) (before_pages db l).
Proof. intros N E. rewrite optimize_all. cbn [passes map snd run_all fold_left]. rewrite du_id by auto. reflexivity. Qed.

Lemma before_view db m l : Forall plain_item l -> ends l -> joins (uniform m) (main_states (map wire l)) ->
  (no_physical (map cv l) \/ Forall own_physical (chunks (map cv l))) ->
  Forall plain_item (before_pages db l) /\ seen m (before_pages db l) = seen m l.
Proof.
  intros P E J PH. pose proof (proj1 (plain_split _) P) as [C [_ [_ PF]]].
  unfold before_pages. set (l1 := run_pass main_merge l).
  assert (S1 : seen m l1 = seen m l) by (apply c37; auto).
  assert (P1 : Forall plain_item l1) by (apply mm_plain; auto).
  assert (O1 : physical_ok (0, 0) (0, 0) (chunks (map cv l1))).
  { destruct PH as [Z|O].
    - apply zeros_ok. unfold no_physical in *. rewrite Forall_map in *. cbn [cv fst snd] in *. unfold l1.
      assert (Q : Forall (fun i => constructed i /\ (physical_tag (ic i) = true -> ival i = 0)) (run_pass main_merge l)).
      { apply mm_each.
        - intros n H. split; [apply rc_built; auto|discriminate].
        - intros i [B _]. apply rc_nonneg; auto.
        - rewrite Forall_forall in *. auto. }
      eapply Forall_impl; [|exact Q]. intros i [_ H]. exact H.
    - apply owns_ok. apply mm_owns; auto. }
  set (l2 := run_pass physical_merge l1).
  assert (S2 : seen m l2 = seen m l) by (unfold l2; rewrite c38; auto; apply plain_split in P1; tauto).
  assert (P2 : Forall plain_item l2) by (apply pm_each; auto).
  set (l3 := run_pass global_merge l2).
  assert (S3 : seen m l3 = seen m l) by (rewrite <- S2; apply c33; apply plain_split in P2; tauto).
  assert (P3 : Forall plain_item l3) by (apply gm_each; auto).
  set (l4 := run_pass (string_merge db) l3).
  assert (S4 : seen m l4 = seen m l).
  { rewrite <- S3. apply c35; [left; reflexivity|]. apply plain_split in P3. tauto. }
  assert (P4 : Forall plain_item l4) by (apply rm_plain; cbn [In]; auto).
  set (l5 := run_pass (designator_merge db) l4).
  assert (S5 : seen m l5 = seen m l).
  { rewrite <- S4. apply c35; [right; left; reflexivity|]. apply plain_split in P4. tauto. }
  assert (P5 : Forall plain_item l5) by (apply rm_plain; cbn [In]; auto).
  split; [apply rm_plain; cbn [In]; auto|].
  rewrite <- S5. apply plain_split in P5. destruct P5 as [C5 [X5 [D5 _]]]. apply c35_usages; auto.
  assert (Q : Forall (fun x => fst x <> Delimiter /\ (usage_tag (fst x) = true -> 65536 <= snd x)) (map cv l5)).
  { unfold extended in X5. rewrite Forall_forall in *. auto. }
  apply chunks_each in Q. eapply Forall_impl; [|exact Q]. intros c H. unfold plain_usages.
  split; [|left]; (eapply Forall_impl; [|exact H]); intros x; cbn; tauto.
Qed.

Lemma regular_split l : Forall constructed l -> push_free l -> regular (map cv l) ->
  Forall plain_item l /\ noz (map cv l) /\ (no_physical (map cv l) \/ Forall own_physical (chunks (map cv l))).
Proof.
  intros C P [E [D PH]]. split; [|split; [|exact PH]].
  - apply plain_split. repeat split; auto. eapply Forall_impl; [|exact D]. cbn. tauto.
  - eapply Forall_impl; [|exact D]. cbn. tauto.
Qed.

Lemma c40_items db l : Forall constructed l -> push_free l -> ends l -> regular (map cv l) ->
  joins (uniform AtDecl) (main_states (map wire l)) ->
  seen AtDecl (optimize db l) = seen AtDecl l.
Proof.
  intros C P E R J. destruct (regular_split l C P R) as [PL [N PH]]. rewrite optimize_pages by auto.
  destruct (before_view db AtDecl l PL E J PH) as [PB S]. rewrite <- S.
  apply plain_split in PB. destruct PB as [A [B [D F]]]. apply c36; auto.
Qed.

(* ------------------------------------------------------------------ *)
(** pages of the usages before each main item *)

Definition pls (c : icls) (v : Z) (e : bool) (p : Z) (xs : list Z) : list Z :=
  if usage_tag c then xs ++ [v / 65536] else xs.
Definition mono (xs : list Z) : bool := match xs with [] => true | p :: r => forallb (Z.eqb p) r end.
Definition pobs (g : gtab) (x : list Z) (c : icls) (v : Z) : list unit := if mono x then [] else [tt].
Definition upages (l : list spec_item) : list Z := map (fun x => snd x / 65536) (filter (fun x => usage_tag (fst x)) l).

Lemma mono_all xs : mono xs = true <-> exists p, Forall (eq p) xs.
Proof.
  destruct xs as [|p r]; cbn [mono]; [split; [exists 0; constructor|auto]|].
  rewrite forallb_forall. split.
  - intros H. exists p. constructor; auto. apply Forall_forall. intros x I. specialize (H x I). lia.
  - intros [q F]. inversion F as [|? ? E F2]; subst. rewrite Forall_forall in F2. intros x I. specialize (F2 x I). lia.
Qed.

Lemma upages_app a b : upages (a ++ b) = upages a ++ upages b.
Proof. unfold upages. rewrite filter_app, map_app. reflexivity. Qed.

Lemma one_mono c : one_page c <-> mono (upages c) = true.
Proof.
  rewrite mono_all. unfold one_page, upages. split; intros [p F]; exists p.
  - apply Forall_map. apply Forall_forall. intros x I. apply filter_In in I. rewrite Forall_forall in F. symmetry. apply F; tauto.
  - rewrite Forall_map in F. apply Forall_forall. intros x I U. rewrite Forall_forall in F. symmetry. apply F. apply filter_In. auto.
Qed.

Definition prun (s : gtab * list Z) (l : list item) := m_run [] pls pobs s (map wire l).

Lemma prun_mono l : forall g xs seg, upages seg = xs ->
  (Forall one_page (chunked seg (map cv l)) <-> snd (prun (g, xs) l) = [] /\ mono (snd (fst (prun (g, xs) l))) = true).
Proof.
  induction l as [|i l IH]; intros g xs seg <-.
  - unfold prun, chunked. cbn [map m_run fst snd chunks]. rewrite app_nil_r. split.
    + intros F. inversion F; subst. split; auto. apply one_mono; auto.
    + intros [_ H]. constructor; [apply one_mono; auto|constructor].
  - unfold prun in *. cbn [map m_run]. unfold m_step. cbn [wire w_cls w_val w_ext].
    destruct (kind_of (ic i)) eqn:K.
    + rewrite (proj2 (hid_main _) K). specialize (IH g [] [] eq_refl). rewrite chunked_nil in IH.
      destruct (m_run [] pls pobs (g, []) (map wire l)) as [s o]. cbn [fst snd] in *.
      rewrite chunked_main by (apply main_tag_kind; auto). unfold pobs. rewrite Forall_cons_iff, one_mono.
      destruct (mono (upages seg)); cbn [app]; [tauto|]. split; [intros [Q _]; discriminate|intros [Q _]; discriminate].
    + rewrite (proj2 (hid_global _) K).
      assert (M : main_tag (fst (cv i)) = false).
      { destruct (main_tag (fst (cv i))) eqn:Q; auto. apply main_tag_kind in Q. cbn [cv fst] in Q. congruence. }
      rewrite <- chunked_snoc by exact M.
      assert (U : upages (seg ++ [cv i]) = upages seg).
      { rewrite upages_app. unfold upages at 2. cbn [filter cv fst]. replace (usage_tag (ic i)) with false; [apply app_nil_r|].
        destruct (ic i); try discriminate K; reflexivity. }
      rewrite (IH (g_set (ic i) (ival i) g) _ _ U).
      destruct (m_run [] pls pobs (g_set (ic i) (ival i) g, upages seg) (map wire l)) as [s o]. reflexivity.
    + rewrite (proj2 (hid_local _) K).
      assert (M : main_tag (fst (cv i)) = false).
      { destruct (main_tag (fst (cv i))) eqn:Q; auto. apply main_tag_kind in Q. cbn [cv fst] in Q. congruence. }
      rewrite <- chunked_snoc by exact M.
      assert (U : upages (seg ++ [cv i]) = pls (ic i) (ival i) (w_ext (wire i)) (g_page g) (upages seg)).
      { rewrite upages_app. unfold upages at 2, pls. cbn [filter cv fst]. destruct (usage_tag (ic i)); [reflexivity|apply app_nil_r]. }
      rewrite (IH g _ _ U). cbn [w_ext wire].
      match goal with |- context [m_run [] pls pobs (g, ?z) (map wire l)] => destruct (m_run [] pls pobs (g, z) (map wire l)) as [s o] end. reflexivity.
Qed.

Lemma prun_pages l : ends l -> (Forall one_page (chunks (map cv l)) <-> snd (prun (g_init, []) l) = []).
Proof.
  intros [l' [i [-> [K D]]]]. rewrite <- chunked_nil, (prun_mono _ g_init [] [] eq_refl).
  assert (X : snd (fst (prun (g_init, []) (l' ++ [i]))) = []).
  { unfold prun. rewrite map_app, m_run_app. cbn [fst snd]. destruct (fst (m_run [] pls pobs (g_init, []) (map wire l'))) as [g x].
    cbn [map m_run]. unfold m_step. cbn [wire w_cls]. rewrite (proj2 (hid_main _) K). reflexivity. }
  rewrite X. cbn [mono]. tauto.
Qed.

(** main items of one page *)
Definition onep (e1 e2 : @elem (list Z)) : Prop :=
  let '(_, x1, _, _) := e1 in
  let '(_, x2, _, _) := e2 in
  (exists p, Forall (eq p) (x1 ++ x2)) /\ (x1 = [] <-> x2 = []).

Lemma grp_onep lx n g x c v : grp (@app Z) onep lx n (g, x, c, v) ->
  (x = [] -> lx = []) /\ forall p, x <> [] -> Forall (eq p) x -> Forall (eq p) lx.
Proof.
  intros GR. remember (g, x, c, v) as e. revert g x c v Heqe.
  induction GR as [g0 x0 c0 v0 H|lx n e1 g0 x0 c0 v0 GR IH J RR H]; intros g x c v E; injection E as <- <- <- <-; auto.
  destruct e1 as [[[g1 x1] c1] v1]. destruct RR as [[q F] [N1 N2]]. destruct (IH _ _ _ _ eq_refl) as [I1 I2].
  apply Forall_app in F. destruct F as [F1 F2]. split.
  - intros Q. rewrite (I1 (N2 Q)), Q. reflexivity.
  - intros p N F. apply Forall_app. split; auto. apply I2.
    + intros Q. apply N. auto.
    + assert (p = q) by (destruct x0 as [|z r]; [congruence|]; inversion F; inversion F2; congruence). subst q. exact F1.
Qed.

Lemma mm_pages l : Forall constructed l -> push_free l -> ends l ->
  (forall t1 e1 e2 t2, itrace [] pls (start []) l = t1 ++ e1 :: e2 :: t2 -> joinable e1 e2 -> onep e1 e2) ->
  Forall one_page (chunks (map cv l)) -> Forall one_page (chunks (map cv (run_pass main_merge l))).
Proof.
  intros C P E J F. apply prun_pages in F; auto. apply prun_pages; [apply mm_ends; auto|].
  rewrite <- F. destruct E as [l' [i [-> [K D]]]].
  apply (main_merge_view [] pls pobs (@app Z) (fun _ => True) onep); auto.
  - intros x y c v e p _ _. unfold pls. destruct (usage_tag c); auto. rewrite app_assoc. reflexivity.
  - intros x _. apply app_nil_r.
  - intros lx n g1 x1 c v g2 x2 GR JJ [[p F1] [N1 N2]]. split; auto. unfold pobs.
    destruct (grp_onep _ _ _ _ _ _ GR) as [G1 G2]. apply Forall_app in F1. destruct F1 as [F1 F2].
    assert (FL : Forall (eq p) lx).
    { destruct x1 as [|z r]; [rewrite G1 by auto; constructor|]. apply G2; auto. discriminate. }
    rewrite !(proj2 (mono_all _)); auto; exists p; auto. apply Forall_app. auto.
Qed.

(** the page trace and the host *)
Definition uagree (xs : list Z) (x : locals) : Prop :=
  exists us, lo_us x = L (map (fun u => LOne (LR (fst u) true (snd u))) us) None None /\ xs = map (fun u => snd u / 65536) us.

Definition bare_item (i : item) : Prop := ic i <> UsageMinimum /\ ic i <> UsageMaximum /\ ic i <> UsagePage.

Lemma values_agree m pg us : values m pg (L (map (fun u => LOne (LR (fst u) true (snd u))) us) None None) = map snd us.
Proof. unfold values. cbn [l_decls]. induction us as [|u us IH]; auto. cbn [map flat_map resolve_decl]. rewrite IH. reflexivity. Qed.

Lemma trace_agree l : Forall plain_item l -> Forall bare_item l -> forall g xs x, uagree xs x ->
  Forall2 (fun (e : @elem (list Z)) (e' : @elem locals) =>
     let '(g, xs, c, v) := e in let '(g', x, c', v') := e' in g = g' /\ c = c' /\ v = v' /\ uagree xs x)
    (itrace [] pls (g, xs) l) (itrace lo_init lo_set (g, x) l).
Proof.
  intros P B. induction l as [|i l IH]; intros g xs x A; [constructor|].
  inversion P as [|? ? P1 P2]; subst. inversion B as [|? ? B1 B2]; subst.
  unfold itrace in *. cbn [map m_run]. unfold m_step. cbn [wire w_cls w_val].
  destruct (kind_of (ic i)) eqn:K.
  - rewrite (proj2 (hid_main _) K). specialize (IH P2 B2 g [] lo_init). 
    destruct (m_run [] pls _ (g, []) (map wire l)) as [s o]. destruct (m_run lo_init lo_set _ (g, lo_init) (map wire l)) as [s' o'].
    cbn [fst snd app] in *. constructor; auto. apply IH. exists []. auto.
  - rewrite (proj2 (hid_global _) K). specialize (IH P2 B2 (g_set (ic i) (ival i) g) xs x A).
    destruct (m_run [] pls _ _ (map wire l)) as [s o]. destruct (m_run lo_init lo_set _ _ (map wire l)) as [s' o']. exact IH.
  - rewrite (proj2 (hid_local _) K).
    assert (A2 : uagree (pls (ic i) (ival i) (w_ext (wire i)) (g_page g) xs) (lo_set (ic i) (ival i) (w_ext (wire i)) (g_page g) x)).
    { destruct A as [us [A1 ->]]. unfold pls. destruct (usage_tag (ic i)) eqn:U.
      - destruct P1 as [C [X _]]. destruct B1 as [B3 [B4 _]].
        assert (Q : ic i = Usage) by (destruct (ic i); try discriminate U; congruence).
        rewrite (ext_usage i C) by (rewrite Q; reflexivity). rewrite Q in *. specialize (X eq_refl).
        exists (us ++ [(g_page g, ival i)]). rewrite !map_app. cbn [map fst snd]. split; auto.
        destruct x as [us' ds ss dl]. cbn [lo_us lo_set] in *. rewrite A1. unfold add_one. cbn [l_decls l_min l_max].
        replace (65536 <=? ival i) with true by lia. reflexivity.
      - exists us. split; auto. rewrite <- A1. destruct x as [us' ds ss dl]. destruct (ic i); try discriminate U; reflexivity. }
    specialize (IH P2 B2 g _ _ A2).
    destruct (m_run [] pls _ _ (map wire l)) as [s o]. destruct (m_run lo_init lo_set _ _ (map wire l)) as [s' o']. exact IH.
Qed.

Lemma states_trace l : push_free l -> main_states (map wire l) = itrace lo_init lo_set (start lo_init) l.
Proof.
  intros P. unfold main_states, itrace, h_init, start.
  destruct (m_run_host (fun g x c v => [(g, x, c, v)]) (map wire l) g_init [] lo_init) as [st' Q]; [apply Forall_map; exact P|].
  rewrite Q. reflexivity.
Qed.

Lemma Forall2_app_inv_two {A B} (R : A -> B -> Prop) t1 e1 e2 t2 l' : Forall2 R (t1 ++ e1 :: e2 :: t2) l' ->
  exists t1' e1' e2' t2', l' = t1' ++ e1' :: e2' :: t2' /\ R e1 e1' /\ R e2 e2'.
Proof.
  intros F. apply Forall2_app_inv_l in F. destruct F as [a [b [_ [F ->]]]].
  inversion F as [|? e1' ? r ? F2]; subst. inversion F2 as [|? e2' ? r2]; subst. exists a, e1', e2', r2. auto.
Qed.

Lemma mm_one_page l : Forall plain_item l -> ends l -> bare_usages (map cv l) ->
  joins same_page (main_states (map wire l)) ->
  Forall one_page (chunks (map cv l)) -> Forall one_page (chunks (map cv (run_pass main_merge l))).
Proof.
  intros P E B J F. pose proof (proj1 (plain_split _) P) as [C [_ [_ PF]]]. rewrite states_trace in J by auto.
  apply mm_pages; auto. intros t1 e1 e2 t2 EQ JO.
  assert (B2 : Forall bare_item l) by (unfold bare_usages in B; rewrite Forall_map in B; exact B).
  assert (A0 : uagree [] lo_init) by (exists []; auto).
  pose proof (trace_agree l P B2 g_init [] lo_init A0) as T.
  change (g_init, @nil Z) with (start (@nil Z)) in T. rewrite EQ in T.
  apply Forall2_app_inv_two in T. destruct T as [t1' [e1' [e2' [t2' [EQ' [R1 R2]]]]]].
  specialize (J _ _ _ _ EQ').
  destruct e1 as [[[g1 x1] c1] v1], e2 as [[[g2 x2] c2] v2], e1' as [[[g1' y1] c1'] v1'], e2' as [[[g2' y2] c2'] v2'].
  destruct R1 as [<- [<- [<- [us1 [U1 ->]]]]], R2 as [<- [<- [<- [us2 [U2 ->]]]]].
  destruct J as [[p F2] N].
  - destruct JO as [J1 J2]. split; [|exact J2]. rewrite data_tag_is. exact J1.
  - rewrite U1, U2, !values_agree in *. split.
    + exists p. rewrite <- map_app in *. rewrite Forall_map in *. eapply Forall_impl; [|exact F2]. intros; cbn in *; auto.
    + destruct us1, us2; cbn in *; split; intros; try discriminate; auto; exfalso; destruct N as [N1 N2]; [specialize (N1 eq_refl)|specialize (N2 eq_refl)]; discriminate.
Qed.

Definition um (c : icls) : bool := usage_tag c || main_tag c.

Lemma keep_pages a b : sel um a = sel um b -> Forall one_page (chunks (map cv a)) <-> Forall one_page (chunks (map cv b)).
Proof.
  intros E.
  assert (X : forall l, Forall one_page (chunks (map cv l)) <-> Forall one_page (chunks (sel um l))).
  { intros l. change (sel um l) with (keep um (map cv l)). rewrite chunks_keep, Forall_map by (intros c H; unfold um; rewrite H, orb_true_r; reflexivity).
    assert (Y : forall c, one_page (keep um c) <-> one_page c).
    { intros c. unfold one_page, keep. split; intros [p F]; exists p; rewrite Forall_forall in *; intros x I.
      - intros U. apply F; auto. apply filter_In. unfold um. rewrite U. auto.
      - apply filter_In in I. apply F. tauto. }
    split; apply Forall_impl; intros c; apply Y. }
  rewrite (X a), (X b), E. tauto.
Qed.

Lemma rm_pages db l : Forall constructed l -> Forall one_page (chunks (map cv l)) ->
  Forall one_page (chunks (map cv (run_pass (usage_merge db) l))).
Proof.
  intros C F. pose proof (range_chunks db Usage (or_introl eq_refl) l C) as R. change (range_merge db Usage (mn_of Usage) (mx_of Usage)) with (usage_merge db) in R.
  induction R as [|c c' cs cs' [_ H] R IH]; constructor; inversion F as [|? ? [p F1] F2]; subst; auto.
  assert (U : forall d, fam Usage d = usage_tag d) by (intros d; destruct d; reflexivity).
  exists p. eapply Forall_impl; [|apply (H (fun v => v / 65536 = p)); eapply Forall_impl; [|exact F1]]; intros x; cbn; rewrite U; auto.
Qed.

Lemma page_free_settled l : Forall (fun x => page_tag (fst x) = false) l -> page_settled l.
Proof. induction 1 as [|[c v] l H F IH]; cbn [page_settled]; auto. Qed.

Lemma before_pages_each (Q : item -> Prop) db l :
  (forall n, 0 <= n -> Q (rc_item n)) -> (forall i, Q i -> ic i = ReportCount -> 0 <= ival i) ->
  (forall c v, kind_of c = Local -> Forall Q (rebuild db c v)) ->
  Forall Q l -> Forall Q (before_pages db l).
Proof.
  intros R1 R2 R3 F. unfold before_pages.
  assert (RM : forall lk mn mx l, kind_of lk = Local -> kind_of mn = Local -> kind_of mx = Local -> Forall Q l -> Forall Q (run_pass (range_merge db lk mn mx) l)).
  { intros lk mn mx l0 K1 K2 K3. apply rm_each. intros i c _ _ [-> | [-> | ->]]; apply R3; auto. }
  repeat (apply RM; [reflexivity|reflexivity|reflexivity|]). apply gm_each, pm_each, mm_each; auto.
Qed.

Lemma c42_items db l : Forall constructed l -> push_free l -> ends l -> regular (map cv l) -> bare_usages (map cv l) ->
  joins (fun e1 e2 => uniform AtDecl e1 e2 /\ same_page e1 e2) (main_states (map wire l)) ->
  Forall one_page (chunks (map cv l)) ->
  forall m, seen m (optimize db l) = seen AtDecl l.
Proof.
  intros C P E R B J F m.
  assert (J1 : joins (uniform AtDecl) (main_states (map wire l))) by (intros t1 e1 e2 t2 EQ MJ; apply (J t1 e1 e2 t2 EQ MJ)).
  assert (J2 : joins same_page (main_states (map wire l))) by (intros t1 e1 e2 t2 EQ MJ; apply (J t1 e1 e2 t2 EQ MJ)).
  destruct m; [apply c40_items; auto|].
  destruct (regular_split l C P R) as [PL [N PH]]. rewrite optimize_pages by auto.
  destruct (before_view db AtDecl l PL E J1 PH) as [PB S]. rewrite <- S.
  assert (OP : Forall one_page (chunks (map cv (before_pages db l)))).
  { unfold before_pages. apply rm_pages.
    - assert (Q : forall lk mn mx l, Forall constructed l -> Forall constructed (run_pass (range_merge db lk mn mx) l))
        by (intros; apply rm_each; auto; intros; apply rebuild_built).
      apply Q, Q, gm_each, pm_each, mm_each; auto using rc_built, rc_nonneg.
    - apply (keep_pages _ (run_pass main_merge l)); [|apply mm_one_page; auto].
      unfold designator_merge, string_merge.
      rewrite rm_keep, rm_keep, gm_keep, pm_keep; try reflexivity. intros c K. destruct c; try discriminate K; reflexivity. }
  assert (PF : Forall (fun x => page_tag (fst x) = false) (map cv (before_pages db l))).
  { apply Forall_map. 
    assert (Q : Forall (fun i => constructed i /\ page_tag (ic i) = false) (before_pages db l)).
    { apply before_pages_each.
      - intros n H. split; [apply rc_built; auto|reflexivity].
      - intros i [H _]. apply rc_nonneg; auto.
      - intros c v K. pose proof (rebuild_built db c v) as A1. pose proof (rebuild_class db c v) as A2.
        rewrite Forall_forall in *. intros i I. split; auto. rewrite (A2 i I). destruct c; try discriminate K; reflexivity.
      - unfold bare_usages, push_free in *. rewrite Forall_map in B. rewrite Forall_forall in *. intros i I. split; auto.
        specialize (B i I). specialize (P i I). cbn [cv fst] in B. destruct (ic i); try reflexivity; tauto. }
    eapply Forall_impl; [|exact Q]. intros i [_ H]. exact H. }
  apply plain_split in PB. destruct PB as [A1 [A2 [A3 A4]]].
  destruct (c36 db (before_pages db l) A1 A4 A2) as [_ [_ [_ X]]]. rewrite X.
  - apply ext_binding; auto.
  - apply chunks_each in PF. rewrite Forall_forall in *. intros c I. split; [|apply OP; auto].
    apply page_free_settled. apply PF. auto.
Qed.
