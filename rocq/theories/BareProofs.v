(* BareProofs.v -- what the optimiser keeps of every stream: the attributes of
   all fields (C32_attributes), and per pass C37_always, C38_always,
   C39_always. *)
From Coq Require Import ZifyBool ZifyNat.
From Verif Require Import Py Usage Item Optimizer HidSpec ItemFacts ParserFacts OptSpec OptFacts MainMergeFacts Skeleton PassFacts MergeFacts OptAll BareSpec.
Local Open Scope list_scope.
Local Open Scope Z_scope.

Definition bare (k : bool) (e : event) : event := if k then unlabelled e else unscaled (unlabelled e).

Definition battrs (k : bool) (g : gtab) (c : icls) (v : Z) : attrs :=
  if k then mk_attrs g c v else no_bounds (mk_attrs g c v).

Definition bobs (k : bool) (g : gtab) (x : unit) (c : icls) (v : Z) : list event :=
  match c with
  | Collection => [EvColl v [] [] [] []]
  | EndCollection => [EvEnd]
  | _ => repeat (if is_constant v then EvPad c (g_rid g) v (g_size g)
                 else if is_variable v then EvVar (battrs k g c v) None None None []
                 else EvArr (battrs k g c v) [] [] [] []) (Z.to_nat (g_count g))
  end.

Lemma bobs_full k m g l c v : map (bare k) (full_obs m g l c v) = bobs k g tt c v.
Proof.
  unfold full_obs, bobs.
  assert (D : map (bare k) (data_events m g l c v) =
    repeat (if is_constant v then EvPad c (g_rid g) v (g_size g)
                 else if is_variable v then EvVar (battrs k g c v) None None None []
                 else EvArr (battrs k g c v) [] [] [] []) (Z.to_nat (g_count g))).
  { unfold data_events. set (n := Z.to_nat (g_count g)).
    destruct (is_constant v); [rewrite map_repeat; destruct k; reflexivity|].
    destruct (is_variable v); [|rewrite map_repeat; destruct k; reflexivity].
    rewrite map_map. generalize 0%nat. induction n as [|n IH]; intros j; auto. cbn [seq map repeat]. rewrite IH. destruct k; reflexivity. }
  destruct c; destruct k; auto.
Qed.

Definition bares (k : bool) (g : gtab) (l : list item) : list event := snd (m_run tt nols (bobs k) (g, tt) (map wire l)).

Lemma bares_seen_gen k m l : forall g lo,
  map (bare k) (snd (m_run lo_init lo_set (full_obs m) (g, lo) (map wire l))) = bares k g l.
Proof.
  unfold bares. induction l as [|i l IH]; intros g lo; auto.
  cbn [map m_run]. unfold m_step. destruct (hid_kind (w_cls (wire i))).
  - specialize (IH g lo_init).
    destruct (m_run lo_init lo_set (full_obs m) (g, lo_init) (map wire l)).
    destruct (m_run tt nols (bobs k) (g, tt) (map wire l)). cbn [snd] in *.
    rewrite map_app, bobs_full, IH. reflexivity.
  - specialize (IH (g_set (w_cls (wire i)) (w_val (wire i)) g) lo).
    destruct (m_run lo_init lo_set (full_obs m) _ (map wire l)).
    destruct (m_run tt nols (bobs k) _ (map wire l)). exact IH.
  - specialize (IH g (lo_set (w_cls (wire i)) (w_val (wire i)) (w_ext (wire i)) (g_page g) lo)).
    destruct (m_run lo_init lo_set (full_obs m) _ (map wire l)).
    change (nols _ _ _ _ tt) with tt.
    destruct (m_run tt nols (bobs k) _ (map wire l)). exact IH.
Qed.

Lemma bares_seen k m l : push_free l -> map (bare k) (seen m l) = bares k g_init l.
Proof. intros P. rewrite seen_machine by auto. apply bares_seen_gen. Qed.

(** the items that matter *)
Definition bare_tag (k : bool) (c : icls) : bool :=
  match kind_of c with
  | Main => true
  | Global => match c with UsagePage => false | PhysicalMinimum | PhysicalMaximum => k | _ => true end
  | Local => false
  end.

(** equal page and, without physical ranges, those *)
Definition leave (k : bool) (g : gtab) : gtab :=
  let g1 := g_set UsagePage 0 g in if k then g1 else g_set PhysicalMinimum 0 (g_set PhysicalMaximum 0 g1).
Definition beq (k : bool) (g g' : gtab) : Prop := leave k g = leave k g'.

Fixpoint b_run (k : bool) (g : gtab) (l : list spec_item) : list event :=
  match l with
  | [] => []
  | (c, v) :: r => if main_tag c then bobs k g tt c v ++ b_run k g r else b_run k (g_set c v g) r
  end.

Lemma bares_cons k g i l : bares k g (i :: l) =
  match kind_of (ic i) with
  | Main => bobs k g tt (ic i) (ival i) ++ bares k g l
  | Global => bares k (g_set (ic i) (ival i) g) l
  | Local => bares k g l
  end.
Proof.
  unfold bares. cbn [map m_run]. unfold m_step. cbn [w_cls wire w_val w_ext].
  destruct (kind_of (ic i)) eqn:K.
  - rewrite (proj2 (hid_main _) K). destruct (m_run tt nols (bobs k) (g, tt) (map wire l)). reflexivity.
  - rewrite (proj2 (hid_global _) K). destruct (m_run tt nols (bobs k) _ (map wire l)). reflexivity.
  - rewrite (proj2 (hid_local _) K). change (nols _ _ _ _ tt) with tt.
    destruct (m_run tt nols (bobs k) _ (map wire l)). reflexivity.
Qed.

Lemma beq_bobs k g g' c v : beq k g g' -> bobs k g tt c v = bobs k g' tt c v.
Proof.
  intros E. assert (A : g_rid g = g_rid g' /\ g_size g = g_size g' /\ g_count g = g_count g' /\ battrs k g c v = battrs k g' c v).
  { destruct g, g'. unfold beq, leave in E. destruct k; cbn in E; injection E; intros; subst; repeat split; reflexivity. }
  destruct A as (A1 & A2 & A3 & A4). unfold bobs. rewrite A1, A2, A3, A4. reflexivity.
Qed.
Lemma beq_set k c v g g' : beq k g g' -> beq k (g_set c v g) (g_set c v g').
Proof. destruct g, g'. unfold beq, leave. destruct k; cbn; intros E; injection E; intros; subst; destruct c; reflexivity. Qed.
Lemma beq_irr k c v g g' : beq k g g' -> kind_of c = Global -> bare_tag k c = false -> beq k (g_set c v g) g'.
Proof.
  destruct g, g'. unfold beq, leave. destruct k; cbn; intros E; injection E; intros; subst; destruct c; try discriminate; reflexivity.
Qed.

Lemma bares_sel k l : forall g g', beq k g g' -> bares k g l = b_run k g' (sel (bare_tag k) l).
Proof.
  induction l as [|i l IH]; intros g g' E; auto.
  rewrite bares_cons, sel_cons.
  destruct (kind_of (ic i)) eqn:K.
  - assert (L : bare_tag k (ic i) = true) by (unfold bare_tag; rewrite K; reflexivity).
    rewrite L. unfold cv at 1. cbn [b_run]. rewrite (proj2 (main_tag_kind _) K), (beq_bobs _ _ _ _ _ E).
    f_equal. apply IH; auto.
  - destruct (bare_tag k (ic i)) eqn:L.
    + unfold cv at 1. cbn [b_run]. rewrite (mt_global _ K). apply IH. apply beq_set; auto.
    + apply IH. apply beq_irr; auto.
  - assert (L : bare_tag k (ic i) = false) by (unfold bare_tag; rewrite K; reflexivity).
    rewrite L. apply IH; auto.
Qed.

Lemma bares_keep k l l' : sel (bare_tag k) l' = sel (bare_tag k) l -> forall g, bares k g l' = bares k g l.
Proof. intros E g. rewrite (bares_sel k l' g g), (bares_sel k l g g), E; reflexivity. Qed.

(** MainMerge *)
Lemma mm_bares k l i :
  push_free (l ++ [i]) -> Forall constructed (l ++ [i]) -> kind_of (ic i) = Main -> is_data (ic i) = false ->
  bares k g_init (run_pass main_merge (l ++ [i])) = bares k g_init (l ++ [i]).
Proof.
  intros P C K D. unfold bares.
  pose (R := fun (e1 e2 : @elem unit) => 0 <= g_count (fst (fst (fst e2)))).
  apply (main_merge_view tt nols (bobs k) (fun _ _ => tt) (fun _ => True) R); auto.
  - intros [] _. reflexivity.
  - intros g g' x c v KC DC E. unfold bobs. destruct c; try discriminate; reflexivity.
  - intros lx n g1 x1 c v g2 x2 GR J RR. split; auto.
    destruct J as [JD [_ [_ [JE JC]]]].
    assert (N1 : 1 <= n /\ g_count g1 = 1).
    { split; auto. clear - GR. remember (g1, x1, c, v) as e1. revert g1 x1 c v Heqe1.
      induction GR as [g x c v H|lx n e1 g x c v GR IH J R1 H]; intros; [lia|].
      destruct e1 as [[[g9 x9] c9] v9]. specialize (IH _ _ _ _ eq_refl). lia. }
    unfold R in RR. cbn [fst] in RR.
    assert (Q : g_rid g1 = g_rid g2 /\ g_size g1 = g_size g2 /\ forall c, battrs k g1 c v = battrs k g2 c v).
    { unfold eqw, g_cnt in JE. destruct g1, g2. cbn in *. injection JE; intros; subst. repeat split; reflexivity. }
    destruct Q as (Q1 & Q2 & Q3).
    assert (F : forall q g, g_rid (g_cnt q g) = g_rid g /\ g_size (g_cnt q g) = g_size g /\ forall c, battrs k (g_cnt q g) c v = battrs k g c v).
    { intros q g. destruct g. repeat split; reflexivity. }
    unfold bobs. rewrite !count_cnt.
    destruct (F n g1) as (F1 & F2 & F3). destruct (F (n + g_count g2) g2) as (F4 & F5 & F6).
    rewrite F1, F2, F4, F5, Q1, Q2.
    destruct c; try discriminate JD; rewrite F3, F6, Q3, <- repeat_app; f_equal; lia.
  - intros t1 e1 e2 t2 E J. unfold R.
    assert (I2 : In e2 (itrace tt nols (start tt) (l ++ [i]))) by (rewrite E; apply in_or_app; right; right; left; reflexivity).
    revert I2. clear - C. revert C. generalize (l ++ [i]) as L. intros L C.
    assert (X : forall L g, Forall constructed L -> 0 <= g_count g ->
       forall e, In e (snd (m_run tt nols (fun g x c v => [(g, x, c, v)]) (g, tt) (map wire L))) -> 0 <= g_count (fst (fst (fst e)))).
    { clear. induction L as [|i L IH]; intros g C G e; [contradiction|].
      inversion C as [|? ? C1 C2]; subst. cbn [map m_run]. unfold m_step. cbn [wire w_cls w_val w_ext].
      destruct (kind_of (ic i)) eqn:K.
      - rewrite (proj2 (hid_main _) K). specialize (IH g C2 G e).
        destruct (m_run tt nols _ (g, tt) (map wire L)). cbn [snd app] in *. intros [<-|I2]; auto.
      - rewrite (proj2 (hid_global _) K).
        assert (G2 : 0 <= g_count (g_set (ic i) (ival i) g)).
        { pose proof (constructed_facts i C1) as [[S|S] _].
          - rewrite count_other; auto. intros Q. rewrite Q in S. discriminate.
          - destruct (ic i); destruct g; cbn; auto. }
        specialize (IH _ C2 G2 e). destruct (m_run tt nols _ _ (map wire L)). exact IH.
      - rewrite (proj2 (hid_local _) K). change (nols _ _ _ _ tt) with tt.
        specialize (IH _ C2 G e). destruct (m_run tt nols _ _ (map wire L)). exact IH. }
    intros I2. apply (X L g_init C); [discriminate|exact I2].
Qed.

Lemma thins_untouched a b : thins a b -> untouched a = untouched b.
Proof.
  induction 1 as [|x a b T IH|x a b D T IH]; auto; unfold untouched in *; cbn [filter].
  - rewrite IH. reflexivity.
  - rewrite D. exact IH.
Qed.

Lemma untouched_sel l : untouched (sel nrc l) = untouched (map cv l).
Proof.
  unfold untouched, sel. fold (cvs l). generalize (cvs l) as q. induction q as [|[c v] q IH]; auto.
  cbn [filter fst]. destruct (nrc c) eqn:N; cbn [filter fst]; rewrite IH; auto.
  destruct c; try discriminate N. reflexivity.
Qed.

Lemma c37_always m l : Forall constructed l -> push_free l -> ends l ->
  map unlabelled (seen m (run_pass main_merge l)) = map unlabelled (seen m l) /\
  untouched (map cv (run_pass main_merge l)) = untouched (map cv l).
Proof.
  intros C P E. split.
  - change unlabelled with (bare true). rewrite !bares_seen; auto.
    + destruct E as [l' [i [-> [K D]]]]. apply mm_bares; auto.
    + apply mm_good; auto.
  - rewrite <- !untouched_sel. symmetry. apply thins_untouched. apply mm_thins_run. exact E.
Qed.

Lemma c32_attributes db m l : Forall constructed l -> push_free l -> ends l ->
  map unscaled (map unlabelled (seen m (optimize db l))) = map unscaled (map unlabelled (seen m l)).
Proof.
  intros C P E.
  assert (G : Forall good l) by (apply good_split; auto).
  destruct (c32_places db l G E) as [_ GO]. apply good_split in GO. destruct GO as [_ PO].
  rewrite !map_map. change (fun x => unscaled (unlabelled x)) with (bare false).
  rewrite !bares_seen by auto. clear C P PO.
  rewrite optimize_all. cbn [passes map snd run_all fold_left].
  assert (GP : forall p, optimiser_pass db p -> forall l, Forall good l -> Forall good (run_pass p l)).
  { intros p I. apply (each_pass_in db); auto. apply good_pass. }
  unfold optimiser_pass in GP. cbn [passes map snd In] in GP.
  set (l1 := run_pass designator_uniq l).
  assert (P1 : bares false g_init l1 = bares false g_init l /\ Forall good l1 /\ ends l1).
  { split; [|split; [apply GP; auto|apply du_ends; auto]].
    apply bares_keep. apply du_keep. intros c Q. unfold bare_tag. rewrite Q. reflexivity. }
  destruct P1 as [P1 [G1 E1]]. set (l2 := run_pass main_merge l1).
  assert (P2 : bares false g_init l2 = bares false g_init l /\ Forall good l2).
  { split; [|apply GP; auto 10]. rewrite <- P1. unfold l2.
    destruct E1 as [l' [i [-> [K D]]]]. apply good_split in G1. apply mm_bares; tauto. }
  destruct P2 as [P2 G2]. set (l3 := run_pass physical_merge l2).
  assert (P3 : bares false g_init l3 = bares false g_init l /\ Forall good l3).
  { split; [|apply GP; auto 10]. rewrite <- P2. apply bares_keep. apply pm_keep; reflexivity. }
  destruct P3 as [P3 G3]. set (l4 := run_pass global_merge l3).
  assert (P4 : bares false g_init l4 = bares false g_init l /\ Forall good l4).
  { split; [|apply GP; auto 10]. rewrite <- P3. unfold bares.
    f_equal. apply gm_view. apply good_split in G3. tauto. }
  destruct P4 as [P4 _].
  assert (STEP : forall p l', (forall l, sel (bare_tag false) (run_pass p l) = sel (bare_tag false) l) ->
     bares false g_init l' = bares false g_init l -> bares false g_init (run_pass p l') = bares false g_init l).
  { intros p l' KP A. rewrite <- A. apply bares_keep. apply KP. }
  apply STEP; [intros; apply up_keep; reflexivity|].
  apply STEP; [intros; apply rm_keep; reflexivity|].
  apply STEP; [intros; apply rm_keep; reflexivity|].
  apply STEP; [intros; apply rm_keep; reflexivity|]. exact P4.
Qed.

(* ------------------------------------------------------------------ *)
(** items of no effect on what is observed, with Push and Pop *)

Definition trace (s : hstate) (l : list item) : hstate * list mstate :=
  h_run (fun g x c v => [(g, x, c, v)]) s (map wire l).

Section Forget.
  Context {B : Type} (view : mstate -> B) (same : hstate -> hstate -> Prop) (P : item -> bool).
  Hypothesis same_step : forall s s' i, same s s' ->
    same (fst (trace s [i])) (fst (trace s' [i])).
  Hypothesis same_view : forall s s' i, same s s' -> map view (snd (trace s [i])) = map view (snd (trace s' [i])).
  Hypothesis same_skip : forall s s' i, same s s' -> P i = false -> same (fst (trace s [i])) s' /\ snd (trace s [i]) = [].

  Lemma trace_cons s i l : trace s (i :: l) =
    (fst (trace (fst (trace s [i])) l), snd (trace s [i]) ++ snd (trace (fst (trace s [i])) l)).
  Proof.
    unfold trace. cbn [map h_run]. destruct (h_step _ s (wire i)) as [s1 o1]. cbn [fst snd]. rewrite app_nil_r.
    destruct (h_run _ s1 (map wire l)). reflexivity.
  Qed.

  Lemma forget_run l : forall s s', same s s' ->
    map view (snd (trace s l)) = map view (snd (trace s' (filter P l))).
  Proof.
    induction l as [|i l IH]; intros s s' E; auto.
    cbn [filter]. rewrite trace_cons. cbn [snd]. destruct (P i) eqn:PI.
    - rewrite (trace_cons s' i (filter P l)). cbn [snd]. rewrite !map_app. f_equal; [apply same_view; auto|]. apply IH. apply same_step; auto.
    - destruct (same_skip _ _ _ E PI) as [A B']. rewrite B'. cbn [app]. apply IH. exact A.
  Qed.
End Forget.

(** [held s]: the items a pass still has to write *)
Lemma kept_run (P : item -> bool) (p : pass) (held : p_state p -> list item) (I : p_state p -> Prop) :
  held (p_init p) = [] -> I (p_init p) ->
  (forall s i, I s -> I (fst (p_append p s i)) /\
     filter P (snd (p_append p s i) ++ held (fst (p_append p s i))) = filter P (held s ++ [i])) ->
  forall l, I (fst (feed p (p_init p) l)) /\ filter P (snd (feed p (p_init p) l) ++ held (fst (feed p (p_init p) l))) = filter P l.
Proof.
  intros H0 I0 HS l. induction l as [|i l [IHI IH]] using rev_ind.
  - cbn [feed fst snd app]. rewrite H0. auto.
  - rewrite feed_app. cbn [feed fst snd].
    destruct (p_append p (fst (feed p (p_init p) l)) i) as [s1 o1] eqn:E. cbn [fst snd].
    destruct (HS (fst (feed p (p_init p) l)) i IHI) as [HI HF]. rewrite E in HI, HF. cbn [fst snd] in HI, HF. split; auto.
    rewrite app_nil_r, <- app_assoc, filter_app, HF, <- filter_app, app_assoc, filter_app, IH, filter_app. reflexivity.
Qed.

Definition not_phys (i : item) : bool := negb (is_phys (ic i)).

Lemma pm_kept l : filter not_phys (run_pass physical_merge l) = filter not_phys l.
Proof.
  destruct (kept_run not_phys physical_merge pm_pending (fun _ => True) eq_refl I) with (l := l) as [_ X].
  - intros s i _. split; auto. change (p_append physical_merge) with pm_append. unfold pm_append, ikd.
    destruct (kind_of (ic i)); cbn [fst snd pm_pending]; auto.
    rewrite app_nil_r, !filter_app. f_equal.
    match goal with |- context [if ?b then _ else _] => destruct b end; auto.
    fold not_phys. induction (pm_pending s) as [|j q IH]; auto. cbn [filter].
    change (negb (is_phys (ic j))) with (not_phys j). destruct (not_phys j) eqn:N; cbn [filter]; rewrite ?N, IH; reflexivity.
  - unfold run_pass. destruct (feed physical_merge (p_init physical_merge) l). exact X.
Qed.

Definition nb (g : gtab) : gtab := g_set PhysicalMinimum 0 (g_set PhysicalMaximum 0 g).
Lemma nb_set c v g g' : nb g = nb g' -> nb (g_set c v g) = nb (g_set c v g').
Proof. destruct g, g'. unfold nb. cbn. intros E; injection E; intros; subst; destruct c; reflexivity. Qed.
Lemma nb_phys c v g : is_phys c = true -> nb (g_set c v g) = nb g.
Proof. destruct g, c; try discriminate; reflexivity. Qed.
Lemma nb_page g g' : nb g = nb g' -> g_page g = g_page g'.
Proof. destruct g, g'. unfold nb. cbn. intros E; injection E; intros; subst; reflexivity. Qed.

Definition pm_same (s s' : hstate) : Prop :=
  nb (h_g s) = nb (h_g s') /\ map nb (h_stack s) = map nb (h_stack s') /\ h_l s = h_l s'.

Lemma pm_same_trace l s s' : pm_same s s' ->
  map unbounded (snd (trace s l)) = map unbounded (snd (trace s' (filter not_phys l))).
Proof.
  intros S. apply (forget_run unbounded pm_same not_phys); auto; clear.
  - intros [g st x] [g' st' x'] i (A & B & C). cbn [h_g h_stack h_l] in *. subst x'.
    unfold trace. cbn [map h_run]. unfold h_step. cbn [h_g h_stack h_l]. cbn [wire w_cls w_val w_ext].
    pose proof (nb_page _ _ A) as PG. pose proof (nb_set (ic i) (ival i) _ _ A) as NS.
    destruct st as [|h st], st' as [|h' st']; try discriminate B; [|injection B as B1 B2];
      destruct (ic i); cbn [hid_kind fst]; unfold pm_same; cbn [h_g h_stack h_l map]; rewrite ?PG, ?A, ?B1, ?B2; auto.
  - intros [g st x] [g' st' x'] i (A & B & C). cbn [h_g h_stack h_l] in *. subst x'.
    unfold trace. cbn [map h_run]. unfold h_step. cbn [h_g h_stack h_l]. cbn [wire w_cls w_val w_ext].
    destruct st as [|h st], st' as [|h' st']; try discriminate B;
    destruct (ic i); cbn [hid_kind snd app map]; auto; unfold unbounded; fold (nb g) (nb g'); rewrite A; reflexivity.
  - intros [g st x] [g' st' x'] i (A & B & C) Q. cbn [h_g h_stack h_l] in *. subst x'.
    unfold not_phys in Q. apply negb_false_iff in Q.
    unfold trace. cbn [map h_run]. unfold h_step. cbn [h_g h_stack h_l]. cbn [wire w_cls w_val w_ext].
    pose proof (nb_phys (ic i) (ival i) g Q) as NP.
    destruct (ic i); try discriminate Q; cbn [hid_kind fst snd app]; unfold pm_same; cbn [h_g h_stack h_l]; rewrite NP; auto.
Qed.

Lemma c38_always l :
  map unbounded (main_states (map wire (run_pass physical_merge l))) = map unbounded (main_states (map wire l)).
Proof.
  change (map unbounded (snd (trace h_init (run_pass physical_merge l))) = map unbounded (snd (trace h_init l))).
  rewrite (pm_same_trace l h_init h_init), (pm_same_trace (run_pass _ l) h_init h_init), pm_kept; repeat split.
Qed.

(** DesignatorUniq *)
Definition not_zero (i : item) : bool := negb (icls_eqb (ic i) DesignatorIndex && (ival i =? 0)).

Definition du_ok (s : du_state) : Prop :=
  Forall (fun i => kind_of (ic i) = Local) (du_pending s) /\
  match du_filter s with DAt n => exists i, nth_error (du_pending s) n = Some i /\ not_zero i = false | _ => True end.

Lemma remove_kept n l i : nth_error l n = Some i -> not_zero i = false -> filter not_zero (remove_nth n l) = filter not_zero l.
Proof.
  revert n. induction l as [|j l IH]; intros [|n] E K; try discriminate.
  - injection E as <-. cbn [remove_nth filter]. rewrite K. reflexivity.
  - cbn [remove_nth filter]. destruct (not_zero j); [f_equal|]; eapply IH; eauto.
Qed.

Lemma du_kept l : exists tl, Forall (fun i => kind_of (ic i) = Local) tl /\
  filter not_zero (run_pass designator_uniq l ++ tl) = filter not_zero l.
Proof.
  destruct (kept_run not_zero designator_uniq du_pending du_ok eq_refl) with (l := l) as [D X].
  - split; [constructor|exact I].
  - intros s i [H1 H2]. change (p_append designator_uniq) with du_append. unfold du_append, ikd.
    assert (ND : forall j n, nth_error (du_pending s) n = Some j -> nth_error (du_pending s ++ [i]) n = Some j).
    { intros j n E. rewrite nth_error_app1; auto. apply nth_error_Some. congruence. }
    assert (MG : filter not_zero (match du_filter s with DAt n => remove_nth n (du_pending s ++ [i]) | _ => du_pending s ++ [i] end ++ []) =
      filter not_zero (du_pending s ++ [i])).
    { rewrite app_nil_r. destruct (du_filter s); auto. destruct H2 as (j & E & Q). eapply remove_kept; [apply ND; exact E|exact Q]. }
    destruct (kind_of (ic i)) eqn:K; cbn [fst snd du_pending].
    + split; [split; [constructor|exact I]|exact MG].
    + split; [split; [constructor|exact I]|exact MG].
    + assert (F : Forall (fun i => kind_of (ic i) = Local) (du_pending s ++ [i])) by (apply Forall_app; auto).
      assert (KEEP : du_ok (DU (du_pending s ++ [i]) (du_filter s))).
      { split; [exact F|]. cbn [du_filter du_pending]. destruct (du_filter s); auto. destruct H2 as (j & E & Q). exists j. auto. }
      destruct (ic i) eqn:CI; cbn [fst snd du_pending app]; (split; [try exact KEEP|reflexivity]).
      split; [exact F|]. cbn [du_filter du_pending]. destruct (du_filter s); auto.
      destruct (ival i =? 0) eqn:V; auto. exists i. split.
      * rewrite nth_error_app2 by auto. rewrite Nat.sub_diag. reflexivity.
      * unfold not_zero. rewrite CI, V. reflexivity.
  - unfold run_pass. destruct (feed designator_uniq (p_init designator_uniq) l) as [s o]. cbn [fst snd] in *.
    exists (du_pending s). split; [apply D|]. change (p_close designator_uniq s) with (@nil item). rewrite app_nil_r. exact X.
Qed.

(** two designator lists with the same numbers other than 0 *)
Definition nz (d : Z) : bool := negb (d =? 0).
Definition ds_same (t t' : ltab) : Prop :=
  (forall m p, filter nz (values m p t) = filter nz (values m p t')) /\ l_min t = l_min t' /\ l_max t = l_max t'.

Lemma values_add m p (t : ltab) ds lo hi : values m p (L (l_decls t ++ ds) lo hi) = values m p t ++ flat_map (resolve_decl m p) ds.
Proof. unfold values. cbn [l_decls]. apply flat_map_app. Qed.

Lemma ds_same_one r t t' : ds_same t t' -> ds_same (add_one r t) (add_one r t').
Proof.
  intros (A & B & C). split; [|split; cbn [add_one l_min l_max]; auto].
  intros m p. unfold add_one. rewrite !values_add, !filter_app, A. reflexivity.
Qed.
Lemma ds_same_min r t t' : ds_same t t' -> ds_same (add_min r t) (add_min r t').
Proof.
  intros (A & B & C). unfold add_min. rewrite <- C. destruct (l_max t); (split; [|split; reflexivity]); intros m p.
  - rewrite !values_add, !filter_app, A. reflexivity.
  - unfold values in *. cbn [l_decls]. apply A.
Qed.
Lemma ds_same_max r t t' : ds_same t t' -> ds_same (add_max r t) (add_max r t').
Proof.
  intros (A & B & C). unfold add_max. rewrite <- B. destruct (l_min t); (split; [|split; reflexivity]); intros m p.
  - rewrite !values_add, !filter_app, A. reflexivity.
  - unfold values in *. cbn [l_decls]. apply A.
Qed.
Lemma ds_same_zero p t t' : ds_same t t' -> ds_same (add_one (LR p true 0) t) t'.
Proof.
  intros (A & B & C). split; [|split; cbn [add_one l_min l_max]; auto].
  intros m q. unfold add_one. rewrite values_add, filter_app, A. cbn. apply app_nil_r.
Qed.

Definition lo_same (x x' : locals) : Prop := lo_us x = lo_us x' /\ ds_same (lo_ds x) (lo_ds x') /\ lo_ss x = lo_ss x' /\ lo_dl x = lo_dl x'.
Definition du_same (s s' : hstate) : Prop := h_g s = h_g s' /\ h_stack s = h_stack s' /\ lo_same (h_l s) (h_l s').

Lemma ds_same_refl t : ds_same t t. Proof. repeat split. Qed.
Lemma lo_same_refl x : lo_same x x. Proof. split; [reflexivity|]. split; [apply ds_same_refl|]. split; reflexivity. Qed.

Lemma du_same_trace l s s' : du_same s s' ->
  map with_designators (snd (trace s l)) = map with_designators (snd (trace s' (filter not_zero l))).
Proof.
  intros S. apply (forget_run with_designators du_same not_zero); auto; clear.
  - intros [g st x] [g' st' x'] i (A & B & C). cbn [h_g h_stack h_l] in *. subst g' st'.
    destruct x as [us ds ss dl], x' as [us' ds' ss' dl']. destruct C as (C1 & C2 & C3 & C4). cbn [lo_us lo_ds lo_ss lo_dl] in *. subst us' ss' dl'.
    unfold trace. cbn [map h_run]. unfold h_step. cbn [h_g h_stack h_l]. cbn [wire w_cls w_val w_ext].
    destruct st as [|h st]; destruct (ic i); cbn [hid_kind fst]; unfold du_same; cbn [h_g h_stack h_l lo_set]; (split; [reflexivity|]; split; [reflexivity|]);
      first [apply lo_same_refl | split; [reflexivity|]; split; [|split; reflexivity]; cbn [lo_ds];
        first [exact C2 | apply ds_same_one; exact C2 | apply ds_same_min; exact C2 | apply ds_same_max; exact C2]].
  - intros [g st x] [g' st' x'] i (A & B & C). cbn [h_g h_stack h_l] in *. subst g' st'.
    destruct x as [us ds ss dl], x' as [us' ds' ss' dl']. destruct C as (C1 & C2 & C3 & C4). cbn [lo_us lo_ds lo_ss lo_dl] in *. subst us' ss' dl'.
    unfold trace. cbn [map h_run]. unfold h_step. cbn [h_g h_stack h_l]. cbn [wire w_cls w_val w_ext].
    destruct C2 as (C2 & _). specialize (C2 AtMain (g_page g)).
    destruct st as [|h st]; destruct (ic i); cbn [hid_kind snd app map]; auto; unfold with_designators; cbn [lo_us lo_ds lo_ss lo_dl];
      fold nz; rewrite C2; reflexivity.
  - intros [g st x] [g' st' x'] i (A & B & C) Q. cbn [h_g h_stack h_l] in *. subst g' st'.
    destruct x as [us ds ss dl], x' as [us' ds' ss' dl']. destruct C as (C1 & C2 & C3 & C4). cbn [lo_us lo_ds lo_ss lo_dl] in *. subst us' ss' dl'.
    unfold not_zero in Q. apply negb_false_iff, andb_true_iff in Q. destruct Q as [Q1 Q2]. apply icls_eqb_eq in Q1. apply Z.eqb_eq in Q2.
    unfold trace. cbn [map h_run]. unfold h_step. cbn [h_g h_stack h_l]. cbn [wire w_cls w_val w_ext]. rewrite Q1, Q2.
    cbn [hid_kind fst snd app lo_set]. split; [|reflexivity]. split; [reflexivity|]. split; [reflexivity|]. cbn [h_l].
    split; [reflexivity|]. split; [|split; reflexivity]. cbn [lo_ds]. apply ds_same_zero. exact C2.
Qed.

Lemma trace_locals tl : Forall (fun i => kind_of (ic i) = Local) tl -> forall s, snd (trace s tl) = [].
Proof.
  induction 1 as [|i tl K _ IH]; intros s; auto. rewrite trace_cons. cbn [snd]. rewrite IH, app_nil_r.
  unfold trace. cbn [map h_run]. unfold h_step. cbn [wire w_cls]. rewrite (proj2 (hid_local _) K). reflexivity.
Qed.

Lemma trace_app s a b : trace s (a ++ b) = (fst (trace (fst (trace s a)) b), snd (trace s a) ++ snd (trace (fst (trace s a)) b)).
Proof.
  revert s. induction a as [|i a IH]; intros s; [change (trace s []) with (s, @nil mstate); cbn [app fst snd]; destruct (trace s b); reflexivity|].
  cbn [app]. rewrite (trace_cons s i (a ++ b)), (trace_cons s i a), IH. cbn [fst snd]. rewrite app_assoc. reflexivity.
Qed.

Lemma c39_always l :
  map with_designators (main_states (map wire (run_pass designator_uniq l))) = map with_designators (main_states (map wire l)).
Proof.
  destruct (du_kept l) as (tl & T & E).
  change (map with_designators (snd (trace h_init (run_pass designator_uniq l))) = map with_designators (snd (trace h_init l))).
  transitivity (map with_designators (snd (trace h_init (run_pass designator_uniq l ++ tl)))).
  { rewrite trace_app. cbn [snd]. rewrite (trace_locals tl T), app_nil_r. reflexivity. }
  assert (S : du_same h_init h_init) by (split; [reflexivity|]; split; [reflexivity|]; apply lo_same_refl).
  rewrite (du_same_trace l _ _ S), (du_same_trace (_ ++ tl) _ _ S), E. reflexivity.
Qed.
