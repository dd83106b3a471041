(* PhysFacts.v -- PhysicalMerge keeps the effective physical bounds (C38). *)
From Coq Require Import ZifyBool ZifyNat.
From Verif Require Import Py Usage Item Optimizer HidSpec ItemFacts ParserFacts OptSpec OptFacts MainMergeFacts
  Skeleton PassFacts RangeFacts.
Local Open Scope Z_scope.

Definition np (g : gtab) : gtab := g_set PhysicalMinimum 0 (g_set PhysicalMaximum 0 g).
Definition phys (g : gtab) : Z * Z := (g_pmin g, g_pmax g).
Definition eff (g : gtab) : Z * Z := effective (g_pmin g) (g_pmax g) (g_lmin g) (g_lmax g).
Definition or_else (o : option Z) (d : Z) : Z := match o with Some v => v | None => d end.

Lemma np_set c v g g' : np g = np g' -> np (g_set c v g) = np (g_set c v g').
Proof. destruct g, g'. unfold np. destruct c; cbn; congruence. Qed.
Lemma np_page g g' : np g = np g' -> g_page g = g_page g'.
Proof. destruct g, g'. unfold np. cbn. congruence. Qed.
Lemma np_phys g v c : physical_tag c = true -> np (g_set c v g) = np g.
Proof. destruct g, c; try discriminate; reflexivity. Qed.
Lemma np_eq g g' : np g = np g' -> phys g = phys g' -> g = g'.
Proof. destruct g, g'. unfold np, phys. cbn. congruence. Qed.

Lemma obs_np m g g' x c v : np g = np g' -> eff g = eff g' -> full_obs m g x c v = full_obs m g' x c v.
Proof.
  intros N E. assert (A : forall c v, mk_attrs g c v = mk_attrs g' c v).
  { intros c' v'. unfold mk_attrs. unfold eff in E. rewrite E. destruct g, g'. unfold np in N. cbn in *. congruence. }
  unfold full_obs, data_events. rewrite A. destruct g, g'. unfold np in N. cbn in *. injection N. intros. subst. reflexivity.
Qed.

Definition mrun {EV} (obs : gtab -> locals -> icls -> Z -> list EV) (s : gtab * locals) (l : list item) := m_run lo_init lo_set obs s (map wire l).

Lemma mrun_app {EV} (obs : gtab -> locals -> icls -> Z -> list EV) s a b :
  mrun obs s (a ++ b) = (fst (mrun obs (fst (mrun obs s a)) b), snd (mrun obs s a) ++ snd (mrun obs (fst (mrun obs s a)) b)).
Proof. unfold mrun. rewrite map_app. apply m_run_app. Qed.

Lemma last_of_app c a b : last_of c (a ++ b) = match last_of c b with Some v => Some v | None => last_of c a end.
Proof.
  induction a as [|x a IH]; cbn [app last_of]; [destruct (last_of c b); auto|].
  rewrite IH. destruct (last_of c b); auto.
Qed.

(** what a chunk does to the host's table *)
Lemma chunk_run {EV} (obs : gtab -> locals -> icls -> Z -> list EV) seg : Forall not_main seg -> push_free seg -> forall g x,
  exists g' x', mrun obs (g, x) seg = ((g', x'), []) /\
    g_pmin g' = or_else (last_of PhysicalMinimum (map cv seg)) (g_pmin g) /\
    g_pmax g' = or_else (last_of PhysicalMaximum (map cv seg)) (g_pmax g) /\
    g_lmin g' = or_else (last_of LogicalMinimum (map cv seg)) (g_lmin g) /\
    g_lmax g' = or_else (last_of LogicalMaximum (map cv seg)) (g_lmax g) /\
    forall go, np go = np g ->
      (exists go', mrun obs (go, x) seg = ((go', x'), []) /\ np go' = np g' /\
        g_pmin go' = or_else (last_of PhysicalMinimum (map cv seg)) (g_pmin go) /\
        g_pmax go' = or_else (last_of PhysicalMaximum (map cv seg)) (g_pmax go)) /\
      exists go', mrun obs (go, x) (filter (fun i => negb (is_phys (ic i))) seg) = ((go', x'), []) /\ np go' = np g' /\ phys go' = phys go.
Proof.
  induction seg as [|i seg IH]; intros NM P g x.
  - exists g, x. cbn [mrun map m_run last_of or_else filter]. unfold mrun. cbn. repeat split; eauto.
  - inversion NM as [|? ? N1 N2]; subst. inversion P as [|? ? P1 P2]; subst.
    destruct (kind_of (ic i)) eqn:K; [exfalso; apply N1; auto| |].
    + destruct (IH N2 P2 (g_set (ic i) (ival i) g) x) as [g' [x' [E [A1 [A2 [A3 [A4 B]]]]]]].
      exists g', x'.
      assert (RS : forall g l, mrun obs (g, x) (i :: l) = mrun obs (g_set (ic i) (ival i) g, x) l).
      { intros g0 l. unfold mrun. cbn [map m_run]. unfold m_step. cbn [wire w_cls w_val]. rewrite (proj2 (hid_global _) K).
        destruct (m_run _ _ _ _ _). reflexivity. }
      rewrite RS, E. split; auto. cbn [map last_of cv fst snd].
      rewrite A1, A2, A3, A4.
      repeat match goal with |- _ /\ _ => split end.
      1-4: match goal with |- or_else ?o _ = _ => destruct o; cbn [or_else]; auto end; destruct (ic i), g; reflexivity.
      intros go N. destruct (B (g_set (ic i) (ival i) go) (np_set _ _ _ _ N)) as [[go1 [C1 [C2 [C3 C4]]]] _].
      split.
      * exists go1. rewrite RS. repeat split; auto; rewrite ?C3, ?C4;
          match goal with |- or_else ?o _ = _ => destruct o; cbn [or_else]; auto end; destruct (ic i), go; reflexivity.
      * cbn [filter]. destruct (is_phys (ic i)) eqn:IP; cbn [negb].
        -- apply B. rewrite N. symmetry. apply np_phys. destruct (ic i); try discriminate; reflexivity.
        -- destruct (B (g_set (ic i) (ival i) go) (np_set _ _ _ _ N)) as [_ [go2 [D1 [D2 D3]]]].
           exists go2. rewrite RS. split; [exact D1|]. split; auto. rewrite D3. destruct (ic i), go; try discriminate; reflexivity.
    + destruct (IH N2 P2 g (lo_set (ic i) (ival i) (w_ext (wire i)) (g_page g) x)) as [g' [x' [E [A1 [A2 [A3 [A4 B]]]]]]].
      exists g', x'.
      assert (RS : forall g l, mrun obs (g, x) (i :: l) = mrun obs (g, lo_set (ic i) (ival i) (w_ext (wire i)) (g_page g) x) l).
      { intros g0 l. unfold mrun. cbn [map m_run]. unfold m_step. cbn [wire w_cls w_val]. rewrite (proj2 (hid_local _) K).
        destruct (m_run _ _ _ _ _). reflexivity. }
      rewrite RS, E. split; auto. cbn [map last_of cv fst snd].
      assert (LT : forall c, icls_eqb (ic i) c = true -> kind_of c = Local).
      { intros c Q. apply icls_eqb_eq in Q. congruence. }
      assert (LO : forall c, kind_of c = Global -> last_of c (cv i :: map cv seg) = last_of c (map cv seg)).
      { intros c Q. cbn [last_of cv fst snd]. destruct (last_of c (map cv seg)); auto. destruct (icls_eqb (ic i) c) eqn:QQ; auto.
        apply LT in QQ. congruence. }
      cbn [last_of cv fst snd] in LO. rewrite !LO by reflexivity.
      do 4 (split; [assumption|]). intros go N.
      destruct (B go N) as [[go1 [C1 [C2 [C3 C4]]]] [go2 [D1 [D2 D3]]]]. rewrite <- (np_page _ _ N) in C1, D1. split.
      * exists go1. rewrite RS. auto.
      * exists go2. cbn [filter]. replace (is_phys (ic i)) with false by (destruct (ic i); try discriminate K; reflexivity).
        cbn [negb]. rewrite RS. auto.
Qed.

Definition inv (g go : gtab) (needed given : Z * Z) : Prop :=
  np go = np g /\ eff go = eff g /\ phys go = needed /\ phys g = given.

Definition drops (seg : list item) : bool :=
  (or_else (last_of PhysicalMinimum (map cv seg)) 0 =? or_else (last_of LogicalMinimum (map cv seg)) 0) &&
  (or_else (last_of PhysicalMaximum (map cv seg)) 0 =? or_else (last_of LogicalMaximum (map cv seg)) 0).

Lemma bare_last l : Forall (fun x => bounds_tag (fst x) = false) l ->
  last_of PhysicalMinimum l = None /\ last_of PhysicalMaximum l = None /\ last_of LogicalMinimum l = None /\ last_of LogicalMaximum l = None.
Proof.
  induction 1 as [|[c v] l H F IH]; [auto|]. destruct IH as [I1 [I2 [I3 I4]]].
  cbn [last_of fst snd]. rewrite I1, I2, I3, I4. cbn [fst] in H. destruct c; try discriminate H; auto.
Qed.

Lemma zero_last c l : physical_tag c = true -> Forall (fun x => physical_tag (fst x) = true -> snd x = 0) l ->
  or_else (last_of c l) 0 = 0.
Proof.
  intros T. induction 1 as [|[c' v] l H F IH]; auto. cbn [last_of fst snd] in *.
  destruct (last_of c l); auto. destruct (icls_eqb c' c) eqn:E; auto. apply icls_eqb_eq in E. subst c'. apply H. auto.
Qed.

(** one chunk *)
Lemma chunk_step {EV} (obs : gtab -> locals -> icls -> Z -> list EV) seg g go x needed given cs : Forall not_main seg -> push_free seg -> inv g go needed given ->
  physical_ok needed given (map cv seg :: cs) ->
  exists g' go' x' needed' given',
    mrun obs (g, x) seg = ((g', x'), []) /\
    mrun obs (go, x) (if drops seg then filter (fun i => negb (is_phys (ic i))) seg else seg) = ((go', x'), []) /\
    inv g' go' needed' given' /\ physical_ok needed' given' cs.
Proof.
  intros NM P [I1 [I2 [I3 I4]]] OK.
  destruct (chunk_run obs seg NM P g x) as [g' [x' [E [A1 [A2 [A3 [A4 B]]]]]]].
  destruct (B go I1) as [[go1 [C1 [C2 [C3 C4]]]] [go2 [D1 [D2 D3]]]]. clear B.
  exists g'. destruct OK as [[BR OK]|[[N0 [G0 [Z0 OK]]]|[p [q [a [b [[L1 [L2 [L3 L4]]] OK]]]]]]].
  - destruct (bare_last _ BR) as [L1 [L2 [L3 L4]]]. rewrite L1, L2, L3, L4 in *. cbn [or_else] in *.
    assert (K : exists go', mrun obs (go, x) (if drops seg then filter (fun i => negb (is_phys (ic i))) seg else seg) = ((go', x'), []) /\
      np go' = np g' /\ phys go' = phys go).
    { destruct (drops seg); [exists go2; auto|]. exists go1. split; auto. split; auto. unfold phys. congruence. }
    destruct K as [go' [K1 [K2 K3]]]. exists go', x', needed, given. do 2 (split; auto). split; auto.
    assert (LL : g_lmin go' = g_lmin go /\ g_lmax go' = g_lmax go).
    { destruct go', g', go, g. unfold np in *. cbn in *. split; congruence. }
    unfold phys in K3. injection K3 as K3 K4.
    split; auto. split; [|split].
    + unfold eff in *. rewrite K3, K4, A1, A2, A3, A4, (proj1 LL), (proj2 LL). exact I2.
    + unfold phys in *. congruence.
    + unfold phys in *. congruence.
  - rewrite N0 in *. rewrite G0 in *. unfold phys in I3, I4. injection I3 as I3 I3'. injection I4 as I4 I4'.
    rewrite I4 in A1. rewrite I4' in A2. rewrite I3 in C3. rewrite I3' in C4.
    rewrite zero_last in A1, A2, C3, C4 by (auto; reflexivity).
    assert (K : exists go', mrun obs (go, x) (if drops seg then filter (fun i => negb (is_phys (ic i))) seg else seg) = ((go', x'), []) /\
      np go' = np g' /\ phys go' = (0, 0)).
    { destruct (drops seg); [exists go2|exists go1]; split; auto; split; auto; unfold phys in *; congruence. }
    destruct K as [go' [K1 [K2 K3]]]. exists go', x', (0, 0), (0, 0). do 2 (split; auto). split; auto.
    assert (EQ : go' = g') by (apply np_eq; auto; unfold phys in *; congruence).
    subst go'. repeat split; auto.
  - unfold drops. rewrite L1, L2, L3, L4 in *. cbn [or_else] in *.
    destruct OK as [[EQ [ND OK]]|[NE OK]].
    + injection EQ as -> ->. rewrite !Z.eqb_refl. cbn [andb]. exists go2, x', needed, (a, b).
      do 2 (split; auto). split; auto. split; auto. split; [|split].
      * assert (LL : g_lmin go2 = g_lmin g' /\ g_lmax go2 = g_lmax g').
        { destruct go2, g'. unfold np in *. cbn in *. split; congruence. }
        unfold eff, effective. rewrite (proj1 LL), (proj2 LL), A1, A2, A3, A4.
        assert (PG : g_pmin go2 = 0 /\ g_pmax go2 = 0 \/ g_pmin go2 = a /\ g_pmax go2 = b).
        { destruct ND as [ND|ND]; [left|right]; subst needed; unfold phys in *; split; congruence. }
        destruct PG as [[-> ->]|[-> ->]]; cbn [Z.eqb andb]; destruct ((a =? 0) && (b =? 0)); reflexivity.
      * unfold phys in *. congruence.
      * unfold phys in *. congruence.
    + replace ((p =? a) && (q =? b)) with false.
      2:{ destruct (Z.eqb_spec p a), (Z.eqb_spec q b); auto. subst. congruence. }
      exists go1, x', (p, q), (p, q). do 2 (split; auto). split; auto.
      assert (EQ : go1 = g') by (apply np_eq; auto; unfold phys in *; congruence).
      subst go1. split; auto. split; auto. unfold phys in *. split; congruence.
Qed.

Definition pm_at (s : pm_state) (seg : list item) : Prop :=
  (forall c, pm_current s c = 0) /\ pm_pending s = seg /\
  forall c, bounds_tag c = true -> pm_changed s c = or_else (last_of c (map cv seg)) 0.

Lemma upd_same c v (f : icls -> Z) : upd f c v c = v.
Proof. unfold upd. destruct (icls_eqb c c) eqn:E; auto. rewrite (proj2 (icls_eqb_eq c c) eq_refl) in E. discriminate. Qed.

Lemma pm_go {EV} (obs : gtab -> locals -> icls -> Z -> list EV) (OB : forall g g' x c v, np g = np g' -> eff g = eff g' -> obs g x c v = obs g' x c v) l : forall seg s g go x needed given, pm_at s seg -> Forall not_main seg -> push_free seg -> push_free l ->
  inv g go needed given -> physical_ok needed given (chunked (map cv seg) (map cv l)) ->
  snd (mrun obs (go, x) (snd (feed physical_merge s l) ++ p_close physical_merge (fst (feed physical_merge s l)))) =
  snd (mrun obs (g, x) (seg ++ l)).
Proof.
  induction l as [|i l IH]; intros seg s g go x needed given [S1 [S2 S3]] NM PS P I OK.
  - cbn [feed fst snd app]. change (p_close physical_merge s) with (pm_pending s). rewrite S2, app_nil_r.
    destruct (chunk_run obs seg NM PS g x) as [g' [x' [E _]]]. rewrite E.
    destruct (chunk_run obs seg NM PS go x) as [g1 [x1 [E1 _]]]. rewrite E1. reflexivity.
  - inversion P as [|? ? P1 P2]; subst. cbn [feed].
    change (p_append physical_merge s i) with (pm_append s i). unfold pm_append, ikd.
    destruct (kind_of (ic i)) eqn:K.
    + rewrite !S1, !S3 by reflexivity. cbn [Z.eqb andb].
      cbn [map] in OK. rewrite (chunked_main (map cv (pm_pending s))) in OK by (apply main_tag_kind; auto).
      fold (drops (pm_pending s)).
      destruct (chunk_step obs (pm_pending s) g go x needed given _ NM PS I OK) as [g' [go' [x' [nd' [gv' [E1 [E2 [I' OK']]]]]]]].
      specialize (IH [] (PM (pm_current s) (pm_current s) []) g' go' lo_init nd' gv').
      destruct (feed physical_merge (PM (pm_current s) (pm_current s) []) l) as [s2 o2] eqn:F. cbn [fst snd] in *.
      rewrite <- !app_assoc. rewrite (mrun_app obs (go, x)), E2. rewrite (mrun_app obs (g, x)), E1. cbn [fst snd app].
      assert (MS : forall g r, snd (mrun obs (g, x') (i :: r)) = obs g x' (ic i) (ival i) ++ snd (mrun obs (g, lo_init) r)).
      { intros g0 r. unfold mrun. cbn [map m_run]. unfold m_step. cbn [wire w_cls w_val]. rewrite (proj2 (hid_main _) K).
        destruct (m_run _ _ _ _ _). reflexivity. }
      rewrite !MS. f_equal.
      * apply OB; destruct I' as [Q1 [Q2 _]]; auto.
      * apply IH; auto.
        -- split; [exact S1|]. split; [reflexivity|]. intros c _. apply S1.
        -- constructor.
        -- cbn [map]. rewrite chunked_nil. exact OK'.
    + assert (MT : main_tag (fst (cv i)) = false) by (destruct (ic i) eqn:IC; cbn [cv fst]; rewrite IC; try discriminate K; reflexivity).
      specialize (IH (pm_pending s ++ [i])
        (PM (pm_current s) (if is_phys (ic i) || is_log (ic i) then upd (pm_changed s) (ic i) (ival i) else pm_changed s) (pm_pending s ++ [i]))
        g go x needed given).
      destruct (feed physical_merge (PM _ _ (pm_pending s ++ [i])) l) as [s2 o2] eqn:F. cbn [fst snd app] in *.
      rewrite <- app_assoc in IH. apply IH; auto.
      * split; [exact S1|]. split; [reflexivity|]. intros c BT. cbn [pm_changed]. rewrite map_app, last_of_app. cbn [map last_of cv fst snd].
        destruct (icls_eqb (ic i) c) eqn:Q.
        -- apply icls_eqb_eq in Q. subst c.
           replace (is_phys (ic i) || is_log (ic i)) with true by (destruct (ic i); try discriminate BT; reflexivity).
           rewrite upd_same. reflexivity.
        -- rewrite <- S3 by auto. destruct (is_phys (ic i) || is_log (ic i)); auto. unfold upd.
           destruct (icls_eqb c (ic i)) eqn:QQ; auto. apply icls_eqb_eq in QQ. subst c.
           rewrite (proj2 (icls_eqb_eq (ic i) (ic i)) eq_refl) in Q. discriminate.
      * apply Forall_app. split; auto. constructor; auto. unfold not_main. congruence.
      * apply Forall_app. split; auto.
      * rewrite map_app. cbn [map]. rewrite chunked_snoc by auto. exact OK.
    + assert (MT : main_tag (fst (cv i)) = false) by (destruct (ic i) eqn:IC; cbn [cv fst]; rewrite IC; try discriminate K; reflexivity).
      replace (is_phys (ic i) || is_log (ic i)) with false by (destruct (ic i); try discriminate K; reflexivity).
      specialize (IH (pm_pending s ++ [i]) (PM (pm_current s) (pm_changed s) (pm_pending s ++ [i])) g go x needed given).
      destruct (feed physical_merge (PM _ _ (pm_pending s ++ [i])) l) as [s2 o2] eqn:F. cbn [fst snd app] in *.
      rewrite <- app_assoc in IH. apply IH; auto.
      * split; [exact S1|]. split; [reflexivity|]. intros c BT. cbn [pm_changed]. rewrite map_app, last_of_app. cbn [map last_of cv fst snd].
        destruct (icls_eqb (ic i) c) eqn:Q; [|apply S3; auto]. apply icls_eqb_eq in Q. subst c. destruct (ic i); discriminate.
      * apply Forall_app. split; auto. constructor; auto. unfold not_main. congruence.
      * apply Forall_app. split; auto.
      * rewrite map_app. cbn [map]. rewrite chunked_snoc by auto. exact OK.
Qed.

Lemma pm_push_free l : push_free l -> push_free (run_pass physical_merge l).
Proof. apply pm_each. Qed.

Theorem c38 m l : push_free l -> physical_ok (0, 0) (0, 0) (chunks (map cv l)) ->
  seen m (run_pass physical_merge l) = seen m l.
Proof.
  intros P OK. rewrite !seen_machine by (auto using pm_push_free).
  unfold m_full, run_pass. change (p_init physical_merge) with pm_init.
  pose proof (pm_go (full_obs m) (obs_np m) l [] pm_init g_init g_init lo_init (0, 0) (0, 0)) as G.
  destruct (feed physical_merge pm_init l) as [s o]. cbn [fst snd app] in G. apply G; auto.
  - repeat split; auto.
  - constructor.
  - repeat split; auto.
  - rewrite chunked_nil. exact OK.
Qed.
