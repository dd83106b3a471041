(* RangeFacts.v -- RangeMerge and its subclasses (C35). *)
From Coq Require Import ZifyBool ZifyNat.
From Verif Require Import Py Usage Item Optimizer HidSpec ItemFacts ParserFacts OptSpec OptFacts MainMergeFacts
  Skeleton PassFacts.
Local Open Scope Z_scope.

Definition mn_of (lk : icls) : icls :=
  match lk with Usage => UsageMinimum | DesignatorIndex => DesignatorMinimum | _ => StringMinimum end.
Definition mx_of (lk : icls) : icls :=
  match lk with Usage => UsageMaximum | DesignatorIndex => DesignatorMaximum | _ => StringMaximum end.
Definition single (lk : icls) : Prop := lk = Usage \/ lk = DesignatorIndex \/ lk = StringIndex.

Definition fam (lk c : icls) : bool := icls_eqb c lk || icls_eqb c (mn_of lk) || icls_eqb c (mx_of lk).

Definition tab (lk : icls) (x : locals) : ltab :=
  match lk with Usage => lo_us x | DesignatorIndex => lo_ds x | _ => lo_ss x end.

Definition refer (lk : icls) (page v : Z) : lref :=
  match lk with Usage => LR page (65536 <=? v) v | _ => LR 0 true v end.

(** all but one table equal *)
Definition other (lk : icls) (x y : locals) : Prop :=
  (forall k, single k -> k <> lk -> tab k x = tab k y) /\ lo_dl x = lo_dl y.

Lemma other_refl lk x : other lk x x. Proof. split; auto. Qed.

Lemma ext_usage i : constructed i -> is_usage (ic i) = true -> w_ext (wire i) = (65536 <=? ival i).
Proof.
  intros C U. cbn [wire w_ext]. apply payload_width_4.
  - destruct (ic i); try discriminate; reflexivity.
  - destruct (constructed_facts i C) as [[S|S] _]; auto. destruct (ic i); discriminate.
Qed.

Lemma lo_set_lk lk i pg x : single lk -> constructed i -> ic i = lk ->
  tab lk (lo_set (ic i) (ival i) (w_ext (wire i)) pg x) = add_one (refer lk pg (ival i)) (tab lk x).
Proof.
  intros S C E. destruct x as [us ds ss dl]. destruct S as [-> | [-> | ->]]; rewrite E; cbn [lo_set tab lo_us lo_ds lo_ss refer];
    auto. rewrite ext_usage; auto. rewrite E. reflexivity.
Qed.
Lemma lo_set_mn lk i pg x : single lk -> constructed i -> ic i = mn_of lk ->
  tab lk (lo_set (ic i) (ival i) (w_ext (wire i)) pg x) = add_min (refer lk pg (ival i)) (tab lk x).
Proof.
  intros S C E. destruct x as [us ds ss dl]. destruct S as [-> | [-> | ->]]; cbn [mn_of] in E; rewrite E; cbn [lo_set tab lo_us lo_ds lo_ss refer];
    auto. rewrite ext_usage; auto. rewrite E. reflexivity.
Qed.
Lemma lo_set_mx lk i pg x : single lk -> constructed i -> ic i = mx_of lk ->
  tab lk (lo_set (ic i) (ival i) (w_ext (wire i)) pg x) = add_max (refer lk pg (ival i)) (tab lk x).
Proof.
  intros S C E. destruct x as [us ds ss dl]. destruct S as [-> | [-> | ->]]; cbn [mx_of] in E; rewrite E; cbn [lo_set tab lo_us lo_ds lo_ss refer];
    auto. rewrite ext_usage; auto. rewrite E. reflexivity.
Qed.

Lemma lo_set_fam lk c v e pg x : single lk -> fam lk c = true -> other lk (lo_set c v e pg x) x.
Proof.
  intros S F. unfold fam in F. destruct x as [us ds ss dl].
  destruct S as [-> | [-> | ->]]; destruct c; try discriminate F; cbn [lo_set];
    (split; [|reflexivity]); intros k [-> | [-> | ->]] N; cbn [tab lo_us lo_ds lo_ss]; congruence.
Qed.

Lemma lo_set_out lk c v e pg x y : single lk -> fam lk c = false -> (lk = Usage -> c <> Delimiter) ->
  other lk x y -> other lk (lo_set c v e pg x) (lo_set c v e pg y) /\
  tab lk (lo_set c v e pg x) = tab lk x /\ tab lk (lo_set c v e pg y) = tab lk y.
Proof.
  intros S F D [O1 O2]. unfold fam in F. destruct x as [us ds ss dl], y as [us' ds' ss' dl'].
  cbn [lo_dl] in O2. subst dl'.
  assert (OU : Usage <> lk -> us = us') by (intros N; apply (O1 Usage); [left|]; auto).
  assert (OD : DesignatorIndex <> lk -> ds = ds') by (intros N; apply (O1 DesignatorIndex); [right; left|]; auto).
  assert (OS : StringIndex <> lk -> ss = ss') by (intros N; apply (O1 StringIndex); [right; right|]; auto).
  clear O1.
  destruct S as [-> | [-> | ->]];
    try specialize (OU ltac:(discriminate)); try specialize (OD ltac:(discriminate)); try specialize (OS ltac:(discriminate));
    subst; destruct c; try discriminate F; try (exfalso; apply D; reflexivity); cbn [lo_set];
    (split; [split; [|reflexivity]; intros k [-> | [-> | ->]] N; cbn [tab lo_us lo_ds lo_ss]; congruence|split; reflexivity]).
Qed.

(** one item *)
Definition hrun {A} (obs : gtab -> locals -> icls -> Z -> list A) (s : hstate) (l : list item) := h_run obs s (map wire l).

Lemma h_run_app {A} (obs : gtab -> locals -> icls -> Z -> list A) s l1 l2 :
  h_run obs s (l1 ++ l2) =
  (fst (h_run obs (fst (h_run obs s l1)) l2), snd (h_run obs s l1) ++ snd (h_run obs (fst (h_run obs s l1)) l2)).
Proof.
  revert s. induction l1 as [|w l1 IH]; intros s.
  - simpl. destruct (h_run obs s l2). reflexivity.
  - cbn [app h_run]. destruct (h_step obs s w) as [s1 o1]. rewrite IH.
    destruct (h_run obs s1 l1) as [s2 o2]. cbn [fst snd].
    destruct (h_run obs s2 l2) as [s3 o3]. cbn [fst snd]. rewrite app_assoc. reflexivity.
Qed.

Lemma hrun_app {A} (obs : gtab -> locals -> icls -> Z -> list A) s l1 l2 :
  hrun obs s (l1 ++ l2) =
  (fst (hrun obs (fst (hrun obs s l1)) l2), snd (hrun obs s l1) ++ snd (hrun obs (fst (hrun obs s l1)) l2)).
Proof. unfold hrun. rewrite map_app. apply h_run_app. Qed.


Lemma hrun_local {A} (obs : gtab -> locals -> icls -> Z -> list A) g st x i l : kind_of (ic i) = Local ->
  hrun obs (H g st x) (i :: l) = hrun obs (H g st (lo_set (ic i) (ival i) (w_ext (wire i)) (g_page g) x)) l.
Proof.
  intros K. unfold hrun. cbn [map h_run]. unfold h_step. cbn [wire w_cls w_val h_g h_stack h_l].
  rewrite (proj2 (hid_local _) K). destruct (h_run obs _ (map wire l)). reflexivity.
Qed.

Lemma hrun_global {A} (obs : gtab -> locals -> icls -> Z -> list A) g st x i l : kind_of (ic i) = Global ->
  hrun obs (H g st x) (i :: l) =
  hrun obs (H (fst (table_step (g, st) (ic i) (ival i))) (snd (table_step (g, st) (ic i) (ival i))) x) l.
Proof.
  intros K. unfold hrun. cbn [map h_run]. unfold h_step. cbn [wire w_cls w_val h_g h_stack h_l].
  rewrite (proj2 (hid_global _) K).
  destruct (ic i); try discriminate K; cbn [table_step fst snd]; try (destruct (h_run obs _ (map wire l)); reflexivity).
  destruct st; cbn [fst snd]; destruct (h_run obs _ (map wire l)); reflexivity.
Qed.

Lemma hrun_main {A} (obs : gtab -> locals -> icls -> Z -> list A) g st x i l : kind_of (ic i) = Main ->
  hrun obs (H g st x) (i :: l) =
  (fst (hrun obs (H g st lo_init) l), obs g x (ic i) (ival i) ++ snd (hrun obs (H g st lo_init) l)).
Proof.
  intros K. unfold hrun. cbn [map h_run]. unfold h_step. cbn [wire w_cls w_val h_g h_stack h_l].
  rewrite (proj2 (hid_main _) K). destruct (h_run obs _ (map wire l)). reflexivity.
Qed.

Lemma hrun_nil {A} (obs : gtab -> locals -> icls -> Z -> list A) s : hrun obs s [] = (s, []).
Proof. reflexivity. Qed.

Definition outs (lk : icls) (i : item) : bool := negb (fam lk (ic i)).

Section Seg.
  Context (lk : icls) (SL : single lk).

  (** without the items of the family *)
  Lemma run_outs {A} (obs : gtab -> locals -> icls -> Z -> list A) seg :
    Forall not_main seg -> (lk = Usage -> Forall (fun i => ic i <> Delimiter) seg) ->
    forall g st x y, other lk x y ->
    exists g' st' x' y',
      hrun obs (H g st x) seg = (H g' st' x', []) /\
      hrun obs (H g st y) (filter (outs lk) seg) = (H g' st' y', []) /\
      other lk x' y' /\ tab lk y' = tab lk y.
  Proof.
    induction 1 as [|i seg N _ IH]; intros D g st x y O.
    - exists g, st, x, y. auto.
    - assert (D1 : lk = Usage -> ic i <> Delimiter) by (intros Q; specialize (D Q); inversion D; auto).
      assert (D2 : lk = Usage -> Forall (fun i => ic i <> Delimiter) seg) by (intros Q; specialize (D Q); inversion D; auto).
      cbn [filter]. destruct (kind_of (ic i)) eqn:K; [contradiction| |].
      + rewrite (hrun_global obs g st x i seg K).
        assert (OI : outs lk i = true).
        { unfold outs, fam. destruct SL as [-> | [-> | ->]]; destruct (ic i); try discriminate K; reflexivity. }
        rewrite OI, (hrun_global obs g st y i _ K). apply IH; auto.
      + rewrite (hrun_local obs g st x i seg K). destruct (outs lk i) eqn:OI.
        * rewrite (hrun_local obs g st y i _ K). unfold outs in OI. apply negb_true_iff in OI.
          destruct (lo_set_out lk (ic i) (ival i) (w_ext (wire i)) (g_page g) x y SL OI D1 O) as [O2 [_ T2]].
          destruct (IH D2 g st _ _ O2) as [g' [st' [x' [y' [E1 [E2 [O' T']]]]]]].
          exists g', st', x', y'. rewrite T', T2. auto.
        * unfold outs in OI. apply negb_false_iff in OI.
          pose proof (lo_set_fam lk (ic i) (ival i) (w_ext (wire i)) (g_page g) x SL OI) as [P1 P2].
          apply IH; auto. destruct O as [O1 O2]. split; [|congruence]. intros k SK NK. rewrite P1 by auto. auto.
  Qed.

  (** consecutive single items *)
  Definition lks (seg : list item) : list Z := map ival (filter (fun i => icls_eqb (ic i) lk) seg).
  Definition bounds (seg : list item) : list item :=
    filter (fun i => icls_eqb (ic i) (mn_of lk) || icls_eqb (ic i) (mx_of lk)) seg.

  (** the table after a segment with single items only *)
  Lemma run_singles {A} (obs : gtab -> locals -> icls -> Z -> list A) seg :
    Forall not_main seg -> Forall constructed seg -> bounds seg = [] ->
    forall g st x, exists g' st' x' ps,
      hrun obs (H g st x) seg = (H g' st' x', []) /\
      Forall2 (fun p v => True) ps (lks seg) /\
      l_decls (tab lk x') = l_decls (tab lk x) ++ map (fun pv => LOne (refer lk (fst pv) (snd pv))) (combine ps (lks seg)) /\
      l_min (tab lk x') = l_min (tab lk x) /\ l_max (tab lk x') = l_max (tab lk x) /\
      (page_settled (map cv seg) -> lk = Usage -> Forall (fun p => p = g_page g') ps) /\
      (Forall (fun i => page_tag (ic i) = false) seg -> g_page g' = g_page g).
  Proof.
    induction 1 as [|i seg N F IH]; intros C B g st x.
    - exists g, st, x, []. cbn. rewrite app_nil_r. repeat split; auto.
    - inversion C as [|? ? C1 C2]; subst.
      assert (B1 : icls_eqb (ic i) (mn_of lk) || icls_eqb (ic i) (mx_of lk) = false).
      { unfold bounds in B. cbn [filter] in B. destruct (icls_eqb (ic i) (mn_of lk) || _); [discriminate|reflexivity]. }
      assert (B2 : bounds seg = []).
      { unfold bounds in B. cbn [filter] in B. rewrite B1 in B. exact B. }
      destruct (kind_of (ic i)) eqn:K; [contradiction| |].
      + rewrite (hrun_global obs g st x i seg K).
        set (g1 := fst (table_step (g, st) (ic i) (ival i))). set (st1 := snd (table_step (g, st) (ic i) (ival i))).
        destruct (IH C2 B2 g1 st1 x) as [g' [st' [x' [ps [E [L [T1 [T2 [T3 [T4 T5]]]]]]]]]].
        exists g', st', x', ps.
        assert (LE : lks (i :: seg) = lks seg).
        { unfold lks. cbn [filter]. replace (icls_eqb (ic i) lk) with false; auto.
          destruct SL as [-> | [-> | ->]]; destruct (ic i); try discriminate K; reflexivity. }
        rewrite LE. repeat split; auto.
        * intros PS U. apply T4; auto. cbn [map page_settled] in PS. unfold cv at 1 in PS. tauto.
        * intros PT. inversion PT as [|? ? P1 P2]; subst. rewrite T5 by auto. unfold g1.
          destruct (ic i); try discriminate K; try discriminate P1; destruct g; reflexivity.
      + rewrite (hrun_local obs g st x i seg K).
        set (x1 := lo_set (ic i) (ival i) (w_ext (wire i)) (g_page g) x).
        destruct (IH C2 B2 g st x1) as [g' [st' [x' [ps [E [L [T1 [T2 [T3 [T4 T5]]]]]]]]]].
        destruct (icls_eqb (ic i) lk) eqn:EQ.
        * apply icls_eqb_eq in EQ.
          assert (LE : lks (i :: seg) = ival i :: lks seg).
          { unfold lks. cbn [filter]. rewrite EQ, icls_eqb_refl. reflexivity. }
          exists g', st', x', (g_page g :: ps). rewrite LE.
          pose proof (lo_set_lk lk i (g_page g) x SL C1 EQ) as TX. fold x1 in TX. rewrite TX in T1, T2, T3.
          split; auto. split; [constructor; auto|]. split.
          { rewrite T1. cbn [combine map fst snd add_one l_decls]. rewrite <- app_assoc. reflexivity. }
          split; auto. split; auto. split.
          -- intros PS U. cbn [map page_settled] in PS. unfold cv at 1 in PS. destruct PS as [P1 P2].
             constructor; [|apply T4; auto]. symmetry. apply T5.
             assert (UT : usage_tag (ic i) = true) by (rewrite EQ, U; reflexivity).
             specialize (P1 UT). rewrite Forall_map in P1. exact P1.
          -- intros PT. inversion PT; subst. auto.
        * assert (LE : lks (i :: seg) = lks seg).
          { unfold lks. cbn [filter]. rewrite EQ. reflexivity. }
          assert (TX : tab lk x1 = tab lk x).
          { unfold x1. destruct x as [us ds ss dl]. apply orb_false_iff in B1. destruct B1 as [B3 B4].
            destruct SL as [-> | [-> | ->]]; destruct (ic i); try discriminate; reflexivity. }
          exists g', st', x', ps. rewrite LE, T1, T2, T3, TX. repeat split; auto.
          -- intros PS U. apply T4; auto. cbn [map page_settled] in PS. unfold cv at 1 in PS. tauto.
          -- intros PT. inversion PT; subst. auto.
  Qed.
End Seg.

(** what a main item sees of the local state *)
Definition alike (m : binding) (pg : Z) (x y : locals) : Prop :=
  (forall k, single k -> values m pg (tab k x) = values m pg (tab k y)) /\ lo_dl x = lo_dl y.

Lemma alike_refl m pg x : alike m pg x x. Proof. split; auto. Qed.

Lemma alike_obs m g x y c v : alike m (g_page g) x y -> full_obs m g x c v = full_obs m g y c v.
Proof.
  intros [A1 A2]. unfold full_obs, data_events.
  pose proof (A1 Usage ltac:(left; auto)) as U. pose proof (A1 DesignatorIndex ltac:(right; left; auto)) as D.
  pose proof (A1 StringIndex ltac:(right; right; auto)) as S. cbn [tab] in U, D, S.
  rewrite U, D, S, A2. reflexivity.
Qed.

Lemma upto_one a : upto a a = [a].
Proof. unfold upto. replace (Z.to_nat (a - a + 1)) with 1%nat by lia. cbn. f_equal. lia. Qed.

Lemma upto_snoc a b : a <= b + 1 -> upto a (b + 1) = upto a b ++ [b + 1].
Proof.
  intros H. unfold upto. replace (Z.to_nat (b + 1 - a + 1)) with (S (Z.to_nat (b - a + 1))) by lia.
  rewrite seq_S, map_app. cbn [map]. f_equal. f_equal. lia.
Qed.

Lemma upto_shift k a b : upto (k + a) (k + b) = map (fun z => k + z) (upto a b).
Proof.
  unfold upto. rewrite map_map. replace (k + b - (k + a)) with (b - a) by lia. apply map_ext. intros. lia.
Qed.

Lemma in_upto a b v : In v (upto a b) <-> a <= v <= b.
Proof.
  unfold upto. rewrite in_map_iff. split.
  - intros [k [<- I]]. apply in_seq in I. lia.
  - intros H. exists (Z.to_nat (v - a)). split; [lia|]. apply in_seq. lia.
Qed.

Lemma rebuild_ok db lk c i : constructed i -> single lk -> ic i = lk -> fam lk c = true ->
  exists j, rebuild db c (iv i) = [j] /\ ic j = c /\ ival j = ival i /\ constructed j.
Proof.
  intros C S E F.
  assert (P : 0 <= ival i).
  { destruct (constructed_facts i C) as [[Q|Q] _]; auto. rewrite E in Q. destruct S as [-> | [-> | ->]]; discriminate. }
  assert (NC : neg_collection c (iv i) = false).
  { unfold fam in F. destruct S as [-> | [-> | ->]]; destruct c; try discriminate F; reflexivity. }
  destruct (proj2 (mk_item_accepts db c (iv i) NC)) as [j Hj].
  { split; [right; exact P|]. unfold fam in F. destruct S as [-> | [-> | ->]]; destruct c; try discriminate F; discriminate. }
  exists j. unfold rebuild. rewrite Hj. split; auto. split; [eapply mk_item_class; eauto|].
  split; [apply (mk_item_int _ _ _ _ NC Hj)|eapply mk_item_constructed; eauto].
Qed.

Section Flush.
  Context (lk : icls) (SL : single lk).

  Definition is_pv (a : Z) (v : pval) : Prop := exists i, constructed i /\ ic i = lk /\ iv i = v /\ ival i = a.

  Definition tracks (st : rm_state) (seg : list item) : Prop :=
    rm_merging st = true ->
    bounds lk seg = [] /\
    match lks lk seg with
    | [] => rm_min st = None /\ rm_max st = None
    | _ :: _ => exists a b va vb, rm_min st = Some va /\ rm_max st = Some vb /\ is_pv a va /\ is_pv b vb /\
                  a <= b /\ lks lk seg = upto a b
    end.

  Definition seg_ok (seg : list item) : Prop :=
    Forall not_main seg /\ Forall constructed seg /\ (lk = Usage -> plain_usages (map cv seg)).

  Lemma lks_snoc seg i : lks lk (seg ++ [i]) = lks lk seg ++ (if icls_eqb (ic i) lk then [ival i] else []).
  Proof. unfold lks. rewrite filter_app, map_app. cbn [filter]. destruct (icls_eqb (ic i) lk); reflexivity. Qed.
  Lemma bounds_snoc seg i : bounds lk (seg ++ [i]) = bounds lk seg ++
     (if icls_eqb (ic i) (mn_of lk) || icls_eqb (ic i) (mx_of lk) then [i] else []).
  Proof. unfold bounds. rewrite filter_app. reflexivity. Qed.

  Lemma single_local : kind_of lk = Local /\ kind_of (mn_of lk) = Local /\ kind_of (mx_of lk) = Local
     /\ lk <> mn_of lk /\ lk <> mx_of lk.
  Proof. destruct SL as [-> | [-> | ->]]; repeat split; discriminate. Qed.

  Lemma note_tracks st seg i : tracks st seg -> constructed i -> kind_of (ic i) <> Main ->
    tracks (rm_note lk (mn_of lk) (mx_of lk) st i) (seg ++ [i]).
  Proof.
    intros T C K. destruct single_local as [L1 [L2 [L3 [L4 L5]]]].
    unfold rm_note, ikd. destruct (rm_merging st) eqn:M; cbn [andb].
    2: { unfold tracks. rewrite M. discriminate. }
    specialize (T M). destruct T as [B T].
    destruct (ikind_eqb (kind_of (ic i)) Local) eqn:KL.
    - destruct (icls_eqb (ic i) (mn_of lk) || icls_eqb (ic i) (mx_of lk)) eqn:MM.
      + intros Q. discriminate Q.
      + destruct (icls_eqb (ic i) lk) eqn:E.
        * apply icls_eqb_eq in E.
          assert (PV : is_pv (ival i) (iv i)) by (exists i; auto).
          destruct (rm_max st) as [vb|] eqn:MX.
          -- destruct (ival i =? py_int vb + 1) eqn:NX; [|intros Q; discriminate Q].
             intros _. rewrite bounds_snoc, MM, B, lks_snoc, E, icls_eqb_refl. split; auto.
             destruct (lks lk seg) as [|v0 r] eqn:LK; [destruct T; congruence|].
             destruct T as [a [b [va [vb' [T1 [T2 [T3 [T4 [T5 T6]]]]]]]]].
             assert (vb' = vb) by congruence. subst vb'.
             assert (PB : py_int vb = b) by (destruct T4 as [j [_ [_ [J1 J2]]]]; unfold ival in J2; congruence).
             cbn [app]. exists a, (b + 1), va, (iv i). cbn [rm_min rm_max].
             assert (NI : ival i = b + 1) by lia.
             repeat split; auto; try lia; [rewrite <- NI; auto|].
             rewrite upto_snoc, <- T6, NI by lia. reflexivity.
          -- intros _. rewrite bounds_snoc, MM, B, lks_snoc, E, icls_eqb_refl. split; auto.
             destruct (lks lk seg) as [|v0 r] eqn:LK.
             ++ cbn [app]. exists (ival i), (ival i), (iv i), (iv i). cbn [rm_min rm_max].
                repeat split; auto; try lia. rewrite upto_one. reflexivity.
             ++ destruct T as [a [b [va [vb' [T1 [T2 _]]]]]]. congruence.
        * intros _. rewrite bounds_snoc, MM, B, lks_snoc, E, (app_nil_r (lks lk seg)). auto.
    - intros _. rewrite bounds_snoc, lks_snoc, B.
      assert (NE : forall c, kind_of c = Local -> icls_eqb (ic i) c = false).
      { intros c KC. apply icls_eqb_neq. intros Q. rewrite Q, KC in KL. discriminate. }
      rewrite !NE by auto. cbn [orb app]. rewrite (app_nil_r (lks lk seg)). auto.
  Qed.

  Lemma note_pending st i : rm_pending (rm_note lk (mn_of lk) (mx_of lk) st i) = rm_pending st.
  Proof.
    unfold rm_note. repeat match goal with |- context [if ?b then _ else _] => destruct b end; auto.
    destruct (rm_max st); auto. match goal with |- context [if ?b then _ else _] => destruct b end; auto.
  Qed.

  (** what the single items before a main item mean *)
  Lemma singles_mean seg : seg_ok seg -> forall m pg ps,
    (page_settled (map cv seg) -> lk = Usage -> Forall (fun p => p = pg) ps) ->
    exists base, (forall p v, In (p, v) (combine ps (lks lk seg)) -> resolve m pg (refer lk p v) = base + v) /\
      (forall v, In v (lks lk seg) -> resolve m pg (refer lk pg v) = base + v).
  Proof.
    intros [_ [_ PU]] m pg ps PS. destruct SL as [E|E]; [rewrite E in PU, PS |- *|].
    - destruct (PU eq_refl) as [_ [A|[A B]]].
      + exists 0. assert (Q : forall v, In v (lks Usage seg) -> (65536 <=? v) = true).
        { intros v I. unfold lks in I. apply in_map_iff in I. destruct I as [i [<- I]]. apply filter_In in I.
          destruct I as [I1 I2]. apply icls_eqb_eq in I2. rewrite Forall_forall in A.
          specialize (A (cv i) (in_map cv _ _ I1)). cbn [cv fst snd] in A. rewrite I2 in A. specialize (A eq_refl). lia. }
        split; intros.
        * apply in_combine_r in H. cbn [refer]. unfold resolve. cbn [lr_abs lr_val]. rewrite (Q v H). reflexivity.
        * cbn [refer]. unfold resolve. cbn [lr_abs lr_val]. rewrite (Q v H). reflexivity.
      + exists (pg * 65536). assert (Q : forall v, In v (lks Usage seg) -> (65536 <=? v) = false).
        { intros v I. unfold lks in I. apply in_map_iff in I. destruct I as [i [<- I]]. apply filter_In in I.
          destruct I as [I1 I2]. apply icls_eqb_eq in I2. rewrite Forall_forall in A.
          specialize (A (cv i) (in_map cv _ _ I1)). cbn [cv fst snd] in A. rewrite I2 in A. specialize (A eq_refl). lia. }
        specialize (PS B eq_refl). rewrite Forall_forall in PS.
        split; intros.
        * pose proof (in_combine_r _ _ _ _ H) as H2. apply in_combine_l in H. cbn [refer]. unfold resolve. cbn [lr_abs lr_val lr_page].
          rewrite (Q v H2), (PS p H). destruct m; reflexivity.
        * cbn [refer]. unfold resolve. cbn [lr_abs lr_val lr_page]. rewrite (Q v H). destruct m; reflexivity.
    - exists 0. destruct E as [E|E]; rewrite E; split; intros; reflexivity.
  Qed.

  Lemma values_app m pg d1 d2 a b : values m pg (L (d1 ++ d2) a b) = flat_map (resolve_decl m pg) d1 ++ flat_map (resolve_decl m pg) d2.
  Proof. unfold values. cbn [l_decls]. apply flat_map_app. Qed.

  Lemma flat_singles m pg base ps vs : Forall2 (fun (p v : Z) => True) ps vs ->
    (forall p v, In (p, v) (combine ps vs) -> resolve m pg (refer lk p v) = base + v) ->
    flat_map (resolve_decl m pg) (map (fun pv => LOne (refer lk (fst pv) (snd pv))) (combine ps vs)) = map (fun z => base + z) vs.
  Proof.
    induction 1 as [|p v ps vs _ _ IH]; intros Q; auto.
    cbn [combine map flat_map fst snd resolve_decl app]. rewrite (Q p v) by (left; auto). f_equal. apply IH.
    intros. apply Q. right. auto.
  Qed.

  (** merged single items mean the same *)
  Lemma seg_flush {E} (obs : gtab -> locals -> icls -> Z -> list E) db st seg m g sk : seg_ok seg -> tracks st seg -> rm_pending st = seg ->
    exists g' sk' x' y',
      hrun obs (H g sk lo_init) seg = (H g' sk' x', []) /\
      hrun obs (H g sk lo_init) (rm_flush db lk (mn_of lk) (mx_of lk) st) = (H g' sk' y', []) /\
      alike m (g_page g') x' y'.
  Proof.
    intros SO T P. pose proof SO as [S1 [S2 S3]].
    assert (ND : lk = Usage -> Forall (fun i => ic i <> Delimiter) seg).
    { intros Q. destruct (S3 Q) as [D _]. rewrite Forall_map in D. exact D. }
    destruct (run_outs lk SL obs seg S1 ND g sk lo_init lo_init (other_refl _ _))
      as [g' [sk' [x' [y' [E1 [E2 [O TY]]]]]]].
    assert (SAME : exists g' sk' x' y', hrun obs (H g sk lo_init) seg = (H g' sk' x', []) /\
      hrun obs (H g sk lo_init) (rm_pending st) = (H g' sk' y', []) /\ alike m (g_page g') x' y').
    { exists g', sk', x', x'. rewrite P. split; auto. split; auto. apply alike_refl. }
    unfold rm_flush. destruct (rm_min st) as [va|] eqn:MN; [|exact SAME].
    destruct (rm_max st) as [vb|] eqn:MX; [|exact SAME].
    destruct (truthy va && truthy vb && rm_merging st) eqn:TR; [|exact SAME].
    apply andb_true_iff in TR. destruct TR as [_ MG].
    destruct (T MG) as [B TT].
    destruct (lks lk seg) as [|v0 r] eqn:LK; [destruct TT; congruence|]. rewrite <- LK in *. clear v0 r LK.
    destruct TT as [a [b [va' [vb' [T1 [T2 [T3 [T4 [T5 T6]]]]]]]]].
    assert (va' = va) by congruence. assert (vb' = vb) by congruence. subst va' vb'.
    destruct T3 as [ia [A1 [A2 [A3 A4]]]]. destruct T4 as [ib [B1 [B2 [B3 B4]]]].
    destruct (run_singles lk SL obs seg S1 S2 B g sk lo_init) as [g1 [sk1 [x1 [ps [R1 [R2 [R3 [R4 [R5 [R6 R7]]]]]]]]]].
    rewrite E1 in R1. injection R1 as <- <- <-.
    assert (TE : tab lk lo_init = l_empty) by (destruct SL as [-> | [-> | ->]]; reflexivity).
    rewrite TE in *. cbn [l_empty l_decls l_min l_max app] in *.
    destruct (singles_mean seg SO m (g_page g') ps R6) as [base [Q1 Q2]].
    assert (VX : values m (g_page g') (tab lk x') = map (fun z => base + z) (upto a b)).
    { unfold values. rewrite R3, <- T6. apply flat_singles; auto. }
    assert (IA : In a (lks lk seg)) by (rewrite T6; apply in_upto; lia).
    assert (IB : In b (lks lk seg)) by (rewrite T6; apply in_upto; lia).
    pose proof (Q2 a IA) as QA. pose proof (Q2 b IB) as QB.
    (* the rebuilt items *)
    assert (PA : py_int va = a) by (unfold ival in A4; congruence).
    assert (PB : py_int vb = b) by (unfold ival in B4; congruence).
    rewrite PA, PB. subst va vb.
    destruct single_local as [L1 [L2 [L3 [L4 L5]]]].
    assert (FK : fam lk lk = true) by (unfold fam; rewrite icls_eqb_refl; reflexivity).
    assert (FN : fam lk (mn_of lk) = true) by (unfold fam; rewrite icls_eqb_refl, orb_true_r; reflexivity).
    assert (FX : fam lk (mx_of lk) = true) by (unfold fam; rewrite icls_eqb_refl, !orb_true_r; reflexivity).
    change (filter (fun x => negb (icls_eqb (ic x) lk || icls_eqb (ic x) (mn_of lk) || icls_eqb (ic x) (mx_of lk))) (rm_pending st))
      with (filter (outs lk) (rm_pending st)). rewrite P.
    assert (FIN : forall news y2, hrun obs (H g' sk' y') news = (H g' sk' y2, []) -> other lk y2 y' ->
      values m (g_page g') (tab lk y2) = map (fun z => base + z) (upto a b) ->
      exists g0 sk0 x0 y0, hrun obs (H g sk lo_init) seg = (H g0 sk0 x0, []) /\
        hrun obs (H g sk lo_init) (filter (outs lk) seg ++ news) = (H g0 sk0 y0, []) /\
        alike m (g_page g0) x0 y0).
    { intros news y2 RN [ON1 ON2] VN. exists g', sk', x', y2. split; auto. split.
      - rewrite hrun_app, E2. cbn [fst snd]. rewrite RN. reflexivity.
      - destruct O as [O1 O2]. split; [|congruence]. intros k SK.
        destruct (icls_eqb k lk) eqn:KE.
        + apply icls_eqb_eq in KE. subst k. congruence.
        + apply icls_eqb_neq in KE. rewrite (O1 k SK KE), (ON1 k SK KE). reflexivity. }
    destruct (a =? b) eqn:AB.
    - destruct (rebuild_ok db lk lk ia A1 SL A2 FK) as [j [J1 [J2 [J3 J4]]]].
      rewrite J1. eapply FIN.
      + rewrite hrun_local by (rewrite J2; auto). reflexivity.
      + rewrite J2. apply lo_set_fam; auto.
      + rewrite (lo_set_lk lk j _ _ SL J4 J2), TY. unfold values, add_one. cbn [l_empty l_decls app flat_map resolve_decl].
        rewrite J3, A4, QA. replace b with a by lia. rewrite upto_one. reflexivity.
    - destruct (1 <? b - a) eqn:BA.
      + destruct (rebuild_ok db lk (mn_of lk) ia A1 SL A2 FN) as [j [J1 [J2 [J3 J4]]]].
        destruct (rebuild_ok db lk (mx_of lk) ib B1 SL B2 FX) as [k [K1 [K2 [K3 K4]]]].
        rewrite J1, K1. cbn [app]. eapply FIN.
        * rewrite hrun_local by (rewrite J2; auto). rewrite hrun_local by (rewrite K2; auto). reflexivity.
        * destruct (lo_set_fam lk (ic j) (ival j) (w_ext (wire j)) (g_page g') y' SL ltac:(rewrite J2; auto)) as [W1 W2].
          set (y1 := lo_set (ic j) _ _ _ y') in *.
          destruct (lo_set_fam lk (ic k) (ival k) (w_ext (wire k)) (g_page g') y1 SL ltac:(rewrite K2; auto)) as [W3 W4].
          split; [|congruence]. intros q SQ NQ. rewrite W3, W1 by auto. reflexivity.
        * rewrite (lo_set_mx lk k _ _ SL K4 K2), (lo_set_mn lk j _ _ SL J4 J2), TY.
          unfold values, add_max, add_min. cbn [l_empty l_decls l_min l_max app flat_map resolve_decl].
          rewrite J3, K3, A4, B4, QA, QB, app_nil_r. apply upto_shift.
      + destruct (rebuild_ok db lk lk ia A1 SL A2 FK) as [j [J1 [J2 [J3 J4]]]].
        destruct (rebuild_ok db lk lk ib B1 SL B2 FK) as [k [K1 [K2 [K3 K4]]]].
        rewrite J1, K1. cbn [app]. eapply FIN.
        * rewrite hrun_local by (rewrite J2; auto). rewrite hrun_local by (rewrite K2; auto). reflexivity.
        * destruct (lo_set_fam lk (ic j) (ival j) (w_ext (wire j)) (g_page g') y' SL ltac:(rewrite J2; auto)) as [W1 W2].
          set (y1 := lo_set (ic j) _ _ _ y') in *.
          destruct (lo_set_fam lk (ic k) (ival k) (w_ext (wire k)) (g_page g') y1 SL ltac:(rewrite K2; auto)) as [W3 W4].
          split; [|congruence]. intros q SQ NQ. rewrite W3, W1 by auto. reflexivity.
        * rewrite (lo_set_lk lk k _ _ SL K4 K2), (lo_set_lk lk j _ _ SL J4 J2), TY.
          unfold values, add_one. cbn [l_empty l_decls l_min l_max app flat_map resolve_decl].
          rewrite J3, K3, A4, B4, QA, QB. replace b with (a + 1) by lia. rewrite upto_snoc by lia.
          rewrite upto_one. reflexivity.
  Qed.
End Flush.

Definition with_pending (st : rm_state) (p : list item) : rm_state := RM (rm_merging st) (rm_min st) (rm_max st) p.

Lemma flush_hd db lk st i seg : single lk -> kind_of (ic i) = Main -> rm_pending st = i :: seg ->
  rm_flush db lk (mn_of lk) (mx_of lk) st = i :: rm_flush db lk (mn_of lk) (mx_of lk) (with_pending st seg).
Proof.
  intros SL K P. unfold rm_flush, with_pending. cbn [rm_min rm_max rm_merging rm_pending]. rewrite P.
  destruct (rm_min st); auto. destruct (rm_max st); auto. destruct (truthy p && truthy p0 && rm_merging st); auto.
  cbn [filter]. replace (icls_eqb (ic i) lk || icls_eqb (ic i) (mn_of lk) || icls_eqb (ic i) (mx_of lk)) with false; auto.
  destruct SL as [-> | [-> | ->]]; destruct (ic i); try discriminate K; reflexivity.
Qed.

Definition chunked (seg l : list spec_item) : list (list spec_item) :=
  match chunks l with c :: cs => (seg ++ c) :: cs | [] => [seg] end.

Lemma chunked_nil l : chunked [] l = chunks l.
Proof. unfold chunked. destruct (chunks l) eqn:E; auto. destruct l as [|x l]; [discriminate|]. cbn in E.
  destruct (main_tag (fst x)); [discriminate|]. destruct (chunks l); discriminate. Qed.

Lemma chunked_snoc seg x l : main_tag (fst x) = false -> chunked (seg ++ [x]) l = chunked seg (x :: l).
Proof.
  intros M. unfold chunked. cbn [chunks]. rewrite M. destruct (chunks l); auto. rewrite <- app_assoc. reflexivity.
Qed.

Lemma chunked_main seg x l : main_tag (fst x) = true -> chunked seg (x :: l) = seg :: chunks l.
Proof. intros M. unfold chunked. cbn [chunks]. rewrite M, app_nil_r. reflexivity. Qed.

Lemma main_tag_kind c : main_tag c = true <-> kind_of c = Main.
Proof. unfold main_tag. rewrite <- hid_main. destruct (hid_kind c); split; congruence. Qed.

Lemma rm_go {E} (obs : gtab -> locals -> icls -> Z -> list E) db lk m :
  (forall g x y c v, alike m (g_page g) x y -> obs g x c v = obs g y c v) -> single lk -> forall l st hd seg g sk x,
  rm_pending st = hd ++ seg -> (hd = [] /\ x = lo_init \/ exists i, hd = [i] /\ kind_of (ic i) = Main) ->
  tracks lk st seg -> Forall not_main seg -> Forall constructed seg -> Forall constructed l ->
  (lk = Usage -> Forall plain_usages (chunked (map cv seg) (map cv l))) ->
  let P := range_merge db lk (mn_of lk) (mx_of lk) in
  snd (hrun obs (H g sk x) (snd (feed P st l) ++ p_close P (fst (feed P st l)))) =
  snd (hrun obs (H g sk x) (hd ++ seg ++ l)).
Proof.
  intros OB SL l. induction l as [|i l IH]; intros st hd seg g sk x P HD T NM CS CL PU PP.
  - cbn [feed fst snd app]. change (p_close PP st) with (rm_flush db lk (mn_of lk) (mx_of lk) st).
    assert (SO : seg_ok lk seg).
    { split; auto. split; auto. intros Q. specialize (PU Q). inversion PU; subst. rewrite app_nil_r in H1. auto. }
    rewrite app_nil_r. destruct HD as [[-> ->]|[i [-> K]]].
    + cbn [app] in *. destruct (seg_flush lk SL obs db st seg m g sk SO T P) as [g' [sk' [x' [y' [E1 [E2 _]]]]]].
      rewrite E1, E2. reflexivity.
    + cbn [app] in *. rewrite (flush_hd db lk st i seg SL K P).
      destruct (seg_flush lk SL obs db (with_pending st seg) seg m g sk SO T eq_refl) as [g' [sk' [x' [y' [E1 [E2 _]]]]]].
      rewrite !hrun_main by auto. rewrite E1, E2. reflexivity.
  - inversion CL as [|? ? C1 C2]; subst. clear CL.
    destruct (kind_of (ic i)) eqn:K.
    + assert (SO : seg_ok lk seg).
      { split; auto. split; auto. intros Q. specialize (PU Q). cbn [map] in PU.
        rewrite chunked_main in PU by (apply main_tag_kind; auto). inversion PU; auto. }
      assert (NT : rm_note lk (mn_of lk) (mx_of lk) st i = st).
      { unfold rm_note, ikd. rewrite K. rewrite andb_false_r. reflexivity. }
      assert (AP : p_append PP st i = (RM true None None [i], rm_flush db lk (mn_of lk) (mx_of lk) st)).
      { change (p_append PP) with (rm_append db lk (mn_of lk) (mx_of lk)). unfold rm_append. rewrite NT. unfold ikd. rewrite K. reflexivity. }
      cbn [feed]. rewrite AP.
      specialize (IH (RM true None None [i]) [i] []).
      destruct (feed PP (RM true None None [i]) l) as [s2 o2] eqn:FD. cbn [fst snd] in *.
      assert (FL : exists g' sk' x' y' e,
         hrun obs (H g sk x) (hd ++ seg) = (H g' sk' x', e) /\
         hrun obs (H g sk x) (rm_flush db lk (mn_of lk) (mx_of lk) st) = (H g' sk' y', e) /\
         alike m (g_page g') x' y').
      { destruct HD as [[-> ->]|[i0 [-> K0]]].
        - cbn [app] in *. destruct (seg_flush lk SL obs db st seg m g sk SO T P) as [g' [sk' [x' [y' [E1 [E2 E3]]]]]].
          exists g', sk', x', y', []. auto.
        - cbn [app] in *. rewrite (flush_hd db lk st i0 seg SL K0 P).
          destruct (seg_flush lk SL obs db (with_pending st seg) seg m g sk SO T eq_refl) as [g' [sk' [x' [y' [E1 [E2 E3]]]]]].
          exists g', sk', x', y', (obs g x (ic i0) (ival i0) ++ []). rewrite !hrun_main by auto. rewrite E1, E2. auto. }
      destruct FL as [g' [sk' [x' [y' [e [E1 [E2 E3]]]]]]].
      rewrite (app_assoc hd seg (i :: l)), (hrun_app obs (H g sk x) (hd ++ seg)), E1.
      rewrite <- (app_assoc _ o2), (hrun_app obs (H g sk x) (rm_flush db lk (mn_of lk) (mx_of lk) st)), E2.
      cbn [fst snd]. f_equal.
      specialize (IH g' sk' y'). cbv zeta in IH. fold PP in IH. unfold p_state, PP, range_merge in IH, FD. rewrite FD in IH. cbn [fst snd] in IH.
      unfold PP, range_merge. rewrite IH.
      * cbn [app]. rewrite !hrun_main by auto. cbn [snd]. f_equal. symmetry. apply OB; auto.
      * reflexivity.
      * right. exists i. auto.
      * intros _. split; auto. cbn. auto.
      * constructor.
      * constructor.
      * auto.
      * intros Q. specialize (PU Q). cbn [map] in PU. rewrite chunked_main in PU by (apply main_tag_kind; auto).
        cbn [map]. rewrite chunked_nil. inversion PU; auto.
    + refine (_ (IH (with_pending (rm_note lk (mn_of lk) (mx_of lk) st i) (rm_pending st ++ [i])) hd (seg ++ [i]) g sk x _ HD _ _ _ C2 _));
        [| | | | |].
      * assert (AP : p_append PP st i = (with_pending (rm_note lk (mn_of lk) (mx_of lk) st i) (rm_pending st ++ [i]), [])).
        { change (p_append PP) with (rm_append db lk (mn_of lk) (mx_of lk)). unfold rm_append. unfold ikd. rewrite K.
          unfold with_pending. rewrite note_pending. reflexivity. }
        cbn [feed]. rewrite AP. fold PP. unfold with_pending. cbn [rm_pending].
        destruct (feed PP _ l) as [s2 o2]. cbn [fst snd app]. intros ->. rewrite <- !app_assoc. reflexivity.
      * cbn [rm_pending with_pending]. rewrite P, app_assoc. reflexivity.
      * apply (note_tracks lk SL st seg i T C1). congruence.
      * apply Forall_app. split; auto. constructor; auto. unfold not_main. rewrite K. discriminate.
      * apply Forall_app. auto.
      * intros Q. specialize (PU Q). rewrite map_app. cbn [map] in *. rewrite chunked_snoc; auto.
        destruct (main_tag (fst (cv i))) eqn:MT; auto. apply main_tag_kind in MT. cbn [cv fst] in MT. congruence.
    + refine (_ (IH (with_pending (rm_note lk (mn_of lk) (mx_of lk) st i) (rm_pending st ++ [i])) hd (seg ++ [i]) g sk x _ HD _ _ _ C2 _));
        [| | | | |].
      * assert (AP : p_append PP st i = (with_pending (rm_note lk (mn_of lk) (mx_of lk) st i) (rm_pending st ++ [i]), [])).
        { change (p_append PP) with (rm_append db lk (mn_of lk) (mx_of lk)). unfold rm_append. unfold ikd. rewrite K.
          unfold with_pending. rewrite note_pending. reflexivity. }
        cbn [feed]. rewrite AP. fold PP. unfold with_pending. cbn [rm_pending].
        destruct (feed PP _ l) as [s2 o2]. cbn [fst snd app]. intros ->. rewrite <- !app_assoc. reflexivity.
      * cbn [rm_pending with_pending]. rewrite P, app_assoc. reflexivity.
      * apply (note_tracks lk SL st seg i T C1). congruence.
      * apply Forall_app. split; auto. constructor; auto. unfold not_main. rewrite K. discriminate.
      * apply Forall_app. auto.
      * intros Q. specialize (PU Q). rewrite map_app. cbn [map] in *. rewrite chunked_snoc; auto.
        destruct (main_tag (fst (cv i))) eqn:MT; auto. apply main_tag_kind in MT. cbn [cv fst] in MT. congruence.
Qed.

Lemma seen_hrun m l : seen m l = snd (hrun (full_obs m) (H g_init [] lo_init) l).
Proof. reflexivity. Qed.

Theorem range_view db lk m l : single lk -> Forall constructed l ->
  (lk = Usage -> Forall plain_usages (chunks (map cv l))) ->
  seen m (run_pass (range_merge db lk (mn_of lk) (mx_of lk)) l) = seen m l.
Proof.
  intros SL C PU. rewrite !seen_hrun.
  assert (T0 : tracks lk rm_init []) by (intros _; cbn; auto).
  pose proof (rm_go (full_obs m) db lk m (alike_obs m) SL l rm_init [] [] g_init [] lo_init eq_refl (or_introl (conj eq_refl eq_refl)) T0
     (Forall_nil _) (Forall_nil _) C) as G.
  cbn [map] in G. rewrite chunked_nil in G. specialize (G PU). cbv zeta in G. cbn [app] in G. rewrite <- G.
  unfold run_pass. change (p_init (range_merge db lk (mn_of lk) (mx_of lk))) with rm_init.
  destruct (feed (range_merge db lk (mn_of lk) (mx_of lk)) rm_init l) as [s o]. reflexivity.
Qed.

(* ------------------------------------------------------------------ *)
(** consecutive values are merged *)

Section Merged.
  Context (db : udb) (lk : icls) (SL : single lk).
  Let P := range_merge db lk (mn_of lk) (mx_of lk).

  Definition consecutive (vs : list Z) : Prop := vs = [] \/ exists a b, a <= b /\ vs = upto a b.

  Definition keeps (st : rm_state) (seg : list item) : Prop :=
    bounds lk seg = [] -> consecutive (lks lk seg) -> rm_merging st = true.

  Lemma upto_empty a b : b < a -> upto a b = [].
  Proof. intros. unfold upto. replace (Z.to_nat (b - a + 1)) with 0%nat by lia. reflexivity. Qed.

  Lemma upto_cons a b : a <= b -> upto a b = a :: upto (a + 1) b.
  Proof.
    intros. unfold upto. replace (Z.to_nat (b - a + 1)) with (S (Z.to_nat (b - (a + 1) + 1))) by lia.
    cbn [seq map]. f_equal; [lia|]. rewrite <- seq_shift, map_map. apply map_ext. intros. lia.
  Qed.

  Lemma upto_last a b vs v : a <= b -> vs ++ [v] = upto a b -> v = b /\ vs = upto a (b - 1).
  Proof.
    intros L E. replace b with (b - 1 + 1) in E by lia. rewrite upto_snoc in E by lia.
    apply app_inj_tail in E. destruct E. split; auto. lia.
  Qed.

  Lemma consecutive_front vs v : consecutive (vs ++ [v]) -> consecutive vs.
  Proof.
    intros [E|[a [b [L E]]]]; [destruct vs; discriminate|].
    apply upto_last in E; auto. destruct E as [_ ->].
    destruct (Z_le_gt_dec a (b - 1)); [right; eauto|left; apply upto_empty; lia].
  Qed.

  Lemma upto_inj a b c d : a <= b -> upto a b = upto c d -> a = c /\ b = d.
  Proof.
    intros L E. assert (c <= d).
    { destruct (Z_le_gt_dec c d); auto. rewrite (upto_empty c d) in E by lia. rewrite upto_cons in E by auto. discriminate. }
    assert (I1 : In a (upto c d)) by (rewrite <- E; apply in_upto; lia).
    assert (I2 : In b (upto c d)) by (rewrite <- E; apply in_upto; lia).
    assert (I3 : In c (upto a b)) by (rewrite E; apply in_upto; lia).
    assert (I4 : In d (upto a b)) by (rewrite E; apply in_upto; lia).
    rewrite in_upto in *. lia.
  Qed.

  Lemma note_keeps st seg i : tracks lk st seg -> keeps st seg -> constructed i -> kind_of (ic i) <> Main ->
    keeps (rm_note lk (mn_of lk) (mx_of lk) st i) (seg ++ [i]).
  Proof.
    intros T KP C K B Q. rewrite bounds_snoc in B. rewrite lks_snoc in Q by auto.
    apply app_eq_nil in B. destruct B as [B1 B2].
    assert (Q1 : consecutive (lks lk seg)).
    { destruct (icls_eqb (ic i) lk); [eapply consecutive_front; eauto|rewrite app_nil_r in Q; auto]. }
    pose proof (KP B1 Q1) as M. destruct (T M) as [_ TT].
    unfold rm_note. rewrite M. destruct (ikind_eqb (ikd i) Local); cbn [andb]; auto.
    destruct (icls_eqb (ic i) (mn_of lk) || icls_eqb (ic i) (mx_of lk)); [discriminate|].
    destruct (icls_eqb (ic i) lk); auto.
    destruct (rm_max st) as [vb|] eqn:MX; auto.
    destruct (lks lk seg) as [|v0 r] eqn:LK; [destruct TT; congruence|]. rewrite <- LK in *.
    destruct TT as [a [b [va [vb' [T1 [T2 [T3 [T4 [T5 T6]]]]]]]]].
    assert (vb' = vb) by congruence. subst vb'.
    assert (PB : py_int vb = b) by (destruct T4 as [j [_ [_ [J1 J2]]]]; unfold ival in J2; congruence).
    destruct Q as [Q|[c [d [L Q]]]]; [rewrite LK in Q; discriminate|].
    apply upto_last in Q; auto. destruct Q as [Q2 Q3]. rewrite T6 in Q3. apply upto_inj in Q3; auto.
    replace (ival i =? py_int vb + 1) with true by lia. reflexivity.
  Qed.

  Lemma lks_cv seg : map snd (filter (fun x => icls_eqb (fst x) lk) (map cv seg)) = lks lk seg.
  Proof.
    unfold lks. induction seg as [|i seg IH]; auto. cbn [map filter cv fst].
    destruct (icls_eqb (ic i) lk); cbn [map snd]; rewrite IH; reflexivity.
  Qed.

  Lemma bounds_cv seg : Forall (fun x => fst x <> mn_of lk /\ fst x <> mx_of lk) (map cv seg) -> bounds lk seg = [].
  Proof.
    unfold bounds. induction seg as [|i seg IH]; auto. cbn [map filter]. intros F. inversion F as [|? ? [A B] F2]; subst.
    cbn [cv fst] in A, B. apply icls_eqb_neq in A. apply icls_eqb_neq in B. rewrite A, B. auto.
  Qed.

  Lemma outs_cv seg : bounds lk seg = [] ->
    map cv (filter (outs lk) seg) = filter (fun x => negb (icls_eqb (fst x) lk)) (map cv seg).
  Proof.
    unfold bounds, outs, fam. induction seg as [|i seg IH]; auto. cbn [map filter cv fst].
    destruct (icls_eqb (ic i) (mn_of lk) || icls_eqb (ic i) (mx_of lk)) eqn:E; [discriminate|].
    intros B. rewrite <- orb_assoc, E, orb_false_r. destruct (icls_eqb (ic i) lk); cbn [negb map]; rewrite IH; auto.
  Qed.

  Lemma truthy_pos v : 0 < py_int v -> truthy v = true.
  Proof. destruct v; cbn; auto. intros. lia. Qed.

  Lemma flush_merged st seg : tracks lk st seg -> keeps st seg -> rm_pending st = seg ->
    merged_chunk lk (mn_of lk) (mx_of lk) (map cv seg) (map cv (rm_flush db lk (mn_of lk) (mx_of lk) st)).
  Proof.
    intros T K PD a b A0 AB NB EQ. apply bounds_cv in NB. rewrite lks_cv in EQ.
    assert (M : rm_merging st = true) by (apply K; auto; right; exists a, b; split; auto; lia).
    destruct (T M) as [_ TT].
    destruct (lks lk seg) as [|v0 r] eqn:LK; [rewrite upto_cons in EQ by lia; discriminate|]. rewrite <- LK in *.
    destruct TT as [a' [b' [va [vb [T1 [T2 [T3 [T4 [T5 T6]]]]]]]]].
    rewrite EQ in T6. apply upto_inj in T6; [|lia]. destruct T6 as [<- <-].
    destruct T3 as [ia [A1 [A2 [A3 A4]]]]. destruct T4 as [ib [B1 [B2 [B3 B4]]]].
    assert (PA : py_int va = a) by (unfold ival in A4; congruence).
    assert (PB : py_int vb = b) by (unfold ival in B4; congruence).
    unfold rm_flush. rewrite T1, T2, M, !truthy_pos by lia. cbn [andb]. rewrite PA, PB.
    replace (a =? b) with false by lia. replace (1 <? b - a) with true by lia.
    subst va vb.
    assert (FN : fam lk (mn_of lk) = true) by (unfold fam; rewrite icls_eqb_refl, orb_true_r; reflexivity).
    assert (FX : fam lk (mx_of lk) = true) by (unfold fam; rewrite icls_eqb_refl, !orb_true_r; reflexivity).
    destruct (rebuild_ok db lk (mn_of lk) ia A1 SL A2 FN) as [j [J1 [J2 [J3 J4]]]].
    destruct (rebuild_ok db lk (mx_of lk) ib B1 SL B2 FX) as [k [K1 [K2 [K3 K4]]]].
    rewrite J1, K1, map_app. cbn [map app]. unfold cv at 2 3. rewrite J2, J3, K2, K3, A4, B4.
    f_equal. rewrite PD. apply outs_cv. auto.
  Qed.

  (** every value written was in the chunk *)
  Definition from_chunk (c c' : list spec_item) : Prop :=
    forall Q : Z -> Prop, Forall (fun x => fam lk (fst x) = true -> Q (snd x)) c ->
      Forall (fun x => fam lk (fst x) = true -> Q (snd x)) c'.

  Lemma flush_from st seg : tracks lk st seg -> rm_pending st = seg ->
    from_chunk (map cv seg) (map cv (rm_flush db lk (mn_of lk) (mx_of lk) st)).
  Proof.
    intros T PD Q F. unfold rm_flush. rewrite PD.
    destruct (rm_min st) as [va|] eqn:MN; auto. destruct (rm_max st) as [vb|] eqn:MX; auto.
    destruct (rm_merging st) eqn:M; [|rewrite andb_false_r; auto]. destruct (truthy va && truthy vb); auto. cbn [andb].
    destruct (T M) as [_ TT]. rewrite <- lks_cv in TT.
    set (vs := map snd (filter (fun x => icls_eqb (fst x) lk) (map cv seg))) in *.
    assert (FV : Forall Q vs).
    { unfold vs. apply Forall_forall. intros z I. apply in_map_iff in I. destruct I as [x [<- I]]. apply filter_In in I.
      destruct I as [I1 I2]. rewrite Forall_forall in F. apply (F x I1). unfold fam. rewrite I2. reflexivity. }
    destruct vs as [|v0 r]; [destruct TT; congruence|].
    destruct TT as [a [b [va' [vb' [T1 [T2 [T3 [T4 [T5 T6]]]]]]]]].
    rewrite MN in T1. rewrite MX in T2. injection T1 as <-. injection T2 as <-.
    rewrite T6 in FV. rewrite Forall_forall in FV.
    assert (QA : Q a) by (apply FV, in_upto; lia). assert (QB : Q b) by (apply FV, in_upto; lia).
    destruct T3 as [ia [A1 [A2 [A3 A4]]]]. destruct T4 as [ib [B1 [B2 [B3 B4]]]]. subst va vb.
    assert (FK : fam lk lk = true) by (unfold fam; rewrite icls_eqb_refl; reflexivity).
    assert (FN : fam lk (mn_of lk) = true) by (unfold fam; rewrite icls_eqb_refl, orb_true_r; reflexivity).
    assert (FX : fam lk (mx_of lk) = true) by (unfold fam; rewrite icls_eqb_refl, !orb_true_r; reflexivity).
    assert (RA : forall c, fam lk c = true -> Forall (fun x => fam lk (fst x) = true -> Q (snd x)) (map cv (rebuild db c (iv ia)))).
    { intros c FC. destruct (rebuild_ok db lk c ia A1 SL A2 FC) as [j [J1 [J2 [J3 J4]]]]. rewrite J1. constructor; [|constructor].
      cbn [cv fst snd]. rewrite J3, A4. auto. }
    assert (RB : forall c, fam lk c = true -> Forall (fun x => fam lk (fst x) = true -> Q (snd x)) (map cv (rebuild db c (iv ib)))).
    { intros c FC. destruct (rebuild_ok db lk c ib B1 SL B2 FC) as [j [J1 [J2 [J3 J4]]]]. rewrite J1. constructor; [|constructor].
      cbn [cv fst snd]. rewrite J3, B4. auto. }
    rewrite map_app. apply Forall_app. split.
    - rewrite Forall_map in *. apply Forall_forall. intros i I. apply filter_In in I. rewrite Forall_forall in F. apply F. tauto.
    - destruct (py_int (iv ia) =? py_int (iv ib)); auto.
      destruct (1 <? py_int (iv ib) - py_int (iv ia)); rewrite map_app; apply Forall_app; auto.
  Qed.

  Lemma chunks_front f l : Forall not_main f -> chunks (map cv (f ++ l)) =
    match chunks (map cv l) with c :: cs => (map cv f ++ c) :: cs | [] => [] end.
  Proof.
    induction 1 as [|i f N _ IH].
    - cbn [app map]. destruct (chunks (map cv l)); auto.
    - cbn [app map chunks]. replace (main_tag (fst (cv i))) with false.
      + rewrite IH. destruct (chunks (map cv l)) eqn:E; auto. exfalso.
        pose proof (chunked_nil (map cv l)) as Q. unfold chunked in Q. rewrite E in Q. discriminate.
      + symmetry. destruct (main_tag (fst (cv i))) eqn:E; auto. apply main_tag_kind in E. contradiction.
  Qed.

  Lemma flush_not_main st : Forall constructed (rm_pending st) -> Forall not_main (rm_pending st) -> tracks lk st (rm_pending st) ->
    Forall not_main (rm_flush db lk (mn_of lk) (mx_of lk) st).
  Proof.
    intros C N T. unfold rm_flush. destruct (rm_min st) as [va|] eqn:MN; auto. destruct (rm_max st) as [vb|] eqn:MX; auto.
    destruct (truthy va && truthy vb && rm_merging st); auto.
    destruct (single_local lk SL) as [L1 [L2 [L3 _]]].
    assert (RB : forall c v, kind_of c = Local -> Forall not_main (rebuild db c v)).
    { intros c v KL. unfold rebuild. destruct (mk_item db c (Some v)) eqn:E; constructor; auto.
      unfold not_main. rewrite (mk_item_class _ _ _ _ E), KL. discriminate. }
    apply Forall_app. split; [apply Forall_filter; auto|].
    destruct (py_int va =? py_int vb); [apply RB; auto|].
    destruct (1 <? py_int vb - py_int va); apply Forall_app; split; apply RB; auto.
  Qed.

  Lemma merged_go : forall l st hd seg,
    rm_pending st = hd ++ seg -> (hd = [] \/ exists i, hd = [i] /\ kind_of (ic i) = Main) ->
    tracks lk st seg -> keeps st seg -> Forall not_main seg -> Forall constructed seg -> Forall constructed l ->
    exists r, snd (feed P st l) ++ p_close P (fst (feed P st l)) = hd ++ r /\
      Forall2 (fun c c' => merged_chunk lk (mn_of lk) (mx_of lk) c c' /\ from_chunk c c') (chunked (map cv seg) (map cv l)) (chunks (map cv r)).
  Proof.
    induction l as [|i l IH]; intros st hd seg PD HD T K NM CS CL.
    - cbn [feed fst snd app map]. change (p_close P st) with (rm_flush db lk (mn_of lk) (mx_of lk) st).
      exists (rm_flush db lk (mn_of lk) (mx_of lk) (with_pending st seg)). split.
      + destruct HD as [-> |[i [-> KM]]]; cbn [app] in *; [|apply flush_hd; auto].
        rewrite <- PD. destruct st. reflexivity.
      + unfold chunked. cbn [chunks]. rewrite app_nil_r.
        rewrite <- (app_nil_r (rm_flush _ _ _ _ _)), chunks_front.
        * cbn [map chunks]. rewrite app_nil_r. constructor; [|constructor]. (split; [apply flush_merged; auto|apply flush_from; auto]).
        * apply flush_not_main; auto.
    - inversion CL as [|? ? C1 C2]; subst. clear CL.
      destruct (ikind_eqb (kind_of (ic i)) Main) eqn:KM.
      + assert (KM' : kind_of (ic i) = Main) by (destruct (kind_of (ic i)); auto; discriminate).
        assert (NT : rm_note lk (mn_of lk) (mx_of lk) st i = st).
        { unfold rm_note, ikd. rewrite KM'. rewrite andb_false_r. reflexivity. }
        assert (AP : p_append P st i = (RM true None None [i], rm_flush db lk (mn_of lk) (mx_of lk) st)).
        { change (p_append P) with (rm_append db lk (mn_of lk) (mx_of lk)). unfold rm_append. rewrite NT. unfold ikd. rewrite KM'. reflexivity. }
        destruct (IH (RM true None None [i]) [i] []) as [r [R1 R2]]; auto.
        { right. exists i. auto. } { intros _. cbn. auto. } { intros _ _. reflexivity. }
        cbn [feed]. rewrite AP.
        destruct (feed P (RM true None None [i]) l) as [s2 o2]. cbn [fst snd] in *.
        exists (rm_flush db lk (mn_of lk) (mx_of lk) (with_pending st seg) ++ i :: r). split.
        * rewrite <- app_assoc, R1. rewrite (app_assoc hd). cbn [app].
          apply (f_equal (fun z => z ++ i :: r)).
          destruct HD as [-> |[i0 [-> K0]]]; cbn [app] in *; [|apply flush_hd; auto].
          rewrite <- PD. destruct st. reflexivity.
        * cbn [map]. rewrite chunked_main by (apply main_tag_kind; auto).
          rewrite chunks_front by (apply flush_not_main; auto). cbn [map chunks].
          rewrite (proj2 (main_tag_kind (fst (cv i)))) by auto. rewrite app_nil_r.
          constructor; [split; [apply flush_merged; auto|apply flush_from; auto]|]. cbn [map] in R2. rewrite chunked_nil in R2. exact R2.
      + assert (KM' : kind_of (ic i) <> Main) by (intros Q; rewrite Q in KM; discriminate KM).
        assert (AP : p_append P st i = (with_pending (rm_note lk (mn_of lk) (mx_of lk) st i) (rm_pending st ++ [i]), [])).
        { change (p_append P) with (rm_append db lk (mn_of lk) (mx_of lk)). unfold rm_append. unfold ikd.
          unfold with_pending. rewrite note_pending. destruct (kind_of (ic i)); [contradiction| |]; reflexivity. }
        destruct (IH (with_pending (rm_note lk (mn_of lk) (mx_of lk) st i) (rm_pending st ++ [i])) hd (seg ++ [i])) as [r [R1 R2]]; auto.
        * cbn [rm_pending with_pending]. rewrite PD, app_assoc. reflexivity.
        * apply (note_tracks lk SL st seg i T C1 KM').
        * apply (note_keeps st seg i T K C1 KM').
        * apply Forall_app. auto.
        * apply Forall_app. auto.
        * exists r. split.
          -- rewrite <- R1. cbn [feed]. rewrite AP.
             destruct (feed P (with_pending (rm_note lk (mn_of lk) (mx_of lk) st i) (rm_pending st ++ [i])) l) as [s2 o2]. reflexivity.
          -- rewrite map_app in R2. cbn [map] in *. rewrite chunked_snoc in R2; auto.
             destruct (main_tag (fst (cv i))) eqn:MT; auto. apply main_tag_kind in MT. contradiction.
  Qed.

  Lemma range_chunks l : Forall constructed l ->
    Forall2 (fun c c' => merged_chunk lk (mn_of lk) (mx_of lk) c c' /\ from_chunk c c') (chunks (map cv l)) (chunks (map cv (run_pass P l))).
  Proof.
    intros C. destruct (merged_go l rm_init [] []) as [r [R1 R2]]; auto.
    { intros _. cbn. auto. } { intros _ _. reflexivity. }
    cbn [app map] in *. rewrite chunked_nil in R2.
    replace (run_pass P l) with r; auto. rewrite <- R1. unfold run_pass. change (p_init P) with rm_init.
    destruct (feed P rm_init l) as [s o]. reflexivity.
  Qed.

  Theorem range_merged l : Forall constructed l ->
    Forall2 (merged_chunk lk (mn_of lk) (mx_of lk)) (chunks (map cv l)) (chunks (map cv (run_pass P l))).
  Proof.
    intros C. pose proof (range_chunks l C) as R. induction R as [|c c' cs cs' [H _] R IH]; constructor; auto.
  Qed.
End Merged.

Lemma c35 db lk mn mx m l : In (lk, mn, mx) [(StringIndex, StringMinimum, StringMaximum); (DesignatorIndex, DesignatorMinimum, DesignatorMaximum)] ->
  Forall constructed l ->
  seen m (run_pass (range_merge db lk mn mx) l) = seen m l /\
  Forall2 (merged_chunk lk mn mx) (chunks (map cv l)) (chunks (map cv (run_pass (range_merge db lk mn mx) l))).
Proof.
  intros I C. destruct I as [I|[I|[]]]; injection I as <- <- <-.
  - assert (S : single StringIndex) by (right; right; auto).
    split; [apply (range_view db StringIndex m l S C); discriminate|apply (range_merged db StringIndex S l C)].
  - assert (S : single DesignatorIndex) by (right; left; auto).
    split; [apply (range_view db DesignatorIndex m l S C); discriminate|apply (range_merged db DesignatorIndex S l C)].
Qed.

Lemma c35_usages db m l : Forall constructed l ->
  (Forall plain_usages (chunks (map cv l)) -> seen m (run_pass (usage_merge db) l) = seen m l) /\
  Forall2 (merged_chunk Usage UsageMinimum UsageMaximum) (chunks (map cv l)) (chunks (map cv (run_pass (usage_merge db) l))).
Proof.
  intros C. assert (S : single Usage) by (left; auto).
  split; [intros P; apply (range_view db Usage m l S C); auto|apply (range_merged db Usage S l C)].
Qed.

(* usages of two pages with consecutive numbers; usages 0xffff and 0x10000;
   usages inside delimiters *)
Lemma c35_refuted : exists l1 l2 l3, Forall constructed l1 /\ Forall constructed l2 /\ Forall constructed l3 /\
  Forall (fun i => ic i <> Delimiter) (l1 ++ l2) /\
  (forall m, seen m (run_pass (usage_merge empty_db) l2) <> seen m l2) /\
  seen AtDecl (run_pass (usage_merge empty_db) l1) <> seen AtDecl l1 /\
  (forall m, seen m (run_pass (usage_merge empty_db) l3) <> seen m l3).
Proof.
  exists (items [(ReportSize, 1); (ReportCount, 3); (UsagePage, 1); (Usage, 1); (Usage, 2); (UsagePage, 7); (Usage, 3); (Input, 2)]).
  exists (items [(ReportSize, 1); (ReportCount, 3); (UsagePage, 9); (Usage, 0xfffe); (Usage, 0xffff); (Usage, 0x10000); (Input, 2)]).
  exists (items [(ReportSize, 1); (ReportCount, 1); (UsagePage, 1); (Delimiter, 1); (Usage, 1); (Usage, 2); (Usage, 3); (Delimiter, 0); (Input, 2)]).
  split; [apply items_built|]. split; [apply items_built|]. split; [apply items_built|].
  split; [repeat constructor; discriminate|].
  split; [intros []; vm_compute; discriminate|]. split; [vm_compute; discriminate|].
  intros []; vm_compute; discriminate.
Qed.
