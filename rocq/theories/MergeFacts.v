(* MergeFacts.v -- MainMerge keeps the fields (C37). *)
From Coq Require Import ZifyBool ZifyNat.
From Verif Require Import Py Usage Item Optimizer HidSpec ItemFacts ParserFacts OptSpec OptFacts MainMergeFacts
  Skeleton PassFacts RangeFacts.
Local Open Scope Z_scope.

(** a local state followed by another *)
Definition t_app (a b : ltab) : ltab := L (l_decls a ++ l_decls b) (l_min b) (l_max b).
Definition lapp (x y : locals) : locals :=
  Locals (t_app (lo_us x) (lo_us y)) (t_app (lo_ds x) (lo_ds y)) (t_app (lo_ss x) (lo_ss y))
         (lo_dl x ++ map (fun d => ((length (l_decls (lo_us x)) + fst d)%nat, snd d)) (lo_dl y)).

Lemma t_app_one r a b : add_one r (t_app a b) = t_app a (add_one r b).
Proof. unfold add_one, t_app. cbn [l_decls l_min l_max]. rewrite app_assoc. reflexivity. Qed.
Lemma t_app_min r a b : add_min r (t_app a b) = t_app a (add_min r b).
Proof. unfold add_min, t_app. cbn [l_decls l_min l_max]. destruct (l_max b); cbn [l_decls l_min l_max]; rewrite ?app_assoc; reflexivity. Qed.
Lemma t_app_max r a b : add_max r (t_app a b) = t_app a (add_max r b).
Proof. unfold add_max, t_app. cbn [l_decls l_min l_max]. destruct (l_min b); cbn [l_decls l_min l_max]; rewrite ?app_assoc; reflexivity. Qed.

Lemma lapp_ls x y c v e p : lo_set c v e p (lapp x y) = lapp x (lo_set c v e p y).
Proof.
  unfold lapp. destruct x as [us ds ss dl], y as [us' ds' ss' dl']. cbn [lo_us lo_ds lo_ss lo_dl].
  destruct c; cbn [lo_set lo_us lo_ds lo_ss lo_dl]; rewrite ?t_app_one, ?t_app_min, ?t_app_max; try reflexivity.
  rewrite map_app, app_assoc. cbn [map fst snd t_app l_decls]. rewrite app_length. reflexivity.
Qed.

Lemma lapp_0 x : paired x -> lapp x lo_init = x.
Proof.
  intros P. destruct x as [[d1 a1 b1] [d2 a2 b2] [d3 a3 b3] dl]. unfold paired in P. cbn in P.
  inversion P as [|? ? [A1 B1] P1]; subst. inversion P1 as [|? ? [A2 B2] P2]; subst. inversion P2 as [|? ? [A3 B3] _]; subst.
  cbn in *. subst. unfold lapp, t_app. cbn. rewrite !app_nil_r. reflexivity.
Qed.

Lemma values_t_app m pg a b : values m pg (t_app a b) = values m pg a ++ values m pg b.
Proof. unfold values, t_app. cbn [l_decls]. apply flat_map_app. Qed.

Lemma nth_last_front A B k : (k < length A)%nat -> nth_last (A ++ B) k = nth_last A k.
Proof.
  intros L. destruct A as [|a A]; [cbn in L; lia|]. unfold nth_last. cbn [app].
  f_equal. rewrite (app_comm_cons A B a), (app_nth1 (a :: A)) by auto. apply nth_indep. auto.
Qed.

Lemma last_app_ne {A} (l1 l2 : list A) d d' : l2 <> [] -> last (l1 ++ l2) d = last l2 d'.
Proof.
  intros N. destruct (exists_last N) as [r [z ->]]. rewrite app_assoc, !last_last. reflexivity.
Qed.

Lemma nth_last_back A B k : B <> [] -> nth_last (A ++ B) (length A + k) = nth_last B k.
Proof.
  intros N. destruct B as [|b B]; [congruence|]. destruct A as [|a A].
  - reflexivity.
  - unfold nth_last. cbn [app]. f_equal. rewrite (app_comm_cons A (b :: B) a).
    rewrite (app_nth2 (a :: A)) by lia. f_equal; [lia|]. apply last_app_ne. discriminate.
Qed.

Section Full.
  Context (m : binding).
  Definition pgs (g g' : gtab) : Prop := m = AtMain -> g_page g = g_page g'.

  Lemma pgs_values g g' t : pgs g g' -> values m (g_page g) t = values m (g_page g') t.
  Proof.
    unfold pgs. destruct m; [|intros E; rewrite E by auto; reflexivity]. intros _.
    unfold values. apply flat_map_ext. intros d. destruct d; reflexivity.
  Qed.

  Let G := @grp locals lapp (uniform m).

  Lemma grp_pos lx n e : G lx n e -> 1 <= n.
  Proof. induction 1; lia. Qed.

  Lemma grp_paired lx n g x c v : G lx n (g, x, c, v) -> paired x -> paired lx.
  Proof.
    intros GR. inversion GR; subst; auto. intros P. unfold paired in *. cbn [lapp lo_us lo_ds lo_ss t_app l_min l_max].
    inversion P as [|? ? P1 Q1]; subst. inversion Q1 as [|? ? P2 Q2]; subst. inversion Q2 as [|? ? P3 _]; subst.
    repeat constructor; tauto.
  Qed.

  Lemma grp_dl lx n g x c v : is_constant v = false -> G lx n (g, x, c, v) -> lo_dl x = [] -> lo_dl lx = [].
  Proof.
    intros NC GR. remember (g, x, c, v) as e. revert g x c v NC Heqe.
    induction GR as [g0 x0 c0 v0 H|lx n e1 g0 x0 c0 v0 GR IH J RR H]; intros g x c v NC E; injection E as <- <- <- <-; auto.
    intros D. destruct e1 as [[[g1 x1] c1] v1]. destruct J as [_ [_ [-> _]]].
    destruct RR as [_ [_ RR]]. destruct (RR NC) as [D1 [D2 _]].
    cbn [lapp lo_dl]. rewrite (IH _ _ _ _ NC eq_refl D1), D2. reflexivity.
  Qed.

  Section Table.
    Context (t : locals -> ltab) (tl : forall x y, t (lapp x y) = t_app (t x) (t y)).

    Definition tv (g : gtab) (x : locals) : list Z := values m (g_page g) (t x).

    (** Variable: every member but the last has exactly one value *)
    Lemma grp_each lx n g x c v :
      (forall e1 e2, uniform m e1 e2 -> is_constant (snd e1) = false -> is_variable (snd e1) = true ->
         one_each (tv (fst (fst (fst e1))) (snd (fst (fst e1)))) (tv (fst (fst (fst e2))) (snd (fst (fst e2))))) ->
      is_constant v = false -> is_variable v = true -> G lx n (g, x, c, v) ->
      exists pre, tv g lx = pre ++ tv g x /\
        (length pre = Z.to_nat (n - 1) /\ (n = 1 \/ tv g x <> []) \/ (pre = [] /\ tv g x = [])).
    Proof.
      intros OE NC IV GR. remember (g, x, c, v) as e. revert g x c v NC IV Heqe.
      induction GR as [g0 x0 c0 v0 H|lx n e1 g0 x0 c0 v0 GR IH J RR H]; intros g x c v NC IV E; injection E as <- <- <- <-.
      - exists []. split; auto.
      - destruct e1 as [[[g1 x1] c1] v1]. destruct J as [_ [_ [-> _]]].
        destruct (IH _ _ _ _ NC IV eq_refl) as [pre [E1 E2]].
        pose proof (OE _ _ RR NC IV) as O. cbn [fst snd] in O.
        destruct RR as [PG _]. fold (pgs g1 g0) in PG.
        pose proof (grp_pos _ _ _ GR) as NP.
        exists (tv g1 lx). split.
        + unfold tv. rewrite tl, values_t_app. f_equal. symmetry. apply pgs_values; auto.
        + rewrite E1. destruct O as [[O1 O2]|[O1 O2]].
          * left. split; [|auto]. rewrite app_length, O1. destruct E2 as [[E2 _]|[-> E2]]; [lia|].
            rewrite E2 in O1. discriminate.
          * right. rewrite O1 in *. split; auto. destruct E2 as [[E2 [E3|E3]]|[E2 _]]; try congruence.
            -- destruct pre; auto. cbn in E2. lia.
            -- rewrite E2. reflexivity.
    Qed.

    Lemma each_join lx n g1 x1 c v g2 x2 :
      (forall e1 e2, uniform m e1 e2 -> is_constant (snd e1) = false -> is_variable (snd e1) = true ->
         one_each (tv (fst (fst (fst e1))) (snd (fst (fst e1)))) (tv (fst (fst (fst e2))) (snd (fst (fst e2))))) ->
      is_constant v = false -> is_variable v = true -> G lx n (g1, x1, c, v) ->
      uniform m (g1, x1, c, v) (g2, x2, c, v) ->
      (forall k, (k < Z.to_nat n)%nat -> nth_last (tv g2 (lapp lx x2)) k = nth_last (tv g1 lx) k) /\
      (forall k, nth_last (tv g2 (lapp lx x2)) (Z.to_nat n + k) = nth_last (tv g2 x2) k).
    Proof.
      intros OE NC IV GR RR. destruct (grp_each _ _ _ _ _ _ OE NC IV GR) as [pre [E1 E2]].
      pose proof (OE _ _ RR NC IV) as O. cbn [fst snd] in O. destruct RR as [PG _]. fold (pgs g1 g2) in PG.
      pose proof (grp_pos _ _ _ GR) as NP.
      assert (E : tv g2 (lapp lx x2) = tv g1 lx ++ tv g2 x2).
      { unfold tv. rewrite tl, values_t_app. f_equal. symmetry. apply pgs_values; auto. }
      rewrite E. destruct O as [[O1 O2]|[O1 O2]].
      - assert (LN : length (tv g1 lx) = Z.to_nat n).
        { rewrite E1, app_length, O1. destruct E2 as [[E2 _]|[-> E2]]; [lia|]. rewrite E2 in O1. discriminate. }
        split; intros k.
        + intros L. apply nth_last_front. lia.
        + rewrite <- LN. apply nth_last_back. auto.
      - assert (EE : tv g1 lx = []).
        { rewrite E1, O1, app_nil_r. destruct E2 as [[E2 [E3|E3]]|[E2 _]]; auto; [|congruence].
          destruct pre; auto. cbn in E2. lia. }
        rewrite EE, O2. split; reflexivity.
    Qed.

    (** Array: the first values *)
    Lemma grp_first lx n g x c v sel :
      (forall e1 e2, uniform m e1 e2 -> is_constant (snd e1) = false -> is_variable (snd e1) = false ->
         Z.to_nat (g_lmax (fst (fst (fst e1))) - g_lmin (fst (fst (fst e1))) + 1) = sel ->
         same_first sel (tv (fst (fst (fst e1))) (snd (fst (fst e1)))) (tv (fst (fst (fst e2))) (snd (fst (fst e2))))) ->
      is_constant v = false -> is_variable v = false -> Z.to_nat (g_lmax g - g_lmin g + 1) = sel -> G lx n (g, x, c, v) ->
      firstn sel (tv g lx) = firstn sel (tv g x) /\ (sel = 0%nat \/ (tv g x = [] -> tv g lx = [])) /\
      (length (tv g x) <= length (tv g lx))%nat.
    Proof.
      intros SF NC IV SE GR. remember (g, x, c, v) as e. revert g x c v NC IV SE Heqe.
      induction GR as [g0 x0 c0 v0 H|lx n e1 g0 x0 c0 v0 GR IH J RR H]; intros g x c v NC IV SE E; injection E as <- <- <- <-.
      - auto.
      - destruct e1 as [[[g1 x1] c1] v1]. destruct J as [_ [_ [-> [JE _]]]].
        assert (SE1 : Z.to_nat (g_lmax g1 - g_lmin g1 + 1) = sel).
        { unfold eqw, g_cnt in JE. destruct g1, g0. cbn in *. injection JE. intros. subst. auto. }
        destruct (IH _ _ _ _ NC IV SE1 eq_refl) as [I1 [I2 I3]].
        pose proof (SF _ _ RR NC IV SE1) as O. cbn [fst snd] in O.
        destruct RR as [PG _]. fold (pgs g1 g0) in PG.
        assert (E : tv g0 (lapp lx x0) = tv g1 lx ++ tv g0 x0).
        { unfold tv. rewrite tl, values_t_app. f_equal. symmetry. apply pgs_values; auto. }
        rewrite E, app_length. split; [|split; [|lia]].
        + destruct O as [-> |[[O1 O2]|[O1 O2]]]; auto.
          * destruct I2 as [-> |I2]; [reflexivity|]. rewrite (I2 O1), O2. reflexivity.
          * rewrite firstn_app. replace (sel - length (tv g1 lx))%nat with 0%nat by lia.
            cbn [firstn]. rewrite app_nil_r. congruence.
        + destruct O as [-> |[[O1 O2]|[O1 O2]]]; auto.
          * destruct I2 as [-> |I2]; auto. right. intros _. rewrite (I2 O1), O2. reflexivity.
          * destruct sel; auto. right. intros Q. rewrite Q in O2. cbn in O2.
            destruct (tv g1 x1) as [|z r]; [cbn in O1; lia|discriminate].
    Qed.

    Lemma first_join lx n g1 x1 c v g2 x2 sel :
      (forall e1 e2, uniform m e1 e2 -> is_constant (snd e1) = false -> is_variable (snd e1) = false ->
         Z.to_nat (g_lmax (fst (fst (fst e1))) - g_lmin (fst (fst (fst e1))) + 1) = sel ->
         same_first sel (tv (fst (fst (fst e1))) (snd (fst (fst e1)))) (tv (fst (fst (fst e2))) (snd (fst (fst e2))))) ->
      is_constant v = false -> is_variable v = false -> Z.to_nat (g_lmax g1 - g_lmin g1 + 1) = sel -> G lx n (g1, x1, c, v) ->
      uniform m (g1, x1, c, v) (g2, x2, c, v) ->
      firstn sel (tv g2 (lapp lx x2)) = firstn sel (tv g1 lx) /\ firstn sel (tv g2 (lapp lx x2)) = firstn sel (tv g2 x2).
    Proof.
      intros SF NC IV SE GR RR. destruct (grp_first _ _ _ _ _ _ _ SF NC IV SE GR) as [I1 [I2 I3]].
      pose proof (SF _ _ RR NC IV SE) as O. cbn [fst snd] in O. destruct RR as [PG _]. fold (pgs g1 g2) in PG.
      assert (E : tv g2 (lapp lx x2) = tv g1 lx ++ tv g2 x2).
      { unfold tv. rewrite tl, values_t_app. f_equal. symmetry. apply pgs_values; auto. }
      rewrite E. destruct O as [-> |[[O1 O2]|[O1 O2]]]; auto.
      - rewrite O2, app_nil_r. destruct I2 as [-> |I2]; auto. rewrite (I2 O1). auto.
      - rewrite firstn_app. replace (sel - length (tv g1 lx))%nat with 0%nat by lia.
        cbn [firstn]. rewrite app_nil_r. split; congruence.
    Qed.

    (** Array: the one value of strings and designators *)
    Lemma grp_one_value lx n g x c v :
      (forall e1 e2, uniform m e1 e2 -> is_constant (snd e1) = false -> is_variable (snd e1) = false ->
         same_one (tv (fst (fst (fst e1))) (snd (fst (fst e1)))) (tv (fst (fst (fst e2))) (snd (fst (fst e2))))) ->
      is_constant v = false -> is_variable v = false -> G lx n (g, x, c, v) ->
      (tv g x = [] -> tv g lx = []) /\ (tv g x <> [] -> tv g lx <> []) /\ (forall z, tv g x <> [] -> Forall (eq z) (tv g x) -> Forall (eq z) (tv g lx)).
    Proof.
      intros SF NC IV GR. remember (g, x, c, v) as e. revert g x c v NC IV Heqe.
      induction GR as [g0 x0 c0 v0 H|lx n e1 g0 x0 c0 v0 GR IH J RR H]; intros g x c v NC IV E; injection E as <- <- <- <-.
      - auto.
      - destruct e1 as [[[g1 x1] c1] v1]. destruct J as [_ [_ [-> [JE _]]]].
        destruct (IH _ _ _ _ NC IV eq_refl) as [I1 [I2 I3]].
        pose proof (SF _ _ RR NC IV) as O. cbn [fst snd] in O.
        destruct RR as [PG _]. fold (pgs g1 g0) in PG.
        assert (E : tv g0 (lapp lx x0) = tv g1 lx ++ tv g0 x0).
        { unfold tv. rewrite tl, values_t_app. f_equal. symmetry. apply pgs_values; auto. }
        rewrite E. destruct O as [[O1 O2]|[O1 [O2 [z [O3 O4]]]]].
        + rewrite (I1 O1), O2. repeat split; auto.
        + split; [congruence|]. split.
          * intros _ Q. apply app_eq_nil in Q. destruct Q. contradiction.
          * intros z' _ Q. assert (z' = z).
            { destruct (tv g0 x0) as [|y r]; [congruence|]. inversion Q; inversion O4; congruence. }
            subst z'. apply Forall_app. auto.
    Qed.

    Lemma nth_all z A k : A <> [] -> Forall (eq z) A -> nth_last A k = Some z.
    Proof.
      intros N F. destruct A as [|a A]; [congruence|]. unfold nth_last. f_equal. rewrite Forall_forall in F. symmetry. apply F.
      destruct (Nat.lt_ge_cases k (length (a :: A))) as [L|L].
      - apply nth_In. auto.
      - rewrite nth_overflow by auto. destruct (@exists_last _ (a :: A) N) as [r [y E]]. rewrite E, last_last.
        apply in_or_app. right. left. auto.
    Qed.

    Lemma one_join lx n g1 x1 c v g2 x2 :
      (forall e1 e2, uniform m e1 e2 -> is_constant (snd e1) = false -> is_variable (snd e1) = false ->
         same_one (tv (fst (fst (fst e1))) (snd (fst (fst e1)))) (tv (fst (fst (fst e2))) (snd (fst (fst e2))))) ->
      is_constant v = false -> is_variable v = false -> G lx n (g1, x1, c, v) ->
      uniform m (g1, x1, c, v) (g2, x2, c, v) ->
      forall k, nth_last (tv g2 (lapp lx x2)) k = nth_last (tv g1 lx) k /\ nth_last (tv g2 (lapp lx x2)) k = nth_last (tv g2 x2) k.
    Proof.
      intros SF NC IV GR RR k. destruct (grp_one_value _ _ _ _ _ _ SF NC IV GR) as [I1 [I2 I3]].
      pose proof (SF _ _ RR NC IV) as O. cbn [fst snd] in O. destruct RR as [PG _]. fold (pgs g1 g2) in PG.
      assert (E : tv g2 (lapp lx x2) = tv g1 lx ++ tv g2 x2).
      { unfold tv. rewrite tl, values_t_app. f_equal. symmetry. apply pgs_values; auto. }
      rewrite E. destruct O as [[O1 O2]|[O1 [O2 [z [O3 O4]]]]].
      - rewrite (I1 O1), O2. auto.
      - rewrite !(nth_all z); auto.
        + intros Q. apply app_eq_nil in Q. tauto.
        + apply Forall_app. auto.
    Qed.
  End Table.

  Lemma attrs_cnt n g c v : mk_attrs (g_cnt n g) c v = mk_attrs g c v.
  Proof. destruct g. reflexivity. Qed.
  Lemma page_cnt n g : g_page (g_cnt n g) = g_page g. Proof. destruct g. reflexivity. Qed.
  Lemma rid_cnt n g : g_rid (g_cnt n g) = g_rid g. Proof. destruct g. reflexivity. Qed.
  Lemma size_cnt n g : g_size (g_cnt n g) = g_size g. Proof. destruct g. reflexivity. Qed.
  Lemma lmin_cnt n g : g_lmin (g_cnt n g) = g_lmin g. Proof. destruct g. reflexivity. Qed.
  Lemma lmax_cnt n g : g_lmax (g_cnt n g) = g_lmax g. Proof. destruct g. reflexivity. Qed.

  Lemma eqw_fields g1 g2 : eqw g1 g2 -> (forall c v, mk_attrs g1 c v = mk_attrs g2 c v) /\ g_rid g1 = g_rid g2 /\ g_size g1 = g_size g2
    /\ g_lmin g1 = g_lmin g2 /\ g_lmax g1 = g_lmax g2.
  Proof.
    unfold eqw, g_cnt. destruct g1, g2. cbn. intros E. injection E. intros. subst. repeat split.
  Qed.

  Lemma full_join lx n g1 x1 c v g2 x2 : 0 <= g_count g2 ->
    G lx n (g1, x1, c, v) -> joinable (g1, x1, c, v) (g2, x2, c, v) -> uniform m (g1, x1, c, v) (g2, x2, c, v) ->
    full_obs m (g_cnt n g1) lx c v ++ full_obs m g2 x2 c v = full_obs m (g_cnt (n + g_count g2) g2) (lapp lx x2) c v /\ paired lx.
  Proof.
    intros C2 GR J RR. pose proof (grp_pos _ _ _ GR) as NP.
    destruct J as [JD [_ [_ [JE JC]]]]. destruct (eqw_fields _ _ JE) as [QA [QR [QS [QN QX]]]].
    pose proof RR as [PG [PX U]].
    split; [|eapply grp_paired; eauto].
    assert (FO : forall g x, full_obs m g x c v = data_events m g x c v) by (intros; unfold full_obs; destruct c; try discriminate JD; reflexivity).
    rewrite !FO. unfold data_events. rewrite !attrs_cnt, !page_cnt, !rid_cnt, !size_cnt, !lmin_cnt, !lmax_cnt, !count_cnt.
    rewrite QA, QR, QS, QN, QX.
    assert (N : Z.to_nat (n + g_count g2) = (Z.to_nat n + Z.to_nat (g_count g2))%nat) by lia.
    rewrite N. clear N.
    destruct (is_constant v) eqn:NC; [rewrite <- repeat_app; reflexivity|].
    destruct (U eq_refl) as [D1 [D2 UV]].
    rewrite (grp_dl _ _ _ _ _ _ NC GR D1), D2.
    assert (DL : lo_dl (lapp lx x2) = []) by (cbn [lapp lo_dl]; rewrite (grp_dl _ _ _ _ _ _ NC GR D1), D2; reflexivity).
    rewrite DL.
    destruct (is_variable v) eqn:IV.
    - destruct (each_join lo_us (fun _ _ => eq_refl) lx n g1 x1 c v g2 x2) as [U1 U2]; auto.
      { intros [[[a1 b1] c1] v1] [[[a2 b2] c2] v2] [_ [_ R3]] NC1 IV1. cbn [fst snd] in *. destruct (R3 NC1) as [_ [_ R4]].
        rewrite IV1 in R4. apply R4. }
      destruct (each_join lo_ds (fun _ _ => eq_refl) lx n g1 x1 c v g2 x2) as [V1 V2]; auto.
      { intros [[[a1 b1] c1] v1] [[[a2 b2] c2] v2] [_ [_ R3]] NC1 IV1. cbn [fst snd] in *. destruct (R3 NC1) as [_ [_ R4]].
        rewrite IV1 in R4. apply R4. }
      destruct (each_join lo_ss (fun _ _ => eq_refl) lx n g1 x1 c v g2 x2) as [W1 W2]; auto.
      { intros [[[a1 b1] c1] v1] [[[a2 b2] c2] v2] [_ [_ R3]] NC1 IV1. cbn [fst snd] in *. destruct (R3 NC1) as [_ [_ R4]].
        rewrite IV1 in R4. apply R4. }
      rewrite seq_app, map_app. f_equal.
      + apply map_ext_in. intros k I. apply in_seq in I. unfold tv in *. rewrite U1, V1, W1 by lia. reflexivity.
      + cbn [Nat.add].
        assert (SH : forall a b, seq a b = map (fun k => (a + k)%nat) (seq 0 b)).
        { intros a b. clear. revert a. induction b as [|b IH]; intros a; auto. cbn [seq map]. f_equal.
          - lia.
          - rewrite IH, <- seq_shift, map_map. apply map_ext. intros. lia. }
        rewrite (SH (Z.to_nat n)), map_map. apply map_ext. intros k. unfold tv in *. rewrite U2, V2, W2. reflexivity.
    - assert (SE : Z.to_nat (g_lmax g1 - g_lmin g1 + 1) = Z.to_nat (g_lmax g2 - g_lmin g2 + 1)) by (rewrite QN, QX; reflexivity).
      destruct (first_join lo_us (fun _ _ => eq_refl) lx n g1 x1 c v g2 x2 (Z.to_nat (g_lmax g2 - g_lmin g2 + 1))) as [U1 U2]; auto.
      { intros [[[a1 b1] c1] v1] [[[a2 b2] c2] v2] [_ [_ R3]] NC1 IV1 S1. cbn [fst snd] in *. destruct (R3 NC1) as [_ [_ R4]].
        rewrite IV1 in R4. rewrite <- S1. apply R4. }
      pose proof (one_join lo_ds (fun _ _ => eq_refl) lx n g1 x1 c v g2 x2) as V.
      pose proof (one_join lo_ss (fun _ _ => eq_refl) lx n g1 x1 c v g2 x2) as W.
      assert (HV : forall e1 e2, uniform m e1 e2 -> is_constant (snd e1) = false -> is_variable (snd e1) = false ->
         same_one (tv lo_ds (fst (fst (fst e1))) (snd (fst (fst e1)))) (tv lo_ds (fst (fst (fst e2))) (snd (fst (fst e2))))).
      { intros [[[a1 b1] c1] v1] [[[a2 b2] c2] v2] [_ [_ R3]] NC1 IV1. cbn [fst snd] in *. destruct (R3 NC1) as [_ [_ R4]].
        rewrite IV1 in R4. apply R4. }
      assert (HW : forall e1 e2, uniform m e1 e2 -> is_constant (snd e1) = false -> is_variable (snd e1) = false ->
         same_one (tv lo_ss (fst (fst (fst e1))) (snd (fst (fst e1)))) (tv lo_ss (fst (fst (fst e2))) (snd (fst (fst e2))))).
      { intros [[[a1 b1] c1] v1] [[[a2 b2] c2] v2] [_ [_ R3]] NC1 IV1. cbn [fst snd] in *. destruct (R3 NC1) as [_ [_ R4]].
        rewrite IV1 in R4. apply R4. }
      specialize (V HV NC IV GR RR). specialize (W HW NC IV GR RR). unfold tv in *.
      rewrite repeat_app. f_equal; f_equal; f_equal; try (apply map_ext; intros k); symmetry;
        first [apply (proj1 (V _)) | apply (proj2 (V _)) | apply (proj1 (W _)) | apply (proj2 (W _)) | exact U1 | exact U2].
  Qed.
End Full.

Lemma grp_mono {X} xapp (R R' : @elem X -> @elem X -> Prop) lx n e :
  (forall a b, R a b -> R' a b) -> grp xapp R lx n e -> grp xapp R' lx n e.
Proof. intros M. induction 1; econstructor; eauto. Qed.

Lemma counts_ok L e : Forall constructed L ->
  In e (itrace lo_init lo_set (start lo_init) L) -> 0 <= g_count (fst (fst (fst e))).
Proof.
  assert (X : forall L g x, Forall constructed L -> 0 <= g_count g ->
     forall e, In e (snd (m_run lo_init lo_set (fun g x c v => [(g, x, c, v)]) (g, x) (map wire L))) -> 0 <= g_count (fst (fst (fst e)))).
  { clear. induction L as [|i L IH]; intros g x C G e; [contradiction|].
    inversion C as [|? ? C1 C2]; subst. cbn [map m_run]. unfold m_step. cbn [wire w_cls w_val w_ext].
    destruct (kind_of (ic i)) eqn:K.
    - rewrite (proj2 (hid_main _) K). specialize (IH g lo_init C2 G e).
      destruct (m_run lo_init lo_set _ (g, lo_init) (map wire L)). cbn [snd app] in *. intros [<-|I2]; auto.
    - rewrite (proj2 (hid_global _) K).
      assert (G2 : 0 <= g_count (g_set (ic i) (ival i) g)).
      { pose proof (constructed_facts i C1) as [[S|S] _].
        - rewrite count_other; auto. intros Q. rewrite Q in S. discriminate.
        - destruct (ic i); destruct g; cbn; auto. }
      specialize (IH _ x C2 G2 e). destruct (m_run lo_init lo_set _ _ (map wire L)). exact IH.
    - rewrite (proj2 (hid_local _) K). match goal with |- context [m_run _ _ _ (g, ?x')] => specialize (IH g x' C2 G e) end.
      destruct (m_run lo_init lo_set _ _ (map wire L)). exact IH. }
  intros C. apply (X L g_init lo_init C). discriminate.
Qed.

Lemma mm_good l : Forall constructed l -> push_free l -> push_free (run_pass main_merge l).
Proof.
  intros C P. assert (G : Forall good (run_pass main_merge l)); [|apply good_split in G; apply G].
  apply (each_pass_in (fun _ => None) good main_merge (good_pass _)).
  - unfold optimiser_pass. cbn [passes map snd In]. auto.
  - apply good_split. auto.
Qed.

Theorem c37 m l : Forall constructed l -> push_free l -> ends l ->
  joins (uniform m) (main_states (map wire l)) -> seen m (run_pass main_merge l) = seen m l.
Proof.
  intros C P [l' [i [-> [K D]]]] J.
  assert (P2 : push_free (run_pass main_merge (l' ++ [i]))) by (apply mm_good; auto).
  rewrite !seen_machine by auto. unfold m_full.
  pose (R := fun (e1 e2 : @elem locals) => uniform m e1 e2 /\ 0 <= g_count (fst (fst (fst e2)))).
  apply (main_merge_view lo_init lo_set (full_obs m) lapp paired R); auto.
  - intros. apply lapp_ls.
  - apply lapp_0.
  - intros g g' x c v KC DC E. unfold full_obs. destruct c; try discriminate; rewrite ?(eqc_page _ _ E); reflexivity.
  - intros lx n g1 x1 c v g2 x2 GR JJ [R1 R2]. apply (full_join m lx n g1 x1 c v g2 x2); auto.
    eapply grp_mono; [|exact GR]. intros a b [Y _]. exact Y.
  - intros t1 e1 e2 t2 E JJ. split.
    + apply (J t1 e1 e2 t2).
      * etransitivity; [|exact E]. unfold main_states, itrace, h_init, start.
        destruct (m_run_host (fun g x c v => [(g, x, c, v)]) (map wire (l' ++ [i])) g_init [] lo_init) as [st' Q];
          [apply Forall_map; exact P|]. rewrite Q. reflexivity.
      * destruct e1 as [[[g1 x1] c1] v1], e2 as [[[g2 x2] c2] v2]. destruct JJ as [J1 J2]. split; [|exact J2].
        destruct c1; try discriminate J1; reflexivity.
    + apply (counts_ok (l' ++ [i])); auto. rewrite E. apply in_or_app. right. right. left. reflexivity.
Qed.

(** a string of one field read by the other; a stream that ends with data *)
Definition leak : list item :=
  items [(ReportSize, 1); (ReportCount, 1); (Usage, 0x90001); (Input, 2); (StringIndex, 5); (Usage, 0x90002); (Input, 2);
         (EndCollection, 0)].
Definition data_last : list item :=
  items [(ReportSize, 1); (ReportCount, 1); (Usage, 0x90001); (Input, 2); (Usage, 0x90002); (Input, 2)].
(** two arrays, each with its own usages *)
Definition arrays : list item :=
  items [(ReportSize, 1); (ReportCount, 1); (LogicalMinimum, 1); (LogicalMaximum, 1); (Usage, 0x90001); (Input, 0); (Usage, 0x90002); (Input, 0);
         (EndCollection, 0)].

Lemma c37_refuted : Forall (fun l => Forall constructed l /\ push_free l /\ forall m, seen m (run_pass main_merge l) <> seen m l)
  [leak; data_last; arrays] /\ ends leak /\ ends arrays.
Proof.
  split.
  - repeat apply Forall_cons; [..|apply Forall_nil]; (split; [apply items_built|]);
      (split; [vm_compute; repeat constructor; discriminate|]); intros []; vm_compute; discriminate.
  - split; [exists (removelast leak), (Item EndCollection (VInt 0))|exists (removelast arrays), (Item EndCollection (VInt 0))];
      (split; [vm_compute; reflexivity|split; reflexivity]).
Qed.
