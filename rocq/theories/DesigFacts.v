(* DesigFacts.v -- DesignatorUniq keeps the designators, 0 meaning none (C39). *)
From Coq Require Import ZifyBool ZifyNat.
From Verif Require Import Py Usage Item Optimizer HidSpec ItemFacts ParserFacts OptSpec OptFacts MainMergeFacts
  Skeleton PassFacts RangeFacts.
Local Open Scope Z_scope.

Definition is_di (i : item) : Prop := ic i = DesignatorIndex.
Definition is_local (i : item) : Prop := kind_of (ic i) = Local.

(** the state of the pass *)
Definition du_at (s : du_state) (seg : list item) : Prop :=
  du_pending s = seg /\ Forall is_local seg /\
  match du_filter s with
  | DNone => Forall (fun i => ~ is_di i) seg
  | DFalse => Exists is_di seg
  | DAt n => exists s1 i s2, seg = s1 ++ i :: s2 /\ length s1 = n /\ cv i = (DesignatorIndex, 0) /\
               Forall (fun i => ~ is_di i) (s1 ++ s2)
  end.

Lemma remove_at {A} (s1 s2 : list A) i : remove_nth (length s1) (s1 ++ i :: s2) = s1 ++ s2.
Proof. induction s1 as [|x s1 IH]; cbn; auto. rewrite IH. reflexivity. Qed.

(** only a 0 designator apart *)
Definition zeroed (x y : locals) : Prop :=
  lo_ds x = L [LOne (LR 0 true 0)] None None /\ y = Locals (lo_us x) l_empty (lo_ss x) (lo_dl x).

Definition alike0 (x y : locals) : Prop := x = y \/ zeroed x y.

Lemma alike0_obs m g x y c v : alike0 x y -> map zero_desig (full_obs m g x c v) = map zero_desig (full_obs m g y c v).
Proof.
  intros [-> |[D ->]]; auto. unfold full_obs, data_events. cbn [lo_us lo_ds lo_ss lo_dl]. rewrite D.
  assert (V : values m (g_page g) (L [LOne (LR 0 true 0)] None None) = [0]) by (destruct m; reflexivity).
  assert (V0 : values m (g_page g) l_empty = []) by reflexivity.
  rewrite V, V0.
  assert (N : forall k, nth_last [0] k = Some 0) by (intros [|[|k]]; reflexivity).
  destruct c; try reflexivity; cbn [map]; (destruct (is_constant v); [reflexivity|]; destruct (is_variable v);
    [rewrite !map_map; apply map_ext; intros k; rewrite N; reflexivity|]);
  rewrite !map_repeat; f_equal; cbn [zero_desig]; f_equal; rewrite !map_map; apply map_ext; intros k; rewrite N; reflexivity.
Qed.

Lemma not_desig_ds c v e p x : desig_tag c = false -> lo_ds (lo_set c v e p x) = lo_ds x.
Proof. destruct x, c; try discriminate; reflexivity. Qed.

Lemma zeroed_set c v e p x y : desig_tag c = false -> zeroed x y -> zeroed (lo_set c v e p x) (lo_set c v e p y).
Proof.
  intros N [D ->]. split; [rewrite not_desig_ds; auto|]. destruct x, c; try discriminate; reflexivity.
Qed.

Definition step (i : item) (g : gtab) (x : locals) : locals := lo_set (ic i) (ival i) (w_ext (wire i)) (g_page g) x.

(** local items only change the local state *)
Lemma run_locals {A} (obs : gtab -> locals -> icls -> Z -> list A) seg g sk : Forall is_local seg -> forall x,
  hrun obs (H g sk x) seg = (H g sk (fold_left (fun x i => step i g x) seg x), []).
Proof.
  induction 1 as [|i seg K F IH]; intros x; [reflexivity|]. rewrite hrun_local by exact K. rewrite IH. reflexivity.
Qed.

Lemma no_desig_ds seg g : Forall (fun i => desig_tag (ic i) = false) seg -> forall x,
  lo_ds (fold_left (fun x i => step i g x) seg x) = lo_ds x.
Proof.
  induction 1 as [|i seg K F IH]; intros x; [reflexivity|]. cbn [fold_left]. rewrite IH. apply not_desig_ds. auto.
Qed.

Lemma zeroed_fold seg g : Forall (fun i => desig_tag (ic i) = false) seg -> forall x y, zeroed x y ->
  zeroed (fold_left (fun x i => step i g x) seg x) (fold_left (fun x i => step i g x) seg y).
Proof. induction 1 as [|i seg K F IH]; intros x y Z; auto. cbn [fold_left]. apply IH. apply zeroed_set; auto. Qed.

Definition noz (l : list spec_item) : Prop := Forall (fun x => fst x = DesignatorIndex -> snd x <> 0) l.
Definition nor (l : list spec_item) : Prop := Forall (fun x => fst x <> DesignatorMinimum /\ fst x <> DesignatorMaximum) l.
Definition nod (l : list spec_item) : Prop := Forall (fun x => desig_tag (fst x) = false) l.

(** the host states before [rest], what remains of the chunk *)
Definition dinv (x y : locals) (rest : list spec_item) : Prop :=
  (x = y /\ noz rest) \/ (x = y /\ lo_ds x = l_empty /\ nor rest /\ one_run rest) \/ (zeroed x y /\ nod rest).

Lemma dinv_alike x y rest : dinv x y rest -> alike0 x y.
Proof. unfold alike0. intros [[-> _]|[[-> _]|[Z _]]]; auto. Qed.

Lemma one_run_suffix a b : one_run (a ++ b) -> one_run b.
Proof. intros O a' x b' y c E. apply (O (a ++ a') x b' y c). rewrite E, <- app_assoc. reflexivity. Qed.

Lemma local_dec i : local_tag (fst (cv i)) = true <-> kind_of (ic i) = Local.
Proof. unfold local_tag, cv. cbn [fst]. destruct (ic i); cbn; split; congruence. Qed.

(** a run of local items up to an item [i] of another kind *)
Lemma run_step m s seg g sk x y i rest : du_at s seg -> dinv x y (map cv seg ++ cv i :: rest) -> kind_of (ic i) <> Local ->
  exists x' y' o,
    (match du_filter s with DAt n => remove_nth n (du_pending s ++ [i]) | _ => du_pending s ++ [i] end) = o ++ [i] /\
    hrun (full_obs m) (H g sk x) seg = (H g sk x', []) /\
    hrun (full_obs m) (H g sk y) o = (H g sk y', []) /\ dinv x' y' rest.
Proof.
  intros [S1 [S2 S3]] I NL. subst seg. rewrite run_locals by auto.
  assert (KEEP : exists y' o, du_pending s ++ [i] = o ++ [i] /\ hrun (full_obs m) (H g sk y) o = (H g sk y', []) /\
     y' = fold_left (fun x i => step i g x) (du_pending s) y).
  { eexists _, _. split; [reflexivity|]. rewrite run_locals by auto. auto. }
  destruct I as [[<- NZ]|[[<- [DE [NR OR]]]|[ZE ND]]].
  - apply Forall_app in NZ. destruct NZ as [NZ1 NZ2]. inversion NZ2; subst.
    assert (ND : forall n, du_filter s <> DAt n).
    { intros n Q. rewrite Q in S3. destruct S3 as [s1 [j [s2 [E [_ [C _]]]]]]. rewrite E, map_app in NZ1. cbn [map] in NZ1.
      apply Forall_app in NZ1. destruct NZ1 as [_ NZ1]. inversion NZ1 as [|? ? N _]; subst. rewrite C in N. apply N; reflexivity. }
    destruct KEEP as [y' [o [E1 [E2 ->]]]]. eexists _, _, o. split; [|split; [reflexivity|split; [exact E2|left; auto]]].
    destruct (du_filter s) eqn:F; auto. exfalso. apply (ND pos). auto.
  - pose proof (one_run_suffix (map cv (du_pending s) ++ [cv i]) rest) as OS. rewrite <- app_assoc in OS. specialize (OS OR).
    assert (NRr : nor rest). { apply Forall_app in NR. destruct NR as [_ NR]. inversion NR; auto. }
    assert (NRs : nor (map cv (du_pending s))) by (apply Forall_app in NR; apply NR).
    assert (LATER : Exists is_di (du_pending s) -> Forall (fun z => fst z <> DesignatorIndex) rest).
    { intros EX. apply Exists_exists in EX. destruct EX as [j [IN DJ]]. apply in_split in IN. destruct IN as [s1 [s2 E]].
      apply Forall_forall. intros z IZ DZ. apply in_split in IZ. destruct IZ as [r1 [r2 E2]].
      specialize (OR (map cv s1) (cv j) (map cv s2 ++ cv i :: r1) z r2).
      assert (EE : map cv (du_pending s) ++ cv i :: rest = map cv s1 ++ cv j :: (map cv s2 ++ cv i :: r1) ++ z :: r2).
      { rewrite E, E2, map_app. cbn [map]. repeat (rewrite <- app_assoc; cbn [app]). reflexivity. }
      specialize (OR EE DJ DZ). apply Forall_app in OR. destruct OR as [_ OR]. inversion OR as [|? ? L _]; subst.
      apply NL, local_dec. exact L. }
    destruct (du_filter s) eqn:F.
    + destruct KEEP as [y' [o [E1 [E2 ->]]]]. eexists _, _, o. split; [exact E1|]. split; [reflexivity|split; [exact E2|]].
      right. left. split; auto. split; auto. rewrite no_desig_ds; auto.
      apply Forall_forall. intros j IN. rewrite Forall_forall in S3. specialize (S3 j IN). unfold is_di in S3.
      unfold nor in NRs. rewrite Forall_forall in NRs. specialize (NRs (cv j) (in_map _ _ _ IN)). cbn [cv fst] in NRs.
      destruct (ic j); auto; exfalso; tauto.
    + destruct KEEP as [y' [o [E1 [E2 ->]]]]. eexists _, _, o. split; [exact E1|]. split; [reflexivity|split; [exact E2|]].
      left. split; auto. eapply Forall_impl; [|exact (LATER S3)]. intros z Q Q2. congruence.
    + destruct S3 as [s1 [j [s2 [E [LE [C NO]]]]]]. rewrite E in *. subst pos.
      assert (LA : Exists is_di (s1 ++ j :: s2)).
      { apply Exists_exists. exists j. split; [apply in_or_app; right; left; auto|]. unfold is_di. injection C. auto. }
      assert (NDs : Forall (fun k => desig_tag (ic k) = false) (s1 ++ s2)).
      { apply Forall_forall. intros k IN. rewrite Forall_forall in NO. specialize (NO k IN). unfold is_di in NO.
        unfold nor in NRs. rewrite Forall_forall in NRs.
        assert (IN2 : In k (s1 ++ j :: s2)) by (apply in_app_or in IN; apply in_or_app; destruct IN; auto; right; right; auto).
        specialize (NRs (cv k) (in_map _ _ _ IN2)). cbn [cv fst] in NRs. destruct (ic k); auto; exfalso; tauto. }
      apply Forall_app in S2. destruct S2 as [L1 L2]. inversion L2 as [|? ? L3 L4]; subst.
      apply Forall_app in NDs. destruct NDs as [N1 N2].
      eexists _, _, (s1 ++ s2). split; [rewrite <- app_assoc; cbn [app]; rewrite remove_at, <- app_assoc; reflexivity|].
      split; [reflexivity|]. split; [rewrite run_locals by (apply Forall_app; auto); reflexivity|].
      right. right. split.
      * rewrite !fold_left_app. cbn [fold_left]. apply zeroed_fold; auto.
        assert (D1 : lo_ds (fold_left (fun x i => step i g x) s1 x) = l_empty) by (rewrite no_desig_ds; auto).
        destruct (fold_left (fun x i => step i g x) s1 x) as [us ds ss dl]. cbn [lo_ds] in D1. subst ds.
        unfold step. injection C as C1 C2. rewrite C1, C2. split; reflexivity.
      * apply Forall_forall. intros z IZ. specialize (LATER LA). rewrite Forall_forall in LATER.
        unfold nor in NRr. rewrite Forall_forall in NRr. specialize (LATER z IZ). specialize (NRr z IZ).
        destruct (fst z); auto; exfalso; tauto.
  - apply Forall_app in ND. destruct ND as [ND1 ND2]. inversion ND2; subst.
    assert (NDs : Forall (fun k => desig_tag (ic k) = false) (du_pending s)) by (apply Forall_map in ND1; exact ND1).
    destruct KEEP as [y' [o [E1 [E2 ->]]]]. eexists _, _, o. split; [|split; [reflexivity|split; [exact E2|]]].
    + destruct (du_filter s) eqn:F; auto. exfalso. destruct S3 as [s1 [j [s2 [E [_ [C _]]]]]]. rewrite E in NDs.
      apply Forall_app in NDs. destruct NDs as [_ NDs]. inversion NDs as [|? ? Q _]; subst. injection C as C _. rewrite C in Q. discriminate.
    + right. right. split; auto. apply zeroed_fold; auto.
Qed.

Lemma du_go m l : forall seg s g sk x y, du_at s seg ->
  dinv x y (hd [] (chunked (map cv seg) (map cv l))) -> Forall designators_ok (tl (chunked (map cv seg) (map cv l))) ->
  map zero_desig (snd (hrun (full_obs m) (H g sk y) (snd (feed designator_uniq s l)))) =
  map zero_desig (snd (hrun (full_obs m) (H g sk x) (seg ++ l))).
Proof.
  induction l as [|i l IH]; intros seg s g sk x y AT DI OK.
  - cbn [feed snd]. rewrite app_nil_r. destruct AT as [_ [S2 _]]. rewrite (run_locals _ seg) by auto. reflexivity.
  - cbn [feed]. change (p_append designator_uniq s i) with (du_append s i). unfold du_append, ikd.
    destruct (kind_of (ic i)) eqn:K.
    + pose proof (chunked_main (map cv seg) (cv i) (map cv l) (proj2 (main_tag_kind (ic i)) K)) as CM.
      cbn [map] in DI, OK. rewrite CM in DI, OK. cbn [hd tl] in DI, OK.
      assert (DI2 : dinv x y (map cv seg ++ cv i :: [])).
      { destruct DI as [[E N]|[[E [D [N O]]]|[Z N]]]; [left|right; left|right; right].
        - split; auto. apply Forall_app. split; auto. constructor; auto. cbn. intros Q. rewrite Q in K. discriminate.
        - split; auto. split; auto. split.
          + apply Forall_app. split; auto. constructor; auto. cbn. split; intros Q; rewrite Q in K; discriminate.
          + intros a u b w c E2 U W. destruct c as [|z c] using rev_ind.
            * exfalso. replace (a ++ u :: b ++ [w]) with ((a ++ u :: b) ++ [w]) in E2 by (rewrite <- app_assoc; reflexivity).
              apply app_inj_tail in E2. destruct E2 as [_ E2]. subst w. cbn in W. rewrite W in K. discriminate.
            * clear IHc. apply (O a u b w c); auto.
              replace (a ++ u :: b ++ w :: c ++ [z]) with ((a ++ u :: b ++ w :: c) ++ [z]) in E2
                by (rewrite <- !app_assoc; cbn [app]; rewrite <- !app_assoc; reflexivity).
              apply app_inj_tail in E2. apply E2.
        - split; auto. apply Forall_app. split; auto. constructor; auto. cbn. destruct (ic i); try discriminate K; reflexivity. }
      destruct (run_step m s seg g sk x y i [] AT DI2 ltac:(congruence)) as [x' [y' [o [E1 [E2 [E3 E4]]]]]].
      rewrite E1.
      assert (OK2 : dinv lo_init lo_init (hd [] (chunks (map cv l))) /\ Forall designators_ok (tl (chunks (map cv l)))).
      { destruct (chunks (map cv l)) as [|c cs]; [split; [left; split; auto; constructor|auto]|]. inversion OK as [|? ? [O1|O1] O2]; subst; split; auto.
        - left. auto.
        - right. left. destruct O1. auto. }
      specialize (IH [] (DU [] DNone) g sk lo_init lo_init). rewrite chunked_nil in IH. specialize (IH ltac:(repeat split; constructor) (proj1 OK2) (proj2 OK2)).
      destruct (feed designator_uniq (DU [] DNone) l) as [s2 o2]. cbn [fst snd app] in *.
      rewrite <- app_assoc. cbn [app]. rewrite (hrun_app _ _ o), (hrun_app _ _ seg), E2, E3. cbn [fst snd app]. rewrite !hrun_main by auto. cbn [snd].
      rewrite !map_app, IH. f_equal. symmetry. apply alike0_obs. eapply dinv_alike; eauto.
    + assert (MT : main_tag (fst (cv i)) = false) by (destruct (ic i) eqn:IC; cbn [cv fst]; rewrite IC; try discriminate K; reflexivity).
      assert (CH : chunked (map cv seg) (map cv (i :: l)) = (map cv seg ++ cv i :: hd [] (chunks (map cv l))) :: tl (chunks (map cv l))).
      { unfold chunked. cbn [map chunks]. rewrite MT. destruct (chunks (map cv l)); auto. }
      rewrite CH in DI, OK. cbn [hd tl] in DI, OK.
      destruct (run_step m s seg g sk x y i _ AT DI ltac:(congruence)) as [x' [y' [o [E1 [E2 [E3 E4]]]]]].
      rewrite E1.
      specialize (IH [] (DU [] DNone) (fst (table_step (g, sk) (ic i) (ival i))) (snd (table_step (g, sk) (ic i) (ival i))) x' y').
      rewrite chunked_nil in IH. specialize (IH ltac:(repeat split; constructor) E4 OK).
      destruct (feed designator_uniq (DU [] DNone) l) as [s2 o2]. cbn [fst snd app] in *.
      rewrite <- app_assoc. cbn [app]. rewrite (hrun_app _ _ o), (hrun_app _ _ seg), E2, E3. cbn [fst snd app]. rewrite !hrun_global by auto. exact IH.
    + assert (MT : main_tag (fst (cv i)) = false) by (destruct (ic i) eqn:IC; cbn [cv fst]; rewrite IC; try discriminate K; reflexivity).
      destruct AT as [S1 [S2 S3]].
      match goal with |- context [let (_, _) := ?e in _] => destruct e as [s1 o1] eqn:E0 end.
      assert (X : o1 = [] /\ du_at s1 (seg ++ [i])).
      { assert (L2 : Forall is_local (seg ++ [i])) by (apply Forall_app; split; auto).
        assert (ND : ic i <> DesignatorIndex -> s1 = DU (seg ++ [i]) (du_filter s) -> du_at s1 (seg ++ [i])).
        { intros N ->. split; [reflexivity|]. split; auto. cbn [du_filter]. destruct (du_filter s).
          - apply Forall_app. split; auto.
          - apply Exists_app. auto.
          - destruct S3 as [t1 [j [t2 [Q1 [Q2 [Q3 Q4]]]]]]. exists t1, j, (t2 ++ [i]). rewrite Q1, <- app_assoc. split; auto. split; auto. split; auto.
            rewrite app_assoc. apply Forall_app. split; auto. }
        destruct (icls_eqb (ic i) DesignatorIndex) eqn:Q.
        - apply icls_eqb_eq in Q. rewrite Q in E0. injection E0 as <- <-. split; auto. rewrite S1.
          split; [reflexivity|]. split; auto. cbn [du_filter].
          assert (EX : Exists is_di (seg ++ [i])) by (apply Exists_app; right; constructor; auto).
          destruct (du_filter s); auto. destruct (ival i =? 0) eqn:V; auto.
          exists seg, i, []. rewrite app_nil_r. repeat split; auto. unfold cv. rewrite Q. f_equal. lia.
        - assert (N : ic i <> DesignatorIndex) by (intros Q2; rewrite Q2 in Q; discriminate).
          assert (E : (s1, o1) = (DU (seg ++ [i]) (du_filter s), [])).
          { rewrite <- E0, <- S1. destruct (ic i); try reflexivity. congruence. }
          injection E as E ->. auto. }
      destruct X as [-> AT]. specialize (IH (seg ++ [i]) s1 g sk x y AT).
      rewrite map_app in IH. cbn [map] in IH. rewrite chunked_snoc in IH by auto. specialize (IH DI OK).
      destruct (feed designator_uniq s1 l) as [s2 o2]. cbn [fst snd app] in *. rewrite IH, <- app_assoc. reflexivity.
Qed.

Theorem c39 m l : Forall designators_ok (chunks (map cv l)) ->
  map zero_desig (seen m (run_pass designator_uniq l)) = map zero_desig (seen m l).
Proof.
  intros OK. pose proof (du_go m l [] (DU [] DNone) g_init [] lo_init lo_init) as G.
  cbn [map] in G. rewrite chunked_nil in G. cbn [app] in G.
  unfold run_pass. change (p_init designator_uniq) with (DU [] DNone).
  destruct (feed designator_uniq (DU [] DNone) l) as [s o]. cbn [fst snd] in G.
  change (p_close designator_uniq s) with (@nil item). rewrite app_nil_r.
  unfold seen, host_view. apply G.
  - repeat split; constructor.
  - destruct (chunks (map cv l)) as [|c cs]; [left; split; auto; constructor|]. inversion OK as [|? ? [O1|O1] O2]; subst.
    + left. auto.
    + right. left. destruct O1. auto.
  - destruct (chunks (map cv l)); auto. inversion OK; auto.
Qed.

(** without a 0 designator nothing is dropped *)
Lemma du_keep l : noz (map cv l) ->
  (forall n, du_filter (fst (feed designator_uniq (DU [] DNone) l)) <> DAt n) /\
  snd (feed designator_uniq (DU [] DNone) l) ++ du_pending (fst (feed designator_uniq (DU [] DNone) l)) = l.
Proof.
  induction l as [|i l IH] using rev_ind; intros N; [split; [discriminate|reflexivity]|].
  rewrite map_app in N. apply Forall_app in N. destruct N as [N1 N2]. destruct (IH N1) as [I1 I2].
  rewrite feed_app. cbn [feed fst snd]. change (p_append designator_uniq) with du_append. change (p_state designator_uniq) with du_state in *.
  destruct (feed designator_uniq (DU [] DNone) l) as [s o]. cbn [fst snd] in *. change (p_state designator_uniq) with du_state in s.
  assert (X : (forall n, du_filter (fst (du_append s i)) <> DAt n) /\
              snd (du_append s i) ++ du_pending (fst (du_append s i)) = du_pending s ++ [i]).
  { unfold du_append, ikd. inversion N2 as [|? ? N3 _]; subst. cbn [cv fst snd] in N3.
    destruct (kind_of (ic i)) eqn:K; cbn [fst snd du_filter du_pending].
    1-2: rewrite app_nil_r; split; [discriminate|]; destruct (du_filter s) eqn:F; auto; exfalso; apply (I1 pos); auto.
    destruct (icls_eqb (ic i) DesignatorIndex) eqn:Q.
    - apply icls_eqb_eq in Q. rewrite Q. cbn [fst snd du_filter du_pending app]. split; auto. specialize (N3 Q).
      intros n. destruct (du_filter s); try discriminate. replace (ival i =? 0) with false by lia. discriminate.
    - replace (match ic i with DesignatorIndex => _ | _ => _ end) with (DU (du_pending s ++ [i]) (du_filter s), @nil item).
      + cbn [fst snd du_filter du_pending app]. auto.
      + destruct (ic i); try reflexivity. discriminate. }
  destruct (du_append s i) as [s1 o1]. cbn [fst snd] in *. destruct X as [X1 X2]. split; auto.
  rewrite app_nil_r, <- app_assoc, X2, app_assoc, I2. reflexivity.
Qed.

Lemma du_id l : noz (map cv l) -> ends l -> run_pass designator_uniq l = l.
Proof.
  intros N [l' [i [-> [K D]]]]. destruct (du_keep _ N) as [_ E]. unfold run_pass. change (p_init designator_uniq) with (DU [] DNone).
  assert (P : du_pending (fst (feed designator_uniq (DU [] DNone) (l' ++ [i]))) = []).
  { rewrite feed_app. cbn [feed fst snd]. change (p_append designator_uniq) with du_append. unfold du_append, ikd. rewrite K. reflexivity. }
  destruct (feed designator_uniq (DU [] DNone) (l' ++ [i])) as [s o]. cbn [fst snd] in *.
  change (p_close designator_uniq s) with (@nil item). rewrite P in E. exact E.
Qed.

Lemma or_skip x l : fst x <> DesignatorIndex -> one_run l -> one_run (x :: l).
Proof.
  intros N O [|z a] u b w c E U W; cbn [app] in E; injection E; intros; subst; [contradiction|]. apply (O a u b w c); auto.
Qed.
Lemma or_last x l : Forall (fun y => fst y <> DesignatorIndex) l -> one_run (x :: l).
Proof.
  intros F [|z a] u b w c E U W; cbn [app] in E; injection E; intros; subst; exfalso; rewrite Forall_forall in F.
  - apply (F w); auto. apply in_or_app. right. left. auto.
  - apply (F w); auto. apply in_or_app. right. right. apply in_or_app. right. left. auto.
Qed.
Lemma or_next x y l : fst y = DesignatorIndex -> one_run (y :: l) -> one_run (x :: y :: l).
Proof.
  intros D O [|z a] u b w c E U W; cbn [app] in E.
  - destruct b as [|v b]; [constructor|]. cbn [app] in E. injection E; intros; subst.
    constructor; [unfold local_tag; rewrite D; reflexivity|]. apply (O [] v b w c); auto.
  - injection E; intros. apply (O a u b w c); auto.
Qed.
Lemma or_nil : one_run [].
Proof. intros [|z a] u b w c E; discriminate. Qed.
