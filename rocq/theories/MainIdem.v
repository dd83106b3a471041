(* MainIdem.v -- running the MainMerge pass on its own output changes nothing
   when the stream ends by closing a collection and no count is 0. *)
From Coq Require Import ZifyBool.
From Verif Require Import Py Usage Item ItemFacts Optimizer OptFacts PassFacts.
Local Open Scope list_scope.
Local Open Scope Z_scope.

Definition step (P : icls -> Z) (i : item) : icls -> Z :=
  if to_watch (ic i) then upd P (ic i) (ival i) else P.
Definition scan (P : icls -> Z) (l : list item) : icls -> Z := fold_left step l P.

(* the pass lets go of what it holds *)
Definition trig (P : icls -> Z) (i : item) : bool :=
  ikind_eqb (ikd i) Main || to_watch (ic i) && negb (P (ic i) =? ival i).

Fixpoint fires (P : icls -> Z) (l : list item) : bool :=
  match l with [] => false | i :: r => trig P i || fires (step P i) r end.

Definition eqf (P Q : icls -> Z) : Prop := forall c, P c = Q c.

Definition nodata (l : list item) : Prop := Forall (fun i => is_data (ic i) = false) l.
Definition norc (l : list item) : Prop := Forall (fun i => not_rc i = true) l.

Lemma eqf_step P Q i : eqf P Q -> eqf (step P i) (step Q i).
Proof.
  intros H c. unfold step. destruct (to_watch (ic i)); [|apply H].
  unfold upd. destruct (icls_eqb c (ic i)); [reflexivity|apply H].
Qed.

Lemma eqf_scan l : forall P Q, eqf P Q -> eqf (scan P l) (scan Q l).
Proof.
  induction l as [|i l IH]; intros P Q H; [exact H|].
  cbn [scan fold_left]. apply IH, eqf_step, H.
Qed.

Lemma eqf_trig P Q i : eqf P Q -> trig P i = trig Q i.
Proof. intros H. unfold trig. now rewrite (H (ic i)). Qed.

Lemma eqf_fires l : forall P Q, eqf P Q -> fires P l = fires Q l.
Proof.
  induction l as [|i l IH]; intros P Q H; [reflexivity|]. cbn [fires].
  rewrite (eqf_trig P Q i H), (IH _ _ (eqf_step P Q i H)). reflexivity.
Qed.

Lemma scan_app P a b : scan P (a ++ b) = scan (scan P a) b.
Proof. apply fold_left_app. Qed.

Lemma fires_app a : forall P b, fires P (a ++ b) = fires P a || fires (scan P a) b.
Proof.
  induction a as [|i a IH]; intros P b; [reflexivity|]. cbn [app fires scan fold_left].
  rewrite IH. now rewrite orb_assoc.
Qed.

Lemma rc_quiet P i : not_rc i = false -> step P i = P /\ trig P i = false.
Proof.
  unfold not_rc. intros H. apply negb_false_iff, icls_eqb_eq in H.
  unfold step, trig, ikd. rewrite H. auto.
Qed.

Lemma scan_filter l : forall P, scan P (filter not_rc l) = scan P l.
Proof.
  induction l as [|i l IH]; intros P; [reflexivity|]. cbn [filter].
  destruct (not_rc i) eqn:E.
  - cbn [scan fold_left]. apply IH.
  - rewrite IH. cbn [scan fold_left]. now rewrite (proj1 (rc_quiet P i E)).
Qed.

Lemma fires_filter l : forall P, fires P (filter not_rc l) = fires P l.
Proof.
  induction l as [|i l IH]; intros P; [reflexivity|]. cbn [filter].
  destruct (not_rc i) eqn:E; cbn [fires].
  - now rewrite IH.
  - destruct (rc_quiet P i E) as [-> ->]. now rewrite IH.
Qed.

Lemma norc_filter l : norc l -> filter not_rc l = l.
Proof.
  induction 1 as [|i l H _ IH]; [reflexivity|]. cbn [filter]. now rewrite H, IH.
Qed.

Lemma eqf_trans P Q R : eqf P Q -> eqf Q R -> eqf P R.
Proof. intros H1 H2 c. now rewrite H1. Qed.
Lemma eqf_sym P Q : eqf P Q -> eqf Q P.
Proof. intros H c. now rewrite H. Qed.

(** One item that is not a data item *)
Lemma mm_other s i : is_data (ic i) = false ->
  exists P, eqf P (step (mm_props s) i) /\
  let ac := if icls_eqb (ic i) ReportCount then ival i else mm_acount s in
  mm_append s i =
    if trig (mm_props s) i
    then (MM (mm_after s ++ [i]) [] [] 0 ac P,
          filter not_rc (mm_before s) ++
          match mm_mains s with [] => [] | m :: _ => [rc_item (mm_bcount s); m] end)
    else (MM (mm_before s) (mm_mains s) (mm_after s ++ [i]) (mm_bcount s) ac P, []).
Proof.
  intros D. unfold trig, step, mm_append. destruct s as [B M A bc ac P].
  cbn [mm_before mm_mains mm_after mm_bcount mm_acount mm_props].
  destruct (ikd i) eqn:K; cbn [ikind_eqb orb].
  - rewrite D. cbn [negb]. unfold mm_flush.
    cbn [mm_before mm_mains mm_after mm_bcount mm_acount mm_props].
    exists P. unfold ikd in K.
    split; [destruct (ic i); try discriminate K; intros c; reflexivity|].
    destruct (ic i); try discriminate K; reflexivity.
  - destruct (to_watch (ic i)) eqn:W; cbn [andb].
    + destruct (P (ic i) =? ival i) eqn:E; cbn [negb].
      * exists P. split.
        { intros c. unfold upd. destruct (icls_eqb c (ic i)) eqn:Q; [|reflexivity].
          apply icls_eqb_eq in Q. subst c. lia. }
        destruct (ic i); try discriminate W; reflexivity.
      * exists (upd P (ic i) (ival i)). split; [intros c; reflexivity|].
        unfold mm_flush.
        cbn [mm_before mm_mains mm_after mm_bcount mm_acount mm_props].
        destruct (ic i); try discriminate W; reflexivity.
    + exists P. split; [intros c; reflexivity|].
      destruct (ic i); try reflexivity.
  - unfold ikd in K. destruct (to_watch (ic i)) eqn:W;
      [destruct (ic i); discriminate|]. cbn [andb].
    exists P. split; [intros c; reflexivity|].
    destruct (ic i); try discriminate K; reflexivity.
Qed.

(** The state of the second run *)
Definition hold (t : mm_state) : list item := mm_before t ++ mm_mains t ++ mm_after t.

Definition tidy2 (t : mm_state) : Prop :=
  norc (mm_after t) /\
  ((mm_mains t = [] /\ mm_bcount t = 0 /\ norc (mm_before t)) \/
   exists m C, mm_mains t = [m] /\ mm_bcount t = 1 /\ norc C /\
               mm_before t = C ++ [rc_item 1]).

Lemma tidy2_flush t : tidy2 t ->
  filter not_rc (mm_before t) ++
  match mm_mains t with [] => [] | m :: _ => [rc_item (mm_bcount t); m] end =
  mm_before t ++ mm_mains t.
Proof.
  intros [_ [(M & _ & B)|(m & C & M & bc & NC & B)]]; rewrite M.
  - now rewrite norc_filter.
  - rewrite B, bc, filter_app, norc_filter by exact NC.
    cbn [filter not_rc rc_item ic icls_eqb negb]. rewrite app_nil_r, <- app_assoc.
    reflexivity.
Qed.

Lemma feed_one t i : feed main_merge t [i] =
  (fst (mm_append t i), snd (mm_append t i)).
Proof.
  cbn [feed]. cbn [main_merge p_append]. destruct (mm_append t i) as [s o].
  now rewrite app_nil_r.
Qed.

Lemma feed_two p s l1 l2 s1 o1 s2 o2 :
  feed p s l1 = (s1, o1) -> feed p s1 l2 = (s2, o2) ->
  feed p s (l1 ++ l2) = (s2, o1 ++ o2).
Proof. intros E1 E2. rewrite feed_app, E1. cbn [fst snd]. now rewrite E2. Qed.

Lemma second_others X : nodata X -> norc X -> forall t, tidy2 t ->
  exists t' o, feed main_merge t X = (t', o) /\ tidy2 t' /\
    o ++ hold t' = hold t ++ X /\
    eqf (mm_props t') (scan (mm_props t) X) /\
    (mm_mains t' = mm_mains t \/ mm_mains t' = []) /\
    (fires (mm_props t) X = true -> mm_mains t' = []).
Proof.
  induction X as [|i X IH]; intros ND NR t T.
  - exists t, []. cbn [feed app fires scan fold_left]. rewrite app_nil_r.
    repeat split; auto; discriminate || (destruct T; assumption).
  - inversion ND as [|? ? Di NDX]; subst. inversion NR as [|? ? Ri NRX]; subst.
    destruct (mm_other t i Di) as (P & EP & EA).
    assert (exists t1 o1, mm_append t i = (t1, o1) /\ tidy2 t1 /\
              o1 ++ hold t1 = hold t ++ [i] /\ eqf (mm_props t1) (step (mm_props t) i) /\
              (mm_mains t1 = mm_mains t \/ mm_mains t1 = []) /\
              (trig (mm_props t) i = true -> mm_mains t1 = [])) as
      (t1 & o1 & E1 & T1 & H1 & P1 & M1 & F1).
    { rewrite EA. destruct (trig (mm_props t) i).
      - eexists _, _. split; [reflexivity|]. rewrite tidy2_flush by exact T.
        destruct T as [NA _]. unfold hold, tidy2. cbn.
        repeat split; auto.
        + constructor.
        + left. repeat split; auto. apply Forall_app; auto.
        + rewrite app_nil_r. now rewrite <- !app_assoc.
      - eexists _, _. split; [reflexivity|]. destruct T as [NA TB].
        unfold hold, tidy2. cbn.
        repeat split; auto.
        + apply Forall_app; auto.
        + now rewrite <- !app_assoc.
        + discriminate. }
    destruct (IH NDX NRX t1 T1) as (t' & o & E & T' & H' & P' & M' & F').
    exists t', (o1 ++ o). cbn [feed]. cbn [main_merge p_append].
    rewrite E1.
    change (feed (Pass mm_state mm_init mm_append mm_close)) with (feed main_merge).
    rewrite E. repeat split.
    + apply T'.
    + apply T'.
    + rewrite <- app_assoc, H', app_assoc, H1, <- app_assoc. reflexivity.
    + cbn [scan fold_left]. eapply eqf_trans; [exact P'|]. apply eqf_scan, P1.
    + destruct M' as [->|]; auto.
    + cbn [fires]. intros H. apply orb_true_iff in H. destruct H as [H|H].
      * destruct M' as [->|]; auto.
      * apply F'. rewrite <- H. apply eqf_fires, P1.
Qed.

Lemma second_quiet X : nodata X -> forall t, fires (mm_props t) X = false ->
  exists ac P, feed main_merge t X =
    (MM (mm_before t) (mm_mains t) (mm_after t ++ X) (mm_bcount t) ac P, []).
Proof.
  induction X as [|i X IH]; intros ND t F.
  - exists (mm_acount t), (mm_props t). cbn [feed]. rewrite app_nil_r.
    destruct t; reflexivity.
  - inversion ND as [|? ? Di NDX]; subst. cbn [fires] in F.
    apply orb_false_elim in F. destruct F as [F1 F2].
    destruct (mm_other t i Di) as (P & EP & EA). rewrite F1 in EA.
    cbn [feed]. cbn [main_merge p_append]. rewrite EA.
    change (feed (Pass mm_state mm_init mm_append mm_close)) with (feed main_merge).
    match goal with |- context [feed main_merge ?s X] => destruct (IH NDX s) as (ac & P' & E') end.
    { rewrite <- F2. apply eqf_fires. exact EP. }
    rewrite E'. cbn. exists ac, P'. now rewrite <- app_assoc.
Qed.

Lemma data_main c : is_data c = true -> kind_of c = Main.
Proof. destruct c; auto; discriminate. Qed.

Lemma second_main t n m : tidy2 t -> is_data (ic m) = true ->
  (forall m2, mm_mains t = [m2] -> item_eqb m m2 = false) ->
  exists t' o, feed main_merge t [rc_item n; m] = (t', o) /\ tidy2 t' /\
    o ++ hold t' = hold t ++ [rc_item n; m] /\
    eqf (mm_props t') (mm_props t) /\
    (mm_mains t' = [] \/ (n = 1 /\ mm_mains t' = [m])).
Proof.
  intros T Dm Sep.
  destruct (mm_other t (rc_item n) eq_refl) as (P & EP & EA).
  cbn [step trig rc_item ic to_watch ikd kind_of ikind_eqb orb andb icls_eqb] in EA.
  change (step (mm_props t) (rc_item n)) with (mm_props t) in EP.
  change (trig (mm_props t) (rc_item n)) with false in EA.
  cbv iota beta zeta in EA.
  cbn [feed]. cbn [main_merge p_append].
  change (Item ReportCount (VInt n)) with (rc_item n) in EA.
  rewrite EA. clear EA. unfold mm_append. unfold ikd. rewrite (data_main _ Dm), Dm.
  cbn [negb mm_before mm_mains mm_after mm_bcount mm_acount mm_props].
  change (ival (rc_item n)) with n.
  pose proof (tidy2_flush t T) as Fl.
  destruct T as [NA TB].
  (* after leaving the item held back, if any *)
  assert (exists B, norc B /\ exists o1,
    match mm_mains t with
    | m0 :: _ => if item_eqb m m0
        then (MM (mm_before t) (mm_mains t) (mm_after t ++ [rc_item n]) (mm_bcount t) n P, [])
        else mm_flush (MM (mm_before t) (mm_mains t) (mm_after t ++ [rc_item n]) (mm_bcount t) n P)
    | [] => (MM (mm_before t) (mm_mains t) (mm_after t ++ [rc_item n]) (mm_bcount t) n P, [])
    end = (MM (if mm_mains t then mm_before t else mm_after t ++ [rc_item n]) []
              (if mm_mains t then mm_after t ++ [rc_item n] else []) 0 n P, o1) /\
    o1 ++ B ++ [rc_item n] = hold t ++ [rc_item n] /\
    (if mm_mains t then mm_before t else mm_after t ++ [rc_item n]) ++
    (if mm_mains t then mm_after t ++ [rc_item n] else []) = B ++ [rc_item n]) as
    (B & NB & o1 & E1 & H1 & E2).
  { destruct TB as [(M & bc & NB)|(m0 & C & M & bc & NC & EB)]; rewrite M in *.
    - exists (mm_before t ++ mm_after t). split; [apply Forall_app; auto|].
      exists []. rewrite bc. unfold hold. rewrite M. cbn [app].
      repeat split. now rewrite <- app_assoc.
    - exists (mm_after t). split; [exact NA|]. exists (mm_before t ++ [m0]).
      rewrite (Sep m0 eq_refl). unfold mm_flush.
      cbn [mm_before mm_mains mm_after mm_bcount mm_acount mm_props].
      repeat split.
      + now rewrite Fl.
      + unfold hold. rewrite M, <- !app_assoc. reflexivity.
      + now rewrite app_nil_r. }
  rewrite E1. cbn [mm_before mm_mains mm_after mm_bcount mm_acount mm_props app].
  rewrite E2.
  destruct (n =? 1) eqn:N; cbn [negb].
  - assert (n = 1) by lia. subst n. eexists _, _. split; [reflexivity|].
    unfold tidy2, hold. cbn [mm_before mm_mains mm_after mm_bcount mm_acount mm_props].
    repeat split; auto.
    + constructor.
    + right. exists m, B. auto.
    + rewrite app_nil_r. fold (hold t).
      change (hold t ++ [rc_item 1; m]) with (hold t ++ [rc_item 1] ++ [m]).
      rewrite (app_assoc (hold t)), <- H1, <- !app_assoc. reflexivity.
  - unfold mm_flush. cbn [mm_before mm_mains mm_after mm_bcount mm_acount mm_props].
    eexists _, _. split; [reflexivity|].
    unfold tidy2, hold. cbn [mm_before mm_mains mm_after mm_bcount mm_acount mm_props app].
    repeat split; auto.
    + constructor.
    + left. repeat split; constructor.
    + rewrite !app_nil_r. rewrite filter_app, norc_filter by exact NB.
      cbn [filter not_rc rc_item ic icls_eqb negb]. rewrite app_nil_r.
      fold (hold t). rewrite Z.add_0_l.
      change (hold t ++ [rc_item n; m]) with (hold t ++ [rc_item n] ++ [m]).
      rewrite (app_assoc (hold t)), <- H1, <- !app_assoc. reflexivity.
Qed.

(** The two runs side by side *)
Definition apart (B M : list item) (t : mm_state) : Prop :=
  forall m2, mm_mains t = [m2] ->
    fires (mm_props t) B = true \/
    exists i r, M = i :: r /\ item_eqb i m2 = false.

Definition inv (s t : mm_state) : Prop :=
  tidy2 t /\ nodata (mm_before s) /\ nodata (mm_after s) /\
  Forall (fun m => is_data (ic m) = true) (mm_mains s) /\
  0 <= mm_bcount s /\
  (1 <= mm_acount s \/ (mm_acount s = 0 /\ mm_bcount s = 0)) /\
  eqf (mm_props s) (scan (mm_props t) (mm_before s ++ mm_after s)) /\
  fires (scan (mm_props t) (mm_before s)) (mm_after s) = false /\
  apart (mm_before s) (mm_mains s) t.

Lemma inv_intro s t : tidy2 t -> nodata (mm_before s) -> nodata (mm_after s) ->
  Forall (fun m => is_data (ic m) = true) (mm_mains s) ->
  0 <= mm_bcount s ->
  (1 <= mm_acount s \/ (mm_acount s = 0 /\ mm_bcount s = 0)) ->
  eqf (mm_props s) (scan (mm_props t) (mm_before s ++ mm_after s)) ->
  fires (scan (mm_props t) (mm_before s)) (mm_after s) = false ->
  apart (mm_before s) (mm_mains s) t -> inv s t.
Proof. intros. unfold inv. auto 12. Qed.

Lemma flush_second B M bc t : tidy2 t -> nodata B ->
  Forall (fun m => is_data (ic m) = true) M -> apart B M t ->
  exists t' o,
    feed main_merge t (filter not_rc B ++
      match M with [] => [] | m :: _ => [rc_item bc; m] end) = (t', o) /\
    tidy2 t' /\
    o ++ hold t' = hold t ++ filter not_rc B ++
      match M with [] => [] | m :: _ => [rc_item bc; m] end /\
    eqf (mm_props t') (scan (mm_props t) B) /\
    (mm_mains t' = [] \/ exists m r, M = m :: r /\ bc = 1 /\ mm_mains t' = [m]).
Proof.
  intros T NB DM Ap.
  assert (NB' : nodata (filter not_rc B)).
  { apply incl_Forall with B; [apply incl_filter|exact NB]. }
  assert (NR : norc (filter not_rc B)).
  { apply Forall_forall. intros x Hx. now apply filter_In in Hx. }
  destruct (second_others _ NB' NR t T) as (t1 & o1 & E1 & T1 & H1 & P1 & M1 & F1).
  rewrite scan_filter in P1. rewrite fires_filter in F1.
  destruct M as [|m r].
  - rewrite app_nil_r. exists t1, o1. split; [exact E1|]. split; [exact T1|].
    split; [exact H1|]. split; [exact P1|]. left.
    destruct (mm_mains t1) as [|m2 l2] eqn:Q; [reflexivity|].
    destruct M1 as [M1|M1]; [|discriminate].
    destruct T1 as [_ [(Z0 & _)|(m3 & C & Z0 & _)]]; rewrite Q in Z0; [discriminate|].
    injection Z0 as -> ->.
    destruct (Ap m3 (eq_sym M1)) as [Fi|(i & r & [=] & _)]. auto.
  - inversion DM as [|? ? Dm _]; subst.
    assert (Sep : forall m2, mm_mains t1 = [m2] -> item_eqb m m2 = false).
    { intros m2 Q. destruct M1 as [M1|M1]; [|congruence].
      destruct (Ap m2) as [Fi|(i & r' & [= <- <-] & X)]; [congruence| |exact X].
      rewrite (F1 Fi) in Q. discriminate. }
    destruct (second_main t1 bc m T1 Dm Sep) as (t2 & o2 & E2 & T2 & H2 & P2 & M2).
    exists t2, (o1 ++ o2). rewrite (feed_two _ _ _ _ _ _ _ _ E1 E2). repeat split.
    + apply T2.
    + apply T2.
    + rewrite <- app_assoc, H2, app_assoc, H1, <- app_assoc. reflexivity.
    + eapply eqf_trans; [exact P2|exact P1].
    + destruct M2 as [M2|[M2 M3]]; [auto|right]. eauto 6.
Qed.

Lemma eqb_sym_item a b : item_eqb a b = item_eqb b a.
Proof. unfold item_eqb. now rewrite (Z.eqb_sym (kind_int _)), (Z.eqb_sym (tag_of _)), (Z.eqb_sym (ival _)). Qed.

Lemma step_inv s t i : inv s t -> (ic i = ReportCount -> 1 <= ival i) ->
  exists s' o1 t' o2, mm_append s i = (s', o1) /\ feed main_merge t o1 = (t', o2) /\
    inv s' t' /\ o2 ++ hold t' = hold t ++ o1.
Proof.
  intros (T & NB & NA & DM & Bc & Ac & EP & FA & Ap) RC.
  destruct (is_data (ic i)) eqn:D.
  - (* a data item *)
    assert (Last : forall s0 t0, inv s0 t0 ->
      (mm_mains s0 = [] \/ exists m r, mm_mains s0 = m :: r) ->
      let s2 := MM (mm_before s0 ++ mm_after s0) (mm_mains s0 ++ [i]) []
                   (mm_bcount s0 + mm_acount s0) (mm_acount s0) (mm_props s0) in
      apart (mm_before s2) (mm_mains s2) t0 ->
      exists s' o1 t' o2,
        (if negb (mm_acount s0 =? 1) then mm_flush s2 else (s2, [])) = (s', o1) /\
        feed main_merge t0 o1 = (t', o2) /\ inv s' t' /\
        o2 ++ hold t' = hold t0 ++ o1).
    { clear s t T NB NA DM Bc Ac EP FA Ap.
      intros s t (T & NB & NA & DM & Bc & Ac & EP & FA & _) _ s2 Ap.
      assert (NBA : nodata (mm_before s ++ mm_after s)) by (apply Forall_app; auto).
      assert (DMi : Forall (fun m => is_data (ic m) = true) (mm_mains s ++ [i]))
        by (apply Forall_app; auto).
      destruct (mm_acount s =? 1) eqn:A1; cbn [negb].
      - exists s2, [], t, []. cbn [feed app]. rewrite app_nil_r.
        split; [reflexivity|]. split; [reflexivity|]. split; [|reflexivity].
        apply inv_intro; unfold s2;
          cbn [mm_before mm_mains mm_after mm_bcount mm_acount mm_props fires];
          try assumption; try lia; [apply Forall_nil|now rewrite app_nil_r].
      - destruct (flush_second (mm_before s ++ mm_after s) (mm_mains s ++ [i])
                    (mm_bcount s + mm_acount s) t T NBA DMi Ap)
          as (t' & o & E & T' & H' & P' & M').
        eexists _, _, t', o. split; [reflexivity|].
        unfold s2. cbn [mm_before mm_mains mm_after mm_bcount mm_acount mm_props].
        split; [exact E|]. split; [|exact H'].
        destruct M' as [M'|(m & r & _ & B1 & _)]; [|lia].
        apply inv_intro; cbn [mm_before mm_mains mm_after mm_bcount mm_acount mm_props fires app scan fold_left];
          try exact T'; try apply Forall_nil; try lia.
        + eapply eqf_trans; [exact EP|]. apply eqf_sym, P'.
        + intros m2 Q. rewrite M' in Q. discriminate. }
    unfold mm_append. unfold ikd. rewrite (data_main _ D), D. cbn [negb].
    destruct (mm_mains s) as [|m r] eqn:M.
    + specialize (Last s t).
      destruct Last as (s' & o1 & t' & o2 & E1 & E2 & I & H).
      * apply inv_intro; rewrite ?M; assumption.
      * auto.
      * cbn [mm_before mm_mains]. intros m2 Q.
        destruct (Ap m2 Q) as [Fi|(j & r & [=] & _)]. left.
        rewrite fires_app, Fi. reflexivity.
      * exists s', o1, t', o2. rewrite M in E1.
        split; [|auto]. rewrite <- E1, M. destruct (negb _); [|reflexivity].
        destruct (mm_flush _); reflexivity.
    + destruct (item_eqb i m) eqn:Q.
      * specialize (Last s t).
        destruct Last as (s' & o1 & t' & o2 & E1 & E2 & I & H).
        -- apply inv_intro; rewrite ?M; assumption.
        -- right. eauto.
        -- cbn [mm_before mm_mains]. intros m2 Q2.
           destruct (Ap m2 Q2) as [Fi|(j & r' & [= <- <-] & X)].
           ++ left. rewrite fires_app, Fi. reflexivity.
           ++ right. rewrite M. exists m, (r ++ [i]). auto.
        -- exists s', o1, t', o2. rewrite M in E1.
           split; [|auto]. rewrite <- E1, M. destruct (negb _); [|reflexivity].
           destruct (mm_flush _); reflexivity.
      * destruct (flush_second (mm_before s) (m :: r) (mm_bcount s) t T NB DM Ap)
          as (t1 & o1 & E1 & T1 & H1 & P1 & M1).
        pose (s1 := MM (mm_after s) [] [] 0 (mm_acount s) (mm_props s)).
        assert (Fe : mm_flush s = (s1, filter not_rc (mm_before s) ++ [rc_item (mm_bcount s); m])).
        { unfold mm_flush. rewrite M. reflexivity. }
        rewrite scan_app in EP.
        assert (I1 : tidy2 t1 /\ eqf (mm_props s) (scan (mm_props t1) (mm_after s))).
        { split; [exact T1|]. eapply eqf_trans; [exact EP|]. apply eqf_scan, eqf_sym, P1. }
        destruct I1 as [_ EP1].
        (* the state right after the flush, with the new item held back *)
        destruct (mm_acount s =? 1) eqn:A1.
        -- eexists _, _, t1, o1. rewrite Fe.
           cbn [s1 mm_before mm_mains mm_after mm_bcount mm_acount mm_props].
           rewrite A1. cbn [negb].
           split; [reflexivity|]. split; [exact E1|]. split; [|exact H1].
           apply inv_intro;
             cbn [mm_before mm_mains mm_after mm_bcount mm_acount mm_props app fires];
             rewrite ?app_nil_r; try assumption; try lia.
           ++ apply Forall_nil.
           ++ apply Forall_cons; [exact D|apply Forall_nil].
           ++ intros m2 Q2. right. exists i, []. split; [reflexivity|].
              destruct M1 as [M1|(m3 & r3 & [= <- <-] & _ & M1)]; [congruence|].
              rewrite M1 in Q2. injection Q2 as <-. exact Q.
        -- assert (Ap2 : apart (mm_after s) [i] t1).
           { intros m2 Q2. right. exists i, []. split; [reflexivity|].
             destruct M1 as [M1|(m3 & r3 & [= <- <-] & _ & M1)]; [congruence|].
             rewrite M1 in Q2. injection Q2 as <-. exact Q. }
           destruct (flush_second (mm_after s) [i] (0 + mm_acount s) t1 T1 NA
                       (Forall_cons _ D (Forall_nil _)) Ap2)
             as (t2 & o2 & E2 & T2 & H2 & P2 & M2).
           eexists _, _, t2, (o1 ++ o2). rewrite Fe.
           cbn [s1 mm_before mm_mains mm_after mm_bcount mm_acount mm_props].
           rewrite A1. cbn [negb]. unfold mm_flush.
           cbn [mm_before mm_mains mm_after mm_bcount mm_acount mm_props].
           rewrite app_nil_r. cbn [app].
           split; [reflexivity|]. split.
           { exact (feed_two _ _ _ _ _ _ _ _ E1 E2). }
           split.
           ++ destruct M2 as [M2|(m3 & r3 & _ & B1 & _)]; [|lia].
              apply inv_intro;
                cbn [mm_before mm_mains mm_after mm_bcount mm_acount mm_props app fires scan fold_left];
                try exact T2; try apply Forall_nil; try lia.
              ** eapply eqf_trans; [exact EP1|]. apply eqf_sym, P2.
              ** intros m2 Q2. rewrite M2 in Q2. discriminate.
           ++ rewrite <- app_assoc, H2, app_assoc, H1, <- app_assoc. reflexivity.
  - (* any other item *)
    destruct (mm_other s i D) as (P & HP & EA).
    assert (TE : trig (mm_props s) i =
                 trig (scan (scan (mm_props t) (mm_before s)) (mm_after s)) i).
    { rewrite <- scan_app. apply eqf_trig, EP. }
    assert (AcN : 1 <= (if icls_eqb (ic i) ReportCount then ival i else mm_acount s) \/
                  (if icls_eqb (ic i) ReportCount then ival i else mm_acount s) = 0 /\
                  mm_acount s = 0 /\ mm_bcount s = 0).
    { destruct (icls_eqb (ic i) ReportCount) eqn:R.
      - apply icls_eqb_eq in R. left. auto.
      - destruct Ac as [Ac|[Ac Ac']]; auto. }
    rewrite EA. destruct (trig (mm_props s) i) eqn:Tr.
    + destruct (flush_second (mm_before s) (mm_mains s) (mm_bcount s) t T NB DM Ap)
        as (t1 & o1 & E1 & T1 & H1 & P1 & M1).
      eexists _, _, t1, o1. split; [reflexivity|]. split; [exact E1|].
      split; [|exact H1].
      assert (ES : eqf (scan (mm_props t1) (mm_after s)) (scan (mm_props t) (mm_before s ++ mm_after s))).
      { rewrite scan_app. apply eqf_scan, P1. }
      apply inv_intro;
        cbn [mm_before mm_mains mm_after mm_bcount mm_acount mm_props app fires];
        rewrite ?app_nil_r; try exact T1; try apply Forall_nil; try lia.
      * apply Forall_app; auto.
      * rewrite scan_app. eapply eqf_trans; [exact HP|].
        cbn [scan fold_left]. apply eqf_step.
        eapply eqf_trans; [exact EP|]. apply eqf_sym, ES.
      * intros m2 _. left. rewrite fires_app. cbn [fires].
        rewrite (eqf_trig _ (mm_props s)).
        -- rewrite Tr. apply orb_true_r.
        -- eapply eqf_trans; [exact ES|]. apply eqf_sym, EP.
    + eexists _, _, t, []. split; [reflexivity|]. split; [reflexivity|].
      split; [|now rewrite app_nil_r].
      apply inv_intro; cbn [mm_before mm_mains mm_after mm_bcount mm_acount mm_props];
        try assumption; try lia.
      * apply Forall_app; auto.
      * rewrite app_assoc, scan_app. eapply eqf_trans; [exact HP|].
        cbn [scan fold_left]. apply eqf_step, EP.
      * rewrite fires_app, FA. cbn [fires orb]. rewrite <- TE. reflexivity.
Qed.

Lemma feed_inv l : Forall (fun i => ic i = ReportCount -> 1 <= ival i) l ->
  forall s t, inv s t ->
  exists s' o1 t' o2, feed main_merge s l = (s', o1) /\
    feed main_merge t o1 = (t', o2) /\ inv s' t' /\ o2 ++ hold t' = hold t ++ o1.
Proof.
  induction 1 as [|i l Hi _ IH]; intros s t I.
  - exists s, [], t, []. cbn [feed app]. rewrite app_nil_r. auto.
  - destruct (step_inv s t i I Hi) as (s1 & o1 & t1 & p1 & E1 & F1 & I1 & H1).
    destruct (IH s1 t1 I1) as (s2 & o2 & t2 & p2 & E2 & F2 & I2 & H2).
    exists s2, (o1 ++ o2), t2, (p1 ++ p2).
    split. { cbn [feed]. cbn [main_merge p_append]. rewrite E1.
             change (feed (Pass mm_state mm_init mm_append mm_close)) with (feed main_merge).
             now rewrite E2. }
    split. { exact (feed_two _ _ _ _ _ _ _ _ F1 F2). }
    split; [exact I2|].
    rewrite <- app_assoc, H2, app_assoc, H1, <- app_assoc. reflexivity.
Qed.

Lemma mm_idem l : ends l ->
  Forall (fun i => ic i = ReportCount -> ival i > 0) l ->
  run_pass main_merge (run_pass main_merge l) = run_pass main_merge l.
Proof.
  intros (l' & e & -> & Ke & De) RC. apply Forall_app in RC. destruct RC as [RC _].
  assert (I0 : inv mm_init mm_init).
  { apply inv_intro; cbn; try apply Forall_nil; try lia.
    - split; [apply Forall_nil|left]. repeat split. apply Forall_nil.
    - intros c. reflexivity.
    - intros m2 [=]. }
  destruct (feed_inv l') with (s := mm_init) (t := mm_init)
    as (s & o1 & t & o2 & E1 & F1 & I & H).
  { apply Forall_forall. intros i Hi Q. rewrite Forall_forall in RC.
    specialize (RC i Hi Q). lia. }
  { exact I0. }
  destruct I as (T & NB & NA & DM & Bc & Ac & EP & FA & Ap).
  destruct (mm_other s e De) as (P & HP & EA).
  assert (Tr : trig (mm_props s) e = true) by (unfold trig, ikd; now rewrite Ke).
  rewrite Tr in EA.
  destruct (flush_second (mm_before s) (mm_mains s) (mm_bcount s) t T NB DM Ap)
    as (t1 & o3 & E3 & T1 & H1 & P1 & M1).
  set (fl := filter not_rc (mm_before s) ++ _) in EA, E3, H1.
  assert (R1 : run_pass main_merge (l' ++ [e]) = (o1 ++ fl) ++ mm_after s ++ [e]).
  { unfold run_pass. change (p_init main_merge) with mm_init.
    rewrite (feed_two _ _ _ _ _ _ _ _ E1 (feed_one s e)), EA.
    cbn [fst snd]. cbn [main_merge p_close].
    unfold mm_close. cbn [mm_before mm_mains mm_after]. now rewrite !app_nil_r. }
  rewrite R1. unfold run_pass. change (p_init main_merge) with mm_init.
  assert (Q1 : fires (mm_props t1) (mm_after s) = false).
  { rewrite <- FA. apply eqf_fires, P1. }
  destruct (second_quiet (mm_after s) NA t1 Q1) as (ac & P' & E4).
  pose proof (feed_two _ _ _ _ _ _ _ _ (feed_two _ _ _ _ _ _ _ _ F1 E3)
                (feed_two _ _ _ _ _ _ _ _ E4 (feed_one _ e))) as FA2.
  destruct (mm_other (MM (mm_before t1) (mm_mains t1) (mm_after t1 ++ mm_after s)
                         (mm_bcount t1) ac P') e De) as (P2 & _ & EA2).
  assert (Tr2 : forall Q, trig Q e = true) by (intros Q; unfold trig, ikd; now rewrite Ke).
  rewrite Tr2 in EA2. rewrite FA2, EA2. cbn [fst snd app].
  cbn [mm_before mm_mains mm_after mm_bcount mm_acount mm_props].
  rewrite tidy2_flush by exact T1.
  cbn [main_merge p_close]. unfold mm_close. cbn [mm_before mm_mains mm_after].
  change (hold mm_init) with (@nil item) in H. cbn [app] in H.
  unfold hold in H1.
  assert (G : (o1 ++ fl) = (o2 ++ o3) ++ mm_before t1 ++ mm_mains t1 ++ mm_after t1).
  { rewrite <- app_assoc, H1, app_assoc. fold (hold t). now rewrite H. }
  rewrite G, !app_nil_r, <- !app_assoc. reflexivity.
Qed.
