(* SizeFacts.v -- the size of the optimised output (C43) *)
From Coq Require Import ZifyBool ZifyNat.
From Verif Require Import Py Usage Item Parser Optimizer Descriptor HidSpec Spec ItemFacts ParserFacts CodecProofs StreamSpec
  StreamProofs StreamTree OptSpec AllSpec TreeSpec OptFacts PassFacts MainMergeFacts Skeleton RangeFacts PageFacts MergeFacts DesigFacts OptAll TreeOpt.
Ltac Zify.zify_post_hook ::= Z.div_mod_to_equations.
Local Open Scope nat_scope.

Definition isz (i : item) : nat := S (payload_width i).
Fixpoint wt (l : list item) : nat := match l with [] => 0 | i :: r => isz i + wt r end.

Lemma wt_app a b : wt (a ++ b) = wt a + wt b.
Proof. induction a; cbn [app wt]; lia. Qed.

Lemma wt_filter f l : wt (filter f l) <= wt l.
Proof. induction l as [|i l IH]; cbn [filter wt]; auto. destruct (f i); cbn [wt]; lia. Qed.

Lemma wt_remove n l : wt (remove_nth n l) <= wt l.
Proof. revert n. induction l as [|i l IH]; intros [|n]; cbn [remove_nth wt]; try lia. specialize (IH n). lia. Qed.

Lemma wt_serialize l b : serialize l = Ok b -> length b = wt l.
Proof.
  revert b. induction l as [|i l IH]; intros b H; cbn [serialize] in H; [injection H as <-; reflexivity|].
  destruct (bytes i) as [bs|] eqn:B; [|discriminate]. cbn [bind] in H.
  destruct (serialize l) as [s|] eqn:S; [|discriminate]. cbn [bind] in H. injection H as <-.
  rewrite app_length, (IH s eq_refl). cbn [wt].
  assert (R : in_range (ic i) (ival i)) by (apply (bytes_with_iff Z.log2 i log2_good); exists bs; exact B).
  rewrite (bytes_eq i R) in B. injection B as <-. cbn [length]. rewrite le_bytes_length. reflexivity.
Qed.

Lemma serialize_range l b : serialize l = Ok b -> Forall (fun i => in_range (ic i) (ival i)) l.
Proof.
  revert b. induction l as [|i l IH]; intros b H; [constructor|]. cbn [serialize] in H.
  destruct (bytes i) as [bs|] eqn:B; [|discriminate]. cbn [bind] in H.
  destruct (serialize l) as [s|] eqn:S; [|discriminate].
  constructor; [apply (bytes_with_iff Z.log2 i log2_good); exists bs; exact B|eauto].
Qed.

(** a pass that never sends more than it received *)
Lemma shrinks (p : pass) (pot : p_state p -> nat) (I : p_state p -> Prop) (Q : item -> Prop) :
  I (p_init p) -> pot (p_init p) = 0 ->
  (forall s i, I s -> Q i -> I (fst (p_append p s i)) /\ wt (snd (p_append p s i)) + pot (fst (p_append p s i)) <= pot s + isz i) ->
  (forall s, I s -> wt (p_close p s) <= pot s) ->
  forall l, Forall Q l -> wt (run_pass p l) <= wt l.
Proof.
  intros I0 P0 ST CL l F.
  assert (X : forall s, I s -> I (fst (feed p s l)) /\ wt (snd (feed p s l)) + pot (fst (feed p s l)) <= pot s + wt l).
  { induction F as [|i l H F IH]; intros s IS; cbn [feed fst snd wt]; [split; auto; lia|].
    destruct (ST s i IS H) as [I1 W1]. destruct (p_append p s i) as [s1 o1]. cbn [fst snd] in *.
    destruct (IH s1 I1) as [I2 W2]. destruct (feed p s1 l) as [s2 o2]. cbn [fst snd] in *. split; auto. rewrite wt_app. lia. }
  destruct (X (p_init p) I0) as [I1 W1]. unfold run_pass. destruct (feed p (p_init p) l) as [s o]. cbn [fst snd] in *.
  rewrite wt_app. specialize (CL s I1). lia.
Qed.

Lemma du_shrinks l : wt (run_pass designator_uniq l) <= wt l.
Proof.
  apply (shrinks designator_uniq (fun s => wt (du_pending s)) (fun _ => True) (fun _ => True)); auto.
  - intros s i _ _. split; auto. change (p_append designator_uniq) with du_append. unfold du_append.
    assert (A : wt (du_pending s ++ [i]) = wt (du_pending s) + isz i) by (rewrite wt_app; cbn [wt]; lia).
    destruct (ikd i); cbn [fst snd du_pending wt].
    1, 2: destruct (du_filter s); try lia; match goal with |- context [remove_nth ?n ?l] => pose proof (wt_remove n l) end; lia.
    destruct (ic i); cbn [fst snd du_pending wt]; lia.
  - intros s _. cbn. lia.
  - apply Forall_forall. auto.
Qed.

Lemma pm_shrinks l : wt (run_pass physical_merge l) <= wt l.
Proof.
  apply (shrinks physical_merge (fun s => wt (pm_pending s)) (fun _ => True) (fun _ => True)); auto.
  - intros s i _ _. split; auto. change (p_append physical_merge) with pm_append. unfold pm_append.
    destruct (ikd i); cbn [fst snd pm_pending wt]; rewrite wt_app; cbn [wt]; try lia.
    match goal with |- context [if ?b then _ else _] => destruct b end; [|lia].
    match goal with |- context [filter ?f ?x] => pose proof (wt_filter f x) end. lia.
  - apply Forall_forall. auto.
Qed.

Lemma gm_shrinks l : wt (run_pass global_merge l) <= wt l.
Proof.
  apply (shrinks global_merge (fun _ => 0) (fun _ => True) (fun _ => True)); auto.
  - intros s i _ _. split; auto. change (p_append global_merge) with gm_append. unfold gm_append.
    destruct (ikd i); cbn [fst snd wt]; try lia.
    match goal with |- context [if ?b then _ else _] => destruct b end; cbn [wt]; lia.
  - apply Forall_forall. auto.
Qed.

(* ------------------------------------------------------------------ *)
(** ranges *)

Definition outs_of (lk mn mx : icls) (x : item) : bool := negb (icls_eqb (ic x) lk || icls_eqb (ic x) mn || icls_eqb (ic x) mx).

Lemma isz_same i j : optional (ic i) = false -> optional (ic j) = false -> signed (ic i) = signed (ic j) -> ival i = ival j -> isz i = isz j.
Proof. intros A B C D. unfold isz, payload_width, empty_payload. rewrite A, B, C, D. reflexivity. Qed.

Lemma fam_unsigned lk c : single lk -> fam lk c = true -> signed c = false /\ optional c = false.
Proof. intros [-> | [-> | ->]]; unfold fam; destruct c; try discriminate; auto. Qed.

Lemma rebuild_wt db lk c i : constructed i -> single lk -> ic i = lk -> fam lk c = true -> wt (rebuild db c (iv i)) = isz i.
Proof.
  intros C S E F. destruct (rebuild_ok db lk c i C S E F) as [j [-> [J1 [J2 J3]]]]. cbn [wt].
  destruct (fam_unsigned lk c S F) as [A B].
  assert (F2 : fam lk (ic i) = true) by (rewrite E; unfold fam; rewrite icls_eqb_refl; reflexivity).
  destruct (fam_unsigned lk _ S F2) as [A2 B2].
  rewrite (isz_same j i) by (rewrite ?J1; congruence). lia.
Qed.

Lemma rm_shrinks db lk mn mx l :
  In (lk, mn, mx) [(Usage, UsageMinimum, UsageMaximum); (StringIndex, StringMinimum, StringMaximum); (DesignatorIndex, DesignatorMinimum, DesignatorMaximum)] ->
  Forall constructed l -> wt (run_pass (range_merge db lk mn mx) l) <= wt l.
Proof.
  intros IN.
  assert (S : single lk /\ mn = mn_of lk /\ mx = mx_of lk) by (destruct IN as [I|[I|[I|[]]]]; injection I as <- <- <-; unfold single; auto).
  destruct S as [S [-> ->]]. clear IN.
  set (O := outs_of lk (mn_of lk) (mx_of lk)).
  pose (I := fun s : rm_state => forall b, rm_max s = Some b -> exists ia ib, constructed ia /\ constructed ib /\ ic ia = lk /\ ic ib = lk /\
     rm_min s = Some (iv ia) /\ b = iv ib /\ (ival ia <= ival ib)%Z /\
     wt (filter O (rm_pending s)) + isz ia + (if (ival ia =? ival ib)%Z then 0 else isz ib) <= wt (rm_pending s)).
  assert (FL : forall s, I s -> wt (rm_flush db lk (mn_of lk) (mx_of lk) s) <= wt (rm_pending s)).
  { intros s IS. unfold rm_flush. destruct (rm_min s) as [a|] eqn:MA; [|lia]. destruct (rm_max s) as [b|] eqn:MB; [|lia].
    match goal with |- context [if ?c then _ else _] => destruct c end; [|lia].
    destruct (IS b MB) as [ia [ib [CA [CB [EA [EB [E1 [-> [LE W]]]]]]]]]. rewrite MA in E1. injection E1 as ->.
    change (fun x => negb (icls_eqb (ic x) lk || icls_eqb (ic x) (mn_of lk) || icls_eqb (ic x) (mx_of lk))) with O.
    assert (FA : forall c, fam lk c = true -> wt (rebuild db c (iv ia)) = isz ia) by (intros; apply (rebuild_wt db lk); auto).
    assert (FB : forall c, fam lk c = true -> wt (rebuild db c (iv ib)) = isz ib) by (intros; apply (rebuild_wt db lk); auto).
    assert (F1 : fam lk lk = true) by (unfold fam; rewrite icls_eqb_refl; reflexivity).
    assert (F2 : fam lk (mn_of lk) = true) by (unfold fam; rewrite icls_eqb_refl, orb_true_r; reflexivity).
    assert (F3 : fam lk (mx_of lk) = true) by (unfold fam; rewrite icls_eqb_refl, !orb_true_r; reflexivity).
    change (py_int (iv ia)) with (ival ia). change (py_int (iv ib)) with (ival ib).
    rewrite wt_app. destruct (ival ia =? ival ib)%Z; [rewrite FA by auto; lia|].
    destruct (1 <? ival ib - ival ia)%Z; rewrite wt_app, FA, FB by auto; lia. }
  assert (NOTE : forall s i, I s -> constructed i ->
     let s1 := rm_note lk (mn_of lk) (mx_of lk) s i in rm_pending s1 = rm_pending s /\
     I (RM (rm_merging s1) (rm_min s1) (rm_max s1) (rm_pending s1 ++ [i])) /\ (ikd i = Main -> s1 = s)).
  { intros s i IS CI. cbv zeta. unfold rm_note.
    assert (SAME : I (RM (rm_merging s) (rm_min s) (rm_max s) (rm_pending s ++ [i]))).
    { intros b E. cbn [rm_max] in E. destruct (IS b E) as [ia [ib H]]. exists ia, ib. decompose [and] H. cbn [rm_min rm_pending].
      rewrite filter_app, !wt_app. pose proof (wt_filter O [i]). repeat split; auto; lia. }
    destruct (rm_merging s && ikind_eqb (ikd i) Local) eqn:ML; [|auto].
    assert (NM : ikd i <> Main) by (intros E; rewrite E in ML; destruct (rm_merging s); discriminate).
    destruct (icls_eqb (ic i) (mn_of lk) || icls_eqb (ic i) (mx_of lk)); [split; [reflexivity|]; split; [exact SAME|contradiction]|].
    destruct (icls_eqb (ic i) lk) eqn:EL; [|split; [reflexivity|]; split; [exact SAME|contradiction]].
    apply icls_eqb_eq in EL.
    assert (OI : filter O [i] = []).
    { cbn [filter]. unfold O, outs_of. rewrite EL, icls_eqb_refl. reflexivity. }
    destruct (rm_max s) as [b|] eqn:MX.
    - destruct (ival i =? py_int b + 1)%Z eqn:Q; (split; [reflexivity|]; split; [|contradiction]).
      + intros b' E. cbn [rm_max] in E. injection E as <-. destruct (IS b MX) as [ia [ib [CA [CB [EA [EB [E1 [-> [LE W]]]]]]]]].
        exists ia, i. cbn [rm_min rm_pending]. change (py_int (iv ib)) with (ival ib) in Q.
        rewrite filter_app, !wt_app, OI. cbn [wt]. repeat split; auto; try lia.
        destruct (ival ia =? ival i)%Z, (ival ia =? ival ib)%Z; lia.
      + intros b' E. apply SAME. cbn [rm_max] in *. exact E.
    - split; [reflexivity|]. split; [|contradiction]. intros b' E. cbn [rm_max] in E. injection E as <-.
      exists i, i. cbn [rm_min rm_pending]. rewrite filter_app, !wt_app, OI, Z.eqb_refl. cbn [wt].
      pose proof (wt_filter O (rm_pending s)). repeat split; auto; lia. }
  apply (shrinks (range_merge db lk (mn_of lk) (mx_of lk)) (fun s => wt (rm_pending s)) I constructed).
  - intros b E. discriminate.
  - reflexivity.
  - intros s i IS CI. change (p_append (range_merge db lk (mn_of lk) (mx_of lk))) with (rm_append db lk (mn_of lk) (mx_of lk)).
    unfold rm_append. destruct (NOTE s i IS CI) as [N1 [N2 N3]].
    set (s1 := rm_note lk (mn_of lk) (mx_of lk) s i) in *.
    destruct (ikd i) eqn:K; cbn [fst snd rm_pending wt].
    + split; [intros b E; discriminate|]. rewrite N3 by auto. specialize (FL s IS). lia.
    + split; auto. rewrite N1, wt_app. cbn [wt]. lia.
    + split; auto. rewrite N1, wt_app. cbn [wt]. lia.
  - exact FL.
Qed.

(* ------------------------------------------------------------------ *)
(** usage pages *)

Definition tight (u : Z) : Prop := (65536 <= u < 2 ^ 32 /\ (u / 65536 < 256 \/ u mod 65536 < 256))%Z.
Definition tight_item (i : item) : Prop := constructed i /\ (usage_tag (ic i) = true -> tight (ival i)).

Lemma isz_unsigned i : optional (ic i) = false -> signed (ic i) = false ->
  isz i = S (if fitsb false 1 (ival i) then 1 else if fitsb false 2 (ival i) then 2 else 4).
Proof. intros A B. unfold isz, payload_width, empty_payload, width. rewrite A, B. reflexivity. Qed.

Lemma up_shrinks db l : Forall tight_item l -> wt (run_pass (usage_page_pass db) l) <= wt l.
Proof.
  apply (shrinks (usage_page_pass db) (fun _ => 0) (fun _ => True) tight_item); auto.
  intros s i _ [C T]. split; auto. change (p_append (usage_page_pass db)) with (up_append db).
  destruct (is_usage (ic i)) eqn:U.
  - destruct (up_usage db s i C U) as [pg [u [A1 [A2 [A3 [A4 [_ [_ ->]]]]]]]]. cbn [fst snd].
    rewrite usage_tag_is in T. destruct (T U) as [T1 T2]. rewrite wt_app. cbn [wt].
    assert (K : optional (ic i) = false /\ signed (ic i) = false) by (destruct (ic i); try discriminate U; auto). destruct K as [K1 K2].
    assert (P : wt (if new_page s (ival i / 65536) then [pg] else []) <= isz pg) by (destruct (new_page _ _); cbn [wt]; lia).
    rewrite (isz_unsigned pg) in P by (rewrite A1; reflexivity).
    rewrite (isz_unsigned u), (isz_unsigned i) by (rewrite ?A3; auto). rewrite A2 in P. rewrite A4.
    unfold fitsb in *. change (2 ^ (8 * Z.of_nat 1))%Z with 256%Z in *. change (2 ^ (8 * Z.of_nat 2))%Z with 65536%Z in *. change (2 ^ 32)%Z with 4294967296%Z in *.
    repeat match goal with |- context [if ?b then _ else _] => destruct b eqn:? | H : context [if ?b then _ else _] |- _ => destruct b eqn:? end; lia.
  - unfold up_append. rewrite U. cbn [fst snd wt]. lia.
Qed.

(* ------------------------------------------------------------------ *)
(** main items: every data item has a count of its own *)

Fixpoint counted (seen : bool) (l : list spec_item) : Prop :=
  match l with
  | [] => True
  | x :: r => if main_tag (fst x) then (data_tag (fst x) = true -> seen = true) /\ counted false r
              else counted (seen || icls_eqb (fst x) ReportCount) r
  end.

Definition rsz (n : Z) : nat := isz (rc_item n).
Definition norc (l : list item) : nat := wt (filter not_rc l).
Definition rcs (l : list item) : nat := wt l - norc l.

Lemma norc_le l : norc l <= wt l. Proof. apply wt_filter. Qed.
Lemma norc_app a b : norc (a ++ b) = norc a + norc b.
Proof. unfold norc. rewrite filter_app, wt_app. reflexivity. Qed.
Lemma rcs_app a b : rcs (a ++ b) = rcs a + rcs b.
Proof. unfold rcs. rewrite norc_app, wt_app. pose proof (norc_le a). pose proof (norc_le b). lia. Qed.
Lemma wt_split l : wt l = norc l + rcs l.
Proof. unfold rcs. pose proof (norc_le l). lia. Qed.

Lemma rsz_eq n : rsz n = S (if fitsb false 1 n then 1 else if fitsb false 2 n then 2 else 4).
Proof. unfold rsz. rewrite isz_unsigned; reflexivity. Qed.

Lemma rsz_sum a b : (0 <= a)%Z -> (0 <= b)%Z -> rsz (a + b) <= rsz a + rsz b.
Proof.
  intros A B. rewrite !rsz_eq. unfold fitsb. change (2 ^ (8 * Z.of_nat 1))%Z with 256%Z in *. change (2 ^ (8 * Z.of_nat 2))%Z with 65536%Z in *.
  repeat match goal with |- context [if ?b then _ else _] => destruct b eqn:? end; lia.
Qed.

Lemma rsz_item i : ic i = ReportCount -> isz i = rsz (ival i).
Proof. intros E. rewrite rsz_eq, isz_unsigned by (rewrite E; reflexivity). reflexivity. Qed.

Definition owed (seen : bool) (s : mm_state) : nat := if seen then rsz (mm_acount s) else 0.
Definition mpot (seen : bool) (s : mm_state) : nat :=
  norc (mm_before s) + norc (mm_after s) + wt (mm_mains s) +
  match mm_mains s with
  | [] => Nat.max (owed seen s) (rcs (mm_before s) + rcs (mm_after s))
  | _ => Nat.max (rsz (mm_bcount s)) (rcs (mm_before s)) + Nat.max (owed seen s) (rcs (mm_after s))
  end.
Definition mok (s : mm_state) : Prop :=
  (0 <= mm_bcount s)%Z /\ (0 <= mm_acount s)%Z /\ (mm_mains s = [] -> mm_bcount s = 0%Z).

Lemma flush_pot seen s : mok s -> mok (fst (mm_flush s)) /\ wt (snd (mm_flush s)) + mpot seen (fst (mm_flush s)) <= mpot seen s.
Proof.
  intros [M1 [M2 M3]]. unfold mm_flush, mpot, mok, owed. cbn [fst snd mm_before mm_mains mm_after mm_bcount mm_acount]. split; [repeat split; auto; lia|].
  rewrite wt_app. fold (norc (mm_before s)). change (norc []) with 0. change (rcs []) with 0. cbn [wt].
  destruct (mm_mains s) as [|m r]; cbn [wt]; [lia|]. fold (rsz (mm_bcount s)). lia.
Qed.

Lemma mm_step_pot seen s i : constructed i -> mok s ->
  (main_tag (ic i) = true -> data_tag (ic i) = true -> seen = true) ->
  let seen' := if main_tag (ic i) then false else seen || icls_eqb (ic i) ReportCount in
  mok (fst (mm_append s i)) /\ wt (snd (mm_append s i)) + mpot seen' (fst (mm_append s i)) <= mpot seen s + isz i.
Proof.
  intros C M SN. cbv zeta. unfold mm_append, ikd.
  assert (PUSH : forall sn p, mok (MM (mm_before s) (mm_mains s) (mm_after s ++ [i]) (mm_bcount s) (mm_acount s) p) /\
     (ic i <> ReportCount -> mpot sn (MM (mm_before s) (mm_mains s) (mm_after s ++ [i]) (mm_bcount s) (mm_acount s) p) <= mpot sn s + isz i)).
  { intros sn p. split; [exact M|]. intros NR. unfold mpot, owed. cbn [mm_before mm_mains mm_after mm_bcount mm_acount].
    rewrite !norc_app, !rcs_app.
    assert (Z0 : norc [i] = isz i /\ rcs [i] = 0).
    { unfold rcs, norc. cbn [filter]. unfold not_rc. rewrite (proj2 (icls_eqb_neq _ _) NR). cbn [negb wt]. lia. }
    destruct Z0 as [-> ->]. destruct (mm_mains s); lia. }
  destruct (kind_of (ic i)) eqn:K.
  - assert (MT : main_tag (ic i) = true) by (apply main_tag_kind; exact K). rewrite MT. specialize (SN MT).
    assert (NR : ic i <> ReportCount) by (intros E; rewrite E in K; discriminate).
    assert (FORGET : forall sn s, mpot false s <= mpot sn s).
    { intros sn s'. unfold mpot, owed. destruct sn, (mm_mains s'); lia. }
    destruct (is_data (ic i)) eqn:DI; cbn [negb].
    + rewrite data_tag_is in SN. specialize (SN DI). subst seen.
      assert (SS : exists s1 o1, match mm_mains s with
            | m :: _ => if item_eqb i m then (s, []) else mm_flush s | [] => (s, []) end = (s1, o1) /\
            mok s1 /\ wt o1 + mpot true s1 <= mpot true s).
      { pose proof (flush_pot true s M) as [F1 F2]. destruct (mm_mains s) as [|m r] eqn:MM0; [exists s, []; auto|].
        destruct (item_eqb i m); [exists s, []; auto|]. destruct (mm_flush s) as [s1 o1]. exists s1, o1. auto. }
      destruct SS as [s1 [o1 [-> [[M1 [M2 M3]] W1]]]]. set (s2 := MM _ _ _ _ _ _).
      assert (W2 : mok s2 /\ mpot false s2 <= mpot true s1 + isz i).
      { split; [repeat split; cbn [s2 mm_bcount mm_acount mm_mains]; try lia; destruct (mm_mains s1); discriminate|].
        unfold mpot, owed, s2. cbn [mm_before mm_mains mm_after mm_bcount mm_acount].
        rewrite norc_app, rcs_app, wt_app. change (norc []) with 0. change (rcs []) with 0. cbn [wt].
        pose proof (rsz_sum _ _ M1 M2). destruct (mm_mains s1) as [|m r]; cbn [app wt].
        - rewrite M3 by auto. cbn [Z.add]. lia.
        - lia. }
      destruct W2 as [M4 W2]. destruct (negb (mm_acount s1 =? 1)%Z); [|cbn [fst snd]; split; auto; lia].
      pose proof (flush_pot false s2 M4) as [F1 F2]. destruct (mm_flush s2) as [s3 o2]. cbn [fst snd] in *. split; auto.
      rewrite wt_app. lia.
    + destruct (PUSH seen (mm_props s)) as [P1 P2]. specialize (P2 NR).
      pose proof (flush_pot false _ P1) as [F1 F2].
      match type of F2 with context [mm_flush ?z] => pose proof (FORGET seen z) as F3; destruct (mm_flush z) as [s3 o2] end.
      cbn [fst snd] in *. split; auto. lia.
  - assert (MT : main_tag (ic i) = false).
    { destruct (main_tag (ic i)) eqn:E; auto. apply main_tag_kind in E. congruence. }
    rewrite MT. destruct (icls_eqb (ic i) ReportCount) eqn:RC.
    + apply icls_eqb_eq in RC. rewrite orb_true_r. rewrite RC. cbn [to_watch andb fst snd wt].
      assert (NN : (0 <= ival i)%Z) by (apply rc_nonneg; auto).
      destruct M as [M1 [M2 M3]]. split; [repeat split; auto|].
      unfold mpot, owed. cbn [mm_before mm_mains mm_after mm_bcount mm_acount].
      rewrite !norc_app, !rcs_app.
      assert (Z0 : norc [i] = 0 /\ rcs [i] = isz i).
      { unfold rcs, norc. cbn [filter]. unfold not_rc. rewrite RC, icls_eqb_refl. cbn [negb wt]. lia. }
      destruct Z0 as [-> ->]. rewrite (rsz_item i RC). destruct (mm_mains s), seen; lia.
    + rewrite orb_false_r. assert (NR : ic i <> ReportCount) by (apply icls_eqb_neq; auto).
      match goal with |- context [if ?b then ?x else ?y] =>
        assert (S1 : mok (fst (if b then x else y)) /\ wt (snd (if b then x else y)) + mpot seen (fst (if b then x else y)) <= mpot seen s + isz i) end.
      { match goal with |- context [if ?b then _ else _] => destruct b end.
        - destruct (PUSH seen (upd (mm_props s) (ic i) (ival i))) as [P1 P2]. specialize (P2 NR).
          pose proof (flush_pot seen _ P1) as [F1 F2]. split; auto. cbn [mm_before mm_mains mm_after mm_bcount mm_acount mm_props] in *. lia.
        - destruct (PUSH seen (mm_props s)) as [P1 P2]. cbn [fst snd wt]. split; auto. }
      match type of S1 with context [if ?b then ?x else ?y] => destruct (if b then x else y) as [s2 out] end.
      cbn [fst snd] in *. destruct (ic i); try (exact S1). contradiction.
  - assert (MT : main_tag (ic i) = false).
    { destruct (main_tag (ic i)) eqn:E; auto. apply main_tag_kind in E. congruence. }
    assert (NR : ic i <> ReportCount) by (intros E; rewrite E in K; discriminate).
    rewrite MT, (proj2 (icls_eqb_neq _ _) NR), orb_false_r. destruct (PUSH seen (mm_props s)) as [P1 P2].
    cbn [fst snd wt]. split; auto.
Qed.

Lemma mm_shrinks l : Forall constructed l -> counted false (map cv l) -> wt (run_pass main_merge l) <= wt l.
Proof.
  intros C N.
  assert (X : forall sn s, mok s -> counted sn (map cv l) -> exists sn',
      mok (fst (feed main_merge s l)) /\ wt (snd (feed main_merge s l)) + mpot sn' (fst (feed main_merge s l)) <= mpot sn s + wt l).
  { clear N. induction C as [|i l CI C IH]; intros sn s M N; cbn [feed fst snd wt].
    - exists sn. split; [exact M|]. lia.
    - change (p_append main_merge) with mm_append.
      assert (SN : main_tag (ic i) = true -> data_tag (ic i) = true -> sn = true).
      { intros A B. cbn [map counted cv fst] in N. rewrite A in N. tauto. }
      destruct (mm_step_pot sn s i CI M SN) as [M1 W1].
      assert (N2 : counted (if main_tag (ic i) then false else sn || icls_eqb (ic i) ReportCount) (map cv l)).
      { cbn [map counted cv fst] in N. destruct (main_tag (ic i)); tauto. }
      destruct (mm_append s i) as [s1 o1]. cbn [fst snd] in *.
      destruct (IH _ s1 M1 N2) as [sn' [M2 W2]]. destruct (feed main_merge s1 l) as [s2 o2]. cbn [fst snd] in *.
      exists sn'. split; auto. rewrite wt_app. lia. }
  destruct (X false mm_init) as [sn [M W]]; auto. { repeat split; cbn; lia. }
  unfold run_pass. change (p_init main_merge) with mm_init. destruct (feed main_merge mm_init l) as [s o]. cbn [fst snd] in *.
  change (p_close main_merge s) with (mm_close s). unfold mm_close. rewrite !wt_app.
  change (mpot false mm_init) with 0 in W. rewrite (wt_split (mm_before s)), (wt_split (mm_after s)).
  unfold mpot in W. destruct (mm_mains s); cbn [wt] in *; lia.
Qed.

(* ------------------------------------------------------------------ *)
(** all passes *)

Lemma du_prefix l : noz (map cv l) -> exists t, l = run_pass designator_uniq l ++ t.
Proof.
  intros N. destruct (du_keep _ N) as [_ E]. unfold run_pass. change (p_init designator_uniq) with (DU [] DNone).
  destruct (feed designator_uniq (DU [] DNone) l) as [s o]. cbn [fst snd] in E. change (p_close designator_uniq s) with (@nil item).
  exists (du_pending s). rewrite app_nil_r. auto.
Qed.

Lemma counted_app sn a b : counted sn (a ++ b) -> counted sn a.
Proof.
  revert sn. induction a as [|x a IH]; intros sn H; [exact I|]. cbn [app counted] in *. destruct (main_tag (fst x)); [|auto].
  destruct H. split; auto.
Qed.

Lemma rm_tight db lk mn mx l : In (lk, mn, mx) [(Usage, UsageMinimum, UsageMaximum); (StringIndex, StringMinimum, StringMaximum); (DesignatorIndex, DesignatorMinimum, DesignatorMaximum)] ->
  Forall tight_item l -> Forall tight_item (run_pass (range_merge db lk mn mx) l).
Proof.
  intros I. apply rm_each. intros i c [C U] E M.
  assert (S : single lk) by (destruct I as [I|[I|[I|[]]]]; injection I as <- <- <-; unfold single; auto).
  assert (F : fam lk c = true) by (destruct I as [I|[I|[I|[]]]]; injection I as <- <- <-; destruct M as [-> | [-> | ->]]; reflexivity).
  destruct (rebuild_ok db lk c i C S E F) as [j [-> [J1 [J2 J3]]]]. constructor; [|constructor].
  split; [exact J3|]. rewrite J1, J2.
  destruct I as [I|[I|[I|[]]]]; injection I as <- <- <-; rewrite E in *; destruct M as [-> | [-> | ->]];
    cbn [usage_tag] in *; auto; discriminate.
Qed.

Lemma tight_built l : Forall tight_item l -> Forall constructed l.
Proof. apply Forall_impl. intros i [C _]. exact C. Qed.

Lemma c43_items db l : Forall tight_item l -> noz (map cv l) -> counted false (map cv l) -> wt (optimize db l) <= wt l.
Proof.
  intros T N CO. rewrite optimize_all. cbn [passes map snd run_all fold_left].
  destruct (du_prefix l N) as [t E]. set (l0 := run_pass designator_uniq l) in *.
  assert (T0 : Forall tight_item l0) by (rewrite E in T; apply Forall_app in T; tauto).
  assert (C0 : counted false (map cv l0)) by (rewrite E, map_app in CO; eapply counted_app; exact CO).
  assert (W0 : wt l0 <= wt l) by (rewrite E, wt_app; lia).
  pose proof (mm_shrinks l0 (tight_built _ T0) C0) as W1.
  assert (T1 : Forall tight_item (run_pass main_merge l0)).
  { apply mm_each; auto.
    - intros n H. split; [apply rc_built; auto|discriminate].
    - intros i [C _]. apply rc_nonneg; auto. }
  set (l1 := run_pass main_merge l0) in *.
  pose proof (pm_shrinks l1) as W2. pose proof (pm_each tight_item l1 T1) as T2. set (l2 := run_pass physical_merge l1) in *.
  pose proof (gm_shrinks l2) as W3. pose proof (gm_each tight_item l2 T2) as T3. set (l3 := run_pass global_merge l2) in *.
  pose proof (rm_shrinks db StringIndex StringMinimum StringMaximum l3 ltac:(cbn [In]; auto) (tight_built _ T3)) as W4.
  pose proof (rm_tight db StringIndex StringMinimum StringMaximum l3 ltac:(cbn [In]; auto) T3) as T4.
  fold (string_merge db) in *. set (l4 := run_pass (string_merge db) l3) in *.
  pose proof (rm_shrinks db DesignatorIndex DesignatorMinimum DesignatorMaximum l4 ltac:(cbn [In]; auto) (tight_built _ T4)) as W5.
  pose proof (rm_tight db DesignatorIndex DesignatorMinimum DesignatorMaximum l4 ltac:(cbn [In]; auto) T4) as T5.
  fold (designator_merge db) in *. set (l5 := run_pass (designator_merge db) l4) in *.
  pose proof (rm_shrinks db Usage UsageMinimum UsageMaximum l5 ltac:(cbn [In]; auto) (tight_built _ T5)) as W6.
  pose proof (rm_tight db Usage UsageMinimum UsageMaximum l5 ltac:(cbn [In]; auto) T5) as T6.
  fold (usage_merge db) in *. set (l6 := run_pass (usage_merge db) l5) in *.
  pose proof (up_shrinks db l6 T6) as W7. lia.
Qed.

(* ------------------------------------------------------------------ *)
(** trees *)

Lemma counted_pass l sn : Forall (fun x => main_tag (fst x) = false) l -> exists sn',
  (sn = true -> sn' = true) /\ (In ReportCount (map fst l) -> sn' = true) /\ forall r, counted sn' r -> counted sn (l ++ r).
Proof.
  intros F. revert sn. induction F as [|x l H F IH]; intros sn.
  - exists sn. cbn. tauto.
  - destruct (IH (sn || icls_eqb (fst x) ReportCount)) as [sn' [A [B D]]]. exists sn'. split; [|split].
    + intros ->. auto.
    + intros [E|I]; auto. rewrite E in *. apply A. rewrite icls_eqb_refl, orb_true_r. reflexivity.
    + intros r R. cbn [app counted]. rewrite H. apply D. exact R.
Qed.

Lemma counted_more sn l : counted false l -> counted sn l.
Proof.
  revert sn. induction l as [|x l IH]; intros sn H; auto. cbn [counted] in *. destruct (main_tag (fst x)).
  - destruct H as [H1 H2]. split; auto. intros D. specialize (H1 D). discriminate.
  - destruct sn; auto. cbn [orb] in *. destruct (icls_eqb (fst x) ReportCount); auto.
Qed.

(** a run of items that ends with a main item that may be counted *)
Lemma counted_run l m r : Forall (fun x => main_tag (fst x) = false) l -> main_tag (fst m) = true ->
  (data_tag (fst m) = true -> In ReportCount (map fst l)) -> counted false r -> counted false (l ++ m :: r).
Proof.
  intros F M D R. destruct (counted_pass l false F) as [sn [_ [B E]]]. apply E. cbn [counted]. rewrite M. auto.
Qed.

Lemma pieces_counted r ls o r' : pieces r ls o r' -> counted false o.
Proof.
  intros P. induction P as [r|r id ls o r' _ IH|r x ls o o' r' P _ IH]; [exact I| |].
  - cbn [counted fst main_tag orb]. apply IH.
  - assert (MP : forall (A : Type) (f : A -> spec_item) l, (forall x, main_tag (fst (f x)) = false) -> Forall (fun x => main_tag (fst x) = false) (map f l)).
    { intros A f l H. apply Forall_map, Forall_forall. auto. }
    inversion P as [r0 k u|r0|r0 v p M D]; subst.
    + cbn [app counted fst main_tag orb icls_eqb]. split; [discriminate|exact IH].
    + cbn [app counted fst main_tag]. split; [discriminate|exact IH].
    + rewrite <- app_assoc.
      assert (W : main_tag (way_of v) = true) by (unfold way_of, way_class; destruct (_ =? 8)%Z; [reflexivity|]; destruct (_ =? 9)%Z; reflexivity).
      assert (PAD : forall q, counted false q -> counted false (pad_items (way_of v) p ++ q)).
      { intros q H. unfold pad_items. destruct (p =? 0)%Z; auto.
        apply (counted_run [(ReportCount, 1%Z); (ReportSize, p)] (way_of v, 3%Z)); [repeat constructor|exact W|intros _; left; reflexivity|exact H]. }
      apply PAD. unfold val_items. destruct (v_kind v); auto.
      assert (ENDS : forall pre q, Forall (fun x => main_tag (fst x) = false) pre -> counted false q -> counted false (pre ++ val_end v (way_of v) ++ q)).
      { intros pre q FP H. unfold val_end. cbn [app].
        replace (pre ++ (ReportCount, v_count v) :: (ReportSize, v_size v) :: (way_of v, py_int (v_flags v)) :: q)
          with ((pre ++ [(ReportCount, v_count v); (ReportSize, v_size v)]) ++ (way_of v, py_int (v_flags v)) :: q) by (rewrite <- app_assoc; reflexivity).
        apply counted_run; auto.
        - apply Forall_app. split; [auto|repeat constructor].
        - intros _. rewrite map_app. apply in_or_app. right. left. reflexivity. }
      assert (US : forall l, Forall (fun x => main_tag (fst x) = false) (us_items l)) by (intros l; apply MP; reflexivity).
      assert (MID : Forall (fun x => main_tag (fst x) = false) (val_mid v)).
      { unfold val_mid. repeat (apply Forall_app; split); try (apply MP; reflexivity). repeat constructor. }
      assert (PH : Forall (fun x => main_tag (fst x) = false) (phys_items v)).
      { unfold phys_items. destruct (is_array v); [repeat constructor|]. destruct (_ && _); repeat constructor. }
      destruct (is_constant (py_int (v_flags v))).
      { apply (ENDS []); auto. }
      rewrite <- !app_assoc. destruct (is_array v).
      * rewrite <- !app_assoc.
        assert (TAIL : forall l, counted false (map (fun _ : Z => (EndCollection, 0%Z)) l ++ o')).
        { induction l as [|z l IHl]; cbn [map app]; auto. cbn [counted fst main_tag]. split; [discriminate|exact IHl]. }
        destruct (usage_list (v_usage v)) as [|u1 us].
        -- cbn [us_items map app].
           rewrite (app_assoc (us_items _)), (app_assoc (phys_items v)). apply ENDS; auto. repeat (apply Forall_app; split); auto.
        -- rewrite (app_assoc (us_items (u1 :: us))). cbn [map app].
           apply counted_run; [apply Forall_app; split; auto|reflexivity|discriminate|].
           assert (COLS : forall l q, counted false q -> counted false (map (fun _ : Z => (Collection, 2%Z)) l ++ q)).
           { induction l as [|z l IHl]; intros q H; cbn [map app]; auto. cbn [counted fst main_tag]. split; [discriminate|auto]. }
           apply COLS. rewrite (app_assoc (us_items _)). apply ENDS; [apply Forall_app; auto|]. apply (TAIL (u1 :: us)).
      * cbn [app]. rewrite (app_assoc (phys_items v)), (app_assoc (us_items _)). apply ENDS; auto. repeat (apply Forall_app; split); auto.
Qed.

Lemma c43 db t b b0 : well_formed t -> compact_leaves (fst (threaded 0 t)) ->
  compile db true t = Ok b -> compile db false t = Ok b0 -> length b <= length b0.
Proof.
  intros WF CL H H0. unfold compile in H, H0. destruct (stream_items db t) as [l|] eqn:E; [|discriminate]. cbn [bind] in H, H0.
  rewrite (wt_serialize _ _ H), (wt_serialize _ _ H0). unfold stream_items in E.
  destruct (stream_tree db sst_init t) as [[st' o]|] eqn:ST; [|discriminate]. cbn [bind] in E. injection E as <-.
  pose proof (stream_pieces db t _ _ _ 0%Z WF ST) as P.
  assert (PG : paged_leaves (fst (threaded 0 t))).
  { eapply Forall_impl; [|exact CL]. intros x F. eapply Forall_impl; [|exact F]. cbn. lia. }
  destruct (pieces_extended _ _ _ _ P PG) as [X1 [X2 [X3 X4]]].
  apply c43_items.
  - pose proof (stream_constructed _ _ _ _ _ ST) as C. pose proof (serialize_range _ _ H0) as R.
    pose proof (pieces_items _ _ _ _ P) as F. rewrite Forall_map in F.
    apply Forall_forall. intros i I. rewrite Forall_forall in C, R, F. split; [auto|]. intros U.
    destruct (F i I) as [A [_ B]]. specialize (R i I).
    assert (TU : In (ival i) (flat_map leaf_usages (fst (threaded 0 t)))).
    { destruct (ic i) eqn:EC; try discriminate U; cbn [cv fst] in A; rewrite EC in A; try discriminate A. apply F; auto. }
    apply in_flat_map in TU. destruct TU as [x [I1 I2]]. unfold compact_leaves in CL. rewrite Forall_forall in CL.
    specialize (CL x I1). rewrite Forall_forall in CL. specialize (CL _ I2).
    assert (SG : signed (ic i) = false) by (destruct (ic i); try discriminate U; reflexivity).
    unfold in_range, fits in R. rewrite SG in R. unfold tight. cbn in R. lia.
  - eapply Forall_impl; [|exact X2]. cbn. tauto.
  - eapply pieces_counted. exact P.
Qed.
