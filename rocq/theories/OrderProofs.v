(* OrderProofs.v -- the order of global items changes neither the length nor
   the meaning of optimised output: C91. *)
From Coq Require Import ZifyBool Permutation.
From Verif Require Import Py Usage Item ItemFacts Optimizer OptFacts Idem Parser Converter HidSpec Spec ParserFacts CodecProofs
  RangeFacts RepeatSpec RepeatProofs OrderSpec.
Local Open Scope list_scope.
Local Open Scope Z_scope.

Definition trade (x y : item) : Prop :=
  kind_of (ic x) = Global /\ kind_of (ic y) = Global /\ ic x <> ic y /\
  ic x <> Push /\ ic x <> Pop /\ ic y <> Push /\ ic y <> Pop.

Lemma trade_sym x y : trade x y -> trade y x.
Proof. unfold trade. intuition congruence. Qed.

Inductive swaps : list item -> list item -> Prop :=
| sw_same : forall l, swaps l l
| sw_trade : forall a x y b l, trade x y -> swaps (a ++ y :: x :: b) l -> swaps (a ++ x :: y :: b) l.

Lemma swaps_one a x y b : trade x y -> swaps (a ++ x :: y :: b) (a ++ y :: x :: b).
Proof. intros T. apply sw_trade; [exact T|constructor]. Qed.

Lemma swaps_trans l1 l2 l3 : swaps l1 l2 -> swaps l2 l3 -> swaps l1 l3.
Proof. induction 1 as [|a x y b l T S IH]; [auto|]. intros H. apply sw_trade; [exact T|]. apply IH, H. Qed.

Lemma swaps_left p l l' : swaps l l' -> swaps (p ++ l) (p ++ l').
Proof.
  induction 1 as [|a x y b l T S IH]; [constructor|]. rewrite app_assoc. apply sw_trade; [exact T|].
  rewrite <- app_assoc. exact IH.
Qed.

Lemma swaps_right q l l' : swaps l l' -> swaps (l ++ q) (l' ++ q).
Proof.
  induction 1 as [|a x y b l T S IH]; [constructor|]. rewrite <- app_assoc in *. cbn [app] in *. apply sw_trade; assumption.
Qed.

Lemma swaps_app l l' q q' : swaps l l' -> swaps q q' -> swaps (l ++ q) (l' ++ q').
Proof. intros H K. eapply swaps_trans; [apply swaps_right, H|apply swaps_left, K]. Qed.

Lemma swaps_perm l l' : swaps l l' -> Permutation l l'.
Proof.
  induction 1 as [|a x y b l T S IH]; [reflexivity|]. rewrite <- IH. apply Permutation_app_head. constructor.
Qed.

Lemma swaps_filter f l l' : swaps l l' -> swaps (filter f l) (filter f l').
Proof.
  induction 1 as [|a x y b l T S IH]; [constructor|]. eapply swaps_trans; [|exact IH]. rewrite !filter_app. cbn [filter].
  destruct (f x), (f y); try apply sw_same. apply swaps_one, T.
Qed.

(** a pass respects the order when it does so for one exchange *)
Lemma swaps_pass (f : list item -> list item) :
  (forall a x y b, trade x y -> swaps (f (a ++ x :: y :: b)) (f (a ++ y :: x :: b))) ->
  forall l l', swaps l l' -> swaps (f l) (f l').
Proof. intros H l l'. induction 1 as [|a x y b l T S IH]; [constructor|]. eapply swaps_trans; [apply H, T|exact IH]. Qed.

(* --- the passes that work between main items -------------------------- *)

Lemma seg_swaps stop g cl x y : stop x = false -> stop y = false ->
  (forall u v, swaps (g (u ++ x :: y :: v)) (g (u ++ y :: x :: v))) ->
  (forall u v, swaps (cl (u ++ x :: y :: v)) (cl (u ++ y :: x :: v))) ->
  forall a acc b, swaps (seg_run stop g cl acc (a ++ x :: y :: b)) (seg_run stop g cl acc (a ++ y :: x :: b)).
Proof.
  intros SX SY G C. assert (K : forall b u v, swaps (seg_run stop g cl (u ++ x :: y :: v) b) (seg_run stop g cl (u ++ y :: x :: v) b)).
  { induction b as [|i b IH]; intros u v; cbn [seg_run]; [apply C|]. destruct (stop i).
    - apply swaps_right, G.
    - rewrite <- !app_assoc. cbn [app]. apply IH. }
  induction a as [|i a IH]; intros acc b; cbn [app seg_run].
  - rewrite SX, SY, <- !app_assoc. cbn [app]. apply (K b acc []).
  - destruct (stop i); [apply swaps_left; apply (swaps_left [i]), IH|apply IH].
Qed.

Lemma global_held x : kind_of (ic x) = Global -> is_main x = false.
Proof. intros G. unfold is_main, ikd. rewrite G. reflexivity. Qed.

(** PhysicalMerge *)
Lemma pm_ch_trade x y u v : trade x y -> forall c, pm_ch (u ++ x :: y :: v) c = pm_ch (u ++ y :: x :: v) c.
Proof.
  intros [_ [_ [D _]]] c. unfold pm_ch. rewrite !fold_left_app. cbn [fold_left].
  assert (E : forall f f', (forall c, f c = f' c) -> fold_left pm_next v f c = fold_left pm_next v f' c).
  { induction v as [|i v IH]; intros f f' E; [apply E|]. cbn [fold_left]. apply IH. intros c'. unfold pm_next, upd.
    destruct (_ || _); [|apply E]. destruct (icls_eqb c' (ic i)); [reflexivity|apply E]. }
  apply E. intros c'. unfold pm_next, upd. destruct (is_phys (ic x) || is_log (ic x)), (is_phys (ic y) || is_log (ic y)); try reflexivity.
  destruct (icls_eqb c' (ic y)) eqn:Y, (icls_eqb c' (ic x)) eqn:X; try reflexivity.
  apply icls_eqb_eq in X, Y. congruence.
Qed.

Lemma pm_swaps l l' : swaps l l' -> swaps (run_pass physical_merge l) (run_pass physical_merge l').
Proof.
  apply swaps_pass. intros a x y b T. rewrite !pq_run. unfold pq. pose proof T as [GX [GY _]].
  apply seg_swaps; [apply global_held, GX|apply global_held, GY| |intros u v; apply swaps_one, T].
  intros u v. unfold pm_g. rewrite !(pm_ch_trade x y u v T). destruct (_ && _); [|apply swaps_one, T].
  apply swaps_filter, swaps_one, T.
Qed.

(** GlobalMerge *)
Lemma gm_swaps l l' : swaps l l' -> swaps (run_pass global_merge l) (run_pass global_merge l').
Proof.
  apply swaps_pass. intros a x y b T. pose proof T as [GX [GY [D _]]].
  assert (R : forall l, run_pass global_merge l = snd (feed global_merge gm_init l)).
  { intros k. unfold run_pass. change (p_init global_merge) with gm_init. destruct (feed global_merge gm_init k). apply app_nil_r. }
  rewrite !R, !feed_app. cbn [snd]. apply swaps_left. set (g := fst (feed global_merge gm_init a)). clearbody g.
  cbn [feed]. change (p_append global_merge) with gm_append. unfold gm_append. unfold ikd at 1 3. rewrite GX, GY.
  unfold ikd. rewrite GX, GY. cbn [fst snd].
  assert (DX : icls_eqb (ic y) (ic x) = false) by (destruct (icls_eqb (ic y) (ic x)) eqn:E; [apply icls_eqb_eq in E; congruence|reflexivity]).
  assert (DY : icls_eqb (ic x) (ic y) = false) by (destruct (icls_eqb (ic x) (ic y)) eqn:E; [apply icls_eqb_eq in E; congruence|reflexivity]).
  assert (UX : upd g (ic x) (Some x) (ic y) = g (ic y)) by (unfold upd; rewrite DX; reflexivity).
  assert (UY : upd g (ic y) (Some y) (ic x) = g (ic x)) by (unfold upd; rewrite DY; reflexivity).
  rewrite UX, UY.
  set (kx := _ || icls_eqb (ic x) Pop). set (ky := _ || icls_eqb (ic y) Pop). clearbody kx ky.
  pose proof (like_feed b (upd (upd g (ic x) (Some x)) (ic y) (Some y)) (upd (upd g (ic y) (Some y)) (ic x) (Some x))) as L.
  destruct (feed global_merge (upd (upd g (ic x) (Some x)) (ic y) (Some y)) b) as [s1 o1].
  destruct (feed global_merge (upd (upd g (ic y) (Some y)) (ic x) (Some x)) b) as [s2 o2]. cbn [snd] in *.
  rewrite L.
  - destruct kx, ky; cbn [app]; try apply sw_same. apply (swaps_one []), T.
  - intros c. unfold upd. destruct (icls_eqb c (ic y)) eqn:Y, (icls_eqb c (ic x)) eqn:X; auto; [|destruct (g c); auto].
    apply icls_eqb_eq in X, Y. congruence.
Qed.

(** RangeMerge *)
Section Range.
Variables (db : udb) (lk mn mx : icls).
Hypothesis Fam : family lk mn mx.

Lemma note_global s i : kind_of (ic i) = Global -> rm_note lk mn mx s i = s.
Proof. intros G. unfold rm_note, ikd. rewrite G. destruct (rm_merging s); reflexivity. Qed.

Lemma rm_swaps l l' : swaps l l' -> swaps (run_pass (range_merge db lk mn mx) l) (run_pass (range_merge db lk mn mx) l').
Proof.
  assert (E : forall l, run_pass (range_merge db lk mn mx) l = seg_run is_main (rm_g db lk mn mx) (rm_g db lk mn mx) [] l)
    by (intros k; exact (rm_feed db lk mn mx Fam k [] [] (Forall_nil _) (Forall_nil _))).
  apply swaps_pass. intros a x y b T. rewrite !E. pose proof T as [GX [GY _]].
  assert (G : forall u v, swaps (rm_g db lk mn mx (u ++ x :: y :: v)) (rm_g db lk mn mx (u ++ y :: x :: v))).
  { intros u v. unfold rm_g.
    assert (S : rm_merging (rm_st lk mn mx (u ++ x :: y :: v)) = rm_merging (rm_st lk mn mx (u ++ y :: x :: v)) /\
                rm_min (rm_st lk mn mx (u ++ x :: y :: v)) = rm_min (rm_st lk mn mx (u ++ y :: x :: v)) /\
                rm_max (rm_st lk mn mx (u ++ x :: y :: v)) = rm_max (rm_st lk mn mx (u ++ y :: x :: v))).
    { unfold rm_st. rewrite !fold_left_app. cbn [fold_left].
      assert (K : forall s s', rm_merging s = rm_merging s' /\ rm_min s = rm_min s' /\ rm_max s = rm_max s' ->
        rm_merging (fold_left (rm_snoc lk mn mx) v s) = rm_merging (fold_left (rm_snoc lk mn mx) v s') /\
        rm_min (fold_left (rm_snoc lk mn mx) v s) = rm_min (fold_left (rm_snoc lk mn mx) v s') /\
        rm_max (fold_left (rm_snoc lk mn mx) v s) = rm_max (fold_left (rm_snoc lk mn mx) v s')).
      { induction v as [|i v IH]; intros s s' H; [exact H|]. cbn [fold_left]. apply IH. destruct H as [H1 [H2 H3]].
        unfold rm_snoc, rm_note. rewrite H1, H2, H3.
        destruct (rm_merging s' && _); [|cbn; auto]. destruct (icls_eqb (ic i) mn || _); [cbn; auto|].
        destruct (icls_eqb (ic i) lk); [|cbn; auto]. destruct (rm_max s'); [|cbn; auto]. destruct (_ =? _); cbn; auto. }
      apply K. unfold rm_snoc. rewrite !note_global by assumption. cbn. auto. }
    destruct S as [S1 [S2 S3]]. unfold rm_flush. rewrite S1, S2, S3, !rm_st_pending.
    clear S1 S2 S3. set (t := rm_st lk mn mx (u ++ y :: x :: v)). clearbody t.
    destruct (rm_min t); [|apply swaps_one, T]. destruct (rm_max t); [|apply swaps_one, T].
    destruct (truthy _ && _ && _); [|apply swaps_one, T]. apply swaps_right, swaps_filter, swaps_one, T. }
  apply seg_swaps; [apply global_held, GX|apply global_held, GY|exact G|exact G].
Qed.
End Range.

(** UsagePage *)
Lemma up_global db page i : kind_of (ic i) = Global ->
  up_append db page i = (match ic i with UsagePage => Some (ival i) | _ => page end, [i]).
Proof. intros G. unfold up_append. destruct (ic i); try reflexivity; discriminate G. Qed.

Lemma up_swaps db l l' : swaps l l' -> swaps (run_pass (usage_page_pass db) l) (run_pass (usage_page_pass db) l').
Proof.
  apply swaps_pass. intros a x y b T. pose proof T as [GX [GY [D _]]].
  assert (R : forall l, run_pass (usage_page_pass db) l = snd (feed (usage_page_pass db) None l)).
  { intros k. unfold run_pass. change (p_init (usage_page_pass db)) with (@None Z). destruct (feed (usage_page_pass db) None k). apply app_nil_r. }
  rewrite !R, !feed_app. cbn [snd]. apply swaps_left. set (p := fst (feed (usage_page_pass db) None a)). clearbody p.
  change (p_state (usage_page_pass db)) with (option Z) in p.
  cbn [feed]. change (p_append (usage_page_pass db)) with (up_append db). rewrite !up_global by assumption.
  assert (E : match ic y with UsagePage => Some (ival y) | _ => match ic x with UsagePage => Some (ival x) | _ => p end end =
              match ic x with UsagePage => Some (ival x) | _ => match ic y with UsagePage => Some (ival y) | _ => p end end).
  { destruct (ic x); destruct (ic y); try reflexivity. congruence. }
  rewrite E. destruct (feed (usage_page_pass db) _ b) as [s o]. cbn [snd app]. apply (swaps_one []), T.
Qed.

(** DesignatorUniq *)
Lemma du_trade a : exists pre, forall x y b, kind_of (ic x) = Global -> kind_of (ic y) = Global ->
  run_pass designator_uniq (a ++ x :: y :: b) = pre ++ x :: y :: run_pass designator_uniq b.
Proof.
  destruct (seg_until du_stop du_g (fun _ => []) a []) as [pre [acc H]]. exists (pre ++ du_g acc). intros x y b GX GY.
  rewrite !uq_run. unfold uq. rewrite H. cbn [seg_run].
  assert (SX : du_stop x = true) by (unfold du_stop, ikd; rewrite GX; reflexivity).
  assert (SY : du_stop y = true) by (unfold du_stop, ikd; rewrite GY; reflexivity).
  rewrite SX, SY. rewrite <- app_assoc. reflexivity.
Qed.

(* --- MainMerge --------------------------------------------------------- *)

(** states that differ in the order of what they hold *)
Definition near (s s' : mm_state) : Prop :=
  swaps (mm_before s) (mm_before s') /\ swaps (mm_after s) (mm_after s') /\ mm_mains s' = mm_mains s /\
  mm_bcount s' = mm_bcount s /\ mm_acount s' = mm_acount s /\ forall c, mm_props s' c = mm_props s c.

Definition both_near (r r' : mm_state * list item) : Prop := near (fst r) (fst r') /\ swaps (snd r) (snd r').

Lemma near_same s : near s s.
Proof. unfold near. repeat split; constructor. Qed.

Lemma near_stay s s' : near s s' -> both_near (stay s) (stay s').
Proof. intros N. split; [exact N|constructor]. Qed.

Lemma near_flush s s' : near s s' -> both_near (mm_flush s) (mm_flush s').
Proof.
  intros [B [A [M [C1 [C2 P]]]]]. unfold mm_flush, both_near, near. cbn [fst snd mm_before mm_after mm_mains mm_bcount mm_acount mm_props].
  rewrite M, C1, C2. repeat (split; [try reflexivity; try exact A; try apply sw_same|]); [exact P|].
  apply swaps_right, swaps_filter, B.
Qed.

Lemma near_then r r' f : both_near r r' -> (forall s s', near s s' -> both_near (f s) (f s')) -> both_near (andthen r f) (andthen r' f).
Proof.
  intros [N S] H. destruct (H _ _ N) as [N2 S2]. split; [exact N2|]. unfold andthen. cbn [snd]. apply swaps_app; assumption.
Qed.

Lemma near_push s s' i : near s s' -> near (push s i) (push s' i).
Proof. intros [B [A R]]. split; [exact B|]. split; [apply swaps_right, A|exact R]. Qed.

Lemma near_note s s' i : near s s' -> near (note s i) (note s' i).
Proof.
  intros [B [A [M [C1 [C2 P]]]]]. unfold near, note. cbn [mm_before mm_after mm_mains mm_bcount mm_acount mm_props].
  repeat (split; [assumption|]). intros c. unfold upd. destruct (icls_eqb c (ic i)); [reflexivity|apply P].
Qed.

Lemma near_tally s s' i : near s s' -> near (tally s i) (tally s' i).
Proof.
  intros N. unfold tally. destruct (ic i); try exact N. destruct N as [B [A [M [C1 [C2 P]]]]].
  unfold near. cbn [mm_before mm_after mm_mains mm_bcount mm_acount mm_props]. repeat (split; [assumption || reflexivity|]). exact P.
Qed.

Lemma near_take s s' i : near s s' -> near (take s i) (take s' i).
Proof.
  intros [B [A [M [C1 [C2 P]]]]]. unfold near, take. cbn [mm_before mm_after mm_mains mm_bcount mm_acount mm_props].
  rewrite M, C1, C2. split; [apply swaps_app; assumption|]. split; [constructor|]. repeat (split; [reflexivity|]). exact P.
Qed.

Lemma near_append s s' i : near s s' -> both_near (mm_append s i) (mm_append s' i).
Proof.
  intros N. rewrite !append_steps. pose proof N as [_ [_ [M [_ [_ P]]]]]. rewrite M, P. destruct (kind_of (ic i)).
  - destruct (negb (is_data (ic i))); [apply near_flush, near_push, N|]. apply near_then.
    + destruct (mm_mains s) as [|m ms]; [apply near_stay, N|]. destruct (item_eqb i m); [apply near_stay, N|apply near_flush, N].
    + intros t t' T. pose proof T as [_ [_ [_ [_ [E _]]]]]. rewrite E.
      destruct (negb (mm_acount t =? 1)); [apply near_flush, near_take, T|apply near_stay, near_take, T].
  - apply near_then; [destruct (_ && _); [apply near_flush, near_note, near_push, N|apply near_stay, near_push, N]|].
    intros t t' T. apply near_stay, near_tally, T.
  - apply near_stay, near_push, N.
Qed.

Lemma near_run l : forall s s', near s s' -> swaps (mrun s l) (mrun s' l).
Proof.
  induction l as [|i l IH]; intros s s' N.
  - unfold mrun. cbn [feed fst snd app]. unfold mm_close. destruct N as [B [A [M _]]]. rewrite M.
    apply swaps_app; [exact B|]. apply swaps_left, A.
  - rewrite !mrun_cons. destruct (near_append s s' i N) as [N2 S]. apply swaps_app; [exact S|]. apply IH, N2.
Qed.

(** what is first in before comes first *)
Definition lead (w : list item) (s : mm_state) : mm_state :=
  MM (w ++ mm_before s) (mm_mains s) (mm_after s) (mm_bcount s) (mm_acount s) (mm_props s).

Definition leads (w : list item) (r r' : mm_state * list item) : Prop :=
  (fst r' = lead w (fst r) /\ snd r' = [] /\ snd r = []) \/ (fst r' = fst r /\ snd r' = w ++ snd r).

Section Lead.
Variable w : list item.
Hypothesis NR : filter not_rc w = w.

Lemma leads_stay s : leads w (stay s) (stay (lead w s)).
Proof. left. repeat split; reflexivity. Qed.

Lemma leads_flush s : leads w (mm_flush s) (mm_flush (lead w s)).
Proof.
  right. unfold mm_flush, lead. cbn [fst snd mm_before mm_after mm_mains mm_bcount mm_acount mm_props].
  split; [reflexivity|]. rewrite filter_app, NR, <- app_assoc. reflexivity.
Qed.

Lemma leads_then r r' f : leads w r r' -> (forall s, leads w (f s) (f (lead w s))) -> leads w (andthen r f) (andthen r' f).
Proof.
  intros [[E1 [E2 E3]]|[E1 E2]] H; unfold andthen, leads; cbn [fst snd]; rewrite E1, E2.
  - rewrite E3. cbn [app]. exact (H (fst r)).
  - right. rewrite <- app_assoc. split; reflexivity.
Qed.

Lemma leads_append s i : leads w (mm_append s i) (mm_append (lead w s) i).
Proof.
  rewrite !append_steps. change (mm_mains (lead w s)) with (mm_mains s). change (mm_props (lead w s)) with (mm_props s).
  assert (LP : forall s, push (lead w s) i = lead w (push s i)) by reflexivity.
  assert (LN : forall s, note (lead w s) i = lead w (note s i)) by reflexivity.
  assert (LT : forall s, tally (lead w s) i = lead w (tally s i)) by (intros t; unfold tally; destruct (ic i); reflexivity).
  assert (LK : forall s, take (lead w s) i = lead w (take s i))
    by (intros t; unfold take, lead; cbn [mm_before mm_after mm_mains mm_bcount mm_acount mm_props]; rewrite <- app_assoc; reflexivity).
  rewrite LP, LN. destruct (kind_of (ic i)).
  - destruct (negb (is_data (ic i))); [apply leads_flush|]. apply leads_then.
    + destruct (mm_mains s) as [|m ms]; [apply leads_stay|]. destruct (item_eqb i m); [apply leads_stay|apply leads_flush].
    + intros t. rewrite LK. change (mm_acount (lead w t)) with (mm_acount t).
      destruct (negb (mm_acount t =? 1)); [apply leads_flush|apply leads_stay].
  - apply leads_then; [destruct (_ && _); [apply leads_flush|apply leads_stay]|]. intros t. rewrite LT. apply leads_stay.
  - apply leads_stay.
Qed.

Lemma lead_run l : forall s, mrun (lead w s) l = w ++ mrun s l.
Proof.
  induction l as [|i l IH]; intros s.
  - unfold mrun. cbn [feed fst snd app]. unfold mm_close, lead. cbn [mm_before mm_after mm_mains]. rewrite <- app_assoc. reflexivity.
  - rewrite !mrun_cons. destruct (leads_append s i) as [[E1 [E2 E3]]|[E1 E2]]; rewrite E1, E2.
    + rewrite E3. cbn [app]. apply IH.
    + rewrite <- app_assoc. reflexivity.
Qed.

(** without a main item held, it does not matter where after begins *)
Definition late (s : mm_state) : mm_state :=
  MM (mm_before s) (mm_mains s) (w ++ mm_after s) (mm_bcount s) (mm_acount s) (mm_props s).
Definition early (s : mm_state) : mm_state :=
  MM (mm_before s ++ w) (mm_mains s) (mm_after s) (mm_bcount s) (mm_acount s) (mm_props s).

Lemma early_run l : forall s, mm_mains s = [] -> mrun (late s) l = mrun (early s) l.
Proof.
  assert (F : forall s, fst (mm_flush (late s)) = lead w (fst (mm_flush (early s))) /\
      (mm_mains s = [] -> snd (mm_flush (early s)) = snd (mm_flush (late s)) ++ w)).
  { intros s. unfold mm_flush, late, early, lead. cbn [fst snd mm_before mm_after mm_mains mm_bcount mm_acount mm_props].
    split; [reflexivity|]. intros ->. rewrite filter_app, NR, !app_nil_r. reflexivity. }
  induction l as [|i l IH]; intros s E.
  - unfold mrun. cbn [feed fst snd app]. unfold mm_close, late, early. cbn [mm_before mm_after mm_mains]. rewrite E. cbn [app].
    rewrite app_assoc. reflexivity.
  - rewrite !mrun_cons, !append_steps. change (mm_mains (late s)) with (mm_mains s). change (mm_mains (early s)) with (mm_mains s).
    change (mm_props (late s)) with (mm_props s). change (mm_props (early s)) with (mm_props s).
    assert (PL : push (late s) i = late (push s i))
      by (unfold push, late; cbn [mm_before mm_after mm_mains mm_bcount mm_acount mm_props]; rewrite <- app_assoc; reflexivity).
    assert (PE : push (early s) i = early (push s i)) by reflexivity.
    rewrite PL, PE, E. destruct (kind_of (ic i)).
    + destruct (negb (is_data (ic i))).
      * destruct (F (push s i)) as [F1 F2]. rewrite F1, lead_run, F2 by exact E. rewrite app_assoc. reflexivity.
      * unfold andthen, stay. cbn [fst snd app]. change (mm_acount (early s)) with (mm_acount s). change (mm_acount (late s)) with (mm_acount s).
        assert (T : take (late s) i = take (early s) i)
          by (unfold take, late, early; cbn [mm_before mm_after mm_mains mm_bcount mm_acount mm_props]; rewrite <- app_assoc; reflexivity).
        rewrite T. reflexivity.
    + unfold andthen, stay. cbn [fst snd]. rewrite !app_nil_r. destruct (_ && _).
      * change (note (late (push s i)) i) with (late (note (push s i) i)). change (note (early (push s i)) i) with (early (note (push s i) i)).
        destruct (F (note (push s i) i)) as [F1 F2]. rewrite F1, F2 by exact E.
        assert (LT : forall s, tally (lead w s) i = lead w (tally s i)) by (intros t; unfold tally; destruct (ic i); reflexivity).
        rewrite LT, lead_run, app_assoc. reflexivity.
      * cbn [fst snd app].
        assert (TL : tally (late (push s i)) i = late (tally (push s i) i)) by (unfold tally; destruct (ic i); reflexivity).
        assert (TE : tally (early (push s i)) i = early (tally (push s i) i)) by (unfold tally; destruct (ic i); reflexivity).
        rewrite TL, TE. apply IH. unfold tally. destruct (ic i); exact E.
    + unfold stay. cbn [fst snd app]. apply IH. exact E.
Qed.
End Lead.

Definition stirs (s : mm_state) (i : item) : bool := to_watch (ic i) && negb (mm_props s (ic i) =? ival i).

Lemma append_global s i : kind_of (ic i) = Global -> ic i <> ReportCount ->
  mm_append s i = if stirs s i then mm_flush (note (push s i) i) else stay (push s i).
Proof.
  intros G N. rewrite append_steps, G. unfold stirs. unfold andthen, stay. cbn [fst snd].
  assert (T : forall s, tally s i = s) by (intros t; unfold tally; destruct (ic i); try reflexivity; contradiction).
  rewrite T, app_nil_r. destruct (_ && _); [|reflexivity]. destruct (mm_flush (note (push s i) i)). reflexivity.
Qed.

Lemma mm_trade s x y b : trade x y -> ic x <> ReportCount -> ic y <> ReportCount -> swaps (mrun s (x :: y :: b)) (mrun s (y :: x :: b)).
Proof.
  intros T NX NY. pose proof T as [GX [GY [D _]]].
  assert (RX : filter not_rc [x] = [x]) by (cbn [filter]; unfold not_rc; destruct (ic x); try reflexivity; contradiction).
  assert (RY : filter not_rc [y] = [y]) by (cbn [filter]; unfold not_rc; destruct (ic y); try reflexivity; contradiction).
  assert (DX : icls_eqb (ic y) (ic x) = false) by (destruct (icls_eqb (ic y) (ic x)) eqn:E; [apply icls_eqb_eq in E; congruence|reflexivity]).
  assert (DY : icls_eqb (ic x) (ic y) = false) by (destruct (icls_eqb (ic x) (ic y)) eqn:E; [apply icls_eqb_eq in E; congruence|reflexivity]).
  rewrite !mrun_cons, !append_global by assumption.
  destruct (stirs s x) eqn:SX, (stirs s y) eqn:SY.
  - (* both *)
    assert (S1 : stirs (fst (mm_flush (note (push s x) x))) y = true)
      by (unfold stirs, mm_flush, note, push, upd in *; cbn [fst mm_props]; rewrite DX; exact SY).
    assert (S2 : stirs (fst (mm_flush (note (push s y) y))) x = true)
      by (unfold stirs, mm_flush, note, push, upd in *; cbn [fst mm_props]; rewrite DY; exact SX).
    rewrite S1, S2. unfold mm_flush, note, push. cbn [fst snd mm_before mm_after mm_mains mm_bcount mm_acount mm_props app].
    apply swaps_left. rewrite !app_nil_r.
    set (c := MM [] [] [] 0 (mm_acount s) (upd (upd (mm_props s) (ic x) (ival x)) (ic y) (ival y))).
    set (c' := MM [] [] [] 0 (mm_acount s) (upd (upd (mm_props s) (ic y) (ival y)) (ic x) (ival x))).
    change (MM [y] [] [] 0 (mm_acount s) (upd (upd (mm_props s) (ic x) (ival x)) (ic y) (ival y))) with (lead [y] c).
    change (MM [x] [] [] 0 (mm_acount s) (upd (upd (mm_props s) (ic y) (ival y)) (ic x) (ival x))) with (lead [x] c').
    rewrite !lead_run by assumption. rewrite !filter_app, RX, RY, <- !app_assoc. cbn [app].
    eapply swaps_trans; [apply swaps_one, T|]. apply swaps_left. apply (swaps_left [y; x]). apply near_run.
    unfold near, c, c'. cbn [mm_before mm_after mm_mains mm_bcount mm_acount mm_props]. repeat (split; [apply sw_same || reflexivity|]).
    intros k. unfold upd. destruct (icls_eqb k (ic x)) eqn:X, (icls_eqb k (ic y)) eqn:Y; try reflexivity.
    apply icls_eqb_eq in X, Y. congruence.
  - (* x only *)
    assert (S1 : stirs (fst (mm_flush (note (push s x) x))) y = false)
      by (unfold stirs, mm_flush, note, push, upd in *; cbn [fst mm_props]; rewrite DX; exact SY).
    change (fst (stay (push s y))) with (push s y). change (snd (stay (push s y))) with (@nil item). change (stirs (push s y) x) with (stirs s x). rewrite S1, SX. unfold stay. cbn [fst snd app].
    unfold mm_flush, note, push. cbn [fst snd mm_before mm_after mm_mains mm_bcount mm_acount mm_props app].
    apply swaps_left.
    set (c := MM (mm_after s ++ [x]) [] [] 0 (mm_acount s) (upd (mm_props s) (ic x) (ival x))).
    change (MM (mm_after s ++ [x]) [] [y] 0 (mm_acount s) (upd (mm_props s) (ic x) (ival x))) with (late [y] c).
    rewrite (early_run [y] RY) by reflexivity. apply near_run. unfold near, early, c. cbn [mm_before mm_after mm_mains mm_bcount mm_acount mm_props].
    rewrite <- !app_assoc. cbn [app]. split; [apply swaps_one, T|]. repeat (split; [apply sw_same || reflexivity|]). reflexivity.
  - (* y only *)
    assert (S1 : stirs (fst (mm_flush (note (push s y) y))) x = false)
      by (unfold stirs, mm_flush, note, push, upd in *; cbn [fst mm_props]; rewrite DY; exact SX).
    change (fst (stay (push s x))) with (push s x). change (snd (stay (push s x))) with (@nil item). change (stirs (push s x) y) with (stirs s y). rewrite S1, SY. unfold stay. cbn [fst snd app].
    unfold mm_flush, note, push. cbn [fst snd mm_before mm_after mm_mains mm_bcount mm_acount mm_props app].
    apply swaps_left.
    set (c := MM (mm_after s ++ [y]) [] [] 0 (mm_acount s) (upd (mm_props s) (ic y) (ival y))).
    change (MM (mm_after s ++ [y]) [] [x] 0 (mm_acount s) (upd (mm_props s) (ic y) (ival y))) with (late [x] c).
    rewrite (early_run [x] RX) by reflexivity. apply near_run. unfold near, early, c. cbn [mm_before mm_after mm_mains mm_bcount mm_acount mm_props].
    rewrite <- !app_assoc. cbn [app]. split; [apply swaps_one, T|]. repeat (split; [apply sw_same || reflexivity|]). reflexivity.
  - change (fst (stay (push s y))) with (push s y). change (snd (stay (push s y))) with (@nil item). change (fst (stay (push s x))) with (push s x). change (snd (stay (push s x))) with (@nil item). change (stirs (push s y) x) with (stirs s x). change (stirs (push s x) y) with (stirs s y). rewrite SX, SY.
    unfold stay. cbn [fst snd app]. apply near_run. unfold near, push. cbn [mm_before mm_after mm_mains mm_bcount mm_acount mm_props].
    split; [constructor|]. rewrite <- !app_assoc. split; [apply swaps_one, T|]. repeat (split; [reflexivity|]). reflexivity.
Qed.

Lemma mm_count_trade s x y b : trade x y -> ic x = ReportCount -> open_i b -> mrun s (x :: y :: b) = mrun s (y :: x :: b).
Proof.
  intros T RC O. pose proof T as [GX [GY [D _]]]. assert (NY : ic y <> ReportCount) by congruence.
  assert (S : forall s, mm_append s x = stay (tally (push s x) x)).
  { intros t. rewrite append_steps, RC. cbn [kind_of to_watch andb]. unfold andthen, stay. cbn [fst snd app]. reflexivity. }
  rewrite !mrun_cons, !S, !append_global by assumption. unfold stay at 1 2 6 7. cbn [fst snd app].
  assert (TX : forall s, tally s x = MM (mm_before s) (mm_mains s) (mm_after s) (mm_bcount s) (ival x) (mm_props s))
    by (intros t; unfold tally; rewrite RC; reflexivity).
  rewrite !TX. change (stirs (MM _ _ _ _ _ (mm_props (push s x))) y) with (stirs s y).
  change (stirs (MM ?a ?m ?c ?d ?e (mm_props (push s x))) y) with (stirs s y).
  destruct (stirs s y).
  - unfold mm_flush, note, push. cbn [fst snd mm_before mm_after mm_mains mm_bcount mm_acount mm_props app]. f_equal.
    set (base := MM (mm_after s ++ [y]) [] [] 0 (ival x) (upd (mm_props s) (ic y) (ival y))).
    transitivity (mrun base b); [apply (cm_run x RC b Early); [exact O|]|symmetry; apply (cm_run x RC b Late); [exact O|]];
      unfold counts, base; cbn [mm_before mm_after mm_mains mm_bcount mm_acount mm_props]; repeat (split; [reflexivity|]).
    + exists (mm_after s), [y]. rewrite <- app_assoc. split; reflexivity.
    + exists [], []. split; reflexivity.
  - unfold stay, push. cbn [fst snd mm_before mm_after mm_mains mm_bcount mm_acount mm_props app].
    set (base := MM (mm_before s) (mm_mains s) (mm_after s ++ [y]) (mm_bcount s) (ival x) (mm_props s)).
    transitivity (mrun base b); [apply (cm_run x RC b Late); [exact O|]|symmetry; apply (cm_run x RC b Late); [exact O|]];
      unfold counts, base; cbn [mm_before mm_after mm_mains mm_bcount mm_acount mm_props]; repeat (split; [reflexivity|]).
    + exists (mm_after s), [y]. rewrite <- app_assoc. split; reflexivity.
    + exists (mm_after s ++ [y]), []. rewrite app_nil_r. split; reflexivity.
Qed.

(* --- the chain --------------------------------------------------------- *)

Lemma what_trade x y r : may_trade (what x) (what y) r -> trade x y.
Proof. unfold may_trade, trade, what. cbn [fst]. intuition. Qed.

Lemma tail_swaps db l l' : swaps l l' -> swaps (run_all (tail_passes db) l) (run_all (tail_passes db) l').
Proof.
  intros S. unfold run_all, tail_passes. cbn [fold_left].
  apply up_swaps. do 3 (apply rm_swaps; [unfold family; auto|]). exact S.
Qed.

Lemma optimize_trade db a x y b : may_trade (what x) (what y) (map what b) ->
  swaps (optimize db (a ++ x :: y :: b)) (optimize db (a ++ y :: x :: b)).
Proof.
  intros M. pose proof (what_trade _ _ _ M) as T. pose proof T as [GX [GY [D _]]].
  rewrite !optimize_four. apply tail_swaps, gm_swaps, pm_swaps.
  destruct (du_trade a) as [pre H]. rewrite !H by assumption. rewrite !mrun_run, !mrun_app. apply swaps_left.
  assert (O : ic x = ReportCount \/ ic y = ReportCount -> open_i (run_pass designator_uniq b)).
  { intros R. apply uq_open, open_items. apply M, R. }
  destruct (icls_eqb (ic x) ReportCount) eqn:X; [apply icls_eqb_eq in X; rewrite (mm_count_trade _ x y) by auto; apply sw_same|].
  destruct (icls_eqb (ic y) ReportCount) eqn:Y.
  { apply icls_eqb_eq in Y. rewrite <- (mm_count_trade _ y x) by (auto using trade_sym). apply sw_same. }
  apply mm_trade; [exact T| |]; intros E; rewrite E in *; discriminate.
Qed.

Lemma optimize_swaps db l l' : reordered l l' -> swaps (optimize db l) (optimize db l').
Proof. induction 1 as [|a x y b l M R IH]; [apply sw_same|]. eapply swaps_trans; [apply optimize_trade, M|exact IH]. Qed.

(* --- what is written --------------------------------------------------- *)

Lemma h_trade {A} (obs : gtab -> locals -> icls -> Z -> list A) s x y : trade x y ->
  h_run obs s [wire x; wire y] = h_run obs s [wire y; wire x].
Proof.
  intros [GX [GY [D [P1 [P2 [P3 P4]]]]]]. destruct s as [[pg lm lx pm px ue un sz ri ct] st lo].
  cbn [h_run]. unfold h_step. cbn [wire w_cls w_val].
  destruct (ic x); try discriminate GX; try contradiction; destruct (ic y); try discriminate GY; try contradiction; reflexivity.
Qed.

Lemma swaps_view m l l' : swaps l l' -> host_view m (map wire l) = host_view m (map wire l').
Proof.
  induction 1 as [|a x y b l T S IH]; [reflexivity|]. rewrite <- IH. unfold host_view.
  change (x :: y :: b) with ([x; y] ++ b). change (y :: x :: b) with ([y; x] ++ b). rewrite !map_app, !h_run_app. cbn [fst snd map].
  rewrite (h_trade _ _ x y T). reflexivity.
Qed.

Lemma perm_serialize l l' : Permutation l l' -> forall b, serialize l = Ok b -> exists b', serialize l' = Ok b' /\ length b = length b'.
Proof.
  induction 1 as [|x l l' P IH|x y l|l1 l2 l3 P1 IH1 P2 IH2]; intros b H; cbn [serialize] in *.
  - eauto.
  - destruct (bytes x) as [c|]; [|discriminate]. cbn [bind] in *. destruct (serialize l) as [d|]; [|discriminate]. cbn [bind] in H.
    injection H as <-. destruct (IH d eq_refl) as [d' [-> L]]. cbn [bind]. eexists. split; [reflexivity|]. rewrite !app_length, L. reflexivity.
  - destruct (bytes y) as [c|]; [|discriminate]. cbn [bind] in *. destruct (bytes x) as [d|]; [|discriminate]. cbn [bind] in *.
    destruct (serialize l) as [e|]; [|discriminate]. cbn [bind] in *. injection H as <-. eexists. split; [reflexivity|]. rewrite !app_length. lia.
  - destruct (IH1 b H) as [b1 [H1 L1]]. destruct (IH2 b1 H1) as [b2 [H2 L2]]. exists b2. split; [exact H2|congruence].
Qed.

Lemma swaps_good l l' : swaps l l' -> as_good (serialize l) (serialize l').
Proof.
  intros S. pose proof (swaps_perm _ _ S) as P. unfold as_good. destruct (serialize l) as [b|e] eqn:E.
  - destruct (perm_serialize _ _ P b E) as [b' [E' L]]. rewrite E'. split; [exact L|]. intros m ev. unfold host_reads.
    pose proof (swaps_view m _ _ S) as V. split; intros [k [K ->]].
    + rewrite (blob_means_fun _ _ _ K (serialize_means _ _ E)), V. eauto using serialize_means.
    + rewrite (blob_means_fun _ _ _ K (serialize_means _ _ E')), <- V. eauto using serialize_means.
  - destruct (serialize l') as [b'|e'] eqn:E'; [|exact I].
    destruct (perm_serialize _ _ (Permutation_sym P) b' E') as [b [E2 _]]. congruence.
Qed.

Lemma reordered_good db l l' : reordered l l' -> as_good (serialize (optimize db l)) (serialize (optimize db l')).
Proof. intros R. apply swaps_good, optimize_swaps, R. Qed.

(* --- bytes ------------------------------------------------------------- *)

Lemma parse_global db b w : blob_means b [w] -> number_allowed w -> kind_of (w_cls w) = Global ->
  exists x, what x = w_what w /\ forall page rest, parse_from db page (b ++ rest) =
    let r := parse_from db (match w_cls w with UsagePage => w_val w | _ => page end) rest in Run (x :: appended r) (finished r).
Proof.
  intros [raws [S E]] N G. pose proof (means_acceptable _ _ _ S E (proj1 (allowed_forall [w]) (Forall_cons _ N (Forall_nil _)))) as A.
  destruct raws as [|r [|r2 raws]]; try discriminate E. inversion S as [|p data rest0 l Hp HF HL HS]; subst. inversion HS; subst.
  inversion A as [|? ? HA1 _]; subst. destruct (proj1 (parse_item_iff db p data Hp HF HL) HA1) as [i [Hi [Hm Hc]]].
  assert (W : ic i = w_cls w /\ ival i = w_val w).
  { destruct Hm as [v [W1 [W2 W3]]]. cbn [map] in E. injection E as E. rewrite W1 in E. injection E as ->. auto. }
  destruct W as [W1 W2].
  assert (J : exists j, ic j = ic i /\ ival j = ival i /\
    forall page, parser_append db page i = (match ic i with UsagePage => ival i | _ => page end, Ok j)).
  { destruct (parser_append_ok db 0 i Hc) as [j [Hj [J1 [J2 _]]]]. exists j. split; [exact J1|]. split; [exact J2|].
    rewrite <- W1 in G. intros page. revert Hj. unfold parser_append. destruct (ic i) eqn:C; try discriminate G; cbv iota beta; rewrite ?C;
      try (intros Hj; injection Hj as <-; reflexivity).
    destruct (mk_item db UsagePage (Some (usage_page (ival i)))) as [k|] eqn:M; [|discriminate].
    intros Hj. pose proof Hj as Hj2. destruct (ic k) eqn:CK; try exact Hj;
      (destruct (Z.shiftr (ival k) 16 =? 0); exact Hj). }
  destruct J as [j [J1 [J2 J3]]]. exists j. split; [unfold what, w_what; congruence|]. intros page rest.
  cbn [app]. rewrite parse_from_cons. cbv zeta. rewrite <- HL, <- app_assoc. cbn [app].
  rewrite firstn_app, firstn_all, Nat.sub_diag, skipn_app, skipn_all, Nat.sub_diag.
  cbn [firstn skipn]. rewrite app_nil_r, app_nil_l, Hi, J3, W1, W2. reflexivity.
Qed.

Lemma good_same r : as_good r r.
Proof. destruct r; cbn; [|exact I]. split; reflexivity. Qed.

Lemma good_trans r1 r2 r3 : as_good r1 r2 -> as_good r2 r3 -> as_good r1 r3.
Proof.
  destruct r1, r2, r3; cbn; try tauto. intros [L1 H1] [L2 H2]. split; [congruence|]. intros m ev. rewrite H1. apply H2.
Qed.

Lemma convert_trade db ba bx by_ bb wa wx wy wb :
  blob_means ba wa -> blob_means bx [wx] -> blob_means by_ [wy] -> blob_means bb wb ->
  Forall number_allowed (wa ++ wx :: wy :: wb) -> may_trade (w_what wx) (w_what wy) (map w_what wb) ->
  as_good (convert_opt db (ba ++ bx ++ by_ ++ bb)) (convert_opt db (ba ++ by_ ++ bx ++ bb)).
Proof.
  intros MA MX MY MB N T. apply Forall_app in N. destruct N as [NA N]. inversion N as [|? ? NX N2]; subst. inversion N2 as [|? ? NY NB]; subst.
  pose proof T as [GX [GY [D _]]].
  destruct (parse_means db ba wa MA NA 0) as [la [pa [WA [PA EA]]]].
  destruct (parse_global db bx wx MX NX GX) as [x [WX EX]].
  destruct (parse_global db by_ wy MY NY GY) as [y [WY EY]].
  set (p1 := match w_cls wy with UsagePage => w_val wy | _ => match w_cls wx with UsagePage => w_val wx | _ => pa end end).
  assert (Q : match w_cls wx with UsagePage => w_val wx | _ => match w_cls wy with UsagePage => w_val wy | _ => pa end end = p1).
  { unfold p1. change (fst (w_what wx)) with (w_cls wx) in D. change (fst (w_what wy)) with (w_cls wy) in D.
    destruct (w_cls wx); destruct (w_cls wy); try reflexivity. congruence. }
  destruct (parse_means db bb wb MB NB p1) as [lb [pb [WB [PB EB]]]].
  specialize (EB []). rewrite app_nil_r, parse_from_nil in EB. cbn [appended finished] in EB. rewrite app_nil_r in EB.
  unfold convert_opt. rewrite !blob_parse_from, !EA, EX, EY, EY, EX, Q. fold p1. rewrite EB. cbn [appended finished bind].
  apply reordered_good. apply ro_trade; [|apply ro_same]. rewrite WX, WY, WB. exact T.
Qed.

Lemma rearranged_good db b b' : rearranged b b' -> as_good (convert_opt db b) (convert_opt db b').
Proof.
  induction 1 as [|ba bx by_ bb b wa wx wy wb MA MX MY MB N T R IH]; [apply good_same|].
  eapply good_trans; [|exact IH]. eapply convert_trade; eassumption.
Qed.
