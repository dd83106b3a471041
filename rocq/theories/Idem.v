(* Idem.v -- running an optimiser pass on its own output: the DesignatorUniq,
   PhysicalMerge, RangeMerge (three times) and GlobalMerge passes change
   nothing then. *)
From Coq Require Import ZifyBool.
From Verif Require Import Py Usage Item ItemFacts Optimizer OptFacts.
Local Open Scope list_scope.
Local Open Scope Z_scope.

(** Passes that hold items back until an item of a certain kind ([stop])
    arrives.  [g acc] is what a pass makes of the items [acc] held back. *)
Section Segments.
Variables (stop : item -> bool) (g cl : list item -> list item).

Fixpoint seg_run (acc l : list item) : list item :=
  match l with
  | [] => cl acc
  | i :: r => if stop i then g acc ++ i :: seg_run [] r
              else seg_run (acc ++ [i]) r
  end.

Definition held (l : list item) : Prop := Forall (fun i => stop i = false) l.

Lemma seg_app seg : held seg -> forall acc rest,
  seg_run acc (seg ++ rest) = seg_run (acc ++ seg) rest.
Proof.
  induction 1 as [|i seg Hi _ IH]; intros acc rest; cbn [app].
  - now rewrite app_nil_r.
  - cbn [seg_run]. rewrite Hi, IH, <- app_assoc. reflexivity.
Qed.

Lemma seg_idem :
  (forall acc, held acc -> held (g acc) /\ g (g acc) = g acc) ->
  (forall acc, held acc -> held (cl acc) /\ cl (cl acc) = cl acc) ->
  forall l acc, held acc -> seg_run [] (seg_run acc l) = seg_run acc l.
Proof.
  intros Hg Hc. induction l as [|i r IH]; intros acc Ha; cbn [seg_run].
  - destruct (Hc acc Ha) as [H1 H2].
    rewrite <- (app_nil_r (cl acc)) at 1. rewrite seg_app by exact H1.
    cbn [seg_run app]. exact H2.
  - destruct (stop i) eqn:St.
    + destruct (Hg acc Ha) as [H1 H2]. rewrite seg_app by exact H1.
      cbn [seg_run app]. rewrite St, H2, IH by constructor. reflexivity.
    + apply IH. apply Forall_app; split; [exact Ha|]. constructor; auto.
Qed.
End Segments.

(** ** DesignatorUniq *)

Definition du_stop (i : item) : bool := negb (ikind_eqb (ikd i) Local).
Definition is_desig (i : item) : bool := icls_eqb (ic i) DesignatorIndex.

Definition du_next (n : nat) (f : dfilter) (i : item) : dfilter :=
  if is_desig i
  then match f with
       | DNone => if ival i =? 0 then DAt n else DFalse
       | _ => DFalse
       end
  else f.

Fixpoint du_filt (n : nat) (f : dfilter) (l : list item) : dfilter :=
  match l with
  | [] => f
  | i :: r => du_filt (S n) (du_next n f i) r
  end.

Definition du_g (acc : list item) : list item :=
  match du_filt 0 DNone acc with DAt n => remove_nth n acc | _ => acc end.

Lemma du_filt_app a : forall n f b,
  du_filt n f (a ++ b) = du_filt (n + length a) (du_filt n f a) b.
Proof.
  induction a as [|i a IH]; intros n f b; cbn [app du_filt length].
  - now rewrite Nat.add_0_r.
  - rewrite IH. f_equal. lia.
Qed.

Lemma du_filt_false l : forall n, du_filt n DFalse l = DFalse.
Proof.
  induction l as [|i l IH]; intros n; [reflexivity|]. cbn [du_filt].
  unfold du_next. destruct (is_desig i); apply IH.
Qed.

Lemma du_filt_at l : forall n k m,
  du_filt n (DAt k) l = DAt m -> m = k /\ Forall (fun i => is_desig i = false) l.
Proof.
  induction l as [|i l IH]; intros n k m; cbn [du_filt].
  - intros [= ->]. auto.
  - unfold du_next. destruct (is_desig i) eqn:D.
    + rewrite du_filt_false. discriminate.
    + intros H. destruct (IH _ _ _ H). auto.
Qed.

Lemma du_filt_none l : Forall (fun i => is_desig i = false) l ->
  forall n f, du_filt n f l = f.
Proof.
  induction 1 as [|i l D _ IH]; intros n f; [reflexivity|]. cbn [du_filt].
  unfold du_next. rewrite D. apply IH.
Qed.

Lemma du_filt_pos l : forall n m,
  du_filt n DNone l = DAt m ->
  (n <= m < n + length l)%nat /\
  Forall (fun i => is_desig i = false) (remove_nth (m - n) l).
Proof.
  induction l as [|i l IH]; intros n m; cbn [du_filt length]; [discriminate|].
  unfold du_next. destruct (is_desig i) eqn:D.
  - destruct (ival i =? 0).
    + intros H. destruct (du_filt_at _ _ _ _ H) as [-> F].
      rewrite Nat.sub_diag. cbn [remove_nth]. split; [lia|exact F].
    + rewrite du_filt_false. discriminate.
  - intros H. destruct (IH _ _ H) as [B F]. split; [lia|].
    replace (m - n)%nat with (S (m - S n)) by lia. cbn [remove_nth].
    constructor; auto.
Qed.

Lemma remove_nth_snoc {A} l : forall n (x : A), (n < length l)%nat ->
  remove_nth n (l ++ [x]) = remove_nth n l ++ [x].
Proof.
  induction l as [|y l IH]; intros n x L; cbn [length] in L; [lia|].
  destruct n; cbn; [reflexivity|]. rewrite IH by lia. reflexivity.
Qed.

Lemma remove_nth_incl {A} (P : A -> Prop) l : forall n,
  Forall P l -> Forall P (remove_nth n l).
Proof.
  induction l as [|y l IH]; intros n F; destruct n; cbn; auto; inversion F;
    subst; auto.
Qed.

Lemma du_feed l : forall acc, held du_stop acc ->
  (let (s, o) := feed designator_uniq (DU acc (du_filt 0 DNone acc)) l in
   o ++ p_close designator_uniq s) =
  seg_run du_stop du_g (fun _ => []) acc l.
Proof.
  induction l as [|i l IH]; intros acc Ha; [reflexivity|].
  cbn [feed seg_run]. unfold du_stop at 1.
  cbn [designator_uniq p_append]. unfold du_append.
  cbn [du_pending du_filter].
  assert (G : match du_filt 0 DNone acc with
              | DAt n => remove_nth n (acc ++ [i]) | _ => acc ++ [i] end
              = du_g acc ++ [i]).
  { unfold du_g. destruct (du_filt 0 DNone acc) eqn:D; try reflexivity.
    destruct (du_filt_pos _ _ _ D) as [B _]. apply remove_nth_snoc. lia. }
  assert (E : ikd i <> Local ->
    (let (s, o) :=
       let (s2, o2) := feed designator_uniq (DU [] DNone) l in
       (s2, match du_filt 0 DNone acc with
            | DAt n => remove_nth n (acc ++ [i]) | _ => acc ++ [i] end ++ o2) in
     o ++ p_close designator_uniq s) =
    du_g acc ++ i :: seg_run du_stop du_g (fun _ => []) [] l).
  { intros _. rewrite G. specialize (IH [] (Forall_nil _)).
    cbn [du_filt] in IH.
    destruct (feed designator_uniq (DU [] DNone) l) as [s2 o2].
    rewrite <- IH, <- !app_assoc. reflexivity. }
  destruct (ikd i) eqn:K; cbn [ikind_eqb negb].
  - apply E. discriminate.
  - apply E. discriminate.
  - assert (N : du_filt 0 DNone (acc ++ [i]) =
                du_next (length acc) (du_filt 0 DNone acc) i).
    { rewrite du_filt_app. reflexivity. }
    assert (Ha' : held du_stop (acc ++ [i])).
    { apply Forall_app; split; [exact Ha|]. constructor; [|constructor].
      unfold du_stop. rewrite K. reflexivity. }
    specialize (IH _ Ha'). rewrite N in IH.
    unfold du_next, is_desig in IH. rewrite <- IH.
    unfold ikd in K.
    destruct (ic i); cbn [icls_eqb] in *; try discriminate K;
      destruct (feed designator_uniq _ l); reflexivity.
Qed.

Lemma du_idem l :
  run_pass designator_uniq (run_pass designator_uniq l) =
  run_pass designator_uniq l.
Proof.
  assert (R : forall l, run_pass designator_uniq l =
                        seg_run du_stop du_g (fun _ => []) [] l).
  { intros k. exact (du_feed k [] (Forall_nil _)). }
  rewrite !R. apply seg_idem; [| |constructor].
  - intros acc Ha. unfold du_g. destruct (du_filt 0 DNone acc) eqn:D.
    + rewrite D. auto.
    + rewrite D. auto.
    + split; [now apply remove_nth_incl|].
      destruct (du_filt_pos _ _ _ D) as [_ F]. rewrite Nat.sub_0_r in F.
      rewrite (du_filt_none _ F). reflexivity.
  - intros acc _. split; [constructor|reflexivity].
Qed.

(** ** PhysicalMerge *)

Definition is_main (i : item) : bool := ikind_eqb (ikd i) Main.

Definition pm_next (ch : icls -> Z) (i : item) : icls -> Z :=
  if is_phys (ic i) || is_log (ic i) then upd ch (ic i) (ival i) else ch.

Definition pm_ch (acc : list item) : icls -> Z :=
  fold_left pm_next acc (fun _ => 0).

Definition pm_g (acc : list item) : list item :=
  if (pm_ch acc PhysicalMinimum =? pm_ch acc LogicalMinimum)
     && (pm_ch acc PhysicalMaximum =? pm_ch acc LogicalMaximum)
  then filter (fun x => negb (is_phys (ic x))) acc else acc.

Lemma filter_twice {A} (f : A -> bool) l : filter f (filter f l) = filter f l.
Proof.
  induction l as [|x l IH]; [reflexivity|]. cbn [filter].
  destruct (f x) eqn:E; [cbn [filter]; rewrite E, IH; reflexivity|exact IH].
Qed.

Lemma filter_held stop (f : item -> bool) l :
  held stop l -> held stop (filter f l).
Proof. intros F. apply incl_Forall with l; [apply incl_filter|exact F]. Qed.

Lemma pm_feed l : forall acc, held is_main acc ->
  (let (s, o) := feed physical_merge (PM (fun _ => 0) (pm_ch acc) acc) l in
   o ++ p_close physical_merge s) =
  seg_run is_main pm_g (fun acc => acc) acc l.
Proof.
  induction l as [|i l IH]; intros acc Ha; [reflexivity|].
  cbn [feed seg_run]. unfold is_main at 1.
  cbn [physical_merge p_append]. unfold pm_append.
  cbn [pm_current pm_changed pm_pending].
  assert (A : ikd i <> Main ->
    (let (s, o) :=
       let (s2, o2) :=
         feed physical_merge (PM (fun _ => 0)
           (if is_phys (ic i) || is_log (ic i)
            then upd (pm_ch acc) (ic i) (ival i) else pm_ch acc)
           (acc ++ [i])) l in (s2, [] ++ o2) in
     o ++ p_close physical_merge s) =
    seg_run is_main pm_g (fun acc => acc) (acc ++ [i]) l).
  { intros K. rewrite <- IH.
    - assert (N : pm_ch (acc ++ [i]) = pm_next (pm_ch acc) i)
        by (unfold pm_ch; rewrite fold_left_app; reflexivity).
      rewrite N. unfold pm_next. destruct (feed physical_merge _ l); reflexivity.
    - apply Forall_app; split; [exact Ha|]. constructor; [|constructor].
      unfold is_main. destruct (ikd i); [contradiction|reflexivity|reflexivity]. }
  destruct (ikd i) eqn:K; cbn [ikind_eqb].
  - specialize (IH [] (Forall_nil _)). unfold pm_g at 1.
    rewrite !Z.eqb_refl. cbn [andb]. unfold pm_ch at 1 in IH.
    cbn [fold_left] in IH. cbn [seg_run].
    destruct (feed physical_merge _ l) as [s2 o2]. rewrite <- IH.
    rewrite <- !app_assoc. reflexivity.
  - apply A. discriminate.
  - apply A. discriminate.
Qed.

Lemma pm_idem l :
  run_pass physical_merge (run_pass physical_merge l) =
  run_pass physical_merge l.
Proof.
  assert (R : forall l, run_pass physical_merge l =
                        seg_run is_main pm_g (fun acc => acc) [] l).
  { intros k. exact (pm_feed k [] (Forall_nil _)). }
  rewrite !R. apply seg_idem; [|auto|constructor].
  intros acc Ha. unfold pm_g.
  destruct ((pm_ch acc PhysicalMinimum =? pm_ch acc LogicalMinimum)
            && (pm_ch acc PhysicalMaximum =? pm_ch acc LogicalMaximum)) eqn:D.
  - split; [now apply filter_held|]. rewrite filter_twice.
    match goal with |- (if ?b then _ else _) = _ => destruct b end; reflexivity.
  - rewrite D. auto.
Qed.

(** ** GlobalMerge *)

(* the second run remembers the same values as the first *)
Definition same_mem (g h : gm_state) : Prop :=
  forall c, match g c, h c with
            | None, None => True
            | Some a, Some b => ic a = c /\ ic b = c /\ ival a = ival b
            | _, _ => False
            end.

Lemma gm_idem_feed l : forall g h, same_mem g h ->
  snd (feed global_merge h (snd (feed global_merge g l))) =
  snd (feed global_merge g l).
Proof.
  induction l as [|i l IH]; intros g h S0; [reflexivity|].
  cbn [feed]. cbn [global_merge p_append]. unfold gm_append.
  destruct (ikd i) eqn:K.
  - destruct (feed global_merge g l) as [s o] eqn:F. cbn [snd app feed].
    cbn [global_merge p_append]. unfold gm_append. rewrite K.
    specialize (IH g h S0). rewrite F in IH. cbn [snd] in IH.
    destruct (feed global_merge h o). cbn [snd] in *. rewrite IH. reflexivity.
  - set (keep := _ || icls_eqb (ic i) Pop).
    assert (KE : match h (ic i) with
                 | None => true | Some j => negb (item_eqb j i) end
                 || icls_eqb (ic i) Push || icls_eqb (ic i) Pop = keep).
    { unfold keep. specialize (S0 (ic i)).
      destruct (g (ic i)) as [a|], (h (ic i)) as [b|]; try contradiction;
        [|reflexivity].
      destruct S0 as (A & B & V). unfold item_eqb, ikd. now rewrite A, B, V. }
    assert (S1 : forall k, (k = i \/ (exists j, h (ic i) = Some j /\
                       item_eqb j i = true /\ k = j)) ->
                 same_mem (upd g (ic i) (Some i)) (upd h (ic i) (Some k))).
    { intros k Hk c. unfold upd. destruct (icls_eqb c (ic i)) eqn:E.
      - apply icls_eqb_eq in E. subst c. destruct Hk as [->|(j & Hj & Q & ->)];
          [auto|]. apply item_eqb_spec in Q. destruct Q as [Q1 Q2].
        auto.
      - apply S0. }
    destruct keep eqn:KV.
    + destruct (feed global_merge (upd g (ic i) (Some i)) l) as [s o] eqn:F.
      cbn [snd app feed]. cbn [global_merge p_append]. unfold gm_append.
      rewrite K, KE.
      specialize (IH (upd g (ic i) (Some i)) (upd h (ic i) (Some i))
                     (S1 i (or_introl eq_refl))).
      rewrite F in IH. cbn [snd] in IH.
      destruct (feed global_merge _ o). cbn [snd app] in *.
      rewrite IH. reflexivity.
    + assert (exists j, h (ic i) = Some j /\ item_eqb j i = true) as (j & Hj & Q).
      { destruct (h (ic i)) as [j|]; [|discriminate KE]. exists j.
        split; [reflexivity|]. destruct (item_eqb j i); [reflexivity|].
        discriminate KE. }
      specialize (IH (upd g (ic i) (Some i)) h).
      destruct (feed global_merge (upd g (ic i) (Some i)) l) as [s o] eqn:F.
      cbn [snd app] in *. apply IH. intros c.
      specialize (S1 j (or_intror (ex_intro _ j (conj Hj (conj Q eq_refl)))) c).
      assert (HC : upd h (ic i) (Some j) c = h c).
      { unfold upd. destruct (icls_eqb c (ic i)) eqn:E; [|reflexivity].
        apply icls_eqb_eq in E. subst c. now rewrite Hj. }
      rewrite HC in S1. exact S1.
  - destruct (feed global_merge g l) as [s o] eqn:F. cbn [snd app feed].
    cbn [global_merge p_append]. unfold gm_append. rewrite K.
    specialize (IH g h S0). rewrite F in IH. cbn [snd] in IH.
    destruct (feed global_merge h o). cbn [snd] in *. rewrite IH. reflexivity.
Qed.

Lemma gm_idem l :
  run_pass global_merge (run_pass global_merge l) = run_pass global_merge l.
Proof.
  assert (R : forall l, run_pass global_merge l =
                        snd (feed global_merge gm_init l)).
  { intros k. unfold run_pass. cbn [p_init global_merge].
    destruct (feed global_merge gm_init k). cbn [p_close snd]. apply app_nil_r. }
  rewrite !R. apply gm_idem_feed. intros c. destruct c; cbn; auto.
Qed.

(** ** RangeMerge *)

Definition family (lk mn mx : icls) : Prop :=
  (lk, mn, mx) = (DesignatorIndex, DesignatorMinimum, DesignatorMaximum) \/
  (lk, mn, mx) = (StringIndex, StringMinimum, StringMaximum) \/
  (lk, mn, mx) = (Usage, UsageMinimum, UsageMaximum).

Definition rm_ext (h : list item) (s : rm_state) (i : item) : rm_state :=
  RM (rm_merging s) (rm_min s) (rm_max s) (h ++ [i]).

Definition rm_snoc lk mn mx (s : rm_state) (i : item) : rm_state :=
  let s1 := rm_note lk mn mx s i in
  RM (rm_merging s1) (rm_min s1) (rm_max s1) (rm_pending s1 ++ [i]).

Definition rm_st lk mn mx (acc : list item) : rm_state :=
  fold_left (rm_snoc lk mn mx) acc rm_init.

Definition rm_g db lk mn mx (acc : list item) : list item :=
  rm_flush db lk mn mx (rm_st lk mn mx acc).

Definition in_range lk mn mx (x : item) : bool :=
  icls_eqb (ic x) lk || icls_eqb (ic x) mn || icls_eqb (ic x) mx.

Definition with_pending (s : rm_state) (p : list item) : rm_state :=
  RM (rm_merging s) (rm_min s) (rm_max s) p.

Lemma rm_note_pending lk mn mx s i p :
  rm_note lk mn mx (with_pending s p) i =
  with_pending (rm_note lk mn mx s i) p.
Proof.
  destruct s as [m a b q]. unfold rm_note, with_pending. cbn.
  destruct (m && _); [|reflexivity].
  destruct (_ || _); [reflexivity|].
  destruct (icls_eqb (ic i) lk); [|reflexivity].
  destruct b; [|reflexivity]. destruct (_ =? _); reflexivity.
Qed.

Lemma rm_note_keeps lk mn mx s i :
  rm_pending (rm_note lk mn mx s i) = rm_pending s.
Proof.
  destruct s as [m a b q]. unfold rm_note. cbn.
  destruct (m && _); [|reflexivity].
  destruct (_ || _); [reflexivity|].
  destruct (icls_eqb (ic i) lk); [|reflexivity].
  destruct b; [|reflexivity]. destruct (_ =? _); reflexivity.
Qed.

Lemma rm_st_pending lk mn mx acc : rm_pending (rm_st lk mn mx acc) = acc.
Proof.
  induction acc as [|i acc IH] using rev_ind; [reflexivity|].
  unfold rm_st. rewrite fold_left_app. cbn [fold_left].
  fold (rm_st lk mn mx acc). unfold rm_snoc. cbn [rm_pending].
  now rewrite rm_note_keeps, IH.
Qed.

Lemma rm_st_snoc lk mn mx acc i :
  rm_st lk mn mx (acc ++ [i]) = rm_snoc lk mn mx (rm_st lk mn mx acc) i.
Proof. unfold rm_st. rewrite fold_left_app. reflexivity. Qed.

Section Range.
Variables (db : udb) (lk mn mx : icls).
Hypothesis Fam : family lk mn mx.

Lemma fam_local : kind_of lk = Local /\ kind_of mn = Local /\ kind_of mx = Local.
Proof. destruct Fam as [[= -> -> ->]|[[= -> -> ->]|[= -> -> ->]]]; auto. Qed.

Lemma fam_apart : icls_eqb lk mn = false /\ icls_eqb lk mx = false /\
  icls_eqb mn lk = false /\ icls_eqb mx lk = false /\ icls_eqb mn mx = false.
Proof. destruct Fam as [[= -> -> ->]|[[= -> -> ->]|[= -> -> ->]]]; auto. Qed.

Lemma main_kept i : ikd i = Main -> in_range lk mn mx i = false.
Proof.
  intros K. unfold in_range. destruct fam_local as (A & B & C).
  destruct (icls_eqb (ic i) lk) eqn:E1; [apply icls_eqb_eq in E1; unfold ikd in K; congruence|].
  destruct (icls_eqb (ic i) mn) eqn:E2; [apply icls_eqb_eq in E2; unfold ikd in K; congruence|].
  destruct (icls_eqb (ic i) mx) eqn:E3; [apply icls_eqb_eq in E3; unfold ikd in K; congruence|].
  reflexivity.
Qed.

Lemma rm_flush_held h s acc : Forall (fun i => ikd i = Main) h ->
  rm_flush db lk mn mx (with_pending s (h ++ acc)) =
  h ++ rm_flush db lk mn mx (with_pending s acc).
Proof.
  intros H. destruct s as [m a b q]. unfold rm_flush, with_pending. cbn.
  destruct a as [a|]; [|reflexivity]. destruct b as [b|]; [|reflexivity].
  destruct (_ && m); [|reflexivity]. rewrite filter_app, <- app_assoc.
  f_equal.
  induction H as [|i h Hi _ IH]; [reflexivity|]. cbn [filter].
  pose proof (main_kept i Hi) as K. unfold in_range in K. rewrite K, IH.
  reflexivity.
Qed.

Lemma rm_feed l : forall h acc, Forall (fun i => ikd i = Main) h ->
  held is_main acc ->
  (let (s, o) := feed (range_merge db lk mn mx)
                      (with_pending (rm_st lk mn mx acc) (h ++ acc)) l in
   o ++ p_close (range_merge db lk mn mx) s) =
  h ++ seg_run is_main (rm_g db lk mn mx) (rm_g db lk mn mx) acc l.
Proof.
  assert (P : forall acc, with_pending (rm_st lk mn mx acc) acc
                          = rm_st lk mn mx acc).
  { intros acc. rewrite <- (rm_st_pending lk mn mx acc) at 2.
    destruct (rm_st lk mn mx acc); reflexivity. }
  induction l as [|i l IH]; intros h acc Hh Ha.
  { cbn [feed seg_run app]. cbn [range_merge p_close].
    rewrite rm_flush_held by exact Hh. now rewrite P. }
  cbn [feed seg_run]. unfold is_main at 1.
  cbn [range_merge p_append]. unfold rm_append.
  rewrite rm_note_pending.
  assert (A : ikd i <> Main ->
    (let (s, o) :=
       let (s2, o2) :=
         feed (range_merge db lk mn mx)
           (RM (rm_merging (rm_note lk mn mx (rm_st lk mn mx acc) i))
               (rm_min (rm_note lk mn mx (rm_st lk mn mx acc) i))
               (rm_max (rm_note lk mn mx (rm_st lk mn mx acc) i))
               ((h ++ acc) ++ [i])) l in (s2, [] ++ o2) in
     o ++ p_close (range_merge db lk mn mx) s) =
    h ++ seg_run is_main (rm_g db lk mn mx) (rm_g db lk mn mx) (acc ++ [i]) l).
  { intros K. rewrite <- IH; [|exact Hh|].
    - rewrite rm_st_snoc. unfold rm_snoc, with_pending. cbn [rm_merging rm_min rm_max rm_pending].
      rewrite <- app_assoc. destruct (feed _ _ l); reflexivity.
    - apply Forall_app; split; [exact Ha|]. constructor; [|constructor].
      unfold is_main. destruct (ikd i); [contradiction|reflexivity|reflexivity]. }
  destruct (ikd i) eqn:K; cbn [ikind_eqb].
  - assert (N : rm_note lk mn mx (rm_st lk mn mx acc) i = rm_st lk mn mx acc).
    { unfold rm_note. rewrite K. cbn [ikind_eqb]. now rewrite andb_false_r. }
    rewrite N.
    specialize (IH [i] [] (Forall_cons _ K (Forall_nil _)) (Forall_nil _)).
    cbn [rm_st fold_left app] in IH. unfold with_pending at 1 in IH.
    cbn [rm_init rm_merging rm_min rm_max] in IH.
    destruct (feed (range_merge db lk mn mx) (RM true None None [i]) l) as [s2 o2].
    rewrite rm_flush_held by exact Hh. rewrite P.
    rewrite <- !app_assoc. rewrite IH. reflexivity.
  - cbn [with_pending rm_merging rm_min rm_max rm_pending]. apply A. discriminate.
  - cbn [with_pending rm_merging rm_min rm_max rm_pending]. apply A. discriminate.
Qed.

Lemma rebuild_again c v i : c = lk \/ c = mn \/ c = mx ->
  mk_item db c (Some v) = Ok i ->
  mk_item db c (Some (iv i)) = Ok i /\ ic i = c.
Proof.
  assert (S0 : forall c v i, item_init c (Some v) = Ok i ->
               item_init c (Some (iv i)) = Ok i /\ ic i = c /\
               (forall n z k, v = VUsage n z k -> iv i = v)).
  { intros c0 v0 i0. unfold item_init. destruct (truthy v0) eqn:T.
    - destruct (signed c0 || (0 <=? py_int v0)) eqn:G; [|discriminate].
      intros [= <-]. cbn [iv ic]. rewrite T, G. auto.
    - cbn [py_int]. rewrite orb_true_r. intros [= <-]. cbn [iv ic truthy].
      rewrite orb_true_r. repeat split. intros n z k ->. discriminate T. }
  intros Hc. assert (U : forall c, mk_item db c (Some v) =
    (let* u := lookup_opt db (Some v) in item_init c (Some u)) -> 
    mk_item db c (Some v) = Ok i -> ic i = c /\
    exists n z k, iv i = VUsage n z k /\ item_init c (Some (iv i)) = Ok i).
  { intros c0 -> . cbn [lookup_opt bind].
    destruct (lookup_usage db v) as (n & z & k & L). rewrite L. intros H.
    destruct (S0 _ _ _ H) as (A & B & C). split; [exact B|].
    exists n, z, k. split; [now apply (C n z k)|exact A]. }
  destruct Fam as [[= E1 E2 E3]|[[= E1 E2 E3]|[= E1 E2 E3]]]; subst lk mn mx;
    destruct Hc as [->|[->| ->]]; intros H;
    try (destruct (S0 _ _ _ H) as (A & B & _); split; [exact A|exact B]);
    match type of H with mk_item _ ?c _ = _ =>
      destruct (U c eq_refl H) as (B & n & z & k & V & A) end;
    (split; [|exact B]); rewrite V in *; exact A.
Qed.

Lemma rm_st_clean F : Forall (fun x => in_range lk mn mx x = false) F ->
  rm_st lk mn mx F = with_pending rm_init F.
Proof.
  induction F as [|i F IH] using rev_ind; intros H; [reflexivity|].
  apply Forall_app in H. destruct H as [H Hi]. apply Forall_inv in Hi.
  rewrite rm_st_snoc, IH by exact H. unfold rm_snoc.
  rewrite rm_note_pending. unfold rm_note. cbn [rm_init rm_merging andb].
  unfold in_range in Hi. apply orb_false_elim in Hi. destruct Hi as [Hi J3].
  apply orb_false_elim in Hi. destruct Hi as [J1 J2].
  rewrite J1, J2, J3. cbn [orb]. destruct (ikind_eqb (ikd i) Local); reflexivity.
Qed.

Lemma filter_clean F R :
  Forall (fun x => in_range lk mn mx x = false) F ->
  Forall (fun x => in_range lk mn mx x = true) R ->
  filter (fun x => negb (icls_eqb (ic x) lk || icls_eqb (ic x) mn
                         || icls_eqb (ic x) mx)) (F ++ R) = F.
Proof.
  intros HF HR. rewrite filter_app.
  assert (filter (fun x => negb (icls_eqb (ic x) lk || icls_eqb (ic x) mn
                         || icls_eqb (ic x) mx)) R = []) as ->.
  { induction HR as [|x R Hx _ IH]; [reflexivity|]. cbn [filter].
    unfold in_range in Hx. rewrite Hx. exact IH. }
  rewrite app_nil_r. induction HF as [|x F Hx _ IH]; [reflexivity|].
  cbn [filter]. unfold in_range in Hx. rewrite Hx. cbn [negb]. now rewrite IH.
Qed.

Lemma rebuild_cases c v : rebuild db c v = [] \/
  exists i, rebuild db c v = [i] /\ mk_item db c (Some v) = Ok i.
Proof.
  unfold rebuild. destruct (mk_item db c (Some v)) as [i|]; eauto.
Qed.

Lemma rebuild_same c i : c = lk \/ c = mn \/ c = mx ->
  mk_item db c (Some (iv i)) = Ok i -> rebuild db c (iv i) = [i].
Proof. intros _ H. unfold rebuild. now rewrite H. Qed.

(* the pass leaves the singles it wrote alone *)
Lemma rm_again_bounds F R :
  Forall (fun x => in_range lk mn mx x = false) F ->
  R <> [] ->
  Forall (fun x => ic x = mn \/ ic x = mx) R ->
  rm_g db lk mn mx (F ++ R) = F ++ R.
Proof.
  intros HF NE HR.
  assert (M : rm_merging (rm_st lk mn mx (F ++ R)) = false).
  { destruct R as [|x R _] using rev_ind; [contradiction|]. clear NE.
    rewrite app_assoc, rm_st_snoc. unfold rm_snoc. cbn [rm_merging].
    apply Forall_app in HR. destruct HR as [_ HR]. inversion HR; subst.
    unfold rm_note. destruct (rm_merging (rm_st lk mn mx (F ++ R))) eqn:Q;
      cbn [andb]; [|now rewrite Q].
    destruct fam_local as (A & B & C).
    unfold ikd.
    destruct H1 as [E|E]; rewrite E, ?B, ?C; cbn [ikind_eqb];
      rewrite icls_eqb_refl, ?orb_true_r; reflexivity. }
  unfold rm_g, rm_flush. rewrite M, rm_st_pending.
  destruct (rm_min _); [|reflexivity]. destruct (rm_max _); [|reflexivity].
  now rewrite andb_false_r.
Qed.

Lemma rm_again F R :
  Forall (fun x => in_range lk mn mx x = false) F ->
  (exists a, R = rebuild db lk a) \/
  (exists a b, R = rebuild db mn a ++ rebuild db mx b) \/
  (exists a b, R = rebuild db lk a ++ rebuild db lk b) ->
  rm_g db lk mn mx (F ++ R) = F ++ R.
Proof.
  intros HF HR. destruct fam_local as (LA & LB & LC).
  destruct fam_apart as (X1 & X2 & X3 & X4 & X5).
  assert (One : forall i, mk_item db lk (Some (iv i)) = Ok i -> ic i = lk ->
                rm_g db lk mn mx (F ++ [i]) = F ++ [i]).
  { intros i Hi Ei. unfold rm_g. rewrite rm_st_snoc, rm_st_clean by exact HF.
    unfold rm_snoc. rewrite rm_note_pending. unfold rm_note.
    unfold ikd. cbn [rm_init rm_merging rm_max rm_min andb].
    rewrite Ei, LA. cbn [ikind_eqb].
    rewrite X1, X2, icls_eqb_refl. cbn [orb with_pending rm_merging rm_min rm_max rm_pending].
    unfold rm_flush. cbn [rm_merging rm_min rm_max rm_pending].
    rewrite Z.eqb_refl, andb_true_r.
    destruct (truthy (iv i) && truthy (iv i)); [|reflexivity].
    rewrite filter_clean;
      [|exact HF|constructor; [unfold in_range; rewrite Ei, icls_eqb_refl; reflexivity|constructor]].
    unfold rebuild. now rewrite Hi. }
  assert (Nil : rm_g db lk mn mx F = F).
  { unfold rm_g. rewrite rm_st_clean by exact HF. reflexivity. }
  destruct HR as [(a & ->)|[(a & b & ->)|(a & b & ->)]].
  - destruct (rebuild_cases lk a) as [->|(i & -> & Hi)];
      [now rewrite app_nil_r|].
    destruct (rebuild_again lk a i (or_introl eq_refl) Hi). now apply One.
  - destruct (rebuild db mn a ++ rebuild db mx b) as [|x R0] eqn:ER;
      [now rewrite app_nil_r|]. rewrite <- ER.
    apply rm_again_bounds; [exact HF|rewrite ER; discriminate|].
    apply Forall_app; split.
    + destruct (rebuild_cases mn a) as [->|(i & -> & Hi)]; [constructor|].
      destruct (rebuild_again mn a i (or_intror (or_introl eq_refl)) Hi).
      auto.
    + destruct (rebuild_cases mx b) as [->|(i & -> & Hi)]; [constructor|].
      destruct (rebuild_again mx b i (or_intror (or_intror eq_refl)) Hi).
      auto.
  - destruct (rebuild_cases lk a) as [->|(i & -> & Hi)].
    { cbn [app]. destruct (rebuild_cases lk b) as [->|(j & -> & Hj)];
        [now rewrite app_nil_r|].
      destruct (rebuild_again lk b j (or_introl eq_refl) Hj). now apply One. }
    destruct (rebuild_again lk a i (or_introl eq_refl) Hi) as [Ai Ei].
    destruct (rebuild_cases lk b) as [->|(j & -> & Hj)];
      [rewrite app_nil_r; now apply One|].
    destruct (rebuild_again lk b j (or_introl eq_refl) Hj) as [Aj Ej].
    change ([i] ++ [j]) with [i; j].
    assert (Fx : forall x, ic x = lk -> in_range lk mn mx x = true).
    { intros x E. unfold in_range. rewrite E, icls_eqb_refl. reflexivity. }
    replace (F ++ [i; j]) with ((F ++ [i]) ++ [j]) at 1
      by (rewrite <- app_assoc; reflexivity).
    unfold rm_g. rewrite rm_st_snoc.
    assert (T : rm_st lk mn mx (F ++ [i]) =
                RM true (Some (iv i)) (Some (iv i)) (F ++ [i])).
    { rewrite rm_st_snoc, rm_st_clean by exact HF. unfold rm_snoc.
      rewrite rm_note_pending. unfold rm_note, ikd.
      cbn [rm_init rm_merging rm_max rm_min andb].
      rewrite Ei, LA. cbn [ikind_eqb]. rewrite X1, X2, icls_eqb_refl.
      reflexivity. }
    rewrite T. unfold rm_snoc, rm_note, ikd.
    cbn [rm_merging rm_min rm_max rm_pending andb].
    rewrite Ej, LA. cbn [ikind_eqb]. rewrite X1, X2, icls_eqb_refl. cbn [orb].
    destruct (ival j =? py_int (iv i) + 1) eqn:Q;
      cbn [rm_merging rm_min rm_max rm_pending];
      unfold rm_flush; cbn [rm_merging rm_min rm_max rm_pending].
    + rewrite andb_true_r. rewrite <- app_assoc.
      destruct (truthy (iv i) && truthy (iv j)); [|reflexivity].
      cbn [app]. rewrite filter_clean by (auto 6).
      unfold ival in Q.
      destruct (py_int (iv i) =? py_int (iv j)) eqn:Q1; [lia|].
      destruct (1 <? py_int (iv j) - py_int (iv i)) eqn:Q2; [lia|].
      unfold rebuild. now rewrite Ai, Aj.
    + rewrite andb_false_r, <- app_assoc. reflexivity.
Qed.

Lemma rm_g_twice acc : rm_g db lk mn mx (rm_g db lk mn mx acc) =
                       rm_g db lk mn mx acc.
Proof.
  remember (rm_g db lk mn mx acc) as o eqn:E.
  assert (E0 : o = acc -> rm_g db lk mn mx o = o) by congruence.
  unfold rm_g, rm_flush in E. rewrite rm_st_pending in E.
  destruct (rm_min _) as [a|]; [|auto]. destruct (rm_max _) as [b|]; [|auto].
  destruct (_ && _); [|auto]. rewrite E. apply rm_again.
  - apply Forall_forall. intros x Hx. apply filter_In in Hx.
    destruct Hx as [_ Hx]. unfold in_range. now destruct (_ || _).
  - destruct (_ =? _); [left; eauto|]. destruct (_ <? _); [|right; right; eauto].
    right; left; eauto.
Qed.

Lemma rebuild_local c v : c = lk \/ c = mn \/ c = mx ->
  held is_main (rebuild db c v).
Proof.
  intros Hc. destruct fam_local as (A & B & C).
  destruct (rebuild_cases c v) as [->|(i & -> & Hi)]; [constructor|].
  destruct (rebuild_again c v i Hc Hi) as [_ E].
  constructor; [|constructor]. unfold is_main, ikd. rewrite E.
  destruct Hc as [->|[->| ->]]; rewrite ?A, ?B, ?C; reflexivity.
Qed.

Lemma rm_g_held acc : held is_main acc -> held is_main (rm_g db lk mn mx acc).
Proof.
  intros H. unfold rm_g, rm_flush. rewrite rm_st_pending.
  destruct (rm_min _); [|exact H]. destruct (rm_max _); [|exact H].
  destruct (_ && _); [|exact H]. apply Forall_app; split.
  - now apply filter_held.
  - destruct (_ =? _); [apply rebuild_local; auto|].
    destruct (_ <? _); apply Forall_app; split; apply rebuild_local; auto.
Qed.

Lemma rm_idem l :
  run_pass (range_merge db lk mn mx) (run_pass (range_merge db lk mn mx) l) =
  run_pass (range_merge db lk mn mx) l.
Proof.
  assert (R : forall l, run_pass (range_merge db lk mn mx) l =
    seg_run is_main (rm_g db lk mn mx) (rm_g db lk mn mx) [] l).
  { intros k. exact (rm_feed k [] [] (Forall_nil _) (Forall_nil _)). }
  rewrite !R.
  apply seg_idem; [| |constructor];
    (intros acc Ha; split; [now apply rm_g_held|apply rm_g_twice]).
Qed.
End Range.
