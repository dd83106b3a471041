(* RepeatProofs.v -- the optimised output does not depend on what the input
   says once more: C89. *)
From Coq Require Import ZifyBool.
From Verif Require Import Py Usage Item ItemFacts Optimizer OptFacts Idem Parser Converter HidSpec Spec ParserFacts CodecProofs RepeatSpec.
Local Open Scope list_scope.
Local Open Scope Z_scope.

(** the notions of the spec for items *)
Definition said_i (c : icls) (v : Z) (before : list item) : Prop :=
  (exists a j b, before = a ++ j :: b /\ ic j = c /\ ival j = v /\ Forall (fun i => ic i <> c) b) \/
  ((c = Unit \/ c = UnitExponent) /\ v = 0 /\ Forall (fun i => ic i <> c) before).

Definition apart_i (before : list item) : Prop :=
  before = [] \/ exists a j, before = a ++ [j] /\ kind_of (ic j) <> Local.

Definition open_i (l : list item) : Prop :=
  exists p m q n r, l = p ++ m :: q ++ n :: r /\ kind_of (ic m) = Main /\
    (ic n = Collection \/ ic n = EndCollection).

Inductive repeats : list item -> list item -> Prop :=
| repeats_free a x b : apart_i a -> free_class (ic x) -> said_i (ic x) (ival x) a -> repeats (a ++ b) (a ++ x :: b)
| repeats_count a x b : apart_i a -> ic x = ReportCount -> said_i ReportCount (ival x) a -> open_i b ->
    repeats (a ++ b) (a ++ x :: b)
| repeats_bound a x b : apart_i a -> ic x = LogicalMinimum \/ ic x = LogicalMaximum -> said_i (ic x) (ival x) a ->
    Forall (fun i => ic i <> PhysicalMinimum /\ ic i <> PhysicalMaximum) (a ++ b) -> repeats (a ++ b) (a ++ x :: b).

Lemma what_app l : forall p q, map what l = p ++ q -> exists l1 l2, l = l1 ++ l2 /\ map what l1 = p /\ map what l2 = q.
Proof.
  intros p q E. exists (firstn (length p) l), (skipn (length p) l). split; [symmetry; apply firstn_skipn|].
  rewrite <- firstn_map, <- skipn_map, E. rewrite firstn_app, firstn_all, Nat.sub_diag. cbn [firstn]. rewrite app_nil_r.
  rewrite skipn_app, skipn_all, Nat.sub_diag. auto.
Qed.

Lemma what_cons l w q : map what l = w :: q -> exists i l2, l = i :: l2 /\ what i = w /\ map what l2 = q.
Proof. destruct l as [|i l2]; [discriminate|]. intros E. injection E as E1 E2. eauto. Qed.

Lemma what_forall (P : icls -> Prop) l : Forall (fun i => P (fst i)) (map what l) -> Forall (fun i => P (ic i)) l.
Proof. intros F. rewrite Forall_map in F. exact F. Qed.

Lemma said_items c v l : said c v (map what l) -> said_i c v l.
Proof.
  intros [[a [b [E N]]]|[C [V N]]].
  - left. destruct (what_app l _ _ E) as [l1 [l2 [-> [_ E2]]]]. destruct (what_cons _ _ _ E2) as [j [l3 [-> [J E3]]]].
    injection J as J1 J2. exists l1, j, l3. subst b. split; [reflexivity|]. split; [exact J1|]. split; [exact J2|].
    apply (what_forall (fun k => k <> c)), N.
  - right. split; [exact C|]. split; [exact V|]. apply (what_forall (fun k => k <> c)), N.
Qed.

Lemma apart_items l : apart (map what l) -> apart_i l.
Proof.
  intros [E|[a [j [E K]]]]; [left; destruct l; [reflexivity|discriminate]|]. right.
  destruct (what_app l _ _ E) as [l1 [l2 [-> [_ E2]]]]. destruct (what_cons _ _ _ E2) as [i [l3 [-> [J E3]]]].
  destruct l3; [|discriminate]. exists l1, i. split; [reflexivity|]. subst j. exact K.
Qed.

Lemma open_items l : open_after (map what l) -> open_i l.
Proof.
  intros [p [m [q [n [r [E [KM KN]]]]]]].
  destruct (what_app l _ _ E) as [l1 [l2 [-> [_ E2]]]]. destruct (what_cons _ _ _ E2) as [i [l3 [-> [J E3]]]].
  destruct (what_app l3 _ _ E3) as [l4 [l5 [-> [_ E5]]]]. destruct (what_cons _ _ _ E5) as [k [l6 [-> [K _]]]].
  exists l1, i, l4, k, l6. subst m n. auto.
Qed.

Lemma again_repeats a x b : says_again (map what a) (what x) (map what b) -> repeats (a ++ b) (a ++ x :: b).
Proof.
  intros [AP [S H]]. apply apart_items in AP. apply said_items in S. destruct H as [F|[[C O]|[B N]]].
  - apply repeats_free; assumption.
  - apply repeats_count; [exact AP|exact C| |apply open_items, O]. change (fst (what x)) with (ic x) in *. rewrite C in S. exact S.
  - apply repeats_bound; [exact AP|exact B|exact S|]. rewrite <- map_app in N.
    apply (what_forall (fun k => k <> PhysicalMinimum /\ k <> PhysicalMaximum)), N.
Qed.

(** the value in force after some items *)
Definition force (c : icls) (o : option Z) (l : list item) : option Z :=
  fold_left (fun o i => if icls_eqb (ic i) c then Some (ival i) else o) l o.

Definition preset (c : icls) : option Z :=
  match c with Unit | UnitExponent => Some 0 | _ => None end.

Lemma force_app c o a b : force c o (a ++ b) = force c (force c o a) b.
Proof. apply fold_left_app. Qed.

Lemma force_cons c o i l : force c o (i :: l) = force c (if icls_eqb (ic i) c then Some (ival i) else o) l.
Proof. reflexivity. Qed.

Lemma force_none c o l : Forall (fun i => ic i <> c) l -> force c o l = o.
Proof.
  induction 1 as [|i l N _ IH]; [reflexivity|]. rewrite force_cons.
  destruct (icls_eqb (ic i) c) eqn:E; [apply icls_eqb_eq in E; contradiction|exact IH].
Qed.

Lemma force_filter c f l : (forall i, ic i = c -> f i = true) -> forall o, force c o (filter f l) = force c o l.
Proof.
  intros H. induction l as [|i l IH]; intros o; [reflexivity|]. cbn [filter]. rewrite (force_cons c o i l).
  destruct (f i) eqn:F; [rewrite force_cons; apply IH|].
  destruct (icls_eqb (ic i) c) eqn:E; [apply icls_eqb_eq in E; rewrite (H _ E) in F; discriminate|apply IH].
Qed.

Lemma said_force c v a : said_i c v a -> force c (preset c) a = Some v.
Proof.
  intros [[a1 [j [b [-> [J [V N]]]]]]|[C [V N]]].
  - rewrite force_app, force_cons, J, (proj2 (icls_eqb_eq c c) eq_refl), (force_none _ _ _ N), V. reflexivity.
  - rewrite (force_none _ _ _ N), V. destruct C as [-> | ->]; reflexivity.
Qed.

(** insertion where the value is in force *)
Definition again (x : item) (l l' : list item) : Prop :=
  exists a b, l = a ++ b /\ l' = a ++ x :: b /\ force (ic x) (preset (ic x)) a = Some (ival x).

(* --- passes that hold items back -------------------------------------- *)

Lemma seg_until stop g cl a : forall acc, exists pre acc', forall r, seg_run stop g cl acc (a ++ r) = pre ++ seg_run stop g cl acc' r.
Proof.
  induction a as [|i a IH]; intros acc; [exists [], acc; reflexivity|]. cbn [app seg_run].
  destruct (stop i).
  - destruct (IH []) as [pre [acc' H]]. exists (g acc ++ i :: pre), acc'. intros r. rewrite H, <- app_assoc. reflexivity.
  - apply IH.
Qed.

(** DesignatorUniq *)
Definition uq := seg_run du_stop du_g (fun _ => []).

Lemma uq_run l : run_pass designator_uniq l = uq [] l.
Proof. exact (du_feed l [] (Forall_nil _)). Qed.

Lemma du_g_incl acc : incl (du_g acc) acc.
Proof.
  unfold du_g. destruct (du_filt 0 DNone acc); try apply incl_refl.
  generalize pos. clear pos. induction acc as [|y acc IH]; intros n z I; [destruct n; exact I|].
  destruct n as [|n]; [right; exact I|]. destruct I as [->|I]; [left; reflexivity|right; apply (IH n), I].
Qed.

Lemma uq_apart c a : kind_of c <> Local -> forall acc, held du_stop acc -> (acc = [] \/ a <> []) -> apart_i a ->
  exists pre, (forall r, uq acc (a ++ r) = pre ++ uq [] r) /\ forall o, force c o pre = force c o a.
Proof.
  intros K. induction a as [|i a IH]; intros acc Ha NE AP.
  - destruct NE as [-> |NE]; [|contradiction]. exists []. split; intros; reflexivity.
  - assert (AP' : forall a', a = a' -> a' <> [] -> apart_i a').
    { intros a' <- N. right. destruct AP as [AP|[u [j [E L]]]]; [discriminate|].
      destruct u as [|w u]; [injection E as _ E; contradiction|]. injection E as _ ->. exists u, j. auto. }
    assert (HL : forall l, held du_stop l -> forall o, force c o l = o).
    { intros l Hl o. apply force_none. eapply Forall_impl; [|exact Hl]. intros y Y E. apply K. rewrite <- E.
      unfold du_stop, ikd in Y. destruct (kind_of (ic y)); try reflexivity; discriminate Y. }
    unfold uq in *. cbn [app seg_run]. destruct (du_stop i) eqn:St.
    + assert (HG : forall o, force c o (du_g acc) = o).
      { apply HL. apply incl_Forall with acc; [apply du_g_incl|exact Ha]. }
      destruct a as [|j a].
      * exists (du_g acc ++ [i]). split; [intros r; rewrite <- app_assoc; reflexivity|].
        intros o. rewrite force_app, HG. reflexivity.
      * destruct (IH [] (Forall_nil _) (or_introl eq_refl) (AP' _ eq_refl ltac:(discriminate))) as [pre [H F]].
        exists (du_g acc ++ i :: pre). split; [intros r; rewrite H, <- app_assoc; reflexivity|].
        intros o. rewrite force_app, HG, !force_cons. apply F.
    + destruct a as [|j a].
      * exfalso. destruct AP as [AP|[u [j [E L]]]]; [discriminate|].
        destruct u as [|w u]; [|destruct u; discriminate]. injection E as <-. unfold du_stop, ikd in St.
        destruct (kind_of (ic i)); try discriminate St. apply L. reflexivity.
      * destruct (IH (acc ++ [i])) as [pre [H F]].
        { apply Forall_app. split; [exact Ha|]. constructor; [exact St|constructor]. }
        { right. discriminate. }
        { apply AP'; [reflexivity|discriminate]. }
        exists pre. split; [exact H|]. intros o. rewrite F, (force_cons c o i).
        destruct (icls_eqb (ic i) c) eqn:E; [|reflexivity]. exfalso. apply icls_eqb_eq in E. apply K. rewrite <- E.
        unfold du_stop, ikd in St. destruct (kind_of (ic i)); try reflexivity; discriminate St.
Qed.

Lemma uq_insert x a b : kind_of (ic x) = Global -> apart_i a ->
  exists pre, run_pass designator_uniq (a ++ b) = pre ++ run_pass designator_uniq b /\
    run_pass designator_uniq (a ++ x :: b) = pre ++ x :: run_pass designator_uniq b /\
    forall o, force (ic x) o pre = force (ic x) o a.
Proof.
  intros G AP. destruct (uq_apart (ic x) a ltac:(rewrite G; discriminate) [] (Forall_nil _) (or_introl eq_refl) AP) as [pre [H F]].
  exists pre. rewrite !uq_run, !H. split; [reflexivity|]. split; [|exact F].
  unfold uq at 1. cbn [seg_run]. unfold du_stop at 1. unfold ikd. rewrite G. reflexivity.
Qed.

(** PhysicalMerge *)
Definition pq := seg_run is_main pm_g (fun acc => acc).

Lemma pq_run l : run_pass physical_merge l = pq [] l.
Proof. exact (pm_feed l [] (Forall_nil _)). Qed.

Definition neither (c : icls) : Prop := is_phys c = false /\ is_log c = false.

Lemma pm_ch_insert x u v : neither (ic x) -> pm_ch (u ++ x :: v) = pm_ch (u ++ v).
Proof.
  intros [P L]. unfold pm_ch. rewrite !fold_left_app. cbn [fold_left]. unfold pm_next at 2. rewrite P, L. reflexivity.
Qed.

Lemma pm_g_insert x u v : neither (ic x) ->
  exists p q, pm_g (u ++ v) = p ++ q /\ pm_g (u ++ x :: v) = p ++ x :: q /\ forall o, force (ic x) o p = force (ic x) o u.
Proof.
  intros N. unfold pm_g. rewrite (pm_ch_insert x u v N). destruct (_ && _); [|exists u, v; auto].
  rewrite !filter_app. cbn [filter]. rewrite (proj1 N). cbn [negb].
  eexists _, _. split; [reflexivity|]. split; [reflexivity|]. intros o. apply force_filter.
  intros i ->. rewrite (proj1 N). reflexivity.
Qed.

Lemma pq_held x b : neither (ic x) -> forall u v,
  exists p q, pq (u ++ v) b = p ++ q /\ pq (u ++ x :: v) b = p ++ x :: q /\ forall o, force (ic x) o p = force (ic x) o u.
Proof.
  intros N. induction b as [|i b IH]; intros u v; [exists u, v; auto|]. unfold pq in *. cbn [seg_run].
  destruct (is_main i).
  - destruct (pm_g_insert x u v N) as [p [q [-> [-> F]]]]. exists p. eexists. rewrite <- !app_assoc. cbn [app].
    split; [reflexivity|]. split; [reflexivity|exact F].
  - rewrite <- !app_assoc. cbn [app]. apply IH.
Qed.

Lemma pq_force c : neither c -> kind_of c = Global -> forall a acc, exists pre acc',
  (forall r, pq acc (a ++ r) = pre ++ pq acc' r) /\ forall o, force c o (pre ++ acc') = force c o (acc ++ a).
Proof.
  intros N G. assert (FG : forall acc o, force c o (pm_g acc) = force c o acc).
  { intros acc o. unfold pm_g. destruct (_ && _); [|reflexivity]. apply force_filter. intros i ->. rewrite (proj1 N). reflexivity. }
  unfold pq. induction a as [|i a IH]; intros acc; [exists [], acc; split; [reflexivity|intros; now rewrite app_nil_r]|].
  cbn [app seg_run]. destruct (is_main i).
  - destruct (IH []) as [pre [acc' [H F]]]. exists (pm_g acc ++ i :: pre), acc'. split.
    + intros r. rewrite H, <- app_assoc. reflexivity.
    + intros o. rewrite <- app_assoc, !force_app, FG. cbn [app]. rewrite !force_cons. rewrite <- force_app, F. reflexivity.
  - destruct (IH (acc ++ [i])) as [pre [acc' [H F]]]. exists pre, acc'. split; [exact H|].
    intros o. rewrite F, <- app_assoc. reflexivity.
Qed.

Lemma pm_again x l l' : neither (ic x) -> kind_of (ic x) = Global -> again x l l' ->
  again x (run_pass physical_merge l) (run_pass physical_merge l').
Proof.
  intros N G [a [b [-> [-> F]]]]. rewrite !pq_run. destruct (pq_force (ic x) N G a []) as [pre [acc [H FA]]]. rewrite !H.
  assert (S : pq acc (x :: b) = pq (acc ++ [x]) b).
  { unfold pq. cbn [seg_run]. unfold is_main at 1. unfold ikd. rewrite G. reflexivity. }
  rewrite S. destruct (pq_held x b N acc []) as [p [q [E1 [E2 FP]]]]. rewrite app_nil_r in E1. rewrite E1, E2.
  exists (pre ++ p), q. rewrite <- !app_assoc. split; [reflexivity|]. split; [reflexivity|].
  rewrite force_app, FP, <- force_app, FA. exact F.
Qed.

(** GlobalMerge *)
Definition knows_last (g : gm_state) (c : icls) (o : option Z) : Prop :=
  match g c with Some j => ic j = c /\ o = Some (ival j) | None => o = None end.

Lemma gm_knows c a : kind_of c = Global -> forall g o, knows_last g c o ->
  knows_last (fst (feed global_merge g a)) c (force c o a).
Proof.
  intros G. induction a as [|i a IH]; intros g o K; [exact K|]. rewrite force_cons. cbn [feed].
  change (p_append global_merge g i) with (gm_append g i). unfold gm_append.
  destruct (ikd i) eqn:KI.
  - specialize (IH g o K). destruct (icls_eqb (ic i) c) eqn:E.
    + apply icls_eqb_eq in E. unfold ikd in KI. rewrite E, G in KI. discriminate.
    + destruct (feed global_merge g a). exact IH.
  - specialize (IH (upd g (ic i) (Some i)) (if icls_eqb (ic i) c then Some (ival i) else o)).
    destruct (feed global_merge _ a). apply IH. unfold knows_last, upd.
    destruct (icls_eqb c (ic i)) eqn:E.
    + apply icls_eqb_eq in E. subst c. rewrite (proj2 (icls_eqb_eq (ic i) (ic i)) eq_refl). auto.
    + destruct (icls_eqb (ic i) c) eqn:E'; [|exact K].
      apply icls_eqb_eq in E'. rewrite E', (proj2 (icls_eqb_eq c c) eq_refl) in E. discriminate.
  - specialize (IH g o K). destruct (icls_eqb (ic i) c) eqn:E.
    + apply icls_eqb_eq in E. unfold ikd in KI. rewrite E, G in KI. discriminate.
    + destruct (feed global_merge g a). exact IH.
Qed.

Definition like_mem (g h : gm_state) : Prop :=
  forall c, match g c, h c with
            | None, None => True
            | Some a, Some b => ic a = ic b /\ ival a = ival b
            | _, _ => False
            end.

Lemma like_feed l : forall g h, like_mem g h -> snd (feed global_merge g l) = snd (feed global_merge h l).
Proof.
  induction l as [|i l IH]; intros g h S; [reflexivity|]. cbn [feed].
  change (p_append global_merge) with gm_append. unfold gm_append.
  assert (D : match g (ic i) with None => true | Some j => negb (item_eqb j i) end =
              match h (ic i) with None => true | Some j => negb (item_eqb j i) end).
  { specialize (S (ic i)). destruct (g (ic i)), (h (ic i)); try contradiction; [|reflexivity].
    destruct S as [A B]. unfold item_eqb, ikd. rewrite A, B. reflexivity. }
  destruct (ikd i).
  - specialize (IH g h S). destruct (feed global_merge g l), (feed global_merge h l). cbn [snd] in *. rewrite IH. reflexivity.
  - rewrite D. specialize (IH (upd g (ic i) (Some i)) (upd h (ic i) (Some i))).
    destruct (feed global_merge (upd g (ic i) (Some i)) l), (feed global_merge (upd h (ic i) (Some i)) l). cbn [snd] in *.
    rewrite IH; [reflexivity|]. intros c. unfold upd. destruct (icls_eqb c (ic i)); [auto|apply S].
  - specialize (IH g h S). destruct (feed global_merge g l), (feed global_merge h l). cbn [snd] in *. rewrite IH. reflexivity.
Qed.

Definition loose (c : icls) : Prop := free_class c \/ c = LogicalMinimum \/ c = LogicalMaximum.

Ltac loosely FC := destruct FC as [[->|[->|[->|[->| ->]]]]|[->| ->]].

Lemma gm_again x l l' : loose (ic x) -> again x l l' -> run_pass global_merge l' = run_pass global_merge l.
Proof.
  intros FC [a [b [-> [-> F]]]].
  assert (R : forall l, run_pass global_merge l = snd (feed global_merge gm_init l)).
  { intros l. unfold run_pass. change (p_init global_merge) with gm_init. destruct (feed global_merge gm_init l). apply app_nil_r. }
  rewrite !R, !feed_app. cbn [snd]. f_equal.
  assert (G : kind_of (ic x) = Global) by (loosely FC; reflexivity).
  assert (K : knows_last (fst (feed global_merge gm_init a)) (ic x) (Some (ival x))).
  { rewrite <- F. apply gm_knows; [exact G|]. unfold knows_last. loosely FC; cbn; auto. }
  set (g := fst (feed global_merge gm_init a)) in *. clearbody g. unfold knows_last in K.
  destruct (g (ic x)) as [j|] eqn:J; [|discriminate K]. destruct K as [K1 K2].
  assert (K3 : ival j = ival x) by (injection K2 as ->; reflexivity).
  cbn [feed]. change (p_append global_merge g x) with (gm_append g x). unfold gm_append. unfold ikd at 1. rewrite G, J.
  assert (E : item_eqb j x = true) by (apply item_eqb_spec; auto). rewrite E. cbn [negb orb].
  assert (P1 : icls_eqb (ic x) Push = false) by (loosely FC; reflexivity).
  assert (P2 : icls_eqb (ic x) Pop = false) by (loosely FC; reflexivity).
  rewrite P1, P2. cbn [orb].
  pose proof (like_feed b (upd g (ic x) (Some x)) g) as L. destruct (feed global_merge (upd g (ic x) (Some x)) b). cbn [snd app] in *.
  apply L. intros c. unfold upd. destruct (icls_eqb c (ic x)) eqn:C.
  - apply icls_eqb_eq in C. subst c. rewrite J. auto.
  - destruct (g c); auto.
Qed.

(* --- MainMerge --------------------------------------------------------- *)

Definition mrun (s : mm_state) (l : list item) : list item :=
  snd (feed main_merge s l) ++ mm_close (fst (feed main_merge s l)).

Lemma mrun_run l : run_pass main_merge l = mrun mm_init l.
Proof. unfold run_pass, mrun. change (p_init main_merge) with mm_init. destruct (feed main_merge mm_init l). reflexivity. Qed.

Lemma mrun_cons s i l : mrun s (i :: l) = snd (mm_append s i) ++ mrun (fst (mm_append s i)) l.
Proof.
  unfold mrun. cbn [feed]. change (p_append main_merge s i) with (mm_append s i). destruct (mm_append s i) as [t p]. cbn [fst snd].
  destruct (feed main_merge t l) as [t2 p2]. cbn [fst snd]. rewrite app_assoc. reflexivity.
Qed.

Lemma mrun_app a : forall s b,
  mrun s (a ++ b) = snd (feed main_merge s a) ++ mrun (fst (feed main_merge s a)) b.
Proof.
  induction a as [|i a IH]; intros s b; [reflexivity|]. cbn [app]. rewrite mrun_cons, IH. cbn [feed].
  change (p_append main_merge s i) with (mm_append s i). destruct (mm_append s i) as [t p]. cbn [fst snd].
  destruct (feed main_merge t a) as [t2 p2]. cbn [fst snd]. rewrite app_assoc. reflexivity.
Qed.

Definition mains_ok (s : mm_state) : Prop := Forall (fun i => kind_of (ic i) = Main) (mm_mains s).

(** the steps of append *)
Definition push (s : mm_state) (i : item) : mm_state :=
  MM (mm_before s) (mm_mains s) (mm_after s ++ [i]) (mm_bcount s) (mm_acount s) (mm_props s).
Definition note (s : mm_state) (i : item) : mm_state :=
  MM (mm_before s) (mm_mains s) (mm_after s) (mm_bcount s) (mm_acount s) (upd (mm_props s) (ic i) (ival i)).
Definition tally (s : mm_state) (i : item) : mm_state :=
  match ic i with
  | ReportCount => MM (mm_before s) (mm_mains s) (mm_after s) (mm_bcount s) (ival i) (mm_props s)
  | _ => s
  end.
Definition take (s : mm_state) (i : item) : mm_state :=
  MM (mm_before s ++ mm_after s) (mm_mains s ++ [i]) [] (mm_bcount s + mm_acount s) (mm_acount s) (mm_props s).

Definition stay (s : mm_state) : mm_state * list item := (s, []).
Definition andthen (r : mm_state * list item) (f : mm_state -> mm_state * list item) : mm_state * list item :=
  (fst (f (fst r)), snd r ++ snd (f (fst r))).

Lemma append_steps s i : mm_append s i =
  match kind_of (ic i) with
  | Local => stay (push s i)
  | Global => andthen (if to_watch (ic i) && negb (mm_props s (ic i) =? ival i) then mm_flush (note (push s i) i) else stay (push s i))
                (fun s => stay (tally s i))
  | Main => if negb (is_data (ic i)) then mm_flush (push s i)
            else andthen (match mm_mains s with m :: _ => if item_eqb i m then stay s else mm_flush s | [] => stay s end)
                   (fun s => if negb (mm_acount s =? 1) then mm_flush (take s i) else stay (take s i))
  end.
Proof.
  unfold mm_append, ikd. destruct (kind_of (ic i)) eqn:K.
  - destruct (negb (is_data (ic i))); [reflexivity|]. unfold andthen.
    destruct (match mm_mains s with m :: _ => if item_eqb i m then stay s else mm_flush s | [] => stay s end) as [s1 o1] eqn:E.
    assert (E' : match mm_mains s with m :: _ => if item_eqb i m then (s, []) else mm_flush s | [] => (s, []) end = (s1, o1))
      by exact E. rewrite E'. cbn [fst snd].
    change (MM (mm_before s1 ++ mm_after s1) (mm_mains s1 ++ [i]) [] (mm_bcount s1 + mm_acount s1) (mm_acount s1) (mm_props s1)) with (take s1 i).
    destruct (negb (mm_acount s1 =? 1)); [destruct (mm_flush (take s1 i)); reflexivity|]. unfold stay. cbn [fst snd]. rewrite app_nil_r. reflexivity.
  - unfold andthen, stay. destruct (to_watch (ic i) && _).
    + change (MM (mm_before (MM (mm_before s) (mm_mains s) (mm_after s ++ [i]) (mm_bcount s) (mm_acount s) (mm_props s))) _ _ _ _ _) with (note (push s i) i).
      destruct (mm_flush (note (push s i) i)) as [s2 o2]. cbn [fst snd]. rewrite app_nil_r. destruct i as [c v]. destruct c; reflexivity.
    + cbn [fst snd app]. destruct i as [c v]. destruct c; reflexivity.
  - reflexivity.
Qed.

Section Extra.
Variable x : item.
Hypothesis GX : kind_of (ic x) = Global.
Hypothesis NC : ic x <> ReportCount.

(** s' holds x once more; o is the value in force in the output *)
Definition more (o : option Z) (s s' : mm_state) : Prop :=
  mains_ok s /\ mm_mains s' = mm_mains s /\ mm_bcount s' = mm_bcount s /\ mm_acount s' = mm_acount s /\ mm_props s' = mm_props s /\
  ((exists u v, mm_before s = u ++ v /\ mm_before s' = u ++ x :: v /\ mm_after s' = mm_after s /\
      force (ic x) o u = Some (ival x)) \/
   (exists u v, mm_after s = u ++ v /\ mm_after s' = u ++ x :: v /\ mm_before s' = mm_before s /\
      force (ic x) o (mm_before s ++ u) = Some (ival x))).

Definition sim (o : option Z) (r r' : mm_state * list item) : Prop :=
  (snd r' = snd r /\ more (force (ic x) o (snd r)) (fst r) (fst r')) \/
  (fst r' = fst r /\ exists a b, snd r = a ++ b /\ snd r' = a ++ x :: b /\ force (ic x) o a = Some (ival x)).

Lemma sim_stay o s s' : more o s s' -> sim o (stay s) (stay s').
Proof. intros H. left. split; [reflexivity|exact H]. Qed.

Lemma sim_then o r r' f : sim o r r' ->
  (forall o s s', more o s s' -> sim o (f s) (f s')) -> sim o (andthen r f) (andthen r' f).
Proof.
  intros [[E M]|[E [a [b [E1 [E2 F]]]]]] H; unfold andthen; cbn [fst snd].
  - rewrite E. destruct (H _ _ _ M) as [[E1 M1]|[E1 [a [b [E2 [E3 F]]]]]].
    + left. cbn [fst snd]. rewrite E1. split; [reflexivity|]. rewrite force_app. exact M1.
    + right. cbn [fst snd]. split; [exact E1|]. exists (snd r ++ a), b. rewrite E2, E3, <- !app_assoc.
      split; [reflexivity|]. split; [reflexivity|]. rewrite force_app. exact F.
  - right. cbn [fst snd]. rewrite E. split; [reflexivity|]. exists a, (b ++ snd (f (fst r))). rewrite E1, E2, <- !app_assoc.
    split; [reflexivity|]. split; [reflexivity|exact F].
Qed.

Lemma not_rc_force l o : force (ic x) o (filter not_rc l) = force (ic x) o l.
Proof. apply force_filter. intros i E. unfold not_rc. rewrite E. destruct (ic x); try reflexivity. contradiction. Qed.

Lemma sim_flush o s s' : more o s s' -> sim o (mm_flush s) (mm_flush s').
Proof.
  intros [MO [E1 [E2 [E3 [E4 H]]]]]. unfold mm_flush. rewrite E1, E2, E3, E4.
  assert (X : not_rc x = true) by (unfold not_rc; destruct (ic x); try reflexivity; contradiction).
  destruct H as [[u [v [B [B' [A F]]]]]|[u [v [A [A' [B F]]]]]].
  - right. cbn [fst snd]. rewrite A. split; [reflexivity|]. rewrite B, B', !filter_app. cbn [filter]. rewrite X.
    exists (filter not_rc u). eexists. rewrite <- !app_assoc. cbn [app]. split; [reflexivity|]. split; [reflexivity|].
    rewrite not_rc_force. exact F.
  - left. cbn [fst snd]. rewrite B. split; [reflexivity|]. rewrite force_app, not_rc_force.
    assert (T : force (ic x) (force (ic x) o (mm_before s)) match mm_mains s with [] => [] | m :: _ => [rc_item (mm_bcount s); m] end =
                force (ic x) o (mm_before s)).
    { apply force_none. unfold mains_ok in MO. destruct (mm_mains s) as [|m ms]; [constructor|]. inversion MO as [|? ? K _]; subst.
      constructor; [intros E; apply NC; rewrite <- E; reflexivity|]. constructor; [|constructor]. intros E. rewrite E, GX in K. discriminate. }
    rewrite T. unfold more. cbn [mm_mains mm_bcount mm_acount mm_props mm_before mm_after]. split; [constructor|]. repeat (split; [reflexivity|]).
    left. exists u, v. split; [exact A|]. split; [exact A'|]. split; [reflexivity|]. rewrite <- force_app. exact F.
Qed.

Lemma more_push o s s' i : more o s s' -> more o (push s i) (push s' i).
Proof.
  intros [MO [E1 [E2 [E3 [E4 H]]]]]. unfold more, push. cbn [mm_mains mm_bcount mm_acount mm_props mm_before mm_after].
  split; [exact MO|]. repeat (split; [assumption|]). destruct H as [[u [v [B [B' [A F]]]]]|[u [v [A [A' [B F]]]]]].
  - left. exists u, v. rewrite A. auto.
  - right. exists u, (v ++ [i]). rewrite A, A', <- !app_assoc. auto.
Qed.

Lemma more_note o s s' i : more o s s' -> more o (note s i) (note s' i).
Proof.
  intros [MO [E1 [E2 [E3 [E4 H]]]]]. unfold more, note. cbn [mm_mains mm_bcount mm_acount mm_props mm_before mm_after].
  rewrite E4. repeat (split; [assumption || reflexivity|]). exact H.
Qed.

Lemma more_tally o s s' i : more o s s' -> more o (tally s i) (tally s' i).
Proof.
  intros M. unfold tally. destruct (ic i); try exact M. destruct M as [MO [E1 [E2 [E3 [E4 H]]]]].
  unfold more. cbn [mm_mains mm_bcount mm_acount mm_props mm_before mm_after].
  repeat (split; [assumption || reflexivity|]). exact H.
Qed.

Lemma more_take o s s' i : kind_of (ic i) = Main -> more o s s' -> more o (take s i) (take s' i).
Proof.
  intros K [MO [E1 [E2 [E3 [E4 H]]]]]. unfold more, take. cbn [mm_mains mm_bcount mm_acount mm_props mm_before mm_after].
  rewrite E1, E2, E3, E4. split; [apply Forall_app; split; [exact MO|constructor; [exact K|constructor]]|]. repeat (split; [reflexivity|]).
  left. destruct H as [[u [v [B [B' [A F]]]]]|[u [v [A [A' [B F]]]]]].
  - exists u, (v ++ mm_after s). rewrite B, B', A, <- !app_assoc. auto.
  - exists (mm_before s ++ u), v. rewrite A, A', B, <- !app_assoc. auto.
Qed.

Lemma sim_append o s s' i : more o s s' -> sim o (mm_append s i) (mm_append s' i).
Proof.
  intros M. rewrite !append_steps. pose proof M as [_ [E1 [_ [_ [E4 _]]]]]. rewrite E1, E4. destruct (kind_of (ic i)) eqn:K.
  - destruct (negb (is_data (ic i))); [apply sim_flush, more_push, M|]. apply sim_then.
    + destruct (mm_mains s) as [|m ms]; [apply sim_stay, M|]. destruct (item_eqb i m); [apply sim_stay, M|apply sim_flush, M].
    + intros o1 t t' T. pose proof T as [_ [_ [_ [E3 _]]]]. rewrite E3.
      destruct (negb (mm_acount t =? 1)); [apply sim_flush, more_take; assumption|apply sim_stay, more_take; assumption].
  - apply sim_then.
    + destruct (_ && _); [apply sim_flush, more_note, more_push, M|apply sim_stay, more_push, M].
    + intros o1 t t' T. apply sim_stay, more_tally, T.
  - apply sim_stay, more_push, M.
Qed.

Lemma sim_run l : forall o s s', more o s s' ->
  exists a b, mrun s l = a ++ b /\ mrun s' l = a ++ x :: b /\ force (ic x) o a = Some (ival x).
Proof.
  induction l as [|i l IH]; intros o s s' M.
  - unfold mrun. cbn [feed fst snd app]. unfold mm_close. destruct M as [MO [E1 [_ [_ [_ H]]]]]. rewrite E1.
    assert (FM : forall o, force (ic x) o (mm_mains s) = o).
    { intros o1. apply force_none. eapply Forall_impl; [|exact MO]. intros j K E. cbn beta in K. rewrite E, GX in K. discriminate. }
    destruct H as [[u [v [B [B' [A F]]]]]|[u [v [A [A' [B F]]]]]].
    + exists u. eexists. rewrite B, B', A, <- !app_assoc. cbn [app]. split; [reflexivity|]. split; [reflexivity|exact F].
    + exists (mm_before s ++ mm_mains s ++ u), v. rewrite A, A', B, <- !app_assoc.
      split; [reflexivity|]. split; [reflexivity|]. rewrite !force_app, FM, <- force_app. exact F.
  - rewrite !mrun_cons. destruct (sim_append o s s' i M) as [[E M1]|[E [a [b [E1 [E2 F]]]]]].
    + destruct (IH _ _ _ M1) as [a [b [H1 [H2 F]]]]. rewrite E, H1, H2. exists (snd (mm_append s i) ++ a), b.
      rewrite <- !app_assoc. split; [reflexivity|]. split; [reflexivity|]. rewrite force_app. exact F.
    + rewrite E, E1, E2. exists a. eexists. rewrite <- !app_assoc. cbn [app]. split; [reflexivity|]. split; [reflexivity|exact F].
Qed.
End Extra.

(** what the pass holds and remembers *)
Definition tracks (c : icls) (o : option Z) (s : mm_state) : Prop :=
  mains_ok s /\ (to_watch c = true -> mm_props s c = match o with Some v => v | None => 0 end) /\
  (c = ReportCount -> mm_acount s = match o with Some v => v | None => 0 end).

Lemma watch_rc c : to_watch c = true -> c <> ReportCount.
Proof. destruct c; discriminate. Qed.

Lemma flush_ok s : mains_ok (fst (mm_flush s)) /\ mm_props (fst (mm_flush s)) = mm_props s /\ mm_acount (fst (mm_flush s)) = mm_acount s.
Proof. unfold mm_flush. cbn. repeat split. constructor. Qed.

Lemma append_tracks c o s i : kind_of c = Global -> tracks c o s ->
  tracks c (if icls_eqb (ic i) c then Some (ival i) else o) (fst (mm_append s i)).
Proof.
  intros G [MO [W R]]. rewrite append_steps. destruct (kind_of (ic i)) eqn:K.
  - assert (E : icls_eqb (ic i) c = false)
      by (destruct (icls_eqb (ic i) c) eqn:E; [apply icls_eqb_eq in E; rewrite E, G in K; discriminate|reflexivity]).
    rewrite E. destruct (negb (is_data (ic i))).
    + destruct (flush_ok (push s i)) as [A [B C]]. split; [exact A|]. rewrite B, C. split; [exact W|exact R].
    + unfold andthen. cbn [fst].
      set (r := match mm_mains s with m :: _ => if item_eqb i m then stay s else mm_flush s | [] => stay s end).
      assert (RR : mains_ok (fst r) /\ mm_props (fst r) = mm_props s /\ mm_acount (fst r) = mm_acount s).
      { unfold r. destruct (mm_mains s) as [|m ms]; [auto|]. destruct (item_eqb i m); [auto|apply flush_ok]. }
      clearbody r. destruct RR as [A [B C]]. destruct (negb (mm_acount (fst r) =? 1)).
      * destruct (flush_ok (take (fst r) i)) as [A' [B' C']]. split; [exact A'|]. rewrite B', C'. unfold take. cbn. rewrite B, C. auto.
      * unfold stay. cbn [fst]. unfold take, tracks, mains_ok. cbn. rewrite B, C. split; [|auto].
        apply Forall_app. split; [exact A|]. constructor; [exact K|constructor].
  - unfold andthen, stay. cbn [fst].
    assert (T : forall t, mains_ok t -> mm_acount t = mm_acount s ->
      (to_watch c = true -> mm_props t c = match (if icls_eqb (ic i) c then Some (ival i) else o) with Some v => v | None => 0 end) ->
      tracks c (if icls_eqb (ic i) c then Some (ival i) else o) (tally t i)).
    { intros t A B C. unfold tally. destruct (icls_eqb (ic i) c) eqn:E.
      - apply icls_eqb_eq in E. subst c. split; [destruct (ic i); exact A|]. split; [intros Q; specialize (C Q); destruct (ic i); exact C|].
        intros Q. rewrite Q. reflexivity.
      - assert (N : ic i <> c) by (intros Q; rewrite Q, (proj2 (icls_eqb_eq c c) eq_refl) in E; discriminate).
        split; [destruct (ic i); exact A|]. split; [intros Q; specialize (C Q); destruct (ic i); exact C|].
        intros Q. specialize (R Q). destruct (ic i) eqn:I; try (rewrite B; exact R). destruct N. congruence. }
    destruct (to_watch (ic i) && negb (mm_props s (ic i) =? ival i)) eqn:D.
    + destruct (flush_ok (note (push s i) i)) as [A [B C]]. apply T; [exact A|exact C|]. intros Q. rewrite B.
      unfold note, push, upd. cbn. destruct (icls_eqb c (ic i)) eqn:E.
      * apply icls_eqb_eq in E. subst c. rewrite (proj2 (icls_eqb_eq (ic i) (ic i)) eq_refl). reflexivity.
      * destruct (icls_eqb (ic i) c) eqn:E'; [apply icls_eqb_eq in E'; rewrite E', (proj2 (icls_eqb_eq c c) eq_refl) in E; discriminate|apply W, Q].
    + cbn [fst]. apply T; [exact MO|reflexivity|]. intros Q. cbn. destruct (icls_eqb (ic i) c) eqn:E; [|apply W, Q].
      apply icls_eqb_eq in E. subst c. rewrite Q in D. cbn [andb] in D. lia.
  - assert (E : icls_eqb (ic i) c = false)
      by (destruct (icls_eqb (ic i) c) eqn:E; [apply icls_eqb_eq in E; rewrite E, G in K; discriminate|reflexivity]).
    rewrite E. split; [exact MO|]. split; [exact W|exact R].
Qed.

Lemma feed_tracks c a : kind_of c = Global -> forall o s, tracks c o s -> tracks c (force c o a) (fst (feed main_merge s a)).
Proof.
  intros G. induction a as [|i a IH]; intros o s T; [exact T|]. rewrite force_cons. cbn [feed].
  change (p_append main_merge s i) with (mm_append s i). pose proof (append_tracks c o s i G T) as T1.
  destruct (mm_append s i) as [t p]. specialize (IH _ _ T1). cbn [fst] in IH. destruct (feed main_merge t a). exact IH.
Qed.

(** nothing of other classes than ReportCount is lost or moved *)
Definition held_back (s : mm_state) : list item := mm_before s ++ mm_after s.

Lemma flush_force c s o : kind_of c = Global -> c <> ReportCount -> mains_ok s ->
  force c o (snd (mm_flush s) ++ held_back (fst (mm_flush s))) = force c o (held_back s).
Proof.
  intros G N MO. unfold mm_flush, held_back. cbn [fst snd mm_before mm_after]. rewrite app_nil_r, !force_app.
  assert (F : force c o (filter not_rc (mm_before s)) = force c o (mm_before s)).
  { apply force_filter. intros i E. unfold not_rc. rewrite E. destruct c; try reflexivity. contradiction. }
  rewrite F. f_equal. apply force_none. unfold mains_ok in MO. destruct (mm_mains s) as [|m ms]; [constructor|].
  inversion MO as [|? ? K _]; subst. constructor; [intros E; apply N; rewrite <- E; reflexivity|]. constructor; [|constructor].
  intros E. rewrite E, G in K. discriminate.
Qed.

Lemma append_force c s i o : kind_of c = Global -> c <> ReportCount -> mains_ok s ->
  force c o (snd (mm_append s i) ++ held_back (fst (mm_append s i))) = force c o (held_back s ++ [i]).
Proof.
  intros G N MO. rewrite append_steps.
  assert (HP : held_back (push s i) = held_back s ++ [i]) by (unfold held_back, push; cbn; apply app_assoc).
  destruct (kind_of (ic i)) eqn:K.
  - assert (KI : forall o, force c o [i] = o).
    { intros o1. apply force_none. constructor; [|constructor]. intros E. rewrite E, G in K. discriminate. }
    destruct (negb (is_data (ic i))); [rewrite <- HP; apply flush_force; assumption|].
    unfold andthen. cbn [fst snd].
    set (r := match mm_mains s with m :: _ => if item_eqb i m then stay s else mm_flush s | [] => stay s end).
    assert (RR : mains_ok (fst r) /\ force c o (snd r ++ held_back (fst r)) = force c o (held_back s)).
    { unfold r. destruct (mm_mains s) as [|m ms] eqn:MM0; [auto|]. destruct (item_eqb i m); [auto|]. split; [apply flush_ok|].
      apply flush_force; assumption. }
    clearbody r. destruct RR as [A B].
    assert (MT : mains_ok (take (fst r) i)).
    { unfold mains_ok, take. cbn. apply Forall_app. split; [exact A|]. constructor; [exact K|constructor]. }
    assert (HT : held_back (take (fst r) i) = held_back (fst r)) by (unfold held_back, take; cbn; apply app_nil_r).
    rewrite <- app_assoc, (force_app c o (snd r)), (force_app c o (held_back s)), KI, <- B, (force_app c o (snd r)).
    destruct (negb (mm_acount (fst r) =? 1)).
    + rewrite flush_force by assumption. rewrite HT. reflexivity.
    + unfold stay. cbn [fst snd app]. rewrite HT. reflexivity.
  - unfold andthen, stay. cbn [fst snd]. rewrite app_nil_r.
    assert (HT : forall t, held_back (tally t i) = held_back t) by (intros t; unfold tally; destruct (ic i); reflexivity).
    rewrite HT, <- HP. destruct (_ && _); [|reflexivity].
    change (held_back (push s i)) with (held_back (note (push s i) i)). apply flush_force; assumption.
  - unfold stay. cbn [fst snd app]. rewrite HP. reflexivity.
Qed.

Lemma feed_force c a : kind_of c = Global -> c <> ReportCount -> forall s o, mains_ok s ->
  mains_ok (fst (feed main_merge s a)) /\
  force c o (snd (feed main_merge s a) ++ held_back (fst (feed main_merge s a))) = force c o (held_back s ++ a).
Proof.
  intros G N. induction a as [|i a IH]; intros s o MO; [split; [exact MO|cbn; now rewrite app_nil_r]|].
  cbn [feed]. change (p_append main_merge s i) with (mm_append s i).
  pose proof (append_force c s i o G N MO) as F.
  assert (MT : mains_ok (fst (mm_append s i))).
  { apply (append_tracks c (match to_watch c with true => Some (mm_props s c) | false => None end) s i G).
    split; [exact MO|]. split; [intros ->; reflexivity|]. intros ->. contradiction. }
  destruct (mm_append s i) as [t p]. cbn [fst snd] in *.
  destruct (IH t (force c o p) MT) as [A B]. destruct (feed main_merge t a) as [t2 p2]. cbn [fst snd] in *.
  split; [exact A|]. rewrite <- app_assoc, force_app, B, <- force_app, app_assoc, force_app, F, <- force_app, <- app_assoc. reflexivity.
Qed.

Lemma mm_again x l l' : loose (ic x) -> again x l l' -> again x (run_pass main_merge l) (run_pass main_merge l').
Proof.
  intros FC [a [b [-> [-> F]]]].
  assert (G : kind_of (ic x) = Global) by (loosely FC; reflexivity).
  assert (N : ic x <> ReportCount) by (loosely FC; discriminate).
  rewrite !mrun_run, !mrun_app, mrun_cons.
  destruct (feed_force (ic x) a G N mm_init (preset (ic x)) (Forall_nil _)) as [MO FF].
  assert (T : tracks (ic x) (preset (ic x)) mm_init).
  { split; [constructor|]. split; [intros _; destruct (ic x); reflexivity|]. contradiction. }
  pose proof (feed_tracks (ic x) a G _ _ T) as [_ [W _]]. rewrite F in W.
  set (s := fst (feed main_merge mm_init a)) in *. set (out := snd (feed main_merge mm_init a)) in *. clearbody s out.
  assert (S : mm_append s x = stay (push s x)).
  { rewrite append_steps, G. assert (E : to_watch (ic x) && negb (mm_props s (ic x) =? ival x) = false).
    { destruct (to_watch (ic x)) eqn:Q; [|reflexivity]. rewrite (W eq_refl). cbn [andb]. lia. }
    rewrite E. unfold andthen, stay. cbn [fst snd app]. unfold tally. destruct (ic x); try reflexivity. contradiction. }
  rewrite S. unfold stay. cbn [fst snd app].
  assert (M : more x (force (ic x) (preset (ic x)) out) s (push s x)).
  { unfold more, push. cbn. split; [exact MO|]. repeat (split; [reflexivity|]). right. exists (mm_after s), [].
    rewrite app_nil_r. split; [reflexivity|]. split; [reflexivity|]. split; [reflexivity|].
    rewrite <- force_app. change (mm_before s ++ mm_after s) with (held_back s). rewrite FF. exact F. }
  destruct (sim_run x G N b _ _ _ M) as [p [q [H1 [H2 F2]]]]. rewrite H1, H2. exists (out ++ p), q. rewrite <- !app_assoc.
  split; [reflexivity|]. split; [reflexivity|]. rewrite force_app. exact F2.
Qed.

(* --- ReportCount ------------------------------------------------------ *)

Inductive place := Gone | Early | Late.

Definition sooner (p : place) : place := match p with Late => Early | _ => Gone end.
Definition not_late (p : place) : place := match p with Late => Early | p => p end.
Definition no_later (p q : place) : Prop :=
  match p, q with Gone, _ => True | Early, Gone => False | Early, _ => True | Late, Late => True | Late, _ => False end.

(** s' holds x once more, or no more *)
Definition counts (x : item) (p : place) (s s' : mm_state) : Prop :=
  mm_mains s' = mm_mains s /\ mm_bcount s' = mm_bcount s /\ mm_acount s' = mm_acount s /\ mm_props s' = mm_props s /\
  match p with
  | Gone => mm_before s' = mm_before s /\ mm_after s' = mm_after s
  | Early => mm_after s' = mm_after s /\ exists u v, mm_before s = u ++ v /\ mm_before s' = u ++ x :: v
  | Late => mm_before s' = mm_before s /\ exists u v, mm_after s = u ++ v /\ mm_after s' = u ++ x :: v
  end.

Lemma no_later_trans p q r : no_later p q -> no_later q r -> no_later p r.
Proof. destruct p, q, r; cbn; tauto. Qed.
Lemma no_later_same p : no_later p p.
Proof. destruct p; exact I. Qed.
Lemma sooner_no_later p : no_later (sooner p) p.
Proof. destruct p; exact I. Qed.

(** as r and r' do the same, x being at p or earlier afterwards *)
Definition steady (x : item) (p : place) (r r' : mm_state * list item) : Prop :=
  snd r' = snd r /\ exists q, no_later q p /\ counts x q (fst r) (fst r').

Section Count.
Variable x : item.
Hypothesis RC : ic x = ReportCount.

Lemma cm_flush p s s' : counts x p s s' -> steady x (sooner p) (mm_flush s) (mm_flush s').
Proof.
  intros [E1 [E2 [E3 [E4 H]]]]. assert (X : not_rc x = false) by (unfold not_rc; rewrite RC; reflexivity).
  unfold mm_flush, steady. cbn [fst snd]. rewrite E1, E2, E3, E4.
  unfold counts. cbn [mm_mains mm_bcount mm_acount mm_props mm_before mm_after].
  destruct p; destruct H as [H1 H2].
  - rewrite H1, H2. split; [reflexivity|]. exists Gone. repeat split.
  - destruct H2 as [u [v [-> ->]]]. rewrite H1, !filter_app. cbn [filter]. rewrite X. split; [reflexivity|]. exists Gone. repeat split.
  - rewrite H1. split; [reflexivity|]. exists Early. split; [exact I|]. repeat (split; [reflexivity|]). exact H2.
Qed.

Lemma cm_push p s s' i : counts x p s s' -> counts x p (push s i) (push s' i).
Proof.
  intros [E1 [E2 [E3 [E4 H]]]]. unfold counts, push. cbn [mm_mains mm_bcount mm_acount mm_props mm_before mm_after].
  repeat (split; [assumption|]). destruct p; destruct H as [H1 H2].
  - rewrite H1, H2. auto.
  - rewrite H1. auto.
  - split; [exact H1|]. destruct H2 as [u [v [-> ->]]]. exists u, (v ++ [i]). rewrite <- !app_assoc. auto.
Qed.

Lemma cm_note p s s' i : counts x p s s' -> counts x p (note s i) (note s' i).
Proof.
  intros [E1 [E2 [E3 [E4 H]]]]. unfold counts, note. cbn [mm_mains mm_bcount mm_acount mm_props mm_before mm_after].
  rewrite E4. repeat (split; [assumption || reflexivity|]). exact H.
Qed.

Lemma cm_tally p s s' i : counts x p s s' -> counts x p (tally s i) (tally s' i).
Proof.
  intros M. unfold tally. destruct (ic i); try exact M. destruct M as [E1 [E2 [E3 [E4 H]]]].
  unfold counts. cbn [mm_mains mm_bcount mm_acount mm_props mm_before mm_after].
  repeat (split; [assumption || reflexivity|]). exact H.
Qed.

Lemma cm_take p s s' i : counts x p s s' -> counts x (not_late p) (take s i) (take s' i).
Proof.
  intros [E1 [E2 [E3 [E4 H]]]]. unfold counts, take. cbn [mm_mains mm_bcount mm_acount mm_props mm_before mm_after].
  rewrite E1, E2, E3, E4. repeat (split; [reflexivity|]). destruct p; destruct H as [H1 H2]; cbn [not_late].
  - rewrite H1, H2. auto.
  - rewrite H1. split; [reflexivity|]. destruct H2 as [u [v [-> ->]]]. exists u, (v ++ mm_after s). rewrite <- !app_assoc. auto.
  - split; [reflexivity|]. destruct H2 as [u [v [-> ->]]]. exists (mm_before s ++ u), v. rewrite H1, <- !app_assoc. auto.
Qed.

(** where x is after an item *)
Definition moved (p : place) (i : item) : place :=
  if is_main i then if is_data (ic i) then not_late p else sooner p else p.

Lemma steady_then p q r r' f : steady x p r r' ->
  (forall p' s s', no_later p' p -> counts x p' s s' -> steady x q (f s) (f s')) -> steady x q (andthen r f) (andthen r' f).
Proof.
  intros [E [p' [L C]]] H. destruct (H p' _ _ L C) as [E1 [q' [L1 C1]]]. unfold andthen, steady. cbn [fst snd].
  split; [rewrite E, E1; reflexivity|]. exists q'. auto.
Qed.

Lemma steady_stay p s s' : counts x p s s' -> steady x p (stay s) (stay s').
Proof. intros C. split; [reflexivity|]. exists p. split; [apply no_later_same|exact C]. Qed.

Lemma steady_weak p q r r' : no_later p q -> steady x p r r' -> steady x q r r'.
Proof. intros L [E [p' [L1 C]]]. split; [exact E|]. exists p'. split; [eapply no_later_trans; eassumption|exact C]. Qed.

Lemma cm_append p s s' i : counts x p s s' -> steady x (moved p i) (mm_append s i) (mm_append s' i).
Proof.
  intros M. rewrite !append_steps. pose proof M as [E1 [_ [_ [E4 _]]]]. rewrite E1, E4. unfold moved, is_main, ikd.
  destruct (kind_of (ic i)) eqn:K.
  - destruct (is_data (ic i)); cbn [negb].
    + apply (steady_then p).
      * destruct (mm_mains s) as [|m ms]; [apply steady_stay, M|]. destruct (item_eqb i m); [apply steady_stay, M|].
        eapply steady_weak; [apply sooner_no_later|apply cm_flush, M].
      * intros p' t t' L T. pose proof T as [_ [_ [E3 _]]]. rewrite E3. pose proof (cm_take p' t t' i T) as T2.
        assert (LL : no_later (not_late p') (not_late p)) by (destruct p', p; cbn in *; tauto).
        destruct (negb (mm_acount t =? 1)).
        -- eapply steady_weak; [|apply cm_flush, T2]. eapply no_later_trans; [apply sooner_no_later|exact LL].
        -- eapply steady_weak; [exact LL|apply steady_stay, T2].
    + apply cm_flush, cm_push, M.
  - apply (steady_then p).
    + destruct (_ && _); [|apply steady_stay, cm_push, M].
      eapply steady_weak; [apply sooner_no_later|apply cm_flush, cm_note, cm_push, M].
    + intros p' t t' L T. eapply steady_weak; [exact L|]. apply steady_stay, cm_tally, T.
  - apply steady_stay, cm_push, M.
Qed.

Lemma moved_no_later p i : no_later (moved p i) p.
Proof. unfold moved. destruct (is_main i), (is_data (ic i)), p; exact I. Qed.

Lemma cm_feed l : forall p s s', counts x p s s' -> steady x p (feed main_merge s l) (feed main_merge s' l).
Proof.
  induction l as [|i l IH]; intros p s s' C; [apply steady_stay, C|]. cbn [feed].
  change (p_append main_merge s i) with (mm_append s i). change (p_append main_merge s' i) with (mm_append s' i).
  destruct (cm_append p s s' i C) as [E [q [L C1]]].
  destruct (mm_append s i) as [t o]. destruct (mm_append s' i) as [t' o']. cbn [fst snd] in *.
  destruct (IH q t t' C1) as [E1 [q' [L1 C2]]].
  destruct (feed main_merge t l) as [t2 o2]. destruct (feed main_merge t' l) as [t2' o2']. cbn [fst snd] in *.
  split; [cbn [fst snd]; rewrite E, E1; reflexivity|]. exists q'. split; [|exact C2].
  eapply no_later_trans; [exact L1|]. eapply no_later_trans; [exact L|apply moved_no_later].
Qed.

Lemma cm_gone s s' : counts x Gone s s' -> s' = s.
Proof. destruct s, s'. unfold counts. cbn. intros [-> [-> [-> [-> [-> ->]]]]]. reflexivity. Qed.

Lemma cm_run b p0 s s' : open_i b -> counts x p0 s s' -> mrun s' b = mrun s b.
Proof.
  intros [p [m [q [n [r [-> [KM KN]]]]]]] C.
  assert (step : forall b1 rest pl s s', counts x pl s s' ->
    (forall pl' t t', no_later pl' pl -> counts x pl' t t' -> mrun t' rest = mrun t rest) -> mrun s' (b1 ++ rest) = mrun s (b1 ++ rest)).
  { intros b1 rest pl t t' C1 H. rewrite !mrun_app. destruct (cm_feed b1 pl t t' C1) as [E [pl' [L C2]]].
    assert (E' : snd (feed main_merge t' b1) = snd (feed main_merge t b1)) by exact E. rewrite E'. f_equal. eapply H; eassumption. }
  assert (one : forall i rest pl s s', counts x pl s s' ->
    (forall pl' t t', no_later pl' (moved pl i) -> counts x pl' t t' -> mrun t' rest = mrun t rest) -> mrun s' (i :: rest) = mrun s (i :: rest)).
  { intros i rest pl t t' C1 H. rewrite !mrun_cons. destruct (cm_append pl t t' i C1) as [E [pl' [L C2]]].
    rewrite E. f_equal. eapply H; eassumption. }
  assert (MM1 : is_main m = true) by (unfold is_main, ikd; rewrite KM; reflexivity).
  assert (MN : is_main n = true) by (unfold is_main, ikd; destruct KN as [-> | ->]; reflexivity).
  assert (DN : is_data (ic n) = false) by (destruct KN as [-> | ->]; reflexivity).
  apply (step p _ p0 s s' C). intros p1 s1 s1' L1 C1.
  apply (one m _ p1 s1 s1' C1). intros p2 s2 s2' L2 C2.
  apply (step q _ p2 s2 s2' C2). intros p3 s3 s3' L3 C3.
  apply (one n _ p3 s3 s3' C3). intros p4 s4 s4' L4 C4.
  assert (p4 = Gone) as ->.
  { unfold moved in *. rewrite MM1 in L2. rewrite MN, DN in L4. destruct (is_data (ic m)), p1, p2, p3, p4; cbn in *; tauto || reflexivity. }
  rewrite (cm_gone _ _ C4). reflexivity.
Qed.
End Count.

Lemma uq_open b : open_i b -> open_i (run_pass designator_uniq b).
Proof.
  intros [p [m [q [n [r [-> [KM KN]]]]]]]. rewrite uq_run. unfold uq.
  assert (SM : du_stop m = true) by (unfold du_stop, ikd; rewrite KM; reflexivity).
  assert (SN : du_stop n = true) by (unfold du_stop, ikd; destruct KN as [-> | ->]; reflexivity).
  destruct (seg_until du_stop du_g (fun _ => []) p []) as [pre [acc H]]. rewrite H. cbn [seg_run]. rewrite SM.
  destruct (seg_until du_stop du_g (fun _ => []) q []) as [pre2 [acc2 H2]]. rewrite H2. cbn [seg_run]. rewrite SN.
  exists (pre ++ du_g acc), m, (pre2 ++ du_g acc2), n. eexists. rewrite <- !app_assoc. split; [reflexivity|]. auto.
Qed.

Lemma mm_count x a b : ic x = ReportCount -> force ReportCount (preset ReportCount) a = Some (ival x) -> open_i b ->
  run_pass main_merge (a ++ x :: b) = run_pass main_merge (a ++ b).
Proof.
  intros RC F O. rewrite !mrun_run, !mrun_app, mrun_cons.
  assert (T : tracks ReportCount (preset ReportCount) mm_init) by (split; [constructor|split; [discriminate|reflexivity]]).
  pose proof (feed_tracks ReportCount a eq_refl _ _ T) as [_ [_ R]]. rewrite F in R. specialize (R eq_refl).
  set (s := fst (feed main_merge mm_init a)) in *. clearbody s.
  assert (S : mm_append s x = stay (push s x)).
  { rewrite append_steps, RC. cbn [kind_of to_watch andb]. unfold andthen, stay, tally. rewrite RC. cbn [fst snd app]. rewrite <- R.
    reflexivity. }
  rewrite S. unfold stay. cbn [fst snd app]. f_equal. apply (cm_run x RC _ Late); [exact O|].
  unfold counts, push. cbn. repeat (split; [reflexivity|]). exists (mm_after s), []. rewrite app_nil_r. auto.
Qed.

(* --- streams without physical bounds ---------------------------------- *)

Definition no_phys (i : item) : Prop := is_phys (ic i) = false.

Lemma pq_same l : forall acc, Forall no_phys acc -> Forall no_phys l -> pq acc l = acc ++ l.
Proof.
  unfold pq. induction l as [|i l IH]; intros acc A F; [cbn; now rewrite app_nil_r|]. inversion F as [|? ? I F']; subst.
  cbn [seg_run]. destruct (is_main i).
  - rewrite (IH [] (Forall_nil _) F'). assert (G : pm_g acc = acc).
    { unfold pm_g. destruct (_ && _); [|reflexivity]. clear - A. induction A as [|j acc J _ IHA]; [reflexivity|].
      cbn [filter]. unfold no_phys in J. rewrite J, IHA. reflexivity. }
    rewrite G. reflexivity.
  - rewrite IH; [rewrite <- app_assoc; reflexivity| |exact F']. apply Forall_app. split; [exact A|]. constructor; [exact I|constructor].
Qed.

Lemma uq_all (Q : item -> Prop) l : Forall Q l -> forall acc, Forall Q acc -> Forall Q (uq acc l).
Proof.
  unfold uq. induction 1 as [|i l I F IH]; intros acc A; [constructor|]. cbn [seg_run]. destruct (du_stop i).
  - apply Forall_app. split; [exact (incl_Forall (du_g_incl acc) A)|]. constructor; [exact I|]. apply IH. constructor.
  - apply IH. apply Forall_app. split; [exact A|]. constructor; [exact I|constructor].
Qed.

Section All.
Variable Q : item -> Prop.
Hypothesis QC : forall n, Q (rc_item n).

Definition all_in (s : mm_state) : Prop := Forall Q (mm_before s) /\ Forall Q (mm_mains s) /\ Forall Q (mm_after s).
Definition all_out (r : mm_state * list item) : Prop := all_in (fst r) /\ Forall Q (snd r).

Lemma all_flush s : all_in s -> all_out (mm_flush s).
Proof.
  intros [B [M A]]. unfold mm_flush, all_out, all_in. cbn. split; [auto|]. apply Forall_app. split.
  - exact (incl_Forall (incl_filter _ _) B).
  - destruct M as [|m ms I _]; [constructor|]. constructor; [apply QC|]. constructor; [exact I|constructor].
Qed.

Lemma all_then r f : all_out r -> (forall s, all_in s -> all_out (f s)) -> all_out (andthen r f).
Proof. intros [A B] H. destruct (H _ A) as [C D]. split; [exact C|]. apply Forall_app. split; assumption. Qed.

Lemma all_stay s : all_in s -> all_out (stay s).
Proof. intros A. split; [exact A|constructor]. Qed.

Lemma all_push s i : Q i -> all_in s -> all_in (push s i).
Proof. intros I [B [M A]]. unfold all_in, push. cbn. split; [exact B|]. split; [exact M|]. apply Forall_app. auto. Qed.

Lemma all_append s i : Q i -> all_in s -> all_out (mm_append s i).
Proof.
  intros I A. rewrite append_steps. destruct (kind_of (ic i)).
  - destruct (negb (is_data (ic i))); [apply all_flush, all_push; assumption|]. apply all_then.
    + destruct (mm_mains s); [apply all_stay, A|]. destruct (item_eqb i _); [apply all_stay, A|apply all_flush, A].
    + intros t [B [M C]]. assert (T : all_in (take t i)).
      { unfold all_in, take. cbn. split; [apply Forall_app; auto|]. split; [apply Forall_app; auto|constructor]. }
      destruct (negb _); [apply all_flush, T|apply all_stay, T].
  - apply all_then.
    + destruct (_ && _); [|apply all_stay, all_push; assumption]. apply all_flush. exact (all_push s i I A).
    + intros t T. apply all_stay. unfold tally. destruct (ic i); exact T.
  - apply all_stay, all_push; assumption.
Qed.

Lemma all_main_merge l : Forall Q l -> Forall Q (run_pass main_merge l).
Proof.
  intros F. rewrite mrun_run. assert (G : forall s, all_in s -> Forall Q (mrun s l)).
  { induction F as [|i l I _ IH]; intros s A.
    - unfold mrun. cbn. unfold mm_close. destruct A as [B [M A]]. apply Forall_app. split; [exact B|]. apply Forall_app. split; [exact M|exact A].
    - rewrite mrun_cons. destruct (all_append s i I A) as [A1 O]. apply Forall_app. split; [exact O|]. apply IH, A1. }
  apply G. repeat split; constructor.
Qed.
End All.

Lemma pm_absent l : Forall no_phys l -> run_pass physical_merge l = l.
Proof. intros F. rewrite pq_run, pq_same; [reflexivity|constructor|exact F]. Qed.

(* --- the chain -------------------------------------------------------- *)

Definition tail_passes (db : udb) : list pass := [string_merge db; designator_merge db; usage_merge db; usage_page_pass db].

Lemma optimize_four db l : optimize db l =
  run_all (tail_passes db) (run_pass global_merge (run_pass physical_merge (run_pass main_merge (run_pass designator_uniq l)))).
Proof. rewrite optimize_all. reflexivity. Qed.

Lemma optimize_repeats db l l' : repeats l l' -> optimize db l' = optimize db l.
Proof.
  intros H. rewrite !optimize_four. destruct H as [a x b AP FC S|a x b AP RC S O|a x b AP LB S NP].
  - assert (G : kind_of (ic x) = Global) by (destruct FC as [->|[->|[->|[->| ->]]]]; reflexivity).
    assert (N : neither (ic x)) by (destruct FC as [->|[->|[->|[->| ->]]]]; split; reflexivity).
    f_equal. apply (gm_again x); [left; exact FC|]. apply (pm_again x); [exact N|exact G|]. apply (mm_again x); [left; exact FC|].
    destruct (uq_insert x a b G AP) as [pre [-> [-> F]]]. exists pre, (run_pass designator_uniq b).
    split; [reflexivity|]. split; [reflexivity|]. rewrite F. apply said_force, S.
  - assert (G : kind_of (ic x) = Global) by (rewrite RC; reflexivity).
    destruct (uq_insert x a b G AP) as [pre [-> [-> F]]]. rewrite (mm_count x pre); [reflexivity|exact RC| |apply uq_open, O].
    rewrite RC in F. rewrite F. apply said_force, S.
  - assert (G : kind_of (ic x) = Global) by (destruct LB as [-> | ->]; reflexivity).
    assert (NX : no_phys x) by (unfold no_phys; destruct LB as [-> | ->]; reflexivity).
    assert (NL : Forall no_phys (a ++ b)).
    { eapply Forall_impl; [|exact NP]. intros i [N1 N2]. unfold no_phys. destruct (ic i); try reflexivity; contradiction. }
    assert (NL' : Forall no_phys (a ++ x :: b)).
    { apply Forall_app in NL. destruct NL as [NA NB]. apply Forall_app. split; [exact NA|]. constructor; assumption. }
    assert (K : forall l, Forall no_phys l -> Forall no_phys (run_pass main_merge (run_pass designator_uniq l))).
    { intros l F. apply all_main_merge; [intros n; reflexivity|]. rewrite uq_run. apply uq_all; [exact F|constructor]. }
    rewrite (pm_absent _ (K _ NL)), (pm_absent _ (K _ NL')).
    f_equal. apply (gm_again x); [right; exact LB|]. apply (mm_again x); [right; exact LB|].
    destruct (uq_insert x a b G AP) as [pre [-> [-> F]]]. exists pre, (run_pass designator_uniq b).
    split; [reflexivity|]. split; [reflexivity|]. rewrite F. apply said_force, S.
Qed.

Lemma optimize_again db a x b : says_again (map what a) (what x) (map what b) -> optimize db (a ++ x :: b) = optimize db (a ++ b).
Proof. intros H. apply optimize_repeats, again_repeats, H. Qed.

(* --- bytes ------------------------------------------------------------- *)

Lemma parse_page db b raws : short_items b raws -> Forall acceptable raws -> forall page,
  exists l page', Forall2 matches l raws /\ Some page' = force UsagePage (Some page) l /\
    forall rest, parse_from db page (b ++ rest) = let r := parse_from db page' rest in Run (l ++ appended r) (finished r).
Proof.
  induction 1 as [|p data rest0 l Hp HF HL HS IH]; intros HA page.
  - exists [], page. split; [constructor|]. split; [reflexivity|]. intros rest. cbv zeta. cbn [app]. destruct (parse_from db page rest); reflexivity.
  - inversion HA as [|? ? HA1 HA2]; subst.
    destruct (proj1 (parse_item_iff db p data Hp HF HL) HA1) as [i [Hi [Hm Hc]]].
    destruct (parser_append_ok db page i Hc) as [j [Hj [J1 [J2 J3]]]].
    destruct (IH HA2 (match ic i with UsagePage => ival i | _ => page end)) as [l' [page' [M [P E]]]].
    exists (j :: l'), page'. split; [|split].
    + constructor; [|exact M]. destruct Hm as [w [W1 [W2 W3]]]. exists w. repeat split; congruence.
    + rewrite force_cons, J1, J2, P. f_equal. destruct (ic i); reflexivity.
    + intros rest. cbn [app]. rewrite parse_from_cons. cbv zeta.
      rewrite <- HL, <- app_assoc, firstn_app, firstn_all, Nat.sub_diag, skipn_app, skipn_all, Nat.sub_diag.
      cbn [firstn skipn]. rewrite app_nil_r, app_nil_l, Hi, Hj, E. reflexivity.
Qed.

Lemma parse_means db b ws : blob_means b ws -> Forall number_allowed ws -> forall page,
  exists l page', map what l = map w_what ws /\ Some page' = force UsagePage (Some page) l /\
    forall rest, parse_from db page (b ++ rest) = let r := parse_from db page' rest in Run (l ++ appended r) (finished r).
Proof.
  intros [raws [S E]] N page. pose proof (means_acceptable _ _ _ S E (proj1 (allowed_forall ws) N)) as A.
  destruct (parse_page db b raws S A page) as [l [page' [M [P H]]]]. exists l, page'. split; [|auto].
  exact (matches_map l raws ws M E).
Qed.

Lemma convert_again db ba bx bb wa wx wb :
  blob_means ba wa -> blob_means bx [wx] -> blob_means bb wb -> Forall number_allowed (wa ++ wx :: wb) ->
  says_again (map w_what wa) (w_what wx) (map w_what wb) ->
  convert_opt db (ba ++ bx ++ bb) = convert_opt db (ba ++ bb).
Proof.
  intros MA MX MB N S. apply Forall_app in N. destruct N as [NA N]. inversion N as [|? ? NX NB]; subst.
  destruct (parse_means db ba wa MA NA 0) as [la [pa [WA [PA EA]]]].
  destruct (parse_means db bx [wx] MX (Forall_cons _ NX (Forall_nil _)) pa) as [lx [px [WX [PX EX]]]].
  assert (X : exists x, lx = [x]) by (destruct lx as [|x [|y lx]]; try discriminate; eauto). destruct X as [x ->].
  injection WX as X1 X2.
  assert (Q : px = pa).
  { rewrite force_cons in PX. change (force UsagePage ?o []) with o in PX. destruct (icls_eqb (ic x) UsagePage) eqn:E; [|congruence].
    apply icls_eqb_eq in E. destruct S as [_ [S _]]. rewrite <- WA in S. apply said_items in S.
    change (fst (w_what wx)) with (w_cls wx) in S. change (snd (w_what wx)) with (w_val wx) in S. rewrite <- X1, <- X2, E in S.
    destruct S as [[a1 [j [b [-> [J [V NN]]]]]]|[[C|C] _]]; try discriminate C.
    rewrite force_app, force_cons, J, (proj2 (icls_eqb_eq _ _) eq_refl), (force_none _ _ _ NN), V in PA. congruence. }
  subst px. destruct (parse_means db bb wb MB NB pa) as [lb [pb [WB [PB EB]]]].
  specialize (EB []). rewrite app_nil_r, parse_from_nil in EB. cbn [appended finished] in EB. rewrite app_nil_r in EB.
  unfold convert_opt. rewrite !blob_parse_from, !EA, EX, EB. cbn [appended finished app bind].
  rewrite optimize_again; [reflexivity|]. rewrite WA, WB. replace (what x) with (w_what wx); [exact S|].
  unfold what, w_what. congruence.
Qed.
