(* OptFacts.v -- composition of passes (C30) and the host without Push and
   Pop, over an abstract local state. *)
From Coq Require Import ZifyBool ZifyNat.
From Verif Require Import Py Usage Item Optimizer HidSpec ItemFacts ParserFacts.

(* ------------------------------------------------------------------ *)
(** composition *)

Lemma feed_app p s l1 l2 :
  feed p s (l1 ++ l2) =
  (fst (feed p (fst (feed p s l1)) l2), snd (feed p s l1) ++ snd (feed p (fst (feed p s l1)) l2)).
Proof.
  revert s. induction l1 as [|i l1 IH]; intros s.
  - cbn [app feed fst snd]. destruct (feed p s l2). reflexivity.
  - cbn [app feed]. destruct (p_append p s i) as [s1 o1]. rewrite IH.
    destruct (feed p s1 l1) as [s2 o2]. cbn [fst snd].
    destruct (feed p s2 l2) as [s3 o3]. cbn [fst snd]. rewrite app_assoc. reflexivity.
Qed.

Lemma feed_compose o s l : forall so ss,
  feed (compose o s) (so, ss) l =
  (let (so', out) := feed o so l in let (ss', out') := feed s ss out in ((so', ss'), out')).
Proof.
  induction l as [|i l IH]; intros so ss; [reflexivity|].
  cbn [feed].
  change (p_append (compose o s) (so, ss) i) with
    (let (so1, out) := p_append o so i in let (ss1, out') := feed s ss out in ((so1, ss1), out')).
  destruct (p_append o so i) as [so1 o1].
  destruct (feed s ss o1) as [ss1 q1] eqn:E1.
  rewrite IH. destruct (feed o so1 l) as [so2 o2].
  rewrite feed_app, E1. cbn [fst snd]. destruct (feed s ss1 o2) as [ss2 q2]. reflexivity.
Qed.

Lemma run_compose o s l : run_pass (compose o s) l = run_pass s (run_pass o l).
Proof.
  unfold run_pass. change (p_init (compose o s)) with (p_init o, p_init s). rewrite feed_compose.
  destruct (feed o (p_init o) l) as [so out].
  destruct (feed s (p_init s) out) as [ss q] eqn:E.
  change (p_close (compose o s) (so, ss)) with
    (let out := p_close o so in let (ss, out') := feed s ss out in out' ++ p_close s ss).
  cbv zeta. rewrite feed_app, E. cbn [fst snd].
  destruct (feed s ss (p_close o so)) as [ss' q']. cbn [fst snd]. rewrite app_assoc. reflexivity.
Qed.

Lemma feed_sink l : feed sink tt l = (tt, l).
Proof. induction l as [|i l IH]; auto. cbn [feed sink p_append]. change (p_append sink tt i) with (tt, [i]). cbv beta iota. rewrite IH. reflexivity. Qed.

Lemma run_sink l : run_pass sink l = l.
Proof. unfold run_pass. cbn [sink p_init]. change (p_init sink) with tt. rewrite feed_sink. apply app_nil_r. Qed.

(** the passes by decreasing precedence *)
Definition passes (db : udb) : list (Z * pass) :=
  [(70, designator_uniq); (60, main_merge); (50, physical_merge); (40, global_merge);
   (35, string_merge db); (30, designator_merge db); (20, usage_merge db); (10, usage_page_pass db)].

Definition selected (mn mx : Z) (db : udb) : list pass :=
  map snd (filter (fun e => (mn <? fst e) && (fst e <? mx)) (passes db)).

Definition run_all (ps : list pass) (l : list item) : list item :=
  fold_left (fun l p => run_pass p l) ps l.

Lemma run_all_new ps s l :
  run_pass (fold_right compose s ps) l = run_pass s (run_all ps l).
Proof.
  revert l. induction ps as [|p ps IH]; intros l; auto.
  cbn [fold_right run_all fold_left]. rewrite run_compose, IH. reflexivity.
Qed.

Lemma new_fold db s mn mx :
  optimizer_new db s mn mx = fold_right compose s (selected mn mx db).
Proof.
  unfold optimizer_new.
  change (sort_prec (opt_registry db)) with (rev (passes db)).
  unfold selected.
  generalize (passes db) as ps. clear. intros ps.
  rewrite <- fold_left_rev_right, rev_involutive.
  induction ps as [|e ps IH]; auto.
  cbn [fold_right filter]. destruct ((mn <? fst e) && (fst e <? mx)); cbn [map fold_right]; rewrite IH; reflexivity.
Qed.

Lemma c30 db s mn mx l :
  run_pass (optimizer_new db s mn mx) l = run_pass s (run_all (selected mn mx db) l).
Proof. rewrite new_fold. apply run_all_new. Qed.

Lemma optimize_all db l : optimize db l = run_all (map snd (passes db)) l.
Proof. unfold optimize. rewrite c30, run_sink. reflexivity. Qed.

(* ------------------------------------------------------------------ *)
(** the host without Push and Pop, with an abstract local state *)

Section Machine.
  Context {X A : Type} (x0 : X) (ls : icls -> Z -> bool -> Z -> X -> X)
          (obs : gtab -> X -> icls -> Z -> list A).

  Definition m_step (s : gtab * X) (w : witem) : (gtab * X) * list A :=
    let (g, x) := s in
    match hid_kind (w_cls w) with
    | KMain => ((g, x0), obs g x (w_cls w) (w_val w))
    | KGlobal => ((g_set (w_cls w) (w_val w) g, x), [])
    | KLocal => ((g, ls (w_cls w) (w_val w) (w_ext w) (g_page g) x), [])
    end.

  Fixpoint m_run (s : gtab * X) (l : list witem) : (gtab * X) * list A :=
    match l with
    | [] => (s, [])
    | w :: r =>
        let (s1, o1) := m_step s w in
        let (s2, o2) := m_run s1 r in
        (s2, o1 ++ o2)
    end.

  Lemma m_run_app s l1 l2 :
    m_run s (l1 ++ l2) =
    (fst (m_run (fst (m_run s l1)) l2), snd (m_run s l1) ++ snd (m_run (fst (m_run s l1)) l2)).
  Proof.
    revert s. induction l1 as [|w l1 IH]; intros s.
    - simpl. destruct (m_run s l2). reflexivity.
    - cbn [app m_run]. destruct (m_step s w) as [s1 o1]. rewrite IH.
      destruct (m_run s1 l1) as [s2 o2]. cbn [fst snd].
      destruct (m_run s2 l2) as [s3 o3]. cbn [fst snd]. rewrite app_assoc. reflexivity.
  Qed.
End Machine.

Definition push_free (l : list item) : Prop :=
  Forall (fun i => ic i <> Push /\ ic i <> Pop) l.

Definition seen (m : binding) (l : list item) : list event := host_view m (map wire l).

Lemma m_run_host {A} (obs : gtab -> locals -> icls -> Z -> list A) l : forall g st lo,
  Forall (fun w => w_cls w <> Push /\ w_cls w <> Pop) l ->
  exists st', h_run obs (H g st lo) l =
    (H (fst (fst (m_run lo_init lo_set obs (g, lo) l))) st' (snd (fst (m_run lo_init lo_set obs (g, lo) l))),
     snd (m_run lo_init lo_set obs (g, lo) l)).
Proof.
  induction l as [|w l IH]; intros g st lo F; [exists st; reflexivity|].
  inversion F as [|? ? [F1 F2] F3]; subst. cbn [h_run m_run].
  unfold h_step, m_step. cbn [h_g h_stack h_l].
  destruct (hid_kind (w_cls w)) eqn:K.
  - destruct (IH g st lo_init F3) as [st' E]. rewrite E. exists st'.
    destruct (m_run lo_init lo_set obs (g, lo_init) l) as [[g' x'] o']. reflexivity.
  - assert (Q : forall (T : Type) (a b c : T), match w_cls w with Push => a | Pop => b | _ => c end = c).
    { intros T a b c. destruct (w_cls w); congruence. }
    rewrite Q. destruct (IH (g_set (w_cls w) (w_val w) g) st lo F3) as [st' E]. rewrite E. exists st'.
    destruct (m_run lo_init lo_set obs (g_set (w_cls w) (w_val w) g, lo) l) as [[g' x'] o']. reflexivity.
  - destruct (IH g st (lo_set (w_cls w) (w_val w) (w_ext w) (g_page g) lo) F3) as [st' E]. rewrite E. exists st'.
    destruct (m_run lo_init lo_set obs (g, lo_set (w_cls w) (w_val w) (w_ext w) (g_page g) lo) l) as [[g' x'] o'].
    reflexivity.
Qed.

Definition m_full (m : binding) (l : list item) : list event :=
  snd (m_run lo_init lo_set (full_obs m) (g_init, lo_init) (map wire l)).

Lemma seen_machine m l : push_free l -> seen m l = m_full m l.
Proof.
  intros P. unfold seen, host_view, m_full, h_init.
  destruct (m_run_host (full_obs m) (map wire l) g_init [] lo_init) as [st' E].
  - apply Forall_map. exact P.
  - rewrite E. reflexivity.
Qed.

Lemma c30_fold db s mn mx l :
  run_pass (optimizer_new db s mn mx) l =
  run_pass s (fold_left (fun l e => if (mn <? fst e) && (fst e <? mx) then run_pass (snd e) l else l) (passes db) l).
Proof.
  rewrite c30. f_equal. unfold selected, run_all. generalize (passes db) as ps. intros ps. revert l.
  induction ps as [|e ps IH]; intros l; auto. cbn [filter fold_left].
  destruct ((mn <? fst e) && (fst e <? mx)); cbn [map fold_left]; apply IH.
Qed.
