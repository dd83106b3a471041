(* MainMergeFacts.v -- MainMerge against a host with an abstract local
   state and an arbitrary observation of main items. *)
From Coq Require Import ZifyBool ZifyNat.
From Verif Require Import Py Usage Item Optimizer HidSpec ItemFacts ParserFacts OptFacts.

Definition g_cnt (n : Z) (g : gtab) : gtab := g_set ReportCount n g.

(** equal except for the report count *)
Definition eqc (g g' : gtab) : Prop := g_cnt 0 g = g_cnt 0 g'.

(** equal except for the report count and the usage page *)
Definition eqw (g g' : gtab) : Prop := g_set UsagePage 0 (g_cnt 0 g) = g_set UsagePage 0 (g_cnt 0 g').

Lemma eqc_cnt g g' n : eqc g g' -> g_cnt n g = g_cnt n g'.
Proof. destruct g, g'. unfold eqc, g_cnt. simpl. congruence. Qed.
Lemma eqc_page g g' : eqc g g' -> g_page g = g_page g'.
Proof. destruct g, g'. unfold eqc, g_cnt. simpl. congruence. Qed.
Lemma eqc_refl g : eqc g g. Proof. reflexivity. Qed.
Lemma eqc_sym g g' : eqc g g' -> eqc g' g. Proof. unfold eqc. congruence. Qed.
Lemma eqc_trans a b c : eqc a b -> eqc b c -> eqc a c. Proof. unfold eqc. congruence. Qed.
Lemma eqc_g_cnt n g : eqc (g_cnt n g) g. Proof. destruct g. reflexivity. Qed.
Lemma eqc_set c v g g' : eqc g g' -> eqc (g_set c v g) (g_set c v g').
Proof. destruct g, g'. unfold eqc, g_cnt. destruct c; simpl; congruence. Qed.
Lemma eqc_rc v g : eqc g (g_set ReportCount v g). Proof. destruct g. reflexivity. Qed.
Lemma eqc_eqw g g' : eqc g g' -> eqw g g'. Proof. unfold eqc, eqw. intros ->. reflexivity. Qed.
Lemma eqw_trans a b c : eqw a b -> eqw b c -> eqw a c. Proof. unfold eqw. congruence. Qed.
Lemma eqw_sym a b : eqw a b -> eqw b a. Proof. unfold eqw. congruence. Qed.
Lemma cnt_own g : g_cnt (g_count g) g = g. Proof. destruct g. reflexivity. Qed.
Lemma cnt_cnt a b g : g_cnt a (g_cnt b g) = g_cnt a g. Proof. destruct g. reflexivity. Qed.
Lemma count_cnt n g : g_count (g_cnt n g) = n. Proof. destruct g. reflexivity. Qed.

(** a watched global *)
Definition g_val (c : icls) (g : gtab) : Z :=
  match c with
  | LogicalMinimum => g_lmin g | LogicalMaximum => g_lmax g
  | PhysicalMinimum => g_pmin g | PhysicalMaximum => g_pmax g
  | Unit => g_unit g | UnitExponent => g_uexp g
  | ReportSize => g_size g | ReportID => g_rid g
  | _ => 0
  end.

Lemma set_same c g : to_watch c = true -> g_set c (g_val c g) g = g.
Proof. destruct g, c; try discriminate; reflexivity. Qed.
Lemma val_set c v g : to_watch c = true -> g_val c (g_set c v g) = v.
Proof. destruct g, c; try discriminate; reflexivity. Qed.
Lemma val_other c c' v g : c <> c' -> g_val c (g_set c' v g) = g_val c g.
Proof. destruct g, c, c'; try congruence; reflexivity. Qed.
Lemma unwatched_eqw c v g : kind_of c = Global -> to_watch c = false -> eqw g (g_set c v g).
Proof. destruct g, c; try discriminate; reflexivity. Qed.
Lemma unwatched_val c v g c' : kind_of c = Global -> to_watch c = false -> g_val c' (g_set c v g) = g_val c' g.
Proof. destruct g, c; try discriminate; reflexivity. Qed.
Lemma count_other c v g : c <> ReportCount -> g_count (g_set c v g) = g_count g.
Proof. destruct g, c; try congruence; reflexivity. Qed.

Lemma hid_main c : hid_kind c = KMain <-> kind_of c = Main.
Proof. destruct c; simpl; split; congruence. Qed.
Lemma hid_local c : hid_kind c = KLocal <-> kind_of c = Local.
Proof. destruct c; simpl; split; congruence. Qed.
Lemma hid_global c : hid_kind c = KGlobal <-> kind_of c = Global.
Proof. destruct c; simpl; split; congruence. Qed.

Definition norc (l : list item) : list item := filter not_rc l.

Lemma norc_app a b : norc (a ++ b) = norc a ++ norc b.
Proof. apply filter_app. Qed.

Definition not_main (i : item) : Prop := kind_of (ic i) <> Main.
Definition not_data (i : item) : Prop := is_data (ic i) = false.

Section MM.
  Context {X A : Type} (x0 : X) (ls : icls -> Z -> bool -> Z -> X -> X)
          (obs : gtab -> X -> icls -> Z -> list A).
  Context (xapp : X -> X -> X) (xok : X -> Prop).

  Definition elem : Type := gtab * X * icls * Z.

  (** two consecutive main items that MainMerge may join *)
  Definition joinable (e1 e2 : elem) : Prop :=
    let '(g1, _, c1, v1) := e1 in
    let '(g2, _, c2, v2) := e2 in
    is_data c1 = true /\ c1 = c2 /\ v1 = v2 /\ eqw g1 g2 /\ g_count g1 = 1.

  Context (R : elem -> elem -> Prop).

  (** main items already joined: their common local state, their number and
      the last of them *)
  Inductive grp : X -> Z -> elem -> Prop :=
  | grp_one g x c v : g_count g = 1 -> grp x 1 (g, x, c, v)
  | grp_more lx n e1 g x c v :
      grp lx n e1 -> joinable e1 (g, x, c, v) -> R e1 (g, x, c, v) -> g_count g = 1 ->
      grp (xapp lx x) (n + 1) (g, x, c, v).

  Hypothesis xapp_ls : forall x y c v e p, xok x -> kind_of c = Local ->
    ls c v e p (xapp x y) = xapp x (ls c v e p y).
  Hypothesis xapp_0 : forall x, xok x -> xapp x x0 = x.
  Hypothesis obs_nd : forall g g' x c v, kind_of c = Main -> is_data c = false -> eqc g g' -> obs g x c v = obs g' x c v.
  Hypothesis obs_join : forall lx n g1 x1 c v g2 x2,
    grp lx n (g1, x1, c, v) -> joinable (g1, x1, c, v) (g2, x2, c, v) -> R (g1, x1, c, v) (g2, x2, c, v) ->
    obs (g_cnt n g1) lx c v ++ obs g2 x2 c v = obs (g_cnt (n + g_count g2) g2) (xapp lx x2) c v /\ xok lx.

  Definition irun (s : gtab * X) (l : list item) := m_run x0 ls obs s (map wire l).
  Definition itrace (s : gtab * X) (l : list item) : list elem :=
    snd (m_run x0 ls (fun g x c v => [(g, x, c, v)]) s (map wire l)).

  Lemma irun_app s l1 l2 :
    irun s (l1 ++ l2) = (fst (irun (fst (irun s l1)) l2), snd (irun s l1) ++ snd (irun (fst (irun s l1)) l2)).
  Proof. unfold irun. rewrite map_app. apply m_run_app. Qed.

  Lemma irun_then s l1 l2 s1 e1 s2 e2 :
    irun s l1 = (s1, e1) -> irun s1 l2 = (s2, e2) -> irun s (l1 ++ l2) = (s2, e1 ++ e2).
  Proof. intros E1 E2. rewrite irun_app, E1. cbn [fst snd]. rewrite E2. reflexivity. Qed.

  Lemma irun_main g x i : kind_of (ic i) = Main -> irun (g, x) [i] = ((g, x0), obs g x (ic i) (ival i)).
  Proof.
    intros K. unfold irun. cbn [map m_run]. unfold m_step. cbn [w_cls w_val wire].
    rewrite (proj2 (hid_main _) K), app_nil_r. reflexivity.
  Qed.
  Lemma irun_global g x i : kind_of (ic i) = Global -> irun (g, x) [i] = ((g_set (ic i) (ival i) g, x), []).
  Proof.
    intros K. unfold irun. cbn [map m_run]. unfold m_step. cbn [w_cls w_val wire].
    rewrite (proj2 (hid_global _) K). reflexivity.
  Qed.
  Lemma irun_local g x i : kind_of (ic i) = Local ->
    irun (g, x) [i] = ((g, ls (ic i) (ival i) (w_ext (wire i)) (g_page g) x), []).
  Proof.
    intros K. unfold irun. cbn [map m_run]. unfold m_step. cbn [w_cls w_val wire].
    rewrite (proj2 (hid_local _) K). reflexivity.
  Qed.

  (** the states of the observation and of the trace agree *)
  Lemma trace_state s l : fst (m_run x0 ls (fun g x c v => [(g, x, c, v)]) s (map wire l)) = fst (irun s l).
  Proof.
    unfold irun. revert s. induction l as [|i l IH]; intros [g x]; auto.
    cbn [map m_run]. unfold m_step.
    destruct (hid_kind (w_cls (wire i)));
    match goal with |- context [m_run x0 ls obs ?q _] => specialize (IH q) end;
    match goal with |- fst (let (_, _) := ?a in _) = fst (let (_, _) := ?b in _) =>
      destruct a as [? ?] eqn:Q1, b as [? ?] eqn:Q2 end;
    cbn [fst] in *; rewrite ?Q1, ?Q2 in IH; exact IH.
  Qed.

  Lemma itrace_snoc s l i :
    itrace s (l ++ [i]) = itrace s l ++
      match kind_of (ic i) with
      | Main => [(fst (fst (irun s l)), snd (fst (irun s l)), ic i, ival i)]
      | _ => []
      end.
  Proof.
    unfold itrace. rewrite map_app, m_run_app. cbn [snd]. rewrite trace_state.
    destruct (fst (irun s l)) as [g x]. cbn [map m_run fst snd].
    unfold m_step. cbn [w_cls wire w_val].
    destruct (ic i); cbn [hid_kind kind_of snd app]; reflexivity.
  Qed.

  (** dropping report counts before main items that are not data *)
  Lemma run_norc l : Forall not_data l -> forall g x g' ga xa e,
    irun (g, x) l = ((ga, xa), e) -> eqc g g' ->
    exists ga', irun (g', x) (norc l) = ((ga', xa), e) /\ eqc ga ga'.
  Proof.
    induction 1 as [|i l N _ IH]; intros g x g' ga xa e E Q.
    - injection E as <- <- <-. exists g'. split; auto.
    - change (i :: l) with ([i] ++ l) in E. rewrite irun_app in E.
      destruct (kind_of (ic i)) eqn:K.
      + rewrite (irun_main g x i K) in E. cbn [fst snd] in E.
        destruct (irun (g, x0) l) as [[ga1 xa1] e1] eqn:E1. cbn [fst snd] in E. injection E as <- <- <-.
        destruct (IH _ _ g' _ _ _ E1 Q) as [ga' [E2 Q2]]. exists ga'. split; auto.
        assert (NR : not_rc i = true) by (unfold not_rc; destruct (ic i); try discriminate; reflexivity).
        cbn [norc filter]. rewrite NR.
        change (i :: filter not_rc l) with ([i] ++ norc l).
        eapply irun_then; [|exact E2]. rewrite (irun_main g' x i K). f_equal. symmetry. apply obs_nd; auto.
      + rewrite (irun_global g x i K) in E. cbn [fst snd app] in E.
        destruct (irun (g_set (ic i) (ival i) g, x) l) as [[ga1 xa1] e1] eqn:E1. cbn [fst snd] in E. injection E as <- <- <-.
        cbn [norc filter]. destruct (not_rc i) eqn:NR.
        * destruct (IH _ _ (g_set (ic i) (ival i) g') _ _ _ E1 (eqc_set _ _ _ _ Q)) as [ga' [E2 Q2]].
          exists ga'. split; auto. change (i :: filter not_rc l) with ([i] ++ norc l).
          eapply (irun_then _ _ _ _ []); [|exact E2]. apply (irun_global g' x i K).
        * unfold not_rc in NR. apply negb_false_iff, icls_eqb_eq in NR. rewrite NR in E1.
          apply (IH _ _ g' _ _ _ E1). eapply eqc_trans; [|exact Q]. apply eqc_sym, eqc_rc.
      + rewrite (irun_local g x i K) in E. cbn [fst snd app] in E.
        set (x1 := ls _ _ _ _ _) in *.
        destruct (irun (g, x1) l) as [[ga1 xa1] e1] eqn:E1. cbn [fst snd] in E. injection E as <- <- <-.
        destruct (IH _ _ g' _ _ _ E1 Q) as [ga' [E2 Q2]]. exists ga'. split; auto.
        assert (NR : not_rc i = true) by (unfold not_rc; destruct (ic i); try discriminate; reflexivity).
        cbn [norc filter]. rewrite NR.
        change (i :: filter not_rc l) with ([i] ++ norc l).
        eapply (irun_then _ _ _ _ []); [|exact E2]. rewrite (irun_local g' x i K).
        unfold x1. rewrite (eqc_page _ _ Q). reflexivity.
  Qed.

  (** the same local items after other ones *)
  Lemma run_over l : Forall not_main l -> forall lx g x ga xa e,
    xok lx -> irun (g, x) l = ((ga, xa), e) ->
    e = [] /\ irun (g, xapp lx x) l = ((ga, xapp lx xa), []).
  Proof.
    induction 1 as [|i l N _ IH]; intros lx g x ga xa e K0 E.
    - injection E as <- <- <-. auto.
    - change (i :: l) with ([i] ++ l) in *. rewrite irun_app in E.
      destruct (kind_of (ic i)) eqn:K; [contradiction| |].
      + rewrite (irun_global g x i K) in E. cbn [fst snd app] in E.
        destruct (irun (g_set (ic i) (ival i) g, x) l) as [[ga1 xa1] e1] eqn:E1. cbn [fst snd] in E. injection E as <- <- <-.
        destruct (IH lx _ _ _ _ _ K0 E1) as [-> E2]. split; auto.
        eapply (irun_then _ _ _ _ []); [|exact E2]. apply (irun_global _ _ i K).
      + rewrite (irun_local g x i K) in E. cbn [fst snd app] in E.
        set (x1 := ls _ _ _ _ _) in *.
        destruct (irun (g, x1) l) as [[ga1 xa1] e1] eqn:E1. cbn [fst snd] in E. injection E as <- <- <-.
        destruct (IH lx _ _ _ _ _ K0 E1) as [-> E2]. split; auto.
        eapply (irun_then _ _ _ _ []); [|exact E2]. rewrite (irun_local _ _ i K).
        rewrite xapp_ls by auto. reflexivity.
  Qed.

  Lemma not_main_data l : Forall not_main l -> Forall not_data l.
  Proof. apply Forall_impl. intros i N. unfold not_data, not_main in *. destruct (ic i); try reflexivity; simpl in N; congruence. Qed.

  (* ---------------------------------------------------------------- *)
  Definition start := (g_init, x0).

  Record weak (pre : list item) (s : mm_state) (out : list item)
    (gi : gtab) (xi : X) (ei : list A) (gb : gtab) (xb : X) (eb : list A) (ga : gtab) : Prop := Weak {
    w_in : irun start pre = ((gi, xi), ei);
    w_count : g_count gi = mm_acount s;
    w_props : forall c, to_watch c = true -> mm_props s c = g_val c gi;
    w_nd : Forall not_data (mm_before s);
    w_nm : Forall not_data (mm_after s);
    w_out : irun start (out ++ norc (mm_before s)) = ((gb, xb), eb);
    w_eqc : eqc ga gi;
    w_pend :
      match mm_mains s with
      | [] => mm_bcount s = 0 /\ exists e, irun (gb, xb) (mm_after s) = ((ga, xi), e) /\ ei = eb ++ e
      | m :: _ => is_data (ic m) = true /\ exists e,
          irun (gb, x0) (mm_after s) = ((ga, xi), e) /\
          ei = eb ++ obs (g_cnt (mm_bcount s) gb) xb (ic m) (ival m) ++ e
      end
  }.

  Definition tied (pre : list item) (s : mm_state) (gi gb : gtab) (xb : X) : Prop :=
    Forall not_main (mm_after s) /\
    match mm_mains s with
    | [] => True
    | m :: _ => eqw gb gi /\
        exists tr g1 x1, itrace start pre = tr ++ [(g1, x1, ic m, ival m)] /\
            grp xb (mm_bcount s) (g1, x1, ic m, ival m) /\ eqc g1 gb /\ g_count g1 = 1
    end.

  Definition inv (pre : list item) (s : mm_state) (out : list item) : Prop :=
    exists gi xi ei gb xb eb ga, weak pre s out gi xi ei gb xb eb ga /\ tied pre s gi gb xb.

  Lemma data_main c : is_data c = true -> kind_of c = Main.
  Proof. destruct c; try discriminate; reflexivity. Qed.

  Lemma flush_inv pre s out gi xi ei gb xb eb ga :
    weak pre s out gi xi ei gb xb eb ga ->
    mm_mains (fst (mm_flush s)) = [] /\ mm_after (fst (mm_flush s)) = [] /\
    exists gb' ga', weak pre (fst (mm_flush s)) (out ++ snd (mm_flush s)) gi xi ei gb' xi ei ga'
       /\ tied pre (fst (mm_flush s)) gi gb' xi.
  Proof.
    intros [W1 W2 W3 W4 W5 W6 W7 W8]. unfold mm_flush. cbn [fst snd mm_mains mm_after].
    split; auto. split; auto.
    destruct (mm_mains s) as [|m ms] eqn:M.
    - destruct W8 as [B0 [e [W8 EI]]].
      destruct (run_norc _ W5 _ _ gb _ _ _ W8 (eqc_refl _)) as [ga' [E Q]].
      exists ga', ga'. split; [|split; [constructor|exact I]].
      constructor; cbn [mm_before mm_after mm_acount mm_props mm_mains mm_bcount]; auto.
      + rewrite app_nil_r. eapply irun_then in E; [|exact W6]. rewrite <- EI in E. exact E.
      + eapply eqc_trans; [apply eqc_sym; exact Q|exact W7].
      + split; auto. exists []. split; [reflexivity|]. rewrite app_nil_r. reflexivity.
    - destruct W8 as [D [e [W8 EI]]].
      destruct (run_norc _ W5 _ _ (g_cnt (mm_bcount s) gb) _ _ _ W8 (eqc_sym _ _ (eqc_g_cnt _ _))) as [ga' [E Q]].
      exists ga', ga'. split; [|split; [constructor|exact I]].
      constructor; cbn [mm_before mm_after mm_acount mm_props mm_mains mm_bcount]; auto.
      + assert (E1 : irun (gb, xb) [rc_item (mm_bcount s); m] =
                     ((g_cnt (mm_bcount s) gb, x0), obs (g_cnt (mm_bcount s) gb) xb (ic m) (ival m))).
        { change [rc_item (mm_bcount s); m] with ([rc_item (mm_bcount s)] ++ [m]).
          eapply (irun_then _ _ _ _ []); [apply irun_global; reflexivity|].
          apply irun_main. apply data_main; auto. }
        pose proof (irun_then _ _ _ _ _ _ _ W6 (irun_then _ _ _ _ _ _ _ E1 E)) as E2.
        rewrite EI. rewrite <- !app_assoc in *. exact E2.
      + eapply eqc_trans; [apply eqc_sym; exact Q|exact W7].
      + split; auto. exists []. split; [reflexivity|]. rewrite app_nil_r. reflexivity.
  Qed.

  Definition adj (tr : list elem) : Prop :=
    forall t1 e1 e2 t2, tr = t1 ++ e1 :: e2 :: t2 -> joinable e1 e2 -> R e1 e2.

  Lemma not_main_no l i : Forall not_main l -> kind_of (ic i) <> Main -> Forall not_main (l ++ [i]).
  Proof. intros F N. apply Forall_app. split; auto. Qed.

  (** a further item in [after] *)
  Lemma push_weak pre s out gi xi ei gb xb eb ga i props gi' xi' o :
    weak pre s out gi xi ei gb xb eb ga ->
    is_data (ic i) = false -> irun (gi, xi) [i] = ((gi', xi'), o) ->
    (forall c, to_watch c = true -> props c = g_val c gi') ->
    exists ga',
    weak (pre ++ [i]) (MM (mm_before s) (mm_mains s) (mm_after s ++ [i]) (mm_bcount s) (g_count gi') props)
      out gi' xi' (ei ++ o) gb xb eb ga'.
  Proof.
    intros [W1 W2 W3 W4 W5 W6 W7 W8] N E P.
    assert (E2 : exists ga', irun (ga, xi) [i] = ((ga', xi'), o) /\ eqc ga' gi').
    { destruct (kind_of (ic i)) eqn:K.
      - rewrite (irun_main gi xi i K) in E. rewrite (irun_main ga xi i K). injection E as <- <- <-. exists ga. split; auto.
        f_equal. apply obs_nd; auto.
      - rewrite (irun_global gi xi i K) in E. rewrite (irun_global ga xi i K). injection E as <- <- <-. eexists. split; [reflexivity|].
        apply eqc_set. auto.
      - rewrite (irun_local gi xi i K) in E. rewrite (irun_local ga xi i K). injection E as <- <- <-. exists ga. split; auto.
        rewrite (eqc_page _ _ W7). reflexivity. }
    destruct E2 as [ga' [E2 Q]]. exists ga'.
    constructor; cbn [mm_before mm_after mm_acount mm_props mm_mains mm_bcount]; auto.
    - eapply irun_then; eauto.
    - apply Forall_app. split; auto.
    - destruct (mm_mains s) as [|m ms].
      + destruct W8 as [B0 [e [W8 EI]]]. split; auto. exists (e ++ o). split; [eapply irun_then; eauto|].
        rewrite EI, app_assoc. reflexivity.
      + destruct W8 as [D [e [W8 EI]]]. split; auto. exists (e ++ o). split; [eapply irun_then; eauto|].
        rewrite EI, <- !app_assoc. reflexivity.
  Qed.

  Lemma push_tied pre s gi gb xb i props n gi' :
    tied pre s gi gb xb -> kind_of (ic i) <> Main -> eqw gi gi' ->
    tied (pre ++ [i]) (MM (mm_before s) (mm_mains s) (mm_after s ++ [i]) (mm_bcount s) n props) gi' gb xb.
  Proof.
    intros [T1 T2] K Q. split; cbn [mm_after mm_mains mm_bcount].
    - apply not_main_no; auto.
    - destruct (mm_mains s) as [|m ms]; auto. destruct T2 as [E [tr [g1 [x1 [TR [G [C1 C2]]]]]]].
      split; [eapply eqw_trans; eauto|]. exists tr, g1, x1. rewrite itrace_snoc.
      destruct (kind_of (ic i)); [congruence| |]; rewrite app_nil_r; auto.
  Qed.

  Lemma step_inv pre s out i :
    inv pre s out -> ic i <> Push /\ ic i <> Pop -> adj (itrace start (pre ++ [i])) ->
    inv (pre ++ [i]) (fst (mm_append s i)) (out ++ snd (mm_append s i)).
  Proof.
    intros [gi [xi [ei [gb [xb [eb [ga [W T]]]]]]]] NP ADJ.
    pose proof W as W'. destruct W' as [W1 W2 W3 W4 W5 W6 W7 W8].
    unfold mm_append. unfold ikd. destruct (kind_of (ic i)) eqn:K.
    - destruct (is_data (ic i)) eqn:D; cbn [negb].
      + (* a data item *)
        assert (TRI : itrace start (pre ++ [i]) = itrace start pre ++ [(gi, xi, ic i, ival i)]).
        { rewrite itrace_snoc, K, W1. reflexivity. }
        assert (INI : irun start (pre ++ [i]) = ((gi, x0), ei ++ obs gi xi (ic i) (ival i))).
        { eapply irun_then; [exact W1|]. apply irun_main. exact K. }
        (* without pending data items *)
        assert (FRESH : forall s1 out1 gb1 xb1 eb1 ga1, weak pre s1 out1 gi xi ei gb1 xb1 eb1 ga1 ->
                  Forall not_main (mm_after s1) -> mm_mains s1 = [] ->
           inv (pre ++ [i])
             (fst (if negb (mm_acount s1 =? 1)
                   then let (s3, o2) := mm_flush (MM (mm_before s1 ++ mm_after s1) (mm_mains s1 ++ [i]) []
                           (mm_bcount s1 + mm_acount s1) (mm_acount s1) (mm_props s1)) in (s3, o2)
                   else (MM (mm_before s1 ++ mm_after s1) (mm_mains s1 ++ [i]) []
                           (mm_bcount s1 + mm_acount s1) (mm_acount s1) (mm_props s1), [])))
             (out1 ++ snd (if negb (mm_acount s1 =? 1)
                   then let (s3, o2) := mm_flush (MM (mm_before s1 ++ mm_after s1) (mm_mains s1 ++ [i]) []
                           (mm_bcount s1 + mm_acount s1) (mm_acount s1) (mm_props s1)) in (s3, o2)
                   else (MM (mm_before s1 ++ mm_after s1) (mm_mains s1 ++ [i]) []
                           (mm_bcount s1 + mm_acount s1) (mm_acount s1) (mm_props s1), [])))).
        { intros s1 out1 gb1 xb1 eb1 ga1 V NM M1. destruct V as [V1 V2 V3 V4 V5 V6 V7 V8].
          rewrite M1 in V8. destruct V8 as [B0 [e [V8 EI]]].
          assert (E0 : e = []).
          { revert V8. clear - NM. revert gb1 xb1 ga1 xi e.
            induction NM as [|j l N _ IH]; intros g x ga xa e E; [cbn in E; congruence|].
            change (j :: l) with ([j] ++ l) in E. rewrite irun_app in E.
            destruct (kind_of (ic j)) eqn:K; [contradiction| |].
            - rewrite (irun_global _ _ j K) in E. cbn [fst snd app] in E.
              destruct (irun (g_set (ic j) (ival j) g, x) l) as [[? ?] ?] eqn:E1. injection E as <- <- <-. eapply IH; eauto.
            - rewrite (irun_local _ _ j K) in E. cbn [fst snd app] in E.
              match type of E with context [irun ?q l] => destruct (irun q l) as [[? ?] ?] eqn:E1 end.
              injection E as <- <- <-. eapply IH; eauto. }
          subst e. rewrite app_nil_r in EI. subst eb1.
          destruct (run_norc _ V5 _ _ gb1 _ _ _ V8 (eqc_refl _)) as [ga' [E Q]].
          set (s2 := MM _ _ _ _ _ _).
          assert (Q2 : eqc ga' gi) by (eapply eqc_trans; [apply eqc_sym; exact Q|exact V7]).
          assert (WK : weak (pre ++ [i]) s2 out1 gi x0 (ei ++ obs gi xi (ic i) (ival i)) ga' xi ei ga').
          { unfold s2. constructor; cbn [mm_before mm_after mm_acount mm_props mm_mains mm_bcount]; auto.
            - apply Forall_app; auto.
            - rewrite norc_app, app_assoc. pose proof (irun_then _ _ _ _ _ _ _ V6 E) as Y.
              rewrite app_nil_r in Y. exact Y.
            - rewrite M1. cbn [app]. split; auto. exists []. split; [reflexivity|]. rewrite app_nil_r. f_equal.
              rewrite B0, Z.add_0_l, <- V2. rewrite (eqc_cnt _ _ (g_count gi) Q2), cnt_own. reflexivity. }
          destruct (mm_acount s1 =? 1) eqn:AC; cbn [negb].
          - cbn [fst snd]. rewrite app_nil_r. exists gi, x0. do 5 eexists. split; [exact WK|].
            split; unfold s2; cbn [mm_after mm_mains mm_bcount]; [constructor|].
            rewrite M1. cbn [app]. split; [apply eqc_eqw; exact Q2|].
            exists (itrace start pre), gi, xi. split; [exact TRI|].
            assert (C1 : g_count gi = 1) by lia.
            split; [|split; [apply eqc_sym; exact Q2|exact C1]].
            rewrite B0. replace (0 + mm_acount s1) with 1 by lia. apply grp_one. exact C1.
          - destruct (mm_flush s2) as [s3 o2] eqn:FL. cbn [fst snd].
            destruct (flush_inv _ _ _ _ _ _ _ _ _ _ WK) as [_ [_ [gb' [ga2 [X1 X2]]]]].
            rewrite FL in X1, X2. cbn [fst snd] in *. do 7 eexists. split; eauto. }
        destruct (mm_mains s) as [|m ms] eqn:M.
        * specialize (FRESH s out gb xb eb ga W (proj1 T) M).
          destruct (negb (mm_acount s =? 1)).
          -- destruct (mm_flush _) as [s3 o2]. exact FRESH.
          -- exact FRESH.
        * destruct (item_eqb i m) eqn:EQ.
          -- (* joined *)
             apply item_eqb_spec in EQ. destruct EQ as [EC EV].
             destruct T as [T1 T2]. rewrite M in T2.
             destruct T2 as [EW [tr [g1 [x1 [TR [G [C1 C2]]]]]]].
             destruct W8 as [D2 [e [W8 EI]]].
             rewrite <- EC, <- EV in *.
             assert (J : joinable (g1, x1, ic i, ival i) (gi, xi, ic i, ival i)).
             { repeat split; auto. eapply eqw_trans; [apply eqc_eqw; exact C1|exact EW]. }
             assert (RR : R (g1, x1, ic i, ival i) (gi, xi, ic i, ival i)).
             { eapply ADJ; [|exact J]. rewrite TRI, TR, <- app_assoc. reflexivity. }
             destruct (obs_join _ _ _ _ _ _ _ _ G J RR) as [OBS XK].
             destruct (run_over _ T1 xb _ _ _ _ _ XK W8) as [-> E2].
             rewrite xapp_0 in E2 by exact XK. rewrite app_nil_r in EI.
             destruct (run_norc _ W5 _ _ gb _ _ _ E2 (eqc_refl _)) as [ga' [E Q]].
             assert (Q2 : eqc ga' gi) by (eapply eqc_trans; [apply eqc_sym; exact Q|exact W7]).
             set (s2 := MM _ _ _ _ _ _).
             assert (WK : weak (pre ++ [i]) s2 out gi x0 (ei ++ obs gi xi (ic i) (ival i)) ga' (xapp xb xi) eb ga').
             { unfold s2. constructor; cbn [mm_before mm_after mm_acount mm_props mm_mains mm_bcount]; auto.
               - apply Forall_app; auto.
               - rewrite norc_app, app_assoc. pose proof (irun_then _ _ _ _ _ _ _ W6 E) as Y.
                 rewrite app_nil_r in Y. exact Y.
               - rewrite M. cbn [app]. rewrite <- EC, <- EV. split; auto. exists []. split; [reflexivity|].
                 rewrite app_nil_r, EI, <- app_assoc. f_equal.
                 rewrite (eqc_cnt _ _ _ (eqc_sym _ _ C1)), OBS, W2.
                 rewrite (eqc_cnt _ _ _ Q2). reflexivity. }
             destruct (mm_acount s =? 1) eqn:AC; cbn [negb].
             ++ cbn [fst snd]. rewrite app_nil_r. exists gi, x0. do 5 eexists. split; [exact WK|].
                split; unfold s2; cbn [mm_after mm_mains mm_bcount]; [constructor|].
                rewrite M. cbn [app]. split; [apply eqc_eqw; exact Q2|].
                exists (itrace start pre), gi, xi. rewrite <- EC, <- EV. split; [exact TRI|].
                assert (C3 : g_count gi = 1) by lia.
                split; [|split; [apply eqc_sym; exact Q2|exact C3]].
                replace (mm_acount s) with 1 by lia. eapply grp_more; eauto.
             ++ destruct (mm_flush s2) as [s3 o2] eqn:FL. cbn [fst snd app].
                destruct (flush_inv _ _ _ _ _ _ _ _ _ _ WK) as [_ [_ [gb' [ga2 [X1 X2]]]]].
                rewrite FL in X1, X2. cbn [fst snd] in *. do 7 eexists. split; eauto.
          -- (* a different data item *)
             destruct (flush_inv _ _ _ _ _ _ _ _ _ _ W) as [F1 [F2 [gb' [ga2 [X1 X2]]]]].
             destruct (mm_flush s) as [s1 o1]. cbn [fst snd] in *.
             specialize (FRESH s1 (out ++ o1) gb' xi ei ga2 X1 (proj1 X2) F1).
             rewrite <- app_assoc in FRESH.
             destruct (negb (mm_acount s1 =? 1)).
             ++ destruct (mm_flush _) as [s3 o2]. exact FRESH.
             ++ cbn [fst snd] in *. rewrite app_nil_r in FRESH. exact FRESH.
      + (* another main item *)
        assert (E : irun (gi, xi) [i] = ((gi, x0), obs gi xi (ic i) (ival i))) by (apply irun_main; exact K).
        destruct (push_weak _ _ _ _ _ _ _ _ _ _ i _ _ _ _ W D E W3) as [ga' WK].
        rewrite W2 in WK.
        destruct (flush_inv _ _ _ _ _ _ _ _ _ _ WK) as [_ [_ [gb' [ga2 [X1 X2]]]]].
        do 7 eexists. split; eauto.
    - (* a global item *)
      assert (D : is_data (ic i) = false) by (destruct (ic i); try discriminate; reflexivity).
      assert (E : irun (gi, xi) [i] = ((g_set (ic i) (ival i) gi, xi), [])) by (apply irun_global; exact K).
      destruct (to_watch (ic i)) eqn:TW; cbn [andb].
      + assert (NRC : ic i <> ReportCount) by (destruct (ic i); try discriminate; congruence).
        assert (Q0 : forall (T' : Type) (a b : T'), match ic i with ReportCount => a | _ => b end = b)
          by (intros; destruct (ic i); congruence).
        destruct (mm_props s (ic i) =? ival i) eqn:PV; cbn [negb].
        * rewrite Q0. cbn [fst snd].
          assert (GS : g_set (ic i) (ival i) gi = gi).
          { replace (ival i) with (g_val (ic i) gi) by (rewrite <- W3 by auto; lia). apply set_same; auto. }
          rewrite GS in E.
          destruct (push_weak _ _ _ _ _ _ _ _ _ _ i _ _ _ _ W D E W3) as [ga' WK].
          rewrite W2 in WK. rewrite app_nil_r. do 7 eexists. split; [exact WK|].
          eapply push_tied; eauto; [congruence|reflexivity].
        * assert (W3' : forall c, to_watch c = true ->
             upd (mm_props s) (ic i) (ival i) c = g_val c (g_set (ic i) (ival i) gi)).
          { intros c TC. unfold upd. destruct (icls_eqb c (ic i)) eqn:CE.
            - apply icls_eqb_eq in CE. subst c. rewrite val_set; auto.
            - apply icls_eqb_neq in CE. rewrite val_other by auto. auto. }
          destruct (push_weak _ _ _ _ _ _ _ _ _ _ i _ _ _ _ W D E W3') as [ga' WK].
          rewrite (count_other _ _ _ NRC), W2 in WK.
          cbn [mm_before mm_mains mm_after mm_bcount mm_acount mm_props] in *.
          destruct (flush_inv _ _ _ _ _ _ _ _ _ _ WK) as [_ [_ [gb' [ga2 [X1 X2]]]]].
          destruct (mm_flush _) as [s3 o3]. rewrite Q0. cbn [fst snd] in *. do 7 eexists. split; eauto.
      + assert (W3' : forall c, to_watch c = true -> mm_props s c = g_val c (g_set (ic i) (ival i) gi)).
        { intros c TC. rewrite unwatched_val; auto. }
        destruct (push_weak _ _ _ _ _ _ _ _ _ _ i _ _ _ _ W D E W3') as [ga' WK].
        assert (TT : tied (pre ++ [i]) (MM (mm_before s) (mm_mains s) (mm_after s ++ [i]) (mm_bcount s)
                    (g_count (g_set (ic i) (ival i) gi)) (mm_props s)) (g_set (ic i) (ival i) gi) gb xb).
        { eapply push_tied; eauto; [congruence|]. apply unwatched_eqw; auto. }
        assert (SS : (match ic i with
          | ReportCount => MM (mm_before s) (mm_mains s) (mm_after s ++ [i]) (mm_bcount s) (ival i) (mm_props s)
          | _ => MM (mm_before s) (mm_mains s) (mm_after s ++ [i]) (mm_bcount s) (mm_acount s) (mm_props s)
          end) = MM (mm_before s) (mm_mains s) (mm_after s ++ [i]) (mm_bcount s)
                    (g_count (g_set (ic i) (ival i) gi)) (mm_props s)).
        { rewrite <- W2. destruct gi. destruct (ic i); try discriminate; reflexivity. }
        cbn [fst snd]. cbn [mm_before mm_mains mm_after mm_bcount mm_acount mm_props].
        rewrite SS, app_nil_r. do 7 eexists. split; [exact WK|exact TT].
    - (* a local item *)
      assert (D : is_data (ic i) = false) by (destruct (ic i); try discriminate; reflexivity).
      assert (E := irun_local gi xi i K).
      destruct (push_weak _ _ _ _ _ _ _ _ _ _ i _ _ _ _ W D E W3) as [ga' WK].
      rewrite W2 in WK. cbn [fst snd]. rewrite app_nil_r. do 7 eexists. split; [exact WK|].
      eapply push_tied; eauto; [congruence|reflexivity].
  Qed.

  Lemma adj_prefix a b : adj (a ++ b) -> adj a.
  Proof.
    intros H t1 e1 e2 t2 E J. eapply (H t1 e1 e2 (t2 ++ b)); auto. rewrite E, <- app_assoc. reflexivity.
  Qed.

  Lemma itrace_prefix s l i : adj (itrace s (l ++ [i])) -> adj (itrace s l).
  Proof. rewrite itrace_snoc. apply adj_prefix. Qed.

  Lemma feed_inv l : push_free l -> adj (itrace start l) ->
    inv l (fst (feed main_merge mm_init l)) (snd (feed main_merge mm_init l)).
  Proof.
    induction l as [|i l IH] using rev_ind; intros P AD.
    - cbn [feed fst snd]. exists g_init, x0, [], g_init, x0, [], g_init. split; [|split; [constructor|exact I]].
      constructor; cbn; auto.
      + intros c. destruct c; reflexivity.
      + reflexivity.
      + split; auto. exists []. auto.
    - rewrite feed_app. cbn [feed fst snd].
      apply Forall_app in P. destruct P as [P1 P2]. inversion P2 as [|? ? P3 _]; subst.
      specialize (IH P1 (itrace_prefix _ _ _ AD)).
      pose proof (step_inv _ _ _ _ IH P3 AD) as S.
      change (p_append main_merge) with mm_append.
      destruct (mm_append (fst (feed main_merge mm_init l)) i) as [s1 o1]. cbn [fst snd] in *.
      rewrite app_nil_r. exact S.
  Qed.

  (** a stream ending with a Collection or EndCollection *)
  Lemma mm_main_flushed s i : kind_of (ic i) = Main -> is_data (ic i) = false ->
    mm_mains (fst (mm_append s i)) = [] /\ mm_after (fst (mm_append s i)) = [].
  Proof.
    intros K D. unfold mm_append, ikd. rewrite K, D. cbn [negb]. unfold mm_flush. cbn. auto.
  Qed.

  Theorem main_merge_view l i :
    push_free (l ++ [i]) -> kind_of (ic i) = Main -> is_data (ic i) = false ->
    adj (itrace start (l ++ [i])) ->
    snd (irun start (run_pass main_merge (l ++ [i]))) = snd (irun start (l ++ [i])).
  Proof.
    intros P K D AD. pose proof (feed_inv _ P AD) as IV.
    unfold run_pass. change (p_init main_merge) with mm_init.
    assert (FL : mm_mains (fst (feed main_merge mm_init (l ++ [i]))) = [] /\
                 mm_after (fst (feed main_merge mm_init (l ++ [i]))) = []).
    { rewrite feed_app. cbn [feed fst snd]. change (p_append main_merge) with mm_append.
      pose proof (mm_main_flushed (fst (feed main_merge mm_init l)) i K D) as Y.
      destruct (mm_append _ i). exact Y. }
    destruct (feed main_merge mm_init (l ++ [i])) as [s out]. cbn [fst snd] in *.
    destruct FL as [M AF]. change (p_close main_merge s) with (mm_close s). unfold mm_close.
    rewrite M, AF, !app_nil_r.
    destruct IV as [gi [xi [ei [gb [xb [eb [ga [[W1 W2 W3 W4 W5 W6 W7 W8] _]]]]]]]].
    rewrite M, AF in W8. destruct W8 as [_ [e [W8 EI]]]. injection W8 as <- <- <-. rewrite app_nil_r in EI.
    rewrite W1. cbn [snd]. rewrite EI.
    rewrite irun_app in *. injection W6 as W6 W6e. rewrite <- W6e. cbn [snd]. f_equal.
    destruct (fst (irun start out)) as [g x].
    destruct (irun (g, x) (mm_before s)) as [[ga xa] e] eqn:E.
    destruct (run_norc _ W4 _ _ g _ _ _ E (eqc_refl _)) as [ga' [E' _]]. rewrite E'. reflexivity.
  Qed.
End MM.
