(* ExtractAgain.v -- compiling a decompiled tree again (C48) *)
From Coq Require Import ZifyBool ZifyNat.
From Verif Require Import Py Usage Item Parser Optimizer Descriptor Extractor HidSpec ItemFacts StreamSpec StreamProofs StreamTree ParserFacts OptFacts OptSpec
  ExtractSpec ExtractFacts ExtractView.
Ltac Zify.zify_post_hook ::= Z.div_mod_to_equations.

Section TInd.
  Variable P : tree -> Prop.
  Hypothesis HV : forall v, P (TValue v).
  Hypothesis HR : forall id ms, Forall P ms -> P (TReport id ms).
  Hypothesis HT : forall ms, Forall P ms -> P (TTop ms).
  Hypothesis HC : forall k u ms, Forall P ms -> P (TColl k u ms).
  Fixpoint tree_all (t : tree) : P t :=
    let go := fix go ms : Forall P ms := match ms with [] => Forall_nil P | m :: r => Forall_cons m (tree_all m) (go r) end in
    match t with
    | TValue v => HV v
    | TReport id ms => HR id ms (go ms)
    | TTop ms => HT ms (go ms)
    | TColl k u ms => HC k u ms (go ms)
    end.
End TInd.

(* ------------------------------------------------------------------ *)
(** report ids of a tree all of whose values are in Reports *)

(** every Report has a value *)
Fixpoint filled (t : tree) : Prop :=
  match t with
  | TValue _ => True
  | TReport id ms => lrids (flat_map (scoped id) ms) <> []
  | TTop ms | TColl _ _ ms => (fix all ms := match ms with [] => True | m :: r => filled m /\ all r end) ms
  end.

Lemma filled_list ms : (fix all ms := match ms with [] => True | m :: r => filled m /\ all r end) ms <-> Forall filled ms.
Proof.
  induction ms as [|m ms IH]; [split; constructor|]. rewrite IH. split.
  - intros [A B]. constructor; auto.
  - intros A. inversion A; auto.
Qed.

Lemma free_list ms : (fix all ms := match ms with [] => True | m :: r => report_free m /\ all r end) ms <-> Forall report_free ms.
Proof.
  induction ms as [|m ms IH]; [split; constructor|]. rewrite IH. split.
  - intros [A B]. constructor; auto.
  - intros A. inversion A; auto.
Qed.

Definition go_threaded := fix go (rid : Z) (ms : list tree) : list leaf * Z :=
  match ms with [] => ([], rid) | m :: r => let (a, rid1) := threaded rid m in let (b, rid2) := go rid1 r in (a ++ b, rid2) end.
Definition go_entered := fix go (rid : Z) (ms : list tree) : list leaf * Z :=
  match ms with [] => ([], rid) | m :: r => let (a, rid1) := entered rid m in let (b, rid2) := go rid1 r in (a ++ b, rid2) end.

Lemma free_go (step : Z -> tree -> list leaf * Z) go
  (E0 : forall r, go r [] = ([], r)) (E1 : forall r m ms, go r (m :: ms) = (let (a, rid1) := step r m in let (b, rid2) := go rid1 ms in (a ++ b, rid2))) ms :
  Forall (fun m => report_free m -> forall r, step r m = (scoped r m, r)) ms -> Forall report_free ms ->
  forall r, go r ms = (flat_map (scoped r) ms, r).
Proof.
  induction 1 as [|m ms H F IH]; intros RF r; [apply E0|]. inversion RF; subst. rewrite E1, H, IH by auto. reflexivity.
Qed.

Lemma free_threaded t : report_free t -> forall r, threaded r t = (scoped r t, r).
Proof.
  revert t. apply (tree_all (fun t => report_free t -> forall r, threaded r t = (scoped r t, r))).
  - reflexivity.
  - intros id ms _ [].
  - intros ms F RF r. apply free_list in RF. apply (free_go threaded go_threaded); auto.
  - intros k u ms F RF r. apply free_list in RF. cbn [threaded scoped]. fold go_threaded.
    rewrite (free_go threaded go_threaded ltac:(reflexivity) ltac:(reflexivity) ms F RF). reflexivity.
Qed.

Lemma free_entered t : report_free t -> forall r, entered r t = (scoped r t, r).
Proof.
  revert t. apply (tree_all (fun t => report_free t -> forall r, entered r t = (scoped r t, r))).
  - reflexivity.
  - intros id ms _ [].
  - intros ms F RF r. apply free_list in RF. apply (free_go entered go_entered); auto.
  - intros k u ms F RF r. apply free_list in RF. cbn [entered scoped]. fold go_entered.
    rewrite (free_go entered go_entered ltac:(reflexivity) ltac:(reflexivity) ms F RF). reflexivity.
Qed.

(** 0 is not used after another id, the first one being [rid] *)
Definition zero_ok (rid : Z) (l : list Z) : Prop := zeros_first (rid :: l).

Lemma zeros_first_nz z l : z <> 0 -> zeros_first (z :: l) -> Forall (fun x => x <> 0) l.
Proof.
  intros N [a [b [E [A B]]]]. destruct a as [|x a].
  - cbn in E. subst b. inversion B; auto.
  - injection E as E1 E2. inversion A; subst. congruence.
Qed.

Lemma nz_zeros_first l : Forall (fun x => x <> 0) l -> zeros_first l.
Proof. intros H. exists [], l. repeat split; auto. Qed.

Lemma zeros_first_app l1 : forall l2 r, zeros_first (r :: l1 ++ l2) -> zeros_first (r :: l1) /\ zeros_first (last l1 r :: l2).
Proof.
  induction l1 as [|x l1 IH]; intros l2 r H.
  - split; [|exact H]. destruct (Z.eq_dec r 0) as [-> |N]; [exists [0], []; repeat constructor|exists [], [r]; repeat constructor; auto].
  - cbn [app] in H.
    assert (T : zeros_first (x :: l1 ++ l2)).
    { destruct (Z.eq_dec r 0) as [-> |N].
      - destruct H as [a [b [E [A B]]]]. destruct a as [|y a].
        + cbn in E. subst b. inversion B; congruence.
        + injection E as _ E. inversion A; subst. exists a, b. auto.
      - apply nz_zeros_first. eapply zeros_first_nz; eauto. }
    destruct (IH l2 x T) as [I1 I2]. split.
    + destruct (Z.eq_dec r 0) as [-> |N].
      * destruct I1 as [a [b [E [A B]]]]. exists (0 :: a), b. rewrite E. repeat split; auto.
      * pose proof (zeros_first_nz _ _ N H) as NZ. apply nz_zeros_first. constructor; [auto|]. inversion NZ as [|? ? N1 N2]; subst. apply Forall_app in N2. constructor; [exact N1|apply N2].
    + replace (last (x :: l1) r) with (last l1 x); [exact I2|]. destruct l1 as [|y l1]; [reflexivity|]. change (last (x :: y :: l1) r) with (last (y :: l1) r).
      clear. revert y. induction l1 as [|z l1 IH]; intros y; [reflexivity|]. apply IH.
Qed.

Lemma last_app_ne {A} (l1 l2 : list A) d : last (l1 ++ l2) d = last l2 (last l1 d).
Proof.
  revert d. induction l1 as [|x l1 IH]; intros d; [reflexivity|]. cbn [app].
  assert (Q : forall (l : list A) y e, last (y :: l) e = last l y).
  { clear. intros l. induction l as [|z l IH]; intros y e; [reflexivity|]. change (last (y :: z :: l) e) with (last (z :: l) e). rewrite !IH. reflexivity. }
  rewrite !Q. apply IH.
Qed.

Lemma scoped_reported t : all_reported t -> forall r r', scoped r t = scoped r' t.
Proof.
  revert t. apply (tree_all (fun t => all_reported t -> forall r r', scoped r t = scoped r' t)).
  - intros v [].
  - reflexivity.
  - intros ms F A r r'. apply all_rep_list in A. cbn [scoped]. induction F as [|m ms H F IH]; [reflexivity|]. inversion A; subst. cbn [flat_map]. rewrite (H H2 r r'), IH by auto. reflexivity.
  - intros k u ms F A r r'. apply all_rep_list in A. cbn [scoped]. f_equal. f_equal. induction F as [|m ms H F IH]; [reflexivity|]. inversion A; subst. cbn [flat_map]. rewrite (H H2 r r'), IH by auto. reflexivity.
Qed.

(* the ids of report-free members are all the one of their Report *)
Lemma free_rids t : report_free t -> forall r, Forall (eq r) (lrids (scoped r t)).
Proof.
  revert t. apply (tree_all (fun t => report_free t -> forall r, Forall (eq r) (lrids (scoped r t)))).
  - intros v _ r. repeat constructor.
  - intros id ms _ [].
  - intros ms F RF r. apply free_list in RF. cbn [scoped]. induction F as [|m ms H F IH]; [constructor|]. inversion RF; subst. cbn [flat_map]. rewrite lrids_app. apply Forall_app. auto.
  - intros k u ms F RF r. apply free_list in RF. cbn [scoped]. change (Forall (eq r) (lrids (flat_map (scoped r) ms ++ [LClose]))). rewrite lrids_app. apply Forall_app. split; [|constructor].
    induction F as [|m ms H F IH]; [constructor|]. inversion RF; subst. cbn [flat_map]. rewrite lrids_app. apply Forall_app. auto.
Qed.

Lemma free_rids_all ms id : Forall report_free ms -> Forall (eq id) (lrids (flat_map (scoped id) ms)).
Proof. induction 1; [constructor|]. cbn [flat_map]. rewrite lrids_app. apply Forall_app. split; [apply free_rids|]; auto. Qed.

Lemma last_const {A} (x d : A) l : Forall (eq x) l -> l <> [] -> last l d = x.
Proof.
  intros F. revert d. induction F as [|y l E F IH]; [congruence|]. intros d _. subst y. destruct l; [reflexivity|]. apply IH. discriminate.
Qed.

Lemma reported_threaded t : all_reported t -> filled t -> forall r, zero_ok r (lrids (scoped 0 t)) ->
  threaded r t = (scoped 0 t, last (lrids (scoped 0 t)) r).
Proof.
  revert t. apply (tree_all (fun t => all_reported t -> filled t -> forall r, zero_ok r (lrids (scoped 0 t)) -> threaded r t = (scoped 0 t, last (lrids (scoped 0 t)) r))).
  - intros v [].
  - intros id ms _ A FI r Z. cbn [all_reported filled scoped] in *. cbn [threaded]. fold go_threaded.
    pose proof (free_rids_all ms id A) as FR.
    assert (E : (if id =? 0 then r else id) = id).
    { destruct (id =? 0) eqn:Q; [|reflexivity]. destruct (Z.eq_dec r 0) as [-> |N]; [lia|].
      pose proof (zeros_first_nz _ _ N Z) as NZ. destruct (lrids (flat_map (scoped id) ms)); [congruence|]. inversion NZ; inversion FR; subst. lia. }
    rewrite E, (free_go threaded go_threaded ltac:(reflexivity) ltac:(reflexivity) ms); [|apply Forall_forall; intros; apply free_threaded; auto|exact A].
    rewrite (last_const id) by auto. reflexivity.
  - intros ms F A FI r Z. apply all_rep_list in A. apply filled_list in FI. cbn [threaded scoped] in *. fold go_threaded. revert r Z.
    induction F as [|m ms H F IH]; intros r Z; [reflexivity|]. inversion A; inversion FI; subst. cbn [flat_map go_threaded] in *.
    rewrite lrids_app in *. apply zeros_first_app in Z. destruct Z as [Z1 Z2]. rewrite H by auto. fold go_threaded. rewrite IH by auto. rewrite last_app_ne. reflexivity.
  - intros k u ms F A FI r Z. apply all_rep_list in A. apply filled_list in FI. cbn [threaded scoped] in *. fold go_threaded.
    change (lrids (LOpen k u :: flat_map (scoped 0) ms ++ [LClose])) with (lrids (flat_map (scoped 0) ms ++ [LClose])) in *. rewrite lrids_app in *. cbn [lrids flat_map] in *. rewrite app_nil_r in *. fold lrids in *.
    assert (G : go_threaded r ms = (flat_map (scoped 0) ms, last (lrids (flat_map (scoped 0) ms)) r)).
    { revert r Z. induction F as [|m ms H F IH]; intros r Z; [reflexivity|]. inversion A; inversion FI; subst. cbn [flat_map go_threaded] in *.
      rewrite lrids_app in *. apply zeros_first_app in Z. destruct Z as [Z1 Z2]. rewrite H by auto. fold go_threaded. rewrite IH by auto. rewrite last_app_ne. reflexivity. }
    rewrite G. reflexivity.
Qed.

Lemma reported_entered t : all_reported t -> filled t -> forall r, entered r t = (scoped 0 t, last (lrids (scoped 0 t)) r).
Proof.
  revert t. apply (tree_all (fun t => all_reported t -> filled t -> forall r, entered r t = (scoped 0 t, last (lrids (scoped 0 t)) r))).
  - intros v [].
  - intros id ms _ A FI r. cbn [all_reported filled scoped] in *. cbn [entered]. fold go_entered.
    pose proof (free_rids_all ms id A) as FR.
    rewrite (free_go entered go_entered ltac:(reflexivity) ltac:(reflexivity) ms); [|apply Forall_forall; intros; apply free_entered; auto|exact A].
    rewrite (last_const id) by auto. reflexivity.
  - intros ms F A FI r. apply all_rep_list in A. apply filled_list in FI. cbn [entered scoped] in *. fold go_entered. revert r.
    induction F as [|m ms H F IH]; intros r; [reflexivity|]. inversion A; inversion FI; subst. cbn [flat_map go_entered] in *.
    rewrite lrids_app in *. rewrite H by auto. fold go_entered. rewrite IH by auto. rewrite last_app_ne. reflexivity.
  - intros k u ms F A FI r. apply all_rep_list in A. apply filled_list in FI. cbn [entered scoped] in *. fold go_entered.
    change (lrids (LOpen k u :: flat_map (scoped 0) ms ++ [LClose])) with (lrids (flat_map (scoped 0) ms ++ [LClose])) in *. rewrite lrids_app in *. cbn [lrids flat_map] in *. rewrite app_nil_r in *. fold lrids in *.
    assert (G : go_entered r ms = (flat_map (scoped 0) ms, last (lrids (flat_map (scoped 0) ms)) r)).
    { revert r. induction F as [|m ms H F IH]; intros r; [reflexivity|]. inversion A; inversion FI; subst. cbn [flat_map go_entered] in *.
      rewrite lrids_app in *. rewrite H by auto. fold go_entered. rewrite IH by auto. rewrite last_app_ne. reflexivity. }
    rewrite G. reflexivity.
Qed.

(** Reports are inserted around values only *)
Lemma insert_filled_gen ms : Forall (fun m => (length (e_ids m) <> 1)%nat -> filled (report_insert m)) ms ->
  forall cur, lrids (cur_leaves cur) <> [] \/ cur = None -> Forall filled (report_insert_members ms cur).
Proof.
  assert (CL : forall cur, lrids (cur_leaves cur) <> [] \/ cur = None -> Forall filled (ri_close cur)).
  { intros [[id l]|] H; constructor; [|constructor]. destruct H as [H|H]; [exact H|discriminate H]. }
  induction 1 as [|m ms Hm F IH]; intros cur HC; cbn [report_insert_members]; [auto|].
  assert (OTHER : (length (e_ids m) <> 1)%nat -> Forall filled (ri_close cur ++ report_insert m :: report_insert_members ms None)).
  { intros NE. apply Forall_app. split; [apply CL; exact HC|]. constructor; [auto|]. apply IH. right. reflexivity. }
  destruct (e_ids m) as [|id [|id2 l]] eqn:E; [apply OTHER; cbn; lia| |apply OTHER; cbn; lia].
  assert (ONE : lrids (cur_leaves (Some (id, [raw m]))) <> []).
  { cbn [cur_leaves flat_map]. rewrite app_nil_r, (raw_leaves id m (one_id _ _ E)). intros Q.
    assert (IN : In id (lrids (eleaves m))) by (apply ids_leaves; rewrite E; left; reflexivity). rewrite Q in IN. destruct IN. }
  destruct cur as [[id' l]|].
  - destruct (zmem id' [id]).
    + apply IH. left. cbn [cur_leaves]. rewrite flat_map_app, lrids_app. destruct HC as [HC|HC]; [|discriminate HC]. cbn [cur_leaves] in HC. intros Q. apply app_eq_nil in Q. tauto.
    + apply Forall_app. split; [apply (CL (Some (id', l))); exact HC|]. apply IH. left. exact ONE.
  - apply IH. left. exact ONE.
Qed.

Lemma insert_filled ms : filled (TTop (report_insert_members ms None)).
Proof.
  cbn [filled]. apply filled_list. apply insert_filled_gen; [|right; reflexivity].
  apply Forall_forall. intros m _. revert m.
  apply (etree_all (fun m => (length (e_ids m) <> 1)%nat -> filled (report_insert m))).
  - intros v r H. cbn in H. lia.
  - intros k u ms' F _. rewrite report_insert_coll. cbn [filled]. apply filled_list. apply insert_filled_gen; [exact F|right; reflexivity].
Qed.

(* ------------------------------------------------------------------ *)
(** the leaves of a decompiled tree are built by the constructors *)

Definition made (l : list item) (x : leaf) : Prop :=
  match x with
  | LOpen (VInt z) _ => 0 <= z
  | LOpen _ _ | LClose => True
  | LVal _ v =>
      (exists k a, mk_value k a = Ok v) /\
      (v_kind v = KValue -> is_constant (py_int (v_flags v)) = false /\ v_align v = Z.min 8 (v_size v) /\
         (v_count v = 1 \/ exists i, In i l /\ data_tag (ic i) = true /\ is_constant (ival i) = false /\ is_buffered (ival i) = true))
  end.

Lemma mk_value_more k a v : mk_value k a = Ok v -> a_align a = None ->
  v_align v = Z.min 8 (v_size v) /\ (v_flags v = a_flags a \/ v_flags v = VInt 0 \/ v_flags v = VNamed "Variable" 2).
Proof.
  intros H AN. unfold mk_value in H. rewrite AN in H. destruct (narr_truthy (a_named a)) as [n|e]; [|discriminate]. cbn [bind] in H.
  destruct (_ && _ && _); [discriminate|]. revert H.
  destruct (zero_or_none (a_pmin a) && zero_or_none (a_pmax a)); destruct (a_named a) as [arr|] eqn:N; destruct n;
    try (destruct (narr_len arr) as [z|e]; [|discriminate]; cbn [bind]; destruct (a_lmin a) as [z'|] eqn:EL; [|discriminate]);
    intros H; injection H as <-; cbn [v_align v_size v_flags]; (split; [reflexivity|]); auto;
    destruct (a_usage a) as [u|]; try destruct (truthy u); auto.
Qed.

Lemma made_value l r v a : mk_value KValue a = Ok v -> a_align a = None -> is_constant (py_int (a_flags a)) = false ->
  (a_count a = 1 \/ exists i, In i l /\ data_tag (ic i) = true /\ is_constant (ival i) = false /\ is_buffered (ival i) = true) ->
  made l (LVal r v).
Proof.
  intros H AN FC CT. destruct (mk_value_more _ _ _ H AN) as [E1 E2]. destruct (mk_value_fields _ _ _ H) as [_ [_ [_ [_ [E3 _]]]]].
  split; [eauto|]. intros _. split; [|split; [exact E1|rewrite E3; exact CT]].
  destruct E2 as [-> |[-> | ->]]; [exact FC|reflexivity|reflexivity].
Qed.

Lemma leave_prefix s s1 (P : leaf -> Prop) keep : x_leave s keep = Ok s1 -> P LClose -> Forall P (open_leaves s) -> Forall P (open_leaves s1).
Proof.
  unfold x_leave. destruct (x_stack s) as [|p r] eqn:ES; [discriminate|]. intros H PC. injection H as <-.
  unfold open_leaves. rewrite ES. cbn [set_levels x_stack x_current rev]. rewrite flat_map_app, !Forall_app. cbn [flat_map]. rewrite app_nil_r.
  intros [[F1 F2] F3]. split; [exact F1|]. destruct p as [h ms]. unfold lv_leaves in *. cbn [lv_head lv_members] in *. rewrite flat_map_app, !Forall_app in *.
  destruct F2 as [F2 F2']. split; [exact F2|]. split; [exact F2'|].
  destruct keep; [|constructor]. destruct (lv_members (x_current s)) as [|m ms'] eqn:EM; [constructor|].
  unfold close_level. destruct (lv_head (x_current s)) as [[k u]|]; [|constructor]. rewrite EM. change (flat_map eleaves [EColl k u (m :: ms')]) with ((LOpen k u :: flat_map eleaves (m :: ms') ++ [LClose]) ++ []).
  rewrite app_nil_r. destruct F3 as [F3 F4]. inversion F3; subst. constructor; [assumption|]. apply Forall_app. split; [exact F4|]. repeat constructor. exact PC.
Qed.

Lemma made_data db l s i s' : In i l -> data_tag (ic i) = true -> handle_data db s i = Ok s' ->
  Forall (made l) (open_leaves s) -> Forall (made l) (open_leaves s').
Proof.
  intros IN DT. unfold handle_data.
  assert (LC : Z.land (ival i) fl_Constant =? 0 = negb (is_constant (ival i))) by apply odd_land.
  assert (LB : Z.land (ival i) fl_BufferedBytes =? 0 = negb (is_buffered (ival i))) by apply buffered_land.
  rewrite LC, LB, !negb_involutive. destruct (is_constant (ival i)) eqn:EC.
  - destruct (mk_padding _ _) as [v|e] eqn:EV; [|discriminate]. cbn [bind]. intros H F. injection H as <-.
    rewrite add_value_leaves. apply Forall_app. split; [exact F|]. constructor; [|constructor]. split.
    + unfold mk_padding in EV. eauto.
    + intros Q. apply mk_value_fields in EV. destruct EV as [EV _]. congruence.
  - set (matches := Z.of_nat (length (x_usages s)) =? _). set (q := _ && matches).
    destruct (if q then _ else _) as [inn|e] eqn:EI; [|discriminate]. cbn [bind]. destruct inn.
    + destruct (x_leave s false) as [s1|e] eqn:EL; [|discriminate]. cbn [bind].
      destruct (lv_members (x_current s)) eqn:EM; [|discriminate].
      destruct (lv_head (x_current s)) as [[k u]|] eqn:EH; [|discriminate].
      destruct (named_value _ _ _ _ _) as [v|e] eqn:EV; [|discriminate]. cbn [bind]. intros H F. injection H as <-.
      rewrite add_value_leaves. apply Forall_app. split.
      * apply (leave_prefix s s1 (made l) false EL I F).
      * constructor; [|constructor]. eapply made_value; [exact EV|reflexivity|reflexivity|left; reflexivity].
    + destruct ((ival i =? 0) && matches).
      * intros H F. apply add_values_spec in H. destruct H as [vs [EV [_ [_ [_ [_ [_ L]]]]]]]. rewrite L. apply Forall_app. split; [exact F|].
        apply Forall_map. apply Forall_forall. intros v IV. apply (in_map Ok) in IV. rewrite <- EV in IV. apply repeat_spec in IV. symmetry in IV.
        eapply made_value; [exact IV|reflexivity|reflexivity|left; reflexivity].
      * destruct (is_buffered (ival i)) eqn:EB.
        -- destruct (plain_value _ _ _ _ _) as [v|e] eqn:EV; [|discriminate]. cbn [bind]. intros H F. injection H as <-.
           rewrite add_value_leaves. apply Forall_app. split; [exact F|]. constructor; [|constructor].
           eapply made_value; [exact EV|reflexivity|exact EC|right; eauto].
        -- intros H F. apply add_values_spec in H. destruct H as [vs [EV [_ [_ [_ [_ [_ L]]]]]]]. rewrite L. apply Forall_app. split; [exact F|].
           apply Forall_map. apply Forall_forall. intros v IV. apply (in_map Ok) in IV. rewrite <- EV in IV. apply in_map_iff in IV. destruct IV as [n [IV _]].
           eapply made_value; [exact IV|reflexivity|exact EC|left; reflexivity].
Qed.

Lemma ended_same s : open_leaves (match x_stack s with [] => x_ended s | _ :: _ => s end) = open_leaves s.
Proof. destruct (x_stack s); reflexivity. Qed.

Lemma made_step db l s i s' : In i l -> constructed i -> x_append db s i = Ok s' ->
  Forall (made l) (open_leaves s) -> Forall (made l) (open_leaves s').
Proof.
  intros IN C H F. unfold x_append, ikd in H. destruct (kind_of (ic i)) eqn:K.
  - set (s0 := expand_ranges s) in *. change (open_leaves s) with (open_leaves s0) in F.
    destruct (data_tag (ic i)) eqn:DT.
    + assert (EH : (let* s1 := handle_data db s0 i in Ok (locals_clear s1)) = Ok s') by (destruct (ic i); try discriminate DT; exact H).
      destruct (handle_data db s0 i) as [s1|e] eqn:E1; [|discriminate EH]. cbn [bind] in EH. injection EH as <-.
      rewrite clear_same. eapply made_data; eauto.
    + destruct (ic i) eqn:EC; try discriminate K; try discriminate DT.
      * cbn [bind] in H. injection H as <-. rewrite clear_same.
        unfold open_leaves. cbn [x_enter set_levels x_stack x_current rev]. rewrite flat_map_app. cbn [flat_map]. rewrite app_nil_r. apply Forall_app. split; [exact F|].
        constructor; [|constructor]. cbn [made]. destruct (iv i) as [z|? ?|? ? ?] eqn:EV; auto. destruct (constructed_facts i C) as [CS _]. unfold ival in CS. rewrite EV, EC in CS. destruct CS as [CS|CS]; [discriminate CS|exact CS].
      * destruct (x_innamed s0).
        -- cbn [bind] in H. match type of H with Ok ?q = _ => assert (Q : s' = q) by congruence end. rewrite Q, clear_same, ended_same. exact F.
        -- destruct (x_leave s0 true) as [s1|e] eqn:E1; [|discriminate H]. cbn [bind] in H. match type of H with Ok ?q = _ => assert (Q : s' = q) by congruence end. rewrite Q, clear_same, ended_same. exact (leave_prefix s0 s1 (made l) true E1 I F).
  - injection H as <-. exact F.
  - injection H as <-. destruct (ic i); exact F.
Qed.

Lemma made_run db l0 l : forall s s', incl l l0 -> Forall constructed l -> x_run db s l = Ok s' ->
  Forall (made l0) (open_leaves s) -> Forall (made l0) (open_leaves s').
Proof.
  induction l as [|i l IH]; intros s s' IN C R F; cbn [x_run] in R.
  - injection R as <-. exact F.
  - destruct (x_append db s i) as [s1|e] eqn:E1; [|discriminate R]. cbn [bind] in R. inversion C; subst.
    apply (IH s1 s'); auto; [intros y Y; apply IN; right; exact Y|]. eapply made_step; eauto. apply IN. left. reflexivity.
Qed.

Lemma leaves_well_formed l t : forall r, Forall (made l) (scoped r t) -> well_formed t.
Proof.
  revert t. apply (tree_all (fun t => forall r, Forall (made l) (scoped r t) -> well_formed t)).
  - intros v r F. apply Forall_inv in F. destruct F as [M _]. exact M.
  - intros id ms F r M. cbn [scoped well_formed] in *. induction F as [|m ms H F IH]; [exact I|]. cbn [flat_map] in M. apply Forall_app in M. destruct M as [M1 M2]. split; [eapply H; exact M1|exact (IH M2)].
  - intros ms F r M. cbn [scoped well_formed] in *. induction F as [|m ms H F IH]; [exact I|]. cbn [flat_map] in M. apply Forall_app in M. destruct M as [M1 M2]. split; [eapply H; exact M1|exact (IH M2)].
  - intros k u ms F r M. cbn [scoped well_formed] in *. inversion M as [|? ? M0 M1]; subst. split; [destruct k; auto|]. apply Forall_app in M1. destruct M1 as [M1 _]. clear M M0.
    induction F as [|m ms H F IH]; [exact I|]. cbn [flat_map] in M1. apply Forall_app in M1. destruct M1 as [M1 M2]. split; [eapply H; exact M1|exact (IH M2)].
Qed.

(* ------------------------------------------------------------------ *)
(** offsets *)

Lemma layout_app a b : layout (a ++ b) = layout a ++ layout b.
Proof. unfold layout. apply flat_map_app. Qed.

Definition same_bits (a b : list event) : Prop := forall w r, report_bits w r a = report_bits w r b.

Lemma same_bits_app a b c d : same_bits a b -> same_bits c d -> same_bits (a ++ c) (b ++ d).
Proof. intros H1 H2 w r. rewrite !report_bits_app, H1, H2. reflexivity. Qed.

Lemma placed_app x : forall before y, placed before (x ++ y) = placed before x ++ placed (before ++ x) y.
Proof.
  induction x as [|e x IH]; intros before y; cbn [app placed]; [rewrite app_nil_r; reflexivity|].
  rewrite IH, <- app_assoc, <- app_assoc. reflexivity.
Qed.

Lemma placed_same ev : forall a b, same_bits a b -> placed a ev = placed b ev.
Proof.
  induction ev as [|e ev IH]; intros a b S; [reflexivity|]. cbn [placed]. rewrite (IH (a ++ [e]) (b ++ [e])) by (apply same_bits_app; [exact S|intros ? ?; reflexivity]).
  destruct (event_bits e) as [[[w r] n]|]; [|reflexivity]. rewrite (S w r). reflexivity.
Qed.

Lemma placed_pads ev : forallb is_pad ev = true -> forall b, placed b ev = [].
Proof.
  induction ev as [|e ev IH]; [reflexivity|]. cbn [forallb placed]. intros H b. apply andb_true_iff in H. destruct H as [-> H]. rewrite IH by exact H.
  destruct (event_bits e) as [[[w r] n]|]; reflexivity.
Qed.

Lemma pads_bits w r f z n w' r' :
  report_bits w' r' (repeat (EvPad w r f z) n) = if icls_eqb w w' && (r =? r') then Z.of_nat n * z else 0.
Proof.
  induction n as [|n IH]; [cbn; destruct (_ && _); reflexivity|]. cbn [repeat].
  change (EvPad w r f z :: repeat (EvPad w r f z) n) with ([EvPad w r f z] ++ repeat (EvPad w r f z) n). rewrite report_bits_app, IH.
  unfold report_bits. cbn [layout flat_map event_bits app filter fst snd map fold_right]. destruct (icls_eqb w w' && (r =? r')); cbn [map fold_right snd]; lia.
Qed.

Lemma gap_bits r v p n z f : p = Z.of_nat n * z ->
  same_bits (gap_events r v p) (repeat (EvPad (way_class (py_int (v_way v))) r f z) n).
Proof.
  intros E w' r'. rewrite pads_bits. unfold gap_events. destruct (p =? 0) eqn:Q.
  - cbn. destruct (_ && _); lia.
  - unfold report_bits. cbn [layout flat_map event_bits app filter fst snd map fold_right]. destruct (icls_eqb _ w' && (r =? r')); cbn [map fold_right snd]; lia.
Qed.

Lemma gap_pads r v p : forallb is_pad (gap_events r v p) = true.
Proof. unfold gap_events. destruct (p =? 0); reflexivity. Qed.

(** the only event of a value that is a single field *)
Lemma first_event r v : is_constant (py_int (v_flags v)) = false -> 1 <= v_count v -> forallb is_field (value_events r v) = true ->
  exists e es, value_events r v = e :: es /\ event_bits e = Some (way_class (py_int (v_way v)), r, v_size v) /\ is_pad e = false.
Proof.
  intros NC C1 FF. unfold value_events in *. rewrite NC in *. destruct (Z.to_nat (v_count v)) as [|n] eqn:CN; [lia|]. cbn [seq map repeat] in *.
  destruct (is_array v); [destruct (usage_list (v_usage v)) as [|u [|u2 us]]; [|discriminate FF|]|].
  all: destruct (is_variable (py_int (v_flags v))); eexists; eexists; (split; [reflexivity|split; reflexivity]).
Qed.

Definition natural (x : event * Z) : Prop :=
  match event_bits (fst x) with Some (_, _, n) => (Z.min 8 n | snd x) | None => True end.

Lemma fields_inv r v vs F : fields_of ((r, v) :: vs) F ->
  (v_kind v = KValue /\ exists F', F = value_events r v ++ F' /\ fields_of vs F') \/
  (v_kind v = KPadding /\ exists F' f z n, F = repeat (EvPad (way_class (py_int (v_way v))) r f z) n ++ F' /\ v_size v = Z.of_nat n * z /\ fields_of vs F').
Proof. intros H. inversion H; subst; [left|right]; eauto 9. Qed.

Lemma layout_same l ls before ev : follows aligned_gap before ls ev -> Forall (made l) ls ->
  (forall r v, In (LVal r v) ls -> v_kind v = KValue -> 1 <= v_count v) ->
  forall b0 F, fields_of (numbered ls) F -> forallb is_field F = true -> same_bits before b0 -> Forall natural (placed b0 F) ->
  placed before ev = placed b0 F.
Proof.
  induction 1 as [before|before k u ls ev H IH|before ls ev H IH|before r v p ls ev G H IH]; intros M C b0 F FO FF SB NA.
  - inversion FO; subst. reflexivity.
  - inversion M; subst. cbn [placed event_bits app]. apply IH; auto; [intros; eapply C; [right; eassumption|assumption]|].
    intros w q. rewrite report_bits_app, SB. unfold report_bits at 2. cbn. lia.
  - inversion M; subst. cbn [placed event_bits app]. apply IH; auto; [intros; eapply C; [right; eassumption|assumption]|].
    intros w q. rewrite report_bits_app, SB. unfold report_bits at 2. cbn. lia.
  - apply Forall_cons_iff in M. destruct M as [M1 M2].
    assert (C2 : forall r0 v0, In (LVal r0 v0) ls -> v_kind v0 = KValue -> 1 <= v_count v0) by (intros; eapply C; [right; eassumption|assumption]).
    change (numbered (LVal r v :: ls)) with ((r, v) :: numbered ls) in FO. apply fields_inv in FO. destruct G as [AG DG]. unfold any_gap, wanted_alignment in AG, DG. unfold own_events in *.
    destruct FO as [[K [F' [-> FO]]]|[K [F' [f [z [n [-> [Z FO]]]]]]]]; rewrite K in *.
    + destruct M1 as [_ M1]. destruct (M1 K) as [NC [AL _]].
      rewrite forallb_app in FF. apply andb_true_iff in FF. destruct FF as [FF1 FF2].
      destruct (first_event r v NC (C r v ltac:(left; reflexivity) K) FF1) as [e [es [EV [EB EP]]]].
      rewrite placed_app in NA. apply Forall_app in NA. destruct NA as [NA1 NA2].
      rewrite EV in NA1. cbn [placed app] in NA1. rewrite EB, EP in NA1. cbn [app] in NA1. apply Forall_inv in NA1. unfold natural in NA1. cbn [fst snd] in NA1. rewrite EB in NA1.
      assert (P0 : p = 0).
      { rewrite AL in *. rewrite SB in DG. destruct (Z_lt_le_dec 1 (Z.min 8 (v_size v))) as [L|L]; [|lia].
        specialize (DG L). assert (D : (Z.min 8 (v_size v) | p)) by (eapply Z.divide_add_cancel_r; eassumption).
        destruct D as [q D]. clear - AG L D. set (m := Z.min 8 (v_size v)) in *. clearbody m. rewrite Z.max_r in AG by lia.
        destruct (Z.eq_dec q 0) as [-> |N]; [lia|]. exfalso. destruct (Z_lt_le_dec q 0); nia. }
      subst p. change (gap_events r v 0) with (@nil event) in *. cbn [app]. rewrite !placed_app.
      rewrite (placed_same (value_events r v) before b0 SB). f_equal. apply IH; auto. cbn [app]. apply same_bits_app; [exact SB|intros ? ?; reflexivity].
    + assert (P0 : p = 0) by lia. subst p. change (gap_events r v 0) with (@nil event) in *. cbn [app] in *.
      rewrite forallb_app in FF. apply andb_true_iff in FF. destruct FF as [_ FF2].
      rewrite placed_app in NA. apply Forall_app in NA. destruct NA as [_ NA2]. rewrite !placed_app.
      assert (PP : forallb is_pad (repeat (EvPad (way_class (py_int (v_way v))) r f z) n) = true) by (clear; induction n; auto).
      rewrite (placed_pads _ (gap_pads r v (v_size v))), (placed_pads _ PP). cbn [app]. apply IH; auto.
      apply same_bits_app; [exact SB|]. apply gap_bits. exact Z.
Qed.

Lemma placed_fields ev : forall a b, same_bits a b -> placed a (filter is_field ev) = placed b ev.
Proof.
  induction ev as [|e ev IH]; intros a b S; [reflexivity|]. cbn [filter]. destruct (is_field e) eqn:IF.
  - cbn [placed]. rewrite (IH (a ++ [e]) (b ++ [e])) by (apply same_bits_app; [exact S|intros ? ?; reflexivity]).
    destruct (event_bits e) as [[[w r] n]|]; [|reflexivity]. rewrite (S w r). reflexivity.
  - cbn [placed]. destruct e; try discriminate IF; cbn [event_bits app]; apply IH; intros w r; rewrite report_bits_app, S; unfold report_bits at 3; cbn; lia.
Qed.

Lemma zeros_concat es : forall vss, Forall2 stands_for es vss -> zeros_first (map state_rid es) -> zeros_first (map fst (concat vss)).
Proof.
  intros vss F [a [b [E [A B]]]].
  assert (Q : exists va vb, vss = va ++ vb /\ Forall (Forall (fun x => fst x = 0)) va /\ Forall (Forall (fun x => fst x <> 0)) vb).
  { revert vss F E. revert es. induction a as [|x a IH]; intros es vss F E.
    - exists [], vss. split; [reflexivity|]. split; [constructor|]. cbn in E. subst b. clear A. induction F as [|[[[g y] c] f] vs es vss [S _] F IH]; [constructor|].
      inversion B; subst. constructor; [|auto]. eapply Forall_impl; [|exact S]. cbn. intros q [-> _]. assumption.
    - destruct F as [|[[[g y] c] f] vs es vss [S _] F]; [discriminate E|]. cbn [map app] in E. injection E as E1 E2. inversion A; subst.
      destruct (IH H2 es vss F E2) as [va [vb [-> [VA VB]]]]. exists (vs :: va), vb. split; [reflexivity|]. split; [|exact VB]. constructor; [|exact VA].
      eapply Forall_impl; [|exact S]. cbn. intros q [-> _]. cbn in *. congruence. }
  destruct Q as [va [vb [-> [VA VB]]]]. rewrite concat_app, map_app. exists (map fst (concat va)), (map fst (concat vb)). split; [reflexivity|].
  split; apply Forall_map, Forall_concat; (eapply Forall_impl; [|eassumption]); intros q Hq; (eapply Forall_impl; [|exact Hq]); cbn; intros; [congruence|assumption].
Qed.

Lemma lrids_numbered ls : lrids ls = map fst (numbered ls).
Proof. induction ls as [|[k u| |r v] ls IH]; [reflexivity|exact IH|exact IH|]. cbn [lrids numbered flat_map app map fst]. f_equal. exact IH. Qed.

Lemma state_of es vss : Forall2 stands_for es vss -> forall r v, In (r, v) (concat vss) -> exists g x c f, In (g, x, c, f) es /\ element_of g f v.
Proof.
  induction 1 as [|[[[g x] c] f] vs es vss S F IH]; intros r v I; [destruct I|]. cbn [concat] in I. apply in_app_or in I. destruct I as [I|I].
  - destruct S as [S _]. rewrite Forall_forall in S. destruct (S _ I) as [_ [_ E]]. exists g, x, c, f. split; [left; reflexivity|exact E].
  - destruct (IH r v I) as [g' [x' [c' [f' [I' E]]]]]. exists g', x', c', f'. split; [right; exact I'|exact E].
Qed.

(** by computation *)
Definition fits (es : list mstate) : bool :=
  forallb (fun e : mstate => let '(g, _, _, f) := e in is_constant f || negb (is_buffered f) ||
    (1 <=? g_count g) && forallb (fun e' : mstate => let '(g', _, _, f') := e' in
       is_constant f' || (g_size g' <=? 1) || ((g_size g * (g_count g - 1)) mod Z.min 8 (g_size g') =? 0)) es) es.

Lemma fits_fit es : fits es = true -> buffers_fit es.
Proof.
  intros H g x c f I N B. unfold fits in H. rewrite forallb_forall in H. specialize (H _ I). cbn beta iota in H. rewrite N, B in H. cbn [negb orb] in H.
  apply andb_true_iff in H. destruct H as [H1 H2]. split; [lia|]. intros g' x' c' f' I' N' L.
  rewrite forallb_forall in H2. specialize (H2 _ I'). cbn beta iota in H2. rewrite N' in H2. cbn [orb] in H2.
  apply orb_true_iff in H2. destruct H2 as [H2|H2]; [lia|]. apply Z.mod_divide; lia.
Qed.

Lemma c48 db l t b : Forall constructed l -> push_free l -> closes (map ic l) -> plain_stream [] (main_states (map wire l)) ->
  zeros_first (map state_rid (data_states (map wire l))) -> buffers_fit (data_states (map wire l)) ->
  naturally_aligned (host_view AtMain (map wire l)) ->
  extract db l = Ok t -> compile db false t = Ok b ->
  exists ev, reads_as b ev /\ placed [] ev = placed [] (host_view AtMain (map wire l)).
Proof.
  intros C P CL PS ZF UB NA X CO.
  pose proof (c45 db l t C P CL PS X) as FO.
  destruct (extract_final db l t C P CL X) as [s [R [ES [EN [EH [ET [vss [F V]]]]]]]].
  assert (SL : forall r, scoped r t = open_leaves s) by (intros r; rewrite ET, insert_leaves, (top_leaves s ES EH); reflexivity).
  assert (M : Forall (made l) (open_leaves s)) by (apply (made_run db l l xst_init s); [apply incl_refl|exact C|exact R|constructor]).
  assert (WF : well_formed t) by (apply (leaves_well_formed l t 0); rewrite SL; exact M).
  assert (AR : all_reported t) by (rewrite ET; apply insert_reported).
  assert (FI : filled t) by (rewrite ET; apply insert_filled).
  assert (ZO : zero_ok 0 (lrids (scoped 0 t))).
  { rewrite SL, lrids_numbered, V. destruct (zeros_concat _ _ F ZF) as [za [zb [E [ZA ZB]]]]. exists (0 :: za), zb. rewrite E. repeat split; auto. }
  assert (ENT : fst (entered 0 t) = scoped 0 t) by (rewrite (reported_entered t AR FI 0); reflexivity).
  assert (FR : forall r v, In (LVal r v) (scoped 0 t) -> exists g x c f, In (g, x, c, f) (data_states (map wire l)) /\ element_of g f v).
  { intros r v I. rewrite SL in I. apply (state_of (data_states (map wire l)) vss F r v). rewrite <- V. unfold numbered. apply in_flat_map. exists (LVal r v). split; [exact I|left; reflexivity]. }
  assert (C1 : forall r v, In (LVal r v) (scoped 0 t) -> v_kind v = KValue -> 1 <= v_count v).
  { intros r v I K. destruct (FR r v I) as [g [x [c [f [I1 E]]]]]. unfold element_of in E. rewrite K in E. destruct E as [N1 [_ [->|[B1 ->]]]]; [lia|].
    apply (UB g x c f I1 N1 B1). }
  assert (FV : forall v, In v (leaf_values (scoped 0 t)) -> exists r, In (LVal r v) (scoped 0 t)).
  { intros v I. unfold leaf_values in I. apply in_flat_map in I. destruct I as [x [I1 I2]]. destruct x as [| |r w]; try destruct I2 as []. subst w. eauto. contradiction. }
  destruct (c27 db t b WF CO) as [ev [RA FL]].
  - rewrite ENT, (reported_threaded t AR FI 0 ZO). reflexivity.
  - rewrite ENT. intros v w I1 I2 WA. destruct (FV v I1) as [r1 J1]. destruct (FV w I2) as [r2 J2].
    unfold extra_bits. destruct (v_kind v) eqn:K; try (exists 0; reflexivity).
    destruct (FR r1 v J1) as [g [x [c [f [S1 E1]]]]]. unfold element_of in E1. rewrite K in E1. destruct E1 as [N1 [Z1 [->|[B1 CV]]]]; [exists 0; lia|].
    destruct (UB g x c f S1 N1 B1) as [_ FI1]. rewrite Z1, CV.
    destruct (FR r2 w J2) as [g2 [x2 [c2 [f2 [S2 E2]]]]]. unfold element_of in E2. unfold wanted_alignment in *. destruct (v_kind w) eqn:K2; try lia; try contradiction.
    rewrite SL in J2. rewrite Forall_forall in M. destruct (M _ J2) as [_ Q]. destruct (Q K2) as [_ [AL _]]. destruct E2 as [N2 [Z2 _]]. rewrite AL, Z2 in *.
    match goal with |- (_ | ?a) => replace a with (g_size g * (g_count g - 1)) by ring end. apply (FI1 g2 x2 c2 f2 S2 N2). lia.
  - exists ev. split; [exact RA|]. rewrite ENT in FL. rewrite <- (placed_fields (host_view AtMain (map wire l)) [] []) by (intros ? ?; reflexivity).
    apply (layout_same l (scoped 0 t) [] ev FL); auto.
    + rewrite SL. exact M.
    + apply forallb_forall. intros e I. apply filter_In in I. apply I.
    + intros ? ?. reflexivity.
    + rewrite (placed_fields _ [] []) by (intros ? ?; reflexivity). exact NA.
Qed.
