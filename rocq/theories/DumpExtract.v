(* DumpExtract.v -- the constants in a decompiled tree have printable names (C50) *)
From Coq Require Import ZifyBool ZifyNat.
From Verif Require Import Py Usage Item Parser Optimizer Descriptor Extractor ItemFacts UsageTable UsageModules Dumper PyExpr ParserFacts ExtractSpec ExtractFacts DumpSpec DumpFacts DumpProofs.
Local Open Scope list_scope.
Local Open Scope Z_scope.
Ltac Zify.zify_post_hook ::= Z.div_mod_to_equations.
#[local] Opaque modules default_db.

(* ------------------------------------------------------------------ *)
(** items from the parser *)

Definition local_usage (u : pval) : Prop := 0 <= py_int u /\ ((Z.shiftr (py_int u) 16 =? 0) = true \/ shown_usage u).

Definition read_item (i : item) : Prop :=
  match ic i with
  | Input | Output | Feature => shown_flags (iv i)
  | Collection => shown_kind (iv i)
  | Usage => local_usage (iv i)
  | UsageMinimum | UsagePage => 0 <= ival i
  | Unit => shown_unit (iv i)
  | _ => True
  end.

Lemma init_nonneg c v i : item_init c v = Ok i -> signed c = false -> 0 <= ival i.
Proof. unfold item_init. destruct (signed c); [discriminate|]. cbn [orb]. intros H _. destruct (0 <=? _) eqn:E; [|discriminate]. injection H as <-. unfold ival. cbn [iv]. lia. Qed.

Lemma init_val c x i : item_init c (Some x) = Ok i -> ic i = c /\ iv i = if truthy x then x else VInt 0.
Proof. unfold item_init. intros H. destruct (_ || _); [|discriminate]. injection H as <-. auto. Qed.

Lemma usual_unit_int v : py_int (usual_unit (VInt v)) = v.
Proof. unfold usual_unit. destruct (find _ usual_units) as [[[a n] z]|] eqn:F; [|reflexivity]. apply find_some in F. cbn [snd py_int] in *. lia. Qed.

Lemma unit_nonneg v : 0 <= py_int (if truthy (usual_unit (VInt v)) then usual_unit (VInt v) else VInt 0) ->
  shown_unit (if truthy (usual_unit (VInt v)) then usual_unit (VInt v) else VInt 0).
Proof.
  destruct (truthy (usual_unit (VInt v))).
  - intros H. rewrite usual_unit_int in H. left. exists v. auto.
  - intros _. left. exists 0. split; [lia|auto].
Qed.

Lemma int_item c v i : mk_item default_db c (Some (VInt v)) = Ok i -> read_item i.
Proof.
  intros H. pose proof (mk_item_class _ _ _ _ H) as C. unfold read_item. rewrite C. destruct c; try exact I.
  - destruct (init_val _ _ _ H) as [_ ->]. right. left. exists v. reflexivity.
  - destruct (init_val _ _ _ H) as [_ ->]. right. left. exists v. reflexivity.
  - destruct (init_val _ _ _ H) as [_ ->]. right. left. exists v. reflexivity.
  - cbn [mk_item] in H. destruct (v <? Z.of_nat (length collection_rev)) eqn:E.
    + unfold py_index in H. cbn [bind] in H. destruct (_ || _); [discriminate H|]. destruct (nth_error collection_rev _) as [[n z]|] eqn:N; [|discriminate H].
      cbn [bind] in H. destruct (init_val _ _ _ H) as [_ ->]. left. exists n, z. split; [apply nth_error_In in N; exact N|reflexivity].
    + cbn [length collection_rev] in E. destruct (init_val _ _ _ H) as [_ ->]. right. cbn [truthy py_int]. replace (v =? 0) with false by lia. cbn. lia.
  - exact (init_nonneg _ _ _ H eq_refl).
  - pose proof (init_nonneg _ _ _ H eq_refl) as P. cbn [mk_item] in H. destruct (init_val _ _ _ H) as [_ V]. unfold ival in P. rewrite V in *. apply unit_nonneg. exact P.
  - pose proof H as H2. cbn [mk_item lookup_opt bind] in H2. pose proof (init_nonneg _ _ _ H2 eq_refl) as P. destruct (init_val _ _ _ H2) as [_ V].
    assert (T : truthy (lookup default_db (VInt v)) = true). { unfold lookup. destruct (negb _); [destruct (default_db v) as [[? ?]|]|]; reflexivity. }
    rewrite T in V. unfold ival in P. rewrite V in *. split; [exact P|]. right. rewrite lookup_int in P. left. exists v. auto.
  - pose proof H as H2. cbn [mk_item lookup_opt bind] in H2. exact (init_nonneg _ _ _ H2 eq_refl).
Qed.

Lemma append_item p i p' j : constructed i -> read_item i -> parser_append default_db p i = (p', Ok j) -> read_item j.
Proof.
  intros C R H. destruct (parser_append_ok default_db p i C) as [j' [H' [JC [JV CJ]]]]. rewrite H' in H. assert (j' = j) by congruence. subst j'.
  unfold read_item in *. rewrite JC. destruct (ic i) eqn:E; try exact I.
  all: try (unfold parser_append in H'; rewrite E in H'; cbv iota beta in H'; rewrite E in H'; assert (i = j) by congruence; subst j; exact R).
  - lia.
  - split; [fold (ival j); rewrite JV; apply R|]. unfold parser_append in H'. rewrite E in H'. cbv iota beta in H'. rewrite E in H'.
    destruct (Z.shiftr (ival i) 16 =? 0) eqn:S; [left; fold (ival j); rewrite JV; exact S|]. assert (i = j) by congruence. subst j. apply R.
  - lia.
Qed.

Lemma read_items p b : Forall read_item (appended (parse_from default_db p b)).
Proof.
  remember (length b) as n eqn:L. assert (LE : (length b <= n)%nat) by lia. clear L. revert p b LE.
  induction n as [|n IH]; intros p [|h t] LE; try (cbn in LE; lia); try (rewrite parse_from_nil; constructor).
  rewrite parse_from_cons. cbv zeta. destruct (parse default_db (h :: firstn _ t)) as [i|e] eqn:P; [|constructor].
  assert (HI : exists c v, mk_item default_db c (Some (VInt v)) = Ok i).
  { unfold parse in P. destruct (itemclass _ _) as [c|]; [|discriminate P]. cbv zeta in P.
    destruct (if Z.land h 3 =? 1 then _ else _) as [v|e] eqn:V in P; [|discriminate P]. exists c, v. exact P. }
  destruct HI as [c [v HI]]. destruct (parser_append default_db p i) as [p' [j|e]] eqn:A; [|constructor]. cbn [appended]. constructor.
  - apply (append_item p i p' j); [exact (mk_item_constructed _ _ _ _ HI)|exact (int_item c v i HI)|exact A].
  - apply IH. cbn [length] in LE. rewrite skipn_length. lia.
Qed.

(* ------------------------------------------------------------------ *)
(** the state of the extractor *)

Fixpoint eshown (t : etree) : Prop :=
  match t with
  | EVal v _ => shown_value v
  | EColl k u ms => shown_kind k /\ match u with Some u => shown_usage u | None => True end /\
      (fix all ms := match ms with [] => True | m :: r => eshown m /\ all r end) ms
  end.

Lemma all_eshown ms : (fix all ms := match ms with [] => True | m :: r => eshown m /\ all r end) ms <-> Forall eshown ms.
Proof. induction ms as [|m ms IH]; split; intros H; [constructor|exact I|destruct H; constructor; [assumption|apply IH; assumption]|inversion H; subst; split; [assumption|apply IH; assumption]]. Qed.

Definition head_shown (h : option (pval * option pval)) : Prop :=
  match h with Some (k, u) => shown_kind k /\ match u with Some u => shown_usage u | None => True end | None => True end.
Definition level_shown (l : level) : Prop := head_shown (lv_head l) /\ Forall eshown (lv_members l).

Record xshown (s : xst) : Prop := {
  xs_unit : shown_unit (x_globals s Unit);
  xs_page : 0 <= py_int (x_globals s UsagePage);
  xs_usages : Forall local_usage (x_usages s);
  xs_min : match x_locals s UsageMinimum with Some a => 0 <= py_int a | None => True end;
  xs_stack : Forall level_shown (x_stack s);
  xs_current : level_shown (x_current s);
  xs_root : match x_root s with Some t => shown t /\ exists ms, t = TTop ms | None => True end
}.

Lemma raw_shown t : eshown t -> shown (raw t).
Proof.
  revert t. apply (etree_all (fun t => eshown t -> shown (raw t))); [intros v r H; exact H|]. intros k u ms F [K [U H]]. apply all_eshown in H.
  cbn [raw shown]. split; [exact K|]. split; [exact U|]. apply all_shown. induction F as [|m ms Hm F IH]; [constructor|].
  constructor; [apply Hm; apply (Forall_inv H)|apply IH; apply (Forall_inv_tail H)].
Qed.

Definition cur_shown (c : option (Z * list tree)) : Prop := match c with Some (_, l) => Forall shown l | None => True end.

Lemma ri_shown ms : Forall (fun m => eshown m -> shown (report_insert m)) ms -> Forall eshown ms -> forall c, cur_shown c -> Forall shown (report_insert_members ms c).
Proof.
  assert (CL : forall c, cur_shown c -> Forall shown (ri_close c)).
  { intros [[id l]|] C; cbn [ri_close]; [|constructor]. constructor; [|constructor]. cbn [shown]. apply all_shown. exact C. }
  induction 1 as [|m ms Hm F IH]; intros E c C; cbn [report_insert_members]; [apply CL; exact C|].
  pose proof (Forall_inv E) as E1. pose proof (Forall_inv_tail E) as E2. pose proof (raw_shown m E1) as R.
  assert (OTHER : Forall shown (ri_close c ++ report_insert m :: report_insert_members ms None)).
  { apply Forall_app. split; [apply CL; exact C|]. constructor; [apply Hm; exact E1|apply IH; [exact E2|exact I]]. }
  destruct (e_ids m) as [|id [|id2 ids]]; [exact OTHER| |exact OTHER].
  destruct c as [[id' l]|]; [|apply IH; [exact E2|constructor; [exact R|constructor]]].
  destruct (zmem id' [id]).
  - apply IH; [exact E2|]. apply Forall_app. split; [exact C|]. constructor; [exact R|constructor].
  - apply Forall_app. split; [apply CL; exact C|]. apply IH; [exact E2|]. constructor; [exact R|constructor].
Qed.

Lemma report_shown t : eshown t -> shown (report_insert t).
Proof.
  revert t. apply (etree_all (fun t => eshown t -> shown (report_insert t))); [intros v r H; exact H|]. intros k u ms F [K [U H]]. apply all_eshown in H.
  rewrite report_insert_coll. cbn [shown]. split; [exact K|]. split; [exact U|]. apply all_shown. apply ri_shown; [exact F|exact H|exact I].
Qed.

(** usages *)
Lemma x_usage_shown s k : 0 <= py_int (x_globals s UsagePage) -> Forall local_usage (x_usages s) ->
  match x_usage default_db s k with Some u => shown_usage u | None => True end.
Proof.
  intros P F. unfold x_usage. destruct (last_repeat (x_usages s) k) as [u|] eqn:L; [|exact I]. unfold last_repeat in L. apply nth_error_In in L.
  rewrite Forall_forall in F. destruct (F u L) as [U1 U2]. destruct (Z.shiftr (py_int u) 16 =? 0) eqn:E; cbn [negb].
  - left. exists (Z.lor (Z.shiftl (gval s UsagePage) 16) (py_int u)). split; [|auto]. apply Z.lor_nonneg. split; [apply Z.shiftl_nonneg; exact P|exact U1].
  - destruct U2 as [U2|U2]; [discriminate U2|exact U2].
Qed.

Lemma last_in {A} (l : list A) x : l <> [] -> In (last l x) l.
Proof. induction l as [|a l IH]; intros N; [contradiction|]. destruct l as [|b l]; [left; reflexivity|]. right. apply IH. discriminate. Qed.

Lemma array_shown s : xshown s -> shown_array (named_of_usages default_db s).
Proof.
  intros X. unfold named_of_usages. set (l := flat_map _ _).
  assert (F : Forall shown_usage l).
  { apply Forall_forall. intros u H. apply in_flat_map in H. destruct H as [k [_ H]]. pose proof (x_usage_shown s k (xs_page s X) (xs_usages s X)) as U.
    destruct (x_usage default_db s k) as [v|]; [|destruct H]. destruct H as [<-|[]]. exact U. }
  destruct (from_array l) as [r|e] eqn:E; [|exact F]. unfold from_array in E. destruct l as [|x [|y l']]; try discriminate E.
  destruct (contiguous _); [|discriminate E]. injection E as <-. cbn [shown_array r_min r_max]. split; [apply (Forall_inv F)|].
  rewrite Forall_forall in F. apply F. change (match l' with [] => y | _ :: _ => last l' x end) with (last (y :: l') x). right. apply last_in. discriminate.
Qed.

(** values *)
Lemma named_shown s i u v : xshown s -> way_class (ic i) -> match u with Some u => shown_usage u | None => True end ->
  named_value default_db s i u (named_of_usages default_db s) = Ok v -> shown_value v.
Proof.
  intros X W U H. pose proof (array_shown s X) as A. set (arr := named_of_usages default_db s) in *. unfold named_value, mk_value in H. cbn [a_align a_named narr_truthy a_lmax a_lmin a_flags a_pmin a_pmax orb andb a_way a_usage a_size a_unit a_uexp a_desig a_str a_count] in H.
  destruct (narr_len arr) as [k|e] eqn:L; [|discriminate H]. cbn [bind] in H. destruct (k =? 0) eqn:K.
  { cbn in H. discriminate H. }
  cbn [negb andb zero_or_none] in H.  injection H as <-.
  apply (sv_named _ arr (gval s LogicalMinimum) k); cbn [v_kind v_way v_usage v_size v_flags v_lmin v_lmax v_pmin v_pmax v_named v_unit v_uexp v_desig v_str v_count v_align]; auto.
  - exists (ic i). auto.
  - lia.
  - destruct u as [x|]; reflexivity.
  - left. exists 0. split; [lia|auto].
Qed.

Lemma plain_shown s i n c v : xshown s -> way_class (ic i) -> read_item i -> plain_value default_db s i n c = Ok v -> shown_value v.
Proof.
  intros X W R H. pose proof (x_usage_shown s n (xs_page s X) (xs_usages s X)) as U. unfold plain_value, mk_value in H.
  cbn [a_align a_named narr_truthy bind a_lmax a_lmin a_flags a_pmin a_pmax orb andb a_way a_usage a_size a_unit a_uexp a_desig a_str a_count zero_or_none or_zero] in H.
  assert (FL : shown_flags (iv i)). { unfold read_item in R. destruct W as [E|[E|E]]; rewrite E in R; exact R. }
  destruct ((gval s PhysicalMinimum =? 0) && (gval s PhysicalMaximum =? 0)) eqn:Z; injection H as <-.
  - apply sv_plain; cbn [v_kind v_way v_usage v_size v_flags v_lmin v_lmax v_pmin v_pmax v_named v_unit v_uexp v_desig v_str v_count v_align]; auto.
    + exists (ic i). auto.
    + apply (xs_unit s X).
    + right. split; discriminate.
  - apply sv_plain; cbn [v_kind v_way v_usage v_size v_flags v_lmin v_lmax v_pmin v_pmax v_named v_unit v_uexp v_desig v_str v_count v_align]; auto.
    + exists (ic i). auto.
    + apply (xs_unit s X).
    + right. split; discriminate.
    + right. do 2 eexists. split; [reflexivity|]. split; [reflexivity|]. lia.
Qed.

(** steps *)
Lemma add_shown s v : xshown s -> shown_value v -> xshown (add_value s v).
Proof.
  intros X V. destruct X. constructor; auto. cbn. destruct xs_current0 as [A B]. split; [exact A|]. cbn [lv_members]. apply Forall_app. split; [exact B|]. constructor; [exact V|constructor].
Qed.

Lemma adds_shown l : forall s s', xshown s -> Forall (fun r => forall v, r = Ok v -> shown_value v) l -> add_values s l = Ok s' -> xshown s'.
Proof.
  induction l as [|r l IH]; intros s s' X F H; cbn [add_values] in H; [congruence|]. destruct r as [v|e]; [|discriminate H]. cbn [bind] in H.
  apply (IH (add_value s v) s'); [apply add_shown; [exact X|apply (Forall_inv F); reflexivity]|apply (Forall_inv_tail F)|exact H].
Qed.

Lemma leave_shown s k s' : xshown s -> x_leave s k = Ok s' -> xshown s'.
Proof.
  intros X H. unfold x_leave in H. destruct (x_stack s) as [|p r] eqn:E; [discriminate H|]. injection H as <-. destruct X. rewrite E in xs_stack0.
  pose proof (Forall_inv xs_stack0) as [P1 P2]. constructor; auto; cbn; [apply (Forall_inv_tail xs_stack0)|]. split; [exact P1|]. cbn [lv_members]. apply Forall_app. split; [exact P2|].
  destruct k; [|constructor]. destruct xs_current0 as [C1 C2]. destruct (lv_members (x_current s)) as [|m ms] eqn:M; [constructor|].
  unfold close_level. destruct (lv_head (x_current s)) as [[kk u]|]; [|constructor]. constructor; [|constructor]. destruct C1 as [C1 C3]. cbn [eshown]. split; [exact C1|]. split; [exact C3|].
  apply all_eshown. rewrite M. exact C2.
Qed.

Lemma data_shown s i s' : xshown s -> way_class (ic i) -> read_item i -> handle_data default_db s i = Ok s' -> xshown s'.
Proof.
  intros X W R H. unfold handle_data in H. cbv zeta in H. destruct (negb (Z.land (ival i) fl_Constant =? 0)).
  { destruct (mk_padding _ _) as [v|e] eqn:P; [|discriminate H]. injection H as <-. apply add_shown; [exact X|]. eapply sv_padding; [|exact P]. exists (ic i). auto. }
  destruct (if (gval s ReportCount =? 1) && _ then _ else _) as [inn|e] in H; [|discriminate H]. cbn [bind] in H. destruct inn.
  { destruct (x_leave s false) as [s1|e] eqn:L; [|discriminate H]. cbn [bind] in H. pose proof (leave_shown _ _ _ X L) as X1.
    destruct (lv_members (x_current s)); [|discriminate H]. destruct (lv_head (x_current s)) as [[k u]|] eqn:HD; [|discriminate H].
    destruct (named_value default_db s i u _) as [v|e] eqn:N; [|discriminate H]. injection H as <-.
    assert (V : shown_value v). { apply (named_shown s i u); [exact X|exact W| |exact N]. pose proof (xs_current s X) as [C _]. rewrite HD in C. apply C. }
    apply add_shown; [|exact V]. destruct X1. constructor; auto. }
  destruct (_ && _) in H.
  { apply (adds_shown _ s s' X) in H; [exact H|]. apply Forall_forall. intros r I v E. apply repeat_spec in I. subst r. apply (named_shown s i None v); auto. }
  destruct (negb _) in H.
  { destruct (plain_value default_db s i 0 _) as [v|e] eqn:P; [|discriminate H]. injection H as <-. apply add_shown; [exact X|]. exact (plain_shown s i _ _ v X W R P). }
  apply (adds_shown _ s s' X) in H; [exact H|]. apply Forall_forall. intros r I v E. apply in_map_iff in I. destruct I as [n [I _]]. subst r. exact (plain_shown s i _ _ v X W R E).
Qed.

Lemma expand_shown s : xshown s -> xshown (expand_ranges s).
Proof.
  intros X. destruct X. constructor; auto. cbn. unfold expand. destruct (x_locals s UsageMinimum) as [a|]; [|exact xs_usages0]. destruct (x_locals s UsageMaximum) as [b|]; [|exact xs_usages0].
  destruct (x_usages s); [|exact xs_usages0]. apply Forall_forall. intros u H. apply in_map_iff in H. destruct H as [z [<- I]]. unfold zrange in I. apply in_map_iff in I. destruct I as [k [E _]].
  split; [cbn [py_int]; lia|]. right. left. exists z. split; [lia|auto].
Qed.

Lemma upd_at {A} (f : icls -> A) c v d : upd f c v d = if icls_eqb d c then v else f d.
Proof. reflexivity. Qed.

Lemma append_shown s i s' : xshown s -> read_item i -> x_append default_db s i = Ok s' -> xshown s'.
Proof.
  intros X R H. unfold x_append, ikd in H. destruct (kind_of (ic i)) eqn:K.
  - (* Main *)
    assert (CLR : forall s, xshown s -> xshown (locals_clear s)). { intros s0 X0. destruct X0. constructor; cbn; auto. }
    pose proof (expand_shown s X) as XE. cbv zeta in H. set (se := expand_ranges s) in *.
    assert (DATA : way_class (ic i) -> (let* s1 := handle_data default_db se i in Ok (locals_clear s1)) = Ok s' -> xshown s').
    { intros W HD. destruct (handle_data default_db se i) as [s1|e] eqn:E; [|discriminate HD]. injection HD as <-. apply CLR. exact (data_shown se i s1 XE W R E). }
    destruct (ic i) eqn:C; try discriminate K.
    + apply DATA; [left; reflexivity|exact H].
    + apply DATA; [right; left; reflexivity|exact H].
    + apply DATA; [right; right; reflexivity|exact H].
    + injection H as <-. apply CLR. pose proof (x_usage_shown se 0 (xs_page se XE) (xs_usages se XE)) as U. unfold read_item in R. rewrite C in R.
      destruct XE. constructor; auto; cbn; [constructor; assumption|]. split; [split; [exact R|exact U]|constructor].
    + destruct (if x_innamed se then _ else _) as [s1|e] eqn:E in H; [|discriminate H]. cbn [bind] in H. injection H as <-. apply CLR.
      assert (X1 : xshown s1). { destruct (x_innamed se); [injection E as <-; destruct XE; constructor; auto|exact (leave_shown _ _ _ XE E)]. }
      destruct (x_stack s1) eqn:ST; [|exact X1]. assert (HT : shown (TTop (report_insert_members (lv_members (x_current s1)) None)) /\ exists ms, TTop (report_insert_members (lv_members (x_current s1)) None) = TTop ms).
      2: { destruct X1. constructor; auto. }
      pose proof (xs_current s1 X1) as XC. split; [|eexists; reflexivity]. cbn [shown]. apply all_shown.
      apply ri_shown; [apply Forall_forall; intros m _; apply report_shown|apply XC|exact I].
  - (* Global *)
    injection H as <-. unfold read_item in R. destruct X. constructor; auto; cbn [x_globals]; unfold upd.
    + destruct (ic i) eqn:C; try exact xs_unit0; try discriminate K. exact R.
    + destruct (ic i) eqn:C; try exact xs_page0; try discriminate K. exact R.
  - (* Local *)
    injection H as <-. unfold read_item in R. destruct X. destruct (ic i) eqn:C; try discriminate K; constructor; auto.
    + cbn. apply Forall_app. split; [exact xs_usages0|]. constructor; [exact R|constructor].
Qed.

Lemma init_shown : xshown xst_init.
Proof. constructor; cbn; [left; exists 0; split; [lia|auto]|lia|constructor|exact I|constructor|split; [exact I|constructor]|exact I]. Qed.

Lemma run_shown l : forall s s', xshown s -> Forall read_item l -> x_run default_db s l = Ok s' -> xshown s'.
Proof.
  induction l as [|i l IH]; intros s s' X F H; cbn [x_run] in H; [congruence|]. destruct (x_append default_db s i) as [s1|e] eqn:A; [|discriminate H]. cbn [bind] in H.
  apply (IH s1 s'); [exact (append_shown s i s1 X (Forall_inv F) A)|exact (Forall_inv_tail F)|exact H].
Qed.

Lemma decompile_shown blob t : decompile default_db blob = Ok t -> shown t /\ exists ms, t = TTop ms.
Proof.
  unfold decompile. cbv zeta. intros H. destruct (x_run default_db xst_init _) as [s|e] eqn:R; [|discriminate H]. cbn [bind] in H.
  destruct (finished _); [|discriminate H]. cbn [bind] in H. rewrite blob_parse_from in R. pose proof (run_shown _ _ _ init_shown (read_items 0 blob) R) as X.
  destruct (x_root s) as [r|] eqn:E; [|discriminate H]. injection H as <-. pose proof (xs_root s X) as Q. rewrite E in Q. exact Q.
Qed.

Lemma c50 blob t : decompile default_db blob = Ok t -> dumpable t ->
  exists s t', decompile_text default_db blob = Ok s /\ script s t' /\ same_tree t t'.
Proof.
  intros H D. destruct (decompile_shown blob t H) as [S [ms ->]]. destruct (top_written ms S D) as [s [t' [W [X Y]]]].
  exists s, t'. split; [|auto]. unfold decompile_text. rewrite H. exact W.
Qed.
