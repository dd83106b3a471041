(* ExtractFacts.v -- the tree built by the Extractor (C44, C46) *)
From Coq Require Import ZifyBool ZifyNat.
From Verif Require Import Py Usage Item Parser Optimizer Descriptor Extractor HidSpec ItemFacts StreamSpec StreamProofs ParserFacts OptFacts OptSpec ExtractSpec UsageProofs.
Ltac Zify.zify_post_hook ::= Z.div_mod_to_equations.

(* ------------------------------------------------------------------ *)
(** leaves of the objects built while extracting *)

Fixpoint eleaves (t : etree) : list leaf :=
  match t with
  | EVal v r => [LVal r v]
  | EColl k u ms => LOpen k u :: flat_map eleaves ms ++ [LClose]
  end.

Section EInd.
  Variable P : etree -> Prop.
  Hypothesis HV : forall v r, P (EVal v r).
  Hypothesis HC : forall k u ms, Forall P ms -> P (EColl k u ms).
  Fixpoint etree_all (t : etree) : P t :=
    match t with
    | EVal v r => HV v r
    | EColl k u ms => HC k u ms ((fix go ms : Forall P ms := match ms with [] => Forall_nil P | m :: r => Forall_cons m (etree_all m) (go r) end) ms)
    end.
End EInd.

Definition emems (ms : list etree) : list Z :=
  (fix go (ms : list etree) : list Z := match ms with [] => [] | m :: r => zunion (e_ids m) (go r) end) ms.

Lemma zadd_in z x l : In z (zadd x l) <-> z = x \/ In z l.
Proof.
  unfold zadd. destruct (existsb (Z.eqb x) l) eqn:E.
  - apply existsb_exists in E. destruct E as [y [I E]]. split; [auto|]. intros [-> | H]; auto. replace x with y by lia. exact I.
  - rewrite in_app_iff. cbn. intuition.
Qed.

Lemma zunion_in z a b : In z (zunion a b) <-> In z a \/ In z b.
Proof.
  unfold zunion. revert a. induction b as [|x b IH]; intros a; cbn [fold_left]; [cbn; tauto|].
  rewrite IH, zadd_in. cbn. intuition.
Qed.

(** the report ids of the values *)
Definition lrids (ls : list leaf) : list Z := flat_map (fun x => match x with LVal r _ => [r] | _ => [] end) ls.

Lemma lrids_app a b : lrids (a ++ b) = lrids a ++ lrids b.
Proof. unfold lrids. apply flat_map_app. Qed.

Lemma ids_leaves t z : In z (e_ids t) <-> In z (lrids (eleaves t)).
Proof.
  revert t. apply (etree_all (fun t => In z (e_ids t) <-> In z (lrids (eleaves t)))); [reflexivity|].
  intros k u ms F. cbn [e_ids eleaves]. change (In z (emems ms) <-> In z (lrids (LOpen k u :: flat_map eleaves ms ++ [LClose]))).
  change (lrids (LOpen k u :: flat_map eleaves ms ++ [LClose])) with (lrids (flat_map eleaves ms ++ [LClose])).
  rewrite lrids_app. cbn [lrids flat_map]. rewrite app_nil_r.
  induction F as [|m ms H F IH]; [reflexivity|]. cbn [emems flat_map]. rewrite lrids_app, in_app_iff, zunion_in, H. fold (emems ms). rewrite IH. reflexivity.
Qed.

Lemma raw_leaves id t : Forall (eq id) (lrids (eleaves t)) -> scoped id (raw t) = eleaves t.
Proof.
  revert t. apply (etree_all (fun t => Forall (eq id) (lrids (eleaves t)) -> scoped id (raw t) = eleaves t)).
  - intros v r H. inversion H; subst. reflexivity.
  - intros k u ms F H. cbn [eleaves raw scoped]. f_equal. f_equal.
    change (lrids (eleaves (EColl k u ms))) with (lrids (flat_map eleaves ms ++ [LClose])) in H.
    rewrite lrids_app in H. apply Forall_app in H. destruct H as [H _].
    induction F as [|m ms Hm F IH]; [reflexivity|]. cbn [flat_map] in *. rewrite lrids_app in H. apply Forall_app in H. destruct H as [H1 H2].
    rewrite Hm by auto. f_equal. apply IH. exact H2.
Qed.

Lemma one_id t id : e_ids t = [id] -> Forall (eq id) (lrids (eleaves t)).
Proof.
  intros E. apply Forall_forall. intros z I. apply ids_leaves in I. rewrite E in I. destruct I as [I|[]]. exact I.
Qed.

Lemma report_insert_coll k u ms : report_insert (EColl k u ms) = TColl k u (report_insert_members ms None).
Proof.
  reflexivity.
Qed.

Definition cur_leaves (cur : option (Z * list tree)) : list leaf :=
  match cur with None => [] | Some (id, ms) => flat_map (scoped id) ms end.

Lemma ri_close_leaves rid cur : flat_map (scoped rid) (ri_close cur) = cur_leaves cur.
Proof. destruct cur as [[id ms]|]; [|reflexivity]. cbn [ri_close flat_map scoped cur_leaves]. apply app_nil_r. Qed.

Lemma insert_leaves_gen ms : Forall (fun m => forall rid, (length (e_ids m) <> 1)%nat -> scoped rid (report_insert m) = eleaves m) ms ->
  forall rid cur, flat_map (scoped rid) (report_insert_members ms cur) = cur_leaves cur ++ flat_map eleaves ms.
Proof.
  induction 1 as [|m ms Hm F IH]; intros rid cur; cbn [report_insert_members flat_map].
  - rewrite ri_close_leaves, app_nil_r. reflexivity.
  - assert (OTHER : (length (e_ids m) <> 1)%nat -> flat_map (scoped rid) (ri_close cur ++ report_insert m :: report_insert_members ms None) =
       cur_leaves cur ++ eleaves m ++ flat_map eleaves ms).
    { intros NE. rewrite flat_map_app, ri_close_leaves. cbn [flat_map]. rewrite Hm by exact NE. rewrite IH. reflexivity. }
    destruct (e_ids m) as [|id [|id2 l]] eqn:E; [apply OTHER; cbn; lia| |apply OTHER; cbn; lia]. clear OTHER.
    pose proof (raw_leaves id m (one_id _ _ E)) as R.
    destruct cur as [[id' l]|].
    + unfold zmem. cbn [existsb]. destruct (id' =? id) eqn:Q; cbn [orb].
      * rewrite IH. cbn [cur_leaves]. rewrite flat_map_app. cbn [flat_map]. replace id' with id by lia. rewrite R, app_nil_r, <- app_assoc. reflexivity.
      * rewrite flat_map_app, ri_close_leaves, IH. cbn [cur_leaves flat_map]. rewrite R, app_nil_r. reflexivity.
    + rewrite IH. cbn [cur_leaves flat_map]. rewrite R, app_nil_r. reflexivity.
Qed.

Lemma insert_one m : forall rid, (length (e_ids m) <> 1)%nat -> scoped rid (report_insert m) = eleaves m.
Proof.
  revert m. apply (etree_all (fun m => forall rid, (length (e_ids m) <> 1)%nat -> scoped rid (report_insert m) = eleaves m)).
  - intros v r rid H. cbn in H. lia.
  - intros k u ms F rid _. rewrite report_insert_coll. cbn [scoped eleaves]. rewrite (insert_leaves_gen ms F). reflexivity.
Qed.

Lemma insert_leaves ms rid : scoped rid (TTop (report_insert_members ms None)) = flat_map eleaves ms.
Proof.
  cbn [scoped]. rewrite insert_leaves_gen; [reflexivity|]. apply Forall_forall. intros m _. apply insert_one.
Qed.

Lemma raw_free m : report_free (raw m).
Proof.
  revert m. apply (etree_all (fun m => report_free (raw m))); [intros; exact I|].
  intros k u ms F. cbn [raw report_free]. induction F as [|m ms H F IH]; [exact I|]. split; [exact H|exact IH].
Qed.

Definition all_rep (ms : list tree) : Prop := Forall all_reported ms.

Lemma all_rep_list ms :
  (fix all ms := match ms with [] => True | m :: r => all_reported m /\ all r end) ms <-> all_rep ms.
Proof.
  unfold all_rep. induction ms as [|m ms IH]; [split; constructor|]. rewrite IH. split.
  - intros [A B]. constructor; auto.
  - intros A. inversion A; auto.
Qed.

Lemma insert_members_reported ms : Forall (fun m => (length (e_ids m) <> 1)%nat -> all_reported (report_insert m)) ms ->
  forall cur, (match cur with None => True | Some (_, l) => Forall report_free l end) -> all_rep (report_insert_members ms cur).
Proof.
  assert (CL : forall cur, (match cur with None => True | Some (_, l) => Forall report_free l end) -> all_rep (ri_close cur)).
  { intros [[id l]|] H; constructor; [exact H|constructor]. }
  induction 1 as [|m ms Hm F IH]; intros cur HC; cbn [report_insert_members]; [auto|].
  assert (OTHER : (length (e_ids m) <> 1)%nat -> all_rep (ri_close cur ++ report_insert m :: report_insert_members ms None)).
  { intros NE. apply Forall_app. split; [apply CL; exact HC|]. constructor; [auto|]. apply IH. exact I. }
  pose proof (raw_free m) as RF.
  destruct (e_ids m) as [|id [|id2 l]]; [apply OTHER; cbn; lia| |apply OTHER; cbn; lia].
  destruct cur as [[id' l]|].
  - destruct (zmem id' [id]).
    + apply IH. apply Forall_app. split; [exact HC|repeat constructor; exact RF].
    + apply Forall_app. split; [apply (CL (Some (id', l))); exact HC|]. apply IH. repeat constructor. exact RF.
  - apply IH. repeat constructor. exact RF.
Qed.

Lemma insert_reported ms : all_reported (TTop (report_insert_members ms None)).
Proof.
  cbn [all_reported]. apply all_rep_list. apply insert_members_reported; [|exact I].
  apply Forall_forall. intros m _. revert m.
  apply (etree_all (fun m => (length (e_ids m) <> 1)%nat -> all_reported (report_insert m))).
  - intros v r H. cbn in H. lia.
  - intros k u ms' F _. rewrite report_insert_coll. cbn [all_reported]. apply all_rep_list. apply insert_members_reported; [exact F|exact I].
Qed.

(* ------------------------------------------------------------------ *)
(** the run of the Extractor against that of a host *)

Definition lv_leaves (l : level) : list leaf :=
  match lv_head l with Some (k, u) => [LOpen k u] | None => [] end ++ flat_map eleaves (lv_members l).

Definition open_leaves (s : xst) : list leaf := flat_map lv_leaves (rev (x_stack s)) ++ lv_leaves (x_current s).

(** only the outermost level is the TopLevel *)
Fixpoint heads (c : level) (st : list level) : Prop :=
  match st with
  | [] => lv_head c = None
  | p :: r => lv_head c <> None /\ heads p r
  end.

Record agree (s : xst) (g : gtab) : Prop := {
  ag_page : gval s UsagePage = g_page g; ag_lmin : gval s LogicalMinimum = g_lmin g;
  ag_lmax : gval s LogicalMaximum = g_lmax g; ag_pmin : gval s PhysicalMinimum = g_pmin g;
  ag_pmax : gval s PhysicalMaximum = g_pmax g; ag_uexp : gval s UnitExponent = g_uexp g;
  ag_unit : gval s Unit = g_unit g; ag_size : gval s ReportSize = g_size g;
  ag_rid : gval s ReportID = g_rid g; ag_count : gval s ReportCount = g_count g
}.

Lemma agree_init : agree xst_init g_init.
Proof. split; reflexivity. Qed.

Lemma agree_globals s s' g : x_globals s' = x_globals s -> agree s g -> agree s' g.
Proof. intros E A. destruct A. split; unfold gval in *; rewrite E; assumption. Qed.

Lemma agree_set s s' g c v : x_globals s' = upd (x_globals s) c v -> c <> Push -> c <> Pop -> kind_of c = Global ->
  agree s g -> agree s' (g_set c (py_int v) g).
Proof.
  intros E N1 N2 K [A1 A2 A3 A4 A5 A6 A7 A8 A9 A10]. unfold gval in *.
  destruct g as [p1 p2 p3 p4 p5 p6 p7 p8 p9 p10]. cbn [g_page g_lmin g_lmax g_pmin g_pmax g_uexp g_unit g_size g_rid g_count] in *.
  destruct c; try discriminate K; try congruence; split; unfold gval; rewrite E; unfold upd; cbn; auto.
Qed.

Lemma numbered_app a b : numbered (a ++ b) = numbered a ++ numbered b.
Proof. unfold numbered. apply flat_map_app. Qed.

(** a step that adds the values [vs] *)
Definition gains (s s' : xst) (vs : list (Z * value)) : Prop :=
  numbered (open_leaves s') = numbered (open_leaves s) ++ vs.

Lemma add_value_leaves s v : open_leaves (add_value s v) = open_leaves s ++ [LVal (gval s ReportID) v].
Proof.
  unfold open_leaves, add_value, set_levels, lv_leaves. cbn [x_stack x_current lv_head lv_members].
  rewrite flat_map_app. cbn [flat_map eleaves app]. rewrite <- !app_assoc. reflexivity.
Qed.

Record keeps (s s' : xst) : Prop := {
  ke_glob : x_globals s' = x_globals s;
  ke_heads : heads (x_current s) (x_stack s) -> heads (x_current s') (x_stack s');
  ke_root : x_root s' = x_root s
}.

Lemma keeps_refl s : keeps s s.
Proof. split; auto. Qed.
Lemma keeps_trans a b c : keeps a b -> keeps b c -> keeps a c.
Proof. intros [A1 A2 A3] [B1 B2 B3]. split; [congruence|auto|congruence]. Qed.

Lemma heads_members h ms ms' st : heads (Level h ms) st -> heads (Level h ms') st.
Proof. destruct st; cbn; auto. Qed.

Lemma add_value_keeps s v : keeps s (add_value s v).
Proof.
  split; auto. unfold add_value, set_levels. cbn [x_current x_stack]. destruct (x_current s) as [h ms]. apply heads_members.
Qed.

Lemma add_values_spec l : forall s s', add_values s l = Ok s' ->
  exists vs, l = map Ok vs /\ keeps s s' /\ x_stack s' = x_stack s /\ x_innamed s' = x_innamed s /\
    lv_head (x_current s') = lv_head (x_current s) /\
    lv_members (x_current s') = lv_members (x_current s) ++ map (fun v => EVal v (gval s ReportID)) vs /\
    open_leaves s' = open_leaves s ++ map (fun v => LVal (gval s ReportID) v) vs.
Proof.
  induction l as [|r l IH]; intros s s' E; cbn [add_values] in E.
  - injection E as <-. exists []. cbn [map]. rewrite !app_nil_r. repeat split; auto.
  - destruct r as [v|e]; [|discriminate E]. cbn [bind] in E. apply IH in E. destruct E as [vs [E1 [E2 [E3 [E4 [E5 [E6 E7]]]]]]].
    exists (v :: vs). cbn [map]. rewrite E1. repeat split; auto.
    + apply (keeps_trans _ (add_value s v)); [apply add_value_keeps|exact E2].
    + apply (keeps_trans _ (add_value s v)); [apply add_value_keeps|exact E2].
    + apply (keeps_trans _ (add_value s v)); [apply add_value_keeps|exact E2].
    + rewrite E6. unfold add_value, set_levels, gval. cbn [x_current lv_members x_globals]. rewrite <- app_assoc. reflexivity.
    + rewrite E7, add_value_leaves, <- app_assoc. reflexivity.
Qed.

Lemma mk_value_fields k a v : mk_value k a = Ok v ->
  v_kind v = k /\ v_way v = a_way a /\ v_usage v = a_usage a /\ v_size v = a_size a /\ v_count v = a_count a /\
  v_named v = a_named a /\ v_unit v = a_unit a /\ v_uexp v = a_uexp a /\ v_desig v = a_desig a /\ v_str v = a_str a /\ v_lmin v = a_lmin a.
Proof.
  unfold mk_value. destruct (narr_truthy (a_named a)) as [n|e]; [|discriminate]. cbn [bind].
  destruct (_ && _ && _); [discriminate|].
  destruct (zero_or_none (a_pmin a) && zero_or_none (a_pmax a)); destruct (a_named a) as [arr|] eqn:N; destruct n;
    try (destruct (narr_len arr) as [z|e]; [|discriminate]; cbn [bind]; destruct (a_lmin a) as [z'|] eqn:EL; [|discriminate]);
    intros H; injection H as <-; cbn [v_kind v_way v_usage v_size v_count v_named v_unit v_uexp v_desig v_str v_lmin]; rewrite ?N, ?EL; repeat split; auto.
Qed.

Lemma way_tag c : data_tag c = true -> way_class (tag_of c) = c.
Proof. destruct c; try discriminate; reflexivity. Qed.

Lemma bits_app a b : bits_of (a ++ b) = bits_of a + bits_of b.
Proof. unfold bits_of. rewrite map_app. induction (map _ a) as [|x l IH]; cbn [app fold_right]; lia. Qed.

Lemma numbered_vals r vs : numbered (map (fun v => LVal r v) vs) = map (fun v => (r, v)) vs.
Proof. induction vs as [|v vs IH]; [reflexivity|]. cbn [map numbered flat_map app]. fold (numbered (map (fun v => LVal r v) vs)). rewrite IH. reflexivity. Qed.

Definition b2n (b : bool) : nat := if b then 1%nat else 0%nat.

Lemma odd_land f : (Z.land f fl_Constant =? 0) = negb (is_constant f).
Proof. rewrite land_1_odd. unfold is_constant. apply eq_sym, Z.negb_odd. Qed.

Lemma land_256 f : Z.land f 256 = if Z.testbit f 8 then 256 else 0.
Proof.
  apply Z.bits_inj'. intros n Hn. rewrite Z.land_spec. change 256 with (2 ^ 8). rewrite Z.pow2_bits_eqb by lia.
  destruct (Z.eqb_spec 8 n) as [<-|NE].
  - rewrite andb_true_r. destruct (Z.testbit f 8); [rewrite Z.pow2_bits_true by lia; reflexivity|rewrite Z.bits_0; reflexivity].
  - rewrite andb_false_r. destruct (Z.testbit f 8); [rewrite Z.pow2_bits_false by lia; reflexivity|rewrite Z.bits_0; reflexivity].
Qed.

Lemma buffered_land f : (Z.land f fl_BufferedBytes =? 0) = negb (is_buffered f).
Proof.
  unfold is_buffered. change fl_BufferedBytes with 256. rewrite land_256.
  assert (E : Z.testbit f 8 = Z.odd (f / 256)) by (rewrite Z.testbit_odd, Z.shiftr_div_pow2 by lia; reflexivity).
  rewrite <- E. destruct (Z.testbit f 8); reflexivity.
Qed.

Lemma constant_land f : negb (Z.land f fl_Constant =? 0) = is_constant f.
Proof. rewrite odd_land, negb_involutive. reflexivity. Qed.
Lemma buffer_land f : negb (Z.land f fl_BufferedBytes =? 0) = is_buffered f.
Proof. rewrite buffered_land, negb_involutive. reflexivity. Qed.

Lemma gains_values g x c f s s' vs n sz :
  open_leaves s' = open_leaves s ++ map (fun v => LVal (gval s ReportID) v) vs ->
  agree s g -> Forall (fun v => way_class (py_int (v_way v)) = c /\ v_size v = sz /\ v_count v = n) vs -> Forall (element_of g f) vs ->
  Z.of_nat (length vs) * (sz * n) = g_size g * g_count g ->
  exists vs', numbered (open_leaves s') = numbered (open_leaves s) ++ vs' /\ stands_for (g, x, c, f) vs'.
Proof.
  intros E A F O B. exists (map (fun v => (gval s ReportID, v)) vs). rewrite E, numbered_app, numbered_vals.
  split; [reflexivity|]. split.
  - apply Forall_map. apply Forall_forall. intros v I. rewrite Forall_forall in F, O. destruct (F v I) as [W _]. cbn [fst snd].
    split; [apply ag_rid; exact A|]. split; [exact W|exact (O v I)].
  - rewrite <- B. clear - F. unfold bits_of. rewrite map_map. cbn [snd]. induction F as [|v vs [W [E1 E2]] F IH]; [reflexivity|].
    cbn [map fold_right length]. rewrite IH, E1, E2. lia.
Qed.

Lemma leave_false s s1 : x_leave s false = Ok s1 -> exists p r, x_stack s = p :: r /\ s1 = set_levels s r p (x_innamed s).
Proof.
  unfold x_leave. destruct (x_stack s) as [|p r]; [discriminate|]. intros H. injection H as <-. exists p, r. split; auto.
  destruct p as [h ms]. cbn [lv_head lv_members]. rewrite app_nil_r. reflexivity.
Qed.

Lemma handle_data_spec db s i s' g x :
  data_tag (ic i) = true -> 0 <= g_count g -> agree s g -> heads (x_current s) (x_stack s) -> handle_data db s i = Ok s' ->
  keeps s s' /\ (length (x_stack s') + b2n (x_innamed s') <= length (x_stack s) + b2n (x_innamed s))%nat /\
  exists vs, numbered (open_leaves s') = numbered (open_leaves s) ++ vs /\ stands_for (g, x, ic i, ival i) vs.
Proof.
  intros D NC A HD. pose proof (way_tag _ D) as W. unfold handle_data.
  destruct (negb (Z.land (ival i) fl_Constant =? 0)) eqn:EC; rewrite constant_land in EC.
  - destruct (mk_padding _ _) as [v|e] eqn:EV; [|discriminate]. cbn [bind]. intros H. injection H as <-.
    split; [apply add_value_keeps|]. split; [cbn; lia|].
    apply mk_value_fields in EV. cbn [a_way a_size a_count] in EV. destruct EV as [E0 [E1 [_ [E2 [E3 _]]]]].
    apply (gains_values g x (ic i) (ival i) s _ [v] 1 (gval s ReportSize * gval s ReportCount)).
    + apply add_value_leaves.
    + exact A.
    + constructor; [|constructor]. rewrite E1, E2, E3. split; [exact W|auto].
    + constructor; [|constructor]. unfold element_of. rewrite E0. exact EC.
    + rewrite (ag_size _ _ A), (ag_count _ _ A). cbn [length]. lia.
  - set (matches := Z.of_nat (length (x_usages s)) =? _). set (l := _ && matches).
    destruct (if l then _ else _) as [inn|e] eqn:EI; [|discriminate]. cbn [bind]. destruct inn.
    + destruct (x_leave s false) as [s1|e] eqn:EL; [|discriminate]. cbn [bind].
      apply leave_false in EL. destruct EL as [p [r [ES ->]]].
      destruct (lv_members (x_current s)) eqn:EM; [|discriminate].
      destruct (lv_head (x_current s)) as [[k u]|] eqn:EH; [|discriminate].
      destruct (named_value _ _ _ _ _) as [v|e] eqn:EV; [|discriminate]. cbn [bind]. intros H. injection H as <-.
      apply mk_value_fields in EV. cbn [a_way a_size a_count] in EV. destruct EV as [E0 [E1 [_ [E2 [E3 _]]]]].
      assert (HD2 : heads p r) by (rewrite ES in HD; destruct HD; assumption).
      split; [|split].
      * split; [reflexivity| |reflexivity]. intros _. cbn. destruct p as [h ms]. cbn. eapply heads_members. exact HD2.
      * cbn. rewrite ES. cbn. lia.
      * assert (C1 : g_count g = 1).
        { subst l. destruct (gval s ReportCount =? 1) eqn:Q; [|discriminate EI]. rewrite <- (ag_count _ _ A). lia. }
        set (s2 := set_levels (set_levels s r p (x_innamed s)) r p true).
        assert (N2 : numbered (open_leaves s2) = numbered (open_leaves s)).
        { unfold open_leaves. rewrite ES. subst s2. cbn [set_levels x_stack x_current rev]. rewrite flat_map_app, !numbered_app.
          cbn [flat_map]. unfold lv_leaves at 5. rewrite EM, EH. cbn [numbered flat_map app]. rewrite !app_nil_r. reflexivity. }
        rewrite <- N2. apply (gains_values g x (ic i) (ival i) s2 _ [v] 1 (gval s ReportSize)).
        -- apply (add_value_leaves s2 v).
        -- eapply agree_globals; [|exact A]. reflexivity.
        -- constructor; [|constructor]. rewrite E1, E2, E3. split; [exact W|auto].
        -- constructor; [|constructor]. unfold element_of. rewrite E0, E2, E3, (ag_size _ _ A). auto.
        -- rewrite C1, (ag_size _ _ A). cbn [length]. lia.
    + destruct ((ival i =? 0) && matches).
      * intros H. apply add_values_spec in H. destruct H as [vs [EV [K [S1 [I1 [_ [_ L]]]]]]].
        split; [exact K|]. split; [rewrite S1, I1; lia|].
        apply (gains_values g x (ic i) (ival i) s s' vs 1 (gval s ReportSize)); auto.
        -- apply Forall_forall. intros v IN. apply (in_map Ok) in IN. rewrite <- EV in IN. apply repeat_spec in IN. symmetry in IN.
           apply mk_value_fields in IN. cbn [a_way a_size a_count] in IN. destruct IN as [_ [E1 [_ [E2 [E3 _]]]]]. rewrite E1. auto.
        -- apply Forall_forall. intros v IN. apply (in_map Ok) in IN. rewrite <- EV in IN. apply repeat_spec in IN. symmetry in IN.
           apply mk_value_fields in IN. cbn [a_way a_size a_count] in IN. destruct IN as [E0 [E1 [_ [E2 [E3 _]]]]]. unfold element_of. rewrite E0, E2, E3, (ag_size _ _ A). auto.
        -- apply (f_equal (@length _)) in EV. rewrite repeat_length, map_length in EV. rewrite (ag_count _ _ A) in EV. rewrite (ag_size _ _ A). rewrite <- EV, Z2Nat.id by exact NC. ring.
      * destruct (negb (Z.land (ival i) fl_BufferedBytes =? 0)) eqn:EB; rewrite buffer_land in EB.
        -- destruct (plain_value _ _ _ _ _) as [v|e] eqn:EV; [|discriminate]. cbn [bind]. intros H. injection H as <-.
           split; [apply add_value_keeps|]. split; [cbn; lia|].
           apply mk_value_fields in EV. cbn [a_way a_size a_count] in EV. destruct EV as [E0 [E1 [_ [E2 [E3 _]]]]].
           apply (gains_values g x (ic i) (ival i) s _ [v] (gval s ReportCount) (gval s ReportSize)).
           ++ apply add_value_leaves.
           ++ exact A.
           ++ constructor; [|constructor]. rewrite E1, E2, E3. split; [exact W|auto].
           ++ constructor; [|constructor]. unfold element_of. rewrite E0, E2, E3, (ag_size _ _ A), (ag_count _ _ A). auto.
           ++ rewrite (ag_size _ _ A), (ag_count _ _ A). cbn [length]. lia.
        -- intros H. apply add_values_spec in H. destruct H as [vs [EV [K [S1 [I1 [_ [_ L]]]]]]].
           split; [exact K|]. split; [rewrite S1, I1; lia|].
           apply (gains_values g x (ic i) (ival i) s s' vs 1 (gval s ReportSize)); auto.
           ++ apply Forall_forall. intros v IN. apply (in_map Ok) in IN. rewrite <- EV in IN. apply in_map_iff in IN. destruct IN as [n [IN _]].
              apply mk_value_fields in IN. cbn [a_way a_size a_count] in IN. destruct IN as [_ [E1 [_ [E2 [E3 _]]]]]. rewrite E1. auto.
           ++ apply Forall_forall. intros v IN. apply (in_map Ok) in IN. rewrite <- EV in IN. apply in_map_iff in IN. destruct IN as [n [IN _]].
              apply mk_value_fields in IN. cbn [a_way a_size a_count] in IN. destruct IN as [E0 [E1 [_ [E2 [E3 _]]]]]. unfold element_of. rewrite E0, E2, E3, (ag_size _ _ A). auto.
           ++ apply (f_equal (@length _)) in EV. rewrite !map_length, seq_length in EV. rewrite (ag_count _ _ A) in EV. rewrite (ag_size _ _ A). rewrite <- EV, Z2Nat.id by exact NC. ring.
Qed.

(** the depth of collections according to a host is at least that of the
    open levels *)
Lemma x_leave_keep s s1 : x_leave s true = Ok s1 -> heads (x_current s) (x_stack s) ->
  keeps s s1 /\ numbered (open_leaves s1) = numbered (open_leaves s) /\ x_innamed s1 = x_innamed s /\ length (x_stack s) = S (length (x_stack s1)).
Proof.
  unfold x_leave. destruct (x_stack s) as [|p r] eqn:ES; [discriminate|]. intros H HD. injection H as <-. destruct HD as [HN HD].
  split; [|split; [|split; reflexivity]].
  - split; [reflexivity| |reflexivity]. intros _. cbn. destruct p as [h ms]. eapply heads_members. exact HD.
  - unfold open_leaves. rewrite ES. cbn [set_levels x_stack x_current rev]. rewrite flat_map_app, !numbered_app. cbn [flat_map]. rewrite app_nil_r, <- app_assoc. f_equal.
    destruct p as [h ms]. unfold lv_leaves. cbn [lv_head lv_members]. rewrite flat_map_app, !numbered_app.
    replace (numbered match lv_head (x_current s) with Some (k, u) => [LOpen k u] | None => [] end) with (@nil (Z * value)) by (destruct (lv_head (x_current s)) as [[? ?]|]; reflexivity).
    cbn [app]. rewrite <- app_assoc. f_equal. f_equal. unfold close_level.
    destruct (lv_members (x_current s)) as [|m l]; [reflexivity|]. destruct (lv_head (x_current s)) as [[k u]|]; [|congruence].
    set (ml := m :: l). cbn [flat_map eleaves]. rewrite app_nil_r.
    change (numbered (LOpen k u :: flat_map eleaves ml ++ [LClose])) with (numbered (flat_map eleaves ml ++ [LClose])).
    rewrite numbered_app. apply app_nil_r.
Qed.

Definition sees : gtab -> locals -> icls -> Z -> list mstate := fun g x c v => [(g, x, c, v)].
Definition data_of (es : list mstate) : list mstate := filter (fun e => data_tag (snd (fst e))) es.

Record follows_host (s : xst) (g : gtab) (d : nat) (es : list mstate) : Prop := {
  fh_agree : agree s g;
  fh_count : 0 <= g_count g;
  fh_heads : heads (x_current s) (x_stack s);
  fh_depth : (length (x_stack s) + b2n (x_innamed s) <= d)%nat;
  fh_vals : exists vss, Forall2 stands_for es vss /\ numbered (open_leaves s) = concat vss
}.

Lemma expand_same s : open_leaves (expand_ranges s) = open_leaves s.
Proof. reflexivity. Qed.
Lemma clear_same s : open_leaves (locals_clear s) = open_leaves s.
Proof. reflexivity. Qed.

Lemma forall2_snoc {A B} (R : A -> B -> Prop) l l' x y : Forall2 R l l' -> R x y -> Forall2 R (l ++ [x]) (l' ++ [y]).
Proof. intros F H. apply Forall2_app; auto. Qed.

Definition root_of (s : xst) : option tree :=
  match x_stack s with [] => Some (TTop (report_insert_members (lv_members (x_current s)) None)) | _ => None end.

(** one item: [es] are the data items so far *)
Lemma append_step db s i s' g x d d' es : constructed i -> ic i <> Push -> ic i <> Pop ->
  follows_host s g d es -> x_append db s i = Ok s' -> nest d [ic i] = Some d' ->
  let r := m_step lo_init lo_set sees (g, x) (wire i) in
  follows_host s' (fst (fst r)) d' (es ++ data_of (snd r)) /\
  (main_tag (ic i) = false -> x_root s' = x_root s /\ x_stack s' = x_stack s /\ x_current s' = x_current s /\ d' = d) /\
  (ic i = EndCollection -> x_stack s' = [] -> x_root s' = root_of s').
Proof.
  intros C N1 N2 [A NC HD DP [vss [F2 NV]]] H ND. unfold m_step, wire. cbn [w_cls w_val w_ext].
  unfold x_append, ikd in H. destruct (kind_of (ic i)) eqn:K.
  - (* main *)
    assert (AE : agree (expand_ranges s) g) by (eapply agree_globals; [|exact A]; reflexivity).
    set (s0 := expand_ranges s) in *.
    destruct (data_tag (ic i)) eqn:DT.
    + assert (EH : (let* s1 := handle_data db s0 i in Ok (locals_clear s1)) = Ok s').
      { destruct (ic i); try discriminate DT; exact H. }
      destruct (handle_data db s0 i) as [s1|e] eqn:E1; [|discriminate EH]. cbn [bind] in EH. injection EH as <-.
      destruct (handle_data_spec db s0 i s1 g x DT NC AE HD E1) as [[G1 H1 R1] [L1 [vs [V1 S1]]]].
      assert (MK : hid_kind (ic i) = KMain) by (destruct (ic i); try discriminate DT; reflexivity).
      rewrite MK. cbn [fst snd filter data_of sees]. rewrite DT.
      assert (DD : d' = d) by (destruct (ic i); try discriminate DT; cbn in ND; congruence). subst d'.
      split; [|split].
      * split; [|exact NC| | |].
        -- eapply agree_globals; [|exact AE]. exact G1.
        -- apply H1. exact HD.
        -- cbn [locals_clear x_stack x_innamed]. etransitivity; [exact L1|exact DP].
        -- exists (vss ++ [vs]). split; [apply forall2_snoc; auto|]. rewrite clear_same, V1, concat_app. cbn [concat]. rewrite app_nil_r, <- NV. reflexivity.
      * intros MT. unfold main_tag in MT. rewrite MK in MT. discriminate MT.
      * intros E. rewrite E in DT. discriminate DT.
    + destruct (ic i) eqn:EC; try discriminate K; try discriminate DT; cbn [hid_kind fst snd filter data_tag data_of sees]; rewrite app_nil_r.
      * (* Collection *)
        cbn [bind] in H. injection H as <-. cbn [nest] in ND. injection ND as <-.
        split; [|split; [discriminate|discriminate]]. split; [|exact NC| | |].
        -- eapply agree_globals; [|exact A]. reflexivity.
        -- cbn [locals_clear x_enter set_levels x_current x_stack heads]. split; [discriminate|exact HD].
        -- cbn [locals_clear x_enter set_levels x_current x_stack x_innamed length]. change (x_stack s0) with (x_stack s). change (x_innamed s0) with (x_innamed s). lia.
        -- exists vss. split; auto. rewrite clear_same. rewrite <- NV. unfold open_leaves. cbn [x_enter set_levels x_stack x_current rev].
           rewrite flat_map_app, !numbered_app. cbn [flat_map lv_leaves lv_head lv_members app numbered]. rewrite !app_nil_r. reflexivity.
      * (* EndCollection *)
        cbn [nest] in ND. destruct d as [|d1]; [discriminate ND|]. injection ND as <-.
        destruct (if x_innamed s0 then _ else _) as [s1|e] eqn:E1; [|discriminate H]. cbn [bind] in H.
        assert (P : agree s1 g /\ heads (x_current s1) (x_stack s1) /\ (length (x_stack s1) + b2n (x_innamed s1) <= d1)%nat /\
                    numbered (open_leaves s1) = numbered (open_leaves s) /\ x_root s1 = x_root s).
        { change (x_innamed s0) with (x_innamed s) in E1. destruct (x_innamed s) eqn:EN.
          - injection E1 as <-. split; [eapply agree_globals; [|exact A]; reflexivity|].
            split; [exact HD|]. split; [cbn in *; lia|]. split; reflexivity.
          - destruct (x_leave_keep _ _ E1 HD) as [[G1 H1 R1] [V1 [I1 L1]]].
            split; [eapply agree_globals; [|exact AE]; exact G1|]. split; [apply H1; exact HD|].
            change (x_innamed s0) with (x_innamed s) in I1. change (x_stack s0) with (x_stack s) in L1.
            split; [rewrite I1, EN; cbn in *; lia|]. split; [exact V1|exact R1]. }
        destruct P as [P1 [P2 [P3 [P4 P5]]]].
        injection H as <-. destruct (x_stack s1) as [|p r] eqn:ES.
        -- split; [|split; [discriminate|]].
           ++ split; [|exact NC| | |].
              ** eapply agree_globals; [|exact P1]. reflexivity.
              ** cbn [locals_clear x_ended x_current x_stack]. rewrite ES. exact P2.
              ** cbn [locals_clear x_ended x_stack x_innamed]. rewrite ES. exact P3.
              ** exists vss. split; auto. rewrite clear_same. change (open_leaves (x_ended s1)) with (open_leaves s1). congruence.
           ++ intros _ _. unfold root_of. cbn [locals_clear x_ended x_stack x_current x_root]. rewrite ES. reflexivity.
        -- split; [|split; [discriminate|]].
           ++ split; [|exact NC| | |].
              ** eapply agree_globals; [|exact P1]. reflexivity.
              ** cbn [locals_clear x_current x_stack]. rewrite ES. exact P2.
              ** cbn [locals_clear x_stack x_innamed]. rewrite ES. exact P3.
              ** exists vss. split; auto. rewrite clear_same. congruence.
           ++ intros _ E. cbn [locals_clear x_stack] in E. congruence.
  - (* global *)
    injection H as <-.
    assert (MK : hid_kind (ic i) = KGlobal) by (destruct (ic i); try discriminate K; reflexivity).
    rewrite MK. cbn [fst snd filter data_of sees]. rewrite app_nil_r.
    assert (DD : d' = d) by (destruct (ic i); try discriminate K; cbn in ND; congruence). subst d'.
    split; [|split].
    + split; [| |exact HD|exact DP|].
      * apply (agree_set s _ g (ic i) (iv i)); auto.
      * destruct (constructed_facts i C) as [CS _].
        destruct (ic i) eqn:EC; try discriminate K; destruct g; try exact NC.
        destruct CS as [CS|CS]; [discriminate CS|exact CS].
      * exists vss. split; auto.
    + intros _. auto.
    + intros E. rewrite E in K. discriminate K.
  - (* local *)
    injection H as <-.
    assert (MK : hid_kind (ic i) = KLocal) by (destruct (ic i); try discriminate K; reflexivity).
    rewrite MK. cbn [fst snd filter data_of sees]. rewrite app_nil_r.
    assert (DD : d' = d) by (destruct (ic i); try discriminate K; cbn in ND; congruence). subst d'.
    split; [|split].
    + split; [|exact NC| | |].
      * eapply agree_globals; [|exact A]. destruct (ic i); reflexivity.
      * destruct (ic i); exact HD.
      * destruct (ic i); exact DP.
      * exists vss. split; auto. destruct (ic i); exact NV.
    + intros _. destruct (ic i); auto.
    + intros E. rewrite E in K. discriminate K.
Qed.

Lemma nest_app l1 : forall d l2, nest d (l1 ++ l2) = match nest d l1 with Some d1 => nest d1 l2 | None => None end.
Proof.
  induction l1 as [|c l1 IH]; intros d l2; [reflexivity|].
  cbn [app nest]. destruct c; try apply IH. destruct d; [reflexivity|apply IH].
Qed.

Lemma nest_cons c d l : nest d (c :: l) = match nest d [c] with Some d1 => nest d1 l | None => None end.
Proof. change (c :: l) with ([c] ++ l). apply nest_app. Qed.

Lemma x_run_app db l1 : forall s l2, x_run db s (l1 ++ l2) = (let* s1 := x_run db s l1 in x_run db s1 l2).
Proof.
  induction l1 as [|i l1 IH]; intros s l2; [reflexivity|]. cbn [app x_run]. destruct (x_append db s i); cbn [bind]; auto.
Qed.

Lemma run_steps db l : forall s s' g x d d' es, Forall constructed l -> push_free l -> follows_host s g d es ->
  x_run db s l = Ok s' -> nest d (map ic l) = Some d' ->
  let r := m_run lo_init lo_set sees (g, x) (map wire l) in
  follows_host s' (fst (fst r)) d' (es ++ data_of (snd r)) /\
  (Forall (fun c => main_tag c = false) (map ic l) -> x_root s' = x_root s /\ x_stack s' = x_stack s /\ x_current s' = x_current s /\ d' = d).
Proof.
  induction l as [|i l IH]; intros s s' g x d d' es C P FH R N.
  - cbn in R, N. injection R as <-. injection N as <-. cbn. rewrite app_nil_r. split; auto.
  - inversion C as [|? ? C1 C2]; subst. inversion P as [|? ? [P1 P1'] P2]; subst. cbn [map x_run] in *.
    rewrite nest_cons in N. destruct (nest d [ic i]) as [d1|] eqn:N1; [|discriminate N].
    destruct (x_append db s i) as [s1|e] eqn:E1; [|discriminate R]. cbn [bind] in R.
    destruct (append_step db s i s1 g x d d1 es C1 P1 P1' FH E1 N1) as [F1 [M1 _]].
    cbn [m_run]. destruct (m_step lo_init lo_set sees (g, x) (wire i)) as [[g1 x1] o1]. cbn [fst snd] in F1.
    specialize (IH s1 s' g1 x1 d1 d' _ C2 P2 F1 R N).
    destruct (m_run lo_init lo_set sees (g1, x1) (map wire l)) as [[g2 x2] o2]. cbn [fst snd] in *. destruct IH as [I1 I2].
    split.
    + unfold data_of. rewrite filter_app, app_assoc. exact I1.
    + intros F. inversion F as [|? ? F3 F4]; subst. destruct (M1 F3) as [A1 [A2 [A3 A4]]]. destruct (I2 F4) as [B1 [B2 [B3 B4]]]. repeat split; congruence.
Qed.

Lemma data_states_machine l : push_free l -> data_states (map wire l) = data_of (snd (m_run lo_init lo_set sees (g_init, lo_init) (map wire l))).
Proof.
  intros P. change (data_states (map wire l)) with (data_of (snd (h_run sees (H g_init [] lo_init) (map wire l)))).
  destruct (m_run_host sees (map wire l) g_init [] lo_init) as [st' E]; [apply Forall_map; exact P|].
  rewrite E. reflexivity.
Qed.

Lemma numbered_eleaves ms : numbered (flat_map eleaves ms) = numbered (lv_leaves (Level None ms)).
Proof. reflexivity. Qed.

Lemma depth_top c st : heads c st -> st = [] -> lv_head c = None.
Proof. intros H ->. exact H. Qed.

Lemma map_split {A B} (f : A -> B) l : forall a c b, map f l = a ++ c :: b -> exists l1 i l2, l = l1 ++ i :: l2 /\ map f l1 = a /\ f i = c /\ map f l2 = b.
Proof.
  induction l as [|x l IH]; intros a c b E; [destruct a; discriminate E|]. destruct a as [|y a].
  - cbn in E. injection E as E1 E2. exists [], x, l. auto.
  - cbn in E. injection E as E1 E2. destruct (IH _ _ _ E2) as [l1 [i [l2 [H1 [H2 [H3 H4]]]]]]. exists (x :: l1), i, l2. cbn. subst. auto.
Qed.

(** the final state and the tree *)
Lemma extract_final db l t : Forall constructed l -> push_free l -> closes (map ic l) -> extract db l = Ok t ->
  exists s, x_run db xst_init l = Ok s /\ x_stack s = [] /\ x_innamed s = false /\ lv_head (x_current s) = None /\
    t = TTop (report_insert_members (lv_members (x_current s)) None) /\
    exists vss, Forall2 stands_for (data_states (map wire l)) vss /\ numbered (open_leaves s) = concat vss.
Proof.
  intros C P [B [a [b [E F]]]] X. unfold extract in X. destruct (x_run db xst_init l) as [s|e] eqn:R; [|discriminate X]. cbn [bind] in X.
  exists s. split; [reflexivity|].
  assert (FH0 : follows_host xst_init g_init 0 []).
  { split; [apply agree_init|cbn; lia|reflexivity|cbn; lia|]. exists []. split; [constructor|reflexivity]. }
  destruct (run_steps db l xst_init s g_init lo_init 0 0 [] C P FH0 R B) as [FH _].
  rewrite <- data_states_machine in FH by exact P. destruct FH as [_ _ HD DP VS]. cbn [app] in VS.
  assert (ES : x_stack s = []) by (destruct (x_stack s); [reflexivity|cbn in DP; lia]).
  assert (EN : x_innamed s = false) by (destruct (x_innamed s); [cbn in DP; lia|reflexivity]).
  split; [exact ES|]. split; [exact EN|]. split; [apply (depth_top _ _ HD ES)|]. split; [|exact VS].
  destruct (map_split _ _ _ _ _ E) as [l1 [i [l2 [EL [E1 [E2 E3]]]]]].
  subst l. apply Forall_app in C. destruct C as [C1 C2]. inversion C2 as [|? ? C3 C4]; subst.
  apply Forall_app in P. destruct P as [P1 P2]. inversion P2 as [|? ? [P3 P3'] P4]; subst.
  rewrite x_run_app in R. destruct (x_run db xst_init l1) as [s1|e] eqn:R1; [|discriminate R]. cbn [bind x_run] in R.
  destruct (x_append db s1 i) as [s2|e] eqn:R2; [|discriminate R]. cbn [bind] in R.
  unfold balanced in B. rewrite map_app, nest_app in B. destruct (nest 0 (map ic l1)) as [d1|] eqn:N1; [|discriminate B].
  cbn [map] in B. rewrite nest_cons in B. destruct (nest d1 [ic i]) as [d2|] eqn:N2; [|discriminate B].
  destruct (run_steps db l1 xst_init s1 g_init lo_init 0 d1 [] C1 P1 FH0 R1 N1) as [FH1 _].
  destruct (m_run lo_init lo_set sees (g_init, lo_init) (map wire l1)) as [[g1 x1] o1]. cbn [fst snd] in FH1.
  destruct (append_step db s1 i s2 g1 x1 d1 d2 _ C3 P3 P3' FH1 R2 N2) as [FH2 [_ RT]].
  destruct (m_step lo_init lo_set sees (g1, x1) (wire i)) as [[g2 x2] o2]. cbn [fst snd] in FH2.
  destruct (run_steps db l2 s2 s g2 x2 d2 0 _ C4 P4 FH2 R B) as [_ KP]. destruct (KP F) as [K1 [K2 [K3 K4]]].
  specialize (RT E2). rewrite K2 in ES. specialize (RT ES). unfold root_of in RT. rewrite ES in RT. rewrite K1, RT in X. injection X as <-. rewrite K3. reflexivity.
Qed.

Lemma top_leaves s : x_stack s = [] -> lv_head (x_current s) = None -> open_leaves s = flat_map eleaves (lv_members (x_current s)).
Proof. intros E H. unfold open_leaves, lv_leaves. rewrite E, H. reflexivity. Qed.

Lemma c46 db l t : Forall constructed l -> push_free l -> closes (map ic l) -> extract db l = Ok t ->
  all_reported t /\
  exists vss, Forall2 stands_for (data_states (map wire l)) vss /\ numbered (scoped 0 t) = concat vss.
Proof.
  intros C P CL X. destruct (extract_final db l t C P CL X) as [s [R [ES [EN [EH [-> [vss [F V]]]]]]]].
  split; [apply insert_reported|]. exists vss. split; [exact F|].
  rewrite insert_leaves, <- (top_leaves s ES EH). exact V.
Qed.

(* ------------------------------------------------------------------ *)
(** sizes *)

Lemma report_bits_app w r a b : report_bits w r (a ++ b) = report_bits w r a + report_bits w r b.
Proof.
  unfold report_bits, layout. rewrite flat_map_app, filter_app, map_app.
  induction (map snd (filter _ (flat_map _ a))) as [|z l IH]; cbn [app fold_right]; lia.
Qed.

Definition elem (c : icls) (r z : Z) (e : event) : Prop := event_bits e = Some (c, r, z).

Lemma report_bits_elems w rid c r z es : Forall (elem c r z) es ->
  report_bits w rid es = if icls_eqb c w && (r =? rid) then Z.of_nat (length es) * z else 0.
Proof.
  induction 1 as [|e es H F IH]; [destruct (_ && _); reflexivity|].
  change (e :: es) with ([e] ++ es). rewrite report_bits_app, IH. unfold report_bits, layout. cbn [flat_map]. rewrite H. cbn [app filter fst snd].
  destruct (icls_eqb c w && (r =? rid)); cbn [map fold_right app length snd]; rewrite ?Nat2Z.inj_succ; [unfold Z.succ|]; ring.
Qed.

Lemma data_elems m g x c f : Forall (elem c (g_rid g) (g_size g)) (data_events m g x c f) /\ length (data_events m g x c f) = Z.to_nat (g_count g).
Proof.
  unfold data_events. destruct (is_constant f).
  - split; [|apply repeat_length]. apply Forall_forall. intros e I. apply repeat_spec in I. subst. reflexivity.
  - destruct (is_variable f).
    + split; [|rewrite map_length, seq_length; reflexivity]. apply Forall_forall. intros e I. apply in_map_iff in I. destruct I as [k [<- _]]. reflexivity.
    + split; [|apply repeat_length]. apply Forall_forall. intros e I. apply repeat_spec in I. subst. reflexivity.
Qed.

Lemma of_report_app w r a b : of_report w r (a ++ b) = of_report w r a ++ of_report w r b.
Proof. apply filter_app. Qed.

Lemma stands_bits e vs w rid : stands_for e vs -> 0 <= g_count (fst (fst (fst e))) -> forall m,
  bits_of (of_report w rid vs) = report_bits w rid (data_events m (fst (fst (fst e))) (snd (fst (fst e))) (snd (fst e)) (snd e)).
Proof.
  destruct e as [[[g x] c] f]. cbn [fst snd]. intros [F B] NC m.
  destruct (data_elems m g x c f) as [E L]. rewrite (report_bits_elems w rid _ _ _ _ E), L.
  rewrite Z2Nat.id by exact NC. rewrite Z.mul_comm, <- B. clear - F.
  destruct (icls_eqb c w && (g_rid g =? rid)) eqn:Q.
  - replace (of_report w rid vs) with vs; [reflexivity|]. unfold of_report.
    induction F as [|v vs [F1 [F2 _]] F IH]; [reflexivity|]. cbn [filter]. rewrite F1, F2, Q. f_equal. exact IH.
  - replace (of_report w rid vs) with (@nil (Z * value)); [reflexivity|]. unfold of_report.
    induction F as [|v vs [F1 [F2 _]] F IH]; [reflexivity|]. cbn [filter]. rewrite F1, F2, Q. exact IH.
Qed.

Lemma counts_pos l : Forall constructed l -> push_free l -> forall g x, 0 <= g_count g ->
  Forall (fun e : mstate => 0 <= g_count (fst (fst (fst e)))) (snd (m_run lo_init lo_set sees (g, x) (map wire l))).
Proof.
  induction l as [|i l IH]; intros C P g x NC; [constructor|].
  inversion C as [|? ? C1 C2]; subst. inversion P as [|? ? [P1 P1'] P2]; subst. cbn [map m_run m_step wire w_cls w_val w_ext].
  destruct (hid_kind (ic i)) eqn:K.
  - specialize (IH C2 P2 g lo_init NC). destruct (m_run lo_init lo_set sees (g, lo_init) (map wire l)) as [st o]. cbn [snd] in *. constructor; [exact NC|exact IH].
  - assert (NC2 : 0 <= g_count (g_set (ic i) (ival i) g)).
    { destruct (constructed_facts i C1) as [CS _]. destruct (ic i); try discriminate K; destruct g; try exact NC. destruct CS as [CS|CS]; [discriminate CS|exact CS]. }
    specialize (IH C2 P2 _ x NC2). destruct (m_run lo_init lo_set sees (g_set (ic i) (ival i) g, x) (map wire l)) as [st o]. exact IH.
  - match goal with |- context [lo_set ?a ?b ?c ?d ?e] => specialize (IH C2 P2 g (lo_set a b c d e) NC) end.
    destruct (m_run lo_init lo_set sees _ (map wire l)) as [st o]. exact IH.
Qed.

Definition obs_at {A} (obs : gtab -> locals -> icls -> Z -> list A) (e : mstate) : list A :=
  let '(g, x, c, v) := e in obs g x c v.

Lemma run_obs {A} (obs : gtab -> locals -> icls -> Z -> list A) l : forall g x,
  snd (m_run lo_init lo_set obs (g, x) l) = flat_map (obs_at obs) (snd (m_run lo_init lo_set sees (g, x) l)) /\
  fst (m_run lo_init lo_set obs (g, x) l) = fst (m_run lo_init lo_set sees (g, x) l).
Proof.
  induction l as [|w l IH]; intros g x; [split; reflexivity|]. cbn [m_run m_step]. destruct (hid_kind (w_cls w)).
  - specialize (IH g lo_init). destruct (m_run lo_init lo_set obs (g, lo_init) l), (m_run lo_init lo_set sees (g, lo_init) l).
    cbn [fst snd] in *. destruct IH as [-> ->]. split; reflexivity.
  - specialize (IH (g_set (w_cls w) (w_val w) g) x). destruct (m_run lo_init lo_set obs _ l), (m_run lo_init lo_set sees _ l). exact IH.
  - specialize (IH g (lo_set (w_cls w) (w_val w) (w_ext w) (g_page g) x)). destruct (m_run lo_init lo_set obs _ l), (m_run lo_init lo_set sees _ l). exact IH.
Qed.

Lemma run_mains l : forall g x, Forall (fun e : mstate => main_tag (snd (fst e)) = true) (snd (m_run lo_init lo_set sees (g, x) l)).
Proof.
  induction l as [|w l IH]; intros g x; [constructor|]. cbn [m_run m_step]. destruct (hid_kind (w_cls w)) eqn:K.
  - specialize (IH g lo_init). destruct (m_run lo_init lo_set sees (g, lo_init) l). cbn [snd app sees]. constructor; [|exact IH]. cbn. unfold main_tag. rewrite K. reflexivity.
  - specialize (IH (g_set (w_cls w) (w_val w) g) x). destruct (m_run lo_init lo_set sees _ l). exact IH.
  - specialize (IH g (lo_set (w_cls w) (w_val w) (w_ext w) (g_page g) x)). destruct (m_run lo_init lo_set sees _ l). exact IH.
Qed.

Lemma full_bits m w rid es vss : Forall2 stands_for (data_of es) vss -> Forall (fun e : mstate => main_tag (snd (fst e)) = true) es ->
  Forall (fun e : mstate => 0 <= g_count (fst (fst (fst e)))) es ->
  bits_of (of_report w rid (concat vss)) = report_bits w rid (flat_map (obs_at (full_obs m)) es).
Proof.
  intros F M NC. revert vss F. induction es as [|[[[g x] c] f] es IH]; intros vss F; [inversion F; reflexivity|].
  inversion M as [|? ? M1 M2]; subst. inversion NC as [|? ? N1 N2]; subst. cbn [fst snd] in *.
  unfold data_of in *. cbn [flat_map filter fst snd obs_at] in *. rewrite report_bits_app.
  destruct (data_tag c) eqn:D.
  - inversion F as [|? vs ? vss' S1 F2]; subst. cbn [concat]. rewrite of_report_app, bits_app, (IH M2 N2 vss' F2).
    rewrite (stands_bits (g, x, c, f) vs w rid S1 N1 m). cbn [fst snd]. destruct c; try discriminate D; reflexivity.
  - rewrite (IH M2 N2 vss F). destruct c; try discriminate D; try discriminate M1; reflexivity.
Qed.

Lemma c44 db l t m w rid : Forall constructed l -> push_free l -> closes (map ic l) -> extract db l = Ok t ->
  bits_of (of_report w rid (numbered (scoped 0 t))) = report_bits w rid (host_view m (map wire l)).
Proof.
  intros C P CL X. destruct (c46 db l t C P CL X) as [_ [vss [F V]]]. rewrite V.
  change (host_view m (map wire l)) with (seen m l). rewrite seen_machine by exact P. unfold m_full.
  rewrite (proj1 (run_obs (full_obs m) (map wire l) g_init lo_init)).
  rewrite data_states_machine in F by exact P. apply full_bits; [exact F|apply run_mains|].
  apply counts_pos; auto. cbn. lia.
Qed.
