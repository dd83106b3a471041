(* StreamProofs.v -- the Streamer against StreamSpec *)
From Coq Require Import ZifyBool ZifyNat.
From Verif Require Import Py Usage Item Parser Optimizer Descriptor HidSpec Spec ItemFacts ParserFacts
  CodecProofs UsageProofs StreamSpec PlainHost.
Ltac Zify.zify_post_hook ::= Z.div_mod_to_equations.

(* ------------------------------------------------------------------ *)
(** requests to items *)

Definition req_cv (r : icls * option pval) : icls * Z :=
  (fst r, match snd r with Some x => py_int x | None => 0 end).

Definition req_ok (r : icls * option pval) : Prop :=
  match r with (Collection, Some (VInt z)) => 0 <= z | _ => True end.

Lemma mk_item_cv db c v i :
  req_ok (c, v) -> mk_item db c v = Ok i -> (ic i, ival i) = req_cv (c, v).
Proof.
  intros R H. unfold req_cv. cbn [fst snd]. pose proof (mk_item_class _ _ _ _ H) as C.
  destruct v as [x|].
  - rewrite C. f_equal. eapply mk_item_int; [|exact H].
    destruct c; try reflexivity. destruct x as [z| |]; try reflexivity. simpl in *. lia.
  - destruct (c15_none db c i H) as [_ E]. congruence.
Qed.

Lemma mk_items_cv db reqs l :
  Forall req_ok reqs -> mk_items db reqs = Ok l ->
  map (fun i => (ic i, ival i)) l = map req_cv reqs.
Proof.
  revert l. induction reqs as [|[c v] reqs IH]; intros l F H; cbn [mk_items] in H.
  - injection H as <-. reflexivity.
  - destruct (mk_item db c v) as [i|] eqn:E; [|discriminate]. cbn [bind] in H.
    destruct (mk_items db reqs) as [is|]; [|discriminate]. cbn [bind] in H. injection H as <-.
    inversion F; subst. cbn [map]. f_equal; [eapply mk_item_cv; eauto|]. apply IH; auto.
Qed.

Lemma mk_items_nonneg db reqs l :
  mk_items db reqs = Ok l -> Forall req_ok reqs ->
  Forall (fun r => signed (fst r) = false -> 0 <= snd (req_cv r)) reqs.
Proof.
  revert l. induction reqs as [|[c v] reqs IH]; intros l H F; [constructor|].
  cbn [mk_items] in H.
  destruct (mk_item db c v) as [i|] eqn:E; [|discriminate]. cbn [bind] in H.
  destruct (mk_items db reqs) as [is|]; [|discriminate]. inversion F; subst.
  constructor; [|eapply IH; eauto].
  pose proof (mk_item_cv _ _ _ _ H2 E) as CV. cbn [fst]. intros S.
  rewrite <- CV. cbn [snd].
  assert (K : constructed i) by (exists db, v; rewrite (mk_item_class _ _ _ _ E); exact E).
  destruct (constructed_facts i K) as [[X|X] _]; auto.
  rewrite (mk_item_class _ _ _ _ E) in X. congruence.
Qed.

(* ------------------------------------------------------------------ *)
(** running pieces *)

Lemma p_run_quiet s l1 l2 s1 :
  p_run s l1 = (s1, []) -> p_run s (l1 ++ l2) = p_run s1 l2.
Proof. intros E. rewrite p_run_app, E. cbn [fst snd app]. destruct (p_run s1 l2); reflexivity. Qed.

Lemma p_run_then s l1 l2 s1 o1 s2 o2 :
  p_run s l1 = (s1, o1) -> p_run s1 l2 = (s2, o2) -> p_run s (l1 ++ l2) = (s2, o1 ++ o2).
Proof. intros E1 E2. rewrite p_run_app, E1. cbn [fst snd]. rewrite E2. reflexivity. Qed.

Definition idx (d : Z) : list Z := if d =? 0 then [] else [d].

Lemma p_usages g us ds ss l :
  p_run (P g us ds ss) (map (fun z => (Usage, z)) l) = (P g (us ++ l) ds ss, []).
Proof.
  revert us. induction l as [|z l IH]; intros us; cbn [map p_run].
  - rewrite app_nil_r. reflexivity.
  - cbn [p_step hid_kind p_g p_us p_ds p_ss]. rewrite IH, <- app_assoc. reflexivity.
Qed.

Lemma nth_last_idx d k : nth_last (idx d) k = index d.
Proof.
  unfold idx, index. destruct (d =? 0); auto. simpl. destruct k as [|[|k]]; reflexivity.
Qed.

Lemma map_nth_last_idx d n : map (nth_last (idx d)) (seq 0 n) = repeat (index d) n.
Proof.
  generalize 0%nat. induction n as [|n IH]; intros k; auto.
  cbn [seq map repeat]. rewrite nth_last_idx, IH. reflexivity.
Qed.

(* ------------------------------------------------------------------ *)
(** values *)

Lemma usage_list_truthy u : opt_truthy u = match usage_list u with [] => false | _ => true end.
Proof. destruct u as [[z|n z|n z k]|]; simpl; auto. destruct (z =? 0); reflexivity. Qed.

Lemma usage_list_val u : usage_list u = match u with
  | Some v => if truthy v then [py_int v] else [] | None => [] end.
Proof. destruct u as [[z|n z|n z k]|]; simpl; auto. destruct (z =? 0); reflexivity. Qed.

Lemma array_size_length x : 0 < array_size x -> array_size x = Z.of_nat (length (array_usages (Some x))).
Proof.
  destruct x as [l|r]; simpl; intros H.
  - rewrite map_length. reflexivity.
  - rewrite upto_length. lia.
Qed.

Lemma no_array_usages a : no_array a -> array_usages a = [].
Proof.
  destruct a as [[l|r]|]; simpl; intros H; auto.
  - subst. reflexivity.
  - apply length_zero_iff_nil. rewrite upto_length. lia.
Qed.

Lemma truthy_is_array v b : narr_truthy (v_named v) = Ok b -> b = is_array v.
Proof.
  intros H. unfold is_array. destruct (truthy_array _ _ H) as [[-> N]|[-> [x [E [_ P]]]]].
  - rewrite no_array_usages; auto.
  - rewrite E. pose proof (array_size_length x P) as L.
    destruct (array_usages (Some x)); auto. simpl in L. lia.
Qed.

Lemma narr_iter_ints db a : map py_int (narr_iter db a) = array_usages (Some a).
Proof. destruct a as [l|r]; auto. simpl. apply range_iter_ints. Qed.

(** facts about a value built by Value() *)
Definition made (v : value) : Prop := exists k a, mk_value k a = Ok v.

Lemma made_facts v :
  made v -> is_constant (py_int (v_flags v)) = false ->
  (is_array v = true ->
     exists lo, v_lmin v = Some lo /\
       v_lmax v = Some (lo + Z.of_nat (length (array_usages (v_named v))) - 1) /\
       py_int (v_flags v) = match usage_list (v_usage v) with [] => 0 | _ => 2 end) /\
  (is_array v = false ->
     exists lo hi p q, v_lmin v = Some lo /\ v_lmax v = Some hi /\ v_pmin v = Some p /\ v_pmax v = Some q
       /\ (p = 0 /\ q = 0 -> lo = 0 /\ hi = 0)).
Proof.
  intros [k [a H]] C.
  destruct (c22_common k a v H) as [_ [_ [U [_ [L [N _]]]]]].
  split; intros A.
  - assert (Q : ~ no_array (a_named a)).
    { intros Q. apply no_array_usages in Q. rewrite <- N in Q. unfold is_array in A. rewrite Q in A. discriminate. }
    destruct (a_named a) as [x|] eqn:E; [|exfalso; apply Q; exact I].
    rewrite <- E in Q. destruct (c22_array k a v x H E Q) as [lo [L1 [L2 [P [F1 F2]]]]].
    exists lo. split; auto. split.
    + rewrite L2, N, (array_size_length x P). reflexivity.
    + rewrite U. destruct (a_usage a) as [[z|n z|n z y]|] eqn:EU; simpl; try (apply F2; split; congruence); auto.
      destruct (Z.eqb_spec z 0); [subst; auto|]. apply F2. split; congruence.
  - assert (Q : no_array (a_named a)).
    { rewrite <- N. unfold mk_value in H. rewrite <- N in H.
      destruct (narr_truthy (v_named v)) as [b|] eqn:T; [|discriminate].
      pose proof (truthy_is_array _ _ T) as TB. rewrite A in TB. subst b.
      destruct (truthy_array _ _ T) as [[_ X]|[X _]]; [auto|discriminate]. }
    destruct (c22_plain k a v H Q) as [L2 F].
    unfold is_constant in C. rewrite F in C.
    assert (EV : Z.even (py_int (a_flags a)) = true) by (rewrite <- Z.negb_odd, C; reflexivity).
    destruct (a_lmin a) as [lo|] eqn:E1; [|rewrite (c22_reject k a) in H; auto; discriminate].
    destruct (a_lmax a) as [hi|] eqn:E2; [|rewrite (c22_reject k a) in H; auto; discriminate].
    pose proof (c22_physical k a v H) as [P1 P2].
    destruct (zero_or_none (a_pmin a) && zero_or_none (a_pmax a)) eqn:Z0.
    + apply andb_true_iff in Z0. destruct Z0 as [Z1 Z2]. apply zon in Z1. apply zon in Z2.
      destruct (P1 (conj Z1 Z2)) as [-> ->]. rewrite ?L, ?L2, ?E1, ?E2.
      exists lo, hi, lo, hi. repeat split; auto; tauto.
    + assert (G : given (a_pmin a) \/ given (a_pmax a)).
      { pose proof (zon (a_pmin a)) as Y1. pose proof (zon (a_pmax a)) as Y2.
        unfold given in *. destruct (a_pmin a) as [x|], (a_pmax a) as [y|]; simpl in *; try discriminate.
        - destruct (Z.eqb_spec x 0); [right|left; eauto]. exists y. split; auto. lia.
        - left. exists x. split; auto. lia.
        - right. exists y. split; auto. lia. }
      destruct (P2 G) as [-> ->]. rewrite ?L, ?L2, ?E1, ?E2.
      exists lo, hi. eexists. eexists. split; [reflexivity|]. split; [reflexivity|].
      split; [reflexivity|]. split; [reflexivity|]. intros [X1 X2]. exfalso.
      destruct G as [[z [G1 G2]]|[z [G1 G2]]]; rewrite G1 in *; congruence.
Qed.

(** the main items of a value *)
Definition val_mid (v : value) : list (icls * Z) :=
  [(LogicalMinimum, or0 (v_lmin v)); (LogicalMaximum, or0 (v_lmax v));
   (Unit, py_int (v_unit v)); (UnitExponent, v_uexp v)]
  ++ map (fun z => (DesignatorIndex, z)) (idx (v_desig v))
  ++ map (fun z => (StringIndex, z)) (idx (v_str v)).

Definition val_end (v : value) (c : icls) : list (icls * Z) :=
  [(ReportCount, v_count v); (ReportSize, v_size v); (c, py_int (v_flags v))].

Lemma opt_int_cv c o : req_cv (c, opt_int o) = (c, or0 o).
Proof. destruct o; reflexivity. Qed.

Lemma reqs_const db v b c :
  is_constant (py_int (v_flags v)) = true ->
  map req_cv (value_reqs db v b c) = val_end v c.
Proof.
  intros C. unfold value_reqs. rewrite land_1_odd. unfold is_constant in C.
  rewrite <- Z.negb_odd, C. cbn [negb app andb]. rewrite andb_false_r. reflexivity.
Qed.

Lemma map_Usage l : map req_cv (map (fun u => (Usage, Some u)) l) = map (fun z => (Usage, z)) (map py_int l).
Proof. rewrite !map_map. reflexivity. Qed.

Lemma reqs_data db v c :
  is_constant (py_int (v_flags v)) = false ->
  map req_cv (value_reqs db v (is_array v) c) =
  map (fun z => (Usage, z)) (usage_list (v_usage v)) ++
  (if is_array v
   then [(PhysicalMinimum, 0); (PhysicalMaximum, 0)]
        ++ map (fun _ => (Collection, 2)) (usage_list (v_usage v))
        ++ map (fun z => (Usage, z)) (array_usages (v_named v))
   else if opt_Z_eqb (v_pmin v) (v_lmin v) && opt_Z_eqb (v_pmax v) (v_lmax v)
   then [(PhysicalMinimum, 0); (PhysicalMaximum, 0)]
   else [(PhysicalMinimum, or0 (v_pmin v)); (PhysicalMaximum, or0 (v_pmax v))])
  ++ val_mid v ++ val_end v c
  ++ (if is_array v then map (fun _ => (EndCollection, 0)) (usage_list (v_usage v)) else []).
Proof.
  intros C. unfold value_reqs. rewrite land_1_odd. unfold is_constant in C.
  rewrite <- Z.negb_odd, C. cbn [negb].
  assert (U : map req_cv (if usage_truthy (v_usage v) then [(Usage, v_usage v)] else [])
              = map (fun z => (Usage, z)) (usage_list (v_usage v))).
  { unfold usage_truthy. rewrite usage_list_truthy, usage_list_val.
    destruct (v_usage v) as [u|]; auto. destruct (truthy u); reflexivity. }
  assert (T : usage_truthy (v_usage v) = match usage_list (v_usage v) with [] => false | _ => true end)
    by apply usage_list_truthy.
  assert (V1 : (length (usage_list (v_usage v)) <= 1)%nat).
  { rewrite usage_list_val. destruct (v_usage v) as [u|]; [destruct (truthy u)|]; simpl; lia. }
  rewrite !map_app, U. rewrite <- !app_assoc. f_equal.
  rewrite andb_true_r.
  unfold val_mid, val_end.
  assert (MID : forall (X Y : list (icls * Z)), X = Y -> forall X' Y', X' = Y' -> X ++ X' = Y ++ Y') by (intros; congruence).
  apply MID.
  { destruct (is_array v) eqn:A.
    - rewrite map_app. rewrite map_app. f_equal. f_equal.
      + rewrite T. destruct (usage_list (v_usage v)) as [|x [|]]; simpl in V1; try lia; reflexivity.
      + unfold is_array in A. destruct (v_named v) as [a|]; [|discriminate].
        rewrite map_Usage, narr_iter_ints. reflexivity.
    - destruct (opt_Z_eqb _ _ && opt_Z_eqb _ _); [reflexivity|].
      cbn [map]. rewrite !opt_int_cv. reflexivity. }
  cbn [map]. rewrite !opt_int_cv.
  change (map req_cv
     [(ReportCount, Some (VInt (v_count v))); (ReportSize, Some (VInt (v_size v)));
      (c, Some (v_flags v))]) with
      [(ReportCount, v_count v); (ReportSize, v_size v); (c, py_int (v_flags v))].
  cbn [app]. do 4 f_equal.
  rewrite <- app_assoc. apply MID.
  { unfold idx. destruct (v_desig v =? 0); reflexivity. }
  apply MID.
  { unfold idx. destruct (v_str v =? 0); reflexivity. }
  do 3 f_equal.
  rewrite T. destruct (is_array v); [|reflexivity].
  destruct (usage_list (v_usage v)) as [|x [|]]; simpl in V1; try lia; reflexivity.
Qed.

Definition data_cls (c : icls) : Prop := c = Input \/ c = Output \/ c = Feature.

Lemma run_end pg lm lx pm px ue un sz ri ct us ds ss v c :
  data_cls c ->
  let g := G pg lm lx pm px ue un (v_size v) ri (v_count v) in
  p_run (P (G pg lm lx pm px ue un sz ri ct) us ds ss) (val_end v c) =
  (P g [] [] [], p_data g us ds ss c (py_int (v_flags v))).
Proof.
  intros [->|[->| ->]]; cbn -[p_data]; rewrite app_nil_r; reflexivity.
Qed.

Lemma run_mid pg lm lx pm px ue un sz ri ct us v :
  p_run (P (G pg lm lx pm px ue un sz ri ct) us [] []) (val_mid v) =
  (P (G pg (or0 (v_lmin v)) (or0 (v_lmax v)) pm px (v_uexp v) (py_int (v_unit v)) sz ri ct)
     us (idx (v_desig v)) (idx (v_str v)), []).
Proof.
  unfold val_mid, idx. destruct (v_desig v =? 0), (v_str v =? 0); reflexivity.
Qed.

Lemma data_fields pg lo hi pm px ue un sz ri ct us d s c flags :
  is_constant flags = false ->
  p_data (G pg lo hi pm px ue un sz ri ct) us (idx d) (idx s) c flags =
  let a := Attrs c ri flags sz lo hi (fst (effective pm px lo hi)) (snd (effective pm px lo hi)) un ue in
  let sel := Z.to_nat (hi - lo + 1) in
  if is_variable flags
  then map (fun k => EvVar a (nth_last us k) (index d) (index s) []) (seq 0 (Z.to_nat ct))
  else repeat (EvArr a (firstn sel us) (repeat (index d) sel) (repeat (index s) sel) []) (Z.to_nat ct).
Proof.
  intros C. unfold p_data. cbn [g_count g_lmax g_lmin]. rewrite C, !map_nth_last_idx.
  destruct (is_variable flags); [|reflexivity].
  apply map_ext. intros k. rewrite !nth_last_idx. reflexivity.
Qed.

Lemma usage_list_cases u : usage_list u = [] \/ exists z, usage_list u = [z].
Proof. rewrite usage_list_val. destruct u as [v|]; auto. destruct (truthy v); eauto. Qed.

Lemma value_run db v g :
  made v -> data_cls (way_class (py_int (v_way v))) ->
  exists g', p_run (P g [] [] []) (map req_cv (value_reqs db v (is_array v) (way_class (py_int (v_way v)))))
             = (P g' [] [] [], value_events (g_rid g) v)
             /\ g_rid g' = g_rid g /\ g_page g' = g_page g.
Proof.
  intros M W. set (c := way_class (py_int (v_way v))) in *.
  destruct g as [pg lm lx pm px ue un sz ri ct]. cbn [g_rid g_page].
  unfold value_events. destruct (is_constant (py_int (v_flags v))) eqn:C.
  - rewrite reqs_const by auto. eexists. split.
    + rewrite run_end by auto. unfold p_data. rewrite C. cbn [g_count g_size g_rid]. reflexivity.
    + auto.
  - rewrite reqs_data by auto. destruct (made_facts v M C) as [FA FN].
    destruct (is_array v) eqn:A.
    + destruct (FA eq_refl) as [lo [L1 [L2 F]]]. clear FA FN.
      assert (VA : value_attrs ri v = Attrs c ri (py_int (v_flags v)) (v_size v) (or0 (v_lmin v)) (or0 (v_lmax v))
                   (or0 (v_lmin v)) (or0 (v_lmax v)) (py_int (v_unit v)) (v_uexp v)).
      { unfold value_attrs. rewrite A. reflexivity. }
      destruct (usage_list_cases (v_usage v)) as [U|[u U]]; rewrite U in *; cbn [map app].
      * eexists. split.
        -- cbn [p_run p_step hid_kind p_g p_us p_ds p_ss g_set].
           erewrite p_run_quiet by apply p_usages. cbn [app].
           erewrite p_run_quiet by apply run_mid.
           rewrite app_nil_r, run_end by auto.
           rewrite data_fields by auto. cbn [app]. unfold effective. cbn [Z.eqb andb fst snd].
           rewrite VA. cbn [f_lmin f_lmax]. reflexivity.
        -- auto.
      * eexists. split.
        -- cbn [p_run p_step hid_kind p_g p_us p_ds p_ss g_set p_obs app].
           erewrite p_run_quiet by apply p_usages. cbn [app].
           erewrite p_run_quiet by apply run_mid.
           erewrite p_run_then; [|apply run_end; auto|reflexivity].
           rewrite data_fields by auto. cbn [app]. unfold effective. cbn [Z.eqb andb fst snd].
           rewrite VA. cbn [f_lmin f_lmax p_obs p_step p_us p_ds p_ss]. reflexivity.
        -- auto.
    + destruct (FN eq_refl) as [lo [hi [p [q [L1 [L2 [P1 [P2 PZ]]]]]]]]. clear FA FN.
      assert (VA : value_attrs ri v = Attrs c ri (py_int (v_flags v)) (v_size v) lo hi p q
                     (py_int (v_unit v)) (v_uexp v)).
      { unfold value_attrs. rewrite A, L1, L2, P1, P2. reflexivity. }
      rewrite L1, L2, P1, P2. rewrite VA. cbn [f_lmin f_lmax].
      unfold opt_Z_eqb. cbn [or0].
      exists (if (p =? lo) && (q =? hi)
              then G pg lo hi 0 0 (v_uexp v) (py_int (v_unit v)) (v_size v) ri (v_count v)
              else G pg lo hi p q (v_uexp v) (py_int (v_unit v)) (v_size v) ri (v_count v)).
      split; [|destruct (_ && _); auto].
      erewrite p_run_quiet by apply p_usages. cbn [app].
      destruct ((p =? lo) && (q =? hi)) eqn:E.
      * cbn [p_run p_step hid_kind p_g p_us p_ds p_ss g_set app].
        erewrite p_run_quiet by apply run_mid.
        rewrite app_nil_r, run_end by auto. rewrite L1, L2. cbn [or0].
        rewrite data_fields by auto. unfold effective. cbn [Z.eqb andb fst snd].
        assert (p = lo) by lia. assert (q = hi) by lia. subst p q. reflexivity.
      * cbn [p_run p_step hid_kind p_g p_us p_ds p_ss g_set app].
        erewrite p_run_quiet by apply run_mid.
        rewrite app_nil_r, run_end by auto. rewrite L1, L2. cbn [or0].
        rewrite data_fields by auto. unfold effective.
        replace ((p =? 0) && (q =? 0)) with false by lia. reflexivity.
Qed.

Definition slot (id : Z) : Z := if id <? 0 then id + 256 else id.

Lemma rs_key_ok way id j :
  rs_key way id = Ok j ->
  j = slot id /\ -256 <= id < 256 /\ (way = 8 \/ way = 9 \/ way = 11).
Proof.
  unfold rs_key, slot. destruct ((way =? 8) || (way =? 9) || (way =? 11)) eqn:W; [|discriminate].
  cbv zeta. intros H. match type of H with (if ?b then _ else _) = _ => destruct b eqn:E end; [discriminate|]. assert (X : (if id <? 0 then id + 256 else id) = j) by congruence. clear H. destruct (id <? 0) eqn:N; lia.
Qed.

Lemma rs_add_ok st way n st' :
  rs_add st way n = Ok st' ->
  s_rid st' = s_rid st /\ -256 <= s_rid st < 256 /\ (way = 8 \/ way = 9 \/ way = 11) /\
  forall w k, s_size st' w k = s_size st w k + (if (w =? way) && (k =? slot (s_rid st)) then n else 0).
Proof.
  unfold rs_add. destruct (rs_key way (s_rid st)) as [j|] eqn:K; [|discriminate].
  cbn [bind]. intros H. injection H as <-. apply rs_key_ok in K. destruct K as [-> [K1 K2]].
  repeat split; auto; try lia. intros w k. cbn [s_size]. destruct (_ && _); lia.
Qed.

Lemma main_class_ok way c :
  main_class way = Ok c -> way = 8 \/ way = 9 \/ way = 11 -> c = way_class way /\ data_cls c.
Proof.
  intros H [->|[->| ->]]; vm_compute in H; injection H as <-; unfold data_cls; auto.
Qed.

Definition own_bits (v : value) : Z :=
  match v_kind v with KValue => v_size v | KAlign _ => 0 | KPadding => v_size v end.

Lemma pad_run way p g :
  data_cls (way_class way) -> 
  exists g', p_run (P g [] [] [])
     (map req_cv [(ReportCount, Some (VInt 1)); (ReportSize, Some (VInt p)); (way_class way, Some (VInt 3))])
   = (P g' [] [] [], [EvPad (way_class way) (g_rid g) 3 p]) /\ g_rid g' = g_rid g /\ g_page g' = g_page g.
Proof.
  intros D. destruct g as [pg lm lx pm px ue un sz ri ct].
  exists (G pg lm lx pm px ue un p ri 1). split; auto.
  destruct D as [->|[->| ->]]; reflexivity.
Qed.

Lemma map_cv_plain o l :
  map (fun i => (ic i, ival i)) o = l -> Forall (fun w => plain (fst w) = true) l ->
  Forall (fun i => plain (ic i) = true) o.
Proof.
  intros <- F. rewrite Forall_map in F. exact F.
Qed.

Lemma value_reqs_plain db v c :
  data_cls c -> Forall (fun w => plain (fst w) = true) (map req_cv (value_reqs db v (is_array v) c)).
Proof.
  intros D. destruct (is_constant (py_int (v_flags v))) eqn:C.
  - rewrite reqs_const by auto. unfold val_end. destruct D as [->|[->| ->]]; repeat constructor.
  - rewrite reqs_data by auto. unfold val_mid, val_end.
    assert (MP : forall (A : Type) (f : A -> icls * Z) l, (forall x, plain (fst (f x)) = true) ->
      Forall (fun w => plain (fst w) = true) (map f l)).
    { intros A f l H. apply Forall_map. apply Forall_forall. intros; apply H. }
    destruct (is_array v); [|destruct (opt_Z_eqb _ _ && opt_Z_eqb _ _)].
    all: repeat (apply Forall_app; split).
    all: try (apply MP; intros; reflexivity).
    all: repeat constructor.
    all: destruct D as [->|[->| ->]]; reflexivity.
Qed.

Lemma value_reqs_ok db v c : c <> Collection -> Forall req_ok (value_reqs db v (is_array v) c).
Proof.
  intros NC. unfold value_reqs.
  assert (N : forall c' x, c' <> Collection -> req_ok (c', x)).
  { intros c' x H. unfold req_ok. destruct c'; auto. congruence. }
  assert (MP : forall l : list pval, Forall req_ok (map (fun u => (Usage, Some u)) l)).
  { intros l. apply Forall_map. apply Forall_forall. intros; apply N. discriminate. }
  repeat match goal with
  | |- Forall _ (_ ++ _) => apply Forall_app; split
  | |- Forall _ (if ?b then _ else _) => destruct b
  | |- Forall _ (_ :: _) => constructor
  | |- Forall _ [] => constructor
  | |- Forall _ (map _ _) => apply MP
  end.
  all: first [apply N; first [discriminate | assumption] | exact I].
Qed.

Lemma element_run db st v st' o :
  made v -> element db st v = Ok (st', o) ->
  exists p, 0 <= p < Z.max 1 (wanted_alignment v) /\
    Forall (fun i => plain (ic i) = true) o /\
    (forall g, exists g', p_run (P g [] [] []) (map (fun i => (ic i, ival i)) o)
        = (P g' [] [] [], gap_events (g_rid g) v p ++ own_events (g_rid g) v)
        /\ g_rid g' = g_rid g /\ g_page g' = g_page g) /\
    s_rid st' = s_rid st /\
    (1 < wanted_alignment v ->
       (wanted_alignment v | s_size st (py_int (v_way v)) (slot (s_rid st)) + p)) /\
    (forall w k, s_size st' w k = s_size st w k +
       (if (w =? py_int (v_way v)) && (k =? slot (s_rid st)) then p + own_bits v else 0)) /\
    (p + own_bits v <> 0 \/ v_kind v = KValue \/ 1 < wanted_alignment v ->
       -256 <= s_rid st < 256 /\ (py_int (v_way v) = 8 \/ py_int (v_way v) = 9 \/ py_int (v_way v) = 11)) /\
    (v_kind v = KValue -> 0 <= v_size v /\ 0 <= v_count v) /\
    (v_kind v = KPadding -> 0 <= v_size v).
Proof.
  intros M H. unfold element in H.
  set (way := py_int (v_way v)) in *.
  set (align := match v_kind v with KAlign b => b | KPadding => 0 | KValue => v_align v end) in *.
  set (pad0 := match v_kind v with KPadding => v_size v | _ => 0 end) in *.
  match type of H with bind ?r _ = _ => destruct r as [pad|] eqn:PAD; [|discriminate] end.
  cbn [bind] in H.
  match type of H with bind ?r _ = _ => destruct r as [[st1 out1]|] eqn:OUT1; [|discriminate] end.
  cbn [bind] in H.
  (* the padding *)
  set (p := match v_kind v with KPadding => 0 | _ => pad end).
  assert (WA : wanted_alignment v = match v_kind v with KPadding => 1 | _ => align end).
  { unfold wanted_alignment, align. destruct (v_kind v); reflexivity. }
  assert (PR : 0 <= p < Z.max 1 (wanted_alignment v) /\
               (1 < wanted_alignment v -> (wanted_alignment v | s_size st way (slot (s_rid st)) + p))
               /\ (1 < wanted_alignment v -> -256 <= s_rid st < 256 /\ (way = 8 \/ way = 9 \/ way = 11))).
  { rewrite WA. unfold p. destruct (v_kind v) eqn:K; try (split; [lia|split; lia]).
    all: destruct (1 <? align) eqn:A1;
      [|unfold pad0 in PAD; injection PAD as <-; split; [lia|split; lia]].
    all: destruct (rs_key way (s_rid st)) as [j|] eqn:RK; [|discriminate]; cbn [bind] in PAD.
    all: apply rs_key_ok in RK; destruct RK as [-> RK].
    all: set (x := s_size st way (slot (s_rid st))) in *.
    all: pose proof (Z.mod_pos_bound x align ltac:(lia)) as MB.
    all: pose proof (Z.div_mod x align ltac:(lia)) as DM.
    all: destruct (x mod align =? 0) eqn:Z0; injection PAD as <-;
      (split; [lia|]); (split; [|intros _; exact RK]); intros _; [exists (x / align)|exists (x / align + 1)]; lia. }
  assert (PP : match v_kind v with KPadding => v_size v | _ => p end = pad).
  { unfold p. destruct (v_kind v) eqn:K; auto. unfold align, pad0 in PAD. 
    change (1 <? 0) with false in PAD. cbv iota in PAD. injection PAD as <-. reflexivity. }
  clear PAD.
  (* effect of the padding items *)
  assert (O1 : Forall (fun i => plain (ic i) = true) out1 /\
    (forall g, exists g', p_run (P g [] [] []) (map (fun i => (ic i, ival i)) out1)
        = (P g' [] [] [], gap_events (g_rid g) v pad) /\ g_rid g' = g_rid g /\ g_page g' = g_page g) /\
    s_rid st1 = s_rid st /\
    (forall w k, s_size st1 w k = s_size st w k +
       (if (w =? way) && (k =? slot (s_rid st)) then pad else 0)) /\
    (pad <> 0 -> -256 <= s_rid st < 256 /\ (way = 8 \/ way = 9 \/ way = 11)) /\ 0 <= pad).
  { unfold gap_events. destruct (pad =? 0) eqn:P0.
    - injection OUT1 as <- <-. split; [constructor|]. split.
      + intros g. exists g. auto.
      + split; auto. split; [|lia]. intros w k. destruct (_ && _); lia.
    - destruct (rs_add st way pad) as [st2|] eqn:RA; [|discriminate]. cbn [bind] in OUT1.
      destruct (main_class way) as [c|] eqn:MC; [|discriminate]. cbn [bind] in OUT1.
      match type of OUT1 with bind ?r _ = _ => destruct r as [items|] eqn:MI; [|discriminate] end.
      cbn [bind] in OUT1. injection OUT1 as <- <-.
      apply rs_add_ok in RA. destruct RA as [R1 [R2 [R3 R4]]].
      destruct (main_class_ok _ _ MC R3) as [-> DC].
      assert (NC : way_class way <> Collection) by (destruct DC as [E|[E|E]]; rewrite E; discriminate).
      assert (RO : Forall req_ok [(ReportCount, Some (VInt 1)); (ReportSize, Some (VInt pad));
                                  (way_class way, Some (VInt 3))]).
      { repeat constructor. unfold req_ok. destruct (way_class way); auto. lia. }
      pose proof (mk_items_cv _ _ _ RO MI) as CV.
      pose proof (mk_items_nonneg _ _ _ MI RO) as NN.
      split; [|split; [|split; [auto|split; [exact R4|]]]].
      + eapply map_cv_plain; [exact CV|]. destruct DC as [E|[E|E]]; rewrite E; repeat constructor.
      + intros g. rewrite CV. apply pad_run; auto.
      + split; auto.
        inversion NN as [|? ? ? NN2]. inversion NN2 as [|? ? NN3 ?]. apply NN3. reflexivity. }
  destruct O1 as [F1 [G1 [S1 [Z1 [N1 P0]]]]]. clear OUT1.
  exists p. split; [exact (proj1 PR)|].
  unfold own_events, own_bits. destruct (v_kind v) eqn:K.
  - (* Value *)
    destruct (narr_truthy (v_named v)) as [b|] eqn:T; [|discriminate]. cbn [bind] in H.
    apply truthy_is_array in T. subst b.
    destruct (rs_add st1 way (v_size v)) as [st2|] eqn:RA; [|discriminate]. cbn [bind] in H.
    destruct (main_class way) as [c|] eqn:MC; [|discriminate]. cbn [bind] in H.
    match type of H with bind ?r _ = _ => destruct r as [items|] eqn:MI; [|discriminate] end.
    cbn [bind] in H. injection H as <- <-.
    apply rs_add_ok in RA. destruct RA as [R1 [R2 [R3 R4]]].
    destruct (main_class_ok _ _ MC R3) as [-> DC].
    assert (NC : way_class way <> Collection) by (destruct DC as [E|[E|E]]; rewrite E; discriminate).
    pose proof (value_reqs_ok db v (way_class way) NC) as RO.
    pose proof (mk_items_cv _ _ _ RO MI) as CV.
    split; [|split; [|split; [congruence|split; [exact (proj1 (proj2 PR))|split; [|split; [|split; [|discriminate]]]]]]].
    + apply Forall_app. split; auto.
      eapply map_cv_plain; [exact CV|]. apply value_reqs_plain; auto.
    + intros g. destruct (G1 g) as [g1 [E1 [ER1 EP1]]].
      destruct (value_run db v g1 M DC) as [g2 [E2 [ER2 EP2]]].
      exists g2. split; [|split; congruence].
      rewrite map_app, CV. rewrite <- ER1. rewrite <- PP in E1.
      eapply p_run_then; [rewrite ER1; exact E1|exact E2].
    + intros w k. rewrite R4, Z1, S1. rewrite PP. destruct (_ && _); lia.
    + intros _. rewrite <- S1. auto.
    + intros _. pose proof (mk_items_nonneg _ _ _ MI RO) as NN. unfold value_reqs in NN.
      rewrite Forall_app in NN. destruct NN as [_ NN]. rewrite Forall_app in NN. destruct NN as [NN _].
      inversion NN as [|? ? NNc NN2]. inversion NN2 as [|? ? NN3 ?].
      split; [apply NN3; reflexivity|apply NNc; reflexivity].
  - (* Align *)
    injection H as <- <-.
    split; [auto|split; [|split; [congruence|split; [exact (proj1 (proj2 PR))|split; [|split; [|split; discriminate]]]]]].
    + intros g. destruct (G1 g) as [g1 [E1 [ER1 EP1]]]. exists g1. rewrite app_nil_r, PP. auto.
    + intros w k. rewrite Z1, PP. destruct (_ && _); lia.
    + intros [X|[X|X]]; [|discriminate|exact (proj2 (proj2 PR) X)]. apply N1. rewrite PP in X. lia.
  - (* Padding *)
    injection H as <- <-. assert (p0 : p = 0) by reflexivity.
    split; [auto|split; [|split; [congruence|split; [exact (proj1 (proj2 PR))|split; [|split; [|split; [discriminate|]]]]]]].
    + intros g. destruct (G1 g) as [g1 [E1 [ER1 EP1]]]. exists g1. rewrite PP, E1.
      unfold gap_events at 2. cbn [Z.eqb app]. auto.
    + intros w k. rewrite Z1, PP, p0. destruct (_ && _); lia.
    + intros [X|[X|X]]; [|discriminate|exact (proj2 (proj2 PR) X)]. apply N1. rewrite PP in X. lia.
    + intros _. rewrite PP. exact P0.
Qed.
