(* BytesBack.v -- decompiling with another registry (C63), decompiling the
   bytes of a compiled tree (C64) *)
From Coq Require Import ZifyBool ZifyNat.
From Verif Require Import Py Usage Item Parser Optimizer Descriptor Extractor HidSpec ItemFacts ParserFacts CodecProofs UsageProofs StreamSpec
  StreamProofs StreamTree TreeOpt OptSpec ExtractSpec ExtractFacts ExtractView BackSpec ExtractBack ExtractAgain DumpSpec NameFacts NameTree NameBack.
Local Open Scope list_scope.
Local Open Scope Z_scope.
Ltac Zify.zify_post_hook ::= Z.div_mod_to_equations.

(* ------------------------------------------------------------------ *)
(** parsing with two registries *)

Lemma test_int db z : utype_test db NAry (Some (VInt z)) = Ok (negb (Z.shiftr z 16 =? 0) && match db z with Some (_, ks) => existsb (utype_eqb NAry) ks | None => false end).
Proof. unfold utype_test, lookup_opt, lookup. cbn [bind]. destruct (negb (Z.shiftr z 16 =? 0)); [|reflexivity]. destruct (db z) as [[n ks]|]; reflexivity. Qed.

Lemma test_lookup db z : utype_test db NAry (Some (lookup db (VInt z))) = utype_test db NAry (Some (VInt z)).
Proof. unfold utype_test, lookup_opt. cbn [bind]. f_equal. unfold lookup. destruct (negb (Z.shiftr z 16 =? 0)); [destruct (db z) as [[? ?]|]|]; reflexivity. Qed.

Lemma types_same db db' : (forall z, array_usage db' z <-> array_usage db z) ->
  forall z, utype_test db' NAry (Some (VInt z)) = utype_test db NAry (Some (VInt z)).
Proof.
  intros H z. rewrite !test_int. f_equal. f_equal.
  assert (G : forall d, match d z with Some (_, ks) => existsb (utype_eqb NAry) ks | None => false end = true <-> array_usage d z).
  { intros d. unfold array_usage. destruct (d z) as [[n ks]|].
    - rewrite nary_in. split; [intros I; exists n, ks; auto|intros [n' [ks' [E I]]]; congruence].
    - split; [discriminate|intros [n [ks [E _]]]; discriminate]. }
  apply eq_true_iff_eq. rewrite !G. apply H.
Qed.

Lemma init_val c x i : item_init c (Some x) = Ok i -> ic i = c /\ iv i = if truthy x then x else VInt 0.
Proof. unfold item_init. destruct (_ || _); [|discriminate]. intros H. injection H as <-. split; reflexivity. Qed.

Lemma shiftr_small z : 0 <= z < 65536 -> Z.shiftr z 16 = 0.
Proof. intros H. rewrite Z.shiftr_div_pow2 by lia. change (2 ^ 16) with 65536. lia. Qed.

Lemma is_usage_cases c : is_usage c = true -> c = Usage \/ c = UsageMinimum \/ c = UsageMaximum.
Proof. destruct c; intros H; try discriminate H; auto. Qed.

Lemma lookup_named db v : truthy (lookup db v) = true.
Proof. destruct v as [z| |]; try reflexivity. unfold lookup. destruct (negb _); [destruct (db z) as [[? ?]|]|]; reflexivity. Qed.

(** a Usage item that says no more than its number *)
Definition canon (db : udb) (i : item) : Prop :=
  ic i = Usage -> truthy (iv i) = true /\ (Z.shiftr (ival i) 16 <> 0 -> iv i = lookup db (VInt (ival i))).

Lemma usage_item db c v i : is_usage c = true -> mk_item db c (Some v) = Ok i -> iv i = lookup db v.
Proof.
  intros U H. assert (E : mk_item db c (Some v) = item_init c (Some (lookup db v))) by (destruct (is_usage_cases c U) as [->|[->| ->]]; reflexivity).
  rewrite E in H. destruct (init_val _ _ _ H) as [_ ->]. rewrite lookup_named. reflexivity.
Qed.

Lemma canon_int db c v i : mk_item db c (Some (VInt v)) = Ok i -> canon db i.
Proof.
  intros H E. pose proof (mk_item_class _ _ _ _ H) as C. rewrite E in C. subst c. unfold ival. rewrite (usage_item db Usage (VInt v) i eq_refl H), lookup_named.
  split; [reflexivity|]. intros _. rewrite lookup_int. reflexivity.
Qed.

Lemma canon_lookup db c v i : mk_item db c (Some (lookup db (VInt v))) = Ok i -> canon db i.
Proof.
  intros H E. pose proof (mk_item_class _ _ _ _ H) as C. rewrite E in C. subst c. unfold ival. rewrite (usage_item db Usage _ i eq_refl H).
  assert (L : lookup db (lookup db (VInt v)) = lookup db (VInt v)) by (unfold lookup at 2 3; destruct (negb _); [destruct (db v) as [[? ?]|]|]; reflexivity).
  rewrite L, lookup_named. split; [reflexivity|]. intros _. rewrite lookup_int. reflexivity.
Qed.

Lemma canon_other db c v i : mk_item db c v = Ok i -> c <> Usage -> canon db i.
Proof. intros H N E. pose proof (mk_item_class _ _ _ _ H) as C. congruence. Qed.

Lemma canon_zero db c v i : mk_item db c (Some v) = Ok i -> py_int v = 0 -> canon db i.
Proof.
  intros H Z0 E. pose proof (mk_item_class _ _ _ _ H) as C. rewrite E in C. subst c. unfold ival. rewrite (usage_item db Usage _ i eq_refl H), lookup_named, lookup_int, Z0.
  split; [reflexivity|]. intros X. exfalso. apply X. reflexivity.
Qed.

Lemma parsed_canon n : forall db p b, Forall (canon db) (appended (blob_parse_fuel n db p b)).
Proof.
  induction n as [|n IH]; intros db p b; destruct b as [|h b]; try constructor.
  cbn [blob_parse_fuel]. destruct (parse db _) as [i|] eqn:P; [|constructor].
  assert (C : canon db i).
  { unfold parse in P. destruct (firstn _ _) as [|h' r]; [discriminate|]. destruct (itemclass _ _) as [c|]; [|discriminate].
    match type of P with bind ?r _ = _ => destruct r as [v|]; [|discriminate] end. cbn [bind] in P. exact (canon_int _ _ _ _ P). }
  destruct (parser_append db p i) as [p' [j|]] eqn:A; [|constructor]. cbn [appended]. constructor; [|apply IH].
  unfold parser_append in A. destruct (match ic i with UsagePage => _ | _ => _ end) as [page1 i1] eqn:E.
  assert (C1 : forall k, i1 = Ok k -> canon db k).
  { intros k ->. destruct (ic i); injection E as _ E; try (subst; exact C). apply (canon_other db UsagePage _ _ E). discriminate. }
  destruct i1 as [i2|]; [|discriminate]. specialize (C1 i2 eq_refl).
  destruct (ic i2) eqn:I2; try (injection A as _ <-; exact C1);
  destruct (Z.shiftr (ival i2) 16 =? 0) eqn:SM; try (injection A as _ <-; exact C1);
  injection A as _ A; match type of A with item_init ?c _ = _ => pose proof (A : mk_item db c (Some (inpage db page1 (ival i2))) = Ok j) as B end;
  try (apply (canon_other _ _ _ _ B); discriminate).
  intros _. unfold ival at 1 2. rewrite (usage_item db Usage _ j eq_refl B), lookup_named, lookup_int. split; [reflexivity|]. intros X. exfalso. apply X.
  unfold inpage, Usage.split. set (u := lookup db _). destruct (split_dot (pval_name u)) as [[a z]|]; cbn [snd py_int];
    apply shiftr_small; change 0xffff with (Z.ones 16); rewrite Z.land_ones by lia; lia.
Qed.

Lemma canon_like db db' i i' : (forall z, utype_test db' NAry (Some (VInt z)) = utype_test db NAry (Some (VInt z))) ->
  canon db i -> canon db' i' -> ic i' = ic i -> ival i' = ival i -> ilike db db' i i'.
Proof.
  intros T C C' E V. constructor; [exact E|exact V|]. intros U. destruct (C U) as [A B]. destruct (C' ltac:(congruence)) as [A' B'].
  constructor; [exact V|congruence|]. intros S. fold (ival i) in S. rewrite B by exact S. rewrite B' by (rewrite V; exact S). rewrite V, !test_lookup. apply T.
Qed.

Lemma parse_two db db' it : same_result (fun i j => ic j = ic i /\ ival j = ival i /\ constructed i /\ constructed j) (parse db it) (parse db' it).
Proof.
  unfold parse. destruct it as [|h r]; [reflexivity|]. destruct (itemclass _ _) as [c|]; [|reflexivity]. cbv zeta.
  match goal with |- same_result _ (bind ?r _) _ => destruct r as [v|e]; [|reflexivity] end. cbn [bind].
  assert (G : is_usage c = false -> mk_item db' c (Some (VInt v)) = mk_item db c (Some (VInt v))) by (destruct c; intros H; try discriminate H; reflexivity).
  destruct (is_usage c) eqn:U.
  - assert (X : forall d, mk_item d c (Some (VInt v)) = item_init c (Some (lookup d (VInt v)))) by (intros d; destruct (is_usage_cases c U) as [->|[->| ->]]; reflexivity).
    assert (Y : forall d, item_init c (Some (lookup d (VInt v))) = if (0 <=? v) || signed c then item_init c (Some (lookup d (VInt v))) else item_init c (Some (lookup d (VInt v)))) by (intros d; destruct (_ || _); reflexivity).
    pose proof (item_twin db db' c (Some (VInt v)) (Some (VInt v))) as T.
    assert (S : same_request c (Some (VInt v)) (Some (VInt v))).
    { split; [reflexivity|]. split; [intros ->; discriminate U|]. intros _. right. left. reflexivity. }
    specialize (T S). destruct (mk_item db c _) as [i|e] eqn:A, (mk_item db' c _) as [j|f] eqn:B; cbn [same_result] in *; try contradiction; [|exact T].
    destruct T as [T1 T2 _]. split; [exact T1|]. split; [exact T2|]. split; eapply mk_item_constructed; eassumption.
  - rewrite (G eq_refl). destruct (mk_item db c _) as [i|e] eqn:A; [|reflexivity]. cbn [same_result]. split; [reflexivity|]. split; [reflexivity|]. split; eapply mk_item_constructed; eassumption.
Qed.

Lemma parse_both db db' n : forall p b,
  map cv (appended (blob_parse_fuel n db' p b)) = map cv (appended (blob_parse_fuel n db p b)) /\
  finished (blob_parse_fuel n db' p b) = finished (blob_parse_fuel n db p b).
Proof.
  induction n as [|n IH]; intros p [|h b]; try (split; reflexivity). cbn [blob_parse_fuel].
  pose proof (parse_two db db' (firstn (data_size h) (h :: b))) as T.
  destruct (parse db _) as [i|e], (parse db' _) as [j|f]; cbn [same_result] in T; try contradiction; [|subst; split; reflexivity].
  destruct T as [T1 [T2 [C C']]]. destruct (parser_append_ok db p i C) as [a [A [A1 [A2 _]]]]. destruct (parser_append_ok db' p j C') as [k [K [K1 [K2 _]]]].
  rewrite A, K. rewrite T1, T2. set (p' := match ic i with UsagePage => ival i | _ => p end). cbn [appended finished]. destruct (IH p' (skipn (data_size h) (h :: b))) as [I1 I2].
  split; [|exact I2]. cbn [map]. rewrite I1. f_equal. unfold cv. congruence.
Qed.

Lemma likes db db' l l' : (forall z, utype_test db' NAry (Some (VInt z)) = utype_test db NAry (Some (VInt z))) ->
  Forall (canon db) l -> Forall (canon db') l' -> map cv l' = map cv l -> Forall2 (ilike db db') l l'.
Proof.
  intros T F. revert l'. induction F as [|i l C F IH]; intros [|j l'] F' E; try discriminate E; [constructor|]. inversion F'; subst.
  cbn [map] in E. injection E as E1 E2 E3. constructor; [apply canon_like; auto|apply IH; auto].
Qed.

Lemma c63 db db' blob : (forall z, array_usage db' z <-> array_usage db z) ->
  match decompile db blob, decompile db' blob with
  | Ok t, Ok t' => same_tree t t'
  | Err e, Err e' => e' = e
  | _, _ => False
  end.
Proof.
  intros H. pose proof (types_same db db' H) as T. unfold decompile, blob_parse. cbv zeta. destruct (parse_both db db' (length blob) 0 blob) as [M FI].
  pose proof (run_like db db' T _ _ (likes db db' _ _ T (parsed_canon _ db 0 blob) (parsed_canon _ db' 0 blob) M) _ _ (init_like db db')) as R.
  destruct (x_run db _ _) as [s|e], (x_run db' _ _) as [s'|f]; cbn [same_result] in R; try contradiction; [|symmetry; exact R]. cbn [bind].
  rewrite FI. clear FI. destruct (finished (blob_parse_fuel (length blob) db 0 blob)) as [[]|e]; cbn [bind]; [|reflexivity].
  pose proof (xl_root _ _ _ _ R) as RR. destruct (x_root s), (x_root s'); try contradiction; [exact RR|reflexivity].
Qed.

(* ------------------------------------------------------------------ *)
(** trees with usages by number *)

Fixpoint bare_tree (t : tree) : tree :=
  match t with
  | TValue v => TValue (bare_value v)
  | TReport id ms => TReport id (map bare_tree ms)
  | TTop ms => TTop (map bare_tree ms)
  | TColl k u ms => TColl k (option_map by_number u) (map bare_tree ms)
  end.

Definition bare_leaf (x : leaf) : leaf :=
  match x with
  | LOpen k u => LOpen k (option_map by_number u)
  | LClose => LClose
  | LVal r v => LVal r (bare_value v)
  end.

Lemma by_number_int x : py_int (by_number x) = py_int x.
Proof. unfold by_number. destruct (py_int x =? 0); reflexivity. Qed.

Lemma by_number_truth x : truthy (by_number x) = truthy x.
Proof. unfold by_number. destruct (py_int x =? 0) eqn:E; [reflexivity|]. destruct x as [z| |]; cbn [py_int truthy] in *; rewrite E; reflexivity. Qed.

Lemma bare_list u : usage_list (option_map by_number u) = usage_list u.
Proof. rewrite !usage_list_truth. destruct u as [x|]; [|reflexivity]. cbn [option_map]. rewrite by_number_truth, by_number_int. reflexivity. Qed.

Lemma map_by_number l : map py_int (map by_number l) = map py_int l.
Proof. rewrite map_map. apply map_ext. apply by_number_int. Qed.

Lemma bare_same_array a : same_array a (bare_array a).
Proof. destruct a as [[l|r]|]; cbn; auto. apply map_by_number. Qed.

Lemma bare_rebuilt v : rebuilt v (bare_value v).
Proof. constructor; cbn; try reflexivity; [apply bare_list|apply bare_same_array]. Qed.

Lemma bare_same t : same_tree t (bare_tree t).
Proof.
  assert (G : forall ms, Forall (fun t => same_tree t (bare_tree t)) ms -> same_members ms (map bare_tree ms)).
  { induction 1; constructor; assumption. }
  induction t as [v|id ms IH|ms IH|k u ms IH] using tree_rect2; cbn [bare_tree]; constructor; auto using bare_rebuilt.
  destruct u as [x|]; [|reflexivity]. cbn. rewrite by_number_int. reflexivity.
Qed.

Definition bare_args (a : vargs) : vargs :=
  VArgs (a_way a) (option_map by_number (a_usage a)) (a_size a) (a_flags a) (a_lmin a) (a_lmax a) (a_pmin a) (a_pmax a)
        (bare_array (a_named a)) (a_unit a) (a_uexp a) (a_desig a) (a_str a) (a_count a) (a_align a).

Lemma bare_len a : match a with Some x => match bare_array a with Some y => narr_len y = narr_len x | None => False end | None => bare_array a = None end.
Proof. destruct a as [[l|r]|]; cbn; try reflexivity. rewrite map_length. reflexivity. Qed.

Lemma bare_made k a v : mk_value k a = Ok v -> mk_value k (bare_args a) = Ok (bare_value v).
Proof.
  destruct a as [aw au asz af al1 al2 ap1 ap2 an aun aux ad ast ac aal]. unfold mk_value, bare_args.
  cbn [a_way a_usage a_size a_flags a_lmin a_lmax a_pmin a_pmax a_named a_unit a_uexp a_desig a_str a_count a_align].
  assert (NT : narr_truthy (bare_array an) = narr_truthy an).
  { pose proof (bare_len an) as B. destruct an as [x|]; [|reflexivity]. destruct (bare_array (Some x)); [|contradiction]. unfold narr_truthy. rewrite B. reflexivity. }
  assert (UT : match option_map by_number au with Some u => if truthy u then VNamed "Variable" 2 else VInt 0 | None => VInt 0 end =
               match au with Some u => if truthy u then VNamed "Variable" 2 else VInt 0 | None => VInt 0 end).
  { destruct au as [x|]; [|reflexivity]. cbn [option_map]. rewrite by_number_truth. reflexivity. }
  rewrite NT, UT. destruct (narr_truthy an) as [named|e]; [|discriminate]. cbn [bind]. destruct (_ && _ && _); [discriminate|].
  pose proof (bare_len an) as B.
  destruct (zero_or_none ap1 && zero_or_none ap2);
  destruct an as [x|]; [destruct (bare_array (Some x)) as [y|] eqn:BA; [|contradiction]; rewrite B| |destruct (bare_array (Some x)) as [y|] eqn:BA; [|contradiction]; rewrite B|];
  destruct named; try (destruct (narr_len x) as [n|]; [|discriminate]; cbn [bind]); try (destruct al1; [|discriminate]);
  intros H; injection H as <-; unfold bare_value; cbn; try rewrite <- BA; reflexivity.
Qed.

Lemma bare_wf t : well_formed t -> well_formed (bare_tree t).
Proof.
  assert (G : forall ms, Forall (fun t => well_formed t -> well_formed (bare_tree t)) ms ->
    (fix all ms := match ms with [] => True | m :: r => well_formed m /\ all r end) ms ->
    (fix all ms := match ms with [] => True | m :: r => well_formed m /\ all r end) (map bare_tree ms)).
  { induction 1 as [|m ms H _ IH]; [auto|]. cbn [map]. intros [A B]. split; [apply H; exact A|apply IH; exact B]. }
  induction t as [v|id ms IH|ms IH|k u ms IH] using tree_rect2; cbn [well_formed bare_tree].
  - intros [k [a H]]. exists k, (bare_args a). apply bare_made. exact H.
  - apply G. exact IH.
  - apply G. exact IH.
  - intros [K A]. split; [exact K|]. apply G; assumption.
Qed.

Lemma bare_threaded t : forall r, threaded r (bare_tree t) = (map bare_leaf (fst (threaded r t)), snd (threaded r t)).
Proof.
  assert (G : forall ms, Forall (fun t => forall r, threaded r (bare_tree t) = (map bare_leaf (fst (threaded r t)), snd (threaded r t))) ms ->
    forall r, threaded_all r (map bare_tree ms) = (map bare_leaf (fst (threaded_all r ms)), snd (threaded_all r ms))).
  { induction 1 as [|m ms H _ IH]; intros r; [reflexivity|]. cbn [map threaded_all]. rewrite H. destruct (threaded r m) as [a r1]. cbn [fst snd].
    rewrite IH. destruct (threaded_all r1 ms) as [b r2]. cbn [fst snd]. rewrite map_app. reflexivity. }
  induction t as [v|id ms IH|ms IH|k u ms IH] using tree_rect2; intros r; cbn [bare_tree].
  - reflexivity.
  - rewrite !threaded_report. apply G. exact IH.
  - rewrite !threaded_top. apply G. exact IH.
  - rewrite !threaded_coll, (G ms IH). destruct (threaded_all r ms) as [a r1]. cbn [fst snd map bare_leaf]. rewrite map_app. reflexivity.
Qed.

Definition bare_place (p : place) : place := map (fun y => (fst y, option_map by_number (snd y))) p.

Lemma bare_located ls : forall p, located (bare_place p) (map bare_leaf ls) = map bare (located p ls).
Proof.
  induction ls as [|[k u| |r v] ls IH]; intros p; cbn [map bare_leaf located]; [reflexivity| | |].
  - apply (IH ((k, u) :: p)).
  - rewrite <- (IH (tl p)). f_equal. destruct p; reflexivity.
  - rewrite IH. reflexivity.
Qed.

Lemma bare_real v : real (bare_value v) = real v.
Proof. reflexivity. Qed.

Lemma bare_settled ls : settled ls -> settled (map bare_leaf ls).
Proof.
  intros [a [x [b [-> [C F]]]]]. exists (map bare_leaf a), (bare_leaf x), (map bare_leaf b). rewrite map_app. split; [reflexivity|]. split.
  - destruct x as [k u| |r v]; [exact C|exact C|]. destruct C as [C1 [C2 C3]]. cbn [bare_leaf closing]. split; [exact C1|]. split.
    + rewrite <- C2. unfold is_array, bare_value. cbn [v_named]. destruct (v_named v) as [[l|q]|]; try reflexivity. destruct l; reflexivity.
    + cbn [bare_value v_usage]. rewrite bare_list. exact C3.
  - apply Forall_map. eapply Forall_impl; [|exact F]. intros [k u| |r v] H; exact H.
Qed.

Lemma bare_values ls : real_values (map bare_leaf ls) = map bare (real_values ls).
Proof.
  unfold real_values. change (@nil (pval * option pval)) with (bare_place []) at 1. rewrite bare_located. induction (located [] ls) as [|[[p r] v] q IH]; [reflexivity|].
  cbn [map filter bare]. cbn [snd]. rewrite bare_real. destruct (real v); [cbn [map bare]; rewrite IH; reflexivity|exact IH].
Qed.

Lemma bare_same_value x y : BackSpec.same_value (bare x) y -> BackSpec.same_value x y.
Proof.
  destruct x as [[p r] v], y as [[q s] w]. cbn [bare]. intros [P [R A]]. split; [|split; [exact R|]].
  - clear R A. fold (bare_place p) in P. remember (bare_place p) as bp eqn:E. revert p E. induction P as [|a b bp q H P IH]; intros [|c p] E; try discriminate E; [constructor|].
    cbn [bare_place map] in E. injection E as E1 E2. subst a. constructor; [|apply IH; exact E2]. destruct H as [H1 H2]. cbn [fst snd] in *. split; [exact H1|].
    rewrite <- H2. destruct (snd c); [|reflexivity]. cbn. rewrite by_number_int. reflexivity.
  - assert (AR : is_array (bare_value v) = is_array v).
    { unfold is_array, bare_value. cbn [v_named]. destruct (v_named v) as [[l|z]|]; try reflexivity. destruct l; reflexivity. }
    constructor.
    + exact (sa_way _ _ A).
    + rewrite (sa_usage _ _ A). apply bare_list.
    + exact (sa_size _ _ A).
    + exact (sa_flags _ _ A).
    + exact (sa_lmin _ _ A).
    + exact (sa_lmax _ _ A).
    + intros H. exact (sa_pmin _ _ A ltac:(congruence)).
    + intros H. exact (sa_pmax _ _ A ltac:(congruence)).
    + rewrite (sa_named _ _ A). unfold bare_value. cbn [v_named]. destruct (v_named v) as [[l|z]|]; try reflexivity. cbn. apply map_by_number.
    + exact (sa_unit _ _ A).
    + exact (sa_uexp _ _ A).
    + exact (sa_desig _ _ A).
    + exact (sa_str _ _ A).
    + exact (sa_count _ _ A).
Qed.

(* ------------------------------------------------------------------ *)
(** the items of such a tree *)

Definition canon_req (db : udb) (r : icls * option pval) : Prop :=
  fst r = Usage -> match snd r with None => True | Some v => py_int v = 0 \/ v = VInt (py_int v) \/ v = lookup db (VInt (py_int v)) end.

Lemma canon_items db l o : Forall (canon_req db) l -> mk_items db l = Ok o -> Forall (canon db) o.
Proof.
  intros F. revert o. induction F as [|[c v] l R F IH]; intros o H; cbn [mk_items] in H; [injection H as <-; constructor|].
  destruct (mk_item db c v) as [i|] eqn:E; [|discriminate]. cbn [bind] in H. destruct (mk_items db l) as [is|]; [|discriminate]. injection H as <-.
  constructor; [|apply IH; reflexivity].
  assert (D : c = Usage \/ c <> Usage) by (destruct c; auto; right; discriminate). destruct D as [->|N]; [|exact (canon_other db c v i E N)].
  specialize (R eq_refl). cbn [snd] in R. destruct v as [v|]; [|discriminate E]. destruct R as [Z0|[V|V]].
  - exact (canon_zero db Usage v i E Z0).
  - rewrite V in E. exact (canon_int db Usage _ i E).
  - rewrite V in E. exact (canon_lookup db Usage _ i E).
Qed.

Lemma by_number_req db x : canon_req db (Usage, Some (by_number x)).
Proof. intros _. cbn [snd]. unfold by_number. destruct (py_int x =? 0) eqn:Z0; [left; lia|right; left; reflexivity]. Qed.

Lemma other_req db c v : c <> Usage -> canon_req db (c, v).
Proof. intros N E. contradiction. Qed.

Ltac others := repeat (apply Forall_cons; [apply other_req; discriminate|]); apply Forall_nil.

Lemma bare_reqs db v named c : c <> Usage -> Forall (canon_req db) (value_reqs db (bare_value v) named c).
Proof.
  intros N. unfold value_reqs. cbv zeta.
  assert (US : forall w, Forall (canon_req db) (if usage_truthy (v_usage (bare_value w)) then [(Usage, v_usage (bare_value w))] else [])).
  { intros w. destruct (usage_truthy _); [|constructor]. constructor; [|constructor]. cbn [bare_value v_usage]. destruct (v_usage w) as [x|]; [apply by_number_req|intros _; exact I]. }
  assert (AR : Forall (canon_req db) (map (fun u => (Usage, Some u)) (match v_named (bare_value v) with Some a => narr_iter db a | None => [] end))).
  { cbn [bare_value v_named]. destruct (v_named v) as [[l|r]|]; cbn [bare_array narr_iter]; [| |constructor].
    - rewrite map_map. apply Forall_map. apply Forall_forall. intros x _. apply by_number_req.
    - unfold range_iter. rewrite map_map. apply Forall_map. apply Forall_forall. intros z _ _. cbn [snd]. right. right. rewrite lookup_int. reflexivity. }
  apply Forall_app. split; [|apply Forall_app; split].
  - destruct (negb _); [constructor|]. apply Forall_app. split; [apply US|]. apply Forall_app. split.
    + destruct named.
      * apply Forall_app. split; [others|]. apply Forall_app. split; [|exact AR]. destruct (usage_truthy _); others.
      * destruct (_ && _); others.
    + apply Forall_app. split; [others|]. apply Forall_app. split; destruct (_ =? 0); others.
  - apply Forall_cons; [apply other_req; discriminate|]. apply Forall_cons; [apply other_req; discriminate|]. constructor; [apply other_req; exact N|constructor].
  - destruct (named && _ && _); others.
Qed.

Lemma main_not_usage w c : main_class w = Ok c -> c <> Usage.
Proof. unfold main_class. destruct (itemclass 0 w) as [d|] eqn:E; [|discriminate]. intros H. injection H as <-. intros ->. unfold itemclass in E. apply find_some in E. destruct E as [_ E]. apply andb_true_iff in E. destruct E as [E _]. vm_compute in E. discriminate E. Qed.

Lemma bare_element db v st st' o : element db st (bare_value v) = Ok (st', o) -> Forall (canon db) o.
Proof.
  unfold element. destruct (if 1 <? _ then _ else _) as [pad|]; [|discriminate]. cbn [bind].
  assert (P : forall st1 o1, (if pad =? 0 then Ok (st, []) else
       let* st1 := rs_add st (py_int (v_way (bare_value v))) pad in
       let* c := main_class (py_int (v_way (bare_value v))) in
       let* o := mk_items db [(ReportCount, Some (VInt 1)); (ReportSize, Some (VInt pad)); (c, Some (VInt 3))] in
       Ok (st1, o)) = Ok (st1, o1) -> Forall (canon db) o1).
  { intros st1 o1. destruct (pad =? 0); [intros H; injection H as <- <-; constructor|]. destruct (rs_add _ _ _) as [a|]; [|discriminate]. cbn [bind].
    destruct (main_class _) as [c|] eqn:C; [|discriminate]. cbn [bind]. destruct (mk_items db _) as [p|] eqn:E; [|discriminate]. intros H. injection H as <- <-.
    eapply canon_items; [|exact E]. apply Forall_cons; [apply other_req; discriminate|]. apply Forall_cons; [apply other_req; discriminate|].
    constructor; [apply other_req; exact (main_not_usage _ _ C)|constructor]. }
  destruct (if pad =? 0 then _ else _) as [[st1 o1]|] eqn:E; [|discriminate]. specialize (P st1 o1 eq_refl). clear E. cbn [bind].
  destruct (v_kind (bare_value v)); try (intros H; injection H as <- <-; exact P).
  destruct (narr_truthy _) as [named|]; [|intros X; discriminate X]. cbn [bind]. destruct (rs_add _ _ _) as [a|]; [|discriminate]. cbn [bind].
  destruct (main_class _) as [c|] eqn:C; [|discriminate]. cbn [bind]. destruct (mk_items db (value_reqs _ _ _ _)) as [p|] eqn:M; [|discriminate]. intros H. injection H as <- <-.
  apply Forall_app. split; [exact P|]. eapply canon_items; [|exact M]. apply bare_reqs. exact (main_not_usage _ _ C).
Qed.

Lemma bare_canon db t : forall st st' o, stream_tree db st (bare_tree t) = Ok (st', o) -> Forall (canon db) o.
Proof.
  assert (ALL : forall ms, Forall (fun t => forall st st' o, stream_tree db st (bare_tree t) = Ok (st', o) -> Forall (canon db) o) ms ->
    forall st st' o, stream_members db st (map bare_tree ms) = Ok (st', o) -> Forall (canon db) o).
  { induction 1 as [|m ms H _ IH]; intros st st' o E; cbn [map stream_members] in E.
    - injection E as <- <-. constructor.
    - destruct (stream_tree db st (bare_tree m)) as [[st1 o1]|] eqn:E1; [|discriminate]. cbn [bind] in E.
      destruct (stream_members db st1 _) as [[st2 o2]|] eqn:E2; [|discriminate]. cbn [bind] in E.
      injection E as <- <-. apply Forall_app. split; eauto. }
  induction t as [v|id ms IH|ms IH|k u ms IH] using tree_rect2; intros st st' o H; cbn [bare_tree] in H.
  - eapply bare_element; eauto.
  - rewrite stream_report in H.
    destruct (if id =? 0 then _ else _) as [o0|] eqn:E0; [|discriminate]. cbn [bind] in H.
    destruct (stream_members db _ _) as [[st1 o1]|] eqn:E1; [|discriminate]. cbn [bind] in H.
    injection H as <- <-. apply Forall_app. split; [|eapply ALL; eauto].
    destruct (id =? 0); [injection E0 as <-; constructor|]. eapply canon_items; [|exact E0]. others.
  - rewrite stream_top in H. eapply ALL; eauto.
  - rewrite stream_coll in H.
    destruct (mk_items db [(Usage, _); (Collection, Some k)]) as [o0|] eqn:E0; [|discriminate]. cbn [bind] in H.
    destruct (stream_members db st _) as [[st1 o1]|] eqn:E1; [|discriminate]. cbn [bind] in H.
    destruct (mk_items db [(EndCollection, Some (VInt 0))]) as [o2|] eqn:E2; [|discriminate]. cbn [bind] in H.
    injection H as <- <-. apply Forall_app. split; [|apply Forall_app; split].
    + eapply canon_items; [|exact E0]. apply Forall_cons; [|others]. destruct u as [x|]; [apply by_number_req|intros _; exact I].
    + eapply ALL; eauto.
    + eapply canon_items; [|exact E2]. others.
Qed.

(* ------------------------------------------------------------------ *)
(** same trees have the same values *)

Definition same_leaf (x y : leaf) : Prop :=
  match x, y with
  | LOpen k u, LOpen k' u' => py_int k' = py_int k /\ option_map py_int u' = option_map py_int u
  | LClose, LClose => True
  | LVal r v, LVal s w => s = r /\ rebuilt v w
  | _, _ => False
  end.

Lemma same_leaves t : forall t', same_tree t t' -> forall r, Forall2 same_leaf (scoped r t) (scoped r t').
Proof.
  assert (ALL : forall ms, Forall (fun t => forall t', same_tree t t' -> forall r, Forall2 same_leaf (scoped r t) (scoped r t')) ms ->
    forall ns, same_members ms ns -> forall r, Forall2 same_leaf (flat_map (scoped r) ms) (flat_map (scoped r) ns)).
  { induction 1 as [|m ms H _ IH]; intros ns S r; inversion S; subst; [constructor|]. cbn [flat_map]. apply Forall2_app; auto. }
  induction t as [v|id ms IH|ms IH|k u ms IH] using tree_rect2; intros t' S r; inversion S; subst; cbn [scoped].
  - constructor; [split; [reflexivity|assumption]|constructor].
  - apply ALL; assumption.
  - apply ALL; assumption.
  - constructor; [split; assumption|]. apply Forall2_app; [apply ALL; assumption|]. constructor; [exact I|constructor].
Qed.

Lemma rebuilt_same v w : rebuilt v w -> same_attributes v w /\ real w = real v.
Proof.
  intros R. split.
  - assert (N : array_usages (v_named w) = array_usages (v_named v)).
    { pose proof (rb_named _ _ R) as A. destruct (v_named v) as [[l|r]|], (v_named w) as [[m|q]|]; try contradiction; try reflexivity; cbn in *; [exact A|].
      destruct A as [-> ->]. reflexivity. }
    constructor; try apply R; try exact N; rewrite ?(rb_lmin _ _ R), ?(rb_lmax _ _ R), ?(rb_pmin _ _ R), ?(rb_pmax _ _ R); auto.
  - unfold real. rewrite (rb_kind _ _ R), (rb_flags _ _ R). reflexivity.
Qed.

Lemma same_values ls ls' : Forall2 same_leaf ls ls' -> Forall2 BackSpec.same_value (real_values ls) (real_values ls').
Proof.
  intros F. unfold real_values. assert (P : same_place [] []) by constructor. revert P. generalize (@nil (pval * option pval)) at 1 3 as p. generalize (@nil (pval * option pval)) as q.
  intros q p P. revert p q P. induction F as [|x y ls ls' H F IH]; intros p q P; [constructor|].
  destruct x as [k u| |r v], y as [k' u'| |s w]; try contradiction; cbn [located].
  - apply IH. constructor; [|exact P]. cbn [fst snd]. destruct H as [H1 H2]. split; congruence.
  - apply IH. destruct P; [constructor|assumption].
  - destruct H as [-> R]. destruct (rebuilt_same v w R) as [A RE]. cbn [filter snd]. rewrite RE. destruct (real v); [|apply IH; exact P].
    constructor; [|apply IH; exact P]. split; [exact P|]. split; [reflexivity|exact A].
Qed.

Lemma same_value_trans x y z : BackSpec.same_value x y -> BackSpec.same_value y z -> BackSpec.same_value x z.
Proof.
  destruct x as [[p r] v], y as [[q s] w], z as [[o m] u]. intros [P1 [R1 A1]] [P2 [R2 A2]]. split; [|split; [congruence|]].
  - clear - P1 P2. revert o P2. induction P1 as [|a b p q H P IH]; intros o P2; inversion P2; subst; constructor; [|apply IH; assumption].
    destruct H as [HA HB]. match goal with X : py_int (fst b) = _ /\ _ |- _ => destruct X as [G1 G2] end. split; congruence.
  - assert (AR : is_array w = is_array v) by (unfold is_array; rewrite (sa_named _ _ A1); reflexivity).
    destruct A1 as [a1 a2 a3 a4 a5 a6 a7 a8 a9 a10 a11 a12 a13 a14], A2 as [b1 b2 b3 b4 b5 b6 b7 b8 b9 b10 b11 b12 b13 b14]. constructor; try congruence.
    + intros H. rewrite b7, a7; congruence.
    + intros H. rewrite b8, a8; congruence.
Qed.

Lemma forall2_trans {A} (R : A -> A -> Prop) : (forall x y z, R x y -> R y z -> R x z) -> forall l m n, Forall2 R l m -> Forall2 R m n -> Forall2 R l n.
Proof. intros T l m n F. revert n. induction F; intros n G; inversion G; subst; constructor; eauto. Qed.

(* ------------------------------------------------------------------ *)

Lemma parsed_values db l b : Forall constructed l -> serialize l = Ok b ->
  exists l', blob_parse db b = Run l' (Ok tt) /\ map cv l' = map cv l.
Proof.
  intros C S. destruct (parse_good db 0 b _ (serialize_means l b S) (constructed_zero l C)) as [l' [P [E _]]].
  exists l'. split; [rewrite blob_parse_from; exact P|]. rewrite E. apply wire_cv.
Qed.

Lemma c64 db db' t b : well_formed t -> kinds_ok t -> compile db false t = Ok b ->
  Forall (fun x => restorable db' (bare x)) (located [] (fst (threaded 0 t))) -> settled (fst (threaded 0 t)) ->
  exists t', decompile db' b = Ok t' /\ Forall2 BackSpec.same_value (real_values (fst (threaded 0 t))) (real_values (scoped 0 t')).
Proof.
  intros WF K C RE SE. rewrite <- (c51 db db' false t (bare_tree t) (bare_same t) K) in C. unfold compile in C.
  destruct (stream_items db' (bare_tree t)) as [l|] eqn:S; [|discriminate]. cbn [bind] in C.
  assert (BL : located [] (fst (threaded 0 (bare_tree t))) = map bare (located [] (fst (threaded 0 t)))).
  { rewrite bare_threaded. cbn [fst]. apply (bare_located _ []). }
  destruct (c49 db' (bare_tree t) l (bare_wf t WF) S) as [t1 [X V]].
  - rewrite BL. apply Forall_map. exact RE.
  - rewrite bare_threaded. cbn [fst]. apply bare_settled. exact SE.
  - unfold stream_items in S. destruct (stream_tree db' sst_init (bare_tree t)) as [[st o]|] eqn:ST; [|discriminate]. cbn [bind] in S. injection S as ->.
    destruct (parsed_values db' l b (stream_constructed _ _ _ _ _ ST) C) as [l' [P M]].
    pose proof (parsed_canon (length b) db' 0 b) as PC. fold (blob_parse db' b) in PC. rewrite P in PC. cbn [appended] in PC.
    pose proof (extract_like db' db' ltac:(reflexivity) l l' (likes db' db' l l' ltac:(reflexivity) (bare_canon db' t _ _ _ ST) PC M)) as SR.
    rewrite X in SR. destruct (extract db' l') as [t'|] eqn:X'; [|contradiction]. cbn [same_result] in SR. exists t'. split.
    + unfold decompile. rewrite P. cbn [appended finished]. unfold extract in X'. destruct (x_run db' xst_init l'); [|discriminate]. exact X'.
    + rewrite bare_threaded in V. cbn [fst] in V. rewrite bare_values in V.
      apply (forall2_trans _ same_value_trans _ (real_values (scoped 0 t1))); [|apply same_values, same_leaves; exact SR].
      revert V. generalize (real_values (scoped 0 t1)) as q. induction (real_values (fst (threaded 0 t))) as [|x r IH]; intros q V; inversion V; subst; constructor; [apply bare_same_value; assumption|apply IH; assumption].
Qed.
