(* ExtractBack.v -- decompiling a compiled tree (C49) *)
From Coq Require Import ZifyBool ZifyNat.
From Verif Require Import Py Usage Item Parser Optimizer Descriptor Extractor HidSpec ItemFacts ParserFacts CodecProofs UsageProofs StreamSpec
  PlainHost StreamProofs StreamTree TreeOpt OptSpec ExtractSpec ExtractFacts ExtractView BackSpec.
Ltac Zify.zify_post_hook ::= Z.div_mod_to_equations.

(* ------------------------------------------------------------------ *)
(** the state of the Extractor on plain streams *)

Record look (s : xst) (p : pst) : Prop := {
  lk_g : agree s (p_g p); lk_page : g_page (p_g p) = 0;
  lk_us : map py_int (x_usages s) = p_us p; lk_ds : map py_int (x_designators s) = p_ds p; lk_ss : map py_int (x_strings s) = p_ss p;
  lk_loc : forall c, x_locals s c = None; lk_pos : Forall (fun z => 0 <= z) (p_us p)
}.

Definition same_levels (s s' : xst) : Prop :=
  x_stack s' = x_stack s /\ x_current s' = x_current s /\ x_innamed s' = x_innamed s /\ x_root s' = x_root s.

Lemma same_levels_refl s : same_levels s s.
Proof. repeat split. Qed.
Lemma same_levels_trans a b c : same_levels a b -> same_levels b c -> same_levels a c.
Proof. intros [A1 [A2 [A3 A4]]] [B1 [B2 [B3 B4]]]. repeat split; congruence. Qed.

Definition quiet (c : icls) : bool := plain c && negb (main_tag c).

Lemma look_step db s i p : constructed i -> quiet (ic i) = true -> look s p ->
  exists s', x_append db s i = Ok s' /\ look s' (fst (p_step p (ic i, ival i))) /\ same_levels s s' /\
    x_usages s' = x_usages s ++ (if icls_eqb (ic i) Usage then [iv i] else []).
Proof.
  intros C Q [G PG U D S L PO]. unfold quiet, main_tag in Q. apply andb_true_iff in Q. destruct Q as [Q1 Q2].
  destruct p as [g us ds ss]. cbn [p_g p_us p_ds p_ss] in *.
  unfold x_append, ikd. destruct (kind_of (ic i)) eqn:K.
  - destruct (ic i); try discriminate K; discriminate Q2.
  - eexists. split; [reflexivity|]. split; [|split; [repeat split|]].
    + unfold p_step. assert (HK : hid_kind (ic i) = KGlobal) by (destruct (ic i); try discriminate K; reflexivity). rewrite HK.
      split; cbn [fst p_g p_us p_ds p_ss x_usages x_designators x_strings x_locals]; auto.
      * eapply agree_set; [reflexivity| | |exact K|exact G]; intros E; rewrite E in Q1; discriminate Q1.
      * rewrite g_set_page; [exact PG|]. intros E; rewrite E in Q1; discriminate Q1.
    + cbn [x_usages]. destruct (ic i); try discriminate K; cbn; rewrite app_nil_r; reflexivity.
  - destruct (ic i) eqn:EC; try discriminate K; try discriminate Q1.
    all: eexists; split; [reflexivity|]; split; [|split; [repeat split|cbn; rewrite ?app_nil_r; reflexivity]].
    all: unfold p_step; cbn [hid_kind fst]; split; cbn [fst p_g p_us p_ds p_ss x_usages x_designators x_strings x_locals]; auto.
    all: try (rewrite map_app, ?U, ?D, ?S; reflexivity).
    all: try (eapply agree_globals; [|exact G]; reflexivity).
    + apply Forall_app. split; [exact PO|]. repeat constructor. destruct (constructed_facts i C) as [[F|F] _]; [rewrite EC in F; discriminate F|exact F].
Qed.

Lemma look_run db l : forall s p, Forall constructed l -> Forall (fun i => quiet (ic i) = true) l -> look s p ->
  exists s', x_run db s l = Ok s' /\ look s' (fst (p_run p (map (fun i => (ic i, ival i)) l))) /\ same_levels s s' /\
    x_usages s' = x_usages s ++ flat_map (fun i => if icls_eqb (ic i) Usage then [iv i] else []) l.
Proof.
  induction l as [|i l IH]; intros s p C Q L.
  - exists s. cbn. rewrite app_nil_r. repeat split; auto; apply L.
  - inversion C as [|? ? C1 C2]; subst. inversion Q as [|? ? Q1 Q2]; subst.
    destruct (look_step db s i p C1 Q1 L) as [s1 [E1 [L1 [S1 U1]]]].
    cbn [map p_run x_run]. rewrite E1. cbn [bind]. destruct (p_step p (ic i, ival i)) as [p1 o1]. cbn [fst] in L1.
    destruct (IH s1 p1 C2 Q2 L1) as [s2 [E2 [L2 [S2 U2]]]]. exists s2.
    destruct (p_run p1 _) as [p2 o2]. cbn [fst] in *. split; [exact E2|]. split; [exact L2|]. split; [eapply same_levels_trans; eauto|].
    rewrite U2, U1, <- app_assoc. reflexivity.
Qed.

Lemma expand_none s : (forall c, x_locals s c = None) -> expand_ranges s = s.
Proof. intros H. unfold expand_ranges, expand. rewrite !H. destruct s; reflexivity. Qed.

Lemma look_clear s p s' : look s p -> x_globals s' = x_globals s -> look (locals_clear s') (P (p_g p) [] [] []).
Proof. intros [G PG U D S L PO] E. split; try reflexivity; [eapply agree_globals; [|exact G]; exact E|exact PG|constructor]. Qed.

(** usages, designators and strings seen at a main item *)
Lemma look_usage db s p k : look s p ->
  option_map py_int (x_usage db s k) = nth_last (p_us p) k /\
  usage_list (x_usage db s k) = match nth_last (p_us p) k with Some u => [u] | None => [] end.
Proof.
  intros L. pose proof (lk_us _ _ L) as U. pose proof (lk_pos _ _ L) as PO.
  assert (E1 : option_map py_int (x_usage db s k) = nth_last (p_us p) k).
  { rewrite <- U. rewrite <- (last_repeat_map py_int). unfold x_usage.
    destruct (last_repeat (x_usages s) k) as [u|] eqn:LR; [|reflexivity]. cbn [option_map].
    destruct (negb _); cbn [option_map]; [reflexivity|]. rewrite lookup_int.
    rewrite (ag_page _ _ (lk_g _ _ L)), (lk_page _ _ L). reflexivity. }
  split; [exact E1|]. rewrite <- E1. unfold x_usage.
  destruct (last_repeat (x_usages s) k) as [u|]; [|reflexivity].
  destruct (negb (Z.shiftr (py_int u) 16 =? 0)) eqn:Q.
  - cbn [option_map]. destruct u as [z| |]; try reflexivity. cbn [usage_list py_int] in *. destruct (z =? 0) eqn:Z0; [|reflexivity].
    replace z with 0 in Q by lia. discriminate Q.
  - match goal with |- context [lookup db ?v] => destruct (lookup_usage db v) as [n [z [ks EL]]]; rewrite EL end. reflexivity.
Qed.

Lemma look_named db s p : look s p -> array_usages (Some (named_of_usages db s)) = p_us p.
Proof.
  intros L. unfold named_of_usages. set (l := flat_map _ _).
  assert (E : map py_int l = p_us p).
  { subst l. pose proof (lk_us _ _ L) as U. assert (LEN : length (x_usages s) = length (p_us p)) by (rewrite <- U, map_length; reflexivity). rewrite LEN.
    pose proof (fun k => proj1 (look_usage db s p k L)) as N. set (us := p_us p) in *. clearbody us. clear - N.
    assert (Q : forall k, (k < length us)%nat -> exists u, x_usage db s k = Some u /\ py_int u = nth k us 0).
    { intros k Hk. specialize (N k).
      destruct us as [|a us']; [cbn in Hk; lia|]. change (nth_last (a :: us') k) with (Some (nth k (a :: us') (last (a :: us') a))) in N.
      destruct (x_usage db s k) as [u|]; [|discriminate N]. exists u. split; [reflexivity|].
      cbn [option_map] in N. assert (E' : py_int u = nth k (a :: us') (last (a :: us') a)) by congruence. rewrite E'. apply nth_indep. exact Hk. }
    clear N. assert (G : forall m st, (st + m <= length us)%nat ->
       map py_int (flat_map (fun k => match x_usage db s k with Some u => [u] | None => [] end) (seq st m)) = firstn m (skipn st us)).
    { induction m as [|m IH]; intros st Hm; [reflexivity|]. cbn [seq flat_map]. destruct (Q st ltac:(lia)) as [u [E1 E2]]. rewrite E1. cbn [app map].
      rewrite IH by lia. rewrite E2. clear - Hm. revert us Hm. induction st as [|st IHs]; intros us Hm.
      - destruct us as [|b us]; [cbn in Hm; lia|]. reflexivity.
      - destruct us as [|b us]; [cbn in Hm; lia|]. cbn [skipn nth]. apply IHs. cbn in Hm. lia. }
    rewrite G by lia. cbn [skipn]. apply firstn_all. }
  destruct (from_array l) as [r|e] eqn:F; [|exact E].
  rewrite <- E. rewrite <- (c17_back db l r F). symmetry. apply (narr_iter_ints db (NRange r)).
Qed.

Lemma look_index s g us d st k : look s (P g us (idx d) (idx st)) -> x_designator s k = d /\ x_string s k = st.
Proof.
  intros L. pose proof (lk_ds _ _ L) as D. pose proof (lk_ss _ _ L) as S. cbn [p_ds p_ss] in *.
  assert (H : forall l z, map py_int l = idx z -> match last_repeat l k with None => 0 | Some v => py_int v end = z).
  { intros l z E. pose proof (last_repeat_map py_int l k) as R. rewrite E, nth_last_idx in R. unfold index in R.
    destruct (last_repeat l k) as [v|]; cbn [option_map] in R; destruct (z =? 0) eqn:Q; try discriminate R; try lia. congruence. }
  split; apply H; assumption.
Qed.

(* ------------------------------------------------------------------ *)
(** collections around a data item *)

Definition head_is (db : udb) (l : level) (open : place) : Prop :=
  match lv_head l, open with
  | None, [] => True
  | Some (k, u), (k0, u0) :: _ =>
      py_int k = py_int k0 /\ option_map py_int u = option_map py_int u0 /\
      exists b, utype_test db NAry u = Ok b /\ (b = true <-> nary db u0)
  | _, _ => False
  end.

Lemma nary_in ks : existsb (utype_eqb NAry) ks = true <-> In NAry ks.
Proof.
  rewrite existsb_exists. split.
  - intros [x [I E]]. destruct x; try discriminate E. exact I.
  - intros I. exists NAry. split; [exact I|reflexivity].
Qed.

(** the usage of a collection keeps its type *)
Lemma nary_test db s p i x : look s p -> mk_item db Usage (Some x) = Ok i -> x_usages s = [iv i] ->
  x_usage db s 0 <> None /\ option_map py_int (x_usage db s 0) = Some (py_int x) /\
  exists b, utype_test db NAry (x_usage db s 0) = Ok b /\ (b = true <-> nary db (Some x)).
Proof.
  intros L MI XU. cbn [mk_item lookup_opt bind] in MI. unfold item_init in MI.
  destruct (lookup_usage db x) as [n [z [ks EL]]]. pose proof (lookup_int db x) as LI. rewrite EL in *. cbn [truthy py_int] in *. subst z.
  destruct (signed Usage || (0 <=? py_int x)) eqn:POS; [|discriminate MI]. injection MI as <-. cbn [iv] in XU.
  cbn [signed orb] in POS.
  unfold x_usage, last_repeat. rewrite XU. cbn [length Nat.sub Nat.min nth_error py_int].
  rewrite (ag_page _ _ (lk_g _ _ L)), (lk_page _ _ L). change (Z.lor (Z.shiftl 0 16) (py_int x)) with (py_int x).
  rewrite shiftr_16_zero by lia. destruct (py_int x <? 65536) eqn:SM; cbn [negb].
  - split; [discriminate|]. split; [cbn [option_map]; rewrite lookup_int; reflexivity|].
    exists false. split.
    + assert (LK : lookup db (VInt (py_int x)) = VUsage (hex_of_Z (py_int x)) (py_int x) []).
      { unfold lookup. rewrite shiftr_16_zero by lia. rewrite SM. reflexivity. }
      rewrite LK. reflexivity.
    + split; [discriminate|]. intros NA. unfold nary in NA. destruct x as [y|y1 y2|y1 y2 y3]; cbn [py_int] in *; [destruct NA as [? [? [NA _]]]|destruct NA|destruct NA as [NA _]]; lia.
  - split; [discriminate|]. split; [reflexivity|]. exists (existsb (utype_eqb NAry) ks). split; [reflexivity|]. rewrite nary_in.
    unfold nary. unfold lookup in EL. destruct x as [y|y1 y2|y1 y2 y3]; cbn [py_int] in *.
    + rewrite shiftr_16_zero in EL by lia. rewrite SM in EL. cbn [negb] in EL. destruct (db y) as [[n' ks']|] eqn:DB.
      * injection EL as E1 E2. subst. split; [|intros [n0 [ks0 [_ [E I]]]]; congruence]. intros I. exists n, ks. repeat split; auto. lia.
      * injection EL as E1 E2. subst. split; [intros []|]. intros [n0 [ks0 [_ [E _]]]]. discriminate E.
    + injection EL as E1 E2. subst. split; intros [].
    + injection EL as E1 E2. subst. split; [intros I; split; [lia|exact I]|tauto].
Qed.

Lemma apart_test db s i open : head_is db (x_current s) open -> apart db open (ival i) -> in_named_collection db s i = Ok false.
Proof.
  intros H [k [u [r [-> [N1 N2]]]]]. unfold head_is, in_named_collection in *. destruct (lv_head (x_current s)) as [[k' u']|]; [|destruct H].
  destruct H as [E1 [_ [b [E2 E3]]]]. change fl_Variable with 2.
  destruct ((ival i =? 2) && (py_int k' =? 4)) eqn:Q; [exfalso; apply N1; split; lia|].
  destruct (py_int k' =? 2) eqn:Q2; [|reflexivity]. rewrite E2. destruct b; [|reflexivity]. exfalso. apply N2. split; [lia|tauto].
Qed.

(* ------------------------------------------------------------------ *)
(** the values made at a data item *)

Lemma truthy_of_usages a : array_usages (Some a) <> [] -> narr_truthy (Some a) = Ok true.
Proof.
  unfold narr_truthy. destruct a as [l|r]; cbn [array_usages narr_len bind]; intros N.
  - destruct l as [|x l]; [exfalso; apply N; reflexivity|reflexivity].
  - unfold range_len. destruct (py_int (r_max r) - py_int (r_min r) + 1 <? 0) eqn:Q.
    + exfalso. apply N. apply length_zero_iff_nil. rewrite upto_length. lia.
    + cbn [bind]. f_equal. destruct (py_int (r_max r) - py_int (r_min r) + 1 =? 0) eqn:Q2; [|reflexivity].
      exfalso. apply N. apply length_zero_iff_nil. rewrite upto_length. lia.
Qed.

Lemma named_ok db s g us d st i u : look s (P g us (idx d) (idx st)) -> us <> [] ->
  exists v, named_value db s i u (named_of_usages db s) = Ok v /\
    v_kind v = KValue /\ v_way v = VNamed (tag_name (ic i)) (tag_of (ic i)) /\ v_usage v = u /\ v_size v = g_size g /\
    py_int (v_flags v) = match usage_list u with [] => 0 | _ => 2 end /\
    v_lmin v = Some (g_lmin g) /\ v_lmax v = Some (g_lmin g + Z.of_nat (length us) - 1) /\
    array_usages (v_named v) = us /\ py_int (v_unit v) = 0 /\ v_uexp v = 0 /\ v_desig v = d /\ v_str v = st /\ v_count v = 1.
Proof.
  intros L NE. pose proof (look_named db s _ L) as NL. cbn [p_us] in NL.
  assert (T : narr_truthy (Some (named_of_usages db s)) = Ok true) by (apply truthy_of_usages; congruence).
  assert (OK : exists v, named_value db s i u (named_of_usages db s) = Ok v).
  { unfold named_value, mk_value. cbn [a_named a_lmax a_lmin a_flags orb]. rewrite T. cbn [bind negb andb zero_or_none a_pmin a_pmax].
    destruct (truthy_array _ _ T) as [[X _]|[_ [y [EY [LN _]]]]]; [discriminate X|]. injection EY as <-. rewrite LN. cbn [bind]. eauto. }
  destruct OK as [v HM]. exists v. split; [exact HM|].
  pose proof (mk_value_fields _ _ _ HM) as H. cbn [a_way a_usage a_size a_count a_named a_unit a_uexp a_desig a_str a_lmin] in H.
  destruct H as [K [W [VU [SZ [CT [NA [UN [UE [DE [ST LM]]]]]]]]]].
  assert (NN : ~ no_array (Some (named_of_usages db s))) by (intros Q; apply no_array_usages in Q; congruence).
  destruct (c22_array _ _ _ (named_of_usages db s) HM eq_refl NN) as [lo [L1 [L2 [PO [F1 F2]]]]]. cbn [a_usage] in F1, F2.
  destruct (look_index s _ _ _ _ 0 L) as [D S]. pose proof (lk_g _ _ L) as A. cbn [p_g] in A.
  rewrite (ag_size _ _ A) in SZ. rewrite (ag_lmin _ _ A) in LM. rewrite L1 in LM. injection LM as ->.
  rewrite (array_size_length _ PO), NL in L2.
  repeat split; auto; try congruence.
  - rewrite usage_list_val. destruct u as [[z|n z|n z ks]|]; cbn [truthy]; try (apply F2; split; congruence); [|apply F1; auto].
    destruct (Z.eqb_spec z 0) as [->|N]; cbn [negb]; [apply F1; auto|apply F2; split; congruence].
  - rewrite UN. reflexivity.
Qed.

(** an ordinary value *)
Lemma data_plain db s g us d st i open : look s (P g us (idx d) (idx st)) -> head_is db (x_current s) open ->
  is_constant (ival i) = false -> g_count g = 1 \/ Z.testbit (ival i) 8 = true ->
  (g_count g = 1 -> Z.of_nat (length us) = g_lmax g - g_lmin g + 1 -> apart db open (ival i) /\ ival i <> 0) ->
  exists v, plain_value db s i 0 (g_count g) = Ok v /\ handle_data db s i = Ok (add_value s v).
Proof.
  intros L H C CB SP. destruct (Z.eq_dec (g_count g) 1) as [CT|CT].
  2:{ destruct CB as [CB|CB]; [contradiction|]. pose proof (lk_g _ _ L) as A. cbn [p_g] in A.
      destruct (plain_value_ok db s i 0 (g_count g)) as [v [E _]]. exists v. split; [exact E|].
      unfold handle_data. rewrite odd_land, negb_involutive, C, (ag_count _ _ A).
      replace (g_count g =? 1) with false by lia. cbn [andb bind].
      replace (ival i =? 0) with false by (destruct (Z.eqb_spec (ival i) 0) as [Z0|]; [rewrite Z0 in CB; discriminate CB|reflexivity]). cbn [andb].
      replace (Z.land (ival i) fl_BufferedBytes =? 0) with false; [cbn [negb]; rewrite E; reflexivity|].
      symmetry. apply Z.eqb_neq. intros Z0. apply (f_equal (fun z => Z.testbit z 8)) in Z0. rewrite Z.land_spec, CB in Z0. discriminate Z0. }
  specialize (SP CT). rewrite CT. pose proof (lk_g _ _ L) as A. cbn [p_g] in A. pose proof (lk_us _ _ L) as U. cbn [p_us] in U.
  destruct (plain_value_ok db s i 0 1) as [v [E _]]. exists v. split; [exact E|].
  unfold handle_data. rewrite odd_land, negb_involutive, C, (ag_count _ _ A), CT, (ag_lmax _ _ A), (ag_lmin _ _ A).
  assert (LEN : length (x_usages s) = length us) by (rewrite <- U, map_length; reflexivity). rewrite LEN. change (1 =? 1) with true. cbn [andb].
  destruct (Z.of_nat (length us) =? g_lmax g - g_lmin g + 1) eqn:M.
  - destruct (SP ltac:(lia)) as [AP NZ]. rewrite (apart_test db s i open H AP). cbn [bind].
    replace (ival i =? 0) with false by lia. cbn [andb].
    destruct (negb _); [rewrite E; reflexivity|]. change (Z.to_nat 1) with 1%nat. cbn [seq map add_values]. rewrite E. reflexivity.
  - cbv iota. cbn [bind]. rewrite andb_false_r. cbv iota.
    destruct (negb _); [rewrite E; reflexivity|]. change (Z.to_nat 1) with 1%nat. cbn [seq map add_values]. rewrite E. reflexivity.
Qed.

(** a NamedArray without usage *)
Lemma data_named db s g us d st i open : look s (P g us (idx d) (idx st)) -> head_is db (x_current s) open ->
  ival i = 0 -> g_count g = 1 -> us <> [] -> Z.of_nat (length us) = g_lmax g - g_lmin g + 1 -> apart db open 0 ->
  exists v, named_value db s i None (named_of_usages db s) = Ok v /\ handle_data db s i = Ok (add_value s v).
Proof.
  intros L H F CT NE SP AP. pose proof (lk_g _ _ L) as A. cbn [p_g] in A. pose proof (lk_us _ _ L) as U. cbn [p_us] in U.
  destruct (named_ok db s g us d st i None L NE) as [v [E _]]. exists v. split; [exact E|].
  unfold handle_data. rewrite odd_land, negb_involutive, F, (ag_count _ _ A), CT, (ag_lmax _ _ A), (ag_lmin _ _ A).
  assert (LEN : length (x_usages s) = length us) by (rewrite <- U, map_length; reflexivity). rewrite LEN. change (1 =? 1) with true. cbn [andb].
  replace (Z.of_nat (length us) =? g_lmax g - g_lmin g + 1) with true by lia.
  change (is_constant 0) with false. cbv iota. rewrite (apart_test db s i open H) by (rewrite F; exact AP). cbn [bind andb].
  change (Z.to_nat 1) with 1%nat. cbn [repeat add_values]. rewrite E. reflexivity.
Qed.

(** a NamedArray with a usage, in the collection that stands for it *)
Lemma data_inside db s g us d st i k u p r : look s (P g us (idx d) (idx st)) -> x_current s = Level (Some (k, u)) [] -> x_stack s = p :: r ->
  py_int k = 2 -> utype_test db NAry u = Ok true ->
  ival i = 2 -> g_count g = 1 -> us <> [] -> Z.of_nat (length us) = g_lmax g - g_lmin g + 1 ->
  exists v, named_value db s i u (named_of_usages db s) = Ok v /\
    handle_data db s i = Ok (add_value (set_levels s r p true) v).
Proof.
  intros L CU ST K UT F CT NE SP. pose proof (lk_g _ _ L) as A. cbn [p_g] in A. pose proof (lk_us _ _ L) as U. cbn [p_us] in U.
  destruct (named_ok db s g us d st i u L NE) as [v [E _]]. exists v. split; [exact E|].
  unfold handle_data. rewrite odd_land, negb_involutive, F, (ag_count _ _ A), CT, (ag_lmax _ _ A), (ag_lmin _ _ A).
  assert (LEN : length (x_usages s) = length us) by (rewrite <- U, map_length; reflexivity). rewrite LEN. change (1 =? 1) with true. cbn [andb].
  replace (Z.of_nat (length us) =? g_lmax g - g_lmin g + 1) with true by lia.
  change (is_constant 2) with false. cbv iota.
  assert (IN : in_named_collection db s i = Ok true).
  { unfold in_named_collection. rewrite CU. cbn [lv_head]. rewrite F, K. exact UT. }
  rewrite IN. cbn [bind]. unfold x_leave. rewrite ST. cbn [bind]. rewrite CU. cbn [lv_members lv_head]. rewrite E. cbn [bind].
  destruct p as [h ms]. unfold set_levels. cbn [x_stack x_current lv_head lv_members x_globals x_usages x_strings x_designators x_locals x_innamed x_root].
  rewrite app_nil_r. reflexivity.
Qed.

(* ------------------------------------------------------------------ *)
(** one value *)

Lemma cv_split o : forall a b, map cv o = a ++ b -> exists o1 o2, o = o1 ++ o2 /\ map cv o1 = a /\ map cv o2 = b.
Proof.
  induction o as [|i o IH]; intros [|x a] b E; cbn [map app] in E.
  - exists [], []. auto.
  - discriminate E.
  - exists [], (i :: o). auto.
  - injection E as E1 E2. destruct (IH a b E2) as [o1 [o2 [-> [H1 H2]]]]. exists (i :: o1), o2. cbn [map app]. rewrite H1, E1. auto.
Qed.

Lemma cv_one o c z : map cv o = [(c, z)] -> exists i, o = [i] /\ ic i = c /\ ival i = z.
Proof. destruct o as [|i [|j o]]; intros E; try discriminate E. injection E as E1 E2. exists i. auto. Qed.

Lemma cv_cons i o c z l : map cv (i :: o) = (c, z) :: l -> ic i = c /\ ival i = z /\ map cv o = l.
Proof. cbn [map]. unfold cv at 1. intros E. split; [congruence|]. split; congruence. Qed.

Lemma cv_quiet o l : map cv o = l -> Forall (fun w => quiet (fst w) = true) l -> Forall (fun i => quiet (ic i) = true) o.
Proof. intros <- F. rewrite Forall_map in F. exact F. Qed.

Definition ready (s : xst) (r : Z) : Prop :=
  exists g, look s (P g [] [] []) /\ g_rid g = r /\ x_innamed s = false.

Definition grew (s s' : xst) (new : list etree) : Prop :=
  x_stack s' = x_stack s /\ x_current s' = Level (lv_head (x_current s)) (lv_members (x_current s) ++ new).

Lemma data_append db s p i s2 : look s p -> data_cls (ic i) -> handle_data db s i = Ok s2 ->
  x_append db s i = Ok (locals_clear s2).
Proof.
  intros L D H. unfold x_append, ikd. rewrite (expand_none s (lk_loc _ _ L)).
  destruct D as [E|[E|E]]; rewrite E; cbn [kind_of]; rewrite H; reflexivity.
Qed.

Lemma x_run_one db s i : x_run db s [i] = x_append db s i.
Proof. cbn [x_run]. destruct (x_append db s i); reflexivity. Qed.

(** items without effect on the levels, then a data item *)
Lemma run_data db s g o1 i p1 : Forall constructed o1 -> Forall (fun i => quiet (ic i) = true) o1 -> look s (P g [] [] []) ->
  p_run (P g [] [] []) (map cv o1) = (p1, []) -> data_cls (ic i) ->
  exists s1, look s1 p1 /\ same_levels s s1 /\
    (forall s2, handle_data db s1 i = Ok s2 -> x_run db s (o1 ++ [i]) = Ok (locals_clear s2)).
Proof.
  intros C Q L E D. destruct (look_run db o1 s _ C Q L) as [s1 [E1 [L1 [S1 _]]]]. change (fun i => (ic i, ival i)) with cv in L1. rewrite E in L1. cbn [fst] in L1.
  exists s1. split; [exact L1|]. split; [exact S1|]. intros s2 H. rewrite x_run_app, E1. cbn [bind]. rewrite x_run_one.
  eapply data_append; eauto.
Qed.

Lemma data_quiet d st : Forall (fun w : icls * Z => quiet (fst w) = true) (map (fun z => (DesignatorIndex, z)) (idx d)) /\
  Forall (fun w : icls * Z => quiet (fst w) = true) (map (fun z => (StringIndex, z)) (idx st)).
Proof. unfold idx. destruct (d =? 0), (st =? 0); repeat constructor. Qed.

Lemma mid_quiet v : Forall (fun w => quiet (fst w) = true) (val_mid v ++ [(ReportCount, v_count v); (ReportSize, v_size v)]).
Proof.
  unfold val_mid. destruct (data_quiet (v_desig v) (v_str v)) as [D S]. rewrite !Forall_app. split; [|repeat constructor].
  split; [repeat constructor|]. split; assumption.
Qed.

Lemma usages_quiet l : Forall (fun w => quiet (fst w) = true) (map (fun z : Z => (Usage, z)) l).
Proof. apply Forall_map. apply Forall_forall. reflexivity. Qed.

Lemma run_mid_end pg lm lx pm px ue un sz ri ct us v :
  p_run (P (G pg lm lx pm px ue un sz ri ct) us [] []) (val_mid v ++ [(ReportCount, v_count v); (ReportSize, v_size v)]) =
  (P (G pg (or0 (v_lmin v)) (or0 (v_lmax v)) pm px (v_uexp v) (py_int (v_unit v)) (v_size v) ri (v_count v))
     us (idx (v_desig v)) (idx (v_str v)), []).
Proof. erewrite p_run_quiet by apply run_mid. reflexivity. Qed.

Lemma val_end_split v c : val_end v c = [(ReportCount, v_count v); (ReportSize, v_size v)] ++ [(c, py_int (v_flags v))].
Proof. reflexivity. Qed.

Lemma ready_after s1 p1 s2 v r : look s1 p1 -> x_globals s2 = x_globals s1 -> g_rid (p_g p1) = r -> x_innamed s2 = false ->
  ready (locals_clear (add_value s2 v)) r.
Proof.
  intros L E R N. exists (p_g p1). split; [eapply look_clear; [exact L|exact E]|]. split; [exact R|]. exact N.
Qed.

Lemma grew_after s s1 v r : same_levels s s1 -> gval s1 ReportID = r -> grew s (locals_clear (add_value s1 v)) [EVal v r].
Proof.
  intros [E1 [E2 _]] R. split; [exact E1|]. cbn [locals_clear add_value set_levels x_current]. rewrite E2, R. reflexivity.
Qed.

(** a padding *)
Lemma const_back db s r o n z f c : ready s r -> Forall constructed o -> data_cls c -> is_constant f = true ->
  map cv o = [(ReportCount, n); (ReportSize, z); (c, f)] ->
  exists s' w, x_run db s o = Ok s' /\ ready s' r /\ grew s s' [EVal w r] /\ real w = false /\ x_root s' = x_root s.
Proof.
  intros [g [L [R IN]]] C D F E. change [(ReportCount, n); (ReportSize, z); (c, f)] with ([(ReportCount, n); (ReportSize, z)] ++ [(c, f)]) in E.
  destruct (cv_split _ _ _ E) as [o1 [o2 [-> [E1 E2]]]]. destruct (cv_one _ _ _ E2) as [i [-> [I1 I2]]]. subst c.
  apply Forall_app in C. destruct C as [C1 _].
  assert (Q : Forall (fun i => quiet (ic i) = true) o1) by (eapply cv_quiet; [exact E1|repeat constructor]).
  destruct (run_data db s g o1 i (P (g_set ReportSize z (g_set ReportCount n g)) [] [] []) C1 Q L) as [s1 [L1 [S1 X]]]; [rewrite E1; reflexivity|exact D|].
  assert (R1 : g_rid (g_set ReportSize z (g_set ReportCount n g)) = r) by (rewrite <- R; destruct g; reflexivity).
  assert (RV : gval s1 ReportID = r) by (rewrite (ag_rid _ _ (lk_g _ _ L1)); exact R1).
  assert (MP : exists w, mk_padding (VNamed (tag_name (ic i)) (tag_of (ic i))) (gval s1 ReportSize * gval s1 ReportCount) = Ok w /\ real w = false).
  { unfold mk_padding, mk_value. cbn [a_named narr_truthy bind a_lmax a_lmin a_flags py_int orb andb negb].
    change (Z.land 3 fl_Constant =? 0) with false. cbv iota. cbn [a_pmin a_pmax zero_or_none andb]. eexists. split; [reflexivity|]. reflexivity. }
  destruct MP as [w [MP RW]]. exists (locals_clear (add_value s1 w)), w. split; [|split; [|split; [|split; [exact RW|]]]].
  - apply X. unfold handle_data. rewrite odd_land, negb_involutive, I2, F. rewrite MP. reflexivity.
  - eapply ready_after; [exact L1|reflexivity|exact R1|]. destruct S1 as [_ [_ [S1 _]]]. cbn. congruence.
  - apply grew_after; assumption.
  - destruct S1 as [_ [_ [_ S1]]]. exact S1.
Qed.

Definition root_set (s : xst) : Prop :=
  x_root s = Some (TTop (report_insert_members (lv_members (x_current s)) None)).

Definition came_back (db : udb) (s s' : xst) (r : Z) (v : value) (w : value) : Prop :=
  ready s' r /\ grew s s' [EVal w r] /\ real w = real v /\ (real v = true -> same_attributes v w) /\
  (~ closing (LVal r v) -> x_root s' = x_root s) /\ (closing (LVal r v) -> x_stack s = [] -> root_set s').

Lemma tag_way z : z = 8 \/ z = 9 \/ z = 11 -> tag_of (way_class z) = z.
Proof. intros [->|[->| ->]]; reflexivity. Qed.

Lemma real_data v : v_kind v = KValue -> is_constant (py_int (v_flags v)) = false -> real v = true.
Proof. intros K C. unfold real. rewrite K, C. reflexivity. Qed.

(** an ordinary value *)
Lemma plain_back db v s r open o :
  made v -> v_kind v = KValue -> is_constant (py_int (v_flags v)) = false -> is_array v = false ->
  (py_int (v_way v) = 8 \/ py_int (v_way v) = 9 \/ py_int (v_way v) = 11) ->
  mk_items db (value_reqs db v (is_array v) (way_class (py_int (v_way v)))) = Ok o ->
  restorable db (open, r, v) -> ready s r -> head_is db (x_current s) open ->
  exists s' w, x_run db s o = Ok s' /\ came_back db s s' r v w.
Proof.
  intros M K C A W MI RE [g [L [R IN]]] H. set (c := way_class (py_int (v_way v))) in *.
  assert (D : data_cls c) by (destruct W as [E|[E|E]]; unfold c; rewrite E; unfold data_cls; auto).
  assert (NC : c <> Collection) by (destruct D as [E|[E|E]]; rewrite E; discriminate).
  pose proof (mk_items_cv _ _ _ (value_reqs_ok db v c NC) MI) as CV. rewrite reqs_data in CV by exact C. rewrite A in CV.
  pose proof (real_data v K C) as RV. destruct (RE RV) as [CT SP]. rewrite A in SP. assert (CB : v_count v = 1 \/ Z.testbit (py_int (v_flags v)) 8 = true) by tauto. clear CT.
  destruct (proj2 (made_facts v M C) A) as [lo [hi [p [q [L1 [L2 [P1 [P2 PZ]]]]]]]].
  assert (TW : tag_of c = py_int (v_way v)) by (apply tag_way; exact W). clearbody c.
  rewrite L1, L2, P1, P2 in CV. cbn [opt_Z_eqb or0] in CV.
  set (ph := if (p =? lo) && (q =? hi) then [(PhysicalMinimum, 0); (PhysicalMaximum, 0)] else [(PhysicalMinimum, p); (PhysicalMaximum, q)]) in CV.
  rewrite val_end_split, app_nil_r in CV.
  rewrite !app_assoc in CV. apply cv_split in CV. destruct CV as [o1 [o2 [-> [E1 E2]]]]. apply cv_one in E2. destruct E2 as [i [-> [I1 I2]]].
  rewrite <- !app_assoc in E1.
  pose proof (mk_items_constructed _ _ _ MI) as CO. apply Forall_app in CO. destruct CO as [CO _].
  assert (Q : Forall (fun i => quiet (ic i) = true) o1).
  { eapply cv_quiet; [exact E1|]. apply Forall_app. split; [apply usages_quiet|]. apply Forall_app. split; [|apply mid_quiet].
    unfold ph. destruct (_ && _); repeat constructor. }
  set (pm := if (p =? lo) && (q =? hi) then 0 else p). set (px := if (p =? lo) && (q =? hi) then 0 else q).
  set (g1 := G (g_page g) lo hi pm px (v_uexp v) (py_int (v_unit v)) (v_size v) r (v_count v)).
  set (us := usage_list (v_usage v)) in *.
  destruct (run_data db s g o1 i (P g1 us (idx (v_desig v)) (idx (v_str v))) CO Q L) as [s1 [LK [SL X]]].
  { rewrite E1. erewrite p_run_quiet by apply p_usages. cbn [app].
    erewrite (p_run_quiet _ ph _ (P (g_set PhysicalMaximum px (g_set PhysicalMinimum pm g)) us [] [])).
    2:{ unfold ph, pm, px. destruct (_ && _); reflexivity. }
    destruct g as [pg lm lx pm' px' ue un sz ri ct]. cbn [g_set]. rewrite run_mid_end. rewrite L1, L2. cbn [or0 g_rid g_page] in *. unfold g1. cbn [g_page]. rewrite R. reflexivity. }
  { rewrite I1. exact D. }
  assert (H1 : head_is db (x_current s1) open) by (destruct SL as [_ [-> _]]; exact H).
  destruct (data_plain db s1 g1 us (v_desig v) (v_str v) i open LK H1) as [w [EW HD]].
  { rewrite I2. exact C. }
  { rewrite I2. exact CB. }
  { cbn [g1 g_lmin g_lmax g_count]. rewrite I2. rewrite L1, L2 in SP. cbn [or0] in SP. exact SP. }
  assert (RID : gval s1 ReportID = r) by (rewrite (ag_rid _ _ (lk_g _ _ LK)); reflexivity).
  exists (locals_clear (add_value s1 w)), w. split; [apply X; exact HD|].
  destruct (plain_value_ok db s1 i 0 (v_count v)) as [w' [EW' [KW [WW [UW [SW [FW [LMW [LXW [NW [UNW [UEW [DEW [STW [CTW PHW]]]]]]]]]]]]]]].
  cbn [g1 g_count] in EW. assert (w' = w) by congruence. subst w'. clear EW'.
  pose proof (lk_g _ _ LK) as AG. cbn [p_g] in AG. destruct (look_index _ _ _ _ _ 0 LK) as [DX SX].
  unfold came_back. split; [|split; [|split; [|split; [|split]]]].
  - eapply ready_after; [exact LK|reflexivity|reflexivity|]. destruct SL as [_ [_ [SL _]]]. congruence.
  - apply grew_after; assumption.
  - unfold real. rewrite KW, K, FW. fold (ival i). rewrite I2. reflexivity.
  - intros _. split.
    + rewrite WW. cbn [py_int]. rewrite I1. exact TW.
    + rewrite UW. destruct (look_usage db s1 _ 0 LK) as [_ ->]. cbn [p_us]. fold us.
      destruct (usage_list_cases (v_usage v)) as [U|[z U]]; fold us in U; rewrite U; reflexivity.
    + rewrite SW. apply (ag_size _ _ AG).
    + rewrite FW. exact I2.
    + rewrite LMW, L1. cbn [or0]. apply (ag_lmin _ _ AG).
    + rewrite LXW, L2. cbn [or0]. apply (ag_lmax _ _ AG).
    + intros _. assert (PHE : (or0 (v_pmin w), or0 (v_pmax w)) = (p, q)).
      { rewrite PHW, (ag_pmin _ _ AG), (ag_pmax _ _ AG), (ag_lmin _ _ AG), (ag_lmax _ _ AG). cbn [g1 g_pmin g_pmax g_lmin g_lmax].
        unfold effective, pm, px. destruct ((p =? lo) && (q =? hi)) eqn:Q1; [cbn [Z.eqb andb]; f_equal; lia|].
        destruct ((p =? 0) && (q =? 0)) eqn:Q2; [|reflexivity]. destruct PZ; [lia|]. f_equal; lia. }
      rewrite P1. cbn [or0]. congruence.
    + intros _. assert (PHE : (or0 (v_pmin w), or0 (v_pmax w)) = (p, q)).
      { rewrite PHW, (ag_pmin _ _ AG), (ag_pmax _ _ AG), (ag_lmin _ _ AG), (ag_lmax _ _ AG). cbn [g1 g_pmin g_pmax g_lmin g_lmax].
        unfold effective, pm, px. destruct ((p =? lo) && (q =? hi)) eqn:Q1; [cbn [Z.eqb andb]; f_equal; lia|].
        destruct ((p =? 0) && (q =? 0)) eqn:Q2; [|reflexivity]. destruct PZ; [lia|]. f_equal; lia. }
      rewrite P2. cbn [or0]. congruence.
    + rewrite NW. cbn [array_usages]. unfold is_array in A. destruct (array_usages (v_named v)); [reflexivity|discriminate A].
    + rewrite UNW. exact (ag_unit _ _ AG).
    + rewrite UEW. apply (ag_uexp _ _ AG).
    + rewrite DEW. exact DX.
    + rewrite STW. exact SX.
    + exact CTW.
  - intros _. destruct SL as [_ [_ [_ SL]]]. exact SL.
  - intros [_ [A' _]]. congruence.
Qed.

Lemma way_not_coll z : way_class z <> Collection.
Proof. unfold way_class. destruct (z =? 8); [discriminate|]. destruct (z =? 9); discriminate. Qed.

Lemma way_data z : data_cls (way_class z).
Proof. unfold way_class, data_cls. destruct (z =? 8); [auto|]. destruct (z =? 9); auto. Qed.

(** attributes of the value made by [named_ok] *)
Lemma named_same db s g d st i v u w :
  look s (P g (array_usages (v_named v)) (idx d) (idx st)) -> array_usages (v_named v) <> [] ->
  named_value db s i u (named_of_usages db s) = Ok w -> made v -> v_kind v = KValue -> is_constant (py_int (v_flags v)) = false -> is_array v = true ->
  (py_int (v_way v) = 8 \/ py_int (v_way v) = 9 \/ py_int (v_way v) = 11) ->
  ic i = way_class (py_int (v_way v)) -> usage_list u = usage_list (v_usage v) ->
  g_size g = v_size v -> g_lmin g = or0 (v_lmin v) -> d = v_desig v -> st = v_str v ->
  py_int (v_unit v) = 0 -> v_uexp v = 0 -> v_count v = 1 ->
  real w = real v /\ same_attributes v w.
Proof.
  intros L NE EW M K C A W I1 UU SZ LM DD SS U0 E0 CT.
  destruct (named_ok db s g _ d st i u L NE) as [w' [EW' [KW [WW [UW [SW [FW [LMW [LXW [NW [UNW [UEW [DEW [STW CTW]]]]]]]]]]]]]].
  assert (w' = w) by congruence. subst w'. clear EW'.
  destruct (proj1 (made_facts v M C) A) as [lo [L1 [L2 F]]].
  assert (FL : py_int (v_flags w) = py_int (v_flags v)) by (rewrite FW, F, UU; reflexivity).
  split; [unfold real; rewrite KW, K, FL; reflexivity|]. rewrite L1 in LM. cbn [or0] in LM.
  split; try congruence.
  - rewrite WW, I1. cbn [py_int]. apply tag_way. exact W.
Qed.

(** a NamedArray without usage *)
Lemma array_back db v s r open o :
  made v -> v_kind v = KValue -> is_constant (py_int (v_flags v)) = false -> is_array v = true -> usage_list (v_usage v) = [] ->
  (py_int (v_way v) = 8 \/ py_int (v_way v) = 9 \/ py_int (v_way v) = 11) ->
  mk_items db (value_reqs db v (is_array v) (way_class (py_int (v_way v)))) = Ok o ->
  restorable db (open, r, v) -> ready s r -> head_is db (x_current s) open ->
  exists s' w, x_run db s o = Ok s' /\ came_back db s s' r v w.
Proof.
  intros M K C A NU W MI RE [g [L [R IN]]] H.
  pose proof (mk_items_cv _ _ _ (value_reqs_ok db v _ (way_not_coll _)) MI) as CV. rewrite reqs_data in CV by exact C. rewrite A, NU in CV. cbn [map app] in CV.
  pose proof (real_data v K C) as RV. destruct (RE RV) as [[CT|[A' _]] SP]; [|congruence]. rewrite A, NU in SP. destruct SP as [U0 [E0 AP]].
  destruct (proj1 (made_facts v M C) A) as [lo [L1 [L2 F]]]. rewrite NU in F.
  pose proof (way_data (py_int (v_way v))) as D.
  set (us := array_usages (v_named v)) in *.
  assert (NE : us <> []) by (unfold is_array in A; fold us in A; destruct us; [discriminate A|discriminate]).
  rewrite val_end_split, app_nil_r in CV.
  change ((PhysicalMinimum, 0) :: (PhysicalMaximum, 0) :: ?x) with ([(PhysicalMinimum, 0); (PhysicalMaximum, 0)] ++ x) in CV.
  rewrite !app_assoc in CV. apply cv_split in CV. destruct CV as [o1 [o2 [-> [E1 E2]]]]. apply cv_one in E2. destruct E2 as [i [-> [I1 I2]]].
  rewrite <- !app_assoc in E1.
  pose proof (mk_items_constructed _ _ _ MI) as CO. apply Forall_app in CO. destruct CO as [CO _].
  assert (Q : Forall (fun i => quiet (ic i) = true) o1).
  { eapply cv_quiet; [exact E1|]. apply Forall_app. split; [repeat constructor|]. apply Forall_app. split; [apply usages_quiet|apply mid_quiet]. }
  set (g1 := G (g_page g) lo (lo + Z.of_nat (length us) - 1) 0 0 (v_uexp v) (py_int (v_unit v)) (v_size v) r 1).
  destruct (run_data db s g o1 i (P g1 us (idx (v_desig v)) (idx (v_str v))) CO Q L) as [s1 [LK [SL X]]].
  { rewrite E1. rewrite (p_run_quiet _ [(PhysicalMinimum, 0); (PhysicalMaximum, 0)] _ (P (g_set PhysicalMaximum 0 (g_set PhysicalMinimum 0 g)) [] [] [])) by reflexivity.
    erewrite p_run_quiet by apply p_usages. cbn [app].
    destruct g as [pg lm lx pm' px' ue un sz ri ct]. cbn [g_set]. rewrite run_mid_end. rewrite L1, L2, CT. cbn [or0 g_rid g_page] in *. unfold g1. cbn [g_page]. rewrite R. reflexivity. }
  { rewrite I1. exact D. }
  assert (H1 : head_is db (x_current s1) open) by (destruct SL as [_ [-> _]]; exact H).
  destruct (data_named db s1 g1 us (v_desig v) (v_str v) i open LK H1) as [w [EW HD]]; try reflexivity.
  { congruence. }
  { exact NE. }
  { cbn [g1 g_lmin g_lmax]. lia. }
  { rewrite F in AP. exact AP. }
  assert (RID : gval s1 ReportID = r) by (rewrite (ag_rid _ _ (lk_g _ _ LK)); reflexivity).
  exists (locals_clear (add_value s1 w)), w. split; [apply X; exact HD|].
  destruct (named_same db s1 g1 (v_desig v) (v_str v) i v None w LK NE EW M K C A W I1) as [RW SA]; auto.
  { rewrite L1. reflexivity. }
  unfold came_back. split; [|split; [|split; [exact RW|split; [intros _; exact SA|split]]]].
  - eapply ready_after; [exact LK|reflexivity|reflexivity|]. destruct SL as [_ [_ [SL _]]]. congruence.
  - apply grew_after; assumption.
  - intros _. destruct SL as [_ [_ [_ SL]]]. exact SL.
  - intros [_ [_ A']]. congruence.
Qed.

(** the head of a stream of requests *)
Lemma mk_items_cons db c x rest o : mk_items db ((c, x) :: rest) = Ok o ->
  exists i o', o = i :: o' /\ mk_item db c x = Ok i /\ mk_items db rest = Ok o'.
Proof.
  cbn [mk_items]. destruct (mk_item db c x) as [i|]; [|discriminate]. cbn [bind].
  destruct (mk_items db rest) as [o'|]; [|discriminate]. cbn [bind]. intros H. injection H as <-. eauto.
Qed.

(** a NamedArray with a usage *)
Lemma coll_array_back db v s r open o u0 :
  made v -> v_kind v = KValue -> is_constant (py_int (v_flags v)) = false -> is_array v = true -> usage_list (v_usage v) = [u0] ->
  (py_int (v_way v) = 8 \/ py_int (v_way v) = 9 \/ py_int (v_way v) = 11) ->
  mk_items db (value_reqs db v (is_array v) (way_class (py_int (v_way v)))) = Ok o ->
  restorable db (open, r, v) -> ready s r ->
  exists s' w, x_run db s o = Ok s' /\ came_back db s s' r v w.
Proof.
  intros M K C A NU W MI RE [g [L [R IN]]]. subst r.
  pose proof (mk_items_cv _ _ _ (value_reqs_ok db v _ (way_not_coll _)) MI) as CV. rewrite reqs_data in CV by exact C. rewrite A, NU in CV. cbn [map app] in CV.
  pose proof (real_data v K C) as RV. destruct (RE RV) as [[CT|[A' _]] SP]; [|congruence]. rewrite A, NU in SP. destruct SP as [U0 [E0 NA]].
  destruct (proj1 (made_facts v M C) A) as [lo [L1 [L2 F]]]. rewrite NU in F.
  pose proof (way_data (py_int (v_way v))) as D.
  set (us := array_usages (v_named v)) in *.
  assert (NE : us <> []) by (unfold is_array in A; fold us in A; destruct us; [discriminate A|discriminate]).
  pose proof (mk_items_constructed _ _ _ MI) as CO.
  (* the first item carries the usage itself *)
  assert (UH : exists x, v_usage v = Some x /\ usage_truthy (v_usage v) = true /\ py_int x = u0).
  { unfold usage_truthy. rewrite usage_list_truthy, NU. rewrite usage_list_val in NU. destruct (v_usage v) as [x|]; [|discriminate NU].
    exists x. split; [reflexivity|]. split; [reflexivity|]. destruct (truthy x); [congruence|discriminate NU]. }
  destruct UH as [x [VU [UT PX]]].
  assert (FI : exists i0 o', o = i0 :: o' /\ mk_item db Usage (Some x) = Ok i0).
  { unfold value_reqs in MI. rewrite land_1_odd in MI. unfold is_constant in C. rewrite <- Z.negb_odd, C in MI. cbn [negb] in MI. rewrite UT in MI. cbn [app] in MI.
    apply mk_items_cons in MI. destruct MI as [i0 [o' [-> [MI _]]]]. rewrite VU in MI. eauto. }
  destruct FI as [i0 [o' [-> MI0]]]. apply cv_cons in CV. destruct CV as [IC0 [IV0 CV]]. pose proof (Forall_inv CO) as CO0. pose proof (Forall_inv_tail CO) as CO'.
  (* the collection *)
  change ((PhysicalMinimum, 0) :: (PhysicalMaximum, 0) :: (Collection, 2) :: ?y) with ([(PhysicalMinimum, 0); (PhysicalMaximum, 0)] ++ [(Collection, 2)] ++ y) in CV.
  apply cv_split in CV. destruct CV as [oa [o1 [-> [EA CV]]]]. apply cv_split in CV. destruct CV as [ob [o2 [-> [EB CV]]]].
  apply cv_one in EB. destruct EB as [ib [-> [IB1 IB2]]].
  rewrite val_end_split in CV. rewrite !app_assoc in CV. apply cv_split in CV. destruct CV as [o3 [oe [-> [E1 E2]]]].
  apply cv_one in E2. destruct E2 as [ie [-> [IE1 IE2]]].
  apply cv_split in E1. destruct E1 as [o4 [od [-> [E1 E2]]]]. apply cv_one in E2. destruct E2 as [i [-> [I1 I2]]].
  rewrite <- !app_assoc in E1. rewrite !Forall_app in CO'. destruct CO' as [COA [COB [[CO4 CO5] CO6]]].
  assert (QA : Forall (fun i => quiet (ic i) = true) (i0 :: oa)).
  { constructor; [rewrite IC0; reflexivity|]. eapply cv_quiet; [exact EA|repeat constructor]. }
  destruct (look_run db (i0 :: oa) s _ (Forall_cons _ CO0 COA) QA L) as [sa [RA [LA [SA UA]]]].
  change (fun i => (ic i, ival i)) with cv in LA. cbn [map] in LA. rewrite EA in LA. unfold cv at 1 in LA. rewrite IC0, IV0 in LA.
  cbn [p_run p_step hid_kind p_g p_us p_ds p_ss g_set fst] in LA.
  assert (UAS : x_usages sa = [iv i0]).
  { rewrite UA. cbn [flat_map]. rewrite IC0. cbn [icls_eqb]. pose proof (lk_us _ _ L) as LU. cbn [p_us] in LU. destruct (x_usages s); [|discriminate LU]. cbn [app].
    destruct oa as [|j1 [|j2 [|j3 oa]]]; try discriminate EA. injection EA as EJ1 _ EJ2 _. cbn [flat_map]. rewrite EJ1, EJ2. reflexivity. }
  destruct (nary_test db sa _ i0 x LA MI0 UAS) as [NN [PI [b [TB NB]]]].
  assert (b = true) by (apply NB; rewrite <- VU; exact NA). subst b.
  (* entering *)
  pose (sb := locals_clear (x_enter sa (iv ib) (x_usage db sa 0))).
  assert (RB : x_append db sa ib = Ok sb).
  { unfold x_append, ikd. rewrite IB1. cbn [kind_of]. rewrite (expand_none sa (lk_loc _ _ LA)). reflexivity. }
  assert (LB : look sb (P (g_set PhysicalMaximum 0 (g_set PhysicalMinimum 0 g)) [] [] [])) by (exact (look_clear sa _ (x_enter sa (iv ib) (x_usage db sa 0)) LA eq_refl)).
  assert (Q4 : Forall (fun i => quiet (ic i) = true) o4).
  { eapply cv_quiet; [exact E1|]. apply Forall_app. split; [apply usages_quiet|apply mid_quiet]. }
  set (g1 := G (g_page g) lo (lo + Z.of_nat (length us) - 1) 0 0 (v_uexp v) (py_int (v_unit v)) (v_size v) (g_rid g) 1).
  destruct (run_data db sb _ o4 i (P g1 us (idx (v_desig v)) (idx (v_str v))) CO4 Q4 LB) as [s1 [LK [SL X]]].
  { rewrite E1. erewrite p_run_quiet by apply p_usages. cbn [app].
    destruct g as [pg lm lx pm' px' ue un sz ri ct]. cbn [g_set]. rewrite run_mid_end. rewrite L1, L2, CT. reflexivity. }
  { rewrite I1. exact D. }
  destruct SA as [SA1 [SA2 [SA3 SA4]]]. destruct SL as [SL1 [SL2 [SL3 SL4]]].
  destruct (data_inside db s1 g1 us (v_desig v) (v_str v) i (iv ib) (x_usage db sa 0) (x_current sa) (x_stack sa) LK) as [w [EW HD]]; try reflexivity.
  { rewrite SL2. reflexivity. }
  { rewrite SL1. reflexivity. }
  { exact IB2. }
  { exact TB. }
  { congruence. }
  { exact NE. }
  { cbn [g1 g_lmin g_lmax]. lia. }
  specialize (X _ HD).
  destruct (named_same db s1 g1 (v_desig v) (v_str v) i v (x_usage db sa 0) w LK NE EW M K C A W I1) as [RW SAM]; auto.
  { destruct (look_usage db sa _ 0 LA) as [_ ->]. cbn [p_us app]. rewrite NU, <- PX. reflexivity. }
  { rewrite L1. reflexivity. }
  (* leaving *)
  set (s2 := locals_clear (add_value (set_levels s1 (x_stack sa) (x_current sa) true) w)) in *.
  assert (L2' : look s2 (P g1 [] [] [])) by (exact (look_clear s1 _ (add_value (set_levels s1 (x_stack sa) (x_current sa) true) w) LK eq_refl)).
  pose (s3 := set_levels s2 (x_stack s2) (x_current s2) false).
  pose (s4 := locals_clear (match x_stack s3 with [] => x_ended s3 | _ => s3 end)).
  assert (RE4 : x_append db s2 ie = Ok s4).
  { unfold x_append, ikd. rewrite IE1. cbn [kind_of]. rewrite (expand_none s2 (lk_loc _ _ L2')). change (x_innamed s2) with true. cbv iota. cbn [bind]. reflexivity. }
  assert (GV : x_globals s4 = x_globals s2) by (unfold s4; destruct (x_stack s3); reflexivity).
  assert (RID : gval s1 ReportID = g_rid g) by (rewrite (ag_rid _ _ (lk_g _ _ LK)); reflexivity).
  assert (CUR : x_current s4 = Level (lv_head (x_current s)) (lv_members (x_current s) ++ [EVal w (g_rid g)]) /\ x_stack s4 = x_stack s).
  { assert (Q : x_current s4 = x_current s2 /\ x_stack s4 = x_stack s2) by (unfold s4; destruct (x_stack s3) eqn:ES; split; try reflexivity; exact ES).
    destruct Q as [-> ->]. unfold s2. cbn [locals_clear add_value set_levels x_current x_stack].
    unfold gval. cbn [set_levels x_globals]. fold (gval s1 ReportID). rewrite RID, SA1, SA2. auto. }
  exists s4, w. split.
  { rewrite app_comm_cons, x_run_app, RA. cbn [bind]. cbn [x_run app]. rewrite RB. cbn [bind]. rewrite x_run_app, X. cbn [bind]. rewrite x_run_one. exact RE4. }
  unfold came_back. split; [|split; [|split; [exact RW|split; [intros _; exact SAM|split]]]].
  - exists g1. split; [apply (look_clear s2 (P g1 [] [] []) (match x_stack s3 with [] => x_ended s3 | _ => s3 end)); [exact L2'|exact GV]|]. split; [reflexivity|].
    unfold s4. destruct (x_stack s3); reflexivity.
  - split; [apply CUR|apply CUR].
  - intros NCL. exfalso. apply NCL. split; [exact RV|]. split; [exact A|]. rewrite NU. discriminate.
  - intros _ ST. unfold root_set. destruct CUR as [_ CS]. rewrite ST in CS. unfold s4 in *.
    destruct (x_stack s3) eqn:ES; [reflexivity|]. cbn [locals_clear x_stack] in CS. congruence.
Qed.

Lemma value_back db v s r open o :
  made v -> v_kind v = KValue ->
  (py_int (v_way v) = 8 \/ py_int (v_way v) = 9 \/ py_int (v_way v) = 11) ->
  mk_items db (value_reqs db v (is_array v) (way_class (py_int (v_way v)))) = Ok o ->
  restorable db (open, r, v) -> ready s r -> head_is db (x_current s) open ->
  exists s' w, x_run db s o = Ok s' /\ came_back db s s' r v w.
Proof.
  intros M K W MI RE RY H. destruct (is_constant (py_int (v_flags v))) eqn:C.
  - pose proof (mk_items_cv _ _ _ (value_reqs_ok db v _ (way_not_coll _)) MI) as CV. rewrite reqs_const in CV by exact C.
    assert (RV : real v = false) by (unfold real; rewrite K, C; reflexivity).
    destruct (const_back db s r o _ _ _ _ RY (mk_items_constructed _ _ _ MI) (way_data _) C CV) as [s' [w [X [R1 [G1 [RW RT]]]]]].
    exists s', w. split; [exact X|]. unfold came_back. split; [exact R1|]. split; [exact G1|]. split; [congruence|].
    split; [congruence|]. split; [auto|]. intros [RV' _]. congruence.
  - destruct (is_array v) eqn:A; [|rewrite <- A in MI; eapply plain_back; eauto]. rewrite <- A in MI.
    destruct (usage_list_cases (v_usage v)) as [U|[u U]]; [eapply array_back; eauto|eapply coll_array_back; eauto].
Qed.

(* ------------------------------------------------------------------ *)
(** whole trees *)

Definition keep (x : place * Z * value) : bool := real (snd x).
Definition flat (ls : list leaf) : Prop := forall open rest, located open (ls ++ rest) = located open ls ++ located open rest.

Lemma flat_nil : flat [].
Proof. intros open rest. reflexivity. Qed.
Lemma flat_val r v : flat [LVal r v].
Proof. intros open rest. reflexivity. Qed.
Lemma flat_app a b : flat a -> flat b -> flat (a ++ b).
Proof. intros A B open rest. rewrite <- app_assoc, A, B, (A open b), app_assoc. reflexivity. Qed.
Lemma located_coll open k u ls : flat ls -> located open (LOpen k u :: ls ++ [LClose]) = located ((k, u) :: open) ls.
Proof. intros F. cbn [located]. rewrite F. cbn [located]. apply app_nil_r. Qed.
Lemma flat_coll k u ls : flat ls -> flat (LOpen k u :: ls ++ [LClose]).
Proof. intros F open rest. rewrite (located_coll open k u ls F). cbn [app located]. rewrite <- app_assoc, F. reflexivity. Qed.

Lemma flat_eleaves t : flat (eleaves t).
Proof.
  revert t. apply (etree_all (fun t => flat (eleaves t))); [intros v r; apply flat_val|]. intros k u ms F. cbn [eleaves]. apply flat_coll.
  induction F as [|m ms H F IH]; [apply flat_nil|]. cbn [flat_map]. apply flat_app; assumption.
Qed.

Lemma flat_members ms : flat (flat_map eleaves ms).
Proof. induction ms as [|m ms IH]; [apply flat_nil|]. cbn [flat_map]. apply flat_app; [apply flat_eleaves|exact IH]. Qed.

Lemma flat_threaded t : forall r, flat (fst (threaded r t)).
Proof.
  assert (ALL : forall ms, Forall (fun t => forall r, flat (fst (threaded r t))) ms -> forall r, flat (fst (threaded_all r ms))).
  { induction 1 as [|m ms H _ IH]; intros r; [apply flat_nil|]. cbn [threaded_all]. specialize (H r). destruct (threaded r m) as [a r1].
    specialize (IH r1). destruct (threaded_all r1 ms) as [b r2]. cbn [fst] in *. apply flat_app; assumption. }
  induction t as [v|id ms IH|ms IH|k u ms IH] using tree_rect2; intros r.
  - apply flat_val.
  - rewrite threaded_report. apply ALL. exact IH.
  - rewrite threaded_top. apply ALL. exact IH.
  - rewrite threaded_coll. specialize (ALL ms IH r). destruct (threaded_all r ms) as [a r1]. cbn [fst] in *. apply flat_coll. exact ALL.
Qed.

(** something closes after the last value *)
Definition closes_v (v : value) : bool := is_array v && match usage_list (v_usage v) with [] => false | _ => true end.

Fixpoint sett (b : bool) (ls : list leaf) : bool :=
  match ls with
  | [] => b
  | LOpen _ _ :: r => sett b r
  | LClose :: r => sett true r
  | LVal _ v :: r => sett (if real v then closes_v v else b) r
  end.

Lemma sett_app a : forall b c, sett b (a ++ c) = sett (sett b a) c.
Proof. induction a as [|x a IH]; intros b c; [reflexivity|]. destruct x; cbn [app sett]; apply IH. Qed.

Lemma closing_v r v : closing (LVal r v) <-> real v = true /\ closes_v v = true.
Proof.
  unfold closing, closes_v. destruct (is_array v), (usage_list (v_usage v)); cbn [andb]; split; intros H; decompose [and] H; repeat split; try congruence; try discriminate.
Qed.

Lemma settled_sett ls : settled ls -> sett false ls = true.
Proof.
  intros [a [x [b [-> [C I]]]]]. rewrite sett_app. generalize (sett false a). intros q.
  assert (ID : forall b, Forall idle b -> sett true b = true).
  { induction 1 as [|y l H F IH]; [reflexivity|]. destruct y as [k u| |r v]; cbn [sett]; [exact IH|exact IH|]. cbn [idle] in H. rewrite H. exact IH. }
  destruct x as [k u| |r v]; cbn [sett]; [destruct C|apply ID; exact I|]. apply closing_v in C. destruct C as [-> ->]. apply ID. exact I.
Qed.

Definition no_real (ms : list etree) : Prop := forall open, filter keep (located open (flat_map eleaves ms)) = [].

Definition rooted (s : xst) : Prop :=
  exists m1 m2, lv_members (x_current s) = m1 ++ m2 /\ x_root s = Some (TTop (report_insert_members m1 None)) /\ no_real m2.

Record back (open : place) (s s' : xst) (ls : list leaf) (new : list etree) : Prop := {
  bk_grew : grew s s' new;
  bk_same : forall open', same_place open open' ->
    Forall2 same_value (filter keep (located open ls)) (filter keep (located open' (flat_map eleaves new)));
  bk_root : x_stack s = [] -> forall b, (b = true -> rooted s) -> sett b ls = true -> rooted s'
}.

Lemma grew_trans s s1 s2 a b : grew s s1 a -> grew s1 s2 b -> grew s s2 (a ++ b).
Proof. intros [A1 A2] [B1 B2]. split; [congruence|]. rewrite B2, A2. cbn [lv_head lv_members]. rewrite app_assoc. reflexivity. Qed.

Lemma back_nil open s : back open s s [] [].
Proof.
  split.
  - split; [reflexivity|]. rewrite app_nil_r. destruct (x_current s); reflexivity.
  - intros open' _. constructor.
  - intros _ b H E. apply H. exact E.
Qed.

Lemma back_app open s s1 s2 a b na nb : flat a -> back open s s1 a na -> back open s1 s2 b nb -> back open s s2 (a ++ b) (na ++ nb).
Proof.
  intros F [A1 A2 A3] [B1 B2 B3]. split.
  - eapply grew_trans; eauto.
  - intros open' SP. rewrite F, flat_map_app, (flat_members na), !filter_app. apply Forall2_app; auto.
  - intros ST q H E. rewrite sett_app in E. destruct A1 as [A1 _]. apply (B3 ltac:(congruence) (sett q a)); [|exact E]. intros Q. apply (A3 ST q); assumption.
Qed.

Lemma head_grew db s s' new open : grew s s' new -> head_is db (x_current s) open -> head_is db (x_current s') open.
Proof. intros [_ E] H. rewrite E. exact H. Qed.

(** padding in front of a value *)
Lemma pad_back open s s' r w : grew s s' [EVal w r] -> real w = false -> x_root s' = x_root s -> back open s s' [] [EVal w r].
Proof.
  intros G RW RT. split; [exact G| |].
  - intros open' _. cbn [flat_map eleaves app located filter]. unfold keep. cbn [snd]. rewrite RW. constructor.
  - intros _ b H E. cbn [sett] in E. destruct (H E) as [m1 [m2 [M1 [M2 M3]]]]. exists m1, (m2 ++ [EVal w r]). destruct G as [_ G]. rewrite G. cbn [lv_members].
    split; [rewrite M1, app_assoc; reflexivity|]. split; [congruence|]. intros o. rewrite flat_map_app, (flat_members m2), filter_app, M3.
    cbn [flat_map eleaves app located filter]. unfold keep. cbn [snd]. rewrite RW. reflexivity.
Qed.

Lemma val_back db open s s' r v w : came_back db s s' r v w -> back open s s' [LVal r v] [EVal w r].
Proof.
  intros [_ [G [RW [SA [R1 R2]]]]]. split; [exact G| |].
  - intros open' SP. cbn [flat_map eleaves app located filter]. unfold keep. cbn [snd]. rewrite RW. destruct (real v); [|constructor].
    constructor; [|constructor]. cbn [same_value]. auto.
  - intros ST b H E. cbn [sett] in E. destruct (real v) eqn:RV.
    + assert (C : closing (LVal r v)) by (apply closing_v; auto). specialize (R2 C ST). unfold root_set in R2.
      exists (lv_members (x_current s')), []. rewrite app_nil_r. split; [reflexivity|]. split; [exact R2|]. intros o. reflexivity.
    + assert (NC : ~ closing (LVal r v)) by (rewrite closing_v; intros [X _]; congruence).
      assert (B : back open s s' [] [EVal w r]) by (apply pad_back; [exact G|congruence|auto]). apply (bk_root _ _ _ _ _ B ST b H). exact E.
Qed.

Lemma element_back db st v st' o s r open :
  made v -> element db st v = Ok (st', o) -> restorable db (open, r, v) -> ready s r -> head_is db (x_current s) open ->
  exists s' new, x_run db s o = Ok s' /\ ready s' r /\ back open s s' [LVal r v] new.
Proof.
  intros M H RE RY HI. unfold element in H.
  match type of H with bind ?r _ = _ => destruct r as [pad|] eqn:PAD; [|discriminate] end. cbn [bind] in H.
  match type of H with bind ?r _ = _ => destruct r as [[st1 out1]|] eqn:OUT1; [|discriminate] end. cbn [bind] in H.
  assert (P1 : exists s1 n1, x_run db s out1 = Ok s1 /\ ready s1 r /\ back open s s1 [] n1).
  { destruct (pad =? 0) eqn:P0.
    - injection OUT1 as <- <-. exists s, []. split; [reflexivity|]. split; [exact RY|apply back_nil].
    - destruct (rs_add st (py_int (v_way v)) pad) as [st2|] eqn:RA; [|discriminate]. cbn [bind] in OUT1.
      destruct (main_class (py_int (v_way v))) as [c|] eqn:MC; [|discriminate]. cbn [bind] in OUT1.
      match type of OUT1 with bind ?r _ = _ => destruct r as [items|] eqn:MI; [|discriminate] end.
      cbn [bind] in OUT1. injection OUT1 as <- <-. apply rs_add_ok in RA. destruct RA as [_ [_ [R3 _]]].
      destruct (main_class_ok _ _ MC R3) as [-> DC].
      assert (RO : Forall req_ok [(ReportCount, Some (VInt 1)); (ReportSize, Some (VInt pad)); (way_class (py_int (v_way v)), Some (VInt 3))]).
      { repeat constructor. unfold req_ok. destruct (way_class (py_int (v_way v))); auto. lia. }
      pose proof (mk_items_cv _ _ _ RO MI) as CV.
      destruct (const_back db s r items 1 pad 3 (way_class (py_int (v_way v))) RY (mk_items_constructed _ _ _ MI) DC eq_refl CV) as [s1 [w [X [R1 [G1 [RW RT]]]]]].
      exists s1, [EVal w r]. split; [exact X|]. split; [exact R1|]. apply pad_back; assumption. }
  destruct P1 as [s1 [n1 [X1 [R1 B1]]]].
  assert (SKIP : real v = false -> exists s' new, x_run db s out1 = Ok s' /\ ready s' r /\ back open s s' [LVal r v] new).
  { intros RV. exists s1, n1. split; [exact X1|]. split; [exact R1|]. destruct B1 as [B1 B2 B3]. split; [exact B1| |].
    - intros open' SP. specialize (B2 open' SP). cbn [located filter] in *. unfold keep at 1. cbn [snd]. rewrite RV. exact B2.
    - intros ST b HB E. cbn [sett] in E. rewrite RV in E. apply (B3 ST b HB). exact E. }
  destruct (v_kind v) eqn:K.
  - destruct (narr_truthy (v_named v)) as [b|] eqn:T; [|discriminate]. cbn [bind] in H.
    apply truthy_is_array in T. subst b.
    destruct (rs_add st1 (py_int (v_way v)) (v_size v)) as [st2|] eqn:RA; [|discriminate]. cbn [bind] in H.
    destruct (main_class (py_int (v_way v))) as [c|] eqn:MC; [|discriminate]. cbn [bind] in H.
    match type of H with bind ?r _ = _ => destruct r as [items|] eqn:MI; [|discriminate] end.
    cbn [bind] in H. injection H as <- <-. apply rs_add_ok in RA. destruct RA as [_ [_ [R3 _]]].
    destruct (main_class_ok _ _ MC R3) as [-> DC].
    destruct (value_back db v s1 r open items M K R3 MI RE R1 (head_grew _ _ _ _ _ (bk_grew _ _ _ _ _ B1) HI)) as [s2 [w [X2 CB]]].
    exists s2, (n1 ++ [EVal w r]). split; [rewrite x_run_app, X1; exact X2|]. split; [apply CB|].
    apply (back_app open s s1 s2 [] [LVal r v]); [apply flat_nil|exact B1|]. eapply val_back; eauto.
  - injection H as <- <-. apply SKIP. unfold real. rewrite K. reflexivity.
  - injection H as <- <-. apply SKIP. unfold real. rewrite K. reflexivity.
Qed.

Definition tree_back (db : udb) (t : tree) : Prop :=
  forall st st' o s r open, well_formed t -> stream_tree db st t = Ok (st', o) -> Forall (restorable db) (located open (fst (threaded r t))) ->
    ready s r -> head_is db (x_current s) open ->
    exists s' new, x_run db s o = Ok s' /\ ready s' (snd (threaded r t)) /\ back open s s' (fst (threaded r t)) new.

Lemma members_back db ms : Forall (tree_back db) ms ->
  forall st st' o s r open, Forall well_formed ms -> stream_members db st ms = Ok (st', o) -> Forall (restorable db) (located open (fst (threaded_all r ms))) ->
    ready s r -> head_is db (x_current s) open ->
    exists s' new, x_run db s o = Ok s' /\ ready s' (snd (threaded_all r ms)) /\ back open s s' (fst (threaded_all r ms)) new.
Proof.
  induction 1 as [|m ms H _ IH]; intros st st' o s r open WF E RE RY HI; cbn [stream_members] in E.
  - injection E as <- <-. exists s, []. split; [reflexivity|]. split; [exact RY|apply back_nil].
  - destruct (stream_tree db st m) as [[st1 o1]|] eqn:E1; [|discriminate]. cbn [bind] in E.
    destruct (stream_members db st1 ms) as [[st2 o2]|] eqn:E2; [|discriminate]. cbn [bind] in E. injection E as <- <-.
    inversion WF as [|? ? W1 W2]; subst. cbn [threaded_all] in *. pose proof (flat_threaded m r) as FL. specialize (H st st1 o1 s r open W1 E1).
    destruct (threaded r m) as [a r1]. cbn [fst snd] in *. specialize (IH st1 st2 o2). destruct (threaded_all r1 ms) as [b r2] eqn:TA. cbn [fst snd] in *.
    rewrite FL, Forall_app in RE. destruct RE as [RE1 RE2].
    destruct (H RE1 RY HI) as [s1 [n1 [X1 [Y1 B1]]]].
    destruct (IH s1 r1 open W2 E2) as [s2 [n2 [X2 [Y2 B2]]]]; rewrite ?TA; auto.
    { eapply head_grew; [apply B1|exact HI]. }
    rewrite TA in *. cbn [fst snd] in *. exists s2, (n1 ++ n2). split; [rewrite x_run_app, X1; exact X2|]. split; [exact Y2|]. eapply back_app; eauto.
Qed.

Lemma tree_comes_back db t : tree_back db t.
Proof.
  induction t as [v|id ms IH|ms IH|k u ms IH] using tree_rect2; intros st st' o s r open WF H RE RY HI.
  - cbn [threaded fst snd located] in *. inversion RE as [|? ? RE1 _]; subst. eapply element_back; eauto.
  - rewrite stream_report in H. rewrite threaded_report in *. cbn [well_formed] in WF. apply well_formed_all in WF.
    destruct (if id =? 0 then _ else _) as [o0|] eqn:E0; [|discriminate]. cbn [bind] in H.
    destruct (stream_members db _ ms) as [[st1 o1]|] eqn:E1; [|discriminate]. cbn [bind] in H. injection H as <- <-.
    assert (R0 : exists s0, x_run db s o0 = Ok s0 /\ ready s0 (if id =? 0 then r else id) /\ same_levels s s0).
    { destruct (id =? 0) eqn:Z0; [injection E0 as <-; exists s; split; [reflexivity|]; split; [exact RY|apply same_levels_refl]|].
      pose proof (mk_items_constructed _ _ _ E0) as CO.
      assert (RO : Forall req_ok [(ReportID, Some (VInt id))]) by repeat constructor.
      pose proof (mk_items_cv _ _ _ RO E0) as CV. cbn [map req_cv fst snd py_int] in CV.
      destruct RY as [g [L [R IN]]]. assert (Q : Forall (fun i => quiet (ic i) = true) o0) by (eapply cv_quiet; [exact CV|repeat constructor]).
      destruct (look_run db o0 s _ CO Q L) as [s0 [X [L0 [S0 _]]]]. exists s0. split; [exact X|]. split; [|exact S0].
      rewrite CV in L0. cbn [p_run p_step hid_kind fst p_g p_us p_ds p_ss] in L0. eexists. split; [exact L0|]. split; [destruct g; reflexivity|].
      destruct S0 as [_ [_ [-> _]]]. exact IN. }
    destruct R0 as [s0 [X0 [Y0 [S1 [S2 [S3 S4]]]]]].
    destruct (members_back db ms IH _ _ _ s0 _ open WF E1 RE Y0) as [s1 [n1 [X1 [Y1 [B1 B2 B3]]]]]; [rewrite S2; exact HI|].
    exists s1, n1. split; [rewrite x_run_app, X0; exact X1|]. split; [exact Y1|]. split.
    + destruct B1 as [B1 B1']. split; [congruence|]. rewrite B1', S2. reflexivity.
    + exact B2.
    + intros ST b HB E. apply (B3 ltac:(congruence) b); [|exact E]. intros Q. destruct (HB Q) as [m1 [m2 [M1 [M2 M3]]]]. exists m1, m2. rewrite S2, S4. auto.
  - rewrite stream_top in H. rewrite threaded_top in *. cbn [well_formed] in WF. apply well_formed_all in WF. eapply members_back; eauto.
  - rewrite stream_coll in H. rewrite threaded_coll in *. cbn [well_formed] in WF. destruct WF as [WK WF]. apply well_formed_all in WF.
    destruct (mk_items db [(Usage, u); (Collection, Some k)]) as [o0|] eqn:E0; [|discriminate]. cbn [bind] in H.
    destruct (stream_members db st ms) as [[st1 o1]|] eqn:E1; [|discriminate]. cbn [bind] in H.
    destruct (mk_items db [(EndCollection, Some (VInt 0))]) as [o2|] eqn:E2; [|discriminate]. cbn [bind] in H. injection H as <- <-.
    pose proof (members_back db ms IH st st1 o1) as MB.
    assert (FL : flat (fst (threaded_all r ms))) by (rewrite <- (threaded_top r ms); apply flat_threaded).
    specialize (fun s open => MB s r open). destruct (threaded_all r ms) as [a r1] eqn:TA. cbn [fst snd] in *.
    rewrite (located_coll open k u a FL) in RE.
    (* entering *)
    destruct (coll_items _ _ _ _ E0) as [x EX]. subst u.
    assert (RO : Forall req_ok [(Usage, Some x); (Collection, Some k)]) by (repeat constructor; exact WK).
    pose proof (mk_items_cv _ _ _ RO E0) as CV. pose proof (mk_items_constructed _ _ _ E0) as CO.
    apply mk_items_cons in E0. destruct E0 as [iu [o0' [-> [MU E0]]]]. apply mk_items_cons in E0. destruct E0 as [ib [o0'' [-> [MK E0]]]].
    injection E0 as <-. cbn [map req_cv fst snd] in CV. apply (cv_cons iu [ib]) in CV. destruct CV as [IU1 [IU2 CV]]. apply (cv_cons ib []) in CV. destruct CV as [IB1 [IB2 _]].
    cbn [fst snd] in IU1, IU2, IB1, IB2.
    destruct RY as [g [L [R IN]]]. pose proof (Forall_inv CO) as CO1.
    assert (QU : Forall (fun i => quiet (ic i) = true) [iu]) by (repeat constructor; rewrite IU1; reflexivity).
    destruct (look_run db [iu] s _ (Forall_cons _ CO1 (Forall_nil _)) QU L) as [sa [XA [LA [SA UA]]]].
    cbn [map p_run p_step] in LA. rewrite IU1 in LA. cbn [hid_kind fst p_g p_us p_ds p_ss app] in LA.
    assert (UAS : x_usages sa = [iv iu]).
    { rewrite UA. cbn [flat_map]. rewrite IU1. cbn [icls_eqb app]. pose proof (lk_us _ _ L) as LU. cbn [p_us] in LU. destruct (x_usages s); [reflexivity|discriminate LU]. }
    destruct (nary_test db sa _ iu x LA MU UAS) as [NN [PI NT]].
    pose (sb := locals_clear (x_enter sa (iv ib) (x_usage db sa 0))).
    assert (XB : x_append db sa ib = Ok sb).
    { unfold x_append, ikd. rewrite IB1. cbn [kind_of]. rewrite (expand_none sa (lk_loc _ _ LA)). reflexivity. }
    assert (LB : look sb (P g [] [] [])) by (exact (look_clear sa _ (x_enter sa (iv ib) (x_usage db sa 0)) LA eq_refl)).
    destruct SA as [SA1 [SA2 [SA3 SA4]]].
    assert (YB : ready sb r). { exists g. split; [exact LB|]. split; [exact R|]. cbn. congruence. }
    assert (HB : head_is db (x_current sb) ((k, Some x) :: open)).
    { unfold head_is, sb. cbn [locals_clear x_enter set_levels x_current lv_head]. split; [exact IB2|]. split; [exact PI|exact NT]. }
    destruct (MB sb ((k, Some x) :: open) WF E1 RE YB HB) as [s1 [n1 [X1 [Y1 B1]]]].
    (* leaving *)
    assert (RO2 : Forall req_ok [(EndCollection, Some (VInt 0))]) by repeat constructor.
    pose proof (mk_items_cv _ _ _ RO2 E2) as CV2. cbn [map req_cv fst snd py_int] in CV2. apply cv_one in CV2. destruct CV2 as [ie [-> [IE1 IE2]]].
    destruct Y1 as [g1 [L1 [R1 IN1]]]. pose proof (bk_grew _ _ _ _ _ B1) as [G1 G2].
    assert (ST1 : x_stack s1 = x_current s :: x_stack s) by (rewrite G1; unfold sb; cbn; congruence).
    assert (CU1 : x_current s1 = Level (Some (iv ib, x_usage db sa 0)) n1) by (rewrite G2; reflexivity).
    pose (kept := match n1 with [] => [] | _ => [EColl (iv ib) (x_usage db sa 0) n1] end).
    pose (s3 := set_levels s1 (x_stack s) (Level (lv_head (x_current s)) (lv_members (x_current s) ++ kept)) (x_innamed s1)).
    pose (s4 := match x_stack s3 with [] => x_ended s3 | _ => s3 end).
    assert (XE : x_append db s1 ie = Ok (locals_clear s4)).
    { unfold x_append, ikd. rewrite IE1. cbn [kind_of]. rewrite (expand_none s1 (lk_loc _ _ L1)), IN1. unfold x_leave. rewrite ST1, CU1. cbn [lv_members lv_head bind close_level].
      unfold s4, s3, kept. rewrite IN1. destruct n1; reflexivity. }
    assert (Q4 : x_current s4 = x_current s3 /\ x_stack s4 = x_stack s /\ x_globals s4 = x_globals s1 /\ x_innamed s4 = false).
    { unfold s4. change (x_stack s3) with (x_stack s). destruct (x_stack s) eqn:ES; unfold s3; cbn [x_ended set_levels x_current x_stack x_globals x_innamed]; auto. }
    destruct Q4 as [Q1 [Q2 [Q3 Q5]]].
    exists (locals_clear s4), kept. split; [|split; [|split]].
    + change ([iu; ib] ++ o1 ++ [ie]) with ([iu] ++ [ib] ++ o1 ++ [ie]). rewrite x_run_app, XA. cbn [bind]. rewrite x_run_app, x_run_one, XB. cbn [bind].
      rewrite x_run_app, X1. cbn [bind]. rewrite x_run_one. exact XE.
    + exists g1. split; [exact (look_clear s1 _ s4 L1 Q3)|]. split; [exact R1|exact Q5].
    + split; [exact Q2|exact Q1].
    + intros open' SP. rewrite (located_coll open k (Some x) a FL).
      pose proof (bk_same _ _ _ _ _ B1 ((iv ib, x_usage db sa 0) :: open')) as SM. unfold kept.
      assert (SP' : same_place ((k, Some x) :: open) ((iv ib, x_usage db sa 0) :: open')).
      { constructor; [|exact SP]. cbn [fst snd]. split; [symmetry; exact IB2|rewrite PI; reflexivity]. }
      specialize (SM SP'). destruct n1 as [|m n1]; [exact SM|].
      cbn [flat_map]. rewrite app_nil_r. cbn [eleaves]. rewrite located_coll by apply flat_members. exact SM.
    + intros ST b _ _. exists (lv_members (x_current s3)), []. rewrite app_nil_r. split; [exact (f_equal lv_members Q1)|].
      split; [|intros o; reflexivity]. unfold s4. change (x_stack s3) with (x_stack s). rewrite ST. reflexivity.
Qed.

Lemma c49 db t l :
  well_formed t -> stream_items db t = Ok l ->
  Forall (restorable db) (located [] (fst (threaded 0 t))) -> settled (fst (threaded 0 t)) ->
  exists t', extract db l = Ok t' /\
    Forall2 same_value (real_values (fst (threaded 0 t))) (real_values (scoped 0 t')).
Proof.
  intros WF H RE SE. unfold stream_items in H. destruct (stream_tree db sst_init t) as [[st o]|] eqn:E; [|discriminate]. cbn [bind] in H. injection H as <-.
  assert (RY : ready xst_init 0).
  { exists g_init. split; [|split; reflexivity]. split; try reflexivity; [apply agree_init|constructor]. }
  destruct (tree_comes_back db t sst_init st o xst_init 0 [] WF E RE RY I) as [s [n [X [_ [B1 B2 B3]]]]].
  destruct (B3 eq_refl false ltac:(discriminate) (settled_sett _ SE)) as [m1 [m2 [M1 [M2 M3]]]].
  exists (TTop (report_insert_members m1 None)). unfold extract. rewrite X. cbn [bind]. rewrite M2. split; [reflexivity|].
  unfold real_values. rewrite insert_leaves. specialize (B2 [] ltac:(constructor)). destruct B1 as [_ B1]. rewrite B1 in M1. cbn [lv_members xst_init x_current app] in M1. subst n.
  rewrite flat_map_app, (flat_members m1), filter_app, M3, app_nil_r in B2. exact B2.
Qed.
