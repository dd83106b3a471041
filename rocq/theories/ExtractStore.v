(* ExtractStore.v -- the trees of the Extractor can be compiled *)
From Coq Require Import ZArith List Bool Lia ZifyBool ZifyNat String.
From Verif Require Import Py Usage Item Parser Optimizer Descriptor Extractor.
From Verif Require Import HidSpec Spec ItemFacts ParserFacts CodecProofs UsageProofs TextProofs StreamSpec PlainHost StreamProofs StreamTree OptFacts OptSpec AllSpec PassFacts.
From Verif Require Import TreeOpt ExtractSpec ExtractFacts ExtractView ExtractAgain DumpSpec DumpProofs AcceptSpec CompileAccept.
Import ListNotations.
Local Open Scope list_scope.
Local Open Scope Z_scope.

(** a leaf the compiler accepts *)
Definition kept (x : leaf) : Prop :=
  storable_leaf x /\ modest_leaf x /\ match x with LVal r _ => 0 <= r < 256 | _ => True end.

(* ------------------------------------------------------------------ *)
(** the tree *)

Lemma raw_ids m : report_ids (raw m) = [].
Proof.
  revert m. apply (etree_all (fun m => report_ids (raw m) = [])); [reflexivity|].
  intros k u ms F. cbn [raw report_ids]. induction F as [|m ms H F IH]; [reflexivity|]. cbn [flat_map]. rewrite H. exact IH.
Qed.

Lemma insert_ids_gen (P : Z -> Prop) ms : Forall (fun m => (forall z, In z (e_ids m) -> P z) -> Forall P (report_ids (report_insert m))) ms ->
  (forall m z, In m ms -> In z (e_ids m) -> P z) ->
  forall cur, match cur with Some (id, l) => P id /\ flat_map report_ids l = [] | None => True end ->
  Forall P (flat_map report_ids (report_insert_members ms cur)).
Proof.
  assert (CL : forall cur, match cur with Some (id, l) => P id /\ flat_map report_ids l = [] | None => True end -> Forall P (flat_map report_ids (ri_close cur))).
  { intros [[id l]|] H; [|constructor]. destruct H as [H1 H2]. cbn [ri_close flat_map report_ids]. rewrite H2. repeat constructor. exact H1. }
  induction 1 as [|m ms Hm F IH]; intros PI cur HC; cbn [report_insert_members]; [auto|].
  assert (PM : forall z, In z (e_ids m) -> P z) by (intros z; apply PI; left; reflexivity).
  assert (PR : forall m0 z, In m0 ms -> In z (e_ids m0) -> P z) by (intros m0 z I; apply PI; right; exact I).
  assert (OTHER : Forall P (flat_map report_ids (ri_close cur ++ report_insert m :: report_insert_members ms None))).
  { rewrite flat_map_app. cbn [flat_map]. rewrite !Forall_app. split; [auto|]. split; [auto|]. apply IH; auto. }
  destruct (e_ids m) as [|id [|? ?]] eqn:EI; [exact OTHER| |exact OTHER].
  assert (PID : P id) by (apply PM; left; reflexivity).
  destruct cur as [[id' l]|].
  - destruct (zmem id' [id]).
    + apply IH; auto. destruct HC as [H1 H2]. split; [exact H1|]. rewrite flat_map_app, H2. cbn [flat_map app]. rewrite raw_ids. reflexivity.
    + rewrite flat_map_app, Forall_app. split; [auto|]. apply IH; auto. split; [exact PID|]. cbn [flat_map]. rewrite raw_ids. reflexivity.
  - apply IH; auto. split; [exact PID|]. cbn [flat_map]. rewrite raw_ids. reflexivity.
Qed.

Lemma insert_ids (P : Z -> Prop) ms : (forall m z, In m ms -> In z (e_ids m) -> P z) -> Forall P (report_ids (TTop (report_insert_members ms None))).
Proof.
  intros H. cbn [report_ids]. apply insert_ids_gen; auto. apply Forall_forall. intros m _. revert m.
  apply (etree_all (fun m => (forall z, In z (e_ids m) -> P z) -> Forall P (report_ids (report_insert m)))).
  - intros v r _. constructor.
  - intros k u ms' F HP. rewrite report_insert_coll. cbn [report_ids]. apply insert_ids_gen; auto.
    intros m z IM IZ. apply HP. apply ids_leaves. cbn [eleaves]. unfold lrids. cbn [flat_map app]. rewrite flat_map_app. apply in_app_iff. left.
    apply ids_leaves in IZ. unfold lrids in IZ. apply in_flat_map in IZ. destruct IZ as [x [I1 I2]]. apply in_flat_map. exists x. split; [|exact I2].
    apply in_flat_map. exists m. auto.
Qed.

Lemma kept_kinds t : forall r, Forall kept (scoped r t) -> kinds_ok t.
Proof.
  revert t. apply (tree_all (fun t => forall r, Forall kept (scoped r t) -> kinds_ok t)).
  - intros; exact I.
  - intros id ms F r M. cbn [scoped kinds_ok] in *. induction F as [|m ms H F IH]; [exact I|]. cbn [flat_map] in M. apply Forall_app in M. destruct M as [M1 M2]. split; [eapply H; exact M1|exact (IH M2)].
  - intros ms F r M. cbn [scoped kinds_ok] in *. induction F as [|m ms H F IH]; [exact I|]. cbn [flat_map] in M. apply Forall_app in M. destruct M as [M1 M2]. split; [eapply H; exact M1|exact (IH M2)].
  - intros k u ms F r M. cbn [scoped kinds_ok] in *. apply Forall_cons_iff in M. destruct M as [M0 M1]. split; [apply M0|]. apply Forall_app in M1. destruct M1 as [M1 _]. clear M0.
    induction F as [|m ms H F IH]; [exact I|]. cbn [flat_map] in M1. apply Forall_app in M1. destruct M1 as [M1 M2]. split; [eapply H; exact M1|exact (IH M2)].
Qed.

Lemma kept_compiles db ms : Forall kept (flat_map eleaves ms) -> exists b, compile db false (TTop (report_insert_members ms None)) = Ok b.
Proof.
  intros F. set (t := TTop _).
  assert (SL : scoped 0 t = flat_map eleaves ms) by (apply insert_leaves).
  assert (ENT : fst (entered 0 t) = flat_map eleaves ms).
  { rewrite (reported_entered t (insert_reported ms) (insert_filled ms) 0). exact SL. }
  apply c55.
  - apply (kept_kinds t 0). rewrite SL. exact F.
  - unfold modest. rewrite ENT. eapply Forall_impl; [|exact F]. intros x [_ [M _]]. exact M.
  - split.
    + apply insert_ids. intros m z IM IZ. apply ids_leaves in IZ. unfold lrids in IZ. apply in_flat_map in IZ. destruct IZ as [x [I1 I2]].
      rewrite Forall_forall in F. assert (K : kept x) by (apply F; apply in_flat_map; exists m; auto).
      destruct x as [| |r v]; try destruct I2 as []. subst z. destruct K as [_ [_ K]]. unfold u32. lia. contradiction.
    + rewrite ENT. eapply Forall_impl; [|exact F]. intros x [S _]. exact S.
Qed.

(* ------------------------------------------------------------------ *)
(** the state *)

Section Bounds.
Variables size count : Z.
Hypothesis room : size * count < 2 ^ 32.

Definition u32s (l : list pval) : Prop := Forall (fun v => u32 (py_int v)) l.

Record bounded (s : xst) : Prop := {
  bd_glob : forall c, in_32_bits c (gval s c);
  bd_page : gval s UsagePage < 2 ^ 16;
  bd_rid : gval s ReportID < 256;
  bd_size : gval s ReportSize <= size;
  bd_count : gval s ReportCount <= count;
  bd_us : u32s (x_usages s);
  bd_ss : u32s (x_strings s);
  bd_ds : u32s (x_designators s);
  bd_loc : forall c v, x_locals s c = Some v -> u32 (py_int v);
  bd_leaves : Forall kept (open_leaves s);
  bd_root : forall t, x_root s = Some t -> exists ms, t = TTop (report_insert_members ms None) /\ Forall kept (flat_map eleaves ms)
}.

Lemma expand_u32 s mn mx l : bounded s -> u32s l -> u32s (expand s mn mx l).
Proof.
  intros B H. unfold expand. destruct (x_locals s mn) as [a|] eqn:EA; [|exact H]. destruct (x_locals s mx) as [b|] eqn:EB; [|exact H].
  destruct l; [|exact H]. pose proof (bd_loc s B mn a EA) as A1. pose proof (bd_loc s B mx b EB) as B1. unfold u32s. rewrite Forall_map. apply Forall_forall.
  intros z I. cbn [py_int]. unfold zrange in I. apply in_map_iff in I. destruct I as [k [<- I]]. apply in_seq in I. unfold u32 in *. lia.
Qed.

Lemma expand_bounded s : bounded s -> bounded (expand_ranges s).
Proof.
  intros B. pose proof (expand_u32 s) as E. split; try apply B.
  - apply E; [exact B|apply B].
  - apply E; [exact B|apply B].
  - apply E; [exact B|apply B].
Qed.

Lemma repeat_u32 l k v : u32s l -> last_repeat l k = Some v -> u32 (py_int v).
Proof. intros H E. unfold last_repeat in E. apply nth_error_In in E. unfold u32s in H. rewrite Forall_forall in H. apply H. exact E. Qed.

Lemma usage_u32 db s k u : bounded s -> x_usage db s k = Some u -> u32 (py_int u).
Proof.
  intros B. unfold x_usage. destruct (last_repeat (x_usages s) k) as [v|] eqn:E; [|discriminate]. pose proof (repeat_u32 _ _ _ (bd_us s B) E) as V.
  pose proof (with_page_val (gval s UsagePage) (py_int v) (proj1 V)) as W. unfold with_page in W.
  pose proof (bd_page s B) as P. pose proof (bd_glob s B UsagePage) as P0. unfold in_32_bits in P0. cbn [hid_signed] in P0.
  destruct (negb _).
  - intros H. injection H as <-. exact V.
  - intros H. assert (Q : u = lookup db (VInt (Z.lor (Z.shiftl (gval s UsagePage) 16) (py_int v)))) by congruence. rewrite Q, lookup_int, W.
    unfold u32 in *. destruct (65536 <=? py_int v) eqn:C; lia.
Qed.

Lemma string_u32 s k : bounded s -> u32 (x_string s k).
Proof. intros B. unfold x_string. destruct (last_repeat (x_strings s) k) as [v|] eqn:E; [exact (repeat_u32 _ _ _ (bd_ss s B) E)|unfold u32; lia]. Qed.
Lemma designator_u32 s k : bounded s -> u32 (x_designator s k).
Proof. intros B. unfold x_designator. destruct (last_repeat (x_designators s) k) as [v|] eqn:E; [exact (repeat_u32 _ _ _ (bd_ds s B) E)|unfold u32; lia]. Qed.

Lemma list_u32 u : (forall x, u = Some x -> u32 (py_int x)) -> Forall u32 (usage_list u).
Proof.
  intros H. destruct u as [[z|n z|n z k]|]; cbn [usage_list]; [destruct (z =? 0)|..]; try exact (Forall_nil _); apply Forall_cons; try exact (Forall_nil _); exact (H _ eq_refl).
Qed.

(** the usages of a data item *)
Definition named_usages (db : udb) (s : xst) : list pval :=
  flat_map (fun k => match x_usage db s k with Some u => [u] | None => [] end) (seq 0 (length (x_usages s))).

Lemma named_usages_length db s : length (named_usages db s) = length (x_usages s).
Proof.
  unfold named_usages. assert (Q : forall l, (forall k, In k l -> (k < length (x_usages s))%nat) ->
    length (flat_map (fun k => match x_usage db s k with Some u => [u] | None => [] end) l) = length l).
  { induction l as [|k l IH]; intros H; [reflexivity|]. cbn [flat_map length]. rewrite app_length, IH by (intros; apply H; right; assumption).
    specialize (H k (or_introl eq_refl)). unfold x_usage, last_repeat.
    destruct (nth_error (x_usages s) (Nat.min (length (x_usages s) - 1) k)) as [u|] eqn:E.
    - destruct (negb _); reflexivity.
    - apply nth_error_None in E. lia. }
  rewrite Q; [apply seq_length|]. intros k I. apply in_seq in I. lia.
Qed.

Lemma named_usages_u32 db s : bounded s -> u32s (named_usages db s).
Proof.
  intros B. apply Forall_forall. intros u I. unfold named_usages in I. apply in_flat_map in I. destruct I as [k [_ I]].
  destruct (x_usage db s k) as [v|] eqn:E; [|destruct I]. destruct I as [<- |[]]. exact (usage_u32 db s k v B E).
Qed.

Lemma named_array db s : array_usages (Some (named_of_usages db s)) = map py_int (named_usages db s).
Proof.
  unfold named_of_usages. change (flat_map _ _) with (named_usages db s). destruct (from_array (named_usages db s)) as [r|e] eqn:F; [|reflexivity].
  rewrite <- (c17_back db _ r F). symmetry. apply (narr_iter_ints db (NRange r)).
Qed.

Lemma way_countable i r : data_tag (ic i) = true -> forall v, v_way v = VNamed (tag_name (ic i)) (tag_of (ic i)) -> 0 <= r < 256 -> countable r v.
Proof. intros D v E R. split; [rewrite E|exact R]. destruct (ic i); try discriminate D; cbn; auto. Qed.

Lemma rid_range s : bounded s -> 0 <= gval s ReportID < 256.
Proof. intros B. pose proof (bd_glob s B ReportID) as P. unfold in_32_bits in P. cbn [hid_signed] in P. pose proof (bd_rid s B). lia. Qed.

Ltac globs s B := repeat match goal with
  | |- u32 (gval s ?c) => exact (bd_glob s B c)
  | |- s32 (gval s ?c) => exact (bd_glob s B c) end.

Lemma plain_kept db s i n k v : bounded s -> data_tag (ic i) = true -> u32 (ival i) -> u32 k -> plain_value db s i n k = Ok v ->
  kept (LVal (gval s ReportID) v).
Proof.
  intros B D I K H. destruct (plain_value_ok db s i n k) as [v' [E P]]. rewrite H in E. injection E as <-.
  destruct P as [P1 [P2 [P3 [P4 [P5 [P6 [P7 [P8 [P9 [P10 [P11 [P12 [P13 P14]]]]]]]]]]]]].
  pose proof (rid_range s B) as R. split; [|split; [|exact R]].
  - cbn [storable_leaf]. rewrite P1. split; [apply (way_countable i _ D v P2 R)|].
    unfold storable_value. rewrite P8, P13, P4, P5, P3, P6, P7, P9, P10, P11, P12. change (py_int (iv i)) with (ival i). cbn [or0 array_usages].
    split; [exact Logic.I|]. split; [exact K|]. split; [globs s B|]. split; [exact I|]. intros _.
    split; [apply list_u32; intros x E; exact (usage_u32 db s n x B E)|]. split; [constructor|]. split; [globs s B|]. split; [globs s B|].
    split; [|split; [change (py_int (x_globals s Unit)) with (gval s Unit); globs s B|split; [globs s B|split; [apply designator_u32; exact B|apply string_u32; exact B]]]].
    intros _. unfold effective in P14. destruct (_ && _); injection P14 as Q1 Q2; rewrite Q1, Q2; split; globs s B.
  - cbn [modest_leaf]. unfold wanted_alignment. rewrite P1. destruct (mk_value_more _ _ _ H eq_refl) as [AL _]. rewrite AL. lia.
Qed.

Lemma named_kept db s i u v : bounded s -> data_tag (ic i) = true -> (forall x, u = Some x -> u32 (py_int x)) ->
  Z.of_nat (length (x_usages s)) = gval s LogicalMaximum - gval s LogicalMinimum + 1 ->
  named_value db s i u (named_of_usages db s) = Ok v -> kept (LVal (gval s ReportID) v).
Proof.
  intros B D U M H. pose proof H as HM. apply mk_value_fields in H. cbn [a_way a_usage a_size a_count a_named a_unit a_uexp a_desig a_str a_lmin] in H.
  destruct H as [K [W [VU [SZ [CT [NA [UN [UE [DE [ST LM]]]]]]]]]].
  destruct (mk_value_more _ _ _ HM eq_refl) as [AL FL]. cbn [a_flags] in FL.
  pose proof (named_array db s) as AU. pose proof (named_usages_length db s) as NL.
  assert (NE : named_usages db s <> []).
  { intros EN. unfold named_value, mk_value in HM. cbn [a_named a_lmax a_lmin a_flags orb] in HM.
    destruct (narr_truthy (Some (named_of_usages db s))) as [b|e] eqn:T; [|discriminate HM].
    assert (b = false).
    { destruct (truthy_array _ _ T) as [[-> _]|[-> [y [EY [_ P]]]]]; [reflexivity|]. injection EY as <-.
      rewrite (array_size_length _ P), AU, EN in P. cbn in P. lia. }
    subst b. discriminate HM. }
  assert (AUN : array_usages (Some (named_of_usages db s)) <> []) by (rewrite AU; destruct (named_usages db s); [congruence|discriminate]).
  assert (LX : v_lmax v = Some (gval s LogicalMaximum)).
  { assert (NN : ~ no_array (Some (named_of_usages db s))) by (intros Q; apply no_array_usages in Q; congruence).
    destruct (c22_array _ _ _ (named_of_usages db s) HM eq_refl NN) as [lo [L1 [L2 [P _]]]].
    rewrite L2, (array_size_length _ P), AU, map_length, NL, M. rewrite LM in L1. injection L1 as <-. f_equal. lia. }
  pose proof (rid_range s B) as R. split; [|split; [|exact R]].
  - cbn [storable_leaf]. rewrite K. split; [apply (way_countable i _ D v W R)|].
    unfold storable_value. rewrite NA, CT, SZ, VU, LM, LX, UN, UE, DE, ST, AU. cbn [or0 py_int].
    split.
    { destruct (named_of_usages db s) as [l|r]; [exact I|]. cbn [array_usages] in AUN. destruct (Z_le_gt_dec (py_int (r_min r)) (py_int (r_max r) + 1)); [assumption|].
      exfalso. apply AUN. apply length_zero_iff_nil. rewrite upto_length. lia. }
    split; [unfold u32; lia|]. split; [globs s B|]. split; [destruct FL as [-> |[-> | ->]]; unfold u32; cbn; lia|]. intros _.
    split; [apply list_u32; exact U|]. split; [apply Forall_map; exact (named_usages_u32 db s B)|]. split; [globs s B|]. split; [globs s B|].
    split; [|split; [unfold u32; lia|split; [unfold s32; lia|split; [apply designator_u32; exact B|apply string_u32; exact B]]]].
    intros AR. exfalso. unfold is_array in AR. rewrite NA in AR. destruct (array_usages (Some (named_of_usages db s))); [congruence|discriminate AR].
  - cbn [modest_leaf]. unfold wanted_alignment. rewrite K, AL. lia.
Qed.

Lemma padding_kept s i v : bounded s -> data_tag (ic i) = true ->
  mk_padding (VNamed (tag_name (ic i)) (tag_of (ic i))) (gval s ReportSize * gval s ReportCount) = Ok v -> kept (LVal (gval s ReportID) v).
Proof.
  intros B D H. unfold mk_padding in H. pose proof (mk_value_fields _ _ _ H) as F. cbn [a_way a_size] in F. destruct F as [K [W [_ [SZ _]]]].
  pose proof (rid_range s B) as R. split; [|split; [|exact R]].
  - cbn [storable_leaf]. rewrite K. intros _. split; [apply (way_countable i _ D v W R)|]. rewrite SZ.
    pose proof (bd_glob s B ReportSize) as P1. pose proof (bd_glob s B ReportCount) as P2. pose proof (bd_size s B) as P3. pose proof (bd_count s B) as P4.
    unfold in_32_bits in P1, P2. cbn [hid_signed] in P1, P2. unfold u32. split; [nia|]. eapply Z.le_lt_trans; [|exact room]. apply Z.mul_le_mono_nonneg; lia.
  - cbn [modest_leaf]. unfold wanted_alignment. rewrite K. lia.
Qed.

Lemma leaves_bounded s s' : bounded s -> x_globals s' = x_globals s -> x_root s' = x_root s -> x_usages s' = x_usages s -> x_strings s' = x_strings s ->
  x_designators s' = x_designators s -> x_locals s' = x_locals s -> Forall kept (open_leaves s') -> bounded s'.
Proof.
  intros B E1 E2 E3 E4 E5 E6 F. destruct B. split; unfold gval in *; rewrite ?E1, ?E2, ?E3, ?E4, ?E5, ?E6; auto.
Qed.

Lemma clear_bounded s : (forall c, in_32_bits c (gval s c)) -> gval s UsagePage < 2 ^ 16 -> gval s ReportID < 256 -> gval s ReportSize <= size -> gval s ReportCount <= count ->
  Forall kept (open_leaves s) -> (forall t, x_root s = Some t -> exists ms, t = TTop (report_insert_members ms None) /\ Forall kept (flat_map eleaves ms)) ->
  bounded (locals_clear s).
Proof. intros. split; auto; try discriminate; exact (Forall_nil _). Qed.

Lemma data_bounded db s i s' : bounded s -> data_tag (ic i) = true -> u32 (ival i) -> handle_data db s i = Ok s' ->
  x_globals s' = x_globals s /\ x_root s' = x_root s /\ Forall kept (open_leaves s').
Proof.
  intros B DT IU. pose proof (bd_leaves s B) as F. unfold handle_data.
  destruct (negb (Z.land (ival i) fl_Constant =? 0)).
  - destruct (mk_padding _ _) as [v|e] eqn:EV; [|discriminate]. cbn [bind]. intros H. injection H as <-.
    split; [reflexivity|]. split; [reflexivity|]. rewrite add_value_leaves. apply Forall_app. split; [exact F|]. constructor; [|constructor].
    eapply padding_kept; eauto.
  - destruct (Z.of_nat (length (x_usages s)) =? gval s LogicalMaximum - gval s LogicalMinimum + 1) eqn:MA.
    + rewrite andb_true_r. destruct (if gval s ReportCount =? 1 then _ else _) as [inn|e] eqn:EI; [|discriminate]. cbn [bind]. destruct inn.
      * destruct (x_leave s false) as [s1|e] eqn:EL; [|discriminate]. cbn [bind].
        destruct (lv_members (x_current s)) eqn:EM; [|discriminate].
        destruct (lv_head (x_current s)) as [[k u]|] eqn:EH; [|discriminate].
        destruct (named_value _ _ _ _ _) as [v|e] eqn:EV; [|discriminate]. cbn [bind]. intros H. injection H as <-.
        assert (G1 : x_globals s1 = x_globals s /\ x_root s1 = x_root s) by (unfold x_leave in EL; destruct (x_stack s); [discriminate EL|]; injection EL as <-; auto).
        destruct G1 as [G1 G2]. split; [exact G1|]. split; [exact G2|].
        rewrite add_value_leaves. apply Forall_app. split.
        -- apply (leave_prefix s s1 kept false EL ltac:(split; [exact I|split; exact I]) F).
        -- constructor; [|constructor]. replace (gval _ ReportID) with (gval s ReportID) by (unfold gval; cbn [set_levels x_globals]; rewrite G1; reflexivity).
           apply (named_kept db s i u v B DT); [|lia|exact EV]. intros x ->. unfold open_leaves in F. apply Forall_app in F. destruct F as [_ F].
           unfold lv_leaves in F. rewrite EH in F. apply Forall_inv in F. destruct F as [[_ F] _]. exact F.
      * rewrite andb_true_r. destruct (ival i =? 0).
        -- intros H. apply add_values_spec in H. destruct H as [vs [EV [[G1 _ G2] [_ [_ [_ [_ L]]]]]]]. split; [exact G1|]. split; [exact G2|].
           rewrite L. apply Forall_app. split; [exact F|].
           apply Forall_map. apply Forall_forall. intros v IV. apply (in_map Ok) in IV. rewrite <- EV in IV. apply repeat_spec in IV. symmetry in IV.
           apply (named_kept db s i None v B DT); [discriminate|lia|exact IV].
        -- clear EI MA. revert F. generalize I. intros _ F. destruct (negb (Z.land (ival i) fl_BufferedBytes =? 0)).
           ++ destruct (plain_value _ _ _ _ _) as [v|e] eqn:EV; [|discriminate]. cbn [bind]. intros H. injection H as <-.
              split; [reflexivity|]. split; [reflexivity|]. rewrite add_value_leaves. apply Forall_app. split; [exact F|]. constructor; [|constructor].
              eapply plain_kept; try exact EV; auto. exact (bd_glob s B ReportCount).
           ++ intros H. apply add_values_spec in H. destruct H as [vs [EV [[G1 _ G2] [_ [_ [_ [_ L]]]]]]]. split; [exact G1|]. split; [exact G2|].
              rewrite L. apply Forall_app. split; [exact F|].
              apply Forall_map. apply Forall_forall. intros v IV. apply (in_map Ok) in IV. rewrite <- EV in IV. apply in_map_iff in IV. destruct IV as [n [IV _]].
              eapply plain_kept; try exact IV; auto. unfold u32. lia.
    + rewrite !andb_false_r. cbn [bind]. destruct (negb (Z.land (ival i) fl_BufferedBytes =? 0)).
      * destruct (plain_value _ _ _ _ _) as [v|e] eqn:EV; [|discriminate]. cbn [bind]. intros H. injection H as <-.
        split; [reflexivity|]. split; [reflexivity|]. rewrite add_value_leaves. apply Forall_app. split; [exact F|]. constructor; [|constructor].
        eapply plain_kept; try exact EV; auto. exact (bd_glob s B ReportCount).
      * intros H. apply add_values_spec in H. destruct H as [vs [EV [[G1 _ G2] [_ [_ [_ [_ L]]]]]]]. split; [exact G1|]. split; [exact G2|].
        rewrite L. apply Forall_app. split; [exact F|].
        apply Forall_map. apply Forall_forall. intros v IV. apply (in_map Ok) in IV. rewrite <- EV in IV. apply in_map_iff in IV. destruct IV as [n [IV _]].
        eapply plain_kept; try exact IV; auto. unfold u32. lia.
Qed.

Lemma icls_eqb_iff a b : icls_eqb a b = true <-> a = b.
Proof. split; [destruct a, b; try discriminate; reflexivity|intros ->; destruct b; reflexivity]. Qed.

Lemma step_bounded db s i s' seen : bounded s -> (seen = true -> x_usages s <> []) -> in_32_bits (ic i) (ival i) -> small_item size count (wire i) ->
  (ic i = Collection -> seen = true) -> x_append db s i = Ok s' ->
  bounded s' /\ (match ic i with Usage => true | c => seen && negb (main_tag c) end = true -> x_usages s' <> []).
Proof.
  intros B SE IR SM LB H. unfold x_append, ikd in H. destruct (kind_of (ic i)) eqn:K.
  - pose proof (expand_bounded s B) as B0. set (s0 := expand_ranges s) in *.
    assert (FIN : match ic i with Usage => true | c => seen && negb (main_tag c) end = false) by (destruct (ic i); try discriminate K; cbn; apply andb_false_r).
    rewrite FIN. split; [|discriminate].
    assert (CLR : forall s1, x_globals s1 = x_globals s0 -> x_root s1 = x_root s0 -> Forall kept (open_leaves s1) -> bounded (locals_clear s1)).
    { intros s1 G1 G2 F1. destruct B0. apply clear_bounded; auto; unfold gval in *; rewrite ?G1, ?G2; auto. }
    destruct (data_tag (ic i)) eqn:DT.
    + assert (EH : (let* s1 := handle_data db s0 i in Ok (locals_clear s1)) = Ok s') by (destruct (ic i); try discriminate DT; exact H).
      destruct (handle_data db s0 i) as [s1|e] eqn:E1; [|discriminate EH]. cbn [bind] in EH. injection EH as <-.
      assert (IU : u32 (ival i)) by (unfold in_32_bits in IR; destruct (ic i); try discriminate DT; exact IR).
      destruct (data_bounded db s0 i s1 B0 DT IU E1) as [G1 [G2 F1]]. apply CLR; auto.
    + destruct (ic i) eqn:EC; try discriminate K; try discriminate DT.
      * cbn [bind] in H. injection H as <-. apply CLR; auto.
        unfold open_leaves. cbn [x_enter set_levels x_stack x_current rev]. rewrite flat_map_app. cbn [flat_map]. rewrite app_nil_r. apply Forall_app. split; [apply B0|].
        constructor; [|constructor]. split; [|split; exact I]. split; [exact IR|].
        assert (XU : x_usages s0 <> []).
        { specialize (SE (LB eq_refl)). subst s0. cbn [expand_ranges x_usages]. unfold expand. destruct (x_locals s UsageMinimum); [|exact SE]. destruct (x_locals s UsageMaximum); [|exact SE].
          destruct (x_usages s); [congruence|exact SE]. }
        destruct (x_usage db s0 0) as [u|] eqn:EU; [exact (usage_u32 db s0 0 u B0 EU)|].
        unfold x_usage, last_repeat in EU. rewrite Nat.min_0_r in EU. destruct (x_usages s0) as [|a l]; [congruence|]. cbn [nth_error] in EU. destruct (negb _) in EU; discriminate EU.
      * assert (END : forall s1, x_globals s1 = x_globals s0 -> x_root s1 = x_root s0 -> Forall kept (open_leaves s1) ->
          bounded (locals_clear match x_stack s1 with [] => x_ended s1 | _ :: _ => s1 end)).
        { intros s1 G1 G2 F1. destruct (x_stack s1) eqn:ES; [|apply CLR; auto]. destruct B0. apply clear_bounded; unfold gval in *; cbn [x_ended x_globals]; rewrite ?G1; auto.
          intros t ET. cbn [x_ended x_root] in ET. injection ET as <-. eexists. split; [reflexivity|]. unfold open_leaves in F1. apply Forall_app in F1. destruct F1 as [_ F1].
          unfold lv_leaves in F1. apply Forall_app in F1. apply F1. }
        destruct (x_innamed s0).
        -- cbn [bind] in H. match type of H with Ok ?q = _ => assert (Q : s' = q) by congruence end. rewrite Q. apply END; auto. apply B0.
        -- destruct (x_leave s0 true) as [s1|e] eqn:E1; [|discriminate H]. cbn [bind] in H. match type of H with Ok ?q = _ => assert (Q : s' = q) by congruence end. rewrite Q.
           assert (G1 : x_globals s1 = x_globals s0 /\ x_root s1 = x_root s0) by (unfold x_leave in E1; destruct (x_stack s0); [discriminate E1|]; injection E1 as <-; auto).
           destruct G1 as [G1 G2]. apply END; auto. apply (leave_prefix s0 s1 kept true E1); [split; [exact I|split; exact I]|apply B0].
  - injection H as <-. split; [|intros Q; cbn [x_usages]; apply SE; destruct (ic i); try discriminate K; destruct seen; auto; discriminate Q].
    assert (UP : forall c, gval (XST (upd (x_globals s) (ic i) (iv i)) (x_usages s) (x_strings s) (x_designators s) (x_locals s) (x_stack s) (x_current s) (x_innamed s) (x_root s)) c
                 = if icls_eqb c (ic i) then ival i else gval s c).
    { intros c. unfold gval, upd. cbn [x_globals]. destruct (icls_eqb c (ic i)) eqn:Q; destruct (icls_eqb (ic i) c) eqn:Q'; try reflexivity;
        exfalso; rewrite ?icls_eqb_iff in *; subst; rewrite (proj2 (icls_eqb_iff _ _) eq_refl) in *; discriminate. }
    unfold small_item in SM. cbn [wire w_cls w_val] in SM.
    destruct B. split; auto; intros; rewrite UP;
      match goal with |- context [icls_eqb ?a ?b] => destruct (icls_eqb a b) eqn:Q; [apply icls_eqb_iff in Q|auto] end.
    + subst c. exact IR.
    + rewrite <- Q in SM. exact SM.
    + rewrite <- Q in SM. exact SM.
    + rewrite <- Q in SM. exact SM.
    + rewrite <- Q in SM. exact SM.
  - injection H as <-. assert (IU : u32 (ival i)) by (unfold in_32_bits in IR; destruct (ic i); try discriminate K; exact IR).
    assert (LU : forall c' c v, upd (x_locals s) c' (Some (iv i)) c = Some v -> u32 (py_int v)).
    { intros c' c v. unfold upd. destruct (icls_eqb _ _); [intros E; injection E as <-; exact IU|apply B]. }
    assert (AP : forall l, u32s l -> u32s (l ++ [iv i])) by (intros l F; apply Forall_app; split; [exact F|apply Forall_cons; [exact IU|apply Forall_nil]]).
    split.
    + destruct B. destruct (ic i); try discriminate K; split; auto; first [apply LU|apply AP; assumption].
    + destruct (ic i); try discriminate K; cbn [x_usages]; intros Q; try (apply SE; destruct seen; auto; discriminate Q). intros E. apply app_eq_nil in E. destruct E as [_ E]. discriminate E.
Qed.

Lemma run_bounded db l : forall s s' seen, bounded s -> (seen = true -> x_usages s <> []) -> Forall (fun i => in_32_bits (ic i) (ival i)) l ->
  Forall (fun i => small_item size count (wire i)) l -> labelled seen (map ic l) -> x_run db s l = Ok s' -> bounded s'.
Proof.
  induction l as [|i l IH]; intros s s' seen B SE IR SM LB R; cbn [x_run] in R.
  - injection R as <-. exact B.
  - destruct (x_append db s i) as [s1|e] eqn:E1; [|discriminate R]. cbn [bind] in R. apply Forall_cons_iff in IR. apply Forall_cons_iff in SM. destruct IR as [I1 I2]. destruct SM as [S1 S2].
    assert (LB2 : (ic i = Collection -> seen = true) /\ labelled (match ic i with Usage => true | c => seen && negb (main_tag c) end) (map ic l)).
    { cbn [map labelled] in LB. destruct (ic i); try (split; [discriminate|exact LB]). destruct LB as [L1 L2]. split; [auto|]. cbn. rewrite andb_false_r. exact L2. }
    destruct LB2 as [L1 L2]. destruct (step_bounded db s i s1 seen B SE I1 S1 L1 E1) as [B1 SE1]. exact (IH s1 s' _ B1 SE1 I2 S2 L2 R).
Qed.

Lemma init_bounded : 0 <= size -> 0 <= count -> bounded xst_init.
Proof.
  intros ZS ZC. split; auto; try constructor; try discriminate; try (change (gval xst_init _) with 0; lia).
  intros c. change (gval xst_init c) with 0. unfold in_32_bits. destruct (hid_signed c); lia.
Qed.

Lemma extract_compiles db db' l t : 0 <= size -> 0 <= count -> Forall (fun i => in_32_bits (ic i) (ival i)) l ->
  Forall (fun i => small_item size count (wire i)) l -> labelled false (map ic l) -> extract db l = Ok t -> exists b, compile db' false t = Ok b.
Proof.
  intros ZS ZC IR SM LB X. unfold extract in X. destruct (x_run db xst_init l) as [s|e] eqn:R; [|discriminate X]. cbn [bind] in X.
  pose proof (run_bounded db l xst_init s false (init_bounded ZS ZC) ltac:(discriminate) IR SM LB R) as B.
  destruct (x_root s) as [t'|] eqn:ER; [|discriminate X]. injection X as <-. destruct (bd_root s B t' ER) as [ms [-> F]]. apply kept_compiles. exact F.
Qed.
End Bounds.

Lemma decompile_items db blob ws t : blob_means blob ws -> decompile db blob = Ok t ->
  exists l, extract db l = Ok t /\ Forall constructed l /\ map cv l = map wcv ws.
Proof.
  intros B X. assert (FB : Forall (fun x => 0 <= x < 256) blob) by (destruct B as [raws [SI _]]; exact (short_items_bytes _ _ SI)). unfold decompile in X. rewrite blob_parse_from in X. destruct (parse_from db 0 blob) as [l f] eqn:P. cbn [appended finished] in X.
  destruct (x_run db xst_init l) as [s|e] eqn:R; [|discriminate X]. cbn [bind] in X. destruct f as [[]|e]; [|discriminate X]. cbn [bind] in X.
  destruct (parse_ok_means db 0 blob l FB P) as [ws' [B' [F M]]].
  assert (WS : ws' = ws) by (eapply blob_means_det; eassumption).
  subst ws'. destruct (parse_good db 0 blob ws B F) as [l' [P' [M' C']]]. rewrite P in P'. injection P' as <-.
  exists l. split; [|auto]. unfold extract. rewrite R. exact X.
Qed.

Lemma c57 db db' size count blob ws t : 0 <= size -> 0 <= count -> size * count < 2 ^ 32 -> blob_means blob ws ->
  Forall (small_item size count) ws -> labelled false (map w_cls ws) -> decompile db blob = Ok t -> exists b, compile db' false t = Ok b.
Proof.
  intros ZS ZC ROOM B SM LB X. destruct (decompile_items db blob ws t B X) as [l [E [_ M]]].
  assert (CV : forall (f : icls * Z -> Prop), Forall (fun w => f (wcv w)) ws -> Forall (fun i => f (cv i)) l).
  { intros f F. apply (Forall_map cv f). rewrite M. apply Forall_map. exact F. }
  apply (extract_compiles size count ROOM db db' l t ZS ZC); auto.
  - eapply Forall_impl; [|exact (delivered_range blob ws l B M)]. intros i H. apply in_32_range. exact H.
  - apply (CV (fun x => small_item size count (W (fst x) (snd x) false))). eapply Forall_impl; [|exact SM]. intros [c v e] H. exact H.
  - replace (map ic l) with (map w_cls ws); [exact LB|]. transitivity (map fst (map wcv ws)); [rewrite map_map; reflexivity|]. rewrite <- M, map_map. reflexivity.
Qed.
