(* ParserFacts.v -- lemmas about Parser.v *)
From Coq Require Import ZifyBool ZifyNat.
From Verif Require Import Py Usage Item Parser HidSpec ItemFacts.
Ltac Zify.zify_post_hook ::= Z.div_mod_to_equations.

Lemma split_page u : py_int (fst (split u)) = Z.shiftr (py_int u) 16.
Proof. unfold split. destruct (split_dot (pval_name u)) as [[p n]|]; reflexivity. Qed.

Lemma split_id u : py_int (snd (split u)) = Z.land (py_int u) 0xffff.
Proof. unfold split. destruct (split_dot (pval_name u)) as [[p n]|]; reflexivity. Qed.

Lemma land_ffff z : Z.land z 0xffff = z mod 65536.
Proof. change 0xffff with (Z.ones 16). rewrite Z.land_ones by lia. reflexivity. Qed.

Lemma shiftr_16 z : Z.shiftr z 16 = z / 65536.
Proof. rewrite Z.shiftr_div_pow2 by lia. reflexivity. Qed.

Lemma shiftr_16_zero z : 0 <= z -> (Z.shiftr z 16 =? 0) = (z <? 65536).
Proof. intros. rewrite shiftr_16. lia. Qed.

Lemma lor_page page no :
  0 <= no < 65536 -> Z.lor (Z.shiftl page 16) no = page * 65536 + no.
Proof.
  intros H. rewrite Z.shiftl_mul_pow2 by lia.
  assert (D : Z.land (page * 2 ^ 16) no = 0).
  { apply Z.bits_inj'. intros n Hn. rewrite Z.land_spec, Z.bits_0.
    destruct (Z.ltb_spec n 16).
    - rewrite Z.mul_pow2_bits_low by lia. reflexivity.
    - rewrite andb_comm, (Z.bits_above_log2 no n); auto; try lia.
      destruct (Z.eq_dec no 0) as [->|]; [simpl; lia|].
      apply Z.log2_lt_pow2; try lia.
      apply Z.lt_le_trans with (2 ^ 16); [change (2 ^ 16) with 65536; lia|].
      apply Z.pow_le_mono_r; lia. }
  rewrite <- Z.lxor_lor, <- Z.add_nocarry_lxor by exact D. reflexivity.
Qed.

Lemma inpage_int db page no :
  0 <= no < 65536 -> py_int (inpage db page no) = no.
Proof.
  intros H. unfold inpage. rewrite split_id, lookup_int. simpl py_int.
  rewrite lor_page, land_ffff by auto. lia.
Qed.

Lemma mk_item_constructed db c v i : mk_item db c v = Ok i -> constructed i.
Proof. intros H. exists db, v. rewrite (mk_item_class _ _ _ _ H). auto. Qed.

Lemma parser_append_ok db page i :
  constructed i ->
  exists j, parser_append db page i =
              (match ic i with UsagePage => ival i | _ => page end, Ok j)
            /\ ic j = ic i /\ ival j = ival i /\ constructed j.
Proof.
  intros C. pose proof (constructed_facts i C) as [H1 [H2 _]].
  unfold parser_append.
  destruct (ic i) eqn:CI; cbv iota beta;
    try (exists i; rewrite CI; auto; fail).
  - destruct (item_init_some UsagePage (usage_page (ival i))) as [j Hj].
    { right. unfold usage_page. simpl. destruct H1; [discriminate|lia]. }
    assert (M : mk_item db UsagePage (Some (usage_page (ival i))) = Ok j) by exact Hj.
    rewrite M. pose proof (mk_item_class _ _ _ _ M) as JC. rewrite JC.
    exists j. split; auto. split; auto. split.
    + apply item_init_ok in Hj. destruct Hj as [_ [Hj _]]. exact Hj.
    + eapply mk_item_constructed; eauto.
  - assert (0 <= ival i) as P by (destruct H1; [discriminate|lia]).
    rewrite CI, shiftr_16_zero by auto.
    destruct (ival i <? 65536) eqn:E; [|exists i; auto].
    destruct (proj2 (mk_item_accepts db Usage (inpage db page (ival i)) eq_refl)) as [j Hj].
    { rewrite inpage_int by lia. split; [right; auto|discriminate]. }
    rewrite Hj. exists j. split; auto. split; [eapply mk_item_class; eauto|].
    split; [|eapply mk_item_constructed; eauto].
    rewrite (mk_item_int db Usage _ j eq_refl Hj), inpage_int; lia.
  - assert (0 <= ival i) as P by (destruct H1; [discriminate|lia]).
    rewrite CI, shiftr_16_zero by auto.
    destruct (ival i <? 65536) eqn:E; [|exists i; auto].
    destruct (proj2 (mk_item_accepts db UsageMinimum (inpage db page (ival i)) eq_refl)) as [j Hj].
    { rewrite inpage_int by lia. split; [right; auto|discriminate]. }
    rewrite Hj. exists j. split; auto. split; [eapply mk_item_class; eauto|].
    split; [|eapply mk_item_constructed; eauto].
    rewrite (mk_item_int db UsageMinimum _ j eq_refl Hj), inpage_int; lia.
  - assert (0 <= ival i) as P by (destruct H1; [discriminate|lia]).
    rewrite CI, shiftr_16_zero by auto.
    destruct (ival i <? 65536) eqn:E; [|exists i; auto].
    destruct (proj2 (mk_item_accepts db UsageMaximum (inpage db page (ival i)) eq_refl)) as [j Hj].
    { rewrite inpage_int by lia. split; [right; auto|discriminate]. }
    rewrite Hj. exists j. split; auto. split; [eapply mk_item_class; eauto|].
    split; [|eapply mk_item_constructed; eauto].
    rewrite (mk_item_int db UsageMaximum _ j eq_refl Hj), inpage_int; lia.
Qed.

(* ------------------------------------------------------------------ *)

Lemma data_size_code h : data_size h = S (size_of_code (h mod 4)).
Proof.
  unfold data_size. rewrite prefix_size. unfold size_of_code.
  pose proof (Z.mod_pos_bound h 4).
  assert (h mod 4 = 0 \/ h mod 4 = 1 \/ h mod 4 = 2 \/ h mod 4 = 3) as D by lia.
  destruct D as [->|[->|[->| ->]]]; reflexivity.
Qed.

Lemma data_size_pos h : exists k, data_size h = S k.
Proof. rewrite data_size_code. eauto. Qed.

(* enough fuel: the result does not depend on it *)
Lemma blob_parse_fuel_enough f1 f2 db page blob :
  (length blob <= f1)%nat -> (length blob <= f2)%nat ->
  blob_parse_fuel f1 db page blob = blob_parse_fuel f2 db page blob.
Proof.
  revert f2 page blob. induction f1 as [|f1 IH]; intros f2 page blob L1 L2.
  - destruct blob; [|simpl in L1; lia]. destruct f2; reflexivity.
  - destruct f2 as [|f2].
    + destruct blob; [|simpl in L2; lia]. reflexivity.
    + destruct blob as [|h t]; [reflexivity|].
      cbn [blob_parse_fuel].
      destruct (parse db (firstn (data_size h) (h :: t))) as [i|e]; auto.
      destruct (parser_append db page i) as [p [j|e]]; auto.
      rewrite (IH f2); auto.
      all: destruct (data_size_pos h) as [k ->]; cbn [skipn];
        rewrite skipn_length; simpl in *; lia.
Qed.

(* the parser starting with page [page] *)
Definition parse_from (db : udb) (page : Z) (blob : list Z) : run :=
  blob_parse_fuel (length blob) db page blob.

Lemma blob_parse_from db blob : blob_parse db blob = parse_from db 0 blob.
Proof. reflexivity. Qed.

Lemma parse_from_nil db page : parse_from db page [] = Run [] (Ok tt).
Proof. reflexivity. Qed.

Lemma parse_from_cons db page h t :
  parse_from db page (h :: t) =
  let n := size_of_code (h mod 4) in
  match parse db (h :: firstn n t) with
  | Err e => Run [] (Err e)
  | Ok i =>
      match parser_append db page i with
      | (_, Err e) => Run [] (Err e)
      | (page', Ok i') =>
          let r := parse_from db page' (skipn n t) in
          Run (i' :: appended r) (finished r)
      end
  end.
Proof.
  unfold parse_from. cbn [length blob_parse_fuel]. rewrite data_size_code. cbn [firstn skipn].
  destruct (parse db (h :: firstn _ t)) as [i|e]; auto.
  destruct (parser_append db page i) as [p [j|e]]; auto.
  rewrite (blob_parse_fuel_enough (length t) (length (skipn (size_of_code (h mod 4)) t)));
    auto. rewrite skipn_length. lia.
Qed.

(** what the parser requires of a complete item *)
Definition acceptable (r : raw_item) : Prop :=
  exists w, interp_raw r = Some w /\ (zero_only (w_cls w) = true -> w_val w = 0).

Definition matches (i : item) (r : raw_item) : Prop :=
  exists w, interp_raw r = Some w /\ ic i = w_cls w /\ ival i = w_val w.

Lemma decode_nonneg c data :
  Forall (fun b => 0 <= b < 256) data ->
  signed c = true \/ 0 <= decode (signed c) data.
Proof.
  intros F. destruct (signed c); auto. right. unfold decode.
  apply le_value_bound in F. change unsigned_le with le_value. lia.
Qed.

(* one complete item: accepted iff acceptable *)
Lemma parse_item_iff db h data :
  0 <= h < 256 ->
  Forall (fun b => 0 <= b < 256) data -> length data = size_of_code (h mod 4) ->
  let r := Raw ((h / 4) mod 4) (h / 16) data in
  (acceptable r ->
   exists i, parse db (h :: data) = Ok i /\ matches i r /\ constructed i)
  /\ (~ acceptable r -> exists e, parse db (h :: data) = Err e).
Proof.
  intros Hh F L r. rewrite parse_complete by auto. unfold acceptable, matches, interp_raw. simpl.
  destruct (hid_class _ _) as [c|] eqn:HC.
  - change (if hid_signed c then signed_le data else unsigned_le data) with (decode (signed c) data).
    assert (NC : neg_collection c (VInt (decode (signed c) data)) = false).
    { destruct c; simpl; auto. pose proof (decode_nonneg Collection data F).
      simpl in *. destruct H; [discriminate|lia]. }
    pose proof (mk_item_accepts db c (VInt (decode (signed c) data)) NC) as A.
    simpl in A. split.
    + intros [w [Hw Hz]]. inversion Hw. subst w. simpl in Hz.
      destruct (proj2 A) as [i Hi].
      { split; auto. apply decode_nonneg; auto. }
      exists i. split; auto. split; [|eapply mk_item_constructed; eauto].
      eexists. split; eauto. simpl. split; [eapply mk_item_class; eauto|].
      apply mk_item_int in Hi; auto.
    + intros NA. destruct (mk_item db c _) as [i|e] eqn:E; [|eauto].
      exfalso. apply NA. eexists. split; eauto. simpl. apply A. eauto.
  - split; [intros [w [Hw _]]; discriminate | eauto].
Qed.

Lemma constructed_page db page i :
  exists p', fst (parser_append db page i) = p'.
Proof. eauto. Qed.

(* a run over complete acceptable items *)
Lemma parse_prefix db b raws :
  short_items b raws -> Forall acceptable raws ->
  forall page rest,
  exists l page',
    Forall2 matches l raws /\ Forall constructed l /\
    parse_from db page (b ++ rest) =
    let r := parse_from db page' rest in Run (l ++ appended r) (finished r).
Proof.
  induction 1 as [|p data rest0 l Hp HF HL HS IH]; intros HA page rest.
  - exists [], page. simpl. split; auto. split; auto. destruct (parse_from db page rest); auto.
  - inversion HA; subst. rename H1 into HA1. rename H2 into HA2.
    simpl app. rewrite parse_from_cons. cbv zeta.
    rewrite <- HL, <- app_assoc, firstn_app, firstn_all, Nat.sub_diag, skipn_app, skipn_all, Nat.sub_diag.
    cbn [firstn skipn]. rewrite app_nil_r, app_nil_l.
    destruct (proj1 (parse_item_iff db p data Hp HF HL) HA1) as [i [Hi [Hm Hc]]].
    rewrite Hi. destruct (parser_append_ok db page i Hc) as [j [Hj [J1 [J2 J3]]]]. rewrite Hj.
    destruct (IH HA2 (match ic i with UsagePage => ival i | _ => page end) rest)
      as [l' [page' [M [K E]]]].
    rewrite E. exists (j :: l'), page'. split; [|split].
    + constructor; auto. destruct Hm as [w [W1 [W2 W3]]]. exists w. repeat split; congruence.
    + constructor; auto.
    + reflexivity.
Qed.

Lemma app_same_length {A} (a b c d : list A) :
  a ++ b = c ++ d -> length a = length c -> a = c /\ b = d.
Proof.
  revert c. induction a as [|x a IH]; intros [|y c] H L; simpl in *; try discriminate; auto.
  injection H as -> H. injection L as L. destruct (IH c H L) as [-> ->]. auto.
Qed.

Lemma acceptable_dec r : acceptable r \/ ~ acceptable r.
Proof.
  unfold acceptable. destruct (interp_raw r) as [w|].
  - destruct (zero_only (w_cls w)) eqn:Z.
    + destruct (Z.eq_dec (w_val w) 0).
      * left. eexists. split; eauto.
      * right. intros [w' [H1 H2]]. inversion H1. subst w'. auto.
    + left. exists w. split; auto. intros. congruence.
  - right. intros [w' [H1 _]]. discriminate.
Qed.

(* every blob splits into a longest accepted prefix and a rest that is empty
   or not parseable *)
Lemma blob_dichotomy db b :
  Forall (fun x => 0 <= x < 256) b ->
  exists raws good bad,
    b = good ++ bad /\ short_items good raws /\ Forall acceptable raws /\
    (bad = [] \/
     (forall page, exists e, parse_from db page bad = Run [] (Err e)) /\
     (forall raws' , short_items bad raws' -> exists r t, raws' = r :: t /\ ~ acceptable r)).
Proof.
  remember (length b) as n. revert b Heqn.
  induction n as [n IH] using lt_wf_ind. intros b Hn F.
  destruct b as [|p t].
  - exists [], [], []. repeat split; auto. constructor.
  - inversion F; subst. rename H1 into Hp. rename H2 into Ft.
    destruct (Nat.lt_ge_cases (length t) (size_of_code (p mod 4))) as [LT|GE].
    + exists [], [], (p :: t). split; auto. split; [constructor|]. split; auto. right. split.
      * intros page. rewrite parse_from_cons. cbv zeta. rewrite firstn_all2 by lia.
        destruct (parse_truncated db p t LT) as [e ->]. eauto.
      * intros raws' S. inversion S; subst. exfalso. rewrite app_length in LT. lia.
    + assert (exists data rest, t = data ++ rest /\ length data = size_of_code (p mod 4))
        as [data [rest [T HL]]].
      { exists (firstn (size_of_code (p mod 4)) t), (skipn (size_of_code (p mod 4)) t).
        split; [symmetry; apply firstn_skipn | apply firstn_length_le; auto]. }
      subst t. apply Forall_app in Ft. destruct Ft as [Fd Fr].
      destruct (parse_item_iff db p data Hp Fd HL) as [PA PN].
      destruct (acceptable_dec (Raw ((p / 4) mod 4) (p / 16) data)) as [A|NA].
      * destruct (IH (length rest)) with (b := rest) as [raws [good [bad [E1 [E2 [E3 E4]]]]]]; auto.
        { simpl. rewrite app_length. lia. }
        exists (Raw ((p / 4) mod 4) (p / 16) data :: raws), (p :: data ++ good), bad. split.
        { rewrite E1. simpl. rewrite app_assoc. reflexivity. }
        split; [constructor; auto|]. split; auto.
      * exists [], [], (p :: data ++ rest). split; auto. split; [constructor|]. split; auto.
        right. split.
        { intros page. rewrite parse_from_cons. cbv zeta.
          rewrite <- HL, firstn_app, firstn_all, Nat.sub_diag. cbn [firstn]. rewrite app_nil_r.
          destruct (PN NA) as [e ->]. eauto. }
        { intros raws' S. inversion S as [|p0 d0 r0 l0 Q1 Q2 Q3 Q4 Q5 Q6].
          assert (D0 : d0 = data).
          { assert (H0 : d0 ++ r0 = data ++ rest) by congruence.
            apply app_same_length in H0; [tauto|congruence]. }
          subst d0. eauto. }
Qed.

(* ------------------------------------------------------------------ *)

Lemma short_items_fun b r1 r2 : short_items b r1 -> short_items b r2 -> r1 = r2.
Proof.
  intros H. revert r2. induction H as [|p data rest l Hp HF HL HS IH]; intros r2 H2.
  - inversion H2; auto.
  - inversion H2 as [|p0 d0 r0 l0 Q1 Q2 Q3 Q4 Q5 Q6]. subst p0.
    assert (E : d0 ++ r0 = data ++ rest) by congruence.
    apply app_same_length in E; [|congruence]. destruct E as [-> ->].
    f_equal. auto.
Qed.

Lemma map_some_inj {A} (l1 l2 : list A) : map Some l1 = map Some l2 -> l1 = l2.
Proof.
  revert l2. induction l1 as [|x l1 IH]; intros [|y l2] H; simpl in *; try discriminate; auto.
  injection H as -> H. f_equal; auto.
Qed.

Lemma blob_means_fun b w1 w2 : blob_means b w1 -> blob_means b w2 -> w1 = w2.
Proof.
  intros [r1 [S1 E1]] [r2 [S2 E2]]. rewrite (short_items_fun _ _ _ S1 S2) in E1.
  apply map_some_inj. congruence.
Qed.

Lemma short_items_app b1 b2 r1 r2 :
  short_items b1 r1 -> short_items b2 r2 -> short_items (b1 ++ b2) (r1 ++ r2).
Proof.
  intros H H2. induction H; simpl; auto. rewrite <- app_assoc. constructor; auto.
Qed.

Lemma blob_means_app b1 b2 w1 w2 :
  blob_means b1 w1 -> blob_means b2 w2 -> blob_means (b1 ++ b2) (w1 ++ w2).
Proof.
  intros [r1 [S1 E1]] [r2 [S2 E2]]. exists (r1 ++ r2). split.
  - apply short_items_app; auto.
  - rewrite !map_app. congruence.
Qed.

(** what a host makes of the bytes of one item *)
Definition wire (i : item) : witem :=
  W (ic i) (ival i) (Nat.eqb (payload_width i) 4).

Lemma bytes_means i b : bytes i = Ok b -> blob_means b [wire i].
Proof.
  intros H.
  assert (R : in_range (ic i) (ival i))
    by (eapply bytes_with_range; [|apply H]; intros; apply Z.log2_nonneg).
  rewrite (bytes_eq i R) in H. inversion H. subst b. clear H.
  destruct (header_fields (ic i) (payload_width i)) as [HB [H4 [HK HT]]].
  exists [Raw (kind_int (kind_of (ic i))) (tag_of (ic i)) (le_bytes (payload_width i) (ival i))].
  split.
  - rewrite <- HK, <- HT. rewrite <- (app_nil_r (le_bytes _ _)) at 1.
    apply (si_cons (header (ic i) (payload_width i))); auto.
    + apply le_bytes_bytes.
    + rewrite le_bytes_length, H4, size_of_code_of; auto. apply payload_sizes.
    + constructor.
  - unfold interp_raw. simpl. rewrite hid_class_tag, le_bytes_length.
    unfold wire. do 3 f_equal.
    apply (decode_encode (signed (ic i))).
    + apply payload_sizes.
    + apply payload_fits; auto.
Qed.

Lemma serialize_means l b : serialize l = Ok b -> blob_means b (map wire l).
Proof.
  revert b. induction l as [|i l IH]; simpl; intros b H.
  - inversion H. exists []. split; constructor.
  - destruct (bytes i) as [bi|] eqn:B; [|discriminate]. simpl in H.
    destruct (serialize l) as [s|]; [|discriminate]. simpl in H. inversion H.
    change (wire i :: map wire l) with ([wire i] ++ map wire l).
    apply blob_means_app; auto. apply bytes_means; auto.
Qed.

Definition same_item (i j : item) : Prop := ic i = ic j /\ ival i = ival j.

Lemma means_acceptable b raws ws :
  short_items b raws -> map interp_raw raws = map Some ws ->
  Forall (fun w => zero_only (w_cls w) = true -> w_val w = 0) ws ->
  Forall acceptable raws.
Proof.
  intros _ E. revert ws E. induction raws as [|r raws IH]; intros [|w ws] E F; simpl in *;
    try discriminate; auto.
  injection E as E1 E2. inversion F; subst. constructor; eauto.
  exists w. auto.
Qed.

Lemma acceptable_means raws :
  Forall acceptable raws ->
  exists ws, map interp_raw raws = map Some ws /\
    Forall (fun w => zero_only (w_cls w) = true -> w_val w = 0) ws.
Proof.
  induction 1 as [|r raws [w [H1 H2]] _ [ws [E F]]].
  - exists []. auto.
  - exists (w :: ws). simpl. split; [congruence|]. constructor; auto.
Qed.

Definition cv (i : item) : icls * Z := (ic i, ival i).
Definition wcv (w : witem) : icls * Z := (w_cls w, w_val w).

Lemma matches_map l raws ws :
  Forall2 matches l raws -> map interp_raw raws = map Some ws -> map cv l = map wcv ws.
Proof.
  intros H. revert ws. induction H as [|i r l raws [w [H1 [H2 H3]]] _ IH];
    intros [|w' ws] E; simpl in *; try discriminate; auto.
  injection E as E1 E2. f_equal; auto. assert (w = w') by congruence. subst.
  unfold cv, wcv. congruence.
Qed.

(* the whole blob is well formed *)
Lemma parse_good db page b ws :
  blob_means b ws ->
  Forall (fun w => zero_only (w_cls w) = true -> w_val w = 0) ws ->
  exists l, parse_from db page b = Run l (Ok tt) /\ map cv l = map wcv ws
            /\ Forall constructed l.
Proof.
  intros [raws [S E]] F.
  destruct (parse_prefix db b raws S (means_acceptable _ _ _ S E F) page [])
    as [l [page' [M [C P]]]].
  rewrite app_nil_r in P. rewrite P, parse_from_nil. simpl. rewrite app_nil_r.
  exists l. split; auto. split; auto. eapply matches_map; eauto.
Qed.

(* a well-formed prefix followed by something that does not parse *)
Lemma parse_bad db b ws bad :
  blob_means b ws ->
  Forall (fun w => zero_only (w_cls w) = true -> w_val w = 0) ws ->
  (forall page, exists e, parse_from db page bad = Run [] (Err e)) ->
  forall page,
  exists l e, parse_from db page (b ++ bad) = Run l (Err e) /\ map cv l = map wcv ws.
Proof.
  intros [raws [S E]] F B page.
  destruct (parse_prefix db b raws S (means_acceptable _ _ _ S E F) page bad)
    as [l [page' [M [C P]]]].
  destruct (B page') as [e Be].
  exists l, e. rewrite P, Be. simpl. rewrite app_nil_r. split; auto.
  eapply matches_map; eauto.
Qed.

(* a bad item at the front: truncated, unknown or refused *)
Lemma parse_bad_front db p t :
  0 <= p < 256 -> Forall (fun x => 0 <= x < 256) t ->
  (forall data rest, t = data ++ rest -> length data = size_of_code (p mod 4) ->
     ~ acceptable (Raw ((p / 4) mod 4) (p / 16) data)) ->
  forall page, exists e, parse_from db page (p :: t) = Run [] (Err e).
Proof.
  intros Hp Ft NA page. rewrite parse_from_cons. cbv zeta.
  destruct (Nat.lt_ge_cases (length t) (size_of_code (p mod 4))) as [LT|GE].
  - rewrite firstn_all2 by lia. destruct (parse_truncated db p t LT) as [e ->]. eauto.
  - set (d := firstn (size_of_code (p mod 4)) t).
    assert (L : length d = size_of_code (p mod 4)) by (apply firstn_length_le; auto).
    assert (Fd : Forall (fun x => 0 <= x < 256) d).
    { apply Forall_forall. intros x Hx. rewrite Forall_forall in Ft. apply Ft.
      rewrite <- (firstn_skipn (size_of_code (p mod 4)) t). apply in_or_app. auto. }
    destruct (proj2 (parse_item_iff db p d Hp Fd L)) as [e ->]; eauto.
    apply (NA d (skipn (size_of_code (p mod 4)) t)); auto.
    symmetry. apply firstn_skipn.
Qed.

Lemma short_items_bytes b raws : short_items b raws -> Forall (fun x => 0 <= x < 256) b.
Proof. induction 1; auto. constructor; auto. apply Forall_app. auto. Qed.

(* success means well formed *)
Lemma parse_ok_means db page b l :
  Forall (fun x => 0 <= x < 256) b ->
  parse_from db page b = Run l (Ok tt) ->
  exists ws, blob_means b ws /\
    Forall (fun w => zero_only (w_cls w) = true -> w_val w = 0) ws /\ map cv l = map wcv ws.
Proof.
  intros FB H. destruct (blob_dichotomy db b FB) as [raws [good [bad [E [S [A D]]]]]].
  destruct (acceptable_means raws A) as [ws [EW FW]].
  destruct (parse_prefix db good raws S A page bad) as [l' [page' [M [C P]]]].
  rewrite <- E, H in P.
  destruct D as [->|[D _]].
  - exists ws. rewrite app_nil_r in E. subst b. split; [exists raws; auto|]. split; auto.
    rewrite parse_from_nil in P. simpl in P. rewrite app_nil_r in P. inversion P. subst.
    eapply matches_map; eauto.
  - destruct (D page') as [e De]. rewrite De in P. simpl in P. discriminate.
Qed.

(* two blobs with the same classes and numbers are delivered identically *)
Lemma parse_same db b1 r1 :
  short_items b1 r1 -> Forall acceptable r1 ->
  forall b2 r2 ws1 ws2 page, short_items b2 r2 ->
  map interp_raw r1 = map Some ws1 -> map interp_raw r2 = map Some ws2 ->
  map wcv ws1 = map wcv ws2 ->
  parse_from db page b1 = parse_from db page b2.
Proof.
  induction 1 as [|p data rest l Hp HF HL HS IH]; intros HA b2 r2 ws1 ws2 page S2 E1 E2 E.
  - destruct ws1; [|discriminate]. destruct ws2; [|discriminate].
    destruct r2; [|discriminate]. inversion S2. auto.
  - destruct ws1 as [|w1 ws1]; [discriminate|]. destruct ws2 as [|w2 ws2]; [discriminate|].
    destruct r2 as [|x2 r2]; [discriminate|].
    inversion S2 as [|p2 d2 rest2 l2 Hp2 HF2 HL2 HS2]. subst.
    inversion HA as [|? ? HA1 HA2]. subst.
    cbn [map] in E1, E2, E. injection E1 as E1 E1'. injection E2 as E2 E2'.
    injection E as Ec Ev E'.
    rewrite !parse_from_cons. cbv zeta.
    rewrite <- HL, firstn_app, firstn_all, Nat.sub_diag, skipn_app, skipn_all, Nat.sub_diag.
    rewrite <- HL2, firstn_app, firstn_all, Nat.sub_diag, skipn_app, skipn_all, Nat.sub_diag.
    cbn [firstn skipn]. rewrite !app_nil_r, !app_nil_l.
    assert (P : parse db (p :: data) = parse db (p2 :: d2)).
    { rewrite !parse_complete by auto. unfold interp_raw in E1, E2. simpl in E1, E2.
      destruct (hid_class _ _) as [c1|] in E1 |- *; [|discriminate].
      destruct (hid_class _ _) as [c2|] in E2 |- *; [|discriminate].
      injection E1 as <-. injection E2 as <-. simpl in Ec, Ev. subst c2.
      unfold decode. rewrite signed_hid. rewrite Ev. reflexivity. }
    rewrite P. destruct (parse db (p2 :: d2)) as [i|e]; auto.
    destruct (parser_append db page i) as [page' [j|e]]; auto.
    rewrite (IH HA2 rest2 r2 ws1 ws2 page' HS2 E1' E2' E'). reflexivity.
Qed.

(* everything delivered can be serialised *)
Lemma raw_decode_range b raws :
  short_items b raws -> forall r w, In r raws -> interp_raw r = Some w ->
  in_range (w_cls w) (w_val w).
Proof.
  induction 1 as [|p data rest l Hp HF HL HS IH]; simpl; [tauto|].
  intros r w [<-|I] E; [|eauto].
  unfold interp_raw in E. simpl in E.
  destruct (hid_class _ _) as [c|]; [|discriminate]. injection E as <-. simpl.
  change (if hid_signed c then signed_le data else unsigned_le data) with (decode (signed c) data).
  unfold in_range. eapply fits_range; [|apply decode_fits; auto].
  - rewrite HL. apply size_cases.
  - rewrite HL. apply size_cases.
Qed.

Lemma serialize_ok l :
  Forall (fun i => in_range (ic i) (ival i)) l -> exists b, serialize l = Ok b.
Proof.
  induction 1 as [|i l H _ [b E]]; simpl; [eauto|].
  rewrite (bytes_eq i H). simpl. rewrite E. simpl. eauto.
Qed.

Lemma delivered_range b ws l :
  blob_means b ws -> map cv l = map wcv ws -> Forall (fun i => in_range (ic i) (ival i)) l.
Proof.
  intros [raws [S E]] M. apply Forall_forall. intros i Hi.
  assert (I : In (cv i) (map wcv ws)) by (rewrite <- M; apply in_map; auto).
  apply in_map_iff in I. destruct I as [w [Hw I]].
  assert (I2 : In (Some w) (map interp_raw raws)) by (rewrite E; apply in_map; auto).
  apply in_map_iff in I2. destruct I2 as [r [Hr I2]].
  pose proof (raw_decode_range b raws S r w I2 Hr) as R. unfold cv, wcv in Hw.
  injection Hw as W1 W2. rewrite <- W1, <- W2. auto.
Qed.

Lemma wire_cv l : map wcv (map wire l) = map cv l.
Proof. rewrite map_map. reflexivity. Qed.

(* the converter *)
Lemma convert_inv db b out :
  Forall (fun x => 0 <= x < 256) b -> convert db b = Ok out ->
  exists l ws, blob_parse db b = Run l (Ok tt) /\ serialize l = Ok out /\
    blob_means b ws /\ blob_means out (map wire l) /\ map cv l = map wcv ws /\
    Forall (fun w => zero_only (w_cls w) = true -> w_val w = 0) ws.
Proof.
  intros FB H. unfold convert in H.
  destruct (blob_parse db b) as [l f] eqn:P. simpl in H.
  destruct (serialize l) as [o|] eqn:S; [|discriminate]. simpl in H.
  destruct f as [[]|]; [|discriminate]. simpl in H. injection H as <-.
  rewrite blob_parse_from in P.
  destruct (parse_ok_means db 0 b l FB P) as [ws [B [F M]]].
  exists l, ws. repeat split; auto. apply serialize_means; auto.
Qed.

Lemma convert_succeeds db b ws :
  blob_means b ws ->
  Forall (fun w => zero_only (w_cls w) = true -> w_val w = 0) ws ->
  exists out, convert db b = Ok out.
Proof.
  intros B F. destruct (parse_good db 0 b ws B F) as [l [P [M _]]].
  unfold convert. rewrite blob_parse_from, P. simpl.
  destruct (serialize_ok l (delivered_range b ws l B M)) as [o ->]. simpl. eauto.
Qed.

Lemma convert_reparse db b out :
  Forall (fun x => 0 <= x < 256) b -> convert db b = Ok out ->
  blob_parse db out = blob_parse db b.
Proof.
  intros FB H. destruct (convert_inv db b out FB H) as [l [ws [P [S [B [O [M F]]]]]]].
  destruct B as [raws [SB EB]]. destruct O as [ro [SO EO]].
  rewrite !blob_parse_from. symmetry.
  eapply parse_same; eauto.
  - eapply means_acceptable; eauto.
  - rewrite wire_cv. auto.
Qed.

Lemma convert_idem db b out :
  Forall (fun x => 0 <= x < 256) b -> convert db b = Ok out -> convert db out = Ok out.
Proof.
  intros FB H. unfold convert. rewrite (convert_reparse db b out FB H). exact H.
Qed.

(* ------------------------------------------------------------------ *)
(** what a host reads does not depend on the width of the payload, except
    for usages *)

Definition is_usage_cls (c : icls) : bool :=
  match c with Usage | UsageMinimum | UsageMaximum => true | _ => false end.

Definition same_wire (w1 w2 : witem) : Prop :=
  w_cls w1 = w_cls w2 /\ w_val w1 = w_val w2 /\
  (is_usage_cls (w_cls w1) = true -> w_ext w1 = w_ext w2).

Lemma h_step_same {A} (obs : gtab -> locals -> icls -> Z -> list A) s w1 w2 :
  same_wire w1 w2 -> h_step obs s w1 = h_step obs s w2.
Proof.
  destruct w1 as [c v e1], w2 as [c2 v2 e2]. intros [H1 [H2 H3]]. simpl in *. subst c2 v2.
  unfold h_step. simpl. destruct c; simpl; try reflexivity;
    try (rewrite H3 by reflexivity; reflexivity);
    destruct s as [g st [us ds ss dl]]; reflexivity.
Qed.

Lemma h_run_same {A} (obs : gtab -> locals -> icls -> Z -> list A) l1 l2 :
  Forall2 same_wire l1 l2 -> forall s, h_run obs s l1 = h_run obs s l2.
Proof.
  induction 1 as [|w1 w2 l1 l2 H _ IH]; intros s; simpl; auto.
  rewrite (h_step_same obs s w1 w2 H). destruct (h_step obs s w2) as [s1 o1].
  rewrite IH. reflexivity.
Qed.

Lemma host_view_same m l1 l2 :
  Forall2 same_wire l1 l2 -> host_view m l1 = host_view m l2.
Proof. intros H. unfold host_view. rewrite (h_run_same _ _ _ H). reflexivity. Qed.

Lemma payload_width_4 i :
  signed (ic i) = false -> 0 <= ival i ->
  Nat.eqb (payload_width i) 4 = (65536 <=? ival i).
Proof.
  intros S P. unfold payload_width, width, fitsb. rewrite S.
  change (2 ^ (8 * Z.of_nat 1)) with 256. change (2 ^ (8 * Z.of_nat 2)) with 65536.
  destruct (empty_payload i) eqn:E.
  - unfold empty_payload in E. simpl. lia.
  - destruct ((0 <=? ival i) && (ival i <? 256)) eqn:E1; [simpl; lia|].
    destruct ((0 <=? ival i) && (ival i <? 65536)) eqn:E2; simpl; lia.
Qed.

Definition ext_sound (w : witem) : Prop :=
  is_usage_cls (w_cls w) = true -> w_ext w = true -> 65536 <= w_val w.

Lemma short_ext b raws :
  short_items b raws -> forall r w, In r raws -> interp_raw r = Some w ->
  is_usage_cls (w_cls w) = true -> 0 <= w_val w /\ (65536 <= w_val w -> w_ext w = true).
Proof.
  induction 1 as [|p data rest l Hp HF HL HS IH]; simpl; [tauto|].
  intros r w [<-|I] E U; [|eauto].
  unfold interp_raw in E. simpl in E.
  destruct (hid_class _ _) as [c|]; [|discriminate]. injection E as <-. simpl in *.
  assert (S : hid_signed c = false) by (destruct c; simpl in *; congruence).
  rewrite S. change unsigned_le with le_value.
  pose proof (le_value_bound data HF) as B. split; [lia|]. intros Q.
  pose proof (size_cases p) as C. rewrite <- HL in C.
  destruct C as [C|[C|[C|C]]]; rewrite C in *; auto;
    [change (256 ^ Z.of_nat 0) with 1 in B
    |change (256 ^ Z.of_nat 1) with 256 in B
    |change (256 ^ Z.of_nat 2) with 65536 in B]; lia.
Qed.

Lemma wire_same b ws l :
  blob_means b ws -> Forall ext_sound ws -> map cv l = map wcv ws ->
  Forall2 same_wire (map wire l) ws.
Proof.
  intros [raws [S E]] X M.
  assert (K : forall w, In w ws -> is_usage_cls (w_cls w) = true ->
              0 <= w_val w /\ w_ext w = (65536 <=? w_val w)).
  { intros w I U.
    assert (I2 : In (Some w) (map interp_raw raws)) by (rewrite E; apply in_map; auto).
    apply in_map_iff in I2. destruct I2 as [r [Hr I2]].
    pose proof (short_ext b raws S r w I2 Hr U) as [P1 P2].
    rewrite Forall_forall in X. pose proof (X w I U).
    split; auto. destruct (w_ext w) eqn:EE.
    - symmetry. apply Z.leb_le; auto.
    - symmetry. apply Z.leb_gt. destruct (Z.lt_ge_cases (w_val w) 65536); auto.
      specialize (P2 ltac:(lia)). congruence. }
  clear S E X. revert ws M K.
  induction l as [|i l IH]; intros [|w ws] M K; simpl in *; try discriminate; constructor.
  - injection M as M1 M2 M3. unfold same_wire, wire. simpl. split; auto. split; auto.
    intros U. rewrite M1 in U. destruct (K w (or_introl eq_refl) U) as [K1 K2].
    rewrite K2, <- M2. apply payload_width_4; [|lia].
    rewrite M1. destruct (w_cls w); simpl in *; congruence.
  - injection M as M1 M2 M3. apply IH; auto.
Qed.
