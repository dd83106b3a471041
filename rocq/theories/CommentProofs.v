(* CommentProofs.v -- proofs for C73 *)
From Coq Require Import ZArith List Bool String Ascii Lia ZifyBool.
From Coq Require Import DecimalString DecimalPos DecimalZ.
From Verif Require Import Py Usage Item Parser TextFormats HidSpec Spec ItemFacts ParserFacts CodecProofs TextProofs CommentSpec.
Import ListNotations.
Local Open Scope list_scope.
Local Open Scope Z_scope.
Ltac Zify.zify_post_hook ::= Z.div_mod_to_equations.

Lemma tag_named c : tag_name c = hid_item_name c.
Proof. destruct c; reflexivity. Qed.

Lemma join_listed l : join "|" l = listed l.
Proof. induction l as [|x [|y l] IH]; auto. cbn [join listed] in *. rewrite IH. reflexivity. Qed.

Lemma land_bit v k : 0 <= k -> negb (Z.land (2 ^ k) v =? 0) = Z.testbit v k.
Proof.
  intros K. assert (E : Z.land (2 ^ k) v = if Z.testbit v k then 2 ^ k else 0).
  { apply Z.bits_inj'. intros n N. rewrite Z.land_spec, Z.pow2_bits_eqb by auto.
    destruct (Z.eqb_spec k n) as [->|D].
    - destruct (Z.testbit v n); cbn [andb]; rewrite ?Z.pow2_bits_true, ?Z.bits_0; auto.
    - cbn [andb]. destruct (Z.testbit v k); rewrite ?Z.pow2_bits_false, ?Z.bits_0; auto. }
  rewrite E. assert (0 < 2 ^ k) by (apply Z.pow_pos_nonneg; lia).
  destruct (Z.testbit v k); lia.
Qed.

Lemma listed_nil l : listed l = EmptyString -> Forall (fun x => x <> EmptyString) l -> l = [].
Proof.
  destruct l as [|x [|y l]]; auto; intros H F; inversion F; subst.
  - cbn [listed] in H. congruence.
  - cbn [listed] in H. destruct x; [congruence|discriminate].
Qed.

Lemma flags_named v : flags_name v = bits_named v.
Proof.
  unfold flags_name, bits_named. rewrite join_listed.
  assert (E : map fst (filter (fun r => negb (Z.land (snd r) v =? 0)) flag_rev)
              = map snd (filter (fun e => Z.testbit v (fst e)) hid_bits)).
  { unfold flag_rev, hid_bits. cbn [filter fst snd].
    replace (negb (Z.land 1 v =? 0)) with (Z.testbit v 0) by (symmetry; apply (land_bit v 0); lia).
    replace (negb (Z.land 2 v =? 0)) with (Z.testbit v 1) by (symmetry; apply (land_bit v 1); lia).
    replace (negb (Z.land 4 v =? 0)) with (Z.testbit v 2) by (symmetry; apply (land_bit v 2); lia).
    replace (negb (Z.land 8 v =? 0)) with (Z.testbit v 3) by (symmetry; apply (land_bit v 3); lia).
    replace (negb (Z.land 16 v =? 0)) with (Z.testbit v 4) by (symmetry; apply (land_bit v 4); lia).
    replace (negb (Z.land 32 v =? 0)) with (Z.testbit v 5) by (symmetry; apply (land_bit v 5); lia).
    replace (negb (Z.land 64 v =? 0)) with (Z.testbit v 6) by (symmetry; apply (land_bit v 6); lia).
    replace (negb (Z.land 128 v =? 0)) with (Z.testbit v 7) by (symmetry; apply (land_bit v 7); lia).
    replace (negb (Z.land 256 v =? 0)) with (Z.testbit v 8) by (symmetry; apply (land_bit v 8); lia).
    destruct (Z.testbit v 0), (Z.testbit v 1), (Z.testbit v 2), (Z.testbit v 3), (Z.testbit v 4), (Z.testbit v 5),
      (Z.testbit v 6), (Z.testbit v 7), (Z.testbit v 8); reflexivity. }
  rewrite E.
  assert (F : Forall (fun x => x <> EmptyString) (map snd (filter (fun e => Z.testbit v (fst e)) hid_bits))).
  { apply Forall_forall. intros x I. apply in_map_iff in I. destruct I as [[k n] [<- I]].
    apply filter_In in I. destruct I as [I _]. cbn [snd]. intros ->.
    assert (T : forallb (fun e => negb (String.eqb (snd e) "")) hid_bits = true) by reflexivity.
    rewrite forallb_forall in T. apply T in I. discriminate I. }
  destruct (filter _ hid_bits) as [|e l]; [reflexivity|].
  destruct (listed (map snd (e :: l))) eqn:L; [|reflexivity].
  exfalso. assert (Q : map snd (e :: l) = []) by (eapply listed_nil; [exact L|exact F]). discriminate Q.
Qed.

Lemma unit_named v : pval_name (usual_unit (VInt v)) = named hid_units v.
Proof.
  unfold usual_unit, named. cbn [py_int].
  assert (E : map (fun e : string * string * Z => (snd e, snd (fst e))) usual_units = hid_units) by (vm_compute; reflexivity).
  rewrite <- E. generalize usual_units. clear E. intros l.
  induction l as [|[[a n] z] l IH]; [reflexivity|]. cbn [map find snd fst].
  destruct (z =? v); [reflexivity|exact IH].
Qed.

Lemma page_named v : pval_name (usage_page v) = named hid_pages v.
Proof.
  unfold usage_page, named. cbn [pval_name]. unfold hid_pages.
  assert (K : pageName v = match find (fun e => fst e =? v) hid_pages with Some (_, n) => Some n | None => None end).
  { destruct (find (fun e => fst e =? v) hid_pages) as [[z n]|] eqn:F.
    - apply find_some in F. destruct F as [I E]. cbn [fst] in E. assert (z = v) by lia. subst z. clear E.
      unfold hid_pages in I. cbn [In] in I.
      repeat (destruct I as [I|I]; [injection I as <- <-; reflexivity|]). destruct I.
    - assert (N : forall z n, In (z, n) hid_pages -> z <> v).
      { intros z n I. pose proof (find_none _ _ F _ I) as Q. cbn [fst] in Q. lia. }
      clear F. destruct v as [|p|p]; try reflexivity.
      assert (N' : forall q, (exists n, In (Zpos q, n) hid_pages) -> q <> p) by (intros q [n I] ->; exact (N _ _ I eq_refl)).
      clear N. cbn [pageName].
      repeat (match goal with |- match ?p with _ => _ end = _ => destruct p as [p|p|] end; try reflexivity).
      all: exfalso; (eapply N'; [|reflexivity]); unfold hid_pages; cbn [In]; eauto 40. }
  fold hid_pages. rewrite K. destruct (find _ hid_pages) as [[z n]|]; reflexivity.
Qed.

Lemma collection_named v : 0 <= v ->
  pval_name (if v <? Z.of_nat (List.length collection_rev) then match py_index collection_rev v with Ok (n, z) => VNamed n z | Err _ => VInt v end else VInt v)
  = named hid_collections v.
Proof.
  intros V. change (Z.of_nat (List.length collection_rev)) with 7.
  destruct (v <? 7) eqn:L.
  - assert (v = 0 \/ v = 1 \/ v = 2 \/ v = 3 \/ v = 4 \/ v = 5 \/ v = 6) as D by lia.
    destruct D as [->|[->|[->|[->|[->|[->| ->]]]]]]; reflexivity.
  - unfold named. destruct (find _ _) as [[z n]|] eqn:F; [|reflexivity].
    apply find_some in F. destruct F as [I E]. cbn [fst] in E. exfalso.
    assert (z = v) by lia. subst z. unfold hid_collections in I. cbn [In] in I.
    repeat (destruct I as [I|I]; [injection I; intros; lia|]). destruct I.
Qed.

Lemma split_after s : after_dot s = match split_dot s with Some (_, r) => Some r | None => None end.
Proof.
  induction s as [|c s IH]; [reflexivity|]. cbn [after_dot split_dot].
  destruct (Ascii.eqb c "."); [reflexivity|]. rewrite IH. destruct (split_dot s) as [[p u]|]; reflexivity.
Qed.

Lemma hexdigit_no_dot d : 0 <= d < 16 -> Ascii.eqb (hexdigit d) "." = false.
Proof.
  intros H.
  assert (D : d = 0 \/ d = 1 \/ d = 2 \/ d = 3 \/ d = 4 \/ d = 5 \/ d = 6 \/ d = 7 \/ d = 8 \/ d = 9
     \/ d = 10 \/ d = 11 \/ d = 12 \/ d = 13 \/ d = 14 \/ d = 15) by lia.
  repeat destruct D as [D|D]; subst d; reflexivity.
Qed.

Lemma hex_digits_no_dot n : forall z acc, split_dot acc = None -> split_dot (hex_digits_fuel n z acc) = None.
Proof.
  induction n as [|n IH]; intros z acc C; auto. cbn [hex_digits_fuel].
  assert (C' : split_dot (String (hexdigit (z mod 16)) acc) = None).
  { cbn [split_dot]. rewrite hexdigit_no_dot by (apply Z.mod_pos_bound; lia). rewrite C. reflexivity. }
  destruct (z / 16 =? 0); auto.
Qed.

Lemma hex_no_dot z : split_dot (hex_of_Z z) = None.
Proof.
  assert (D : forall y, split_dot (hex_digits y) = None) by (intros y; apply hex_digits_no_dot; reflexivity).
  unfold hex_of_Z. destruct (z <? 0); simpl; rewrite D; reflexivity.
Qed.


Lemma item_str_named c x n v : pval_name x = n -> py_int x = v ->
  item_str (Item c x) = (hid_item_name c ++ (if negb (v =? 0)%Z || negb (optional c) then " (" ++ n ++ ")" else ""))%string.
Proof.
  intros <- <-. unfold item_str, ival. cbn [ic iv]. rewrite tag_named.
  destruct (negb (py_int x =? 0) || negb (optional c)); [reflexivity|].
  clear. induction (hid_item_name c) as [|a s IH]; [reflexivity|]. cbn [String.append]. congruence.
Qed.

Lemma init_item c x i : item_init c (Some x) = Ok i -> truthy x = true -> i = Item c x.
Proof. intros H T. unfold item_init in H. rewrite T in H. destruct (_ || _); [|discriminate]. congruence. Qed.

Lemma init_int c v i : item_init c (Some (VInt v)) = Ok i -> i = Item c (VInt v).
Proof.
  intros H. destruct (Z.eq_dec v 0) as [->|D].
  - unfold item_init in H. cbn [truthy] in H. cbn in H. destruct (signed c || _); [|discriminate]. congruence.
  - apply init_item in H; auto. cbn [truthy]. lia.
Qed.

Lemma lookup_named_short db v : 0 <= v < 65536 -> lookup db (VInt v) = VUsage (hex_of_Z v) v [].
Proof. intros H. unfold lookup. rewrite shiftr_16_zero by lia. destruct (v <? 65536) eqn:E; [reflexivity|lia]. Qed.

Lemma lookup_named_long db v : 65536 <= v ->
  pval_name (lookup db (VInt v)) = match db v with Some (n, _) => n | None => hex_of_Z v end.
Proof.
  intros H. unfold lookup. rewrite shiftr_16_zero by lia. destruct (v <? 65536) eqn:E; [lia|].
  cbn [negb]. destruct (db v) as [[n ks]|]; reflexivity.
Qed.

Lemma inpage_named db page v : 0 <= page -> 0 <= v < 65536 ->
  inpage db page v = VNamed (usage_named db page v) v.
Proof.
  intros P V. unfold inpage. rewrite lor_page by auto. unfold usage_named.
  change (2 ^ 16) with 65536. destruct (65536 <=? v) eqn:L; [lia|].
  assert (LD : Z.land (page * 65536 + v) 0xffff = v) by (rewrite land_ffff; lia).
  assert (B : forall x, py_int x = page * 65536 + v -> split_dot (pval_name x) = None ->
              snd (split x) = VNamed (dec_of_Z v) v).
  { intros x X S. unfold split. rewrite S. cbn [snd]. rewrite X, LD. reflexivity. }
  destruct (page =? 0) eqn:P0.
  - apply B; rewrite lookup_named_short by lia; [reflexivity|]. apply hex_no_dot.
  - replace (65536 * page + v) with (page * 65536 + v) by lia.
    unfold lookup. rewrite shiftr_16_zero by lia. destruct (page * 65536 + v <? 65536) eqn:E; [lia|].
    cbn [negb]. destruct (db (page * 65536 + v)) as [[n ks]|] eqn:D.
    + rewrite split_after. unfold split. cbn [pval_name py_int]. destruct (split_dot n) as [[p u]|] eqn:S; cbn [snd]; rewrite LD; reflexivity.
    + apply B; [reflexivity|apply hex_no_dot].
Qed.

Definition the_comment db page c v := comment db page (W c v false).

(** the item delivered for a number, and its comment *)
Lemma step_comment db page c v i page' j :
  0 <= page -> in_range c v -> mk_item db c (Some (VInt v)) = Ok i -> parser_append db page i = (page', Ok j) ->
  item_str j = the_comment db page c v /\ page' = (match c with UsagePage => v | _ => page end).
Proof.
  intros P R H A. unfold in_range, fits in R.
  assert (PLAIN : forall k, c = k -> i = Item k (VInt v) ->
    match k with Input | Output | Feature | Collection | Unit | UsagePage | Usage | UsageMinimum | UsageMaximum => False | _ => True end ->
    item_str j = the_comment db page c v /\ page' = page).
  { intros k -> -> K. assert (J : j = Item k (VInt v) /\ page' = page).
    { destruct k; try destruct K; cbn in A; injection A as <- <-; auto. }
    destruct J as [-> ->]. split; [|reflexivity].
    rewrite (item_str_named k (VInt v) (dec_of_Z v) v eq_refl eq_refl).
    unfold the_comment, comment, number_named. cbn [w_cls w_val].
    destruct k; try destruct K; cbn [optional negb]; rewrite ?orb_true_r; try reflexivity.
    destruct (v =? 0); reflexivity. }
  assert (NAMED : forall k x, c = k -> i = Item k x -> py_int x = v ->
    match k with Input | Output | Feature | Collection | Unit => True | _ => False end ->
    pval_name x = number_named db page (W k v false) ->
    item_str j = the_comment db page c v /\ page' = page).
  { intros k x -> -> X K N. assert (J : j = Item k x /\ page' = page).
    { destruct k; try destruct K; cbn in A; injection A as <- <-; auto. }
    destruct J as [-> ->]. split; [|reflexivity].
    rewrite (item_str_named k x _ v N X).
    unfold the_comment, comment. cbn [w_cls w_val].
    destruct k; try destruct K; cbn [optional negb]; rewrite ?orb_true_r; try reflexivity.
    destruct (v =? 0); reflexivity. }
  assert (USE : is_any_usage c = true -> i = Item c (lookup db (VInt v)) ->
    item_str j = the_comment db page c v /\ page' = page).
  { intros K ->. assert (V : 0 <= v) by (destruct c; try discriminate K; cbn [signed] in R; lia).
    assert (IV : ival (Item c (lookup db (VInt v))) = v) by (unfold ival; cbn [iv]; rewrite lookup_int; reflexivity).
    unfold parser_append in A.
    assert (A' : (if Z.shiftr v 16 =? 0 then (page, mk_item db c (Some (inpage db page v))) else (page, Ok (Item c (lookup db (VInt v))))) = (page', Ok j)).
    { destruct c; try discriminate K; cbn [ic] in A; rewrite IV in A; exact A. }
    clear A. rewrite shiftr_16_zero in A' by auto.
    assert (C : the_comment db page c v = (hid_item_name c ++ " (" ++ usage_named db page v ++ ")")%string)
      by (destruct c; try discriminate K; reflexivity).
    assert (O : optional c = false) by (destruct c; try discriminate K; reflexivity).
    destruct (v <? 65536) eqn:L.
    - injection A' as <- M. split; [|reflexivity]. rewrite inpage_named in M by lia.
      assert (J : j = Item c (VUsage (usage_named db page v) v [])).
      { destruct c; try discriminate K; apply init_item in M; auto. }
      subst j. rewrite (item_str_named c (VUsage (usage_named db page v) v []) (usage_named db page v) v eq_refl eq_refl), O, orb_true_r. rewrite C. reflexivity.
    - injection A' as <- <-. split; [|reflexivity].
      rewrite (item_str_named c (lookup db (VInt v)) _ v (lookup_named_long db v ltac:(lia)) (lookup_int db (VInt v))), O, orb_true_r, C.
      unfold usage_named. change (2 ^ 16) with 65536. destruct (65536 <=? v) eqn:Q; [reflexivity|lia]. }
  assert (ZERO : zero_only c = true -> i = Item c (VInt v)).
  { intros Z0. unfold mk_item in H. destruct c; try discriminate Z0; cbn [py_int] in H;
      (destruct (v =? 0) eqn:V0; [|discriminate]); apply init_int in H; rewrite H; f_equal; f_equal; lia. }
  destruct c; try (apply (PLAIN _ eq_refl); [apply init_int in H; exact H|exact I]);
    try (apply (PLAIN _ eq_refl); [apply ZERO; reflexivity|exact I]);
    try (apply USE; [reflexivity|]; cbn [mk_item lookup_opt bind] in H; apply init_item in H; [exact H|]; clear;
         unfold lookup; destruct (negb _); [|reflexivity]; destruct (db v) as [[? ?]|]; reflexivity).
  1,2,3: apply (NAMED _ (VNamed (flags_name v) v) eq_refl); [apply init_item in H; auto|reflexivity|exact I|apply flags_named].
  - cbn [signed] in R. cbn [mk_item] in H.
    eapply (NAMED _ (if v <? Z.of_nat (List.length collection_rev) then match py_index collection_rev v with Ok (n, z) => VNamed n z | Err _ => VInt v end else VInt v) eq_refl); [| |exact I|apply collection_named; lia].
    + destruct (v <? Z.of_nat (List.length collection_rev)); [|apply init_int; exact H].
      destruct (py_index collection_rev v) as [[n z]|e]; [|discriminate H]. cbn [bind] in H. apply init_item in H; auto.
    + change (Z.of_nat (List.length collection_rev)) with 7. destruct (v <? 7) eqn:L; [|reflexivity].
      assert (v = 0 \/ v = 1 \/ v = 2 \/ v = 3 \/ v = 4 \/ v = 5 \/ v = 6) as D by lia.
      destruct D as [->|[->|[->|[->|[->|[->| ->]]]]]]; reflexivity.
  - apply init_int in H. subst i. unfold parser_append in A. cbn [ic] in A.
    unfold ival in A. cbn [iv py_int] in A.
    destruct (mk_item db UsagePage (Some (usage_page v))) as [i2|e] eqn:M; [|discriminate].
    unfold mk_item in M. apply init_item in M; [|reflexivity]. subst i2. cbn [ic] in A. injection A as <- <-.
    split; [|reflexivity]. rewrite (item_str_named UsagePage _ _ v (page_named v) eq_refl), orb_true_r. reflexivity.
  - cbn [mk_item] in H. pose proof (unit_named v) as U.
    assert (X : py_int (usual_unit (VInt v)) = v).
    { unfold usual_unit. cbn [py_int]. destruct (find _ _) as [[[a n] z]|] eqn:F; [|reflexivity].
      apply find_some in F. destruct F as [_ E]. cbn [snd] in E. cbn [py_int]. lia. }
    apply (NAMED _ (usual_unit (VInt v)) eq_refl); [|exact X|exact I|exact U].
    unfold usual_unit in H |- *. destruct (find _ usual_units) as [[[a n] z]|]; [apply init_item in H; auto|apply init_int; exact H].
Qed.

Fixpoint comments (db : udb) (page : Z) (ws : list witem) : list string :=
  match ws with
  | [] => []
  | w :: r => comment db page w :: comments db (match w_cls w with UsagePage => w_val w | _ => page end) r
  end.

Lemma comment_ext db page w : comment db page w = the_comment db page (w_cls w) (w_val w).
Proof. destruct w as [c v e]. reflexivity. Qed.

Lemma parse_comments db b raws : short_items b raws -> forall ws page l,
  map interp_raw raws = map Some ws -> 0 <= page -> parse_from db page b = Run l (Ok tt) ->
  map item_str l = comments db page ws /\ map ic l = map w_cls ws.
Proof.
  induction 1 as [|p data rest raws Hp HF HL HS IH]; intros ws page l E P R.
  - destruct ws; [|discriminate]. rewrite parse_from_nil in R. injection R as <-. auto.
  - destruct ws as [|w ws]; [discriminate|]. cbn [map] in E. injection E as E1 E2.
    rewrite parse_from_cons in R. cbv zeta in R.
    rewrite <- HL, firstn_app, firstn_all, Nat.sub_diag, skipn_app, skipn_all, Nat.sub_diag in R.
    cbn [firstn skipn] in R. rewrite app_nil_r, app_nil_l in R.
    rewrite parse_complete in R by auto.
    unfold interp_raw in E1. cbn [r_type r_tag r_data] in E1.
    destruct (hid_class _ _) as [c|] eqn:HC; [|discriminate].
    change (if hid_signed c then signed_le data else unsigned_le data) with (decode (signed c) data) in E1.
    assert (RG : in_range c (decode (signed c) data)).
    { set (r := Raw ((p / 4) mod 4) (p / 16) data).
      assert (S1 : short_items (p :: data ++ []) [r]) by (constructor; auto; constructor).
      pose proof (raw_decode_range _ _ S1 r (W c (decode (signed c) data) (Nat.eqb (List.length data) 4)) (or_introl eq_refl)) as Q.
      apply Q. unfold interp_raw, r. cbn [r_type r_tag r_data]. rewrite HC. reflexivity. }
    injection E1 as <-. cbn [comments map w_cls w_val].
    destruct (mk_item db c (Some (VInt (decode (signed c) data)))) as [i|e] eqn:MK; [|discriminate].
    destruct (parser_append db page i) as [page' [j|e]] eqn:PA; [|discriminate].
    destruct (step_comment db page c _ i page' j P RG MK PA) as [C1 C2].
    assert (IJ : ic j = c).
    { pose proof (mk_item_class _ _ _ _ MK) as K. destruct (parser_append_ok db page i (mk_item_constructed _ _ _ _ MK)) as [j' [J1 [J2 _]]].
      rewrite PA in J1. injection J1 as _ ->. congruence. }
    destruct (parse_from db page' rest) as [l' f] eqn:RR. cbn [appended finished] in R. injection R as <- ->.
    assert (P' : 0 <= page').
    { rewrite C2. destruct c; auto. destruct RG as [RG _]. exact RG. }
    destruct (IH ws page' l' E2 P' RR) as [I1 I2]. cbn [map]. rewrite I1, I2, C1, IJ, C2. auto.
Qed.

Lemma comments_nth db ws : forall page k w, nth_error ws k = Some w ->
  nth_error (comments db page ws) k = Some (comment db (last_page page (firstn k ws)) w).
Proof.
  induction ws as [|x ws IH]; intros page k w H; [destruct k; discriminate|].
  destruct k as [|k]; cbn [nth_error comments firstn last_page] in *; [congruence|]. apply IH. exact H.
Qed.

Lemma open_after_ok l : forall ws, map ic l = map w_cls ws -> open_after ws = Z.of_nat (opens l) - Z.of_nat (closes l).
Proof.
  induction l as [|i l IH]; intros [|w ws] M; try discriminate; [reflexivity|].
  cbn [map] in M. injection M as M1 M2. cbn [open_after]. rewrite (IH ws M2). rewrite <- M1.
  unfold opens, closes. cbn [map count_occ].
  destruct (icls_eq_dec (ic i) Collection) as [E|E], (icls_eq_dec (ic i) EndCollection) as [E'|E'];
    try congruence.
  - rewrite E. lia.
  - rewrite E'. lia.
  - destruct (ic i); try congruence; lia.
Qed.

Lemma c73 db b ws : blob_means b ws -> finished (blob_parse db b) = Ok tt ->
  exists lines, format_code (appended (blob_parse db b)) = Ok (concat lines) /\ List.length lines = List.length ws /\
    forall k w, nth_error ws k = Some w ->
      exists p, ~ In slash p /\
        nth_error lines k = Some (p ++ str "// "
          ++ repeat " "%char (Z.to_nat (4 * open_around (firstn k ws) w))
          ++ str (comment db (last_page 0 (firstn k ws)) w) ++ [nl]).
Proof.
  intros B F. destruct (blob_parse db b) as [l f] eqn:R. cbn [finished appended] in *. subst f.
  destruct B as [raws [S E]]. rewrite blob_parse_from in R.
  destruct (parse_comments db b raws S ws 0 l E ltac:(lia) R) as [C K].
  assert (T : exists t, format_code l = Ok t).
  { assert (FB := short_items_bytes _ _ S).
    destruct (parse_ok_means db 0 b l FB R) as [ws' [B' [_ M]]].
    destruct (serialize_ok l (delivered_range b ws' l B' M)) as [o O].
    clear - O. unfold format_code. generalize 0 at 1. revert o O. induction l as [|i l IH]; intros o O n; cbn [code_run]; [eexists; reflexivity|].
    cbn [serialize] in O. unfold code_append. destruct (bytes i) as [bi|]; [|discriminate]. cbn [bind] in *.
    destruct (serialize l) as [s|]; [|discriminate].
    match goal with |- context [code_run ?m l] => destruct (IH _ eq_refl m) as [t T]; destruct (code_run m l) as [[m' ls]|]; [|discriminate T] end.
    cbn [bind]. eauto. }
  destruct T as [t T]. destruct (c12 l t T) as [lines [-> [LL L]]].
  assert (LEN : List.length l = List.length ws) by (rewrite <- (map_length ic l), K; apply map_length).
  exists lines. split; [exact T|]. split; [congruence|].
  intros k w N.
  assert (NI : exists i, nth_error l k = Some i).
  { destruct (nth_error l k) eqn:Q; [eauto|]. apply nth_error_None in Q. assert (Q2 : nth_error ws k <> None) by congruence. apply nth_error_Some in Q2. lia. }
  destruct NI as [i NI]. destruct (L k i NI) as [p [P1 P2]]. exists p. split; [exact P1|]. rewrite P2.
  assert (IC : ic i = w_cls w).
  { pose proof (map_nth_error ic k l NI) as Q1. rewrite K in Q1. rewrite (map_nth_error w_cls k ws N) in Q1. congruence. }
  assert (IS : item_str i = comment db (last_page 0 (firstn k ws)) w).
  { pose proof (map_nth_error item_str k l NI) as Q1. rewrite C in Q1. rewrite (comments_nth db ws 0 k w N) in Q1. congruence. }
  assert (EN : enclosing (firstn k l) i = open_around (firstn k ws) w).
  { unfold enclosing, open_around. rewrite (open_after_ok (firstn k l) (firstn k ws)) by (rewrite <- !firstn_map; congruence).
    rewrite <- IC. destruct (icls_eq_dec (ic i) EndCollection) as [Q|Q]; [rewrite Q; reflexivity|]. destruct (ic i); try reflexivity. congruence. }
  rewrite IS, EN. reflexivity.
Qed.

Lemma page_no_pop l : forall page saved, (forall w, In w l -> w_cls w <> Pop) -> page_from page saved l = last_page page l.
Proof.
  induction l as [|w l IH]; intros page saved N; [reflexivity|]. cbn [page_from last_page].
  assert (N' : forall w, In w l -> w_cls w <> Pop) by (intros x I; apply N; right; exact I).
  pose proof (N w (or_introl eq_refl)) as NW. destruct (w_cls w); try congruence; apply IH; exact N'.
Qed.

Lemma c73_partial db b ws : blob_means b ws -> finished (blob_parse db b) = Ok tt -> (forall w, In w ws -> w_cls w <> Pop) ->
  exists lines, format_code (appended (blob_parse db b)) = Ok (concat lines) /\ List.length lines = List.length ws /\
    forall k w, nth_error ws k = Some w ->
      exists p, ~ In slash p /\
        nth_error lines k = Some (p ++ str "// "
          ++ repeat " "%char (Z.to_nat (4 * open_around (firstn k ws) w))
          ++ str (comment db (page_in_force (firstn k ws)) w) ++ [nl]).
Proof.
  intros B F N. destruct (c73 db b ws B F) as [lines [E [L K]]]. exists lines. split; [exact E|]. split; [exact L|].
  intros k w H. destruct (K k w H) as [p [P Q]]. exists p. split; [exact P|]. unfold page_in_force.
  rewrite page_no_pop; [exact Q|]. intros x I. apply N. rewrite <- (firstn_skipn k ws). apply in_or_app. left. exact I.
Qed.

(** comments tell items apart *)

Fixpoint cut (s : string) : string * string :=
  match s with
  | EmptyString => (EmptyString, EmptyString)
  | String c r => if Ascii.eqb c " " then (EmptyString, s) else let (a, b) := cut r in (String c a, b)
  end.

Lemma cut_name c r : cut (hid_item_name c ++ String " " r) = (hid_item_name c, String " " r).
Proof. destruct c; reflexivity. Qed.
Lemma cut_bare c : cut (hid_item_name c ++ "") = (hid_item_name c, EmptyString).
Proof. destruct c; reflexivity. Qed.


Lemma name_inj c d : hid_item_name c = hid_item_name d -> c = d.
Proof.
  assert (G : forall c, find (fun k => String.eqb (hid_item_name k) (hid_item_name c)) registry = Some c) by (intros []; reflexivity).
  intros H. pose proof (G c) as A. rewrite H, G in A. congruence.
Qed.

Lemma paren_inj a b : (a ++ ")" = b ++ ")")%string -> a = b.
Proof.
  revert b. induction a as [|x a IH]; intros [|y b] H; cbn [String.append] in H; auto.
  - injection H as <- H. destruct b; discriminate H.
  - injection H as -> H. destruct a; discriminate H.
  - injection H as <- H. f_equal. auto.
Qed.

(** neither a digit nor a sign *)
Definition letter (c : ascii) : bool :=
  let z := Z.of_nat (nat_of_ascii c) in negb ((48 <=? z) && (z <=? 57) || (z =? 45))%Z.
Definition head_letter (s : string) : bool := match s with String c _ => letter c | EmptyString => false end.

Lemma dec_head v : head_letter (dec_of_Z v) = false.
Proof.
  unfold dec_of_Z. destruct (Z.to_int v) as [u|u]; [destruct u; reflexivity|reflexivity].
Qed.

Lemma dec_inj a b : dec_of_Z a = dec_of_Z b -> a = b.
Proof.
  unfold dec_of_Z. intros H.
  assert (G : forall z, DecimalString.NilZero.int_of_string (DecimalString.NilZero.string_of_int (Z.to_int z)) = Some (Z.to_int z)).
  { intros z. apply DecimalString.NilZero.isi. 1,2: destruct z; cbn [Z.to_int]; intros Q; try discriminate Q; injection Q as Q; exact (DecimalPos.Unsigned.to_uint_nonnil p Q). }
  pose proof (G a) as A. rewrite H, G in A. injection A as A. rewrite <- (DecimalZ.of_to a), <- (DecimalZ.of_to b), A. reflexivity.
Qed.

(** tables without repeated names, all of them words *)
Definition fine (table : list (Z * string)) : bool :=
  forallb (fun e => head_letter (snd e) && forallb (fun f => negb (String.eqb (snd e) (snd f)) || (fst e =? fst f)) table) table.

Lemma fine_inj table a b : fine table = true -> named table a = named table b -> a = b.
Proof.
  intros F H. unfold fine in F. rewrite forallb_forall in F. unfold named in H.
  destruct (find (fun e => fst e =? a) table) as [[x n]|] eqn:A, (find (fun e => fst e =? b) table) as [[y m]|] eqn:B.
  - apply find_some in A, B. destruct A as [A1 A2], B as [B1 B2]. cbn [fst] in *. subst m.
    specialize (F _ A1). apply andb_true_iff in F. destruct F as [_ F]. rewrite forallb_forall in F. specialize (F _ B1).
    cbn [fst snd] in F. rewrite String.eqb_refl in F. cbn [negb orb] in F. lia.
  - apply find_some in A. destruct A as [A1 _]. specialize (F _ A1). apply andb_true_iff in F. destruct F as [F _].
    cbn [snd] in F. rewrite H, dec_head in F. discriminate.
  - apply find_some in B. destruct B as [A1 _]. specialize (F _ A1). apply andb_true_iff in F. destruct F as [F _].
    cbn [snd] in F. rewrite <- H, dec_head in F. discriminate.
  - apply dec_inj. exact H.
Qed.

Lemma bits_inj_all : forallb (fun a => match find (fun b => String.eqb (bits_named b) (bits_named a)) (zrange 0 512) with
                                       | Some b => b =? a | None => false end) (zrange 0 512) = true.
Proof. vm_compute. reflexivity. Qed.

Lemma bits_inj a b : 0 <= a < 512 -> 0 <= b < 512 -> bits_named a = bits_named b -> a = b.
Proof.
  intros A B H. pose proof bits_inj_all as K. rewrite forallb_forall in K.
  assert (I : forall z, 0 <= z < 512 -> In z (zrange 0 512)).
  { intros z Q. unfold zrange. apply in_map_iff. exists (Z.to_nat z). split; [lia|]. apply in_seq. lia. }
  pose proof (K a (I a A)) as KA. pose proof (K b (I b B)) as KB. rewrite H in KA.
  destruct (find _ _) as [c|]; [|discriminate]. lia.
Qed.

Lemma c73_apart db p q w1 w2 :
  is_any_usage (w_cls w1) = false -> nine_bits w1 -> nine_bits w2 ->
  comment db p w1 = comment db q w2 -> w_what w1 = w_what w2.
Proof.
  destruct w1 as [c v e], w2 as [d u g]. intros U N1 N2 H. unfold w_what. cbn [w_cls w_val] in *.
  unfold comment in H. cbn [w_cls w_val] in H.
  set (n1 := number_named db p (W c v e)) in *. set (n2 := number_named db q (W d u g)) in *.
  assert (X : forall k z n, exists r, (match k with
      | Input | EndCollection => if z =? 0 then ""%string else (" (" ++ n ++ ")")%string
      | _ => (" (" ++ n ++ ")")%string end) = r /\ (r = EmptyString /\ z = 0 /\ (k = Input \/ k = EndCollection) \/
                r = (" (" ++ n ++ ")")%string /\ (z <> 0 \/ k <> Input /\ k <> EndCollection))).
  { intros k z n. eexists. split; [reflexivity|].
    destruct k; try (right; split; [reflexivity|right; split; discriminate]);
      (destruct (z =? 0) eqn:Z0; [left|right]; (split; [reflexivity|]); [split; [lia|auto]|left; lia]). }
  destruct (X c v n1) as [r1 [E1 D1]], (X d u n2) as [r2 [E2 D2]]. rewrite E1, E2 in H. clear X E1 E2.
  assert (CD : c = d /\ r1 = r2).
  { assert (CUT : forall k r, r = EmptyString \/ (exists t, r = String " " t) -> cut (hid_item_name k ++ r) = (hid_item_name k, r)).
    { intros k r [->|[t ->]]; [apply cut_bare|apply cut_name]. }
    assert (S1 : r1 = EmptyString \/ exists t, r1 = String " " t) by (destruct D1 as [[-> _]|[-> _]]; [left; reflexivity|right; eexists; reflexivity]).
    assert (S2 : r2 = EmptyString \/ exists t, r2 = String " " t) by (destruct D2 as [[-> _]|[-> _]]; [left; reflexivity|right; eexists; reflexivity]).
    pose proof (CUT c r1 S1) as C1. rewrite H, (CUT d r2 S2) in C1. injection C1 as C1 ->. split; [|reflexivity]. apply name_inj. congruence. }
  destruct CD as [<- <-]. f_equal.
  destruct D1 as [[-> [V1 _]]|[-> _]], D2 as [[Q [V2 _]]|[Q _]]; try discriminate Q; [lia|].
  cbn [String.append] in Q. injection Q as Q. apply paren_inj in Q. subst n1 n2. unfold number_named in Q. cbn [w_cls w_val] in Q.
  unfold nine_bits in N1, N2. cbn [w_cls w_val] in N1, N2.
  destruct c; try discriminate U; try (apply dec_inj; exact Q);
    try (apply bits_inj; [apply N1|apply N2|exact Q]; auto);
    (eapply fine_inj; [|exact Q]; vm_compute; reflexivity).
Qed.
