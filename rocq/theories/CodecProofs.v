(* CodecProofs.v -- proofs of the properties of the item codec, the binary
   parser and the converter *)
From Coq Require Import ZifyBool ZifyNat.
From Verif Require Import Py Usage Item Parser HidSpec Spec ItemFacts ParserFacts.
Ltac Zify.zify_post_hook ::= Z.div_mod_to_equations.

Lemma in_32_range c z : in_32_bits c z <-> in_range c z.
Proof.
  unfold in_32_bits, in_range, fits. rewrite <- signed_hid.
  change (2 ^ (8 * Z.of_nat 4 - 1)) with (2 ^ 31). change (2 ^ (8 * Z.of_nat 4)) with (2 ^ 32).
  tauto.
Qed.

Lemma number_allowed_zero w :
  number_allowed w <-> (zero_only (w_cls w) = true -> w_val w = 0).
Proof.
  unfold number_allowed, no_number. destruct (w_cls w); simpl;
    intuition (try discriminate; auto).
Qed.

Lemma allowed_forall ws :
  Forall number_allowed ws <-> Forall (fun w => zero_only (w_cls w) = true -> w_val w = 0) ws.
Proof.
  split; intros F; eapply Forall_impl; try exact F; intros w; apply number_allowed_zero.
Qed.

Lemma known_acceptable r : known_item r <-> acceptable r.
Proof.
  unfold known_item, acceptable. split; intros [w [H1 H2]]; exists w; split; auto;
    apply number_allowed_zero; auto.
Qed.

Lemma c01 db db' c v i :
  mk_item db c v = Ok i -> in_32_bits c (ival i) ->
  exists b j, bytes i = Ok b /\ parse db' b = Ok j /\ item_eqb j i = true.
Proof.
  intros M R. apply in_32_range in R. pose proof (mk_item_class _ _ _ _ M) as C.
  rewrite <- C in R.
  eexists. destruct (reparse_ok db' i (mk_item_constructed _ _ _ _ M)) as [j [Hj [J1 [J2 _]]]].
  exists j. split; [apply bytes_eq; auto|]. split.
  - rewrite (parse_bytes db' i _ (bytes_eq i R)). auto.
  - apply item_eqb_spec. auto.
Qed.

Lemma c02 i : (exists b, bytes i = Ok b) <-> in_32_bits (ic i) (ival i).
Proof. rewrite in_32_range. apply bytes_with_iff, log2_good. Qed.

Lemma c02_log f i :
  (forall m, 0 < m -> 0 <= f m) ->
  (forall m, 0 < m < 2 ^ 32 ->
    (f m < 7 <-> m < 2 ^ 7) /\ (f m < 8 <-> m < 2 ^ 8)
    /\ (f m < 15 <-> m < 2 ^ 15) /\ (f m < 16 <-> m < 2 ^ 16)) ->
  match bytes i, bytes_with f i with
  | Ok b, Ok b' => b = b'
  | Err _, Err _ => True
  | _, _ => False
  end.
Proof.
  intros G1 G2. assert (G : good_log f) by (split; auto).
  destruct (bytes i) as [b|e] eqn:B.
  - assert (R : in_range (ic i) (ival i)).
    { eapply bytes_with_range; [|exact B]. intros; apply Z.log2_nonneg. }
    rewrite (bytes_eq i R) in B. rewrite (bytes_with_eq f i G R). congruence.
  - destruct (bytes_with f i) as [b|e'] eqn:B'; auto.
    pose proof (bytes_with_range f i b G1 B') as R. rewrite (bytes_eq i R) in B. discriminate.
Qed.

Lemma decode_payload c data : payload_value c data = decode (signed c) data.
Proof. reflexivity. Qed.

Lemma c03 i b :
  constructed i -> bytes i = Ok b ->
  (length (tl b) = 0%nat <-> ic i = EndCollection)
  /\ payload_value (ic i) (tl b) = ival i
  /\ (length (tl b) = 0 \/ length (tl b) = 1 \/ length (tl b) = 2 \/ length (tl b) = 4)%nat
  /\ forall q, Forall is_byte q -> (1 <= length q < length (tl b))%nat ->
       (length q = 1 \/ length q = 2)%nat ->
       payload_value (ic i) q <> ival i.
Proof.
  intros C B.
  assert (R : in_range (ic i) (ival i)).
  { eapply bytes_with_range; [|exact B]. intros; apply Z.log2_nonneg. }
  rewrite (bytes_eq i R) in B. injection B as <-. cbn [tl].
  rewrite le_bytes_length, decode_payload, decode_encode;
    [|apply payload_sizes|apply payload_fits; auto].
  split; [|split; [auto|split; [apply payload_sizes|]]].
  - pose proof (constructed_facts i C) as [_ [Z0 [IN TR]]].
    unfold payload_width, empty_payload.
    split.
    + destruct (optional (ic i) && negb (truthy (iv i)) && (ival i =? 0)) eqn:E.
      * intros _. destruct (ic i) eqn:CI; simpl in E; try discriminate; auto.
        rewrite IN in E by auto. discriminate.
      * unfold width. destruct (fitsb _ 1 _); [discriminate|].
        destruct (fitsb _ 2 _); discriminate.
    + intros CI.
      assert (T : iv i = VInt 0).
      { destruct C as [db [v H]]. rewrite CI in H. simpl in H.
        destruct v as [v|]; [|discriminate]. destruct (py_int v =? 0); [|discriminate].
        unfold item_init in H. simpl in H. inversion H. reflexivity. }
      unfold ival. rewrite CI, T. reflexivity.
  - intros q Fq L D E. rewrite decode_payload in E.
    assert (F : fits (signed (ic i)) (length q) (ival i)).
    { rewrite <- E. apply decode_fits; auto. lia. }
    apply fitsb_fits in F; [|lia].
    unfold payload_width, width in L.
    destruct (empty_payload i); [lia|].
    destruct D as [D|D]; rewrite D in *.
    + rewrite F in L. lia.
    + destruct (fitsb _ 1 _) in L; [lia|]. rewrite F in L. lia.
Qed.

Lemma c04 i b :
  bytes i = Ok b -> blob_means b [W (ic i) (ival i) (Nat.eqb (length b) 5)].
Proof.
  intros B. pose proof (bytes_means i b B) as M. unfold wire in M.
  assert (R : in_range (ic i) (ival i)).
  { eapply bytes_with_range; [|exact B]. intros; apply Z.log2_nonneg. }
  rewrite (bytes_eq i R) in B. injection B as <-.
  cbn [length]. rewrite le_bytes_length. exact M.
Qed.

Lemma forall2_same l l' : map cv l = map cv l' -> Forall2 (fun i j => item_eqb i j = true) l l'.
Proof.
  revert l'. induction l as [|i l IH]; intros [|j l'] H; simpl in *; try discriminate; constructor.
  - injection H as H1 H2 H3. apply item_eqb_spec. auto.
  - injection H as H1 H2 H3. auto.
Qed.

Lemma constructed_zero l :
  Forall constructed l ->
  Forall (fun w => zero_only (w_cls w) = true -> w_val w = 0) (map wire l).
Proof.
  induction 1 as [|i l C _ IH]; simpl; constructor; auto. simpl.
  apply (constructed_facts i C).
Qed.

Lemma c05 db l b :
  Forall constructed l -> serialize l = Ok b ->
  exists l', blob_parse db b = Run l' (Ok tt)
             /\ Forall2 (fun i j => item_eqb i j = true) l' l.
Proof.
  intros C S. pose proof (serialize_means l b S) as M.
  destruct (parse_good db 0 b _ M (constructed_zero l C)) as [l' [P [E _]]].
  exists l'. split; auto. apply forall2_same. rewrite E. apply wire_cv.
Qed.

Lemma c06 db b :
  Forall is_byte b ->
  (finished (blob_parse db b) = Ok tt <->
   exists ws, blob_means b ws /\ Forall number_allowed ws)
  /\ forall ws, blob_means b ws -> Forall number_allowed ws ->
       map (fun i => (ic i, ival i)) (appended (blob_parse db b)) = map w_what ws.
Proof.
  intros FB. split; [split|].
  - intros H. destruct (blob_parse db b) as [l f] eqn:P. simpl in H. subst f.
    rewrite blob_parse_from in P.
    destruct (parse_ok_means db 0 b l FB P) as [ws [B [F M]]].
    exists ws. split; auto. apply allowed_forall; auto.
  - intros [ws [B F]]. apply allowed_forall in F.
    destruct (parse_good db 0 b ws B F) as [l [P _]]. rewrite blob_parse_from, P. auto.
  - intros ws B F. apply allowed_forall in F.
    destruct (parse_good db 0 b ws B F) as [l [P [M _]]]. rewrite blob_parse_from, P. exact M.
Qed.

Lemma c07 db good ws p t :
  blob_means good ws -> Forall number_allowed ws ->
  is_byte p -> Forall is_byte t ->
  (forall data rest, t = data ++ rest -> length data = size_of_code (p mod 4) ->
     ~ known_item (Raw ((p / 4) mod 4) (p / 16) data)) ->
  exists l e, blob_parse db (good ++ p :: t) = Run l (Err e)
              /\ map (fun i => (ic i, ival i)) l = map w_what ws.
Proof.
  intros B F Hp Ft N. apply allowed_forall in F. rewrite blob_parse_from.
  apply parse_bad with (page := 0); auto. apply parse_bad_front; auto.
  intros data rest E L A. apply (N data rest E L). apply known_acceptable; auto.
Qed.

Lemma c07_exhaustive b :
  Forall is_byte b ->
  (exists ws, blob_means b ws /\ Forall number_allowed ws) \/
  exists good ws p t, b = good ++ p :: t /\ blob_means good ws /\ Forall number_allowed ws
    /\ is_byte p /\ Forall is_byte t
    /\ forall data rest, t = data ++ rest -> length data = size_of_code (p mod 4) ->
         ~ known_item (Raw ((p / 4) mod 4) (p / 16) data).
Proof.
  intros FB. destruct (blob_dichotomy empty_db b FB) as [raws [good [bad [E [S [A D]]]]]].
  destruct (acceptable_means raws A) as [ws [EW FW]]. apply allowed_forall in FW.
  destruct D as [->|[D1 D2]].
  - left. exists ws. rewrite app_nil_r in E. subst. split; auto. exists raws; auto.
  - right. destruct bad as [|p t].
    { destruct (D1 0) as [e De]. rewrite parse_from_nil in De. discriminate. }
    rewrite E in FB. apply Forall_app in FB. destruct FB as [_ FB]. inversion FB; subst.
    exists good, ws, p, t. split; auto. split; [exists raws; auto|]. split; auto. split; auto.
    split; auto.
    intros data rest -> L K. apply known_acceptable in K.
    inversion FB as [|? ? Hp Ft]. subst. apply Forall_app in Ft.
    (* the parser accepts it: contradiction *)
    destruct (proj1 (parse_item_iff empty_db p data Hp (proj1 Ft) L) K) as [i [Hi [_ Hc]]].
    destruct (D1 0) as [e De]. rewrite parse_from_cons in De. cbv zeta in De.
    rewrite <- L, firstn_app, firstn_all, Nat.sub_diag in De. cbn [firstn] in De.
    rewrite app_nil_r, Hi in De.
    destruct (parser_append_ok empty_db 0 i Hc) as [j [Hj _]]. rewrite Hj in De. discriminate.
Qed.

Lemma c08 db b out :
  Forall is_byte b -> convert db b = Ok out ->
  blob_parse db out = blob_parse db b /\ convert db out = Ok out.
Proof. intros F H. split; [eapply convert_reparse | eapply convert_idem]; eauto. Qed.

Lemma c08_total db b :
  Forall is_byte b ->
  (exists out, convert db b = Ok out) <-> finished (blob_parse db b) = Ok tt.
Proof.
  intros F. split.
  - intros [out H]. unfold convert in H. destruct (serialize _); [|discriminate]. simpl in H.
    destruct (finished (blob_parse db b)) as [[]|]; auto; discriminate.
  - intros H. apply (proj1 (c06 db b F)) in H. destruct H as [ws [B A]].
    apply allowed_forall in A. eapply convert_succeeds; eauto.
Qed.

Lemma c09_partial m db b ws out :
  blob_means b ws -> Forall long_form_needed ws -> convert db b = Ok out ->
  host_reads m out (host_view m ws).
Proof.
  intros B X H.
  assert (FB : Forall is_byte b) by (destruct B as [raws [S _]]; eapply short_items_bytes; eauto).
  destruct (convert_inv db b out FB H) as [l [ws' [P [S [B' [O [M F]]]]]]].
  rewrite <- (blob_means_fun b ws ws' B B') in M.
  exists (map wire l). split; auto. symmetry. apply host_view_same.
  apply wire_same with (b := b); auto.
  eapply Forall_impl; [|exact X]. intros w. unfold long_form_needed, ext_sound.
  change (2 ^ 16) with 65536. intros Hw U. apply Hw. destruct (w_cls w); simpl in U; auto; discriminate.
Qed.

Lemma wire_shortest b ws l : blob_means b ws -> map cv l = map wcv ws -> Forall2 same_wire (map wire l) (map shortest ws).
Proof.
  intros [raws [S E]] M.
  assert (K : forall w, In w ws -> is_usage_cls (w_cls w) = true -> 0 <= w_val w).
  { intros w I U. assert (I2 : In (Some w) (map interp_raw raws)) by (rewrite E; apply in_map; auto).
    apply in_map_iff in I2. destruct I2 as [r [Hr I2]]. apply (short_ext b raws S r w I2 Hr U). }
  clear S E. revert ws M K.
  induction l as [|i l IH]; intros [|w ws] M K; try discriminate M; cbn [map] in *; constructor; [|injection M as _ _ M3; apply IH; auto; intros w' I; apply K; right; exact I].
  injection M as M1 M2 _. unfold shortest, wire, same_wire. specialize (K w (or_introl eq_refl)).
  destruct (is_usage_cls (w_cls w)) eqn:U.
  - assert (EX : Nat.eqb (payload_width i) 4 = (2 ^ 16 <=? w_val w)).
    { rewrite <- M2. apply payload_width_4; [|rewrite M2; auto]. rewrite M1. destruct (w_cls w); try discriminate U; reflexivity. }
    rewrite EX, M1, M2. destruct (w_cls w); try discriminate U; cbn [w_cls w_val w_ext]; auto.
  - cbn [w_cls w_val w_ext]. rewrite M1, M2.
    destruct (w_cls w) eqn:EC; try discriminate U; cbn [w_cls w_val w_ext]; rewrite ?EC; repeat split; intros Q; discriminate Q.
Qed.

Lemma c09_always m db b ws out : blob_means b ws -> convert db b = Ok out -> host_reads m out (host_view m (map shortest ws)).
Proof.
  intros B H.
  assert (FB : Forall is_byte b) by (destruct B as [raws [S _]]; eapply short_items_bytes; eauto).
  destruct (convert_inv db b out FB H) as [l [ws' [P [S [B' [O [M F]]]]]]].
  rewrite <- (blob_means_fun b ws ws' B B') in M.
  exists (map wire l). split; auto. symmetry. apply host_view_same. eapply wire_shortest; eauto.
Qed.

Lemma c15_keep db c v i :
  (forall z, c = Collection -> v = VInt z -> 0 <= z) ->
  mk_item db c (Some v) = Ok i -> ic i = c /\ ival i = py_int v.
Proof.
  intros N H. split; [eapply mk_item_class; eauto|]. eapply mk_item_int; eauto.
  destruct c; simpl; auto. destruct v as [z| |]; auto. specialize (N z eq_refl eq_refl). lia.
Qed.

Lemma c15_reject db c v :
  (forall z, c = Collection -> v = VInt z -> 0 <= z) ->
  (exists i, mk_item db c (Some v) = Ok i) <->
  (hid_signed c = true \/ 0 <= py_int v) /\ (no_number c -> py_int v = 0).
Proof.
  intros N. rewrite mk_item_accepts.
  - rewrite signed_hid. unfold no_number.
    destruct c; simpl; intuition (try discriminate; auto).
  - destruct c; simpl; auto. destruct v as [z| |]; auto. specialize (N z eq_refl eq_refl). lia.
Qed.

Lemma c15_none db c i : mk_item db c None = Ok i -> ic i = c /\ ival i = 0.
Proof.
  intros H. split; [eapply mk_item_class; eauto|].
  unfold mk_item in H. destruct c; cbn [lookup_opt bind] in H; try discriminate;
    apply item_init_ok in H; tauto.
Qed.
